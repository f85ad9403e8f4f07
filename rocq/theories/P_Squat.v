(** Who creates a pair decides, forever, who may start it (C77). *)
From Verif Require Import Base BigNumber CwStd BigNumberFacts Asset Messages PairMath Pair PairFacts Token Factory Router
  SwapFacts SwapFacts2 P_Swap P_Pair FactoryFacts P_Factory P_Router TokenFacts World WorldInd WorldFacts WorldInv WorldInd2
  Examples WorldExamples P_Ledger P_Registry ExecFacts P_Exec P_Value P_Create P_First.
From Coq Require Import ZifyN.
Local Open Scope N_scope.
Ltac Zify.zify_post_hook ::= idtac.

Lemma self_inv C w p st i0 i1 p' lp d0 d1 reqs : chain_ok C -> insts_fresh C w -> pair_at w p st ->
  ask_pair_self C w p = Ok (PairInfo (i0, i1) p' lp (d0, d1) reqs) ->
  assets_are C st i0 i1 /\ human (ch_api C) (r_liquidity_token st) = Some lp /\ r_requirements st = reqs.
Proof.
  intros OK F Hp H. unfold ask_pair_self, contract_at in H. pose proof Hp as Hi. apply state_at_inst in Hi as (ad & Hi).
  rewrite (inst_norm C OK w p _ F Hi) in H. cbn [oget rbind] in H. rewrite Hi in H. cbn [oget rbind i_state] in H.
  unfold pair_query_pair, pair_to_normal in H. apply rbind_ok in H as (l & Hl & H). apply rbind_ok in H as (c & _ & H).
  apply rbind_ok in H as (j0 & H0 & H). apply rbind_ok in H as (j1 & H1 & H). injection H as -> -> _ -> _ <-.
  split; [split; apply named_normal; assumption|]. split; [|reflexivity]. unfold addr_humanize in Hl. destruct (human _ _); [|discriminate]. injection Hl as ->. reflexivity.
Qed.

(** C77: once an account has created a pair of [i0] and [i1] with requirements
    [reqs], then in every later state the factory still answers with that pair
    for both orders, nobody can create another one, and LP tokens exist only if
    somebody on the whitelist of [reqs] has made the first deposit. *)
Theorem C77_creator_decides C w f fs s i0 i1 reqs w' lg lg' w'' : chain_ok C -> reachable C w -> fac_at w f fs ->
  ch_codes C (f_pair_code fs) = Some CPair -> ch_codes C (f_token_code fs) = Some CToken -> live w i0 -> live w i1 ->
  tx C w s (MExecute f (JCreatePair (i0, i1) reqs) []) w' lg -> history C w' lg' w'' ->
  exists p lp d0 d1, let pi := PairInfo (i0, i1) p lp (d0, d1) reqs in
  w_insts w !! p = None /\
  ask_pair_info C w'' f (i0, i1) = Ok pi /\ ask_pair_info C w'' f (i1, i0) = Ok pi /\
  (forall n s' infos reqs' funds, infos = (i0, i1) \/ infos = (i1, i0) ->
     exists e, exec C n w'' s' (MExecute f (JCreatePair infos reqs') funds) = Err e) /\
  (0 < supply w'' lp -> exists e, In e lg' /\ admitted_deposit p i0 i1 reqs e).
Proof.
  intros OK Hr Hf Hpc Htc L0 L1 T Hh. pose proof T as (O & g & x & E).
  destruct (C60_create_pair_effect C w f fs s i0 i1 reqs g w' x lg OK Hr Hf Hpc Htc L0 L1 E)
    as (d0 & d1 & st & fs' & _ & _ & Np & _ & _ & Ip & Il & Hf' & Self & Q0 & Q1 & _).
  set (p := ch_fresh C (w_next w)) in *. set (lp := ch_fresh C (w_next w + 1)) in *.
  assert (Hr' : reachable C w') by (eapply history_reachable; [exact Hr|apply (hist_tx C w [] w s _ w' lg (hist_refl C w) T)]).
  pose proof (reachable_main C OK w' Hr') as M'.
  assert (Hp : pair_at w' p st) by (unfold pair_at, state_at; rewrite Ip; reflexivity).
  assert (Hl : tok_at w' lp (empty_lp p)) by (unfold tok_at, state_at; rewrite Il; reflexivity).
  destruct (self_inv C w' p st _ _ _ _ _ _ _ OK (mn_fresh _ _ M') Hp Self) as (Has & Hlp & <-).
  destruct (C21_registered_pair_stays C w' lg' w'' f fs' (i0, i1) _ OK Hr' Hh Hf' Q0) as (R0 & R1 & Cr). cbn [fst snd] in *.
  exists p, lp, d0, d1. cbn zeta. split; [exact Np|]. split; [exact R0|]. split; [exact R1|]. split.
  - intros n s' infos reqs' funds Hi. exact (Cr n s' reqs' funds infos Hi).
  - intros Hs. apply (C68_first_deposit_admitted C w' lg' w'' p st lp i0 i1 OK Hr' Hh Hp Has Hlp); [exists (empty_lp p); exact Hl| |exact Hs].
    rewrite (supply_at _ _ _ Hl). reflexivity.
Qed.

(** So any account can block any two assets that have no pair yet, forever and
    for everybody: it creates the pair with an empty whitelist. *)
Theorem C77_anyone_can_block C w f fs s i0 i1 d0 d1 : chain_ok C -> reachable C w -> fac_at w f fs ->
  ch_codes C (f_pair_code fs) = Some CPair -> ch_codes C (f_token_code fs) = Some CToken -> live w i0 -> live w i1 ->
  i0 <> i1 -> decimals_of w fs i0 d0 -> decimals_of w fs i1 d1 -> d0 < 256 -> d1 < 256 -> f_token_code fs < 2 ^ 64 ->
  ask_pair_info C w f (i0, i1) = Err ENotFound -> ordinary C s ->
  exists w', succeeds C w s (MExecute f (JCreatePair (i0, i1) (Requirements [] 0 0)) []) w' /\
  forall lg' w'', history C w' lg' w'' ->
  exists pi, ask_pair_info C w'' f (i0, i1) = Ok pi /\ ask_pair_info C w'' f (i1, i0) = Ok pi /\ supply w'' (p_liquidity_token pi) = 0 /\
  forall n s' infos reqs' funds, infos = (i0, i1) \/ infos = (i1, i0) ->
     exists e, exec C n w'' s' (MExecute f (JCreatePair infos reqs') funds) = Err e.
Proof.
  intros OK Hr Hf Hpc Htc L0 L1 Hne D0 D1 B0 B1 Bt Hn O.
  destruct (proj2 (C60_create_pair_iff C w f fs s i0 i1 (Requirements [] 0 0) OK Hr Hf Hpc Htc L0 L1)) as (w' & Su).
  { split; [exact Hne|]. split; [exists d0, d1; auto|]. split; [exact Bt|]. split; [reflexivity|]. split; [reflexivity|exact Hn]. }
  exists w'. split; [exact Su|]. intros lg' w'' Hh. destruct Su as (k & Hk). destruct (Hk k (le_n k)) as (lg & E).
  destruct (C77_creator_decides C w f fs s i0 i1 (Requirements [] 0 0) w' lg lg' w'' OK Hr Hf Hpc Htc L0 L1) as (p & lp & e0 & e1 & _ & R0 & R1 & Cr & Sp).
  { split; [exact O|]. exists k, None. exact E. }
  { exact Hh. }
  exists (PairInfo (i0, i1) p lp (e0, e1) (Requirements [] 0 0)). split; [exact R0|]. split; [exact R1|]. split; [|exact Cr].
  cbn [p_liquidity_token]. destruct (N.eq_dec (supply w'' lp) 0) as [Z|Z]; [exact Z|]. exfalso.
  destruct Sp as (e & _ & _ & We & _); [lia|]. cbn [whitelist] in We. apply elem_of_nil in We. exact We.
Qed.

(** Bob blocks #2 and uaura before anybody else; alice can neither create the
    pair nor deposit into bob's. *)
Definition squat : bool * cmsg := (false, x_call "#0" (JCreatePair (Token "#2", Native "uaura") (Requirements [] 0 0))).
Example C77_case :
  let fs := fac_of ex_world "#0" in let w' := after ex_world [squat; (true, x_call "#2" (JIncreaseAllowance "#9" 50000 None))]%string in
  reachable ex_chain ex_world /\ fac_at ex_world "#0" fs /\
  ch_codes ex_chain (f_pair_code fs) = Some CPair /\ ch_codes ex_chain (f_token_code fs) = Some CToken /\
  decimals_of ex_world fs (Token "#2") 6 /\ decimals_of ex_world fs (Native "uaura") 6 /\ f_token_code fs < 2 ^ 64 /\
  ask_pair_info ex_chain ex_world "#0" (Token "#2", Native "uaura")%string = Err ENotFound /\ ordinary ex_chain "bob" /\
  is_ok (script ex_world [squat]) = true /\
  is_ok (script w' [(true, x_call "#0" (JCreatePair (Native "uaura", Token "#2") ex_wl))]%string) = false /\
  is_ok (script w' [first_deposit]) = false /\ is_ok (script first_world [first_deposit]) = true.
Proof.
  intros fs w'. split; [exact ex_reachable|]. split; [apply fac_of_at; vm_compute; reflexivity|].
  split; [vm_compute; reflexivity|]. split; [vm_compute; reflexivity|].
  split; [exists (tok_of ex_world "#2"); split; [apply tok_of_at; vm_compute; reflexivity|vm_compute; reflexivity]|].
  split; [vm_compute; reflexivity|]. split; [vm_compute; reflexivity|]. split; [vm_compute; reflexivity|].
  split; [exact (who_ordinary false)|]. repeat (split; [vm_compute; reflexivity|]). vm_compute; reflexivity.
Qed.
