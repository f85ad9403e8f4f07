(** The query entry of a token from bytes to bytes (C104). *)
From Verif Require Import Base BigNumber CwStd BigNumberFacts Asset Messages PairMath Pair PairFacts Token Factory Router
  SwapFacts SwapFacts2 P_Swap P_Pair FactoryFacts P_Factory P_Router TokenFacts World WorldInd WorldFacts WorldInv WorldInd2
  Examples WorldExamples P_Ledger Json JsonFacts Wire WireFacts TokenQueries P_TokenQuery TokenMirror P_Mirror QueryWire P_QueryWire FitsInv
  Storage P_Store TokenStorage P_TokenStore SpenderWire.
From Coq Require Import ZifyN Ascii String.
Local Open Scope N_scope.
Ltac Zify.zify_post_hook ::= idtac.

(** ** Specification *)

(** A client asks with the bytes of AllSpenderAllowances and reads the bytes of the
    answer. *)
Definition granted_in_bytes (A : api) (s : store) (spender : string) (start : option string) (limit : option N)
  : option (list (string * (uint128 * expiration))) :=
  match bt_bytes A s (render (w_spender_query spender start limit)) with Some b => from_bytes r_grants b | None => None end.
Definition limit_fits (l : option N) : bool := match l with Some n => n <? 2 ^ 32 | None => true end.

(** ** Lemmas *)
Lemma rw_spender_query p s l : r_spender_query (w_spender_query p s l) = if limit_fits l then Some (p, s, l) else None.
Proof.
  unfold r_spender_query, w_spender_query. qread. rewrite !rw_str. cbn [obind]. rewrite rw_ostr. cbn [obind]. rewrite rw_limit.
  destruct l as [n|]; [|reflexivity]. cbn [limit_fits]. change (2 ^ 32) with B32. destruct (n <? B32); reflexivity.
Qed.
Lemma token_query_not_spender p s l : r_token_query (w_spender_query p s l) = None.
Proof. reflexivity. Qed.
Lemma spender_query_not_token q : r_spender_query (w_query q) = None.
Proof. destruct q; reflexivity. Qed.
Lemma rw_granted a : r_granted (w_granted a) = if u128_ok (fst (snd a)) && exp_ok (snd (snd a)) then Some a else None.
Proof.
  destruct a as [s [n e]]. unfold r_granted, w_granted. aread. rewrite rw_str. cbn [obind]. rewrite rw_u128. destruct (u128_ok n); [|reflexivity]. cbn [obind].
  rewrite rw_exp. destruct (exp_ok e); reflexivity.
Qed.
Lemma rw_grants l : r_grants (w_grants l) = if forallb (fun a => u128_ok (fst (snd a)) && exp_ok (snd (snd a))) l then Some l else None.
Proof.
  unfold r_grants, w_grants. aread. Local Transparent r_list w_list. unfold r_list, w_list. apply all_some_map. exact rw_granted.
Qed.
Local Opaque r_list w_list.
Lemma granted_fits A t als p start limit l : tok_types t -> agree t als -> token_spender_allowances A (t, als) p start limit = Ok l ->
  forallb (fun a => u128_ok (fst (snd a)) && exp_ok (snd (snd a))) l = true.
Proof.
  intros T Ag H. unfold token_spender_allowances in H. apply rbind_ok in H as (p' & _ & H). injection H as <-. apply forallb_forall. intros [o [v e]] Hin.
  apply P_TokenStore.page_in in Hin. apply granted_entry in Hin. cbn [snd] in Hin. rewrite (Ag o p') in Hin.
  destruct (proj2 (proj2 (proj1 T)) _ _ _ Hin) as [L1 L2]. cbn [fst snd]. unfold u128_ok. apply N.ltb_lt in L1. rewrite L1, L2. reflexivity.
Qed.
Lemma collect_in {V} (key : V -> string) ask x limits : forall st l, collect key ask limits st = Ok l -> In x l -> exists a lim p, ask a lim = Ok p /\ In x p.
Proof.
  induction limits as [|lim ls IH]; intros st l H Hin; cbn [collect] in H; [injection H as <-; destruct Hin|].
  destruct (ask st lim) as [p|e] eqn:E; [|discriminate].
  match type of H with context [collect key ask ls ?s'] => destruct (collect key ask ls s') as [q|e] eqn:Eq end; [|discriminate]. injection H as <-.
  apply in_app_or in Hin as [Hin|Hin]; [eauto|]. exact (IH _ _ Eq Hin).
Qed.

(** ** C104 *)

(** Every other question: the bytes of the answer are those of the answer of the
    model; what is no question of a token is refused. *)
Theorem C104_token_answers_in_bytes A t s q : tstored s t -> tok_types t -> q_text q ->
  bt_bytes A s (render (w_query q)) =
  if token_q q && query_fits q then match token_query A t q with Ok a => Some (render (w_answer a)) | Err _ => None end else None.
Proof.
  intros S T Tq. unfold bt_bytes. rewrite from_render, spender_query_not_token. rewrite from_render, rw_token_query.
  destruct (token_q q && query_fits q); [|reflexivity]. cbn [answered obind]. unfold answered. cbn [obind].
  rewrite (proj1 (proj2 (C101_token A (Block 0 0) t s S T)) q Tq). reflexivity.
Qed.

(** What a spender has been allowed, asked and answered in bytes. *)
Theorem C104_granted_in_bytes (A : api) (t : token_state) (als : spender_map) (s : store) (p : string) (start : option string) (limit : option N) : tstored s t -> tok_types t -> text p ->
  (forall o x, als !! (x, o) = tk_allow t !! (o, x)) ->
  granted_in_bytes A s p start limit = if limit_fits limit then ok (token_spender_allowances A (t, als) p start limit) else None.
Proof.
  intros S T Tp Ag. unfold granted_in_bytes, bt_bytes. rewrite from_render, rw_spender_query. destruct (limit_fits limit).
  - rewrite (proj2 (proj2 (C101_token A (Block 0 0) t s S T)) als p start limit Tp Ag).
    destruct (token_spender_allowances A (t, als) p start limit) as [l|e] eqn:E; [|reflexivity].
    rewrite from_render, rw_grants. rewrite (granted_fits A t als p start limit l T); auto.
  - rewrite from_render, token_query_not_spender. reflexivity.
Qed.

(** Paging through them, with any limits but zero and enough requests, a spender sees
    every owner that allows something, once and in order, with what Allowance
    answers. *)
Theorem C104_listing_in_bytes (C : chain) (w : world) (t : string) (ts : token_state) (als : spender_map) (s : store) (p : string) (limits : list (option N)) : chain_ok C -> reachable C w -> tok_at w t ts ->
  tstored s ts -> tok_types ts -> text p -> norm (ch_api C) p = Some p -> (forall o x, als !! (x, o) = tk_allow ts !! (o, x)) ->
  List.Forall (fun lim => lim <> Some 0 /\ limit_fits lim = true) limits -> (size als <= Datatypes.length limits)%nat ->
  exists l, collect fst (fun a lim => match granted_in_bytes (ch_api C) s p a lim with Some x => Ok x | None => Err EParse end) limits None = Ok l /\
    ascending (map fst l) /\
    (forall o v e, In (o, (v, e)) l -> bt_query (ch_api C) s (QAllowance o p) = Ok (AAllowance (v, e))) /\
    (forall o v e, text o -> bt_query (ch_api C) s (QAllowance o p) = Ok (AAllowance (v, e)) -> 0 < v -> In (o, (v, e)) l).
Proof.
  intros OK Hr Ht S T Tp Np Ag Hl Hn.
  destruct (listing C w t ts als p limits OK Hr Ht Ag Np) as (l & E & As & H1 & H2); auto.
  { eapply List.Forall_impl; [|exact Hl]. intros x [X _]. exact X. }
  exists l. split; [|split; [exact As|]].
  - rewrite <- E. clear E Hn. generalize (@None string). revert Hl. induction limits as [|lm ls IH]; intros Hl st; [reflexivity|].
    inversion Hl as [|? ? [_ F] Hl']; subst. cbn [collect]. rewrite (C104_granted_in_bytes (ch_api C) ts als s p st lm S T Tp Ag), F.
    destruct (token_spender_allowances (ch_api C) (ts, als) p st lm) as [x|e] eqn:Ex; cbn [ok].
    + rewrite IH by exact Hl'. reflexivity.
    + exfalso. unfold token_spender_allowances in Ex. rewrite (proj2 (addr_validate_ok (ch_api C) p p) (conj eq_refl Np)) in Ex. discriminate.
  - assert (Q : forall o, text o -> bt_query (ch_api C) s (QAllowance o p) = token_query (ch_api C) ts (QAllowance o p)).
    { intros o To. apply (C101_token (ch_api C) (Block 0 0) ts s S T). exact To. }
    split.
    + intros o v e Hin. rewrite Q.
      * cbn [token_query]. rewrite (H1 o v e Hin). reflexivity.
      * destruct (collect_in _ _ _ _ _ _ E Hin) as (a & lim & pg & Ep & Hp). unfold token_spender_allowances in Ep. apply rbind_ok in Ep as (p' & _ & Ep). injection Ep as <-.
        apply P_TokenStore.page_in in Hp. apply granted_entry in Hp. cbn [snd] in Hp. rewrite (Ag o p') in Hp. apply (proj2 (proj2 (proj2 T)) o p'). eauto.
    + intros o v e To H Hv. rewrite (Q o To) in H. cbn [token_query] in H. unfold give in H. apply rbind_ok in H as (x & H & X). injection X as ->. apply (H2 o v e H Hv).
Qed.

(** ** Example: the store of C101's case *)
Example C104_case : tstored tx_store tx_state /\ tok_types tx_state /\ text "bob" /\
  render (w_spender_query "bob" None (Some 5)) = "{""all_spender_allowances"":{""spender"":""bob"",""start_after"":null,""limit"":5}}"%string /\
  bt_bytes ex_api tx_store (render (w_spender_query "bob" None (Some 5))) =
    Some "{""allowances"":[{""owner"":""alice"",""allowance"":""20"",""expires"":{""at_height"":900}}]}"%string /\
  bt_bytes ex_api tx_store "{""all_spender_allowances"":{""spender"":""bob""}}"%string =
    Some "{""allowances"":[{""owner"":""alice"",""allowance"":""20"",""expires"":{""at_height"":900}}]}"%string /\
  granted_in_bytes ex_api tx_store "bob" None None = Some [("alice"%string, (20, EAtHeight 900))] /\
  bt_bytes ex_api tx_store "{""balance"":{""address"":""carol""}}"%string = Some "{""balance"":""6""}"%string /\
  bt_bytes ex_api tx_store "{""all_spender_allowances"":{""owner"":""bob""}}"%string = None.
Proof.
  destruct C101_case as (H1 & H2 & _). split; [exact H1|]. split; [exact H2|].
  split; [split; [reflexivity|cbn; repeat (split; [discriminate|]); exact I]|].
  repeat (split; [vm_compute; reflexivity|]). vm_compute. reflexivity.
Qed.
