(** C79: every pair that an honest factory lists is sound, so that the guarantees
    stated for a pair with certain properties hold for every listed pair. *)
From Verif Require Import Base BigNumber CwStd BigNumberFacts Asset Messages PairMath Pair PairFacts Token Factory Router
  SwapFacts SwapFacts2 P_Swap P_Pair FactoryFacts P_Factory P_Router TokenFacts World WorldInd WorldFacts WorldInv WorldInd2
  Examples WorldExamples P_Ledger P_Registry ExecFacts P_Exec P_Value P_Sides P_Events P_Fees.
From Coq Require Import ZifyN.
Local Open Scope N_scope.
Ltac Zify.zify_post_hook ::= idtac.

(** [f] is a factory made by the transaction that led to [w0] with the pair and
    token code of the repository, and up to [w] its owner never pointed it to
    other code; [pi] is one of the pairs it then lists. *)
Definition honestly_listed (C : chain) (w0 : world) (f : string) (lg : list event) (w : world) (pi : pair_info) : Prop :=
  (exists pc tc, new_factory C w0 f pc tc /\ ch_codes C pc = Some CPair /\ ch_codes C tc = Some CToken) /\
  history C w0 lg w /\ ~ called f (dishonest_update C) lg /\
  exists fs, fac_at w f fs /\ listed C w f fs pi.

(** [i] is one of the two assets of [pi]. *)
Definition asset_of (pi : pair_info) (i : asset_info) : Prop := i = (p_asset_infos pi).1 \/ i = (p_asset_infos pi).2.

Lemma raw_infos A i r j : info_to_raw A i = Ok r -> raw_to_normal A r = Ok j ->
  match i, j with Native d, Native d' => d' = d | Token t, Token t' => norm A t = Some t' | _, _ => False end.
Proof.
  intros H1 H2. destruct i as [a|d]; cbn in H1.
  - apply rbind_ok in H1 as (c & Hc & H1). apply addr_canonicalize_ok in Hc. injection H1 as <-. cbn in H2.
    apply rbind_ok in H2 as (h & Hh2 & H2). injection H2 as <-. unfold addr_humanize in Hh2. apply oget_ok in Hh2.
    unfold norm. rewrite Hc. exact Hh2.
  - injection H1 as <-. cbn in H2. injection H2 as <-. reflexivity.
Qed.

Lemma listed_full C w0 f lg w pi : chain_ok C -> honestly_listed C w0 f lg w pi ->
  main C w /\ reachable C w /\ exists pr e ts, 
    pair_to_normal (ch_api C) pr = Ok pi /\
    w_insts w !! p_contract_addr pi = Some (Inst (Some f) (SPair pr)) /\
    assets_are C pr (p_asset_infos pi).1 (p_asset_infos pi).2 /\
    human (ch_api C) (r_contract_addr pr) = Some (p_contract_addr pi) /\
    human (ch_api C) (r_liquidity_token pr) = Some (p_liquidity_token pi) /\
    tok_at w (p_liquidity_token pi) ts /\ tk_mint ts = Some (p_contract_addr pi, None) /\
    In e lg /\ made_by C f pr e /\ accepted C e /\ exists fse, fac_at (ev_world e) f fse.
Proof.
  intros OK ((pc & tc & Hn & Hp & Ht) & Hh & Hd & fs & Hf & Hl).
  destruct (new_factory_state C w0 f pc tc OK Hn) as (Hr & fs0 & Hf0 & _).
  pose proof (reachable_main C OK w0 Hr) as M0. destruct (history_main C OK w0 lg w M0 Hh) as [M _].
  split; [exact M|]. split; [eapply history_reachable; eauto|].
  destruct (listed_record C w f fs pi OK M Hf Hl) as (k & pr & Hk & E).
  destruct (registry_real C w0 f pc tc lg w fs OK Hn Hp Ht Hh Hd Hf k pr Hk) as [(Ek & p & t & ts & ps & Hhp & Hi & -> & Hhl & Htk & Hm) (e & Ie & Me)].
  exists pr, e, ts. split; [exact E|].
  unfold pair_to_normal in E. unfold addr_humanize in E. rewrite Hhp, Hhl in E. cbn [oget rbind] in E.
  apply rbind_ok in E as (i0 & E0 & E). apply rbind_ok in E as (i1 & E1 & E). injection E as <-.
  cbn [p_contract_addr p_liquidity_token p_requirements p_asset_infos fst snd] in *.
  split; [exact Hi|]. split; [split; apply named_normal; assumption|]. split; [exact Hhp|]. split; [exact Hhl|]. split; [exact Htk|]. split; [exact Hm|].
  split; [exact Ie|]. split; [exact Me|].
  split; [pose proof (log_accepted C w0 lg w OK M0 Hh) as Ha; exact (proj1 (List.Forall_forall _ _) Ha e Ie)|].
  destruct (C20_only_owner_administers C w0 lg w f fs0 OK Hr Hh Hf0) as (fs' & _ & Rp).
  apply in_split in Ie as (l1 & l2 & ->).
  apply replay_split in Rp as (s1 & R1 & R2). inversion R2 as [|? ? ? ? ? Hw _ _]; subst.
  destruct Me as (infos & reqs & Ec & _). destruct (Hw Ec) as (fse & Hfe & _). eauto.
Qed.

(** Every listed pair has a live LP token other than the pair, none of its assets
    is its own LP token or the pair itself, and a token asset was a contract before
    the pair was made.  Its two assets are the same only if CreatePair was called
    with two spellings of one address (see C26). *)
Theorem C79_listed_pair_sound C w0 f lg w pi : chain_ok C -> honestly_listed C w0 f lg w pi ->
  p_liquidity_token pi <> p_contract_addr pi /\
  (exists ts, tok_at w (p_liquidity_token pi) ts /\ tk_mint ts = Some (p_contract_addr pi, None)) /\
  (forall i, asset_of pi i -> i <> Token (p_liquidity_token pi) /\ i <> Token (p_contract_addr pi)) /\
  exists e infos, In e lg /\ ev_contract e = f /\ ev_msg e = JCreatePair infos (p_requirements pi) /\
    w_insts (ev_world e) !! p_contract_addr pi = None /\ w_insts (ev_world e) !! p_liquidity_token pi = None /\
    (forall t, asset_of pi (Token t) -> exists i, w_insts (ev_world e) !! t = Some i) /\
    ((p_asset_infos pi).1 = (p_asset_infos pi).2 ->
       exists a b t, infos = (Token a, Token b) /\ a <> b /\ norm (ch_api C) a = Some t /\ norm (ch_api C) b = Some t).
Proof.
  intros OK H. destruct (listed_full C w0 f lg w pi OK H) as (M & _ & pr & e & ts & E & Hi & [A0 A1] & Hhp & Hhl & Htk & Hm & Ie & Me & Ha & fse & Hfe).
  destruct Me as (infos & reqs & Ec & Em & R0 & R1 & Rq & Fr & Dec).
  pose proof (Fr _ (or_introl Hhp)) as Fp. pose proof (Fr _ (or_intror Hhl)) as Fl.
  apply named_normal in A0, A1. pose proof (raw_infos _ _ _ _ R0 A0) as X0. pose proof (raw_infos _ _ _ _ R1 A1) as X1.
  assert (Old : forall t, asset_of pi (Token t) -> exists i, w_insts (ev_world e) !! t = Some i).
  { assert (G : forall i d t, (i = infos.1 /\ d = (r_asset_decimals pr).1) \/ (i = infos.2 /\ d = (r_asset_decimals pr).2) ->
      match i with Token a => norm (ch_api C) a = Some t | Native _ => False end -> exists x, w_insts (ev_world e) !! t = Some x).
    { intros i d t Hd X. specialize (Dec i d Hd). destruct i as [a|]; [|destruct X]. destruct Dec as (ti & Q & _).
      unfold ask_token_info in Q. apply rbind_ok in Q as ([t' s] & Q & _). unfold contract_at in Q.
      rewrite X in Q. cbn [oget rbind] in Q. apply rbind_ok in Q as (x & Q & _). apply oget_ok in Q. eauto. }
    intros t [Ht|Ht].
    - eapply (G infos.1 (r_asset_decimals pr).1 t); [auto|]. rewrite <- Ht in X0. destruct infos.1; [exact X0|destruct X0].
    - eapply (G infos.2 (r_asset_decimals pr).2 t); [auto|]. rewrite <- Ht in X1. destruct infos.2; [exact X1|destruct X1]. }
  split; [intros X; unfold tok_at, state_at in Htk; rewrite X, Hi in Htk; discriminate|]. split; [eauto|]. split.
  { intros i Hin. split; intros ->; destruct (Old _ Hin) as (x & Hx); congruence. }
  exists e, infos. split; [exact Ie|]. split; [exact Ec|].
  split. { rewrite Em. f_equal. unfold pair_to_normal in E. repeat (apply rbind_ok in E as (? & _ & E)). injection E as <-. cbn. congruence. }
  split; [exact Fp|]. split; [exact Fl|]. split; [exact Old|]. intros Eq.
  rewrite <- Ec in Hfe. destruct (accepted_factory C e fse Ha Hfe) as (fs2 & rsp & Ex). rewrite Em in Ex.
  unfold factory_execute, create_pair, require in Ex.
  destruct (bool_decide (infos.1 = infos.2)) eqn:Bd; [cbn in Ex; destruct (negb _) in Ex; discriminate|]. apply bool_decide_eq_false in Bd.
  destruct infos as [x y]. cbn [fst snd] in *. rewrite <- Eq in X1.
  destruct x as [a|], y as [b|]; destruct ((p_asset_infos pi).1) as [t|] eqn:Et; try contradiction.
  - exists a, b, t. split; [reflexivity|]. split; [congruence|]. auto.
  - congruence.
Qed.

(** No two listed pairs share the contract or the LP token. *)
Theorem C79_listed_pairs_apart C w0 f lg w pi pj : chain_ok C ->
  honestly_listed C w0 f lg w pi -> honestly_listed C w0 f lg w pj ->
  p_contract_addr pi = p_contract_addr pj \/ p_liquidity_token pi = p_liquidity_token pj -> pi = pj.
Proof.
  intros OK H1 H2 Eq. destruct (listed_full C w0 f lg w pi OK H1) as (_ & _ & pr & e & ts & E & Hi & _ & _ & _ & Htk & Hm & _).
  destruct (listed_full C w0 f lg w pj OK H2) as (_ & _ & pr' & e' & ts' & E' & Hi' & _ & _ & _ & Htk' & Hm' & _).
  assert (X : p_contract_addr pi = p_contract_addr pj).
  { destruct Eq as [Eq|Eq]; [exact Eq|]. rewrite Eq in Htk. assert (ts = ts') by (unfold tok_at in *; congruence). congruence. }
  rewrite X, Hi' in Hi. injection Hi as <-. congruence.
Qed.

(** So for every listed pair of two different assets, each a native coin or a
    halo token: as long as there are LP tokens, the value of a share never falls
    through swaps of ordinary size, does not fall in either asset without swaps,
    and grows with every commission. *)
Theorem C79_listed_pair_guarantees C w0 f lg w pi lg' w' : chain_ok C -> honestly_listed C w0 f lg w pi ->
  let p := p_contract_addr pi in let lp := p_liquidity_token pi in
  let i0 := (p_asset_infos pi).1 in let i1 := (p_asset_infos pi).2 in
  i0 <> i1 -> live w i0 -> live w i1 -> history C w lg' w' ->
  (forall e, In e lg' -> 0 < supply (ev_world e) lp) -> 0 < supply w' lp ->
  ((forall e, In e lg' -> ordinary_swap p e) -> share_value_le p lp i0 i1 w w') /\
  (no_swap p lg' -> backing_le p lp i0 w w' /\ backing_le p lp i1 w w') /\
  exists A B, fee_growth p i0 i1 lg' A B /\ grows_by p lp i0 i1 w w' A B.
Proof.
  intros OK H p lp i0 i1 Hne L0 L1 Hh Hs Hs'.
  destruct (C79_listed_pair_sound C w0 f lg w pi OK H) as (_ & _ & N & _).
  destruct (N i0 (or_introl eq_refl)) as [N0 _]. destruct (N i1 (or_intror eq_refl)) as [N1 _].
  destruct (listed_full C w0 f lg w pi OK H) as (M & Hr & pr & e & ts & E & Hi & As & _ & Hhl & Htk & _ & _).
  assert (Hp : pair_at w p pr) by (unfold pair_at, state_at, p; rewrite Hi; reflexivity).
  assert (Lt : live w (Token lp)) by (exists ts; exact Htk).
  split; [|split].
  - intros Ho. exact (C45_share_value_never_falls C w lg' w' p pr lp i0 i1 OK Hr Hh Hp As Hne L0 L1 Hhl Lt N0 N1 Hs Hs' Ho).
  - intros Ho. exact (proj2 (C65_backing_never_falls C w lg' w' p pr lp i0 i1 OK Hr Hh Hp As Hne L0 L1 Hhl Lt N0 N1 Hs Hs' Ho)).
  - exact (C78_fees_go_to_providers C w lg' w' p pr lp i0 i1 OK Hr Hh Hp As Hne L0 L1 Hhl Lt N0 N1 Hs Hs').
Qed.

(** Both pairs of the example chain are listed; pair #4 through the deposit, swaps
    and withdrawals of C78's case. *)
Lemma ex_listed pi : In pi [PairInfo (Token "#1", Native "uaura") "#4" "#5" (6, 6) ex_wl; PairInfo (Token "#1", Token "#2") "#6" "#7" (6, 6) ex_wl]%string ->
  honestly_listed ex_chain ex_first "#0" (log_of ex_first ex_rest) (after ex_first ex_rest) pi.
Proof.
  intros H. split; [exists 1, 2; split; [exact ex_new_factory|split; reflexivity]|]. split; [apply after_history|].
  split; [apply honest_log_ok; vm_compute; reflexivity|]. exists (fac_of (after ex_first ex_rest) "#0").
  split; [apply fac_of_at; vm_compute; reflexivity|]. left.
  destruct H as [<-|[<-|[]]].
  - exists (Native "uaura", Token "#1")%string. vm_compute. reflexivity.
  - exists (Token "#2", Token "#1")%string. vm_compute. reflexivity.
Qed.
Definition ex_listed4 : pair_info := (PairInfo (Token "#1", Native "uaura") "#4" "#5" (6, 6) ex_wl)%string.
Definition ex_then : world := after ex_first ex_rest.
Example C79_case :
  honestly_listed ex_chain ex_first "#0" (log_of ex_first ex_rest) ex_then ex_listed4 /\
  (p_asset_infos ex_listed4).1 <> (p_asset_infos ex_listed4).2 /\
  live ex_then (Token "#1") /\ history ex_chain ex_then (log_of ex_then fee_txs) (after ex_then fee_txs) /\
  (forall e, In e (log_of ex_then fee_txs) -> 0 < supply (ev_world e) "#5") /\ 0 < supply (after ex_then fee_txs) "#5" /\
  growth_of "#4" (Token "#1") (Native "uaura") (log_of ex_then fee_txs) =
    (338993745432472000000000000000000000000000000000000, 338807397064514000000000036816225000000000000000001) /\
  fee_growth "#4" (Token "#1") (Native "uaura") (log_of ex_then fee_txs)
    338993745432472000000000000000000000000000000000000 338807397064514000000000036816225000000000000000001.
Proof.
  assert (H : honestly_listed ex_chain ex_first "#0" (log_of ex_first ex_rest) ex_then ex_listed4).
  { apply ex_listed. left. reflexivity. }
  assert (Hne : (p_asset_infos ex_listed4).1 <> (p_asset_infos ex_listed4).2) by discriminate.
  assert (L1 : live ex_then (Token "#1")) by (exists (tok_of ex_then "#1"); apply tok_of_at; vm_compute; reflexivity).
  assert (Al : alive_b "#5" (log_of ex_then fee_txs) = true) by (vm_compute; reflexivity).
  assert (S : (0 <? supply (after ex_then fee_txs) "#5") = true) by (vm_compute; reflexivity). apply N.ltb_lt in S.
  assert (E : growth_of "#4" (Token "#1") (Native "uaura") (log_of ex_then fee_txs) =
      (338993745432472000000000000000000000000000000000000, 338807397064514000000000036816225000000000000000001)) by (vm_compute; reflexivity).
  split; [exact H|]. split; [exact Hne|]. split; [exact L1|]. split; [apply after_history|].
  split; [apply alive_ok; exact Al|]. split; [exact S|]. split; [exact E|].
  pose proof (C79_listed_pair_guarantees ex_chain ex_first "#0" (log_of ex_first ex_rest) ex_then ex_listed4
    (log_of ex_then fee_txs) (after ex_then fee_txs) ex_chain_ok H Hne L1 I (after_history _ _) (alive_ok _ _ Al) S) as (_ & _ & A & B & F & _).
  pose proof (growth_of_ok "#4" (Token "#1") (Native "uaura") (log_of ex_then fee_txs) A B Hne F) as X. rewrite X in E. clear X.
  apply pair_equal_spec in E as [E1 E2]. rewrite E1, E2 in F. exact F.
Qed.
