(** The order in which the two assets are named does not matter (C62). *)
From Verif Require Import Base BigNumber CwStd BigNumberFacts Asset Messages PairMath Pair PairFacts Token Factory Router
  SwapFacts SwapFacts2 P_Swap P_Pair FactoryFacts P_Factory P_Router TokenFacts World WorldInd WorldFacts WorldInv WorldInd2
  Examples WorldExamples P_Ledger P_Registry ExecFacts P_Exec P_Create.
From Coq Require Import ZifyN.
Local Open Scope N_scope.
Ltac Zify.zify_post_hook ::= idtac.

Lemma deposit_of_swap a0 a1 i j d0 d1 : i <> j -> deposit_of (a0, a1) i = Ok d0 -> deposit_of (a0, a1) j = Ok d1 ->
  deposit_of (a1, a0) i = Ok d0 /\ deposit_of (a1, a0) j = Ok d1.
Proof.
  intros Hne H0 H1. apply deposit_of_ok in H0, H1. cbn [fst snd] in *. unfold deposit_of. cbn [fst snd].
  assert (T : forall x y, x = y -> info_equal x y = true) by (intros; apply info_equal_spec; assumption).
  assert (F : forall x y, x <> y -> info_equal x y = false) by (intros x y H; destruct (info_equal x y) eqn:E; [apply info_equal_spec in E; contradiction|reflexivity]).
  destruct H0 as [[E0 <-]|(N0 & E0 & <-)], H1 as [[E1 <-]|(N1 & E1 & <-)]; try congruence; subst.
  - rewrite (F (a_info a1) (a_info a0)), (T (a_info a0) (a_info a0)), (T (a_info a1) (a_info a1)) by congruence. auto.
  - rewrite (T (a_info a1) (a_info a1)), (F (a_info a1) (a_info a0)), (T (a_info a0) (a_info a0)) by congruence. auto.
Qed.

Lemma provide_swapped A Q self st sender funds a0 a1 tol rcv st' rsp i0 i1 :
  raw_to_normal A (r_asset_infos st).1 = Ok i0 -> raw_to_normal A (r_asset_infos st).2 = Ok i1 -> i0 <> i1 ->
  provide_liquidity A Q self st sender funds (a0, a1) tol rcv = Ok (st', rsp) ->
  exists rsp', provide_liquidity A Q self st sender funds (a1, a0) tol rcv = Ok (st', rsp') /\ rs_msgs rsp' = rs_msgs rsp.
Proof.
  intros I0 I1 Hne H. unfold provide_liquidity in H. cbn [fst snd] in H.
  apply rbind_ok in H as ([] & S1 & H). apply rbind_ok in H as ([] & S2 & H).
  apply rbind_ok in H as ([x y] & E & H).
  apply rbind_ok in H as (d0 & D0 & H). apply rbind_ok in H as (d1 & D1 & H).
  assert (Hxy : a_info x <> a_info y).
  { unfold query_pools in E. rewrite I0, I1 in E. cbn [rbind] in E. apply rbind_ok in E as (v0 & _ & E). apply rbind_ok in E as (v1 & _ & E).
    injection E as <- <-. exact Hne. }
  destruct (deposit_of_swap _ _ _ _ _ _ Hxy D0 D1) as [D0' D1'].
  unfold provide_liquidity. cbn [fst snd]. rewrite S1, S2. cbn [rbind]. rewrite E. cbn [rbind]. rewrite D0'. cbn [rbind]. rewrite D1'. cbn [rbind].
  apply rbind_ok in H as ([m0 p0] & P0 & H). rewrite P0. cbn [rbind]. apply rbind_ok in H as ([m1 p1] & P1 & H). rewrite P1. cbn [rbind].
  apply rbind_ok in H as ([] & T & H). rewrite T. cbn [rbind].
  apply rbind_ok in H as (lp & L & H). rewrite L. cbn [rbind]. apply rbind_ok in H as (ti & TI & H). rewrite TI. cbn [rbind].
  apply rbind_ok in H as (share & SH & H). rewrite SH. cbn [rbind]. apply rbind_ok in H as ([] & Z & H). rewrite Z. cbn [rbind].
  rewrite L in H. cbn [rbind] in H. injection H as <- <-. eexists. split; [reflexivity|]. reflexivity.
Qed.

(** Naming the deposits in the other order has the same effect. *)
Theorem C62_deposit_order C w p st i0 i1 s a0 a1 tol rcv funds : chain_ok C -> reachable C w -> pair_at w p st -> assets_are C st i0 i1 -> i0 <> i1 ->
  forall f w', (exists lg, exec C f w s (MExecute p (JProvideLiquidity (a0, a1) tol rcv) funds) = Ok (w', None, lg)) <->
               (exists lg, exec C f w s (MExecute p (JProvideLiquidity (a1, a0) tol rcv) funds) = Ok (w', None, lg)).
Proof.
  intros OK Hr Hp [I0 I1] Hne f w'. pose proof (main_sane C w (reachable_main C OK w Hr)) as Sn.
  assert (H : forall b0 b1, (exists lg, exec C f w s (MExecute p (JProvideLiquidity (b0, b1) tol rcv) funds) = Ok (w', None, lg)) ->
                            (exists lg, exec C f w s (MExecute p (JProvideLiquidity (b1, b0) tol rcv) funds) = Ok (w', None, lg))).
  2: { split; apply H. }
  intros b0 b1 (lg & E). destruct f; [rewrite exec_0 in E; discriminate|]. rewrite exec_eq in E.
  rewrite exec_eq. rewrite (sane_norm C OK _ _ _ Sn Hp) in E |- *. cbn [oget rbind] in E |- *. apply rbind_ok in E as (w1 & Eb & E). rewrite Eb. cbn [rbind].
  assert (X : state_at w1 p = state_at w p).
  { unfold bank_send in Eb. destruct (coins_valid _); [|discriminate]. apply rbind_ok in Eb as (b & _ & Eb). injection Eb as <-. reflexivity. }
  pose proof Hp as Hi. unfold pair_at in Hi. rewrite <- X in Hi. apply state_at_inst in Hi as (adm & Hi). rewrite Hi in E |- *. cbn [oget rbind i_state call] in E |- *.
  apply rbind_ok in E as ([s' rsp] & Ec & E). apply rbind_ok in Ec as ([st' rsp'] & Ec & Y). injection Y as <- <-.
  unfold pair_execute in Ec |- *. destruct (jmsg_ranges _) eqn:Rg in Ec; [|discriminate]. cbn [negb] in Ec.
  assert (Rg' : jmsg_ranges (JProvideLiquidity (b1, b0) tol rcv) = true).
  { cbn [jmsg_ranges] in Rg |- *. bools. repeat (apply andb_true_iff; split); assumption. }
  rewrite Rg'. cbn [negb]. apply named_normal in I0, I1. destruct (provide_swapped _ _ _ _ _ _ _ _ _ _ _ _ _ _ I0 I1 Hne Ec) as (rsp2 & Ec2 & Em). rewrite Ec2. cbn [rbind wrap].
  rewrite Em. apply rbind_ok in E as ([w2 lg2] & Er & E). injection E as <- _. rewrite Er. cbn [rbind]. eexists. reflexivity.
Qed.

(** Whether a pair can be created does not depend on the order either. *)
Theorem C62_create_order C w f fs s i0 i1 reqs : chain_ok C -> reachable C w -> fac_at w f fs ->
  ch_codes C (f_pair_code fs) = Some CPair -> ch_codes C (f_token_code fs) = Some CToken -> live w i0 -> live w i1 ->
  (exists w', succeeds C w s (MExecute f (JCreatePair (i0, i1) reqs) []) w') <->
  (exists w', succeeds C w s (MExecute f (JCreatePair (i1, i0) reqs) []) w').
Proof.
  intros OK Hr Hf Hpc Htc L0 L1. rewrite (C60_create_pair_iff C w f fs s i0 i1), (C60_create_pair_iff C w f fs s i1 i0) by assumption.
  assert (Q : ask_pair_info C w f (i0, i1) = ask_pair_info C w f (i1, i0)).
  { unfold ask_pair_info, contract_at. pose proof (main_sane C w (reachable_main C OK w Hr)) as Sn. rewrite (sane_norm C OK _ _ _ Sn Hf). cbn [oget rbind].
    pose proof Hf as Hi. apply state_at_inst in Hi as (adm & Hi). rewrite Hi. cbn [oget rbind i_state].
    destruct (live_raw C OK w i0 Sn L0) as (r0 & E0 & _). destruct (live_raw C OK w i1 Sn L1) as (r1 & E1 & _).
    unfold factory_query_pair. cbn [fst snd]. rewrite E0, E1. cbn [rbind]. rewrite (pair_key_comm r0 r1). reflexivity. }
  rewrite Q. split; intros (H1 & (d0 & d1 & H2 & H3 & H4 & H5) & H6 & H7 & H8 & H9); (split; [congruence|]); (split; [exists d1, d0; auto|]); exact (conj H6 (conj H7 (conj H8 H9))).
Qed.

(** The deposit of [ex_provide] with its two assets named in the other order,
    and the pair of token #2 and uaura in both orders. *)
Example C62_case :
  let pv x y := (true, MExecute "#4" (JProvideLiquidity (x, y) None None) [Coin "uaura" 2000000])%string in
  let a0 := Asset (Token "#1") 1000000 in let a1 := Asset (Native "uaura") 2000000 in
  let cr i j := (false, x_call "#0" (JCreatePair (i, j) (Requirements [] 0 0))) in
  reachable ex_chain ex_world /\ pair_at ex_world "#4" ex_pair4 /\ assets_are ex_chain ex_pair4 (Token "#1") (Native "uaura") /\
  is_ok (script ex_world [pv a0 a1]) = true /\ is_ok (script ex_world [pv a1 a0]) = true /\
  holds (after ex_world [pv a0 a1]) "alice" (Token "#5") = holds ex_world "alice" (Token "#5") + 1414213 /\
  holds (after ex_world [pv a1 a0]) "alice" (Token "#5") = holds ex_world "alice" (Token "#5") + 1414213 /\
  is_ok (script ex_world [cr (Token "#2") (Native "uaura")]) = true /\ is_ok (script ex_world [cr (Native "uaura") (Token "#2")]) = true.
Proof.
  intros pv a0 a1 cr. split; [exact ex_reachable|]. split; [exact ex_pair4_at|]. split; [split; reflexivity|].
  repeat (split; [vm_compute; reflexivity|]). vm_compute; reflexivity.
Qed.
