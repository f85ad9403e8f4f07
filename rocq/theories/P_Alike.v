(** A pair treats everybody alike, and nothing outside it matters (C82). *)
From Verif Require Import Base BigNumber CwStd BigNumberFacts Asset Messages PairMath Pair PairFacts Token Factory Router
  SwapFacts SwapFacts2 P_Swap P_Pair FactoryFacts P_Factory P_Router TokenFacts World WorldInd WorldFacts WorldInv WorldInd2
  Examples WorldExamples P_Ledger P_Registry ExecFacts P_Exec P_Value P_Deposit P_Quotes P_Withdraw.
From Coq Require Import ZifyN.
Local Open Scope N_scope.
Ltac Zify.zify_post_hook ::= idtac.

(** ** Specification *)

(** Two states of the chain that agree on the pair [p]: its settings, its two
    reserves and the number of its LP tokens.  They may differ in everything else:
    other contracts, the factory and its owner, other balances, holders of the LP
    tokens, allowances, time. *)
Record same_pair (C : chain) (p : string) (st : pair_info_raw) (i0 i1 : asset_info) (lp : string) (w w' : world) : Prop := {
  sp_pair : pair_at w p st /\ pair_at w' p st;
  sp_assets : assets_are C st i0 i1;
  sp_live : live w i0 /\ live w i1 /\ live w' i0 /\ live w' i1;
  sp_0 : holds w p i0 = holds w' p i0;
  sp_1 : holds w p i1 = holds w' p i1;
  sp_lp : human (ch_api C) (r_liquidity_token st) = Some lp;
  sp_supply : exists ts ts', tok_at w lp ts /\ tok_at w' lp ts' /\ tk_supply ts = tk_supply ts';
}.

(** ** Lemmas *)
Section alike.
  Context (C : chain) (OK : chain_ok C).
  Local Notation A := (ch_api C).
  Lemma query_pool_same w w' i p : sane C w -> sane C w' -> live w i -> live w' i -> norm A p = Some p -> holds w p i = holds w' p i ->
    query_pool A (wq C w) i p = query_pool A (wq C w') i p.
  Proof.
    intros Sn Sn' L L' Np E. destruct (N.lt_ge_cases (holds w p i) B128) as [H|H].
    - rewrite (query_pool_live C OK w i p Sn L Np H), (query_pool_live C OK w' i p Sn' L' Np) by (rewrite <- E; exact H). rewrite E. reflexivity.
    - destruct i as [t|d].
      + pose proof (holds_range C w t p Sn L). lia.
      + cbn [query_pool wq q_balance]. unfold ask_balance. rewrite Np. cbn [oget rbind]. cbn [holds] in E. rewrite E. reflexivity.
  Qed.
  Lemma info_of w lp ts : sane C w -> tok_at w lp ts ->
    ask_token_info C w lp = Ok (TokenInfo (tk_name ts) (tk_symbol ts) (tk_decimals ts) (tk_supply ts)).
  Proof.
    intros Sn Ht. unfold ask_token_info, contract_at. rewrite (sane_norm C OK _ _ _ Sn Ht). cbn [oget rbind].
    pose proof Ht as Hi. apply state_at_inst in Hi as (adm & Hi). rewrite Hi. reflexivity.
  Qed.
  Lemma pools_same w w' p st i0 i1 lp : sane C w -> sane C w' -> same_pair C p st i0 i1 lp w w' ->
    query_pools A (wq C w) st p = query_pools A (wq C w') st p.
  Proof.
    intros Sn Sn' [[Hp _] [R0 R1] (L0 & L1 & L0' & L1') E0 E1 _ _]. pose proof (sane_norm C OK _ _ _ Sn Hp) as Np.
    apply named_normal in R0, R1. unfold query_pools. rewrite R0, R1. cbn [rbind].
    rewrite (query_pool_same w w' i0 p) by assumption. rewrite (query_pool_same w w' i1 p) by assumption. reflexivity.
  Qed.
End alike.

(** ** C82 *)

(** In two such states the pair answers every message in the same way, with the
    same messages and events or the same error, whoever sends it. *)
Theorem C82_nothing_else_matters C w w' p st i0 i1 lp : chain_ok C -> reachable C w -> reachable C w' ->
  same_pair C p st i0 i1 lp w w' ->
  (forall s funds m, call C w p (SPair st) s funds m = call C w' p (SPair st) s funds m) /\
  pair_query_pool (ch_api C) (wq C w) st = pair_query_pool (ch_api C) (wq C w') st /\
  (forall a, ask_simulate C w p a = ask_simulate C w' p a) /\ (forall a, ask_reverse C w p a = ask_reverse C w' p a).
Proof.
  intros OK Hr Hr' H. pose proof (main_sane C w (reachable_main C OK w Hr)) as Sn. pose proof (main_sane C w' (reachable_main C OK w' Hr')) as Sn'.
  pose proof (pools_same C OK w w' p st i0 i1 lp Sn Sn' H) as Q.
  destruct H as [[Hp Hp'] _ _ _ _ Hl (ts & ts' & Ht & Ht' & Es)].
  pose proof (reachable_pair C OK w p st Hr Hp) as Hh.
  pose proof (info_of C OK w lp ts Sn Ht) as I. pose proof (info_of C OK w' lp ts' Sn' Ht') as I'.
  assert (Np : norm (ch_api C) p = Some p) by exact (sane_norm C OK _ _ _ Sn Hp).
  split; [|split; [|split]].
  - intros s funds m. cbn [call]. f_equal. unfold pair_execute. destruct (negb (jmsg_ranges m)); [reflexivity|].
    destruct m; try reflexivity.
    + unfold pair_receive. destruct (negb (hook_ranges msg)); [reflexivity|]. destruct msg; try reflexivity.
      * rewrite Q. unfold swap. rewrite Q. reflexivity.
      * unfold withdraw_liquidity. rewrite Q. rewrite (proj2 (addr_humanize_ok _ _ lp) Hl). cbn [rbind wq q_token_info]. rewrite I, I'. cbn [rbind ti_total_supply]. rewrite Es. reflexivity.
    + unfold provide_liquidity. rewrite Q. rewrite (proj2 (addr_humanize_ok _ _ lp) Hl). cbn [rbind wq q_token_info]. rewrite I, I'. cbn [rbind ti_total_supply]. rewrite Es. reflexivity.
  - unfold pair_query_pool. rewrite (proj2 (addr_humanize_ok _ _ p) Hh). cbn [rbind]. rewrite Q.
    rewrite (proj2 (addr_humanize_ok _ _ lp) Hl). cbn [rbind wq q_token_info]. rewrite I, I'. cbn [rbind ti_total_supply]. rewrite Es. reflexivity.
  - intros a. unfold ask_simulate, contract_at. rewrite Np. cbn [oget rbind].
    apply state_at_inst in Hp as (ad & Hi). apply state_at_inst in Hp' as (ad' & Hi'). rewrite Hi, Hi'. cbn [oget rbind i_state].
    unfold pair_query_simulation. rewrite (proj2 (addr_humanize_ok _ _ p) Hh). cbn [rbind]. rewrite !query_pools_base, Q. reflexivity.
  - intros a. unfold ask_reverse, contract_at. rewrite Np. cbn [oget rbind].
    apply state_at_inst in Hp as (ad & Hi). apply state_at_inst in Hp' as (ad' & Hi'). rewrite Hi, Hi'. cbn [oget rbind i_state].
    unfold pair_query_reverse_simulation. rewrite (proj2 (addr_humanize_ok _ _ p) Hh). cbn [rbind]. rewrite !query_pools_base, Q. reflexivity.
Qed.
Print Assumptions C82_nothing_else_matters.

(** Swaps of the same amount with the same limits, by anybody who has the amount,
    in any state, even on another pair with the same decimals: if the reserves are
    the same, both are executed or none, and both pay the same. *)
Theorem C82_swaps_alike C w1 w2 p1 p2 st1 st2 t1 t2 a1 a2 od ad s1 s2 n bp ms : chain_ok C ->
  reachable C w1 -> pair_at w1 p1 st1 -> sides (ch_api C) st1 (Token t1) a1 od ad -> Token t1 <> a1 -> live w1 (Token t1) -> live w1 a1 ->
  reachable C w2 -> pair_at w2 p2 st2 -> sides (ch_api C) st2 (Token t2) a2 od ad -> Token t2 <> a2 -> live w2 (Token t2) -> live w2 a2 ->
  s1 <> p1 -> norm (ch_api C) s1 = Some s1 -> n <= holds w1 s1 (Token t1) ->
  s2 <> p2 -> norm (ch_api C) s2 = Some s2 -> n <= holds w2 s2 (Token t2) ->
  holds w1 p1 (Token t1) = holds w2 p2 (Token t2) -> holds w1 p1 a1 = holds w2 p2 a2 ->
  ((exists w1', succeeds C w1 s1 (MExecute t1 (JSend p1 n (HSwap bp ms None)) []) w1') <->
   (exists w2', succeeds C w2 s2 (MExecute t2 (JSend p2 n (HSwap bp ms None)) []) w2')) /\
  exists r, forall f w1' x1 l1 w2' x2 l2,
    exec C f w1 s1 (MExecute t1 (JSend p1 n (HSwap bp ms None)) []) = Ok (w1', x1, l1) ->
    exec C f w2 s2 (MExecute t2 (JSend p2 n (HSwap bp ms None)) []) = Ok (w2', x2, l2) ->
    settled w1 w1' [(Token t1, s1, p1, n); (a1, p1, s1, r)] /\ settled w2 w2' [(Token t2, s2, p2, n); (a2, p2, s2, r)].
Proof.
  intros OK R1 P1 S1 D1 L1 M1 R2 P2 S2 D2 L2 M2 Q1 N1 H1 Q2 N2 H2 E0 E1. split.
  - rewrite (C58_swap_iff C w1 p1 st1 t1 a1 od ad s1 n bp ms None) by assumption. rewrite (C58_swap_iff C w2 p2 st2 t2 a2 od ad s2 n bp ms None) by assumption.
    cbv zeta. rewrite E0, E1. split; intros ((X & _) & Y); (split; [split; [exact X|assumption]|exact Y]).
  - eexists. intros f w1' x1 l1 w2' x2 l2 X1 X2. split.
    + exact (C58_swap_effect C w1 p1 st1 t1 a1 od ad s1 n bp ms None f w1' x1 l1 OK R1 P1 S1 D1 L1 M1 Q1 N1 X1).
    + pose proof (C58_swap_effect C w2 p2 st2 t2 a2 od ad s2 n bp ms None f w2' x2 l2 OK R2 P2 S2 D2 L2 M2 Q2 N2 X2) as Y. cbv zeta in Y. rewrite <- E0, <- E1 in Y. exact Y.
Qed.
Print Assumptions C82_swaps_alike.

(** Likewise for withdrawals ... *)
Theorem C82_withdrawals_alike C w1 w2 p st i0 i1 lp s1 s2 n : chain_ok C -> reachable C w1 -> reachable C w2 ->
  same_pair C p st i0 i1 lp w1 w2 -> i0 <> i1 -> i0 <> Token lp -> i1 <> Token lp ->
  norm (ch_api C) s1 = Some s1 -> s1 <> p -> n <= holds w1 s1 (Token lp) ->
  norm (ch_api C) s2 = Some s2 -> s2 <> p -> n <= holds w2 s2 (Token lp) ->
  ((exists w1', succeeds C w1 s1 (MExecute lp (JSend p n HWithdrawLiquidity) []) w1') <->
   (exists w2', succeeds C w2 s2 (MExecute lp (JSend p n HWithdrawLiquidity) []) w2')) /\
  exists r0 r1, forall f w1' x1 l1 w2' x2 l2,
    exec C f w1 s1 (MExecute lp (JSend p n HWithdrawLiquidity) []) = Ok (w1', x1, l1) ->
    exec C f w2 s2 (MExecute lp (JSend p n HWithdrawLiquidity) []) = Ok (w2', x2, l2) ->
    holds w1' s1 i0 = holds w1 s1 i0 + r0 /\ holds w1' s1 i1 = holds w1 s1 i1 + r1 /\
    holds w2' s2 i0 = holds w2 s2 i0 + r0 /\ holds w2' s2 i1 = holds w2 s2 i1 + r1.
Proof.
  intros OK R1 R2 [[Hp Hp'] Has (L0 & L1 & L0' & L1') E0 E1 Hl (ts & ts' & Ht & Ht' & Es)] D D0 D1 N1 Q1 H1 N2 Q2 H2. split.
  - rewrite (C59_withdraw_iff C w1 p st i0 i1 lp ts s1 n) by assumption. rewrite (C59_withdraw_iff C w2 p st i0 i1 lp ts' s2 n) by assumption.
    rewrite E0, E1, Es. tauto.
  - exists (refund (holds w1 p i0) n (tk_supply ts)), (refund (holds w1 p i1) n (tk_supply ts)). intros f w1' x1 l1 w2' x2 l2 X1 X2.
    destruct (C59_withdraw_effect C w1 p st i0 i1 lp ts s1 n f w1' x1 l1) as (_ & _ & _ & Y1); try assumption.
    destruct (C59_withdraw_effect C w2 p st i0 i1 lp ts' s2 n f w2' x2 l2) as (_ & _ & _ & Y2); try assumption.
    rewrite <- E0, <- E1, <- Es in Y2.
    pose proof (Y1 s1 i0) as Z1. pose proof (Y1 s1 i1) as Z2. pose proof (Y2 s2 i0) as Z3. pose proof (Y2 s2 i1) as Z4. clear Y1 Y2.
    cbn [left_ arrived fold_right] in Z1, Z2, Z3, Z4.
    repeat match type of Z1 with context [decide ?P] => destruct (decide P) as [[? ?]|?]; try congruence; try (exfalso; tauto) end.
    repeat match type of Z2 with context [decide ?P] => destruct (decide P) as [[? ?]|?]; try congruence; try (exfalso; tauto) end.
    repeat match type of Z3 with context [decide ?P] => destruct (decide P) as [[? ?]|?]; try congruence; try (exfalso; tauto) end.
    repeat match type of Z4 with context [decide ?P] => destruct (decide P) as [[? ?]|?]; try congruence; try (exfalso; tauto) end.
    lia.
Qed.
Print Assumptions C82_withdrawals_alike.

(** ... and for deposits once LP tokens exist (before, the whitelist decides,
    C68): [s2] can do whatever [s1] can, if they can pay it. *)
Theorem C82_deposits_alike C w1 w2 p st i0 i1 lp s1 s2 assets tol d0 d1 funds1 funds2 : chain_ok C -> reachable C w1 -> reachable C w2 ->
  same_pair C p st i0 i1 lp w1 w2 -> i0 <> i1 -> i0 <> Token lp -> i1 <> Token lp -> (forall ts, tok_at w1 lp ts -> tk_supply ts <> 0) ->
  norm (ch_api C) s1 = Some s1 -> s1 <> p -> norm (ch_api C) s2 = Some s2 -> s2 <> p ->
  declared assets i0 d0 -> declared assets i1 d1 -> can_pay w2 s2 p i0 d0 -> can_pay w2 s2 p i1 d1 ->
  can_attach w2 s2 funds2 -> paid_with assets.1 funds2 -> paid_with assets.2 funds2 ->
  (exists w1', succeeds C w1 s1 (MExecute p (JProvideLiquidity assets tol None) funds1) w1') ->
  (exists w2', succeeds C w2 s2 (MExecute p (JProvideLiquidity assets tol None) funds2) w2') /\
  exists n, 0 < n /\ forall f w1' x1 l1 w2' x2 l2,
    exec C f w1 s1 (MExecute p (JProvideLiquidity assets tol None) funds1) = Ok (w1', x1, l1) ->
    exec C f w2 s2 (MExecute p (JProvideLiquidity assets tol None) funds2) = Ok (w2', x2, l2) ->
    holds w1' s1 (Token lp) = holds w1 s1 (Token lp) + n /\ holds w2' s2 (Token lp) = holds w2 s2 (Token lp) + n.
Proof.
  intros OK R1 R2 [[Hp Hp'] Has (L0 & L1 & L0' & L1') E0 E1 Hl (ts & ts' & Ht & Ht' & Es)] D D0 D1 HS N1 Q1 N2 Q2 De0 De1 Y0 Y1 At P0 P1 X.
  specialize (HS _ Ht).
  rewrite (C54_deposit_iff C w1 p st i0 i1 lp ts s1 assets tol None funds1) in X by assumption.
  assert (U : forall i d d', declared assets i d -> declared assets i d' -> d = d').
  { intros i d d' X1 X2. unfold declared in X1, X2. destruct X1 as [[H1 H2]|(H1 & H2 & H3)], X2 as [[H4 H5]|(H4 & H5 & H6)]; congruence. }
  destruct X as (e0 & e1 & Z0 & Z1 & _ & _ & _ & Cd). pose proof (U _ _ _ Z0 De0) as ->. pose proof (U _ _ _ Z1 De1) as ->. destruct Cd as [C1 _ _ C4 _ C6 C7 C8].
  split.
  - rewrite (C54_deposit_iff C w2 p st i0 i1 lp ts' s2 assets tol None funds2) by assumption. exists d0, d1. repeat (split; [assumption|]).
    rewrite <- Es. constructor; rewrite <- ?E0, <- ?E1; try assumption. intros Z; contradiction.
  - exists (earned (tk_supply ts) d0 d1 (holds w1 p i0) (holds w1 p i1)). split; [exact C7|]. intros f w1' x1 l1 w2' x2 l2 X1 X2.
    destruct (C54_deposit_effect C w1 p st i0 i1 lp ts s1 assets tol None funds1 f w1' x1 l1) as (u0 & u1 & _ & V0 & V1 & _ & W1 & _); try assumption.
    destruct (C54_deposit_effect C w2 p st i0 i1 lp ts' s2 assets tol None funds2 f w2' x2 l2) as (z0 & z1 & _ & K0 & K1 & _ & W2 & _); try assumption.
    pose proof (U _ _ _ V0 De0) as ->. pose proof (U _ _ _ V1 De1) as ->. pose proof (U _ _ _ K0 De0) as ->. pose proof (U _ _ _ K1 De1) as ->.
    rewrite <- E0, <- E1, <- Es in W2.
    assert (LA : forall x y (l : list coin), left_ x (Token lp) (map (fun c => (Native (c_denom c), y, p, c_amount c)) l) = 0 /\ arrived x (Token lp) (map (fun c => (Native (c_denom c), y, p, c_amount c)) l) = 0).
    { intros x y l. induction l as [|c l [I1 I2]]; [split; reflexivity|]. cbn [map left_ arrived fold_right]. unfold left_, arrived in I1, I2. rewrite I1, I2.
      rewrite !decide_False by (intros [_ Z]; discriminate). split; reflexivity. }
    pose proof (W1 s1 (Token lp)) as A1. pose proof (W2 s2 (Token lp)) as A2. clear W1 W2.
    cbn [app left_ arrived fold_right receiver_or] in A1, A2.
    destruct (LA s1 s1 (stray i0 i1 funds1)) as [B1 B2]. destruct (LA s2 s2 (stray i0 i1 funds2)) as [B3 B4]. unfold left_, arrived in B1, B2, B3, B4.
    rewrite B1, B2 in A1. rewrite B3, B4 in A2.
    repeat match type of A1 with context [decide ?P] => destruct (decide P) as [[? ?]|?]; try congruence; try (exfalso; tauto) end.
    repeat match type of A2 with context [decide ?P] => destruct (decide P) as [[? ?]|?]; try congruence; try (exfalso; tauto) end.
    lia.
Qed.
Print Assumptions C82_deposits_alike.

(** The example chain, and the same chain after other people traded on another
    pair, moved tokens and LP tokens and changed the owner of the factory: pair #4
    is the same; bob's swap there brings what it brought before, and as much as
    alice's. *)
Definition ex_elsewhere : list (bool * cmsg) :=
  [(true, x_call "#5" (JTransfer "bob" 1000000)); (false, x_call "#1" (JSend "#6" 5000 (HSwap None None None)));
   (true, x_call "#1" (JTransfer "bob" 77)); (true, x_call "#0" (JUpdateConfig (Some "bob"%string) None None))].
Example C82_case :
  let w := ex_world in let w' := after ex_world ex_elsewhere in
  let sw who := (who, x_call "#1" (JSend "#4" 10000 (HSwap None None None))) in
  is_ok (script w ex_elsewhere) = true /\ reachable ex_chain w /\ reachable ex_chain w' /\
  same_pair ex_chain "#4" ex_pair4 (Token "#1") (Native "uaura") "#5" w w' /\
  holds w "alice" (Token "#5") = 14142135 /\ holds w' "alice" (Token "#5") = 13142135 /\ holds w' "bob" (Token "#5") = 1000000 /\
  holds w "#6" (Token "#1") + 5000 = holds w' "#6" (Token "#1") /\
  is_ok (script w [sw false]) = true /\ is_ok (script w' [sw true]) = true /\
  holds (after w [sw false]) "bob" (Native "uaura") = holds w "bob" (Native "uaura") + 19921 /\
  holds (after w' [sw true]) "alice" (Native "uaura") = holds w' "alice" (Native "uaura") + 19921.
Proof.
  intros w w' sw. split; [vm_compute; reflexivity|]. split; [exact ex_reachable|].
  split; [eapply history_reachable; [exact ex_reachable|]; apply after_history|].
  split.
  { constructor.
    - split; [exact ex_pair4_at|unfold pair_at; vm_compute; reflexivity].
    - split; reflexivity.
    - split; [exists (tok_of w "#1"); apply tok_of_at; vm_compute; reflexivity|]. split; [exact I|].
      split; [exists (tok_of w' "#1"); apply tok_of_at; vm_compute; reflexivity|exact I].
    - vm_compute; reflexivity.
    - vm_compute; reflexivity.
    - reflexivity.
    - exists (tok_of w "#5"), (tok_of w' "#5"). split; [apply tok_of_at; vm_compute; reflexivity|].
      split; [apply tok_of_at; vm_compute; reflexivity|vm_compute; reflexivity]. }
  repeat (split; [vm_compute; reflexivity|]). vm_compute; reflexivity.
Qed.
