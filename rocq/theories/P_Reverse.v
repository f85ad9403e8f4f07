(** Exactly what ReverseSimulation answers, and what a swap of the quoted amount
    brings (C57, C08). *)
From Verif Require Import Base BigNumber CwStd BigNumberFacts Asset Messages PairMath Pair PairFacts Token Factory Router
  SwapFacts SwapFacts2 P_Swap P_Pair FactoryFacts P_Factory P_Router TokenFacts World WorldInd WorldFacts WorldInv WorldInd2
  Examples WorldExamples P_Ledger P_Registry ExecFacts P_Exec P_Quotes P_Split.
From Coq Require Import ZifyN.
Local Open Scope N_scope.
Ltac Zify.zify_post_hook ::= idtac.

(** ** Specification *)

(** [n] with the commission added: n/0.997, where 1/0.997 is truncated to 18
    decimals. *)
Definition with_fee (n : N) : N := n * 1003009027081243731 / 10 ^ 18.
(** What must be offered to a pool [x], [y] so that [b] leave it. *)
Definition needed (x y b : N) : N := x * y / (y - b) - x.

(** ** Lemmas *)
Lemma needed_ge x y b : b < y -> x <= x * y / (y - b).
Proof. intros H. apply N.div_le_lower_bound; [lia|]. nia. Qed.
Lemma compute_offer_iff x y n r sp c : x < B128 -> y < B128 -> n < B128 ->
  compute_offer_amount x y n = Ok (r, sp, c) <->
  x <> 0 /\ with_fee n < y /\ r = needed x y (with_fee n) /\ r < 2 ^ 128 /\ r * (y * 10 ^ 18 / x) < 2 ^ 256 /\
  sp = at_price x y r - with_fee n /\ sp < 2 ^ 128 /\ c = fee (with_fee n).
Proof.
  intros Hx Hy Hn. change (2 ^ 128) with B128. change (2 ^ 256) with B256. change (10 ^ 18) with D18.
  assert (Cp : x * y < B256) by (change B256 with (B128 * B128); apply N.mul_lt_mono; assumption).
  assert (Iv : n * inv_omc < B256) by (change B256 with (B128 * B128); apply N.mul_lt_mono; [assumption|reflexivity]).
  assert (Eb : n * inv_omc / D18 = with_fee n) by reflexivity.
  assert (Py : y * D18 < B256) by (change B256 with (B128 * B128); apply N.mul_lt_mono; [assumption|reflexivity]).
  unfold compute_offer_amount. rewrite !ui256_from_u128_id by assumption. rewrite commission_rate_eq. cbn [rbind].
  rewrite (proj2 (ui256_mul_ok x y (x * y)) (conj eq_refl Cp)). cbn [rbind].
  rewrite (proj2 (d256_sub_ok d256_one 3000000000000000 (d256_one - 3000000000000000))) by (split; [reflexivity|discriminate]). cbn [rbind].
  rewrite (proj2 (d256_div_ok d256_one (d256_one - 3000000000000000) inv_omc)) by (split; [reflexivity|split; [discriminate|reflexivity]]). cbn [rbind].
  rewrite (proj2 (ui256_mul_dec_ok n inv_omc (with_fee n)) (conj eq_refl Iv)). cbn [rbind].
  set (b := with_fee n) in *.
  assert (Bb : b < B256). { rewrite <- Eb. eapply N.le_lt_trans; [|exact Iv]. apply N.div_le_upper_bound; [discriminate|]. set (z := n * inv_omc). clearbody z. unfold D18. lia. }
  assert (Cm : b * 3000000000000000 < B256).
  { assert (b <= n * 2). { rewrite <- Eb. apply N.div_le_upper_bound; [discriminate|]. unfold inv_omc, D18. lia. }
    unfold B128, B256 in *. lia. }
  assert (Fc : sw_comm b = fee b) by (rewrite sw_comm_eq; reflexivity).
  assert (Fb : fee b < B128). { unfold fee. apply N.div_lt_upper_bound; [discriminate|]. assert (b <= n * 2). { rewrite <- Eb. apply N.div_le_upper_bound; [discriminate|]. unfold inv_omc, D18. lia. } unfold B128 in *. lia. }
  split.
  - intros H. apply rbind_ok in H as (den & E & H). apply ui256_sub_ok in E as [-> E0].
    apply rbind_ok in H as (q & E & H). apply ui256_multiply_ratio_ok in E as (-> & E1 & _). unfold ui256_one in H. rewrite N.mul_1_l in H.
    apply rbind_ok in H as (o & E & H). apply ui256_sub_ok in E as [-> E2]. fold (needed x y b) in H.
    apply rbind_ok in H as (pr & E & H). apply d256_from_ratio_ok in E as (-> & E3 & _).
    apply rbind_ok in H as (bs & E & H). apply ui256_mul_dec_ok in E as [-> E4].
    apply rbind_ok in H as (s & E & H). apply rbind_ok in H as (k & Ek & H). apply ui256_mul_dec_ok in Ek as [-> Ek].
    change (b * 3000000000000000 / D18) with (sw_comm b) in H. rewrite Fc in H.
    assert (Ho : needed x y b < B256).
    { unfold needed. eapply N.le_lt_trans; [apply N.le_sub_l|]. eapply N.le_lt_trans; [|exact Cp]. apply N.div_le_upper_bound; [assumption|]. set (v := x * y). clearbody v. nia. }
    apply rbind_ok in H as (o' & E5 & H). apply ui256_to_u128_ok in E5 as [-> E5]; [|exact Ho].
    assert (Es : s = at_price x y (needed x y b) - b /\ s < B256).
    { unfold at_price. change (10 ^ 18) with D18. set (e := needed x y b * (y * D18 / x)) in *. clearbody e.
      assert (L : e / D18 < B256) by (eapply N.le_lt_trans; [|exact E4]; apply N.div_le_upper_bound; [discriminate|unfold D18; lia]).
      set (v := e / D18) in *. clearbody v. destruct (N.ltb_spec b v).
      - apply ui256_sub_ok in E as [-> _]. split; [reflexivity|lia].
      - injection E as <-. split; [lia|reflexivity]. }
    destruct Es as [Es Es']. apply rbind_ok in H as (s' & E6 & H). apply ui256_to_u128_ok in E6 as [-> E6]; [|exact Es'].
    apply rbind_ok in H as (c' & E7 & H). apply ui256_to_u128_ok in E7 as [-> E7]; [|eapply N.lt_trans; [exact Fb|reflexivity]].
    injection H as <- <- <-. split; [exact E3|]. split; [lia|]. split; [reflexivity|]. split; [exact E5|]. split; [exact E4|]. split; [exact Es|]. split; [exact E6|reflexivity].
  - intros (H0 & H1 & -> & H2 & H3 & Es & H5 & ->).
    rewrite (proj2 (ui256_sub_ok y b (y - b))) by (split; [reflexivity|lia]). cbn [rbind].
    rewrite (proj2 (ui256_multiply_ratio_ok ui256_one (x * y) (y - b) (x * y / (y - b)))) by (unfold ui256_one; rewrite N.mul_1_l; split; [reflexivity|split; [lia|exact Cp]]). cbn [rbind].
    rewrite (proj2 (ui256_sub_ok (x * y / (y - b)) x (needed x y b))) by (split; [reflexivity|exact (needed_ge x y b H1)]). cbn [rbind].
    rewrite (proj2 (d256_from_ratio_ok y x (y * D18 / x))) by (split; [reflexivity|split; assumption]). cbn [rbind].
    rewrite (proj2 (ui256_mul_dec_ok _ _ _) (conj eq_refl H3)). cbn [rbind].
    change (needed x y b * (y * D18 / x) / D18) with (at_price x y (needed x y b)). set (v := at_price x y (needed x y b)) in *.
    assert (X : (if b <? v then ui256_sub v b else Ok 0) = Ok sp).
    { destruct (N.ltb_spec b v); [apply ui256_sub_ok; split; [exact Es|lia]|f_equal; lia]. }
    rewrite X. cbn [rbind]. rewrite (proj2 (ui256_mul_dec_ok b 3000000000000000 (fee b))) by (split; [rewrite <- Fc; reflexivity|exact Cm]). cbn [rbind].
    assert (Lt : B128 < B256) by reflexivity.
    rewrite (proj2 (ui256_to_u128_ok (needed x y b) (needed x y b) (N.lt_trans _ _ _ H2 Lt)) (conj eq_refl H2)). cbn [rbind].
    rewrite (proj2 (ui256_to_u128_ok sp sp (N.lt_trans _ _ _ H5 Lt)) (conj eq_refl H5)). cbn [rbind].
    rewrite (proj2 (ui256_to_u128_ok (fee b) (fee b) (N.lt_trans _ _ _ Fb Lt)) (conj eq_refl Fb)). reflexivity.
Qed.

Section reverse.
  Context (C : chain) (OK : chain_ok C).
  Local Notation A := (ch_api C).
  Lemma reverse_ok w p st o ai od ad n r sp c : sane C w -> pair_at w p st -> human A (r_contract_addr st) = Some p ->
    sides A st o ai od ad -> o <> ai -> live w o -> live w ai ->
    n < B128 -> holds w p o < B128 -> holds w p ai < B128 -> compute_offer_amount (holds w p o) (holds w p ai) n = Ok (r, sp, c) ->
    ask_reverse C w p (Asset ai n) = Ok (ReverseSimulation r sp c).
  Proof.
    intros Sn Hp Hh Hs Hne Lo La Rn Ro Ra Hc. unfold ask_reverse, contract_at. rewrite (sane_norm C OK _ _ _ Sn Hp). cbn [oget rbind].
    pose proof Hp as Hi. apply state_at_inst in Hi as (adm & Hi). rewrite Hi. cbn [oget rbind i_state].
    unfold pair_query_reverse_simulation. cbn [a_amount a_info]. unfold u128_ok. rewrite (proj2 (N.ltb_lt _ _) Rn). cbn [negb].
    rewrite (proj2 (addr_humanize_ok A _ p) Hh). cbn [rbind].
    destruct (query_pools_sides C OK w p st o ai od ad) as [-> | ->]; auto; cbn [rbind a_info a_amount].
    - destruct (info_equal ai o) eqn:E; [apply info_equal_spec in E; congruence|].
      rewrite (proj2 (info_equal_spec ai ai) eq_refl). cbn [rbind a_amount]. rewrite Hc. reflexivity.
    - rewrite (proj2 (info_equal_spec ai ai) eq_refl). cbn [rbind a_amount]. rewrite Hc. reflexivity.
  Qed.
End reverse.

(** ** C57 for ReverseSimulation *)
Theorem C57_reverse_is_formula C w p st o ai od ad n r sp c : chain_ok C -> reachable C w -> pair_at w p st ->
  sides (ch_api C) st o ai od ad -> o <> ai -> live w o -> live w ai ->
  let x := holds w p o in let y := holds w p ai in let b := with_fee n in
  ask_reverse C w p (Asset ai n) = Ok (ReverseSimulation r sp c) <->
  n < 2 ^ 128 /\ x < 2 ^ 128 /\ y < 2 ^ 128 /\
  x <> 0 /\ b < y /\ r = needed x y b /\ r < 2 ^ 128 /\ r * (y * 10 ^ 18 / x) < 2 ^ 256 /\
  sp = at_price x y r - b /\ sp < 2 ^ 128 /\ c = fee b.
Proof.
  intros OK Hr Hp Hs Hne Lo La x y b. pose proof (main_sane C w (reachable_main C OK w Hr)) as Sn. pose proof (reachable_pair C OK w p st Hr Hp) as Hh.
  split.
  - intros H. destruct (reverse_inv C OK w p st o ai od ad n r sp c Sn Hp Hh Hs Hne Lo La H) as (Rn & Ro & Ra & Hc).
    apply compute_offer_iff in Hc; [|assumption..]. exact (conj Rn (conj Ro (conj Ra Hc))).
  - intros (Rn & Ro & Ra & Hc). apply (reverse_ok C OK w p st o ai od ad n r sp c Sn Hp Hh Hs Hne Lo La Rn Ro Ra). apply compute_offer_iff; [assumption..|exact Hc].
Qed.
Print Assumptions C57_reverse_is_formula.

(** ** C08 over whole transactions *)

(** If ReverseSimulation quotes [r] units of the token [t] for [n] units of the
    other asset, then a swap of [r] units executed next pays at most [n], and one
    of [r + 1] units at least [n] (for [n] up to 3*10^15; in general it is short
    by at most 1 + n/10^18). *)
Theorem C08_quote_executed C w p st t ai od ad n r sp c : chain_ok C -> reachable C w -> pair_at w p st ->
  sides (ch_api C) st (Token t) ai od ad -> Token t <> ai -> live w (Token t) -> live w ai ->
  ask_reverse C w p (Asset ai n) = Ok (ReverseSimulation r sp c) ->
  forall s bp ms to w' lg, default s to <> p ->
  (tx C w s (MExecute t (JSend p r (HSwap bp ms to)) []) w' lg -> paid_out w w' p ai <= n) /\
  (tx C w s (MExecute t (JSend p (r + 1) (HSwap bp ms to)) []) w' lg ->
   n <= paid_out w w' p ai + 1 + n / 10 ^ 18 /\ (n <= 3 * 10 ^ 15 -> n <= paid_out w w' p ai)).
Proof.
  intros OK Hr Hp Hs Hne Lt La Hq s bp ms to w' lg Hto.
  apply (C57_reverse_is_formula C w p st (Token t) ai od ad n r sp c OK Hr Hp Hs Hne Lt La) in Hq as (_ & _ & _ & H0 & Hb & Er & _).
  set (x := holds w p (Token t)) in *. set (y := holds w p ai) in *.
  destruct (pair_fresh C w p st (reachable_main C OK w Hr) Hp) as (n0 & Ep).
  change (with_fee n) with (ro_gross n) in *. pose proof (needed_ge x y _ Hb) as Hle.
  assert (U := net_of_quote_le n). assert (V := net_of_quote_ge_gen n). assert (W := net_of_quote_ge n). change D18 with (10 ^ 18) in V.
  rewrite sw_comm_eq in U, V, W. split; intros ([Ns O] & f & z & E).
  - apply (swap_reserves C w p st t ai od ad) in E as (_ & _ & E1); auto; [|intros ->; exact (O n0 (eq_sym Ep))].
    fold x y in E1. assert (G := quote_gross_le x y (ro_gross n) r Hb Er Hle H0). rewrite <- gross_eq in G by exact H0.
    pose proof (net_le _ (ro_gross n) 0 ltac:(rewrite N.add_0_r; exact G)) as N1. unfold fee in N1 at 2.
    unfold paid_out. fold y. set (g := gross x y r) in *. set (q := 3 * ro_gross n / 1000) in *. clearbody q. lia.
  - apply (swap_reserves C w p st t ai od ad) in E as (_ & _ & E1); auto; [|intros ->; exact (O n0 (eq_sym Ep))].
    fold x y in E1. assert (G := quote_gross_ge x y (ro_gross n) r Hb Er Hle H0). rewrite <- gross_eq in G by exact H0.
    pose proof (net_le (ro_gross n) _ 0 ltac:(rewrite N.add_0_r; exact G)) as N1. unfold fee in N1 at 1.
    unfold paid_out. fold y. set (g := gross x y (r + 1)) in *. set (q := 3 * ro_gross n / 1000) in *. set (k := n / 10 ^ 18) in *. clearbody q k.
    assert (Fg : g - fee g <= y - holds w' p ai) by lia. split; [lia|]. intros L. specialize (W L). lia.
Qed.
Print Assumptions C08_quote_executed.

(** Who wants 19921 uaura of pair #4 is quoted 9999 units of #1, which bring
    19919; one unit more brings 19921. *)
Example C08_quote_case :
  let u := Native "uaura" in let w := ex_world in
  let sw n := (false, x_call "#1" (JSend "#4" n (HSwap None None None))) in
  reachable ex_chain w /\ pair_at w "#4" ex_pair4 /\ sides ex_api ex_pair4 (Token "#1") u 6 6 /\ live w (Token "#1") /\
  ask_reverse ex_chain w "#4" (Asset u 19921) = Ok (ReverseSimulation 9999 18 59) /\
  with_fee 19921 = 19980 /\ needed 10000000 20000000 19980 = 9999 /\
  is_ok (script w [sw 9999]) = true /\ is_ok (script w [sw 10000]) = true /\
  paid_out w (after w [sw 9999]) "#4" u = 19919 /\ paid_out w (after w [sw 10000]) "#4" u = 19921.
Proof.
  intros u w sw. split; [exact ex_reachable|]. split; [exact ex_pair4_at|]. split; [left; vm_compute; auto|].
  split; [exists (tok_of ex_world "#1"); apply tok_of_at; vm_compute; reflexivity|].
  repeat (split; [vm_compute; reflexivity|]). vm_compute; reflexivity.
Qed.
