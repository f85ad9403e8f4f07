(** Arithmetic of compute_swap / compute_offer_amount. *)
From Verif Require Import Base BigNumber CwStd BigNumberFacts PairMath.
From Coq Require Import ZifyN.
Local Open Scope N_scope.
Ltac Zify.zify_post_hook ::= idtac.

Lemma div_lo a b : b <> 0 -> a / b * b <= a.
Proof. intros H. rewrite N.mul_comm. apply N.mul_div_le. assumption. Qed.
Lemma div_hi a b : b <> 0 -> a < a / b * b + b.
Proof. intros H. pose proof (N.mul_succ_div_gt a b H). lia. Qed.
Lemma div_ge a b k : b <> 0 -> k * b <= a -> k <= a / b.
Proof. intros H L. apply N.div_le_lower_bound; [assumption|lia]. Qed.
Lemma div_lt a b k : b <> 0 -> a < k * b -> a / b < k.
Proof. intros H L. apply N.div_lt_upper_bound; [assumption|lia]. Qed.

Lemma D18_pos : D18 <> 0. Proof. discriminate. Qed.

Lemma commission_rate_eq : commission_rate = Ok 3000000000000000.
Proof. vm_compute. reflexivity. Qed.

(** The integers compute_swap works with. *)
Definition sw_gross (op ask oa : N) : N := (ask * D18 - op * ask * D18 / (op + oa)) / D18.
Definition sw_comm (g : N) : N := g * 3000000000000000 / D18.
Definition sw_ideal (op ask oa : N) : N := oa * (ask * D18 / op) / D18.

Lemma sw_comm_eq g : sw_comm g = 3 * g / 1000.
Proof.
  unfold sw_comm, D18.
  replace (g * 3000000000000000) with (3 * g * 1000000000000000) by lia.
  change 1000000000000000000 with (1000 * 1000000000000000).
  rewrite N.div_mul_cancel_r; lia.
Qed.
Lemma sw_comm_le g : sw_comm g <= g.
Proof. rewrite sw_comm_eq. apply N.div_le_upper_bound; lia. Qed.

Lemma ratio_le op ask oa : op + oa <> 0 -> op * ask * D18 / (op + oa) <= ask * D18.
Proof. intros H. apply N.div_le_upper_bound; [assumption|]. nia. Qed.

Lemma sw_gross_le op ask oa : sw_gross op ask oa <= ask.
Proof.
  unfold sw_gross. apply N.div_le_upper_bound; [discriminate|].
  generalize (op * ask * D18 / (op + oa)). intros. lia.
Qed.

(** compute_swap answers iff these conditions hold, with these values. *)
Lemma compute_swap_ok op ask oa r s c :
  op < B128 -> ask < B128 -> oa < B128 ->
  compute_swap op ask oa = Ok (r, s, c) <->
  (op <> 0 /\ op * ask * D18 < B256 /\
   oa * (ask * D18 / op) < B256 /\
   sw_gross op ask oa <= sw_ideal op ask oa /\
   sw_ideal op ask oa - sw_gross op ask oa < B128 /\
   r = sw_gross op ask oa - sw_comm (sw_gross op ask oa) /\
   s = sw_ideal op ask oa - sw_gross op ask oa /\
   c = sw_comm (sw_gross op ask oa)).
Proof.
  intros Hop Hask Hoa.
  assert (Hcp : op * ask < B256) by (unfold B128, B256 in *; nia).
  assert (HaD : ask * D18 < B256) by (unfold B128, B256, D18 in *; lia).
  assert (Hn : op + oa < B256) by (unfold B128, B256 in *; lia).
  assert (Hg := sw_gross_le op ask oa).
  assert (HgB : sw_gross op ask oa * 3000000000000000 < B256).
  { unfold B128, B256 in *. lia. }
  assert (Hc := sw_comm_le (sw_gross op ask oa)).
  unfold compute_swap. rewrite !ui256_from_u128_id by assumption.
  rewrite commission_rate_eq. cbn [rbind]. split.
  - intros H. inv_ok.
    apply ui256_mul_ok in E as [-> E]. apply d256_from_uint256_ok in E0 as [-> E0].
    apply ui256_add_ok in E1 as [-> E1]. apply d256_from_ratio_ok in E2 as (-> & E2 & E2').
    apply d256_sub_ok in E3 as [-> E3]. apply ui256_mul_dec_ok in E4 as [-> E4].
    apply d256_from_ratio_ok in E5 as (-> & E5 & E5'). apply ui256_mul_dec_ok in E6 as [-> E6].
    unfold ui256_one in *. rewrite !N.mul_1_l in *.
    change ((ask * D18 - op * ask * D18 / (op + oa)) / D18) with (sw_gross op ask oa) in *.
    change (oa * (ask * D18 / op) / D18) with (sw_ideal op ask oa) in *.
    apply ui256_sub_ok in E7 as [-> E7]. apply ui256_mul_dec_ok in E8 as [-> E8].
    change (sw_gross op ask oa * 3000000000000000 / D18) with (sw_comm (sw_gross op ask oa)) in *.
    apply ui256_sub_ok in E9 as [-> E9].
    apply ui256_to_u128_ok in E10 as [-> E10]; [|unfold B128, B256 in *; lia].
    assert (HI : sw_ideal op ask oa < B256).
    { apply N.div_lt_upper_bound; [discriminate|]. eapply N.lt_le_trans; [exact E6|]. unfold B256, D18. lia. }
    apply ui256_to_u128_ok in E11 as [-> E11]; [|unfold B128, B256 in *; lia].
    apply ui256_to_u128_ok in E12 as [-> E12]; [|unfold B128, B256 in *; lia].
    repeat split; auto.
  - intros (Hop0 & H1 & H2 & H3 & H4 & -> & -> & ->).
    rewrite (proj2 (ui256_mul_ok op ask _)) by (split; [reflexivity|assumption]). cbn [rbind].
    rewrite (proj2 (d256_from_uint256_ok ask _)) by (split; [reflexivity|assumption]). cbn [rbind].
    rewrite (proj2 (ui256_add_ok op oa _)) by (split; [reflexivity|assumption]). cbn [rbind].
    rewrite (proj2 (d256_from_ratio_ok (op*ask) (op + oa) _)) by (split; [reflexivity|split; [lia|assumption]]). cbn [rbind].
    rewrite (proj2 (d256_sub_ok _ _ _)) by (split; [reflexivity|apply ratio_le; lia]). cbn [rbind].
    rewrite (proj2 (ui256_mul_dec_ok _ _ _)) by (split; [reflexivity|unfold ui256_one; rewrite N.mul_1_l; eapply N.le_lt_trans; [apply N.le_sub_l|exact HaD]]). cbn [rbind].
    rewrite (proj2 (d256_from_ratio_ok ask op _)) by (split; [reflexivity|split; assumption]). cbn [rbind].
    rewrite (proj2 (ui256_mul_dec_ok oa _ _)) by (split; [reflexivity|assumption]). cbn [rbind].
    unfold ui256_one. rewrite !N.mul_1_l.
    change ((ask * D18 - op * ask * D18 / (op + oa)) / D18) with (sw_gross op ask oa) in *.
    change (oa * (ask * D18 / op) / D18) with (sw_ideal op ask oa) in *.
    rewrite (proj2 (ui256_sub_ok _ _ _)) by (split; [reflexivity|assumption]). cbn [rbind].
    rewrite (proj2 (ui256_mul_dec_ok (sw_gross op ask oa) _ _)) by (split; [reflexivity|assumption]). cbn [rbind].
    change (sw_gross op ask oa * 3000000000000000 / D18) with (sw_comm (sw_gross op ask oa)) in *.
    rewrite (proj2 (ui256_sub_ok _ _ _)) by (split; [reflexivity|assumption]). cbn [rbind].
    assert (HI : sw_ideal op ask oa < B256).
    { apply N.div_lt_upper_bound; [discriminate|]. eapply N.lt_le_trans; [exact H2|]. unfold B256, D18. lia. }
    set (g := sw_gross op ask oa) in *. set (i := sw_ideal op ask oa) in *. set (k := sw_comm g) in *.
    assert (T1 : ui256_to_u128 (g - k) = Ok (g - k)).
    { clearbody g i k. apply ui256_to_u128_ok; [unfold B128, B256 in *; lia|]. split; [reflexivity|unfold B128 in *; lia]. }
    assert (T2 : ui256_to_u128 (i - g) = Ok (i - g)).
    { clearbody g i k. apply ui256_to_u128_ok; [unfold B128, B256 in *; lia|]. split; [reflexivity|assumption]. }
    assert (T3 : ui256_to_u128 k = Ok k).
    { clearbody g i k. apply ui256_to_u128_ok; [unfold B128, B256 in *; lia|]. split; [reflexivity|unfold B128 in *; lia]. }
    rewrite T1. cbn [rbind]. rewrite T2. cbn [rbind]. rewrite T3. reflexivity.
Qed.

(** ** Bounds on the gross output *)

(** Fixed-point rounding can push the gross output above the constant-product
    value, but by less than 10^-18 units per unit of offer reserve. *)
Lemma gross_upper op ask oa : op + oa <> 0 ->
  let n := op + oa in let g := sw_gross op ask oa in
  D18 * (op * ask) < D18 * (n * (ask - g)) + n.
Proof.
  intros Hn n g. subst n g. unfold sw_gross.
  set (n := op + oa) in *. set (q := op * ask * D18 / n).
  assert (Q1 := div_lo (op * ask * D18) n Hn). assert (Q2 := div_hi (op * ask * D18) n Hn).
  fold q in Q1, Q2.
  assert (Hq : q <= ask * D18) by (apply ratio_le; assumption).
  set (g := (ask * D18 - q) / D18).
  assert (G1 := div_lo (ask * D18 - q) D18 D18_pos). fold g in G1.
  assert (Hg : g <= ask). { unfold g. apply N.div_le_upper_bound; [discriminate|]. lia. }
  assert (q <= D18 * (ask - g)) by nia.
  assert (q * n <= D18 * (ask - g) * n) by (apply N.mul_le_mono_r; assumption).
  nia.
Qed.

(** The gross output is at least the constant-product output rounded down. *)
Lemma gross_lower op ask oa : op + oa <> 0 ->
  ask * oa / (op + oa) <= sw_gross op ask oa.
Proof.
  intros Hn. unfold sw_gross.
  set (n := op + oa) in *. set (q := op * ask * D18 / n).
  assert (Q1 := div_lo (op * ask * D18) n Hn). fold q in Q1.
  assert (Hq : q <= ask * D18) by (apply ratio_le; assumption).
  apply div_ge; [discriminate|].
  assert (X := div_lo (ask * oa) n Hn). set (x := ask * oa / n) in *.
  assert (x * D18 * n <= (ask * D18 - q) * n).
  { rewrite N.mul_sub_distr_r.
    assert (ask * D18 * n = ask * oa * D18 + op * ask * D18) by (subst n; nia). nia. }
  nia.
Qed.

Lemma gross_exact_cond op ask oa : op + oa <> 0 -> op + oa <= D18 ->
  sw_gross op ask oa = ask * oa / (op + oa).
Proof.
  intros Hn Hs. apply N.le_antisymm; [|apply gross_lower; assumption].
  assert (U := gross_upper op ask oa Hn). cbv zeta in U.
  assert (Hg := sw_gross_le op ask oa). set (g := sw_gross op ask oa) in *.
  apply div_ge; [assumption|]. set (n := op + oa) in *.
  assert (op * ask <= n * (ask - g)).
  { assert (D18 * (op * ask) < D18 * (n * (ask - g)) + D18) by lia. unfold D18 in *. nia. }
  rewrite N.mul_sub_distr_l in H.
  assert (n * g <= n * ask) by (apply N.mul_le_mono_l; assumption).
  assert (n * ask = op * ask + ask * oa) by (subst n; lia).
  lia.
Qed.

Lemma gross_upper_1 op ask oa : op + oa <> 0 ->
  sw_gross op ask oa <= ask * oa / (op + oa) + 1.
Proof.
  intros Hn.
  assert (U := gross_upper op ask oa Hn). cbv zeta in U.
  assert (Hg := sw_gross_le op ask oa). set (g := sw_gross op ask oa) in *.
  assert (X := div_hi (ask * oa) (op + oa) Hn). set (x := ask * oa / (op + oa)) in *.
  set (n := op + oa) in *.
  assert (H : D18 * (n * g) < D18 * (ask * oa) + n).
  { rewrite N.mul_sub_distr_l in U.
    assert (n * g <= n * ask) by (apply N.mul_le_mono_l; assumption).
    assert (n * ask = op * ask + ask * oa) by (subst n; lia). unfold D18 in *; lia. }
  (* D n g < D (x n + n) + n  ->  g < x + 1 + 1/D *)
  assert (n * g * D18 < n * (x + 1) * D18 + n) by (unfold D18 in *; nia).
  assert (g * D18 < (x + 1) * D18 + 1).
  { apply (N.mul_lt_mono_pos_l n); [lia|]. lia. }
  unfold D18 in *. lia.
Qed.

(** Constant product. *)
Lemma k_nondecreasing op ask oa : op + oa <> 0 ->
  let g := sw_gross op ask oa in
  op + oa <= D18 \/ 1 <= sw_comm g ->
  op * ask <= (op + oa) * (ask - (g - sw_comm g)).
Proof.
  intros Hn g Hc.
  assert (U := gross_upper op ask oa Hn). cbv zeta in U. fold g in U.
  assert (Hg := sw_gross_le op ask oa). fold g in Hg.
  assert (Hcg := sw_comm_le g). set (n := op + oa) in *. set (c := sw_comm g) in *.
  replace (ask - (g - c)) with (ask - g + c) by lia.
  rewrite N.mul_add_distr_l.
  destruct Hc as [Hc|Hc].
  - assert (op * ask <= n * (ask - g)) by (unfold D18 in *; nia). nia.
  - assert (n <= n * c) by nia.
    unfold D18 in *. lia.
Qed.

Lemma k_bound op ask oa : op + oa <> 0 ->
  let g := sw_gross op ask oa in
  D18 * (op * ask) < D18 * ((op + oa) * (ask - (g - sw_comm g))) + (op + oa).
Proof.
  intros Hn g.
  assert (U := gross_upper op ask oa Hn). cbv zeta in U. fold g in U.
  assert (Hg := sw_gross_le op ask oa). fold g in Hg.
  assert (Hcg := sw_comm_le g). set (n := op + oa) in *. set (c := sw_comm g) in *.
  replace (ask - (g - c)) with (ask - g + c) by lia.
  rewrite N.mul_add_distr_l. lia.
Qed.

Lemma comm_pos g : 1 <= sw_comm g <-> 334 <= g.
Proof.
  rewrite sw_comm_eq. split; intros H.
  - destruct (N.le_gt_cases 334 g); [assumption|].
    assert (3 * g / 1000 < 1) by (apply div_lt; lia). lia.
  - apply div_ge; lia.
Qed.

(** Drain. *)
Lemma gross_drains op ask oa : op + oa <> 0 ->
  (sw_gross op ask oa = ask <-> ask = 0 \/ op * ask * D18 < op + oa).
Proof.
  intros Hn. unfold sw_gross. set (q := op * ask * D18 / (op + oa)).
  assert (Q := ratio_le op ask oa Hn). fold q in Q.
  split.
  - intros E. destruct (N.eq_dec ask 0) as [|Ha]; [left; assumption|right].
    destruct (N.eq_dec q 0) as [E0|Hq].
    + unfold q in E0. apply N.div_small_iff in E0; assumption.
    + exfalso. assert ((ask * D18 - q) / D18 < ask); [|lia].
      apply div_lt; [discriminate|]. lia.
  - intros [->|H].
    + rewrite N.mul_0_l. rewrite N.sub_0_l. reflexivity.
    + unfold q. rewrite (N.div_small _ _ H), N.sub_0_r. apply N.div_mul. discriminate.
Qed.

(** ** Monotonicity *)

Lemma gross_mono_offer op ask oa oa' : op <> 0 -> oa <= oa' ->
  sw_gross op ask oa <= sw_gross op ask oa'.
Proof.
  intros Hop H. unfold sw_gross. apply N.div_le_mono; [discriminate|].
  assert (op * ask * D18 / (op + oa') <= op * ask * D18 / (op + oa)).
  { apply N.div_le_compat_l. lia. }
  revert H0. generalize (op * ask * D18 / (op + oa')) (op * ask * D18 / (op + oa)). intros. lia.
Qed.

Lemma gross_mono_ask op ask ask' oa : op + oa <> 0 -> ask <= ask' ->
  sw_gross op ask oa <= sw_gross op ask' oa.
Proof.
  intros Hn H. unfold sw_gross. apply N.div_le_mono; [discriminate|].
  set (n := op + oa) in *.
  assert (op * ask' * D18 / n <= op * ask * D18 / n + (ask' - ask) * D18).
  { replace (op * ask * D18 / n + (ask' - ask) * D18) with ((op * ask * D18 + (ask' - ask) * D18 * n) / n).
    - apply N.div_le_mono; [assumption|].
      remember (ask' - ask) as d eqn:Hd. replace ask' with (ask + d) by lia.
      subst n. nia.
    - rewrite N.div_add by assumption. reflexivity. }
  revert H0. generalize (op * ask' * D18 / n) (op * ask * D18 / n). unfold D18. intros. lia.
Qed.

Lemma gross_anti_op op op' ask oa : op + oa <> 0 -> op <= op' ->
  sw_gross op' ask oa <= sw_gross op ask oa.
Proof.
  intros Hn H. unfold sw_gross. apply N.div_le_mono; [discriminate|].
  assert (op * ask * D18 / (op + oa) <= op' * ask * D18 / (op' + oa)).
  { apply N.div_le_lower_bound; [lia|].
    assert (Q := div_lo (op * ask * D18) (op + oa) Hn).
    assert (R := ratio_le op ask oa Hn).
    set (q := op * ask * D18 / (op + oa)) in *.
    (* q (op'+oa) = q (op+oa) + q (op'-op) <= op ask D + ask D (op'-op) *)
    remember (op' - op) as d eqn:Hd. replace op' with (op + d) by lia. nia. }
  revert H0. generalize (op * ask * D18 / (op + oa)) (op' * ask * D18 / (op' + oa)). intros. lia.
Qed.

Lemma net_mono g g' : g <= g' -> g - sw_comm g <= g' - sw_comm g'.
Proof.
  intros H. rewrite !sw_comm_eq.
  assert (3 * g' / 1000 <= 3 * g / 1000 + (g' - g)).
  { replace (3 * g / 1000 + (g' - g)) with ((3 * g + (g' - g) * 1000) / 1000).
    - apply N.div_le_mono; lia.
    - rewrite N.div_add by lia. reflexivity. }
  assert (3 * g / 1000 <= g) by (apply N.div_le_upper_bound; lia).
  assert (3 * g' / 1000 <= g') by (apply N.div_le_upper_bound; lia).
  lia.
Qed.
