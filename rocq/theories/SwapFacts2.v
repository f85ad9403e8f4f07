(** Spread, reverse quote, limits, shares and refunds. *)
From Verif Require Import Base BigNumber CwStd BigNumberFacts PairMath SwapFacts.
From Coq Require Import ZifyN.
Local Open Scope N_scope.
Ltac Zify.zify_post_hook ::= idtac.

(** ** Spread never underflows while the offer reserve is at most 10^18 *)
Lemma gross_le_ideal op ask oa : op <> 0 -> op <= D18 ->
  sw_gross op ask oa <= sw_ideal op ask oa.
Proof.
  intros Hop Hs.
  destruct (N.eq_dec (sw_gross op ask oa) 0) as [E|Hg0]; [rewrite E; apply N.le_0_l|].
  unfold sw_ideal. apply div_ge; [discriminate|].
  assert (P2 := div_hi (ask * D18) op Hop). assert (P1 := div_lo (ask * D18) op Hop).
  set (p := ask * D18 / op) in *.
  assert (Hn : op + oa <> 0) by lia.
  assert (U := gross_upper op ask oa Hn). cbv zeta in U.
  assert (Hg := sw_gross_le op ask oa). 
  destruct (N.le_gt_cases (op + oa) D18) as [Hsmall|Hbig].
  - (* g n <= ask oa *)
    assert (E := gross_exact_cond op ask oa Hn Hsmall).
    assert (L := div_lo (ask * oa) (op + oa) Hn). rewrite <- E in L.
    set (g := sw_gross op ask oa) in *. clearbody g p.
    assert (H : g * D18 * op <= oa * p * op); [|nia].
    assert (oa * (ask * D18) <= oa * (p * op + op)) by nia.
    assert (oa * op <= g * D18 * oa) by nia.
    nia.
  - assert (Hp : ask <= p).
    { unfold p. apply div_ge; [assumption|]. nia. }
    set (g := sw_gross op ask oa) in *. clearbody g p. set (n := op + oa) in *.
    assert (H : D18 * (n * g) < D18 * (ask * oa) + n).
    { rewrite N.mul_sub_distr_l in U.
      assert (n * g <= n * ask) by (apply N.mul_le_mono_l; assumption).
      assert (n * ask = op * ask + ask * oa) by (subst n; lia). unfold D18 in *; lia. }
    assert (HD : g * D18 <= oa * ask); [|nia].
    (* n = D + m, m >= 1 *)
    remember (n - D18) as m eqn:Hm. assert (Hnm : n = D18 + m) by lia.
    rewrite Hnm in H. clearbody n.
    assert (1 <= m) by lia. 
    assert (D18 * (D18 * g) + D18 * (m * g) < D18 * (ask * oa) + D18 + m) by nia.
    assert (D18 * m <= D18 * (m * g)) by nia.
    assert (m <= D18 * m - D18 + 1) by (unfold D18 in *; lia).
    assert (D18 * (D18 * g) < D18 * (ask * oa) + 1) by (unfold D18 in *; lia).
    assert (D18 * (D18 * g) <= D18 * (ask * oa)) by lia.
    unfold D18 in *. lia.
Qed.

(** compute_swap answers or panics; it has no other failure. *)
Definition ok_or_panic {A} (r : res A) : Prop :=
  (exists v, r = Ok v) \/ (exists m, r = Err (EPanic m)).

Lemma op_bind {A B} (m : res A) (f : A -> res B) :
  ok_or_panic m -> (forall a, ok_or_panic (f a)) -> ok_or_panic (rbind m f).
Proof. intros [[v ->]|[e ->]] H; [apply H|right; eauto]. Qed.
Lemma op_ok {A} (a : A) : ok_or_panic (Ok a). Proof. left; eauto. Qed.
Lemma op_panic {A} m : ok_or_panic (@panic A m). Proof. right; eexists; reflexivity. Qed.
Lemma op_if {A} (b : bool) (x y : res A) : ok_or_panic x -> ok_or_panic y -> ok_or_panic (if b then x else y).
Proof. destruct b; auto. Qed.
Create HintDb op discriminated.
Ltac op_tac :=
  repeat match goal with
  | |- ok_or_panic (rbind _ _) => apply op_bind; [|intros]
  | |- ok_or_panic (Ok _) => apply op_ok
  | |- ok_or_panic (panic _) => apply op_panic
  | |- ok_or_panic (if _ then _ else _) => apply op_if
  | |- ok_or_panic (let '(_, _) := ?x in _) => destruct x
  end.
Lemma op_u256_mul a b : ok_or_panic (u256_mul a b). Proof. unfold u256_mul. op_tac. Qed.
Lemma op_u256_add a b : ok_or_panic (u256_add a b). Proof. unfold u256_add. op_tac. Qed.
Lemma op_u256_sub a b : ok_or_panic (u256_sub a b). Proof. unfold u256_sub. op_tac. Qed.
Lemma op_u256_div a b : ok_or_panic (u256_div a b). Proof. unfold u256_div. op_tac. Qed.
Ltac op_big :=
  unfold ui256_mul, ui256_add, ui256_sub, ui256_mul_dec, ui256_div_dec, ui256_multiply_ratio, ui256_to_u128,
    d256_from_ratio, d256_from_uint256, d256_sub, d256_mul, d256_div, d256_add; op_tac;
  auto using op_u256_mul, op_u256_add, op_u256_sub, op_u256_div.

Lemma compute_swap_ok_or_panic op ask oa : ok_or_panic (compute_swap op ask oa).
Proof. unfold compute_swap. rewrite commission_rate_eq. cbn [rbind]. op_big. Qed.
Lemma compute_offer_ok_or_panic op ask a : ok_or_panic (compute_offer_amount op ask a).
Proof. unfold compute_offer_amount. rewrite commission_rate_eq. cbn [rbind]. op_big. Qed.

(** ** Reverse quote *)

Definition inv_omc : N := 1003009027081243731.
Definition ro_gross (ask : N) : N := ask * inv_omc / D18.

Lemma compute_offer_ok op askp ask o s c :
  op < B128 -> askp < B128 -> ask < B128 ->
  compute_offer_amount op askp ask = Ok (o, s, c) ->
  let b := ro_gross ask in
  op <> 0 /\ b < askp /\ op <= op * askp / (askp - b) /\
  o = op * askp / (askp - b) - op /\ o < B128 /\
  c = sw_comm b.
Proof.
  intros Hop Haskp Hask H b. unfold compute_offer_amount in H.
  rewrite !ui256_from_u128_id in H by assumption.
  rewrite commission_rate_eq in H. cbn [rbind] in H. inv_ok.
  apply ui256_mul_ok in E as [-> E]. apply d256_sub_ok in E0 as [-> E0].
  apply d256_div_ok in E1 as (-> & E1 & E1').
  change (d256_one * D18 / (d256_one - 3000000000000000)) with inv_omc in *.
  apply ui256_mul_dec_ok in E2 as [-> E2]. change (ask * inv_omc / D18) with b in *.
  apply ui256_sub_ok in E3 as [-> E3].
  apply ui256_multiply_ratio_ok in E4 as (-> & E4 & E4').
  unfold ui256_one in *. rewrite N.mul_1_l in *.
  apply ui256_sub_ok in E5 as [-> E5].
  apply ui256_mul_dec_ok in E6 as [-> E6]. change (ask * inv_omc / D18) with b in *.
  apply d256_from_ratio_ok in E7 as (-> & E7 & E7').
  apply ui256_mul_dec_ok in E10 as [-> E10].
  change (b * 3000000000000000 / D18) with (sw_comm b) in *.
  assert (HB : op * askp / (askp - b) - op < B256).
  { eapply N.le_lt_trans; [apply N.le_sub_l|].
    apply N.div_lt_upper_bound; [assumption|].
    eapply N.lt_le_trans; [exact E|]. nia. }
  apply ui256_to_u128_ok in E11 as [-> E11]; [|assumption].
  assert (HC : sw_comm b < B256).
  { assert (sw_comm b <= b) by apply sw_comm_le. unfold B128, B256 in *. lia. }
  apply ui256_to_u128_ok in E13 as [-> E13]; [|assumption].
  repeat split; auto. lia.
Qed.

(** Swapping exactly the quote grosses at most [b]; one unit more, at least [b]. *)
Lemma quote_gross_le op askp b o : b < askp -> o = op * askp / (askp - b) - op ->
  op <= op * askp / (askp - b) -> op <> 0 -> sw_gross op askp o <= b.
Proof.
  intros Hb Ho Hle Hop. set (den := askp - b) in *.
  assert (Hden : den <> 0) by lia.
  assert (L := div_lo (op * askp) den Hden). set (m := op * askp / den) in *.
  assert (Hn : op + o = m) by lia.
  unfold sw_gross. rewrite Hn.
  assert (Hm : m <> 0) by lia.
  assert (Q : den * D18 <= op * askp * D18 / m) by (apply div_ge; [assumption|nia]).
  revert Q. generalize (op * askp * D18 / m). intros q Q.
  apply N.div_le_upper_bound; [discriminate|]. unfold D18 in *. lia.
Qed.

Lemma quote_gross_ge op askp b o : b < askp -> o = op * askp / (askp - b) - op ->
  op <= op * askp / (askp - b) -> op <> 0 -> b <= sw_gross op askp (o + 1).
Proof.
  intros Hb Ho Hle Hop. set (den := askp - b) in *.
  assert (Hden : den <> 0) by lia.
  assert (L := div_hi (op * askp) den Hden). set (m := op * askp / den) in *.
  assert (Hn : op + (o + 1) = m + 1) by lia.
  unfold sw_gross. rewrite Hn.
  assert (Q : op * askp * D18 / (m + 1) < den * D18).
  { apply div_lt; [lia|]. unfold D18. nia. }
  revert Q. generalize (op * askp * D18 / (m + 1)). intros q Q.
  apply div_ge; [discriminate|]. unfold D18 in *. lia.
Qed.

Lemma net_of_quote_le ask : ro_gross ask - sw_comm (ro_gross ask) <= ask.
Proof.
  rewrite sw_comm_eq. unfold ro_gross.
  assert (L := div_lo (ask * inv_omc) D18 D18_pos). set (b := ask * inv_omc / D18) in *. clearbody b.
  assert (X := div_hi (3 * b) 1000 ltac:(discriminate)). set (c := 3 * b / 1000) in *. clearbody c.
  unfold inv_omc, D18 in *. lia.
Qed.

Lemma net_of_quote_ge ask : ask <= 3000000000000000 -> ask <= ro_gross ask - sw_comm (ro_gross ask).
Proof.
  intros Ha. rewrite sw_comm_eq. unfold ro_gross.
  assert (L := div_hi (ask * inv_omc) D18 D18_pos). set (b := ask * inv_omc / D18) in *. clearbody b.
  assert (X := div_lo (3 * b) 1000 ltac:(discriminate)). set (c := 3 * b / 1000) in *. clearbody c.
  unfold inv_omc, D18 in *. lia.
Qed.

Lemma net_of_quote_ge_gen ask :
  ask <= ro_gross ask - sw_comm (ro_gross ask) + 1 + ask / D18.
Proof.
  rewrite sw_comm_eq. unfold ro_gross.
  assert (L := div_hi (ask * inv_omc) D18 D18_pos). set (b := ask * inv_omc / D18) in *. clearbody b.
  assert (X := div_lo (3 * b) 1000 ltac:(discriminate)). set (c := 3 * b / 1000) in *. clearbody c.
  assert (Y := div_hi ask D18 D18_pos). set (y := ask / D18) in *. clearbody y.
  unfold inv_omc, D18 in *. lia.
Qed.

(** ** Limits *)

Lemma u128_checked_mul_ok a b c : u128_checked_mul a b = Ok c <-> c = a * b /\ a * b < B128.
Proof. unfold u128_checked_mul. destruct (N.ltb_spec (a*b) B128); (split; [intros X; inv_ok; auto|intros (-> & ?); auto; try lia]). Qed.

Lemma pow10_u64_ok d v : pow10_u64 d = Ok v <-> v = 10 ^ d /\ 10 ^ d < B64.
Proof. unfold pow10_u64. destruct (N.ltb_spec (10^d) B64); (split; [intros X; inv_ok; auto|intros (-> & ?); auto; try lia]). Qed.

Lemma normalize_ok oa ra sa od rd o r s :
  oa < B128 -> ra < B128 -> sa < B128 ->
  normalize_decimals oa ra sa od rd = Ok (o, r, s) ->
  o = oa * 10 ^ (rd - od) /\ r = ra * 10 ^ (od - rd) /\ s = sa * 10 ^ (od - rd) /\
  o < B128 /\ r < B128 /\ s < B128.
Proof.
  intros Ho Hr Hs H. unfold normalize_decimals in H.
  destruct (N.ltb_spec rd od) as [L|L]; [|destruct (N.ltb_spec od rd) as [L'|L']]; inv_ok.
  - apply pow10_u64_ok in E as [-> E]. apply u128_checked_mul_ok in E0 as [-> E0].
    apply u128_checked_mul_ok in E1 as [-> E1].
    rewrite !ui256_from_u128_id by assumption.
    replace (rd - od) with 0 by lia. rewrite N.pow_0_r. repeat split; auto. lia.
  - apply pow10_u64_ok in E as [-> E]. apply u128_checked_mul_ok in E0 as [-> E0].
    rewrite !ui256_from_u128_id by assumption.
    replace (od - rd) with 0 by lia. rewrite N.pow_0_r. repeat split; auto; lia.
  - rewrite !ui256_from_u128_id by assumption.
    replace (od - rd) with 0 by lia. replace (rd - od) with 0 by lia.
    rewrite N.pow_0_r. repeat split; auto; lia.
Qed.

(** floor(a/b) <= m  iff  a < (m+1) b *)
Lemma div_le_iff a b m : b <> 0 -> (a / b <= m <-> a < (m + 1) * b).
Proof.
  intros Hb. assert (L := div_lo a b Hb). assert (H := div_hi a b Hb). split.
  - intros X. nia.
  - intros X. assert (a / b < m + 1); [|lia]. apply div_lt; [assumption|lia].
Qed.

Lemma assert_max_spread_ok bp ms oa ra sa od rd :
  oa < B128 -> ra < B128 -> sa < B128 ->
  (forall x, ms = Some x -> x < B128) -> (forall x, bp = Some x -> x < B128) ->
  assert_max_spread bp ms oa ra sa od rd = Ok tt ->
  exists o r s, normalize_decimals oa ra sa od rd = Ok (o, r, s) /\
  match ms, bp with
  | None, _ => True
  | Some m, None => r + s <> 0 /\ s * D18 < (m + 1) * (r + s)
  | Some m, Some b => b <> 0 /\
      let expected := o * D18 / b in
      expected <= r \/ (expected - r) * D18 < (m + 1) * expected
  end.
Proof.
  intros Ho Hr Hs Hm Hb H. unfold assert_max_spread in H.
  apply rbind_ok in H as ([[o r] s] & E & H).
  exists o, r, s. split; [assumption|].
  apply normalize_ok in E as (_ & _ & _ & HoB & HrB & HsB); try assumption.
  destruct ms as [m|]; [|exact I]. specialize (Hm m eq_refl).
  destruct bp as [b|].
  - specialize (Hb b eq_refl).
    rewrite !d256_from_decimal_id in H by assumption. cbn [rbind] in H.
    apply rbind_ok in H as (e & E1 & H). apply ui256_div_dec_ok in E1 as (-> & Eb & E1).
    split; [assumption|]. cbv zeta. set (e := o * D18 / b) in *. clearbody e.
    destruct (N.ltb_spec r e) as [L|L]; [right|left; assumption].
    apply rbind_ok in H as (sp & E2 & H). apply ui256_sub_ok in E2 as [-> _].
    apply rbind_ok in H as (ra' & E3 & H). apply d256_from_ratio_ok in E3 as (-> & Ee & E3).
    destruct (N.ltb_spec m ((e - r) * D18 / e)) as [L2|L2]; [discriminate|].
    apply div_le_iff in L2; assumption.
  - rewrite d256_from_decimal_id in H by assumption. cbn [rbind] in H.
    apply rbind_ok in H as (t & E1 & H). apply ui256_add_ok in E1 as [-> E1].
    apply rbind_ok in H as (q & E2 & H). apply d256_from_ratio_ok in E2 as (-> & Et & E2).
    destruct (N.ltb_spec m (s * D18 / (r + s))) as [L2|L2]; [discriminate|].
    split; [assumption|]. apply div_le_iff in L2; assumption.
Qed.

(** Converse: within the limit and without overflow the check passes. *)
Lemma assert_max_spread_complete bp ms oa ra sa od rd o r s :
  oa < B128 -> ra < B128 -> sa < B128 ->
  (forall x, ms = Some x -> x < B128) -> (forall x, bp = Some x -> x < B128) ->
  normalize_decimals oa ra sa od rd = Ok (o, r, s) ->
  match ms, bp with
  | None, _ => True
  | Some m, None => r + s <> 0 /\ s * D18 < (m + 1) * (r + s)
  | Some m, Some b => b <> 0 /\
      let expected := o * D18 / b in
      expected <= r \/ ((expected - r) * D18 < B256 /\ (expected - r) * D18 < (m + 1) * expected)
  end ->
  assert_max_spread bp ms oa ra sa od rd = Ok tt.
Proof.
  intros Ho Hr Hs Hm Hb E H. unfold assert_max_spread. rewrite E. cbn [rbind].
  apply normalize_ok in E as (_ & _ & _ & HoB & HrB & HsB); try assumption.
  destruct ms as [m|]; [|reflexivity]. specialize (Hm m eq_refl).
  destruct bp as [b|].
  - specialize (Hb b eq_refl). destruct H as [Hb0 H]. cbv zeta in H.
    rewrite !d256_from_decimal_id by assumption. cbn [rbind].
    rewrite (proj2 (ui256_div_dec_ok o b _)) by (split; [reflexivity|split; [assumption|unfold B128, B256, D18 in *; lia]]).
    cbn [rbind]. set (e := o * D18 / b) in *. clearbody e.
    destruct (N.ltb_spec r e) as [L|L]; [|reflexivity].
    destruct H as [H|[H0 H]]; [lia|].
    rewrite (proj2 (ui256_sub_ok e r _)) by (split; [reflexivity|lia]). cbn [rbind].
    rewrite (proj2 (d256_from_ratio_ok (e - r) e _)) by (split; [reflexivity|split; [lia|assumption]]). cbn [rbind].
    destruct (N.ltb_spec m ((e - r) * D18 / e)) as [L2|L2]; [|reflexivity].
    apply div_le_iff in H; [lia|lia].
  - destruct H as [H0 H]. rewrite d256_from_decimal_id by assumption. cbn [rbind].
    rewrite (proj2 (ui256_add_ok r s _)) by (split; [reflexivity|unfold B128, B256 in *; lia]). cbn [rbind].
    rewrite (proj2 (d256_from_ratio_ok s (r + s) _)) by (split; [reflexivity|split; [assumption|unfold B128, B256, D18 in *; lia]]). cbn [rbind].
    destruct (N.ltb_spec m (s * D18 / (r + s))) as [L2|L2]; [|reflexivity].
    apply div_le_iff in H; [lia|assumption].
Qed.

(** Slippage: exactly which inputs pass. *)
Lemma assert_slippage_iff st d0 d1 p0 p1 :
  d0 < B128 -> d1 < B128 -> p0 < B128 -> p1 < B128 -> st < B128 ->
  assert_slippage_tolerance (Some st) (d0, d1) (p0, p1) = Ok tt <->
  st <= D18 /\ d0 <> 0 /\ d1 <> 0 /\ p0 <> 0 /\ p1 <> 0 /\
  d0 * D18 / d1 * (D18 - st) / D18 <= p0 * D18 / p1 /\
  d1 * D18 / d0 * (D18 - st) / D18 <= p1 * D18 / p0.
Proof.
  intros H0 H1 H2 H3 Hst. unfold assert_slippage_tolerance.
  rewrite d256_from_decimal_id by assumption. cbn [rbind fst snd].
  rewrite !ui256_from_u128_id by assumption. unfold d256_one.
  assert (B : forall x, x < B128 -> x * D18 < B256) by (intros; unfold B128, B256, D18 in *; lia).
  assert (M : forall x y, x < B128 -> y <> 0 -> x * D18 / y * (D18 - st) < B256).
  { intros x y Hx Hy. assert (x * D18 / y <= x * D18) by (apply N.div_le_upper_bound; [assumption|nia]).
    revert H. generalize (x * D18 / y). intros q Hq. unfold B128, B256, D18 in *. nia. }
  split.
  - destruct (N.ltb_spec D18 st) as [L|L]; [discriminate|]. intros H. inv_ok.
    apply d256_sub_ok in E as [-> _]. apply d256_from_ratio_ok in E0 as (-> & Hd1 & _).
    apply d256_mul_ok in E1 as [-> _]. apply d256_from_ratio_ok in E2 as (-> & Hp1 & _).
    destruct (N.ltb_spec (p0 * D18 / p1) (d0 * D18 / d1 * (D18 - st) / D18)) as [L1|L1]; [discriminate|].
    inv_ok. apply d256_from_ratio_ok in E as (-> & Hd0 & _).
    apply d256_mul_ok in E0 as [-> _]. apply d256_from_ratio_ok in E1 as (-> & Hp0 & _).
    destruct (N.ltb_spec (p1 * D18 / p0) (d1 * D18 / d0 * (D18 - st) / D18)) as [L2|L2]; [discriminate|].
    repeat split; auto.
  - intros (L & Hd0 & Hd1 & Hp0 & Hp1 & L1 & L2).
    destruct (N.ltb_spec D18 st) as [L'|_]; [lia|].
    rewrite (proj2 (d256_sub_ok D18 st _)) by (split; [reflexivity|assumption]). cbn [rbind].
    rewrite (proj2 (d256_from_ratio_ok d0 d1 _)) by (split; [reflexivity|split; auto]). cbn [rbind].
    rewrite (proj2 (d256_mul_ok _ _ _)) by (split; [reflexivity|auto]). cbn [rbind].
    rewrite (proj2 (d256_from_ratio_ok p0 p1 _)) by (split; [reflexivity|split; auto]). cbn [rbind].
    destruct (N.ltb_spec (p0 * D18 / p1) (d0 * D18 / d1 * (D18 - st) / D18)) as [X|_]; [lia|].
    rewrite (proj2 (d256_from_ratio_ok d1 d0 _)) by (split; [reflexivity|split; auto]). cbn [rbind].
    rewrite (proj2 (d256_mul_ok _ _ _)) by (split; [reflexivity|auto]). cbn [rbind].
    rewrite (proj2 (d256_from_ratio_ok p1 p0 _)) by (split; [reflexivity|split; auto]). cbn [rbind].
    destruct (N.ltb_spec (p1 * D18 / p0) (d1 * D18 / d0 * (D18 - st) / D18)) as [X|_]; [lia|].
    reflexivity.
Qed.

(** The fixed-point comparison implies the rational one up to 2 * 10^-18, and
    the rational one implies it. *)
Lemma slip_sound d0 d1 p0 p1 st : d1 <> 0 -> p1 <> 0 -> st <= D18 ->
  d0 * D18 / d1 * (D18 - st) / D18 <= p0 * D18 / p1 ->
  d0 * (D18 - st) * p1 < p0 * d1 * D18 + 2 * d1 * p1.
Proof.
  intros H1 H2 Hs H.
  assert (A := div_hi (d0 * D18) d1 H1). set (a := d0 * D18 / d1) in *. clearbody a.
  assert (B := div_hi (a * (D18 - st)) D18 D18_pos). set (a' := a * (D18 - st) / D18) in *. clearbody a'.
  assert (C := div_lo (p0 * D18) p1 H2). set (b := p0 * D18 / p1) in *. clearbody b.
  set (t := D18 - st) in *. assert (Ht : t <= D18) by lia. clearbody t.
  (* d0 D < a d1 + d1; a t < a' D + D <= (b+1) D; b p1 <= p0 D *)
  assert (X1 : d0 * D18 * t <= (a * d1 + d1) * t) by (apply N.mul_le_mono_r; lia).
  assert (X2 : a * t < (b + 1) * D18) by nia.
  assert (X3 : a * t * d1 < (b + 1) * D18 * d1) by (apply N.mul_lt_mono_pos_r; lia).
  assert (X4 : d0 * D18 * t < (b + 1) * D18 * d1 + d1 * D18) by nia.
  assert (X5 : d0 * t < (b + 2) * d1).
  { apply (N.mul_lt_mono_pos_l D18); [reflexivity|]. nia. }
  assert (X6 : d0 * t * p1 < (b + 2) * d1 * p1) by (apply N.mul_lt_mono_pos_r; lia).
  assert (X7 : b * p1 * d1 <= p0 * D18 * d1) by (apply N.mul_le_mono_r; assumption).
  nia.
Qed.
Lemma slip_complete d0 d1 p0 p1 st : d1 <> 0 -> p1 <> 0 -> st <= D18 ->
  d0 * (D18 - st) * p1 <= p0 * d1 * D18 ->
  d0 * D18 / d1 * (D18 - st) / D18 <= p0 * D18 / p1.
Proof.
  intros H1 H2 Hs H.
  assert (A := div_lo (d0 * D18) d1 H1). set (a := d0 * D18 / d1) in *. clearbody a.
  assert (B := div_lo (a * (D18 - st)) D18 D18_pos). set (a' := a * (D18 - st) / D18) in *. clearbody a'.
  set (t := D18 - st) in *. clearbody t.
  apply div_ge; [assumption|].
  (* a' D d1 p1 <= a t d1 p1 <= d0 D t p1 <= p0 d1 D D *)
  apply (N.mul_le_mono_pos_r _ _ (D18 * d1)); [unfold D18; lia|].
  assert (a' * D18 * (d1 * p1) <= a * t * (d1 * p1)) by (apply N.mul_le_mono_r; assumption).
  assert (a * d1 * (t * p1) <= d0 * D18 * (t * p1)) by (apply N.mul_le_mono_r; assumption).
  assert (d0 * t * p1 * D18 <= p0 * d1 * D18 * D18) by (apply N.mul_le_mono_r; assumption).
  nia.
Qed.

(** ** Shares and refunds *)

Lemma u128_multiply_ratio_ok a b d c :
  u128_multiply_ratio a b d = Ok c <-> c = a * b / d /\ d <> 0 /\ a * b / d < B128.
Proof.
  unfold u128_multiply_ratio. destruct (N.eqb_spec d 0); [split; [discriminate|lia]|].
  destruct (N.ltb_spec (a * b / d) B128); (split; [intros X; inv_ok; auto|intros (-> & ? & ?); auto; try lia]).
Qed.

Lemma later_share_ok d0 d1 S p0 p1 s : later_share d0 d1 S p0 p1 = Ok s <->
  p0 <> 0 /\ p1 <> 0 /\ d0 * S / p0 < B128 /\ d1 * S / p1 < B128 /\
  s = N.min (d0 * S / p0) (d1 * S / p1).
Proof.
  unfold later_share. split.
  - intros H. inv_ok. apply u128_multiply_ratio_ok in E as (-> & ? & ?).
    apply u128_multiply_ratio_ok in E0 as (-> & ? & ?). auto.
  - intros (? & ? & ? & ? & ->).
    rewrite (proj2 (u128_multiply_ratio_ok d0 S p0 _)) by auto. cbn [rbind].
    rewrite (proj2 (u128_multiply_ratio_ok d1 S p1 _)) by auto. reflexivity.
Qed.

Lemma initial_share_ok d0 d1 s : initial_share d0 d1 = Ok s <-> d0 * d1 < B128 /\ s = N.sqrt (d0 * d1).
Proof.
  unfold initial_share, u128_mul. destruct (N.ltb_spec (d0 * d1) B128); cbn [rbind].
  - split; [intros X; inv_ok; auto|intros (? & ->); auto].
  - split; [discriminate|lia].
Qed.

Lemma dec_from_ratio_ok a b c : dec_from_ratio a b = Ok c <-> c = a * D18 / b /\ b <> 0 /\ a * D18 / b < B128.
Proof.
  unfold dec_from_ratio. destruct (N.eqb_spec b 0); [split; [discriminate|lia]|].
  destruct (N.ltb_spec (a * D18 / b) B128); (split; [intros X; inv_ok; auto|intros (-> & ? & ?); auto; try lia]).
Qed.

Lemma u128_mul_dec_ok a d c : u128_mul_dec a d = Ok c <-> c = a * d / D18 /\ a * d / D18 < B128.
Proof.
  unfold u128_mul_dec. destruct (N.eqb_spec a 0) as [->|]; cbn [orb].
  - rewrite N.mul_0_l. split; [intros X; inv_ok; split; reflexivity|intros [-> _]; reflexivity].
  - destruct (N.eqb_spec d 0) as [->|].
    + rewrite N.mul_0_r. split; [intros X; inv_ok; split; reflexivity|intros [-> _]; reflexivity].
    + rewrite u128_multiply_ratio_ok. split; intuition. discriminate.
Qed.

Lemma refunds_ok p0 p1 a S r0 r1 : refunds p0 p1 a S = Ok (r0, r1) <->
  S <> 0 /\ a * D18 / S < B128 /\
  r0 = p0 * (a * D18 / S) / D18 /\ r0 < B128 /\ r1 = p1 * (a * D18 / S) / D18 /\ r1 < B128.
Proof.
  unfold refunds. split.
  - intros H. inv_ok. apply dec_from_ratio_ok in E as (-> & ? & ?).
    apply u128_mul_dec_ok in E0 as (-> & ?). apply u128_mul_dec_ok in E1 as (-> & ?). auto 8.
  - intros (? & ? & -> & ? & -> & ?).
    rewrite (proj2 (dec_from_ratio_ok a S _)) by auto. cbn [rbind].
    rewrite (proj2 (u128_mul_dec_ok p0 _ _)) by auto. cbn [rbind].
    rewrite (proj2 (u128_mul_dec_ok p1 _ _)) by auto. reflexivity.
Qed.

(** A refund is at most the exact pro-rata amount and misses it by less than
    1 + p / 10^18 units. *)
Lemma refund_bounds p a S : S <> 0 ->
  let r := p * (a * D18 / S) / D18 in
  r * S <= p * a /\ p * a * D18 < (r + 1) * S * D18 + p * S.
Proof.
  intros HS r. subst r.
  assert (A1 := div_lo (a * D18) S HS). assert (A2 := div_hi (a * D18) S HS).
  set (q := a * D18 / S) in *. clearbody q.
  assert (B1 := div_lo (p * q) D18 D18_pos). assert (B2 := div_hi (p * q) D18 D18_pos).
  set (r := p * q / D18) in *. clearbody r. split.
  - apply (N.mul_le_mono_pos_l _ _ D18); [reflexivity|].
    assert (r * D18 * S <= p * q * S) by (apply N.mul_le_mono_r; assumption).
    assert (p * (q * S) <= p * (a * D18)) by (apply N.mul_le_mono_l; assumption).
    nia.
  - destruct (N.eq_dec p 0) as [->|Hp].
    + assert (0 < (r + 1) * S * D18) by (unfold D18; nia). lia.
    + assert (p * (a * D18) < p * (q * S + S)) by (apply N.mul_lt_mono_pos_l; lia).
      assert (p * q * S <= (r * D18 + D18) * S) by (apply N.mul_le_mono_r; lia). nia.
Qed.

Lemma refund_full p S : S <> 0 -> p * (S * D18 / S) / D18 = p.
Proof. intros H. rewrite (N.mul_comm S), N.div_mul by assumption. apply N.div_mul. discriminate. Qed.
