(** C01-C06 and C08: the swap curve, both quote directions.

    Reserves, offers and answers are natural numbers of base units; [op] and
    [ask] are the reserves before the swap, [oa] the offered amount, and an
    answer is (return, spread, commission).  A swap turns the reserves
    (op, ask) into (op + oa, ask - return). *)
From Verif Require Import Base BigNumber CwStd BigNumberFacts PairMath SwapFacts SwapFacts2.
From Coq Require Import ZifyN.
Local Open Scope N_scope.
Ltac Zify.zify_post_hook ::= idtac.

Lemma swap_answer op ask oa r s c : op < B128 -> ask < B128 -> oa < B128 ->
  compute_swap op ask oa = Ok (r, s, c) ->
  op <> 0 /\ r = sw_gross op ask oa - sw_comm (sw_gross op ask oa) /\
  s = sw_ideal op ask oa - sw_gross op ask oa /\ c = sw_comm (sw_gross op ask oa) /\
  r + c = sw_gross op ask oa /\ sw_gross op ask oa <= ask.
Proof.
  intros H1 H2 H3 H. apply compute_swap_ok in H as (H0 & _ & _ & _ & _ & -> & -> & ->); try assumption.
  assert (X := sw_comm_le (sw_gross op ask oa)). assert (Y := sw_gross_le op ask oa).
  repeat split; auto. lia.
Qed.

Lemma sw_gross_ceil op ask oa : op + oa <> 0 ->
  sw_gross op ask oa = (ask * oa * D18 + (op + oa - 1)) / (op + oa) / D18.
Proof.
  intros Hn. unfold sw_gross. f_equal.
  assert (Q1 := div_lo (op * ask * D18) _ Hn). assert (Q2 := div_hi (op * ask * D18) _ Hn).
  assert (Q3 := ratio_le op ask oa Hn).
  set (q := op * ask * D18 / (op + oa)) in *. clearbody q.
  assert (X : ask * D18 * (op + oa) = op * ask * D18 + ask * oa * D18) by lia.
  set (n := op + oa) in *. clearbody n.
  set (Y := ask * oa * D18) in *. set (Z := op * ask * D18) in *. set (W := ask * D18) in *.
  clearbody Y Z W.
  assert (q * n <= W * n) by (apply N.mul_le_mono_r; assumption).
  assert (M : (W - q) * n = W * n - q * n) by apply N.mul_sub_distr_r.
  apply (N.div_unique _ _ _ (Y + (n - 1) - (W - q) * n)).
  - rewrite M. lia.
  - rewrite (N.mul_comm n), M. lia.
Qed.

(** ** C01 *)

(** The product of the reserves does not fall if the offer reserve after the
    swap is at most 10^18 units, or if the swap paid any commission. *)
Theorem C01_product_never_falls : forall op ask oa r s c,
  op < B128 -> ask < B128 -> oa < B128 ->
  compute_swap op ask oa = Ok (r, s, c) ->
  op + oa <= 10 ^ 18 \/ 1 <= c ->
  r <= ask /\ op * ask <= (op + oa) * (ask - r).
Proof.
  intros op ask oa r s c H1 H2 H3 H Hc.
  apply swap_answer in H as (H0 & -> & -> & -> & Hrc & Hg); try assumption.
  split; [lia|]. apply k_nondecreasing; [lia|]. exact Hc.
Qed.

(** Without that condition it can fall, by less than (op+oa)/10^18. *)
Theorem C01_product_fall_bound : forall op ask oa r s c,
  op < B128 -> ask < B128 -> oa < B128 ->
  compute_swap op ask oa = Ok (r, s, c) ->
  10 ^ 18 * (op * ask) < 10 ^ 18 * ((op + oa) * (ask - r)) + (op + oa).
Proof.
  intros op ask oa r s c H1 H2 H3 H.
  apply swap_answer in H as (H0 & -> & -> & -> & Hrc & Hg); try assumption.
  apply k_bound. lia.
Qed.

(** A commission is paid exactly when at least 334 units leave the curve. *)
Theorem C01_commission_positive : forall op ask oa r s c,
  op < B128 -> ask < B128 -> oa < B128 ->
  compute_swap op ask oa = Ok (r, s, c) -> (1 <= c <-> 334 <= r + c).
Proof.
  intros op ask oa r s c H1 H2 H3 H.
  apply swap_answer in H as (H0 & -> & -> & -> & Hrc & Hg); try assumption.
  rewrite Hrc. apply comm_pos.
Qed.

Example C01_example :
  compute_swap 30000000000 20000000000 1500000000 = Ok (949523810, 47619047, 2857142) /\
  30000000000 * 20000000000 <= 31500000000 * (20000000000 - 949523810).
Proof. split; [vm_compute; reflexivity|lia]. Qed.

(** The unconditional claim is false: reserves (2*10^18 - 1, 10^18), offer 2,
    return 1. *)
Theorem C01_product_never_falls_refuted : exists op ask oa r s c,
  op < B128 /\ ask < B128 /\ oa < B128 /\
  compute_swap op ask oa = Ok (r, s, c) /\
  (op + oa) * (ask - r) < op * ask.
Proof.
  exists 1999999999999999999, 1000000000000000000, 2, 1, 0, 0.
  repeat split; vm_compute; reflexivity.
Qed.

(** ** C02 *)

(** At most the ask reserve leaves, commission included; the reserve is emptied
    exactly by a fee-less answer to an offer of more than
    op * (ask * 10^18 - 1) units. *)
Theorem C02_never_overdrawn : forall op ask oa r s c,
  op < B128 -> ask < B128 -> oa < B128 ->
  compute_swap op ask oa = Ok (r, s, c) -> r + c <= ask.
Proof.
  intros op ask oa r s c H1 H2 H3 H.
  apply swap_answer in H as (H0 & -> & -> & -> & Hrc & Hg); try assumption. lia.
Qed.

Theorem C02_drained_iff : forall op ask oa r s c,
  op < B128 -> ask < B128 -> oa < B128 -> ask <> 0 ->
  compute_swap op ask oa = Ok (r, s, c) ->
  (ask - r = 0 <-> c = 0 /\ op * ask * 10 ^ 18 < op + oa).
Proof.
  intros op ask oa r s c H1 H2 H3 Ha H.
  apply swap_answer in H as (H0 & Hr & Hs & Hcc & Hrc & Hg); try assumption.
  assert (D := gross_drains op ask oa ltac:(lia)). rewrite <- Hrc in D.
  change (10 ^ 18) with D18. split.
  - intros E. assert (c = 0) by lia. split; [assumption|].
    destruct (proj1 D) as [?|?]; [lia|lia|assumption].
  - intros [-> X]. assert (r + 0 = ask) by (apply D; auto). lia.
Qed.

(** In particular 334 units of the ask asset, or an offer below
    op * (ask*10^18 - 1), are enough to stay clear of it. *)
Corollary C02_never_emptied : forall op ask oa r s c,
  op < B128 -> ask < B128 -> oa < B128 -> ask <> 0 ->
  compute_swap op ask oa = Ok (r, s, c) ->
  334 <= ask \/ op + oa <= op * ask * 10 ^ 18 ->
  r < ask.
Proof.
  intros op ask oa r s c H1 H2 H3 Ha H Hc.
  assert (D := C02_drained_iff op ask oa r s c H1 H2 H3 Ha H).
  assert (P := C01_commission_positive op ask oa r s c H1 H2 H3 H).
  assert (O := C02_never_overdrawn op ask oa r s c H1 H2 H3 H).
  assert (ask - r <> 0); [|lia].
  intros E. apply D in E as [-> E].
  destruct Hc as [Hc|Hc]; [|lia].
  assert (ask - r = 0) by (apply D; auto). lia.
Qed.

Example C02_example : compute_swap 1000 1000 1000000000 = Ok (997, 999999001, 2) /\ 997 < 1000.
Proof. vm_compute. auto. Qed.

(** Unconditionally false: one unit on each side, offer 10^18. *)
Theorem C02_never_emptied_refuted : exists op ask oa s c,
  op < B128 /\ ask < B128 /\ oa < B128 /\ op <> 0 /\ ask <> 0 /\
  compute_swap op ask oa = Ok (ask, s, c).
Proof.
  exists 1, 1, 1000000000000000000, 999999999999999999, 0.
  repeat split; try discriminate; vm_compute; reflexivity.
Qed.

(** ** C03 *)

(** The gross output return + commission is the constant-product output
    ask*oa/(op+oa) taken to 18 decimals, rounded up, then rounded down to a
    unit; the commission is floor(0.3% of gross). *)
Theorem C03_fee_and_gross : forall op ask oa r s c,
  op < B128 -> ask < B128 -> oa < B128 ->
  compute_swap op ask oa = Ok (r, s, c) ->
  let g := r + c in
  c = 3 * g / 1000 /\
  g = (ask * oa * 10 ^ 18 + (op + oa - 1)) / (op + oa) / 10 ^ 18 /\
  s + g = oa * (ask * 10 ^ 18 / op) / 10 ^ 18.
Proof.
  intros op ask oa r s c H1 H2 H3 H.
  apply compute_swap_ok in H as (H0 & _ & _ & Hle & _ & -> & -> & ->); try assumption.
  cbv zeta. assert (X := sw_comm_le (sw_gross op ask oa)).
  replace (sw_gross op ask oa - sw_comm (sw_gross op ask oa) + sw_comm (sw_gross op ask oa))
    with (sw_gross op ask oa) by lia.
  split; [apply sw_comm_eq|]. split.
  - apply sw_gross_ceil. lia.
  - change (oa * (ask * 10 ^ 18 / op) / 10 ^ 18) with (sw_ideal op ask oa). lia.
Qed.

(** For pools whose offer reserve stays at or below 10^18 units the gross output
    is exactly the rounded-down constant-product output; in general it is that
    or one unit more. *)
Theorem C03_gross_exact : forall op ask oa r s c,
  op < B128 -> ask < B128 -> oa < B128 ->
  compute_swap op ask oa = Ok (r, s, c) ->
  ask * oa / (op + oa) <= r + c <= ask * oa / (op + oa) + 1 /\
  (op + oa <= 10 ^ 18 -> r + c = ask * oa / (op + oa)).
Proof.
  intros op ask oa r s c H1 H2 H3 H.
  apply swap_answer in H as (H0 & -> & -> & -> & Hrc & Hg); try assumption.
  rewrite Hrc. split; [split|].
  - apply gross_lower. lia.
  - apply gross_upper_1. lia.
  - apply gross_exact_cond. lia.
Qed.

Example C03_example : compute_swap 30000000000 20000000000 1500000000 = Ok (949523810, 47619047, 2857142) /\
  3 * (949523810 + 2857142) / 1000 = 2857142 /\
  20000000000 * 1500000000 / 31500000000 = 949523810 + 2857142.
Proof. vm_compute. auto. Qed.

(** ** C04 *)

(** Simulation answers, or aborts; and it answers exactly when the offer
    reserve is non-empty, the two 256-bit products fit, the spread is not
    negative and fits 128 bits. *)
Theorem C04_answers_iff : forall op ask oa,
  op < B128 -> ask < B128 -> oa < B128 ->
  let g := (ask * oa * 10 ^ 18 + (op + oa - 1)) / (op + oa) / 10 ^ 18 in
  let ideal := oa * (ask * 10 ^ 18 / op) / 10 ^ 18 in
  ((exists v, compute_swap op ask oa = Ok v) \/
   (exists msg, compute_swap op ask oa = Err (EPanic msg))) /\
  ((exists v, compute_swap op ask oa = Ok v) <->
   op <> 0 /\ op * ask * 10 ^ 18 < 2 ^ 256 /\ oa * (ask * 10 ^ 18 / op) < 2 ^ 256 /\
   g <= ideal < g + 2 ^ 128).
Proof.
  intros op ask oa H1 H2 H3 g ideal. split; [apply compute_swap_ok_or_panic|].
  assert (G : op <> 0 -> g = sw_gross op ask oa).
  { intros H0. symmetry. apply sw_gross_ceil. lia. }
  change (2 ^ 256) with B256. change (2 ^ 128) with B128. change (10 ^ 18) with D18 in *.
  change (oa * (ask * D18 / op) / D18) with (sw_ideal op ask oa) in *. subst ideal.
  set (p := oa * (ask * D18 / op)) in *.
  split.
  - intros [[[r s] c] H]. apply compute_swap_ok in H as (H0 & Ha & Hb & Hc & Hd & _); try assumption.
    rewrite (G H0). fold p in Hb. set (x := sw_ideal op ask oa) in *. set (y := sw_gross op ask oa) in *.
    clearbody x y p. repeat split; auto. lia.
  - intros (H0 & Ha & Hb & Hc & Hd). rewrite (G H0) in *.
    exists (sw_gross op ask oa - sw_comm (sw_gross op ask oa),
       sw_ideal op ask oa - sw_gross op ask oa, sw_comm (sw_gross op ask oa)).
    apply compute_swap_ok; try assumption. fold p.
    set (x := sw_ideal op ask oa) in *. set (y := sw_gross op ask oa) in *.
    clearbody x y p. repeat split; auto. lia.
Qed.

(** A pool whose offer reserve is between 1 and 10^18 units answers every offer
    whose value at the current price fits 128 bits. *)
Theorem C04_live_pool_answers : forall op ask oa,
  op < B128 -> ask < B128 -> oa < B128 ->
  1 <= op -> op <= 10 ^ 18 -> oa * ask < 2 ^ 128 * op ->
  exists v, compute_swap op ask oa = Ok v.
Proof.
  intros op ask oa H1 H2 H3 H0 Hop Hfit. change (2 ^ 128) with B128 in Hfit. change (10 ^ 18) with D18 in Hop.
  exists (sw_gross op ask oa - sw_comm (sw_gross op ask oa),
       sw_ideal op ask oa - sw_gross op ask oa, sw_comm (sw_gross op ask oa)).
  apply compute_swap_ok; try assumption.
  assert (L := gross_le_ideal op ask oa ltac:(lia) Hop).
  assert (P := div_lo (ask * D18) op ltac:(lia)).
  assert (B : oa * (ask * D18 / op) < B128 * D18).
  { set (p := ask * D18 / op) in *. clearbody p.
    apply (N.mul_lt_mono_pos_r op); [lia|]. nia. }
  assert (I : sw_ideal op ask oa < B128).
  { unfold sw_ideal. apply N.div_lt_upper_bound; [discriminate|]. revert B.
    generalize (oa * (ask * D18 / op)). intros; lia. }
  split; [lia|]. split; [unfold B128, B256, D18 in *; nia|].
  split; [eapply N.lt_trans; [exact B|reflexivity]|].
  split; [assumption|]. split; [|auto].
  revert I. generalize (sw_ideal op ask oa) (sw_gross op ask oa). intros; lia.
Qed.

Example C04_example : exists v, compute_swap 1000000 (2 ^ 127) 1000000 = Ok v.
Proof. eexists. vm_compute. reflexivity. Qed.

(** Without the 10^18 limit a quote can abort although everything fits: the
    rounding of the ideal output makes the spread negative. *)
Theorem C04_live_pool_answers_refuted : exists op ask oa,
  op < B128 /\ ask < B128 /\ oa < B128 /\ 1 <= op /\ 1 <= ask /\ oa * ask < 2 ^ 128 * op /\
  exists msg, compute_swap op ask oa = Err (EPanic msg).
Proof.
  exists (10 ^ 30), (10 ^ 11), (10 ^ 30). repeat split; try reflexivity; try discriminate.
  eexists. vm_compute. reflexivity.
Qed.

(** ** C05 *)

Theorem C05_return_monotone : forall op ask ask' oa oa' r s c r' s' c',
  op < B128 -> ask < B128 -> ask' < B128 -> oa < B128 -> oa' < B128 ->
  ask <= ask' -> oa <= oa' ->
  compute_swap op ask oa = Ok (r, s, c) ->
  compute_swap op ask' oa' = Ok (r', s', c') ->
  r <= r' /\ c <= c'.
Proof.
  intros op ask ask' oa oa' r s c r' s' c' H1 H2 H2' H3 H3' La Lo H H'.
  apply swap_answer in H as (H0 & -> & _ & -> & _); try assumption.
  apply swap_answer in H' as (_ & -> & _ & -> & _); try assumption.
  assert (L : sw_gross op ask oa <= sw_gross op ask' oa').
  { etransitivity; [apply (gross_mono_offer op ask oa oa'); [lia|assumption]|].
    apply gross_mono_ask; lia. }
  split; [apply net_mono; assumption|].
  rewrite !sw_comm_eq. apply N.div_le_mono; lia.
Qed.

(** A deeper offer side never returns more for the same offer. *)
Theorem C05_return_antitone_in_offer_reserve : forall op op' ask oa r s c r' s' c',
  op < B128 -> op' < B128 -> ask < B128 -> oa < B128 -> op <= op' ->
  compute_swap op ask oa = Ok (r, s, c) ->
  compute_swap op' ask oa = Ok (r', s', c') ->
  r' <= r.
Proof.
  intros op op' ask oa r s c r' s' c' H1 H1' H2 H3 L H H'.
  apply swap_answer in H as (H0 & -> & _ & -> & _); try assumption.
  apply swap_answer in H' as (_ & -> & _ & -> & _); try assumption.
  apply net_mono. apply gross_anti_op; lia.
Qed.

Example C05_example :
  compute_swap 1000000 1000000 1000 = Ok (997, 1, 2) /\
  compute_swap 1000000 1000000 1001 = Ok (997, 2, 2) /\
  compute_swap 1000000 2000000 1001 = Ok (1994, 3, 5) /\
  compute_swap 2000000 1000000 1001 = Ok (499, 0, 1).
Proof. vm_compute. auto. Qed.

(** ** C06 *)

(** One swap on reserves (x, y), in either direction. *)
Inductive swap_step : N * N -> N * N -> Prop :=
| swap_forth x y oa r s c : compute_swap x y oa = Ok (r, s, c) ->
    x < B128 -> y < B128 -> oa < B128 ->
    swap_step (x, y) (x + oa, y - r)
| swap_back x y oa r s c : compute_swap y x oa = Ok (r, s, c) ->
    x < B128 -> y < B128 -> oa < B128 ->
    swap_step (x, y) (x - r, y + oa).

(** A finite sequence of [n] swaps. *)
Inductive swap_run : nat -> N * N -> N * N -> Prop :=
| run_nil p : swap_run 0 p p
| run_step n p q r : swap_run n p q -> swap_step q r -> swap_run (S n) p r.

(** The trader profits at the pool's expense: one reserve lower, the other not
    higher. *)
Definition profitable (p q : N * N) : Prop :=
  (q.1 < p.1 /\ q.2 <= p.2) \/ (q.1 <= p.1 /\ q.2 < p.2).

Lemma step_bound M p q : swap_step p q -> q.1 <= M -> q.2 <= M ->
  D18 * (p.1 * p.2) <= D18 * (q.1 * q.2) + M.
Proof.
  intros H; inversion H; subst; cbn [fst snd]; intros M1 M2.
  - apply C01_product_fall_bound in H0; try assumption. change (10 ^ 18) with D18 in H0. lia.
  - apply C01_product_fall_bound in H0; try assumption. change (10 ^ 18) with D18 in H0. lia.
Qed.

(** All intermediate states of a run satisfy [P]. *)
Inductive swap_run_in (P : N * N -> Prop) : nat -> N * N -> N * N -> Prop :=
| runin_nil p : swap_run_in P 0 p p
| runin_step n p q r : swap_run_in P n p q -> swap_step q r -> P r ->
    swap_run_in P (S n) p r.

(** Over any sequence of n swaps with reserves at most M, the product falls by
    at most n * M / 10^18. *)
Theorem C06_product_bound : forall M n p q,
  swap_run_in (fun s => s.1 <= M /\ s.2 <= M) n p q ->
  10 ^ 18 * (p.1 * p.2) <= 10 ^ 18 * (q.1 * q.2) + N.of_nat n * M.
Proof.
  intros M n p q H. change (10 ^ 18) with D18. induction H as [p|n p q r Hr IH Hs [H1 H2]].
  - lia.
  - assert (X := step_bound M q r Hs H1 H2). rewrite Nat2N.inj_succ. lia.
Qed.

Lemma no_profit k p q : 0 < p.1 -> 0 < p.2 ->
  D18 * (p.1 * p.2) <= D18 * (q.1 * q.2) + k ->
  k < D18 * N.min p.1 p.2 -> ~ profitable p q.
Proof.
  intros H1 H2 H K [[A B]|[A B]].
  - assert (q.1 * q.2 <= (p.1 - 1) * p.2) by nia.
    assert ((p.1 - 1) * p.2 + p.2 = p.1 * p.2) by nia.
    assert (k < D18 * p.2) by (eapply N.lt_le_trans; [exact K|]; unfold D18; lia).
    unfold D18 in *. lia.
  - assert (q.1 * q.2 <= p.1 * (p.2 - 1)) by nia.
    assert (p.1 * (p.2 - 1) + p.1 = p.1 * p.2) by nia.
    assert (k < D18 * p.1) by (eapply N.lt_le_trans; [exact K|]; unfold D18; lia).
    unfold D18 in *. lia.
Qed.

(** No sequence of swaps is profitable as long as the number of swaps times the
    largest reserve is below 10^18 times the smaller initial reserve. *)
Theorem C06_no_profitable_sequence : forall M n p q,
  0 < p.1 -> 0 < p.2 ->
  swap_run_in (fun s => s.1 <= M /\ s.2 <= M) n p q ->
  N.of_nat n * M < 10 ^ 18 * N.min p.1 p.2 ->
  ~ profitable p q.
Proof.
  intros M n p q H1 H2 H K. apply (no_profit (N.of_nat n * M)); try assumption.
  apply C06_product_bound. assumption.
Qed.

(** With reserves of at most 10^18 units, no sequence of any length is. *)
Theorem C06_no_profitable_sequence_any_length : forall n p q,
  0 < p.1 -> 0 < p.2 ->
  swap_run_in (fun s => s.1 <= 10 ^ 18 /\ s.2 <= 10 ^ 18) n p q ->
  ~ profitable p q.
Proof.
  intros n p q H1 H2 H. apply (no_profit 0); try assumption; [|unfold D18; lia].
  clear H1 H2. induction H as [p|n p q r Hr IH Hs [L1 L2]]; [lia|].
  assert (q.1 * q.2 <= r.1 * r.2); [|unfold D18 in *; lia].
  inversion Hs; subst; cbn [fst snd] in *.
  - apply (C01_product_never_falls x y oa r0 s c); auto.
  - rewrite (N.mul_comm x y), (N.mul_comm (x - r0)).
    apply (C01_product_never_falls y x oa r0 s c); auto.
Qed.

(** Forth and back: what comes back is never more than what went in. *)
Theorem C06_round_trip : forall x y oa r s c r' s' c',
  0 < x -> 0 < y ->
  x < B128 -> y < B128 -> oa < B128 -> x + oa < B128 ->
  2 * (x + oa) <= 10 ^ 18 * y -> 2 * y <= 10 ^ 18 * x ->
  compute_swap x y oa = Ok (r, s, c) ->
  compute_swap (y - r) (x + oa) r = Ok (r', s', c') ->
  r' <= oa.
Proof.
  intros x y oa r s c r' s' c' Hx Hy Bx By Bo Bxo K1 K2 H H'.
  assert (A := C01_product_fall_bound x y oa r s c Bx By Bo H).
  assert (O := C02_never_overdrawn x y oa r s c Bx By Bo H).
  assert (A' := C01_product_fall_bound (y - r) (x + oa) r r' s' c' ltac:(lia) Bxo ltac:(lia) H').
  assert (O' := C02_never_overdrawn (y - r) (x + oa) r r' s' c' ltac:(lia) Bxo ltac:(lia) H').
  replace (y - r + r) with y in A' by lia. change (10 ^ 18) with D18 in *.
  destruct (N.le_gt_cases r' oa) as [|L]; [assumption|exfalso].
  assert (x + oa - r' <= x - 1) by lia.
  assert (D18 * (y * (x + oa - r')) <= D18 * (y * (x - 1))) by (apply N.mul_le_mono_l, N.mul_le_mono_l; assumption).
  assert (y * (x - 1) + y = x * y) by nia.
  assert (D18 * (x * y) < D18 * (y * (x - 1)) + (x + oa) + y) by lia.
  unfold D18 in *. lia.
Qed.

Example C06_example :
  compute_swap 1000000 1000000 1000 = Ok (997, 1, 2) /\
  compute_swap (1000000 - 997) 1001000 997 = Ok (995, 1, 2) /\
  swap_run_in (fun s => s.1 <= 10 ^ 18 /\ s.2 <= 10 ^ 18) 2 (1000000, 1000000) (1000005, 1000000).
Proof.
  split; [vm_compute; reflexivity|]. split; [vm_compute; reflexivity|].
  eapply (runin_step _ 1 _ (1001000, 999003)).
  - eapply (runin_step _ 0 _ (1000000, 1000000)); [constructor| |cbn; lia].
    apply (swap_forth 1000000 1000000 1000 997 1 2); [vm_compute; reflexivity|..]; vm_compute; reflexivity.
  - apply (swap_back 1001000 999003 997 995 1 2); [vm_compute; reflexivity|..]; vm_compute; reflexivity.
  - cbn; lia.
Qed.

(** ** C08 *)

(** A reverse quote is tight to one unit: offering the quoted amount returns at
    most the amount asked for, offering one unit more returns at least it
    (for asks up to 3*10^15 units; in general minus 1 + ask/10^18). *)
Theorem C08_reverse_quote_tight : forall op askp ask o s c r1 s1 c1 r2 s2 c2,
  op < B128 -> askp < B128 -> ask < B128 -> o + 1 < B128 ->
  compute_offer_amount op askp ask = Ok (o, s, c) ->
  compute_swap op askp o = Ok (r1, s1, c1) ->
  compute_swap op askp (o + 1) = Ok (r2, s2, c2) ->
  r1 <= ask /\
  ask <= r2 + 1 + ask / 10 ^ 18 /\
  (ask <= 3 * 10 ^ 15 -> ask <= r2).
Proof.
  intros op askp ask o s c r1 s1 c1 r2 s2 c2 H1 H2 H3 H4 HO HS1 HS2.
  apply compute_offer_ok in HO as (H0 & Hb & Hle & Ho & HoB & _); try assumption.
  apply swap_answer in HS1 as (_ & -> & _ & _ & _); try assumption.
  apply swap_answer in HS2 as (_ & -> & _ & _ & _); try assumption.
  assert (G1 := quote_gross_le op askp (ro_gross ask) o Hb Ho Hle H0).
  assert (G2 := quote_gross_ge op askp (ro_gross ask) o Hb Ho Hle H0).
  apply net_mono in G1. apply net_mono in G2.
  assert (U := net_of_quote_le ask). assert (V := net_of_quote_ge_gen ask).
  change (10 ^ 18) with D18. split; [lia|]. split; [lia|].
  intros Ha. assert (W := net_of_quote_ge ask Ha). lia.
Qed.

(** The commission in a reverse quote is 0.3% of the gross amount. *)
Theorem C08_reverse_quote_commission : forall op askp ask o s c,
  op < B128 -> askp < B128 -> ask < B128 ->
  compute_offer_amount op askp ask = Ok (o, s, c) ->
  exists b, b < askp /\ c = 3 * b / 1000 /\ b - c <= ask <= b - c + 1 + ask / 10 ^ 18 /\
    (op + o) * (askp - b) <= op * askp < (op + o + 1) * (askp - b).
Proof.
  intros op askp ask o s c H1 H2 H3 HO.
  apply compute_offer_ok in HO as (H0 & Hb & Hle & Ho & HoB & ->); try assumption.
  exists (ro_gross ask). split; [assumption|]. split; [apply sw_comm_eq|].
  split; [split; [apply net_of_quote_le|apply net_of_quote_ge_gen]|].
  assert (Hn : askp - ro_gross ask <> 0) by lia.
  assert (L := div_lo (op * askp) _ Hn). assert (U := div_hi (op * askp) _ Hn).
  set (q := op * askp / (askp - ro_gross ask)) in *. set (d := askp - ro_gross ask) in *.
  clearbody q d. replace (op + o) with q by lia. split; lia.
Qed.

Example C08_example :
  compute_offer_amount 1000000 1000000 1000 = Ok (1004, 1, 3) /\
  compute_swap 1000000 1000000 1004 = Ok (999, 2, 3) /\
  compute_swap 1000000 1000000 1005 = Ok (1000, 2, 3).
Proof. vm_compute. auto. Qed.

(** The exact claim is false: with reserves 1000/1000 the quote for 1 unit is 1,
    and offering 1 returns nothing. *)
Theorem C08_reverse_quote_sufficient_refuted : exists op askp ask o s c r s' c',
  op < B128 /\ askp < B128 /\ ask < B128 /\
  compute_offer_amount op askp ask = Ok (o, s, c) /\
  compute_swap op askp o = Ok (r, s', c') /\ r < ask.
Proof.
  exists 1000, 1000, 1, 1, 0, 0, 0, 1, 0. repeat split; vm_compute; reflexivity.
Qed.
