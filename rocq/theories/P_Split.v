(** Splitting a swap in two hardly matters (C70). *)
From Verif Require Import Base BigNumber CwStd BigNumberFacts Asset Messages PairMath Pair PairFacts Token Factory Router
  SwapFacts SwapFacts2 P_Swap P_Pair FactoryFacts P_Factory P_Router TokenFacts World WorldInd WorldFacts WorldInv WorldInd2
  Examples WorldExamples P_Ledger P_Registry ExecFacts P_Exec P_Route P_Route2 P_Quotes.
From Coq Require Import ZifyN.
Local Open Scope N_scope.
Ltac Zify.zify_post_hook ::= idtac.

(** ** Arithmetic *)

(** [gross] is y*n/(x+n), off by less than one unit below and 10^-18 above. *)
Lemma gross_hi x y n : x + n <> 0 -> gross x y n * (x + n) * 10 ^ 18 < y * n * 10 ^ 18 + (x + n).
Proof.
  intros H. unfold gross. pose proof (div_lo (y * n * 10 ^ 18 + (x + n - 1)) (x + n) H) as A. set (q := (y * n * 10 ^ 18 + (x + n - 1)) / (x + n)) in *.
  pose proof (div_lo q (10 ^ 18) ltac:(discriminate)) as B. set (g := q / 10 ^ 18) in *. clearbody g.
  assert (g * 10 ^ 18 * (x + n) <= q * (x + n)) by (apply N.mul_le_mono_r; exact B). lia.
Qed.
Lemma gross_lo x y n : x + n <> 0 -> y * n < (gross x y n + 1) * (x + n).
Proof.
  intros H. unfold gross. pose proof (div_hi (y * n * 10 ^ 18 + (x + n - 1)) (x + n) H) as A. set (q := (y * n * 10 ^ 18 + (x + n - 1)) / (x + n)) in *.
  pose proof (div_hi q (10 ^ 18) ltac:(discriminate)) as B. set (g := q / 10 ^ 18) in *. clearbody g.
  assert (X : y * n * 10 ^ 18 <= q * (x + n)) by lia.
  assert (Y : q * (x + n) < (g + 1) * 10 ^ 18 * (x + n)) by (apply N.mul_lt_mono_pos_r; lia).
  assert (Z : y * n * 10 ^ 18 < (g + 1) * (x + n) * 10 ^ 18) by lia.
  apply N.mul_lt_mono_pos_r in Z; [exact Z|reflexivity].
Qed.

(** What is paid out of [g]. *)
Lemma net_le g h k : g <= h + k -> g - fee g <= h - fee h + k.
Proof.
  intros H. unfold fee. pose proof (div_lo (3 * g) 1000 ltac:(discriminate)). pose proof (div_hi (3 * g) 1000 ltac:(discriminate)).
  pose proof (div_lo (3 * h) 1000 ltac:(discriminate)). pose proof (div_hi (3 * h) 1000 ltac:(discriminate)).
  set (u := 3 * g / 1000) in *. set (v := 3 * h / 1000) in *. clearbody u v. lia.
Qed.
Lemma fee_sum g h : fee g + fee h <= fee (g + h) <= fee g + fee h + 1.
Proof.
  unfold fee. pose proof (div_lo (3 * g) 1000 ltac:(discriminate)). pose proof (div_hi (3 * g) 1000 ltac:(discriminate)).
  pose proof (div_lo (3 * h) 1000 ltac:(discriminate)). pose proof (div_hi (3 * h) 1000 ltac:(discriminate)).
  pose proof (div_lo (3 * (g + h)) 1000 ltac:(discriminate)). pose proof (div_hi (3 * (g + h)) 1000 ltac:(discriminate)).
  set (u := 3 * g / 1000) in *. set (v := 3 * h / 1000) in *. set (z := 3 * (g + h) / 1000) in *. clearbody u v z. lia.
Qed.
Lemma fee_le g : fee g <= g.
Proof. unfold fee. apply N.div_le_upper_bound; [discriminate|]. lia. Qed.

Lemma gross_le x y n : x <> 0 -> gross x y n <= y.
Proof. intros H. rewrite gross_eq by exact H. apply sw_gross_le. Qed.

(** Before fees. *)
Lemma split_gross x y a b : 0 < x -> let g1 := gross x y a in let c1 := fee g1 in let y' := y - (g1 - c1) in
  let g2 := gross (x + a) y' b in let G := gross x y (a + b) in
  g1 + g2 <= G + c1 + 1 /\ G <= g1 + g2 + 2.
Proof.
  intros Hx g1 c1 y' g2 G.
  pose proof (gross_hi x y a ltac:(lia)) as A1. pose proof (gross_lo x y a ltac:(lia)) as A2.
  pose proof (gross_hi (x + a) y' b ltac:(lia)) as B1. pose proof (gross_lo (x + a) y' b ltac:(lia)) as B2.
  pose proof (gross_hi x y (a + b) ltac:(lia)) as C1. pose proof (gross_lo x y (a + b) ltac:(lia)) as C2.
  assert (L : g1 <= y) by (apply gross_le; lia). assert (Lc : c1 <= g1) by apply fee_le.
  fold g1 in A1, A2. fold g2 in B1, B2. fold G in C1, C2. assert (Ey : y' + g1 = y + c1) by (unfold y'; lia). clearbody y'. clearbody g1 c1 g2 G.
  rewrite N.add_assoc in C1, C2. set (m := x + a) in *. set (N := m + b) in *. assert (HN : 0 < N) by lia. assert (Hm : m <= N) by lia.
  (* g1 * m ~ y*a,  g2 * N ~ y'*b,  G * N ~ y*(a+b) *)
  assert (Eyb : y' * b + g1 * b = y * b + c1 * b) by (rewrite <- !N.mul_add_distr_r; congruence).
  assert (Eb : N = m + b) by reflexivity. assert (G1 : g1 * N = g1 * m + g1 * b) by (rewrite Eb; lia). clearbody N. split.
  - assert (Cb : c1 * b < c1 * N + 1) by (assert (c1 * b <= c1 * N) by (apply N.mul_le_mono_l; lia); lia).
    assert (X : (g1 + g2) * N * 10 ^ 18 < (G + c1 + 2) * N * 10 ^ 18).
    { assert (H1 : (g1 + g2) * N * 10 ^ 18 = g1 * m * 10 ^ 18 + g1 * b * 10 ^ 18 + g2 * N * 10 ^ 18) by lia.
      assert (H2 : (g1 + g2) * N * 10 ^ 18 < y * a * 10 ^ 18 + m + g1 * b * 10 ^ 18 + y' * b * 10 ^ 18 + N) by lia.
      assert (H3 : g1 * b * 10 ^ 18 + y' * b * 10 ^ 18 = y * b * 10 ^ 18 + c1 * b * 10 ^ 18) by lia.
      assert (H4 : y * (a + b) * 10 ^ 18 < (G + 1) * N * 10 ^ 18) by (apply N.mul_lt_mono_pos_r; [reflexivity|exact C2]).
      lia. }
    apply N.mul_lt_mono_pos_r in X; [|reflexivity]. apply N.mul_lt_mono_pos_r in X; [lia|exact HN].
  - assert (X : G * N * 10 ^ 18 < (g1 + g2 + 3) * N * 10 ^ 18).
    { assert (H2 : y * a * 10 ^ 18 <= (g1 + 1) * m * 10 ^ 18) by (apply N.mul_le_mono_r; lia).
      assert (H3 : y' * b * 10 ^ 18 <= (g2 + 1) * N * 10 ^ 18) by (apply N.mul_le_mono_r; lia).
      lia. }
    apply N.mul_lt_mono_pos_r in X; [|reflexivity]. apply N.mul_lt_mono_pos_r in X; [lia|exact HN].
Qed.

(** ** C70 *)

(** What left the reserve of [i] in the pair [p]. *)
Definition paid_out (w w' : world) (p : string) (i : asset_info) : N := holds w p i - holds w' p i.

Lemma swap_reserves C w p st t ai od ad s n bp ms to f w' x lg : chain_ok C -> reachable C w -> pair_at w p st ->
  sides (ch_api C) st (Token t) ai od ad -> Token t <> ai -> live w (Token t) -> live w ai -> s <> p -> norm (ch_api C) s = Some s ->
  default s to <> p ->
  exec C f w s (MExecute t (JSend p n (HSwap bp ms to)) []) = Ok (w', x, lg) ->
  let g := gross (holds w p (Token t)) (holds w p ai) n in
  0 < holds w p (Token t) /\ holds w' p (Token t) = holds w p (Token t) + n /\ holds w' p ai + (g - fee g) = holds w p ai.
Proof.
  intros OK Hr Hp Hs Hne Lt La Hsp Ns Hto E g.
  pose proof (C58_swap_effect C w p st t ai od ad s n bp ms to f w' x lg OK Hr Hp Hs Hne Lt La Hsp Ns E) as X. cbv zeta in X. fold g in X.
  pose proof (main_sane C w (reachable_main C OK w Hr)) as Sn.
  apply (swap_tx_inv C OK w p st t ai od ad s) in E as (r & sp & c & _ & _ & Rn & Ro & Ra & _ & _ & _ & Hc & _ & _); auto.
  apply compute_swap_iff in Hc as ((H0 & _) & _); auto.
  split; [lia|]. pose proof (X p (Token t)) as Xt. pose proof (X p ai) as Xa. cbn [left_ arrived fold_right] in Xt, Xa.
  repeat match type of Xt with context [decide ?P] => destruct (decide P) as [[? ?]|?]; try congruence; try tauto end;
  repeat match type of Xa with context [decide ?P] => destruct (decide P) as [[? ?]|?]; try congruence; try tauto end.
  split; lia.
Qed.

(** Compare one swap of [a + b] units with two swaps of [a] and then [b] units,
    all executed from the same state. Two swaps pay out at most the first one's
    commission plus two units more, and at most two units less. *)
Theorem C70_split_swap C w p st t ai od ad a b :
  chain_ok C -> reachable C w -> pair_at w p st ->
  sides (ch_api C) st (Token t) ai od ad -> Token t <> ai -> live w (Token t) -> live w ai ->
  forall s s1 s2 bp ms to bp1 ms1 to1 bp2 ms2 to2 w' w1 w2 lg lg1 lg2,
  default s to <> p -> default s1 to1 <> p -> default s2 to2 <> p ->
  tx C w s (MExecute t (JSend p (a + b) (HSwap bp ms to)) []) w' lg ->
  tx C w s1 (MExecute t (JSend p a (HSwap bp1 ms1 to1)) []) w1 lg1 ->
  tx C w1 s2 (MExecute t (JSend p b (HSwap bp2 ms2 to2)) []) w2 lg2 ->
  let commission := fee (gross (holds w p (Token t)) (holds w p ai) a) in
  paid_out w w2 p ai <= paid_out w w' p ai + commission + 2 /\
  paid_out w w' p ai <= paid_out w w2 p ai + 2.
Proof.
  intros OK Hr Hp Hs Hne Lt La s s1 s2 bp ms to bp1 ms1 to1 bp2 ms2 to2 w' w1 w2 lg lg1 lg2 T T1 T2 X X1 X2 commission.
  pose proof (reachable_main C OK w Hr) as M. destruct (pair_fresh C w p st M Hp) as (n0 & Ep).
  assert (Np : forall z, ordinary C z -> z <> p) by (intros z [_ O] ->; exact (O n0 (eq_sym Ep))).
  assert (Hh1 : history C w lg1 w1) by (apply (hist_tx C w [] w s1 (MExecute t (JSend p a (HSwap bp1 ms1 to1)) []) w1 lg1); [constructor|exact X1]).
  pose proof (history_reachable C w lg1 w1 Hr Hh1) as Hr1. destruct (history_main C OK w lg1 w1 M Hh1) as [M1 R1].
  assert (Hp1 : pair_at w1 p st).
  { destruct (rl_pairs _ _ _ R1 _ _ Hp) as (st' & Hp' & [->|(Y & _)]); [exact Hp'|discriminate]. }
  assert (Lv : forall i, live w i -> live w1 i).
  { intros [u|d]; [|auto]. intros (us & Hu). destruct (rl_toks _ _ _ R1 _ _ Hu) as (us' & Hu' & _). exists us'. exact Hu'. }
  destruct X as (O & f & x & E). destruct X1 as (O1 & f1 & x1 & E1). destruct X2 as (O2 & f2 & x2 & E2).
  apply (swap_reserves C w p st t ai od ad) in E as (H0 & _ & E); auto; [|apply O].
  apply (swap_reserves C w p st t ai od ad) in E1 as (_ & Et1 & E1); auto; [|apply O1].
  apply (swap_reserves C w1 p st t ai od ad) in E2 as (_ & _ & E2); auto; [|apply O2].
  pose proof (split_gross (holds w p (Token t)) (holds w p ai) a b H0) as Z. cbv zeta in Z. fold commission in Z.
  unfold paid_out. set (x0 := holds w p (Token t)) in *. set (y0 := holds w p ai) in *. rewrite Et1 in E2.
  set (g1 := gross x0 y0 a) in *. replace (holds w1 p ai) with (y0 - (g1 - commission)) in E2 by (unfold commission; lia).
  change (fee g1) with commission in E1.
  set (g2 := gross (x0 + a) (y0 - (g1 - commission)) b) in *. set (G := gross x0 y0 (a + b)) in *. destruct Z as [Z1 Z2].
  pose proof (fee_le g1) as F1. pose proof (fee_le g2) as F2. pose proof (fee_le G) as F. fold commission in F1.
  pose proof (fee_sum g1 g2) as Fs. fold commission in Fs.
  pose proof (net_le (g1 + g2) G (commission + 1) ltac:(lia)) as Z3. pose proof (net_le G (g1 + g2) 2 Z2) as Z4.
  assert (Lg : g1 <= y0) by (apply gross_le; lia).
  clearbody g2 G. split; lia.
Qed.

(** Reserves 10000000 and 20000000: one swap of 300000 against 100000 and 200000. *)
Definition ex_part (n : N) : bool * cmsg := (false, x_call "#1" (JSend "#4" n (HSwap None None None))).
Example C70_case :
  let u := Native "uaura" in
  (is_ok (script ex_world [ex_part 300000]), is_ok (script ex_world [ex_part 100000]),
   is_ok (script (after ex_world [ex_part 100000]) [ex_part 200000])) = (true, true, true) /\
  fee (gross 10000000 20000000 100000) = 594 /\
  paid_out ex_world (after ex_world [ex_part 300000]) "#4" u = 580777 /\
  paid_out ex_world (after (after ex_world [ex_part 100000]) [ex_part 200000]) "#4" u = 580788.
Proof. vm_compute. auto. Qed.
