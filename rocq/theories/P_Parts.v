(** Splitting a swap into any number of parts (C70). *)
From Verif Require Import Base BigNumber CwStd BigNumberFacts Asset Messages PairMath Pair PairFacts Token Factory Router
  SwapFacts SwapFacts2 P_Swap P_Pair FactoryFacts P_Factory P_Router TokenFacts World WorldInd WorldFacts WorldInv WorldInd2
  Examples WorldExamples P_Ledger P_Registry ExecFacts P_Exec P_Quotes P_Split.
From Coq Require Import ZifyN.
Local Open Scope N_scope.
Ltac Zify.zify_post_hook ::= idtac.

(** ** Specification *)

(** The token [t] is sold to the pair [p] in parts, one after another, by anybody
    and with any limits. *)
Inductive sold (C : chain) (p t : string) : world -> list N -> world -> Prop :=
| sold_nil w : sold C p t w [] w
| sold_part w s n bp ms to w1 lg l w' : default s to <> p -> tx C w s (MExecute t (JSend p n (HSwap bp ms to)) []) w1 lg ->
    sold C p t w1 l w' -> sold C p t w (n :: l) w'.
Definition total (l : list N) : N := fold_right N.add 0 l.

(** ** Arithmetic *)
Definition net (x y n : N) : N := gross x y n - fee (gross x y n).
Fixpoint rest (x y : N) (l : list N) : N := match l with [] => y | n :: l => rest (x + n) (y - net x y n) l end.
Lemma net_le_y x y n : 0 < x -> net x y n <= y.
Proof. intros H. unfold net. pose proof (gross_le x y n ltac:(lia)). lia. Qed.
Lemma rest_le l : forall x y, 0 < x -> rest x y l <= y.
Proof. induction l as [|n l IH]; intros x y H; cbn [rest]; [lia|]. pose proof (IH (x + n) (y - net x y n) ltac:(lia)). lia. Qed.
Lemma net_k x y n : 0 < x -> 10 ^ 18 * (x * y) <= 10 ^ 18 * ((x + n) * (y - net x y n)) + (x + n).
Proof.
  intros H. pose proof (gross_hi x y n ltac:(lia)) as A. unfold net. pose proof (fee_le (gross x y n)) as F. pose proof (gross_le x y n ltac:(lia)) as L.
  set (g := gross x y n) in *. set (c := fee g) in *. clearbody g c. replace (y - (g - c)) with (y - g + c) by lia.
  assert (E : (x + n) * (y - g + c) + g * (x + n) = (x + n) * y + (x + n) * c) by nia. nia.
Qed.
Lemma net_k18 x y n : 0 < x -> x + n <= 10 ^ 18 -> x * y <= (x + n) * (y - net x y n).
Proof. intros H L. pose proof (net_k x y n H). destruct (N.le_gt_cases (x * y) ((x + n) * (y - net x y n))) as [|X]; [assumption|].
  exfalso. assert (10 ^ 18 * ((x + n) * (y - net x y n) + 1) <= 10 ^ 18 * (x * y)) by (apply N.mul_le_mono_l; lia).
  pose proof (gross_hi x y n ltac:(lia)) as A. unfold net in *. pose proof (fee_le (gross x y n)) as F. pose proof (gross_le x y n ltac:(lia)) as G.
  set (g := gross x y n) in *. set (c := fee g) in *. clearbody g c. replace (y - (g - c)) with (y - g + c) in * by lia.
  assert (E : (x + n) * (y - g + c) + g * (x + n) = (x + n) * y + (x + n) * c) by nia.
  assert (g * (x + n) <= y * n) by (apply N.lt_succ_r; apply (N.mul_lt_mono_pos_r (10 ^ 18)); [reflexivity|]; nia). nia.
Qed.
Lemma rest_k l : forall x y, 0 < x ->
  10 ^ 18 * (x * y) <= 10 ^ 18 * ((x + total l) * rest x y l) + N.of_nat (Datatypes.length l) * (x + total l).
Proof.
  induction l as [|n l IH]; intros x y H; cbn [rest total fold_right Datatypes.length]; [lia|]. fold (total l).
  pose proof (IH (x + n) (y - net x y n) ltac:(lia)) as I. pose proof (net_k x y n H) as K. rewrite <- N.add_assoc in I.
  set (r := rest _ _ l) in *. set (a := (x + n) * (y - net x y n)) in *. rewrite Nat2N.inj_succ. set (T := x + (n + total l)) in *.
  assert (x + n <= T) by (unfold T; lia). clearbody r a T. nia.
Qed.
Lemma rest_k18 l : forall x y, 0 < x -> x + total l <= 10 ^ 18 -> x * y <= (x + total l) * rest x y l.
Proof.
  induction l as [|n l IH]; intros x y H L; cbn [rest total fold_right]; [lia|]. cbn [total fold_right] in L. fold (total l) in *.
  pose proof (IH (x + n) (y - net x y n) ltac:(lia) ltac:(lia)) as I. pose proof (net_k18 x y n H ltac:(lia)) as K. rewrite <- N.add_assoc in I. lia.
Qed.
Lemma split_net x y a b : 0 < x -> net x y (a + b) <= net x y a + net (x + a) (y - net x y a) b + 2.
Proof.
  intros H. destruct (split_gross x y a b H) as [_ Z]. unfold net.
  set (g1 := gross x y a) in *. set (g2 := gross (x + a) (y - (g1 - fee g1)) b) in *. set (G := gross x y (a + b)) in *.
  pose proof (net_le G (g1 + g2) 2 Z). pose proof (fee_sum g1 g2). pose proof (fee_le g1). pose proof (fee_le g2). lia.
Qed.
Lemma rest_lo l : forall x y, 0 < x -> l <> [] -> net x y (total l) + rest x y l <= y + 2 * (N.of_nat (Datatypes.length l) - 1).
Proof.
  induction l as [|n l IH]; intros x y H Ne; [contradiction|]. cbn [rest total fold_right Datatypes.length]. fold (total l).
  pose proof (net_le_y x y n H) as Y. destruct l as [|m l].
  - cbn [total fold_right rest Datatypes.length]. rewrite N.add_0_r. lia.
  - pose proof (IH (x + n) (y - net x y n) ltac:(lia) ltac:(discriminate)) as I. pose proof (split_net x y n (total (m :: l)) H) as S.
    set (q := rest _ _ (m :: l)) in *. set (u := net x y (n + total (m :: l))) in *. set (v := net (x + n) (y - net x y n) (total (m :: l))) in *.
    clearbody q u v. set (k := Datatypes.length (m :: l)) in *. assert (0 < N.of_nat k) by (unfold k; cbn [Datatypes.length]; lia). clearbody k. lia.
Qed.
Lemma parts_hi18 x y l : 0 < x -> x + total l <= 10 ^ 18 -> y - rest x y l <= gross x y (total l).
Proof.
  intros H L. pose proof (rest_k18 l x y H L) as K. pose proof (gross_lo x y (total l) ltac:(lia)) as G. pose proof (rest_le l x y H) as R.
  set (r := rest x y l) in *. set (g := gross x y (total l)) in *. set (T := total l) in *. clearbody r g T. apply N.lt_succ_r, (N.mul_lt_mono_pos_r (x + T)); [lia|]. nia.
Qed.
Lemma parts_hi x y l : 0 < x -> N.of_nat (Datatypes.length l) <= 10 ^ 18 -> y - rest x y l <= gross x y (total l) + 1.
Proof.
  intros H L. pose proof (rest_k l x y H) as K. pose proof (gross_lo x y (total l) ltac:(lia)) as G. pose proof (rest_le l x y H) as R.
  set (r := rest x y l) in *. set (g := gross x y (total l)) in *. set (T := total l) in *. set (k := N.of_nat _) in *. clearbody r g T k.
  assert (K' : 10 ^ 18 * (x * y) <= 10 ^ 18 * ((x + T) * r) + 10 ^ 18 * (x + T)) by nia.
  assert (K2 : x * y <= (x + T) * r + (x + T)) by (apply (N.mul_le_mono_pos_l _ _ (10 ^ 18)); [reflexivity|lia]).
  apply N.lt_succ_r, (N.mul_lt_mono_pos_r (x + T)); [lia|]. nia.
Qed.

(** ** C70 for any number of parts *)
Lemma sold_rest C p t st ai od ad l : chain_ok C -> sides (ch_api C) st (Token t) ai od ad -> Token t <> ai ->
  forall w w', reachable C w -> pair_at w p st -> live w (Token t) -> live w ai -> sold C p t w l w' ->
  (l <> [] -> 0 < holds w p (Token t)) /\ holds w' p (Token t) = holds w p (Token t) + total l /\
  holds w' p ai = rest (holds w p (Token t)) (holds w p ai) l.
Proof.
  intros OK Hs Hne. induction l as [|n l IH]; intros w w' Hr Hp Lt La Hd; inversion Hd; subst.
  { cbn [total fold_right rest]. split; [contradiction|]. split; [lia|reflexivity]. }
  match goal with X : tx C w s _ w1 lg |- _ => pose proof X as Tx end.
  assert (Hh : history C w lg w1) by (apply (hist_tx C w [] w s (MExecute t (JSend p n (HSwap bp ms to)) []) w1 lg); [constructor|exact Tx]).
  pose proof (history_reachable C w lg w1 Hr Hh) as Hr1. pose proof (reachable_main C OK w Hr) as M. destruct (history_main C OK w lg w1 M Hh) as [M1 R1].
  assert (Lv : forall i, live w i -> live w1 i).
  { intros [u|d]; [|auto]. intros (us & Hu). destruct (rl_toks _ _ _ R1 _ _ Hu) as (us' & Hu' & _). exists us'. exact Hu'. }
  destruct (pair_fresh C w p st M Hp) as (n0 & Ep). destruct Tx as ([Ns O] & f & x & E).
  apply (swap_reserves C w p st t ai od ad) in E as (H0 & E0 & E1); auto; [|intros ->; exact (O n0 (eq_sym Ep))].
  match goal with X : sold C p t w1 l w' |- _ => destruct (IH w1 w' Hr1 (proj1 (C47_pair_immutable C w lg w1 p st OK Hr Hh Hp)) (Lv _ Lt) (Lv _ La) X) as (_ & A & B) end.
  cbn [total fold_right rest]. fold (total l). split; [intros _; exact H0|]. split; [lia|]. rewrite B, E0. f_equal. unfold net. lia.
Qed.

(** However a sale is split, it brings at most what the curve gives for the whole
    amount before commission (one unit more if the reserve exceeds 10^18). *)
Theorem C70_parts_at_most C w p st t ai od ad l w' : chain_ok C -> reachable C w -> pair_at w p st ->
  sides (ch_api C) st (Token t) ai od ad -> Token t <> ai -> live w (Token t) -> live w ai -> sold C p t w l w' ->
  N.of_nat (Datatypes.length l) <= 10 ^ 18 ->
  let x := holds w p (Token t) in let y := holds w p ai in
  l <> [] -> paid_out w w' p ai <= gross x y (total l) + 1 /\ (x + total l <= 10 ^ 18 -> paid_out w w' p ai <= gross x y (total l)).
Proof.
  intros OK Hr Hp Hs Hne Lt La Hd Hl x y Nl. destruct (sold_rest C p t st ai od ad l OK Hs Hne w w' Hr Hp Lt La Hd) as (H0 & _ & E).
  specialize (H0 Nl). unfold paid_out. rewrite E. fold x y in H0 |- *. split; [exact (parts_hi x y l H0 Hl)|exact (parts_hi18 x y l H0)].
Qed.
Print Assumptions C70_parts_at_most.

(** Compared with one swap of the whole amount from the same state: [k] parts save
    at most its commission (and a unit) and lose at most two units per cut. *)
Theorem C70_many_parts C w p st t ai od ad l w' : chain_ok C -> reachable C w -> pair_at w p st ->
  sides (ch_api C) st (Token t) ai od ad -> Token t <> ai -> live w (Token t) -> live w ai -> sold C p t w l w' ->
  N.of_nat (Datatypes.length l) <= 10 ^ 18 -> l <> [] ->
  forall s bp ms to w1 lg, default s to <> p -> tx C w s (MExecute t (JSend p (total l) (HSwap bp ms to)) []) w1 lg ->
  paid_out w w' p ai <= paid_out w w1 p ai + fee (gross (holds w p (Token t)) (holds w p ai) (total l)) + 1 /\
  paid_out w w1 p ai <= paid_out w w' p ai + 2 * (N.of_nat (Datatypes.length l) - 1).
Proof.
  intros OK Hr Hp Hs Hne Lt La Hd Hl Nl s bp ms to w1 lg Hto Tx.
  destruct (sold_rest C p t st ai od ad l OK Hs Hne w w' Hr Hp Lt La Hd) as (H0 & _ & E). specialize (H0 Nl).
  destruct (sold_rest C p t st ai od ad [total l] OK Hs Hne w w1 Hr Hp Lt La) as (_ & _ & E1).
  { exact (sold_part C p t w s (total l) bp ms to w1 lg [] w1 Hto Tx (sold_nil C p t w1)). }
  unfold paid_out. rewrite E, E1. cbn [rest]. set (x := holds w p (Token t)) in *. set (y := holds w p ai) in *.
  pose proof (parts_hi x y l H0 Hl) as A. pose proof (rest_lo l x y H0 Nl) as B. pose proof (net_le_y x y (total l) H0) as Y.
  pose proof (rest_le l x y H0) as R. unfold net in *. pose proof (fee_le (gross x y (total l))) as F.
  set (g := gross x y (total l)) in *. set (c := fee g) in *. set (r := rest x y l) in *. clearbody g c r. split; lia.
Qed.
Print Assumptions C70_many_parts.

(** Selling 1670 units of #1 on pair #4 in ten parts of 167 units avoids every
    commission (each part is worth less than 334 units) and brings one unit more;
    three parts bring less than one. *)
Local Transparent script after.
Lemma sold_script l : forall w, is_ok (script w (map ex_part l)) = true -> sold ex_chain "#4" "#1" w l (after w (map ex_part l)).
Proof.
  induction l as [|n l IH]; intros w H; [constructor|]. cbn [map] in H |- *. unfold ex_part at 1 in H. unfold ex_part at 1.
  unfold after. cbn [script] in H |- *.
  destruct (exec ex_chain 40 w (who false) (x_call "#1" (JSend "#4" n (HSwap None None None)))) as [[[w1 x] l1]|e] eqn:E; [|discriminate].
  cbn [rbind] in H |- *. specialize (IH w1).
  destruct (script w1 (map ex_part l)) as [[w2 l2]|e] eqn:E2; [|discriminate]. cbn [rbind].
  apply (sold_part ex_chain "#4" "#1" w "bob" n None None None w1 l1); [discriminate| |].
  - split; [exact (who_ordinary false)|]. exists 40%nat, x. exact E.
  - specialize (IH eq_refl). unfold after in IH. rewrite E2 in IH. exact IH.
Qed.
Local Opaque script after.
Example C70_parts_case :
  let u := Native "uaura" in let l := repeat 167 10 in
  sold ex_chain "#4" "#1" ex_world l (after ex_world (map ex_part l)) /\ total l = 1670 /\
  is_ok (script ex_world [ex_part 1670]) = true /\
  gross 10000000 20000000 1670 = 3339 /\ fee 3339 = 10 /\ fee (gross 10000000 20000000 167) = 0 /\
  paid_out ex_world (after ex_world [ex_part 1670]) "#4" u = 3329 /\
  paid_out ex_world (after ex_world (map ex_part l)) "#4" u = 3330 /\
  paid_out ex_world (after ex_world (map ex_part [556; 557; 557])) "#4" u = 3328.
Proof.
  intros u l. split; [apply sold_script; vm_compute; reflexivity|]. repeat (split; [vm_compute; reflexivity|]). vm_compute. reflexivity.
Qed.
