(** The texts numbers are printed as (C39): the one text in customary form. *)
From Verif Require Import Base BigNumber CwStd Spec BigNumberFacts P_BigNumber.
From Coq Require Import ZifyN Ascii String.
Local Open Scope N_scope.
Ltac Zify.zify_post_hook ::= idtac.

(** ** Specification *)

(** A whole number as it is customarily written: digits, either 0 alone or
    without a leading zero. *)
Definition customary_whole (w : string) : Prop :=
  (exists n, dec_text w n) /\ (w = "0"%string \/ exists c r, w = String c r /\ c <> "0"%char).
(** A decimal as it is customarily written: a whole number, or a whole number, a
    dot and digits of which the last is not 0. *)
Definition customary (s : string) : Prop :=
  customary_whole s \/
  exists w f c, s = (w ++ String "." (f ++ String c ""))%string /\ customary_whole w /\
    (exists n, dec_text (f ++ String c "") n) /\ c <> "0"%char.

(** ** Proofs *)
Lemma whole_digits w : customary_whole w -> all_digits w = true.
Proof. intros [[n H] _]. apply dec_text_spec in H. tauto. Qed.
Lemma digit_eq c d : is_digit c = true -> is_digit d = true -> digit_val c = digit_val d -> c = d.
Proof.
  unfold is_digit, digit_val. intros Hc Hd E. bools.
  assert (X : N_of_ascii c = N_of_ascii d) by lia.
  rewrite <- (ascii_N_embedding c), <- (ascii_N_embedding d), X. reflexivity.
Qed.
Lemma digit_lt c : is_digit c = true -> digit_val c < 10.
Proof. unfold is_digit, digit_val. intros H. bools. lia. Qed.
Lemma pow10_pos n : 0 < 10 ^ N.of_nat n.
Proof. apply N.neq_0_lt_0, N.pow_nonzero. discriminate. Qed.
Lemma dec_value_lt s : all_digits s = true -> dec_value s < 10 ^ N.of_nat (String.length s).
Proof.
  induction s as [|c r IH]; intros H; [reflexivity|]. cbn [all_digits] in H. apply andb_true_iff in H as [Hc Hr].
  rewrite dec_value_cons. cbn [String.length]. rewrite Nat2N.inj_succ, N.pow_succ_r'. specialize (IH Hr). pose proof (digit_lt c Hc). nia.
Qed.
Lemma same_length_inj a : forall b, String.length a = String.length b -> all_digits a = true -> all_digits b = true ->
  dec_value a = dec_value b -> a = b.
Proof.
  induction a as [|c a IH]; intros [|d b] L Ha Hb E; try discriminate; [reflexivity|].
  cbn [all_digits] in Ha, Hb. apply andb_true_iff in Ha as [Hc Ha]. apply andb_true_iff in Hb as [Hd Hb].
  cbn [String.length] in L. injection L as L. rewrite !dec_value_cons, <- L in E.
  pose proof (dec_value_lt a Ha) as La. pose proof (dec_value_lt b Hb) as Lb. rewrite <- L in Lb.
  assert (E1 : digit_val c = digit_val d) by nia.
  assert (E2 : dec_value a = dec_value b) by nia.
  rewrite (digit_eq c d Hc Hd E1), (IH b L Ha Hb E2). reflexivity.
Qed.
Lemma digit_nonzero c : is_digit c = true -> c <> "0"%char -> 1 <= digit_val c.
Proof.
  intros Hc Hn. destruct (N.eq_dec (digit_val c) 0) as [E|E]; [|lia]. exfalso. apply Hn.
  apply digit_eq; [exact Hc|reflexivity|exact E].
Qed.
Lemma whole_length_ge a b : all_digits a = true -> all_digits b = true -> customary_whole a -> customary_whole b ->
  dec_value a = dec_value b -> (String.length a <= String.length b)%nat.
Proof.
  intros Ha Hb [_ [->|(c & r & -> & Hc)]] Cb E.
  - destruct Cb as [_ [->|(d & q & -> & _)]]; cbn; lia.
  - destruct (Nat.le_gt_cases (String.length (String c r)) (String.length b)) as [L|L]; [exact L|]. exfalso.
    cbn [all_digits] in Ha. apply andb_true_iff in Ha as [Dc Dr]. pose proof (digit_nonzero c Dc Hc) as P.
    rewrite dec_value_cons in E. pose proof (dec_value_lt b Hb) as Lb. cbn [String.length] in L.
    assert (10 ^ N.of_nat (String.length b) <= 10 ^ N.of_nat (String.length r)) by (apply N.pow_le_mono_r; lia). nia.
Qed.
Lemma whole_unique a b : all_digits a = true -> all_digits b = true -> customary_whole a -> customary_whole b ->
  dec_value a = dec_value b -> a = b.
Proof.
  intros Ha Hb Ca Cb E. apply same_length_inj; auto. apply Nat.le_antisymm; apply whole_length_ge; auto.
Qed.
Lemma dec_digits_first fuel : forall n acc, n < 10 ^ N.of_nat fuel -> 0 < n ->
  exists c r, dec_digits fuel n acc = String c r /\ c <> "0"%char.
Proof.
  induction fuel as [|f IH]; intros n acc Hn Hp; [cbn in Hn; lia|]. cbn [dec_digits].
  assert (Hd : n mod 10 < 10) by (apply N.mod_lt; discriminate).
  pose proof (N.div_mod' n 10) as Dm.
  destruct (N.eqb_spec (n / 10) 0) as [E|E].
  - do 2 eexists. split; [reflexivity|]. intros X. pose proof (digit_val_char _ Hd) as V. rewrite X in V.
    change (digit_val "0") with 0 in V. lia.
  - apply IH; [|lia]. rewrite Nat2N.inj_succ, N.pow_succ_r' in Hn. apply N.div_lt_upper_bound; lia.
Qed.
Lemma dec_to_string_customary n : customary_whole (dec_to_string n).
Proof.
  split; [exists (dec_value (dec_to_string n)); apply dec_text_spec; split; [apply dec_to_string_digits|reflexivity]|].
  destruct (N.eq_dec n 0) as [->|Hn]; [left; reflexivity|]. right.
  unfold dec_to_string. apply dec_digits_first; [apply size_nat_bound|lia].
Qed.

Lemma trim_snoc s : trim_end0 s <> EmptyString -> exists f c, trim_end0 s = (f ++ String c "")%string /\ c <> "0"%char.
Proof.
  induction s as [|c r IH]; cbn [trim_end0]; [congruence|]. intros H.
  destruct (trim_end0 r) as [|c' r'] eqn:E.
  - destruct (Ascii.eqb_spec c "0") as [->|Hc]; [congruence|]. exists ""%string, c. split; [reflexivity|exact Hc].
  - destruct IH as (f & x & Ef & Hx); [discriminate|]. exists (String c f), x. rewrite append_cons, <- Ef. split; [reflexivity|exact Hx].
Qed.
Lemma trim_zeros k : trim_end0 (zeros k) = EmptyString.
Proof. induction k as [|k IH]; [reflexivity|]. cbn [zeros trim_end0]. rewrite IH. reflexivity. Qed.
Lemma trim_keep f c k : c <> "0"%char -> trim_end0 ((f ++ String c "") ++ zeros k) = (f ++ String c "")%string.
Proof.
  intros Hc. induction f as [|x f IH].
  - rewrite append_nil, append_cons, append_nil. cbn [trim_end0]. rewrite trim_zeros. apply Ascii.eqb_neq in Hc. rewrite Hc. reflexivity.
  - rewrite !append_cons. cbn [trim_end0]. rewrite IH. destruct f; reflexivity.
Qed.
Lemma frac_unique f c g d : all_digits (f ++ String c "") = true -> all_digits (g ++ String d "") = true ->
  c <> "0"%char -> d <> "0"%char ->
  (String.length (f ++ String c "") <= 18)%nat -> (String.length (g ++ String d "") <= 18)%nat ->
  dec_value (f ++ String c "") * 10 ^ N.of_nat (18 - String.length (f ++ String c "")) =
  dec_value (g ++ String d "") * 10 ^ N.of_nat (18 - String.length (g ++ String d "")) ->
  (f ++ String c "")%string = (g ++ String d "")%string.
Proof.
  intros Df Dg Hc Hd Lf Lg E.
  rewrite <- (trim_keep f c (18 - String.length (f ++ String c "")) Hc), <- (trim_keep g d (18 - String.length (g ++ String d "")) Hd).
  f_equal. apply same_length_inj.
  - rewrite !(string_length_app (_ ++ _)), !zeros_length. lia.
  - rewrite all_digits_app, Df, zeros_digits. reflexivity.
  - rewrite all_digits_app, Dg, zeros_digits. reflexivity.
  - rewrite !(dec_value_app (_ ++ _)), !dec_value_zeros, !zeros_length. lia.
Qed.
Lemma frac_small f : all_digits f = true -> (String.length f <= 18)%nat -> dec_value f * 10 ^ N.of_nat (18 - String.length f) < D18.
Proof.
  intros Hf L. pose proof (dec_value_lt f Hf) as V. change D18 with (10 ^ N.of_nat 18).
  replace (10 ^ N.of_nat 18) with (10 ^ N.of_nat (String.length f) * 10 ^ N.of_nat (18 - String.length f)).
  - pose proof (pow10_pos (18 - String.length f)). nia.
  - rewrite <- N.pow_add_r. f_equal. lia.
Qed.


Lemma no_dot_in_digits w f : all_digits (w ++ String "." f) = true -> False.
Proof. rewrite all_digits_app. intros H. apply andb_true_iff in H as [_ H]. cbn [all_digits] in H. change (is_digit ".") with false in H. discriminate. Qed.
Lemma dot_split_unique w f w' f' : all_digits w = true -> all_digits w' = true ->
  (w ++ String "." f)%string = (w' ++ String "." f')%string -> w = w' /\ f = f'.
Proof.
  revert w'. induction w as [|c w IH]; intros [|c' w'] H H' E; rewrite ?append_nil, ?append_cons in E.
  - injection E as ->. auto.
  - injection E as <- _. discriminate.
  - injection E as -> _. discriminate.
  - injection E as -> E. cbn [all_digits] in H, H'. apply andb_true_iff in H as [_ H]. apply andb_true_iff in H' as [_ H'].
    destruct (IH w' H H' E) as [-> ->]. auto.
Qed.
(** The value of an accepted text in customary form. *)
Lemma custom_value s v : customary s -> d256_from_str s = Ok v ->
  (customary_whole s /\ v = dec_value s * D18) \/
  exists w f c, s = (w ++ String "." (f ++ String c ""))%string /\ customary_whole w /\ c <> "0"%char /\
    all_digits (f ++ String c "") = true /\ (String.length (f ++ String c "") <= 18)%nat /\
    v = dec_value w * D18 + dec_value (f ++ String c "") * 10 ^ N.of_nat (18 - String.length (f ++ String c "")).
Proof.
  intros Hs H. destruct Hs as [Hs|(w & f & c & -> & Hw & (n & Hf) & Hc)].
  - left. split; [exact Hs|]. apply whole_digits in Hs. unfold d256_from_str in H. rewrite split_dot_digits, u256_from_dec_str_spec, Hs in H by exact Hs.
    cbn [andb] in H. destruct (dec_value s <? B256); [|discriminate]. apply u256_mul_ok in H as [-> _]. reflexivity.
  - right. exists w, f, c. apply dec_text_spec in Hf as [Hf _]. pose proof (whole_digits w Hw) as Dw.
    unfold d256_from_str in H. rewrite split_dot_app, split_dot_digits in H by assumption.
    rewrite !u256_from_dec_str_spec, Dw, Hf in H. cbn [andb] in H. destruct (dec_value w <? B256); [|discriminate].
    destruct (dec_value _ <? B256) in H; [|discriminate].
    destruct (Nat.leb_spec (String.length (f ++ String c "")) 18) as [L|]; [|discriminate].
    apply rbind_ok in H as (x & Hx & H). apply u256_mul_ok in Hx as [-> _]. apply rbind_ok in H as (y & Hy & H). apply u256_mul_ok in Hy as [-> _].
    apply u256_add_ok in H as [-> _]. auto 10.
Qed.
Lemma custom_unique a b v : customary a -> customary b -> d256_from_str a = Ok v -> d256_from_str b = Ok v -> a = b.
Proof.
  intros Ca Cb Ea Eb. apply custom_value in Ea; [|exact Ca]. apply custom_value in Eb; [|exact Cb].
  assert (FP : forall f c, all_digits (f ++ String c "") = true -> c <> "0"%char ->
    0 < dec_value (f ++ String c "") * 10 ^ N.of_nat (18 - String.length (f ++ String c ""))).
  { intros f c Hf Hc. rewrite all_digits_app in Hf. apply andb_true_iff in Hf as [_ Hf]. cbn [all_digits] in Hf. rewrite andb_true_r in Hf.
    pose proof (digit_nonzero c Hf Hc). rewrite dec_value_app, dec_value_cons. cbn [String.length].
    change (10 ^ N.of_nat 1) with 10. change (10 ^ N.of_nat 0) with 1. change (dec_value "") with 0.
    pose proof (pow10_pos (18 - String.length (f ++ String c ""))). nia. }
  assert (D0 : D18 <> 0) by discriminate.
  assert (Dv : forall x y p q, x * D18 + p = y * D18 + q -> p < D18 -> q < D18 -> x = y /\ p = q).
  { intros x y p q E Lp Lq.
    assert (x = y) by nia. subst. split; [reflexivity|lia]. }
  assert (Dp : 0 < D18) by reflexivity.
  destruct Ea as [[Wa ->]|(w & f & c & -> & Ww & Hc & Df & Lf & ->)]; destruct Eb as [[Wb Eb]|(w' & f' & c' & -> & Ww' & Hc' & Df' & Lf' & Eb)].
  - apply whole_unique; auto using whole_digits. nia.
  - exfalso. pose proof (FP f' c' Df' Hc'). pose proof (frac_small _ Df' Lf').
    destruct (Dv (dec_value a) (dec_value w') 0 _ ltac:(rewrite N.add_0_r; exact Eb) Dp H0) as [_ X]. lia.
  - exfalso. pose proof (FP f c Df Hc). pose proof (frac_small _ Df Lf).
    destruct (Dv (dec_value w) (dec_value b) _ 0 ltac:(rewrite (N.add_0_r (dec_value b * D18)); exact Eb) H0 Dp) as [_ X]. lia.
  - destruct (Dv _ _ _ _ Eb (frac_small _ Df Lf) (frac_small _ Df' Lf')) as [X Y].
    rewrite (whole_unique w w') by auto using whole_digits. rewrite (frac_unique f c f' c') by assumption. reflexivity.
Qed.

(** C39: the text a Decimal256 is printed as is in customary form, and it is the
    only text in that form that is read as this number. *)
Theorem C39_decimal256_text_customary d s : d < B256 ->
  (customary s /\ d256_from_str s = Ok d) <-> s = d256_to_string d.
Proof.
  intros Hd.
  assert (X : customary (d256_to_string d)).
  { unfold d256_to_string. destruct (N.eqb_spec (d mod D18) 0) as [E|E]; [left; apply dec_to_string_customary|]. right.
    set (fs := (zeros _ ++ dec_to_string (d mod D18))%string).
    assert (Dg : all_digits fs = true) by (unfold fs; rewrite all_digits_app, zeros_digits, dec_to_string_digits; reflexivity).
    assert (Vf : dec_value fs = d mod D18).
    { unfold fs. rewrite dec_value_app, dec_value_zeros, dec_to_string_value. lia. }
    destruct (trim_snoc fs) as (f & c & Ef & Hc).
    { intros T. apply trim_end0_empty in T; [|exact Dg]. lia. }
    exists (dec_to_string (d / D18)), f, c. rewrite Ef. split; [reflexivity|]. split; [apply dec_to_string_customary|]. split; [|exact Hc].
    exists (dec_value (f ++ String c "")). apply dec_text_spec. split; [|reflexivity].
    destruct (trim_end0_decomp fs) as (k & Ek). rewrite Ek, all_digits_app in Dg. apply andb_true_iff in Dg as [Dg _]. rewrite Ef in Dg. exact Dg. }
  split.
  - intros [Hs E]. apply (custom_unique s _ d Hs X E). apply d256_text_roundtrip. exact Hd.
  - intros ->. split; [exact X|]. apply d256_text_roundtrip. exact Hd.
Qed.
(** The same for Uint256; this is also the form of the amounts in the events of a
    pair (C61). *)
Theorem C39_uint256_text_customary n s : n < B256 ->
  (customary_whole s /\ ui256_from_str s = Ok n) <-> s = ui256_to_string n.
Proof.
  intros Hn. unfold ui256_to_string. split.
  - intros [Hs E]. unfold ui256_from_str in E. rewrite u256_from_dec_str_spec, (whole_digits s Hs) in E. cbn [andb] in E.
    destruct (dec_value s <? B256); [|discriminate]. injection E as E.
    apply whole_unique; auto using whole_digits, dec_to_string_customary, dec_to_string_digits. rewrite dec_to_string_value. exact E.
  - intros ->. split; [apply dec_to_string_customary|]. apply (C39_uint256_text_roundtrip n Hn).
Qed.
(** The Decimal of cosmwasm-std prints the same text. *)
Theorem C39_decimal_text_customary d s : d < B128 ->
  (customary s /\ d256_from_str s = Ok d) <-> s = dec_display d.
Proof. intros Hd. apply C39_decimal256_text_customary. unfold B128, B256 in *. lia. Qed.
Example C39_customary_case :
  d256_to_string 1500000000000000000 = "1.5"%string /\ d256_from_str "1.50" = Ok 1500000000000000000 /\
  d256_from_str "01.5" = Ok 1500000000000000000 /\ customary "1.5" /\ ~ customary "1.50" /\ d256_to_string 0 = "0"%string.
Proof.
  repeat split; try (vm_compute; reflexivity).
  - right. exists "1"%string, ""%string, "5"%char. split; [reflexivity|]. split; [|split; [|discriminate]].
    + split; [exists 1; apply dec_text_spec; split; reflexivity|]. right. exists "1"%char, ""%string. split; [reflexivity|discriminate].
    + exists 5. apply dec_text_spec. split; reflexivity.
  - intros H. assert (X : "1.50"%string = d256_to_string 1500000000000000000).
    { apply C39_decimal256_text_customary; [reflexivity|]. split; [exact H|vm_compute; reflexivity]. }
    vm_compute in X. discriminate.
Qed.
