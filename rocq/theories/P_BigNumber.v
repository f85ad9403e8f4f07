(** C39-C43: the big-number package. *)
From Verif Require Import Base BigNumber CwStd Spec BigNumberFacts.
From Coq Require Import Ascii String ZifyN.
Local Open Scope N_scope.
Ltac Zify.zify_post_hook ::= Z.div_mod_to_equations.

(** ** C39 *)

Theorem C39_decimal256_text_roundtrip : forall d, d < B256 ->
  d256_from_str (d256_to_string d) = Ok d.
Proof. exact d256_text_roundtrip. Qed.

(** The same for Uint256 (Display and FromStr). *)
Theorem C39_uint256_text_roundtrip : forall n, n < B256 ->
  ui256_from_str (ui256_to_string n) = Ok n.
Proof.
  intros n H. unfold ui256_from_str, ui256_to_string.
  rewrite u256_from_dec_str_spec, dec_to_string_digits, dec_to_string_value.
  apply N.ltb_lt in H. rewrite H. reflexivity.
Qed.

(** Hence distinct values print differently. *)
Corollary C39_decimal256_text_injective : forall a b, a < B256 -> b < B256 ->
  d256_to_string a = d256_to_string b -> a = b.
Proof.
  intros a b Ha Hb E. pose proof (d256_text_roundtrip a Ha) as H.
  rewrite E, d256_text_roundtrip in H by assumption. congruence.
Qed.

Example C39_example :
  d256_to_string 1003009027081243731 = "1.003009027081243731"%string /\
  d256_to_string (5 * D18) = "5"%string /\
  d256_to_string 1500000000000000000 = "1.5"%string /\
  d256_from_str "1.5" = Ok 1500000000000000000.
Proof. vm_compute. auto. Qed.
(** The largest value, as documented at packages/bignumber/src/math.rs:12. *)
Example C39_example_max :
  d256_to_string (B256 - 1) =
  "115792089237316195423570985008687907853269984665640564039457.584007913129639935"%string.
Proof. vm_compute. reflexivity. Qed.

(** ** C40 *)

Theorem C40_decimal_conversion_exact : forall d, d < B128 ->
  d256_from_decimal d = Ok d /\ d256_to_decimal d = Ok d.
Proof.
  intros d H. split; [apply d256_from_decimal_id; assumption|].
  apply d256_to_decimal_ok; [unfold B128, B256 in *; lia|auto].
Qed.

Theorem C40_decimal_too_large_aborts : forall n, n < B256 ->
  exact_or_abort (d256_to_decimal n) (n < B128) n.
Proof.
  intros n Hn. split.
  - intros H. apply d256_to_decimal_ok; auto.
  - intros H. unfold d256_to_decimal.
    destruct (N.eqb_spec (limb 2 n) 0) as [E2|]; [|eexists; reflexivity].
    destruct (N.eqb_spec (limb 3 n) 0) as [E3|]; [|eexists; reflexivity].
    exfalso. apply H. apply limbs_small; auto.
Qed.

Example C40_example : d256_from_decimal 1500000000000000000 = Ok 1500000000000000000 /\
  d256_to_decimal (B128 - 1) = Ok (B128 - 1) /\ exists m, d256_to_decimal B128 = panic m.
Proof. vm_compute. eauto. Qed.

(** ** C41 *)

Theorem C41_u128_roundtrip : forall v, v < B128 ->
  ui256_from_u128 v = v /\ ui256_to_u128 (ui256_from_u128 v) = Ok v.
Proof.
  intros v H. rewrite ui256_from_u128_id by assumption. split; [reflexivity|].
  apply ui256_to_u128_ok; [unfold B128, B256 in *; lia|auto].
Qed.

Theorem C41_to_u128_exact_or_abort : forall n, n < B256 ->
  exact_or_abort (ui256_to_u128 n) (n < B128) n.
Proof.
  intros n Hn. split.
  - intros H. apply ui256_to_u128_ok; auto.
  - intros H. apply ui256_to_u128_panic; [assumption|lia].
Qed.

(** Limbs and value determine each other. *)
Theorem C41_limbs : forall n, n < B256 ->
  of_limbs (limb 0 n) (limb 1 n) (limb 2 n) (limb 3 n) = n /\
  forall i, limb i n < B64.
Proof.
  intros n H. split; [apply of_limbs_limbs; assumption|].
  intros i. apply N.mod_lt. discriminate.
Qed.

Example C41_example : ui256_to_u128 (ui256_from_u128 (B128 - 1)) = Ok (B128 - 1) /\
  exists m, ui256_to_u128 (B128 + 5) = panic m.
Proof. vm_compute. eauto. Qed.

(** ** C42 *)

Ltac abort_by := intros; eexists; reflexivity.

(** Every operation answers the exact (floored) result iff the intermediate
    product / sum fits 256 bits, the subtrahend is not larger and the divisor
    is non-zero; otherwise it aborts. *)
Theorem C42_arith_exact_or_abort : forall a b c,
  exact_or_abort (ui256_add a b) (a + b < 2 ^ 256) (a + b) /\
  exact_or_abort (ui256_sub a b) (b <= a) (a - b) /\
  exact_or_abort (ui256_mul a b) (a * b < 2 ^ 256) (a * b) /\
  exact_or_abort (ui256_multiply_ratio a b c) (c <> 0 /\ a * b < 2 ^ 256) (a * b / c) /\
  exact_or_abort (ui256_mul_dec a b) (a * b < 2 ^ 256) (a * b / 10 ^ 18) /\
  exact_or_abort (ui256_div_dec a b) (b <> 0 /\ a * 10 ^ 18 < 2 ^ 256) (a * 10 ^ 18 / b) /\
  exact_or_abort (d256_add a b) (a + b < 2 ^ 256) (a + b) /\
  exact_or_abort (d256_sub a b) (b <= a) (a - b) /\
  exact_or_abort (d256_mul a b) (a * b < 2 ^ 256) (a * b / 10 ^ 18) /\
  exact_or_abort (d256_div a b) (b <> 0 /\ a * 10 ^ 18 < 2 ^ 256) (a * 10 ^ 18 / b) /\
  exact_or_abort (d256_from_ratio a b) (b <> 0 /\ a * 10 ^ 18 < 2 ^ 256) (a * 10 ^ 18 / b) /\
  exact_or_abort (d256_from_uint256 a) (a * 10 ^ 18 < 2 ^ 256) (a * 10 ^ 18) /\
  exact_or_abort (d256_percent a) (a * 10 ^ 16 < 2 ^ 256) (a * 10 ^ 16) /\
  exact_or_abort (d256_permille a) (a * 10 ^ 15 < 2 ^ 256) (a * 10 ^ 15).
Proof.
  intros a b c. change (2 ^ 256) with B256. change (10 ^ 18) with D18.
  change (10 ^ 16) with 10000000000000000. change (10 ^ 15) with 1000000000000000.
  assert (MUL : forall x y, exact_or_abort (u256_mul x y) (x * y < B256) (x * y)).
  { intros x y. split; intros H; [apply u256_mul_ok; auto|].
    unfold u256_mul. destruct (N.ltb_spec (x*y) B256); [lia|]. eexists; reflexivity. }
  assert (ADD : forall x y, exact_or_abort (u256_add x y) (x + y < B256) (x + y)).
  { intros x y. split; intros H; [apply u256_add_ok; auto|].
    unfold u256_add. destruct (N.ltb_spec (x+y) B256); [lia|]. eexists; reflexivity. }
  assert (SUB : forall x y, exact_or_abort (d256_sub x y) (y <= x) (x - y)).
  { intros x y. split; intros H; [apply d256_sub_ok; auto|].
    unfold d256_sub. destruct (N.leb_spec y x); [lia|]. eexists; reflexivity. }
  assert (RAT : forall x y z, exact_or_abort (ui256_multiply_ratio x y z) (z <> 0 /\ x * y < B256) (x * y / z)).
  { intros x y z. split; intros H; [apply ui256_multiply_ratio_ok; intuition|].
    unfold ui256_multiply_ratio, u256_mul. destruct (N.eqb_spec z 0); [eexists; reflexivity|].
    destruct (N.ltb_spec (x*y) B256); [lia|]. eexists; reflexivity. }
  repeat split; try apply MUL; try apply ADD; try apply SUB; try apply RAT.
  - intros H. apply ui256_mul_ok; auto.
  - intros H. unfold ui256_mul. destruct (N.eqb_spec a 0) as [->|]; [unfold B256 in H; lia|].
    destruct (N.eqb_spec b 0) as [->|]; [unfold B256 in H; lia|]. simpl. apply MUL. assumption.
  - intros H. apply ui256_mul_dec_ok; auto.
  - intros H. unfold ui256_mul_dec. destruct (N.eqb_spec a 0) as [->|]; [unfold B256 in H; lia|].
    destruct (N.eqb_spec b 0) as [->|]; [unfold B256 in H; lia|]. simpl. apply RAT. intros [? ?]. auto.
  - intros H. apply ui256_div_dec_ok; intuition.
  - intros H. unfold ui256_div_dec. destruct (N.eqb_spec b 0) as [->|]; [eexists; reflexivity|].
    destruct (N.eqb_spec a 0) as [->|]; [exfalso; apply H; split; auto; reflexivity|]. apply RAT. intros [? ?]. auto.
  - intros H. apply d256_mul_ok; auto.
  - intros H. unfold d256_mul. destruct (proj2 (MUL a b) H) as [m ->]. eexists; reflexivity.
  - intros H. apply d256_div_ok; intuition.
  - intros H. unfold d256_div. destruct (N.eqb_spec b 0) as [->|]; [eexists; reflexivity|].
    destruct (proj2 (MUL a D18)) as [m ->]; [intros ?; auto|]. eexists; reflexivity.
Qed.

(** Results stay in range, so no operation wraps. *)
Theorem C42_results_in_range : forall a b c r, a < B256 -> b < B256 ->
  ui256_add a b = Ok r \/ ui256_sub a b = Ok r \/ ui256_mul a b = Ok r \/
  ui256_multiply_ratio a b c = Ok r \/ ui256_mul_dec a b = Ok r \/ ui256_div_dec a b = Ok r \/
  d256_mul a b = Ok r \/ d256_div a b = Ok r \/ d256_from_ratio a b = Ok r ->
  r < B256.
Proof.
  assert (DL : forall x y, y <> 0 -> x < B256 -> x / y < B256).
  { intros x y Hy Hx. apply N.div_lt_upper_bound; [assumption|]. nia. }
  intros a b c r Ha Hb H.
  destruct H as [H|[H|[H|[H|[H|[H|[H|[H|H]]]]]]]].
  - apply ui256_add_ok in H as [-> ?]; auto.
  - apply ui256_sub_ok in H as [-> ?]. lia.
  - apply ui256_mul_ok in H as [-> ?]; auto.
  - apply ui256_multiply_ratio_ok in H as (-> & ? & ?); auto.
  - apply ui256_mul_dec_ok in H as (-> & ?). apply DL; [discriminate|auto].
  - apply ui256_div_dec_ok in H as (-> & ? & ?); auto.
  - apply d256_mul_ok in H as (-> & ?). apply DL; [discriminate|auto].
  - apply d256_div_ok in H as (-> & ? & ?); auto.
  - apply d256_from_ratio_ok in H as (-> & ? & ?); auto.
Qed.

Example C42_example :
  ui256_multiply_ratio 300 2 7 = Ok 85 /\ ui256_mul_dec 300 (D18 / 2 * 3) = Ok 450 /\
  d256_from_ratio 1 3 = Ok 333333333333333333 /\
  (exists m, ui256_mul (2^200) (2^56) = panic m) /\ (exists m, ui256_sub 1 2 = panic m).
Proof. vm_compute. repeat split; eauto. Qed.

(** ** C43 *)

Lemma dec_text_spec s n : dec_text s n <-> all_digits s = true /\ n = dec_value s.
Proof.
  split.
  - induction 1 as [|s n d H [IH1 IH2] Hd]; [split; reflexivity|].
    change (ascii_of_N (48 + d)) with (digit_char d).
    rewrite all_digits_app, dec_value_app, IH1. cbn [all_digits andb]. rewrite digit_char_digit by assumption.
    split; [reflexivity|]. subst n. rewrite dec_value_cons.
    rewrite digit_val_char by assumption. cbn [String.length].
    change (10 ^ N.of_nat 1) with 10. change (10 ^ N.of_nat 0) with 1.
    change (dec_value "") with 0. lia.
  - intros [Hd ->]. remember (String.length s) as k eqn:Hk. revert s Hd Hk.
    induction k as [|k IH]; intros s Hd Hk.
    + destruct s; [constructor|discriminate].
    + assert (Hs : exists s' c, s = (s' ++ String c "")%string).
      { clear -Hk. revert k Hk. induction s as [|c r IHr]; [discriminate|]. intros k Hk.
        destruct r as [|c' r'].
        - exists ""%string, c. reflexivity.
        - destruct (IHr (String.length r')) as (s' & c2 & E); [reflexivity|].
          exists (String c s'), c2. rewrite append_cons, <- E. reflexivity. }
      destruct Hs as (s' & c & ->). rewrite all_digits_app in Hd. bools. simpl in H0. bools.
      unfold is_digit in H0. bools.
      assert (Hdv : digit_val c < 10) by (unfold digit_val; lia).
      assert (Hv : dec_value (s' ++ String c "") = 10 * dec_value s' + digit_val c).
      { rewrite dec_value_app, dec_value_cons. cbn [String.length].
        change (10 ^ N.of_nat 1) with 10. change (10 ^ N.of_nat 0) with 1.
        change (dec_value "") with 0. lia. }
      rewrite Hv.
      assert (Hc : c = ascii_of_N (48 + digit_val c)).
      { unfold digit_val. replace (48 + (N_of_ascii c - 48)) with (N_of_ascii c) by lia.
        symmetry. apply ascii_N_embedding. }
      rewrite Hc at 1.
      constructor; [|assumption]. apply IH; [assumption|].
      rewrite string_length_app in Hk. simpl in Hk. lia.
Qed.

Lemma split_dot_one s w : split_dot s = [w] -> s = w.
Proof.
  revert w. induction s as [|c r IH]; simpl; intros w H; [congruence|].
  destruct (Ascii.eqb c ".").
  - destruct r; simpl in H; [|destruct (Ascii.eqb _ _); [|destruct (split_dot r)]]; discriminate.
  - destruct (split_dot r) as [|h t] eqn:E; [|inversion H; subst; f_equal; apply IH; reflexivity].
    destruct r; simpl in E; [|destruct (Ascii.eqb _ _); [|destruct (split_dot r)]]; discriminate.
Qed.
Lemma split_dot_two s w f : split_dot s = [w; f] -> s = (w ++ String "." f)%string.
Proof.
  revert w. induction s as [|c r IH]; simpl; intros w H; [discriminate|].
  destruct (Ascii.eqb_spec c ".") as [->|].
  - inversion H; subst. rewrite append_nil. f_equal. apply split_dot_one. assumption.
  - destruct (split_dot r) as [|h t] eqn:E; [discriminate|]. inversion H; subst.
    rewrite append_cons. f_equal. apply IH. reflexivity.
Qed.

Theorem C43_parse_exact : forall s v,
  d256_from_str s = Ok v <-> decimal_text s v /\ v < B256.
Proof.
  intros s v. split.
  - unfold d256_from_str. destruct (split_dot s) as [|w [|f [|? ?]]] eqn:E; try discriminate.
    + apply split_dot_one in E as ->. rewrite u256_from_dec_str_spec.
      destruct (all_digits w) eqn:Hw; [|discriminate]. simpl.
      destruct (N.ltb_spec (dec_value w) B256); [|discriminate]. intros H1.
      apply u256_mul_ok in H1 as [-> H1]. split; [|assumption].
      change D18 with (10 ^ 18). constructor. apply dec_text_spec. auto.
    + apply split_dot_two in E as ->. rewrite !u256_from_dec_str_spec.
      destruct (all_digits w) eqn:Hw; [|discriminate].
      destruct (all_digits f) eqn:Hf.
      2:{ simpl. destruct (_ <? _); discriminate. }
      simpl. destruct (N.ltb_spec (dec_value w) B256); [|discriminate].
      destruct (N.ltb_spec (dec_value f) B256); [|discriminate].
      destruct (Nat.leb_spec (String.length f) 18); [|discriminate]. intros H2. inv_ok.
      apply u256_mul_ok in E as [-> ?]. apply u256_mul_ok in E0 as [-> ?].
      apply u256_add_ok in H2 as [-> ?]. split; [|assumption].
      rewrite Nat2N.inj_sub. change (N.of_nat 18) with 18.
      change D18 with (10 ^ 18). constructor; [apply dec_text_spec; auto..|lia].
  - intros [H Hv]. destruct H as [w n Hw|w n f m Hw Hf Hl].
    + apply dec_text_spec in Hw as [Hw ->]. unfold d256_from_str.
      rewrite split_dot_digits by assumption. rewrite u256_from_dec_str_spec, Hw. simpl.
      change (10 ^ 18) with D18 in *.
      destruct (N.ltb_spec (dec_value w) B256); [apply u256_mul_ok; auto|unfold D18, B256 in *; lia].
    + apply dec_text_spec in Hw as [Hw ->]. apply dec_text_spec in Hf as [Hf ->].
      unfold d256_from_str. rewrite split_dot_app by assumption. rewrite split_dot_digits by assumption.
      rewrite !u256_from_dec_str_spec, Hw, Hf. simpl.
      change (10 ^ 18) with D18 in *.
      assert (HP : 1 <= 10 ^ (18 - N.of_nat (String.length f))).
      { apply N.lt_pred_le; simpl; apply N.neq_0_lt_0; apply N.pow_nonzero; lia. }
      destruct (N.ltb_spec (dec_value w) B256); [|unfold D18, B256 in *; nia].
      destruct (N.ltb_spec (dec_value f) B256); [|unfold D18, B256 in *; nia].
      assert (HL := Hl). apply Nat.leb_le in HL. rewrite HL.
      rewrite Nat2N.inj_sub. change (N.of_nat 18) with 18.
      assert (M1 : u256_mul (dec_value w) D18 = Ok (dec_value w * D18)) by (apply u256_mul_ok; split; [reflexivity|lia]).
      rewrite M1. cbn [rbind].
      assert (M2 : u256_mul (dec_value f) (10 ^ (18 - N.of_nat (String.length f))) = Ok (dec_value f * 10 ^ (18 - N.of_nat (String.length f)))) by (apply u256_mul_ok; split; [reflexivity|lia]).
      rewrite M2. cbn [rbind]. apply u256_add_ok. auto.
Qed.

(** Text without that shape, or with a value of 2^256 / 10^18 and above, is
    never accepted; the empty text and texts such as ".23" are accepted,
    contrary to the doc comment at packages/bignumber/src/math.rs:80-81. *)
Example C43_example_doc_comment :
  d256_from_str "" = Ok 0 /\ d256_from_str ".23" = Ok 230000000000000000.
Proof. vm_compute. auto. Qed.
Example C43_example_refused :
  d256_from_str "1.2.3" = Err (EStd "Unexpected number of dots") /\
  d256_from_str "1.1230000000000000000" = Err (EStd "Cannot parse more than 18 fractional digits") /\
  d256_from_str "-1" = Err (EStd "Error parsing whole") /\
  d256_from_str "115792089237316195423570985008687907853269984665640564039457.584007913129639936"
    = panic "arithmetic operation overflow".
Proof. vm_compute. auto. Qed.
