(** Facts about the big-number package. *)
From Verif Require Import Base BigNumber CwStd.
From Coq Require Import Ascii String ZifyN.
Local Open Scope N_scope.
Ltac Zify.zify_post_hook ::= Z.div_mod_to_equations.

Lemma B64_128 : B64 * B64 = B128. Proof. reflexivity. Qed.
Lemma B128_256 : B128 * B128 = B256. Proof. reflexivity. Qed.

(** ** Limbs *)

Lemma limb0 n : limb 0 n = n mod B64.
Proof. unfold limb. rewrite N.pow_0_r, N.div_1_r. reflexivity. Qed.
Lemma limb1 n : limb 1 n = (n / B64) mod B64.
Proof. unfold limb. rewrite N.pow_1_r. reflexivity. Qed.
Lemma limb2 n : limb 2 n = (n / B128) mod B64.
Proof. reflexivity. Qed.
Lemma limb3 n : limb 3 n = (n / (B128 * B64)) mod B64.
Proof. reflexivity. Qed.

Lemma limbs_small n : n < B256 -> (limb 2 n = 0 /\ limb 3 n = 0 <-> n < B128).
Proof.
  intros Hn. rewrite limb2, limb3. unfold B64, B128, B256 in *. split.
  - intros [H2 H3]. lia.
  - intros H. rewrite (N.div_small n) by lia. rewrite (N.div_small n) by lia. split; reflexivity.
Qed.

Lemma of_limbs_limbs n : n < B256 ->
  of_limbs (limb 0 n) (limb 1 n) (limb 2 n) (limb 3 n) = n.
Proof.
  intros Hn. unfold of_limbs. rewrite limb0, limb1, limb2, limb3.
  unfold B64, B128, B256 in *. lia.
Qed.

Lemma split_u128_spec a : a < B128 -> split_u128 a = (a / B64, a mod B64).
Proof.
  intros _. unfold split_u128. f_equal.
  - rewrite N.shiftr_div_pow2. reflexivity.
  - change 18446744073709551615 with (N.ones 64). rewrite N.land_ones. reflexivity.
Qed.

Lemma ui256_from_u128_id v : v < B128 -> ui256_from_u128 v = v.
Proof.
  intros H. unfold ui256_from_u128. rewrite split_u128_spec by assumption.
  unfold of_limbs, B64. lia.
Qed.

Lemma ui256_to_u128_spec n : n < B256 ->
  ui256_to_u128 n = if n <? B128 then Ok n else ui256_to_u128 n.
Proof.
  intros Hn. destruct (N.ltb_spec n B128) as [H|H]; [|reflexivity].
  apply limbs_small in H as [H2 H3]; [|assumption].
  unfold ui256_to_u128. rewrite H2, H3. simpl. f_equal.
  assert (n < B128) by (apply limbs_small; auto).
  rewrite N.shiftl_mul_pow2. rewrite limb0, limb1. unfold B64, B128 in *.
  change (2^64) with 18446744073709551616. lia.
Qed.

Lemma ui256_to_u128_ok n v : n < B256 ->
  (ui256_to_u128 n = Ok v <-> v = n /\ n < B128).
Proof.
  intros Hn. split.
  - intros H. rewrite ui256_to_u128_spec in H by assumption.
    destruct (N.ltb_spec n B128) as [Hl|Hl].
    + inv_ok. auto.
    + exfalso. unfold ui256_to_u128 in H.
      destruct (N.eqb_spec (limb 2 n) 0) as [E2|]; [|discriminate].
      destruct (N.eqb_spec (limb 3 n) 0) as [E3|]; [|discriminate].
      assert (n < B128) by (apply limbs_small; auto). lia.
  - intros [-> Hl]. rewrite ui256_to_u128_spec by assumption.
    apply N.ltb_lt in Hl. rewrite Hl. reflexivity.
Qed.

Lemma ui256_to_u128_panic n : n < B256 -> B128 <= n ->
  exists m, ui256_to_u128 n = panic m.
Proof.
  intros Hn Hb. unfold ui256_to_u128.
  destruct (N.eqb_spec (limb 2 n) 0) as [E2|]; [|eexists; reflexivity].
  destruct (N.eqb_spec (limb 3 n) 0) as [E3|]; [|eexists; reflexivity].
  assert (n < B128) by (apply limbs_small; auto). lia.
Qed.

(** ** Inversion of the operations *)

Lemma u256_mul_ok a b c : u256_mul a b = Ok c <-> c = a * b /\ a * b < B256.
Proof. unfold u256_mul. destruct (N.ltb_spec (a*b) B256); (split; [intros X; inv_ok; repeat split; auto|intros (-> & ?); auto; try lia]). Qed.
Lemma u256_add_ok a b c : u256_add a b = Ok c <-> c = a + b /\ a + b < B256.
Proof. unfold u256_add. destruct (N.ltb_spec (a+b) B256); (split; [intros X; inv_ok; repeat split; auto|intros (-> & ?); auto; try lia]). Qed.
Lemma u256_sub_ok a b c : u256_sub a b = Ok c <-> c = a - b /\ b <= a.
Proof. unfold u256_sub. destruct (N.leb_spec b a); (split; [intros X; inv_ok; repeat split; auto|intros (-> & ?); auto; try lia]). Qed.
Lemma u256_div_ok a b c : u256_div a b = Ok c <-> c = a / b /\ b <> 0.
Proof. unfold u256_div. destruct (N.eqb_spec b 0); (split; [intros X; inv_ok; repeat split; auto|intros (-> & ?); auto; try lia]). Qed.

Lemma d256_from_ratio_ok a b c :
  d256_from_ratio a b = Ok c <-> c = a * D18 / b /\ b <> 0 /\ a * D18 < B256.
Proof.
  unfold d256_from_ratio. destruct (N.eqb_spec b 0).
  - split; [discriminate|lia].
  - rewrite rbind_ok. split.
    + intros (x & H1 & H2). apply u256_mul_ok in H1 as [-> ?]. apply u256_div_ok in H2 as [-> ?]. auto.
    + intros (-> & ? & ?). eexists. rewrite u256_mul_ok, u256_div_ok. eauto.
Qed.
Lemma d256_from_uint256_ok a c : d256_from_uint256 a = Ok c <-> c = a * D18 /\ a * D18 < B256.
Proof. apply u256_mul_ok. Qed.
Lemma d256_sub_ok a b c : d256_sub a b = Ok c <-> c = a - b /\ b <= a.
Proof.
  unfold d256_sub. destruct (N.leb_spec b a).
  - apply u256_sub_ok.
  - split; [discriminate|lia].
Qed.
Lemma d256_mul_ok a b c : d256_mul a b = Ok c <-> c = a * b / D18 /\ a * b < B256.
Proof.
  unfold d256_mul. rewrite rbind_ok. split.
  - intros (x & H1 & H2). apply u256_mul_ok in H1 as [-> ?]. apply u256_div_ok in H2 as [-> ?]. auto.
  - intros (-> & ?). eexists. rewrite u256_mul_ok, u256_div_ok. repeat split; eauto.
Qed.
Lemma d256_div_ok a b c : d256_div a b = Ok c <-> c = a * D18 / b /\ b <> 0 /\ a * D18 < B256.
Proof.
  unfold d256_div. destruct (N.eqb_spec b 0).
  - split; [discriminate|lia].
  - rewrite rbind_ok. split.
    + intros (x & H1 & H2). apply u256_mul_ok in H1 as [-> ?]. apply u256_div_ok in H2 as [-> ?]. auto.
    + intros (-> & ? & ?). eexists. rewrite u256_mul_ok, u256_div_ok. eauto.
Qed.
Lemma ui256_add_ok a b c : ui256_add a b = Ok c <-> c = a + b /\ a + b < B256.
Proof. apply u256_add_ok. Qed.
Lemma ui256_sub_ok a b c : ui256_sub a b = Ok c <-> c = a - b /\ b <= a.
Proof. apply d256_sub_ok. Qed.
Lemma ui256_mul_ok a b c : ui256_mul a b = Ok c <-> c = a * b /\ a * b < B256.
Proof.
  unfold ui256_mul. destruct (N.eqb_spec a 0) as [->|]; simpl.
  - split; intros; inv_ok; [split; [lia|reflexivity]|]. f_equal; lia.
  - destruct (N.eqb_spec b 0) as [->|]; simpl.
    + split; intros; inv_ok; [split; [lia|rewrite N.mul_0_r; reflexivity]|]. f_equal; lia.
    + apply u256_mul_ok.
Qed.
Lemma ui256_multiply_ratio_ok a b d c :
  ui256_multiply_ratio a b d = Ok c <-> c = a * b / d /\ d <> 0 /\ a * b < B256.
Proof.
  unfold ui256_multiply_ratio. destruct (N.eqb_spec d 0).
  - split; [discriminate|lia].
  - rewrite rbind_ok. split.
    + intros (x & H1 & H2). apply u256_mul_ok in H1 as [-> ?]. apply u256_div_ok in H2 as [-> ?]. auto.
    + intros (-> & ? & ?). eexists. rewrite u256_mul_ok, u256_div_ok. eauto.
Qed.
Lemma ui256_mul_dec_ok a d c : ui256_mul_dec a d = Ok c <-> c = a * d / D18 /\ a * d < B256.
Proof.
  unfold ui256_mul_dec. destruct (N.eqb_spec a 0) as [->|]; simpl.
  - split; [intros X; inv_ok; split; reflexivity|intros [-> _]; reflexivity].
  - destruct (N.eqb_spec d 0) as [->|]; simpl.
    + rewrite N.mul_0_r. split; [intros X; inv_ok; split; reflexivity|intros [-> _]; reflexivity].
    + rewrite ui256_multiply_ratio_ok. split; intuition. discriminate.
Qed.
Lemma ui256_div_dec_ok a d c : ui256_div_dec a d = Ok c <-> c = a * D18 / d /\ d <> 0 /\ a * D18 < B256.
Proof.
  unfold ui256_div_dec. destruct (N.eqb_spec d 0) as [->|].
  - split; [discriminate|lia].
  - destruct (N.eqb_spec a 0) as [->|].
    + rewrite N.mul_0_l, N.div_0_l by assumption. split; intros; inv_ok; [repeat split; auto|]. f_equal. intuition.
    + apply ui256_multiply_ratio_ok.
Qed.

(** ** Text *)

Lemma append_cons c r t : (String c r ++ t)%string = String c (r ++ t)%string.
Proof. reflexivity. Qed.
Lemma append_nil t : (EmptyString ++ t)%string = t.
Proof. reflexivity. Qed.

Fixpoint all_digits (s : string) : bool :=
  match s with EmptyString => true | String c r => is_digit c && all_digits r end.

Fixpoint dec_value_acc (acc : N) (s : string) : N :=
  match s with EmptyString => acc | String c r => dec_value_acc (acc * 10 + digit_val c) r end.
Definition dec_value (s : string) : N := dec_value_acc 0 s.

Lemma dec_value_acc_lin s acc :
  dec_value_acc acc s = acc * 10 ^ N.of_nat (String.length s) + dec_value s.
Proof.
  unfold dec_value. revert acc. induction s as [|c r IH]; intros acc; cbn [String.length dec_value_acc].
  - simpl. lia.
  - rewrite (IH (acc * 10 + digit_val c)), (IH (0 * 10 + digit_val c)). rewrite Nat2N.inj_succ, N.pow_succ_r'. lia.
Qed.

Lemma dec_value_cons c r :
  dec_value (String c r) = digit_val c * 10 ^ N.of_nat (String.length r) + dec_value r.
Proof. unfold dec_value at 1. simpl. rewrite dec_value_acc_lin. reflexivity. Qed.

Lemma dec_value_acc_mono s acc : acc <= dec_value_acc acc s.
Proof.
  rewrite dec_value_acc_lin.
  assert (1 <= 10 ^ N.of_nat (String.length s)) by (apply N.lt_pred_le; simpl; apply N.neq_0_lt_0; apply N.pow_nonzero; lia).
  nia.
Qed.

Lemma u256_from_dec_spec s acc : acc < B256 ->
  u256_from_dec acc s =
  if all_digits s && (dec_value_acc acc s <? B256) then Some (dec_value_acc acc s) else None.
Proof.
  revert acc. induction s as [|c r IH]; intros acc Hacc; simpl.
  - apply N.ltb_lt in Hacc. rewrite Hacc. reflexivity.
  - destruct (is_digit c); simpl; [|reflexivity].
    pose proof (dec_value_acc_mono r (acc * 10 + digit_val c)).
    destruct (N.ltb_spec (acc * 10) B256); [destruct (N.ltb_spec (acc * 10 + digit_val c) B256)|].
    + apply IH; assumption.
    + destruct (N.ltb_spec (dec_value_acc (acc * 10 + digit_val c) r) B256); [lia|].
      rewrite andb_false_r. reflexivity.
    + destruct (N.ltb_spec (dec_value_acc (acc * 10 + digit_val c) r) B256); [lia|].
      rewrite andb_false_r. reflexivity.
Qed.

Lemma u128_from_dec_spec s acc : acc < B128 ->
  u128_from_dec acc s =
  if all_digits s && (dec_value_acc acc s <? B128) then Some (dec_value_acc acc s) else None.
Proof.
  revert acc. induction s as [|c r IH]; intros acc Hacc; simpl.
  - apply N.ltb_lt in Hacc. rewrite Hacc. reflexivity.
  - destruct (is_digit c); simpl; [|reflexivity].
    pose proof (dec_value_acc_mono r (acc * 10 + digit_val c)).
    destruct (N.ltb_spec (acc * 10 + digit_val c) B128).
    + apply IH; assumption.
    + destruct (N.ltb_spec (dec_value_acc (acc * 10 + digit_val c) r) B128); [lia|].
      rewrite andb_false_r. reflexivity.
Qed.

Lemma u256_from_dec_str_spec s :
  u256_from_dec_str s = if all_digits s && (dec_value s <? B256) then Some (dec_value s) else None.
Proof. apply u256_from_dec_spec. reflexivity. Qed.

Lemma N_of_digit_char d : d < 10 -> N_of_ascii (digit_char d) = 48 + d.
Proof. intros H. unfold digit_char. rewrite N_ascii_embedding; lia. Qed.
Lemma digit_char_digit d : d < 10 -> is_digit (digit_char d) = true.
Proof.
  intros H. unfold is_digit. rewrite N_of_digit_char by assumption.
  apply andb_true_intro. split; apply N.leb_le; lia.
Qed.
Lemma digit_val_char d : d < 10 -> digit_val (digit_char d) = d.
Proof. intros H. unfold digit_val. rewrite N_of_digit_char by assumption. lia. Qed.

Lemma dec_digits_spec fuel n acc :
  n < 10 ^ N.of_nat fuel -> all_digits acc = true ->
  all_digits (dec_digits fuel n acc) = true /\
  dec_value (dec_digits fuel n acc) = n * 10 ^ N.of_nat (String.length acc) + dec_value acc.
Proof.
  revert n acc. induction fuel as [|f IH]; intros n acc Hn Hacc.
  - simpl in *. assert (n = 0) by lia. subst. split; [assumption|lia].
  - cbn [dec_digits].
    assert (Hd : n mod 10 < 10) by (apply N.mod_lt; lia).
    assert (HA : all_digits (String (digit_char (n mod 10)) acc) = true).
    { simpl. rewrite digit_char_digit by assumption. assumption. }
    assert (HV : dec_value (String (digit_char (n mod 10)) acc) =
                 (n mod 10) * 10 ^ N.of_nat (String.length acc) + dec_value acc).
    { rewrite dec_value_cons, digit_val_char by assumption. reflexivity. }
    destruct (N.eqb_spec (n / 10) 0) as [E|E].
    + split; [assumption|]. rewrite HV. replace (n mod 10) with n by lia. reflexivity.
    + destruct (IH (n/10) (String (digit_char (n mod 10)) acc)) as [I1 I2]; [|assumption|].
      { rewrite Nat2N.inj_succ, N.pow_succ_r' in Hn. apply N.div_lt_upper_bound; lia. }
      split; [assumption|]. rewrite I2, HV. simpl String.length.
      rewrite Nat2N.inj_succ, N.pow_succ_r'.
      rewrite (N.div_mod n 10) at 3 by lia. lia.
Qed.

Lemma size_nat_bound n : n < 10 ^ N.of_nat (S (N.size_nat n)).
Proof.
  assert (n < 2 ^ N.of_nat (N.size_nat n)).
  { destruct n as [|p]; [reflexivity|]. simpl.
    induction p; cbn [Pos.size_nat]; rewrite Nat2N.inj_succ, N.pow_succ_r'; [lia..|].
    simpl. lia. }
  eapply N.lt_le_trans; [eassumption|].
  transitivity (10 ^ N.of_nat (N.size_nat n)).
  - apply N.pow_le_mono_l. lia.
  - apply N.pow_le_mono_r; lia.
Qed.

Lemma dec_to_string_digits n : all_digits (dec_to_string n) = true.
Proof. apply dec_digits_spec; [apply size_nat_bound|reflexivity]. Qed.
Lemma dec_to_string_value n : dec_value (dec_to_string n) = n.
Proof.
  unfold dec_to_string. rewrite (proj2 (dec_digits_spec _ n "" (size_nat_bound n) eq_refl)).
  simpl. unfold dec_value. simpl. lia.
Qed.

Lemma dec_digits_length fuel k n acc : n < 10 ^ N.of_nat (S k) ->
  (String.length (dec_digits fuel n acc) <= S k + String.length acc)%nat.
Proof.
  revert k n acc. induction fuel as [|f IH]; intros k n acc H; cbn [dec_digits].
  - lia.
  - destruct (N.eqb_spec (n/10) 0) as [E|E]; [simpl; lia|].
    destruct k as [|k].
    + change (10 ^ N.of_nat 1) with 10 in H. lia.
    + etransitivity; [apply (IH k)|simpl; lia].
      rewrite (Nat2N.inj_succ (S k)), N.pow_succ_r' in H. apply N.div_lt_upper_bound; lia.
Qed.

Lemma dec_to_string_nonempty n : dec_to_string n <> EmptyString.
Proof.
  unfold dec_to_string. cbn [dec_digits].
  assert (H : forall fuel m acc, acc <> EmptyString -> dec_digits fuel m acc <> EmptyString).
  { induction fuel as [|f IH]; intros m acc Hacc; cbn [dec_digits]; [assumption|].
    destruct (_ =? _); [discriminate|]. apply IH. discriminate. }
  destruct (_ =? _); [discriminate|]. apply H. discriminate.
Qed.

Lemma is_digit_not_dot c : is_digit c = true -> Ascii.eqb c "." = false.
Proof.
  intros H. apply Ascii.eqb_neq. intros ->. unfold is_digit in H. simpl in H. discriminate.
Qed.
Lemma is_digit_not_plus c : is_digit c = true -> Ascii.eqb c "+" = false.
Proof.
  intros H. apply Ascii.eqb_neq. intros ->. unfold is_digit in H. simpl in H. discriminate.
Qed.

Lemma split_dot_digits s : all_digits s = true -> split_dot s = [s].
Proof.
  induction s as [|c r IH]; [reflexivity|]. simpl. intros H. bools.
  rewrite is_digit_not_dot by assumption. rewrite IH by assumption. reflexivity.
Qed.
Lemma split_dot_app s t : all_digits s = true ->
  split_dot (s ++ String "." t)%string = s :: split_dot t.
Proof.
  induction s as [|c r IH]; intros H; [reflexivity|]. rewrite append_cons. simpl in *. bools.
  rewrite is_digit_not_dot by assumption. rewrite IH by assumption. reflexivity.
Qed.

Lemma string_length_app a b : String.length (a ++ b)%string = (String.length a + String.length b)%nat.
Proof. induction a; [reflexivity|]. rewrite append_cons. simpl. auto. Qed.
Lemma all_digits_app a b : all_digits (a ++ b)%string = all_digits a && all_digits b.
Proof. induction a; [reflexivity|]. rewrite append_cons. simpl. rewrite IHa. apply andb_assoc. Qed.
Lemma zeros_length n : String.length (zeros n) = n.
Proof. induction n; simpl; auto. Qed.
Lemma zeros_digits n : all_digits (zeros n) = true.
Proof. induction n; simpl; auto. Qed.
Lemma dec_value_app a b : dec_value (a ++ b)%string = dec_value a * 10 ^ N.of_nat (String.length b) + dec_value b.
Proof.
  induction a as [|c r IH]; rewrite ?append_nil, ?append_cons.
  - unfold dec_value. simpl. lia.
  - rewrite !dec_value_cons, IH, string_length_app, Nat2N.inj_add, N.pow_add_r. lia.
Qed.
Lemma dec_value_zeros n : dec_value (zeros n) = 0.
Proof. induction n; [reflexivity|]. simpl zeros. rewrite dec_value_cons, IHn. change (digit_val "0") with 0. lia. Qed.

Lemma trim_end0_decomp s : exists k, s = (trim_end0 s ++ zeros k)%string.
Proof.
  induction s as [|c r [k IH]]; [exists 0%nat; reflexivity|]. simpl.
  destruct (trim_end0 r) as [|c' r'] eqn:E.
  - destruct (Ascii.eqb_spec c "0") as [->|Hc].
    + exists (S k). rewrite append_nil in *. simpl. f_equal. assumption.
    + exists k. rewrite append_cons, append_nil in *. f_equal. assumption.
  - exists k. rewrite append_cons in *. f_equal. assumption.
Qed.

Lemma trim_end0_empty s : all_digits s = true -> trim_end0 s = EmptyString -> dec_value s = 0.
Proof.
  intros _ H. destruct (trim_end0_decomp s) as [k E]. rewrite H in E. simpl in E.
  rewrite E. apply dec_value_zeros.
Qed.

(** The text of the fractional part. *)
Lemma frac_text f : 0 < f -> f < D18 ->
  let fs := dec_to_string f in
  let t := trim_end0 (zeros (18 - String.length fs) ++ fs)%string in
  all_digits t = true /\ (String.length t <= 18)%nat /\ t <> EmptyString /\
  dec_value t * 10 ^ N.of_nat (18 - String.length t) = f.
Proof.
  intros H0 Hf fs t.
  set (z := (zeros (18 - String.length fs) ++ fs)%string) in t.
  assert (Hlen : (String.length fs <= 18)%nat).
  { unfold fs, dec_to_string. etransitivity; [apply (dec_digits_length _ 17)|simpl; lia]. exact Hf. }
  assert (Hz : String.length z = 18%nat).
  { unfold z. rewrite string_length_app, zeros_length. lia. }
  assert (Hzd : all_digits z = true).
  { unfold z. rewrite all_digits_app, zeros_digits. apply dec_to_string_digits. }
  assert (Hzv : dec_value z = f).
  { unfold z. rewrite dec_value_app, dec_value_zeros. unfold fs. rewrite dec_to_string_value. lia. }
  destruct (trim_end0_decomp z) as [k E]. fold t in E.
  assert (Hk : (String.length t + k = 18)%nat).
  { rewrite E, string_length_app, zeros_length in Hz. lia. }
  repeat split.
  - rewrite E, all_digits_app in Hzd. bools. assumption.
  - lia.
  - intros Ht. apply (trim_end0_empty z Hzd) in Ht. lia.
  - rewrite <- Hzv, E, dec_value_app, dec_value_zeros, zeros_length.
    replace (18 - String.length t)%nat with k by lia. lia.
Qed.

Lemma d256_text_roundtrip d : d < B256 -> d256_from_str (d256_to_string d) = Ok d.
Proof.
  intros Hd. unfold d256_to_string.
  assert (Hw : d / D18 < B256). { unfold D18, B256 in *. lia. }
  destruct (N.eqb_spec (d mod D18) 0) as [E|E].
  - unfold d256_from_str. rewrite split_dot_digits by apply dec_to_string_digits.
    rewrite u256_from_dec_str_spec, dec_to_string_digits, dec_to_string_value.
    apply N.ltb_lt in Hw. rewrite Hw. simpl. apply u256_mul_ok. unfold D18, B256 in *. lia.
  - assert (Hfl : d mod D18 < D18) by (apply N.mod_lt; discriminate).
    destruct (frac_text (d mod D18)) as (T1 & T2 & T3 & T4); [lia|assumption|].
    set (t := trim_end0 _) in *.
    unfold d256_from_str. rewrite split_dot_app by apply dec_to_string_digits.
    rewrite split_dot_digits by assumption.
    rewrite !u256_from_dec_str_spec, dec_to_string_digits, dec_to_string_value, T1.
    apply N.ltb_lt in Hw. rewrite Hw.
    assert (Htv : dec_value t < B256).
    { assert (1 <= 10 ^ N.of_nat (18 - String.length t)).
      { apply N.lt_pred_le; simpl; apply N.neq_0_lt_0; apply N.pow_nonzero; lia. }
      unfold D18, B256 in *. nia. }
    apply N.ltb_lt in Htv. rewrite Htv. simpl.
    apply Nat.leb_le in T2. rewrite T2.
    assert (M1 : u256_mul (d / D18) D18 = Ok (d / D18 * D18)).
    { apply u256_mul_ok. split; [reflexivity|]. unfold D18, B256 in *. lia. }
    rewrite M1. simpl.
    assert (M2 : u256_mul (dec_value t) (10 ^ N.of_nat (18 - String.length t)) = Ok (d mod D18)).
    { apply u256_mul_ok. rewrite T4. split; [reflexivity|]. unfold D18, B256 in *. lia. }
    rewrite M2. simpl. apply u256_add_ok. unfold D18, B256 in *. lia.
Qed.

Lemma u128_parse_digits s : all_digits s = true -> s <> EmptyString ->
  u128_parse s = if dec_value s <? B128 then Some (dec_value s) else None.
Proof.
  intros Hd Hne. destruct s as [|c r]; [congruence|].
  unfold u128_parse. assert (is_digit c = true) by (simpl in Hd; bools; assumption).
  rewrite is_digit_not_plus by assumption. rewrite u128_from_dec_spec by reflexivity.
  rewrite Hd. simpl. reflexivity.
Qed.

Lemma dec_text_roundtrip d : d < B128 -> dec_from_str (d256_to_string d) = Ok d.
Proof.
  intros Hd. unfold d256_to_string.
  assert (Hw : d / D18 < B128). { unfold D18, B128 in *. lia. }
  assert (Hm : d / D18 * D18 < B128). { unfold D18, B128 in *. lia. }
  destruct (N.eqb_spec (d mod D18) 0) as [E|E].
  - unfold dec_from_str. rewrite split_dot_digits by apply dec_to_string_digits.
    rewrite u128_parse_digits by (auto using dec_to_string_digits, dec_to_string_nonempty).
    rewrite dec_to_string_value.
    apply N.ltb_lt in Hw, Hm. rewrite Hw, Hm. f_equal. unfold D18 in *. lia.
  - assert (Hfl : d mod D18 < D18) by (apply N.mod_lt; discriminate).
    destruct (frac_text (d mod D18)) as (T1 & T2 & T3 & T4); [lia|assumption|].
    set (t := trim_end0 _) in *.
    unfold dec_from_str. rewrite split_dot_app by apply dec_to_string_digits.
    rewrite split_dot_digits by assumption.
    rewrite !u128_parse_digits by (auto using dec_to_string_digits, dec_to_string_nonempty).
    rewrite dec_to_string_value.
    apply N.ltb_lt in Hw, Hm. rewrite Hw, Hm.
    assert (Htv : dec_value t < B128).
    { assert (1 <= 10 ^ N.of_nat (18 - String.length t)).
      { apply N.lt_pred_le; simpl; apply N.neq_0_lt_0; apply N.pow_nonzero; lia. }
      unfold D18, B128 in *. nia. }
    apply N.ltb_lt in Htv. rewrite Htv.
    apply Nat.leb_le in T2. rewrite T2. rewrite T4.
    assert (Hs : d / D18 * D18 + d mod D18 = d) by (unfold D18; lia).
    cbv zeta. rewrite Hs. apply N.ltb_lt in Hd. rewrite Hd. reflexivity.
Qed.

Lemma d256_from_decimal_id d : d < B128 -> d256_from_decimal d = Ok d.
Proof.
  intros H. unfold d256_from_decimal, dec_display.
  rewrite d256_text_roundtrip; [reflexivity|]. unfold B128, B256 in *. lia.
Qed.

Lemma d256_to_decimal_ok n v : n < B256 -> (d256_to_decimal n = Ok v <-> v = n /\ n < B128).
Proof.
  intros Hn. unfold d256_to_decimal. split.
  - intros H. destruct (N.eqb_spec (limb 2 n) 0) as [E2|]; [|discriminate].
    destruct (N.eqb_spec (limb 3 n) 0) as [E3|]; [|discriminate].
    assert (Hl : n < B128) by (apply limbs_small; auto).
    rewrite dec_text_roundtrip in H by assumption. inv_ok. auto.
  - intros [-> Hl]. rewrite dec_text_roundtrip by assumption.
    apply limbs_small in Hl as [-> ->]; [reflexivity|assumption].
Qed.
