(** C42, C43, C90: comparisons and the JSON form of Decimal256 and Uint256. *)
From Verif Require Import Base BigNumber CwStd Spec BigNumberFacts P_BigNumber P_Text Json JsonFacts P_Json BigNumberWire.
From Coq Require Import ZifyN Ascii String.
Local Open Scope N_scope.
Ltac Zify.zify_post_hook ::= idtac.

(** ** Comparisons *)
Lemma limb_lt i n : limb i n < B64.
Proof. unfold limb. apply N.mod_lt. discriminate. Qed.
(** C42: numbers compare as the integers they are, zero tests and assignments
    do what the operators do. *)
Theorem C42_compare_exact a b : a < 2 ^ 256 -> b < 2 ^ 256 ->
  u256_cmp a b = (a ?= b) /\
  (d256_is_zero a = true <-> a = 0) /\ (ui256_is_zero a = true <-> a = 0) /\
  exact_or_abort (d256_add_assign a b) (a + b < 2 ^ 256) (a + b) /\
  exact_or_abort (ui256_add_assign a b) (a + b < 2 ^ 256) (a + b) /\
  a <= d256_max /\ d256_max < 2 ^ 256 /\ d256_zero = 0 /\ ui256_zero = 0 /\
  ui256_from_u256 a = a /\ ui256_to_u256 a = a.
Proof.
  change (2 ^ 256) with B256. intros Ha Hb. pose proof (of_limbs_limbs a Ha) as Ea. pose proof (of_limbs_limbs b Hb) as Eb.
  pose proof (fun i => limb_lt i a) as La. pose proof (fun i => limb_lt i b) as Lb. unfold of_limbs in *.
  assert (Z : u256_is_zero a = true <-> a = 0).
  { unfold u256_is_zero. rewrite !andb_true_iff, !N.eqb_eq. split; [intros [[[H0 H1] H2] H3]; rewrite <- Ea, H0, H1, H2, H3; reflexivity|intros ->; auto]. }
  split.
  { unfold u256_cmp. pose proof (La 0) as L0. pose proof (La 1) as L1. pose proof (La 2) as L2. pose proof (Lb 0) as M0. pose proof (Lb 1) as M1. pose proof (Lb 2) as M2.
    replace (a ?= b) with (limb 0 a + B64 * (limb 1 a + B64 * (limb 2 a + B64 * limb 3 a)) ?= limb 0 b + B64 * (limb 1 b + B64 * (limb 2 b + B64 * limb 3 b))) by (rewrite Ea, Eb; reflexivity).
    symmetry. clear Ea Eb La Lb Ha Hb Z.
    generalize dependent (limb 0 a). generalize dependent (limb 1 a). generalize dependent (limb 2 a). generalize dependent (limb 0 b). generalize dependent (limb 1 b). generalize dependent (limb 2 b).
    generalize (limb 3 a) as a3. generalize (limb 3 b) as b3. intros b3 a3 b2 M2 b1 M1 b0 M0 a2 L2 a1 L1 a0 L0. unfold B64 in *.
    destruct (N.compare_spec a3 b3) as [->|H|H]; [|apply N.compare_lt_iff; lia|apply N.compare_gt_iff; lia].
    destruct (N.compare_spec a2 b2) as [->|H|H]; [|apply N.compare_lt_iff; lia|apply N.compare_gt_iff; lia].
    destruct (N.compare_spec a1 b1) as [->|H|H]; [|apply N.compare_lt_iff; lia|apply N.compare_gt_iff; lia].
    destruct (N.compare_spec a0 b0) as [->|H|H]; [apply N.compare_eq_iff; lia|apply N.compare_lt_iff; lia|apply N.compare_gt_iff; lia]. }
  split; [exact Z|]. split; [exact Z|].
  destruct (C42_arith_exact_or_abort a b 0) as (A & _). change (2 ^ 256) with B256 in A.
  split; [exact A|]. split; [exact A|]. change d256_max with (B256 - 1). split; [clear - Ha; lia|]. repeat split.
Qed.
(** C41: a u64 becomes the Uint256 of the same value. *)
Theorem C41_u64 v : v < 2 ^ 64 -> ui256_from_u64 v = v /\ ui256_from_u64 v = ui256_from_u128 v.
Proof.
  intros H. assert (E : ui256_from_u64 v = v) by (unfold ui256_from_u64, of_limbs; lia). split; [exact E|].
  rewrite E, ui256_from_u128_id; [reflexivity|]. change (2 ^ 64) with B64 in H. unfold B64, B128 in *. lia.
Qed.

(** ** Which texts abort *)
Lemma frac_small f m : dec_text f m -> (String.length f <= 18)%nat -> m * 10 ^ (18 - N.of_nat (String.length f)) < 10 ^ 18.
Proof.
  intros H L. apply dec_text_spec in H as [D ->]. pose proof (dec_value_lt f D) as X.
  replace (10 ^ 18) with (10 ^ N.of_nat (String.length f) * 10 ^ (18 - N.of_nat (String.length f))).
  - apply N.mul_lt_mono_pos_r; [apply N.neq_0_lt_0, N.pow_nonzero; discriminate|exact X].
  - rewrite <- N.pow_add_r. f_equal. lia.
Qed.
Lemma mul_panic a b : B256 <= a * b -> exists m, u256_mul a b = Err (EPanic m).
Proof. intros H. unfold u256_mul. destruct (N.ltb_spec (a * b) B256); [lia|eexists; reflexivity]. Qed.
Lemma mul_fits a b : a * b < B256 -> u256_mul a b = Ok (a * b).
Proof. intros H. apply u256_mul_ok. auto. Qed.
(** C43: a decimal text whose value does not fit aborts if its whole part alone,
    without the 18 decimals, would fit 256 bits, and is refused otherwise; a text
    that is no decimal text is refused. *)
Theorem C43_parse_outcomes s :
  (forall v, decimal_text s v ->
     (v < 2 ^ 256 -> d256_from_str s = Ok v) /\
     (2 ^ 256 <= v < 2 ^ 256 * 10 ^ 18 -> exists m, d256_from_str s = Err (EPanic m)) /\
     (2 ^ 256 * 10 ^ 18 <= v -> exists m, d256_from_str s = Err (EStd m))) /\
  ((forall v, ~ decimal_text s v) -> exists m, d256_from_str s = Err (EStd m)).
Proof.
  change (2 ^ 256) with B256. split.
  - intros v H. split; [intros L; apply C43_parse_exact; auto|].
    destruct H as [w n Hw|w n f m Hw Hf Hl].
    + apply dec_text_spec in Hw as [Dw ->]. unfold d256_from_str. rewrite split_dot_digits, u256_from_dec_str_spec, Dw by exact Dw. cbn [andb].
      change (10 ^ 18) with D18. destruct (N.ltb_spec (dec_value w) B256) as [X|X]; (split; [|intros Y]).
      * intros [L1 L2]. apply mul_panic, L1.
      * exfalso. unfold D18, B256 in *. lia.
      * intros [L1 L2]. exfalso. unfold D18, B256 in *. lia.
      * eauto.
    + pose proof (frac_small f m Hf Hl) as Sm. apply dec_text_spec in Hw as [Dw ->]. apply dec_text_spec in Hf as [Df ->]. unfold d256_from_str.
      rewrite split_dot_app, split_dot_digits, !u256_from_dec_str_spec, Dw, Df by assumption. cbn [andb].
      assert (HP : 1 <= 10 ^ (18 - N.of_nat (String.length f))) by (apply N.lt_pred_le, N.neq_0_lt_0, N.pow_nonzero; discriminate).
      change (10 ^ 18) with D18 in *.
      set (z := 10 ^ (18 - N.of_nat (String.length f))) in *.
      assert (Lf : dec_value f < B256) by (unfold D18, B256 in *; nia). apply N.ltb_lt in Lf. rewrite Lf. apply Nat.leb_le in Hl. rewrite Hl.
      rewrite Nat2N.inj_sub. change (N.of_nat 18) with 18. fold z.
      destruct (N.ltb_spec (dec_value w) B256) as [X|X]; (split; [|intros Y]).
      * intros [L1 L2]. cbv zeta. destruct (N.le_gt_cases B256 (dec_value w * D18)) as [M|M].
        { destruct (mul_panic _ _ M) as [e E]. rewrite E. cbn [rbind]. eauto. }
        rewrite (mul_fits _ _ M). cbn [rbind]. rewrite mul_fits by (unfold D18, B256 in *; lia). cbn [rbind]. unfold u256_add.
        destruct (N.ltb_spec (dec_value w * D18 + dec_value f * z) B256) as [K|K]; [exfalso; clear - K L1; lia|eexists; reflexivity].
      * exfalso. unfold D18, B256 in *. lia.
      * intros [L1 L2]. exfalso. clear - L2 X Sm. unfold D18, B256 in *. lia.
      * eauto.
  - intros H. unfold d256_from_str. destruct (split_dot s) as [|w [|f [|? ?]]] eqn:E; eauto.
    + apply split_dot_one in E as ->. rewrite u256_from_dec_str_spec. destruct (all_digits w) eqn:Hw; cbn [andb]; [|eauto].
      destruct (H (dec_value w * 10 ^ 18)). constructor. apply dec_text_spec. auto.
    + apply split_dot_two in E as ->. rewrite !u256_from_dec_str_spec. destruct (all_digits w) eqn:Hw; cbn [andb]; [|eauto].
      destruct (dec_value w <? B256); [|eauto]. destruct (all_digits f) eqn:Hf; cbn [andb]; [|eauto]. destruct (dec_value f <? B256); [|eauto].
      destruct (Nat.leb_spec (String.length f) 18) as [L|L]; [|eauto].
      destruct (H (dec_value w * 10 ^ 18 + dec_value f * 10 ^ (18 - N.of_nat (String.length f)))). constructor; [apply dec_text_spec; auto..|exact L].
Qed.
Example C43_case_abort :
  (exists m, d256_from_str "115792089237316195423570985008687907853269984665640564039458" = Err (EPanic m)) /\
  (exists m, d256_from_str "115792089237316195423570985008687907853269984665640564039457584007913129639936" = Err (EStd m)).
Proof. split; eexists; vm_compute; reflexivity. Qed.

(** ** C90: the JSON form *)
(** The texts stand for themselves in JSON: nothing needs escaping. *)
Lemma escaped_plain s : (forall c, In c (list_ascii_of_string s) -> is_digit c = true \/ c = "."%char) -> escaped s = s.
Proof.
  induction s as [|c s IH]; intros H; [reflexivity|]. cbn [escaped]. rewrite IH by (intros x I; apply H; right; exact I).
  destruct (H c (or_introl eq_refl)) as [D| ->]; [|reflexivity]. destruct c as [[] [] [] [] [] [] [] []]; try discriminate D; reflexivity.
Qed.
Lemma digits_in s : all_digits s = true -> forall c, In c (list_ascii_of_string s) -> is_digit c = true.
Proof. induction s as [|c s IH]; [intros _ x []|]. intros H x I. cbn [all_digits] in H. apply andb_prop in H as [H1 H2]. destruct I as [<-|I]; [exact H1|exact (IH H2 x I)]. Qed.
Lemma in_app_str a b c : In c (list_ascii_of_string (a ++ b)) -> In c (list_ascii_of_string a) \/ In c (list_ascii_of_string b).
Proof. induction a as [|x a IH]; [auto|]. rewrite append_cons. cbn [list_ascii_of_string In]. intros [H|H]; [auto|]. apply IH in H. tauto. Qed.
Lemma decimal_plain s v : decimal_text s v -> forall c, In c (list_ascii_of_string s) -> is_digit c = true \/ c = "."%char.
Proof.
  intros H c I. destruct H as [w n Hw|w n f m Hw Hf Hl].
  - apply dec_text_spec in Hw as [Dw _]. left. exact (digits_in w Dw c I).
  - apply dec_text_spec in Hw as [Dw _]. apply dec_text_spec in Hf as [Df _]. apply in_app_str in I as [I|[I|I]]; [left; exact (digits_in w Dw c I)|auto|left; exact (digits_in f Df c I)].
Qed.

(** C90: a number is written as its printed text in quotation marks and is read
    back as itself. *)
Theorem C90_numbers_survive_json d : d < 2 ^ 256 ->
  d256_to_json d = String """" (d256_to_string d ++ """") /\ d256_from_json (d256_to_json d) = Ok d /\
  ui256_to_json d = String """" (ui256_to_string d ++ """") /\ ui256_from_json (ui256_to_json d) = Ok d.
Proof.
  change (2 ^ 256) with B256. intros L. pose proof (C39_decimal256_text_roundtrip d L) as R. pose proof (C39_uint256_text_roundtrip d L) as R'.
  unfold d256_from_json, ui256_from_json, d256_to_json, ui256_to_json. rewrite !parse_render. cbn [d256_visit ui256_visit render]. rewrite R.
  split; [|split; [reflexivity|]; split].
  - unfold quote. f_equal. rewrite escaped_plain; [reflexivity|]. apply C43_parse_exact in R as [R _]. exact (decimal_plain _ _ R).
  - unfold quote. f_equal. rewrite escaped_plain; [reflexivity|]. intros c I. left. exact (digits_in _ (dec_to_string_digits d) c I).
  - unfold ui256_from_str in R'. destruct (u256_from_dec_str (ui256_to_string d)); congruence.
Qed.
(** Exactly the JSON strings of decimal texts in range are read; an overflow
    aborts or is refused as in C43; everything else is refused. *)
Theorem C90_decimal256_json b :
  (forall d, d256_from_json b = Ok d <-> exists s, document (VStr s) b /\ decimal_text s d /\ d < 2 ^ 256) /\
  (forall m, d256_from_json b = Err (EPanic m) -> exists s v, document (VStr s) b /\ decimal_text s v /\ 2 ^ 256 <= v < 2 ^ 256 * 10 ^ 18) /\
  (forall s v, document (VStr s) b -> decimal_text s v -> 2 ^ 256 <= v < 2 ^ 256 * 10 ^ 18 -> exists m, d256_from_json b = Err (EPanic m)) /\
  (forall e, d256_from_json b = Err e -> e = EParse \/ exists m, e = EPanic m).
Proof.
  setoid_rewrite <- C87_reads_exactly_json. unfold d256_from_json. change (2 ^ 256) with B256.
  split; [|split; [|split]].
  - intros d. split.
    + destruct (parse b) as [v|]; [|discriminate]. destruct v; try discriminate. cbn [d256_visit]. intros H. exists s. split; [reflexivity|]. apply C43_parse_exact.
      destruct (d256_from_str s) as [x|[]]; congruence.
    + intros (s & E & H). rewrite E. cbn [d256_visit]. apply C43_parse_exact in H. rewrite H. reflexivity.
  - intros m. destruct (parse b) as [v|]; [|discriminate]. destruct v; try discriminate. cbn [d256_visit]. intros H.
    destruct (d256_from_str s) as [x|e] eqn:E; [discriminate|]. destruct e; try discriminate. exists s.
    destruct (C43_parse_outcomes s) as [O1 O2]. change (2 ^ 256) with B256 in O1.
    unfold d256_from_str in E. destruct (split_dot s) as [|w [|f [|? ?]]] eqn:Es; try discriminate.
    + apply split_dot_one in Es as ->. rewrite u256_from_dec_str_spec in E. destruct (all_digits w) eqn:Hw; cbn [andb] in E; [|discriminate].
      destruct (N.ltb_spec (dec_value w) B256) as [L|L]; [|discriminate]. exists (dec_value w * 10 ^ 18). split; [reflexivity|].
      split; [constructor; apply dec_text_spec; auto|]. unfold u256_mul in E. destruct (N.ltb_spec (dec_value w * D18) B256) as [L'|L']; [discriminate|].
      change (10 ^ 18) with D18. unfold D18, B256 in *. lia.
    + apply split_dot_two in Es as ->. rewrite !u256_from_dec_str_spec in E. destruct (all_digits w) eqn:Hw; cbn [andb] in E; [|discriminate].
      destruct (N.ltb_spec (dec_value w) B256) as [L|L]; [|discriminate]. destruct (all_digits f) eqn:Hf; cbn [andb] in E; [|discriminate].
      destruct (N.ltb_spec (dec_value f) B256) as [L1|L1]; [|discriminate]. destruct (Nat.leb_spec (String.length f) 18) as [L2|L2]; [|discriminate].
      exists (dec_value w * 10 ^ 18 + dec_value f * 10 ^ (18 - N.of_nat (String.length f))). split; [reflexivity|].
      assert (Df : dec_text f (dec_value f)) by (apply dec_text_spec; auto). pose proof (frac_small f _ Df L2) as Sm.
      assert (T : decimal_text (w ++ String "." f) (dec_value w * 10 ^ 18 + dec_value f * 10 ^ (18 - N.of_nat (String.length f)))) by (constructor; [apply dec_text_spec; auto|exact Df|exact L2]).
      split; [exact T|]. destruct (O1 _ T) as (P1 & _). split.
      * destruct (N.le_gt_cases B256 (dec_value w * 10 ^ 18 + dec_value f * 10 ^ (18 - N.of_nat (String.length f)))) as [K|K]; [exact K|].
        apply P1 in K. unfold d256_from_str in K. rewrite split_dot_app, split_dot_digits, !u256_from_dec_str_spec, Hw, Hf in K by assumption. cbn [andb] in K.
        apply N.ltb_lt in L, L1. apply Nat.leb_le in L2. rewrite L, L1, L2 in K. congruence.
      * clear - L Sm. change (10 ^ 18) with D18 in *. unfold D18, B256 in *. lia.
  - intros s v E T L. rewrite E. cbn [d256_visit]. destruct (C43_parse_outcomes s) as [O1 _]. destruct (O1 v T) as (_ & P & _). destruct (P L) as [m Em]. rewrite Em. eauto.
  - intros e. destruct (parse b) as [v|]; [|intros H; injection H as <-; auto]. destruct v; try (intros H; injection H as <-; auto). cbn [d256_visit].
    destruct (d256_from_str s) as [x|[]]; intros H; try discriminate; injection H as <-; eauto.
Qed.
Theorem C90_uint256_json b :
  (forall n, ui256_from_json b = Ok n <-> exists s, document (VStr s) b /\ dec_text s n /\ n < 2 ^ 256) /\
  (forall e, ui256_from_json b = Err e -> e = EParse).
Proof.
  setoid_rewrite <- C87_reads_exactly_json. unfold ui256_from_json. change (2 ^ 256) with B256. split.
  - intros n. split.
    + destruct (parse b) as [v|]; [|discriminate]. destruct v; try discriminate. cbn [ui256_visit]. intros H. exists s. split; [reflexivity|].
      rewrite u256_from_dec_str_spec in H. destruct (all_digits s) eqn:D; cbn [andb] in H; [|discriminate]. destruct (N.ltb_spec (dec_value s) B256) as [L|L]; [|discriminate].
      injection H as <-. split; [apply dec_text_spec; auto|exact L].
    + intros (s & E & T & L). rewrite E. cbn [ui256_visit]. apply dec_text_spec in T as [D ->]. rewrite u256_from_dec_str_spec, D. apply N.ltb_lt in L. rewrite L. reflexivity.
  - intros e. destruct (parse b) as [v|]; [|congruence]. destruct v; try (cbn [ui256_visit]; congruence). cbn [ui256_visit]. destruct (u256_from_dec_str s); congruence.
Qed.
Example C90_case :
  d256_to_json 8760000000000000000 = """8.76""" /\ d256_from_json """008.760""" = Ok 8760000000000000000 /\ d256_from_json " ""1."" " = Ok (10 ^ 18) /\
  d256_from_json "8" = Err EParse /\ d256_from_json """8.""x" = Err EParse /\
  ui256_to_json 1234567890987654321 = """1234567890987654321""" /\ ui256_from_json """1.23""" = Err EParse /\
  (exists m, d256_from_json """115792089237316195423570985008687907853269984665640564039458""" = Err (EPanic m)).
Proof. do 7 (split; [vm_compute; reflexivity|]). eexists. vm_compute. reflexivity. Qed.
