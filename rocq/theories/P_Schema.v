(** C87, C88: exactly which JSON values the contracts take as messages and as
    questions, said by a schema per entry point (as cosmwasm-schema would write it)
    instead of by a reader. *)
From Verif Require Import Base BigNumber BigNumberFacts CwStd Asset Messages PairMath Pair Token TokenQueries Factory Router World Json JsonFacts P_Json Wire QueryWire.
From Coq Require Import Ascii String.
Local Open Scope N_scope.

(** ** Specification *)

(** Decimal digits, at least one, perhaps after a plus sign, with a value below the
    bound. *)
Definition number_text (s : string) (n : N) : Prop :=
  exists d, (s = d \/ s = String "+" d) /\ d <> EmptyString /\ all_digits d = true /\ dec_value d = n.
Definition amount_text (bound : N) (s : string) : Prop := exists n, number_text s n /\ n < bound.
(** Such a text, or two of them around a dot with at most 18 characters after it;
    the value, times 10^18, is below 2^128. *)
Definition decimal_text (s : string) : Prop :=
  (exists n, number_text s n /\ n * 10 ^ 18 < 2 ^ 128) \/
  (exists w f n m, s = (w ++ String "." f)%string /\ number_text w n /\ number_text f m /\ m < 2 ^ 128 /\ (String.length f <= 18)%nat /\
     n * 10 ^ 18 + m * 10 ^ N.of_nat (18 - String.length f) < 2 ^ 128).

(** Base64 (RFC 4648): three bytes are four letters, each for six bits; one or two
    bytes at the end are filled with zero bits and marked with = signs. *)
Definition letter (k : N) (c : ascii) : Prop :=
  String.get (N.to_nat k) "ABCDEFGHIJKLMNOPQRSTUVWXYZabcdefghijklmnopqrstuvwxyz0123456789+/" = Some c.
Inductive base64 : string -> string -> Prop :=
| b64_none : base64 "" ""
| b64_one a w x c1 c2 : x < 64 -> N_of_ascii a * 2 ^ 4 = w * 2 ^ 6 + x -> letter w c1 -> letter x c2 ->
    base64 (String a "") (String c1 (String c2 "=="))
| b64_two a b w x y c1 c2 c3 : x < 64 -> y < 64 -> (N_of_ascii a * 2 ^ 8 + N_of_ascii b) * 2 ^ 2 = w * 2 ^ 12 + x * 2 ^ 6 + y ->
    letter w c1 -> letter x c2 -> letter y c3 -> base64 (String a (String b "")) (String c1 (String c2 (String c3 "=")))
| b64_three a b c w x y z c1 c2 c3 c4 t s : x < 64 -> y < 64 -> z < 64 ->
    N_of_ascii a * 2 ^ 16 + N_of_ascii b * 2 ^ 8 + N_of_ascii c = w * 2 ^ 18 + x * 2 ^ 12 + y * 2 ^ 6 + z ->
    letter w c1 -> letter x c2 -> letter y c3 -> letter z c4 -> base64 t s ->
    base64 (String a (String b (String c t))) (String c1 (String c2 (String c3 (String c4 s)))).

(** What a JSON value must look like. A field of a structure has a name, whether
    it is required, and a schema. *)
Inductive schema :=
| ZText
| ZNumber (bound : N)
| ZAmount (bound : N)
| ZDecimal
| ZBytes
| ZList (z : schema)
| ZTwo (z : schema)
| ZStruct (fields : list (string * bool * schema))
| ZOneOf (variants : list (string * schema)).
Fixpoint conforms (z : schema) (v : json) {struct z} : Prop :=
  match z with
  | ZText => exists s, v = VStr s
  | ZNumber b => exists n, v = VNum n /\ n < b
  | ZAmount b => exists s, v = VStr s /\ amount_text b s
  | ZDecimal => exists s, v = VStr s /\ decimal_text s
  | ZBytes => exists b s, v = VStr s /\ base64 b s
  | ZList z => exists l, v = VArr l /\ forall x, In x l -> conforms z x
  | ZTwo z => exists x y, v = VArr [x; y] /\ conforms z x /\ conforms z y
  | ZStruct fields =>
      exists l, v = VObj l /\ List.NoDup (map fst l) /\ (forall k, In k (map fst l) -> In k (map (fun f => fst (fst f)) fields)) /\
      (fix each fs :=
         match fs with
         | [] => True
         | (k, req, z) :: r =>
             ((req = true -> In k (map fst l)) /\ forall x, In (k, x) l -> (req = false /\ x = VNull) \/ conforms z x) /\ each r
         end) fields
  | ZOneOf variants =>
      exists t x, v = VObj [(t, x)] /\
      (fix some vs := match vs with [] => False | (k, z) :: r => (t = k /\ conforms z x) \/ some r end) variants
  end.
Definition no_args : schema := ZStruct [].
Definition z_uint128 : schema := ZAmount (2 ^ 128).
Definition must (k : string) (z : schema) := (k, true, z).
Definition may (k : string) (z : schema) := (k, false, z).

(** packages/haloswap/src/asset.rs *)
Definition z_info : schema := ZOneOf [
  ("token"%string, ZStruct [must "contract_addr" ZText]);
  ("native_token"%string, ZStruct [must "denom" ZText])].
Definition z_asset : schema := ZStruct [must "info" z_info; must "amount" z_uint128].
Definition z_requirements : schema := ZStruct [
  must "whitelist" (ZList ZText); must "first_asset_minimum" z_uint128; must "second_asset_minimum" z_uint128].
(** packages/haloswap/src/router.rs *)
Definition z_operation : schema := ZOneOf [
  ("halo_swap"%string, ZStruct [must "offer_asset_info" z_info; must "ask_asset_info" z_info])].
Definition z_route : schema := ZStruct [
  must "operations" (ZList z_operation); may "minimum_receive" z_uint128; may "to" ZText].
Definition z_receive : schema := ZStruct [must "sender" ZText; must "amount" z_uint128; must "msg" ZBytes].
Definition z_expiration : schema := ZOneOf [
  ("at_height"%string, ZNumber (2 ^ 64)); ("at_time"%string, ZAmount (2 ^ 64)); ("never"%string, no_args)].

Definition pair_execute_schema : schema := ZOneOf [
  ("receive"%string, z_receive);
  ("provide_liquidity"%string, ZStruct [must "assets" (ZTwo z_asset); may "slippage_tolerance" ZDecimal; may "receiver" ZText])].
Definition pair_hook_schema : schema := ZOneOf [
  ("swap"%string, ZStruct [may "belief_price" ZDecimal; may "max_spread" ZDecimal; may "to" ZText]);
  ("withdraw_liquidity"%string, no_args)].
Definition pair_query_schema : schema := ZOneOf [
  ("pair"%string, no_args); ("pool"%string, no_args);
  ("simulation"%string, ZStruct [must "offer_asset" z_asset]);
  ("reverse_simulation"%string, ZStruct [must "ask_asset" z_asset])].
Definition pair_instantiate_schema : schema := ZStruct [
  must "asset_infos" (ZTwo z_info); must "token_code_id" (ZNumber (2 ^ 64)); must "asset_decimals" (ZTwo (ZNumber 256));
  must "requirements" z_requirements].

Definition router_execute_schema : schema := ZOneOf [
  ("receive"%string, z_receive);
  ("execute_swap_operations"%string, z_route);
  ("execute_swap_operation"%string, ZStruct [must "operation" z_operation; may "to" ZText]);
  ("assert_minimum_receive"%string, ZStruct [
     must "asset_info" z_info; must "prev_balance" z_uint128; must "minimum_receive" z_uint128; must "receiver" ZText])].
Definition router_hook_schema : schema := ZOneOf [("execute_swap_operations"%string, z_route)].
Definition router_query_schema : schema := ZOneOf [
  ("config"%string, no_args);
  ("simulate_swap_operations"%string, ZStruct [must "offer_amount" z_uint128; must "operations" (ZList z_operation)]);
  ("reverse_simulate_swap_operations"%string, ZStruct [must "ask_amount" z_uint128; must "operations" (ZList z_operation)])].
Definition router_instantiate_schema : schema := ZStruct [must "halo_factory" ZText].

Definition factory_execute_schema : schema := ZOneOf [
  ("update_config"%string, ZStruct [may "owner" ZText; may "token_code_id" (ZNumber (2 ^ 64)); may "pair_code_id" (ZNumber (2 ^ 64))]);
  ("create_pair"%string, ZStruct [must "asset_infos" (ZTwo z_info); must "requirements" z_requirements]);
  ("add_native_token_decimals"%string, ZStruct [must "denom" ZText; must "decimals" (ZNumber 256)]);
  ("migrate_pair"%string, ZStruct [must "contract" ZText; may "code_id" (ZNumber (2 ^ 64))])].
Definition factory_query_schema : schema := ZOneOf [
  ("config"%string, no_args);
  ("pair"%string, ZStruct [must "asset_infos" (ZTwo z_info)]);
  ("pairs"%string, ZStruct [may "start_after" (ZTwo z_info); may "limit" (ZNumber (2 ^ 32))]);
  ("native_token_decimals"%string, ZStruct [must "denom" ZText])].
Definition factory_instantiate_schema : schema := ZStruct [
  must "pair_code_id" (ZNumber (2 ^ 64)); must "token_code_id" (ZNumber (2 ^ 64))].

Definition z_change_allowance : schema := ZStruct [must "spender" ZText; must "amount" z_uint128; may "expires" z_expiration].
Definition token_execute_schema : schema := ZOneOf [
  ("transfer"%string, ZStruct [must "recipient" ZText; must "amount" z_uint128]);
  ("burn"%string, ZStruct [must "amount" z_uint128]);
  ("send"%string, ZStruct [must "contract" ZText; must "amount" z_uint128; must "msg" ZBytes]);
  ("increase_allowance"%string, z_change_allowance);
  ("decrease_allowance"%string, z_change_allowance);
  ("transfer_from"%string, ZStruct [must "owner" ZText; must "recipient" ZText; must "amount" z_uint128]);
  ("send_from"%string, ZStruct [must "owner" ZText; must "contract" ZText; must "amount" z_uint128; must "msg" ZBytes]);
  ("burn_from"%string, ZStruct [must "owner" ZText; must "amount" z_uint128]);
  ("mint"%string, ZStruct [must "recipient" ZText; must "amount" z_uint128]);
  ("update_minter"%string, ZStruct [may "new_minter" ZText]);
  ("update_marketing"%string, ZStruct [may "project" ZText; may "description" ZText; may "marketing" ZText]);
  ("upload_logo"%string, ZOneOf [("url"%string, ZText); ("embedded"%string, ZOneOf [("svg"%string, ZBytes); ("png"%string, ZBytes)])])].
Definition token_query_schema : schema := ZOneOf [
  ("balance"%string, ZStruct [must "address" ZText]);
  ("token_info"%string, no_args); ("minter"%string, no_args);
  ("allowance"%string, ZStruct [must "owner" ZText; must "spender" ZText]);
  ("all_allowances"%string, ZStruct [must "owner" ZText; may "start_after" ZText; may "limit" (ZNumber (2 ^ 32))]);
  ("all_accounts"%string, ZStruct [may "start_after" ZText; may "limit" (ZNumber (2 ^ 32))])].
Definition token_instantiate_schema : schema := ZStruct [
  must "name" ZText; must "symbol" ZText; must "decimals" (ZNumber 256);
  must "initial_balances" (ZList (ZStruct [must "address" ZText; must "amount" z_uint128]));
  may "mint" (ZStruct [must "minter" ZText; may "cap" z_uint128])].

(** The reader takes exactly the values of the schema. *)
Definition takes {X} (d : json -> option X) (z : schema) : Prop := forall v, (exists x, d v = Some x) <-> conforms z v.

(** ** Leaves *)
Lemma takes_str : takes r_str ZText.
Proof. intros v. split; [intros (x & H); destruct v; try discriminate; eexists; reflexivity|intros (s & ->); eexists; reflexivity]. Qed.
Lemma takes_num b : takes (r_num b) (ZNumber b).
Proof.
  intros v. split.
  - intros (x & H). destruct v; try discriminate. unfold r_num in H. destruct (N.ltb_spec n b); [|discriminate]. exists n. auto.
  - intros (n & -> & H). unfold r_num. apply N.ltb_lt in H. rewrite H. eauto.
Qed.
Lemma parse_iff s n : u128_parse s = Some n <-> number_text s n /\ n < B128.
Proof.
  assert (G : forall d, u128_from_dec 0 d = Some n <-> (all_digits d = true /\ dec_value d = n) /\ n < B128).
  { intros d. rewrite u128_from_dec_spec by reflexivity. fold (dec_value d).
    destruct (all_digits d); cbn [andb]; [|split; [discriminate|intros [[? _] _]; discriminate]].
    destruct (N.ltb_spec (dec_value d) B128) as [H|H]; split; try discriminate.
    - intros E. injection E as <-. auto.
    - intros [[_ <-] _]. reflexivity.
    - intros [[_ <-] ?]. lia. }
  unfold u128_parse, number_text. destruct s as [|c r].
  - split; [discriminate|]. intros [(d & [<-|X] & H & _) _]; [congruence|discriminate].
  - destruct (Ascii.eqb_spec c "+") as [->|Hc].
    + destruct r as [|c' r].
      * split; [discriminate|]. intros [(d & [<-|E] & H & D & _) _]; [cbn in D; discriminate|]. injection E as <-. congruence.
      * rewrite G. split.
        -- intros [[H1 H2] H3]. split; [|exact H3]. exists (String c' r). repeat (split; [solve [auto|discriminate]|]). assumption.
        -- intros [(d & [<-|E] & H & D & V) H3]; [cbn in D; discriminate|]. injection E as <-. auto.
    + rewrite G. split.
      * intros [[H1 H2] H3]. split; [|exact H3]. exists (String c r). repeat (split; [solve [auto|discriminate]|]). assumption.
      * intros [(d & [<-|E] & H & D & V) H3]; [auto|]. injection E as -> _. congruence.
Qed.
Lemma takes_u128 : takes r_u128 z_uint128.
Proof.
  intros v. unfold z_uint128. cbn [conforms]. split.
  - intros (x & H). destruct v; try discriminate. cbn [r_u128] in H. apply parse_iff in H. exists s. split; [reflexivity|]. exists x. exact H.
  - intros (s & -> & n & H). exists n. cbn [r_u128]. apply parse_iff. exact H.
Qed.
Lemma takes_time : takes r_u64_text (ZAmount (2 ^ 64)).
Proof.
  intros v. cbn [conforms]. split.
  - intros (x & H). destruct v; try discriminate. cbn [r_u64_text] in H. destruct (u128_parse s) as [n|] eqn:E; [|discriminate].
    destruct (N.ltb_spec n B64) as [L|L]; [|discriminate]. apply parse_iff in E as [E _]. exists s. split; [reflexivity|]. exists n. auto.
  - intros (s & -> & n & H & L). exists n. cbn [r_u64_text]. rewrite (proj2 (parse_iff s n)).
    + change B64 with (2 ^ 64). apply N.ltb_lt in L. rewrite L. reflexivity.
    + split; [exact H|]. change B128 with (2 ^ 128). eapply N.lt_trans; [exact L|reflexivity].
Qed.
Lemma split_one s w : split_dot s = [w] -> s = w.
Proof.
  revert w. induction s as [|c r IH]; intros w; cbn [split_dot]; [congruence|]. destruct (Ascii.eqb c "."); [destruct r as [|c' r']; cbn [split_dot]; [discriminate|];
    destruct (Ascii.eqb c' "."); [discriminate|]; destruct (split_dot r'); discriminate|].
  destruct (split_dot r) as [|h t] eqn:E; [destruct r as [|c' r']; cbn [split_dot] in E; [discriminate|]; destruct (Ascii.eqb c' "."); [discriminate|]; destruct (split_dot r'); discriminate|].
  intros H. injection H as <- ->. f_equal. apply IH. reflexivity.
Qed.
Lemma split_cons s w f r : split_dot s = w :: f :: r -> exists s', s = (w ++ String "." s')%string /\ split_dot s' = f :: r.
Proof.
  revert w. induction s as [|c s IH]; intros w; cbn [split_dot]; [discriminate|]. destruct (Ascii.eqb_spec c ".") as [->|Hc].
  - intros H. injection H as <- H. exists s. split; [reflexivity|exact H].
  - destruct (split_dot s) as [|h t] eqn:E; [discriminate|]. intros H. injection H as <- ->. destruct (IH _ eq_refl) as (s' & -> & E'). exists s'. split; [reflexivity|exact E'].
Qed.
Lemma split_number s n : number_text s n -> split_dot s = [s].
Proof. intros (d & [->| ->] & _ & D & _); [apply split_dot_digits, D|]. cbn [split_dot]. rewrite split_dot_digits by exact D. reflexivity. Qed.
Lemma split_number_dot s n f : number_text s n -> split_dot (s ++ String "." f)%string = s :: split_dot f.
Proof. intros (d & [->| ->] & _ & D & _); [apply split_dot_app, D|]. rewrite append_cons. cbn [split_dot]. rewrite split_dot_app by exact D. reflexivity. Qed.
Lemma takes_dec : takes r_dec ZDecimal.
Proof.
  intros v. cbn [conforms]. change D18 with (10 ^ 18). split.
  - intros (x & H). destruct v; try discriminate. exists s. split; [reflexivity|]. cbn [r_dec] in H. destruct (dec_from_str s) as [y|] eqn:E; [|discriminate]. clear H x.
    unfold dec_from_str in E. destruct (split_dot s) as [|w r] eqn:Es; [discriminate|]. destruct (u128_parse w) as [n|] eqn:Ew; [|discriminate].
    apply parse_iff in Ew as [Ew Ln]. destruct (N.ltb_spec (n * D18) B128) as [L|L]; [|discriminate]. destruct r as [|f r].
    + left. apply split_one in Es as ->. exists n. split; [exact Ew|exact L].
    + right. apply split_cons in Es as (s' & -> & Es). destruct (u128_parse f) as [m|] eqn:Ef; [|discriminate]. apply parse_iff in Ef as [Ef Lm].
      destruct (Nat.leb_spec (String.length f) 18) as [Lf|Lf]; [|discriminate]. cbv zeta in E.
      destruct (N.ltb_spec (n * D18 + m * 10 ^ N.of_nat (18 - String.length f)) B128) as [L'|L']; [|discriminate]. destruct r; [|discriminate].
      apply split_one in Es as ->. exists w, f, n, m. split; [reflexivity|]. split; [exact Ew|]. split; [exact Ef|]. split; [exact Lm|]. split; [exact Lf|exact L'].
  - intros (s & -> & [(n & Hn & L)|(w & f & n & m & -> & Hn & Hm & Lm & Lf & L)]); cbn [r_dec]; unfold dec_from_str.
    + rewrite (split_number _ _ Hn). assert (Ln : n < 2 ^ 128) by (apply N.le_lt_trans with (n * 10 ^ 18); [rewrite <- (N.mul_1_r n) at 1; apply N.mul_le_mono_l; discriminate|exact L]).
      rewrite (proj2 (parse_iff s n) (conj Hn Ln)). change (n * 10 ^ 18 < 2 ^ 128) with (n * D18 < B128) in L. apply N.ltb_lt in L. rewrite L. eauto.
    + rewrite (split_number_dot _ _ _ Hn), (split_number _ _ Hm).
      assert (Ln' : n * D18 < B128) by (eapply N.le_lt_trans; [apply N.le_add_r|exact L]).
      assert (Ln : n < B128) by (apply N.le_lt_trans with (n * D18); [rewrite <- (N.mul_1_r n) at 1; apply N.mul_le_mono_l; discriminate|exact Ln']).
      rewrite (proj2 (parse_iff w n) (conj Hn Ln)), (proj2 (parse_iff f m) (conj Hm Lm)). apply N.ltb_lt in Ln'. rewrite Ln'.
      apply Nat.leb_le in Lf. rewrite Lf. cbv zeta. change (n * D18 + m * 10 ^ N.of_nat (18 - String.length f) < B128) in L. apply N.ltb_lt in L. rewrite L. eauto.
Qed.

Lemma b64_char_val c n : b64_val c = Some n -> n < 64 /\ b64_char n = c.
Proof.
  assert (forallb (fun k => match b64_val (ascii_of_nat k) with Some m => (m <? 64) && Ascii.eqb (b64_char m) (ascii_of_nat k) | None => true end) (seq 0 256) = true) as X by (vm_compute; reflexivity).
  rewrite forallb_forall in X. specialize (X (nat_of_ascii c)). rewrite ascii_nat_embedding in X. intros E. rewrite E in X.
  specialize (X ltac:(apply in_seq; pose proof (nat_ascii_bounded c); lia)). apply andb_prop in X as [X1 X2]. apply N.ltb_lt in X1. apply Ascii.eqb_eq in X2. auto.
Qed.
Lemma string_ind4 (P : string -> Prop) : P "" -> (forall a, P (String a "")) -> (forall a b, P (String a (String b ""))) -> (forall a b c, P (String a (String b (String c "")))) ->
  (forall a b c d r, P r -> P (String a (String b (String c (String d r))))) -> forall s, P s.
Proof. intros H0 H1 H2 H3 H4. fix IH 1. intros [|a [|b [|c [|d r]]]]; [exact H0|apply H1|apply H2|apply H3|apply H4, IH]. Qed.
Lemma b64_back s : forall t, b64_decode s = Some t -> s = b64_encode t.
Proof.
  induction s as [|a|a b|a b c|p q x y r IH] using string_ind4; intros t H; try discriminate; [injection H as <-; reflexivity|].
  cbn [b64_decode] in H. destruct (b64_val p) as [p'|] eqn:Ep; [|discriminate]. destruct (b64_val q) as [q'|] eqn:Eq; [|discriminate].
  apply b64_char_val in Ep as [Lp Ep]. apply b64_char_val in Eq as [Lq Eq].
  assert (Bq : q' / 16 < 4) by (apply N.div_lt_upper_bound; lia). pose proof (N.mod_lt q' 16 ltac:(discriminate)) as Mq. pose proof (N.div_mod q' 16 ltac:(discriminate)) as Dq.
  assert (A1 : (p' * 4 + q' / 16) / 4 = p') by (rewrite N.div_add_l by discriminate; rewrite (N.div_small (q' / 16)); lia).
  assert (A2 : (p' * 4 + q' / 16) mod 4 = q' / 16) by (rewrite N.add_comm, N.mod_add by discriminate; apply N.mod_small; lia).
  destruct (b64_val x) as [x'|] eqn:Ex.
  - apply b64_char_val in Ex as [Lx Ex].
    assert (Bx : x' / 4 < 16) by (apply N.div_lt_upper_bound; lia). pose proof (N.mod_lt x' 4 ltac:(discriminate)) as Mx. pose proof (N.div_mod x' 4 ltac:(discriminate)) as Dx.
    assert (B1 : (q' mod 16 * 16 + x' / 4) / 16 = q' mod 16) by (rewrite N.div_add_l by discriminate; rewrite (N.div_small (x' / 4)); lia).
    assert (B2 : (q' mod 16 * 16 + x' / 4) mod 16 = x' / 4) by (rewrite N.add_comm, N.mod_add by discriminate; apply N.mod_small; lia).
    destruct (b64_val y) as [y'|] eqn:Ey.
    + apply b64_char_val in Ey as [Ly Ey]. destruct (b64_decode r) as [t'|] eqn:Er; [|discriminate]. injection H as <-. cbn [b64_encode].
      rewrite !N_ascii_embedding by lia. rewrite A1, A2, B1, B2. rewrite <- (IH _ eq_refl).
      replace ((x' mod 4 * 64 + y') / 64) with (x' mod 4) by (rewrite N.div_add_l by discriminate; rewrite (N.div_small y'); lia).
      replace ((x' mod 4 * 64 + y') mod 64) with y' by (rewrite N.add_comm, N.mod_add by discriminate; symmetry; apply N.mod_small; lia).
      replace (q' / 16 * 16 + q' mod 16) with q' by lia. replace (x' / 4 * 4 + x' mod 4) with x' by lia. congruence.
    + destruct (Ascii.eqb_spec y "=") as [->|]; [|discriminate]. destruct (N.eqb_spec (x' mod 4) 0) as [X0|]; [|discriminate]. cbn [andb] in H.
      destruct r; [|discriminate]. injection H as <-. cbn [b64_encode]. rewrite !N_ascii_embedding by lia. rewrite A1, A2, B1, B2.
      replace (q' / 16 * 16 + q' mod 16) with q' by lia. replace (x' / 4 * 4) with x' by lia. congruence.
  - destruct (Ascii.eqb_spec x "=") as [->|]; [|discriminate]. destruct (Ascii.eqb_spec y "=") as [->|]; [|discriminate].
    destruct (N.eqb_spec (q' mod 16) 0) as [X0|]; [|discriminate]. cbn [andb] in H. destruct r; [|discriminate]. injection H as <-.
    cbn [b64_encode]. rewrite !N_ascii_embedding by lia. rewrite A1, A2. replace (q' / 16 * 16) with q' by lia. congruence.
Qed.
Lemma letter_iff k c : k < 64 -> letter k c <-> c = b64_char k.
Proof.
  intros H. unfold letter. assert (X : forallb (fun k => match String.get k "ABCDEFGHIJKLMNOPQRSTUVWXYZabcdefghijklmnopqrstuvwxyz0123456789+/" with Some c => Ascii.eqb c (b64_char (N.of_nat k)) | None => false end) (seq 0 64) = true) by (vm_compute; reflexivity).
  rewrite forallb_forall in X. specialize (X (N.to_nat k)). rewrite N2Nat.id in X. specialize (X ltac:(apply in_seq; lia)).
  destruct (String.get _ _) as [c'|]; [|discriminate]. apply Ascii.eqb_eq in X. split; congruence.
Qed.
Lemma base64_iff t s : base64 t s <-> s = b64_encode t.
Proof.
  change (2 ^ 4) with 16 in *. split.
  - induction 1 as [|a w x c1 c2 X E H1 H2|a b w x y c1 c2 c3 X Y E H1 H2 H3|a b c w x y z c1 c2 c3 c4 t s X Y Z E H1 H2 H3 H4 _ IH]; [reflexivity| | |]; cbn [b64_encode].
    + pose proof (byte_lt a) as La. revert E La. generalize (N_of_ascii a). intros n E La. change (2 ^ 4) with 16 in E. change (2 ^ 6) with 64 in E.
      pose proof (N.div_mod n 4 ltac:(discriminate)) as D. pose proof (N.mod_lt n 4 ltac:(discriminate)).
      assert (Ew : w = n / 4) by lia. assert (Ex : x = n mod 4 * 16) by lia.
      apply letter_iff in H1; [|lia]. apply letter_iff in H2; [|lia]. congruence.
    + pose proof (byte_lt a) as La. pose proof (byte_lt b) as Lb. revert E La Lb. generalize (N_of_ascii a) (N_of_ascii b). intros n m E La Lb.
      change (2 ^ 2) with 4 in E. change (2 ^ 8) with 256 in E. change (2 ^ 6) with 64 in E. change (2 ^ 12) with 4096 in E.
      pose proof (N.div_mod n 4 ltac:(discriminate)) as D. pose proof (N.mod_lt n 4 ltac:(discriminate)).
      pose proof (N.div_mod m 16 ltac:(discriminate)) as D2. pose proof (N.mod_lt m 16 ltac:(discriminate)).
      assert (Ew : w = n / 4) by lia. assert (Ex : x = n mod 4 * 16 + m / 16) by lia. assert (Ey : y = m mod 16 * 4) by lia.
      apply letter_iff in H1; [|lia]. apply letter_iff in H2; [|lia]. apply letter_iff in H3; [|lia]. congruence.
    + pose proof (byte_lt a) as La. pose proof (byte_lt b) as Lb. pose proof (byte_lt c) as Lc. revert E La Lb Lc. generalize (N_of_ascii a) (N_of_ascii b) (N_of_ascii c). intros n m k E La Lb Lc.
      change (2 ^ 16) with 65536 in E. change (2 ^ 8) with 256 in E. change (2 ^ 6) with 64 in E. change (2 ^ 12) with 4096 in E. change (2 ^ 18) with 262144 in E.
      pose proof (N.div_mod n 4 ltac:(discriminate)) as D. pose proof (N.mod_lt n 4 ltac:(discriminate)).
      pose proof (N.div_mod m 16 ltac:(discriminate)) as D2. pose proof (N.mod_lt m 16 ltac:(discriminate)).
      pose proof (N.div_mod k 64 ltac:(discriminate)) as D3. pose proof (N.mod_lt k 64 ltac:(discriminate)).
      assert (Ew : w = n / 4) by lia. assert (Ex : x = n mod 4 * 16 + m / 16) by lia. assert (Ey : y = m mod 16 * 4 + k / 64) by lia. assert (Ez : z = k mod 64) by lia.
      apply letter_iff in H1; [|lia]. apply letter_iff in H2; [|lia]. apply letter_iff in H3; [|lia]. apply letter_iff in H4; [|lia]. congruence.
  - intros ->. induction t as [|a|a b|a b c r IH] using string_ind3; cbn [b64_encode]; [constructor| | |].
    + pose proof (byte_lt a) as La. pose proof (N.div_mod (N_of_ascii a) 4 ltac:(discriminate)) as D. pose proof (N.mod_lt (N_of_ascii a) 4 ltac:(discriminate)).
      eapply b64_one; [| |apply letter_iff; [|reflexivity]|apply letter_iff; [|reflexivity]]; change (2 ^ 4) with 16; change (2 ^ 6) with 64; lia.
    + pose proof (byte_lt a) as La. pose proof (byte_lt b) as Lb.
      pose proof (N.div_mod (N_of_ascii a) 4 ltac:(discriminate)) as D. pose proof (N.mod_lt (N_of_ascii a) 4 ltac:(discriminate)).
      pose proof (N.div_mod (N_of_ascii b) 16 ltac:(discriminate)) as D2. pose proof (N.mod_lt (N_of_ascii b) 16 ltac:(discriminate)).
      eapply b64_two; [| | |apply letter_iff; [|reflexivity]|apply letter_iff; [|reflexivity]|apply letter_iff; [|reflexivity]];
        change (2 ^ 2) with 4; change (2 ^ 8) with 256; change (2 ^ 6) with 64; change (2 ^ 12) with 4096; lia.
    + pose proof (byte_lt a) as La. pose proof (byte_lt b) as Lb. pose proof (byte_lt c) as Lc.
      pose proof (N.div_mod (N_of_ascii a) 4 ltac:(discriminate)) as D. pose proof (N.mod_lt (N_of_ascii a) 4 ltac:(discriminate)).
      pose proof (N.div_mod (N_of_ascii b) 16 ltac:(discriminate)) as D2. pose proof (N.mod_lt (N_of_ascii b) 16 ltac:(discriminate)).
      pose proof (N.div_mod (N_of_ascii c) 64 ltac:(discriminate)) as D3. pose proof (N.mod_lt (N_of_ascii c) 64 ltac:(discriminate)).
      eapply b64_three; [| | | |apply letter_iff; [|reflexivity]|apply letter_iff; [|reflexivity]|apply letter_iff; [|reflexivity]|apply letter_iff; [|reflexivity]|exact IH];
        change (2 ^ 16) with 65536; change (2 ^ 8) with 256; change (2 ^ 6) with 64; change (2 ^ 12) with 4096; change (2 ^ 18) with 262144; lia.
Qed.
(** C87: binary payloads are read exactly from, and written as, Base64. *)
Theorem C87_base64 t s : (b64_decode s = Some t <-> base64 t s) /\ base64 t (b64_encode t).
Proof.
  split; [|apply base64_iff; reflexivity]. rewrite base64_iff. split; [apply b64_back|intros ->; apply b64_roundtrip].
Qed.
Example C87_case_base64 : base64 "Hello" "SGVsbG8=" /\ (forall t, ~ base64 t "SGVsbG8") /\ (forall t, ~ base64 t "SGVsbG9=").
Proof.
  split; [apply (proj1 (C87_base64 _ _)); vm_compute; reflexivity|]. split; intros t H; apply (proj1 (C87_base64 _ _)) in H; vm_compute in H; discriminate H.
Qed.
Lemma takes_bin : takes r_bin ZBytes.
Proof.
  intros v. cbn [conforms]. split.
  - intros (x & H). destruct v; try discriminate. exists x, s. split; [reflexivity|]. apply (proj1 (C87_base64 _ _)). exact H.
  - intros (b & s & -> & H). exists b. apply (proj1 (C87_base64 _ _)). exact H.
Qed.

(** ** Compound values *)
Lemma takes_list {X} (d : json -> option X) z : takes d z -> takes (r_list d) (ZList z).
Proof.
  intros T v. cbn [conforms].
  assert (G : forall l, (exists x, all_some d l = Some x) <-> forall x, In x l -> conforms z x).
  { induction l as [|a l IH]; cbn [all_some]; [split; [intros _ x []|eauto]|]. split.
    - intros (x & H) y [<-|Hy].
      + apply T. destruct (d a); [eauto|discriminate].
      + apply IH; [|exact Hy]. destruct (d a); cbn [obind] in H; [|discriminate]. destruct (all_some d l); [eauto|discriminate].
    - intros H. destruct (proj2 (T a) (H a (or_introl eq_refl))) as (b & ->). cbn [obind].
      destruct (proj2 IH (fun x I => H x (or_intror I))) as (r & ->). cbn [obind]. eauto. }
  split.
  - intros (x & H). destruct v as [| | |l|]; try discriminate. exists l. split; [reflexivity|]. apply G. eauto.
  - intros (l & -> & H). apply G in H. exact H.
Qed.
Lemma takes_two {X} (d : json -> option X) z : takes d z -> takes (r_two d) (ZTwo z).
Proof.
  intros T v. cbn [conforms]. split.
  - intros (x & H). destruct v as [| | |[|a [|b []]]|]; try discriminate. exists a, b. split; [reflexivity|]. cbn [r_two] in H.
    destruct (d a) eqn:Ea; [|discriminate]. destruct (d b) eqn:Eb; [|discriminate]. split; apply T; eauto.
  - intros (a & b & -> & Ha & Hb). apply T in Ha as (x & Ha). apply T in Hb as (y & Hb). cbn [r_two]. rewrite Ha, Hb. cbn [obind]. eauto.
Qed.

Definition field := (string * bool * schema)%type.
Definition each (l : list (string * json)) : list field -> Prop :=
  fix each fs :=
  match fs with
  | [] => True
  | (k, req, z) :: r => ((req = true -> In k (map fst l)) /\ forall x, In (k, x) l -> (req = false /\ x = VNull) \/ conforms z x) /\ each r
  end.
(** The reader of the fields of a structure succeeds on [l] exactly if the fields
    are as they should be. *)
Definition reads {X} (k : (string -> option json) -> option X) (fs : list field) : Prop :=
  forall l, List.NoDup (map fst l) -> (exists x, k (fun n => find_field n l) = Some x) <-> each l fs.
Lemma find_in k x l : List.NoDup (map fst l) -> find_field k l = Some x <-> In (k, x) l.
Proof.
  induction l as [|[k' y] l IH]; intros N1; cbn [find_field]; [split; [discriminate|intros []]|]. cbn [map fst] in N1. inversion N1 as [|? ? N2 N3]; subst.
  destruct (String.eqb_spec k' k) as [->|Hk].
  - split.
    + intros E. injection E as ->. left. reflexivity.
    + intros [E|H]; [congruence|]. exfalso. apply N2. apply (in_map fst) in H. exact H.
  - rewrite (IH N3). split; [intros H; right; exact H|intros [E|H]; [congruence|exact H]].
Qed.
Lemma find_none k l : find_field k l = None <-> ~ In k (map fst l).
Proof.
  induction l as [|[k' y] l IH]; cbn [find_field map fst In]; [tauto|]. destruct (String.eqb_spec k' k) as [->|Hk]; [split; [discriminate|tauto]|].
  rewrite IH. tauto.
Qed.
Lemma reads_done {X} (x : X) : reads (fun _ => Some x) [].
Proof. intros l _. cbn [each]. split; eauto. Qed.
Lemma reads_must {X Y} n (d : json -> option Y) z (k : Y -> (string -> option json) -> option X) fs : takes d z -> (forall y, reads (k y) fs) ->
  reads (fun g => let? y := required g n d in k y g) (must n z :: fs).
Proof.
  intros T R l ND. unfold must. cbn [each]. unfold required. split.
  - intros (x & H). destruct (find_field n l) as [v|] eqn:E; [|discriminate]. destruct (d v) as [y|] eqn:Ed; [|discriminate]. cbn [obind] in H.
    apply (find_in _ _ _ ND) in E. split; [|apply (R y l ND); eauto]. split; [intros _; apply (in_map fst) in E; exact E|].
    intros x' I. right. apply T. apply (find_in _ _ _ ND) in E, I. assert (x' = v) as -> by congruence. eauto.
  - intros [[H1 H2] H3]. destruct (find_field n l) as [v|] eqn:E; [|apply find_none in E; destruct (E (H1 eq_refl))].
    apply (find_in _ _ _ ND) in E. destruct (H2 _ E) as [[X1 _]|C]; [discriminate|]. apply T in C as (y & ->). cbn [obind]. apply (R y l ND). exact H3.
Qed.
Lemma reads_may {X Y} n (d : json -> option Y) z (k : option Y -> (string -> option json) -> option X) fs : takes d z -> (forall y, reads (k y) fs) ->
  reads (fun g => let? y := opt_field g n d in k y g) (may n z :: fs).
Proof.
  intros T R l ND. unfold may. cbn [each]. unfold opt_field. split.
  - intros (x & H). split.
    + split; [discriminate|]. intros v I. apply (find_in _ _ _ ND) in I. rewrite I in H. destruct v; [left; auto|right; apply T; cbn [optional] in H;
        (match type of H with context [d ?v] => destruct (d v) end; [eauto|discriminate])..].
    + match type of H with obind ?o _ = _ => destruct o as [y|]; [|discriminate] end. apply (R y l ND). eauto.
  - intros [[_ H2] H3]. destruct (find_field n l) as [v|] eqn:E; [|cbn [obind]; apply (R None l ND); exact H3].
    apply (find_in _ _ _ ND) in E.
    assert (G : exists y, optional d v = Some y).
    { destruct (H2 _ E) as [[_ ->]|C]; [eexists; reflexivity|]. apply T in C as (y & C). destruct v; cbn [optional]; rewrite ?C; cbn [obind]; eauto. }
    destruct G as (y & ->). cbn [obind]. apply (R y l ND). exact H3.
Qed.
Lemma reads_last {X} n (d : json -> option X) z : takes d z -> reads (fun g => required g n d) [must n z].
Proof.
  intros T l ND. pose proof (reads_must n d z (fun y _ => Some y) [] T (fun y => reads_done y) l ND) as H. rewrite <- H. cbn beta.
  destruct (required _ n d); cbn [obind]; reflexivity.
Qed.
Lemma distinct_iff l : distinct l = true <-> List.NoDup l.
Proof.
  induction l as [|k l IH]; cbn [distinct]; [split; [constructor|reflexivity]|]. rewrite andb_true_iff, IH, negb_true_iff. split.
  - intros [H1 H2]. constructor; [|exact H2]. intros I. assert (existsb (String.eqb k) l = true) by (apply existsb_exists; exists k; split; [exact I|apply String.eqb_refl]). congruence.
  - intros H. inversion H as [|? ? N1 N2]; subst. split; [|exact N2]. destruct (existsb (String.eqb k) l) eqn:E; [|reflexivity]. apply existsb_exists in E as (x & I & E).
    apply String.eqb_eq in E as ->. contradiction.
Qed.
Lemma takes_struct {X} names (k : (string -> option json) -> option X) fs : names = map (fun f : field => fst (fst f)) fs -> reads k fs ->
  takes (fun v => struct names v k) (ZStruct fs).
Proof.
  intros -> R v. cbn [conforms]. unfold struct. split.
  - intros (x & H). destruct v as [| | | |l]; try discriminate. destruct (distinct (map fst l)) eqn:D; [|discriminate].
    destruct (forallb _ l) eqn:F; [|discriminate]. apply distinct_iff in D. exists l. split; [reflexivity|]. split; [exact D|]. split.
    + intros n I. apply in_map_iff in I as ([n' y] & <- & I). rewrite forallb_forall in F. apply F in I. apply existsb_exists in I as (m & I & E). apply String.eqb_eq in E. cbn [fst] in *. subst m. exact I.
    + apply (R l D). eauto.
  - intros (l & -> & D & S & E). rewrite (proj2 (distinct_iff _) D). cbn [andb].
    replace (forallb _ l) with true; [apply (R l D); exact E|]. symmetry. apply forallb_forall. intros [n y] I. apply existsb_exists. exists n. split; [|apply String.eqb_refl].
    apply S. apply (in_map fst) in I. exact I.
Qed.
Definition some (t : string) (x : json) : list (string * schema) -> Prop :=
  fix some vs := match vs with [] => False | (k, z) :: r => (t = k /\ conforms z x) \/ some r end.
Definition chooses {X} (k : string -> json -> option X) (vs : list (string * schema)) : Prop :=
  forall t c, (exists x, k t c = Some x) <-> some t c vs.
Lemma chooses_none {X} : chooses (fun _ _ => @None X) [].
Proof. intros t c. cbn [some]. split; [intros (x & H); discriminate|intros []]. Qed.
Lemma some_tag t x vs : some t x vs -> In t (map fst vs).
Proof. induction vs as [|[k z] vs IH]; cbn [some map fst In]; [auto|]. intros [[-> _]|H]; auto. Qed.
Lemma chooses_if {X} n (d : json -> option X) z (k : string -> json -> option X) vs : takes d z -> chooses k vs -> existsb (String.eqb n) (map fst vs) = false ->
  chooses (fun t c => if String.eqb t n then d c else k t c) ((n, z) :: vs).
Proof.
  intros T R F t c. cbn [some]. destruct (String.eqb_spec t n) as [->|Hn].
  - rewrite (T c). split; [auto|]. intros [[_ H]|H]; [exact H|]. exfalso. apply some_tag in H.
    assert (existsb (String.eqb n) (map fst vs) = true) by (apply existsb_exists; exists n; split; [exact H|apply String.eqb_refl]). congruence.
  - rewrite (R t c). split; [auto|]. intros [[E _]|H]; [contradiction|exact H].
Qed.
Lemma takes_tagged {X} (k : string -> json -> option X) vs : chooses k vs -> takes (fun v => tagged v k) (ZOneOf vs).
Proof.
  intros R v. cbn [conforms]. unfold tagged. split.
  - intros (x & H). destruct v as [| | | |[|[t c] []]]; try discriminate. exists t, c. split; [reflexivity|]. apply (R t c). eauto.
  - intros (t & c & -> & H). apply (R t c). exact H.
Qed.
Lemma takes_then {X Y} (d : json -> option X) z (f : X -> Y) : takes d z -> takes (fun v => let? x := d v in Some (f x)) z.
Proof. intros T v. rewrite <- (T v). destruct (d v); cbn [obind]; split; intros (y & Hy); try discriminate; eauto. Qed.

Create HintDb taking.
Global Hint Resolve takes_str takes_num takes_u128 takes_time takes_dec takes_bin : taking.
Ltac reading :=
  lazymatch goal with
  | |- reads (fun g => obind (required g _ _) _) (must _ _ :: _) => eapply (reads_must _ _ _ (fun y g => _)); [solve [taking]|intros; reading]
  | |- reads (fun g => obind (opt_field g _ _) _) (may _ _ :: _) => eapply (reads_may _ _ _ (fun y g => _)); [solve [taking]|intros; reading]
  | |- reads (fun g => required g _ _) _ => apply reads_last; solve [taking]
  | |- reads (fun _ => Some _) [] => apply reads_done
  end
with choosing :=
  lazymatch goal with
  | |- chooses (fun t c => if String.eqb t _ then _ else _) (_ :: _) => eapply (chooses_if _ (fun c => _) _ (fun t c => _)); [solve [taking]|choosing|reflexivity]
  | |- chooses (fun _ _ => None) [] => apply chooses_none
  end
with taking :=
  lazymatch goal with
  | |- takes (fun v => struct _ v _) (ZStruct _) => apply takes_struct; [reflexivity|reading]
  | |- takes (fun v => tagged v _) (ZOneOf _) => apply takes_tagged; choosing
  | |- takes (fun v => obind _ (fun x => Some _)) _ => eapply (takes_then _ _ (fun x => _)); taking
  | |- takes (r_list _) (ZList _) => apply takes_list; taking
  | |- takes (r_two _) (ZTwo _) => apply takes_two; taking
  | |- takes _ _ => eauto with taking
  end.
Lemma takes_info : takes r_info z_info. Proof. unfold r_info, z_info. taking. Qed.
Global Hint Resolve takes_info : taking.
Lemma takes_asset : takes r_asset z_asset. Proof. unfold r_asset, z_asset. taking. Qed.
Lemma takes_reqs : takes r_reqs z_requirements. Proof. unfold r_reqs, z_requirements. taking. Qed.
Lemma takes_op : takes r_op z_operation. Proof. unfold r_op, z_operation. taking. Qed.
Global Hint Resolve takes_asset takes_reqs takes_op : taking.
Lemma takes_route {X} (mk : list swap_op -> option uint128 -> option string -> X) : takes (r_route mk) z_route. Proof. unfold r_route, z_route. taking. Qed.
Lemma takes_receive : takes r_receive z_receive. Proof. unfold r_receive, z_receive. taking. Qed.
Lemma takes_exp : takes r_exp z_expiration. Proof. unfold r_exp, z_expiration, no_args. change B64 with (2 ^ 64). taking. Qed.
Global Hint Resolve takes_route takes_receive takes_exp : taking.
Lemma takes_logo : takes r_logo (ZOneOf [("url"%string, ZText); ("embedded"%string, ZOneOf [("svg"%string, ZBytes); ("png"%string, ZBytes)])]).
Proof.
  unfold r_logo. apply takes_tagged. eapply (chooses_if _ (fun c => _) _ (fun t c => _)); [taking| |reflexivity].
  eapply (chooses_if _ (fun c => _) _ (fun t c => _)); [|apply chooses_none|reflexivity]. apply takes_tagged. intros t c. cbn [some].
  destruct (String.eqb_spec t "svg") as [->|H1]; [|destruct (String.eqb_spec t "png") as [->|H2]]; cbn [orb].
  - rewrite (takes_then r_bin ZBytes (fun _ => tt) takes_bin c). split; [auto|]. intros [[_ H]|[[_ H]|[]]]; exact H.
  - rewrite (takes_then r_bin ZBytes (fun _ => tt) takes_bin c). split; [auto|]. intros [[_ H]|[[_ H]|[]]]; exact H.
  - split; [intros (x & H); discriminate|]. intros [[H _]|[[H _]|[]]]; contradiction.
Qed.
Global Hint Resolve takes_logo : taking.

Lemma takes_pair_msg : takes r_pair_msg pair_execute_schema. Proof. unfold r_pair_msg, pair_execute_schema. taking. Qed.
Lemma takes_pair_hook : takes r_pair_hook pair_hook_schema. Proof. unfold r_pair_hook, pair_hook_schema, no_args. taking. Qed.
Lemma takes_pair_query : takes r_pair_query pair_query_schema. Proof. unfold r_pair_query, pair_query_schema, no_args. taking. Qed.
Lemma takes_pair_init : takes r_pair_init pair_instantiate_schema.
Proof. unfold r_pair_init, pair_instantiate_schema. change B64 with (2 ^ 64). taking. Qed.
Lemma takes_router_msg : takes r_router_msg router_execute_schema. Proof. unfold r_router_msg, router_execute_schema. taking. Qed.
Lemma takes_router_hook : takes r_router_hook router_hook_schema. Proof. unfold r_router_hook, router_hook_schema. taking. Qed.
Lemma takes_router_query : takes r_router_query router_query_schema. Proof. unfold r_router_query, router_query_schema, no_args. taking. Qed.
Lemma takes_router_init : takes r_router_init router_instantiate_schema. Proof. unfold r_router_init, router_instantiate_schema. taking. Qed.
Lemma takes_factory_msg : takes r_factory_msg factory_execute_schema.
Proof. unfold r_factory_msg, factory_execute_schema. change B64 with (2 ^ 64). taking. Qed.
Lemma takes_factory_query : takes r_factory_query factory_query_schema.
Proof. unfold r_factory_query, factory_query_schema, no_args. change B32 with (2 ^ 32). taking. Qed.
Lemma takes_factory_init : takes r_factory_init factory_instantiate_schema.
Proof. unfold r_factory_init, factory_instantiate_schema. change B64 with (2 ^ 64). taking. Qed.
Lemma takes_token_msg : takes r_token_msg token_execute_schema. Proof. unfold r_token_msg, token_execute_schema, z_change_allowance. taking. Qed.
Lemma takes_token_query : takes r_token_query token_query_schema.
Proof. unfold r_token_query, token_query_schema, no_args. change B32 with (2 ^ 32). taking. Qed.
Lemma takes_token_init : takes r_token_init token_instantiate_schema.
Proof. unfold r_token_init, token_instantiate_schema, r_coin, r_minter. taking. Qed.

(** ** Texts *)

(** Plain characters are those a JSON string contains as they are. *)
Definition plain_char (c : ascii) : bool := let n := N_of_ascii c in (32 <=? n) && negb (n =? 34) && negb (n =? 92).
Fixpoint plain (s : string) : bool := match s with EmptyString => true | String c r => plain_char c && plain r end.
(** A JSON object, its fields written without white space in the given order. *)
Definition obj (l : list (string * string)) : string :=
  ("{" ++ String.concat "," (map (fun f => """" ++ fst f ++ """:" ++ snd f) l) ++ "}")%string.
Definition arr (l : list string) : string := ("[" ++ String.concat "," l ++ "]")%string.
Definition uint (n : uint128) : string := ("""" ++ dec_to_string n ++ """")%string.
Definition deci (d : decimal) : string := ("""" ++ dec_display d ++ """")%string.
Definition opt {X} (f : X -> string) (o : option X) : string := match o with Some x => f x | None => "null" end.
Definition two {X} (f : X -> string) (p : X * X) : string := arr [f (fst p); f (snd p)].
Definition many {X} (f : X -> string) (l : list X) : string := arr (map f l).
Definition call_text (t : string) (l : list (string * string)) : string := obj [(t, obj l)].
Definition bytes (h : hook) : string := ("""" ++ b64_encode (hook_bytes h) ++ """")%string.

Definition info_text (i : asset_info) : string :=
  match i with
  | Token a => call_text "token" [("contract_addr", quote a)]
  | Native d => call_text "native_token" [("denom", quote d)]
  end.
Definition asset_text (a : asset) : string := obj [("info", info_text (a_info a)); ("amount", uint (a_amount a))].
Definition requirements_text (r : requirements) : string :=
  obj [("whitelist", many quote (whitelist r)); ("first_asset_minimum", uint (first_asset_minimum r));
       ("second_asset_minimum", uint (second_asset_minimum r))].
Definition operation_text (o : swap_op) : string :=
  match o with HaloSwap a b => call_text "halo_swap" [("offer_asset_info", info_text a); ("ask_asset_info", info_text b)] end.
Definition expiration_text (e : expiration) : string :=
  match e with
  | EAtHeight h => obj [("at_height", dec_to_string h)]
  | EAtTime t => obj [("at_time", uint t)]
  | ENever => obj [("never", obj [])]
  end.
Definition swap_fields (b m : option decimal) (to : option string) : list (string * string) :=
  [("belief_price", opt deci b); ("max_spread", opt deci m); ("to", opt quote to)].
Definition route_fields (ops : list swap_op) (mr : option uint128) (to : option string) : list (string * string) :=
  [("operations", many operation_text ops); ("minimum_receive", opt uint mr); ("to", opt quote to)].
Definition hook_text (h : hook) : string :=
  match h with
  | HSwap b m to => call_text "swap" (swap_fields b m to)
  | HWithdrawLiquidity => call_text "withdraw_liquidity" []
  | HExecuteSwapOperations ops mr to => call_text "execute_swap_operations" (route_fields ops mr to)
  | HOther p => p
  end.
Definition message_text (m : jmsg) : string :=
  match m with
  | JTransfer r n => call_text "transfer" [("recipient", quote r); ("amount", uint n)]
  | JBurn n => call_text "burn" [("amount", uint n)]
  | JSend c n h => call_text "send" [("contract", quote c); ("amount", uint n); ("msg", bytes h)]
  | JIncreaseAllowance s n e => call_text "increase_allowance" [("spender", quote s); ("amount", uint n); ("expires", opt expiration_text e)]
  | JDecreaseAllowance s n e => call_text "decrease_allowance" [("spender", quote s); ("amount", uint n); ("expires", opt expiration_text e)]
  | JTransferFrom o r n => call_text "transfer_from" [("owner", quote o); ("recipient", quote r); ("amount", uint n)]
  | JSendFrom o c n h => call_text "send_from" [("owner", quote o); ("contract", quote c); ("amount", uint n); ("msg", bytes h)]
  | JBurnFrom o n => call_text "burn_from" [("owner", quote o); ("amount", uint n)]
  | JMint r n => call_text "mint" [("recipient", quote r); ("amount", uint n)]
  | JUpdateMinter x => call_text "update_minter" [("new_minter", opt quote x)]
  | JMarketing => call_text "update_marketing" [("project", "null"); ("description", "null"); ("marketing", "null")]
  | JReceive s n h => call_text "receive" [("sender", quote s); ("amount", uint n); ("msg", bytes h)]
  | JProvideLiquidity a s r => call_text "provide_liquidity" [("assets", two asset_text a); ("slippage_tolerance", opt deci s); ("receiver", opt quote r)]
  | JSwap b m to => call_text "swap" (swap_fields b m to)
  | JExecuteSwapOperations ops mr to => call_text "execute_swap_operations" (route_fields ops mr to)
  | JExecuteSwapOperation o to => call_text "execute_swap_operation" [("operation", operation_text o); ("to", opt quote to)]
  | JAssertMinimumReceive i p m r =>
      call_text "assert_minimum_receive" [("asset_info", info_text i); ("prev_balance", uint p); ("minimum_receive", uint m); ("receiver", quote r)]
  | JUpdateConfig o t p => call_text "update_config" [("owner", opt quote o); ("token_code_id", opt dec_to_string t); ("pair_code_id", opt dec_to_string p)]
  | JCreatePair i r => call_text "create_pair" [("asset_infos", two info_text i); ("requirements", requirements_text r)]
  | JAddNativeTokenDecimals d n => call_text "add_native_token_decimals" [("denom", quote d); ("decimals", dec_to_string n)]
  | JMigratePair c k => call_text "migrate_pair" [("contract", quote c); ("code_id", opt dec_to_string k)]
  | JOther p => p
  end%string.
Definition init_text (m : imsg) : string :=
  match m with
  | IToken t => obj [("name", quote (in_name t)); ("symbol", quote (in_symbol t)); ("decimals", dec_to_string (in_decimals t));
      ("initial_balances", many (fun c => obj [("address", quote (fst c)); ("amount", uint (snd c))]) (in_balances t));
      ("mint", opt (fun c => obj [("minter", quote (fst c)); ("cap", opt uint (snd c))]) (in_mint t))]
  | IPair i k d r => obj [("asset_infos", two info_text i); ("token_code_id", dec_to_string k); ("asset_decimals", two dec_to_string d); ("requirements", requirements_text r)]
  | IFactory p t => obj [("pair_code_id", dec_to_string p); ("token_code_id", dec_to_string t)]
  | IRouter f => obj [("halo_factory", quote f)]
  | IOther p => p
  end%string.
Definition question_text (q : qmsg) : string :=
  match q with
  | QSelf => call_text "pair" []
  | QPool => call_text "pool" []
  | QSimulation a => call_text "simulation" [("offer_asset", asset_text a)]
  | QReverseSimulation a => call_text "reverse_simulation" [("ask_asset", asset_text a)]
  | QConfig => call_text "config" []
  | QPair i => call_text "pair" [("asset_infos", two info_text i)]
  | QPairs s l => call_text "pairs" [("start_after", opt (two info_text) s); ("limit", opt dec_to_string l)]
  | QNativeTokenDecimals d => call_text "native_token_decimals" [("denom", quote d)]
  | QSimulateOps n ops => call_text "simulate_swap_operations" [("offer_amount", uint n); ("operations", many operation_text ops)]
  | QReverseSimulateOps n ops => call_text "reverse_simulate_swap_operations" [("ask_amount", uint n); ("operations", many operation_text ops)]
  | QBalance a => call_text "balance" [("address", quote a)]
  | QTokenInfo => call_text "token_info" []
  | QMinter => call_text "minter" []
  | QAllowance o s => call_text "allowance" [("owner", quote o); ("spender", quote s)]
  | QAllAllowances o s l => call_text "all_allowances" [("owner", quote o); ("start_after", opt quote s); ("limit", opt dec_to_string l)]
  | QAllAccounts s l => call_text "all_accounts" [("start_after", opt quote s); ("limit", opt dec_to_string l)]
  end%string.
Definition pair_info_text (p : pair_info) : string :=
  obj [("asset_infos", two info_text (p_asset_infos p)); ("contract_addr", quote (p_contract_addr p));
       ("liquidity_token", quote (p_liquidity_token p)); ("asset_decimals", two dec_to_string (p_asset_decimals p));
       ("requirements", requirements_text (p_requirements p))]%string.
Definition answer_text (a : answer) : string :=
  match a with
  | APairInfo p => pair_info_text p
  | APool (x, s) => obj [("assets", two asset_text x); ("total_share", uint s)]
  | ASimulation s => obj [("return_amount", uint (s_return s)); ("spread_amount", uint (s_spread s)); ("commission_amount", uint (s_commission s))]
  | AReverse s => obj [("offer_amount", uint (rs_offer s)); ("spread_amount", uint (rs_spread s)); ("commission_amount", uint (rs_commission s))]
  | AConfig (o, t, p) => obj [("owner", quote o); ("pair_code_id", dec_to_string p); ("token_code_id", dec_to_string t)]
  | ARouterConfig f => obj [("halo_factory", quote f)]
  | APairs l => obj [("pairs", many pair_info_text l)]
  | ADecimals n => obj [("decimals", dec_to_string n)]
  | AAmount n => obj [("amount", uint n)]
  | ABalance n => obj [("balance", uint n)]
  | ATokenInfo t => obj [("name", quote (ti_name t)); ("symbol", quote (ti_symbol t)); ("decimals", dec_to_string (ti_decimals t)); ("total_supply", uint (ti_total_supply t))]
  | AMinter m => opt (fun c => obj [("minter", quote (fst c)); ("cap", opt uint (snd c))]) m
  | AAllowance (n, e) => obj [("allowance", uint n); ("expires", expiration_text e)]
  | AAllowances l => obj [("allowances", many (fun x => obj [("spender", quote (fst x)); ("allowance", uint (fst (snd x))); ("expires", expiration_text (snd (snd x)))]) l)]
  | AAccounts l => obj [("accounts", many quote l)]
  end%string.

Lemma plain_escape c : plain_char c = true -> escape c = String c "".
Proof. destruct c as [[] [] [] [] [] [] [] []]; vm_compute; intros H; try discriminate; reflexivity. Qed.
Lemma plain_escaped s : plain s = true -> escaped s = s.
Proof. induction s as [|c r IH]; [reflexivity|]. cbn [plain escaped]. intros H. apply andb_prop in H as [H1 H2]. rewrite (plain_escape _ H1), (IH H2). reflexivity. Qed.
Lemma plain_quote s : plain s = true -> quote s = ("""" ++ s ++ """")%string.
Proof. intros H. unfold quote. rewrite (plain_escaped _ H). reflexivity. Qed.
Lemma digits_plain s : all_digits s = true -> plain s = true.
Proof.
  induction s as [|c r IH]; [reflexivity|]. cbn [all_digits plain]. intros H. apply andb_prop in H as [H1 H2]. rewrite (IH H2), andb_true_r.
  revert H1. clear. destruct c as [[] [] [] [] [] [] [] []]; vm_compute; congruence.
Qed.
Lemma plain_app a b : plain (a ++ b) = plain a && plain b.
Proof. induction a as [|c a IH]; [reflexivity|]. rewrite append_cons. cbn [plain]. rewrite IH. apply andb_assoc. Qed.
Lemma b64_plain s : plain (b64_encode s) = true.
Proof.
  assert (P : forall n, plain_char (b64_char n) = true).
  { assert (X : forallb (fun k => plain_char (b64_char (N.of_nat k))) (seq 0 64) = true) by (vm_compute; reflexivity). rewrite forallb_forall in X.
    intros n. destruct (N.ltb_spec n 64) as [L|L].
    - specialize (X (N.to_nat n)). rewrite N2Nat.id in X. apply X. apply in_seq. lia.
    - unfold b64_char. replace (n <? 26) with false by (symmetry; apply N.ltb_ge; lia). replace (n <? 52) with false by (symmetry; apply N.ltb_ge; lia).
      replace (n <? 62) with false by (symmetry; apply N.ltb_ge; lia). replace (n =? 62) with false by (symmetry; apply N.eqb_neq; lia). reflexivity. }
  induction s as [|a|a b|a b c r IH] using string_ind3; cbn [b64_encode plain]; rewrite ?P, ?IH; reflexivity.
Qed.
Lemma uint_text n : render (w_u128 n) = uint n.
Proof. cbn [w_u128 render]. apply plain_quote, digits_plain, dec_to_string_digits. Qed.
Lemma deci_text d : render (w_dec d) = deci d.
Proof.
  cbn [w_dec render]. apply plain_quote. unfold dec_display, d256_to_string.
  destruct (d mod D18 =? 0); [apply digits_plain, dec_to_string_digits|]. cbv zeta. rewrite plain_app. cbn [plain].
  rewrite digits_plain by apply dec_to_string_digits. cbn [andb].
  set (z := (zeros _ ++ _)%string). assert (Z : all_digits z = true) by (unfold z; rewrite all_digits_app, zeros_digits; apply dec_to_string_digits).
  destruct (trim_end0_decomp z) as [k E]. rewrite E, all_digits_app in Z. apply andb_prop in Z as [Z _]. apply digits_plain. exact Z.
Qed.
Lemma bytes_text h : render (w_bin (hook_bytes h)) = bytes h.
Proof. cbn [w_bin render]. apply plain_quote, b64_plain. Qed.
Lemma concat_more a b l : (String.concat "," (a :: b :: l) = a ++ "," ++ String.concat "," (b :: l))%string.
Proof. reflexivity. Qed.
Lemma render_fields l : forall k x, forallb (fun f => plain (fst f)) ((k, x) :: l) = true ->
  (quote k ++ ":" ++ render x ++ members l =
   String.concat "," (map (fun f => """" ++ fst f ++ """:" ++ snd f) (map (fun f => (fst f, render (snd f))) ((k, x) :: l))) ++ "}")%string.
Proof.
  induction l as [|[k' y] l IH]; intros k x H; cbn [forallb fst] in H; apply andb_prop in H as [H1 H2].
  - cbn [map fst snd String.concat members]. rewrite (plain_quote _ H1), !append_assoc. reflexivity.
  - cbn [members]. specialize (IH k' y H2). cbn [map fst snd] in IH |- *. rewrite concat_more, (plain_quote _ H1), IH, !append_assoc. reflexivity.
Qed.
Lemma obj_text l : forallb (fun f => plain (fst f)) l = true -> render (VObj l) = obj (map (fun f => (fst f, render (snd f))) l).
Proof. destruct l as [|[k x] l]; [reflexivity|]. intros H. rewrite render_obj, (render_fields _ _ _ H). reflexivity. Qed.
Lemma render_elems l : forall x, (render x ++ elems l = String.concat "," (map render (x :: l)) ++ "]")%string.
Proof.
  induction l as [|y l IH]; intros x; [reflexivity|]. cbn [elems map]. specialize (IH y). cbn [map] in IH. rewrite concat_more, IH, !append_assoc. reflexivity.
Qed.
Lemma arr_text l : render (VArr l) = arr (map render l).
Proof. destruct l as [|x l]; [reflexivity|]. rewrite render_arr, render_elems. reflexivity. Qed.
Lemma two_text {X} (e : X -> json) (f : X -> string) p : (forall x, render (e x) = f x) -> render (w_two e p) = two f p.
Proof. intros H. unfold w_two, two. rewrite arr_text. cbn [map]. rewrite !H. reflexivity. Qed.
Lemma many_text {X} (e : X -> json) (f : X -> string) l : (forall x, render (e x) = f x) -> render (w_list e l) = many f l.
Proof. intros H. unfold w_list, many. rewrite arr_text, map_map. f_equal. apply map_ext. exact H. Qed.
Lemma opt_text {X} (e : X -> json) (f : X -> string) o : (forall x, render (e x) = f x) -> render (w_opt e o) = opt f o.
Proof. intros H. destruct o; [apply H|reflexivity]. Qed.
Lemma num_text n : render (w_num n) = dec_to_string n. Proof. reflexivity. Qed.
Lemma str_text a : render (w_str a) = quote a. Proof. reflexivity. Qed.
Ltac texts := unfold call_text; rewrite ?obj_text by reflexivity; cbn [map fst snd]; rewrite ?obj_text by reflexivity; cbn [map fst snd].
Lemma info_texts i : render (w_info i) = info_text i.
Proof. destruct i; unfold w_info, info_text; texts; reflexivity. Qed.
Lemma asset_texts a : render (w_asset a) = asset_text a.
Proof. unfold w_asset, asset_text. texts. rewrite info_texts, uint_text. reflexivity. Qed.
Lemma requirements_texts r : render (w_reqs r) = requirements_text r.
Proof. unfold w_reqs, requirements_text. texts. rewrite !uint_text. rewrite (many_text w_str quote) by apply str_text. reflexivity. Qed.
Lemma operation_texts o : render (w_op o) = operation_text o.
Proof. destruct o; unfold w_op, operation_text; texts; rewrite !info_texts; reflexivity. Qed.
Lemma expiration_texts e : render (w_exp e) = expiration_text e.
Proof. destruct e; unfold w_exp, expiration_text; texts; try reflexivity. change (VStr (dec_to_string t)) with (w_u128 t). rewrite uint_text. reflexivity. Qed.
Lemma route_texts ops mr to : render (w_route ops mr to) = obj (route_fields ops mr to).
Proof.
  unfold w_route, route_fields. texts. rewrite (many_text w_op operation_text) by apply operation_texts. rewrite (opt_text w_u128 uint) by apply uint_text.
  rewrite (opt_text w_str quote) by apply str_text. reflexivity.
Qed.
Ltac leaves := rewrite ?route_texts, ?(opt_text w_dec deci) by apply deci_text; rewrite ?(opt_text w_str quote) by apply str_text; rewrite ?(opt_text w_u128 uint) by apply uint_text;
  rewrite ?(opt_text w_num dec_to_string) by apply num_text; rewrite ?(opt_text w_exp expiration_text) by apply expiration_texts;
  rewrite ?(two_text w_asset asset_text) by apply asset_texts; rewrite ?(two_text w_info info_text) by apply info_texts;
  rewrite ?(two_text w_num dec_to_string) by apply num_text; rewrite ?(many_text w_op operation_text) by apply operation_texts; rewrite ?(many_text w_str quote) by apply str_text;
  rewrite ?(opt_text (w_two w_info) (two info_text)) by (intros; apply two_text, info_texts);
  rewrite ?uint_text, ?deci_text, ?bytes_text, ?info_texts, ?asset_texts, ?operation_texts, ?requirements_texts, ?expiration_texts, ?num_text, ?str_text.
Lemma hook_texts h : hook_bytes h = hook_text h.
Proof. destruct h; unfold hook_bytes, w_hook, hook_text; try reflexivity; texts; leaves; reflexivity. Qed.

Lemma coin_text c : render (w_coin c) = obj [("address", quote (fst c)); ("amount", uint (snd c))]%string.
Proof. unfold w_coin. texts. leaves. reflexivity. Qed.
Lemma minter_text c : render (w_minter c) = obj [("minter", quote (fst c)); ("cap", opt uint (snd c))]%string.
Proof. unfold w_minter. texts. leaves. reflexivity. Qed.
Lemma pair_info_texts p : render (w_pair_info p) = pair_info_text p.
Proof. unfold w_pair_info, pair_info_text. texts. leaves. reflexivity. Qed.
Lemma allowed_text x : render (w_allowed x) = obj [("spender", quote (fst x)); ("allowance", uint (fst (snd x))); ("expires", expiration_text (snd (snd x)))]%string.
Proof. unfold w_allowed. texts. leaves. reflexivity. Qed.

(** ** C87, C88 *)

(** The text of every message, of every hook and of every instantiation. *)
Theorem C87_texts :
  (forall m, msg_bytes m = message_text m) /\ (forall h, hook_bytes h = hook_text h) /\ (forall m, init_bytes m = init_text m) /\
  (forall s, plain s = true -> quote s = ("""" ++ s ++ """")%string).
Proof.
  split; [|split; [exact hook_texts|split; [|exact plain_quote]]].
  - intros m. destruct m; unfold msg_bytes, w_msg, message_text; try reflexivity; texts; leaves; reflexivity.
  - intros m. destruct m; unfold init_bytes, w_init, init_text; try reflexivity; texts; leaves; try reflexivity.
    rewrite (many_text w_coin _ _ coin_text), (opt_text w_minter _ _ minter_text). reflexivity.
Qed.
(** The text of every question and of every answer. *)
Theorem C88_texts : (forall q, render (w_query q) = question_text q) /\ (forall a, render (w_answer a) = answer_text a).
Proof.
  split.
  - intros q. destruct q; unfold w_query, question_text; texts; leaves; reflexivity.
  - intros a. destruct a; unfold w_answer, answer_text; try (apply pair_info_texts); try (apply (opt_text w_minter), minter_text).
    + destruct p as [x s]. unfold w_pool. texts. leaves. reflexivity.
    + unfold w_sim. texts. leaves. reflexivity.
    + unfold w_rev. texts. leaves. reflexivity.
    + destruct c as [[o t] p]. unfold w_config. texts. leaves. reflexivity.
    + unfold w_router_config. texts. leaves. reflexivity.
    + unfold w_pairs. texts. rewrite (many_text w_pair_info _ _ pair_info_texts). reflexivity.
    + unfold w_decimals. texts. leaves. reflexivity.
    + unfold w_amount. texts. leaves. reflexivity.
    + unfold w_balance. texts. leaves. reflexivity.
    + unfold w_token_info. texts. leaves. reflexivity.
    + destruct a as [n e]. unfold w_allowance. texts. leaves. reflexivity.
    + unfold w_allowances. texts. rewrite (many_text w_allowed _ _ allowed_text). reflexivity.
    + unfold w_accounts. texts. leaves. reflexivity.
Qed.

(** The bytes are JSON text of a value of the schema. *)
Definition conforming (z : schema) (b : string) : Prop := exists v, document v b /\ conforms z v.
Lemma takes_bytes {X} (d : json -> option X) z b : takes d z -> (exists x, from_bytes d b = Some x) <-> conforming z b.
Proof.
  intros T. unfold from_bytes, conforming. setoid_rewrite <- C87_reads_exactly_json. destruct (parse b) as [v|]; cbn [obind].
  - rewrite (T v). split; [eauto|]. intros (v' & E & H). congruence.
  - split; [intros (x & H)|intros (v & H & _)]; discriminate.
Qed.
Lemma takes_none {X} (d : json -> option X) z b : takes d z -> ~ conforming z b -> from_bytes d b = None.
Proof. intros T H. destruct (from_bytes d b) eqn:E; [|reflexivity]. destruct H. apply (takes_bytes d z b T). eauto. Qed.
From Verif Require Import WireFacts P_Wire.
Theorem C87_exactly_the_schema b :
  ((exists m, from_bytes r_pair_msg b = Some m) <-> conforming pair_execute_schema b) /\
  ((exists m, from_bytes r_router_msg b = Some m) <-> conforming router_execute_schema b) /\
  ((exists m, from_bytes r_factory_msg b = Some m) <-> conforming factory_execute_schema b) /\
  ((exists m, from_bytes r_token_msg b = Some m) <-> conforming token_execute_schema b) /\
  ((exists m, pair_hook b = Some m) <-> conforming pair_hook_schema b) /\
  ((exists m, router_hook b = Some m) <-> conforming router_hook_schema b) /\
  ((exists m, from_bytes r_pair_init b = Some m) <-> conforming pair_instantiate_schema b) /\
  ((exists m, from_bytes r_router_init b = Some m) <-> conforming router_instantiate_schema b) /\
  ((exists m, from_bytes r_factory_init b = Some m) <-> conforming factory_instantiate_schema b) /\
  ((exists m, from_bytes r_token_init b = Some m) <-> conforming token_instantiate_schema b).
Proof.
  split; [apply takes_bytes, takes_pair_msg|]. split; [apply takes_bytes, takes_router_msg|]. split; [apply takes_bytes, takes_factory_msg|].
  split; [apply takes_bytes, takes_token_msg|]. split; [apply (takes_bytes r_pair_hook), takes_pair_hook|]. split; [apply (takes_bytes r_router_hook), takes_router_hook|].
  split; [apply takes_bytes, takes_pair_init|]. split; [apply takes_bytes, takes_router_init|]. split; [apply takes_bytes, takes_factory_init|apply takes_bytes, takes_token_init].
Qed.
(** Any other bytes are refused by the entry points. *)
Theorem C87_others_refused b :
  (~ conforming pair_execute_schema b -> forall A Q self st sender funds, pair_entry A Q self st sender funds b = Err EParse) /\
  (~ conforming router_execute_schema b -> forall A Q self st sender, router_entry A Q self st sender b = Err EParse) /\
  (~ conforming factory_execute_schema b -> forall A Q self st sender, factory_entry A Q self st sender b = Err EParse) /\
  (~ conforming token_execute_schema b -> forall A blk st sender, token_entry A blk st sender b = Err EParse) /\
  (forall C w self sender funds,
     (~ conforming pair_instantiate_schema b -> init_entry C w self CPair sender funds b = Err EParse) /\
     (~ conforming router_instantiate_schema b -> init_entry C w self CRouter sender funds b = Err EParse) /\
     (~ conforming factory_instantiate_schema b -> init_entry C w self CFactory sender funds b = Err EParse) /\
     (~ conforming token_instantiate_schema b -> init_entry C w self CToken sender funds b = Err EParse)).
Proof.
  split; [intros H *; unfold pair_entry; rewrite (takes_none _ _ _ takes_pair_msg H); reflexivity|].
  split; [intros H *; unfold router_entry; rewrite (takes_none _ _ _ takes_router_msg H); reflexivity|].
  split; [intros H *; unfold factory_entry; rewrite (takes_none _ _ _ takes_factory_msg H); reflexivity|].
  split; [intros H *; unfold token_entry; rewrite (takes_none _ _ _ takes_token_msg H); reflexivity|]. intros C w self sender funds.
  split; [intros H; unfold init_entry; rewrite (takes_none _ _ _ takes_pair_init H); reflexivity|].
  split; [intros H; unfold init_entry; rewrite (takes_none _ _ _ takes_router_init H); reflexivity|].
  split; [intros H; unfold init_entry; rewrite (takes_none _ _ _ takes_factory_init H); reflexivity|].
  intros H; unfold init_entry; rewrite (takes_none _ _ _ takes_token_init H); reflexivity.
Qed.
(** Whoever answers has been asked a question of their schema. *)
Theorem C88_exactly_the_schema b :
  ((exists q, from_bytes r_pair_query b = Some q) <-> conforming pair_query_schema b) /\
  ((exists q, from_bytes r_router_query b = Some q) <-> conforming router_query_schema b) /\
  ((exists q, from_bytes r_factory_query b = Some q) <-> conforming factory_query_schema b) /\
  ((exists q, from_bytes r_token_query b = Some q) <-> conforming token_query_schema b) /\
  (forall C w a r, smart C w a b = Some r ->
     exists a' s, contract_at C w a = Ok (a', s) /\
     match s with
     | SPair _ => conforming pair_query_schema b
     | SRouter _ => conforming router_query_schema b
     | SFactory _ => conforming factory_query_schema b
     | SToken _ => conforming token_query_schema b
     | SAdv _ _ => False
     end).
Proof.
  pose proof (takes_bytes r_pair_query _ b takes_pair_query) as T1. pose proof (takes_bytes r_router_query _ b takes_router_query) as T2.
  pose proof (takes_bytes r_factory_query _ b takes_factory_query) as T3. pose proof (takes_bytes r_token_query _ b takes_token_query) as T4.
  do 4 (split; [assumption|]). intros C w a r H. unfold smart in H. destruct (contract_at C w a) as [[a' s]|]; [|discriminate]. exists a', s. split; [reflexivity|].
  destruct s as [st|st|st|st|]; unfold answered in H; try discriminate.
  - apply T1. destruct (from_bytes r_pair_query b); [eauto|discriminate].
  - apply T3. destruct (from_bytes r_factory_query b); [eauto|discriminate].
  - apply T2. destruct (from_bytes r_router_query b); [eauto|discriminate].
  - apply T4. destruct (from_bytes r_token_query b); [eauto|discriminate].
Qed.
(** An amount with a plus sign and zeros in front, and a price with a plus sign
    after the dot, conform; a price with 19 digits after the dot does not. *)
Example C87_case_schema :
  conforming pair_hook_schema "{""swap"": {""max_spread"": ""+00.+5"", ""to"": null}}" /\
  ~ conforming pair_hook_schema "{""swap"": {""max_spread"": ""0.0000000000000000001""}}" /\
  conforming router_execute_schema "{""receive"":{""sender"":""bob"",""msg"":""e30="",""amount"":""340282366920938463463374607431768211455""}}" /\
  ~ conforming router_execute_schema "{""receive"":{""sender"":""bob"",""msg"":""e31="",""amount"":""340282366920938463463374607431768211455""}}".
Proof.
  Local Transparent hook_bytes hook_of w_route r_route w_reqs r_reqs w_op r_op w_asset r_asset w_exp r_exp r_list w_list w_info r_info w_u128 r_u128 w_dec r_dec w_bin r_bin w_num r_num w_str r_str r_two.
  pose proof (fun b => takes_bytes r_pair_hook _ b takes_pair_hook) as T1. pose proof (fun b => takes_bytes r_router_msg _ b takes_router_msg) as T2.
  rewrite <- !T1, <- !T2. clear T1 T2.
  split; [eexists; vm_compute; reflexivity|]. split; [intros (m & H); vm_compute in H; discriminate|]. split; [eexists; vm_compute; reflexivity|].
  intros (m & H). vm_compute in H. discriminate.
Qed.
