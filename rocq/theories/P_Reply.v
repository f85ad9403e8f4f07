(** A pair and a factory learn the address of the contract they instantiated from
    bytes (C97). *)
From Verif Require Import Base BigNumber CwStd Spec BigNumberFacts Asset Messages PairMath Pair Token Factory Router World Json JsonFacts P_Json ReplyWire.
From Coq Require Import Ascii String.
Local Open Scope N_scope.

(** ** Specification *)

(** Text: code points in UTF-8 (see P_Json), without surrogates. *)
Inductive text : string -> Prop :=
| text_nil : text ""
| text_cons n u s : utf n u -> n < 0x110000 -> ~ (0xD800 <= n < 0xE000) -> text s -> text (u ++ s).
(** A protobuf varint: seven bits per byte, the lowest first; all bytes but the
    last have the highest bit set. *)
Inductive leb128 : N -> string -> Prop :=
| leb_last c : N_of_ascii c < 128 -> leb128 (N_of_ascii c) (String c "")
| leb_more c g n s : N_of_ascii c = 128 + g -> leb128 n s -> leb128 (g + 128 * n) (String c s).
(** Field number [k] of a protobuf message, of wire type 2 (length-delimited) with
    the content [d]: the key 8*k+2, the length, the content. *)
Definition field (k : N) (d s : string) : Prop :=
  exists c l, N_of_ascii c = 8 * k + 2 /\ leb128 (N.of_nat (String.length d)) l /\ (String.length l <= 9)%nat /\ s = String c (l ++ d).
(** What the chain sends after an instantiation: the address in field 1 and, unless
    empty, the data in field 2. *)
Definition told (addr d b : string) : Prop :=
  exists f1 f2, field 1 addr f1 /\ (d = "" /\ f2 = "" \/ d <> "" /\ field 2 d f2)%string /\ b = (f1 ++ f2)%string.
(** What the reader takes besides: the key may also be 8*k+6, and of the length
    only the last 32 bits count. *)
Definition loose_field (k : N) (d s : string) : Prop :=
  exists c n l, (N_of_ascii c = 8 * k + 2 \/ N_of_ascii c = 8 * k + 6) /\ leb128 n l /\ (String.length l <= 9)%nat /\
    n mod 2 ^ 32 = N.of_nat (String.length d) /\ s = String c (l ++ d).

(** ** UTF-8 *)
Lemma app_cons c a b : (String c a ++ b)%string = String c (a ++ b). Proof. reflexivity. Qed.
Lemma utf8_text s : text s -> is_utf8 s = true.
Proof.
  induction 1 as [|n u s U L Sg _ IH]; [reflexivity|].
  destruct U as [c H|c1 c2 x y H1 X H2 Y G|c1 c2 c3 x y z H1 X H2 Y H3 Z G|c1 c2 c3 c4 x y z t H1 X H2 Y H3 Z H4 T G]; rewrite !app_cons; cbn [append is_utf8]; unfold cont, second_lo, second_hi.
  - replace (N_of_ascii c <? 128) with true by (symmetry; apply N.ltb_lt; exact H). exact IH.
  - rewrite H1, H2. destruct (N.ltb_spec (0xC0 + x) 128); [lia|]. destruct (N.eqb_spec (0xC0 + x) 224); [lia|]. destruct (N.eqb_spec (0xC0 + x) 240); [lia|].
    destruct (N.eqb_spec (0xC0 + x) 237); [lia|]. destruct (N.eqb_spec (0xC0 + x) 244); [lia|].
    destruct (N.leb_spec 128 (0x80 + y)); [|lia]. destruct (N.ltb_spec (0x80 + y) 192); [|lia]. destruct (N.leb_spec 194 (0xC0 + x)); [|lia]. destruct (N.ltb_spec (0xC0 + x) 224); [|lia]. exact IH.
  - rewrite H1, H2, H3. destruct (N.ltb_spec (0xE0 + x) 128); [lia|]. destruct (N.eqb_spec (0xE0 + x) 240); [lia|]. destruct (N.eqb_spec (0xE0 + x) 244); [lia|].
    destruct (N.ltb_spec (0xE0 + x) 224); [lia|]. rewrite andb_false_r.
    destruct (N.leb_spec 128 (0x80 + z)); [|lia]. destruct (N.ltb_spec (0x80 + z) 192); [|lia]. destruct (N.leb_spec 224 (0xE0 + x)); [|lia]. destruct (N.ltb_spec (0xE0 + x) 240); [|lia].
    cbn [andb]. change ("" ++ s)%string with s. rewrite IH, andb_true_r. apply andb_true_iff. split; [apply N.leb_le|apply N.ltb_lt].
    + destruct (N.eqb_spec (0xE0 + x) 224); lia.
    + destruct (N.eqb_spec (0xE0 + x) 237); lia.
  - rewrite H1, H2, H3, H4. destruct (N.ltb_spec (0xF0 + x) 128); [lia|]. destruct (N.eqb_spec (0xF0 + x) 224); [lia|]. destruct (N.eqb_spec (0xF0 + x) 237); [lia|].
    destruct (N.ltb_spec (0xF0 + x) 224); [lia|]. destruct (N.ltb_spec (0xF0 + x) 240); [lia|]. rewrite !andb_false_r.
    destruct (N.leb_spec 128 (0x80 + z)); [|lia]. destruct (N.ltb_spec (0x80 + z) 192); [|lia].
    destruct (N.leb_spec 128 (0x80 + t)); [|lia]. destruct (N.ltb_spec (0x80 + t) 192); [|lia].
    destruct (N.leb_spec 240 (0xF0 + x)); [|lia]. destruct (N.ltb_spec (0xF0 + x) 245); [|lia].
    cbn [andb]. change ("" ++ s)%string with s. rewrite IH, andb_true_r. apply andb_true_iff. split; [apply N.leb_le|apply N.ltb_lt].
    + destruct (N.eqb_spec (0xF0 + x) 240); lia.
    + destruct (N.eqb_spec (0xF0 + x) 244); lia.
Qed.
Lemma text_utf8 k : forall s, (String.length s <= k)%nat -> is_utf8 s = true -> text s.
Proof.
  induction k as [|k IH]; intros s L H; destruct s as [|a s]; try constructor; cbn [String.length] in L; [lia|].
  cbn [is_utf8] in H. destruct (N.ltb_spec (N_of_ascii a) 128) as [A|A].
  { change (String a s) with (String a "" ++ s)%string. eapply text_cons; [apply utf_1; exact A|lia|lia|]. apply IH; [lia|exact H]. }
  destruct s as [|b s]; [discriminate|]. cbn [String.length] in L. apply andb_prop in H as [H1 H]. apply andb_prop in H1 as [B1 B2]. apply N.leb_le in B1. apply N.ltb_lt in B2.
  unfold second_lo in B1. unfold second_hi in B2.
  destruct (N.leb_spec 194 (N_of_ascii a)) as [A1|A1]; [destruct (N.ltb_spec (N_of_ascii a) 224) as [A2|A2]|]; cbn [andb] in H.
  - destruct (N.eqb_spec (N_of_ascii a) 224); [lia|]. destruct (N.eqb_spec (N_of_ascii a) 240); [lia|]. destruct (N.eqb_spec (N_of_ascii a) 237); [lia|]. destruct (N.eqb_spec (N_of_ascii a) 244); [lia|].
    change (String a (String b s)) with (String a (String b "") ++ s)%string.
    eapply text_cons; [apply (utf_2 a b (N_of_ascii a - 0xC0) (N_of_ascii b - 0x80)); lia|lia|lia|]. apply IH; [lia|exact H].
  - destruct s as [|c s]; [discriminate|]. cbn [String.length] in L. apply andb_prop in H as [C1 H]. unfold cont in C1. apply andb_prop in C1 as [C1 C2]. apply N.leb_le in C1. apply N.ltb_lt in C2.
    destruct (N.leb_spec 224 (N_of_ascii a)); [|lia]. destruct (N.ltb_spec (N_of_ascii a) 240) as [A3|A3]; cbn [andb] in H.
    + destruct (N.eqb_spec (N_of_ascii a) 240); [lia|]. destruct (N.eqb_spec (N_of_ascii a) 244); [lia|].
      change (String a (String b (String c s))) with (String a (String b (String c "")) ++ s)%string.
      eapply text_cons; [apply (utf_3 a b c (N_of_ascii a - 0xE0) (N_of_ascii b - 0x80) (N_of_ascii c - 0x80))| | |apply IH; [lia|exact H]];
        destruct (N.eqb_spec (N_of_ascii a) 224), (N.eqb_spec (N_of_ascii a) 237); lia.
    + destruct s as [|d s]; [discriminate|]. cbn [String.length] in L. apply andb_prop in H as [H HT]. apply andb_prop in H as [H H4]. apply andb_prop in H as [D H5].
      unfold cont in D. apply andb_prop in D as [D1 D2]. apply N.leb_le in D1. apply N.ltb_lt in D2. apply N.ltb_lt in H4.
      destruct (N.eqb_spec (N_of_ascii a) 224); [lia|]. destruct (N.eqb_spec (N_of_ascii a) 237); [lia|].
      change (String a (String b (String c (String d s)))) with (String a (String b (String c (String d ""))) ++ s)%string.
      eapply text_cons; [apply (utf_4 a b c d (N_of_ascii a - 0xF0) (N_of_ascii b - 0x80) (N_of_ascii c - 0x80) (N_of_ascii d - 0x80))| | |apply IH; [lia|exact HT]];
        destruct (N.eqb_spec (N_of_ascii a) 240), (N.eqb_spec (N_of_ascii a) 244); lia.
  - exfalso. destruct s as [|c s]; [discriminate|]. apply andb_prop in H as [_ H].
    destruct (N.leb_spec 224 (N_of_ascii a)); [lia|]. cbn [andb] in H.
    destruct s as [|d s]; [discriminate|]. destruct (N.leb_spec 240 (N_of_ascii a)); [lia|]. rewrite andb_false_r in H. discriminate.
Qed.

Lemma is_utf8_iff s : is_utf8 s = true <-> text s.
Proof. split; [apply (text_utf8 (String.length s)); lia|apply utf8_text]. Qed.

(** ** Lengths *)
Lemma append_assoc a b c : ((a ++ b) ++ c = a ++ (b ++ c))%string.
Proof. induction a as [|x a IH]; [reflexivity|]. rewrite !app_cons, IH. reflexivity. Qed.
Lemma append_nil a : (a ++ "" = a)%string.
Proof. induction a as [|x a IH]; [reflexivity|]. rewrite app_cons, IH. reflexivity. Qed.
Lemma leb_varint n l : leb128 n l -> forall k unit acc r, (String.length l <= k)%nat -> varint k unit acc (l ++ r) = Some (acc + unit * n, r).
Proof.
  induction 1 as [c H|c g n s H L IH]; intros k unit acc r K; cbn [String.length] in K; (destruct k as [|k]; [lia|]); rewrite ?app_cons; cbn [varint].
  - destruct (N.ltb_spec (N_of_ascii c) 128); [|lia]. rewrite N.mod_small by lia. f_equal. f_equal. lia.
  - pose proof (N_ascii_bounded c). destruct (N.ltb_spec (N_of_ascii c) 128); [lia|]. rewrite IH by lia. rewrite H.
    replace (128 + g) with (g + 1 * 128) by lia. rewrite N.mod_add, N.mod_small by lia. f_equal. f_equal. lia.
Qed.
Lemma varint_leb : forall k unit acc d v r, varint k unit acc d = Some (v, r) ->
  exists n l, leb128 n l /\ (String.length l <= k)%nat /\ d = (l ++ r)%string /\ v = acc + unit * n.
Proof.
  induction k as [|k IH]; intros unit acc d v r H; [discriminate|]. destruct d as [|c d]; [discriminate|]. cbn [varint] in H.
  pose proof (N_ascii_bounded c). destruct (N.ltb_spec (N_of_ascii c) 128) as [C|C].
  - injection H as <- <-. exists (N_of_ascii c), (String c ""). split; [constructor; exact C|]. split; [cbn; lia|]. split; [reflexivity|]. rewrite N.mod_small by lia. lia.
  - apply IH in H as (n & l & L & K & -> & ->). exists (N_of_ascii c - 128 + 128 * n), (String c l).
    split; [constructor; [lia|exact L]|]. split; [cbn; lia|]. split; [reflexivity|].
    replace (N_of_ascii c mod 128) with (N_of_ascii c - 128); [lia|].
    replace (N_of_ascii c) with ((N_of_ascii c - 128) + 1 * 128) at 2 by lia. rewrite N.mod_add, N.mod_small by lia. reflexivity.
Qed.
Lemma split_app a b : split_at (String.length a) (a ++ b) = Some (a, b).
Proof. induction a as [|c a IH]; [destruct b; reflexivity|]. rewrite app_cons. cbn. rewrite IH. reflexivity. Qed.
Lemma split_at_app : forall n s a b, split_at n s = Some (a, b) -> s = (a ++ b)%string /\ String.length a = n.
Proof.
  induction n as [|n IH]; intros s a b H.
  - destruct s; injection H as <- <-; split; reflexivity.
  - destruct s as [|c s]; [discriminate|]. cbn in H. destruct (split_at n s) as [[x y]|] eqn:E; [|discriminate]. injection H as <- <-.
    apply IH in E as [-> <-]. split; reflexivity.
Qed.
Lemma length_append a b : String.length (a ++ b) = (String.length a + String.length b)%nat.
Proof. induction a as [|c a IH]; [reflexivity|]. rewrite app_cons. cbn. rewrite IH. reflexivity. Qed.
Lemma key_div c k : N_of_ascii c = 8 * k + 2 \/ N_of_ascii c = 8 * k + 6 <-> N_of_ascii c / 8 = k /\ N_of_ascii c mod 4 = 2.
Proof.
  split.
  - intros [E|E]; rewrite E; clear E; (split; [symmetry; eapply N.div_unique with (r := _); [|reflexivity]; lia|]).
    + symmetry. apply (N.mod_unique _ _ (2 * k)); lia.
    + symmetry. apply (N.mod_unique _ _ (2 * k + 1)); lia.
  - intros [D M]. pose proof (N.div_mod (N_of_ascii c) 8 ltac:(lia)) as E. pose proof (N.mod_lt (N_of_ascii c) 8 ltac:(lia)) as B.
    pose proof (N.div_mod (N_of_ascii c) 4 ltac:(lia)) as F. lia.
Qed.
Lemma prefixed_iff k b d r : length_prefixed k b = Some (d, r) <->
  b = ""%string /\ d = ""%string /\ r = ""%string \/ exists f, loose_field k d f /\ b = (f ++ r)%string.
Proof.
  split.
  - intros H. destruct b as [|t b]; [injection H as <- <-; left; auto|]. right. cbn [length_prefixed] in H.
    destruct (N.eqb_spec (N_of_ascii t / 8) k) as [D|]; [|discriminate]. destruct (N.eqb_spec (N_of_ascii t mod 4) 2) as [M|]; [|discriminate]. cbn [negb] in H.
    destruct (varint 9 1 0 b) as [[len r1]|] eqn:V; [|discriminate]. destruct (N.ltb_spec (N.of_nat (String.length r1)) (len mod 2 ^ 32)); [discriminate|].
    apply split_at_app in H as [-> E]. apply varint_leb in V as (n & l & L & K & -> & ->).
    exists (String t (l ++ d)). split; [|rewrite app_cons, append_assoc; reflexivity].
    exists t, n, l. split; [apply key_div; auto|]. split; [exact L|]. split; [exact K|]. split; [|reflexivity].
    rewrite E, N2Nat.id. f_equal. lia.
  - intros [(-> & -> & ->)|(f & (c & n & l & C & L & K & E & ->) & ->)]; [reflexivity|].
    apply key_div in C as [D M]. rewrite app_cons; cbn [length_prefixed]. rewrite D, M, N.eqb_refl. cbn [negb N.eqb].
    rewrite append_assoc, (leb_varint _ _ L) by exact K. replace (0 + 1 * n) with n by lia. rewrite E.
    destruct (N.ltb_spec (N.of_nat (String.length (d ++ r))) (N.of_nat (String.length d))) as [X|_]; [rewrite length_append in X; lia|].
    rewrite Nat2N.id. apply split_app.
Qed.
Lemma field_loose k d s : N.of_nat (String.length d) < 2 ^ 32 -> field k d s -> loose_field k d s.
Proof.
  intros B (c & l & C & L & K & ->). exists c, (N.of_nat (String.length d)), l. split; [left; exact C|]. split; [exact L|]. split; [exact K|]. split; [apply N.mod_small; exact B|reflexivity].
Qed.

(** ** C97 *)

(** From the bytes the chain sends, the reader gets the address and the data. *)
Theorem C97_address_read addr d b : text addr -> N.of_nat (String.length addr) < 2 ^ 32 -> N.of_nat (String.length d) < 2 ^ 32 -> told addr d b ->
  exists o, parse_instantiate b = Some (addr, o) /\ (o = None <-> d = ""%string) /\ (forall x, o = Some x -> x = d).
Proof.
  intros T A D (f1 & f2 & F1 & F2 & ->). apply (field_loose 1 _ _ A) in F1. unfold parse_instantiate.
  rewrite (proj2 (prefixed_iff 1 (f1 ++ f2) addr f2)) by (right; eauto). rewrite (proj2 (is_utf8_iff _) T).
  destruct F2 as [(-> & ->)|(N & F2)].
  - exists None. split; [reflexivity|]. split; [tauto|discriminate].
  - apply (field_loose 2 _ _ D) in F2. rewrite (proj2 (prefixed_iff 2 f2 d "")) by (right; exists f2; split; [exact F2|]; symmetry; apply append_nil).
    exists (Some d). destruct d; [congruence|]. split; [reflexivity|]. split; [split; discriminate|congruence].
Qed.

(** Exactly what is accepted, and with which address. *)
Theorem C97_accepts_exactly b addr : (exists o, parse_instantiate b = Some (addr, o)) <->
  text addr /\
  (b = ""%string /\ addr = ""%string \/
   exists f1 r, loose_field 1 addr f1 /\ b = (f1 ++ r)%string /\ (r = ""%string \/ exists d f2 junk, loose_field 2 d f2 /\ r = (f2 ++ junk)%string)).
Proof.
  split.
  - intros (o & H). unfold parse_instantiate in H. destruct (length_prefixed 1 b) as [[a r]|] eqn:E1; [|discriminate].
    destruct (is_utf8 a) eqn:U; [|discriminate]. destruct (length_prefixed 2 r) as [[d j]|] eqn:E2; [|discriminate].
    assert (a = addr) as -> by (destruct d; congruence). split; [apply is_utf8_iff; exact U|].
    apply prefixed_iff in E1 as [(-> & -> & ->)|(f1 & F1 & ->)]; [left; auto|]. right. exists f1, r. split; [exact F1|]. split; [reflexivity|].
    apply prefixed_iff in E2 as [(-> & -> & ->)|(f2 & F2 & ->)]; [left; reflexivity|]. right. exists d, f2, j. auto.
  - intros (T & H). apply is_utf8_iff in T. destruct H as [(-> & ->)|(f1 & r & F1 & -> & H)]; [eexists; reflexivity|].
    unfold parse_instantiate. rewrite (proj2 (prefixed_iff 1 (f1 ++ r) addr r)) by (right; eauto). rewrite T.
    destruct H as [->|(d & f2 & j & F2 & ->)]; [eexists; reflexivity|].
    rewrite (proj2 (prefixed_iff 2 (f2 ++ j) d j)) by (right; eauto). destruct d; eexists; reflexivity.
Qed.

(** A message tells at most one address. *)
Theorem C97_one_address a d a' d' b : text a -> text a' -> N.of_nat (String.length a) < 2 ^ 32 -> N.of_nat (String.length a') < 2 ^ 32 ->
  N.of_nat (String.length d) < 2 ^ 32 -> N.of_nat (String.length d') < 2 ^ 32 -> told a d b -> told a' d' b -> a = a' /\ d = d'.
Proof.
  intros T T' A A' D D' H H'. destruct (C97_address_read a d b T A D H) as (o & E & N & X). destruct (C97_address_read a' d' b T' A' D' H') as (o' & E' & N' & X').
  rewrite E in E'. injection E' as <- <-. split; [reflexivity|]. destruct o as [x|]; [rewrite <- (X x), <- (X' x); reflexivity|]. rewrite (proj1 N), (proj1 N'); reflexivity.
Qed.

(** What a pair does with the reply is what the model does with the address: on a
    successful instantiation it is told the address, any other reply aborts. *)
Theorem C97_pair_told C w self st id addr d b :
  text addr -> N.of_nat (String.length addr) < 2 ^ 32 -> N.of_nat (String.length d) < 2 ^ 32 -> told addr d b ->
  reply C w self (SPair st) id true (Some addr) = wrap SPair (pair_reply_bytes (ch_api C) st (Some (Some b))).
Proof.
  intros T A D H. destruct (C97_address_read addr d b T A D H) as (o & E & _). unfold pair_reply_bytes, new_address. rewrite E. reflexivity.
Qed.
Theorem C97_factory_told C w self st id addr d b :
  text addr -> N.of_nat (String.length addr) < 2 ^ 32 -> N.of_nat (String.length d) < 2 ^ 32 -> told addr d b ->
  reply C w self (SFactory st) id true (Some addr) = wrap SFactory (factory_reply_bytes (ch_api C) (wq C w) st (Some (Some b))).
Proof.
  intros T A D H. destruct (C97_address_read addr d b T A D H) as (o & E & _). unfold factory_reply_bytes, new_address. rewrite E.
  unfold reply, factory_reply. destruct (f_tmp st) as [t|]; reflexivity.
Qed.
(** What is stored and reported is the address in the bytes. *)
Theorem C97_pair_keeps_the_address A st addr d b st' rsp :
  text addr -> N.of_nat (String.length addr) < 2 ^ 32 -> N.of_nat (String.length d) < 2 ^ 32 -> told addr d b ->
  pair_reply_bytes A st (Some (Some b)) = Ok (st', rsp) ->
  addr_canonicalize A addr = Ok (r_liquidity_token st') /\ r_asset_infos st' = r_asset_infos st /\ r_contract_addr st' = r_contract_addr st /\
  r_asset_decimals st' = r_asset_decimals st /\ r_requirements st' = r_requirements st /\
  rsp = Response [] [("liquidity_token_addr", addr)]%string.
Proof.
  intros T AL D H E. destruct (C97_address_read addr d b T AL D H) as (o & P & _). unfold pair_reply_bytes, new_address in E. rewrite P in E. cbn [rbind] in E.
  unfold pair_reply in E. destruct (addr_canonicalize A addr) as [c|] eqn:EA; [|discriminate]. cbn [rbind] in E. injection E as <- <-. auto 10.
Qed.
Theorem C97_factory_keeps_the_address A Q st addr d b st' rsp :
  text addr -> N.of_nat (String.length addr) < 2 ^ 32 -> N.of_nat (String.length d) < 2 ^ 32 -> told addr d b ->
  factory_reply_bytes A Q st (Some (Some b)) = Ok (st', rsp) ->
  exists t p r, f_tmp st = Some t /\ q_pair_self Q addr = Ok p /\ f_pairs st' !! t_key t = Some r /\
    addr_canonicalize A addr = Ok (r_contract_addr r) /\ addr_canonicalize A (p_liquidity_token p) = Ok (r_liquidity_token r) /\
    r_asset_infos r = t_infos t /\ r_asset_decimals r = t_decimals t /\ r_requirements r = p_requirements p /\
    (forall k, k <> t_key t -> f_pairs st' !! k = f_pairs st !! k) /\
    rsp = Response [] [("pair_contract_addr", addr); ("liquidity_token_addr", p_liquidity_token p)]%string.
Proof.
  intros T AL D H E. destruct (C97_address_read addr d b T AL D H) as (o & P & _). unfold factory_reply_bytes, new_address in E. rewrite P in E.
  destruct (f_tmp st) as [t|] eqn:ET; [|discriminate]. cbn [oget rbind] in E. unfold factory_reply in E. rewrite ET in E. cbn [oget rbind] in E.
  destruct (q_pair_self Q addr) as [p|] eqn:EP; [|discriminate]. cbn [rbind] in E.
  destruct (addr_canonicalize A (p_liquidity_token p)) as [lp|] eqn:EL; [|discriminate]. cbn [rbind] in E.
  destruct (addr_canonicalize A addr) as [c|] eqn:EA; [|discriminate]. cbn [rbind] in E. injection E as <- <-.
  exists t, p. eexists. split; [reflexivity|]. split; [reflexivity|]. cbn [f_pairs]. split; [apply lookup_insert|]. cbn. repeat (split; [auto; fail|]).
  split; [intros k K; apply lookup_insert_ne; congruence|reflexivity].
Qed.
(** A failed submessage, one without data and one with any other bytes abort the
    transaction. *)
Theorem C97_no_address_aborts A Q st fst r :
  match r with Some (Some b) => forall a, ~ exists o, parse_instantiate b = Some (a, o) | _ => True end ->
  new_address r = panic "called Result::unwrap() on an Err value" /\
  pair_reply_bytes A st r = panic "called Result::unwrap() on an Err value" /\
  (exists e, factory_reply_bytes A Q fst r = Err e).
Proof.
  intros H. assert (E : new_address r = panic "called Result::unwrap() on an Err value").
  { destruct r as [[b|]|]; try reflexivity. unfold new_address. destruct (parse_instantiate b) as [[a o]|] eqn:E; [|reflexivity]. exfalso. apply (H a). eauto. }
  split; [exact E|]. unfold pair_reply_bytes, factory_reply_bytes. rewrite E. split; [reflexivity|]. destruct (f_tmp fst); eexists; reflexivity.
Qed.

(** A concrete case: an address of five letters, with and without data. *)
Definition tell (k : N) (s : string) : string := String (ascii_of_N k) (String (ascii_of_N (N.of_nat (String.length s))) s).
Lemma tell_field k s : k < 16 -> (String.length s < 128)%nat -> field k s (tell (8 * k + 2) s).
Proof.
  intros K L. exists (ascii_of_N (8 * k + 2)), (String (ascii_of_N (N.of_nat (String.length s))) "").
  split; [apply N_ascii_embedding; lia|]. split; [|split; [cbn; lia|reflexivity]].
  rewrite <- (N_ascii_embedding (N.of_nat (String.length s))) at 1 by lia. apply leb_last. rewrite N_ascii_embedding; lia.
Qed.
Theorem C97_case :
  (* bytes as the chain sends them *)
  told "pair1" "" (tell 10 "pair1") /\ told "pair1" "xy" (tell 10 "pair1" ++ tell 18 "xy") /\ text "pair1" /\
  parse_instantiate (tell 10 "pair1") = Some ("pair1", None) /\
  parse_instantiate (tell 10 "pair1" ++ tell 18 "xy") = Some ("pair1", Some "xy") /\
  new_address (Some (Some (tell 10 "pair1"))) = Ok "pair1" /\
  (* a length in two bytes: 300 = 44 + 2 * 128 *)
  leb128 300 (String (ascii_of_N 172) (String (ascii_of_N 2) "")) /\
  varint 9 1 0 (String (ascii_of_N 172) (String (ascii_of_N 2) "rest")) = Some (300, "rest") /\
  (* tolerated: no bytes at all, bytes after the second field, the key 14 *)
  parse_instantiate "" = Some ("", None) /\
  parse_instantiate (tell 10 "pair1" ++ tell 18 "xy" ++ "junk") = Some ("pair1", Some "xy") /\
  parse_instantiate (tell 14 "pair1") = Some ("pair1", None) /\
  (* refused: another field, bytes missing, bytes that are no text, junk after the address *)
  parse_instantiate (tell 18 "pair1") = None /\
  parse_instantiate (String (ascii_of_N 10) (String (ascii_of_N 6) "pair1")) = None /\
  parse_instantiate (tell 10 (String (ascii_of_N 255) "")) = None /\
  parse_instantiate (tell 10 "pair1" ++ "junk") = None /\
  (forall A Q st fst, pair_reply_bytes A st (Some (Some (tell 18 "pair1"))) = panic "called Result::unwrap() on an Err value" /\
     exists e, factory_reply_bytes A Q fst (Some None) = Err e).
Proof.
  assert (T : text "pair1") by (apply is_utf8_iff; vm_compute; reflexivity).
  split. { exists (tell 10 "pair1"), ""%string. split; [apply (tell_field 1); cbn; lia|]. split; [left; auto|]. rewrite append_nil. reflexivity. }
  split. { exists (tell 10 "pair1"), (tell 18 "xy"). split; [apply (tell_field 1); cbn; lia|]. split; [right; split; [discriminate|apply (tell_field 2); cbn; lia]|]. reflexivity. }
  split; [exact T|]. split; [vm_compute; reflexivity|]. split; [vm_compute; reflexivity|]. split; [vm_compute; reflexivity|].
  split. { apply (leb_more (ascii_of_N 172) 44 2); [reflexivity|]. apply (leb_last (ascii_of_N 2)). vm_compute. reflexivity. }
  do 8 (split; [vm_compute; reflexivity|]). intros A Q st fst. split.
  - apply (C97_no_address_aborts A Q st fst (Some (Some (tell 18 "pair1")))). intros a (o & H). vm_compute in H. discriminate.
  - apply (C97_no_address_aborts A Q st fst (Some None)). exact I.
Qed.
