(** C87: the reader of Json.v reads exactly JSON text, for the forms kept there:
    a grammar, and that the reader follows it. *)
From Verif Require Import Base BigNumber CwStd Spec BigNumberFacts P_BigNumber P_Text Json JsonFacts.
From Coq Require Import Ascii String.
Local Open Scope N_scope.

(** ** The grammar (RFC 8259; as in serde-json-wasm, control characters may also
    stand unescaped inside strings) *)
Definition white (s : string) : Prop := forall c, In c (list_ascii_of_string s) -> In (N_of_ascii c) [32; 9; 10; 13].
Definition dq : ascii := """".
Definition bs : ascii := "\".
(** The value of a hexadecimal digit, and of four of them. *)
Definition hex (c : ascii) (k : N) : Prop :=
  In (c, k) [("0", 0); ("1", 1); ("2", 2); ("3", 3); ("4", 4); ("5", 5); ("6", 6); ("7", 7); ("8", 8); ("9", 9);
    ("a", 10); ("b", 11); ("c", 12); ("d", 13); ("e", 14); ("f", 15); ("A", 10); ("B", 11); ("C", 12); ("D", 13); ("E", 14); ("F", 15)]%char.
Definition code (a b c d : ascii) (n : N) : Prop :=
  exists i j k l, hex a i /\ hex b j /\ hex c k /\ hex d l /\ n = i * 0x1000 + j * 0x100 + k * 0x10 + l.
(** [utf n u]: the text [u] is the code point [n] in UTF-8 (RFC 3629): one byte, or
    a byte telling the length followed by bytes of six bits each, and no longer
    than necessary. *)
Inductive utf : N -> string -> Prop :=
| utf_1 c : N_of_ascii c < 0x80 -> utf (N_of_ascii c) (String c "")
| utf_2 c1 c2 x y : N_of_ascii c1 = 0xC0 + x -> x < 0x20 -> N_of_ascii c2 = 0x80 + y -> y < 0x40 -> 0x80 <= x * 64 + y ->
    utf (x * 64 + y) (String c1 (String c2 ""))
| utf_3 c1 c2 c3 x y z : N_of_ascii c1 = 0xE0 + x -> x < 0x10 -> N_of_ascii c2 = 0x80 + y -> y < 0x40 -> N_of_ascii c3 = 0x80 + z -> z < 0x40 ->
    0x800 <= x * 64 * 64 + y * 64 + z -> utf (x * 64 * 64 + y * 64 + z) (String c1 (String c2 (String c3 "")))
| utf_4 c1 c2 c3 c4 x y z t : N_of_ascii c1 = 0xF0 + x -> x < 0x08 -> N_of_ascii c2 = 0x80 + y -> y < 0x40 -> N_of_ascii c3 = 0x80 + z -> z < 0x40 ->
    N_of_ascii c4 = 0x80 + t -> t < 0x40 -> 0x10000 <= x * 64 * 64 * 64 + y * 64 * 64 + z * 64 + t ->
    utf (x * 64 * 64 * 64 + y * 64 * 64 + z * 64 + t) (String c1 (String c2 (String c3 (String c4 "")))).
(** [chars t s]: between quotation marks, [s] stands for the text [t]. *)
Inductive chars : string -> string -> Prop :=
| ch_nil : chars "" ""
| ch_raw c t s : c <> dq -> c <> bs -> chars t s -> chars (String c t) (String c s)
| ch_escape e c t s : In (e, N_of_ascii c) [(dq, 34); (bs, 92); ("/", 47); ("b", 8); ("f", 12); ("n", 10); ("r", 13); ("t", 9)]%char -> chars t s ->
    chars (String c t) (String bs (String e s))
| ch_code a b c d n u t s : code a b c d n -> ~ (0xD800 <= n < 0xE000) -> utf n u -> chars t s ->
    chars (u ++ t) (String bs (String "u" (String a (String b (String c (String d s))))))
| ch_pair a b c d n a' b' c' d' m u t s : code a b c d n -> 0xD800 <= n < 0xDC00 -> code a' b' c' d' m -> 0xDC00 <= m < 0xE000 ->
    utf (0x10000 + (n - 0xD800) * 0x400 + (m - 0xDC00)) u -> chars t s ->
    chars (u ++ t)
      (String bs (String "u" (String a (String b (String c (String d (String bs (String "u" (String a' (String b' (String c' (String d' s)))))))))))).
Definition text_of (t s : string) : Prop := exists b, chars t b /\ s = String dq (b ++ String dq "").
(** [value v s]: [s] is a JSON text of the value [v]; [items l s], [members l s]: the
    inside of an array or object that is not empty, up to the closing bracket. *)
Inductive value : json -> string -> Prop :=
| v_null : value VNull "null"
| v_num n : value (VNum n) (dec_to_string n)
| v_str t s : text_of t s -> value (VStr t) s
| v_arr0 w : white w -> value (VArr []) (String "[" (w ++ "]"))
| v_arr l s : items l s -> value (VArr l) (String "[" (s ++ "]"))
| v_obj0 w : white w -> value (VObj []) (String "{" (w ++ "}"))
| v_obj l s : pairs l s -> value (VObj l) (String "{" (s ++ "}"))
with items : list json -> string -> Prop :=
| i_one w v s w' : white w -> value v s -> white w' -> items [v] (w ++ s ++ w')
| i_more w v s w' l r : white w -> value v s -> white w' -> items l r -> items (v :: l) (w ++ s ++ w' ++ String "," r)
with pairs : list (string * json) -> string -> Prop :=
| p_one w k kt w1 w2 v s w' : white w -> text_of k kt -> white w1 -> white w2 -> value v s -> white w' ->
    pairs [(k, v)] (w ++ kt ++ w1 ++ String ":" (w2 ++ s ++ w'))
| p_more w k kt w1 w2 v s w' l r : white w -> text_of k kt -> white w1 -> white w2 -> value v s -> white w' -> pairs l r ->
    pairs ((k, v) :: l) (w ++ kt ++ w1 ++ String ":" (w2 ++ s ++ w' ++ String "," r)).
Scheme value_mut := Minimality for value Sort Prop
with items_mut := Minimality for items Sort Prop
with pairs_mut := Minimality for pairs Sort Prop.
Definition document (v : json) (s : string) : Prop := exists w t w', s = (w ++ t ++ w')%string /\ white w /\ value v t /\ white w'.

(** ** White space *)
Lemma space_iff c : is_space c = true <-> In (N_of_ascii c) [32; 9; 10; 13].
Proof.
  unfold is_space. cbv zeta. cbn [In]. rewrite !orb_true_iff, !N.eqb_eq. split; [intros [[[H|H]|H]|H]; rewrite H; auto|intros [H|[H|[H|[H|[]]]]]; rewrite <- H; auto].
Qed.
Lemma white_nil : white "". Proof. intros c []. Qed.
Lemma white_cons c w : white (String c w) <-> is_space c = true /\ white w.
Proof. unfold white. cbn [list_ascii_of_string In]. rewrite space_iff. split; [intros H; split; [apply H; auto|intros x I; apply H; auto]|intros [H1 H2] x [<-|I]; auto]. Qed.
Lemma skip_white w s : white w -> skip (w ++ s) = skip s.
Proof. induction w as [|c w IH]; intros H; [reflexivity|]. apply white_cons in H as [H1 H2]. rewrite append_cons. cbn [skip]. rewrite H1. apply IH, H2. Qed.
Lemma skip_split s : exists w, white w /\ s = (w ++ skip s)%string.
Proof.
  induction s as [|c s IH]; [exists ""; split; [apply white_nil|reflexivity]|]. cbn [skip]. destruct (is_space c) eqn:E.
  - destruct IH as (w & W & E'). exists (String c w). split; [apply white_cons; auto|]. rewrite append_cons. f_equal. exact E'.
  - exists "". split; [apply white_nil|reflexivity].
Qed.

(** ** Code points *)
Lemma hex_iff c k : hex_val c = Some k <-> hex c k.
Proof.
  split.
  - destruct c as [[] [] [] [] [] [] [] []]; intros H; try discriminate H; injection H as <-; unfold hex; cbn; tauto.
  - unfold hex. cbn [In]. intros H. repeat destruct H as [H|H]; try contradiction; injection H as <- <-; reflexivity.
Qed.
Lemma hex_lt c k : hex c k -> k < 16.
Proof. unfold hex. cbn [In]. intros H. repeat destruct H as [H|H]; try contradiction; injection H as _ <-; reflexivity. Qed.
Lemma code_iff a b c d n : hex4 a b c d = Some n <-> code a b c d n.
Proof.
  unfold hex4, code. split.
  - destruct (hex_val a) as [i|] eqn:A; [|discriminate]. destruct (hex_val b) as [j|] eqn:B; [|discriminate].
    destruct (hex_val c) as [k|] eqn:C; [|discriminate]. destruct (hex_val d) as [l|] eqn:D; [|discriminate].
    intros E. injection E as <-. apply hex_iff in A, B, C, D. exists i, j, k, l. repeat (split; [assumption|]). lia.
  - intros (i & j & k & l & A & B & C & D & ->). apply hex_iff in A, B, C, D. rewrite A, B, C, D. f_equal. lia.
Qed.
Lemma code_lt a b c d n : code a b c d n -> n < 0x10000.
Proof. intros (i & j & k & l & A & B & C & D & ->). apply hex_lt in A, B, C, D. lia. Qed.
Lemma byte_of c n : N_of_ascii c = n -> c = ascii_of_N n.
Proof. intros <-. symmetry. apply ascii_N_embedding. Qed.
Lemma of_byte n : n < 256 -> N_of_ascii (ascii_of_N n) = n.
Proof. apply N_ascii_embedding. Qed.
Lemma utf_sound n : n < 0x110000 -> utf n (utf8 n).
Proof.
  intros H. unfold utf8. cbv zeta. change (64 ^ 0) with 1. change (64 ^ 1) with 64. change (64 ^ 2) with 4096. rewrite N.div_1_r.
  pose proof (N.div_mod n 64 ltac:(discriminate)) as E1. pose proof (N.mod_lt n 64 ltac:(discriminate)) as L1.
  pose proof (N.div_mod (n / 64) 64 ltac:(discriminate)) as E2. pose proof (N.mod_lt (n / 64) 64 ltac:(discriminate)) as L2.
  rewrite N.div_div in E2 by discriminate. change (64 * 64) with 4096 in E2.
  pose proof (N.div_mod (n / 4096) 64 ltac:(discriminate)) as E3. pose proof (N.mod_lt (n / 4096) 64 ltac:(discriminate)) as L3.
  rewrite N.div_div in E3 by discriminate. change (4096 * 64) with 262144 in E3.
  destruct (N.ltb_spec n 128) as [A|A].
  { replace n with (N_of_ascii (ascii_of_N n)) at 1 by (apply of_byte; lia). apply utf_1. rewrite of_byte; lia. }
  destruct (N.ltb_spec n 2048) as [B|B].
  { replace n with (n / 64 * 64 + n mod 64) at 1 by lia. apply utf_2; try rewrite of_byte; lia. }
  destruct (N.ltb_spec n 65536) as [D|D].
  { replace n with (n / 4096 * 64 * 64 + (n / 64) mod 64 * 64 + n mod 64) at 1 by lia. apply utf_3; try rewrite of_byte; lia. }
  replace n with (n / 262144 * 64 * 64 * 64 + (n / 4096) mod 64 * 64 * 64 + (n / 64) mod 64 * 64 + n mod 64) at 1 by lia.
  apply utf_4; try rewrite of_byte; lia.
Qed.
Lemma digits64 x y : y < 64 -> (x * 64 + y) / 64 = x /\ (x * 64 + y) mod 64 = y.
Proof.
  intros H. split.
  - rewrite N.div_add_l by discriminate. rewrite N.div_small by exact H. lia.
  - rewrite N.add_comm, N.mod_add by discriminate. apply N.mod_small. exact H.
Qed.
Lemma utf_complete n u : utf n u -> u = utf8 n.
Proof.
  unfold utf8. change (64 ^ 0) with 1. change (64 ^ 1) with 64. change (64 ^ 2) with (64 * 64). change 4096 with (64 * 64). change 262144 with (64 * 64 * 64).
  cbv zeta. rewrite N.div_1_r. rewrite <- !N.div_div by discriminate.
  destruct 1 as [c H|c1 c2 x y H1 X H2 Y L|c1 c2 c3 x y z H1 X H2 Y H3 Z L|c1 c2 c3 c4 x y z t H1 X H2 Y H3 Z H4 T L].
  - replace (N_of_ascii c <? 128) with true by (symmetry; apply N.ltb_lt; exact H). rewrite ascii_N_embedding. reflexivity.
  - destruct (N.ltb_spec (x * 64 + y) 128); [lia|]. destruct (N.ltb_spec (x * 64 + y) 2048); [|lia].
    destruct (digits64 x y Y) as [-> ->]. rewrite (byte_of _ _ H1), (byte_of _ _ H2). reflexivity.
  - replace (x * 64 * 64 + y * 64 + z) with ((x * 64 + y) * 64 + z) in * by lia.
    destruct (N.ltb_spec ((x * 64 + y) * 64 + z) 128); [lia|]. destruct (N.ltb_spec ((x * 64 + y) * 64 + z) 2048); [lia|].
    destruct (N.ltb_spec ((x * 64 + y) * 64 + z) 65536); [|lia].
    destruct (digits64 (x * 64 + y) z Z) as [-> ->]. destruct (digits64 x y Y) as [-> ->]. rewrite (byte_of _ _ H1), (byte_of _ _ H2), (byte_of _ _ H3). reflexivity.
  - replace (x * 64 * 64 * 64 + y * 64 * 64 + z * 64 + t) with (((x * 64 + y) * 64 + z) * 64 + t) in * by lia.
    destruct (N.ltb_spec (((x * 64 + y) * 64 + z) * 64 + t) 128); [lia|]. destruct (N.ltb_spec (((x * 64 + y) * 64 + z) * 64 + t) 2048); [lia|].
    destruct (N.ltb_spec (((x * 64 + y) * 64 + z) * 64 + t) 65536); [lia|].
    destruct (digits64 ((x * 64 + y) * 64 + z) t T) as [-> ->]. destruct (digits64 (x * 64 + y) z Z) as [-> ->]. destruct (digits64 x y Y) as [-> ->].
    rewrite (byte_of _ _ H1), (byte_of _ _ H2), (byte_of _ _ H3), (byte_of _ _ H4). reflexivity.
Qed.

(** ** Strings *)
Lemma read_str_eq s : read_str s =
  match s with
  | EmptyString => None
  | String c r =>
      if Ascii.eqb c dq then Some (EmptyString, r)
      else if Ascii.eqb c bs then
        match r with
        | EmptyString => None
        | String e r1 =>
            if Ascii.eqb e "u" then
              match r1 with
              | String a (String b (String c (String d r1))) =>
                  match hex4 a b c d with
                  | Some n =>
                      if (55296 <=? n) && (n <? 57344) then
                        match r1 with
                        | String x (String y (String a (String b (String c (String d r2))))) =>
                            if Ascii.eqb x bs && Ascii.eqb y "u" then
                              match hex4 a b c d with
                              | Some m => if (n <? 56320) && (56320 <=? m) && (m <? 57344)
                                          then then_str (utf8 (65536 + (n - 55296) * 1024 + (m - 56320))) (read_str r2) else None
                              | None => None
                              end
                            else None
                        | _ => None
                        end
                      else then_str (utf8 n) (read_str r1)
                  | None => None
                  end
              | _ => None
              end
            else match simple_escape e with Some c => then_str (String c "") (read_str r1) | None => None end
        end
      else then_str (String c "") (read_str r)
  end.
Proof.
  destruct s as [|c r]; [reflexivity|].
  assert (E1 : (N_of_ascii c =? 34) = Ascii.eqb c dq) by (destruct c as [[] [] [] [] [] [] [] []]; reflexivity).
  assert (E2 : (N_of_ascii c =? 92) = Ascii.eqb c bs) by (destruct c as [[] [] [] [] [] [] [] []]; reflexivity).
  cbn [read_str]. rewrite E1, E2. clear E1 E2. destruct (Ascii.eqb c dq); [reflexivity|]. destruct (Ascii.eqb c bs); [|reflexivity].
  destruct r as [|e r1]; [reflexivity|].
  destruct (Ascii.eqb_spec e "u") as [->|He].
  - destruct r1 as [|a [|b [|c' [|d r1]]]]; try reflexivity. destruct (hex4 a b c' d) as [n|]; [|reflexivity]. destruct ((55296 <=? n) && (n <? 57344)); [|reflexivity].
    destruct r1 as [|x [|y [|a' [|b' [|c2 [|d' r2]]]]]]; try reflexivity.
    + destruct x as [[] [] [] [] [] [] [] []]; reflexivity.
    + destruct x as [[] [] [] [] [] [] [] []]; try reflexivity. destruct y as [[] [] [] [] [] [] [] []]; reflexivity.
    + destruct x as [[] [] [] [] [] [] [] []]; try reflexivity. destruct y as [[] [] [] [] [] [] [] []]; reflexivity.
    + destruct x as [[] [] [] [] [] [] [] []]; try reflexivity. destruct y as [[] [] [] [] [] [] [] []]; reflexivity.
    + destruct x as [[] [] [] [] [] [] [] []]; try reflexivity. destruct y as [[] [] [] [] [] [] [] []]; reflexivity.
    + destruct x as [[] [] [] [] [] [] [] []]; try reflexivity. destruct y as [[] [] [] [] [] [] [] []]; reflexivity.
  - destruct e as [[] [] [] [] [] [] [] []]; try reflexivity. congruence.
Qed.
Lemma escape_iff e c : simple_escape e = Some c <-> In (e, N_of_ascii c) [(dq, 34); (bs, 92); ("/", 47); ("b", 8); ("f", 12); ("n", 10); ("r", 13); ("t", 9)]%char.
Proof.
  split.
  - destruct e as [[] [] [] [] [] [] [] []]; intros H; try discriminate H; injection H as <-; cbn; tauto.
  - cbn [In]. intros H. repeat destruct H as [H|H]; try contradiction; injection H as <- H; rewrite <- (ascii_N_embedding c), <- H; reflexivity.
Qed.
Lemma then_some p o t r : then_str p o = Some (t, r) <-> exists t', o = Some (t', r) /\ t = (p ++ t')%string.
Proof. unfold then_str. destruct o as [[t' r']|]; split; [intros H; injection H as <- <-; eauto|intros (x & H & ->); injection H as <- <-; reflexivity|discriminate|intros (x & H & _); discriminate]. Qed.
Lemma u_no_escape c : In ("u"%char, N_of_ascii c) [(dq, 34); (bs, 92); ("/", 47); ("b", 8); ("f", 12); ("n", 10); ("r", 13); ("t", 9)]%char -> False.
Proof. intros H. apply escape_iff in H. discriminate. Qed.
Lemma read_str_complete t b : chars t b -> forall r, read_str (b ++ String dq r) = Some (t, r).
Proof.
  induction 1 as [|c t s H1 H2 H IH|e c t s H0 H IH|a b c d n u t s H0 H1 Hu H IH|a b c d n a' b' c' d' m u t s H0 H1 H2 H3 Hu H IH]; intros r; rewrite read_str_eq.
  - reflexivity.
  - rewrite append_cons. apply Ascii.eqb_neq in H1, H2. rewrite H1, H2, IH. reflexivity.
  - rewrite !append_cons. change (Ascii.eqb bs dq) with false. change (Ascii.eqb bs bs) with true. cbn [negb]. cbv iota.
    destruct (Ascii.eqb_spec e "u") as [->|_]; [destruct (u_no_escape _ H0)|]. apply escape_iff in H0. rewrite H0, IH. reflexivity.
  - rewrite !append_cons. change (Ascii.eqb bs dq) with false. change (Ascii.eqb bs bs) with true. change (Ascii.eqb "u" "u") with true. cbv iota. apply code_iff in H0. apply utf_complete in Hu. rewrite H0, IH, Hu.
    destruct (N.leb_spec 55296 n), (N.ltb_spec n 57344); cbn [andb]; try reflexivity. exfalso. apply H1. lia.
  - rewrite !append_cons. change (Ascii.eqb bs dq) with false. change (Ascii.eqb bs bs) with true. change (Ascii.eqb "u" "u") with true. cbn [andb]. cbv iota. apply code_iff in H0, H2. apply utf_complete in Hu. rewrite H0, H2, IH, Hu.
    replace (55296 <=? n) with true by (symmetry; apply N.leb_le; lia). replace (n <? 57344) with true by (symmetry; apply N.ltb_lt; lia).
    replace (n <? 56320) with true by (symmetry; apply N.ltb_lt; lia). replace (56320 <=? m) with true by (symmetry; apply N.leb_le; lia).
    replace (m <? 57344) with true by (symmetry; apply N.ltb_lt; lia). reflexivity.
Qed.
Lemma read_str_sound k : forall s t r, (String.length s <= k)%nat -> read_str s = Some (t, r) -> exists b, s = (b ++ String dq r)%string /\ chars t b.
Proof.
  induction k as [|k IH]; intros s t r L; rewrite read_str_eq; destruct s as [|c s]; try discriminate; cbn [String.length] in L; [lia|].
  destruct (Ascii.eqb_spec c dq) as [->|H1]; [intros E; injection E as <- <-; exists ""; split; [reflexivity|constructor]|].
  destruct (Ascii.eqb_spec c bs) as [->|H2].
  - destruct s as [|e s]; [discriminate|]. cbn [String.length] in L. destruct (Ascii.eqb_spec e "u") as [->|He].
    + destruct s as [|a [|b [|c' [|d s]]]]; try discriminate. cbn [String.length] in L. destruct (hex4 a b c' d) as [n|] eqn:Hx; [|discriminate].
      destruct ((55296 <=? n) && (n <? 57344)) eqn:Hs.
      * destruct s as [|x [|y [|a' [|b' [|c2 [|d' s]]]]]]; try discriminate. cbn [String.length] in L.
        destruct (Ascii.eqb_spec x bs) as [->|]; [|discriminate]. destruct (Ascii.eqb_spec y "u") as [->|]; [|discriminate]. cbn [andb].
        destruct (hex4 a' b' c2 d') as [m|] eqn:Hy; [|discriminate]. apply andb_prop in Hs as [Hs1 Hs2]. apply N.leb_le in Hs1. apply N.ltb_lt in Hs2.
        destruct (N.ltb_spec n 56320) as [Q1|]; [|discriminate]. destruct (N.leb_spec 56320 m) as [Q2|]; [|discriminate]. destruct (N.ltb_spec m 57344) as [Q3|]; [|discriminate]. cbn [andb].
        intros E. apply then_some in E as (t' & E & ->). apply IH in E as (b1 & -> & E); [|lia].
        eexists (String bs (String "u" (String a (String b (String c' (String d (String bs (String "u" (String a' (String b' (String c2 (String d' b1)))))))))))). split; [reflexivity|].
        apply code_iff in Hx, Hy. eapply ch_pair; eauto. apply utf_sound. lia.
      * intros E. apply then_some in E as (t' & E & ->). apply IH in E as (b1 & -> & E); [|lia].
        eexists (String bs (String "u" (String a (String b (String c' (String d b1)))))). split; [reflexivity|]. apply code_iff in Hx. eapply ch_code; eauto; [|apply utf_sound; apply code_lt in Hx; lia].
        intros [Q1 Q2]. apply andb_false_iff in Hs as [Hs|Hs]; [apply N.leb_gt in Hs|apply N.ltb_ge in Hs]; lia.
    + destruct (simple_escape e) as [c|] eqn:Ee; [|discriminate]. intros E. apply then_some in E as (t' & E & ->). apply IH in E as (b1 & -> & E); [|lia].
      eexists (String bs (String e b1)). split; [reflexivity|]. apply ch_escape; [apply escape_iff, Ee|exact E].
  - intros E. apply then_some in E as (t' & E & ->). apply IH in E as (b1 & -> & E); [|lia]. exists (String c b1). split; [reflexivity|]. apply ch_raw; assumption.
Qed.


(** ** Numbers *)
Lemma read_digits_split s : forall acc n t, read_digits acc s = (n, t) -> exists ds, s = (ds ++ t)%string /\ all_digits ds = true /\ n = dec_value_acc acc ds.
Proof.
  induction s as [|c s IH]; intros acc n t; cbn [read_digits].
  - intros E. injection E as <- <-. exists "". auto.
  - destruct (is_digit c) eqn:D.
    + intros E. apply IH in E as (ds & -> & A & ->). exists (String c ds). split; [reflexivity|]. split; [cbn [all_digits]; rewrite D; exact A|reflexivity].
    + intros E. injection E as <- <-. exists "". auto.
Qed.
Lemma read_num_sound c r n t : is_digit c = true -> read_num c r = (n, t) -> String c r = (dec_to_string n ++ t)%string.
Proof.
  intros D. unfold read_num. destruct (N.eqb_spec (N_of_ascii c) 48) as [X|X].
  - intros E. injection E as <- <-. change (dec_to_string 0) with "0"%string. rewrite append_cons, append_nil. f_equal. rewrite <- (ascii_N_embedding c), X. reflexivity.
  - intros E. apply read_digits_split in E as (ds & -> & A & ->). rewrite <- append_cons. f_equal.
    assert (A' : all_digits (String c ds) = true) by (cbn [all_digits]; rewrite D; exact A).
    apply whole_unique; [exact A'|apply dec_to_string_digits| |apply dec_to_string_customary|rewrite dec_to_string_value; reflexivity].
    split; [exists (dec_value (String c ds)); apply dec_text_spec; split; [exact A'|reflexivity]|]. right. exists c, ds. split; [reflexivity|].
    intros ->. apply X. reflexivity.
Qed.

(** ** The reader, by cases on the first character *)
Definition after_n (r : string) : option string :=
  match r with String a (String b (String c t)) => if Ascii.eqb a "u" && Ascii.eqb b "l" && Ascii.eqb c "l" then Some t else None | _ => None end.
Definition closed {X} (c : ascii) (s : string) (yes : string -> option X) (no : option X) : option X :=
  match s with String d r => if Ascii.eqb d c then yes r else no | EmptyString => no end.
Definition closer (s : string) (c : ascii) : option string := match s with String d r => if Ascii.eqb d c then Some r else None | EmptyString => None end.
Lemma read_val_eq f s : read_val (S f) s =
  match skip s with
  | EmptyString => None
  | String c r =>
      if Ascii.eqb c dq then match read_str r with Some (t, r) => Some (VStr t, r) | None => None end
      else if Ascii.eqb c "[" then
        closed "]" (skip r) (fun r => Some (VArr [], r)) (match read_elems f (skip r) with Some (l, r) => Some (VArr l, r) | None => None end)
      else if Ascii.eqb c "{" then
        closed "}" (skip r) (fun r => Some (VObj [], r)) (match read_fields f (skip r) with Some (l, r) => Some (VObj l, r) | None => None end)
      else if Ascii.eqb c "n" then match after_n r with Some r => Some (VNull, r) | None => None end
      else if is_digit c then let '(n, r) := read_num c r in Some (VNum n, r)
      else None
  end.
Proof.
  cbn [read_val]. destruct (skip s) as [|c r]; [reflexivity|].
  destruct (Ascii.eqb_spec c "n") as [->|Hn].
  { cbn [Ascii.eqb Bool.eqb]. unfold after_n. destruct r as [|a [|b [|d t]]]; try reflexivity.
    - destruct a as [[] [] [] [] [] [] [] []]; reflexivity.
    - destruct a as [[] [] [] [] [] [] [] []]; try reflexivity. destruct b as [[] [] [] [] [] [] [] []]; reflexivity.
    - destruct a as [[] [] [] [] [] [] [] []]; try reflexivity. destruct b as [[] [] [] [] [] [] [] []]; try reflexivity.
      destruct d as [[] [] [] [] [] [] [] []]; reflexivity. }
  destruct (Ascii.eqb_spec c "[") as [->|Ha].
  { cbn [Ascii.eqb Bool.eqb]. unfold closed. destruct (skip r) as [|d t]; [reflexivity|]. destruct d as [[] [] [] [] [] [] [] []]; reflexivity. }
  destruct (Ascii.eqb_spec c "{") as [->|Ho].
  { cbn [Ascii.eqb Bool.eqb]. unfold closed. destruct (skip r) as [|d t]; [reflexivity|]. destruct d as [[] [] [] [] [] [] [] []]; reflexivity. }
  destruct c as [[] [] [] [] [] [] [] []]; try reflexivity; congruence.
Qed.
Lemma read_elems_eq f s : read_elems (S f) s =
  match read_val f s with
  | Some (v, r) =>
      match closer (skip r) "]" with
      | Some r => Some ([v], r)
      | None => match closer (skip r) "," with
                | Some r => match read_elems f r with Some (l, r) => Some (v :: l, r) | None => None end
                | None => None
                end
      end
  | None => None
  end.
Proof.
  cbn [read_elems]. destruct (read_val f s) as [[v r]|]; [|reflexivity]. unfold closer. destruct (skip r) as [|d t]; [reflexivity|].
  destruct d as [[] [] [] [] [] [] [] []]; reflexivity.
Qed.
Lemma read_fields_eq f s : read_fields (S f) s =
  match closer (skip s) dq with
  | Some r =>
      match read_str r with
      | Some (k, r) =>
          match closer (skip r) ":" with
          | Some r =>
              match read_val f r with
              | Some (v, r) =>
                  match closer (skip r) "}" with
                  | Some r => Some ([(k, v)], r)
                  | None => match closer (skip r) "," with
                            | Some r => match read_fields f r with Some (l, r) => Some ((k, v) :: l, r) | None => None end
                            | None => None
                            end
                  end
              | None => None
              end
          | None => None
          end
      | None => None
      end
  | None => None
  end.
Proof.
  cbn [read_fields]. unfold closer at 1. destruct (skip s) as [|d t]; [reflexivity|].
  destruct (Ascii.eqb_spec d dq) as [->|Hd]; [|destruct d as [[] [] [] [] [] [] [] []]; try reflexivity; destruct Hd; reflexivity].
  change (match read_str t with
  | Some (k, r) => match skip r with String ":" r => match read_val f r with
      | Some (v, r) => match skip r with
                      | String "}" r => Some ([(k, v)], r)
                      | String "," r => match read_fields f r with Some (l, r) => Some ((k, v) :: l, r) | None => None end
                      | _ => None
                      end
      | None => None end | _ => None end
  | None => None end = match read_str t with
      | Some (k, r) =>
          match closer (skip r) ":" with
          | Some r =>
              match read_val f r with
              | Some (v, r) =>
                  match closer (skip r) "}" with
                  | Some r => Some ([(k, v)], r)
                  | None => match closer (skip r) "," with
                            | Some r => match read_fields f r with Some (l, r) => Some ((k, v) :: l, r) | None => None end
                            | None => None
                            end
                  end
              | None => None
              end
          | None => None
          end
      | None => None
      end).
  destruct (read_str t) as [[k r]|]; [|reflexivity]. unfold closer at 1. destruct (skip r) as [|d r1]; [reflexivity|].
  destruct (Ascii.eqb_spec d ":") as [->|Hd]; [|destruct d as [[] [] [] [] [] [] [] []]; try reflexivity; congruence].
  cbv iota beta. destruct (read_val f r1) as [[v r2]|]; [|reflexivity]. unfold closer. destruct (skip r2) as [|d r3]; [reflexivity|].
  destruct d as [[] [] [] [] [] [] [] []]; reflexivity.
Qed.

(** ** What the reader reads is JSON *)
Lemma white_app a b : white a -> white b -> white (a ++ b).
Proof. induction a as [|c a IH]; intros A B; [exact B|]. rewrite append_cons. apply white_cons in A as [A1 A2]. apply white_cons. auto. Qed.
Lemma closer_some s c r : closer s c = Some r <-> s = String c r.
Proof. unfold closer. destruct s as [|d t]; [split; discriminate|]. destruct (Ascii.eqb_spec d c) as [->|H]; split; congruence. Qed.
Lemma closed_is {X} c s (yes : string -> option X) no :
  closed c s yes no = match closer s c with Some r => yes r | None => no end.
Proof. unfold closed, closer. destruct s as [|d t]; [reflexivity|]. destruct (Ascii.eqb d c); reflexivity. Qed.
Lemma after_n_some r t : after_n r = Some t <-> r = String "u" (String "l" (String "l" t)).
Proof.
  unfold after_n. destruct r as [|a [|b [|c x]]]; try (split; discriminate).
  destruct (Ascii.eqb_spec a "u") as [->|], (Ascii.eqb_spec b "l") as [->|], (Ascii.eqb_spec c "l") as [->|]; cbn [andb]; split; congruence.
Qed.
Lemma items_white w l t : white w -> items l t -> items l (w ++ t).
Proof. intros W H. destruct H as [w0 v s w' W0 V W'|w0 v s w' l r W0 V W' R]; rewrite <- append_assoc; constructor; auto using white_app. Qed.
Lemma pairs_white w l t : white w -> pairs l t -> pairs l (w ++ t).
Proof.
  intros W H. destruct H as [w0 k kt w1 w2 v s w' W0 K W1 W2 V W'|w0 k kt w1 w2 v s w' l r W0 K W1 W2 V W' R]; rewrite <- append_assoc; constructor; auto using white_app.
Qed.
Lemma skipped s : forall r, skip s = r -> exists w, white w /\ s = (w ++ r)%string.
Proof. intros r <-. apply skip_split. Qed.
Lemma read_sound f :
  (forall s v r, read_val f s = Some (v, r) -> exists w t, s = (w ++ t ++ r)%string /\ white w /\ value v t) /\
  (forall s l r, read_elems f s = Some (l, r) -> exists t, s = (t ++ String "]" r)%string /\ items l t) /\
  (forall s l r, read_fields f s = Some (l, r) -> exists t, s = (t ++ String "}" r)%string /\ pairs l t).
Proof.
  induction f as [|f (IV & IE & IF)]; [split; [|split]; intros ? ? ? H; discriminate H|]. split; [|split].
  - intros s v r. rewrite read_val_eq. destruct (skip_split s) as (w & W & Es). destruct (skip s) as [|c x]; [discriminate|].
    intros H. exists w.
    assert (X : exists t, String c x = (t ++ r)%string /\ value v t); [|destruct X as (t & Et & V); exists t; rewrite <- Et; auto]. clear Es W w s.
    destruct (Ascii.eqb_spec c dq) as [->|_].
    { destruct (read_str x) as [[t y]|] eqn:E; [|discriminate]. injection H as <- <-. apply (read_str_sound _ x t y (Nat.le_refl _)) in E as (b & -> & B).
      exists (String dq (b ++ String dq "")). split; [rewrite append_cons, append_assoc, append_cons, append_nil; reflexivity|]. constructor. exists b. auto. }
    destruct (Ascii.eqb_spec c "[") as [->|_].
    { rewrite closed_is in H. destruct (skip_split x) as (w & W & Ex). destruct (closer (skip x) "]") as [y|] eqn:C.
      - injection H as <- <-. apply closer_some in C. rewrite Ex, C. exists (String "[" (w ++ "]")).
        split; [rewrite append_cons, append_assoc, append_cons, append_nil; reflexivity|]. constructor. exact W.
      - destruct (read_elems f (skip x)) as [[l y]|] eqn:E; [|discriminate]. injection H as <- <-. apply IE in E as (t & E & I). rewrite Ex, E.
        exists (String "[" ((w ++ t) ++ "]")). split; [rewrite append_cons, !append_assoc, append_cons, append_nil; reflexivity|]. constructor. apply items_white; assumption. }
    destruct (Ascii.eqb_spec c "{") as [->|_].
    { rewrite closed_is in H. destruct (skip_split x) as (w & W & Ex). destruct (closer (skip x) "}") as [y|] eqn:C.
      - injection H as <- <-. apply closer_some in C. rewrite Ex, C. exists (String "{" (w ++ "}")).
        split; [rewrite append_cons, append_assoc, append_cons, append_nil; reflexivity|]. constructor. exact W.
      - destruct (read_fields f (skip x)) as [[l y]|] eqn:E; [|discriminate]. injection H as <- <-. apply IF in E as (t & E & I). rewrite Ex, E.
        exists (String "{" ((w ++ t) ++ "}")). split; [rewrite append_cons, !append_assoc, append_cons, append_nil; reflexivity|]. constructor. apply pairs_white; assumption. }
    destruct (Ascii.eqb_spec c "n") as [->|_].
    { destruct (after_n x) as [y|] eqn:E; [|discriminate]. injection H as <- <-. apply after_n_some in E as ->. exists "null". split; [reflexivity|constructor]. }
    destruct (is_digit c) eqn:D; [|discriminate]. destruct (read_num c x) as [n y] eqn:E. injection H as <- <-.
    exists (dec_to_string n). split; [apply read_num_sound; assumption|constructor].
  - intros s l r. rewrite read_elems_eq. destruct (read_val f s) as [[v x]|] eqn:E; [|discriminate]. apply IV in E as (w & t & -> & W & V).
    destruct (skip_split x) as (w' & W' & Ex). destruct (closer (skip x) "]") as [y|] eqn:C.
    + intros H. injection H as <- <-. apply closer_some in C. rewrite Ex, C. exists (w ++ t ++ w')%string. split; [rewrite !append_assoc; reflexivity|]. constructor; assumption.
    + clear C. destruct (closer (skip x) ",") as [y|] eqn:C; [|discriminate]. apply closer_some in C. rewrite Ex, C.
      destruct (read_elems f y) as [[l' z]|] eqn:E; [|discriminate]. intros H. injection H as <- <-. apply IE in E as (t' & -> & I).
      exists (w ++ t ++ w' ++ String "," t')%string. split; [rewrite !append_assoc, append_cons; reflexivity|]. constructor; assumption.
  - intros s l r. rewrite read_fields_eq. destruct (skip_split s) as (w & W & Es). destruct (closer (skip s) dq) as [x|] eqn:C; [|discriminate].
    apply closer_some in C. rewrite Es, C. clear Es C s. destruct (read_str x) as [[k y]|] eqn:E; [|discriminate].
    apply (read_str_sound _ x k y (Nat.le_refl _)) in E as (b & -> & B).
    destruct (skip_split y) as (w1 & W1 & Ey). destruct (closer (skip y) ":") as [z|] eqn:C; [|discriminate]. apply closer_some in C. rewrite Ey, C. clear Ey C y.
    destruct (read_val f z) as [[v x]|] eqn:E; [|discriminate]. apply IV in E as (w2 & t & -> & W2 & V).
    assert (K : text_of k (String dq (b ++ String dq ""))) by (exists b; auto).
    destruct (skip_split x) as (w' & W' & Ex). destruct (closer (skip x) "}") as [y|] eqn:C.
    + intros H. injection H as <- <-. apply closer_some in C. rewrite Ex, C.
      exists (w ++ String dq (b ++ String dq "") ++ w1 ++ String ":" (w2 ++ t ++ w'))%string.
      split; [repeat rewrite ?append_assoc, ?append_cons, ?append_nil; reflexivity|]. constructor; assumption.
    + clear C. destruct (closer (skip x) ",") as [y|] eqn:C; [|discriminate]. apply closer_some in C. rewrite Ex, C.
      destruct (read_fields f y) as [[l' z]|] eqn:E; [|discriminate]. intros H. injection H as <- <-. apply IF in E as (t' & -> & I).
      exists (w ++ String dq (b ++ String dq "") ++ w1 ++ String ":" (w2 ++ t ++ w' ++ String "," t'))%string.
      split; [repeat rewrite ?append_assoc, ?append_cons, ?append_nil; reflexivity|]. constructor; assumption.
Qed.

(** ** JSON is read *)
Lemma skip_idem s : skip (skip s) = skip s.
Proof. induction s as [|c s IH]; [reflexivity|]. cbn [skip]. destruct (is_space c) eqn:E; [exact IH|]. cbn [skip]. rewrite E. reflexivity. Qed.
Lemma read_val_skip f s : read_val f (skip s) = read_val f s.
Proof. destruct f; [reflexivity|]. rewrite !read_val_eq, skip_idem. reflexivity. Qed.
Lemma read_elems_skip f s : read_elems f (skip s) = read_elems f s.
Proof. destruct f; [reflexivity|]. rewrite !read_elems_eq, read_val_skip. reflexivity. Qed.
Lemma read_fields_skip f s : read_fields f (skip s) = read_fields f s.
Proof. destruct f; [reflexivity|]. rewrite !read_fields_eq, skip_idem. reflexivity. Qed.
Lemma read_val_white f w s : white w -> read_val f (w ++ s) = read_val f s.
Proof. intros W. rewrite <- read_val_skip, skip_white, read_val_skip by exact W. reflexivity. Qed.
Lemma stops_white w r : white w -> stops r -> stops (w ++ r).
Proof.
  intros W R. destruct w as [|c w]; [exact R|]. apply white_cons in W as [W _]. rewrite append_cons. cbn [stops].
  destruct c as [[] [] [] [] [] [] [] []]; try discriminate W; reflexivity.
Qed.
(** How a value starts. *)
Definition starts (s : string) : Prop := exists c r, s = String c r /\ is_space c = false /\ c <> "]"%char /\ c <> "}"%char.
Lemma value_starts v s : value v s -> starts s.
Proof.
  intros H. destruct H as [|n|t s (b & _ & ->)| | | |]; try (do 2 eexists; split; [reflexivity|]; split; [reflexivity|split; discriminate]).
  destruct (read_num_text n "" I) as (c & r & E & D & _). exists c, r. split; [exact E|].
  destruct c as [[] [] [] [] [] [] [] []]; try discriminate D; (split; [reflexivity|split; discriminate]).
Qed.
Lemma starts_skip w s r : white w -> starts s -> skip (w ++ s ++ r) = (s ++ r)%string /\ closer (s ++ r) "]" = None /\ closer (s ++ r) "}" = None.
Proof.
  intros W (c & x & -> & S & N1 & N2). rewrite skip_white by exact W. rewrite append_cons, skip_at by exact S. split; [reflexivity|].
  apply Ascii.eqb_neq in N1, N2. unfold closer. rewrite N1, N2. auto.
Qed.
Lemma items_open l s r : items l s -> closer (skip (s ++ r)) "]" = None.
Proof.
  intros H. destruct H as [w v s w' W V W'|w v s w' l x W V W' R]; rewrite !append_assoc; apply value_starts in V.
  - destruct (starts_skip w s (w' ++ r) W V) as (E & C & _). rewrite E. exact C.
  - destruct (starts_skip w s (w' ++ String "," x ++ r) W V) as (E & C & _). rewrite E. exact C.
Qed.
Lemma pairs_open l s r : pairs l s -> closer (skip (s ++ r)) "}" = None.
Proof.
  intros H. destruct H as [w k kt w1 w2 v s w' W (b & _ & ->) W1 W2 V W'|w k kt w1 w2 v s w' l x W (b & _ & ->) W1 W2 V W' R];
    rewrite !append_assoc, skip_white, append_cons, skip_at by (exact W || reflexivity); reflexivity.
Qed.
Lemma closer_at c r : closer (String c r) c = Some r.
Proof. apply closer_some. reflexivity. Qed.
Lemma value_read v s : value v s -> forall f r, (2 * String.length s <= f)%nat -> stops r -> read_val f (s ++ r) = Some (v, r).
Proof.
  apply (value_mut (fun v s => forall f r, (2 * String.length s <= f)%nat -> stops r -> read_val f (s ++ r) = Some (v, r))
    (fun l s => forall f r, (2 * String.length s + 1 <= f)%nat -> read_elems f (s ++ String "]" r) = Some (l, r))
    (fun l s => forall f r, (2 * String.length s + 1 <= f)%nat -> read_fields f (s ++ String "}" r) = Some (l, r))); clear v s.
  - intros [|f] r L R; [cbn in L; lia|]. reflexivity.
  - intros n f r L R. destruct (read_num_text n r R) as (c & x & E & D & Rd). rewrite E in *. destruct f as [|f]; [cbn in L; lia|].
    rewrite read_val_eq, append_cons.
    rewrite skip_at by (clear - D; destruct c as [[] [] [] [] [] [] [] []]; try discriminate D; reflexivity).
    rewrite D, Rd. destruct c as [[] [] [] [] [] [] [] []]; try discriminate D; reflexivity.
  - intros t s (b & B & ->) [|f] r L R; [cbn in L; lia|]. rewrite read_val_eq, append_cons, append_assoc, append_cons, append_nil, skip_at by reflexivity.
    change (Ascii.eqb dq dq) with true. cbv iota. rewrite (read_str_complete t b B). reflexivity.
  - intros w W [|f] r L R; [cbn in L; lia|]. rewrite read_val_eq, append_cons, append_assoc, append_cons, append_nil, skip_at by reflexivity.
    change (Ascii.eqb "[" dq) with false. change (Ascii.eqb "[" "[") with true. cbv iota. rewrite skip_white by exact W. rewrite skip_at by reflexivity. reflexivity.
  - intros l s I IH [|f] r L R; [cbn in L; lia|]. cbn [String.length] in L. rewrite length_app in L. cbn [String.length] in L.
    rewrite read_val_eq, append_cons, append_assoc, append_cons, append_nil, skip_at by reflexivity.
    change (Ascii.eqb "[" dq) with false. change (Ascii.eqb "[" "[") with true. cbv iota. rewrite closed_is, (items_open l s _ I), read_elems_skip, IH by lia. reflexivity.
  - intros w W [|f] r L R; [cbn in L; lia|]. rewrite read_val_eq, append_cons, append_assoc, append_cons, append_nil, skip_at by reflexivity.
    change (Ascii.eqb "{" dq) with false. change (Ascii.eqb "{" "[") with false. change (Ascii.eqb "{" "{") with true. cbv iota. rewrite skip_white by exact W. rewrite skip_at by reflexivity. reflexivity.
  - intros l s I IH [|f] r L R; [cbn in L; lia|]. cbn [String.length] in L. rewrite length_app in L. cbn [String.length] in L.
    rewrite read_val_eq, append_cons, append_assoc, append_cons, append_nil, skip_at by reflexivity.
    change (Ascii.eqb "{" dq) with false. change (Ascii.eqb "{" "[") with false. change (Ascii.eqb "{" "{") with true. cbv iota.
    rewrite closed_is, (pairs_open l s _ I), read_fields_skip, IH by lia. reflexivity.
  - intros w v s w' W V IH W' [|f] r L; [lia|]. rewrite !length_app in L. rewrite read_elems_eq, !append_assoc, read_val_white, IH by (exact W || (apply stops_white; [exact W'|reflexivity]) || lia).
    rewrite skip_white, skip_at, closer_at by (exact W' || reflexivity). reflexivity.
  - intros w v s w' l x W V IH W' I IHl [|f] r L; [lia|]. rewrite !length_app in L. cbn [String.length] in L.
    rewrite read_elems_eq, !append_assoc, append_cons, read_val_white, IH by (exact W || (apply stops_white; [exact W'|reflexivity]) || lia).
    rewrite skip_white, skip_at, closer_at by (exact W' || reflexivity). change (closer (String "," (x ++ String "]" r)) "]") with (@None string). cbv iota. rewrite IHl by lia. reflexivity.
  - intros w k kt w1 w2 v s w' W (b & B & ->) W1 W2 V IH W' [|f] r L; [lia|]. repeat (rewrite length_app in L || cbn [String.length] in L).
    rewrite read_fields_eq, !append_assoc, skip_white, append_cons, skip_at, closer_at by (exact W || reflexivity).
    rewrite append_assoc, append_cons, append_nil, (read_str_complete k b B).
    rewrite skip_white, append_cons, skip_at, closer_at by (exact W1 || reflexivity). rewrite !append_assoc.
    rewrite read_val_white, IH by (exact W2 || (apply stops_white; [exact W'|reflexivity]) || lia).
    rewrite skip_white, skip_at, closer_at by (exact W' || reflexivity). reflexivity.
  - intros w k kt w1 w2 v s w' l x W (b & B & ->) W1 W2 V IH W' I IHl [|f] r L; [lia|]. repeat (rewrite length_app in L || cbn [String.length] in L).
    rewrite read_fields_eq, !append_assoc, skip_white, append_cons, skip_at, closer_at by (exact W || reflexivity).
    rewrite append_assoc, append_cons, append_nil, (read_str_complete k b B).
    rewrite skip_white, append_cons, skip_at, closer_at by (exact W1 || reflexivity). rewrite !append_assoc, append_cons.
    rewrite read_val_white, IH by (exact W2 || (apply stops_white; [exact W'|reflexivity]) || lia).
    rewrite skip_white, skip_at, closer_at by (exact W' || reflexivity). change (closer (String "," (x ++ String "}" r)) "}") with (@None string). cbv iota. rewrite IHl by lia. reflexivity.
Qed.
Lemma append_nil_r (s : string) : (s ++ "")%string = s.
Proof. induction s as [|c s IH]; [reflexivity|]. rewrite append_cons, IH. reflexivity. Qed.
Lemma white_end w : white w -> skip w = "".
Proof. intros W. rewrite <- (append_nil_r w), skip_white by exact W. reflexivity. Qed.

(** C87: a text is read as a value exactly if it is, between white space, a JSON
    text of that value; nothing may follow. *)
Theorem C87_reads_exactly_json s v : parse s = Some v <-> document v s.
Proof.
  unfold parse. split.
  - destruct (read_val _ s) as [[v' r]|] eqn:E; [|discriminate]. apply read_sound in E as (w & t & -> & W & V).
    destruct (skip_split r) as (w' & W' & Er). destruct (skip r); [|discriminate]. intros H. injection H as ->. rewrite append_nil_r in Er. subst r.
    exists w, t, w'. auto.
  - intros (w & t & w' & -> & W & V & W'). rewrite read_val_white by exact W. rewrite (value_read v t V).
    + rewrite white_end by exact W'. reflexivity.
    + rewrite !length_app. lia.
    + rewrite <- (append_nil_r w'). apply stops_white; [exact W'|exact I].
Qed.

(** ** What is written *)
Definition printable (s : string) : Prop := forall c, In c (list_ascii_of_string s) -> 32 <= N_of_ascii c.
Lemma printable_nil : printable "". Proof. intros c []. Qed.
Lemma printable_cons c s : 32 <= N_of_ascii c -> printable s -> printable (String c s).
Proof. intros H1 H2 x [<-|I]; auto. Qed.
Lemma printable_app a b : printable a -> printable b -> printable (a ++ b).
Proof.
  induction a as [|c a IH]; intros A B; [exact B|]. rewrite append_cons. apply printable_cons; [apply A; left; reflexivity|]. apply IH; [|exact B].
  intros x I. apply A. right. exact I.
Qed.
Lemma printable_escaped s : printable (escaped s).
Proof.
  induction s as [|c s IH]; [exact printable_nil|]. cbn [escaped]. apply printable_app; [|exact IH].
  destruct c as [[] [] [] [] [] [] [] []]; intros x I; cbn in I; repeat (destruct I as [<-|I]; [discriminate|]); destruct I.
Qed.
Lemma printable_quote s : printable (quote s).
Proof. apply printable_cons; [discriminate|]. apply printable_app; [apply printable_escaped|]. apply printable_cons; [discriminate|exact printable_nil]. Qed.
Lemma printable_digits s : all_digits s = true -> printable s.
Proof.
  induction s as [|c s IH]; intros H; [exact printable_nil|]. cbn [all_digits] in H. apply andb_prop in H as [D H]. apply printable_cons; [|exact (IH H)].
  destruct c as [[] [] [] [] [] [] [] []]; try discriminate D; discriminate.
Qed.

(** C87: what is written is JSON text of the value and contains no control
    characters, not even inside strings. *)
Theorem C87_writes_json v : document v (render v) /\ forall c, In c (list_ascii_of_string (render v)) -> 32 <= N_of_ascii c.
Proof.
  split; [apply C87_reads_exactly_json, parse_render|]. change (printable (render v)).
  induction v as [|n|s|l H|l H] using json_ind2.
  - intros x I; cbn in I; repeat (destruct I as [<-|I]; [discriminate|]); destruct I.
  - apply printable_digits, dec_to_string_digits.
  - apply printable_quote.
  - destruct l as [|x l]; [intros x I; cbn in I; repeat (destruct I as [<-|I]; [discriminate|]); destruct I|]. rewrite render_arr.
    inversion H as [|? ? Hx Hl]; subst. clear H. apply printable_cons; [discriminate|]. rewrite ?append_nil. apply printable_app; [exact Hx|].
    induction Hl as [|y l Hy Hl IH]; [apply printable_cons; [discriminate|exact printable_nil]|]. cbn [elems]. apply printable_cons; [discriminate|].
    apply printable_app; assumption.
  - destruct l as [|[k x] l]; [intros x I; cbn in I; repeat (destruct I as [<-|I]; [discriminate|]); destruct I|]. rewrite render_obj.
    inversion H as [|? ? Hx Hl]; subst. clear H. apply printable_cons; [discriminate|]. rewrite ?append_nil. apply printable_app; [apply printable_quote|].
    apply printable_cons; [discriminate|]. apply printable_app; [exact Hx|].
    induction Hl as [|[k' y] l Hy Hl IH]; [apply printable_cons; [discriminate|exact printable_nil]|]. cbn [members]. apply printable_cons; [discriminate|].
    apply printable_app; [apply printable_quote|]. apply printable_cons; [discriminate|]. apply printable_app; assumption.
Qed.

(** A text with white space and escapes, and texts that are none. *)
Example C87_case_json :
  document (VObj [("a", VArr [VNum 10; VNull]); ("A", VStr (String "/" (String (ascii_of_N 10) "")))])
    " { ""a"" : [10, null], ""\u0041"" :""\/\n"" } " /\
  (* the euro sign and a smiling face *)
  document (VStr (string_of_list_ascii (map ascii_of_N [0xE2; 0x82; 0xAC; 0xF0; 0x9F; 0x98; 0x80]))) """\u20ac\uD83D\uDE00""" /\
  (forall v, ~ document v "[1,]") /\ (forall v, ~ document v "{} x") /\ (forall v, ~ document v "01").
Proof.
  split; [apply C87_reads_exactly_json; vm_compute; reflexivity|].
  split; [apply C87_reads_exactly_json; vm_compute; reflexivity|].
  split; [|split]; intros v H; apply C87_reads_exactly_json in H; vm_compute in H; discriminate H.
Qed.
