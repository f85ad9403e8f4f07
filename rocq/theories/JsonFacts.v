(** Reading JSON text gives back what was written; the same for base64. *)
From Verif Require Import Base BigNumber BigNumberFacts P_Text Json.
From Coq Require Import Ascii String.
Local Open Scope N_scope.

(** ** Strings *)
Lemma read_escape c t : read_str (escape c ++ t) = then_str (String c "") (read_str t).
Proof. destruct c as [[] [] [] [] [] [] [] []]; reflexivity. Qed.
Lemma append_assoc (a b c : string) : ((a ++ b) ++ c = a ++ b ++ c)%string.
Proof. induction a as [|x a IH]; [reflexivity|]. rewrite !append_cons, IH. reflexivity. Qed.
Lemma read_escaped s t : read_str (escaped s ++ String """" t) = Some (s, t).
Proof.
  induction s as [|c s IH]; [reflexivity|]. cbn [escaped]. rewrite append_assoc, read_escape, IH. reflexivity.
Qed.
Lemma quote_app s t : (quote s ++ t = String """" (escaped s ++ String """" t))%string.
Proof. unfold quote. rewrite append_cons, append_assoc. reflexivity. Qed.

(** ** Numbers *)
Definition stops (t : string) : Prop := match t with String c _ => is_digit c = false | EmptyString => True end.
Lemma read_digits_app s t : stops t -> forall acc, all_digits s = true -> read_digits acc (s ++ t) = (dec_value_acc acc s, t).
Proof.
  intros Ht. induction s as [|c s IH]; intros acc Hd; rewrite ?append_cons, ?append_nil; cbn [read_digits dec_value_acc].
  - destruct t as [|c t]; [reflexivity|]. cbn [stops] in Ht. cbn [read_digits]. rewrite Ht. reflexivity.
  - cbn [all_digits] in Hd. apply andb_prop in Hd as [Hc Hd]. rewrite Hc. apply IH, Hd.
Qed.
Lemma read_num_text n t : stops t -> exists c r, dec_to_string n = String c r /\ is_digit c = true /\ read_num c (r ++ t) = (n, t).
Proof.
  intros Ht. pose proof (dec_to_string_digits n) as D. pose proof (dec_to_string_value n) as V. pose proof (dec_to_string_customary n) as [_ Z].
  destruct (dec_to_string n) as [|c r] eqn:E; [exfalso; exact (dec_to_string_nonempty n E)|].
  exists c, r. split; [reflexivity|]. cbn [all_digits] in D. apply andb_prop in D as [Dc Dr]. split; [exact Dc|].
  unfold read_num. destruct (N.eqb_spec (N_of_ascii c) 48) as [X|X].
  - destruct Z as [Z|(c' & r' & Z & Z')].
    + injection Z as -> ->. cbn in V. subst n. reflexivity.
    + injection Z as <- <-. exfalso. apply Z'. rewrite <- (ascii_N_embedding c), X. reflexivity.
  - rewrite (read_digits_app r t Ht _ Dr). f_equal. exact V.
Qed.

(** ** Values *)
Lemma json_ind2 (P : json -> Prop) : P VNull -> (forall n, P (VNum n)) -> (forall s, P (VStr s)) ->
  (forall l, Forall P l -> P (VArr l)) -> (forall l, Forall (fun kv => P (snd kv)) l -> P (VObj l)) -> forall v, P v.
Proof.
  intros H1 H2 H3 H4 H5. fix IH 1. intros [|n|s|l|l]; [exact H1|apply H2|apply H3|apply H4|apply H5].
  - induction l as [|x l IHl]; constructor; [apply IH|exact IHl].
  - induction l as [|[k x] l IHl]; constructor; [apply IH|exact IHl].
Qed.
Fixpoint elems (l : list json) : string := match l with [] => "]" | y :: l => ("," ++ render y ++ elems l)%string end.
Fixpoint members (l : list (string * json)) : string :=
  match l with [] => "}" | (k, y) :: l => ("," ++ quote k ++ ":" ++ render y ++ members l)%string end.
Lemma render_arr x l : render (VArr (x :: l)) = ("[" ++ render x ++ elems l)%string.
Proof. cbn [render]. do 2 f_equal. Qed.
Lemma render_obj k x l : render (VObj ((k, x) :: l)) = ("{" ++ quote k ++ ":" ++ render x ++ members l)%string.
Proof. cbn [render]. do 4 f_equal. Qed.

Fixpoint cost (v : json) : nat :=
  match v with
  | VArr l => S ((fix go l := match l with [] => O | x :: l => S (cost x + go l) end) l)
  | VObj l => S ((fix go l := match l with [] => O | (_, x) :: l => S (cost x + go l) end) l)
  | _ => 1%nat
  end.
Fixpoint costs (l : list json) : nat := match l with [] => O | x :: l => S (cost x + costs l) end.
Fixpoint mcosts (l : list (string * json)) : nat := match l with [] => O | (_, x) :: l => S (cost x + mcosts l) end.
Lemma cost_arr l : cost (VArr l) = S (costs l).
Proof. cbn [cost]. f_equal. Qed.
Lemma cost_obj l : cost (VObj l) = S (mcosts l).
Proof. cbn [cost]. f_equal. Qed.
Lemma cost_pos v : (1 <= cost v)%nat.
Proof. destruct v; cbn [cost]; lia. Qed.

(** The first character of a rendered value. *)
Lemma render_head v : exists c r, render v = String c r /\ is_space c = false /\ c <> "]"%char.
Proof.
  destruct v as [|n|s|[|x l]|[|[k x] l]]; try (eexists _, _; split; [reflexivity|split; [reflexivity|discriminate]]).
  pose proof (dec_to_string_digits n) as D. cbn [render]. destruct (dec_to_string n) as [|c r] eqn:E; [exfalso; exact (dec_to_string_nonempty n E)|].
  exists c, r. split; [reflexivity|]. cbn [all_digits] in D. apply andb_prop in D as [D _]. clear E.
  destruct c as [[] [] [] [] [] [] [] []]; try discriminate D; (split; [reflexivity|discriminate]).
Qed.
Lemma skip_render v t : skip (render v ++ t) = (render v ++ t)%string.
Proof. destruct (render_head v) as (c & r & E & S & _). rewrite E, append_cons. cbn [skip]. rewrite S. reflexivity. Qed.
Lemma skip_at c s : is_space c = false -> skip (String c s) = String c s.
Proof. intros H. cbn [skip]. rewrite H. reflexivity. Qed.

Definition reads (v : json) : Prop := forall f t, (cost v <= f)%nat -> stops t -> read_val f (render v ++ t) = Some (v, t).

Lemma elems_stops l t : stops (elems l ++ t).
Proof. destruct l; reflexivity. Qed.
Lemma members_stops l t : stops (members l ++ t).
Proof. destruct l as [|[k v] l]; reflexivity. Qed.

Lemma read_elems_render l : Forall reads l -> forall x f t, reads x -> (S (cost x + costs l) <= f)%nat ->
  read_elems f (render x ++ elems l ++ t) = Some (x :: l, t).
Proof.
  induction l as [|y l IH]; intros Hl x f t Hx Hf; (destruct f as [|f]; [lia|]); cbn [read_elems].
  - rewrite (Hx f _); [|cbn [costs] in Hf; lia|reflexivity]. reflexivity.
  - cbn [costs] in Hf. rewrite (Hx f _); [|lia|apply elems_stops]. inversion Hl as [|? ? Hy Hr]; subst.
    cbn [elems]. rewrite !append_assoc, append_cons, append_nil, skip_at by reflexivity.
    rewrite (IH Hr y f t Hy) by lia. reflexivity.
Qed.
Lemma read_fields_render l : Forall (fun kv => reads (snd kv)) l -> forall k x f t, reads x -> (S (cost x + mcosts l) <= f)%nat ->
  read_fields f (quote k ++ ":" ++ render x ++ members l ++ t) = Some ((k, x) :: l, t).
Proof.
  induction l as [|[k' y] l IH]; intros Hl k x f t Hx Hf; (destruct f as [|f]; [lia|]); cbn [read_fields]; rewrite quote_app.
  - rewrite skip_at by reflexivity. rewrite read_escaped.
    rewrite append_cons, append_nil. rewrite skip_at by reflexivity. cbv iota beta.
    rewrite (Hx f _); [|cbn [mcosts] in Hf; lia|reflexivity]. reflexivity.
  - cbn [mcosts] in Hf. inversion Hl as [|? ? Hy Hr]; subst. cbn [snd] in Hy.
    rewrite skip_at by reflexivity. rewrite read_escaped. rewrite append_cons, append_nil.
    rewrite skip_at by reflexivity. cbv iota beta.
    rewrite (Hx f _); [|lia|apply members_stops]. cbn [members]. rewrite !append_assoc, append_cons, append_nil.
    rewrite skip_at by reflexivity. cbv iota beta.
    rewrite (IH Hr k' y f t Hy) by lia. reflexivity.
Qed.
Lemma reads_all v : reads v.
Proof.
  induction v as [|n|s|l H|l H] using json_ind2; intros f t Hf Ht; (destruct f as [|f]; [pose proof (cost_pos (VArr [])); cbn in Hf; lia|]).
  - reflexivity.
  - destruct (read_num_text n t Ht) as (c & r & E & Dc & R). cbn [render read_val]. rewrite E, append_cons.
    rewrite skip_at by (clear - Dc; destruct c as [[] [] [] [] [] [] [] []]; try discriminate Dc; reflexivity).
    destruct c as [[] [] [] [] [] [] [] []]; try discriminate Dc; cbn [is_digit]; rewrite R; reflexivity.
  - cbn [render read_val]. rewrite quote_app, skip_at by reflexivity. rewrite read_escaped. reflexivity.
  - destruct l as [|x l]; [reflexivity|]. rewrite render_arr, !append_assoc. cbn [read_val]. rewrite append_cons, append_nil, skip_at by reflexivity.
    inversion H as [|? ? Hx Hl]; subst. rewrite skip_render. rewrite cost_arr in Hf. cbn [costs] in Hf.
    pose proof (read_elems_render l Hl x f t Hx ltac:(lia)) as R.
    destruct (render_head x) as (c & r & E & _ & Nc). rewrite E, append_cons in R |- *.
    destruct c as [[] [] [] [] [] [] [] []]; try (rewrite R; reflexivity). contradiction.
  - destruct l as [|[k x] l]; [reflexivity|]. rewrite render_obj, !append_assoc. cbn [read_val]. rewrite append_cons, append_nil, skip_at by reflexivity.
    inversion H as [|? ? Hx Hl]; subst. rewrite cost_obj in Hf. cbn [mcosts] in Hf.
    pose proof (read_fields_render l Hl k x f t Hx ltac:(lia)) as R. rewrite quote_app in R |- *. rewrite skip_at by reflexivity. rewrite R. reflexivity.
Qed.

(** Enough fuel. *)
Lemma length_app a b : String.length (a ++ b) = (String.length a + String.length b)%nat.
Proof. induction a as [|c a IH]; [reflexivity|]. rewrite append_cons. cbn [String.length]. rewrite IH. reflexivity. Qed.
Lemma cost_length v : (cost v < 2 * String.length (render v))%nat.
Proof.
  induction v as [|n|s|l H|l H] using json_ind2.
  - cbn. lia.
  - cbn [cost render]. destruct (dec_to_string n) eqn:E; [exfalso; exact (dec_to_string_nonempty n E)|]. cbn [String.length]. lia.
  - cbn [cost render quote String.length]. lia.
  - destruct l as [|x l]; [cbn; lia|]. rewrite cost_arr, render_arr, !length_app. inversion H as [|? ? Hx Hl]; subst. clear H. cbn [costs String.length].
    assert (costs l <= 2 * String.length (elems l))%nat; [|lia].
    induction Hl as [|y l Hy Hl IH]; [cbn; lia|]. cbn [costs elems]. rewrite !length_app. cbn [String.length]. lia.
  - destruct l as [|[k x] l]; [cbn; lia|]. rewrite cost_obj, render_obj, !length_app. inversion H as [|? ? Hx Hl]; subst. clear H. cbn [mcosts String.length snd] in *.
    assert (mcosts l <= 2 * String.length (members l))%nat; [|lia].
    induction Hl as [|[k' y] l Hy Hl IH]; [cbn; lia|]. cbn [mcosts members snd] in *. rewrite !length_app. cbn [String.length]. lia.
Qed.
Lemma append_empty s : (s ++ "" = s)%string.
Proof. induction s as [|c s IH]; [reflexivity|]. rewrite append_cons, IH. reflexivity. Qed.

(** Reading what was written gives it back. *)
Lemma parse_render v : parse (render v) = Some v.
Proof.
  unfold parse. rewrite <- (append_empty (render v)) at 2. rewrite reads_all; [reflexivity| |exact I]. pose proof (cost_length v). lia.
Qed.
Lemma render_inj v v' : render v = render v' -> v = v'.
Proof. intros H. pose proof (parse_render v) as P. rewrite H, parse_render in P. congruence. Qed.

(** ** Base64 *)
Lemma b64_val_char n : n < 64 -> b64_val (b64_char n) = Some n.
Proof.
  intros H. assert (forallb (fun k => match b64_val (b64_char (N.of_nat k)) with Some m => m =? N.of_nat k | None => false end) (seq 0 64) = true) as X by (vm_compute; reflexivity).
  rewrite forallb_forall in X. specialize (X (N.to_nat n)). rewrite N2Nat.id in X. specialize (X ltac:(apply in_seq; lia)).
  destruct (b64_val (b64_char n)) as [m|]; [|discriminate]. apply N.eqb_eq in X. congruence.
Qed.
Lemma byte_lt c : N_of_ascii c < 256.
Proof. destruct c as [[] [] [] [] [] [] [] []]; reflexivity. Qed.
Lemma byte_id c n : n = N_of_ascii c -> ascii_of_N n = c.
Proof. intros ->. apply ascii_N_embedding. Qed.
Lemma b64_pad : b64_val "=" = None.
Proof. reflexivity. Qed.

Lemma string_ind3 (P : string -> Prop) : P "" -> (forall a, P (String a "")) -> (forall a b, P (String a (String b ""))) ->
  (forall a b c r, P r -> P (String a (String b (String c r)))) -> forall s, P s.
Proof.
  intros H0 H1 H2 H3. fix IH 1. intros [|a [|b [|c r]]]; [exact H0|apply H1|apply H2|apply H3, IH].
Qed.
Lemma b64_roundtrip s : b64_decode (b64_encode s) = Some s.
Proof.
  induction s as [|a|a b|a b c r IH] using string_ind3; [reflexivity| | |].
  - cbn [b64_encode b64_decode]. pose proof (byte_lt a) as La. set (x := N_of_ascii a) in *.
    assert (x / 4 < 64) by (apply N.div_lt_upper_bound; lia). pose proof (N.mod_lt x 4 ltac:(discriminate)).
    rewrite !b64_val_char by lia. rewrite b64_pad. cbn [Ascii.eqb andb Bool.eqb].
    replace (x mod 4 * 16 mod 16 =? 0) with true by (symmetry; apply N.eqb_eq; rewrite N.mod_mul by discriminate; reflexivity).
    cbn [andb]. do 2 f_equal. apply byte_id. fold x. rewrite N.div_mul by discriminate. pose proof (N.div_mod x 4 ltac:(discriminate)). lia.
  - cbn [b64_encode b64_decode]. pose proof (byte_lt a) as La. set (x := N_of_ascii a) in *. pose proof (byte_lt b) as Lb. set (y := N_of_ascii b) in *.
    assert (x / 4 < 64) by (apply N.div_lt_upper_bound; lia). pose proof (N.mod_lt x 4 ltac:(discriminate)).
    assert (y / 16 < 16) by (apply N.div_lt_upper_bound; lia). pose proof (N.mod_lt y 16 ltac:(discriminate)).
    rewrite !b64_val_char by lia. rewrite b64_pad. cbn [Ascii.eqb andb Bool.eqb].
    replace (y mod 16 * 4 mod 4 =? 0) with true by (symmetry; apply N.eqb_eq; rewrite N.mod_mul by discriminate; reflexivity).
    cbn [andb]. pose proof (N.div_mod x 4 ltac:(discriminate)). pose proof (N.div_mod y 16 ltac:(discriminate)).
    assert (Q1 : (x mod 4 * 16 + y / 16) / 16 = x mod 4) by (rewrite N.div_add_l by discriminate; rewrite (N.div_small (y / 16)); lia).
    assert (Q2 : (x mod 4 * 16 + y / 16) mod 16 = y / 16) by (rewrite N.add_comm, N.mod_add by discriminate; apply N.mod_small; lia).
    rewrite Q1, Q2, N.div_mul by discriminate. repeat f_equal; apply byte_id; fold x y; lia.
  - cbn [b64_encode b64_decode]. pose proof (byte_lt a) as La. set (x := N_of_ascii a) in *. pose proof (byte_lt b) as Lb. set (y := N_of_ascii b) in *.
    pose proof (byte_lt c) as Lc. set (z := N_of_ascii c) in *.
    assert (x / 4 < 64) by (apply N.div_lt_upper_bound; lia). pose proof (N.mod_lt x 4 ltac:(discriminate)).
    assert (y / 16 < 16) by (apply N.div_lt_upper_bound; lia). pose proof (N.mod_lt y 16 ltac:(discriminate)).
    assert (z / 64 < 4) by (apply N.div_lt_upper_bound; lia). pose proof (N.mod_lt z 64 ltac:(discriminate)).
    rewrite !b64_val_char by lia. rewrite IH.
    pose proof (N.div_mod x 4 ltac:(discriminate)). pose proof (N.div_mod y 16 ltac:(discriminate)). pose proof (N.div_mod z 64 ltac:(discriminate)).
    assert (Q1 : (x mod 4 * 16 + y / 16) / 16 = x mod 4) by (rewrite N.div_add_l by discriminate; rewrite (N.div_small (y / 16)); lia).
    assert (Q2 : (x mod 4 * 16 + y / 16) mod 16 = y / 16) by (rewrite N.add_comm, N.mod_add by discriminate; apply N.mod_small; lia).
    assert (Q3 : (y mod 16 * 4 + z / 64) / 4 = y mod 16) by (rewrite N.div_add_l by discriminate; rewrite (N.div_small (z / 64)); lia).
    assert (Q4 : (y mod 16 * 4 + z / 64) mod 4 = z / 64) by (rewrite N.add_comm, N.mod_add by discriminate; apply N.mod_small; lia).
    rewrite Q1, Q2, Q3, Q4. repeat f_equal; apply byte_id; fold x y z; lia.
Qed.
