(** C108: migrations from message bytes. *)
From Verif Require Import Base BigNumber CwStd BigNumberFacts Asset Messages PairMath Pair PairFacts Token Factory Router FactoryFacts
  World Json JsonFacts Wire WireFacts Storage P_Store MigrateWire Examples WorldExamples.
From Coq Require Import Ascii String.
Local Open Scope N_scope.

(** ** Specification: a text without its white space (blank, tab, line feed and
    carriage return). *)
Fixpoint solid (t : string) : string :=
  match t with
  | EmptyString => EmptyString
  | String c r => if existsb (N.eqb (N_of_ascii c)) [32; 9; 10; 13] then solid r else String c (solid r)
  end.

(** ** Reading *)
Lemma space_iff c : existsb (N.eqb (N_of_ascii c)) [32; 9; 10; 13] = is_space c.
Proof. destruct c as [[] [] [] [] [] [] [] []]; reflexivity. Qed.
Lemma solid_skip t : solid (skip t) = solid t.
Proof.
  induction t as [|c t IH]; [reflexivity|]. cbn [skip solid]. rewrite space_iff. destruct (is_space c) eqn:E; [exact IH|].
  cbn [solid]. rewrite space_iff, E. reflexivity.
Qed.
Lemma skip_first t : match skip t with String c _ => is_space c = false | EmptyString => True end.
Proof. induction t as [|c t IH]; cbn [skip]; [exact I|]. destruct (is_space c) eqn:E; [exact IH|exact E]. Qed.
Lemma solid_cons t c r : solid t = String c r -> exists r', skip t = String c r' /\ solid r' = r.
Proof.
  intros H. rewrite <- solid_skip in H. pose proof (skip_first t) as F. destruct (skip t) as [|c' r']; [discriminate H|].
  cbn [solid] in H. rewrite space_iff, F in H. injection H as -> H. eauto.
Qed.
Lemma solid_nil t : solid t = ""%string <-> skip t = ""%string.
Proof.
  split; intros H.
  - rewrite <- solid_skip in H. pose proof (skip_first t) as F. destruct (skip t) as [|c' r']; [reflexivity|]. cbn [solid] in H. rewrite space_iff, F in H. discriminate.
  - rewrite <- solid_skip, H. reflexivity.
Qed.
Lemma solid_of t c r : skip t = String c r -> solid t = String c (solid r).
Proof.
  intros H. pose proof (skip_first t) as F. rewrite <- solid_skip. rewrite H in *. cbn [solid]. rewrite space_iff, F. reflexivity.
Qed.
Lemma fields_some f s r : read_fields f s <> Some ([], r).
Proof.
  destruct f as [|f]; cbn [read_fields]; [discriminate|].
  repeat match goal with |- context [match ?x with _ => _ end] => destruct x; try discriminate end.
Qed.
Lemma read_empty f s r : read_val f s = Some (VObj [], r) -> exists a, skip s = String "{" a /\ skip a = String "}" r.
Proof.
  destruct f as [|f]; cbn [read_val]; [discriminate|]. intros H.
  destruct (skip s) as [|c a]; [discriminate|].
  destruct (Ascii.ascii_dec c "{") as [->|D].
  - exists a. split; [reflexivity|]. cbv iota beta in H. destruct (skip a) as [|d b] eqn:Ea.
    + exfalso. destruct (read_fields f "") as [[l y]|] eqn:E; [|discriminate]. injection H as -> ->. exact (fields_some _ _ _ E).
    + destruct (Ascii.ascii_dec d "}") as [->|D']; [cbv iota beta in H; congruence|]. exfalso.
      assert (X : match read_fields f (String d b) with Some (l, r) => Some (VObj l, r) | None => None end = Some (VObj [], r)).
      { rewrite <- H. clear - D'. destruct d as [[] [] [] [] [] [] [] []]; try reflexivity. congruence. }
      destruct (read_fields f (String d b)) as [[l y]|] eqn:E; [|discriminate]. injection X as -> ->. exact (fields_some _ _ _ E).
  - exfalso. revert H. destruct c as [[] [] [] [] [] [] [] []]; try congruence; clear D; cbv iota beta;
      repeat match goal with |- context [match ?x with _ => _ end] => destruct x; try discriminate end.
Qed.

(** ** C108 *)

(** What is accepted as a migrate message: exactly the two braces, with white space
    anywhere. *)
Theorem C108_accepted t : from_bytes r_migrate t <> None <-> solid t = "{}"%string.
Proof.
  unfold from_bytes. split.
  - intros H. destruct (parse t) as [v|] eqn:E; [|destruct (H eq_refl)]. cbn [obind] in H. assert (v = VObj []) as ->.
    { destruct v as [| | | |[|[k x] l]]; try (destruct (H eq_refl); fail); [reflexivity|]. exfalso. apply H. unfold r_migrate, struct. cbn [forallb existsb andb].
      rewrite andb_false_r. reflexivity. }
    unfold parse in E. destruct (read_val _ t) as [[v r]|] eqn:R; [|discriminate]. destruct (skip r) eqn:Er; [|discriminate]. injection E as ->.
    apply read_empty in R as (a & H1 & H2). rewrite (solid_of _ _ _ H1), (solid_of _ _ _ H2), (proj2 (solid_nil r) Er). reflexivity.
  - intros H. apply solid_cons in H as (a & H1 & H). apply solid_cons in H as (b & H2 & H). apply solid_nil in H.
    assert (E : parse t = Some (VObj [])); [|rewrite E; discriminate].
    unfold parse. replace (2 * String.length t + 2)%nat with (S (2 * String.length t + 1))%nat by lia. cbn [read_val]. rewrite H1, H2, H. reflexivity.
Qed.
(** What the factory sends with MigratePair is accepted by pairs. *)
Theorem C108_factory_message : migrate_bytes = "{}"%string /\ forall s, pair_migrate_entry s migrate_bytes = bp_migrate s.
Proof. split; reflexivity. Qed.
(** A migration of a contract to its own code, whatever message comes with it, leaves
    every byte of its storage as it was and sends nothing; or it is refused, for the
    message alone. *)
Definition unchanged (r : res (store * response)) (s : store) (t : string) : Prop :=
  if String.eqb (solid t) "{}" then r = Ok (s, Response [] []) else r = Err EParse.
Lemma version_same s st (n : string) : stored s st -> content st AtVersion = Some (w_version n "0.1.0") -> set_version n s = s.
Proof.
  intros S Hc. unfold set_version. apply insert_id. destruct S as [S _]. specialize (S AtVersion). cbn [cell_key] in S. rewrite S, Hc. reflexivity.
Qed.
Lemma on_migrate_unchanged f s t : f s = Ok (s, Response [] []) -> unchanged (on_migrate f s t) s t.
Proof.
  intros E. unfold unchanged, on_migrate. pose proof (C108_accepted t) as A. destruct (String.eqb_spec (solid t) "{}") as [D|D].
  - destruct (from_bytes r_migrate t); [exact E|]. destruct (proj2 A D eq_refl).
  - destruct (from_bytes r_migrate t); [|reflexivity]. exfalso. apply D, A. discriminate.
Qed.
Theorem C108_storage_kept s t :
  (forall p, stored s (SPair p) -> unchanged (pair_migrate_entry s t) s t) /\
  (forall f, stored s (SFactory f) -> unchanged (factory_migrate_entry s t) s t) /\
  (forall r, stored s (SRouter r) -> unchanged (router_migrate_entry s t) s t).
Proof.
  split; [|split]; intros st S; apply on_migrate_unchanged; unfold bp_migrate, bf_migrate, br_migrate; erewrite version_same; try exact S; reflexivity.
Qed.

(** ** Cases *)
Example C108_case : stored (fill (SRouter "f"%string) (cells (SRouter "f"%string))) (SRouter "f"%string) /\
  solid " {  } "%string = "{}"%string /\ solid "{""a"":1}" <> "{}"%string /\
  match router_migrate_entry (fill (SRouter "f"%string) (cells (SRouter "f"%string))) "{""code"":1}" with Err EParse => true | _ => false end = true.
Proof. split; [apply fill_stored|]. split; [reflexivity|]. split; [discriminate|]. vm_compute. reflexivity. Qed.
