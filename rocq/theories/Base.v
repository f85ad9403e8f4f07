(** Results, panics and integer ranges shared by the whole model. *)
From stdpp Require Export base tactics list strings gmap numbers.
From Coq Require Export ZArith NArith Lia.
From Coq Require Import ZifyN.
Global Open Scope N_scope.

(** Constants.  2^64, 2^128, 2^256 are the ranges of u64, u128 / Uint128 /
    Decimal atomics and bigint::U256; [D18] is
    Decimal256::DECIMAL_FRACTIONAL (packages/bignumber/src/math.rs:18) and
    cosmwasm_std::Decimal's DECIMAL_FRACTIONAL. *)
Definition B64 : N := 18446744073709551616.
Definition B128 : N := 340282366920938463463374607431768211456.
Definition B256 : N :=
  115792089237316195423570985008687907853269984665640564039457584007913129639936.
Definition D18 : N := 1000000000000000000.

(** Error values.  The constructors name the error enums of
    contracts/halo-pair/src/error.rs:6-33, contracts/halo-factory/src/error.rs,
    contracts/halo-router/src/error.rs (all StdError wrappers), cw20-base
    1.0.0 error.rs, and chain-level failures.  [EPanic] is a Rust panic
    (assert!, unwrap, overflow with overflow-checks = true, Cargo.toml), which
    aborts the wasm instance. *)
Inductive err : Type :=
| EStd (msg : string)          (* StdError::generic_err(msg) and other StdErrors *)
| EOverflow                    (* OverflowError: checked_sub / checked_mul / checked_add *)
| EParse                       (* serde: message does not decode *)
| EUnauthorized
| EInvalidZeroAmount
| EMaxSpread
| EMaxSlippage
| EAssetMismatch
| ECw20 (msg : string)         (* cw20-base ContractError *)
| EBank                        (* bank module: insufficient funds, invalid coins *)
| ENotFound                    (* storage item missing / no such contract *)
| EFuel                        (* evaluator ran out of fuel: never a chain result *)
| EPanic (msg : string).

Inductive res (A : Type) : Type :=
| Ok (a : A)
| Err (e : err).
Global Arguments Ok {A} a.
Global Arguments Err {A} e.

Definition rbind {A B} (m : res A) (f : A -> res B) : res B :=
  match m with Ok a => f a | Err e => Err e end.

Notation "'let*' x := m 'in' k" := (rbind m (fun x => k))
  (at level 200, x name, m at level 100, k at level 200,
   format "'[v' 'let*'  x  :=  m  'in' '/' k ']'").
Notation "'let*' ' x := m 'in' k" := (rbind m (fun x => k))
  (at level 200, x strict pattern, m at level 100, k at level 200,
   format "'[v' 'let*'  ' x  :=  m  'in' '/' k ']'").
Notation "m ;;; k" := (rbind m (fun _ => k)) (at level 199, right associativity).

Definition panic {A} (msg : string) : res A := Err (EPanic msg).

(** [require b e]: continue if [b], else fail with [e]. *)
Definition require (b : bool) (e : err) : res unit :=
  if b then Ok tt else Err e.

Definition is_ok {A} (m : res A) : Prop := exists a, m = Ok a.

Definition oget {A} (o : option A) (e : err) : res A :=
  match o with Some a => Ok a | None => Err e end.

Fixpoint rmap {A B} (f : A -> res B) (l : list A) : res (list B) :=
  match l with
  | [] => Ok []
  | a :: r => let* b := f a in let* bs := rmap f r in Ok (b :: bs)
  end.

Lemma rbind_ok {A B} (m : res A) (f : A -> res B) b :
  rbind m f = Ok b <-> exists a, m = Ok a /\ f a = Ok b.
Proof.
  destruct m as [a|e]; simpl; split.
  - intros H. exists a. auto.
  - intros (a' & E & H). inversion E; subst; auto.
  - discriminate.
  - intros (a' & E & _). discriminate.
Qed.

Lemma require_ok b e u : require b e = Ok u <-> b = true.
Proof. destruct b, u; simpl; split; congruence. Qed.

Lemma oget_ok {A} (o : option A) e a :
  oget o e = Ok a <-> o = Some a.
Proof. destruct o; simpl; split; congruence. Qed.

(** Inversion of successful computations. *)
Ltac inv_ok1 :=
  match goal with
  | H : rbind _ _ = Ok _ |- _ =>
      apply rbind_ok in H; let a := fresh "v" in let E := fresh "E" in
      destruct H as (a & E & H)
  | H : require _ _ = Ok _ |- _ => apply require_ok in H
  | H : oget _ _ = Ok _ |- _ => apply oget_ok in H
  | H : Ok _ = Ok _ |- _ => injection H; clear H; intros; try subst
  | H : Err _ = Ok _ |- _ => discriminate H
  | H : panic _ = Ok _ |- _ => discriminate H
  end.
Ltac inv_ok := repeat inv_ok1.

(** Boolean comparisons to propositions. *)
Ltac bools :=
  repeat match goal with
  | H : andb _ _ = true |- _ => apply andb_prop in H; destruct H
  | H : negb _ = true |- _ => apply negb_true_iff in H
  | H : negb _ = false |- _ => apply negb_false_iff in H
  | H : (_ <=? _) = true |- _ => apply N.leb_le in H
  | H : (_ <=? _) = false |- _ => apply N.leb_gt in H
  | H : (_ <? _) = true |- _ => apply N.ltb_lt in H
  | H : (_ <? _) = false |- _ => apply N.ltb_ge in H
  | H : (_ =? _) = true |- _ => apply N.eqb_eq in H
  | H : (_ =? _) = false |- _ => apply N.eqb_neq in H
  | H : bool_decide _ = true |- _ => apply bool_decide_eq_true in H
  | H : bool_decide _ = false |- _ => apply bool_decide_eq_false in H
  end.
