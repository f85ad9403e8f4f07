(** Specifications, stated without reference to the model's helper functions.
    Only the basic types of [Base.v] are used here. *)
From Verif Require Import Base.
From Coq Require Import Ascii String.
Local Open Scope N_scope.

(** [exact_or_abort r P v]: the call answers exactly [v] when [P] holds and
    panics (aborts) when it does not; it never answers anything else. *)
Definition exact_or_abort (r : res N) (P : Prop) (v : N) : Prop :=
  (P -> r = Ok v) /\ (~ P -> exists msg, r = Err (EPanic msg)).

(** [dec_text s n]: [s] consists of decimal digits (possibly none) and reads as
    the number [n], most significant digit first. *)
Inductive dec_text : string -> N -> Prop :=
| dt_nil : dec_text "" 0
| dt_snoc s n d : dec_text s n -> d < 10 ->
    dec_text (s ++ String (ascii_of_N (48 + d)) "")%string (10 * n + d).

(** [decimal_text s v]: [s] is a decimal text digits or digits.digits with at
    most 18 fractional digits, and 10^18 times its value is [v]. *)
Inductive decimal_text : string -> N -> Prop :=
| dct_whole w n : dec_text w n -> decimal_text w (n * 10 ^ 18)
| dct_frac w n f m : dec_text w n -> dec_text f m -> (String.length f <= 18)%nat ->
    decimal_text (w ++ String "." f)%string
                 (n * 10 ^ 18 + m * 10 ^ (18 - N.of_nat (String.length f))).
