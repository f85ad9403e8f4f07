(** The rest of packages/bignumber/src/math.rs: comparisons, zero tests,
    assignment operators, the remaining conversions and the JSON form. *)
From Verif Require Import Base BigNumber Json.
From Coq Require Import Ascii String.
Local Open Scope N_scope.

(** Derived PartialOrd / Ord of Decimal256 and Uint256, math.rs:13, 216: those of
    bigint's U256, which compares the limbs from the most significant down. *)
Definition u256_cmp (a b : u256) : comparison :=
  match limb 3 a ?= limb 3 b with
  | Eq => match limb 2 a ?= limb 2 b with
          | Eq => match limb 1 a ?= limb 1 b with
                  | Eq => limb 0 a ?= limb 0 b
                  | c => c
                  end
          | c => c
          end
  | c => c
  end.
(** is_zero, math.rs:56-58, 230-232: U256::is_zero looks at every limb. *)
Definition u256_is_zero (a : u256) : bool := (limb 0 a =? 0) && (limb 1 a =? 0) && (limb 2 a =? 0) && (limb 3 a =? 0).
Definition d256_is_zero (a : decimal256) : bool := u256_is_zero a.
Definition ui256_is_zero (a : uint256) : bool := u256_is_zero a.
(** MAX, math.rs:17 (U256::MAX has all bits set); Uint256::zero, math.rs:221-223;
    the derived Default is zero. *)
Definition d256_max : decimal256 := of_limbs (B64 - 1) (B64 - 1) (B64 - 1) (B64 - 1).
Definition ui256_zero : uint256 := of_limbs 0 0 0 0.
(** AddAssign, math.rs:142-146, 330-334: the new value of the left side. *)
Definition d256_add_assign (self rhs : decimal256) : res decimal256 := u256_add self rhs.
Definition ui256_add_assign (self rhs : uint256) : res uint256 := u256_add self rhs.
(** From<U256>, From<Uint256> for U256, From<u64>, math.rs:235-245, 265-269. *)
Definition ui256_from_u256 (v : u256) : uint256 := v.
Definition ui256_to_u256 (v : uint256) : u256 := v.
Definition ui256_from_u64 (v : N) : uint256 := of_limbs v 0 0 0.

(** Serialize, math.rs:176-183, 414-421: a JSON string with the printed text. *)
Definition d256_to_json (d : decimal256) : string := render (VStr (d256_to_string d)).
Definition ui256_to_json (n : uint256) : string := render (VStr (ui256_to_string n)).
(** Deserialize, math.rs:186-213, 424-451: only strings are visited. The error text
    is not kept; a panic of the parser (Decimal256 overflow) stays a panic. *)
Definition d256_visit (v : json) : res decimal256 :=
  match v with
  | VStr s => match d256_from_str s with Ok d => Ok d | Err (EPanic m) => Err (EPanic m) | Err _ => Err EParse end
  | _ => Err EParse
  end.
Definition ui256_visit (v : json) : res uint256 :=
  match v with
  | VStr s => match u256_from_dec_str s with Some n => Ok n | None => Err EParse end
  | _ => Err EParse
  end.
Definition d256_from_json (b : string) : res decimal256 := match parse b with Some v => d256_visit v | None => Err EParse end.
Definition ui256_from_json (b : string) : res uint256 := match parse b with Some v => ui256_visit v | None => Err EParse end.
