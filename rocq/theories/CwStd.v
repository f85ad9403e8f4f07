(** The parts of cosmwasm-std 1.1.8 that the contracts call: Uint128, Decimal,
    and the address Api.  This file is a transcription of library behaviour and
    part of the trusted base (see DESIGN.md). *)
From Verif Require Import Base BigNumber.
From Coq Require Import Ascii String.
Local Open Scope N_scope.

Definition uint128 := N.
Definition decimal := N.    (* atomics: value * 10^18, below 2^128 *)

(** ** Uint128 *)

(** [+] and [*] panic on overflow (Uint128's operators are checked). *)
Definition u128_add (a b : uint128) : res uint128 :=
  if a + b <? B128 then Ok (a + b) else panic "attempt to add with overflow".
Definition u128_mul (a b : uint128) : res uint128 :=
  if a * b <? B128 then Ok (a * b) else panic "attempt to multiply with overflow".

(** checked_sub / checked_mul return OverflowError. *)
Definition u128_checked_sub (a b : uint128) : res uint128 :=
  if b <=? a then Ok (a - b) else Err EOverflow.
Definition u128_checked_mul (a b : uint128) : res uint128 :=
  if a * b <? B128 then Ok (a * b) else Err EOverflow.

(** Uint128::multiply_ratio(nom, denom): 256-bit product, floor division;
    panics on a zero denominator and when the result exceeds 128 bits. *)
Definition u128_multiply_ratio (a nom denom : uint128) : res uint128 :=
  if denom =? 0 then panic "Denominator must not be zero"
  else if a * nom / denom <? B128 then Ok (a * nom / denom)
  else panic "Multiplication overflow".

(** ** Decimal *)

(** Uint128 * Decimal: zero if either is zero, else
    multiply_ratio(d.atomics, 10^18). *)
Definition u128_mul_dec (a : uint128) (d : decimal) : res uint128 :=
  if (a =? 0) || (d =? 0) then Ok 0 else u128_multiply_ratio a d D18.

(** Decimal::from_ratio: floor(nom * 10^18 / denom); panics on zero
    denominator or overflow. *)
Definition dec_from_ratio (nom denom : uint128) : res decimal :=
  if denom =? 0 then panic "Denominator must not be zero"
  else if nom * D18 / denom <? B128 then Ok (nom * D18 / denom)
  else panic "Multiplication overflow".

(** Display for Decimal: the same algorithm as Decimal256's Display. *)
Definition dec_display (d : decimal) : string := d256_to_string d.

(** str::parse::<u128>: an optional leading plus sign, then at least one
    digit, no overflow. *)
Fixpoint u128_from_dec (acc : N) (s : string) : option uint128 :=
  match s with
  | EmptyString => Some acc
  | String c r =>
      if is_digit c then
        if acc * 10 + digit_val c <? B128
        then u128_from_dec (acc * 10 + digit_val c) r else None
      else None
  end.
Definition u128_parse (s : string) : option uint128 :=
  match s with
  | EmptyString => None
  | String c r =>
      if Ascii.eqb c "+" then
        match r with EmptyString => None | _ => u128_from_dec 0 r end
      else u128_from_dec 0 s
  end.

(** FromStr for Decimal. *)
Definition dec_from_str (s : string) : res decimal :=
  match split_dot s with
  | [] => Err (EStd "unreachable: split yields at least one part")
  | w :: rest =>
      match u128_parse w with
      | None => Err (EStd "Error parsing whole")
      | Some whole =>
          if whole * D18 <? B128 then
            match rest with
            | [] => Ok (whole * D18)
            | f :: rest' =>
                match u128_parse f with
                | None => Err (EStd "Error parsing fractional")
                | Some fractional =>
                    if (String.length f <=? 18)%nat then
                      let fr := fractional * 10 ^ N.of_nat (18 - String.length f) in
                      if whole * D18 + fr <? B128 then
                        match rest' with
                        | [] => Ok (whole * D18 + fr)
                        | _ => Err (EStd "Unexpected number of dots")
                        end
                      else Err (EStd "Value too big")
                    else Err (EStd "Cannot parse more than 18 fractional digits")
                end
            end
          else Err (EStd "Value too big")
      end
  end.

(** From<Decimal> for Decimal256 (packages/bignumber/src/math.rs:61-65):
    through text, then unwrap. *)
Definition d256_from_decimal (d : decimal) : res decimal256 :=
  match d256_from_str (dec_display d) with
  | Ok v => Ok v
  | Err _ => panic "called Result::unwrap() on an Err value"
  end.

(** From<Decimal256> for Decimal (packages/bignumber/src/math.rs:67-74). *)
Definition d256_to_decimal (n : decimal256) : res decimal :=
  if limb 2 n =? 0 then
    if limb 3 n =? 0 then
      match dec_from_str (d256_to_string n) with
      | Ok v => Ok v
      | Err _ => panic "called Result::unwrap() on an Err value"
      end
    else panic "assertion failed: arr[3] == 0u64"
  else panic "assertion failed: arr[2] == 0u64".

(** ** Addresses *)

(** The Api host functions.  [None] is an error.  addr_validate is derived
    from them as in cosmwasm-vm 1.1: canonicalize, humanize, compare. *)
Record api := {
  canon : string -> option string;
  human : string -> option string;
}.

Definition addr_canonicalize (A : api) (s : string) : res string :=
  oget (canon A s) (EStd "Invalid input: address not canonicalizable").
Definition addr_humanize (A : api) (c : string) : res string :=
  oget (human A c) (EStd "Invalid canonical address").

(** The normalized spelling of an address. *)
Definition norm (A : api) (s : string) : option string :=
  match canon A s with Some c => human A c | None => None end.

Definition addr_validate (A : api) (s : string) : res string :=
  let* c := addr_canonicalize A s in
  let* h := addr_humanize A c in
  if bool_decide (h = s) then Ok s
  else Err (EStd "Invalid input: address not normalized").
