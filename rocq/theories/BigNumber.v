(** packages/bignumber/src/math.rs: Decimal256 and Uint256 over bigint::U256.

    A U256 is an [N] below 2^256; its four 64-bit limbs (least significant
    first, as in bigint::U256([u64; 4])) are [limb 0..3].  Decimal256(u) and
    Uint256(u) are newtypes around U256 in Rust; both are [N] here and the
    function names keep them apart.  bigint 4.4.3's operators panic with
    "arithmetic operation overflow" on overflow (the tests at
    packages/bignumber/src/math.rs:600-760 rely on it) and on division by
    zero; those are the [u256_*] functions below. *)
From Verif Require Import Base.
From Coq Require Import Ascii String.
Local Open Scope N_scope.

Definition u256 := N.
Definition decimal256 := N.   (* atomics: value * 10^18 *)
Definition uint256 := N.

(** bigint::U256 operators. *)
Definition u256_add (a b : u256) : res u256 :=
  if a + b <? B256 then Ok (a + b) else panic "arithmetic operation overflow".
Definition u256_sub (a b : u256) : res u256 :=
  if b <=? a then Ok (a - b) else panic "arithmetic operation overflow".
Definition u256_mul (a b : u256) : res u256 :=
  if a * b <? B256 then Ok (a * b) else panic "arithmetic operation overflow".
Definition u256_div (a b : u256) : res u256 :=
  if b =? 0 then panic "division by zero" else Ok (a / b).

(** U256([u64; 4]) limbs, least significant first. *)
Definition limb (i : N) (n : u256) : N := (n / B64 ^ i) mod B64.
Definition of_limbs (l0 l1 l2 l3 : N) : u256 :=
  l0 + B64 * (l1 + B64 * (l2 + B64 * l3)).

(** ** Decimal text *)

(** A decimal digit as a character. *)
Definition digit_char (d : N) : ascii := ascii_of_N (48 + d).
Definition is_digit (c : ascii) : bool :=
  (48 <=? N_of_ascii c) && (N_of_ascii c <=? 57).
Definition digit_val (c : ascii) : N := N_of_ascii c - 48.

(** U256's and u128's Display: decimal digits without leading zeros, zero is
    the single digit 0.  [fuel] bounds the number of digits; the caller passes
    enough. *)
Fixpoint dec_digits (fuel : nat) (n : N) (acc : string) : string :=
  match fuel with
  | O => acc
  | S f =>
      let acc' := String (digit_char (n mod 10)) acc in
      if n / 10 =? 0 then acc' else dec_digits f (n / 10) acc'
  end.
Definition dec_to_string (n : N) : string := dec_digits (S (N.size_nat n)) n "".

(** bigint U256::from_dec_str: all bytes must be digits; the empty string is
    zero; overflow is an error.  [None] is any FromDecStrErr. *)
Fixpoint u256_from_dec (acc : N) (s : string) : option u256 :=
  match s with
  | EmptyString => Some acc
  | String c r =>
      if is_digit c then
        if acc * 10 <? B256 then
          if acc * 10 + digit_val c <? B256
          then u256_from_dec (acc * 10 + digit_val c) r else None
        else None
      else None
  end.
Definition u256_from_dec_str (s : string) : option u256 := u256_from_dec 0 s.

(** str::split('.'). *)
Fixpoint split_dot (s : string) : list string :=
  match s with
  | EmptyString => [EmptyString]
  | String c r =>
      if Ascii.eqb c "." then EmptyString :: split_dot r
      else match split_dot r with
           | [] => [String c EmptyString]
           | h :: t => String c h :: t
           end
  end.

(** "0".repeat(n) *)
Fixpoint zeros (n : nat) : string :=
  match n with O => EmptyString | S k => String "0" (zeros k) end.

(** str::trim_end_matches('0') *)
Fixpoint trim_end0 (s : string) : string :=
  match s with
  | EmptyString => EmptyString
  | String c r =>
      match trim_end0 r with
      | EmptyString => if Ascii.eqb c "0" then EmptyString else String c EmptyString
      | r' => String c r'
      end
  end.

(** ** Decimal256, math.rs:14-213 *)

(** one / zero, math.rs:21-28. *)
Definition d256_one : decimal256 := D18.
Definition d256_zero : decimal256 := 0.

(** percent / permille, math.rs:31-38. The argument is a u64. *)
Definition d256_percent (x : N) : res decimal256 := u256_mul x 10000000000000000.
Definition d256_permille (x : N) : res decimal256 := u256_mul x 1000000000000000.

(** from_ratio, math.rs:41-49. *)
Definition d256_from_ratio (nom denom : u256) : res decimal256 :=
  if denom =? 0 then panic "Denominator must not be zero"
  else let* x := u256_mul nom D18 in u256_div x denom.

(** from_uint256, math.rs:51-54. *)
Definition d256_from_uint256 (v : uint256) : res decimal256 := u256_mul v D18.

(** FromStr, math.rs:84-111.  18usize.checked_sub(len) is evaluated after both
    parts were parsed; U256::pow of 10 up to 18 cannot overflow. *)
Definition d256_from_str (s : string) : res decimal256 :=
  match split_dot s with
  | [w] =>
      match u256_from_dec_str w with
      | None => Err (EStd "Error parsing whole")
      | Some whole => u256_mul whole D18
      end
  | [w; f] =>
      match u256_from_dec_str w with
      | None => Err (EStd "Error parsing whole")
      | Some whole =>
          match u256_from_dec_str f with
          | None => Err (EStd "Error parsing fractional")
          | Some fractional =>
              if (String.length f <=? 18)%nat then
                let fractional_factor := 10 ^ N.of_nat (18 - String.length f) in
                let* whole_as_atomics := u256_mul whole D18 in
                let* fr := u256_mul fractional fractional_factor in
                u256_add whole_as_atomics fr
              else Err (EStd "Cannot parse more than 18 fractional digits")
          end
      end
  | _ => Err (EStd "Unexpected number of dots")
  end.

(** Display, math.rs:115-131. 18 - len cannot underflow because the
    fractional part is below 10^18. *)
Definition d256_to_string (d : decimal256) : string :=
  let whole := d / D18 in
  let fractional := d mod D18 in
  if fractional =? 0 then dec_to_string whole
  else
    let fs := dec_to_string fractional in
    let fs := (zeros (18 - String.length fs) ++ fs)%string in
    (dec_to_string whole ++ String "." (trim_end0 fs))%string.

(** Add / Sub / Mul / Div, math.rs:134-173. *)
Definition d256_add (a b : decimal256) : res decimal256 := u256_add a b.
Definition d256_sub (a b : decimal256) : res decimal256 :=
  if b <=? a then u256_sub a b else panic "assertion failed: self.0 >= rhs.0".
Definition d256_mul (a b : decimal256) : res decimal256 :=
  let* x := u256_mul a b in u256_div x D18.
Definition d256_div (a b : decimal256) : res decimal256 :=
  if b =? 0 then panic "assertion failed: !rhs.is_zero()"
  else let* x := u256_mul a D18 in u256_div x b.

(** ** Uint256, math.rs:215-411 *)

Definition ui256_one : uint256 := 1.

(** split_u128 and From<u128>, math.rs:248-263: U256([low, hi, 0, 0]). *)
Definition split_u128 (a : N) : N * N := (N.shiftr a 64, N.land a 18446744073709551615).
Definition ui256_from_u128 (v : N) : uint256 :=
  let '(hi, low) := split_u128 v in of_limbs low hi 0 0.

(** From<Uint256> for u128 / Uint128, math.rs:298-314. *)
Definition ui256_to_u128 (n : uint256) : res N :=
  if limb 2 n =? 0 then
    if limb 3 n =? 0 then Ok (N.shiftl (limb 1 n) 64 + limb 0 n)
    else panic "assertion failed: arr[3] == 0u64"
  else panic "assertion failed: arr[2] == 0u64".

(** Add / Sub, math.rs:322-343. *)
Definition ui256_add (a b : uint256) : res uint256 := u256_add a b.
Definition ui256_sub (a b : uint256) : res uint256 :=
  if b <=? a then u256_sub a b else panic "assertion failed: self.0 >= rhs.0".

(** Mul<Uint256>, math.rs:345-357. *)
Definition ui256_mul (a b : uint256) : res uint256 :=
  if (a =? 0) || (b =? 0) then Ok 0 else u256_mul a b.

(** multiply_ratio, math.rs:398-411. *)
Definition ui256_multiply_ratio (a nom denom : u256) : res uint256 :=
  if denom =? 0 then panic "Denominator must not be zero"
  else let* x := u256_mul a nom in u256_div x denom.

(** Mul<Decimal256>, math.rs:362-374 (and Decimal256 * Uint256, 390-396). *)
Definition ui256_mul_dec (a : uint256) (d : decimal256) : res uint256 :=
  if (a =? 0) || (d =? 0) then Ok 0 else ui256_multiply_ratio a d D18.

(** Div<Decimal256>, math.rs:376-388. *)
Definition ui256_div_dec (a : uint256) (d : decimal256) : res uint256 :=
  if d =? 0 then panic "assertion failed: !rhs.is_zero()"
  else if a =? 0 then Ok 0
  else ui256_multiply_ratio a D18 d.

(** TryFrom<&str> / FromStr, math.rs:271-290. *)
Definition ui256_from_str (s : string) : res uint256 :=
  match u256_from_dec_str s with
  | Some n => Ok n
  | None => Err (EStd "Error parsing number")
  end.

(** Display / From<Uint256> for String, math.rs:292-296, 316-320. *)
Definition ui256_to_string (n : uint256) : string := dec_to_string n.
