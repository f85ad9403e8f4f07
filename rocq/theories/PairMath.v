(** The pure computations of contracts/halo-pair/src/contract.rs. *)
From Verif Require Import Base BigNumber CwStd.
Local Open Scope N_scope.

(** COMMISSION_RATE, contract.rs:34, parsed by Decimal256::from_str(..).unwrap()
    at 605 and 657. *)
Definition commission_rate : res decimal256 := d256_from_str "0.003".

(** compute_swap, contract.rs:595-634.  Evaluation order as in the code:
    cp; from_uint256(ask_pool); offer_pool + offer_amount; from_ratio; Sub;
    Mul<Uint256>; then spread; then commission; then the three conversions.
    Result (return, spread, commission). *)
Definition compute_swap (offer_pool ask_pool offer_amount : uint128)
  : res (uint128 * uint128 * uint128) :=
  let offer_pool := ui256_from_u128 offer_pool in
  let ask_pool := ui256_from_u128 ask_pool in
  let offer_amount := ui256_from_u128 offer_amount in
  let* rate := commission_rate in
  let* cp := ui256_mul offer_pool ask_pool in
  let* ask_dec := d256_from_uint256 ask_pool in
  let* n := ui256_add offer_pool offer_amount in
  let* ratio := d256_from_ratio cp n in
  let* diff := d256_sub ask_dec ratio in
  let* gross := ui256_mul_dec ui256_one diff in
  let* price := d256_from_ratio ask_pool offer_pool in
  let* ideal := ui256_mul_dec offer_amount price in
  let* spread := ui256_sub ideal gross in
  let* commission := ui256_mul_dec gross rate in
  let* ret := ui256_sub gross commission in
  let* ret' := ui256_to_u128 ret in
  let* spread' := ui256_to_u128 spread in
  let* commission' := ui256_to_u128 commission in
  Ok (ret', spread', commission').

(** compute_offer_amount, contract.rs:648-688.
    Result (offer, spread, commission). *)
Definition compute_offer_amount (offer_pool ask_pool ask_amount : uint128)
  : res (uint128 * uint128 * uint128) :=
  let offer_pool := ui256_from_u128 offer_pool in
  let ask_pool := ui256_from_u128 ask_pool in
  let ask_amount := ui256_from_u128 ask_amount in
  let* rate := commission_rate in
  let* cp := ui256_mul offer_pool ask_pool in
  let* omc := d256_sub d256_one rate in
  let* inv := d256_div d256_one omc in
  let* gross_ask := ui256_mul_dec ask_amount inv in
  let* den := ui256_sub ask_pool gross_ask in
  let* q := ui256_multiply_ratio ui256_one cp den in
  let* offer := ui256_sub q offer_pool in
  let* before_commission := ui256_mul_dec ask_amount inv in
  let* price := d256_from_ratio ask_pool offer_pool in
  let* before_spread := ui256_mul_dec offer price in
  let* spread :=
    if before_commission <? before_spread
    then ui256_sub before_spread before_commission else Ok 0 in
  let* commission := ui256_mul_dec before_commission rate in
  let* offer' := ui256_to_u128 offer in
  let* spread' := ui256_to_u128 spread in
  let* commission' := ui256_to_u128 commission in
  Ok (offer', spread', commission').

(** 10u64.pow(d), contract.rs:705 and 719: panics on overflow
    (overflow-checks = true in Cargo.toml). *)
Definition pow10_u64 (d : N) : res N :=
  if 10 ^ d <? B64 then Ok (10 ^ d) else panic "attempt to multiply with overflow".

(** The decimals normalisation of assert_max_spread, contract.rs:702-735.
    Result (offer, return, spread). *)
Definition normalize_decimals (offer_amount return_amount spread_amount : uint128)
    (offer_decimal return_decimal : N) : res (uint256 * uint256 * uint256) :=
  if return_decimal <? offer_decimal then
    let* diff := pow10_u64 (offer_decimal - return_decimal) in
    let* r := u128_checked_mul return_amount diff in
    let* s := u128_checked_mul spread_amount diff in
    Ok (ui256_from_u128 offer_amount, ui256_from_u128 r, ui256_from_u128 s)
  else if offer_decimal <? return_decimal then
    let* diff := pow10_u64 (return_decimal - offer_decimal) in
    let* o := u128_checked_mul offer_amount diff in
    Ok (ui256_from_u128 o, ui256_from_u128 return_amount, ui256_from_u128 spread_amount)
  else Ok (ui256_from_u128 offer_amount, ui256_from_u128 return_amount, ui256_from_u128 spread_amount).

(** assert_max_spread, contract.rs:693-761.  The assets' infos are not used by
    the code. *)
Definition assert_max_spread (belief_price max_spread : option decimal)
    (offer_amount return_amount spread_amount : uint128)
    (offer_decimal return_decimal : N) : res unit :=
  let* '(oa, ra, sa) :=
    normalize_decimals offer_amount return_amount spread_amount offer_decimal return_decimal in
  match max_spread, belief_price with
  | Some ms, Some bp =>
      let* bp := d256_from_decimal bp in
      let* ms := d256_from_decimal ms in
      let* expected := ui256_div_dec oa bp in
      let* spread := if ra <? expected then ui256_sub expected ra else Ok 0 in
      if ra <? expected then
        let* ratio := d256_from_ratio spread expected in
        if ms <? ratio then Err EMaxSpread else Ok tt
      else Ok tt
  | Some ms, None =>
      let* ms := d256_from_decimal ms in
      let* total := ui256_add ra sa in
      let* ratio := d256_from_ratio sa total in
      if ms <? ratio then Err EMaxSpread else Ok tt
  | None, _ => Ok tt
  end.

(** assert_slippage_tolerance, contract.rs:763-791.  [||] is lazy. *)
Definition assert_slippage_tolerance (slippage_tolerance : option decimal)
    (deposits pools : uint128 * uint128) : res unit :=
  match slippage_tolerance with
  | None => Ok tt
  | Some st =>
      let* st := d256_from_decimal st in
      if d256_one <? st then Err (EStd "slippage_tolerance cannot bigger than 1")
      else
        let* omst := d256_sub d256_one st in
        let d0 := ui256_from_u128 deposits.1 in
        let d1 := ui256_from_u128 deposits.2 in
        let p0 := ui256_from_u128 pools.1 in
        let p1 := ui256_from_u128 pools.2 in
        let* a := d256_from_ratio d0 d1 in
        let* a' := d256_mul a omst in
        let* b := d256_from_ratio p0 p1 in
        if b <? a' then Err EMaxSlippage
        else
          let* c := d256_from_ratio d1 d0 in
          let* c' := d256_mul c omst in
          let* d := d256_from_ratio p1 p0 in
          if d <? c' then Err EMaxSlippage else Ok tt
  end.

(** The first-deposit share, contract.rs:297: u128 product (panics on
    overflow), then integer_sqrt (floor). *)
Definition initial_share (d0 d1 : uint128) : res uint128 :=
  let* p := u128_mul d0 d1 in Ok (N.sqrt p).

(** The later-deposit share, contract.rs:305-308. *)
Definition later_share (d0 d1 total_share pool0 pool1 : uint128) : res uint128 :=
  let* s0 := u128_multiply_ratio d0 total_share pool0 in
  let* s1 := u128_multiply_ratio d1 total_share pool1 in
  Ok (N.min s0 s1).

(** Refunds, contract.rs:355-362. *)
Definition refunds (pool0 pool1 amount total_share : uint128) : res (uint128 * uint128) :=
  let* ratio := dec_from_ratio amount total_share in
  let* r0 := u128_mul_dec pool0 ratio in
  let* r1 := u128_mul_dec pool1 ratio in
  Ok (r0, r1).
