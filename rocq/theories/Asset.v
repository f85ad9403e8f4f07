(** packages/haloswap/src/asset.rs and querier.rs. *)
From Verif Require Import Base CwStd.
Local Open Scope N_scope.

(** cosmwasm_std::Coin *)
Record coin := Coin { c_denom : string; c_amount : uint128 }.

(** asset.rs:101-105 *)
Inductive asset_info := Token (contract_addr : string) | Native (denom : string).
(** asset.rs:11-15 *)
Record asset := Asset { a_info : asset_info; a_amount : uint128 }.
(** asset.rs:206-210; CanonicalAddr is a byte string *)
Inductive asset_info_raw := TokenRaw (contract_addr : string) | NativeRaw (denom : string).

(** asset.rs:92-97 *)
Record requirements := Requirements {
  whitelist : list string;
  first_asset_minimum : uint128;
  second_asset_minimum : uint128;
}.

(** asset.rs:254-270; the two-element arrays are pairs *)
Record pair_info := PairInfo {
  p_asset_infos : asset_info * asset_info;
  p_contract_addr : string;
  p_liquidity_token : string;
  p_asset_decimals : N * N;
  p_requirements : requirements;
}.
Record pair_info_raw := PairInfoRaw {
  r_asset_infos : asset_info_raw * asset_info_raw;
  r_contract_addr : string;
  r_liquidity_token : string;
  r_asset_decimals : N * N;
  r_requirements : requirements;
}.

Global Instance coin_eq_dec : EqDecision coin.
Proof. solve_decision. Defined.
Global Instance asset_info_eq_dec : EqDecision asset_info.
Proof. solve_decision. Defined.
Global Instance asset_eq_dec : EqDecision asset.
Proof. solve_decision. Defined.
Global Instance asset_info_raw_eq_dec : EqDecision asset_info_raw.
Proof. solve_decision. Defined.
Global Instance requirements_eq_dec : EqDecision requirements.
Proof. solve_decision. Defined.
Global Instance pair_info_eq_dec : EqDecision pair_info.
Proof. solve_decision. Defined.
Global Instance pair_info_raw_eq_dec : EqDecision pair_info_raw.
Proof. solve_decision. Defined.

(** Display, asset.rs:107-114 *)
Definition info_to_string (i : asset_info) : string :=
  match i with Native d => d | Token a => a end.

(** AssetInfo::to_raw, asset.rs:117-126 *)
Definition info_to_raw (A : api) (i : asset_info) : res asset_info_raw :=
  match i with
  | Native d => Ok (NativeRaw d)
  | Token a => let* c := addr_canonicalize A a in Ok (TokenRaw c)
  end.

(** AssetInfoRaw::to_normal, asset.rs:213-222 *)
Definition raw_to_normal (A : api) (r : asset_info_raw) : res asset_info :=
  match r with
  | NativeRaw d => Ok (Native d)
  | TokenRaw c => let* h := addr_humanize A c in Ok (Token h)
  end.

(** AssetInfoRaw::as_bytes, asset.rs:224-229 *)
Definition raw_bytes (r : asset_info_raw) : string :=
  match r with NativeRaw d => d | TokenRaw c => c end.

(** AssetInfo::equal, asset.rs:152-169 *)
Definition info_equal (a b : asset_info) : bool :=
  match a, b with
  | Token x, Token y => bool_decide (x = y)
  | Native x, Native y => bool_decide (x = y)
  | _, _ => false
  end.

(** assert_sent_native_token_balance, asset.rs:54-75: the first coin with the
    asset's denom decides; no such coin counts as zero. *)
Fixpoint find_coin (d : string) (funds : list coin) : option coin :=
  match funds with
  | [] => None
  | c :: r => if bool_decide (c_denom c = d) then Some c else find_coin d r
  end.
Definition assert_sent_native (a : asset) (funds : list coin) : res unit :=
  match a_info a with
  | Token _ => Ok tt
  | Native d =>
      match find_coin d funds with
      | Some c => if a_amount a =? c_amount c then Ok tt
                  else Err (EStd "Native token balance mismatch between the argument and the transferred")
      | None => if a_amount a =? 0 then Ok tt
                else Err (EStd "Native token balance mismatch between the argument and the transferred")
      end
  end.

(** PairInfoRaw::to_normal, asset.rs:273-284 *)
Definition pair_to_normal (A : api) (p : pair_info_raw) : res pair_info :=
  let* lp := addr_humanize A (r_liquidity_token p) in
  let* ca := addr_humanize A (r_contract_addr p) in
  let* i0 := raw_to_normal A (r_asset_infos p).1 in
  let* i1 := raw_to_normal A (r_asset_infos p).2 in
  Ok (PairInfo (i0, i1) ca lp (r_asset_decimals p) (r_requirements p)).

(** cw20 TokenInfoResponse *)
Record token_info := TokenInfo {
  ti_name : string; ti_symbol : string; ti_decimals : N; ti_total_supply : uint128 }.

(** pair.rs:71-84: SimulationResponse and ReverseSimulationResponse. *)
Record simulation := Simulation {
  s_return : uint128; s_spread : uint128; s_commission : uint128 }.
Record reverse_simulation := ReverseSimulation {
  rs_offer : uint128; rs_spread : uint128; rs_commission : uint128 }.

(** QuerierWrapper as the typed queries of querier.rs: query_balance 12-23,
    query_token_balance 34-48, query_token_info 50-60, query_native_decimals
    62-73, query_pair_info 75-86, simulate 88-99, reverse_simulate 101-112,
    query_pair_info_from_pair 114-124.  The JSON of requests and
    responses is in QueryWire.v; query_all_balances is unused. *)
Record querier := Querier {
  q_balance : string -> string -> res uint128;                 (* account, denom *)
  q_token_balance : string -> string -> res uint128;           (* token, account *)
  q_token_info : string -> res token_info;                     (* token *)
  q_native_decimals : string -> string -> res N;               (* factory, denom *)
  q_pair_info : string -> asset_info * asset_info -> res pair_info; (* factory *)
  q_simulate : string -> asset -> res simulation;              (* pair *)
  q_reverse_simulate : string -> asset -> res reverse_simulation;
  q_pair_self : string -> res pair_info;                       (* pair *)
}.

(** AssetInfo::query_pool, asset.rs:134-150 *)
Definition query_pool (A : api) (Q : querier) (i : asset_info) (pool : string) : res uint128 :=
  match i with
  | Token a => let* v := addr_validate A a in q_token_balance Q v pool
  | Native d => q_balance Q pool d
  end.

(** AssetInfo::query_decimals, asset.rs:171-181 *)
Definition query_decimals (Q : querier) (i : asset_info) (account : string) : res N :=
  match i with
  | Native d => q_native_decimals Q account d
  | Token a => let* t := q_token_info Q a in Ok (ti_decimals t)
  end.

(** PairInfoRaw::query_pools, asset.rs:286-304 *)
Definition query_pools (A : api) (Q : querier) (p : pair_info_raw) (self : string)
  : res (asset * asset) :=
  let* i0 := raw_to_normal A (r_asset_infos p).1 in
  let* i1 := raw_to_normal A (r_asset_infos p).2 in
  let* a0 := query_pool A Q i0 self in
  let* a1 := query_pool A Q i1 self in
  Ok (Asset i0 a0, Asset i1 a1).
