(** contracts/halo-pair/src/contract.rs: entry points of a pair.

    [A] is the address Api, [Q] the querier, [self] env.contract.address,
    [st] the PAIR_INFO item (state.rs:4).  A handler returns the new PAIR_INFO
    and the Response.  cw2's contract version item is not modelled. *)
From Verif Require Import Base BigNumber CwStd Asset Messages PairMath.
Local Open Scope N_scope.

(** Display for Asset, asset.rs:17-21 *)
Definition asset_to_string (a : asset) : string :=
  (dec_to_string (a_amount a) ++ info_to_string (a_info a))%string.

(** Asset::into_msg, asset.rs:28-48 *)
Definition into_msg (a : asset) (recipient : string) : cmsg :=
  match a_info a with
  | Token t => MExecute t (JTransfer recipient (a_amount a)) []
  | Native d => MBankSend recipient [Coin d (a_amount a)]
  end.

Definition INSTANTIATE_REPLY_ID : N := 1.

(** instantiate, contract.rs:36-80.  The liquidity token is empty until the
    reply. *)
Definition pair_instantiate (A : api) (self : string)
    (asset_infos : asset_info * asset_info) (token_code_id : N)
    (asset_decimals : N * N) (reqs : requirements) : res (pair_info_raw * response) :=
  let* c := addr_canonicalize A self in
  let* r0 := info_to_raw A asset_infos.1 in
  let* r1 := info_to_raw A asset_infos.2 in
  Ok (PairInfoRaw (r0, r1) c "" asset_decimals reqs,
      Response
        [SubMsg (MInstantiate None token_code_id
                   (IToken (TokenInit "halo liquidity token" "uLP" 6 []
                              (Some (self, None)))) [] "lp")
                (ReplySuccess INSTANTIATE_REPLY_ID)] []).

(** reply, contract.rs:194-205.  parse_reply_instantiate_data yields the new
    contract's address; the reply id is not looked at by the code. *)
Definition pair_reply (A : api) (st : pair_info_raw) (new_addr : string)
  : res (pair_info_raw * response) :=
  let* c := addr_canonicalize A new_addr in
  Ok (PairInfoRaw (r_asset_infos st) (r_contract_addr st) c
        (r_asset_decimals st) (r_requirements st),
      Response [] [("liquidity_token_addr"%string, new_addr)]).

(** assets.iter().find(|a| a.info.equal(..)).map(amount).expect(..),
    contract.rs:229-238 *)
Definition deposit_of (assets : asset * asset) (i : asset_info) : res uint128 :=
  if info_equal (a_info assets.1) i then Ok (a_amount assets.1)
  else if info_equal (a_info assets.2) i then Ok (a_amount assets.2)
  else panic "Wrong asset info is given".

(** The body of the loop of contract.rs:246-262 for one asset: the messages it
    pushes and the pool amount it leaves. *)
Definition pull_deposit (self sender : string) (pool : asset) (deposit : uint128)
  : res (list cmsg * uint128) :=
  match a_info pool with
  | Token t => Ok ([MExecute t (JTransferFrom sender self deposit) []], a_amount pool)
  | Native _ => let* p := u128_checked_sub (a_amount pool) deposit in Ok ([], p)
  end.

(** provide_liquidity, contract.rs:208-340 *)
Definition provide_liquidity (A : api) (Q : querier) (self : string) (st : pair_info_raw)
    (sender : string) (funds : list coin) (assets : asset * asset)
    (slippage_tolerance : option decimal) (receiver : option string)
  : res (pair_info_raw * response) :=
  assert_sent_native assets.1 funds ;;;
  assert_sent_native assets.2 funds ;;;
  let* '(pool0, pool1) := query_pools A Q st self in
  let* d0 := deposit_of assets (a_info pool0) in
  let* d1 := deposit_of assets (a_info pool1) in
  let* '(m0, p0) := pull_deposit self sender pool0 d0 in
  let* '(m1, p1) := pull_deposit self sender pool1 d1 in
  assert_slippage_tolerance slippage_tolerance (d0, d1) (p0, p1) ;;;
  let* lp := addr_humanize A (r_liquidity_token st) in
  let* ti := q_token_info Q lp in
  let total_share := ti_total_supply ti in
  let* share :=
    if total_share =? 0 then
      require (bool_decide (sender ∈ whitelist (r_requirements st)))
        (EStd "the sender is not in whitelist") ;;;
      require (negb ((d0 <? first_asset_minimum (r_requirements st)) ||
                     (d1 <? second_asset_minimum (r_requirements st))))
        (EStd "the minimum deposit is not satisfied") ;;;
      initial_share d0 d1
    else later_share d0 d1 total_share p0 p1 in
  require (negb (share =? 0)) EInvalidZeroAmount ;;;
  let rcv := match receiver with Some r => r | None => sender end in
  let* lp' := addr_humanize A (r_liquidity_token st) in
  Ok (st, Response
       (map plain (m0 ++ m1 ++ [MExecute lp' (JMint rcv share) []]))
       [("action", "provide_liquidity"); ("sender", sender); ("receiver", rcv);
        ("assets", (asset_to_string assets.1 ++ ", " ++ asset_to_string assets.2)%string);
        ("share", dec_to_string share)]%string).

(** withdraw_liquidity, contract.rs:342-388 *)
Definition withdraw_liquidity (A : api) (Q : querier) (self : string) (st : pair_info_raw)
    (sender : string) (amount : uint128) : res (pair_info_raw * response) :=
  let* lp := addr_humanize A (r_liquidity_token st) in
  let* '(pool0, pool1) := query_pools A Q st self in
  let* ti := q_token_info Q lp in
  let* '(r0, r1) := refunds (a_amount pool0) (a_amount pool1) amount (ti_total_supply ti) in
  let refund0 := Asset (a_info pool0) r0 in
  let refund1 := Asset (a_info pool1) r1 in
  let* lp' := addr_humanize A (r_liquidity_token st) in
  Ok (st, Response
       (map plain [into_msg refund0 sender; into_msg refund1 sender;
                   MExecute lp' (JBurn amount) []])
       [("action", "withdraw_liquidity"); ("sender", sender);
        ("withdrawn_share", dec_to_string amount);
        ("refund_assets", (asset_to_string refund0 ++ ", " ++ asset_to_string refund1)%string)]%string).

(** swap, contract.rs:392-477 *)
Definition swap (A : api) (Q : querier) (self : string) (st : pair_info_raw)
    (funds : list coin) (sender : string) (offer : asset)
    (belief_price max_spread : option decimal) (to : option string)
  : res (pair_info_raw * response) :=
  assert_sent_native offer funds ;;;
  let* '(pool0, pool1) := query_pools A Q st self in
  let* '(offer_pool, ask_pool, offer_decimal, ask_decimal) :=
    if info_equal (a_info offer) (a_info pool0) then
      let* p := u128_checked_sub (a_amount pool0) (a_amount offer) in
      Ok (p, pool1, (r_asset_decimals st).1, (r_asset_decimals st).2)
    else if info_equal (a_info offer) (a_info pool1) then
      let* p := u128_checked_sub (a_amount pool1) (a_amount offer) in
      Ok (p, pool0, (r_asset_decimals st).2, (r_asset_decimals st).1)
    else Err EAssetMismatch in
  let* '(ret, spread, commission) :=
    compute_swap offer_pool (a_amount ask_pool) (a_amount offer) in
  assert_max_spread belief_price max_spread (a_amount offer) ret spread
    offer_decimal ask_decimal ;;;
  let rcv := match to with Some t => t | None => sender end in
  Ok (st, Response
       (if ret =? 0 then [] else [plain (into_msg (Asset (a_info ask_pool) ret) rcv)])
       [("action", "swap"); ("sender", sender); ("receiver", rcv);
        ("offer_asset", info_to_string (a_info offer));
        ("ask_asset", info_to_string (a_info ask_pool));
        ("offer_amount", dec_to_string (a_amount offer));
        ("return_amount", dec_to_string ret);
        ("spread_amount", dec_to_string spread);
        ("commission_amount", dec_to_string commission)]%string).

Definition is_token_at (i : asset_info) (a : string) : bool :=
  match i with Token t => bool_decide (t = a) | Native _ => false end.

(** receive_cw20, contract.rs:126-190.  A payload that is not one of the
    pair's two hooks does not decode. *)
Definition pair_receive (A : api) (Q : querier) (self : string) (st : pair_info_raw)
    (caller : string) (funds : list coin) (sender : string) (amount : uint128) (h : hook)
  : res (pair_info_raw * response) :=
  if negb (hook_ranges h) then Err EParse else
  match h with
  | HSwap belief_price max_spread to =>
      let* '(pool0, pool1) := query_pools A Q st self in
      require (is_token_at (a_info pool0) caller || is_token_at (a_info pool1) caller)
        EUnauthorized ;;;
      let* to' := match to with
                  | Some t => let* v := addr_validate A t in Ok (Some v)
                  | None => Ok None
                  end in
      swap A Q self st funds sender (Asset (Token caller) amount) belief_price max_spread to'
  | HWithdrawLiquidity =>
      let* c := addr_canonicalize A caller in
      require (bool_decide (c = r_liquidity_token st)) EUnauthorized ;;;
      let* s := addr_validate A sender in
      withdraw_liquidity A Q self st s amount
  | _ => Err EParse
  end.

(** execute, contract.rs:83-124.  ExecuteMsg (pair.rs:19-35) has exactly the
    tags receive and provide_liquidity; the swap tag is commented out. *)
Definition pair_execute (A : api) (Q : querier) (self : string) (st : pair_info_raw)
    (sender : string) (funds : list coin) (m : jmsg) : res (pair_info_raw * response) :=
  if negb (jmsg_ranges m) then Err EParse else
  match m with
  | JReceive s a h => pair_receive A Q self st sender funds s a h
  | JProvideLiquidity assets st' rcv =>
      provide_liquidity A Q self st sender funds assets st' rcv
  | _ => Err EParse
  end.

(** query_pair_info, contract.rs:493-498 *)
Definition pair_query_pair (A : api) (st : pair_info_raw) : res pair_info := pair_to_normal A st.

(** query_pool, contract.rs:500-516: assets and total share *)
Definition pair_query_pool (A : api) (Q : querier) (st : pair_info_raw)
  : res (asset * asset * uint128) :=
  let* self := addr_humanize A (r_contract_addr st) in
  let* '(pool0, pool1) := query_pools A Q st self in
  let* lp := addr_humanize A (r_liquidity_token st) in
  let* ti := q_token_info Q lp in
  Ok (pool0, pool1, ti_total_supply ti).

(** query_simulation, contract.rs:518-547 *)
Definition pair_query_simulation (A : api) (Q : querier) (st : pair_info_raw) (offer : asset)
  : res simulation :=
  if negb (u128_ok (a_amount offer)) then Err EParse else
  let* self := addr_humanize A (r_contract_addr st) in
  let* '(pool0, pool1) := query_pools A Q st self in
  let* '(offer_pool, ask_pool) :=
    if info_equal (a_info offer) (a_info pool0) then Ok (pool0, pool1)
    else if info_equal (a_info offer) (a_info pool1) then Ok (pool1, pool0)
    else Err EAssetMismatch in
  let* '(r, s, c) := compute_swap (a_amount offer_pool) (a_amount ask_pool) (a_amount offer) in
  Ok (Simulation r s c).

(** query_reverse_simulation, contract.rs:549-583 *)
Definition pair_query_reverse_simulation (A : api) (Q : querier) (st : pair_info_raw) (ask : asset)
  : res reverse_simulation :=
  if negb (u128_ok (a_amount ask)) then Err EParse else
  let* self := addr_humanize A (r_contract_addr st) in
  let* '(pool0, pool1) := query_pools A Q st self in
  let* '(offer_pool, ask_pool) :=
    if info_equal (a_info ask) (a_info pool0) then Ok (pool1, pool0)
    else if info_equal (a_info ask) (a_info pool1) then Ok (pool0, pool1)
    else Err EAssetMismatch in
  let* '(o, s, c) := compute_offer_amount (a_amount offer_pool) (a_amount ask_pool) (a_amount ask) in
  Ok (ReverseSimulation o s c).

(** migrate, contract.rs:793-798: only the cw2 version changes. *)
Definition pair_migrate (st : pair_info_raw) : res (pair_info_raw * response) :=
  Ok (st, Response [] []).
