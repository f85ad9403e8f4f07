(** The read-only entry points of the contracts with their JSON: the query
    messages and answers of packages/haloswap/src/{pair,factory,router}.rs and of
    cw20 1.0.0, in the same serde conventions as Wire.v; the query functions of
    the four contracts; and a smart query, from bytes to bytes.

    Not modelled: the token's MarketingInfo and DownloadLogo, and the JSON of
    QueryRequest around a smart query, which the chain and not a contract
    reads. *)
From Verif Require Import Base BigNumber CwStd Asset Messages PairMath Pair Token TokenQueries Factory Router World Json Wire.
From Coq Require Import Ascii String.
Local Open Scope N_scope.

(** ** Queries: pair.rs:50-61, factory.rs:37-51, router.rs:63-78 and cw20 1.0.0
    Cw20QueryMsg.  Pair without arguments is the pair's own (QSelf), with assets
    the factory's; Config belongs to factory and router. *)
Inductive qmsg :=
| QSelf
| QPool
| QSimulation (offer : asset)
| QReverseSimulation (ask : asset)
| QConfig
| QPair (infos : asset_info * asset_info)
| QPairs (start : option (asset_info * asset_info)) (limit : option N)
| QNativeTokenDecimals (denom : string)
| QSimulateOps (offer : uint128) (ops : list swap_op)
| QReverseSimulateOps (ask : uint128) (ops : list swap_op)
| QBalance (address : string)
| QTokenInfo
| QMinter
| QAllowance (owner spender : string)
| QAllAllowances (owner : string) (start : option string) (limit : option N)
| QAllAccounts (start : option string) (limit : option N).

Definition w_query (q : qmsg) : json :=
  let tag t l := VObj [(t, VObj l)] in
  match q with
  | QSelf => tag "pair" []
  | QPool => tag "pool" []
  | QSimulation a => tag "simulation" [("offer_asset", w_asset a)]
  | QReverseSimulation a => tag "reverse_simulation" [("ask_asset", w_asset a)]
  | QConfig => tag "config" []
  | QPair i => tag "pair" [("asset_infos", w_two w_info i)]
  | QPairs s l => tag "pairs" [("start_after", w_opt (w_two w_info) s); ("limit", w_opt w_num l)]
  | QNativeTokenDecimals d => tag "native_token_decimals" [("denom", w_str d)]
  | QSimulateOps n ops => tag "simulate_swap_operations" [("offer_amount", w_u128 n); ("operations", w_list w_op ops)]
  | QReverseSimulateOps n ops => tag "reverse_simulate_swap_operations" [("ask_amount", w_u128 n); ("operations", w_list w_op ops)]
  | QBalance a => tag "balance" [("address", w_str a)]
  | QTokenInfo => tag "token_info" []
  | QMinter => tag "minter" []
  | QAllowance o s => tag "allowance" [("owner", w_str o); ("spender", w_str s)]
  | QAllAllowances o s l => tag "all_allowances" [("owner", w_str o); ("start_after", w_opt w_str s); ("limit", w_opt w_num l)]
  | QAllAccounts s l => tag "all_accounts" [("start_after", w_opt w_str s); ("limit", w_opt w_num l)]
  end.

(** QueryMsg of the pair, pair.rs:50-61 *)
Definition r_pair_query (v : json) : option qmsg :=
  tagged v (fun t c =>
    if String.eqb t "pair" then struct [] c (fun _ => Some QSelf)
    else if String.eqb t "pool" then struct [] c (fun _ => Some QPool)
    else if String.eqb t "simulation" then
      struct ["offer_asset"] c (fun g => let? a := required g "offer_asset" r_asset in Some (QSimulation a))
    else if String.eqb t "reverse_simulation" then
      struct ["ask_asset"] c (fun g => let? a := required g "ask_asset" r_asset in Some (QReverseSimulation a))
    else None).
(** QueryMsg of the factory, factory.rs:37-51 *)
Definition r_factory_query (v : json) : option qmsg :=
  tagged v (fun t c =>
    if String.eqb t "config" then struct [] c (fun _ => Some QConfig)
    else if String.eqb t "pair" then
      struct ["asset_infos"] c (fun g => let? i := required g "asset_infos" (r_two r_info) in Some (QPair i))
    else if String.eqb t "pairs" then
      struct ["start_after"; "limit"] c (fun g =>
        let? s := opt_field g "start_after" (r_two r_info) in
        let? l := opt_field g "limit" (r_num B32) in Some (QPairs s l))
    else if String.eqb t "native_token_decimals" then
      struct ["denom"] c (fun g => let? d := required g "denom" r_str in Some (QNativeTokenDecimals d))
    else None).
(** QueryMsg of the router, router.rs:63-78 *)
Definition r_router_query (v : json) : option qmsg :=
  tagged v (fun t c =>
    if String.eqb t "config" then struct [] c (fun _ => Some QConfig)
    else if String.eqb t "simulate_swap_operations" then
      struct ["offer_amount"; "operations"] c (fun g =>
        let? n := required g "offer_amount" r_u128 in
        let? l := required g "operations" (r_list r_op) in Some (QSimulateOps n l))
    else if String.eqb t "reverse_simulate_swap_operations" then
      struct ["ask_amount"; "operations"] c (fun g =>
        let? n := required g "ask_amount" r_u128 in
        let? l := required g "operations" (r_list r_op) in Some (QReverseSimulateOps n l))
    else None).
(** cw20 1.0.0 Cw20QueryMsg / cw20-base 1.0.0 QueryMsg *)
Definition r_token_query (v : json) : option qmsg :=
  tagged v (fun t c =>
    if String.eqb t "balance" then
      struct ["address"] c (fun g => let? a := required g "address" r_str in Some (QBalance a))
    else if String.eqb t "token_info" then struct [] c (fun _ => Some QTokenInfo)
    else if String.eqb t "minter" then struct [] c (fun _ => Some QMinter)
    else if String.eqb t "allowance" then
      struct ["owner"; "spender"] c (fun g =>
        let? o := required g "owner" r_str in let? s := required g "spender" r_str in Some (QAllowance o s))
    else if String.eqb t "all_allowances" then
      struct ["owner"; "start_after"; "limit"] c (fun g =>
        let? o := required g "owner" r_str in
        let? s := opt_field g "start_after" r_str in
        let? l := opt_field g "limit" (r_num B32) in Some (QAllAllowances o s l))
    else if String.eqb t "all_accounts" then
      struct ["start_after"; "limit"] c (fun g =>
        let? s := opt_field g "start_after" r_str in
        let? l := opt_field g "limit" (r_num B32) in Some (QAllAccounts s l))
    else None).

(** ** Answers *)

(** PoolResponse, pair.rs:64-68 *)
Definition w_pool (p : asset * asset * uint128) : json :=
  VObj [("assets", w_two w_asset (fst p)); ("total_share", w_u128 (snd p))].
Definition r_pool (v : json) : option (asset * asset * uint128) :=
  struct ["assets"; "total_share"] v (fun g =>
    let? a := required g "assets" (r_two r_asset) in let? n := required g "total_share" r_u128 in Some (a, n)).
(** SimulationResponse, pair.rs:71-76 *)
Definition w_sim (s : simulation) : json :=
  VObj [("return_amount", w_u128 (s_return s)); ("spread_amount", w_u128 (s_spread s)); ("commission_amount", w_u128 (s_commission s))].
Definition r_sim (v : json) : option simulation :=
  struct ["return_amount"; "spread_amount"; "commission_amount"] v (fun g =>
    let? r := required g "return_amount" r_u128 in let? s := required g "spread_amount" r_u128 in
    let? c := required g "commission_amount" r_u128 in Some (Simulation r s c)).
(** ReverseSimulationResponse, pair.rs:79-84 *)
Definition w_rev (s : reverse_simulation) : json :=
  VObj [("offer_amount", w_u128 (rs_offer s)); ("spread_amount", w_u128 (rs_spread s)); ("commission_amount", w_u128 (rs_commission s))].
Definition r_rev (v : json) : option reverse_simulation :=
  struct ["offer_amount"; "spread_amount"; "commission_amount"] v (fun g =>
    let? r := required g "offer_amount" r_u128 in let? s := required g "spread_amount" r_u128 in
    let? c := required g "commission_amount" r_u128 in Some (ReverseSimulation r s c)).
(** the factory's ConfigResponse, factory.rs:54-59, from (owner, token code, pair code) *)
Definition w_config (c : string * N * N) : json :=
  VObj [("owner", w_str (fst (fst c))); ("pair_code_id", w_num (snd c)); ("token_code_id", w_num (snd (fst c)))].
Definition r_config (v : json) : option (string * N * N) :=
  struct ["owner"; "pair_code_id"; "token_code_id"] v (fun g =>
    let? o := required g "owner" r_str in let? p := required g "pair_code_id" (r_num B64) in
    let? t := required g "token_code_id" (r_num B64) in Some (o, t, p)).
(** the router's ConfigResponse, router.rs:81-84 *)
Definition w_router_config (f : string) : json := VObj [("halo_factory", w_str f)].
Definition r_router_config (v : json) : option string :=
  struct ["halo_factory"] v (fun g => required g "halo_factory" r_str).
(** PairsResponse, factory.rs:66-69 *)
Definition w_pairs (l : list pair_info) : json := VObj [("pairs", w_list w_pair_info l)].
Definition r_pairs (v : json) : option (list pair_info) :=
  struct ["pairs"] v (fun g => required g "pairs" (r_list r_pair_info)).
(** NativeTokenDecimalsResponse, factory.rs:71-74 *)
Definition w_decimals (n : N) : json := VObj [("decimals", w_num n)].
Definition r_decimals (v : json) : option N := struct ["decimals"] v (fun g => required g "decimals" (r_num 256)).
(** SimulateSwapOperationsResponse, router.rs:87-90 *)
Definition w_amount (n : uint128) : json := VObj [("amount", w_u128 n)].
Definition r_amount (v : json) : option uint128 := struct ["amount"] v (fun g => required g "amount" r_u128).
(** cw20 1.0.0 BalanceResponse, TokenInfoResponse, MinterResponse (possibly
    null), AllowanceResponse, AllAllowancesResponse, AllAccountsResponse *)
Definition w_balance (n : uint128) : json := VObj [("balance", w_u128 n)].
Definition r_balance (v : json) : option uint128 := struct ["balance"] v (fun g => required g "balance" r_u128).
Definition w_token_info (t : token_info) : json :=
  VObj [("name", w_str (ti_name t)); ("symbol", w_str (ti_symbol t)); ("decimals", w_num (ti_decimals t)); ("total_supply", w_u128 (ti_total_supply t))].
Definition r_token_info (v : json) : option token_info :=
  struct ["name"; "symbol"; "decimals"; "total_supply"] v (fun g =>
    let? n := required g "name" r_str in let? s := required g "symbol" r_str in
    let? d := required g "decimals" (r_num 256) in let? t := required g "total_supply" r_u128 in Some (TokenInfo n s d t)).
Definition w_allowance (a : uint128 * expiration) : json := VObj [("allowance", w_u128 (fst a)); ("expires", w_exp (snd a))].
Definition r_allowance (v : json) : option (uint128 * expiration) :=
  struct ["allowance"; "expires"] v (fun g =>
    let? n := required g "allowance" r_u128 in let? e := required g "expires" r_exp in Some (n, e)).
Definition w_allowed (a : string * (uint128 * expiration)) : json :=
  VObj [("spender", w_str (fst a)); ("allowance", w_u128 (fst (snd a))); ("expires", w_exp (snd (snd a)))].
Definition r_allowed (v : json) : option (string * (uint128 * expiration)) :=
  struct ["spender"; "allowance"; "expires"] v (fun g =>
    let? s := required g "spender" r_str in
    let? n := required g "allowance" r_u128 in let? e := required g "expires" r_exp in Some (s, (n, e))).
Definition w_allowances (l : list (string * (uint128 * expiration))) : json := VObj [("allowances", w_list w_allowed l)].
Definition r_allowances (v : json) : option (list (string * (uint128 * expiration))) :=
  struct ["allowances"] v (fun g => required g "allowances" (r_list r_allowed)).
Definition w_accounts (l : list string) : json := VObj [("accounts", w_list w_str l)].
Definition r_accounts (v : json) : option (list string) := struct ["accounts"] v (fun g => required g "accounts" (r_list r_str)).

Inductive answer :=
| APairInfo (p : pair_info)
| APool (p : asset * asset * uint128)
| ASimulation (s : simulation)
| AReverse (s : reverse_simulation)
| AConfig (c : string * N * N)
| ARouterConfig (f : string)
| APairs (l : list pair_info)
| ADecimals (n : N)
| AAmount (n : uint128)
| ABalance (n : uint128)
| ATokenInfo (t : token_info)
| AMinter (m : option (string * option uint128))
| AAllowance (a : uint128 * expiration)
| AAllowances (l : list (string * (uint128 * expiration)))
| AAccounts (l : list string).
Definition w_answer (a : answer) : json :=
  match a with
  | APairInfo p => w_pair_info p
  | APool p => w_pool p
  | ASimulation s => w_sim s
  | AReverse s => w_rev s
  | AConfig c => w_config c
  | ARouterConfig f => w_router_config f
  | APairs l => w_pairs l
  | ADecimals n => w_decimals n
  | AAmount n => w_amount n
  | ABalance n => w_balance n
  | ATokenInfo t => w_token_info t
  | AMinter m => w_opt w_minter m
  | AAllowance a => w_allowance a
  | AAllowances l => w_allowances l
  | AAccounts l => w_accounts l
  end.

(** ** The query entry points *)
Definition give {X Y} (f : X -> Y) (r : res X) : res Y := let* x := r in Ok (f x).
(** query, contracts/halo-pair/src/contract.rs:480-491 *)
Definition pair_query (A : api) (Q : querier) (st : pair_info_raw) (q : qmsg) : res answer :=
  match q with
  | QSelf => give APairInfo (pair_query_pair A st)
  | QPool => give APool (pair_query_pool A Q st)
  | QSimulation a => give ASimulation (pair_query_simulation A Q st a)
  | QReverseSimulation a => give AReverse (pair_query_reverse_simulation A Q st a)
  | _ => Err EParse
  end.
(** query, contracts/halo-factory/src/contract.rs:265-276 *)
Definition factory_query (A : api) (st : factory_state) (q : qmsg) : res answer :=
  match q with
  | QConfig => give AConfig (factory_query_config A st)
  | QPair i => give APairInfo (factory_query_pair A st i)
  | QPairs s l => give APairs (factory_query_pairs A st s l)
  | QNativeTokenDecimals d => give ADecimals (factory_query_native st d)
  | _ => Err EParse
  end.
(** query, contracts/halo-router/src/contract.rs:205-219; query_config 221-228 *)
Definition router_query (A : api) (Q : querier) (st : router_state) (q : qmsg) : res answer :=
  match q with
  | QConfig => give ARouterConfig (addr_humanize A st)
  | QSimulateOps n ops => give AAmount (router_simulate A Q st n ops)
  | QReverseSimulateOps n ops => give AAmount (router_reverse_simulate A Q st n ops)
  | _ => Err EParse
  end.
(** query, contracts/halo-token/src/contract.rs:73-76 = cw20_base::contract::query *)
Definition token_query (A : api) (t : token_state) (q : qmsg) : res answer :=
  match q with
  | QBalance a => give ABalance (token_query_balance A t a)
  | QTokenInfo => give ATokenInfo (token_query_info t)
  | QMinter => give AMinter (token_query_minter t)
  | QAllowance o s => give AAllowance (token_query_allowance A t o s)
  | QAllAllowances o s l => give AAllowances (token_all_allowances A t o s l)
  | QAllAccounts s l => give AAccounts (token_all_accounts t s l)
  | _ => Err EParse
  end.

(** A smart query: the contract addressed by [a] reads the bytes, answers, and
    the answer is written.  Third-party contracts are left out (their answers are
    parameters of the chain), as are addresses without a contract. *)
Definition answered (o : option qmsg) (k : qmsg -> res answer) : option string :=
  let? q := o in match k q with Ok a => Some (render (w_answer a)) | Err _ => None end.
Definition smart (C : chain) (w : world) (a b : string) : option string :=
  match contract_at C w a with
  | Ok (_, SPair st) => answered (from_bytes r_pair_query b) (pair_query (ch_api C) (wq C w) st)
  | Ok (_, SFactory st) => answered (from_bytes r_factory_query b) (factory_query (ch_api C) st)
  | Ok (_, SRouter st) => answered (from_bytes r_router_query b) (router_query (ch_api C) (wq C w) st)
  | Ok (_, SToken st) => answered (from_bytes r_token_query b) (token_query (ch_api C) st)
  | _ => None
  end.

(** ** The questions contracts ask each other, packages/haloswap/src/querier.rs:
    to_binary of the query, the smart query, from_binary of the answer *)
Definition question {X} (C : chain) (w : world) (a : string) (q : qmsg) (r : json -> option X) : option X :=
  let? b := smart C w a (render (w_query q)) in from_bytes r b.
(** query_token_balance 34-48 *)
Definition x_token_balance C w t acc := question C w t (QBalance acc) r_balance.
(** query_token_info 50-60 *)
Definition x_token_info C w t := question C w t QTokenInfo r_token_info.
(** query_native_decimals 62-73 *)
Definition x_native_decimals C w f d := question C w f (QNativeTokenDecimals d) r_decimals.
(** query_pair_info 75-86 *)
Definition x_pair_info C w f i := question C w f (QPair i) r_pair_info.
(** simulate 88-99 *)
Definition x_simulate C w p a := question C w p (QSimulation a) r_sim.
(** reverse_simulate 101-112 *)
Definition x_reverse C w p a := question C w p (QReverseSimulation a) r_rev.
(** query_pair_info_from_pair 114-124 *)
Definition x_pair_self C w p := question C w p QSelf r_pair_info.
