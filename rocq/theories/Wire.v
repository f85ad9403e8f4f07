(** How the message types of /repo are written to and read from JSON: the
    cw_serde types of packages/haloswap/src, and cw20 1.0.0's messages and
    cw-utils 1.0.0's Expiration, which the contracts read and write.

    #[cw_serde] derives serde's Serialize and Deserialize with
    deny_unknown_fields; enums are externally tagged, with tags and variant
    fields in snake_case. serde's derived readers refuse repeated and unknown
    fields; an Option field may be missing or null; every other field must be
    present. Fields may come in any order. Uint128, Decimal and Timestamp are
    strings, u8 / u32 / u64 numbers, Binary is base64. *)
From Verif Require Import Base BigNumber CwStd Asset Messages PairMath Token Json.
From Coq Require Import Ascii String.
Local Open Scope N_scope.

(** ** serde *)
Fixpoint find_field (k : string) (l : list (string * json)) : option json :=
  match l with [] => None | (k', v) :: l => if String.eqb k' k then Some v else find_field k l end.
Fixpoint distinct (l : list string) : bool :=
  match l with [] => true | k :: l => negb (existsb (String.eqb k) l) && distinct l end.
(** A struct with the given fields. *)
Definition struct {A} (names : list string) (v : json) (k : (string -> option json) -> option A) : option A :=
  match v with
  | VObj l =>
      if distinct (map fst l) && forallb (fun kv => existsb (String.eqb (fst kv)) names) l
      then k (fun n => find_field n l) else None
  | _ => None
  end.
(** An externally tagged enum: an object with one field. *)
Definition tagged {A} (v : json) (k : string -> json -> option A) : option A :=
  match v with VObj [(t, c)] => k t c | _ => None end.
Definition obind {A B} (o : option A) (k : A -> option B) : option B := match o with Some a => k a | None => None end.
Notation "'let?' x := e 'in' k" := (obind e (fun x => k)) (at level 200, x pattern, e at level 100, k at level 200).
Definition required {A} (g : string -> option json) (n : string) (d : json -> option A) : option A :=
  match g n with Some v => d v | None => None end.
Definition optional {A} (d : json -> option A) (v : json) : option (option A) :=
  match v with VNull => Some None | v => let? a := d v in Some (Some a) end.
Definition opt_field {A} (g : string -> option json) (n : string) (d : json -> option A) : option (option A) :=
  match g n with Some v => optional d v | None => Some None end.
Fixpoint all_some {A B} (d : A -> option B) (l : list A) : option (list B) :=
  match l with [] => Some [] | v :: l => let? a := d v in let? r := all_some d l in Some (a :: r) end.

Definition w_str (s : string) : json := VStr s.
Definition r_str (v : json) : option string := match v with VStr s => Some s | _ => None end.
Definition w_opt {A} (e : A -> json) (o : option A) : json := match o with Some a => e a | None => VNull end.
Definition w_list {A} (e : A -> json) (l : list A) : json := VArr (map e l).
Definition r_list {A} (d : json -> option A) (v : json) : option (list A) := match v with VArr l => all_some d l | _ => None end.
(** Rust arrays of length two *)
Definition w_two {A} (e : A -> json) (p : A * A) : json := VArr [e (fst p); e (snd p)].
Definition r_two {A} (d : json -> option A) (v : json) : option (A * A) :=
  match v with VArr [a; b] => let? a := d a in let? b := d b in Some (a, b) | _ => None end.
(** u8, u32, u64 *)
Definition w_num (n : N) : json := VNum n.
Definition r_num (bound : N) (v : json) : option N := match v with VNum n => if n <? bound then Some n else None | _ => None end.
Definition B32 : N := 4294967296.
(** Uint128: its decimal text; read with str::parse *)
Definition w_u128 (n : uint128) : json := VStr (dec_to_string n).
Definition r_u128 (v : json) : option uint128 := match v with VStr s => u128_parse s | _ => None end.
(** Decimal: its Display text; read with Decimal::from_str *)
Definition w_dec (d : decimal) : json := VStr (dec_display d).
Definition r_dec (v : json) : option decimal :=
  match v with VStr s => match dec_from_str s with Ok d => Some d | Err _ => None end | _ => None end.
(** Binary *)
Definition w_bin (b : string) : json := VStr (b64_encode b).
Definition r_bin (v : json) : option string := match v with VStr s => b64_decode s | _ => None end.
(** Timestamp: a Uint64 as text, read with str::parse::<u64> (as for u128, with
    the smaller bound) *)
Definition r_u64_text (v : json) : option N :=
  match v with VStr s => match u128_parse s with Some n => if n <? B64 then Some n else None | None => None end | _ => None end.

(** ** packages/haloswap/src/asset.rs *)

(** AssetInfo, asset.rs:101-105 *)
Definition w_info (i : asset_info) : json :=
  match i with
  | Token a => VObj [("token", VObj [("contract_addr", w_str a)])]
  | Native d => VObj [("native_token", VObj [("denom", w_str d)])]
  end.
Definition r_info (v : json) : option asset_info :=
  tagged v (fun t c =>
    if String.eqb t "token" then struct ["contract_addr"] c (fun g => let? a := required g "contract_addr" r_str in Some (Token a))
    else if String.eqb t "native_token" then struct ["denom"] c (fun g => let? d := required g "denom" r_str in Some (Native d))
    else None).
(** Asset, asset.rs:11-15 *)
Definition w_asset (a : asset) : json := VObj [("info", w_info (a_info a)); ("amount", w_u128 (a_amount a))].
Definition r_asset (v : json) : option asset :=
  struct ["info"; "amount"] v (fun g =>
    let? i := required g "info" r_info in let? n := required g "amount" r_u128 in Some (Asset i n)).
(** CreatePairRequirements, asset.rs:92-97; Addr is a string *)
Definition w_reqs (r : requirements) : json :=
  VObj [("whitelist", w_list w_str (whitelist r)); ("first_asset_minimum", w_u128 (first_asset_minimum r));
        ("second_asset_minimum", w_u128 (second_asset_minimum r))].
Definition r_reqs (v : json) : option requirements :=
  struct ["whitelist"; "first_asset_minimum"; "second_asset_minimum"] v (fun g =>
    let? l := required g "whitelist" (r_list r_str) in
    let? a := required g "first_asset_minimum" r_u128 in
    let? b := required g "second_asset_minimum" r_u128 in Some (Requirements l a b)).
(** PairInfo, asset.rs:254-261 *)
Definition w_pair_info (p : pair_info) : json :=
  VObj [("asset_infos", w_two w_info (p_asset_infos p)); ("contract_addr", w_str (p_contract_addr p));
        ("liquidity_token", w_str (p_liquidity_token p)); ("asset_decimals", w_two w_num (p_asset_decimals p));
        ("requirements", w_reqs (p_requirements p))].
Definition r_pair_info (v : json) : option pair_info :=
  struct ["asset_infos"; "contract_addr"; "liquidity_token"; "asset_decimals"; "requirements"] v (fun g =>
    let? i := required g "asset_infos" (r_two r_info) in
    let? c := required g "contract_addr" r_str in
    let? l := required g "liquidity_token" r_str in
    let? d := required g "asset_decimals" (r_two (r_num 256)) in
    let? r := required g "requirements" r_reqs in Some (PairInfo i c l d r)).

(** ** packages/haloswap/src/router.rs *)

(** SwapOperation, router.rs:12-18 *)
Definition w_op (o : swap_op) : json :=
  VObj [("halo_swap", VObj [("offer_asset_info", w_info (op_offer o)); ("ask_asset_info", w_info (op_ask o))])].
Definition r_op (v : json) : option swap_op :=
  tagged v (fun t c =>
    if String.eqb t "halo_swap" then
      struct ["offer_asset_info"; "ask_asset_info"] c (fun g =>
        let? a := required g "offer_asset_info" r_info in let? b := required g "ask_asset_info" r_info in Some (HaloSwap a b))
    else None).

(** The three fields of ExecuteSwapOperations, router.rs:32-36 and 55-60 *)
Definition w_route (ops : list swap_op) (mr : option uint128) (to : option string) : json :=
  VObj [("operations", w_list w_op ops); ("minimum_receive", w_opt w_u128 mr); ("to", w_opt w_str to)].
Definition r_route {A} (mk : list swap_op -> option uint128 -> option string -> A) (v : json) : option A :=
  struct ["operations"; "minimum_receive"; "to"] v (fun g =>
    let? ops := required g "operations" (r_list r_op) in
    let? mr := opt_field g "minimum_receive" r_u128 in
    let? to := opt_field g "to" r_str in Some (mk ops mr to)).

(** ** Hook messages: the bytes in the msg field of Send, SendFrom and Receive *)

(** pair.rs:37-48 and router.rs:54-61, both called Cw20HookMsg *)
Definition w_hook (h : hook) : option json :=
  match h with
  | HSwap b m t => Some (VObj [("swap", VObj [("belief_price", w_opt w_dec b); ("max_spread", w_opt w_dec m); ("to", w_opt w_str t)])])
  | HWithdrawLiquidity => Some (VObj [("withdraw_liquidity", VObj [])])
  | HExecuteSwapOperations ops mr to => Some (VObj [("execute_swap_operations", w_route ops mr to)])
  | HOther _ => None
  end.
Definition hook_bytes (h : hook) : string :=
  match h with HOther p => p | _ => match w_hook h with Some v => render v | None => EmptyString end end.
Definition r_pair_hook (v : json) : option hook :=
  tagged v (fun t c =>
    if String.eqb t "swap" then
      struct ["belief_price"; "max_spread"; "to"] c (fun g =>
        let? b := opt_field g "belief_price" r_dec in
        let? m := opt_field g "max_spread" r_dec in
        let? to := opt_field g "to" r_str in Some (HSwap b m to))
    else if String.eqb t "withdraw_liquidity" then struct [] c (fun _ => Some HWithdrawLiquidity)
    else None).
Definition r_router_hook (v : json) : option hook :=
  tagged v (fun t c => if String.eqb t "execute_swap_operations" then r_route HExecuteSwapOperations c else None).
(** from_binary at the pair (contract.rs:134) and at the router (contract.rs:107) *)
Definition pair_hook (b : string) : option hook := let? v := parse b in r_pair_hook v.
Definition router_hook (b : string) : option hook := let? v := parse b in r_router_hook v.
(** The value that stands for the bytes [b] in the model: what the pair or the
    router would read. *)
Definition hook_of (b : string) : hook :=
  match pair_hook b with
  | Some h => h
  | None => match router_hook b with Some h => h | None => HOther b end
  end.

(** ** Execute messages *)

(** cw_utils::Expiration *)
Definition w_exp (e : expiration) : json :=
  match e with
  | EAtHeight h => VObj [("at_height", w_num h)]
  | EAtTime t => VObj [("at_time", VStr (dec_to_string t))]
  | ENever => VObj [("never", VObj [])]
  end.
Definition r_exp (v : json) : option expiration :=
  tagged v (fun t c =>
    if String.eqb t "at_height" then let? h := r_num B64 c in Some (EAtHeight h)
    else if String.eqb t "at_time" then let? n := r_u64_text c in Some (EAtTime n)
    else if String.eqb t "never" then struct [] c (fun _ => Some ENever)
    else None).

(** The JSON of a message; [None] for [JOther], whose bytes are its payload.
    Marketing messages carry no modelled data: an update without content. *)
Definition w_msg (m : jmsg) : option json :=
  let tag t l := Some (VObj [(t, VObj l)]) in
  match m with
  | JTransfer r n => tag "transfer" [("recipient", w_str r); ("amount", w_u128 n)]
  | JBurn n => tag "burn" [("amount", w_u128 n)]
  | JSend c n h => tag "send" [("contract", w_str c); ("amount", w_u128 n); ("msg", w_bin (hook_bytes h))]
  | JIncreaseAllowance s n e => tag "increase_allowance" [("spender", w_str s); ("amount", w_u128 n); ("expires", w_opt w_exp e)]
  | JDecreaseAllowance s n e => tag "decrease_allowance" [("spender", w_str s); ("amount", w_u128 n); ("expires", w_opt w_exp e)]
  | JTransferFrom o r n => tag "transfer_from" [("owner", w_str o); ("recipient", w_str r); ("amount", w_u128 n)]
  | JSendFrom o c n h =>
      tag "send_from" [("owner", w_str o); ("contract", w_str c); ("amount", w_u128 n); ("msg", w_bin (hook_bytes h))]
  | JBurnFrom o n => tag "burn_from" [("owner", w_str o); ("amount", w_u128 n)]
  | JMint r n => tag "mint" [("recipient", w_str r); ("amount", w_u128 n)]
  | JUpdateMinter x => tag "update_minter" [("new_minter", w_opt w_str x)]
  | JMarketing => tag "update_marketing" [("project", VNull); ("description", VNull); ("marketing", VNull)]
  | JReceive s n h => tag "receive" [("sender", w_str s); ("amount", w_u128 n); ("msg", w_bin (hook_bytes h))]
  | JProvideLiquidity a s r =>
      tag "provide_liquidity" [("assets", w_two w_asset a); ("slippage_tolerance", w_opt w_dec s); ("receiver", w_opt w_str r)]
  | JSwap b m t => tag "swap" [("belief_price", w_opt w_dec b); ("max_spread", w_opt w_dec m); ("to", w_opt w_str t)]
  | JExecuteSwapOperations ops mr to => Some (VObj [("execute_swap_operations", w_route ops mr to)])
  | JExecuteSwapOperation op to => tag "execute_swap_operation" [("operation", w_op op); ("to", w_opt w_str to)]
  | JAssertMinimumReceive i p m r =>
      tag "assert_minimum_receive" [("asset_info", w_info i); ("prev_balance", w_u128 p); ("minimum_receive", w_u128 m); ("receiver", w_str r)]
  | JUpdateConfig o t p => tag "update_config" [("owner", w_opt w_str o); ("token_code_id", w_opt w_num t); ("pair_code_id", w_opt w_num p)]
  | JCreatePair i r => tag "create_pair" [("asset_infos", w_two w_info i); ("requirements", w_reqs r)]
  | JAddNativeTokenDecimals d n => tag "add_native_token_decimals" [("denom", w_str d); ("decimals", w_num n)]
  | JMigratePair c k => tag "migrate_pair" [("contract", w_str c); ("code_id", w_opt w_num k)]
  | JOther _ => None
  end.
Definition msg_bytes (m : jmsg) : string :=
  match m with JOther p => p | _ => match w_msg m with Some v => render v | None => EmptyString end end.

(** Cw20ReceiveMsg (cw20 1.0.0) *)
Definition r_receive (v : json) : option jmsg :=
  struct ["sender"; "amount"; "msg"] v (fun g =>
    let? s := required g "sender" r_str in
    let? n := required g "amount" r_u128 in
    let? b := required g "msg" r_bin in Some (JReceive s n (hook_of b))).

(** ExecuteMsg of the pair, pair.rs:19-35 *)
Definition r_pair_msg (v : json) : option jmsg :=
  tagged v (fun t c =>
    if String.eqb t "receive" then r_receive c
    else if String.eqb t "provide_liquidity" then
      struct ["assets"; "slippage_tolerance"; "receiver"] c (fun g =>
        let? a := required g "assets" (r_two r_asset) in
        let? s := opt_field g "slippage_tolerance" r_dec in
        let? r := opt_field g "receiver" r_str in Some (JProvideLiquidity a s r))
    else None).

(** ExecuteMsg of the router, router.rs:28-52 *)
Definition r_router_msg (v : json) : option jmsg :=
  tagged v (fun t c =>
    if String.eqb t "receive" then r_receive c
    else if String.eqb t "execute_swap_operations" then r_route JExecuteSwapOperations c
    else if String.eqb t "execute_swap_operation" then
      struct ["operation"; "to"] c (fun g =>
        let? o := required g "operation" r_op in let? to := opt_field g "to" r_str in Some (JExecuteSwapOperation o to))
    else if String.eqb t "assert_minimum_receive" then
      struct ["asset_info"; "prev_balance"; "minimum_receive"; "receiver"] c (fun g =>
        let? i := required g "asset_info" r_info in
        let? p := required g "prev_balance" r_u128 in
        let? m := required g "minimum_receive" r_u128 in
        let? r := required g "receiver" r_str in Some (JAssertMinimumReceive i p m r))
    else None).

(** ExecuteMsg of the factory, factory.rs:12-35 *)
Definition r_factory_msg (v : json) : option jmsg :=
  tagged v (fun t c =>
    if String.eqb t "update_config" then
      struct ["owner"; "token_code_id"; "pair_code_id"] c (fun g =>
        let? o := opt_field g "owner" r_str in
        let? t := opt_field g "token_code_id" (r_num B64) in
        let? p := opt_field g "pair_code_id" (r_num B64) in Some (JUpdateConfig o t p))
    else if String.eqb t "create_pair" then
      struct ["asset_infos"; "requirements"] c (fun g =>
        let? i := required g "asset_infos" (r_two r_info) in
        let? r := required g "requirements" r_reqs in Some (JCreatePair i r))
    else if String.eqb t "add_native_token_decimals" then
      struct ["denom"; "decimals"] c (fun g =>
        let? d := required g "denom" r_str in let? n := required g "decimals" (r_num 256) in Some (JAddNativeTokenDecimals d n))
    else if String.eqb t "migrate_pair" then
      struct ["contract"; "code_id"] c (fun g =>
        let? a := required g "contract" r_str in let? k := opt_field g "code_id" (r_num B64) in Some (JMigratePair a k))
    else None).

(** cw20 1.0.0 Logo: a URL, or an embedded SVG or PNG *)
Definition r_logo (v : json) : option unit :=
  tagged v (fun t c =>
    if String.eqb t "url" then let? _ := r_str c in Some tt
    else if String.eqb t "embedded" then
      tagged c (fun t c => if String.eqb t "svg" || String.eqb t "png" then let? _ := r_bin c in Some tt else None)
    else None).

(** cw20 1.0.0 Cw20ExecuteMsg, the ExecuteMsg of halo-token *)
Definition r_token_msg (v : json) : option jmsg :=
  tagged v (fun t c =>
    if String.eqb t "transfer" then
      struct ["recipient"; "amount"] c (fun g =>
        let? r := required g "recipient" r_str in let? n := required g "amount" r_u128 in Some (JTransfer r n))
    else if String.eqb t "burn" then struct ["amount"] c (fun g => let? n := required g "amount" r_u128 in Some (JBurn n))
    else if String.eqb t "send" then
      struct ["contract"; "amount"; "msg"] c (fun g =>
        let? a := required g "contract" r_str in let? n := required g "amount" r_u128 in
        let? b := required g "msg" r_bin in Some (JSend a n (hook_of b)))
    else if String.eqb t "increase_allowance" then
      struct ["spender"; "amount"; "expires"] c (fun g =>
        let? a := required g "spender" r_str in let? n := required g "amount" r_u128 in
        let? e := opt_field g "expires" r_exp in Some (JIncreaseAllowance a n e))
    else if String.eqb t "decrease_allowance" then
      struct ["spender"; "amount"; "expires"] c (fun g =>
        let? a := required g "spender" r_str in let? n := required g "amount" r_u128 in
        let? e := opt_field g "expires" r_exp in Some (JDecreaseAllowance a n e))
    else if String.eqb t "transfer_from" then
      struct ["owner"; "recipient"; "amount"] c (fun g =>
        let? o := required g "owner" r_str in let? r := required g "recipient" r_str in
        let? n := required g "amount" r_u128 in Some (JTransferFrom o r n))
    else if String.eqb t "send_from" then
      struct ["owner"; "contract"; "amount"; "msg"] c (fun g =>
        let? o := required g "owner" r_str in let? a := required g "contract" r_str in
        let? n := required g "amount" r_u128 in let? b := required g "msg" r_bin in Some (JSendFrom o a n (hook_of b)))
    else if String.eqb t "burn_from" then
      struct ["owner"; "amount"] c (fun g =>
        let? o := required g "owner" r_str in let? n := required g "amount" r_u128 in Some (JBurnFrom o n))
    else if String.eqb t "mint" then
      struct ["recipient"; "amount"] c (fun g =>
        let? r := required g "recipient" r_str in let? n := required g "amount" r_u128 in Some (JMint r n))
    else if String.eqb t "update_minter" then
      struct ["new_minter"] c (fun g => let? x := opt_field g "new_minter" r_str in Some (JUpdateMinter x))
    else if String.eqb t "update_marketing" then
      struct ["project"; "description"; "marketing"] c (fun g =>
        let? _ := opt_field g "project" r_str in let? _ := opt_field g "description" r_str in
        let? _ := opt_field g "marketing" r_str in Some JMarketing)
    else if String.eqb t "upload_logo" then let? _ := r_logo c in Some JMarketing
    else None).

(** ** Instantiate messages *)

(** token.rs:7-14; Cw20Coin and MinterResponse of cw20 1.0.0 *)
Definition w_coin (c : string * uint128) : json := VObj [("address", w_str (fst c)); ("amount", w_u128 (snd c))].
Definition r_coin (v : json) : option (string * uint128) :=
  struct ["address"; "amount"] v (fun g =>
    let? a := required g "address" r_str in let? n := required g "amount" r_u128 in Some (a, n)).
Definition w_minter (m : string * option uint128) : json := VObj [("minter", w_str (fst m)); ("cap", w_opt w_u128 (snd m))].
Definition r_minter (v : json) : option (string * option uint128) :=
  struct ["minter"; "cap"] v (fun g =>
    let? a := required g "minter" r_str in let? c := opt_field g "cap" r_u128 in Some (a, c)).
Definition w_init (m : imsg) : option json :=
  match m with
  | IToken t => Some (VObj [("name", w_str (in_name t)); ("symbol", w_str (in_symbol t)); ("decimals", w_num (in_decimals t));
      ("initial_balances", w_list w_coin (in_balances t)); ("mint", w_opt w_minter (in_mint t))])
  | IPair i k d r => Some (VObj [("asset_infos", w_two w_info i); ("token_code_id", w_num k); ("asset_decimals", w_two w_num d); ("requirements", w_reqs r)])
  | IFactory p t => Some (VObj [("pair_code_id", w_num p); ("token_code_id", w_num t)])
  | IRouter f => Some (VObj [("halo_factory", w_str f)])
  | IOther _ => None
  end.
Definition init_bytes (m : imsg) : string :=
  match m with IOther p => p | _ => match w_init m with Some v => render v | None => EmptyString end end.
Definition r_token_init (v : json) : option imsg :=
  struct ["name"; "symbol"; "decimals"; "initial_balances"; "mint"] v (fun g =>
    let? n := required g "name" r_str in let? s := required g "symbol" r_str in
    let? d := required g "decimals" (r_num 256) in
    let? b := required g "initial_balances" (r_list r_coin) in
    let? m := opt_field g "mint" r_minter in Some (IToken (TokenInit n s d b m))).
(** pair.rs:8-17 *)
Definition r_pair_init (v : json) : option imsg :=
  struct ["asset_infos"; "token_code_id"; "asset_decimals"; "requirements"] v (fun g =>
    let? i := required g "asset_infos" (r_two r_info) in let? k := required g "token_code_id" (r_num B64) in
    let? d := required g "asset_decimals" (r_two (r_num 256)) in let? r := required g "requirements" r_reqs in Some (IPair i k d r)).
(** factory.rs:5-10 *)
Definition r_factory_init (v : json) : option imsg :=
  struct ["pair_code_id"; "token_code_id"] v (fun g =>
    let? p := required g "pair_code_id" (r_num B64) in let? t := required g "token_code_id" (r_num B64) in Some (IFactory p t)).
(** router.rs:7-10 *)
Definition r_router_init (v : json) : option imsg :=
  struct ["halo_factory"] v (fun g => let? f := required g "halo_factory" r_str in Some (IRouter f)).

(** ** What an entry point reads from the bytes it is given *)
Definition from_bytes {A} (r : json -> option A) (b : string) : option A := let? v := parse b in r v.
