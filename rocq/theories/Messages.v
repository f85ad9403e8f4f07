(** Message types.  Execute messages of all contracts share one type [jmsg]
    keyed by the top-level JSON tag, because a contract may send any tag to any
    other contract (the router sends a swap tag to a pair,
    contracts/halo-router/src/operations.rs:82); each contract's decoder
    accepts only its own tags.  Binary payloads of cw20 sends are [hook].
    The JSON text is modelled in Wire.v. *)
From Verif Require Import Base CwStd Asset.
Local Open Scope N_scope.

(** router.rs:13-18 SwapOperation::HaloSwap { offer_asset_info, ask_asset_info } *)
Record swap_op := HaloSwap { op_offer : asset_info; op_ask : asset_info }.
Global Instance swap_op_eq_dec : EqDecision swap_op.
Proof. solve_decision. Defined.

(** cw_utils::Expiration *)
Inductive expiration := ENever | EAtHeight (h : N) | EAtTime (t : N).
Global Instance expiration_eq_dec : EqDecision expiration.
Proof. solve_decision. Defined.

(** Payloads of cw20 Send: pair.rs:40-48 Cw20HookMsg, router.rs:54-61
    Cw20HookMsg, anything else. *)
Inductive hook :=
| HSwap (belief_price max_spread : option decimal) (to : option string)
| HWithdrawLiquidity
| HExecuteSwapOperations (ops : list swap_op) (minimum_receive : option uint128) (to : option string)
| HOther (payload : string).

Inductive jmsg :=
(* cw20-base 1.0.0 ExecuteMsg; marketing messages carry no modelled data *)
| JTransfer (recipient : string) (amount : uint128)
| JBurn (amount : uint128)
| JSend (contract : string) (amount : uint128) (msg : hook)
| JIncreaseAllowance (spender : string) (amount : uint128) (expires : option expiration)
| JDecreaseAllowance (spender : string) (amount : uint128) (expires : option expiration)
| JTransferFrom (owner recipient : string) (amount : uint128)
| JSendFrom (owner contract : string) (amount : uint128) (msg : hook)
| JBurnFrom (owner : string) (amount : uint128)
| JMint (recipient : string) (amount : uint128)
| JUpdateMinter (new_minter : option string)
| JMarketing
(* cw20 Receive hook: pair.rs:21 and router.rs:30 *)
| JReceive (sender : string) (amount : uint128) (msg : hook)
(* pair.rs:23-27 *)
| JProvideLiquidity (assets : asset * asset) (slippage_tolerance : option decimal)
    (receiver : option string)
(* the tag swap, as sent by operations.rs:82-86; no contract decodes it *)
| JSwap (belief_price max_spread : option decimal) (to : option string)
(* router.rs:32-52 *)
| JExecuteSwapOperations (ops : list swap_op) (minimum_receive : option uint128) (to : option string)
| JExecuteSwapOperation (op : swap_op) (to : option string)
| JAssertMinimumReceive (info : asset_info) (prev_balance minimum_receive : uint128) (receiver : string)
(* factory.rs:13-35 *)
| JUpdateConfig (owner : option string) (token_code_id pair_code_id : option N)
| JCreatePair (asset_infos : asset_info * asset_info) (reqs : requirements)
| JAddNativeTokenDecimals (denom : string) (decimals : N)
| JMigratePair (contract : string) (code_id : option N)
(* any other JSON *)
| JOther (payload : string).

(** Instantiate messages. *)
(** token.rs:8-14, cw20 MinterResponse and Cw20Coin *)
Record token_init := TokenInit {
  in_name : string; in_symbol : string; in_decimals : N;
  in_balances : list (string * uint128);
  in_mint : option (string * option uint128);  (* minter, cap *)
}.
Inductive imsg :=
| IToken (m : token_init)
(* pair.rs:9-17 *)
| IPair (asset_infos : asset_info * asset_info) (token_code_id : N)
    (asset_decimals : N * N) (reqs : requirements)
(* factory.rs:6-10 *)
| IFactory (pair_code_id token_code_id : N)
(* router.rs:8-10 *)
| IRouter (halo_factory : string)
| IOther (payload : string).

(** cosmwasm_std::CosmosMsg as used here, and SubMsg's reply_on. *)
Inductive cmsg :=
| MBankSend (to_address : string) (amount : list coin)
| MExecute (contract_addr : string) (msg : jmsg) (funds : list coin)
| MInstantiate (admin : option string) (code_id : N) (msg : imsg) (funds : list coin) (label : string)
| MMigrate (contract_addr : string) (new_code_id : N)
(* WasmMsg::UpdateAdmin, and ClearAdmin as [None]; no contract of /repo sends it *)
| MUpdateAdmin (contract_addr : string) (admin : option string).

(** ReplyAlways is used only by third-party contracts (it also covers
    ReplyOn::Error: such a contract can ignore successes). *)
Inductive reply_on := ReplyNever | ReplySuccess (id : N) | ReplyAlways (id : N).
Record submsg := SubMsg { sm_msg : cmsg; sm_reply : reply_on }.

(** SubMsg::new(msg) / add_message(s) *)
Definition plain (m : cmsg) : submsg := SubMsg m ReplyNever.

(** cosmwasm_std::Response: messages and attributes. *)
Record response := Response { rs_msgs : list submsg; rs_attrs : list (string * string) }.

(** Env / MessageInfo: own address, block, sender, funds. *)
Record blockinfo := Block { b_height : N; b_time : N }.

(** Serde range checks of integer fields (Uint128 as text, Decimal as text
    with u128 atomics, u8, u64). *)
Definition u128_ok (n : N) : bool := n <? B128.
Definition ou128_ok (o : option N) : bool := match o with Some n => u128_ok n | None => true end.
Definition u8_ok (n : N) : bool := n <? 256.
Definition u64_ok (n : N) : bool := n <? B64.
Definition exp_ok (e : expiration) : bool :=
  match e with ENever => true | EAtHeight n | EAtTime n => u64_ok n end.
Definition oexp_ok (o : option expiration) : bool := match o with Some e => exp_ok e | None => true end.
Definition ou64_ok (o : option N) : bool := match o with Some n => u64_ok n | None => true end.

Definition hook_ranges (h : hook) : bool :=
  match h with
  | HSwap b m _ => ou128_ok b && ou128_ok m
  | HExecuteSwapOperations _ m _ => ou128_ok m
  | _ => true
  end.
Definition reqs_ranges (r : requirements) : bool :=
  u128_ok (first_asset_minimum r) && u128_ok (second_asset_minimum r).

(** All integer fields of a message are in range: otherwise serde refuses it.
    The binary payload of Send / Receive is opaque to the token. *)
Definition jmsg_ranges (m : jmsg) : bool :=
  match m with
  | JIncreaseAllowance _ a e | JDecreaseAllowance _ a e => u128_ok a && oexp_ok e
  | JTransfer _ a | JBurn a | JSend _ a _ | JTransferFrom _ _ a | JSendFrom _ _ a _ | JBurnFrom _ a | JMint _ a | JReceive _ a _ => u128_ok a
  | JUpdateMinter _ | JMarketing | JOther _ => true
  | JProvideLiquidity (a, b) s _ => u128_ok (a_amount a) && u128_ok (a_amount b) && ou128_ok s
  | JSwap b m _ => ou128_ok b && ou128_ok m
  | JExecuteSwapOperations _ m _ => ou128_ok m
  | JExecuteSwapOperation _ _ => true
  | JAssertMinimumReceive _ p m _ => u128_ok p && u128_ok m
  | JUpdateConfig _ t p => ou64_ok t && ou64_ok p
  | JCreatePair _ r => reqs_ranges r
  | JAddNativeTokenDecimals _ d => u8_ok d
  | JMigratePair _ c => ou64_ok c
  end.
