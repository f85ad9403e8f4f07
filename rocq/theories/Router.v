(** contracts/halo-router/src/contract.rs and operations.rs. *)
From Verif Require Import Base CwStd Asset Messages.
Local Open Scope N_scope.

(** state.rs Config: the factory's canonical address *)
Definition router_state := string.

(** instantiate, contract.rs:28-44 *)
Definition router_instantiate (A : api) (halo_factory : string) : res (router_state * response) :=
  let* c := addr_canonicalize A halo_factory in Ok (c, Response [] []).

(** optional_addr_validate, contract.rs:90-98 *)
Definition optional_addr_validate (A : api) (o : option string) : res (option string) :=
  match o with
  | Some a => let* a' := addr_validate A a in Ok (Some a')
  | None => Ok None
  end.

(** assert_operations, contract.rs:336-357.  The HashMap<String, bool> only
    ever maps to true: it is a set of display strings. *)
Definition open_outputs (ops : list swap_op) : gset string :=
  fold_left (fun s o => {[ info_to_string (op_ask o) ]} ∪ (s ∖ {[ info_to_string (op_offer o) ]})) ops ∅.
Definition assert_operations (ops : list swap_op) : res unit :=
  require (bool_decide (size (open_outputs ops) = 1%nat))
    (EStd "invalid operations; multiple output token").

(** the messages of contract.rs:145-163: only the last operation carries a
    recipient *)
Fixpoint op_messages (self to : string) (ops : list swap_op) : list cmsg :=
  match ops with
  | [] => []
  | [o] => [MExecute self (JExecuteSwapOperation o (Some to)) []]
  | o :: r => MExecute self (JExecuteSwapOperation o None) [] :: op_messages self to r
  end.

(** execute_swap_operations, contract.rs:126-182 *)
Definition execute_swap_operations (A : api) (Q : querier) (self : string) (st : router_state)
    (sender : string) (ops : list swap_op) (minimum_receive : option uint128) (to : option string)
  : res (router_state * response) :=
  match list.last ops with
  | None => Err (EStd "must provide operations")
  | Some lst =>
      assert_operations ops ;;;
      let to := default sender to in
      let msgs := op_messages self to ops in
      match minimum_receive with
      | None => Ok (st, Response (map plain msgs) [])
      | Some m =>
          let* b := query_pool A Q (op_ask lst) to in
          Ok (st, Response (map plain (msgs ++
                [MExecute self (JAssertMinimumReceive (op_ask lst) b m to) []])) [])
      end
  end.

(** asset_into_swap_msg, operations.rs:68-102; max_spread is always None *)
Definition asset_into_swap_msg (pair : string) (offer : asset) (to : option string) : cmsg :=
  match a_info offer with
  | Native d => MExecute pair (JSwap None None to) [Coin d (a_amount offer)]
  | Token t => MExecute t (JSend pair (a_amount offer) (HSwap None None to)) []
  end.

(** execute_swap_operation, operations.rs:16-66 *)
Definition execute_swap_operation (A : api) (Q : querier) (self : string) (st : router_state)
    (sender : string) (o : swap_op) (to : option string) : res (router_state * response) :=
  require (bool_decide (self = sender)) (EStd "unauthorized") ;;;
  let* f := addr_humanize A st in
  let* p := q_pair_info Q f (op_offer o, op_ask o) in
  let* amount := match op_offer o with
                 | Native d => q_balance Q self d
                 | Token t => let* t' := addr_validate A t in q_token_balance Q t' self
                 end in
  Ok (st, Response [plain (asset_into_swap_msg (p_contract_addr p) (Asset (op_offer o) amount) to)] []).

(** assert_minium_receive, contract.rs:184-202 *)
Definition assert_minimum_receive (A : api) (Q : querier) (st : router_state)
    (info : asset_info) (prev minimum : uint128) (receiver : string) : res (router_state * response) :=
  let* b := query_pool A Q info receiver in
  let* got := u128_checked_sub b prev in
  if got <? minimum then Err (EStd "assertion failed; minimum receive amount")
  else Ok (st, Response [] []).

(** receive_cw20, contract.rs:100-124 *)
Definition router_receive (A : api) (Q : querier) (self : string) (st : router_state)
    (sender : string) (h : hook) : res (router_state * response) :=
  let* s := addr_validate A sender in
  if negb (hook_ranges h) then Err EParse else
  match h with
  | HExecuteSwapOperations ops m to =>
      let* to' := optional_addr_validate A to in
      execute_swap_operations A Q self st s ops m to'
  | _ => Err EParse
  end.

(** execute, contract.rs:47-88 *)
Definition router_execute (A : api) (Q : querier) (self : string) (st : router_state)
    (sender : string) (m : jmsg) : res (router_state * response) :=
  if negb (jmsg_ranges m) then Err EParse else
  match m with
  | JReceive s _ h => router_receive A Q self st s h
  | JExecuteSwapOperations ops mr to =>
      let* to' := optional_addr_validate A to in
      execute_swap_operations A Q self st sender ops mr to'
  | JExecuteSwapOperation o to =>
      let* to' := optional_addr_validate A to in
      execute_swap_operation A Q self st sender o to'
  | JAssertMinimumReceive i p mr r =>
      let* r' := addr_validate A r in
      assert_minimum_receive A Q st i p mr r'
  | _ => Err EParse
  end.

(** simulate_swap_operations, contract.rs:230-273 *)
Fixpoint simulate_ops (Q : querier) (f : string) (amount : uint128) (ops : list swap_op) : res uint128 :=
  match ops with
  | [] => Ok amount
  | o :: r =>
      let* p := q_pair_info Q f (op_offer o, op_ask o) in
      let* s := q_simulate Q (p_contract_addr p) (Asset (op_offer o) amount) in
      simulate_ops Q f (s_return s) r
  end.
Definition router_simulate (A : api) (Q : querier) (st : router_state)
    (offer_amount : uint128) (ops : list swap_op) : res uint128 :=
  if negb (u128_ok offer_amount) then Err EParse else
  let* f := addr_humanize A st in
  match ops with
  | [] => Err (EStd "must provide operations")
  | _ => simulate_ops Q f offer_amount ops
  end.

(** reverse_simulate_return_amount, contract.rs:311-334; its result is
    unwrapped at 303, so an error aborts *)
Definition reverse_step (Q : querier) (f : string) (ask_amount : uint128) (o : swap_op) : res uint128 :=
  let r := let* p := q_pair_info Q f (op_offer o, op_ask o) in
           let* s := q_reverse_simulate Q (p_contract_addr p) (Asset (op_ask o) ask_amount) in
           Ok (rs_offer s) in
  match r with Ok v => Ok v | Err _ => panic "called Result::unwrap() on an Err value" end.

(** reverse_simulate_swap_operations, contract.rs:275-309; [rops] is the
    reversed list *)
Fixpoint reverse_ops (A : api) (Q : querier) (st : router_state) (amount : uint128) (rops : list swap_op)
  : res uint128 :=
  match rops with
  | [] => Ok amount
  | o :: r =>
      let* f := addr_humanize A st in
      let* a := reverse_step Q f amount o in
      reverse_ops A Q st a r
  end.
Definition router_reverse_simulate (A : api) (Q : querier) (st : router_state)
    (ask_amount : uint128) (ops : list swap_op) : res uint128 :=
  if negb (u128_ok ask_amount) then Err EParse else
  match ops with
  | [] => Err (EStd "must provide operations")
  | _ => reverse_ops A Q st ask_amount (rev ops)
  end.

(** migrate, contract.rs:415-419: only the cw2 version changes *)
Definition router_migrate (st : router_state) : res (router_state * response) :=
  Ok (st, Response [] []).
