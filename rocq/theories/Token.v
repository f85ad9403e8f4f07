(** contracts/halo-token/src/contract.rs, packages/haloswap/src/token.rs, and
    the cw20-base 1.0.0 code it delegates to (contract.rs execute_*,
    allowances.rs).  cw20-base is not in /repo: its behaviour is transcribed
    here and is part of the trusted base.

    Storage: TOKEN_INFO, BALANCES, ALLOWANCES.  ALLOWANCES_SPENDER is a mirror
    of ALLOWANCES and is added in TokenMirror.v; marketing and logo items are never
    written (instantiate sets none), so the marketing messages always fail. *)
From Verif Require Import Base BigNumber CwStd Asset Messages.
From Coq Require Import Ascii String.
Local Open Scope N_scope.

Record token_state := TokenState {
  tk_name : string; tk_symbol : string; tk_decimals : N;
  tk_supply : uint128;
  tk_mint : option (string * option uint128);            (* minter, cap *)
  tk_bal : gmap string uint128;
  tk_allow : gmap (string * string) (uint128 * expiration);  (* (owner, spender) *)
}.

(** is_valid_name, token.rs:40-46 *)
Definition is_valid_name (s : string) : bool :=
  negb ((String.length s <? 3)%nat || (50 <? String.length s)%nat).

(** the byte test of is_valid_symbol, token.rs:53-57 *)
Definition symbol_byte_ok (c : ascii) : bool :=
  let b := N_of_ascii c in
  negb (negb (b =? 45) && ((b <? 65) || (90 <? b)) && ((b <? 97) || (122 <? b))).
Fixpoint all_bytes (f : ascii -> bool) (s : string) : bool :=
  match s with EmptyString => true | String c r => f c && all_bytes f r end.

(** is_valid_symbol, token.rs:48-59 *)
Definition is_valid_symbol (s : string) : bool :=
  if (String.length s <? 3)%nat || (12 <? String.length s)%nat then false
  else all_bytes symbol_byte_ok s.

(** InstantiateMsg::validate, token.rs:21-37 *)
Definition token_validate (m : token_init) : res unit :=
  require (is_valid_name (in_name m)) (EStd "Name is not in the expected format (3-50 UTF-8 bytes)") ;;;
  require (is_valid_symbol (in_symbol m)) (EStd "Ticker symbol is not in expected format") ;;;
  require (negb (18 <? in_decimals m)) (EStd "Decimals must not exceed 18").

(** cw20-base create_accounts: validate_accounts refuses duplicate address
    texts; then each row is validated, stored and summed. *)
Fixpoint create_rows (A : api) (rows : list (string * uint128))
    (bal : gmap string uint128) (total : uint128) : res (gmap string uint128 * uint128) :=
  match rows with
  | [] => Ok (bal, total)
  | (a, n) :: r =>
      let* a' := addr_validate A a in
      let* total' := u128_add total n in
      create_rows A r (<[a' := n]> bal) total'
  end.
Definition create_accounts (A : api) (rows : list (string * uint128))
  : res (gmap string uint128 * uint128) :=
  require (bool_decide (NoDup (map fst rows))) (ECw20 "Duplicate initial balance addresses") ;;;
  create_rows A rows ∅ 0.

Definition get_cap (m : option (string * option uint128)) : option uint128 :=
  match m with Some (_, c) => c | None => None end.

Definition token_init_ranges (m : token_init) : bool :=
  u8_ok (in_decimals m) && forallb (fun r => u128_ok (snd r)) (in_balances m) &&
  ou128_ok (get_cap (in_mint m)).

(** instantiate, contract.rs:18-61 *)
Definition token_instantiate (A : api) (m : token_init) : res (token_state * response) :=
  if negb (token_init_ranges m) then Err EParse else
  token_validate m ;;;
  let* '(bal, total) := create_accounts A (in_balances m) in
  (match get_cap (in_mint m) with
   | Some cap => require (negb (cap <? total)) (EStd "Initial supply greater than cap")
   | None => Ok tt
   end) ;;;
  let* mint := match in_mint m with
               | Some (a, cap) => let* a' := addr_validate A a in Ok (Some (a', cap))
               | None => Ok None
               end in
  Ok (TokenState (in_name m) (in_symbol m) (in_decimals m) total mint bal ∅,
      Response [] []).

Definition balance_of (t : token_state) (a : string) : uint128 := default 0 (tk_bal t !! a).

Definition set_bal (t : token_state) (b : gmap string uint128) : token_state :=
  TokenState (tk_name t) (tk_symbol t) (tk_decimals t) (tk_supply t) (tk_mint t) b (tk_allow t).
Definition set_supply (t : token_state) (s : uint128) : token_state :=
  TokenState (tk_name t) (tk_symbol t) (tk_decimals t) s (tk_mint t) (tk_bal t) (tk_allow t).
Definition set_allow (t : token_state) (a : gmap (string * string) (uint128 * expiration)) : token_state :=
  TokenState (tk_name t) (tk_symbol t) (tk_decimals t) (tk_supply t) (tk_mint t) (tk_bal t) a.
Definition set_mint (t : token_state) (m : option (string * option uint128)) : token_state :=
  TokenState (tk_name t) (tk_symbol t) (tk_decimals t) (tk_supply t) m (tk_bal t) (tk_allow t).

(** BALANCES.update(a, |b| b.unwrap_or_default().checked_sub(n)) *)
Definition debit (t : token_state) (a : string) (n : uint128) : res token_state :=
  let* b := u128_checked_sub (balance_of t a) n in
  Ok (set_bal t (<[a := b]> (tk_bal t))).
(** BALANCES.update(a, |b| b.unwrap_or_default() + n) *)
Definition credit (t : token_state) (a : string) (n : uint128) : res token_state :=
  let* b := u128_add (balance_of t a) n in
  Ok (set_bal t (<[a := b]> (tk_bal t))).

(** cw_utils Expiration::is_expired *)
Definition is_expired (e : expiration) (b : blockinfo) : bool :=
  match e with
  | EAtHeight h => h <=? b_height b
  | EAtTime t => t <=? b_time b
  | ENever => false
  end.

(** allowances.rs deduct_allowance *)
Definition deduct_allowance (t : token_state) (owner spender : string) (b : blockinfo) (n : uint128)
  : res token_state :=
  match tk_allow t !! (owner, spender) with
  | Some (v, e) =>
      if is_expired e b then Err (ECw20 "Allowance is expired") else
      let* v' := u128_checked_sub v n in
      Ok (set_allow t (<[(owner, spender) := (v', e)]> (tk_allow t)))
  | None => Err (ECw20 "No allowance for this account")
  end.

Definition nonzero (n : uint128) : res unit := require (negb (n =? 0)) EInvalidZeroAmount.

(** execute_transfer *)
Definition token_transfer (A : api) (t : token_state) (sender recipient : string) (n : uint128)
  : res (token_state * response) :=
  nonzero n ;;;
  let* rcpt := addr_validate A recipient in
  let* t1 := debit t sender n in
  let* t2 := credit t1 rcpt n in
  Ok (t2, Response [] [("action", "transfer"); ("from", sender); ("to", recipient); ("amount", dec_to_string n)]%string).

(** execute_burn *)
Definition token_burn (t : token_state) (sender : string) (n : uint128) : res (token_state * response) :=
  nonzero n ;;;
  let* t1 := debit t sender n in
  let* s := u128_checked_sub (tk_supply t1) n in
  Ok (set_supply t1 s, Response [] [("action", "burn"); ("from", sender); ("amount", dec_to_string n)]%string).

(** execute_mint *)
Definition token_mint (A : api) (t : token_state) (sender recipient : string) (n : uint128)
  : res (token_state * response) :=
  nonzero n ;;;
  match tk_mint t with
  | None => Err EUnauthorized
  | Some (minter, cap) =>
      require (bool_decide (minter = sender)) EUnauthorized ;;;
      let* s := u128_add (tk_supply t) n in
      (match cap with
       | Some c => require (negb (c <? s)) (ECw20 "Minting cannot exceed the cap")
       | None => Ok tt
       end) ;;;
      let* rcpt := addr_validate A recipient in
      let* t1 := credit (set_supply t s) rcpt n in
      Ok (t1, Response [] [("action", "mint"); ("to", recipient); ("amount", dec_to_string n)]%string)
  end.

(** execute_send: move, then call Receive on the contract *)
Definition token_send (A : api) (t : token_state) (sender contract : string) (n : uint128) (h : hook)
  : res (token_state * response) :=
  nonzero n ;;;
  let* rcpt := addr_validate A contract in
  let* t1 := debit t sender n in
  let* t2 := credit t1 rcpt n in
  Ok (t2, Response [plain (MExecute contract (JReceive sender n h) [])]
            [("action", "send"); ("from", sender); ("to", contract); ("amount", dec_to_string n)]%string).

(** execute_update_minter *)
Definition token_update_minter (A : api) (t : token_state) (sender : string) (new : option string)
  : res (token_state * response) :=
  match tk_mint t with
  | None => Err EUnauthorized
  | Some (minter, cap) =>
      require (bool_decide (minter = sender)) EUnauthorized ;;;
      let* m := match new with
                | Some a => let* a' := addr_validate A a in Ok (Some (a', cap))
                | None => Ok None
                end in
      Ok (set_mint t m, Response [] [("action", "update_minter"); ("new_minter", match m with Some (a, _) => a | None => "None" end)]%string)
  end.

(** allowances.rs execute_increase_allowance *)
Definition token_increase (A : api) (t : token_state) (b : blockinfo) (sender spender : string)
    (n : uint128) (e : option expiration) : res (token_state * response) :=
  let* sp := addr_validate A spender in
  require (negb (bool_decide (sp = sender))) (ECw20 "Cannot set to own account") ;;;
  let '(v, old) := default (0, ENever) (tk_allow t !! (sender, sp)) in
  let* exp := match e with
              | Some x => if is_expired x b then Err (ECw20 "Invalid expiration") else Ok x
              | None => Ok old
              end in
  let* v' := u128_add v n in
  Ok (set_allow t (<[(sender, sp) := (v', exp)]> (tk_allow t)),
      Response [] [("action", "increase_allowance"); ("owner", sender); ("spender", spender); ("amount", dec_to_string n)]%string).

(** allowances.rs execute_decrease_allowance *)
Definition token_decrease (A : api) (t : token_state) (b : blockinfo) (sender spender : string)
    (n : uint128) (e : option expiration) : res (token_state * response) :=
  let* sp := addr_validate A spender in
  require (negb (bool_decide (sp = sender))) (ECw20 "Cannot set to own account") ;;;
  match tk_allow t !! (sender, sp) with
  | None => Err ENotFound
  | Some (v, old) =>
      let attrs := [("action", "decrease_allowance"); ("owner", sender); ("spender", spender); ("amount", dec_to_string n)]%string in
      if n <? v then
        let* exp := match e with
                    | Some x => if is_expired x b then Err (ECw20 "Invalid expiration") else Ok x
                    | None => Ok old
                    end in
        Ok (set_allow t (<[(sender, sp) := (v - n, exp)]> (tk_allow t)), Response [] attrs)
      else Ok (set_allow t (delete (sender, sp) (tk_allow t)), Response [] attrs)
  end.

(** allowances.rs execute_transfer_from (no zero check) *)
Definition token_transfer_from (A : api) (t : token_state) (b : blockinfo) (sender owner recipient : string)
    (n : uint128) : res (token_state * response) :=
  let* rcpt := addr_validate A recipient in
  let* o := addr_validate A owner in
  let* t1 := deduct_allowance t o sender b n in
  let* t2 := debit t1 o n in
  let* t3 := credit t2 rcpt n in
  Ok (t3, Response [] [("action", "transfer_from"); ("from", owner); ("to", recipient); ("by", sender); ("amount", dec_to_string n)]%string).

(** allowances.rs execute_burn_from *)
Definition token_burn_from (A : api) (t : token_state) (b : blockinfo) (sender owner : string)
    (n : uint128) : res (token_state * response) :=
  let* o := addr_validate A owner in
  let* t1 := deduct_allowance t o sender b n in
  let* t2 := debit t1 o n in
  let* s := u128_checked_sub (tk_supply t2) n in
  Ok (set_supply t2 s, Response [] [("action", "burn_from"); ("from", owner); ("by", sender); ("amount", dec_to_string n)]%string).

(** allowances.rs execute_send_from: Receive's sender is the spender *)
Definition token_send_from (A : api) (t : token_state) (b : blockinfo) (sender owner contract : string)
    (n : uint128) (h : hook) : res (token_state * response) :=
  let* rcpt := addr_validate A contract in
  let* o := addr_validate A owner in
  let* t1 := deduct_allowance t o sender b n in
  let* t2 := debit t1 o n in
  let* t3 := credit t2 rcpt n in
  Ok (t3, Response [plain (MExecute contract (JReceive sender n h) [])]
            [("action", "send_from"); ("from", owner); ("to", contract); ("by", sender); ("amount", dec_to_string n)]%string).

(** execute, contract.rs:63-71 = cw20_base::contract::execute *)
Definition token_execute (A : api) (b : blockinfo) (t : token_state) (sender : string) (m : jmsg)
  : res (token_state * response) :=
  if negb (jmsg_ranges m) then Err EParse else
  match m with
  | JTransfer r n => token_transfer A t sender r n
  | JBurn n => token_burn t sender n
  | JSend c n h => token_send A t sender c n h
  | JMint r n => token_mint A t sender r n
  | JIncreaseAllowance s n e => token_increase A t b sender s n e
  | JDecreaseAllowance s n e => token_decrease A t b sender s n e
  | JTransferFrom o r n => token_transfer_from A t b sender o r n
  | JBurnFrom o n => token_burn_from A t b sender o n
  | JSendFrom o c n h => token_send_from A t b sender o c n h
  | JUpdateMinter n => token_update_minter A t sender n
  | JMarketing => Err EUnauthorized
  | _ => Err EParse
  end.

(** query Balance: validates the address; query TokenInfo *)
Definition token_query_balance (A : api) (t : token_state) (a : string) : res uint128 :=
  let* a' := addr_validate A a in Ok (balance_of t a').
Definition token_query_info (t : token_state) : res token_info :=
  Ok (TokenInfo (tk_name t) (tk_symbol t) (tk_decimals t) (tk_supply t)).
