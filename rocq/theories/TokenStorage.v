(** The bytes in which contracts/halo-token keeps its state.  The contract
    delegates to cw20-base 1.0.0 (contract.rs:60-76), whose state.rs defines
    TOKEN_INFO, BALANCES, ALLOWANCES and ALLOWANCES_SPENDER.  As in Token.v its code
    is transcribed and part of the trusted base; here with every access to the store
    at its place, both allowance maps included.  Marketing and logo items are never
    written. *)
From Verif Require Import Base BigNumber CwStd Asset Messages PairMath Pair Token Factory Router Json Wire TokenQueries QueryWire Storage.
From Coq Require Import Ascii String.
Local Open Scope N_scope.
Local Open Scope string_scope.

(** cw20-base state.rs TokenInfo and MinterData *)
Record stored_info := StoredInfo { si_name : string; si_symbol : string; si_decimals : N; si_supply : uint128; si_mint : option (string * option uint128) }.
Definition w_stored_info (i : stored_info) : json :=
  VObj [("name", w_str (si_name i)); ("symbol", w_str (si_symbol i)); ("decimals", w_num (si_decimals i));
        ("total_supply", w_u128 (si_supply i)); ("mint", w_opt w_minter (si_mint i))].
Definition r_stored_info (v : json) : option stored_info :=
  struct ["name"; "symbol"; "decimals"; "total_supply"; "mint"] v (fun g =>
    let? n := required g "name" r_str in
    let? y := required g "symbol" r_str in
    let? d := required g "decimals" (r_num 256) in
    let? t := required g "total_supply" r_u128 in
    let? m := opt_field g "mint" r_minter in Some (StoredInfo n y d t m)).

(** state.rs: TOKEN_INFO, BALANCES by address, ALLOWANCES by (owner, spender) and
    ALLOWANCES_SPENDER by (spender, owner).  In the key of a pair the first
    component is preceded by its length (an address is shorter than 2^16 bytes). *)
Definition k_info : string := "token_info".
Definition k_bal (a : string) : string := map_key "balance" a.
Definition k_allow (o s : string) : string := map_key "allowance" (space o ++ s).
Definition k_grant (s o : string) : string := map_key "allowance_spender" (space s ++ o).

(** BALANCES.update(a, |b| b.unwrap_or_default().checked_sub(n)), and with + *)
Definition bt_debit (s : store) (a : string) (n : uint128) : res store :=
  let* b := may_load r_u128 (k_bal a) s in
  let* b' := u128_checked_sub (default 0%N b) n in
  Ok (save w_u128 (k_bal a) b' s).
Definition bt_credit (s : store) (a : string) (n : uint128) : res store :=
  let* b := may_load r_u128 (k_bal a) s in
  let* b' := u128_add (default 0%N b) n in
  Ok (save w_u128 (k_bal a) b' s).
(** allowances.rs deduct_allowance: the same function updates both maps, each from
    its own entry *)
Definition bt_deduct1 (s : store) (k : string) (b : blockinfo) (n : uint128) : res store :=
  let* cur := may_load r_allowance k s in
  match cur with
  | Some (v, e) =>
      if is_expired e b then Err (ECw20 "Allowance is expired") else
      let* v' := u128_checked_sub v n in
      Ok (save w_allowance k (v', e) s)
  | None => Err (ECw20 "No allowance for this account")
  end.
Definition bt_deduct (s : store) (owner spender : string) (b : blockinfo) (n : uint128) : res store :=
  let* s1 := bt_deduct1 s (k_allow owner spender) b n in
  bt_deduct1 s1 (k_grant spender owner) b n.
(** TOKEN_INFO.update(|mut info| { info.total_supply = info.total_supply.checked_sub(n)?; .. }) *)
Definition bt_less (s : store) (n : uint128) : res store :=
  let* i := load r_stored_info k_info s in
  let* t := u128_checked_sub (si_supply i) n in
  Ok (save w_stored_info k_info (StoredInfo (si_name i) (si_symbol i) (si_decimals i) t (si_mint i)) s).

(** contract.rs execute_transfer, execute_burn, execute_mint, execute_send *)
Definition bt_transfer (A : api) (s : store) (sender recipient : string) (n : uint128) : res (store * response) :=
  nonzero n ;;;
  let* rcpt := addr_validate A recipient in
  let* s1 := bt_debit s sender n in
  let* s2 := bt_credit s1 rcpt n in
  Ok (s2, Response [] [("action", "transfer"); ("from", sender); ("to", recipient); ("amount", dec_to_string n)]).
Definition bt_burn (s : store) (sender : string) (n : uint128) : res (store * response) :=
  nonzero n ;;;
  let* s1 := bt_debit s sender n in
  let* s2 := bt_less s1 n in
  Ok (s2, Response [] [("action", "burn"); ("from", sender); ("amount", dec_to_string n)]).
Definition bt_mint (A : api) (s : store) (sender recipient : string) (n : uint128) : res (store * response) :=
  nonzero n ;;;
  let* o := may_load r_stored_info k_info s in
  let* i := oget o EUnauthorized in
  match si_mint i with
  | None => Err EUnauthorized
  | Some (minter, cap) =>
      require (bool_decide (minter = sender)) EUnauthorized ;;;
      let* t := u128_add (si_supply i) n in
      (match cap with
       | Some c => require (negb (c <? t)%N) (ECw20 "Minting cannot exceed the cap")
       | None => Ok tt
       end) ;;;
      let s1 := save w_stored_info k_info (StoredInfo (si_name i) (si_symbol i) (si_decimals i) t (si_mint i)) s in
      let* rcpt := addr_validate A recipient in
      let* s2 := bt_credit s1 rcpt n in
      Ok (s2, Response [] [("action", "mint"); ("to", recipient); ("amount", dec_to_string n)])
  end.
Definition bt_send (A : api) (s : store) (sender contract : string) (n : uint128) (h : hook) : res (store * response) :=
  nonzero n ;;;
  let* rcpt := addr_validate A contract in
  let* s1 := bt_debit s sender n in
  let* s2 := bt_credit s1 rcpt n in
  Ok (s2, Response [plain (MExecute contract (JReceive sender n h) [])]
            [("action", "send"); ("from", sender); ("to", contract); ("amount", dec_to_string n)]).
(** execute_update_minter *)
Definition bt_update_minter (A : api) (s : store) (sender : string) (new : option string) : res (store * response) :=
  let* o := may_load r_stored_info k_info s in
  let* i := oget o EUnauthorized in
  match si_mint i with
  | None => Err EUnauthorized
  | Some (minter, cap) =>
      require (bool_decide (minter = sender)) EUnauthorized ;;;
      let* m := match new with
                | Some a => let* a' := addr_validate A a in Ok (Some (a', cap))
                | None => Ok None
                end in
      Ok (save w_stored_info k_info (StoredInfo (si_name i) (si_symbol i) (si_decimals i) (si_supply i) m) s,
          Response [] [("action", "update_minter"); ("new_minter", match m with Some (a, _) => a | None => "None" end)])
  end.
(** allowances.rs execute_increase_allowance: the same function updates both maps *)
Definition bt_increase1 (s : store) (k : string) (b : blockinfo) (n : uint128) (e : option expiration) : res store :=
  let* cur := may_load r_allowance k s in
  let '(v, old) := default (0%N, ENever) cur in
  let* exp := match e with
              | Some x => if is_expired x b then Err (ECw20 "Invalid expiration") else Ok x
              | None => Ok old
              end in
  let* v' := u128_add v n in
  Ok (save w_allowance k (v', exp) s).
Definition bt_increase (A : api) (s : store) (b : blockinfo) (sender spender : string) (n : uint128) (e : option expiration)
  : res (store * response) :=
  let* sp := addr_validate A spender in
  require (negb (bool_decide (sp = sender))) (ECw20 "Cannot set to own account") ;;;
  let* s1 := bt_increase1 s (k_allow sender sp) b n e in
  let* s2 := bt_increase1 s1 (k_grant sp sender) b n e in
  Ok (s2, Response [] [("action", "increase_allowance"); ("owner", sender); ("spender", spender); ("amount", dec_to_string n)]).
(** execute_decrease_allowance: reads ALLOWANCES only; saves in or removes from both *)
Definition bt_decrease (A : api) (s : store) (b : blockinfo) (sender spender : string) (n : uint128) (e : option expiration)
  : res (store * response) :=
  let* sp := addr_validate A spender in
  require (negb (bool_decide (sp = sender))) (ECw20 "Cannot set to own account") ;;;
  let* '(v, old) := load r_allowance (k_allow sender sp) s in
  let attrs := [("action", "decrease_allowance"); ("owner", sender); ("spender", spender); ("amount", dec_to_string n)] in
  if (n <? v)%N then
    let* exp := match e with
                | Some x => if is_expired x b then Err (ECw20 "Invalid expiration") else Ok x
                | None => Ok old
                end in
    Ok (save w_allowance (k_grant sp sender) ((v - n)%N, exp) (save w_allowance (k_allow sender sp) ((v - n)%N, exp) s), Response [] attrs)
  else Ok (delete (k_grant sp sender) (delete (k_allow sender sp) s), Response [] attrs).
(** execute_transfer_from, execute_burn_from, execute_send_from *)
Definition bt_transfer_from (A : api) (s : store) (b : blockinfo) (sender owner recipient : string) (n : uint128)
  : res (store * response) :=
  let* rcpt := addr_validate A recipient in
  let* o := addr_validate A owner in
  let* s1 := bt_deduct s o sender b n in
  let* s2 := bt_debit s1 o n in
  let* s3 := bt_credit s2 rcpt n in
  Ok (s3, Response [] [("action", "transfer_from"); ("from", owner); ("to", recipient); ("by", sender); ("amount", dec_to_string n)]).
Definition bt_burn_from (A : api) (s : store) (b : blockinfo) (sender owner : string) (n : uint128) : res (store * response) :=
  let* o := addr_validate A owner in
  let* s1 := bt_deduct s o sender b n in
  let* s2 := bt_debit s1 o n in
  let* s3 := bt_less s2 n in
  Ok (s3, Response [] [("action", "burn_from"); ("from", owner); ("by", sender); ("amount", dec_to_string n)]).
Definition bt_send_from (A : api) (s : store) (b : blockinfo) (sender owner contract : string) (n : uint128) (h : hook)
  : res (store * response) :=
  let* rcpt := addr_validate A contract in
  let* o := addr_validate A owner in
  let* s1 := bt_deduct s o sender b n in
  let* s2 := bt_debit s1 o n in
  let* s3 := bt_credit s2 rcpt n in
  Ok (s3, Response [plain (MExecute contract (JReceive sender n h) [])]
            [("action", "send_from"); ("from", owner); ("to", contract); ("by", sender); ("amount", dec_to_string n)]).
(** execute, contracts/halo-token/src/contract.rs:63-71 *)
Definition bt_execute (A : api) (b : blockinfo) (s : store) (sender : string) (m : jmsg) : res (store * response) :=
  if negb (jmsg_ranges m) then Err EParse else
  match m with
  | JTransfer r n => bt_transfer A s sender r n
  | JBurn n => bt_burn s sender n
  | JSend c n h => bt_send A s sender c n h
  | JMint r n => bt_mint A s sender r n
  | JIncreaseAllowance p n e => bt_increase A s b sender p n e
  | JDecreaseAllowance p n e => bt_decrease A s b sender p n e
  | JTransferFrom o r n => bt_transfer_from A s b sender o r n
  | JBurnFrom o n => bt_burn_from A s b sender o n
  | JSendFrom o c n h => bt_send_from A s b sender o c n h
  | JUpdateMinter n => bt_update_minter A s sender n
  | JMarketing => Err EUnauthorized
  | _ => Err EParse
  end.

(** cw20-base create_accounts, and instantiate, contracts/halo-token/src/contract.rs:18-61 *)
Fixpoint bt_rows (A : api) (rows : list (string * uint128)) (s : store) (total : uint128) : res (store * uint128) :=
  match rows with
  | [] => Ok (s, total)
  | (a, n) :: r =>
      let* a' := addr_validate A a in
      let* total' := u128_add total n in
      bt_rows A r (save w_u128 (k_bal a') n s) total'
  end.
Definition bt_instantiate (A : api) (s : store) (m : token_init) : res (store * response) :=
  if negb (token_init_ranges m) then Err EParse else
  let s := set_version "crates.io:cw20-base" s in
  token_validate m ;;;
  require (bool_decide (NoDup (map fst (in_balances m)))) (ECw20 "Duplicate initial balance addresses") ;;;
  let* '(s1, total) := bt_rows A (in_balances m) s 0%N in
  (match get_cap (in_mint m) with
   | Some cap => require (negb (cap <? total)%N) (EStd "Initial supply greater than cap")
   | None => Ok tt
   end) ;;;
  let* mint := match in_mint m with
               | Some (a, cap) => let* a' := addr_validate A a in Ok (Some (a', cap))
               | None => Ok None
               end in
  Ok (save w_stored_info k_info (StoredInfo (in_name m) (in_symbol m) (in_decimals m) total mint) s1, Response [] []).

(** contract.rs query_balance, query_token_info, query_minter; allowances.rs
    query_allowance *)
Definition bt_query_balance (A : api) (s : store) (a : string) : res uint128 :=
  let* a' := addr_validate A a in let* b := may_load r_u128 (k_bal a') s in Ok (default 0%N b).
Definition bt_query_info (s : store) : res token_info :=
  let* i := load r_stored_info k_info s in Ok (TokenInfo (si_name i) (si_symbol i) (si_decimals i) (si_supply i)).
Definition bt_query_minter (s : store) : res (option (string * option uint128)) :=
  let* i := load r_stored_info k_info s in Ok (si_mint i).
Definition bt_query_allowance (A : api) (s : store) (owner spender : string) : res (uint128 * expiration) :=
  let* o := addr_validate A owner in
  let* p := addr_validate A spender in
  let* a := may_load r_allowance (k_allow o p) s in Ok (default (0%N, ENever) a).
(** enumerable.rs query_all_accounts: BALANCES.keys; keys are taken to be UTF-8 *)
Definition bt_all_accounts (s : store) (start : option string) (limit : option N) : res (list string) :=
  Ok (map fst (take (enum_limit limit) (range_from s "balance" start))).
(** query_owner_allowances, query_spender_allowances: the map's prefix for the
    owner or spender, values read as the page is collected *)
Definition bt_page (s : store) (ns a : string) (start : option string) (limit : option N) : res (list (string * (uint128 * expiration))) :=
  rmap (fun e => match from_bytes r_allowance e.2 with Some x => Ok (e.1, x) | None => Err EParse end)
    (take (enum_limit limit) (range_in s (map_key ns (space a)) start)).
Definition bt_all_allowances (A : api) (s : store) (owner : string) (start : option string) (limit : option N)
  : res (list (string * (uint128 * expiration))) :=
  let* o := addr_validate A owner in bt_page s "allowance" o start limit.
Definition bt_spender_allowances (A : api) (s : store) (spender : string) (start : option string) (limit : option N)
  : res (list (string * (uint128 * expiration))) :=
  let* p := addr_validate A spender in bt_page s "allowance_spender" p start limit.
(** query, contracts/halo-token/src/contract.rs:73-76 *)
Definition bt_query (A : api) (s : store) (q : qmsg) : res answer :=
  match q with
  | QBalance a => give ABalance (bt_query_balance A s a)
  | QTokenInfo => give ATokenInfo (bt_query_info s)
  | QMinter => give AMinter (bt_query_minter s)
  | QAllowance o p => give AAllowance (bt_query_allowance A s o p)
  | QAllAllowances o st l => give AAllowances (bt_all_allowances A s o st l)
  | QAllAccounts st l => give AAccounts (bt_all_accounts s st l)
  | _ => Err EParse
  end.
