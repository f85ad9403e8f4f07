(** The remaining read-only entry points of the token,
    contracts/halo-token/src/contract.rs:73-76 (query = cw20_base's query):
    Minter, Allowance, AllAccounts, AllAllowances.  As in Token.v the cw20-base
    1.0.0 code (contract.rs query_minter, allowances.rs query_allowance,
    enumerable.rs) is transcribed and part of the trusted base.  Balance and
    TokenInfo are in Token.v.  MarketingInfo and DownloadLogo read items the
    contract never writes and are not modelled. *)
From Verif Require Import Base CwStd Asset Messages Token Factory.
From stdpp Require Import sorting.
From Coq Require Import Ascii String.
Local Open Scope N_scope.

(** query_minter: the minter and the cap, or null *)
Definition token_query_minter (t : token_state) : res (option (string * option uint128)) :=
  Ok (tk_mint t).

(** allowances.rs query_allowance: may_load(..).unwrap_or_default(), and the
    default of an Expiration is Never.  The answer says nothing about whether
    the expiration has passed. *)
Definition token_query_allowance (A : api) (t : token_state) (owner spender : string)
  : res (uint128 * expiration) :=
  let* o := addr_validate A owner in
  let* s := addr_validate A spender in
  Ok (default (0, ENever) (tk_allow t !! (o, s))).

(** Map::range / Map::keys in ascending order: entries in key order *)
Definition entry_le {V} (x y : string * V) : Prop := str_leb x.1 y.1 = true.
Global Instance entry_le_dec {V} : RelDecision (@entry_le V).
Proof. intros x y. unfold entry_le. apply _. Defined.
Definition in_order {V} (l : list (string * V)) : list (string * V) := merge_sort entry_le l.

(** enumerable.rs: MAX_LIMIT = 30, DEFAULT_LIMIT = 10; start_after becomes
    Bound::ExclusiveRaw of the raw bytes (the text is not validated). *)
Definition enum_limit (limit : option N) : nat := N.to_nat (N.min (default 10 limit) 30).
Definition page_of {V} (l : list (string * V)) (start : option string) (limit : option N)
  : list (string * V) :=
  let above := match start with
               | Some k => List.filter (fun e => str_ltb k e.1) (in_order l)
               | None => in_order l
               end in
  take (enum_limit limit) above.

(** enumerable.rs query_all_accounts: BALANCES.keys(..).take(limit) *)
Definition token_all_accounts (t : token_state) (start : option string) (limit : option N)
  : res (list string) :=
  Ok (map fst (page_of (map_to_list (tk_bal t)) start limit)).

(** ALLOWANCES.prefix(owner): the entries of one owner, by spender *)
Definition allowances_of (t : token_state) (o : string) : list (string * (uint128 * expiration)) :=
  map (fun e => (e.1.2, e.2)) (List.filter (fun e => bool_decide (e.1.1 = o)) (map_to_list (tk_allow t))).

(** enumerable.rs query_all_allowances *)
Definition token_all_allowances (A : api) (t : token_state) (owner : string)
    (start : option string) (limit : option N) : res (list (string * (uint128 * expiration))) :=
  let* o := addr_validate A owner in
  Ok (page_of (allowances_of t o) start limit).
