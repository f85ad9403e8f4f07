(** The second allowance map of the token, which Token.v leaves out: cw20-base
    1.0.0 keeps ALLOWANCES_SPENDER, by spender and owner, beside ALLOWANCES and
    answers AllSpenderAllowances from it (contracts/halo-token/src/contract.rs:63-76
    delegates to it).  As in Token.v cw20-base is transcribed and part of the
    trusted base. *)
From Verif Require Import Base BigNumber CwStd Asset Messages Token Factory TokenQueries.
From Coq Require Import Ascii String.
Local Open Scope N_scope.

(** ALLOWANCES_SPENDER, keyed by (spender, owner) *)
Notation spender_map := (gmap (string * string) (uint128 * expiration)).

(** allowances.rs execute_increase_allowance, update_fn; both maps are updated
    with it, each from its own entry *)
Definition upd_increase (b : blockinfo) (n : uint128) (e : option expiration) (cur : option (uint128 * expiration))
  : res (uint128 * expiration) :=
  let '(v, old) := default (0, ENever) cur in
  let* exp := match e with
              | Some x => if is_expired x b then Err (ECw20 "Invalid expiration") else Ok x
              | None => Ok old
              end in
  let* v' := u128_add v n in
  Ok (v', exp).
(** allowances.rs deduct_allowance, update_fn; likewise *)
Definition upd_deduct (b : blockinfo) (n : uint128) (cur : option (uint128 * expiration)) : res (uint128 * expiration) :=
  match cur with
  | Some (v, e) =>
      if is_expired e b then Err (ECw20 "Allowance is expired") else
      let* v' := u128_checked_sub v n in Ok (v', e)
  | None => Err (ECw20 "No allowance for this account")
  end.

(** What a message writes to ALLOWANCES_SPENDER ([t] is the state before the
    message).  execute_decrease_allowance looks at ALLOWANCES only and saves the
    same value in, or removes the entry from, both maps. *)
Definition mirror_step (A : api) (b : blockinfo) (t : token_state) (als : spender_map) (sender : string) (m : jmsg)
  : res spender_map :=
  match m with
  | JIncreaseAllowance spender n e =>
      let* sp := addr_validate A spender in
      let* x := upd_increase b n e (als !! (sp, sender)) in
      Ok (<[(sp, sender) := x]> als)
  | JDecreaseAllowance spender n e =>
      let* sp := addr_validate A spender in
      match tk_allow t !! (sender, sp) with
      | None => Err ENotFound
      | Some (v, old) =>
          if n <? v then
            let* exp := match e with
                        | Some x => if is_expired x b then Err (ECw20 "Invalid expiration") else Ok x
                        | None => Ok old
                        end in
            Ok (<[(sp, sender) := (v - n, exp)]> als)
          else Ok (delete (sp, sender) als)
      end
  | JTransferFrom owner _ n | JBurnFrom owner n | JSendFrom owner _ n _ =>
      let* o := addr_validate A owner in
      let* x := upd_deduct b n (als !! (sender, o)) in
      Ok (<[(sender, o) := x]> als)
  | _ => Ok als
  end.

(** execute with both maps.  The code writes ALLOWANCES_SPENDER right after
    ALLOWANCES; here it is written at the end, so that of two errors another may
    be reported if the maps disagree. *)
Definition token_execute2 (A : api) (b : blockinfo) (t : token_state * spender_map) (sender : string) (m : jmsg)
  : res ((token_state * spender_map) * response) :=
  let* '(t', rsp) := token_execute A b t.1 sender m in
  let* als' := mirror_step A b t.1 t.2 sender m in
  Ok ((t', als'), rsp).

(** instantiate, contract.rs:18-61: writes neither map *)
Definition token_instantiate2 (A : api) (m : token_init) : res ((token_state * spender_map) * response) :=
  let* '(t, rsp) := token_instantiate A m in Ok ((t, ∅), rsp).

(** ALLOWANCES_SPENDER.prefix(spender): the entries of one spender, by owner *)
Definition granted_to (als : spender_map) (s : string) : list (string * (uint128 * expiration)) :=
  map (fun e => (e.1.2, e.2)) (List.filter (fun e => bool_decide (e.1.1 = s)) (map_to_list als)).

(** enumerable.rs query_spender_allowances *)
Definition token_spender_allowances (A : api) (t : token_state * spender_map) (spender : string)
    (start : option string) (limit : option N) : res (list (string * (uint128 * expiration))) :=
  let* s := addr_validate A spender in
  Ok (page_of (granted_to t.2 s) start limit).
