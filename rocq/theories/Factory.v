(** contracts/halo-factory/src/contract.rs and state.rs. *)
From Verif Require Import Base BigNumber CwStd Asset Messages.
From stdpp Require Import sorting.
From Coq Require Import Ascii String.
Local Open Scope N_scope.

(** state.rs:15-22 TmpPairInfo *)
Record tmp_pair := TmpPair {
  t_key : string; t_infos : asset_info_raw * asset_info_raw; t_decimals : N * N }.

(** CONFIG (state.rs:7-13), ALLOW_NATIVE_TOKENS (71), PAIRS and TMP_PAIR_INFO
    (22-23).  Storage keys are byte strings. *)
Record factory_state := FactoryState {
  f_owner : string; f_pair_code : N; f_token_code : N;
  f_native : gmap string N;
  f_pairs : gmap string pair_info_raw;
  f_tmp : option tmp_pair;
}.

(** byte-wise lexicographic order *)
Definition str_leb (a b : string) : bool :=
  match String.compare a b with Gt => false | _ => true end.
Definition str_ltb (a b : string) : bool :=
  match String.compare a b with Lt => true | _ => false end.

(** pair_key, state.rs:26-31; sort_by is stable *)
Definition pair_key (i : asset_info_raw * asset_info_raw) : string :=
  let a := raw_bytes i.1 in
  let b := raw_bytes i.2 in
  if str_leb a b then (a ++ b)%string else (b ++ a)%string.

(** instantiate, contract.rs:28-45 *)
Definition factory_instantiate (A : api) (sender : string) (pair_code token_code : N)
  : res (factory_state * response) :=
  if negb (u64_ok pair_code && u64_ok token_code) then Err EParse else
  let* o := addr_canonicalize A sender in
  Ok (FactoryState o pair_code token_code ∅ ∅ None, Response [] []).

(** the permission check of contract.rs:80, 186, 216 *)
Definition owner_only (A : api) (st : factory_state) (sender : string) : res unit :=
  let* c := addr_canonicalize A sender in
  require (bool_decide (c = f_owner st)) (EStd "unauthorized").

(** execute_update_config, contract.rs:69-102 *)
Definition update_config (A : api) (st : factory_state) (sender : string)
    (owner : option string) (token_code pair_code : option N) : res (factory_state * response) :=
  owner_only A st sender ;;;
  let* o := match owner with
            | Some a => addr_validate A a ;;; addr_canonicalize A a
            | None => Ok (f_owner st)
            end in
  Ok (FactoryState o (default (f_pair_code st) pair_code) (default (f_token_code st) token_code)
        (f_native st) (f_pairs st) (f_tmp st),
      Response [] [("action", "update_config")]%string).

(** a query error becomes the given generic error, contract.rs:120-130 *)
Definition or_invalid {X} (r : res X) (msg : string) : res X :=
  match r with Ok x => Ok x | Err _ => Err (EStd msg) end.

(** execute_create_pair, contract.rs:105-174 *)
Definition create_pair (A : api) (Q : querier) (self : string) (st : factory_state)
    (infos : asset_info * asset_info) (reqs : requirements) : res (factory_state * response) :=
  require (negb (bool_decide (infos.1 = infos.2))) (EStd "same asset") ;;;
  let* d0 := or_invalid (query_decimals Q infos.1 self) "asset1 is invalid" in
  let* d1 := or_invalid (query_decimals Q infos.2 self) "asset2 is invalid" in
  let* r0 := info_to_raw A infos.1 in
  let* r1 := info_to_raw A infos.2 in
  let key := pair_key (r0, r1) in
  match f_pairs st !! key with
  | Some _ => Err (EStd "Pair already exists")
  | None =>
      Ok (FactoryState (f_owner st) (f_pair_code st) (f_token_code st) (f_native st) (f_pairs st)
            (Some (TmpPair key (r0, r1) (d0, d1))),
          Response
            [SubMsg (MInstantiate (Some self) (f_pair_code st)
                       (IPair infos (f_token_code st) (d0, d1) reqs) [] "pair")
                    (ReplySuccess 1)]
            [("action", "create_pair");
             ("pair", (info_to_string infos.1 ++ "-" ++ info_to_string infos.2)%string)]%string)
  end.

(** execute_add_native_token_decimals, contract.rs:176-204 *)
Definition add_native (A : api) (Q : querier) (self : string) (st : factory_state) (sender : string)
    (denom : string) (decimals : N) : res (factory_state * response) :=
  owner_only A st sender ;;;
  let* b := q_balance Q self denom in
  require (negb (b =? 0)) (EStd "a balance greater than zero is required by the factory for verification") ;;;
  Ok (FactoryState (f_owner st) (f_pair_code st) (f_token_code st)
        (<[denom := decimals]> (f_native st)) (f_pairs st) (f_tmp st),
      Response [] [("action", "add_allow_native_token"); ("denom", denom);
                   ("decimals", dec_to_string decimals)]%string).

(** execute_migrate_pair, contract.rs:206-229 *)
Definition migrate_pair (A : api) (st : factory_state) (sender contract : string) (code : option N)
  : res (factory_state * response) :=
  owner_only A st sender ;;;
  Ok (st, Response [plain (MMigrate contract (default (f_pair_code st) code))] []).

(** execute, contract.rs:48-66 *)
Definition factory_execute (A : api) (Q : querier) (self : string) (st : factory_state)
    (sender : string) (m : jmsg) : res (factory_state * response) :=
  if negb (jmsg_ranges m) then Err EParse else
  match m with
  | JUpdateConfig o t p => update_config A st sender o t p
  | JCreatePair infos reqs => create_pair A Q self st infos reqs
  | JAddNativeTokenDecimals d n => add_native A Q self st sender d n
  | JMigratePair c code => migrate_pair A st sender c code
  | _ => Err EParse
  end.

(** reply, contract.rs:233-262 *)
Definition factory_reply (A : api) (Q : querier) (st : factory_state) (pair_contract : string)
  : res (factory_state * response) :=
  let* tmp := oget (f_tmp st) ENotFound in
  let* p := q_pair_self Q pair_contract in
  let* lp := addr_canonicalize A (p_liquidity_token p) in
  let* c := addr_canonicalize A pair_contract in
  Ok (FactoryState (f_owner st) (f_pair_code st) (f_token_code st) (f_native st)
        (<[t_key tmp := PairInfoRaw (t_infos tmp) c lp (t_decimals tmp) (p_requirements p)]> (f_pairs st))
        (f_tmp st),
      Response [] [("pair_contract_addr", pair_contract);
                   ("liquidity_token_addr", p_liquidity_token p)]%string).

(** query_config, contract.rs:278-287 *)
Definition factory_query_config (A : api) (st : factory_state) : res (string * N * N) :=
  let* o := addr_humanize A (f_owner st) in Ok (o, f_token_code st, f_pair_code st).

(** query_pair, contract.rs:289-296 *)
Definition factory_query_pair (A : api) (st : factory_state) (infos : asset_info * asset_info)
  : res pair_info :=
  let* r0 := info_to_raw A infos.1 in
  let* r1 := info_to_raw A infos.2 in
  let* p := oget (f_pairs st !! pair_key (r0, r1)) ENotFound in
  pair_to_normal A p.

(** query_native_token_decimal, contract.rs:318-325 *)
Definition factory_query_native (st : factory_state) (denom : string) : res N :=
  oget (f_native st !! denom) ENotFound.

(** PAIRS.range(.., Order::Ascending): entries in key order *)
Definition key_le (x y : string * pair_info_raw) : Prop := str_leb x.1 y.1 = true.
Global Instance key_le_dec : RelDecision key_le.
Proof. intros x y. unfold key_le. apply _. Defined.
Definition pairs_sorted (m : gmap string pair_info_raw) : list (string * pair_info_raw) :=
  merge_sort key_le (map_to_list m).

(** calc_range_start, state.rs:56-68, followed by Bound::ExclusiveRaw: keys
    strictly above key ++ [1]. *)
Definition range_start (i : asset_info_raw * asset_info_raw) : string :=
  (pair_key i ++ String (ascii_of_N 1) "")%string.

(** read_pairs, state.rs:36-53: MAX_LIMIT = 30, DEFAULT_LIMIT = 10. *)
Definition page_limit (limit : option N) : nat := N.to_nat (N.min (default 10 limit) 30).
Definition read_pairs (A : api) (m : gmap string pair_info_raw)
    (start : option (asset_info_raw * asset_info_raw)) (limit : option N) : res (list pair_info) :=
  let above := match start with
               | Some i => List.filter (fun e => str_ltb (range_start i) e.1) (pairs_sorted m)
               | None => pairs_sorted m
               end in
  rmap (fun e => pair_to_normal A e.2) (take (page_limit limit) above).

(** query_pairs, contract.rs:298-316 *)
Definition factory_query_pairs (A : api) (st : factory_state)
    (start : option (asset_info * asset_info)) (limit : option N) : res (list pair_info) :=
  let* s := match start with
            | Some (i, j) => let* a := info_to_raw A i in let* b := info_to_raw A j in Ok (Some (a, b))
            | None => Ok None
            end in
  read_pairs A (f_pairs st) s limit.

(** migrate, contract.rs:327-332 *)
Definition factory_migrate (st : factory_state) : res (factory_state * response) :=
  Ok (st, Response [] []).
