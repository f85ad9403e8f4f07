(** The bytes in which contracts/halo-factory, halo-pair and halo-router keep their
    state: cw-storage-plus items and maps over the contract's key-value store,
    values as JSON.  The state.rs files of the contracts define the keys and types;
    cw-storage-plus (Item, Map, range) is transcribed and part of the trusted base. *)
From Verif Require Import Base BigNumber CwStd Asset Messages PairMath Pair Token Factory Router Json Wire TokenQueries QueryWire.
From stdpp Require Import sorting.
From Coq Require Import Ascii String.
Local Open Scope N_scope.
Local Open Scope string_scope.

(** The store of a contract: bytes by bytes. *)
Notation store := (gmap string string).

(** ** cw-storage-plus *)

(** helpers.rs encode_length: two bytes, the high one first.  The namespaces of
    /repo are shorter than 2^16 bytes, so the panic for longer ones is left out. *)
Definition len16 (s : string) : string :=
  let n := N.of_nat (String.length s) in String (ascii_of_N (n / 256)%N) (String (ascii_of_N (n mod 256)%N) "").
(** Map: helpers.rs namespaces_with_key *)
Definition space (ns : string) : string := len16 ns ++ ns.
Definition map_key (ns k : string) : string := space ns ++ k.

(** Item::load, Map::load: a missing value is NotFound, bytes that are not the
    JSON of a value a parse error *)
Definition load {X} (r : json -> option X) (k : string) (s : store) : res X :=
  match s !! k with
  | None => Err ENotFound
  | Some b => match from_bytes r b with Some x => Ok x | None => Err EParse end
  end.
(** may_load *)
Definition may_load {X} (r : json -> option X) (k : string) (s : store) : res (option X) :=
  match s !! k with
  | None => Ok None
  | Some b => match from_bytes r b with Some x => Ok (Some x) | None => Err EParse end
  end.
(** save *)
Definition save {X} (w : X -> json) (k : string) (x : X) (s : store) : store := <[k := render (w x)]> s.

(** Storage::range(Some(lo), Some(hi), Ascending) *)
Definition raw_range (s : store) (lo hi : string) : list (string * string) :=
  List.filter (fun e => str_leb lo e.1 && str_ltb e.1 hi) (in_order (map_to_list s)).
(** prefix.rs namespace_upper_bound: from the last byte, 255 becomes 0 and carries *)
Fixpoint bump (p : string) : string * bool :=
  match p with
  | "" => ("", true)
  | String c r =>
      let (r', carry) := bump r in
      if carry then
        if (N_of_ascii c =? 255)%N then (String (ascii_of_N 0) r', true) else (String (ascii_of_N (N_of_ascii c + 1)%N) r', false)
      else (String c r', false)
  end.
(** helpers.rs trim *)
Fixpoint trim (p k : string) : string :=
  match p, k with String _ p, String _ k => trim p k | _, _ => k end.
(** prefix.rs range_with_prefix with no upper bound; the lower one is none or
    Bound::ExclusiveRaw, which extend_one_byte turns into an inclusive one *)
Definition range_in (s : store) (p : string) (start : option string) : list (string * string) :=
  let lo := match start with None => p | Some k => p ++ k ++ String (ascii_of_N 0) "" end in
  map (fun e => (trim p e.1, e.2)) (raw_range s lo (bump p).1).
(** Map::range: the prefix is the namespace *)
Definition range_from (s : store) (ns : string) (start : option string) : list (string * string) := range_in s (space ns) start.

(** cw2 set_contract_version: the item contract_info *)
Definition w_version (name version : string) : json := VObj [("contract", w_str name); ("version", w_str version)].
Definition set_version (name : string) (s : store) : store := <["contract_info" := render (w_version name "0.1.0")]> s.

(** ** The stored types *)

(** CanonicalAddr: base64 *)
(** AssetInfoRaw, packages/haloswap/src/asset.rs:206-210 *)
Definition w_raw (i : asset_info_raw) : json :=
  match i with
  | TokenRaw a => VObj [("token", VObj [("contract_addr", w_bin a)])]
  | NativeRaw d => VObj [("native_token", VObj [("denom", w_str d)])]
  end.
Definition r_raw (v : json) : option asset_info_raw :=
  tagged v (fun t c =>
    if String.eqb t "token" then struct ["contract_addr"] c (fun g => let? a := required g "contract_addr" r_bin in Some (TokenRaw a))
    else if String.eqb t "native_token" then struct ["denom"] c (fun g => let? d := required g "denom" r_str in Some (NativeRaw d))
    else None).
(** PairInfoRaw, asset.rs:263-270 *)
Definition w_pair_raw (p : pair_info_raw) : json :=
  VObj [("asset_infos", w_two w_raw (r_asset_infos p)); ("contract_addr", w_bin (r_contract_addr p));
        ("liquidity_token", w_bin (r_liquidity_token p)); ("asset_decimals", w_two w_num (r_asset_decimals p));
        ("requirements", w_reqs (r_requirements p))].
Definition r_pair_raw (v : json) : option pair_info_raw :=
  struct ["asset_infos"; "contract_addr"; "liquidity_token"; "asset_decimals"; "requirements"] v (fun g =>
    let? i := required g "asset_infos" (r_two r_raw) in
    let? c := required g "contract_addr" r_bin in
    let? l := required g "liquidity_token" r_bin in
    let? d := required g "asset_decimals" (r_two (r_num 256)) in
    let? r := required g "requirements" r_reqs in Some (PairInfoRaw i c l d r)).
(** factory Config, contracts/halo-factory/src/state.rs:7-12: owner, pair code,
    token code *)
Definition w_fconfig (c : string * N * N) : json :=
  VObj [("owner", w_bin c.1.1); ("pair_code_id", w_num c.1.2); ("token_code_id", w_num c.2)].
Definition r_fconfig (v : json) : option (string * N * N) :=
  struct ["owner"; "pair_code_id"; "token_code_id"] v (fun g =>
    let? o := required g "owner" r_bin in
    let? p := required g "pair_code_id" (r_num B64) in
    let? t := required g "token_code_id" (r_num B64) in Some (o, p, t)).
(** TmpPairInfo, state.rs:16-21; a Vec<u8> is an array of numbers *)
Definition w_bytes (s : string) : json := w_list (fun c => w_num (N_of_ascii c)) (list_ascii_of_string s).
Definition r_bytes (v : json) : option string :=
  let? l := r_list (r_num 256) v in Some (string_of_list_ascii (map ascii_of_N l)).
Definition w_tmp (t : tmp_pair) : json :=
  VObj [("pair_key", w_bytes (t_key t)); ("asset_infos", w_two w_raw (t_infos t)); ("asset_decimals", w_two w_num (t_decimals t))].
Definition r_tmp (v : json) : option tmp_pair :=
  struct ["pair_key"; "asset_infos"; "asset_decimals"] v (fun g =>
    let? k := required g "pair_key" r_bytes in
    let? i := required g "asset_infos" (r_two r_raw) in
    let? d := required g "asset_decimals" (r_two (r_num 256)) in Some (TmpPair k i d)).
(** router Config, contracts/halo-router/src/state.rs:6-9 *)
Definition w_rconfig (f : router_state) : json := VObj [("halo_factory", w_bin f)].
Definition r_rconfig (v : json) : option router_state := struct ["halo_factory"] v (fun g => required g "halo_factory" r_bin).

(** ** halo-factory on bytes *)

(** state.rs:14, 23, 24 and 71 *)
Definition k_config : string := "config".
Definition k_tmp : string := "tmp_pair_info".
Definition k_pair (k : string) : string := map_key "pair_info" k.
Definition k_native (d : string) : string := map_key "allow_native_token" d.

(** instantiate, contracts/halo-factory/src/contract.rs:28-45 *)
Definition bf_instantiate (A : api) (s : store) (sender : string) (pair_code token_code : N) : res (store * response) :=
  if negb (u64_ok pair_code && u64_ok token_code) then Err EParse else
  let s := set_version "crates.io:halo-factory" s in
  let* o := addr_canonicalize A sender in
  Ok (save w_fconfig k_config (o, pair_code, token_code) s, Response [] []).
(** the permission check of contract.rs:80, 186, 216 *)
Definition bf_owner (A : api) (c : string * N * N) (sender : string) : res unit :=
  let* x := addr_canonicalize A sender in
  require (bool_decide (x = c.1.1)) (EStd "unauthorized").
(** execute_update_config, contract.rs:69-102 *)
Definition bf_update_config (A : api) (s : store) (sender : string) (owner : option string) (token_code pair_code : option N)
  : res (store * response) :=
  let* c := load r_fconfig k_config s in
  bf_owner A c sender ;;;
  let* o := match owner with
            | Some a => addr_validate A a ;;; addr_canonicalize A a
            | None => Ok c.1.1
            end in
  Ok (save w_fconfig k_config (o, default c.1.2 pair_code, default c.2 token_code) s,
      Response [] [("action", "update_config")]).
(** execute_create_pair, contract.rs:105-174; an entry that cannot be read counts
    as absent (if let Ok(Some(_))) *)
Definition bf_create_pair (A : api) (Q : querier) (self : string) (s : store)
    (infos : asset_info * asset_info) (reqs : requirements) : res (store * response) :=
  let* c := load r_fconfig k_config s in
  require (negb (bool_decide (infos.1 = infos.2))) (EStd "same asset") ;;;
  let* d0 := or_invalid (query_decimals Q infos.1 self) "asset1 is invalid" in
  let* d1 := or_invalid (query_decimals Q infos.2 self) "asset2 is invalid" in
  let* r0 := info_to_raw A infos.1 in
  let* r1 := info_to_raw A infos.2 in
  let key := pair_key (r0, r1) in
  match may_load r_pair_raw (k_pair key) s with
  | Ok (Some _) => Err (EStd "Pair already exists")
  | _ =>
      Ok (save w_tmp k_tmp (TmpPair key (r0, r1) (d0, d1)) s,
          Response
            [SubMsg (MInstantiate (Some self) c.1.2 (IPair infos c.2 (d0, d1) reqs) [] "pair") (ReplySuccess 1)]
            [("action", "create_pair");
             ("pair", (info_to_string infos.1 ++ "-" ++ info_to_string infos.2)%string)])
  end.
(** execute_add_native_token_decimals, contract.rs:176-204 *)
Definition bf_add_native (A : api) (Q : querier) (self : string) (s : store) (sender denom : string) (decimals : N)
  : res (store * response) :=
  let* c := load r_fconfig k_config s in
  bf_owner A c sender ;;;
  let* b := q_balance Q self denom in
  require (negb (b =? 0)%N) (EStd "a balance greater than zero is required by the factory for verification") ;;;
  Ok (save w_num (k_native denom) decimals s,
      Response [] [("action", "add_allow_native_token"); ("denom", denom); ("decimals", dec_to_string decimals)]).
(** execute_migrate_pair, contract.rs:206-229 *)
Definition bf_migrate_pair (A : api) (s : store) (sender contract : string) (code : option N) : res (store * response) :=
  let* c := load r_fconfig k_config s in
  bf_owner A c sender ;;;
  Ok (s, Response [plain (MMigrate contract (default c.1.2 code))] []).
(** execute, contract.rs:48-66 *)
Definition bf_execute (A : api) (Q : querier) (self : string) (s : store) (sender : string) (m : jmsg) : res (store * response) :=
  if negb (jmsg_ranges m) then Err EParse else
  match m with
  | JUpdateConfig o t p => bf_update_config A s sender o t p
  | JCreatePair infos reqs => bf_create_pair A Q self s infos reqs
  | JAddNativeTokenDecimals d n => bf_add_native A Q self s sender d n
  | JMigratePair c code => bf_migrate_pair A s sender c code
  | _ => Err EParse
  end.
(** reply, contract.rs:233-262, after the address is read from the reply *)
Definition bf_reply (A : api) (Q : querier) (s : store) (pair_contract : string) : res (store * response) :=
  let* tmp := load r_tmp k_tmp s in
  let* p := q_pair_self Q pair_contract in
  let* lp := addr_canonicalize A (p_liquidity_token p) in
  let* c := addr_canonicalize A pair_contract in
  Ok (save w_pair_raw (k_pair (t_key tmp)) (PairInfoRaw (t_infos tmp) c lp (t_decimals tmp) (p_requirements p)) s,
      Response [] [("pair_contract_addr", pair_contract); ("liquidity_token_addr", p_liquidity_token p)]).
(** query_config, query_pair, query_native_token_decimal, contract.rs:278-296, 318-325 *)
Definition bf_query_config (A : api) (s : store) : res (string * N * N) :=
  let* c := load r_fconfig k_config s in
  let* o := addr_humanize A c.1.1 in Ok (o, c.2, c.1.2).
Definition bf_query_pair (A : api) (s : store) (infos : asset_info * asset_info) : res pair_info :=
  let* r0 := info_to_raw A infos.1 in
  let* r1 := info_to_raw A infos.2 in
  let* p := load r_pair_raw (k_pair (pair_key (r0, r1))) s in
  pair_to_normal A p.
Definition bf_query_native (s : store) (denom : string) : res N := load (r_num 256) (k_native denom) s.
(** read_pairs, state.rs:36-53; query_pairs, contract.rs:298-316 *)
Definition bf_read_pairs (A : api) (s : store) (start : option (asset_info_raw * asset_info_raw)) (limit : option N)
  : res (list pair_info) :=
  rmap (fun e => match from_bytes r_pair_raw e.2 with Some p => pair_to_normal A p | None => Err EParse end)
    (take (page_limit limit) (range_from s "pair_info" (option_map range_start start))).
Definition bf_query_pairs (A : api) (s : store) (start : option (asset_info * asset_info)) (limit : option N)
  : res (list pair_info) :=
  let* i := match start with
            | Some (i, j) => let* a := info_to_raw A i in let* b := info_to_raw A j in Ok (Some (a, b))
            | None => Ok None
            end in
  bf_read_pairs A s i limit.
(** query, contract.rs:265-276 *)
Definition bf_query (A : api) (s : store) (q : qmsg) : res answer :=
  match q with
  | QConfig => give AConfig (bf_query_config A s)
  | QPair i => give APairInfo (bf_query_pair A s i)
  | QPairs st l => give APairs (bf_query_pairs A s st l)
  | QNativeTokenDecimals d => give ADecimals (bf_query_native s d)
  | _ => Err EParse
  end.
(** migrate, contract.rs:327-332 *)
Definition bf_migrate (s : store) : res (store * response) := Ok (set_version "crates.io:halo-factory" s, Response [] []).

(** ** halo-pair and halo-router on bytes *)

(** One item each, contracts/halo-pair/src/state.rs:4 and halo-router/src/state.rs:11.
    The handlers that use it load it where they need it; here it is loaded first.
    Only instantiate and the pair's reply (contract.rs:194-205) write it. *)
Definition k_self : string := "pair_info".
Definition bp_instantiate (A : api) (self : string) (s : store) (infos : asset_info * asset_info) (token_code : N)
    (dec : N * N) (reqs : requirements) : res (store * response) :=
  let s := set_version "crates.io:halo-pair" s in
  let* '(st, rsp) := pair_instantiate A self infos token_code dec reqs in
  Ok (save w_pair_raw k_self st s, rsp).
Definition bp_execute (A : api) (Q : querier) (self : string) (s : store) (sender : string) (funds : list coin) (m : jmsg)
  : res (store * response) :=
  let* st := load r_pair_raw k_self s in
  let* '(_, rsp) := pair_execute A Q self st sender funds m in Ok (s, rsp).
Definition bp_reply (A : api) (s : store) (a : string) : res (store * response) :=
  let* st := load r_pair_raw k_self s in
  let* '(st', rsp) := pair_reply A st a in Ok (save w_pair_raw k_self st' s, rsp).
Definition bp_query (A : api) (Q : querier) (s : store) (q : qmsg) : res answer :=
  let* st := load r_pair_raw k_self s in pair_query A Q st q.
Definition bp_migrate (s : store) : res (store * response) := Ok (set_version "crates.io:halo-pair" s, Response [] []).
Definition br_instantiate (A : api) (s : store) (factory : string) : res (store * response) :=
  let s := set_version "crates.io:halo-router" s in
  let* '(st, rsp) := router_instantiate A factory in
  Ok (save w_rconfig k_config st s, rsp).
Definition br_execute (A : api) (Q : querier) (self : string) (s : store) (sender : string) (m : jmsg) : res (store * response) :=
  let* st := load r_rconfig k_config s in
  let* '(_, rsp) := router_execute A Q self st sender m in Ok (s, rsp).
Definition br_query (A : api) (Q : querier) (s : store) (q : qmsg) : res answer :=
  let* st := load r_rconfig k_config s in router_query A Q st q.
Definition br_migrate (s : store) : res (store * response) := Ok (set_version "crates.io:halo-router" s, Response [] []).
