(** AllSpenderAllowances in JSON, and the whole query entry of a token from the bytes
    of a question and of the storage to the bytes of the answer.

    Source: contracts/halo-token/src/contract.rs:73-76, which calls cw20-base 1.0.0
    contract.rs query; QueryMsg::AllSpenderAllowances of cw20-base 1.0.0 msg.rs;
    AllSpenderAllowancesResponse and SpenderAllowanceInfo of cw20 1.0.0 query.rs.
    MarketingInfo and DownloadLogo are not modelled. *)
From Verif Require Import Base BigNumber CwStd Asset Messages Token TokenQueries Json Wire QueryWire Storage TokenStorage.
From Coq Require Import Ascii String.
Local Open Scope N_scope.

(** The question *)
Definition w_spender_query (spender : string) (start : option string) (limit : option N) : json :=
  VObj [("all_spender_allowances", VObj [("spender", w_str spender); ("start_after", w_opt w_str start); ("limit", w_opt w_num limit)])]%string.
Definition r_spender_query (v : json) : option (string * option string * option N) :=
  tagged v (fun t c =>
    if String.eqb t "all_spender_allowances" then
      struct ["spender"; "start_after"; "limit"]%string c (fun g =>
        let? p := required g "spender"%string r_str in
        let? s := opt_field g "start_after"%string r_str in
        let? l := opt_field g "limit"%string (r_num B32) in Some (p, s, l))
    else None).
(** The answer: SpenderAllowanceInfo names the owner *)
Definition w_granted (a : string * (uint128 * expiration)) : json :=
  VObj [("owner", w_str (fst a)); ("allowance", w_u128 (fst (snd a))); ("expires", w_exp (snd (snd a)))]%string.
Definition r_granted (v : json) : option (string * (uint128 * expiration)) :=
  struct ["owner"; "allowance"; "expires"]%string v (fun g =>
    let? o := required g "owner"%string r_str in
    let? n := required g "allowance"%string r_u128 in let? e := required g "expires"%string r_exp in Some (o, (n, e))).
Definition w_grants (l : list (string * (uint128 * expiration))) : json := VObj [("allowances"%string, w_list w_granted l)].
Definition r_grants (v : json) : option (list (string * (uint128 * expiration))) :=
  struct ["allowances"%string] v (fun g => required g "allowances"%string (r_list r_granted)).

(** query of a token: the bytes of the question are read as one of its QueryMsg, the
    storage is read, the answer is written *)
Definition bt_bytes (A : api) (s : store) (b : string) : option string :=
  match from_bytes r_spender_query b with
  | Some (p, st, l) => match bt_spender_allowances A s p st l with Ok x => Some (render (w_grants x)) | Err _ => None end
  | None => answered (from_bytes r_token_query b) (bt_query A s)
  end.
