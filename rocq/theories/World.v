(** The chain around the contracts: bank balances, contract instances, message
    dispatch.

    Contracts are the four of /repo plus third-party contracts.  A third-party
    contract ([SAdv]) may do anything a CosmWasm contract can: its code is an
    arbitrary function of the whole world ([chain]), it may send any messages,
    catch failures, and answer queries arbitrarily.

    wasmd semantics used (trusted base): a message runs atomically; submessages
    are dispatched depth-first in the order of the Response; a failing
    submessage without reply-on-error fails the caller; funds move before the
    callee runs; replies run right after their submessage.  Gas is not
    modelled, but [exec] takes fuel and every theorem holds for all fuel; a
    third-party contract can catch exhaustion, as with a gas limit. *)
From Verif Require Import Base BigNumber CwStd Asset Messages PairMath Pair Token Factory Router.
Local Open Scope N_scope.

(** ** State *)

Inductive cstate :=
| SPair (st : pair_info_raw)
| SFactory (st : factory_state)
| SRouter (st : router_state)
| SToken (st : token_state)
| SAdv (code : N) (data : string).

Record inst := Inst { i_admin : option string; i_state : cstate }.

(** [w_bank (account, denom)]; [w_next]: number of instantiations so far. *)
Record world := World {
  w_bank : gmap (string * string) N;
  w_insts : gmap string inst;
  w_next : N;
  w_block : blockinfo;
}.

(** What code id stands for. *)
Inductive code := CPair | CFactory | CRouter | CToken | CAdv (k : N).

(** The chain: address functions, addresses of new contracts, stored code, and
    the behaviour of third-party code number [k]. *)
Record chain := Chain {
  ch_api : api;
  ch_fresh : N -> string;
  ch_codes : N -> option code;
  adv_init : N -> world -> string -> string -> list coin -> imsg -> res (string * response);
    (* world, self, sender, funds, msg *)
  adv_exec : N -> world -> string -> string -> list coin -> jmsg -> res (string * response);
  adv_reply : N -> world -> string -> N -> bool -> res (string * response);
    (* world, self, reply id, success *)
  adv_token_balance : N -> world -> string -> string -> res uint128;   (* self, account *)
  adv_token_info : N -> world -> string -> res token_info;
  adv_native_decimals : N -> world -> string -> string -> res N;
  adv_pair_info : N -> world -> string -> asset_info * asset_info -> res pair_info;
  adv_simulate : N -> world -> string -> asset -> res simulation;
  adv_reverse : N -> world -> string -> asset -> res reverse_simulation;
  adv_pair_self : N -> world -> string -> res pair_info;
  ch_takeover : cstate -> N -> option string;
    (* what third-party code [k] makes of the storage of a contract of /repo
       migrated to it *)
}.

Definition bal (w : world) (a d : string) : N := default 0 (w_bank w !! (a, d)).

Definition set_bank (w : world) (b : gmap (string * string) N) : world :=
  World b (w_insts w) (w_next w) (w_block w).
Definition set_insts (w : world) (i : gmap string inst) : world :=
  World (w_bank w) i (w_next w) (w_block w).
Definition set_next (w : world) (n : N) : world :=
  World (w_bank w) (w_insts w) n (w_block w).
(** Replace a contract's storage. *)
Definition set_state (w : world) (a : string) (s : cstate) : world :=
  match w_insts w !! a with
  | Some i => set_insts w (<[a := Inst (i_admin i) s]> (w_insts w))
  | None => w
  end.
(** Replace a contract's admin. *)
Definition set_admin (w : world) (a : string) (adm : option string) : world :=
  match w_insts w !! a with
  | Some i => set_insts w (<[a := Inst adm (i_state i)]> (w_insts w))
  | None => w
  end.

(** ** Bank module *)

Definition move (b : gmap (string * string) N) (from to : string) (c : coin)
  : res (gmap (string * string) N) :=
  let have := default 0 (b !! (from, c_denom c)) in
  if c_amount c <=? have then
    let b1 := <[(from, c_denom c) := have - c_amount c]> b in
    let rc := default 0 (b1 !! (to, c_denom c)) in
    Ok (<[(to, c_denom c) := rc + c_amount c]> b1)
  else Err EBank.
Fixpoint move_all (b : gmap (string * string) N) (from to : string) (cs : list coin)
  : res (gmap (string * string) N) :=
  match cs with
  | [] => Ok b
  | c :: r => let* b1 := move b from to c in move_all b1 from to r
  end.
(** sdk.Coins.Validate: positive amounts, no denom twice. *)
Definition coins_valid (cs : list coin) : bool :=
  forallb (fun c => 0 <? c_amount c) cs && bool_decide (NoDup (map c_denom cs)).
(** MsgSend refuses an empty list; funds of a wasm message may be empty. *)
Definition bank_send (w : world) (from to : string) (cs : list coin) : res world :=
  if coins_valid cs then
    let* b := move_all (w_bank w) from to cs in Ok (set_bank w b)
  else Err EBank.
Definition bank_msg (A : api) (w : world) (from to : string) (cs : list coin) : res world :=
  let* to' := oget (norm A to) EBank in
  match cs with [] => Err EBank | _ => bank_send w from to' cs end.

(** ** Queries *)

Definition in_u128 (r : res N) : res uint128 :=
  let* v := r in if v <? B128 then Ok v else Err EParse.

(** A PairInfo that its JSON can carry (asset.rs:254-261: u8 decimals, Uint128
    minima). *)
Definition pair_info_ranges (p : pair_info) : bool :=
  u8_ok (p_asset_decimals p).1 && u8_ok (p_asset_decimals p).2 && reqs_ranges (p_requirements p).

Section queries.
  Context (C : chain) (w : world).
  Let A := ch_api C.

  (** The contract addressed by a text. *)
  Definition contract_at (a : string) : res (string * cstate) :=
    let* a' := oget (norm A a) ENotFound in
    let* i := oget (w_insts w !! a') ENotFound in
    Ok (a', i_state i).

  Definition ask_balance (acc d : string) : res uint128 :=
    let* acc' := oget (norm A acc) ENotFound in in_u128 (Ok (bal w acc' d)).
  Definition ask_token_balance (t acc : string) : res uint128 :=
    let* '(t', s) := contract_at t in
    match s with
    | SToken ts => token_query_balance A ts acc
    | SAdv k _ => in_u128 (adv_token_balance C k w t' acc)
    | _ => Err EParse
    end.
  Definition ask_token_info (t : string) : res token_info :=
    let* '(t', s) := contract_at t in
    match s with
    | SToken ts => token_query_info ts
    | SAdv k _ => let* i := adv_token_info C k w t' in
                  if (ti_total_supply i <? B128) && (ti_decimals i <? 256) then Ok i else Err EParse
    | _ => Err EParse
    end.
  Definition ask_native_decimals (f d : string) : res N :=
    let* '(f', s) := contract_at f in
    match s with
    | SFactory fs => factory_query_native fs d
    | SAdv k _ => let* n := adv_native_decimals C k w f' d in if n <? 256 then Ok n else Err EParse
    | _ => Err EParse
    end.
  Definition ask_pair_info (f : string) (i : asset_info * asset_info) : res pair_info :=
    let* '(f', s) := contract_at f in
    match s with
    | SFactory fs => factory_query_pair A fs i
    | SAdv k _ => let* p := adv_pair_info C k w f' i in if pair_info_ranges p then Ok p else Err EParse
    | _ => Err EParse
    end.
  Definition ask_pair_self (p : string) : res pair_info :=
    let* '(p', s) := contract_at p in
    match s with
    | SPair ps => pair_query_pair A ps
    | SAdv k _ => let* i := adv_pair_self C k w p' in if pair_info_ranges i then Ok i else Err EParse
    | _ => Err EParse
    end.

  (** The queries a pair makes while answering a query. *)
  Definition base_querier : querier :=
    Querier ask_balance ask_token_balance ask_token_info ask_native_decimals ask_pair_info
      (fun _ _ => Err ENotFound) (fun _ _ => Err ENotFound) ask_pair_self.

  Definition ask_simulate (p : string) (a : asset) : res simulation :=
    let* '(p', s) := contract_at p in
    match s with
    | SPair ps => pair_query_simulation A base_querier ps a
    | SAdv k _ => let* r := adv_simulate C k w p' a in
                  if u128_ok (s_return r) && u128_ok (s_spread r) && u128_ok (s_commission r) then Ok r else Err EParse
    | _ => Err EParse
    end.
  Definition ask_reverse (p : string) (a : asset) : res reverse_simulation :=
    let* '(p', s) := contract_at p in
    match s with
    | SPair ps => pair_query_reverse_simulation A base_querier ps a
    | SAdv k _ => let* r := adv_reverse C k w p' a in
                  if u128_ok (rs_offer r) && u128_ok (rs_spread r) && u128_ok (rs_commission r) then Ok r else Err EParse
    | _ => Err EParse
    end.

  Definition wq : querier :=
    Querier ask_balance ask_token_balance ask_token_info ask_native_decimals ask_pair_info
      ask_simulate ask_reverse ask_pair_self.
End queries.

(** ** Entry points *)

Definition wrap {S} (f : S -> cstate) (r : res (S * response)) : res (cstate * response) :=
  let* '(s, rsp) := r in Ok (f s, rsp).

(** execute of the contract at [self] *)
Definition call (C : chain) (w : world) (self : string) (s : cstate) (sender : string)
    (funds : list coin) (m : jmsg) : res (cstate * response) :=
  match s with
  | SPair st => wrap SPair (pair_execute (ch_api C) (wq C w) self st sender funds m)
  | SFactory st => wrap SFactory (factory_execute (ch_api C) (wq C w) self st sender m)
  | SRouter st => wrap SRouter (router_execute (ch_api C) (wq C w) self st sender m)
  | SToken st => wrap SToken (token_execute (ch_api C) (w_block w) st sender m)
  | SAdv k _ => wrap (SAdv k) (adv_exec C k w self sender funds m)
  end.

(** instantiate; a message of the wrong shape does not decode *)
Definition init (C : chain) (w : world) (self : string) (c : code) (sender : string)
    (funds : list coin) (m : imsg) : res (cstate * response) :=
  match c, m with
  | CPair, IPair infos tc dec reqs =>
      if u64_ok tc && u8_ok dec.1 && u8_ok dec.2 && reqs_ranges reqs then
        wrap SPair (pair_instantiate (ch_api C) self infos tc dec reqs)
      else Err EParse
  | CFactory, IFactory p t => wrap SFactory (factory_instantiate (ch_api C) sender p t)
  | CRouter, IRouter f => wrap SRouter (router_instantiate (ch_api C) f)
  | CToken, IToken t => wrap SToken (token_instantiate (ch_api C) t)
  | CAdv k, _ => wrap (SAdv k) (adv_init C k w self sender funds m)
  | _, _ => Err EParse
  end.

(** reply; [r] is the instantiated address if the submessage succeeded and was
    an instantiate.  parse_reply_instantiate_data(..).unwrap() aborts otherwise. *)
Definition reply (C : chain) (w : world) (self : string) (s : cstate) (id : N)
    (ok : bool) (r : option string) : res (cstate * response) :=
  match s with
  | SPair st =>
      match r with
      | Some a => wrap SPair (pair_reply (ch_api C) st a)
      | None => panic "called Result::unwrap() on an Err value"
      end
  | SFactory st =>
      match r with
      | Some a => wrap SFactory (factory_reply (ch_api C) (wq C w) st a)
      | None => panic "called Result::unwrap() on an Err value"
      end
  | SAdv k _ => wrap (SAdv k) (adv_reply C k w self id ok)
  | _ => Err EParse       (* no reply entry point *)
  end.

(** Migration of a contract to new code.  The contracts of /repo keep their state
    when migrated to their own code; the token has no migrate entry.  Migration
    to third-party code does what that code wants ([ch_takeover]).  Migration
    between different contracts of /repo is refused here: the real one would
    leave a contract that cannot read its storage. *)
Definition migrated (C : chain) (s : cstate) (c : code) : option cstate :=
  match s, c with
  | SPair st, CPair => Some (SPair st)
  | SFactory st, CFactory => Some (SFactory st)
  | SRouter st, CRouter => Some (SRouter st)
  | SAdv _ d, CAdv k => Some (SAdv k d)
  | s, CAdv k => SAdv k <$> ch_takeover C s k
  | _, _ => None
  end.

(** ** Dispatch *)

(** One executed call, as reported by the chain's events, together with the
    attached funds and the state of the chain in which the handler ran (the
    attached funds have already arrived).  The last two are for specifications
    only; nothing reads them. *)
Record event := Event {
  ev_contract : string; ev_sender : string; ev_msg : jmsg; ev_attrs : list (string * string);
  ev_funds : list coin; ev_world : world }.

Section dispatch.
  Context (C : chain).
  Let A := ch_api C.

  Fixpoint exec (fuel : nat) (w : world) (sender : string) (m : cmsg) {struct fuel}
    : res (world * option string * list event) :=
    match fuel with
    | O => Err EFuel
    | S f =>
        match m with
        | MBankSend to cs =>
            let* w' := bank_msg A w sender to cs in Ok (w', None, [])
        | MExecute c msg funds =>
            let* a := oget (norm A c) ENotFound in
            let* w1 := bank_send w sender a funds in
            let* i := oget (w_insts w1 !! a) ENotFound in
            let* '(s, rsp) := call C w1 a (i_state i) sender funds msg in
            let* '(w2, lg) := run f (set_state w1 a s) a (rs_msgs rsp) in
            Ok (w2, None, Event a sender msg (rs_attrs rsp) funds w1 :: lg)
        | MInstantiate admin code msg funds _ =>
            let* c := oget (ch_codes C code) ENotFound in
            let* adm := match admin with
                        | Some x => let* x' := oget (norm A x) ENotFound in Ok (Some x')
                        | None => Ok None
                        end in
            let a := ch_fresh C (w_next w) in
            let w0 := set_next w (w_next w + 1) in
            let* w1 := bank_send w0 sender a funds in
            let* '(s, rsp) := init C w1 a c sender funds msg in
            let* '(w2, lg) := run f (set_insts w1 (<[a := Inst adm s]> (w_insts w1))) a (rs_msgs rsp) in
            Ok (w2, Some a, lg)
        | MMigrate c code =>
            let* a := oget (norm A c) ENotFound in
            let* i := oget (w_insts w !! a) ENotFound in
            let* k := oget (ch_codes C code) ENotFound in
            if bool_decide (i_admin i = Some sender) then
              let* s := oget (migrated C (i_state i) k) EParse in
              Ok (set_state w a s, None, [])
            else Err EUnauthorized
        | MUpdateAdmin c new =>
            let* a := oget (norm A c) ENotFound in
            let* i := oget (w_insts w !! a) ENotFound in
            let* adm := match new with
                        | Some x => let* x' := oget (norm A x) ENotFound in Ok (Some x')
                        | None => Ok None
                        end in
            if bool_decide (i_admin i = Some sender) then Ok (set_admin w a adm, None, [])
            else Err EUnauthorized
        end
    end
  with run (fuel : nat) (w : world) (self : string) (subs : list submsg) {struct fuel}
    : res (world * list event) :=
    match fuel with
    | O => Err EFuel
    | S f =>
        match subs with
        | [] => Ok (w, [])
        | sm :: rest =>
            let* '(w1, lg1) :=
              match sm_reply sm, exec f w self (sm_msg sm) with
              | ReplyNever, Ok (w', _, lg) => Ok (w', lg)
              | ReplyNever, Err e => Err e
              | ReplySuccess _, Err e => Err e
              | ReplySuccess id, Ok (w', r, lg) | ReplyAlways id, Ok (w', r, lg) =>
                  let* i := oget (w_insts w' !! self) ENotFound in
                  let* '(s, rsp) := reply C w' self (i_state i) id true r in
                  let* '(w2, lg2) := run f (set_state w' self s) self (rs_msgs rsp) in
                  Ok (w2, lg ++ lg2)
              | ReplyAlways id, Err _ =>
                  let* i := oget (w_insts w !! self) ENotFound in
                  let* '(s, rsp) := reply C w self (i_state i) id false None in
                  run f (set_state w self s) self (rs_msgs rsp)
              end in
            let* '(w2, lg2) := run f w1 self rest in
            Ok (w2, lg1 ++ lg2)
        end
    end.
End dispatch.

(** ** Histories *)

(** Assumptions on the chain: laws of the address functions, and new contracts
    get new normalized addresses. *)
Record chain_laws (C : chain) : Prop := {
  api_human_canon : forall c h, human (ch_api C) c = Some h -> canon (ch_api C) h = Some c;
  api_canon_human : forall s c, canon (ch_api C) s = Some c -> exists h, human (ch_api C) c = Some h;
  canon_nonempty : forall s, canon (ch_api C) s <> Some ""%string;
  fresh_inj : forall n m, ch_fresh C n = ch_fresh C m -> n = m;
  fresh_norm : forall n, norm (ch_api C) (ch_fresh C n) = Some (ch_fresh C n);
}.
(** In addition: no contract of /repo is ever migrated to third-party code.  Who
    could do that is the subject of C52. *)
Record chain_ok (C : chain) : Prop := {
  ok_laws :> chain_laws C;
  no_takeover : forall s k, ch_takeover C s k = None;
}.
Global Hint Resolve ok_laws : core.

(** An ordinary account: a normalized address at which no contract will ever
    be created. *)
Definition ordinary (C : chain) (a : string) : Prop :=
  norm (ch_api C) a = Some a /\ forall n, ch_fresh C n <> a.

(** One transaction: a message signed by an ordinary account. *)
Definition tx (C : chain) (w : world) (signer : string) (m : cmsg) (w' : world) (lg : list event) : Prop :=
  ordinary C signer /\ exists fuel r, exec C fuel w signer m = Ok (w', r, lg).

(** Histories start without contracts and with any bank balances; time passes
    between transactions. *)
Inductive reachable (C : chain) : world -> Prop :=
| reach_genesis b blk : reachable C (World b ∅ 0 blk)
| reach_tx w s m w' lg : reachable C w -> tx C w s m w' lg -> reachable C w'
| reach_block w blk : reachable C w ->
    b_height (w_block w) <= b_height blk -> b_time (w_block w) <= b_time blk ->
    reachable C (World (w_bank w) (w_insts w) (w_next w) blk).

(** A history from [w] to [w'], with the calls that succeeded in it. *)
Inductive history (C : chain) : world -> list event -> world -> Prop :=
| hist_refl w : history C w [] w
| hist_tx w lg w1 s m w2 lg2 : history C w lg w1 -> tx C w1 s m w2 lg2 -> history C w (lg ++ lg2) w2
| hist_block w lg w1 blk : history C w lg w1 ->
    b_height (w_block w1) <= b_height blk -> b_time (w_block w1) <= b_time blk ->
    history C w lg (World (w_bank w1) (w_insts w1) (w_next w1) blk).
