(** The chain of World.v with the contracts of /repo kept as the bytes of their
    storage: every call, reply, migration and query of a contract reads its own
    key-value store and leaves a store.  Entry points are those of Storage.v and
    TokenStorage.v; dispatch is that of World.v, line by line.  Third-party
    contracts see the bytes of everybody.

    Messages are carried as in World.v; their JSON is the subject of C87, that of
    questions and answers of C88. *)
From Verif Require Import Base BigNumber CwStd Asset Messages PairMath Pair Token Factory Router World
  Json Wire TokenQueries QueryWire Storage TokenStorage.
From Coq Require Import Ascii String.
Local Open Scope N_scope.

(** ** State *)

(** The storage of a contract, with the code that runs on it. *)
Inductive bstate :=
| BPair (s : store)
| BFactory (s : store)
| BRouter (s : store)
| BToken (s : store)
| BAdv (code : N) (data : string).
Record binst := BInst { bi_admin : option string; bi_state : bstate }.
Record bworld := BWorld {
  bw_bank : gmap (string * string) N;
  bw_insts : gmap string binst;
  bw_next : N;
  bw_block : blockinfo;
}.
(** World.v [chain], third-party code working on bytes. *)
Record bchain := BChain {
  bc_api : api;
  bc_fresh : N -> string;
  bc_codes : N -> option code;
  ba_init : N -> bworld -> string -> string -> list coin -> imsg -> res (string * response);
  ba_exec : N -> bworld -> string -> string -> list coin -> jmsg -> res (string * response);
  ba_reply : N -> bworld -> string -> N -> bool -> res (string * response);
  ba_token_balance : N -> bworld -> string -> string -> res uint128;
  ba_token_info : N -> bworld -> string -> res token_info;
  ba_native_decimals : N -> bworld -> string -> string -> res N;
  ba_pair_info : N -> bworld -> string -> asset_info * asset_info -> res pair_info;
  ba_simulate : N -> bworld -> string -> asset -> res simulation;
  ba_reverse : N -> bworld -> string -> asset -> res reverse_simulation;
  ba_pair_self : N -> bworld -> string -> res pair_info;
  bc_takeover : bstate -> N -> option string;
}.

Definition bset_bank (w : bworld) (b : gmap (string * string) N) : bworld := BWorld b (bw_insts w) (bw_next w) (bw_block w).
Definition bset_insts (w : bworld) (i : gmap string binst) : bworld := BWorld (bw_bank w) i (bw_next w) (bw_block w).
Definition bset_next (w : bworld) (n : N) : bworld := BWorld (bw_bank w) (bw_insts w) n (bw_block w).
Definition bset_state (w : bworld) (a : string) (s : bstate) : bworld :=
  match bw_insts w !! a with
  | Some i => bset_insts w (<[a := BInst (bi_admin i) s]> (bw_insts w))
  | None => w
  end.
Definition bset_admin (w : bworld) (a : string) (adm : option string) : bworld :=
  match bw_insts w !! a with
  | Some i => bset_insts w (<[a := BInst adm (bi_state i)]> (bw_insts w))
  | None => w
  end.

(** ** Bank module, as in World.v *)
Definition bb_send (w : bworld) (from to : string) (cs : list coin) : res bworld :=
  if coins_valid cs then
    let* b := move_all (bw_bank w) from to cs in Ok (bset_bank w b)
  else Err EBank.
Definition bb_msg (A : api) (w : bworld) (from to : string) (cs : list coin) : res bworld :=
  let* to' := oget (norm A to) EBank in
  match cs with [] => Err EBank | _ => bb_send w from to' cs end.

(** ** Queries: the asked contract reads its store *)
Section queries.
  Context (B : bchain) (w : bworld).
  Let A := bc_api B.

  Definition bcontract_at (a : string) : res (string * bstate) :=
    let* a' := oget (norm A a) ENotFound in
    let* i := oget (bw_insts w !! a') ENotFound in
    Ok (a', bi_state i).
  Definition bask_balance (acc d : string) : res uint128 :=
    let* acc' := oget (norm A acc) ENotFound in in_u128 (Ok (default 0 (bw_bank w !! (acc', d)))).
  Definition bask_token_balance (t acc : string) : res uint128 :=
    let* '(t', s) := bcontract_at t in
    match s with
    | BToken ts => bt_query_balance A ts acc
    | BAdv k _ => in_u128 (ba_token_balance B k w t' acc)
    | _ => Err EParse
    end.
  Definition bask_token_info (t : string) : res token_info :=
    let* '(t', s) := bcontract_at t in
    match s with
    | BToken ts => bt_query_info ts
    | BAdv k _ => let* i := ba_token_info B k w t' in
                  if (ti_total_supply i <? B128) && (ti_decimals i <? 256) then Ok i else Err EParse
    | _ => Err EParse
    end.
  Definition bask_native_decimals (f d : string) : res N :=
    let* '(f', s) := bcontract_at f in
    match s with
    | BFactory fs => bf_query_native fs d
    | BAdv k _ => let* n := ba_native_decimals B k w f' d in if n <? 256 then Ok n else Err EParse
    | _ => Err EParse
    end.
  Definition bask_pair_info (f : string) (i : asset_info * asset_info) : res pair_info :=
    let* '(f', s) := bcontract_at f in
    match s with
    | BFactory fs => bf_query_pair A fs i
    | BAdv k _ => let* p := ba_pair_info B k w f' i in if pair_info_ranges p then Ok p else Err EParse
    | _ => Err EParse
    end.
  Definition bask_pair_self (p : string) : res pair_info :=
    let* '(p', s) := bcontract_at p in
    match s with
    | BPair ps => let* st := load r_pair_raw k_self ps in pair_query_pair A st
    | BAdv k _ => let* i := ba_pair_self B k w p' in if pair_info_ranges i then Ok i else Err EParse
    | _ => Err EParse
    end.
  Definition bbase_querier : querier :=
    Querier bask_balance bask_token_balance bask_token_info bask_native_decimals bask_pair_info
      (fun _ _ => Err ENotFound) (fun _ _ => Err ENotFound) bask_pair_self.
  Definition bask_simulate (p : string) (a : asset) : res simulation :=
    let* '(p', s) := bcontract_at p in
    match s with
    | BPair ps => let* st := load r_pair_raw k_self ps in pair_query_simulation A bbase_querier st a
    | BAdv k _ => let* r := ba_simulate B k w p' a in
                  if u128_ok (s_return r) && u128_ok (s_spread r) && u128_ok (s_commission r) then Ok r else Err EParse
    | _ => Err EParse
    end.
  Definition bask_reverse (p : string) (a : asset) : res reverse_simulation :=
    let* '(p', s) := bcontract_at p in
    match s with
    | BPair ps => let* st := load r_pair_raw k_self ps in pair_query_reverse_simulation A bbase_querier st a
    | BAdv k _ => let* r := ba_reverse B k w p' a in
                  if u128_ok (rs_offer r) && u128_ok (rs_spread r) && u128_ok (rs_commission r) then Ok r else Err EParse
    | _ => Err EParse
    end.
  Definition bwq : querier :=
    Querier bask_balance bask_token_balance bask_token_info bask_native_decimals bask_pair_info
      bask_simulate bask_reverse bask_pair_self.
End queries.

(** ** Entry points *)

Definition bwrap {S} (f : S -> bstate) (r : res (S * response)) : res (bstate * response) :=
  let* '(s, rsp) := r in Ok (f s, rsp).

(** Allowance keys hold the length of an address in two bytes: cw-storage-plus
    aborts on longer ones.  A run in which a token would be called by or about a
    valid address of 65536 bytes or more (or one with a byte 255, which is no UTF-8)
    is given up altogether: [None]. *)
Fixpoint no_ffb (a : string) : bool :=
  match a with EmptyString => true | String c r => negb (N_of_ascii c =? 255) && no_ffb r end.
Definition textb (a : string) : bool := (N.of_nat (String.length a) <? 65536) && no_ffb a.
Definition msg_textb (A : api) (m : jmsg) : bool :=
  match m with
  | JIncreaseAllowance a _ _ | JDecreaseAllowance a _ _ | JTransferFrom a _ _ | JBurnFrom a _ | JSendFrom a _ _ _ =>
      match addr_validate A a with Ok _ => textb a | Err _ => true end
  | _ => true
  end.

Definition bcall (B : bchain) (w : bworld) (self : string) (s : bstate) (sender : string)
    (funds : list coin) (m : jmsg) : option (res (bstate * response)) :=
  match s with
  | BPair st => Some (bwrap BPair (bp_execute (bc_api B) (bwq B w) self st sender funds m))
  | BFactory st => Some (bwrap BFactory (bf_execute (bc_api B) (bwq B w) self st sender m))
  | BRouter st => Some (bwrap BRouter (br_execute (bc_api B) (bwq B w) self st sender m))
  | BToken st => if textb sender && msg_textb (bc_api B) m then Some (bwrap BToken (bt_execute (bc_api B) (bw_block w) st sender m)) else None
  | BAdv k _ => Some (bwrap (BAdv k) (ba_exec B k w self sender funds m))
  end.
(** A new contract has an empty store. *)
Definition binit (B : bchain) (w : bworld) (self : string) (c : code) (sender : string)
    (funds : list coin) (m : imsg) : res (bstate * response) :=
  match c, m with
  | CPair, IPair infos tc dec reqs =>
      if u64_ok tc && u8_ok dec.1 && u8_ok dec.2 && reqs_ranges reqs then
        bwrap BPair (bp_instantiate (bc_api B) self ∅ infos tc dec reqs)
      else Err EParse
  | CFactory, IFactory p t => bwrap BFactory (bf_instantiate (bc_api B) ∅ sender p t)
  | CRouter, IRouter f => bwrap BRouter (br_instantiate (bc_api B) ∅ f)
  | CToken, IToken t => bwrap BToken (bt_instantiate (bc_api B) ∅ t)
  | CAdv k, _ => bwrap (BAdv k) (ba_init B k w self sender funds m)
  | _, _ => Err EParse
  end.
Definition breply (B : bchain) (w : bworld) (self : string) (s : bstate) (id : N)
    (ok : bool) (r : option string) : res (bstate * response) :=
  match s with
  | BPair st =>
      match r with
      | Some a => bwrap BPair (bp_reply (bc_api B) st a)
      | None => panic "called Result::unwrap() on an Err value"
      end
  | BFactory st =>
      match r with
      | Some a => bwrap BFactory (bf_reply (bc_api B) (bwq B w) st a)
      | None => panic "called Result::unwrap() on an Err value"
      end
  | BAdv k _ => bwrap (BAdv k) (ba_reply B k w self id ok)
  | _ => Err EParse
  end.
(** The migrate entries write the version again. *)
Definition bmigrated (B : bchain) (s : bstate) (c : code) : option bstate :=
  let kept f r := match r with Ok (s, _) => Some (f s) | Err _ => None end in
  match s, c with
  | BPair st, CPair => kept BPair (bp_migrate st)
  | BFactory st, CFactory => kept BFactory (bf_migrate st)
  | BRouter st, CRouter => kept BRouter (br_migrate st)
  | BAdv _ d, CAdv k => Some (BAdv k d)
  | s, CAdv k => BAdv k <$> bc_takeover B s k
  | _, _ => None
  end.

(** ** Dispatch *)
Record bevent := BEvent {
  be_contract : string; be_sender : string; be_msg : jmsg; be_attrs : list (string * string);
  be_funds : list coin; be_world : bworld }.

Definition obb {X Y} (m : option (res X)) (k : X -> option (res Y)) : option (res Y) :=
  match m with None => None | Some (Err e) => Some (Err e) | Some (Ok x) => k x end.
Notation "'let!' x := m 'in' k" := (obb m (fun x => k)) (at level 200, x name, m at level 100, k at level 200).
Notation "'let!' ' x := m 'in' k" := (obb m (fun x => k)) (at level 200, x strict pattern, m at level 100, k at level 200).

Section dispatch.
  Context (B : bchain).
  Let A := bc_api B.

  Fixpoint bexec (fuel : nat) (w : bworld) (sender : string) (m : cmsg) {struct fuel}
    : option (res (bworld * option string * list bevent)) :=
    match fuel with
    | O => Some (Err EFuel)
    | S f =>
        match m with
        | MBankSend to cs =>
            let! w' := Some (bb_msg A w sender to cs) in Some (Ok (w', None, []))
        | MExecute c msg funds =>
            let! a := Some (oget (norm A c) ENotFound) in
            let! w1 := Some (bb_send w sender a funds) in
            let! i := Some (oget (bw_insts w1 !! a) ENotFound) in
            let! '(s, rsp) := bcall B w1 a (bi_state i) sender funds msg in
            let! '(w2, lg) := brun f (bset_state w1 a s) a (rs_msgs rsp) in
            Some (Ok (w2, None, BEvent a sender msg (rs_attrs rsp) funds w1 :: lg))
        | MInstantiate admin code msg funds _ =>
            let! c := Some (oget (bc_codes B code) ENotFound) in
            let! adm := Some match admin with
                        | Some x => let* x' := oget (norm A x) ENotFound in Ok (Some x')
                        | None => Ok None
                        end in
            let a := bc_fresh B (bw_next w) in
            let w0 := bset_next w (bw_next w + 1) in
            let! w1 := Some (bb_send w0 sender a funds) in
            let! '(s, rsp) := Some (binit B w1 a c sender funds msg) in
            let! '(w2, lg) := brun f (bset_insts w1 (<[a := BInst adm s]> (bw_insts w1))) a (rs_msgs rsp) in
            Some (Ok (w2, Some a, lg))
        | MMigrate c code =>
            let! a := Some (oget (norm A c) ENotFound) in
            let! i := Some (oget (bw_insts w !! a) ENotFound) in
            let! k := Some (oget (bc_codes B code) ENotFound) in
            if bool_decide (bi_admin i = Some sender) then
              let! s := Some (oget (bmigrated B (bi_state i) k) EParse) in
              Some (Ok (bset_state w a s, None, []))
            else Some (Err EUnauthorized)
        | MUpdateAdmin c new =>
            let! a := Some (oget (norm A c) ENotFound) in
            let! i := Some (oget (bw_insts w !! a) ENotFound) in
            let! adm := Some match new with
                        | Some x => let* x' := oget (norm A x) ENotFound in Ok (Some x')
                        | None => Ok None
                        end in
            if bool_decide (bi_admin i = Some sender) then Some (Ok (bset_admin w a adm, None, []))
            else Some (Err EUnauthorized)
        end
    end
  with brun (fuel : nat) (w : bworld) (self : string) (subs : list submsg) {struct fuel}
    : option (res (bworld * list bevent)) :=
    match fuel with
    | O => Some (Err EFuel)
    | S f =>
        match subs with
        | [] => Some (Ok (w, []))
        | sm :: rest =>
            let! '(w1, lg1) :=
              match sm_reply sm, bexec f w self (sm_msg sm) with
              | _, None => None
              | ReplyNever, Some (Ok (w', _, lg)) => Some (Ok (w', lg))
              | ReplyNever, Some (Err e) => Some (Err e)
              | ReplySuccess _, Some (Err e) => Some (Err e)
              | ReplySuccess id, Some (Ok (w', r, lg)) | ReplyAlways id, Some (Ok (w', r, lg)) =>
                  let! i := Some (oget (bw_insts w' !! self) ENotFound) in
                  let! '(s, rsp) := Some (breply B w' self (bi_state i) id true r) in
                  let! '(w2, lg2) := brun f (bset_state w' self s) self (rs_msgs rsp) in
                  Some (Ok (w2, lg ++ lg2))
              | ReplyAlways id, Some (Err _) =>
                  let! i := Some (oget (bw_insts w !! self) ENotFound) in
                  let! '(s, rsp) := Some (breply B w self (bi_state i) id false None) in
                  brun f (bset_state w self s) self (rs_msgs rsp)
              end in
            let! '(w2, lg2) := brun f w1 self rest in
            Some (Ok (w2, lg1 ++ lg2))
        end
    end.
End dispatch.

(** ** Histories, as in World.v *)
Definition bordinary (B : bchain) (a : string) : Prop := norm (bc_api B) a = Some a /\ forall n, bc_fresh B n <> a.
Definition btx (B : bchain) (w : bworld) (signer : string) (m : cmsg) (w' : bworld) (lg : list bevent) : Prop :=
  bordinary B signer /\ exists fuel r, bexec B fuel w signer m = Some (Ok (w', r, lg)).
Inductive bhistory (B : bchain) : bworld -> list bevent -> bworld -> Prop :=
| bh_refl w : bhistory B w [] w
| bh_tx w lg w1 s m w2 lg2 : bhistory B w lg w1 -> btx B w1 s m w2 lg2 -> bhistory B w (lg ++ lg2) w2
| bh_block w lg w1 blk : bhistory B w lg w1 ->
    b_height (bw_block w1) <= b_height blk -> b_time (bw_block w1) <= b_time blk ->
    bhistory B w lg (BWorld (bw_bank w1) (bw_insts w1) (bw_next w1) blk).
