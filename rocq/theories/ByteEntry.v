(** The execute entry on bytes throughout: a contract is handed the bytes of a
    message, reads them with its own decoder (Wire.v) and runs on its store
    (ByteWorld.v). *)
From Verif Require Import Base BigNumber CwStd Asset Messages PairMath Pair Token Factory Router World
  Json Wire Storage TokenStorage P_Wire ByteWorld.
From Coq Require Import Ascii String.
Local Open Scope N_scope.

(** from_slice and then execute: the entry points of
    contracts/halo-pair/src/contract.rs, lines 83-124,
    contracts/halo-factory/src/contract.rs, lines 48-66,
    contracts/halo-router/src/contract.rs, lines 47-88, and
    contracts/halo-token/src/contract.rs, lines 64-71.  Bytes that do not decode are
    an error before the store is looked at.  Third-party code is handed the message
    the bytes stand for (P_Wire.v [jmsg_of]). *)
Definition bentry (B : bchain) (w : bworld) (self : string) (s : bstate) (sender : string)
    (funds : list coin) (t : string) : option (res (bstate * response)) :=
  let read r := match from_bytes r t with Some m => bcall B w self s sender funds m | None => Some (Err EParse) end in
  match s with
  | BPair _ => read r_pair_msg
  | BFactory _ => read r_factory_msg
  | BRouter _ => read r_router_msg
  | BToken _ => read r_token_msg
  | BAdv _ _ => bcall B w self s sender funds (jmsg_of t)
  end.

(** A transaction: [sender] sends the bytes [t] to the contract [c] with coins; as
    the MExecute case of ByteWorld.v [bexec].  Messages of contracts to each other
    are carried as there. *)
Definition bsend (B : bchain) (fuel : nat) (w : bworld) (sender c t : string) (funds : list coin)
    : option (res (bworld * option string * list bevent)) :=
  let! a := Some (oget (norm (bc_api B) c) ENotFound) in
  let! w1 := Some (bb_send w sender a funds) in
  let! i := Some (oget (bw_insts w1 !! a) ENotFound) in
  let! '(s, rsp) := bentry B w1 a (bi_state i) sender funds t in
  let! '(w2, lg) := brun B fuel (bset_state w1 a s) a (rs_msgs rsp) in
  Some (Ok (w2, None, BEvent a sender (jmsg_of t) (rs_attrs rsp) funds w1 :: lg)).
