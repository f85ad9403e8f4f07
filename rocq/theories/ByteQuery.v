(** A smart query on the chain of ByteWorld.v: the contract addressed reads the bytes
    of the question and of its storage and writes the bytes of its answer.  As in
    QueryWire.v third-party contracts and addresses without a contract are left
    out.

    Source: the query entries contracts/halo-pair/src/contract.rs:480-491,
    contracts/halo-factory/src/contract.rs:265-276,
    contracts/halo-router/src/contract.rs:205-219,
    contracts/halo-token/src/contract.rs:73-76, on the storage of Storage.v and
    TokenStorage.v. *)
From Verif Require Import Base BigNumber CwStd Asset Messages Pair Token TokenQueries Factory Router World Json Wire QueryWire
  Storage TokenStorage SpenderWire ByteWorld.
From Coq Require Import Ascii String.
Local Open Scope N_scope.

Definition bsmart (B : bchain) (w : bworld) (a b : string) : option string :=
  match bcontract_at B w a with
  | Ok (_, BPair s) => answered (from_bytes r_pair_query b) (bp_query (bc_api B) (bwq B w) s)
  | Ok (_, BFactory s) => answered (from_bytes r_factory_query b) (bf_query (bc_api B) s)
  | Ok (_, BRouter s) => answered (from_bytes r_router_query b) (br_query (bc_api B) (bwq B w) s)
  | Ok (_, BToken s) => bt_bytes (bc_api B) s b
  | _ => None
  end.
