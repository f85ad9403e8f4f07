(** The chain of ByteWorld.v with messages in bytes as well: whoever sends a message
    to a contract of /repo, user or contract, sends the bytes of its JSON
    (to_binary, as in packages/haloswap/src/asset.rs, lines 28-48, and wherever a
    WasmMsg is made), and the receiver reads them with its own decoder. *)
From Verif Require Import Base BigNumber CwStd Asset Messages PairMath Pair Token Factory Router World
  Json Wire Storage TokenStorage P_Wire ByteWorld ByteEntry.
From Coq Require Import Ascii String.
Local Open Scope N_scope.

(** Third-party code is handed the message itself. *)
Definition deliver (B : bchain) (w : bworld) (self : string) (s : bstate) (sender : string)
    (funds : list coin) (m : jmsg) : option (res (bstate * response)) :=
  match s with
  | BAdv _ _ => bcall B w self s sender funds m
  | _ => bentry B w self s sender funds (msg_bytes m)
  end.
(** The same for the instantiate entries. *)
Definition set_up (B : bchain) (w : bworld) (self : string) (c : code) (sender : string)
    (funds : list coin) (m : imsg) : res (bstate * response) :=
  let read r := match from_bytes r (init_bytes m) with Some m' => binit B w self c sender funds m' | None => Err EParse end in
  match c with
  | CPair => read r_pair_init
  | CFactory => read r_factory_init
  | CRouter => read r_router_init
  | CToken => read r_token_init
  | CAdv _ => binit B w self c sender funds m
  end.

(** ** Dispatch, as in ByteWorld.v *)
Section dispatch.
  Context (B : bchain).
  Let A := bc_api B.

  Fixpoint wexec (fuel : nat) (w : bworld) (sender : string) (m : cmsg) {struct fuel}
    : option (res (bworld * option string * list bevent)) :=
    match fuel with
    | O => Some (Err EFuel)
    | S f =>
        match m with
        | MBankSend to cs =>
            let! w' := Some (bb_msg A w sender to cs) in Some (Ok (w', None, []))
        | MExecute c msg funds =>
            let! a := Some (oget (norm A c) ENotFound) in
            let! w1 := Some (bb_send w sender a funds) in
            let! i := Some (oget (bw_insts w1 !! a) ENotFound) in
            let! '(s, rsp) := deliver B w1 a (bi_state i) sender funds msg in
            let! '(w2, lg) := wrun f (bset_state w1 a s) a (rs_msgs rsp) in
            Some (Ok (w2, None, BEvent a sender msg (rs_attrs rsp) funds w1 :: lg))
        | MInstantiate admin code msg funds _ =>
            let! c := Some (oget (bc_codes B code) ENotFound) in
            let! adm := Some match admin with
                        | Some x => let* x' := oget (norm A x) ENotFound in Ok (Some x')
                        | None => Ok None
                        end in
            let a := bc_fresh B (bw_next w) in
            let w0 := bset_next w (bw_next w + 1) in
            let! w1 := Some (bb_send w0 sender a funds) in
            let! '(s, rsp) := Some (set_up B w1 a c sender funds msg) in
            let! '(w2, lg) := wrun f (bset_insts w1 (<[a := BInst adm s]> (bw_insts w1))) a (rs_msgs rsp) in
            Some (Ok (w2, Some a, lg))
        | MMigrate c code =>
            let! a := Some (oget (norm A c) ENotFound) in
            let! i := Some (oget (bw_insts w !! a) ENotFound) in
            let! k := Some (oget (bc_codes B code) ENotFound) in
            if bool_decide (bi_admin i = Some sender) then
              let! s := Some (oget (bmigrated B (bi_state i) k) EParse) in
              Some (Ok (bset_state w a s, None, []))
            else Some (Err EUnauthorized)
        | MUpdateAdmin c new =>
            let! a := Some (oget (norm A c) ENotFound) in
            let! i := Some (oget (bw_insts w !! a) ENotFound) in
            let! adm := Some match new with
                        | Some x => let* x' := oget (norm A x) ENotFound in Ok (Some x')
                        | None => Ok None
                        end in
            if bool_decide (bi_admin i = Some sender) then Some (Ok (bset_admin w a adm, None, []))
            else Some (Err EUnauthorized)
        end
    end
  with wrun (fuel : nat) (w : bworld) (self : string) (subs : list submsg) {struct fuel}
    : option (res (bworld * list bevent)) :=
    match fuel with
    | O => Some (Err EFuel)
    | S f =>
        match subs with
        | [] => Some (Ok (w, []))
        | sm :: rest =>
            let! '(w1, lg1) :=
              match sm_reply sm, wexec f w self (sm_msg sm) with
              | _, None => None
              | ReplyNever, Some (Ok (w', _, lg)) => Some (Ok (w', lg))
              | ReplyNever, Some (Err e) => Some (Err e)
              | ReplySuccess _, Some (Err e) => Some (Err e)
              | ReplySuccess id, Some (Ok (w', r, lg)) | ReplyAlways id, Some (Ok (w', r, lg)) =>
                  let! i := Some (oget (bw_insts w' !! self) ENotFound) in
                  let! '(s, rsp) := Some (breply B w' self (bi_state i) id true r) in
                  let! '(w2, lg2) := wrun f (bset_state w' self s) self (rs_msgs rsp) in
                  Some (Ok (w2, lg ++ lg2))
              | ReplyAlways id, Some (Err _) =>
                  let! i := Some (oget (bw_insts w !! self) ENotFound) in
                  let! '(s, rsp) := Some (breply B w self (bi_state i) id false None) in
                  wrun f (bset_state w self s) self (rs_msgs rsp)
              end in
            let! '(w2, lg2) := wrun f w1 self rest in
            Some (Ok (w2, lg1 ++ lg2))
        end
    end.
End dispatch.

(** ** Histories: signers send any message that stands for its own bytes, that is,
    anything that can be sent as bytes (C87). *)
Definition cfits (m : cmsg) : Prop :=
  match m with MExecute _ m _ => msg_fits m | MInstantiate _ _ m _ _ => init_fits m | _ => True end.
Definition wtx (B : bchain) (w : bworld) (signer : string) (m : cmsg) (w' : bworld) (lg : list bevent) : Prop :=
  bordinary B signer /\ cfits m /\ exists fuel r, wexec B fuel w signer m = Some (Ok (w', r, lg)).
Inductive whistory (B : bchain) : bworld -> list bevent -> bworld -> Prop :=
| wh_refl w : whistory B w [] w
| wh_tx w lg w1 s m w2 lg2 : whistory B w lg w1 -> wtx B w1 s m w2 lg2 -> whistory B w (lg ++ lg2) w2
| wh_block w lg w1 blk : whistory B w lg w1 ->
    b_height (bw_block w1) <= b_height blk -> b_time (bw_block w1) <= b_time blk ->
    whistory B w lg (BWorld (bw_bank w1) (bw_insts w1) (bw_next w1) blk).
