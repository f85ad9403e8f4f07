(** An induction principle for message execution: invariants and relations
    that every elementary step keeps are kept by whole executions. *)
From Verif Require Import Base BigNumber CwStd Asset Messages PairMath Pair Token Factory Router World.
Local Open Scope N_scope.

Definition never (sm : submsg) : Prop := sm_reply sm = ReplyNever.

(** Unfolding equations. *)
Lemma exec_eq C f w sender m : exec C (S f) w sender m =
  match m with
  | MBankSend to cs => let* w' := bank_msg (ch_api C) w sender to cs in Ok (w', None, [])
  | MExecute c msg funds =>
      let* a := oget (norm (ch_api C) c) ENotFound in
      let* w1 := bank_send w sender a funds in
      let* i := oget (w_insts w1 !! a) ENotFound in
      let* '(s, rsp) := call C w1 a (i_state i) sender funds msg in
      let* '(w2, lg) := run C f (set_state w1 a s) a (rs_msgs rsp) in
      Ok (w2, None, Event a sender msg (rs_attrs rsp) funds w1 :: lg)
  | MInstantiate admin code msg funds _ =>
      let* c := oget (ch_codes C code) ENotFound in
      let* adm := match admin with
                  | Some x => let* x' := oget (norm (ch_api C) x) ENotFound in Ok (Some x')
                  | None => Ok None
                  end in
      let a := ch_fresh C (w_next w) in
      let w0 := set_next w (w_next w + 1) in
      let* w1 := bank_send w0 sender a funds in
      let* '(s, rsp) := init C w1 a c sender funds msg in
      let* '(w2, lg) := run C f (set_insts w1 (<[a := Inst adm s]> (w_insts w1))) a (rs_msgs rsp) in
      Ok (w2, Some a, lg)
  | MMigrate c code =>
      let* a := oget (norm (ch_api C) c) ENotFound in
      let* i := oget (w_insts w !! a) ENotFound in
      let* k := oget (ch_codes C code) ENotFound in
      if bool_decide (i_admin i = Some sender) then
        let* s := oget (migrated C (i_state i) k) EParse in
        Ok (set_state w a s, None, [])
      else Err EUnauthorized
  | MUpdateAdmin c new =>
      let* a := oget (norm (ch_api C) c) ENotFound in
      let* i := oget (w_insts w !! a) ENotFound in
      let* adm := match new with
                  | Some x => let* x' := oget (norm (ch_api C) x) ENotFound in Ok (Some x')
                  | None => Ok None
                  end in
      if bool_decide (i_admin i = Some sender) then Ok (set_admin w a adm, None, [])
      else Err EUnauthorized
  end.
Proof. reflexivity. Qed.

Lemma exec_0 C w s m : exec C 0 w s m = Err EFuel.
Proof. reflexivity. Qed.
Lemma run_0 C w a l : run C 0 w a l = Err EFuel.
Proof. reflexivity. Qed.
Lemma run_nil C f w self : run C (S f) w self [] = Ok (w, []).
Proof. reflexivity. Qed.
Lemma run_cons C f w self sm rest : run C (S f) w self (sm :: rest) =
  let* '(w1, lg1) :=
    match sm_reply sm, exec C f w self (sm_msg sm) with
    | ReplyNever, Ok (w', _, lg) => Ok (w', lg)
    | ReplyNever, Err e => Err e
    | ReplySuccess _, Err e => Err e
    | ReplySuccess id, Ok (w', r, lg) | ReplyAlways id, Ok (w', r, lg) =>
        let* i := oget (w_insts w' !! self) ENotFound in
        let* '(s, rsp) := reply C w' self (i_state i) id true r in
        let* '(w2, lg2) := run C f (set_state w' self s) self (rs_msgs rsp) in
        Ok (w2, lg ++ lg2)
    | ReplyAlways id, Err _ =>
        let* i := oget (w_insts w !! self) ENotFound in
        let* '(s, rsp) := reply C w self (i_state i) id false None in
        run C f (set_state w self s) self (rs_msgs rsp)
    end in
  let* '(w2, lg2) := run C f w1 self rest in
  Ok (w2, lg1 ++ lg2).
Proof. reflexivity. Qed.
Lemma run_plain C f w self m rest : run C (S f) w self (plain m :: rest) =
  let* '(w1, r, lg1) := exec C f w self m in
  let* '(w2, lg2) := run C f w1 self rest in
  Ok (w2, lg1 ++ lg2).
Proof. rewrite run_cons. cbn [plain sm_reply sm_msg]. destruct (exec C f w self m) as [[[? ?] ?]|?]; reflexivity. Qed.
Global Opaque exec run.

Section ind.
  Context (C : chain).
  (* invariant; relation between the worlds before and after a message, with the
     events; the same for the submessages of contract [a]; what a sender may
     send *)
  Context (I : world -> Prop).
  Context (R : world -> world -> list event -> Prop).
  Context (Rr : string -> world -> world -> list event -> Prop).
  Context (may : world -> string -> submsg -> Prop).
  Context (mays : world -> string -> list submsg -> Prop).

  Record ind_ok : Prop := {
    io_sub : forall a w w' lg, I w -> I w' -> R w w' lg -> Rr a w w' lg;
    io_refl : forall w, I w -> R w w [];
    io_trans : forall w w1 w2 l1 l2, I w -> I w1 -> I w2 -> R w w1 l1 -> R w1 w2 l2 -> R w w2 (l1 ++ l2);
    io_transr : forall a w w1 w2 l1 l2, I w -> I w1 -> I w2 -> Rr a w w1 l1 -> Rr a w1 w2 l2 -> Rr a w w2 (l1 ++ l2);
    io_head : forall w a sm rest, I w -> mays w a (sm :: rest) -> may w a sm;
    io_tail : forall w w' a sm rest lg, I w -> I w' -> mays w a (sm :: rest) ->
      Rr a w w' lg -> (never sm -> R w w' lg) -> mays w' a rest;
    io_bank : forall w s ro to cs w', I w -> may w s (SubMsg (MBankSend to cs) ro) ->
      bank_msg (ch_api C) w s to cs = Ok w' -> I w' /\ R w w' [];
    io_call : forall w s ro c msg funds a w1 i st rsp,
      I w -> may w s (SubMsg (MExecute c msg funds) ro) ->
      norm (ch_api C) c = Some a -> bank_send w s a funds = Ok w1 -> w_insts w1 !! a = Some i ->
      call C w1 a (i_state i) s funds msg = Ok (st, rsp) ->
      let w2 := set_state w1 a st in
      I w2 /\ mays w2 a (rs_msgs rsp) /\
      forall f w3 lg, run C f w2 a (rs_msgs rsp) = Ok (w3, lg) -> I w3 -> Rr a w2 w3 lg ->
        (Forall never (rs_msgs rsp) -> R w2 w3 lg) ->
        R w w3 (Event a s msg (rs_attrs rsp) funds w1 :: lg);
    io_inst : forall w s ro admin code msg funds label k adm w1 st rsp,
      I w -> may w s (SubMsg (MInstantiate admin code msg funds label) ro) ->
      ch_codes C code = Some k ->
      (match admin with Some x => norm (ch_api C) x = adm /\ adm <> None | None => adm = None end) ->
      let a := ch_fresh C (w_next w) in
      bank_send (set_next w (w_next w + 1)) s a funds = Ok w1 ->
      init C w1 a k s funds msg = Ok (st, rsp) ->
      let w2 := set_insts w1 (<[a := Inst adm st]> (w_insts w1)) in
      I w2 /\ mays w2 a (rs_msgs rsp) /\
      forall f w3 lg, run C f w2 a (rs_msgs rsp) = Ok (w3, lg) -> I w3 -> Rr a w2 w3 lg ->
        (Forall never (rs_msgs rsp) -> R w2 w3 lg) -> R w w3 lg;
    io_mig : forall w s ro c code a i k st,
      I w -> may w s (SubMsg (MMigrate c code) ro) -> norm (ch_api C) c = Some a ->
      w_insts w !! a = Some i -> ch_codes C code = Some k -> i_admin i = Some s ->
      migrated C (i_state i) k = Some st ->
      I (set_state w a st) /\ R w (set_state w a st) [];
    io_admin : forall w s ro c new a i adm,
      I w -> may w s (SubMsg (MUpdateAdmin c new) ro) -> norm (ch_api C) c = Some a ->
      w_insts w !! a = Some i -> i_admin i = Some s ->
      I (set_admin w a adm) /\ R w (set_admin w a adm) [];
    io_reply : forall w a sm rest f w' r lg id i st rsp,
      I w -> mays w a (sm :: rest) -> sm_reply sm = ReplySuccess id \/ sm_reply sm = ReplyAlways id ->
      exec C f w a (sm_msg sm) = Ok (w', r, lg) -> I w' -> R w w' lg ->
      w_insts w' !! a = Some i -> reply C w' a (i_state i) id true r = Ok (st, rsp) ->
      let w2 := set_state w' a st in
      I w2 /\ mays w2 a (rs_msgs rsp) /\ Rr a w' w2 [];
    io_reply_fail : forall w a sm rest id i st rsp,
      I w -> mays w a (sm :: rest) -> sm_reply sm = ReplyAlways id ->
      w_insts w !! a = Some i -> reply C w a (i_state i) id false None = Ok (st, rsp) ->
      let w2 := set_state w a st in
      I w2 /\ mays w2 a (rs_msgs rsp) /\ Rr a w w2 [];
  }.

  Context (H : ind_ok).

  Lemma exec_run_ind : forall f,
    (forall w s m ro w' r lg, exec C f w s m = Ok (w', r, lg) -> I w -> may w s (SubMsg m ro) ->
       I w' /\ R w w' lg) /\
    (forall w a subs w' lg, run C f w a subs = Ok (w', lg) -> I w -> mays w a subs ->
       I w' /\ Rr a w w' lg /\ (Forall never subs -> R w w' lg)).
  Proof.
    induction f as [|f [IHe IHr]]; [split; intros; discriminate|]. split.
    - intros w s m ro w' r lg E HI Hm. rewrite exec_eq in E. destruct m as [to cs|c msg funds|admin code msg funds label|c code|c new].
      + apply rbind_ok in E as (w1 & E1 & E). injection E as <- <- <-.
        eapply io_bank; eauto.
      + apply rbind_ok in E as (a & Ea & E). apply oget_ok in Ea.
        apply rbind_ok in E as (w1 & E1 & E).
        apply rbind_ok in E as (i & Ei & E). apply oget_ok in Ei.
        apply rbind_ok in E as ([st rsp] & Ec & E).
        apply rbind_ok in E as ([w2 lg2] & Er & E). injection E as <- <- <-.
        destruct (io_call H _ _ _ _ _ _ _ _ _ _ _ HI Hm Ea E1 Ei Ec) as (I2 & M2 & K).
        destruct (IHr _ _ _ _ _ Er I2 M2) as (I3 & R3 & R3'). split; [exact I3|]. eapply K; eauto.
      + apply rbind_ok in E as (k & Ek & E). apply oget_ok in Ek.
        apply rbind_ok in E as (adm & Eadm & E).
        apply rbind_ok in E as (w1 & E1 & E).
        apply rbind_ok in E as ([st rsp] & Ec & E).
        apply rbind_ok in E as ([w2 lg2] & Er & E). injection E as <- <- <-.
        assert (Ha : match admin with Some x => norm (ch_api C) x = adm /\ adm <> None | None => adm = None end).
        { destruct admin as [x|].
          - apply rbind_ok in Eadm as (x' & Ex & Eadm). apply oget_ok in Ex. injection Eadm as <-. split; congruence.
          - congruence. }
        destruct (io_inst H _ _ _ _ _ _ _ _ _ _ _ _ _ HI Hm Ek Ha E1 Ec) as (I2 & M2 & K).
        destruct (IHr _ _ _ _ _ Er I2 M2) as (I3 & R3 & R3'). split; [exact I3|]. eapply K; eauto.
      + apply rbind_ok in E as (a & Ea & E). apply oget_ok in Ea.
        apply rbind_ok in E as (i & Ei & E). apply oget_ok in Ei.
        apply rbind_ok in E as (k & Ek & E). apply oget_ok in Ek.
        destruct (bool_decide (i_admin i = Some s)) eqn:Ed; [|discriminate].
        apply bool_decide_eq_true in Ed.
        apply rbind_ok in E as (st & Es & E). apply oget_ok in Es. injection E as <- <- <-.
        eapply io_mig; eauto.
      + apply rbind_ok in E as (a & Ea & E). apply oget_ok in Ea.
        apply rbind_ok in E as (i & Ei & E). apply oget_ok in Ei.
        apply rbind_ok in E as (adm & _ & E).
        destruct (bool_decide (i_admin i = Some s)) eqn:Ed; [|discriminate].
        apply bool_decide_eq_true in Ed. injection E as <- <- <-.
        eapply io_admin; eauto.
    - intros w a subs w' lg E HI Hm. destruct subs as [|sm rest].
      + rewrite run_nil in E. injection E as <- <-. pose proof (io_refl H _ HI). split; [exact HI|].
        split; [apply io_sub; auto|auto].
      + rewrite run_cons in E. apply rbind_ok in E as ([w1 l1] & E1 & E). apply rbind_ok in E as ([w2 l2] & E2 & E).
        injection E as <- <-.
        assert (X : I w1 /\ Rr a w w1 l1 /\ (never sm -> R w w1 l1)).
        { pose proof (io_head H _ _ _ _ HI Hm) as Hh.
          assert (Hs : forall w' r lg, exec C f w a (sm_msg sm) = Ok (w', r, lg) -> I w' /\ R w w' lg).
          { intros. eapply (IHe w a (sm_msg sm) (sm_reply sm)); eauto. destruct sm; exact Hh. }
          assert (Hrep : forall id w' r lg, sm_reply sm = ReplySuccess id \/ sm_reply sm = ReplyAlways id ->
            exec C f w a (sm_msg sm) = Ok (w', r, lg) ->
            (let* i := oget (w_insts w' !! a) ENotFound in
             let* '(s, rsp) := reply C w' a (i_state i) id true r in
             let* '(w2, lg2) := run C f (set_state w' a s) a (rs_msgs rsp) in
             Ok (w2, lg ++ lg2)) = Ok (w1, l1) ->
            I w1 /\ Rr a w w1 l1 /\ (never sm -> R w w1 l1)).
          { intros id w' r lg Hid Ex Ey. destruct (Hs _ _ _ Ex) as [I' R'].
            apply rbind_ok in Ey as (i & Ei & Ey). apply oget_ok in Ei.
            apply rbind_ok in Ey as ([st rsp] & Ec & Ey).
            apply rbind_ok in Ey as ([w3 lg3] & Er & Ey). injection Ey as <- <-.
            destruct (io_reply H _ _ _ _ _ _ _ _ _ _ _ _ HI Hm Hid Ex I' R' Ei Ec) as (I2 & M2 & Rr2).
            destruct (IHr _ _ _ _ _ Er I2 M2) as (I3 & R3 & _).
            split; [exact I3|]. split.
            - eapply (io_transr H); [exact HI|exact I'|exact I3|apply io_sub; auto|].
              apply (io_transr H a w' (set_state w' a st) w3 [] lg3); auto.
            - unfold never. intros Hn. destruct Hid as [Hid|Hid]; rewrite Hn in Hid; discriminate. }
          destruct (sm_reply sm) as [|id|id] eqn:Ero; destruct (exec C f w a (sm_msg sm)) as [[[w' r] lg]|e] eqn:Ex; try discriminate.
          - injection E1 as <- <-. destruct (Hs _ _ _ eq_refl) as [I' R']. split; [exact I'|].
            split; [apply io_sub; auto|auto].
          - eapply Hrep; eauto.
          - eapply Hrep; eauto.
          - apply rbind_ok in E1 as (i & Ei & Ey). apply oget_ok in Ei.
            apply rbind_ok in Ey as ([st rsp] & Ec & Er).
            destruct (io_reply_fail H _ _ _ _ _ _ _ _ HI Hm Ero Ei Ec) as (I2 & M2 & Rr2).
            destruct (IHr _ _ _ _ _ Er I2 M2) as (I3 & R3 & _).
            split; [exact I3|]. split.
            + apply (io_transr H a w (set_state w a st) w1 [] l1); auto.
            + unfold never. congruence. }
        destruct X as (I1 & R1 & R1').
        pose proof (io_tail H _ _ _ _ _ _ HI I1 Hm R1 R1') as M1.
        destruct (IHr _ _ _ _ _ E2 I1 M1) as (I2' & R2 & R2').
        split; [exact I2'|]. split; [exact (io_transr H _ _ _ _ _ _ HI I1 I2' R1 R2)|].
        intros Hf. inversion Hf as [|? ? Hn Hf']; subst. exact (io_trans H _ _ _ _ _ HI I1 I2' (R1' Hn) (R2' Hf')).
  Qed.

  Lemma exec_ind f w s m ro w' r lg : exec C f w s m = Ok (w', r, lg) -> I w -> may w s (SubMsg m ro) ->
    I w' /\ R w w' lg.
  Proof. apply exec_run_ind. Qed.
  Lemma run_ind f w a subs w' lg : run C f w a subs = Ok (w', lg) -> I w -> mays w a subs ->
    I w' /\ Rr a w w' lg /\ (Forall never subs -> R w w' lg).
  Proof. apply exec_run_ind. Qed.
End ind.
