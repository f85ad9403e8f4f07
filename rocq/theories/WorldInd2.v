(** Induction over executions in which the invariant [main] comes for free. *)
From Verif Require Import Base BigNumber CwStd Asset Messages PairMath Pair Token Factory Router
  FactoryFacts TokenFacts World WorldInd WorldFacts WorldInv.
Local Open Scope N_scope.

Section ind3.
  Context (C : chain) (OK : chain_ok C).
  (* a condition on the chain that holds throughout *)
  Context (J : world -> Prop).
  Context (R2 : world -> world -> list event -> Prop).
  (* a restriction on what senders send, beyond [may] *)
  Context (may2 : world -> string -> submsg -> Prop).

  Record ind3_ok : Prop := {
    i3_keep : forall w w' lg, J w -> R2 w w' lg -> J w';
    i3_refl : forall w, main C w -> J w -> R2 w w [];
    i3_trans : forall w w1 w2 l1 l2, main C w -> main C w1 -> main C w2 -> J w -> (exists x, rel x w w1) -> (exists x, rel x w1 w2) ->
      R2 w w1 l1 -> R2 w1 w2 l2 -> R2 w w2 (l1 ++ l2);
    i3_stable : forall w w' a sm lg, main C w -> main C w' -> J w -> is_Some (state_at w a) -> rel (Some a) w w' -> R2 w w' lg ->
      may2 w a sm -> may2 w' a sm;
    i3_bank : forall w s ro to cs w' to', main C w -> J w -> may C w s (SubMsg (MBankSend to cs) ro) ->
      may2 w s (SubMsg (MBankSend to cs) ro) ->
      norm (ch_api C) to = Some to' -> bank_moved w w' s to' cs -> main C w' -> rel None w w' -> R2 w w' [];
    i3_call : forall w s ro c msg funds a w1 i st rsp f w3 lg,
      main C w -> J w -> may C w s (SubMsg (MExecute c msg funds) ro) -> may2 w s (SubMsg (MExecute c msg funds) ro) ->
      norm (ch_api C) c = Some a -> bank_moved w w1 s a funds -> state_at w a = Some (i_state i) ->
      w_insts w1 !! a = Some i ->
      call C w1 a (i_state i) s funds msg = Ok (st, rsp) ->
      let w2 := set_state w1 a st in
      main C w2 -> rel None w w2 -> Forall (may_state C a st) (rs_msgs rsp) ->
      run C f w2 a (rs_msgs rsp) = Ok (w3, lg) -> main C w3 -> rel (Some a) w2 w3 ->
      R2 w w3 (Event a s msg (rs_attrs rsp) funds w1 :: lg) \/
      (J w2 /\ Forall (may2 w2 a) (rs_msgs rsp) /\ (R2 w2 w3 lg -> R2 w w3 (Event a s msg (rs_attrs rsp) funds w1 :: lg)));
    i3_inst : forall w s ro admin code msg funds label k adm w1 st rsp f w3 lg,
      main C w -> J w -> may C w s (SubMsg (MInstantiate admin code msg funds label) ro) ->
      may2 w s (SubMsg (MInstantiate admin code msg funds label) ro) ->
      ch_codes C code = Some k ->
      (match admin with Some x => norm (ch_api C) x = adm /\ adm <> None | None => adm = None end) ->
      let a := ch_fresh C (w_next w) in
      bank_moved (set_next w (w_next w + 1)) w1 s a funds ->
      init C w1 a k s funds msg = Ok (st, rsp) ->
      let w2 := set_insts w1 (<[a := Inst adm st]> (w_insts w1)) in
      main C w2 -> (forall x, state_at w2 x = if decide (x = a) then Some st else state_at w x) ->
      state_at w a = None ->
      (forall ps, st = SPair ps -> pair_good C w2 a ps /\ r_liquidity_token ps = ""%string /\ exists tc, rs_msgs rsp = [lp_msg a tc]) ->
      run C f w2 a (rs_msgs rsp) = Ok (w3, lg) -> main C w3 -> rel (Some a) w2 w3 ->
      R2 w w3 lg \/ (J w2 /\ Forall (may2 w2 a) (rs_msgs rsp) /\ (R2 w2 w3 lg -> R2 w w3 lg));
    i3_mig : forall w s ro c code a i k st,
      main C w -> J w -> may C w s (SubMsg (MMigrate c code) ro) -> may2 w s (SubMsg (MMigrate c code) ro) ->
      norm (ch_api C) c = Some a ->
      w_insts w !! a = Some i -> ch_codes C code = Some k -> i_admin i = Some s ->
      migrated C (i_state i) k = Some st -> main C (set_state w a st) -> rel None w (set_state w a st) ->
      R2 w (set_state w a st) [];
    i3_admin : forall w a adm, main C w -> J w -> main C (set_admin w a adm) -> rel None w (set_admin w a adm) ->
      R2 w (set_admin w a adm) [];
    i3_reply : forall w a sm rest f w' r lg id i st rsp,
      main C w -> J w -> mays C w a (sm :: rest) -> may2 w a sm ->
      sm_reply sm = ReplySuccess id \/ sm_reply sm = ReplyAlways id ->
      exec C f w a (sm_msg sm) = Ok (w', r, lg) -> main C w' -> rel None w w' -> R2 w w' lg ->
      w_insts w' !! a = Some i -> reply C w' a (i_state i) id true r = Ok (st, rsp) ->
      let w2 := set_state w' a st in
      main C w2 -> rel (Some a) w' w2 -> Forall (may2 w2 a) (rs_msgs rsp) /\ R2 w' w2 [];
    i3_reply_fail : forall w a sm rest id k d st rsp,
      main C w -> J w -> mays C w a (sm :: rest) -> may2 w a sm -> sm_reply sm = ReplyAlways id ->
      state_at w a = Some (SAdv k d) -> adv_reply C k w a id false = Ok (st, rsp) ->
      let w2 := set_state w a (SAdv k st) in
      main C w2 -> rel None w w2 -> Forall (may2 w2 a) (rs_msgs rsp) /\ R2 w w2 [];
  }.

  Context (H : ind3_ok).
  Let MO := main_ok C OK.

  Lemma exec_run_ind3 : forall f,
    (forall w s m ro w' r lg, exec C f w s m = Ok (w', r, lg) -> main C w -> J w -> may C w s (SubMsg m ro) ->
       may2 w s (SubMsg m ro) -> R2 w w' lg) /\
    (forall w a subs w' lg, run C f w a subs = Ok (w', lg) -> main C w -> J w -> mays C w a subs ->
       Forall (may2 w a) subs -> R2 w w' lg).
  Proof.
    induction f as [|f [IHe IHr]]; [split; intros; [rewrite exec_0 in *|rewrite run_0 in *]; discriminate|]. split.
    - intros w s m ro w' r lg E HI HJ Hm H2. pose proof E as E0. rewrite exec_eq in E. destruct m as [to cs|c msg funds|admin code msg funds label|c code|c new].
      + apply rbind_ok in E as (w1 & E1 & E). injection E as <- <- <-.
        destruct (io_bank _ _ _ _ _ _ MO _ _ _ _ _ _ HI Hm E1) as [M1 R1].
        apply bank_msg_ok in E1 as (to' & Hn & Hb). eapply (i3_bank H); eauto.
      + apply rbind_ok in E as (a & Ea & E). apply oget_ok in Ea.
        apply rbind_ok in E as (w1 & E1 & E). apply bank_send_ok in E1.
        apply rbind_ok in E as (i & Ei & E). apply oget_ok in Ei.
        apply rbind_ok in E as ([st rsp] & Ec & E).
        apply rbind_ok in E as ([w2 lg2] & Er & E). injection E as <- <- <-.
        destruct (call_main C w s ro c msg funds a w1 i st rsp HI Hm E1 Ei Ec) as (Hs & M2 & Rn & F & _).
        assert (Ms : mays C (set_state w1 a st) a (rs_msgs rsp)).
        { left. exists st. split; [|exact F]. rewrite state_at_set by eauto. apply decide_True. reflexivity. }
        destruct (run_ind C _ _ _ _ _ MO _ _ _ _ _ _ Er M2 Ms) as (M3 & R3 & _).
        destruct (i3_call H _ _ _ _ _ _ _ _ _ _ _ _ _ _ HI HJ Hm H2 Ea E1 Hs Ei Ec M2 Rn F Er M3 R3) as [X|(J2 & X & Y)]; [exact X|].
        apply Y. eapply IHr; eauto.
      + apply rbind_ok in E as (k & Ek & E). apply oget_ok in Ek.
        apply rbind_ok in E as (adm & Eadm & E).
        apply rbind_ok in E as (w1 & E1 & E). apply bank_send_ok in E1.
        apply rbind_ok in E as ([st rsp] & Ec & E).
        apply rbind_ok in E as ([w2 lg2] & Er & E). injection E as <- <- <-.
        assert (Ha : match admin with Some x => norm (ch_api C) x = adm /\ adm <> None | None => adm = None end).
        { destruct admin as [x|].
          - apply rbind_ok in Eadm as (x' & Ex & Eadm). apply oget_ok in Ex. injection Eadm as <-. split; congruence.
          - congruence. }
        destruct (inst_main C OK w s code msg funds k adm w1 st rsp HI Ek E1 Ec) as (M2 & G & S & Hn & QP & _ & Ms).
        destruct (run_ind C _ _ _ _ _ MO _ _ _ _ _ _ Er M2 Ms) as (M3 & R3 & _).
        destruct (i3_inst H _ _ _ _ _ _ _ _ _ _ _ _ _ _ _ _ HI HJ Hm H2 Ek Ha E1 Ec M2 S Hn QP Er M3 R3) as [X|(J2 & X & Y)]; [exact X|].
        apply Y. eapply IHr; eauto.
      + apply rbind_ok in E as (a & Ea & E). apply oget_ok in Ea.
        apply rbind_ok in E as (i & Ei & E). apply oget_ok in Ei.
        apply rbind_ok in E as (k & Ek & E). apply oget_ok in Ek.
        destruct (bool_decide (i_admin i = Some s)) eqn:Ed; [|discriminate].
        apply bool_decide_eq_true in Ed.
        apply rbind_ok in E as (st & Es & E). apply oget_ok in Es. injection E as <- <- <-.
        destruct (io_mig _ _ _ _ _ _ MO _ _ _ _ _ _ _ _ _ HI Hm Ea Ei Ek Ed Es) as [M2 R'].
        eapply (i3_mig H); eauto.
      + apply rbind_ok in E as (a & Ea & E). apply oget_ok in Ea.
        apply rbind_ok in E as (i & Ei & E). apply oget_ok in Ei.
        apply rbind_ok in E as (adm & _ & E).
        destruct (bool_decide (i_admin i = Some s)) eqn:Ed; [|discriminate].
        apply bool_decide_eq_true in Ed. injection E as <- <- <-.
        destruct (io_admin _ _ _ _ _ _ MO w s ro c new a i adm HI Hm Ea Ei Ed) as [M2 R'].
        apply (i3_admin H); auto.
    - intros w a subs w' lg E HI HJ Hm H2. destruct subs as [|sm rest].
      + rewrite run_nil in E. injection E as <- <-. apply (i3_refl H); assumption.
      + pose proof E as E0. rewrite run_cons in E. apply rbind_ok in E as ([w1 l1] & E1 & E). apply rbind_ok in E as ([w2 l2] & E2 & E).
        injection E as <- <-. inversion H2 as [|? ? H2a H2b]; subst.
        pose proof (io_head _ _ _ _ _ _ MO _ _ _ _ HI Hm) as Hh.
        assert (Hs : forall w' r lg, exec C f w a (sm_msg sm) = Ok (w', r, lg) -> main C w' /\ rel None w w' /\ R2 w w' lg).
        { intros w' r lg Ex. assert (Hh' : may C w a (SubMsg (sm_msg sm) (sm_reply sm))) by (destruct sm; exact Hh).
          destruct (exec_ind C _ _ _ _ _ MO _ _ _ _ (sm_reply sm) _ _ _ Ex HI Hh') as [M' R'].
          split; [exact M'|]. split; [exact R'|]. eapply IHe; eauto. destruct sm; exact H2a. }
        assert (X : main C w1 /\ rel (Some a) w w1 /\ (never sm -> rel None w w1) /\ R2 w w1 l1).
        { assert (Hrep : forall id w' r lg, sm_reply sm = ReplySuccess id \/ sm_reply sm = ReplyAlways id ->
            exec C f w a (sm_msg sm) = Ok (w', r, lg) ->
            (let* i := oget (w_insts w' !! a) ENotFound in
             let* '(s, rsp) := reply C w' a (i_state i) id true r in
             let* '(w2, lg2) := run C f (set_state w' a s) a (rs_msgs rsp) in
             Ok (w2, lg ++ lg2)) = Ok (w1, l1) ->
            main C w1 /\ rel (Some a) w w1 /\ (never sm -> rel None w w1) /\ R2 w w1 l1).
          { intros id w' r lg Hid Ex Ey. destruct (Hs _ _ _ Ex) as (M' & R' & X').
            apply rbind_ok in Ey as (i & Ei & Ey). apply oget_ok in Ei.
            apply rbind_ok in Ey as ([st rsp] & Ec & Ey).
            apply rbind_ok in Ey as ([w3 lg3] & Er & Ey). injection Ey as <- <-.
            destruct (io_reply _ _ _ _ _ _ MO _ _ _ _ _ _ _ _ _ _ _ _ HI Hm Hid Ex M' R' Ei Ec) as (I2 & M2 & Rr2).
            destruct (run_ind C _ _ _ _ _ MO _ _ _ _ _ _ Er I2 M2) as (M3 & R3 & _).
            destruct (i3_reply H _ _ _ _ _ _ _ _ _ _ _ _ HI HJ Hm H2a Hid Ex M' R' X' Ei Ec I2 Rr2) as [F2 X2].
            assert (Rs : rel (Some a) w w') by (apply rel_sub; exact R').
            assert (Rt : rel (Some a) w' w3) by (eapply rel_trans; eauto).
            split; [exact M3|]. split; [eapply rel_trans; [exact Rs|exact Rt]|]. split.
            - unfold never. intros Hn. destruct Hid as [Hid|Hid]; rewrite Hn in Hid; discriminate.
            - eapply (i3_trans H); [exact HI|exact M'|exact M3|exact HJ|eexists; exact R'|eexists; exact Rt|exact X'|].
              assert (J' : J w') by (eapply (i3_keep H); eauto). apply (i3_trans H w' (set_state w' a st) w3 [] lg3 M' I2 M3 J' (ex_intro _ _ Rr2) (ex_intro _ _ R3) X2).
              eapply IHr; eauto. eapply (i3_keep H); eauto. }
          destruct (sm_reply sm) as [|id|id] eqn:Ero; destruct (exec C f w a (sm_msg sm)) as [[[w' r] lg]|e] eqn:Ex; try discriminate.
          - injection E1 as <- <-. destruct (Hs _ _ _ eq_refl) as (M' & R' & X').
            split; [exact M'|]. split; [apply rel_sub; exact R'|]. auto.
          - eapply Hrep; eauto.
          - eapply Hrep; eauto.
          - apply rbind_ok in E1 as (i & Ei & Ey). apply oget_ok in Ei.
            apply rbind_ok in Ey as ([st rsp] & Ec & Er).
            destruct (io_reply_fail _ _ _ _ _ _ MO _ _ _ _ _ _ _ _ HI Hm Ero Ei Ec) as (I2 & M2 & Rr2).
            destruct (run_ind C _ _ _ _ _ MO _ _ _ _ _ _ Er I2 M2) as (M3 & R3 & _).
            destruct (i_state i) as [| | | |k d] eqn:Es; cbn [reply] in Ec; try discriminate.
            unfold wrap in Ec. apply rbind_ok in Ec as ([st1 rsp1] & Ec & E'). injection E' as <- <-.
            assert (Hst : state_at w a = Some (SAdv k d)) by (unfold state_at; rewrite Ei; cbn; congruence).
            assert (Rn : rel None w (set_state w a (SAdv k st1))).
            { destruct Rr2 as [G P N T Ad]. split; auto. intros p st0 Hp. destruct (P _ _ Hp) as (st2 & H3 & [->|(Ea & _)]); [eauto|].
              injection Ea as <-. unfold pair_at in Hp. congruence. }
            destruct (i3_reply_fail H _ _ _ _ _ _ _ _ _ HI HJ Hm H2a Ero Hst Ec I2 Rn) as [F2 X2].
            split; [exact M3|]. split; [eapply rel_trans; eauto|]. split; [unfold never; congruence|].
            apply (i3_trans H w (set_state w a (SAdv k st1)) w1 [] l1 HI I2 M3 HJ (ex_intro _ _ Rr2) (ex_intro _ _ R3) X2).
            eapply IHr; eauto. eapply (i3_keep H); eauto. }
        destruct X as (M1 & R1 & R1' & X1).
        pose proof (io_tail _ _ _ _ _ _ MO _ _ _ _ _ l1 HI M1 Hm R1 R1') as Mt.
        destruct (run_ind C _ _ _ _ _ MO _ _ _ _ _ _ E2 M1 Mt) as (M2 & R2' & _).
        eapply (i3_trans H); [exact HI|exact M1|exact M2|exact HJ|eexists; exact R1|eexists; exact R2'|exact X1|].
        eapply IHr; [exact E2|exact M1|eapply (i3_keep H); eauto|exact Mt|].
        assert (Ha : is_Some (state_at w a)) by (destruct Hm as [(s & Hs' & _)|(s & sm' & Hs' & _)]; eauto).
        assert (St : forall sm', may2 w a sm' -> may2 w1 a sm') by (intros sm' Hx; exact (i3_stable H w w1 a sm' l1 HI M1 HJ Ha R1 X1 Hx)).
        clear - H2b St. induction H2b; constructor; auto.
  Qed.

  Lemma exec_ind3 f w s m w' r lg : exec C f w s m = Ok (w', r, lg) -> main C w -> J w -> ordinary C s ->
    may2 w s (plain m) -> R2 w w' lg.
  Proof.
    intros E M HJ O H2. destruct (exec_run_ind3 f) as [X _]. exact (X w s m ReplyNever w' r lg E M HJ (or_introl O) H2).
  Qed.
  Lemma run_ind3 f w a subs w' lg : run C f w a subs = Ok (w', lg) -> main C w -> J w -> mays C w a subs ->
    Forall (may2 w a) subs -> R2 w w' lg.
  Proof. apply exec_run_ind3. Qed.
End ind3.

Section ind2.
  Context (C : chain) (OK : chain_ok C).
  Context (R2 : world -> world -> list event -> Prop).
  (* a restriction on what senders send, beyond [may] *)
  Context (may2 : world -> string -> submsg -> Prop).

  Record ind2_ok : Prop := {
    i2_refl : forall w, main C w -> R2 w w [];
    i2_trans : forall w w1 w2 l1 l2, main C w -> main C w1 -> main C w2 -> (exists x, rel x w w1) -> (exists x, rel x w1 w2) ->
      R2 w w1 l1 -> R2 w1 w2 l2 -> R2 w w2 (l1 ++ l2);
    i2_stable : forall w w' a sm lg, main C w -> main C w' -> is_Some (state_at w a) -> rel (Some a) w w' -> R2 w w' lg ->
      may2 w a sm -> may2 w' a sm;
    i2_bank : forall w s ro to cs w' to', main C w -> may C w s (SubMsg (MBankSend to cs) ro) ->
      may2 w s (SubMsg (MBankSend to cs) ro) ->
      norm (ch_api C) to = Some to' -> bank_moved w w' s to' cs -> main C w' -> rel None w w' -> R2 w w' [];
    i2_call : forall w s ro c msg funds a w1 i st rsp f w3 lg,
      main C w -> may C w s (SubMsg (MExecute c msg funds) ro) -> may2 w s (SubMsg (MExecute c msg funds) ro) ->
      norm (ch_api C) c = Some a -> bank_moved w w1 s a funds -> state_at w a = Some (i_state i) ->
      w_insts w1 !! a = Some i ->
      call C w1 a (i_state i) s funds msg = Ok (st, rsp) ->
      let w2 := set_state w1 a st in
      main C w2 -> rel None w w2 -> Forall (may_state C a st) (rs_msgs rsp) ->
      run C f w2 a (rs_msgs rsp) = Ok (w3, lg) -> main C w3 -> rel (Some a) w2 w3 ->
      R2 w w3 (Event a s msg (rs_attrs rsp) funds w1 :: lg) \/
      (Forall (may2 w2 a) (rs_msgs rsp) /\ (R2 w2 w3 lg -> R2 w w3 (Event a s msg (rs_attrs rsp) funds w1 :: lg)));
    i2_inst : forall w s ro admin code msg funds label k adm w1 st rsp f w3 lg,
      main C w -> may C w s (SubMsg (MInstantiate admin code msg funds label) ro) ->
      may2 w s (SubMsg (MInstantiate admin code msg funds label) ro) ->
      ch_codes C code = Some k ->
      (match admin with Some x => norm (ch_api C) x = adm /\ adm <> None | None => adm = None end) ->
      let a := ch_fresh C (w_next w) in
      bank_moved (set_next w (w_next w + 1)) w1 s a funds ->
      init C w1 a k s funds msg = Ok (st, rsp) ->
      let w2 := set_insts w1 (<[a := Inst adm st]> (w_insts w1)) in
      main C w2 -> (forall x, state_at w2 x = if decide (x = a) then Some st else state_at w x) ->
      state_at w a = None ->
      (forall ps, st = SPair ps -> pair_good C w2 a ps /\ r_liquidity_token ps = ""%string /\ exists tc, rs_msgs rsp = [lp_msg a tc]) ->
      run C f w2 a (rs_msgs rsp) = Ok (w3, lg) -> main C w3 -> rel (Some a) w2 w3 ->
      R2 w w3 lg \/ (Forall (may2 w2 a) (rs_msgs rsp) /\ (R2 w2 w3 lg -> R2 w w3 lg));
    i2_mig : forall w s ro c code a i k st,
      main C w -> may C w s (SubMsg (MMigrate c code) ro) -> may2 w s (SubMsg (MMigrate c code) ro) ->
      norm (ch_api C) c = Some a ->
      w_insts w !! a = Some i -> ch_codes C code = Some k -> i_admin i = Some s ->
      migrated C (i_state i) k = Some st -> main C (set_state w a st) -> rel None w (set_state w a st) ->
      R2 w (set_state w a st) [];
    i2_admin : forall w a adm, main C w -> main C (set_admin w a adm) -> rel None w (set_admin w a adm) ->
      R2 w (set_admin w a adm) [];
    i2_reply : forall w a sm rest f w' r lg id i st rsp,
      main C w -> mays C w a (sm :: rest) -> may2 w a sm ->
      sm_reply sm = ReplySuccess id \/ sm_reply sm = ReplyAlways id ->
      exec C f w a (sm_msg sm) = Ok (w', r, lg) -> main C w' -> rel None w w' -> R2 w w' lg ->
      w_insts w' !! a = Some i -> reply C w' a (i_state i) id true r = Ok (st, rsp) ->
      let w2 := set_state w' a st in
      main C w2 -> rel (Some a) w' w2 -> Forall (may2 w2 a) (rs_msgs rsp) /\ R2 w' w2 [];
    i2_reply_fail : forall w a sm rest id k d st rsp,
      main C w -> mays C w a (sm :: rest) -> may2 w a sm -> sm_reply sm = ReplyAlways id ->
      state_at w a = Some (SAdv k d) -> adv_reply C k w a id false = Ok (st, rsp) ->
      let w2 := set_state w a (SAdv k st) in
      main C w2 -> rel None w w2 -> Forall (may2 w2 a) (rs_msgs rsp) /\ R2 w w2 [];
  }.

  Context (H : ind2_ok).
  Lemma ind2_ind3 : ind3_ok C (fun _ => True) R2 may2.
  Proof.
    split.
    - auto.
    - intros w M _. exact (i2_refl H w M).
    - intros w w1 w2 l1 l2 M M1 M2 _. exact (i2_trans H w w1 w2 l1 l2 M M1 M2).
    - intros w w' a sm lg M M' _. exact (i2_stable H w w' a sm lg M M').
    - intros w s ro to cs w' to' M _. exact (i2_bank H w s ro to cs w' to' M).
    - intros w s ro c msg funds a w1 i st rsp f w3 lg M _ A1 A2 A3 A4 A5 A6 A7 w2 A8 A9 A10 A11 A12 A13.
      destruct (i2_call H w s ro c msg funds a w1 i st rsp f w3 lg M A1 A2 A3 A4 A5 A6 A7 A8 A9 A10 A11 A12 A13) as [X|X]; auto.
    - intros w s ro ad code msg funds label k adm w1 st rsp f w3 lg M _ A1 A2 A3 A4 a A5 A6 w2 A7 A8 A9 A10 A11 A12 A13.
      destruct (i2_inst H w s ro ad code msg funds label k adm w1 st rsp f w3 lg M A1 A2 A3 A4 A5 A6 A7 A8 A9 A10 A11 A12 A13) as [X|X]; auto.
    - intros w s ro c code a i k st M _. exact (i2_mig H w s ro c code a i k st M).
    - intros w a adm M _. exact (i2_admin H w a adm M).
    - intros w a sm rest f w' r lg id i st rsp M _. exact (i2_reply H w a sm rest f w' r lg id i st rsp M).
    - intros w a sm rest id k d st rsp M _. exact (i2_reply_fail H w a sm rest id k d st rsp M).
  Qed.
  Lemma exec_ind2 f w s m w' r lg : exec C f w s m = Ok (w', r, lg) -> main C w -> ordinary C s ->
    may2 w s (plain m) -> R2 w w' lg.
  Proof. intros E M O. exact (exec_ind3 C OK _ R2 may2 ind2_ind3 f w s m w' r lg E M I O). Qed.
  Lemma run_ind2 f w a subs w' lg : run C f w a subs = Ok (w', lg) -> main C w -> mays C w a subs ->
    Forall (may2 w a) subs -> R2 w w' lg.
  Proof. intros E M. exact (run_ind3 C OK _ R2 may2 ind2_ind3 f w a subs w' lg E M I). Qed.
End ind2.

(** ** Facts used in instances *)
Section facts.
  Context (C : chain) (OK : chain_ok C).
  Local Notation A := (ch_api C).

  (** Which token a call changes. *)
  Lemma call_toks w w1 s a funds i st rsp msg t ts :
    bank_moved w w1 s a funds -> state_at w a = Some (i_state i) -> w_insts w1 !! a = Some i ->
    call C w1 a (i_state i) s funds msg = Ok (st, rsp) -> tok_at w t ts ->
    (t <> a /\ tok_at (set_state w1 a st) t ts) \/
    (t = a /\ exists ts', st = SToken ts' /\ tok_at (set_state w1 a st) t ts' /\
       tok_effect A (w_block w1) ts s msg ts' (rs_msgs rsp)).
  Proof.
    intros Hb Hs Hi Hc Ht. destruct (decide (t = a)) as [->|D].
    - right. split; [reflexivity|]. unfold tok_at in *. rewrite Hs in Ht. injection Ht as E. rewrite E in Hc.
      cbn [call] in Hc. unfold wrap in Hc. apply rbind_ok in Hc as ([ts' rsp'] & Hc & E'). injection E' as <- <-.
      exists ts'. split; [reflexivity|]. split; [rewrite state_at_set by eauto; apply decide_True; reflexivity|].
      apply token_execute_inv. exact Hc.
    - left. split; [exact D|]. unfold tok_at in *. rewrite state_at_set by eauto. rewrite decide_False by exact D.
      unfold state_at in *. rewrite (bm_insts _ _ _ _ _ Hb). exact Ht.
  Qed.
  Lemma set_toks w a s s' t ts : state_at w a = Some s -> (forall x, s <> SToken x) -> tok_at w t ts ->
    tok_at (set_state w a s') t ts.
  Proof.
    intros Hs Hn Ht. unfold tok_at in *. pose proof Hs as Hs0. apply state_at_inst in Hs0 as (ad & Hi).
    rewrite state_at_set by eauto. destruct (decide (t = a)) as [->|D]; [|exact Ht].
    rewrite Hs in Ht. injection Ht as ->. exfalso. exact (Hn _ eq_refl).
  Qed.
  Lemma mig_toks w a i k st t ts : w_insts w !! a = Some i -> migrated C (i_state i) k = Some st -> tok_at w t ts ->
    tok_at (set_state w a st) t ts.
  Proof.
    intros Hi Hm. eapply (set_toks w a (i_state i)); [unfold state_at; rewrite Hi; reflexivity|].
    intros x E. rewrite E in Hm. destruct k; try discriminate. cbn in Hm. rewrite (no_takeover C OK) in Hm. discriminate.
  Qed.
  Lemma admin_state w a adm x : state_at (set_admin w a adm) x = state_at w x.
  Proof. unfold state_at. rewrite set_admin_insts. case_decide; [|reflexivity]. subst. destruct (w_insts w !! a); reflexivity. Qed.
  Lemma admin_toks w a adm t ts : tok_at w t ts -> tok_at (set_admin w a adm) t ts.
  Proof. unfold tok_at. rewrite admin_state. auto. Qed.
  Lemma reply_toks w a i id b r st rsp t ts : w_insts w !! a = Some i -> reply C w a (i_state i) id b r = Ok (st, rsp) ->
    tok_at w t ts -> tok_at (set_state w a st) t ts.
  Proof.
    intros Hi Hr. eapply (set_toks w a (i_state i)); [unfold state_at; rewrite Hi; reflexivity|].
    intros x E. rewrite E in Hr. discriminate.
  Qed.
  Lemma same_toks w w' t ts : w_insts w' = w_insts w -> tok_at w t ts -> tok_at w' t ts.
  Proof. unfold tok_at, state_at. intros ->. auto. Qed.
  Lemma new_toks w w2 a s t ts : (forall x, state_at w2 x = if decide (x = a) then Some s else state_at w x) ->
    state_at w a = None -> tok_at w t ts -> tok_at w2 t ts.
  Proof.
    unfold tok_at. intros S Hn Ht. rewrite S. destruct (decide (t = a)) as [->|]; [congruence|exact Ht].
  Qed.

  (** The reply of a modelled contract sends nothing. *)
  Lemma reply_msgs w a i id b r st rsp : w_insts w !! a = Some i -> reply C w a (i_state i) id b r = Ok (st, rsp) ->
    rs_msgs rsp = [] \/ adv_at w a.
  Proof.
    intros Hi Hr. destruct (i_state i) as [| | | |k d] eqn:Es; cbn [reply] in Hr; try discriminate.
    - destruct r; [|discriminate]. unfold wrap in Hr. apply rbind_ok in Hr as ([x y] & Hr & E). injection E as <- <-.
      unfold pair_reply in Hr. apply rbind_ok in Hr as (c & _ & Hr). injection Hr as <- <-. left. reflexivity.
    - destruct r; [|discriminate]. unfold wrap in Hr. apply rbind_ok in Hr as ([x y] & Hr & E). injection E as <- <-.
      apply factory_reply_inv in Hr as (? & ? & ? & ? & _ & _ & _ & _ & _ & ->). left. reflexivity.
    - right. exists k, d. unfold state_at. rewrite Hi. cbn. congruence.
  Qed.

  Lemma pair_fresh w p st : main C w -> pair_at w p st -> exists n, p = ch_fresh C n.
  Proof.
    intros M Hp. apply state_at_inst in Hp as (ad & Hi). assert (X : is_Some (w_insts w !! p)) by eauto.
    apply (mn_fresh _ _ M) in X as (n & _ & E). eauto.
  Qed.
  Lemma pair_not_user w p st : main C w -> pair_at w p st -> ~ user C w p.
  Proof.
    intros M Hp U. destruct (user_not_modelled C w p _ (mn_fresh _ _ M) U Hp) as (k & d & X). unfold pair_at in Hp. congruence.
  Qed.

  (** ** Histories *)
  Lemma block_rel w blk : main C w ->
    main C (World (w_bank w) (w_insts w) (w_next w) blk) /\ rel None w (World (w_bank w) (w_insts w) (w_next w) blk).
  Proof. apply same_insts_rel; reflexivity. Qed.
  Lemma history_main w lg w' : main C w -> history C w lg w' -> main C w' /\ rel None w w'.
  Proof.
    intros M Hh. induction Hh as [w|w lg w1 s m w2 lg2 Hh IH (O & f & r & E)|w lg w1 blk Hh IH _ _].
    - split; [exact M|apply rel_refl].
    - destruct (IH M) as [M1 R1]. destruct (exec_main C OK f w1 s m w2 r lg2 M1 O E) as [M2 R2].
      split; [exact M2|]. eapply rel_trans; eauto.
    - destruct (IH M) as [M1 R1]. destruct (block_rel w1 blk M1) as [M2 R2].
      split; [exact M2|]. eapply rel_trans; eauto.
  Qed.
  Lemma history_ind2 R2 may2 w lg w' : ind2_ok C R2 may2 ->
    (forall w s m, ordinary C s -> may2 w s (plain m)) ->
    (forall w blk, main C w -> R2 w (World (w_bank w) (w_insts w) (w_next w) blk) []) ->
    main C w -> history C w lg w' -> R2 w w' lg.
  Proof.
    intros H Ho Hb M Hh. induction Hh as [w|w lg w1 s m w2 lg2 Hh IH (O & f & r & E)|w lg w1 blk Hh IH _ _].
    - apply (i2_refl _ _ _ H). exact M.
    - destruct (history_main _ _ _ M Hh) as [M1 R1]. destruct (exec_main C OK f w1 s m w2 r lg2 M1 O E) as [M2 Rx].
      apply (i2_trans _ _ _ H w w1 w2 lg lg2 M M1 M2); [eauto|eauto|auto|].
      eapply (exec_ind2 C OK R2 may2 H); eauto.
    - destruct (history_main _ _ _ M Hh) as [M1 R1]. destruct (block_rel w1 blk M1) as [M2 Rx].
      rewrite <- (app_nil_r lg). apply (i2_trans _ _ _ H w w1 _ lg [] M M1 M2); eauto.
  Qed.
  Lemma history_ind3 J R2 may2 w lg w' : ind3_ok C J R2 may2 ->
    (forall w s m, ordinary C s -> may2 w s (plain m)) ->
    (forall w blk, main C w -> J w -> R2 w (World (w_bank w) (w_insts w) (w_next w) blk) []) ->
    main C w -> J w -> history C w lg w' -> R2 w w' lg.
  Proof.
    intros H Ho Hb M HJ Hh. induction Hh as [w|w lg w1 s m w2 lg2 Hh IH (O & f & r & E)|w lg w1 blk Hh IH _ _].
    - apply (i3_refl _ _ _ _ H); assumption.
    - destruct (history_main _ _ _ M Hh) as [M1 R1]. destruct (exec_main C OK f w1 s m w2 r lg2 M1 O E) as [M2 Rx].
      apply (i3_trans _ _ _ _ H w w1 w2 lg lg2 M M1 M2 HJ); [eauto|eauto|auto|].
      eapply (exec_ind3 C OK J R2 may2 H); eauto. eapply (i3_keep _ _ _ _ H); eauto.
    - destruct (history_main _ _ _ M Hh) as [M1 R1]. destruct (block_rel w1 blk M1) as [M2 Rx].
      rewrite <- (app_nil_r lg). apply (i3_trans _ _ _ _ H w w1 _ lg [] M M1 M2 HJ); eauto. apply Hb; [exact M1|]. eapply (i3_keep _ _ _ _ H); eauto.
  Qed.
End facts.
