(** Who can replace the code of a contract (C52, C53).  Here contracts may be
    migrated to third-party code: only [chain_laws] is assumed. *)
From Verif Require Import Base BigNumber CwStd BigNumberFacts Asset Messages PairMath Pair PairFacts Token Factory Router
  SwapFacts SwapFacts2 P_Swap P_Pair FactoryFacts P_Factory P_Router TokenFacts World WorldInd WorldFacts WorldInv WorldInd2
  Examples WorldExamples P_Ledger P_Registry ExecFacts P_Exec.
From Coq Require Import ZifyN.
Local Open Scope N_scope.
Ltac Zify.zify_post_hook ::= idtac.

(** ** What can happen to a contract *)

(** The same code. *)
Definition same_code (s s' : cstate) : Prop :=
  match s, s' with
  | SPair _, SPair _ | SFactory _, SFactory _ | SRouter _, SRouter _ | SToken _, SToken _ => True
  | SAdv k _, SAdv k' _ => k = k'
  | _, _ => False
  end.
Lemma same_code_refl s : same_code s s.
Proof. destruct s; exact I || reflexivity. Qed.
Lemma same_code_trans a b c : same_code a b -> same_code b c -> same_code a c.
Proof. destruct a, b, c; cbn; try tauto; congruence. Qed.
Lemma code_kind a b : same_code a b -> same_kind a b.
Proof. destruct a, b; cbn; tauto. Qed.
Lemma call_code C w a s sender funds m s' rsp : call C w a s sender funds m = Ok (s', rsp) -> same_code s s'.
Proof. destruct s; cbn; unfold wrap; intros H; apply rbind_ok in H as ([x y] & _ & H); injection H as <- <-; exact I || reflexivity. Qed.
Lemma reply_code C w a s id b r s' rsp : reply C w a s id b r = Ok (s', rsp) -> same_code s s'.
Proof.
  destruct s; cbn; unfold wrap; try discriminate; try (destruct r; [|discriminate]);
    intros H; apply rbind_ok in H as ([x y] & _ & H); injection H as <- <-; exact I || reflexivity.
Qed.
(** The code stays, or becomes third-party code. *)
Definition kind_step (s s' : cstate) : Prop := same_kind s s' \/ exists k d, s' = SAdv k d.
Lemma kind_step_refl s : kind_step s s.
Proof. left. apply same_kind_refl. Qed.
Lemma kind_step_trans s s1 s2 : kind_step s s1 -> kind_step s1 s2 -> kind_step s s2.
Proof.
  intros [H|(k & d & ->)] [H'|(k' & d' & ->)]; [left; eapply same_kind_trans; eauto|right; eauto| |right; eauto].
  right. destruct s2; try destruct H'. eauto.
Qed.
Lemma migrated_step C s k s' : migrated C s k = Some s' -> kind_step s s'.
Proof.
  destruct s, k; cbn; intros H; try discriminate; try (injection H as <-; apply kind_step_refl);
    try (destruct (ch_takeover _ _ _); [injection H as <-|discriminate]; right; eauto).
  right. injection H as <-. eauto.
Qed.

(** Contracts stay; without an admin also their code and the absence of an admin. *)
Definition evolves (w w' : world) : Prop := forall x i, w_insts w !! x = Some i ->
  exists i', w_insts w' !! x = Some i' /\ kind_step (i_state i) (i_state i') /\
    (i_admin i = None -> i_admin i' = None /\ same_code (i_state i) (i_state i')).
Lemma evolves_refl w : evolves w w.
Proof. intros x i H. exists i. auto using kind_step_refl, same_code_refl. Qed.
Lemma evolves_trans w w1 w2 : evolves w w1 -> evolves w1 w2 -> evolves w w2.
Proof.
  intros H1 H2 x i Hx. destruct (H1 _ _ Hx) as (i1 & Hx1 & K1 & N1). destruct (H2 _ _ Hx1) as (i2 & Hx2 & K2 & N2).
  exists i2. split; [exact Hx2|]. split; [eapply kind_step_trans; eauto|].
  intros E. destruct (N1 E) as [E1 S1]. destruct (N2 E1) as [E2 S2]. split; [exact E2|]. eapply same_code_trans; eauto.
Qed.
Lemma evolves_same w w' : w_insts w' = w_insts w -> evolves w w'.
Proof. intros E x i H. exists i. rewrite E. auto using kind_step_refl, same_code_refl. Qed.
Lemma evolves_set w w1 a s i : w_insts w1 = w_insts w -> w_insts w !! a = Some i -> same_code (i_state i) s ->
  evolves w (set_state w1 a s).
Proof.
  intros E Hi K x j Hj. rewrite set_state_insts, E. case_decide.
  - subst. rewrite Hi in Hj |- *. injection Hj as <-. cbn. eexists. split; [reflexivity|]. split; [left; apply code_kind; exact K|auto].
  - exists j. auto using kind_step_refl, same_code_refl.
Qed.
Lemma evolves_new C w w1 from cs adm st : chain_laws C -> insts_fresh C w ->
  bank_moved (set_next w (w_next w + 1)) w1 from (ch_fresh C (w_next w)) cs ->
  evolves w (set_insts w1 (<[ch_fresh C (w_next w) := Inst adm st]> (w_insts w1))).
Proof.
  intros L F Hb x i Hi. cbn [set_insts w_insts]. rewrite (bm_insts _ _ _ _ _ Hb). cbn [set_next w_insts].
  rewrite lookup_insert_ne by (intros <-; rewrite (fresh_none C L w F) in Hi; discriminate).
  exists i. auto using kind_step_refl, same_code_refl.
Qed.

(** The called contract accepted the call, and evolved to what is there in the end. *)
Definition accepted_in (C : chain) (w' : world) (e : event) : Prop :=
  exists i st rsp i', w_insts (ev_world e) !! ev_contract e = Some i /\
    call C (ev_world e) (ev_contract e) (i_state i) (ev_sender e) (ev_funds e) (ev_msg e) = Ok (st, rsp) /\
    w_insts w' !! ev_contract e = Some i' /\ kind_step (i_state i) (i_state i').
Definition code_R (C : chain) (w w' : world) (lg : list event) : Prop := evolves w w' /\ Forall (accepted_in C w') lg.
Lemma code_trans C w w1 w2 l1 l2 : code_R C w w1 l1 -> code_R C w1 w2 l2 -> code_R C w w2 (l1 ++ l2).
Proof.
  intros [E1 F1] [E2 F2]. split; [eapply evolves_trans; eauto|]. apply Forall_app_2; [|exact F2].
  eapply Forall_impl; [|exact F1]. intros e (i & st & rsp & i' & Hi & Hc & Hi' & K).
  destruct (E2 _ _ Hi') as (i2 & Hi2 & K2 & _). exists i, st, rsp, i2. eauto using kind_step_trans.
Qed.

Section code.
  Context (C : chain) (L : chain_laws C).
  Lemma code_ok : ind_ok C (insts_fresh C) (code_R C) (fun _ => code_R C) (fun _ _ _ => True) (fun _ _ _ => True).
  Proof.
    assert (Set_ : forall w w1 a s i, w_insts w1 = w_insts w -> w_next w1 = w_next w -> insts_fresh C w ->
      w_insts w !! a = Some i -> same_code (i_state i) s -> insts_fresh C (set_state w1 a s) /\ code_R C w (set_state w1 a s) []).
    { intros w w1 a s i E1 E2 HI Hi K. split; [apply (fresh_set C w w1); auto|]. split; [eapply evolves_set; eauto|constructor]. }
    split; auto.
    - intros w _. split; [apply evolves_refl|constructor].
    - intros w w1 w2 l1 l2 _ _ _. apply code_trans.
    - intros _ w w1 w2 l1 l2 _ _ _. apply code_trans.
    - intros w s ro to cs w' HI _ H. apply bank_msg_ok in H as (to' & _ & [E1 E2 E3 _ _]). split.
      + intros a. rewrite E1, E2. apply HI.
      + split; [apply evolves_same; exact E1|constructor].
    - intros w s ro c msg funds a w1 i st rsp HI _ Ha Hb Hi Hc. apply bank_send_ok in Hb as [E1 E2 E3 _ _].
      cbn zeta. pose proof Hi as Hi0. rewrite E1 in Hi0. pose proof (call_code _ _ _ _ _ _ _ _ _ Hc) as K.
      destruct (Set_ w w1 a st i E1 E2 HI Hi0 K) as [HI2 [Ev _]]. split; [exact HI2|]. split; [exact I|].
      intros f w3 lg _ _ [Ev3 F3] _. split; [eapply evolves_trans; eauto|]. constructor; [|exact F3].
      destruct (Ev3 a (Inst (i_admin i) st)) as (i3 & Hi3 & K3 & _).
      { rewrite set_state_insts, decide_True by reflexivity. rewrite Hi. reflexivity. }
      exists i, st, rsp, i3. cbn [ev_world ev_contract ev_sender ev_funds ev_msg]. split; [exact Hi|]. split; [exact Hc|].
      split; [exact Hi3|]. eapply kind_step_trans; [left; apply code_kind; exact K|exact K3].
    - intros w s ro adm code msg funds label k ad w1 st rsp HI _ Hk Had a Hb Hc. apply bank_send_ok in Hb.
      cbn zeta. destruct (fresh_inst C L w w1 ad st s funds HI Hb) as [F _]. split; [exact F|]. split; [exact I|].
      intros f w3 lg _ _ [Ev3 F3] _. split; [|exact F3]. eapply evolves_trans; [|exact Ev3]. eapply evolves_new; eauto.
    - intros w s ro c code a i k st HI _ Ha Hi Hk Had Hm. split; [apply (fresh_set C w w); auto|]. split; [|constructor].
      intros x j Hj. rewrite set_state_insts. case_decide.
      + subst. rewrite Hi in Hj |- *. injection Hj as <-. cbn. eexists. split; [reflexivity|]. cbn. split; [|congruence].
        eapply migrated_step; eauto.
      + exists j. auto using kind_step_refl, same_code_refl.
    - intros w s ro c new a i adm HI _ _ Hi Had. split; [apply fresh_admin; exact HI|]. split; [|constructor].
      intros x j Hj. rewrite set_admin_insts. case_decide.
      + subst. rewrite Hi in Hj |- *. injection Hj as <-. cbn. eexists. split; [reflexivity|]. cbn. split; [apply kind_step_refl|congruence].
      + exists j. auto using kind_step_refl, same_code_refl.
    - intros w a sm rest f w' r lg id i st rsp HI _ _ He HI' G Hi Hr. cbn zeta.
      destruct (Set_ w' w' a st i eq_refl eq_refl HI' Hi (reply_code _ _ _ _ _ _ _ _ _ Hr)) as [A B]. auto.
    - intros w a sm rest id i st rsp HI _ _ Hi Hr. cbn zeta.
      destruct (Set_ w w a st i eq_refl eq_refl HI Hi (reply_code _ _ _ _ _ _ _ _ _ Hr)) as [A B]. auto.
  Qed.
  Lemma exec_code f w s m w' r lg : exec C f w s m = Ok (w', r, lg) -> insts_fresh C w -> insts_fresh C w' /\ code_R C w w' lg.
  Proof. intros E H. exact (exec_ind C _ _ _ _ _ code_ok f w s m ReplyNever w' r lg E H I). Qed.
  Lemma run_code f w a l w' lg : run C f w a l = Ok (w', lg) -> insts_fresh C w -> insts_fresh C w' /\ code_R C w w' lg.
  Proof. intros E H. destruct (run_ind C _ _ _ _ _ code_ok f w a l w' lg E H I) as (A & B & _). auto. Qed.
  Lemma history_code w lg w' : history C w lg w' -> insts_fresh C w -> insts_fresh C w' /\ code_R C w w' lg.
  Proof.
    induction 1 as [w|w lg w1 s m w2 lg2 Hh IH (_ & f & r & E)|w lg w1 blk Hh IH _ _]; intros F.
    - split; [exact F|]. split; [apply evolves_refl|constructor].
    - destruct (IH F) as [F1 R1]. destruct (exec_code _ _ _ _ _ _ _ E F1) as [F2 R2]. split; [exact F2|]. eapply code_trans; eauto.
    - destruct (IH F) as [F1 [R1 R2]]. split; [exact F1|]. split; [|exact R2].
      eapply evolves_trans; [exact R1|]. apply evolves_same. reflexivity.
  Qed.
  Lemma reachable_fresh w : reachable C w -> insts_fresh C w.
  Proof.
    induction 1 as [b blk|w s m w' lg Hr IH (_ & f & r & E)|w blk Hr IH _ _].
    - intros x. cbn. rewrite lookup_empty. split; [intros (? & [=])|intros (n & Hn & _)]. lia.
    - apply (exec_code _ _ _ _ _ _ _ E IH).
    - exact IH.
  Qed.

  (** ** C52 *)
  Section factory.
  Context (f p : string).
  Definition is_fac (w : world) : Prop := exists fs, fac_at w f fs.
  Definition is_ours (w : world) : Prop := exists ps, w_insts w !! p = Some (Inst (Some f) (SPair ps)).
  Definition names_p (m : jmsg) : Prop := exists c code, m = JMigratePair c code /\ norm (ch_api C) c = Some p.
  Definition harmless (m : cmsg) : Prop :=
    match m with
    | MMigrate c _ | MUpdateAdmin c _ => norm (ch_api C) c <> Some p
    | _ => True
    end.
  Lemma fac_before w w' : evolves w w' -> is_Some (w_insts w !! f) -> is_fac w' -> is_fac w.
  Proof.
    intros Ev (i & Hi) (fs & Hf). destruct (Ev _ _ Hi) as (i' & Hi' & K & _).
    unfold fac_at, state_at in *. rewrite Hi' in Hf. injection Hf as Hf. rewrite Hf in K.
    destruct K as [K|(k & d & K)]; [|discriminate]. destruct (i_state i) as [|fs0| | |] eqn:E; try destruct K.
    exists fs0. unfold fac_at, state_at. rewrite Hi. cbn. congruence.
  Qed.
  Lemma still_there w w' x : evolves w w' -> is_Some (w_insts w !! x) -> is_Some (w_insts w' !! x).
  Proof. intros Ev (i & Hi). destruct (Ev _ _ Hi) as (i' & Hi' & _). eauto. Qed.
  Lemma ours_set w w1 a st i : w_insts w1 = w_insts w -> w_insts w !! a = Some i -> same_code (i_state i) st ->
    is_ours w -> is_ours (set_state w1 a st).
  Proof.
    intros E Hi K (ps & Hp). unfold is_ours. rewrite set_state_insts, E. case_decide; [|eauto].
    subst. rewrite Hi in Hp. injection Hp as ->. rewrite Hi. cbn. cbn in K. destruct st; try destruct K. eauto.
  Qed.
  Lemma factory_harmless w self sender st st' rsp m : factory_execute (ch_api C) (wq C w) self st sender m = Ok (st', rsp) ->
    ~ names_p m -> Forall (fun sm => harmless (sm_msg sm)) (rs_msgs rsp).
  Proof.
    intros E Hn. apply factory_execute_inv in E as [(o & t & q & -> & H)|[(infos & r & -> & H)|[(d & n & -> & _ & H)|(c & k & -> & H)]]].
    - unfold update_config in H. apply rbind_ok in H as ([] & _ & H). apply rbind_ok in H as (o' & Eo & H).
      injection H as <- <-. constructor.
    - apply create_pair_inv in H as (d0 & d1 & r0 & r1 & _ & _ & _ & _ & _ & _ & -> & Hm). rewrite Hm. constructor; [exact I|constructor].
    - unfold add_native in H. apply rbind_ok in H as ([] & _ & H). apply rbind_ok in H as (b & _ & H).
      apply rbind_ok in H as (? & _ & H). injection H as <- <-. constructor.
    - unfold migrate_pair in H. apply rbind_ok in H as ([] & _ & H). injection H as <- <-. constructor; [|constructor].
      cbn. intros X. apply Hn. exists c, k. auto.
  Qed.

  Lemma ours_kept : forall n,
    (forall w s m w' r lg, exec C n w s m = Ok (w', r, lg) -> insts_fresh C w -> is_Some (w_insts w !! f) -> is_fac w' ->
       ~ called f names_p lg -> (s = f -> harmless m) -> is_ours w -> is_ours w') /\
    (forall w a l w' lg, run C n w a l = Ok (w', lg) -> insts_fresh C w -> is_Some (w_insts w !! f) -> is_fac w' ->
       ~ called f names_p lg -> (a = f -> Forall (fun sm => harmless (sm_msg sm)) l) -> is_ours w -> is_ours w').
  Proof.
    induction n as [|n [IHe IHr]]; [split; intros; discriminate|]. split.
    - intros w s m w' r lg E F Hf Hw Hn Hs Ho. rewrite exec_eq in E. destruct m as [to cs|c msg funds|admin code msg funds label|c code|c new].
      + apply rbind_ok in E as (w1 & E1 & E). injection E as <- <- <-.
        apply bank_msg_ok in E1 as (to' & _ & [E1 _ _ _ _]). unfold is_ours. rewrite E1. exact Ho.
      + apply rbind_ok in E as (a & Ea & E). apply oget_ok in Ea. apply rbind_ok in E as (w1 & E1 & E).
        apply rbind_ok in E as (i & Ei & E). apply oget_ok in Ei. apply rbind_ok in E as ([st rsp] & Ec & E).
        apply rbind_ok in E as ([w2 lg2] & Er & E). injection E as <- <- <-.
        apply bank_send_ok in E1 as [B1 B2 _ _ _]. pose proof Ei as Ei0. rewrite B1 in Ei0.
        pose proof (call_code _ _ _ _ _ _ _ _ _ Ec) as K.
        assert (F2 : insts_fresh C (set_state w1 a st)) by (apply (fresh_set C w w1); auto).
        assert (Hf2 : is_Some (w_insts (set_state w1 a st) !! f)).
        { eapply still_there; [|exact Hf]. eapply evolves_set; eauto. }
        rewrite called_cons in Hn. cbn [ev_contract ev_msg] in Hn.
        apply (IHr _ _ _ _ _ Er F2 Hf2 Hw); [tauto| |eapply ours_set; eauto].
        intros ->. destruct (run_code _ _ _ _ _ _ Er F2) as [_ [Ev _]].
        destruct (fac_before _ _ Ev Hf2 Hw) as (fs & Hfs). unfold fac_at, state_at in Hfs.
        rewrite set_state_insts, decide_True in Hfs by reflexivity. rewrite Ei in Hfs. cbn in Hfs. injection Hfs as ->.
        destruct (i_state i) as [|fs0| | |] eqn:Es; try destruct K. cbn [call] in Ec. unfold wrap in Ec.
        apply rbind_ok in Ec as ([x y] & Ec & E). injection E as -> ->. eapply factory_harmless; [exact Ec|]. tauto.
      + apply rbind_ok in E as (k & Ek & E). apply rbind_ok in E as (adm & Eadm & E). apply rbind_ok in E as (w1 & E1 & E).
        apply rbind_ok in E as ([st rsp] & Ec & E). apply rbind_ok in E as ([w2 lg2] & Er & E). injection E as <- <- <-.
        apply bank_send_ok in E1. destruct (fresh_inst C L w w1 adm st s funds F E1) as [F2 _].
        pose proof (evolves_new C w w1 s funds adm st L F E1) as Ev.
        apply (IHr _ _ _ _ _ Er F2 (still_there _ _ _ Ev Hf) Hw Hn).
        * intros X. exfalso. rewrite <- X, (fresh_none C L w F) in Hf. destruct Hf; discriminate.
        * destruct Ho as (ps & Hp). exists ps. cbn [set_insts w_insts]. rewrite (bm_insts _ _ _ _ _ E1). cbn [set_next w_insts].
          rewrite lookup_insert_ne; [exact Hp|]. intros X. rewrite <- X, (fresh_none C L w F) in Hp. discriminate.
      + apply rbind_ok in E as (a & Ea & E). apply oget_ok in Ea. apply rbind_ok in E as (i & Ei & E). apply oget_ok in Ei.
        apply rbind_ok in E as (k & Ek & E). destruct (bool_decide (i_admin i = Some s)) eqn:Ed; [|discriminate].
        apply bool_decide_eq_true in Ed. apply rbind_ok in E as (st & Es & E). injection E as <- <- <-.
        destruct Ho as (ps & Hp). exists ps. rewrite set_state_insts, decide_False; [exact Hp|]. intros <-.
        rewrite Hp in Ei. injection Ei as <-. injection Ed as <-. exact (Hs eq_refl Ea).
      + apply rbind_ok in E as (a & Ea & E). apply oget_ok in Ea. apply rbind_ok in E as (i & Ei & E). apply oget_ok in Ei.
        apply rbind_ok in E as (adm & _ & E). destruct (bool_decide (i_admin i = Some s)) eqn:Ed; [|discriminate].
        apply bool_decide_eq_true in Ed. injection E as <- <- <-.
        destruct Ho as (ps & Hp). exists ps. rewrite set_admin_insts, decide_False; [exact Hp|]. intros <-.
        rewrite Hp in Ei. injection Ei as <-. injection Ed as <-. exact (Hs eq_refl Ea).
    - intros w a l w' lg E F Hf Hw Hn Hs Ho. destruct l as [|sm rest].
      { rewrite run_nil in E. injection E as <- <-. exact Ho. }
      rewrite run_cons in E. apply rbind_ok in E as ([w1 l1] & E1 & E). apply rbind_ok in E as ([w2 l2] & E2 & E).
      injection E as <- <-. rewrite called_app in Hn.
      assert (Hs1 : a = f -> harmless (sm_msg sm)) by (intros X; specialize (Hs X); inversion Hs; assumption).
      assert (Hs2 : a = f -> Forall (fun sm => harmless (sm_msg sm)) rest) by (intros X; specialize (Hs X); inversion Hs; assumption).
      (* running on after a reply *)
      assert (Rep : forall w0 id ok r lg0, insts_fresh C w0 -> is_Some (w_insts w0 !! f) -> is_ours w0 ->
        (let* i := oget (w_insts w0 !! a) ENotFound in
         let* '(s, rsp) := reply C w0 a (i_state i) id ok r in
         run C n (set_state w0 a s) a (rs_msgs rsp)) = Ok (w1, lg0) ->
        ~ called f names_p lg0 -> insts_fresh C w1 /\ evolves w0 w1 /\ (is_fac w1 -> is_ours w1)).
      { intros w0 id ok r lg0 F0 Hf0 Ho0 E0 Hn0. apply rbind_ok in E0 as (i & Ei & E0). apply oget_ok in Ei.
        apply rbind_ok in E0 as ([st rsp] & Ec & Er). pose proof (reply_code _ _ _ _ _ _ _ _ _ Ec) as K.
        assert (F2 : insts_fresh C (set_state w0 a st)) by (apply (fresh_set C w0 w0); auto).
        assert (Ev2 : evolves w0 (set_state w0 a st)) by (eapply evolves_set; eauto).
        destruct (run_code _ _ _ _ _ _ Er F2) as [F1 [Ev _]]. split; [exact F1|]. split; [eapply evolves_trans; eauto|].
        intros Hw1. pose proof (still_there _ _ _ Ev2 Hf0) as Hf2.
        apply (IHr _ _ _ _ _ Er F2 Hf2 Hw1 Hn0); [|eapply ours_set; eauto].
        intros ->. destruct (fac_before _ _ Ev Hf2 Hw1) as (fs & Hfs). unfold fac_at, state_at in Hfs.
        rewrite set_state_insts, decide_True in Hfs by reflexivity. rewrite Ei in Hfs. cbn in Hfs. injection Hfs as ->.
        destruct (i_state i) as [|fs0| | |] eqn:Es; try destruct K. cbn [reply] in Ec. destruct r; [|discriminate]. unfold wrap in Ec.
        apply rbind_ok in Ec as ([x y] & Ec & E). injection E as -> ->.
        apply factory_reply_inv in Ec as (? & ? & ? & ? & _ & _ & _ & _ & _ & ->). constructor. }
      assert (Fin : insts_fresh C w1 -> evolves w w1 -> (is_fac w1 -> is_ours w1) -> is_ours w2).
      { intros F1 Ev1 Ho1. destruct (run_code _ _ _ _ _ _ E2 F1) as [_ [Ev2 _]]. pose proof (still_there _ _ _ Ev1 Hf) as Hf1.
        apply (IHr _ _ _ _ _ E2 F1 Hf1 Hw); [tauto|exact Hs2|]. apply Ho1. exact (fac_before _ _ Ev2 Hf1 Hw). }
      destruct (exec C n w a (sm_msg sm)) as [[[w0 r] lg0]|e] eqn:Ex.
      + destruct (exec_code _ _ _ _ _ _ _ Ex F) as [F0 [Ev0 _]]. pose proof (still_there _ _ _ Ev0 Hf) as Hf0.
        assert (Re : forall id, (let* i := oget (w_insts w0 !! a) ENotFound in
           let* '(s, rsp) := reply C w0 a (i_state i) id true r in
           let* '(w2, lg2) := run C n (set_state w0 a s) a (rs_msgs rsp) in Ok (w2, lg0 ++ lg2)) = Ok (w1, l1) -> is_ours w2).
        { intros id Ey. apply rbind_ok in Ey as (i & Ei & Ey). apply rbind_ok in Ey as ([st rsp] & Ec & Ey).
          apply rbind_ok in Ey as ([w3 l3] & Er & Ey). injection Ey as -> <-. rewrite called_app in Hn.
          assert (E0 : (let* i := oget (w_insts w0 !! a) ENotFound in
            let* '(s, rsp) := reply C w0 a (i_state i) id true r in
            run C n (set_state w0 a s) a (rs_msgs rsp)) = Ok (w1, l3)).
          { rewrite Ei. cbn [rbind]. rewrite Ec. exact Er. }
          (* the pair is still there when the factory is a factory *)
          assert (X : insts_fresh C w1 /\ evolves w0 w1).
          { apply oget_ok in Ei. pose proof (reply_code _ _ _ _ _ _ _ _ _ Ec) as K.
            destruct (run_code _ _ _ _ _ _ Er) as [F1 [Ev _]]; [apply (fresh_set C w0 w0); auto|]. split; [exact F1|].
            eapply evolves_trans; [|exact Ev]. eapply evolves_set; eauto. }
          destruct X as [F1 Ev1]. apply Fin; [exact F1|eapply evolves_trans; eauto|]. intros Hw1.
          assert (Ho0 : is_ours w0).
          { apply (IHe _ _ _ _ _ _ Ex F Hf); [exact (fac_before _ _ Ev1 Hf0 Hw1)|tauto|exact Hs1|exact Ho]. }
          destruct (Rep w0 id true r l3 F0 Hf0 Ho0 E0) as (_ & _ & K); [tauto|]. exact (K Hw1). }
        destruct (sm_reply sm) as [|id|id]; cbn match in E1; [|eapply Re; exact E1|eapply Re; exact E1].
        injection E1 as <- <-. apply Fin; [exact F0|exact Ev0|]. intros Hw0. apply (IHe _ _ _ _ _ _ Ex F Hf Hw0); [tauto|exact Hs1|exact Ho].
      + destruct (sm_reply sm) as [|id|id]; cbn match in E1; [discriminate|discriminate|].
        destruct (Rep w id false None l1 F Hf Ho E1) as (F1 & Ev1 & K); [tauto|]. apply Fin; assumption.
  Qed.

  Lemma history_ours w lg w' : history C w lg w' -> insts_fresh C w -> is_Some (w_insts w !! f) -> is_fac w' ->
    ~ called f names_p lg -> is_ours w -> is_ours w'.
  Proof.
    induction 1 as [w|w lg w1 s m w2 lg2 Hh IH (O & n & r & E)|w lg w1 blk Hh IH _ _]; intros F Hf Hw Hn Ho; [exact Ho| |].
    - destruct (history_code _ _ _ Hh F) as [F1 [Ev1 _]]. destruct (exec_code _ _ _ _ _ _ _ E F1) as [F2 [Ev2 _]].
      pose proof (still_there _ _ _ Ev1 Hf) as Hf1. rewrite called_app in Hn.
      apply (proj1 (ours_kept n) _ _ _ _ _ _ E F1 Hf1 Hw); [tauto| |].
      + intros ->. rewrite (ordinary_no_inst C w1 f F1 O) in Hf1. destruct Hf1; discriminate.
      + apply (IH F Hf (fac_before _ _ Ev2 Hf1 Hw)); [tauto|exact Ho].
    - exact (IH F Hf Hw Hn Ho).
  Qed.
  End factory.
End code.

(** C52: a pair administered by a factory stays a pair administered by that
    factory over every history, unless the owner of the factory had it migrated:
    the log then has a MigratePair call naming the pair, sent by the account that
    owned the factory at that moment.  (The factory itself must not have been
    replaced by its own admin, who is not an account of the protocol.) *)
Theorem C52_code_authority C w lg w' f fs fs' p ps : chain_laws C -> reachable C w -> history C w lg w' ->
  fac_at w f fs -> fac_at w' f fs' -> w_insts w !! p = Some (Inst (Some f) (SPair ps)) ->
  (exists ps', w_insts w' !! p = Some (Inst (Some f) (SPair ps'))) \/
  exists e c code fse, In e lg /\ ev_contract e = f /\ ev_msg e = JMigratePair c code /\
    norm (ch_api C) c = Some p /\ fac_at (ev_world e) f fse /\ canon (ch_api C) (ev_sender e) = Some (f_owner fse).
Proof.
  intros L Hr Hh Hf Hf' Hp. pose proof (reachable_fresh C L w Hr) as F.
  assert (Sf : is_Some (w_insts w !! f)).
  { unfold fac_at, state_at in Hf. destruct (w_insts w !! f); [eauto|discriminate]. }
  assert (D : forall l, called f (names_p C p) l \/ ~ called f (names_p C p) l).
  { induction l as [|e l IH]; [right; intros (e & [] & _)|]. rewrite called_cons.
    assert (X : (ev_contract e = f /\ names_p C p (ev_msg e)) \/ ~ (ev_contract e = f /\ names_p C p (ev_msg e))).
    { destruct (decide (ev_contract e = f)) as [|N]; [|tauto].
      assert (Z : forall m, names_p C p m \/ ~ names_p C p m); [|destruct (Z (ev_msg e)); tauto].
      intros m. destruct m; try (right; intros (? & ? & ? & _); discriminate).
      match goal with |- context [JMigratePair ?c ?k] => destruct (decide (norm (ch_api C) c = Some p)) as [Y|Y];
        [left; exists c, k; auto|right; intros (? & ? & E & ?); injection E as <- <-; congruence] end. }
    tauto. }
  destruct (D lg) as [(e & Hin & Hc & c & code & Hm & Hn)|Hnc].
  - right. destruct (history_code C L w lg w' Hh F) as [_ [_ Ac]]. rewrite List.Forall_forall in Ac.
    destruct (Ac e Hin) as (i & st & rsp & i' & Hi & Hcall & Hi' & K). rewrite Hc in *.
    unfold fac_at, state_at in Hf'. rewrite Hi' in Hf'. injection Hf' as Hf'. rewrite Hf' in K.
    destruct K as [K|(? & ? & K)]; [|discriminate]. destruct (i_state i) as [|fse| | |] eqn:Es; try destruct K.
    exists e, c, code, fse. split; [exact Hin|]. split; [exact Hc|]. split; [exact Hm|]. split; [exact Hn|].
    split; [unfold fac_at, state_at; rewrite Hi; cbn; congruence|].
    cbn [call] in Hcall. unfold wrap in Hcall. apply rbind_ok in Hcall as ([x y] & Hcall & _). rewrite Hm in Hcall.
    apply factory_execute_inv in Hcall as [(o & t & q & X & _)|[(infos & r & X & _)|[(d & n & X & _ & _)|(c' & k & X & H)]]]; try discriminate.
    unfold migrate_pair in H. apply rbind_ok in H as ([] & H & _). apply owner_only_ok in H. exact H.
  - left. apply (history_ours C L f p w lg w' Hh F Sf); [exists fs'; exact Hf'|exact Hnc|exists ps; exact Hp].
Qed.

(** A chain on which every contract can be migrated to third-party code. *)
Definition ex_chain2 : chain := {|
  ch_api := ex_api; ch_fresh := ch_fresh ex_chain; ch_codes := ch_codes ex_chain;
  adv_init := adv_init ex_chain; adv_exec := adv_exec ex_chain; adv_reply := adv_reply ex_chain;
  adv_token_balance := adv_token_balance ex_chain; adv_token_info := adv_token_info ex_chain;
  adv_native_decimals := adv_native_decimals ex_chain; adv_pair_info := adv_pair_info ex_chain;
  adv_simulate := adv_simulate ex_chain; adv_reverse := adv_reverse ex_chain; adv_pair_self := adv_pair_self ex_chain;
  ch_takeover := fun _ _ => Some ""%string;
|}.
Lemma ex_chain2_laws : chain_laws ex_chain2.
Proof. destruct (ok_laws _ ex_chain_ok) as [A B D E F]. split; [exact A|exact B|exact D|exact E|exact F]. Qed.
Fixpoint script2 (w : world) (txs : list (bool * cmsg)) : res (world * list event) :=
  match txs with
  | [] => Ok (w, [])
  | (b, m) :: r =>
      let* '(w1, _, lg1) := exec ex_chain2 40 w (who b) m in
      let* '(w2, lg2) := script2 w1 r in Ok (w2, lg1 ++ lg2)
  end.
Lemma script2_history txs : forall w w' lg, script2 w txs = Ok (w', lg) -> history ex_chain2 w lg w'.
Proof.
  induction txs as [|[b m] r IH]; intros w w' lg H.
  - injection H as <- <-. constructor.
  - cbn [script2] in H. apply rbind_ok in H as ([[w1 x] l1] & E & H). apply rbind_ok in H as ([w2 l2] & E2 & H). injection H as <- <-.
    eapply history_cons; [|apply IH; exact E2]. split; [exact (who_ordinary b)|]. exists 40%nat, x. exact E.
Qed.
Definition after2 (w : world) (txs : list (bool * cmsg)) : world := match script2 w txs with Ok (w', _) => w' | Err _ => w end.
Definition log2 (w : world) (txs : list (bool * cmsg)) : list event := match script2 w txs with Ok (_, l) => l | Err _ => [] end.
Lemma after2_history w txs : history ex_chain2 w (log2 w txs) (after2 w txs).
Proof. unfold after2, log2. destruct (script2 w txs) as [[w' l]|e] eqn:E; [exact (script2_history _ _ _ _ E)|constructor]. Qed.
Definition ex_world2 : world := after2 ex_genesis ex_setup.
Lemma ex_reachable2 : reachable ex_chain2 ex_world2.
Proof. eapply history_reachable; [apply reach_genesis|]. apply after2_history. Qed.
Definition kind_at (w : world) (a : string) : option (option string * N) :=
  (fun i => (i_admin i, match i_state i with SPair _ => 0 | SFactory _ => 1 | SRouter _ => 2 | SToken _ => 3 | SAdv _ _ => 4 end)) <$> w_insts w !! a.
(** Alice, the owner, has the factory replace the code of pair #4; the other pair
    stays.  Bob can do neither, neither through the factory nor directly. *)
Example C52_case :
  let txs := [(true, x_call "#0" (JMigratePair "#4" (Some 5)))]%string in
  is_ok (script2 ex_genesis ex_setup) = true /\ is_ok (script2 ex_world2 txs) = true /\
  history ex_chain2 ex_world2 (log2 ex_world2 txs) (after2 ex_world2 txs) /\
  kind_at ex_world2 "#0" = Some (None, 1) /\ kind_at (after2 ex_world2 txs) "#0" = Some (None, 1) /\
  kind_at ex_world2 "#4" = Some (Some "#0"%string, 0) /\ kind_at (after2 ex_world2 txs) "#4" = Some (Some "#0"%string, 4) /\
  kind_at ex_world2 "#6" = Some (Some "#0"%string, 0) /\ kind_at (after2 ex_world2 txs) "#6" = Some (Some "#0"%string, 0) /\
  forall m, m = x_call "#0" (JMigratePair "#4" (Some 5)) \/ m = MMigrate "#4" 5 \/ m = MUpdateAdmin "#4" (Some "bob"%string) ->
    is_ok (script2 ex_world2 [(false, m)]) = false.
Proof.
  cbv zeta. split; [vm_compute; reflexivity|]. split; [vm_compute; reflexivity|]. split; [apply after2_history|].
  repeat (split; [vm_compute; reflexivity|]). intros m [->|[->| ->]]; vm_compute; reflexivity.
Qed.

(** ** C53 *)

(** The LP token of a pair, once there, is a contract without an admin. *)
Definition lp_good (C : chain) (w : world) (st : pair_info_raw) : Prop :=
  r_liquidity_token st = ""%string \/
  exists t i, human (ch_api C) (r_liquidity_token st) = Some t /\ w_insts w !! t = Some i /\ i_admin i = None.
Section lp.
  Context (C : chain) (L : chain_laws C).
  Definition lp_I (w : world) : Prop := insts_fresh C w /\ forall p st, pair_at w p st -> lp_good C w st.
  (* only the instantiation of the LP token is replied to *)
  Definition lp_mays (w : world) (a : string) (l : list submsg) : Prop :=
    is_Some (w_insts w !! a) /\
    ((exists st, pair_at w a st) -> Forall (fun sm => never sm \/ exists tc, sm = lp_msg a tc) l).
  Lemma lp_good_evolves w w' st : evolves w w' -> lp_good C w st -> lp_good C w' st.
  Proof.
    intros Ev [E|(t & i & Hh & Hi & Ha)]; [left; exact E|]. right. destruct (Ev _ _ Hi) as (i' & Hi' & _ & N).
    exists t, i'. split; [exact Hh|]. split; [exact Hi'|]. apply N. exact Ha.
  Qed.
  Lemma pair_before w w' a : evolves w w' -> is_Some (w_insts w !! a) -> (exists st, pair_at w' a st) -> exists st, pair_at w a st.
  Proof.
    intros Ev (i & Hi) (st & Hp). destruct (Ev _ _ Hi) as (i' & Hi' & K & _).
    unfold pair_at, state_at in *. rewrite Hi' in Hp. injection Hp as Hp. rewrite Hp in K.
    destruct K as [K|(k & d & K)]; [|discriminate]. destruct (i_state i) as [st0| | | |] eqn:E; try destruct K.
    exists st0. unfold pair_at, state_at. rewrite Hi. cbn. congruence.
  Qed.
  (* a step that only touches contract [a] *)
  Lemma lp_set w w1 a s i : lp_I w -> w_insts w1 = w_insts w -> w_next w1 = w_next w -> w_insts w !! a = Some i ->
    same_code (i_state i) s -> (forall st, s = SPair st -> lp_good C w st) ->
    lp_I (set_state w1 a s) /\ evolves w (set_state w1 a s).
  Proof.
    intros [F G] E1 E2 Hi K Hs. pose proof (evolves_set w w1 a s i E1 Hi K) as Ev. split; [|exact Ev].
    split; [apply (fresh_set C w w1); auto|]. intros p st Hp. eapply lp_good_evolves; [exact Ev|].
    unfold pair_at, state_at in Hp. rewrite set_state_insts, E1 in Hp. case_decide as D.
    - rewrite Hi in Hp. cbn in Hp. injection Hp as ->. auto.
    - apply (G p). exact Hp.
  Qed.
  Lemma pair_never Q p st s funds m st' rsp : pair_execute (ch_api C) Q p st s funds m = Ok (st', rsp) -> Forall never (rs_msgs rsp).
  Proof.
    intros H. destruct (pair_calls _ _ _ _ _ _ _ _ H) as [X|(x & y & z & ->)].
    - eapply Forall_impl; [|exact (other_msgs _ _ _ _ _ _ _ _ _ H X)]. intros sm [(? & ? & ->)|(? & ? & ->)]; reflexivity.
    - eapply Forall_impl; [|exact (provide_msgs _ _ _ _ _ _ _ _ _ _ _ H)]. intros sm [(? & ? & ->)|(? & ? & ? & ->)]; reflexivity.
  Qed.
  Lemma lp_ok : ind_ok C lp_I (fun w w' _ => evolves w w') (fun _ w w' _ => evolves w w') (fun _ _ _ => True) lp_mays.
  Proof.
    assert (State : forall w a i, w_insts w !! a = Some i -> state_at w a = Some (i_state i)).
    { intros w a i H. unfold state_at. rewrite H. reflexivity. }
    assert (There : forall w a s, is_Some (w_insts w !! a) -> is_Some (w_insts (set_state w a s) !! a)).
    { intros w a s H. rewrite set_state_insts, decide_True by reflexivity. apply fmap_is_Some. exact H. }
    split; auto.
    - intros w _. apply evolves_refl.
    - intros w w1 w2 _ _ _ _ _. apply evolves_trans.
    - intros _ w w1 w2 _ _ _ _ _. apply evolves_trans.
    - intros w w' a sm rest lg _ _ [Ha Hm] Ev _. split; [eapply still_there; eauto|]. intros Hp.
      pose proof (Hm (pair_before _ _ _ Ev Ha Hp)) as X. inversion X; assumption.
    - intros w s ro to cs w' [F G] _ H. apply bank_msg_ok in H as (to' & _ & [E1 E2 E3 _ _]).
      assert (Ev : evolves w w') by (apply evolves_same; exact E1). split; [|exact Ev]. split.
      + intros a. rewrite E1, E2. apply F.
      + intros p st Hp. eapply lp_good_evolves; [exact Ev|]. apply (G p). unfold pair_at, state_at in *. rewrite E1 in Hp. exact Hp.
    - intros w s ro c msg funds a w1 i st rsp HI _ Ha Hb Hi Hc. apply bank_send_ok in Hb as [E1 E2 E3 _ _].
      cbn zeta. pose proof Hi as Hi0. rewrite E1 in Hi0. pose proof (call_code _ _ _ _ _ _ _ _ _ Hc) as K.
      assert (X : forall ps, st = SPair ps -> i_state i = SPair ps /\ Forall never (rs_msgs rsp)).
      { intros ps ->. destruct (i_state i) as [st0| | | |]; try destruct K. cbn [call] in Hc. unfold wrap in Hc.
        apply rbind_ok in Hc as ([x y] & Hc & E). injection E as -> ->. split; [|eapply pair_never; eauto].
        apply pair_execute_msgs in Hc as [-> _]. reflexivity. }
      destruct (lp_set w w1 a st i HI E1 E2 Hi0 K) as [HI2 Ev].
      { intros ps E. destruct (X _ E) as [Ei _]. apply (proj2 HI a). unfold pair_at. rewrite (State _ _ _ Hi0), Ei. reflexivity. }
      split; [exact HI2|]. split.
      + split; [apply There; eauto|]. intros (ps & Hp). unfold pair_at, state_at in Hp.
        rewrite set_state_insts, decide_True in Hp by reflexivity. rewrite Hi in Hp. injection Hp as Hp.
        destruct (X _ Hp) as [_ N]. eapply Forall_impl; [|exact N]. auto.
      + intros f w3 lg _ _ Ev3 _. eapply evolves_trans; eauto.
    - intros w s ro adm code msg funds label k ad w1 st rsp [F G] _ Hk Had a Hb Hc. apply bank_send_ok in Hb. cbn zeta.
      destruct (fresh_inst C L w w1 ad st s funds F Hb) as [F2 _]. pose proof (evolves_new C w w1 s funds ad st L F Hb) as Ev. fold a in F2, Ev.
      assert (X : forall ps, st = SPair ps -> r_liquidity_token ps = ""%string /\ exists tc, rs_msgs rsp = [lp_msg a tc]).
      { intros ps ->. destruct k; cbn [init] in Hc; destruct msg; try discriminate; unfold wrap in Hc;
          try (destruct (_ && _) in Hc; [|discriminate]);
          apply rbind_ok in Hc as ([x y] & Hc & E); injection E as E1 E2; try discriminate. subst x y.
        unfold pair_instantiate in Hc. apply rbind_ok in Hc as (c & _ & Hc). apply rbind_ok in Hc as (r0 & _ & Hc).
        apply rbind_ok in Hc as (r1 & _ & Hc). injection Hc as <- <-. split; [reflexivity|]. eexists. reflexivity. }
      split; [|split].
      + split; [exact F2|]. intros p ps Hp. eapply lp_good_evolves; [exact Ev|]. unfold pair_at, state_at in Hp. cbn [set_insts w_insts] in Hp.
        destruct (decide (p = a)) as [->|D].
        * rewrite lookup_insert in Hp. injection Hp as Hp. left. apply (X _ Hp).
        * rewrite lookup_insert_ne in Hp by congruence. rewrite (bm_insts _ _ _ _ _ Hb) in Hp. apply (G p). exact Hp.
      + split; [cbn [set_insts w_insts]; rewrite lookup_insert; eauto|]. intros (ps & Hp). unfold pair_at, state_at in Hp.
        cbn [set_insts w_insts] in Hp. rewrite lookup_insert in Hp. injection Hp as Hp. destruct (X _ Hp) as (_ & tc & ->).
        constructor; [right; eauto|constructor].
      + intros f w3 lg _ _ Ev3 _. eapply evolves_trans; eauto.
    - intros w s ro c code a i k st [F G] _ Ha Hi Hk Had Hm.
      assert (Ev : evolves w (set_state w a st)).
      { intros x j Hj. rewrite set_state_insts. case_decide.
        - subst. rewrite Hi in Hj |- *. injection Hj as <-. cbn. eexists. split; [reflexivity|]. cbn. split; [|congruence].
          eapply migrated_step; eauto.
        - exists j. auto using kind_step_refl, same_code_refl. }
      split; [|exact Ev]. split; [apply (fresh_set C w w); auto|]. intros p ps Hp. eapply lp_good_evolves; [exact Ev|]. apply (G p).
      unfold pair_at, state_at in *. rewrite set_state_insts in Hp. case_decide; [|exact Hp]. subst. rewrite Hi in Hp |- *. cbn in Hp |- *. injection Hp as ->.
      destruct (i_state i), k; cbn in Hm; try discriminate; try (destruct (ch_takeover _ _ _); discriminate). congruence.
    - intros w s ro c new a i adm [F G] _ _ Hi Had.
      assert (Ev : evolves w (set_admin w a adm)).
      { intros x j Hj. rewrite set_admin_insts. case_decide.
        - subst. rewrite Hi in Hj |- *. injection Hj as <-. cbn. eexists. split; [reflexivity|]. cbn. split; [apply kind_step_refl|congruence].
        - exists j. auto using kind_step_refl, same_code_refl. }
      split; [|exact Ev]. split; [apply fresh_admin; exact F|]. intros p ps Hp. eapply lp_good_evolves; [exact Ev|]. apply (G p).
      unfold pair_at in *. rewrite admin_state in Hp. exact Hp.
    - intros w a sm rest f w' r lg id i st rsp HI [Ha Hm] Hid He HI' Ev Hi Hr. cbn zeta.
      pose proof (reply_code _ _ _ _ _ _ _ _ _ Hr) as K.
      assert (X : forall ps, st = SPair ps -> lp_good C w' ps /\ rs_msgs rsp = []).
      { intros ps ->. destruct (i_state i) as [st0| | | |] eqn:Es; try destruct K. cbn [reply] in Hr.
        destruct r as [t|]; [|discriminate]. unfold wrap in Hr.
        apply rbind_ok in Hr as ([x y] & Hr & E). injection E as -> ->.
        unfold pair_reply in Hr. apply rbind_ok in Hr as (c & Hc & Hr). injection Hr as <- <-. split; [|reflexivity].
        right. cbn [r_liquidity_token].
        assert (Hp : exists ps, pair_at w a ps).
        { eapply pair_before; [exact Ev|exact Ha|]. exists st0. unfold pair_at. rewrite (State _ _ _ Hi), Es. reflexivity. }
        specialize (Hm Hp). inversion Hm as [|? ? [N|(tc & E)] _]; subst.
        { unfold never in N. destruct Hid as [Hid|Hid]; rewrite N in Hid; discriminate. }
        destruct f as [|f]; [rewrite exec_0 in He; discriminate|]. rewrite exec_eq in He. cbn [lp_msg sm_msg] in He.
        apply rbind_ok in He as (k & Hk & He). cbn [rbind] in He. apply rbind_ok in He as (w1 & Hb & He).
        apply rbind_ok in He as ([st1 rsp1] & Hin & He). apply rbind_ok in He as ([w2 l2] & Er & He). injection He as <- <- <-.
        apply bank_send_ok in Hb. destruct (fresh_inst C L w w1 None st1 a [] (proj1 HI) Hb) as [F2 _].
        destruct (run_code C L _ _ _ _ _ _ Er F2) as [_ [Ev2 _]].
        destruct (Ev2 (ch_fresh C (w_next w)) (Inst None st1)) as (i2 & Hi2 & _ & N2).
        { cbn [set_insts w_insts]. apply lookup_insert. }
        exists (ch_fresh C (w_next w)), i2. split; [|split; [exact Hi2|apply N2; reflexivity]].
        pose proof (fresh_norm C L (w_next w)) as Hnm. unfold norm in Hnm. unfold addr_canonicalize in Hc. apply oget_ok in Hc.
        rewrite Hc in Hnm. exact Hnm. }
      destruct (lp_set w' w' a st i HI' eq_refl eq_refl Hi K) as [HI2 Ev2]; [intros ps E; apply (X _ E)|].
      split; [exact HI2|]. split; [|exact Ev2]. split; [apply There; eauto|]. intros (ps & Hp). unfold pair_at, state_at in Hp.
      rewrite set_state_insts, decide_True in Hp by reflexivity. rewrite Hi in Hp. injection Hp as Hp.
      destruct (X _ Hp) as [_ ->]. constructor.
    - intros w a sm rest id i st rsp HI [Ha Hm] Hid Hi Hr. cbn zeta. pose proof (reply_code _ _ _ _ _ _ _ _ _ Hr) as K.
      assert (X : forall ps, st <> SPair ps).
      { intros ps ->. destruct (i_state i); try destruct K. discriminate. }
      destruct (lp_set w w a st i HI eq_refl eq_refl Hi K) as [HI2 Ev2]; [intros ps E; destruct (X _ E)|].
      split; [exact HI2|]. split; [|exact Ev2]. split; [apply There; eauto|]. intros (ps & Hp). unfold pair_at, state_at in Hp.
      rewrite set_state_insts, decide_True in Hp by reflexivity. rewrite Hi in Hp. injection Hp as Hp. destruct (X _ Hp).
  Qed.
  Lemma reachable_lp_I w : reachable C w -> lp_I w.
  Proof.
    induction 1 as [b blk|w s m w' lg Hr IH (_ & f & r & E)|w blk Hr IH _ _].
    - split; [apply reachable_fresh; [exact L|apply reach_genesis]|]. intros p st Hp. unfold pair_at, state_at in Hp. cbn in Hp.
      rewrite lookup_empty in Hp. discriminate.
    - exact (proj1 (exec_ind C _ _ _ _ _ lp_ok f w s m ReplyNever w' r lg E IH I)).
    - exact IH.
  Qed.
End lp.

(** C53: the LP token of a pair has no admin, and no history gives it one or
    replaces its code; not even the owner of the factory can do that. *)
Theorem C53_lp_token_code_fixed C w p st : chain_laws C -> reachable C w -> pair_at w p st -> r_liquidity_token st <> ""%string ->
  exists t i, human (ch_api C) (r_liquidity_token st) = Some t /\ w_insts w !! t = Some i /\ i_admin i = None /\
    forall lg w', history C w lg w' -> exists i', w_insts w' !! t = Some i' /\ i_admin i' = None /\
      same_code (i_state i) (i_state i').
Proof.
  intros L Hr Hp Hn. destruct (proj2 (reachable_lp_I C L w Hr) p st Hp) as [E|(t & i & Hh & Hi & Ha)]; [destruct (Hn E)|].
  exists t, i. split; [exact Hh|]. split; [exact Hi|]. split; [exact Ha|]. intros lg w' Hist.
  destruct (history_code C L w lg w' Hist (reachable_fresh C L w Hr)) as [_ [Ev _]].
  destruct (Ev _ _ Hi) as (i' & Hi' & _ & N). destruct (N Ha) as [Ha' K]. exists i'. split; [exact Hi'|]. split; [exact Ha'|].
  exact K.
Qed.
(** Pair #4 and its LP token #5; the owner's migration of the pair and attempts on
    the token by its owner, its minter's administrator and a stranger. *)
Example C53_case :
  state_at ex_world2 "#4" = Some (SPair (PairInfoRaw (TokenRaw "#1", NativeRaw "uaura") "#4" "#5" (6, 6) ex_wl)) /\
  kind_at ex_world2 "#5" = Some (None, 3) /\
  kind_at (after2 ex_world2 [(true, x_call "#0" (JMigratePair "#4" (Some 5)))]%string) "#5" = Some (None, 3) /\
  forall b m, m = x_call "#0" (JMigratePair "#5" (Some 5)) \/ m = MMigrate "#5" 5 \/ m = MUpdateAdmin "#5" (Some "alice"%string) ->
    is_ok (script2 ex_world2 [(b, m)]) = false.
Proof.
  repeat (split; [vm_compute; reflexivity|]). intros [] m [->|[->| ->]]; vm_compute; reflexivity.
Qed.
