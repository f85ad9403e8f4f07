(** The factory over whole histories: who administers it, what it registers,
    what the registry says about the pairs (C20, C21, C23, C25). *)
From Verif Require Import Base BigNumber CwStd BigNumberFacts Asset Messages PairMath Pair PairFacts Token Factory Router
  FactoryFacts TokenFacts World WorldInd WorldFacts WorldInv WorldInd2 Examples WorldExamples P_Token P_Factory P_Ledger.
From Coq Require Import ZifyN.
Local Open Scope N_scope.
Ltac Zify.zify_post_hook ::= idtac.

(** ** Every logged call was accepted by its contract in the logged state *)
Definition accepted (C : chain) (e : event) : Prop :=
  main C (ev_world e) /\
  exists i st rsp, w_insts (ev_world e) !! ev_contract e = Some i /\
    call C (ev_world e) (ev_contract e) (i_state i) (ev_sender e) (ev_funds e) (ev_msg e) = Ok (st, rsp) /\
    rs_attrs rsp = ev_attrs e.
Lemma accepted_ok C : ind2_ok C (fun _ _ lg => Forall (accepted C) lg) (fun _ _ _ => True).
Proof.
  assert (Fo : forall l : list submsg, Forall (fun _ => True) l) by (induction l; constructor; auto).
  split; auto.
  - intros. apply Forall_app_2; assumption.
  - intros w s ro c msg funds a w1 i st rsp f w3 lg M _ _ _ Hb Hs Hi Hc w2 _ _ _ _ _ _. right. split; [apply Fo|].
    intros X. constructor; [|exact X]. split; [|exists i, st, rsp; auto].
    destruct (same_insts_rel C w w1 (bm_insts _ _ _ _ _ Hb) (bm_next _ _ _ _ _ Hb) M) as [M1 _]. exact M1.
Qed.
Lemma log_accepted C w lg w' : chain_ok C -> main C w -> history C w lg w' -> Forall (accepted C) lg.
Proof.
  intros OK M Hh. eapply (history_ind2 C OK _ (fun _ _ _ => True) w lg w' (accepted_ok C)); auto.
Qed.

(** ** C20 *)

(** What the owner administers. *)
Record settings := Settings {
  se_owner : string; se_pair_code : N; se_token_code : N; se_decimals : string -> option N }.
Definition settings_of (fs : factory_state) : settings :=
  Settings (f_owner fs) (f_pair_code fs) (f_token_code fs) (fun d => f_native fs !! d).

(** What a call changes in the settings [s]; [s'] afterwards. *)
Definition settings_step (C : chain) (f : string) (s : settings) (e : event) (s' : settings) : Prop :=
  if decide (ev_contract e = f) then
    match ev_msg e with
    | JUpdateConfig o t p =>
        canon (ch_api C) (ev_sender e) = Some (se_owner s) /\
        (match o with
         | Some a => canon (ch_api C) a = Some (se_owner s')
         | None => se_owner s' = se_owner s
         end) /\
        se_pair_code s' = default (se_pair_code s) p /\ se_token_code s' = default (se_token_code s) t /\
        forall d, se_decimals s' d = se_decimals s d
    | JAddNativeTokenDecimals d n =>
        canon (ch_api C) (ev_sender e) = Some (se_owner s) /\
        se_owner s' = se_owner s /\ se_pair_code s' = se_pair_code s /\ se_token_code s' = se_token_code s /\
        forall d', se_decimals s' d' = if decide (d' = d) then Some n else se_decimals s d'
    | _ => s' = s
    end
  else s' = s.
(** The settings develop from [s] to [s'] by the calls of the log alone. *)
Inductive replay (C : chain) (f : string) : settings -> list event -> settings -> Prop :=
| rp_nil s : replay C f s [] s
| rp_cons s e s1 lg s' :
    (ev_contract e = f -> exists fs, fac_at (ev_world e) f fs /\ settings_of fs = s) ->
    settings_step C f s e s1 -> replay C f s1 lg s' -> replay C f s (e :: lg) s'.
Lemma replay_app C f s l1 s1 l2 s2 : replay C f s l1 s1 -> replay C f s1 l2 s2 -> replay C f s (l1 ++ l2) s2.
Proof. intros H. induction H; [auto|]. intros K. cbn. econstructor; eauto. Qed.
Lemma replay_split C f l1 : forall s e l2 s2, replay C f s (l1 ++ e :: l2) s2 ->
  exists s1, replay C f s l1 s1 /\ replay C f s1 (e :: l2) s2.
Proof.
  induction l1 as [|e1 l1 IH]; intros s e l2 s2 H.
  - exists s. split; [constructor|exact H].
  - cbn in H. inversion H as [|? ? s1 ? ? Hw Hs Hr]; subst. apply IH in Hr as (s3 & H1 & H2). exists s3.
    split; [econstructor; eauto|exact H2].
Qed.

Lemma fac_at_inj w f fs fs' : fac_at w f fs -> fac_at w f fs' -> fs = fs'.
Proof. unfold fac_at. congruence. Qed.

Section facs.
  Context (C : chain).
  (** How one step changes a factory's state. *)
  Lemma call_facs w w1 s a funds i st rsp msg f fs :
    bank_moved w w1 s a funds -> state_at w a = Some (i_state i) -> w_insts w1 !! a = Some i ->
    call C w1 a (i_state i) s funds msg = Ok (st, rsp) -> fac_at w f fs ->
    (f <> a /\ fac_at (set_state w1 a st) f fs) \/
    (f = a /\ exists fs', st = SFactory fs' /\ fac_at (set_state w1 a st) f fs' /\ fac_at w1 f fs /\
       factory_execute (ch_api C) (wq C w1) f fs s msg = Ok (fs', rsp)).
  Proof.
    intros Hb Hs Hi Hc Ht. destruct (decide (f = a)) as [->|D].
    - right. split; [reflexivity|]. unfold fac_at in *. rewrite Hs in Ht. injection Ht as E. rewrite E in Hc.
      cbn [call] in Hc. unfold wrap in Hc. apply rbind_ok in Hc as ([fs' rsp'] & Hc & E'). injection E' as <- <-.
      exists fs'. split; [reflexivity|]. split; [rewrite state_at_set by eauto; apply decide_True; reflexivity|].
      split; [|exact Hc]. unfold state_at. rewrite Hi. cbn. congruence.
    - left. split; [exact D|]. unfold fac_at in *. rewrite state_at_set by eauto. rewrite decide_False by exact D.
      unfold state_at in *. rewrite (bm_insts _ _ _ _ _ Hb). exact Ht.
  Qed.
  Lemma set_facs w a s s' f fs : state_at w a = Some s -> (forall x, s <> SFactory x) -> fac_at w f fs ->
    fac_at (set_state w a s') f fs.
  Proof.
    intros Hs Hn Ht. unfold fac_at in *. pose proof Hs as Hs0. apply state_at_inst in Hs0 as (ad & Hi).
    rewrite state_at_set by eauto. destruct (decide (f = a)) as [->|D]; [|exact Ht].
    rewrite Hs in Ht. injection Ht as ->. exfalso. exact (Hn _ eq_refl).
  Qed.
  Lemma mig_facs (OK : chain_ok C) w a i k st f fs : w_insts w !! a = Some i -> migrated C (i_state i) k = Some st -> fac_at w f fs ->
    fac_at (set_state w a st) f fs.
  Proof.
    intros Hi Hm Hf. unfold fac_at in *. rewrite state_at_set by eauto. case_decide; [subst|exact Hf].
    unfold state_at in Hf. rewrite Hi in Hf. cbn in Hf. injection Hf as E. rewrite E in Hm. destruct k; try discriminate; cbn in Hm; [congruence|].
    rewrite (no_takeover C OK) in Hm. discriminate.
  Qed.
  Lemma admin_facs w a adm f fs : fac_at w f fs -> fac_at (set_admin w a adm) f fs.
  Proof. unfold fac_at. rewrite admin_state. auto. Qed.
  Lemma same_facs w w' f fs : w_insts w' = w_insts w -> fac_at w f fs -> fac_at w' f fs.
  Proof. unfold fac_at, state_at. intros ->. auto. Qed.
  Lemma new_facs w w2 a s f fs : (forall x, state_at w2 x = if decide (x = a) then Some s else state_at w x) ->
    state_at w a = None -> fac_at w f fs -> fac_at w2 f fs.
  Proof.
    unfold fac_at. intros S Hn Ht. rewrite S. destruct (decide (f = a)) as [->|]; [congruence|exact Ht].
  Qed.
  Lemma reply_facs w a i id b r st rsp f fs : w_insts w !! a = Some i -> reply C w a (i_state i) id b r = Ok (st, rsp) ->
    fac_at w f fs ->
    (f <> a /\ fac_at (set_state w a st) f fs) \/
    (f = a /\ exists pc fs', r = Some pc /\ st = SFactory fs' /\ fac_at (set_state w a st) f fs' /\
      factory_reply (ch_api C) (wq C w) fs pc = Ok (fs', rsp)).
  Proof.
    intros Hi Hr Hf. unfold fac_at in *. destruct (decide (f = a)) as [->|D].
    - right. split; [reflexivity|]. unfold state_at in Hf. rewrite Hi in Hf. cbn in Hf. injection Hf as E. rewrite E in Hr.
      cbn [reply] in Hr. destruct r as [pc|]; [|discriminate]. unfold wrap in Hr. apply rbind_ok in Hr as ([fs' rsp'] & Hr & E').
      injection E' as <- <-. exists pc, fs'. split; [reflexivity|]. split; [reflexivity|]. split; [|exact Hr].
      rewrite state_at_set by eauto. apply decide_True. reflexivity.
    - left. split; [exact D|]. rewrite state_at_set by eauto. rewrite decide_False by exact D. exact Hf.
  Qed.
End facs.

Lemma factory_step C f fs s msg fs' rsp funds w :
  fac_at w f fs -> factory_execute (ch_api C) (wq C w) f fs s msg = Ok (fs', rsp) ->
  settings_step C f (settings_of fs) (Event f s msg (rs_attrs rsp) funds w) (settings_of fs').
Proof.
  intros Hf H. unfold settings_step. cbn [ev_contract ev_msg ev_sender]. rewrite decide_True by reflexivity.
  apply factory_execute_inv in H as [(o & t & p & -> & H)|[(i & r & -> & H)|[(d & n & -> & _ & H)|(c & k & -> & H)]]].
  - unfold update_config in H. apply rbind_ok in H as ([] & E & H). apply owner_only_ok in E.
    apply rbind_ok in H as (o' & Eo & H). injection H as <- <-. cbn.
    split; [exact E|]. split; [|repeat split]. destruct o as [a|]; [|congruence].
    apply rbind_ok in Eo as (? & _ & Eo). apply addr_canonicalize_ok in Eo. exact Eo.
  - apply create_pair_inv in H as (d0 & d1 & r0 & r1 & _ & _ & _ & _ & _ & _ & -> & _). reflexivity.
  - unfold add_native in H. apply rbind_ok in H as ([] & E & H). apply owner_only_ok in E.
    apply rbind_ok in H as (b & _ & H). apply rbind_ok in H as (? & _ & H). injection H as <- <-. cbn.
    repeat (split; [auto; fail|]). intros d'. case_decide; [subst; apply lookup_insert|apply lookup_insert_ne; congruence].
  - unfold migrate_pair in H. apply rbind_ok in H as ([] & E & H). injection H as <- <-. reflexivity.
Qed.

Section admin.
  Context (C : chain) (OK : chain_ok C) (f : string).
  Let R (w w' : world) (lg : list event) : Prop :=
    forall fs, fac_at w f fs -> exists fs', fac_at w' f fs' /\ replay C f (settings_of fs) lg (settings_of fs').
  Lemma admin_ok : ind2_ok C R (fun _ _ _ => True).
  Proof.
    assert (Fo : forall l : list submsg, Forall (fun _ => True) l) by (induction l; constructor; auto).
    split.
    - intros w _ fs Hf. exists fs. split; [exact Hf|constructor].
    - intros w w1 w2 l1 l2 _ _ _ _ _ H1 H2 fs Hf. destruct (H1 _ Hf) as (fs1 & Hf1 & Rp1).
      destruct (H2 _ Hf1) as (fs2 & Hf2 & Rp2). exists fs2. split; [exact Hf2|]. eapply replay_app; eauto.
    - auto.
    - intros w s ro to cs w' to' _ _ _ _ Hb _ _ fs Hf. exists fs. split; [|constructor]. eapply same_facs; [apply (bm_insts _ _ _ _ _ Hb)|exact Hf].
    - intros w s ro c msg funds a w1 i st rsp n w3 lg M _ _ _ Hb Hs Hi Hc w2 _ _ _ _ _ _. right. split; [apply Fo|].
      intros H fs Hf. destruct (call_facs C _ _ _ _ _ _ _ _ _ _ _ Hb Hs Hi Hc Hf) as [(D & Hf2)|(<- & fs1 & _ & Hf2 & Hf1 & E)].
      + destruct (H _ Hf2) as (fs' & Hf' & Rp). exists fs'. split; [exact Hf'|]. econstructor; [|unfold settings_step|exact Rp].
        * cbn. intros X. exfalso. exact (D (eq_sym X)).
        * cbn [ev_contract]. rewrite decide_False by congruence. reflexivity.
      + destruct (H _ Hf2) as (fs' & Hf' & Rp). exists fs'. split; [exact Hf'|].
        econstructor; [|eapply factory_step; [exact Hf1|exact E]|exact Rp]. cbn. eauto.
    - intros w s ro ad code msg funds label k adm w1 st rsp n w3 lg M _ _ _ _ a Hb Hc w2 _ S Hn _ _ _ _. right. split; [apply Fo|].
      intros H fs Hf. apply H. eapply new_facs; eauto.
    - intros w s ro c code a i k st M _ _ _ Hi _ _ Hm _ _ fs Hf. exists fs. split; [|constructor]. eapply mig_facs; eauto.
    - intros w a adm M _ _ fs Hf. exists fs. split; [|constructor]. apply admin_facs. exact Hf.
    - intros w a sm rest n w' r lg id i st rsp _ _ _ _ _ _ _ _ Hi Hr w2 _ _. split; [apply Fo|].
      intros fs Hf. destruct (reply_facs C _ _ _ _ _ _ _ _ _ _ Hi Hr Hf) as [(_ & Hf2)|(<- & pc & fs' & _ & _ & Hf2 & E)].
      + exists fs. split; [exact Hf2|constructor].
      + exists fs'. split; [exact Hf2|]. apply factory_reply_inv in E as (? & ? & ? & ? & _ & _ & _ & _ & -> & _). constructor.
    - intros w a sm rest id k d st rsp _ _ _ _ Hs _ w2 _ _. split; [apply Fo|].
      intros fs Hf. exists fs. split; [|constructor]. eapply set_facs; [exact Hs|discriminate|exact Hf].
  Qed.
End admin.

(** C20: over any history the factory's owner, code ids and native decimals are
    those obtained by replaying its accepted UpdateConfig and
    AddNativeTokenDecimals calls, each sent by the account that was owner at
    that time; nothing else changes them. *)
Theorem C20_only_owner_administers C w lg w' f fs : chain_ok C -> reachable C w -> history C w lg w' ->
  fac_at w f fs -> exists fs', fac_at w' f fs' /\ replay C f (settings_of fs) lg (settings_of fs').
Proof.
  intros OK Hr Hh Hf. pose proof (reachable_main C OK w Hr) as M.
  eapply (history_ind2 C OK _ (fun _ _ _ => True) w lg w' (admin_ok C OK f)); auto.
  intros w0 blk _ fs0 Hf0. exists fs0. split; [exact Hf0|constructor].
Qed.
(** In particular: if none of the owner's calls is in the log, nothing changed. *)
Theorem C20_unchanged_without_owner C w lg w' f fs : chain_ok C -> reachable C w -> history C w lg w' ->
  fac_at w f fs ->
  (forall e, In e lg -> ev_contract e = f -> canon (ch_api C) (ev_sender e) <> Some (f_owner fs)) ->
  exists fs', fac_at w' f fs' /\ settings_of fs' = settings_of fs.
Proof.
  intros OK Hr Hh Hf Hn. destruct (C20_only_owner_administers C w lg w' f fs OK Hr Hh Hf) as (fs' & Hf' & Rp).
  exists fs'. split; [exact Hf'|]. change (f_owner fs) with (se_owner (settings_of fs)) in Hn.
  revert Hn Rp. generalize (settings_of fs) (settings_of fs'). clear.
  intros s s' Hn Rp. induction Rp as [|s e s1 lg s' _ St Rp IH]; [reflexivity|].
  assert (s1 = s) as ->.
  { unfold settings_step in St. destruct (decide (ev_contract e = f)) as [D|]; [|exact St].
    specialize (Hn e (in_eq _ _) D). destruct (ev_msg e); try exact St; destruct St as [X _]; contradiction. }
  apply IH. intros e0 H0. apply Hn. right. exact H0.
Qed.

(** ** C21, C23 *)

(** The factory's code ids stand for the pair and token contracts of this
    repository.  Its owner can change them, also to code that lies. *)
Definition honest (C : chain) (fs : factory_state) : Prop :=
  ch_codes C (f_pair_code fs) = Some CPair /\ ch_codes C (f_token_code fs) = Some CToken.
Definition dishonest_update (C : chain) (m : jmsg) : Prop :=
  exists o t p, m = JUpdateConfig o t p /\
    ((exists c, p = Some c /\ ch_codes C c <> Some CPair) \/ (exists c, t = Some c /\ ch_codes C c <> Some CToken)).

(** The registry record [pr] under key [k] describes a pair contract made by
    factory [f], whose LP token only the pair can mint. *)
Definition real_pair (C : chain) (w : world) (f k : string) (pr : pair_info_raw) : Prop :=
  k = pair_key (r_asset_infos pr) /\
  exists p t ts ps, human (ch_api C) (r_contract_addr pr) = Some p /\
    w_insts w !! p = Some (Inst (Some f) (SPair ps)) /\ ps = pr /\
    human (ch_api C) (r_liquidity_token pr) = Some t /\ tok_at w t ts /\ tk_mint ts = Some (p, None).

(** [pr] was made by the CreatePair call [e]. *)
Definition made_by (C : chain) (f : string) (pr : pair_info_raw) (e : event) : Prop :=
  exists infos reqs, ev_contract e = f /\ ev_msg e = JCreatePair infos reqs /\
    info_to_raw (ch_api C) infos.1 = Ok (r_asset_infos pr).1 /\
    info_to_raw (ch_api C) infos.2 = Ok (r_asset_infos pr).2 /\
    r_requirements pr = reqs /\
    (forall a, human (ch_api C) (r_contract_addr pr) = Some a \/ human (ch_api C) (r_liquidity_token pr) = Some a ->
       w_insts (ev_world e) !! a = None) /\
    forall i d, (i = infos.1 /\ d = (r_asset_decimals pr).1) \/ (i = infos.2 /\ d = (r_asset_decimals pr).2) ->
      match i with
      | Native n => ask_native_decimals C (ev_world e) f n = Ok d
      | Token t => exists ti, ask_token_info C (ev_world e) t = Ok ti /\ ti_decimals ti = d
      end.

Section create.
  Context (C : chain) (OK : chain_ok C).
  Local Notation A := (ch_api C).

  Lemma real_pair_rel x w w' f fs k pr : rel x w w' -> fac_at w f fs -> real_pair C w f k pr -> real_pair C w' f k pr.
  Proof.
    intros [G P N T Ad] Hfs (E & p & t & ts & ps & Hh & Hi & -> & Hl & Ht & Hm). split; [exact E|].
    assert (Hp : pair_at w p pr) by (unfold pair_at, state_at; rewrite Hi; reflexivity).
    destruct (P _ _ Hp) as (st' & Hp' & [->|(_ & L & _)]).
    - destruct (T _ _ Ht) as (ts' & Ht' & _ & _ & _ & M). exists p, t, ts', pr.
      split; [exact Hh|]. destruct (Ad p _ f (SFactory fs) Hi eq_refl Hfs ltac:(discriminate)) as ([ad s] & Hi' & Ea). cbn in Ea. subst ad.
      unfold pair_at, state_at in Hp'. rewrite Hi' in Hp'. injection Hp' as ->. split; [exact Hi'|].
      split; [reflexivity|]. split; [exact Hl|]. split; [exact Ht'|]. rewrite (M p pr None Hm Hp). exact Hm.
    - exfalso. exact (human_nonempty C OK _ _ Hl L).
  Qed.

  (** What running the LP token instantiation of a fresh pair does. *)
  Lemma lp_run_honest n w p adm st tc w' lg : insts_fresh C w -> w_insts w !! p = Some (Inst adm (SPair st)) ->
    ch_codes C tc = Some CToken ->
    run C n w p [lp_msg p tc] = Ok (w', lg) ->
    lg = [] /\ exists lc t ts, canon A t = Some lc /\ human A lc = Some t /\ w_insts w !! t = None /\
      w_insts w' !! p = Some (Inst adm (SPair (set_lp st lc))) /\ tok_at w' t ts /\ tk_mint ts = Some (p, None) /\
      forall x, x <> p -> is_Some (w_insts w !! x) -> w_insts w' !! x = w_insts w !! x.
  Proof.
    intros F Hp Hc E. destruct n; [rewrite run_0 in E; discriminate|]. rewrite run_cons in E.
    apply rbind_ok in E as ([w1 l1] & E1 & E). apply rbind_ok in E as ([w2 l2] & E2 & E). injection E as <- <-.
    destruct n as [|n]; [rewrite run_0 in E2; discriminate|]. rewrite run_nil in E2. injection E2 as <- <-.
    change (sm_reply (lp_msg p tc)) with (ReplySuccess INSTANTIATE_REPLY_ID) in E1. cbn match in E1.
    destruct (exec C (S n) w p (sm_msg (lp_msg p tc))) as [[[wa r] lg1]|e] eqn:Ex; [|discriminate].
    rewrite exec_eq in Ex. cbn [lp_msg sm_msg] in Ex. rewrite Hc in Ex. cbn [oget rbind] in Ex.
    apply rbind_ok in Ex as (wb & Eb & Ex). apply bank_send_nil in Eb. subst wb.
    apply rbind_ok in Ex as ([s rsp] & Ei & Ex). cbn [init] in Ei. unfold wrap in Ei.
    apply rbind_ok in Ei as ([ts rsp'] & Ei & E'). injection E' as <- <-.
    pose proof (C37_initial_state _ _ _ _ Ei) as (_ & _ & _ & _ & Hm & _ & _ & _ & Hr).
    rewrite Hr in Ex. apply rbind_ok in Ex as ([wc lgc] & Er & Ex). injection Ex as <- <- <-.
    destruct n; [rewrite run_0 in Er; discriminate|]. rewrite run_nil in Er. injection Er as <- <-.
    set (t := ch_fresh C (w_next w)) in *.
    set (wa := set_insts _ _) in *.
    assert (Hn : w_insts w !! t = None) by (apply fresh_none; [exact OK|exact F]).
    assert (Dt : t <> p) by (intros ->; congruence).
    assert (Hpa : w_insts wa !! p = Some (Inst adm (SPair st))).
    { unfold wa. cbn [set_insts w_insts set_next]. rewrite lookup_insert_ne by exact Dt. exact Hp. }
    rewrite Hpa in E1. cbn [oget rbind i_state reply] in E1. unfold wrap in E1.
    apply rbind_ok in E1 as ([s1 rsp1] & Er & E1). apply rbind_ok in Er as ([st1 rsp2] & Er & E'). injection E' as <- <-.
    unfold pair_reply in Er. apply rbind_ok in Er as (lc & Ec & Er). apply addr_canonicalize_ok in Ec. injection Er as <- <-.
    cbn [rs_msgs] in E1. apply rbind_ok in E1 as ([wd lgd] & Ed & E1). rewrite run_nil in Ed. injection Ed as <- <-. injection E1 as <- <-.
    split; [reflexivity|]. exists lc, t, ts. split; [exact Ec|]. split; [apply fresh_human; [exact OK|exact Ec]|]. split; [exact Hn|].
    split; [|split; [|split; [exact Hm|]]].
    - rewrite set_state_insts, decide_True by reflexivity. rewrite Hpa. reflexivity.
    - unfold tok_at, state_at. rewrite set_state_insts, decide_False by exact Dt. unfold wa. cbn [set_insts w_insts].
      rewrite lookup_insert. reflexivity.
    - intros x Dx [i Hx]. rewrite set_state_insts, decide_False by exact Dx. unfold wa. cbn [set_insts w_insts set_next].
      rewrite lookup_insert_ne by (intros ->; congruence). reflexivity.
  Qed.

  (** CreatePair runs to its end without any foreign code. *)
  Lemma create_run n w f fs adm infos tc pc dec reqs w' lg :
    main C w -> w_insts w !! f = Some (Inst adm (SFactory fs)) ->
    ch_codes C pc = Some CPair -> ch_codes C tc = Some CToken ->
    run C n w f [SubMsg (MInstantiate (Some f) pc (IPair infos tc dec reqs) [] "pair") (ReplySuccess 1)] = Ok (w', lg) ->
    lg = [] /\ exists p c lc t ts r0 r1 tmp, canon A p = Some c /\ human A c = Some p /\ human A lc = Some t /\
      w_insts w !! p = None /\ w_insts w !! t = None /\
      info_to_raw A infos.1 = Ok r0 /\ info_to_raw A infos.2 = Ok r1 /\ f_tmp fs = Some tmp /\
      w_insts w' !! p = Some (Inst (Some f) (SPair (PairInfoRaw (r0, r1) c lc dec reqs))) /\
      tok_at w' t ts /\ tk_mint ts = Some (p, None) /\
      fac_at w' f (FactoryState (f_owner fs) (f_pair_code fs) (f_token_code fs) (f_native fs)
       (<[t_key tmp := PairInfoRaw (t_infos tmp) c lc (t_decimals tmp) reqs]> (f_pairs fs)) (f_tmp fs)).
  Proof.
    intros M Hf Hpc Htc E. pose proof (mn_fresh _ _ M) as F.
    destruct n; [rewrite run_0 in E; discriminate|]. rewrite run_cons in E.
    apply rbind_ok in E as ([w1 l1] & E1 & E). apply rbind_ok in E as ([w2 l2] & E2 & E). injection E as <- <-.
    destruct n as [|n]; [rewrite run_0 in E2; discriminate|]. rewrite run_nil in E2. injection E2 as <- <-.
    cbn [sm_reply sm_msg] in E1.
    match type of E1 with context [exec C (S n) w f ?m] => destruct (exec C (S n) w f m) as [[[wa r] lg1]|e] eqn:Ex end; [|discriminate].
    pose proof (inst_norm C OK w f _ F Hf) as Nf.
    rewrite exec_eq in Ex. rewrite Hpc in Ex. cbn [oget rbind] in Ex. rewrite Nf in Ex. cbn [oget rbind] in Ex.
    apply rbind_ok in Ex as (wb & Eb & Ex). pose proof (bank_send_ok _ _ _ _ _ Eb) as Hb. apply bank_send_nil in Eb. subst wb.
    apply rbind_ok in Ex as ([s rsp] & Ei & Ex).
    destruct (inst_main C OK w f pc (IPair infos tc dec reqs) [] CPair (Some f) _ s rsp M Hpc Hb Ei) as (M2 & _ & S2 & Hn2 & _).
    cbn [init] in Ei.
    destruct (u64_ok tc && u8_ok dec.1 && u8_ok dec.2 && reqs_ranges reqs); [|discriminate]. unfold wrap in Ei.
    apply rbind_ok in Ei as ([ps rsp'] & Ei & E'). injection E' as <- <-.
    unfold pair_instantiate in Ei. apply rbind_ok in Ei as (c & Ec & Ei). apply addr_canonicalize_ok in Ec.
    apply rbind_ok in Ei as (r0 & H0 & Ei). apply rbind_ok in Ei as (r1 & H1 & Ei). injection Ei as <- <-.
    set (p := ch_fresh C (w_next w)) in *. cbn [rs_msgs] in Ex. apply rbind_ok in Ex as ([wc lgc] & Er & Ex). injection Ex as <- <- <-.
    fold (lp_msg p tc) in Er. set (wb := set_insts _ _) in *.
    assert (Hn : w_insts w !! p = None) by (apply fresh_none; [exact OK|exact F]).
    assert (Df : f <> p) by (intros ->; congruence).
    assert (Hpb : w_insts wb !! p = Some (Inst (Some f) (SPair (PairInfoRaw (r0, r1) c "" dec reqs)))).
    { unfold wb. cbn [set_insts w_insts]. apply lookup_insert. }
    assert (Hfb : w_insts wb !! f = Some (Inst adm (SFactory fs))).
    { unfold wb. cbn [set_insts w_insts set_next]. rewrite lookup_insert_ne by congruence. exact Hf. }
    destruct (lp_run_honest _ _ _ _ _ _ _ _ (mn_fresh _ _ M2) Hpb Htc Er) as (-> & lc & t & ts & Hct & Hl & Hnt & Hpc' & Ht & Hm & Hx).
    rewrite (Hx f Df) in E1 by eauto. rewrite Hfb in E1. cbn [oget rbind i_state reply] in E1. unfold wrap in E1.
    apply rbind_ok in E1 as ([s1 rsp1] & E3 & E1). apply rbind_ok in E3 as ([fs1 rsp2] & E3 & E'). injection E' as <- <-.
    apply factory_reply_inv in E3 as (tmp & pi & lp' & c' & Htmp & Hq & Hlp' & Hc' & -> & Hmsg). rewrite Hmsg in E1.
    apply rbind_ok in E1 as ([wd lgd] & Ed & E1). rewrite run_nil in Ed. injection Ed as <- <-. injection E1 as <- <-.
    cbn [wq q_pair_self] in Hq. unfold ask_pair_self, contract_at in Hq. rewrite (fresh_norm C OK (w_next w) : norm A p = Some p) in Hq.
    cbn [oget rbind] in Hq. rewrite Hpc' in Hq. cbn [oget rbind i_state] in Hq. unfold pair_query_pair, pair_to_normal in Hq.
    cbn [set_lp r_liquidity_token r_contract_addr r_asset_infos r_asset_decimals r_requirements] in Hq.
    apply rbind_ok in Hq as (h1 & Q1 & Hq). apply rbind_ok in Hq as (h2 & Q2 & Hq).
    apply rbind_ok in Hq as (h3 & Q3 & Hq). apply rbind_ok in Hq as (h4 & Q4 & Hq). injection Hq as <-.
    cbn [p_liquidity_token p_requirements] in *.
    assert (h1 = t) by (unfold addr_humanize in Q1; rewrite Hl in Q1; cbn in Q1; congruence). subst h1.
    assert (lp' = lc) by congruence. assert (c' = c) by congruence. subst lp' c'.
    split; [reflexivity|]. exists p, c, lc, t, ts, r0, r1, tmp.
    assert (Dpf : p <> f) by congruence.
    assert (Hnt' : w_insts w !! t = None).
    { unfold wb in Hnt. cbn [set_insts w_insts set_next] in Hnt. apply lookup_insert_None in Hnt as [Hnt _]. exact Hnt. }
    repeat (split; [first [assumption|apply fresh_human; assumption]|]).
    split; [|split; [|split; [exact Hm|]]].
    - rewrite set_state_insts, decide_False by exact Dpf. exact Hpc'.
    - unfold tok_at in *. rewrite state_at_set by (rewrite (Hx f Df) by eauto; eauto). rewrite decide_False; [exact Ht|].
      intros ->. unfold state_at in Ht. rewrite (Hx f Df), Hfb in Ht by eauto. discriminate.
    - unfold fac_at. rewrite state_at_set by (rewrite (Hx f Df) by eauto; eauto). rewrite decide_True by reflexivity. reflexivity.
  Qed.
End create.

Section registry.
  Context (C : chain) (OK : chain_ok C) (f : string).
  Local Notation A := (ch_api C).
  Definition reg_R (w w' : world) (lg : list event) : Prop :=
    forall fs, fac_at w f fs -> honest C fs -> ~ called f (dishonest_update C) lg ->
    (forall k pr, f_pairs fs !! k = Some pr -> real_pair C w f k pr) ->
    exists fs', fac_at w' f fs' /\ honest C fs' /\
      (forall k pr, f_pairs fs !! k = Some pr -> f_pairs fs' !! k = Some pr) /\
      (forall k pr, f_pairs fs' !! k = Some pr -> real_pair C w' f k pr) /\
      (forall k pr, f_pairs fs' !! k = Some pr -> f_pairs fs !! k = Some pr \/ exists e, In e lg /\ made_by C f pr e).
  Definition reg_may (w : world) (a : string) (sm : submsg) : Prop :=
    a = f -> (exists fs, fac_at w f fs) -> exists c code, sm = plain (MMigrate c code).

  Lemma fac_back x w w' : rel x w w' -> is_Some (state_at w f) -> (exists fs, fac_at w' f fs) -> exists fs, fac_at w f fs.
  Proof.
    intros R [s Hs] (fs & H). destruct (grows_state _ _ _ _ (rl_grows _ _ _ R) Hs) as (s' & Hs' & K).
    unfold fac_at in *. rewrite H in Hs'. injection Hs' as <-. destruct s; try destruct K. eauto.
  Qed.
  Lemma reg_other w a l : a <> f -> Forall (reg_may w a) l.
  Proof. intros D. induction l; constructor; [|assumption]. intros E. exfalso. exact (D E). Qed.
  Lemma reg_nofac w a l : (forall fs, ~ fac_at w f fs) -> Forall (reg_may w a) l.
  Proof. intros D. induction l; constructor; [|assumption]. intros _ (fs & E). exfalso. exact (D _ E). Qed.
  (** nothing in the factory changed *)
  Lemma reg_same x w w' : rel x w w' -> (forall fs, fac_at w f fs -> fac_at w' f fs) -> reg_R w w' [].
  Proof.
    intros R Hs fs Hf Hh _ Hg. exists fs. split; [auto|]. split; [exact Hh|]. split; [auto|]. split; [|auto].
    intros k pr Hk. eapply real_pair_rel; eauto.
  Qed.
  Lemma reg_first w w1 w2 e l : (forall fs k pr, fac_at w f fs -> real_pair C w f k pr -> real_pair C w1 f k pr) ->
    (forall fs, fac_at w f fs -> exists fs1, fac_at w1 f fs1 /\ f_pairs fs1 = f_pairs fs /\
       (honest C fs -> ~ (ev_contract e = f /\ dishonest_update C (ev_msg e)) -> honest C fs1)) ->
    reg_R w1 w2 l -> reg_R w w2 (e :: l).
  Proof.
    intros Hp Hs H fs Hf Hh Hn Hg. rewrite called_cons in Hn.
    destruct (Hs _ Hf) as (fs1 & Hf1 & E & Hh1).
    destruct (H _ Hf1) as (fs' & Hf' & Hh' & G1 & G2 & G3); [tauto|tauto|rewrite E; eauto|].
    exists fs'. split; [exact Hf'|]. split; [exact Hh'|]. rewrite E in *. split; [exact G1|]. split; [exact G2|].
    intros k pr Hk. destruct (G3 _ _ Hk) as [|(e' & H1 & H2)]; [auto|]. right. exists e'. split; [right|]; assumption.
  Qed.

  Lemma reg_ok : ind2_ok C reg_R reg_may.
  Proof.
    split.
    - intros w _. eapply reg_same; [apply (rel_refl None)|auto].
    - intros w w1 w2 l1 l2 _ _ _ R1 R2 H1 H2 fs Hf Hh Hn Hg. rewrite called_app in Hn.
      destruct (H1 _ Hf Hh) as (fs1 & Hf1 & Hh1 & A1 & A2 & A3); [tauto|exact Hg|].
      destruct (H2 _ Hf1 Hh1) as (fs2 & Hf2 & Hh2 & B1 & B2 & B3); [tauto|exact A2|].
      exists fs2. split; [exact Hf2|]. split; [exact Hh2|]. split; [auto|]. split; [exact B2|].
      intros k pr Hk. destruct (B3 _ _ Hk) as [Hk1|(e & I & Me)].
      + destruct (A3 _ _ Hk1) as [|(e & I & Me)]; [auto|right; exists e; split; [apply in_or_app; auto|exact Me]].
      + right. exists e. split; [apply in_or_app; auto|exact Me].
    - intros w w' a sm lg _ _ Ha R _ H -> E. apply H; [reflexivity|]. eapply fac_back; eauto.
    - intros w s ro to cs w' to' _ _ _ _ Hb _ R. eapply reg_same; [exact R|]. intros fs. apply same_facs, (bm_insts _ _ _ _ _ Hb).
    - intros w s ro c msg funds a w1 i st rsp n w3 lg M _ _ _ Hb Hs Hi Hc w2 M2 R2 Fm Er M3 R3.
      destruct (decide (a = f)) as [->|D].
      2:{ right. split; [apply reg_other; exact D|]. apply reg_first.
          - intros fs k pr. apply (real_pair_rel C OK None); exact R2.
          - intros fs Hf. destruct (call_facs C _ _ _ _ _ _ _ _ _ _ _ Hb Hs Hi Hc Hf) as [(_ & Hf2)|(-> & _)]; [|congruence].
            exists fs. auto. }
      destruct (i_state i) as [| fs0 | | |] eqn:Es.
      1,3,4,5: right; split; [apply reg_nofac; intros fs Hf; pose proof (call_kind _ _ _ _ _ _ _ _ _ Hc) as K;
        unfold fac_at, w2 in Hf; rewrite state_at_set in Hf by eauto; rewrite decide_True in Hf by reflexivity;
        injection Hf as ->; destruct K|];
        intros _ fs Hf; unfold fac_at in Hf; congruence.
      assert (Hf0 : fac_at w f fs0) by exact Hs.
      rewrite <- Es in Hc, Hs.
      destruct (call_facs C _ _ _ _ _ _ _ _ _ _ _ Hb Hs Hi Hc Hf0) as [(X & _)|(_ & fs1 & -> & Hf2 & Hf1 & E)]; [congruence|].
      apply factory_execute_inv in E as [(o & t & p & -> & H)|[(infos & r & -> & H)|[(d & m & -> & _ & H)|(c' & k & -> & H)]]].
      + right. unfold update_config in H. apply rbind_ok in H as ([] & _ & H). apply rbind_ok in H as (o' & Eo & H).
        injection H as <- <-. split; [constructor|]. apply reg_first.
        * intros fs k pr. apply (real_pair_rel C OK None); exact R2.
        * intros fs Hf. assert (fs = fs0) by (unfold fac_at in *; congruence). subst fs.
          eexists. split; [exact Hf2|]. split; [reflexivity|]. intros [Hp Ht] Hn. unfold honest. cbn [f_pair_code f_token_code].
          cbn [ev_contract ev_msg] in Hn.
          split.
          -- destruct p as [p|]; [|exact Hp]. cbn. destruct (ch_codes C p) as [k|] eqn:Ek; [destruct k|]; try reflexivity;
               exfalso; apply Hn; (split; [reflexivity|]); exists o, t, (Some p); (split; [reflexivity|]); left; exists p; rewrite Ek; (split; [reflexivity|discriminate]).
          -- destruct t as [t|]; [|exact Ht]. cbn. destruct (ch_codes C t) as [k|] eqn:Ek; [destruct k|]; try reflexivity;
               exfalso; apply Hn; (split; [reflexivity|]); exists o, (Some t), p; (split; [reflexivity|]); right; exists t; rewrite Ek; (split; [reflexivity|discriminate]).
      + left. apply create_pair_inv in H as (d0 & d1 & r0 & r1 & Hne & Q0 & Q1 & H0 & H1 & Hnk & -> & Hm). rewrite Hm in Er.
        intros fs Hf [Hp Ht] _ Hg. assert (fs = fs0) by (unfold fac_at in *; congruence). subst fs.
        assert (Hi2 : exists adm, w_insts w2 !! f = Some (Inst adm (SFactory (FactoryState (f_owner fs0) (f_pair_code fs0) (f_token_code fs0) (f_native fs0) (f_pairs fs0) (Some (TmpPair (pair_key (r0, r1)) (r0, r1) (d0, d1))))))).
        { apply state_at_inst. exact Hf2. }
        destruct Hi2 as (adm & Hi2).
        destruct (create_run C OK _ _ _ _ _ _ _ _ _ _ _ _ M2 Hi2 Hp Ht Er) as
          (-> & p & cc & lc & t & ts & r0' & r1' & tmp & Hcp & Hhp & Hhl & Hnp & Hnt & H0' & H1' & Etmp & Hip & Htk & Hmint & Hf3).
        cbn [f_tmp f_owner f_pair_code f_token_code f_native f_pairs] in *. injection Etmp as <-. cbn [t_key t_infos t_decimals] in *.
        assert (r0' = r0) by congruence. assert (r1' = r1) by congruence. subst r0' r1'.
        eexists. split; [exact Hf3|]. split; [split; assumption|]. cbn [f_pairs].
        split; [|split].
        * intros k pr Hk. rewrite lookup_insert_ne; [exact Hk|]. congruence.
        * intros k pr Hk. apply lookup_insert_Some in Hk as [[<- <-]|[_ Hk]].
          -- split; [reflexivity|]. exists p, t, ts, (PairInfoRaw (r0, r1) cc lc (d0, d1) r). auto 10.
          -- eapply real_pair_rel; [exact OK|exact R3|exact Hf2|]. eapply real_pair_rel; [exact OK|exact R2|exact Hf0|]. auto.
        * intros k pr Hk. apply lookup_insert_Some in Hk as [[<- <-]|[_ Hk]]; [|auto]. right. eexists. split; [left; reflexivity|].
          exists infos, r. cbn [ev_contract ev_msg ev_world r_asset_infos r_requirements r_asset_decimals fst snd].
          repeat (split; [first [reflexivity|assumption]|]). split.
          { assert (X : forall a, w_insts w2 !! a = None -> w_insts w1 !! a = None).
            { intros a Ha. destruct (w_insts w1 !! a) eqn:Ea; [|reflexivity]. unfold w2 in Ha. rewrite set_state_insts in Ha.
              destruct (decide (a = f)) as [->|]; [|congruence]. rewrite Ea in Ha. discriminate. }
            cbn [r_contract_addr r_liquidity_token]. intros a [Ha|Ha]; apply X; congruence. }
          intros i0 d [[-> ->]|[-> ->]].
          -- destruct infos.1 as [tk|dn]; cbn in Q0; [|exact Q0]. apply rbind_ok in Q0 as (ti & ? & E). injection E as <-. eauto.
          -- destruct infos.2 as [tk|dn]; cbn in Q1; [|exact Q1]. apply rbind_ok in Q1 as (ti & ? & E). injection E as <-. eauto.
      + right. unfold add_native in H. apply rbind_ok in H as ([] & _ & H). apply rbind_ok in H as (b & _ & H).
        apply rbind_ok in H as (? & _ & H). injection H as <- <-. split; [constructor|]. apply reg_first.
        * intros fs k pr. apply (real_pair_rel C OK None); exact R2.
        * intros fs Hf. assert (fs = fs0) by (unfold fac_at in *; congruence). subst fs. eexists. split; [exact Hf2|].
          split; [reflexivity|]. intros Hh _. exact Hh.
      + right. unfold migrate_pair in H. apply rbind_ok in H as ([] & _ & H). injection H as <- <-.
        split; [constructor; [intros _ _; eauto|constructor]|]. apply reg_first.
        * intros fs k0 pr. apply (real_pair_rel C OK None); exact R2.
        * intros fs Hf. assert (fs = fs0) by (unfold fac_at in *; congruence). subst fs. exists fs0. auto.
    - intros w s ro ad code msg funds label k adm w1 st rsp n w3 lg M _ _ _ _ a Hb Hc w2 M2 S Hn _ Er _ R3.
      assert (R2 : forall k pr, real_pair C w f k pr -> real_pair C w2 f k pr).
      { intros k0 pr (E & p & t & ts & ps & Hh & Hi & -> & Hl & Ht & Hm). split; [exact E|].
        exists p, t, ts, pr. split; [exact Hh|].
        assert (p <> a). { intros ->. unfold state_at in Hn. rewrite Hi in Hn. discriminate. }
        split; [|split; [reflexivity|split; [exact Hl|split; [|exact Hm]]]].
        - unfold w2. cbn [set_insts w_insts]. rewrite lookup_insert_ne by congruence. rewrite (bm_insts _ _ _ _ _ Hb). exact Hi.
        - eapply new_toks; eauto. }
      destruct (decide (a = f)) as [Ea|D].
      + left. intros fs Hf. exfalso. rewrite <- Ea in Hf. unfold fac_at in Hf. congruence.
      + right. split; [apply reg_other; exact D|]. intros H fs Hf Hh Hnn Hg.
        assert (Hf2 : fac_at w2 f fs) by (eapply new_facs; eauto). apply (H fs Hf2 Hh Hnn). auto.
    - intros w s ro c code a i k st M _ _ _ Hi _ _ Hm _ R. eapply reg_same; [exact R|]. intros fs. eapply mig_facs; eauto.
    - intros w a adm M _ R. eapply reg_same; [exact R|]. intros fs. apply admin_facs.
    - intros w a sm rest n w' r lg id i st rsp M Hms Hm Hid _ _ R' _ Hi Hr w2 M2 R2.
      destruct (decide (a = f)) as [->|D].
      + assert (Nf : forall fs, ~ fac_at w' f fs).
        { intros fs Hf. assert (Ha : is_Some (state_at w f)) by (destruct Hms as [(s & Hs' & _)|(s & sm' & Hs' & _)]; eauto).
          destruct (fac_back _ _ _ R' Ha (ex_intro _ fs Hf)) as (fs0 & Hf0).
          destruct (Hm eq_refl (ex_intro _ _ Hf0)) as (c & code & ->). cbn in Hid. destruct Hid; discriminate. }
        split.
        * apply reg_nofac. intros fs Hf. destruct (fac_back _ _ _ R2) as (fs0 & X); [unfold state_at; rewrite Hi; eauto|eauto|]. exact (Nf _ X).
        * intros fs Hf. exfalso. exact (Nf _ Hf).
      + split; [apply reg_other; exact D|]. eapply reg_same; [exact R2|]. intros fs Hf.
        destruct (reply_facs C _ _ _ _ _ _ _ _ _ _ Hi Hr Hf) as [(_ & Hf2)|(-> & _)]; [exact Hf2|congruence].
    - intros w a sm rest id k d st rsp _ _ _ _ Hs _ w2 M2 R2. split.
      + destruct (decide (a = f)) as [->|D]; [|apply reg_other; exact D].
        apply reg_nofac. intros fs Hf. destruct (fac_back _ _ _ R2) as (fs0 & X); [eauto|eauto|]. unfold fac_at in X. congruence.
      + eapply reg_same; [exact R2|]. intros fs Hf. eapply set_facs; [exact Hs|discriminate|exact Hf].
  Qed.
End registry.

(** No code, however written, makes the factory forget or replace a pair that
    was registered before a transaction started: a CreatePair only begins for an
    unregistered key, and the reply writes to a key set in the same transaction. *)
Section keep.
  Context (C : chain) (OK : chain_ok C) (f : string) (P0 : gmap string pair_info_raw).
  Definition kept (fs : factory_state) : Prop := forall k pr, P0 !! k = Some pr -> f_pairs fs !! k = Some pr.
  Definition tmp_new (fs : factory_state) : Prop := exists tmp, f_tmp fs = Some tmp /\ P0 !! t_key tmp = None.
  Definition keep_J (w : world) : Prop := exists fs, fac_at w f fs /\ kept fs.
  Definition keep_R (w w' : world) (lg : list event) : Prop :=
    forall fs, fac_at w f fs -> exists fs', fac_at w' f fs' /\ kept fs' /\ (tmp_new fs -> tmp_new fs').
  Definition keep_may (w : world) (a : string) (sm : submsg) : Prop :=
    a = f -> forall fs, fac_at w f fs -> never sm \/ tmp_new fs.

  Lemma keep_same w w' lg : keep_J w -> (forall fs, fac_at w f fs -> fac_at w' f fs) -> keep_R w w' lg.
  Proof.
    intros (fs0 & Hf0 & Hk) H fs Hf. assert (fs = fs0) by (unfold fac_at in *; congruence). subst fs. exists fs0. auto.
  Qed.
  Lemma keep_other w a l : a <> f -> Forall (keep_may w a) l.
  Proof. intros D. induction l; constructor; [|assumption]. intros E. exfalso. exact (D E). Qed.
  Lemma keep_via w w1 w2 l l' : (forall fs, fac_at w f fs -> exists fs1, fac_at w1 f fs1 /\ (tmp_new fs -> tmp_new fs1)) ->
    keep_R w1 w2 l -> keep_R w w2 l'.
  Proof.
    intros H1 H2 fs Hf. destruct (H1 _ Hf) as (fs1 & Hf1 & T1).
    destruct (H2 _ Hf1) as (fs2 & Hf2 & Hk2 & T2). exists fs2. auto.
  Qed.

  Lemma keep_ok : ind3_ok C keep_J keep_R keep_may.
  Proof.
    split.
    - intros w w' lg (fs & Hf & _) R. destruct (R _ Hf) as (fs' & Hf' & Hk' & _). exists fs'. auto.
    - intros w _ J. apply keep_same; auto.
    - intros w w1 w2 l1 l2 _ _ _ _ _ _ H1 H2. eapply keep_via; [|exact H2].
      intros fs Hf. destruct (H1 _ Hf) as (fs1 & ? & ? & ?). eauto.
    - intros w w' a sm lg _ _ (fs0 & Hf0 & _) _ _ R H -> fs Hf. destruct (R _ Hf0) as (fs1 & Hf1 & _ & T).
      assert (fs1 = fs) by (unfold fac_at in *; congruence). subst fs1. destruct (H eq_refl _ Hf0); auto.
    - intros w s ro to cs w' to' _ J _ _ _ Hb _ _. apply keep_same; [exact J|]. intros fs. apply same_facs, (bm_insts _ _ _ _ _ Hb).
    - intros w s ro c msg funds a w1 i st rsp n w3 lg M (fs & Hf & Hk) _ _ _ Hb Hs Hi Hc w2 _ _ _ _ _ _. right.
      destruct (call_facs C _ _ _ _ _ _ _ _ _ _ _ Hb Hs Hi Hc Hf) as [(D & Hf2)|(<- & fs1 & -> & Hf2 & Hf1 & E)].
      + split; [exists fs; auto|]. split; [apply keep_other; congruence|]. apply keep_via. intros fs0 Hf0.
        assert (fs0 = fs) by (unfold fac_at in *; congruence). subst fs0. eauto.
      + assert (X : kept fs1 /\ (tmp_new fs -> tmp_new fs1) /\ Forall (keep_may w2 f) (rs_msgs rsp)).
        { assert (U : forall fs', fac_at w2 f fs' -> fs' = fs1) by (intros fs' H'; eapply fac_at_inj; [exact H'|exact Hf2]).
          apply factory_execute_inv in E as [(o & t & p & -> & H)|[(infos & r & -> & H)|[(d & m & -> & _ & H)|(c' & k & -> & H)]]].
          - unfold update_config in H. apply rbind_ok in H as ([] & _ & H). apply rbind_ok in H as (o' & Eo & H).
            injection H as <- <-. split; [exact Hk|]. split; [auto|constructor].
          - apply create_pair_inv in H as (d0 & d1 & r0 & r1 & _ & _ & _ & _ & _ & Hnk & -> & Hm).
            assert (T : tmp_new (FactoryState (f_owner fs) (f_pair_code fs) (f_token_code fs) (f_native fs) (f_pairs fs) (Some (TmpPair (pair_key (r0, r1)) (r0, r1) (d0, d1))))).
            { eexists. split; [reflexivity|]. cbn [t_key]. destruct (P0 !! pair_key (r0, r1)) as [pr|] eqn:Ep; [|reflexivity].
              apply Hk in Ep. congruence. }
            split; [exact Hk|]. split; [auto|]. rewrite Hm. constructor; [|constructor]. intros _ fs' Hf'. right. rewrite (U _ Hf'). exact T.
          - unfold add_native in H. apply rbind_ok in H as ([] & _ & H). apply rbind_ok in H as (b & _ & H).
            apply rbind_ok in H as (? & _ & H). injection H as <- <-. split; [exact Hk|]. split; [auto|constructor].
          - unfold migrate_pair in H. apply rbind_ok in H as ([] & _ & H). injection H as <- <-.
            split; [exact Hk|]. split; [auto|]. constructor; [|constructor]. intros _ fs' _. left. reflexivity. }
        destruct X as (Hk1 & T & F). split; [exists fs1; auto|]. split; [exact F|]. apply keep_via. intros fs0 Hf0.
        assert (fs0 = fs) by (unfold fac_at in *; congruence). subst fs0. eauto.
    - intros w s ro ad code msg funds label k adm w1 st rsp n w3 lg M (fs & Hf & Hk) _ _ _ _ a Hb Hc w2 _ S Hn _ _ _ _. right.
      assert (Hf2 : fac_at w2 f fs) by (eapply new_facs; eauto).
      assert (D : a <> f) by (intros E; unfold fac_at in Hf; rewrite <- E in Hf; congruence).
      split; [exists fs; auto|]. split; [apply keep_other; exact D|]. apply keep_via. intros fs0 Hf0.
      assert (fs0 = fs) by (unfold fac_at in *; congruence). subst fs0. eauto.
    - intros w s ro c code a i k st M J _ _ _ Hi _ _ Hm _ _. apply keep_same; [exact J|]. intros fs. eapply mig_facs; eauto.
    - intros w a adm M J _ _. apply keep_same; [exact J|]. intros fs. apply admin_facs.
    - intros w a sm rest n w' r lg id i st rsp M (fs & Hf & Hk) Hms Hm Hid _ _ R' R Hi Hr w2 M2 R2.
      destruct (R _ Hf) as (fs1 & Hf1 & Hk1 & T).
      destruct (reply_facs C _ _ _ _ _ _ _ _ _ _ Hi Hr Hf1) as [(D & Hf2)|(<- & pc & fs2 & _ & _ & Hf2 & E)].
      + split; [apply keep_other; congruence|]. apply keep_same; [exists fs1; auto|]. intros fs0 Hf0.
        assert (fs0 = fs1) by (unfold fac_at in *; congruence). subst fs0. exact Hf2.
      + destruct (Hm eq_refl _ Hf) as [Nv|Tn]; [unfold never in Nv; destruct Hid as [Hid|Hid]; rewrite Nv in Hid; discriminate|].
        destruct (T Tn) as (tmp & Et & Pt). apply factory_reply_inv in E as (tmp' & pi & lp & c & Et' & _ & _ & _ & -> & Em).
        rewrite Em. split; [constructor|]. intros fs0 Hf0. assert (fs0 = fs1) by (unfold fac_at in *; congruence). subst fs0.
        eexists. split; [exact Hf2|]. split; [|intros _; exists tmp; auto].
        intros k pr Hp. cbn [f_pairs]. rewrite lookup_insert_ne; [auto|]. congruence.
    - intros w a sm rest id k d st rsp _ (fs & Hf & Hk) _ _ _ Hs _ w2 M2 R2.
      assert (D : a <> f) by (intros ->; unfold fac_at in Hf; congruence).
      split; [apply keep_other; exact D|]. apply keep_same; [exists fs; auto|]. intros fs0 Hf0. eapply set_facs; [exact Hs|discriminate|exact Hf0].
  Qed.
End keep.

Lemma ask_pair_info_at C w f fs infos : chain_ok C -> main C w -> fac_at w f fs ->
  ask_pair_info C w f infos = factory_query_pair (ch_api C) fs infos.
Proof.
  intros OK M Hf. apply state_at_inst in Hf as (ad & Hi). unfold ask_pair_info, contract_at.
  rewrite (inst_norm C OK w f _ (mn_fresh _ _ M) Hi). cbn [oget rbind]. rewrite Hi. reflexivity.
Qed.

(** C21: what the factory answers for two assets stays its answer for ever,
    and CreatePair for the same two assets in either order fails for everyone. *)
Theorem C21_registered_pair_stays C w lg w' f fs infos pi : chain_ok C -> reachable C w -> history C w lg w' ->
  fac_at w f fs -> ask_pair_info C w f infos = Ok pi ->
  ask_pair_info C w' f infos = Ok pi /\ ask_pair_info C w' f (infos.2, infos.1) = Ok pi /\
  forall n s reqs funds infos', infos' = infos \/ infos' = (infos.2, infos.1) ->
    exists e, exec C n w' s (MExecute f (JCreatePair infos' reqs) funds) = Err e.
Proof.
  intros OK Hr Hh Hf Hq. pose proof (reachable_main C OK w Hr) as M.
  destruct (history_main C OK w lg w' M Hh) as [M' _].
  assert (K : exists fs', fac_at w' f fs' /\ kept (f_pairs fs) fs').
  { assert (HJ : keep_J f (f_pairs fs) w) by (exists fs; split; [exact Hf|intros k pr; auto]).
    destruct (history_ind3 C OK _ _ _ w lg w' (keep_ok C OK f (f_pairs fs))) with (fs := fs) as (fs' & Hf' & Hk & _); auto.
    - intros w0 s m O E fs0 Hf0. left. reflexivity.
    - intros w0 blk M0 J0. apply keep_same; [exact J0|auto].
    - eauto. }
  destruct K as (fs' & Hf' & Hk).
  rewrite (ask_pair_info_at C w f fs infos OK M Hf) in Hq. rewrite !(ask_pair_info_at C w' f fs' _ OK M' Hf').
  unfold factory_query_pair in *. apply rbind_ok in Hq as (r0 & E0 & Hq). apply rbind_ok in Hq as (r1 & E1 & Hq).
  apply rbind_ok in Hq as (pr & Ep & Hq). apply oget_ok in Ep. apply Hk in Ep.
  cbn [fst snd]. rewrite E0, E1. cbn [rbind]. rewrite (pair_key_comm r1 r0), Ep. cbn [oget rbind].
  split; [exact Hq|]. split; [exact Hq|].
  intros n s reqs funds infos' Hi'. destruct n; [rewrite exec_0; eauto|]. rewrite exec_eq.
  apply state_at_inst in Hf' as (ad & Hi). rewrite (inst_norm C OK w' f _ (mn_fresh _ _ M') Hi). cbn [oget rbind].
  destruct (bank_send w' s f funds) as [w1|e] eqn:Eb; [|cbn; eauto]. cbn [rbind].
  rewrite (bm_insts _ _ _ _ _ (bank_send_ok _ _ _ _ _ Eb)), Hi. cbn [oget rbind i_state call].
  destruct infos as [i j]. cbn [fst snd] in *.
  destruct (C21_duplicate_refused (ch_api C) (wq C w1) f fs' i j r0 r1 reqs E0 E1 (ex_intro _ pr Ep)) as [(e1 & X1) (e2 & X2)].
  unfold factory_execute. destruct (jmsg_ranges _); cbn [negb]; [|cbn; eauto].
  destruct Hi' as [-> | ->]; [rewrite X1|rewrite X2]; cbn; eauto.
Qed.
(** The registered pair of token #1 and uaura, after its creation. *)
Example C21_case :
  let txs := [ex_swap; ex_provide; ex_withdraw] in
  reachable ex_chain ex_world /\ history ex_chain ex_world (log_of ex_world txs) (after ex_world txs) /\
  ask_pair_info ex_chain ex_world "#0" (Token "#1", Native "uaura") =
    Ok (PairInfo (Token "#1", Native "uaura") "#4" "#5" (6, 6) ex_wl) /\
  ask_pair_info ex_chain (after ex_world txs) "#0" (Native "uaura", Token "#1") =
    Ok (PairInfo (Token "#1", Native "uaura") "#4" "#5" (6, 6) ex_wl) /\
  is_ok (script (after ex_world txs) [(true, x_call "#0" (JCreatePair (Native "uaura", Token "#1") ex_wl))]) = false /\
  is_ok (script (after ex_world txs) [(true, x_call "#0" (JCreatePair (Native "uaura", Token "#2") ex_wl))]) = true.
Proof. split; [exact ex_reachable|]. split; [apply after_history|]. vm_compute. auto 12. Qed.

(** C20: alice hands the factory to bob, who changes the token code; alice can
    no longer change it. *)
Definition ex_admin : list (bool * cmsg) :=
  [(true, x_call "#0" (JUpdateConfig (Some "bob"%string) None (Some 1))); (false, x_call "#0" (JUpdateConfig None (Some 6) None))].
Definition fac_of (w : world) (f : string) : factory_state :=
  match state_at w f with Some (SFactory fs) => fs | _ => FactoryState "" 0 0 ∅ ∅ None end.
Lemma fac_of_at w f : match state_at w f with Some (SFactory _) => true | _ => false end = true -> fac_at w f (fac_of w f).
Proof. unfold fac_at, fac_of. destruct (state_at w f) as [[]|]; try discriminate. reflexivity. Qed.
Example C20_history_case :
  reachable ex_chain ex_world /\ history ex_chain ex_world (log_of ex_world ex_admin) (after ex_world ex_admin) /\
  fac_at ex_world "#0" (fac_of ex_world "#0") /\
  f_owner (fac_of ex_world "#0") = "alice"%string /\ f_token_code (fac_of ex_world "#0") = 2 /\
  f_owner (fac_of (after ex_world ex_admin) "#0") = "bob"%string /\ f_token_code (fac_of (after ex_world ex_admin) "#0") = 6 /\
  is_ok (script (after ex_world ex_admin) [(true, x_call "#0" (JUpdateConfig (Some "alice"%string) None None))]) = false.
Proof.
  split; [exact ex_reachable|]. split; [apply after_history|]. split; [apply fac_of_at; vm_compute; reflexivity|].
  vm_compute. auto 12.
Qed.

(** ** C23 *)

(** In [w], [f] has just been instantiated as a factory with these code ids. *)
Definition new_factory (C : chain) (w : world) (f : string) (pair_code token_code : N) : Prop :=
  exists w0 s adm code funds label lg, reachable C w0 /\ ch_codes C code = Some CFactory /\
    f = ch_fresh C (w_next w0) /\
    tx C w0 s (MInstantiate adm code (IFactory pair_code token_code) funds label) w lg.
Lemma new_factory_state C w f pc tc : chain_ok C -> new_factory C w f pc tc ->
  reachable C w /\ exists fs, fac_at w f fs /\ f_pair_code fs = pc /\ f_token_code fs = tc /\ f_pairs fs = ∅ /\ f_native fs = ∅.
Proof.
  intros OK (w0 & s & adm & code & funds & label & lg & Hr & Hc & -> & T). split; [eapply reach_tx; eauto|].
  destruct T as (O & n & r & E). destruct n; [rewrite exec_0 in E; discriminate|]. rewrite exec_eq, Hc in E. cbn [oget rbind] in E.
  apply rbind_ok in E as (ad & Ea & E). apply rbind_ok in E as (w1 & E1 & E). apply rbind_ok in E as ([st rsp] & Ei & E).
  cbn [init] in Ei. unfold wrap in Ei. apply rbind_ok in Ei as ([fs rsp'] & Ei & E'). injection E' as <- <-.
  unfold factory_instantiate in Ei. destruct (u64_ok pc && u64_ok tc); [|discriminate]. cbn [negb] in Ei.
  apply rbind_ok in Ei as (o & _ & Ei). injection Ei as <- <-. cbn [rs_msgs] in E.
  apply rbind_ok in E as ([w2 lg2] & Er & E). injection E as <- <- <-.
  destruct n; [rewrite run_0 in Er; discriminate|]. rewrite run_nil in Er. injection Er as <- <-.
  eexists. split; [unfold fac_at, state_at; cbn [set_insts w_insts]; rewrite lookup_insert; reflexivity|]. cbn. repeat split.
Qed.

(** While the factory's code ids are the pair and token contracts of the
    repository, every registered pair is real and was made by a CreatePair. *)
Lemma registry_real C w0 f pc tc lg w fs : chain_ok C -> new_factory C w0 f pc tc ->
  ch_codes C pc = Some CPair -> ch_codes C tc = Some CToken ->
  history C w0 lg w -> ~ called f (dishonest_update C) lg -> fac_at w f fs ->
  forall k pr, f_pairs fs !! k = Some pr -> real_pair C w f k pr /\ exists e, In e lg /\ made_by C f pr e.
Proof.
  intros OK Hn Hp Ht Hh Hd Hf. destruct (new_factory_state C w0 f pc tc OK Hn) as (Hr & fs0 & Hf0 & E1 & E2 & E3 & E4).
  pose proof (reachable_main C OK w0 Hr) as M.
  destruct (history_ind2 C OK _ _ w0 lg w (reg_ok C OK f)) with (fs := fs0) as (fs' & Hf' & _ & _ & G & Cr); auto.
  - intros w1 s m [_ O] -> _. exfalso. destruct Hn as (w2 & ? & ? & ? & ? & ? & ? & _ & _ & E & _). exact (O _ (eq_sym E)).
  - intros w1 blk M1. destruct (block_rel C w1 blk M1) as [_ R1]. eapply reg_same; [exact OK|exact R1|auto].
  - split; congruence.
  - rewrite E3. intros k pr Hk. rewrite lookup_empty in Hk. discriminate.
  - assert (fs' = fs) by (eapply fac_at_inj; eauto). subst fs'.
    intros k pr Hk. split; [auto|]. destruct (Cr _ _ Hk) as [X|X]; [|exact X]. rewrite E3, lookup_empty in X. discriminate.
Qed.

(** [pi] is an answer of the factory to Pair or in an answer to Pairs. *)
Definition listed (C : chain) (w : world) (f : string) (fs : factory_state) (pi : pair_info) : Prop :=
  (exists infos, ask_pair_info C w f infos = Ok pi) \/
  (exists start limit l, factory_query_pairs (ch_api C) fs start limit = Ok l /\ In pi l).
Lemma listed_record C w f fs pi : chain_ok C -> main C w -> fac_at w f fs -> listed C w f fs pi ->
  exists k pr, f_pairs fs !! k = Some pr /\ pair_to_normal (ch_api C) pr = Ok pi.
Proof.
  intros OK M Hf [(infos & H)|(start & limit & l & H & I)].
  - rewrite (ask_pair_info_at C w f fs infos OK M Hf) in H. unfold factory_query_pair in H.
    apply rbind_ok in H as (r0 & _ & H). apply rbind_ok in H as (r1 & _ & H). apply rbind_ok in H as (pr & E & H).
    apply oget_ok in E. eauto.
  - unfold factory_query_pairs, read_pairs in H. apply rbind_ok in H as (s & _ & H). apply rmap_Forall2 in H.
    set (src := match s with Some i => _ | None => _ end) in H.
    assert (Sub : forall x, In x src -> In x (pairs_sorted (f_pairs fs))).
    { intros x. unfold src. destruct s; [|auto]. intros X. apply filter_In in X. tauto. }
    clearbody src.
    assert (X : exists x, In x (take (page_limit limit) src) /\ pair_to_normal (ch_api C) x.2 = Ok pi).
    { induction H as [|x y xs ys Hxy H IH]; [destruct I|]. destruct I as [->|I]; [exists x; split; [left; reflexivity|exact Hxy]|].
      destruct (IH I) as (z & Hz & E). exists z. split; [right; exact Hz|exact E]. }
    destruct X as ([k pr] & Hin & E). exists k, pr. split; [|exact E]. apply pairs_sorted_elem, elem_of_list_In, Sub.
    apply elem_of_list_In in Hin. apply elem_of_take in Hin as (n & Hn & _). apply elem_of_list_In, elem_of_list_lookup. eauto.
Qed.

(** C23: while the factory's code ids stand for the pair and token contracts of
    the repository, every pair it lists is a pair contract that the factory
    created and administers, whose own Pair query gives the very same answer,
    and whose LP token only that pair can mint. *)
Theorem C23_listed_pairs_are_real C w0 f pc tc lg w fs pi : chain_ok C -> new_factory C w0 f pc tc ->
  ch_codes C pc = Some CPair -> ch_codes C tc = Some CToken ->
  history C w0 lg w -> ~ called f (dishonest_update C) lg -> fac_at w f fs -> listed C w f fs pi ->
  ask_pair_self C w (p_contract_addr pi) = Ok pi /\
  (exists ps, w_insts w !! p_contract_addr pi = Some (Inst (Some f) (SPair ps))) /\
  (exists ts, tok_at w (p_liquidity_token pi) ts /\ tk_mint ts = Some (p_contract_addr pi, None)) /\
  (exists e infos, In e lg /\ ev_contract e = f /\ ev_msg e = JCreatePair infos (p_requirements pi) /\
     forall i j, (i = infos.1 /\ j = (p_asset_infos pi).1) \/ (i = infos.2 /\ j = (p_asset_infos pi).2) ->
       match i, j with
       | Native d, Native d' => d' = d
       | Token t, Token t' => norm (ch_api C) t = Some t'
       | _, _ => False
       end).
Proof.
  intros OK Hn Hp Ht Hh Hd Hf Hl. destruct (new_factory_state C w0 f pc tc OK Hn) as (Hr & _).
  pose proof (reachable_main C OK w0 Hr) as M0. destruct (history_main C OK w0 lg w M0 Hh) as [M _].
  destruct (listed_record C w f fs pi OK M Hf Hl) as (k & pr & Hk & E).
  destruct (registry_real C w0 f pc tc lg w fs OK Hn Hp Ht Hh Hd Hf k pr Hk) as [(Ek & p & t & ts & ps & Hhp & Hi & -> & Hhl & Htk & Hm) (e & Ie & Me)].
  pose proof E as E'. unfold pair_to_normal in E'. unfold addr_humanize in E'. rewrite Hhp, Hhl in E'. cbn [oget rbind] in E'.
  apply rbind_ok in E' as (i0 & E0 & E'). apply rbind_ok in E' as (i1 & E1 & E'). injection E' as <-.
  cbn [p_contract_addr p_liquidity_token p_requirements p_asset_infos fst snd] in *.
  split; [|split; [eauto|split; [eauto|]]].
  - unfold ask_pair_self, contract_at. rewrite (inst_norm C OK w p _ (mn_fresh _ _ M) Hi). cbn [oget rbind]. rewrite Hi. cbn [oget rbind i_state].
    exact E.
  - destruct Me as (infos & reqs & Ec & Em & R0 & R1 & Eq & _). exists e, infos. split; [exact Ie|]. split; [exact Ec|].
    split; [congruence|].
    assert (X : forall i r j, info_to_raw (ch_api C) i = Ok r -> raw_to_normal (ch_api C) r = Ok j ->
      match i, j with Native d, Native d' => d' = d | Token t, Token t' => norm (ch_api C) t = Some t' | _, _ => False end).
    { intros i r j H1 H2. destruct i as [a|d]; cbn in H1.
      - apply rbind_ok in H1 as (c & Hc & H1). apply addr_canonicalize_ok in Hc. injection H1 as <-. cbn in H2.
        apply rbind_ok in H2 as (h & Hh2 & H2). injection H2 as <-. unfold addr_humanize in Hh2. apply oget_ok in Hh2.
        unfold norm. rewrite Hc. exact Hh2.
      - injection H1 as <-. cbn in H2. injection H2 as <-. reflexivity. }
    intros i j [[-> ->]|[-> ->]]; eapply X; eassumption.
Qed.

(** ** C25 *)
Definition registers (d : string) (m : jmsg) : Prop := exists n, m = JAddNativeTokenDecimals d n.
Lemma replay_decimals C f d n s l s' : replay C f s l s' -> se_decimals s' d = Some n ->
  (se_decimals s d = Some n /\ ~ called f (registers d) l) \/
  exists la e lb fs, l = la ++ e :: lb /\ ev_contract e = f /\ ev_msg e = JAddNativeTokenDecimals d n /\
    fac_at (ev_world e) f fs /\ canon (ch_api C) (ev_sender e) = Some (f_owner fs) /\ ~ called f (registers d) lb.
Proof.
  intros R E. induction R as [s|s e s1 lg s' Hw Hs R IH]; [left; split; [exact E|apply called_nil]|].
  destruct (IH E) as [[E1 Hn]|(la & e' & lb & fs & -> & X)].
  - unfold settings_step in Hs. destruct (decide (ev_contract e = f)) as [D|D].
    2:{ subst s1. left. split; [exact E1|]. rewrite called_cons. tauto. }
    assert (Keep : se_decimals s1 d = se_decimals s d -> (forall d', ev_msg e <> JAddNativeTokenDecimals d d') ->
      se_decimals s d = Some n /\ ~ called f (registers d) (e :: lg)).
    { intros E2 Hm. split; [congruence|]. rewrite called_cons. intros [(_ & m & Y)|Y]; [exact (Hm _ Y)|exact (Hn Y)]. }
    destruct (ev_msg e) as [| | | | | | | | | | | | | | | | |o t p| |d0 n0| |] eqn:Em; try (left; apply Keep; [congruence|discriminate]).
    + destruct Hs as (_ & _ & _ & _ & Hd). left. apply Keep; [apply Hd|discriminate].
    + destruct Hs as (Ho & _ & _ & _ & Hd). specialize (Hd d). case_decide as Dd.
      * subst d0. right. destruct (Hw D) as (fs & Hf & <-). exists [], e, lg, fs. split; [reflexivity|]. split; [exact D|].
        split; [congruence|]. auto.
      * left. apply Keep; [exact Hd|congruence].
  - right. exists (e :: la), e', lb, fs. split; [reflexivity|exact X].
Qed.

Lemma accepted_factory C e fs : accepted C e -> fac_at (ev_world e) (ev_contract e) fs ->
  exists fs' rsp, factory_execute (ch_api C) (wq C (ev_world e)) (ev_contract e) fs (ev_sender e) (ev_msg e) = Ok (fs', rsp).
Proof.
  intros (_ & i & st & rsp & Hi & Hc & _) Hf. unfold fac_at, state_at in Hf. rewrite Hi in Hf. cbn in Hf. injection Hf as E.
  rewrite E in Hc. cbn [call] in Hc. unfold wrap in Hc. apply rbind_ok in Hc as ([fs' r'] & Hc & _). eauto.
Qed.

(** C25: a native asset is used in CreatePair only after the then owner
    registered its decimals while the factory held some of it, and the decimals
    used are those registered last. *)
Theorem C25_native_needs_registration C w0 f pc tc lg w l1 e l2 infos reqs d :
  chain_ok C -> new_factory C w0 f pc tc -> history C w0 lg w ->
  lg = l1 ++ e :: l2 -> ev_contract e = f -> ev_msg e = JCreatePair infos reqs ->
  infos.1 = Native d \/ infos.2 = Native d ->
  exists la e0 lb n fs0, l1 = la ++ e0 :: lb /\ ev_contract e0 = f /\ ev_msg e0 = JAddNativeTokenDecimals d n /\
    fac_at (ev_world e0) f fs0 /\ canon (ch_api C) (ev_sender e0) = Some (f_owner fs0) /\
    0 < bal (ev_world e0) f d /\ ~ called f (registers d) lb /\
    ask_native_decimals C (ev_world e) f d = Ok n.
Proof.
  intros OK Hn Hh -> Ec Em Hd. destruct (new_factory_state C w0 f pc tc OK Hn) as (Hr & fs & Hf & _ & _ & _ & En).
  pose proof (reachable_main C OK w0 Hr) as M.
  pose proof (log_accepted C w0 _ w OK M Hh) as Ha. apply Forall_app in Ha as [Ha1 Ha2]. inversion Ha2 as [|? ? Ha _]; subst.
  destruct (C20_only_owner_administers C w0 _ w (ev_contract e) fs OK Hr Hh Hf) as (fs' & _ & Rp).
  apply replay_split in Rp as (s1 & R1 & R2). inversion R2 as [|? ? ? ? ? Hw _ _]; subst.
  destruct (Hw eq_refl) as (fse & Hfe & <-). clear Hw R2.
  destruct (accepted_factory C e fse Ha Hfe) as (fs2 & rsp & E). rewrite Em in E.
  apply C25_decimals_of_created_pair in E as (d0 & d1 & Hq & _).
  assert (X : exists n, ask_native_decimals C (ev_world e) (ev_contract e) d = Ok n).
  { destruct Hd as [Hd|Hd].
    - specialize (Hq infos.1 d0 (or_introl (conj eq_refl eq_refl))). rewrite Hd in Hq. exists d0. exact Hq.
    - specialize (Hq infos.2 d1 (or_intror (conj eq_refl eq_refl))). rewrite Hd in Hq. exists d1. exact Hq. }
  destruct X as (n & X).
  assert (Y : se_decimals (settings_of fse) d = Some n).
  { unfold ask_native_decimals, contract_at in X. destruct Ha as (Me & _). pose proof Hfe as Hfe'. apply state_at_inst in Hfe' as (ad & Hi).
    rewrite (inst_norm C OK _ _ _ (mn_fresh _ _ Me) Hi) in X. cbn [oget rbind] in X. rewrite Hi in X. cbn [oget rbind i_state] in X.
    unfold factory_query_native in X. apply oget_ok in X. exact X. }
  destruct (replay_decimals _ _ _ _ _ _ _ R1 Y) as [[Z _]|(la & e0 & lb & fs0 & El & Ec0 & Em0 & Hf0 & Ho & Hlb)].
  - cbn in Z. rewrite En, lookup_empty in Z. discriminate.
  - exists la, e0, lb, n, fs0. repeat (split; [assumption|]).
    assert (Ha0 : accepted C e0). { rewrite El in Ha1. apply Forall_app in Ha1 as [_ Ha1]. inversion Ha1; assumption. }
    split; [|auto].
    destruct (accepted_factory C e0 fs0 Ha0) as (fs3 & rsp0 & E0); [rewrite Ec0; exact Hf0|]. rewrite Em0 in E0.
    apply C25_registration_needs_balance in E0 as (b & Eb & Lb & _). cbn [wq q_balance] in Eb.
    unfold ask_balance in Eb. apply rbind_ok in Eb as (a' & Ea & Eb). apply oget_ok in Ea.
    destruct Ha0 as (M0 & _). apply state_at_inst in Hf0 as (ad & Hi0). rewrite Ec0 in Ea.
    rewrite (inst_norm C OK _ _ _ (mn_fresh _ _ M0) Hi0) in Ea. injection Ea as <-.
    unfold in_u128 in Eb. cbn [rbind] in Eb. destruct (bal (ev_world e0) (ev_contract e) d <? B128); [|discriminate]. congruence.
Qed.

(** The pair the factory lists has the decimals registered, respectively
    reported by the cw20, when it was created. *)
Theorem C25_recorded_decimals C w0 f pc tc lg w fs pi : chain_ok C -> new_factory C w0 f pc tc ->
  ch_codes C pc = Some CPair -> ch_codes C tc = Some CToken ->
  history C w0 lg w -> ~ called f (dishonest_update C) lg -> fac_at w f fs -> listed C w f fs pi ->
  exists e infos reqs, In e lg /\ ev_contract e = f /\ ev_msg e = JCreatePair infos reqs /\
    forall i d, (i = infos.1 /\ d = (p_asset_decimals pi).1) \/ (i = infos.2 /\ d = (p_asset_decimals pi).2) ->
      match i with
      | Native n => ask_native_decimals C (ev_world e) f n = Ok d
      | Token t => exists ti, ask_token_info C (ev_world e) t = Ok ti /\ ti_decimals ti = d
      end.
Proof.
  intros OK Hn Hp Ht Hh Hd Hf Hl. destruct (new_factory_state C w0 f pc tc OK Hn) as (Hr & _).
  pose proof (reachable_main C OK w0 Hr) as M0. destruct (history_main C OK w0 lg w M0 Hh) as [M _].
  destruct (listed_record C w f fs pi OK M Hf Hl) as (k & pr & Hk & E).
  destruct (registry_real C w0 f pc tc lg w fs OK Hn Hp Ht Hh Hd Hf k pr Hk) as [_ (e & Ie & infos & reqs & Ec & Em & _ & _ & _ & _ & X)].
  exists e, infos, reqs. split; [exact Ie|]. split; [exact Ec|]. split; [exact Em|].
  unfold pair_to_normal in E. apply rbind_ok in E as (? & _ & E). apply rbind_ok in E as (? & _ & E).
  apply rbind_ok in E as (? & _ & E). apply rbind_ok in E as (? & _ & E). injection E as <-. exact X.
Qed.

(** ** The example chain *)
Definition ex_first : world := after ex_genesis [(true, MInstantiate None 3 (IFactory 1 2) [] "factory")%string].
Lemma ex_new_factory : new_factory ex_chain ex_first "#0" 1 2.
Proof.
  exists ex_genesis, "alice"%string, None, 3, [], "factory"%string, (log_of ex_genesis [(true, MInstantiate None 3 (IFactory 1 2) [] "factory")%string]).
  split; [apply reach_genesis|]. split; [reflexivity|]. split; [reflexivity|].
  apply (one_tx ex_genesis true). vm_compute. reflexivity.
Qed.
(** A log without dishonest updates. *)
Definition honest_log (lg : list event) : bool :=
  forallb (fun e => match ev_msg e with JUpdateConfig _ _ _ => false | _ => true end) lg.
Lemma honest_log_ok C f lg : honest_log lg = true -> ~ called f (dishonest_update C) lg.
Proof.
  intros H (e & I & _ & (o & t & p & E & _)). unfold honest_log in H. rewrite forallb_forall in H. specialize (H e I). rewrite E in H. discriminate.
Qed.
Definition ex_rest : list (bool * cmsg) := tail ex_setup.
Example C23_case :
  new_factory ex_chain ex_first "#0" 1 2 /\ ch_codes ex_chain 1 = Some CPair /\ ch_codes ex_chain 2 = Some CToken /\
  history ex_chain ex_first (log_of ex_first ex_rest) (after ex_first ex_rest) /\
  ~ called "#0" (dishonest_update ex_chain) (log_of ex_first ex_rest) /\
  fac_at (after ex_first ex_rest) "#0" (fac_of (after ex_first ex_rest) "#0") /\
  listed ex_chain (after ex_first ex_rest) "#0" (fac_of (after ex_first ex_rest) "#0")
    (PairInfo (Token "#1", Native "uaura") "#4" "#5" (6, 6) ex_wl)%string /\
  size (f_pairs (fac_of (after ex_first ex_rest) "#0")) = 2%nat.
Proof.
  split; [exact ex_new_factory|]. split; [reflexivity|]. split; [reflexivity|]. split; [apply after_history|].
  split; [apply honest_log_ok; vm_compute; reflexivity|]. split; [apply fac_of_at; vm_compute; reflexivity|].
  split; [|vm_compute; reflexivity]. left. exists (Native "uaura", Token "#1")%string. vm_compute. reflexivity.
Qed.
(** The same history has a CreatePair with the native asset uaura. *)
Example C25_case :
  In ("#0", JCreatePair (Token "#1", Native "uaura") ex_wl)%string (calls (log_of ex_first ex_rest)) /\
  In ("#0", JAddNativeTokenDecimals "uaura" 6)%string (calls (log_of ex_first ex_rest)).
Proof. vm_compute. auto 12. Qed.

(** Without the condition on code ids C23 is false: the owner can point the
    factory to other code, and then a registered pair need not exist. *)
Theorem C23_listed_pairs_are_real_refuted : exists C w0 f lg w fs pi, chain_ok C /\ new_factory C w0 f 1 2 /\
  ch_codes C 1 = Some CPair /\ ch_codes C 2 = Some CToken /\ history C w0 lg w /\ fac_at w f fs /\ listed C w f fs pi /\
  forall ps, state_at w (p_contract_addr pi) <> Some (SPair ps).
Proof.
  set (txs := ex_rest ++ [(true, x_call "#0" (JUpdateConfig None None (Some 6))); (true, x_call "#0" (JCreatePair (Token "#2", Native "uaura") ex_wl))]%string).
  exists ex_chain, ex_first, "#0"%string, (log_of ex_first txs), (after ex_first txs), (fac_of (after ex_first txs) "#0"),
    (PairInfo (Token "#2", Native "uaura") "#9" "bob" (6, 6) (Requirements [] 0 0))%string.
  split; [exact ex_chain_ok|]. split; [exact ex_new_factory|]. split; [reflexivity|]. split; [reflexivity|].
  split; [apply after_history|]. split; [apply fac_of_at; vm_compute; reflexivity|].
  split; [left; exists (Native "uaura", Token "#2")%string; vm_compute; reflexivity|].
  intros ps. vm_compute. discriminate.
Qed.
