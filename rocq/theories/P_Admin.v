(** Administration of a factory: exactly when it is executed and what it does
    (C64). *)
From Verif Require Import Base BigNumber CwStd BigNumberFacts Asset Messages PairMath Pair PairFacts Token Factory Router
  SwapFacts SwapFacts2 P_Swap P_Pair FactoryFacts P_Factory P_Router TokenFacts World WorldInd WorldFacts WorldInv WorldInd2
  Examples WorldExamples P_Ledger P_Registry ExecFacts P_Exec.
From Coq Require Import ZifyN.
Local Open Scope N_scope.
Ltac Zify.zify_post_hook ::= idtac.

(** ** Specification *)

(** What anybody can read of a factory: its Config and NativeTokenDecimals
    queries. *)
Definition config_query (C : chain) (w : world) (f : string) : res (string * N * N) :=
  let* '(_, s) := contract_at C w f in match s with SFactory fs => factory_query_config (ch_api C) fs | _ => Err EParse end.
(** [s] is the owner [f] reports. *)
Definition owns (C : chain) (w : world) (f s : string) : Prop :=
  exists o tc pc, config_query C w f = Ok (o, tc, pc) /\ norm (ch_api C) s = Some o.
Definition fits64 (o : option N) : Prop := forall n, o = Some n -> n < 2 ^ 64.
(** Everything but the instance at [f] is as before. *)
Definition only_changed (f : string) (w w' : world) : Prop :=
  w_bank w' = w_bank w /\ forall a, a <> f -> w_insts w' !! a = w_insts w !! a.

(** ** Local invariants *)
Section local.
Context (C : chain) (OK : chain_ok C) (P : cstate -> Prop).
Record local_inv : Prop := {
  li_init : forall w a k s funds m st rsp, init C w a k s funds m = Ok (st, rsp) -> P st;
  li_call : forall w a st0 s funds m st rsp, P st0 -> call C w a st0 s funds m = Ok (st, rsp) -> P st;
  li_reply : forall w a st0 id b r st rsp, P st0 -> reply C w a st0 id b r = Ok (st, rsp) -> P st;
  li_adv : forall k d, P (SAdv k d);
}.
Definition everywhere (w : world) : Prop := forall a s, state_at w a = Some s -> P s.
Lemma everywhere_set w a s : is_Some (w_insts w !! a) -> everywhere w -> P s -> everywhere (set_state w a s).
Proof. intros Hi H Hs x st. rewrite state_at_set by exact Hi. case_decide; [intros E; injection E as <-; exact Hs|apply H]. Qed.
Lemma everywhere_same w w' : w_insts w' = w_insts w -> everywhere w -> everywhere w'.
Proof. intros E H a s. unfold state_at. rewrite E. apply H. Qed.
Lemma local_ind2 : local_inv -> ind2_ok C (fun w w' _ => everywhere w -> everywhere w') (fun _ _ _ => True).
Proof.
  intros L. assert (Fo : forall l : list submsg, Forall (fun _ => True) l) by (induction l; constructor; auto).
  split.
  - auto.
  - auto.
  - auto.
  - intros w s ro to cs w' to' _ _ _ _ Hb _ _ H. eapply everywhere_same; [apply (bm_insts _ _ _ _ _ Hb)|exact H].
  - intros w s ro c msg funds a w1 i st rsp n w3 lg M _ _ _ Hb Hs Hi Hc w2 _ _ _ _ _ _. right. split; [apply Fo|].
    intros H He. apply H. unfold w2. apply everywhere_set; [eauto|eapply everywhere_same; [apply (bm_insts _ _ _ _ _ Hb)|exact He]|].
    eapply (li_call L); [|exact Hc]. eapply He. exact Hs.
  - intros w s ro ad code msg funds label k adm w1 st rsp n w3 lg M _ _ _ _ a Hb Hc w2 _ S Hn _ _ _ _. right. split; [apply Fo|].
    intros H He. apply H. intros x s0. rewrite S. case_decide; [intros E; injection E as <-; eapply (li_init L); exact Hc|apply He].
  - intros w s ro c code a i k st M _ _ _ Hi _ _ Hm _ _ He. apply everywhere_set; [eauto|exact He|].
    assert (X : P (i_state i)) by (apply (He a); unfold state_at; rewrite Hi; reflexivity).
    destruct (i_state i), k; cbn [migrated] in Hm; try discriminate; rewrite ?(no_takeover C OK) in Hm; try discriminate; injection Hm as <-; try exact X. apply (li_adv L).
  - intros w a adm M _ _ He x s. rewrite admin_state. apply He.
  - intros w a sm rest n w' r lg id i st rsp _ _ _ _ _ _ _ _ Hi Hr w2 _ _. split; [apply Fo|].
    intros He. apply everywhere_set; [eauto|exact He|]. eapply (li_reply L); [|exact Hr]. apply (He a). unfold state_at. rewrite Hi. reflexivity.
  - intros w a sm rest id k d st rsp _ _ _ _ Hs _ w2 _ _. split; [apply Fo|].
    intros He. apply everywhere_set; [apply state_at_inst in Hs as (ad & Hi); eauto|exact He|apply (li_adv L)].
Qed.
Lemma reachable_everywhere w : local_inv -> reachable C w -> everywhere w.
Proof.
  intros L Hr. induction Hr as [b blk|w s m w' lg Hr IH (O & f & r & E)|w blk Hr IH _ _].
  - intros a s. unfold state_at. cbn [w_insts]. rewrite lookup_empty. discriminate.
  - exact (exec_ind2 C OK _ _ (local_ind2 L) f w s m w' r lg E (reachable_main C OK w Hr) O I IH).
  - eapply everywhere_same; [|exact IH]. reflexivity.
Qed.
End local.

(** ** Lemmas *)
Section admin.
Context (C : chain) (OK : chain_ok C).
Local Notation A := (ch_api C).

Lemma config_query_at w f fs : sane C w -> fac_at w f fs -> config_query C w f = factory_query_config A fs.
Proof.
  intros Sn Hf. unfold config_query, contract_at. rewrite (sane_norm C OK _ _ _ Sn Hf). cbn [oget rbind].
  pose proof Hf as Hi. apply state_at_inst in Hi as (ad & Hi). rewrite Hi. reflexivity.
Qed.
Lemma owns_canon w f fs s : sane C w -> fac_at w f fs -> (exists o, human A (f_owner fs) = Some o) ->
  owns C w f s <-> canon A s = Some (f_owner fs).
Proof.
  intros Sn Hf (o & Ho). unfold owns. rewrite (config_query_at w f fs) by assumption. unfold factory_query_config, addr_humanize. rewrite Ho. cbn [oget rbind].
  unfold norm. split.
  - intros (o' & tc & pc & E & H). injection E as <- _ _. destruct (canon A s) as [c|]; [|discriminate].
    f_equal. exact (human_inj C OK _ _ _ H Ho).
  - intros ->. eexists _, _, _. split; [reflexivity|exact Ho].
Qed.
Lemma fac_exec w f fs s m g : sane C w -> fac_at w f fs ->
  exec C (S g) w s (MExecute f m []) =
  let* '(fs', rsp) := factory_execute A (wq C w) f fs s m in
  let* '(w2, lg) := run C g (set_state w f (SFactory fs')) f (rs_msgs rsp) in
  Ok (w2, None, Event f s m (rs_attrs rsp) [] w :: lg).
Proof.
  intros Sn Hf. rewrite exec_eq, (sane_norm C OK _ _ _ Sn Hf). cbn [oget rbind]. rewrite bank_send_none. cbn [rbind].
  pose proof Hf as Hi. apply state_at_inst in Hi as (ad & Hi). rewrite Hi. cbn [oget rbind i_state call].
  destruct (factory_execute _ _ _ _ _ _) as [[fs' rsp]|e]; reflexivity.
Qed.
Lemma owner_only_iff fs s : owner_only A fs s = Ok tt <-> canon A s = Some (f_owner fs).
Proof.
  unfold owner_only, addr_canonicalize. destruct (canon A s) as [c|]; cbn [oget rbind]; [|split; discriminate].
  rewrite require_ok, bool_decide_eq_true. split; congruence.
Qed.

(** What every factory stores. *)
Definition fac_fine (s : cstate) : Prop :=
  match s with
  | SFactory fs => (exists o, human A (f_owner fs) = Some o) /\ f_pair_code fs < 2 ^ 64 /\ f_token_code fs < 2 ^ 64 /\
      forall d n, f_native fs !! d = Some n -> n < 256
  | _ => True
  end.
Lemma fac_fine_inv : local_inv C fac_fine.
Proof.
  split.
  - intros w a k s funds m st rsp H. destruct k, m; cbn [init] in H; try discriminate;
      try (unfold wrap in H; try (destruct (_ && _); [|discriminate]); apply rbind_ok in H as ([x y] & H & E); injection E as <- _; exact I).
    unfold wrap in H. apply rbind_ok in H as ([x y] & H & E). injection E as <- _. unfold factory_instantiate in H.
    match type of H with context [negb (?x && ?y)] => destruct (x && y) eqn:R; [|discriminate] end. cbn [negb] in H. unfold u64_ok in R. bools.
    apply rbind_ok in H as (c & Hc & H). apply addr_canonicalize_ok in Hc. injection H as <- _. cbn [fac_fine f_owner f_pair_code f_token_code f_native].
    split; [exact (api_canon_human C OK _ _ Hc)|]. do 2 (split; [assumption|]). intros d n X. rewrite lookup_empty in X. discriminate.
  - intros w a st0 s funds m st rsp H0 H. destruct st0; cbn [call] in H; unfold wrap in H; apply rbind_ok in H as ([x y] & H & E); injection E as <- _; try exact I.
    destruct H0 as (Ho & Hp & Ht & Hn). pose proof H as H'. unfold factory_execute in H'. destruct (jmsg_ranges m) eqn:Rg in H'; [|discriminate]. clear H'.
    apply factory_execute_inv in H as [(o & t & p & -> & H)|[(i & r & -> & H)|[(d & n & -> & _ & H)|(c & k & -> & H)]]].
    + unfold update_config in H. apply rbind_ok in H as ([] & _ & H). apply rbind_ok in H as (o' & Eo & H). injection H as <- _.
      cbn [fac_fine f_owner f_pair_code f_token_code f_native]. cbn [jmsg_ranges] in Rg. apply andb_prop in Rg as [R1 R2].
      split. { destruct o as [a0|]; [|injection Eo as <-; exact Ho]. apply rbind_ok in Eo as (? & _ & Eo). apply addr_canonicalize_ok in Eo. exact (api_canon_human C OK _ _ Eo). }
      split. { destruct p; [|exact Hp]. cbn [ou64_ok] in R2. unfold u64_ok in R2. bools. assumption. }
      split; [|exact Hn]. destruct t; [|exact Ht]. cbn [ou64_ok] in R1. unfold u64_ok in R1. bools. assumption.
    + apply create_pair_inv in H as (d0 & d1 & r0 & r1 & _ & _ & _ & _ & _ & _ & -> & _). exact (conj Ho (conj Hp (conj Ht Hn))).
    + unfold add_native in H. apply rbind_ok in H as ([] & _ & H). apply rbind_ok in H as (b & _ & H). apply rbind_ok in H as (? & _ & H). injection H as <- _.
      cbn [fac_fine f_owner f_pair_code f_token_code f_native]. split; [exact Ho|]. do 2 (split; [assumption|]).
      intros d' n'. destruct (decide (d' = d)) as [->|D]; [|rewrite lookup_insert_ne by congruence; apply Hn].
      rewrite lookup_insert. intros X. injection X as <-. cbn [jmsg_ranges] in Rg. unfold u8_ok in Rg. bools. assumption.
    + unfold migrate_pair in H. apply rbind_ok in H as ([] & _ & H). injection H as <- _. exact (conj Ho (conj Hp (conj Ht Hn))).
  - intros w a st0 id b r st rsp H0 H. destruct st0; cbn [reply] in H; try discriminate; try (destruct r; try discriminate);
      unfold wrap in H; apply rbind_ok in H as ([x y] & H & E); injection E as <- _; try exact I.
    apply factory_reply_inv in H as (? & ? & ? & ? & _ & _ & _ & _ & -> & _). exact H0.
  - intros; exact I.
Qed.
Lemma reachable_fac w f fs : reachable C w -> fac_at w f fs -> fac_fine (SFactory fs).
Proof. intros Hr Hf. exact (reachable_everywhere C OK fac_fine w fac_fine_inv Hr f _ Hf). Qed.

(** An executed call without messages. *)
Lemma fac_quiet w f fs s m : sane C w -> fac_at w f fs -> 
  (forall fs' rsp, factory_execute A (wq C w) f fs s m = Ok (fs', rsp) -> rs_msgs rsp = []) ->
  (exists w', succeeds C w s (MExecute f m []) w') <-> exists fs' rsp, factory_execute A (wq C w) f fs s m = Ok (fs', rsp).
Proof.
  intros Sn Hf Hq. split.
  - intros (w' & k & H). destruct (H (S k)) as (lg & E); [lia|]. rewrite (fac_exec w f fs) in E by assumption.
    apply rbind_ok in E as ([fs' rsp] & E & _). eauto.
  - intros (fs' & rsp & E). exists (set_state w f (SFactory fs')), 2%nat. intros g Hg. destruct g as [|[|g]]; [lia|lia|].
    rewrite (fac_exec w f fs) by assumption. rewrite E. cbn [rbind]. rewrite (Hq _ _ E). rewrite run_nil. cbn [rbind]. eauto.
Qed.
Lemma fac_quiet_effect w f fs s m g w' z lg : sane C w -> fac_at w f fs -> 
  (forall fs' rsp, factory_execute A (wq C w) f fs s m = Ok (fs', rsp) -> rs_msgs rsp = []) ->
  exec C g w s (MExecute f m []) = Ok (w', z, lg) ->
  exists fs' rsp, factory_execute A (wq C w) f fs s m = Ok (fs', rsp) /\ sane C w' /\ fac_at w' f fs' /\ only_changed f w w'.
Proof.
  intros Sn Hf Hq E. destruct g; [rewrite exec_0 in E; discriminate|]. rewrite (fac_exec w f fs) in E by assumption.
  apply rbind_ok in E as ([fs' rsp] & Ec & E). apply rbind_ok in E as ([w2 lg2] & Er & E). rewrite (Hq _ _ Ec) in Er.
  destruct g; [rewrite run_0 in Er; discriminate|]. rewrite run_nil in Er. injection Er as <- _. injection E as <- _ _.
  exists fs', rsp. split; [exact Ec|]. assert (Hi : is_Some (w_insts w !! f)) by (apply state_at_inst in Hf as (ad & Hi); eauto).
  split; [|split; [unfold fac_at; rewrite state_at_set by exact Hi; apply decide_True; reflexivity|]].
  - destruct Sn as [F T]. split.
    + intros a. rewrite set_state_next, <- (F a), set_state_insts. case_decide; [subst|tauto].
      destruct (w_insts w !! f) eqn:Ei; cbn; split; intros [x X]; try discriminate; eauto.
    + intros t ts Ht. unfold tok_at in Ht. rewrite state_at_set in Ht by exact Hi. case_decide; [discriminate|]. eapply T; eauto.
  - split; [apply set_state_bank|]. intros a Ha. rewrite set_state_insts. apply decide_False. exact Ha.
Qed.
Lemma native_at w f fs d : sane C w -> fac_at w f fs -> ask_native_decimals C w f d = factory_query_native fs d.
Proof.
  intros Sn Hf. unfold ask_native_decimals, contract_at. rewrite (sane_norm C OK _ _ _ Sn Hf). cbn [oget rbind].
  pose proof Hf as Hi. apply state_at_inst in Hi as (ad & Hi). rewrite Hi. reflexivity.
Qed.
Lemma pair_info_at w f fs i : sane C w -> fac_at w f fs -> ask_pair_info C w f i = factory_query_pair A fs i.
Proof.
  intros Sn Hf. unfold ask_pair_info, contract_at. rewrite (sane_norm C OK _ _ _ Sn Hf). cbn [oget rbind].
  pose proof Hf as Hi. apply state_at_inst in Hi as (ad & Hi). rewrite Hi. reflexivity.
Qed.
End admin.

(** ** C64 *)

(** The Config query always answers, with an address that is valid as such. *)
Theorem C64_config_answers C w f fs : chain_ok C -> reachable C w -> fac_at w f fs ->
  exists o tc pc, config_query C w f = Ok (o, tc, pc) /\ norm (ch_api C) o = Some o /\ tc < 2 ^ 64 /\ pc < 2 ^ 64.
Proof.
  intros OK Hr Hf. pose proof (main_sane C w (reachable_main C OK w Hr)) as Sn. destruct (reachable_fac C OK w f fs Hr Hf) as ((o & Ho) & Hp & Ht & _).
  rewrite (config_query_at C OK w f fs) by assumption. unfold factory_query_config, addr_humanize. rewrite Ho. cbn [oget rbind].
  exists o, (f_token_code fs), (f_pair_code fs). split; [reflexivity|]. split; [exact (human_norm C OK _ _ Ho)|]. auto.
Qed.

Lemma in_u128_ok n m : in_u128 (Ok n) = Ok m <-> m = n /\ n < 2 ^ 128.
Proof. unfold in_u128. cbn [rbind]. destruct (N.ltb_spec n B128) as [L|L]; change B128 with (2 ^ 128) in L; (split; [intros X; try discriminate; injection X as <-; auto|intros [-> H]; try reflexivity; lia]). Qed.
Lemma ou64_fits o : ou64_ok o = true <-> fits64 o.
Proof.
  unfold fits64. destruct o as [n|]; cbn [ou64_ok]; [|split; [discriminate|reflexivity]].
  unfold u64_ok. rewrite N.ltb_lt. split; [intros H m E; injection E as <-; exact H|intros H; apply (H n); reflexivity].
Qed.

(** UpdateConfig is executed exactly for the owner, a valid new owner and code
    ids in range ... *)
Theorem C64_update_config_iff C w f fs s o t p : chain_ok C -> reachable C w -> fac_at w f fs ->
  (exists w', succeeds C w s (MExecute f (JUpdateConfig o t p) []) w') <->
  owns C w f s /\ (forall a, o = Some a -> norm (ch_api C) a = Some a) /\ fits64 t /\ fits64 p.
Proof.
  intros OK Hr Hf. pose proof (main_sane C w (reachable_main C OK w Hr)) as Sn. destruct (reachable_fac C OK w f fs Hr Hf) as (Ho & _).
  rewrite (owns_canon C OK w f fs s Sn Hf Ho). rewrite (fac_quiet C OK w f fs) by (try assumption; intros fs' rsp E; apply C20_call_effects in E; tauto).
  unfold factory_execute. cbn [jmsg_ranges]. rewrite <- !ou64_fits. split.
  - intros (fs' & rsp & H). destruct (ou64_ok t) eqn:R1, (ou64_ok p) eqn:R2; cbn [andb negb] in H; try discriminate.
    unfold update_config in H. apply rbind_ok in H as ([] & E & H). apply (owner_only_iff C) in E. split; [exact E|].
    apply rbind_ok in H as (o' & Eo & _). split; [|auto]. intros a ->. apply rbind_ok in Eo as (? & Ev & _). apply addr_validate_ok in Ev as [_ Ev]. exact Ev.
  - intros (Hs & Ha & R1 & R2). rewrite R1, R2. cbn [andb negb]. unfold update_config. rewrite (proj2 (owner_only_iff C fs s) Hs). cbn [rbind].
    destruct o as [a|]; cbn [rbind]; [|eauto]. specialize (Ha a eq_refl). rewrite (proj2 (addr_validate_ok (ch_api C) a a) (conj eq_refl Ha)). cbn [rbind].
    apply (norm_human C OK) in Ha as (c & Hc & _). unfold addr_canonicalize. rewrite Hc. cbn [oget rbind]. eauto.
Qed.
(** ... and changes exactly the given settings. *)
Theorem C64_update_config_effect C w f fs s o t p g w' z lg : chain_ok C -> reachable C w -> fac_at w f fs ->
  exec C g w s (MExecute f (JUpdateConfig o t p) []) = Ok (w', z, lg) ->
  exists o0 t0 p0, config_query C w f = Ok (o0, t0, p0) /\
    config_query C w' f = Ok (default o0 o, default t0 t, default p0 p) /\
    (forall d, ask_native_decimals C w' f d = ask_native_decimals C w f d) /\
    (forall i, ask_pair_info C w' f i = ask_pair_info C w f i) /\ only_changed f w w'.
Proof.
  intros OK Hr Hf E. pose proof (main_sane C w (reachable_main C OK w Hr)) as Sn. destruct (reachable_fac C OK w f fs Hr Hf) as ((o0 & Ho) & _).
  eapply (fac_quiet_effect C OK) in E as (fs' & rsp & Ec & Sn' & Hf' & Hc); [|eassumption|eassumption|intros ? ? X; apply C20_call_effects in X; tauto].
  rewrite (config_query_at C OK w f fs), (config_query_at C OK w' f fs') by assumption. unfold factory_query_config, addr_humanize. rewrite Ho. cbn [oget rbind].
  apply C20_call_effects in Ec as (_ & Eo & Et & Ep & En & Epr & _). exists o0, (f_token_code fs), (f_pair_code fs). split; [reflexivity|].
  split.
  { assert (X : human (ch_api C) (f_owner fs') = Some (default o0 o)).
    { destruct o as [a|]; cbn; [|rewrite Eo; exact Ho]. destruct Eo as [Na Ca]. unfold norm in Na. rewrite Ca in Na. exact Na. }
    rewrite X. cbn [oget rbind]. rewrite Et, Ep. reflexivity. }
  split; [intros d; rewrite (native_at C OK w f fs), (native_at C OK w' f fs') by assumption; unfold factory_query_native; rewrite En; reflexivity|].
  split; [|exact Hc]. intros i. rewrite (pair_info_at C OK w f fs), (pair_info_at C OK w' f fs') by assumption. unfold factory_query_pair. rewrite Epr. reflexivity.
Qed.

(** AddNativeTokenDecimals is executed exactly for the owner if the factory
    holds some of the coin ... *)
Theorem C64_add_native_iff C w f fs s d n : chain_ok C -> reachable C w -> fac_at w f fs ->
  (exists w', succeeds C w s (MExecute f (JAddNativeTokenDecimals d n) []) w') <->
  owns C w f s /\ 0 < bal w f d /\ bal w f d < 2 ^ 128 /\ n < 256.
Proof.
  intros OK Hr Hf. pose proof (main_sane C w (reachable_main C OK w Hr)) as Sn. destruct (reachable_fac C OK w f fs Hr Hf) as (Ho & _).
  rewrite (owns_canon C OK w f fs s Sn Hf Ho). rewrite (fac_quiet C OK w f fs) by (try assumption; intros fs' rsp E; apply C20_call_effects in E; tauto).
  unfold factory_execute. cbn [jmsg_ranges]. unfold u8_ok.
  assert (Q : q_balance (wq C w) f d = in_u128 (Ok (bal w f d))).
  { cbn [wq q_balance]. unfold ask_balance. rewrite (sane_norm C OK _ _ _ Sn Hf). reflexivity. }
  split.
  - intros (fs' & rsp & H). destruct (N.ltb_spec n 256) as [R|R]; [|discriminate]. cbn [negb] in H.
    unfold add_native in H. apply rbind_ok in H as ([] & E & H). apply (owner_only_iff C) in E. split; [exact E|].
    apply rbind_ok in H as (b & Eb & H). rewrite Q in Eb. apply in_u128_ok in Eb as [-> Lb].
    apply rbind_ok in H as ([] & E2 & _). apply require_ok in E2. bools. split; [|split; [exact Lb|exact R]]. lia.
  - intros (Hs & H0 & H1 & R). apply N.ltb_lt in R. rewrite R. cbn [negb]. unfold add_native. rewrite (proj2 (owner_only_iff C fs s) Hs). cbn [rbind].
    rewrite Q. rewrite (proj2 (in_u128_ok (bal w f d) (bal w f d)) (conj eq_refl H1)). cbn [rbind].
    assert (E : (bal w f d =? 0) = false) by (apply N.eqb_neq; lia). rewrite E. cbn [negb require rbind]. eauto.
Qed.
(** ... and changes exactly the recorded decimals of that coin. *)
Theorem C64_add_native_effect C w f fs s d n g w' z lg : chain_ok C -> reachable C w -> fac_at w f fs ->
  exec C g w s (MExecute f (JAddNativeTokenDecimals d n) []) = Ok (w', z, lg) ->
  config_query C w' f = config_query C w f /\
  (forall d', ask_native_decimals C w' f d' = if decide (d' = d) then Ok n else ask_native_decimals C w f d') /\
  (forall i, ask_pair_info C w' f i = ask_pair_info C w f i) /\ only_changed f w w'.
Proof.
  intros OK Hr Hf E. pose proof (main_sane C w (reachable_main C OK w Hr)) as Sn.
  eapply (fac_quiet_effect C OK) in E as (fs' & rsp & Ec & Sn' & Hf' & Hc); [|eassumption|eassumption|intros ? ? X; apply C20_call_effects in X; tauto].
  rewrite (config_query_at C OK w f fs), (config_query_at C OK w' f fs') by assumption. unfold factory_query_config.
  apply C20_call_effects in Ec as (_ & (Eo & Ep & Et) & En & Epr & _). rewrite Eo, Et, Ep. split; [reflexivity|].
  split.
  { intros d'. rewrite (native_at C OK w f fs), (native_at C OK w' f fs') by assumption. unfold factory_query_native. rewrite En.
    case_decide; [subst; rewrite lookup_insert; reflexivity|rewrite lookup_insert_ne by congruence; reflexivity]. }
  split; [|exact Hc]. intros i. rewrite (pair_info_at C OK w f fs), (pair_info_at C OK w' f fs') by assumption. unfold factory_query_pair. rewrite Epr. reflexivity.
Qed.

(** MigratePair of a pair is executed exactly for the owner, if the factory
    administers the pair and the code is that of a pair (the one of the Config
    query if none is given); it changes no state and no balance. *)
Theorem C64_migrate_pair_iff C w f fs s c code p adm st : chain_ok C -> reachable C w -> fac_at w f fs ->
  norm (ch_api C) c = Some p -> w_insts w !! p = Some (Inst adm (SPair st)) ->
  (exists w', succeeds C w s (MExecute f (JMigratePair c code) []) w') <->
  owns C w f s /\ fits64 code /\ adm = Some f /\ exists o tc pc, config_query C w f = Ok (o, tc, pc) /\ ch_codes C (default pc code) = Some CPair.
Proof.
  intros OK Hr Hf Hc Hp. pose proof (main_sane C w (reachable_main C OK w Hr)) as Sn. destruct (reachable_fac C OK w f fs Hr Hf) as ((o & Ho) & _).
  rewrite (owns_canon C OK w f fs s Sn Hf) by eauto. rewrite <- ou64_fits.
  assert (Q : config_query C w f = Ok (o, f_token_code fs, f_pair_code fs)).
  { rewrite (config_query_at C OK w f fs) by assumption. unfold factory_query_config, addr_humanize. rewrite Ho. reflexivity. }
  assert (Sf : set_state w f (SFactory fs) = w).
  { pose proof Hf as Hi. apply state_at_inst in Hi as (ad & Hi). exact (set_state_id w f _ Hi). }
  split.
  - intros (w' & k & H). destruct (H (S (S (S (S k))))) as (lg & E); [lia|]. rewrite (fac_exec C OK w f fs) in E by assumption.
    apply rbind_ok in E as ([fs' rsp] & Ec & E). unfold factory_execute in Ec. cbn [jmsg_ranges] in Ec.
    destruct (ou64_ok code) eqn:R; [|discriminate]. cbn [negb] in Ec. unfold migrate_pair in Ec. apply rbind_ok in Ec as ([] & Es & Ec).
    apply (owner_only_iff C) in Es. injection Ec as <- <-. cbn [rs_msgs] in E. apply rbind_ok in E as ([w2 lg2] & Er & _). rewrite Sf in Er.
    rewrite run_plain in Er. apply rbind_ok in Er as ([[w3 z] lg3] & Em & _). rewrite exec_eq in Em. rewrite Hc in Em. cbn [oget rbind] in Em.
    rewrite Hp in Em. cbn [oget rbind] in Em. destruct (ch_codes C (default (f_pair_code fs) code)) as [kk|] eqn:Ek; [|discriminate]. cbn [oget rbind i_admin i_state] in Em.
    destruct (bool_decide (adm = Some f)) eqn:Ea; [|discriminate]. apply bool_decide_eq_true in Ea.
    split; [exact Es|]. split; [reflexivity|]. split; [exact Ea|]. exists o, (f_token_code fs), (f_pair_code fs). split; [exact Q|]. rewrite Ek.
    apply rbind_ok in Em as (s1 & Em & _). apply oget_ok in Em. destruct kk; cbn [migrated] in Em; try discriminate; [reflexivity|].
    rewrite (no_takeover C OK) in Em. discriminate.
  - intros (Hs & R & -> & o' & tc & pc & Q' & Hk). rewrite Q in Q'. injection Q' as <- <- <-. exists w, 4%nat. intros g Hg.
    destruct g as [|[|[|[|g]]]]; try lia. rewrite (fac_exec C OK w f fs) by assumption. unfold factory_execute. cbn [jmsg_ranges]. rewrite R. cbn [negb].
    unfold migrate_pair. rewrite (proj2 (owner_only_iff C fs s) Hs). cbn [rbind rs_msgs rs_attrs]. rewrite Sf, run_plain, exec_eq, Hc. cbn [oget rbind].
    rewrite Hp. cbn [oget rbind]. rewrite Hk. cbn [oget rbind i_admin i_state migrated]. rewrite bool_decide_true by reflexivity. cbn [rbind].
    pose proof (set_state_id w p _ Hp) as Sp. cbn [i_state] in Sp. rewrite Sp, run_nil. cbn [rbind]. eauto.
Qed.
Theorem C64_migrate_pair_effect C w f fs s c code p adm st g w' z lg : chain_ok C -> reachable C w -> fac_at w f fs ->
  norm (ch_api C) c = Some p -> w_insts w !! p = Some (Inst adm (SPair st)) ->
  exec C g w s (MExecute f (JMigratePair c code) []) = Ok (w', z, lg) -> w' = w.
Proof.
  intros OK Hr Hf Hc Hp E. pose proof (main_sane C w (reachable_main C OK w Hr)) as Sn.
  assert (Sf : set_state w f (SFactory fs) = w).
  { pose proof Hf as Hi. apply state_at_inst in Hi as (ad & Hi). exact (set_state_id w f _ Hi). }
  destruct g; [rewrite exec_0 in E; discriminate|]. rewrite (fac_exec C OK w f fs) in E by assumption.
  apply rbind_ok in E as ([fs' rsp] & Ec & E). unfold factory_execute in Ec. destruct (negb _); [discriminate|]. unfold migrate_pair in Ec.
  apply rbind_ok in Ec as ([] & Es & Ec). injection Ec as <- <-. cbn [rs_msgs] in E. apply rbind_ok in E as ([w2 lg2] & Er & E). injection E as <- _ _. rewrite Sf in Er.
  destruct g; [rewrite run_0 in Er; discriminate|]. rewrite run_plain in Er. apply rbind_ok in Er as ([[w3 z'] lg3] & Em & Er).
  apply rbind_ok in Er as ([w4 lg4] & E4 & Er). injection Er as -> _. destruct g; [rewrite run_0 in E4; discriminate|]. rewrite run_nil in E4. injection E4 as -> _.
  rewrite exec_eq, Hc in Em. cbn [oget rbind] in Em. rewrite Hp in Em. cbn [oget rbind i_admin i_state] in Em.
  apply rbind_ok in Em as (kk & _ & Em). destruct (bool_decide _); [|discriminate].
  apply rbind_ok in Em as (s1 & Em & X). apply oget_ok in Em. injection X as <- _ _.
  assert (s1 = SPair st) as ->. { destruct kk; cbn [migrated] in Em; try discriminate; [congruence|]. rewrite (no_takeover C OK) in Em. discriminate. }
  exact (set_state_id w p _ Hp).
Qed.

(** Alice owns the factory of the example; Bob does not. *)
Example C64_case :
  let upd := JUpdateConfig (Some "bob"%string) (Some 6) None in let w' := after ex_world [(true, x_call "#0" upd)] in
  reachable ex_chain ex_world /\ fac_at ex_world "#0" (fac_of ex_world "#0") /\
  config_query ex_chain ex_world "#0" = Ok ("alice"%string, 2, 1) /\ owns ex_chain ex_world "#0" "alice" /\
  is_ok (script ex_world [(true, x_call "#0" upd)]) = true /\ is_ok (script ex_world [(false, x_call "#0" upd)]) = false /\
  config_query ex_chain w' "#0" = Ok ("bob"%string, 6, 1) /\
  is_ok (script ex_world [(true, x_call "#0" (JAddNativeTokenDecimals "uaura" 8))]) = true /\
  is_ok (script ex_world [(true, x_call "#0" (JAddNativeTokenDecimals "uatom" 8))]) = false /\
  (exists st, w_insts ex_world !! "#4"%string = Some (Inst (Some "#0"%string) (SPair st))) /\
  is_ok (script ex_world [(true, x_call "#0" (JMigratePair "#4" None))]) = true /\
  is_ok (script ex_world [(false, x_call "#0" (JMigratePair "#4" None))]) = false.
Proof.
  intros upd w'. split; [exact ex_reachable|]. split; [apply fac_of_at; vm_compute; reflexivity|].
  split; [vm_compute; reflexivity|]. split; [exists "alice"%string, 2, 1; split; vm_compute; reflexivity|].
  do 5 (split; [vm_compute; reflexivity|]). split; [eexists; vm_compute; reflexivity|].
  split; vm_compute; reflexivity.
Qed.
