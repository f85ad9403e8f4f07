(** What the router holds: only its own hops take it away, and whoever routes
    next gets it (C75). *)
From Verif Require Import Base BigNumber CwStd BigNumberFacts Asset Messages PairMath Pair PairFacts Token Factory Router
  SwapFacts SwapFacts2 P_Swap P_Pair FactoryFacts P_Factory P_Router TokenFacts World WorldInd WorldFacts WorldInv WorldInd2
  Examples WorldExamples P_Ledger P_Registry ExecFacts P_Exec P_Route P_Value P_Route2 P_Quotes P_Split P_RouteIff.
From Coq Require Import ZifyN.
Local Open Scope N_scope.
Ltac Zify.zify_post_hook ::= idtac.

(** [lg] contains a hop of router [r] that offers asset [i], called by the
    router itself. *)
Definition hop_of (r : string) (i : asset_info) (lg : list event) : Prop :=
  exists e o to, In e lg /\ ev_contract e = r /\ ev_sender e = r /\ ev_msg e = JExecuteSwapOperation o to /\ op_offer o = i.

Definition router_at (w : world) (r : string) : Prop := exists st, state_at w r = Some (SRouter st).

Lemma hop_of_app r i l1 l2 : hop_of r i (l1 ++ l2) <-> hop_of r i l1 \/ hop_of r i l2.
Proof.
  unfold hop_of. split.
  - intros (e & o & to & H & K). apply in_app_or in H as [H|H]; [left|right]; eauto.
  - intros [(e & o & to & H & K)|(e & o & to & H & K)]; exists e, o, to; split; try exact K; apply in_or_app; auto.
Qed.
Lemma hop_of_tail r i e l : hop_of r i l -> hop_of r i (e :: l).
Proof. intros (x & o & to & H & K). exists x, o, to. split; [right; exact H|exact K]. Qed.

(** messages that take nothing of asset [i] from their sender *)
Definition spares (A : api) (i : asset_info) (m : cmsg) : Prop :=
  match m with
  | MExecute c msg funds =>
      match i with
      | Native d => coin_sum d funds = 0
      | Token t =>
          match msg with
          | JExecuteSwapOperation _ _ | JAssertMinimumReceive _ _ _ _ | JSwap _ _ _ => True
          | _ => norm A c <> Some t
          end
      end
  | _ => False
  end.

Section router_funds.
  Context (C : chain) (OK : chain_ok C) (r : string) (i : asset_info).
  Definition rf_R (w w' : world) (lg : list event) : Prop :=
    router_at w r -> holds w r i <= holds w' r i \/ hop_of r i lg.
  Definition rf_may (w : world) (a : string) (sm : submsg) : Prop := a = r -> router_at w r -> spares (ch_api C) i (sm_msg sm).

  Lemma ra_grows x w w' : rel x w w' -> router_at w r -> router_at w' r.
  Proof.
    intros R (st & E). destruct (grows_state _ _ _ _ (rl_grows _ _ _ R) E) as (s' & E' & K).
    destruct s'; try destruct K. eexists; eauto.
  Qed.
  Lemma ra_back x w w' : rel x w w' -> is_Some (state_at w r) -> router_at w' r -> router_at w r.
  Proof.
    intros R [s Hs] (st & H). destruct (grows_state _ _ _ _ (rl_grows _ _ _ R) Hs) as (s' & Hs' & K).
    rewrite H in Hs'. injection Hs' as <-. destruct s; try destruct K. eexists; eauto.
  Qed.
  Lemma ra_not_user w : main C w -> router_at w r -> ~ user C w r.
  Proof.
    intros M (st & E) U. destruct (user_not_modelled C w r _ (mn_fresh _ _ M) U E) as (k & d & X). congruence.
  Qed.
  Lemma rf_other w a l : a <> r -> Forall (rf_may w a) l.
  Proof. intros D. induction l; constructor; [|assumption]. intros E. exfalso. exact (D E). Qed.
  Lemma rf_none w a l : ~ router_at w r -> Forall (rf_may w a) l.
  Proof. intros D. induction l; constructor; [|assumption]. intros _ E. exfalso. exact (D E). Qed.
  Lemma rf_adv w a k d l : state_at w a = Some (SAdv k d) -> Forall (rf_may w a) l.
  Proof.
    intros Ha. destruct (decide (a = r)) as [->|D]; [|apply rf_other; exact D]. apply rf_none. intros (st & H). congruence.
  Qed.

  (** the messages of a router call *)
  Lemma router_sends w st s msg st' rsp : router_execute (ch_api C) (wq C w) r st s msg = Ok (st', rsp) ->
    (exists o to, msg = JExecuteSwapOperation o to /\ s = r /\ op_offer o = i) \/
    Forall (fun sm => spares (ch_api C) i (sm_msg sm)) (rs_msgs rsp).
  Proof.
    unfold router_execute. intros H. destruct (negb (jmsg_ranges msg)); [discriminate|].
    assert (Ops : forall s0 ops m to, execute_swap_operations (ch_api C) (wq C w) r st s0 ops m to = Ok (st', rsp) ->
      Forall (fun sm => spares (ch_api C) i (sm_msg sm)) (rs_msgs rsp)).
    { intros s0 ops m to E. unfold execute_swap_operations in E. destruct (list.last ops) as [lst|]; [|discriminate].
      apply rbind_ok in E as ([] & _ & E).
      assert (F : Forall (fun sm => spares (ch_api C) i (sm_msg sm)) (map plain (op_messages r (default s0 to) ops))).
      { generalize (default s0 to). intros rc. clear. induction ops as [|o ops IH]; [constructor|].
        cbn [op_messages]. destruct ops as [|o' ops'].
        - constructor; [|constructor]. cbn. destruct i; auto.
        - cbn [map]. constructor; [cbn; destruct i; auto|exact IH]. }
      destruct m as [m|].
      - apply rbind_ok in E as (b & _ & E). injection E as _ <-. cbn [rs_msgs]. rewrite map_app. apply List.Forall_app. split; [exact F|].
        constructor; [|constructor]. cbn. destruct i; auto.
      - injection E as _ <-. exact F. }
    destruct msg; try discriminate.
    - (* Receive *) unfold router_receive in H. apply rbind_ok in H as (s' & _ & H). destruct (negb (hook_ranges _)); [discriminate|].
      match type of H with match ?hh with _ => _ end = _ => destruct hh end; try discriminate. apply rbind_ok in H as (to' & _ & H). right. eapply Ops; eauto.
    - apply rbind_ok in H as (to' & _ & H). right. eapply Ops; eauto.
    - apply rbind_ok in H as (to' & _ & H). unfold execute_swap_operation in H. apply rbind_ok in H as ([] & Hs & H).
      apply require_ok in Hs. apply bool_decide_eq_true in Hs.
      apply rbind_ok in H as (f & _ & H). apply rbind_ok in H as (p & _ & H). apply rbind_ok in H as (n & Hn & H). injection H as _ <-.
      destruct (decide (op_offer op = i)) as [E|D]; [left; eauto 6|]. right. constructor; [|constructor].
      unfold asset_into_swap_msg. cbn [a_info a_amount plain sm_msg]. destruct (op_offer op) as [t|d] eqn:Eo; cbn [spares].
      + apply rbind_ok in Hn as (t' & Ht & _). apply addr_validate_ok in Ht as [-> Nt]. destruct i as [t0|d0]; [|reflexivity]. congruence.
      + destruct i as [t0|d0]; [exact I|]. rewrite coin_sum_cons, coin_sum_nil, decide_False by (cbn; congruence). reflexivity.
    - apply rbind_ok in H as (r' & _ & H). unfold assert_minimum_receive in H. apply rbind_ok in H as (b & _ & H). apply rbind_ok in H as (g & _ & H).
      destruct (_ <? _); [discriminate|]. injection H as _ <-. right. constructor.
  Qed.

  Lemma router_state_same Q st s msg st' rsp : router_execute (ch_api C) Q r st s msg = Ok (st', rsp) -> st' = st.
  Proof.
    unfold router_execute. intros H. destruct (negb (jmsg_ranges msg)); [discriminate|].
    assert (Ops : forall s0 ops m to, execute_swap_operations (ch_api C) Q r st s0 ops m to = Ok (st', rsp) -> st' = st).
    { intros s0 ops m to E. unfold execute_swap_operations in E. destruct (list.last ops) as [lst|]; [|discriminate].
      apply rbind_ok in E as ([] & _ & E). destruct m as [m|]; [apply rbind_ok in E as (b & _ & E)|]; congruence. }
    destruct msg; try discriminate.
    - unfold router_receive in H. apply rbind_ok in H as (s' & _ & H). destruct (negb (hook_ranges _)); [discriminate|].
      match type of H with match ?hh with _ => _ end = _ => destruct hh end; try discriminate.
      apply rbind_ok in H as (to' & _ & H). eapply Ops; eauto.
    - apply rbind_ok in H as (to' & _ & H). eapply Ops; eauto.
    - apply rbind_ok in H as (to' & _ & H). unfold execute_swap_operation in H. apply rbind_ok in H as ([] & Hs & H).
      apply rbind_ok in H as (f & _ & H). apply rbind_ok in H as (p & _ & H). apply rbind_ok in H as (n & Hn & H). congruence.
    - apply rbind_ok in H as (r' & _ & H). unfold assert_minimum_receive in H. apply rbind_ok in H as (b & _ & H). apply rbind_ok in H as (g & _ & H).
      destruct (_ <? _); congruence.
  Qed.

  Lemma rf_ok : ind2_ok C rf_R rf_may.
  Proof.
    split.
    - intros w _ _. left. lia.
    - intros w w1 w2 l1 l2 _ _ _ (x1 & R1) _ H1 H2 E. rewrite hop_of_app.
      destruct (H1 E) as [L1|L1]; [|auto]. destruct (H2 (ra_grows _ _ _ R1 E)) as [L2|L2]; [|auto]. left. lia.
    - intros w w' a sm lg _ _ Ha R _ H -> E. apply H; [reflexivity|]. eapply ra_back; eauto.
    - intros w s ro to cs w' to' M _ Hm Hn Hb _ _ E. left. apply (holds_same w w' (bm_insts _ _ _ _ _ Hb)).
      intros d. pose proof (bm_bal _ _ _ _ _ Hb r d) as B. rewrite decide_False in B.
      + destruct (decide (r = to')); lia.
      + intros X. exact (Hm (eq_sym X) E).
    - intros w s ro c0 msg funds a w1 ins st rsp f w3 lg M Hm Hm2 Nc Hb Hs Hi Hc w2 M2 R2 Fm Er M3 R3.
      assert (Step : router_at w r -> holds w r i <= holds w2 r i).
      { intros E. destruct i as [t|d] eqn:Ei; cbn [holds].
        - destruct (state_at w t) as [[| | |ts|]|] eqn:Et; try lia.
          destruct (call_toks C _ _ _ _ _ _ _ _ _ _ _ Hb Hs Hi Hc Et) as [(_ & Ht2)|(-> & ts' & _ & Ht2 & Ef)];
            fold w2 in Ht2; unfold tok_at in Ht2; rewrite Ht2; [lia|].
          eapply token_no_loss; [exact Ef| |].
          + intros ->. specialize (Hm2 eq_refl E). rewrite Ei in Hm2. cbn [sm_msg spares] in Hm2.
            destruct msg; try (exfalso; exact (Hm2 Nc)); inversion Ef.
          + intros sp v Hal. apply (ra_not_user _ M E). eapply mn_allow; eauto.
        - unfold w2. rewrite set_state_bal. pose proof (bm_bal _ _ _ _ _ Hb r d) as B.
          destruct (decide (r = s)) as [<-|]; [|destruct (decide (r = a)); lia].
          specialize (Hm2 eq_refl E). rewrite Ei in Hm2. cbn [sm_msg spares] in Hm2.
          rewrite Hm2 in B. destruct (decide (r = a)); lia. }
      assert (Fin : rf_R w2 w3 lg -> rf_R w w3 (Event a s msg (rs_attrs rsp) funds w1 :: lg)).
      { intros H E. destruct (H (ra_grows _ _ _ R2 E)) as [L|L]; [left; specialize (Step E); lia|right; apply hop_of_tail; exact L]. }
      destruct (decide (a = r)) as [->|Dp]; [|right; split; [apply rf_other; exact Dp|exact Fin]].
      destruct (i_state ins) as [ps|fs|rs|ts|k d] eqn:Es.
      3: { cbn [call] in Hc. unfold wrap in Hc. apply rbind_ok in Hc as ([rs' rsp'] & Hc & E'). injection E' as <- <-.
        destruct (router_sends _ _ _ _ _ _ Hc) as [(o & to & -> & -> & Eo)|F].
        - left. intros _. right. exists (Event r r (JExecuteSwapOperation o to) (rs_attrs rsp') funds w1), o, to. cbn. auto 7.
        - right. split; [|exact Fin]. eapply List.Forall_impl; [|exact F]. intros sm X _ _. exact X. }
      1-4: left; intros (x & T); rewrite Hs in T; discriminate.
    - intros w s ro ad code msg funds label k adm w1 st rsp f w3 lg M Hm Hm2 Hk Had a Hb Hc w2 M2 S Hn QP Er M3 R3.
      destruct (decide (a = r)) as [Ea|Dp].
      { left. intros (x & T). rewrite <- Ea, Hn in T. discriminate. }
      right. split; [apply rf_other; exact Dp|].
      intros H T. assert (T2 : router_at w2 r) by (destruct T as (x & T); exists x; rewrite S, decide_False by congruence; exact T).
      destruct (H T2) as [L|L]; [left|right; exact L]. etransitivity; [|exact L]. clear H L. destruct i as [t|d] eqn:Ei; cbn [holds].
      + rewrite S. destruct (decide (t = a)) as [->|]; [rewrite Hn; lia|lia].
      + change (bal w2 r d) with (bal w1 r d). pose proof (bm_bal _ _ _ _ _ Hb r d) as B.
        change (bal (set_next w (w_next w + 1)) r d) with (bal w r d) in B.
        destruct (decide (r = s)) as [E|]; [|destruct (decide (r = ch_fresh C (w_next w))); lia].
        destruct (Hm2 (eq_sym E) T).
    - intros w s ro c1 code a ins k st M Hm _ _ Hi _ _ Hmg _ _ _. left. destruct i as [t|d]; cbn [holds].
      + destruct (state_at w t) as [[| | |ts|]|] eqn:Et; try lia. pose proof (mig_toks C OK _ _ _ _ _ _ _ Hi Hmg Et) as T. unfold tok_at in T. rewrite T. lia.
      + rewrite set_state_bal. lia.
    - intros w a adm _ _ _ _. left. destruct i as [t|d]; cbn [holds]; [rewrite admin_state; reflexivity|].
      unfold bal. rewrite set_admin_bank. lia.
    - intros w a sm rest f w' rr lg id ins st rsp M Hms Hm2 Hro Ex M' R' HR Hi Hr w2 M2 Rr2. split.
      + destruct (reply_msgs C _ _ _ _ _ _ _ _ Hi Hr) as [->|(k & d & Ha)]; [constructor|].
        destruct (grows_state _ _ _ _ (rl_grows _ _ _ Rr2) Ha) as (s' & Hs' & K). destruct s'; try destruct K. eapply rf_adv; eauto.
      + intros _. left. destruct i as [t|d]; cbn [holds].
        * destruct (state_at w' t) as [[| | |ts|]|] eqn:Et; try lia. pose proof (reply_toks C _ _ _ _ _ _ _ _ _ _ Hi Hr Et) as T. fold w2 in T. unfold tok_at in T. rewrite T. lia.
        * unfold w2. rewrite set_state_bal. lia.
    - intros w a sm rest id k d st rsp M _ _ _ Hs _ w2 M2 Rr2. split.
      + destruct (grows_state _ _ _ _ (rl_grows _ _ _ Rr2) Hs) as (s' & Hs' & K). destruct s'; try destruct K. eapply rf_adv; eauto.
      + intros _. left. destruct i as [t|dn]; cbn [holds].
        * destruct (state_at w t) as [[| | |ts|]|] eqn:Et; try lia. assert (T : tok_at w2 t ts) by (eapply set_toks; [exact Hs|discriminate|exact Et]).
          unfold tok_at in T. rewrite T. lia.
        * unfold w2. rewrite set_state_bal. lia.
  Qed.

  (** The router's configuration never changes. *)
  Definition rc_R (w w' : world) (_ : list event) : Prop :=
    forall st, state_at w r = Some (SRouter st) -> state_at w' r = Some (SRouter st).
  Lemma rc_ok : ind2_ok C rc_R (fun _ _ _ => True).
  Proof.
    assert (FT : forall l : list submsg, Forall (fun _ => True) l) by (induction l; constructor; auto).
    split.
    - intros w _ st H. exact H.
    - intros w w1 w2 l1 l2 _ _ _ _ _ H1 H2 st H. apply H2, H1, H.
    - auto.
    - intros w s ro to cs w' to' M _ _ _ Hb _ _ st H. unfold state_at in *. rewrite (bm_insts _ _ _ _ _ Hb). exact H.
    - intros w s ro c0 msg funds a w1 ins st rsp f w3 lg M Hm _ Nc Hb Hs Hi Hc w2 M2 R2 Fm Er M3 R3.
      right. split; [apply FT|]. intros H st0 E. apply H. unfold w2. rewrite state_at_set by eauto. destruct (decide (r = a)) as [<-|D].
      + rewrite E in Hs. injection Hs as Hs. rewrite <- Hs in Hc. cbn [call] in Hc. unfold wrap in Hc.
        apply rbind_ok in Hc as ([st' rsp'] & Hc & X). injection X as <- _. rewrite (router_state_same _ _ _ _ _ _ Hc). reflexivity.
      + unfold state_at in *. rewrite (bm_insts _ _ _ _ _ Hb). exact E.
    - intros w s ro ad code msg funds label k adm w1 st rsp f w3 lg M Hm _ Hk Had a Hb Hc w2 M2 S Hn QP Er M3 R3.
      right. split; [apply FT|]. intros H st0 E. apply H. rewrite S, decide_False; [exact E|]. intros ->. congruence.
    - intros w s ro c1 code a ins k st M Hm _ _ Hi _ _ Hmg _ _ st0 E. rewrite state_at_set by eauto. destruct (decide (r = a)) as [<-|D]; [|exact E].
      unfold state_at in E. rewrite Hi in E. injection E as E. rewrite E in Hmg. apply (migrated_pair C _ _ _ OK) in Hmg; [congruence|discriminate].
    - intros w a adm _ _ _ st0 E. rewrite admin_state. exact E.
    - intros w a sm rest f w' rr lg id ins st rsp M Hms _ Hro Ex M' R' HR Hi Hr w2 M2 Rr2. split; [apply FT|].
      intros st0 E. unfold w2. rewrite state_at_set by eauto. destruct (decide (r = a)) as [<-|D]; [|exact E].
      unfold state_at in E. rewrite Hi in E. injection E as E. rewrite E in Hr. discriminate.
    - intros w a sm rest id k d st rsp M _ _ _ Hs _ w2 M2 Rr2. split; [apply FT|].
      intros st0 E. unfold w2. rewrite state_at_set by (apply state_at_inst in Hs as (ad & Hs); eauto). destruct (decide (r = a)) as [<-|D]; [|exact E]. congruence.
  Qed.
End router_funds.

(** C75: over every history a router's balance of an asset falls only if the
    router executes a hop of its own offering that asset; nobody else can make
    it pay out, and it gives no allowances. *)
Theorem C75_only_hops_pay C w lg w' r rst i : chain_ok C -> reachable C w -> history C w lg w' ->
  state_at w r = Some (SRouter rst) -> holds w' r i < holds w r i -> hop_of r i lg.
Proof.
  intros OK Hr Hh Hs Hlt. pose proof (reachable_main C OK w Hr) as M.
  assert (X : rf_R r i w w' lg).
  { apply (history_ind2 C OK _ _ w lg w' (rf_ok C OK r i)); auto.
    - intros w0 s m O -> T. exfalso. pose proof Hs as E. apply state_at_inst in E as (ad & E).
      rewrite (ordinary_no_inst C w r (mn_fresh _ _ M) O) in E. discriminate.
    - intros w0 blk _ _. left. apply holds_same; [reflexivity|]. intros d. unfold bal. cbn. lia. }
  destruct (X (ex_intro _ rst Hs)) as [L|L]; [lia|exact L].
Qed.

(** The factory a router trusts never changes. *)
Theorem C75_factory_fixed C w lg w' r rst : chain_ok C -> reachable C w -> history C w lg w' ->
  state_at w r = Some (SRouter rst) -> state_at w' r = Some (SRouter rst).
Proof.
  intros OK Hr Hh Hs. pose proof (reachable_main C OK w Hr) as M.
  apply (history_ind2 C OK _ _ w lg w' (rc_ok C OK r)); auto.
  intros w0 blk _ st E. exact E.
Qed.

(** Whatever the router holds of a token goes to the next account that trades
    any amount [a] of it over the router: it is paid for [a] and for all that
    the router held, and the router is left with nothing. *)
Theorem C75_next_sender_takes C w r rst f fs s T a o pi st od ad : chain_ok C -> reachable C w ->
  state_at w r = Some (SRouter rst) -> human (ch_api C) rst = Some f -> fac_at w f fs ->
  op_offer o = Token T -> tradable C w fs o -> live w (Token T) -> norm (ch_api C) s = Some s ->
  factory_query_pair (ch_api C) fs (op_offer o, op_ask o) = Ok pi ->
  let p := p_contract_addr pi in
  pair_at w p st -> sides (ch_api C) st (op_offer o) (op_ask o) od ad ->
  s <> r -> s <> p ->
  0 < a <= holds w s (Token T) ->
  let n := holds w r (Token T) + a in
  let x := holds w p (op_offer o) in let y := holds w p (op_ask o) in
  let q := gross x y n - fee (gross x y n) in
  y < 2 ^ 128 -> priced x y n -> decimals_fit od ad n q (at_price x y n - gross x y n) ->
  exists w', succeeds C w s (MExecute T (JSend r a (HExecuteSwapOperations [o] None None)) []) w' /\
    holds w' r (Token T) = 0 /\ holds w' s (op_ask o) = holds w s (op_ask o) + q.
Proof.
  intros OK Hr Hs Hh Hf Eo Ht Lt Ns Hq p Hp Hsd Dsr Dsp Ha n x y q Hy Hpr Hd.
  assert (Drp : r <> p) by (unfold pair_at in Hp; intros E; rewrite <- E in Hp; congruence).
  assert (Dio : Token T <> op_ask o) by (rewrite <- Eo; apply Ht).
  pose proof (gross_le x y n (proj1 Hpr)) as Hg.
  set (l1 := [(Token T, s, r, a)]). set (l2 := [(op_offer o, r, p, n); (op_ask o, p, s, q)]).
  set (H1 := fun z j => holds w z j + arrived z j l1 - left_ z j l1).
  set (H2 := fun z j => H1 z j + arrived z j l2 - left_ z j l2).
  assert (V1 : forall z j, H1 z j = if decide (j = Token T) then if decide (z = s) then holds w z j - a else if decide (z = r) then holds w z j + a else holds w z j else holds w z j).
  { intros z j. unfold H1, l1. cbn [left_ arrived fold_right].
    destruct (decide (z = r /\ j = Token T)), (decide (z = s /\ j = Token T)), (decide (j = Token T)), (decide (z = s)), (decide (z = r)); subst; try tauto; try congruence; lia. }
  assert (V1r : H1 r (Token T) = n) by (rewrite V1, decide_True, decide_False, decide_True by congruence; reflexivity).
  assert (V1o : H1 r (op_offer o) = n) by (rewrite Eo; exact V1r).
  assert (V1p : forall j, H1 p j = holds w p j).
  { intros j. rewrite V1. destruct (decide (j = Token T)); [|reflexivity]. rewrite !decide_False by congruence. reflexivity. }
  assert (B1 : balanced (holds w) H1 l1).
  { intros z j. unfold H1, l1. cbn [left_ arrived fold_right].
    destruct (decide (z = s /\ j = Token T)) as [[-> ->]|]; [|lia]. destruct (decide _); lia. }
  assert (Hq2 : q <= H1 p (op_ask o)) by (rewrite V1p; fold y; unfold q; lia).
  assert (B2 : balanced H1 H2 l2).
  { intros z j. unfold H2, l2. rewrite Eo. cbn [left_ arrived fold_right].
    destruct (decide (z = r /\ j = Token T)) as [[-> ->]|].
    - rewrite V1r. rewrite (decide_False (P := r = p /\ Token T = op_ask o)) by tauto. destruct (decide _), (decide _); lia.
    - destruct (decide (z = p /\ j = op_ask o)) as [[-> ->]|]; [|lia]. destruct (decide _), (decide _); lia. }
  assert (Rt : routed C w fs r s H1 [o] H2).
  { eapply routed_cons with (t := T) (H1 := H2); try eassumption; fold p; rewrite ?V1p, ?V1o; fold x y.
    - unfold n. lia.
    - exact Hy.
    - exact Hpr.
    - exact Hd.
    - exact B2.
    - apply routed_nil. reflexivity. }
  assert (Ht' : forall o0, In o0 [o] -> tradable C w fs o0) by (intros o0 [<-|[]]; exact Ht).
  destruct (proj2 (C73_route_iff C w r rst f fs s T a [o] None None H2 OK Hr Hs Hh Hf Ht' Lt Ns)) as (w' & Su & E).
  { split; [exact Ha|]. split.
    - split; [discriminate|]. intros k o0 Hk. destruct k; [|discriminate]. injection Hk as <-. left. exists o. auto.
    - split; [exact I|]. split; [discriminate|]. exists H1. split; [exact B1|]. split; [exact Rt|discriminate]. }
  exists w'. split; [exact Su|]. rewrite !E. split.
  - pose proof (B2 r (Token T)) as X. unfold l2 in X. rewrite Eo, V1r in X. cbn [left_ arrived fold_right] in X.
    rewrite (decide_True (P := r = r /\ Token T = Token T)) in X by auto.
    rewrite (decide_False (P := r = p /\ Token T = op_ask o)) in X by tauto.
    rewrite (decide_False (P := r = p /\ Token T = Token T)) in X by tauto.
    rewrite (decide_False (P := r = s /\ Token T = op_ask o)) in X by tauto. lia.
  - pose proof (B2 s (op_ask o)) as X. unfold l2 in X. rewrite Eo in X. cbn [left_ arrived fold_right] in X.
    rewrite (decide_False (P := s = r /\ op_ask o = Token T)) in X by tauto.
    rewrite (decide_False (P := s = p /\ op_ask o = op_ask o)) in X by tauto.
    rewrite (decide_False (P := s = p /\ op_ask o = Token T)) in X by tauto.
    rewrite (decide_True (P := s = s /\ op_ask o = op_ask o)) in X by auto.
    rewrite V1, decide_False in X by congruence. lia.
Qed.

(** Alice transfers 5000 #1 to the router by mistake; bob routes a single unit
    and is paid 9968 uaura for 5001. *)
Definition rf_lost : bool * cmsg := (true, x_call "#1" (JTransfer "#3" 5000)).
Definition rf_hop : swap_op := hop (Token "#1") (Native "uaura").
Definition rf_take : bool * cmsg := (false, x_call "#1" (JSend "#3" 1 (HExecuteSwapOperations [rf_hop] None None))).
Example C75_case :
  let w := after ex_world [rf_lost] in
  let w' := after w [rf_take] in
  reachable ex_chain w /\ state_at w "#3" = Some (SRouter "#0") /\
  history ex_chain w (log_of w [rf_take]) w' /\
  holds w "#3" (Token "#1") = 5000 /\ holds w' "#3" (Token "#1") = 0 /\ hop_of "#3" (Token "#1") (log_of w [rf_take]) /\
  state_at w' "#3" = Some (SRouter "#0") /\
  exists w2, succeeds ex_chain w "bob" (rf_take.2) w2 /\
    holds w2 "#3" (Token "#1") = 0 /\ holds w2 "bob" (Native "uaura") = holds w "bob" (Native "uaura") + 9968.
Proof.
  intros w w'.
  assert (R : reachable ex_chain w) by (eapply history_reachable; [exact ex_reachable|apply after_history]).
  assert (S : state_at w "#3" = Some (SRouter "#0")) by (vm_compute; reflexivity).
  assert (Hh : history ex_chain w (log_of w [rf_take]) w') by apply after_history.
  assert (E1 : holds w "#3" (Token "#1") = 5000) by (vm_compute; reflexivity).
  assert (E2 : holds w' "#3" (Token "#1") = 0) by (vm_compute; reflexivity).
  split; [exact R|]. split; [exact S|]. split; [exact Hh|]. split; [exact E1|]. split; [exact E2|].
  split; [apply (C75_only_hops_pay ex_chain w _ w' "#3" "#0" _ ex_chain_ok R Hh S); rewrite E1, E2; reflexivity|].
  split; [apply (C75_factory_fixed ex_chain w _ w' "#3" "#0" ex_chain_ok R Hh S)|].
  assert (L1 : live w (Token "#1")) by (exists (tok_of w "#1"); apply tok_of_at; vm_compute; reflexivity).
  assert (Hp : pair_at w "#4" ex_pair4) by (vm_compute; reflexivity).
  assert (Sd : sides ex_api ex_pair4 (Token "#1") (Native "uaura") 6 6) by (left; vm_compute; auto).
  assert (Q : factory_query_pair ex_api (fac_of w "#0") (Token "#1", Native "uaura") = Ok (PairInfo (Token "#1", Native "uaura") "#4" "#5" (6, 6) ex_wl)%string) by (vm_compute; reflexivity).
  assert (Tr : tradable ex_chain w (fac_of w "#0") rf_hop).
  { split; [discriminate|]. split; [exact L1|]. split; [exact I|].
    exists (PairInfo (Token "#1", Native "uaura") "#4" "#5" (6, 6) ex_wl)%string, ex_pair4, 6, 6. exact (conj Q (conj Hp Sd)). }
  assert (Hf : human ex_api "#0" = Some "#0"%string) by (vm_compute; reflexivity).
  assert (Fa : fac_at w "#0" (fac_of w "#0")) by (apply fac_of_at; vm_compute; reflexivity).
  assert (Nb : norm ex_api "bob" = Some "bob"%string) by (vm_compute; reflexivity).
  assert (Am : 0 < 1 <= holds w "bob" (Token "#1")) by (split; [reflexivity|vm_compute; discriminate]).
  assert (Xr : holds w "#4" (Token "#1") = 10000000) by (vm_compute; reflexivity).
  assert (Y : holds w "#4" (Native "uaura") = 20000000) by (vm_compute; reflexivity).
  pose proof (C75_next_sender_takes ex_chain w "#3" "#0" "#0" (fac_of w "#0") "bob" "#1" 1 rf_hop
    (PairInfo (Token "#1", Native "uaura") "#4" "#5" (6, 6) ex_wl)%string ex_pair4 6 6 ex_chain_ok R S Hf Fa eq_refl Tr L1 Nb Q Hp Sd) as X.
  cbn zeta beta in X. cbn [p_contract_addr rf_hop op_offer op_ask hop] in X.
  rewrite E1, Xr, Y in X. destruct X as (w2 & A1 & A2 & A3).
  - discriminate.
  - discriminate.
  - exact Am.
  - reflexivity.
  - split; [discriminate|]. split; [reflexivity|]. split; [reflexivity|]. split; [vm_compute; discriminate|reflexivity].
  - split; intros X; exfalso; revert X; vm_compute; discriminate.
  - exists w2. split; [exact A1|]. split; [exact A2|]. rewrite A3. apply f_equal. vm_compute. reflexivity.
Qed.
