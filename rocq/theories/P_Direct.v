(** Routes called on the router directly, without sending a token, and native
    coins at a router (C76). *)
From Verif Require Import Base BigNumber CwStd BigNumberFacts Asset Messages PairMath Pair PairFacts Token Factory Router
  SwapFacts SwapFacts2 P_Swap P_Pair FactoryFacts P_Factory P_Router TokenFacts World WorldInd WorldFacts WorldInv WorldInd2
  Examples WorldExamples P_Ledger P_Registry ExecFacts P_Exec P_Route P_Value P_Deposit P_Route2 P_Quotes P_RouteIff P_RouterFunds.
From Coq Require Import ZifyN.
Local Open Scope N_scope.
Ltac Zify.zify_post_hook ::= idtac.

(** ** Direct routes *)
Lemma bank_insts w s a cs w1 : bank_send w s a cs = Ok w1 -> forall x, state_at w1 x = state_at w x.
Proof. intros E x. unfold state_at. rewrite (bm_insts _ _ _ _ _ (bank_send_ok _ _ _ _ _ E)). reflexivity. Qed.
Lemma bank_sane C w s a cs w1 : bank_send w s a cs = Ok w1 -> sane C w -> sane C w1.
Proof.
  intros E [F T]. pose proof (bank_insts _ _ _ _ _ E) as S. pose proof (bank_send_ok _ _ _ _ _ E) as B. split.
  - intros x. rewrite (bm_insts _ _ _ _ _ B), (bm_next _ _ _ _ _ B). apply F.
  - intros t ts Ht. apply (T t). unfold tok_at in *. rewrite <- S. exact Ht.
Qed.
Lemma bank_balanced w s a cs w1 : bank_send w s a cs = Ok w1 -> s <> a -> balanced (holds w) (holds w1) (given s a cs).
Proof.
  intros E D x j. rewrite given_left, given_arrived. pose proof (bank_insts _ _ _ _ _ E) as S. pose proof (bank_send_ok _ _ _ _ _ E) as B.
  destruct j as [t|d]; cbn [holds].
  - rewrite S. destruct (decide (x = s)), (decide (x = a)); lia.
  - pose proof (bm_bal _ _ _ _ _ B x d). destruct (decide (x = s)), (decide (x = a)); try congruence; lia.
Qed.

(** Calling ExecuteSwapOperations directly with coins attached: the call is
    executed, with [H2] the balances afterwards, exactly if the sender has the
    coins, the route and the receiver are well formed, the hops lead from the
    balances with the coins at the router to [H2], and the receiver gets the
    minimum. No token has to be sent: the hops sell what the router holds. *)
Theorem C76_direct_route_iff C w r rst f fs s funds ops m to H2 : chain_ok C -> reachable C w ->
  state_at w r = Some (SRouter rst) -> human (ch_api C) rst = Some f -> fac_at w f fs ->
  (forall o, In o ops -> tradable C w fs o) -> norm (ch_api C) s = Some s -> s <> r ->
  let rcv := default s to in
  (exists w', succeeds C w s (MExecute r (JExecuteSwapOperations ops m to) funds) w' /\ forall x j, holds w' x j = H2 x j) <->
  can_attach w s funds /\ route_valid ops /\ fits m /\ (forall z, to = Some z -> norm (ch_api C) z = Some z) /\
  exists H1, balanced (holds w) H1 (given s r funds) /\ routed C w fs r rcv H1 ops H2 /\
    (forall n lst, m = Some n -> list.last ops = Some lst ->
       H1 rcv (op_ask lst) < 2 ^ 128 /\ H2 rcv (op_ask lst) < 2 ^ 128 /\ H1 rcv (op_ask lst) + n <= H2 rcv (op_ask lst)).
Proof.
  intros OK Hr Hs Hh Hf Ht Ns Dsr rcv. pose proof (main_sane C w (reachable_main C OK w Hr)) as Sn. pose proof (sane_norm C OK _ _ _ Sn Hs) as Nr. split.
  - intros (w' & (k & Hk) & EH). destruct (Hk k (le_n k)) as (lg & E). pose proof E as E0.
    destruct k as [|k]; [rewrite exec_0 in E; discriminate|]. rewrite exec_eq, Nr in E. cbn [oget rbind] in E.
    apply rbind_ok in E as (w1 & Eb & E). destruct (attach_inv _ _ _ _ _ Eb Dsr) as (_ & At).
    pose proof (bank_insts _ _ _ _ _ Eb) as Si. pose proof (bank_sane C _ _ _ _ _ Eb Sn) as S1.
    assert (Hs1 : state_at w1 r = Some (SRouter rst)) by (rewrite Si; exact Hs).
    assert (Hf1 : fac_at w1 f fs) by (unfold fac_at; rewrite Si; exact Hf).
    assert (Hl : later w w1).
    { split; [intros p st; unfold pair_at; rewrite Si; auto|]. intros [t|d] L; [|exact I]. destruct L as (ts & L). exists ts. unfold tok_at in *. rewrite Si. exact L. }
    assert (E1 : exists lg1, exec C (S k) w1 s (MExecute r (JExecuteSwapOperations ops m to) []) = Ok (w', None, lg1)).
    { rewrite exec_eq, Nr. cbn [oget rbind]. rewrite bank_send_none. cbn [rbind]. pose proof Hs1 as Hi. apply state_at_inst in Hi as (adm & Hi).
      rewrite Hi in E |- *. cbn [oget rbind i_state call] in E |- *. apply rbind_ok in E as ([st rsp] & Ec & E). rewrite Ec. cbn [rbind].
      apply rbind_ok in E as ([w2 lg2] & Er & E). injection E as <- <-. rewrite Er. cbn [rbind]. eexists. reflexivity. }
    destruct E1 as (lg1 & E1).
    destruct (router_exec_inv C (S k) w w1 r rst s ops m to w' None lg1 f fs OK S1 Hs1 Hh Hf1 Ht Hl Ns E1) as (Hv & Hm & Hto & R & S2 & Hlv).
    split; [exact At|]. split; [exact Hv|]. split; [exact Hm|]. split; [exact Hto|].
    exists (holds w1). split; [exact (bank_balanced _ _ _ _ _ Eb Dsr)|]. split; [eapply routed_ext; [exact EH|exact R]|].
    intros n lst -> Hlst. assert (Nd : norm (ch_api C) rcv = Some rcv) by (unfold rcv; destruct to as [z|]; cbn [default]; auto).
    apply (C28_minimum_enforced C w1 r rst) in E1 as (w2 & l' & b & e & Eb' & Hl' & Qb & Qe & Hle); [|exact OK|apply S1|exact Hs1].
    rewrite Hlst in Hl'. injection Hl' as <-. rewrite bank_send_none in Eb'. injection Eb' as <-. fold rcv in Qb, Qe.
    assert (Hin : In lst ops) by (apply elem_of_list_In, last_Some_elem_of; exact Hlst).
    assert (L0 : live w (op_ask lst)) by apply (Ht lst Hin).
    assert (L1 : live w1 (op_ask lst)) by (apply (proj2 Hl); exact L0).
    apply (query_pool_ok C OK) in Qb as (_ & a1 & N1 & -> & B1); [|exact S1|exact L1|congruence].
    apply (query_pool_ok C OK) in Qe as (_ & a2 & N2 & -> & B2); [|exact S2|apply Hlv; exact L0|congruence].
    rewrite Nd in N1, N2. injection N1 as <-. injection N2 as <-. rewrite <- !EH. exact (conj B1 (conj B2 Hle)).
  - intros (At & Hv & Hm & Hto & H1 & Hb & R & Hmin).
    assert (Nd : norm (ch_api C) rcv = Some rcv) by (unfold rcv; destruct to as [z|]; cbn [default]; auto).
    destruct (attach_ok w s r funds Dsr At) as (w1 & Eb).
    pose proof (bank_insts _ _ _ _ _ Eb) as Si. pose proof (bank_sane C _ _ _ _ _ Eb Sn) as S1.
    assert (Hs1 : state_at w1 r = Some (SRouter rst)) by (rewrite Si; exact Hs).
    assert (Hf1 : fac_at w1 f fs) by (unfold fac_at; rewrite Si; exact Hf).
    assert (Hl : later w w1).
    { split; [intros p st; unfold pair_at; rewrite Si; auto|]. intros [t|d] L; [|exact I]. destruct L as (ts & L). exists ts. unfold tok_at in *. rewrite Si. exact L. }
    assert (E1 : forall x j, H1 x j = holds w1 x j) by (eapply balanced_fun; [|exact Hb|exact (bank_balanced _ _ _ _ _ Eb Dsr)]; reflexivity).
    destruct (routed_run C OK w fs f r rst rcv Hh Nd Nr ops H1 H2 R w1 E1 S1 Hs1 Hf1 Ht Hl) as (w2 & Erun & S2 & Hs2 & Hl2 & E2).
    exists w2. split; [|intros x j; symmetry; apply E2].
    assert (Hopt : optional_addr_validate (ch_api C) to = Ok to).
    { unfold optional_addr_validate. destruct to as [y|]; [|reflexivity]. rewrite (proj2 (addr_validate_ok _ y y) (conj eq_refl (Hto y eq_refl))). reflexivity. }
    assert (Hops : assert_operations ops = Ok tt) by (apply C27_route_accepted_iff; exact Hv).
    destruct (list.last ops) as [lst|] eqn:Elst.
    2: { apply last_None in Elst. subst ops. discriminate. }
    assert (Hin : In lst ops) by (apply elem_of_list_In, last_Some_elem_of; exact Elst).
    assert (L0 : live w (op_ask lst)) by apply (Ht lst Hin).
    exists (S (length ops + 9))%nat. intros gf Hg. replace gf with (S (length ops + 9) + (gf - S (length ops + 9)))%nat by lia.
    generalize (gf - S (length ops + 9))%nat. clear gf Hg. intros g.
    cbn [Nat.add]. rewrite exec_eq. rewrite Nr. cbn [oget rbind]. rewrite Eb. cbn [rbind].
    pose proof Hs1 as Hi. apply state_at_inst in Hi as (adm & Hi). rewrite Hi. cbn [oget rbind i_state call].
    unfold router_execute.
    assert (Hhr : jmsg_ranges (JExecuteSwapOperations ops m to) = true).
    { cbn [jmsg_ranges]. destruct m as [n|]; [|reflexivity]. unfold ou128_ok, u128_ok. apply (proj2 (N.ltb_lt n B128)). exact Hm. }
    rewrite Hhr. cbn [negb]. rewrite Hopt. cbn [rbind]. unfold execute_swap_operations. rewrite Elst, Hops. cbn [rbind]. fold rcv.
    pose proof (set_state_id w1 r _ Hi) as Hid. cbn [i_state] in Hid.
    destruct m as [n|].
    + destruct (Hmin n lst eq_refl eq_refl) as (M1 & M2 & M3). rewrite E1 in M1, M3. rewrite E2 in M2, M3.
      rewrite (query_pool_live C OK w1 _ rcv S1 (proj2 Hl _ L0) Nd) by exact M1. cbn [wrap rbind rs_msgs rs_attrs]. rewrite Hid.
      rewrite map_app. cbn [map]. destruct (Erun g [plain (MExecute r (JAssertMinimumReceive (op_ask lst) (holds w1 rcv (op_ask lst)) n rcv) [])]) as (lg & E).
      replace (length ops + (9 + g))%nat with (length ops + 9 + g)%nat in E by lia. rewrite E. cbn [Nat.add]. rewrite run_plain, exec_eq, Nr. cbn [oget rbind].
      rewrite bank_send_none. cbn [rbind]. pose proof Hs2 as Hi2. apply state_at_inst in Hi2 as (adm2 & Hi2). rewrite Hi2. cbn [oget rbind i_state call].
      unfold router_execute. cbn [jmsg_ranges]. unfold u128_ok.
      rewrite (proj2 (N.ltb_lt (holds w1 rcv (op_ask lst)) _)) by exact M1. rewrite (proj2 (N.ltb_lt n _)) by exact Hm. cbn [andb negb].
      rewrite (proj2 (addr_validate_ok _ rcv rcv) (conj eq_refl Nd)). cbn [rbind]. unfold assert_minimum_receive.
      rewrite (query_pool_live C OK w2 _ rcv S2 (proj2 Hl2 _ L0) Nd) by exact M2. cbn [rbind].
      assert (Hsub : u128_checked_sub (holds w2 rcv (op_ask lst)) (holds w1 rcv (op_ask lst)) = Ok (holds w2 rcv (op_ask lst) - holds w1 rcv (op_ask lst))).
      { apply u128_checked_sub_ok. split; [reflexivity|lia]. }
      rewrite Hsub. cbn [rbind].
      destruct (N.ltb_spec (holds w2 rcv (op_ask lst) - holds w1 rcv (op_ask lst)) n); [lia|]. cbn [wrap rbind rs_msgs rs_attrs].
      pose proof (set_state_id w2 r _ Hi2) as Hid2. cbn [i_state] in Hid2. rewrite Hid2, run_nil. cbn [rbind]. rewrite run_nil. cbn [rbind]. eexists. reflexivity.
    + cbn [wrap rbind rs_msgs rs_attrs]. rewrite Hid. destruct (Erun g []) as (lg & E). rewrite app_nil_r in E.
      replace (length ops + (9 + g))%nat with (length ops + 9 + g)%nat in E by lia. rewrite E. cbn [Nat.add]. rewrite run_nil. cbn [rbind]. eexists. reflexivity.
Qed.

(** ** Native coins *)

(** A call with the Swap message and coins from [r], executed by a contract
    that is not part of this code base. *)
Definition left_to_stranger (r : string) (lg : list event) : Prop :=
  exists e, In e lg /\ ev_sender e = r /\ adv_at (ev_world e) (ev_contract e) /\ exists b m to, ev_msg e = JSwap b m to.
Lemma lts_app r l1 l2 : left_to_stranger r (l1 ++ l2) <-> left_to_stranger r l1 \/ left_to_stranger r l2.
Proof.
  unfold left_to_stranger. split.
  - intros (e & H & K). apply in_app_or in H as [H|H]; [left|right]; eauto.
  - intros [(e & H & K)|(e & H & K)]; exists e; split; try exact K; apply in_or_app; auto.
Qed.
Lemma lts_tail r e l : left_to_stranger r l -> left_to_stranger r (e :: l).
Proof. intros (x & H & K). exists x. split; [right; exact H|exact K]. Qed.

Section native.
  Context (C : chain) (OK : chain_ok C) (r d : string).
  Definition nat_R (w w' : world) (lg : list event) : Prop :=
    router_at w r -> bal w r d <= bal w' r d \/ left_to_stranger r lg.
  Definition nat_may (w : world) (a : string) (sm : submsg) : Prop := a = r -> router_at w r ->
    match sm_msg sm with MExecute _ msg funds => coin_sum d funds = 0 \/ exists b m to, msg = JSwap b m to | _ => False end.

  Lemma nat_other w a l : a <> r -> Forall (nat_may w a) l.
  Proof. intros D. induction l; constructor; [|assumption]. intros E. exfalso. exact (D E). Qed.
  Lemma nat_none w a l : ~ router_at w r -> Forall (nat_may w a) l.
  Proof. intros D. induction l; constructor; [|assumption]. intros _ E. exfalso. exact (D E). Qed.
  Lemma nat_adv w a k x l : state_at w a = Some (SAdv k x) -> Forall (nat_may w a) l.
  Proof.
    intros Ha. destruct (decide (a = r)) as [->|D]; [|apply nat_other; exact D]. apply nat_none. intros (st & H). congruence.
  Qed.

  Lemma router_coins A Q st s msg st' rsp : router_execute A Q r st s msg = Ok (st', rsp) ->
    Forall (fun sm => match sm_msg sm with MExecute _ msg funds => coin_sum d funds = 0 \/ exists b m to, msg = JSwap b m to | _ => False end) (rs_msgs rsp).
  Proof.
    unfold router_execute. intros H. destruct (negb (jmsg_ranges msg)); [discriminate|].
    assert (Ops : forall s0 ops m to, execute_swap_operations A Q r st s0 ops m to = Ok (st', rsp) ->
      Forall (fun sm => match sm_msg sm with MExecute _ msg funds => coin_sum d funds = 0 \/ exists b m to, msg = JSwap b m to | _ => False end) (rs_msgs rsp)).
    { intros s0 ops m to E. unfold execute_swap_operations in E. destruct (list.last ops) as [lst|]; [|discriminate].
      apply rbind_ok in E as ([] & _ & E).
      assert (F : Forall (fun sm => match sm_msg sm with MExecute _ msg funds => coin_sum d funds = 0 \/ exists b m to, msg = JSwap b m to | _ => False end)
        (map plain (op_messages r (default s0 to) ops))).
      { generalize (default s0 to). intros rc. clear. induction ops as [|o ops IH]; [constructor|].
        cbn [op_messages]. destruct ops as [|o' ops'].
        - constructor; [|constructor]. left. reflexivity.
        - cbn [map]. constructor; [left; reflexivity|exact IH]. }
      destruct m as [m|].
      - apply rbind_ok in E as (b & _ & E). injection E as _ <-. cbn [rs_msgs]. rewrite map_app. apply List.Forall_app. split; [exact F|].
        constructor; [|constructor]. left. reflexivity.
      - injection E as _ <-. exact F. }
    destruct msg; try discriminate.
    - unfold router_receive in H. apply rbind_ok in H as (s' & _ & H). destruct (negb (hook_ranges _)); [discriminate|].
      match type of H with match ?hh with _ => _ end = _ => destruct hh end; try discriminate.
      apply rbind_ok in H as (to' & _ & H). eapply Ops; eauto.
    - apply rbind_ok in H as (to' & _ & H). eapply Ops; eauto.
    - apply rbind_ok in H as (to' & _ & H). unfold execute_swap_operation in H. apply rbind_ok in H as ([] & Hs & H).
      apply rbind_ok in H as (f & _ & H). apply rbind_ok in H as (p & _ & H). apply rbind_ok in H as (n & Hn & H). injection H as _ <-.
      constructor; [|constructor]. unfold asset_into_swap_msg. cbn [a_info a_amount plain sm_msg].
      destruct (op_offer op) as [t|dn]; [left; reflexivity|right; eauto].
    - apply rbind_ok in H as (r' & _ & H). unfold assert_minimum_receive in H. apply rbind_ok in H as (b & _ & H). apply rbind_ok in H as (g & _ & H).
      destruct (_ <? _); [discriminate|]. injection H as _ <-. constructor.
  Qed.

  Lemma swap_refused w1 a s st funds b m to x : call C w1 a st s funds (JSwap b m to) = Ok x -> exists k y, st = SAdv k y.
  Proof.
    destruct st as [ps|fs|rs|ts|k y]; [| | | |eauto]; cbn [call]; unfold wrap; intros H; exfalso; apply rbind_ok in H as (z & H & _).
    - destruct (pair_calls _ _ _ _ _ _ _ _ H) as [(? & ? & ? & X & _)|(? & ? & ? & X)]; discriminate.
    - destruct z as [fs' z]. apply factory_execute_inv in H as [(? & ? & ? & X & _)|[(? & ? & X & _)|[(? & ? & X & _)|(? & ? & X & _)]]]; discriminate.
    - unfold router_execute in H. destruct (negb _); discriminate.
    - unfold token_execute in H. destruct (negb _); discriminate.
  Qed.

  Lemma nat_ok : ind2_ok C nat_R nat_may.
  Proof.
    split.
    - intros w _ _. left. lia.
    - intros w w1 w2 l1 l2 _ _ _ (x1 & R1) _ H1 H2 E. rewrite lts_app.
      destruct (H1 E) as [L1|L1]; [|auto]. destruct (H2 (ra_grows _ _ _ _ R1 E)) as [L2|L2]; [|auto]. left. lia.
    - intros w w' a sm lg _ _ Ha R _ H -> E. apply H; [reflexivity|]. eapply ra_back; eauto.
    - intros w s ro to cs w' to' M _ Hm Hn Hb _ _ E. left.
      pose proof (bm_bal _ _ _ _ _ Hb r d) as B. rewrite decide_False in B.
      + destruct (decide (r = to')); lia.
      + intros X. exact (Hm (eq_sym X) E).
    - intros w s ro c0 msg funds a w1 ins st rsp f w3 lg M Hm Hm2 Nc Hb Hs Hi Hc w2 M2 R2 Fm Er M3 R3.
      assert (Dec : (adv_at w a /\ s = r /\ exists b m to, msg = JSwap b m to) \/ ~ (adv_at w a /\ s = r /\ exists b m to, msg = JSwap b m to)).
      { destruct (decide (s = r)) as [Es|Es]; [|right; tauto].
        assert (Da : adv_at w a \/ ~ adv_at w a).
        { unfold adv_at. rewrite Hs. destruct (i_state ins); try (right; intros (? & ? & X); discriminate). left. eauto. }
        assert (Dm : (exists b m to, msg = JSwap b m to) \/ ~ exists b m to, msg = JSwap b m to).
        { destruct msg; try (right; intros (? & ? & ? & X); discriminate). left. eauto. }
        tauto. }
      destruct Dec as [(Ad & -> & Sw)|Ns].
      { left. intros _. right. exists (Event a r msg (rs_attrs rsp) funds w1). split; [left; reflexivity|]. split; [reflexivity|].
        split; [|exact Sw]. cbn. unfold adv_at, state_at in *. rewrite (bm_insts _ _ _ _ _ Hb). exact Ad. }
      assert (Step : router_at w r -> bal w r d <= bal w2 r d).
      { intros E. unfold w2. rewrite set_state_bal. pose proof (bm_bal _ _ _ _ _ Hb r d) as B.
        destruct (decide (r = s)) as [<-|]; [|destruct (decide (r = a)); lia].
        specialize (Hm2 eq_refl E). cbn [sm_msg] in Hm2. destruct Hm2 as [Hm2|(b & m & to & ->)].
        - rewrite Hm2 in B. destruct (decide (r = a)); lia.
        - exfalso. destruct (swap_refused _ _ _ _ _ _ _ _ _ Hc) as (k & y & X). apply Ns. split; [exists k, y; rewrite Hs, X; reflexivity|]. eauto. }
      right. split.
      + destruct (decide (a = r)) as [->|Dp]; [|apply nat_other; exact Dp].
        destruct (i_state ins) as [ps|fs|rs|ts|k y] eqn:Es.
        3: { cbn [call] in Hc. unfold wrap in Hc. apply rbind_ok in Hc as ([rs' rsp'] & Hc & E'). injection E' as <- <-.
          eapply List.Forall_impl; [|exact (router_coins _ _ _ _ _ _ _ Hc)]. intros sm X _ _. exact X. }
        all: apply nat_none; intros T; eapply ra_back in T; [|exact R2|eauto]; destruct T as (x & T); congruence.
      + intros H E. destruct (H (ra_grows _ _ _ _ R2 E)) as [L|L]; [left; specialize (Step E); lia|right; apply lts_tail; exact L].
    - intros w s ro ad code msg funds label k adm w1 st rsp f w3 lg M Hm Hm2 Hk Had a Hb Hc w2 M2 S Hn QP Er M3 R3.
      destruct (decide (a = r)) as [Ea|Dp].
      { left. intros (x & T). rewrite <- Ea, Hn in T. discriminate. }
      right. split; [apply nat_other; exact Dp|].
      intros H T. assert (T2 : router_at w2 r) by (destruct T as (x & T); exists x; rewrite S, decide_False by congruence; exact T).
      destruct (H T2) as [L|L]; [left|right; exact L]. etransitivity; [|exact L]. clear H L.
      change (bal w2 r d) with (bal w1 r d). pose proof (bm_bal _ _ _ _ _ Hb r d) as B.
      change (bal (set_next w (w_next w + 1)) r d) with (bal w r d) in B.
      destruct (decide (r = s)) as [E|]; [|destruct (decide (r = ch_fresh C (w_next w))); lia].
      destruct (Hm2 (eq_sym E) T).
    - intros w s ro c1 code a ins k st M Hm _ _ Hi _ _ Hmg _ _ _. left. rewrite set_state_bal. lia.
    - intros w a adm _ _ _ _. left. unfold bal. rewrite set_admin_bank. lia.
    - intros w a sm rest f w' rr lg id ins st rsp M Hms Hm2 Hro Ex M' R' HR Hi Hr w2 M2 Rr2. split.
      + destruct (reply_msgs C _ _ _ _ _ _ _ _ Hi Hr) as [->|(k & y & Ha)]; [constructor|].
        destruct (grows_state _ _ _ _ (rl_grows _ _ _ Rr2) Ha) as (s' & Hs' & K). destruct s'; try destruct K. eapply nat_adv; eauto.
      + intros _. left. unfold w2. rewrite set_state_bal. lia.
    - intros w a sm rest id k y st rsp M _ _ _ Hs _ w2 M2 Rr2. split.
      + destruct (grows_state _ _ _ _ (rl_grows _ _ _ Rr2) Hs) as (s' & Hs' & K). destruct s'; try destruct K. eapply nat_adv; eauto.
      + intros _. left. unfold w2. rewrite set_state_bal. lia.
  Qed.
End native.

(** C76: over every history a router's balance of a native coin falls only if a
    contract from outside this code base accepts a Swap call from the router.
    Pairs, factories, routers and tokens never do. *)
Theorem C76_native_coins_stay C w lg w' r rst d : chain_ok C -> reachable C w -> history C w lg w' ->
  state_at w r = Some (SRouter rst) -> bal w' r d < bal w r d -> left_to_stranger r lg.
Proof.
  intros OK Hr Hh Hs Hlt. pose proof (reachable_main C OK w Hr) as M.
  assert (X : nat_R r d w w' lg).
  { apply (history_ind2 C OK _ _ w lg w' (nat_ok C r d)); auto.
    - intros w0 s m O -> T. exfalso. pose proof Hs as E. apply state_at_inst in E as (ad & E).
      rewrite (ordinary_no_inst C w r (mn_fresh _ _ M) O) in E. discriminate.
    - intros w0 blk _ _. left. unfold bal. cbn. lia. }
  destruct (X (ex_intro _ rst Hs)) as [L|L]; [lia|exact L].
Qed.

(** The router holds 5000 #1. Bob calls a route directly and attaches 7 uaura
    by mistake: without sending any #1 they are paid 9966 uaura for the 5000,
    the 7 uaura stay at the router, and a route that offers them fails. *)
Definition direct_call : bool * cmsg := (false, MExecute "#3" (JExecuteSwapOperations [rf_hop] (Some 9966) None) [Coin "uaura" 7]).
Example C76_case :
  let w := after ex_world [rf_lost] in
  let w' := after w [direct_call] in
  reachable ex_chain w /\ state_at w "#3" = Some (SRouter "#0") /\ fac_at w "#0" (fac_of w "#0") /\
  tradable ex_chain w (fac_of w "#0") rf_hop /\ can_attach w "bob" [Coin "uaura" 7] /\
  is_ok (script w [direct_call]) = true /\
  holds w "#3" (Token "#1") = 5000 /\ holds w' "#3" (Token "#1") = 0 /\
  holds w' "bob" (Token "#1") = holds w "bob" (Token "#1") /\
  holds w' "bob" (Native "uaura") + 7 = holds w "bob" (Native "uaura") + 9966 /\
  bal w' "#3" "uaura" = 7 /\
  is_ok (script w' [(true, MExecute "#3" (JExecuteSwapOperations [hop (Native "uaura") (Token "#1")] None None) [])]%string) = false.
Proof.
  intros w w'.
  assert (L1 : live w (Token "#1")) by (exists (tok_of w "#1"); apply tok_of_at; vm_compute; reflexivity).
  assert (Hp : pair_at w "#4" ex_pair4) by (vm_compute; reflexivity).
  assert (Sd : sides ex_api ex_pair4 (Token "#1") (Native "uaura") 6 6) by (left; vm_compute; auto).
  assert (Q : factory_query_pair ex_api (fac_of w "#0") (Token "#1", Native "uaura") = Ok (PairInfo (Token "#1", Native "uaura") "#4" "#5" (6, 6) ex_wl)%string) by (vm_compute; reflexivity).
  split; [eapply history_reachable; [exact ex_reachable|apply after_history]|].
  split; [vm_compute; reflexivity|]. split; [apply fac_of_at; vm_compute; reflexivity|].
  split. { split; [discriminate|]. split; [exact L1|]. split; [exact I|].
    exists (PairInfo (Token "#1", Native "uaura") "#4" "#5" (6, 6) ex_wl)%string, ex_pair4, 6, 6. exact (conj Q (conj Hp Sd)). }
  split. { split; [apply NoDup_singleton|]. constructor; [|constructor]. split; [reflexivity|vm_compute; discriminate]. }
  repeat (split; [vm_compute; reflexivity|]). vm_compute; reflexivity.
Qed.
