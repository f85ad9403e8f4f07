(** Every number in the storage of the repository's contracts stays within the
    range of its type: u8, u64 or u128. *)
From Verif Require Import Base BigNumber CwStd BigNumberFacts Asset Messages PairMath Pair PairFacts Token Factory Router
  SwapFacts SwapFacts2 P_Swap P_Pair FactoryFacts P_Factory P_Router TokenFacts World WorldInd WorldFacts WorldInv WorldInd2.
From Coq Require Import ZifyN.
Local Open Scope N_scope.
Ltac Zify.zify_post_hook ::= idtac.

(** What a stored pair record has to satisfy. *)
Definition rec_fits (r : pair_info_raw) : Prop :=
  (r_asset_decimals r).1 < 256 /\ (r_asset_decimals r).2 < 256 /\ reqs_ranges (r_requirements r) = true.
Definition factory_fits (f : factory_state) : Prop :=
  f_pair_code f < B64 /\ f_token_code f < B64 /\
  (forall d n, f_native f !! d = Some n -> n < 256) /\
  (forall k r, f_pairs f !! k = Some r -> rec_fits r) /\
  (forall t, f_tmp f = Some t -> (t_decimals t).1 < 256 /\ (t_decimals t).2 < 256).
Definition token_fits (t : token_state) : Prop :=
  tk_decimals t < 256 /\
  (forall m c, tk_mint t = Some (m, Some c) -> c < B128) /\
  (forall k v e, tk_allow t !! k = Some (v, e) -> v < B128 /\ exp_ok e = true).
Definition fits (s : cstate) : Prop :=
  match s with SFactory f => factory_fits f | SToken t => token_fits t | _ => True end.
Definition all_fit (w : world) : Prop := forall a s, state_at w a = Some s -> fits s.

Ltac open_ok H :=
  lazymatch type of H with
  | rbind _ _ = Ok _ => apply rbind_ok in H as (? & ? & H); open_ok H
  | Err _ = Ok _ => discriminate H
  | panic _ = Ok _ => discriminate H
  | Ok _ = Ok _ => injection H as <- <-
  | (match ?x with _ => _ end) = Ok _ => destruct x eqn:?; open_ok H
  | _ => idtac
  end.

(** ** Tokens *)
Lemma debit_same t a n t' : debit t a n = Ok t' -> tk_decimals t' = tk_decimals t /\ tk_mint t' = tk_mint t /\ tk_allow t' = tk_allow t.
Proof. intros H. apply debit_ok in H as [_ ->]. auto. Qed.
Lemma credit_same t a n t' : credit t a n = Ok t' -> tk_decimals t' = tk_decimals t /\ tk_mint t' = tk_mint t /\ tk_allow t' = tk_allow t.
Proof. intros H. apply credit_ok in H as [_ ->]. auto. Qed.
Lemma fits_same t t' : token_fits t -> tk_decimals t' = tk_decimals t /\ tk_mint t' = tk_mint t /\ tk_allow t' = tk_allow t -> token_fits t'.
Proof. intros (F1 & F2 & F3) (E1 & E2 & E3). unfold token_fits. rewrite E1, E2, E3. auto. Qed.
Lemma fits_set_allow t k v e : token_fits t -> v < B128 -> exp_ok e = true -> token_fits (set_allow t (<[k := (v, e)]> (tk_allow t))).
Proof.
  intros (F1 & F2 & F3) Hv He. split; [exact F1|]. split; [exact F2|]. intros k' v' e' H. cbn [set_allow tk_allow] in H.
  destruct (decide (k' = k)) as [->|D]; [rewrite lookup_insert in H; injection H as <- <-; auto|].
  rewrite lookup_insert_ne in H by congruence. eauto.
Qed.
Lemma fits_deduct t o s b n t' : token_fits t -> deduct_allowance t o s b n = Ok t' -> token_fits t'.
Proof.
  intros F H. apply deduct_ok in H as (v & e & Hv & _ & _ & ->). pose proof F as (_ & _ & F3). destruct (F3 _ _ _ Hv) as [V E].
  apply fits_set_allow; [exact F| |exact E]. lia.
Qed.
Lemma token_fits_execute A b t s m t' rsp : token_fits t -> token_execute A b t s m = Ok (t', rsp) -> token_fits t'.
Proof.
  intros F H. unfold token_execute in H. destruct (jmsg_ranges m) eqn:R; [|discriminate]. cbn [negb] in H. destruct m; try discriminate; cbn [jmsg_ranges] in R.
  - unfold token_transfer in H. open_ok H. eapply fits_same; [|eapply credit_same; eauto]. eapply fits_same; [exact F|]. eapply debit_same; eauto.
  - unfold token_burn in H. open_ok H. eapply fits_same; [exact F|]. cbn [set_supply tk_decimals tk_mint tk_allow]. eapply debit_same; eauto.
  - unfold token_send in H. open_ok H. eapply fits_same; [|eapply credit_same; eauto]. eapply fits_same; [exact F|]. eapply debit_same; eauto.
  - apply andb_prop in R as [R1 R2]. unfold token_increase in H. apply rbind_ok in H as (sp & _ & H). apply rbind_ok in H as (? & _ & H).
    destruct (default (0, ENever) (tk_allow t !! (s, sp))) as [v old] eqn:D.
    assert (Ho : exp_ok old = true).
    { destruct (tk_allow t !! (s, sp)) as [[v0 e0]|] eqn:L; cbn [default] in D; injection D as <- <-; [|reflexivity]. exact (proj2 (proj2 (proj2 F) _ _ _ L)). }
    apply rbind_ok in H as (ex & He & H). apply rbind_ok in H as (v' & Hv & H). injection H as <- <-. apply u128_add_ok in Hv.
    apply fits_set_allow; [exact F| |].
    + unfold u128_add in *. lia.
    + destruct expires as [y1|]; [destruct (is_expired y1 b); [discriminate|]|]; injection He as <-; assumption.
  - apply andb_prop in R as [R1 R2]. unfold token_decrease in H. apply rbind_ok in H as (sp & _ & H). apply rbind_ok in H as (? & _ & H).
    destruct (tk_allow t !! (s, sp)) as [[v old]|] eqn:L; [|discriminate]. pose proof F as (F1 & F2 & F3). destruct (F3 _ _ _ L) as [V E].
    destruct (_ <? v).
    + apply rbind_ok in H as (ex & He & H). injection H as <- <-. apply fits_set_allow; [exact F|lia|].
      destruct expires as [y1|]; [destruct (is_expired y1 b); [discriminate|]|]; injection He as <-; assumption.
    + injection H as <- <-. split; [exact F1|]. split; [exact F2|]. intros k v' e' H. cbn [set_allow tk_allow] in H.
      apply lookup_delete_Some in H as [_ H]. eauto.
  - unfold token_transfer_from in H. open_ok H. eapply fits_same; [|eapply credit_same; eauto]. eapply fits_same; [|eapply debit_same; eauto]. eapply fits_deduct; eauto.
  - unfold token_send_from in H. open_ok H. eapply fits_same; [|eapply credit_same; eauto]. eapply fits_same; [|eapply debit_same; eauto]. eapply fits_deduct; eauto.
  - unfold token_burn_from in H. open_ok H.
    match goal with X : deduct_allowance _ _ _ _ _ = Ok _ |- _ => apply (fits_deduct _ _ _ _ _ _ F) in X as F' end.
    eapply fits_same; [exact F'|]. cbn [set_supply tk_decimals tk_mint tk_allow]. eapply debit_same; eauto.
  - unfold token_mint in H. apply rbind_ok in H as (? & _ & H). destruct (tk_mint t) as [[mi cap]|] eqn:Hm; [|discriminate]. apply rbind_ok in H as (? & _ & H).
    apply rbind_ok in H as (sup & _ & H). apply rbind_ok in H as (? & _ & H). apply rbind_ok in H as (? & _ & H). apply rbind_ok in H as (t1 & Hc & H). injection H as <- <-.
    eapply fits_same; [|eapply credit_same; eauto]. eapply fits_same; [exact F|auto].
  - unfold token_update_minter in H. destruct (tk_mint t) as [[mi cap]|] eqn:Hm; [|discriminate]. apply rbind_ok in H as (? & _ & H). apply rbind_ok in H as (nm & Hn & H).
    injection H as <- <-. destruct F as (F1 & F2 & F3). split; [exact F1|]. split; [|exact F3]. intros a c E. cbn [set_mint tk_mint] in E. subst nm.
    destruct new_minter as [y1|]; [|discriminate]. apply rbind_ok in Hn as (x' & _ & Hn). injection Hn as <- ->. eapply F2. exact Hm.
Qed.
Lemma token_fits_init A m t rsp : token_instantiate A m = Ok (t, rsp) -> token_fits t.
Proof.
  unfold token_instantiate. destruct (token_init_ranges m) eqn:R; [|discriminate]. cbn [negb]. intros H.
  unfold token_init_ranges in R. apply andb_prop in R as [R Rc]. apply andb_prop in R as [Rd _].
  apply rbind_ok in H as (? & _ & H). apply rbind_ok in H as ([bal total] & _ & H). apply rbind_ok in H as (? & _ & H). apply rbind_ok in H as (mint & Hm & H).
  injection H as <- <-. split; [apply N.ltb_lt; exact Rd|]. split.
  - cbn [tk_mint]. intros a c ->. destruct (in_mint m) as [[y1 cap]|]; [|discriminate]. apply rbind_ok in Hm as (x' & _ & Hm). injection Hm as -> ->.
    apply N.ltb_lt. exact Rc.
  - cbn [tk_allow]. intros k v e H. rewrite lookup_empty in H. discriminate.
Qed.

(** ** Factories *)
(** What a contract learns about decimals is in range. *)
Lemma ask_info_fits C w t i : all_fit w -> ask_token_info C w t = Ok i -> ti_decimals i < 256.
Proof.
  intros F H. unfold ask_token_info, contract_at in H. apply rbind_ok in H as ([t' s] & H1 & H). apply rbind_ok in H1 as (a & _ & H1).
  apply rbind_ok in H1 as (x & Hx & H1). apply oget_ok in Hx. injection H1 as <- <-. destruct (i_state x) as [| | |ts|k d] eqn:Es; try discriminate.
  - unfold token_query_info in H. injection H as <-. cbn [ti_decimals]. apply (F a (SToken ts)). unfold state_at. rewrite Hx. cbn. congruence.
  - apply rbind_ok in H as (j & _ & H). destruct (_ <? B128) eqn:E1, (_ <? 256) eqn:E2; try discriminate. injection H as <-. apply N.ltb_lt, E2.
Qed.
Lemma ask_native_fits C w f d n : all_fit w -> ask_native_decimals C w f d = Ok n -> n < 256.
Proof.
  intros F H. unfold ask_native_decimals, contract_at in H. apply rbind_ok in H as ([t' s] & H1 & H). apply rbind_ok in H1 as (a & _ & H1).
  apply rbind_ok in H1 as (x & Hx & H1). apply oget_ok in Hx. injection H1 as <- <-. destruct (i_state x) as [|fs| | |k y] eqn:Es; try discriminate.
  - unfold factory_query_native in H. apply oget_ok in H. assert (G : factory_fits fs).
    { apply (F a (SFactory fs)). unfold state_at. rewrite Hx. cbn. congruence. }
    exact (proj1 (proj2 (proj2 G)) _ _ H).
  - apply rbind_ok in H as (j & _ & H). destruct (j <? 256) eqn:E; [|discriminate]. injection H as <-. apply N.ltb_lt, E.
Qed.
Lemma decimals_fit C w i self d : all_fit w -> query_decimals (wq C w) i self = Ok d -> d < 256.
Proof.
  intros F H. unfold query_decimals in H. destruct i as [t|n]; cbn [wq q_token_info q_native_decimals] in H.
  - apply rbind_ok in H as (ti & H1 & H). injection H as <-. eapply ask_info_fits; eauto.
  - eapply ask_native_fits; eauto.
Qed.
Lemma factory_fits_execute C w self st s m st' rsp : all_fit w -> factory_fits st ->
  factory_execute (ch_api C) (wq C w) self st s m = Ok (st', rsp) -> factory_fits st'.
Proof.
  intros W F H. pose proof F as (F1 & F2 & F3 & F4 & F5). unfold factory_execute in H. destruct (jmsg_ranges m) eqn:R; [|discriminate]. cbn [negb] in H.
  destruct m; try discriminate; cbn [jmsg_ranges] in R.
  - unfold update_config in H. apply rbind_ok in H as (? & _ & H). apply rbind_ok in H as (o & _ & H). injection H as <- <-. apply andb_prop in R as [R1 R2].
    split; [|split; [|auto]]; cbn [f_pair_code f_token_code].
    + destruct pair_code_id as [y1|]; [apply N.ltb_lt; exact R2|exact F1].
    + destruct token_code_id as [y1|]; [apply N.ltb_lt; exact R1|exact F2].
  - unfold create_pair in H. apply rbind_ok in H as (? & _ & H). apply rbind_ok in H as (d0 & D0 & H). apply rbind_ok in H as (d1 & D1 & H).
    apply rbind_ok in H as (r0 & _ & H). apply rbind_ok in H as (r1 & _ & H). cbv zeta in H. destruct (f_pairs st !! pair_key (r0, r1)); [discriminate|].
    injection H as <- <-. unfold or_invalid in D0, D1.
    destruct (query_decimals _ _.1 _) as [x0|] eqn:Q0; [|discriminate]. destruct (query_decimals _ _.2 _) as [x1|] eqn:Q1; [|discriminate].
    injection D0 as <-. injection D1 as <-. apply (decimals_fit C w _ _ _ W) in Q0, Q1.
    split; [exact F1|]. split; [exact F2|]. split; [exact F3|]. split; [exact F4|]. cbn [f_tmp]. intros t E. injection E as <-. cbn. auto.
  - unfold add_native in H. apply rbind_ok in H as (? & _ & H). apply rbind_ok in H as (b & _ & H). apply rbind_ok in H as (? & _ & H). injection H as <- <-.
    split; [exact F1|]. split; [exact F2|]. split; [|auto]. cbn [f_native]. intros d n E. destruct (decide (d = denom)) as [->|Dn].
    + rewrite lookup_insert in E. injection E as <-. apply N.ltb_lt. exact R.
    + rewrite lookup_insert_ne in E by congruence. eauto.
  - unfold migrate_pair in H. apply rbind_ok in H as (? & _ & H). injection H as <- <-. exact F.
Qed.
Lemma pair_self_fits C w p i : main C w -> ask_pair_self C w p = Ok i -> pair_info_ranges i = true.
Proof.
  intros M H. unfold ask_pair_self, contract_at in H. apply rbind_ok in H as ([p' s] & H1 & H). apply rbind_ok in H1 as (a & _ & H1).
  apply rbind_ok in H1 as (x & Hx & H1). apply oget_ok in Hx. injection H1 as <- <-. destruct (i_state x) as [ps| | | |k y] eqn:Es; try discriminate.
  - assert (Hp : pair_at w a ps) by (unfold pair_at, state_at; rewrite Hx; cbn; congruence). destruct (mn_pairs _ _ M _ _ Hp) as [_ _ _ G0 G1 Gr _].
    unfold pair_query_pair, pair_to_normal in H. repeat (apply rbind_ok in H as (? & _ & H)). injection H as <-. unfold pair_info_ranges, u8_ok. cbn [p_asset_decimals p_requirements].
    rewrite Gr. apply N.ltb_lt in G0, G1. rewrite G0, G1. reflexivity.
  - apply rbind_ok in H as (j & _ & H). destruct (pair_info_ranges j) eqn:E; [|discriminate]. injection H as <-. exact E.
Qed.
Lemma factory_fits_reply C w st a st' rsp : main C w -> factory_fits st -> factory_reply (ch_api C) (wq C w) st a = Ok (st', rsp) -> factory_fits st'.
Proof.
  intros M (F1 & F2 & F3 & F4 & F5) H. unfold factory_reply in H. apply rbind_ok in H as (tmp & Ht & H). apply oget_ok in Ht. apply rbind_ok in H as (p & Hp & H).
  apply rbind_ok in H as (lp & _ & H). apply rbind_ok in H as (c & _ & H). injection H as <- <-. destruct (F5 _ Ht) as [T0 T1].
  cbn [wq q_pair_self] in Hp. apply (pair_self_fits C w a p M) in Hp. unfold pair_info_ranges in Hp. apply andb_prop in Hp as [_ Hr].
  split; [exact F1|]. split; [exact F2|]. split; [exact F3|]. split; [|exact F5]. cbn [f_pairs]. intros k r E. destruct (decide (k = t_key tmp)) as [->|D].
  - rewrite lookup_insert in E. injection E as <-. split; [exact T0|]. split; [exact T1|exact Hr].
  - rewrite lookup_insert_ne in E by congruence. eauto.
Qed.

(** ** All contracts *)
Lemma call_fits C w a s sender funds m st rsp : all_fit w -> fits s -> call C w a s sender funds m = Ok (st, rsp) -> fits st.
Proof.
  intros W F H. unfold call, wrap in H. destruct s; apply rbind_ok in H as ([s' r'] & H & E); injection E as <- <-; try exact I.
  - eapply factory_fits_execute; eauto.
  - eapply token_fits_execute; eauto.
Qed.
Lemma init_fits_all C w a k sender funds m st rsp : init C w a k sender funds m = Ok (st, rsp) -> fits st.
Proof.
  intros H. unfold init, wrap in H. destruct k, m; try discriminate; try (destruct (_ && _); [|discriminate]);
    apply rbind_ok in H as ([s' r'] & H & E); injection E as <- <-; try exact I.
  - unfold factory_instantiate in H. destruct (u64_ok _ && u64_ok _) eqn:U; [|discriminate]. apply andb_prop in U as [U1 U2]. cbn [negb] in H.
    apply rbind_ok in H as (o & _ & H). injection H as <- <-. cbn [fits]. split; [apply N.ltb_lt; exact U1|]. split; [apply N.ltb_lt; exact U2|].
    cbn [f_native f_pairs f_tmp]. split; [intros d n E; rewrite lookup_empty in E; discriminate|]. split; [intros d n E; rewrite lookup_empty in E; discriminate|]. discriminate.
  - eapply token_fits_init; eauto.
Qed.
Lemma reply_fits C w a s id ok r st rsp : main C w -> fits s -> reply C w a s id ok r = Ok (st, rsp) -> fits st.
Proof.
  intros M F H. unfold reply, wrap in H. destruct s; try discriminate; [destruct r; [|discriminate]|destruct r; [|discriminate]|];
    apply rbind_ok in H as ([s' r'] & H & E); injection E as <- <-; try exact I.
  eapply factory_fits_reply; eauto.
Qed.
Lemma all_fit_set w a s : all_fit w -> fits s -> all_fit (set_state w a s).
Proof.
  intros W F x s' H. destruct (w_insts w !! a) as [i|] eqn:E.
  - rewrite state_at_set in H by eauto. case_decide; [injection H as <-; exact F|eauto].
  - unfold set_state in H. rewrite E in H. eauto.
Qed.
Lemma fits_ok C (OK : chain_ok C) : ind2_ok C (fun w w' _ => all_fit w -> all_fit w') (fun _ _ _ => True).
Proof.
  split; intros; auto.
  - intros x sx Hx. eapply H6. unfold state_at in Hx |- *. rewrite <- (bm_insts _ _ _ _ _ H3). exact Hx.
  - right. split; [apply List.Forall_forall; auto|]. intros K W. apply K. apply all_fit_set.
    + intros x sx Hx. eapply W. unfold state_at in Hx |- *. rewrite <- (bm_insts _ _ _ _ _ H3). exact Hx.
    + eapply call_fits; [|eapply W; exact H4|exact H6].
      intros x sx Hx. eapply W. unfold state_at in Hx |- *. rewrite <- (bm_insts _ _ _ _ _ H3). exact Hx.
  - right. split; [apply List.Forall_forall; auto|]. intros K W. apply K. intros x sx Hx. rewrite H7 in Hx. case_decide; [injection Hx as <-|eauto].
    eapply init_fits_all; eauto.
  - apply all_fit_set; [assumption|]. assert (Hs : state_at w a = Some (i_state i)) by (unfold state_at; rewrite H3; reflexivity).
    assert (F := H9 _ _ Hs). unfold migrated in H6. destruct (i_state i), k; try discriminate; try (injection H6 as <-; exact F); try exact I;
      apply fmap_Some in H6 as (? & _ & ->); exact I.
  - intros x sx Hx. unfold set_admin in Hx. destruct (w_insts w !! a) as [i|] eqn:E; [|eauto]. unfold state_at, set_insts in Hx. cbn [w_insts] in Hx.
    destruct (decide (x = a)) as [->|D].
    + rewrite lookup_insert in Hx. cbn in Hx. injection Hx as <-. eapply H2. unfold state_at. rewrite E. reflexivity.
    + rewrite lookup_insert_ne in Hx by congruence. eauto.
  - split; [apply List.Forall_forall; auto|]. intros W. apply all_fit_set; [exact W|].
    eapply reply_fits; [|eapply W; unfold state_at; rewrite H7; reflexivity|exact H8]. assumption.
  - split; [apply List.Forall_forall; auto|]. intros W. apply all_fit_set; [exact W|exact I].
Qed.
Lemma history_fits C w lg w' : chain_ok C -> main C w -> history C w lg w' -> all_fit w -> all_fit w'.
Proof.
  intros OK M Hh. apply (history_ind2 C OK (fun w w' _ => all_fit w -> all_fit w') (fun _ _ _ => True) w lg w'); auto using fits_ok.
Qed.
Lemma reachable_fits C w : chain_ok C -> reachable C w -> all_fit w.
Proof.
  intros OK Hr. induction Hr as [b blk|w s m w' lg Hr IH Ht|w blk Hr IH _ _].
  - intros a s H. unfold state_at in H. cbn [w_insts] in H. rewrite lookup_empty in H. discriminate.
  - pose proof (reachable_main C OK w Hr) as M. refine (history_fits C w ([] ++ lg) w' OK M _ IH). eapply hist_tx; [apply hist_refl|exact Ht].
  - exact IH.
Qed.
