(** The shares of a pool never outgrow its reserves (C95). *)
From Verif Require Import Base BigNumber CwStd BigNumberFacts Asset Messages PairMath Pair PairFacts Token Factory Router
  SwapFacts SwapFacts2 P_Swap P_Pair FactoryFacts P_Factory P_Router TokenFacts World WorldInd WorldFacts WorldInv WorldInd2
  Examples WorldExamples P_Ledger P_Registry ExecFacts P_Exec P_Value.
From Coq Require Import ZifyN.
Local Open Scope N_scope.
Ltac Zify.zify_post_hook ::= idtac.

(** ** Specification *)

(** There are at most sqrt (reserve0 * reserve1) shares; squared. *)
Definition backed (p lp : string) (i0 i1 : asset_info) (w : world) : Prop :=
  supply w lp ^ 2 <= holds w p i0 * holds w p i1.

(** ** Lemmas *)
Lemma backed_sides p lp i0 i1 w w' : supply w lp <> 0 ->
  supply w' lp * holds w p i0 <= supply w lp * holds w' p i0 ->
  supply w' lp * holds w p i1 <= supply w lp * holds w' p i1 -> backed p lp i0 i1 w -> backed p lp i0 i1 w'.
Proof.
  unfold backed. intros Z H0 H1 B. pose proof (two_sides _ _ _ _ _ _ H0 H1) as X.
  apply (N.mul_le_mono_pos_l _ _ (supply w lp ^ 2)); [apply N.neq_0_lt_0, N.pow_nonzero; exact Z|].
  etransitivity; [|exact X]. rewrite N.mul_comm. apply N.mul_le_mono_l. exact B.
Qed.

Section value.
  Context (C : chain) (OK : chain_ok C).
  Local Notation A := (ch_api C).
  Context (p lp : string) (st : pair_info_raw) (i0 i1 : asset_info).
  Context (Has : assets_are C st i0 i1) (Hne : i0 <> i1) (Hlp : human A (r_liquidity_token st) = Some lp)
    (N0 : i0 <> Token lp) (N1 : i1 <> Token lp).
  Local Notation v_inv := (P_Value.v_inv p lp st i0 i1).
  Local Notation watched := (P_Value.watched lp i0 i1).
  Definition v_log (lg : list event) : Prop := forall e, In e lg -> ordinary_swap p e.
  Definition v_rel (w w' : world) (lg : list event) : Prop :=
    v_inv w' /\ (v_log lg -> backed p lp i0 i1 w -> backed p lp i0 i1 w').
  Definition v_may (_ : world) (a : string) (sm : submsg) : Prop :=
    a <> p /\ (watched a -> exists c s n h, sm = plain (MExecute c (JReceive s n h) []) /\ norm A c <> Some p).

  Lemma v_inv_rel x w w' : rel x w w' -> v_inv w -> v_inv w'.
  Proof.
    intros R (Hp & L0 & L1 & ts & cap & Ht & Hm). split; [|split; [|split]].
    - destruct (rl_pairs _ _ _ R _ _ Hp) as (st' & Hp' & [->|(_ & X & _)]); [exact Hp'|]. exfalso. rewrite X in Hlp.
      apply (api_human_canon C OK) in Hlp. exact (canon_nonempty C OK _ Hlp).
    - destruct i0; [|exact I]. destruct L0 as (us & Hu). destruct (rl_toks _ _ _ R _ _ Hu) as (us' & Hu' & _). exists us'. exact Hu'.
    - destruct i1; [|exact I]. destruct L1 as (us & Hu). destruct (rl_toks _ _ _ R _ _ Hu) as (us' & Hu' & _). exists us'. exact Hu'.
    - destruct (rl_toks _ _ _ R _ _ Ht) as (ts' & Ht' & _ & _ & _ & M). exists ts', cap. split; [exact Ht'|]. rewrite (M p st cap); auto.
  Qed.
  Lemma watched_token w a : v_inv w -> watched a -> exists ts, tok_at w a ts.
  Proof.
    intros (_ & L0 & L1 & ts & cap & Ht & _) [->|[E|E]]; [eauto| |].
    - rewrite <- E in L0. exact L0.
    - rewrite <- E in L1. exact L1.
  Qed.
  Lemma watched_dec a : watched a \/ ~ watched a.
  Proof. unfold watched. destruct (decide (a = lp)), (decide (Token a = i0)), (decide (Token a = i1)); tauto. Qed.
  Lemma watched_not_p w : v_inv w -> ~ watched p.
  Proof. intros V W. destruct (watched_token _ _ V W) as (ts & Ht). destruct V as (Hp & _). unfold pair_at, tok_at in *. congruence. Qed.

  (** A step in which the reserves do not fall and no share is minted. *)
  Definition quiet (w w' : world) : Prop :=
    v_inv w' /\ supply w' lp <= supply w lp /\ holds w p i0 <= holds w' p i0 /\ holds w p i1 <= holds w' p i1.
  Lemma quiet_rel w w' : quiet w w' -> v_rel w w' [].
  Proof. intros (V & S & H0 & H1). split; [exact V|]. intros _ P. unfold backed in *. etransitivity; [apply N.pow_le_mono_l; exact S|]. etransitivity; [exact P|]. apply N.mul_le_mono; assumption. Qed.
  Lemma v_rel_trans w w1 w2 l1 l2 : v_rel w w1 l1 -> v_rel w1 w2 l2 -> v_rel w w2 (l1 ++ l2).
  Proof.
    intros [V1 H1] [V2 H2]. split; [exact V2|]. intros G P.
    apply H2; [intros e He; apply G; apply in_or_app; auto|]. apply H1; [intros e He; apply G; apply in_or_app; auto|exact P].
  Qed.
  Lemma quiet_event w w2 w3 e lg : quiet w w2 -> v_rel w2 w3 lg -> v_rel w w3 (e :: lg).
  Proof.
    intros Q H. destruct (v_rel_trans _ _ _ _ _ (quiet_rel _ _ Q) H) as [V X]. split; [exact V|]. intros G. apply X. intros e' He. apply G. right. exact He.
  Qed.
  Lemma quiet_toks w w' : v_inv w' -> (forall t ts, tok_at w t ts -> exists ts', tok_at w' t ts' /\ (t = lp -> tk_supply ts' <= tk_supply ts) /\ balance_of ts p <= balance_of ts' p) ->
    v_inv w -> (forall d, bal w p d <= bal w' p d) -> quiet w w'.
  Proof.
    intros V' Hs (_ & L0 & L1 & ts & cap & Ht & _) Hb.
    assert (X : forall i, live w i -> holds w p i <= holds w' p i).
    { intros [t|d] L; [|apply Hb]. destruct L as (us & Hu). destruct (Hs _ _ Hu) as (us' & Hu' & _ & B). rewrite (holds_tok _ _ _ _ Hu), (holds_tok _ _ _ _ Hu'). exact B. }
    split; [exact V'|]. split; [|auto]. destruct (Hs _ _ Ht) as (ts' & Ht' & S & _). rewrite (supply_at _ _ _ Ht), (supply_at _ _ _ Ht'). exact (S eq_refl).
  Qed.

  (** *** A token tells the pair about a deposit *)
  Lemma recv_value f w w2 a ta s n h w3 x lg : sane C w2 -> v_inv w2 -> tok_at w2 a ta ->
    supply w2 lp = supply w lp -> (forall j, holds w2 p j = holds w p j + (if decide (j = Token a) then n else 0)) ->
    exec C f w2 a (MExecute p (JReceive s n h) []) = Ok (w3, x, lg) ->
    v_log lg -> backed p lp i0 i1 w -> backed p lp i0 i1 w3.
  Proof.
    intros Sn V Hta ES EH E G P. pose proof V as (Hp & L0 & L1 & ts & cap & Ht & _).
    assert (Hx : exists st' rsp, pair_execute A (wq C w2) p st a [] (JReceive s n h) = Ok (st', rsp)).
    { destruct f; [rewrite exec_0 in E; discriminate|]. rewrite exec_eq in E.
      rewrite (sane_norm C OK _ _ _ Sn Hp) in E. cbn [oget rbind] in E. rewrite bank_send_none in E. cbn [rbind] in E.
      pose proof Hp as Hi. apply state_at_inst in Hi as (adm & Hi). rewrite Hi in E. cbn [oget rbind i_state call] in E.
      apply rbind_ok in E as ([s' rsp] & Ec & _). apply rbind_ok in Ec as ([st' rsp'] & Ec & _). eauto. }
    destruct Hx as (st' & rsp & Hx).
    destruct (pair_calls _ _ _ _ _ _ _ _ Hx) as [(s0 & n0 & h0 & X & Hh)|(? & ? & ? & X)]; [|discriminate].
    injection X as <- <- <-. destruct Hh as [->|(bp & ms & to & ->)].
    - (* withdrawal *)
      apply receive_withdraw_inv in Hx as (_ & Hc & _ & _).
      pose proof (canon_norm_eq C _ _ _ Hc (sane_norm C OK _ _ _ Sn Hta) Hlp) as Ea. subst a.
      pose proof (withdraw_recv_inv C OK _ _ _ _ _ _ _ _ _ _ _ _ _ Sn Hp Has L0 L1 Hlp Ht E) as X. cbv zeta in X.
      destruct X as (wa & wb & _ & HS & Hn & _ & _ & _ & Pa & Pb & B & _ & _ & _).
      destruct (pd_toks _ _ _ _ _ _ Pa _ _ Ht) as (tsa & Hta' & _ & _ & _ & Sa & _).
      destruct (pd_toks _ _ _ _ _ _ Pb _ _ Hta') as (tsb & Htb' & _ & _ & _ & Sb & _).
      destruct (bn_supply _ _ _ _ _ B _ Htb') as (tsc & Htc & Sc & _).
      rewrite (supply_at _ _ _ Ht) in ES.
      assert (H0 : holds w2 p i0 <= holds w3 p i0 + refund (holds w2 p i0) n (tk_supply ts)).
      { pose proof (pd_holds _ _ _ _ _ _ Pa p i0) as Q1. pose proof (pd_holds _ _ _ _ _ _ Pb p i0) as Q2. pose proof (bn_holds _ _ _ _ _ B p i0) as Q3.
        rewrite decide_True in Q1 by auto. rewrite !(decide_False (P := _ /\ i0 = i1)) in Q2 by tauto. rewrite decide_False in Q3 by tauto.
        destruct (decide (p = s /\ i0 = i0)); lia. }
      assert (H1 : holds w2 p i1 <= holds w3 p i1 + refund (holds w2 p i1) n (tk_supply ts)).
      { pose proof (pd_holds _ _ _ _ _ _ Pa p i1) as Q1. pose proof (pd_holds _ _ _ _ _ _ Pb p i1) as Q2. pose proof (bn_holds _ _ _ _ _ B p i1) as Q3.
        rewrite decide_True in Q2 by auto. rewrite !(decide_False (P := _ /\ i1 = i0)) in Q1 by (intros []; congruence). rewrite decide_False in Q3 by tauto.
        destruct (decide (p = s /\ i1 = i1)); lia. }
      assert (E0 : holds w2 p i0 = holds w p i0) by (rewrite EH, decide_False by exact N0; lia).
      assert (E1 : holds w2 p i1 = holds w p i1) by (rewrite EH, decide_False by exact N1; lia).
      assert (Hle : n <= tk_supply ts) by lia.
      apply (backed_sides p lp i0 i1 w); [rewrite <- ES; exact HS| | |exact P]; rewrite (supply_at _ _ _ Htc), <- ES, <- ?E0, <- ?E1; replace (tk_supply tsc) with (tk_supply ts - n) by lia; (etransitivity; [apply (withdraw_side (tk_supply ts) n); [exact Hle|exact HS]|apply N.mul_le_mono_l; lia]).
    - (* swap *)
      assert (Sw : forall i i', (i = i0 /\ i' = i1) \/ (i = i1 /\ i' = i0) -> i = Token a ->
        backed p lp i0 i1 w3).
      { intros i i' Hi Ei. assert (L : live w2 i') by (destruct Hi as [[_ ->]|[_ ->]]; assumption).
        assert (D : Token a <> i') by (destruct Hi as [[-> ->]|[-> ->]]; congruence).
        assert (Sd : exists od ad, sides A st (Token a) i' od ad).
        { destruct Has as [Ha0 Ha1]. destruct (r_asset_decimals st) as [da db] eqn:Ed. destruct Hi as [[-> ->]|[-> ->]]; rewrite Ei in *.
          - exists da, db. left. auto.
          - exists db, da. right. auto. }
        destruct Sd as (od & ad & Sd).
        pose proof (swap_recv_inv C OK _ _ _ _ _ _ _ _ _ _ _ _ _ _ _ _ Sn Hp Sd D (ex_intro _ ta Hta) L E) as X. cbv zeta in X.
        destruct X as (r & sp & c & rcv' & lg' & Hn & Hn' & B0 & B1 & Hsw & _ & _ & Pd & _ & Elg).
        rewrite Elg in G. pose proof (G _ (or_introl eq_refl)) as O. clear G. specialize (O eq_refl (ex_intro _ s (ex_intro _ n (ex_intro _ bp (ex_intro _ ms (ex_intro _ to eq_refl)))))).
        assert (Hc : holds w2 p (Token a) - n + n <= 10 ^ 18 \/ 1 <= c).
        { cbn [ev_contract ev_msg ev_world ev_sender ev_attrs] in O. destruct O as [O|O].
          - left. lia.
          - right. destruct (N.eq_dec c 0) as [->|]; [|lia]. exfalso. apply O. unfold swap_attrs. do 8 right. left. reflexivity. }
        assert (Ho : holds w2 p (Token a) - n < B128) by (eapply N.le_lt_trans; [apply N.le_sub_l|exact B0]).
        destruct (C01_product_never_falls _ _ _ _ _ _ Ho B1 Hn' Hsw Hc) as [Hr K].
        destruct (pd_toks _ _ _ _ _ _ Pd _ _ Ht) as (ts3 & Ht3 & _ & _ & _ & S3 & _).
        assert (E3 : supply w3 lp = supply w lp) by (rewrite (supply_at _ _ _ Ht3), S3, <- ES; symmetry; apply supply_at; exact Ht).
        unfold backed in *. rewrite E3. etransitivity; [exact P|].
        pose proof (pd_holds _ _ _ _ _ _ Pd p i') as Q1. pose proof (pd_holds _ _ _ _ _ _ Pd p (Token a)) as Q2.
        rewrite !(decide_False (P := _ /\ Token a = i')) in Q2 by tauto. rewrite decide_True in Q1 by auto.
        pose proof (EH (Token a)) as E1. rewrite decide_True in E1 by reflexivity. pose proof (EH i') as E2. rewrite decide_False in E2 by congruence.
        assert (K2 : holds w p (Token a) * holds w p i' <= holds w3 p (Token a) * holds w3 p i').
        { etransitivity; [|etransitivity; [exact K|apply N.mul_le_mono]].
          - replace (holds w2 p (Token a) - n) with (holds w p (Token a)) by lia. replace (holds w2 p i') with (holds w p i') by lia. lia.
          - lia.
          - destruct (decide (p = rcv' /\ i' = i')); lia. }
        destruct Hi as [[-> ->]|[-> ->]]; rewrite Ei in *; lia. }
      apply receive_swap_inv in Hx as (y & to' & _ & _ & _ & Hy & Hi & _).
      apply (pools_are C OK w2 p st i0 i1 y Sn Hp Has L0 L1) in Hy as (_ & _ & ->). cbn [fst snd a_info] in Hi.
      destruct Hi as [Hi|Hi]; [apply (Sw i0 i1)|apply (Sw i1 i0)]; auto.
  Qed.

  (** *** A deposit *)
  Definition pulled (w w' : world) (i : asset_info) (d : N) : Prop :=
    sane C w' /\ (forall j, holds w' p j = holds w p j + match i with Token t => if decide (j = Token t) then d else 0 | Native _ => 0 end) /\
    (forall u us, tok_at w u us -> exists us', tok_at w' u us' /\ tk_supply us' = tk_supply us).
  Lemma run_pull f w s pool d m q rest w' lg : sane C w -> live w (a_info pool) -> s <> p ->
    pull_deposit p s pool d = Ok (m, q) -> run C f w p (map plain (m ++ rest)) = Ok (w', lg) ->
    exists f' wm lg', pulled w wm (a_info pool) d /\ run C f' wm p (map plain rest) = Ok (w', lg').
  Proof.
    intros Sn L Hs Hp E. apply pull_deposit_ok in Hp. destruct (a_info pool) as [t|dn].
    - destruct Hp as [-> _]. cbn [app map] in E. destruct f; [rewrite run_0 in E; discriminate|]. rewrite run_plain in E.
      apply rbind_ok in E as ([[w1 r1] l1] & E1 & E). apply rbind_ok in E as ([w2 l2] & E2 & E). injection E as <- _.
      apply (pull_inv C OK) in E1 as (S1 & H1 & T1 & _); auto. exists f, w1, l2. split; [|exact E2]. split; [exact S1|]. split; [exact H1|].
      intros u us Hu. destruct (T1 _ _ Hu) as (us' & Hu' & X & _). eauto.
    - destruct Hp as [-> _]. exists f, w, lg. split; [|exact E]. split; [exact Sn|]. split; [intros; lia|]. eauto.
  Qed.
  Lemma sent_native a funds d : assert_sent_native a funds = Ok tt -> a_info a = Native d -> a_amount a <= coin_sum d funds.
  Proof.
    unfold assert_sent_native. intros H E. rewrite E in H. clear E. destruct (find_coin d funds) as [c|] eqn:F.
    - destruct (N.eqb_spec (a_amount a) (c_amount c)) as [->|]; [|discriminate]. clear H. induction funds as [|x l IH]; [discriminate|].
      cbn [find_coin] in F. rewrite coin_sum_cons. case_bool_decide as D.
      + injection F as ->. rewrite decide_True by exact D. lia.
      + apply IH in F. lia.
    - destruct (N.eqb_spec (a_amount a) 0) as [->|]; [lia|discriminate].
  Qed.
  Lemma supply_query w t ts ti : sane C w -> tok_at w t ts -> q_token_info (wq C w) t = Ok ti -> ti_total_supply ti = tk_supply ts.
  Proof.
    intros Sn Ht Hti. cbn [wq q_token_info] in Hti. unfold ask_token_info, contract_at in Hti. rewrite (sane_norm C OK _ _ _ Sn Ht) in Hti. cbn [oget rbind] in Hti.
    pose proof Ht as Hit. apply state_at_inst in Hit as (adt & Hit). rewrite Hit in Hti. cbn [oget rbind i_state] in Hti. injection Hti as <-. reflexivity.
  Qed.

  Lemma provide_value f w w1 s funds assets tol rcv rsp st' w3 lg : sane C w1 -> v_inv w1 -> s <> p ->
    bank_moved w w1 s p funds ->
    pair_execute A (wq C w1) p st s funds (JProvideLiquidity assets tol rcv) = Ok (st', rsp) ->
    run C f w1 p (rs_msgs rsp) = Ok (w3, lg) ->
    backed p lp i0 i1 w -> backed p lp i0 i1 w3.
  Proof.
    intros Sn V Hs Hb Hx E P. pose proof V as (Hp & L0 & L1 & ts & cap & Ht & _).
    unfold pair_execute in Hx. destruct (jmsg_ranges _); [|discriminate]. cbn [negb] in Hx.
    apply provide_inv in Hx as (x & d0 & d1 & m0 & p0 & m1 & p1 & lp' & ti & share & A0 & A1 & _ & Hy & D0 & D1 & P0 & P1 & _ & Hlp' & Hti & _ & Hsh & Hm).
    rewrite Hlp in Hlp'. injection Hlp' as <-.
    apply (pools_are C OK w1 p st i0 i1 x Sn Hp Has L0 L1) in Hy as (_ & _ & ->). cbn [fst snd a_info a_amount] in *.
    rewrite (supply_query _ _ _ _ Sn Ht Hti) in Hsh.
    rewrite Hm in E.
    apply (run_pull _ _ _ (Asset i0 (holds w1 p i0)) _ _ _ _ _ _ Sn L0 Hs P0) in E as (f1 & wa & la & (Sa & Ha & Ta) & E). cbn [a_info] in Ha.
    assert (La : live wa i1) by (destruct i1; [|exact I]; destruct L1 as (us & Hu); destruct (Ta _ _ Hu) as (us' & Hu' & _); exists us'; exact Hu').
    apply (run_pull _ _ _ (Asset i1 (holds w1 p i1)) _ _ _ _ _ _ Sa La Hs P1) in E as (f2 & wb & lb & (Sb & Hbb & Tb) & E). cbn [a_info] in Hbb.
    destruct (Ta _ _ Ht) as (tsa & Hta & ESa). destruct (Tb _ _ Hta) as (tsb & Htb & ESb).
    cbn [map] in E. destruct f2; [rewrite run_0 in E; discriminate|]. rewrite run_plain in E.
    apply rbind_ok in E as ([[wc rc] lc] & Ec & E). apply rbind_ok in E as ([wd ld] & Ed & E). injection E as <- _.
    destruct f2; [rewrite run_0 in Ed; discriminate|]. rewrite run_nil in Ed. injection Ed as <- _.
    apply (mint_inv C OK _ _ _ _ tsb) in Ec as (_ & Sc & Hc); [|exact Sb|exact Htb].
    rewrite ESb, ESa in Sc.
    assert (B : forall t, holds w1 p (Token t) = holds w p (Token t)) by (intros t; unfold holds, state_at; rewrite (bm_insts _ _ _ _ _ Hb); reflexivity).
    assert (Bn : forall d, holds w1 p (Native d) = holds w p (Native d) + coin_sum d funds).
    { intros d. pose proof (bm_bal _ _ _ _ _ Hb p d) as Q. rewrite decide_False in Q by congruence. rewrite decide_True in Q by reflexivity. cbn [holds]. lia. }
    assert (Sd : forall d dn, deposit_of assets (Native dn) = Ok d -> d <= coin_sum dn funds).
    { intros d dn Hd. apply deposit_of_ok in Hd as [[X <-]|(_ & X & <-)]; eapply sent_native; eauto. }
    assert (S0 : supply w lp = tk_supply ts).
    { rewrite <- (supply_at _ _ _ Ht). unfold supply, state_at. rewrite (bm_insts _ _ _ _ _ Hb). reflexivity. }
    assert (D0' : holds w p i0 + d0 <= holds wc p i0).
    { rewrite Hc by assumption. rewrite Hbb, Ha. destruct i0 as [t|dn]; [rewrite (decide_True (P := Token t = Token t)) by reflexivity; rewrite B; lia|]. rewrite Bn. apply Sd in D0. lia. }
    assert (D1' : holds w p i1 + d1 <= holds wc p i1).
    { rewrite Hc by assumption. rewrite Hbb, Ha. destruct i1 as [t|dn]; [rewrite (decide_True (P := Token t = Token t)) by reflexivity; rewrite B; lia|]. rewrite Bn. apply Sd in D1. lia. }
    destruct (N.eqb_spec (tk_supply ts) 0) as [Z|Z].
    { destruct Hsh as (_ & _ & _ & Hsh). apply initial_share_ok in Hsh as (_ & ->). unfold backed. rewrite Sc, Z. cbn [N.add].
      transitivity (d0 * d1); [rewrite N.pow_2_r; apply N.sqrt_spec; lia|]. apply N.mul_le_mono; lia. }
    apply later_share_ok in Hsh as (Z0 & Z1 & _ & _ & Hsh).
    assert (Q0 : share * p0 <= d0 * tk_supply ts).
    { etransitivity; [apply N.mul_le_mono_r, (N.le_trans _ (d0 * tk_supply ts / p0)); [lia|reflexivity]|]. apply div_lo. exact Z0. }
    assert (Q1 : share * p1 <= d1 * tk_supply ts).
    { etransitivity; [apply N.mul_le_mono_r, (N.le_trans _ (d1 * tk_supply ts / p1)); [lia|reflexivity]|]. apply div_lo. exact Z1. }
    apply pull_deposit_ok in P0, P1. cbn [a_info a_amount] in P0, P1. apply (backed_sides p lp i0 i1 w); [rewrite S0; exact Z| | |exact P]; rewrite S0, Sc.
    - apply (deposit_side _ _ _ _ p0 d0); [|exact D0'|exact Q0].
      destruct i0 as [t|dn]; [destruct P0 as [_ ->]; rewrite B; lia|]. destruct P0 as (_ & -> & X). apply Sd in D0. rewrite Bn. lia.
    - apply (deposit_side _ _ _ _ p1 d1); [|exact D1'|exact Q1].
      destruct i1 as [t|dn]; [destruct P1 as [_ ->]; rewrite B; lia|]. destruct P1 as (_ & -> & X). apply Sd in D1. rewrite Bn. lia.
  Qed.

  (** *** All calls *)
  Lemma v_unwatched w a l : a <> p -> ~ watched a -> Forall (v_may w a) l.
  Proof. intros D U. induction l; constructor; [|assumption]. split; [exact D|]. intros W. destruct (U W). Qed.
  Lemma not_owner w t ts sp v : main C w -> v_inv w -> tok_at w t ts -> tk_allow ts !! (p, sp) = Some v -> False.
  Proof. intros M (Hp & _) Ht Ha. apply (pair_not_user C w p st M Hp). eapply mn_allow; eauto. Qed.

  Lemma v_ok : ind3_ok C v_inv v_rel v_may.
  Proof.
    split.
    - intros w w' lg _ [V _]. exact V.
    - intros w _ V. apply quiet_rel. split; [exact V|]. lia.
    - intros w w1 w2 l1 l2 _ _ _ _ _ _. apply v_rel_trans.
    - intros w w' a sm lg _ _ _ _ _ _ H. exact H.
    - intros w s ro to cs w' to' M V _ [Hs _] Hn Hb M' R. apply quiet_rel. apply quiet_toks; [eapply v_inv_rel; eauto| |exact V|].
      + intros t ts Ht. exists ts. split; [|lia]. eapply same_toks; [apply (bm_insts _ _ _ _ _ Hb)|exact Ht].
      + intros d. pose proof (bm_bal _ _ _ _ _ Hb p d) as B. rewrite decide_False in B by congruence. destruct (decide (p = to')); lia.
    - intros w s ro c msg funds a w1 i st2 rsp f w3 lg M V Hm [Hs Hw] Hn Hb Hst Hi Hc w2 M2 R2 Fm Er M3 R3.
      pose proof (v_inv_rel _ _ _ R2 V) as V2. pose proof (v_inv_rel _ _ _ R3 V2) as V3.
      destruct (decide (a = p)) as [->|Dp].
      + (* the pair itself *)
        assert (Us : ~ watched s).
        { intros W. destruct (Hw W) as (c0 & s0 & n0 & h0 & X & Y). injection X as -> _ _ _. exact (Y Hn). }
        pose proof V as (Hp & L0 & L1 & ts & cap & Ht & _). unfold pair_at in Hp. rewrite Hst in Hp. injection Hp as Ei.
        rewrite Ei in Hc. cbn [call] in Hc. unfold wrap in Hc. apply rbind_ok in Hc as ([ps' rsp'] & Hc & E'). injection E' as <- <-.
        assert (Eps : ps' = st).
        { destruct V2 as (Hp2 & _). unfold pair_at, w2 in Hp2. rewrite state_at_set in Hp2 by eauto. rewrite decide_True in Hp2 by reflexivity. congruence. }
        subst ps'. assert (E2 : w2 = w1) by (unfold w2; rewrite <- Ei; apply set_state_id; exact Hi). rewrite E2 in *. clear w2 E2.
        pose proof V2 as (Hp1 & K0 & K1 & _).
        destruct (pair_calls _ _ _ _ _ _ _ _ Hc) as [(s0 & n0 & h0 & -> & Hh)|(as0 & tol & rcv & ->)].
        * exfalso. apply Us. destruct Hh as [->|(bp & ms & to & ->)].
          -- left. apply receive_withdraw_inv in Hc as (_ & Hc & _ & _). symmetry. apply (canon_norm_eq C _ _ _ Hc); [|exact Hlp].
             destruct Hm as [[O _]|(x & Hx & _)]; [exact O|]. eapply (sane_norm C OK); [apply main_sane; exact M|exact Hx].
          -- apply receive_swap_inv in Hc as (y & to' & _ & _ & _ & Hy & Hi' & _).
             apply (pools_are C OK w1 p st i0 i1 y (main_sane C _ M2) Hp1 Has K0 K1) in Hy as (_ & _ & ->). cbn [fst snd a_info] in Hi'.
             right. destruct Hi'; auto.
        * left. split; [exact V3|]. intros G P3.
          eapply provide_value; [apply main_sane; exact M2|exact V2|exact Hs|exact Hb|exact Hc|exact Er|exact P3].
      + assert (Q : quiet w w2).
        { apply quiet_toks; [exact V2| |exact V|].
          - intros t ts Ht. destruct (call_toks C _ _ _ _ _ _ _ _ _ _ _ Hb Hst Hi Hc Ht) as [(_ & Ht2)|(-> & ts' & _ & Ht2 & Ef)].
            + exists ts. fold w2 in Ht2. split; [exact Ht2|lia].
            + exists ts'. fold w2 in Ht2. split; [exact Ht2|]. split.
              * intros ->. eapply token_no_mint; [exact Ef|]. intros cap r n Hmt. destruct V as (_ & _ & _ & ts0 & cap0 & Ht0 & Hm0).
                rewrite (tok_at_inj _ _ _ _ Ht Ht0), Hm0 in Hmt. congruence.
              * eapply token_no_loss; [exact Ef| |].
                -- intros ->. destruct (Hs eq_refl).
                -- intros sp v Hal. exact (not_owner _ _ _ _ _ M V Ht Hal).
          - intros d. unfold w2. rewrite set_state_bal. pose proof (bm_bal _ _ _ _ _ Hb p d) as B. rewrite decide_False in B by congruence. destruct (decide (p = a)); lia. }
        destruct (watched_dec a) as [Wa|Ua].
        2: right; split; [exact V2|]; split; [apply v_unwatched; assumption|apply quiet_event; exact Q].
        destruct (watched_token _ _ V Wa) as (ts & Ht).
        destruct (call_toks C _ _ _ _ _ _ _ _ _ _ _ Hb Hst Hi Hc Ht) as [(X & _)|(_ & ts' & Est & Ht2 & Ef)]; [destruct (X eq_refl)|]. fold w2 in Ht2.
        destruct (token_sends _ _ _ _ _ _ _ Ef) as [El|(o & c' & n & h & t1 & El & Nc & Eb & Es & Mv & Ho)].
        { right. split; [exact V2|]. rewrite El. split; [constructor|apply quiet_event; exact Q]. }
        destruct (decide (c' = p)) as [->|Dc].
        2: { right. split; [exact V2|]. rewrite El. split; [|apply quiet_event; exact Q]. constructor; [|constructor].
             split; [exact Dp|]. intros _. eexists _, _, _, _. split; [reflexivity|]. congruence. }
        left. split; [exact V3|]. intros G P3. rewrite El in Er. destruct f; [rewrite run_0 in Er; discriminate|]. rewrite run_plain in Er.
        apply rbind_ok in Er as ([[wx rx] lx] & Ee & Er). apply rbind_ok in Er as ([wy ly] & En & Er). injection Er as <- <-.
        destruct f; [rewrite run_0 in En; discriminate|]. rewrite run_nil in En. injection En as <- <-.
        assert (Do : o <> p).
        { intros ->. destruct Ho as [->|(v & Ho)]; [exact (Hs eq_refl)|exact (not_owner _ _ _ _ _ M V Ht Ho)]. }
        eapply (recv_value _ w w2 a ts'); [apply main_sane; exact M2|exact V2|exact Ht2| | |exact Ee| |exact P3].
        * destruct V as (_ & _ & _ & ts0 & cap0 & Ht0 & _).
          destruct (call_toks C _ _ _ _ _ _ _ _ _ _ _ Hb Hst Hi Hc Ht0) as [(X & Ht3)|(-> & ts3 & Est3 & Ht3 & _)]; fold w2 in Ht3.
          -- rewrite (supply_at _ _ _ Ht0), (supply_at _ _ _ Ht3). reflexivity.
          -- rewrite (supply_at _ _ _ Ht0), (supply_at _ _ _ Ht3). rewrite (tok_at_inj _ _ _ _ Ht0 Ht). rewrite (tok_at_inj _ _ _ _ Ht3 Ht2).
             destruct Mv as [(_ & _ & _ & X & _) _ _ _]. congruence.
        * intros j. destruct (decide (j = Token a)) as [->|Dj].
          -- rewrite (holds_tok _ _ _ _ Ht), (holds_tok _ _ _ _ Ht2). destruct Mv as [_ _ B _]. specialize (B p).
             rewrite decide_False in B by congruence. rewrite decide_True in B by reflexivity. unfold balance_of in *. rewrite Eb in B. lia.
          -- destruct j as [u|d].
             ++ unfold holds, w2. rewrite state_at_set by eauto. rewrite decide_False by congruence. unfold state_at. rewrite (bm_insts _ _ _ _ _ Hb). lia.
             ++ cbn [holds]. unfold w2. rewrite set_state_bal. pose proof (bm_bal _ _ _ _ _ Hb p d) as B. rewrite !decide_False in B by congruence. lia.
        * intros e He. apply G. right. apply in_or_app. left. exact He.
    - intros w s ro ad code msg funds label k adm w1 st2 rsp f w3 lg M V Hm [Hs _] Hk Had a Hb Hc w2 M2 S Hn QP Er M3 R3.
      assert (Old : forall x s0, state_at w x = Some s0 -> state_at w2 x = Some s0).
      { intros x s0 Hx. rewrite S, decide_False by congruence. exact Hx. }
      assert (V2 : v_inv w2).
      { destruct V as (Hp & L0 & L1 & ts & cap & Ht & Hmt). split; [apply Old; exact Hp|]. split; [|split].
        - destruct i0; [|exact I]. destruct L0 as (us & Hu). exists us. apply Old. exact Hu.
        - destruct i1; [|exact I]. destruct L1 as (us & Hu). exists us. apply Old. exact Hu.
        - exists ts, cap. split; [apply Old; exact Ht|exact Hmt]. }
      right. split; [exact V2|]. split.
      + apply v_unwatched.
        * intros Ea. destruct V as (Hp & _). unfold pair_at in Hp. congruence.
        * intros Wa. destruct (watched_token _ _ V Wa) as (ts & Ht). unfold tok_at in Ht. congruence.
      + intros H. apply (v_rel_trans w w2 w3 [] lg); [|exact H]. apply quiet_rel. apply quiet_toks; [exact V2| |exact V|].
        * intros t ts Ht. exists ts. split; [apply Old; exact Ht|]. lia.
        * intros d. change (bal w2 p d) with (bal w1 p d). pose proof (bm_bal _ _ _ _ _ Hb p d) as B.
          change (bal (set_next w (w_next w + 1)) p d) with (bal w p d) in B. rewrite decide_False in B by congruence. destruct (decide _) in B; lia.
    - intros w s ro c code a i k st2 M V _ _ _ Hi _ _ Hmg _ R. apply quiet_rel. apply quiet_toks; [eapply v_inv_rel; eauto| |exact V|].
      + intros t ts Ht. exists ts. split; [eapply mig_toks; eauto|]. lia.
      + intros d. rewrite set_state_bal. lia.
    - intros w a adm M V _ R. apply quiet_rel. apply quiet_toks; [eapply v_inv_rel; eauto| |exact V|].
      + intros t ts Ht. exists ts. split; [apply admin_toks; exact Ht|]. lia.
      + intros d. unfold bal. rewrite set_admin_bank. lia.
    - intros w a sm rest f w' r lg id i st2 rsp M V Hms [Da Hw] Hro Ex M' R' [V' HR] Hi Hr w2 M2 Rr2. split.
      + destruct (reply_msgs C _ _ _ _ _ _ _ _ Hi Hr) as [->|(k & d & Ha)]; [constructor|].
        apply v_unwatched; [exact Da|]. intros Wa. destruct (watched_token _ _ V' Wa) as (ts & Ht). unfold tok_at in Ht. congruence.
      + apply quiet_rel. apply quiet_toks; [eapply v_inv_rel; eauto| |exact V'|].
        * intros t ts Ht. exists ts. split; [eapply reply_toks; eauto|]. lia.
        * intros d. unfold w2. rewrite set_state_bal. lia.
    - intros w a sm rest id k d st2 rsp M V _ [Da Hw] _ Hs _ w2 M2 Rr2. split.
      + apply v_unwatched; [exact Da|]. intros Wa. destruct (watched_token _ _ V Wa) as (ts & Ht). unfold tok_at in Ht. congruence.
      + apply quiet_rel. apply quiet_toks; [eapply v_inv_rel; eauto| |exact V|].
        * intros t ts Ht. exists ts. split; [eapply set_toks; [exact Hs|discriminate|exact Ht]|]. lia.
        * intros dn. unfold w2. rewrite set_state_bal. lia.
  Qed.
End value.

Lemma backed_history C w lg w' p st lp i0 i1 :
  chain_ok C -> reachable C w -> history C w lg w' ->
  pair_at w p st -> assets_are C st i0 i1 -> i0 <> i1 -> live w i0 -> live w i1 ->
  human (ch_api C) (r_liquidity_token st) = Some lp -> live w (Token lp) -> i0 <> Token lp -> i1 <> Token lp ->
  (forall e, In e lg -> ordinary_swap p e) -> backed p lp i0 i1 w -> backed p lp i0 i1 w'.
Proof.
  intros OK Hr Hh Hp Has Hne L0 L1 Hlp (ts & Ht) N0 N1 Ho P. pose proof (reachable_main C OK w Hr) as M.
  assert (V : P_Value.v_inv p lp st i0 i1 w).
  { split; [exact Hp|]. split; [exact L0|]. split; [exact L1|].
    destruct (pg_lp _ _ _ _ (mn_pairs _ _ M _ _ Hp)) as [X|(t & Hl & X)].
    - exfalso. rewrite X in Hlp. apply (api_human_canon C OK) in Hlp. exact (canon_nonempty C OK _ Hlp).
    - rewrite Hlp in Hl. injection Hl as <-. destruct X as [(us & Hu & Hm)|(k & d & X)]; [|unfold tok_at in Ht; congruence]. eauto. }
  destruct (pair_fresh C w p st M Hp) as (n0 & Ep).
  assert (X : v_rel p lp st i0 i1 w w' lg).
  { apply (history_ind3 C OK (P_Value.v_inv p lp st i0 i1) (v_rel p lp st i0 i1) (v_may C p lp i0 i1) w lg w'); auto.
    - apply v_ok; assumption.
    - intros w0 s m [_ O]. split; [intros ->; exact (O n0 (eq_sym Ep))|]. intros Wa. destruct (watched_token _ _ _ _ _ _ _ V Wa) as (us & Hu).
      apply state_at_inst in Hu as (adm & Hu). assert (Hu' : is_Some (w_insts w !! s)) by eauto. apply (mn_fresh _ _ M) in Hu' as (m0 & _ & Em). destruct (O m0 (eq_sym Em)).
    - intros w0 blk _ V0. apply quiet_rel; try assumption. split; [exact V0|]. split; [reflexivity|]. split; apply holds_same; try reflexivity; intros d; reflexivity. }
  exact (proj2 X Ho P).
Qed.


(** ** C95 *)

(** Take a pair [p] of two different assets, each native or a halo-token
    contract, with a halo-token contract [lp] as LP token. Over every history in
    which every swap on [p] either leaves at most 10^18 units of the offered
    token in the pool or pays a commission: if there are at most
    sqrt (reserve0 * reserve1) shares at the start, then also at the end. The
    supply may fall to zero and rise again in between. *)
Theorem C95_shares_stay_backed C w lg w' p st lp i0 i1 :
  chain_ok C -> reachable C w -> history C w lg w' ->
  pair_at w p st -> assets_are C st i0 i1 -> i0 <> i1 -> live w i0 -> live w i1 ->
  human (ch_api C) (r_liquidity_token st) = Some lp -> live w (Token lp) -> i0 <> Token lp -> i1 <> Token lp ->
  (forall e, In e lg -> ordinary_swap p e) ->
  supply w lp ^ 2 <= holds w p i0 * holds w p i1 -> supply w' lp ^ 2 <= holds w' p i0 * holds w' p i1.
Proof. intros OK Hr Hh Hp Has Hne L0 L1 Hlp Lt N0 N1 Ho P. exact (backed_history C w lg w' p st lp i0 i1 OK Hr Hh Hp Has Hne L0 L1 Hlp Lt N0 N1 Ho P). Qed.

(** In particular from a moment without shares on, such as the creation of the
    pair. *)
Theorem C95_backed_since_creation C w lg w' p st lp i0 i1 :
  chain_ok C -> reachable C w -> history C w lg w' ->
  pair_at w p st -> assets_are C st i0 i1 -> i0 <> i1 -> live w i0 -> live w i1 ->
  human (ch_api C) (r_liquidity_token st) = Some lp -> live w (Token lp) -> i0 <> Token lp -> i1 <> Token lp ->
  (forall e, In e lg -> ordinary_swap p e) ->
  supply w lp = 0 -> supply w' lp ^ 2 <= holds w' p i0 * holds w' p i1.
Proof.
  intros OK Hr Hh Hp Has Hne L0 L1 Hlp Lt N0 N1 Ho Z. apply (C95_shares_stay_backed C w lg w' p st lp i0 i1); try assumption.
  rewrite Z. apply N.le_0_l.
Qed.

(** So nobody can drain a reserve while shares are out: as long as there is a
    share, both reserves are positive. *)
Theorem C95_never_drained C w lg w' p st lp i0 i1 :
  chain_ok C -> reachable C w -> history C w lg w' ->
  pair_at w p st -> assets_are C st i0 i1 -> i0 <> i1 -> live w i0 -> live w i1 ->
  human (ch_api C) (r_liquidity_token st) = Some lp -> live w (Token lp) -> i0 <> Token lp -> i1 <> Token lp ->
  (forall e, In e lg -> ordinary_swap p e) ->
  supply w lp = 0 -> 0 < supply w' lp -> 0 < holds w' p i0 /\ 0 < holds w' p i1.
Proof.
  intros OK Hr Hh Hp Has Hne L0 L1 Hlp Lt N0 N1 Ho Z P.
  pose proof (C95_backed_since_creation C w lg w' p st lp i0 i1 OK Hr Hh Hp Has Hne L0 L1 Hlp Lt N0 N1 Ho Z) as B.
  assert (X : 0 < supply w' lp ^ 2) by (apply N.neq_0_lt_0, N.pow_nonzero; lia).
  split; apply N.neq_0_lt_0; intros E; rewrite E in B; lia.
Qed.

(** The pair #4 of the example chain: all shares are withdrawn, then, from no
    shares at all, a first deposit, a swap, a second deposit and a withdrawal. *)
Definition geo_all : bool * cmsg := (true, x_call "#5" (JSend "#4" 14142135 HWithdrawLiquidity)).
Definition geo_world : world := after ex_world [geo_all].
Definition geo_first : bool * cmsg := (true, MExecute "#4"
  (JProvideLiquidity (Asset (Token "#1") 3000000, Asset (Native "uaura") 7000000) None None) [Coin "uaura" 7000000]).
Definition geo_txs : list (bool * cmsg) :=
  [geo_first; ex_swap; ex_provide; (true, x_call "#5" (JSend "#4" 10000 HWithdrawLiquidity)); ex_transfer]%string.
Lemma geo_facts : forallb (fun x => x.2.2) (log_facts "#5" (log_of geo_world geo_txs)) = true.
Proof. vm_compute. reflexivity. Qed.
Lemma geo_numbers : (supply geo_world "#5", (holds geo_world "#4" (Token "#1"), holds geo_world "#4" (Native "uaura")),
    map (fun n => let w := after geo_world (firstn n geo_txs) in (supply w "#5", holds w "#4" (Token "#1"), holds w "#4" (Native "uaura"))) [1; 2; 3; 4; 5]%nat) =
  (0, (0, 0), [(4582575, 3000000, 7000000); (4582575, 4000000, 5255250); (5728218, 5000000, 7255250); (5718218, 4991272, 7242585); (5718218, 4991772, 7242585)]).
Proof. vm_compute. reflexivity. Qed.
Example C95_case :
  let w' := after geo_world geo_txs in
  reachable ex_chain geo_world /\ history ex_chain geo_world (log_of geo_world geo_txs) w' /\ pair_at geo_world "#4" ex_pair4 /\
  assets_are ex_chain ex_pair4 (Token "#1") (Native "uaura") /\ live geo_world (Token "#1") /\ live geo_world (Token "#5") /\
  human ex_api (r_liquidity_token ex_pair4) = Some "#5"%string /\
  (forall e, In e (log_of geo_world geo_txs) -> ordinary_swap "#4" e) /\ Datatypes.length (log_of geo_world geo_txs) = 13%nat /\
  supply geo_world "#5" = 0 /\
  (supply w' "#5", holds w' "#4" (Token "#1"), holds w' "#4" (Native "uaura")) = (5718218, 4991772, 7242585) /\
  (5718218 ^ 2 =? 32698017095524) && (4991772 * 7242585 =? 36153333010620) = true.
Proof.
  cbv zeta. split; [eapply history_reachable; [exact ex_reachable|apply after_history]|]. split; [apply after_history|].
  split; [vm_compute; reflexivity|]. split; [split; reflexivity|].
  split; [exists (tok_of geo_world "#1"); apply tok_of_at; vm_compute; reflexivity|].
  split; [exists (tok_of geo_world "#5"); apply tok_of_at; vm_compute; reflexivity|].
  split; [reflexivity|]. split.
  { intros e He _ _. left. pose proof geo_facts as X. rewrite forallb_forall in X. specialize (X _ (in_map _ _ _ He)). cbn [fst snd] in X.
    apply bool_decide_eq_true in X. exact X. }
  split; [vm_compute; reflexivity|]. vm_compute. auto.
Qed.

(** Without the proviso on swaps it is false: 5*10^18 of each token make 5*10^18
    shares, and then a swap of 2 units returns 2 and pays no commission. *)
Definition even_setup : list (bool * cmsg) :=
  [(true, MInstantiate None 3 (IFactory 1 2) [] "factory");
   (true, big_tok "token one" "TOKA"); (true, big_tok "token two" "TOKB");
   (true, x_call "#0" (JCreatePair (Token "#1", Token "#2") ex_wl))]%string.
Definition even_txs : list (bool * cmsg) :=
  [(true, x_call "#1" (JIncreaseAllowance "#3" (10 ^ 19) None));
   (true, x_call "#2" (JIncreaseAllowance "#3" (10 ^ 19) None));
   (true, x_call "#3" (JProvideLiquidity (Asset (Token "#1") 5000000000000000000, Asset (Token "#2") 5000000000000000000) None None));
   big_swap]%string.
Definition even_world : world := after ex_genesis even_setup.
Lemma even_state : (state_at even_world "#3", supply even_world "#4",
    let w' := after even_world even_txs in (supply w' "#4", holds w' "#3" (Token "#1"), holds w' "#3" (Token "#2"))) =
  (Some (SPair big_pair), 0, (5000000000000000000, 5000000000000000002, 4999999999999999998)).
Proof. vm_compute. reflexivity. Qed.
Theorem C95_shares_stay_backed_refuted : exists C w lg w' p st lp i0 i1,
  chain_ok C /\ reachable C w /\ history C w lg w' /\
  pair_at w p st /\ assets_are C st i0 i1 /\ i0 <> i1 /\ live w i0 /\ live w i1 /\
  human (ch_api C) (r_liquidity_token st) = Some lp /\ live w (Token lp) /\
  supply w lp = 0 /\ ~ supply w' lp ^ 2 <= holds w' p i0 * holds w' p i1.
Proof.
  exists ex_chain, even_world, (log_of even_world even_txs), (after even_world even_txs), "#3"%string, big_pair, "#4"%string, (Token "#1"), (Token "#2").
  pose proof even_state as B. cbv zeta in B.
  assert (B1 := f_equal (fun x => x.1.1) B). assert (B2 := f_equal (fun x => x.1.2) B). assert (B3 := f_equal (fun x => x.2.1.1) B).
  assert (B4 := f_equal (fun x => x.2.1.2) B). assert (B5 := f_equal (fun x => x.2.2) B). cbn [fst snd] in *. clear B.
  split; [exact ex_chain_ok|]. split; [eapply history_reachable; [apply reach_genesis|apply after_history]|]. split; [apply after_history|].
  split; [exact B1|]. split; [split; reflexivity|]. split; [discriminate|].
  split; [exists (tok_of even_world "#1"); apply tok_of_at; vm_compute; reflexivity|].
  split; [exists (tok_of even_world "#2"); apply tok_of_at; vm_compute; reflexivity|].
  split; [reflexivity|].
  split; [exists (tok_of even_world "#4"); apply tok_of_at; vm_compute; reflexivity|].
  split; [exact B2|]. rewrite B3, B4, B5. vm_compute. intros H. exact (H eq_refl).
Qed.
