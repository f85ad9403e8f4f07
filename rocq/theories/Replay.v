(** Over any history the state of a token is the result of replaying the logged
    calls to it, in order, from where it started. *)
From Verif Require Import Base BigNumber CwStd BigNumberFacts Asset Messages PairMath Pair PairFacts Token Factory Router
  FactoryFacts TokenFacts World WorldInd WorldFacts WorldInv WorldInd2.
From Coq Require Import ZifyN.
Local Open Scope N_scope.
Ltac Zify.zify_post_hook ::= idtac.

(** [tok_replay A t ts lg ts']: the calls of contract [t] in [lg], run one after the
    other from [ts], all succeed and end in [ts'].  Calls of other contracts are
    skipped. *)
Inductive tok_replay (A : api) (t : string) : token_state -> list event -> token_state -> Prop :=
| rp_nil ts : tok_replay A t ts [] ts
| rp_other ts e lg ts' : ev_contract e <> t -> tok_replay A t ts lg ts' -> tok_replay A t ts (e :: lg) ts'
| rp_call ts e rsp ts1 lg ts' : ev_contract e = t -> tok_at (ev_world e) t ts ->
    token_execute A (w_block (ev_world e)) ts (ev_sender e) (ev_msg e) = Ok (ts1, rsp) ->
    tok_replay A t ts1 lg ts' -> tok_replay A t ts (e :: lg) ts'.

Lemma tok_replay_app A t ts l1 ts1 l2 ts2 : tok_replay A t ts l1 ts1 -> tok_replay A t ts1 l2 ts2 -> tok_replay A t ts (l1 ++ l2) ts2.
Proof.
  induction 1; intros K; cbn [app]; [exact K| |].
  - apply rp_other; auto.
  - eapply rp_call; eauto.
Qed.
Lemma tok_replay_skip A t ts l1 l2 ts' : Forall (fun e => ev_contract e <> t) l1 -> tok_replay A t ts l2 ts' -> tok_replay A t ts (l1 ++ l2) ts'.
Proof. induction 1; intros K; cbn [app]; [exact K|]. apply rp_other; auto. Qed.

Section tok_replay.
  Context (C : chain) (OK : chain_ok C) (t : string).
  Let A := ch_api C.
  Definition tok_replay_R (w w' : world) (lg : list event) : Prop :=
    (forall ts, tok_at w t ts -> exists ts', tok_at w' t ts' /\ tok_replay A t ts lg ts') /\
    (state_at w' t = None -> Forall (fun e => ev_contract e <> t) lg) /\
    (state_at w t = None -> forall ts', tok_at w' t ts' ->
       exists m ts0 rsp, token_instantiate A m = Ok (ts0, rsp) /\ tok_replay A t ts0 lg ts').

  Lemma tok_replay_same w w' : (forall ts, tok_at w t ts -> tok_at w' t ts) -> (state_at w t = None -> state_at w' t = None) ->
    tok_replay_R w w' [].
  Proof.
    intros H N. split; [|split].
    - intros ts Ht. exists ts. split; [auto|constructor].
    - constructor.
    - intros Hn ts' Ht'. apply N in Hn. unfold tok_at in Ht'. congruence.
  Qed.
  Lemma grows_tok w w' st ts' : grows w w' -> state_at w t = Some st -> tok_at w' t ts' -> exists ts, tok_at w t ts.
  Proof.
    intros G Hs Ht'. destruct (grows_state _ _ _ _ G Hs) as (s' & Hs' & K). unfold tok_at in *.
    rewrite Hs' in Ht'. injection Ht' as ->. destruct st; try destruct K. eauto.
  Qed.
  Lemma set_none w a s : is_Some (state_at w a) -> state_at w t = None -> state_at (set_state w a s) t = None.
  Proof.
    intros [st Hs] Hn. pose proof Hs as Hs0. apply state_at_inst in Hs0 as (ad & Hi).
    rewrite state_at_set by eauto. destruct (decide (t = a)) as [->|D]; [congruence|exact Hn].
  Qed.
  Lemma tok_replay_ok : ind2_ok C tok_replay_R (fun _ _ _ => True).
  Proof.
    assert (Fo : forall l : list submsg, Forall (fun _ => True) l) by (induction l; constructor; auto).
    split.
    - intros w _. apply tok_replay_same; auto.
    - intros w w1 w2 l1 l2 _ _ _ (x1 & R1) (x2 & R2) (A1 & B1 & D1) (A2 & B2 & D2). split; [|split].
      + intros ts Ht. destruct (A1 _ Ht) as (ts1 & Ht1 & P1). destruct (A2 _ Ht1) as (ts2 & Ht2 & P2).
        exists ts2. split; [exact Ht2|]. eapply tok_replay_app; eauto.
      + intros Hn. apply Forall_app. split; [|auto]. apply B1.
        destruct (state_at w1 t) as [st|] eqn:E; [|reflexivity].
        destruct (grows_state _ _ _ _ (rl_grows _ _ _ R2) E) as (s' & Hs' & _). congruence.
      + intros Hn ts' Ht'. destruct (state_at w1 t) as [st|] eqn:E.
        * destruct (grows_tok _ _ _ _ (rl_grows _ _ _ R2) E Ht') as (ts1 & Ht1).
          destruct (D1 Hn _ Ht1) as (m & ts0 & rsp & Hi & P1). destruct (A2 _ Ht1) as (ts2 & Ht2 & P2).
          assert (ts2 = ts') as -> by (unfold tok_at in *; congruence).
          exists m, ts0, rsp. split; [exact Hi|]. eapply tok_replay_app; eauto.
        * destruct (D2 eq_refl _ Ht') as (m & ts0 & rsp & Hi & P2). exists m, ts0, rsp. split; [exact Hi|].
          apply tok_replay_skip; [apply B1; reflexivity|exact P2].
    - auto.
    - intros w s ro to cs w' to' _ _ _ _ Hb _ _. apply tok_replay_same.
      + intros ts. apply same_toks, (bm_insts _ _ _ _ _ Hb).
      + unfold state_at. rewrite (bm_insts _ _ _ _ _ Hb). auto.
    - intros w s ro c msg funds a w1 i st rsp f w3 lg M _ _ _ Hb Hs Hi Hc w2 _ Rn _ _ _ R3. right. split; [apply Fo|].
      intros (A3 & B3 & D3). split; [|split].
      + intros ts Ht. destruct (call_toks C _ _ _ _ _ _ _ _ _ _ _ Hb Hs Hi Hc Ht) as [(D & Ht2)|(Ea & ts' & _ & Ht2 & _)].
        * destruct (A3 _ Ht2) as (ts' & Ht' & P'). exists ts'. split; [exact Ht'|]. apply rp_other; [cbn [ev_contract]; congruence|exact P'].
        * subst a. destruct (A3 _ Ht2) as (ts3 & Ht3 & P3). exists ts3. split; [exact Ht3|].
          unfold tok_at in Ht. rewrite Hs in Ht. injection Ht as Ei. rewrite Ei in Hc.
          cbn [call] in Hc. unfold wrap in Hc. apply rbind_ok in Hc as ([ts1 rsp1] & Hc & E1). injection E1 as E1 E2.
          assert (ts1 = ts').
          { unfold tok_at in Ht2. rewrite state_at_set in Ht2 by eauto. rewrite decide_True in Ht2 by reflexivity. congruence. }
          subst ts1. eapply rp_call; cbn [ev_contract ev_world ev_sender ev_msg]; [reflexivity| |exact Hc|exact P3].
          unfold tok_at, state_at. rewrite Hi. cbn. congruence.
      + intros Hn. constructor; [|auto]. cbn [ev_contract]. intros ->.
        assert (S2 : state_at w2 t = Some st).
        { unfold w2. rewrite state_at_set by eauto. apply decide_True. reflexivity. }
        destruct (grows_state _ _ _ _ (rl_grows _ _ _ R3) S2) as (s' & Hs' & _). congruence.
      + intros Hn ts' Ht'.
        assert (Hn2 : state_at w2 t = None).
        { unfold w2. rewrite state_at_set by eauto. destruct (decide (t = a)) as [->|]; [congruence|].
          unfold state_at in *. rewrite (bm_insts _ _ _ _ _ Hb). exact Hn. }
        destruct (D3 Hn2 _ Ht') as (m & ts0 & rsp0 & Hi0 & P0). exists m, ts0, rsp0. split; [exact Hi0|].
        apply rp_other; [cbn [ev_contract]; congruence|exact P0].
    - intros w s ro ad code msg funds label k adm w1 st rsp f w3 lg M _ _ _ _ a Hb Hc w2 _ S Hn _ _ _ R3. right. split; [apply Fo|].
      intros (A3 & B3 & D3). split; [|split].
      + intros ts Ht. apply A3. eapply new_toks; eauto.
      + exact B3.
      + intros Hnt ts' Ht'. destruct (decide (t = a)) as [E|D].
        * assert (S2 : state_at w2 t = Some st) by (rewrite S; apply decide_True; exact E).
          destruct (grows_tok _ _ _ _ (rl_grows _ _ _ R3) S2 Ht') as (ts0 & Ht0).
          destruct (A3 _ Ht0) as (ts3 & Ht3 & P3). assert (ts3 = ts') as -> by (unfold tok_at in *; congruence).
          assert (st = SToken ts0) as -> by (unfold tok_at in *; congruence).
          destruct k; cbn [init] in Hc; destruct msg; try discriminate; unfold wrap in Hc;
            try (destruct (_ && _) in Hc; [|discriminate]);
            apply rbind_ok in Hc as ([x y] & Hc & E2); injection E2 as E2 E3; try discriminate.
          subst x. eauto.
        * apply (D3). { rewrite S, decide_False by exact D. exact Hnt. } exact Ht'.
    - intros w s ro c code a i k st M _ _ _ Hi _ _ Hm _ _. apply tok_replay_same.
      + intros ts. eapply mig_toks; eauto.
      + apply set_none. unfold state_at. rewrite Hi. eauto.
    - intros w a adm _ _ _. apply tok_replay_same.
      + intros ts. apply admin_toks.
      + rewrite admin_state. auto.
    - intros w a sm rest f w' r lg id i st rsp _ _ _ _ _ _ _ _ Hi Hr w2 _ _. split; [apply Fo|].
      apply tok_replay_same.
      + intros ts. eapply reply_toks; eauto.
      + apply set_none. unfold state_at. rewrite Hi. eauto.
    - intros w a sm rest id k d st rsp _ _ _ _ Hs _ w2 _ _. split; [apply Fo|].
      apply tok_replay_same.
      + intros ts. eapply set_toks; [exact Hs|discriminate].
      + apply set_none. eauto.
  Qed.

  Lemma tok_replay_history w lg w' : main C w -> history C w lg w' -> tok_replay_R w w' lg.
  Proof.
    intros M Hh. eapply (history_ind2 C OK tok_replay_R (fun _ _ _ => True) w lg w'); eauto using tok_replay_ok.
    intros w0 blk _. apply tok_replay_same; auto.
  Qed.
End tok_replay.
