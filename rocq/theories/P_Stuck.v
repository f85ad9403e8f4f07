(** Whatever a token or a factory contract holds stays there (C69). *)
From Verif Require Import Base BigNumber CwStd BigNumberFacts Asset Messages PairMath Pair PairFacts Token Factory Router
  SwapFacts SwapFacts2 P_Swap P_Pair FactoryFacts P_Factory P_Router TokenFacts World WorldInd WorldFacts WorldInv WorldInd2
  Examples WorldExamples P_Ledger P_Registry ExecFacts P_Exec P_Value.
From Coq Require Import ZifyN.
Local Open Scope N_scope.
Ltac Zify.zify_post_hook ::= idtac.

(** [c] is a halo-token or halo-factory contract. *)
Definition token_or_factory (w : world) (c : string) : Prop :=
  match state_at w c with Some (SToken _) | Some (SFactory _) => True | _ => False end.

Definition harmless (m : cmsg) : Prop :=
  match m with
  | MExecute _ (JReceive _ _ _) [] | MInstantiate _ _ _ [] _ | MMigrate _ _ => True
  | _ => False
  end.

Section stuck.
  Context (C : chain) (OK : chain_ok C) (c : string).
  Definition stuck_R (w w' : world) (_ : list event) : Prop :=
    token_or_factory w c -> forall i, holds w c i <= holds w' c i.
  Definition stuck_may (w : world) (a : string) (sm : submsg) : Prop := a = c -> token_or_factory w c -> harmless (sm_msg sm).

  Lemma tf_grows x w w' : rel x w w' -> token_or_factory w c -> token_or_factory w' c.
  Proof.
    unfold token_or_factory. intros R H. destruct (state_at w c) as [s|] eqn:E; [|destruct H].
    destruct (grows_state _ _ _ _ (rl_grows _ _ _ R) E) as (s' & -> & K). destruct s, s'; try destruct K; exact H.
  Qed.
  Lemma tf_back x w w' : rel x w w' -> is_Some (state_at w c) -> token_or_factory w' c -> token_or_factory w c.
  Proof.
    unfold token_or_factory. intros R [s Hs] H. destruct (grows_state _ _ _ _ (rl_grows _ _ _ R) Hs) as (s' & Hs' & K).
    rewrite Hs, Hs' in *. destruct s, s'; try destruct K; exact H.
  Qed.
  Lemma tf_not_user w : main C w -> token_or_factory w c -> ~ user C w c.
  Proof.
    unfold token_or_factory. intros M H U. destruct (state_at w c) as [s|] eqn:E; [|destruct H].
    destruct (user_not_modelled C w c _ (mn_fresh _ _ M) U E) as (k & d & X). rewrite E in X. injection X as ->. destruct H.
  Qed.
  Lemma stuck_other w a l : a <> c -> Forall (stuck_may w a) l.
  Proof. intros D. induction l; constructor; [|assumption]. intros E. exfalso. exact (D E). Qed.
  Lemma stuck_none w a l : ~ token_or_factory w c -> Forall (stuck_may w a) l.
  Proof. intros D. induction l; constructor; [|assumption]. intros _ E. exfalso. exact (D E). Qed.
  Lemma stuck_adv w a k d l : state_at w a = Some (SAdv k d) -> Forall (stuck_may w a) l.
  Proof.
    intros Ha. destruct (decide (a = c)) as [->|D]; [|apply stuck_other; exact D]. apply stuck_none. unfold token_or_factory. rewrite Ha. auto.
  Qed.

  Lemma stuck_ok : ind2_ok C stuck_R stuck_may.
  Proof.
    split.
    - intros w _ _ i. lia.
    - intros w w1 w2 l1 l2 _ _ _ (x1 & R1) _ H1 H2 E i. etransitivity; [apply H1; exact E|apply H2]. eapply tf_grows; eauto.
    - intros w w' a sm lg _ _ Ha R _ H -> E. apply H; [reflexivity|]. eapply tf_back; eauto.
    - intros w s ro to cs w' to' M _ Hm Hn Hb _ _ E i. apply (holds_same w w' (bm_insts _ _ _ _ _ Hb)).
      intros d. pose proof (bm_bal _ _ _ _ _ Hb c d) as B. rewrite decide_False in B.
      + destruct (decide (c = to')); lia.
      + intros X. exact (Hm (eq_sym X) E).
    - intros w s ro c0 msg funds a w1 i st rsp f w3 lg M Hm Hm2 _ Hb Hs Hi Hc w2 M2 R2 Fm Er M3 R3.
      right.
      assert (Step : token_or_factory w c -> forall i0, holds w c i0 <= holds w2 c i0).
      { intros E [t|d]; cbn [holds].
        - destruct (state_at w t) as [[| | |ts|]|] eqn:Et; try lia.
          destruct (call_toks C _ _ _ _ _ _ _ _ _ _ _ Hb Hs Hi Hc Et) as [(_ & Ht2)|(-> & ts' & _ & Ht2 & Ef)];
            fold w2 in Ht2; unfold tok_at in Ht2; rewrite Ht2; [lia|].
          eapply token_no_loss; [exact Ef| |].
          + intros ->. specialize (Hm2 eq_refl E). cbn [sm_msg harmless] in Hm2. destruct msg; try destruct Hm2. inversion Ef.
          + intros sp v Hal. apply (tf_not_user _ M E). eapply mn_allow; eauto.
        - unfold w2. rewrite set_state_bal. pose proof (bm_bal _ _ _ _ _ Hb c d) as B.
          destruct (decide (c = s)) as [<-|]; [|destruct (decide (c = a)); lia].
          specialize (Hm2 eq_refl E). cbn [sm_msg harmless] in Hm2. assert (funds = []) as -> by (destruct msg, funds; tauto).
          rewrite coin_sum_nil in B. destruct (decide (c = a)); lia. }
      split.
      + destruct (decide (a = c)) as [->|Dp]; [|apply stuck_other; exact Dp].
        destruct (i_state i) as [ps|fs|rs|ts|k d] eqn:Es.
        * apply stuck_none. intros T. eapply tf_back in T; [|exact R2|eauto]. unfold token_or_factory in T. rewrite Hs in T. exact T.
        * cbn [call] in Hc. unfold wrap in Hc. apply rbind_ok in Hc as ([fs' rsp'] & Hc & E'). injection E' as <- <-.
          pose proof (C20_call_effects _ _ _ _ _ _ _ _ Hc) as X. pose proof Hc as Hc'.
          apply factory_execute_inv in Hc' as [(o & t & p & -> & Hc')|[(infos & reqs & -> & Hc')|[(d & n & -> & _ & Hc')|(c1 & k & -> & Hc')]]].
          -- destruct X as (_ & _ & _ & _ & _ & _ & ->). constructor.
          -- apply create_pair_inv in Hc' as (d0 & d1 & r0 & r1 & _ & _ & _ & _ & _ & _ & _ & ->). constructor; [|constructor]. intros _ _. exact I.
          -- destruct X as (_ & _ & _ & _ & ->). constructor.
          -- destruct X as (_ & _ & ->). constructor; [|constructor]. intros _ _. exact I.
        * apply stuck_none. intros T. eapply tf_back in T; [|exact R2|eauto]. unfold token_or_factory in T. rewrite Hs in T. exact T.
        * cbn [call] in Hc. unfold wrap in Hc. apply rbind_ok in Hc as ([ts' rsp'] & Hc & E'). injection E' as <- <-.
          apply token_execute_inv in Hc. destruct (token_sends _ _ _ _ _ _ _ Hc) as [->|(o & c1 & n & h & t1 & -> & _)]; [constructor|].
          constructor; [|constructor]. intros _ _. exact I.
        * apply stuck_none. intros T. eapply tf_back in T; [|exact R2|eauto]. unfold token_or_factory in T. rewrite Hs in T. exact T.
      + intros H E i0. etransitivity; [apply Step; exact E|]. apply H. eapply tf_grows; eauto.
    - intros w s ro ad code msg funds label k adm w1 st rsp f w3 lg M Hm Hm2 Hk Had a Hb Hc w2 M2 S Hn QP Er M3 R3.
      destruct (decide (a = c)) as [Ea|Dp].
      { left. intros T. unfold token_or_factory in T. rewrite <- Ea, Hn in T. destruct T. }
      right. split; [apply stuck_other; exact Dp|].
      intros H T i0. assert (T2 : token_or_factory w2 c) by (unfold token_or_factory in *; rewrite S, decide_False by congruence; exact T).
      etransitivity; [|apply H; exact T2]. destruct i0 as [t|d]; cbn [holds].
      + rewrite S. destruct (decide (t = a)) as [->|]; [rewrite Hn; lia|lia].
      + change (bal w2 c d) with (bal w1 c d). pose proof (bm_bal _ _ _ _ _ Hb c d) as B.
        change (bal (set_next w (w_next w + 1)) c d) with (bal w c d) in B.
        destruct (decide (c = s)) as [E|]; [|destruct (decide (c = ch_fresh C (w_next w))); lia].
        specialize (Hm2 (eq_sym E) T). cbn [sm_msg harmless] in Hm2. destruct funds; [|destruct Hm2].
        rewrite coin_sum_nil in B. destruct (decide (c = ch_fresh C (w_next w))); lia.
    - intros w s ro c1 code a i k st M Hm _ _ Hi _ _ Hmg _ _ _ i0. destruct i0 as [t|d]; cbn [holds].
      + destruct (state_at w t) as [[| | |ts|]|] eqn:Et; try lia. pose proof (mig_toks C OK _ _ _ _ _ _ _ Hi Hmg Et) as T. unfold tok_at in T. rewrite T. lia.
      + rewrite set_state_bal. lia.
    - intros w a adm _ _ _ _ i0. destruct i0 as [t|d]; cbn [holds]; [rewrite admin_state; reflexivity|].
      unfold bal. rewrite set_admin_bank. lia.
    - intros w a sm rest f w' r lg id i st rsp M Hms Hm2 Hro Ex M' R' HR Hi Hr w2 M2 Rr2. split.
      + destruct (reply_msgs C _ _ _ _ _ _ _ _ Hi Hr) as [->|(k & d & Ha)]; [constructor|].
        destruct (grows_state _ _ _ _ (rl_grows _ _ _ Rr2) Ha) as (s' & Hs' & K). destruct s'; try destruct K. eapply stuck_adv; eauto.
      + intros _ i0. destruct i0 as [t|d]; cbn [holds].
        * destruct (state_at w' t) as [[| | |ts|]|] eqn:Et; try lia. pose proof (reply_toks C _ _ _ _ _ _ _ _ _ _ Hi Hr Et) as T. fold w2 in T. unfold tok_at in T. rewrite T. lia.
        * unfold w2. rewrite set_state_bal. lia.
    - intros w a sm rest id k d st rsp M _ _ _ Hs _ w2 M2 Rr2. split.
      + destruct (grows_state _ _ _ _ (rl_grows _ _ _ Rr2) Hs) as (s' & Hs' & K). destruct s'; try destruct K. eapply stuck_adv; eauto.
      + intros _ i0. destruct i0 as [t|dn]; cbn [holds].
        * destruct (state_at w t) as [[| | |ts|]|] eqn:Et; try lia. assert (T : tok_at w2 t ts) by (eapply set_toks; [exact Hs|discriminate|exact Et]).
          unfold tok_at in T. rewrite T. lia.
        * unfold w2. rewrite set_state_bal. lia.
  Qed.
End stuck.

(** C69: over every history, no balance of a token or factory contract falls,
    of no coin and of no token of this code base: what was sent there is lost. *)
Theorem C69_lost_in_tokens_and_factories C w lg w' c : chain_ok C -> reachable C w -> history C w lg w' ->
  token_or_factory w c -> forall i, holds w c i <= holds w' c i.
Proof.
  intros OK Hr Hh Hc. pose proof (reachable_main C OK w Hr) as M.
  apply (history_ind2 C OK _ _ w lg w' (stuck_ok C OK c)); auto.
  - intros w0 s m O -> T. exfalso. unfold token_or_factory in Hc. destruct (state_at w c) as [x|] eqn:E; [|destruct Hc].
    apply state_at_inst in E as (ad & E). rewrite (ordinary_no_inst C w c (mn_fresh _ _ M) O) in E. discriminate.
  - intros w0 blk _ _ i. apply holds_same; [reflexivity|]. intros d. unfold bal. cbn. lia.
Qed.

(** Coins attached to a token call and to CreatePair, and tokens sent to the
    token contract itself. *)
Definition stuck_txs : list (bool * cmsg) :=
  [(true, MExecute "#1" (JTransfer "#1" 500) [Coin "uaura" 7]);
   (true, MExecute "#0" (JCreatePair (Token "#2", Native "uaura") ex_wl) [Coin "uaura" 11]);
   (true, x_call "#1" (JTransfer "#0" 300))]%string.
Example C69_case :
  let w := after ex_world stuck_txs in
  reachable ex_chain w /\ token_or_factory w "#1" /\ token_or_factory w "#0" /\
  holds w "#1" (Native "uaura") = 7 /\ holds w "#1" (Token "#1") = 500 /\
  holds w "#0" (Native "uaura") = holds ex_world "#0" (Native "uaura") + 11 /\ holds w "#0" (Token "#1") = 300 /\
  Datatypes.length (log_of w [ex_swap; ex_provide]) = 5%nat /\
  holds (after w [ex_swap; ex_provide]) "#1" (Native "uaura") = 7.
Proof.
  split; [eapply history_reachable; [exact ex_reachable|apply after_history]|]. vm_compute. auto 12.
Qed.
