(** A pool without LP tokens gets its first ones only through a deposit by a
    whitelisted account of at least the minimum amounts (C68). *)
From Verif Require Import Base BigNumber CwStd BigNumberFacts Asset Messages PairMath Pair PairFacts Token Factory Router
  SwapFacts SwapFacts2 P_Swap P_Pair FactoryFacts P_Factory P_Router TokenFacts World WorldInd WorldFacts WorldInv WorldInd2
  Examples WorldExamples P_Ledger P_Registry ExecFacts P_Exec P_Value.
From Coq Require Import ZifyN.
Local Open Scope N_scope.
Ltac Zify.zify_post_hook ::= idtac.

(** An executed deposit of [d0] of [i0] and [d1] of [i1] into [p], by a sender on
    the whitelist and with both amounts at least the minimum in [rq]. *)
Definition admitted_deposit (p : string) (i0 i1 : asset_info) (rq : requirements) (e : event) : Prop :=
  ev_contract e = p /\ ev_sender e ∈ whitelist rq /\
  exists assets tol rcv d0 d1, ev_msg e = JProvideLiquidity assets tol rcv /\
    declared assets i0 d0 /\ declared assets i1 d1 /\ first_asset_minimum rq <= d0 /\ second_asset_minimum rq <= d1.

Section first.
  Context (C : chain) (OK : chain_ok C) (p t : string) (st : pair_info_raw) (i0 i1 : asset_info).
  Context (Has : assets_are C st i0 i1) (Hlp : human (ch_api C) (r_liquidity_token st) = Some t).
  Definition admitted (lg : list event) : Prop := exists e, In e lg /\ admitted_deposit p i0 i1 (r_requirements st) e.
  Lemma admitted_app l1 l2 : admitted (l1 ++ l2) <-> admitted l1 \/ admitted l2.
  Proof. unfold admitted. setoid_rewrite in_app_iff. split; [intros (e & [H|H] & X); eauto|intros [(e & H & X)|(e & H & X)]; eauto]. Qed.

  Definition first_R (w w' : world) (lg : list event) : Prop :=
    forall ts, pair_at w p st -> tok_at w t ts -> tk_mint ts = Some (p, None) -> tk_supply ts = 0 ->
    admitted lg \/ exists ts', tok_at w' t ts' /\ tk_mint ts' = Some (p, None) /\ tk_supply ts' = 0.

  Lemma pair_kept x w w' : rel x w w' -> pair_at w p st -> pair_at w' p st.
  Proof.
    intros R Hp. destruct (rl_pairs _ _ _ R _ _ Hp) as (st' & Hp' & [->|(_ & X & _)]); [exact Hp'|]. exfalso.
    pose proof Hlp as Hl. rewrite X in Hl. apply (api_human_canon C OK) in Hl. exact (canon_nonempty C OK _ Hl).
  Qed.
  Lemma first_same w w' lg : (forall ts, tok_at w t ts -> tok_at w' t ts) -> first_R w w' lg.
  Proof. intros H ts _ Ht Hm Hz. right. exists ts. auto. Qed.

  Lemma first_ok : ind2_ok C first_R (lps_may p).
  Proof.
    split.
    - intros w _. apply first_same. auto.
    - intros w w1 w2 l1 l2 _ _ _ (x1 & R1) _ H1 H2 ts E Ht Hm Hz. rewrite admitted_app.
      destruct (H1 ts E Ht Hm Hz) as [X|(ts1 & Ht1 & Hm1 & L1)]; [tauto|].
      destruct (H2 ts1 (pair_kept _ _ _ R1 E) Ht1 Hm1 L1); tauto.
    - intros w w' a sm lg M M' Ha R Rr H -> E. apply H; [reflexivity|]. eapply pair_at_back; eauto.
    - intros w s ro to cs w' to' _ _ _ _ Hb _ _. apply first_same. intros ts. apply same_toks. apply (bm_insts _ _ _ _ _ Hb).
    - intros w s ro c msg funds a w1 i st1 rsp f w3 lg M Hm Hm2 _ Hb Hs Hi Hc w2 M2 R2 Fm Er M3 R3.
      assert (Fin : first_R w2 w3 lg -> first_R w w3 (Event a s msg (rs_attrs rsp) funds w1 :: lg)).
      { intros H ts E Ht Hmt Hz.
        assert (X : exists ts2, tok_at w2 t ts2 /\ tk_mint ts2 = Some (p, None) /\ tk_supply ts2 = 0).
        { destruct (call_toks C _ _ _ _ _ _ _ _ _ _ _ Hb Hs Hi Hc Ht) as [(_ & Ht2)|(-> & ts2 & _ & Ht2 & Ef)].
          - exists ts. auto.
          - exists ts2. split; [exact Ht2|]. split.
            + destruct (rl_toks _ _ _ R2 _ _ Ht) as (ts2' & Ht2' & _ & _ & _ & K). rewrite (tok_at_inj _ _ _ _ Ht2 Ht2').
              rewrite (K _ _ _ Hmt E). exact Hmt.
            + assert (L : tk_supply ts2 <= tk_supply ts); [|lia].
              eapply token_no_mint; [exact Ef|]. intros cap r n Hc2 ->. rewrite Hmt in Hc2. injection Hc2 as <- _.
              exact (Hm2 eq_refl (ex_intro _ st E) _ _ _ _ eq_refl). }
        destruct X as (ts2 & Ht2 & Hmt2 & L).
        destruct (H ts2 (pair_kept _ _ _ R2 E) Ht2 Hmt2 L) as [(e & He & Ad)|X]; [|right; exact X].
        left. exists e. split; [right; exact He|exact Ad]. }
      destruct (decide (a = p)) as [->|Dp].
      2: right; split; [apply lps_other; exact Dp|exact Fin].
      destruct (i_state i) as [ps| | | |] eqn:Es.
      2-5: left; intros ts Hps; unfold pair_at in Hps; rewrite Hs in Hps; discriminate.
      cbn [call] in Hc. unfold wrap in Hc. apply rbind_ok in Hc as ([ps' rsp'] & Hc & E'). injection E' as <- <-.
      destruct (pair_calls _ _ _ _ _ _ _ _ Hc) as [X|X].
      + right. split; [|exact Fin]. eapply List.Forall_impl; [|exact (other_msgs _ _ _ _ _ _ _ _ _ Hc X)].
        cbn beta. intros sm [(x & to & ->)|(tt & n & ->)] _ _ c0 r n0 f0; [destruct x as [[]]|]; discriminate.
      + left. intros ts Hp Ht Hmt Hz. left. exists (Event p s msg (rs_attrs rsp') funds w1). split; [left; reflexivity|].
        unfold pair_at in Hp. rewrite Hs in Hp. injection Hp as ->.
        destruct X as (assets & tol & rcv & ->).
        assert (Ht1 : tok_at w1 t ts) by (eapply same_toks; [apply (bm_insts _ _ _ _ _ Hb)|exact Ht]).
        unfold pair_execute in Hc. destruct (jmsg_ranges _); [|discriminate]. cbn [negb] in Hc.
        apply provide_inv in Hc as (x & d0 & d1 & m0 & p0 & m1 & p1 & lp' & ti & share & A0 & A1 & _ & Hy & D0 & D1 & P0 & P1 & _ & Hlp' & Hti & _ & Hsh & Hm').
        rewrite Hlp in Hlp'. injection Hlp' as <-.
        assert (Hsup : ti_total_supply ti = 0).
        { cbn [wq q_token_info] in Hti. unfold ask_token_info, contract_at in Hti.
          assert (Nt : norm (ch_api C) t = Some t) by (eapply (sane_norm C OK w); [apply main_sane; exact M|exact Ht]).
          rewrite Nt in Hti. cbn [oget rbind] in Hti.
          pose proof Ht1 as Hit. apply state_at_inst in Hit as (adt & Hit). rewrite Hit in Hti. cbn [oget rbind i_state] in Hti. injection Hti as <-. exact Hz. }
        rewrite Hsup in Hsh. change (0 =? 0) with true in Hsh. cbn iota in Hsh.
        destruct Has as [I0 I1]. apply named_normal in I0, I1. unfold query_pools in Hy. rewrite I0, I1 in Hy. cbn [rbind] in Hy.
        apply rbind_ok in Hy as (v0 & _ & Hy). apply rbind_ok in Hy as (v1 & _ & Hy). injection Hy as <-. cbn [fst snd a_info] in *.
        apply deposit_of_ok in D0, D1. destruct Hsh as (Wl & M0 & M1 & _).
        split; [reflexivity|]. split; [exact Wl|]. exists assets, tol, rcv, d0, d1. auto.
    - intros w s ro ad code msg funds label k adm w1 st1 rsp f w3 lg M Hm Hm2 Hk Had a Hb Hc w2 M2 S Hn QP Er M3 R3.
      destruct (decide (a = p)) as [Ea|Dp].
      { left. intros ts Hps. unfold pair_at in Hps. rewrite <- Ea in Hps. congruence. }
      right. split; [apply lps_other; exact Dp|].
      intros H ts Hps Ht Hmt Hz. apply (H ts); [|eapply new_toks; eauto|exact Hmt|exact Hz].
      unfold pair_at in *. rewrite S, decide_False by congruence. exact Hps.
    - intros w s ro c code a i k st1 M Hm _ _ Hi _ _ Hmg _ _. apply first_same. intros ts. eapply mig_toks; eauto.
    - intros w a adm _ _ _. apply first_same. intros ts. apply admin_toks.
    - intros w a sm rest f w' r lg id i st1 rsp M Hms Hm2 Hro Ex M' R' HR Hi Hr w2 M2 Rr2. split.
      + destruct (reply_msgs C _ _ _ _ _ _ _ _ Hi Hr) as [->|(k & d & Ha)]; [constructor|].
        destruct (decide (a = p)) as [->|D]; [|apply lps_other; exact D].
        apply lps_nopair. intros ps Hps. destruct (grows_state _ _ _ _ (rl_grows _ _ _ Rr2) Ha) as (s' & Hs' & K).
        unfold pair_at in Hps. rewrite Hps in Hs'. injection Hs' as <-. destruct K.
      + apply first_same. intros ts. eapply reply_toks; eauto.
    - intros w a sm rest id k d st1 rsp M _ _ _ Hs _ w2 M2 Rr2. split.
      + destruct (decide (a = p)) as [->|D]; [|apply lps_other; exact D].
        apply lps_nopair. intros ps Hps. destruct (grows_state _ _ _ _ (rl_grows _ _ _ Rr2) Hs) as (s' & Hs' & K).
        unfold pair_at in Hps. rewrite Hps in Hs'. injection Hs' as <-. destruct K.
      + apply first_same. intros ts. eapply set_toks; [exact Hs|discriminate].
  Qed.
End first.

(** C68: take a pair without LP tokens. If after some history it has some, then
    that history contains an executed deposit into the pair by an account on the
    whitelist fixed at its creation, with both amounts at least the minimum. *)
Theorem C68_first_deposit_admitted C w lg w' p st lp i0 i1 : chain_ok C -> reachable C w -> history C w lg w' ->
  pair_at w p st -> assets_are C st i0 i1 -> human (ch_api C) (r_liquidity_token st) = Some lp -> live w (Token lp) ->
  supply w lp = 0 -> 0 < supply w' lp ->
  exists e, In e lg /\ admitted_deposit p i0 i1 (r_requirements st) e.
Proof.
  intros OK Hr Hh Hp Has Hlp (ts & Ht) Hz Hs. pose proof (reachable_main C OK w Hr) as M.
  rewrite (supply_at _ _ _ Ht) in Hz.
  destruct (C36_lp_minted_only_by_provide C w lg w' p st lp ts OK Hr Hh Hp Hlp Ht) as (Hm & _).
  destruct (pair_fresh C w p st M Hp) as (n0 & Ep).
  assert (X : first_R p lp st i0 i1 w w' lg).
  { apply (history_ind2 C OK _ _ w lg w' (first_ok C OK p lp st i0 i1 Has Hlp)); [|intros w0 blk _; apply first_same; auto|exact M|exact Hh].
    intros w0 s m [_ O] ->. exfalso. exact (O n0 (eq_sym Ep)). }
  destruct (X ts Hp Ht Hm Hz) as [Y|(ts' & Ht' & _ & Z)]; [exact Y|]. rewrite (supply_at _ _ _ Ht') in Hs. lia.
Qed.

(** #9 is a new pair of #2 and uaura without LP tokens (its LP token is #10). *)
Definition first_world : world := after ex_world [(false, x_call "#0" (JCreatePair (Token "#2", Native "uaura") ex_wl)); (true, x_call "#2" (JIncreaseAllowance "#9" 50000 None))]%string.
Definition first_pair : pair_info_raw := match state_at first_world "#9" with Some (SPair x) => x | _ => ex_pair4 end.
Definition first_deposit : bool * cmsg :=
  (true, MExecute "#9" (JProvideLiquidity (Asset (Native "uaura") 4000, Asset (Token "#2") 9000) None None) [Coin "uaura" 4000])%string.
Example C68_case :
  reachable ex_chain first_world /\ pair_at first_world "#9" first_pair /\ assets_are ex_chain first_pair (Token "#2") (Native "uaura") /\
  human ex_api (r_liquidity_token first_pair) = Some "#10"%string /\ live first_world (Token "#10") /\ supply first_world "#10" = 0 /\
  whitelist (r_requirements first_pair) = ["alice"%string] /\
  history ex_chain first_world (log_of first_world [first_deposit]) (after first_world [first_deposit]) /\
  supply (after first_world [first_deposit]) "#10" = 6000.
Proof.
  split; [eapply history_reachable; [exact ex_reachable|apply after_history]|]. split; [vm_compute; reflexivity|].
  split; [split; vm_compute; reflexivity|]. split; [vm_compute; reflexivity|].
  split; [exists (tok_of first_world "#10"); apply tok_of_at; vm_compute; reflexivity|].
  split; [vm_compute; reflexivity|]. split; [vm_compute; reflexivity|]. split; [apply after_history|vm_compute; reflexivity].
Qed.
