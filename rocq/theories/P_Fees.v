(** The commission of every swap stays with the liquidity providers (C78). *)
From Verif Require Import Base BigNumber CwStd BigNumberFacts Asset Messages PairMath Pair PairFacts Token Factory Router
  SwapFacts SwapFacts2 P_Swap P_Pair FactoryFacts P_Factory P_Router TokenFacts World WorldInd WorldFacts WorldInv WorldInd2
  Examples WorldExamples P_Ledger P_Registry ExecFacts P_Exec P_Value P_Deposit P_Quotes P_Withdraw P_Sides P_Events P_Split.
From Coq Require Import ZifyN.
Local Open Scope N_scope.
Ltac Zify.zify_post_hook ::= idtac.

(** ** Specification *)

(** What the swaps on [p] in a log must have added to the value of a share, as a
    fraction A / B, from what the pair itself reports. A swap that finds [y]
    units of the asset asked for, pays [r] and keeps [c] as commission leaves
    y - r units where y - (r + c) would do; it multiplies the value of a share by
    (y - r) / (y - (r + c)), up to one part in 10^18 of a unit. *)
Inductive fee_growth (p : string) (i0 i1 : asset_info) : list event -> N -> N -> Prop :=
| fg_nil : fee_growth p i0 i1 [] 1 1
| fg_other e l A B : ~ is_swap p e -> fee_growth p i0 i1 l A B -> fee_growth p i0 i1 (e :: l) A B
| fg_swap e l A B i r c : is_swap p e ->
    (Token (ev_sender e) = i0 /\ i = i1 \/ Token (ev_sender e) = i1 /\ i = i0) ->
    says_num e "return_amount" r -> says_num e "commission_amount" c -> r + c <= holds (ev_world e) p i ->
    fee_growth p i0 i1 l A B ->
    fee_growth p i0 i1 (e :: l) ((holds (ev_world e) p i - r) * 10 ^ 18 * A)
      (((holds (ev_world e) p i - (r + c)) * 10 ^ 18 + 1) * B).

(** The value of a share, reserve0 * reserve1 / supply^2, grows from [w] to [w']
    by at least A / B; multiplied out. *)
Definition grows_by (p lp : string) (i0 i1 : asset_info) (w w' : world) (A B : N) : Prop :=
  supply w' lp ^ 2 * (holds w p i0 * holds w p i1) * A <= supply w lp ^ 2 * (holds w' p i0 * holds w' p i1) * B.

(** ** Lemmas *)
Lemma fg_app p i0 i1 l1 l2 A1 B1 A2 B2 : fee_growth p i0 i1 l1 A1 B1 -> fee_growth p i0 i1 l2 A2 B2 ->
  fee_growth p i0 i1 (l1 ++ l2) (A1 * A2) (B1 * B2).
Proof.
  intros H1 H2. induction H1; cbn [app].
  - rewrite !N.mul_1_l. exact H2.
  - apply fg_other; assumption.
  - rewrite <- !N.mul_assoc. rewrite N.mul_assoc. eapply fg_swap; eassumption.
Qed.
Lemma fg_own p i0 i1 l : forall A B, fee_growth p i0 i1 (own p l) A B -> fee_growth p i0 i1 l A B.
Proof.
  induction l as [|e l IH]; intros A B H; [exact H|]. destruct (decide (ev_contract e = p)) as [E|E].
  - rewrite (own_self p e l E) in H. inversion H; subst; [apply fg_other; auto|eapply fg_swap; eauto].
  - rewrite (own_other p e l E) in H. apply fg_other; [|auto]. intros [X _]. exact (E X).
Qed.
Lemma swap_growth x y n r c : x <> 0 -> r + c = gross x y n -> r + c <= y ->
  x * y * ((y - r) * 10 ^ 18) <= (x + n) * (y - r) * ((y - (r + c)) * 10 ^ 18 + 1).
Proof.
  intros Hx G L. pose proof (gross_hi x y n) as H. rewrite <- G in H. specialize (H ltac:(lia)).
  set (g := r + c) in *. set (D := 10 ^ 18) in *.
  assert (K : x * y * D <= (x + n) * ((y - g) * D + 1)).
  { replace ((x + n) * ((y - g) * D + 1)) with ((x + n) * (y - g) * D + (x + n)) by lia.
    assert (E : (x + n) * (y - g) * D + g * (x + n) * D = (x + n) * y * D) by (rewrite N.mul_sub_distr_l, N.mul_sub_distr_r; assert ((x + n) * g * D <= (x + n) * y * D) by (apply N.mul_le_mono_r, N.mul_le_mono_l; exact L); lia).
    lia. }
  replace (x * y * ((y - r) * D)) with ((y - r) * (x * y * D)) by lia.
  replace ((x + n) * (y - r) * ((y - g) * D + 1)) with ((y - r) * ((x + n) * ((y - g) * D + 1))) by lia.
  apply N.mul_le_mono_l. exact K.
Qed.
Lemma grows_trans p lp i0 i1 w w1 w2 A1 B1 A2 B2 : 0 < supply w1 lp ->
  grows_by p lp i0 i1 w w1 A1 B1 -> grows_by p lp i0 i1 w1 w2 A2 B2 -> grows_by p lp i0 i1 w w2 (A1 * A2) (B1 * B2).
Proof.
  unfold grows_by. generalize (supply w lp) (supply w1 lp) (supply w2 lp) (holds w p i0 * holds w p i1)
    (holds w1 p i0 * holds w1 p i1) (holds w2 p i0 * holds w2 p i1). intros S S1 S2 k k1 k2 H H1 H2.
  assert (X : S1 ^ 2 * (S2 ^ 2 * k * (A1 * A2)) <= S1 ^ 2 * (S ^ 2 * k2 * (B1 * B2))).
  { transitivity (S2 ^ 2 * A2 * (S ^ 2 * k1 * B1)).
    - replace (S1 ^ 2 * (S2 ^ 2 * k * (A1 * A2))) with (S2 ^ 2 * A2 * (S1 ^ 2 * k * A1)) by lia. apply N.mul_le_mono_l. exact H1.
    - replace (S2 ^ 2 * A2 * (S ^ 2 * k1 * B1)) with (S ^ 2 * B1 * (S2 ^ 2 * k1 * A2)) by lia.
      replace (S1 ^ 2 * (S ^ 2 * k2 * (B1 * B2))) with (S ^ 2 * B1 * (S1 ^ 2 * k2 * B2)) by lia. apply N.mul_le_mono_l. exact H2. }
  apply N.mul_le_mono_pos_l in X; [exact X|]. apply N.neq_0_lt_0. apply N.pow_nonzero. lia.
Qed.
Lemma grows_one p lp i0 i1 w w' : share_value_le p lp i0 i1 w w' -> grows_by p lp i0 i1 w w' 1 1.
Proof. unfold grows_by, share_value_le. rewrite !N.mul_1_r. auto. Qed.
Lemma live_not_own w p st lg : pair_at w p st -> Forall (fun e => live w (Token (ev_contract e))) lg -> own p lg = [].
Proof.
  intros Hp F. induction F as [|e l (ts & He) F IH]; [reflexivity|]. rewrite own_other; [exact IH|]. intros E. rewrite E in He.
  unfold tok_at, pair_at in *. congruence.
Qed.

Section fees.
  Context (C : chain) (OK : chain_ok C).
  Local Notation A := (ch_api C).
  Context (p lp : string) (st : pair_info_raw) (i0 i1 : asset_info).
  Context (Has : assets_are C st i0 i1) (Hne : i0 <> i1).
  Context (Hlp : human A (r_liquidity_token st) = Some lp) (N0 : i0 <> Token lp) (N1 : i1 <> Token lp).
  Local Notation v_inv := (v_inv p lp st i0 i1).
  Local Notation watched := (watched lp i0 i1).
  Local Notation v_may := (v_may C p lp i0 i1).
  Local Notation quiet := (P_Value.quiet p lp st i0 i1).

  Definition alive (lg : list event) : Prop := forall e, In e lg -> 0 < supply (ev_world e) lp.
  Definition f_rel (w w' : world) (lg : list event) : Prop :=
    v_inv w' /\ (alive lg -> 0 < supply w' lp -> 0 < supply w lp /\
      exists a b, fee_growth p i0 i1 (own p lg) a b /\ grows_by p lp i0 i1 w w' a b).

  Lemma f_inv_rel x w w' : rel x w w' -> v_inv w -> v_inv w'.
  Proof.
    intros R (Hp & L0 & L1 & ts & cap & Ht & Hm). split; [|split; [|split]].
    - destruct (rl_pairs _ _ _ R _ _ Hp) as (st' & Hp' & [->|(_ & X & _)]); [exact Hp'|]. exfalso. rewrite X in Hlp.
      apply (api_human_canon C OK) in Hlp. exact (canon_nonempty C OK _ Hlp).
    - destruct i0; [|exact I]. destruct L0 as (us & Hu). destruct (rl_toks _ _ _ R _ _ Hu) as (us' & Hu' & _). exists us'. exact Hu'.
    - destruct i1; [|exact I]. destruct L1 as (us & Hu). destruct (rl_toks _ _ _ R _ _ Hu) as (us' & Hu' & _). exists us'. exact Hu'.
    - destruct (rl_toks _ _ _ R _ _ Ht) as (ts' & Ht' & _ & _ & _ & M). exists ts', cap. split; [exact Ht'|]. rewrite (M p st cap); auto.
  Qed.
  Lemma f_quiet w w' : quiet w w' -> f_rel w w' [].
  Proof.
    intros (V & S & H0 & H1). split; [exact V|]. intros _ P. split; [lia|]. exists 1, 1. split; [constructor|]. apply grows_one.
    unfold share_value_le. apply two_sides; apply N.mul_le_mono; assumption.
  Qed.
  Lemma f_trans w w1 w2 l1 l2 : f_rel w w1 l1 -> f_rel w1 w2 l2 -> f_rel w w2 (l1 ++ l2).
  Proof.
    intros [V1 H1] [V2 H2]. split; [exact V2|]. intros G P.
    destruct H2 as (P1 & a2 & b2 & F2 & X2); [intros e He; apply G; apply in_or_app; auto|exact P|].
    destruct H1 as (P0 & a1 & b1 & F1 & X1); [intros e He; apply G; apply in_or_app; auto|exact P1|].
    split; [exact P0|]. exists (a1 * a2), (b1 * b2). split.
    - unfold own. rewrite list.filter_app. apply fg_app; assumption.
    - exact (grows_trans _ _ _ _ _ _ _ _ _ _ _ P1 X1 X2).
  Qed.
  Lemma f_event w w2 w3 e lg : ev_contract e <> p -> quiet w w2 -> f_rel w2 w3 lg -> f_rel w w3 (e :: lg).
  Proof.
    intros D Q H. destruct (f_trans _ _ _ _ _ (f_quiet _ _ Q) H) as [V X]. split; [exact V|]. intros G.
    rewrite (own_other p e lg D). apply X. intros e' He. apply G. right. exact He.
  Qed.

  (** *** A token tells the pair about a deposit *)
  Lemma f_recv f w w2 a ta s n h w3 x lg : sane C w2 -> v_inv w2 -> tok_at w2 a ta ->
    supply w2 lp = supply w lp -> (forall j, holds w2 p j = holds w p j + (if decide (j = Token a) then n else 0)) ->
    exec C f w2 a (MExecute p (JReceive s n h) []) = Ok (w3, x, lg) ->
    alive lg -> 0 < supply w3 lp -> 0 < supply w lp /\
      exists a b, fee_growth p i0 i1 (own p lg) a b /\ grows_by p lp i0 i1 w w3 a b.
  Proof.
    intros Sn V Hta ES EH E G P. pose proof V as (Hp & L0 & L1 & ts & cap & Ht & _).
    assert (Hap : a <> p) by (intros ->; unfold tok_at, pair_at in *; congruence).
    destruct (pair_log C OK f w2 a p st _ [] w3 x lg Sn Hp (or_introl Hap) E) as (w1' & st' & rsp & Eb & Hx & K).
    rewrite bank_send_none in Eb. injection Eb as <-.
    destruct (pair_calls _ _ _ _ _ _ _ _ Hx) as [(s0 & n0 & h0 & X & Hh)|(? & ? & ? & X)]; [|discriminate].
    injection X as <- <- <-. destruct Hh as [->|(bp & ms & to & ->)].
    - (* withdrawal *)
      assert (Ow : own p lg = [Event p a (JReceive s n HWithdrawLiquidity) (rs_attrs rsp) [] w2]).
      { pose proof Hx as Hx'. apply receive_withdraw_inv in Hx' as (_ & _ & _ & Ec). apply withdraw_attrs in Ec as (y & lp' & ti & r0 & r1 & Hy & Hlp' & Hti & Hrf & Hmsg & Hat).
        rewrite Hlp in Hlp'. injection Hlp' as <-.
        apply (pools_are C OK w2 p st i0 i1 y Sn Hp Has L0 L1) in Hy as (_ & _ & ->). cbn [fst snd a_info a_amount] in *.
        apply (K _ Hmsg). constructor; [apply (quiet_pay C OK); assumption|]. constructor; [apply (quiet_pay C OK); assumption|]. constructor; [|constructor].
        split; [eapply sane_norm; eauto|]. split; [exists ts; exact Ht|exact I]. }
      assert (R : 0 < supply w lp /\ (supply w3 lp * holds w p i0 <= supply w lp * holds w3 p i0 /\ supply w3 lp * holds w p i1 <= supply w lp * holds w3 p i1)).
      { pose proof (recv_value C OK p lp st i0 i1 Has Hne Hlp N0 N1
          (fun u u' => supply u' lp * holds u p i0 <= supply u lp * holds u' p i0 /\ supply u' lp * holds u p i1 <= supply u lp * holds u' p i1)
          (fun e => ~ is_swap p e)) as RV.
        refine (RV _ _ _ _ f w w2 a ta s n HWithdrawLiquidity w3 x lg Sn V Hta ES EH E _ P).
        - intros; split; assumption.
        - intros u u1 u2 P1 [X0 X1] [Y0 Y1]. split; [exact (backing_trans p lp i0 u u1 u2 P1 X0 Y0)|exact (backing_trans p lp i1 u u1 u2 P1 X1 Y1)].
        - intros e u u' Ne Se. destruct (Ne Se).
        - intros e Ne Hc Hm. destruct Ne. split; assumption.
        - intros e He. split; [exact (G e He)|]. intros Sw. assert (Hin : e ∈ own p lg).
          { apply elem_of_list_filter. split; [exact (proj1 Sw)|]. apply elem_of_list_In. exact He. }
          rewrite Ow in Hin. apply elem_of_list_singleton in Hin. destruct Sw as (_ & ? & ? & ? & ? & ? & X). rewrite Hin in X. discriminate X. }
      destruct R as (R0 & R1 & R2). split; [exact R0|]. exists 1, 1. split.
      + rewrite Ow. apply fg_other; [|constructor]. intros (_ & ? & ? & ? & ? & ? & X). discriminate X.
      + apply grows_one. apply two_sides; assumption.
    - (* swap *)
      assert (Sw : forall i i', (i = i0 /\ i' = i1) \/ (i = i1 /\ i' = i0) -> i = Token a ->
        0 < supply w lp /\ exists a b, fee_growth p i0 i1 (own p lg) a b /\ grows_by p lp i0 i1 w w3 a b).
      { intros i i' Hi Ei. assert (L : live w2 i') by (destruct Hi as [[_ ->]|[_ ->]]; assumption).
        assert (D : Token a <> i') by (destruct Hi as [[-> ->]|[-> ->]]; congruence).
        assert (Sd : exists od ad, sides A st (Token a) i' od ad).
        { destruct Has as [Ha0 Ha1]. destruct (r_asset_decimals st) as [da db] eqn:Ed. destruct Hi as [[-> ->]|[-> ->]]; rewrite Ei in *.
          - exists da, db. left. auto.
          - exists db, da. right. auto. }
        destruct Sd as (od & ad & Sd).
        pose proof (swap_recv_inv C OK _ _ _ _ _ _ _ _ _ _ _ _ _ _ _ _ Sn Hp Sd D (ex_intro _ ta Hta) L E) as X. cbv zeta in X.
        destruct X as (r & sp & c & rcv' & lg' & Hn & Hn' & B0 & B1 & Hsw & _ & _ & Pd & _ & Elg).
        assert (Ow : own p lg = [Event p a (JReceive s n (HSwap bp ms to)) (swap_attrs s (match to with Some z => z | None => s end) a i' n r sp c) [] w2]).
        { pose proof Hx as Ec. apply receive_swap_inv in Ec as (y & to' & _ & _ & _ & Hy & _ & -> & _ & Ec).
          apply swap_inv in Ec as (y' & op & ak & ask & od' & ad' & r2 & sp2 & c2 & Hy' & _ & Hdir & Hc2 & _ & Hmsg & Hat).
          rewrite Hy in Hy'. injection Hy' as <-.
          apply (pools_inv C OK w2 p st y (Token a) i' od ad) in Hy as (_ & _ & Hy); auto; [|exists ta; exact Hta]. cbn [a_info a_amount] in Hdir.
          assert (Z : ak = i').
          { destruct Hy as [[-> Ed]|[-> Ed]]; cbn [fst snd a_info a_amount] in Hdir; rewrite Ed in Hdir; cbn [fst snd] in Hdir;
              destruct Hdir as [(F1 & F2 & F3 & F4 & F5 & F6 & F7)|(F0 & F1 & F2 & F3 & F4 & F5 & F6 & F7)]; subst; auto; congruence. }
          subst ak.
          specialize (K (if r2 =? 0 then [] else [into_msg (Asset i' r2) (match to with Some z0 => z0 | None => s end)])).
          assert (K1 : own p lg = [Event p a (JReceive s n (HSwap bp ms to)) (rs_attrs rsp) [] w2]).
          { apply K.
            - rewrite Hmsg. destruct (r2 =? 0); reflexivity.
            - destruct (r2 =? 0); [constructor|]. constructor; [|constructor]. apply (quiet_pay C OK); auto. }
          rewrite Elg, own_self in K1 by reflexivity. assert (K2 : own p lg' = []) by congruence.
          rewrite Elg, own_self, K2 by reflexivity. reflexivity. }
        assert (Ho : holds w2 p (Token a) - n < B128) by (eapply N.le_lt_trans; [apply N.le_sub_l|exact B0]).
        pose proof (C02_never_overdrawn _ _ _ _ _ _ Ho B1 Hn' Hsw) as Hrc.
        apply compute_swap_iff in Hsw as ((Z & _) & Er & _ & Ec); auto.
        destruct (pd_toks _ _ _ _ _ _ Pd _ _ Ht) as (ts3 & Ht3 & _ & _ & _ & S3 & _).
        assert (E3 : supply w3 lp = supply w lp) by (rewrite (supply_at _ _ _ Ht3), S3, <- ES; symmetry; apply supply_at; exact Ht).
        split; [lia|]. exists ((holds w2 p i' - r) * 10 ^ 18 * 1), (((holds w2 p i' - (r + c)) * 10 ^ 18 + 1) * 1).
        split.
        { rewrite Ow. eapply (fg_swap p i0 i1 (Event p a _ _ _ w2) [] 1 1 i' r c).
          - split; [reflexivity|]. eexists _, _, _, _, _. reflexivity.
          - cbn [ev_sender]. rewrite <- Ei. destruct Hi as [[-> ->]|[-> ->]]; auto.
          - reflexivity.
          - reflexivity.
          - exact Hrc.
          - constructor. }
        pose proof (pd_holds _ _ _ _ _ _ Pd p i') as Q1. pose proof (pd_holds _ _ _ _ _ _ Pd p (Token a)) as Q2.
        rewrite !(decide_False (P := _ /\ Token a = i')) in Q2 by tauto. rewrite decide_True in Q1 by auto.
        pose proof (EH (Token a)) as E1. rewrite decide_True in E1 by reflexivity. pose proof (EH i') as E2. rewrite decide_False in E2 by congruence.
        assert (Eg : r + c = gross (holds w2 p (Token a) - n) (holds w2 p i') n).
        { pose proof (fee_le (gross (holds w2 p (Token a) - n) (holds w2 p i') n)). lia. }
        pose proof (swap_growth _ _ _ _ _ Z Eg Hrc) as SG.
        assert (K2 : holds w p (Token a) * holds w p i' * ((holds w2 p i' - r) * 10 ^ 18) <= holds w3 p (Token a) * holds w3 p i' * ((holds w2 p i' - (r + c)) * 10 ^ 18 + 1)).
        { replace (holds w p (Token a)) with (holds w2 p (Token a) - n) by lia. replace (holds w p i') with (holds w2 p i') by lia.
          etransitivity; [exact SG|]. apply N.mul_le_mono_r. apply N.mul_le_mono.
          - lia.
          - destruct (decide (p = rcv' /\ i' = i')); lia. }
        unfold grows_by. rewrite E3, !N.mul_1_r, <- !N.mul_assoc. apply N.mul_le_mono_l. rewrite !N.mul_assoc. rewrite !N.mul_assoc in K2.
        destruct Hi as [[-> ->]|[-> ->]]; rewrite Ei in *; [exact K2|]. rewrite (N.mul_comm (holds w p i0)), (N.mul_comm (holds w3 p i0)). exact K2. }
      apply receive_swap_inv in Hx as (y & to' & _ & _ & _ & Hy & Hi & _).
      apply (pools_are C OK w2 p st i0 i1 y Sn Hp Has L0 L1) in Hy as (_ & _ & ->). cbn [fst snd a_info] in Hi.
      destruct Hi as [Hi|Hi]; [apply (Sw i0 i1)|apply (Sw i1 i0)]; auto.
  Qed.

  (** *** A deposit *)
  Lemma provide_log f w1 s funds assets tol rcv rsp st' w3 lg : sane C w1 -> v_inv w1 ->
    pair_execute A (wq C w1) p st s funds (JProvideLiquidity assets tol rcv) = Ok (st', rsp) ->
    run C f w1 p (rs_msgs rsp) = Ok (w3, lg) -> own p lg = [].
  Proof.
    intros Sn V Hx E. pose proof V as (Hp & L0 & L1 & ts & cap & Ht & _).
    unfold pair_execute in Hx. destruct (jmsg_ranges _); [|discriminate]. cbn [negb] in Hx.
    apply provide_inv in Hx as (y & e0 & e1 & m0 & p0 & m1 & p1 & lp' & ti & share & A0 & A1 & -> & Hy & Z0 & Z1 & P0 & P1 & Hsl & Hlp' & Hti & Hnz & Hsh & Hm).
    rewrite Hlp in Hlp'. injection Hlp' as <-.
    apply (pools_are C OK w1 p st i0 i1 y Sn Hp Has L0 L1) in Hy as (_ & _ & ->). cbn [fst snd a_info a_amount] in *.
    assert (Qp : forall i v d m q, live w1 i -> a_info v = i -> pull_deposit p s v d = Ok (m, q) -> Forall (P_Events.quiet C w1) m).
    { intros i v d m q L Hv P. unfold pull_deposit in P. rewrite Hv in P. destruct i as [t|n].
      - injection P as <- _. constructor; [|constructor]. destruct L as (us & Hu). split; [eapply sane_norm; eauto|]. split; [exists us; exact Hu|exact I].
      - apply rbind_ok in P as (? & _ & P). injection P as <- _. constructor. }
    rewrite Hm in E. apply quiet_run in E; [eapply live_not_own; eassumption|].
    apply Forall_app. split; [exact (Qp i0 (Asset i0 _) e0 m0 p0 L0 eq_refl P0)|]. apply Forall_app. split; [exact (Qp i1 (Asset i1 _) e1 m1 p1 L1 eq_refl P1)|]. constructor; [|constructor].
    split; [eapply sane_norm; eauto|]. split; [exists ts; exact Ht|exact I].
  Qed.

  (** *** All calls *)
  Lemma f_ok : ind3_ok C v_inv f_rel v_may.
  Proof.
    split.
    - intros w w' lg _ [V _]. exact V.
    - intros w _ V. apply f_quiet. split; [exact V|]. lia.
    - intros w w1 w2 l1 l2 _ _ _ _ _ _. apply f_trans.
    - intros w w' a sm lg _ _ _ _ _ _ H. exact H.
    - intros w s ro to cs w' to' M V _ [Hs _] Hn Hb M' R. apply f_quiet. apply (quiet_toks p lp st i0 i1); [eapply (f_inv_rel); eauto| |exact V|].
      + intros t ts Ht. exists ts. split; [|lia]. eapply same_toks; [apply (bm_insts _ _ _ _ _ Hb)|exact Ht].
      + intros d. pose proof (bm_bal _ _ _ _ _ Hb p d) as B. rewrite decide_False in B by congruence. destruct (decide (p = to')); lia.
    - intros w s ro c msg funds a w1 i st2 rsp f w3 lg M V Hm [Hs Hw] Hn Hb Hst Hi Hc w2 M2 R2 Fm Er M3 R3.
      pose proof (f_inv_rel _ _ _ R2 V) as V2. pose proof (f_inv_rel _ _ _ R3 V2) as V3.
      destruct (decide (a = p)) as [->|Dp].
      + (* the pair itself *)
        assert (Us : ~ watched s).
        { intros W. destruct (Hw W) as (c0 & s0 & n0 & h0 & X & Y). injection X as -> _ _ _. exact (Y Hn). }
        pose proof V as (Hp & L0 & L1 & ts & cap & Ht & _). unfold pair_at in Hp. rewrite Hst in Hp. injection Hp as Ei.
        rewrite Ei in Hc. cbn [call] in Hc. unfold wrap in Hc. apply rbind_ok in Hc as ([ps' rsp'] & Hc & E'). injection E' as <- <-.
        assert (Eps : ps' = st).
        { destruct V2 as (Hp2 & _). unfold pair_at, w2 in Hp2. rewrite state_at_set in Hp2 by eauto. rewrite decide_True in Hp2 by reflexivity. congruence. }
        subst ps'. assert (E2 : w2 = w1) by (unfold w2; rewrite <- Ei; apply set_state_id; exact Hi). rewrite E2 in *. clear w2 E2.
        pose proof V2 as (Hp1 & K0 & K1 & _).
        destruct (pair_calls _ _ _ _ _ _ _ _ Hc) as [(s0 & n0 & h0 & -> & Hh)|(as0 & tol & rcv & ->)].
        * exfalso. apply Us. destruct Hh as [->|(bp & ms & to & ->)].
          -- left. apply receive_withdraw_inv in Hc as (_ & Hc & _ & _). symmetry. apply (canon_norm_eq C _ _ _ Hc); [|exact Hlp].
             destruct Hm as [[O _]|(x & Hx & _)]; [exact O|]. eapply (sane_norm C OK); [apply main_sane; exact M|exact Hx].
          -- apply receive_swap_inv in Hc as (y & to' & _ & _ & _ & Hy & Hi' & _).
             apply (pools_are C OK w1 p st i0 i1 y (main_sane C _ M2) Hp1 Has K0 K1) in Hy as (_ & _ & ->). cbn [fst snd a_info] in Hi'.
             right. destruct Hi'; auto.
        * left. split; [exact V3|]. intros G P3.
          assert (P1 : 0 < supply w1 lp) by exact (G _ (or_introl eq_refl)).
          assert (P0 : 0 < supply w lp) by (unfold supply, state_at in *; rewrite (bm_insts _ _ _ _ _ Hb) in P1; exact P1).
          split; [exact P0|]. exists 1, 1. split.
          -- rewrite own_self by reflexivity. apply fg_other; [intros (_ & ? & ? & ? & ? & ? & X); discriminate X|].
             rewrite (provide_log _ _ _ _ _ _ _ _ _ _ _ (main_sane C _ M2) V2 Hc Er). constructor.
          -- apply grows_one. eapply (provide_value C OK p lp st i0 i1 Has Hne Hlp N0 N1 (share_value_le p lp i0 i1) (fun _ => True));
               [intros u u' X0 X1; apply two_sides; assumption|intros u u1 u2; apply share_value_trans|
                intros e u u' _ _ Es X; unfold share_value_le; rewrite Es; apply N.mul_le_mono_l; exact X|apply main_sane; exact M2|exact V2|exact Hs|exact Hb|exact Hc|exact Er|exact P1].
      + assert (Q : quiet w w2).
        { apply (quiet_toks p lp st i0 i1); [exact V2| |exact V|].
          - intros t ts Ht. destruct (call_toks C _ _ _ _ _ _ _ _ _ _ _ Hb Hst Hi Hc Ht) as [(_ & Ht2)|(-> & ts' & _ & Ht2 & Ef)].
            + exists ts. fold w2 in Ht2. split; [exact Ht2|lia].
            + exists ts'. fold w2 in Ht2. split; [exact Ht2|]. split.
              * intros ->. eapply token_no_mint; [exact Ef|]. intros cap r n Hmt. destruct V as (_ & _ & _ & ts0 & cap0 & Ht0 & Hm0).
                rewrite (tok_at_inj _ _ _ _ Ht Ht0), Hm0 in Hmt. congruence.
              * eapply token_no_loss; [exact Ef| |].
                -- intros ->. destruct (Hs eq_refl).
                -- intros sp v Hal. exact (not_owner C p lp st i0 i1 _ _ _ _ _ M V Ht Hal).
          - intros d. unfold w2. rewrite set_state_bal. pose proof (bm_bal _ _ _ _ _ Hb p d) as B. rewrite decide_False in B by congruence. destruct (decide (p = a)); lia. }
        destruct (watched_dec lp i0 i1 a) as [Wa|Ua].
        2: right; split; [exact V2|]; split; [apply (v_unwatched C p lp i0 i1); assumption|apply (f_event w w2); [exact Dp|exact Q]].
        destruct (watched_token p lp st i0 i1 _ _ V Wa) as (ts & Ht).
        destruct (call_toks C _ _ _ _ _ _ _ _ _ _ _ Hb Hst Hi Hc Ht) as [(X & _)|(_ & ts' & Est & Ht2 & Ef)]; [destruct (X eq_refl)|]. fold w2 in Ht2.
        destruct (token_sends _ _ _ _ _ _ _ Ef) as [El|(o & c' & n & h & t1 & El & Nc & Eb & Es & Mv & Ho)].
        { right. split; [exact V2|]. rewrite El. split; [constructor|apply (f_event w w2); [exact Dp|exact Q]]. }
        destruct (decide (c' = p)) as [->|Dc].
        2: { right. split; [exact V2|]. rewrite El. split; [|apply (f_event w w2); [exact Dp|exact Q]]. constructor; [|constructor].
             split; [exact Dp|]. intros _. eexists _, _, _, _. split; [reflexivity|]. congruence. }
        left. split; [exact V3|]. intros G P3. rewrite El in Er. destruct f; [rewrite run_0 in Er; discriminate|]. rewrite run_plain in Er.
        apply rbind_ok in Er as ([[wx rx] lx] & Ee & Er). apply rbind_ok in Er as ([wy ly] & En & Er). injection Er as <- <-.
        destruct f; [rewrite run_0 in En; discriminate|]. rewrite run_nil in En. injection En as <- <-.
        assert (Do : o <> p).
        { intros ->. destruct Ho as [->|(v & Ho)]; [exact (Hs eq_refl)|exact (not_owner C p lp st i0 i1 _ _ _ _ _ M V Ht Ho)]. }
        rewrite own_other by exact Dp. rewrite app_nil_r. eapply (f_recv _ w w2 a ts'); [apply main_sane; exact M2|exact V2|exact Ht2| | |exact Ee| |exact P3].
        * destruct V as (_ & _ & _ & ts0 & cap0 & Ht0 & _).
          destruct (call_toks C _ _ _ _ _ _ _ _ _ _ _ Hb Hst Hi Hc Ht0) as [(X & Ht3)|(-> & ts3 & Est3 & Ht3 & _)]; fold w2 in Ht3.
          -- rewrite (supply_at _ _ _ Ht0), (supply_at _ _ _ Ht3). reflexivity.
          -- rewrite (supply_at _ _ _ Ht0), (supply_at _ _ _ Ht3). rewrite (tok_at_inj _ _ _ _ Ht0 Ht). rewrite (tok_at_inj _ _ _ _ Ht3 Ht2).
             destruct Mv as [(_ & _ & _ & X & _) _ _ _]. congruence.
        * intros j. destruct (decide (j = Token a)) as [->|Dj].
          -- rewrite (holds_tok _ _ _ _ Ht), (holds_tok _ _ _ _ Ht2). destruct Mv as [_ _ B _]. specialize (B p).
             rewrite decide_False in B by congruence. rewrite decide_True in B by reflexivity. unfold balance_of in *. rewrite Eb in B. lia.
          -- destruct j as [u|d].
             ++ unfold holds, w2. rewrite state_at_set by eauto. rewrite decide_False by congruence. unfold state_at. rewrite (bm_insts _ _ _ _ _ Hb). lia.
             ++ cbn [holds]. unfold w2. rewrite set_state_bal. pose proof (bm_bal _ _ _ _ _ Hb p d) as B. rewrite !decide_False in B by congruence. lia.
        * intros e He. apply G. right. apply in_or_app. left. exact He.
    - intros w s ro ad code msg funds label k adm w1 st2 rsp f w3 lg M V Hm [Hs _] Hk Had a Hb Hc w2 M2 S Hn QP Er M3 R3.
      assert (Old : forall x s0, state_at w x = Some s0 -> state_at w2 x = Some s0).
      { intros x s0 Hx. rewrite S, decide_False by congruence. exact Hx. }
      assert (V2 : v_inv w2).
      { destruct V as (Hp & L0 & L1 & ts & cap & Ht & Hmt). split; [apply Old; exact Hp|]. split; [|split].
        - destruct i0; [|exact I]. destruct L0 as (us & Hu). exists us. apply Old. exact Hu.
        - destruct i1; [|exact I]. destruct L1 as (us & Hu). exists us. apply Old. exact Hu.
        - exists ts, cap. split; [apply Old; exact Ht|exact Hmt]. }
      right. split; [exact V2|]. split.
      + apply (v_unwatched C p lp i0 i1).
        * intros Ea. destruct V as (Hp & _). unfold pair_at in Hp. congruence.
        * intros Wa. destruct (watched_token p lp st i0 i1 _ _ V Wa) as (ts & Ht). unfold tok_at in Ht. congruence.
      + intros H. apply (f_trans w w2 w3 [] lg); [|exact H]. apply f_quiet. apply (quiet_toks p lp st i0 i1); [exact V2| |exact V|].
        * intros t ts Ht. exists ts. split; [apply Old; exact Ht|]. lia.
        * intros d. change (bal w2 p d) with (bal w1 p d). pose proof (bm_bal _ _ _ _ _ Hb p d) as B.
          change (bal (set_next w (w_next w + 1)) p d) with (bal w p d) in B. rewrite decide_False in B by congruence. destruct (decide _) in B; lia.
    - intros w s ro c code a i k st2 M V _ _ _ Hi _ _ Hmg _ R. apply f_quiet. apply (quiet_toks p lp st i0 i1); [eapply (f_inv_rel); eauto| |exact V|].
      + intros t ts Ht. exists ts. split; [eapply mig_toks; eauto|]. lia.
      + intros d. rewrite set_state_bal. lia.
    - intros w a adm M V _ R. apply f_quiet. apply (quiet_toks p lp st i0 i1); [eapply (f_inv_rel); eauto| |exact V|].
      + intros t ts Ht. exists ts. split; [apply admin_toks; exact Ht|]. lia.
      + intros d. unfold bal. rewrite set_admin_bank. lia.
    - intros w a sm rest f w' r lg id i st2 rsp M V Hms [Da Hw] Hro Ex M' R' [V' HR] Hi Hr w2 M2 Rr2. split.
      + destruct (reply_msgs C _ _ _ _ _ _ _ _ Hi Hr) as [->|(k & d & Ha)]; [constructor|].
        apply (v_unwatched C p lp i0 i1); [exact Da|]. intros Wa. destruct (watched_token p lp st i0 i1 _ _ V' Wa) as (ts & Ht). unfold tok_at in Ht. congruence.
      + apply f_quiet. apply (quiet_toks p lp st i0 i1); [eapply (f_inv_rel); eauto| |exact V'|].
        * intros t ts Ht. exists ts. split; [eapply reply_toks; eauto|]. lia.
        * intros d. unfold w2. rewrite set_state_bal. lia.
    - intros w a sm rest id k d st2 rsp M V _ [Da Hw] _ Hs _ w2 M2 Rr2. split.
      + apply (v_unwatched C p lp i0 i1); [exact Da|]. intros Wa. destruct (watched_token p lp st i0 i1 _ _ V Wa) as (ts & Ht). unfold tok_at in Ht. congruence.
      + apply f_quiet. apply (quiet_toks p lp st i0 i1); [eapply (f_inv_rel); eauto| |exact V|].
        * intros t ts Ht. exists ts. split; [eapply set_toks; [exact Hs|discriminate|exact Ht]|]. lia.
        * intros dn. unfold w2. rewrite set_state_bal. lia.
  Qed.
End fees.

(** ** C78 *)

(** Over every history in which the LP supply is positive whenever a call
    succeeds and at the end, the value of a share grows at least by the factors
    that the commissions reported by the pair amount to: every commission goes
    to the liquidity providers, whatever else happens in between. *)
Theorem C78_fees_go_to_providers C w lg w' p st lp i0 i1 :
  chain_ok C -> reachable C w -> history C w lg w' ->
  pair_at w p st -> assets_are C st i0 i1 -> i0 <> i1 -> live w i0 -> live w i1 ->
  human (ch_api C) (r_liquidity_token st) = Some lp -> live w (Token lp) -> i0 <> Token lp -> i1 <> Token lp ->
  (forall e, In e lg -> 0 < supply (ev_world e) lp) -> 0 < supply w' lp ->
  exists A B, fee_growth p i0 i1 lg A B /\ grows_by p lp i0 i1 w w' A B.
Proof.
  intros OK Hr Hh Hp Has Hne L0 L1 Hlp (ts & Ht) N0 N1 Hs Hs'. pose proof (reachable_main C OK w Hr) as M.
  assert (V : v_inv p lp st i0 i1 w).
  { split; [exact Hp|]. split; [exact L0|]. split; [exact L1|].
    destruct (pg_lp _ _ _ _ (mn_pairs _ _ M _ _ Hp)) as [X|(t & Hl & X)].
    - exfalso. rewrite X in Hlp. apply (api_human_canon C OK) in Hlp. exact (canon_nonempty C OK _ Hlp).
    - rewrite Hlp in Hl. injection Hl as <-. destruct X as [(us & Hu & Hm)|(k & d & X)]; [|unfold tok_at in Ht; congruence]. eauto. }
  destruct (pair_fresh C w p st M Hp) as (n0 & Ep).
  assert (X : f_rel p lp st i0 i1 w w' lg).
  { apply (history_ind3 C OK (v_inv p lp st i0 i1) (f_rel p lp st i0 i1) (v_may C p lp i0 i1) w lg w'); auto.
    - apply f_ok; assumption.
    - intros w0 s m [_ O]. split; [intros ->; exact (O n0 (eq_sym Ep))|]. intros Wa. destruct (watched_token _ _ _ _ _ _ _ V Wa) as (us & Hu).
      apply state_at_inst in Hu as (adm & Hu). assert (Hu' : is_Some (w_insts w !! s)) by eauto. apply (mn_fresh _ _ M) in Hu' as (m0 & _ & Em). destruct (O m0 (eq_sym Em)).
    - intros w0 blk _ V0. apply f_quiet; try assumption. split; [exact V0|]. split; [reflexivity|]. split; apply holds_same; try reflexivity; intros d; reflexivity. }
  destruct X as [_ X]. destruct (X Hs Hs') as (_ & a & b & F & G). exists a, b. split; [apply fg_own; exact F|exact G].
Qed.

(** The log determines those factors. *)
Theorem C78_factors_unique p i0 i1 lg A B A' B' : i0 <> i1 -> fee_growth p i0 i1 lg A B -> fee_growth p i0 i1 lg A' B' -> A = A' /\ B = B'.
Proof.
  intros Hne H. revert A' B'. induction H as [|e l A B N H IH|e l A B i r c Sw Hi R Cm Le H IH]; intros A' B' H'; inversion H'; subst; auto; try contradiction.
  match goal with X : fee_growth _ _ _ l _ _, Hi' : _ \/ _, R' : says_num e "return_amount" ?r', C' : says_num e "commission_amount" ?c' |- _ => idtac end.
  assert (Ei : i = i2) by (match goal with X : Token (ev_sender e) = i0 /\ i2 = i1 \/ _ |- _ => destruct Hi as [[? ->]|[? ->]], X as [[? ->]|[? ->]]; congruence end).
  subst i2. assert (r = r0) as <- by (eapply C61_numbers_readable; eassumption). assert (c = c0) as <- by (eapply C61_numbers_readable; eassumption).
  destruct (IH _ _ ltac:(eassumption)) as [-> ->]. auto.
Qed.

(** One swap: the product of the reserves grows by the commission times the
    reserve of the asset offered, less what 18 decimals cannot express; with any
    commission at all it grows. *)
Theorem C78_one_swap C w p st t ai od ad s n bp ms to f w' z lg : chain_ok C -> reachable C w -> pair_at w p st ->
  sides (ch_api C) st (Token t) ai od ad -> Token t <> ai -> live w (Token t) -> live w ai -> s <> p -> norm (ch_api C) s = Some s ->
  exec C f w s (MExecute t (JSend p n (HSwap bp ms to)) []) = Ok (w', z, lg) ->
  exists e c, own p lg = [e] /\ says_num e "commission_amount" c /\
    holds w p (Token t) * holds w p ai + holds w' p (Token t) * c <=
      holds w' p (Token t) * holds w' p ai + (holds w' p (Token t) - 1) / 10 ^ 18 /\
    (1 <= c -> holds w p (Token t) * holds w p ai < holds w' p (Token t) * holds w' p ai).
Proof.
  intros OK Hr Hp Hs Hne Lt La Hsp Ns E. pose proof (main_sane C w (reachable_main C OK w Hr)) as Sn.
  destruct (C61_swap_event C w p st t ai od ad s n bp ms to f w' z lg OK Hr Hp Hs Hne Lt La Hsp Ns E)
    as (e & r & c & Ow & _ & _ & _ & _ & _ & _ & _ & Cm & St & G & _).
  apply (swap_tx_inv C OK w p st t ai od ad s) in E as (r' & sp & c' & _ & _ & Rn & Ro & Ra & _ & _ & _ & Hc & _ & _); auto.
  pose proof (C02_never_overdrawn _ _ _ _ _ _ Ro Ra Rn Hc) as Hrc.
  apply compute_swap_iff in Hc as ((H0 & _) & Er & _ & Ec); auto.
  exists e, c. split; [exact Ow|]. split; [exact Cm|].
  pose proof (St p (Token t)) as Xt. pose proof (St p ai) as Xa. cbn [left_ arrived fold_right] in Xt, Xa.
  set (x := holds w p (Token t)) in *. set (y := holds w p ai) in *.
  assert (E1 : holds w' p (Token t) = x + n).
  { repeat match type of Xt with context [decide ?P] => destruct (decide P) as [[? ?]|?]; try congruence; try tauto end; lia. }
  assert (E2 : y - r <= holds w' p ai).
  { repeat match type of Xa with context [decide ?P] => destruct (decide P) as [[? ?]|?]; try congruence; try tauto end; lia. }
  rewrite E1. clear Xt Xa E1.
  assert (Hg : r + c <= y).
  { rewrite G. pose proof (fee_le (gross x y n)). lia. }
  pose proof (gross_hi x y n ltac:(lia)) as Gh. rewrite <- G in Gh.
  assert (K : x * y + (x + n) * c <= (x + n) * (y - r) + (x + n - 1) / 10 ^ 18).
  { set (m := x + n) in *. set (u := (m - 1) / 10 ^ 18).
    assert (Hu : m - 1 < (u + 1) * 10 ^ 18) by (pose proof (div_hi (m - 1) (10 ^ 18) ltac:(discriminate)); unfold u; lia).
    assert (Em : m * (y - r) + m * r = m * y) by (rewrite <- N.mul_add_distr_l; f_equal; lia).
    assert (Ey : m * y = x * y + n * y) by (unfold m; lia).
    assert (K1 : (x * y + m * c) * 10 ^ 18 < (m * (y - r) + u + 1) * 10 ^ 18).
    { replace ((r + c) * m * 10 ^ 18) with (m * r * 10 ^ 18 + m * c * 10 ^ 18) in Gh by lia. replace (y * n) with (n * y) in Gh by lia.
      assert (0 < m) by (unfold m; lia). lia. }
    apply N.mul_lt_mono_pos_r in K1; [|reflexivity]. lia. }
  assert (K' : (x + n) * (y - r) <= (x + n) * holds w' p ai) by (apply N.mul_le_mono_l; exact E2).
  split; [lia|]. intros Hc1.
  assert (Kd : (x + n - 1) / 10 ^ 18 < x + n).
  { apply N.le_lt_trans with (x + n - 1); [apply N.div_le_upper_bound; [discriminate|]|]; lia. }
  assert ((x + n) * 1 <= (x + n) * c) by (apply N.mul_le_mono_l; exact Hc1). lia.
Qed.

(** Reading the factors off a log. *)
Definition num_of (e : event) (k : string) : N := match attr (ev_attrs e) k with Some s => dec_value s | None => 0 end.
Definition swap_msg (m : jmsg) : bool := match m with JReceive _ _ (HSwap _ _ _) => true | _ => false end.
Fixpoint growth_of (p : string) (i0 i1 : asset_info) (lg : list event) : N * N :=
  match lg with
  | [] => (1, 1)
  | e :: l =>
      if decide (ev_contract e = p) then
        if swap_msg (ev_msg e) then
          let y := holds (ev_world e) p (if decide (Token (ev_sender e) = i0) then i1 else i0) in
          let r := num_of e "return_amount" in let c := num_of e "commission_amount" in
          ((y - r) * 10 ^ 18 * (growth_of p i0 i1 l).1, ((y - (r + c)) * 10 ^ 18 + 1) * (growth_of p i0 i1 l).2)
        else growth_of p i0 i1 l
      else growth_of p i0 i1 l
  end.
Lemma growth_of_ok p i0 i1 lg A B : i0 <> i1 -> fee_growth p i0 i1 lg A B -> growth_of p i0 i1 lg = (A, B).
Proof.
  intros Hne H. induction H as [|e l A B N H IH|e l A B i r c Sw Hi R Cm Le H IH]; cbn [growth_of]; [reflexivity| |].
  - destruct (decide _) as [E|_]; [|exact IH]. destruct (swap_msg (ev_msg e)) eqn:Em; [|exact IH]. destruct N. split; [exact E|].
    destruct (ev_msg e); try discriminate. match goal with X : hook |- _ => destruct X; try discriminate end. eexists _, _, _, _, _. reflexivity.
  - destruct Sw as (Ec & s & n & bp & ms & to & Em). rewrite decide_True by exact Ec. rewrite Em. cbn [swap_msg]. rewrite IH. cbn [fst snd].
    assert (Ei : (if decide (Token (ev_sender e) = i0) then i1 else i0) = i) by (destruct (decide _), Hi as [[? ->]|[? ->]]; congruence).
    rewrite Ei. unfold says_num, says in R, Cm. unfold num_of. rewrite R, Cm, !dec_to_string_value. reflexivity.
Qed.
Definition fee_txs : list (bool * cmsg) := [ex_swap; ex_provide; ex_swap; ex_transfer; ex_withdraw].
Definition alive_b (t : string) (lg : list event) : bool := forallb (fun e => 0 <? supply (ev_world e) t) lg.
Lemma alive_ok t lg : alive_b t lg = true -> forall e, In e lg -> 0 < supply (ev_world e) t.
Proof. intros H e He. unfold alive_b in H. rewrite forallb_forall in H. apply N.ltb_lt. exact (H e He). Qed.

(** Pair #4 of the example chain: a swap, a deposit, a second swap, a donation
    and a withdrawal. By its own reports the two commissions add at least 0.055 %
    to the value of a share. *)
Example C78_case :
  let lg := log_of ex_world fee_txs in let w' := after ex_world fee_txs in
  reachable ex_chain ex_world /\ history ex_chain ex_world lg w' /\ pair_at ex_world "#4" ex_pair4 /\
  assets_are ex_chain ex_pair4 (Token "#1") (Native "uaura") /\ live ex_world (Token "#1") /\ live ex_world (Token "#5") /\
  human ex_api (r_liquidity_token ex_pair4) = Some "#5"%string /\ (forall e, In e lg -> 0 < supply (ev_world e) "#5") /\ 0 < supply w' "#5" /\
  fee_growth "#4" (Token "#1") (Native "uaura") lg 338993745432472000000000000000000000000000000000000 338807397064514000000000036816225000000000000000001 /\
  100055 * 338807397064514000000000036816225000000000000000001 <= 100000 * 338993745432472000000000000000000000000000000000000 /\
  (supply ex_world "#5", holds ex_world "#4" (Token "#1"), holds ex_world "#4" (Native "uaura")) = (14142135, 10000000, 20000000) /\
  (supply w' "#5", holds w' "#4" (Token "#1"), holds w' "#4" (Native "uaura")) = (14427783, 12157832, 17430915).
Proof.
  cbv zeta.
  assert (L1 : live ex_world (Token "#1")) by (exists (tok_of ex_world "#1"); apply tok_of_at; vm_compute; reflexivity).
  assert (L5 : live ex_world (Token "#5")) by (exists (tok_of ex_world "#5"); apply tok_of_at; vm_compute; reflexivity).
  assert (Al : alive_b "#5" (log_of ex_world fee_txs) = true) by (vm_compute; reflexivity).
  assert (S : (0 <? supply (after ex_world fee_txs) "#5") = true) by (vm_compute; reflexivity). apply N.ltb_lt in S.
  split; [exact ex_reachable|]. split; [apply after_history|]. split; [exact ex_pair4_at|]. split; [split; reflexivity|].
  split; [exact L1|]. split; [exact L5|]. split; [reflexivity|]. split; [apply alive_ok; exact Al|]. split; [exact S|]. split.
  - destruct (C78_fees_go_to_providers ex_chain ex_world (log_of ex_world fee_txs) (after ex_world fee_txs) "#4" ex_pair4 "#5" (Token "#1") (Native "uaura")
      ex_chain_ok ex_reachable (after_history _ _) ex_pair4_at (conj eq_refl eq_refl) ltac:(discriminate) L1 I eq_refl L5 ltac:(discriminate) ltac:(discriminate)
      (alive_ok _ _ Al) S) as (A & B & F & _).
    assert (E : growth_of "#4" (Token "#1") (Native "uaura") (log_of ex_world fee_txs) =
      (338993745432472000000000000000000000000000000000000, 338807397064514000000000036816225000000000000000001)) by (vm_compute; reflexivity).
    assert (Hne : Token "#1" <> Native "uaura") by discriminate.
    pose proof (growth_of_ok "#4" (Token "#1") (Native "uaura") (log_of ex_world fee_txs) A B Hne F) as X. rewrite X in E. clear X.
    apply pair_equal_spec in E as [E1 E2]. rewrite E1, E2 in F. exact F.
  - split; [apply N.leb_le; vm_compute; reflexivity|]. split; vm_compute; reflexivity.
Qed.
