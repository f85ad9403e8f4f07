(** The pair contract refines an abstract pool (C80). *)
From Verif Require Import Base BigNumber CwStd BigNumberFacts Asset Messages PairMath Pair PairFacts Token Factory Router
  SwapFacts SwapFacts2 P_Swap P_Pair FactoryFacts P_Factory P_Router TokenFacts World WorldInd WorldFacts WorldInv WorldInd2
  Examples WorldExamples P_Ledger P_Registry ExecFacts P_Exec P_Value P_Deposit P_Quotes P_Withdraw P_Sides P_Events P_Split P_Fees.
From Coq Require Import ZifyN.
Local Open Scope N_scope.
Ltac Zify.zify_post_hook ::= idtac.

(** ** Specification: the abstract pool *)

(** Two reserves and the number of LP tokens. *)
Record pool := Pool { x0 : N; x1 : N; lps : N }.

(** What the pair reports, in the order of its assets: a swap of [n] units of the
    first (or second) asset for [r] units of the other with commission [c]; a
    deposit by [s] of [d0] and [d1] units for [n] LP tokens; a withdrawal of [n]
    LP tokens for [r0] and [r1] units. *)
Inductive report :=
| Swapped (first : bool) (n r c : N)
| Provided (s : string) (d0 d1 n : N)
| Withdrawn (n r0 r1 : N).

(** What a reported operation does to the pool of a pair with requirements [q]. *)
Inductive pool_step (q : requirements) : pool -> report -> pool -> Prop :=
| step_swap0 x y S n : priced x y n -> fee (gross x y n) <= gross x y n <= y ->
    pool_step q (Pool x y S) (Swapped true n (gross x y n - fee (gross x y n)) (fee (gross x y n)))
      (Pool (x + n) (y - (gross x y n - fee (gross x y n))) S)
| step_swap1 x y S n : priced y x n -> fee (gross y x n) <= gross y x n <= x ->
    pool_step q (Pool x y S) (Swapped false n (gross y x n - fee (gross y x n)) (fee (gross y x n)))
      (Pool (x - (gross y x n - fee (gross y x n))) (y + n) S)
| step_provide x y S s d0 d1 : 0 < earned S d0 d1 x y -> (S <> 0 -> 0 < x /\ 0 < y) ->
    (S = 0 -> s ∈ whitelist q /\ first_asset_minimum q <= d0 /\ second_asset_minimum q <= d1) ->
    pool_step q (Pool x y S) (Provided s d0 d1 (earned S d0 d1 x y)) (Pool (x + d0) (y + d1) (S + earned S d0 d1 x y))
| step_withdraw x y S n : 0 < n <= S -> 0 < refund x n S <= x -> 0 < refund y n S <= y ->
    pool_step q (Pool x y S) (Withdrawn n (refund x n S) (refund y n S)) (Pool (x - refund x n S) (y - refund y n S) (S - n)).

(** Between these, anybody can give the pool something or destroy LP tokens of
    their own; nothing else can happen. *)
Definition given_to (P P' : pool) : Prop := x0 P <= x0 P' /\ x1 P <= x1 P' /\ lps P' <= lps P.
Inductive pool_runs (q : requirements) : pool -> list report -> pool -> Prop :=
| runs_nil P : pool_runs q P [] P
| runs_gift P P1 l P' : given_to P P1 -> pool_runs q P1 l P' -> pool_runs q P l P'
| runs_step P r P1 l P' : pool_step q P r P1 -> pool_runs q P1 l P' -> pool_runs q P (r :: l) P'.

(** An event with the attributes [l] of a pair with assets [i0], [i1] reports [r]. *)
Inductive tells (i0 i1 : asset_info) (l : list (string * string)) : report -> Prop :=
| tells_swap (b : bool) n r c : attr l "action" = Some "swap"%string ->
    attr l "offer_asset" = Some (spelled (if b then i0 else i1)) ->
    attr l "ask_asset" = Some (spelled (if b then i1 else i0)) ->
    attr l "offer_amount" = Some (dec_to_string n) -> attr l "return_amount" = Some (dec_to_string r) ->
    attr l "commission_amount" = Some (dec_to_string c) ->
    tells i0 i1 l (Swapped b n r c)
| tells_provide s assets d0 d1 n : attr l "action" = Some "provide_liquidity"%string -> attr l "sender" = Some s ->
    attr l "assets" = Some (dec_to_string (a_amount assets.1) ++ spelled (a_info assets.1) ++ ", " ++
                            dec_to_string (a_amount assets.2) ++ spelled (a_info assets.2))%string ->
    declared assets i0 d0 -> declared assets i1 d1 -> attr l "share" = Some (dec_to_string n) ->
    tells i0 i1 l (Provided s d0 d1 n)
| tells_withdraw n r0 r1 : attr l "action" = Some "withdraw_liquidity"%string -> attr l "withdrawn_share" = Some (dec_to_string n) ->
    attr l "refund_assets" = Some (dec_to_string r0 ++ spelled i0 ++ ", " ++ dec_to_string r1 ++ spelled i1)%string ->
    tells i0 i1 l (Withdrawn n r0 r1).
(** The attributes of the events of the pair [p], in order. *)
Definition reported (p : string) (lg : list event) : list (list (string * string)) := map ev_attrs (own p lg).

(** The pool of the pair [p] in a state of the chain. *)
Definition pool_of (w : world) (p lp : string) (i0 i1 : asset_info) : pool :=
  Pool (holds w p i0) (holds w p i1) (supply w lp).

(** ** Lemmas *)
Lemma runs_app q P l P1 l1 P2 : pool_runs q P l P1 -> pool_runs q P1 l1 P2 -> pool_runs q P (l ++ l1) P2.
Proof.
  intros H. induction H; cbn [app]; intros H2; [exact H2|eapply runs_gift; eauto|eapply runs_step; eauto].
Qed.

Section refine.
  Context (C : chain) (OK : chain_ok C).
  Local Notation A := (ch_api C).
  Context (p lp : string) (st : pair_info_raw) (i0 i1 : asset_info).
  Context (Has : assets_are C st i0 i1) (Hne : i0 <> i1).
  Context (Hlp : human A (r_liquidity_token st) = Some lp) (N0 : i0 <> Token lp) (N1 : i1 <> Token lp).
  Local Notation v_inv := (v_inv p lp st i0 i1).
  Local Notation watched := (watched lp i0 i1).
  Local Notation v_may := (v_may C p lp i0 i1).
  Local Notation quiet := (P_Value.quiet p lp st i0 i1).
  Local Notation q := (r_requirements st).
  Local Notation pl w := (pool_of w p lp i0 i1).

  Definition told (w w' : world) (l : list event) : Prop :=
    exists rs, Forall2 (tells i0 i1) (map ev_attrs l) rs /\ pool_runs q (pl w) rs (pl w').
  Definition f_rel (w w' : world) (lg : list event) : Prop := v_inv w' /\ told w w' (own p lg).

  Lemma f_inv_rel x w w' : rel x w w' -> v_inv w -> v_inv w'.
  Proof. apply (P_Fees.f_inv_rel C OK p lp st i0 i1 Has Hne Hlp N0 N1). Qed.
  Lemma f_quiet w w' : quiet w w' -> f_rel w w' [].
  Proof.
    intros (V & S & H0 & H1). split; [exact V|]. exists []. split; [constructor|].
    eapply runs_gift; [|constructor]. split; [exact H0|]. split; [exact H1|exact S].
  Qed.
  Lemma f_trans w w1 w2 l1 l2 : f_rel w w1 l1 -> f_rel w1 w2 l2 -> f_rel w w2 (l1 ++ l2).
  Proof.
    intros [V1 (r1 & T1 & R1)] [V2 (r2 & T2 & R2)]. split; [exact V2|]. exists (r1 ++ r2). split.
    - unfold own. rewrite list.filter_app, map_app. apply Forall2_app; assumption.
    - eapply runs_app; eassumption.
  Qed.
  Lemma f_event w w2 w3 e lg : ev_contract e <> p -> quiet w w2 -> f_rel w2 w3 lg -> f_rel w w3 (e :: lg).
  Proof.
    intros D Q H. destruct (f_trans _ _ _ _ _ (f_quiet _ _ Q) H) as [V X]. split; [exact V|].
    rewrite (own_other p e lg D). exact X.
  Qed.

  (** *** A token tells the pair about a deposit *)
  Lemma f_recv f w w2 a ta s n h w3 x lg : sane C w2 -> v_inv w2 -> tok_at w2 a ta ->
    supply w2 lp = supply w lp -> (forall j, holds w2 p j = holds w p j + (if decide (j = Token a) then n else 0)) ->
    exec C f w2 a (MExecute p (JReceive s n h) []) = Ok (w3, x, lg) -> told w w3 (own p lg).
  Proof.
    intros Sn V Hta ES EH E. pose proof V as (Hp & L0 & L1 & ts & cap & Ht & _).
    assert (Hap : a <> p) by (intros ->; unfold tok_at, pair_at in *; congruence).
    destruct (pair_log C OK f w2 a p st _ [] w3 x lg Sn Hp (or_introl Hap) E) as (w1' & st' & rsp & Eb & Hx & K).
    rewrite bank_send_none in Eb. injection Eb as <-.
    destruct (pair_calls _ _ _ _ _ _ _ _ Hx) as [(s0 & n0 & h0 & X & Hh)|(? & ? & ? & X)]; [|discriminate].
    injection X as <- <- <-. destruct Hh as [->|(bp & ms & to & ->)].
    - (* withdrawal *)
      pose proof Hx as Hx'. apply receive_withdraw_inv in Hx' as (_ & Hcn & _ & Ec).
      pose proof (canon_norm_eq C _ _ _ Hcn (sane_norm C OK _ _ _ Sn Hta) Hlp) as Ea. subst a.
      apply withdraw_attrs in Ec as (y & lp' & ti & r0 & r1 & Hy & Hlp' & Hti & Hrf & Hmsg & Hat).
      rewrite Hlp in Hlp'. injection Hlp' as <-.
      apply (pools_are C OK w2 p st i0 i1 y Sn Hp Has L0 L1) in Hy as (_ & _ & ->). cbn [fst snd a_info a_amount] in *.
      assert (Ow : own p lg = [Event p lp (JReceive s n HWithdrawLiquidity) (rs_attrs rsp) [] w2]).
      { apply (K _ Hmsg). constructor; [apply (quiet_pay C OK); assumption|]. constructor; [apply (quiet_pay C OK); assumption|]. constructor; [|constructor].
        split; [eapply sane_norm; eauto|]. split; [exists ts; exact Ht|exact I]. }
      pose proof (withdraw_recv_inv C OK _ _ _ _ _ _ _ _ _ _ _ _ _ Sn Hp Has L0 L1 Hlp Ht E) as X. cbv zeta in X.
      destruct X as (wa & wb & _ & HS & Hn & _ & G0 & G1 & Pa & Pb & B & _ & _ & _).
      rewrite (supply_query C OK _ _ _ _ Sn Ht Hti) in Hrf. apply refunds_ok in Hrf as (_ & _ & -> & _ & -> & _).
      destruct (pd_toks _ _ _ _ _ _ Pa _ _ Ht) as (tsa & Hta' & _ & _ & _ & Sa & _).
      destruct (pd_toks _ _ _ _ _ _ Pb _ _ Hta') as (tsb & Htb' & _ & _ & _ & Sb & _).
      destruct (bn_supply _ _ _ _ _ B _ Htb') as (tsc & Htc & Sc & _).
      assert (H0 : refund (holds w2 p i0) n (tk_supply ts) <= holds w2 p i0 /\ holds w2 p i0 <= holds w3 p i0 + refund (holds w2 p i0) n (tk_supply ts)).
      { pose proof (pd_have _ _ _ _ _ _ Pa) as Q0. pose proof (pd_holds _ _ _ _ _ _ Pa p i0) as Q1. pose proof (pd_holds _ _ _ _ _ _ Pb p i0) as Q2. pose proof (bn_holds _ _ _ _ _ B p i0) as Q3.
        rewrite decide_True in Q1 by auto. rewrite !(decide_False (P := _ /\ i0 = i1)) in Q2 by tauto. rewrite decide_False in Q3 by tauto.
        split; [exact Q0|]. destruct (decide (p = s /\ i0 = i0)); lia. }
      assert (H1 : refund (holds w2 p i1) n (tk_supply ts) <= holds w2 p i1 /\ holds w2 p i1 <= holds w3 p i1 + refund (holds w2 p i1) n (tk_supply ts)).
      { pose proof (pd_have _ _ _ _ _ _ Pb) as Q0. pose proof (pd_holds _ _ _ _ _ _ Pa p i1) as Q1. pose proof (pd_holds _ _ _ _ _ _ Pb p i1) as Q2. pose proof (bn_holds _ _ _ _ _ B p i1) as Q3.
        rewrite decide_True in Q2 by auto. rewrite !(decide_False (P := _ /\ i1 = i0)) in Q1 by (intros []; congruence). rewrite decide_False in Q3 by tauto.
        split; [lia|]. destruct (decide (p = s /\ i1 = i1)); lia. }
      assert (E0 : holds w2 p i0 = holds w p i0) by (rewrite EH, decide_False by exact N0; lia).
      assert (E1 : holds w2 p i1 = holds w p i1) by (rewrite EH, decide_False by exact N1; lia).
      assert (E2 : supply w lp = tk_supply ts) by (rewrite <- ES; apply supply_at; exact Ht).
      exists [Withdrawn n (refund (holds w2 p i0) n (tk_supply ts)) (refund (holds w2 p i1) n (tk_supply ts))]. split.
      + rewrite Ow. constructor; [|constructor]. apply tells_withdraw; cbn [ev_attrs]; rewrite Hat; [reflexivity|reflexivity|].
        cbn [attr]. rewrite !decide_False by discriminate. rewrite decide_True by reflexivity. f_equal. unfold asset_to_string. cbn [a_amount a_info]. rewrite !sapp_assoc. reflexivity.
      + eapply runs_step.
        * unfold pool_of. rewrite <- E0, <- E1, E2. apply step_withdraw; [lia|split; [exact G0|apply H0]|split; [exact G1|apply H1]].
        * eapply runs_gift; [|constructor]. unfold pool_of; split; cbn [x0 x1 lps]; [lia|]. split; [lia|]. rewrite (supply_at _ _ _ Htc). lia.
    - (* swap *)
      assert (Sw : forall i i' b, (b = true /\ i = i0 /\ i' = i1) \/ (b = false /\ i = i1 /\ i' = i0) -> i = Token a -> told w w3 (own p lg)).
      { intros i i' b Hi Ei. assert (L : live w2 i') by (destruct Hi as [(_ & _ & ->)|(_ & _ & ->)]; assumption).
        assert (D : Token a <> i') by (destruct Hi as [(_ & -> & ->)|(_ & -> & ->)]; congruence).
        assert (Sd : exists od ad, sides A st (Token a) i' od ad).
        { destruct Has as [Ha0 Ha1]. destruct (r_asset_decimals st) as [da db] eqn:Ed. destruct Hi as [(_ & -> & ->)|(_ & -> & ->)]; rewrite Ei in *.
          - exists da, db. left. auto.
          - exists db, da. right. auto. }
        destruct Sd as (od & ad & Sd).
        pose proof (swap_recv_inv C OK _ _ _ _ _ _ _ _ _ _ _ _ _ _ _ _ Sn Hp Sd D (ex_intro _ ta Hta) L E) as X. cbv zeta in X.
        destruct X as (r & sp & c & rcv' & lg' & Hn & Hn' & B0 & B1 & Hsw & _ & _ & Pd & _ & Elg).
        assert (Ow : own p lg = [Event p a (JReceive s n (HSwap bp ms to)) (swap_attrs s (match to with Some z => z | None => s end) a i' n r sp c) [] w2]).
        { pose proof Hx as Ec. apply receive_swap_inv in Ec as (y & to' & _ & _ & _ & Hy & _ & -> & _ & Ec).
          apply swap_inv in Ec as (y' & op & ak & ask & od' & ad' & r2 & sp2 & c2 & Hy' & _ & Hdir & Hc2 & _ & Hmsg & Hat).
          rewrite Hy in Hy'. injection Hy' as <-.
          apply (pools_inv C OK w2 p st y (Token a) i' od ad) in Hy as (_ & _ & Hy); auto; [|exists ta; exact Hta]. cbn [a_info a_amount] in Hdir.
          assert (Z : ak = i').
          { destruct Hy as [[-> Ed]|[-> Ed]]; cbn [fst snd a_info a_amount] in Hdir; rewrite Ed in Hdir; cbn [fst snd] in Hdir;
              destruct Hdir as [(F1 & F2 & F3 & F4 & F5 & F6 & F7)|(F0 & F1 & F2 & F3 & F4 & F5 & F6 & F7)]; subst; auto; congruence. }
          subst ak.
          specialize (K (if r2 =? 0 then [] else [into_msg (Asset i' r2) (match to with Some z0 => z0 | None => s end)])).
          assert (K1 : own p lg = [Event p a (JReceive s n (HSwap bp ms to)) (rs_attrs rsp) [] w2]).
          { apply K.
            - rewrite Hmsg. destruct (r2 =? 0); reflexivity.
            - destruct (r2 =? 0); [constructor|]. constructor; [|constructor]. apply (quiet_pay C OK); auto. }
          rewrite Elg, own_self in K1 by reflexivity. assert (K2 : own p lg' = []) by congruence.
          rewrite Elg, own_self, K2 by reflexivity. reflexivity. }
        assert (Ho : holds w2 p (Token a) - n < B128) by (eapply N.le_lt_trans; [apply N.le_sub_l|exact B0]).
        pose proof (C02_never_overdrawn _ _ _ _ _ _ Ho B1 Hn' Hsw) as Hrc.
        apply compute_swap_iff in Hsw as (Pr & Er & _ & Ec); auto.
        destruct (pd_toks _ _ _ _ _ _ Pd _ _ Ht) as (ts3 & Ht3 & _ & _ & _ & S3 & _).
        assert (E3 : supply w3 lp = supply w lp) by (rewrite (supply_at _ _ _ Ht3), S3, <- ES; symmetry; apply supply_at; exact Ht).
        pose proof (pd_holds _ _ _ _ _ _ Pd p i') as Q1. pose proof (pd_holds _ _ _ _ _ _ Pd p (Token a)) as Q2.
        rewrite !(decide_False (P := _ /\ Token a = i')) in Q2 by tauto. rewrite decide_True in Q1 by auto.
        pose proof (EH (Token a)) as E1. rewrite decide_True in E1 by reflexivity. pose proof (EH i') as E2. rewrite decide_False in E2 by congruence.
        assert (X1 : holds w2 p (Token a) - n = holds w p (Token a)) by lia. assert (X2 : holds w2 p i' = holds w p i') by lia.
        rewrite X1, X2 in *. pose proof (fee_le (gross (holds w p (Token a)) (holds w p i') n)) as Fl.
        exists [Swapped b n r c]. split.
        { rewrite Ow. constructor; [|constructor]. apply tells_swap; try reflexivity.
          - destruct Hi as [(-> & <- & ->)|(-> & <- & ->)]; rewrite Ei; reflexivity.
          - destruct Hi as [(-> & -> & ->)|(-> & -> & ->)]; reflexivity. }
        assert (Hd : forall v, (if decide (p = rcv' /\ i' = i') then v else 0) <= v) by (intros v; destruct (decide _); lia).
        destruct Hi as [(-> & -> & ->)|(-> & -> & ->)]; rewrite Ei in *; rewrite Er, Ec; (eapply runs_step;
          [first [apply step_swap0|apply step_swap1]; [exact Pr|lia]|eapply runs_gift; [|constructor]; unfold pool_of; split; cbn [x0 x1 lps]; [lia|split; lia]]). }
      apply receive_swap_inv in Hx as (y & to' & _ & _ & _ & Hy & Hi & _).
      apply (pools_are C OK w2 p st i0 i1 y Sn Hp Has L0 L1) in Hy as (_ & _ & ->). cbn [fst snd a_info] in Hi.
      destruct Hi as [Hi|Hi]; [apply (Sw i0 i1 true)|apply (Sw i1 i0 false)]; auto.
  Qed.

  (** *** A deposit *)
  Lemma provide_told f w w1 s funds assets tol rcv rsp st' w3 lg : sane C w1 -> v_inv w1 -> s <> p ->
    bank_moved w w1 s p funds ->
    pair_execute A (wq C w1) p st s funds (JProvideLiquidity assets tol rcv) = Ok (st', rsp) ->
    run C f w1 p (rs_msgs rsp) = Ok (w3, lg) ->
    told w w3 [Event p s (JProvideLiquidity assets tol rcv) (rs_attrs rsp) funds w1].
  Proof.
    intros Sn V Hs Hb Hx E. pose proof V as (Hp & L0 & L1 & ts & cap & Ht & _).
    unfold pair_execute in Hx. destruct (jmsg_ranges _); [|discriminate]. cbn [negb] in Hx. pose proof Hx as Hat.
    apply provide_inv in Hx as (x & d0 & d1 & m0 & p0 & m1 & p1 & lp' & ti & share & A0 & A1 & _ & Hy & D0 & D1 & P0 & P1 & _ & Hlp' & Hti & Hnz & Hsh & Hm).
    rewrite Hlp in Hlp'. injection Hlp' as <-.
    apply (fun H => provide_attrs _ _ _ _ _ _ _ _ _ _ _ H (m0 ++ m1) lp (match rcv with Some r => r | None => s end) share) in Hat; [|rewrite <- app_assoc; exact Hm].
    apply (pools_are C OK w1 p st i0 i1 x Sn Hp Has L0 L1) in Hy as (_ & _ & ->). cbn [fst snd a_info a_amount] in *.
    rewrite (supply_query C OK _ _ _ _ Sn Ht Hti) in Hsh. apply share_earned in Hsh as (Hsh & F1 & F2).
    rewrite Hm in E.
    pose proof (run_pull C OK p lp i0 i1 (fun _ _ => True) (fun _ => False) (fun _ _ _ _ => I) (fun _ _ _ _ _ _ => I) (fun _ _ _ X _ _ _ => I)) as RP.
    apply (RP _ _ _ (Asset i0 (holds w1 p i0)) _ _ _ _ _ _ Sn L0 Hs P0) in E as (f1 & wa & la & (Sa & Ha & Ta) & E). cbn [a_info] in Ha.
    assert (La : live wa i1) by (destruct i1; [|exact I]; destruct L1 as (us & Hu); destruct (Ta _ _ Hu) as (us' & Hu' & _); exists us'; exact Hu').
    apply (RP _ _ _ (Asset i1 (holds w1 p i1)) _ _ _ _ _ _ Sa La Hs P1) in E as (f2 & wb & lb & (Sb & Hbb & Tb) & E). cbn [a_info] in Hbb.
    destruct (Ta _ _ Ht) as (tsa & Hta & ESa). destruct (Tb _ _ Hta) as (tsb & Htb & ESb).
    cbn [map] in E. destruct f2; [rewrite run_0 in E; discriminate|]. rewrite run_plain in E.
    apply rbind_ok in E as ([[wc rc] lc] & Ec & E). apply rbind_ok in E as ([wd ld] & Ed & E). injection E as <- _.
    destruct f2; [rewrite run_0 in Ed; discriminate|]. rewrite run_nil in Ed. injection Ed as <- _.
    apply (mint_inv C OK _ _ _ _ tsb) in Ec as (_ & Sc & Hc); [|exact Sb|exact Htb].
    rewrite ESb, ESa in Sc.
    assert (B : forall t, holds w1 p (Token t) = holds w p (Token t)) by (intros t; unfold holds, state_at; rewrite (bm_insts _ _ _ _ _ Hb); reflexivity).
    assert (Bn : forall d, holds w1 p (Native d) = holds w p (Native d) + coin_sum d funds).
    { intros d. pose proof (bm_bal _ _ _ _ _ Hb p d) as Q. rewrite decide_False in Q by congruence. rewrite decide_True in Q by reflexivity. cbn [holds]. lia. }
    assert (Sd : forall d dn, deposit_of assets (Native dn) = Ok d -> d <= coin_sum dn funds).
    { intros d dn Hd. apply deposit_of_ok in Hd as [[X <-]|(_ & X & <-)]; eapply sent_native; eauto. }
    assert (S0 : supply w lp = tk_supply ts).
    { rewrite <- (supply_at _ _ _ Ht). unfold supply, state_at. rewrite (bm_insts _ _ _ _ _ Hb). reflexivity. }
    assert (Z0 : holds w p i0 <= p0 /\ holds wc p i0 = p0 + d0).
    { rewrite Hc by assumption.
      assert (O : holds wb p i0 = holds wa p i0) by (rewrite Hbb; destruct i1; [rewrite decide_False by exact Hne|]; lia). rewrite O, Ha. clear O.
      apply pull_deposit_ok in P0. cbn [a_info a_amount] in P0.
      destruct i0 as [t|dn].
      - destruct P0 as [_ ->]. rewrite (decide_True (P := Token t = Token t)) by reflexivity. rewrite B. lia.
      - destruct P0 as (_ & -> & X). apply Sd in D0. rewrite Bn in *. lia. }
    assert (Z1 : holds w p i1 <= p1 /\ holds wc p i1 = p1 + d1).
    { rewrite Hc by assumption. rewrite Hbb.
      assert (O : holds wa p i1 = holds w1 p i1) by (rewrite Ha; destruct i0; [rewrite decide_False by congruence|]; lia). rewrite O. clear O.
      apply pull_deposit_ok in P1. cbn [a_info a_amount] in P1.
      destruct i1 as [t|dn].
      - destruct P1 as [_ ->]. rewrite (decide_True (P := Token t = Token t)) by reflexivity. rewrite B. lia.
      - destruct P1 as (_ & -> & X). apply Sd in D1. rewrite Bn in *. lia. }
    exists [Provided s d0 d1 share]. split.
    - constructor; [|constructor]. apply (tells_provide i0 i1 _ s assets); cbn [ev_attrs]; rewrite ?Hat; try reflexivity.
      + unfold deposit_attrs. cbn [attr]. rewrite !decide_False by discriminate. rewrite decide_True by reflexivity. unfold asset_to_string. rewrite !sapp_assoc. reflexivity.
      + apply deposit_of_ok in D0. exact D0.
      + apply deposit_of_ok in D1. exact D1.
    - unfold pool_of. rewrite Sc, S0. destruct Z0 as [Z0 ->], Z1 as [Z1 ->].
      eapply runs_gift; [|eapply runs_step; [|constructor]].
      + instantiate (1 := Pool p0 p1 (tk_supply ts)). split; [exact Z0|]. split; [exact Z1|cbn; lia].
      + rewrite Hsh. apply step_provide; [rewrite <- Hsh; lia| |].
        * intros X. destruct (F2 X) as (? & ? & _). auto.
        * intros X. destruct (F1 X) as (? & ? & ? & _). auto.
  Qed.
  (** *** All calls *)
  Lemma f_ok : ind3_ok C v_inv f_rel v_may.
  Proof.
    split.
    - intros w w' lg _ [V _]. exact V.
    - intros w _ V. apply f_quiet. split; [exact V|]. lia.
    - intros w w1 w2 l1 l2 _ _ _ _ _ _. apply f_trans.
    - intros w w' a sm lg _ _ _ _ _ _ H. exact H.
    - intros w s ro to cs w' to' M V _ [Hs _] Hn Hb M' R. apply f_quiet. apply (quiet_toks p lp st i0 i1); [eapply (f_inv_rel); eauto| |exact V|].
      + intros t ts Ht. exists ts. split; [|lia]. eapply same_toks; [apply (bm_insts _ _ _ _ _ Hb)|exact Ht].
      + intros d. pose proof (bm_bal _ _ _ _ _ Hb p d) as B. rewrite decide_False in B by congruence. destruct (decide (p = to')); lia.
    - intros w s ro c msg funds a w1 i st2 rsp f w3 lg M V Hm [Hs Hw] Hn Hb Hst Hi Hc w2 M2 R2 Fm Er M3 R3.
      pose proof (f_inv_rel _ _ _ R2 V) as V2. pose proof (f_inv_rel _ _ _ R3 V2) as V3.
      destruct (decide (a = p)) as [->|Dp].
      + (* the pair itself *)
        assert (Us : ~ watched s).
        { intros W. destruct (Hw W) as (c0 & s0 & n0 & h0 & X & Y). injection X as -> _ _ _. exact (Y Hn). }
        pose proof V as (Hp & L0 & L1 & ts & cap & Ht & _). unfold pair_at in Hp. rewrite Hst in Hp. injection Hp as Ei.
        rewrite Ei in Hc. cbn [call] in Hc. unfold wrap in Hc. apply rbind_ok in Hc as ([ps' rsp'] & Hc & E'). injection E' as <- <-.
        assert (Eps : ps' = st).
        { destruct V2 as (Hp2 & _). unfold pair_at, w2 in Hp2. rewrite state_at_set in Hp2 by eauto. rewrite decide_True in Hp2 by reflexivity. congruence. }
        subst ps'. assert (E2 : w2 = w1) by (unfold w2; rewrite <- Ei; apply set_state_id; exact Hi). rewrite E2 in *. clear w2 E2.
        pose proof V2 as (Hp1 & K0 & K1 & _).
        destruct (pair_calls _ _ _ _ _ _ _ _ Hc) as [(s0 & n0 & h0 & -> & Hh)|(as0 & tol & rcv & ->)].
        * exfalso. apply Us. destruct Hh as [->|(bp & ms & to & ->)].
          -- left. apply receive_withdraw_inv in Hc as (_ & Hc & _ & _). symmetry. apply (canon_norm_eq C _ _ _ Hc); [|exact Hlp].
             destruct Hm as [[O _]|(x & Hx & _)]; [exact O|]. eapply (sane_norm C OK); [apply main_sane; exact M|exact Hx].
          -- apply receive_swap_inv in Hc as (y & to' & _ & _ & _ & Hy & Hi' & _).
             apply (pools_are C OK w1 p st i0 i1 y (main_sane C _ M2) Hp1 Has K0 K1) in Hy as (_ & _ & ->). cbn [fst snd a_info] in Hi'.
             right. destruct Hi'; auto.
        * left. split; [exact V3|]. rewrite own_self by reflexivity.
          rewrite (provide_log C OK p lp st i0 i1 Has Hlp _ _ _ _ _ _ _ _ _ _ _ (main_sane C _ M2) V2 Hc Er).
          eapply provide_told; [apply main_sane; exact M2|exact V2|exact Hs|exact Hb|exact Hc|exact Er].
      + assert (Q : quiet w w2).
        { apply (quiet_toks p lp st i0 i1); [exact V2| |exact V|].
          - intros t ts Ht. destruct (call_toks C _ _ _ _ _ _ _ _ _ _ _ Hb Hst Hi Hc Ht) as [(_ & Ht2)|(-> & ts' & _ & Ht2 & Ef)].
            + exists ts. fold w2 in Ht2. split; [exact Ht2|lia].
            + exists ts'. fold w2 in Ht2. split; [exact Ht2|]. split.
              * intros ->. eapply token_no_mint; [exact Ef|]. intros cap r n Hmt. destruct V as (_ & _ & _ & ts0 & cap0 & Ht0 & Hm0).
                rewrite (tok_at_inj _ _ _ _ Ht Ht0), Hm0 in Hmt. congruence.
              * eapply token_no_loss; [exact Ef| |].
                -- intros ->. destruct (Hs eq_refl).
                -- intros sp v Hal. exact (not_owner C p lp st i0 i1 _ _ _ _ _ M V Ht Hal).
          - intros d. unfold w2. rewrite set_state_bal. pose proof (bm_bal _ _ _ _ _ Hb p d) as B. rewrite decide_False in B by congruence. destruct (decide (p = a)); lia. }
        destruct (watched_dec lp i0 i1 a) as [Wa|Ua].
        2: right; split; [exact V2|]; split; [apply (v_unwatched C p lp i0 i1); assumption|apply (f_event w w2); [exact Dp|exact Q]].
        destruct (watched_token p lp st i0 i1 _ _ V Wa) as (ts & Ht).
        destruct (call_toks C _ _ _ _ _ _ _ _ _ _ _ Hb Hst Hi Hc Ht) as [(X & _)|(_ & ts' & Est & Ht2 & Ef)]; [destruct (X eq_refl)|]. fold w2 in Ht2.
        destruct (token_sends _ _ _ _ _ _ _ Ef) as [El|(o & c' & n & h & t1 & El & Nc & Eb & Es & Mv & Ho)].
        { right. split; [exact V2|]. rewrite El. split; [constructor|apply (f_event w w2); [exact Dp|exact Q]]. }
        destruct (decide (c' = p)) as [->|Dc].
        2: { right. split; [exact V2|]. rewrite El. split; [|apply (f_event w w2); [exact Dp|exact Q]]. constructor; [|constructor].
             split; [exact Dp|]. intros _. eexists _, _, _, _. split; [reflexivity|]. congruence. }
        left. split; [exact V3|]. rewrite El in Er. destruct f; [rewrite run_0 in Er; discriminate|]. rewrite run_plain in Er.
        apply rbind_ok in Er as ([[wx rx] lx] & Ee & Er). apply rbind_ok in Er as ([wy ly] & En & Er). injection Er as <- <-.
        destruct f; [rewrite run_0 in En; discriminate|]. rewrite run_nil in En. injection En as <- <-.
        assert (Do : o <> p).
        { intros ->. destruct Ho as [->|(v & Ho)]; [exact (Hs eq_refl)|exact (not_owner C p lp st i0 i1 _ _ _ _ _ M V Ht Ho)]. }
        rewrite own_other by exact Dp. rewrite app_nil_r. eapply (f_recv _ w w2 a ts'); [apply main_sane; exact M2|exact V2|exact Ht2| | |exact Ee].
        * destruct V as (_ & _ & _ & ts0 & cap0 & Ht0 & _).
          destruct (call_toks C _ _ _ _ _ _ _ _ _ _ _ Hb Hst Hi Hc Ht0) as [(X & Ht3)|(-> & ts3 & Est3 & Ht3 & _)]; fold w2 in Ht3.
          -- rewrite (supply_at _ _ _ Ht0), (supply_at _ _ _ Ht3). reflexivity.
          -- rewrite (supply_at _ _ _ Ht0), (supply_at _ _ _ Ht3). rewrite (tok_at_inj _ _ _ _ Ht0 Ht). rewrite (tok_at_inj _ _ _ _ Ht3 Ht2).
             destruct Mv as [(_ & _ & _ & X & _) _ _ _]. congruence.
        * intros j. destruct (decide (j = Token a)) as [->|Dj].
          -- rewrite (holds_tok _ _ _ _ Ht), (holds_tok _ _ _ _ Ht2). destruct Mv as [_ _ B _]. specialize (B p).
             rewrite decide_False in B by congruence. rewrite decide_True in B by reflexivity. unfold balance_of in *. rewrite Eb in B. lia.
          -- destruct j as [u|d].
             ++ unfold holds, w2. rewrite state_at_set by eauto. rewrite decide_False by congruence. unfold state_at. rewrite (bm_insts _ _ _ _ _ Hb). lia.
             ++ cbn [holds]. unfold w2. rewrite set_state_bal. pose proof (bm_bal _ _ _ _ _ Hb p d) as B. rewrite !decide_False in B by congruence. lia.
    - intros w s ro ad code msg funds label k adm w1 st2 rsp f w3 lg M V Hm [Hs _] Hk Had a Hb Hc w2 M2 S Hn QP Er M3 R3.
      assert (Old : forall x s0, state_at w x = Some s0 -> state_at w2 x = Some s0).
      { intros x s0 Hx. rewrite S, decide_False by congruence. exact Hx. }
      assert (V2 : v_inv w2).
      { destruct V as (Hp & L0 & L1 & ts & cap & Ht & Hmt). split; [apply Old; exact Hp|]. split; [|split].
        - destruct i0; [|exact I]. destruct L0 as (us & Hu). exists us. apply Old. exact Hu.
        - destruct i1; [|exact I]. destruct L1 as (us & Hu). exists us. apply Old. exact Hu.
        - exists ts, cap. split; [apply Old; exact Ht|exact Hmt]. }
      right. split; [exact V2|]. split.
      + apply (v_unwatched C p lp i0 i1).
        * intros Ea. destruct V as (Hp & _). unfold pair_at in Hp. congruence.
        * intros Wa. destruct (watched_token p lp st i0 i1 _ _ V Wa) as (ts & Ht). unfold tok_at in Ht. congruence.
      + intros H. apply (f_trans w w2 w3 [] lg); [|exact H]. apply f_quiet. apply (quiet_toks p lp st i0 i1); [exact V2| |exact V|].
        * intros t ts Ht. exists ts. split; [apply Old; exact Ht|]. lia.
        * intros d. change (bal w2 p d) with (bal w1 p d). pose proof (bm_bal _ _ _ _ _ Hb p d) as B.
          change (bal (set_next w (w_next w + 1)) p d) with (bal w p d) in B. rewrite decide_False in B by congruence. destruct (decide _) in B; lia.
    - intros w s ro c code a i k st2 M V _ _ _ Hi _ _ Hmg _ R. apply f_quiet. apply (quiet_toks p lp st i0 i1); [eapply (f_inv_rel); eauto| |exact V|].
      + intros t ts Ht. exists ts. split; [eapply mig_toks; eauto|]. lia.
      + intros d. rewrite set_state_bal. lia.
    - intros w a adm M V _ R. apply f_quiet. apply (quiet_toks p lp st i0 i1); [eapply (f_inv_rel); eauto| |exact V|].
      + intros t ts Ht. exists ts. split; [apply admin_toks; exact Ht|]. lia.
      + intros d. unfold bal. rewrite set_admin_bank. lia.
    - intros w a sm rest f w' r lg id i st2 rsp M V Hms [Da Hw] Hro Ex M' R' [V' HR] Hi Hr w2 M2 Rr2. split.
      + destruct (reply_msgs C _ _ _ _ _ _ _ _ Hi Hr) as [->|(k & d & Ha)]; [constructor|].
        apply (v_unwatched C p lp i0 i1); [exact Da|]. intros Wa. destruct (watched_token p lp st i0 i1 _ _ V' Wa) as (ts & Ht). unfold tok_at in Ht. congruence.
      + apply f_quiet. apply (quiet_toks p lp st i0 i1); [eapply (f_inv_rel); eauto| |exact V'|].
        * intros t ts Ht. exists ts. split; [eapply reply_toks; eauto|]. lia.
        * intros d. unfold w2. rewrite set_state_bal. lia.
    - intros w a sm rest id k d st2 rsp M V _ [Da Hw] _ Hs _ w2 M2 Rr2. split.
      + apply (v_unwatched C p lp i0 i1); [exact Da|]. intros Wa. destruct (watched_token p lp st i0 i1 _ _ V Wa) as (ts & Ht). unfold tok_at in Ht. congruence.
      + apply f_quiet. apply (quiet_toks p lp st i0 i1); [eapply (f_inv_rel); eauto| |exact V|].
        * intros t ts Ht. exists ts. split; [eapply set_toks; [exact Hs|discriminate|exact Ht]|]. lia.
        * intros dn. unfold w2. rewrite set_state_bal. lia.
  Qed.
End refine.

(** ** C80 *)

(** Over every history, a pair does what the abstract pool does: its reserves and
    the LP supply change only by the operations it reports, each with exactly the
    effect the abstract pool gives it, by gifts and by LP tokens destroyed. *)
Theorem C80_refines_pool C w lg w' p st lp i0 i1 :
  chain_ok C -> reachable C w -> history C w lg w' ->
  pair_at w p st -> assets_are C st i0 i1 -> i0 <> i1 -> live w i0 -> live w i1 ->
  human (ch_api C) (r_liquidity_token st) = Some lp -> live w (Token lp) -> i0 <> Token lp -> i1 <> Token lp ->
  exists rs, Forall2 (tells i0 i1) (reported p lg) rs /\
    pool_runs (r_requirements st) (pool_of w p lp i0 i1) rs (pool_of w' p lp i0 i1).
Proof.
  intros OK Hr Hh Hp Has Hne L0 L1 Hlp (ts & Ht) N0 N1. pose proof (reachable_main C OK w Hr) as M.
  assert (V : v_inv p lp st i0 i1 w).
  { split; [exact Hp|]. split; [exact L0|]. split; [exact L1|].
    destruct (pg_lp _ _ _ _ (mn_pairs _ _ M _ _ Hp)) as [X|(t & Hl & X)].
    - exfalso. rewrite X in Hlp. apply (api_human_canon C OK) in Hlp. exact (canon_nonempty C OK _ Hlp).
    - rewrite Hlp in Hl. injection Hl as <-. destruct X as [(us & Hu & Hm)|(k & d & X)]; [|unfold tok_at in Ht; congruence]. eauto. }
  destruct (pair_fresh C w p st M Hp) as (n0 & Ep).
  assert (X : f_rel p lp st i0 i1 w w' lg).
  { apply (history_ind3 C OK (v_inv p lp st i0 i1) (f_rel p lp st i0 i1) (v_may C p lp i0 i1) w lg w'); auto.
    - apply f_ok; assumption.
    - intros w0 s m [_ O]. split; [intros ->; exact (O n0 (eq_sym Ep))|]. intros Wa. destruct (watched_token _ _ _ _ _ _ _ V Wa) as (us & Hu).
      apply state_at_inst in Hu as (adm & Hu). assert (Hu' : is_Some (w_insts w !! s)) by eauto. apply (mn_fresh _ _ M) in Hu' as (m0 & _ & Em). destruct (O m0 (eq_sym Em)).
    - intros w0 blk _ V0. apply f_quiet; try assumption. split; [exact V0|]. split; [reflexivity|]. split; apply holds_same; try reflexivity; intros d; reflexivity. }
  exact (proj2 X).
Qed.

(** What came in and what went out according to the reports. *)
Definition in0 (r : report) : N := match r with Swapped true n _ _ => n | Provided _ d _ _ => d | _ => 0 end.
Definition in1 (r : report) : N := match r with Swapped false n _ _ => n | Provided _ _ d _ => d | _ => 0 end.
Definition out0 (r : report) : N := match r with Swapped false _ r _ => r | Withdrawn _ r _ => r | _ => 0 end.
Definition out1 (r : report) : N := match r with Swapped true _ r _ => r | Withdrawn _ _ r => r | _ => 0 end.
Definition minted (r : report) : N := match r with Provided _ _ _ n => n | _ => 0 end.
Definition redeemed (r : report) : N := match r with Withdrawn n _ _ => n | _ => 0 end.
Definition sum_of (f : report -> N) (l : list report) : N := foldr (fun r n => f r + n) 0 l.

Lemma books q P l P' : pool_runs q P l P' ->
  x0 P + sum_of in0 l <= x0 P' + sum_of out0 l /\ x1 P + sum_of in1 l <= x1 P' + sum_of out1 l /\
  lps P' + sum_of redeemed l <= lps P + sum_of minted l.
Proof.
  intros H. induction H as [P|P P1 l P' (G0 & G1 & G2) H IH|P r P1 l P' S H IH]; [cbn; lia|lia|].
  unfold sum_of in *. cbn [foldr]. destruct S; cbn [x0 x1 lps in0 in1 out0 out1 minted redeemed] in *; lia.
Qed.

(** So the pair's own reports are books that can be relied on: it holds at least
    what came in less what went out, and there are at most as many LP tokens as
    were minted less those redeemed. *)
Theorem C80_books C w lg w' p st lp i0 i1 :
  chain_ok C -> reachable C w -> history C w lg w' ->
  pair_at w p st -> assets_are C st i0 i1 -> i0 <> i1 -> live w i0 -> live w i1 ->
  human (ch_api C) (r_liquidity_token st) = Some lp -> live w (Token lp) -> i0 <> Token lp -> i1 <> Token lp ->
  exists rs, Forall2 (tells i0 i1) (reported p lg) rs /\
    holds w p i0 + sum_of in0 rs <= holds w' p i0 + sum_of out0 rs /\
    holds w p i1 + sum_of in1 rs <= holds w' p i1 + sum_of out1 rs /\
    supply w' lp + sum_of redeemed rs <= supply w lp + sum_of minted rs.
Proof.
  intros OK Hr Hh Hp Has Hne L0 L1 Hlp Lt N0 N1.
  destruct (C80_refines_pool C w lg w' p st lp i0 i1 OK Hr Hh Hp Has Hne L0 L1 Hlp Lt N0 N1) as (rs & T & R).
  exists rs. split; [exact T|]. exact (books _ _ _ _ R).
Qed.

(** Pair #4 of the example chain: a swap, a deposit, a swap, a gift of 500 units
    and a withdrawal. *)
Definition ex_reports : list report :=
  [Swapped true 1000000 1812727 5454; Provided "alice" 1000000 2000000 1285648; Swapped true 1000000 1548209 4658;
   Withdrawn 1000000 842668 1208149].
Example C80_case :
  let lg := log_of ex_world fee_txs in let w' := after ex_world fee_txs in
  reachable ex_chain ex_world /\ history ex_chain ex_world lg w' /\ pair_at ex_world "#4" ex_pair4 /\
  assets_are ex_chain ex_pair4 (Token "#1") (Native "uaura") /\ live ex_world (Token "#1") /\ live ex_world (Token "#5") /\
  human ex_api (r_liquidity_token ex_pair4) = Some "#5"%string /\ Forall2 (tells (Token "#1") (Native "uaura")) (reported "#4" lg) ex_reports /\
  pool_of ex_world "#4" "#5" (Token "#1") (Native "uaura") = Pool 10000000 20000000 14142135 /\
  pool_of w' "#4" "#5" (Token "#1") (Native "uaura") = Pool 12157832 17430915 14427783.
Proof.
  cbv zeta.
  assert (L1 : live ex_world (Token "#1")) by (exists (tok_of ex_world "#1"); apply tok_of_at; vm_compute; reflexivity).
  assert (L5 : live ex_world (Token "#5")) by (exists (tok_of ex_world "#5"); apply tok_of_at; vm_compute; reflexivity).
  split; [exact ex_reachable|]. split; [apply after_history|]. split; [exact ex_pair4_at|]. split; [split; reflexivity|].
  split; [exact L1|]. split; [exact L5|]. split; [reflexivity|]. split.
  - assert (E : reported "#4" (log_of ex_world fee_txs) =
      [[("action", "swap"); ("sender", "bob"); ("receiver", "bob"); ("offer_asset", "#1"); ("ask_asset", "uaura");
        ("offer_amount", "1000000"); ("return_amount", "1812727"); ("spread_amount", "181819"); ("commission_amount", "5454")];
       [("action", "provide_liquidity"); ("sender", "alice"); ("receiver", "alice"); ("assets", "1000000#1, 2000000uaura");
        ("share", "1285648")];
       [("action", "swap"); ("sender", "bob"); ("receiver", "bob"); ("offer_asset", "#1"); ("ask_asset", "uaura");
        ("offer_amount", "1000000"); ("return_amount", "1548209"); ("spread_amount", "129405"); ("commission_amount", "4658")];
       [("action", "withdraw_liquidity"); ("sender", "alice"); ("withdrawn_share", "1000000");
        ("refund_assets", "842668#1, 1208149uaura")]]%string) by (vm_compute; reflexivity).
    rewrite E. constructor; [apply tells_swap; vm_compute; reflexivity|].
    constructor; [apply (tells_provide _ _ _ "alice"%string (Asset (Token "#1") 1000000, Asset (Native "uaura") 2000000)); try (vm_compute; reflexivity);
      [left; split; reflexivity|right; split; [discriminate|split; reflexivity]]|].
    constructor; [apply tells_swap; vm_compute; reflexivity|].
    constructor; [apply tells_withdraw; vm_compute; reflexivity|constructor].
  - split; vm_compute; reflexivity.
Qed.
