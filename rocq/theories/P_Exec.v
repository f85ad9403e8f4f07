(** Executions on the chain: quotes are honoured, withdrawals go through,
    native coins cannot be swapped, minimum_receive, routes (C07, C19, C28,
    C32, C48). *)
From Verif Require Import Base BigNumber CwStd BigNumberFacts Asset Messages PairMath Pair PairFacts Token Factory Router
  SwapFacts SwapFacts2 P_Swap P_Pair FactoryFacts P_Factory P_Router TokenFacts World WorldInd WorldFacts WorldInv WorldInd2
  Examples WorldExamples P_Ledger P_Registry ExecFacts.
From Coq Require Import ZifyN.
Local Open Scope N_scope.
Ltac Zify.zify_post_hook ::= idtac.

(** ** Specification *)

(** A list of payments (asset, from, to, amount). *)
Definition payment : Type := asset_info * string * string * N.
Definition left_ (x : string) (j : asset_info) (l : list payment) : N :=
  fold_right (fun '(i, from, _, n) a => if decide (x = from /\ j = i) then n + a else a) 0 l.
Definition arrived (x : string) (j : asset_info) (l : list payment) : N :=
  fold_right (fun '(i, _, to, n) a => if decide (x = to /\ j = i) then n + a else a) 0 l.
(** Between [w] and [w'] exactly these payments were made: what every account
    holds of every asset changed accordingly. *)
Definition settled (w w' : world) (l : list payment) : Prop :=
  forall x j, holds w' x j + left_ x j l = holds w x j + arrived x j l.

(** Rescaling the amounts of a swap to a common number of decimals (as the
    spread check does) stays within 128 bits and within a factor of 10^19. *)
Definition decimals_fit (od ad n r s : N) : Prop :=
  (ad < od -> od - ad < 20 /\ r * 10 ^ (od - ad) < 2 ^ 128 /\ s * 10 ^ (od - ad) < 2 ^ 128) /\
  (od < ad -> ad - od < 20 /\ n * 10 ^ (ad - od) < 2 ^ 128).

(** The message succeeds whenever there is enough gas, with the same outcome. *)
Definition succeeds (C : chain) (w : world) (s : string) (m : cmsg) (w' : world) : Prop :=
  exists k, forall f, (k <= f)%nat -> exists lg, exec C f w s m = Ok (w', None, lg).

(** ** Lemmas *)
Lemma paid_settled w w' i a b n : paid w w' i a b n -> settled w w' [(i, a, b, n)].
Proof. intros P x j. pose proof (pd_holds _ _ _ _ _ _ P x j). cbn [left_ arrived fold_right]. repeat destruct (decide _); lia. Qed.
Lemma settled_app w w1 w2 l1 l2 : settled w w1 l1 -> settled w1 w2 l2 -> settled w w2 (l1 ++ l2).
Proof.
  intros H1 H2 x j. specialize (H1 x j). specialize (H2 x j).
  assert (E1 : left_ x j (l1 ++ l2) = left_ x j l1 + left_ x j l2).
  { clear. unfold left_. induction l1 as [|[[[i a] b] n] l IH]; [reflexivity|]. cbn [app fold_right].
    destruct (decide _); [rewrite IH; apply N.add_assoc|exact IH]. }
  assert (E2 : arrived x j (l1 ++ l2) = arrived x j l1 + arrived x j l2).
  { clear. unfold arrived. induction l1 as [|[[[i a] b] n] l IH]; [reflexivity|]. cbn [app fold_right].
    destruct (decide _); [rewrite IH; apply N.add_assoc|exact IH]. }
  lia.
Qed.
Lemma settled_nil w : settled w w [].
Proof. intros x j. reflexivity. Qed.

Lemma succeeds_plus C w s m w' k : (forall f, exists lg, exec C (k + f) w s m = Ok (w', None, lg)) -> succeeds C w s m w'.
Proof. intros H. exists k. intros f L. destruct (H (f - k)%nat) as (lg & E). exists lg. replace (k + (f - k))%nat with f in E by lia. exact E. Qed.

Lemma pow10_fits d : 10 ^ d < B64 <-> d < 20.
Proof.
  split; intros H.
  - destruct (N.lt_ge_cases d 20); [assumption|]. exfalso. assert (10 ^ 20 <= 10 ^ d) by (apply N.pow_le_mono_r; lia). unfold B64 in H. vm_compute (10 ^ 20) in *. lia.
  - apply N.le_lt_trans with (10 ^ 19); [apply N.pow_le_mono_r; lia|]. vm_compute. reflexivity.
Qed.
Lemma checked_mul_iff a b : (exists c, u128_checked_mul a b = Ok c) <-> a * b < B128.
Proof.
  unfold u128_checked_mul. destruct (N.ltb_spec (a * b) B128); split; eauto; [intros (c & H0); discriminate|lia].
Qed.
Lemma no_limit_iff bp n r s od ad : assert_max_spread bp None n r s od ad = Ok tt <-> decimals_fit od ad n r s.
Proof.
  unfold assert_max_spread, decimals_fit, normalize_decimals, pow10_u64. change (2 ^ 128) with B128.
  destruct (N.ltb_spec ad od) as [L|L].
  - destruct (N.ltb_spec (10 ^ (od - ad)) B64) as [F|F].
    + cbn [rbind]. destruct (u128_checked_mul r (10 ^ (od - ad))) as [x|e] eqn:E1; cbn [rbind].
      * destruct (u128_checked_mul s (10 ^ (od - ad))) as [y|e] eqn:E2; cbn [rbind].
        -- split; [intros _|reflexivity]. split; [intros _|lia]. apply pow10_fits in F. split; [exact F|]. split; apply checked_mul_iff; eauto.
        -- split; [discriminate|]. intros [H _]. destruct (H L) as (_ & _ & X). apply checked_mul_iff in X as (c & X). congruence.
      * split; [discriminate|]. intros [H _]. destruct (H L) as (_ & X & _). apply checked_mul_iff in X as (c & X). congruence.
    + cbn [rbind panic]. split; [discriminate|]. intros [H _]. destruct (H L) as (X & _). apply pow10_fits in X. lia.
  - destruct (N.ltb_spec od ad) as [L'|L'].
    + destruct (N.ltb_spec (10 ^ (ad - od)) B64) as [F|F].
      * cbn [rbind]. destruct (u128_checked_mul n (10 ^ (ad - od))) as [x|e] eqn:E1; cbn [rbind].
        -- split; [intros _|reflexivity]. split; [lia|intros _]. apply pow10_fits in F. split; [exact F|]. apply checked_mul_iff; eauto.
        -- split; [discriminate|]. intros [_ H]. destruct (H L') as (_ & X). apply checked_mul_iff in X as (c & X). congruence.
      * cbn [rbind panic]. split; [discriminate|]. intros [_ H]. destruct (H L') as (X & _). apply pow10_fits in X. lia.
    + cbn [rbind]. split; [intros _|reflexivity]. split; lia.
Qed.

Section sim.
  Context (C : chain) (OK : chain_ok C).
  Local Notation A := (ch_api C).

  (** What a Simulation answer says. *)
  Lemma sim_inv w p st o ai od ad n r sp c : sane C w -> pair_at w p st -> human A (r_contract_addr st) = Some p ->
    sides A st o ai od ad -> o <> ai -> live w o -> live w ai ->
    ask_simulate C w p (Asset o n) = Ok (Simulation r sp c) ->
    n < B128 /\ holds w p o < B128 /\ holds w p ai < B128 /\ compute_swap (holds w p o) (holds w p ai) n = Ok (r, sp, c).
  Proof.
    intros Sn Hp Hh Hs Hne Lo La H. unfold ask_simulate, contract_at in H. rewrite (sane_norm C OK _ _ _ Sn Hp) in H. cbn [oget rbind] in H.
    pose proof Hp as Hi. apply state_at_inst in Hi as (adm & Hi). rewrite Hi in H. cbn [oget rbind i_state] in H.
    unfold pair_query_simulation in H. cbn [a_amount a_info] in H. unfold u128_ok in H. destruct (N.ltb_spec n B128); [|discriminate]. cbn [negb] in H.
    apply rbind_ok in H as (self & E & H). apply addr_humanize_ok in E. rewrite Hh in E. injection E as <-.
    apply rbind_ok in H as (y & Hy & H). rewrite query_pools_base in Hy.
    apply (pools_inv C OK w p st y o ai od ad) in Hy as (Ro & Ra & Hy); auto. split; [assumption|]. split; [assumption|]. split; [assumption|].
    destruct Hy as [[-> _]|[-> _]]; cbn [a_info a_amount] in H.
    - rewrite (proj2 (info_equal_spec o o) eq_refl) in H. cbn [rbind a_amount] in H.
      apply rbind_ok in H as ([[r' s'] c'] & E & H). injection H as -> -> ->. exact E.
    - destruct (info_equal o ai) eqn:E; [apply info_equal_spec in E; congruence|].
      rewrite (proj2 (info_equal_spec o o) eq_refl) in H. cbn [rbind a_amount] in H.
      apply rbind_ok in H as ([[r' s'] c'] & E1 & H). injection H as -> -> ->. exact E1.
  Qed.

  Lemma reachable_pair w p st : reachable C w -> pair_at w p st -> human A (r_contract_addr st) = Some p.
  Proof. intros Hr Hp. apply (reachable_main C OK) in Hr. apply (pg_self _ _ _ _ (mn_pairs _ _ Hr _ _ Hp)). Qed.
End sim.

(** ** C07 *)

(** C07: a quote for a cw20 offer is honoured exactly: the offer goes to the
    pair and the quoted return goes from the pair to the receiver; no other
    balance of any account changes. *)
Theorem C07_quote_honoured C w p st t ask od ad s n to r sp c : chain_ok C -> reachable C w ->
  pair_at w p st -> sides (ch_api C) st (Token t) ask od ad -> Token t <> ask ->
  live w (Token t) -> live w ask ->
  ask_simulate C w p (Asset (Token t) n) = Ok (Simulation r sp c) -> decimals_fit od ad n r sp ->
  0 < n -> n <= holds w s (Token t) -> s <> p ->
  norm (ch_api C) (default s to) = Some (default s to) ->
  exists w', succeeds C w s (MExecute t (JSend p n (HSwap None None to)) []) w' /\
    settled w w' [(Token t, s, p, n); (ask, p, default s to, r)].
Proof.
  intros OK Hr Hp Hs Hne Lt La Hq Hf Hn Hh Hsp Hrc.
  pose proof (main_sane C w (reachable_main C OK w Hr)) as Sn.
  apply (sim_inv C OK w p st (Token t) ask od ad) in Hq as (Rn & Ro & Ra & Hc); auto; [|eapply reachable_pair; eauto].
  pose proof (sane_norm C OK _ _ _ Sn Hp) as Np.
  destruct (send_ok C OK w s t p n (HSwap None None to) Sn Lt Np Hn Rn Hh) as (w1 & P1 & S1 & K).
  assert (H1 : holds w1 p (Token t) = holds w p (Token t) + n).
  { pose proof (pd_holds _ _ _ _ _ _ P1 p (Token t)) as X. destruct (decide (p = s /\ _)) as [[? _]|_]; [congruence|].
    rewrite decide_True in X by auto. lia. }
  assert (H2 : holds w1 p ask = holds w p ask) by (eapply paid_other; [eassumption|congruence|congruence]).
  destruct (swap_recv_ok C OK w1 t p s n to st ask od ad r sp c) as (w' & Hw); auto.
  - eapply paid_pair; eauto.
  - eapply paid_live; eauto.
  - eapply paid_live; eauto.
  - lia.
  - lia.
  - destruct to; exact Hrc.
  - rewrite H1, H2. replace (holds w p (Token t) + n - n) with (holds w p (Token t)) by lia. exact Hc.
  - apply no_limit_iff. exact Hf.
  - assert (X : forall f, exists lg, exec C (6 + f) w s (MExecute t (JSend p n (HSwap None None to)) []) = Ok (w', None, lg)).
    { intros f. apply (K 3%nat w'). exact Hw. }
    exists w'. split; [eapply succeeds_plus; exact X|].
    destruct (X 0%nat) as (lg & E). apply (send_inv C OK) in E as (w1' & f' & lg' & att & P1' & S1' & _ & _ & _ & E & _); auto.
    assert (H1' : holds w1' p (Token t) = holds w p (Token t) + n).
    { pose proof (pd_holds _ _ _ _ _ _ P1' p (Token t)) as Y. destruct (decide (p = s /\ _)) as [[? _]|_]; [congruence|].
      rewrite decide_True in Y by auto. lia. }
    assert (H2' : holds w1' p ask = holds w p ask) by (eapply paid_other; [eassumption|congruence|congruence]).
    apply (swap_recv_inv C OK f' w1' t p s n None None to st ask od ad) in E as (r' & sp' & c' & rcv' & lg2 & _ & _ & _ & _ & Hc' & _ & Hn' & P2 & _ & _); auto;
      [|eapply paid_pair; eauto|eapply paid_live; eauto|eapply paid_live; eauto].
    rewrite H1', H2' in Hc'. replace (holds w p (Token t) + n - n) with (holds w p (Token t)) in Hc' by lia. rewrite Hc in Hc'. injection Hc' as <- <- <-.
    apply (settled_app _ _ _ [_] [_] (paid_settled _ _ _ _ _ _ P1')).
    destruct Hn' as [Hn'| ->].
    + change (match to with Some z => z | None => s end) with (default s to) in Hn'. rewrite Hrc in Hn'. injection Hn' as <-. apply paid_settled. exact P2.
    + intros x j. pose proof (pd_holds _ _ _ _ _ _ P2 x j). cbn [left_ arrived fold_right]. repeat destruct (decide _); lia.
Qed.

(** ... so a receiver other than the pair gets exactly the quoted return. *)
Corollary C07_receiver_gets_quote C w p st t ask od ad s n to r sp c : chain_ok C -> reachable C w ->
  pair_at w p st -> sides (ch_api C) st (Token t) ask od ad -> Token t <> ask ->
  live w (Token t) -> live w ask ->
  ask_simulate C w p (Asset (Token t) n) = Ok (Simulation r sp c) -> decimals_fit od ad n r sp ->
  0 < n -> n <= holds w s (Token t) -> s <> p ->
  norm (ch_api C) (default s to) = Some (default s to) -> default s to <> p ->
  exists w', succeeds C w s (MExecute t (JSend p n (HSwap None None to)) []) w' /\
    holds w' (default s to) ask = holds w (default s to) ask + r.
Proof.
  intros OK Hr Hp Hs Hne Lt La Hq Hf Hn Hh Hsp Hrc Hrp.
  destruct (C07_quote_honoured C w p st t ask od ad s n to r sp c) as (w' & H & E); auto.
  exists w'. split; [exact H|]. specialize (E (default s to) ask). cbn [left_ arrived fold_right] in E.
  repeat destruct (decide _) as [[? ?]|?]; subst; try congruence; try lia. exfalso. intuition congruence.
Qed.

(** Conversely a swap without limits that succeeds satisfied [decimals_fit],
    so outside of it quotes are refused. *)
Theorem C07_refused_if_decimals_do_not_fit C w p st t ask od ad s n to r sp c w' x lg f : chain_ok C -> reachable C w ->
  pair_at w p st -> sides (ch_api C) st (Token t) ask od ad -> Token t <> ask -> live w (Token t) -> live w ask -> s <> p ->
  ask_simulate C w p (Asset (Token t) n) = Ok (Simulation r sp c) ->
  exec C f w s (MExecute t (JSend p n (HSwap None None to)) []) = Ok (w', x, lg) -> decimals_fit od ad n r sp.
Proof.
  intros OK Hr Hp Hs Hne Lt La Hsp Hq E.
  pose proof (main_sane C w (reachable_main C OK w Hr)) as Sn.
  apply (sim_inv C OK w p st (Token t) ask od ad) in Hq as (Rn & Ro & Ra & Hc); auto; [|eapply reachable_pair; eauto].
  apply (send_inv C OK) in E as (w1' & f' & lg' & att & P1' & S1' & _ & _ & _ & E & _); auto.
  assert (H1' : holds w1' p (Token t) = holds w p (Token t) + n).
  { pose proof (pd_holds _ _ _ _ _ _ P1' p (Token t)) as Y. destruct (decide (p = s /\ _)) as [[? _]|_]; [congruence|].
    rewrite decide_True in Y by auto. lia. }
  assert (H2' : holds w1' p ask = holds w p ask) by (eapply paid_other; [eassumption|congruence|congruence]).
  apply (swap_recv_inv C OK f' w1' t p s n None None to st ask od ad) in E as (r' & sp' & c' & rcv' & lg2 & _ & _ & _ & _ & Hc' & Hm & _); auto;
    [|eapply paid_pair; eauto|eapply paid_live; eauto|eapply paid_live; eauto].
  rewrite H1', H2' in Hc'. replace (holds w p (Token t) + n - n) with (holds w p (Token t)) in Hc' by lia. rewrite Hc in Hc'. injection Hc' as <- <- <-.
  apply no_limit_iff in Hm. exact Hm.
Qed.

Definition ex_pair6 : pair_info_raw := PairInfoRaw (TokenRaw "#1", TokenRaw "#2") "#6" "#7" (6, 6) ex_wl.
Example C07_case :
  reachable ex_chain ex_world /\ pair_at ex_world "#4" ex_pair4 /\
  sides ex_api ex_pair4 (Token "#1") (Native "uaura") 6 6 /\ live ex_world (Token "#1") /\
  ask_simulate ex_chain ex_world "#4" (Asset (Token "#1") 1000000) = Ok (Simulation 1812727 181819 5454) /\
  decimals_fit 6 6 1000000 1812727 181819 /\ 1000000 <= holds ex_world "bob" (Token "#1") /\
  norm ex_api "alice" = Some "alice"%string /\
  holds ex_world "alice" (Native "uaura") = 999979999999 /\
  holds (after ex_world [(false, x_call "#1" (JSend "#4" 1000000 (HSwap None None (Some "alice"%string))))]) "alice" (Native "uaura") = 999979999999 + 1812727.
Proof.
  split; [exact ex_reachable|]. split; [exact ex_pair4_at|]. split; [left; vm_compute; auto|].
  split; [exists (tok_of ex_world "#1"); apply tok_of_at; vm_compute; reflexivity|].
  split; [vm_compute; reflexivity|]. split; [split; lia|]. split; [vm_compute; discriminate|].
  split; [vm_compute; reflexivity|]. split; vm_compute; reflexivity.
Qed.

(** ** C19 *)

(** C19: whatever a pair does, native coins are never what is offered: a call
    on a pair that succeeded in any history is a deposit, a withdrawal by its
    LP token, or a swap of one of the pair's cw20 assets, sent by that token. *)
Theorem C19_native_never_offered C w lg w' e st : chain_ok C -> reachable C w -> history C w lg w' ->
  In e lg -> pair_at (ev_world e) (ev_contract e) st ->
  is_provide (ev_msg e) \/
  (exists s n, ev_msg e = JReceive s n HWithdrawLiquidity /\ canon (ch_api C) (ev_sender e) = Some (r_liquidity_token st)) \/
  (exists s n bp ms to, ev_msg e = JReceive s n (HSwap bp ms to) /\ pair_asset (ch_api C) st (Token (ev_sender e))).
Proof.
  intros OK Hr Hh He Hp. pose proof (log_accepted C w lg w' OK (reachable_main C OK w Hr) Hh) as Ha.
  rewrite List.Forall_forall in Ha. destruct (Ha e He) as (M & i & s' & rsp & Hi & Hc & _).
  unfold pair_at, state_at in Hp. rewrite Hi in Hp. injection Hp as E. rewrite E in Hc. cbn [call] in Hc.
  unfold wrap in Hc. apply rbind_ok in Hc as ([st' rsp'] & Hc & _).
  destruct (ev_msg e) eqn:Em; try (exfalso; unfold pair_execute in Hc; destruct (negb _) in Hc; discriminate).
  - match type of Em with _ = JReceive _ _ ?h => destruct h end; try (exfalso; unfold pair_execute in Hc; destruct (negb _) in Hc; [discriminate|]; unfold pair_receive in Hc;
      destruct (negb _) in Hc; discriminate).
    + right; right. apply receive_swap_inv in Hc as (x & to' & _ & _ & _ & Hx & Hd & _). eexists _, _, _, _, _. split; [reflexivity|].
      destruct (query_pools_assets C _ _ _ _ Hx) as [H1 H2]. destruct Hd as [<-|<-]; assumption.
    + right; left. apply receive_withdraw_inv in Hc as (_ & Hc & _). eauto.
  - left. eexists _, _, _. reflexivity.
Qed.

(** The pair's assets as seen by the calls on it in a log. *)
Lemma log_assets_ok C p : ind2_ok C (fun w _ lg => forall st, pair_at w p st -> Forall (fun e => ev_contract e = p ->
    exists st', pair_at (ev_world e) p st' /\ r_asset_infos st' = r_asset_infos st) lg) (fun _ _ _ => True).
Proof.
  assert (Fo : forall l : list submsg, Forall (fun _ => True) l) by (induction l; constructor; auto).
  assert (K : forall x w w' st, rel x w w' -> pair_at w p st -> exists st', pair_at w' p st' /\ r_asset_infos st' = r_asset_infos st).
  { intros x w w' st R Hp. destruct (rl_pairs _ _ _ R _ _ Hp) as (st' & H' & [->|(_ & _ & E)]); [eauto|]. exists st'. split; [exact H'|].
    rewrite E. reflexivity. }
  split; auto.
  - intros w w1 w2 l1 l2 _ _ _ (x & R1) _ H1 H2 st Hp. apply Forall_app_2; [auto|].
    destruct (K _ _ _ _ R1 Hp) as (st1 & Hp1 & E1). specialize (H2 _ Hp1). rewrite E1 in H2. exact H2.
  - intros w s ro c msg funds a w1 i st rsp f w3 lg M _ _ _ Hb Hs Hi Hc w2 _ Rn _ _ _ _. right. split; [apply Fo|].
    intros X ps Hp. constructor.
    + cbn [ev_contract ev_world]. intros _. exists ps. split; [|reflexivity]. unfold pair_at, state_at in *. rewrite (bm_insts _ _ _ _ _ Hb). exact Hp.
    + destruct (K _ _ _ _ Rn Hp) as (st1 & Hp1 & E1). specialize (X _ Hp1). rewrite E1 in X. exact X.
  - intros w s ro ad code msg funds label k adm w1 st rsp n w3 lg M _ _ _ _ a Hb Hc w2 _ S Hn _ _ _ _. right. split; [apply Fo|].
    intros H ps Hp. apply H. unfold pair_at. rewrite S. destruct (decide (p = a)) as [->|_]; [|exact Hp]. unfold pair_at in Hp. congruence.
Qed.

(** A pair of two native assets therefore never trades: what it holds of any
    asset goes down only when liquidity is withdrawn. *)
Theorem C19_native_pairs_never_trade C w lg w' p st d0 d1 : chain_ok C -> reachable C w -> history C w lg w' ->
  pair_at w p st -> r_asset_infos st = (NativeRaw d0, NativeRaw d1) ->
  ~ called p (fun m => exists s n, m = JReceive s n HWithdrawLiquidity) lg ->
  forall i, holds w p i <= holds w' p i.
Proof.
  intros OK Hr Hh Hp Hn Hw. eapply C46_reserves_stay; eauto. intros (e & He & Ec & s & n & h & Em & Hk).
  assert (X : Forall (fun e => ev_contract e = p -> exists st', pair_at (ev_world e) p st' /\ r_asset_infos st' = r_asset_infos st) lg).
  { eapply (history_ind2 C OK _ (fun _ _ _ => True) w lg w' (log_assets_ok C p)); auto. apply reachable_main; auto. }
  rewrite List.Forall_forall in X. destruct (X e He Ec) as (st' & Hp' & E'). rewrite <- Ec in Hp'.
  destruct (C19_native_never_offered C w lg w' e st' OK Hr Hh He Hp') as [(? & ? & ? & Hx)|[(s' & n' & Hx & _)|(s' & n' & bp & ms & to & Hx & Ha)]].
  - congruence.
  - apply Hw. exists e. split; [exact He|]. split; [exact Ec|]. eauto.
  - unfold pair_asset in Ha. rewrite E', Hn in Ha. cbn in Ha. destruct Ha as [Ha|Ha]; contradiction.
Qed.

(** A route hop offering a native coin fails whenever the registered pair is a
    pair contract of /repo, whatever the state. *)
Theorem C19_native_hop_fails C w r rst o d to f fa pi p st x : chain_ok C -> insts_fresh C w ->
  state_at w r = Some (SRouter rst) -> human (ch_api C) rst = Some fa ->
  op_offer o = Native d -> ask_pair_info C w fa (op_offer o, op_ask o) = Ok pi ->
  norm (ch_api C) (p_contract_addr pi) = Some p -> pair_at w p st ->
  exec C f w r (MExecute r (JExecuteSwapOperation o to) []) <> Ok x.
Proof.
  intros OK F Hs Hf Ho Hq Hp Hst E. destruct x as [[w' x] lg].
  destruct f as [|f]; [rewrite exec_0 in E; discriminate|]. rewrite exec_eq in E.
  pose proof Hs as Hi. apply state_at_inst in Hi as (adm & Hi). rewrite (inst_norm C OK _ _ _ F Hi) in E. cbn [oget rbind] in E.
  rewrite bank_send_none in E. cbn [rbind] in E. rewrite Hi in E. cbn [oget rbind i_state call] in E.
  apply rbind_ok in E as ([s rsp] & Ec & E). apply rbind_ok in Ec as ([st' rsp'] & Ec & X). injection X as <- <-.
  unfold router_execute in Ec. cbn [jmsg_ranges negb] in Ec. apply rbind_ok in Ec as (to' & _ & Ec). unfold execute_swap_operation in Ec.
  apply rbind_ok in Ec as (? & _ & Ec). unfold addr_humanize in Ec. rewrite Hf in Ec. cbn [oget rbind] in Ec.
  cbn [wq q_pair_info] in Ec. rewrite Hq in Ec. cbn [rbind] in Ec. apply rbind_ok in Ec as (n & _ & Ec). injection Ec as <- <-.
  apply rbind_ok in E as ([w2 lg2] & Er & _). cbn [rs_msgs] in Er.
  pose proof (set_state_id w r _ Hi) as Hid. cbn [i_state] in Hid. rewrite Hid in Er.
  destruct f; [rewrite run_0 in Er; discriminate|]. rewrite run_plain in Er. apply rbind_ok in Er as ([[w3 r3] lg3] & Ee & _).
  unfold asset_into_swap_msg in Ee. cbn [a_info] in Ee. rewrite Ho in Ee. cbn [a_amount] in Ee.
  destruct f; [rewrite exec_0 in Ee; discriminate|]. rewrite exec_eq in Ee. rewrite Hp in Ee. cbn [oget rbind] in Ee.
  apply rbind_ok in Ee as (w1 & Eb & Ee). apply bank_send_ok in Eb. rewrite (bm_insts _ _ _ _ _ Eb) in Ee.
  apply state_at_inst in Hst as (adp & Hip). rewrite Hip in Ee. cbn [oget rbind i_state call] in Ee.
  apply rbind_ok in Ee as ([s4 rsp4] & Ec & _). apply rbind_ok in Ec as ([s5 rsp5] & Ec & _).
  unfold pair_execute in Ec. destruct (negb _) in Ec; discriminate.
Qed.

(** Counterexample to the property as first stated: pair #4 quotes 1000000
    uaura, but a call of the router's advertised form for it does not go
    through, nor does the route. *)
Example C19_case :
  ask_simulate ex_chain ex_world "#4" (Asset (Native "uaura") 1000000) = Ok (Simulation 474762 23810 1428) /\
  is_ok (script ex_world [(true, MExecute "#4" (JSwap None None None) [Coin "uaura" 1000000])])%string = false /\
  is_ok (script ex_world [(true, MExecute "#3" (JExecuteSwapOperations [hop (Native "uaura") (Token "#1")] None None) [Coin "uaura" 1000000])])%string = false /\
  is_ok (script ex_world [ex_swap]) = true /\
  history ex_chain ex_world (log_of ex_world [ex_swap]) (after ex_world [ex_swap]).
Proof. split; [vm_compute; reflexivity|]. repeat (split; [vm_compute; reflexivity|]). apply after_history. Qed.

(** ** C28 *)
Lemma run_app_inv C a l1 l2 : forall f w w' lg, run C f w a (l1 ++ l2) = Ok (w', lg) ->
  exists f2 w1 lg1 lg2, run C f w a l1 = Ok (w1, lg1) /\ run C f2 w1 a l2 = Ok (w', lg2) /\ lg = lg1 ++ lg2.
Proof.
  induction l1 as [|sm l1 IH]; intros f w w' lg E.
  - destruct f; [rewrite run_0 in E; discriminate|]. exists (S f), w, [], lg. rewrite run_nil. auto.
  - destruct f; [rewrite run_0 in E; discriminate|]. cbn [app] in E. rewrite run_cons in E. apply rbind_ok in E as ([w1 l] & E1 & E).
    apply rbind_ok in E as ([w2 l'] & E2 & E). injection E as <- <-. apply IH in E2 as (f2 & w3 & lg1 & lg2 & R1 & R2 & ->).
    exists f2, w3, (l ++ lg1), lg2. rewrite run_cons, E1. cbn [rbind]. rewrite R1. cbn [rbind]. rewrite app_assoc. auto.
Qed.

(** C28: if a route with minimum_receive [m] succeeds, then the receiver's
    balance of the last operation's ask asset, as reported by the chain, is at
    the end at least [m] more than when the router started. *)
Theorem C28_minimum_enforced C w r rst s ops m to funds f w' x lg : chain_ok C -> insts_fresh C w ->
  state_at w r = Some (SRouter rst) ->
  exec C f w s (MExecute r (JExecuteSwapOperations ops (Some m) to) funds) = Ok (w', x, lg) ->
  exists w1 l before end_, bank_send w s r funds = Ok w1 /\ list.last ops = Some l /\
    query_pool (ch_api C) (wq C w1) (op_ask l) (default s to) = Ok before /\
    query_pool (ch_api C) (wq C w') (op_ask l) (default s to) = Ok end_ /\
    before + m <= end_.
Proof.
  intros OK F Hs E. destruct f as [|f]; [rewrite exec_0 in E; discriminate|]. rewrite exec_eq in E.
  pose proof Hs as Hi. apply state_at_inst in Hi as (adm & Hi). rewrite (inst_norm C OK _ _ _ F Hi) in E. cbn [oget rbind] in E.
  apply rbind_ok in E as (w1 & Eb & E). pose proof (bank_send_ok _ _ _ _ _ Eb) as B.
  rewrite (bm_insts _ _ _ _ _ B), Hi in E. cbn [oget rbind i_state call] in E.
  apply rbind_ok in E as ([st rsp] & Ec & E). apply rbind_ok in Ec as ([st' rsp'] & Ec & X). injection X as <- <-.
  pose proof Ec as Eto. apply C30_route_messages in Ec as (-> & _ & calls & _ & l & b & Hl & Hq & Hm). cbn [rs_msgs] in *.
  apply rbind_ok in E as ([w2 lg2] & Er & E). injection E as <- _ _. rewrite Hm, map_app in Er. cbn [map] in Er.
  assert (F1 : insts_fresh C (set_state w1 r (SRouter rst))).
  { apply (fresh_set C w w1); [apply (bm_insts _ _ _ _ _ B)|apply (bm_next _ _ _ _ _ B)|exact F]. }
  assert (H1 : state_at (set_state w1 r (SRouter rst)) r = Some (SRouter rst)).
  { rewrite state_at_set; [apply decide_True; reflexivity|]. rewrite (bm_insts _ _ _ _ _ B). eauto. }
  apply run_app_inv in Er as (f2 & w3 & lg1 & lg3 & R1 & R2 & _).
  destruct (run_always C OK _ _ _ _ _ _ R1 F1) as [F3 G]. destruct (grows_state _ _ _ _ G H1) as (s3 & H3 & K).
  destruct s3 as [| |rst3| |]; try contradiction.
  destruct f2; [rewrite run_0 in R2; discriminate|]. rewrite run_plain in R2. apply rbind_ok in R2 as ([[w4 x4] lg4] & Ee & R2).
  apply rbind_ok in R2 as ([w5 lg5] & En & R2). injection R2 as <- _.
  destruct f2; [rewrite run_0 in En; discriminate|]. rewrite run_nil in En. injection En as <- _.
  rewrite exec_eq in Ee. pose proof H3 as Hi3. apply state_at_inst in Hi3 as (adm3 & Hi3). rewrite (inst_norm C OK _ _ _ F3 Hi3) in Ee. cbn [oget rbind] in Ee.
  rewrite bank_send_none in Ee. cbn [rbind] in Ee. rewrite Hi3 in Ee. cbn [oget rbind i_state call] in Ee.
  apply rbind_ok in Ee as ([st4 rsp4] & Ec & Ee). apply rbind_ok in Ec as ([st5 rsp5] & Ec & X). injection X as <- <-.
  unfold router_execute in Ec. destruct (negb _) in Ec; [discriminate|]. apply rbind_ok in Ec as (rc & Erc & Ec). apply addr_validate_ok in Erc as [-> _].
  unfold assert_minimum_receive in Ec. apply rbind_ok in Ec as (e & Eq & Ec). apply rbind_ok in Ec as (g & Eg & Ec).
  apply u128_checked_sub_ok in Eg as [-> Hle]. destruct (N.ltb_spec (e - b) m); [discriminate|]. injection Ec as <- <-.
  pose proof (set_state_id w3 r _ Hi3) as Hid. cbn [i_state] in Hid. rewrite Hid in Ee.
  apply rbind_ok in Ee as ([w6 lg6] & En & Ee). injection Ee as <- _ _. cbn [rs_msgs] in En.
  destruct f2; [rewrite run_0 in En; discriminate|]. rewrite run_nil in En. injection En as <- _.
  exists w1, l, b, e. repeat (split; [assumption|]). lia.
Qed.

Lemma router_recv_inv C f w t r rst s n ops m to w' x lg : chain_ok C -> insts_fresh C w -> state_at w r = Some (SRouter rst) ->
  exec C f w t (MExecute r (JReceive s n (HExecuteSwapOperations ops m to)) []) = Ok (w', x, lg) ->
  norm (ch_api C) s = Some s /\ exists lg', exec C f w s (MExecute r (JExecuteSwapOperations ops m to) []) = Ok (w', x, lg').
Proof.
  intros OK F Hs E. destruct f as [|f]; [rewrite exec_0 in E; discriminate|]. rewrite exec_eq in E. rewrite exec_eq.
  pose proof Hs as Hi. apply state_at_inst in Hi as (adm & Hi). rewrite (inst_norm C OK _ _ _ F Hi) in E |- *. cbn [oget rbind] in E |- *.
  rewrite bank_send_none in E |- *. cbn [rbind] in E |- *. rewrite Hi in E |- *. cbn [oget rbind i_state call] in E |- *.
  apply rbind_ok in E as ([st rsp] & Ec & E). apply rbind_ok in Ec as ([st' rsp'] & Ec & X). injection X as <- <-.
  apply C30_route_messages_cw20 in Ec as [Hn Ec]. split; [exact Hn|]. rewrite Ec. cbn [wrap rbind].
  apply rbind_ok in E as ([w2 lg2] & Er & E). rewrite Er. cbn [rbind]. injection E as <- <- _. eauto.
Qed.

(** C28 for a user who sends a token of /repo to the router: counting what the
    user sent, the receiver ends up with at least [m] more of the target. *)
Theorem C28_minimum_enforced_cw20 C w r rst s t n ops m to l w' lg : chain_ok C -> reachable C w ->
  state_at w r = Some (SRouter rst) -> live w (Token t) -> list.last ops = Some l -> live w (op_ask l) ->
  norm (ch_api C) (default s to) = Some (default s to) ->
  tx C w s (MExecute t (JSend r n (HExecuteSwapOperations ops (Some m) to)) []) w' lg ->
  holds w (default s to) (op_ask l) + m <=
  holds w' (default s to) (op_ask l) + (if decide (default s to = s /\ op_ask l = Token t) then n else 0).
Proof.
  intros OK Hr Hs Lt Hl Ll Hn T. pose proof (main_sane C w (reachable_main C OK w Hr)) as Sn.
  pose proof (main_sane C w' (reachable_main C OK w' (reach_tx C w s _ w' lg Hr T))) as Sn'.
  destruct T as [_ (f & x & E)]. pose proof E as E0. apply (send_inv C OK) in E as (w1 & f1 & lg1 & att & P & S1 & _ & _ & _ & E & _); auto.
  assert (Hs1 : state_at w1 r = Some (SRouter rst)) by (apply (pd_keep _ _ _ _ _ _ P _ _ Hs); discriminate).
  apply (router_recv_inv C f1 w1 t r rst) in E as (_ & lg2 & E); [|exact OK|apply S1|exact Hs1].
  pose proof E as E1. apply (C28_minimum_enforced C w1 r rst) in E as (w2 & l' & b & e & Eb & Hl' & Qb & Qe & Hle); [|exact OK|apply S1|exact Hs1].
  rewrite Hl in Hl'. injection Hl' as <-. rewrite bank_send_none in Eb. injection Eb as <-.
  assert (Ll1 : live w1 (op_ask l)) by (eapply paid_live; eauto).
  assert (Ll' : live w' (op_ask l)).
  { destruct (op_ask l) as [u|]; [|exact I]. destruct Ll1 as (us & Hu). destruct (exec_always C OK _ _ _ _ _ _ _ E1 (proj1 S1)) as [_ G].
    destruct (grows_state _ _ _ _ G Hu) as (su & Hsu & K). destruct su; try contradiction. eexists; exact Hsu. }
  apply (query_pool_ok C OK) in Qb as (_ & a1 & N1 & -> & _); [|exact S1|exact Ll1|congruence].
  apply (query_pool_ok C OK) in Qe as (_ & a2 & N2 & -> & _); [|exact Sn'|exact Ll'|congruence].
  rewrite Hn in N1, N2. injection N1 as <-. injection N2 as <-.
  pose proof (pd_holds _ _ _ _ _ _ P (default s to) (op_ask l)) as X. repeat destruct (decide _); lia.
Qed.
Definition ex_route : list swap_op := [hop (Token "#2") (Token "#1"); hop (Token "#1") (Native "uaura")].
Definition ex_send_route (n : N) (m : option N) : bool * cmsg :=
  (false, x_call "#2" (JSend "#3" n (HExecuteSwapOperations ex_route m None))).
Example C28_case :
  reachable ex_chain ex_world /\ state_at ex_world "#3" = Some (SRouter "#0") /\
  live ex_world (Token "#2") /\ list.last ex_route = Some (hop (Token "#1") (Native "uaura")) /\
  norm ex_api "bob" = Some "bob"%string /\
  tx ex_chain ex_world "bob" (ex_send_route 300000 (Some 190000)).2 (after ex_world [ex_send_route 300000 (Some 190000)])
    (log_of ex_world [ex_send_route 300000 (Some 190000)]) /\
  holds ex_world "bob" (Native "uaura") = 1000000000 /\
  holds (after ex_world [ex_send_route 300000 (Some 190000)]) "bob" (Native "uaura") = 1000194908 /\
  is_ok (script ex_world [ex_send_route 300000 (Some 194908)]) = true /\
  is_ok (script ex_world [ex_send_route 300000 (Some 194909)]) = false.
Proof.
  split; [exact ex_reachable|]. split; [vm_compute; reflexivity|].
  split; [exists (tok_of ex_world "#2"); apply tok_of_at; vm_compute; reflexivity|]. split; [reflexivity|]. split; [vm_compute; reflexivity|].
  split; [apply (one_tx ex_world false); vm_compute; reflexivity|].
  repeat (split; [vm_compute; reflexivity|]). vm_compute; reflexivity.
Qed.

(** ** C32 *)
Lemma hop_inv C f w r rst o to w' x lg : chain_ok C -> insts_fresh C w -> state_at w r = Some (SRouter rst) ->
  exec C f w r (MExecute r (JExecuteSwapOperation o to) []) = Ok (w', x, lg) ->
  exists fa pi n f' x' lg', human (ch_api C) rst = Some fa /\ ask_pair_info C w fa (op_offer o, op_ask o) = Ok pi /\
    query_pool (ch_api C) (wq C w) (op_offer o) r = Ok n /\ (forall z, to = Some z -> norm (ch_api C) z = Some z) /\
    exec C f' w r (asset_into_swap_msg (p_contract_addr pi) (Asset (op_offer o) n) to) = Ok (w', x', lg').
Proof.
  intros OK F Hs E.
  destruct f as [|f]; [rewrite exec_0 in E; discriminate|]. rewrite exec_eq in E.
  pose proof Hs as Hi. apply state_at_inst in Hi as (adm & Hi). rewrite (inst_norm C OK _ _ _ F Hi) in E. cbn [oget rbind] in E.
  rewrite bank_send_none in E. cbn [rbind] in E. rewrite Hi in E. cbn [oget rbind i_state call] in E.
  apply rbind_ok in E as ([s rsp] & Ec & E). apply rbind_ok in Ec as ([st' rsp'] & Ec & X). injection X as <- <-.
  unfold router_execute in Ec. cbn [jmsg_ranges negb] in Ec. apply rbind_ok in Ec as (to' & Eto & Ec). unfold execute_swap_operation in Ec.
  assert (Hto : to' = to /\ forall z, to = Some z -> norm (ch_api C) z = Some z).
  { unfold optional_addr_validate in Eto. destruct to as [z|]; [|injection Eto as <-; split; [reflexivity|discriminate]].
    apply rbind_ok in Eto as (z' & Ez & Eto). apply addr_validate_ok in Ez as [-> Ez]. injection Eto as <-. split; [reflexivity|].
    intros y H. injection H as <-. exact Ez. }
  destruct Hto as [-> Hto].
  apply rbind_ok in Ec as (? & _ & Ec). apply rbind_ok in Ec as (fa & Ef & Ec). apply addr_humanize_ok in Ef.
  apply rbind_ok in Ec as (pi & Ep & Ec). apply rbind_ok in Ec as (n & En & Ec). injection Ec as <- <-.
  apply rbind_ok in E as ([w2 lg2] & Er & E). injection E as <- _ _. cbn [rs_msgs] in Er.
  pose proof (set_state_id w r _ Hi) as Hid. cbn [i_state] in Hid. rewrite Hid in Er.
  destruct f; [rewrite run_0 in Er; discriminate|]. rewrite run_plain in Er. apply rbind_ok in Er as ([[w3 r3] lg3] & Ee & Er).
  apply rbind_ok in Er as ([w4 lg4] & Ex & Er). injection Er as <- _. destruct f; [rewrite run_0 in Ex; discriminate|]. rewrite run_nil in Ex. injection Ex as <- _.
  exists fa, pi, n, (S f), r3, lg3. auto 10.
Qed.

(** C32: after a successful hop over a pair contract of /repo between two
    different assets, the router holds nothing of the offered asset: all of it
    went to the pair, and the pair paid the receiver what it computes for that
    offer. *)
Theorem C32_hop_leaves_nothing C w r rst o to f w' x lg fa pi st od ad : chain_ok C -> sane C w ->
  state_at w r = Some (SRouter rst) -> human (ch_api C) rst = Some fa ->
  ask_pair_info C w fa (op_offer o, op_ask o) = Ok pi -> pair_at w (p_contract_addr pi) st ->
  sides (ch_api C) st (op_offer o) (op_ask o) od ad -> op_offer o <> op_ask o ->
  live w (op_offer o) -> live w (op_ask o) ->
  exec C f w r (MExecute r (JExecuteSwapOperation o to) []) = Ok (w', x, lg) ->
  holds w' r (op_offer o) = 0 /\
  let p := p_contract_addr pi in let n := holds w r (op_offer o) in
  exists q sp c, compute_swap (holds w p (op_offer o)) (holds w p (op_ask o)) n = Ok (q, sp, c) /\
    settled w w' [(op_offer o, r, p, n); (op_ask o, p, default r to, q)].
Proof.
  intros OK Sn Hs Hf Hq Hp Hsd Hne Lo La E. pose proof E as E0.
  apply (hop_inv C f w r rst) in E as (fa' & pi' & n & f' & x' & lg' & Hf' & Hq' & Hn & Hto & E); [|exact OK|apply Sn|exact Hs].
  rewrite Hf in Hf'. injection Hf' as <-. rewrite Hq in Hq'. injection Hq' as <-.
  pose proof (sane_norm C OK _ _ _ Sn Hp) as Np. pose proof (sane_norm C OK _ _ _ Sn Hs) as Nr.
  destruct (op_offer o) as [t|d] eqn:Eo.
  2:{ exfalso. eapply (C19_native_hop_fails C w r rst o d to f fa pi _ st); eauto; [apply Sn|]. rewrite Eo. exact Hq. }
  assert (Hrp : r <> p_contract_addr pi) by (intros X; rewrite <- X in Hp; unfold pair_at in Hp; congruence).
  apply (query_pool_ok C OK) in Hn as (_ & a & Na & -> & Rn); [|exact Sn|exact Lo|congruence]. rewrite Nr in Na. injection Na as <-.
  unfold asset_into_swap_msg in E. cbn [a_info a_amount] in E. set (p := p_contract_addr pi) in *. set (n := holds w r (Token t)) in *.
  apply (send_inv C OK) in E as (w1 & f1 & lg1 & att & P1 & S1 & _ & _ & _ & E & _); auto.
  assert (H1 : holds w1 p (Token t) = holds w p (Token t) + n).
  { pose proof (pd_holds _ _ _ _ _ _ P1 p (Token t)) as Y. destruct (decide (p = r /\ _)) as [[? _]|_]; [congruence|].
    rewrite decide_True in Y by auto. lia. }
  assert (H2 : holds w1 p (op_ask o) = holds w p (op_ask o)) by (eapply paid_other; [eassumption|congruence|congruence]).
  assert (H3 : holds w1 r (Token t) = 0).
  { pose proof (pd_holds _ _ _ _ _ _ P1 r (Token t)) as Y. rewrite decide_True in Y by auto.
    destruct (decide (r = p /\ _)) as [[? _]|_]; [congruence|]. unfold n in Y. lia. }
  apply (swap_recv_inv C OK f1 w1 t p r n None None to st (op_ask o) od ad) in E as (q & sp & c & rcv & lg2 & _ & _ & _ & _ & Hc & _ & Hrc & P2 & _ & _); auto;
    [|eapply paid_pair; eauto|eapply paid_live; eauto|eapply paid_live; eauto].
  split.
  - rewrite <- H3. eapply paid_other; [exact P2|congruence|congruence].
  - exists q, sp, c. split; [rewrite H1, H2 in Hc; replace (holds w p (Token t) + n - n) with (holds w p (Token t)) in Hc by lia; exact Hc|].
    apply (settled_app _ _ _ [_] [_] (paid_settled _ _ _ _ _ _ P1)).
    destruct Hrc as [Hrc| ->].
    + assert (rcv = default r to) as <-.
      { destruct to as [z|]; cbn [default] in *.
        - specialize (Hto z eq_refl). unfold default, id. congruence.
        - unfold default. congruence. }
      apply paid_settled. exact P2.
    + intros y j. pose proof (pd_holds _ _ _ _ _ _ P2 y j). cbn [left_ arrived fold_right]. repeat destruct (decide _); lia.
Qed.
(** The router of the example has been sent 700 of token #2 by mistake; a hop
    of its own sweeps them. *)
Example C32_case :
  let w := after ex_world [(false, x_call "#2" (JTransfer "#3" 700))] in
  reachable ex_chain w /\ state_at w "#3" = Some (SRouter "#0") /\ human ex_api "#0" = Some "#0"%string /\
  ask_pair_info ex_chain w "#0" (Token "#2", Token "#1") = Ok (PairInfo (Token "#1", Token "#2") "#6" "#7" (6, 6) ex_wl)%string /\
  pair_at w "#6" ex_pair6 /\ sides ex_api ex_pair6 (Token "#2") (Token "#1") 6 6 /\
  live w (Token "#2") /\ live w (Token "#1") /\ holds w "#3" (Token "#2") = 700 /\
  match exec ex_chain 20 w "#3" (x_call "#3" (JExecuteSwapOperation (hop (Token "#2") (Token "#1")) (Some "bob"%string))) with
  | Ok (w', _, _) => holds w' "#3" (Token "#2") = 0 /\ holds w' "#6" (Token "#2") = 30000700
  | Err _ => False
  end.
Proof.
  intros w. split; [eapply history_reachable; [exact ex_reachable|apply after_history]|].
  split; [vm_compute; reflexivity|]. split; [vm_compute; reflexivity|]. split; [vm_compute; reflexivity|].
  split; [vm_compute; reflexivity|]. split; [right; vm_compute; auto|].
  split; [exists (tok_of w "#2"); apply tok_of_at; vm_compute; reflexivity|].
  split; [exists (tok_of w "#1"); apply tok_of_at; vm_compute; reflexivity|].
  split; [vm_compute; reflexivity|]. vm_compute. auto.
Qed.

(** ** C48 *)

(** The refund of [n] of [S] shares out of reserve [R], as the pair computes
    it: the share is first rounded down to 18 decimal places. *)
Definition refund (R n S : N) : N := R * (n * 10 ^ 18 / S) / 10 ^ 18.

Section withdraw.
  Context (C : chain) (OK : chain_ok C).
  Local Notation A := (ch_api C).

  (** The pair [st] trades these two assets, in this order. *)
  Definition assets_are (st : pair_info_raw) (i0 i1 : asset_info) : Prop :=
    named A (r_asset_infos st).1 i0 /\ named A (r_asset_infos st).2 i1.

  Lemma pools_are w p st i0 i1 x : sane C w -> pair_at w p st -> assets_are st i0 i1 -> live w i0 -> live w i1 ->
    query_pools A (wq C w) st p = Ok x <->
    holds w p i0 < B128 /\ holds w p i1 < B128 /\ x = (Asset i0 (holds w p i0), Asset i1 (holds w p i1)).
  Proof.
    intros Sn Hp [E0 E1] L0 L1. apply named_normal in E0, E1. pose proof (sane_norm C OK _ _ _ Sn Hp) as Np.
    unfold query_pools. rewrite E0, E1. cbn [rbind]. split.
    - intros H. apply rbind_ok in H as (v0 & Q0 & H). apply rbind_ok in H as (v1 & Q1 & H). injection H as <-.
      apply (query_pool_ok C OK) in Q0 as (_ & a0 & N0 & -> & R0); [|exact Sn|exact L0|congruence].
      apply (query_pool_ok C OK) in Q1 as (_ & a1 & N1 & -> & R1); [|exact Sn|exact L1|congruence].
      rewrite Np in N0, N1. injection N0 as <-. injection N1 as <-. auto.
    - intros (R0 & R1 & ->). rewrite !(query_pool_live C OK) by assumption. reflexivity.
  Qed.

  Lemma withdraw_recv_inv f w lp p s n st i0 i1 ts w' x lg : sane C w -> pair_at w p st ->
    assets_are st i0 i1 -> live w i0 -> live w i1 -> human A (r_liquidity_token st) = Some lp -> tok_at w lp ts ->
    exec C f w lp (MExecute p (JReceive s n HWithdrawLiquidity) []) = Ok (w', x, lg) ->
    let r0 := refund (holds w p i0) n (tk_supply ts) in let r1 := refund (holds w p i1) n (tk_supply ts) in
    exists wa wb, norm A s = Some s /\ tk_supply ts <> 0 /\ 0 < n /\ n < B128 /\ 0 < r0 /\ 0 < r1 /\
      paid w wa i0 p s r0 /\ paid wa wb i1 p s r1 /\ burnt wb w' lp p n /\ sane C wa /\ sane C wb /\ sane C w'.
  Proof.
    intros Sn Hp Has L0 L1 Hlp Ht E r0 r1. destruct f; [rewrite exec_0 in E; discriminate|]. rewrite exec_eq in E.
    rewrite (sane_norm C OK _ _ _ Sn Hp) in E. cbn [oget rbind] in E. rewrite bank_send_none in E. cbn [rbind] in E.
    pose proof Hp as Hi. apply state_at_inst in Hi as (adm & Hi). rewrite Hi in E. cbn [oget rbind i_state call] in E.
    apply rbind_ok in E as ([s' rsp] & Ec & E). apply rbind_ok in Ec as ([st' rsp'] & Ec & X). injection X as <- <-.
    apply receive_withdraw_inv in Ec as (Hr & _ & Ns & Ec).
    apply withdraw_inv in Ec as (y & lp' & ti & q0 & q1 & -> & Hy & Hlp' & Hti & Hrf & Hmsg).
    rewrite Hlp in Hlp'. injection Hlp' as <-.
    apply (pools_are w p st i0 i1 y Sn Hp Has L0 L1) in Hy as (R0 & R1 & ->). cbn [fst snd a_info a_amount] in *.
    assert (ti_total_supply ti = tk_supply ts) as Es.
    { cbn [wq q_token_info] in Hti. unfold ask_token_info, contract_at in Hti. rewrite (sane_norm C OK _ _ _ Sn Ht) in Hti. cbn [oget rbind] in Hti.
      pose proof Ht as Hit. apply state_at_inst in Hit as (adt & Hit). rewrite Hit in Hti. cbn [oget rbind i_state] in Hti. injection Hti as <-. reflexivity. }
    rewrite Es in Hrf. apply refunds_ok in Hrf as (Hs0 & _ & -> & _ & -> & _).
    apply rbind_ok in E as ([w2 lg2] & Er & E). injection E as <- _ _.
    pose proof (set_state_id w p _ Hi) as Hid. cbn [i_state] in Hid. rewrite Hid in Er. rewrite Hmsg in Er. cbn [map] in Er.
    change D18 with (10 ^ 18) in Er.
    fold (refund (holds w p i0) n (tk_supply ts)) in Er. fold (refund (holds w p i1) n (tk_supply ts)) in Er. fold r0 r1 in Er.
    destruct f; [rewrite run_0 in Er; discriminate|]. rewrite run_plain in Er.
    apply rbind_ok in Er as ([[wa xa] la] & Ea & Er). apply rbind_ok in Er as ([wz lz] & Er & Z). injection Z as <- _.
    destruct f; [rewrite run_0 in Er; discriminate|]. rewrite run_plain in Er.
    apply rbind_ok in Er as ([[wb xb] lb] & Eb & Er). apply rbind_ok in Er as ([wy ly] & Er & Z). injection Z as <- _.
    destruct f; [rewrite run_0 in Er; discriminate|]. rewrite run_plain in Er.
    apply rbind_ok in Er as ([[wc xc] lc] & Ecc & Er). apply rbind_ok in Er as ([wx lx] & Er & Z). injection Z as <- _.
    destruct f; [rewrite run_0 in Er; discriminate|]. rewrite run_nil in Er. injection Er as <- _.
    apply (pay_inv C OK) in Ea as (sa & Na & Pa & Sa & Ha); [|exact Sn|exact L0]. rewrite Ns in Na. injection Na as <-.
    apply (pay_inv C OK) in Eb as (sb & Nb & Pb & Sb & Hb); [|exact Sa|eapply paid_live; eauto]. rewrite Ns in Nb. injection Nb as <-.
    assert (Lt : live wb (Token lp)) by (eapply paid_live; [exact Pb|]; eapply paid_live; [exact Pa|]; exists ts; exact Ht).
    apply (burn_inv C OK) in Ecc as (B & Sc & Hn); [|exact Sb|exact Lt].
    exists wa, wb. auto 20.
  Qed.

  Lemma withdraw_recv_ok w lp p s n st i0 i1 ts : sane C w -> pair_at w p st ->
    assets_are st i0 i1 -> live w i0 -> live w i1 -> human A (r_liquidity_token st) = Some lp -> tok_at w lp ts ->
    i0 <> i1 -> i0 <> Token lp -> i1 <> Token lp -> s <> p -> norm A s = Some s ->
    holds w p i0 < B128 -> holds w p i1 < B128 -> 0 < n -> n <= holds w p (Token lp) ->
    0 < refund (holds w p i0) n (tk_supply ts) -> 0 < refund (holds w p i1) n (tk_supply ts) ->
    exists w', forall f, exists lg, exec C (S (S (S (S (S (S f)))))) w lp (MExecute p (JReceive s n HWithdrawLiquidity) []) = Ok (w', None, lg).
  Proof.
    intros Sn Hp Has L0 L1 Hlp Ht H01 H0l H1l Hsp Ns R0 R1 Hn Hh Hr0 Hr1.
    set (r0 := refund (holds w p i0) n (tk_supply ts)) in *. set (r1 := refund (holds w p i1) n (tk_supply ts)) in *.
    assert (Hns : n <= tk_supply ts).
    { rewrite (holds_tok _ _ _ _ Ht) in Hh. destruct (proj2 Sn _ _ Ht) as [E1 _ _]. pose proof (balance_le_sum ts p). lia. }
    assert (Hn128 : n < B128). { destruct (proj2 Sn _ _ Ht) as [_ E2 _]. lia. }
    assert (Hle : forall R, refund R n (tk_supply ts) <= R).
    { intros R. unfold refund. apply N.div_le_upper_bound; [discriminate|]. rewrite (N.mul_comm (10 ^ 18)). apply N.mul_le_mono_l.
      apply N.div_le_upper_bound; [lia|]. apply N.mul_le_mono_r. exact Hns. }
    pose proof (Hle (holds w p i0)) as Hl0. pose proof (Hle (holds w p i1)) as Hl1. fold r0 in Hl0. fold r1 in Hl1.
    assert (Hc : exists attrs, pair_execute A (wq C w) p st lp [] (JReceive s n HWithdrawLiquidity) =
      Ok (st, Response (map plain [into_msg (Asset i0 r0) s; into_msg (Asset i1 r1) s; MExecute lp (JBurn n) []]) attrs)).
    { eexists. unfold pair_execute. cbn [jmsg_ranges]. unfold u128_ok. rewrite (proj2 (N.ltb_lt _ _) Hn128). cbn [negb].
      unfold pair_receive. cbn [hook_ranges negb]. unfold addr_canonicalize.
      rewrite (api_human_canon C OK _ _ Hlp). cbn [oget rbind]. rewrite bool_decide_true by reflexivity. cbn [require rbind].
      rewrite (proj2 (addr_validate_ok A s s) (conj eq_refl Ns)). cbn [rbind]. unfold withdraw_liquidity.
      unfold addr_humanize. rewrite Hlp. cbn [oget rbind].
      rewrite (proj2 (pools_are w p st i0 i1 _ Sn Hp Has L0 L1) (conj R0 (conj R1 eq_refl))). cbn [rbind a_amount a_info].
      cbn [wq q_token_info]. unfold ask_token_info, contract_at. rewrite (sane_norm C OK _ _ _ Sn Ht). cbn [oget rbind].
      pose proof Ht as Hit. apply state_at_inst in Hit as (adt & Hit). rewrite Hit. cbn [oget rbind i_state token_query_info ti_total_supply].
      rewrite (proj2 (refunds_ok _ _ n (tk_supply ts) r0 r1)); [cbn [rbind]; reflexivity|].
      split; [lia|]. split.
      { apply N.le_lt_trans with (10 ^ 18); [|reflexivity]. apply N.div_le_upper_bound; [lia|]. apply N.mul_le_mono_r. exact Hns. }
      split; [reflexivity|]. split; [lia|]. split; [reflexivity|]. lia. }
    destruct Hc as (attrs & Hc). pose proof Hp as Hi. apply state_at_inst in Hi as (adm & Hi).
    pose proof (set_state_id w p _ Hi) as Hid. cbn [i_state] in Hid.
    destruct (pay_ok C OK w p i0 r0 s) as (wa & Ka); auto; [lia|].
    destruct (Ka 0%nat) as (la & Ea). apply (pay_inv C OK) in Ea as (sa & Na & Pa & Sa & _); [|exact Sn|exact L0]. rewrite Ns in Na. injection Na as <-.
    assert (Ha1 : holds wa p i1 = holds w p i1) by (eapply paid_other; [exact Pa|congruence|congruence]).
    assert (Hal : holds wa p (Token lp) = holds w p (Token lp)) by (eapply paid_other; [exact Pa|congruence|congruence]).
    assert (La : live wa i1) by (eapply paid_live; eauto).
    destruct (pay_ok C OK wa p i1 r1 s) as (wb & Kb); auto; [lia|lia|].
    destruct (Kb 0%nat) as (lb & Eb). apply (pay_inv C OK) in Eb as (sb & Nb & Pb & Sb & _); [|exact Sa|exact La]. rewrite Ns in Nb. injection Nb as <-.
    assert (Hbl : holds wb p (Token lp) = holds w p (Token lp)) by (rewrite <- Hal; eapply paid_other; [exact Pb|congruence|congruence]).
    assert (Lt : live wb (Token lp)) by (eapply paid_live; [exact Pb|]; eapply paid_live; [exact Pa|]; exists ts; exact Ht).
    destruct (burn_ok C OK wb p lp n) as (wc & Kc); auto; [lia|].
    exists wc. intros f. destruct (Ka (S (S f))) as (l1 & E1). destruct (Kb (S f)) as (l2 & E2). destruct (Kc f) as (l3 & E3).
    eexists. rewrite exec_eq. rewrite (sane_norm C OK _ _ _ Sn Hp). cbn [oget rbind]. rewrite bank_send_none. cbn [rbind].
    rewrite Hi. cbn [oget rbind i_state call]. rewrite Hc. cbn [wrap rbind rs_msgs rs_attrs map]. rewrite Hid.
    rewrite run_plain, E1. cbn [rbind]. rewrite run_plain, E2. cbn [rbind]. rewrite run_plain, E3. cbn [rbind]. rewrite run_nil. cbn [rbind]. reflexivity.
  Qed.
End withdraw.

(** C48: in every reachable state, a holder of LP tokens of a pair of two
    different assets can withdraw any part of them whose refunds are at least
    one unit of each asset: the LP tokens are burnt, the refunds are paid, and
    nothing else changes. *)
Theorem C48_can_withdraw C w p st i0 i1 lp ts s n : chain_ok C -> reachable C w ->
  pair_at w p st -> assets_are C st i0 i1 -> i0 <> i1 -> live w i0 -> live w i1 ->
  human (ch_api C) (r_liquidity_token st) = Some lp -> tok_at w lp ts -> i0 <> Token lp -> i1 <> Token lp ->
  holds w p i0 < 2 ^ 128 -> holds w p i1 < 2 ^ 128 ->
  norm (ch_api C) s = Some s -> s <> p -> 0 < n -> n <= holds w s (Token lp) ->
  1 <= refund (holds w p i0) n (tk_supply ts) -> 1 <= refund (holds w p i1) n (tk_supply ts) ->
  exists w' ts', succeeds C w s (MExecute lp (JSend p n HWithdrawLiquidity) []) w' /\
    tok_at w' lp ts' /\ tk_supply ts' + n = tk_supply ts /\
    forall x j, holds w' x j
      + left_ x j [(i0, p, s, refund (holds w p i0) n (tk_supply ts)); (i1, p, s, refund (holds w p i1) n (tk_supply ts))]
      + (if decide (x = s /\ j = Token lp) then n else 0) =
      holds w x j
      + arrived x j [(i0, p, s, refund (holds w p i0) n (tk_supply ts)); (i1, p, s, refund (holds w p i1) n (tk_supply ts))].
Proof.
  intros OK Hr Hp Has H01 L0 L1 Hlp Ht H0l H1l R0 R1 Ns Hsp Hn Hh Hr0 Hr1. change (2 ^ 128) with B128 in *.
  pose proof (main_sane C w (reachable_main C OK w Hr)) as Sn.
  assert (Lt : live w (Token lp)) by (exists ts; exact Ht).
  assert (Hn128 : n < B128). { pose proof (holds_range C w lp s Sn Lt). lia. }
  destruct (send_ok C OK w s lp p n HWithdrawLiquidity Sn Lt (sane_norm C OK _ _ _ Sn Hp) Hn Hn128 Hh) as (w1 & P1 & S1 & K).
  destruct (pd_toks _ _ _ _ _ _ P1 _ _ Ht) as (ts1 & Ht1 & Eb). assert (Es : tk_supply ts1 = tk_supply ts) by apply Eb.
  assert (E0 : holds w1 p i0 = holds w p i0) by (eapply paid_other; [exact P1|congruence|congruence]).
  assert (E1 : holds w1 p i1 = holds w p i1) by (eapply paid_other; [exact P1|congruence|congruence]).
  assert (El : n <= holds w1 p (Token lp)).
  { pose proof (pd_holds _ _ _ _ _ _ P1 p (Token lp)) as X. destruct (decide (p = s /\ _)) as [[? _]|_]; [congruence|].
    rewrite decide_True in X by auto. lia. }
  destruct (withdraw_recv_ok C OK w1 lp p s n st i0 i1 ts1) as (w' & Kw); auto; rewrite ?E0, ?E1, ?Es; auto;
    try (eapply paid_pair; eauto; fail); try (eapply paid_live; eauto; fail); try lia.
  pose proof (K 5%nat w' Kw) as K2. cbn [Nat.add] in K2.
  destruct (K2 0%nat) as (lg & E). apply (send_inv C OK) in E as (w1' & f' & lg' & att & P1' & S1' & _ & _ & _ & E & _); auto.
  destruct (pd_toks _ _ _ _ _ _ P1' _ _ Ht) as (ts1' & Ht1' & Eb'). assert (Es' : tk_supply ts1' = tk_supply ts) by apply Eb'.
  assert (E0' : holds w1' p i0 = holds w p i0) by (eapply paid_other; [exact P1'|congruence|congruence]).
  assert (E1' : holds w1' p i1 = holds w p i1) by (eapply paid_other; [exact P1'|congruence|congruence]).
  pose proof (withdraw_recv_inv C OK f' w1' lp p s n st i0 i1 ts1' _ _ _ S1' (paid_pair _ _ _ _ _ _ _ _ P1' Hp) Has
    (paid_live _ _ _ _ _ _ _ P1' L0) (paid_live _ _ _ _ _ _ _ P1' L1) Hlp Ht1' E) as Y. cbv zeta in Y.
  destruct Y as (wa & wb & _ & _ & _ & _ & _ & _ & Pa & Pb & B & Sa & Sb & Sc).
  rewrite E0', E1', Es' in *.
  destruct (pd_toks _ _ _ _ _ _ Pa _ _ Ht1') as (tsa & Hta & Eba). destruct (pd_toks _ _ _ _ _ _ Pb _ _ Hta) as (tsb & Htb & Ebb).
  destruct (bn_supply _ _ _ _ _ B _ Htb) as (ts' & Ht' & Ec & _).
  exists w', ts'. split; [exact (succeeds_plus C w s _ w' 8 K2)|]. split; [exact Ht'|].
  split. { assert (tk_supply tsb = tk_supply tsa) by apply Ebb. assert (tk_supply tsa = tk_supply ts1') by apply Eba. lia. }
  intros x j.
  pose proof (pd_holds _ _ _ _ _ _ P1' x j) as X1. pose proof (pd_holds _ _ _ _ _ _ Pa x j) as Xa.
  pose proof (pd_holds _ _ _ _ _ _ Pb x j) as Xb. pose proof (bn_holds _ _ _ _ _ B x j) as Xc.
  cbn [left_ arrived fold_right]. repeat destruct (decide _); lia.
Qed.

(** Refunds worth at least two units are enough (for reserves up to 10^18). *)
Theorem C48_two_units_suffice R n S : 0 < S -> R <= 10 ^ 18 -> 2 * S <= R * n -> 1 <= refund R n S.
Proof.
  intros HS HR H. destruct (refund_bounds R n S ltac:(lia)) as [_ X]. change D18 with (10 ^ 18) in X. fold (refund R n S) in X.
  destruct (N.eq_dec (refund R n S) 0) as [E|]; [|lia]. rewrite E in X. exfalso.
  assert (R * S <= 10 ^ 18 * S) by (apply N.mul_le_mono_r; exact HR).
  assert (2 * S * 10 ^ 18 <= R * n * 10 ^ 18) by (apply N.mul_le_mono_r; exact H). lia.
Qed.

Example C48_case :
  reachable ex_chain ex_world /\ pair_at ex_world "#4" ex_pair4 /\ assets_are ex_chain ex_pair4 (Token "#1") (Native "uaura") /\
  live ex_world (Token "#1") /\ human ex_api (r_liquidity_token ex_pair4) = Some "#5"%string /\
  tok_at ex_world "#5" (tok_of ex_world "#5") /\ holds ex_world "alice" (Token "#5") = 14142135 /\
  refund (holds ex_world "#4" (Token "#1")) 1000000 (tk_supply (tok_of ex_world "#5")) = 707106 /\
  refund (holds ex_world "#4" (Native "uaura")) 1000000 (tk_supply (tok_of ex_world "#5")) = 1414213 /\
  holds (after ex_world [ex_withdraw]) "alice" (Token "#1") = holds ex_world "alice" (Token "#1") + 707106 /\
  holds (after ex_world [ex_withdraw]) "alice" (Token "#5") = 13142135.
Proof.
  split; [exact ex_reachable|]. split; [exact ex_pair4_at|]. split; [split; reflexivity|].
  split; [exists (tok_of ex_world "#1"); apply tok_of_at; vm_compute; reflexivity|]. split; [reflexivity|].
  split; [apply tok_of_at; vm_compute; reflexivity|]. repeat (split; [vm_compute; reflexivity|]). vm_compute; reflexivity.
Qed.

(** A share worth exactly one unit need not be withdrawable, as its computed
    refund can be zero: here the pair holds as much of token #1 as there are LP
    tokens, and withdrawing one LP token fails. *)
Example C48_one_unit_refuted :
  let w := after ex_world [(true, x_call "#1" (JTransfer "#4" 4142135))] in
  reachable ex_chain w /\ holds w "#4" (Token "#1") = 14142135 /\ tk_supply (tok_of w "#5") = 14142135 /\
  holds w "#4" (Native "uaura") = 20000000 /\ holds w "alice" (Token "#5") = 14142135 /\
  refund 14142135 1 14142135 = 0 /\
  is_ok (script w [(true, x_call "#5" (JSend "#4" 1 HWithdrawLiquidity))]) = false /\
  is_ok (script w [(true, x_call "#5" (JSend "#4" 2 HWithdrawLiquidity))]) = true.
Proof.
  intros w. split; [eapply history_reachable; [exact ex_reachable|apply after_history]|].
  repeat (split; [vm_compute; reflexivity|]). vm_compute; reflexivity.
Qed.
