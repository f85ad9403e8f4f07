(** Queries tell the truth (C57), reverse route quotes never promise too
    little (C56), and exactly which swaps are executed (C58). *)
From Verif Require Import Base BigNumber CwStd BigNumberFacts Asset Messages PairMath Pair PairFacts Token Factory Router
  SwapFacts SwapFacts2 P_Swap P_Pair FactoryFacts P_Factory P_Router TokenFacts World WorldInd WorldFacts WorldInv WorldInd2
  Examples WorldExamples P_Ledger P_Registry ExecFacts P_Exec P_Route P_Route2.
From Coq Require Import ZifyN.
Local Open Scope N_scope.
Ltac Zify.zify_post_hook ::= idtac.

(** ** Specification *)

(** Before fees, [n] units bring [y*n/(x+n)] from reserves [x], [y], rounded up
    to 18 decimals and then down to a whole unit. *)
Definition gross (x y n : N) : N := (y * n * 10 ^ 18 + (x + n - 1)) / (x + n) / 10 ^ 18.
Definition fee (g : N) : N := 3 * g / 1000.
(** What [n] units are worth at the current price, truncated to 18 decimals. *)
Definition at_price (x y n : N) : N := n * (y * 10 ^ 18 / x) / 10 ^ 18.
(** The price computation goes through. *)
Definition priced (x y n : N) : Prop :=
  x <> 0 /\ x * y * 10 ^ 18 < 2 ^ 256 /\ n * (y * 10 ^ 18 / x) < 2 ^ 256 /\
  gross x y n <= at_price x y n < gross x y n + 2 ^ 128.

(** The swap of [n] units (of [od] decimals) for [r] units (of [ad] decimals),
    falling short of the current price by [sp], is within the sender's limits:
    a maximum spread alone bounds the shortfall as a fraction of the worth;
    together with a belief price it bounds the shortfall against that price;
    a belief price alone is ignored. *)
Definition within (od ad n r sp : N) (belief limit : option N) : Prop :=
  decimals_fit od ad n r sp /\
  match limit, belief with
  | None, _ => True
  | Some m, None => 0 < r + sp /\ sp * 10 ^ 18 < (m + 1) * (r + sp)
  | Some m, Some b => b <> 0 /\
      let expected := n * 10 ^ (ad - od) * 10 ^ 18 / b in let got := r * 10 ^ (od - ad) in
      expected <= got \/
      (expected - got) * 10 ^ 18 < 2 ^ 256 /\ (expected - got) * 10 ^ 18 < (m + 1) * expected
  end.

Definition fits (o : option N) : Prop := match o with Some v => v < 2 ^ 128 | None => True end.

(** ** Lemmas *)

Lemma gross_eq x y n : x <> 0 -> gross x y n = sw_gross x y n.
Proof. intros H. symmetry. apply sw_gross_ceil. lia. Qed.

Lemma compute_swap_iff x y n r sp c : x < B128 -> y < B128 -> n < B128 ->
  compute_swap x y n = Ok (r, sp, c) <->
  priced x y n /\ r = gross x y n - fee (gross x y n) /\ sp = at_price x y n - gross x y n /\ c = fee (gross x y n).
Proof.
  intros H1 H2 H3. rewrite compute_swap_ok by assumption. unfold priced, fee.
  change (at_price x y n) with (sw_ideal x y n). change (10 ^ 18) with D18. change (2 ^ 256) with B256. change (2 ^ 128) with B128.
  set (e := n * (y * D18 / x)). split.
  - intros (H0 & Ha & Hb & Hc & Hd & -> & -> & ->). rewrite gross_eq by assumption. rewrite sw_comm_eq.
    set (i := sw_ideal x y n) in *. set (g := sw_gross x y n) in *. clearbody i g e. repeat split; auto. lia.
  - intros ((H0 & Ha & Hb & Hc & Hd) & -> & -> & ->). rewrite gross_eq in * by assumption. rewrite sw_comm_eq.
    set (i := sw_ideal x y n) in *. set (g := sw_gross x y n) in *. clearbody i g e. repeat split; auto. lia.
Qed.

Lemma scale_0 a b : a <= b -> 10 ^ (a - b) = 1.
Proof. intros H. replace (a - b) with 0 by lia. reflexivity. Qed.

Lemma limits_iff bp ms n r sp od ad : n < B128 -> r < B128 -> sp < B128 -> fits bp -> fits ms ->
  assert_max_spread bp ms n r sp od ad = Ok tt <-> within od ad n r sp bp ms.
Proof.
  intros Hn Hr Hs Fb Fm. change (2 ^ 128) with B128 in *.
  assert (Hb' : forall x, bp = Some x -> x < B128) by (intros x ->; exact Fb).
  assert (Hm' : forall x, ms = Some x -> x < B128) by (intros x ->; exact Fm).
  assert (N0 : forall o0 r0 s0, normalize_decimals n r sp od ad = Ok (o0, r0, s0) -> decimals_fit od ad n r sp).
  { intros o0 r0 s0 E. apply (no_limit_iff None). unfold assert_max_spread. rewrite E. reflexivity. }
  split.
  - intros H. pose proof H as H0. apply assert_max_spread_ok in H as (o & r0 & s0 & E & H); auto.
    split; [eapply N0; exact E|]. destruct ms as [m|]; [|exact I].
    pose proof E as E1. apply normalize_ok in E1 as (-> & -> & -> & Ho & Hr0 & Hs0); auto.
    destruct bp as [b|].
    + destruct H as [Hb H]. split; [exact Hb|]. cbv zeta in *. change (10 ^ 18) with D18 in *. change (2 ^ 256) with B256.
      destruct H as [H|H]; [left; exact H|]. right. split; [|exact H].
      unfold assert_max_spread in H0. rewrite E in H0. cbn [rbind] in H0.
      rewrite !d256_from_decimal_id in H0 by auto. cbn [rbind] in H0.
      apply rbind_ok in H0 as (e & E1 & H0). apply ui256_div_dec_ok in E1 as (-> & _ & _).
      set (e := n * 10 ^ (ad - od) * D18 / b) in *. clearbody e. set (q := r * 10 ^ (od - ad)) in *. clearbody q.
      destruct (N.ltb_spec q e) as [L|L]; [|replace (e - q) with 0 by lia; reflexivity].
      apply rbind_ok in H0 as (z & E2 & H0). apply ui256_sub_ok in E2 as [-> _].
      apply rbind_ok in H0 as (y & E3 & H0). apply d256_from_ratio_ok in E3 as (_ & _ & E3). exact E3.
    + change (10 ^ 18) with D18. assert (P : 10 ^ (od - ad) <> 0) by (apply N.pow_nonzero; discriminate).
      set (k := 10 ^ (od - ad)) in *. clearbody k. destruct H as [H1 H2]. split; [nia|].
      rewrite <- N.mul_add_distr_r in *. apply (N.mul_lt_mono_pos_r k); [lia|]. nia.
  - intros [Hf H]. apply (no_limit_iff None) in Hf. unfold assert_max_spread in Hf.
    destruct (normalize_decimals n r sp od ad) as [[[o r0] s0]|] eqn:E; [|discriminate]. clear Hf N0.
    eapply assert_max_spread_complete; [| | | | |exact E|]; auto.
    apply normalize_ok in E as (-> & -> & -> & Ho & Hr0 & Hs0); auto. destruct ms as [m|]; [|exact I].
    destruct bp as [b|]; [exact H|].
    change (10 ^ 18) with D18 in H. assert (P : 10 ^ (od - ad) <> 0) by (apply N.pow_nonzero; discriminate).
    set (k := 10 ^ (od - ad)) in *. clearbody k. destruct H as [H1 H2]. split; [nia|].
    rewrite <- N.mul_add_distr_r. nia.
Qed.

Section quotes.
  Context (C : chain) (OK : chain_ok C).
  Local Notation A := (ch_api C).

  Lemma query_pools_sides w p st o ai od ad : sane C w -> pair_at w p st -> sides A st o ai od ad -> live w o -> live w ai ->
    holds w p o < B128 -> holds w p ai < B128 ->
    query_pools A (base_querier C w) st p = Ok (Asset o (holds w p o), Asset ai (holds w p ai)) \/
    query_pools A (base_querier C w) st p = Ok (Asset ai (holds w p ai), Asset o (holds w p o)).
  Proof.
    intros Sn Hp Hs Lo La Ro Ra. rewrite query_pools_base. pose proof (sane_norm C OK _ _ _ Sn Hp) as Np. unfold query_pools.
    destruct Hs as [(R1 & R2 & _)|(R1 & R2 & _)]; apply named_normal in R1, R2; rewrite R1, R2; cbn [rbind]; rewrite !(query_pool_live C OK) by auto; cbn [rbind]; auto.
  Qed.

  Lemma sim_ok w p st o ai od ad n r sp c : sane C w -> pair_at w p st -> human A (r_contract_addr st) = Some p ->
    sides A st o ai od ad -> o <> ai -> live w o -> live w ai ->
    n < B128 -> holds w p o < B128 -> holds w p ai < B128 -> compute_swap (holds w p o) (holds w p ai) n = Ok (r, sp, c) ->
    ask_simulate C w p (Asset o n) = Ok (Simulation r sp c).
  Proof.
    intros Sn Hp Hh Hs Hne Lo La Rn Ro Ra Hc. unfold ask_simulate, contract_at. rewrite (sane_norm C OK _ _ _ Sn Hp). cbn [oget rbind].
    pose proof Hp as Hi. apply state_at_inst in Hi as (adm & Hi). rewrite Hi. cbn [oget rbind i_state].
    unfold pair_query_simulation. cbn [a_amount a_info]. unfold u128_ok. rewrite (proj2 (N.ltb_lt _ _) Rn). cbn [negb].
    rewrite (proj2 (addr_humanize_ok A _ p) Hh). cbn [rbind].
    destruct (query_pools_sides w p st o ai od ad) as [-> | ->]; auto; cbn [rbind a_info a_amount].
    - rewrite (proj2 (info_equal_spec o o) eq_refl). cbn [rbind a_amount]. rewrite Hc. reflexivity.
    - destruct (info_equal o ai) eqn:E; [apply info_equal_spec in E; congruence|].
      rewrite (proj2 (info_equal_spec o o) eq_refl). cbn [rbind a_amount]. rewrite Hc. reflexivity.
  Qed.

  Lemma reverse_inv w p st o ai od ad n r sp c : sane C w -> pair_at w p st -> human A (r_contract_addr st) = Some p ->
    sides A st o ai od ad -> o <> ai -> live w o -> live w ai ->
    ask_reverse C w p (Asset ai n) = Ok (ReverseSimulation r sp c) ->
    n < B128 /\ holds w p o < B128 /\ holds w p ai < B128 /\ compute_offer_amount (holds w p o) (holds w p ai) n = Ok (r, sp, c).
  Proof.
    intros Sn Hp Hh Hs Hne Lo La H. unfold ask_reverse, contract_at in H. rewrite (sane_norm C OK _ _ _ Sn Hp) in H. cbn [oget rbind] in H.
    pose proof Hp as Hi. apply state_at_inst in Hi as (adm & Hi). rewrite Hi in H. cbn [oget rbind i_state] in H.
    unfold pair_query_reverse_simulation in H. cbn [a_amount a_info] in H. unfold u128_ok in H. destruct (N.ltb_spec n B128); [|discriminate]. cbn [negb] in H.
    apply rbind_ok in H as (self & E & H). apply addr_humanize_ok in E. rewrite Hh in E. injection E as <-.
    apply rbind_ok in H as (y & Hy & H). rewrite query_pools_base in Hy.
    apply (pools_inv C OK w p st y o ai od ad) in Hy as (Ro & Ra & Hy); auto. split; [assumption|]. split; [assumption|]. split; [assumption|].
    destruct Hy as [[-> _]|[-> _]]; cbn [a_info a_amount] in H.
    - destruct (info_equal ai o) eqn:E; [apply info_equal_spec in E; congruence|].
      rewrite (proj2 (info_equal_spec ai ai) eq_refl) in H. cbn [rbind a_amount] in H.
      apply rbind_ok in H as ([[r' s'] c'] & E1 & H). injection H as -> -> ->. exact E1.
    - rewrite (proj2 (info_equal_spec ai ai) eq_refl) in H. cbn [rbind a_amount] in H.
      apply rbind_ok in H as ([[r' s'] c'] & E & H). injection H as -> -> ->. exact E.
  Qed.

  Lemma known_pair w f fs o pi : sane C w -> fac_at w f fs -> factory_query_pair A fs (op_offer o, op_ask o) = Ok pi ->
    q_pair_info (wq C w) f (op_offer o, op_ask o) = Ok pi.
  Proof.
    intros Sn Hf Hq. cbn [wq q_pair_info]. unfold ask_pair_info, contract_at. rewrite (sane_norm C OK _ _ _ Sn Hf). cbn [oget rbind].
    pose proof Hf as Hi. apply state_at_inst in Hi as (adm & Hi). rewrite Hi. exact Hq.
  Qed.

  (** what one hop of a forward and of a backward quote computes *)
  Lemma hop_quote_value w f fs o : reachable C w -> fac_at w f fs -> tradable C w fs o ->
    exists x y, (forall n r, hop_quote (wq C w) f o n r -> x < B128 /\ y < B128 /\ n < B128 /\ x <> 0 /\ r = sw_gross x y n - sw_comm (sw_gross x y n)) /\
      (forall n r, hop_reverse_quote (wq C w) f o n r -> n < B128 /\ x <> 0 /\ r < B128 /\
        sw_gross x y r <= ro_gross n).
  Proof.
    intros Hr Hf (Hne & Lo & La & pi & st & od & ad & Hq & Hp & Hs). pose proof (main_sane C w (reachable_main C OK w Hr)) as Sn.
    pose proof (known_pair w f fs o pi Sn Hf Hq) as Hk. pose proof (reachable_pair C OK w _ st Hr Hp) as Hh.
    exists (holds w (p_contract_addr pi) (op_offer o)), (holds w (p_contract_addr pi) (op_ask o)). split.
    - intros n r (pi' & s & E1 & E2 & ->). rewrite Hk in E1. injection E1 as <-. destruct s as [r sp c]. cbn [s_return].
      apply (sim_inv C OK w _ st (op_offer o) (op_ask o) od ad) in E2 as (Rn & Ro & Ra & Hc); auto.
      apply swap_answer in Hc as (H0 & -> & _); auto.
    - intros n r (pi' & s & E1 & E2 & ->). rewrite Hk in E1. injection E1 as <-. destruct s as [r sp c]. cbn [rs_offer].
      apply (reverse_inv w _ st (op_offer o) (op_ask o) od ad) in E2 as (Rn & Ro & Ra & Hc); auto.
      apply compute_offer_ok in Hc as (H0 & Hb & Hle & Ho & HoB & _); auto. split; [exact Rn|]. split; [exact H0|]. split; [exact HoB|].
      eapply quote_gross_le; eauto.
  Qed.

  Lemma quotes_app Q f ops1 : forall a ops2 r, quotes Q f a (ops1 ++ ops2) r -> exists b, quotes Q f a ops1 b /\ quotes Q f b ops2 r.
  Proof.
    induction ops1 as [|o ops1 IH]; intros a ops2 r H.
    - exists a. split; [constructor|exact H].
    - cbn [app] in H. inversion H as [|? ? b ? ? H1 H2]; subst. apply IH in H2 as (d & H2 & H3). exists d. split; [econstructor; eauto|exact H3].
  Qed.

  Lemma quotes_mono w f fs ops : reachable C w -> fac_at w f fs -> (forall o, In o ops -> tradable C w fs o) ->
    forall a a' r r', a <= a' -> quotes (wq C w) f a ops r -> quotes (wq C w) f a' ops r' -> r <= r'.
  Proof.
    intros Hr Hf. induction ops as [|o ops IH]; intros Ht a a' r r' L H H'.
    - inversion H; inversion H'; subst. exact L.
    - inversion H as [|? ? b ? ? H1 H2]; inversion H' as [|? ? b' ? ? H1' H2']; subst.
      destruct (hop_quote_value w f fs o Hr Hf (Ht o (or_introl eq_refl))) as (x & y & V & _).
      apply V in H1 as (_ & _ & _ & Hx & ->). apply V in H1' as (_ & _ & _ & _ & ->).
      eapply IH; [|eapply net_mono, gross_mono_offer; [exact Hx|exact L]|exact H2|exact H2'].
      intros u Hu. apply Ht. right. exact Hu.
  Qed.

  Lemma reverse_under w f fs ops : reachable C w -> fac_at w f fs -> (forall o, In o ops -> tradable C w fs o) ->
    forall a c r, reverse_quotes (wq C w) f a ops c -> quotes (wq C w) f c ops r -> r <= a.
  Proof.
    intros Hr Hf Ht a c r H. revert r. induction H as [a|a o b ops c H1 H2 IH]; intros r Hq.
    - inversion Hq; subst. lia.
    - apply quotes_app in Hq as (m & Q1 & Q2). inversion Q2 as [|? ? d ? ? Hh Hn]; subst. inversion Hn; subst.
      assert (L : m <= b). { apply IH; [|exact Q1]. intros u Hu. apply Ht. apply in_or_app. left. exact Hu. }
      destruct (hop_quote_value w f fs o Hr Hf) as (x & y & V & V'). { apply Ht. apply in_or_app. right. left. reflexivity. }
      apply V in Hh as (_ & _ & _ & Hx & ->). apply V' in H1 as (_ & _ & _ & Hg).
      etransitivity; [|apply (net_of_quote_le a)]. apply net_mono. etransitivity; [apply gross_mono_offer; [exact Hx|exact L]|exact Hg].
  Qed.
End quotes.

(** ** C56 *)

(** Offering less never brings more, over whole routes. *)
Theorem C56_route_quote_monotone C w rst f fs ops a a' r r' : chain_ok C -> reachable C w ->
  human (ch_api C) rst = Some f -> fac_at w f fs -> (forall o, In o ops -> tradable C w fs o) ->
  router_simulate (ch_api C) (wq C w) rst a ops = Ok r -> router_simulate (ch_api C) (wq C w) rst a' ops = Ok r' ->
  a <= a' -> r <= r'.
Proof.
  intros OK Hr Hh Hf Ht H H' L. apply C31_simulation_composes in H as (_ & _ & g & Hg & H). apply C31_simulation_composes in H' as (_ & _ & g' & Hg' & H').
  rewrite Hh in Hg, Hg'. injection Hg as <-. injection Hg' as <-. eapply quotes_mono; eauto.
Qed.

(** The offer that a reverse route quote names for [a] never brings more than
    [a], over whole routes: reverse quotes err on the low side only. *)
Theorem C56_reverse_route_never_over C w rst f fs ops a o r : chain_ok C -> reachable C w ->
  human (ch_api C) rst = Some f -> fac_at w f fs -> (forall o, In o ops -> tradable C w fs o) ->
  router_reverse_simulate (ch_api C) (wq C w) rst a ops = Ok o ->
  router_simulate (ch_api C) (wq C w) rst o ops = Ok r -> r <= a.
Proof.
  intros OK Hr Hh Hf Ht H H'. apply C31_reverse_simulation_composes in H as (_ & _ & g & Hg & H). apply C31_simulation_composes in H' as (_ & _ & g' & Hg' & H').
  rewrite Hh in Hg, Hg'. injection Hg as <-. injection Hg' as <-. eapply reverse_under; eauto.
Qed.

(** ** C57 *)

Theorem C57_pool_query_is_truth C w p st i0 i1 lp ts v : chain_ok C -> reachable C w -> pair_at w p st ->
  assets_are C st i0 i1 -> live w i0 -> live w i1 ->
  human (ch_api C) (r_liquidity_token st) = Some lp -> tok_at w lp ts ->
  pair_query_pool (ch_api C) (base_querier C w) st = Ok v <->
  holds w p i0 < 2 ^ 128 /\ holds w p i1 < 2 ^ 128 /\ v = (Asset i0 (holds w p i0), Asset i1 (holds w p i1), tk_supply ts).
Proof.
  intros OK Hr Hp Ha L0 L1 Hl Ht. pose proof (main_sane C w (reachable_main C OK w Hr)) as Sn. pose proof (reachable_pair C OK w p st Hr Hp) as Hh.
  unfold pair_query_pool. rewrite (proj2 (addr_humanize_ok (ch_api C) _ p) Hh). cbn [rbind]. rewrite query_pools_base.
  assert (Hi : q_token_info (base_querier C w) lp = Ok (TokenInfo (tk_name ts) (tk_symbol ts) (tk_decimals ts) (tk_supply ts))).
  { cbn [base_querier q_token_info]. unfold ask_token_info, contract_at. rewrite (sane_norm C OK _ _ _ Sn Ht). cbn [oget rbind].
    pose proof Ht as Hi. apply state_at_inst in Hi as (adm & Hi). rewrite Hi. reflexivity. }
  split.
  - intros H. apply rbind_ok in H as (x & Hx & H). apply (pools_are C OK w p st i0 i1) in Hx as (H0 & H1 & ->); auto.
    rewrite (proj2 (addr_humanize_ok (ch_api C) _ lp) Hl) in H. cbn [rbind] in H. rewrite Hi in H. injection H as <-. auto.
  - intros (H0 & H1 & ->). rewrite (proj2 (pools_are C OK w p st i0 i1 _ Sn Hp Ha L0 L1) (conj H0 (conj H1 eq_refl))). cbn [rbind].
    rewrite (proj2 (addr_humanize_ok (ch_api C) _ lp) Hl). cbn [rbind]. rewrite Hi. reflexivity.
Qed.

Theorem C57_simulation_is_formula C w p st o ai od ad n r sp c : chain_ok C -> reachable C w -> pair_at w p st ->
  sides (ch_api C) st o ai od ad -> o <> ai -> live w o -> live w ai ->
  let x := holds w p o in let y := holds w p ai in
  ask_simulate C w p (Asset o n) = Ok (Simulation r sp c) <->
  n < 2 ^ 128 /\ x < 2 ^ 128 /\ y < 2 ^ 128 /\ priced x y n /\
  r = gross x y n - fee (gross x y n) /\ sp = at_price x y n - gross x y n /\ c = fee (gross x y n).
Proof.
  intros OK Hr Hp Hs Hne Lo La x y. pose proof (main_sane C w (reachable_main C OK w Hr)) as Sn. pose proof (reachable_pair C OK w p st Hr Hp) as Hh.
  split.
  - intros H. apply (sim_inv C OK w p st o ai od ad) in H as (Rn & Ro & Ra & Hc); auto. apply compute_swap_iff in Hc; auto.
  - intros (Rn & Ro & Ra & Hc). eapply (sim_ok C OK w p st o ai od ad); auto. apply compute_swap_iff; auto.
Qed.

(** ** C58 *)

Section swaps.
  Context (C : chain) (OK : chain_ok C) (w : world) (p : string) (st : pair_info_raw) (t : string) (ai : asset_info) (od ad : N) (s : string).
  Local Notation A := (ch_api C).
  Context (Sn : sane C w) (Hp : pair_at w p st) (Hs : sides A st (Token t) ai od ad) (Hne : Token t <> ai)
    (Lt : live w (Token t)) (La : live w ai) (Hsp : s <> p) (Ns : norm A s = Some s).

  Lemma swap_tx_inv n bp ms to f w' x lg :
    exec C f w s (MExecute t (JSend p n (HSwap bp ms to)) []) = Ok (w', x, lg) ->
    exists r sp c, 0 < n /\ n <= holds w s (Token t) /\ n < B128 /\ holds w p (Token t) < B128 /\ holds w p ai < B128 /\ fits bp /\ fits ms /\
      (forall z, to = Some z -> norm A z = Some z) /\
      compute_swap (holds w p (Token t)) (holds w p ai) n = Ok (r, sp, c) /\ assert_max_spread bp ms n r sp od ad = Ok tt /\
      settled w w' [(Token t, s, p, n); (ai, p, default s to, r)].
  Proof.
    intros E. apply (send_inv C OK) in E as (w1 & f' & lg' & att & P1 & S1 & Hn & _ & _ & E & _); auto.
    assert (H1 : holds w1 p (Token t) = holds w p (Token t) + n).
    { pose proof (pd_holds _ _ _ _ _ _ P1 p (Token t)) as Y. destruct (decide (p = s /\ _)) as [[? _]|_]; [congruence|].
      rewrite decide_True in Y by auto. lia. }
    assert (H2 : holds w1 p ai = holds w p ai) by (eapply paid_other; [eassumption|congruence|congruence]).
    assert (V : fits bp /\ fits ms /\ forall z, to = Some z -> norm A z = Some z).
    { destruct f' as [|f']; [rewrite exec_0 in E; discriminate|]. rewrite exec_eq in E.
      pose proof (paid_pair _ _ _ _ _ _ _ _ P1 Hp) as Hp1. rewrite (sane_norm C OK _ _ _ S1 Hp1) in E. cbn [oget rbind] in E. rewrite bank_send_none in E. cbn [rbind] in E.
      pose proof Hp1 as Hi. apply state_at_inst in Hi as (adm & Hi). rewrite Hi in E. cbn [oget rbind i_state call] in E.
      apply rbind_ok in E as ([s' rsp] & Ec & E). apply rbind_ok in Ec as ([st' rsp'] & Ec & X).
      apply receive_swap_inv in Ec as (y & to' & _ & B1 & B2 & _ & _ & _ & V & _).
      assert (F : forall o, ou128_ok o = true -> fits o). { intros [v|] B; [|exact I]. cbn in B. unfold u128_ok in B. apply N.ltb_lt in B. exact B. }
      auto. }
    destruct V as (V1 & V2 & V3).
    apply (swap_recv_inv C OK f' w1 t p s n bp ms to st ai od ad) in E as (r & sp & c & rcv' & lg2 & Hle & Rn & Ro & Ra & Hc & Hm & Hn' & P2 & _ & _); auto;
      [|eapply paid_pair; eauto|eapply paid_live; eauto|eapply paid_live; eauto].
    rewrite H1, H2 in Hc. replace (holds w p (Token t) + n - n) with (holds w p (Token t)) in Hc by lia. rewrite H1 in Ro. rewrite H2 in Ra.
    exists r, sp, c. split; [exact Hn|]. split; [exact (pd_have _ _ _ _ _ _ P1)|]. split; [exact Rn|]. split; [lia|]. split; [exact Ra|].
    do 5 (split; [assumption|]).
    apply (settled_app _ _ _ [_] [_] (paid_settled _ _ _ _ _ _ P1)).
    destruct Hn' as [Hn'| ->].
    + assert (rcv' = default s to) as ->. { destruct to as [z|]; [rewrite (V3 z eq_refl) in Hn'|rewrite Ns in Hn']; injection Hn' as <-; reflexivity. }
      apply paid_settled. exact P2.
    + intros x' j. pose proof (pd_holds _ _ _ _ _ _ P2 x' j). cbn [left_ arrived fold_right]. repeat destruct (decide _); lia.
  Qed.

  Lemma swap_tx_ok n bp ms to r sp c : 0 < n -> n <= holds w s (Token t) -> holds w p ai < B128 -> fits bp -> fits ms ->
    (forall z, to = Some z -> norm A z = Some z) ->
    compute_swap (holds w p (Token t)) (holds w p ai) n = Ok (r, sp, c) -> assert_max_spread bp ms n r sp od ad = Ok tt ->
    exists w', succeeds C w s (MExecute t (JSend p n (HSwap bp ms to)) []) w'.
  Proof.
    intros Hn Hh Ra Fb Fm Hto Hc Hm. pose proof (sane_norm C OK _ _ _ Sn Hp) as Np.
    assert (Rn : n < B128) by (pose proof (holds_range C w t s Sn Lt); lia).
    destruct (send_ok C OK w s t p n (HSwap bp ms to) Sn Lt Np Hn Rn Hh) as (w1 & P1 & S1 & K).
    assert (H1 : holds w1 p (Token t) = holds w p (Token t) + n).
    { pose proof (pd_holds _ _ _ _ _ _ P1 p (Token t)) as X. destruct (decide (p = s /\ _)) as [[? _]|_]; [congruence|].
      rewrite decide_True in X by auto. lia. }
    assert (H2 : holds w1 p ai = holds w p ai) by (eapply paid_other; [eassumption|congruence|congruence]).
    assert (F : forall o, fits o -> ou128_ok o = true). { intros [v|] B; [|reflexivity]. cbn. unfold u128_ok. apply N.ltb_lt. exact B. }
    destruct (swap_recv_ok_gen C OK w1 t p s n bp ms to st ai od ad r sp c) as (w' & Hw); auto.
    - eapply paid_pair; eauto.
    - eapply paid_live; eauto.
    - eapply paid_live; eauto.
    - lia.
    - rewrite H2. exact Ra.
    - destruct to as [z|]; [apply Hto; reflexivity|exact Ns].
    - rewrite H1, H2. replace (holds w p (Token t) + n - n) with (holds w p (Token t)) by lia. exact Hc.
    - exists w'. apply (succeeds_plus C w s _ w' 6). intros f. apply (K 3%nat w'). exact Hw.
  Qed.
End swaps.

(** What a swap does, whatever its limits. *)
Theorem C58_swap_effect C w p st t ai od ad s n bp ms to f w' x lg : chain_ok C -> reachable C w -> pair_at w p st ->
  sides (ch_api C) st (Token t) ai od ad -> Token t <> ai -> live w (Token t) -> live w ai -> s <> p -> norm (ch_api C) s = Some s ->
  exec C f w s (MExecute t (JSend p n (HSwap bp ms to)) []) = Ok (w', x, lg) ->
  let g := gross (holds w p (Token t)) (holds w p ai) n in
  settled w w' [(Token t, s, p, n); (ai, p, default s to, g - fee g)].
Proof.
  intros OK Hr Hp Hs Hne Lt La Hsp Ns E g. pose proof (main_sane C w (reachable_main C OK w Hr)) as Sn.
  apply (swap_tx_inv C OK w p st t ai od ad s) in E as (r & sp & c & _ & _ & Rn & Ro & Ra & _ & _ & _ & Hc & _ & H); auto.
  apply compute_swap_iff in Hc as (_ & -> & _); auto.
Qed.

(** Exactly which swaps are executed. *)
Theorem C58_swap_iff C w p st t ai od ad s n bp ms to : chain_ok C -> reachable C w -> pair_at w p st ->
  sides (ch_api C) st (Token t) ai od ad -> Token t <> ai -> live w (Token t) -> live w ai -> s <> p -> norm (ch_api C) s = Some s ->
  let x := holds w p (Token t) in let y := holds w p ai in
  let g := gross x y n in
  (exists w', succeeds C w s (MExecute t (JSend p n (HSwap bp ms to)) []) w') <->
  0 < n <= holds w s (Token t) /\ y < 2 ^ 128 /\ fits bp /\ fits ms /\ (forall z, to = Some z -> norm (ch_api C) z = Some z) /\
  priced x y n /\ within od ad n (g - fee g) (at_price x y n - g) bp ms.
Proof.
  intros OK Hr Hp Hs Hne Lt La Hsp Ns x y g. pose proof (main_sane C w (reachable_main C OK w Hr)) as Sn.
  pose proof (holds_range C w t p Sn Lt) as Rx. fold x in Rx.
  assert (B : priced x y n -> y < B128 -> g - fee g < B128 /\ at_price x y n - g < B128).
  { intros (X0 & _ & _ & X) Ry. assert (G : g <= y) by (unfold g; rewrite gross_eq by exact X0; apply sw_gross_le).
    change (2 ^ 128) with B128 in X. fold g in X. set (i := at_price x y n) in *. clearbody i. set (q := fee g). clearbody q. lia. }
  split.
  - intros (w' & k & Hk). destruct (Hk k (Nat.le_refl k)) as (lg & E).
    apply (swap_tx_inv C OK w p st t ai od ad s) in E as (r & sp & c & Hn & Hle & Rn & Ro & Ra & Fb & Fm & Hto & Hc & Hm & _); auto.
    fold x y in Hc. apply compute_swap_iff in Hc as (Pr & -> & -> & ->); auto. fold g in Hm. destruct (B Pr Ra) as [B1 B2].
    apply limits_iff in Hm; auto. repeat (split; [auto; fail|]). exact Hm.
  - intros ([Hn Hle] & Ra & Fb & Fm & Hto & Pr & Hw). destruct (B Pr Ra) as [B1 B2].
    assert (Rn : n < B128) by (pose proof (holds_range C w t s Sn Lt); lia).
    eapply (swap_tx_ok C OK w p st t ai od ad s); eauto.
    + apply compute_swap_iff; auto.
    + apply limits_iff; auto.
Qed.

(** ** Examples *)

Example C56_case :
  let fs := fac_of ex_world "#0" in
  reachable ex_chain ex_world /\ human ex_api "#0" = Some "#0"%string /\ fac_at ex_world "#0" fs /\
  (forall o, In o ex_route -> tradable ex_chain ex_world fs o) /\
  router_reverse_simulate ex_api (wq ex_chain ex_world) "#0" 200000 ex_route = Ok 307989 /\
  router_simulate ex_api (wq ex_chain ex_world) "#0" 307989 ex_route = Ok 199996.
Proof.
  intros fs. destruct C55_case as (H1 & _ & H2 & H3 & H4 & _). repeat (split; [assumption|]).
  split; vm_compute; reflexivity.
Qed.

Example C57_case :
  reachable ex_chain ex_world /\ pair_at ex_world "#4" ex_pair4 /\ assets_are ex_chain ex_pair4 (Token "#1") (Native "uaura") /\
  human ex_api (r_liquidity_token ex_pair4) = Some "#5"%string /\ tok_at ex_world "#5" (tok_of ex_world "#5") /\
  pair_query_pool ex_api (base_querier ex_chain ex_world) ex_pair4 =
    Ok (Asset (Token "#1") 10000000, Asset (Native "uaura") 20000000, 14142135) /\
  ask_simulate ex_chain ex_world "#4" (Asset (Token "#1") 10000) = Ok (Simulation 19921 20 59).
Proof.
  split; [exact ex_reachable|]. split; [exact ex_pair4_at|]. split; [split; vm_compute; reflexivity|]. split; [vm_compute; reflexivity|].
  split; [apply tok_of_at; vm_compute; reflexivity|]. split; vm_compute; reflexivity.
Qed.

(** Believing in a price of 1/2, 10000 should bring 20000; they bring 19921,
    0.395 percent less.  A limit of 0.5 percent accepts this, one of 0.3 percent
    does not. *)
Example C58_case :
  let sw m := (false, x_call "#1" (JSend "#4" 10000 (HSwap (Some (5 * 10 ^ 17)) (Some m) None))) in
  reachable ex_chain ex_world /\ pair_at ex_world "#4" ex_pair4 /\
  sides ex_api ex_pair4 (Token "#1") (Native "uaura") 6 6 /\ live ex_world (Token "#1") /\ norm ex_api "bob" = Some "bob"%string /\
  gross 10000000 20000000 10000 = 19980 /\ fee 19980 = 59 /\ at_price 10000000 20000000 10000 = 20000 /\
  within 6 6 10000 19921 20 (Some (5 * 10 ^ 17)) (Some (5 * 10 ^ 15)) /\
  ~ within 6 6 10000 19921 20 (Some (5 * 10 ^ 17)) (Some (3 * 10 ^ 15)) /\
  is_ok (script ex_world [sw (5 * 10 ^ 15)]) = true /\ is_ok (script ex_world [sw (3 * 10 ^ 15)]) = false.
Proof.
  intros sw. split; [exact ex_reachable|]. split; [exact ex_pair4_at|]. split; [left; vm_compute; auto|].
  split; [exists (tok_of ex_world "#1"); apply tok_of_at; vm_compute; reflexivity|].
  do 4 (split; [vm_compute; reflexivity|]).
  split. { split; [split; intros X; vm_compute in X; discriminate|]. split; [discriminate|]. right. split; vm_compute; reflexivity. }
  split. { intros [_ [_ H]]. destruct H as [H|[_ H]]; vm_compute in H; [apply H; reflexivity|discriminate]. }
  split; vm_compute; reflexivity.
Qed.
