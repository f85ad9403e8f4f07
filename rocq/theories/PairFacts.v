(** Inversion of the pair's handlers. *)
From Verif Require Import Base BigNumber CwStd BigNumberFacts Asset Messages PairMath SwapFacts SwapFacts2 Pair.
From Coq Require Import ZifyN.
Local Open Scope N_scope.
Ltac Zify.zify_post_hook ::= idtac.

Lemma addr_validate_ok A s v : addr_validate A s = Ok v <-> v = s /\ norm A s = Some s.
Proof.
  unfold addr_validate, addr_canonicalize, addr_humanize, norm. destruct (canon A s); cbn; [|split; [discriminate|intros [_ ?]; discriminate]].
  destruct (human A s0) as [h|]; cbn; [|split; [discriminate|intros [_ ?]; discriminate]].
  destruct (bool_decide (h = s)) eqn:D; bools; split.
  - intros H; inv_ok; subst; auto.
  - intros [-> _]. reflexivity.
  - discriminate.
  - intros [_ H]. congruence.
Qed.
Lemma addr_humanize_ok A s v : addr_humanize A s = Ok v <-> human A s = Some v.
Proof. apply oget_ok. Qed.
Lemma addr_canonicalize_ok A s v : addr_canonicalize A s = Ok v <-> canon A s = Some v.
Proof. apply oget_ok. Qed.

(** What the pair may assume of answers: integers in their JSON range. *)
Definition querier_ranges (Q : querier) : Prop :=
  (forall a d v, q_balance Q a d = Ok v -> v < B128) /\
  (forall t a v, q_token_balance Q t a = Ok v -> v < B128) /\
  (forall t v, q_token_info Q t = Ok v -> ti_total_supply v < B128).

(** [reserve_is A Q self raw i a]: the stored asset [raw] is asset [i], of which
    the account [self] holds [a] according to the chain. *)
Definition reserve_is (A : api) (Q : querier) (self : string) (raw : asset_info_raw)
    (i : asset_info) (a : N) : Prop :=
  match raw with
  | TokenRaw c => exists t, human A c = Some t /\ i = Token t /\ q_token_balance Q t self = Ok a
  | NativeRaw d => i = Native d /\ q_balance Q self d = Ok a
  end.

Lemma reserve_is_range A Q self raw i a : querier_ranges Q -> reserve_is A Q self raw i a -> a < B128.
Proof.
  intros (H1 & H2 & _). destruct raw as [c|d]; cbn.
  - intros (t & _ & _ & E). eauto.
  - intros [_ E]. eauto.
Qed.

Lemma query_pools_ok A Q st self x : query_pools A Q st self = Ok x ->
  reserve_is A Q self (r_asset_infos st).1 (a_info x.1) (a_amount x.1) /\
  reserve_is A Q self (r_asset_infos st).2 (a_info x.2) (a_amount x.2).
Proof.
  unfold query_pools. intros H. inv_ok. cbn [fst snd a_info a_amount].
  assert (X : forall raw i a, raw_to_normal A raw = Ok i -> query_pool A Q i self = Ok a ->
    reserve_is A Q self raw i a).
  { intros [c|d] i a E3 E4; cbn in E3; inv_ok; cbn in E4; inv_ok.
    - apply addr_validate_ok in E3 as [-> _]. apply addr_humanize_ok in E5. cbn. exists v3. auto.
    - split; auto. }
  split; eapply X; eassumption.
Qed.

Lemma info_equal_spec a b : info_equal a b = true <-> a = b.
Proof.
  destruct a, b; cbn; try (split; congruence);
    rewrite bool_decide_eq_true; split; congruence.
Qed.

Lemma info_equal_false a b : info_equal a b = false -> a <> b.
Proof. intros H E. apply info_equal_spec in E. congruence. Qed.

Lemma u128_checked_sub_ok a b c : u128_checked_sub a b = Ok c <-> c = a - b /\ b <= a.
Proof.
  unfold u128_checked_sub. destruct (N.leb_spec b a); (split; [intros X; inv_ok; auto|intros (-> & ?); auto; try lia]).
Qed.

Lemma rsp_eq (p : pair_info_raw) m a st' rsp :
  Ok (p, Response m a) = Ok (st', rsp) -> st' = p /\ rs_msgs rsp = m /\ rs_attrs rsp = a.
Proof. intros H. injection H; intros; subst. auto. Qed.

Lemma swap_inv A Q self st funds sender offer bp ms to st' rsp :
  swap A Q self st funds sender offer bp ms to = Ok (st', rsp) ->
  exists x op ask_info ask od ad r s c,
    query_pools A Q st self = Ok x /\ st' = st /\
    ((a_info offer = a_info x.1 /\ a_amount offer <= a_amount x.1 /\
      op = a_amount x.1 - a_amount offer /\ ask_info = a_info x.2 /\ ask = a_amount x.2 /\
      od = (r_asset_decimals st).1 /\ ad = (r_asset_decimals st).2) \/
     (a_info offer <> a_info x.1 /\ a_info offer = a_info x.2 /\ a_amount offer <= a_amount x.2 /\
      op = a_amount x.2 - a_amount offer /\ ask_info = a_info x.1 /\ ask = a_amount x.1 /\
      od = (r_asset_decimals st).2 /\ ad = (r_asset_decimals st).1)) /\
    compute_swap op ask (a_amount offer) = Ok (r, s, c) /\
    assert_max_spread bp ms (a_amount offer) r s od ad = Ok tt /\
    rs_msgs rsp = (if r =? 0 then []
      else [plain (into_msg (Asset ask_info r) (match to with Some t => t | None => sender end))]) /\
    rs_attrs rsp =
       [("action", "swap"); ("sender", sender);
        ("receiver", match to with Some t => t | None => sender end);
        ("offer_asset", info_to_string (a_info offer));
        ("ask_asset", info_to_string ask_info);
        ("offer_amount", dec_to_string (a_amount offer));
        ("return_amount", dec_to_string r);
        ("spread_amount", dec_to_string s);
        ("commission_amount", dec_to_string c)]%string.
Proof.
  unfold swap. intros H.
  apply rbind_ok in H as (_ & _ & H).
  apply rbind_ok in H as ([x y] & E & H).
  apply rbind_ok in H as ([[[op ask] od] ad] & E1 & H).
  apply rbind_ok in H as ([[r s] c] & E2 & H).
  apply rbind_ok in H as ([] & E3 & H).
  apply rsp_eq in H as (-> & Hm & Ha).
  exists (x, y), op, (a_info ask), (a_amount ask), od, ad, r, s, c.
  split; [assumption|]. split; [reflexivity|]. split; [|auto].
  cbn [fst snd].
  destruct (info_equal (a_info offer) (a_info x)) eqn:I1.
  - left. apply info_equal_spec in I1. inv_ok.
    apply u128_checked_sub_ok in E0 as [-> ?]. repeat split; auto.
  - right. apply info_equal_false in I1.
    destruct (info_equal (a_info offer) (a_info y)) eqn:I2; inv_ok.
    apply info_equal_spec in I2.
    apply u128_checked_sub_ok in E0 as [-> ?]. repeat split; auto.
Qed.

Lemma receive_swap_inv A Q self st caller funds sender amount bp ms to st' rsp :
  pair_execute A Q self st caller funds (JReceive sender amount (HSwap bp ms to)) = Ok (st', rsp) ->
  exists x to', amount < B128 /\ ou128_ok bp = true /\ ou128_ok ms = true /\
    query_pools A Q st self = Ok x /\
    (a_info x.1 = Token caller \/ a_info x.2 = Token caller) /\
    to' = to /\ (forall t, to = Some t -> norm A t = Some t) /\
    swap A Q self st funds sender (Asset (Token caller) amount) bp ms to' = Ok (st', rsp).
Proof.
  unfold pair_execute, pair_receive. cbn [jmsg_ranges hook_ranges].
  destruct (u128_ok amount) eqn:Ra; cbn [negb]; [|discriminate].
  destruct (ou128_ok bp && ou128_ok ms) eqn:Rb; cbn [negb]; [|discriminate].
  intros H. apply rbind_ok in H as ([x y] & E & H).
  apply rbind_ok in H as (? & E1 & H). inv_ok.
  unfold u128_ok in Ra. bools.
  exists (x, y), v. repeat split; auto.
  - apply orb_true_iff in E1. cbn. unfold is_token_at in E1.
    destruct E1 as [E1|E1]; [left|right]; destruct (a_info _); try discriminate; bools; subst; auto.
  - destruct to; inv_ok; auto.
    apply addr_validate_ok in E2 as [-> _]. reflexivity.
  - intros t ->. inv_ok. apply addr_validate_ok in E2 as [_ ?]. assumption.
Qed.

Lemma withdraw_inv A Q self st sender amount st' rsp :
  withdraw_liquidity A Q self st sender amount = Ok (st', rsp) ->
  exists x lp ti r0 r1, st' = st /\ query_pools A Q st self = Ok x /\
    human A (r_liquidity_token st) = Some lp /\ q_token_info Q lp = Ok ti /\
    refunds (a_amount x.1) (a_amount x.2) amount (ti_total_supply ti) = Ok (r0, r1) /\
    rs_msgs rsp = map plain [into_msg (Asset (a_info x.1) r0) sender;
      into_msg (Asset (a_info x.2) r1) sender; MExecute lp (JBurn amount) []].
Proof.
  unfold withdraw_liquidity. intros H.
  apply rbind_ok in H as (lp & L & H). apply rbind_ok in H as ([x y] & E & H).
  apply rbind_ok in H as (ti & TI & H). apply rbind_ok in H as ([r0 r1] & R & H).
  apply rbind_ok in H as (lp' & L' & H). rewrite L in L'. apply addr_humanize_ok in L. inv_ok.
  exists (x, y), lp', ti, r0, r1. cbn. repeat split; auto.
Qed.

Lemma receive_withdraw_inv A Q self st caller funds sender amount st' rsp :
  pair_execute A Q self st caller funds (JReceive sender amount HWithdrawLiquidity) = Ok (st', rsp) ->
  amount < B128 /\ canon A caller = Some (r_liquidity_token st) /\ norm A sender = Some sender /\
  withdraw_liquidity A Q self st sender amount = Ok (st', rsp).
Proof.
  unfold pair_execute, pair_receive. cbn [jmsg_ranges hook_ranges negb].
  destruct (u128_ok amount) eqn:Ra; cbn [negb]; [|discriminate].
  intros H. inv_ok. unfold u128_ok in Ra. bools. subst.
  apply addr_canonicalize_ok in E. apply addr_validate_ok in E1 as [-> ?]. auto.
Qed.

Lemma deposit_of_ok assets i d : deposit_of assets i = Ok d ->
  (a_info assets.1 = i /\ a_amount assets.1 = d) \/
  (a_info assets.1 <> i /\ a_info assets.2 = i /\ a_amount assets.2 = d).
Proof.
  unfold deposit_of.
  destruct (info_equal (a_info assets.1) i) eqn:E1.
  - intros H. inv_ok. apply info_equal_spec in E1. auto.
  - apply info_equal_false in E1.
    destruct (info_equal (a_info assets.2) i) eqn:E2; intros H'; inv_ok. apply info_equal_spec in E2. auto.
Qed.

Lemma pull_deposit_ok self sender pool d m p : pull_deposit self sender pool d = Ok (m, p) ->
  match a_info pool with
  | Token t => m = [MExecute t (JTransferFrom sender self d) []] /\ p = a_amount pool
  | Native _ => m = [] /\ p = a_amount pool - d /\ d <= a_amount pool
  end.
Proof.
  unfold pull_deposit. destruct (a_info pool); intros H; inv_ok; auto.
  apply u128_checked_sub_ok in E as [-> ?]. auto.
Qed.

(** All the ways provide_liquidity can succeed. *)
Lemma provide_inv A Q self st sender funds assets tol rcv st' rsp :
  provide_liquidity A Q self st sender funds assets tol rcv = Ok (st', rsp) ->
  exists x d0 d1 m0 p0 m1 p1 lp ti share,
    assert_sent_native assets.1 funds = Ok tt /\ assert_sent_native assets.2 funds = Ok tt /\
    st' = st /\ query_pools A Q st self = Ok x /\
    deposit_of assets (a_info x.1) = Ok d0 /\ deposit_of assets (a_info x.2) = Ok d1 /\
    pull_deposit self sender x.1 d0 = Ok (m0, p0) /\ pull_deposit self sender x.2 d1 = Ok (m1, p1) /\
    assert_slippage_tolerance tol (d0, d1) (p0, p1) = Ok tt /\
    human A (r_liquidity_token st) = Some lp /\ q_token_info Q lp = Ok ti /\
    share <> 0 /\
    (if ti_total_supply ti =? 0 then
       sender ∈ whitelist (r_requirements st) /\
       first_asset_minimum (r_requirements st) <= d0 /\ second_asset_minimum (r_requirements st) <= d1 /\
       initial_share d0 d1 = Ok share
     else later_share d0 d1 (ti_total_supply ti) p0 p1 = Ok share) /\
    rs_msgs rsp = map plain (m0 ++ m1 ++
      [MExecute lp (JMint (match rcv with Some r => r | None => sender end) share) []]).
Proof.
  unfold provide_liquidity. intros H.
  apply rbind_ok in H as ([] & S1 & H). apply rbind_ok in H as ([] & S2 & H).
  apply rbind_ok in H as ([x y] & E & H).
  apply rbind_ok in H as (d0 & D0 & H). apply rbind_ok in H as (d1 & D1 & H).
  apply rbind_ok in H as ([m0 p0] & P0 & H). apply rbind_ok in H as ([m1 p1] & P1 & H).
  apply rbind_ok in H as ([] & T & H).
  apply rbind_ok in H as (lp & L & H). apply rbind_ok in H as (ti & TI & H).
  apply rbind_ok in H as (share & SH & H). apply rbind_ok in H as (? & Z & H).
  apply rbind_ok in H as (lp' & L' & H). rewrite L in L'. inv_ok.
  unfold addr_humanize in L. inv_ok. bools.
  exists (x, y), d0, d1, m0, p0, m1, p1, lp', ti, share. cbn [fst snd].
  repeat split; auto.
  destruct (ti_total_supply ti =? 0); [|assumption].
  inv_ok. bools. apply orb_false_iff in E1 as [F1 F2]. bools. auto.
Qed.
