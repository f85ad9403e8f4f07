(** C09-C18: what a call to a pair does, for every querier, storage, caller,
    attached funds and message. *)
From Verif Require Import Base BigNumber CwStd BigNumberFacts Asset Messages PairMath SwapFacts SwapFacts2
  Pair PairFacts Examples.
From Coq Require Import ZifyN.
Local Open Scope N_scope.
Ltac Zify.zify_post_hook ::= idtac.

(** ** Vocabulary *)

(** [pays m i n who]: the message moves [n] units of asset [i] from the pair to
    [who], and nothing else. *)
Definition pays (m : submsg) (i : asset_info) (n : N) (who : string) : Prop :=
  sm_reply m = ReplyNever /\
  match i with
  | Token t => sm_msg m = MExecute t (JTransfer who n) []
  | Native d => sm_msg m = MBankSend who [Coin d n]
  end.

(** The answer to a swap of [amount] of the token [caller] against reserves
    [op] (before the offer arrived) and [ask]: return [r], spread [s],
    commission [c]; [od], [ad] are the decimals of the two assets. *)
Definition swapped (A : api) (Q : querier) (self : string) (st : pair_info_raw)
    (caller : string) (amount : N) (rcv : string) (rsp : response)
    (op ask r s c od ad : N) : Prop :=
  exists ia,
    ((reserve_is A Q self (r_asset_infos st).1 (Token caller) (op + amount) /\
      reserve_is A Q self (r_asset_infos st).2 ia ask /\ (od, ad) = r_asset_decimals st) \/
     (reserve_is A Q self (r_asset_infos st).2 (Token caller) (op + amount) /\
      reserve_is A Q self (r_asset_infos st).1 ia ask /\ (ad, od) = r_asset_decimals st)) /\
    compute_swap op ask amount = Ok (r, s, c) /\
    match rs_msgs rsp with
    | [] => r = 0
    | [m] => r <> 0 /\ pays m ia r rcv
    | _ => False
    end.

Definition receiver_or (o : option string) (d : string) : string :=
  match o with Some x => x | None => d end.

Lemma pays_into_msg i n who : pays (plain (into_msg (Asset i n) who)) i n who.
Proof. destruct i; split; reflexivity. Qed.

Lemma swapped_intro A Q self st caller funds sender amount bp ms to st' rsp :
  pair_execute A Q self st caller funds (JReceive sender amount (HSwap bp ms to)) = Ok (st', rsp) ->
  st' = st /\ amount < B128 /\ ou128_ok bp = true /\ ou128_ok ms = true /\
  (forall t, to = Some t -> norm A t = Some t) /\
  exists op ask r s c od ad,
    swapped A Q self st caller amount (receiver_or to sender) rsp op ask r s c od ad /\
    assert_max_spread bp ms amount r s od ad = Ok tt.
Proof.
  intros H. apply receive_swap_inv in H as (x & to' & Ha & Hb & Hm & Hx & Hauth & -> & Hto & H).
  apply swap_inv in H as (x' & op & ai & ask & od & ad & r & s & c & Hx' & -> & Hdir & Hc & Hms & Hmsg & _).
  rewrite Hx in Hx'. injection Hx' as <-.
  apply query_pools_ok in Hx as [R0 R1]. cbn [a_info a_amount] in *.
  repeat (split; [assumption || reflexivity|]).
  exists op, ask, r, s, c, od, ad. split; [|assumption].
  exists ai. split; [|split; [assumption|]].
  - destruct Hdir as [(E & L & -> & -> & -> & -> & ->)|(_ & E & L & -> & -> & -> & -> & ->)].
    + left. rewrite N.sub_add by assumption. rewrite E.
      split; [assumption|]. split; [assumption|]. destruct (r_asset_decimals st); reflexivity.
    + right. rewrite N.sub_add by assumption. rewrite E.
      split; [assumption|]. split; [assumption|]. destruct (r_asset_decimals st); reflexivity.
  - rewrite Hmsg. destruct (N.eqb_spec r 0); [assumption|]. split; [assumption|]. apply pays_into_msg.
Qed.

Lemma swapped_ranges A Q self st caller amount rcv rsp op ask r s c od ad :
  querier_ranges Q -> amount < B128 ->
  swapped A Q self st caller amount rcv rsp op ask r s c od ad ->
  op < B128 /\ ask < B128 /\ r < B128 /\ s < B128 /\ c < B128.
Proof.
  intros HQ Ha (ia & Hd & Hc & _).
  assert (op + amount < B128 /\ ask < B128) as [H1 H2].
  { destruct Hd as [(X & Y & _)|(X & Y & _)]; split; eapply reserve_is_range; eauto. }
  assert (Hop : op < B128) by lia.
  apply compute_swap_ok in Hc as (_ & _ & _ & _ & Hs & -> & -> & ->); try assumption.
  assert (X := sw_comm_le (sw_gross op ask amount)). assert (Y := sw_gross_le op ask amount).
  set (g := sw_gross op ask amount) in *. set (k := sw_comm g) in *. clearbody g k. repeat split; auto; lia.
Qed.

(** ** C17: a swap pays exactly once, the right asset, to the right account *)

Theorem C17_swap_pays_once : forall A Q self st caller funds sender amount bp ms to st' rsp,
  pair_execute A Q self st caller funds (JReceive sender amount (HSwap bp ms to)) = Ok (st', rsp) ->
  st' = st /\
  exists op ask r s c od ad,
    swapped A Q self st caller amount (receiver_or to sender) rsp op ask r s c od ad.
Proof.
  intros * H. apply swapped_intro in H as (-> & _ & _ & _ & _ & op & ask & r & s & c & od & ad & H & _).
  split; [reflexivity|]. exists op, ask, r, s, c, od, ad. assumption.
Qed.

(** A receiver given in the hook is a valid, normalized address. *)
Theorem C17_receiver_validated : forall A Q self st caller funds sender amount bp ms to st' rsp,
  pair_execute A Q self st caller funds (JReceive sender amount (HSwap bp ms (Some to))) = Ok (st', rsp) ->
  exists c, canon A to = Some c /\ human A c = Some to.
Proof.
  intros * H. apply swapped_intro in H as (_ & _ & _ & _ & Hto & _).
  specialize (Hto to eq_refl). unfold norm in Hto. destruct (canon A to) as [c|]; [|discriminate]. eauto.
Qed.

Example C17_example : exists rsp,
  pair_execute ex_api (ex_querier 1001000 1000000 1000000) "pair" ex_pair "tok" []
    (JReceive "bob" 1000 (HSwap None None (Some "carol"%string))) = Ok (ex_pair, rsp) /\
  rs_msgs rsp = [plain (MBankSend "carol" [Coin "uaura" 997])].
Proof. eexists. split; vm_compute; reflexivity. Qed.

(** ** C09: spread limits *)

(** max_spread without a belief price bounds spread / (return + spread). *)
Theorem C09_max_spread_enforced : forall A Q self st caller funds sender amount m to st' rsp,
  querier_ranges Q ->
  pair_execute A Q self st caller funds (JReceive sender amount (HSwap None (Some m) to)) = Ok (st', rsp) ->
  exists op ask r s c od ad,
    swapped A Q self st caller amount (receiver_or to sender) rsp op ask r s c od ad /\
    0 < r + s /\ s * 10 ^ 18 < (m + 1) * (r + s).
Proof.
  intros * HQ H. apply swapped_intro in H as (-> & Ha & _ & Hm & _ & op & ask & r & s & c & od & ad & H & Hms).
  assert (R := H). apply swapped_ranges in R as (R1 & R2 & R3 & R4 & R5); try assumption.
  exists op, ask, r, s, c, od, ad. split; [assumption|].
  apply assert_max_spread_ok in Hms as (o & r' & s' & E & H1 & H2); try assumption;
    [|intros x [= ->]; unfold ou128_ok, u128_ok in Hm; bools; assumption|discriminate].
  apply normalize_ok in E as (-> & -> & -> & _); try assumption.
  change (10 ^ 18) with D18.
  assert (0 < 10 ^ (od - ad)) by (apply N.neq_0_lt_0, N.pow_nonzero; discriminate).
  set (f := 10 ^ (od - ad)) in *. clearbody f.
  rewrite <- N.mul_add_distr_r in *. split; [nia|].
  apply (N.mul_lt_mono_pos_r f); [assumption|]. nia.
Qed.

(** With a belief price [b] (18 decimals, offered units per returned unit) the
    return, in the decimals of whichever asset has more, is at least the
    expected offer/b minus a fraction [m] of it (and one part in 10^18). *)
Theorem C09_belief_price_enforced : forall A Q self st caller funds sender amount b m to st' rsp,
  querier_ranges Q ->
  pair_execute A Q self st caller funds (JReceive sender amount (HSwap (Some b) (Some m) to)) = Ok (st', rsp) ->
  exists op ask r s c od ad,
    swapped A Q self st caller amount (receiver_or to sender) rsp op ask r s c od ad /\
    b <> 0 /\
    let expected := amount * 10 ^ (ad - od) * 10 ^ 18 / b in
    let got := r * 10 ^ (od - ad) in
    expected <= got \/ (expected - got) * 10 ^ 18 < (m + 1) * expected.
Proof.
  intros * HQ H. apply swapped_intro in H as (-> & Ha & Hb & Hm & _ & op & ask & r & s & c & od & ad & H & Hms).
  assert (R := H). apply swapped_ranges in R as (R1 & R2 & R3 & R4 & R5); try assumption.
  exists op, ask, r, s, c, od, ad. split; [assumption|].
  apply assert_max_spread_ok in Hms as (o & r' & s' & E & H1 & H2); try assumption;
    [|intros x [= ->]; unfold ou128_ok, u128_ok in Hm; bools; assumption
     |intros x [= ->]; unfold ou128_ok, u128_ok in Hb; bools; assumption].
  apply normalize_ok in E as (-> & -> & -> & _); try assumption.
  split; [assumption|]. exact H2.
Qed.

Lemma receive_swap_build A Q self st caller funds sender amount bp ms bp' ms' to st' rsp :
  pair_execute A Q self st caller funds (JReceive sender amount (HSwap bp ms to)) = Ok (st', rsp) ->
  ou128_ok bp' = true -> ou128_ok ms' = true ->
  (forall op ask r s c od ad,
    swapped A Q self st caller amount (receiver_or to sender) rsp op ask r s c od ad ->
    assert_max_spread bp ms amount r s od ad = Ok tt ->
    assert_max_spread bp' ms' amount r s od ad = Ok tt) ->
  pair_execute A Q self st caller funds (JReceive sender amount (HSwap bp' ms' to)) = Ok (st', rsp).
Proof.
  intros H Hb' Hm' Himp.
  assert (K : forall r s od ad,
    (exists op ask c, swapped A Q self st caller amount (receiver_or to sender) rsp op ask r s c od ad) ->
    assert_max_spread bp ms amount r s od ad = Ok tt ->
    assert_max_spread bp' ms' amount r s od ad = Ok tt) by (intros * (? & ? & ? & ?); eauto).
  clear Himp.
  unfold pair_execute, pair_receive in *. cbn [jmsg_ranges hook_ranges] in *.
  destruct (u128_ok amount) eqn:Ra; cbn [negb] in *; [|discriminate].
  destruct (ou128_ok bp && ou128_ok ms); cbn [negb] in *; [|discriminate].
  rewrite Hb', Hm'. cbn [andb negb].
  apply rbind_ok in H as ([x y] & E & H). rewrite E. cbn [rbind].
  apply rbind_ok in H as (? & E1 & H). rewrite E1. cbn [rbind].
  apply rbind_ok in H as (to' & E2 & H). rewrite E2. cbn [rbind].
  assert (to' = to) as ->.
  { destruct to; [|inv_ok; reflexivity]. apply rbind_ok in E2 as (? & E3 & E2). apply addr_validate_ok in E3 as [-> _]. inv_ok. reflexivity. }
  assert (H' := H). apply swap_inv in H' as (x' & op & ai & ask & od & ad & r & s & c & Hx' & -> & Hdir & Hc & Hms & Hmsg & _).
  rewrite E in Hx'. injection Hx' as <-. cbn [fst snd a_info a_amount] in *.
  assert (SW : swapped A Q self st caller amount (receiver_or to sender) rsp op ask r s c od ad).
  { apply query_pools_ok in E as [R0 R1]. cbn [fst snd] in *. exists ai. split; [|split; [assumption|]].
    - destruct Hdir as [(E & L & -> & -> & -> & -> & ->)|(_ & E & L & -> & -> & -> & -> & ->)].
      + left. rewrite N.sub_add by assumption. rewrite E.
        split; [assumption|]. split; [assumption|]. destruct (r_asset_decimals st); reflexivity.
      + right. rewrite N.sub_add by assumption. rewrite E.
        split; [assumption|]. split; [assumption|]. destruct (r_asset_decimals st); reflexivity.
    - rewrite Hmsg. destruct (N.eqb_spec r 0); [assumption|]. split; [assumption|]. apply pays_into_msg. }
  unfold swap in *. rewrite E in *.
  apply rbind_ok in H as (? & S1 & H). rewrite S1. cbn [rbind] in *.
  apply rbind_ok in H as ([[[op' ask'] od'] ad'] & D & H). rewrite D. cbn [rbind].
  apply rbind_ok in H as ([[r' s'] c'] & C & H). rewrite C. cbn [rbind].
  apply rbind_ok in H as ([] & M & H).
  assert (op' = op /\ a_amount ask' = ask /\ od' = od /\ ad' = ad) as (-> & <- & -> & ->).
  { cbn [a_info a_amount] in D.
    destruct Hdir as [(I & L & -> & -> & -> & -> & ->)|(I0 & I & L & -> & -> & -> & -> & ->)].
    - rewrite (proj2 (info_equal_spec _ _) I) in D. inv_ok. apply u128_checked_sub_ok in E0 as [-> _]. auto.
    - destruct (info_equal (Token caller) (a_info x)) eqn:Z; [apply info_equal_spec in Z; contradiction|].
      rewrite (proj2 (info_equal_spec _ _) I) in D. inv_ok. apply u128_checked_sub_ok in E0 as [-> _]. auto. }
  cbn [a_amount] in C. rewrite Hc in C. injection C as <- <- <-.
  cbn [a_amount] in *. rewrite (K r s od ad) by eauto. exact H.
Qed.

(** Conversely a limit that is respected never blocks a swap that succeeds
    without limits, and the outcome is the same. *)
Theorem C09_respected_limit_passes : forall A Q self st caller funds sender amount bp m to st' rsp,
  querier_ranges Q -> m < 2 ^ 128 -> (forall b, bp = Some b -> b < 2 ^ 128) ->
  pair_execute A Q self st caller funds (JReceive sender amount (HSwap None None to)) = Ok (st', rsp) ->
  (forall op ask r s c od ad,
    swapped A Q self st caller amount (receiver_or to sender) rsp op ask r s c od ad ->
    match bp with
    | None => 0 < r + s /\ s * 10 ^ 18 < (m + 1) * (r + s)
    | Some b => b <> 0 /\
        let expected := amount * 10 ^ (ad - od) * 10 ^ 18 / b in
        let got := r * 10 ^ (od - ad) in
        expected <= got \/
        ((expected - got) * 10 ^ 18 < 2 ^ 256 /\ (expected - got) * 10 ^ 18 < (m + 1) * expected)
    end) ->
  pair_execute A Q self st caller funds (JReceive sender amount (HSwap bp (Some m) to)) = Ok (st', rsp).
Proof.
  intros * HQ Hm Hb H HL.
  assert (Ha : amount < B128).
  { apply swapped_intro in H as (_ & ? & _). assumption. }
  eapply receive_swap_build; [exact H| | |].
  - destruct bp; [|reflexivity]. cbn. apply N.ltb_lt. apply Hb. reflexivity.
  - cbn. apply N.ltb_lt. exact Hm.
  - intros op ask r s c od ad SW Hms. specialize (HL _ _ _ _ _ _ _ SW).
    assert (R := SW). apply swapped_ranges in R as (R1 & R2 & R3 & R4 & R5); try assumption.
    unfold assert_max_spread in Hms. apply rbind_ok in Hms as ([[o r2] s2] & E & _).
    eapply assert_max_spread_complete; try eassumption.
    + intros x [= ->]. exact Hm.
    + apply normalize_ok in E as (-> & -> & -> & _); try assumption.
      change (10 ^ 18) with D18 in *. change (2 ^ 256) with B256 in *.
      destruct bp as [b|]; [exact HL|].
      assert (10 ^ (od - ad) <> 0) by (apply N.pow_nonzero; discriminate).
      set (f := 10 ^ (od - ad)) in *. clearbody f. destruct HL as [HL1 HL2].
      rewrite <- N.mul_add_distr_r. split; [nia|].
      assert (s * D18 * f < (m + 1) * (r + s) * f) by (apply N.mul_lt_mono_pos_r; lia). nia.
Qed.

(** A belief price without max_spread is not a limit at all. *)
Theorem C09_belief_price_alone_ignored : forall A Q self st caller funds sender amount b to st' rsp,
  b < 2 ^ 128 ->
  pair_execute A Q self st caller funds (JReceive sender amount (HSwap None None to)) = Ok (st', rsp) ->
  pair_execute A Q self st caller funds (JReceive sender amount (HSwap (Some b) None to)) = Ok (st', rsp).
Proof.
  intros * Hb H. eapply receive_swap_build; [exact H| |reflexivity|].
  - cbn. apply N.ltb_lt. exact Hb.
  - intros * _ Hms. exact Hms.
Qed.

(** If the decimals of the two assets differ by 20 or more, no swap succeeds,
    with or without limits. *)
Theorem C09_decimals_gap_blocks_swaps : forall A Q self st caller funds sender amount bp ms to d0 d1,
  r_asset_decimals st = (d0, d1) -> d0 + 20 <= d1 \/ d1 + 20 <= d0 ->
  forall x, pair_execute A Q self st caller funds (JReceive sender amount (HSwap bp ms to)) <> Ok x.
Proof.
  intros * Hd Hgap [st' rsp] H.
  apply swapped_intro in H as (_ & _ & _ & _ & _ & op & ask & r & s & c & od & ad & SW & Hms).
  assert (Hod : (od, ad) = (d0, d1) \/ (od, ad) = (d1, d0)).
  { destruct SW as (ia & [(_ & _ & E)|(_ & _ & E)] & _); rewrite Hd in E; injection E as -> ->; auto. }
  unfold assert_max_spread in Hms. apply rbind_ok in Hms as ([[o r2] s2] & E & _).
  assert (P : forall k v, 20 <= k -> pow10_u64 k <> Ok v).
  { intros k v L X. apply pow10_u64_ok in X as [_ X].
    assert (10 ^ 20 <= 10 ^ k) by (apply N.pow_le_mono_r; lia).
    assert (B64 <= 10 ^ 20) by (vm_compute; discriminate).
    generalize dependent (10 ^ k). intros; lia. }
  unfold normalize_decimals in E.
  destruct (N.ltb_spec ad od); [|destruct (N.ltb_spec od ad)]; inv_ok.
  - eapply P; [|exact E0]. destruct Hod as [[= -> ->]|[= -> ->]]; lia.
  - eapply P; [|exact E0]. destruct Hod as [[= -> ->]|[= -> ->]]; lia.
  - destruct Hod as [[= -> ->]|[= -> ->]]; lia.
Qed.

Example C09_example : (exists rsp,
  pair_execute ex_api (ex_querier 1001000 1000000 1000000) "pair" ex_pair "tok" []
    (JReceive "bob" 1000 (HSwap None (Some 2000000000000000) None)) = Ok (ex_pair, rsp) /\
  rs_msgs rsp = [plain (MBankSend "bob" [Coin "uaura" 997])]) /\
  (* spread 1 of 998: over 0.1% *)
  pair_execute ex_api (ex_querier 1001000 1000000 1000000) "pair" ex_pair "tok" []
    (JReceive "bob" 1000 (HSwap None (Some 1000000000000000) None)) = Err EMaxSpread /\
  (* belief price 1, tolerance 0.2% : expected 1000, got 997 *)
  pair_execute ex_api (ex_querier 1001000 1000000 1000000) "pair" ex_pair "tok" []
    (JReceive "bob" 1000 (HSwap (Some D18) (Some 2000000000000000) None)) = Err EMaxSpread /\
  (exists rsp, pair_execute ex_api (ex_querier 1001000 1000000 1000000) "pair" ex_pair "tok" []
    (JReceive "bob" 1000 (HSwap (Some D18) (Some 3000000000000000) None)) = Ok (ex_pair, rsp)).
Proof. split; [eexists; split; vm_compute; reflexivity|]. split; [vm_compute; reflexivity|].
  split; [vm_compute; reflexivity|]. eexists; vm_compute; reflexivity. Qed.

(** ** C18 and the general shape of a deposit *)

(** The reserve before the deposit: a cw20 deposit has not arrived when the
    pair computes, a native one has. *)
Definition reserve_before (A : api) (Q : querier) (self : string) (raw : asset_info_raw)
    (i : asset_info) (p d : N) : Prop :=
  match i with
  | Token _ => reserve_is A Q self raw i p
  | Native _ => reserve_is A Q self raw i (p + d)
  end.

(** The amount the caller declares for asset [i]: the first of the two entries
    naming it. *)
Definition declared (assets : asset * asset) (i : asset_info) (d : N) : Prop :=
  (a_info assets.1 = i /\ a_amount assets.1 = d) \/
  (a_info assets.1 <> i /\ a_info assets.2 = i /\ a_amount assets.2 = d).

(** The message that collects the deposit of one asset. *)
Definition collects (ms : list submsg) (i : asset_info) (d : N) (from to : string) : Prop :=
  match i with
  | Token t => ms = [SubMsg (MExecute t (JTransferFrom from to d) []) ReplyNever]
  | Native _ => ms = []
  end.

Record provided (A : api) (Q : querier) (self : string) (st : pair_info_raw) (sender : string)
    (assets : asset * asset) (rcv : string) (rsp : response)
    (i0 i1 : asset_info) (d0 d1 p0 p1 S share : N) (lp : string) : Prop := {
  pv_i0 : reserve_before A Q self (r_asset_infos st).1 i0 p0 d0;
  pv_i1 : reserve_before A Q self (r_asset_infos st).2 i1 p1 d1;
  pv_d0 : declared assets i0 d0;
  pv_d1 : declared assets i1 d1;
  pv_lp : human A (r_liquidity_token st) = Some lp;
  pv_S : exists ti, q_token_info Q lp = Ok ti /\ ti_total_supply ti = S;
  pv_msgs : exists c0 c1, collects c0 i0 d0 sender self /\ collects c1 i1 d1 sender self /\
    rs_msgs rsp = c0 ++ c1 ++ [SubMsg (MExecute lp (JMint rcv share) []) ReplyNever];
}.

Lemma provided_intro A Q self st sender funds assets tol rcv st' rsp :
  pair_execute A Q self st sender funds (JProvideLiquidity assets tol rcv) = Ok (st', rsp) ->
  st' = st /\ a_amount assets.1 < B128 /\ a_amount assets.2 < B128 /\ ou128_ok tol = true /\
  assert_sent_native assets.1 funds = Ok tt /\ assert_sent_native assets.2 funds = Ok tt /\
  exists i0 i1 d0 d1 p0 p1 S share lp,
    provided A Q self st sender assets (receiver_or rcv sender) rsp i0 i1 d0 d1 p0 p1 S share lp /\
    assert_slippage_tolerance tol (d0, d1) (p0, p1) = Ok tt /\ share <> 0 /\
    (S = 0 -> sender ∈ whitelist (r_requirements st) /\
       first_asset_minimum (r_requirements st) <= d0 /\ second_asset_minimum (r_requirements st) <= d1 /\
       initial_share d0 d1 = Ok share) /\
    (S <> 0 -> later_share d0 d1 S p0 p1 = Ok share).
Proof.
  unfold pair_execute. destruct (jmsg_ranges _) eqn:R; cbn [negb]; [|discriminate].
  destruct assets as [x y]. cbn [jmsg_ranges] in R. bools. unfold u128_ok in *. bools.
  intros HH. apply provide_inv in HH as (z & d0 & d1 & m0 & p0 & m1 & p1 & lp & ti & share & S1 & S2 & -> & Q1 & D0 & D1 & P0 & P1 & T & L & TI & NZ & SH & MS).
  cbn [fst snd] in *. repeat (split; [assumption || reflexivity|]).
  exists (a_info z.1), (a_info z.2), d0, d1, p0, p1, (ti_total_supply ti), share, lp.
  apply query_pools_ok in Q1 as [R0 R1].
  apply pull_deposit_ok in P0. apply pull_deposit_ok in P1.
  apply deposit_of_ok in D0. apply deposit_of_ok in D1.
  split; [|split; [assumption|split; [assumption|]]].
  - split; auto.
    + unfold reserve_before. destruct (a_info z.1); [destruct P0 as [_ ->]; assumption|].
      destruct P0 as (_ & -> & ?). rewrite N.sub_add by assumption. assumption.
    + unfold reserve_before. destruct (a_info z.2); [destruct P1 as [_ ->]; assumption|].
      destruct P1 as (_ & -> & ?). rewrite N.sub_add by assumption. assumption.
    + eauto.
    + exists (map plain m0), (map plain m1). split; [|split].
      * unfold collects. destruct (a_info z.1); destruct P0 as [-> _]; reflexivity.
      * unfold collects. destruct (a_info z.2); destruct P1 as [-> _]; reflexivity.
      * rewrite MS, !map_app. reflexivity.
  - destruct (N.eqb_spec (ti_total_supply ti) 0) as [E|E]; split; intros; try contradiction; auto.
Qed.

Lemma provided_ranges A Q self st sender assets rcv rsp i0 i1 d0 d1 p0 p1 S share lp :
  querier_ranges Q -> a_amount assets.1 < B128 -> a_amount assets.2 < B128 ->
  provided A Q self st sender assets rcv rsp i0 i1 d0 d1 p0 p1 S share lp ->
  d0 < B128 /\ d1 < B128 /\ p0 < B128 /\ p1 < B128 /\ S < B128.
Proof.
  intros HQ H1 H2 [I0 I1 D0 D1 L (ti & T & <-) _].
  assert (X : forall raw i p d, reserve_before A Q self raw i p d -> p < B128).
  { intros raw i p d. unfold reserve_before. destruct i; intros R; apply reserve_is_range in R; auto. lia. }
  unfold declared in *. repeat split; try (eapply X; eassumption); try (intuition (subst; assumption)).
  destruct HQ as (_ & _ & HQ). eauto.
Qed.

(** The attached coins match: the declared amount of a native asset is the
    amount of the (first) attached coin of that denom, or zero if there is
    none. *)
Definition paid_with (a : asset) (funds : list coin) : Prop :=
  forall d, a_info a = Native d ->
    (exists l c r, funds = l ++ c :: r /\ c_denom c = d /\ c_amount c = a_amount a /\
       forall c', c' ∈ l -> c_denom c' <> d) \/
    ((forall c, c ∈ funds -> c_denom c <> d) /\ a_amount a = 0).

Lemma find_coin_spec d funds :
  match find_coin d funds with
  | Some c => exists l r, funds = l ++ c :: r /\ c_denom c = d /\ forall c', c' ∈ l -> c_denom c' <> d
  | None => forall c, c ∈ funds -> c_denom c <> d
  end.
Proof.
  induction funds as [|x r IH]; cbn.
  - intros c H. apply not_elem_of_nil in H. contradiction.
  - destruct (bool_decide (c_denom x = d)) eqn:E; bools.
    + exists [], r. repeat split; auto. intros c' H. apply not_elem_of_nil in H. contradiction.
    + destruct (find_coin d r) as [c|].
      * destruct IH as (l & r' & -> & E2 & H). exists (x :: l), r'. repeat split; auto.
        intros c' H'. apply elem_of_cons in H' as [->|H']; auto.
      * intros c H'. apply elem_of_cons in H' as [->|H']; auto.
Qed.

Lemma assert_sent_native_paid a funds : assert_sent_native a funds = Ok tt <-> paid_with a funds.
Proof.
  unfold assert_sent_native, paid_with. destruct (a_info a) as [t|d].
  - split; [intros _ d; discriminate|auto].
  - assert (F := find_coin_spec d funds). destruct (find_coin d funds) as [c|].
    + destruct F as (l & r & -> & E & H). destruct (N.eqb_spec (a_amount a) (c_amount c)) as [E1|E1]; split; auto.
      * intros _ d' [= <-]. left. exists l, c, r. auto.
      * discriminate.
      * intros X. destruct (X d eq_refl) as [(l' & c' & r' & E2 & E3 & E4 & H')|[X1 X2]].
        -- exfalso. apply E1. rewrite <- E4. f_equal.
           revert l' E2 H'. clear - H E E3. induction l as [|y l IH]; intros [|y' l'] E2 H'; cbn in E2.
           ++ congruence.
           ++ injection E2 as -> _. exfalso. apply (H' y'); [left|assumption].
           ++ injection E2 as <- _. exfalso. apply (H y); [left|assumption].
           ++ injection E2 as -> E2. eapply IH; eauto; intros; [apply H|apply H']; right; assumption.
        -- exfalso. apply (X1 c); [|assumption]. apply elem_of_app. right. left.
    + destruct (N.eqb_spec (a_amount a) 0) as [E1|E1]; split; auto.
      * intros _ d' [= <-]. right. auto.
      * discriminate.
      * intros X. destruct (X d eq_refl) as [(l' & c' & r' & -> & E3 & E4 & H')|[X1 X2]]; [|contradiction].
        exfalso. apply (F c'); [|assumption]. apply elem_of_app. right. left.
Qed.

Theorem C18_native_deposits_are_paid : forall A Q self st sender funds assets tol rcv st' rsp,
  pair_execute A Q self st sender funds (JProvideLiquidity assets tol rcv) = Ok (st', rsp) ->
  paid_with assets.1 funds /\ paid_with assets.2 funds.
Proof.
  intros * H. apply provided_intro in H as (_ & _ & _ & _ & H1 & H2 & _).
  split; apply assert_sent_native_paid; assumption.
Qed.

(** The whole effect: storage unchanged; exactly the declared amount of each
    cw20 asset is pulled from the sender into the pair; one mint to the
    receiver; shares computed on the reserves before the deposit. *)
Theorem C18_deposit_effect : forall A Q self st sender funds assets tol rcv st' rsp,
  pair_execute A Q self st sender funds (JProvideLiquidity assets tol rcv) = Ok (st', rsp) ->
  st' = st /\ exists i0 i1 d0 d1 p0 p1 S share lp,
    provided A Q self st sender assets (receiver_or rcv sender) rsp i0 i1 d0 d1 p0 p1 S share lp.
Proof.
  intros * H. apply provided_intro in H as (-> & _ & _ & _ & _ & _ & i0 & i1 & d0 & d1 & p0 & p1 & S & share & lp & H & _).
  split; [reflexivity|]. exists i0, i1, d0, d1, p0, p1, S, share, lp. assumption.
Qed.

Example C18_example : (exists rsp,
  pair_execute ex_api (ex_querier 1000000 1002000 1000000) "pair" ex_pair "bob" [Coin "uaura" 2000]
    (JProvideLiquidity (Asset (Native "uaura") 2000, Asset (Token "tok") 3000) None None) = Ok (ex_pair, rsp) /\
  rs_msgs rsp = [plain (MExecute "tok" (JTransferFrom "bob" "pair" 3000) []);
                 plain (MExecute "lp" (JMint "bob" 2000) [])]) /\
  (* attaching less than declared fails *)
  (exists e, pair_execute ex_api (ex_querier 1000000 1002000 1000000) "pair" ex_pair "bob" [Coin "uaura" 1999]
    (JProvideLiquidity (Asset (Native "uaura") 2000, Asset (Token "tok") 3000) None None) = Err e).
Proof. split; eexists; [split|]; vm_compute; reflexivity. Qed.

(** ** C10: slippage tolerance *)

Theorem C10_slippage_enforced : forall A Q self st sender funds assets t rcv st' rsp,
  querier_ranges Q ->
  pair_execute A Q self st sender funds (JProvideLiquidity assets (Some t) rcv) = Ok (st', rsp) ->
  t <= 10 ^ 18 /\ exists i0 i1 d0 d1 p0 p1 S share lp,
    provided A Q self st sender assets (receiver_or rcv sender) rsp i0 i1 d0 d1 p0 p1 S share lp /\
    0 < d0 /\ 0 < d1 /\ 0 < p0 /\ 0 < p1 /\
    (* d0/d1 * (1-t) <= p0/p1 + 2*10^-18, and the same with 0 and 1 exchanged *)
    d0 * (10 ^ 18 - t) * p1 < p0 * d1 * 10 ^ 18 + 2 * d1 * p1 /\
    d1 * (10 ^ 18 - t) * p0 < p1 * d0 * 10 ^ 18 + 2 * d0 * p0.
Proof.
  intros * HQ H. apply provided_intro in H as (-> & H1 & H2 & H3 & _ & _ & i0 & i1 & d0 & d1 & p0 & p1 & S & share & lp & H & T & _).
  assert (R := H). apply provided_ranges in R as (R1 & R2 & R3 & R4 & R5); try assumption.
  unfold ou128_ok, u128_ok in H3. bools.
  apply assert_slippage_iff in T as (T1 & T2 & T3 & T4 & T5 & T6 & T7); try assumption.
  split; [assumption|]. exists i0, i1, d0, d1, p0, p1, S, share, lp.
  split; [assumption|]. repeat (split; [lia|]). change (10 ^ 18) with D18.
  split; apply slip_sound; assumption.
Qed.

Theorem C10_tolerance_above_one_refused : forall A Q self st sender funds assets t rcv x,
  10 ^ 18 < t ->
  pair_execute A Q self st sender funds (JProvideLiquidity assets (Some t) rcv) <> Ok x.
Proof.
  intros * Ht H. destruct x as [st' rsp].
  apply provided_intro in H as (_ & _ & _ & H3 & _ & _ & i0 & i1 & d0 & d1 & p0 & p1 & S & share & lp & _ & T & _).
  unfold ou128_ok, u128_ok in H3. bools.
  unfold assert_slippage_tolerance in T. rewrite d256_from_decimal_id in T by assumption. cbn [rbind] in T.
  change (10 ^ 18) with D18 in Ht. unfold d256_one in T. apply N.ltb_lt in Ht. rewrite Ht in T. discriminate.
Qed.

(** A deposit into an empty pool that gives a slippage tolerance always fails:
    the ratio of the empty reserves aborts. *)
Theorem C10_empty_pool_tolerance_aborts : forall A Q self st sender funds assets t rcv i0 d0 x,
  querier_ranges Q ->
  declared assets i0 d0 -> reserve_before A Q self (r_asset_infos st).1 i0 0 d0 ->
  pair_execute A Q self st sender funds (JProvideLiquidity assets (Some t) rcv) <> Ok x.
Proof.
  intros * HQ D R H. destruct x as [st' rsp].
  apply C10_slippage_enforced in H as (_ & j0 & j1 & e0 & e1 & q0 & q1 & S' & share' & lp' & P & X); [|assumption].
  destruct P as [R' _ D' _ _ _ _].
  assert (i0 = j0).
  { clear - R R'. unfold reserve_before in *.
    destruct ((r_asset_infos st).1) as [c|d]; destruct i0, j0; cbn in *;
      repeat match goal with H : exists _, _ |- _ => destruct H | H : _ /\ _ |- _ => destruct H end; congruence. }
  subst j0.
  assert (d0 = e0). { clear - D D'. unfold declared in *. intuition congruence. }
  subst e0.
  assert (q0 = 0); [|lia].
  clear - R R'. unfold reserve_before in *.
  destruct ((r_asset_infos st).1) as [c|d]; destruct i0; cbn in *;
    repeat match goal with H : exists _, _ |- _ => destruct H | H : _ /\ _ |- _ => destruct H end; try congruence.
  assert (0 + d0 = q0 + d0) by congruence. lia.
Qed.

(** A deposit in proportion (up to the tolerance) passes the check. *)
Theorem C10_within_tolerance_passes : forall d0 d1 p0 p1 t,
  d0 < 2 ^ 128 -> d1 < 2 ^ 128 -> p0 < 2 ^ 128 -> p1 < 2 ^ 128 -> t <= 10 ^ 18 ->
  0 < d0 -> 0 < d1 -> 0 < p0 -> 0 < p1 ->
  d0 * (10 ^ 18 - t) * p1 <= p0 * d1 * 10 ^ 18 ->
  d1 * (10 ^ 18 - t) * p0 <= p1 * d0 * 10 ^ 18 ->
  assert_slippage_tolerance (Some t) (d0, d1) (p0, p1) = Ok tt.
Proof.
  intros * H1 H2 H3 H4 Ht D0 D1 P0 P1 L0 L1.
  change (10 ^ 18) with D18 in *. change (2 ^ 128) with B128 in *.
  apply assert_slippage_iff; try assumption; [unfold D18, B128 in *; lia|].
  split; [assumption|]. repeat (split; [lia|]).
  split; apply slip_complete; auto; lia.
Qed.

Example C10_example : (exists rsp,
  pair_execute ex_api (ex_querier 1000000 1002000 1000000) "pair" ex_pair "bob" [Coin "uaura" 2000]
    (JProvideLiquidity (Asset (Native "uaura") 2000, Asset (Token "tok") 2100)
       (Some 50000000000000000) None) = Ok (ex_pair, rsp)) /\
  pair_execute ex_api (ex_querier 1000000 1002000 1000000) "pair" ex_pair "bob" [Coin "uaura" 2000]
    (JProvideLiquidity (Asset (Native "uaura") 2000, Asset (Token "tok") 2200)
       (Some 50000000000000000) None) = Err EMaxSlippage.
Proof. split; [eexists|]; vm_compute; reflexivity. Qed.

(** ** C11: minting never dilutes *)

(** When shares exist, the mint is at most pro rata on each side: the reserves
    backing one share do not fall, p/S <= (p+d)/(S+share); and it is positive. *)
Theorem C11_no_dilution : forall A Q self st sender funds assets tol rcv st' rsp
    i0 i1 d0 d1 p0 p1 S share lp,
  pair_execute A Q self st sender funds (JProvideLiquidity assets tol rcv) = Ok (st', rsp) ->
  provided A Q self st sender assets (receiver_or rcv sender) rsp i0 i1 d0 d1 p0 p1 S share lp ->
  0 < S ->
  0 < share /\ 0 < p0 /\ 0 < p1 /\
  share = N.min (d0 * S / p0) (d1 * S / p1) /\
  p0 * (S + share) <= (p0 + d0) * S /\ p1 * (S + share) <= (p1 + d1) * S.
Proof.
  intros * H P HS.
  apply provided_intro in H as (_ & H1 & H2 & _ & _ & _ & j0 & j1 & e0 & e1 & q0 & q1 & S' & share' & lp' & P' & _ & NZ & _ & L).
  assert (E : i0 = j0 /\ i1 = j1 /\ d0 = e0 /\ d1 = e1 /\ p0 = q0 /\ p1 = q1 /\ S = S' /\ share = share').
  { clear - P P'. destruct P as [R0 R1 D0 D1 L S0 M], P' as [R0' R1' D0' D1' L' S0' M'].
    assert (U : forall raw i j p q d e, reserve_before A Q self raw i p d -> reserve_before A Q self raw j q e ->
      i = j /\ (d = e -> p = q)).
    { clear. intros raw i j p q d e. unfold reserve_before. destruct raw; destruct i, j; cbn; intros X Y;
      repeat match goal with H : exists _, _ |- _ => destruct H | H : _ /\ _ |- _ => destruct H end; try congruence;
      (split; [congruence|intros; subst]); try congruence.
      assert (p + e = q + e) by congruence. lia. }
    destruct (U _ _ _ _ _ _ _ R0 R0') as [-> V0]. destruct (U _ _ _ _ _ _ _ R1 R1') as [-> V1].
    assert (d0 = e0) by (unfold declared in *; intuition congruence).
    assert (d1 = e1) by (unfold declared in *; intuition congruence).
    assert (lp = lp') by congruence. subst.
    destruct S0 as (? & ? & <-), S0' as (? & ? & <-).
    destruct M as (c0 & c1 & C0 & C1 & M), M' as (c0' & c1' & C0' & C1' & M').
    assert (c0 = c0') by (unfold collects in *; destruct j0; congruence).
    assert (c1 = c1') by (unfold collects in *; destruct j1; congruence). subst.
    rewrite M in M'. apply app_inv_head, app_inv_head in M'.
    repeat split; auto; congruence. }
  destruct E as (<- & <- & <- & <- & <- & <- & <- & <-).
  specialize (L ltac:(lia)). apply later_share_ok in L as (N0 & N1 & _ & _ & Es).
  split; [lia|]. split; [lia|]. split; [lia|]. split; [assumption|].
  assert (A0 := div_lo (d0 * S) p0 N0). assert (A1 := div_lo (d1 * S) p1 N1).
  set (a := d0 * S / p0) in *. set (b := d1 * S / p1) in *. clearbody a b.
  assert (share <= a) by lia. assert (share <= b) by lia. split; nia.
Qed.

(** A deposit of 3000 tok and 2000 uaura into reserves of 1000000 each with
    1000000 shares out (the native deposit is already in the pair's balance). *)
Example C11_example : exists rsp,
  pair_execute ex_api (ex_querier 1000000 1002000 1000000) "pair" ex_pair "bob" [Coin "uaura" 2000]
    (JProvideLiquidity (Asset (Native "uaura") 2000, Asset (Token "tok") 3000) None None) = Ok (ex_pair, rsp) /\
  provided ex_api (ex_querier 1000000 1002000 1000000) "pair" ex_pair "bob"
    (Asset (Native "uaura") 2000, Asset (Token "tok") 3000) (receiver_or None "bob") rsp
    (Token "tok") (Native "uaura") 3000 2000 1000000 1000000 1000000 2000 "lp".
Proof.
  eexists. split; [vm_compute; reflexivity|]. split.
  - exists "tok"%string. repeat split.
  - cbn. repeat split.
  - right. split; [discriminate|]. split; reflexivity.
  - left. split; reflexivity.
  - reflexivity.
  - eexists. split; reflexivity.
  - do 2 eexists. split; [reflexivity|]. split; [reflexivity|]. reflexivity.
Qed.

(** ** C12: first deposit *)

Theorem C12_first_deposit : forall A Q self st sender funds assets tol rcv st' rsp lp ti,
  pair_execute A Q self st sender funds (JProvideLiquidity assets tol rcv) = Ok (st', rsp) ->
  human A (r_liquidity_token st) = Some lp -> q_token_info Q lp = Ok ti -> ti_total_supply ti = 0 ->
  sender ∈ whitelist (r_requirements st) /\
  exists i0 i1 d0 d1 p0 p1 share,
    provided A Q self st sender assets (receiver_or rcv sender) rsp i0 i1 d0 d1 p0 p1 0 share lp /\
    first_asset_minimum (r_requirements st) <= d0 /\
    second_asset_minimum (r_requirements st) <= d1 /\
    0 < share /\ share * share <= d0 * d1 < (share + 1) * (share + 1).
Proof.
  intros * H HL HT HS.
  apply provided_intro in H as (_ & H1 & H2 & _ & _ & _ & i0 & i1 & d0 & d1 & p0 & p1 & S & share & lp' & P & _ & NZ & L & _).
  assert (lp' = lp) by (destruct P; congruence). subst.
  assert (S = 0) by (destruct P as [_ _ _ _ _ (ti' & T & <-) _]; congruence). subst.
  destruct (L eq_refl) as (W & M0 & M1 & SH). split; [assumption|].
  exists i0, i1, d0, d1, p0, p1, share. repeat (split; [assumption|]).
  apply initial_share_ok in SH as [_ ->].
  assert (X := N.sqrt_spec (d0 * d1)). cbv zeta in X. rewrite <- N.add_1_r in X.
  destruct (X ltac:(apply N.le_0_l)). split; [apply N.neq_0_lt_0; assumption|]. auto.
Qed.

(** A first deposit with product of the two amounts at least 2^128 aborts. *)
Theorem C12_first_deposit_overflow_aborts : forall d0 d1,
  2 ^ 128 <= d0 * d1 -> exists msg, initial_share d0 d1 = Err (EPanic msg).
Proof.
  intros d0 d1 H. unfold initial_share, u128_mul. change (2 ^ 128) with B128 in H.
  apply N.ltb_ge in H. rewrite H. eexists. reflexivity.
Qed.

Example C12_example : (exists rsp,
  pair_execute ex_api (ex_querier 0 2000 0) "pair" ex_pair "alice" [Coin "uaura" 2000]
    (JProvideLiquidity (Asset (Native "uaura") 2000, Asset (Token "tok") 8001) None (Some "bob"%string))
    = Ok (ex_pair, rsp) /\
  rs_msgs rsp = [plain (MExecute "tok" (JTransferFrom "alice" "pair" 8001) []);
                 plain (MExecute "lp" (JMint "bob" 4000) [])]) /\
  (exists e, pair_execute ex_api (ex_querier 0 2000 0) "pair" ex_pair "bob" [Coin "uaura" 2000]
    (JProvideLiquidity (Asset (Native "uaura") 2000, Asset (Token "tok") 8001) None None) = Err e) /\
  (exists e, pair_execute ex_api (ex_querier 0 999 0) "pair" ex_pair "alice" [Coin "uaura" 999]
    (JProvideLiquidity (Asset (Native "uaura") 999, Asset (Token "tok") 8001) None None) = Err e).
Proof. split; [|split]; eexists; [split|..]; vm_compute; reflexivity. Qed.

(** ** C13, C15: withdrawals *)

(** A withdrawal of [a] shares out of [S] with reserves [p0], [p1] pays [r0] and
    [r1] to [who] and burns the shares. *)
Record withdrew (A : api) (Q : querier) (self : string) (st : pair_info_raw) (rsp : response)
    (who : string) (a p0 p1 S r0 r1 : N) : Prop := {
  wd_msgs : exists i0 i1 lp m0 m1 ti,
    reserve_is A Q self (r_asset_infos st).1 i0 p0 /\
    reserve_is A Q self (r_asset_infos st).2 i1 p1 /\
    human A (r_liquidity_token st) = Some lp /\
    q_token_info Q lp = Ok ti /\ ti_total_supply ti = S /\
    rs_msgs rsp = [m0; m1; SubMsg (MExecute lp (JBurn a) []) ReplyNever] /\
    pays m0 i0 r0 who /\ pays m1 i1 r1 who;
}.

Lemma withdrew_intro A Q self st caller funds sender amount st' rsp :
  pair_execute A Q self st caller funds (JReceive sender amount HWithdrawLiquidity) = Ok (st', rsp) ->
  st' = st /\ amount < B128 /\ exists p0 p1 S r0 r1,
    withdrew A Q self st rsp sender amount p0 p1 S r0 r1 /\
    refunds p0 p1 amount S = Ok (r0, r1).
Proof.
  intros H. apply receive_withdraw_inv in H as (Ha & _ & _ & H).
  apply withdraw_inv in H as (x & lp & ti & r0 & r1 & -> & Hx & HL & HT & HR & HM).
  split; [reflexivity|]. split; [assumption|].
  apply query_pools_ok in Hx as [R0 R1].
  exists (a_amount x.1), (a_amount x.2), (ti_total_supply ti), r0, r1. split; [|assumption].
  split. exists (a_info x.1), (a_info x.2), lp. do 2 eexists. exists ti.
  repeat (split; [eassumption||reflexivity|]). split; [exact HM|].
  split; apply pays_into_msg.
Qed.

Theorem C13_withdrawal_pro_rata : forall A Q self st caller funds sender amount st' rsp,
  pair_execute A Q self st caller funds (JReceive sender amount HWithdrawLiquidity) = Ok (st', rsp) ->
  st' = st /\ exists p0 p1 S r0 r1,
    withdrew A Q self st rsp sender amount p0 p1 S r0 r1 /\ 0 < S /\
    (* at most the pro-rata part *)
    r0 * S <= p0 * amount /\ r1 * S <= p1 * amount /\
    (* less than 1 + reserve/10^18 units below it *)
    p0 * amount * 10 ^ 18 < (r0 + 1) * S * 10 ^ 18 + p0 * S /\
    p1 * amount * 10 ^ 18 < (r1 + 1) * S * 10 ^ 18 + p1 * S.
Proof.
  intros * H. apply withdrew_intro in H as (-> & _ & p0 & p1 & S & r0 & r1 & W & R).
  split; [reflexivity|]. exists p0, p1, S, r0, r1. split; [assumption|].
  apply refunds_ok in R as (NZ & _ & -> & _ & -> & _).
  destruct (refund_bounds p0 amount S NZ), (refund_bounds p1 amount S NZ).
  split; [lia|]. auto.
Qed.

(** So what remains behind each remaining share does not fall. *)
Theorem C13_remaining_holders_keep_value : forall p a S r,
  r * S <= p * a -> a <= S -> r <= p -> p * (S - a) <= (p - r) * S.
Proof. intros. rewrite N.mul_sub_distr_l, N.mul_sub_distr_r. lia. Qed.

Example C13_example : exists rsp,
  pair_execute ex_api (ex_querier 3000000 1000000 1000000) "pair" ex_pair "lp" []
    (JReceive "bob" 1001 HWithdrawLiquidity) = Ok (ex_pair, rsp) /\
  rs_msgs rsp = [plain (MExecute "tok" (JTransfer "bob" 3003) []);
                 plain (MBankSend "bob" [Coin "uaura" 1001]);
                 plain (MExecute "lp" (JBurn 1001) [])].
Proof. eexists. split; vm_compute; reflexivity. Qed.

Theorem C15_last_holder_gets_everything : forall A Q self st caller funds sender amount st' rsp
    p0 p1 r0 r1,
  pair_execute A Q self st caller funds (JReceive sender amount HWithdrawLiquidity) = Ok (st', rsp) ->
  withdrew A Q self st rsp sender amount p0 p1 amount r0 r1 ->
  r0 = p0 /\ r1 = p1.
Proof.
  intros * H W. apply withdrew_intro in H as (_ & _ & q0 & q1 & S & s0 & s1 & W' & R).
  assert (p0 = q0 /\ p1 = q1 /\ amount = S /\ r0 = s0 /\ r1 = s1) as (<- & <- & <- & <- & <-).
  { clear - W W'. destruct W as [(i0 & i1 & lp & m0 & m1 & ti & R0 & R1 & L & T & TS & M & P0 & P1)].
    destruct W' as [(i0' & i1' & lp' & m0' & m1' & ti' & R0' & R1' & L' & T' & TS' & M' & P0' & P1')].
    rewrite M in M'. injection M' as <- <- _.
    assert (lp = lp') by congruence. subst lp'. assert (ti = ti') by congruence. subst ti'.
    assert (U : forall raw i j p q, reserve_is A Q self raw i p -> reserve_is A Q self raw j q -> i = j /\ p = q).
    { clear. intros raw i j p q. destruct raw; cbn; intros X Y;
      repeat match goal with H : exists _, _ |- _ => destruct H | H : _ /\ _ |- _ => destruct H end; subst; split; congruence. }
    destruct (U _ _ _ _ _ R0 R0') as [<- <-], (U _ _ _ _ _ R1 R1') as [<- <-].
    unfold pays in *. repeat split; try congruence; destruct i0, i1; intuition congruence. }
  apply refunds_ok in R as (NZ & _ & -> & _ & -> & _).
  split; apply refund_full; assumption.
Qed.

Example C15_example : exists rsp,
  pair_execute ex_api (ex_querier 3000007 1000003 1000000) "pair" ex_pair "lp" []
    (JReceive "bob" 1000000 HWithdrawLiquidity) = Ok (ex_pair, rsp) /\
  rs_msgs rsp = [plain (MExecute "tok" (JTransfer "bob" 3000007) []);
                 plain (MBankSend "bob" [Coin "uaura" 1000003]);
                 plain (MExecute "lp" (JBurn 1000000) [])].
Proof. eexists. split; vm_compute; reflexivity. Qed.

(** ** C14: provide, then withdraw *)

(** A later deposit of (d0, d1) into reserves (p0, p1), followed by burning
    exactly the minted shares, returns at most the deposit. *)
Theorem C14_provide_withdraw_no_profit : forall A Q self st sender funds assets tol rcv st1 rsp1
    i0 i1 d0 d1 p0 p1 S share lp Q' caller funds' st2 rsp2 r0 r1,
  pair_execute A Q self st sender funds (JProvideLiquidity assets tol rcv) = Ok (st1, rsp1) ->
  provided A Q self st sender assets (receiver_or rcv sender) rsp1 i0 i1 d0 d1 p0 p1 S share lp ->
  (S = 0 -> p0 = 0 /\ p1 = 0) ->
  pair_execute A Q' self st1 caller funds' (JReceive sender share HWithdrawLiquidity) = Ok (st2, rsp2) ->
  withdrew A Q' self st1 rsp2 sender share (p0 + d0) (p1 + d1) (S + share) r0 r1 ->
  r0 <= d0 /\ r1 <= d1.
Proof.
  intros * H P H0 H' W.
  assert (X : r0 * (S + share) <= (p0 + d0) * share /\ r1 * (S + share) <= (p1 + d1) * share /\ 0 < S + share).
  { apply withdrew_intro in H' as (_ & _ & q0 & q1 & S' & s0 & s1 & W' & R).
    assert (p0 + d0 = q0 /\ p1 + d1 = q1 /\ S + share = S' /\ r0 = s0 /\ r1 = s1) as (<- & <- & <- & <- & <-).
    { clear - W W'. destruct W as [(j0 & j1 & lp1 & m0 & m1 & ti & R0 & R1 & L & T & TS & M & P0 & P1)].
      destruct W' as [(j0' & j1' & lp' & m0' & m1' & ti' & R0' & R1' & L' & T' & TS' & M' & P0' & P1')].
      rewrite M in M'. injection M' as <- <- _.
      assert (lp1 = lp') by congruence. subst lp'. assert (ti = ti') by congruence. subst ti'.
      assert (U : forall raw i j p q, reserve_is A Q' self raw i p -> reserve_is A Q' self raw j q -> i = j /\ p = q).
      { clear. intros raw i j p q. destruct raw; cbn; intros X Y;
        repeat match goal with H : exists _, _ |- _ => destruct H | H : _ /\ _ |- _ => destruct H end; subst; split; congruence. }
      destruct (U _ _ _ _ _ R0 R0') as [<- <-], (U _ _ _ _ _ R1 R1') as [<- <-].
      unfold pays in *. repeat split; try congruence; destruct j0, j1; intuition congruence. }
    apply refunds_ok in R as (NZ & _ & -> & _ & -> & _).
    destruct (refund_bounds (p0 + d0) share (S + share) NZ), (refund_bounds (p1 + d1) share (S + share) NZ).
    split; [assumption|]. split; [assumption|lia]. }
  destruct X as (X0 & X1 & XS).
  destruct (N.eq_dec S 0) as [->|HS].
  - destruct (H0 eq_refl) as [-> ->]. rewrite !N.add_0_l in *. split; nia.
  - destruct (C11_no_dilution _ _ _ _ _ _ _ _ _ _ _ _ _ _ _ _ _ _ _ _ H P ltac:(lia)) as (_ & _ & _ & _ & Y0 & Y1).
    split; nia.
Qed.

(** The deposit of C11_example is followed by burning the 2000 shares minted:
    3000 tok and 2000 uaura went in, 2001 and 1999 come out. *)
Example C14_example : exists rsp2,
  pair_execute ex_api (ex_querier 1003000 1002000 1002000) "pair" ex_pair "lp" []
    (JReceive "bob" 2000 HWithdrawLiquidity) = Ok (ex_pair, rsp2) /\
  withdrew ex_api (ex_querier 1003000 1002000 1002000) "pair" ex_pair rsp2 "bob" 2000
    (1000000 + 3000) (1000000 + 2000) (1000000 + 2000) 2001 1999.
Proof.
  eexists. split; [vm_compute; reflexivity|]. split.
  exists (Token "tok"), (Native "uaura"), "lp"%string. do 3 eexists.
  split; [exists "tok"%string; repeat split|]. split; [cbn; repeat split|]. split; [reflexivity|].
  split; [reflexivity|]. split; [reflexivity|]. split; [reflexivity|]. repeat split.
Qed.

(** ** C16: authorization of hooks *)

Theorem C16_swap_only_from_asset_contracts : forall A Q self st caller funds sender amount bp ms to x,
  pair_execute A Q self st caller funds (JReceive sender amount (HSwap bp ms to)) = Ok x ->
  exists c, human A c = Some caller /\
    ((r_asset_infos st).1 = TokenRaw c \/ (r_asset_infos st).2 = TokenRaw c).
Proof.
  intros * H. destruct x as [st' rsp].
  apply receive_swap_inv in H as (x & to' & _ & _ & _ & Hx & Hauth & _).
  apply query_pools_ok in Hx as [R0 R1].
  assert (U : forall raw i p, reserve_is A Q self raw i p -> i = Token caller ->
    exists c, human A c = Some caller /\ raw = TokenRaw c).
  { clear. intros raw i p R E. destruct raw as [c|d]; cbn in R.
    - destruct R as (t & Ht & -> & _). injection E as ->. eauto.
    - destruct R as [-> _]. discriminate. }
  destruct Hauth as [E|E].
  - destruct (U _ _ _ R0 E) as (c & ? & ?). eauto.
  - destruct (U _ _ _ R1 E) as (c & ? & ?). eauto.
Qed.

Theorem C16_withdraw_only_from_lp_token : forall A Q self st caller funds sender amount x,
  pair_execute A Q self st caller funds (JReceive sender amount HWithdrawLiquidity) = Ok x ->
  canon A caller = Some (r_liquidity_token st).
Proof. intros * H. destruct x. apply receive_withdraw_inv in H as (_ & ? & _). assumption. Qed.

(** Every successful call is a deposit, a swap hook or a withdrawal hook. *)
Theorem C16_only_three_calls : forall A Q self st caller funds m x,
  pair_execute A Q self st caller funds m = Ok x ->
  (exists assets tol rcv, m = JProvideLiquidity assets tol rcv) \/
  (exists s a bp ms to, m = JReceive s a (HSwap bp ms to)) \/
  (exists s a, m = JReceive s a HWithdrawLiquidity).
Proof.
  intros * H. unfold pair_execute in H. destruct (jmsg_ranges m); cbn [negb] in H; [|discriminate].
  destruct m; try discriminate; [|left; eauto].
  unfold pair_receive in H. destruct (hook_ranges msg); cbn [negb] in H; [|discriminate].
  destruct msg; try discriminate; right; [left|right]; eauto 10.
Qed.

(** A hook from any other caller fails, so it emits nothing and changes
    nothing. *)
Theorem C16_strangers_fail : forall A Q self st caller funds sender amount h,
  (forall c, human A c = Some caller ->
     (r_asset_infos st).1 <> TokenRaw c /\ (r_asset_infos st).2 <> TokenRaw c) ->
  canon A caller <> Some (r_liquidity_token st) ->
  exists e, pair_execute A Q self st caller funds (JReceive sender amount h) = Err e.
Proof.
  intros * H1 H2. destruct (pair_execute _ _ _ _ _ _ _) as [x|e] eqn:E; [exfalso|eauto].
  destruct (C16_only_three_calls _ _ _ _ _ _ _ _ E) as [(? & ? & ? & X)|[(s & a & bp & ms & to & [= -> -> ->])|(s & a & [= -> -> ->])]].
  - discriminate.
  - apply C16_swap_only_from_asset_contracts in E as (c & Hc & [X|X]); destruct (H1 c Hc); contradiction.
  - apply C16_withdraw_only_from_lp_token in E. contradiction.
Qed.

Example C16_example :
  pair_execute ex_api (ex_querier 1001000 1000000 1000000) "pair" ex_pair "eve" []
    (JReceive "bob" 1000 (HSwap None None None)) = Err EUnauthorized /\
  pair_execute ex_api (ex_querier 1001000 1000000 1000000) "pair" ex_pair "tok" []
    (JReceive "bob" 1000 HWithdrawLiquidity) = Err EUnauthorized /\
  pair_execute ex_api (ex_querier 1001000 1000000 1000000) "pair" ex_pair "lp" []
    (JReceive "bob" 1000 (HSwap None None None)) = Err EUnauthorized.
Proof. vm_compute. auto. Qed.
