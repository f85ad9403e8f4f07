(** What a depositor into a running pool can get back (C67). *)
From Verif Require Import Base BigNumber CwStd BigNumberFacts Asset Messages PairMath Pair PairFacts Token Factory Router
  SwapFacts SwapFacts2 P_Swap P_Pair FactoryFacts P_Factory P_Router TokenFacts World WorldInd WorldFacts WorldInv WorldInd2
  Examples WorldExamples P_Ledger P_Registry ExecFacts P_Exec P_Value P_Deposit P_Sides P_Withdraw.
From Coq Require Import ZifyN.
Local Open Scope N_scope.
Ltac Zify.zify_post_hook ::= idtac.

(** ** Arithmetic *)

(** [n] is the smaller share, earned by a deposit of [d] into [R]. *)
Lemma limiting_side d S R n : R <> 0 -> n = d * S / R -> d * (S + n) < n * (R + d) + R.
Proof. intros HR ->. pose proof (div_hi (d * S) R HR) as X. set (q := d * S / R) in *. lia. Qed.

Lemma div_up x y : y <> 0 -> x < (x / y + 1) * y.
Proof. intros H. pose proof (N.mul_succ_div_gt x y H). lia. Qed.

(** From the exact value to the refund. *)
Lemma worth_refund d S' R' n e : 0 < S' -> d * S' < n * R' + e * S' -> d <= refund R' n S' + R' / 10 ^ 18 + e + 1.
Proof.
  intros HS H. destruct (refund_bounds R' n S' ltac:(lia)) as [_ B]. change D18 with (10 ^ 18) in B. fold (refund R' n S') in B.
  pose proof (div_up R' (10 ^ 18) ltac:(discriminate)) as Q. set (q := R' / 10 ^ 18) in *. set (r := refund R' n S') in *. clearbody q r.
  assert (B1 : R' * n * 10 ^ 18 < (r + 1 + (q + 1)) * S' * 10 ^ 18).
  { assert (R' * S' <= (q + 1) * 10 ^ 18 * S') by (apply N.mul_le_mono_r; lia). lia. }
  assert (B2 : R' * n < (r + 1 + (q + 1)) * S') by (apply N.mul_lt_mono_pos_r in B1; [exact B1|reflexivity]).
  assert (B3 : d * S' < (r + 1 + (q + 1) + e) * S') by lia.
  apply N.mul_lt_mono_pos_r in B3; [lia|exact HS].
Qed.

Lemma limiting_refund d S R n : R <> 0 -> n = d * S / R -> 0 < S ->
  d <= refund (R + d) n (S + n) + R / (S + n) + (R + d) / 10 ^ 18 + 2.
Proof.
  intros HR En HS. pose proof (limiting_side d S R n HR En) as X. pose proof (div_up R (S + n) ltac:(lia)) as Y.
  pose proof (worth_refund d (S + n) (R + d) n (R / (S + n) + 1) ltac:(lia)) as Z. lia.
Qed.

(** The other side, when the slippage check has passed. *)
Lemma other_side d0 d1 S R0 R1 n u : R0 <> 0 -> n = d0 * S / R0 -> u <= 10 ^ 18 -> 0 < S ->
  d1 * u * R0 < R1 * d0 * 10 ^ 18 + 2 * d0 * R0 ->
  d1 * u * (S + n) < (n * (R1 + d1) + R1) * 10 ^ 18 + 2 * R0 * (S + n).
Proof.
  intros HR En Hu HS H. pose proof (div_hi (d0 * S) R0 HR) as X. rewrite <- En in X. clear En.
  assert (A : d1 * u * S * R0 <= (R1 * 10 ^ 18 + 2 * R0) * (d0 * S)).
  { replace (d1 * u * S * R0) with (d1 * u * R0 * S) by lia. replace ((R1 * 10 ^ 18 + 2 * R0) * (d0 * S)) with ((R1 * d0 * 10 ^ 18 + 2 * d0 * R0) * S) by lia.
    apply N.mul_le_mono_r. lia. }
  assert (B : (R1 * 10 ^ 18 + 2 * R0) * (d0 * S) < (R1 * 10 ^ 18 + 2 * R0) * ((n + 1) * R0)).
  { apply N.mul_lt_mono_pos_l; [lia|]. lia. }
  assert (Cc : d1 * u * S < (R1 * 10 ^ 18 + 2 * R0) * (n + 1)).
  { assert (Z : d1 * u * S * R0 < (R1 * 10 ^ 18 + 2 * R0) * (n + 1) * R0) by lia. apply N.mul_lt_mono_pos_r in Z; [exact Z|lia]. }
  assert (D : d1 * u * n <= d1 * 10 ^ 18 * n) by (apply N.mul_le_mono_r, N.mul_le_mono_l; exact Hu).
  assert (E : 2 * R0 * (n + 1) <= 2 * R0 * (S + n)) by (apply N.mul_le_mono_l; lia). lia.
Qed.
Lemma other_refund d0 d1 S R0 R1 n u : R0 <> 0 -> n = d0 * S / R0 -> u <= 10 ^ 18 -> 0 < S ->
  d1 * u * R0 < R1 * d0 * 10 ^ 18 + 2 * d0 * R0 ->
  d1 * u / 10 ^ 18 <= refund (R1 + d1) n (S + n) + R1 / (S + n) + (R1 + d1) / 10 ^ 18 + 2 * R0 / 10 ^ 18 + 3.
Proof.
  intros HR En Hu HS H. pose proof (other_side d0 d1 S R0 R1 n u HR En Hu HS H) as X.
  pose proof (div_up R1 (S + n) ltac:(lia)) as Y. pose proof (div_up (2 * R0) (10 ^ 18) ltac:(discriminate)) as Y2.
  pose proof (div_lo (d1 * u) (10 ^ 18) ltac:(discriminate)) as Y3. set (v := d1 * u / 10 ^ 18) in *.
  set (a := R1 / (S + n)) in *. set (b := 2 * R0 / 10 ^ 18) in *.
  pose proof (worth_refund v (S + n) (R1 + d1) n (a + 1 + (b + 1)) ltac:(lia)) as Z. cut (v * (S + n) < n * (R1 + d1) + (a + 1 + (b + 1)) * (S + n)); [intros W; specialize (Z W); lia|].
  clear Z. clearbody v a b.
  assert (W1 : v * (S + n) * 10 ^ 18 <= d1 * u * (S + n)) by (replace (v * (S + n) * 10 ^ 18) with (v * 10 ^ 18 * (S + n)) by lia; apply N.mul_le_mono_r; exact Y3).
  assert (W2 : 2 * R0 * (S + n) <= (b + 1) * 10 ^ 18 * (S + n)) by (apply N.mul_le_mono_r; lia).
  assert (W3 : v * (S + n) * 10 ^ 18 < (n * (R1 + d1) + (a + 1 + (b + 1)) * (S + n)) * 10 ^ 18) by lia.
  apply N.mul_lt_mono_pos_r in W3; [exact W3|reflexivity].
Qed.

(** ** What a deposit leaves in the pair *)
Lemma deposit_reserves C w p st i0 i1 lp s assets tol rcv funds f w' x lg : chain_ok C -> reachable C w ->
  pair_at w p st -> assets_are C st i0 i1 -> i0 <> i1 -> live w i0 -> live w i1 ->
  human (ch_api C) (r_liquidity_token st) = Some lp -> live w (Token lp) -> i0 <> Token lp -> i1 <> Token lp -> s <> p ->
  exec C f w s (MExecute p (JProvideLiquidity assets tol rcv) funds) = Ok (w', x, lg) ->
  exists d0 d1, declared assets i0 d0 /\ declared assets i1 d1 /\
    can_deposit C w p st i0 i1 (supply w lp) s (receiver_or rcv s) tol d0 d1 /\
    supply w' lp = supply w lp + earned (supply w lp) d0 d1 (holds w p i0) (holds w p i1) /\
    holds w' p i0 = holds w p i0 + d0 /\ holds w' p i1 = holds w p i1 + d1.
Proof.
  intros OK Hr Hp Has H01 L0 L1 Hlp (ts & Ht) H0l H1l Hsp E.
  pose proof (C54_deposit_effect C w p st i0 i1 lp ts s assets tol rcv funds f w' x lg OK Hr Hp Has H01 L0 L1 Hlp Ht H0l H1l Hsp E) as X.
  cbv zeta in X. destruct X as (d0 & d1 & ts1 & D0 & D1 & Cd & Hh & Ht1 & Es & _).
  exists d0, d1. split; [exact D0|]. split; [exact D1|]. rewrite (supply_at _ _ _ Ht), (supply_at _ _ _ Ht1). split; [exact Cd|]. split; [exact Es|].
  fold (given s p (stray i0 i1 funds)) in Hh. setoid_rewrite left_app in Hh. setoid_rewrite arrived_app in Hh. setoid_rewrite given_left in Hh. setoid_rewrite given_arrived in Hh.
  cbn [left_ arrived fold_right] in Hh.
  assert (St : forall i, i = i0 \/ i = i1 -> match i with Native d => coin_sum d (stray i0 i1 funds) | Token _ => 0 end = 0).
  { intros [t|d] Hi; [reflexivity|]. rewrite stray_sum. rewrite decide_True by exact Hi. reflexivity. }
  split.
  - pose proof (Hh p i0) as Z. pose proof (St i0 (or_introl eq_refl)) as Z'. rewrite !(if_and (p = _) (_ = _)) in Z.
    rewrite !(decide_False (P := p = s)) in Z by congruence. rewrite !(decide_True (P := p = p)) in Z by reflexivity.
    rewrite !(decide_True (P := i0 = i0)), !(decide_False (P := i0 = i1)), !(decide_False (P := i0 = Token lp)) in Z by congruence.
    destruct i0; destruct (decide (p = receiver_or rcv s)); lia.
  - pose proof (Hh p i1) as Z. pose proof (St i1 (or_intror eq_refl)) as Z'. rewrite !(if_and (p = _) (_ = _)) in Z.
    rewrite !(decide_False (P := p = s)) in Z by congruence. rewrite !(decide_True (P := p = p)) in Z by reflexivity.
    rewrite !(decide_True (P := i1 = i1)), !(decide_False (P := i1 = i0)), !(decide_False (P := i1 = Token lp)) in Z by congruence.
    destruct i1; destruct (decide (p = receiver_or rcv s)); lia.
Qed.

(** ** C67 *)

(** When LP tokens exist, an executed deposit that earns [n] of them loses on at
    least one of its two sides (the one that limits the share) no more than what
    one LP token is worth, plus rounding; and the [n] tokens are worth more than
    half of what was deposited on that side. *)
Theorem C67_limiting_side C w p st i0 i1 lp s assets tol rcv funds f w' x lg n : chain_ok C -> reachable C w ->
  pair_at w p st -> assets_are C st i0 i1 -> i0 <> i1 -> live w i0 -> live w i1 ->
  human (ch_api C) (r_liquidity_token st) = Some lp -> live w (Token lp) -> i0 <> Token lp -> i1 <> Token lp -> s <> p ->
  0 < supply w lp ->
  exec C f w s (MExecute p (JProvideLiquidity assets tol rcv) funds) = Ok (w', x, lg) ->
  supply w' lp = supply w lp + n ->
  0 < n /\ exists i d, (i = i0 \/ i = i1) /\ declared assets i d /\
    d <= redeemable w' p lp i n + holds w p i / supply w' lp + holds w' p i / 10 ^ 18 + 2 /\
    (0 < d -> d * supply w' lp < 2 * (n * holds w' p i)).
Proof.
  intros OK Hr Hp Has H01 L0 L1 Hlp Lt H0l H1l Hsp HS E Hn.
  destruct (deposit_reserves C w p st i0 i1 lp s assets tol rcv funds f w' x lg OK Hr Hp Has H01 L0 L1 Hlp Lt H0l H1l Hsp E)
    as (d0 & d1 & D0 & D1 & Cd & Es & E0 & E1).
  assert (En : n = earned (supply w lp) d0 d1 (holds w p i0) (holds w p i1)) by lia.
  assert (Pn : 0 < n) by (rewrite En; exact (cd_earned _ _ _ _ _ _ _ _ _ _ _ _ Cd)).
  destruct (cd_later _ _ _ _ _ _ _ _ _ _ _ _ Cd ltac:(lia)) as (P0 & P1 & _).
  unfold earned in En. destruct (N.eqb_spec (supply w lp) 0); [lia|]. split; [exact Pn|].
  assert (K : forall i d, 0 < holds w p i -> holds w' p i = holds w p i + d -> n = d * supply w lp / holds w p i ->
    d <= redeemable w' p lp i n + holds w p i / supply w' lp + holds w' p i / 10 ^ 18 + 2 /\
    (0 < d -> d * supply w' lp < 2 * (n * holds w' p i))).
  { intros i d Pi Ei En'. unfold redeemable. rewrite Ei, Hn. split; [apply limiting_refund; [lia|exact En'|exact HS]|].
    intros Pd. pose proof (limiting_side d (supply w lp) (holds w p i) n ltac:(lia) En') as X. rewrite Hn in *.
    assert (1 * (holds w p i + d) <= n * (holds w p i + d)) by (apply N.mul_le_mono_r; lia). lia. }
  destruct (N.min_spec (d0 * supply w lp / holds w p i0) (d1 * supply w lp / holds w p i1)) as [[_ Em]|[_ Em]]; rewrite Em in En.
  - exists i0, d0. auto.
  - exists i1, d1. auto.
Qed.

(** What is redeemable is what a withdrawal pays: whoever sends the [n] tokens
    earned by the deposit back to the pair receives on one side all of what was
    deposited there but for the same slack. *)
Theorem C67_round_trip_loss C w p st i0 i1 lp s assets tol rcv funds w' lg n s2 g w'' x lg2 : chain_ok C -> reachable C w ->
  pair_at w p st -> assets_are C st i0 i1 -> i0 <> i1 -> live w i0 -> live w i1 ->
  human (ch_api C) (r_liquidity_token st) = Some lp -> live w (Token lp) -> i0 <> Token lp -> i1 <> Token lp ->
  0 < supply w lp ->
  tx C w s (MExecute p (JProvideLiquidity assets tol rcv) funds) w' lg ->
  supply w' lp = supply w lp + n -> s2 <> p ->
  exec C g w' s2 (MExecute lp (JSend p n HWithdrawLiquidity) []) = Ok (w'', x, lg2) ->
  exists i d, (i = i0 \/ i = i1) /\ declared assets i d /\
    holds w' s2 i + d <= holds w'' s2 i + holds w p i / supply w' lp + holds w' p i / 10 ^ 18 + 2.
Proof.
  intros OK Hr Hp Has H01 L0 L1 Hlp Lt H0l H1l HS T Hn Hs2 E2.
  assert (Hr' : reachable C w') by (eapply reach_tx; eauto).
  assert (Hsp : s <> p).
  { destruct T as ((_ & O) & _). intros ->. apply state_at_inst in Hp as (ad & Hi).
    destruct (proj1 (mn_fresh _ _ (reachable_main C OK w Hr) p) (ex_intro _ _ Hi)) as (k & _ & Hk). exact (O k (eq_sym Hk)). }
  destruct T as (O & f & y & E).
  destruct (C67_limiting_side C w p st i0 i1 lp s assets tol rcv funds f w' y lg n OK Hr Hp Has H01 L0 L1 Hlp Lt H0l H1l Hsp HS E Hn)
    as (_ & i & d & Hi & Dd & Le & _).
  exists i, d. split; [exact Hi|]. split; [exact Dd|].
  pose proof (main_sane C w (reachable_main C OK w Hr)) as Sn.
  destruct (exec_main C OK f w s (MExecute p (JProvideLiquidity assets tol rcv) funds) w' y lg (reachable_main C OK w Hr) O E) as [_ R].
  destruct Lt as (ts & Ht). destruct (rl_toks _ _ _ R _ _ Ht) as (ts' & Ht' & _).
  assert (Lv : forall k, live w k -> live w' k).
  { intros [t|] L; [|exact I]. destruct L as (us & Hu). destruct (rl_toks _ _ _ R _ _ Hu) as (us' & Hu' & _). exists us'. exact Hu'. }
  assert (Hp' : pair_at w' p st).
  { destruct (rl_pairs _ _ _ R _ _ Hp) as (st' & Hp' & [->|(_ & X & _)]); [exact Hp'|]. exfalso. rewrite X in Hlp.
    apply (api_human_canon C OK) in Hlp. exact (canon_nonempty C OK _ Hlp). }
  destruct (C59_withdraw_effect C w' p st i0 i1 lp ts' s2 n g w'' x lg2 OK Hr' Hp' Has (Lv _ L0) (Lv _ L1) Hlp Ht' H0l H1l E2)
    as (_ & _ & _ & B).
  specialize (B s2 i). cbn [left_ arrived fold_right] in B.
  assert (Es : tk_supply ts' = supply w' lp) by (unfold supply; unfold tok_at in Ht'; rewrite Ht'; reflexivity).
  rewrite Es in B. unfold redeemable in Le.
  destruct Hi as [->| ->]; repeat match type of B with context [decide ?P] => destruct (decide P) as [[? ?]|?]; try congruence; try tauto end; lia.
Qed.

(** With a slippage tolerance [t] the same holds on both sides for the fraction
    1 - t of the deposit. *)
Theorem C67_with_tolerance C w p st i0 i1 lp s assets t rcv funds f w' x lg n i j d : chain_ok C -> reachable C w ->
  pair_at w p st -> assets_are C st i0 i1 -> i0 <> i1 -> live w i0 -> live w i1 ->
  human (ch_api C) (r_liquidity_token st) = Some lp -> live w (Token lp) -> i0 <> Token lp -> i1 <> Token lp -> s <> p ->
  0 < supply w lp ->
  exec C f w s (MExecute p (JProvideLiquidity assets (Some t) rcv) funds) = Ok (w', x, lg) ->
  supply w' lp = supply w lp + n ->
  (i = i0 /\ j = i1) \/ (i = i1 /\ j = i0) -> declared assets i d ->
  d * (10 ^ 18 - t) / 10 ^ 18 <=
    redeemable w' p lp i n + holds w p i / supply w' lp + holds w' p i / 10 ^ 18 + 2 * holds w p j / 10 ^ 18 + 3.
Proof.
  intros OK Hr Hp Has H01 L0 L1 Hlp Lt H0l H1l Hsp HS E Hn Hij Dd.
  destruct (deposit_reserves C w p st i0 i1 lp s assets (Some t) rcv funds f w' x lg OK Hr Hp Has H01 L0 L1 Hlp Lt H0l H1l Hsp E)
    as (d0 & d1 & D0 & D1 & Cd & Es & E0 & E1).
  assert (En : n = earned (supply w lp) d0 d1 (holds w p i0) (holds w p i1)) by lia.
  destruct (cd_later _ _ _ _ _ _ _ _ _ _ _ _ Cd ltac:(lia)) as (P0 & P1 & _).
  unfold earned in En. destruct (N.eqb_spec (supply w lp) 0); [lia|].
  pose proof (cd_tol _ _ _ _ _ _ _ _ _ _ _ _ Cd) as T.
  assert (B0 : d0 < B128) by (apply (proj1 (cd_pay0 _ _ _ _ _ _ _ _ _ _ _ _ Cd))).
  assert (B1 : d1 < B128) by (apply (proj1 (cd_pay1 _ _ _ _ _ _ _ _ _ _ _ _ Cd))).
  assert (HR : forall k, can_pay w s p k d0 \/ can_pay w s p k d1 -> live w k -> holds w p k < B128).
  { intros k Hk Lk. destruct k as [u|dn]; [|destruct Hk as [(_ & _ & Hk)|(_ & _ & Hk)]; change B128 with (2 ^ 128); lia].
    destruct Lk as (us & Hu). destruct (mn_tokens _ _ (reachable_main C OK w Hr) _ _ Hu) as [Eu Lu _].
    cbn [holds]. unfold tok_at in Hu. rewrite Hu. pose proof (balance_le_sum us p). lia. }
  pose proof (HR i0 (or_introl (cd_pay0 _ _ _ _ _ _ _ _ _ _ _ _ Cd)) L0) as R0.
  pose proof (HR i1 (or_intror (cd_pay1 _ _ _ _ _ _ _ _ _ _ _ _ Cd)) L1) as R1. clear HR.
  destruct T as (T1 & T2 & T3 & T4 & T5 & T6 & T7).
  apply slip_sound in T6, T7; try assumption; try (apply N.neq_0_lt_0; assumption). change D18 with (10 ^ 18) in *.
  assert (Dn : forall k a b, declared assets k a -> declared assets k b -> a = b).
  { intros k a b Ha Hb. clear - Ha Hb. unfold declared in *. intuition congruence. }
  assert (Le : forall d', d' * (10 ^ 18 - t) / 10 ^ 18 <= d').
  { intros d'. apply N.div_le_upper_bound; [discriminate|]. rewrite (N.mul_comm (10 ^ 18)). apply N.mul_le_mono_l. lia. }
  assert (K : forall i j a b, 0 < holds w p i -> 0 < holds w p j -> holds w' p i = holds w p i + a -> holds w' p j = holds w p j + b ->
    a * (10 ^ 18 - t) * holds w p j < holds w p i * b * 10 ^ 18 + 2 * b * holds w p j ->
    n = a * supply w lp / holds w p i \/ n = b * supply w lp / holds w p j ->
    a * (10 ^ 18 - t) / 10 ^ 18 <=
    redeemable w' p lp i n + holds w p i / supply w' lp + holds w' p i / 10 ^ 18 + 2 * holds w p j / 10 ^ 18 + 3).
  { intros k l a b Pk Pl Ek El Hs [X|X]; unfold redeemable; rewrite Ek, Hn.
    - pose proof (limiting_refund a (supply w lp) (holds w p k) n ltac:(lia) X HS) as Y. specialize (Le a).
      generalize (2 * holds w p l / 10 ^ 18). intros q. lia.
    - apply (other_refund b); try assumption; lia. }
  assert (Sp : n = d0 * supply w lp / holds w p i0 \/ n = d1 * supply w lp / holds w p i1).
  { destruct (N.min_spec (d0 * supply w lp / holds w p i0) (d1 * supply w lp / holds w p i1)) as [[_ Em]|[_ Em]]; rewrite Em in En; auto. }
  destruct Hij as [[-> ->]|[-> ->]].
  - rewrite (Dn _ _ _ Dd D0). apply (K i0 i1 d0 d1); try assumption.
  - rewrite (Dn _ _ _ Dd D1). apply (K i1 i0 d1 d0); try assumption. tauto.
Qed.

(** A deposit with a tolerance of 5%. *)
Definition ex_fair : bool * cmsg :=
  (true, MExecute "#4" (JProvideLiquidity (Asset (Token "#1") 1000000, Asset (Native "uaura") 2050000) (Some 50000000000000000) None) [Coin "uaura" 2050000])%string.
(** The bound is not about rounding alone: the owner of the only 1000 LP tokens
    has donated ten million units to each side, so one LP token is worth ten
    thousand units and a deposit of 19999 units earns a single one. *)
Definition dear_setup : list (bool * cmsg) :=
  [(true, MInstantiate None 3 (IFactory 1 2) [] "factory");
   (true, big_tok "token one" "TOKA"); (true, big_tok "token two" "TOKB");
   (true, x_call "#0" (JCreatePair (Token "#1", Token "#2") ex_wl));
   (true, x_call "#1" (JIncreaseAllowance "#3" (10 ^ 19) None));
   (true, x_call "#2" (JIncreaseAllowance "#3" (10 ^ 19) None));
   (true, x_call "#3" (JProvideLiquidity (Asset (Token "#1") 1000, Asset (Token "#2") 1000) None None));
   (true, x_call "#1" (JTransfer "#3" 10000000)); (true, x_call "#2" (JTransfer "#3" 10000000));
   (true, x_call "#1" (JTransfer "bob" 100000)); (true, x_call "#2" (JTransfer "bob" 100000));
   (false, x_call "#1" (JIncreaseAllowance "#3" 100000 None)); (false, x_call "#2" (JIncreaseAllowance "#3" 100000 None))]%string.
Definition dear_world : world := after ex_genesis dear_setup.
Definition dear_deposit : bool * cmsg := (false, x_call "#3" (JProvideLiquidity (Asset (Token "#1") 19999, Asset (Token "#2") 19999) (Some 0) None)).
Definition dear_pair : pair_info_raw := PairInfoRaw (TokenRaw "#1", TokenRaw "#2") "#3" "#4" (6, 6) ex_wl.

Example C67_case :
  let w' := after ex_world [ex_fair] in
  reachable ex_chain ex_world /\ pair_at ex_world "#4" ex_pair4 /\ assets_are ex_chain ex_pair4 (Token "#1") (Native "uaura") /\
  live ex_world (Token "#1") /\ human ex_api (r_liquidity_token ex_pair4) = Some "#5"%string /\ live ex_world (Token "#5") /\
  is_ok (script ex_world [ex_fair]) = true /\
  supply ex_world "#5" = 14142135 /\ supply w' "#5" = 14142135 + 1414213 /\
  redeemable w' "#4" "#5" (Token "#1") 1414213 = 999999 /\ redeemable w' "#4" "#5" (Native "uaura") 1414213 = 2004544.
Proof.
  split; [exact ex_reachable|]. split; [exact ex_pair4_at|]. split; [split; reflexivity|].
  split; [exists (tok_of ex_world "#1"); apply tok_of_at; vm_compute; reflexivity|]. split; [reflexivity|].
  split; [exists (tok_of ex_world "#5"); apply tok_of_at; vm_compute; reflexivity|]. vm_compute. auto 12.
Qed.

(** The same deposit, withdrawn again: 999999 of 1000000 and 2004544 of 2050000
    come back. *)
Definition ex_unfair : bool * cmsg := (true, x_call "#5" (JSend "#4" 1414213 HWithdrawLiquidity)).
Example C67_round_trip_case :
  let w' := after ex_world [ex_fair] in let w'' := after w' [ex_unfair] in
  is_ok (script ex_world [ex_fair]) = true /\ is_ok (script w' [ex_unfair]) = true /\ 0 < supply ex_world "#5" /\
  supply w' "#5" = supply ex_world "#5" + 1414213 /\
  holds w'' "alice" (Token "#1") = holds w' "alice" (Token "#1") + 999999 /\
  holds w'' "alice" (Native "uaura") = holds w' "alice" (Native "uaura") + 2004544.
Proof. vm_compute. auto 12. Qed.

(** So "a deposit in proportion loses only a rounding unit" is false: this one,
    with slippage tolerance zero, earns one LP token and gets back 10010 of 19999
    on both sides. *)
Theorem C67_rounding_only_refuted : exists C w s assets w' p st lp i0 i1,
  chain_ok C /\ reachable C w /\ pair_at w p st /\ assets_are C st i0 i1 /\ i0 <> i1 /\ live w i0 /\ live w i1 /\
  human (ch_api C) (r_liquidity_token st) = Some lp /\ live w (Token lp) /\
  declared assets i0 19999 /\ declared assets i1 19999 /\ holds w p i0 = holds w p i1 /\
  (exists f x lg, exec C f w s (MExecute p (JProvideLiquidity assets (Some 0) None) []) = Ok (w', x, lg)) /\
  supply w' lp = supply w lp + 1 /\ redeemable w' p lp i0 1 = 10010 /\ redeemable w' p lp i1 1 = 10010.
Proof.
  exists ex_chain, dear_world, "bob"%string, (Asset (Token "#1") 19999, Asset (Token "#2") 19999), (after dear_world [dear_deposit]),
    "#3"%string, dear_pair, "#4"%string, (Token "#1"), (Token "#2").
  split; [exact ex_chain_ok|]. split; [eapply history_reachable; [apply reach_genesis|apply after_history]|].
  split; [vm_compute; reflexivity|]. split; [split; reflexivity|]. split; [discriminate|].
  split; [exists (tok_of dear_world "#1"); apply tok_of_at; vm_compute; reflexivity|].
  split; [exists (tok_of dear_world "#2"); apply tok_of_at; vm_compute; reflexivity|].
  split; [reflexivity|].
  split; [exists (tok_of dear_world "#4"); apply tok_of_at; vm_compute; reflexivity|].
  split; [left; split; reflexivity|]. split; [right; split; [discriminate|split; reflexivity]|]. split; [vm_compute; reflexivity|].
  split; [|vm_compute; auto].
  destruct (one_tx dear_world false (dear_deposit.2)) as (_ & f & x & E); [vm_compute; reflexivity|]. exists f, x, (log_of dear_world [dear_deposit]). exact E.
Qed.
