(** Splitting deposits and withdrawals into any number of parts (C86). *)
From Verif Require Import Base BigNumber CwStd BigNumberFacts Asset Messages PairMath Pair PairFacts Token Factory Router
  SwapFacts SwapFacts2 P_Swap P_Pair FactoryFacts P_Factory P_Router TokenFacts World WorldInd WorldFacts WorldInv WorldInd2
  Examples WorldExamples P_Ledger P_Registry ExecFacts P_Exec P_Deposit P_Withdraw P_Quotes P_Split P_Parts P_Value.
From Coq Require Import ZifyN.
Local Open Scope N_scope.
Ltac Zify.zify_post_hook ::= idtac.

(** ** Specification *)

(** LP tokens [lp] of the pair [p] are redeemed in parts, one after another, by
    anybody. *)
Inductive redeemed (C : chain) (p lp : string) : world -> list N -> world -> Prop :=
| redeemed_nil w : redeemed C p lp w [] w
| redeemed_part w s n w1 lg l w' : tx C w s (MExecute lp (JSend p n HWithdrawLiquidity) []) w1 lg ->
    redeemed C p lp w1 l w' -> redeemed C p lp w (n :: l) w'.

(** The pair [p] receives [k] deposits, one after another, from anybody and for
    anybody. *)
Inductive deposited (C : chain) (p : string) : world -> nat -> world -> Prop :=
| deposited_nil w : deposited C p w 0 w
| deposited_part w s assets tol rcv funds w1 lg k w' : tx C w s (MExecute p (JProvideLiquidity assets tol rcv) funds) w1 lg ->
    deposited C p w1 k w' -> deposited C p w (S k) w'.

(** ** Withdrawals *)
Lemma after_tx C w s m w1 lg p st : chain_ok C -> reachable C w -> tx C w s m w1 lg -> pair_at w p st ->
  reachable C w1 /\ pair_at w1 p st /\ s <> p /\ (forall i, live w i -> live w1 i).
Proof.
  intros OK Hr Tx Hp. assert (Hh : history C w lg w1) by (apply (hist_tx C w [] w s m w1 lg); [constructor|exact Tx]).
  pose proof (reachable_main C OK w Hr) as M. destruct (history_main C OK w lg w1 M Hh) as [M1 R1].
  split; [exact (history_reachable C w lg w1 Hr Hh)|]. split; [exact (proj1 (C47_pair_immutable C w lg w1 p st OK Hr Hh Hp))|]. split.
  - destruct (pair_fresh C w p st M Hp) as (n0 & Ep). destruct Tx as ([Ns O] & _). intros ->. exact (O n0 (eq_sym Ep)).
  - intros [u|d]; [|auto]. intros (us & Hu). destruct (rl_toks _ _ _ R1 _ _ Hu) as (us' & Hu' & _). exists us'. exact Hu'.
Qed.

(** One withdrawal of [n] of [S] LP tokens leaves at least the pro-rata part of
    the reserve [x], and at most a rounding error more. *)
Lemma refund_left x n S : 0 < S -> n <= S -> let y := x - refund x n S in refund x n S <= x /\
  x * (S - n) <= y * S /\ y * S * 10 ^ 18 <= x * (S - n) * 10 ^ 18 + (x + 10 ^ 18) * S.
Proof.
  intros HS Hn y. destruct (refund_bounds x n S ltac:(lia)) as [A B]. change D18 with (10 ^ 18) in A, B. fold (refund x n S) in A, B.
  set (r := refund x n S) in *. assert (L : r <= x). { apply (N.mul_le_mono_pos_r _ _ S); [exact HS|]. nia. }
  split; [exact L|]. assert (Ey : y + r = x) by (unfold y; lia). clearbody y r. subst x.
  set (b := S - n). assert (Eb : b + n = S) by (unfold b; lia). clearbody b. set (d := 10 ^ 18) in *. clearbody d. subst S. split; nia.
Qed.

Lemma redeemed_sides C p lp st i0 i1 l : chain_ok C -> assets_are C st i0 i1 -> i0 <> i1 ->
  human (ch_api C) (r_liquidity_token st) = Some lp -> i0 <> Token lp -> i1 <> Token lp ->
  forall w w' ts, reachable C w -> pair_at w p st -> live w i0 -> live w i1 -> tok_at w lp ts -> redeemed C p lp w l w' ->
  exists ts', tok_at w' lp ts' /\ tk_supply ts' + total l = tk_supply ts /\
    forall i, i = i0 \/ i = i1 -> let x := holds w p i in let y := holds w' p i in
      y <= x /\ x * tk_supply ts' <= y * tk_supply ts /\
      y * tk_supply ts * 10 ^ 18 <= x * tk_supply ts' * 10 ^ 18 + N.of_nat (Datatypes.length l) * ((x + 10 ^ 18) * tk_supply ts).
Proof.
  intros OK Has H01 Hlp H0l H1l. induction l as [|n l IH]; intros w w' ts Hr Hp L0 L1 Ht Hd; inversion Hd; subst.
  { exists ts. split; [exact Ht|]. cbn [total fold_right Datatypes.length]. split; [lia|]. intros i _. cbv zeta. lia. }
  match goal with X : tx C w s _ w1 lg |- _ => pose proof X as Tx end.
  destruct (after_tx C w s _ w1 lg p st OK Hr Tx Hp) as (Hr1 & Hp1 & Hsp & Lv).
  destruct Tx as (_ & f & x & E).
  pose proof (withdraw_tx_inv C OK f w lp p s n st i0 i1 ts w1 x lg (main_sane C w (reachable_main C OK w Hr)) Hp Has L0 L1 Hlp Ht H0l H1l E) as Y.
  cbv zeta in Y. destruct Y as (_ & _ & Hn & _ & _). 
  destruct (C59_withdraw_effect C w p st i0 i1 lp ts s n f w1 x lg OK Hr Hp Has L0 L1 Hlp Ht H0l H1l E) as (ts1 & Ht1 & Es & Hh).
  match goal with X : redeemed C p lp w1 l w' |- _ => destruct (IH w1 w' ts1 Hr1 Hp1 (Lv _ L0) (Lv _ L1) Ht1 X) as (ts' & Ht' & Es' & Hi) end.
  exists ts'. split; [exact Ht'|]. cbn [total fold_right Datatypes.length]. fold (total l). split; [lia|].
  assert (HS : 0 < tk_supply ts) by lia. assert (HnS : n <= tk_supply ts) by lia.
  assert (St : forall i, i = i0 \/ i = i1 -> holds w1 p i = holds w p i - refund (holds w p i) n (tk_supply ts)).
  { intros i Hii. specialize (Hh p i). cbn [left_ arrived fold_right] in Hh.
    destruct (refund_left (holds w p i) n (tk_supply ts) HS HnS) as (L & _).
    assert (Hi' : i <> Token lp) by (destruct Hii; congruence).
    repeat match type of Hh with context [decide ?P] => destruct (decide P) as [?D|?D] end;
      try (exfalso; intuition congruence); destruct Hii as [-> | ->]; try (exfalso; intuition congruence); lia. }
  intros i Hii. cbv zeta. specialize (Hi i Hii). cbv zeta in Hi. destruct Hi as (A & B & D). rewrite (St i Hii) in A, B, D.
  pose proof (refund_left (holds w p i) n (tk_supply ts) HS HnS) as R. cbv zeta in R. destruct R as (R0 & R1 & R2).
  set (X := holds w p i) in *. set (r := refund X n (tk_supply ts)) in *. set (Z := holds w' p i) in *.
  assert (Y : exists Y, Y + r = X /\ X - r = Y) by (exists (X - r); lia). destruct Y as (Y & EY & EY'). rewrite EY' in *. clear EY'.
  replace (tk_supply ts - n) with (tk_supply ts1) in * by lia.
  assert (HT : tk_supply ts1 <= tk_supply ts) by lia. assert (HU : tk_supply ts' <= tk_supply ts1) by lia.
  change uint128 with N in *. set (Sa := tk_supply ts) in *. set (Sb := tk_supply ts1) in *. set (Sc := tk_supply ts') in *.
  rewrite Nat2N.inj_succ. set (k := N.of_nat (Datatypes.length l)) in *. clearbody X r Z Sa Sb Sc k.
  split; [lia|]. clear Hh St IH E Es Es'.
  destruct (N.eq_dec Sb 0) as [->|Hb].
  - assert (Sc = 0) as -> by lia. split; [nia|].
    assert (Z * Sa * 10 ^ 18 <= Y * Sa * 10 ^ 18) by (apply N.mul_le_mono_r, N.mul_le_mono_r; exact A).
    assert ((X + 10 ^ 18) * Sa <= N.succ k * ((X + 10 ^ 18) * Sa)) by nia. lia.
  - split.
    + apply (N.mul_le_mono_pos_r _ _ Sb); [lia|].
      assert (X * Sc * Sb <= Y * Sa * Sc) by nia. assert (Y * Sc * Sa <= Z * Sb * Sa) by (apply N.mul_le_mono_r; exact B). lia.
    + set (d := 10 ^ 18) in *. clearbody d. apply (N.mul_le_mono_pos_r _ _ Sb); [lia|].
      assert (Q1 : Z * Sb * d * Sa <= (Y * Sc * d + k * ((Y + d) * Sb)) * Sa) by (apply N.mul_le_mono_r; exact D).
      assert (Q2 : Y * Sa * d * Sc <= (X * Sb * d + (X + d) * Sa) * Sc) by (apply N.mul_le_mono_r; exact R2).
      assert (Q3 : (X + d) * Sa * Sc <= (X + d) * Sa * Sb) by (apply N.mul_le_mono_l; exact HU).
      assert (Q4 : k * ((Y + d) * Sb) * Sa <= k * ((X + d) * Sb) * Sa) by (apply N.mul_le_mono_r, N.mul_le_mono_l, N.mul_le_mono_r; lia).
      rewrite N.mul_succ_l.
      replace (Z * Sa * d * Sb) with (Z * Sb * d * Sa) by lia.
      transitivity ((Y * Sc * d + k * ((Y + d) * Sb)) * Sa); [exact Q1|].
      replace ((Y * Sc * d + k * ((Y + d) * Sb)) * Sa) with (Y * Sa * d * Sc + k * ((Y + d) * Sb) * Sa) by lia.
      transitivity ((X * Sb * d + (X + d) * Sa) * Sc + k * ((X + d) * Sb) * Sa); [lia|].
      replace ((X * Sb * d + (X + d) * Sa) * Sc) with (X * Sc * d * Sb + (X + d) * Sa * Sc) by lia.
      transitivity (X * Sc * d * Sb + (X + d) * Sa * Sb + k * ((X + d) * Sb) * Sa); [lia|]. lia.
Qed.

(** ** C86 *)

(** However many LP tokens are redeemed, in however many parts: together they
    pay at most the exact pro-rata share of each reserve as it was before the
    first part, and less by at most one unit, and one per 10^18 units of the
    reserve, for each part. *)
Theorem C86_withdrawals_pro_rata C w p st i0 i1 lp ts l w' i : chain_ok C -> reachable C w ->
  pair_at w p st -> assets_are C st i0 i1 -> i0 <> i1 -> live w i0 -> live w i1 ->
  human (ch_api C) (r_liquidity_token st) = Some lp -> tok_at w lp ts -> i0 <> Token lp -> i1 <> Token lp ->
  redeemed C p lp w l w' -> i = i0 \/ i = i1 ->
  let x := holds w p i in let s := tk_supply ts in
  total l <= s /\ paid_out w w' p i * s <= x * total l /\
  x * total l * 10 ^ 18 <= (paid_out w w' p i * 10 ^ 18 + N.of_nat (Datatypes.length l) * (x + 10 ^ 18)) * s.
Proof.
  intros OK Hr Hp Has H01 L0 L1 Hlp Ht H0l H1l Hd Hi x s.
  destruct (redeemed_sides C p lp st i0 i1 l OK Has H01 Hlp H0l H1l w w' ts Hr Hp L0 L1 Ht Hd) as (ts' & Ht' & Es & G).
  specialize (G i Hi). cbv zeta in G. fold x s in G, Es. destruct G as (A & B & D). unfold paid_out. fold x.
  split; [lia|]. set (y := holds w' p i) in *. change uint128 with N in *. set (s' := tk_supply ts') in *. set (k := N.of_nat _) in *. set (n := total l) in *.
  assert (Ey : exists q, q + y = x /\ x - y = q) by (exists (x - y); lia). destruct Ey as (q & Ey & ->). clearbody x s y s' k n.
  set (d := 10 ^ 18) in *. clearbody d. subst s. clear Hi Ht Ht' Hd. subst x. split; nia.
Qed.
Print Assumptions C86_withdrawals_pro_rata.

(** Compared with one withdrawal of the whole amount from the same state, the
    parts together gain at most one unit (and one per 10^18 units of the
    reserve) and lose at most that much per part. *)
Theorem C86_withdrawals_vs_one C w p st i0 i1 lp ts l w' s w1 lg i : chain_ok C -> reachable C w ->
  pair_at w p st -> assets_are C st i0 i1 -> i0 <> i1 -> live w i0 -> live w i1 ->
  human (ch_api C) (r_liquidity_token st) = Some lp -> tok_at w lp ts -> i0 <> Token lp -> i1 <> Token lp ->
  redeemed C p lp w l w' -> tx C w s (MExecute lp (JSend p (total l) HWithdrawLiquidity) []) w1 lg -> i = i0 \/ i = i1 ->
  let x := holds w p i in
  paid_out w w' p i <= paid_out w w1 p i + x / 10 ^ 18 + 1 /\
  paid_out w w1 p i * 10 ^ 18 <= paid_out w w' p i * 10 ^ 18 + N.of_nat (Datatypes.length l) * (x + 10 ^ 18).
Proof.
  intros OK Hr Hp Has H01 L0 L1 Hlp Ht H0l H1l Hd Tx Hi x.
  pose proof (C86_withdrawals_pro_rata C w p st i0 i1 lp ts l w' i OK Hr Hp Has H01 L0 L1 Hlp Ht H0l H1l Hd Hi) as U. cbv zeta in U.
  assert (Hd1 : redeemed C p lp w [total l] w1) by exact (redeemed_part C p lp w s (total l) w1 lg [] w1 Tx (redeemed_nil C p lp w1)).
  pose proof (C86_withdrawals_pro_rata C w p st i0 i1 lp ts [total l] w1 i OK Hr Hp Has H01 L0 L1 Hlp Ht H0l H1l Hd1 Hi) as V. cbv zeta in V.
  cbn [Datatypes.length] in V. replace (total [total l]) with (total l) in V by (cbn [total fold_right]; lia).
  destruct Tx as (_ & f & o & E).
  pose proof (withdraw_tx_inv C OK f w lp p s (total l) st i0 i1 ts w1 o lg (main_sane C w (reachable_main C OK w Hr)) Hp Has L0 L1 Hlp Ht H0l H1l E) as Y.
  cbv zeta in Y. destruct Y as (_ & _ & Hn & _ & _). destruct U as (U0 & U1 & U2). destruct V as (_ & V1 & V2).
  change (N.of_nat 1) with 1 in V2. rewrite N.mul_1_l in V2.
  set (a := paid_out w w' p i) in *. set (b := paid_out w w1 p i) in *. fold x in U1, U2, V1, V2. change uint128 with N in *.
  set (S := tk_supply ts) in *. set (n := total l) in *. set (k := N.of_nat _) in *. assert (HS : 0 < S) by lia.
  assert (W1 : a * 10 ^ 18 <= b * 10 ^ 18 + x + 10 ^ 18).
  { apply (N.mul_le_mono_pos_r _ _ S); [exact HS|]. clearbody a b x S n k. set (d := 10 ^ 18) in *. clearbody d. nia. }
  split.
  - pose proof (N.mul_succ_div_gt x (10 ^ 18) ltac:(discriminate)). set (q := x / 10 ^ 18) in *. clearbody q a b x. nia.
  - apply (N.mul_le_mono_pos_r _ _ S); [exact HS|]. clearbody a b x S n k. set (d := 10 ^ 18) in *. clearbody d. nia.
Qed.
Print Assumptions C86_withdrawals_vs_one.

(** ** Deposits *)
Lemma deposit_step C w p st i0 i1 lp ts s assets tol rcv funds w1 lg : chain_ok C -> reachable C w ->
  pair_at w p st -> assets_are C st i0 i1 -> i0 <> i1 -> live w i0 -> live w i1 ->
  human (ch_api C) (r_liquidity_token st) = Some lp -> tok_at w lp ts -> i0 <> Token lp -> i1 <> Token lp ->
  tx C w s (MExecute p (JProvideLiquidity assets tol rcv) funds) w1 lg ->
  exists d0 d1 ts1, tok_at w1 lp ts1 /\ holds w1 p i0 = holds w p i0 + d0 /\ holds w1 p i1 = holds w p i1 + d1 /\
    let share := earned (tk_supply ts) d0 d1 (holds w p i0) (holds w p i1) in
    0 < share /\ tk_supply ts1 = tk_supply ts + share /\ (tk_supply ts <> 0 -> 0 < holds w p i0 /\ 0 < holds w p i1).
Proof.
  intros OK Hr Hp Has H01 L0 L1 Hlp Ht H0l H1l Tx. destruct (after_tx C w s _ w1 lg p st OK Hr Tx Hp) as (_ & _ & Hsp & _).
  destruct Tx as (_ & f & x & E).
  pose proof (C54_deposit_effect C w p st i0 i1 lp ts s assets tol rcv funds f w1 x lg OK Hr Hp Has H01 L0 L1 Hlp Ht H0l H1l Hsp E) as X.
  cbv zeta in X. destruct X as (d0 & d1 & ts1 & D0 & D1 & Cd & Hh & Ht1 & Es & _).
  fold (given s p (stray i0 i1 funds)) in Hh. setoid_rewrite left_app in Hh. setoid_rewrite arrived_app in Hh. setoid_rewrite given_left in Hh. setoid_rewrite given_arrived in Hh.
  cbn [left_ arrived fold_right] in Hh.
  assert (St : forall i, i = i0 \/ i = i1 -> match i with Native d => coin_sum d (stray i0 i1 funds) | Token _ => 0 end = 0).
  { intros [t|d] Hi; [reflexivity|]. rewrite stray_sum. rewrite decide_True by exact Hi. reflexivity. }
  set (share := earned (tk_supply ts) d0 d1 (holds w p i0) (holds w p i1)) in *.
  assert (R0 : holds w1 p i0 = holds w p i0 + d0).
  { pose proof (Hh p i0) as Z. rewrite (St i0) in Z by auto. clear Hh. clearbody share.
    repeat match type of Z with context [decide ?P] => destruct (decide P) as [?D|?D] end; try (exfalso; intuition congruence); lia. }
  assert (R1 : holds w1 p i1 = holds w p i1 + d1).
  { pose proof (Hh p i1) as Z. rewrite (St i1) in Z by auto. clear Hh. clearbody share.
    repeat match type of Z with context [decide ?P] => destruct (decide P) as [?D|?D] end; try (exfalso; intuition congruence); lia. }
  exists d0, d1, ts1. split; [exact Ht1|]. split; [exact R0|]. split; [exact R1|]. cbv zeta. fold share.
  split; [exact (cd_earned _ _ _ _ _ _ _ _ _ _ _ _ Cd)|]. split; [exact Es|]. intros Z. destruct (cd_later _ _ _ _ _ _ _ _ _ _ _ _ Cd Z) as (P0 & P1 & _). auto.
Qed.

(** Along deposits on a pair with LP tokens, supply / reserve never rises. *)
Lemma deposited_sides C p lp st i0 i1 k : chain_ok C -> assets_are C st i0 i1 -> i0 <> i1 ->
  human (ch_api C) (r_liquidity_token st) = Some lp -> i0 <> Token lp -> i1 <> Token lp ->
  forall w w' ts, reachable C w -> pair_at w p st -> live w i0 -> live w i1 -> tok_at w lp ts -> 0 < tk_supply ts -> deposited C p w k w' ->
  exists ts', tok_at w' lp ts' /\ tk_supply ts <= tk_supply ts' /\
    forall i, i = i0 \/ i = i1 -> holds w p i <= holds w' p i /\ tk_supply ts' * holds w p i <= tk_supply ts * holds w' p i.
Proof.
  intros OK Has H01 Hlp H0l H1l. induction k as [|k IH]; intros w w' ts Hr Hp L0 L1 Ht HS Hd; inversion Hd; subst.
  { exists ts. split; [exact Ht|]. split; [lia|]. intros i _. lia. }
  match goal with X : tx C w s _ w1 lg |- _ => pose proof X as Tx end.
  destruct (after_tx C w s _ w1 lg p st OK Hr Tx Hp) as (Hr1 & Hp1 & Hsp & Lv).
  destruct (deposit_step C w p st i0 i1 lp ts s assets tol rcv funds w1 lg OK Hr Hp Has H01 L0 L1 Hlp Ht H0l H1l Tx) as (d0 & d1 & ts1 & Ht1 & R0 & R1 & Sh & Es & Hpos).
  destruct (Hpos ltac:(lia)) as (P0 & P1). clear Hpos.
  match goal with X : deposited C p w1 k w' |- _ => destruct (IH w1 w' ts1 Hr1 Hp1 (Lv _ L0) (Lv _ L1) Ht1 ltac:(lia) X) as (ts' & Ht' & Es' & Hi) end.
  exists ts'. split; [exact Ht'|]. split; [lia|].
  set (share := earned (tk_supply ts) d0 d1 (holds w p i0) (holds w p i1)) in *.
  assert (B : share <= d0 * tk_supply ts / holds w p i0 /\ share <= d1 * tk_supply ts / holds w p i1).
  { unfold share, earned. destruct (N.eqb_spec (tk_supply ts) 0); lia. }
  destruct B as [B0 B1]. pose proof (div_lo (d0 * tk_supply ts) (holds w p i0) ltac:(lia)) as Q0. pose proof (div_lo (d1 * tk_supply ts) (holds w p i1) ltac:(lia)) as Q1.
  assert (G : forall i d, holds w1 p i = holds w p i + d -> 0 < holds w p i -> share * holds w p i <= d * tk_supply ts -> i = i0 \/ i = i1 ->
    holds w p i <= holds w' p i /\ tk_supply ts' * holds w p i <= tk_supply ts * holds w' p i).
  { intros i d Ei Pi Qi Hii. destruct (Hi i Hii) as [I1 I2]. split; [lia|]. rewrite Ei in I2. rewrite Es in I2.
    clear - I2 Qi Pi Sh HS. clearbody share. change uint128 with N in *. set (a := tk_supply ts) in *. set (b := tk_supply ts') in *. set (x := holds w p i) in *. set (y := holds w' p i) in *.
    clearbody a b x y. apply (N.mul_le_mono_pos_r _ _ (x + d)); [lia|].
    assert (Z1 : b * (x + d) * x <= (a + share) * y * x) by (apply N.mul_le_mono_r; exact I2).
    assert (Z2 : share * x * y <= d * a * y) by (apply N.mul_le_mono_r; exact Qi). nia. }
  intros i [->| ->].
  - apply (G i0 d0 R0 P0); [nia|auto].
  - apply (G i1 d1 R1 P1); [nia|auto].
Qed.

(** ** C86, deposits *)

(** However many deposits in a row bring a pair from one state of its reserves to
    another: one deposit that brings it there at once, by and for anybody, mints
    at least as many LP tokens as all of them together. *)
Theorem C86_deposits_never_more C w p st i0 i1 lp k w' s assets tol rcv funds w1 lg : chain_ok C -> reachable C w ->
  pair_at w p st -> assets_are C st i0 i1 -> i0 <> i1 -> live w i0 -> live w i1 ->
  human (ch_api C) (r_liquidity_token st) = Some lp -> live w (Token lp) -> i0 <> Token lp -> i1 <> Token lp ->
  deposited C p w k w' -> tx C w s (MExecute p (JProvideLiquidity assets tol rcv) funds) w1 lg ->
  holds w1 p i0 = holds w' p i0 -> holds w1 p i1 = holds w' p i1 ->
  exists ts' ts1, tok_at w' lp ts' /\ tok_at w1 lp ts1 /\ tk_supply ts' <= tk_supply ts1.
Proof.
  intros OK Hr Hp Has H01 L0 L1 Hlp (ts & Ht) H0l H1l Hd Tx E0 E1.
  destruct (deposit_step C w p st i0 i1 lp ts s assets tol rcv funds w1 lg OK Hr Hp Has H01 L0 L1 Hlp Ht H0l H1l Tx) as (d0 & d1 & ts1 & Ht1 & R0 & R1 & Sh & Es & Hpos).
  rewrite E0 in R0. rewrite E1 in R1. cbv zeta in *.
  destruct (N.eq_dec (tk_supply ts) 0) as [Z|NZ].
  - inversion Hd; subst.
    { exists ts, ts1. split; [exact Ht|]. split; [exact Ht1|]. lia. }
    match goal with X : tx C w ?s' (MExecute p (JProvideLiquidity ?as_ ?to ?rc) ?fu) ?w2 ?l2 |- _ => rename X into Tx2;
      destruct (after_tx C w s' _ w2 l2 p st OK Hr Tx2 Hp) as (Hr2 & Hp2 & Hsp2 & Lv);
      destruct (deposit_step C w p st i0 i1 lp ts s' as_ to rc fu w2 l2 OK Hr Hp Has H01 L0 L1 Hlp Ht H0l H1l Tx2) as (a0 & a1 & ts2 & Ht2 & A0 & A1 & Sa & Ea & _) end.
    match goal with X : deposited C p ?w2 ?k' w' |- _ => destruct (deposited_sides C p lp st i0 i1 k' OK Has H01 Hlp H0l H1l w2 w' ts2 Hr2 Hp2 (Lv _ L0) (Lv _ L1) Ht2 ltac:(lia) X) as (ts' & Ht' & Es' & Hi) end.
    exists ts', ts1. split; [exact Ht'|]. split; [exact Ht1|]. rewrite Es, Z, N.add_0_l. unfold earned in *. rewrite Z in *. cbn [N.eqb] in *.
    destruct (Hi i0 ltac:(auto)) as [I0 J0]. destruct (Hi i1 ltac:(auto)) as [I1 J1]. rewrite R0, A0 in I0, J0. rewrite R1, A1 in I1, J1.
    rewrite N.add_0_l in Ea. clear - Sa Ea I0 J0 I1 J1 Es'. change uint128 with N in *. rewrite Ea in *. clear Ea.
    set (x0 := holds w p i0) in *. set (x1 := holds w p i1) in *. pose proof (N.sqrt_spec (a0 * a1) ltac:(lia)) as [Q _].
    set (a := N.sqrt (a0 * a1)) in *. set (b := tk_supply ts') in *. clearbody x0 x1 a b.
    assert (K0 : b * a0 <= a * d0) by nia. assert (K1 : b * a1 <= a * d1) by nia.
    apply N.sqrt_le_square. apply (N.mul_le_mono_pos_r _ _ (a0 * a1)); [nia|].
    assert (M : b * a0 * (b * a1) <= a * d0 * (a * d1)) by (apply N.mul_le_mono; assumption).
    assert (M2 : a * a * (d0 * d1) <= a0 * a1 * (d0 * d1)) by (apply N.mul_le_mono_r; exact Q). nia.
  - destruct (Hpos NZ) as [P0 P1].
    destruct (deposited_sides C p lp st i0 i1 k OK Has H01 Hlp H0l H1l w w' ts Hr Hp L0 L1 Ht ltac:(lia) Hd) as (ts' & Ht' & Es' & Hi).
    exists ts', ts1. split; [exact Ht'|]. split; [exact Ht1|]. rewrite Es. unfold earned. destruct (N.eqb_spec (tk_supply ts) 0) as [|_]; [contradiction|].
    destruct (Hi i0 ltac:(auto)) as [_ J0]. destruct (Hi i1 ltac:(auto)) as [_ J1]. rewrite R0 in J0. rewrite R1 in J1.
    assert (X0 : tk_supply ts' - tk_supply ts <= d0 * tk_supply ts / holds w p i0) by (apply N.div_le_lower_bound; [lia|]; nia).
    assert (X1 : tk_supply ts' - tk_supply ts <= d1 * tk_supply ts / holds w p i1) by (apply N.div_le_lower_bound; [lia|]; nia). lia.
Qed.
Print Assumptions C86_deposits_never_more.

(** Alice redeems 1000003 LP tokens of pair #4 in three parts, and pays in a
    deposit in three parts; both times the parts bring less than the whole. *)
Definition ex_redeem (n : N) : bool * cmsg := (true, x_call "#5" (JSend "#4" n HWithdrawLiquidity)).
Definition ex_pay (d0 d1 : N) : bool * cmsg :=
  (true, MExecute "#4" (JProvideLiquidity (Asset (Token "#1") d0, Asset (Native "uaura") d1) None None) [Coin "uaura" d1])%string.
Local Transparent script after.
Lemma redeemed_script l : forall w, is_ok (script w (map ex_redeem l)) = true -> redeemed ex_chain "#4" "#5" w l (after w (map ex_redeem l)).
Proof.
  induction l as [|n l IH]; intros w H; [constructor|]. cbn [map] in H |- *. unfold ex_redeem at 1 in H. unfold ex_redeem at 1.
  unfold after. cbn [script] in H |- *.
  destruct (exec ex_chain 40 w (who true) (x_call "#5" (JSend "#4" n HWithdrawLiquidity))) as [[[w1 x] l1]|e] eqn:E; [|discriminate].
  cbn [rbind] in H |- *. specialize (IH w1).
  destruct (script w1 (map ex_redeem l)) as [[w2 l2]|e] eqn:E2; [|discriminate]. cbn [rbind].
  apply (redeemed_part ex_chain "#4" "#5" w "alice" n w1 l1).
  - split; [exact (who_ordinary true)|]. exists 40%nat, x. exact E.
  - specialize (IH eq_refl). unfold after in IH. rewrite E2 in IH. exact IH.
Qed.
Lemma deposited_script l : forall w, is_ok (script w (map (fun d => ex_pay (fst d) (snd d)) l)) = true ->
  deposited ex_chain "#4" w (Datatypes.length l) (after w (map (fun d => ex_pay (fst d) (snd d)) l)).
Proof.
  induction l as [|[d0 d1] l IH]; intros w H; [constructor|]. cbn [map fst snd] in H |- *. unfold ex_pay at 1 in H. unfold ex_pay at 1.
  unfold after. cbn [script Datatypes.length] in H |- *.
  match type of H with context [exec ex_chain 40 w (who true) ?m] => destruct (exec ex_chain 40 w (who true) m) as [[[w1 x] l1]|e] eqn:E; [|discriminate];
    apply (deposited_part ex_chain "#4" w "alice" (Asset (Token "#1") d0, Asset (Native "uaura") d1) None None [Coin "uaura" d1] w1 l1) end.
  - split; [exact (who_ordinary true)|]. exists 40%nat, x. exact E.
  - cbn [rbind] in H |- *. specialize (IH w1). unfold after in IH. destruct (script w1 _) as [[w2 l2]|e]; [|discriminate]. exact (IH eq_refl).
Qed.
Local Opaque script after.
Example C86_case :
  let u := Native "uaura" in let l := [333333; 333335; 333335] in let d := [(333335, 666670); (333335, 666670); (333330, 666660)] in
  let w1 := after ex_world (map ex_redeem l) in let w2 := after ex_world (map (fun d => ex_pay (fst d) (snd d)) d) in
  redeemed ex_chain "#4" "#5" ex_world l w1 /\ total l = 1000003 /\
  deposited ex_chain "#4" ex_world 3 w2 /\
  is_ok (script ex_world [ex_redeem 1000003]) = true /\ is_ok (script ex_world [ex_pay 1000000 2000000]) = true /\
  paid_out ex_world w1 "#4" (Token "#1") = 707108 /\ paid_out ex_world (after ex_world [ex_redeem 1000003]) "#4" (Token "#1") = 707108 /\
  paid_out ex_world w1 "#4" u = 1414216 /\ paid_out ex_world (after ex_world [ex_redeem 1000003]) "#4" u = 1414217 /\
  holds w2 "#4" (Token "#1") = 11000000 /\ holds w2 "#4" u = 22000000 /\
  supply w2 "#5" = 15556346 /\ supply (after ex_world [ex_pay 1000000 2000000]) "#5" = 15556348.
Proof.
  intros u l d w1 w2. split; [apply redeemed_script; vm_compute; reflexivity|]. split; [reflexivity|].
  split; [apply (deposited_script d); vm_compute; reflexivity|]. vm_compute.
  repeat split.
Qed.
