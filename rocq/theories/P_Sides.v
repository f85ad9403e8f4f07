(** What one LP token is worth on each side while nobody swaps (C65) and that
    all LP tokens together claim no more than the reserves (C66). *)
From Verif Require Import Base BigNumber CwStd BigNumberFacts Asset Messages PairMath Pair PairFacts Token Factory Router
  SwapFacts SwapFacts2 P_Swap P_Pair FactoryFacts P_Factory P_Router TokenFacts World WorldInd WorldFacts WorldInv WorldInd2
  Examples WorldExamples P_Ledger P_Registry ExecFacts P_Exec P_Value.
From Coq Require Import ZifyN.
Local Open Scope N_scope.
Ltac Zify.zify_post_hook ::= idtac.

(** ** Specification *)

(** reserve / supply of asset [i] is in [w'] at least what it is in [w];
    multiplied out. *)
Definition backing_le (p lp : string) (i : asset_info) (w w' : world) : Prop :=
  supply w' lp * holds w p i <= supply w lp * holds w' p i.
(** No swap was executed on the pair [p]. *)
Definition no_swap (p : string) (lg : list event) : Prop := forall e, In e lg -> ~ is_swap p e.
Definition total (f : string -> N) (l : list string) : N := foldr (fun a n => f a + n) 0 l.
(** What [n] LP tokens [lp] of the pair [p] can be redeemed for in asset [i]. *)
Definition redeemable (w : world) (p lp : string) (i : asset_info) (n : N) : N :=
  refund (holds w p i) n (supply w lp).

(** ** Lemmas *)
Lemma backing_trans p lp i w w1 w2 : 0 < supply w1 lp ->
  backing_le p lp i w w1 -> backing_le p lp i w1 w2 -> backing_le p lp i w w2.
Proof.
  unfold backing_le. generalize (supply w lp) (supply w1 lp) (supply w2 lp) (holds w p i) (holds w1 p i) (holds w2 p i).
  intros S S1 S2 x x1 x2 H H1 H2.
  assert (X : S1 * (S2 * x) <= S1 * (S * x2)).
  { transitivity (S2 * (S * x1)).
    - replace (S1 * (S2 * x)) with (S2 * (S1 * x)) by lia. apply N.mul_le_mono_l. exact H1.
    - replace (S2 * (S * x1)) with (S * (S2 * x1)) by lia. replace (S1 * (S * x2)) with (S * (S1 * x2)) by lia. apply N.mul_le_mono_l. exact H2. }
  apply N.mul_le_mono_pos_l in X; assumption.
Qed.

(** Redeeming [n] tokens at a backing that is no lower gives no less up to
    rounding: one unit, and one more per 10^18 units of reserve. *)
Lemma refund_mono x S x' S' n : 0 < S -> 0 < S' -> S' * x <= S * x' -> refund x n S <= refund x' n S' + x' / 10 ^ 18 + 1.
Proof.
  intros HS HS' H. destruct (refund_bounds x n S ltac:(lia)) as [A _]. destruct (refund_bounds x' n S' ltac:(lia)) as [_ B].
  change D18 with (10 ^ 18) in A, B. fold (refund x n S) in A. fold (refund x' n S') in B.
  assert (Q : x' < (x' / 10 ^ 18 + 1) * 10 ^ 18).
  { pose proof (N.mul_succ_div_gt x' (10 ^ 18) ltac:(discriminate)). lia. }
  set (q := x' / 10 ^ 18) in *. set (r := refund x n S) in *. set (r' := refund x' n S') in *.
  assert (r < r' + 1 + (q + 1)) as X; [|lia].
  assert (B1 : x' * n * 10 ^ 18 < (r' + 1 + (q + 1)) * S' * 10 ^ 18).
  { assert (x' * S' <= (q + 1) * 10 ^ 18 * S') by (apply N.mul_le_mono_r; lia). lia. }
  assert (B2 : x' * n < (r' + 1 + (q + 1)) * S') by (apply N.mul_lt_mono_pos_r in B1; [exact B1|reflexivity]).
  assert (A1 : r * S * S' <= x' * n * S).
  { transitivity (x * n * S'); [apply N.mul_le_mono_r; exact A|]. replace (x * n * S') with (n * (S' * x)) by lia. replace (x' * n * S) with (n * (S * x')) by lia.
    apply N.mul_le_mono_l. exact H. }
  assert (A2 : r * S * S' < (r' + 1 + (q + 1)) * S' * S).
  { eapply N.le_lt_trans; [exact A1|]. apply N.mul_lt_mono_pos_r; assumption. }
  replace (r * S * S') with (r * (S * S')) in A2 by lia. replace ((r' + 1 + (q + 1)) * S' * S) with ((r' + 1 + (q + 1)) * (S * S')) in A2 by lia.
  apply N.mul_lt_mono_pos_r in A2; [exact A2|]. apply N.mul_pos_pos; assumption.
Qed.

Lemma total_ext f g l : (forall a, In a l -> f a = g a) -> total f l = total g l.
Proof.
  induction l as [|a l IH]; intros H; [reflexivity|]. cbn [total foldr]. rewrite (H a) by (left; reflexivity). f_equal. apply IH. intros b Hb. apply H. right. exact Hb.
Qed.
Lemma total_balances t l : NoDup l -> total (balance_of t) l <= sum_balances t.
Proof.
  intros Hl. revert t. induction Hl as [|a l Ha Hl IH]; intros t; [cbn; lia|]. cbn [total foldr]. fold (total (balance_of t) l).
  pose proof (sum_set_bal t a 0) as X. set (t' := set_bal t (<[a := 0]> (tk_bal t))).
  change (msum (fun (_ : string) v => v) (<[a:=0]> (tk_bal t))) with (sum_balances t') in X.
  specialize (IH t'). rewrite (total_ext (balance_of t) (balance_of t')); [lia|].
  intros b Hb. unfold t'. rewrite balance_set, decide_False; [reflexivity|]. intros ->. apply Ha. apply elem_of_list_In. exact Hb.
Qed.
Lemma total_refunds R S f l : S <> 0 -> total (fun a => refund R (f a) S) l * S <= R * total f l.
Proof.
  intros HS. induction l as [|a l IH]; [cbn; lia|]. cbn [total foldr]. fold (total (fun a => refund R (f a) S) l). fold (total f l).
  destruct (refund_bounds R (f a) S HS) as [A _]. change D18 with (10 ^ 18) in A. fold (refund R (f a) S) in A. lia.
Qed.

(** ** C65 *)

(** Take a pair [p] of two different assets, each native or a halo-token
    contract, with a halo-token contract [lp] as LP token. Over every history
    without a swap on [p] in which the LP supply is positive whenever a call
    succeeds and at the end, reserve / supply falls on neither side. *)
Theorem C65_backing_never_falls C w lg w' p st lp i0 i1 :
  chain_ok C -> reachable C w -> history C w lg w' ->
  pair_at w p st -> assets_are C st i0 i1 -> i0 <> i1 -> live w i0 -> live w i1 ->
  human (ch_api C) (r_liquidity_token st) = Some lp -> live w (Token lp) -> i0 <> Token lp -> i1 <> Token lp ->
  (forall e, In e lg -> 0 < supply (ev_world e) lp) -> 0 < supply w' lp -> no_swap p lg ->
  0 < supply w lp /\ backing_le p lp i0 w w' /\ backing_le p lp i1 w w'.
Proof.
  intros OK Hr Hh Hp Has Hne L0 L1 Hlp Lt N0 N1 Hs Hs' Ho.
  apply (value_history C w lg w' p st lp i0 i1 (fun w w' => backing_le p lp i0 w w' /\ backing_le p lp i1 w w') (fun e => ~ is_swap p e));
    try assumption.
  - intros w1 w2 H0 H1. split; assumption.
  - intros w0 w1 w2 P [A0 A1] [B0 B1]. split; eapply backing_trans; eauto.
  - intros e w1 w2 X Y. contradiction.
  - intros e X Y Z. destruct X. split; assumption.
Qed.

(** Hence what [n] LP tokens redeem for falls on neither side, but for rounding:
    by at most one unit, and one more per 10^18 units of the reserve. *)
Theorem C65_redeemable_never_falls C w lg w' p st lp i0 i1 n i :
  chain_ok C -> reachable C w -> history C w lg w' ->
  pair_at w p st -> assets_are C st i0 i1 -> i0 <> i1 -> live w i0 -> live w i1 ->
  human (ch_api C) (r_liquidity_token st) = Some lp -> live w (Token lp) -> i0 <> Token lp -> i1 <> Token lp ->
  (forall e, In e lg -> 0 < supply (ev_world e) lp) -> 0 < supply w' lp -> no_swap p lg -> i = i0 \/ i = i1 ->
  redeemable w p lp i n <= redeemable w' p lp i n + holds w' p i / 10 ^ 18 + 1.
Proof.
  intros OK Hr Hh Hp Has Hne L0 L1 Hlp Lt N0 N1 Hs Hs' Ho Hi.
  destruct (C65_backing_never_falls C w lg w' p st lp i0 i1) as (P & B0 & B1); try assumption.
  apply refund_mono; [exact P|exact Hs'|]. destruct Hi as [->| ->]; assumption.
Qed.

(** The pair #4 of the example chain through a deposit by alice, a donation, a
    withdrawal and a burn of shares. *)
Definition ex_sides_txs : list (bool * cmsg) := [ex_provide; ex_transfer; ex_withdraw; (true, x_call "#5" (JBurn 1000))].
Definition swaps_in (p : string) (lg : list event) : list bool :=
  map (fun e => bool_decide (ev_contract e = p) && match ev_msg e with JReceive _ _ (HSwap _ _ _) => true | _ => false end) lg.
Lemma swaps_in_none p lg : forallb negb (swaps_in p lg) = true -> no_swap p lg.
Proof.
  intros H e He (E & s & n & bp & ms & to & Em). rewrite forallb_forall in H. specialize (H _ (in_map _ _ _ He)). cbn beta in H.
  rewrite Em, E, bool_decide_true in H by reflexivity. discriminate.
Qed.
Example C65_case :
  let w' := after ex_world ex_sides_txs in
  history ex_chain ex_world (log_of ex_world ex_sides_txs) w' /\ pair_at ex_world "#4" ex_pair4 /\
  assets_are ex_chain ex_pair4 (Token "#1") (Native "uaura") /\ live ex_world (Token "#1") /\ live ex_world (Token "#5") /\
  human ex_api (r_liquidity_token ex_pair4) = Some "#5"%string /\
  (forall e, In e (log_of ex_world ex_sides_txs) -> 0 < supply (ev_world e) "#5") /\ no_swap "#4" (log_of ex_world ex_sides_txs) /\
  (supply ex_world "#5", holds ex_world "#4" (Token "#1"), holds ex_world "#4" (Native "uaura")) = (14142135, 10000000, 20000000) /\
  (supply w' "#5", holds w' "#4" (Token "#1"), holds w' "#4" (Native "uaura")) = (14555348, 10293362, 20585787).
Proof.
  split; [apply after_history|]. split; [exact ex_pair4_at|]. split; [split; reflexivity|].
  split; [exists (tok_of ex_world "#1"); apply tok_of_at; vm_compute; reflexivity|].
  split; [exists (tok_of ex_world "#5"); apply tok_of_at; vm_compute; reflexivity|].
  split; [reflexivity|].
  split; [apply log_facts_ok; vm_compute; reflexivity|].
  split; [apply swaps_in_none; vm_compute; reflexivity|]. vm_compute. auto 12.
Qed.

(** ** C66 *)

(** In every reachable state, what all holders (or any of them) could redeem on
    a side adds up to at most the reserve of that side. *)
Theorem C66_claims_are_covered C w p lp ts i l : chain_ok C -> reachable C w -> tok_at w lp ts -> 0 < supply w lp -> NoDup l ->
  total (fun a => redeemable w p lp i (holds w a (Token lp))) l <= holds w p i.
Proof.
  intros OK Hr Ht HS Hl. unfold redeemable.
  pose proof (total_refunds (holds w p i) (supply w lp) (fun a => holds w a (Token lp)) l ltac:(lia)) as X.
  assert (Y : total (fun a => holds w a (Token lp)) l <= supply w lp).
  { rewrite (supply_at _ _ _ Ht). destruct (mn_tokens _ _ (reachable_main C OK w Hr) _ _ Ht) as [E _ _]. rewrite E.
    rewrite (total_ext _ (balance_of ts)); [apply total_balances; exact Hl|]. intros a _. unfold holds. unfold tok_at in Ht. rewrite Ht. reflexivity. }
  apply (N.mul_le_mono_pos_r _ _ (supply w lp) HS). etransitivity; [exact X|]. apply N.mul_le_mono_l. exact Y.
Qed.
Example C66_case :
  let w := after ex_world [(true, x_call "#5" (JTransfer "bob" 5000000))]%string in
  reachable ex_chain w /\ tok_at w "#5" (tok_of w "#5") /\ supply w "#5" = 14142135 /\
  (redeemable w "#4" "#5" (Token "#1") (holds w "alice" (Token "#5")), redeemable w "#4" "#5" (Token "#1") (holds w "bob" (Token "#5")),
   holds w "#4" (Token "#1")) = (6464465, 3535534, 10000000).
Proof.
  split; [eapply history_reachable; [exact ex_reachable|apply after_history]|]. split; [apply tok_of_at; vm_compute; reflexivity|]. vm_compute. auto.
Qed.
