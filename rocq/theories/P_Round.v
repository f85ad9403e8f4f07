(** What a round trip costs: the two commissions and rounding (C96). *)
From Verif Require Import Base BigNumber CwStd BigNumberFacts Asset Messages PairMath Pair PairFacts Token Factory Router
  SwapFacts SwapFacts2 P_Swap P_Pair FactoryFacts P_Factory P_Router TokenFacts World WorldInd WorldFacts WorldInv WorldInd2
  Examples WorldExamples P_Ledger P_Registry ExecFacts P_Exec P_Value P_Route P_Route2 P_Quotes P_Moves.
From Coq Require Import ZifyN.
Local Open Scope N_scope.
Ltac Zify.zify_post_hook ::= idtac.

(** ** Specification *)

(** [b] is 99.7 percent of 99.7 percent of [n], give or take one unit and the
    worth, with [x] units against [y], of one unit of the other asset. *)
Definition two_fees_off (x y n b : N) : Prop :=
  994009 * n * y <= 1000000 * (b * y + y + x) /\ 1000000 * b * y <= 994009 * n * y + 1000000 * (y + x).

(** ** Lemmas *)
Lemma gross_bounds x y n : x + n <> 0 ->
  y * n <= gross x y n * (x + n) + (x + n) /\ gross x y n * (x + n) * 10 ^ 18 <= y * n * 10 ^ 18 + (x + n).
Proof.
  intros H. unfold gross. set (d := x + n) in *. clearbody d. set (a := y * n * 10 ^ 18 + (d - 1)).
  pose proof (N.div_mod a d H) as E1. pose proof (N.mod_lt a d H) as L1.
  pose proof (N.div_mod (a / d) (10 ^ 18) ltac:(discriminate)) as E2. pose proof (N.mod_lt (a / d) (10 ^ 18) ltac:(discriminate)) as L2.
  set (q := a / d) in *. set (m := a mod d) in *. set (g := q / 10 ^ 18) in *. set (k := q mod 10 ^ 18) in *.
  assert (Ea : y * n * 10 ^ 18 + (d - 1) = d * q + m) by exact E1. clear E1. clearbody a q m g k.
  assert (E3 : d * q = g * d * 10 ^ 18 + d * k) by (rewrite E2; ring).
  assert (L3 : d * k <= d * (10 ^ 18 - 1)) by (apply N.mul_le_mono_l; lia).
  change (10 ^ 18) with 1000000000000000000 in *. set (yn := y * n) in *. set (gd := g * d) in *. set (dk := d * k) in *. set (dq := d * q) in *. clearbody yn gd dk dq. lia.
Qed.
Lemma fee_bounds g : 997 * g <= 1000 * (g - fee g) /\ 1000 * (g - fee g) <= 997 * g + 999.
Proof. unfold fee. pose proof (N.div_mod (3 * g) 1000 ltac:(discriminate)). pose proof (N.mod_lt (3 * g) 1000 ltac:(discriminate)). lia. Qed.

Lemma round_trip x y n : x <> 0 -> y <> 0 -> gross x y n <= y ->
  let r := gross x y n - fee (gross x y n) in
  let g' := gross (y - r) (x + n) r in
  two_fees_off (x + n) y n (g' - fee g').
Proof.
  intros Hx Hy Hg r g'. pose proof (gross_bounds x y n ltac:(lia)) as [A1 A2]. pose proof (fee_bounds (gross x y n)) as [F1 F2]. fold r in F1, F2.
  assert (Hr : r <= y) by (unfold r; lia).
  pose proof (gross_bounds (y - r) (x + n) r ltac:(lia)) as [B1 B2]. fold g' in B1, B2. replace (y - r + r) with y in * by lia.
  pose proof (fee_bounds g') as [G1 G2]. unfold two_fees_off.
  set (g := gross x y n) in *. set (b := g' - fee g') in *. set (d := x + n) in *. clearbody g g' b d. clear Hx.
  clearbody r.
  assert (F1' : 997 * (g * d) <= 1000 * (r * d)) by (pose proof (N.mul_le_mono_r _ _ d F1); lia).
  assert (F2' : 1000 * (r * d) <= 997 * (g * d) + 999 * d) by (pose proof (N.mul_le_mono_r _ _ d F2); lia).
  assert (G1' : 997 * (g' * y) <= 1000 * (b * y)) by (pose proof (N.mul_le_mono_r _ _ y G1); lia).
  assert (G2' : 1000 * (b * y) <= 997 * (g' * y) + 999 * y) by (pose proof (N.mul_le_mono_r _ _ y G2); lia).
  rewrite (N.mul_comm d r) in B1, B2. change (10 ^ 18) with 1000000000000000000 in *.
  replace (994009 * n * y) with (994009 * (y * n)) by lia. replace (1000000 * b * y) with (1000000 * (b * y)) by lia.
  set (gd := g * d) in *. set (rd := r * d) in *. set (gy := g' * y) in *. set (by_ := b * y) in *. set (yn := y * n) in *.
  clearbody gd rd gy by_ yn. clear F1 F2 G1 G2 Hg Hr g'. split; lia.
Qed.

(** ** C96 *)

(** Somebody swaps [n] units of [t] at the pair for [r] units of [a], and later,
    the pair holding what it held after this swap, exactly these [r] units are
    swapped back. What comes back is [n] less the two commissions of 0.3 percent,
    up to one unit of [t] and the worth of one unit of [a]; and what the pair held
    of [t] besides is still there. *)
Theorem C96_round_trip_costs_the_fees C w p st t a od ad s n bp ms to w1 lg1 lg w2 s' r bp' ms' to' w3 lg3 : chain_ok C ->
  reachable C w -> pair_at w p st -> live w (Token t) -> live w (Token a) ->
  sides (ch_api C) st (Token t) (Token a) od ad -> t <> a ->
  tx C w s (MExecute t (JSend p n (HSwap bp ms to)) []) w1 lg1 ->
  default s to <> p -> r = holds w p (Token a) - holds w1 p (Token a) ->
  history C w1 lg w2 -> holds w2 p (Token t) = holds w1 p (Token t) -> holds w2 p (Token a) = holds w1 p (Token a) ->
  tx C w2 s' (MExecute a (JSend p r (HSwap bp' ms' to')) []) w3 lg3 ->
  exists b, two_fees_off (holds w p (Token t) + n) (holds w p (Token a)) n b /\
    settled w w1 [(Token t, s, p, n); (Token a, p, default s to, r)] /\
    settled w2 w3 [(Token a, s', p, r); (Token t, p, default s' to', b)].
Proof.
  intros OK Hr Hp Lt La Hs Hne T Hto Er Hh Et Ea T'. assert (Hne' : Token t <> Token a) by congruence. assert (Hne2 : Token a <> Token t) by congruence.
  destruct (swap_shifts C OK p st t (Token a) od ad Hs Hne' w s n bp ms to w1 lg1 Hr Hp Lt La T) as (_ & Hr1 & Hp1 & Lt1 & La1).
  pose proof (reachable_main C OK w Hr) as M. pose proof (reachable_main C OK w1 Hr1) as M1.
  destruct (history_main C OK w1 lg w2 M1 Hh) as [M2 R2]. pose proof (history_reachable C w1 lg w2 Hr1 Hh) as Hr2.
  assert (Lv : forall i, live w1 i -> live w2 i).
  { intros [u|d]; [|auto]. intros (us & Hu). destruct (rl_toks _ _ _ R2 _ _ Hu) as (us' & Hu' & _). exists us'. exact Hu'. }
  assert (Hp2 : pair_at w2 p st).
  { destruct (rl_pairs _ _ _ R2 _ _ Hp1) as (st' & Hp' & [->|(Y & _)]); [exact Hp'|discriminate]. }
  destruct (pair_fresh C w p st M Hp) as (n0 & Ep).
  assert (Np : forall z, ordinary C z -> z <> p) by (intros z Oz ->; exact (proj2 Oz n0 (eq_sym Ep))).
  destruct T as (O & f & x & E), T' as (O' & f' & x' & E').
  apply (swap_tx_inv C OK w p st t (Token a) od ad s) in E as (r0 & sp & c & _ & _ & Rn & Ro & Ra & _ & _ & _ & Hc & _ & St); auto; [|apply (main_sane C w M)|apply O].
  apply (swap_tx_inv C OK w2 p st a (Token t) ad od s') in E' as (b & sp' & c' & _ & _ & Rn' & Ro' & Ra' & _ & _ & _ & Hc' & _ & St'); auto using sides_swap;
    [|apply (main_sane C w2 M2)|apply O'].
  pose proof (Np s O) as Ns.
  pose proof (St p (Token t)) as H1. pose proof (St p (Token a)) as H2. cbn [left_ arrived fold_right] in H1, H2.
  rewrite (decide_False (P := p = s /\ Token t = Token t)) in H1 by (intros [X _]; congruence).
  rewrite (decide_False (P := p = p /\ Token t = Token a)) in H1 by tauto.
  rewrite (decide_True (P := p = p /\ Token t = Token t)) in H1 by tauto.
  rewrite (decide_False (P := p = default s to /\ Token t = Token a)) in H1 by tauto.
  rewrite (decide_False (P := p = s /\ Token a = Token t)) in H2 by (intros [_ X]; congruence).
  rewrite (decide_True (P := p = p /\ Token a = Token a)) in H2 by tauto.
  rewrite (decide_False (P := p = p /\ Token a = Token t)) in H2 by (intros [_ X]; congruence).
  rewrite (decide_False (P := p = default s to /\ Token a = Token a)) in H2 by (intros [X _]; congruence).
  assert (Er0 : r = r0) by lia. clear Er. subst r0.
  exists b. split; [|split; assumption].
  apply compute_swap_iff in Hc as ((X0 & _) & Er & _); auto. apply compute_swap_iff in Hc' as ((Y0 & _) & Eb & _); auto.
  assert (Hg : gross (holds w p (Token t)) (holds w p (Token a)) n <= holds w p (Token a)) by (rewrite gross_eq by assumption; apply sw_gross_le).
  assert (Hy : holds w p (Token a) <> 0) by lia.
  rewrite Eb, Et, Ea. replace (holds w1 p (Token t)) with (holds w p (Token t) + n) by lia.
  replace (holds w1 p (Token a)) with (holds w p (Token a) - r) by lia. rewrite Er. apply round_trip; assumption.
Qed.

(** Bob swaps 1000000 #1 at the pair #6 for #2 and back. *)
Definition rt1 : bool * cmsg := (false, x_call "#1" (JSend "#6" 1000000 (HSwap None None None))).
Definition rt2 : bool * cmsg := (false, x_call "#2" (JSend "#6" 2719091 (HSwap None None None))).
Example C96_case :
  let w1 := after ex_world [rt1] in let w2 := after w1 [rt2] in
  reachable ex_chain ex_world /\ pair_at ex_world "#6" ex_pair6 /\ sides ex_api ex_pair6 (Token "#1") (Token "#2") 6 6 /\
  live ex_world (Token "#1") /\ live ex_world (Token "#2") /\
  (exists lg, tx ex_chain ex_world "bob" rt1.2 w1 lg) /\ 2719091 = holds ex_world "#6" (Token "#2") - holds w1 "#6" (Token "#2") /\
  (exists lg, tx ex_chain w1 "bob" rt2.2 w2 lg) /\
  (holds w1 "bob" (Token "#1"), holds w2 "bob" (Token "#1")) = (999000000, 999994009).
Proof.
  intros w1 w2. split; [exact ex_reachable|]. split; [vm_compute; reflexivity|]. split; [left; vm_compute; auto|].
  split; [exists (tok_of ex_world "#1"); apply tok_of_at; vm_compute; reflexivity|].
  split; [exists (tok_of ex_world "#2"); apply tok_of_at; vm_compute; reflexivity|].
  split; [eexists; apply (one_tx ex_world false rt1.2); vm_compute; reflexivity|].
  split; [vm_compute; reflexivity|].
  split; [eexists; apply (one_tx w1 false rt2.2); vm_compute; reflexivity|].
  vm_compute. reflexivity.
Qed.
