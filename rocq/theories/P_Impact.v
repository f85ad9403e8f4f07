(** The three numbers of a quote, and what a maximum spread means for the size of a
    swap (C103). *)
From Verif Require Import Base BigNumber CwStd BigNumberFacts Asset Messages PairMath Pair PairFacts Token Factory Router
  SwapFacts SwapFacts2 P_Swap P_Pair FactoryFacts P_Factory P_Router TokenFacts World WorldInd WorldFacts WorldInv WorldInd2
  Examples WorldExamples P_Ledger P_Registry ExecFacts P_Exec P_Value P_Route P_Route2 P_Quotes P_Round.
Local Open Scope N_scope.

(** ** Specification *)

(** [v] is [n] units at the price of a pool of [x] offered and [y] asked units,
    [n * y / x], rounded down; the price itself is kept to 18 decimals. *)
Definition worth (x y n v : N) : Prop :=
  v * x <= n * y /\ n * y * 10 ^ 18 <= (v + 1) * x * 10 ^ 18 + n * x.
(** [s] is what [n] units lose by moving the price: [n * y / x] less
    [n * y / (x + n)], that is the fraction [n / (x + n)] of their worth, up to
    one unit and the price's 18 decimals. *)
Definition impact (x y n s : N) : Prop :=
  s * (x * (x + n)) <= y * n * n + x * (x + n) /\
  y * n * n * 10 ^ 18 <= (s + 1) * (x * (x + n)) * 10 ^ 18 + (n + 1) * (x * (x + n)).

(** ** Lemmas *)
Lemma at_price_worth x y n : x <> 0 -> worth x y n (at_price x y n).
Proof.
  intros Hx. unfold at_price.
  pose proof (N.div_mod (y * 10 ^ 18) x Hx) as E1. pose proof (N.mod_lt (y * 10 ^ 18) x Hx) as L1.
  set (q := y * 10 ^ 18 / x) in *. set (m := (y * 10 ^ 18) mod x) in *.
  pose proof (N.div_mod (n * q) (10 ^ 18) ltac:(discriminate)) as E2. pose proof (N.mod_lt (n * q) (10 ^ 18) ltac:(discriminate)) as L2.
  set (v := n * q / 10 ^ 18) in *. set (k := (n * q) mod 10 ^ 18) in *.
  clearbody q m v k. assert (E : n * y * 10 ^ 18 = v * x * 10 ^ 18 + k * x + n * m).
  { replace (n * y * 10 ^ 18) with (n * (y * 10 ^ 18)) by ring. rewrite E1. replace (n * (x * q + m)) with (n * q * x + n * m) by ring. rewrite E2. ring. }
  assert (k * x <= x * 10 ^ 18) by (rewrite (N.mul_comm x); apply N.mul_le_mono_r; lia).
  assert (n * m <= n * x) by (apply N.mul_le_mono_l; lia).
  split.
  - apply (N.mul_le_mono_pos_r _ _ (10 ^ 18)); [reflexivity|]. rewrite E. rewrite <- N.add_assoc. apply N.le_add_r.
  - rewrite E. replace ((v + 1) * x * 10 ^ 18) with (v * x * 10 ^ 18 + x * 10 ^ 18) by ring.
    set (a := v * x * 10 ^ 18) in *. set (b := k * x) in *. set (c := n * m) in *. set (d := x * 10 ^ 18) in *. set (e := n * x) in *. clearbody a b c d e. lia.
Qed.
Lemma spread_impact x y n : x <> 0 -> gross x y n <= at_price x y n -> impact x y n (at_price x y n - gross x y n).
Proof.
  intros Hx Hle. unfold impact. pose proof (at_price_worth x y n Hx) as [W1 W2]. pose proof (gross_bounds x y n ltac:(lia)) as [G1 G2].
  set (v := at_price x y n) in *. set (g := gross x y n) in *. clearbody v g.
  assert (E : exists s, v = g + s) by (exists (v - g); lia). destruct E as (s & ->). replace (g + s - g) with s by lia. clear Hle.
  set (d := x + n) in *. assert (Ed : d = x + n) by reflexivity. clearbody d. set (D := 10 ^ 18) in *. clearbody D.
  pose proof (N.mul_le_mono_r _ _ d W1) as A1. pose proof (N.mul_le_mono_r _ _ x G1) as A2.
  pose proof (N.mul_le_mono_r _ _ d W2) as A3. pose proof (N.mul_le_mono_r _ _ x G2) as A4.
  split.
  - replace ((g + s) * x * d) with (s * (x * d) + g * d * x) in A1 by ring.
    replace ((g * d + d) * x) with (g * d * x + x * d) in A2 by ring.
    assert (K : n * y * d = y * n * x + y * n * n) by (rewrite Ed; ring).
    rewrite K in A1. set (a := s * (x * d)) in *. set (b := g * d * x) in *. set (c := y * n * x) in *. set (e := y * n * n) in *. set (h := x * d) in *.
    clearbody a b c e h. clear - A1 A2. lia.
  - replace (((g + s + 1) * x * D + n * x) * d) with ((s + 1) * (x * d) * D + n * (x * d) + g * d * D * x) in A3 by ring.
    replace ((y * n * D + d) * x) with (y * n * D * x + x * d) in A4 by ring.
    assert (K : n * y * D * d = y * n * D * x + y * n * n * D) by (rewrite Ed; ring). rewrite K in A3.
    replace ((n + 1) * (x * d)) with (n * (x * d) + x * d) by ring.
    set (a := (s + 1) * (x * d) * D) in *. set (b := g * d * D * x) in *. set (c := y * n * D * x) in *. set (e := y * n * n * D) in *. set (h := x * d) in *.
    set (i := n * h) in *. clearbody a b c e h i. clear - A3 A4. lia.
Qed.
Lemma fee_le g : fee g <= g.
Proof. unfold fee. pose proof (N.div_mod (3 * g) 1000 ltac:(discriminate)). lia. Qed.
Lemma size_bound x y n s t m : worth x y n t -> impact x y n s -> s * 10 ^ 18 <= (m + 1) * t ->
  n * n * y * 10 ^ 18 <= (m + 1) * (n * y) * (x + n) + x * (x + n) * (10 ^ 18 + n + 1).
Proof.
  intros [W _] [_ I] H. set (d := x + n) in *. clearbody d. set (D := 10 ^ 18) in *. clearbody D.
  pose proof (N.mul_le_mono_r _ _ (x * d) H) as H1. pose proof (N.mul_le_mono_l _ _ ((m + 1) * d) W) as H2.
  replace (n * n * y * D) with (y * n * n * D) by ring.
  replace ((s + 1) * (x * d) * D + (n + 1) * (x * d)) with (s * D * (x * d) + x * d * (D + n + 1)) in I by ring.
  replace ((m + 1) * t * (x * d)) with ((m + 1) * d * (t * x)) in H1 by ring.
  replace ((m + 1) * (n * y) * d) with ((m + 1) * d * (n * y)) by ring.
  etransitivity; [exact I|]. apply N.add_le_mono_r. etransitivity; [exact H1|exact H2].
Qed.

Lemma small_enough x y n m : x <> 0 -> gross x y n <= at_price x y n ->
  1000 * 10 ^ 18 * 10 ^ 18 * (y * n * n + x * (x + n)) + 997 * (m + 1) * (10 ^ 18 + n) * (x * (x + n)) < 997 * (m + 1) * (n * y * 10 ^ 18) * (x + n) ->
  let g := gross x y n in let sp := at_price x y n - g in let r := g - fee g in
  0 < r + sp /\ sp * 10 ^ 18 < (m + 1) * (r + sp).
Proof.
  intros Hx Hle H g sp r. pose proof (spread_impact x y n Hx Hle) as [I _]. pose proof (at_price_worth x y n Hx) as [_ W].
  assert (R : 997 * at_price x y n <= 1000 * (r + sp)). { pose proof (fee_bounds g) as [F _]. unfold r, sp. fold g in Hle. lia. }
  fold g in I, Hle. fold sp in I. set (v := at_price x y n) in *. clearbody v. set (t := r + sp) in *. clearbody t sp. clear g r Hle.
  set (d := x + n) in *. assert (Hd : 0 < d) by (unfold d; lia). clearbody d. set (D := 10 ^ 18) in *. assert (HD : 0 < D) by reflexivity. clearbody D.
  assert (K : sp * D < (m + 1) * t).
  { apply N.nle_gt. intros L. apply (N.lt_irrefl (997 * (m + 1) * (n * y * D) * d)).
    eapply N.le_lt_trans; [|exact H].
    pose proof (N.mul_le_mono_l _ _ (997 * (m + 1) * d) W) as A1.
    pose proof (N.mul_le_mono_l _ _ ((m + 1) * (d * x * D)) R) as A2.
    pose proof (N.mul_le_mono_l _ _ (1000 * (d * x * D)) L) as A3.
    pose proof (N.mul_le_mono_l _ _ (1000 * D * D) I) as A4.
    replace (997 * (m + 1) * (n * y * D) * d) with (997 * (m + 1) * d * (n * y * D)) by ring.
    replace (997 * (m + 1) * d * ((v + 1) * x * D + n * x)) with ((m + 1) * (d * x * D) * (997 * v) + 997 * (m + 1) * (D + n) * (x * d)) in A1 by ring.
    replace ((m + 1) * (d * x * D) * (1000 * t)) with (1000 * (d * x * D) * ((m + 1) * t)) in A2 by ring.
    replace (1000 * (d * x * D) * (sp * D)) with (1000 * D * D * (sp * (x * d))) in A3 by ring.
    etransitivity; [exact A1|]. apply N.add_le_mono_r. etransitivity; [exact A2|]. etransitivity; [exact A3|]. exact A4. }
  split; [|exact K]. destruct (N.eq_dec t 0) as [->|]; [rewrite N.mul_0_r in K; lia|lia].
Qed.

(** ** C103 *)

(** Return, spread and commission of a simulation add up to the worth of the offer
    at the pool's price; the spread is the price impact. *)
Theorem C103_parts_of_a_quote C w p st o ai od ad n r sp c : chain_ok C -> reachable C w -> pair_at w p st ->
  sides (ch_api C) st o ai od ad -> o <> ai -> live w o -> live w ai ->
  ask_simulate C w p (Asset o n) = Ok (Simulation r sp c) ->
  worth (holds w p o) (holds w p ai) n (r + sp + c) /\ impact (holds w p o) (holds w p ai) n sp.
Proof.
  intros OK Hr Hp Hs Hne Lo La H. apply (C57_simulation_is_formula C w p st o ai od ad) in H as (_ & _ & _ & (Hx & _ & _ & Hle & _) & -> & -> & ->); auto.
  set (x := holds w p o) in *. set (y := holds w p ai) in *. split; [|apply spread_impact; auto].
  replace (_ + _ + _) with (at_price x y n); [apply at_price_worth; exact Hx|].
  pose proof (fee_le (gross x y n)). lia.
Qed.

(** A swap with a maximum spread and no belief price is executed only if its share
    of the offered reserve afterwards, [n / (x + n)], is at most the maximum spread,
    but for one unit of 18 decimals and rounding. *)
Theorem C103_max_spread_limits_size C w p st t ai od ad s n m to f w' x lg : chain_ok C -> reachable C w -> pair_at w p st ->
  sides (ch_api C) st (Token t) ai od ad -> Token t <> ai -> live w (Token t) -> live w ai -> s <> p -> norm (ch_api C) s = Some s ->
  exec C f w s (MExecute t (JSend p n (HSwap None (Some m) to)) []) = Ok (w', x, lg) ->
  let x := holds w p (Token t) in let y := holds w p ai in
  n * n * y * 10 ^ 18 <= (m + 1) * (n * y) * (x + n) + x * (x + n) * (10 ^ 18 + n + 1).
Proof.
  intros OK Hr Hp Hs Hne Lt La Hsp Ns E X y. subst X. set (X := holds w p (Token t)). pose proof (main_sane C w (reachable_main C OK w Hr)) as Sn.
  apply (swap_tx_inv C OK w p st t ai od ad s) in E as (r & sp & c & _ & _ & Rn & Ro & Ra & _ & Fm & _ & Hc & Hm & _); auto.
  apply compute_swap_iff in Hc as ((Hx & P1 & P2 & Hle & Hlt) & Er & Es & _); auto. fold X y in Hx, P1, P2, Hle, Hlt, Er, Es.
  pose proof (fee_le (gross X y n)) as Hf. pose proof (spread_impact X y n Hx Hle) as Im. pose proof (at_price_worth X y n Hx) as W.
  assert (G : gross X y n <= y) by (rewrite gross_eq by exact Hx; apply sw_gross_le). change (2 ^ 128) with B128 in Hlt.
  fold y in Ra. assert (Br : r < B128) by (rewrite Er; clear - G Ra; lia). assert (Bs : sp < B128) by (rewrite Es; clear - Hlt Hle; lia).
  apply limits_iff in Hm as (_ & _ & Hm); auto; [|exact I].
  eapply size_bound; [exact W|rewrite <- Es in Im; exact Im|].
  etransitivity; [apply N.lt_le_incl; exact Hm|]. apply N.mul_le_mono_l. lia.
Qed.

(** And it is executed, if it would be without a limit, as soon as [n / (x + n)] is
    below 99.7 percent of the maximum spread by the rounding: the limit compares the
    spread with the worth less the commission. *)
Theorem C103_small_swaps_pass C w p st t ai od ad s n m to : chain_ok C -> reachable C w -> pair_at w p st ->
  sides (ch_api C) st (Token t) ai od ad -> Token t <> ai -> live w (Token t) -> live w ai -> s <> p -> norm (ch_api C) s = Some s ->
  m < 2 ^ 128 -> (exists w', succeeds C w s (MExecute t (JSend p n (HSwap None None to)) []) w') ->
  let x := holds w p (Token t) in let y := holds w p ai in
  1000 * 10 ^ 18 * 10 ^ 18 * (y * n * n + x * (x + n)) + 997 * (m + 1) * (10 ^ 18 + n) * (x * (x + n)) < 997 * (m + 1) * (n * y * 10 ^ 18) * (x + n) ->
  exists w', succeeds C w s (MExecute t (JSend p n (HSwap None (Some m) to)) []) w'.
Proof.
  intros OK Hr Hp Hs Hne Lt La Hsp Ns Fm H X y K. subst X. set (X := holds w p (Token t)) in *.
  apply (C58_swap_iff C w p st t ai od ad s) in H as (Hn & Ra & Fb & _ & Hto & Pr & Hw & _); auto.
  apply (C58_swap_iff C w p st t ai od ad s); auto. fold X y in Pr, Hw |- *. repeat (split; [auto; fail|]).
  destruct Pr as (Hx & _ & _ & Hle & _). apply small_enough; auto.
Qed.

(** ** Example: 10000000 of token #1 against 20000000 uaura.  10000 units are worth
    20000; 1000000 units are an eleventh of the reserve afterwards, so a maximum
    spread of 10 percent accepts them and one of 9 percent does not. *)
Example C103_case :
  let sw m := (false, x_call "#1" (JSend "#4" 1000000 (HSwap None (Some m) None))) in
  reachable ex_chain ex_world /\ pair_at ex_world "#4" ex_pair4 /\
  sides ex_api ex_pair4 (Token "#1") (Native "uaura") 6 6 /\ live ex_world (Token "#1") /\ norm ex_api "bob" = Some "bob"%string /\
  holds ex_world "#4" (Token "#1") = 10000000 /\ holds ex_world "#4" (Native "uaura") = 20000000 /\
  ask_simulate ex_chain ex_world "#4" (Asset (Token "#1") 10000) = Ok (Simulation 19921 20 59) /\ 19921 + 20 + 59 = 20000 /\
  ask_simulate ex_chain ex_world "#4" (Asset (Token "#1") 1000000) = Ok (Simulation 1812727 181819 5454) /\
  impact 10000000 20000000 1000000 181819 /\ ~ impact 10000000 20000000 1000000 181815 /\ ~ impact 10000000 20000000 1000000 181825 /\
  1000 * 10 ^ 18 * 10 ^ 18 * (20000000 * 1000000 * 1000000 + 10000000 * 11000000) + 997 * (10 ^ 17 + 1) * (10 ^ 18 + 1000000) * (10000000 * 11000000)
    < 997 * (10 ^ 17 + 1) * (1000000 * 20000000 * 10 ^ 18) * 11000000 /\
  is_ok (script ex_world [sw (10 ^ 17)]) = true /\ is_ok (script ex_world [sw (9 * 10 ^ 16)]) = false.
Proof.
  intros sw. split; [exact ex_reachable|]. split; [exact ex_pair4_at|]. split; [left; vm_compute; auto|].
  split; [exists (tok_of ex_world "#1"); apply tok_of_at; vm_compute; reflexivity|].
  split; [vm_compute; reflexivity|]. split; [vm_compute; reflexivity|]. split; [vm_compute; reflexivity|]. split; [vm_compute; reflexivity|].
  split; [reflexivity|]. split; [vm_compute; reflexivity|]. split; [split; vm_compute; discriminate|].
  split; [intros [_ H]; vm_compute in H; apply H; reflexivity|]. split; [intros [H _]; vm_compute in H; apply H; reflexivity|].
  split; [vm_compute; reflexivity|]. split; vm_compute; reflexivity.
Qed.
