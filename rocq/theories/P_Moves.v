(** Swaps move the price against those who follow in the same direction and in
    favour of those who trade the other way (C93). *)
From Verif Require Import Base BigNumber CwStd BigNumberFacts Asset Messages PairMath Pair PairFacts Token Factory Router
  SwapFacts SwapFacts2 P_Swap P_Pair FactoryFacts P_Factory P_Router TokenFacts World WorldInd WorldFacts WorldInv WorldInd2
  Examples WorldExamples P_Ledger P_Registry ExecFacts P_Exec P_Value P_Route P_Route2 P_Quotes.
From Coq Require Import ZifyN.
Local Open Scope N_scope.
Ltac Zify.zify_post_hook ::= idtac.

(** ** Specification *)

(** A number of swaps of the token [t] at the pair [p], each by anyone, of any
    amount, with any limits and for any receiver. *)
Inductive swaps (C : chain) (p t : string) : world -> world -> Prop :=
| swaps_none w : swaps C p t w w
| swaps_one w s n bp ms to w1 lg w2 :
    tx C w s (MExecute t (JSend p n (HSwap bp ms to)) []) w1 lg -> swaps C p t w1 w2 -> swaps C p t w w2.

(** The pair holds no less of [o] and no more of [ai] than before. *)
Definition shifted (w w' : world) (p : string) (o ai : asset_info) : Prop :=
  holds w p o <= holds w' p o /\ holds w' p ai <= holds w p ai.

(** ** Lemmas *)

Lemma sides_swap A st o ai od ad : sides A st o ai od ad -> sides A st ai o ad od.
Proof. unfold sides. tauto. Qed.

Lemma net_less x y x' y' n : x <> 0 -> x <= x' -> y' <= y ->
  gross x' y' n - fee (gross x' y' n) <= gross x y n - fee (gross x y n).
Proof.
  intros H0 Hx Hy. rewrite !gross_eq by lia. unfold fee. rewrite <- !sw_comm_eq. apply net_mono.
  transitivity (sw_gross x' y n); [apply gross_mono_ask; lia|apply gross_anti_op; lia].
Qed.

Section moves.
  Context (C : chain) (OK : chain_ok C) (p : string) (st : pair_info_raw) (t : string) (ai : asset_info) (od ad : N).
  Context (Hs : sides (ch_api C) st (Token t) ai od ad) (Hne : Token t <> ai).

  Lemma swap_shifts w s n bp ms to w' lg : reachable C w -> pair_at w p st -> live w (Token t) -> live w ai ->
    tx C w s (MExecute t (JSend p n (HSwap bp ms to)) []) w' lg ->
    shifted w w' p (Token t) ai /\ reachable C w' /\ pair_at w' p st /\ live w' (Token t) /\ live w' ai.
  Proof.
    intros Hr Hp Lt La T. pose proof T as (O & f & x & E).
    pose proof (reachable_main C OK w Hr) as M. destruct (pair_fresh C w p st M Hp) as (n0 & Ep).
    assert (Np : s <> p) by (intros ->; exact (proj2 O n0 (eq_sym Ep))).
    assert (Hh : history C w lg w').
    { change lg with ([] ++ lg). eapply hist_tx; [apply hist_refl|exact T]. }
    pose proof (history_reachable C w lg w' Hr Hh) as Hr1. destruct (history_main C OK w lg w' M Hh) as [M1 R1].
    assert (Lv : forall i, live w i -> live w' i).
    { intros [u|d]; [|auto]. intros (us & Hu). destruct (rl_toks _ _ _ R1 _ _ Hu) as (us' & Hu' & _). exists us'. exact Hu'. }
    split; [|split; [exact Hr1|split; [|auto]]].
    - apply (swap_tx_inv C OK w p st t ai od ad s) in E as (r & sp & c & _ & _ & _ & _ & _ & _ & _ & _ & _ & _ & St);
        auto; [|apply (main_sane C w M)|apply O].
      pose proof (St p (Token t)) as H1. pose proof (St p ai) as H2. cbn [left_ arrived fold_right] in H1, H2.
      rewrite (decide_False (P := p = s /\ Token t = Token t)) in H1 by (intros [X _]; congruence).
      rewrite (decide_False (P := p = p /\ Token t = ai)) in H1 by tauto.
      rewrite (decide_True (P := p = p /\ Token t = Token t)) in H1 by tauto.
      rewrite (decide_False (P := p = default s to /\ Token t = ai)) in H1 by tauto.
      rewrite (decide_False (P := p = s /\ ai = Token t)) in H2 by (intros [_ X]; congruence).
      rewrite (decide_True (P := p = p /\ ai = ai)) in H2 by tauto.
      rewrite (decide_False (P := p = p /\ ai = Token t)) in H2 by (intros [_ X]; congruence).
      split; [lia|]. destruct (decide (p = default s to /\ ai = ai)); lia.
    - destruct (rl_pairs _ _ _ R1 _ _ Hp) as (st' & Hp' & [->|(Y & _)]); [exact Hp'|discriminate].
  Qed.
End moves.

(** ** C93 *)

(** What a pair quotes depends on what it holds: with no less of the offered
    and no more of the asked asset it quotes no more, whatever happened between
    the two moments. *)
Theorem C93_quotes_follow_reserves C w w' p st o ai od ad n r sp c r' sp' c' : chain_ok C ->
  reachable C w -> pair_at w p st -> live w o -> live w ai ->
  reachable C w' -> pair_at w' p st -> live w' o -> live w' ai ->
  sides (ch_api C) st o ai od ad -> o <> ai -> shifted w w' p o ai ->
  ask_simulate C w p (Asset o n) = Ok (Simulation r sp c) ->
  ask_simulate C w' p (Asset o n) = Ok (Simulation r' sp' c') ->
  r' <= r /\ c' <= c.
Proof.
  intros OK Hr Hp Lo La Hr' Hp' Lo' La' Hs Hne [Hx Hy] H H'.
  apply (C57_simulation_is_formula C w p st o ai od ad) in H as (_ & _ & _ & (X0 & _) & -> & _ & ->); auto.
  apply (C57_simulation_is_formula C w' p st o ai od ad) in H' as (_ & _ & _ & (X0' & _) & -> & _ & ->); auto.
  split; [apply net_less; assumption|]. unfold fee. apply N.div_le_mono; [lia|]. apply N.mul_le_mono_l.
  rewrite !gross_eq by assumption.
  transitivity (sw_gross (holds w' p o) (holds w p ai) n); [apply gross_mono_ask; lia|apply gross_anti_op; lia].
Qed.

(** Swaps of [t], however many and by whomever, shift the reserves. *)
Theorem C93_swaps_shift C w w' p st t ai od ad : chain_ok C ->
  reachable C w -> pair_at w p st -> live w (Token t) -> live w ai ->
  sides (ch_api C) st (Token t) ai od ad -> Token t <> ai -> swaps C p t w w' ->
  shifted w w' p (Token t) ai /\ reachable C w' /\ pair_at w' p st /\ live w' (Token t) /\ live w' ai.
Proof.
  intros OK Hr Hp Lt La Hs Hne H. revert Hr Hp Lt La. induction H as [w|w s n bp ms to w1 lg w2 T _ IH]; intros Hr Hp Lt La.
  - split; [split; apply N.le_refl|auto].
  - destruct (swap_shifts C OK p st t ai od ad Hs Hne w s n bp ms to w1 lg Hr Hp Lt La T) as ([X1 X2] & Hr1 & Hp1 & Lt1 & La1).
    destruct (IH Hr1 Hp1 Lt1 La1) as ([Y1 Y2] & Z). split; [split; lia|exact Z].
Qed.

(** After them, the same offer is quoted no better, and an offer of the other
    asset no worse, than before. *)
Theorem C93_quotes_after C w w' p st t ai od ad : chain_ok C ->
  reachable C w -> pair_at w p st -> live w (Token t) -> live w ai ->
  sides (ch_api C) st (Token t) ai od ad -> Token t <> ai -> swaps C p t w w' ->
  (forall n r sp c r' sp' c', ask_simulate C w p (Asset (Token t) n) = Ok (Simulation r sp c) ->
     ask_simulate C w' p (Asset (Token t) n) = Ok (Simulation r' sp' c') -> r' <= r /\ c' <= c) /\
  (forall n r sp c r' sp' c', ask_simulate C w p (Asset ai n) = Ok (Simulation r sp c) ->
     ask_simulate C w' p (Asset ai n) = Ok (Simulation r' sp' c') -> r <= r' /\ c <= c').
Proof.
  intros OK Hr Hp Lt La Hs Hne H.
  destruct (C93_swaps_shift C w w' p st t ai od ad OK Hr Hp Lt La Hs Hne H) as ([X Y] & Hr' & Hp' & Lt' & La').
  split; intros n r sp c r' sp' c' H1 H2.
  - eapply (C93_quotes_follow_reserves C w w' p st (Token t) ai od ad); eauto. split; assumption.
  - eapply (C93_quotes_follow_reserves C w' w p st ai (Token t) ad od); eauto using sides_swap. split; assumption.
Qed.

(** And so for the swaps themselves. Whoever swaps after others have swapped in
    the same direction receives no more than the same swap would have brought
    before; whoever swaps in the other direction receives no less. *)
Theorem C93_follower_gets_less C w w' p st t ai od ad s n bp ms to u lg s' bp' ms' to' u' lg' : chain_ok C ->
  reachable C w -> pair_at w p st -> live w (Token t) -> live w ai ->
  sides (ch_api C) st (Token t) ai od ad -> Token t <> ai -> swaps C p t w w' ->
  tx C w s (MExecute t (JSend p n (HSwap bp ms to)) []) u lg ->
  tx C w' s' (MExecute t (JSend p n (HSwap bp' ms' to')) []) u' lg' ->
  exists r r', r' <= r /\
    settled w u [(Token t, s, p, n); (ai, p, default s to, r)] /\
    settled w' u' [(Token t, s', p, n); (ai, p, default s' to', r')].
Proof.
  intros OK Hr Hp Lt La Hs Hne H T T'.
  destruct (C93_swaps_shift C w w' p st t ai od ad OK Hr Hp Lt La Hs Hne H) as ([X Y] & Hr' & Hp' & Lt' & La').
  destruct T as (O & f & x & E), T' as (O' & f' & x' & E').
  pose proof (reachable_main C OK w Hr) as M. pose proof (reachable_main C OK w' Hr') as M'. destruct (pair_fresh C w p st M Hp) as (n0 & Ep).
  assert (Np : forall z, ordinary C z -> z <> p) by (intros z Oz ->; exact (proj2 Oz n0 (eq_sym Ep))).
  apply (swap_tx_inv C OK w p st t ai od ad s) in E as (r & sp & c & _ & _ & Rn & Ro & Ra & _ & _ & _ & Hc & _ & St); auto; [|apply (main_sane C w M)|apply O].
  apply (swap_tx_inv C OK w' p st t ai od ad s') in E' as (r' & sp' & c' & _ & _ & Rn' & Ro' & Ra' & _ & _ & _ & Hc' & _ & St'); auto; [|apply (main_sane C w' M')|apply O'].
  exists r, r'. split; [|split; assumption].
  apply compute_swap_iff in Hc as ((X0 & _) & -> & _); auto. apply compute_swap_iff in Hc' as (_ & -> & _); auto. apply net_less; assumption.
Qed.

Theorem C93_opposite_gets_more C w w' p st t a od ad s n bp ms to u lg s' bp' ms' to' u' lg' : chain_ok C ->
  reachable C w -> pair_at w p st -> live w (Token t) -> live w (Token a) ->
  sides (ch_api C) st (Token t) (Token a) od ad -> t <> a -> swaps C p t w w' ->
  tx C w s (MExecute a (JSend p n (HSwap bp ms to)) []) u lg ->
  tx C w' s' (MExecute a (JSend p n (HSwap bp' ms' to')) []) u' lg' ->
  exists r r', r <= r' /\
    settled w u [(Token a, s, p, n); (Token t, p, default s to, r)] /\
    settled w' u' [(Token a, s', p, n); (Token t, p, default s' to', r')].
Proof.
  intros OK Hr Hp Lt La Hs Hne H T T'. assert (Hne' : Token t <> Token a) by congruence. assert (Hne2 : Token a <> Token t) by congruence.
  destruct (C93_swaps_shift C w w' p st t (Token a) od ad OK Hr Hp Lt La Hs Hne' H) as ([X Y] & Hr' & Hp' & Lt' & La').
  apply sides_swap in Hs. destruct T as (O & f & x & E), T' as (O' & f' & x' & E').
  pose proof (reachable_main C OK w Hr) as M. pose proof (reachable_main C OK w' Hr') as M'. destruct (pair_fresh C w p st M Hp) as (n0 & Ep).
  assert (Np : forall z, ordinary C z -> z <> p) by (intros z Oz ->; exact (proj2 Oz n0 (eq_sym Ep))).
  apply (swap_tx_inv C OK w p st a (Token t) ad od s) in E as (r & sp & c & _ & _ & Rn & Ro & Ra & _ & _ & _ & Hc & _ & St); auto; [|apply (main_sane C w M)|apply O].
  apply (swap_tx_inv C OK w' p st a (Token t) ad od s') in E' as (r' & sp' & c' & _ & _ & Rn' & Ro' & Ra' & _ & _ & _ & Hc' & _ & St'); auto; [|apply (main_sane C w' M')|apply O'].
  exists r, r'. split; [|split; assumption].
  apply compute_swap_iff in Hc as (_ & -> & _); auto. apply compute_swap_iff in Hc' as ((X0 & _) & -> & _); auto. apply net_less; assumption.
Qed.

(** Two swaps of 1000000 #1 at the pair #6 by different people; the same offer
    is quoted less and the opposite one more after each. *)
Definition mv (b : bool) : bool * cmsg := (b, x_call "#1" (JSend "#6" 1000000 (HSwap None None None))).
Definition quoted (w : world) (t : string) : N :=
  match ask_simulate ex_chain w "#6" (Asset (Token t) 500000) with Ok (Simulation r _ _) => r | _ => 0 end.
Example C93_case :
  let w1 := after ex_world [mv true] in let w2 := after w1 [mv false] in
  reachable ex_chain ex_world /\ pair_at ex_world "#6" ex_pair6 /\ sides ex_api ex_pair6 (Token "#1") (Token "#2") 6 6 /\
  live ex_world (Token "#1") /\ live ex_world (Token "#2") /\ swaps ex_chain "#6" "#1" ex_world w2 /\
  map (quoted ex_world) ["#1"; "#2"]%string = [1424286; 163443] /\ map (quoted w1) ["#1"; "#2"]%string = [1182568; 197384] /\ map (quoted w2) ["#1"; "#2"]%string = [997571; 234457].
Proof.
  intros w1 w2. split; [exact ex_reachable|]. split; [vm_compute; reflexivity|]. split; [left; vm_compute; auto|].
  split; [exists (tok_of ex_world "#1"); apply tok_of_at; vm_compute; reflexivity|].
  split; [exists (tok_of ex_world "#2"); apply tok_of_at; vm_compute; reflexivity|].
  split.
  { eapply swaps_one; [apply (one_tx ex_world true (mv true).2); vm_compute; reflexivity|].
    eapply swaps_one; [apply (one_tx w1 false (mv false).2); vm_compute; reflexivity|apply swaps_none]. }
  split; [|split]; vm_compute; reflexivity.
Qed.
