(** Liquidity makes quotes better: what a deposit or a withdrawal does to what a
    pair quotes (C94). *)
From Verif Require Import Base BigNumber CwStd BigNumberFacts Asset Messages PairMath Pair PairFacts Token Factory Router
  SwapFacts SwapFacts2 P_Swap P_Pair FactoryFacts P_Factory P_Router TokenFacts World WorldInd WorldFacts WorldInv WorldInd2
  Examples WorldExamples P_Ledger P_Registry ExecFacts P_Exec P_Value P_Route P_Route2 P_Quotes P_Deposit P_Withdraw.
From Coq Require Import ZifyN.
Local Open Scope N_scope.
Ltac Zify.zify_post_hook ::= idtac.

(** ** Specification *)

(** Every offer of [o] that the pair quotes in both states is quoted no worse,
    before and after the commission, in [w'] than in [w]. *)
Definition quotes_no_worse (C : chain) (w w' : world) (p : string) (o : asset_info) : Prop :=
  forall n r sp c r' sp' c', ask_simulate C w p (Asset o n) = Ok (Simulation r sp c) ->
    ask_simulate C w' p (Asset o n) = Ok (Simulation r' sp' c') -> r <= r' /\ c <= c'.

(** ** Lemmas *)

Lemma ceil_le a b a' b' : b <> 0 -> b' <> 0 -> a * b' <= a' * b -> (a + (b - 1)) / b <= (a' + (b' - 1)) / b'.
Proof.
  intros Hb Hb' H. set (q := (a' + (b' - 1)) / b').
  assert (Q : a' <= q * b').
  { pose proof (N.div_mod (a' + (b' - 1)) b' Hb') as E. pose proof (N.mod_lt (a' + (b' - 1)) b' Hb') as L. fold q in E.
    set (m := (a' + (b' - 1)) mod b') in *. clearbody q m. lia. }
  assert (P : a <= q * b).
  { apply (N.mul_le_mono_pos_r _ _ b'); [lia|]. nia. }
  clearbody q. enough ((a + (b - 1)) / b < q + 1) by lia. apply N.div_lt_upper_bound; [exact Hb|]. nia.
Qed.

Lemma gross_deeper x y d e n : x <> 0 -> d * y <= e * x -> gross x y n <= gross (x + d) (y + e) n.
Proof.
  intros Hx H. unfold gross. apply N.div_le_mono; [discriminate|].
  replace (x + n - 1) with (x + n - 1) by reflexivity.
  apply ceil_le; [lia|lia|]. set (D := 10 ^ 18). clearbody D.
  assert (X : y * (x + d + n) <= (y + e) * (x + n)) by nia.
  replace (y * n * D * (x + d + n)) with (n * D * (y * (x + d + n))) by ring.
  replace ((y + e) * n * D * (x + n)) with (n * D * ((y + e) * (x + n))) by ring.
  apply N.mul_le_mono_l. exact X.
Qed.

(** ** C94 *)

(** A pair that holds [d] more of the offered and [e] more of the asked asset,
    with [e] at least in proportion, quotes no offer worse. *)
Theorem C94_deeper_quotes C w w' p st o ai od ad d e : chain_ok C ->
  reachable C w -> pair_at w p st -> live w o -> live w ai ->
  reachable C w' -> pair_at w' p st -> live w' o -> live w' ai ->
  sides (ch_api C) st o ai od ad -> o <> ai ->
  holds w' p o = holds w p o + d -> holds w' p ai = holds w p ai + e -> d * holds w p ai <= e * holds w p o ->
  quotes_no_worse C w w' p o.
Proof.
  intros OK Hr Hp Lo La Hr' Hp' Lo' La' Hs Hne Ho Ha Hde n r sp c r' sp' c' H H'.
  apply (C57_simulation_is_formula C w p st o ai od ad) in H as (_ & _ & _ & (X0 & _) & -> & _ & ->); auto.
  apply (C57_simulation_is_formula C w' p st o ai od ad) in H' as (_ & _ & _ & (X0' & _) & -> & _ & ->); auto.
  pose proof (gross_deeper (holds w p o) (holds w p ai) d e n X0 Hde) as G. rewrite <- Ho, <- Ha in G. split.
  - unfold fee. rewrite <- !sw_comm_eq. apply net_mono. exact G.
  - unfold fee. apply N.div_le_mono; [discriminate|]. apply N.mul_le_mono_l. exact G.
Qed.

Section liquidity.
  Context (C : chain) (OK : chain_ok C) (w : world) (p : string) (st : pair_info_raw) (i0 i1 : asset_info) (lp : string) (ts : token_state).
  Context (Hr : reachable C w) (Hp : pair_at w p st) (Has : assets_are C st i0 i1) (H01 : i0 <> i1) (L0 : live w i0) (L1 : live w i1).
  Context (Hlp : human (ch_api C) (r_liquidity_token st) = Some lp) (Ht : tok_at w lp ts) (H0l : i0 <> Token lp) (H1l : i1 <> Token lp).

  Lemma later s m w' lg : tx C w s m w' lg -> s <> p /\ norm (ch_api C) s = Some s /\ reachable C w' /\ pair_at w' p st /\ live w' i0 /\ live w' i1.
  Proof.
    intros T. pose proof T as (O & _).
    pose proof (reachable_main C OK w Hr) as M. destruct (pair_fresh C w p st M Hp) as (n0 & Ep).
    split; [intros ->; exact (proj2 O n0 (eq_sym Ep))|]. split; [apply O|].
    assert (Hh : history C w lg w').
    { change lg with ([] ++ lg). eapply hist_tx; [apply hist_refl|exact T]. }
    destruct (history_main C OK w lg w' M Hh) as [M1 R1].
    assert (Lv : forall i, live w i -> live w' i).
    { intros [u|d]; [|auto]. intros (us & Hu). destruct (rl_toks _ _ _ R1 _ _ Hu) as (us' & Hu' & _). exists us'. exact Hu'. }
    split; [exact (history_reachable C w lg w' Hr Hh)|]. split; [|auto].
    destruct (rl_pairs _ _ _ R1 _ _ Hp) as (st' & Hp' & [->|(Y & _)]); [exact Hp'|discriminate].
  Qed.

  Lemma sides01 : exists od ad, sides (ch_api C) st i0 i1 od ad /\ sides (ch_api C) st i1 i0 ad od.
  Proof.
    destruct Has as [E0 E1]. exists (r_asset_decimals st).1, (r_asset_decimals st).2.
    split; [left|right]; (split; [assumption|]; split; [assumption|]; destruct (r_asset_decimals st); reflexivity).
  Qed.
End liquidity.

(** A deposit of [d0] and [d1]: the direction towards the asset deposited in
    greater proportion is quoted no worse; a proportionate deposit improves
    both. *)
Theorem C94_deposit C w p st i0 i1 lp ts s assets tol rcv funds w' lg : chain_ok C -> reachable C w ->
  pair_at w p st -> assets_are C st i0 i1 -> i0 <> i1 -> live w i0 -> live w i1 ->
  human (ch_api C) (r_liquidity_token st) = Some lp -> tok_at w lp ts -> i0 <> Token lp -> i1 <> Token lp ->
  tx C w s (MExecute p (JProvideLiquidity assets tol rcv) funds) w' lg ->
  exists d0 d1, declared assets i0 d0 /\ declared assets i1 d1 /\
    holds w' p i0 = holds w p i0 + d0 /\ holds w' p i1 = holds w p i1 + d1 /\
    (d0 * holds w p i1 <= d1 * holds w p i0 -> quotes_no_worse C w w' p i0) /\
    (d1 * holds w p i0 <= d0 * holds w p i1 -> quotes_no_worse C w w' p i1).
Proof.
  intros OK Hr Hp Has H01 L0 L1 Hlp Ht H0l H1l T.
  destruct (later C OK w p st i0 i1 Hr Hp L0 L1 s _ w' lg T) as (Hsp & _ & Hr' & Hp' & L0' & L1').
  destruct T as (_ & f & x & E).
  pose proof (C54_deposit_effect C w p st i0 i1 lp ts s assets tol rcv funds f w' x lg OK Hr Hp Has H01 L0 L1 Hlp Ht H0l H1l Hsp E) as X.
  cbv zeta in X. destruct X as (d0 & d1 & ts1 & D0 & D1 & _ & Hh & _). exists d0, d1. split; [exact D0|]. split; [exact D1|].
  set (share := earned _ _ _ _ _) in Hh. clearbody share.
  fold (given s p (stray i0 i1 funds)) in Hh. setoid_rewrite left_app in Hh. setoid_rewrite arrived_app in Hh.
  setoid_rewrite given_left in Hh. setoid_rewrite given_arrived in Hh. cbn [left_ arrived fold_right] in Hh.
  assert (G : forall i, i = i0 \/ i = i1 -> holds w' p i = holds w p i + (if decide (i = i0) then d0 else 0) + (if decide (i = i1) then d1 else 0)).
  { intros i Hi. specialize (Hh p i). rewrite !(if_and (p = _) (_ = _)) in Hh.
    rewrite !(decide_False (P := p = s)) in Hh by congruence. rewrite !(decide_True (P := p = p)) in Hh by reflexivity.
    assert (Z : match i with Token _ => 0 | Native d => coin_sum d (stray i0 i1 funds) end = 0).
    { destruct i as [t|d]; [reflexivity|]. rewrite stray_sum. rewrite decide_True by exact Hi. reflexivity. }
    assert (NL : i <> Token lp) by (destruct Hi; congruence).
    rewrite (decide_False (P := i = Token lp)) in Hh by exact NL.
    destruct i; destruct (decide (_ = i0)), (decide (_ = i1)), (decide (p = receiver_or rcv s)); lia. }
  assert (G0 : holds w' p i0 = holds w p i0 + d0).
  { rewrite (G i0) by auto. rewrite decide_True by reflexivity. rewrite decide_False by exact H01. lia. }
  assert (G1 : holds w' p i1 = holds w p i1 + d1).
  { rewrite (G i1) by auto. rewrite decide_False by congruence. rewrite decide_True by reflexivity. lia. }
  split; [exact G0|]. split; [exact G1|].
  destruct (sides01 C st i0 i1 Has) as (od & ad & S1 & S2).
  split; intros Y.
  - eapply (C94_deeper_quotes C w w' p st i0 i1 od ad d0 d1); eauto.
  - eapply (C94_deeper_quotes C w w' p st i1 i0 ad od d1 d0); eauto.
Qed.

(** A withdrawal paying [r0] and [r1]: the direction towards the asset paid out
    in greater proportion was quoted no worse before than after, whence no
    withdrawal improves both directions. *)
Theorem C94_withdrawal C w p st i0 i1 lp ts s n w' lg : chain_ok C -> reachable C w ->
  pair_at w p st -> assets_are C st i0 i1 -> i0 <> i1 -> live w i0 -> live w i1 ->
  human (ch_api C) (r_liquidity_token st) = Some lp -> tok_at w lp ts -> i0 <> Token lp -> i1 <> Token lp ->
  tx C w s (MExecute lp (JSend p n HWithdrawLiquidity) []) w' lg ->
  exists r0 r1, holds w p i0 = holds w' p i0 + r0 /\ holds w p i1 = holds w' p i1 + r1 /\
    (r0 * holds w p i1 <= r1 * holds w p i0 -> quotes_no_worse C w' w p i0) /\
    (r1 * holds w p i0 <= r0 * holds w p i1 -> quotes_no_worse C w' w p i1) /\
    (quotes_no_worse C w' w p i0 \/ quotes_no_worse C w' w p i1).
Proof.
  intros OK Hr Hp Has H01 L0 L1 Hlp Ht H0l H1l T.
  destruct (later C OK w p st i0 i1 Hr Hp L0 L1 s _ w' lg T) as (Hsp & _ & Hr' & Hp' & L0' & L1').
  destruct T as (_ & f & x & E).
  destruct (C59_withdraw_effect C w p st i0 i1 lp ts s n f w' x lg OK Hr Hp Has L0 L1 Hlp Ht H0l H1l E) as (ts' & _ & _ & Hh).
  set (r0 := refund (holds w p i0) n (tk_supply ts)) in *. set (r1 := refund (holds w p i1) n (tk_supply ts)) in *. clearbody r0 r1.
  exists r0, r1. pose proof (Hh p i0) as G0. pose proof (Hh p i1) as G1. clear Hh. cbn [left_ arrived fold_right] in G0, G1.
  rewrite !(if_and (p = _) (_ = _)) in G0. rewrite !(if_and (p = _) (_ = _)) in G1.
  rewrite !(decide_False (P := p = s)) in G0 by congruence. rewrite !(decide_False (P := p = s)) in G1 by congruence.
  rewrite !(decide_True (P := p = p)) in G0 by reflexivity. rewrite !(decide_True (P := p = p)) in G1 by reflexivity.
  rewrite (decide_True (P := i0 = i0)) in G0 by reflexivity. rewrite (decide_False (P := i0 = i1)) in G0 by exact H01.
  rewrite (decide_True (P := i1 = i1)) in G1 by reflexivity. rewrite (decide_False (P := i1 = i0)) in G1 by congruence.
  assert (E0 : holds w p i0 = holds w' p i0 + r0) by lia. assert (E1 : holds w p i1 = holds w' p i1 + r1) by lia. clear G0 G1.
  split; [exact E0|]. split; [exact E1|].
  destruct (sides01 C st i0 i1 Has) as (od & ad & S1 & S2).
  assert (A0 : r0 * holds w p i1 <= r1 * holds w p i0 -> quotes_no_worse C w' w p i0).
  { intros Y. eapply (C94_deeper_quotes C w' w p st i0 i1 od ad r0 r1); eauto. rewrite E0, E1 in Y. nia. }
  assert (A1 : r1 * holds w p i0 <= r0 * holds w p i1 -> quotes_no_worse C w' w p i1).
  { intros Y. eapply (C94_deeper_quotes C w' w p st i1 i0 ad od r1 r0); eauto. rewrite E0, E1 in Y. nia. }
  split; [exact A0|]. split; [exact A1|]. destruct (N.le_ge_cases (r0 * holds w p i1) (r1 * holds w p i0)); auto.
Qed.

(** A proportionate deposit, a lopsided one (200000 uaura for 1000000 #1 at a
    price of 2) and a withdrawal at the example pair, and the quotes for 500000
    #1 and 500000 uaura. *)
Definition lopsided : bool * cmsg :=
  (true, MExecute "#4" (JProvideLiquidity (Asset (Token "#1") 1000000, Asset (Native "uaura") 200000) None None) [Coin "uaura" 200000])%string.
Definition quote4 (w : world) : list N :=
  map (fun i => match ask_simulate ex_chain w "#4" (Asset i 500000) with Ok (Simulation r _ _) => r | _ => 0 end) [Token "#1"; Native "uaura"].
Example C94_case :
  reachable ex_chain ex_world /\ pair_at ex_world "#4" ex_pair4 /\ assets_are ex_chain ex_pair4 (Token "#1") (Native "uaura") /\
  live ex_world (Token "#1") /\ human ex_api (r_liquidity_token ex_pair4) = Some "#5"%string /\ tok_at ex_world "#5" (tok_of ex_world "#5") /\
  (forall m, In m [ex_provide; lopsided; ex_withdraw] -> tx ex_chain ex_world (who m.1) m.2 (after ex_world [m]) (log_of ex_world [m])) /\
  map quote4 (ex_world :: map (fun m => after ex_world [m]) [ex_provide; lopsided; ex_withdraw]) =
    [[949523; 243171]; [953652; 243711]; [875626; 264903]; [946096; 242720]].
Proof.
  split; [exact ex_reachable|]. split; [exact ex_pair4_at|]. split; [split; reflexivity|].
  split; [exists (tok_of ex_world "#1"); apply tok_of_at; vm_compute; reflexivity|]. split; [reflexivity|].
  split; [apply tok_of_at; vm_compute; reflexivity|].
  split.
  { intros m Hm. destruct Hm as [<-|[<-|[<-|[]]]]; apply one_tx; vm_compute; reflexivity. }
  vm_compute. reflexivity.
Qed.
