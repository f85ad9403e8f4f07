(** Exactly when a withdrawal is executed and what it does (C59). *)
From Verif Require Import Base BigNumber CwStd BigNumberFacts Asset Messages PairMath Pair PairFacts Token Factory Router
  SwapFacts SwapFacts2 P_Swap P_Pair FactoryFacts P_Factory P_Router TokenFacts World WorldInd WorldFacts WorldInv WorldInd2
  Examples WorldExamples P_Ledger P_Registry ExecFacts P_Exec.
From Coq Require Import ZifyN.
Local Open Scope N_scope.
Ltac Zify.zify_post_hook ::= idtac.

Section withdraw.
  Context (C : chain) (OK : chain_ok C).
  Local Notation A := (ch_api C).

  Lemma withdraw_recv_range f w lp p s n st i0 i1 w' x lg : sane C w -> pair_at w p st ->
    assets_are C st i0 i1 -> live w i0 -> live w i1 ->
    exec C f w lp (MExecute p (JReceive s n HWithdrawLiquidity) []) = Ok (w', x, lg) ->
    holds w p i0 < B128 /\ holds w p i1 < B128.
  Proof.
    intros Sn Hp Has L0 L1 E. destruct f; [rewrite exec_0 in E; discriminate|]. rewrite exec_eq in E.
    rewrite (sane_norm C OK _ _ _ Sn Hp) in E. cbn [oget rbind] in E. rewrite bank_send_none in E. cbn [rbind] in E.
    pose proof Hp as Hi. apply state_at_inst in Hi as (adm & Hi). rewrite Hi in E. cbn [oget rbind i_state call] in E.
    apply rbind_ok in E as ([s' rsp] & Ec & E). apply rbind_ok in Ec as ([st' rsp'] & Ec & X). injection X as <- <-.
    apply receive_withdraw_inv in Ec as (Hr & _ & Ns & Ec).
    apply withdraw_inv in Ec as (y & lp' & ti & q0 & q1 & -> & Hy & Hlp' & Hti & Hrf & Hmsg).
    apply (pools_are C OK w p st i0 i1 y Sn Hp Has L0 L1) in Hy as (R0 & R1 & _). auto.
  Qed.

  Lemma withdraw_tx_inv f w lp p s n st i0 i1 ts w' x lg : sane C w -> pair_at w p st ->
    assets_are C st i0 i1 -> live w i0 -> live w i1 -> human A (r_liquidity_token st) = Some lp -> tok_at w lp ts ->
    i0 <> Token lp -> i1 <> Token lp ->
    exec C f w s (MExecute lp (JSend p n HWithdrawLiquidity) []) = Ok (w', x, lg) ->
    let r0 := refund (holds w p i0) n (tk_supply ts) in let r1 := refund (holds w p i1) n (tk_supply ts) in
    holds w p i0 < B128 /\ holds w p i1 < B128 /\ 0 < n /\ n <= holds w s (Token lp) /\ 0 < r0 /\ 0 < r1 /\ norm A s = Some s /\
    exists w1 wa wb, paid w w1 (Token lp) s p n /\ paid w1 wa i0 p s r0 /\ paid wa wb i1 p s r1 /\ burnt wb w' lp p n /\ sane C w'.
  Proof.
    intros Sn Hp Has L0 L1 Hlp Ht H0l H1l E r0 r1.
    assert (Lt : live w (Token lp)) by (exists ts; exact Ht).
    apply (send_inv C OK) in E as (w1 & f' & lg' & att & P1 & S1 & Hn & _ & _ & E & _); auto.
    destruct (pd_toks _ _ _ _ _ _ P1 _ _ Ht) as (ts1 & Ht1 & Eb). assert (Es : tk_supply ts1 = tk_supply ts) by apply Eb.
    assert (E0 : holds w1 p i0 = holds w p i0) by (eapply paid_other; [exact P1|congruence|congruence]).
    assert (E1 : holds w1 p i1 = holds w p i1) by (eapply paid_other; [exact P1|congruence|congruence]).
    pose proof (withdraw_recv_inv C OK f' w1 lp p s n st i0 i1 ts1 _ _ _ S1 (paid_pair _ _ _ _ _ _ _ _ P1 Hp) Has
      (paid_live _ _ _ _ _ _ _ P1 L0) (paid_live _ _ _ _ _ _ _ P1 L1) Hlp Ht1 E) as Y. cbv zeta in Y.
    pose proof (withdraw_recv_range f' w1 lp p s n st i0 i1 _ _ _ S1 (paid_pair _ _ _ _ _ _ _ _ P1 Hp) Has
      (paid_live _ _ _ _ _ _ _ P1 L0) (paid_live _ _ _ _ _ _ _ P1 L1) E) as [R0 R1].
    rewrite E0, E1, ?Es in *. destruct Y as (wa & wb & Ns & _ & _ & _ & G0 & G1 & Pa & Pb & B & _ & _ & Sc).
    do 4 (split; [first [assumption | apply (pd_have _ _ _ _ _ _ P1)]|]). do 3 (split; [assumption|]). exists w1, wa, wb. auto.
  Qed.
End withdraw.

(** Sending LP tokens to the pair to withdraw is executed if and only if the
    sender has them, and the share of each reserve is at least one unit (and the
    reserves fit 128 bits, which only a native coin can violate). *)
Theorem C59_withdraw_iff C w p st i0 i1 lp ts s n : chain_ok C -> reachable C w ->
  pair_at w p st -> assets_are C st i0 i1 -> i0 <> i1 -> live w i0 -> live w i1 ->
  human (ch_api C) (r_liquidity_token st) = Some lp -> tok_at w lp ts -> i0 <> Token lp -> i1 <> Token lp ->
  norm (ch_api C) s = Some s -> s <> p ->
  (exists w', succeeds C w s (MExecute lp (JSend p n HWithdrawLiquidity) []) w') <->
  holds w p i0 < 2 ^ 128 /\ holds w p i1 < 2 ^ 128 /\ 0 < n /\ n <= holds w s (Token lp) /\
  1 <= refund (holds w p i0) n (tk_supply ts) /\ 1 <= refund (holds w p i1) n (tk_supply ts).
Proof.
  intros OK Hr Hp Has H01 L0 L1 Hlp Ht H0l H1l Ns Hsp. split.
  - intros (w' & k & K). destruct (K k (le_n k)) as (lg & E).
    pose proof (withdraw_tx_inv C OK k w lp p s n st i0 i1 ts w' None lg (main_sane C w (reachable_main C OK w Hr)) Hp Has L0 L1 Hlp Ht H0l H1l E) as Y.
    cbv zeta in Y. destruct Y as (R0 & R1 & Hn & Hh & G0 & G1 & _). change (2 ^ 128) with B128. repeat split; [assumption..|lia|lia].
  - intros (R0 & R1 & Hn & Hh & G0 & G1).
    destruct (C48_can_withdraw C w p st i0 i1 lp ts s n) as (w' & ts' & K & _); auto. exists w'. exact K.
Qed.

(** What an executed withdrawal does: the LP tokens are destroyed, the two shares
    go from the pair to the sender, and nothing else moves. *)
Theorem C59_withdraw_effect C w p st i0 i1 lp ts s n g w' x lg : chain_ok C -> reachable C w ->
  pair_at w p st -> assets_are C st i0 i1 -> live w i0 -> live w i1 ->
  human (ch_api C) (r_liquidity_token st) = Some lp -> tok_at w lp ts -> i0 <> Token lp -> i1 <> Token lp ->
  exec C g w s (MExecute lp (JSend p n HWithdrawLiquidity) []) = Ok (w', x, lg) ->
  exists ts', tok_at w' lp ts' /\ tk_supply ts' + n = tk_supply ts /\
    forall y j, holds w' y j
      + left_ y j [(i0, p, s, refund (holds w p i0) n (tk_supply ts)); (i1, p, s, refund (holds w p i1) n (tk_supply ts))]
      + (if decide (y = s /\ j = Token lp) then n else 0) =
      holds w y j
      + arrived y j [(i0, p, s, refund (holds w p i0) n (tk_supply ts)); (i1, p, s, refund (holds w p i1) n (tk_supply ts))].
Proof.
  intros OK Hr Hp Has L0 L1 Hlp Ht H0l H1l E.
  pose proof (withdraw_tx_inv C OK g w lp p s n st i0 i1 ts w' x lg (main_sane C w (reachable_main C OK w Hr)) Hp Has L0 L1 Hlp Ht H0l H1l E) as Y.
  cbv zeta in Y. destruct Y as (_ & _ & _ & _ & _ & _ & _ & w1 & wa & wb & P1 & Pa & Pb & B & _).
  destruct (pd_toks _ _ _ _ _ _ P1 _ _ Ht) as (ts1 & Ht1 & Eb1).
  destruct (pd_toks _ _ _ _ _ _ Pa _ _ Ht1) as (tsa & Hta & Eba). destruct (pd_toks _ _ _ _ _ _ Pb _ _ Hta) as (tsb & Htb & Ebb).
  destruct (bn_supply _ _ _ _ _ B _ Htb) as (ts' & Ht' & Ec & _).
  exists ts'. split; [exact Ht'|].
  split. { assert (tk_supply tsb = tk_supply tsa) by apply Ebb. assert (tk_supply tsa = tk_supply ts1) by apply Eba. assert (tk_supply ts1 = tk_supply ts) by apply Eb1. lia. }
  intros y j.
  pose proof (pd_holds _ _ _ _ _ _ P1 y j) as X1. pose proof (pd_holds _ _ _ _ _ _ Pa y j) as Xa.
  pose proof (pd_holds _ _ _ _ _ _ Pb y j) as Xb. pose proof (bn_holds _ _ _ _ _ B y j) as Xc.
  cbn [left_ arrived fold_right]. repeat destruct (decide _); lia.
Qed.

(** A holder of all LP tokens can withdraw both reserves entirely: no unit stays
    locked in the pair, whatever happened before. *)
Theorem C59_last_provider_gets_all C w p st i0 i1 lp ts s : chain_ok C -> reachable C w ->
  pair_at w p st -> assets_are C st i0 i1 -> i0 <> i1 -> live w i0 -> live w i1 ->
  human (ch_api C) (r_liquidity_token st) = Some lp -> tok_at w lp ts -> i0 <> Token lp -> i1 <> Token lp ->
  norm (ch_api C) s = Some s -> s <> p ->
  0 < tk_supply ts -> holds w s (Token lp) = tk_supply ts ->
  0 < holds w p i0 < 2 ^ 128 -> 0 < holds w p i1 < 2 ^ 128 ->
  exists w', succeeds C w s (MExecute lp (JSend p (tk_supply ts) HWithdrawLiquidity) []) w' /\
    holds w' p i0 = 0 /\ holds w' p i1 = 0 /\
    holds w' s i0 = holds w s i0 + holds w p i0 /\ holds w' s i1 = holds w s i1 + holds w p i1 /\
    exists ts', tok_at w' lp ts' /\ tk_supply ts' = 0.
Proof.
  intros OK Hr Hp Has H01 L0 L1 Hlp Ht H0l H1l Ns Hsp Hs Hh [G0 R0] [G1 R1].
  assert (X : forall R, refund R (tk_supply ts) (tk_supply ts) = R).
  { intros R. unfold refund. rewrite (N.mul_comm (tk_supply ts)), N.div_mul by lia. apply N.div_mul. discriminate. }
  destruct (C48_can_withdraw C w p st i0 i1 lp ts s (tk_supply ts)) as (w' & ts' & K & Ht' & Es & Hb); auto; rewrite ?X, ?Hh; try lia.
  exists w'. split; [exact K|]. rewrite !X in Hb.
  pose proof (Hb p i0) as B0. pose proof (Hb p i1) as B1. pose proof (Hb s i0) as B2. pose proof (Hb s i1) as B3.
  cbn [left_ arrived fold_right] in B0, B1, B2, B3.
  repeat match type of B0 with context [decide ?P] => destruct (decide P) as [[? ?]|?]; try congruence end;
  repeat match type of B1 with context [decide ?P] => destruct (decide P) as [[? ?]|?]; try congruence end;
  repeat match type of B2 with context [decide ?P] => destruct (decide P) as [[? ?]|?]; try congruence end;
  repeat match type of B3 with context [decide ?P] => destruct (decide P) as [[? ?]|?]; try congruence end; try tauto.
  split; [lia|]. split; [lia|]. split; [lia|]. split; [lia|]. exists ts'. split; [exact Ht'|lia].
Qed.

(** Alice owns all LP tokens of pair #4. *)
Example C59_case :
  let wd n := (true, x_call "#5" (JSend "#4" n HWithdrawLiquidity)) in let w' := after ex_world [wd 14142135] in
  reachable ex_chain ex_world /\ pair_at ex_world "#4" ex_pair4 /\ assets_are ex_chain ex_pair4 (Token "#1") (Native "uaura") /\
  live ex_world (Token "#1") /\ human ex_api (r_liquidity_token ex_pair4) = Some "#5"%string /\
  tok_at ex_world "#5" (tok_of ex_world "#5") /\ norm ex_api "alice" = Some "alice"%string /\
  holds ex_world "alice" (Token "#5") = 14142135 /\ tk_supply (tok_of ex_world "#5") = 14142135 /\
  refund (holds ex_world "#4" (Token "#1")) 1 14142135 = 0 /\ refund (holds ex_world "#4" (Token "#1")) 2 14142135 = 1 /\
  refund (holds ex_world "#4" (Native "uaura")) 2 14142135 = 2 /\
  is_ok (script ex_world [wd 1]) = false /\ is_ok (script ex_world [wd 2]) = true /\
  is_ok (script ex_world [wd 14142135]) = true /\ is_ok (script ex_world [wd 14142136]) = false /\
  holds w' "#4" (Token "#1") = 0 /\ holds w' "#4" (Native "uaura") = 0 /\ tk_supply (tok_of w' "#5") = 0.
Proof.
  intros wd w'. split; [exact ex_reachable|]. split; [exact ex_pair4_at|]. split; [split; reflexivity|].
  split; [exists (tok_of ex_world "#1"); apply tok_of_at; vm_compute; reflexivity|]. split; [reflexivity|].
  split; [apply tok_of_at; vm_compute; reflexivity|]. repeat (split; [vm_compute; reflexivity|]). vm_compute; reflexivity.
Qed.
