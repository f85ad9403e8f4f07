(** Which limits protect a swap against trades executed before it (C74). *)
From Verif Require Import Base BigNumber CwStd BigNumberFacts Asset Messages PairMath Pair PairFacts Token Factory Router
  SwapFacts SwapFacts2 P_Swap P_Pair FactoryFacts P_Factory P_Router TokenFacts World WorldInd WorldFacts WorldInv WorldInd2
  Examples WorldExamples P_Ledger P_Registry ExecFacts P_Exec P_Value P_Route P_Route2 P_Quotes.
From Coq Require Import ZifyN.
Local Open Scope N_scope.
Ltac Zify.zify_post_hook ::= idtac.

(** ** C74 *)

(** The swap a user signs in state [w] names a belief price [b] and a maximum
    spread [m] (both with 18 digits). Whatever is executed before it, if it is
    executed the receiver gets the fraction 1 - m of what [n] units are worth at
    the price [b], up to 10^-18 of it; amounts are rescaled to the larger number
    of decimals. *)
Theorem C74_belief_price_protects C w lg w1 p st t ai od ad s n b m to w2 lg2 : chain_ok C -> reachable C w ->
  pair_at w p st -> sides (ch_api C) st (Token t) ai od ad -> Token t <> ai -> live w (Token t) -> live w ai ->
  history C w lg w1 ->
  tx C w1 s (MExecute t (JSend p n (HSwap (Some b) (Some m) to)) []) w2 lg2 ->
  b <> 0 /\ exists r, settled w1 w2 [(Token t, s, p, n); (ai, p, default s to, r)] /\
    let expected := n * 10 ^ (ad - od) * 10 ^ 18 / b in
    expected * 10 ^ 18 <= r * 10 ^ (od - ad) * 10 ^ 18 + (m + 1) * expected.
Proof.
  intros OK Hr Hp Hs Hne Lt La Hh (O & f & x & E).
  pose proof (reachable_main C OK w Hr) as M. destruct (pair_fresh C w p st M Hp) as (n0 & Ep).
  assert (Np : s <> p) by (intros ->; exact (proj2 O n0 (eq_sym Ep))).
  pose proof (history_reachable C w lg w1 Hr Hh) as Hr1. destruct (history_main C OK w lg w1 M Hh) as [M1 R1].
  assert (Hp1 : pair_at w1 p st).
  { destruct (rl_pairs _ _ _ R1 _ _ Hp) as (st' & Hp' & [->|(Y & _)]); [exact Hp'|discriminate]. }
  assert (Lv : forall i, live w i -> live w1 i).
  { intros [u|d]; [|auto]. intros (us & Hu). destruct (rl_toks _ _ _ R1 _ _ Hu) as (us' & Hu' & _). exists us'. exact Hu'. }
  apply (swap_tx_inv C OK w1 p st t ai od ad s) in E as (r & sp & c & _ & _ & Rn & _ & Ra & Fb & Fm & _ & Hc & Hm & St); auto; [|apply (main_sane C w1 M1)|apply O].
  assert (Rr : r < B128 /\ sp < B128).
  { apply compute_swap_ok in Hc as (_ & _ & _ & _ & Hs' & -> & -> & _); auto; [|apply (holds_range C w1 t p (main_sane C w1 M1)), Lv; exact Lt].
    split; [|exact Hs']. pose proof (sw_gross_le (holds w1 p (Token t)) (holds w1 p ai) n). lia. }
  apply limits_iff in Hm as (_ & Hb & Hl); try assumption; try apply Rr. split; [exact Hb|]. exists r. split; [exact St|]. cbv zeta in Hl |- *.
  set (e := n * 10 ^ (ad - od) * 10 ^ 18 / b) in *. set (g := r * 10 ^ (od - ad)) in *. clearbody e g.
  destruct Hl as [Hl|[_ Hl]]; lia.
Qed.

(** A maximum spread alone does not protect: it limits the distance from the
    price at the moment of execution, which others may have moved. Alice swaps
    1000000 #1 with a maximum spread of 10%. Bob's swap just before and the
    reverse swap just after leave alice with 714279 instead of 2719091 #2, and
    bob with 691655 more #1 and all their #2. *)
Definition victim (belief : option N) : bool * cmsg :=
  (true, x_call "#1" (JSend "#6" 1000000 (HSwap belief (Some 100000000000000000) None))).
Definition front : bool * cmsg := (false, x_call "#1" (JSend "#6" 10000000 (HSwap None None None))).
Definition back : bool * cmsg := (false, x_call "#2" (JSend "#6" 14955000 (HSwap None None None))).
Theorem C74_max_spread_alone_refuted : exists C w p t u n m undisturbed w1 w2 w3 l0 l1 l2 l3,
  let alice := "alice"%string in let bob := "bob"%string in
  chain_ok C /\ reachable C w /\ m = 10 ^ 17 /\
  tx C w alice (MExecute t (JSend p n (HSwap None (Some m) None)) []) undisturbed l0 /\
  (exists a, tx C w bob (MExecute t (JSend p a (HSwap None None None)) []) w1 l1) /\
  tx C w1 alice (MExecute t (JSend p n (HSwap None (Some m) None)) []) w2 l2 /\
  (exists a, tx C w2 bob (MExecute u (JSend p a (HSwap None None None)) []) w3 l3) /\
  holds undisturbed alice (Token u) = holds w alice (Token u) + 2719091 /\
  holds w3 alice (Token u) = holds w alice (Token u) + 714279 /\
  holds w3 bob (Token t) = holds w bob (Token t) + 691655 /\ holds w3 bob (Token u) = holds w bob (Token u).
Proof.
  exists ex_chain, ex_world, "#6"%string, "#1"%string, "#2"%string, 1000000, (10 ^ 17), (after ex_world [victim None]),
    (after ex_world [front]), (after (after ex_world [front]) [victim None]), (after (after (after ex_world [front]) [victim None]) [back]),
    (log_of ex_world [victim None]), (log_of ex_world [front]), (log_of (after ex_world [front]) [victim None]),
    (log_of (after (after ex_world [front]) [victim None]) [back]).
  cbv zeta. split; [exact ex_chain_ok|]. split; [exact ex_reachable|]. split; [reflexivity|].
  split; [apply (one_tx ex_world true (victim None).2); vm_compute; reflexivity|].
  split; [exists 10000000; apply (one_tx ex_world false front.2); vm_compute; reflexivity|].
  split; [apply (one_tx (after ex_world [front]) true (victim None).2); vm_compute; reflexivity|].
  split; [exists 14955000; apply (one_tx (after (after ex_world [front]) [victim None]) false back.2); vm_compute; reflexivity|].
  split; [vm_compute; reflexivity|]. split; [vm_compute; reflexivity|]. split; vm_compute; reflexivity.
Qed.

(** With the belief price 1/3 alice's swap is executed undisturbed, and refused
    after bob's. After a smaller trade by bob it is executed and pays the
    promised fraction. *)
Example C74_case :
  let b := 333333333333333333 in let m := 100000000000000000 in
  let w1 := after ex_world [(false, x_call "#1" (JSend "#6" 10000 (HSwap None None None)))] in let w2 := after w1 [victim (Some b)] in
  reachable ex_chain ex_world /\ pair_at ex_world "#6" ex_pair6 /\ sides ex_api ex_pair6 (Token "#1") (Token "#2") 6 6 /\
  live ex_world (Token "#1") /\ live ex_world (Token "#2") /\
  history ex_chain ex_world (log_of ex_world [(false, x_call "#1" (JSend "#6" 10000 (HSwap None None None)))]) w1 /\
  tx ex_chain w1 "alice" (victim (Some b)).2 w2 (log_of w1 [victim (Some b)]) /\
  holds w2 "alice" (Token "#2") = holds w1 "alice" (Token "#2") + 2713915 /\
  1000000 * 10 ^ 18 / b = 3000000 /\
  is_ok (script ex_world [victim (Some b)]) = true /\ is_ok (script ex_world [front; victim (Some b)]) = false.
Proof.
  intros b m w1 w2. split; [exact ex_reachable|]. split; [vm_compute; reflexivity|]. split; [left; vm_compute; auto|].
  split; [exists (tok_of ex_world "#1"); apply tok_of_at; vm_compute; reflexivity|].
  split; [exists (tok_of ex_world "#2"); apply tok_of_at; vm_compute; reflexivity|].
  split; [apply after_history|]. split; [apply (one_tx w1 true (victim (Some b)).2); vm_compute; reflexivity|].
  repeat (split; [vm_compute; reflexivity|]). vm_compute; reflexivity.
Qed.
