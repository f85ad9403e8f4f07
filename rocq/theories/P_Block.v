(** Trades of different users on different pairs do not influence each other, in
    whatever order a block holds them (C83). *)
From Verif Require Import Base BigNumber CwStd BigNumberFacts Asset Messages PairMath Pair PairFacts Token Factory Router
  SwapFacts SwapFacts2 P_Swap P_Pair FactoryFacts P_Factory P_Router TokenFacts World WorldInd WorldFacts WorldInv WorldInd2
  Examples WorldExamples P_Ledger P_Registry ExecFacts P_Exec P_Quotes.
From Coq Require Import ZifyN.
Local Open Scope N_scope.
Ltac Zify.zify_post_hook ::= idtac.

(** ** Specification *)

(** A user sells [tr_amount] of the cw20 token [tr_token] for [tr_ask] on the pair
    [tr_pair], with limits. *)
Record trade := Trade {
  tr_user : string; tr_pair : string; tr_token : string; tr_ask : asset_info; tr_amount : N;
  tr_belief : option decimal; tr_spread : option decimal;
}.
Definition order_of (T : trade) : cmsg :=
  MExecute (tr_token T) (JSend (tr_pair T) (tr_amount T) (HSwap (tr_belief T) (tr_spread T) None)) [].

(** There is such a pair and such a user. *)
Definition on_market (C : chain) (w : world) (T : trade) : Prop :=
  ordinary C (tr_user T) /\ live w (Token (tr_token T)) /\ live w (tr_ask T) /\ Token (tr_token T) <> tr_ask T /\
  exists st od ad, pair_at w (tr_pair T) st /\ sides (ch_api C) st (Token (tr_token T)) (tr_ask T) od ad.

(** The trade is executed if it comes next. *)
Definition executable (C : chain) (w : world) (T : trade) : Prop := exists w', succeeds C w (tr_user T) (order_of T) w'.

(** All trades of a block are executed, one after another. *)
Inductive executed (C : chain) : world -> list trade -> world -> Prop :=
| exec_nil w : executed C w [] w
| exec_cons w T w1 l w' : succeeds C w (tr_user T) (order_of T) w1 -> executed C w1 l w' -> executed C w (T :: l) w'.

(** What the trade exchanges if it comes next. *)
Definition exchange (w : world) (T : trade) : list payment :=
  let g := gross (holds w (tr_pair T) (Token (tr_token T))) (holds w (tr_pair T) (tr_ask T)) (tr_amount T) in
  [(Token (tr_token T), tr_user T, tr_pair T, tr_amount T); (tr_ask T, tr_pair T, tr_user T, g - fee g)].

(** ** Lemmas *)
Section block.
  Context (C : chain) (OK : chain_ok C).
  Lemma user_not_pair w T U : reachable C w -> on_market C w T -> on_market C w U -> tr_user T <> tr_pair U.
  Proof.
    intros Hr ([_ O] & _) (_ & _ & _ & _ & st & od & ad & Hp & _) E.
    destruct (pair_fresh C w _ st (reachable_main C OK w Hr) Hp) as (n & En). rewrite E in O. exact (O n (eq_sym En)).
  Qed.
  Lemma trade_settled w T w1 : reachable C w -> on_market C w T -> succeeds C w (tr_user T) (order_of T) w1 ->
    reachable C w1 /\ settled w w1 (exchange w T) /\ forall U, on_market C w U -> on_market C w1 U.
  Proof.
    intros Hr Ho (k & K). pose proof (user_not_pair w T T Hr Ho Ho) as Np. destruct (K k (Nat.le_refl k)) as (lg & E). pose proof Ho as (O & L0 & L1 & Hne & st & od & ad & Hp & Hs).
    assert (Hh : history C w lg w1).
    { apply (hist_tx C w [] w (tr_user T) (order_of T) w1 lg); [constructor|]. split; [exact O|]. eauto. }
    split; [exact (history_reachable C w lg w1 Hr Hh)|]. split.
    - exact (C58_swap_effect C w _ st _ _ od ad _ _ _ _ None k w1 None lg OK Hr Hp Hs Hne L0 L1 Np (proj1 O) E).
    - destruct (history_main C OK w lg w1 (reachable_main C OK w Hr) Hh) as [_ R].
      assert (Lv : forall i, live w i -> live w1 i).
      { intros [u|d]; [|auto]. intros (us & Hu). destruct (rl_toks _ _ _ R _ _ Hu) as (us' & Hu' & _). exists us'. exact Hu'. }
      intros U (O' & L0' & L1' & Hne' & st' & od' & ad' & Hp' & Hs'). split; [exact O'|]. split; [auto|]. split; [auto|]. split; [exact Hne'|].
      exists st', od', ad'. split; [|exact Hs']. exact (proj1 (C47_pair_immutable C w lg w1 _ st' OK Hr Hh Hp')).
  Qed.
  Lemma settled_other w w1 T y j : settled w w1 (exchange w T) -> y <> tr_user T -> y <> tr_pair T -> holds w1 y j = holds w y j.
  Proof.
    intros S Hu Hp. specialize (S y j). unfold exchange in S. cbv zeta in S. cbn [left_ arrived fold_right] in S.
    repeat match type of S with context [decide ?P] => destruct (decide P) as [[? ?]|?]; [congruence|] end. lia.
  Qed.
  Lemma frame w T w1 U : reachable C w -> on_market C w T -> on_market C w U -> succeeds C w (tr_user T) (order_of T) w1 ->
    tr_user T <> tr_user U -> tr_pair T <> tr_pair U -> (executable C w1 U <-> executable C w U) /\ exchange w1 U = exchange w U.
  Proof.
    intros Hr Ht Hu E Du Dp. destruct (trade_settled w T w1 Hr Ht E) as (Hr1 & S & M). pose proof (M U Hu) as Hu1.
    assert (Ep : forall j, holds w1 (tr_pair U) j = holds w (tr_pair U) j).
    { intros j. apply (settled_other w w1 T _ j S); [intros X; exact (user_not_pair w T U Hr Ht Hu (eq_sym X))|congruence]. }
    assert (Eu : forall j, holds w1 (tr_user U) j = holds w (tr_user U) j).
    { intros j. apply (settled_other w w1 T _ j S); [congruence|exact (user_not_pair w U T Hr Hu Ht)]. }
    split; [|unfold exchange; rewrite !Ep; reflexivity].
    pose proof (user_not_pair w U U Hr Hu Hu) as Np.
    destruct Hu as (O & L0 & L1 & Hne & st & od & ad & Hp & Hs). destruct Hu1 as (_ & L0' & L1' & _ & st' & _ & _ & Hp' & _).
    assert (Z : pair_at w1 (tr_pair U) st).
    { destruct E as (k & K). destruct (K k (Nat.le_refl k)) as (lg & E).
      assert (Hh : history C w lg w1).
      { apply (hist_tx C w [] w (tr_user T) (order_of T) w1 lg); [constructor|]. split; [exact (proj1 Ht)|]. eauto. }
      exact (proj1 (C47_pair_immutable C w lg w1 _ st OK Hr Hh Hp)). }
    unfold executable, order_of.
    rewrite (C58_swap_iff C w1 _ st _ _ od ad _ _ _ _ None OK Hr1 Z Hs Hne L0' L1' Np (proj1 O)).
    rewrite (C58_swap_iff C w _ st _ _ od ad _ _ _ _ None OK Hr Hp Hs Hne L0 L1 Np (proj1 O)).
    cbv zeta. rewrite !Ep, !Eu. reflexivity.
  Qed.
  Lemma not_in_map {A B} (f : A -> B) x y (l : list A) : ~ In (f x) (map f l) -> In y l -> f x <> f y.
  Proof. intros H I E. apply H. rewrite E. apply in_map. exact I. Qed.
  Lemma block_iff l : forall w, reachable C w -> Forall (on_market C w) l -> List.NoDup (map tr_user l) -> List.NoDup (map tr_pair l) ->
    ((exists w', executed C w l w') <-> Forall (executable C w) l) /\
    forall w', executed C w l w' -> settled w w' (flat_map (exchange w) l).
  Proof.
    induction l as [|T l IH]; intros w Hr Hm Nu Np.
    { split; [split; [constructor|exists w; constructor]|]. intros w' E. inversion E. subst. intros x j. reflexivity. }
    inversion Hm as [|? ? Ht Hl]; subst. cbn [map] in Nu, Np. inversion Nu as [|? ? Iu Nu']; subst. inversion Np as [|? ? Ip Np']; subst.
    assert (Step : forall w1, succeeds C w (tr_user T) (order_of T) w1 ->
      reachable C w1 /\ settled w w1 (exchange w T) /\ Forall (on_market C w1) l /\
      (Forall (executable C w1) l <-> Forall (executable C w) l) /\ flat_map (exchange w1) l = flat_map (exchange w) l).
    { intros w1 E. destruct (trade_settled w T w1 Hr Ht E) as (Hr1 & S & M). split; [exact Hr1|]. split; [exact S|].
      split; [eapply List.Forall_impl; [exact M|exact Hl]|].
      assert (F : forall U, In U l -> (executable C w1 U <-> executable C w U) /\ exchange w1 U = exchange w U).
      { intros U I. apply (frame w T w1 U Hr Ht); try assumption.
        - rewrite List.Forall_forall in Hl. exact (Hl U I).
        - exact (not_in_map tr_user T U l Iu I).
        - exact (not_in_map tr_pair T U l Ip I). }
      split.
      - rewrite !List.Forall_forall. split; intros H U I; apply (F U I); exact (H U I).
      - clear -F. induction l as [|U l IHl]; [reflexivity|]. cbn [flat_map]. rewrite (proj2 (F U (or_introl eq_refl))), IHl; [reflexivity|].
        intros V I. exact (F V (or_intror I)). }
    split.
    - split.
      + intros (w' & E). inversion E as [|? ? w1 ? ? E1 E2]; subst. destruct (Step w1 E1) as (Hr1 & _ & Hl1 & F & _).
        constructor; [exists w1; exact E1|]. apply F. apply (IH w1 Hr1 Hl1 Nu' Np'). eauto.
      + intros H. inversion H as [|? ? (w1 & E1) H2]; subst. destruct (Step w1 E1) as (Hr1 & _ & Hl1 & F & _).
        apply F in H2. apply (IH w1 Hr1 Hl1 Nu' Np') in H2 as (w' & E2). exists w'. econstructor; eassumption.
    - intros w' E. inversion E as [|? ? w1 ? ? E1 E2]; subst. destruct (Step w1 E1) as (Hr1 & S & Hl1 & _ & X).
      cbn [flat_map]. apply (settled_app w w1 w' _ _ S). rewrite <- X. exact (proj2 (IH w1 Hr1 Hl1 Nu' Np') w' E2).
  Qed.
End block.

Lemma left_perm x j l l' : Permutation l l' -> left_ x j l = left_ x j l'.
Proof.
  intros P. induction P as [|[[[? ?] ?] ?] ? ? _ IH|[[[? ?] ?] ?] [[[? ?] ?] ?] ?|? ? ? _ IH1 _ IH2]; [reflexivity| | |congruence].
  - cbn [left_ fold_right]. unfold left_ in IH. rewrite IH. reflexivity.
  - cbn [left_ fold_right]. repeat destruct (decide _); lia.
Qed.
Lemma arrived_perm x j l l' : Permutation l l' -> arrived x j l = arrived x j l'.
Proof.
  intros P. induction P as [|[[[? ?] ?] ?] ? ? _ IH|[[[? ?] ?] ?] [[[? ?] ?] ?] ?|? ? ? _ IH1 _ IH2]; [reflexivity| | |congruence].
  - cbn [arrived fold_right]. unfold arrived in IH. rewrite IH. reflexivity.
  - cbn [arrived fold_right]. repeat destruct (decide _); lia.
Qed.

(** ** C83 *)

(** Trades of different users on different pairs: all are executed, in any order,
    exactly when each would be executed alone, and each exchanges what it would
    exchange alone. *)
Theorem C83_independent C w l : chain_ok C -> reachable C w -> Forall (on_market C w) l ->
  List.NoDup (map tr_user l) -> List.NoDup (map tr_pair l) ->
  ((exists w', executed C w l w') <-> Forall (executable C w) l) /\
  forall w', executed C w l w' -> settled w w' (flat_map (exchange w) l).
Proof. intros OK Hr Hm Nu Np. exact (block_iff C OK l w Hr Hm Nu Np). Qed.
Print Assumptions C83_independent.

(** So whoever orders the trades in a block has no influence: every other order
    is executed as well and leaves everybody with the same. *)
Theorem C83_order C w l l' w' : chain_ok C -> reachable C w -> Forall (on_market C w) l ->
  List.NoDup (map tr_user l) -> List.NoDup (map tr_pair l) -> Permutation l l' -> executed C w l w' ->
  (exists w'', executed C w l' w'') /\
  forall w'', executed C w l' w'' -> forall a i, holds w'' a i = holds w' a i.
Proof.
  intros OK Hr Hm Nu Np P E.
  assert (Hm' : Forall (on_market C w) l') by (rewrite List.Forall_forall in *; intros U I; apply Hm; exact (Permutation_in _ (Permutation_sym P) I)).
  assert (Nu' : List.NoDup (map tr_user l')) by exact (Permutation_NoDup (Permutation_map _ P) Nu).
  assert (Np' : List.NoDup (map tr_pair l')) by exact (Permutation_NoDup (Permutation_map _ P) Np).
  destruct (block_iff C OK l w Hr Hm Nu Np) as [I S]. destruct (block_iff C OK l' w Hr Hm' Nu' Np') as [I' S'].
  assert (F : Forall (executable C w) l) by (apply I; eauto). split.
  - apply I'. rewrite List.Forall_forall in *. intros U J. apply F. exact (Permutation_in _ (Permutation_sym P) J).
  - intros w'' E'' a i. pose proof (S w' E a i) as X. pose proof (S' w'' E'' a i) as Y.
    rewrite <- (left_perm a i _ _ (Permutation_flat_map (exchange w) P)) in Y.
    rewrite <- (arrived_perm a i _ _ (Permutation_flat_map (exchange w) P)) in Y. lia.
Qed.
Print Assumptions C83_order.

(** Alice sells on pair #6 what bob sells on pair #4.  On the same pair the order
    matters: who comes first gets more. *)
Definition ex_trades : list trade :=
  [Trade "alice" "#6" "#1" (Token "#2") 20000 None None; Trade "bob" "#4" "#1" (Native "uaura") 10000 None None].
Example C83_case :
  let w := ex_world in let a := (true, order_of (Trade "alice" "#6" "#1" (Token "#2") 20000 None None)) in
  let b := (false, order_of (Trade "bob" "#4" "#1" (Native "uaura") 10000 None None)) in
  let a' := (true, order_of (Trade "alice" "#4" "#1" (Native "uaura") 500000 None None)) in
  Forall (on_market ex_chain w) ex_trades /\ List.NoDup (map tr_user ex_trades) /\ List.NoDup (map tr_pair ex_trades) /\
  is_ok (script w [a; b]) = true /\ is_ok (script w [b; a]) = true /\
  holds (after w [a; b]) "alice" (Token "#2") = holds w "alice" (Token "#2") + 59701 /\
  holds (after w [b; a]) "alice" (Token "#2") = holds w "alice" (Token "#2") + 59701 /\
  holds (after w [a; b]) "bob" (Native "uaura") = holds w "bob" (Native "uaura") + 19921 /\
  holds (after w [b; a]) "bob" (Native "uaura") = holds w "bob" (Native "uaura") + 19921 /\
  holds (after w [b; a']) "bob" (Native "uaura") = holds w "bob" (Native "uaura") + 19921 /\
  holds (after w [a'; b]) "bob" (Native "uaura") = holds w "bob" (Native "uaura") + 18072.
Proof.
  intros w a b a'. split.
  { constructor; [|constructor; [|constructor]].
    - split; [split; [reflexivity|intros n X; exact (proj2 (who_ordinary true) n X)]|]. cbn [tr_user tr_pair tr_token tr_ask].
      split; [exists (tok_of w "#1"); apply tok_of_at; vm_compute; reflexivity|]. split; [exists (tok_of w "#2"); apply tok_of_at; vm_compute; reflexivity|].
      split; [discriminate|]. exists ex_pair6, 6, 6. split; [unfold pair_at; vm_compute; reflexivity|left; vm_compute; auto].
    - split; [split; [reflexivity|intros n X; exact (proj2 (who_ordinary false) n X)]|]. cbn [tr_user tr_pair tr_token tr_ask].
      split; [exists (tok_of w "#1"); apply tok_of_at; vm_compute; reflexivity|]. split; [exact I|]. split; [discriminate|].
      exists ex_pair4, 6, 6. split; [exact ex_pair4_at|left; vm_compute; auto]. }
  split; [apply NoDup_ListNoDup; vm_compute; repeat constructor; set_solver|]. split; [apply NoDup_ListNoDup; vm_compute; repeat constructor; set_solver|].
  repeat (split; [vm_compute; reflexivity|]). vm_compute; reflexivity.
Qed.
