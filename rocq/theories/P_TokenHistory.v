(** What the log of a history says about a token: balances and supply (C49),
    allowances (C50), metadata and the minter role (C51). *)
From Verif Require Import Base BigNumber CwStd BigNumberFacts Asset Messages PairMath Pair PairFacts Token Factory Router
  FactoryFacts TokenFacts World WorldInd WorldFacts WorldInv WorldInd2 Examples WorldExamples P_Ledger Replay.
From Coq Require Import ZifyN.
Local Open Scope N_scope.
Ltac Zify.zify_post_hook ::= idtac.

(** ** Reading a log *)

Definition if_eq (x y : string) (n : N) : N := if decide (x = y) then n else 0.
(** What a call [m] sent by [s] takes from account [x], pays to account [x],
    creates and destroys. *)
Definition debit_of (s : string) (m : jmsg) (x : string) : N :=
  match m with
  | JTransfer _ n | JSend _ n _ | JBurn n => if_eq x s n
  | JTransferFrom o _ n | JSendFrom o _ n _ | JBurnFrom o n => if_eq x o n
  | _ => 0
  end.
Definition credit_of (m : jmsg) (x : string) : N :=
  match m with
  | JTransfer r n | JSend r n _ | JTransferFrom _ r n | JSendFrom _ r n _ | JMint r n => if_eq x r n
  | _ => 0
  end.
Definition minted_of (m : jmsg) : N := match m with JMint _ n => n | _ => 0 end.
Definition burned_of (m : jmsg) : N := match m with JBurn n | JBurnFrom _ n => n | _ => 0 end.
(** What [m] sent by [s] spends of [o]'s allowance for [x], and adds to it. *)
Definition spent_of (s : string) (m : jmsg) (o x : string) : N :=
  match m with
  | JTransferFrom o' _ n | JSendFrom o' _ n _ | JBurnFrom o' n => if_eq o o' (if_eq x s n)
  | _ => 0
  end.
Definition granted_of (s : string) (m : jmsg) (o x : string) : N :=
  match m with JIncreaseAllowance x' n _ => if_eq o s (if_eq x x' n) | _ => 0 end.

(** The sum over the logged calls of contract [t]. *)
Fixpoint tally (t : string) (f : string -> jmsg -> N) (lg : list event) : N :=
  match lg with
  | [] => 0
  | e :: r => (if decide (ev_contract e = t) then f (ev_sender e) (ev_msg e) else 0) + tally t f r
  end.
(** The state a token starts from: its state at the start of the history or, if
    it was created later, the state its instantiation leaves. *)
Definition started (C : chain) (w : world) (t : string) (ts : token_state) : Prop :=
  tok_at w t ts \/ (state_at w t = None /\ exists m rsp, token_instantiate (ch_api C) m = Ok (ts, rsp)).

Lemma history_replay C w lg w' t ts' : chain_ok C -> reachable C w -> history C w lg w' -> tok_at w' t ts' ->
  exists ts0, started C w t ts0 /\ tok_replay (ch_api C) t ts0 lg ts'.
Proof.
  intros OK Hr Hh Ht'. pose proof (reachable_main C OK w Hr) as M.
  destruct (tok_replay_history C OK t _ _ _ M Hh) as (A1 & _ & A3). unfold started.
  destruct (state_at w t) as [st|] eqn:E.
  - destruct (history_main C OK _ _ _ M Hh) as [_ R].
    destruct (grows_tok t _ _ _ _ (rl_grows _ _ _ R) E Ht') as (ts & Ht).
    destruct (A1 _ Ht) as (ts1 & Ht1 & P). assert (ts1 = ts') as -> by (unfold tok_at in *; congruence). eauto.
  - destruct (A3 eq_refl _ Ht') as (m & ts0 & rsp & Hi & P). exists ts0. split; [right; split; [reflexivity|eauto]|exact P].
Qed.
Lemma tok_replay_event A t ts lg ts' e : tok_replay A t ts lg ts' -> In e lg -> ev_contract e = t ->
  exists te te' rsp, tok_at (ev_world e) t te /\
    token_execute A (w_block (ev_world e)) te (ev_sender e) (ev_msg e) = Ok (te', rsp).
Proof.
  induction 1 as [|ts e0 lg ts' Hn H IH|ts e0 rsp ts1 lg ts' He Ht Hx H IH]; intros Hin Hc.
  - destruct Hin.
  - destruct Hin as [->|Hin]; [contradiction|auto].
  - destruct Hin as [->|Hin]; [eauto|auto].
Qed.

(** ** C49 *)
Lemma exec_balances A b t s m t' rsp x : token_execute A b t s m = Ok (t', rsp) ->
  balance_of t' x + debit_of s m x = balance_of t x + credit_of m x /\
  tk_supply t' + burned_of m = tk_supply t + minted_of m.
Proof.
  intros H. apply token_execute_inv in H.
  assert (Mv : forall t0 from to n, (forall y, balance_of t0 y = balance_of t y) -> tk_supply t0 = tk_supply t ->
    moved t0 t' from to n ->
    balance_of t' x + if_eq x from n = balance_of t x + if_eq x to n /\ tk_supply t' + 0 = tk_supply t + 0).
  { intros t0 from to n E1 E2 [(_ & _ & _ & A4 & _) _ Hb _]. specialize (Hb x). rewrite E1 in Hb. unfold if_eq.
    split; [exact Hb|congruence]. }
  assert (Da : forall t0 o n, deduct_allowance t o s b n = Ok t0 -> (forall y, balance_of t0 y = balance_of t y) /\ tk_supply t0 = tk_supply t).
  { intros t0 o n D. apply deduct_ok in D as (v & e & _ & _ & _ & ->). split; reflexivity. }
  destruct H; cbn [debit_of credit_of burned_of minted_of].
  - apply (Mv t); auto.
  - apply (Mv t); auto.
  - apply debit_ok in H1 as [L ->]. subst t'.
    change (balance_of (set_supply (set_bal t (<[s:=balance_of t s - n]> (tk_bal t))) (tk_supply t - n)) x)
      with (balance_of (set_bal t (<[s:=balance_of t s - n]> (tk_bal t))) x).
    rewrite balance_set. cbn [set_supply tk_supply]. unfold if_eq. case_decide; subst; lia.
  - apply credit_ok in H5 as [L ->]. rewrite balance_set. cbn [set_bal set_supply tk_supply].
    change (balance_of (set_supply t (tk_supply t + n))) with (balance_of t). unfold if_eq. case_decide; subst; lia.
  - split; reflexivity.
  - split; reflexivity.
  - split; reflexivity.
  - destruct (Da _ _ _ H2) as [D1 D2]. exact (Mv _ _ _ _ D1 D2 H3).
  - destruct (Da _ _ _ H2) as [D1 D2]. exact (Mv _ _ _ _ D1 D2 H3).
  - destruct (Da _ _ _ H1) as [D1 D2]. apply debit_ok in H2 as [L ->]. subst t'.
    change (balance_of (set_supply (set_bal t1 (<[o:=balance_of t1 o - n]> (tk_bal t1))) (tk_supply t - n)) x)
      with (balance_of (set_bal t1 (<[o:=balance_of t1 o - n]> (tk_bal t1))) x).
    rewrite balance_set. cbn [set_supply tk_supply]. rewrite !D1 in *. unfold if_eq. case_decide; subst; lia.
  - split; reflexivity.
Qed.

(** C49: over any history and for every account, the balance at the end plus all
    amounts the logged calls take from it equals the balance at the start plus
    all amounts they pay to it; likewise the supply, minting and burning. *)
Theorem C49_ledger C w lg w' t ts' : chain_ok C -> reachable C w -> history C w lg w' -> tok_at w' t ts' ->
  exists ts0, started C w t ts0 /\
    (forall x, balance_of ts' x + tally t (fun s m => debit_of s m x) lg =
               balance_of ts0 x + tally t (fun _ m => credit_of m x) lg) /\
    tk_supply ts' + tally t (fun _ m => burned_of m) lg = tk_supply ts0 + tally t (fun _ m => minted_of m) lg.
Proof.
  intros OK Hr Hh Ht'. destruct (history_replay C w lg w' t ts' OK Hr Hh Ht') as (ts0 & Hs & P). exists ts0. split; [exact Hs|].
  clear Hs Ht' Hh Hr w. induction P as [ts|ts e lg ts' Hn P IH|ts e rsp ts1 lg ts' He Ht Hx P IH].
  - split; reflexivity.
  - destruct IH as [I1 I2]. split; [intros x; specialize (I1 x)|]; cbn [tally]; rewrite !decide_False by exact Hn; lia.
  - destruct IH as [I1 I2]. split; [intros x; specialize (I1 x); pose proof (proj1 (exec_balances _ _ _ _ _ _ _ x Hx)) as X|
      pose proof (proj2 (exec_balances _ _ _ _ _ _ _ ""%string Hx)) as X]; cbn [tally]; rewrite !decide_True by exact He; lia.
Qed.
(** alice deposits into #4 and bob swaps: the pair receives 2000000 of #1 in two
    calls and pays nothing of it. *)
Example C49_case :
  let l := [ex_provide; ex_swap; ex_mint] in
  let lg := log_of ex_world l in let w' := after ex_world l in
  history ex_chain ex_world lg w' /\ tok_at ex_world "#1" (tok_of ex_world "#1") /\ tok_at w' "#1" (tok_of w' "#1") /\
  tally "#1" (fun s m => credit_of m "#4") lg = 2000000 /\ tally "#1" (fun s m => debit_of s m "#4") lg = 0 /\
  tally "#1" (fun s m => debit_of s m "alice") lg = 1000000 /\
  tally "#1" (fun _ m => minted_of m) lg = 900000000000 /\
  balance_of (tok_of ex_world "#1") "#4" = 10000000 /\ balance_of (tok_of w' "#1") "#4" = 12000000.
Proof.
  split; [apply after_history|]. split; [apply tok_of_at; vm_compute; reflexivity|].
  split; [apply tok_of_at; vm_compute; reflexivity|]. vm_compute. auto 12.
Qed.

(** ** C50 *)
Definition allowance (ts : token_state) (o x : string) : N :=
  match tk_allow ts !! (o, x) with Some (v, _) => v | None => 0 end.
Definition allowance_at (w : world) (t o x : string) : N :=
  match state_at w t with Some (SToken ts) => allowance ts o x | _ => 0 end.

Lemma allowance_set ts o x v e o' x' :
  allowance (set_allow ts (<[(o, x) := (v, e)]> (tk_allow ts))) o' x' =
  if decide (o' = o /\ x' = x) then v else allowance ts o' x'.
Proof.
  unfold allowance. cbn [set_allow tk_allow]. case_decide as D.
  - destruct D as [-> ->]. rewrite lookup_insert. reflexivity.
  - rewrite lookup_insert_ne; [reflexivity|]. intros E. injection E as -> ->. auto.
Qed.
Lemma allowance_del ts o x o' x' :
  allowance (set_allow ts (delete (o, x) (tk_allow ts))) o' x' =
  if decide (o' = o /\ x' = x) then 0 else allowance ts o' x'.
Proof.
  unfold allowance. cbn [set_allow tk_allow]. case_decide as D.
  - destruct D as [-> ->]. rewrite lookup_delete. reflexivity.
  - rewrite lookup_delete_ne; [reflexivity|]. intros E. injection E as -> ->. auto.
Qed.
Lemma deduct_allowance_of t o s b n t' o' x' : deduct_allowance t o s b n = Ok t' ->
  allowance t' o' x' + if_eq o' o (if_eq x' s n) = allowance t o' x'.
Proof.
  intros D. apply deduct_ok in D as (v & e & E & _ & L & ->). rewrite allowance_set. unfold if_eq.
  destruct (decide (o' = o)) as [->|Ho], (decide (x' = s)) as [->|Hx]; try (rewrite decide_False by intuition); try lia.
  rewrite decide_True by auto. unfold allowance. rewrite E. lia.
Qed.
(** One call. *)
Lemma exec_allowance A b t s m t' rsp o x : token_execute A b t s m = Ok (t', rsp) ->
  match m with
  | JDecreaseAllowance x' n _ => allowance t' o x = allowance t o x - if_eq o s (if_eq x x' n)
  | _ => allowance t' o x + spent_of s m o x = allowance t o x + granted_of s m o x
  end.
Proof.
  intros H. pose proof H as HX. apply token_execute_inv in H.
  assert (Sm : forall t0, tk_allow t' = tk_allow t0 -> allowance t' o x = allowance t0 o x).
  { intros t0 E. unfold allowance. rewrite E. reflexivity. }
  assert (Mv : forall t0 from to n, moved t0 t' from to n -> allowance t' o x = allowance t0 o x).
  { intros t0 from to n [(_ & _ & _ & _ & _ & E) _ _ _]. auto. }
  destruct H; cbn [spent_of granted_of].
  - rewrite (Mv _ _ _ _ H2). lia.
  - rewrite (Mv _ _ _ _ H2). lia.
  - apply debit_ok in H1 as [_ ->]. subst t'. rewrite (Sm t) by reflexivity. lia.
  - apply credit_ok in H5 as [_ ->]. rewrite (Sm t) by reflexivity. lia.
  - clear Sm Mv. unfold token_execute in HX. destruct (jmsg_ranges _); [|discriminate]. cbn [negb] in HX.
    unfold token_increase in HX. apply rbind_ok in HX as (sp' & Ev & HX). apply addr_validate_ok in Ev as [-> _].
    apply rbind_ok in HX as ([] & _ & HX).
    destruct (default (0, ENever) (tk_allow t !! (s, sp))) as [v0 old] eqn:Ed.
    apply rbind_ok in HX as (ex & _ & HX). apply rbind_ok in HX as (v1 & Ev & HX). apply u128_add_ok in Ev as [-> _].
    assert (Ea : allowance t s sp = v0).
    { unfold allowance. destruct (tk_allow t !! (s, sp)) as [[v1 e1]|]; cbn in Ed; congruence. }
    injection HX as HX _. pose proof (f_equal (fun y => y !! (s, sp)) HX) as L.
    rewrite !lookup_insert in L. injection L as <- <-.
    rewrite allowance_set. unfold if_eq.
    destruct (decide (o = s)) as [->|Ho], (decide (x = sp)) as [->|Hx]; try (rewrite decide_False by intuition); try lia.
    rewrite decide_True by auto. lia.
  - rewrite allowance_set. unfold if_eq.
    destruct (decide (o = s)) as [->|Ho], (decide (x = sp)) as [->|Hx]; try (rewrite decide_False by intuition); try lia.
    rewrite decide_True by auto. unfold allowance. rewrite H1. reflexivity.
  - rewrite allowance_del. unfold if_eq.
    destruct (decide (o = s)) as [->|Ho], (decide (x = sp)) as [->|Hx]; try (rewrite decide_False by intuition); try lia.
    rewrite decide_True by auto. unfold allowance. rewrite H1. lia.
  - rewrite (Mv _ _ _ _ H3), (deduct_allowance_of _ _ _ _ _ _ _ _ H2). lia.
  - rewrite (Mv _ _ _ _ H3), (deduct_allowance_of _ _ _ _ _ _ _ _ H2). lia.
  - rewrite (Sm t1) by (apply debit_ok in H2 as [_ ->]; subst t'; reflexivity).
    rewrite (deduct_allowance_of _ _ _ _ _ _ _ _ H1). lia.
  - rewrite (Sm t) by reflexivity. lia.
Qed.

(** C50: over any history, what is left of [o]'s allowance for [x] plus all that
    [x] spent of it never exceeds the allowance at the start plus all that [o]
    granted [x] meanwhile ... *)
Theorem C50_allowances C w lg w' t ts' o x : chain_ok C -> reachable C w -> history C w lg w' -> tok_at w' t ts' ->
  allowance ts' o x + tally t (fun s m => spent_of s m o x) lg <=
  allowance_at w t o x + tally t (fun s m => granted_of s m o x) lg.
Proof.
  intros OK Hr Hh Ht'. destruct (history_replay C w lg w' t ts' OK Hr Hh Ht') as (ts0 & Hs & P).
  assert (allowance_at w t o x = allowance ts0 o x) as ->.
  { unfold allowance_at. destruct Hs as [Hs|(Hn & m & rsp & Hi)].
    - unfold tok_at in Hs. rewrite Hs. reflexivity.
    - rewrite Hn. unfold token_instantiate in Hi. destruct (negb _); [discriminate|].
      apply rbind_ok in Hi as ([] & _ & Hi). apply rbind_ok in Hi as ([bl tot] & _ & Hi).
      apply rbind_ok in Hi as ([] & _ & Hi). apply rbind_ok in Hi as (mn & _ & Hi). injection Hi as <- _.
      unfold allowance. cbn [tk_allow]. rewrite lookup_empty. reflexivity. }
  clear Hs Ht' Hh Hr w. induction P as [ts|ts e lg ts' Hn P IH|ts e rsp ts1 lg ts' He Ht Hx P IH].
  - cbn [tally]. lia.
  - cbn [tally]. rewrite !decide_False by exact Hn. lia.
  - cbn [tally]. rewrite !decide_True by exact He. pose proof (exec_allowance _ _ _ _ _ _ _ o x Hx) as X.
    destruct (ev_msg e); cbn [spent_of granted_of] in X |- *; lia.
Qed.
(** ... and each call that spends of it found, at that moment, an allowance that
    had not expired and that covered the amount. *)
Theorem C50_spending_allowed C w lg w' t ts' e o : chain_ok C -> reachable C w -> history C w lg w' -> tok_at w' t ts' ->
  In e lg -> ev_contract e = t -> from_msg o (ev_msg e) ->
  exists te v ex, tok_at (ev_world e) t te /\ tk_allow te !! (o, ev_sender e) = Some (v, ex) /\
    pending (w_block (ev_world e)) ex /\
    spent_of (ev_sender e) (ev_msg e) o (ev_sender e) <= v /\
    spent_of (ev_sender e) (ev_msg e) o (ev_sender e) <= balance_of te o.
Proof.
  intros OK Hr Hh Ht' Hin Hc Hf. destruct (history_replay C w lg w' t ts' OK Hr Hh Ht') as (ts0 & Hs & P).
  destruct (tok_replay_event _ _ _ _ _ _ P Hin Hc) as (te & te' & rsp & Hte & Hx). apply token_execute_inv in Hx.
  assert (Sp : forall n, if_eq o o (if_eq (ev_sender e) (ev_sender e) n) = n) by (intros n; unfold if_eq; rewrite !decide_True by reflexivity; reflexivity).
  destruct Hx; cbn [from_msg] in Hf; try contradiction; subst; cbn [spent_of]; rewrite Sp.
  - apply deduct_ok in H2 as (v & ex & E & Ex & L & ->). apply pending_spec in Ex. exists te, v, ex. repeat split; auto. exact (mv_have _ _ _ _ _ H3).
  - apply deduct_ok in H2 as (v & ex & E & Ex & L & ->). apply pending_spec in Ex. exists te, v, ex. repeat split; auto. exact (mv_have _ _ _ _ _ H3).
  - apply deduct_ok in H1 as (v & ex & E & Ex & L & ->). apply pending_spec in Ex. exists te, v, ex. repeat split; auto. apply debit_ok in H2 as [L2 _]. exact L2.
Qed.
(** alice allows bob 500 until height 200, raises it by 70, bob spends 300 and
    then 200; spending 71 more fails. *)
Definition ex_allow : list (bool * cmsg) :=
  [(true, x_call "#1" (JIncreaseAllowance "bob" 500 (Some (EAtHeight 200))));
   (false, x_call "#1" (JTransferFrom "alice" "#4" 300));
   (true, x_call "#1" (JIncreaseAllowance "bob" 70 None));
   (false, x_call "#1" (JBurnFrom "alice" 200))]%string.
Example C50_case :
  let lg := log_of ex_world ex_allow in let w' := after ex_world ex_allow in
  history ex_chain ex_world lg w' /\ tok_at w' "#1" (tok_of w' "#1") /\
  allowance_at ex_world "#1" "alice" "bob" = 0 /\ allowance (tok_of w' "#1") "alice" "bob" = 70 /\
  tally "#1" (fun s m => spent_of s m "alice" "bob") lg = 500 /\
  tally "#1" (fun s m => granted_of s m "alice" "bob") lg = 570 /\
  is_ok (script w' [(false, x_call "#1" (JTransferFrom "alice" "bob" 70))]) = true /\
  is_ok (script w' [(false, x_call "#1" (JTransferFrom "alice" "bob" 71))]) = false.
Proof.
  split; [apply after_history|]. split; [apply tok_of_at; vm_compute; reflexivity|]. vm_compute. auto 12.
Qed.

(** ** C51 *)
(** C51: over any history a token keeps its name, symbol and decimals; every
    successful Mint or UpdateMinter call was sent by the account that was minter
    at that moment; the minter role changes only in an UpdateMinter call, keeps
    its cap, and once given up never comes back. *)
Theorem C51_minter C w lg w' t ts : chain_ok C -> reachable C w -> history C w lg w' -> tok_at w t ts ->
  exists ts', tok_at w' t ts' /\
    tk_name ts' = tk_name ts /\ tk_symbol ts' = tk_symbol ts /\ tk_decimals ts' = tk_decimals ts /\
    (forall e, In e lg -> ev_contract e = t -> (exists r n, ev_msg e = JMint r n) \/ (exists n, ev_msg e = JUpdateMinter n) ->
       exists te cap, tok_at (ev_world e) t te /\ tk_mint te = Some (ev_sender e, cap)) /\
    (~ called t (fun m => exists n, m = JUpdateMinter n) lg -> tk_mint ts' = tk_mint ts) /\
    (tk_mint ts = None -> tk_mint ts' = None) /\
    (forall a cap, tk_mint ts = Some (a, cap) -> tk_mint ts' = None \/ exists a', tk_mint ts' = Some (a', cap)).
Proof.
  intros OK Hr Hh Ht. pose proof (reachable_main C OK w Hr) as M.
  destruct (tok_replay_history C OK t _ _ _ M Hh) as (A1 & _ & _). destruct (A1 _ Ht) as (ts' & Ht' & P).
  exists ts'. split; [exact Ht'|].
  assert (Ev : forall e, In e lg -> ev_contract e = t -> (exists r n, ev_msg e = JMint r n) \/ (exists n, ev_msg e = JUpdateMinter n) ->
       exists te cap, tok_at (ev_world e) t te /\ tk_mint te = Some (ev_sender e, cap)).
  { intros e Hin Hc Hk. destruct (tok_replay_event _ _ _ _ _ _ P Hin Hc) as (te & te' & rsp & Hte & Hx).
    apply token_execute_inv in Hx. destruct Hx; destruct Hk as [(? & ? & K)|(? & K)]; try discriminate; eauto. }
  clear Ht' A1 Ht Hh M Hr. 
  assert (St : forall b t0 s m t1 rsp, token_execute (ch_api C) b t0 s m = Ok (t1, rsp) ->
    tk_name t1 = tk_name t0 /\ tk_symbol t1 = tk_symbol t0 /\ tk_decimals t1 = tk_decimals t0 /\
    ((exists n, m = JUpdateMinter n) \/ tk_mint t1 = tk_mint t0) /\
    (tk_mint t0 = None -> tk_mint t1 = None) /\
    (forall a cap, tk_mint t0 = Some (a, cap) -> tk_mint t1 = None \/ exists a', tk_mint t1 = Some (a', cap))).
  { clear. intros b t0 s m t1 rsp H. apply token_execute_inv in H.
    assert (K : forall m0, tk_name t1 = tk_name t0 -> tk_symbol t1 = tk_symbol t0 -> tk_decimals t1 = tk_decimals t0 -> tk_mint t1 = tk_mint t0 ->
      tk_name t1 = tk_name t0 /\ tk_symbol t1 = tk_symbol t0 /\ tk_decimals t1 = tk_decimals t0 /\
      ((exists n, m0 = JUpdateMinter n) \/ tk_mint t1 = tk_mint t0) /\
      (tk_mint t0 = None -> tk_mint t1 = None) /\
      (forall a cap, tk_mint t0 = Some (a, cap) -> tk_mint t1 = None \/ exists a', tk_mint t1 = Some (a', cap))).
    { intros m0 -> -> -> ->. repeat split; eauto. }
    destruct H.
    - destruct H2 as [(? & ? & ? & ? & ? & ?) _ _ _]. auto.
    - destruct H2 as [(? & ? & ? & ? & ? & ?) _ _ _]. auto.
    - apply debit_ok in H1 as [_ ->]. subst t'. auto.
    - apply credit_ok in H5 as [_ ->]. auto.
    - auto.
    - auto.
    - auto.
    - apply deduct_ok in H2 as (? & ? & _ & _ & _ & ->). destruct H3 as [(? & ? & ? & ? & ? & ?) _ _ _]. auto.
    - apply deduct_ok in H2 as (? & ? & _ & _ & _ & ->). destruct H3 as [(? & ? & ? & ? & ? & ?) _ _ _]. auto.
    - apply deduct_ok in H1 as (? & ? & _ & _ & _ & ->). apply debit_ok in H2 as [_ ->]. subst t'. auto.
    - cbn [set_mint tk_name tk_symbol tk_decimals tk_mint]. repeat split; eauto; [congruence|].
      intros a c E. rewrite H in E. injection E as -> ->. destruct new; eauto. }
  assert (X : tk_name ts' = tk_name ts /\ tk_symbol ts' = tk_symbol ts /\ tk_decimals ts' = tk_decimals ts /\
    (~ called t (fun m => exists n, m = JUpdateMinter n) lg -> tk_mint ts' = tk_mint ts) /\
    (tk_mint ts = None -> tk_mint ts' = None) /\
    (forall a cap, tk_mint ts = Some (a, cap) -> tk_mint ts' = None \/ exists a', tk_mint ts' = Some (a', cap))).
  { clear Ev. induction P as [ts|ts e lg ts' Hn P IH|ts e rsp ts1 lg ts' He Ht Hx P IH].
    - repeat split; eauto.
    - destruct IH as (I1 & I2 & I3 & I4 & I5 & I6). split; [exact I1|]. split; [exact I2|]. split; [exact I3|].
      split; [|split; [exact I5|exact I6]]. intros Hc. apply I4. intros K. apply Hc. apply called_cons. right. exact K.
    - destruct IH as (I1 & I2 & I3 & I4 & I5 & I6). destruct (St _ _ _ _ _ _ Hx) as (S1 & S2 & S3 & S4 & S5 & S6).
      split; [congruence|]. split; [congruence|]. split; [congruence|]. split; [|split].
      + intros Hc. destruct S4 as [K|S4].
        * destruct Hc. apply called_cons. left. split; [exact He|exact K].
        * rewrite I4, S4; [reflexivity|]. intros K. apply Hc. apply called_cons. right. exact K.
      + auto.
      + intros a cap E. destruct (S6 _ _ E) as [S|(a' & S)]; [left; auto|eapply I6; eauto]. }
  destruct X as (X1 & X2 & X3 & X4 & X5 & X6). auto 12.
Qed.
(** alice mints, hands the role to bob, bob gives it up; after that nobody mints. *)
Definition ex_roles : list (bool * cmsg) :=
  [ex_mint; ex_minter; (false, x_call "#1" (JMint "bob" 5)); (false, x_call "#1" (JUpdateMinter None))].
Example C51_case :
  let lg := log_of ex_world ex_roles in let w' := after ex_world ex_roles in
  history ex_chain ex_world lg w' /\ tok_at ex_world "#1" (tok_of ex_world "#1") /\
  tk_mint (tok_of ex_world "#1") = Some ("alice"%string, Some 2000000000000) /\
  Datatypes.length lg = 4%nat /\ tk_mint (tok_of w' "#1") = None /\
  is_ok (script (after ex_world [ex_mint; ex_minter]) [(true, x_call "#1" (JMint "alice" 5))]) = false /\
  is_ok (script w' [(true, x_call "#1" (JUpdateMinter (Some "alice"%string)))]) = false.
Proof.
  split; [apply after_history|]. split; [apply tok_of_at; vm_compute; reflexivity|]. vm_compute. auto 12.
Qed.
