(** Calls of tokens: exactly when they are executed and exactly what they do
    (C63). *)
From Verif Require Import Base BigNumber CwStd BigNumberFacts Asset Messages PairMath Pair PairFacts Token Factory Router
  SwapFacts SwapFacts2 P_Swap P_Pair FactoryFacts P_Factory P_Router TokenFacts World WorldInd WorldFacts WorldInv WorldInd2
  Examples WorldExamples P_Ledger P_Registry ExecFacts P_Exec P_TokenHistory.
From Coq Require Import ZifyN.
Local Open Scope N_scope.
Ltac Zify.zify_post_hook ::= idtac.

(** ** Specification *)

(** The calls that concern only the token (Send and SendFrom also call another
    contract). *)
Definition simple_call (m : jmsg) : Prop :=
  match m with
  | JTransfer _ _ | JBurn _ | JMint _ _ | JIncreaseAllowance _ _ _ | JDecreaseAllowance _ _ _
  | JTransferFrom _ _ _ | JBurnFrom _ _ | JUpdateMinter _ => True
  | _ => False
  end.
(** A height or time that fits into 64 bits: no other can be written in a call. *)
Definition spellable (e : expiration) : Prop :=
  match e with EAtHeight h => h < 2 ^ 64 | EAtTime t => t < 2 ^ 64 | ENever => True end.
(** [x] may spend [n] of [o]'s tokens. *)
Definition may_spend (b : blockinfo) (ts : token_state) (o x : string) (n : N) : Prop :=
  exists v e, tk_allow ts !! (o, x) = Some (v, e) /\ pending b e /\ n <= v.
(** When a call by [s] is accepted. *)
Definition accepted (A : api) (b : blockinfo) (ts : token_state) (s : string) (m : jmsg) : Prop :=
  match m with
  | JTransfer r n => 0 < n /\ n <= balance_of ts s /\ norm A r = Some r
  | JBurn n => 0 < n /\ n <= balance_of ts s
  | JMint r n => 0 < n /\ norm A r = Some r /\ tk_supply ts + n < 2 ^ 128 /\
      exists cap, tk_mint ts = Some (s, cap) /\ forall c, cap = Some c -> tk_supply ts + n <= c
  | JIncreaseAllowance x n e => n < 2 ^ 128 /\ (forall y, e = Some y -> spellable y) /\ norm A x = Some x /\ x <> s /\ allowance ts s x + n < 2 ^ 128 /\
      forall y, e = Some y -> pending b y
  | JDecreaseAllowance x n e => n < 2 ^ 128 /\ (forall y, e = Some y -> spellable y) /\ norm A x = Some x /\ x <> s /\
      exists v old, tk_allow ts !! (s, x) = Some (v, old) /\ (n < v -> forall y, e = Some y -> pending b y)
  | JTransferFrom o r n => n < 2 ^ 128 /\ norm A o = Some o /\ norm A r = Some r /\ may_spend b ts o s n /\ n <= balance_of ts o
  | JBurnFrom o n => n < 2 ^ 128 /\ norm A o = Some o /\ may_spend b ts o s n /\ n <= balance_of ts o
  | JUpdateMinter new => (exists cap, tk_mint ts = Some (s, cap)) /\ forall a, new = Some a -> norm A a = Some a
  | _ => False
  end.
(** The allowance of [x] for [o]'s tokens, and the minter, after a call by [s]. *)
Definition allowance_after (ts : token_state) (s : string) (m : jmsg) (o x : string) : option (N * expiration) :=
  let old := tk_allow ts !! (o, x) in
  match m with
  | JIncreaseAllowance y n e =>
      if decide (o = s /\ x = y) then
        let '(v, exp) := default (0, ENever) old in Some (v + n, default exp e)
      else old
  | JDecreaseAllowance y n e =>
      if decide (o = s /\ x = y) then
        match old with Some (v, exp) => if decide (n < v) then Some (v - n, default exp e) else None | None => None end
      else old
  | JTransferFrom p _ n | JBurnFrom p n =>
      if decide (o = p /\ x = s) then
        match old with Some (v, exp) => Some (v - n, exp) | None => None end
      else old
  | _ => old
  end.
Definition minter_after (ts : token_state) (m : jmsg) : option (string * option N) :=
  match m with
  | JUpdateMinter new =>
      match new, tk_mint ts with Some a, Some (_, cap) => Some (a, cap) | _, _ => None end
  | _ => tk_mint ts
  end.

(** ** Token level *)
Lemma oexp_spec e : oexp_ok e = true <-> forall y, e = Some y -> spellable y.
Proof.
  destruct e as [[|h|h]|]; cbn [oexp_ok exp_ok spellable]; unfold u64_ok; split; try discriminate.
  - intros _ y E. injection E as <-. exact I.
  - reflexivity.
  - intros H y E. injection E as <-. apply N.ltb_lt, H.
  - intros H. apply N.ltb_lt, (H _ eq_refl).
  - intros H y E. injection E as <-. apply N.ltb_lt, H.
  - intros H. apply N.ltb_lt, (H _ eq_refl).
  - reflexivity.
Qed.
Lemma B128_eq : B128 = 2 ^ 128.
Proof. reflexivity. Qed.
Lemma deduct_iff t o s b n t' : deduct_allowance t o s b n = Ok t' <->
  exists v e, tk_allow t !! (o, s) = Some (v, e) /\ pending b e /\ n <= v /\ t' = set_allow t (<[(o, s) := (v - n, e)]> (tk_allow t)).
Proof.
  split.
  - intros H. apply deduct_ok in H as (v & e & H1 & H2 & H3 & ->). apply pending_spec in H2. eauto 8.
  - intros (v & e & H1 & H2 & H3 & ->). unfold deduct_allowance. change uint128 with N in *. rewrite H1. apply pending_spec in H2. rewrite H2.
    rewrite (proj2 (u128_checked_sub_ok v n (v - n)) (conj eq_refl H3)). reflexivity.
Qed.
Lemma expiry_iff b e old (r : expiration) : (match e with Some x => if is_expired x b then Err (ECw20 "Invalid expiration") else Ok x | None => Ok old end) = Ok r <->
  r = default old e /\ forall y, e = Some y -> pending b y.
Proof.
  destruct e as [x|]; cbn [default].
  - destruct (is_expired x b) eqn:E.
    + split; [discriminate|]. intros [_ H]. specialize (H x eq_refl). apply pending_spec in H. congruence.
    + apply pending_spec in E. split; [intros H; injection H as <-; split; [reflexivity|]; intros y H; injection H as <-; exact E|intros [-> _]; reflexivity].
  - split; [intros H; injection H as <-; split; [reflexivity|discriminate]|intros [-> _]; reflexivity].
Qed.

Lemma tok_call_iff A b t s m : token_ok t -> simple_call m ->
  (exists t' rsp, token_execute A b t s m = Ok (t', rsp)) <-> accepted A b t s m.
Proof.
  intros TO Hm. destruct TO as [T1 T2 _].
  assert (Bl : forall x, balance_of t x < B128) by (intros x; pose proof (balance_le_sum t x); lia).
  unfold token_execute. destruct m; try contradiction; cbn [jmsg_ranges accepted]; unfold u128_ok.
  - (* transfer *) destruct (N.ltb_spec amount B128) as [R|R]; cbn [negb].
    + split.
      * intros (t' & rsp & H). unfold token_transfer in H. apply rbind_ok in H as ([] & Ez & H). apply nonzero_ok in Ez.
        apply rbind_ok in H as (r & Ev & H). apply addr_validate_ok in Ev as [-> Hv].
        apply rbind_ok in H as (t1 & E1 & H). apply debit_ok in E1 as [E1 _]. auto.
      * intros (Hn & Hb & Hv). destruct (move_total t s recipient amount) as (t1 & t2 & D1 & D2); [exact Hb|lia|].
        exists t2. eexists. unfold token_transfer. rewrite (proj2 (nonzero_ok _) Hn). cbn [rbind].
        rewrite (proj2 (addr_validate_ok A recipient recipient) (conj eq_refl Hv)). cbn [rbind]. rewrite D1. cbn [rbind]. rewrite D2. reflexivity.
    + split; [intros (? & ? & H); discriminate|]. intros (_ & H & _). specialize (Bl s). lia.
  - (* burn *) destruct (N.ltb_spec amount B128) as [R|R]; cbn [negb].
    + split.
      * intros (t' & rsp & H). unfold token_burn in H. apply rbind_ok in H as ([] & Ez & H). apply nonzero_ok in Ez.
        apply rbind_ok in H as (t1 & E1 & H). apply debit_ok in E1 as [E1 _]. auto.
      * intros (Hn & Hb). do 2 eexists. unfold token_burn. rewrite (proj2 (nonzero_ok _) Hn). cbn [rbind].
        rewrite (proj2 (debit_ok t s amount _) (conj Hb eq_refl)). cbn [rbind set_bal tk_supply].
        pose proof (balance_le_sum t s). rewrite (proj2 (u128_checked_sub_ok (tk_supply t) amount (tk_supply t - amount))) by (split; [reflexivity|lia]).
        reflexivity.
    + split; [intros (? & ? & H); discriminate|]. intros (_ & H). specialize (Bl s). lia.
  - (* increase *) rewrite <- B128_eq. destruct (N.ltb_spec amount B128) as [R|R]; cbn [negb andb]; [|split; [intros (? & ? & H); discriminate|intros (H & _); lia]].
    destruct (oexp_ok expires) eqn:Oe; cbn [negb]; [|split; [intros (? & ? & H); discriminate|intros (_ & H & _); apply oexp_spec in H; congruence]]. pose proof (proj1 (oexp_spec _) Oe) as Os.
    unfold token_increase, allowance. split.
    + intros (t' & rsp & H). apply rbind_ok in H as (sp & Ev & H). apply addr_validate_ok in Ev as [-> Hv].
      apply rbind_ok in H as ([] & En & H). apply require_ok in En. bools.
      destruct (tk_allow t !! (s, spender)) as [[v old]|]; cbn [default] in H; apply rbind_ok in H as (ex & Ex & H); apply expiry_iff in Ex as [_ Ex];
        apply rbind_ok in H as (v' & Hv' & H); apply u128_add_ok in Hv' as [_ Hv']; auto 7.
    + intros (_ & _ & Hv & Hne & Ha & He). rewrite (proj2 (addr_validate_ok A spender spender) (conj eq_refl Hv)). cbn [rbind].
      rewrite bool_decide_false by exact Hne. cbn [negb require rbind].
      destruct (tk_allow t !! (s, spender)) as [[v old]|]; cbn [default from_option id];
        (erewrite (proj2 (expiry_iff b expires _ _)) by (split; [reflexivity|exact He])); cbn [rbind];
        (rewrite (proj2 (u128_add_ok _ amount _)) by (split; [reflexivity|exact Ha])); cbn [rbind]; eauto.
  - (* decrease *) rewrite <- B128_eq. destruct (N.ltb_spec amount B128) as [R|R]; cbn [negb andb]; [|split; [intros (? & ? & H); discriminate|intros (H & _); lia]].
    destruct (oexp_ok expires) eqn:Oe; cbn [negb]; [|split; [intros (? & ? & H); discriminate|intros (_ & H & _); apply oexp_spec in H; congruence]]. pose proof (proj1 (oexp_spec _) Oe) as Os.
    unfold token_decrease. split.
    + intros (t' & rsp & H). apply rbind_ok in H as (sp & Ev & H). apply addr_validate_ok in Ev as [-> Hv].
      apply rbind_ok in H as ([] & En & H). apply require_ok in En. bools.
      destruct (tk_allow t !! (s, spender)) as [[v old]|]; [|discriminate]. repeat (split; [assumption|]). exists v, old. split; [reflexivity|].
      destruct (N.ltb_spec amount v) as [L|L]; [|intros; lia]. apply rbind_ok in H as (ex & Ex & H). apply expiry_iff in Ex as [_ Ex]. auto.
    + intros (_ & _ & Hv & Hne & v & old & Ho & He). rewrite (proj2 (addr_validate_ok A spender spender) (conj eq_refl Hv)). cbn [rbind].
      rewrite bool_decide_false by exact Hne. cbn [negb require rbind]. rewrite Ho.
      destruct (N.ltb_spec amount v) as [L|L]; [|eauto].
      rewrite (proj2 (expiry_iff b expires old _) (conj eq_refl (He L))). cbn [rbind]. eauto.
  - (* transfer from *) rewrite <- B128_eq. destruct (N.ltb_spec amount B128) as [R|R]; cbn [negb]; [|split; [intros (? & ? & H); discriminate|intros (H & _); lia]].
    unfold token_transfer_from. split.
    + intros (t' & rsp & H).
      apply rbind_ok in H as (r & Ev & H). apply addr_validate_ok in Ev as [-> Hv].
      apply rbind_ok in H as (o & Eo & H). apply addr_validate_ok in Eo as [-> Ho].
      apply rbind_ok in H as (t1 & E1 & H). apply deduct_iff in E1 as (v & e & E1 & Ex & Hle & ->).
      apply rbind_ok in H as (t2 & E2 & H). apply debit_ok in E2 as [E2 _].
      change (balance_of (set_allow t (<[(owner, s):=(v - amount, e)]> (tk_allow t))) owner) with (balance_of t owner) in E2.
      repeat (split; [assumption|]). split; [exists v, e; auto|exact E2].
    + intros (_ & Ho & Hv & (v & e & E1 & Ex & Hle) & Hb).
      rewrite (proj2 (addr_validate_ok A recipient recipient) (conj eq_refl Hv)). cbn [rbind].
      rewrite (proj2 (addr_validate_ok A owner owner) (conj eq_refl Ho)). cbn [rbind].
      set (t1 := set_allow t (<[(owner, s) := (v - amount, e)]> (tk_allow t))).
      rewrite (proj2 (deduct_iff t owner s b amount t1)) by (exists v, e; auto). cbn [rbind].
      destruct (move_total t1 owner recipient amount) as (t2 & t3 & D1 & D2); [exact Hb|change (sum_balances t1) with (sum_balances t); lia|].
      rewrite D1. cbn [rbind]. rewrite D2. cbn [rbind]. eauto.
  - (* burn from *) rewrite <- B128_eq. destruct (N.ltb_spec amount B128) as [R|R]; cbn [negb]; [|split; [intros (? & ? & H); discriminate|intros (H & _); lia]].
    unfold token_burn_from. split.
    + intros (t' & rsp & H). apply rbind_ok in H as (o & Eo & H). apply addr_validate_ok in Eo as [-> Ho].
      apply rbind_ok in H as (t1 & E1 & H). apply deduct_iff in E1 as (v & e & E1 & Ex & Hle & ->).
      apply rbind_ok in H as (t2 & E2 & H). apply debit_ok in E2 as [E2 _].
      change (balance_of (set_allow t (<[(owner, s):=(v - amount, e)]> (tk_allow t))) owner) with (balance_of t owner) in E2.
      repeat (split; [assumption|]). split; [exists v, e; auto|exact E2].
    + intros (_ & Ho & (v & e & E1 & Ex & Hle) & Hb).
      rewrite (proj2 (addr_validate_ok A owner owner) (conj eq_refl Ho)). cbn [rbind].
      set (t1 := set_allow t (<[(owner, s) := (v - amount, e)]> (tk_allow t))).
      rewrite (proj2 (deduct_iff t owner s b amount t1)) by (exists v, e; auto). cbn [rbind].
      rewrite (proj2 (debit_ok t1 owner amount _) (conj Hb eq_refl)). cbn [rbind].
      change (tk_supply (set_bal t1 (<[owner:=balance_of t1 owner - amount]> (tk_bal t1)))) with (tk_supply t).
      pose proof (balance_le_sum t owner).
      rewrite (proj2 (u128_checked_sub_ok (tk_supply t) amount (tk_supply t - amount))) by (split; [reflexivity|lia]). cbn [rbind]. eauto.
  - (* mint *) rewrite <- B128_eq. destruct (N.ltb_spec amount B128) as [R|R]; cbn [negb]; [|split; [intros (? & ? & H); discriminate|intros (_ & _ & H & _); lia]].
    unfold token_mint. split.
    + intros (t' & rsp & H). apply rbind_ok in H as ([] & Ez & H). apply nonzero_ok in Ez.
      destruct (tk_mint t) as [[mn cap]|] eqn:Em; [|discriminate].
      apply rbind_ok in H as ([] & E1 & H). apply require_ok in E1. bools. subst mn.
      apply rbind_ok in H as (s2 & E2 & H). apply u128_add_ok in E2 as [-> E2].
      apply rbind_ok in H as ([] & E3 & H).
      apply rbind_ok in H as (r & Ev & H). apply addr_validate_ok in Ev as [-> Hv].
      repeat (split; [assumption|]). exists cap. split; [reflexivity|]. intros c ->. apply require_ok in E3. bools. exact E3.
    + intros (Hn & Hv & Hs & cap & Em & Hc). rewrite (proj2 (nonzero_ok _) Hn). cbn [rbind]. rewrite Em.
      rewrite bool_decide_true by reflexivity. cbn [require rbind].
      rewrite (proj2 (u128_add_ok (tk_supply t) amount _) (conj eq_refl Hs)). cbn [rbind].
      assert (E3 : (match cap with Some c => require (negb (c <? tk_supply t + amount)) (ECw20 "Minting cannot exceed the cap") | None => Ok tt end) = Ok tt).
      { destruct cap as [c|]; [|reflexivity]. apply require_ok. apply negb_true_iff, N.ltb_ge. auto. }
      rewrite E3. cbn [rbind]. rewrite (proj2 (addr_validate_ok A recipient recipient) (conj eq_refl Hv)). cbn [rbind].
      erewrite (proj2 (credit_ok (set_supply t (tk_supply t + amount)) recipient amount _)).
      2: { split; [|reflexivity]. change (balance_of (set_supply t (tk_supply t + amount)) recipient) with (balance_of t recipient).
           pose proof (balance_le_sum t recipient). lia. }
      cbn [rbind]. eauto.
  - (* update minter *) cbn [negb]. unfold token_update_minter. split.
    + intros (t' & rsp & H). destruct (tk_mint t) as [[mn cap]|] eqn:Em; [|discriminate].
      apply rbind_ok in H as ([] & E1 & H). apply require_ok in E1. bools. subst mn. split; [eauto|].
      apply rbind_ok in H as (m' & E2 & H). intros a ->. apply rbind_ok in E2 as (a' & Ea & E2). apply addr_validate_ok in Ea as [-> Ha]. exact Ha.
    + intros ((cap & Em) & Hv). rewrite Em. rewrite bool_decide_true by reflexivity. cbn [require rbind].
      destruct new_minter as [a|]; [|cbn [rbind]; eauto].
      rewrite (proj2 (addr_validate_ok A a a) (conj eq_refl (Hv a eq_refl))). cbn [rbind]. eauto.
Qed.

Lemma tok_call_effect A b t s m t' rsp : simple_call m -> token_execute A b t s m = Ok (t', rsp) ->
  rs_msgs rsp = [] /\ (forall o x, tk_allow t' !! (o, x) = allowance_after t s m o x) /\ tk_mint t' = minter_after t m /\
  tk_name t' = tk_name t /\ tk_symbol t' = tk_symbol t /\ tk_decimals t' = tk_decimals t.
Proof.
  intros Hm H. pose proof H as Hx. unfold token_execute in Hx. destruct (negb _); [discriminate|].
  apply token_execute_inv in H. unfold allowance_after, minter_after.
  assert (Da : forall t1 o n, deduct_allowance t o s b n = Ok t1 ->
    (forall o' x, tk_allow t1 !! (o', x) = if decide (o' = o /\ x = s) then match tk_allow t !! (o', x) with Some (v, e) => Some (v - n, e) | None => None end else tk_allow t !! (o', x)) /\
    tk_mint t1 = tk_mint t /\ tk_name t1 = tk_name t /\ tk_symbol t1 = tk_symbol t /\ tk_decimals t1 = tk_decimals t).
  { intros t1 o n D. apply deduct_ok in D as (v & e & Ho & _ & _ & ->). cbn [set_allow tk_allow tk_mint tk_name tk_symbol tk_decimals]. split; [|auto].
    intros o' x. destruct (decide (o' = o /\ x = s)) as [[-> ->]|D].
    - rewrite lookup_insert. change uint128 with N in *. rewrite Ho. reflexivity.
    - rewrite lookup_insert_ne by (intros X; injection X as <- <-; apply D; auto). reflexivity. }
  destruct H; try contradiction; (split; [reflexivity|]).
  - destruct H2 as [(A1 & A2 & A3 & A4 & A5 & A6) _ _ _]. rewrite A6. auto 10.
  - apply debit_ok in H1 as [_ ->]. subst t'. cbn. auto 10.
  - apply credit_ok in H5 as [_ ->]. cbn. auto 10.
  - cbn [set_allow tk_allow tk_mint tk_name tk_symbol tk_decimals]. split; [|auto].
    unfold token_increase in Hx. apply rbind_ok in Hx as (sp' & Ev & Hx). apply addr_validate_ok in Ev as [-> _].
    apply rbind_ok in Hx as ([] & _ & Hx). destruct (default (0, ENever) (tk_allow t !! (s, sp))) as [v old] eqn:Ed.
    apply rbind_ok in Hx as (ex & Ex & Hx). apply expiry_iff in Ex as [-> _]. apply rbind_ok in Hx as (v2 & Hv & Hx). apply u128_add_ok in Hv as [-> _].
    injection Hx as Hx _. 
    intros o x. destruct (decide (o = s /\ x = sp)) as [[-> ->]|D].
    + change uint128 with N in *. rewrite Ed. apply (f_equal (fun z => z !! (s, sp))) in Hx. rewrite !lookup_insert in Hx. rewrite lookup_insert. congruence.
    + rewrite lookup_insert_ne by (intros X; injection X as <- <-; apply D; auto). reflexivity.
  - cbn [set_allow tk_allow tk_mint tk_name tk_symbol tk_decimals]. split; [|auto].
    unfold token_decrease in Hx. apply rbind_ok in Hx as (sp' & Ev & Hx). apply addr_validate_ok in Ev as [-> _].
    apply rbind_ok in Hx as ([] & _ & Hx). rewrite H1 in Hx. apply N.ltb_lt in H2. rewrite H2 in Hx.
    apply rbind_ok in Hx as (ex & Ex & Hx). apply expiry_iff in Ex as [-> _]. injection Hx as Hx _.
    apply (f_equal (fun z => z !! (s, sp))) in Hx. rewrite !lookup_insert in Hx. injection Hx as <-.
    intros o x. destruct (decide (o = s /\ x = sp)) as [[-> ->]|D].
    + change uint128 with N in *. rewrite H1, lookup_insert. rewrite decide_True by (apply N.ltb_lt; exact H2). reflexivity.
    + rewrite lookup_insert_ne by (intros X; injection X as <- <-; apply D; auto). reflexivity.
  - cbn [set_allow tk_allow tk_mint tk_name tk_symbol tk_decimals]. split; [|auto].
    intros o x. destruct (decide (o = s /\ x = sp)) as [[-> ->]|D].
    + change uint128 with N in *. rewrite H1, lookup_delete. rewrite decide_False by lia. reflexivity.
    + rewrite lookup_delete_ne by (intros X; injection X as <- <-; apply D; auto). reflexivity.
  - apply Da in H2 as (D1 & D2 & D3 & D4 & D5). destruct H3 as [(A1 & A2 & A3 & A4 & A5 & A6) _ _ _]. rewrite A6. 
    split; [intros; apply D1|]. repeat split; congruence.
  - apply Da in H1 as (D1 & D2 & D3 & D4 & D5). apply debit_ok in H2 as [_ ->]. subst t'. cbn.
    split; [intros; apply D1|]. auto.
  - cbn. split; [auto|]. rewrite H. destruct new; auto 10.
Qed.

(** ** Transactions *)
Lemma tok_exec C (OK : chain_ok C) w t ts s m f : sane C w -> tok_at w t ts ->
  exec C (S f) w s (MExecute t m []) =
  let* '(ts', rsp) := token_execute (ch_api C) (w_block w) ts s m in
  let* '(w2, lg) := run C f (set_state w t (SToken ts')) t (rs_msgs rsp) in
  Ok (w2, None, Event t s m (rs_attrs rsp) [] w :: lg).
Proof.
  intros Sn Ht. rewrite exec_eq, (sane_norm C OK _ _ _ Sn Ht). cbn [oget rbind]. rewrite bank_send_none. cbn [rbind].
  pose proof Ht as Hi. apply state_at_inst in Hi as (ad & Hi). rewrite Hi. cbn [oget rbind i_state call].
  destruct (token_execute _ _ _ _ _) as [[ts' rsp]|e]; reflexivity.
Qed.

(** C63: a call of a token (other than Send and SendFrom) is executed exactly if
    it is [accepted] ... *)
Theorem C63_token_call_iff C w t ts s m : chain_ok C -> reachable C w -> tok_at w t ts -> simple_call m ->
  (exists w', succeeds C w s (MExecute t m []) w') <-> accepted (ch_api C) (w_block w) ts s m.
Proof.
  intros OK Hr Ht Hm. pose proof (main_sane C w (reachable_main C OK w Hr)) as Sn.
  rewrite <- (tok_call_iff _ _ _ _ _ (proj2 Sn _ _ Ht) Hm). split.
  - intros (w' & k & H). destruct (H (S k)) as (lg & E); [lia|]. rewrite (tok_exec C OK w t ts) in E by assumption.
    apply rbind_ok in E as ([ts' rsp] & E & _). eauto.
  - intros (ts' & rsp & E). exists (set_state w t (SToken ts')), 2%nat. intros f Hf. destruct f as [|[|f]]; [lia|lia|].
    rewrite (tok_exec C OK w t ts) by assumption. rewrite E. cbn [rbind]. destruct (tok_call_effect _ _ _ _ _ _ _ Hm E) as (-> & _).
    rewrite run_nil. cbn [rbind]. eauto.
Qed.

(** ... and changes exactly the balances, the supply, the allowance and the
    minter it names, and nothing else anywhere. *)
Theorem C63_token_call_effect C w t ts s m f w' z lg : chain_ok C -> reachable C w -> tok_at w t ts -> simple_call m ->
  exec C f w s (MExecute t m []) = Ok (w', z, lg) ->
  exists ts', tok_at w' t ts' /\
    (forall x, balance_of ts' x + debit_of s m x = balance_of ts x + credit_of m x) /\
    tk_supply ts' + burned_of m = tk_supply ts + minted_of m /\
    (forall o x, tk_allow ts' !! (o, x) = allowance_after ts s m o x) /\
    tk_mint ts' = minter_after ts m /\
    tk_name ts' = tk_name ts /\ tk_symbol ts' = tk_symbol ts /\ tk_decimals ts' = tk_decimals ts /\
    w_bank w' = w_bank w /\ (forall a, a <> t -> state_at w' a = state_at w a).
Proof.
  intros OK Hr Ht Hm E. pose proof (main_sane C w (reachable_main C OK w Hr)) as Sn.
  destruct f; [rewrite exec_0 in E; discriminate|]. rewrite (tok_exec C OK w t ts) in E by assumption.
  apply rbind_ok in E as ([ts' rsp] & Ex & E). apply rbind_ok in E as ([w2 lg2] & Er & E).
  destruct (tok_call_effect _ _ _ _ _ _ _ Hm Ex) as (Em & H1 & H2 & H3 & H4 & H5). rewrite Em in Er.
  destruct f; [rewrite run_0 in Er; discriminate|]. rewrite run_nil in Er. injection Er as <- <-. injection E as <- _ _.
  assert (Hi : is_Some (w_insts w !! t)) by (apply state_at_inst in Ht as (ad & Hi); eauto).
  exists ts'. split; [unfold tok_at; rewrite state_at_set by exact Hi; apply decide_True; reflexivity|].
  split; [intros x; exact (proj1 (exec_balances _ _ _ _ _ _ _ x Ex))|]. split; [exact (proj2 (exec_balances _ _ _ _ _ _ _ ""%string Ex))|].
  repeat (split; [assumption|]). split; [apply set_state_bank|]. intros a Ha. rewrite state_at_set by exact Hi. apply decide_False. exact Ha.
Qed.

(** Sending to a contract is transferring to it and then calling it. *)
Definition reaches (C : chain) (w : world) (s : string) (m : cmsg) (w' : world) : Prop := exists f lg, exec C f w s m = Ok (w', None, lg).

Lemma exec_result C f w s c m fs w' z lg : exec C f w s (MExecute c m fs) = Ok (w', z, lg) -> z = None.
Proof.
  intros E. destruct f; [rewrite exec_0 in E; discriminate|]. rewrite exec_eq in E.
  apply rbind_ok in E as (a & _ & E). apply rbind_ok in E as (w1 & _ & E). apply rbind_ok in E as (i & _ & E).
  apply rbind_ok in E as ([s1 rsp] & _ & E). apply rbind_ok in E as ([w2 lg2] & _ & E). congruence.
Qed.
Lemma two_steps C (OK : chain_ok C) w t ts s m1 m2 c r w' : sane C w -> tok_at w t ts ->
  (forall ts', (exists rsp, token_execute (ch_api C) (w_block w) ts s m1 = Ok (ts', rsp) /\ rs_msgs rsp = [plain (MExecute c r [])]) <->
               (exists rsp, token_execute (ch_api C) (w_block w) ts s m2 = Ok (ts', rsp))) ->
  (forall ts' rsp, token_execute (ch_api C) (w_block w) ts s m1 = Ok (ts', rsp) -> rs_msgs rsp = [plain (MExecute c r [])]) ->
  (forall ts' rsp, token_execute (ch_api C) (w_block w) ts s m2 = Ok (ts', rsp) -> rs_msgs rsp = []) ->
  reaches C w s (MExecute t m1 []) w' <->
  exists w1, reaches C w s (MExecute t m2 []) w1 /\ reaches C w1 t (MExecute c r []) w'.
Proof.
  intros Sn Ht Hm Hm1 Hm2. split.
  - intros (f & lg & E). destruct f; [rewrite exec_0 in E; discriminate|]. rewrite (tok_exec C OK w t ts) in E by assumption.
    apply rbind_ok in E as ([ts' rsp] & Ex & E). apply rbind_ok in E as ([w2 lg2] & Er & E). injection E as -> _.
    pose proof (Hm1 _ _ Ex) as Em. destruct (proj1 (Hm ts')) as (rsp2 & E2); [eauto|].
    exists (set_state w t (SToken ts')). split.
    + exists 2%nat. eexists. rewrite (tok_exec C OK w t ts) by assumption. rewrite E2. cbn [rbind]. rewrite (Hm2 _ _ E2), run_nil. reflexivity.
    + rewrite Em in Er. destruct f; [rewrite run_0 in Er; discriminate|]. rewrite run_plain in Er.
      apply rbind_ok in Er as ([[w1 z] lg1] & E1 & Er). apply rbind_ok in Er as ([w3 lg3] & E3 & Er). injection Er as -> _.
      destruct f; [rewrite run_0 in E3; discriminate|]. rewrite run_nil in E3. injection E3 as -> _.
      pose proof (exec_result _ _ _ _ _ _ _ _ _ _ E1) as ->. exists (S f), lg1. exact E1.
  - intros (w1 & (f & lg & E) & (g & lg' & E')). destruct f; [rewrite exec_0 in E; discriminate|]. rewrite (tok_exec C OK w t ts) in E by assumption.
    apply rbind_ok in E as ([ts' rsp] & Ex & E). apply rbind_ok in E as ([w2 lg2] & Er & E). injection E as -> _.
    rewrite (Hm2 _ _ Ex) in Er. destruct f; [rewrite run_0 in Er; discriminate|]. rewrite run_nil in Er. injection Er as <- _.
    destruct (proj2 (Hm ts')) as (rsp1 & E1 & Em); [eauto|].
    destruct g; [rewrite exec_0 in E'; discriminate|].
    exists (S (S (S g))). eexists. rewrite (tok_exec C OK w t ts) by assumption. rewrite E1. cbn [rbind]. rewrite Em, run_plain, E'. cbn [rbind].
    rewrite run_nil. reflexivity.
Qed.

Theorem C63_send_is_transfer_and_call C w t ts s c n h w' : chain_ok C -> reachable C w -> tok_at w t ts ->
  reaches C w s (MExecute t (JSend c n h) []) w' <->
  exists w1, reaches C w s (MExecute t (JTransfer c n) []) w1 /\ reaches C w1 t (MExecute c (JReceive s n h) []) w'.
Proof.
  intros OK Hr Ht. pose proof (main_sane C w (reachable_main C OK w Hr)) as Sn. apply (two_steps C OK w t ts); auto.
  - intros ts'. unfold token_execute. cbn [jmsg_ranges]. destruct (u128_ok n); cbn [negb]; [|split; [intros (? & ? & ?)|intros (? & ?)]; discriminate].
    unfold token_send, token_transfer. destruct (nonzero n); cbn [rbind]; [|split; [intros (? & ? & ?)|intros (? & ?)]; discriminate].
    destruct (addr_validate _ c) as [r|]; cbn [rbind]; [|split; [intros (? & ? & ?)|intros (? & ?)]; discriminate].
    destruct (debit ts s n) as [t1|]; cbn [rbind]; [|split; [intros (? & ? & ?)|intros (? & ?)]; discriminate].
    destruct (credit t1 r n) as [t2|]; cbn [rbind]; [|split; [intros (? & ? & ?)|intros (? & ?)]; discriminate].
    split; [intros (? & H & _)|intros (? & H)]; injection H as <- _; eexists; split; reflexivity.
  - intros ts' rsp E. apply token_execute_inv in E. inversion E; subst. reflexivity.
  - intros ts' rsp E. apply token_execute_inv in E. inversion E; subst. reflexivity.
Qed.
Theorem C63_send_from_is_transfer_from_and_call C w t ts s o c n h w' : chain_ok C -> reachable C w -> tok_at w t ts ->
  reaches C w s (MExecute t (JSendFrom o c n h) []) w' <->
  exists w1, reaches C w s (MExecute t (JTransferFrom o c n) []) w1 /\ reaches C w1 t (MExecute c (JReceive s n h) []) w'.
Proof.
  intros OK Hr Ht. pose proof (main_sane C w (reachable_main C OK w Hr)) as Sn. apply (two_steps C OK w t ts); auto.
  - intros ts'. unfold token_execute. cbn [jmsg_ranges]. destruct (u128_ok n); cbn [negb]; [|split; [intros (? & ? & ?)|intros (? & ?)]; discriminate].
    unfold token_send_from, token_transfer_from.
    destruct (addr_validate _ c) as [r|]; cbn [rbind]; [|split; [intros (? & ? & ?)|intros (? & ?)]; discriminate].
    destruct (addr_validate _ o) as [o'|]; cbn [rbind]; [|split; [intros (? & ? & ?)|intros (? & ?)]; discriminate].
    destruct (deduct_allowance _ _ _ _ _) as [t0|]; cbn [rbind]; [|split; [intros (? & ? & ?)|intros (? & ?)]; discriminate].
    destruct (debit t0 o' n) as [t1|]; cbn [rbind]; [|split; [intros (? & ? & ?)|intros (? & ?)]; discriminate].
    destruct (credit t1 r n) as [t2|]; cbn [rbind]; [|split; [intros (? & ? & ?)|intros (? & ?)]; discriminate].
    split; [intros (? & H & _)|intros (? & H)]; injection H as <- _; eexists; split; reflexivity.
  - intros ts' rsp E. apply token_execute_inv in E. inversion E; subst. reflexivity.
  - intros ts' rsp E. apply token_execute_inv in E. inversion E; subst. reflexivity.
Qed.

(** Alice lets Bob spend 500 of her tokens #1 until block 10^9; Bob spends 200
    and may not spend 301 more; Bob may not mint. *)
Example C63_case :
  let w := ex_world in let ts := tok_of w "#1" in
  let give := (true, x_call "#1" (JIncreaseAllowance "bob" 500 (Some (EAtHeight 1000000000)))) in
  let spend n := (false, x_call "#1" (JTransferFrom "alice" "carol" n)) in
  let w2 := after w [give; spend 200] in
  reachable ex_chain w /\ tok_at w "#1" ts /\
  accepted ex_api (w_block w) ts "alice" (JIncreaseAllowance "bob" 500 (Some (EAtHeight 1000000000))) /\
  is_ok (script w [give; spend 200]) = true /\
  tk_allow (tok_of w2 "#1") !! ("alice", "bob")%string = Some (300, EAtHeight 1000000000) /\
  holds w2 "carol" (Token "#1") = holds w "carol" (Token "#1") + 200 /\
  is_ok (script w2 [spend 301]) = false /\ is_ok (script w [(false, x_call "#1" (JMint "bob" 1))]) = false /\
  is_ok (script w [ex_transfer]) = true /\ is_ok (script w [ex_swap]) = true.
Proof.
  intros w ts give spend w2. split; [exact ex_reachable|]. split; [apply tok_of_at; vm_compute; reflexivity|].
  split. { split; [vm_compute; reflexivity|]. split; [intros y E; injection E as <-; vm_compute; reflexivity|]. split; [vm_compute; reflexivity|]. split; [discriminate|]. split; [vm_compute; reflexivity|]. intros y E. injection E as <-. vm_compute. reflexivity. }
  repeat (split; [vm_compute; reflexivity|]). vm_compute; reflexivity.
Qed.
