(** Sums over maps, and what each token call does. *)
From Verif Require Import Base BigNumber CwStd BigNumberFacts Asset Messages PairMath Pair PairFacts Token P_Token.
From Coq Require Import ZifyN.
Local Open Scope N_scope.
Ltac Zify.zify_post_hook ::= idtac.

(** ** Sums over finite maps *)
Section msum.
  Context `{Countable K} {V : Type} (f : K -> V -> N).
  Definition msum (m : gmap K V) : N := map_fold (fun k v s => f k v + s) 0 m.
  Lemma msum_empty : msum ∅ = 0.
  Proof. reflexivity. Qed.
  Lemma msum_insert_new m k v : m !! k = None -> msum (<[k := v]> m) = f k v + msum m.
  Proof.
    intros Hn. unfold msum. rewrite (map_fold_insert_L (fun k v s => f k v + s)); [reflexivity| |exact Hn].
    intros; lia.
  Qed.
  Lemma msum_delete m k v : m !! k = Some v -> msum m = f k v + msum (delete k m).
  Proof.
    intros Hv. rewrite <- (insert_delete m k v Hv) at 1. rewrite msum_insert_new; [reflexivity|apply lookup_delete].
  Qed.
  Definition mval (m : gmap K V) (k : K) : N := match m !! k with Some v => f k v | None => 0 end.
  Lemma msum_insert m k v : msum (<[k := v]> m) + mval m k = msum m + f k v.
  Proof.
    unfold mval. destruct (m !! k) as [v0|] eqn:E.
    - rewrite (msum_delete m k v0 E), <- insert_delete_insert, msum_insert_new by apply lookup_delete. lia.
    - rewrite msum_insert_new by exact E. lia.
  Qed.
  Lemma mval_le_msum m k : mval m k <= msum m.
  Proof.
    unfold mval. destruct (m !! k) as [v|] eqn:E; [|lia]. rewrite (msum_delete m k v E). lia.
  Qed.
  Lemma msum_two m k k' : k <> k' -> mval m k + mval m k' <= msum m.
  Proof.
    intros Hne. unfold mval at 1. destruct (m !! k) as [v|] eqn:E.
    - rewrite (msum_delete m k v E). pose proof (mval_le_msum (delete k m) k') as L.
      unfold mval in L |- *. rewrite lookup_delete_ne in L by exact Hne. lia.
    - rewrite N.add_0_l. apply mval_le_msum.
  Qed.
End msum.

(** ** Tokens *)

(** Total of all balances. *)
Definition sum_balances (t : token_state) : N := msum (fun (_ : string) v => v) (tk_bal t).

Lemma balance_mval t a : balance_of t a = mval (fun (_ : string) (v : N) => v) (tk_bal t) a.
Proof. unfold balance_of, mval. change uint128 with N. destruct (tk_bal t !! a); reflexivity. Qed.

Lemma sum_set_bal t a v :
  msum (fun (_ : string) v => v) (<[a := v]> (tk_bal t)) + balance_of t a = sum_balances t + v.
Proof.
  pose proof (msum_insert (fun (_ : string) (v : N) => v) (tk_bal t) a v) as H.
  rewrite !balance_mval. exact H.
Qed.
Lemma balance_le_sum t a : balance_of t a <= sum_balances t.
Proof.
  pose proof (mval_le_msum (fun (_ : string) (v : N) => v) (tk_bal t) a) as H.
  rewrite !balance_mval. exact H.
Qed.
Lemma two_balances_le_sum t a b : a <> b -> balance_of t a + balance_of t b <= sum_balances t.
Proof.
  intros Hne. pose proof (msum_two (fun (_ : string) (v : N) => v) (tk_bal t) a b Hne) as H.
  rewrite !balance_mval. exact H.
Qed.

Lemma balance_set t a v x :
  balance_of (set_bal t (<[a := v]> (tk_bal t))) x = if decide (x = a) then v else balance_of t x.
Proof.
  unfold balance_of. cbn [set_bal tk_bal]. case_decide as D.
  - subst. rewrite lookup_insert. reflexivity.
  - rewrite lookup_insert_ne by congruence. reflexivity.
Qed.

(** Everything but balances. *)
Definition same_but_bal (t t' : token_state) : Prop :=
  tk_name t' = tk_name t /\ tk_symbol t' = tk_symbol t /\ tk_decimals t' = tk_decimals t /\
  tk_supply t' = tk_supply t /\ tk_mint t' = tk_mint t /\ tk_allow t' = tk_allow t.

(** [n] leaves [from] and arrives at [to]; nothing else changes. *)
Record moved (t t' : token_state) (from to : string) (n : N) : Prop := {
  mv_same : same_but_bal t t';
  mv_have : n <= balance_of t from;
  mv_bal : forall x, balance_of t' x + (if decide (x = from) then n else 0) =
                     balance_of t x + (if decide (x = to) then n else 0);
  mv_sum : sum_balances t' = sum_balances t;
}.

Lemma u128_add_ok a b c : u128_add a b = Ok c <-> c = a + b /\ a + b < B128.
Proof.
  unfold u128_add. destruct (N.ltb_spec (a + b) B128); (split; [intros X; inv_ok; auto; try discriminate|intros (-> & ?); auto; try lia]).
Qed.

Lemma debit_ok t a n t' : debit t a n = Ok t' <->
  n <= balance_of t a /\ t' = set_bal t (<[a := balance_of t a - n]> (tk_bal t)).
Proof.
  unfold debit. rewrite rbind_ok. split.
  - intros (b & E & H). apply u128_checked_sub_ok in E as [-> ?]. injection H as <-. auto.
  - intros [H ->]. exists (balance_of t a - n). split; [apply u128_checked_sub_ok; auto|reflexivity].
Qed.
Lemma credit_ok t a n t' : credit t a n = Ok t' <->
  balance_of t a + n < B128 /\ t' = set_bal t (<[a := balance_of t a + n]> (tk_bal t)).
Proof.
  unfold credit. rewrite rbind_ok. split.
  - intros (b & E & H). apply u128_add_ok in E as [-> ?]. injection H as <-. auto.
  - intros [H ->]. exists (balance_of t a + n). split; [apply u128_add_ok; auto|reflexivity].
Qed.

Lemma debit_credit_moved t a b n t1 t2 : debit t a n = Ok t1 -> credit t1 b n = Ok t2 -> moved t t2 a b n.
Proof.
  intros H1 H2. apply debit_ok in H1 as [H ->]. apply credit_ok in H2 as [H2 ->].
  set (t1 := set_bal t (<[a := balance_of t a - n]> (tk_bal t))) in *.
  split.
  - repeat split.
  - exact H.
  - intros x. rewrite balance_set. unfold t1 in *. rewrite !balance_set in *.
    repeat case_decide; subst; try congruence; lia.
  - unfold sum_balances at 1. cbn [set_bal tk_bal].
    pose proof (sum_set_bal t1 b (balance_of t1 b + n)) as S1.
    pose proof (sum_set_bal t a (balance_of t a - n)) as S2.
    change (sum_balances t1) with (msum (fun (_ : string) v => v) (<[a := balance_of t a - n]> (tk_bal t))) in S1.
    change (tk_bal t1) with (<[a := balance_of t a - n]> (tk_bal t)) in S1 |- *. lia.
Qed.

(** Conversely the move succeeds whenever the sender has enough and the sum of
    balances is in range. *)
Lemma move_total t a b n : n <= balance_of t a -> sum_balances t < B128 ->
  exists t1 t2, debit t a n = Ok t1 /\ credit t1 b n = Ok t2.
Proof.
  intros H HS. eexists. 
  assert (D : debit t a n = Ok (set_bal t (<[a := balance_of t a - n]> (tk_bal t)))) by (apply debit_ok; auto).
  eexists. split; [exact D|]. apply credit_ok. split; [|reflexivity].
  rewrite balance_set. case_decide.
  - pose proof (balance_le_sum t a). lia.
  - pose proof (two_balances_le_sum t a b). assert (a <> b) by congruence. intuition lia.
Qed.

(** An expiration that has not passed. Part of the specification: it does not
    mention the is_expired function of the model. *)
Definition pending (b : blockinfo) (e : expiration) : Prop :=
  match e with EAtHeight h => b_height b < h | EAtTime t => b_time b < t | ENever => True end.
Lemma pending_spec b e : is_expired e b = false <-> pending b e.
Proof. destruct e; cbn [is_expired pending]; rewrite ?N.leb_gt; tauto. Qed.
Lemma deduct_ok t o s b n t' : deduct_allowance t o s b n = Ok t' ->
  exists v e, tk_allow t !! (o, s) = Some (v, e) /\ is_expired e b = false /\ n <= v /\
    t' = set_allow t (<[(o, s) := (v - n, e)]> (tk_allow t)).
Proof.
  unfold deduct_allowance. destruct (tk_allow t !! (o, s)) as [[v e]|]; [|discriminate].
  destruct (is_expired e b) eqn:E; [discriminate|]. intros H.
  apply rbind_ok in H as (v' & Ev & H). apply u128_checked_sub_ok in Ev as [-> Hv].
  injection H as <-. exists v, e. auto.
Qed.

(** The kinds of successful token calls. *)
Inductive tok_effect (A : api) (b : blockinfo) (t : token_state) (s : string)
  : jmsg -> token_state -> list submsg -> Prop :=
| te_transfer r n t' : 0 < n -> n < B128 -> norm A r = Some r -> moved t t' s r n ->
    tok_effect A b t s (JTransfer r n) t' []
| te_send c n h t' : 0 < n -> n < B128 -> norm A c = Some c -> moved t t' s c n ->
    tok_effect A b t s (JSend c n h) t' [plain (MExecute c (JReceive s n h) [])]
| te_burn n t1 t' : 0 < n -> n < B128 -> debit t s n = Ok t1 -> n <= tk_supply t ->
    t' = set_supply t1 (tk_supply t - n) ->
    tok_effect A b t s (JBurn n) t' []
| te_mint r n t' cap : 0 < n -> n < B128 -> norm A r = Some r -> tk_mint t = Some (s, cap) ->
    tk_supply t + n < B128 -> (forall c, cap = Some c -> tk_supply t + n <= c) ->
    credit (set_supply t (tk_supply t + n)) r n = Ok t' ->
    tok_effect A b t s (JMint r n) t' []
| te_increase sp n e v' exp : norm A sp = Some sp -> sp <> s ->
    tok_effect A b t s (JIncreaseAllowance sp n e)
      (set_allow t (<[(s, sp) := (v', exp)]> (tk_allow t))) []
| te_decrease sp n e v exp exp' : norm A sp = Some sp -> sp <> s -> tk_allow t !! (s, sp) = Some (v, exp) -> n < v ->
    tok_effect A b t s (JDecreaseAllowance sp n e)
      (set_allow t (<[(s, sp) := (v - n, exp')]> (tk_allow t))) []
| te_decrease0 sp n e v exp : norm A sp = Some sp -> sp <> s -> tk_allow t !! (s, sp) = Some (v, exp) -> v <= n ->
    tok_effect A b t s (JDecreaseAllowance sp n e) (set_allow t (delete (s, sp) (tk_allow t))) []
| te_transfer_from o r n t1 t' : n < B128 -> norm A o = Some o -> norm A r = Some r ->
    deduct_allowance t o s b n = Ok t1 -> moved t1 t' o r n ->
    tok_effect A b t s (JTransferFrom o r n) t' []
| te_send_from o c n h t1 t' : n < B128 -> norm A o = Some o -> norm A c = Some c ->
    deduct_allowance t o s b n = Ok t1 -> moved t1 t' o c n ->
    tok_effect A b t s (JSendFrom o c n h) t' [plain (MExecute c (JReceive s n h) [])]
| te_burn_from o n t1 t2 t' : n < B128 -> norm A o = Some o ->
    deduct_allowance t o s b n = Ok t1 -> debit t1 o n = Ok t2 -> n <= tk_supply t ->
    t' = set_supply t2 (tk_supply t - n) ->
    tok_effect A b t s (JBurnFrom o n) t' []
| te_minter new cap : tk_mint t = Some (s, cap) ->
    (forall a, new = Some a -> norm A a = Some a) ->
    tok_effect A b t s (JUpdateMinter new)
      (set_mint t (match new with Some a => Some (a, cap) | None => None end)) [].

Lemma nonzero_ok n : nonzero n = Ok tt <-> 0 < n.
Proof. unfold nonzero. rewrite require_ok, negb_true_iff, N.eqb_neq. lia. Qed.

Lemma token_execute_inv A b t s m t' rsp :
  token_execute A b t s m = Ok (t', rsp) -> tok_effect A b t s m t' (rs_msgs rsp).
Proof.
  unfold token_execute. destruct (jmsg_ranges m) eqn:Er; [|discriminate]. cbn [negb].
  destruct m; try discriminate; intros H; cbn [jmsg_ranges] in Er; unfold u128_ok in Er; bools.
  - unfold token_transfer in H. apply rbind_ok in H as ([] & Ez & H). apply nonzero_ok in Ez.
    apply rbind_ok in H as (r & Ev & H). apply addr_validate_ok in Ev as [-> Hv].
    apply rbind_ok in H as (t1 & E1 & H). apply rbind_ok in H as (t2 & E2 & H). injection H as <- <-.
    constructor; auto. eapply debit_credit_moved; eauto.
  - unfold token_burn in H. apply rbind_ok in H as ([] & Ez & H). apply nonzero_ok in Ez.
    apply rbind_ok in H as (t1 & E1 & H). apply rbind_ok in H as (s2 & E2 & H).
    apply u128_checked_sub_ok in E2 as [-> E2]. injection H as <- <-.
    pose proof (proj1 (debit_ok _ _ _ _) E1) as [_ D]. subst t1. cbn [set_bal tk_supply] in E2 |- *.
    eapply te_burn; eauto.
  - unfold token_send in H. apply rbind_ok in H as ([] & Ez & H). apply nonzero_ok in Ez.
    apply rbind_ok in H as (r & Ev & H). apply addr_validate_ok in Ev as [-> Hv].
    apply rbind_ok in H as (t1 & E1 & H). apply rbind_ok in H as (t2 & E2 & H). injection H as <- <-.
    constructor; auto. eapply debit_credit_moved; eauto.
  - unfold token_increase in H. apply rbind_ok in H as (sp & Ev & H). apply addr_validate_ok in Ev as [-> Hv].
    apply rbind_ok in H as ([] & En & H). apply require_ok in En. bools.
    destruct (default (0, ENever) (tk_allow t !! (s, spender))) as [v old].
    apply rbind_ok in H as (exp & _ & H). apply rbind_ok in H as (v' & _ & H). injection H as <- <-.
    constructor; auto.
  - unfold token_decrease in H. apply rbind_ok in H as (sp & Ev & H). apply addr_validate_ok in Ev as [-> Hv].
    apply rbind_ok in H as ([] & En & H). apply require_ok in En. bools.
    destruct (tk_allow t !! (s, spender)) as [[v old]|] eqn:Ea; [|discriminate].
    destruct (N.ltb_spec amount v).
    + apply rbind_ok in H as (exp & _ & H). injection H as <- <-. eapply te_decrease; eauto.
    + injection H as <- <-. eapply te_decrease0; eauto.
  - unfold token_transfer_from in H.
    apply rbind_ok in H as (r & Ev & H). apply addr_validate_ok in Ev as [-> Hv].
    apply rbind_ok in H as (o & Eo & H). apply addr_validate_ok in Eo as [-> Ho].
    apply rbind_ok in H as (t1 & E1 & H). apply rbind_ok in H as (t2 & E2 & H).
    apply rbind_ok in H as (t3 & E3 & H). injection H as <- <-.
    eapply te_transfer_from; eauto. eapply debit_credit_moved; eauto.
  - unfold token_send_from in H.
    apply rbind_ok in H as (r & Ev & H). apply addr_validate_ok in Ev as [-> Hv].
    apply rbind_ok in H as (o & Eo & H). apply addr_validate_ok in Eo as [-> Ho].
    apply rbind_ok in H as (t1 & E1 & H). apply rbind_ok in H as (t2 & E2 & H).
    apply rbind_ok in H as (t3 & E3 & H). injection H as <- <-.
    eapply te_send_from; eauto. eapply debit_credit_moved; eauto.
  - unfold token_burn_from in H.
    apply rbind_ok in H as (o & Eo & H). apply addr_validate_ok in Eo as [-> Ho].
    apply rbind_ok in H as (t1 & E1 & H). apply rbind_ok in H as (t2 & E2 & H).
    apply rbind_ok in H as (s2 & E3 & H). apply u128_checked_sub_ok in E3 as [-> E3]. injection H as <- <-.
    pose proof (proj1 (debit_ok _ _ _ _) E2) as [_ D].
    pose proof (deduct_ok _ _ _ _ _ _ E1) as (v & e & _ & _ & _ & D1).
    assert (S : tk_supply t2 = tk_supply t) by (subst t2 t1; reflexivity). rewrite S in E3 |- *.
    eapply te_burn_from; eauto.
  - unfold token_mint in H. apply rbind_ok in H as ([] & Ez & H). apply nonzero_ok in Ez.
    destruct (tk_mint t) as [[mn cap]|] eqn:Em; [|discriminate].
    apply rbind_ok in H as ([] & E1 & H). apply require_ok in E1. bools. subst mn.
    apply rbind_ok in H as (s2 & E2 & H). apply u128_add_ok in E2 as [-> E2].
    apply rbind_ok in H as ([] & E3 & H).
    apply rbind_ok in H as (r & Ev & H). apply addr_validate_ok in Ev as [-> Hv].
    apply rbind_ok in H as (t1 & E4 & H). injection H as <- <-.
    eapply te_mint; eauto. intros c ->. apply require_ok in E3. bools. exact E3.
  - unfold token_update_minter in H. destruct (tk_mint t) as [[mn cap]|] eqn:Em; [|discriminate].
    apply rbind_ok in H as ([] & E1 & H). apply require_ok in E1. bools. subst mn.
    apply rbind_ok in H as (m' & E2 & H). injection H as <- <-.
    destruct new_minter as [a|].
    + apply rbind_ok in E2 as (a' & Ea & E2). apply addr_validate_ok in Ea as [-> Ha]. injection E2 as <-.
      apply (te_minter A b t s (Some a) cap Em). intros x E. injection E as <-. exact Ha.
    + injection E2 as <-. apply (te_minter A b t s None cap Em). discriminate.
Qed.

(** ** Invariant of a token *)

Record token_ok (t : token_state) : Prop := {
  to_sum : tk_supply t = sum_balances t;
  to_range : tk_supply t < B128;
  to_cap : forall m c, tk_mint t = Some (m, Some c) -> tk_supply t <= c;
}.

Lemma token_ok_effect A b t s m t' ms : token_ok t -> tok_effect A b t s m t' ms -> token_ok t'.
Proof.
  intros [S Rg Cp] E.
  assert (Mv : forall t0 from to n, tk_supply t0 = tk_supply t -> sum_balances t0 = sum_balances t ->
    tk_mint t0 = tk_mint t -> moved t0 t' from to n -> token_ok t').
  { intros t0 from to n E1 E2 E3 [(A1 & A2 & A3 & A4 & A5 & A6) _ _ M]. split.
    - congruence.
    - congruence.
    - intros mn c. rewrite A5, E3, A4, E1. apply Cp. }
  assert (De : forall t0 o n t1, debit t0 o n = Ok t1 -> n <= balance_of t0 o /\ sum_balances t1 + n = sum_balances t0).
  { intros t0 o n t1 D. apply debit_ok in D as [D ->]. split; [exact D|].
    pose proof (sum_set_bal t0 o (balance_of t0 o - n)) as X.
    change (sum_balances (set_bal t0 (<[o := balance_of t0 o - n]> (tk_bal t0)))) with
      (msum (fun (_ : string) v => v) (<[o := balance_of t0 o - n]> (tk_bal t0))). lia. }
  assert (Al : forall al, token_ok (set_allow t al)).
  { intros al. split; auto. }
  inversion E; subst; clear E; auto.
  - eapply Mv; eauto.
  - eapply Mv; eauto.
  - destruct (De _ _ _ _ H1) as [D1 D2]. apply debit_ok in H1 as [_ ->]. split.
    + change (tk_supply t - n = sum_balances (set_bal t (<[s := balance_of t s - n]> (tk_bal t)))). lia.
    + cbn [set_supply tk_supply]. lia.
    + intros mn c X. specialize (Cp mn c X). cbn [set_supply tk_supply]. lia.
  - apply credit_ok in H5 as [Hc ->]. split.
    + cbn [set_bal set_supply tk_supply].
      pose proof (sum_set_bal (set_supply t (tk_supply t + n)) r (balance_of (set_supply t (tk_supply t + n)) r + n)) as X.
      change (sum_balances (set_supply t (tk_supply t + n))) with (sum_balances t) in X.
      match goal with |- _ = sum_balances ?T => change (sum_balances T) with
        (msum (fun (_ : string) v => v) (<[r := balance_of (set_supply t (tk_supply t + n)) r + n]>
           (tk_bal (set_supply t (tk_supply t + n))))) end. lia.
    + exact H3.
    + intros mn c X. cbn [set_bal set_supply tk_supply tk_mint] in X |- *. rewrite H2 in X. injection X as <- ->. auto.
  - destruct (deduct_ok _ _ _ _ _ _ H2) as (v & e & _ & _ & _ & D). subst t1. eapply Mv; [| | |exact H3]; reflexivity.
  - destruct (deduct_ok _ _ _ _ _ _ H2) as (v & e & _ & _ & _ & D). subst t1. eapply Mv; [| | |exact H3]; reflexivity.
  - destruct (deduct_ok _ _ _ _ _ _ H1) as (v & e & _ & _ & _ & D). subst t1.
    destruct (De _ _ _ _ H2) as [D1 D2]. 
    change (sum_balances (set_allow t (<[(o, s) := (v - n, e)]> (tk_allow t)))) with (sum_balances t) in D2.
    apply debit_ok in H2 as [_ ->]. split.
    + match goal with |- tk_supply (set_supply ?T _) = _ => change (tk_supply t - n = sum_balances T) end. lia.
    + cbn [set_supply tk_supply]. lia.
    + intros mn c X. specialize (Cp mn c X). cbn [set_supply tk_supply]. lia.
  - split; auto. intros mn c X. cbn [set_mint tk_mint tk_supply] in X |- *.
    destruct new; [|discriminate]. injection X as <- ->. eapply Cp; eauto.
Qed.

Lemma token_ok_init A m t rsp : token_instantiate A m = Ok (t, rsp) -> token_ok t.
Proof.
  intros H. assert (V : token_init_valid A m) by (apply C37_instantiates_iff; eauto).
  pose proof (C37_initial_state _ _ _ _ H) as (_ & _ & _ & Hs & Hm & _).
  destruct V as [_ _ _ _ Vd _ Vs Vm]. split.
  - rewrite Hs. unfold token_instantiate in H. destruct (token_init_ranges m); [|discriminate]. cbn [negb] in H.
    apply rbind_ok in H as ([] & _ & H).
    apply rbind_ok in H as ([bl total] & Ec & H). unfold create_accounts in Ec.
    apply rbind_ok in Ec as ([] & En & Ec).
    apply create_rows_spec in Ec as (C1 & C2 & -> & ->); [|reflexivity].
    apply rbind_ok in H as ([] & _ & H). apply rbind_ok in H as (mint & Em & H).
    injection H as <- <-. unfold sum_balances. cbn [tk_bal].
    assert (X : forall rows b, NoDup (map fst rows) -> (forall a, In a (map fst rows) -> b !! a = None) ->
      msum (fun (_ : string) v => v) (insert_rows rows b) = sum_amounts rows + msum (fun (_ : string) v => v) b).
    { clear. induction rows as [|[k v] rows IH]; intros b Hn Hb; [cbn; lia|].
      cbn in Hn. apply list.NoDup_cons in Hn as [Hni Hn]. rewrite elem_of_list_In in Hni.
      cbn [insert_rows fold_left fst snd sum_amounts fold_right]. fold (sum_amounts rows).
      fold (insert_rows rows (<[k := v]> b)). rewrite IH; [|exact Hn|].
      - rewrite msum_insert_new; [lia|]. apply Hb. left. reflexivity.
      - intros a Ha. rewrite lookup_insert_ne by congruence. apply Hb. right. exact Ha. }
    rewrite X; [rewrite msum_empty; lia|exact Vd|]. intros. apply lookup_empty.
  - rewrite Hs. exact Vs.
  - intros mn c. rewrite Hm, Hs. intros E. rewrite E in Vm. tauto.
Qed.
