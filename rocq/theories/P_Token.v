(** Properties of the token contract's own entry points: C37. *)
From Verif Require Import Base BigNumber CwStd BigNumberFacts Asset Messages PairMath Pair PairFacts Token Examples.
From Coq Require Import Ascii String.
Local Open Scope N_scope.
Ltac Zify.zify_post_hook ::= idtac.

Definition sum_amounts (l : list (string * N)) : N := fold_right (fun r s => snd r + s) 0 l.

(** A letter a-z, A-Z or a hyphen. *)
Definition symbol_char (c : ascii) : Prop :=
  c = "-"%char \/
  (N_of_ascii "a" <= N_of_ascii c /\ N_of_ascii c <= N_of_ascii "z") \/
  (N_of_ascii "A" <= N_of_ascii c /\ N_of_ascii c <= N_of_ascii "Z").

Record token_init_valid (A : api) (m : token_init) : Prop := {
  tv_name : (3 <= String.length (in_name m) <= 50)%nat;
  tv_symbol : (3 <= String.length (in_symbol m) <= 12)%nat;
  tv_chars : forall c, In c (list_ascii_of_string (in_symbol m)) -> symbol_char c;
  tv_decimals : in_decimals m <= 18;
  tv_distinct : NoDup (map fst (in_balances m));
  tv_holders : forall a n, In (a, n) (in_balances m) -> norm A a = Some a;
  tv_sum : sum_amounts (in_balances m) < B128;
  tv_minter : match in_mint m with
              | Some (a, cap) => norm A a = Some a /\
                  match cap with
                  | Some c => sum_amounts (in_balances m) <= c /\ c < B128
                  | None => True
                  end
              | None => True
              end;
}.

Lemma symbol_byte_spec c : symbol_byte_ok c = true <-> symbol_char c.
Proof.
  unfold symbol_byte_ok, symbol_char.
  change (N_of_ascii "a") with 97. change (N_of_ascii "z") with 122.
  change (N_of_ascii "A") with 65. change (N_of_ascii "Z") with 90.
  assert (c = "-"%char <-> N_of_ascii c = 45) as ->.
  { split; [intros ->; reflexivity|]. intros H. rewrite <- (ascii_N_embedding c), H. reflexivity. }
  rewrite negb_true_iff, !andb_false_iff, negb_false_iff, N.eqb_eq, !orb_false_iff, !N.ltb_ge. lia.
Qed.
Lemma all_bytes_spec f s : all_bytes f s = true <-> forall c, In c (list_ascii_of_string s) -> f c = true.
Proof.
  induction s as [|c s IH]; cbn.
  - split; [intros _ ? []|reflexivity].
  - rewrite andb_true_iff, IH. split.
    + intros [H1 H2] x [<-|Hx]; auto.
    + intros H. split; [apply H|intros x Hx; apply H]; auto.
Qed.

Lemma token_validate_spec m : token_validate m = Ok tt <->
  (3 <= String.length (in_name m) <= 50)%nat /\ (3 <= String.length (in_symbol m) <= 12)%nat /\
  (forall c, In c (list_ascii_of_string (in_symbol m)) -> symbol_char c) /\ in_decimals m <= 18.
Proof.
  unfold token_validate, is_valid_name, is_valid_symbol.
  rewrite !rbind_ok. split.
  - intros ([] & E1 & H). apply rbind_ok in H as ([] & E2 & H).
    apply require_ok in E1, E2, H. bools.
    destruct ((String.length (in_symbol m) <? 3)%nat || (12 <? String.length (in_symbol m))%nat) eqn:E; [discriminate|].
    pose proof (proj1 (all_bytes_spec _ _) E2) as E3. bools.
    rewrite orb_false_iff in E1. destruct E1 as [E1 E1'].
    apply orb_false_iff in E as [E E'].
    apply Nat.ltb_ge in E1, E1', E, E'. repeat split; try lia.
    intros c Hc. apply symbol_byte_spec. auto.
  - intros (H1 & H2 & H3 & H4). exists tt. rewrite rbind_ok. split.
    + apply require_ok. apply negb_true_iff, orb_false_iff. split; apply Nat.ltb_ge; lia.
    + exists tt. rewrite !require_ok. split.
      * assert ((String.length (in_symbol m) <? 3)%nat || (12 <? String.length (in_symbol m))%nat = false) as ->.
        { apply orb_false_iff. split; apply Nat.ltb_ge; lia. }
        apply all_bytes_spec. intros c Hc. apply symbol_byte_spec. auto.
      * apply negb_true_iff, N.ltb_ge. exact H4.
Qed.

Definition insert_rows (rows : list (string * N)) (bal : gmap string N) : gmap string N :=
  fold_left (fun b r => <[fst r := snd r]> b) rows bal.

Lemma create_rows_spec A rows : forall bal total b t, total < B128 ->
  create_rows A rows bal total = Ok (b, t) <->
  (forall a n, In (a, n) rows -> norm A a = Some a) /\ total + sum_amounts rows < B128 /\
  b = insert_rows rows bal /\ t = total + sum_amounts rows.
Proof.
  induction rows as [|[a n] rows IH]; intros bal total b t Ht; cbn [create_rows].
  - cbn [sum_amounts fold_right insert_rows fold_left]. split.
    + intros H. injection H as <- <-. repeat split; auto; try lia. intros ? ? [].
    + intros (_ & _ & -> & ->). rewrite N.add_0_r. reflexivity.
  - cbn [sum_amounts fold_right insert_rows fold_left fst snd]. fold (sum_amounts rows).
    split.
    + intros H. apply rbind_ok in H as (a' & Ea & H). apply addr_validate_ok in Ea as [-> Ea].
      apply rbind_ok in H as (t' & Et & H). unfold u128_add in Et.
      destruct (N.ltb_spec (total + n) B128); [|discriminate]. injection Et as <-.
      apply IH in H as (H1 & H2 & -> & ->); [|assumption]. repeat split; auto; try lia.
      intros x y [E|Hin]; [injection E as <- <-; exact Ea|eauto].
    + intros (H1 & H2 & -> & ->).
      rewrite (proj2 (addr_validate_ok A a a)) by (split; [reflexivity|eapply H1; left; reflexivity]).
      cbn [rbind]. unfold u128_add.
      destruct (N.ltb_spec (total + n) B128); [|lia]. cbn [rbind].
      apply IH; [assumption|]. repeat split; auto; try lia. intros x y Hin. eapply H1. right. exact Hin.
Qed.

Lemma insert_rows_lookup rows : NoDup (map fst rows) -> forall bal a,
  insert_rows rows bal !! a =
    match list_find (fun r => fst r = a) rows with Some (_, r) => Some (snd r) | None => bal !! a end.
Proof.
  induction rows as [|[k v] rows IH]; intros Hn bal a; [reflexivity|].
  cbn in Hn. apply list.NoDup_cons in Hn as [Hni Hn].
  cbn [insert_rows fold_left fst snd]. fold (insert_rows rows (<[k:=v]> bal)). rewrite (IH Hn).
  cbn [list_find]. destruct (decide (fst (k, v) = a)) as [<-|Hne]; cbn [fst snd] in *.
  - destruct (list_find (fun r => fst r = k) rows) as [[i r]|] eqn:E.
    + apply list_find_Some in E as (E1 & E2 & _). exfalso. apply Hni. rewrite <- E2.
      apply elem_of_list_In, in_map, elem_of_list_In. eapply elem_of_list_lookup_2; eauto.
    + rewrite lookup_insert. reflexivity.
  - destruct (list_find (fun r => fst r = a) rows) as [[i r]|] eqn:E; cbn [fmap option_fmap option_map prod_map];
      [reflexivity|]. rewrite lookup_insert_ne by exact Hne. reflexivity.
Qed.

Lemma sum_amounts_ge rows a n : In (a, n) rows -> n <= sum_amounts rows.
Proof.
  induction rows as [|r rows IH]; [intros []|]. cbn [In sum_amounts fold_right].
  fold (sum_amounts rows). intros [->|H]; cbn [snd]; [lia|]. specialize (IH H). lia.
Qed.

(** A token instantiates exactly when its message is valid. *)
Theorem C37_instantiates_iff A m :
  (exists t rsp, token_instantiate A m = Ok (t, rsp)) <-> token_init_valid A m.
Proof.
  unfold token_instantiate. split.
  - intros (t & rsp & H). destruct (token_init_ranges m) eqn:Er; [|discriminate]. cbn [negb] in H.
    apply rbind_ok in H as ([] & Ev & H). apply token_validate_spec in Ev as (V1 & V2 & V3 & V4).
    apply rbind_ok in H as ([bal total] & Ec & H). unfold create_accounts in Ec.
    apply rbind_ok in Ec as ([] & En & Ec). apply require_ok, bool_decide_eq_true in En.
    apply create_rows_spec in Ec as (C1 & C2 & -> & ->); [|reflexivity]. rewrite N.add_0_l in *.
    apply rbind_ok in H as ([] & Ecap & H). apply rbind_ok in H as (mint & Em & H).
    split; auto.
    unfold token_init_ranges in Er. apply andb_true_iff in Er as [Er Rc].
    destruct (in_mint m) as [[a cap]|]; [|exact I].
    apply rbind_ok in Em as (a' & Ea & _). apply addr_validate_ok in Ea as [_ Ea]. split; [exact Ea|].
    destruct cap as [c|]; [|exact I]. cbn [get_cap] in Ecap. apply require_ok in Ecap.
    cbn in Rc. unfold u128_ok in Rc. bools. auto.
  - intros [V1 V2 V3 V4 V5 V6 V7 V8].
    assert (token_init_ranges m = true) as ->.
    { unfold token_init_ranges. rewrite !andb_true_iff. repeat split.
      - unfold u8_ok. apply N.ltb_lt. lia.
      - apply forallb_forall. intros [a n] Hin. cbn. unfold u128_ok. apply N.ltb_lt.
        pose proof (sum_amounts_ge _ _ _ Hin). lia.
      - destruct (in_mint m) as [[a [c|]]|]; cbn; try reflexivity. unfold u128_ok. apply N.ltb_lt. tauto. }
    cbn [negb]. rewrite (proj2 (token_validate_spec m)) by auto. cbn [rbind].
    unfold create_accounts. rewrite bool_decide_eq_true_2 by exact V5. cbn [require rbind].
    assert (create_rows A (in_balances m) ∅ 0 = Ok (insert_rows (in_balances m) ∅, sum_amounts (in_balances m))) as ->.
    { apply create_rows_spec; [reflexivity|]. rewrite N.add_0_l. auto. }
    cbn [rbind]. destruct (in_mint m) as [[a cap]|]; cbn [get_cap].
    + destruct V8 as [Va Vc]. rewrite (proj2 (addr_validate_ok A a a)) by auto. cbn [rbind].
      destruct cap as [c|]; cbn [rbind].
      * destruct (N.ltb_spec c (sum_amounts (in_balances m))); [lia|]. cbn. eauto.
      * eauto.
    + cbn. eauto.
Qed.

(** What a fresh token holds: the listed balances, their sum as supply, the
    requested minter, no allowance. *)
Theorem C37_initial_state A m t rsp :
  token_instantiate A m = Ok (t, rsp) ->
  tk_name t = in_name m /\ tk_symbol t = in_symbol m /\ tk_decimals t = in_decimals m /\
  tk_supply t = sum_amounts (in_balances m) /\ tk_mint t = in_mint m /\ tk_allow t = ∅ /\
  (forall a n, In (a, n) (in_balances m) -> balance_of t a = n) /\
  (forall a, ~ In a (map fst (in_balances m)) -> balance_of t a = 0) /\
  rs_msgs rsp = [].
Proof.
  unfold token_instantiate. intros H. destruct (token_init_ranges m); [|discriminate]. cbn [negb] in H.
  apply rbind_ok in H as ([] & _ & H).
  apply rbind_ok in H as ([bal total] & Ec & H). unfold create_accounts in Ec.
  apply rbind_ok in Ec as ([] & En & Ec). apply require_ok, bool_decide_eq_true in En.
  apply create_rows_spec in Ec as (C1 & C2 & -> & ->); [|reflexivity].
  apply rbind_ok in H as ([] & _ & H). apply rbind_ok in H as (mint & Em & H).
  injection H as <- <-. cbn [tk_name tk_symbol tk_decimals tk_supply tk_mint tk_allow rs_msgs].
  rewrite N.add_0_l. repeat split; auto.
  - destruct (in_mint m) as [[a cap]|]; [|congruence].
    apply rbind_ok in Em as (a' & Ea & Em). apply addr_validate_ok in Ea as [-> _]. congruence.
  - intros a n Hin. unfold balance_of. cbn [tk_bal]. rewrite insert_rows_lookup by exact En.
    match goal with |- context [list_find ?P ?l] => destruct (list_find P l) as [[i [a' n']]|] eqn:E end.
    + apply list_find_Some in E as (E1 & E2 & _). cbn in E2. subst a'. change (n' = n).
      apply elem_of_list_lookup_2, elem_of_list_In in E1.
      clear -En Hin E1. induction (in_balances m) as [|[k v] l IH]; [destruct Hin|].
      cbn in En. apply list.NoDup_cons in En as [Hni En]. rewrite elem_of_list_In in Hni.
      destruct Hin as [Hin|Hin], E1 as [E1|E1].
      * congruence.
      * injection Hin as -> ->. exfalso. apply Hni. apply (in_map fst) in E1. exact E1.
      * injection E1 as -> ->. exfalso. apply Hni. apply (in_map fst) in Hin. exact Hin.
      * auto.
    + apply list_find_None in E. rewrite Forall_forall in E. exfalso. eapply E; [exact Hin|reflexivity].
  - intros a Ha. unfold balance_of. cbn [tk_bal]. rewrite insert_rows_lookup by exact En.
    match goal with |- context [list_find ?P ?l] => destruct (list_find P l) as [[i r]|] eqn:E end.
    + apply list_find_Some in E as (E1 & E2 & _). exfalso. apply Ha. rewrite <- E2.
      apply in_map, elem_of_list_In. eapply elem_of_list_lookup_2; eauto.
    + rewrite lookup_empty. reflexivity.
Qed.

Definition ex_token_init : token_init :=
  TokenInit "halo token" "HALO-x" 6 [("alice", 700); ("bob", 300)]%string (Some ("owner"%string, Some 1000)).
Example C37_case :
  (exists t rsp, token_instantiate ex_api ex_token_init = Ok (t, rsp) /\ tk_supply t = 1000) /\
  token_instantiate ex_api (TokenInit "halo token" "HALO1" 6 [] None) = Err (EStd "Ticker symbol is not in expected format") /\
  token_instantiate ex_api (TokenInit "halo token" "HALO" 6 [("alice", 7)]%string (Some ("owner"%string, Some 6)))
    = Err (EStd "Initial supply greater than cap") /\
  token_instantiate ex_api (TokenInit "halo token" "HALO" 6 [("alice", 7); ("alice", 8)]%string None)
    = Err (ECw20 "Duplicate initial balance addresses").
Proof. repeat split; try (vm_compute; reflexivity). eexists _, _. split; vm_compute; reflexivity. Qed.
