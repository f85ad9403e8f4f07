(** What a token answers when asked: the answers are the balances, allowances
    and rights the token acts by, and listing the accounts page by page finds
    every holder (C84). *)
From Verif Require Import Base BigNumber CwStd BigNumberFacts Asset Messages PairMath Pair PairFacts Token Factory Router
  SwapFacts SwapFacts2 P_Swap P_Pair FactoryFacts P_Factory P_Router TokenFacts World WorldInd WorldFacts WorldInv WorldInd2
  Examples WorldExamples P_Ledger P_Registry ExecFacts P_Exec P_Token Replay P_TokenHistory P_Cw20 TokenQueries.
From stdpp Require Import sorting.
From Coq Require Import ZifyN.
Local Open Scope N_scope.
Ltac Zify.zify_post_hook ::= idtac.

(** ** Specification *)

(** A client that lists something page by page: it sends one request per limit
    in [limits], each time asking for what comes after the last entry it has
    seen, and keeps everything it is shown. *)
Fixpoint collect {V} (key : V -> string) (ask : option string -> option N -> res (list V))
    (limits : list (option N)) (start : option string) : res (list V) :=
  match limits with
  | [] => Ok []
  | lim :: rest =>
      match ask start lim with
      | Ok p =>
          match collect key ask rest (match last p with Some x => Some (key x) | None => start end) with
          | Ok q => Ok (p ++ q)
          | Err e => Err e
          end
      | Err e => Err e
      end
  end.

(** Each name comes strictly after the one before. *)
Definition ascending : list string -> Prop := StronglySorted (fun a b => String.compare a b = Lt).

(** What a list of amounts adds up to. *)
Definition added (l : list N) : N := fold_right N.add 0 l.

(** ** Sorting and paging *)
Section paging.
  Context {V : Type}.
  Implicit Types l pre suf : list (string * V).
  Definition entry_lt (x y : string * V) : Prop := str_ltb x.1 y.1 = true.
  Lemma in_order_perm l : in_order l ≡ₚ l.
  Proof. apply merge_sort_Permutation. Qed.
  Lemma in_order_strict l : NoDup (map fst l) -> StronglySorted entry_lt (in_order l).
  Proof.
    intros Hn. assert (Hs : StronglySorted entry_le (in_order l)).
    { assert (Transitive (@entry_le V)) by (intros x y z; unfold entry_le; apply str_leb_trans).
      assert (Total (@entry_le V)) by (intros x y; unfold entry_le; apply str_leb_total).
      apply Sorted_StronglySorted; [assumption|]. apply Sorted_merge_sort; apply _. }
    assert (Hn' : NoDup (map fst (in_order l))).
    { change (NoDup ((in_order l).*1)). rewrite (in_order_perm l). exact Hn. }
    clear Hn. induction Hs as [|x l' Hs IH Hx]; constructor.
    - apply IH. cbn in Hn'. apply NoDup_cons in Hn'. tauto.
    - cbn in Hn'. apply NoDup_cons in Hn' as [Hni _]. apply List.Forall_forall. intros y Hy.
      rewrite List.Forall_forall in Hx. specialize (Hx y Hy). unfold entry_le in Hx. unfold entry_lt.
      apply str_leb_spec in Hx as [Hx|Hx]; [exact Hx|]. exfalso. apply Hni. rewrite Hx.
      apply elem_of_list_In, in_map, Hy.
  Qed.
  Lemma above_last pre k v suf : StronglySorted entry_lt ((pre ++ [(k, v)]) ++ suf) ->
    List.filter (fun e => str_ltb k e.1) ((pre ++ [(k, v)]) ++ suf) = suf.
  Proof.
    intros Hs. rewrite List.filter_app.
    assert (H1 : forall e, In e (pre ++ [(k, v)]) -> str_ltb k e.1 = false).
    { intros e He. apply in_app_or in He as [He|[<-|[]]]; [|apply str_ltb_irrefl].
      destruct (str_ltb k e.1) eqn:E; [|reflexivity].
      assert (X : entry_lt e (k, v)).
      { clear E. induction pre as [|x pre IH]; [destruct He|]. cbn in Hs. inversion Hs as [|? ? Hs' Hx]; subst.
        destruct He as [->|He]; [|auto]. rewrite List.Forall_forall in Hx. apply Hx.
        rewrite <- app_assoc. apply in_or_app. right. left. reflexivity. }
      unfold entry_lt in X. cbn in X. pose proof (str_ltb_trans _ _ _ E X) as Y. rewrite str_ltb_irrefl in Y. discriminate. }
    assert (H2 : forall e, In e suf -> str_ltb k e.1 = true).
    { intros e He. clear H1. induction pre as [|x pre IH]; cbn in Hs; inversion Hs as [|? ? Hs' Hx]; subst.
      - rewrite List.Forall_forall in Hx. exact (Hx e He).
      - apply IH. exact Hs'. }
    assert (F1 : forall l, (forall e, In e l -> str_ltb k e.1 = false) -> List.filter (fun e => str_ltb k e.1) l = []).
    { clear. induction l as [|x l IH]; intros H; [reflexivity|]. cbn. rewrite (H x) by (left; reflexivity). apply IH.
      intros e He. apply H. right. exact He. }
    assert (F2 : forall l, (forall e, In e l -> str_ltb k e.1 = true) -> List.filter (fun e => str_ltb k e.1) l = l).
    { clear. induction l as [|x l IH]; intros H; [reflexivity|]. cbn. rewrite (H x) by (left; reflexivity). f_equal. apply IH.
      intros e He. apply H. right. exact He. }
    rewrite (F1 _ H1), (F2 _ H2). reflexivity.
  Qed.
  Definition at_place l (start : option string) suf : Prop :=
    (start = None /\ in_order l = suf) \/
    (exists pre k v, start = Some k /\ in_order l = (pre ++ [(k, v)]) ++ suf).
  Lemma page_suffix l start suf limit : NoDup (map fst l) -> at_place l start suf ->
    page_of l start limit = take (enum_limit limit) suf.
  Proof.
    intros Hn [(-> & E)|(pre & k & v & -> & E)]; unfold page_of.
    - rewrite E. reflexivity.
    - pose proof (in_order_strict l Hn) as Hs. rewrite E in Hs |- *. rewrite (above_last _ _ _ _ Hs). reflexivity.
  Qed.
  Lemma at_place_next l start suf n : at_place l start suf ->
    at_place l (match last (take n suf) with Some x => Some x.1 | None => start end) (drop n suf).
  Proof.
    intros H. destruct (last (take n suf)) as [[k v]|] eqn:El.
    - right. apply last_Some in El as (p & Ep).
      assert (Es : suf = (p ++ [(k, v)]) ++ drop n suf) by (rewrite <- Ep; symmetry; apply take_drop).
      destruct H as [(-> & E)|(pre & k' & v' & -> & E)].
      + exists p, k, v. split; [reflexivity|]. rewrite E. exact Es.
      + exists ((pre ++ [(k', v')]) ++ p), k, v. split; [reflexivity|]. rewrite E, Es at 1. rewrite <- !app_assoc. reflexivity.
    - apply last_None in El. assert (drop n suf = suf) as ->; [|exact H].
      rewrite <- (take_drop n suf) at 2. rewrite El. reflexivity.
  Qed.
  (** the general form of paging: [f] renders an entry, [key] reads its name *)
  Lemma collect_spec {W} (f : string * V -> W) (key : W -> string) l limits :
    (forall e, key (f e) = e.1) -> NoDup (map fst l) -> forall start suf, at_place l start suf ->
    exists n, collect key (fun s lim => Ok (map f (page_of l s lim))) limits start = Ok (map f (take n suf)) /\
      (List.Forall (fun lim => lim <> Some 0) limits -> (Datatypes.length limits <= n)%nat).
  Proof.
    intros Hk Hn. induction limits as [|lim limits IH]; intros start suf Hp; cbn [collect].
    - exists 0%nat. split; [destruct suf; reflexivity|]. cbn. lia.
    - rewrite (page_suffix l start suf lim Hn Hp).
      assert (El : match last (map f (take (enum_limit lim) suf)) with Some x => Some (key x) | None => start end =
        match last (take (enum_limit lim) suf) with Some x => Some x.1 | None => start end).
      { change (map f (take (enum_limit lim) suf)) with (f <$> take (enum_limit lim) suf). rewrite fmap_last.
        destruct (last (take (enum_limit lim) suf)) as [x|]; cbn [fmap option_fmap option_map]; [rewrite Hk|]; reflexivity. }
      rewrite El. destruct (IH _ _ (at_place_next l start suf (enum_limit lim) Hp)) as (n & -> & Hl).
      exists (enum_limit lim + n)%nat. split.
      + f_equal. rewrite <- map_app. f_equal. rewrite <- take_take_drop. reflexivity.
      + intros HF. inversion HF as [|? ? H1 H2]; subst. specialize (Hl H2). cbn [Datatypes.length].
        assert (0 < enum_limit lim)%nat; [|lia]. unfold enum_limit. destruct lim as [x|]; cbn [default from_option id]; [|lia].
        assert (x <> 0) by congruence. lia.
  Qed.
  Lemma ascending_take l n : NoDup (map fst l) -> ascending (map fst (take n (in_order l))).
  Proof.
    intros Hn. pose proof (in_order_strict l Hn) as Hs. revert n. unfold ascending.
    induction Hs as [|x l' Hs IH Hx]; intros n; destruct n; cbn; try constructor; [apply IH|].
    apply List.Forall_forall. intros y Hy. apply in_map_iff in Hy as (e & <- & He). rewrite List.Forall_forall in Hx. apply str_ltb_spec, Hx.
    rewrite <- (take_drop n l'). apply in_or_app. left. exact He.
  Qed.
End paging.

(** ** Invariant: the names under which balances and allowances are kept *)
Record named (A : api) (ts : token_state) : Prop := {
  nm_bal : forall a, is_Some (tk_bal ts !! a) -> norm A a = Some a;
  nm_spender : forall o x, is_Some (tk_allow ts !! (o, x)) -> norm A x = Some x;
}.
Lemma ins_bal (A : api) (m : gmap string uint128) a n : norm A a = Some a -> (forall x, is_Some (m !! x) -> norm A x = Some x) ->
  forall x, is_Some (<[a := n]> m !! x) -> norm A x = Some x.
Proof. intros Ha H x. rewrite lookup_insert_is_Some'. intros [<-|Hx]; auto. Qed.
Lemma balance_key ts a : 0 < balance_of ts a -> is_Some (tk_bal ts !! a).
Proof. unfold balance_of. destruct (tk_bal ts !! a); [eauto|]. cbn. lia. Qed.

Lemma named_call A b t s m t' rsp : named A t -> token_execute A b t s m = Ok (t', rsp) -> named A t'.
Proof.
  intros [N1 N2] E. unfold token_execute in E. destruct (negb (jmsg_ranges m)); [discriminate|].
  assert (Db : forall t0 t1 a n, (forall x, is_Some (tk_bal t0 !! x) -> norm A x = Some x) -> debit t0 a n = Ok t1 ->
    0 < n \/ norm A a = Some a -> (forall x, is_Some (tk_bal t1 !! x) -> norm A x = Some x) /\ tk_allow t1 = tk_allow t0).
  { intros t0 t1 a n H D Hn. apply debit_ok in D as [D ->]. split; [|reflexivity]. cbn [set_bal tk_bal]. apply ins_bal; [|exact H].
    destruct Hn as [Hn|Hn]; [|exact Hn]. apply H, balance_key. lia. }
  assert (Cr : forall t0 t1 a n, (forall x, is_Some (tk_bal t0 !! x) -> norm A x = Some x) -> credit t0 a n = Ok t1 ->
    norm A a = Some a -> (forall x, is_Some (tk_bal t1 !! x) -> norm A x = Some x) /\ tk_allow t1 = tk_allow t0).
  { intros t0 t1 a n H D Ha. apply credit_ok in D as [D ->]. split; [|reflexivity]. cbn [set_bal tk_bal]. apply ins_bal; assumption. }
  assert (De : forall o n t1, deduct_allowance t o s b n = Ok t1 ->
    tk_bal t1 = tk_bal t /\ forall o' x, is_Some (tk_allow t1 !! (o', x)) -> norm A x = Some x).
  { intros o n t1 D. apply deduct_ok in D as (v & e & D1 & D2 & D3 & ->). split; [reflexivity|]. cbn [set_allow tk_allow].
    intros o' x. rewrite lookup_insert_is_Some'. intros [Ei|Hx]; [injection Ei as <- <-|]; eapply N2; eauto. }
  destruct m; try discriminate.
  - unfold token_transfer in E. apply rbind_ok in E as ([] & Ez & E). apply nonzero_ok in Ez.
    apply rbind_ok in E as (r & Ev & E). apply addr_validate_ok in Ev as [-> Hv].
    apply rbind_ok in E as (t1 & E1 & E). apply rbind_ok in E as (t2 & E2 & E). injection E as <- <-.
    destruct (Db _ _ _ _ N1 E1 (or_introl Ez)) as [B1 A1]. destruct (Cr _ _ _ _ B1 E2 Hv) as [B2 A2].
    split; [exact B2|]. rewrite A2, A1. exact N2.
  - unfold token_burn in E. apply rbind_ok in E as ([] & Ez & E). apply nonzero_ok in Ez.
    apply rbind_ok in E as (t1 & E1 & E). apply rbind_ok in E as (s2 & E2 & E). injection E as <- <-.
    destruct (Db _ _ _ _ N1 E1 (or_introl Ez)) as [B1 A1].
    split; [exact B1|]. cbn [set_supply tk_allow]. rewrite A1. exact N2.
  - unfold token_send in E. apply rbind_ok in E as ([] & Ez & E). apply nonzero_ok in Ez.
    apply rbind_ok in E as (r & Ev & E). apply addr_validate_ok in Ev as [-> Hv].
    apply rbind_ok in E as (t1 & E1 & E). apply rbind_ok in E as (t2 & E2 & E). injection E as <- <-.
    destruct (Db _ _ _ _ N1 E1 (or_introl Ez)) as [B1 A1]. destruct (Cr _ _ _ _ B1 E2 Hv) as [B2 A2].
    split; [exact B2|]. rewrite A2, A1. exact N2.
  - unfold token_increase in E. apply rbind_ok in E as (sp & Ev & E). apply addr_validate_ok in Ev as [-> Hv].
    apply rbind_ok in E as ([] & En & E).
    destruct (default (0, ENever) (tk_allow t !! (s, spender))) as [v old].
    apply rbind_ok in E as (exp & _ & E). apply rbind_ok in E as (v' & _ & E). injection E as <- <-.
    split; [exact N1|]. cbn [set_allow tk_allow]. intros o x. rewrite lookup_insert_is_Some'. intros [Ei|Hx]; [congruence|eauto].
  - unfold token_decrease in E. apply rbind_ok in E as (sp & Ev & E). apply addr_validate_ok in Ev as [-> Hv].
    apply rbind_ok in E as ([] & En & E).
    destruct (tk_allow t !! (s, spender)) as [[v old]|] eqn:Ea; [|discriminate].
    destruct (amount <? v).
    + apply rbind_ok in E as (exp & _ & E). injection E as <- <-.
      split; [exact N1|]. cbn [set_allow tk_allow]. intros o x. rewrite lookup_insert_is_Some'. intros [Ei|Hx]; [congruence|eauto].
    + injection E as <- <-. split; [exact N1|]. cbn [set_allow tk_allow]. intros o x Hx. rewrite lookup_delete_is_Some in Hx. destruct Hx; eauto.
  - unfold token_transfer_from in E. apply rbind_ok in E as (r & Ev & E). apply addr_validate_ok in Ev as [-> Hv].
    apply rbind_ok in E as (o & Eo & E). apply addr_validate_ok in Eo as [-> Ho].
    apply rbind_ok in E as (t1 & E1 & E). apply rbind_ok in E as (t2 & E2 & E). apply rbind_ok in E as (t3 & E3 & E). injection E as <- <-.
    destruct (De _ _ _ E1) as [B1 A1]. rewrite <- B1 in N1. destruct (Db _ _ _ _ N1 E2 (or_intror Ho)) as [B2 A2].
    destruct (Cr _ _ _ _ B2 E3 Hv) as [B3 A3]. split; [exact B3|]. rewrite A3, A2. exact A1.
  - unfold token_send_from in E. apply rbind_ok in E as (r & Ev & E). apply addr_validate_ok in Ev as [-> Hv].
    apply rbind_ok in E as (o & Eo & E). apply addr_validate_ok in Eo as [-> Ho].
    apply rbind_ok in E as (t1 & E1 & E). apply rbind_ok in E as (t2 & E2 & E). apply rbind_ok in E as (t3 & E3 & E). injection E as <- <-.
    destruct (De _ _ _ E1) as [B1 A1]. rewrite <- B1 in N1. destruct (Db _ _ _ _ N1 E2 (or_intror Ho)) as [B2 A2].
    destruct (Cr _ _ _ _ B2 E3 Hv) as [B3 A3]. split; [exact B3|]. rewrite A3, A2. exact A1.
  - unfold token_burn_from in E.
    apply rbind_ok in E as (o & Eo & E). apply addr_validate_ok in Eo as [-> Ho].
    apply rbind_ok in E as (t1 & E1 & E). apply rbind_ok in E as (t2 & E2 & E). apply rbind_ok in E as (s3 & E3 & E). injection E as <- <-.
    destruct (De _ _ _ E1) as [B1 A1]. rewrite <- B1 in N1. destruct (Db _ _ _ _ N1 E2 (or_intror Ho)) as [B2 A2].
    split; [exact B2|]. cbn [set_supply tk_allow]. rewrite A2. exact A1.
  - unfold token_mint in E. apply rbind_ok in E as ([] & Ez & E). destruct (tk_mint t) as [[mn cap]|]; [|discriminate].
    apply rbind_ok in E as ([] & _ & E). apply rbind_ok in E as (s2 & _ & E). apply rbind_ok in E as ([] & _ & E).
    apply rbind_ok in E as (r & Ev & E). apply addr_validate_ok in Ev as [-> Hv].
    apply rbind_ok in E as (t1 & E1 & E). injection E as <- <-.
    destruct (Cr (set_supply t s2) _ _ _ N1 E1 Hv) as [B1 A1]. split; [exact B1|]. rewrite A1. exact N2.
  - unfold token_update_minter in E. destruct (tk_mint t) as [[mn cap]|]; [|discriminate].
    apply rbind_ok in E as ([] & _ & E). apply rbind_ok in E as (mm & _ & E). injection E as <- <-. split; [exact N1|exact N2].
Qed.

Lemma named_init A m ts rsp : token_instantiate A m = Ok (ts, rsp) -> named A ts.
Proof.
  unfold token_instantiate. destruct (token_init_ranges m); [|discriminate]. cbn [negb]. intros H.
  apply rbind_ok in H as ([] & _ & H). apply rbind_ok in H as ([bl total] & Ec & H). unfold create_accounts in Ec.
  apply rbind_ok in Ec as ([] & _ & Ec). apply create_rows_spec in Ec as (C1 & _ & -> & _); [|reflexivity].
  apply rbind_ok in H as ([] & _ & H). apply rbind_ok in H as (mint & _ & H). injection H as <- <-. split; cbn [tk_bal tk_allow].
  - assert (X : forall rows b, (forall a n, In (a, n) rows -> norm A a = Some a) -> (forall x, is_Some (b !! x) -> norm A x = Some x) ->
      forall x, is_Some (insert_rows rows b !! x) -> norm A x = Some x).
    { clear. induction rows as [|[k v] rows IH]; intros b Hr Hb; cbn [insert_rows fold_left fst snd]; [exact Hb|].
      apply IH; [intros a n Hin; apply (Hr a n); right; exact Hin|]. apply ins_bal; [|exact Hb]. apply (Hr k v). left. reflexivity. }
    apply X; [exact C1|]. intros x [n Hx]. rewrite lookup_empty in Hx. discriminate.
  - intros o x [n Hx]. rewrite lookup_empty in Hx. discriminate.
Qed.
Lemma reachable_from_genesis C w : reachable C w -> exists b blk lg, history C (World b ∅ 0 blk) lg w.
Proof.
  induction 1 as [b blk|w s m w' lg2 H (b & blk & lg & IH) Hx|w blk H (b & blk0 & lg & IH) H1 H2].
  - exists b, blk, []. constructor.
  - exists b, blk, (lg ++ lg2). econstructor; eauto.
  - exists b, blk0, lg. constructor; auto.
Qed.
Lemma reachable_named C w t ts : chain_ok C -> reachable C w -> tok_at w t ts -> named (ch_api C) ts.
Proof.
  intros OK Hr Ht. destruct (reachable_from_genesis C w Hr) as (b & blk & lg & Hh).
  destruct (history_replay C _ lg w t ts OK (reach_genesis C b blk) Hh Ht) as (ts0 & [Hs|(_ & m & rsp & Hi)] & P).
  - unfold tok_at, state_at in Hs. cbn [w_insts] in Hs. rewrite lookup_empty in Hs. discriminate.
  - apply named_init in Hi. clear Hh Ht. induction P as [|ts0 e lg ts' Hn P IH|ts0 e rsp1 ts1 lg ts' He Hte Hx P IH]; [exact Hi|auto|].
    apply IH. eapply named_call; eauto.
Qed.

(** ** C84 *)


Lemma added_perm l l' : l ≡ₚ l' -> added l = added l'.
Proof. unfold added. induction 1; cbn; lia. Qed.
Lemma sum_answers ts l : l ≡ₚ map fst (map_to_list (tk_bal ts)) -> added (map (balance_of ts) l) = sum_balances ts.
Proof.
  intros H. assert (E : map (balance_of ts) l ≡ₚ map snd (map_to_list (tk_bal ts))).
  { change (balance_of ts <$> l ≡ₚ map snd (map_to_list (tk_bal ts))). rewrite H.
    assert (X : forall k : list (string * uint128), (forall e, In e k -> balance_of ts e.1 = e.2) -> map (balance_of ts) (map fst k) = map snd k).
    { clear. induction k as [|e k IH]; intros Hk; [reflexivity|]. cbn. rewrite (Hk e) by (left; reflexivity). f_equal. apply IH.
      intros x Hx. apply Hk. right. exact Hx. }
    change (balance_of ts <$> map fst (map_to_list (tk_bal ts))) with (map (balance_of ts) (map fst (map_to_list (tk_bal ts)))).
    rewrite X; [reflexivity|]. intros [a n] Hin. apply elem_of_list_In, elem_of_map_to_list in Hin. unfold balance_of. cbn. 
    change uint128 with N in *. rewrite Hin. reflexivity. }
  rewrite (added_perm _ _ E). unfold sum_balances, msum, map_fold, added. cbn.
  assert (X : forall k : list (string * N), fold_right N.add 0 (map snd k) = foldr (uncurry (fun (_ : string) v s => v + s)) 0 k).
  { clear. induction k as [|[a n] k IH]; cbn; [reflexivity|]. rewrite IH. reflexivity. }
  apply X.
Qed.
Lemma bal_nodup ts : NoDup (map fst (map_to_list (tk_bal ts))).
Proof. apply (NoDup_fst_map_to_list (tk_bal ts)). Qed.
Lemma accounts_ask ts : token_all_accounts ts = fun s lim => Ok (map fst (page_of (map_to_list (tk_bal ts)) s lim)).
Proof. reflexivity. Qed.
Lemma size_len {V} (l : list (string * V)) : Datatypes.length (in_order l) = Datatypes.length l.
Proof. apply Permutation_length, in_order_perm. Qed.

(** Listing the accounts of a token: with requests of any sizes but zero, and at
    least as many as there are accounts, a client sees accounts in order, each
    once; every account that holds any of the token is among them; each can be
    asked for its balance, and the answers add up to the total supply. *)
Theorem C84_accounts C w t ts limits : chain_ok C -> reachable C w -> tok_at w t ts ->
  List.Forall (fun lim => lim <> Some 0) limits -> (size (tk_bal ts) <= Datatypes.length limits)%nat ->
  exists l amounts info,
    collect id (token_all_accounts ts) limits None = Ok l /\
    ascending l /\
    (forall a, 0 < balance_of ts a -> In a l) /\
    Forall2 (fun a n => token_query_balance (ch_api C) ts a = Ok n) l amounts /\
    token_query_info ts = Ok info /\ ti_total_supply info = added amounts.
Proof.
  intros OK Hr Ht Hl Hn. pose proof (reachable_named C w t ts OK Hr Ht) as [Nb _].
  pose proof (mn_tokens _ _ (reachable_main C OK w Hr) _ _ Ht) as [Hs _ _].
  destruct (collect_spec fst id (map_to_list (tk_bal ts)) limits (fun e => eq_refl) (bal_nodup ts) None (in_order (map_to_list (tk_bal ts)))) as (n & E & L).
  { left. split; reflexivity. }
  specialize (L Hl). rewrite <- accounts_ask in E. rewrite take_ge in E.
  2:{ rewrite size_len. change (size (tk_bal ts)) with (Datatypes.length (map_to_list (tk_bal ts))) in Hn. lia. }
  assert (P : map fst (in_order (map_to_list (tk_bal ts))) ≡ₚ map fst (map_to_list (tk_bal ts))).
  { apply Permutation_map, in_order_perm. }
  exists (map fst (in_order (map_to_list (tk_bal ts)))), (map (balance_of ts) (map fst (in_order (map_to_list (tk_bal ts))))).
  eexists. split; [exact E|]. split; [|split; [|split; [|split; [reflexivity|]]]].
  - pose proof (ascending_take (map_to_list (tk_bal ts)) (Datatypes.length (in_order (map_to_list (tk_bal ts)))) (bal_nodup ts)) as X.
    rewrite take_ge in X by lia. exact X.
  - intros a Ha. apply balance_key in Ha as [v Hv]. apply elem_of_list_In. rewrite P.
    apply elem_of_list_In, in_map_iff. exists (a, v). split; [reflexivity|]. apply elem_of_list_In, elem_of_map_to_list. exact Hv.
  - assert (X : forall a, In a (map fst (in_order (map_to_list (tk_bal ts)))) -> norm (ch_api C) a = Some a).
    { intros a Ha. apply elem_of_list_In in Ha. rewrite P in Ha. apply elem_of_list_In, in_map_iff in Ha as ([a' v] & <- & Ha).
      apply elem_of_list_In, elem_of_map_to_list in Ha. apply Nb. cbn. eauto. }
    revert X. generalize (map fst (in_order (map_to_list (tk_bal ts)))). induction l as [|a l IH]; intros X; cbn [map]; constructor.
    + unfold token_query_balance. rewrite (proj2 (addr_validate_ok _ a a)); [reflexivity|]. split; [reflexivity|]. apply X. left. reflexivity.
    + apply IH. intros x Hx. apply X. right. exact Hx.
  - cbn [ti_total_supply]. rewrite (sum_answers ts _ P). exact Hs.
Qed.

(** However few requests are made, nothing is seen twice, and nobody is skipped:
    the accounts seen are the first ones.  When a further request (for at least
    one account) comes back empty, everything has been seen. *)
Theorem C84_accounts_end ts limits l lim : List.Forall (fun lim => lim <> Some 0) limits ->
  collect id (token_all_accounts ts) limits None = Ok l ->
  ascending l /\
  (forall a b, In b l -> 0 < balance_of ts a -> String.compare a b = Lt -> In a l) /\
  (lim <> Some 0 -> token_all_accounts ts (last l) lim = Ok [] -> forall a, 0 < balance_of ts a -> In a l).
Proof.
  intros Hl E. pose proof (bal_nodup ts) as Nd. set (k := map_to_list (tk_bal ts)) in *.
  destruct (collect_spec fst id k limits (fun e => eq_refl) Nd None (in_order k)) as (n & E' & _).
  { left. split; reflexivity. }
  rewrite accounts_ask in E. unfold k in E'. rewrite E' in E. fold k in E. injection E as <-.
  assert (Key : forall a, 0 < balance_of ts a -> exists v, In (a, v) (in_order k)).
  { intros a Ha. apply balance_key in Ha as [v Hv]. exists v. apply elem_of_list_In. rewrite (in_order_perm k).
    apply elem_of_map_to_list. exact Hv. }
  split; [apply ascending_take; exact Nd|]. split.
  - intros a b Hb Ha Hlt. apply str_ltb_spec in Hlt. destruct (Key a Ha) as (v & Hin). rewrite <- (take_drop n (in_order k)) in Hin.
    apply in_app_or in Hin as [Hin|Hin]; [apply in_map_iff; exists (a, v); auto|]. exfalso.
    pose proof (in_order_strict k Nd) as Hs. rewrite <- (take_drop n (in_order k)) in Hs.
    apply in_map_iff in Hb as (e & <- & Hb).
    assert (X : entry_lt e (a, v)).
    { clear - Hs Hb Hin. induction (take n (in_order k)) as [|x p IH]; [destruct Hb|]. cbn in Hs. inversion Hs as [|? ? Hs' Hx]; subst.
      destruct Hb as [->|Hb]; [|auto]. rewrite List.Forall_forall in Hx. apply Hx. apply in_or_app. right. exact Hin. }
    unfold entry_lt in X. cbn in X. pose proof (str_ltb_trans _ _ _ X Hlt) as Y. rewrite str_ltb_irrefl in Y. discriminate.
  - intros Hlim E a Ha. unfold token_all_accounts in E. injection E as E. fold k in E.
    assert (Hp : at_place k (last (map fst (take n (in_order k)))) (drop n (in_order k))).
    { pose proof (at_place_next k None (in_order k) n (or_introl (conj eq_refl eq_refl))) as Hp.
      change (map fst (take n (in_order k))) with (fst <$> take n (in_order k)). rewrite fmap_last.
      destruct (last (take n (in_order k))); exact Hp. }
    rewrite (page_suffix k _ _ lim Nd Hp) in E.
    assert (D : drop n (in_order k) = []).
    { apply map_eq_nil in E. destruct (drop n (in_order k)) as [|x r]; [reflexivity|]. destruct (enum_limit lim) as [|z] eqn:Ez; [|discriminate].
      exfalso. apply Hlim. unfold enum_limit in Ez. destruct lim as [y|]; cbn [default from_option id] in Ez; [|discriminate]. f_equal. lia. }
    destruct (Key a Ha) as (v & Hin). rewrite <- (take_drop n (in_order k)), D, app_nil_r in Hin. apply in_map_iff. exists (a, v). auto.
Qed.

(** A page is never longer than was asked for, nor than 30 (10 if no limit is named). *)
Theorem C84_page_size ts start limit l : token_all_accounts ts start limit = Ok l ->
  N.of_nat (Datatypes.length l) <= N.min (default 10 limit) 30.
Proof.
  unfold token_all_accounts. intros H. injection H as <-. rewrite map_length. unfold page_of. rewrite take_length. unfold enum_limit. lia.
Qed.

(** Listing the allowances an owner has given: the same, and each entry is what
    the Allowance query answers. *)
Lemma allow_entry ts o x v e : In (x, (v, e)) (allowances_of ts o) <-> tk_allow ts !! (o, x) = Some (v, e).
Proof.
  unfold allowances_of. rewrite in_map_iff. split.
  - intros ([[o' x'] z] & E & Hin). cbn in E. injection E as -> ->. apply filter_In in Hin as [Hin Hb].
    apply elem_of_list_In, elem_of_map_to_list in Hin. apply bool_decide_eq_true in Hb. cbn in Hb. subst o'. exact Hin.
  - intros H. exists ((o, x), (v, e)). split; [reflexivity|]. apply filter_In. split.
    + apply elem_of_list_In, elem_of_map_to_list. exact H.
    + apply bool_decide_eq_true. reflexivity.
Qed.
Lemma allow_nodup ts o : NoDup (map fst (allowances_of ts o)).
Proof.
  unfold allowances_of. pose proof (NoDup_fst_map_to_list (tk_allow ts)) as H.
  assert (X : forall l : list ((string * string) * (uint128 * expiration)), NoDup (map fst l) ->
    NoDup (map fst (map (fun e : (string * string) * (uint128 * expiration) => (e.1.2, e.2)) (List.filter (fun e => bool_decide (e.1.1 = o)) l)))).
  { clear. induction l as [|[[o' x'] z] l IH]; intros H; cbn [map List.filter]; [constructor|].
    cbn [map fst] in H. apply NoDup_cons in H as [H1 H2]. specialize (IH H2). cbn [fst snd].
    destruct (bool_decide (o' = o)) eqn:E; [|exact IH]. apply bool_decide_eq_true in E. subst o'. cbn [map fst snd].
    apply NoDup_cons. split; [|exact IH]. intros Hin. apply H1. apply elem_of_list_In in Hin.
    apply in_map_iff in Hin as ([y z'] & Ey & Hin). cbn in Ey. subst y. apply in_map_iff in Hin as ([[o2 x2] z2] & E2 & Hin).
    cbn in E2. injection E2 as -> ->. apply filter_In in Hin as [Hin Hb]. apply bool_decide_eq_true in Hb. cbn in Hb. subst o2.
    apply elem_of_list_In, in_map_iff. exists ((o, x'), z'). auto. }
  apply X. exact H.
Qed.
Theorem C84_allowances C w t ts o limits : chain_ok C -> reachable C w -> tok_at w t ts -> norm (ch_api C) o = Some o ->
  List.Forall (fun lim => lim <> Some 0) limits -> (size (tk_allow ts) <= Datatypes.length limits)%nat ->
  exists l, collect fst (token_all_allowances (ch_api C) ts o) limits None = Ok l /\
    ascending (map fst l) /\
    (forall x v e, In (x, (v, e)) l -> token_query_allowance (ch_api C) ts o x = Ok (v, e)) /\
    (forall x v e, token_query_allowance (ch_api C) ts o x = Ok (v, e) -> 0 < v -> In (x, (v, e)) l).
Proof.
  intros OK Hr Ht Ho Hl Hn. pose proof (reachable_named C w t ts OK Hr Ht) as [_ Na].
  pose proof (allow_nodup ts o) as Nd.
  destruct (collect_spec id fst (allowances_of ts o) limits (fun e => eq_refl) Nd None (in_order (allowances_of ts o))) as (n & E & L).
  { left. split; reflexivity. }
  specialize (L Hl). rewrite !map_id in E. rewrite take_ge in E.
  2:{ rewrite size_len. unfold allowances_of. rewrite map_length.
      assert (X : forall (p : (string * string) * (uint128 * expiration) -> bool) l, (Datatypes.length (List.filter p l) <= Datatypes.length l)%nat).
      { clear. induction l as [|x l IH]; cbn; [lia|]. destruct (p x); cbn; lia. }
      specialize (X (fun e => bool_decide (e.1.1 = o)) (map_to_list (tk_allow ts))).
      change (size (tk_allow ts)) with (Datatypes.length (map_to_list (tk_allow ts))) in Hn. lia. }
  assert (Va : forall x, norm (ch_api C) x = Some x -> addr_validate (ch_api C) x = Ok x).
  { intros x Hx. apply addr_validate_ok. auto. }
  assert (Mem : forall y, In y (in_order (allowances_of ts o)) <-> In y (allowances_of ts o)).
  { intros y. rewrite <- !elem_of_list_In. rewrite (in_order_perm (allowances_of ts o)). reflexivity. }
  exists (in_order (allowances_of ts o)). split; [|split; [|split]].
  - rewrite <- E. clear E. generalize (@None string). induction limits as [|lim limits IH]; intros start; [reflexivity|]. cbn [collect].
    unfold token_all_allowances at 1. rewrite (Va o Ho). cbn [rbind]. rewrite map_id.
    inversion Hl as [|? ? Hl1 Hl2]; subst.
    assert (X : forall limits start, collect fst (token_all_allowances (ch_api C) ts o) limits start =
      collect fst (fun s lim => Ok (map id (page_of (allowances_of ts o) s lim))) limits start).
    { clear IH. intros ls. induction ls as [|lm ls IH]; intros st; [reflexivity|]. cbn [collect].
      unfold token_all_allowances at 1. rewrite (Va o Ho). cbn [rbind]. rewrite map_id, IH. reflexivity. }
    rewrite X. reflexivity.
  - pose proof (ascending_take (allowances_of ts o) (Datatypes.length (in_order (allowances_of ts o))) Nd) as X.
    rewrite take_ge in X by lia. exact X.
  - intros x v e Hin. apply Mem, allow_entry in Hin. unfold token_query_allowance.
    rewrite (Va o Ho), (Va x) by (apply (Na o); eauto). cbn [rbind]. change uint128 with N in *. rewrite Hin. reflexivity.
  - intros x v e Hq Hv. unfold token_query_allowance in Hq. apply rbind_ok in Hq as (o' & Eo & Hq). apply addr_validate_ok in Eo as [-> _].
    apply rbind_ok in Hq as (x' & Ex & Hq). apply addr_validate_ok in Ex as [-> _]. injection Hq as Hq.
    apply Mem, allow_entry. match type of Hq with default _ ?q = _ => destruct q as [z|] eqn:Ez end; cbn [default from_option id] in Hq; [subst z; first [exact Ez|reflexivity]|].
    injection Hq as <- _. lia.
Qed.

(** The answers are what the token acts by.  If Allowance answers (v, e), the
    spender can move exactly the amounts up to v, while e has not passed, of what
    Balance says the owner has. *)
Theorem C84_allowance_is_spendable C w t ts o x r n v e bal : chain_ok C -> reachable C w -> tok_at w t ts ->
  token_query_allowance (ch_api C) ts o x = Ok (v, e) -> token_query_balance (ch_api C) ts o = Ok bal ->
  norm (ch_api C) r = Some r -> 0 < n ->
  (exists w', succeeds C w x (MExecute t (JTransferFrom o r n) []) w') <-> pending (w_block w) e /\ n <= v /\ n <= bal.
Proof.
  intros OK Hr Ht Ha Hb Hv Hn. unfold token_query_allowance in Ha. apply rbind_ok in Ha as (o' & Eo & Ha). apply addr_validate_ok in Eo as [-> Ho].
  apply rbind_ok in Ha as (x' & Ex & Ha). apply addr_validate_ok in Ex as [-> Hx]. injection Ha as Ha.
  unfold token_query_balance in Hb. rewrite (proj2 (addr_validate_ok _ o o) (conj eq_refl Ho)) in Hb. cbn [rbind] in Hb. injection Hb as Hb.
  rewrite (C63_token_call_iff C w t ts x (JTransferFrom o r n) OK Hr Ht I). cbn [accepted]. unfold may_spend. subst bal.
  pose proof (mn_tokens _ _ (reachable_main C OK w Hr) _ _ Ht) as [Hs Hg _]. pose proof (balance_le_sum ts o) as Lb.
  assert (Eb : B128 = 2 ^ 128) by reflexivity.
  split.
  - intros (_ & _ & _ & (v' & e' & Hal & Hp & Hle) & Hbal). change uint128 with N in *. rewrite Hal in Ha. cbn in Ha. injection Ha as -> ->. auto.
  - intros (Hp & Hle & Hbal). split; [lia|]. split; [exact Ho|]. split; [exact Hv|]. split; [|exact Hbal].
    exists v, e. split; [|auto]. match type of Ha with default _ ?q = _ => destruct q as [z|] eqn:Ez end; cbn [default from_option id] in Ha; [subst z; first [exact Ez|reflexivity]|].
    injection Ha as <- _. lia.
Qed.

(** Minter answers who can mint and how far. *)
Theorem C84_minter_can_mint C w t ts s r n : chain_ok C -> reachable C w -> tok_at w t ts -> norm (ch_api C) r = Some r -> 0 < n ->
  (exists w', succeeds C w s (MExecute t (JMint r n) []) w') <->
  exists cap info, token_query_minter ts = Ok (Some (s, cap)) /\ token_query_info ts = Ok info /\
    ti_total_supply info + n < 2 ^ 128 /\ forall c, cap = Some c -> ti_total_supply info + n <= c.
Proof.
  intros OK Hr Ht Hv Hn. rewrite (C63_token_call_iff C w t ts s (JMint r n) OK Hr Ht I). cbn [accepted]. unfold token_query_minter, token_query_info.
  split.
  - intros (_ & _ & H1 & cap & Hm & Hc). exists cap. eexists. split; [f_equal; exact Hm|]. split; [reflexivity|]. cbn [ti_total_supply]. auto.
  - intros (cap & info & Hm & Hi & H1 & Hc). injection Hi as <-. injection Hm as Hm. cbn [ti_total_supply] in *. eauto 6.
Qed.

(** Token #1 of the example after alice allows bob 500 and the router 70 (the
    pairs #4 and #6 have allowances already): four
    accounts are listed with requests for 1, 2, the default and 30 entries; the
    balances add up to the supply; all four allowances are found. *)
Example C84_case :
  let w := after ex_world [(true, x_call "#1" (JIncreaseAllowance "bob" 500 (Some (EAtHeight 200))));
                           (true, x_call "#1" (JIncreaseAllowance "#3" 70 None))]%string in
  let ts := tok_of w "#1" in
  history ex_chain ex_world (log_of ex_world [(true, x_call "#1" (JIncreaseAllowance "bob" 500 (Some (EAtHeight 200))));
                           (true, x_call "#1" (JIncreaseAllowance "#3" 70 None))]%string) w /\
  tok_at w "#1" ts /\
  collect id (token_all_accounts ts) [Some 1; Some 2; None; Some 30] None = Ok ["#4"; "#6"; "alice"; "bob"]%string /\
  added (map (balance_of ts) ["#4"; "#6"; "alice"; "bob"]%string) = 1001000000000 /\
  collect fst (token_all_allowances (ch_api ex_chain) ts "alice") [Some 1; Some 2; Some 1; Some 7] None =
    Ok [("#3", (70, ENever)); ("#4", (40000000, ENever)); ("#6", (40000000, ENever)); ("bob", (500, EAtHeight 200))]%string /\
  token_query_allowance (ch_api ex_chain) ts "alice" "bob" = Ok (500, EAtHeight 200) /\
  token_query_minter ts = Ok (Some ("alice"%string, Some 2000000000000)).
Proof.
  split; [apply after_history|]. split; [apply tok_of_at; vm_compute; reflexivity|]. vm_compute. auto 12.
Qed.
