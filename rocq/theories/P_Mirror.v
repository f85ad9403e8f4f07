(** The token's two allowance maps always agree, and listing what a spender has
    been allowed finds exactly that (C98). *)
From Verif Require Import Base BigNumber CwStd BigNumberFacts Asset Messages PairMath Pair PairFacts Token Factory Router
  SwapFacts SwapFacts2 P_Swap P_Pair FactoryFacts P_Factory P_Router TokenFacts World WorldInd WorldFacts WorldInv WorldInd2
  Examples WorldExamples P_Ledger P_Registry ExecFacts P_Exec P_Token Replay P_TokenHistory P_Cw20 TokenQueries P_TokenQuery TokenMirror.
From stdpp Require Import sorting.
From Coq Require Import ZifyN.
Local Open Scope N_scope.
Ltac Zify.zify_post_hook ::= idtac.

(** ** Specification *)

(** The calls of contract [t] in a log, run one after the other on a token with
    both maps; calls of other contracts are skipped. *)
Inductive replay2 (A : api) (t : string) : token_state * spender_map -> list event -> token_state * spender_map -> Prop :=
| r2_nil ts : replay2 A t ts [] ts
| r2_other ts e lg ts' : ev_contract e <> t -> replay2 A t ts lg ts' -> replay2 A t ts (e :: lg) ts'
| r2_call ts e rsp ts1 lg ts' : ev_contract e = t ->
    token_execute2 A (w_block (ev_world e)) ts (ev_sender e) (ev_msg e) = Ok (ts1, rsp) ->
    replay2 A t ts1 lg ts' -> replay2 A t ts (e :: lg) ts'.

(** The maps say the same. *)
Definition agree (ts : token_state) (als : spender_map) : Prop := forall o s, als !! (s, o) = tk_allow ts !! (o, s).

(** ** One call *)
Lemma agree_insert (ts : token_state) (als : spender_map) (o s : string) x : agree ts als -> forall o' s', <[(s, o) := x]> als !! (s', o') = <[(o, s) := x]> (tk_allow ts) !! (o', s').
Proof.
  intros H o' s'. destruct (decide ((s', o') = (s, o))) as [E|E].
  - injection E as -> ->. rewrite !lookup_insert. reflexivity.
  - rewrite !lookup_insert_ne by congruence. apply H.
Qed.
Lemma agree_delete (ts : token_state) (als : spender_map) (o s : string) : agree ts als -> forall o' s', delete (s, o) als !! (s', o') = delete (o, s) (tk_allow ts) !! (o', s').
Proof.
  intros H o' s'. destruct (decide ((s', o') = (s, o))) as [E|E].
  - injection E as -> ->. rewrite !lookup_delete. reflexivity.
  - rewrite !lookup_delete_ne by congruence. apply H.
Qed.
Lemma debit_allow t a n t' : debit t a n = Ok t' -> tk_allow t' = tk_allow t.
Proof. unfold debit. intros H. apply rbind_ok in H as (b & _ & H). injection H as <-. reflexivity. Qed.
Lemma credit_allow t a n t' : credit t a n = Ok t' -> tk_allow t' = tk_allow t.
Proof. unfold credit. intros H. apply rbind_ok in H as (b & _ & H). injection H as <-. reflexivity. Qed.
Lemma deduct_both ts als o s b n t1 : agree ts als -> deduct_allowance ts o s b n = Ok t1 ->
  exists x, upd_deduct b n (als !! (s, o)) = Ok x /\ agree t1 (<[(s, o) := x]> als).
Proof.
  intros H E. unfold deduct_allowance in E. unfold upd_deduct. rewrite (H o s).
  change uint128 with N in *. match type of E with context [@lookup ?K ?V ?M ?i ?k ?m] => destruct (@lookup K V M i k m) as [[v e]|]; [|discriminate] end. destruct (is_expired e b); [discriminate|].
  apply rbind_ok in E as (v' & Ev & E). injection E as <-. rewrite Ev. cbn [rbind]. eexists. split; [reflexivity|].
  intros o' s'. cbn [set_allow tk_allow]. apply agree_insert. exact H.
Qed.
Lemma call_agree A b ts als s m ts' rsp : agree ts als -> token_execute A b ts s m = Ok (ts', rsp) ->
  exists als', mirror_step A b ts als s m = Ok als' /\ agree ts' als'.
Proof.
  intros H E. unfold token_execute in E. destruct (jmsg_ranges m); [|discriminate]. cbn [negb] in E.
  destruct m; try discriminate; cbn [mirror_step].
  - (* transfer *)
    exists als. split; [reflexivity|]. unfold token_transfer in E. apply rbind_ok in E as ([] & _ & E). apply rbind_ok in E as (r & _ & E).
    apply rbind_ok in E as (t1 & E1 & E). apply rbind_ok in E as (t2 & E2 & E). injection E as <- _.
    intros o' s'. rewrite (credit_allow _ _ _ _ E2), (debit_allow _ _ _ _ E1). apply H.
  - (* burn *)
    exists als. split; [reflexivity|]. unfold token_burn in E. apply rbind_ok in E as ([] & _ & E). apply rbind_ok in E as (t1 & E1 & E).
    apply rbind_ok in E as (su & _ & E). injection E as <- _. intros o' s'. cbn [set_supply tk_allow]. rewrite (debit_allow _ _ _ _ E1). apply H.
  - (* send *)
    exists als. split; [reflexivity|]. unfold token_send in E. apply rbind_ok in E as ([] & _ & E). apply rbind_ok in E as (r & _ & E).
    apply rbind_ok in E as (t1 & E1 & E). apply rbind_ok in E as (t2 & E2 & E). injection E as <- _.
    intros o' s'. rewrite (credit_allow _ _ _ _ E2), (debit_allow _ _ _ _ E1). apply H.
  - (* increase *)
    unfold token_increase in E. apply rbind_ok in E as (sp & Es & E). rewrite Es. cbn [rbind]. apply rbind_ok in E as ([] & _ & E).
    unfold upd_increase. rewrite (H s sp). change uint128 with N in *. match type of E with context [default ?d ?q] => destruct (default d q) as [v old] end.
    apply rbind_ok in E as (exp & Ee & E). apply rbind_ok in E as (v' & Ev & E). injection E as <- _.
    rewrite Ee. cbn [rbind]. rewrite Ev. cbn [rbind]. eexists. split; [reflexivity|]. intros o' s'. cbn [set_allow tk_allow]. apply agree_insert. exact H.
  - (* decrease *)
    unfold token_decrease in E. apply rbind_ok in E as (sp & Es & E). rewrite Es. cbn [rbind]. apply rbind_ok in E as ([] & _ & E).
    change uint128 with N in *. match type of E with context [@lookup ?K ?V ?M ?i ?k ?m] => destruct (@lookup K V M i k m) as [[v old]|]; [|discriminate] end.
    destruct (amount <? v).
    + apply rbind_ok in E as (exp & Ee & E). injection E as <- _. rewrite Ee. cbn [rbind]. eexists. split; [reflexivity|].
      intros o' s'. cbn [set_allow tk_allow]. apply agree_insert. exact H.
    + injection E as <- _. eexists. split; [reflexivity|]. intros o' s'. cbn [set_allow tk_allow]. apply agree_delete. exact H.
  - (* transfer from *)
    unfold token_transfer_from in E. apply rbind_ok in E as (r & _ & E). apply rbind_ok in E as (o & Eo & E). apply rbind_ok in E as (t1 & E1 & E).
    apply rbind_ok in E as (t2 & E2 & E). apply rbind_ok in E as (t3 & E3 & E). injection E as <- _.
    rewrite Eo. cbn [rbind]. destruct (deduct_both _ _ _ _ _ _ _ H E1) as (x & -> & K). cbn [rbind]. eexists. split; [reflexivity|].
    intros o' s'. rewrite (credit_allow _ _ _ _ E3), (debit_allow _ _ _ _ E2). apply K.
  - (* send from *)
    unfold token_send_from in E. apply rbind_ok in E as (r & _ & E). apply rbind_ok in E as (o & Eo & E). apply rbind_ok in E as (t1 & E1 & E).
    apply rbind_ok in E as (t2 & E2 & E). apply rbind_ok in E as (t3 & E3 & E). injection E as <- _.
    rewrite Eo. cbn [rbind]. destruct (deduct_both _ _ _ _ _ _ _ H E1) as (x & -> & K). cbn [rbind]. eexists. split; [reflexivity|].
    intros o' s'. rewrite (credit_allow _ _ _ _ E3), (debit_allow _ _ _ _ E2). apply K.
  - (* burn from *)
    unfold token_burn_from in E. apply rbind_ok in E as (o & Eo & E). apply rbind_ok in E as (t1 & E1 & E).
    apply rbind_ok in E as (t2 & E2 & E). apply rbind_ok in E as (su & _ & E). injection E as <- _.
    rewrite Eo. cbn [rbind]. destruct (deduct_both _ _ _ _ _ _ _ H E1) as (x & -> & K). cbn [rbind]. eexists. split; [reflexivity|].
    intros o' s'. cbn [set_supply tk_allow]. rewrite (debit_allow _ _ _ _ E2). apply K.
  - (* mint *)
    exists als. split; [reflexivity|]. unfold token_mint in E. apply rbind_ok in E as ([] & _ & E). destruct (tk_mint ts) as [[mi cap]|]; [|discriminate].
    apply rbind_ok in E as ([] & _ & E). apply rbind_ok in E as (su & _ & E). apply rbind_ok in E as ([] & _ & E). apply rbind_ok in E as (r & _ & E).
    apply rbind_ok in E as (t1 & E1 & E). injection E as <- _. intros o' s'. rewrite (credit_allow _ _ _ _ E1). apply H.
  - (* update minter *)
    exists als. split; [reflexivity|]. unfold token_update_minter in E. destruct (tk_mint ts) as [[mi cap]|]; [|discriminate].
    apply rbind_ok in E as ([] & _ & E). apply rbind_ok in E as (mm & _ & E). injection E as <- _. intros o' s'. apply H.
Qed.

(** ** C98 *)

(** As long as the maps agree, the second map makes no call fail, changes no
    answer, and the maps agree afterwards. *)
Theorem C98_calls A b ts als s m : agree ts als ->
  match token_execute A b ts s m with
  | Ok (ts', rsp) => exists als', token_execute2 A b (ts, als) s m = Ok ((ts', als'), rsp) /\ agree ts' als'
  | Err e => token_execute2 A b (ts, als) s m = Err e
  end.
Proof.
  intros H. unfold token_execute2. cbn [fst snd]. destruct (token_execute A b ts s m) as [[ts' rsp]|e] eqn:E; [|reflexivity]. cbn [rbind].
  destruct (call_agree A b ts als s m ts' rsp H E) as (als' & -> & K). exists als'. auto.
Qed.
Lemma replay_both A t ts lg ts' als : tok_replay A t ts lg ts' -> agree ts als -> exists als', replay2 A t (ts, als) lg (ts', als') /\ agree ts' als'.
Proof.
  intros P. revert als. induction P as [ts|ts e lg ts' Hn P IH|ts e rsp ts1 lg ts' He Hte Hx P IH]; intros als H.
  - exists als. split; [constructor|exact H].
  - destruct (IH als H) as (als' & K & H'). exists als'. split; [constructor; assumption|exact H'].
  - pose proof (C98_calls A (w_block (ev_world e)) ts als (ev_sender e) (ev_msg e) H) as X. rewrite Hx in X. destruct X as (als1 & X & H1).
    destruct (IH als1 H1) as (als' & K & H'). exists als'. split; [|exact H']. eapply r2_call; eauto.
Qed.
Lemma replay2_agree A t p lg p' : replay2 A t p lg p' -> agree p.1 p.2 -> agree p'.1 p'.2.
Proof.
  induction 1 as [p|p e lg p' Hn P IH|p e rsp p1 lg p' He Hx P IH]; intros H; auto. apply IH.
  destruct p as [ts als]. pose proof (C98_calls A (w_block (ev_world e)) ts als (ev_sender e) (ev_msg e) H) as X.
  destruct (token_execute A (w_block (ev_world e)) ts (ev_sender e) (ev_msg e)) as [[ts' r]|er]; [|congruence].
  destruct X as (als1 & X & H1). rewrite X in Hx. injection Hx as <- _. exact H1.
Qed.

Lemma init_agree A m ts rsp : token_instantiate A m = Ok (ts, rsp) -> agree ts ∅.
Proof.
  intros Hi o s. rewrite lookup_empty. unfold token_instantiate in Hi. destruct (negb _) in Hi; [discriminate|].
  apply rbind_ok in Hi as ([] & _ & Hi). apply rbind_ok in Hi as ([bal total] & _ & Hi). apply rbind_ok in Hi as ([] & _ & Hi).
  apply rbind_ok in Hi as (mi & _ & Hi). injection Hi as <- _. cbn [tk_allow]. rewrite lookup_empty. reflexivity.
Qed.

(** A token with both maps, in any history from an empty chain: it is created
    with empty maps; all calls it accepted in the model with one map it accepts
    with two, in the same way; and the maps agree. *)
Theorem C98_maps_agree C w lg w' t ts : chain_ok C -> w_insts w = ∅ -> reachable C w -> history C w lg w' -> tok_at w' t ts ->
  exists m p0 rsp als, token_instantiate2 (ch_api C) m = Ok (p0, rsp) /\ replay2 (ch_api C) t p0 lg (ts, als) /\
    forall o s, als !! (s, o) = tk_allow ts !! (o, s).
Proof.
  intros OK Hw Hr Hh Ht.
  destruct (history_replay C _ lg w' t ts OK Hr Hh Ht) as (ts0 & [Hs|(_ & m & rsp & Hi)] & P).
  - unfold tok_at, state_at in Hs. rewrite Hw, lookup_empty in Hs. discriminate.
  - pose proof (init_agree _ _ _ _ Hi) as H0.
    destruct (replay_both _ _ _ _ _ _ P H0) as (als & K & H). exists m, (ts0, ∅), rsp, als.
    split; [unfold token_instantiate2; rewrite Hi; reflexivity|]. split; [exact K|exact H].
Qed.

Lemma granted_entry als s x v e : In (x, (v, e)) (granted_to als s) <-> als !! (s, x) = Some (v, e).
Proof.
  unfold granted_to. rewrite in_map_iff. split.
  - intros ([[s' x'] [v' e']] & E & Hin). cbn in E. injection E as <- <- <-. apply filter_In in Hin as [Hin Hs]. cbn in Hs. apply bool_decide_eq_true in Hs as ->.
    apply elem_of_list_In, elem_of_map_to_list in Hin. exact Hin.
  - intros H. exists ((s, x), (v, e)). split; [reflexivity|]. apply filter_In. split; [apply elem_of_list_In, elem_of_map_to_list; exact H|apply bool_decide_eq_true; reflexivity].
Qed.
Lemma granted_nodup als s : NoDup (map fst (granted_to als s)).
Proof.
  unfold granted_to. pose proof (NoDup_fst_map_to_list als) as H.
  assert (X : forall l : list ((string * string) * (uint128 * expiration)), NoDup (map fst l) ->
    NoDup (map fst (map (fun e : (string * string) * (uint128 * expiration) => (e.1.2, e.2)) (List.filter (fun e => bool_decide (e.1.1 = s)) l)))).
  { clear. induction l as [|[[o' x'] z] l IH]; intros H; cbn [map List.filter]; [constructor|].
    cbn [map fst] in H. apply NoDup_cons in H as [H1 H2]. specialize (IH H2). cbn [fst snd].
    destruct (bool_decide (o' = s)) eqn:E; [|exact IH]. apply bool_decide_eq_true in E. subst o'. cbn [map fst snd].
    apply NoDup_cons. split; [|exact IH]. intros Hin. apply H1. apply elem_of_list_In in Hin.
    apply in_map_iff in Hin as ([y z'] & Ey & Hin). cbn in Ey. subst y. apply in_map_iff in Hin as ([[o2 x2] z2] & E2 & Hin).
    cbn in E2. injection E2 as -> ->. apply filter_In in Hin as [Hin Hb]. apply bool_decide_eq_true in Hb. cbn in Hb. subst o2.
    apply elem_of_list_In, in_map_iff. exists ((s, x'), z'). auto. }
  apply X. exact H.
Qed.

(** Callers and owners have normalized addresses. *)
Lemma named_callers C : chain_ok C -> ind2_ok C (fun _ _ lg => Forall (fun e => norm (ch_api C) (ev_sender e) = Some (ev_sender e)) lg) (fun _ s _ => norm (ch_api C) s = Some s).
Proof.
  intros OK. assert (Fo : forall a (l : list submsg), norm (ch_api C) a = Some a -> Forall (fun _ => norm (ch_api C) a = Some a) l) by (intros a l N; induction l; constructor; auto).
  split; auto.
  - intros. apply Forall_app_2; assumption.
  - intros w s ro c msg funds a w1 i st rsp f w3 lg M _ Ns Nc Hb Hs Hi Hc w2 _ _ _ _ _ _. right. split; [apply Fo; eapply (sane_norm C OK); [apply main_sane, M|exact Hs]|].
    intros X. constructor; [exact Ns|exact X].
  - intros w s ro admin code msg funds label k adm w1 st rsp f w3 lg M _ Ns _ _ a _ _ w2 _ _ _ _ _ _ _. right. split; [apply Fo; apply (fresh_norm C OK)|auto].
Qed.
Lemma log_named C w lg w' : chain_ok C -> main C w -> history C w lg w' -> Forall (fun e => norm (ch_api C) (ev_sender e) = Some (ev_sender e)) lg.
Proof.
  intros OK M Hh. eapply (history_ind2 C OK _ _ w lg w' (named_callers C OK)); auto. intros w0 s m [N _]. exact N.
Qed.
Definition owners_named (A : api) (ts : token_state) : Prop := forall o s, is_Some (tk_allow ts !! (o, s)) -> norm A o = Some o.
Lemma step_owners A b ts als s m als' : mirror_step A b ts als s m = Ok als' -> forall x o, is_Some (als' !! (x, o)) -> o = s \/ is_Some (als !! (x, o)).
Proof.
  intros E x o K. destruct m; cbn [mirror_step] in E; try (injection E as <-; right; exact K).
  - apply rbind_ok in E as (sp & _ & E). apply rbind_ok in E as (v & _ & E). injection E as <-.
    destruct (decide ((sp, s) = (x, o))) as [D|D]; [left; congruence|]. rewrite lookup_insert_ne in K by exact D. auto.
  - apply rbind_ok in E as (sp & _ & E). match type of E with context [@lookup ?K ?V ?M ?i ?k ?m] => destruct (@lookup K V M i k m) as [[v old]|]; [|discriminate] end.
    destruct (amount <? v).
    + apply rbind_ok in E as (ex & _ & E). injection E as <-. destruct (decide ((sp, s) = (x, o))) as [D|D]; [left; congruence|]. rewrite lookup_insert_ne in K by exact D. auto.
    + injection E as <-. right. destruct K as [v' K]. apply lookup_delete_Some in K as [_ K]. eauto.
  - apply rbind_ok in E as (o' & _ & E). apply rbind_ok in E as (v & Ev & E). injection E as <-. right.
    destruct (decide ((s, o') = (x, o))) as [D|D]; [|rewrite lookup_insert_ne in K by exact D; exact K]. injection D as -> ->.
    unfold upd_deduct in Ev. match type of Ev with context [@lookup ?K ?V ?M ?i ?k ?m] => destruct (@lookup K V M i k m); [eauto|discriminate] end.
  - apply rbind_ok in E as (o' & _ & E). apply rbind_ok in E as (v & Ev & E). injection E as <-. right.
    destruct (decide ((s, o') = (x, o))) as [D|D]; [|rewrite lookup_insert_ne in K by exact D; exact K]. injection D as -> ->.
    unfold upd_deduct in Ev. match type of Ev with context [@lookup ?K ?V ?M ?i ?k ?m] => destruct (@lookup K V M i k m); [eauto|discriminate] end.
  - apply rbind_ok in E as (o' & _ & E). apply rbind_ok in E as (v & Ev & E). injection E as <-. right.
    destruct (decide ((s, o') = (x, o))) as [D|D]; [|rewrite lookup_insert_ne in K by exact D; exact K]. injection D as -> ->.
    unfold upd_deduct in Ev. match type of Ev with context [@lookup ?K ?V ?M ?i ?k ?m] => destruct (@lookup K V M i k m); [eauto|discriminate] end.
Qed.
Lemma reachable_owners C w t ts : chain_ok C -> reachable C w -> tok_at w t ts -> owners_named (ch_api C) ts.
Proof.
  intros OK Hr Ht. destruct (reachable_from_genesis C w Hr) as (b & blk & lg & Hh).
  pose proof (reach_genesis C b blk) as R0. pose proof (log_named C _ lg w OK (reachable_main C OK _ R0) Hh) as L.
  destruct (C98_maps_agree C (World b ∅ 0 blk) lg w t ts OK eq_refl R0 Hh Ht) as (m & [ts0 als0] & rsp & als & Hi & P & Ag).
  assert (H0 : als0 = ∅). { unfold token_instantiate2 in Hi. apply rbind_ok in Hi as ([x y] & _ & Hi). injection Hi as _ <- _. reflexivity. }
  assert (X : forall p lg p', replay2 (ch_api C) t p lg p' -> Forall (fun e => norm (ch_api C) (ev_sender e) = Some (ev_sender e)) lg ->
    (forall x o, is_Some (p.2 !! (x, o)) -> norm (ch_api C) o = Some o) -> forall x o, is_Some (p'.2 !! (x, o)) -> norm (ch_api C) o = Some o).
  { clear. induction 1 as [p|p e lg p' Hn P IH|p e rsp p1 lg p' He Hx P IH]; intros L H.
    { exact H. } { apply IH; [inversion L; assumption|exact H]. }
    inversion L as [|? ? L1 L2]; subst. apply IH; [exact L2|]. intros x o K. unfold token_execute2 in Hx. apply rbind_ok in Hx as ([t' r] & _ & Hx). apply rbind_ok in Hx as (als' & Hm & Hx).
    injection Hx as <- _. cbn [fst snd] in K. destruct (step_owners _ _ _ _ _ _ _ Hm x o K) as [->|K']; eauto. }
  intros o s K. rewrite <- (Ag o s) in K. eapply (X _ _ _ P L); [|exact K]. cbn [snd]. subst als0. intros x o' [v Hv]. rewrite lookup_empty in Hv. discriminate.
Qed.

Lemma listing C w t ts als s limits : chain_ok C -> reachable C w -> tok_at w t ts -> agree ts als -> norm (ch_api C) s = Some s ->
  List.Forall (fun lim => lim <> Some 0) limits -> (size als <= Datatypes.length limits)%nat ->
  exists l, collect fst (token_spender_allowances (ch_api C) (ts, als) s) limits None = Ok l /\
    ascending (map fst l) /\
    (forall o v e, In (o, (v, e)) l -> token_query_allowance (ch_api C) ts o s = Ok (v, e)) /\
    (forall o v e, token_query_allowance (ch_api C) ts o s = Ok (v, e) -> 0 < v -> In (o, (v, e)) l).
Proof.
  intros OK Hr Ht Ag Ho Hl Hn. pose proof (reachable_named C w t ts OK Hr Ht) as [_ Na].
  pose proof (reachable_owners C w t ts OK Hr Ht) as No.
  pose proof (granted_nodup als s) as Nd.
  destruct (collect_spec id fst (granted_to als s) limits (fun e => eq_refl) Nd None (in_order (granted_to als s))) as (n & E & L).
  { left. split; reflexivity. }
  specialize (L Hl). rewrite !map_id in E. rewrite take_ge in E.
  2:{ rewrite size_len. unfold granted_to. rewrite map_length.
      assert (X : forall (p : (string * string) * (uint128 * expiration) -> bool) l, (Datatypes.length (List.filter p l) <= Datatypes.length l)%nat).
      { clear. induction l as [|x l IH]; cbn; [lia|]. destruct (p x); cbn; lia. }
      specialize (X (fun e => bool_decide (e.1.1 = s)) (map_to_list als)).
      change (size als) with (Datatypes.length (map_to_list als)) in Hn. lia. }
  assert (Va : forall x, norm (ch_api C) x = Some x -> addr_validate (ch_api C) x = Ok x).
  { intros x Hx. apply addr_validate_ok. auto. }
  assert (Mem : forall y, In y (in_order (granted_to als s)) <-> In y (granted_to als s)).
  { intros y. rewrite <- !elem_of_list_In. rewrite (in_order_perm (granted_to als s)). reflexivity. }
  exists (in_order (granted_to als s)). split; [|split; [|split]].
  - rewrite <- E. clear E Hn L. generalize (@None string).
    assert (X : forall ls st, collect fst (token_spender_allowances (ch_api C) (ts, als) s) ls st =
      collect fst (fun a lim => Ok (map id (page_of (granted_to als s) a lim))) ls st).
    { intros ls. induction ls as [|lm ls IH]; intros st; [reflexivity|]. cbn [collect].
      unfold token_spender_allowances at 1. rewrite (Va s Ho). cbn [rbind fst snd]. rewrite map_id, IH. reflexivity. }
    intros st. apply X.
  - pose proof (ascending_take (granted_to als s) (Datatypes.length (in_order (granted_to als s))) Nd) as X.
    rewrite take_ge in X by lia. exact X.
  - intros x v e Hin. apply Mem, granted_entry in Hin. rewrite (Ag x s) in Hin. unfold token_query_allowance.
    rewrite (Va x) by (apply (No x s); eauto). rewrite (Va s Ho). cbn [rbind]. change uint128 with N in *. rewrite Hin. reflexivity.
  - intros x v e Hq Hv. unfold token_query_allowance in Hq. apply rbind_ok in Hq as (o' & Eo & Hq). apply addr_validate_ok in Eo as [-> _].
    apply rbind_ok in Hq as (x' & Ex & Hq). apply addr_validate_ok in Ex as [-> _]. injection Hq as Hq.
    apply Mem, granted_entry. rewrite (Ag x s). match type of Hq with default _ ?q = _ => destruct q as [z|] eqn:Ez end; cbn [default from_option id] in Hq; [subst z; first [exact Ez|reflexivity]|].
    injection Hq as <- _. lia.
Qed.

(** A client that lists the allowances of a spender page by page, with any limits
    but zero and enough requests, is shown each owner once, in order, with the
    amount and the expiration that Allowance answers, and misses no owner with a
    positive allowance. *)
Theorem C98_listing C w lg w' t ts m p0 rsp als s limits : chain_ok C -> w_insts w = ∅ -> reachable C w -> history C w lg w' -> tok_at w' t ts ->
  token_instantiate2 (ch_api C) m = Ok (p0, rsp) -> replay2 (ch_api C) t p0 lg (ts, als) -> norm (ch_api C) s = Some s ->
  List.Forall (fun lim => lim <> Some 0) limits -> (size als <= Datatypes.length limits)%nat ->
  exists l, collect fst (token_spender_allowances (ch_api C) (ts, als) s) limits None = Ok l /\
    ascending (map fst l) /\
    (forall o v e, In (o, (v, e)) l -> token_query_allowance (ch_api C) ts o s = Ok (v, e)) /\
    (forall o v e, token_query_allowance (ch_api C) ts o s = Ok (v, e) -> 0 < v -> In (o, (v, e)) l).
Proof.
  intros OK Hw Hr Hh Ht Hi P. apply (listing C w' t ts als s limits OK); [|exact Ht|].
  - eapply history_reachable; eauto.
  - apply replay2_agree in P; [exact P|]. clear - Hi. unfold token_instantiate2 in Hi. apply rbind_ok in Hi as ([t r] & Hi & E). injection E as <- _.
    exact (init_agree _ _ _ _ Hi).
Qed.

(** A concrete case: alice and bob allow the same spender, who then spends. *)
Definition m_run (p : token_state * spender_map) (calls : list (string * jmsg)) : token_state * spender_map :=
  fold_left (fun p c => match token_execute2 ex_api (Block 100 5) p c.1 c.2 with Ok (p', _) => p' | Err _ => p end) calls p.
Example C98_case :
  let init := TokenInit "a token" "TOK" 6 [("alice", 1000); ("bob", 500)] None in
  match token_instantiate2 (ch_api ex_chain) init with
  | Ok (p0, _) =>
      let p := m_run p0 [("alice", JIncreaseAllowance "carol" 300 (Some (EAtHeight 200))); ("bob", JIncreaseAllowance "carol" 70 None);
                         ("bob", JIncreaseAllowance "alice" 5 None); ("carol", JTransferFrom "alice" "carol" 120); ("bob", JDecreaseAllowance "carol" 30 None)] in
      collect fst (token_spender_allowances (ch_api ex_chain) p "carol") [Some 1; None; None; None] None =
        Ok [("alice", (180, EAtHeight 200)); ("bob", (40, ENever))] /\
      token_spender_allowances (ch_api ex_chain) (m_run p [("bob", JDecreaseAllowance "carol" 40 None)]) "carol" None None = Ok [("alice", (180, EAtHeight 200))] /\
      token_query_allowance (ch_api ex_chain) p.1 "alice" "carol" = Ok (180, EAtHeight 200) /\
      balance_of p.1 "carol" = 120
  | Err _ => False
  end%string.
Proof. vm_compute. auto. Qed.
