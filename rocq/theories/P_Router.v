(** Properties of the router's own calls: C27, C29, C30, C31. *)
From Verif Require Import Base BigNumber CwStd BigNumberFacts Asset Messages PairMath Pair PairFacts Router Examples.
Local Open Scope N_scope.
Ltac Zify.zify_post_hook ::= idtac.

(** ** C27 *)

(** How an asset is written: its denomination or its address. *)
Definition spelled (i : asset_info) : string := match i with Native d => d | Token a => a end.
(** Operation [i]'s output is used: it is the final output, or some later
    operation takes it as input.  Assets are compared by how they are written,
    as the router does. *)
Definition output_used (ops : list swap_op) (i : nat) (o : swap_op) : Prop :=
  (exists l, list.last ops = Some l /\ spelled (op_ask l) = spelled (op_ask o)) \/
  (exists j o', (i < j)%nat /\ ops !! j = Some o' /\
     spelled (op_offer o') = spelled (op_ask o)).

Definition route_valid (ops : list swap_op) : Prop :=
  ops <> [] /\ forall i o, ops !! i = Some o -> output_used ops i o.

Lemma open_outputs_snoc ops o :
  open_outputs (ops ++ [o]) =
  {[ info_to_string (op_ask o) ]} ∪ (open_outputs ops ∖ {[ info_to_string (op_offer o) ]}).
Proof. unfold open_outputs. rewrite fold_left_app. reflexivity. Qed.

Lemma elem_open_outputs ops s :
  s ∈ open_outputs ops <->
  exists i o, ops !! i = Some o /\ info_to_string (op_ask o) = s /\
    forall j o', (i < j)%nat -> ops !! j = Some o' -> info_to_string (op_offer o') <> s.
Proof.
  induction ops as [|o ops IH] using rev_ind.
  - split; [intros H; apply not_elem_of_empty in H; contradiction|intros (i & o & H & _); discriminate].
  - rewrite open_outputs_snoc, elem_of_union, elem_of_singleton, elem_of_difference, elem_of_singleton, IH.
    split.
    + intros [->|[(i & o' & H & Ha & Hl) Hne]].
      * exists (length ops), o. rewrite lookup_app_r, Nat.sub_diag by lia. repeat split; auto.
        intros j o' Hj H. apply lookup_lt_Some in H. rewrite app_length in H. cbn in H. lia.
      * exists i, o'. assert (i < length ops)%nat by (eapply lookup_lt_Some; eauto).
        rewrite lookup_app_l by lia. repeat split; auto.
        intros j o'' Hj H'. destruct (decide (j < length ops)%nat).
        -- rewrite lookup_app_l in H' by lia. eauto.
        -- rewrite lookup_app_r in H' by lia. destruct (j - length ops)%nat; cbn in H'; [|discriminate].
           injection H' as <-. congruence.
    + intros (i & o' & H & Ha & Hl). destruct (decide (i < length ops)%nat) as [Hi|Hi].
      * right. rewrite lookup_app_l in H by lia. split.
        -- exists i, o'. repeat split; auto. intros j o'' Hj H'. eapply Hl; [exact Hj|].
           rewrite lookup_app_l; [exact H'|eapply lookup_lt_Some; eauto].
        -- intros E. apply (Hl (length ops) o); [lia| |congruence].
           rewrite lookup_app_r, Nat.sub_diag by lia. reflexivity.
      * left. rewrite lookup_app_r in H by lia. destruct (i - length ops)%nat; cbn in H; [|discriminate].
        injection H as <-. congruence.
Qed.

Theorem C27_route_accepted_iff ops : assert_operations ops = Ok tt <-> route_valid ops.
Proof.
  unfold assert_operations, route_valid, output_used. rewrite require_ok, bool_decide_eq_true. change spelled with info_to_string. split.
  - intros H. apply size_1_elem_of in H as [x Hx].
    assert (Hin : forall s, s ∈ open_outputs ops <-> s = x).
    { intros s. rewrite Hx. apply elem_of_singleton. }
    assert (ops <> []) as Hne.
    { intros ->. specialize (proj2 (Hin x) eq_refl). intros H. apply not_elem_of_empty in H. contradiction. }
    split; [exact Hne|].
    destruct (exists_last Hne) as (pre & l & ->).
    assert (x = info_to_string (op_ask l)) as ->.
    { symmetry. apply Hin. rewrite open_outputs_snoc. set_solver. }
    intros i o Hi.
    destruct (decide (info_to_string (op_ask l) = info_to_string (op_ask o))) as [E|E].
    { left. exists l. rewrite last_snoc. auto. }
    right. assert (~ (info_to_string (op_ask o) ∈ open_outputs (pre ++ [l]))) as Hn.
    { rewrite Hin. congruence. }
    (* search for a later consumer *)
    destruct (decide (Exists (fun o' => info_to_string (op_offer o') = info_to_string (op_ask o))
                (drop (S i) (pre ++ [l])))) as [Hex|Hnex].
    + apply Exists_exists in Hex as (o' & Ho' & E'). apply elem_of_list_In, elem_of_list_lookup in Ho' as [k Hk].
      rewrite lookup_drop in Hk. exists (S i + k)%nat, o'. split; [lia|auto].
    + exfalso. apply Hn, elem_open_outputs. exists i, o. repeat split; auto.
      intros j o' Hj Hlk E'. apply Hnex, Exists_exists. exists o'. split; [|exact E'].
      apply elem_of_list_In, elem_of_list_lookup. exists (j - S i)%nat. rewrite lookup_drop.
      replace (S i + (j - S i))%nat with j by lia. exact Hlk.
  - intros [Hne Hv]. destruct (exists_last Hne) as (pre & l & ->).
    assert (X : open_outputs (pre ++ [l]) = {[ info_to_string (op_ask l) ]});
      [|rewrite X; apply size_singleton].
    apply set_eq. intros s.
    rewrite elem_of_singleton, elem_open_outputs. split.
    + intros (i & o & Hi & Ha & Hl). destruct (Hv i o Hi) as [(l' & Hl' & E)|(j & o' & Hj & Ho' & E)].
      * rewrite last_snoc in Hl'. injection Hl' as <-. congruence.
      * exfalso. eapply Hl; eauto. congruence.
    + intros ->. exists (length pre), l. rewrite lookup_app_r, Nat.sub_diag by lia. repeat split; auto.
      intros j o' Hj H. apply lookup_lt_Some in H. rewrite app_length in H. cbn in H. lia.
Qed.

Definition hop (a b : asset_info) : swap_op := HaloSwap a b.

Example C27_case_accepts :
  assert_operations [hop (Token "a") (Token "b"); hop (Token "b") (Native "u")] = Ok tt.
Proof. vm_compute. reflexivity. Qed.
Example C27_case_refuses :
  assert_operations [hop (Token "a") (Token "b"); hop (Token "c") (Native "u")] <> Ok tt.
Proof. vm_compute. discriminate. Qed.

(** The check does not make a route a chain in which each hop consumes the
    previous hop's output: this one is accepted. *)
Definition is_chain (ops : list swap_op) : Prop :=
  forall i o o', ops !! i = Some o -> ops !! S i = Some o' -> op_offer o' = op_ask o.
Theorem C27_accepted_routes_are_chains_refuted :
  ~ forall ops, assert_operations ops = Ok tt -> is_chain ops.
Proof.
  intros H.
  specialize (H [hop (Token "a") (Token "b"); hop (Token "c") (Token "b")]).
  assert (E : assert_operations [hop (Token "a") (Token "b"); hop (Token "c") (Token "b")] = Ok tt)
    by (vm_compute; reflexivity).
  specialize (H E 0%nat _ _ eq_refl eq_refl). discriminate.
Qed.

(** Conversely every non-empty chain is accepted. *)
Theorem C27_chains_accepted ops : ops <> [] -> is_chain ops -> assert_operations ops = Ok tt.
Proof.
  intros Hne Hc. apply C27_route_accepted_iff. split; [exact Hne|].
  intros i o Hi. destruct (ops !! S i) as [o'|] eqn:E.
  - right. exists (S i), o'. split; [lia|]. split; [exact E|].
    rewrite (Hc i o o' Hi E). reflexivity.
  - left. exists o. split; [|reflexivity]. rewrite last_lookup.
    apply lookup_ge_None in E. assert (i < length ops)%nat by (eapply lookup_lt_Some; eauto).
    replace (pred (length ops)) with i by lia. exact Hi.
Qed.

(** ** C29 *)

Theorem C29_only_self A Q self st sender op to st' rsp :
  router_execute A Q self st sender (JExecuteSwapOperation op to) = Ok (st', rsp) -> sender = self.
Proof.
  unfold router_execute. cbn [jmsg_ranges negb]. intros H.
  apply rbind_ok in H as (to' & _ & H). unfold execute_swap_operation in H.
  apply rbind_ok in H as (? & E & _). apply require_ok in E. apply bool_decide_eq_true in E. auto.
Qed.

(** ... and a stranger's call fails with the unauthorized error whenever the
    recipient is well-formed. *)
Theorem C29_strangers_refused A Q self st sender op :
  sender <> self ->
  router_execute A Q self st sender (JExecuteSwapOperation op None) = Err (EStd "unauthorized").
Proof.
  intros H. unfold router_execute, execute_swap_operation. cbn.
  rewrite bool_decide_eq_false_2 by congruence. reflexivity.
Qed.

(** The same call is accepted from the router itself and refused from others. *)
Example C29_example :
  let Q := {| q_balance := fun _ _ => Ok 0; q_token_balance := fun _ _ => Ok 700;
              q_token_info := fun _ => Err ENotFound; q_native_decimals := fun _ _ => Err ENotFound;
              q_pair_info := fun _ _ => Ok (PairInfo (Token "a", Token "b") "pair" "lp" (6, 6) ex_reqs);
              q_simulate := fun _ _ => Err ENotFound; q_reverse_simulate := fun _ _ => Err ENotFound;
              q_pair_self := fun _ => Err ENotFound |} in
  (exists rsp, router_execute ex_api Q "router" "factory" "router" (JExecuteSwapOperation (hop (Token "a") (Token "b")) None) =
     Ok ("factory"%string, rsp) /\
   rs_msgs rsp = [plain (MExecute "a" (JSend "pair" 700 (HSwap None None None)) [])]) /\
  router_execute ex_api Q "router" "factory" "bob" (JExecuteSwapOperation (hop (Token "a") (Token "b")) None) =
    Err (EStd "unauthorized").
Proof. split; [eexists; split; vm_compute; reflexivity|vm_compute; reflexivity]. Qed.

(** ** C30 *)

(** The self-calls of a route. *)
Definition route_calls (self to : string) (ops : list swap_op) (calls : list cmsg) : Prop :=
  length calls = length ops /\
  forall i o, ops !! i = Some o ->
    calls !! i = Some (MExecute self
      (JExecuteSwapOperation o (if decide (S i = length ops) then Some to else None)) []).

Lemma op_messages_calls self to ops : route_calls self to ops (op_messages self to ops).
Proof.
  induction ops as [|o ops [Hl Hc]].
  - split; [reflexivity|]. intros i o H. discriminate.
  - destruct ops as [|o2 ops].
    + split; [reflexivity|]. intros [|i] o' H; cbn in H; [|discriminate].
      injection H as <-. reflexivity.
    + change (op_messages self to (o :: o2 :: ops)) with
        (MExecute self (JExecuteSwapOperation o None) [] :: op_messages self to (o2 :: ops)).
      split; [cbn [length]; f_equal; exact Hl|].
      intros [|i] o' H.
      * cbn in H. injection H as <-. reflexivity.
      * change ((op_messages self to (o2 :: ops)) !! i = Some (MExecute self
          (JExecuteSwapOperation o' (if decide (S (S i) = length (o :: o2 :: ops)) then Some to else None)) [])).
        rewrite (Hc i o' H). cbn [length].
        do 3 f_equal. repeat case_decide; try reflexivity; cbn in *; lia.
Qed.

Theorem C30_route_messages A Q self st sender ops mr to st' rsp :
  router_execute A Q self st sender (JExecuteSwapOperations ops mr to) = Ok (st', rsp) ->
  let rcv := default sender to in
  st' = st /\ route_valid ops /\
  exists calls, route_calls self rcv ops calls /\
    match mr with
    | None => rs_msgs rsp = map plain calls
    | Some m => exists l b, list.last ops = Some l /\ query_pool A Q (op_ask l) rcv = Ok b /\
        rs_msgs rsp = map plain (calls ++
          [MExecute self (JAssertMinimumReceive (op_ask l) b m rcv) []])
    end.
Proof.
  unfold router_execute. destruct (negb _); [discriminate|].
  intros H. apply rbind_ok in H as (to' & Et & H).
  assert (to' = to) as ->.
  { destruct to as [a|]; cbn in Et; inv_ok; [|reflexivity].
    apply addr_validate_ok in E as [-> _]. reflexivity. }
  unfold execute_swap_operations in H. destruct (list.last ops) as [l|] eqn:El; [|discriminate].
  apply rbind_ok in H as ([] & Ea & H).
  apply C27_route_accepted_iff in Ea. cbv zeta.
  destruct mr as [m|].
  - apply rbind_ok in H as (b & Eb & H). inv_ok. split; [reflexivity|]. split; [exact Ea|].
    exists (op_messages self (default sender to) ops). split; [apply op_messages_calls|].
    exists l, b. auto.
  - inv_ok. split; [reflexivity|]. split; [exact Ea|].
    exists (op_messages self (default sender to) ops). split; [apply op_messages_calls|reflexivity].
Qed.

(** The same for a route started by sending a cw20 to the router: the cw20's
    sender takes the place of the caller. *)
Theorem C30_route_messages_cw20 A Q self st caller sender amount ops mr to st' rsp :
  router_execute A Q self st caller (JReceive sender amount (HExecuteSwapOperations ops mr to)) = Ok (st', rsp) ->
  norm A sender = Some sender /\
  router_execute A Q self st sender (JExecuteSwapOperations ops mr to) = Ok (st', rsp).
Proof.
  unfold router_execute. cbn [jmsg_ranges]. destruct (u128_ok amount); [|discriminate].
  cbn [negb]. unfold router_receive. intros H. apply rbind_ok in H as (s & Es & H).
  apply addr_validate_ok in Es as [-> Hn]. split; [exact Hn|].
  cbn [hook_ranges] in H. destruct (ou128_ok mr); cbn [negb] in *; [exact H|discriminate].
Qed.

Example C30_case :
  router_execute ex_api (ex_querier 5 5 5) "router" "factory" "alice"
    (JExecuteSwapOperations [hop (Token "a") (Token "tok"); hop (Token "tok") (Native "uaura")] (Some 7) None)
  = Ok ("factory"%string, Response
      [plain (MExecute "router" (JExecuteSwapOperation (hop (Token "a") (Token "tok")) None) []);
       plain (MExecute "router" (JExecuteSwapOperation (hop (Token "tok") (Native "uaura")) (Some "alice"%string)) []);
       plain (MExecute "router" (JAssertMinimumReceive (Native "uaura") 0 7 "alice") [])] []).
Proof. vm_compute. reflexivity. Qed.

(** ** C31 *)

(** One hop's answer: the pair registered for the hop, asked for a simulation. *)
Definition hop_quote (Q : querier) (f : string) (o : swap_op) (amount r : N) : Prop :=
  exists p s, q_pair_info Q f (op_offer o, op_ask o) = Ok p /\
    q_simulate Q (p_contract_addr p) (Asset (op_offer o) amount) = Ok s /\ r = s_return s.
Inductive quotes (Q : querier) (f : string) : N -> list swap_op -> N -> Prop :=
| quotes_nil a : quotes Q f a [] a
| quotes_cons a o b ops c : hop_quote Q f o a b -> quotes Q f b ops c -> quotes Q f a (o :: ops) c.

Lemma simulate_ops_iff Q f ops : forall a r, simulate_ops Q f a ops = Ok r <-> quotes Q f a ops r.
Proof.
  induction ops as [|o ops IH]; intros a r; cbn [simulate_ops].
  - split; [intros H; inv_ok; constructor|intros H; inversion H; reflexivity].
  - split.
    + intros H. apply rbind_ok in H as (p & Ep & H). apply rbind_ok in H as (s & Es & H).
      apply IH in H. econstructor; [|exact H]. exists p, s. auto.
    + intros H. inversion H as [|? ? b ? ? (p & s & Ep & Es & ->) Hq]; subst.
      rewrite Ep. cbn [rbind]. rewrite Es. cbn [rbind]. apply IH. exact Hq.
Qed.

Theorem C31_simulation_composes A Q st a ops r :
  router_simulate A Q st a ops = Ok r <->
  a < B128 /\ ops <> [] /\ exists f, human A st = Some f /\ quotes Q f a ops r.
Proof.
  unfold router_simulate, u128_ok. destruct (N.ltb_spec a B128); cbn [negb];
    [|split; [discriminate|intros (? & _); lia]].
  split.
  - intros H0. apply rbind_ok in H0 as (f & Ef & H0). apply addr_humanize_ok in Ef.
    destruct ops as [|o ops]; [discriminate|]. apply simulate_ops_iff in H0.
    split; [assumption|]. split; [discriminate|]. eauto.
  - intros (_ & Hne & f & Ef & Hq). apply addr_humanize_ok in Ef. rewrite Ef. cbn [rbind].
    destruct ops; [congruence|]. apply simulate_ops_iff. exact Hq.
Qed.

Definition hop_reverse_quote (Q : querier) (f : string) (o : swap_op) (amount r : N) : Prop :=
  exists p s, q_pair_info Q f (op_offer o, op_ask o) = Ok p /\
    q_reverse_simulate Q (p_contract_addr p) (Asset (op_ask o) amount) = Ok s /\ r = rs_offer s.
(** Right to left: [reverse_quotes a ops r]: to get [a] at the end of [ops],
    offer [r] at the start. *)
Inductive reverse_quotes (Q : querier) (f : string) : N -> list swap_op -> N -> Prop :=
| rquotes_nil a : reverse_quotes Q f a [] a
| rquotes_snoc a o b ops c :
    hop_reverse_quote Q f o a b -> reverse_quotes Q f b ops c -> reverse_quotes Q f a (ops ++ [o]) c.

Lemma reverse_step_ok Q f a o r : reverse_step Q f a o = Ok r <-> hop_reverse_quote Q f o a r.
Proof.
  unfold reverse_step, hop_reverse_quote.
  destruct (q_pair_info Q f (op_offer o, op_ask o)) as [p|e] eqn:Ep; cbn [rbind].
  - destruct (q_reverse_simulate Q (p_contract_addr p) (Asset (op_ask o) a)) as [s|e] eqn:Es; cbn [rbind].
    + split; [intros H; inv_ok; eauto|intros (p' & s' & H1 & H2 & ->)]. injection H1 as <-.
      rewrite Es in H2. injection H2 as <-. reflexivity.
    + split; [discriminate|intros (p' & s' & H1 & H2 & ->)]. injection H1 as <-. congruence.
  - split; [discriminate|intros (p' & s' & H1 & H2 & ->)]. congruence.
Qed.

Lemma reverse_ops_iff A Q st f ops : human A st = Some f ->
  forall a r, reverse_ops A Q st a (rev ops) = Ok r <-> reverse_quotes Q f a ops r.
Proof.
  intros Hf. induction ops as [|o ops IH] using rev_ind; intros a r.
  - cbn. split; [intros H; inv_ok; constructor|]. intros H. inversion H; subst; [reflexivity|].
    destruct ops; discriminate.
  - rewrite rev_app_distr. cbn [rev app reverse_ops].
    pose proof (proj2 (addr_humanize_ok A st f) Hf) as Hh. rewrite Hh. cbn [rbind]. split.
    + intros H. apply rbind_ok in H as (b & Eb & H). apply reverse_step_ok in Eb. apply IH in H.
      econstructor; eauto.
    + intros H. inversion H as [? Hn|? o' b ops' c Hh' Hr E]; subst.
      * destruct ops; discriminate.
      * match goal with E : _ ++ [_] = _ ++ [_] |- _ => apply app_inj_tail in E as [-> ->] end.
        apply reverse_step_ok in Hh'. rewrite Hh'. cbn [rbind].
        apply IH. exact Hr.
Qed.

Theorem C31_reverse_simulation_composes A Q st a ops r :
  router_reverse_simulate A Q st a ops = Ok r <->
  a < B128 /\ ops <> [] /\ exists f, human A st = Some f /\ reverse_quotes Q f a ops r.
Proof.
  unfold router_reverse_simulate, u128_ok. destruct (N.ltb_spec a B128); cbn [negb];
    [|split; [discriminate|intros (? & _); lia]].
  split.
  - intros H0. destruct ops as [|o ops]; [discriminate|].
    destruct (human A st) as [f|] eqn:Hf.
    + apply (reverse_ops_iff A Q st f _ Hf) in H0.
      split; [assumption|]. split; [discriminate|]. eauto.
    + exfalso. destruct (rev (o :: ops)) as [|x l] eqn:E.
      * apply (f_equal (@length _)) in E. rewrite rev_length in E. discriminate.
      * cbn [reverse_ops] in H0. unfold addr_humanize in H0. rewrite Hf in H0. discriminate.
  - intros (_ & Hne & f & Hf & Hq). destruct ops; [congruence|].
    apply (reverse_ops_iff A Q st f _ Hf). exact Hq.
Qed.

(** A failing hop of the reverse query aborts instead of reporting its error. *)
Theorem C31_reverse_error_aborts A Q st f a o :
  human A st = Some f -> a < B128 ->
  (forall r, ~ hop_reverse_quote Q f o a r) ->
  exists msg, router_reverse_simulate A Q st a [o] = Err (EPanic msg).
Proof.
  intros Hf Ha Hn. unfold router_reverse_simulate, u128_ok.
  destruct (N.ltb_spec a B128); [|lia]. cbn [negb rev app reverse_ops].
  unfold addr_humanize. rewrite Hf. cbn [rbind oget].
  destruct (reverse_step Q f a o) as [r|e] eqn:E.
  - apply reverse_step_ok in E. destruct (Hn r E).
  - unfold reverse_step in E. destruct (rbind _ _) in E; [discriminate|].
    injection E as <-. eexists. reflexivity.
Qed.

(** A querier with two registered pairs quoting 2x and 3x. *)
Definition two_hops : querier := {|
  q_balance := fun _ _ => Ok 0; q_token_balance := fun _ _ => Ok 0;
  q_token_info := fun _ => Err ENotFound; q_native_decimals := fun _ _ => Err ENotFound;
  q_pair_info := fun _ i => Ok (PairInfo i (info_to_string i.1 ++ "pair") "lp" (6, 6) ex_reqs);
  q_simulate := fun p a => Ok (Simulation (a_amount a * (if bool_decide (p = "apair"%string) then 2 else 3)) 0 0);
  q_reverse_simulate := fun p a =>
    Ok (ReverseSimulation (a_amount a / (if bool_decide (p = "apair"%string) then 2 else 3)) 0 0);
  q_pair_self := fun _ => Err ENotFound;
|}.
Example C31_case :
  router_simulate ex_api two_hops "factory" 5 [hop (Token "a") (Token "b"); hop (Token "b") (Token "c")] = Ok 30 /\
  router_reverse_simulate ex_api two_hops "factory" 30 [hop (Token "a") (Token "b"); hop (Token "b") (Token "c")] = Ok 5.
Proof. split; vm_compute; reflexivity. Qed.
