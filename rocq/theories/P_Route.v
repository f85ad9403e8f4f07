(** Whole routes (C33). *)
From Verif Require Import Base BigNumber CwStd BigNumberFacts Asset Messages PairMath Pair PairFacts Token Factory Router
  SwapFacts SwapFacts2 P_Swap P_Pair FactoryFacts P_Factory P_Router TokenFacts World WorldInd WorldFacts WorldInv WorldInd2
  Examples WorldExamples P_Ledger P_Registry ExecFacts P_Exec.
From Coq Require Import ZifyN.
Local Open Scope N_scope.
Ltac Zify.zify_post_hook ::= idtac.


(** ** C33 *)

(** A route that can be executed as simulated: [executable C w fs a ops ps z]:
    starting with [a], hop after hop, the factory [fs] knows a pair contract of
    /repo for the hop (the pairs are [ps]) between the two different, live
    assets, the offered one a cw20 token, which quotes the next amount; the
    last amount is [z]. *)
Inductive executable (C : chain) (w : world) (fs : factory_state) : N -> list swap_op -> list string -> N -> Prop :=
| exe_nil a : executable C w fs a [] [] a
| exe_cons a o t pi st od ad r sp c ops ps z :
    op_offer o = Token t -> Token t <> op_ask o -> live w (Token t) -> live w (op_ask o) ->
    factory_query_pair (ch_api C) fs (Token t, op_ask o) = Ok pi ->
    pair_at w (p_contract_addr pi) st -> sides (ch_api C) st (Token t) (op_ask o) od ad ->
    ask_simulate C w (p_contract_addr pi) (Asset (Token t) a) = Ok (Simulation r sp c) ->
    decimals_fit od ad a r sp ->
    executable C w fs r ops ps z ->
    executable C w fs a (o :: ops) (p_contract_addr pi :: ps) z.

(** The same with the pools spelled out; this form is kept by changes elsewhere. *)
Inductive runnable (C : chain) (w : world) (fs : factory_state) : N -> list swap_op -> list string -> N -> Prop :=
| run_none a : runnable C w fs a [] [] a
| run_hop a o t pi st od ad r sp c ops ps z :
    op_offer o = Token t -> Token t <> op_ask o -> live w (Token t) -> live w (op_ask o) ->
    factory_query_pair (ch_api C) fs (Token t, op_ask o) = Ok pi ->
    pair_at w (p_contract_addr pi) st -> sides (ch_api C) st (Token t) (op_ask o) od ad ->
    a < B128 -> holds w (p_contract_addr pi) (op_ask o) < B128 ->
    compute_swap (holds w (p_contract_addr pi) (Token t)) (holds w (p_contract_addr pi) (op_ask o)) a = Ok (r, sp, c) ->
    decimals_fit od ad a r sp ->
    runnable C w fs r ops ps z ->
    runnable C w fs a (o :: ops) (p_contract_addr pi :: ps) z.

Lemma executable_runnable C w fs a ops ps z : chain_ok C -> reachable C w -> executable C w fs a ops ps z -> runnable C w fs a ops ps z.
Proof.
  intros OK Hr H. pose proof (main_sane C w (reachable_main C OK w Hr)) as Sn. induction H; [constructor|].
  match goal with H : ask_simulate _ _ _ _ = _ |- _ =>
    apply (sim_inv C OK w (p_contract_addr pi) st (Token t) (op_ask o) od ad) in H as (? & ? & ? & ?); auto; [|eapply reachable_pair; eauto] end.
  eapply (run_hop _ _ _ _ _ t pi st od ad r sp c); eassumption.
Qed.
Lemma runnable_kept C w w' fs : (forall i, live w i -> live w' i) ->
  forall a ops ps z, runnable C w fs a ops ps z ->
  (forall p st, In p ps -> pair_at w p st -> pair_at w' p st /\ forall i, holds w' p i = holds w p i) ->
  runnable C w' fs a ops ps z.
Proof.
  intros L a ops ps z H. induction H as [|a o t pi st od ad r sp c ops ps z E1 E2 E3 E4 E5 E6 E7 E8 E9 E10 E11 H IH]; intros K; [constructor|].
  destruct (K _ _ (in_eq _ _) E6) as [K1 K2].
  eapply (run_hop _ _ _ _ _ t pi st od ad r sp c); try eassumption; [apply L; exact E3|apply L; exact E4|rewrite K2; exact E9|rewrite !K2; exact E10|]. apply IH. intros p q Hp. apply K. right. exact Hp.
Qed.
(** The answer of SimulateSwapOperations is the last amount. *)
Lemma runnable_quote C w f fs a ops ps z : chain_ok C -> sane C w -> fac_at w f fs -> executable C w fs a ops ps z ->
  simulate_ops (wq C w) f a ops = Ok z.
Proof.
  intros OK Sn Hf H. induction H as [|a o t pi st od ad r sp c ops ps z E1 E2 E3 E4 E5 E6 E7 E8 E9 H IH]; [reflexivity|].
  cbn [simulate_ops]. cbn [wq q_pair_info q_simulate]. unfold ask_pair_info, contract_at. rewrite (sane_norm C OK _ _ _ Sn Hf). cbn [oget rbind].
  pose proof Hf as Hi. apply state_at_inst in Hi as (adm & Hi). rewrite Hi. cbn [oget rbind i_state]. rewrite E1, E5. cbn [rbind].
  rewrite E8. cbn [rbind s_return]. exact IH.
Qed.

Section route.
  Context (C : chain) (OK : chain_ok C).
  Local Notation A := (ch_api C).

  Lemma hop_ok w r rst f fs o t pi st od ad a q sp c to : sane C w ->
    state_at w r = Some (SRouter rst) -> human A rst = Some f -> fac_at w f fs ->
    op_offer o = Token t -> Token t <> op_ask o -> live w (Token t) -> live w (op_ask o) ->
    factory_query_pair A fs (Token t, op_ask o) = Ok pi ->
    pair_at w (p_contract_addr pi) st -> sides A st (Token t) (op_ask o) od ad ->
    holds w (p_contract_addr pi) (op_ask o) < B128 ->
    compute_swap (holds w (p_contract_addr pi) (Token t)) (holds w (p_contract_addr pi) (op_ask o)) a = Ok (q, sp, c) ->
    decimals_fit od ad a q sp -> holds w r (Token t) = a -> 0 < a -> norm A (default r to) = Some (default r to) ->
    exists w' w1, (forall k, exists lg, exec C (8 + k) w r (MExecute r (JExecuteSwapOperation o to) []) = Ok (w', None, lg)) /\
      paid w w1 (Token t) r (p_contract_addr pi) a /\ paid w1 w' (op_ask o) (p_contract_addr pi) (default r to) q /\ sane C w'.
  Proof.
    intros Sn Hs Hh Hf Ho Hne Lt La Hq Hp Hsd Ra Hc Hfit Ha Hpos Hto. set (p := p_contract_addr pi) in *.
    pose proof (sane_norm C OK _ _ _ Sn Hs) as Nr. pose proof (sane_norm C OK _ _ _ Sn Hp) as Np.
    assert (Hrp : r <> p) by (intros X; rewrite <- X in Hp; unfold pair_at in Hp; congruence).
    assert (Rn : a < B128) by (rewrite <- Ha; apply (holds_range C w t r Sn Lt)).
    assert (Hle : a <= holds w r (Token t)) by lia.
    destruct (send_ok C OK w r t p a (HSwap None None to) Sn Lt Np Hpos Rn Hle) as (w1 & P1 & S1 & K).
    assert (H1 : holds w1 p (Token t) = holds w p (Token t) + a).
    { pose proof (pd_holds _ _ _ _ _ _ P1 p (Token t)) as X. destruct (decide (p = r /\ _)) as [[? _]|_]; [congruence|].
      rewrite decide_True in X by auto. lia. }
    assert (H2 : holds w1 p (op_ask o) = holds w p (op_ask o)) by (eapply paid_other; [eassumption|congruence|congruence]).
    pose proof (paid_pair _ _ _ _ _ _ _ _ P1 Hp) as Hp1. pose proof (paid_live _ _ _ _ _ _ _ P1 Lt) as Lt1. pose proof (paid_live _ _ _ _ _ _ _ P1 La) as La1.
    assert (Hc1 : compute_swap (holds w1 p (Token t) - a) (holds w1 p (op_ask o)) a = Ok (q, sp, c)).
    { rewrite H1, H2. replace (holds w p (Token t) + a - a) with (holds w p (Token t)) by lia. exact Hc. }
    destruct (swap_recv_ok C OK w1 t p r a to st (op_ask o) od ad q sp c) as (w' & Hw); auto.
    { lia. } { lia. } { destruct to; exact Hto. } { apply no_limit_iff. exact Hfit. }
    assert (Hw2 : paid w1 w' (op_ask o) p (default r to) q /\ sane C w').
    { destruct (Hw 0%nat) as (lg & E).
      apply (swap_recv_inv C OK _ w1 t p r a None None to st (op_ask o) od ad) in E as (q' & sp' & c' & rcv & lg2 & _ & _ & _ & _ & Hc' & _ & Hrc & P2 & S2 & _); auto.
      rewrite Hc1 in Hc'. injection Hc' as <- <- <-. split; [|exact S2].
      change (match to with Some z => z | None => r end) with (default r to) in Hrc. rewrite Hto in Hrc.
      destruct Hrc as [Hrc|Hz]; [injection Hrc as <-; exact P2|]. subst q. destruct P2 as [X1 X2 X3 X4 X5]. split; auto.
      - intros x j. specialize (X2 x j). repeat destruct (decide _); lia. }
    exists w', w1. split; [|tauto]. intros k. pose proof (K 3%nat w' Hw k) as (lg & E). cbn [Nat.add] in E |- *.
    eexists. rewrite exec_eq. rewrite Nr. cbn [oget rbind]. rewrite bank_send_none. cbn [rbind].
    pose proof Hs as Hi. apply state_at_inst in Hi as (adm & Hi). rewrite Hi. cbn [oget rbind i_state call].
    unfold router_execute. cbn [jmsg_ranges negb].
    assert (Ev : optional_addr_validate A to = Ok to).
    { unfold optional_addr_validate. destruct to as [z|]; [|reflexivity]. cbn [default] in Hto. rewrite (proj2 (addr_validate_ok A z z) (conj eq_refl Hto)). reflexivity. }
    rewrite Ev. cbn [rbind]. unfold execute_swap_operation. rewrite bool_decide_true by reflexivity. cbn [require rbind].
    unfold addr_humanize. rewrite Hh. cbn [oget rbind]. cbn [wq q_pair_info q_balance q_token_balance].
    unfold ask_pair_info, contract_at at 1. rewrite (sane_norm C OK _ _ _ Sn Hf). cbn [oget rbind].
    pose proof Hf as Hif. apply state_at_inst in Hif as (admf & Hif). rewrite Hif. cbn [oget rbind i_state]. rewrite Ho, Hq. cbn [rbind].
    pose proof (query_pool_live C OK w (Token t) r Sn Lt Nr) as Hqp. cbn [query_pool wq q_token_balance] in Hqp. rewrite Hqp by lia. cbn [rbind].
    cbn [wrap rbind rs_msgs rs_attrs]. pose proof (set_state_id w r _ Hi) as Hid. cbn [i_state] in Hid. rewrite Hid.
    unfold asset_into_swap_msg. cbn [a_info a_amount]. fold p. rewrite Ha. rewrite run_plain, E. cbn [rbind]. rewrite run_nil. cbn [rbind]. reflexivity.
  Qed.

  Lemma runnable_pos w fs a ops ps z : sane C w -> runnable C w fs a ops ps z -> 0 < z -> 0 < a.
  Proof.
    intros Sn H Hz. induction H as [|a o t pi st od ad r sp c ops ps z E1 E2 E3 E4 E5 E6 E7 E8 E9 E10 E11 H IH]; [exact Hz|].
    specialize (IH Hz). destruct (N.eq_dec a 0) as [->|]; [exfalso|lia].
    apply compute_swap_ok in E10 as (H0 & _ & _ & Hg & _ & Hr & _); [|apply (holds_range C w t _ Sn E3)|exact E9|lia].
    unfold sw_ideal in Hg. rewrite N.mul_0_l, N.div_0_l in Hg by discriminate.
    assert (X : sw_gross (holds w (p_contract_addr pi) (Token t)) (holds w (p_contract_addr pi) (op_ask o)) 0 = 0) by lia.
    rewrite X in Hr. cbn in Hr. lia.
  Qed.

  (** All hops of a route: [z] is what the last pair pays to [to]. *)
  Lemma route_run fs f r rst to : human A rst = Some f -> norm A to = Some to -> norm A r = Some r -> to <> r ->
    forall ops o0 lst w a ps z, sane C w -> state_at w r = Some (SRouter rst) -> fac_at w f fs ->
    runnable C w fs a ops ps z -> is_chain ops -> NoDup ps -> ~ In to ps -> 0 < z ->
    list.head ops = Some o0 -> list.last ops = Some lst ->
    holds w r (op_offer o0) = a ->
    (forall o, In o ops -> op_offer o <> op_offer o0 -> holds w r (op_offer o) = 0) ->
    exists w', (forall k rest, exists lg, run C (length ops + (9 + k)) w r (map plain (op_messages r to ops) ++ rest) =
        let* '(w2, lg2) := run C (9 + k) w' r rest in Ok (w2, lg ++ lg2)) /\
      sane C w' /\ state_at w' r = Some (SRouter rst) /\ live w' (op_ask lst) /\
      forall x j, ~ In x ps ->
        holds w' x j + (if decide (x = r /\ j = op_offer o0) then a else 0) =
        holds w x j + (if decide (x = to /\ j = op_ask lst) then z else 0).
  Proof.
    intros Hh Nto Nr Hne. induction ops as [|o ops IH]; intros o0 lst w a ps z Sn Hs Hf Hrun Hch Hnd Hto Hz Ho0 Hl Ha Hclean; [discriminate|].
    cbn in Ho0. injection Ho0 as <-. pose proof (runnable_pos _ _ _ _ _ _ Sn Hrun Hz) as Hpa.
    inversion Hrun as [|a' o' t pi st od ad q sp c ops' ps' z' E1 E2 E3 E4 E5 E6 E7 E8 E9 E10 E11 H]; subst a' o' ops' z' ps.
    set (p := p_contract_addr pi) in *. apply list.NoDup_cons in Hnd as [Hp Hnd]. rewrite E1 in Ha.
    assert (Hpto : to <> p) by (intros X; apply Hto; left; congruence).
    assert (Hrp : r <> p) by (intros X; rewrite <- X in E6; unfold pair_at in E6; congruence).
    assert (Hw2 : forall to', norm A (default r to') = Some (default r to') -> (to' = Some to \/ to' = None) ->
      exists w2, (forall k, exists lg, exec C (8 + k) w r (MExecute r (JExecuteSwapOperation o to') []) = Ok (w2, None, lg)) /\
        sane C w2 /\ state_at w2 r = Some (SRouter rst) /\ fac_at w2 f fs /\ (forall i, live w i -> live w2 i) /\
        (forall x u, pair_at w x u -> pair_at w2 x u) /\
        (forall x j, x <> p -> holds w2 x j + (if decide (x = r /\ j = Token t) then a else 0) =
                     holds w x j + (if decide (x = default r to' /\ j = op_ask o) then q else 0))).
    { intros to' Hn' _. destruct (hop_ok w r rst f fs o t pi st od ad a q sp c to') as (w2 & w1 & Ew & P1 & P2 & S2); auto.
      exists w2. split; [exact Ew|]. split; [exact S2|].
      split; [apply (pd_keep _ _ _ _ _ _ P2); [apply (pd_keep _ _ _ _ _ _ P1); [exact Hs|discriminate]|discriminate]|].
      split; [apply (pd_keep _ _ _ _ _ _ P2); [apply (pd_keep _ _ _ _ _ _ P1); [exact Hf|discriminate]|discriminate]|].
      split; [intros i Li; eapply paid_live; [exact P2|]; eapply paid_live; [exact P1|exact Li]|].
      split; [intros x u Hx; eapply paid_pair; [exact P2|]; eapply paid_pair; [exact P1|exact Hx]|].
      intros x j Hx. pose proof (pd_holds _ _ _ _ _ _ P1 x j) as X1. pose proof (pd_holds _ _ _ _ _ _ P2 x j) as X2.
      fold p in X1, X2. rewrite (decide_False (P := x = p /\ _)) in X1 by tauto. rewrite (decide_False (P := x = p /\ _)) in X2 by tauto. lia. }
    destruct ops as [|o2 ops].
    - cbn in Hl. injection Hl as <-. inversion H; subst. cbn [op_messages map app length Nat.add].
      destruct (Hw2 (Some to) Nto (or_introl eq_refl)) as (w2 & Ew & S2 & Hs2 & Hf2 & L2 & Hp2 & Hh2). cbn [default] in Hh2.
      exists w2. split.
      { intros k rest. destruct (Ew (S k)) as (lg & E). exists lg. rewrite run_plain. cbn [Nat.add] in E |- *. rewrite E. cbn [rbind]. reflexivity. }
      split; [exact S2|]. split; [exact Hs2|]. split; [apply L2; exact E4|].
      intros x j Hx. rewrite E1. apply Hh2. intros ->. apply Hx. left. reflexivity.
    - destruct (Hw2 None Nr (or_intror eq_refl)) as (w2 & Ew & S2 & Hs2 & Hf2 & L2 & Hp2 & Hh2). cbn [default] in Hh2.
      assert (Hco : op_offer o2 = op_ask o) by (apply (Hch 0%nat); reflexivity).
      assert (Hq : holds w r (op_ask o) = 0).
      { rewrite <- Hco. apply Hclean; [right; left; reflexivity|]. rewrite Hco, E1. congruence. }
      assert (Hq2 : holds w2 r (op_ask o) = q).
      { pose proof (Hh2 r (op_ask o) Hrp) as X. rewrite (decide_True (P := r = r /\ op_ask o = op_ask o)) in X by auto.
        rewrite decide_False in X by (intros [_ Y]; congruence). lia. }
      destruct (IH o2 lst w2 q ps' z S2 Hs2 Hf2) as (w' & Erun & S' & Hs' & L' & Hh'); auto.
      + eapply runnable_kept; [exact L2|exact H|]. intros x u Hx Hu. split; [apply Hp2; exact Hu|].
        intros i. pose proof (Hh2 x i) as X.
        assert (x <> p) by (intros ->; apply Hp; apply elem_of_list_In; exact Hx).
        assert (x <> r) by (intros ->; unfold pair_at in Hu; congruence).
        rewrite !decide_False in X by tauto. specialize (X H0). lia.
      + intros i u u' Hi Hi'. apply (Hch (S i)); assumption.
      + intros X. apply Hto. right. exact X.
      + congruence.
      + intros u Hu Hun. pose proof (Hh2 r (op_offer u) Hrp) as X.
        rewrite (decide_False (P := r = r /\ op_offer u = op_ask o)) in X by (intros [_ Y]; congruence).
        destruct (decide (r = r /\ op_offer u = Token t)) as [[_ Y]|Y].
        * rewrite Y in X |- *. lia.
        * rewrite (Hclean u) in X; [lia|right; exact Hu|rewrite E1; tauto].
      + exists w'. split.
        { intros k rest. change (op_messages r to (o :: o2 :: ops)) with (MExecute r (JExecuteSwapOperation o None) [] :: op_messages r to (o2 :: ops)).
          cbn [map app]. destruct (Erun k rest) as (lg2 & E2r). destruct (Ew (length (o2 :: ops) + 1 + k)%nat) as (lg1 & E1r).
          exists (lg1 ++ lg2). change (length (o :: o2 :: ops)) with (S (length (o2 :: ops))). change (S (length (o2 :: ops)) + (9 + k))%nat with (S (length (o2 :: ops) + (9 + k))).
          rewrite run_plain. replace (8 + (length (o2 :: ops) + 1 + k))%nat with (length (o2 :: ops) + (9 + k))%nat in E1r by lia.
          rewrite E1r. cbn [rbind]. rewrite E2r. destruct (run C (9 + k) w' r rest) as [[w3 lg3]|e]; cbn [rbind]; [|reflexivity]. rewrite app_assoc. reflexivity. }
        split; [exact S'|]. split; [exact Hs'|]. split; [exact L'|].
        intros x j Hx. rewrite E1. assert (x <> p) by (intros ->; apply Hx; left; reflexivity).
        pose proof (Hh' x j ltac:(intros X; apply Hx; right; exact X)) as X1. pose proof (Hh2 x j H0) as X2. rewrite Hco in X1. lia.
  Qed.
End route.

(** Executing a route as quoted. [s] sends [a] of a token of /repo to the
    router for a chain of hops over different pairs; the router holds none of
    the intermediate assets; the answer of SimulateSwapOperations is [q]. The
    transaction succeeds, also with a minimum of [q], the receiver gets exactly
    [q] of the last asset, [s] spends exactly [a], and nothing changes for
    anybody else but the pairs on the route. *)
Theorem C33_route_pays_quote C w r rst f fs s T a ops ps q z to m o0 lst : chain_ok C -> reachable C w ->
  state_at w r = Some (SRouter rst) -> human (ch_api C) rst = Some f -> fac_at w f fs ->
  executable C w fs a ops ps z -> is_chain ops -> NoDup ps ->
  list.head ops = Some o0 -> op_offer o0 = Token T -> list.last ops = Some lst ->
  router_simulate (ch_api C) (wq C w) rst a ops = Ok q -> 0 < q ->
  (forall o, In o ops -> holds w r (op_offer o) = 0) ->
  norm (ch_api C) s = Some s -> a <= holds w s (Token T) -> s <> r ->
  let rcv := default s to in
  norm (ch_api C) rcv = Some rcv -> rcv <> r -> ~ In rcv ps -> ~ In s ps ->
  (forall n, m = Some n -> n <= q /\ holds w rcv (op_ask lst) + q < 2 ^ 128 /\ ~ (rcv = s /\ op_ask lst = Token T)) ->
  exists w', succeeds C w s (MExecute T (JSend r a (HExecuteSwapOperations ops m to)) []) w' /\
    forall x j, ~ In x ps ->
      holds w' x j + (if decide (x = s /\ j = Token T) then a else 0) =
      holds w x j + (if decide (x = rcv /\ j = op_ask lst) then q else 0).
Proof.
  intros OK Hr Hs Hh Hf Hx Hch Hnd Ho0 HT Hl Hsim Hq Hclean Ns Hle Hsr rcv Nrcv Hrr Hrps Hsps Hm.
  pose proof (main_sane C w (reachable_main C OK w Hr)) as Sn.
  assert (z = q /\ a < B128) as [-> Ra].
  { unfold router_simulate in Hsim. destruct (u128_ok a) eqn:Eu; [|discriminate]. cbn [negb] in Hsim. unfold addr_humanize in Hsim. rewrite Hh in Hsim. cbn [oget rbind] in Hsim.
    rewrite (runnable_quote C w f fs a ops ps z OK Sn Hf Hx) in Hsim. destruct ops; [discriminate|]. injection Hsim as ->. split; [reflexivity|]. apply N.ltb_lt. exact Eu. }
  pose proof (executable_runnable C w fs a ops ps q OK Hr Hx) as Hrun.
  pose proof (runnable_pos C w fs a ops ps q Sn Hrun Hq) as Hpa.
  assert (Lt : live w (Token T)).
  { inversion Hrun; subst; [discriminate|]. cbn in Ho0. injection Ho0 as <-. congruence. }
  pose proof (sane_norm C OK _ _ _ Sn Hs) as Nr.
  destruct (send_ok C OK w s T r a (HExecuteSwapOperations ops m to) Sn Lt Nr Hpa Ra Hle) as (w1 & P1 & S1 & K).
  assert (Hs1 : state_at w1 r = Some (SRouter rst)) by (apply (pd_keep _ _ _ _ _ _ P1 _ _ Hs); discriminate).
  assert (Hf1 : fac_at w1 f fs) by (apply (pd_keep _ _ _ _ _ _ P1 _ _ Hf); discriminate).
  assert (Hrun1 : runnable C w1 fs a ops ps q).
  { eapply runnable_kept; [intros i; eapply paid_live; exact P1|exact Hrun|]. intros p st Hp Hpt. split; [eapply paid_pair; eauto|].
    intros i. eapply paid_other; [exact P1| |]; intros ->; [contradiction|]. unfold pair_at in Hpt. congruence. }
  assert (Hin0 : In o0 ops) by (destruct ops; [discriminate|]; cbn in Ho0; injection Ho0 as ->; left; reflexivity).
  assert (Hr1 : forall j, holds w1 r j = holds w r j + (if decide (j = Token T) then a else 0)).
  { intros j. pose proof (pd_holds _ _ _ _ _ _ P1 r j) as X. rewrite (decide_False (P := r = s /\ _)) in X by (intros [? _]; congruence).
    repeat destruct (decide _); try tauto; lia. }
  destruct (route_run C OK fs f r rst rcv Hh Nrcv Nr Hrr ops o0 lst w1 a ps q) as (w2 & Erun & S2 & Hs2 & L2 & Hh2); auto.
  { rewrite HT, Hr1, decide_True by reflexivity. rewrite <- HT, Hclean by exact Hin0. lia. }
  { intros o Ho Hne. rewrite Hr1, decide_False by congruence. rewrite Hclean by exact Ho. lia. }
  assert (Hfin : forall x j, ~ In x ps -> holds w2 x j + (if decide (x = s /\ j = Token T) then a else 0) =
      holds w x j + (if decide (x = rcv /\ j = op_ask lst) then q else 0)).
  { intros x j Hxp. pose proof (pd_holds _ _ _ _ _ _ P1 x j) as X. pose proof (Hh2 x j Hxp) as Y. rewrite HT in Y. lia. }
  exists w2. split; [|exact Hfin].
  assert (Hopt : optional_addr_validate (ch_api C) to = Ok to).
  { unfold optional_addr_validate. destruct to as [y|]; [|reflexivity]. subst rcv. cbn [default] in Nrcv. rewrite (proj2 (addr_validate_ok _ y y) (conj eq_refl Nrcv)). reflexivity. }
  assert (Hops : assert_operations ops = Ok tt) by (apply C27_chains_accepted; [destruct ops; discriminate|exact Hch]).
  assert (Hrecv : forall g, exists lg, exec C (S (length ops + 9) + g) w1 T (MExecute r (JReceive s a (HExecuteSwapOperations ops m to)) []) = Ok (w2, None, lg)).
  { intros g. cbn [Nat.add]. rewrite exec_eq. rewrite Nr. cbn [oget rbind]. rewrite bank_send_none. cbn [rbind].
    pose proof Hs1 as Hi. apply state_at_inst in Hi as (adm & Hi). rewrite Hi. cbn [oget rbind i_state call].
    unfold router_execute. cbn [jmsg_ranges]. unfold u128_ok. rewrite (proj2 (N.ltb_lt _ _) Ra). cbn [negb].
    unfold router_receive. rewrite (proj2 (addr_validate_ok _ s s) (conj eq_refl Ns)). cbn [rbind].
    assert (Hhr : hook_ranges (HExecuteSwapOperations ops m to) = true).
    { cbn [hook_ranges]. destruct m as [n|]; [|reflexivity]. destruct (Hm n eq_refl) as (? & ? & _). apply N.ltb_lt. unfold B128. lia. }
    rewrite Hhr. cbn [negb]. rewrite Hopt. cbn [rbind]. unfold execute_swap_operations. rewrite Hl, Hops. cbn [rbind]. fold rcv.
    pose proof (set_state_id w1 r _ Hi) as Hid. cbn [i_state] in Hid.
    destruct m as [n|].
    - destruct (Hm n eq_refl) as (Hn1 & Hn2 & Hn3).
      assert (Hb1 : holds w1 rcv (op_ask lst) = holds w rcv (op_ask lst)).
      { eapply paid_other; [exact P1| |]; [intros X Y; apply Hn3; auto|intros X; congruence]. }
      assert (Hb2 : holds w2 rcv (op_ask lst) = holds w rcv (op_ask lst) + q).
      { pose proof (Hfin rcv (op_ask lst) Hrps) as X. rewrite (decide_True (P := rcv = rcv /\ op_ask lst = op_ask lst)) in X by auto. rewrite decide_False in X by exact Hn3. lia. }
      assert (L1 : live w1 (op_ask lst)).
      { assert (Lw : live w (op_ask lst)); [|eapply paid_live; eauto]. clear -Hrun Hl. revert lst Hl.
        induction Hrun as [|b o t pi st od ad r sp c ops ps z E1 E2 E3 E4 E5 E6 E7 E8 E9 E10 E11 H IH]; intros lst Hl; [discriminate|].
        destruct ops; [cbn in Hl; injection Hl as <-; exact E4|apply IH; exact Hl]. }
      rewrite (query_pool_live C OK w1 _ rcv S1 L1 Nrcv) by (rewrite Hb1; unfold B128; lia). cbn [wrap rbind rs_msgs rs_attrs]. rewrite Hid.
      rewrite map_app. cbn [map]. destruct (Erun g [plain (MExecute r (JAssertMinimumReceive (op_ask lst) (holds w1 rcv (op_ask lst)) n rcv) [])]) as (lg & E).
      replace (length ops + (9 + g))%nat with (length ops + 9 + g)%nat in E by lia. rewrite E. cbn [Nat.add]. rewrite run_plain, exec_eq, Nr. cbn [oget rbind].
      rewrite bank_send_none. cbn [rbind]. pose proof Hs2 as Hi2. apply state_at_inst in Hi2 as (adm2 & Hi2). rewrite Hi2. cbn [oget rbind i_state call].
      unfold router_execute. cbn [jmsg_ranges]. unfold u128_ok.
      rewrite (proj2 (N.ltb_lt (holds w1 rcv (op_ask lst)) _)) by (rewrite Hb1; unfold B128; lia). rewrite (proj2 (N.ltb_lt n _)) by (unfold B128; lia). cbn [andb negb].
      rewrite (proj2 (addr_validate_ok _ rcv rcv) (conj eq_refl Nrcv)). cbn [rbind]. unfold assert_minimum_receive.
      rewrite (query_pool_live C OK w2 _ rcv S2 L2 Nrcv) by (rewrite Hb2; unfold B128; lia). cbn [rbind].
      assert (Hsub : u128_checked_sub (holds w2 rcv (op_ask lst)) (holds w1 rcv (op_ask lst)) = Ok q).
      { apply u128_checked_sub_ok. rewrite Hb1, Hb2. split; lia. }
      rewrite Hsub. cbn [rbind].
      destruct (N.ltb_spec q n); [lia|]. cbn [wrap rbind rs_msgs rs_attrs].
      pose proof (set_state_id w2 r _ Hi2) as Hid2. cbn [i_state] in Hid2. rewrite Hid2, run_nil. cbn [rbind]. rewrite run_nil. cbn [rbind]. eexists. reflexivity.
    - cbn [wrap rbind rs_msgs rs_attrs]. rewrite Hid. destruct (Erun g []) as (lg & E). rewrite app_nil_r in E.
      replace (length ops + (9 + g))%nat with (length ops + 9 + g)%nat in E by lia. rewrite E. cbn [Nat.add]. rewrite run_nil. cbn [rbind]. eexists. reflexivity. }
  exists (S (S (S (length ops + 9))))%nat. intros g Hg. replace g with (S (S (S (length ops + 9))) + (g - S (S (S (length ops + 9)))))%nat by lia.
  apply (K _ _ Hrecv).
Qed.

Example C33_case : let fs := fac_of ex_world "#0" in
  reachable ex_chain ex_world /\ state_at ex_world "#3" = Some (SRouter "#0") /\ human ex_api "#0" = Some "#0"%string /\
  fac_at ex_world "#0" fs /\ executable ex_chain ex_world fs 300000 ex_route ["#6"; "#4"]%string 194908 /\
  is_chain ex_route /\ NoDup ["#6"; "#4"]%string /\
  router_simulate ex_api (wq ex_chain ex_world) "#0" 300000 ex_route = Ok 194908 /\
  (forall o, In o ex_route -> holds ex_world "#3" (op_offer o) = 0) /\
  norm ex_api "bob" = Some "bob"%string /\ 300000 <= holds ex_world "bob" (Token "#2") /\
  holds ex_world "bob" (Native "uaura") + 194908 < 2 ^ 128 /\
  holds (after ex_world [ex_send_route 300000 (Some 194908)]) "bob" (Native "uaura") = holds ex_world "bob" (Native "uaura") + 194908.
Proof.
  intros fs. split; [exact ex_reachable|]. split; [vm_compute; reflexivity|]. split; [vm_compute; reflexivity|].
  split; [apply fac_of_at; vm_compute; reflexivity|].
  assert (L1 : live ex_world (Token "#1")) by (exists (tok_of ex_world "#1"); apply tok_of_at; vm_compute; reflexivity).
  assert (L2 : live ex_world (Token "#2")) by (exists (tok_of ex_world "#2"); apply tok_of_at; vm_compute; reflexivity).
  split.
  { apply (exe_cons ex_chain ex_world fs 300000 (hop (Token "#2") (Token "#1")) "#2"
      (PairInfo (Token "#1", Token "#2") "#6" "#7" (6, 6) ex_wl)%string ex_pair6 6 6 98712 990 297);
      [reflexivity|discriminate|exact L2|exact L1|vm_compute; reflexivity|vm_compute; reflexivity|right; vm_compute; auto|vm_compute; reflexivity|split; lia|].
    apply (exe_cons ex_chain ex_world fs 98712 (hop (Token "#1") (Native "uaura")) "#1"
        (PairInfo (Token "#1", Native "uaura") "#4" "#5" (6, 6) ex_wl)%string ex_pair4 6 6 194908 1930 586);
      [reflexivity|discriminate|exact L1|exact I|vm_compute; reflexivity|exact ex_pair4_at|left; vm_compute; auto|vm_compute; reflexivity|split; lia|].
    constructor. }
  split; [intros [|[|i]] o o' H H'; cbn in H, H'; try discriminate; injection H as <-; injection H' as <-; reflexivity|].
  split; [apply list.NoDup_cons; split; [rewrite elem_of_list_singleton; discriminate|apply NoDup_singleton]|].
  split; [vm_compute; reflexivity|].
  split; [intros o [<-|[<-|[]]]; vm_compute; reflexivity|].
  split; [vm_compute; reflexivity|]. split; [vm_compute; discriminate|]. split; vm_compute; reflexivity.
Qed.

(** Without "different pairs" the quote is not what is paid: a route through
    the same pair there and back is quoted 2485642 and pays 2982025. *)
Example C33_same_pair_refuted :
  let back := [hop (Token "#2") (Token "#1"); hop (Token "#1") (Token "#2")] in
  let send := (false, x_call "#2" (JSend "#3" 3000000 (HExecuteSwapOperations back None None))) in
  reachable ex_chain ex_world /\ is_chain back /\
  router_simulate ex_api (wq ex_chain ex_world) "#0" 3000000 back = Ok 2485642 /\
  holds ex_world "bob" (Token "#2") = 1000000000 /\
  holds (after ex_world [send]) "bob" (Token "#2") = 1000000000 - 3000000 + 2982025.
Proof.
  intros back send. split; [exact ex_reachable|].
  split; [intros [|[|i]] o o' H H'; cbn in H, H'; try discriminate; injection H as <-; injection H' as <-; reflexivity|].
  split; [vm_compute; reflexivity|]. split; vm_compute; reflexivity.
Qed.
(** Nor if the router holds some of the offered token: it is swept into the
    route, and the receiver is paid for it. *)
Example C33_swept_refuted :
  let w := after ex_world [(false, x_call "#2" (JTransfer "#3" 70000))] in
  reachable ex_chain w /\ router_simulate ex_api (wq ex_chain w) "#0" 300000 ex_route = Ok 194908 /\
  holds w "#3" (Token "#2") = 70000 /\
  holds (after w [ex_send_route 300000 None]) "bob" (Native "uaura") = holds w "bob" (Native "uaura") + 239294.
Proof.
  intros w. split; [eapply history_reachable; [exact ex_reachable|apply after_history]|].
  split; [vm_compute; reflexivity|]. split; vm_compute; reflexivity.
Qed.
