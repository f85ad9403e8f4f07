(** Any successful route, hop by hop, and what it leaves in the router (C55). *)
From Verif Require Import Base BigNumber CwStd BigNumberFacts Asset Messages PairMath Pair PairFacts Token Factory Router
  SwapFacts SwapFacts2 P_Swap P_Pair FactoryFacts P_Factory P_Router TokenFacts World WorldInd WorldFacts WorldInv WorldInd2
  Examples WorldExamples P_Ledger P_Registry ExecFacts P_Exec P_Route.
From Coq Require Import ZifyN.
Local Open Scope N_scope.
Ltac Zify.zify_post_hook ::= idtac.

(** ** Specification *)

(** The factory knows a pair contract of /repo for the operation, between two
    different live assets. *)
Definition tradable (C : chain) (w : world) (fs : factory_state) (o : swap_op) : Prop :=
  op_offer o <> op_ask o /\ live w (op_offer o) /\ live w (op_ask o) /\
  exists pi st od ad, factory_query_pair (ch_api C) fs (op_offer o, op_ask o) = Ok pi /\
    pair_at w (p_contract_addr pi) st /\ sides (ch_api C) st (op_offer o) (op_ask o) od ad.

(** Hop after hop, the router [r] offers all it holds of the hop's offer asset
    to the pair the factory knows, which pays what it computes on its current
    reserves: to [to] in the last hop, to the router before.  Nothing else is
    moved. *)
Inductive hops (C : chain) (fs : factory_state) (r to : string) : world -> list swap_op -> world -> Prop :=
| hops_nil w : hops C fs r to w [] w
| hops_cons w o ops pi q sp c w1 w2 :
    factory_query_pair (ch_api C) fs (op_offer o, op_ask o) = Ok pi ->
    let p := p_contract_addr pi in let n := holds w r (op_offer o) in
    p <> r -> compute_swap (holds w p (op_offer o)) (holds w p (op_ask o)) n = Ok (q, sp, c) ->
    settled w w1 [(op_offer o, r, p, n); (op_ask o, p, match ops with [] => to | _ => r end, q)] ->
    hops C fs r to w1 ops w2 ->
    hops C fs r to w (o :: ops) w2.

(** ** Execution *)
Section route.
  Context (C : chain) (OK : chain_ok C).
  Local Notation A := (ch_api C).

  (** as C32, keeping the intermediate worlds *)
  Lemma hop_paid f w r rst o to fa pi st od ad w' x lg : sane C w ->
    state_at w r = Some (SRouter rst) -> human A rst = Some fa ->
    ask_pair_info C w fa (op_offer o, op_ask o) = Ok pi -> pair_at w (p_contract_addr pi) st ->
    sides A st (op_offer o) (op_ask o) od ad -> op_offer o <> op_ask o -> live w (op_offer o) -> live w (op_ask o) ->
    exec C f w r (MExecute r (JExecuteSwapOperation o to) []) = Ok (w', x, lg) ->
    let p := p_contract_addr pi in let n := holds w r (op_offer o) in
    exists w1 q sp c rcv, compute_swap (holds w p (op_offer o)) (holds w p (op_ask o)) n = Ok (q, sp, c) /\
      paid w w1 (op_offer o) r p n /\ paid w1 w' (op_ask o) p rcv q /\ sane C w'.
  Proof.
    intros Sn Hs Hf Hq Hp Hsd Hne Lo La E. pose proof E as E0.
    apply (hop_inv C f w r rst) in E as (fa' & pi' & n & f' & x' & lg' & Hf' & Hq' & Hn & Hto & E); [|exact OK|apply Sn|exact Hs].
    rewrite Hf in Hf'. injection Hf' as <-. rewrite Hq in Hq'. injection Hq' as <-.
    pose proof (sane_norm C OK _ _ _ Sn Hp) as Np. pose proof (sane_norm C OK _ _ _ Sn Hs) as Nr.
    destruct (op_offer o) as [t|d] eqn:Eo.
    2:{ exfalso. eapply (C19_native_hop_fails C w r rst o d to f fa pi _ st); eauto; [apply Sn|]. rewrite Eo. exact Hq. }
    assert (Hrp : r <> p_contract_addr pi) by (intros X; rewrite <- X in Hp; unfold pair_at in Hp; congruence).
    apply (query_pool_ok C OK) in Hn as (_ & a & Na & -> & Rn); [|exact Sn|exact Lo|congruence]. rewrite Nr in Na. injection Na as <-.
    unfold asset_into_swap_msg in E. cbn [a_info a_amount] in E. set (p := p_contract_addr pi) in *. set (n := holds w r (Token t)) in *.
    apply (send_inv C OK) in E as (w1 & f1 & lg1 & att & P1 & S1 & _ & _ & _ & E & _); auto.
    assert (H1 : holds w1 p (Token t) = holds w p (Token t) + n).
    { pose proof (pd_holds _ _ _ _ _ _ P1 p (Token t)) as Y. destruct (decide (p = r /\ _)) as [[? _]|_]; [congruence|].
      rewrite decide_True in Y by auto. lia. }
    assert (H2 : holds w1 p (op_ask o) = holds w p (op_ask o)) by (eapply paid_other; [eassumption|congruence|congruence]).
    apply (swap_recv_inv C OK f1 w1 t p r n None None to st (op_ask o) od ad) in E as (q & sp & c & rcv & lg2 & _ & _ & _ & _ & Hc & _ & _ & P2 & S2 & _); auto;
      [|eapply paid_pair; eauto|eapply paid_live; eauto|eapply paid_live; eauto].
    exists w1, q, sp, c, rcv. split; [|auto].
    rewrite H1, H2 in Hc; replace (holds w p (Token t) + n - n) with (holds w p (Token t)) in Hc by lia; exact Hc.
  Qed.

  Lemma tradable_paid w w' i a b n fs o : paid w w' i a b n -> tradable C w fs o -> tradable C w' fs o.
  Proof.
    intros P (H1 & H2 & H3 & pi & st & od & ad & H4 & H5 & H6). split; [exact H1|]. split; [eapply paid_live; eauto|]. split; [eapply paid_live; eauto|].
    exists pi, st, od, ad. split; [exact H4|]. split; [eapply paid_pair; eauto|exact H6].
  Qed.

  Lemma route_inv fs f r rst to : human A rst = Some f -> forall ops g w w' lg, sane C w ->
    state_at w r = Some (SRouter rst) -> fac_at w f fs -> (forall o, In o ops -> tradable C w fs o) ->
    run C g w r (map plain (op_messages r to ops)) = Ok (w', lg) ->
    hops C fs r to w ops w' /\ sane C w' /\ state_at w' r = Some (SRouter rst).
  Proof.
    intros Hh. induction ops as [|o ops IH]; intros g w w' lg Sn Hs Hf Ht E.
    - destruct g; [rewrite run_0 in E; discriminate|]. cbn [op_messages map] in E. rewrite run_nil in E. injection E as <- _. split; [constructor|auto].
    - set (t' := match ops with [] => Some to | _ => None end).
      assert (Em : op_messages r to (o :: ops) = MExecute r (JExecuteSwapOperation o t') [] :: op_messages r to ops) by (destruct ops; reflexivity).
      rewrite Em in E. cbn [map] in E. destruct g; [rewrite run_0 in E; discriminate|]. rewrite run_plain in E.
      apply rbind_ok in E as ([[w1 x1] lg1] & Ee & E). apply rbind_ok in E as ([w2 lg2] & Er & E). injection E as <- _.
      destruct (Ht o (or_introl eq_refl)) as (Hne & Lo & La & pi & st & od & ad & Hq & Hp & Hsd).
      assert (Hrp : p_contract_addr pi <> r) by (intros X; rewrite X in Hp; unfold pair_at in Hp; congruence).
      assert (Hqi : ask_pair_info C w f (op_offer o, op_ask o) = Ok pi).
      { unfold ask_pair_info, contract_at. rewrite (sane_norm C OK _ _ _ Sn Hf). cbn [oget rbind]. pose proof Hf as Hi. apply state_at_inst in Hi as (adm & Hi). rewrite Hi. exact Hq. }
      destruct (C32_hop_leaves_nothing C w r rst o t' g w1 x1 lg1 f pi st od ad OK Sn Hs Hh Hqi Hp Hsd Hne Lo La Ee) as [_ (q & sp & c & Hc & Hset)].
      destruct (hop_paid g w r rst o t' f pi st od ad w1 x1 lg1 Sn Hs Hh Hqi Hp Hsd Hne Lo La Ee) as (wm & q' & sp' & c' & rcv & _ & P1 & P2 & S1).
      destruct (IH g w1 w2 lg2) as (Hk & S2 & Hs2); auto.
      + apply (pd_keep _ _ _ _ _ _ P2); [apply (pd_keep _ _ _ _ _ _ P1); [exact Hs|discriminate]|discriminate].
      + apply (pd_keep _ _ _ _ _ _ P2); [apply (pd_keep _ _ _ _ _ _ P1); [exact Hf|discriminate]|discriminate].
      + intros u Hu. eapply tradable_paid; [exact P2|]. eapply tradable_paid; [exact P1|]. apply Ht. right. exact Hu.
      + split; [|auto]. eapply hops_cons; [exact Hq|exact Hrp|exact Hc| |exact Hk]. subst t'. destruct ops; exact Hset.
  Qed.
End route.

Lemma minimum_inert C f w r rst i b m to w' lg : chain_ok C -> sane C w -> state_at w r = Some (SRouter rst) ->
  run C f w r [plain (MExecute r (JAssertMinimumReceive i b m to) [])] = Ok (w', lg) -> w' = w.
Proof.
  intros OK Sn Hs E. destruct f; [rewrite run_0 in E; discriminate|]. rewrite run_plain in E.
  apply rbind_ok in E as ([[w1 x1] lg1] & Ee & E). apply rbind_ok in E as ([w2 lg2] & Er & E). injection E as <- _.
  destruct f; [rewrite run_0 in Er; discriminate|]. rewrite run_nil in Er. injection Er as <- _.
  rewrite exec_eq, (sane_norm C OK _ _ _ Sn Hs) in Ee. cbn [oget rbind] in Ee. rewrite bank_send_none in Ee. cbn [rbind] in Ee.
  pose proof Hs as Hi. apply state_at_inst in Hi as (adm & Hi). rewrite Hi in Ee. cbn [oget rbind i_state call] in Ee.
  apply rbind_ok in Ee as ([st rsp] & Ec & Ee). apply rbind_ok in Ec as ([st' rsp'] & Ec & X). injection X as <- <-.
  unfold router_execute in Ec. destruct (negb _) in Ec; [discriminate|]. apply rbind_ok in Ec as (rc & _ & Ec).
  unfold assert_minimum_receive in Ec. apply rbind_ok in Ec as (e & _ & Ec). apply rbind_ok in Ec as (g & _ & Ec).
  destruct (g <? m); [discriminate|]. injection Ec as <- <-.
  pose proof (set_state_id w r _ Hi) as Hid. cbn [i_state] in Hid. rewrite Hid in Ee.
  apply rbind_ok in Ee as ([w6 lg6] & En & Ee). injection Ee as <- _ _. cbn [rs_msgs] in En.
  destruct f; [rewrite run_0 in En; discriminate|]. rewrite run_nil in En. injection En as <- _. reflexivity.
Qed.

Lemma routed_inv C f w r rst s ops m to w' x lg fa fs : chain_ok C -> sane C w ->
  state_at w r = Some (SRouter rst) -> human (ch_api C) rst = Some fa -> fac_at w fa fs -> (forall o, In o ops -> tradable C w fs o) ->
  exec C f w s (MExecute r (JExecuteSwapOperations ops m to) []) = Ok (w', x, lg) -> hops C fs r (default s to) w ops w'.
Proof.
  intros OK Sn Hs Hh Hf Ht E. destruct f as [|f]; [rewrite exec_0 in E; discriminate|]. rewrite exec_eq in E.
  pose proof Hs as Hi. apply state_at_inst in Hi as (adm & Hi). rewrite (sane_norm C OK _ _ _ Sn Hs) in E. cbn [oget rbind] in E.
  rewrite bank_send_none in E. cbn [rbind] in E. rewrite Hi in E. cbn [oget rbind i_state call] in E.
  apply rbind_ok in E as ([st rsp] & Ec & E). apply rbind_ok in Ec as ([st' rsp'] & Ec & X). injection X as <- <-.
  unfold router_execute in Ec. destruct (negb _) in Ec; [discriminate|]. apply rbind_ok in Ec as (to' & Eto & Ec).
  assert (to' = to) as ->.
  { unfold optional_addr_validate in Eto. destruct to as [z|]; [|congruence]. apply rbind_ok in Eto as (z' & Ez & Eto). apply addr_validate_ok in Ez as [-> _]. congruence. }
  unfold execute_swap_operations in Ec. destruct (list.last ops) as [lst|]; [|discriminate]. apply rbind_ok in Ec as (? & _ & Ec).
  pose proof (set_state_id w r _ Hi) as Hid. cbn [i_state] in Hid.
  apply rbind_ok in E as ([w2 lg2] & Er & E). injection E as <- _ _.
  destruct m as [m|].
  - apply rbind_ok in Ec as (b & _ & Ec). injection Ec as <- <-. rewrite Hid in Er. cbn [rs_msgs] in Er. rewrite map_app in Er.
    apply run_app_inv in Er as (f2 & w1 & lg1 & lg3 & R1 & R2 & _).
    destruct (route_inv C OK fs fa r rst _ Hh ops f w w1 lg1 Sn Hs Hf Ht R1) as (K & S1 & Hs1).
    apply (minimum_inert C f2 w1 r rst) in R2; auto. subst. exact K.
  - injection Ec as <- <-. rewrite Hid in Er. cbn [rs_msgs] in Er.
    apply (route_inv C OK fs fa r rst _ Hh ops f w w2 lg2 Sn Hs Hf Ht Er).
Qed.

(** ** C55 *)

(** The effect of any successful route over known pairs, chain-shaped or not:
    the sent tokens arrive at the router, then the hops are executed one after
    the other, and nothing else happens. *)
Theorem C55_route_is_its_hops C w r rst f fs s T a ops m to g w' x lg : chain_ok C -> reachable C w ->
  state_at w r = Some (SRouter rst) -> human (ch_api C) rst = Some f -> fac_at w f fs ->
  (forall o, In o ops -> tradable C w fs o) -> live w (Token T) ->
  exec C g w s (MExecute T (JSend r a (HExecuteSwapOperations ops m to)) []) = Ok (w', x, lg) ->
  exists w1, settled w w1 [(Token T, s, r, a)] /\ hops C fs r (default s to) w1 ops w'.
Proof.
  intros OK Hr Hs Hh Hf Ht L E. pose proof (main_sane C w (reachable_main C OK w Hr)) as Sn.
  apply (send_inv C OK) in E as (w1 & f1 & lg1 & att & P & S1 & _ & _ & _ & E & _); auto.
  assert (Hs1 : state_at w1 r = Some (SRouter rst)) by (apply (pd_keep _ _ _ _ _ _ P _ _ Hs); discriminate).
  assert (Hf1 : fac_at w1 f fs) by (apply (pd_keep _ _ _ _ _ _ P _ _ Hf); discriminate).
  apply (router_recv_inv C f1 w1 T r rst) in E as (_ & lg2 & E); [|exact OK|apply S1|exact Hs1].
  exists w1. split; [apply paid_settled; exact P|].
  eapply (routed_inv C f1 w1 r rst); eauto. intros o Ho. eapply tradable_paid; [exact P|]. apply Ht. exact Ho.
Qed.

Lemma hops_clean C fs r to : to <> r -> forall w ops w', hops C fs r to w ops w' ->
  (forall o, In o ops -> op_offer o <> op_ask o) -> is_chain ops ->
  (forall o, In o ops -> holds w' r (op_offer o) = 0) /\
  (forall j, (forall o, In o ops -> op_offer o <> j) -> holds w' r j = holds w r j).
Proof.
  intros Hto w ops w' H. induction H as [w|w o ops pi q sp c w1 w2 Hq p n Hp Hc Hset H IH]; intros Hne Hch.
  - split; [intros o []|reflexivity].
  - destruct IH as [IH1 IH2].
    { intros u Hu. apply Hne. right. exact Hu. }
    { intros i u u' Hi Hi'. apply (Hch (S i)); assumption. }
    assert (Hn0 : op_offer o <> op_ask o) by (apply Hne; left; reflexivity).
    assert (Hask : forall o2 l, ops = o2 :: l -> op_offer o2 = op_ask o) by (intros o2 l ->; apply (Hch 0%nat); reflexivity).
    assert (Hw : forall j, j <> op_ask o \/ ops = [] -> holds w1 r j = if decide (j = op_offer o) then 0 else holds w r j).
    { intros j Hj. specialize (Hset r j). cbn [left_ arrived fold_right] in Hset.
      rewrite (decide_False (P := r = p /\ _)) in Hset by (intros [? _]; congruence).
      rewrite (decide_False (P := r = p /\ _)) in Hset by (intros [? _]; congruence).
      rewrite (decide_False (P := r = match ops with [] => to | _ => r end /\ _)) in Hset.
      2:{ intros [X Y]. destruct Hj as [Hj|Hj]; [congruence|]. rewrite Hj in X. congruence. }
      destruct (decide (j = op_offer o)) as [->|Hjo].
      - rewrite decide_True in Hset by auto. unfold n in Hset. lia.
      - rewrite decide_False in Hset by tauto. lia. }
    assert (Hoff : (forall u, In u ops -> op_offer u <> op_offer o) -> holds w2 r (op_offer o) = 0).
    { intros X. rewrite IH2 by exact X. rewrite Hw, decide_True by auto. reflexivity. }
    split.
    + intros u [<-|Hu]; [|apply IH1; exact Hu].
      destruct (List.Exists_dec (fun u => op_offer u = op_offer o) ops (fun u => decide (op_offer u = op_offer o))) as [X|X].
      * apply List.Exists_exists in X as (u & Hu & <-). apply IH1. exact Hu.
      * apply Hoff. intros u Hu Y. apply X. apply List.Exists_exists. eauto.
    + intros j Hj. rewrite IH2 by (intros u Hu; apply Hj; right; exact Hu).
      rewrite Hw; [rewrite decide_False; [reflexivity|]|].
      * intros ->. apply (Hj o); [left; reflexivity|reflexivity].
      * destruct ops as [|o2 ops]; [auto|]. left. intros ->. apply (Hj o2); [right; left; reflexivity|]. eapply Hask. reflexivity.
Qed.

(** The router is no place where money is left: after a successful chain of
    hops for somebody else than the router it holds nothing of any asset
    offered on the route, and of every other asset what it held before and was
    sent. *)
Theorem C55_router_keeps_nothing C w r rst f fs s T a ops m to g w' x lg : chain_ok C -> reachable C w ->
  state_at w r = Some (SRouter rst) -> human (ch_api C) rst = Some f -> fac_at w f fs ->
  (forall o, In o ops -> tradable C w fs o) -> live w (Token T) -> is_chain ops -> s <> r -> default s to <> r ->
  exec C g w s (MExecute T (JSend r a (HExecuteSwapOperations ops m to)) []) = Ok (w', x, lg) ->
  (forall o, In o ops -> holds w' r (op_offer o) = 0) /\
  (forall j, (forall o, In o ops -> op_offer o <> j) -> holds w' r j = holds w r j + (if decide (j = Token T) then a else 0)).
Proof.
  intros OK Hr Hs Hh Hf Ht L Hch Hsr Hto E.
  destruct (C55_route_is_its_hops C w r rst f fs s T a ops m to g w' x lg OK Hr Hs Hh Hf Ht L E) as (w1 & Hset & Hk).
  destruct (hops_clean C fs r _ Hto w1 ops w' Hk) as [H1 H2]; [intros o Ho; apply (Ht o Ho)|exact Hch|]. split; [exact H1|].
  intros j Hj. rewrite H2 by exact Hj. specialize (Hset r j). cbn [left_ arrived fold_right] in Hset.
  rewrite (decide_False (P := r = s /\ _)) in Hset by (intros [? _]; congruence).
  destruct (decide (j = Token T)) as [->|X]; [rewrite decide_True in Hset by auto|rewrite decide_False in Hset by tauto]; lia.
Qed.

Example C55_case :
  let w' := after ex_world [ex_send_route 300000 None] in let fs := fac_of ex_world "#0" in
  reachable ex_chain ex_world /\ state_at ex_world "#3" = Some (SRouter "#0") /\ human ex_api "#0" = Some "#0"%string /\
  fac_at ex_world "#0" fs /\ (forall o, In o ex_route -> tradable ex_chain ex_world fs o) /\
  is_chain ex_route /\ is_ok (script ex_world [ex_send_route 300000 None]) = true /\
  holds w' "#3" (Token "#2") = 0 /\ holds w' "#3" (Token "#1") = 0.
Proof.
  intros w' fs. split; [exact ex_reachable|]. split; [vm_compute; reflexivity|]. split; [vm_compute; reflexivity|].
  split; [apply fac_of_at; vm_compute; reflexivity|].
  assert (L1 : live ex_world (Token "#1")) by (exists (tok_of ex_world "#1"); apply tok_of_at; vm_compute; reflexivity).
  assert (L2 : live ex_world (Token "#2")) by (exists (tok_of ex_world "#2"); apply tok_of_at; vm_compute; reflexivity).
  split.
  { intros o [<-|[<-|[]]].
    - split; [discriminate|]. split; [exact L2|]. split; [exact L1|].
      exists (PairInfo (Token "#1", Token "#2") "#6" "#7" (6, 6) ex_wl)%string, ex_pair6, 6, 6.
      split; [vm_compute; reflexivity|]. split; [vm_compute; reflexivity|]. right; vm_compute; auto.
    - split; [discriminate|]. split; [exact L1|]. split; [exact I|].
      exists (PairInfo (Token "#1", Native "uaura") "#4" "#5" (6, 6) ex_wl)%string, ex_pair4, 6, 6.
      split; [vm_compute; reflexivity|]. split; [exact ex_pair4_at|]. left; vm_compute; auto. }
  split; [intros [|[|i]] o o' H H'; cbn in H, H'; try discriminate; injection H as <-; injection H' as <-; reflexivity|].
  repeat (split; [vm_compute; reflexivity|]). vm_compute; reflexivity.
Qed.

(** What is offered must be what was sent: bob sends token #1 along with a route
    that offers token #2, of which the router was left 700 before.  The route
    succeeds with those, and bob's 5000 stay in the router, where the next
    caller, here alice, sells them for themselves. *)
Example C55_wrong_token_lost :
  let only r := HExecuteSwapOperations [r] None None in
  let w := after ex_world [(false, x_call "#2" (JTransfer "#3" 700)); (true, x_call "#1" (JTransfer "bob" 5000))]%string in
  let w1 := after w [(false, x_call "#1" (JSend "#3" 5000 (only (hop (Token "#2") (Token "#1")))))]%string in
  let w2 := after w1 [(true, x_call "#1" (JSend "#3" 1 (only (hop (Token "#1") (Token "#2")))))]%string in
  reachable ex_chain w /\ holds w "#3" (Token "#1") = 0 /\
  holds w1 "bob" (Token "#1") + 5000 = holds w "bob" (Token "#1") + 233 /\ holds w1 "#3" (Token "#1") = 5000 /\
  holds w2 "#3" (Token "#1") = 0 /\ holds w2 "alice" (Token "#2") = holds w1 "alice" (Token "#2") + 14952.
Proof.
  intros only w w1 w2. split; [eapply history_reachable; [exact ex_reachable|apply after_history]|].
  repeat (split; [vm_compute; reflexivity|]). vm_compute; reflexivity.
Qed.
