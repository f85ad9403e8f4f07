(** Exactly which routes are executed, and exactly what they do (C73). *)
From Verif Require Import Base BigNumber CwStd BigNumberFacts Asset Messages PairMath Pair PairFacts Token Factory Router
  SwapFacts SwapFacts2 P_Swap P_Pair FactoryFacts P_Factory P_Router TokenFacts World WorldInd WorldFacts WorldInv WorldInd2
  Examples WorldExamples P_Ledger P_Registry ExecFacts P_Exec P_Route P_Route2 P_Quotes.
From Coq Require Import ZifyN.
Local Open Scope N_scope.
Ltac Zify.zify_post_hook ::= idtac.

(** ** Specification *)

(** Who holds how much of what. *)
Definition ledger : Type := string -> asset_info -> N.
(** [H'] is [H] after the given payments. *)
Definition balanced (H H' : ledger) (l : list payment) : Prop :=
  forall x j, H' x j + left_ x j l = H x j + arrived x j l.

(** The hops of a route, on ledgers. In each hop the router [r] offers all it
    has of a token, at least one unit, to the pair the factory knows for the
    two assets; the pair can price it and rescale the amounts to the decimals of
    both assets, and pays the constant-product output less 0.3% to the router,
    in the last hop to [to]. Addresses, decimals and assets of the pairs are
    looked up in [w0]; they never change. *)
Inductive routed (C : chain) (w0 : world) (fs : factory_state) (r to : string) : ledger -> list swap_op -> ledger -> Prop :=
| routed_nil H H' : (forall x j, H' x j = H x j) -> routed C w0 fs r to H [] H'
| routed_cons H o ops t pi st od ad H1 H2 :
    op_offer o = Token t ->
    factory_query_pair (ch_api C) fs (op_offer o, op_ask o) = Ok pi ->
    let p := p_contract_addr pi in
    pair_at w0 p st -> sides (ch_api C) st (op_offer o) (op_ask o) od ad ->
    let n := H r (op_offer o) in let x := H p (op_offer o) in let y := H p (op_ask o) in
    let g := gross x y n in let q := g - fee g in
    0 < n -> y < 2 ^ 128 -> priced x y n -> decimals_fit od ad n q (at_price x y n - g) ->
    balanced H H1 [(op_offer o, r, p, n); (op_ask o, p, match ops with [] => to | _ => r end, q)] ->
    routed C w0 fs r to H1 ops H2 ->
    routed C w0 fs r to H (o :: ops) H2.

(** ** Lemmas *)
Lemma balanced_fun H H' K K' l : (forall x j, H x j = K x j) -> balanced H H' l -> balanced K K' l -> forall x j, H' x j = K' x j.
Proof. intros E B B' x j. specialize (B x j). specialize (B' x j). rewrite E in B. lia. Qed.
Lemma balanced_ext H K H' K' l : (forall x j, H x j = K x j) -> (forall x j, H' x j = K' x j) -> balanced H H' l -> balanced K K' l.
Proof. intros E E' B x j. rewrite <- E, <- E'. apply B. Qed.

Section route.
  Context (C : chain) (OK : chain_ok C).
  Local Notation A := (ch_api C).

  (** A successful hop, as [hop_paid] with all its conditions. *)
  Lemma hop_full f w r rst o to fa pi st od ad w' x lg : sane C w ->
    state_at w r = Some (SRouter rst) -> human A rst = Some fa ->
    ask_pair_info C w fa (op_offer o, op_ask o) = Ok pi -> pair_at w (p_contract_addr pi) st ->
    sides A st (op_offer o) (op_ask o) od ad -> op_offer o <> op_ask o -> live w (op_offer o) -> live w (op_ask o) ->
    norm A (default r to) = Some (default r to) ->
    exec C f w r (MExecute r (JExecuteSwapOperation o to) []) = Ok (w', x, lg) ->
    let p := p_contract_addr pi in let n := holds w r (op_offer o) in
    exists t w1 q sp c, op_offer o = Token t /\ 0 < n /\ holds w p (op_ask o) < B128 /\
      compute_swap (holds w p (op_offer o)) (holds w p (op_ask o)) n = Ok (q, sp, c) /\ decimals_fit od ad n q sp /\
      paid w w1 (op_offer o) r p n /\ paid w1 w' (op_ask o) p (default r to) q /\ sane C w'.
  Proof.
    intros Sn Hs Hf Hq Hp Hsd Hne Lo La Nto E. pose proof E as E0.
    apply (hop_inv C f w r rst) in E as (fa' & pi' & n & f' & x' & lg' & Hf' & Hq' & Hn & Hto & E); [|exact OK|apply Sn|exact Hs].
    rewrite Hf in Hf'. injection Hf' as <-. rewrite Hq in Hq'. injection Hq' as <-.
    pose proof (sane_norm C OK _ _ _ Sn Hp) as Np. pose proof (sane_norm C OK _ _ _ Sn Hs) as Nr.
    destruct (op_offer o) as [t|d] eqn:Eo.
    2:{ exfalso. eapply (C19_native_hop_fails C w r rst o d to f fa pi _ st); eauto; [apply Sn|]. rewrite Eo. exact Hq. }
    assert (Hrp : r <> p_contract_addr pi) by (intros X; rewrite <- X in Hp; unfold pair_at in Hp; congruence).
    apply (query_pool_ok C OK) in Hn as (_ & a & Na & -> & Rn); [|exact Sn|exact Lo|congruence]. rewrite Nr in Na. injection Na as <-.
    unfold asset_into_swap_msg in E. cbn [a_info a_amount] in E. set (p := p_contract_addr pi) in *. set (n := holds w r (Token t)) in *.
    apply (send_inv C OK) in E as (w1 & f1 & lg1 & att & P1 & S1 & Hpos & _ & _ & E & _); auto.
    assert (H1 : holds w1 p (Token t) = holds w p (Token t) + n).
    { pose proof (pd_holds _ _ _ _ _ _ P1 p (Token t)) as Y. destruct (decide (p = r /\ _)) as [[? _]|_]; [congruence|].
      rewrite decide_True in Y by auto. lia. }
    assert (H2 : holds w1 p (op_ask o) = holds w p (op_ask o)) by (eapply paid_other; [eassumption|congruence|congruence]).
    apply (swap_recv_inv C OK f1 w1 t p r n None None to st (op_ask o) od ad) in E as (q & sp & c & rcv & lg2 & _ & _ & _ & Ra & Hc & Hm & Hrc & P2 & S2 & _); auto;
      [|eapply paid_pair; eauto|eapply paid_live; eauto|eapply paid_live; eauto].
    exists t, w1, q, sp, c. split; [reflexivity|]. split; [exact Hpos|]. split; [congruence|].
    split; [rewrite H1, H2 in Hc; replace (holds w p (Token t) + n - n) with (holds w p (Token t)) in Hc by lia; exact Hc|].
    split; [apply no_limit_iff in Hm; exact Hm|]. split; [exact P1|]. split; [|exact S2].
    change (match to with Some z => z | None => r end) with (default r to) in Hrc. rewrite Nto in Hrc.
    destruct Hrc as [Hrc|Hz]; [injection Hrc as <-; exact P2|]. subst q. destruct P2 as [X1 X2 X3 X4 X5]. split; auto.
    - intros y j. specialize (X2 y j). repeat destruct (decide _); lia.
  Qed.

  Lemma ask_at w f fs i pi : sane C w -> fac_at w f fs -> factory_query_pair A fs i = Ok pi -> ask_pair_info C w f i = Ok pi.
  Proof.
    intros Sn Hf Hq. unfold ask_pair_info, contract_at. rewrite (sane_norm C OK _ _ _ Sn Hf). cbn [oget rbind]. pose proof Hf as Hi. apply state_at_inst in Hi as (adm & Hi). rewrite Hi. exact Hq.
  Qed.
  Lemma sides_fun st i j od ad od' ad' : i <> j -> sides A st i j od ad -> sides A st i j od' ad' -> od = od' /\ ad = ad'.
  Proof. intros Hne H H'. unfold sides in *. rewrite !named_normal in H, H'. destruct H as [H|H], H' as [H'|H']; intuition congruence. Qed.

  (** One hop of the specification out of one of the execution. *)
  Lemma hop_spec w p r i j n q sp c t : sane C w -> i = Token t -> live w i -> holds w p j < B128 ->
    n = holds w r i -> compute_swap (holds w p i) (holds w p j) n = Ok (q, sp, c) ->
    let g := gross (holds w p i) (holds w p j) n in
    priced (holds w p i) (holds w p j) n /\ q = g - fee g /\ sp = at_price (holds w p i) (holds w p j) n - g.
  Proof.
    intros Sn -> L Ra -> Hc g. apply compute_swap_iff in Hc as (X & -> & -> & _); auto; apply (holds_range C w t _ Sn L).
  Qed.

  (** What a route does not change of [w0]. *)
  Definition later (w0 w : world) : Prop :=
    (forall p st, pair_at w0 p st -> pair_at w p st) /\ (forall i, live w0 i -> live w i).
  Lemma later_paid w0 w w' i a b n : later w0 w -> paid w w' i a b n -> later w0 w'.
  Proof. intros [H1 H2] P. split; [intros; eapply paid_pair; eauto|intros; eapply paid_live; eauto]. Qed.

  Lemma routed_inv_gen w0 fs f r rst to : human A rst = Some f -> norm A to = Some to -> norm A r = Some r ->
    forall ops g w w' lg, sane C w ->
    state_at w r = Some (SRouter rst) -> fac_at w f fs -> (forall o, In o ops -> tradable C w0 fs o) -> later w0 w ->
    run C g w r (map plain (op_messages r to ops)) = Ok (w', lg) ->
    routed C w0 fs r to (holds w) ops (holds w').
  Proof.
    intros Hh Nto Nr. induction ops as [|o ops IH]; intros g w w' lg Sn Hs Hf Ht Hw E.
    - destruct g; [rewrite run_0 in E; discriminate|]. cbn [op_messages map] in E. rewrite run_nil in E. injection E as <- _. constructor. reflexivity.
    - set (t' := match ops with [] => Some to | _ => None end).
      assert (Em : op_messages r to (o :: ops) = MExecute r (JExecuteSwapOperation o t') [] :: op_messages r to ops) by (destruct ops; reflexivity).
      rewrite Em in E. cbn [map] in E. destruct g; [rewrite run_0 in E; discriminate|]. rewrite run_plain in E.
      apply rbind_ok in E as ([[w1 x1] lg1] & Ee & E). apply rbind_ok in E as ([w2 lg2] & Er & E). injection E as <- _.
      destruct (Ht o (or_introl eq_refl)) as (Hne & Lo & La & pi & st & od & ad & Hq & Hp & Hsd).
      assert (Nt' : norm A (default r t') = Some (default r t')) by (unfold t'; destruct ops; assumption).
      apply (proj2 Hw) in Lo. apply (proj2 Hw) in La.
      destruct (hop_full g w r rst o t' f pi st od ad w1 x1 lg1 Sn Hs Hh (ask_at _ _ _ _ _ Sn Hf Hq) (proj1 Hw _ _ Hp) Hsd Hne Lo La Nt' Ee)
        as (t & wm & q & sp & c & Eo & Hpos & Ra & Hc & Hd & P1 & P2 & S1).
      destruct (hop_spec w (p_contract_addr pi) r (op_offer o) (op_ask o) _ q sp c t Sn Eo Lo Ra eq_refl Hc) as (Pr & -> & ->).
      eapply (routed_cons C w0 fs r to (holds w) o ops t pi st od ad (holds w1)); [exact Eo|exact Hq|exact Hp|exact Hsd|exact Hpos|exact Ra|exact Pr|exact Hd| |].
      + pose proof (settled_app _ _ _ _ _ (paid_settled _ _ _ _ _ _ P1) (paid_settled _ _ _ _ _ _ P2)) as X. cbn [app] in X.
        unfold t' in X. destruct ops; exact X.
      + apply (IH g w1 w2 lg2); auto.
        * apply (pd_keep _ _ _ _ _ _ P2); [apply (pd_keep _ _ _ _ _ _ P1); [exact Hs|discriminate]|discriminate].
        * apply (pd_keep _ _ _ _ _ _ P2); [apply (pd_keep _ _ _ _ _ _ P1); [exact Hf|discriminate]|discriminate].
        * intros u Hu. apply Ht. right. exact Hu.
        * eapply later_paid; [eapply later_paid; eauto|eauto].
  Qed.

  (** The converse: the hops of the specification are executed. *)
  Lemma routed_run w0 fs f r rst to : human A rst = Some f -> norm A to = Some to -> norm A r = Some r ->
    forall ops H H', routed C w0 fs r to H ops H' -> forall w, (forall x j, H x j = holds w x j) -> sane C w ->
    state_at w r = Some (SRouter rst) -> fac_at w f fs -> (forall o, In o ops -> tradable C w0 fs o) -> later w0 w ->
    exists w', (forall k rest, exists lg, run C (length ops + (9 + k)) w r (map plain (op_messages r to ops) ++ rest) =
        let* '(w2, lg2) := run C (9 + k) w' r rest in Ok (w2, lg ++ lg2)) /\
      sane C w' /\ state_at w' r = Some (SRouter rst) /\ later w0 w' /\ forall x j, H' x j = holds w' x j.
  Proof.
    intros Hh Nto Nr ops H H' R.
    induction R as [H H' E|H o ops t pi st od ad H1 H2 Eo Hq p Hp Hsd n x y g q Hpos Ra Pr Hd Hb R IH]; intros w EH Sn Hs Hf Ht Hw.
    - exists w. split; [|split; [exact Sn|split; [exact Hs|split; [exact Hw|]]]].
      + intros k rest. exists []. cbn [op_messages map app length Nat.add]. destruct (run C _ w r rest) as [[w2 lg2]|]; reflexivity.
      + intros x j. rewrite E. apply EH.
    - destruct (Ht o (or_introl eq_refl)) as (Hne & Lo & La & _). apply (proj2 Hw) in Lo. apply (proj2 Hw) in La. pose proof (proj1 Hw _ _ Hp) as Hp1.
      set (t' := match ops with [] => Some to | _ => None end).
      assert (Nt' : norm A (default r t') = Some (default r t')) by (unfold t'; destruct ops; assumption).
      assert (Ex : x = holds w p (op_offer o)) by apply EH. assert (Ey : y = holds w p (op_ask o)) by apply EH. assert (En : n = holds w r (op_offer o)) by apply EH.
      rewrite Eo in *.
      assert (Hc : compute_swap x y n = Ok (q, at_price x y n - g, fee g)).
      { apply compute_swap_iff; [rewrite Ex; apply (holds_range C w t p Sn Lo)|exact Ra|rewrite En; apply (holds_range C w t r Sn Lo)|]. auto. }
      clearbody n x y. subst x y.
      destruct (hop_ok C OK w r rst f fs o t pi st od ad n q (at_price (holds w p (Token t)) (holds w p (op_ask o)) n - g) (fee g) t') as (w1 & wm & Ee & P1 & P2 & S1); auto.
      destruct (IH w1) as (w' & Er & S2 & Hs2 & Hw2 & Hfin); auto.
      + pose proof (settled_app _ _ _ _ _ (paid_settled _ _ _ _ _ _ P1) (paid_settled _ _ _ _ _ _ P2)) as X. cbn [app] in X.
        eapply balanced_fun; [exact EH|exact Hb|]. unfold t' in X. destruct ops; exact X.
      + apply (pd_keep _ _ _ _ _ _ P2); [apply (pd_keep _ _ _ _ _ _ P1); [exact Hs|discriminate]|discriminate].
      + apply (pd_keep _ _ _ _ _ _ P2); [apply (pd_keep _ _ _ _ _ _ P1); [exact Hf|discriminate]|discriminate].
      + intros u Hu. apply Ht. right. exact Hu.
      + eapply later_paid; [eapply later_paid; eauto|eauto].
      + exists w'. split; [|auto]. intros k rest.
        assert (Em : op_messages r to (o :: ops) = MExecute r (JExecuteSwapOperation o t') [] :: op_messages r to ops) by (destruct ops; reflexivity).
        rewrite Em. cbn [map app length Nat.add]. destruct (Ee (S (length ops + k))) as (lg1 & E1). destruct (Er k rest) as (lg2 & E2).
        rewrite run_plain. cbn [Nat.add] in E1, E2. replace (length ops + S (S (S (S (S (S (S (S (S k)))))))))%nat with (S (S (S (S (S (S (S (S (S (length ops + k)))))))))) in * by lia.
        rewrite E1. cbn [rbind]. rewrite E2. destruct (run C _ w' r rest) as [[w2 l2]|]; cbn [rbind]; [|exists []; reflexivity].
        exists (lg1 ++ lg2). rewrite app_assoc. reflexivity.
  Qed.
  Lemma routed_ext w0 fs r to ops : forall H H2 K2, (forall x j, H2 x j = K2 x j) ->
    routed C w0 fs r to H ops H2 -> routed C w0 fs r to H ops K2.
  Proof.
    intros H H2 K2 E2 R. revert K2 E2. induction R as [H H2 E|H o ops t pi st od ad H1 H2 Eo Hq p Hp Hsd n x y g q Hpos Ra Pr Hd Hb R IH]; intros K2 E2.
    - constructor. intros. rewrite <- E2. apply E.
    - eapply (routed_cons C w0 fs r to H o ops t pi st od ad H1 K2); eauto.
  Qed.
End route.

(** The router's share of the work: the call is executed exactly if the list
    of operations is well formed, the receiver is an address, the hops can be
    made and the receiver ends up with enough. *)
Lemma router_exec_inv C f w0 w r rst s ops m to w' x lg fa fs : chain_ok C -> sane C w ->
  state_at w r = Some (SRouter rst) -> human (ch_api C) rst = Some fa -> fac_at w fa fs ->
  (forall o, In o ops -> tradable C w0 fs o) -> later w0 w -> norm (ch_api C) s = Some s ->
  exec C f w s (MExecute r (JExecuteSwapOperations ops m to) []) = Ok (w', x, lg) ->
  route_valid ops /\ fits m /\ (forall z, to = Some z -> norm (ch_api C) z = Some z) /\
  routed C w0 fs r (default s to) (holds w) ops (holds w') /\ sane C w' /\ (forall i, live w0 i -> live w' i).
Proof.
  intros OK Sn Hs Hh Hf Ht Hw Ns E. assert (Hlive : forall i, live w0 i -> live w' i).
  { intros [u|] Li; [|exact I]. destruct (proj2 Hw _ Li) as (us & Hu). destruct (exec_always C OK _ _ _ _ _ _ _ E (proj1 Sn)) as [_ G].
    destruct (grows_state _ _ _ _ G Hu) as (su & Hsu & Ku). destruct su; try contradiction. eexists; exact Hsu. }
  destruct f as [|f]; [rewrite exec_0 in E; discriminate|]. rewrite exec_eq in E.
  pose proof Hs as Hi. apply state_at_inst in Hi as (adm & Hi). pose proof (sane_norm C OK _ _ _ Sn Hs) as Nr. rewrite Nr in E. cbn [oget rbind] in E.
  rewrite bank_send_none in E. cbn [rbind] in E. rewrite Hi in E. cbn [oget rbind i_state call] in E.
  apply rbind_ok in E as ([st rsp] & Ec & E). apply rbind_ok in Ec as ([st' rsp'] & Ec & X). injection X as <- <-.
  unfold router_execute in Ec. cbn [jmsg_ranges] in Ec. destruct (negb _) eqn:Er in Ec; [discriminate|]. apply rbind_ok in Ec as (to' & Eto & Ec).
  assert (to' = to /\ (forall z, to = Some z -> norm (ch_api C) z = Some z)) as [-> Nto].
  { unfold optional_addr_validate in Eto. destruct to as [z|]; [|split; [congruence|discriminate]]. apply rbind_ok in Eto as (z' & Ez & Eto). apply addr_validate_ok in Ez as [-> Nz].
    injection Eto as <-. split; [reflexivity|]. intros u Hu. congruence. }
  assert (Nd : norm (ch_api C) (default s to) = Some (default s to)) by (destruct to as [z|]; cbn [default]; auto).
  unfold execute_swap_operations in Ec. destruct (list.last ops) as [lst|] eqn:El; [|discriminate]. apply rbind_ok in Ec as ([] & Ea & Ec).
  apply C27_route_accepted_iff in Ea. split; [exact Ea|].
  split; [destruct m; unfold fits; [apply negb_false_iff in Er; unfold u128_ok in Er; apply N.ltb_lt in Er; exact Er|exact I]|]. split; [exact Nto|].
  pose proof (set_state_id w r _ Hi) as Hid. cbn [i_state] in Hid.
  apply rbind_ok in E as ([w2 lg2] & Erun & E). injection E as <- _ _.
  assert (Htw : forall o, In o ops -> tradable C w fs o).
  { intros o Ho. destruct (Ht o Ho) as (A1 & A2 & A3 & pi & q & od & ad & B1 & B2 & B3). split; [exact A1|]. split; [apply (proj2 Hw); exact A2|]. split; [apply (proj2 Hw); exact A3|].
    exists pi, q, od, ad. split; [exact B1|]. split; [apply (proj1 Hw); exact B2|exact B3]. }
  destruct m as [m|].
  - apply rbind_ok in Ec as (b & _ & Ec). injection Ec as <- <-. rewrite Hid in Erun. cbn [rs_msgs] in Erun. rewrite map_app in Erun.
    apply run_app_inv in Erun as (f2 & w1 & lg1 & lg3 & R1 & R2 & _).
    destruct (route_inv C OK fs fa r rst _ Hh ops f w w1 lg1 Sn Hs Hf Htw R1) as (_ & S1 & Hs1).
    apply (minimum_inert C f2 w1 r rst) in R2; auto. subst. split; [|split; [exact S1|exact Hlive]]. eapply (routed_inv_gen C OK w0 fs fa r rst); eauto.
  - injection Ec as <- <-. rewrite Hid in Erun. cbn [rs_msgs] in Erun.
    destruct (route_inv C OK fs fa r rst _ Hh ops f w w2 lg2 Sn Hs Hf Htw Erun) as (_ & S1 & Hs1). split; [|split; [exact S1|exact Hlive]]. eapply (routed_inv_gen C OK w0 fs fa r rst); eauto.
Qed.

(** ** C73 *)

(** One execution suffices for the conditions. *)
Lemma route_exec_inv C w r rst f fs s T a ops m to H2 k w' x lg : chain_ok C -> reachable C w ->
  state_at w r = Some (SRouter rst) -> human (ch_api C) rst = Some f -> fac_at w f fs ->
  (forall o, In o ops -> tradable C w fs o) -> live w (Token T) -> norm (ch_api C) s = Some s ->
  let rcv := default s to in
  exec C k w s (MExecute T (JSend r a (HExecuteSwapOperations ops m to)) []) = Ok (w', x, lg) -> (forall x j, holds w' x j = H2 x j) ->
  0 < a <= holds w s (Token T) /\ route_valid ops /\ fits m /\ (forall z, to = Some z -> norm (ch_api C) z = Some z) /\
  exists H1, balanced (holds w) H1 [(Token T, s, r, a)] /\ routed C w fs r rcv H1 ops H2 /\
    (forall n lst, m = Some n -> list.last ops = Some lst ->
       H1 rcv (op_ask lst) < 2 ^ 128 /\ H2 rcv (op_ask lst) < 2 ^ 128 /\ H1 rcv (op_ask lst) + n <= H2 rcv (op_ask lst)).
Proof.
  intros OK Hr Hs Hh Hf Ht Lt Ns rcv E EH. pose proof (main_sane C w (reachable_main C OK w Hr)) as Sn. pose proof (sane_norm C OK _ _ _ Sn Hs) as Nr.
  apply (send_inv C OK) in E as (w1 & f1 & lg1 & att & P & S1 & Hpos & Ra & _ & E & _); auto.
  assert (Hs1 : state_at w1 r = Some (SRouter rst)) by (apply (pd_keep _ _ _ _ _ _ P _ _ Hs); discriminate).
  assert (Hf1 : fac_at w1 f fs) by (apply (pd_keep _ _ _ _ _ _ P _ _ Hf); discriminate).
  apply (router_recv_inv C f1 w1 T r rst) in E as (_ & lg2 & E); [|exact OK|apply S1|exact Hs1].
  assert (Hl : later w w1) by (split; [intros p st; eapply paid_pair; exact P|intros i; eapply paid_live; exact P]).
  destruct (router_exec_inv C f1 w w1 r rst s ops m to w' None lg2 f fs OK S1 Hs1 Hh Hf1 Ht Hl Ns E) as (Hv & Hm & Hto & R & S2 & Hlv).
  split; [split; [exact Hpos|apply (pd_have _ _ _ _ _ _ P)]|]. split; [exact Hv|]. split; [exact Hm|]. split; [exact Hto|].
  exists (holds w1). split; [apply paid_settled; exact P|]. split; [eapply routed_ext; [exact EH|exact R]|].
  intros n lst -> Hlst. assert (Nd : norm (ch_api C) rcv = Some rcv) by (unfold rcv; destruct to as [z|]; cbn [default]; auto).
  apply (C28_minimum_enforced C w1 r rst) in E as (w2 & l' & b & e & Eb & Hl' & Qb & Qe & Hle); [|exact OK|apply S1|exact Hs1].
  rewrite Hlst in Hl'. injection Hl' as <-. rewrite bank_send_none in Eb. injection Eb as <-. fold rcv in Qb, Qe.
  assert (Hin : In lst ops) by (apply elem_of_list_In, last_Some_elem_of; exact Hlst).
  assert (L0 : live w (op_ask lst)) by apply (Ht lst Hin).
  assert (L1 : live w1 (op_ask lst)) by (apply (proj2 Hl); exact L0).
  apply (query_pool_ok C OK) in Qb as (_ & a1 & N1 & -> & B1); [|exact S1|exact L1|congruence].
  apply (query_pool_ok C OK) in Qe as (_ & a2 & N2 & -> & B2); [|exact S2|apply Hlv; exact L0|congruence].
  rewrite Nd in N1, N2. injection N1 as <-. injection N2 as <-. rewrite <- !EH. exact (conj B1 (conj B2 Hle)).
Qed.

(** Sending [a] units of token [T] to the router with a route over known
    pairs: the call is executed, with [H2] the balances afterwards, exactly if
    the sender has the tokens, the route and the receiver are well formed, the
    hops lead from the balances with the tokens at the router to [H2], and the
    receiver gets the minimum it asked for. *)
Theorem C73_route_iff C w r rst f fs s T a ops m to H2 : chain_ok C -> reachable C w ->
  state_at w r = Some (SRouter rst) -> human (ch_api C) rst = Some f -> fac_at w f fs ->
  (forall o, In o ops -> tradable C w fs o) -> live w (Token T) -> norm (ch_api C) s = Some s ->
  let rcv := default s to in
  (exists w', succeeds C w s (MExecute T (JSend r a (HExecuteSwapOperations ops m to)) []) w' /\ forall x j, holds w' x j = H2 x j) <->
  0 < a <= holds w s (Token T) /\ route_valid ops /\ fits m /\ (forall z, to = Some z -> norm (ch_api C) z = Some z) /\
  exists H1, balanced (holds w) H1 [(Token T, s, r, a)] /\ routed C w fs r rcv H1 ops H2 /\
    (forall n lst, m = Some n -> list.last ops = Some lst ->
       H1 rcv (op_ask lst) < 2 ^ 128 /\ H2 rcv (op_ask lst) < 2 ^ 128 /\ H1 rcv (op_ask lst) + n <= H2 rcv (op_ask lst)).
Proof.
  intros OK Hr Hs Hh Hf Ht Lt Ns rcv. pose proof (main_sane C w (reachable_main C OK w Hr)) as Sn. pose proof (sane_norm C OK _ _ _ Sn Hs) as Nr. split.
  - intros (w' & (k & Hk) & EH). destruct (Hk k (le_n k)) as (lg & E). eapply route_exec_inv; eauto.
  - intros ([Hpos Hle] & Hv & Hm & Hto & H1 & Hb & R & Hmin).
    assert (Ra : a < B128) by (pose proof (holds_range C w T s Sn Lt); lia).
    assert (Nd : norm (ch_api C) rcv = Some rcv) by (unfold rcv; destruct to as [z|]; cbn [default]; auto).
    destruct (send_ok C OK w s T r a (HExecuteSwapOperations ops m to) Sn Lt Nr Hpos Ra Hle) as (w1 & P1 & S1 & K).
    assert (Hs1 : state_at w1 r = Some (SRouter rst)) by (apply (pd_keep _ _ _ _ _ _ P1 _ _ Hs); discriminate).
    assert (Hf1 : fac_at w1 f fs) by (apply (pd_keep _ _ _ _ _ _ P1 _ _ Hf); discriminate).
    assert (Hl : later w w1) by (split; [intros p st; eapply paid_pair; exact P1|intros i; eapply paid_live; exact P1]).
    assert (E1 : forall x j, H1 x j = holds w1 x j) by (eapply balanced_fun; [|exact Hb|apply paid_settled; exact P1]; reflexivity).
    destruct (routed_run C OK w fs f r rst rcv Hh Nd Nr ops H1 H2 R w1 E1 S1 Hs1 Hf1 Ht Hl) as (w2 & Erun & S2 & Hs2 & Hl2 & E2).
    exists w2. split; [|intros x j; symmetry; apply E2].
    assert (Hopt : optional_addr_validate (ch_api C) to = Ok to).
    { unfold optional_addr_validate. destruct to as [y|]; [|reflexivity]. rewrite (proj2 (addr_validate_ok _ y y) (conj eq_refl (Hto y eq_refl))). reflexivity. }
    assert (Hops : assert_operations ops = Ok tt) by (apply C27_route_accepted_iff; exact Hv).
    destruct (list.last ops) as [lst|] eqn:Elst.
    2: { apply last_None in Elst. subst ops. discriminate. }
    assert (Hin : In lst ops) by (apply elem_of_list_In, last_Some_elem_of; exact Elst).
    assert (L0 : live w (op_ask lst)) by apply (Ht lst Hin).
    assert (Hrecv : forall g, exists lg, exec C (S (length ops + 9) + g) w1 T (MExecute r (JReceive s a (HExecuteSwapOperations ops m to)) []) = Ok (w2, None, lg)).
    { intros g. cbn [Nat.add]. rewrite exec_eq. rewrite Nr. cbn [oget rbind]. rewrite bank_send_none. cbn [rbind].
      pose proof Hs1 as Hi. apply state_at_inst in Hi as (adm & Hi). rewrite Hi. cbn [oget rbind i_state call].
      unfold router_execute. cbn [jmsg_ranges]. unfold u128_ok. rewrite (proj2 (N.ltb_lt _ _) Ra). cbn [negb].
      unfold router_receive. rewrite (proj2 (addr_validate_ok _ s s) (conj eq_refl Ns)). cbn [rbind].
      assert (Hhr : hook_ranges (HExecuteSwapOperations ops m to) = true).
      { cbn [hook_ranges]. destruct m as [n|]; [|reflexivity]. unfold u128_ok. apply (proj2 (N.ltb_lt n B128)). exact Hm. }
      rewrite Hhr. cbn [negb]. rewrite Hopt. cbn [rbind]. unfold execute_swap_operations. rewrite Elst, Hops. cbn [rbind]. fold rcv.
      pose proof (set_state_id w1 r _ Hi) as Hid. cbn [i_state] in Hid.
      destruct m as [n|].
      - destruct (Hmin n lst eq_refl eq_refl) as (M1 & M2 & M3). rewrite E1 in M1, M3. rewrite E2 in M2, M3.
        rewrite (query_pool_live C OK w1 _ rcv S1 (proj2 Hl _ L0) Nd) by exact M1. cbn [wrap rbind rs_msgs rs_attrs]. rewrite Hid.
        rewrite map_app. cbn [map]. destruct (Erun g [plain (MExecute r (JAssertMinimumReceive (op_ask lst) (holds w1 rcv (op_ask lst)) n rcv) [])]) as (lg & E).
        replace (length ops + (9 + g))%nat with (length ops + 9 + g)%nat in E by lia. rewrite E. cbn [Nat.add]. rewrite run_plain, exec_eq, Nr. cbn [oget rbind].
        rewrite bank_send_none. cbn [rbind]. pose proof Hs2 as Hi2. apply state_at_inst in Hi2 as (adm2 & Hi2). rewrite Hi2. cbn [oget rbind i_state call].
        unfold router_execute. cbn [jmsg_ranges]. unfold u128_ok.
        rewrite (proj2 (N.ltb_lt (holds w1 rcv (op_ask lst)) _)) by exact M1. rewrite (proj2 (N.ltb_lt n _)) by exact Hm. cbn [andb negb].
        rewrite (proj2 (addr_validate_ok _ rcv rcv) (conj eq_refl Nd)). cbn [rbind]. unfold assert_minimum_receive.
        rewrite (query_pool_live C OK w2 _ rcv S2 (proj2 Hl2 _ L0) Nd) by exact M2. cbn [rbind].
        assert (Hsub : u128_checked_sub (holds w2 rcv (op_ask lst)) (holds w1 rcv (op_ask lst)) = Ok (holds w2 rcv (op_ask lst) - holds w1 rcv (op_ask lst))).
        { apply u128_checked_sub_ok. split; [reflexivity|lia]. }
        rewrite Hsub. cbn [rbind].
        destruct (N.ltb_spec (holds w2 rcv (op_ask lst) - holds w1 rcv (op_ask lst)) n); [lia|]. cbn [wrap rbind rs_msgs rs_attrs].
        pose proof (set_state_id w2 r _ Hi2) as Hid2. cbn [i_state] in Hid2. rewrite Hid2, run_nil. cbn [rbind]. rewrite run_nil. cbn [rbind]. eexists. reflexivity.
      - cbn [wrap rbind rs_msgs rs_attrs]. rewrite Hid. destruct (Erun g []) as (lg & E). rewrite app_nil_r in E.
        replace (length ops + (9 + g))%nat with (length ops + 9 + g)%nat in E by lia. rewrite E. cbn [Nat.add]. rewrite run_nil. cbn [rbind]. eexists. reflexivity. }
    exists (S (S (S (length ops + 9))))%nat. intros g Hg. replace g with (S (S (S (length ops + 9))) + (g - S (S (S (length ops + 9)))))%nat by lia.
    apply (K _ _ Hrecv).
Qed.

(** Bob sends 300000 #2 over #1 to uaura. The route is executed if they ask
    for at most 194908 uaura, and the balances afterwards follow the
    specification. *)
Example C73_case :
  let fs := fac_of ex_world "#0" in let w' := after ex_world [ex_send_route 300000 (Some 194908)] in
  reachable ex_chain ex_world /\ state_at ex_world "#3" = Some (SRouter "#0") /\ human ex_api "#0" = Some "#0"%string /\
  fac_at ex_world "#0" fs /\ (forall o, In o ex_route -> tradable ex_chain ex_world fs o) /\
  live ex_world (Token "#2") /\ norm ex_api "bob" = Some "bob"%string /\
  (exists w2, succeeds ex_chain ex_world "bob" (ex_send_route 300000 (Some 194908)).2 w2 /\ forall x j, holds w2 x j = holds w' x j) /\
  (exists H1, balanced (holds ex_world) H1 [(Token "#2", "bob", "#3", 300000)%string] /\
     routed ex_chain ex_world fs "#3" "bob" H1 ex_route (holds w') /\
     H1 "bob"%string (Native "uaura") + 194908 = holds w' "bob" (Native "uaura")) /\
  is_ok (script ex_world [ex_send_route 300000 (Some 194909)]) = false.
Proof.
  intros fs w'. destruct C55_case as (A1 & A2 & A3 & A4 & A5 & _).
  assert (L2 : live ex_world (Token "#2")) by (exists (tok_of ex_world "#2"); apply tok_of_at; vm_compute; reflexivity).
  assert (Nb : norm ex_api "bob" = Some "bob"%string) by (vm_compute; reflexivity).
  assert (Ok1 : is_ok (script ex_world [ex_send_route 300000 (Some 194908)]) = true) by (vm_compute; reflexivity).
  destruct (one_tx ex_world false _ Ok1) as (_ & k & x & Ex). fold w' in Ex.
  pose proof (route_exec_inv ex_chain ex_world "#3" "#0" "#0" fs "bob" "#2" 300000 ex_route (Some 194908) None (holds w') _ _ _ _
    ex_chain_ok A1 A2 A3 A4 A5 L2 Nb Ex (fun _ _ => eq_refl)) as X.
  do 7 (split; [assumption|]). split; [|split; [|vm_compute; reflexivity]].
  - apply (C73_route_iff ex_chain ex_world "#3" "#0" "#0" fs "bob" "#2" 300000 ex_route (Some 194908) None (holds w')
      ex_chain_ok A1 A2 A3 A4 A5 L2 Nb). exact X.
  - destruct X as (_ & _ & _ & _ & H1 & B & R & _).
    exists H1. split; [exact B|]. split; [exact R|]. specialize (B "bob"%string (Native "uaura")).
    replace (left_ "bob" (Native "uaura") [(Token "#2", "bob", "#3", 300000)%string]) with 0 in B by (vm_compute; reflexivity).
    replace (arrived "bob" (Native "uaura") [(Token "#2", "bob", "#3", 300000)%string]) with 0 in B by (vm_compute; reflexivity).
    rewrite !N.add_0_r in B. rewrite B. vm_compute. reflexivity.
Qed.
