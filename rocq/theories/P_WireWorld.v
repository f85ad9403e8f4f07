(** C107: the chain with messages and storage in bytes is the chain of the model. *)
From Verif Require Import Base BigNumber CwStd BigNumberFacts Asset Messages PairMath Pair PairFacts Token Factory Router
  World WorldInd WorldFacts WorldInv WorldInd2 Examples WorldExamples P_Ledger P_Registry ExecFacts
  Json JsonFacts Wire WireFacts P_Wire FitsInv Storage P_Store TokenStorage P_TokenStore TokenQueries QueryWire P_QueryWire P_TokenQuery SpenderWire P_SpenderWire ByteWorld P_ByteWorld ByteQuery P_ByteQuery ByteEntry P_ByteEntry WireWorld.
From Coq Require Import ZifyN Ascii String.
Local Open Scope N_scope.

(** ** Specification *)

(** Third-party code sends what can be sent as bytes: given such a message it answers
    with such messages.  (What is handed to it and by it is a typed message that
    stands for its own bytes, C87; bytes that one of the contracts reads as some
    message are given as that message.) *)
Definition sends_own_bytes (B : bchain) : Prop :=
  (forall k w self sender funds m d rsp, msg_fits m -> ba_exec B k w self sender funds m = Ok (d, rsp) -> sends_fit rsp) /\
  (forall k w self sender funds m d rsp, init_fits m -> ba_init B k w self sender funds m = Ok (d, rsp) -> sends_fit rsp) /\
  (forall k w self id ok d rsp, ba_reply B k w self id ok = Ok (d, rsp) -> sends_fit rsp).

(** ** What is sent fits *)
Lemma call_fits B w self s sender funds m s' rsp : sends_own_bytes B -> msg_fits m ->
  call (typed B) w self s sender funds m = Ok (s', rsp) -> sends_fit rsp.
Proof.
  intros (O & _) F H. destruct C87_sent_messages_fit as (F1 & F2 & F3 & F4 & _).
  destruct s as [p|f|r|x|k y]; cbn [call] in H; unfold wrap in H; apply rbind_ok in H as ([z rsp'] & H & Y); injection Y as <- <-; eauto.
  eapply O; [exact F|exact H].
Qed.
Lemma start_fits B w self c sender funds m s' rsp : sends_own_bytes B -> init_fits m ->
  init (typed B) w self c sender funds m = Ok (s', rsp) -> sends_fit rsp.
Proof.
  intros (_ & O & _) F H. destruct C87_sent_messages_fit as (_ & _ & _ & _ & F5 & _).
  destruct c as [| | | |k]; try (eapply F5; [|exact H]; intros; discriminate).
  cbn [init] in H; unfold wrap in H; apply rbind_ok in H as ([z rsp'] & H & Y); injection Y as <- <-. eapply O; [exact F|exact H].
Qed.
Lemma reply_fits B w self s id ok r s' rsp : sends_own_bytes B -> reply (typed B) w self s id ok r = Ok (s', rsp) -> sends_fit rsp.
Proof.
  intros (_ & _ & O) H. destruct C87_sent_messages_fit as (_ & _ & _ & _ & _ & F6).
  destruct s as [p|f|x|t|k d]; try (eapply F6; [|exact H]; intros; discriminate).
  cbn [reply] in H; unfold wrap in H; apply rbind_ok in H as ([z rsp'] & H & Y); injection Y as <- <-. eapply O; exact H.
Qed.

(** ** One message *)
Lemma deliver_sim B w self s sender funds m : world_ok w -> state_ok s -> msg_fits m ->
  sim rb state_good (deliver B (world_bytes w) self (bytes_of s) sender funds m) (call (typed B) w self s sender funds m).
Proof.
  intros K Ks F. destruct (C87_messages_survive m F) as (Hp & Hr & Hf & Ht).
  destruct s as [p|f|r|x|k d]; [| | | |apply (bcall_sim B w K self (SAdv k d)), Ks]; cbn [bytes_of deliver bentry call] in *.
  - specialize (Hp (bc_api B) (wq (typed B) w) self p sender funds). unfold pair_entry in Hp. change (ch_api (typed B)) with (bc_api B). rewrite <- Hp.
    destruct (from_bytes r_pair_msg (msg_bytes m)) as [m'|]; [|reflexivity]. exact (bcall_sim B w K self (SPair p) sender funds m' Ks).
  - specialize (Hf (bc_api B) (wq (typed B) w) self f sender). unfold factory_entry in Hf. change (ch_api (typed B)) with (bc_api B). rewrite <- Hf.
    destruct (from_bytes r_factory_msg (msg_bytes m)) as [m'|]; [|reflexivity]. exact (bcall_sim B w K self (SFactory f) sender funds m' Ks).
  - specialize (Hr (bc_api B) (wq (typed B) w) self r sender). unfold router_entry in Hr. change (ch_api (typed B)) with (bc_api B). rewrite <- Hr.
    destruct (from_bytes r_router_msg (msg_bytes m)) as [m'|]; [|reflexivity]. exact (bcall_sim B w K self (SRouter r) sender funds m' Ks).
  - specialize (Ht (bc_api B) (w_block w) x sender). unfold token_entry in Ht. change (ch_api (typed B)) with (bc_api B). rewrite <- Ht.
    destruct (from_bytes r_token_msg (msg_bytes m)) as [m'|]; [|reflexivity]. exact (bcall_sim B w K self (SToken x) sender funds m' Ks).
Qed.
Lemma set_up_sim B w self c sender funds m : world_ok w -> init_fits m ->
  sim rb state_good (Some (set_up B (world_bytes w) self c sender funds m)) (init (typed B) w self c sender funds m).
Proof.
  intros K F. destruct (match c with CAdv _ => true | _ => false end) eqn:D.
  - destruct c; try discriminate. cbn [set_up]. apply binit_sim; exact K.
  - assert (Nc : forall k, c <> CAdv k) by (intros k ->; discriminate). rewrite <- (C87_instantiate_survives (typed B) w self c sender funds m Nc F).
    unfold set_up, init_entry. destruct c; try discriminate D;
      match goal with |- context [from_bytes ?r ?t] => destruct (from_bytes r t) as [m'|]; [apply binit_sim; exact K|reflexivity] end.
Qed.

(** ** Dispatch *)
Lemma wrun_cons B f w self sm rest : wrun B (S f) w self (sm :: rest) =
            let! '(w1, lg1) :=
              match sm_reply sm, wexec B f w self (sm_msg sm) with
              | _, None => None
              | ReplyNever, Some (Ok (w', _, lg)) => Some (Ok (w', lg))
              | ReplyNever, Some (Err e) => Some (Err e)
              | ReplySuccess _, Some (Err e) => Some (Err e)
              | ReplySuccess id, Some (Ok (w', r, lg)) | ReplyAlways id, Some (Ok (w', r, lg)) =>
                  let! i := Some (oget (bw_insts w' !! self) ENotFound) in
                  let! '(s, rsp) := Some (breply B w' self (bi_state i) id true r) in
                  let! '(w2, lg2) := wrun B f (bset_state w' self s) self (rs_msgs rsp) in
                  Some (Ok (w2, lg ++ lg2))
              | ReplyAlways id, Some (Err _) =>
                  let! i := Some (oget (bw_insts w !! self) ENotFound) in
                  let! '(s, rsp) := Some (breply B w self (bi_state i) id false None) in
                  wrun B f (bset_state w self s) self (rs_msgs rsp)
              end in
            let! '(w2, lg2) := wrun B f w1 self rest in
            Some (Ok (w2, lg1 ++ lg2)).
Proof. reflexivity. Qed.
Lemma wire_sim B fuel : sends_own_bytes B ->
  (forall w sender m, world_ok w -> cfits m -> sim xb x_good (wexec B fuel (world_bytes w) sender m) (exec (typed B) fuel w sender m)) /\
  (forall w self subs, world_ok w -> List.Forall out_fits subs -> sim rnb rn_good (wrun B fuel (world_bytes w) self subs) (run (typed B) fuel w self subs)).
Proof.
  intros OB. induction fuel as [|f [IHx IHr]]; [split; intros; reflexivity|]. split.
  - intros w sender m K Fm. destruct m as [to cs|c msg funds|admin code msg funds lb|c code|c new]; cbn [wexec exec].
    + eapply sim_bind; [apply msg_sim, K|]. intros w' _ K'. cbn. split; [reflexivity|]. split; [exact K'|constructor].
    + apply sim_step. intros a _. eapply sim_bind; [apply send_sim, K|]. intros w1 _ K1. eapply sim_bind; [apply at_sim, K1|].
      intros i Hi Ki. eapply sim_bind; [apply (deliver_sim B w1 a (i_state i) sender funds msg K1 Ki Fm)|]. intros [s rsp] Hc Ks. cbn [rb fst snd]. cbv beta iota.
      rewrite set_state_bytes. eapply sim_bind; [apply IHr; [apply ok_set; [exact K1|exact Ks]|eapply call_fits; eauto]|]. intros [w2 lg] _ [K2 L2]. cbn. split; [reflexivity|].
      split; [exact K2|]. constructor; [exact K1|exact L2].
    + apply sim_step. intros c _. apply sim_step. intros adm _. cbv zeta.
      assert (K0 : world_ok (set_next w (w_next w + 1))) by (eapply ok_insts; [|exact K]; reflexivity).
      eapply sim_bind; [exact (send_sim (set_next w (w_next w + 1)) sender (bc_fresh B (w_next w)) funds K0)|]. intros w1 _ K1.
      eapply sim_bind; [apply (set_up_sim B w1); [exact K1|exact Fm]|]. intros [s rsp] Hc Ks. cbn [rb fst snd]. cbv beta iota. rewrite new_bytes.
      eapply sim_bind; [apply IHr; [apply ok_new; [exact K1|exact Ks]|eapply start_fits; eauto]|]. intros [w2 lg] _ [K2 L2]. cbn. split; [reflexivity|]. split; assumption.
    + apply sim_step. intros a _. eapply sim_bind; [apply at_sim, K|]. intros i Hi Ki. apply sim_step. intros k _. cbn [bi_admin inst_bytes].
      destruct (bool_decide (i_admin i = Some sender)); [|reflexivity]. change (bi_state (inst_bytes i)) with (bytes_of (i_state i)). rewrite (migrated_bytes B _ k Ki).
      destruct (migrated (typed B) (i_state i) k) as [s|] eqn:E; cbn; [|reflexivity]. unfold xb. cbn. rewrite set_state_bytes. split; [reflexivity|].
      split; [|constructor]. apply ok_set; [exact K|]. cbv beta in Ki. unfold migrated in E.
      destruct (i_state i) as [p|fs|r|t|j d], k as [| | | |k']; try discriminate E; try (injection E as <-; exact Ki); cbn in E;
        destruct (bc_takeover B _ k'); try discriminate E; injection E as <-; exact I.
    + apply sim_step. intros a _. eapply sim_bind; [apply at_sim, K|]. intros i Hi Ki. apply sim_step. intros adm _. cbn [bi_admin inst_bytes].
      destruct (bool_decide (i_admin i = Some sender)); [|reflexivity]. cbn. unfold xb. cbn. rewrite set_admin_bytes. split; [reflexivity|].
      split; [apply ok_admin, K|constructor].
  - intros w self subs K Fs. destruct subs as [|sm rest]; [split; [reflexivity|]; split; [exact K|constructor]|]. apply List.Forall_cons_iff in Fs as [Fm Fs]. rewrite wrun_cons, run_cons.
    eapply (sim_bind rnb rnb rn_good).
    + pose proof (IHx w self (sm_msg sm) K Fm) as H.
      assert (Rp : forall w' id ok r lg, world_ok w' -> log_ok lg -> sim rnb rn_good
        (let! i := Some (oget (bw_insts (world_bytes w') !! self) ENotFound) in
         let! '(s, rsp) := Some (breply B (world_bytes w') self (bi_state i) id ok r) in
         let! '(w2, lg2) := wrun B f (bset_state (world_bytes w') self s) self (rs_msgs rsp) in
         Some (Ok (w2, map event_bytes lg ++ lg2)))
        (let* i := oget (w_insts w' !! self) ENotFound in
         let* '(s, rsp) := reply (typed B) w' self (i_state i) id ok r in
         let* '(w2, lg2) := run (typed B) f (set_state w' self s) self (rs_msgs rsp) in
         Ok (w2, lg ++ lg2))).
      { intros w' id ok r lg K' L. eapply sim_bind; [apply at_sim, K'|]. intros i _ Ki. eapply sim_bind; [apply (breply_sim B w' K' self (i_state i) id ok r Ki)|].
        intros [s rsp] Hc Ks. cbn [rb fst snd]. cbv beta iota. rewrite set_state_bytes. eapply sim_bind; [apply IHr; [apply ok_set; [exact K'|exact Ks]|eapply reply_fits; eauto]|].
        intros [w2 lg2] _ [K2 L2]. cbn. unfold rnb. cbn. rewrite map_app. split; [reflexivity|]. split; [exact K2|]. apply List.Forall_app. split; assumption. }
      destruct (wexec B f (world_bytes w) self (sm_msg sm)) as [r|]; [|destruct (sm_reply sm); exact I].
      destruct (exec (typed B) f w self (sm_msg sm)) as [[[w' r'] lg]|e]; cbn in H.
      * destruct H as [-> [K' L]]. cbn [xb fst snd]. cbn in K', L. destruct (sm_reply sm) as [|id|id].
        -- split; [reflexivity|]. split; assumption.
        -- apply Rp; assumption.
        -- apply Rp; assumption.
      * subst r. destruct (sm_reply sm) as [|id|id]; [reflexivity|reflexivity|].
        eapply sim_bind; [apply at_sim, K|]. intros i _ Ki. eapply sim_bind; [apply (breply_sim B w K self (i_state i) id false None Ki)|].
        intros [s rsp] Hc Ks. cbn [rb fst snd]. cbv beta iota. rewrite set_state_bytes. apply IHr; [apply ok_set; [exact K|exact Ks]|eapply reply_fits; eauto].
    + intros [w1 lg1] _ [K1 L1]. cbn [rnb fst snd]. cbv beta iota. eapply sim_bind; [apply IHr; [exact K1|exact Fs]|]. intros [w2 lg2] _ [K2 L2]. cbn.
      unfold rnb. cbn. rewrite map_app. split; [reflexivity|]. split; [exact K2|]. apply List.Forall_app. split; assumption.
Qed.


(** ** C107 *)
Theorem C107_exec B fuel b w sender m : sends_own_bytes B -> held b w -> cfits m ->
  match wexec B fuel b sender m with
  | Some (Ok (b', r, blg)) => exists w' lg, exec (typed B) fuel w sender m = Ok (w', r, lg) /\ held b' w' /\ List.Forall2 event_held blg lg
  | Some (Err e) => exec (typed B) fuel w sender m = Err e
  | None => True
  end.
Proof.
  intros OB H F. apply held_world in H as [-> K]. pose proof (proj1 (wire_sim B fuel OB) w sender m K F) as S.
  destruct (wexec B fuel (world_bytes w) sender m) as [r|]; [|exact I]. destruct (exec (typed B) fuel w sender m) as [[[w' x] lg]|e]; cbn in S.
  - destruct S as [-> [K' L]]. cbn in *. exists w', lg. split; [reflexivity|]. split; [apply world_held, K'|apply log_held, L].
  - subst r. reflexivity.
Qed.
(** A user's bytes are always such a message. *)
Theorem C107_any_bytes c t funds : cfits (MExecute c (jmsg_of t) funds).
Proof. apply C87_bytes_are_messages. Qed.
(** Every history in bytes is one of the model. *)
Theorem C107_history B b0 w0 blg b : sends_own_bytes B -> held b0 w0 -> whistory B b0 blg b ->
  exists lg w, history (typed B) w0 lg w /\ held b w /\ List.Forall2 event_held blg lg.
Proof.
  intros OB H0 H. induction H as [b0|b0 lg b1 s m b2 lg2 H IH T|b0 lg b1 blk H IH H1 H2].
  - exists [], w0. split; [constructor|]. split; [exact H0|constructor].
  - destruct (IH H0) as (l & w1 & Hh & Hw & Hl). destruct T as (O & F & fuel & r & E). pose proof (C107_exec B fuel b1 w1 s m OB Hw F) as S. rewrite E in S.
    destruct S as (w2 & l2 & X & Hw2 & Hl2). exists (l ++ l2), w2. split; [|split; [exact Hw2|apply List.Forall2_app; assumption]].
    eapply hist_tx; [exact Hh|]. split; [exact O|eauto].
  - destruct (IH H0) as (l & w1 & Hh & (E1 & E2 & E3 & E4) & Hl). exists l, (World (w_bank w1) (w_insts w1) (w_next w1) blk).
    split; [apply hist_block; [exact Hh|rewrite <- E3; exact H1|rewrite <- E3; exact H2]|]. split; [|exact Hl]. repeat (split; [assumption || reflexivity|]). exact E4.
Qed.
(** What holds in every reachable state of the model holds of this chain. *)
Theorem C107_carries B (P : world -> Prop) bank blk blg b : sends_own_bytes B -> (forall w, reachable (typed B) w -> P w) ->
  whistory B (BWorld bank ∅ 0 blk) blg b -> exists w, held b w /\ P w.
Proof.
  intros OB HP H. assert (H0 : held (BWorld bank ∅ 0 blk) (World bank ∅ 0 blk)).
  { repeat (split; [reflexivity|]). intros a. cbn [bw_insts w_insts]. rewrite !lookup_empty. exact I. }
  destruct (C107_history B _ _ _ _ OB H0 H) as (lg & w & Hh & Hw & _). exists w. split; [exact Hw|]. apply HP. eapply history_reachable; [apply reach_genesis|exact Hh].
Qed.

(** For instance the balances written in a token's storage always add up to the
    supply written there (C34). *)
Theorem C107_supply B bank blk blg b t s : chain_ok (typed B) -> sends_own_bytes B -> whistory B (BWorld bank ∅ 0 blk) blg b ->
  bi_state <$> bw_insts b !! t = Some (BToken s) ->
  exists i (bals : gmap string uint128), load r_stored_info k_info s = Ok i /\ si_supply i = map_fold (fun _ v s => v + s) 0 bals /\
    forall a, may_load r_u128 (k_bal a) s = Ok (bals !! a).
Proof.
  intros OK OB H Hs. destruct (C107_carries B (fun w => forall t ts, tok_at w t ts -> tk_supply ts = map_fold (fun _ v s => v + s) 0 (tk_bal ts)) bank blk blg b OB) as (w & (_ & _ & _ & Hw) & P).
  - intros w Hr x ts Hx. apply (C34_supply_is_sum (typed B) w x ts OK Hr Hx).
  - exact H.
  - specialize (Hw t). destruct (bw_insts b !! t) as [i|]; [|discriminate]. cbn in Hs. injection Hs as Hs. rewrite Hs in Hw.
    destruct (w_insts w !! t) as [j|] eqn:E; [|contradiction]. destruct Hw as [_ Hw]. destruct (i_state j) as [| | |ts|] eqn:Ej; try contradiction. destruct Hw as [S T].
    exists (StoredInfo (tk_name ts) (tk_symbol ts) (tk_decimals ts) (tk_supply ts) (tk_mint ts)), (tk_bal ts).
    split; [apply load_info; assumption|]. split; [|apply load_bal; assumption]. cbn [si_supply]. apply (P t). unfold tok_at, state_at. rewrite E. cbn. congruence.
Qed.
(** A question asked in bytes after any such history is answered by what the
    contract's state in the model says (C105). *)
Theorem C107_questions B blg b b0 blk : chain_ok (typed B) -> sends_own_bytes B -> whistory B (BWorld b0 ∅ 0 blk) blg b ->
  exists lg w, history (typed B) (World b0 ∅ 0 blk) lg w /\ held b w /\
    forall a q, q_text q ->
      byte_question B b a q (r_answer (is_router (typed B) w a) q) = if query_fits q then ok (asked (typed B) w a q) else None.
Proof.
  intros OK OB Hh. assert (H0 : held (BWorld b0 ∅ 0 blk) (World b0 ∅ 0 blk)).
  { repeat (split; [reflexivity|]). intros a. cbn [bw_insts w_insts]. rewrite !lookup_empty. exact I. }
  destruct (C107_history B _ _ blg b OB H0 Hh) as (lg & w & Hw & H & _). exists lg, w. split; [exact Hw|]. split; [exact H|].
  intros a q Tq. rewrite <- (C88_query_bytes (typed B) w a q OK).
  - unfold byte_question, question. rewrite (C105_smart B b w a _ H); [destruct (smart _ _ _ _); reflexivity| |].
    + intros q' Hq. rewrite from_render, rw_token_query in Hq. destruct (token_q q && query_fits q); [|discriminate]. injection Hq as <-. exact Tq.
    + rewrite from_render. apply spender_query_not_token.
  - eapply history_reachable; [|exact Hw]. apply reach_genesis.
Qed.

(** On a chain whose addresses are all short texts no run is given up: the two chains
    make exactly the same steps. *)
Lemma deliver_runs B w self s sender funds m : plain_texts B -> text sender -> deliver B w self s sender funds m <> None.
Proof.
  intros P T. destruct s; unfold deliver, bentry; try (apply bcall_runs; assumption);
    match goal with |- context [from_bytes ?r ?t] => destruct (from_bytes r t) as [m'|]; [apply bcall_runs; assumption|discriminate] end.
Qed.
Lemma wire_runs B fuel : plain_texts B ->
  (forall w sender m, text sender -> wexec B fuel w sender m <> None) /\ (forall w self subs, text self -> wrun B fuel w self subs <> None).
Proof.
  intros P. induction fuel as [|f [IHx IHr]]; [split; intros; discriminate|]. split.
  - intros w sender m T. destruct m as [to cs|c msg funds|admin code msg funds lb|c code|c new]; cbn [wexec].
    + apply obb_runs; [discriminate|]. discriminate.
    + apply obb_runs; [discriminate|]. intros a Ha. injection Ha as Ha. apply oget_ok in Ha. apply (proj1 P) in Ha. apply obb_runs; [discriminate|]. intros w1 _.
      apply obb_runs; [discriminate|]. intros i _. apply obb_runs; [apply deliver_runs; assumption|]. intros [s rsp] _. apply obb_runs; [apply IHr, Ha|]. intros [w2 lg] _. discriminate.
    + apply obb_runs; [discriminate|]. intros c _. apply obb_runs; [discriminate|]. intros adm _. apply obb_runs; [discriminate|]. intros w1 _.
      apply obb_runs; [discriminate|]. intros [s rsp] _. apply obb_runs; [apply IHr, (proj2 P)|]. intros [w2 lg] _. discriminate.
    + apply obb_runs; [discriminate|]. intros a _. apply obb_runs; [discriminate|]. intros i _. apply obb_runs; [discriminate|]. intros k _.
      destruct (bool_decide _); [|discriminate]. apply obb_runs; discriminate.
    + apply obb_runs; [discriminate|]. intros a _. apply obb_runs; [discriminate|]. intros i _. apply obb_runs; [discriminate|]. intros k _.
      destruct (bool_decide _); discriminate.
  - intros w self subs T. destruct subs as [|sm rest]; [discriminate|]. rewrite wrun_cons. pose proof (IHx w self (sm_msg sm) T) as H.
    assert (Rp : forall w' id ok r (k : bworld * list bevent -> option (res (bworld * list bevent))), (forall x, k x <> None) ->
      (let! i := Some (oget (bw_insts w' !! self) ENotFound) in
       let! '(s, rsp) := Some (breply B w' self (bi_state i) id ok r) in obb (wrun B f (bset_state w' self s) self (rs_msgs rsp)) k) <> None).
    { intros w' id ok r k Hk. apply obb_runs; [discriminate|]. intros i _. apply obb_runs; [discriminate|]. intros [s rsp] _. apply obb_runs; [apply IHr, T|]. intros x _. apply Hk. }
    apply obb_runs.
    + destruct (wexec B f w self (sm_msg sm)) as [[[[w' r] lg]|e]|]; [| |congruence].
      * destruct (sm_reply sm); [discriminate|..]; apply Rp; intros [? ?]; discriminate.
      * destruct (sm_reply sm); [discriminate|discriminate|]. apply obb_runs; [discriminate|]. intros i _. apply obb_runs; [discriminate|]. intros [s rsp] _. apply IHr, T.
    + intros [w1 lg1] _. apply obb_runs; [apply IHr, T|]. intros [w2 lg2] _. discriminate.
Qed.
Theorem C107_same_steps B b w s m : sends_own_bytes B -> plain_texts B -> held b w -> cfits m ->
  (forall b' blg, wtx B b s m b' blg -> exists w' lg, tx (typed B) w s m w' lg /\ held b' w' /\ List.Forall2 event_held blg lg) /\
  (forall w' lg, tx (typed B) w s m w' lg -> exists b' blg, wtx B b s m b' blg /\ held b' w' /\ List.Forall2 event_held blg lg).
Proof.
  intros OB P H F. split.
  - intros b' blg (O & _ & fuel & r & E). pose proof (C107_exec B fuel b w s m OB H F) as S. rewrite E in S. destruct S as (w' & lg & X & Hw & Hl).
    exists w', lg. split; [split; [exact O|eauto]|auto].
  - intros w' lg (O & fuel & r & E). pose proof (C107_exec B fuel b w s m OB H F) as S.
    assert (T : text s) by (eapply (proj1 P), (proj1 O)). pose proof (proj1 (wire_runs B fuel P) b s m T) as N.
    destruct (wexec B fuel b s m) as [[[[b' r'] blg]|e]|] eqn:X; [| |congruence].
    + destruct S as (w2 & l2 & X2 & Hw & Hl). rewrite E in X2. injection X2 as <- <- <-. exists b', blg. split; [split; [exact O|split; [exact F|eauto]]|auto].
    + rewrite E in S. discriminate.
Qed.

(** ** Example: the deployment and first trades, all messages in bytes *)
Fixpoint wscript (B : bchain) (f : nat) (b : bworld) (txs : list (bool * cmsg)) : option (res (bworld * list bevent)) :=
  match txs with
  | [] => Some (Ok (b, []))
  | (x, m) :: r =>
      let! y := wexec B f b (who x) m in
      let! z := wscript B f y.1.1 r in Some (Ok (z.1, y.2 ++ z.2))
  end.
Lemma ex_sends : sends_own_bytes ex_bytes.
Proof.
  split; [|split]; cbn [ex_bytes ba_exec ba_init ba_reply]; intros; match goal with H : Ok _ = Ok _ |- _ => injection H as <- <- end;
    unfold sends_fit; cbn [rs_msgs]; repeat constructor.
Qed.
Definition shown (o : option (res (bworld * list bevent))) (a k : string) : option string :=
  match o with Some (Ok (b, _)) => bstore b a k | _ => None end.
Example C107_case : sends_own_bytes ex_bytes /\ List.Forall (fun x => cfits (snd x)) (take 11 ex_setup) /\
  shown (wscript ex_bytes 40 bgenesis (take 11 ex_setup)) "#5" "token_info" =
    Some "{""name"":""halo liquidity token"",""symbol"":""uLP"",""decimals"":6,""total_supply"":""14142135"",""mint"":{""minter"":""#4"",""cap"":null}}"%string /\
  shown (wscript ex_bytes 40 bgenesis (take 11 ex_setup)) "#1" (tcell_key (TBal "alice")) = Some """999990000000"""%string.
Proof.
  split; [exact ex_sends|]. split; [|split; vm_compute; reflexivity].
  unfold ex_setup. cbn [take]. repeat constructor.
Qed.
Lemma wscript_history B f txs : (forall x, bordinary B (who x)) -> List.Forall (fun x => cfits (snd x)) txs ->
  forall b b' lg, wscript B f b txs = Some (Ok (b', lg)) -> whistory B b lg b'.
Proof.
  intros Who.
  assert (Cons : forall b s m b1 l1, wtx B b s m b1 l1 -> forall l2 b2, whistory B b1 l2 b2 -> whistory B b (l1 ++ l2) b2).
  { intros b s m b1 l1 T l2 b2 H. induction H as [b1|b1 lg b2 s' m' b3 l3 H IH T'|b1 lg b2 blk H IH H1 H2].
    - rewrite app_nil_r. apply (wh_tx B b [] b s m b1 l1 (wh_refl B b) T).
    - rewrite app_assoc. eapply wh_tx; [apply IH; exact T|exact T'].
    - apply wh_block; auto. }
  induction txs as [|[x m] r IH]; intros F b b' lg H; cbn [wscript] in H.
  - injection H as <- <-. constructor.
  - apply List.Forall_cons_iff in F as [Fm F]. destruct (wexec B f b (who x) m) as [[y|e]|] eqn:E; cbn [obb] in H; try discriminate H.
    destruct (wscript B f y.1.1 r) as [[[b2 l2]|e]|] eqn:E2; cbn [obb] in H; try discriminate H. injection H as <- <-. cbn [fst snd].
    apply (Cons b (who x) m y.1.1 y.2); [|apply IH; [exact F|exact E2]]. split; [exact (Who x)|]. split; [exact Fm|]. exists f, y.1.2. rewrite E. destruct y as [[b1 z] l1]. reflexivity.
Qed.
Lemma shown_history B f txs b a k v : (forall x, bordinary B (who x)) -> List.Forall (fun x => cfits (snd x)) txs ->
  shown (wscript B f b txs) a k = Some v -> exists blg b', whistory B b blg b' /\ bstore b' a k = Some v.
Proof.
  intros Who F E. unfold shown in E. destruct (wscript B f b txs) as [[[b' lg]|e]|] eqn:X; try discriminate E. exists lg, b'. split; [|exact E].
  eapply wscript_history; eauto.
Qed.
(** The set-up is a history of this chain. *)
Example C107_case_history : chain_ok (typed ex_bytes) /\ exists blg b, whistory ex_bytes bgenesis blg b /\
  bstore b "#1" (tcell_key (TBal "alice")) = Some """999990000000"""%string.
Proof.
  split; [exact ex_bytes_ok|]. destruct C107_case as (_ & F & _ & E).
  exact (shown_history ex_bytes 40 (take 11 ex_setup) bgenesis _ _ _ who_ordinary F E).
Qed.
Example C107_texts : sends_own_bytes text_chain /\ plain_texts text_chain /\ held bgenesis ex_genesis.
Proof. split; [exact ex_sends|]. split; apply C102_texts. Qed.
