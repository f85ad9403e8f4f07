(** C106: transactions as bytes on the chain of bytes. *)
From Verif Require Import Base BigNumber CwStd BigNumberFacts Asset Messages PairMath Pair PairFacts Token Factory Router
  World WorldInd WorldFacts WorldInv WorldInd2 Examples WorldExamples ExecFacts
  Json JsonFacts Wire WireFacts P_Wire FitsInv Storage P_Store TokenStorage P_TokenStore ByteWorld P_ByteWorld ByteEntry.
From Coq Require Import ZifyN Ascii String.
Local Open Scope N_scope.

(** ** One call *)
Lemma bentry_sim B w self s sender funds t : world_ok w -> state_ok s ->
  sim rb state_good (bentry B (world_bytes w) self (bytes_of s) sender funds t) (call (typed B) w self s sender funds (jmsg_of t)).
Proof.
  intros K Ks. destruct (C87_bytes_are_messages t) as (_ & _ & Hp & Hr & Hf & Ht).
  destruct s as [p|f|r|x|k d]; [| | | |apply (bcall_sim B w K self (SAdv k d)), Ks]; cbn [bytes_of bentry call] in *.
  - specialize (Hp (bc_api B) (wq (typed B) w) self p sender funds). unfold pair_entry in Hp. change (ch_api (typed B)) with (bc_api B). rewrite <- Hp.
    destruct (from_bytes r_pair_msg t) as [m|]; [|reflexivity]. exact (bcall_sim B w K self (SPair p) sender funds m Ks).
  - specialize (Hf (bc_api B) (wq (typed B) w) self f sender). unfold factory_entry in Hf. change (ch_api (typed B)) with (bc_api B). rewrite <- Hf.
    destruct (from_bytes r_factory_msg t) as [m|]; [|reflexivity]. exact (bcall_sim B w K self (SFactory f) sender funds m Ks).
  - specialize (Hr (bc_api B) (wq (typed B) w) self r sender). unfold router_entry in Hr. change (ch_api (typed B)) with (bc_api B). rewrite <- Hr.
    destruct (from_bytes r_router_msg t) as [m|]; [|reflexivity]. exact (bcall_sim B w K self (SRouter r) sender funds m Ks).
  - specialize (Ht (bc_api B) (w_block w) x sender). unfold token_entry in Ht. change (ch_api (typed B)) with (bc_api B). rewrite <- Ht.
    destruct (from_bytes r_token_msg t) as [m|]; [|reflexivity]. exact (bcall_sim B w K self (SToken x) sender funds m Ks).
Qed.
Lemma bsend_sim B fuel w sender c t funds : world_ok w ->
  sim xb x_good (bsend B fuel (world_bytes w) sender c t funds) (exec (typed B) (S fuel) w sender (MExecute c (jmsg_of t) funds)).
Proof.
  intros K. unfold bsend. cbn [exec]. apply sim_step. intros a _. eapply sim_bind; [apply send_sim, K|]. intros w1 _ K1.
  eapply sim_bind; [apply at_sim, K1|]. intros i Hi Ki.
  eapply sim_bind; [apply (bentry_sim B w1 a (i_state i) sender funds t K1 Ki)|]. intros [s rsp] _ Ks. cbn [rb fst snd]. cbv beta iota.
  rewrite set_state_bytes. eapply sim_bind; [apply (proj2 (dispatch_sim B fuel)), ok_set; [exact K1|exact Ks]|]. intros [w2 lg] _ [K2 L2]. cbn. split; [reflexivity|].
  split; [exact K2|]. constructor; [exact K1|exact L2].
Qed.

(** ** C106 *)

(** A contract that is handed any bytes, valid message or not, does to its store what
    the model does to its state with the message the bytes stand for, and answers
    with the same messages and attributes. *)
Theorem C106_entry B b w self d s sender funds t : held b w -> state_held d s ->
  match bentry B b self d sender funds t with
  | Some (Ok (d', rsp)) => exists s', call (typed B) w self s sender funds (jmsg_of t) = Ok (s', rsp) /\ state_held d' s'
  | Some (Err e) => call (typed B) w self s sender funds (jmsg_of t) = Err e
  | None => True
  end.
Proof.
  intros H D. apply held_world in H as [-> K]. apply held_bytes in D as [-> Ks]. pose proof (bentry_sim B w self s sender funds t K Ks) as S.
  destruct (bentry _ _ _ _ _ _ _) as [r|]; [|exact I]. destruct (call _ _ _ _ _ _ _) as [[s' rsp]|e]; cbn in S.
  - destruct S as [-> G]. cbn. exists s'. split; [reflexivity|]. apply bytes_held, G.
  - subst r. reflexivity.
Qed.
(** Whatever a contract of the repository sends in return can be written as bytes and
    is read back by those it is sent to as it was meant (C87). *)
Theorem C106_replies_in_bytes B b w self d s sender funds t d' rsp : held b w -> state_held d s -> (forall k x, s <> SAdv k x) ->
  bentry B b self d sender funds t = Some (Ok (d', rsp)) ->
  forall sm c m cs, In sm (rs_msgs rsp) -> sm_msg sm = MExecute c m cs ->
    forall w2 self2 s2 sender2, match s2 with
      | SPair st => pair_entry (bc_api B) (wq (typed B) w2) self2 st sender2 cs (msg_bytes m) = pair_execute (bc_api B) (wq (typed B) w2) self2 st sender2 cs m
      | SFactory st => factory_entry (bc_api B) (wq (typed B) w2) self2 st sender2 (msg_bytes m) = factory_execute (bc_api B) (wq (typed B) w2) self2 st sender2 m
      | SRouter st => router_entry (bc_api B) (wq (typed B) w2) self2 st sender2 (msg_bytes m) = router_execute (bc_api B) (wq (typed B) w2) self2 st sender2 m
      | SToken st => token_entry (bc_api B) (w_block w2) st sender2 (msg_bytes m) = token_execute (bc_api B) (w_block w2) st sender2 m
      | SAdv _ _ => True
      end.
Proof.
  intros H D Ns E sm c m cs Hin Hm w2 self2 s2 sender2. pose proof (C106_entry B b w self d s sender funds t H D) as X. rewrite E in X. destruct X as (s' & X & _).
  destruct (C87_bytes_are_messages t) as (Ft & _). destruct C87_sent_messages_fit as (F1 & F2 & F3 & F4 & _).
  assert (F : sends_fit rsp).
  { destruct s as [p|f|r|x|k y]; [| | | |destruct (Ns _ _ eq_refl)]; cbn [call] in X; unfold wrap in X; apply rbind_ok in X as ([z rsp'] & X & Y); injection Y as <- <-; eauto. }
  unfold sends_fit in F. rewrite List.Forall_forall in F. specialize (F sm Hin). unfold out_fits in F. rewrite Hm in F.
  destruct (C87_messages_survive m F) as (G1 & G2 & G3 & G4). destruct s2; auto.
Qed.
(** A transaction in bytes, with everything it sets off. *)
Theorem C106_transaction B fuel b w sender c t funds : held b w ->
  match bsend B fuel b sender c t funds with
  | Some (Ok (b', r, blg)) =>
      exists w' lg, exec (typed B) (S fuel) w sender (MExecute c (jmsg_of t) funds) = Ok (w', r, lg) /\ held b' w' /\ List.Forall2 event_held blg lg
  | Some (Err e) => exec (typed B) (S fuel) w sender (MExecute c (jmsg_of t) funds) = Err e
  | None => True
  end.
Proof.
  intros H. apply held_world in H as [-> K]. pose proof (bsend_sim B fuel w sender c t funds K) as S.
  destruct (bsend _ _ _ _ _ _ _) as [r|]; [|exact I]. destruct (exec _ _ _ _ _) as [[[w' x] lg]|e]; cbn in S.
  - destruct S as [-> [K' L]]. cbn in *. exists w', lg. split; [reflexivity|]. split; [apply world_held, K'|apply log_held, L].
  - subst r. reflexivity.
Qed.
(** Bytes that the addressed contract cannot read change nothing: the transaction fails. *)
Definition own_reader (d : bstate) : option (json -> option jmsg) :=
  match d with
  | BPair _ => Some r_pair_msg | BFactory _ => Some r_factory_msg | BRouter _ => Some r_router_msg | BToken _ => Some r_token_msg | BAdv _ _ => None
  end.
Theorem C106_unreadable B fuel b sender c a t funds i r : norm (bc_api B) c = Some a -> bw_insts b !! a = Some i ->
  own_reader (bi_state i) = Some r -> from_bytes r t = None -> exists e, bsend B fuel b sender c t funds = Some (Err e).
Proof.
  intros Ha Hi Hr Ht. unfold bsend. rewrite Ha. cbn [oget obb]. unfold bb_send. destruct (coins_valid funds); [|cbn; eauto].
  destruct (move_all _ _ _ _) as [bk|e]; cbn [rbind obb]; [|eauto]. cbn [bset_bank bw_insts]. rewrite Hi. cbn [oget obb].
  exists EParse. destruct (bi_state i); cbn in Hr; try discriminate; injection Hr as <-; unfold bentry; rewrite Ht; reflexivity.
Qed.

(** ** Example: on the deployment of C102's case, a transfer of tokens and bytes that
    are no message *)
Example C106_case : (exists blg, bhistory ex_bytes (BWorld (w_bank ex_genesis) ∅ 0 (Block 1 1)) blg (bafter 11)) /\
  match bsend ex_bytes 20 (bafter 11) "alice" "#1" "{""transfer"":{""recipient"":""carol"",""amount"":""25""}}"%string [] with
  | Some (Ok (b, _, _)) => bstore b "#1" (tcell_key (TBal "carol"))
  | _ => None
  end = Some """25"""%string /\
  match bsend ex_bytes 20 (bafter 11) "alice" "#1" "{""transfer"":{""recipient"":""carol"",""amount"":25}}"%string [] with
  | Some (Err EParse) => true
  | _ => false
  end = true.
Proof.
  destruct C102_case as (H1 & _). split; [exact H1|]. split; vm_compute; reflexivity.
Qed.
