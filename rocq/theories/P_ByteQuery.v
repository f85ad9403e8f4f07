(** Questions to the chain on bytes (C105). *)
From Verif Require Import Base BigNumber CwStd BigNumberFacts Asset Messages PairMath Pair PairFacts Token Factory Router
  SwapFacts SwapFacts2 P_Swap P_Pair FactoryFacts P_Factory P_Router TokenFacts World WorldInd WorldFacts WorldInv WorldInd2
  Examples WorldExamples P_Ledger P_Registry ExecFacts P_Exec
  Json JsonFacts Wire WireFacts TokenQueries P_TokenQuery QueryWire P_QueryWire FitsInv Storage P_Store TokenStorage P_TokenStore
  SpenderWire P_SpenderWire ByteWorld P_ByteWorld ByteQuery.
From Coq Require Import ZifyN Ascii String.
Local Open Scope N_scope.
Ltac Zify.zify_post_hook ::= idtac.

(** ** Specification *)

(** A user asks a contract with bytes and reads the bytes of the answer. *)
Definition byte_question {X} (B : bchain) (b : bworld) (a : string) (q : qmsg) (r : json -> option X) : option X :=
  match bsmart B b a (render (w_query q)) with Some t => from_bytes r t | None => None end.

(** ** Lemmas *)
Section same.
  Context (A : api) (Q Q' : querier) (S : same_answers Q Q')
    (S7 : forall p a, q_simulate Q p a = q_simulate Q' p a) (S8 : forall p a, q_reverse_simulate Q p a = q_reverse_simulate Q' p a).
  Lemma same_pool_query st : pair_query_pool A Q st = pair_query_pool A Q' st.
  Proof.
    unfold pair_query_pool. apply rbind_ext. intros self. rewrite (same_pools A Q Q' S). apply rbind_ext. intros [p0 p1]. apply rbind_ext. intros lp.
    rewrite (same_info Q Q' S). reflexivity.
  Qed.
  Lemma same_pair_query st q : pair_query A Q st q = pair_query A Q' st q.
  Proof.
    destruct q; try reflexivity; cbn [pair_query]; [rewrite same_pool_query|rewrite (same_simulation A Q Q' S)|rewrite (same_reverse A Q Q' S)]; reflexivity.
  Qed.
  Lemma same_simulate_ops f ops : forall n, simulate_ops Q f n ops = simulate_ops Q' f n ops.
  Proof.
    destruct S as (_ & _ & _ & _ & S5 & _). induction ops as [|o ops IH]; intros n; [reflexivity|]. cbn [simulate_ops]. rewrite S5. apply rbind_ext. intros p.
    rewrite S7. apply rbind_ext. intros s. apply IH.
  Qed.
  Lemma same_reverse_ops st ops : forall n, reverse_ops A Q st n ops = reverse_ops A Q' st n ops.
  Proof.
    destruct S as (_ & _ & _ & _ & S5 & _). induction ops as [|o ops IH]; intros n; [reflexivity|]. cbn [reverse_ops]. apply rbind_ext. intros f.
    assert (E : reverse_step Q f n o = reverse_step Q' f n o).
    { unfold reverse_step. rewrite S5. destruct (q_pair_info Q' f (op_offer o, op_ask o)) as [p|e]; cbn [rbind]; [rewrite S8|]; reflexivity. }
    rewrite E. apply rbind_ext. intros x. apply IH.
  Qed.
  Lemma same_router_query st q : router_query A Q st q = router_query A Q' st q.
  Proof.
    destruct q as [| |x|x| |i|s l|d|n ops|n ops|x| | |o s|o s l|s l]; try reflexivity; cbn [router_query]; f_equal; unfold router_simulate, router_reverse_simulate; destruct (negb _); try reflexivity.
    - apply rbind_ext. intros f. destruct ops; [reflexivity|]. apply same_simulate_ops.
    - destruct ops; [reflexivity|]. apply same_reverse_ops.
  Qed.
End same.
Lemma answered_ext o (k k' : qmsg -> res answer) : (forall q, o = Some q -> k q = k' q) -> answered o k = answered o k'.
Proof. intros H. unfold answered. destruct o as [q|]; [|reflexivity]. cbn [obind]. rewrite (H q eq_refl). reflexivity. Qed.

(** ** C105 *)

(** Whatever bytes a contract of the repository is asked with, it answers with the
    bytes of the model's answer. *)
Theorem C105_smart B b w a t : held b w -> (forall q, from_bytes r_token_query t = Some q -> q_text q) -> from_bytes r_spender_query t = None ->
  bsmart B b a t = smart (typed B) w a t.
Proof.
  intros H Tq Ns. pose proof (C102_answers B b w H) as (S1 & S2 & S3 & S4 & S5 & S7 & S8 & S6). pose proof H as H'. apply held_world in H as [Eb K].
  unfold bsmart, smart. rewrite Eb, (at_bytes B w) at 1. destruct (contract_at (typed B) w a) as [[x s]|e] eqn:E; [|reflexivity]. apply (at_ok B w K) in E. cbn [rbind].
  assert (Sa : same_answers (bwq B b) (wq (typed B) w)) by (repeat split; assumption).
  destruct s as [p|f|r|ts|k d]; cbn [bytes_of state_ok] in *.
  - apply answered_ext. intros q _. etransitivity; [|apply (same_pair_query (bc_api B) _ _ Sa)].
    apply (C100_pair (typed B) (bwq B b) "" p); [apply fill_stored|exact E].
  - apply answered_ext. intros q _. apply (C100_factory (bc_api B) (bwq B b) "" f); [apply fill_stored|exact E].
  - apply answered_ext. intros q _. etransitivity; [|apply (same_router_query (bc_api B) _ _ Sa S7 S8)].
    apply (C100_router (typed B) (bwq B b) "" r). apply fill_stored.
  - unfold bt_bytes. rewrite Ns. apply answered_ext. intros q Hq. apply bt_query_same; [apply tfill_stored, E|exact E|exact (Tq q Hq)].
  - reflexivity.
Qed.
(** After any history of the chain on bytes, a question in bytes is answered by what
    the contract's state says. *)
Theorem C105_questions B blg b b0 blk : chain_ok (typed B) -> bhistory B (BWorld b0 ∅ 0 blk) blg b ->
  exists lg w, history (typed B) (World b0 ∅ 0 blk) lg w /\ held b w /\
    forall a q, q_text q ->
      byte_question B b a q (r_answer (is_router (typed B) w a) q) = if query_fits q then ok (asked (typed B) w a q) else None.
Proof.
  intros OK Hh. assert (H0 : held (BWorld b0 ∅ 0 blk) (World b0 ∅ 0 blk)).
  { repeat (split; [reflexivity|]). intros a. cbn [bw_insts w_insts]. rewrite !lookup_empty. exact I. }
  destruct (C102_history B _ _ blg b H0 Hh) as (lg & w & Hw & H & _). exists lg, w. split; [exact Hw|]. split; [exact H|].
  intros a q Tq. rewrite <- (C88_query_bytes (typed B) w a q OK).
  - unfold byte_question, question. rewrite (C105_smart B b w a _ H); [destruct (smart _ _ _ _); reflexivity| |].
    + intros q' Hq. rewrite from_render, rw_token_query in Hq. destruct (token_q q && query_fits q); [|discriminate]. injection Hq as <-. exact Tq.
    + rewrite from_render. apply spender_query_not_token.
  - eapply history_reachable; [|exact Hw]. apply reach_genesis.
Qed.

(** ** Example: the deployment of C102's case, asked in bytes *)
Example C105_case : (exists blg, bhistory ex_bytes (BWorld (w_bank ex_genesis) ∅ 0 (Block 1 1)) blg (bafter 11)) /\ chain_ok (typed ex_bytes) /\
  bsmart ex_bytes (bafter 11) "#4" "{""simulation"":{""offer_asset"":{""info"":{""token"":{""contract_addr"":""#1""}},""amount"":""10000""}}}"%string =
    Some "{""return_amount"":""19921"",""spread_amount"":""20"",""commission_amount"":""59""}"%string /\
  bsmart ex_bytes (bafter 11) "#0" "{""native_token_decimals"":{""denom"":""uaura""}}"%string = Some "{""decimals"":6}"%string /\
  bsmart ex_bytes (bafter 11) "#5" "{""token_info"":{}}"%string =
    Some "{""name"":""halo liquidity token"",""symbol"":""uLP"",""decimals"":6,""total_supply"":""14142135""}"%string /\
  bsmart ex_bytes (bafter 11) "#4" "{""minter"":{}}"%string = None.
Proof.
  destruct C102_case as (H1 & H2 & _). split; [exact H1|]. split; [exact H2|].
  do 3 (split; [vm_compute; reflexivity|]). vm_compute. reflexivity.
Qed.
