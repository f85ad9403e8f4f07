(** C88, C47: which function of a contract answers which question, and what
    migration to a contract's own code does. *)
From Verif Require Import Base BigNumber CwStd BigNumberFacts Asset Messages PairMath Pair PairFacts Token TokenQueries Factory Router
  World WorldInd WorldFacts WorldInv WorldExamples P_Ledger P_Registry ExecFacts P_Exec Json QueryWire P_QueryWire.
Local Open Scope N_scope.

Section dispatch.
Context (C : chain) (OK : chain_ok C) (w : world) (R : reachable C w).
Local Notation A := (ch_api C).
Lemma asked_at a s q : state_at w a = Some s ->
  asked C w a q = match s with
                  | SPair st => pair_query A (wq C w) st q
                  | SFactory st => factory_query A st q
                  | SRouter st => router_query A (wq C w) st q
                  | SToken st => token_query A st q
                  | SAdv _ _ => Err ENotFound
                  end.
Proof.
  intros H. unfold asked, contract_at. rewrite (sane_norm C OK _ _ _ (main_sane C w (reachable_main C OK w R)) H). cbn [oget rbind].
  apply state_at_inst in H as (ad & ->). cbn [oget rbind i_state]. destruct s; reflexivity.
Qed.
(** [meets r f o]: the answer [r] is the result [o] under the tag [f]; an error
    stays that error. *)
Definition meets {X} (r : res answer) (f : X -> answer) (o : res X) : Prop :=
  (forall x, o = Ok x -> r = Ok (f x)) /\ (forall e, o = Err e -> r = Err e).
Lemma give_meets {X} (f : X -> answer) o : meets (give f o) f o.
Proof. split; intros x ->; reflexivity. Qed.

(** C88: each question to a pair, factory, router or token is answered by the
    query function it names, with the question's arguments in their places; all
    other questions are refused. *)
Theorem C88_who_answers a :
  (forall st, state_at w a = Some (SPair st) ->
     meets (asked C w a QSelf) APairInfo (pair_query_pair A st) /\
     meets (asked C w a QPool) APool (pair_query_pool A (wq C w) st) /\
     (forall x, meets (asked C w a (QSimulation x)) ASimulation (pair_query_simulation A (wq C w) st x)) /\
     (forall x, meets (asked C w a (QReverseSimulation x)) AReverse (pair_query_reverse_simulation A (wq C w) st x)) /\
     (forall q, pair_q q = false -> exists e, asked C w a q = Err e)) /\
  (forall st, state_at w a = Some (SFactory st) ->
     meets (asked C w a QConfig) AConfig (factory_query_config A st) /\
     (forall i j, meets (asked C w a (QPair (i, j))) APairInfo (factory_query_pair A st (i, j))) /\
     (forall start limit, meets (asked C w a (QPairs start limit)) APairs (factory_query_pairs A st start limit)) /\
     (forall d, meets (asked C w a (QNativeTokenDecimals d)) ADecimals (factory_query_native st d)) /\
     (forall q, factory_q q = false -> exists e, asked C w a q = Err e)) /\
  (forall f, state_at w a = Some (SRouter f) ->
     meets (asked C w a QConfig) ARouterConfig (addr_humanize A f) /\
     (forall n ops, meets (asked C w a (QSimulateOps n ops)) AAmount (router_simulate A (wq C w) f n ops)) /\
     (forall n ops, meets (asked C w a (QReverseSimulateOps n ops)) AAmount (router_reverse_simulate A (wq C w) f n ops)) /\
     (forall q, router_q q = false -> exists e, asked C w a q = Err e)) /\
  (forall t, state_at w a = Some (SToken t) ->
     (forall acc, meets (asked C w a (QBalance acc)) ABalance (token_query_balance A t acc)) /\
     meets (asked C w a QTokenInfo) ATokenInfo (token_query_info t) /\
     meets (asked C w a QMinter) AMinter (token_query_minter t) /\
     (forall owner spender, meets (asked C w a (QAllowance owner spender)) AAllowance (token_query_allowance A t owner spender)) /\
     (forall owner start limit, meets (asked C w a (QAllAllowances owner start limit)) AAllowances (token_all_allowances A t owner start limit)) /\
     (forall start limit, meets (asked C w a (QAllAccounts start limit)) AAccounts (token_all_accounts t start limit)) /\
     (forall q, token_q q = false -> exists e, asked C w a q = Err e)).
Proof.
  split; [|split; [|split]]; intros st H; repeat split; intros; try (rewrite (asked_at a _ _ H); cbn [pair_query factory_query router_query token_query];
    match goal with E : _ = Ok _ |- _ => rewrite E; reflexivity | E : _ = Err _ |- _ => rewrite E; reflexivity end);
    rewrite (asked_at a _ _ H); destruct q; try discriminate; eexists; reflexivity.
Qed.
End dispatch.

(** C47: migrating a pair, factory or router to its own code changes nothing it
    stores and sends no messages; tokens have no migration. *)
Theorem C47_migration_keeps C :
  (forall st, exists r, pair_migrate st = Ok (st, r) /\ rs_msgs r = [] /\ migrated C (SPair st) CPair = Some (SPair st)) /\
  (forall st, exists r, factory_migrate st = Ok (st, r) /\ rs_msgs r = [] /\ migrated C (SFactory st) CFactory = Some (SFactory st)) /\
  (forall st, exists r, router_migrate st = Ok (st, r) /\ rs_msgs r = [] /\ migrated C (SRouter st) CRouter = Some (SRouter st)) /\
  (forall t c, (forall k, c <> CAdv k) -> migrated C (SToken t) c = None).
Proof.
  split; [|split; [|split]]; intros st; try (eexists; split; [reflexivity|]; split; reflexivity). intros c H. destruct c; try reflexivity. destruct (H k). reflexivity.
Qed.

(** The example chain's tokens answer an allowance in one direction only. *)
Example C88_case_allowance :
  asked ex_chain (after ex_world [(true, x_call "#1" (JIncreaseAllowance "bob" 7 None))]) "#1" (QAllowance "alice" "bob") = Ok (AAllowance (7, ENever)) /\
  asked ex_chain (after ex_world [(true, x_call "#1" (JIncreaseAllowance "bob" 7 None))]) "#1" (QAllowance "bob" "alice") = Ok (AAllowance (0, ENever)).
Proof. split; vm_compute; reflexivity. Qed.
