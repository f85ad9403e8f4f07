(** The chain on bytes is the chain of the model (C102). *)
From Verif Require Import Base BigNumber CwStd BigNumberFacts Asset Messages PairMath Pair PairFacts Token Factory Router
  SwapFacts SwapFacts2 P_Swap P_Pair FactoryFacts P_Factory P_Router TokenFacts World WorldInd WorldFacts WorldInv WorldInd2
  Examples WorldExamples P_Ledger P_Registry ExecFacts P_Exec
  Json JsonFacts Wire WireFacts TokenQueries P_TokenQuery QueryWire P_QueryWire FitsInv Storage P_Store TokenStorage P_TokenStore ByteWorld.
From Coq Require Import ZifyN Ascii String.
Local Open Scope N_scope.
Ltac Zify.zify_post_hook ::= idtac.

(** ** Specification *)

(** A store belongs to a state: it holds the JSON of the state and nothing else
    (C100, C101), and the numbers of the state are within their types. *)
Definition state_held (b : bstate) (s : cstate) : Prop :=
  match b, s with
  | BPair d, SPair p => stored d (SPair p) /\ rec_fits p
  | BFactory d, SFactory f => stored d (SFactory f) /\ factory_fits f
  | BRouter d, SRouter r => stored d (SRouter r)
  | BToken d, SToken t => tstored d t /\ tok_types t
  | BAdv k d, SAdv k' d' => k = k' /\ d = d'
  | _, _ => False
  end.
(** The same chain: same balances, counters and block, the same contracts at the
    same addresses with the same admins, each store belonging to the state. *)
Definition held (b : bworld) (w : world) : Prop :=
  bw_bank b = w_bank w /\ bw_next b = w_next w /\ bw_block b = w_block w /\
  forall a, match bw_insts b !! a, w_insts w !! a with
            | Some i, Some j => bi_admin i = i_admin j /\ state_held (bi_state i) (i_state j)
            | None, None => True
            | _, _ => False
            end.
Definition event_held (b : bevent) (e : event) : Prop :=
  be_contract b = ev_contract e /\ be_sender b = ev_sender e /\ be_msg b = ev_msg e /\ be_attrs b = ev_attrs e /\
  be_funds b = ev_funds e /\ held (be_world b) (ev_world e).

(** The bytes of a chain. *)
Definition bytes_of (s : cstate) : bstate :=
  match s with
  | SPair _ => BPair (fill s (cells s))
  | SFactory _ => BFactory (fill s (cells s))
  | SRouter _ => BRouter (fill s (cells s))
  | SToken t => BToken (tfill t (tcells t))
  | SAdv k d => BAdv k d
  end.
Definition inst_bytes (i : inst) : binst := BInst (i_admin i) (bytes_of (i_state i)).
Definition world_bytes (w : world) : bworld := BWorld (w_bank w) (inst_bytes <$> w_insts w) (w_next w) (w_block w).
Definition event_bytes (e : event) : bevent :=
  BEvent (ev_contract e) (ev_sender e) (ev_msg e) (ev_attrs e) (ev_funds e) (world_bytes (ev_world e)).
(** The model's chain for a chain on bytes: third-party code looks at the bytes. *)
Definition typed (B : bchain) : chain :=
  Chain (bc_api B) (bc_fresh B) (bc_codes B)
    (fun k w => ba_init B k (world_bytes w)) (fun k w => ba_exec B k (world_bytes w)) (fun k w => ba_reply B k (world_bytes w))
    (fun k w => ba_token_balance B k (world_bytes w)) (fun k w => ba_token_info B k (world_bytes w))
    (fun k w => ba_native_decimals B k (world_bytes w)) (fun k w => ba_pair_info B k (world_bytes w))
    (fun k w => ba_simulate B k (world_bytes w)) (fun k w => ba_reverse B k (world_bytes w)) (fun k w => ba_pair_self B k (world_bytes w))
    (fun s k => bc_takeover B (bytes_of s) k).

(** ** Stores and states *)
Definition state_ok (s : cstate) : Prop :=
  match s with
  | SPair p => rec_fits p | SFactory f => factory_fits f | SToken t => tok_types t | _ => True
  end.
Definition world_ok (w : world) : Prop := forall a s, state_at w a = Some s -> state_ok s.

Lemma stored_fill s st : stored s st -> s = fill st (cells st).
Proof.
  intros S. destruct (C100_one_store st) as (s0 & _ & U). rewrite (U _ S). symmetry. apply U, fill_stored.
Qed.
Lemma tstored_fill s t : tstored s t -> tok_types t -> s = tfill t (tcells t).
Proof.
  intros S T. destruct (C101_one_store t T) as (s0 & _ & U). rewrite (U _ S). symmetry. apply U, tfill_stored, T.
Qed.
Lemma bytes_held s : state_ok s -> state_held (bytes_of s) s.
Proof.
  destruct s as [p|f|r|t|k d]; cbn [state_ok bytes_of state_held]; intros K.
  - split; [apply fill_stored|exact K].
  - split; [apply fill_stored|exact K].
  - apply fill_stored.
  - split; [apply tfill_stored|]; exact K.
  - auto.
Qed.
Lemma held_bytes b s : state_held b s -> b = bytes_of s /\ state_ok s.
Proof.
  destruct b as [d|d|d|d|k d], s as [p|f|r|t|k' d']; cbn [state_ok bytes_of state_held]; try contradiction.
  - intros [S K]. split; [f_equal; apply stored_fill, S|exact K].
  - intros [S K]. split; [f_equal; apply stored_fill, S|exact K].
  - intros S. split; [f_equal; apply stored_fill, S|exact I].
  - intros [S K]. split; [f_equal; apply tstored_fill; assumption|exact K].
  - intros [-> ->]. auto.
Qed.
Lemma world_held w : world_ok w -> held (world_bytes w) w.
Proof.
  intros K. split; [reflexivity|]. split; [reflexivity|]. split; [reflexivity|]. intros a. cbn [world_bytes bw_insts]. rewrite lookup_fmap.
  destruct (w_insts w !! a) as [i|] eqn:E; cbn; [|exact I]. split; [reflexivity|]. apply bytes_held, (K a). unfold state_at. rewrite E. reflexivity.
Qed.
Lemma held_world b w : held b w -> b = world_bytes w /\ world_ok w.
Proof.
  intros (H1 & H2 & H3 & H). split.
  - destruct b as [bk ins nx bl]. cbn in *. subst. unfold world_bytes. f_equal. apply map_eq. intros a. specialize (H a). rewrite lookup_fmap.
    destruct (ins !! a) as [i|], (w_insts w !! a) as [j|]; try contradiction; [|reflexivity]. destruct H as [Ha Hs]. apply held_bytes in Hs as [Hs _].
    cbn. f_equal. destruct i; cbn in *. unfold inst_bytes. congruence.
  - intros a s E. specialize (H a). unfold state_at in E. destruct (w_insts w !! a) as [j|]; [|discriminate]. cbn in E. injection E as <-.
    destruct (bw_insts b !! a) as [i|]; [|contradiction]. destruct H as [_ Hs]. apply held_bytes in Hs. apply Hs.
Qed.

(** ** Queriers *)
(** Execution only asks these. *)
Definition same_answers (Q Q' : querier) : Prop :=
  (forall a d, q_balance Q a d = q_balance Q' a d) /\ (forall t a, q_token_balance Q t a = q_token_balance Q' t a) /\
  (forall t, q_token_info Q t = q_token_info Q' t) /\ (forall f d, q_native_decimals Q f d = q_native_decimals Q' f d) /\
  (forall f i, q_pair_info Q f i = q_pair_info Q' f i) /\ (forall p, q_pair_self Q p = q_pair_self Q' p).
Lemma rbind_ext {X Y} (r : res X) (f g : X -> res Y) : (forall x, f x = g x) -> rbind r f = rbind r g.
Proof. intros H. destruct r; [apply H|reflexivity]. Qed.
Section same.
  Context (A : api) (Q Q' : querier) (S : same_answers Q Q').
  Ltac ext := repeat first
    [ reflexivity
    | apply rbind_ext; intros ?
    | match goal with |- (match ?x with _ => _ end) = (match ?x with _ => _ end) => destruct x end ].
  Lemma same_pool i p : query_pool A Q i p = query_pool A Q' i p.
  Proof. destruct S as (S1 & S2 & _). unfold query_pool. destruct i; [apply rbind_ext; intros; apply S2|apply S1]. Qed.
  Lemma same_decimals i p : query_decimals Q i p = query_decimals Q' i p.
  Proof. destruct S as (_ & _ & S3 & S4 & _). unfold query_decimals. destruct i; [rewrite S3; reflexivity|apply S4]. Qed.
  Lemma same_pools p self : query_pools A Q p self = query_pools A Q' p self.
  Proof. unfold query_pools. apply rbind_ext; intros i0. apply rbind_ext; intros i1. rewrite same_pool. apply rbind_ext; intros a0. rewrite same_pool. reflexivity. Qed.
  Lemma same_info t : q_token_info Q t = q_token_info Q' t. Proof. apply S. Qed.
  Lemma same_swap self st funds s a b m t : swap A Q self st funds s a b m t = swap A Q' self st funds s a b m t.
  Proof. unfold swap. rewrite same_pools. reflexivity. Qed.
  Lemma same_withdraw self st s n : withdraw_liquidity A Q self st s n = withdraw_liquidity A Q' self st s n.
  Proof. unfold withdraw_liquidity. ext. rewrite same_pools. ext. rewrite same_info. reflexivity. Qed.
  Lemma same_provide self st sender funds assets tol rcv :
    provide_liquidity A Q self st sender funds assets tol rcv = provide_liquidity A Q' self st sender funds assets tol rcv.
  Proof. unfold provide_liquidity. ext; rewrite same_pools; ext; rewrite same_info; reflexivity. Qed.
  Lemma same_pair_execute self st sender funds m : pair_execute A Q self st sender funds m = pair_execute A Q' self st sender funds m.
  Proof.
    unfold pair_execute. destruct (negb _); [reflexivity|]. destruct m; try reflexivity; try apply same_provide.
    unfold pair_receive. destruct (negb _); [reflexivity|]. destruct msg; try reflexivity.
    - rewrite same_pools. apply rbind_ext. intros [p0 p1]. apply rbind_ext. intros _. apply rbind_ext. intros r. apply same_swap.
    - apply rbind_ext. intros c. apply rbind_ext. intros _. apply rbind_ext. intros r. apply same_withdraw.
  Qed.
  Lemma same_create self st infos reqs : create_pair A Q self st infos reqs = create_pair A Q' self st infos reqs.
  Proof. unfold create_pair. ext; rewrite !same_decimals; reflexivity. Qed.
  Lemma same_factory_execute self st sender m : factory_execute A Q self st sender m = factory_execute A Q' self st sender m.
  Proof.
    unfold factory_execute. destruct (negb _); [reflexivity|]. destruct m; try reflexivity; try apply same_create.
    unfold add_native. ext; rewrite (proj1 S); reflexivity.
  Qed.
  Lemma same_factory_reply st a : factory_reply A Q st a = factory_reply A Q' st a.
  Proof. destruct S as (_ & _ & _ & _ & _ & S6). unfold factory_reply. ext. rewrite S6. reflexivity. Qed.
  Lemma same_swap_ops self st s ops m t : execute_swap_operations A Q self st s ops m t = execute_swap_operations A Q' self st s ops m t.
  Proof.
    unfold execute_swap_operations. destruct (list.last ops); [|reflexivity]. apply rbind_ext. intros _. destruct m; [|reflexivity]. cbv zeta.
    rewrite same_pool. reflexivity.
  Qed.
  Lemma same_router_execute self st sender m : router_execute A Q self st sender m = router_execute A Q' self st sender m.
  Proof.
    destruct S as (S1 & S2 & _ & _ & S5 & _).
    unfold router_execute. destruct (negb _); [reflexivity|]. destruct m; try reflexivity.
    - unfold router_receive. apply rbind_ext. intros x. destruct (negb _); [reflexivity|]. destruct msg; try reflexivity. apply rbind_ext. intros y. apply same_swap_ops.
    - apply rbind_ext. intros y. apply same_swap_ops.
    - apply rbind_ext. intros y. unfold execute_swap_operation. apply rbind_ext. intros _. apply rbind_ext. intros f. rewrite S5. apply rbind_ext. intros p.
      destruct (op_offer op) as [x|d]; [|rewrite S1; reflexivity]. destruct (addr_validate A x); [|reflexivity]. cbn [rbind]. rewrite S2. reflexivity.
    - apply rbind_ext. intros y. unfold assert_minimum_receive. rewrite same_pool. reflexivity.
  Qed.
  Lemma same_simulation st a : pair_query_simulation A Q st a = pair_query_simulation A Q' st a.
  Proof. unfold pair_query_simulation. ext. rewrite same_pools. reflexivity. Qed.
  Lemma same_reverse st a : pair_query_reverse_simulation A Q st a = pair_query_reverse_simulation A Q' st a.
  Proof. unfold pair_query_reverse_simulation. ext. rewrite same_pools. reflexivity. Qed.
End same.

(** ** Answers from bytes *)
Lemma give_inj {X} (f : X -> answer) (r r' : res X) : (forall x y, f x = f y -> x = y) -> give f r = give f r' -> r = r'.
Proof. intros I. destruct r, r'; cbn; intros H; try discriminate H; injection H as H; [f_equal; apply I, H|congruence]. Qed.
Section world.
  Context (B : bchain) (w : world) (K : world_ok w).
  Notation C := (typed B).
  Notation b := (world_bytes w).
  Lemma at_bytes a : bcontract_at B b a = let* '(x, s) := contract_at C w a in Ok (x, bytes_of s).
  Proof.
    unfold bcontract_at, contract_at. cbn [ch_api typed]. destruct (oget (norm (bc_api B) a) ENotFound) as [x|e]; [|reflexivity]. cbn [rbind].
    cbn [bw_insts world_bytes]. rewrite lookup_fmap. destruct (w_insts w !! x); reflexivity.
  Qed.
  Lemma at_ok a x s : contract_at C w a = Ok (x, s) -> state_ok s.
  Proof.
    unfold contract_at. intros H. apply rbind_ok in H as (y & _ & H). apply rbind_ok in H as (i & Hi & H). apply oget_ok in Hi. injection H as <- <-.
    apply (K y). unfold state_at. rewrite Hi. reflexivity.
  Qed.
  Ltac ask := rewrite at_bytes; destruct (contract_at C w _) as [[x0 s0]|e0] eqn:E; [|reflexivity]; apply at_ok in E; cbn [rbind];
    destruct s0 as [p0|f0|r0|t0|k0 d0]; cbn [bytes_of state_ok] in *; try reflexivity.
  Lemma tok_bytes t : tok_types t -> tstored (tfill t (tcells t)) t. Proof. apply tfill_stored. Qed.
  Lemma load_self p : rec_fits p -> load r_pair_raw k_self (fill (SPair p) (cells (SPair p))) = Ok p.
  Proof. intros F. change k_self with (cell_key AtSelf). eapply load_cell; [apply fill_stored|reflexivity|apply rw_pair_raw; exact F]. Qed.
  Lemma ask_token_balance_bytes t a : bask_token_balance B b t a = ask_token_balance C w t a.
  Proof.
    unfold bask_token_balance, ask_token_balance. ask.
    eapply (give_inj ABalance); [intros ? ? H; congruence|]. exact (bt_query_same (bc_api B) _ _ (QBalance a) (tfill_stored _ E) E I).
  Qed.
  Lemma ask_token_info_bytes t : bask_token_info B b t = ask_token_info C w t.
  Proof.
    unfold bask_token_info, ask_token_info. ask.
    eapply (give_inj ATokenInfo); [intros ? ? H; congruence|]. exact (bt_query_same (bc_api B) _ _ QTokenInfo (tfill_stored _ E) E I).
  Qed.
  Lemma ask_native_bytes f d : bask_native_decimals B b f d = ask_native_decimals C w f d.
  Proof.
    unfold bask_native_decimals, ask_native_decimals. ask.
    eapply (give_inj ADecimals); [intros ? ? H; congruence|]. exact (bf_query_same (bc_api B) _ _ (QNativeTokenDecimals d) (fill_stored _) E).
  Qed.
  Lemma ask_pair_bytes f i : bask_pair_info B b f i = ask_pair_info C w f i.
  Proof.
    unfold bask_pair_info, ask_pair_info. ask.
    eapply (give_inj APairInfo); [intros ? ? H; congruence|]. exact (bf_query_same (bc_api B) _ _ (QPair i) (fill_stored _) E).
  Qed.
  Lemma ask_self_bytes p : bask_pair_self B b p = ask_pair_self C w p.
  Proof. unfold bask_pair_self, ask_pair_self. ask. rewrite load_self by exact E. reflexivity. Qed.
  Lemma base_same : same_answers (bbase_querier B b) (base_querier C w).
  Proof.
    repeat split; intros; cbn [q_balance q_token_balance q_token_info q_native_decimals q_pair_info q_pair_self bbase_querier base_querier]; try reflexivity.
    - apply ask_token_balance_bytes. - apply ask_token_info_bytes. - apply ask_native_bytes. - apply ask_pair_bytes. - apply ask_self_bytes.
  Qed.
  Lemma wq_same : same_answers (bwq B b) (wq C w). Proof. exact base_same. Qed.
  Lemma ask_simulate_bytes p a : bask_simulate B b p a = ask_simulate C w p a.
  Proof. unfold bask_simulate, ask_simulate. ask. rewrite load_self by exact E. apply same_simulation, base_same. Qed.
  Lemma ask_reverse_bytes p a : bask_reverse B b p a = ask_reverse C w p a.
  Proof. unfold bask_reverse, ask_reverse. ask. rewrite load_self by exact E. apply same_reverse, base_same. Qed.
End world.

(** ** Calls on bytes *)
(** A run on bytes that was not given up has the outcome of the model. *)
Definition sim {X Y} (f : X -> Y) (good : X -> Prop) (b : option (res Y)) (t : res X) : Prop :=
  match b with
  | None => True
  | Some r => match t with Ok x => r = Ok (f x) /\ good x | Err e => r = Err e end
  end.
Lemma sim_bind {X X' Y Y'} (f : X -> X') (g : Y -> Y') good good' b t kb kt :
  sim f good b t -> (forall x, t = Ok x -> good x -> sim g good' (kb (f x)) (kt x)) -> sim g good' (obb b kb) (rbind t kt).
Proof.
  intros H K. destruct b as [r|]; [|exact I]. destruct t as [x|e]; cbn in H; [|subst r; reflexivity]. destruct H as [-> G]. cbn. apply K; auto.
Qed.
Lemma sim_step {X Y Y'} (g : Y -> Y') good' (t : res X) kb kt :
  (forall x, t = Ok x -> sim g good' (kb x) (kt x)) -> sim g good' (obb (Some t) kb) (rbind t kt).
Proof. intros K. destruct t as [x|e]; cbn; [apply K; reflexivity|reflexivity]. Qed.
Definition rb (x : cstate * response) : bstate * response := (bytes_of x.1, x.2).
Definition state_good (x : cstate * response) : Prop := state_ok x.1.

Lemma same_sim {X} (mk : X -> cstate) (mb : store -> bstate) b t : (forall x, bytes_of (mk x) = mb (fill (mk x) (cells (mk x)))) ->
  same_outcome mk b t -> (forall x r, t = Ok (x, r) -> state_ok (mk x)) -> sim rb state_good (Some (bwrap mb b)) (wrap mk t).
Proof.
  intros E H K. destruct b as [[s r]|e], t as [[x r']|e']; cbn in H; try contradiction; cbn.
  - destruct H as [-> S]. split; [|apply (K x r'); reflexivity]. unfold rb. cbn. rewrite E. rewrite (stored_fill _ _ S). reflexivity.
  - congruence.
Qed.
Lemma tok_sim b t : tok_same b t -> sim rb state_good (Some (bwrap BToken b)) (wrap SToken t).
Proof.
  intros H. destruct b as [[s r]|e], t as [[x r']|e']; cbn in H; try contradiction; cbn.
  - destruct H as (-> & S & T). split; [|exact T]. unfold rb. cbn. rewrite (tstored_fill _ _ S T). reflexivity.
  - congruence.
Qed.
Lemma adv_sim k (r : res (string * response)) : sim rb state_good (Some (bwrap (BAdv k) r)) (wrap (SAdv k) r).
Proof. destruct r as [[d r]|e]; cbn; [split; [reflexivity|exact I]|reflexivity]. Qed.

Lemma no_ffb_iff a : no_ffb a = true <-> no_ff a.
Proof.
  induction a as [|c a IH]; cbn; [tauto|]. rewrite andb_true_iff, IH, negb_true_iff, N.eqb_neq. reflexivity.
Qed.
Lemma textb_iff a : textb a = true <-> text a.
Proof. unfold textb, text. rewrite andb_true_iff, N.ltb_lt, no_ffb_iff. reflexivity. Qed.
(** A message naming an invalid address is refused before any key is made. *)
Lemma bt_execute_sim A blk t s sender m : tstored s t -> tok_types t -> textb sender && msg_textb A m = true ->
  tok_same (bt_execute A blk s sender m) (token_execute A blk t sender m).
Proof.
  intros S T H. apply andb_prop in H as [H1 H2]. apply textb_iff in H1.
  assert (D : forall a, match addr_validate A a with Ok _ => textb a | Err _ => true end = true -> text a \/ exists e, addr_validate A a = Err e).
  { intros a Ha. destruct (addr_validate A a); [left; apply textb_iff, Ha|right; eauto]. }
  destruct m; try (apply bt_execute_same; [exact S|exact T|exact H1|exact I]); cbn [msg_textb] in H2; apply D in H2 as [H2|(e & H2)];
    try (apply bt_execute_same; [exact S|exact T|exact H1|exact H2]);
    unfold bt_execute, token_execute; destruct (negb _); try reflexivity; cbv beta iota; unfold bt_increase, token_increase, bt_decrease, token_decrease, bt_transfer_from, token_transfer_from, bt_burn_from, token_burn_from, bt_send_from, token_send_from;
    clear D; rewrite ?H2; try reflexivity; match goal with |- context [addr_validate A ?x] => destruct (addr_validate A x); reflexivity end.
Qed.

Section calls.
  Context (B : bchain) (w : world) (K : world_ok w).
  Notation C := (typed B).
  Notation b := (world_bytes w).
  Lemma world_fit : all_fit w.
  Proof. intros a s E. apply K in E. destruct s; cbn in *; try exact I; [exact E|apply E]. Qed.
  Lemma bcall_sim self s sender funds m : state_ok s ->
    sim rb state_good (bcall B b self (bytes_of s) sender funds m) (call C w self s sender funds m).
  Proof.
    intros Ks. destruct s as [p|f|r|t|k d]; cbn [bytes_of bcall call state_ok] in *.
    - apply same_sim; [reflexivity| |].
      + rewrite <- (same_pair_execute (bc_api B) _ _ (wq_same B w K)). apply (C100_pair C); [apply fill_stored|exact Ks].
      + intros x r E. apply pair_execute_msgs in E as [-> _]. exact Ks.
    - apply same_sim; [reflexivity| |].
      + rewrite <- (same_factory_execute (bc_api B) _ _ (wq_same B w K)). apply C100_factory; [apply fill_stored|exact Ks].
      + intros x r E. eapply (factory_fits_execute C w); [exact world_fit|exact Ks|exact E].
    - apply same_sim; [reflexivity| |intros; exact I].
      rewrite <- (same_router_execute (bc_api B) _ _ (wq_same B w K)). apply (C100_router C), fill_stored.
    - destruct (textb sender && _) eqn:G; [|exact I]. apply tok_sim. apply bt_execute_sim; [apply tfill_stored; exact Ks|exact Ks|exact G].
    - apply adv_sim.
  Qed.
  Lemma binit_sim self c sender funds m : sim rb state_good (Some (binit B b self c sender funds m)) (init C w self c sender funds m).
  Proof.
    pose proof (C100_new (bc_api B)) as (N1 & N2 & N3).
    destruct c; cbn [binit init]; [destruct m; try reflexivity..|apply adv_sim].
    - destruct (u64_ok _ && _ && _ && _) eqn:U; [|reflexivity]. apply same_sim; [reflexivity|apply N2|].
      intros x r E. apply andb_prop in U as [U U4]. apply andb_prop in U as [U U3]. apply andb_prop in U as [_ U2].
      unfold pair_instantiate in E. repeat (apply rbind_ok in E as (? & _ & E)). injection E as <- <-. cbn. split; [apply N.ltb_lt, U2|]. split; [apply N.ltb_lt, U3|exact U4].
    - apply same_sim; [reflexivity|apply N1|]. intros x r E.
      apply (init_fits_all C w self CFactory sender funds (IFactory pair_code_id token_code_id) (SFactory x) r). cbn [init]. unfold wrap. rewrite E. reflexivity.
    - apply same_sim; [reflexivity|apply N3|intros; exact I].
    - apply tok_sim, C101_new.
  Qed.
  Lemma self_ranges p i : ask_pair_self C w p = Ok i -> pair_info_ranges i = true.
  Proof.
    intros H. unfold ask_pair_self in H. apply rbind_ok in H as ([p' s] & H1 & H). apply (at_ok B w K) in H1. destruct s as [ps| | | |k y]; try discriminate.
    - destruct H1 as (G0 & G1 & Gr). unfold pair_query_pair, pair_to_normal in H. repeat (apply rbind_ok in H as (? & _ & H)). injection H as <-.
      unfold pair_info_ranges, u8_ok. cbn [p_asset_decimals p_requirements]. rewrite Gr. apply N.ltb_lt in G0, G1. rewrite G0, G1. reflexivity.
    - apply rbind_ok in H as (j & _ & H). destruct (pair_info_ranges j) eqn:E; [|discriminate]. injection H as <-. exact E.
  Qed.
  Lemma breply_sim self s id ok r : state_ok s ->
    sim rb state_good (Some (breply B b self (bytes_of s) id ok r)) (reply C w self s id ok r).
  Proof.
    intros Ks. destruct s as [p|f|x|t|k d]; cbn [bytes_of breply reply state_ok] in *; try reflexivity.
    - destruct r as [a|]; [|reflexivity]. apply same_sim; [reflexivity|apply (C100_pair C (wq C w) self); [apply fill_stored|exact Ks]|].
      intros y r E. unfold pair_reply in E. apply rbind_ok in E as (? & _ & E). injection E as <- <-. exact Ks.
    - destruct r as [a|]; [|reflexivity]. apply same_sim; [reflexivity| |].
      + rewrite <- (same_factory_reply (bc_api B) _ _ (wq_same B w K)). apply (C100_factory (bc_api B) (bwq B b) self); [apply fill_stored|exact Ks].
      + intros st' rsp H. destruct Ks as (F1 & F2 & F3 & F4 & F5). unfold factory_reply in H. apply rbind_ok in H as (tmp & Ht & H). apply oget_ok in Ht. apply rbind_ok in H as (p & Hp & H).
        apply rbind_ok in H as (lp & _ & H). apply rbind_ok in H as (c & _ & H). injection H as <- <-. destruct (F5 _ Ht) as [T0 T1].
        cbn [wq q_pair_self] in Hp. apply self_ranges in Hp. unfold pair_info_ranges in Hp. apply andb_prop in Hp as [_ Hr].
        split; [exact F1|]. split; [exact F2|]. split; [exact F3|]. split; [|exact F5]. cbn [f_pairs]. intros k y E. destruct (decide (k = t_key tmp)) as [->|D].
        * rewrite lookup_insert in E. injection E as <-. split; [exact T0|]. split; [exact T1|exact Hr].
        * rewrite lookup_insert_ne in E by congruence. eauto.
    - apply adv_sim.
  Qed.
  Lemma migrated_bytes s k : state_ok s -> bmigrated B (bytes_of s) k = bytes_of <$> migrated C s k.
  Proof.
    intros Ks. assert (V : forall n st, content st AtVersion = Some (w_version n "0.1.0") -> set_version n (fill st (cells st)) = fill st (cells st)).
    { intros n st E. apply stored_fill, stored_again; [apply fill_stored|exact E]. }
    destruct s as [p|f|r|t|j d], k; try reflexivity; cbn [bytes_of bmigrated migrated];
      try (unfold bp_migrate, bf_migrate, br_migrate; rewrite V by reflexivity; reflexivity);
      change (ch_takeover C) with (fun s k => bc_takeover B (bytes_of s) k); cbv beta; cbn [bytes_of];
      match goal with |- context [bc_takeover B ?x ?y] => destruct (bc_takeover B x y); reflexivity end.
  Qed.
End calls.

(** ** Dispatch on bytes *)
Lemma set_state_bytes w a s : bset_state (world_bytes w) a (bytes_of s) = world_bytes (set_state w a s).
Proof.
  unfold bset_state, set_state. cbn [bw_insts world_bytes]. rewrite lookup_fmap. destruct (w_insts w !! a) as [i|]; cbn [fmap option_fmap option_map]; [|reflexivity].
  unfold bset_insts, set_insts, world_bytes. cbn [bw_bank bw_insts bw_next bw_block w_bank w_insts w_next w_block]. rewrite fmap_insert. reflexivity.
Qed.
Lemma set_admin_bytes w a s : bset_admin (world_bytes w) a s = world_bytes (set_admin w a s).
Proof.
  unfold bset_admin, set_admin. cbn [bw_insts world_bytes]. rewrite lookup_fmap. destruct (w_insts w !! a) as [i|]; cbn [fmap option_fmap option_map]; [|reflexivity].
  unfold bset_insts, set_insts, world_bytes. cbn [bw_bank bw_insts bw_next bw_block w_bank w_insts w_next w_block]. rewrite fmap_insert. reflexivity.
Qed.
Lemma new_bytes w a adm s : bset_insts (world_bytes w) (<[a := BInst adm (bytes_of s)]> (bw_insts (world_bytes w))) = world_bytes (set_insts w (<[a := Inst adm s]> (w_insts w))).
Proof. unfold bset_insts, set_insts, world_bytes. cbn [bw_bank bw_insts bw_next bw_block w_bank w_insts w_next w_block]. rewrite fmap_insert. reflexivity. Qed.
Lemma ok_insts w w' : w_insts w' = w_insts w -> world_ok w -> world_ok w'.
Proof. intros E K a s H. apply (K a). unfold state_at in *. rewrite <- E. exact H. Qed.
Lemma ok_set w a s : world_ok w -> state_ok s -> world_ok (set_state w a s).
Proof.
  intros W F x s' H. destruct (w_insts w !! a) as [i|] eqn:E.
  - rewrite state_at_set in H by eauto. case_decide; [injection H as <-; exact F|eauto].
  - unfold set_state in H. rewrite E in H. eauto.
Qed.
Lemma ok_new w a adm s : world_ok w -> state_ok s -> world_ok (set_insts w (<[a := Inst adm s]> (w_insts w))).
Proof.
  intros W F x s' H. unfold state_at in H. cbn [w_insts set_insts] in H. destruct (decide (x = a)) as [->|D].
  - rewrite lookup_insert in H. cbn in H. injection H as <-. exact F.
  - rewrite lookup_insert_ne in H by congruence. apply (W x). exact H.
Qed.
Lemma ok_admin w a adm : world_ok w -> world_ok (set_admin w a adm).
Proof.
  intros W x s H. unfold set_admin in H. destruct (w_insts w !! a) as [i|] eqn:E; [|eauto]. unfold state_at in H. cbn [w_insts set_insts] in H.
  destruct (decide (x = a)) as [->|D].
  - rewrite lookup_insert in H. cbn in H. apply (W a). unfold state_at. rewrite E. exact H.
  - rewrite lookup_insert_ne in H by congruence. apply (W x). exact H.
Qed.
Lemma send_sim w from to cs : world_ok w -> sim world_bytes world_ok (Some (bb_send (world_bytes w) from to cs)) (bank_send w from to cs).
Proof.
  intros K. unfold bb_send, bank_send. destruct (coins_valid cs); [|reflexivity]. cbn [bw_bank world_bytes].
  destruct (move_all (w_bank w) from to cs); cbn; [|reflexivity]. split; [reflexivity|]. eapply ok_insts; [|exact K]. reflexivity.
Qed.
Lemma msg_sim A w from to cs : world_ok w -> sim world_bytes world_ok (Some (bb_msg A (world_bytes w) from to cs)) (bank_msg A w from to cs).
Proof.
  intros K. unfold bb_msg, bank_msg. destruct (oget (norm A to) EBank); cbn [rbind]; [|reflexivity]. destruct cs; [reflexivity|]. apply send_sim, K.
Qed.
Definition at_sim w a : world_ok w -> sim inst_bytes (fun i => state_ok (i_state i)) (Some (oget (bw_insts (world_bytes w) !! a) ENotFound)) (oget (w_insts w !! a) ENotFound).
Proof.
  intros K. cbn [bw_insts world_bytes]. rewrite lookup_fmap. destruct (w_insts w !! a) as [i|] eqn:E; cbn; [|reflexivity]. split; [reflexivity|].
  apply (K a). unfold state_at. rewrite E. reflexivity.
Qed.
Definition xb (x : world * option string * list event) : bworld * option string * list bevent := (world_bytes x.1.1, x.1.2, map event_bytes x.2).
Definition rnb (x : world * list event) : bworld * list bevent := (world_bytes x.1, map event_bytes x.2).
(** Every event too is of a world whose stores belong to its states. *)
Definition log_ok (lg : list event) : Prop := List.Forall (fun e => world_ok (ev_world e)) lg.
Definition x_good (x : world * option string * list event) : Prop := world_ok x.1.1 /\ log_ok x.2.
Definition rn_good (x : world * list event) : Prop := world_ok x.1 /\ log_ok x.2.

Lemma brun_cons B f w self sm rest : brun B (S f) w self (sm :: rest) =
            let! '(w1, lg1) :=
              match sm_reply sm, bexec B f w self (sm_msg sm) with
              | _, None => None
              | ReplyNever, Some (Ok (w', _, lg)) => Some (Ok (w', lg))
              | ReplyNever, Some (Err e) => Some (Err e)
              | ReplySuccess _, Some (Err e) => Some (Err e)
              | ReplySuccess id, Some (Ok (w', r, lg)) | ReplyAlways id, Some (Ok (w', r, lg)) =>
                  let! i := Some (oget (bw_insts w' !! self) ENotFound) in
                  let! '(s, rsp) := Some (breply B w' self (bi_state i) id true r) in
                  let! '(w2, lg2) := brun B f (bset_state w' self s) self (rs_msgs rsp) in
                  Some (Ok (w2, lg ++ lg2))
              | ReplyAlways id, Some (Err _) =>
                  let! i := Some (oget (bw_insts w !! self) ENotFound) in
                  let! '(s, rsp) := Some (breply B w self (bi_state i) id false None) in
                  brun B f (bset_state w self s) self (rs_msgs rsp)
              end in
            let! '(w2, lg2) := brun B f w1 self rest in
            Some (Ok (w2, lg1 ++ lg2)).
Proof. reflexivity. Qed.
Lemma dispatch_sim B fuel :
  (forall w sender m, world_ok w -> sim xb x_good (bexec B fuel (world_bytes w) sender m) (exec (typed B) fuel w sender m)) /\
  (forall w self subs, world_ok w -> sim rnb rn_good (brun B fuel (world_bytes w) self subs) (run (typed B) fuel w self subs)).
Proof.
  induction fuel as [|f [IHx IHr]]; [split; intros; reflexivity|]. split.
  - intros w sender m K. destruct m as [to cs|c msg funds|admin code msg funds lb|c code|c new]; cbn [bexec exec].
    + eapply sim_bind; [apply msg_sim, K|]. intros w' _ K'. cbn. split; [reflexivity|]. split; [exact K'|constructor].
    + apply sim_step. intros a _. eapply sim_bind; [apply send_sim, K|]. intros w1 _ K1. eapply sim_bind; [apply at_sim, K1|].
      intros i Hi Ki. eapply sim_bind; [apply (bcall_sim B w1 K1 a (i_state i) sender funds msg Ki)|]. intros [s rsp] _ Ks. cbn [rb fst snd]. cbv beta iota.
      rewrite set_state_bytes. eapply sim_bind; [apply IHr, ok_set; [exact K1|exact Ks]|]. intros [w2 lg] _ [K2 L2]. cbn. split; [reflexivity|].
      split; [exact K2|]. constructor; [exact K1|exact L2].
    + apply sim_step. intros c _. apply sim_step. intros adm _. cbv zeta.
      assert (K0 : world_ok (set_next w (w_next w + 1))) by (eapply ok_insts; [|exact K]; reflexivity).
      eapply sim_bind; [exact (send_sim (set_next w (w_next w + 1)) sender (bc_fresh B (w_next w)) funds K0)|]. intros w1 _ K1.
      eapply sim_bind; [apply (binit_sim B w1)|]. intros [s rsp] _ Ks. cbn [rb fst snd]. cbv beta iota. rewrite new_bytes.
      eapply sim_bind; [apply IHr, ok_new; [exact K1|exact Ks]|]. intros [w2 lg] _ [K2 L2]. cbn. split; [reflexivity|]. split; assumption.
    + apply sim_step. intros a _. eapply sim_bind; [apply at_sim, K|]. intros i Hi Ki. apply sim_step. intros k _. cbn [bi_admin inst_bytes].
      destruct (bool_decide (i_admin i = Some sender)); [|reflexivity]. change (bi_state (inst_bytes i)) with (bytes_of (i_state i)). rewrite (migrated_bytes B _ k Ki).
      destruct (migrated (typed B) (i_state i) k) as [s|] eqn:E; cbn; [|reflexivity]. unfold xb. cbn. rewrite set_state_bytes. split; [reflexivity|].
      split; [|constructor]. apply ok_set; [exact K|]. cbv beta in Ki. unfold migrated in E.
      destruct (i_state i) as [p|fs|r|t|j d], k as [| | | |k']; try discriminate E; try (injection E as <-; exact Ki); cbn in E;
        destruct (bc_takeover B _ k'); try discriminate E; injection E as <-; exact I.
    + apply sim_step. intros a _. eapply sim_bind; [apply at_sim, K|]. intros i Hi Ki. apply sim_step. intros adm _. cbn [bi_admin inst_bytes].
      destruct (bool_decide (i_admin i = Some sender)); [|reflexivity]. cbn. unfold xb. cbn. rewrite set_admin_bytes. split; [reflexivity|].
      split; [apply ok_admin, K|constructor].
  - intros w self subs K. destruct subs as [|sm rest]; [split; [reflexivity|]; split; [exact K|constructor]|]. rewrite brun_cons, run_cons.
    eapply (sim_bind rnb rnb rn_good).
    + pose proof (IHx w self (sm_msg sm) K) as H.
      assert (Rp : forall w' id ok r lg, world_ok w' -> log_ok lg -> sim rnb rn_good
        (let! i := Some (oget (bw_insts (world_bytes w') !! self) ENotFound) in
         let! '(s, rsp) := Some (breply B (world_bytes w') self (bi_state i) id ok r) in
         let! '(w2, lg2) := brun B f (bset_state (world_bytes w') self s) self (rs_msgs rsp) in
         Some (Ok (w2, map event_bytes lg ++ lg2)))
        (let* i := oget (w_insts w' !! self) ENotFound in
         let* '(s, rsp) := reply (typed B) w' self (i_state i) id ok r in
         let* '(w2, lg2) := run (typed B) f (set_state w' self s) self (rs_msgs rsp) in
         Ok (w2, lg ++ lg2))).
      { intros w' id ok r lg K' L. eapply sim_bind; [apply at_sim, K'|]. intros i _ Ki. eapply sim_bind; [apply (breply_sim B w' K' self (i_state i) id ok r Ki)|].
        intros [s rsp] _ Ks. cbn [rb fst snd]. cbv beta iota. rewrite set_state_bytes. eapply sim_bind; [apply IHr, ok_set; [exact K'|exact Ks]|].
        intros [w2 lg2] _ [K2 L2]. cbn. unfold rnb. cbn. rewrite map_app. split; [reflexivity|]. split; [exact K2|]. apply List.Forall_app. split; assumption. }
      destruct (bexec B f (world_bytes w) self (sm_msg sm)) as [r|]; [|destruct (sm_reply sm); exact I].
      destruct (exec (typed B) f w self (sm_msg sm)) as [[[w' r'] lg]|e]; cbn in H.
      * destruct H as [-> [K' L]]. cbn [xb fst snd]. cbn in K', L. destruct (sm_reply sm) as [|id|id].
        -- split; [reflexivity|]. split; assumption.
        -- apply Rp; assumption.
        -- apply Rp; assumption.
      * subst r. destruct (sm_reply sm) as [|id|id]; [reflexivity|reflexivity|].
        eapply sim_bind; [apply at_sim, K|]. intros i _ Ki. eapply sim_bind; [apply (breply_sim B w K self (i_state i) id false None Ki)|].
        intros [s rsp] _ Ks. cbn [rb fst snd]. cbv beta iota. rewrite set_state_bytes. apply IHr, ok_set; [exact K|exact Ks].
    + intros [w1 lg1] _ [K1 L1]. cbn [rnb fst snd]. cbv beta iota. eapply sim_bind; [apply IHr; exact K1|]. intros [w2 lg2] _ [K2 L2]. cbn.
      unfold rnb. cbn. rewrite map_app. split; [reflexivity|]. split; [exact K2|]. apply List.Forall_app. split; assumption.
Qed.

(** ** Theorems *)
Lemma log_held lg : log_ok lg -> List.Forall2 event_held (map event_bytes lg) lg.
Proof.
  induction lg as [|e lg IH]; intros L; [constructor|]. apply List.Forall_cons_iff in L as [L1 L2]. cbn [map]. constructor; [|apply IH, L2].
  repeat (split; [reflexivity|]). apply world_held, L1.
Qed.
(** What contracts are told is read from the bytes as from the states. *)
Theorem C102_answers B b w : held b w ->
  (forall a d, q_balance (bwq B b) a d = q_balance (wq (typed B) w) a d) /\
  (forall t a, q_token_balance (bwq B b) t a = q_token_balance (wq (typed B) w) t a) /\
  (forall t, q_token_info (bwq B b) t = q_token_info (wq (typed B) w) t) /\
  (forall f d, q_native_decimals (bwq B b) f d = q_native_decimals (wq (typed B) w) f d) /\
  (forall f i, q_pair_info (bwq B b) f i = q_pair_info (wq (typed B) w) f i) /\
  (forall p a, q_simulate (bwq B b) p a = q_simulate (wq (typed B) w) p a) /\
  (forall p a, q_reverse_simulate (bwq B b) p a = q_reverse_simulate (wq (typed B) w) p a) /\
  (forall p, q_pair_self (bwq B b) p = q_pair_self (wq (typed B) w) p).
Proof.
  intros H. apply held_world in H as [-> K]. destruct (wq_same B w K) as (S1 & S2 & S3 & S4 & S5 & S6).
  do 5 (split; [assumption|]). split; [intros; apply ask_simulate_bytes, K|]. split; [intros; apply ask_reverse_bytes, K|assumption].
Qed.
(** Every message has the same outcome. *)
Theorem C102_exec B fuel b w sender m : held b w ->
  match bexec B fuel b sender m with
  | Some (Ok (b', r, blg)) => exists w' lg, exec (typed B) fuel w sender m = Ok (w', r, lg) /\ held b' w' /\ List.Forall2 event_held blg lg
  | Some (Err e) => exec (typed B) fuel w sender m = Err e
  | None => True
  end.
Proof.
  intros H. apply held_world in H as [-> K]. pose proof (proj1 (dispatch_sim B fuel) w sender m K) as S.
  destruct (bexec B fuel (world_bytes w) sender m) as [r|]; [|exact I]. destruct (exec (typed B) fuel w sender m) as [[[w' x] lg]|e]; cbn in S.
  - destruct S as [-> [K' L]]. cbn in *. exists w', lg. split; [reflexivity|]. split; [apply world_held, K'|apply log_held, L].
  - subst r. reflexivity.
Qed.
(** Every history on bytes is one of the model. *)
Theorem C102_history B b0 w0 blg b : held b0 w0 -> bhistory B b0 blg b ->
  exists lg w, history (typed B) w0 lg w /\ held b w /\ List.Forall2 event_held blg lg.
Proof.
  intros H0 H. induction H as [b0|b0 lg b1 s m b2 lg2 H IH T|b0 lg b1 blk H IH H1 H2].
  - exists [], w0. split; [constructor|]. split; [exact H0|constructor].
  - destruct (IH H0) as (l & w1 & Hh & Hw & Hl). destruct T as (O & fuel & r & E). pose proof (C102_exec B fuel b1 w1 s m Hw) as S. rewrite E in S.
    destruct S as (w2 & l2 & X & Hw2 & Hl2). exists (l ++ l2), w2. split; [|split; [exact Hw2|apply List.Forall2_app; assumption]].
    eapply hist_tx; [exact Hh|]. split; [exact O|eauto].
  - destruct (IH H0) as (l & w1 & Hh & (E1 & E2 & E3 & E4) & Hl). exists l, (World (w_bank w1) (w_insts w1) (w_next w1) blk).
    split; [apply hist_block; [exact Hh|rewrite <- E3; exact H1|rewrite <- E3; exact H2]|]. split; [|exact Hl]. repeat (split; [assumption || reflexivity|]). exact E4.
Qed.
(** So what holds in every reachable state of the model holds of what the bytes of
    the chain stand for, whatever happened. *)
Theorem C102_carries B (P : world -> Prop) bank blk blg b : (forall w, reachable (typed B) w -> P w) ->
  bhistory B (BWorld bank ∅ 0 blk) blg b -> exists w, held b w /\ P w.
Proof.
  intros HP H. assert (H0 : held (BWorld bank ∅ 0 blk) (World bank ∅ 0 blk)).
  { repeat (split; [reflexivity|]). intros a. cbn [bw_insts w_insts]. rewrite !lookup_empty. exact I. }
  destruct (C102_history B _ _ _ _ H0 H) as (lg & w & Hh & Hw & _). exists w. split; [exact Hw|]. apply HP. eapply history_reachable; [apply reach_genesis|exact Hh].
Qed.
(** For instance the balances written in a token's storage always add up to the
    supply written there (C34). *)
Corollary C102_supply B bank blk blg b t s : chain_ok (typed B) -> bhistory B (BWorld bank ∅ 0 blk) blg b ->
  bi_state <$> bw_insts b !! t = Some (BToken s) ->
  exists i (bals : gmap string uint128), load r_stored_info k_info s = Ok i /\ si_supply i = map_fold (fun _ v s => v + s) 0 bals /\
    forall a, may_load r_u128 (k_bal a) s = Ok (bals !! a).
Proof.
  intros OK H Hs. destruct (C102_carries B (fun w => forall t ts, tok_at w t ts -> tk_supply ts = map_fold (fun _ v s => v + s) 0 (tk_bal ts)) bank blk blg b) as (w & (_ & _ & _ & Hw) & P).
  - intros w Hr x ts Hx. apply (C34_supply_is_sum (typed B) w x ts OK Hr Hx).
  - exact H.
  - specialize (Hw t). destruct (bw_insts b !! t) as [i|]; [|discriminate]. cbn in Hs. injection Hs as Hs. rewrite Hs in Hw.
    destruct (w_insts w !! t) as [j|] eqn:E; [|contradiction]. destruct Hw as [_ Hw]. destruct (i_state j) as [| | |ts|] eqn:Ej; try contradiction. destruct Hw as [S T].
    exists (StoredInfo (tk_name ts) (tk_symbol ts) (tk_decimals ts) (tk_supply ts) (tk_mint ts)), (tk_bal ts).
    split; [apply load_info; assumption|]. split; [|apply load_bal; assumption]. cbn [si_supply]. apply (P t). unfold tok_at, state_at. rewrite E. cbn. congruence.
Qed.

(** If the addresses of the chain are all short texts, no run is ever given up: then
    the two chains make exactly the same steps. *)
Definition plain_texts (B : bchain) : Prop := (forall x a, norm (bc_api B) x = Some a -> text a) /\ forall n, text (bc_fresh B n).
Lemma obb_runs {X Y} (m : option (res X)) (k : X -> option (res Y)) : m <> None -> (forall x, m = Some (Ok x) -> k x <> None) -> obb m k <> None.
Proof. destruct m as [[x|e]|]; cbn; intros H1 H2; [apply H2; reflexivity|discriminate|congruence]. Qed.
Lemma bcall_runs B w self s sender funds m : plain_texts B -> text sender -> bcall B w self s sender funds m <> None.
Proof.
  intros [P _] T. destruct s; cbn [bcall]; try discriminate.
  assert (V : forall a, match addr_validate (bc_api B) a with Ok _ => textb a | Err _ => true end = true).
  { intros a. destruct (addr_validate (bc_api B) a) as [x|e] eqn:E; [|reflexivity]. apply addr_validate_ok in E as [-> E]. apply textb_iff. eapply P. exact E. }
  assert (M : msg_textb (bc_api B) m = true) by (destruct m; try reflexivity; apply V).
  rewrite M, (proj2 (textb_iff sender) T). discriminate.
Qed.
Lemma dispatch_runs B fuel : plain_texts B ->
  (forall w sender m, text sender -> bexec B fuel w sender m <> None) /\ (forall w self subs, text self -> brun B fuel w self subs <> None).
Proof.
  intros P. induction fuel as [|f [IHx IHr]]; [split; intros; discriminate|]. split.
  - intros w sender m T. destruct m as [to cs|c msg funds|admin code msg funds lb|c code|c new]; cbn [bexec].
    + apply obb_runs; [discriminate|]. discriminate.
    + apply obb_runs; [discriminate|]. intros a Ha. injection Ha as Ha. apply oget_ok in Ha. apply (proj1 P) in Ha. apply obb_runs; [discriminate|]. intros w1 _.
      apply obb_runs; [discriminate|]. intros i _. apply obb_runs; [apply bcall_runs; assumption|]. intros [s rsp] _. apply obb_runs; [apply IHr, Ha|]. intros [w2 lg] _. discriminate.
    + apply obb_runs; [discriminate|]. intros c _. apply obb_runs; [discriminate|]. intros adm _. apply obb_runs; [discriminate|]. intros w1 _.
      apply obb_runs; [discriminate|]. intros [s rsp] _. apply obb_runs; [apply IHr, (proj2 P)|]. intros [w2 lg] _. discriminate.
    + apply obb_runs; [discriminate|]. intros a _. apply obb_runs; [discriminate|]. intros i _. apply obb_runs; [discriminate|]. intros k _.
      destruct (bool_decide _); [|discriminate]. apply obb_runs; discriminate.
    + apply obb_runs; [discriminate|]. intros a _. apply obb_runs; [discriminate|]. intros i _. apply obb_runs; [discriminate|]. intros k _.
      destruct (bool_decide _); discriminate.
  - intros w self subs T. destruct subs as [|sm rest]; [discriminate|]. rewrite brun_cons. pose proof (IHx w self (sm_msg sm) T) as H.
    assert (Rp : forall w' id ok r (k : bworld * list bevent -> option (res (bworld * list bevent))), (forall x, k x <> None) ->
      (let! i := Some (oget (bw_insts w' !! self) ENotFound) in
       let! '(s, rsp) := Some (breply B w' self (bi_state i) id ok r) in obb (brun B f (bset_state w' self s) self (rs_msgs rsp)) k) <> None).
    { intros w' id ok r k Hk. apply obb_runs; [discriminate|]. intros i _. apply obb_runs; [discriminate|]. intros [s rsp] _. apply obb_runs; [apply IHr, T|]. intros x _. apply Hk. }
    apply obb_runs.
    + destruct (bexec B f w self (sm_msg sm)) as [[[[w' r] lg]|e]|]; [| |congruence].
      * destruct (sm_reply sm); [discriminate|..]; apply Rp; intros [? ?]; discriminate.
      * destruct (sm_reply sm); [discriminate|discriminate|]. apply obb_runs; [discriminate|]. intros i _. apply obb_runs; [discriminate|]. intros [s rsp] _. apply IHr, T.
    + intros [w1 lg1] _. apply obb_runs; [apply IHr, T|]. intros [w2 lg2] _. discriminate.
Qed.
Theorem C102_same_steps B b w s m : plain_texts B -> held b w ->
  (forall b' blg, btx B b s m b' blg -> exists w' lg, tx (typed B) w s m w' lg /\ held b' w' /\ List.Forall2 event_held blg lg) /\
  (forall w' lg, tx (typed B) w s m w' lg -> exists b' blg, btx B b s m b' blg /\ held b' w' /\ List.Forall2 event_held blg lg).
Proof.
  intros P H. split.
  - intros b' blg (O & fuel & r & E). pose proof (C102_exec B fuel b w s m H) as S. rewrite E in S. destruct S as (w' & lg & X & Hw & Hl).
    exists w', lg. split; [split; [exact O|eauto]|auto].
  - intros w' lg (O & fuel & r & E). pose proof (C102_exec B fuel b w s m H) as S.
    assert (T : text s) by (eapply (proj1 P), (proj1 O)). pose proof (proj1 (dispatch_runs B fuel P) b s m T) as N.
    destruct (bexec B fuel b s m) as [[[[b' r'] blg]|e]|] eqn:X; [| |congruence].
    + destruct S as (w2 & l2 & X2 & Hw & Hl). rewrite E in X2. injection X2 as <- <- <-. exists b', blg. split; [split; [exact O|eauto]|auto].
    + rewrite E in S. discriminate.
Qed.

(** *** Cases *)

(** The example chain with a third-party contract that pays out its balance; the
    whole set-up (factory, tokens, pairs, deposits) run on bytes. *)
Definition ex_bytes : bchain :=
  BChain ex_api (ch_fresh ex_chain) (ch_codes ex_chain)
    (fun _ _ _ _ _ _ => Ok (""%string, Response [] []))
    (fun _ b self sender _ _ => Ok (""%string, Response [plain (MBankSend sender [Coin "uaura" (default 0 (bw_bank b !! (self, "uaura"%string)))])] []))
    (fun _ _ _ _ _ => Ok (""%string, Response [] []))
    (fun _ _ _ _ => Ok 0) (fun _ _ _ => Ok (TokenInfo "x" "XXX" 6 1)) (fun _ _ _ _ => Ok 6) (fun _ _ _ _ => Err ENotFound)
    (fun _ _ _ _ => Err ENotFound) (fun _ _ _ _ => Err ENotFound) (fun _ _ _ => Err ENotFound) (fun _ _ => None).
Fixpoint bscript (B : bchain) (f : nat) (b : bworld) (txs : list (bool * cmsg)) : option (res (bworld * list bevent)) :=
  match txs with
  | [] => Some (Ok (b, []))
  | (x, m) :: r =>
      let! y := bexec B f b (who x) m in
      let! z := bscript B f y.1.1 r in Some (Ok (z.1, y.2 ++ z.2))
  end.
Definition bgenesis : bworld := world_bytes ex_genesis.
Definition bafter (n : nat) : bworld := match bscript ex_bytes 40 bgenesis (take n ex_setup) with Some (Ok (b, _)) => b | _ => bgenesis end.
Definition bstore (b : bworld) (a k : string) : option string :=
  match bi_state <$> bw_insts b !! a with Some (BPair s | BFactory s | BRouter s | BToken s) => s !! k | _ => None end.
Lemma ex_bytes_ok : chain_ok (typed ex_bytes).
Proof. destruct ex_chain_ok as [[L1 L2 L3 L4 L5] _]. split; [split; assumption|reflexivity]. Qed.
Lemma bscript_history B f txs : (forall x, bordinary B (who x)) -> forall b b' lg, bscript B f b txs = Some (Ok (b', lg)) -> bhistory B b lg b'.
Proof.
  intros Who.
  assert (Cons : forall b s m b1 l1, btx B b s m b1 l1 -> forall l2 b2, bhistory B b1 l2 b2 -> bhistory B b (l1 ++ l2) b2).
  { intros b s m b1 l1 T l2 b2 H. induction H as [b1|b1 lg b2 s' m' b3 l3 H IH T'|b1 lg b2 blk H IH H1 H2].
    - rewrite app_nil_r. apply (bh_tx B b [] b s m b1 l1 (bh_refl B b) T).
    - rewrite app_assoc. eapply bh_tx; [apply IH; exact T|exact T'].
    - apply bh_block; auto. }
  induction txs as [|[x m] r IH]; intros b b' lg H; cbn [bscript] in H.
  - injection H as <- <-. constructor.
  - destruct (bexec B f b (who x) m) as [[y|e]|] eqn:E; cbn [obb] in H; try discriminate H.
    destruct (bscript B f y.1.1 r) as [[[b2 l2]|e]|] eqn:E2; cbn [obb] in H; try discriminate H. injection H as <- <-. cbn [fst snd].
    eapply Cons; [|apply IH; exact E2]. split; [exact (Who x)|]. exists f, y.1.2. rewrite E. destruct y as [[b1 z] l1]. reflexivity.
Qed.
Definition ran (o : option (res (bworld * list bevent))) : bool := match o with Some (Ok _) => true | _ => false end.
(** A real history on bytes; what it leaves in the stores. *)
Example C102_case : (exists blg, bhistory ex_bytes (BWorld (w_bank ex_genesis) ∅ 0 (Block 1 1)) blg (bafter 11)) /\ chain_ok (typed ex_bytes) /\
  bstore (bafter 11) "#0" "config" = Some "{""owner"":""YWxpY2U="",""pair_code_id"":1,""token_code_id"":2}"%string /\
  bstore (bafter 11) "#0" (cell_key (AtNative "uaura")) = Some "6"%string /\
  bstore (bafter 11) "#5" "token_info" =
    Some "{""name"":""halo liquidity token"",""symbol"":""uLP"",""decimals"":6,""total_supply"":""14142135"",""mint"":{""minter"":""#4"",""cap"":null}}"%string /\
  bstore (bafter 11) "#1" (tcell_key (TBal "alice")) = Some """999990000000"""%string.
Proof.
  split; [|split; [exact ex_bytes_ok|]].
  - assert (E : ran (bscript ex_bytes 40 bgenesis (take 11 ex_setup)) = true) by (vm_compute; reflexivity). unfold bafter.
    destruct (bscript ex_bytes 40 bgenesis (take 11 ex_setup)) as [[[b lg]|e]|] eqn:X; try discriminate E. exists lg.
    apply bscript_history in X; [|exact who_ordinary]. replace (BWorld (w_bank ex_genesis) ∅ 0 (Block 1 1)) with bgenesis; [exact X|]. unfold bgenesis, world_bytes. cbn [ex_genesis w_insts w_bank w_next w_block]. rewrite fmap_empty. reflexivity.
  - do 3 (split; [vm_compute; reflexivity|]). vm_compute; reflexivity.
Qed.
(** A chain whose addresses are the texts, the addresses of new contracts coming
    round again after 2^64. *)
Definition text_api : api := {| canon s := if textb s then Some s else None; human s := if textb s then Some s else None |}.
Definition text_chain : bchain :=
  BChain text_api (fun n => if n <? 18446744073709551616 then String "#" (dec_to_string n) else "#"%string) (bc_codes ex_bytes) (ba_init ex_bytes) (ba_exec ex_bytes)
    (ba_reply ex_bytes) (ba_token_balance ex_bytes) (ba_token_info ex_bytes) (ba_native_decimals ex_bytes) (ba_pair_info ex_bytes)
    (ba_simulate ex_bytes) (ba_reverse ex_bytes) (ba_pair_self ex_bytes) (bc_takeover ex_bytes).
Lemma digits_no_ff s : all_digits s = true -> no_ff s.
Proof.
  induction s as [|c s IH]; [intros; exact I|]. cbn [all_digits no_ff]. intros H. apply andb_prop in H as [H1 H2]. split; [|apply IH, H2].
  intros E. unfold is_digit in H1. destruct c as [[] [] [] [] [] [] [] []]; try discriminate E; discriminate H1.
Qed.
Example C102_texts : plain_texts text_chain /\ held bgenesis ex_genesis /\ bordinary text_chain "alice" /\
  ran (bscript text_chain 40 bgenesis (take 11 ex_setup)) = true.
Proof.
  split; [split|].
  - intros x a. unfold norm. cbn [bc_api text_chain text_api canon human]. destruct (textb x) eqn:E; [|discriminate]. rewrite E. intros H. injection H as <-. apply textb_iff, E.
  - intros n. cbn [bc_fresh text_chain]. destruct (N.ltb_spec n 18446744073709551616) as [L|L]; [|apply textb_iff; reflexivity]. split.
    + cbn [String.length]. assert (X : (String.length (dec_to_string n) <= 20)%nat); [|lia].
      unfold dec_to_string. etransitivity; [apply (dec_digits_length _ 19)|simpl; lia]. change (10 ^ N.of_nat 20) with 100000000000000000000. lia.
    + cbn [no_ff]. split; [discriminate|]. apply digits_no_ff, dec_to_string_digits.
  - split; [apply world_held; intros a s H; unfold state_at in H; cbn [ex_genesis w_insts] in H; rewrite lookup_empty in H; discriminate|]. split.
    + split; [reflexivity|]. intros n. cbn [bc_fresh text_chain]. destruct (_ <? _); discriminate.
    + vm_compute. reflexivity.
Qed.
