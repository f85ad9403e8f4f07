(** Every transaction among the contracts of /repo comes to an end (C81). *)
From Verif Require Import Base BigNumber CwStd BigNumberFacts Asset Messages PairMath Pair PairFacts Token Factory Router
  SwapFacts SwapFacts2 P_Swap P_Pair FactoryFacts P_Factory P_Router TokenFacts World WorldInd WorldFacts WorldInv WorldInd2
  Examples WorldExamples P_Ledger P_Registry ExecFacts P_Exec.
From Coq Require Import ZifyN.
Local Open Scope N_scope.
Ltac Zify.zify_post_hook ::= idtac.

(** ** Specification *)

(** Only code of /repo is stored on the chain, and every contract runs it. *)
Definition only_halo (C : chain) (w : world) : Prop :=
  (forall n k, ch_codes C n <> Some (CAdv k)) /\ (forall s k, ch_takeover C s k = None) /\
  (forall a i k d, w_insts w !! a = Some i -> i_state i <> SAdv k d).

(** The number of hops of the route a message asks for. *)
Definition hook_hops (h : hook) : nat :=
  match h with HExecuteSwapOperations ops _ _ => Datatypes.length ops | _ => 0%nat end.
Definition hops_asked (m : cmsg) : nat :=
  match m with
  | MExecute _ (JSend _ _ h) _ | MExecute _ (JSendFrom _ _ _ h) _ | MExecute _ (JReceive _ _ h) _ => hook_hops h
  | MExecute _ (JExecuteSwapOperations ops _ _) _ => Datatypes.length ops
  | _ => 0%nat
  end.

(** ** Computations with fuel *)

(** The computation [F] comes to the same end, which is not a lack of fuel, for
    every fuel from [n] on; with less it comes to that end or lacks fuel. *)
Definition settles {X} (F : nat -> res X) (n : nat) (P : X -> Prop) : Prop :=
  exists out, out <> Err EFuel /\ (forall f, F f = out \/ F f = Err EFuel) /\
    (forall f, (n <= f)%nat -> F f = out) /\ (forall x, out = Ok x -> P x).
Definition nf {X} (r : res X) : Prop := r <> Err EFuel.

Lemma settles_const {X} (r : res X) (P : X -> Prop) : nf r -> (forall x, r = Ok x -> P x) -> settles (fun _ => r) 0 P.
Proof. intros H HP. exists r. split; [exact H|]. split; [intros _; left; reflexivity|]. split; [intros _ _; reflexivity|exact HP]. Qed.
Lemma settles_bind {X Y} (F : nat -> res X) n (P : X -> Prop) (G : X -> nat -> res Y) m (Q : Y -> Prop) :
  settles F n P -> (forall x, P x -> settles (G x) m Q) -> settles (fun f => let* x := F f in G x f) (n + m) Q.
Proof.
  intros (out & N & H1 & H2 & HP) HG. destruct out as [x|e].
  - destruct (HG x (HP x eq_refl)) as (o2 & N2 & K1 & K2 & KQ). exists o2. split; [exact N2|]. split.
    + intros f. destruct (H1 f) as [E|E]; rewrite E; cbn [rbind]; [apply K1|right; reflexivity].
    + split; [|exact KQ]. intros f L. rewrite (H2 f) by lia. cbn [rbind]. apply K2. lia.
  - exists (Err e). split; [intros X0; apply N; inversion X0; reflexivity|]. split.
    + intros f. destruct (H1 f) as [E|E]; rewrite E; cbn [rbind]; [left|right]; reflexivity.
    + split; [|intros x X0; discriminate]. intros f L. rewrite (H2 f) by lia. reflexivity.
Qed.
Lemma settles_pre {X Y} (r : res X) (G : X -> nat -> res Y) m (Q : Y -> Prop) :
  nf r -> (forall x, r = Ok x -> settles (G x) m Q) -> settles (fun f => let* x := r in G x f) m Q.
Proof.
  intros N HG. apply (settles_bind (fun _ => r) 0 (fun x => r = Ok x) G m Q); [|exact HG].
  apply settles_const; [exact N|auto].
Qed.
Lemma settles_weaken {X} (F : nat -> res X) n n' (P P' : X -> Prop) : settles F n P -> (n <= n')%nat -> (forall x, P x -> P' x) -> settles F n' P'.
Proof.
  intros (out & N & H1 & H2 & HP) L HQ. exists out. split; [exact N|]. split; [exact H1|].
  split; [intros f K; apply H2; lia|intros x E; apply HQ, HP, E].
Qed.
Lemma settles_ext {X} (F F' : nat -> res X) n P : (forall f, F' f = F f) -> settles F n P -> settles F' n P.
Proof. intros E (out & N & H1 & H2 & HP). exists out. split; [exact N|]. split; [intros f; rewrite E; apply H1|]. split; [intros f L; rewrite E; apply H2, L|exact HP]. Qed.
Lemma settles_S {X} (F : nat -> res X) (F' : nat -> res X) n P : F' 0%nat = Err EFuel -> (forall f, F' (S f) = F f) -> settles F n P -> settles F' (S n) P.
Proof.
  intros E0 ES (out & N & H1 & H2 & HP). exists out. split; [exact N|]. split.
  - intros [|f]; [right; exact E0|rewrite ES; apply H1].
  - split; [|exact HP]. intros [|f] L; [lia|]. rewrite ES. apply H2. lia.
Qed.

(** ** No handler of /repo fails for lack of fuel *)
Lemma nf_ok {X} (x : X) : nf (Ok x).
Proof. intros H; discriminate. Qed.
Lemma nf_err {X} e : e <> EFuel -> nf (Err e : res X).
Proof. intros N H. apply N. inversion H. reflexivity. Qed.
Lemma nf_bind {X Y} (r : res X) (k : X -> res Y) : nf r -> (forall x, r = Ok x -> nf (k x)) -> nf (let* x := r in k x).
Proof. intros N H. destruct r as [x|e]; cbn [rbind]; [apply H; reflexivity|]. intros E. apply N. inversion E. reflexivity. Qed.
Lemma nf_oget {X} (o : option X) e : e <> EFuel -> nf (oget o e).
Proof. intros N. destruct o; [apply nf_ok|apply nf_err, N]. Qed.
Lemma nf_require b e : e <> EFuel -> nf (require b e).
Proof. intros N. destruct b; [apply nf_ok|apply nf_err, N]. Qed.
Lemma nf_panic {X} m : nf (panic m : res X).
Proof. apply nf_err. discriminate. Qed.

Create HintDb nf.
Ltac nf1 :=
  match goal with
  | |- nf (Ok _) => apply nf_ok
  | |- nf (Err _) => apply nf_err; discriminate
  | |- nf (panic _) => apply nf_panic
  | |- nf (require _ _) => apply nf_require; discriminate
  | |- nf (oget _ _) => apply nf_oget; discriminate
  | |- nf (rbind _ _) => apply nf_bind; [|intros ? ?]
  | |- nf (if ?b then _ else _) => destruct b
  | |- nf (match ?x with _ => _ end) => destruct x
  | |- nf _ => solve [auto with nf nocore]
  end.
Ltac nfs := repeat (cbv beta; nf1).
Ltac nfu f := intros; unfold f; nfs.

Lemma nf_u256_add a b : nf (u256_add a b). Proof. nfu u256_add. Qed.
Lemma nf_u256_sub a b : nf (u256_sub a b). Proof. nfu u256_sub. Qed.
Lemma nf_u256_mul a b : nf (u256_mul a b). Proof. nfu u256_mul. Qed.
Lemma nf_u256_div a b : nf (u256_div a b). Proof. nfu u256_div. Qed.
Global Hint Resolve nf_u256_add nf_u256_sub nf_u256_mul nf_u256_div : nf.
Lemma nf_from_ratio a b : nf (d256_from_ratio a b). Proof. nfu d256_from_ratio. Qed.
Lemma nf_from_uint a : nf (d256_from_uint256 a). Proof. nfu d256_from_uint256. Qed.
Lemma nf_from_str s : nf (d256_from_str s). Proof. nfu d256_from_str. Qed.
Lemma nf_d_sub a b : nf (d256_sub a b). Proof. nfu d256_sub. Qed.
Lemma nf_d_mul a b : nf (d256_mul a b). Proof. nfu d256_mul. Qed.
Lemma nf_d_div a b : nf (d256_div a b). Proof. nfu d256_div. Qed.
Lemma nf_ui_to a : nf (ui256_to_u128 a). Proof. nfu ui256_to_u128. Qed.
Lemma nf_ui_add a b : nf (ui256_add a b). Proof. nfu ui256_add. Qed.
Lemma nf_ui_sub a b : nf (ui256_sub a b). Proof. nfu ui256_sub. Qed.
Lemma nf_ui_mul a b : nf (ui256_mul a b). Proof. nfu ui256_mul. Qed.
Lemma nf_ui_mr a b c : nf (ui256_multiply_ratio a b c). Proof. nfu ui256_multiply_ratio. Qed.
Global Hint Resolve nf_from_ratio nf_from_uint nf_from_str nf_d_sub nf_d_mul nf_d_div nf_ui_to nf_ui_add nf_ui_sub nf_ui_mul nf_ui_mr : nf.
Lemma nf_ui_md a b : nf (ui256_mul_dec a b). Proof. nfu ui256_mul_dec. Qed.
Lemma nf_ui_dd a b : nf (ui256_div_dec a b). Proof. nfu ui256_div_dec. Qed.
Global Hint Resolve nf_ui_md nf_ui_dd : nf.
Lemma nf_add a b : nf (u128_add a b). Proof. nfu u128_add. Qed.
Lemma nf_mul a b : nf (u128_mul a b). Proof. nfu u128_mul. Qed.
Lemma nf_csub a b : nf (u128_checked_sub a b). Proof. nfu u128_checked_sub. Qed.
Lemma nf_cmul a b : nf (u128_checked_mul a b). Proof. nfu u128_checked_mul. Qed.
Lemma nf_mr a b c : nf (u128_multiply_ratio a b c). Proof. nfu u128_multiply_ratio. Qed.
Global Hint Resolve nf_add nf_mul nf_csub nf_cmul nf_mr : nf.
Lemma nf_md a b : nf (u128_mul_dec a b). Proof. nfu u128_mul_dec. Qed.
Lemma nf_dfr a b : nf (dec_from_ratio a b). Proof. nfu dec_from_ratio. Qed.
Lemma nf_dfs s : nf (dec_from_str s). Proof. nfu dec_from_str. Qed.
Lemma nf_dfd d : nf (d256_from_decimal d). Proof. nfu d256_from_decimal. Qed.
Lemma nf_canon A s : nf (addr_canonicalize A s). Proof. nfu addr_canonicalize. Qed.
Lemma nf_human A s : nf (addr_humanize A s). Proof. nfu addr_humanize. Qed.
Global Hint Resolve nf_md nf_dfr nf_dfs nf_dfd nf_canon nf_human : nf.
Lemma nf_valid A s : nf (addr_validate A s). Proof. nfu addr_validate. Qed.
Global Hint Resolve nf_valid : nf.
Lemma nf_rate : nf commission_rate. Proof. nfu commission_rate. Qed.
Global Hint Resolve nf_rate : nf.
Lemma nf_swap a b c : nf (compute_swap a b c). Proof. nfu compute_swap. Qed.
Lemma nf_offer a b c : nf (compute_offer_amount a b c). Proof. nfu compute_offer_amount. Qed.
Lemma nf_pow d : nf (pow10_u64 d). Proof. nfu pow10_u64. Qed.
Global Hint Resolve nf_swap nf_offer nf_pow : nf.
Lemma nf_norm a b c d e : nf (normalize_decimals a b c d e). Proof. nfu normalize_decimals. Qed.
Global Hint Resolve nf_norm : nf.
Lemma nf_spread a b c d e f g : nf (assert_max_spread a b c d e f g). Proof. nfu assert_max_spread. Qed.
Lemma nf_slip a b c : nf (assert_slippage_tolerance a b c). Proof. nfu assert_slippage_tolerance. Qed.
Lemma nf_initial a b : nf (initial_share a b). Proof. nfu initial_share. Qed.
Lemma nf_later a b c d e : nf (later_share a b c d e). Proof. nfu later_share. Qed.
Lemma nf_refunds a b c d : nf (refunds a b c d). Proof. nfu refunds. Qed.
Lemma nf_sent a f : nf (assert_sent_native a f). Proof. nfu assert_sent_native. Qed.
Lemma nf_info_raw A i : nf (info_to_raw A i). Proof. nfu info_to_raw. Qed.
Lemma nf_raw_normal A i : nf (raw_to_normal A i). Proof. nfu raw_to_normal. Qed.
Global Hint Resolve nf_spread nf_slip nf_initial nf_later nf_refunds nf_sent nf_info_raw nf_raw_normal : nf.
Lemma nf_pair_normal A p : nf (pair_to_normal A p). Proof. nfu pair_to_normal. Qed.
Global Hint Resolve nf_pair_normal : nf.
Lemma nf_move b x y c : nf (move b x y c). Proof. nfu move. Qed.
Lemma nf_move_all cs : forall b x y, nf (move_all b x y cs).
Proof. induction cs as [|c cs IH]; intros b x y; cbn [move_all]; [apply nf_ok|]. apply nf_bind; [apply nf_move|]. intros b1 _. apply IH. Qed.
Global Hint Resolve nf_move_all : nf.
Lemma nf_bank_send w x y cs : nf (bank_send w x y cs). Proof. nfu bank_send. Qed.
Global Hint Resolve nf_bank_send : nf.
Lemma nf_bank_msg A w x y cs : nf (bank_msg A w x y cs). Proof. nfu bank_msg. Qed.
Global Hint Resolve nf_bank_msg : nf.
Lemma nf_debit t a n : nf (debit t a n). Proof. nfu debit. Qed.
Lemma nf_credit t a n : nf (credit t a n). Proof. nfu credit. Qed.
Lemma nf_deduct t a b bl n : nf (deduct_allowance t a b bl n). Proof. nfu deduct_allowance. Qed.
Lemma nf_nonzero n : nf (nonzero n). Proof. nfu nonzero. Qed.
Global Hint Resolve nf_debit nf_credit nf_deduct nf_nonzero : nf.
Lemma nf_token_execute A b t s m : nf (token_execute A b t s m).
Proof.
  unfold token_execute, token_transfer, token_burn, token_send, token_mint, token_increase, token_decrease, token_transfer_from, token_burn_from, token_send_from, token_update_minter. nfs.
Qed.
Lemma nf_rows A l : forall b t, nf (create_rows A l b t).
Proof. induction l as [|[a n] l IH]; intros b t; cbn [create_rows]; [apply nf_ok|]. nfs. Qed.
Global Hint Resolve nf_rows : nf.
Lemma nf_token_init A m : nf (token_instantiate A m).
Proof. unfold token_instantiate, token_validate, create_accounts. nfs. Qed.

Section queries.
  Context (C : chain) (w : world).
  Context (H : forall a i k d, w_insts w !! a = Some i -> i_state i <> SAdv k d).
  Lemma nf_at a : nf (contract_at C w a). Proof. nfu contract_at. Qed.
  Lemma at_halo a x k d : contract_at C w a = Ok (x, SAdv k d) -> False.
  Proof.
    unfold contract_at. intros E. destruct (norm (ch_api C) a) as [a'|]; cbn [oget rbind] in E; [|discriminate].
    destruct (w_insts w !! a') as [i|] eqn:Ei; cbn [oget rbind] in E; [|discriminate].
    injection E as _ E. exact (H _ _ k d Ei E).
  Qed.
  Ltac ask f := intros; unfold f;
    apply nf_bind; [apply nf_at|]; intros [? s] Es; destruct s; try (exfalso; exact (at_halo _ _ _ _ Es)); nfs.
  Lemma nf_balance a d : nf (ask_balance C w a d). Proof. unfold ask_balance, in_u128. nfs. Qed.
  Lemma nf_qbal A t a : nf (token_query_balance A t a). Proof. nfu token_query_balance. Qed.
  Lemma nf_qinfo t : nf (token_query_info t). Proof. nfu token_query_info. Qed.
  Lemma nf_qnative st d : nf (factory_query_native st d). Proof. nfu factory_query_native. Qed.
  Lemma nf_qpair A st i : nf (factory_query_pair A st i). Proof. nfu factory_query_pair. Qed.
  Lemma nf_qself A st : nf (pair_query_pair A st). Proof. nfu pair_query_pair. Qed.
  Hint Resolve nf_balance nf_qbal nf_qinfo nf_qnative nf_qpair nf_qself : nf.
  Lemma nf_token_balance t a : nf (ask_token_balance C w t a). Proof. ask ask_token_balance. Qed.
  Lemma nf_token_info t : nf (ask_token_info C w t). Proof. ask ask_token_info. Qed.
  Lemma nf_native f d : nf (ask_native_decimals C w f d). Proof. ask ask_native_decimals. Qed.
  Lemma nf_pair_info f i : nf (ask_pair_info C w f i). Proof. ask ask_pair_info. Qed.
  Lemma nf_pair_self p : nf (ask_pair_self C w p). Proof. ask ask_pair_self. Qed.
  Hint Resolve nf_token_balance nf_token_info nf_native nf_pair_info nf_pair_self : nf.
  Local Notation A := (ch_api C).
  Local Notation Q := (wq C w).
  Lemma nf_Q1 a d : nf (q_balance Q a d). Proof. cbn [q_balance wq]. apply nf_balance. Qed.
  Lemma nf_Q2 a d : nf (q_token_balance Q a d). Proof. cbn [q_token_balance wq]. apply nf_token_balance. Qed.
  Lemma nf_Q3 a : nf (q_token_info Q a). Proof. cbn [q_token_info wq]. apply nf_token_info. Qed.
  Lemma nf_Q4 a d : nf (q_native_decimals Q a d). Proof. cbn [q_native_decimals wq]. apply nf_native. Qed.
  Lemma nf_Q5 a d : nf (q_pair_info Q a d). Proof. cbn [q_pair_info wq]. apply nf_pair_info. Qed.
  Lemma nf_Q6 a : nf (q_pair_self Q a). Proof. cbn [q_pair_self wq]. apply nf_pair_self. Qed.
  Hint Resolve nf_Q1 nf_Q2 nf_Q3 nf_Q4 nf_Q5 nf_Q6 : nf.
  Lemma nf_pool i a : nf (query_pool A Q i a). Proof. nfu query_pool. Qed.
  Hint Resolve nf_pool : nf.
  Lemma nf_pools p a : nf (query_pools A Q p a). Proof. nfu query_pools. Qed.
  Lemma nf_decimals i a : nf (query_decimals Q i a). Proof. nfu query_decimals. Qed.
  Lemma nf_dep a i : nf (deposit_of a i). Proof. nfu deposit_of. Qed.
  Lemma nf_pull a b c d : nf (pull_deposit a b c d). Proof. nfu pull_deposit. Qed.
  Hint Resolve nf_pools nf_decimals nf_dep nf_pull : nf.
  Lemma nf_provide self st s fu a sl r : nf (provide_liquidity A Q self st s fu a sl r). Proof. nfu provide_liquidity. Qed.
  Lemma nf_withdraw self st s n : nf (withdraw_liquidity A Q self st s n). Proof. nfu withdraw_liquidity. Qed.
  Lemma nf_swaph self st fu s o b m t : nf (swap A Q self st fu s o b m t). Proof. nfu swap. Qed.
  Hint Resolve nf_provide nf_withdraw nf_swaph : nf.
  Lemma nf_pair_execute self st s fu m : nf (pair_execute A Q self st s fu m).
  Proof. unfold pair_execute, pair_receive. nfs. Qed.
  Lemma nf_owner st s : nf (owner_only A st s). Proof. nfu owner_only. Qed.
  Lemma nf_or {X} (r : res X) m : nf r -> nf (or_invalid r m). Proof. intros N. unfold or_invalid. destruct r; [apply nf_ok|]. apply nf_err. discriminate. Qed.
  Hint Resolve nf_owner nf_or : nf.
  Lemma nf_factory_execute self st s m : nf (factory_execute A Q self st s m).
  Proof. unfold factory_execute, update_config, create_pair, add_native, migrate_pair. nfs. Qed.
  Lemma nf_opt o : nf (optional_addr_validate A o). Proof. nfu optional_addr_validate. Qed.
  Lemma nf_ops o : nf (assert_operations o). Proof. nfu assert_operations. Qed.
  Hint Resolve nf_opt nf_ops : nf.
  Lemma nf_router_execute self st s m : nf (router_execute A Q self st s m).
  Proof. unfold router_execute, router_receive, execute_swap_operations, execute_swap_operation, assert_minimum_receive. nfs. Qed.
  Lemma nf_wrap {X} (f : X -> cstate) r : nf r -> nf (wrap f r).
  Proof. intros N. unfold wrap. apply nf_bind; [exact N|]. intros [? ?] _. apply nf_ok. Qed.
  Lemma nf_call a s x fu m : (forall k d, s <> SAdv k d) -> nf (call C w a s x fu m).
  Proof.
    intros N. destruct s; cbn [call]; try apply nf_wrap; [apply nf_pair_execute|apply nf_factory_execute|apply nf_router_execute|apply nf_token_execute|].
    exfalso. exact (N _ _ eq_refl).
  Qed.
  Lemma nf_init a c x fu m : (forall k, c <> CAdv k) -> nf (init C w a c x fu m).
  Proof.
    intros N. destruct c; cbn [init]; [| | | |exfalso; exact (N _ eq_refl)]; destruct m; try (apply nf_err; discriminate).
    - destruct (_ && _); [|apply nf_err; discriminate]. apply nf_wrap. unfold pair_instantiate. nfs.
    - apply nf_wrap. unfold factory_instantiate. nfs.
    - apply nf_wrap. unfold router_instantiate. nfs.
    - apply nf_wrap, nf_token_init.
  Qed.
  Lemma nf_reply a s id b r : (forall k d, s <> SAdv k d) -> nf (reply C w a s id b r).
  Proof.
    intros N. destruct s; cbn [reply]; try (apply nf_err; discriminate); [| |exfalso; exact (N _ _ eq_refl)]; (destruct r; [|apply nf_panic]); apply nf_wrap.
    - unfold pair_reply. nfs.
    - unfold factory_reply. nfs.
  Qed.
End queries.

(** ** What the contracts answer *)

(** [P] holds of the messages of a response. *)
Definition answers {X} (P : list submsg -> Prop) (r : res (X * response)) : Prop :=
  forall s rsp, r = Ok (s, rsp) -> P (rs_msgs rsp).
Lemma an_ok {X} (P : list submsg -> Prop) (s : X) m a : P m -> answers P (Ok (s, Response m a)).
Proof. intros H s' rsp E. injection E as _ <-. exact H. Qed.
Lemma an_err {X} (P : list submsg -> Prop) e : answers P (Err e : res (X * response)).
Proof. intros s rsp E. discriminate. Qed.
Lemma an_bind {X Y} (P : list submsg -> Prop) (r : res Y) (k : Y -> res (X * response)) : (forall y, r = Ok y -> answers P (k y)) -> answers P (let* y := r in k y).
Proof. intros H s rsp E. apply rbind_ok in E as (y & Ey & E). exact (H y Ey s rsp E). Qed.
Lemma an_wrap {X} (P : list submsg -> Prop) (f : X -> cstate) r : answers P r -> answers P (wrap f r).
Proof. intros H s rsp E. unfold wrap in E. apply rbind_ok in E as ([x y] & Ex & E). injection E as _ <-. exact (H x y Ex). Qed.
Ltac an1 :=
  match goal with
  | |- answers _ (Ok (_, Response _ _)) => apply an_ok
  | |- answers _ (Err _) => apply an_err
  | |- answers _ (panic _) => apply an_err
  | |- answers _ (rbind _ _) => apply an_bind; intros ? ?
  | |- answers _ (if ?b then _ else _) => destruct b
  | |- answers _ (match ?x with _ => _ end) => destruct x
  end.
Ltac ans := repeat (cbv beta; an1).

(** Messages that make a contract of /repo send nothing. *)
Definition leaf (m : jmsg) : Prop :=
  match m with
  | JSend _ _ _ | JSendFrom _ _ _ _ | JReceive _ _ _ | JProvideLiquidity _ _ _ | JExecuteSwapOperations _ _ _
  | JExecuteSwapOperation _ _ | JCreatePair _ _ | JMigratePair _ _ => False
  | _ => True
  end.
(** What the handlers send at most. *)
Definition small (m : cmsg) : Prop :=
  match m with MBankSend _ _ | MMigrate _ _ => True | MExecute _ j _ => leaf j | _ => False end.
Definition smalls (n : nat) (l : list submsg) : Prop :=
  exists ms, l = map plain ms /\ Forall small ms /\ (Datatypes.length ms <= n)%nat.
(** The messages a contract of /repo at [self] sends for [m]. *)
Definition asks (self : string) (m : jmsg) (l : list submsg) : Prop :=
  match m with
  | JSend _ _ h | JSendFrom _ _ _ h => l = [] \/ exists c x n, l = [plain (MExecute c (JReceive x n h) [])]
  | JReceive _ _ (HSwap _ _ _) => smalls 1 l
  | JReceive _ _ HWithdrawLiquidity => smalls 3 l
  | JReceive _ _ (HExecuteSwapOperations ops _ _) | JExecuteSwapOperations ops _ _ =>
      exists ms last, l = map plain (ms ++ last) /\ Forall (fun m => exists o t, m = MExecute self (JExecuteSwapOperation o t) []) ms /\
        Datatypes.length ms = Datatypes.length ops /\ (Datatypes.length last <= 1)%nat /\ Forall small last
  | JProvideLiquidity _ _ _ => smalls 3 l
  | JExecuteSwapOperation _ _ => l = [] \/ (exists p b s t fu, l = [plain (MExecute p (JSwap b s t) fu)]) \/
      exists t p n b s u, l = [plain (MExecute t (JSend p n (HSwap b s u)) [])]
  | JCreatePair _ _ => l = [] \/ exists adm k infos tc d q, l = [SubMsg (MInstantiate adm k (IPair infos tc d q) [] "pair") (ReplySuccess 1)]
  | JMigratePair _ _ => smalls 1 l
  | _ => l = []
  end.
Lemma smalls_0 n : smalls n [].
Proof. exists []. split; [reflexivity|]. split; [constructor|cbn; lia]. Qed.
Lemma small_into a r : small (into_msg a r).
Proof. unfold into_msg. destruct (a_info a); exact I. Qed.
Lemma length_ops self to ops : Datatypes.length (op_messages self to ops) = Datatypes.length ops /\
  Forall (fun m => exists o t, m = MExecute self (JExecuteSwapOperation o t) []) (op_messages self to ops).
Proof.
  induction ops as [|o ops [IH1 IH2]]; [split; [reflexivity|constructor]|]. cbn [op_messages]. destruct ops as [|o2 ops].
  - split; [reflexivity|]. constructor; [eauto|constructor].
  - split; [cbn [Datatypes.length]; rewrite IH1; reflexivity|]. constructor; [eauto|exact IH2].
Qed.

Lemma asks_token A b t s m self : answers (asks self m) (token_execute A b t s m).
Proof.
  unfold token_execute, token_transfer, token_burn, token_send, token_mint, token_increase, token_decrease, token_transfer_from, token_burn_from, token_send_from, token_update_minter.
  destruct m; ans; cbn [asks]; try reflexivity; right; eauto.
Qed.
Lemma asks_factory A Q st s m self : answers (asks self m) (factory_execute A Q self st s m).
Proof.
  unfold factory_execute, update_config, create_pair, add_native, migrate_pair.
  destruct m; ans; cbn [asks]; try reflexivity.
  - right. repeat eexists.
  - eexists [_]. split; [reflexivity|]. split; [repeat constructor|cbn; lia].
Qed.
Lemma asks_swaps A Q st s ops mr to self : answers (fun l => exists ms last, l = map plain (ms ++ last) /\ Forall (fun m => exists o t, m = MExecute self (JExecuteSwapOperation o t) []) ms /\
        Datatypes.length ms = Datatypes.length ops /\ (Datatypes.length last <= 1)%nat /\ Forall small last) (execute_swap_operations A Q self st s ops mr to).
Proof.
  unfold execute_swap_operations. ans.
  - eexists (op_messages _ _ _), [_]. split; [reflexivity|]. destruct (length_ops self (default s to) ops) as [L F].
    split; [exact F|]. split; [exact L|]. split; [cbn; lia|]. repeat constructor.
  - eexists (op_messages _ _ _), []. rewrite app_nil_r. split; [reflexivity|]. destruct (length_ops self (default s to) ops) as [L F].
    split; [exact F|]. split; [exact L|]. split; [cbn; lia|]. constructor.
Qed.
Lemma asks_router A Q st s m self : answers (asks self m) (router_execute A Q self st s m).
Proof.
  unfold router_execute, router_receive, execute_swap_operation, assert_minimum_receive.
  destruct m; ans; cbn [asks]; try reflexivity; try apply asks_swaps.
  right. unfold asset_into_swap_msg. destruct (a_info _); [right|left]; repeat eexists.
Qed.
Lemma asks_pair A Q st s fu m self : answers (asks self m) (pair_execute A Q self st s fu m).
Proof.
  unfold pair_execute, pair_receive, swap, withdraw_liquidity, provide_liquidity.
  destruct m; ans; cbn [asks]; try reflexivity; try apply smalls_0.
  - destruct (_ =? 0); [apply smalls_0|]. eexists [_]. split; [reflexivity|]. split; [constructor; [apply small_into|constructor]|cbn; lia].
  - eexists [_; _; _]. split; [reflexivity|]. split; [|cbn; lia]. repeat constructor; apply small_into.
  - eexists. split; [reflexivity|].
    repeat match goal with H : pull_deposit _ _ _ _ = Ok _ |- _ => unfold pull_deposit in H; destruct (a_info _); [|apply rbind_ok in H as (? & _ & H)]; injection H as <- <- end;
      (split; [repeat constructor|cbn; lia]).
Qed.

Section finite.
  Context (C : chain).
  Context (Hc : forall n k, ch_codes C n <> Some (CAdv k)) (Ht : forall s k, ch_takeover C s k = None).
  Local Notation A := (ch_api C).
  Definition hw (w : world) : Prop := forall a i k d, w_insts w !! a = Some i -> i_state i <> SAdv k d.
  Definition halo_state (s : cstate) : Prop := forall k d, s <> SAdv k d.
  Definition ends (n k : nat) (w : world) (s : string) (m : cmsg) : Prop :=
    settles (fun f => exec C f w s m) n (fun x => hw x.1.1 /\ (Datatypes.length x.2 <= k)%nat).
  Definition runs (n k : nat) (w : world) (a : string) (l : list submsg) : Prop :=
    settles (fun f => run C f w a l) n (fun x => hw x.1 /\ (Datatypes.length x.2 <= k)%nat).

  Lemma hw_insts w w' : hw w -> w_insts w' = w_insts w -> hw w'.
  Proof. intros H E a i k d. rewrite E. apply H. Qed.
  Lemma hw_set w a s : hw w -> halo_state s -> hw (set_state w a s).
  Proof.
    intros H N x i k d. rewrite set_state_insts. case_decide; [|apply H].
    destruct (w_insts w !! a); cbn; [|discriminate]. intros E. injection E as <-. apply N.
  Qed.
  Lemma hw_admin w a s : hw w -> hw (set_admin w a s).
  Proof.
    intros H x i k d. rewrite set_admin_insts. case_decide; [|apply H].
    destruct (w_insts w !! a) as [j|] eqn:Ej; cbn; [|discriminate]. intros E. injection E as <-. exact (H _ _ k d Ej).
  Qed.
  Lemma hw_insert w a adm s : hw w -> halo_state s -> hw (set_insts w (<[a := Inst adm s]> (w_insts w))).
  Proof.
    intros H N x i k d. cbn [set_insts w_insts]. destruct (decide (x = a)) as [->|D].
    - rewrite lookup_insert. intros E. injection E as <-. apply N.
    - rewrite lookup_insert_ne by congruence. apply H.
  Qed.
  Lemma kind_halo s s' : same_kind s s' -> halo_state s -> halo_state s'.
  Proof. intros K N k d ->. destruct s; cbn in K; try contradiction. exact (N _ _ eq_refl). Qed.
  Lemma asks_call w a st x fu m s' rsp : halo_state st -> call C w a st x fu m = Ok (s', rsp) -> asks a m (rs_msgs rsp).
  Proof.
    intros N E. destruct st; cbn [call] in E; [| | | |exfalso; exact (N _ _ eq_refl)];
      (eapply an_wrap in E; [exact E|]); [apply asks_pair|apply asks_factory|apply asks_router|apply asks_token].
  Qed.
  Lemma init_halo w a c x fu m s' rsp : init C w a c x fu m = Ok (s', rsp) -> (forall k, c <> CAdv k) -> halo_state s'.
  Proof.
    intros E N k d ->. destruct c, m; cbn [init] in E; try discriminate; try (exact (N _ eq_refl)); try (destruct (_ && _); [|discriminate]);
      unfold wrap in E; apply rbind_ok in E as ([? ?] & _ & E); discriminate.
  Qed.

  Lemma runs_nil w a : hw w -> runs 1 0 w a [].
  Proof.
    intros H. eapply (settles_S (fun _ => Ok (w, []))); [apply run_0|intros f; apply run_nil|].
    apply settles_const; [apply nf_ok|]. intros x E. injection E as <-. split; [exact H|cbn; lia].
  Qed.
  Lemma runs_cons n k w a m l n' k' : ends n k w a m -> (forall w', hw w' -> runs n' k' w' a l) -> runs (S (n + n')) (k + k') w a (plain m :: l).
  Proof.
    intros E H. eapply (settles_S (fun f => let* '(w1, r, lg1) := exec C f w a m in let* '(w2, lg2) := run C f w1 a l in Ok (w2, lg1 ++ lg2)));
      [apply run_0|intros f; apply run_plain|].
    eapply (settles_bind (fun f => exec C f w a m) n _ (fun x f => let '(w1, r, lg1) := x in let* '(w2, lg2) := run C f w1 a l in Ok (w2, lg1 ++ lg2))); [exact E|].
    intros [[w1 r] lg1] [H1 L1]. cbn [fst snd] in H1, L1.
    eapply settles_weaken; [|instantiate (1 := (n' + 0)%nat); lia|intros x Hx; exact Hx].
    eapply (settles_bind (fun f => run C f w1 a l) n' _ (fun x f => let '(w2, lg2) := x in Ok (w2, lg1 ++ lg2))); [exact (H w1 H1)|].
    intros [w2 lg2] [H2 L2]. apply settles_const; [apply nf_ok|]. intros x E2. injection E2 as <-. cbn [fst snd] in *.
    split; [exact H2|]. rewrite app_length. lia.
  Qed.
  Lemma runs_all n k a ms : Forall (fun m => forall w, hw w -> ends n k w a m) ms -> forall l n' k', (forall w', hw w' -> runs n' k' w' a l) ->
    forall w, hw w -> runs (Datatypes.length ms * S n + n') (Datatypes.length ms * k + k') w a (map plain ms ++ l).
  Proof.
    intros F l n' k' Hl. induction F as [|m ms Hm F IH]; intros w H; [exact (Hl w H)|]. cbn [map app Datatypes.length].
    eapply settles_weaken; [exact (runs_cons _ _ _ _ _ _ _ _ (Hm w H) IH)|lia|]. intros x [X1 X2]. split; [exact X1|lia].
  Qed.
  (** A call: the contract answers, then its messages are executed. *)
  Lemma ends_execute n k w s c m fu : hw w -> (forall w2 a l, hw w2 -> asks a m l -> runs n k w2 a l) -> ends (S n) (S k) w s (MExecute c m fu).
  Proof.
    intros H HA. eapply settles_S; [apply exec_0|intros f; rewrite exec_eq; reflexivity|]. cbv beta iota.
    apply settles_pre; [apply nf_oget; discriminate|]. intros a _. apply settles_pre; [apply nf_bank_send|].
    intros w1 E1. pose proof (hw_insts _ _ H (bm_insts _ _ _ _ _ (bank_send_ok _ _ _ _ _ E1))) as H1.
    apply settles_pre; [apply nf_oget; discriminate|]. intros i Ei. destruct (w_insts w1 !! a) as [i'|] eqn:Ei'; [|discriminate]. injection Ei as ->.
    assert (Hi : halo_state (i_state i)) by (intros k0 d; exact (H1 _ _ k0 d Ei')).
    apply (settles_pre (call C w1 a (i_state i) s fu m) (fun x f => let '(s0, rsp) := x in let* '(w2, lg) := run C f (set_state w1 a s0) a (rs_msgs rsp) in Ok (w2, None, Event a s m (rs_attrs rsp) fu w1 :: lg)));
      [apply nf_call; assumption|]. intros [s0 rsp] Es.
    pose proof (hw_set w1 a s0 H1 (kind_halo _ _ (call_kind _ _ _ _ _ _ _ _ _ Es) Hi)) as H2.
    eapply settles_weaken; [|instantiate (1 := (n + 0)%nat); lia|intros x Hx; exact Hx].
    eapply (settles_bind (fun f => run C f (set_state w1 a s0) a (rs_msgs rsp)) n _ (fun x f => let '(w2, lg) := x in Ok (w2, None, Event a s m (rs_attrs rsp) fu w1 :: lg)));
      [exact (HA _ _ _ H2 (asks_call _ _ _ _ _ _ _ _ Hi Es))|].
    intros [w2 lg] [K L]. apply settles_const; [apply nf_ok|]. intros x E2. injection E2 as <-. cbn [fst snd Datatypes.length] in *. split; [exact K|lia].
  Qed.
  Lemma ends_small w s m : hw w -> small m -> ends 2 1 w s m.
  Proof.
    intros H S. destruct m as [to cs|c j fu| |c k|]; try contradiction.
    - eapply settles_weaken; [eapply settles_S; [apply exec_0|intros f; rewrite exec_eq; reflexivity|]|instantiate (1 := 0%nat); lia|intros x Hx; exact Hx].
      cbv beta iota. apply settles_pre; [apply nf_bank_msg|]. intros w' E. apply settles_const; [apply nf_ok|]. intros x E2. injection E2 as <-.
      apply bank_msg_ok in E as (to' & _ & E). split; [exact (hw_insts _ _ H (bm_insts _ _ _ _ _ E))|cbn; lia].
    - apply ends_execute; [exact H|]. intros w2 a l H2 AS. assert (l = []) as -> by (destruct j; try contradiction; exact AS). apply runs_nil, H2.
    - eapply settles_weaken; [eapply settles_S; [apply exec_0|intros f; rewrite exec_eq; reflexivity|]|instantiate (1 := 0%nat); lia|intros x Hx; exact Hx].
      cbv beta iota. apply settles_pre; [apply nf_oget; discriminate|]. intros a _. apply settles_pre; [apply nf_oget; discriminate|].
      intros i Ei. apply settles_pre; [apply nf_oget; discriminate|]. intros kc Ek.
      destruct (bool_decide _); [|apply settles_const; [apply nf_err; discriminate|intros x X; discriminate]].
      apply settles_pre; [apply nf_oget; discriminate|]. intros s' Es. apply settles_const; [apply nf_ok|]. intros x E2. injection E2 as <-.
      split; [|cbn; lia]. cbn [fst]. apply hw_set; [exact H|].
      destruct (ch_codes C k) as [kc'|] eqn:Ek'; [|discriminate]. injection Ek as ->.
      destruct (w_insts w !! a) as [i'|] eqn:Ei'; [|discriminate]. injection Ei as ->.
      intros k0 d ->. destruct (migrated C (i_state i) kc) eqn:Em; [|discriminate]. injection Es as ->.
      destruct kc; [| | | |exact (Hc _ _ Ek')]; destruct (i_state i); discriminate.
  Qed.
  Lemma runs_smalls n w a l : hw w -> smalls n l -> runs (3 * n + 1) n w a l.
  Proof.
    intros H (ms & -> & F & L). rewrite <- (app_nil_r (map plain ms)).
    eapply settles_weaken; [eapply (runs_all 2 1 a ms); [|intros w' H'; exact (runs_nil w' a H')|exact H]|lia|intros x [X1 X2]; split; [exact X1|lia]].
    eapply list.Forall_impl; [exact F|]. intros m Hm w' H'. exact (ends_small w' a m H' Hm).
  Qed.
  Lemma runs_one n k w a m : hw w -> (forall w, hw w -> ends n k w a m) -> runs (S n + 1) k w a [plain m].
  Proof.
    intros H E. eapply settles_weaken; [apply (runs_cons n k w a m [] 1 0); [exact (E w H)|intros w' H'; exact (runs_nil w' a H')]|lia|].
    intros x [X1 X2]; split; [exact X1|lia].
  Qed.

  Lemma ends_le n k n' k' w s m : ends n k w s m -> (n <= n')%nat -> (k <= k')%nat -> ends n' k' w s m.
  Proof. intros E L1 L2. eapply settles_weaken; [exact E|exact L1|]. intros x [X1 X2]. split; [exact X1|lia]. Qed.
  Lemma runs_le n k n' k' w a l : runs n k w a l -> (n <= n')%nat -> (k <= k')%nat -> runs n' k' w a l.
  Proof. intros E L1 L2. eapply settles_weaken; [exact E|exact L1|]. intros x [X1 X2]. split; [exact X1|lia]. Qed.

  Lemma ends_swap w s c x n b sp t fu : hw w -> ends 5 2 w s (MExecute c (JReceive x n (HSwap b sp t)) fu).
  Proof. intros H. apply ends_execute; [exact H|]. intros w2 a l H2 AS. exact (runs_smalls 1 w2 a l H2 AS). Qed.
  Lemma ends_send_swap w s c p n b sp t fu : hw w -> ends 8 3 w s (MExecute c (JSend p n (HSwap b sp t)) fu).
  Proof.
    intros H. apply ends_execute; [exact H|]. intros w2 a l H2 [->|(c2 & x & n2 & ->)].
    - eapply runs_le; [exact (runs_nil w2 a H2)|lia|lia].
    - apply (runs_one 5 2); [exact H2|]. intros w3 H3. apply ends_swap, H3.
  Qed.
  Lemma ends_hop w s c o t fu : hw w -> ends 11 4 w s (MExecute c (JExecuteSwapOperation o t) fu).
  Proof.
    intros H. apply ends_execute; [exact H|]. intros w2 a l H2 [->|[(p & b & sp & u & fu2 & ->)|(tk & p & n & b & sp & u & ->)]].
    - eapply runs_le; [exact (runs_nil w2 a H2)|lia|lia].
    - eapply runs_le; [apply (runs_one 2 1); [exact H2|]|lia|lia]. intros w3 H3. apply ends_small; [exact H3|exact I].
    - apply (runs_one 8 3); [exact H2|]. intros w3 H3. apply ends_send_swap, H3.
  Qed.
  Lemma runs_route w a k l : hw w -> (exists ms last, l = map plain (ms ++ last) /\ Forall (fun m => exists o t, m = MExecute a (JExecuteSwapOperation o t) []) ms /\
        Datatypes.length ms = k /\ (Datatypes.length last <= 1)%nat /\ Forall small last) -> runs (12 * k + 4) (4 * k + 1) w a l.
  Proof.
    intros H (ms & last & -> & F & L & L1 & S). rewrite map_app.
    eapply runs_le; [eapply (runs_all 11 4 a ms); [|intros w' H'; apply (runs_smalls 1 w' a (map plain last) H'); exists last; auto|exact H]|lia|lia].
    eapply list.Forall_impl; [exact F|]. intros m (o & t & ->) w' H'. apply ends_hop, H'.
  Qed.
  (** The Receive hook with any payload. *)
  Lemma ends_receive w s c x n h fu : hw w -> ends (12 * hook_hops h + 11) (4 * hook_hops h + 4) w s (MExecute c (JReceive x n h) fu).
  Proof.
    intros H. destruct h as [b sp t| |ops mr to|pl]; cbn [hook_hops].
    - eapply ends_le; [apply ends_swap, H|lia|lia].
    - eapply ends_le; [apply (ends_execute 10 3); [exact H|]|lia|lia]. intros w2 a l H2 AS. exact (runs_smalls 3 w2 a l H2 AS).
    - eapply ends_le; [eapply (ends_execute _ _); [exact H|]|instantiate (1 := (12 * Datatypes.length ops + 4)%nat); lia|instantiate (1 := (4 * Datatypes.length ops + 1)%nat); lia].
      intros w2 a l H2 AS. exact (runs_route w2 a _ l H2 AS).
    - eapply ends_le; [apply (ends_execute 1 0); [exact H|]|lia|lia]. intros w2 a l H2 ->. apply runs_nil, H2.
  Qed.

  (** *** New contracts *)
  Lemma ends_inst n k w s adm code m fu lb : hw w ->
    (forall w1 a c x s' rsp, (forall k, c <> CAdv k) -> init C w1 a c x fu m = Ok (s', rsp) -> forall w2, hw w2 -> runs n k w2 a (rs_msgs rsp)) ->
    ends (S n) k w s (MInstantiate adm code m fu lb).
  Proof.
    intros H HR. eapply settles_S; [apply exec_0|intros f; rewrite exec_eq; reflexivity|]. cbv beta iota.
    apply settles_pre; [apply nf_oget; discriminate|]. intros c Ec.
    assert (Nc : forall k0, c <> CAdv k0). { intros k0 ->. destruct (ch_codes C code) as [c'|] eqn:E; [|discriminate]. injection Ec as ->. exact (Hc _ _ E). }
    apply settles_pre; [destruct adm; [apply nf_bind; [apply nf_oget; discriminate|intros; apply nf_ok]|apply nf_ok]|]. intros ad _. cbv zeta.
    apply settles_pre; [apply nf_bank_send|]. intros w1 E1.
    assert (H1 : hw w1). { eapply hw_insts; [exact H|]. rewrite (bm_insts _ _ _ _ _ (bank_send_ok _ _ _ _ _ E1)). reflexivity. }
    eapply (settles_pre (init C w1 _ c s fu m) (fun x f => let '(s0, rsp) := x in _)); [apply nf_init; assumption|]. intros [s0 rsp] Es.
    eapply settles_weaken; [|instantiate (1 := (n + 0)%nat); lia|intros x Hx; exact Hx].
    eapply (settles_bind _ n _ (fun x f => let '(w2, lg) := x in _)); [exact (HR _ _ _ _ _ _ Nc Es _ (hw_insert w1 _ ad s0 H1 (init_halo _ _ _ _ _ _ _ _ Es Nc)))|].
    intros [w2 lg] K. apply settles_const; [apply nf_ok|]. intros x E2. injection E2 as <-. exact K.
  Qed.
  Lemma reply_answers w a s id b r s' rsp : halo_state s -> reply C w a s id b r = Ok (s', rsp) -> rs_msgs rsp = [].
  Proof.
    intros N E. destruct s; cbn [reply] in E; try discriminate; [| |exfalso; exact (N _ _ eq_refl)]; (destruct r; [|discriminate]);
      (eapply (an_wrap (fun l => l = [])) in E; [exact E|]); unfold pair_reply, factory_reply; ans; reflexivity.
  Qed.
  Lemma runs_reply n k w a m id : hw w -> ends n k w a m -> runs (S (n + 3)) k w a [SubMsg m (ReplySuccess id)].
  Proof.
    intros H E. eapply settles_S; [apply run_0|intros f; rewrite run_cons; reflexivity|]. cbn [sm_reply sm_msg].
    eapply settles_ext with (F := fun f => let* x := exec C f w a m in
        (fun f => let* '(w1, lg1) := let '(w', r, lg) := x in
           let* i := oget (w_insts w' !! a) ENotFound in
           let* '(s, rsp) := reply C w' a (i_state i) id true r in
           let* '(w2, lg2) := run C f (set_state w' a s) a (rs_msgs rsp) in Ok (w2, lg ++ lg2) in
         let* '(w2, lg2) := run C f w1 a [] in Ok (w2, lg1 ++ lg2)) f).
    { intros f. destruct (exec C f w a m) as [[[? ?] ?]|?]; reflexivity. }
    eapply settles_bind; [exact E|]. intros [[w' r] lg] [H1 L1]. cbn [fst snd] in H1, L1.
    eapply settles_weaken with (n := (1 + 2)%nat); [|lia|intros x Hx; exact Hx].
    eapply (settles_bind _ 1 (fun x => hw x.1 /\ (Datatypes.length x.2 <= k)%nat) (fun x f => let '(w1, lg1) := x in _)).
    - apply settles_pre; [apply nf_oget; discriminate|]. intros i Ei. destruct (w_insts w' !! a) as [i'|] eqn:Ei'; [|discriminate]. injection Ei as ->.
      assert (Hi : halo_state (i_state i)) by (intros k0 d; exact (H1 _ _ k0 d Ei')).
      eapply (settles_pre (reply C w' a (i_state i) id true r) (fun x f => let '(s0, rsp) := x in _)); [apply nf_reply; assumption|]. intros [s0 rsp] Es.
      rewrite (reply_answers _ _ _ _ _ _ _ _ Hi Es). pose proof (hw_set w' a s0 H1 (kind_halo _ _ (reply_kind _ _ _ _ _ _ _ _ _ Es) Hi)) as H2.
      eapply settles_weaken; [|instantiate (1 := (1 + 0)%nat); lia|intros x Hx; exact Hx].
      eapply (settles_bind _ 1 _ (fun x f => let '(w2, lg2) := x in _)); [exact (runs_nil _ a H2)|].
      intros [w2 lg2] [K L]. apply settles_const; [apply nf_ok|]. intros x E2. injection E2 as <-. cbn [fst snd] in *. split; [exact K|]. rewrite app_length. lia.
    - intros [w1 lg1] [K1 M1]. cbn [fst snd] in K1, M1. eapply settles_weaken; [|instantiate (1 := (1 + 0)%nat); lia|intros x Hx; exact Hx].
      eapply (settles_bind _ 1 _ (fun x f => let '(w2, lg2) := x in _)); [exact (runs_nil _ a K1)|].
      intros [w2 lg2] [K L]. apply settles_const; [apply nf_ok|]. intros x E2. injection E2 as <-. cbn [fst snd] in *. split; [exact K|]. rewrite app_length. lia.
  Qed.
  Lemma ends_new w s adm code m fu lb : hw w -> ends 7 0 w s (MInstantiate adm code m fu lb).
  Proof.
    assert (T : forall w s adm code t fu lb, hw w -> ends 2 0 w s (MInstantiate adm code (IToken t) fu lb)).
    { clear w s adm code m fu lb. intros w s adm code t fu lb H. apply ends_inst; [exact H|]. intros w1 a c x s' rsp Nc E w2 H2.
      replace (rs_msgs rsp) with (@nil submsg); [apply runs_nil, H2|]. symmetry.
      destruct c; cbn [init] in E; try discriminate; [|exfalso; exact (Nc _ eq_refl)].
      eapply (an_wrap (fun l => l = [])) in E; [exact E|]. unfold token_instantiate. ans; reflexivity. }
    intros H. apply ends_inst; [exact H|]. intros w1 a c x s' rsp Nc E w2 H2.
    assert (X : rs_msgs rsp = [] \/ exists tc t, rs_msgs rsp = [SubMsg (MInstantiate None tc (IToken t) [] "lp") (ReplySuccess 1)]).
    { destruct c, m; cbn [init] in E; try discriminate; try (exfalso; exact (Nc _ eq_refl)).
      - destruct (_ && _); [|discriminate]. eapply (an_wrap (fun l => exists tc t, l = [SubMsg (MInstantiate None tc (IToken t) [] "lp") (ReplySuccess 1)])) in E; [right; exact E|].
        unfold pair_instantiate. ans. do 2 eexists. reflexivity.
      - left. eapply (an_wrap (fun l => l = [])) in E; [exact E|]. unfold factory_instantiate. ans; reflexivity.
      - left. eapply (an_wrap (fun l => l = [])) in E; [exact E|]. unfold router_instantiate. ans; reflexivity.
      - left. eapply (an_wrap (fun l => l = [])) in E; [exact E|]. unfold token_instantiate. ans; reflexivity. }
    destruct X as [->|(tc & t & ->)]; [eapply runs_le; [exact (runs_nil w2 a H2)|lia|lia]|].
    apply (runs_reply 2 0); [exact H2|]. apply T, H2.
  Qed.

  (** *** All messages *)
  Lemma ends_all w s m : hw w -> ends (12 * hops_asked m + 14) (4 * hops_asked m + 5) w s m.
  Proof.
    intros H. destruct m as [to cs|c j fu|adm code im fu lb|c k|c adm].
    - eapply ends_le; [apply ends_small; [exact H|exact I]|lia|lia].
    - assert (D : leaf j \/ ~ leaf j) by (destruct j; cbn; tauto). destruct D as [D|D].
      { eapply ends_le; [apply ends_small; [exact H|exact D]|lia|lia]. }
      destruct j; try (exfalso; apply D; exact I); clear D; cbn [hops_asked].
      + eapply ends_le; [eapply (ends_execute (S (12 * hook_hops msg + 11) + 1) (4 * hook_hops msg + 4)); [exact H|]|lia|lia].
        intros w2 a l H2 [->|(c2 & x & n2 & ->)]; [eapply runs_le; [exact (runs_nil w2 a H2)|lia|lia]|].
        apply runs_one; [exact H2|]. intros w3 H3. apply ends_receive, H3.
      + eapply ends_le; [eapply (ends_execute (S (12 * hook_hops msg + 11) + 1) (4 * hook_hops msg + 4)); [exact H|]|lia|lia].
        intros w2 a l H2 [->|(c2 & x & n2 & ->)]; [eapply runs_le; [exact (runs_nil w2 a H2)|lia|lia]|].
        apply runs_one; [exact H2|]. intros w3 H3. apply ends_receive, H3.
      + eapply ends_le; [apply ends_receive, H|lia|lia].
      + eapply ends_le; [apply (ends_execute 10 3); [exact H|]|lia|lia]. intros w2 a l H2 AS. exact (runs_smalls 3 w2 a l H2 AS).
      + eapply ends_le; [eapply (ends_execute (12 * Datatypes.length ops + 4) (4 * Datatypes.length ops + 1)); [exact H|]|lia|lia].
        intros w2 a l H2 AS. exact (runs_route w2 a _ l H2 AS).
      + eapply ends_le; [apply ends_hop, H|lia|lia].
      + eapply ends_le; [apply (ends_execute 11 0); [exact H|]|lia|lia].
        intros w2 a l H2 [->|(ad & k & infos & tc & d & q & ->)]; [eapply runs_le; [exact (runs_nil w2 a H2)|lia|lia]|].
        apply (runs_reply 7 0); [exact H2|]. apply ends_new, H2.
      + eapply ends_le; [apply (ends_execute 4 1); [exact H|]|lia|lia]. intros w2 a l H2 AS. exact (runs_smalls 1 w2 a l H2 AS).
    - eapply ends_le; [apply ends_new, H|lia|lia].
    - eapply ends_le; [apply ends_small; [exact H|exact I]|lia|lia].
    - eapply settles_weaken; [eapply settles_S; [apply exec_0|intros f; rewrite exec_eq; reflexivity|]|instantiate (1 := 0%nat); lia|intros x Hx; exact Hx].
      cbv beta iota. apply settles_pre; [apply nf_oget; discriminate|]. intros a _. apply settles_pre; [apply nf_oget; discriminate|].
      intros i Ei. apply settles_pre; [destruct adm; [apply nf_bind; [apply nf_oget; discriminate|intros; apply nf_ok]|apply nf_ok]|]. intros ad _.
      destruct (bool_decide _); [|apply settles_const; [apply nf_err; discriminate|intros x X; discriminate]].
      apply settles_const; [apply nf_ok|]. intros x E2. injection E2 as <-. split; [apply hw_admin, H|cbn; lia].
  Qed.
End finite.

(** ** C81 *)

(** Every message to a chain with only contracts of /repo has one outcome [out],
    which does not depend on how much fuel is given beyond a number linear in the
    length of the route asked for, and is never a lack of fuel.  If the message
    is executed it makes at most [4 n + 5] calls of contracts for a route of [n]
    hops, and leaves a chain of the same sort. *)
Theorem C81_finite C w s m : only_halo C w ->
  exists out, out <> Err EFuel /\ (forall f, (12 * hops_asked m + 14 <= f)%nat -> exec C f w s m = out) /\
    (forall f, exec C f w s m = out \/ exec C f w s m = Err EFuel) /\
    (forall w' r lg, out = Ok (w', r, lg) -> only_halo C w' /\ (Datatypes.length lg <= 4 * hops_asked m + 5)%nat).
Proof.
  intros (Hc & Ht & Hw). destruct (ends_all C Hc Ht w s m Hw) as (out & N & H1 & H2 & HP). exists out.
  split; [exact N|]. split; [exact H2|]. split; [exact H1|]. intros w' r lg E. destruct (HP _ E) as [K L]. cbn [fst snd] in K, L.
  split; [|exact L]. split; [exact Hc|]. split; [exact Ht|exact K].
Qed.
Print Assumptions C81_finite.

(** So every transaction is decided: either it is executed, in exactly one way,
    or it is refused for a reason of its own whatever the fuel. *)
Theorem C81_decided C w s m : only_halo C w -> ordinary C s ->
  (exists w' lg, tx C w s m w' lg /\ (Datatypes.length lg <= 4 * hops_asked m + 5)%nat /\
     forall w2 lg2, tx C w s m w2 lg2 -> w2 = w' /\ lg2 = lg) \/
  ((forall w' lg, ~ tx C w s m w' lg) /\
   exists e, e <> EFuel /\ forall f, (12 * hops_asked m + 14 <= f)%nat -> exec C f w s m = Err e).
Proof.
  intros H O. destruct (C81_finite C w s m H) as (out & N & H2 & H1 & HP). destruct out as [[[w' r] lg]|e].
  - left. exists w', lg. destruct (HP _ _ _ eq_refl) as [_ L]. split.
    + split; [exact O|]. exists (12 * hops_asked m + 14)%nat, r. apply H2. lia.
    + split; [exact L|]. intros w2 lg2 (_ & f & r2 & E). destruct (H1 f) as [E1|E1]; rewrite E1 in E; [|discriminate].
      injection E as <- _ <-. split; reflexivity.
  - right. split.
    + intros w' lg (_ & f & r & E). destruct (H1 f) as [E1|E1]; rewrite E1 in E; discriminate.
    + exists e. split; [intros ->; exact (N eq_refl)|exact H2].
Qed.
Print Assumptions C81_decided.

(** Chains on which only code of /repo is stored stay that way. *)
Theorem C81_histories C w lg w' : only_halo C w -> history C w lg w' -> only_halo C w'.
Proof.
  intros H Hh. induction Hh as [w|w lg w1 s m w2 lg2 Hh IH T|w lg w1 blk Hh IH B1 B2]; [exact H| |].
  - destruct T as (_ & f & r & E). destruct (C81_finite C w1 s m (IH H)) as (out & N & H2 & H1 & HP).
    destruct (H1 f) as [E1|E1]; rewrite E1 in E; [|discriminate]. exact (proj1 (HP _ _ _ E)).
  - destruct (IH H) as (A1 & A2 & A3). split; [exact A1|]. split; [exact A2|exact A3].
Qed.
Print Assumptions C81_histories.

(** The chain of the examples without third-party code, and its set-up without
    the thief: #0 to #7 as there. *)
Definition halo_chain : chain :=
  Chain (ch_api ex_chain) (ch_fresh ex_chain) (fun n => if n <=? 4 then ch_codes ex_chain n else None)
    (adv_init ex_chain) (adv_exec ex_chain) (adv_reply ex_chain) (adv_token_balance ex_chain) (adv_token_info ex_chain)
    (adv_native_decimals ex_chain) (adv_pair_info ex_chain) (adv_simulate ex_chain) (adv_reverse ex_chain) (adv_pair_self ex_chain) (ch_takeover ex_chain).
Definition halo_setup : list (bool * cmsg) :=
  List.filter (fun x => match x.2 with MInstantiate _ 5 _ _ _ => false | _ => true end) ex_setup.
Fixpoint halo_script (w : world) (txs : list (bool * cmsg)) : res world :=
  match txs with
  | [] => Ok w
  | (b, m) :: r => let* '(w1, _, _) := exec halo_chain 40 w (who b) m in halo_script w1 r
  end.
Definition halo_world : world := match halo_script ex_genesis halo_setup with Ok w => w | Err _ => ex_genesis end.
Definition calls_made (m : cmsg) : option nat :=
  match exec halo_chain 40 halo_world "alice" m with Ok (_, _, lg) => Some (Datatypes.length lg) | Err _ => None end.
Lemma halo_script_ok txs : forall w w', only_halo halo_chain w -> halo_script w txs = Ok w' -> only_halo halo_chain w'.
Proof.
  induction txs as [|[b m] r IH]; intros w w' H E; cbn [halo_script] in E; [injection E as <-; exact H|].
  apply rbind_ok in E as ([[w1 x] lg] & E1 & E). apply (IH w1 w'); [|exact E].
  destruct (C81_finite halo_chain w (who b) m H) as (out & N & H2 & H1 & HP).
  destruct (H1 40%nat) as [E2|E2]; rewrite E2 in E1; [|discriminate]. exact (proj1 (HP _ _ _ E1)).
Qed.
Lemma halo_codes n k : ch_codes halo_chain n <> Some (CAdv k).
Proof.
  cbn [halo_chain ch_codes ex_chain]. destruct (n <=? 4) eqn:L; [|discriminate]. apply N.leb_le in L.
  destruct (n =? 1); [discriminate|]. destruct (n =? 2); [discriminate|]. destruct (n =? 3); [discriminate|]. destruct (n =? 4); [discriminate|].
  destruct (n =? 5) eqn:E; [apply N.eqb_eq in E; lia|]. destruct (n =? 6) eqn:E6; [apply N.eqb_eq in E6; lia|]. discriminate.
Qed.

(** Case: two pools on such a chain.  Withdrawing makes five calls, the most for
    a message without a route; a route of two hops ending in native coins makes
    ten of the thirteen allowed; a route over a missing pair is refused. *)
Example C81_case : only_halo halo_chain halo_world /\
  calls_made (x_call "#7" (JSend "#6" 1000 HWithdrawLiquidity)) = Some 5%nat /\
  calls_made (x_call "#2" (JSend "#3" 1000000 (HExecuteSwapOperations [HaloSwap (Token "#2") (Token "#1"); HaloSwap (Token "#1") (Native "uaura")] (Some 1) None))) = Some 10%nat /\
  calls_made (x_call "#2" (JSend "#3" 1000000 (HExecuteSwapOperations [HaloSwap (Token "#2") (Native "uaura")] (Some 1) None))) = None.
Proof.
  split.
  - unfold halo_world. destruct (halo_script ex_genesis halo_setup) as [w|e] eqn:E.
    + apply (halo_script_ok halo_setup ex_genesis w); [|exact E]. split; [exact halo_codes|]. split; [reflexivity|]. intros a i k d X. cbn [ex_genesis w_insts] in X. rewrite lookup_empty in X. discriminate.
    + split; [exact halo_codes|]. split; [reflexivity|]. intros a i k d X. cbn [ex_genesis w_insts] in X. rewrite lookup_empty in X. discriminate.
  - vm_compute. auto.
Qed.

(** With third-party code the claim is false: a contract that calls itself again
    and again, and every message that reaches it, runs out of any fuel. *)
Definition loop_chain : chain :=
  Chain (ch_api ex_chain) (ch_fresh ex_chain) (ch_codes ex_chain) (adv_init ex_chain)
    (fun _ _ self _ _ _ => Ok (""%string, Response [plain (MExecute self (JOther "again") [])] []))
    (adv_reply ex_chain) (adv_token_balance ex_chain) (adv_token_info ex_chain)
    (adv_native_decimals ex_chain) (adv_pair_info ex_chain) (adv_simulate ex_chain) (adv_reverse ex_chain) (adv_pair_self ex_chain) (ch_takeover ex_chain).
Definition loop_world : world := World ∅ {[ "#0"%string := Inst None (SAdv 0 "") ]} 1 (Block 1 1).
Lemma loop_run f : forall s m, exec loop_chain f loop_world s (MExecute "#0" m []) = Err EFuel.
Proof.
  induction f as [f IH] using lt_wf_ind. intros s m. destruct f as [|f]; [reflexivity|]. rewrite exec_eq.
  replace (norm (ch_api loop_chain) "#0") with (Some "#0"%string) by (vm_compute; reflexivity). cbn [oget rbind]. rewrite bank_send_none. cbn [rbind].
  replace (w_insts loop_world !! "#0"%string) with (Some (Inst None (SAdv 0 ""))) by (vm_compute; reflexivity). cbn [oget rbind i_state call].
  unfold wrap. cbn [loop_chain adv_exec rbind rs_msgs].
  assert (L : w_insts loop_world !! "#0"%string = Some (Inst None (SAdv 0 ""))) by (vm_compute; reflexivity).
  pose proof (set_state_id loop_world "#0" _ L) as X. cbn [i_state] in X. rewrite X.
  destruct f as [|f]; [reflexivity|]. fold loop_chain. rewrite run_plain, (IH f) by lia. reflexivity.
Qed.
Example C81_loop : chain_ok loop_chain /\ forall f s m, exec loop_chain f loop_world s (MExecute "#0" m []) = Err EFuel.
Proof.
  split; [|exact loop_run]. destruct ex_chain_ok as [[? ? ? ? ?] ?]. split; [split; assumption|assumption].
Qed.
