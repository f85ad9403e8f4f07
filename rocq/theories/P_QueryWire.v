(** C88: questions and answers.  What a contract or a user asks a contract of the
    repository, and what it answers, crosses the wire as bytes; what is read on
    the other side is exactly what was meant, and the answer is about the state
    the contract really has. *)
From Verif Require Import Base BigNumber CwStd BigNumberFacts Asset Messages PairMath Pair PairFacts Token TokenQueries Factory Router
  SwapFacts SwapFacts2 P_Swap P_Pair FactoryFacts P_Factory P_Router TokenFacts World WorldInd WorldFacts WorldInv WorldInd2
  Examples WorldExamples P_Ledger Json JsonFacts Wire WireFacts P_Wire QueryWire FitsInv.
From Coq Require Import ZifyN String.
From stdpp Require Import sorting.
Local Open Scope N_scope.
Ltac Zify.zify_post_hook ::= idtac.

(** ** Specification *)

(** The result of a call that may fail, as an option. *)
Definition ok {X} (r : res X) : option X := match r with Ok x => Some x | Err _ => None end.

(** The contract of the repository at an address gives this answer. *)
Definition asked (C : chain) (w : world) (a : string) (q : qmsg) : res answer :=
  match contract_at C w a with
  | Ok (_, SPair st) => pair_query (ch_api C) (wq C w) st q
  | Ok (_, SFactory st) => factory_query (ch_api C) st q
  | Ok (_, SRouter st) => router_query (ch_api C) (wq C w) st q
  | Ok (_, SToken st) => token_query (ch_api C) st q
  | _ => Err ENotFound
  end.

(** The numbers of a query fit into its fields. *)
Definition query_fits (q : qmsg) : bool :=
  match q with
  | QSimulation a | QReverseSimulation a => a_amount a <? B128
  | QSimulateOps n _ | QReverseSimulateOps n _ => n <? B128
  | QPairs _ l | QAllAllowances _ _ l | QAllAccounts _ l => match l with Some n => n <? B32 | None => true end
  | _ => true
  end.

(** How the asker reads the answer: by the type that belongs to the question (for
    Config it depends on whom they ask). *)
Definition amap {X} (f : X -> answer) (o : option X) : option answer := match o with Some x => Some (f x) | None => None end.
Definition r_answer (router : bool) (q : qmsg) (v : json) : option answer :=
  match q with
  | QSelf | QPair _ => amap APairInfo (r_pair_info v)
  | QPool => amap APool (r_pool v)
  | QSimulation _ => amap ASimulation (r_sim v)
  | QReverseSimulation _ => amap AReverse (r_rev v)
  | QConfig => if router then amap ARouterConfig (r_router_config v) else amap AConfig (r_config v)
  | QPairs _ _ => amap APairs (r_pairs v)
  | QNativeTokenDecimals _ => amap ADecimals (r_decimals v)
  | QSimulateOps _ _ | QReverseSimulateOps _ _ => amap AAmount (r_amount v)
  | QBalance _ => amap ABalance (r_balance v)
  | QTokenInfo => amap ATokenInfo (r_token_info v)
  | QMinter => amap AMinter (optional r_minter v)
  | QAllowance _ _ => amap AAllowance (r_allowance v)
  | QAllAllowances _ _ _ => amap AAllowances (r_allowances v)
  | QAllAccounts _ _ => amap AAccounts (r_accounts v)
  end.
Definition is_router (C : chain) (w : world) (a : string) : bool :=
  match contract_at C w a with Ok (_, SRouter _) => true | _ => false end.

(** No third-party contract is at this address. *)
Definition ours (C : chain) (w : world) (a : string) : Prop :=
  forall a' k d, contract_at C w a <> Ok (a', SAdv k d).

(** ** Reading the questions *)
Ltac qread := cbn -[optional w_opt u128_ok r_two w_two r_list w_list]; unfold opt_field; cbn -[optional w_opt u128_ok r_two w_two r_list w_list].
Lemma rw_infos_opt o : optional (r_two r_info) (w_opt (w_two w_info) o) = Some o.
Proof. rewrite rw_opt by discriminate. destruct o; [rewrite rw_infos|]; reflexivity. Qed.
Lemma rw_limit o : optional (r_num B32) (w_opt w_num o) = if match o with Some n => n <? B32 | None => true end then Some o else None.
Proof. rewrite rw_opt by apply w_num_some. destruct o as [n|]; [rewrite rw_num; destruct (n <? B32)|]; reflexivity. Qed.

Definition pair_q (q : qmsg) : bool := match q with QSelf | QPool | QSimulation _ | QReverseSimulation _ => true | _ => false end.
Definition factory_q (q : qmsg) : bool := match q with QConfig | QPair _ | QPairs _ _ | QNativeTokenDecimals _ => true | _ => false end.
Definition router_q (q : qmsg) : bool := match q with QConfig | QSimulateOps _ _ | QReverseSimulateOps _ _ => true | _ => false end.
Definition token_q (q : qmsg) : bool :=
  match q with QBalance _ | QTokenInfo | QMinter | QAllowance _ _ | QAllAllowances _ _ _ | QAllAccounts _ _ => true | _ => false end.

Lemma rw_pair_query q : r_pair_query (w_query q) = if pair_q q && query_fits q then Some q else None.
Proof.
  destruct q as [| |a|a| |i|s l|d|n ops|n ops|a| | |o s|o s l|s l].
  1-2,5-16: reflexivity.
  - qread. rewrite rw_asset. change (a_amount a <? _) with (u128_ok (a_amount a)). destruct (u128_ok (a_amount a)); reflexivity.
  - qread. rewrite rw_asset. change (a_amount a <? _) with (u128_ok (a_amount a)). destruct (u128_ok (a_amount a)); reflexivity.
Qed.
Lemma rw_factory_query q : r_factory_query (w_query q) = if factory_q q && query_fits q then Some q else None.
Proof.
  destruct q as [| |a|a| |i|s l|d|n ops|n ops|a| | |o s|o s l|s l].
  1-5,8-16: reflexivity.
  - qread. rewrite rw_infos. reflexivity.
  - qread. rewrite rw_infos_opt. cbn [obind]. rewrite rw_limit. destruct l as [n|]; [|reflexivity]. destruct (n <? B32); reflexivity.
Qed.
Lemma rw_router_query q : r_router_query (w_query q) = if router_q q && query_fits q then Some q else None.
Proof.
  destruct q as [| |a|a| |i|s l|d|n ops|n ops|a| | |o s|o s l|s l].
  1-8,11-16: reflexivity.
  - qread. rewrite rw_u128. change (n <? _) with (u128_ok n). destruct (u128_ok n); [|reflexivity]. cbn [obind]. rewrite rw_ops. reflexivity.
  - qread. rewrite rw_u128. change (n <? _) with (u128_ok n). destruct (u128_ok n); [|reflexivity]. cbn [obind]. rewrite rw_ops. reflexivity.
Qed.
Lemma rw_token_query q : r_token_query (w_query q) = if token_q q && query_fits q then Some q else None.
Proof.
  destruct q as [| |a|a| |i|s l|d|n ops|n ops|a| | |o s|o s l|s l].
  1-14: reflexivity.
  - qread. rewrite !rw_str. cbn [obind]. rewrite rw_ostr. cbn [obind]. rewrite rw_limit.
    destruct l as [n|]; [|reflexivity]. destruct (n <? B32); reflexivity.
  - qread. rewrite rw_ostr. cbn [obind]. rewrite rw_limit.
    destruct l as [n|]; [|reflexivity]. destruct (n <? B32); reflexivity.
Qed.

(** ** Reading the answers *)
Definition answer_fits (a : answer) : bool :=
  match a with
  | APairInfo p => pair_info_ranges p
  | APool p => u128_ok (a_amount (fst (fst p))) && u128_ok (a_amount (snd (fst p))) && u128_ok (snd p)
  | ASimulation s => u128_ok (s_return s) && u128_ok (s_spread s) && u128_ok (s_commission s)
  | AReverse s => u128_ok (rs_offer s) && u128_ok (rs_spread s) && u128_ok (rs_commission s)
  | AConfig c => u64_ok (snd (fst c)) && u64_ok (snd c)
  | ARouterConfig _ => true
  | APairs l => forallb pair_info_ranges l
  | ADecimals n => u8_ok n
  | AAmount n | ABalance n => u128_ok n
  | ATokenInfo t => u8_ok (ti_decimals t) && u128_ok (ti_total_supply t)
  | AMinter m => match m with Some (_, c) => ou128_ok c | None => true end
  | AAllowance a => u128_ok (fst a) && exp_ok (snd a)
  | AAllowances l => forallb (fun a => u128_ok (fst (snd a)) && exp_ok (snd (snd a))) l
  | AAccounts _ => true
  end.
Definition read_as (a : answer) (v : json) : option answer :=
  match a with
  | APairInfo _ => amap APairInfo (r_pair_info v)
  | APool _ => amap APool (r_pool v)
  | ASimulation _ => amap ASimulation (r_sim v)
  | AReverse _ => amap AReverse (r_rev v)
  | AConfig _ => amap AConfig (r_config v)
  | ARouterConfig _ => amap ARouterConfig (r_router_config v)
  | APairs _ => amap APairs (r_pairs v)
  | ADecimals _ => amap ADecimals (r_decimals v)
  | AAmount _ => amap AAmount (r_amount v)
  | ABalance _ => amap ABalance (r_balance v)
  | ATokenInfo _ => amap ATokenInfo (r_token_info v)
  | AMinter _ => amap AMinter (optional r_minter v)
  | AAllowance _ => amap AAllowance (r_allowance v)
  | AAllowances _ => amap AAllowances (r_allowances v)
  | AAccounts _ => amap AAccounts (r_accounts v)
  end.

Ltac aread := cbn -[optional w_opt u128_ok u64_ok u8_ok exp_ok ou128_ok r_two w_two r_list w_list amap r_num r_u128 r_str r_exp N.ltb].
Ltac known := repeat match goal with H : ?x = true |- context [if ?x then _ else _] => rewrite H; cbn [obind] end.
Lemma rw_pool p : r_pool (w_pool p) = if u128_ok (a_amount (fst (fst p))) && u128_ok (a_amount (snd (fst p))) && u128_ok (snd p) then Some p else None.
Proof.
  destruct p as [[a b] n]. unfold r_pool, w_pool. aread. rewrite rw_assets. destruct (u128_ok (a_amount a) && u128_ok (a_amount b)); [|reflexivity].
  cbn [obind]. rewrite rw_u128. destruct (u128_ok n); reflexivity.
Qed.
Lemma rw_sim s : r_sim (w_sim s) = if u128_ok (s_return s) && u128_ok (s_spread s) && u128_ok (s_commission s) then Some s else None.
Proof.
  destruct s as [a b c]. unfold r_sim, w_sim. aread. rewrite !rw_u128. destruct (u128_ok a); [|reflexivity]. cbn [obind].
  destruct (u128_ok b); [|reflexivity]. cbn [obind]. destruct (u128_ok c); reflexivity.
Qed.
Lemma rw_rev s : r_rev (w_rev s) = if u128_ok (rs_offer s) && u128_ok (rs_spread s) && u128_ok (rs_commission s) then Some s else None.
Proof.
  destruct s as [a b c]. unfold r_rev, w_rev. aread. rewrite !rw_u128. destruct (u128_ok a); [|reflexivity]. cbn [obind].
  destruct (u128_ok b); [|reflexivity]. cbn [obind]. destruct (u128_ok c); reflexivity.
Qed.
Lemma rw_config c : r_config (w_config c) = if u64_ok (snd (fst c)) && u64_ok (snd c) then Some c else None.
Proof.
  destruct c as [[o t] p]. unfold r_config, w_config. aread. rewrite rw_str. cbn [obind]. rewrite !rw_num. unfold u64_ok.
  destruct (t <? B64), (p <? B64); reflexivity.
Qed.
Lemma rw_pairs l : r_pairs (w_pairs l) = if forallb pair_info_ranges l then Some l else None.
Proof.
  unfold r_pairs, w_pairs. aread. Local Transparent r_list w_list. unfold r_list, w_list.
  apply (all_some_map w_pair_info r_pair_info pair_info_ranges). intros a. apply rw_pair_info.
Qed.
Local Opaque r_list w_list.
Lemma rw_token_info t : r_token_info (w_token_info t) = if u8_ok (ti_decimals t) && u128_ok (ti_total_supply t) then Some t else None.
Proof.
  destruct t as [n s d t]. unfold r_token_info, w_token_info. aread. rewrite !rw_str. cbn [obind]. rewrite rw_num, rw_u128. unfold u8_ok.
  destruct (d <? 256); [|reflexivity]. cbn [obind]. destruct (u128_ok t); reflexivity.
Qed.
Lemma rw_minter m : r_minter (w_minter m) = if ou128_ok (snd m) then Some m else None.
Proof.
  destruct m as [a c]. unfold r_minter, w_minter. aread. rewrite rw_str. cbn [obind]. unfold opt_field. aread. rewrite rw_ou128.
  destruct (ou128_ok c); reflexivity.
Qed.
Lemma rw_allowance a : r_allowance (w_allowance a) = if u128_ok (fst a) && exp_ok (snd a) then Some a else None.
Proof.
  destruct a as [n e]. unfold r_allowance, w_allowance. aread. rewrite rw_u128. destruct (u128_ok n); [|reflexivity]. cbn [obind]. rewrite rw_exp.
  destruct (exp_ok e); reflexivity.
Qed.
Lemma rw_allowed a : r_allowed (w_allowed a) = if u128_ok (fst (snd a)) && exp_ok (snd (snd a)) then Some a else None.
Proof.
  destruct a as [s [n e]]. unfold r_allowed, w_allowed. aread. rewrite rw_str. cbn [obind]. rewrite rw_u128. destruct (u128_ok n); [|reflexivity]. cbn [obind].
  rewrite rw_exp. destruct (exp_ok e); reflexivity.
Qed.
Lemma rw_allowances l : r_allowances (w_allowances l) = if forallb (fun a => u128_ok (fst (snd a)) && exp_ok (snd (snd a))) l then Some l else None.
Proof.
  unfold r_allowances, w_allowances. aread. Local Transparent r_list w_list. unfold r_list, w_list. apply all_some_map. exact rw_allowed.
Qed.
Local Opaque r_list w_list.
Lemma rw_answer a : answer_fits a = true -> read_as a (w_answer a) = Some a.
Proof.
  destruct a as [p|p|s|s|c|f|l|n|n|n|t|m|a|l|l]; cbn [answer_fits read_as w_answer]; intros H.
  - rewrite rw_pair_info. unfold pair_info_ranges in H. rewrite H. reflexivity.
  - rewrite rw_pool, H. reflexivity.
  - rewrite rw_sim, H. reflexivity.
  - rewrite rw_rev, H. reflexivity.
  - rewrite rw_config, H. reflexivity.
  - unfold r_router_config, w_router_config. aread. rewrite rw_str. reflexivity.
  - rewrite rw_pairs, H. reflexivity.
  - unfold r_decimals, w_decimals. aread. rewrite rw_num. unfold u8_ok in H. rewrite H. reflexivity.
  - unfold r_amount, w_amount. aread. rewrite rw_u128, H. reflexivity.
  - unfold r_balance, w_balance. aread. rewrite rw_u128, H. reflexivity.
  - rewrite rw_token_info, H. reflexivity.
  - rewrite rw_opt by apply w_minter_some. destruct m as [[a c]|]; [|reflexivity]. rewrite rw_minter. cbn [snd]. rewrite H. reflexivity.
  - rewrite rw_allowance, H. reflexivity.
  - rewrite rw_allowances, H. reflexivity.
  - unfold r_accounts, w_accounts. aread. rewrite rw_strs. reflexivity.
Qed.

(** ** The answers fit *)
Lemma tok_supply_fits C w t ts : main C w -> tok_at w t ts -> tk_supply ts < B128.
Proof. intros M H. exact (to_range _ (mn_tokens _ _ M _ _ H)). Qed.
Lemma tok_balance_fits C w t ts a : main C w -> tok_at w t ts -> balance_of ts a < B128.
Proof.
  intros M H. pose proof (mn_tokens _ _ M _ _ H) as T. pose proof (to_range _ T). pose proof (to_sum _ T). pose proof (balance_le_sum ts a). lia.
Qed.
Lemma contract_state C w a a' s : contract_at C w a = Ok (a', s) -> norm (ch_api C) a = Some a' /\ state_at w a' = Some s.
Proof.
  unfold contract_at. intros H. apply rbind_ok in H as (x & Hx & H). apply oget_ok in Hx. apply rbind_ok in H as (i & Hi & H). apply oget_ok in Hi.
  injection H as <- <-. split; [exact Hx|]. unfold state_at. rewrite Hi. reflexivity.
Qed.
Lemma ask_balance_fits C w a d n : ask_balance C w a d = Ok n -> n < B128.
Proof. unfold ask_balance, in_u128. intros H. apply rbind_ok in H as (x & _ & H). cbn [rbind] in H. destruct (_ <? B128) eqn:E; [|discriminate]. injection H as <-. apply N.ltb_lt, E. Qed.
Lemma ask_token_balance_fits C w t a n : main C w -> ask_token_balance C w t a = Ok n -> n < B128.
Proof.
  intros M H. unfold ask_token_balance in H. apply rbind_ok in H as ([t' s] & Ht & H). apply contract_state in Ht as [_ Ht]. destruct s as [| | |ts|k d]; try discriminate.
  - unfold token_query_balance in H. apply rbind_ok in H as (a' & _ & H). injection H as <-. eapply tok_balance_fits; eauto.
  - unfold in_u128 in H. apply rbind_ok in H as (x & _ & H). destruct (x <? B128) eqn:E; [|discriminate]. injection H as <-. apply N.ltb_lt, E.
Qed.
Lemma ask_supply_fits C w t i : main C w -> ask_token_info C w t = Ok i -> ti_total_supply i < B128.
Proof.
  intros M H. unfold ask_token_info in H. apply rbind_ok in H as ([t' s] & Ht & H). apply contract_state in Ht as [_ Ht]. destruct s as [| | |ts|k d]; try discriminate.
  - unfold token_query_info in H. injection H as <-. cbn [ti_total_supply]. eapply tok_supply_fits; eauto.
  - apply rbind_ok in H as (j & _ & H). destruct (_ <? B128) eqn:E1, (_ <? 256) eqn:E2; try discriminate. injection H as <-. apply N.ltb_lt, E1.
Qed.
Lemma pools_fit C w st self p0 p1 : main C w -> query_pools (ch_api C) (wq C w) st self = Ok (p0, p1) -> a_amount p0 < B128 /\ a_amount p1 < B128.
Proof.
  intros M H. assert (G : forall i n, query_pool (ch_api C) (wq C w) i self = Ok n -> n < B128).
  { intros i n X. unfold query_pool in X. destruct i as [t|d]; cbn [wq q_token_balance q_balance] in X.
    - apply rbind_ok in X as (v & _ & X). eapply ask_token_balance_fits; eauto.
    - eapply ask_balance_fits; eauto. }
  unfold query_pools in H. repeat match type of H with rbind _ _ = _ => apply rbind_ok in H as (? & ? & H) end.
  injection H as <- <-. cbn [a_amount]. split; eapply G; eassumption.
Qed.
Lemma to_u128_fits x y : ui256_to_u128 x = Ok y -> u128_ok y = true.
Proof.
  unfold ui256_to_u128. destruct (limb 2 x =? 0); [|discriminate]. destruct (limb 3 x =? 0); [|discriminate]. intros H. injection H as <-.
  unfold u128_ok. apply N.ltb_lt. rewrite limb0, limb1, N.shiftl_mul_pow2. change (2 ^ 64) with B64.
  pose proof (N.mod_lt x B64 ltac:(discriminate)). pose proof (N.mod_lt (x / B64) B64 ltac:(discriminate)). unfold B64, B128 in *. lia.
Qed.
Lemma compute_swap_fits a b c r s k : compute_swap a b c = Ok (r, s, k) -> u128_ok r = true /\ u128_ok s = true /\ u128_ok k = true.
Proof.
  unfold compute_swap. cbv zeta. intros H. repeat match type of H with rbind _ _ = _ => apply rbind_ok in H as (? & ? & H) end. injection H as <- <- <-.
  repeat split; eapply to_u128_fits; eassumption.
Qed.
Lemma compute_offer_fits a b c r s k : compute_offer_amount a b c = Ok (r, s, k) -> u128_ok r = true /\ u128_ok s = true /\ u128_ok k = true.
Proof.
  unfold compute_offer_amount. cbv zeta. intros H. repeat match type of H with rbind _ _ = _ => apply rbind_ok in H as (? & ? & H) end. injection H as <- <- <-.
  repeat split; eapply to_u128_fits; eassumption.
Qed.

(** A stored record read back is in range if the record is. *)
Lemma normal_fits A r p : rec_fits r -> pair_to_normal A r = Ok p -> pair_info_ranges p = true.
Proof.
  intros (G0 & G1 & Gr) H. unfold pair_to_normal in H. repeat (apply rbind_ok in H as (? & _ & H)). injection H as <-.
  unfold pair_info_ranges, u8_ok. cbn [p_asset_decimals p_requirements]. apply N.ltb_lt in G0, G1. rewrite Gr, G0, G1. reflexivity.
Qed.
Lemma ask_simulate_fits C w p a s : ask_simulate C w p a = Ok s -> answer_fits (ASimulation s) = true.
Proof.
  unfold ask_simulate. intros H. apply rbind_ok in H as ([p' x] & _ & H). destruct x as [ps| | | |k d]; try discriminate.
  - unfold pair_query_simulation in H. destruct (negb _); [discriminate|]. apply rbind_ok in H as (self & _ & H). apply rbind_ok in H as ([p0 p1] & _ & H).
    apply rbind_ok in H as ([o k] & _ & H). apply rbind_ok in H as ([[r sp] c] & E & H). injection H as <-. apply compute_swap_fits in E as (E1 & E2 & E3).
    cbn [answer_fits s_return s_spread s_commission]. rewrite E1, E2, E3. reflexivity.
  - apply rbind_ok in H as (r & _ & H). destruct (_ && _) eqn:E; [|discriminate]. injection H as <-. exact E.
Qed.
Lemma ask_reverse_fits C w p a s : ask_reverse C w p a = Ok s -> answer_fits (AReverse s) = true.
Proof.
  unfold ask_reverse. intros H. apply rbind_ok in H as ([p' x] & _ & H). destruct x as [ps| | | |k d]; try discriminate.
  - unfold pair_query_reverse_simulation in H. destruct (negb _); [discriminate|]. apply rbind_ok in H as (self & _ & H). apply rbind_ok in H as ([p0 p1] & _ & H).
    apply rbind_ok in H as ([o k] & _ & H). apply rbind_ok in H as ([[r sp] c] & E & H). injection H as <-. apply compute_offer_fits in E as (E1 & E2 & E3).
    cbn [answer_fits rs_offer rs_spread rs_commission]. rewrite E1, E2, E3. reflexivity.
  - apply rbind_ok in H as (r & _ & H). destruct (_ && _) eqn:E; [|discriminate]. injection H as <-. exact E.
Qed.
Lemma pair_answer_fits C w a st q x : main C w -> pair_at w a st -> pair_query (ch_api C) (wq C w) st q = Ok x -> answer_fits x = true.
Proof.
  intros M Hp H. destruct q; cbn [pair_query] in H; try discriminate; unfold give in H; apply rbind_ok in H as (y & H & E); injection E as <-; cbn [answer_fits].
  - destruct (mn_pairs _ _ M _ _ Hp) as [_ _ _ G0 G1 Gr _]. eapply normal_fits; [|exact H]. split; [exact G0|]. split; [exact G1|exact Gr].
  - unfold pair_query_pool in H. apply rbind_ok in H as (self & _ & H). apply rbind_ok in H as ([p0 p1] & H1 & H). apply (pools_fit C w _ _ _ _ M) in H1 as [L0 L1].
    apply rbind_ok in H as (lp & _ & H). apply rbind_ok in H as (ti & Ht & H). injection H as <-. cbn [fst snd]. cbn [wq q_token_info] in Ht. apply (ask_supply_fits C w _ _ M) in Ht.
    unfold u128_ok. apply N.ltb_lt in L0, L1, Ht. rewrite L0, L1, Ht. reflexivity.
  - unfold pair_query_simulation in H. destruct (negb _); [discriminate|]. apply rbind_ok in H as (self & _ & H). apply rbind_ok in H as ([p0 p1] & _ & H).
    apply rbind_ok in H as ([o k] & _ & H). apply rbind_ok in H as ([[r sp] c] & E & H). injection H as <-. apply compute_swap_fits in E as (E1 & E2 & E3).
    cbn [s_return s_spread s_commission]. rewrite E1, E2, E3. reflexivity.
  - unfold pair_query_reverse_simulation in H. destruct (negb _); [discriminate|]. apply rbind_ok in H as (self & _ & H). apply rbind_ok in H as ([p0 p1] & _ & H).
    apply rbind_ok in H as ([o k] & _ & H). apply rbind_ok in H as ([[r sp] c] & E & H). injection H as <-. apply compute_offer_fits in E as (E1 & E2 & E3).
    cbn [rs_offer rs_spread rs_commission]. rewrite E1, E2, E3. reflexivity.
Qed.
Lemma simulate_ops_fits C w f ops : forall n r, u128_ok n = true -> simulate_ops (wq C w) f n ops = Ok r -> u128_ok r = true.
Proof.
  induction ops as [|o ops IH]; intros n r Hn H; cbn [simulate_ops] in H; [injection H as <-; exact Hn|].
  apply rbind_ok in H as (p & _ & H). apply rbind_ok in H as (s & Hs & H). cbn [wq q_simulate] in Hs. apply ask_simulate_fits in Hs.
  cbn [answer_fits] in Hs. apply andb_prop in Hs as [Hs _]. apply andb_prop in Hs as [Hs _]. eapply IH; [exact Hs|exact H].
Qed.
Lemma reverse_ops_fits C w st ops : forall n r, u128_ok n = true -> reverse_ops (ch_api C) (wq C w) st n ops = Ok r -> u128_ok r = true.
Proof.
  induction ops as [|o ops IH]; intros n r Hn H; cbn [reverse_ops] in H; [injection H as <-; exact Hn|].
  apply rbind_ok in H as (f & _ & H). apply rbind_ok in H as (s & Hs & H). apply IH in H; [exact H|]. unfold reverse_step in Hs.
  destruct (rbind (q_pair_info _ _ _) _) as [v|] eqn:E; [|discriminate]. injection Hs as <-. apply rbind_ok in E as (p & _ & E). apply rbind_ok in E as (y & Hy & E).
  injection E as <-. cbn [wq q_reverse_simulate] in Hy. apply ask_reverse_fits in Hy. cbn [answer_fits] in Hy. apply andb_prop in Hy as [Hy _]. apply andb_prop in Hy as [Hy _]. exact Hy.
Qed.
Lemma router_answer_fits C w st q x : router_query (ch_api C) (wq C w) st q = Ok x -> answer_fits x = true.
Proof.
  intros H. destruct q; cbn [router_query] in H; try discriminate; unfold give in H; apply rbind_ok in H as (y & H & E); injection E as <-; cbn [answer_fits].
  - reflexivity.
  - unfold router_simulate in H. destruct (u128_ok offer) eqn:U; [|discriminate]. cbn [negb] in H. apply rbind_ok in H as (f & _ & H).
    destruct ops as [|o ops]; [discriminate|]. eapply simulate_ops_fits; eauto.
  - unfold router_reverse_simulate in H. destruct (u128_ok ask) eqn:U; [|discriminate]. cbn [negb] in H. destruct ops as [|o ops]; [discriminate|]. eapply reverse_ops_fits; eauto.
Qed.
Lemma page_in {V} (l : list (string * V)) s n x : List.In x (page_of l s n) -> List.In x l.
Proof.
  unfold page_of, in_order. intros H. rewrite <- elem_of_list_In in *.
  assert (G : x ∈ merge_sort entry_le l).
  { apply elem_of_take in H as (i & H & _). apply elem_of_list_lookup_2 in H. destruct s; [|exact H]. rewrite elem_of_list_In in *. apply filter_In in H. tauto. }
  rewrite (merge_sort_Permutation entry_le l) in G. exact G.
Qed.
Lemma token_answer_fits C w t st q x : main C w -> all_fit w -> tok_at w t st -> token_query (ch_api C) st q = Ok x -> answer_fits x = true.
Proof.
  intros M F Ht H. pose proof (F _ _ Ht) as (F1 & F2 & F3).
  destruct q; cbn [token_query] in H; try discriminate; unfold give in H; apply rbind_ok in H as (y & H & E); injection E as <-; cbn [answer_fits].
  - unfold token_query_balance in H. apply rbind_ok in H as (a' & _ & H). injection H as <-. apply N.ltb_lt. eapply tok_balance_fits; eauto.
  - unfold token_query_info in H. injection H as <-. cbn [ti_decimals ti_total_supply]. pose proof (tok_supply_fits C w t st M Ht) as S1. unfold u8_ok, u128_ok.
    apply N.ltb_lt in F1, S1. rewrite F1, S1. reflexivity.
  - unfold token_query_minter in H. injection H as <-. destruct (tk_mint st) as [[m [c|]]|] eqn:Em; try reflexivity. cbn [ou128_ok]. apply N.ltb_lt. eapply F2; reflexivity.
  - unfold token_query_allowance in H. apply rbind_ok in H as (o' & _ & H). apply rbind_ok in H as (s' & _ & H). injection H as <-.
    destruct (tk_allow st !! (o', s')) as [[v e]|] eqn:L; [|reflexivity]. cbn [default fst snd]. destruct (F3 _ _ _ L) as [L1 L2]. unfold id. cbn [fst snd]. unfold u128_ok. apply N.ltb_lt in L1. rewrite L1, L2. reflexivity.
  - unfold token_all_allowances in H. apply rbind_ok in H as (o' & _ & H). injection H as <-. apply forallb_forall. intros [s' [v e]] Hin. apply page_in in Hin.
    unfold allowances_of in Hin. apply in_map_iff in Hin as ([[k1 k2] [v' e']] & E & Hin). cbn in E. injection E as -> -> ->. apply filter_In in Hin as [Hin _].
    rewrite <- elem_of_list_In in Hin. apply elem_of_map_to_list in Hin. destruct (F3 _ _ _ Hin) as [L1 L2]. cbn [fst snd]. unfold u128_ok. apply N.ltb_lt in L1. rewrite L1, L2. reflexivity.
  - reflexivity.
Qed.
Lemma rmap_in {X Y} (f : X -> res Y) l : forall r y, rmap f l = Ok r -> List.In y r -> exists x, List.In x l /\ f x = Ok y.
Proof.
  induction l as [|x l IH]; intros r y H Hin; cbn [rmap] in H; [injection H as <-; destruct Hin|].
  apply rbind_ok in H as (b & Hb & H). apply rbind_ok in H as (bs & Hbs & H). injection H as <-. destruct Hin as [<-|Hin].
  - exists x. split; [left; reflexivity|exact Hb].
  - destruct (IH _ _ Hbs Hin) as (z & Hz & Ez). exists z. split; [right; exact Hz|exact Ez].
Qed.
Lemma factory_answer_fits C w f st q x : all_fit w -> fac_at w f st -> factory_query (ch_api C) st q = Ok x -> answer_fits x = true.
Proof.
  intros F Hf H. pose proof (F _ _ Hf) as (F1 & F2 & F3 & F4 & _).
  destruct q; cbn [factory_query] in H; try discriminate; unfold give in H; apply rbind_ok in H as (y & H & E); injection E as <-; cbn [answer_fits].
  - unfold factory_query_config in H. apply rbind_ok in H as (o & _ & H). injection H as <-. cbn [fst snd]. unfold u64_ok. apply N.ltb_lt in F1, F2. rewrite F1, F2. reflexivity.
  - unfold factory_query_pair in H. apply rbind_ok in H as (r0 & _ & H). apply rbind_ok in H as (r1 & _ & H). apply rbind_ok in H as (r & Hr & H). apply oget_ok in Hr.
    eapply normal_fits; [|exact H]. eapply F4; exact Hr.
  - unfold factory_query_pairs in H. apply rbind_ok in H as (s & _ & H). unfold read_pairs in H. apply forallb_forall. intros p Hp.
    destruct (rmap_in _ _ _ _ H Hp) as ([k r] & Hin & E). cbn in E. eapply normal_fits; [|exact E]. apply (F4 k).
    assert (G : (k, r) ∈ pairs_sorted (f_pairs st)).
    { rewrite <- elem_of_list_In in Hin. apply elem_of_take in Hin as (i & Hin & _). apply elem_of_list_lookup_2 in Hin. destruct s; [|exact Hin].
      rewrite elem_of_list_In in *. apply filter_In in Hin. tauto. }
    unfold pairs_sorted in G. rewrite (merge_sort_Permutation key_le) in G. apply elem_of_map_to_list in G. exact G.
  - unfold factory_query_native in H. apply oget_ok in H. apply N.ltb_lt. eapply F3; exact H.
Qed.

(** ** Questions and answers together *)
Lemma from_render {X} (r : json -> option X) v : from_bytes r (render v) = r v.
Proof. unfold from_bytes. rewrite parse_render. reflexivity. Qed.
Lemma answered_if (b : bool) q k : (b = false -> exists e, k q = Err e) ->
  answered (if b && query_fits q then Some q else None) k = if query_fits q then match k q with Ok x => Some (render (w_answer x)) | Err _ => None end else None.
Proof. intros H. destruct b; [destruct (query_fits q); reflexivity|]. cbn [andb answered obind]. destruct (H eq_refl) as (e & ->). destruct (query_fits q); reflexivity. Qed.
Lemma smart_eq C w a q :
  smart C w a (render (w_query q)) = if query_fits q then match asked C w a q with Ok x => Some (render (w_answer x)) | Err _ => None end else None.
Proof.
  unfold smart, asked. destruct (contract_at C w a) as [[a' [st|st|st|st|k d]]|e]; rewrite ?from_render.
  - rewrite rw_pair_query. apply answered_if. destruct q; try discriminate; intros _; eexists; reflexivity.
  - rewrite rw_factory_query. apply answered_if. destruct q; try discriminate; intros _; eexists; reflexivity.
  - rewrite rw_router_query. apply answered_if. destruct q; try discriminate; intros _; eexists; reflexivity.
  - rewrite rw_token_query. apply answered_if. destruct q; try discriminate; intros _; eexists; reflexivity.
  - destruct (query_fits q); reflexivity.
  - destruct (query_fits q); reflexivity.
Qed.
Lemma question_eq {X} C w a q (r : json -> option X) :
  question C w a q r = if query_fits q then match asked C w a q with Ok x => r (w_answer x) | Err _ => None end else None.
Proof.
  unfold question. rewrite smart_eq. destruct (query_fits q); [|reflexivity]. destruct (asked C w a q) as [x|e]; [|reflexivity]. cbn [obind]. apply from_render.
Qed.
Lemma asked_fits C w a q x : chain_ok C -> reachable C w -> asked C w a q = Ok x -> answer_fits x = true.
Proof.
  intros OK R H. pose proof (reachable_main C OK w R) as M. pose proof (reachable_fits C w OK R) as F. unfold asked in H.
  destruct (contract_at C w a) as [[a' s]|e] eqn:E; [|discriminate]. apply contract_state in E as [_ E]. destruct s as [st|st|st|st|k d].
  - eapply pair_answer_fits; eauto.
  - eapply factory_answer_fits; eauto.
  - eapply router_answer_fits; eauto.
  - eapply token_answer_fits; eauto.
  - discriminate.
Qed.
Lemma asked_shape C w a q x v : asked C w a q = Ok x -> r_answer (is_router C w a) q v = read_as x v.
Proof.
  unfold asked, is_router. destruct (contract_at C w a) as [[a' [st|st|st|st|k d]]|e]; try discriminate;
    destruct q; cbn [pair_query factory_query router_query token_query]; try discriminate;
    intros H; unfold give in H; apply rbind_ok in H as (y & _ & H); injection H as <-; reflexivity.
Qed.

(** ** C88 *)

(** The bytes of a query are read by the contract it is meant for as that query,
    provided its numbers fit into their fields, and by no other contract as
    anything but a query of the same wording. *)
Theorem C88_questions_survive q :
  from_bytes r_pair_query (render (w_query q)) = (if pair_q q && query_fits q then Some q else None) /\
  from_bytes r_factory_query (render (w_query q)) = (if factory_q q && query_fits q then Some q else None) /\
  from_bytes r_router_query (render (w_query q)) = (if router_q q && query_fits q then Some q else None) /\
  from_bytes r_token_query (render (w_query q)) = (if token_q q && query_fits q then Some q else None).
Proof. rewrite !from_render, rw_pair_query, rw_factory_query, rw_router_query, rw_token_query. auto. Qed.

(** Asking over the wire tells exactly what the contract answers: nothing is lost
    or changed on the way there or back, in any state the chain can reach. *)
Theorem C88_query_bytes C w a q : chain_ok C -> reachable C w ->
  question C w a q (r_answer (is_router C w a) q) = if query_fits q then ok (asked C w a q) else None.
Proof.
  intros OK R. rewrite question_eq. destruct (query_fits q); [|reflexivity]. destruct (asked C w a q) as [x|e] eqn:E; [|reflexivity].
  rewrite (asked_shape C w a q x _ E). cbn [ok]. apply rw_answer. eapply asked_fits; eauto.
Qed.

(** The questions the contracts ask each other over the wire are answered by what
    the model takes the answers to be. *)
Lemma amap_inj {X} (f : X -> answer) o x : (forall y z, f y = f z -> y = z) -> amap f o = Some (f x) -> o = Some x.
Proof. intros I. destruct o as [y|]; cbn [amap]; [|discriminate]. intros H. injection H as H. apply I in H. congruence. Qed.
Theorem C88_asking_is_knowing C w a : chain_ok C -> reachable C w -> ours C w a ->
  (forall acc, x_token_balance C w a acc = ok (ask_token_balance C w a acc)) /\
  x_token_info C w a = ok (ask_token_info C w a) /\
  (forall d, x_native_decimals C w a d = ok (ask_native_decimals C w a d)) /\
  (forall i, x_pair_info C w a i = ok (ask_pair_info C w a i)) /\
  (forall x, x_simulate C w a x = ok (ask_simulate C w a x)) /\
  (forall x, x_reverse C w a x = ok (ask_reverse C w a x)) /\
  x_pair_self C w a = ok (ask_pair_self C w a).
Proof.
  intros OK R O.
  assert (G : forall X (f : X -> answer) q (r : json -> option X) (m : res X),
    (forall y z, f y = f z -> y = z) -> (forall x v, read_as (f x) v = amap f (r v)) ->
    (query_fits q = true -> asked C w a q = give f m \/ (exists e e', asked C w a q = Err e /\ m = Err e')) -> (query_fits q = false -> exists e, m = Err e) ->
    question C w a q r = ok m).
  { intros X f q r m I Hr Hq Hn. rewrite question_eq. destruct (query_fits q) eqn:Eq.
    - destruct (Hq eq_refl) as [E|(e & e' & -> & ->)]; [|reflexivity]. rewrite E. destruct m as [x|e]; cbn [give rbind]; [|reflexivity].
      cbn [ok]. apply (amap_inj f); [exact I|]. rewrite <- (Hr x). change (w_answer (f x)) with (w_answer (f x)). apply rw_answer. eapply asked_fits; eauto.
    - destruct (Hn eq_refl) as (e & ->). reflexivity. }
  assert (K : exists e, contract_at C w a = Err e \/ exists a' s, contract_at C w a = Ok (a', s) /\ (forall k d, s <> SAdv k d)).
  { destruct (contract_at C w a) as [[a' s]|e] eqn:E; [|exists e; left; reflexivity]. exists ENotFound. right. exists a', s. split; [reflexivity|]. intros k d ->. exact (O a' k d E). }
  destruct K as (e0 & [K|(a' & s & K & N)]).
  - unfold asked in G. rewrite K in G.
    repeat split; intros;
      [eapply (G _ ABalance)|eapply (G _ ATokenInfo)|eapply (G _ ADecimals)|eapply (G _ APairInfo)|eapply (G _ ASimulation)|eapply (G _ AReverse)|eapply (G _ APairInfo)];
      try (intros y z Y; injection Y as <-; reflexivity); try (intros; reflexivity);
      unfold ask_token_balance, ask_token_info, ask_native_decimals, ask_pair_info, ask_simulate, ask_reverse, ask_pair_self; rewrite K; cbn [rbind]; eauto.
  - unfold asked in G. rewrite K in G.
    repeat split; intros;
      [eapply (G _ ABalance)|eapply (G _ ATokenInfo)|eapply (G _ ADecimals)|eapply (G _ APairInfo)|eapply (G _ ASimulation)|eapply (G _ AReverse)|eapply (G _ APairInfo)];
      try (intros y z Y; injection Y as <-; reflexivity); try (intros; reflexivity);
      unfold ask_token_balance, ask_token_info, ask_native_decimals, ask_pair_info, ask_simulate, ask_reverse, ask_pair_self; rewrite K; cbn [rbind].
    all: destruct s as [z1|z1|z1|z1|z1 z2]; try (exfalso; exact (N z1 z2 eq_refl)); eauto 6.
    all: cbn [query_fits]; intros U; cbn [pair_query pair_query_simulation pair_query_reverse_simulation]; unfold pair_query_simulation, pair_query_reverse_simulation, u128_ok; rewrite ?U; cbn [negb]; try discriminate U; eauto.
Qed.

(** Whatever bytes are answered, they stand for a query in range, and the answer
    is the answer to that query. *)
Lemma limit_field g n o : opt_field g n (r_num B32) = Some o -> match o with Some k => k <? B32 | None => true end = true.
Proof. apply (opt_ok (r_num B32) (fun k => k <? B32)). intros v a. apply r_num_ok. Qed.
Lemma r_asset_ok v a : r_asset v = Some a -> u128_ok (a_amount a) = true.
Proof. Local Transparent r_asset. unfold r_asset. intros H. readers. assumption. Qed.
Local Opaque r_asset.
Ltac query_read v :=
  unfold tagged; destruct v as [| | | |[|[t c] []]]; try discriminate;
  repeat match goal with |- (if String.eqb t ?s then _ else _) = _ -> _ => destruct (String.eqb t s) end; try discriminate;
  intros H; readers; cbn [query_fits]; try reflexivity; try assumption.
Lemma pair_query_read v q : r_pair_query v = Some q -> query_fits q = true.
Proof. unfold r_pair_query. query_read v; match goal with X : required _ _ r_asset = Some _ |- _ => apply required_some in X as [? X]; apply r_asset_ok in X; exact X end. Qed.
Lemma factory_query_read v q : r_factory_query v = Some q -> query_fits q = true.
Proof. unfold r_factory_query. query_read v. match goal with X : opt_field _ _ (r_num B32) = Some _ |- _ => apply limit_field in X; exact X end. Qed.
Lemma router_query_read v q : r_router_query v = Some q -> query_fits q = true.
Proof. unfold r_router_query. query_read v. Qed.
Lemma token_query_read v q : r_token_query v = Some q -> query_fits q = true.
Proof. unfold r_token_query. query_read v; match goal with X : opt_field _ _ (r_num B32) = Some _ |- _ => apply limit_field in X; exact X end. Qed.
Theorem C88_answered_bytes C w a b r : smart C w a b = Some r ->
  exists q x, query_fits q = true /\ asked C w a q = Ok x /\ r = render (w_answer x) /\ smart C w a (render (w_query q)) = Some r.
Proof.
  intros H. assert (G : exists q x, query_fits q = true /\ asked C w a q = Ok x /\ r = render (w_answer x)).
  { unfold smart, asked in *. destruct (contract_at C w a) as [[a' [st|st|st|st|k d]]|e]; try discriminate; unfold answered, from_bytes in H;
      destruct (parse b) as [v|]; try discriminate; cbn [obind] in H; apply obind_some in H as (q & Hq & H); match type of H with (match ?y with Ok _ => _ | Err _ => _ end) = _ => destruct y as [x|e] eqn:E end; try discriminate; injection H as <-; exists q, x.
    - split; [exact (pair_query_read _ _ Hq)|auto].
    - split; [exact (factory_query_read _ _ Hq)|auto].
    - split; [exact (router_query_read _ _ Hq)|auto].
    - split; [exact (token_query_read _ _ Hq)|auto]. }
  destruct G as (q & x & F & E & ->). exists q, x. split; [exact F|]. split; [exact E|]. split; [reflexivity|]. rewrite smart_eq, F, E. reflexivity.
Qed.

(** *** Case: the example world, asked in JSON *)
Local Transparent r_reqs w_reqs w_op r_op w_asset r_asset w_exp r_exp r_list w_list w_info r_info w_u128 r_u128 w_num r_num w_str r_str r_two.
Definition dialogue : list (string * string * string) := [
  ("#4", "{""simulation"":{""offer_asset"":{""info"":{""token"":{""contract_addr"":""#1""}},""amount"":""1000000""}}}",
   "{""return_amount"":""1812727"",""spread_amount"":""181819"",""commission_amount"":""5454""}");
  ("#4", "{""reverse_simulation"":{""ask_asset"":{""info"":{""native_token"":{""denom"":""uaura""}},""amount"":""1000000""}}}",
   "{""offer_amount"":""527983"",""spread_amount"":""52957"",""commission_amount"":""3009""}");
  ("#4", "{""pool"":{}}",
   "{""assets"":[{""info"":{""token"":{""contract_addr"":""#1""}},""amount"":""10000000""},{""info"":{""native_token"":{""denom"":""uaura""}},""amount"":""20000000""}],""total_share"":""14142135""}");
  ("#0", "{""config"":{}}", "{""owner"":""alice"",""pair_code_id"":1,""token_code_id"":2}");
  ("#0", "{""pair"":{""asset_infos"":[{""native_token"":{""denom"":""uaura""}},{""token"":{""contract_addr"":""#1""}}]}}",
   "{""asset_infos"":[{""token"":{""contract_addr"":""#1""}},{""native_token"":{""denom"":""uaura""}}],""contract_addr"":""#4"",""liquidity_token"":""#5"",""asset_decimals"":[6,6],""requirements"":{""whitelist"":[""alice""],""first_asset_minimum"":""1000"",""second_asset_minimum"":""1000""}}");
  ("#0", "{""native_token_decimals"":{""denom"":""uaura""}}", "{""decimals"":6}");
  ("#3", "{""config"":{}}", "{""halo_factory"":""#0""}");
  ("#3", "{""simulate_swap_operations"":{""offer_amount"":""1000000"",""operations"":[{""halo_swap"":{""offer_asset_info"":{""token"":{""contract_addr"":""#2""}},""ask_asset_info"":{""token"":{""contract_addr"":""#1""}}}}]}}",
   "{""amount"":""321613""}");
  ("#1", "{""token_info"":{}}", "{""name"":""token one"",""symbol"":""TOKA"",""decimals"":6,""total_supply"":""1001000000000""}");
  ("#5", "{""minter"":{}}", "{""minter"":""#4"",""cap"":null}");
  ("#1", "{""all_accounts"":{}}", "{""accounts"":[""#4"",""#6"",""alice"",""bob""]}")]%string.
Example C88_case_dialogue : map (fun d => smart ex_chain ex_world (fst (fst d)) (snd (fst d))) dialogue = map (fun d => Some (snd d)) dialogue.
Proof. vm_compute. reflexivity. Qed.
(** Questions that the contract does not know are refused. *)
Example C88_case_refused : map (fun p => smart ex_chain ex_world (fst p) (snd p))
  [("#0", "{""pool"":{}}"); ("#4", "{""config"":{}}"); ("#1", "{""balance"":{}}"); ("#0", "{""pairs"":{""limit"":4294967296}}")]%string = [None; None; None; None].
Proof. vm_compute. reflexivity. Qed.
(** The theorems apply to it. *)
Example C88_case : x_token_balance ex_chain ex_world "#1" "#4" = Some 10000000 /\
  question ex_chain ex_world "#0" (QPairs None (Some 1)) (r_answer false (QPairs None (Some 1))) <> None.
Proof.
  split.
  - rewrite (proj1 (C88_asking_is_knowing ex_chain ex_world "#1" ex_chain_ok ex_reachable ltac:(intros a' k d; vm_compute; discriminate))). vm_compute. reflexivity.
  - pose proof (C88_query_bytes ex_chain ex_world "#0" (QPairs None (Some 1)) ex_chain_ok ex_reachable) as H.
    replace (is_router ex_chain ex_world "#0") with false in H by (vm_compute; reflexivity). rewrite H. vm_compute. discriminate.
Qed.
