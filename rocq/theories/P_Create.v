(** Exactly when CreatePair succeeds, and what it creates (C60). *)
From Verif Require Import Base BigNumber CwStd BigNumberFacts Asset Messages PairMath Pair PairFacts Token Factory Router
  SwapFacts SwapFacts2 P_Swap P_Pair FactoryFacts P_Factory P_Router TokenFacts World WorldInd WorldFacts WorldInv WorldInd2
  Examples WorldExamples P_Ledger P_Registry ExecFacts P_Exec.
From Coq Require Import ZifyN.
Local Open Scope N_scope.
Ltac Zify.zify_post_hook ::= idtac.

(** ** Specification *)

(** The number of decimals of an asset: recorded in the factory for a native
    coin, in the token contract for a token. *)
Definition decimals_of (w : world) (fs : factory_state) (i : asset_info) (d : N) : Prop :=
  match i with
  | Native n => f_native fs !! n = Some d
  | Token t => exists ts, tok_at w t ts /\ tk_decimals ts = d
  end.

(** A new LP token: nothing minted yet, and only the pair can mint. *)
Definition empty_lp (p : string) : token_state :=
  TokenState "halo liquidity token" "uLP" 6 0 (Some (p, None)) ∅ ∅.

(** ** Execution *)
Section create.
  Context (C : chain) (OK : chain_ok C).
  Local Notation A := (ch_api C).

  Definition upto {X} (k f : nat) (v : X) : res X := if (k <=? f)%nat then Ok v else Err EFuel.

  Lemma fresh_canon n : exists c, canon A (ch_fresh C n) = Some c /\ human A c = Some (ch_fresh C n).
  Proof.
    pose proof (fresh_norm C OK n) as H. unfold norm in H. destruct (canon A (ch_fresh C n)) as [c|]; [|discriminate]. eauto.
  Qed.

  Lemma lp_exec f w p tc : norm A p = Some p -> ch_codes C tc = Some CToken -> 
    exec C f w p (MInstantiate None tc (IToken (TokenInit "halo liquidity token" "uLP" 6 [] (Some (p, None)))) [] "lp") =
    upto 2 f (set_insts (set_next w (w_next w + 1)) (<[ch_fresh C (w_next w) := Inst None (SToken (empty_lp p))]> (w_insts w)),
             Some (ch_fresh C (w_next w)), []).
  Proof.
    intros Np Hc. destruct f as [|f]; [reflexivity|]. rewrite exec_eq, Hc. cbn [oget rbind]. rewrite bank_send_none. cbn [rbind init].
    assert (E : token_instantiate A (TokenInit "halo liquidity token" "uLP" 6 [] (Some (p, None))) = Ok (empty_lp p, Response [] [])).
    { unfold token_instantiate.
      replace (token_init_ranges _) with true by reflexivity. cbn [negb].
      replace (token_validate _) with (Ok tt) by (vm_compute; reflexivity). cbn [rbind in_balances].
      replace (create_accounts A []) with (Ok (∅ : gmap string uint128, 0 : uint128)) by reflexivity. cbn [rbind in_mint get_cap in_name in_symbol in_decimals].
      rewrite (proj2 (addr_validate_ok A p p) (conj eq_refl Np)). reflexivity. }
    rewrite E. cbn [wrap rbind rs_msgs]. destruct f as [|f]; [reflexivity|]. rewrite run_nil. reflexivity.
  Qed.

  (** the worlds after the pair and its LP token have been created by [f] *)
  Definition with_pair (w : world) (f : string) (st : pair_info_raw) : world :=
    let a1 := ch_fresh C (w_next w) in let a2 := ch_fresh C (w_next w + 1) in
    World (w_bank w) (<[a1 := Inst (Some f) (SPair st)]> (<[a2 := Inst None (SToken (empty_lp a1))]> (w_insts w))) (w_next w + 2) (w_block w).

  Lemma pair_exec g w f pc tc i0 i1 r0 r1 d0 d1 reqs c1 c2 : norm A f = Some f ->
    ch_codes C pc = Some CPair -> ch_codes C tc = Some CToken ->
    info_to_raw A i0 = Ok r0 -> info_to_raw A i1 = Ok r1 -> u64_ok tc = true -> u8_ok d0 = true -> u8_ok d1 = true -> reqs_ranges reqs = true ->
    canon A (ch_fresh C (w_next w)) = Some c1 -> canon A (ch_fresh C (w_next w + 1)) = Some c2 ->
    exec C g w f (MInstantiate (Some f) pc (IPair (i0, i1) tc (d0, d1) reqs) [] "pair") =
    upto 4 g (with_pair w f (PairInfoRaw (r0, r1) c1 c2 (d0, d1) reqs), Some (ch_fresh C (w_next w)), []).
  Proof.
    intros Nf Hpc Htc E0 E1 B1 B2 B3 B4 H1 H2. destruct g as [|g]; [reflexivity|]. rewrite exec_eq, Hpc. cbn [oget rbind]. rewrite Nf. cbn [oget rbind].
    rewrite bank_send_none. cbn [rbind init fst snd]. rewrite B1, B2, B3, B4. cbn [andb]. unfold pair_instantiate, addr_canonicalize. cbn [fst snd].
    rewrite H1, E0, E1. cbn [oget rbind wrap rs_msgs]. destruct g as [|g]; [reflexivity|]. rewrite run_cons. cbn [sm_reply sm_msg].
    rewrite lp_exec; [|apply (fresh_norm C OK)|exact Htc]. unfold upto. cbn [Nat.leb].
    destruct g as [|[|g]]; [reflexivity|reflexivity|]. cbn [Nat.leb w_next w_insts set_insts set_next].
    set (a1 := ch_fresh C (w_next w)) in *. set (a2 := ch_fresh C (w_next w + 1)) in *.
    assert (Hne : a1 <> a2) by (intros X; apply (fresh_inj C OK) in X; lia).
    rewrite lookup_insert_ne by congruence. rewrite lookup_insert. cbn [oget rbind reply i_state].
    unfold pair_reply, addr_canonicalize. rewrite H2. cbn [oget rbind wrap rs_msgs r_asset_infos r_contract_addr r_asset_decimals r_requirements].
    rewrite run_nil. cbn [rbind]. rewrite run_nil. cbn [rbind]. do 3 f_equal.
    unfold set_state, with_pair. cbn [w_insts set_insts set_next w_bank w_next w_block]. rewrite lookup_insert_ne by congruence. rewrite lookup_insert.
    fold a1 a2. unfold set_insts. cbn [w_bank w_next w_block i_admin]. f_equal; [|rewrite <- N.add_assoc; reflexivity].
    rewrite (insert_commute _ a2 a1) by congruence. rewrite insert_insert. reflexivity.
  Qed.

  Lemma pair_exec_ranges g w f pc i0 i1 tc d0 d1 reqs v : ch_codes C pc = Some CPair ->
    exec C g w f (MInstantiate (Some f) pc (IPair (i0, i1) tc (d0, d1) reqs) [] "pair") = Ok v ->
    u64_ok tc && u8_ok d0 && u8_ok d1 && reqs_ranges reqs = true.
  Proof.
    intros Hpc E. destruct g as [|g]; [rewrite exec_0 in E; discriminate|]. rewrite exec_eq, Hpc in E. cbn [oget rbind] in E.
    destruct (norm A f); [|discriminate]. cbn [oget rbind] in E. rewrite bank_send_none in E. cbn [rbind init fst snd] in E.
    destruct (u64_ok tc && u8_ok d0 && u8_ok d1 && reqs_ranges reqs); [reflexivity|discriminate].
  Qed.

  Lemma decimals_ok w f fs i d : sane C w -> fac_at w f fs -> live w i ->
    query_decimals (wq C w) i f = Ok d <-> decimals_of w fs i d.
  Proof.
    intros Sn Hf L. destruct i as [t|n]; cbn [query_decimals wq q_token_info q_native_decimals decimals_of].
    - destruct L as (ts & Ht). unfold ask_token_info, contract_at. rewrite (sane_norm C OK _ _ _ Sn Ht). cbn [oget rbind].
      pose proof Ht as Hi. apply state_at_inst in Hi as (ad & Hi). rewrite Hi. cbn [oget rbind i_state token_query_info ti_decimals]. split.
      + intros H. injection H as <-. eauto.
      + intros (ts' & Ht' & <-). unfold tok_at in *. rewrite Ht in Ht'. injection Ht' as <-. reflexivity.
    - unfold ask_native_decimals, contract_at. rewrite (sane_norm C OK _ _ _ Sn Hf). cbn [oget rbind].
      pose proof Hf as Hi. apply state_at_inst in Hi as (ad & Hi). rewrite Hi. cbn [oget rbind i_state]. unfold factory_query_native.
      destruct (f_native fs !! n); cbn [oget]; split; congruence.
  Qed.

  Lemma live_raw w i : sane C w -> live w i -> exists r, info_to_raw A i = Ok r /\ raw_to_normal A r = Ok i.
  Proof.
    intros Sn L. destruct i as [t|n]; cbn [info_to_raw].
    - destruct L as (ts & Ht). pose proof (sane_norm C OK _ _ _ Sn Ht) as Nt. unfold norm in Nt. unfold addr_canonicalize.
      destruct (canon A t) as [c|]; [|discriminate]. cbn [oget rbind]. eexists. split; [reflexivity|]. cbn [raw_to_normal]. unfold addr_humanize. rewrite Nt. reflexivity.
    - eexists. split; [reflexivity|]. reflexivity.
  Qed.

  (** the factory's storage afterwards *)
  Definition registered_pair (fs : factory_state) (r0 r1 : asset_info_raw) (d0 d1 : N) (p : pair_info_raw) : factory_state :=
    FactoryState (f_owner fs) (f_pair_code fs) (f_token_code fs) (f_native fs) (<[pair_key (r0, r1) := p]> (f_pairs fs))
      (Some (TmpPair (pair_key (r0, r1)) (r0, r1) (d0, d1))).

  Lemma create_exec g w f fs s i0 i1 r0 r1 d0 d1 reqs c1 c2 : sane C w -> fac_at w f fs ->
    ch_codes C (f_pair_code fs) = Some CPair -> ch_codes C (f_token_code fs) = Some CToken ->
    live w i0 -> live w i1 -> i0 <> i1 -> decimals_of w fs i0 d0 -> decimals_of w fs i1 d1 ->
    info_to_raw A i0 = Ok r0 -> info_to_raw A i1 = Ok r1 -> f_pairs fs !! pair_key (r0, r1) = None ->
    u64_ok (f_token_code fs) = true -> u8_ok d0 = true -> u8_ok d1 = true -> reqs_ranges reqs = true ->
    canon A (ch_fresh C (w_next w)) = Some c1 -> canon A (ch_fresh C (w_next w + 1)) = Some c2 ->
    let st := PairInfoRaw (r0, r1) c1 c2 (d0, d1) reqs in
    exists attrs,
    exec C g w s (MExecute f (JCreatePair (i0, i1) reqs) []) =
    upto 6 g (set_state (with_pair w f st) f (SFactory (registered_pair fs r0 r1 d0 d1 st)), None,
      [Event f s (JCreatePair (i0, i1) reqs) attrs [] w]).
  Proof.
    intros Sn Hf Hpc Htc L0 L1 Hne D0 D1 E0 E1 Hk B1 B2 B3 B4 H1 H2 st.
    apply (decimals_ok w f fs _ _ Sn Hf L0) in D0. apply (decimals_ok w f fs _ _ Sn Hf L1) in D1.
    pose proof (sane_norm C OK _ _ _ Sn Hf) as Nf.
    set (a1 := ch_fresh C (w_next w)) in *. set (a2 := ch_fresh C (w_next w + 1)) in *.
    assert (Hf1 : f <> a1). { intros X. pose proof (fresh_none C OK w (proj1 Sn)) as Y. fold a1 in Y. rewrite <- X in Y. apply state_at_inst in Hf as (ad & Hf). congruence. }
    assert (Hf2 : f <> a2).
    { intros X. pose proof Hf as Hi. apply state_at_inst in Hi as (ad & Hi). destruct (proj1 (proj1 Sn f)) as (n & L & Y); [rewrite Hi; eauto|].
      rewrite Y in X. apply (fresh_inj C OK) in X. lia. }
    assert (H12 : a1 <> a2) by (intros X; apply (fresh_inj C OK) in X; lia).
    eexists. destruct g as [|g]; [reflexivity|]. rewrite exec_eq, Nf. cbn [oget rbind]. rewrite bank_send_none. cbn [rbind].
    pose proof Hf as Hi. apply state_at_inst in Hi as (adm & Hi). rewrite Hi. cbn [oget rbind i_state call].
    unfold factory_execute. cbn [jmsg_ranges]. rewrite B4. cbn [negb]. unfold create_pair. cbn [fst snd].
    rewrite bool_decide_false by exact Hne. cbn [negb require rbind].
    rewrite D0, D1. cbn [or_invalid rbind]. rewrite E0, E1. cbn [rbind]. rewrite Hk. cbn [wrap rbind rs_msgs rs_attrs].
    set (fs1 := FactoryState _ _ _ _ _ _). destruct g as [|g]; [reflexivity|]. rewrite run_cons. cbn [sm_reply sm_msg].
    assert (En : w_next (set_state w f (SFactory fs1)) = w_next w) by apply set_state_next.
    rewrite (pair_exec _ _ f _ _ i0 i1 r0 r1 d0 d1 reqs c1 c2) by (rewrite ?En; auto).
    unfold upto. cbn [Nat.leb]. destruct g as [|[|[|[|g]]]]; try reflexivity. cbn [Nat.leb].
    fold st. rewrite En. fold a1.
    set (w2 := with_pair (set_state w f (SFactory fs1)) f st).
    assert (I2 : w_insts w2 = <[a1 := Inst (Some f) (SPair st)]> (<[a2 := Inst None (SToken (empty_lp a1))]> (<[f := Inst adm (SFactory fs1)]> (w_insts w)))).
    { unfold w2, with_pair. cbn [w_insts]. rewrite En. fold a1 a2. unfold set_state. rewrite Hi. reflexivity. }
    assert (If : w_insts w2 !! f = Some (Inst adm (SFactory fs1))).
    { rewrite I2, !lookup_insert_ne by congruence. apply lookup_insert. }
    rewrite If. cbn [oget rbind reply i_state]. unfold factory_reply. cbn [f_tmp fs1 oget rbind].
    assert (Q : q_pair_self (wq C w2) a1 = Ok (PairInfo (i0, i1) a1 a2 (d0, d1) reqs)).
    { cbn [wq q_pair_self]. unfold ask_pair_self, contract_at. assert (Na : norm A a1 = Some a1) by apply (fresh_norm C OK). rewrite Na. cbn [oget rbind]. rewrite I2, lookup_insert. cbn [oget rbind i_state].
      unfold pair_query_pair, pair_to_normal, addr_humanize. cbn [st r_liquidity_token r_contract_addr r_asset_infos r_asset_decimals r_requirements fst snd].
      destruct (fresh_canon (w_next w)) as (x1 & X1 & Y1). destruct (fresh_canon (w_next w + 1)) as (x2 & X2 & Y2).
      fold a1 in X1, Y1. fold a2 in X2, Y2. rewrite H1 in X1. injection X1 as <-. rewrite H2 in X2. injection X2 as <-. rewrite Y1, Y2. cbn [oget rbind].
      destruct (live_raw w i0 Sn L0) as (q0 & U0 & V0). destruct (live_raw w i1 Sn L1) as (q1 & U1 & V1).
      rewrite E0 in U0. injection U0 as <-. rewrite E1 in U1. injection U1 as <-. rewrite V0, V1. reflexivity. }
    rewrite Q. cbn [rbind p_liquidity_token]. unfold addr_canonicalize. rewrite H1, H2. cbn [oget rbind wrap rs_msgs p_requirements f_owner f_pair_code f_token_code f_native f_pairs f_tmp t_key t_infos t_decimals fs1].
    rewrite run_nil. cbn [rbind]. rewrite run_nil. cbn [rbind app]. do 3 f_equal.
    unfold set_state at 1. rewrite If. cbn [i_admin].
    assert (I3 : w_insts (with_pair w f st) !! f = Some (Inst adm (SFactory fs))).
    { unfold with_pair. cbn [w_insts]. fold a1 a2. rewrite !lookup_insert_ne by congruence. exact Hi. }
    unfold set_state. rewrite I3. cbn [i_admin]. unfold set_insts. f_equal.
    - unfold w2, with_pair. cbn [w_bank]. unfold set_state. rewrite Hi. reflexivity.
    - rewrite I2. unfold with_pair. cbn [w_insts]. fold a1 a2. fold st.
      rewrite !(insert_commute _ f a1), !(insert_commute _ f a2) by congruence. rewrite insert_insert. reflexivity.
    - unfold w2, with_pair. cbn [w_next]. rewrite En. reflexivity.
    - unfold w2, with_pair. cbn [w_block]. unfold set_state. rewrite Hi. reflexivity.
  Qed.
End create.

(** ** C60 *)

Lemma unregistered_iff C w f fs i0 i1 r0 r1 : chain_ok C -> sane C w -> fac_at w f fs ->
  info_to_raw (ch_api C) i0 = Ok r0 -> info_to_raw (ch_api C) i1 = Ok r1 ->
  ask_pair_info C w f (i0, i1) = Err ENotFound <-> f_pairs fs !! pair_key (r0, r1) = None.
Proof.
  intros OK Sn Hf E0 E1. unfold ask_pair_info, contract_at. rewrite (sane_norm C OK _ _ _ Sn Hf). cbn [oget rbind].
  pose proof Hf as Hi. apply state_at_inst in Hi as (adm & Hi). rewrite Hi. cbn [oget rbind i_state].
  unfold factory_query_pair. cbn [fst snd]. rewrite E0, E1. cbn [rbind]. destruct (f_pairs fs !! pair_key (r0, r1)) as [p|]; cbn [oget rbind]; [|tauto].
  split; [|discriminate]. unfold pair_to_normal, addr_humanize.
  destruct (human _ (r_liquidity_token p)); [|discriminate]. cbn [oget rbind]. destruct (human _ (r_contract_addr p)); [|discriminate]. cbn [oget rbind].
  assert (X : forall r, raw_to_normal (ch_api C) r <> Err ENotFound).
  { intros [c|d]; cbn [raw_to_normal]; [|discriminate]. unfold addr_humanize. destruct (human _ c); discriminate. }
  pose proof (X (r_asset_infos p).1). pose proof (X (r_asset_infos p).2).
  destruct (raw_to_normal _ (r_asset_infos p).1); cbn [rbind]; [|congruence]. destruct (raw_to_normal _ (r_asset_infos p).2); cbn [rbind]; congruence.
Qed.

(** CreatePair, by anybody, for two assets that are native coins or tokens of
    /repo, when the factory is configured with the pair and token code of /repo:
    it succeeds if and only if the assets differ, their decimals are known, the
    numbers fit their types, and the factory finds no pair for them. *)
Theorem C60_create_pair_iff C w f fs s i0 i1 reqs : chain_ok C -> reachable C w -> fac_at w f fs ->
  ch_codes C (f_pair_code fs) = Some CPair -> ch_codes C (f_token_code fs) = Some CToken -> live w i0 -> live w i1 ->
  (exists w', succeeds C w s (MExecute f (JCreatePair (i0, i1) reqs) []) w') <->
  i0 <> i1 /\ (exists d0 d1, decimals_of w fs i0 d0 /\ decimals_of w fs i1 d1 /\ d0 < 256 /\ d1 < 256) /\
  f_token_code fs < 2 ^ 64 /\ first_asset_minimum reqs < 2 ^ 128 /\ second_asset_minimum reqs < 2 ^ 128 /\
  ask_pair_info C w f (i0, i1) = Err ENotFound.
Proof.
  intros OK Hr Hf Hpc Htc L0 L1. pose proof (main_sane C w (reachable_main C OK w Hr)) as Sn.
  destruct (live_raw C OK w i0 Sn L0) as (r0 & E0 & _). destruct (live_raw C OK w i1 Sn L1) as (r1 & E1 & _).
  rewrite (unregistered_iff C w f fs i0 i1 r0 r1) by assumption. split.
  - intros (w' & k & Hk). destruct (Hk (S k)) as (lg & E); [lia|]. rewrite exec_eq, (sane_norm C OK _ _ _ Sn Hf) in E. cbn [oget rbind] in E.
    rewrite bank_send_none in E. cbn [rbind] in E. pose proof Hf as Hi. apply state_at_inst in Hi as (adm & Hi). rewrite Hi in E. cbn [oget rbind i_state call] in E.
    apply rbind_ok in E as ([st rsp] & Ec & E). apply rbind_ok in Ec as ([st' rsp'] & Ec & X). injection X as <- <-.
    unfold factory_execute in Ec. cbn [jmsg_ranges] in Ec. destruct (reqs_ranges reqs) eqn:Br; cbn [negb] in Ec; [|discriminate].
    apply create_pair_inv in Ec as (d0 & d1 & r0' & r1' & Hne & D0 & D1 & E0' & E1' & Hn & -> & Em). cbn [fst snd] in *.
    rewrite E0 in E0'. injection E0' as <-. rewrite E1 in E1'. injection E1' as <-.
    apply rbind_ok in E as ([w2 lg2] & Er & _). rewrite Em in Er. destruct k as [|k]; [rewrite run_0 in Er; discriminate|]. rewrite run_cons in Er. cbn [sm_reply sm_msg] in Er.
    apply rbind_ok in Er as (z & Ez & _). destruct (exec C k _ f _) as [v|] eqn:Ee in Ez; [|discriminate]. apply pair_exec_ranges in Ee; [|exact Hpc].
    apply andb_true_iff in Ee as [Ee _]. apply andb_true_iff in Ee as [Ee B3]. apply andb_true_iff in Ee as [B1 B2].
    apply (decimals_ok C OK w f fs _ _ Sn Hf L0) in D0. apply (decimals_ok C OK w f fs _ _ Sn Hf L1) in D1.
    unfold reqs_ranges, u128_ok in Br. apply andb_true_iff in Br as [Br1 Br2]. unfold u8_ok in B2, B3. unfold u64_ok in B1.
    apply N.ltb_lt in B1, B2, B3, Br1, Br2. split; [exact Hne|]. split; [exists d0, d1; auto|]. exact (conj B1 (conj Br1 (conj Br2 Hn))).
  - intros (Hne & (d0 & d1 & D0 & D1 & R0 & R1) & B1 & M0 & M1 & Hn).
    destruct (fresh_canon C OK (w_next w)) as (c1 & H1 & _). destruct (fresh_canon C OK (w_next w + 1)) as (c2 & H2 & _).
    eexists. exists 6%nat. intros g Hg.
    destruct (create_exec C OK g w f fs s i0 i1 r0 r1 d0 d1 reqs c1 c2) as (at_ & E); try assumption; try (apply N.ltb_lt; assumption).
    { unfold reqs_ranges, u128_ok. apply andb_true_iff. split; apply N.ltb_lt; assumption. }
    eexists. rewrite E. unfold upto. rewrite (proj2 (Nat.leb_le 6 g) Hg). reflexivity.
Qed.

(** What it creates: a pair and its LP token at two addresses not used before,
    and an entry of the registry; the Pair queries of the factory and of the pair
    describe them truthfully; nothing else changes. *)
Theorem C60_create_pair_effect C w f fs s i0 i1 reqs g w' x lg : chain_ok C -> reachable C w -> fac_at w f fs ->
  ch_codes C (f_pair_code fs) = Some CPair -> ch_codes C (f_token_code fs) = Some CToken -> live w i0 -> live w i1 ->
  exec C g w s (MExecute f (JCreatePair (i0, i1) reqs) []) = Ok (w', x, lg) ->
  let p := ch_fresh C (w_next w) in let lp := ch_fresh C (w_next w + 1) in
  exists d0 d1 st fs', decimals_of w fs i0 d0 /\ decimals_of w fs i1 d1 /\
  w_insts w !! p = None /\ w_insts w !! lp = None /\ p <> lp /\
  w_insts w' !! p = Some (Inst (Some f) (SPair st)) /\ w_insts w' !! lp = Some (Inst None (SToken (empty_lp p))) /\ fac_at w' f fs' /\
  ask_pair_self C w' p = Ok (PairInfo (i0, i1) p lp (d0, d1) reqs) /\
  ask_pair_info C w' f (i0, i1) = Ok (PairInfo (i0, i1) p lp (d0, d1) reqs) /\
  ask_pair_info C w' f (i1, i0) = Ok (PairInfo (i0, i1) p lp (d0, d1) reqs) /\
  (forall j0 j1 q, ask_pair_info C w f (j0, j1) = Ok q -> ask_pair_info C w' f (j0, j1) = Ok q) /\
  f_owner fs' = f_owner fs /\ f_pair_code fs' = f_pair_code fs /\ f_token_code fs' = f_token_code fs /\ f_native fs' = f_native fs /\
  w_bank w' = w_bank w /\ forall a, a <> p -> a <> lp -> a <> f -> w_insts w' !! a = w_insts w !! a.
Proof.
  intros OK Hr Hf Hpc Htc L0 L1 E p lp. pose proof (main_sane C w (reachable_main C OK w Hr)) as Sn. pose proof E as E'.
  destruct (live_raw C OK w i0 Sn L0) as (r0 & E0 & V0). destruct (live_raw C OK w i1 Sn L1) as (r1 & E1 & V1).
  assert (HX : i0 <> i1 /\ exists d0 d1, decimals_of w fs i0 d0 /\ decimals_of w fs i1 d1 /\ u64_ok (f_token_code fs) = true /\ u8_ok d0 = true /\ u8_ok d1 = true /\ reqs_ranges reqs = true /\ f_pairs fs !! pair_key (r0, r1) = None).
  { clear E'. destruct g as [|g]; [rewrite exec_0 in E; discriminate|]. rewrite exec_eq, (sane_norm C OK _ _ _ Sn Hf) in E. cbn [oget rbind] in E.
    rewrite bank_send_none in E. cbn [rbind] in E. pose proof Hf as Hi. apply state_at_inst in Hi as (adm & Hi). rewrite Hi in E. cbn [oget rbind i_state call] in E.
    apply rbind_ok in E as ([st rsp] & Ec & E). apply rbind_ok in Ec as ([st' rsp'] & Ec & X). injection X as <- <-.
    unfold factory_execute in Ec. cbn [jmsg_ranges] in Ec. destruct (reqs_ranges reqs) eqn:Br; cbn [negb] in Ec; [|discriminate].
    apply create_pair_inv in Ec as (d0 & d1 & r0' & r1' & Hne & D0 & D1 & E0' & E1' & Hn & -> & Em). cbn [fst snd] in *.
    rewrite E0 in E0'. injection E0' as <-. rewrite E1 in E1'. injection E1' as <-.
    apply rbind_ok in E as ([w2 lg2] & Er & _). rewrite Em in Er. destruct g as [|g]; [rewrite run_0 in Er; discriminate|]. rewrite run_cons in Er. cbn [sm_reply sm_msg] in Er.
    apply rbind_ok in Er as (z & Ez & _). destruct (exec C g _ f _) as [v|] eqn:Ee in Ez; [|discriminate]. apply pair_exec_ranges in Ee; [|exact Hpc].
    apply andb_true_iff in Ee as [Ee _]. apply andb_true_iff in Ee as [Ee B3]. apply andb_true_iff in Ee as [B1 B2].
    apply (decimals_ok C OK w f fs _ _ Sn Hf L0) in D0. apply (decimals_ok C OK w f fs _ _ Sn Hf L1) in D1.
    split; [exact Hne|]. exists d0, d1. auto 10. }
  destruct HX as (Hne & d0 & d1 & D0 & D1 & B1 & B2 & B3 & B4 & Hk).
  destruct (fresh_canon C OK (w_next w)) as (c1 & H1 & Y1). destruct (fresh_canon C OK (w_next w + 1)) as (c2 & H2 & Y2).
  set (st := PairInfoRaw (r0, r1) c1 c2 (d0, d1) reqs).
  destruct (create_exec C OK g w f fs s i0 i1 r0 r1 d0 d1 reqs c1 c2) as (at_ & Ex); auto. rewrite Ex in E'. fold st in E'. clear Ex E.
  unfold upto in E'. destruct (6 <=? g)%nat; [|discriminate]. injection E' as <- _ _.
  set (fs' := registered_pair fs r0 r1 d0 d1 st).
  pose proof (fresh_none C OK w (proj1 Sn)) as F1. fold p in F1.
  assert (F2 : w_insts w !! lp = None).
  { destruct (w_insts w !! lp) eqn:X; [|reflexivity]. destruct (proj1 (proj1 Sn lp)) as (n & L & Y); [rewrite X; eauto|]. unfold lp in Y. apply (fresh_inj C OK) in Y. lia. }
  assert (Hpl : p <> lp) by (intros X; apply (fresh_inj C OK) in X; lia).
  pose proof Hf as Hi. apply state_at_inst in Hi as (adm & Hi).
  assert (Hfp : f <> p) by congruence. assert (Hfl : f <> lp) by congruence.
  set (w' := set_state (with_pair C w f st) f (SFactory fs')).
  assert (I0 : w_insts (with_pair C w f st) !! f = Some (Inst adm (SFactory fs))).
  { unfold with_pair. cbn [w_insts]. fold p lp. rewrite !lookup_insert_ne by congruence. exact Hi. }
  assert (I' : w_insts w' = <[f := Inst adm (SFactory fs')]> (<[p := Inst (Some f) (SPair st)]> (<[lp := Inst None (SToken (empty_lp p))]> (w_insts w)))).
  { unfold w', set_state. rewrite I0. reflexivity. }
  assert (Ip : w_insts w' !! p = Some (Inst (Some f) (SPair st))) by (rewrite I', lookup_insert_ne, lookup_insert by congruence; reflexivity).
  assert (Il : w_insts w' !! lp = Some (Inst None (SToken (empty_lp p)))) by (rewrite I', !lookup_insert_ne, lookup_insert by congruence; reflexivity).
  assert (Iff : w_insts w' !! f = Some (Inst adm (SFactory fs'))) by (rewrite I', lookup_insert; reflexivity).
  assert (Pn : pair_to_normal (ch_api C) st = Ok (PairInfo (i0, i1) p lp (d0, d1) reqs)).
  { unfold pair_to_normal, addr_humanize. cbn [st r_liquidity_token r_contract_addr r_asset_infos r_asset_decimals r_requirements fst snd].
    rewrite Y1, Y2. cbn [oget rbind]. rewrite V0, V1. reflexivity. }
  assert (Nf : norm (ch_api C) f = Some f) by (eapply sane_norm; eauto). assert (Np : norm (ch_api C) p = Some p) by apply (fresh_norm C OK).
  assert (Qp : ask_pair_info C w' f (i0, i1) = Ok (PairInfo (i0, i1) p lp (d0, d1) reqs)).
  { unfold ask_pair_info, contract_at. rewrite Nf. cbn [oget rbind]. rewrite Iff. cbn [oget rbind i_state]. unfold factory_query_pair. cbn [fst snd]. rewrite E0, E1. cbn [rbind].
    cbn [f_pairs fs' registered_pair]. rewrite lookup_insert. cbn [oget rbind]. exact Pn. }
  exists d0, d1, st, fs'. do 7 (split; [assumption|]).
  split; [unfold fac_at, state_at; rewrite Iff; reflexivity|].
  split. { unfold ask_pair_self, contract_at. rewrite Np. cbn [oget rbind]. rewrite Ip. exact Pn. }
  split; [exact Qp|]. split.
  { rewrite <- Qp. unfold ask_pair_info, contract_at. rewrite Nf. cbn [oget rbind]. rewrite Iff. cbn [oget rbind i_state]. eapply C21_lookup_order_irrelevant; eauto. }
  split.
  { intros j0 j1 q. unfold ask_pair_info, contract_at. rewrite Nf. cbn [oget rbind]. rewrite Iff, Hi. cbn [oget rbind i_state]. unfold factory_query_pair. cbn [fst snd].
    destruct (info_to_raw _ j0); [|discriminate]. destruct (info_to_raw _ j1); [|discriminate]. cbn [rbind]. cbn [f_pairs fs' registered_pair].
    match goal with |- context [f_pairs fs !! ?k] => destruct (decide (k = pair_key (r0, r1))) as [->|X] end; [rewrite Hk; discriminate|].
    rewrite lookup_insert_ne by congruence. auto. }
  do 4 (split; [reflexivity|]). split; [unfold w', set_state; rewrite I0; reflexivity|].
  intros a A1 A2 A3. rewrite I', !lookup_insert_ne by congruence. reflexivity.
Qed.

(** Bob creates the pair of token #2 and uaura; a second one, one of tokens that
    have a pair, and one of an unknown coin are refused. *)
Example C60_case :
  let fs := fac_of ex_world "#0" in let r := Requirements ["bob"%string] 5 7 in
  let tx i j := (false, x_call "#0" (JCreatePair (i, j) r)) in let w' := after ex_world [tx (Token "#2") (Native "uaura")] in
  reachable ex_chain ex_world /\ fac_at ex_world "#0" fs /\
  ch_codes ex_chain (f_pair_code fs) = Some CPair /\ ch_codes ex_chain (f_token_code fs) = Some CToken /\ live ex_world (Token "#2") /\
  decimals_of ex_world fs (Token "#2") 6 /\ decimals_of ex_world fs (Native "uaura") 6 /\
  ask_pair_info ex_chain ex_world "#0" (Token "#2", Native "uaura")%string = Err ENotFound /\
  is_ok (script ex_world [tx (Token "#2") (Native "uaura")]) = true /\
  ask_pair_info ex_chain w' "#0" (Native "uaura", Token "#2")%string = Ok (PairInfo (Token "#2", Native "uaura") "#9" "#10" (6, 6) r)%string /\
  is_ok (script w' [tx (Native "uaura") (Token "#2")]) = false /\
  is_ok (script ex_world [tx (Token "#2") (Token "#1")]) = false /\ is_ok (script ex_world [tx (Token "#2") (Native "uatom")]) = false.
Proof.
  intros fs r tx w'. split; [exact ex_reachable|]. split; [apply fac_of_at; vm_compute; reflexivity|].
  assert (T : tok_at ex_world "#2" (tok_of ex_world "#2")) by (apply tok_of_at; vm_compute; reflexivity).
  split; [vm_compute; reflexivity|]. split; [vm_compute; reflexivity|]. split; [exists (tok_of ex_world "#2"); exact T|].
  split; [exists (tok_of ex_world "#2"); split; [exact T|vm_compute; reflexivity]|].
  repeat (split; [vm_compute; reflexivity|]). vm_compute; reflexivity.
Qed.
