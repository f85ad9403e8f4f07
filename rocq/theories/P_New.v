(** C89: what a newly instantiated contract is: exactly when each of the four
    contracts can be instantiated, and what it answers from then on. *)
From Verif Require Import Base BigNumber CwStd BigNumberFacts Asset Messages PairMath Pair PairFacts Token TokenQueries Factory Router
  SwapFacts SwapFacts2 P_Swap P_Pair FactoryFacts P_Factory P_Router TokenFacts World WorldInd WorldFacts WorldInv WorldInd2
  Examples WorldExamples P_Ledger P_Registry ExecFacts P_Exec P_Token P_Deposit P_Create P_Admin Wire QueryWire P_QueryWire.
From Coq Require Import ZifyN.
From stdpp Require Import sorting.
Local Open Scope N_scope.
Ltac Zify.zify_post_hook ::= idtac.

(** ** Specification *)

(** The message is executed, creates a contract at [a] and leads to [w']. *)
Definition creates (C : chain) (w : world) (s : string) (m : cmsg) (a : string) (w' : world) : Prop :=
  exists k, forall g, (k <= g)%nat -> exists lg, exec C g w s m = Ok (w', Some a, lg).
(** The administrator, if one is named, is an address. *)
Definition admin_ok (C : chain) (adm : option string) : Prop := forall x, adm = Some x -> exists y, norm (ch_api C) x = Some y.
Definition admin_as (C : chain) (adm : option string) : option string := match adm with Some x => norm (ch_api C) x | None => None end.
(** Between [w] and [w'] the contracts at the addresses [news] came into being,
    [s] paid [funds] to [a], and nothing else happened. *)
Record only_new (w w' : world) (news : list string) (s a : string) (funds : list coin) : Prop := {
  on_new : forall x, In x news -> w_insts w !! x = None /\ w_insts w' !! x <> None;
  on_rest : forall x, ~ In x news -> w_insts w' !! x = w_insts w !! x;
  on_bal : forall x d, bal w' x d + (if decide (x = s) then coin_sum d funds else 0) = bal w x d + (if decide (x = a) then coin_sum d funds else 0);
  on_block : w_block w' = w_block w;
}.
(** [j] is the asset [i] with its address in normal spelling. *)
Definition respelled (C : chain) (i j : asset_info) : Prop :=
  match i, j with
  | Native d, Native d' => d' = d
  | Token t, Token t' => norm (ch_api C) t = Some t'
  | _, _ => False
  end.

(** ** Lemmas *)
Section new.
  Context (C : chain) (OK : chain_ok C).
  Local Notation A := (ch_api C).

  Lemma fresh_none w : reachable C w -> w_insts w !! ch_fresh C (w_next w) = None.
  Proof.
    intros R. pose proof (mn_fresh _ _ (reachable_main C OK w R)) as F. destruct (w_insts w !! ch_fresh C (w_next w)) as [i|] eqn:E; [|reflexivity].
    exfalso. destruct (proj1 (F (ch_fresh C (w_next w))) ltac:(eauto)) as (n & Hn & E'). apply (fresh_inj C OK) in E'. lia.
  Qed.
  Lemma bal_next w n x d : bal (set_next w n) x d = bal w x d. Proof. reflexivity. Qed.
  Lemma admin_res adm : (exists ad, match adm with Some x => let* x' := oget (norm A x) ENotFound in Ok (Some x') | None => Ok None end = Ok ad) <-> admin_ok C adm.
  Proof.
    unfold admin_ok. destruct adm as [x|]; [|split; [intros _ y E; discriminate|eauto]]. split.
    - intros (ad & H) y E. injection E as <-. destruct (norm A x); [eauto|discriminate].
    - intros H. destruct (H x eq_refl) as (y & ->). cbn [oget rbind]. eauto.
  Qed.
  Lemma admin_val adm ad : match adm with Some x => let* x' := oget (norm A x) ENotFound in Ok (Some x') | None => Ok None end = Ok ad -> ad = admin_as C adm.
  Proof. unfold admin_as. destruct adm as [x|]; [|congruence]. destruct (norm A x); [|discriminate]. cbn [oget rbind]. congruence. Qed.

  (** contracts whose instantiation sends nothing and looks at nothing *)
  Section quiet.
    Context (w : world) (s : string) (adm : option string) (cd : N) (c : code) (m : imsg) (funds : list coin) (label : string).
    Let a := ch_fresh C (w_next w).
    Context (R : reachable C w).
    Context (O : ordinary C s).
    Context (Hc : ch_codes C cd = Some c).
    Context (Hsame : forall w1, init C w1 a c s funds m = init C w a c s funds m).
    Context (Hquiet : forall st rsp, init C w a c s funds m = Ok (st, rsp) -> rs_msgs rsp = []).

    Lemma inst_inv g w' z lg : exec C g w s (MInstantiate adm cd m funds label) = Ok (w', z, lg) ->
      admin_ok C adm /\ can_attach w s funds /\ exists st rsp, init C w a c s funds m = Ok (st, rsp) /\
      z = Some a /\ lg = [] /\ w_insts w' !! a = Some (Inst (admin_as C adm) st) /\ only_new w w' [a] s a funds.
    Proof.
      intros E. destruct g as [|g]; [rewrite exec_0 in E; discriminate|]. rewrite exec_eq, Hc in E. cbn [oget rbind] in E.
      apply rbind_ok in E as (ad & Ea & E). split; [apply admin_res; eauto|]. apply admin_val in Ea. fold a in E.
      apply rbind_ok in E as (w1 & E1 & E). assert (Hsa : s <> a) by (intros ->; exact (proj2 O _ eq_refl)).
      destruct (attach_inv _ _ _ _ _ E1 Hsa) as [B At]. split; [exact At|].
      apply rbind_ok in E as ([st rsp] & Ei & E). rewrite Hsame in Ei. exists st, rsp. split; [exact Ei|].
      rewrite (Hquiet _ _ Ei) in E. destruct g as [|g]; [cbn in E; discriminate|]. rewrite run_nil in E. cbn [rbind] in E. injection E as <- <- <-.
      split; [reflexivity|]. split; [reflexivity|]. subst ad. cbn [set_insts w_insts]. split; [apply lookup_insert|].
      pose proof (bm_insts _ _ _ _ _ B) as BI. cbn [set_next w_insts] in BI. split; cbn [set_insts w_insts w_block].
      - intros x [<-|[]]. split; [apply fresh_none, R|]. rewrite lookup_insert. discriminate.
      - intros x Hx. rewrite BI. apply lookup_insert_ne. intros ->. apply Hx. left. reflexivity.
      - intros x d. exact (bm_bal _ _ _ _ _ B x d).
      - exact (bm_block _ _ _ _ _ B).
    Qed.
    Lemma inst_iff : (exists w', creates C w s (MInstantiate adm cd m funds label) a w') <->
      admin_ok C adm /\ can_attach w s funds /\ exists st rsp, init C w a c s funds m = Ok (st, rsp).
    Proof.
      split.
      - intros (w' & k & H). destruct (H k (Nat.le_refl _)) as (lg & E). apply inst_inv in E as (H1 & H2 & st & rsp & H3 & _). eauto.
      - intros (H1 & H2 & st & rsp & H3). apply admin_res in H1 as (ad & H1).
        assert (Hsa : s <> a) by (intros ->; exact (proj2 O _ eq_refl)).
        destruct (attach_ok (set_next w (w_next w + 1)) s a funds Hsa H2) as (w1 & E1).
        eexists. exists 2%nat. intros [|[|g]] Hg; [lia|lia|]. eexists. rewrite exec_eq, Hc. cbn [oget rbind]. rewrite H1. cbn [rbind]. fold a. rewrite E1. cbn [rbind].
        rewrite Hsame, H3. cbn [rbind]. rewrite (Hquiet _ _ H3), run_nil. cbn [rbind]. reflexivity.
    Qed.
  End quiet.

  Lemma asked_new w' a st ad : w_insts w' !! a = Some (Inst ad st) -> norm A a = Some a ->
    contract_at C w' a = Ok (a, st).
  Proof. intros H N1. unfold contract_at. rewrite N1. cbn [oget rbind]. rewrite H. reflexivity. Qed.
End new.

(** ** C89 *)

(** A factory can be instantiated by anyone, with any code ids that fit; its owner
    is who ordered it, and it knows no pair and no coin. *)
Theorem C89_new_factory_iff C w s adm code pc tc funds label : chain_ok C -> reachable C w -> ordinary C s -> ch_codes C code = Some CFactory ->
  (exists w', creates C w s (MInstantiate adm code (IFactory pc tc) funds label) (ch_fresh C (w_next w)) w') <->
  admin_ok C adm /\ can_attach w s funds /\ pc < 2 ^ 64 /\ tc < 2 ^ 64.
Proof.
  intros OK R O Hc. rewrite (inst_iff C OK w s adm code CFactory (IFactory pc tc) funds label R O Hc).
  - assert (G : (exists st rsp, init C w (ch_fresh C (w_next w)) CFactory s funds (IFactory pc tc) = Ok (st, rsp)) <-> pc < 2 ^ 64 /\ tc < 2 ^ 64); [|tauto].
    cbn [init]. unfold factory_instantiate. destruct (norm_human C OK _ _ (proj1 O)) as (c & Hs & _). unfold addr_canonicalize. rewrite Hs. cbn [oget rbind].
    unfold u64_ok. change B64 with (2 ^ 64). destruct (N.ltb_spec pc (2 ^ 64)) as [L1|L1], (N.ltb_spec tc (2 ^ 64)) as [L2|L2]; cbn [andb negb wrap rbind]; split;
      try (intros (? & ? & X); discriminate X); try tauto; try (intros [? ?]; lia). intros _. eauto.
  - reflexivity.
  - intros st rsp H. cbn [init] in H. unfold wrap in H. apply rbind_ok in H as ([fs r] & H & E). injection E as <- <-. unfold factory_instantiate in H.
    destruct (negb _); [discriminate|]. apply rbind_ok in H as (o & _ & H). injection H as <- <-. reflexivity.
Qed.
Theorem C89_new_factory C w s adm code pc tc funds label g w' z lg : chain_ok C -> reachable C w -> ordinary C s -> ch_codes C code = Some CFactory ->
  exec C g w s (MInstantiate adm code (IFactory pc tc) funds label) = Ok (w', z, lg) ->
  exists f fs, z = Some f /\ w_insts w' !! f = Some (Inst (admin_as C adm) (SFactory fs)) /\ only_new w w' [f] s f funds /\ lg = [] /\
  asked C w' f QConfig = Ok (AConfig (s, tc, pc)) /\
  (forall d, exists e, asked C w' f (QNativeTokenDecimals d) = Err e) /\
  (forall i, exists e, asked C w' f (QPair i) = Err e) /\
  (forall n, asked C w' f (QPairs None n) = Ok (APairs [])).
Proof.
  intros OK R O Hc E. eapply (inst_inv C OK w s adm code CFactory) in E as (_ & _ & st & rsp & Ei & -> & -> & Hi & On); [|exact R|exact O|exact Hc|reflexivity|].
  - cbn [init] in Ei. unfold wrap in Ei. apply rbind_ok in Ei as ([fs r] & Ei & X). injection X as <- <-. unfold factory_instantiate in Ei.
    destruct (negb _); [discriminate|]. apply rbind_ok in Ei as (o & Eo & Ei). injection Ei as <- <-.
    eexists _, _. split; [reflexivity|]. split; [exact Hi|]. split; [exact On|]. split; [reflexivity|].
    unfold asked. rewrite (asked_new C w' _ _ _ Hi (fresh_norm C OK _)). cbn [factory_query].
    unfold addr_canonicalize in Eo. apply oget_ok in Eo. destruct (norm_human C OK _ _ (proj1 O)) as (c & Hs & Hh & _).
    split; [unfold give, factory_query_config, addr_humanize; cbn [f_owner f_token_code f_pair_code]; replace o with c by congruence; rewrite Hh; reflexivity|].
    split; [intros d; unfold factory_query_native; cbn [f_native]; rewrite lookup_empty; eexists; reflexivity|].
    split; [|intros n; unfold factory_query_pairs, read_pairs; cbn [rbind f_pairs]; unfold pairs_sorted; rewrite map_to_list_empty; cbn [merge_sort]; destruct (page_limit n); reflexivity].
    intros i. unfold factory_query_pair. destruct (info_to_raw _ _); [|eexists; reflexivity]. cbn [rbind]. destruct (info_to_raw _ _); [|eexists; reflexivity]. cbn [rbind f_pairs].
    rewrite lookup_empty. eexists; reflexivity.
  - intros st rsp H. cbn [init] in H. unfold wrap in H. apply rbind_ok in H as ([fs r] & H & X). injection X as <- <-. unfold factory_instantiate in H.
    destruct (negb _); [discriminate|]. apply rbind_ok in H as (o & _ & H). injection H as <- <-. reflexivity.
Qed.

(** A router can be instantiated with any address as its factory, which it then
    reports. *)
Theorem C89_new_router_iff C w s adm code f funds label : chain_ok C -> reachable C w -> ordinary C s -> ch_codes C code = Some CRouter ->
  (exists w', creates C w s (MInstantiate adm code (IRouter f) funds label) (ch_fresh C (w_next w)) w') <->
  admin_ok C adm /\ can_attach w s funds /\ exists f', norm (ch_api C) f = Some f'.
Proof.
  intros OK R O Hc. rewrite (inst_iff C OK w s adm code CRouter (IRouter f) funds label R O Hc).
  - assert (G : (exists st rsp, init C w (ch_fresh C (w_next w)) CRouter s funds (IRouter f) = Ok (st, rsp)) <-> exists f', norm (ch_api C) f = Some f'); [|tauto].
    cbn [init]. unfold router_instantiate, addr_canonicalize, norm. destruct (canon (ch_api C) f) as [c|] eqn:Ec; cbn [oget rbind wrap]; split.
    + intros _. exact (api_canon_human C OK _ _ Ec).
    + eauto.
    + intros (? & ? & X). discriminate X.
    + intros (f' & X). discriminate X.
  - reflexivity.
  - intros st rsp H. cbn [init] in H. unfold wrap in H. apply rbind_ok in H as ([fs r] & H & E). injection E as <- <-. unfold router_instantiate in H.
    apply rbind_ok in H as (o & _ & H). injection H as <- <-. reflexivity.
Qed.
Theorem C89_new_router C w s adm code f funds label g w' z lg : chain_ok C -> reachable C w -> ordinary C s -> ch_codes C code = Some CRouter ->
  exec C g w s (MInstantiate adm code (IRouter f) funds label) = Ok (w', z, lg) ->
  exists r rs f', z = Some r /\ w_insts w' !! r = Some (Inst (admin_as C adm) (SRouter rs)) /\ only_new w w' [r] s r funds /\ lg = [] /\
  norm (ch_api C) f = Some f' /\ asked C w' r QConfig = Ok (ARouterConfig f').
Proof.
  intros OK R O Hc E. eapply (inst_inv C OK w s adm code CRouter) in E as (_ & _ & st & rsp & Ei & -> & -> & Hi & On); [|exact R|exact O|exact Hc|reflexivity|].
  - cbn [init] in Ei. unfold wrap in Ei. apply rbind_ok in Ei as ([fs r] & Ei & X). injection X as <- <-. unfold router_instantiate in Ei.
    apply rbind_ok in Ei as (o & Eo & Ei). injection Ei as <- <-. unfold addr_canonicalize in Eo. apply oget_ok in Eo. destruct (api_canon_human C OK _ _ Eo) as (f' & Hf).
    eexists _, _, f'. split; [reflexivity|]. split; [exact Hi|]. split; [exact On|]. split; [reflexivity|].
    split; [unfold norm; rewrite Eo; exact Hf|]. unfold asked. rewrite (asked_new C w' _ _ _ Hi (fresh_norm C OK _)). cbn [router_query].
    unfold give, addr_humanize. rewrite Hf. reflexivity.
  - intros st rsp H. cbn [init] in H. unfold wrap in H. apply rbind_ok in H as ([fs r] & H & X). injection X as <- <-. unfold router_instantiate in H.
    apply rbind_ok in H as (o & _ & H). injection H as <- <-. reflexivity.
Qed.

(** A token can be instantiated exactly with a valid message (C37); it answers with
    what the message said, and nobody may spend for anybody. *)
Theorem C89_new_token_iff C w s adm code m funds label : chain_ok C -> reachable C w -> ordinary C s -> ch_codes C code = Some CToken ->
  (exists w', creates C w s (MInstantiate adm code (IToken m) funds label) (ch_fresh C (w_next w)) w') <->
  admin_ok C adm /\ can_attach w s funds /\ token_init_valid (ch_api C) m.
Proof.
  intros OK R O Hc. rewrite (inst_iff C OK w s adm code CToken (IToken m) funds label R O Hc).
  - rewrite <- (C37_instantiates_iff (ch_api C) m).
    assert (G : (exists st rsp, init C w (ch_fresh C (w_next w)) CToken s funds (IToken m) = Ok (st, rsp)) <-> exists t rsp, token_instantiate (ch_api C) m = Ok (t, rsp)); [|tauto].
    cbn [init]. unfold wrap. split; intros (st & rsp & H).
    + apply rbind_ok in H as ([t r] & H & X). eauto.
    + rewrite H. cbn [rbind]. eauto.
  - reflexivity.
  - intros st rsp H. cbn [init] in H. unfold wrap in H. apply rbind_ok in H as ([fs r] & H & E). injection E as <- <-. apply C37_initial_state in H. tauto.
Qed.
Theorem C89_new_token C w s adm code m funds label g w' z lg : chain_ok C -> reachable C w -> ordinary C s -> ch_codes C code = Some CToken ->
  exec C g w s (MInstantiate adm code (IToken m) funds label) = Ok (w', z, lg) ->
  exists t ts, z = Some t /\ w_insts w' !! t = Some (Inst (admin_as C adm) (SToken ts)) /\ only_new w w' [t] s t funds /\ lg = [] /\
  asked C w' t QTokenInfo = Ok (ATokenInfo (TokenInfo (in_name m) (in_symbol m) (in_decimals m) (sum_amounts (in_balances m)))) /\
  asked C w' t QMinter = Ok (AMinter (in_mint m)) /\
  (forall a n, In (a, n) (in_balances m) -> asked C w' t (QBalance a) = Ok (ABalance n)) /\
  (forall a, norm (ch_api C) a = Some a -> ~ In a (map fst (in_balances m)) -> asked C w' t (QBalance a) = Ok (ABalance 0)) /\
  (forall o a, norm (ch_api C) o = Some o -> norm (ch_api C) a = Some a -> asked C w' t (QAllowance o a) = Ok (AAllowance (0, ENever))).
Proof.
  intros OK R O Hc E. eapply (inst_inv C OK w s adm code CToken) in E as (_ & _ & st & rsp & Ei & -> & -> & Hi & On); [|exact R|exact O|exact Hc|reflexivity|].
  - cbn [init] in Ei. unfold wrap in Ei. apply rbind_ok in Ei as ([ts r] & Ei & X). injection X as <- <-.
    assert (V : token_init_valid (ch_api C) m) by (apply C37_instantiates_iff; eauto).
    apply C37_initial_state in Ei as (E1 & E2 & E3 & E4 & E5 & E6 & E7 & E8 & _).
    eexists _, ts. split; [reflexivity|]. split; [exact Hi|]. split; [exact On|]. split; [reflexivity|].
    unfold asked. rewrite (asked_new C w' _ _ _ Hi (fresh_norm C OK _)). cbn [token_query]. unfold token_query_info, token_query_minter, give. cbn [rbind].
    rewrite E1, E2, E3, E4, E5. split; [reflexivity|]. split; [reflexivity|].
    assert (Q : forall a, norm (ch_api C) a = Some a -> token_query_balance (ch_api C) ts a = Ok (balance_of ts a)).
    { intros a Na. unfold token_query_balance. rewrite (proj2 (addr_validate_ok (ch_api C) a a) (conj eq_refl Na)). reflexivity. }
    split; [|split].
    + intros a n Hin. rewrite Q by (eapply tv_holders; eauto). cbn [rbind]. rewrite (E7 _ _ Hin). reflexivity.
    + intros a Na Hn. rewrite Q by exact Na. cbn [rbind]. rewrite (E8 _ Hn). reflexivity.
    + intros o a No Na. unfold token_query_allowance. rewrite (proj2 (addr_validate_ok (ch_api C) o o) (conj eq_refl No)). cbn [rbind].
      rewrite (proj2 (addr_validate_ok (ch_api C) a a) (conj eq_refl Na)). cbn [rbind]. rewrite E6, lookup_empty. reflexivity.
  - intros st rsp H. cbn [init] in H. unfold wrap in H. apply rbind_ok in H as ([fs r] & H & X). injection X as <- <-. apply C37_initial_state in H. tauto.
Qed.

(** A pair can be instantiated by anyone, not only by a factory, with any two
    assets, even twice the same; it then answers with what it was told. Its LP
    token is new, empty, unadministered and mintable by the pair only. *)
Lemma respelled_raw C i : chain_ok C -> (exists r, info_to_raw (ch_api C) i = Ok r) <-> exists j, respelled C i j.
Proof.
  intros OK. destruct i as [t|d]; cbn [info_to_raw].
  - unfold addr_canonicalize. split.
    + intros (r & H). destruct (canon (ch_api C) t) as [c|] eqn:Ec; [|discriminate]. destruct (api_canon_human C OK _ _ Ec) as (h & Hh).
      exists (Token h). cbn [respelled]. unfold norm. rewrite Ec. exact Hh.
    + intros ([t'|] & H); [|destruct H]. cbn [respelled] in H. unfold norm in H. destruct (canon (ch_api C) t); [|discriminate]. cbn [oget rbind]. eauto.
  - split; [exists (Native d); reflexivity|eauto].
Qed.
Lemma respelled_normal C i r j : chain_ok C -> info_to_raw (ch_api C) i = Ok r -> respelled C i j -> raw_to_normal (ch_api C) r = Ok j.
Proof.
  intros OK H Hj. destruct i as [t|d], j as [t'|d']; cbn [respelled info_to_raw] in *; try contradiction Hj.
  - unfold addr_canonicalize, norm in *. destruct (canon (ch_api C) t) as [c|]; [|discriminate]. injection H as <-. cbn [raw_to_normal]. unfold addr_humanize. rewrite Hj. reflexivity.
  - injection H as <-. subst d'. reflexivity.
Qed.
Lemma pair_new_inv C w s adm code tc i0 i1 d0 d1 reqs funds label g w' z lg : chain_ok C -> reachable C w -> ordinary C s ->
  ch_codes C code = Some CPair -> ch_codes C tc = Some CToken ->
  exec C g w s (MInstantiate adm code (IPair (i0, i1) tc (d0, d1) reqs) funds label) = Ok (w', z, lg) ->
  let p := ch_fresh C (w_next w) in let lp := ch_fresh C (w_next w + 1) in
  exists r0 r1 c1 c2, info_to_raw (ch_api C) i0 = Ok r0 /\ info_to_raw (ch_api C) i1 = Ok r1 /\ canon (ch_api C) p = Some c1 /\ canon (ch_api C) lp = Some c2 /\
  admin_ok C adm /\ can_attach w s funds /\ u64_ok tc && u8_ok d0 && u8_ok d1 && reqs_ranges reqs = true /\
  z = Some p /\ lg = [] /\ w_insts w' !! p = Some (Inst (admin_as C adm) (SPair (PairInfoRaw (r0, r1) c1 c2 (d0, d1) reqs))) /\
  w_insts w' !! lp = Some (Inst None (SToken (empty_lp p))) /\ only_new w w' [p; lp] s p funds.
Proof.
  intros OK R O Hc Ht E p lp. destruct g as [|g]; [rewrite exec_0 in E; discriminate|]. rewrite exec_eq, Hc in E. cbn [oget rbind] in E.
  apply rbind_ok in E as (ad & Ea & E). assert (Ha : admin_ok C adm) by (apply admin_res; exists ad; exact Ea). apply admin_val in Ea. fold p in E.
  apply rbind_ok in E as (w1 & E1 & E). assert (Hsp : s <> p) by (intros ->; exact (proj2 O _ eq_refl)).
  destruct (attach_inv _ _ _ _ _ E1 Hsp) as [B At].
  apply rbind_ok in E as ([st rsp] & Ei & E). cbn [init fst snd] in Ei. destruct (u64_ok tc && _ && _ && _) eqn:Rg; [|discriminate].
  unfold wrap in Ei. apply rbind_ok in Ei as ([ps r] & Ei & X). injection X as <- <-. unfold pair_instantiate in Ei. cbn [fst snd] in Ei.
  apply rbind_ok in Ei as (c1 & H1 & Ei). apply rbind_ok in Ei as (r0 & E0 & Ei). apply rbind_ok in Ei as (r1 & E1' & Ei). injection Ei as <- <-.
  unfold addr_canonicalize in H1. apply oget_ok in H1. destruct (fresh_canon C OK (w_next w + 1)) as (c2 & H2 & _). fold lp in H2.
  exists r0, r1, c1, c2. split; [exact E0|]. split; [exact E1'|]. split; [exact H1|]. split; [exact H2|]. split; [exact Ha|]. split; [exact At|]. split; [reflexivity|].
  assert (Hne : p <> lp) by (intros Y; apply (fresh_inj C OK) in Y; lia).
  pose proof (bm_next _ _ _ _ _ B) as BN. pose proof (bm_insts _ _ _ _ _ B) as BI. cbn [set_next w_next w_insts] in BN, BI.
  cbn [rs_msgs] in E. destruct g as [|g]; [rewrite run_0 in E; discriminate|]. rewrite run_cons in E. cbn [sm_reply sm_msg] in E.
  rewrite (lp_exec C) in E; [|apply (fresh_norm C OK)|exact Ht]. unfold upto in E. destruct g as [|[|g]]; [discriminate|discriminate|].
  cbn [Nat.leb w_next w_insts set_insts set_next] in E. rewrite BN in E. fold lp in E.
  rewrite lookup_insert_ne in E by congruence. rewrite lookup_insert in E. cbn [oget rbind reply i_state] in E.
  unfold pair_reply, addr_canonicalize in E. fold lp in H2. rewrite H2 in E. cbn [oget rbind wrap rs_msgs r_asset_infos r_contract_addr r_asset_decimals r_requirements] in E.
  rewrite run_nil in E. cbn [rbind] in E. rewrite run_nil in E. cbn [rbind app] in E. injection E as <- <- <-.
  split; [reflexivity|]. split; [reflexivity|]. unfold set_state. cbn [w_insts set_insts set_next w_bank w_next w_block]. rewrite lookup_insert_ne by congruence. rewrite lookup_insert.
  cbn [set_insts w_insts i_admin]. subst ad. split; [apply lookup_insert|]. split; [rewrite lookup_insert_ne by congruence; apply lookup_insert|].
  assert (F2 : w_insts w !! lp = None).
  { destruct (w_insts w !! lp) as [i|] eqn:El; [|reflexivity]. exfalso. destruct (proj1 (mn_fresh _ _ (reachable_main C OK w R) lp) ltac:(eauto)) as (n & Hn & E'). apply (fresh_inj C OK) in E'. lia. }
  split; cbn [set_insts w_insts w_block].
  - intros x [<-|[<-|[]]].
    + split; [apply fresh_none; assumption|]. rewrite lookup_insert. discriminate.
    + split; [exact F2|]. rewrite lookup_insert_ne by congruence. rewrite lookup_insert. discriminate.
  - intros x Hx. rewrite !lookup_insert_ne; [rewrite BI; reflexivity| | |]; intros ->; apply Hx; cbn; auto.
  - intros x d. exact (bm_bal _ _ _ _ _ B x d).
  - exact (bm_block _ _ _ _ _ B).
Qed.
Theorem C89_new_pair_iff C w s adm code tc i0 i1 d0 d1 reqs funds label : chain_ok C -> reachable C w -> ordinary C s ->
  ch_codes C code = Some CPair -> ch_codes C tc = Some CToken ->
  (exists w', creates C w s (MInstantiate adm code (IPair (i0, i1) tc (d0, d1) reqs) funds label) (ch_fresh C (w_next w)) w') <->
  admin_ok C adm /\ can_attach w s funds /\ (exists j0, respelled C i0 j0) /\ (exists j1, respelled C i1 j1) /\
  tc < 2 ^ 64 /\ d0 < 256 /\ d1 < 256 /\ first_asset_minimum reqs < 2 ^ 128 /\ second_asset_minimum reqs < 2 ^ 128.
Proof.
  intros OK R O Hc Ht.
  assert (Rg : u64_ok tc && u8_ok d0 && u8_ok d1 && reqs_ranges reqs = true <-> tc < 2 ^ 64 /\ d0 < 256 /\ d1 < 256 /\ first_asset_minimum reqs < 2 ^ 128 /\ second_asset_minimum reqs < 2 ^ 128).
  { unfold reqs_ranges, u64_ok, u8_ok, u128_ok. rewrite !andb_true_iff, !N.ltb_lt. change B64 with (2 ^ 64). change B128 with (2 ^ 128). tauto. }
  rewrite <- Rg, <- !respelled_raw by exact OK. split.
  - intros (w' & k & H). destruct (H k (Nat.le_refl _)) as (lg & E).
    apply (pair_new_inv C w s adm code tc i0 i1 d0 d1 reqs funds label) in E as (r0 & r1 & c1 & c2 & E0 & E1 & _ & _ & Ha & At & G & _); try assumption.
    split; [exact Ha|]. split; [exact At|]. split; [eauto|]. split; [eauto|exact G].
  - intros (Ha & At & (r0 & E0) & (r1 & E1) & G). apply admin_res in Ha as (ad & Ha).
    set (p := ch_fresh C (w_next w)) in *. set (lp := ch_fresh C (w_next w + 1)).
    assert (Hsp : s <> p) by (intros ->; exact (proj2 O _ eq_refl)).
    assert (Hne : p <> lp) by (intros Y; apply (fresh_inj C OK) in Y; lia).
    destruct (attach_ok (set_next w (w_next w + 1)) s p funds Hsp At) as (w1 & Eb). pose proof (bank_send_ok _ _ _ _ _ Eb) as B.
    pose proof (bm_next _ _ _ _ _ B) as BN. cbn [set_next w_next] in BN.
    destruct (fresh_canon C OK (w_next w)) as (c1 & H1 & _). destruct (fresh_canon C OK (w_next w + 1)) as (c2 & H2 & _). fold p in H1. fold lp in H2.
    eexists. exists 4%nat. intros [|[|[|[|g]]]] Hg; try lia. eexists. rewrite exec_eq, Hc. cbn [oget rbind]. rewrite Ha. cbn [rbind]. fold p. rewrite Eb. cbn [rbind init fst snd].
    rewrite G. unfold pair_instantiate, addr_canonicalize. cbn [fst snd]. rewrite H1, E0, E1. cbn [oget rbind wrap rs_msgs]. rewrite run_cons. cbn [sm_reply sm_msg].
    rewrite (lp_exec C); [|apply (fresh_norm C OK)|exact Ht]. unfold upto. cbn [Nat.leb w_next w_insts set_insts set_next]. rewrite BN. fold lp.
    rewrite lookup_insert_ne by congruence. rewrite lookup_insert. cbn [oget rbind reply i_state].
    unfold pair_reply, addr_canonicalize. rewrite H2. cbn [oget rbind wrap rs_msgs]. rewrite run_nil. cbn [rbind]. rewrite run_nil. cbn [rbind]. reflexivity.
Qed.
Theorem C89_new_pair C w s adm code tc i0 i1 d0 d1 reqs funds label g w' z lg : chain_ok C -> reachable C w -> ordinary C s ->
  ch_codes C code = Some CPair -> ch_codes C tc = Some CToken ->
  exec C g w s (MInstantiate adm code (IPair (i0, i1) tc (d0, d1) reqs) funds label) = Ok (w', z, lg) ->
  exists p lp st ts j0 j1, z = Some p /\ p <> lp /\ w_insts w' !! p = Some (Inst (admin_as C adm) (SPair st)) /\
  w_insts w' !! lp = Some (Inst None (SToken ts)) /\ only_new w w' [p; lp] s p funds /\ lg = [] /\
  respelled C i0 j0 /\ respelled C i1 j1 /\
  asked C w' p QSelf = Ok (APairInfo (PairInfo (j0, j1) p lp (d0, d1) reqs)) /\
  asked C w' lp QTokenInfo = Ok (ATokenInfo (TokenInfo "halo liquidity token" "uLP" 6 0)) /\
  asked C w' lp QMinter = Ok (AMinter (Some (p, None))).
Proof.
  intros OK R O Hc Ht E.
  apply (pair_new_inv C w s adm code tc i0 i1 d0 d1 reqs funds label) in E as (r0 & r1 & c1 & c2 & E0 & E1 & H1 & H2 & _ & _ & _ & -> & -> & Hp & Hl & On); try assumption.
  destruct (proj1 (respelled_raw C i0 OK) ltac:(eauto)) as (j0 & J0). destruct (proj1 (respelled_raw C i1 OK) ltac:(eauto)) as (j1 & J1).
  set (p := ch_fresh C (w_next w)) in *. set (lp := ch_fresh C (w_next w + 1)) in *.
  exists p, lp, (PairInfoRaw (r0, r1) c1 c2 (d0, d1) reqs), (empty_lp p), j0, j1.
  split; [reflexivity|]. split; [intros Y; apply (fresh_inj C OK) in Y; lia|]. split; [exact Hp|]. split; [exact Hl|]. split; [exact On|]. split; [reflexivity|]. split; [exact J0|]. split; [exact J1|].
  unfold asked. rewrite (asked_new C w' _ _ _ Hp (fresh_norm C OK _)), (asked_new C w' _ _ _ Hl (fresh_norm C OK _)).
  split; [|split; reflexivity]. cbn [pair_query]. unfold give, pair_query_pair, pair_to_normal. cbn [r_contract_addr r_liquidity_token r_asset_infos r_asset_decimals r_requirements fst snd].
  rewrite (respelled_normal C _ _ _ OK E0 J0), (respelled_normal C _ _ _ OK E1 J1). unfold addr_humanize.
  pose proof (fresh_norm C OK (w_next w)) as N1. pose proof (fresh_norm C OK (w_next w + 1)) as N2. unfold norm in N1, N2. fold p in N1. fold lp in N2. rewrite H1 in N1. rewrite H2 in N2.
  rewrite N1, N2. reflexivity.
Qed.

(** *** Cases *)
Lemma ex_admin x : norm ex_api x <> None -> admin_ok ex_chain (Some x).
Proof. intros H y E. injection E as <-. cbn [ex_chain ch_api]. destruct (norm ex_api x); [eauto|congruence]. Qed.
Lemma ex_unpaid w s : can_attach w s [].
Proof. split; [constructor|constructor]. Qed.
Lemma ex_next : ch_fresh ex_chain (w_next ex_world) = "#9"%string. Proof. vm_compute. reflexivity. Qed.
Example C89_case_factory : exists w', creates ex_chain ex_world "bob" (MInstantiate (Some "ALICE") 3 (IFactory 1 2) [Coin "uaura" 5] "f") "#9" w'.
Proof.
  rewrite <- ex_next. apply C89_new_factory_iff; [exact ex_chain_ok|exact ex_reachable|exact (who_ordinary false)|reflexivity|].
  split; [apply ex_admin; vm_compute; discriminate|]. split; [|split; reflexivity].
  split; [repeat constructor; intros X; inversion X|]. constructor; [|constructor]. cbn [c_amount c_denom]. split; [reflexivity|]. vm_compute. discriminate.
Qed.
Example C89_case_router : exists w', creates ex_chain ex_world "bob" (MInstantiate None 4 (IRouter "#0") [] "r") "#9" w'.
Proof.
  rewrite <- ex_next. apply C89_new_router_iff; [exact ex_chain_ok|exact ex_reachable|exact (who_ordinary false)|reflexivity|].
  split; [discriminate|]. split; [apply ex_unpaid|]. exists "#0"%string. vm_compute. reflexivity.
Qed.
Example C89_case_token : exists w', creates ex_chain ex_world "bob" (MInstantiate None 2 (IToken (TokenInit "my token" "MINE" 6 [("bob", 7); ("alice", 5)] (Some ("bob", Some 20)))) [] "t") "#9" w'.
Proof.
  rewrite <- ex_next. apply C89_new_token_iff; [exact ex_chain_ok|exact ex_reachable|exact (who_ordinary false)|reflexivity|].
  split; [discriminate|]. split; [apply ex_unpaid|]. apply C37_instantiates_iff.
  assert (V : match token_instantiate ex_api (TokenInit "my token" "MINE" 6 [("bob", 7); ("alice", 5)] (Some ("bob", Some 20))) with Ok _ => true | Err _ => false end = true) by (vm_compute; reflexivity).
  cbn [ex_chain ch_api]. destruct (token_instantiate _ _) as [[t r]|]; [eauto|discriminate V].
Qed.
(** A pair of a coin with itself, which no factory would create. *)
Example C89_case_pair : exists w', creates ex_chain ex_world "bob" (MInstantiate None 1 (IPair (Native "uaura", Native "uaura") 2 (6, 6) (Requirements [] 0 0)) [] "p") "#9" w'.
Proof.
  rewrite <- ex_next. apply C89_new_pair_iff; [exact ex_chain_ok|exact ex_reachable|exact (who_ordinary false)|reflexivity|reflexivity|].
  split; [discriminate|]. split; [apply ex_unpaid|]. split; [exists (Native "uaura"); reflexivity|]. split; [exists (Native "uaura"); reflexivity|].
  split; [reflexivity|]. split; [reflexivity|]. split; [reflexivity|]. split; reflexivity.
Qed.
Example C89_case_effect : match exec ex_chain 9 ex_world "bob" (MInstantiate None 1 (IPair (Token "#1", Native "uaura") 2 (6, 0) (Requirements [] 3 0)) [] "p") with
  | Ok (w', _, _) => question ex_chain w' "#9" QSelf r_pair_info
  | Err _ => None
  end = Some (PairInfo (Token "#1", Native "uaura") "#9" "#10" (6, 0) (Requirements [] 3 0)).
Proof. vm_compute. reflexivity. Qed.
