(** Exact effect of single payments, cw20 sends and swaps on the chain. *)
From Verif Require Import Base BigNumber CwStd BigNumberFacts Asset Messages PairMath Pair PairFacts Token Factory Router
  SwapFacts SwapFacts2 P_Swap FactoryFacts TokenFacts World WorldInd WorldFacts WorldInv WorldInd2 Examples WorldExamples P_Ledger.
From Coq Require Import ZifyN.
Local Open Scope N_scope.
Ltac Zify.zify_post_hook ::= idtac.

(** The asset is a native coin or a token of /repo. *)
Definition live (w : world) (i : asset_info) : Prop :=
  match i with Native _ => True | Token t => exists ts, tok_at w t ts end.

(** What the lemmas of this file need of a state. *)
Definition sane (C : chain) (w : world) : Prop :=
  insts_fresh C w /\ forall t ts, tok_at w t ts -> token_ok ts.
Lemma main_sane C w : main C w -> sane C w.
Proof. intros M. split; [apply (mn_fresh _ _ M)|]. intros t ts. apply (mn_tokens _ _ M). Qed.

(** [n] of asset [i] went from [from] to [to], and nothing else happened. *)
Record paid (w w' : world) (i : asset_info) (from to : string) (n : N) : Prop := {
  pd_have : n <= holds w from i;
  pd_holds : forall x j, holds w' x j + (if decide (x = from /\ j = i) then n else 0) =
                         holds w x j + (if decide (x = to /\ j = i) then n else 0);
  pd_keep : forall a s, state_at w a = Some s -> (forall ts, s <> SToken ts) -> state_at w' a = Some s;
  pd_toks : forall t ts, tok_at w t ts -> exists ts', tok_at w' t ts' /\ same_but_bal ts ts';
  pd_block : w_block w' = w_block w;
}.
Lemma paid_live w w' i from to n j : paid w w' i from to n -> live w j -> live w' j.
Proof. intros P. destruct j as [t|d]; [|auto]. intros (ts & H). destruct (pd_toks _ _ _ _ _ _ P _ _ H) as (ts' & H' & _). exists ts'. exact H'. Qed.
Lemma paid_pair w w' i from to n p st : paid w w' i from to n -> pair_at w p st -> pair_at w' p st.
Proof. intros P H. apply (pd_keep _ _ _ _ _ _ P _ _ H). discriminate. Qed.
Lemma paid_zero w i from to : paid w w i from to 0.
Proof.
  split; auto.
  - lia.
  - intros x j. repeat destruct (decide _); lia.
  - intros t ts H. exists ts. repeat split; auto.
Qed.
Lemma paid_other w w' i from to n x j : paid w w' i from to n -> (x = from -> j <> i) -> (x = to -> j <> i) ->
  holds w' x j = holds w x j.
Proof.
  intros P H1 H2. pose proof (pd_holds _ _ _ _ _ _ P x j) as E.
  destruct (decide (x = from /\ j = i)) as [[A B]|_]; [exfalso; exact (H1 A B)|].
  destruct (decide (x = to /\ j = i)) as [[A B]|_]; [exfalso; exact (H2 A B)|]. lia.
Qed.

Lemma holds_tok w t ts a : tok_at w t ts -> holds w a (Token t) = balance_of ts a.
Proof. intros H. unfold holds. unfold tok_at in H. rewrite H. reflexivity. Qed.

Lemma bank_send_none w s a : bank_send w s a [] = Ok w.
Proof. unfold bank_send. cbn. destruct w; reflexivity. Qed.

Lemma te_transfer_inv A b t s r n t' l : tok_effect A b t s (JTransfer r n) t' l ->
  0 < n /\ n < B128 /\ norm A r = Some r /\ moved t t' s r n /\ l = [].
Proof. intros H. inversion H; subst. auto. Qed.
Lemma te_send_inv A b t s c n h t' l : tok_effect A b t s (JSend c n h) t' l ->
  0 < n /\ n < B128 /\ norm A c = Some c /\ moved t t' s c n /\ l = [plain (MExecute c (JReceive s n h) [])].
Proof. intros H. inversion H; subst. auto. Qed.

(** The pair [st] trades [offer] against [ask], with these decimals. *)
Definition sides (A : api) (st : pair_info_raw) (offer ask : asset_info) (od ad : N) : Prop :=
  (named A (r_asset_infos st).1 offer /\ named A (r_asset_infos st).2 ask /\
   r_asset_decimals st = (od, ad)) \/
  (named A (r_asset_infos st).1 ask /\ named A (r_asset_infos st).2 offer /\
   r_asset_decimals st = (ad, od)).

Section facts.
  Context (C : chain) (OK : chain_ok C).
  Local Notation A := (ch_api C).

  Lemma sane_norm w a s : sane C w -> state_at w a = Some s -> norm A a = Some a.
  Proof. intros [F _] H. apply state_at_inst in H as (ad & H). eapply inst_norm; eauto. Qed.

  (** *** Writing a token's balances *)
  Lemma tok_moved_paid w t ts ts' from to n : sane C w -> tok_at w t ts -> moved ts ts' from to n ->
    let w' := set_state w t (SToken ts') in
    paid w w' (Token t) from to n /\ sane C w'.
  Proof.
    intros [F T] Ht M w'. pose proof Ht as Hi. apply state_at_inst in Hi as (ad & Hi).
    assert (S : forall x, state_at w' x = if decide (x = t) then Some (SToken ts') else state_at w x).
    { intros x. unfold w'. rewrite state_at_set; [reflexivity|eauto]. }
    split.
    - split.
      + rewrite (holds_tok w t ts) by exact Ht. apply (mv_have _ _ _ _ _ M).
      + intros x j. destruct j as [u|d].
        * destruct (decide (u = t)) as [->|Hne].
          -- rewrite (holds_tok w t ts) by exact Ht. rewrite (holds_tok w' t ts') by (unfold tok_at; rewrite S, decide_True; reflexivity).
             pose proof (mv_bal _ _ _ _ _ M x) as E.
             destruct (decide (x = from)), (decide (x = to)), (decide (x = from /\ Token t = Token t)), (decide (x = to /\ Token t = Token t));
               try tauto; try (exfalso; tauto); lia.
          -- unfold holds. rewrite S, decide_False by exact Hne.
             destruct (decide (x = from /\ Token u = Token t)) as [[_ E]|_]; [congruence|].
             destruct (decide (x = to /\ Token u = Token t)) as [[_ E]|_]; [congruence|]. lia.
        * unfold holds. unfold w'. rewrite set_state_bal.
          destruct (decide (x = from /\ Native d = Token t)) as [[_ E]|_]; [congruence|].
          destruct (decide (x = to /\ Native d = Token t)) as [[_ E]|_]; [congruence|]. lia.
      + intros a s Ha Hn. rewrite S. destruct (decide (a = t)) as [->|_]; [|exact Ha].
        unfold tok_at in Ht. rewrite Ht in Ha. injection Ha as <-. destruct (Hn ts eq_refl).
      + intros u us Hu. unfold tok_at. rewrite S. destruct (decide (u = t)) as [->|_].
        * rewrite (tok_at_inj _ _ _ _ Hu Ht). exists ts'. split; [reflexivity|apply (mv_same _ _ _ _ _ M)].
        * exists us. split; [exact Hu|repeat split].
      + apply set_state_block.
    - split.
      + apply (fresh_set C w w); auto.
      + intros u us Hu. unfold tok_at in Hu. rewrite S in Hu. destruct (decide (u = t)) as [->|_]; [|eauto].
        injection Hu as <-. destruct M as [(E1 & E2 & E3 & E4 & E5 & E6) _ _ E7]. destruct (T _ _ Ht) as [O1 O2 O3]. split.
        * congruence.
        * congruence.
        * intros m c. rewrite E5, E4. apply O3.
  Qed.

  (** *** Payments by the pair: Transfer or bank send *)
  Lemma pay_inv f w from i n to w' r lg : sane C w -> live w i ->
    exec C f w from (into_msg (Asset i n) to) = Ok (w', r, lg) ->
    exists to', norm A to = Some to' /\ paid w w' i from to' n /\ sane C w' /\ 0 < n.
  Proof.
    intros Sn L E. destruct f; [rewrite exec_0 in E; discriminate|]. rewrite exec_eq in E. destruct i as [t|d]; cbn [into_msg a_info a_amount] in E.
    - destruct L as (ts & Ht). apply rbind_ok in E as (t' & En & E). 
      assert (t' = t). { pose proof (sane_norm _ _ _ Sn Ht) as X. unfold oget in En. rewrite X in En. congruence. } subst t'.
      rewrite bank_send_none in E. cbn [rbind] in E.
      apply rbind_ok in E as (ii & Ei & E). pose proof Ht as Hi. apply state_at_inst in Hi as (ad & Hi). unfold oget in Ei. rewrite Hi in Ei. injection Ei as <-.
      cbn [i_state call] in E. apply rbind_ok in E as ([s rsp] & Ec & E). apply rbind_ok in Ec as ([ts' rsp'] & Ec & X). injection X as <- <-.
      apply token_execute_inv, te_transfer_inv in Ec as (Hn & Hlt & Hto & Mv & E3).
      rewrite E3 in E. destruct f; [rewrite run_0 in E; discriminate|]. rewrite run_nil in E. cbn [rbind] in E. injection E as <- <- <-.
      destruct (tok_moved_paid w t ts ts' from to n Sn Ht Mv) as [P S']. exists to. auto.
    - apply rbind_ok in E as (w1 & E & X). injection X as <- <- <-.
      assert (Hn : 0 < n).
      { unfold bank_msg, bank_send in E. apply rbind_ok in E as (? & _ & E). unfold coins_valid in E. cbn [forallb c_amount] in E.
        destruct (N.ltb_spec 0 n); [assumption|]. discriminate. }
      assert (Hv : n <= bal w from d).
      { unfold bank_msg, bank_send in E. apply rbind_ok in E as (? & _ & E). destruct (coins_valid _); [|discriminate].
        apply rbind_ok in E as (b & E & _). cbn [move_all] in E. apply rbind_ok in E as (b1 & E & _). unfold move in E. cbn [c_denom c_amount] in E.
        destruct (N.leb_spec n (bal w from d)); [assumption|]. unfold bal in H. destruct (N.leb_spec n (default 0 (w_bank w !! (from, d)))); [lia|discriminate]. }
      apply bank_msg_ok in E as (to' & Hto & B). exists to'. split; [exact Hto|].
      assert (S : forall a, state_at w1 a = state_at w a) by (intros; unfold state_at; rewrite (bm_insts _ _ _ _ _ B); reflexivity).
      split; [|split; [|exact Hn]].
      + split.
        * exact Hv.
        * intros x j. destruct j as [u|d'].
          -- unfold holds. rewrite S. destruct (decide (x = from /\ Token u = Native d)) as [[_ ?]|_]; [congruence|].
             destruct (decide (x = to' /\ Token u = Native d)) as [[_ ?]|_]; [congruence|]. lia.
          -- cbn [holds]. pose proof (bm_bal _ _ _ _ _ B x d') as E. rewrite !coin_sum_cons, !coin_sum_nil in E. cbn [c_denom c_amount] in E.
             destruct (decide (x = from)), (decide (x = to')), (decide (d = d')),
               (decide (x = from /\ Native d' = Native d)) as [[? X]|?], (decide (x = to' /\ Native d' = Native d)) as [[? Y]|?];
               try injection X as X; try injection Y as Y; subst; try lia; exfalso; intuition congruence.
        * intros a s. rewrite S. auto.
        * intros t ts H. exists ts. unfold tok_at. rewrite S. split; [exact H|repeat split].
        * apply (bm_block _ _ _ _ _ B).
      + destruct Sn as [F T]. split.
        * intros a. rewrite (bm_insts _ _ _ _ _ B), (bm_next _ _ _ _ _ B). apply F.
        * intros t ts H. unfold tok_at in H. rewrite S in H. eapply T; exact H.
  Qed.

  Lemma pay_ok w from i n to : sane C w -> live w i -> norm A to = Some to -> 0 < n -> n < B128 -> n <= holds w from i ->
    exists w', forall f, exists lg, exec C (S (S f)) w from (into_msg (Asset i n) to) = Ok (w', None, lg).
  Proof.
    intros Sn L Hto Hn Hr Hh. destruct i as [t|d]; cbn [into_msg a_info a_amount].
    - destruct L as (ts & Ht). rewrite (holds_tok _ _ _ _ Ht) in Hh.
      destruct (move_total ts from to n) as (t1 & t2 & D1 & D2); [exact Hh| |].
      { destruct (proj2 Sn _ _ Ht) as [E1 E2 _]. lia. }
      exists (set_state w t (SToken t2)). intros f. eexists. rewrite exec_eq. rewrite (sane_norm _ _ _ Sn Ht). cbn [oget rbind].
      rewrite bank_send_none. cbn [rbind]. pose proof Ht as Hi. apply state_at_inst in Hi as (ad & Hi). rewrite Hi. cbn [oget rbind i_state call].
      unfold token_execute. cbn [jmsg_ranges]. unfold u128_ok. apply N.ltb_lt in Hr. rewrite Hr. cbn [negb].
      unfold token_transfer. rewrite (proj2 (nonzero_ok n) Hn). cbn [rbind].
      rewrite (proj2 (addr_validate_ok A to to) (conj eq_refl Hto)). cbn [rbind]. rewrite D1. cbn [rbind]. rewrite D2. cbn [rbind wrap rs_msgs rs_attrs].
      rewrite run_nil. cbn [rbind]. reflexivity.
    - destruct (bank_one A w from to d n Hto Hn Hh) as (w' & E). exists w'. intros f. eexists. rewrite exec_eq, E. reflexivity.
  Qed.

  (** *** cw20 Send *)
  Lemma send_inv f w s t c n h w' r lg : sane C w -> live w (Token t) ->
    exec C f w s (MExecute t (JSend c n h) []) = Ok (w', r, lg) ->
    exists w1 f' lg' attrs, paid w w1 (Token t) s c n /\ sane C w1 /\ 0 < n /\ n < B128 /\ norm A c = Some c /\
      exec C f' w1 t (MExecute c (JReceive s n h) []) = Ok (w', None, lg') /\
      lg = Event t s (JSend c n h) attrs [] w :: lg'.
  Proof.
    intros Sn (ts & Ht) E. destruct f; [rewrite exec_0 in E; discriminate|]. rewrite exec_eq in E.
    rewrite (sane_norm _ _ _ Sn Ht) in E. cbn [oget rbind] in E. rewrite bank_send_none in E. cbn [rbind] in E.
    pose proof Ht as Hi. apply state_at_inst in Hi as (ad & Hi). rewrite Hi in E. cbn [oget rbind i_state call] in E.
    apply rbind_ok in E as ([s' rsp] & Ec & E). apply rbind_ok in Ec as ([ts' rsp'] & Ec & X). injection X as <- <-.
    apply token_execute_inv, te_send_inv in Ec as (Hn & Hlt & Hto & Mv & E3).
    rewrite E3 in E. apply rbind_ok in E as ([w2 lg2] & Er & E). injection E as <- <- <-.
    destruct f; [rewrite run_0 in Er; discriminate|]. rewrite run_plain in Er.
    apply rbind_ok in Er as ([[w3 r3] lg3] & Ee & Er). apply rbind_ok in Er as ([w4 lg4] & En & Er). injection Er as <- <-.
    destruct f; [rewrite run_0 in En; discriminate|]. rewrite run_nil in En. injection En as <- <-.
    destruct (tok_moved_paid w t ts ts' s c n Sn Ht Mv) as [P S'].
    exists (set_state w t (SToken ts')), (S f), lg3, (rs_attrs rsp').
    assert (r3 = None).
    { rewrite exec_eq in Ee. apply rbind_ok in Ee as (? & _ & Ee). apply rbind_ok in Ee as (? & _ & Ee). apply rbind_ok in Ee as (? & _ & Ee).
      apply rbind_ok in Ee as ([] & _ & Ee). apply rbind_ok in Ee as ([] & _ & Ee). injection Ee as _ <- _. reflexivity. }
    subst r3. rewrite app_nil_r. auto 10.
  Qed.

  Lemma send_ok w s t c n h : sane C w -> live w (Token t) -> norm A c = Some c -> 0 < n -> n < B128 -> n <= holds w s (Token t) ->
    exists w1, paid w w1 (Token t) s c n /\ sane C w1 /\
      forall k w', (forall f, exists lg, exec C (S k + f) w1 t (MExecute c (JReceive s n h) []) = Ok (w', None, lg)) ->
        forall f, exists lg, exec C (S (S (S k)) + f) w s (MExecute t (JSend c n h) []) = Ok (w', None, lg).
  Proof.
    intros Sn (ts & Ht) Hc Hn Hr Hh. rewrite (holds_tok _ _ _ _ Ht) in Hh.
    destruct (move_total ts s c n) as (t1 & t2 & D1 & D2); [exact Hh| |].
    { destruct (proj2 Sn _ _ Ht) as [E1 E2 _]. lia. }
    assert (Mv : moved ts t2 s c n) by (eapply debit_credit_moved; eauto).
    destruct (tok_moved_paid w t ts t2 s c n Sn Ht Mv) as [P S']. exists (set_state w t (SToken t2)). split; [exact P|]. split; [exact S'|].
    intros k w' H f. destruct (H f) as (lg & E). eexists. cbn [Nat.add]. rewrite exec_eq. rewrite (sane_norm _ _ _ Sn Ht). cbn [oget rbind].
    rewrite bank_send_none. cbn [rbind]. pose proof Ht as Hi. apply state_at_inst in Hi as (ad & Hi). rewrite Hi. cbn [oget rbind i_state call].
    unfold token_execute. cbn [jmsg_ranges]. unfold u128_ok. apply N.ltb_lt in Hr. rewrite Hr. cbn [negb].
    unfold token_send. rewrite (proj2 (nonzero_ok n) Hn). cbn [rbind].
    rewrite (proj2 (addr_validate_ok A c c) (conj eq_refl Hc)). cbn [rbind]. rewrite D1. cbn [rbind]. rewrite D2. cbn [rbind wrap rs_msgs rs_attrs].
    rewrite run_plain. cbn [Nat.add] in E. rewrite E. cbn [rbind]. rewrite run_nil. cbn [rbind]. reflexivity.
  Qed.

  (** *** Queries *)
  Lemma query_pool_ok w i a v : sane C w -> live w i -> query_pool A (wq C w) i a = Ok v -> norm A a <> None ->
    (forall t, i = Token t -> norm A a = Some a) /\
    exists a', norm A a = Some a' /\ v = holds w a' i /\ v < B128.
  Proof.
    intros Sn L H Hn. destruct i as [t|d]; cbn [query_pool] in H.
    - destruct L as (ts & Ht). apply rbind_ok in H as (t' & Ev & H). apply addr_validate_ok in Ev as [-> _].
      cbn [wq q_token_balance] in H. unfold ask_token_balance, contract_at in H. rewrite (sane_norm _ _ _ Sn Ht) in H. cbn [oget rbind] in H.
      pose proof Ht as Hi. apply state_at_inst in Hi as (ad & Hi). rewrite Hi in H. cbn [oget rbind i_state] in H.
      unfold token_query_balance in H. apply rbind_ok in H as (a' & Ev & H). apply addr_validate_ok in Ev as [-> Ha]. injection H as <-.
      split; [auto|]. exists a. split; [exact Ha|]. rewrite (holds_tok _ _ _ _ Ht). split; [reflexivity|].
      destruct (proj2 Sn _ _ Ht) as [E1 E2 _]. pose proof (balance_le_sum ts a). lia.
    - cbn [wq q_balance] in H. unfold ask_balance in H. apply rbind_ok in H as (a' & Ev & H). unfold in_u128 in H. cbn [rbind] in H.
      destruct (N.ltb_spec (bal w a' d) B128); [|discriminate]. injection H as <-.
      split; [discriminate|]. exists a'. unfold oget in Ev. destruct (norm A a); [|discriminate]. injection Ev as ->. auto.
  Qed.
  Lemma query_pool_live w i a : sane C w -> live w i -> norm A a = Some a -> holds w a i < B128 ->
    query_pool A (wq C w) i a = Ok (holds w a i).
  Proof.
    intros Sn L Ha Hr. destruct i as [t|d]; cbn [query_pool].
    - destruct L as (ts & Ht). rewrite (proj2 (addr_validate_ok A t t) (conj eq_refl (sane_norm _ _ _ Sn Ht))). cbn [rbind].
      cbn [wq q_token_balance]. unfold ask_token_balance, contract_at. rewrite (sane_norm _ _ _ Sn Ht). cbn [oget rbind].
      pose proof Ht as Hi. apply state_at_inst in Hi as (ad & Hi). rewrite Hi. cbn [oget rbind i_state].
      unfold token_query_balance. rewrite (proj2 (addr_validate_ok A a a) (conj eq_refl Ha)). cbn [rbind]. rewrite (holds_tok _ _ _ _ Ht). reflexivity.
    - cbn [wq q_balance]. unfold ask_balance. rewrite Ha. cbn [oget rbind in_u128]. cbn [holds] in Hr. apply N.ltb_lt in Hr. rewrite Hr. reflexivity.
  Qed.
  (** A pair's queries give the same answers when it is itself being queried. *)
  Lemma query_pool_base w i a : query_pool A (base_querier C w) i a = query_pool A (wq C w) i a.
  Proof. destruct i; reflexivity. Qed.
  Lemma query_pools_base w st a : query_pools A (base_querier C w) st a = query_pools A (wq C w) st a.
  Proof.
    unfold query_pools. destruct (raw_to_normal A (r_asset_infos st).1); [|reflexivity].
    destruct (raw_to_normal A (r_asset_infos st).2); [|reflexivity]. cbn [rbind]. rewrite !query_pool_base. reflexivity.
  Qed.
  Lemma holds_range w t a : sane C w -> live w (Token t) -> holds w a (Token t) < B128.
  Proof.
    intros Sn (ts & Ht). rewrite (holds_tok _ _ _ _ Ht). destruct (proj2 Sn _ _ Ht) as [E1 E2 _]. pose proof (balance_le_sum ts a). lia.
  Qed.

  Lemma pools_inv w p st x o a od ad : sane C w -> pair_at w p st -> sides A st o a od ad -> live w o -> live w a ->
    query_pools A (wq C w) st p = Ok x ->
    holds w p o < B128 /\ holds w p a < B128 /\
    ((x = (Asset o (holds w p o), Asset a (holds w p a)) /\ r_asset_decimals st = (od, ad)) \/
     (x = (Asset a (holds w p a), Asset o (holds w p o)) /\ r_asset_decimals st = (ad, od))).
  Proof.
    intros Sn Hp Hs Lo La H. pose proof (sane_norm _ _ _ Sn Hp) as Np.
    assert (Q : forall i v, live w i -> query_pool A (wq C w) i p = Ok v -> v = holds w p i /\ v < B128).
    { intros i v Li Hq. destruct (query_pool_ok w i p v Sn Li Hq) as (_ & p' & E & -> & R); [congruence|].
      rewrite Np in E. injection E as <-. auto. }
    unfold query_pools in H. destruct Hs as [(R1 & R2 & Hd)|(R1 & R2 & Hd)]; apply named_normal in R1, R2; rewrite R1, R2 in H; cbn [rbind] in H;
      apply rbind_ok in H as (v0 & Q0 & H); apply rbind_ok in H as (v1 & Q1 & H); injection H as <-;
      apply Q in Q0 as [-> ?]; auto; apply Q in Q1 as [-> ?]; auto.
  Qed.
  Lemma pools_ok w p st o a od ad : sane C w -> pair_at w p st -> sides A st o a od ad -> live w o -> live w a ->
    holds w p o < B128 -> holds w p a < B128 -> exists x, query_pools A (wq C w) st p = Ok x.
  Proof.
    intros Sn Hp Hs Lo La Ro Ra. pose proof (sane_norm _ _ _ Sn Hp) as Np. unfold query_pools.
    destruct Hs as [(R1 & R2 & _)|(R1 & R2 & _)]; apply named_normal in R1, R2; rewrite R1, R2; cbn [rbind]; rewrite !query_pool_live by auto; cbn [rbind]; eauto.
  Qed.

  Definition swap_attrs (sender rcv t : string) (ai : asset_info) (n r sp c : N) : list (string * string) :=
    [("action", "swap"); ("sender", sender); ("receiver", rcv); ("offer_asset", t);
     ("ask_asset", info_to_string ai); ("offer_amount", dec_to_string n); ("return_amount", dec_to_string r);
     ("spread_amount", dec_to_string sp); ("commission_amount", dec_to_string c)]%string.

  (** A pair receives a Swap hook from one of its tokens. *)
  Lemma swap_recv_inv f w t p s n bp ms to st ai od ad w' x lg : sane C w -> pair_at w p st ->
    sides A st (Token t) ai od ad -> Token t <> ai -> live w (Token t) -> live w ai ->
    exec C f w t (MExecute p (JReceive s n (HSwap bp ms to)) []) = Ok (w', x, lg) ->
    let rcv := match to with Some z => z | None => s end in
    exists r sp c rcv' lg', n <= holds w p (Token t) /\ n < B128 /\ holds w p (Token t) < B128 /\ holds w p ai < B128 /\
      compute_swap (holds w p (Token t) - n) (holds w p ai) n = Ok (r, sp, c) /\
      assert_max_spread bp ms n r sp od ad = Ok tt /\
      (norm A rcv = Some rcv' \/ r = 0) /\ paid w w' ai p rcv' r /\ sane C w' /\
      lg = Event p t (JReceive s n (HSwap bp ms to)) (swap_attrs s rcv t ai n r sp c) [] w :: lg'.
  Proof.
    intros Sn Hp Hs Hne Lt La E rcv. destruct f; [rewrite exec_0 in E; discriminate|]. rewrite exec_eq in E.
    rewrite (sane_norm _ _ _ Sn Hp) in E. cbn [oget rbind] in E. rewrite bank_send_none in E. cbn [rbind] in E.
    pose proof Hp as Hi. apply state_at_inst in Hi as (adm & Hi). rewrite Hi in E. cbn [oget rbind i_state call] in E.
    apply rbind_ok in E as ([s' rsp] & Ec & E). apply rbind_ok in Ec as ([st' rsp'] & Ec & X). injection X as <- <-.
    apply receive_swap_inv in Ec as (y & to' & Hn & _ & _ & Hy & _ & -> & _ & Ec).
    apply swap_inv in Ec as (y' & op & ak & ask & od' & ad' & r & sp & c & Hy' & -> & Hdir & Hc & Hm & Hmsg & Hat).
    rewrite Hy in Hy'. injection Hy' as <-.
    apply (pools_inv w p st y (Token t) ai od ad) in Hy as (Ro & Ra & Hy); auto. cbn [a_info a_amount] in Hdir.
    assert (Z : ak = ai /\ ask = holds w p ai /\ op = holds w p (Token t) - n /\ n <= holds w p (Token t) /\ od' = od /\ ad' = ad).
    { destruct Hy as [[-> Ed]|[-> Ed]]; cbn [fst snd a_info a_amount] in Hdir; rewrite Ed in Hdir; cbn [fst snd] in Hdir;
        destruct Hdir as [(F1 & F2 & F3 & F4 & F5 & F6 & F7)|(F0 & F1 & F2 & F3 & F4 & F5 & F6 & F7)]; subst; auto 10; congruence. }
    destruct Z as (-> & -> & -> & Hle & -> & ->). cbn [a_info a_amount] in *.
    apply rbind_ok in E as ([w2 lg2] & Er & E). injection E as <- <- <-.
    pose proof (set_state_id w p _ Hi) as Hid. cbn [i_state] in Hid. rewrite Hid in Er.
    rewrite Hat. exists r, sp, c.
    destruct f; [rewrite run_0 in Er; discriminate|]. rewrite Hmsg in Er. destruct (N.eqb_spec r 0) as [->|Hr].
    - rewrite run_nil in Er. injection Er as <- <-. exists ""%string, []. repeat (split; [auto; fail|]).
      split; [apply paid_zero|]. split; [exact Sn|reflexivity].
    - rewrite run_plain in Er. apply rbind_ok in Er as ([[w3 r3] lg3] & Ee & Er). apply rbind_ok in Er as ([w4 lg4] & En & Er). injection Er as <- <-.
      destruct f; [rewrite run_0 in En; discriminate|]. rewrite run_nil in En. injection En as <- <-.
      apply pay_inv in Ee as (rcv' & Hrc & P & S' & _); auto. exists rcv', (lg3 ++ []). auto 14.
  Qed.

  Lemma swap_recv_ok_gen w t p s n bp ms to st ai od ad r sp c : sane C w -> pair_at w p st ->
    sides A st (Token t) ai od ad -> Token t <> ai -> live w (Token t) -> live w ai ->
    n <= holds w p (Token t) -> holds w p ai < B128 ->
    (match to with Some z => norm A z = Some z | None => norm A s = Some s end) ->
    compute_swap (holds w p (Token t) - n) (holds w p ai) n = Ok (r, sp, c) ->
    ou128_ok bp = true -> ou128_ok ms = true ->
    assert_max_spread bp ms n r sp od ad = Ok tt ->
    exists w', forall f, exists lg, exec C (S (S (S (S f)))) w t (MExecute p (JReceive s n (HSwap bp ms to)) []) = Ok (w', None, lg).
  Proof.
    intros Sn Hp Hs Hne Lt La Hle Ra Hto Hc Hbp Hms Hm.
    pose proof (holds_range w t p Sn Lt) as Ro. assert (Hn : n < B128) by lia.
    destruct (pools_ok w p st (Token t) ai od ad Sn Hp Hs Lt La Ro Ra) as (y & Hy).
    pose proof (pools_inv w p st y (Token t) ai od ad Sn Hp Hs Lt La Hy) as (_ & _ & Hy').
    set (rcv := match to with Some z => z | None => s end).
    assert (Nr : norm A rcv = Some rcv) by (unfold rcv; destruct to; exact Hto).
    assert (Rr : r < B128 /\ r <= holds w p ai).
    { assert (Ro' : holds w p (Token t) - n < B128) by lia. pose proof (C02_never_overdrawn _ _ _ _ _ _ Ro' Ra Hn Hc). lia. }
    assert (Hcall : exists attrs, pair_execute A (wq C w) p st t [] (JReceive s n (HSwap bp ms to)) =
      Ok (st, Response (if r =? 0 then [] else [plain (into_msg (Asset ai r) rcv)]) attrs)).
    { eexists. unfold pair_execute. cbn [jmsg_ranges]. unfold u128_ok. rewrite (proj2 (N.ltb_lt _ _) Hn). cbn [negb].
      unfold pair_receive. cbn [hook_ranges]. rewrite Hbp, Hms. cbn [andb negb]. rewrite Hy. cbn [rbind].
      rewrite (surjective_pairing y).
      assert (Ha : is_token_at (a_info y.1) t || is_token_at (a_info y.2) t = true).
      { unfold is_token_at. destruct Hy' as [[-> _]|[-> _]]; cbn [a_info fst snd]; rewrite (bool_decide_true (t = t)) by reflexivity;
          [reflexivity|apply orb_true_r]. }
      rewrite Ha. cbn [require rbind].
      assert (Ev : (match to with Some t0 => let* v := addr_validate A t0 in Ok (Some v) | None => Ok None end) = Ok to).
      { destruct to; [|reflexivity]. rewrite (proj2 (addr_validate_ok A s0 s0) (conj eq_refl Hto)). reflexivity. }
      rewrite Ev. cbn [rbind]. unfold swap. cbn [assert_sent_native a_info rbind]. rewrite Hy. cbn [rbind]. rewrite (surjective_pairing y).
      assert (Es : forall v d, n <= v -> u128_checked_sub v n = Ok d <-> d = v - n) by (intros v d L; rewrite u128_checked_sub_ok; tauto).
      destruct Hy' as [[-> Ed]|[-> Ed]]; rewrite Ed; cbn [fst snd a_info a_amount].
      - rewrite (proj2 (info_equal_spec (Token t) (Token t)) eq_refl). rewrite (proj2 (Es _ _ Hle) eq_refl). cbn [rbind a_amount].
        rewrite Hc. cbn [rbind]. rewrite Hm. cbn [rbind a_info]. reflexivity.
      - destruct (info_equal (Token t) ai) eqn:E; [apply info_equal_spec in E; congruence|].
        rewrite (proj2 (info_equal_spec (Token t) (Token t)) eq_refl). rewrite (proj2 (Es _ _ Hle) eq_refl). cbn [rbind a_amount].
        rewrite Hc. cbn [rbind]. rewrite Hm. cbn [rbind a_info]. reflexivity. }
    destruct Hcall as (attrs & Hcall). pose proof Hp as Hi. apply state_at_inst in Hi as (adm & Hi).
    pose proof (set_state_id w p _ Hi) as Hid. cbn [i_state] in Hid.
    assert (Hd : forall f, exec C (S f) w t (MExecute p (JReceive s n (HSwap bp ms to)) []) =
      let* '(w2, lg) := run C f w p (if r =? 0 then [] else [plain (into_msg (Asset ai r) rcv)]) in
      Ok (w2, None, Event p t (JReceive s n (HSwap bp ms to)) attrs [] w :: lg)).
    { intros f. rewrite exec_eq. rewrite (sane_norm _ _ _ Sn Hp). cbn [oget rbind]. rewrite bank_send_none. cbn [rbind].
      rewrite Hi. cbn [oget rbind i_state call]. rewrite Hcall. cbn [wrap rbind rs_msgs rs_attrs]. rewrite Hid. reflexivity. }
    destruct (N.eqb_spec r 0) as [->|Hr].
    - exists w. intros f. eexists. rewrite Hd. rewrite run_nil. reflexivity.
    - destruct (pay_ok w p ai r rcv) as (w' & Hw); auto; [lia|tauto|tauto|]. exists w'. intros f. destruct (Hw f) as (lg & E).
      eexists. rewrite Hd. rewrite run_plain. rewrite E. cbn [rbind]. rewrite run_nil. reflexivity.
  Qed.

  Lemma swap_recv_ok w t p s n to st ai od ad r sp c : sane C w -> pair_at w p st ->
    sides A st (Token t) ai od ad -> Token t <> ai -> live w (Token t) -> live w ai ->
    n <= holds w p (Token t) -> holds w p ai < B128 ->
    (match to with Some z => norm A z = Some z | None => norm A s = Some s end) ->
    compute_swap (holds w p (Token t) - n) (holds w p ai) n = Ok (r, sp, c) ->
    assert_max_spread None None n r sp od ad = Ok tt ->
    exists w', forall f, exists lg, exec C (S (S (S (S f)))) w t (MExecute p (JReceive s n (HSwap None None to)) []) = Ok (w', None, lg).
  Proof. intros. eapply swap_recv_ok_gen; eauto. Qed.

  (** *** Burning *)
  Lemma te_burn_inv b t s n t' l : tok_effect A b t s (JBurn n) t' l ->
    0 < n /\ n < B128 /\ n <= balance_of t s /\ n <= tk_supply t /\ l = [] /\
    t' = set_supply (set_bal t (<[s := balance_of t s - n]> (tk_bal t))) (tk_supply t - n).
  Proof.
    intros H. inversion H as [| |? t1 ? H1 H2 H3 H4 H5| | | | | | | |]; subst. apply debit_ok in H3 as [H3 ->]. auto 10.
  Qed.

  (** [n] of token [t] held by [a] disappeared, and nothing else happened. *)
  Record burnt (w w' : world) (t a : string) (n : N) : Prop := {
    bn_have : n <= holds w a (Token t);
    bn_holds : forall x j, holds w' x j + (if decide (x = a /\ j = Token t) then n else 0) = holds w x j;
    bn_keep : forall x s, state_at w x = Some s -> (forall ts, s <> SToken ts) -> state_at w' x = Some s;
    bn_supply : forall ts, tok_at w t ts -> exists ts', tok_at w' t ts' /\ tk_supply ts' + n = tk_supply ts /\ tk_mint ts' = tk_mint ts;
    bn_toks : forall u us, tok_at w u us -> u <> t -> tok_at w' u us;
  }.

  Lemma tok_burnt w t ts a n : sane C w -> tok_at w t ts -> n <= balance_of ts a -> n <= tk_supply ts -> 0 < n -> n < B128 ->
    let w' := set_state w t (SToken (set_supply (set_bal ts (<[a := balance_of ts a - n]> (tk_bal ts))) (tk_supply ts - n))) in
    burnt w w' t a n /\ sane C w'.
  Proof.
    intros [F T] Ht Hb Hsu Hp Hr w'. set (ts' := set_supply _ _) in w'. pose proof Ht as Hi. apply state_at_inst in Hi as (ad & Hi).
    assert (S : forall x, state_at w' x = if decide (x = t) then Some (SToken ts') else state_at w x).
    { intros x. unfold w'. rewrite state_at_set; [reflexivity|eauto]. }
    assert (Ht' : tok_at w' t ts') by (unfold tok_at; rewrite S, decide_True; reflexivity).
    assert (B : forall x, balance_of ts' x = if decide (x = a) then balance_of ts a - n else balance_of ts x).
    { intros x. pose proof (balance_set ts a (balance_of ts a - n) x) as E. unfold ts'. exact E. }
    split.
    - split.
      + rewrite (holds_tok w t ts) by exact Ht. exact Hb.
      + intros x j. destruct j as [u|d].
        * destruct (decide (u = t)) as [->|Hne].
          -- rewrite (holds_tok w t ts) by exact Ht. rewrite (holds_tok w' t ts') by exact Ht'. rewrite B.
             destruct (decide (x = a)) as [->|Hx].
             ++ rewrite decide_True by auto. lia.
             ++ rewrite decide_False by tauto. lia.
          -- unfold holds. rewrite S, decide_False by exact Hne.
             destruct (decide (x = a /\ Token u = Token t)) as [[_ E]|_]; [congruence|]. lia.
        * unfold holds. unfold w'. rewrite set_state_bal. destruct (decide (x = a /\ Native d = Token t)) as [[_ E]|_]; [congruence|]. lia.
      + intros x s Hx Hn. rewrite S. destruct (decide (x = t)) as [->|_]; [|exact Hx].
        unfold tok_at in Ht. rewrite Ht in Hx. injection Hx as <-. destruct (Hn ts eq_refl).
      + intros us Hu. rewrite (tok_at_inj _ _ _ _ Hu Ht). exists ts'. split; [exact Ht'|]. unfold ts'. cbn. split; [lia|reflexivity].
      + intros u us Hu Hne. unfold tok_at. rewrite S, decide_False by exact Hne. exact Hu.
    - split.
      + apply (fresh_set C w w); auto.
      + intros u us Hu. unfold tok_at in Hu. rewrite S in Hu. destruct (decide (u = t)) as [->|_]; [|eauto].
        injection Hu as <-. eapply (token_ok_effect A (w_block w) ts a (JBurn n)); [exact (T _ _ Ht)|].
        eapply te_burn; [exact Hp|exact Hr|apply debit_ok; split; [exact Hb|reflexivity]|exact Hsu|reflexivity].
  Qed.

  Lemma burn_inv f w a t n w' r lg : sane C w -> live w (Token t) ->
    exec C f w a (MExecute t (JBurn n) []) = Ok (w', r, lg) -> burnt w w' t a n /\ sane C w' /\ 0 < n.
  Proof.
    intros Sn (ts & Ht) E. destruct f; [rewrite exec_0 in E; discriminate|]. rewrite exec_eq in E.
    rewrite (sane_norm _ _ _ Sn Ht) in E. cbn [oget rbind] in E. rewrite bank_send_none in E. cbn [rbind] in E.
    pose proof Ht as Hi. apply state_at_inst in Hi as (ad & Hi). rewrite Hi in E. cbn [oget rbind i_state call] in E.
    apply rbind_ok in E as ([s' rsp] & Ec & E). apply rbind_ok in Ec as ([ts' rsp'] & Ec & X). injection X as <- <-.
    apply token_execute_inv, te_burn_inv in Ec as (Hn & Hlt & Hb & Hs & E3 & ->).
    rewrite E3 in E. destruct f; [rewrite run_0 in E; discriminate|]. rewrite run_nil in E. cbn [rbind] in E. injection E as <- _ _.
    destruct (tok_burnt w t ts a n Sn Ht Hb Hs Hn Hlt) as [B S']. auto.
  Qed.
  Lemma burn_ok w a t n : sane C w -> live w (Token t) -> 0 < n -> n < B128 -> n <= holds w a (Token t) ->
    exists w', forall f, exists lg, exec C (S (S f)) w a (MExecute t (JBurn n) []) = Ok (w', None, lg).
  Proof.
    intros Sn (ts & Ht) Hn Hr Hh. rewrite (holds_tok _ _ _ _ Ht) in Hh.
    assert (Hs : n <= tk_supply ts). { destruct (proj2 Sn _ _ Ht) as [E1 _ _]. pose proof (balance_le_sum ts a). lia. }
    eexists. intros f. eexists. rewrite exec_eq. rewrite (sane_norm _ _ _ Sn Ht). cbn [oget rbind].
    rewrite bank_send_none. cbn [rbind]. pose proof Ht as Hi. apply state_at_inst in Hi as (ad & Hi). rewrite Hi. cbn [oget rbind i_state call].
    unfold token_execute. cbn [jmsg_ranges]. unfold u128_ok. apply N.ltb_lt in Hr. rewrite Hr. cbn [negb].
    unfold token_burn. rewrite (proj2 (nonzero_ok n) Hn). cbn [rbind].
    rewrite (proj2 (debit_ok ts a n _) (conj Hh eq_refl)). cbn [rbind].
    cbn [set_bal tk_supply]. rewrite (proj2 (u128_checked_sub_ok _ n _) (conj eq_refl Hs)). cbn [rbind wrap rs_msgs rs_attrs].
    rewrite run_nil. cbn [rbind]. reflexivity.
  Qed.
End facts.
