(** The invariant of the whole chain: pairs are well formed and keep their
    configuration, LP tokens have their pair as only minter, token supplies are
    the sums of balances, and allowances come from users only. *)
From Verif Require Import Base BigNumber CwStd BigNumberFacts Asset Messages PairMath Pair PairFacts Token Factory FactoryFacts Router
  P_Token TokenFacts World WorldInd WorldFacts.
From Coq Require Import ZifyN.
Local Open Scope N_scope.
Ltac Zify.zify_post_hook ::= idtac.

(** ** Vocabulary *)
Definition pair_at (w : world) (p : string) (st : pair_info_raw) : Prop := state_at w p = Some (SPair st).
Definition tok_at (w : world) (t : string) (ts : token_state) : Prop := state_at w t = Some (SToken ts).
Definition fac_at (w : world) (f : string) (fs : factory_state) : Prop := state_at w f = Some (SFactory fs).
Definition adv_at (w : world) (a : string) : Prop := exists k d, state_at w a = Some (SAdv k d).

(** Accounts that decide for themselves: ordinary ones and third-party contracts. *)
Definition user (C : chain) (w : world) (a : string) : Prop := ordinary C a \/ adv_at w a.

Lemma pair_at_inj w p st st' : pair_at w p st -> pair_at w p st' -> st = st'.
Proof. unfold pair_at. congruence. Qed.
Lemma tok_at_inj w p st st' : tok_at w p st -> tok_at w p st' -> st = st'.
Proof. unfold tok_at. congruence. Qed.

(** [r] is how a contract stores the asset [i]: a denomination as it is, a token
    by its canonical address *)
Definition named (A : api) (r : asset_info_raw) (i : asset_info) : Prop :=
  match r, i with
  | NativeRaw d, Native d' => d' = d
  | TokenRaw c, Token h => human A c = Some h
  | _, _ => False
  end.
Lemma named_normal A r i : named A r i <-> raw_to_normal A r = Ok i.
Proof.
  destruct r as [c|d]; cbn [named raw_to_normal].
  - unfold addr_humanize. split.
    + destruct i; [intros ->; reflexivity|intros []].
    + destruct (human A c) as [h|]; [|discriminate]. cbn [oget rbind]. intros E. injection E as <-. reflexivity.
  - split; [destruct i; [intros []|intros ->; reflexivity]|intros E; injection E as <-; reflexivity].
Qed.

(** [i] is one of the pair's two assets *)
Definition pair_asset (A : api) (st : pair_info_raw) (i : asset_info) : Prop :=
  named A (r_asset_infos st).1 i \/ named A (r_asset_infos st).2 i.

(** [t] can be the LP token of [p]: a token with [p] as only minter (or a third-party contract) *)
Definition lp_at (w : world) (p t : string) : Prop :=
  (exists ts, tok_at w t ts /\ tk_mint ts = Some (p, None)) \/ adv_at w t.

Record pair_good (C : chain) (w : world) (p : string) (st : pair_info_raw) : Prop := {
  pg_self : human (ch_api C) (r_contract_addr st) = Some p;
  pg_asset0 : exists i, raw_to_normal (ch_api C) (r_asset_infos st).1 = Ok i;
  pg_asset1 : exists i, raw_to_normal (ch_api C) (r_asset_infos st).2 = Ok i;
  pg_dec0 : (r_asset_decimals st).1 < 256;
  pg_dec1 : (r_asset_decimals st).2 < 256;
  pg_reqs : reqs_ranges (r_requirements st) = true;
  pg_lp : r_liquidity_token st = ""%string \/
          exists t, human (ch_api C) (r_liquidity_token st) = Some t /\ lp_at w p t;
}.

Record main (C : chain) (w : world) : Prop := {
  mn_fresh : insts_fresh C w;
  mn_pairs : forall p st, pair_at w p st -> pair_good C w p st;
  mn_tokens : forall t ts, tok_at w t ts -> token_ok ts;
  mn_allow : forall t ts o s v, tok_at w t ts -> tk_allow ts !! (o, s) = Some v -> user C w o;
}.

Definition set_lp (st : pair_info_raw) (c : string) : pair_info_raw :=
  PairInfoRaw (r_asset_infos st) (r_contract_addr st) c (r_asset_decimals st) (r_requirements st).

(** A contract whose admin is a contract of this repository keeps its admin. *)
Definition admins (w w' : world) : Prop :=
  forall a i f st, w_insts w !! a = Some i -> i_admin i = Some f -> state_at w f = Some st ->
    (forall k d, st <> SAdv k d) -> exists i', w_insts w' !! a = Some i' /\ i_admin i' = Some f.

(** How the chain may change; [x] is a contract whose submessages are running. *)
Record rel (x : option string) (w w' : world) : Prop := {
  rl_grows : grows w w';
  rl_pairs : forall p st, pair_at w p st -> exists st', pair_at w' p st' /\
    (st' = st \/ (x = Some p /\ r_liquidity_token st = ""%string /\ st' = set_lp st (r_liquidity_token st')));
  rl_new : forall p st', pair_at w' p st' -> r_liquidity_token st' = ""%string ->
    exists st, pair_at w p st /\ r_liquidity_token st = ""%string;
  rl_toks : forall t ts, tok_at w t ts -> exists ts', tok_at w' t ts' /\
    tk_name ts' = tk_name ts /\ tk_symbol ts' = tk_symbol ts /\ tk_decimals ts' = tk_decimals ts /\
    (forall p st cap, tk_mint ts = Some (p, cap) -> pair_at w p st -> tk_mint ts' = tk_mint ts);
  rl_admins : admins w w';
}.

Lemma state_at_inst w a s : state_at w a = Some s <-> exists adm, w_insts w !! a = Some (Inst adm s).
Proof.
  unfold state_at. destruct (w_insts w !! a) as [[ad s']|]; cbn; split.
  - intros H. injection H as ->. eauto.
  - intros (ad' & H). congruence.
  - discriminate.
  - intros (? & ?). discriminate.
Qed.
Lemma grows_state w w' a s : grows w w' -> state_at w a = Some s -> exists s', state_at w' a = Some s' /\ same_kind s s'.
Proof.
  intros G H. apply state_at_inst in H as (ad & H). destruct (gr_insts _ _ G _ _ H) as (i & Hi & K).
  exists (i_state i). split; [|exact K]. unfold state_at. rewrite Hi. reflexivity.
Qed.
Lemma adv_grows w w' a : grows w w' -> adv_at w a -> adv_at w' a.
Proof.
  intros G (k & d & H). destruct (grows_state _ _ _ _ G H) as (s & Hs & K). destruct s; try destruct K. eexists _, _. exact Hs.
Qed.
Lemma user_grows C w w' a : grows w w' -> user C w a -> user C w' a.
Proof. intros G [O|H]; [left; exact O|right; eapply adv_grows; eauto]. Qed.
Lemma user_not_modelled C w a s : insts_fresh C w -> user C w a -> state_at w a = Some s -> adv_at w a.
Proof.
  intros F [O|H] Hs; [|exact H]. apply state_at_inst in Hs as (ad & Hs).
  rewrite (ordinary_no_inst C w a F O) in Hs. discriminate.
Qed.

Lemma admins_same w w' : w_insts w' = w_insts w -> admins w w'.
Proof. intros E a i f st H1 H2 _ _. rewrite E. eauto. Qed.
Lemma admins_trans w w1 w2 : grows w w1 -> admins w w1 -> admins w1 w2 -> admins w w2.
Proof.
  intros G H1 H2 a i f st Hi Ha Hs N. destruct (H1 a i f st Hi Ha Hs N) as (i1 & Hi1 & Ha1).
  destruct (grows_state _ _ _ _ G Hs) as (st1 & Hs1 & K). apply (H2 a i1 f st1 Hi1 Ha1 Hs1).
  intros k d ->. destruct st; try destruct K. exact (N _ _ eq_refl).
Qed.
Lemma admins_set w w1 a s : w_insts w1 = w_insts w -> admins w (set_state w1 a s).
Proof.
  intros E x i f st Hi Ha _ _. rewrite set_state_insts, E. case_decide; [|eauto]. subst. rewrite Hi. cbn. eauto.
Qed.

Lemma rel_refl x w : rel x w w.
Proof.
  split.
  - apply grows_refl.
  - intros p st H. exists st. auto.
  - intros p st H E. eauto.
  - intros t ts H. exists ts. repeat split; auto.
  - apply admins_same. reflexivity.
Qed.
Lemma rel_sub x w w' : rel None w w' -> rel x w w'.
Proof.
  intros [G P N T D]. split; auto. intros p st H. destruct (P _ _ H) as (st' & H' & [->|(E & _)]); [|discriminate]. eauto.
Qed.
Lemma rel_trans x w w1 w2 : rel x w w1 -> rel x w1 w2 -> rel x w w2.
Proof.
  intros [G P N T Ad] [G' P' N' T' Ad']. split.
  - eapply grows_trans; eauto.
  - intros p st H. destruct (P _ _ H) as (st1 & H1 & D1). destruct (P' _ _ H1) as (st2 & H2 & D2). exists st2. split; [exact H2|].
    destruct D1 as [->|(E & L & S)]; [exact D2|]. destruct D2 as [->|(E2 & L2 & S2)]; [right; auto|]. right. split; [exact E|]. split; [exact L|].
    rewrite S2 at 1. rewrite S. reflexivity.
  - intros p st H E. destruct (N' _ _ H E) as (st1 & H1 & E1). eapply N; eauto.
  - intros t ts H. destruct (T _ _ H) as (ts1 & H1 & A1 & A2 & A3 & A4). destruct (T' _ _ H1) as (ts2 & H2 & B1 & B2 & B3 & B4).
    exists ts2. split; [exact H2|]. split; [congruence|]. split; [congruence|]. split; [congruence|].
    intros p st cap Em Hp. specialize (A4 p st cap Em Hp). destruct (P _ _ Hp) as (st1 & Hp1 & _).
    rewrite (B4 p st1 cap); [exact A4|congruence|exact Hp1].
  - eapply admins_trans; eauto.
Qed.

Lemma lp_at_rel x w w' p st t : rel x w w' -> pair_at w p st -> lp_at w p t -> lp_at w' p t.
Proof.
  intros [G P N T _] Hp [(ts & Ht & Em)|Ha]; [left|right; eapply adv_grows; eauto].
  destruct (T _ _ Ht) as (ts' & Ht' & _ & _ & _ & M). exists ts'. split; [exact Ht'|]. rewrite (M p st None Em Hp). exact Em.
Qed.
Lemma pair_good_rel C x w w' p st : rel x w w' -> pair_at w p st -> pair_good C w p st -> pair_good C w' p st.
Proof.
  intros R Hp [A1 A2 A3 A4 A5 A6 A7]. split; auto. destruct A7 as [E|(t & Ht & L)]; [left; exact E|right].
  exists t. split; [exact Ht|]. eapply lp_at_rel; eauto.
Qed.

(** ** Steps that change one contract's storage *)
Section steps.
  Context (C : chain) (OK : chain_ok C).
  Local Notation A := (ch_api C).

  Lemma same_insts_rel w w' : w_insts w' = w_insts w -> w_next w' = w_next w ->
    main C w -> main C w' /\ rel None w w'.
  Proof.
    intros E1 E2 [F P T L]. assert (S : forall a, state_at w' a = state_at w a) by (intros; unfold state_at; rewrite E1; reflexivity).
    assert (G : grows w w').
    { split; [lia|]. intros a i. rewrite E1. intros H. exists i. auto using same_kind_refl. }
    assert (R : rel None w w').
    { split; [exact G| | | |].
      - intros p st H. exists st. unfold pair_at. rewrite S. auto.
      - intros p st H E. exists st. unfold pair_at in *. rewrite S in H. auto.
      - intros t ts H. exists ts. unfold tok_at. rewrite S. repeat split; auto.
      - apply admins_same. exact E1. }
    split; [|exact R]. split.
    - intros a. rewrite E1, E2. apply F.
    - intros p st H. unfold pair_at in H. rewrite S in H. eapply pair_good_rel; eauto.
    - intros t ts H. unfold tok_at in H. rewrite S in H. eauto.
    - intros t ts o s v H. unfold tok_at in H. rewrite S in H. intros Hl. eapply user_grows; eauto.
  Qed.

  Lemma main_set w w1 a s s' :
    main C w -> w_insts w1 = w_insts w -> w_next w1 = w_next w -> w_block w1 = w_block w ->
    state_at w a = Some s -> same_kind s s' ->
    (forall st, s = SPair st -> s' = SPair st) ->
    (forall ts, s = SToken ts -> exists ts', s' = SToken ts' /\ token_ok ts' /\
       tk_name ts' = tk_name ts /\ tk_symbol ts' = tk_symbol ts /\ tk_decimals ts' = tk_decimals ts /\
       (forall p st cap, tk_mint ts = Some (p, cap) -> pair_at w p st -> tk_mint ts' = tk_mint ts) /\
       (forall o sp v, tk_allow ts' !! (o, sp) = Some v -> user C w o)) ->
    main C (set_state w1 a s') /\ rel None w (set_state w1 a s').
  Proof.
    intros [F P T L] E1 E2 E3 Ha K HP HT.
    pose proof Ha as Ha0. apply state_at_inst in Ha0 as (ad & Hi).
    assert (S : forall x, state_at (set_state w1 a s') x = if decide (x = a) then Some s' else state_at w x).
    { intros x. rewrite state_at_set; [|rewrite E1; eauto]. unfold state_at. rewrite E1. reflexivity. }
    assert (G : grows w (set_state w1 a s')) by (eapply grows_set; eauto).
    assert (Pb : forall p st', pair_at (set_state w1 a s') p st' -> pair_at w p st').
    { intros p st' H. unfold pair_at in *. rewrite S in H. case_decide; [|exact H]. subst. injection H as ->.
      destruct s; try destruct K. rewrite Ha. rewrite <- (HP _ eq_refl). reflexivity. }
    assert (R : rel None w (set_state w1 a s')).
    { split; [exact G| | | |].
      - intros p st H. exists st. split; [|auto]. unfold pair_at in *. rewrite S. case_decide; [|exact H]. subst.
        rewrite Ha in H. injection H as ->. rewrite (HP _ eq_refl). reflexivity.
      - intros p st' H E. eauto.
      - intros t ts H. unfold tok_at in *. rewrite S. case_decide; [|exists ts; repeat split; auto]. subst.
        rewrite Ha in H. injection H as ->. destruct (HT _ eq_refl) as (ts' & -> & _ & B1 & B2 & B3 & B4 & _). exists ts'. auto.
      - apply admins_set. exact E1. }
    split; [|exact R]. split.
    - apply (fresh_set C w w1); auto.
    - intros p st H. apply Pb in H. eapply pair_good_rel; eauto.
    - intros t ts H. unfold tok_at in H. rewrite S in H. case_decide; [|eauto]. subst. injection H as ->.
      destruct s; try destruct K. destruct (HT _ eq_refl) as (ts' & E & X & _). injection E as ->. exact X.
    - intros t ts o sp v H Hl. unfold tok_at in H. rewrite S in H. eapply user_grows; [exact G|]. case_decide; [|eauto]. subst. injection H as ->.
      destruct s; try destruct K. destruct (HT _ eq_refl) as (ts' & E & X & _ & _ & _ & _ & Y). injection E as ->. eapply Y; eauto.
  Qed.

  Lemma main_admin w a adm : main C w ->
    (forall i f st, w_insts w !! a = Some i -> i_admin i = Some f -> state_at w f = Some st -> exists k d, st = SAdv k d) ->
    main C (set_admin w a adm) /\ rel None w (set_admin w a adm).
  Proof.
    intros [F P T L] Ha.
    assert (S : forall x, state_at (set_admin w a adm) x = state_at w x).
    { intros x. unfold state_at. rewrite set_admin_insts. case_decide; [|reflexivity]. subst. destruct (w_insts w !! a); reflexivity. }
    pose proof (grows_admin w a adm) as G.
    assert (R : rel None w (set_admin w a adm)).
    { split; [exact G| | | |].
      - intros p st H. exists st. unfold pair_at. rewrite S. auto.
      - intros p st H E. exists st. unfold pair_at in *. rewrite S in H. auto.
      - intros t ts H. exists ts. unfold tok_at. rewrite S. repeat split; auto.
      - intros x i f st Hi Hf Hs N. rewrite set_admin_insts. case_decide; [|eauto]. subst.
        destruct (Ha _ _ _ Hi Hf Hs) as (k & d & ->). destruct (N _ _ eq_refl). }
    split; [|exact R]. split.
    - apply fresh_admin. exact F.
    - intros p st H. unfold pair_at in H. rewrite S in H. eapply pair_good_rel; eauto.
    - intros t ts H. unfold tok_at in H. rewrite S in H. eauto.
    - intros t ts o s v H. unfold tok_at in H. rewrite S in H. intros Hl. eapply user_grows; eauto.
  Qed.

  (** ** What each kind of contract sends *)

  Inductive pair_msg (p : string) (st : pair_info_raw) : submsg -> Prop :=
  | pm_pay i n to : pair_asset A st i -> pair_msg p st (plain (into_msg (Asset i n) to))
  | pm_pull t o n : pair_asset A st (Token t) -> pair_msg p st (plain (MExecute t (JTransferFrom o p n) []))
  | pm_mint lp r n : human A (r_liquidity_token st) = Some lp -> pair_msg p st (plain (MExecute lp (JMint r n) []))
  | pm_burn lp n : human A (r_liquidity_token st) = Some lp -> pair_msg p st (plain (MExecute lp (JBurn n) [])).
  Inductive token_msg : submsg -> Prop :=
  | tm_receive c s n h : token_msg (plain (MExecute c (JReceive s n h) [])).
  Inductive router_msg (r : string) : submsg -> Prop :=
  | rm_hop o to : router_msg r (plain (MExecute r (JExecuteSwapOperation o to) []))
  | rm_min i b m rc : router_msg r (plain (MExecute r (JAssertMinimumReceive i b m rc) []))
  | rm_swap p a to : router_msg r (plain (asset_into_swap_msg p a to)).
  Inductive factory_msg (f : string) : submsg -> Prop :=
  | fm_create code infos tc dec reqs :
      factory_msg f (SubMsg (MInstantiate (Some f) code (IPair infos tc dec reqs) [] "pair") (ReplySuccess 1))
  | fm_migrate c code : factory_msg f (plain (MMigrate c code)).

  Definition may_state (a : string) (s : cstate) (sm : submsg) : Prop :=
    match s with
    | SPair st => pair_msg a st sm
    | SFactory _ => factory_msg a sm
    | SRouter _ => router_msg a sm
    | SToken _ => token_msg sm
    | SAdv _ _ => True
    end.
  (** the instantiation of its LP token by a new pair *)
  Definition lp_msg (p : string) (code : N) : submsg :=
    SubMsg (MInstantiate None code
      (IToken (TokenInit "halo liquidity token" "uLP" 6 [] (Some (p, None)))) [] "lp")
      (ReplySuccess INSTANTIATE_REPLY_ID).
  Definition lp_inst (a : string) (s : cstate) (sm : submsg) : Prop :=
    exists st code, s = SPair st /\ r_liquidity_token st = ""%string /\ sm = lp_msg a code.

  Definition may (w : world) (a : string) (sm : submsg) : Prop :=
    ordinary C a \/ exists s, state_at w a = Some s /\ (may_state a s sm \/ lp_inst a s sm).
  Definition mays (w : world) (a : string) (l : list submsg) : Prop :=
    (exists s, state_at w a = Some s /\ Forall (may_state a s) l) \/
    (exists s sm, state_at w a = Some s /\ lp_inst a s sm /\ l = [sm]).

  Lemma adv_msgs a k d l : Forall (may_state a (SAdv k d)) l.
  Proof. induction l; constructor; [exact I|assumption]. Qed.
  Lemma pair_msg_never p st sm : pair_msg p st sm -> never sm.
  Proof. intros [i n to Hi| | |]; reflexivity. Qed.
  Lemma into_msg_msg (a : asset) (to : string) : exists m, into_msg a to = m.
  Proof. eauto. Qed.

  Lemma query_pools_assets Q p st x : query_pools A Q st p = Ok x ->
    pair_asset A st (a_info x.1) /\ pair_asset A st (a_info x.2).
  Proof.
    unfold query_pools, pair_asset. rewrite !named_normal. intros H.
    apply rbind_ok in H as (i0 & E0 & H). apply rbind_ok in H as (i1 & E1 & H).
    apply rbind_ok in H as (a0 & _ & H). apply rbind_ok in H as (a1 & _ & H). injection H as <-. cbn [fst snd a_info]. auto.
  Qed.

  Lemma pair_execute_msgs Q p st s funds m st' rsp :
    pair_execute A Q p st s funds m = Ok (st', rsp) -> st' = st /\ Forall (pair_msg p st) (rs_msgs rsp).
  Proof.
    intros H. destruct m; try (unfold pair_execute in H; destruct (jmsg_ranges _) in H; discriminate).
    - assert (H' := H). unfold pair_execute in H'. destruct (jmsg_ranges (JReceive sender amount msg)); [|discriminate]. cbn [negb] in H'.
      unfold pair_receive in H'. destruct (hook_ranges msg); [|discriminate]. cbn [negb] in H'.
      destruct msg as [bp ms to| |ops mr to|pl]; try discriminate.
      + apply receive_swap_inv in H as (x & to' & _ & _ & _ & _ & _ & _ & _ & H).
        apply swap_inv in H as (y & op & ai & ask & od & ad & r & sp & c & Hq & -> & Hc & _ & _ & Hm & _).
        split; [reflexivity|]. rewrite Hm. destruct (r =? 0); constructor; [|constructor]. constructor.
        apply query_pools_assets in Hq as [Q1 Q2].
        destruct Hc as [(_ & _ & _ & -> & _)|(_ & _ & _ & _ & -> & _)]; assumption.
      + apply receive_withdraw_inv in H as (_ & _ & _ & H).
        apply withdraw_inv in H as (x & lp & ti & r0 & r1 & -> & Hq & Hl & _ & _ & Hm).
        split; [reflexivity|]. rewrite Hm. apply query_pools_assets in Hq as [Q1 Q2].
        cbn [map]. constructor; [apply pm_pay; exact Q1|]. constructor; [apply pm_pay; exact Q2|].
        constructor; [apply pm_burn; exact Hl|constructor].
    - unfold pair_execute in H. destruct (jmsg_ranges _) in H; [|discriminate]. cbn [negb] in H.
      apply provide_inv in H as (x & d0 & d1 & m0 & p0 & m1 & p1 & lp & ti & share & _ & _ & -> & Hq & _ & _ & P0 & P1 & _ & Hl & _ & _ & _ & Hm).
      split; [reflexivity|]. rewrite Hm. apply query_pools_assets in Hq as [Q1 Q2].
      apply pull_deposit_ok in P0, P1.
      rewrite !map_app. repeat apply Forall_app_2.
      + destruct (a_info x.1); destruct P0 as [-> _]; [|constructor]. constructor; [|constructor]. apply pm_pull. exact Q1.
      + destruct (a_info x.2); destruct P1 as [-> _]; [|constructor]. constructor; [|constructor]. apply pm_pull. exact Q2.
      + constructor; [|constructor]. apply pm_mint. exact Hl.
  Qed.

  Lemma op_messages_msgs r to ops : Forall (router_msg r) (map plain (op_messages r to ops)).
  Proof.
    induction ops as [|o [|o' ops] IH]; [constructor|constructor; [apply rm_hop|constructor]|].
    constructor; [apply rm_hop|exact IH].
  Qed.
  Lemma swap_operations_msgs Q r st s ops m to st' rsp :
    execute_swap_operations A Q r st s ops m to = Ok (st', rsp) -> st' = st /\ Forall (router_msg r) (rs_msgs rsp).
  Proof.
    unfold execute_swap_operations. destruct (list.last ops); [|discriminate]. intros H.
    apply rbind_ok in H as (_ & _ & H). destruct m.
    - apply rbind_ok in H as (b & _ & H). injection H as <- <-. split; [reflexivity|]. cbn [rs_msgs]. rewrite map_app.
      apply Forall_app_2; [apply op_messages_msgs|]. constructor; [apply rm_min|constructor].
    - injection H as <- <-. split; [reflexivity|]. apply op_messages_msgs.
  Qed.
  Lemma router_execute_msgs Q r st s m st' rsp :
    router_execute A Q r st s m = Ok (st', rsp) -> st' = st /\ Forall (router_msg r) (rs_msgs rsp).
  Proof.
    unfold router_execute. destruct (jmsg_ranges m); [|discriminate]. cbn [negb]. intros H. destruct m; try discriminate.
    - unfold router_receive in H. apply rbind_ok in H as (s' & _ & H). destruct (hook_ranges msg); [|discriminate]. cbn [negb] in H.
      destruct msg; try discriminate. apply rbind_ok in H as (to' & _ & H). eapply swap_operations_msgs; eauto.
    - apply rbind_ok in H as (to' & _ & H). eapply swap_operations_msgs; eauto.
    - apply rbind_ok in H as (to' & _ & H). unfold execute_swap_operation in H.
      apply rbind_ok in H as (_ & _ & H). apply rbind_ok in H as (f & _ & H). apply rbind_ok in H as (pi & _ & H).
      apply rbind_ok in H as (n & _ & H). injection H as <- <-. split; [reflexivity|]. constructor; [apply rm_swap|constructor].
    - apply rbind_ok in H as (r' & _ & H). unfold assert_minimum_receive in H.
      apply rbind_ok in H as (b & _ & H). apply rbind_ok in H as (g & _ & H). destruct (g <? minimum_receive); [discriminate|].
      injection H as <- <-. split; [reflexivity|]. constructor.
  Qed.
  Lemma factory_execute_msgs Q f st s m st' rsp :
    factory_execute A Q f st s m = Ok (st', rsp) -> Forall (factory_msg f) (rs_msgs rsp).
  Proof.
    intros H. apply factory_execute_inv in H as [(o & t & p & _ & H)|[(i & r & _ & H)|[(d & n & _ & _ & H)|(c & k & _ & H)]]].
    - unfold update_config in H. apply rbind_ok in H as (_ & _ & H). apply rbind_ok in H as (o' & _ & H). injection H as <- <-. constructor.
    - apply create_pair_inv in H as (d0 & d1 & r0 & r1 & _ & _ & _ & _ & _ & _ & _ & ->). constructor; [constructor|constructor].
    - unfold add_native in H. apply rbind_ok in H as (_ & _ & H). apply rbind_ok in H as (b & _ & H). apply rbind_ok in H as (_ & _ & H).
      injection H as <- <-. constructor.
    - unfold migrate_pair in H. apply rbind_ok in H as (_ & _ & H). injection H as <- <-. constructor; [constructor|constructor].
  Qed.
  Lemma token_effect_msgs b t s m t' l : tok_effect A b t s m t' l -> Forall token_msg l.
  Proof. intros H. destruct H; repeat constructor. Qed.

  (** Only users send allowance and minter messages. *)
  Definition user_msg (m : jmsg) : Prop :=
    match m with
    | JIncreaseAllowance _ _ _ | JDecreaseAllowance _ _ _ | JUpdateMinter _ | JSendFrom _ _ _ _ | JBurnFrom _ _ => True
    | _ => False
    end.
  Lemma may_user w s ro c m funds : main C w -> may w s (SubMsg (MExecute c m funds) ro) -> user_msg m -> user C w s.
  Proof.
    intros M [O|(st & Hs & [H|(st' & code & _ & _ & E)])] U; [left; exact O| |discriminate].
    destruct st; cbn in H.
    - exfalso. inversion H; subst; try exact U. destruct i; cbn in *; try discriminate.
      match goal with E : _ = MExecute _ _ _ |- _ => injection E as <- <- <- end. exact U.
    - exfalso. inversion H.
    - exfalso. inversion H; subst; try exact U. unfold asset_into_swap_msg in *. destruct (a_info a);
      match goal with E : _ = MExecute _ _ _ |- _ => injection E as <- <- <- end; exact U.
    - exfalso. inversion H; subst. exact U.
    - right. eexists _, _. exact Hs.
  Qed.

  (** ** The token's step *)
  Lemma token_step w t ts s m ts' l b ro c funds :
    main C w -> tok_at w t ts -> tok_effect A b ts s m ts' l -> may w s (SubMsg (MExecute c m funds) ro) ->
    token_ok ts' /\ tk_name ts' = tk_name ts /\ tk_symbol ts' = tk_symbol ts /\ tk_decimals ts' = tk_decimals ts /\
    (forall p st cap, tk_mint ts = Some (p, cap) -> pair_at w p st -> tk_mint ts' = tk_mint ts) /\
    (forall o sp v, tk_allow ts' !! (o, sp) = Some v -> user C w o).
  Proof.
    intros M Ht E Hm. pose proof (mn_tokens _ _ M _ _ Ht) as TO. split; [eapply token_ok_effect; eauto|].
    pose proof (mn_allow _ _ M) as AL.
    assert (Ded : forall o sp n ts1, deduct_allowance ts o sp b n = Ok ts1 ->
      tk_name ts1 = tk_name ts /\ tk_symbol ts1 = tk_symbol ts /\ tk_decimals ts1 = tk_decimals ts /\ tk_mint ts1 = tk_mint ts /\
      forall o sp v, tk_allow ts1 !! (o, sp) = Some v -> user C w o).
    { intros o sp n ts1 D. apply deduct_ok in D as (v & e & D & _ & _ & ->). repeat split; auto.
      intros o' sp' v'. cbn [set_allow tk_allow]. destruct (decide ((o', sp') = (o, sp))) as [Q|Q].
      - injection Q as -> ->. intros _. eapply AL; eauto.
      - rewrite lookup_insert_ne by congruence. eapply AL; eauto. }
    destruct E.
    - destruct H2 as [(A1 & A2 & A3 & A4 & A5 & A6) _ _ _]. rewrite A6. repeat split; auto. intros; eapply AL; eauto.
    - destruct H2 as [(A1 & A2 & A3 & A4 & A5 & A6) _ _ _]. rewrite A6. repeat split; auto. intros; eapply AL; eauto.
    - apply debit_ok in H1 as [_ ->]. subst t'. repeat split; auto. intros; eapply AL; eauto.
    - apply credit_ok in H5 as [_ ->]. repeat split; auto. intros; eapply AL; eauto.
    - assert (U : user C w s) by (eapply may_user; eauto; exact I).
      repeat split; auto. intros o' sp' v0. cbn [set_allow tk_allow]. destruct (decide ((o', sp') = (s, sp))) as [Q|Q].
      + injection Q as -> ->. auto.
      + rewrite lookup_insert_ne by congruence. eapply AL; eauto.
    - assert (U : user C w s) by (eapply may_user; eauto; exact I).
      repeat split; auto. intros o' sp' v0. cbn [set_allow tk_allow]. destruct (decide ((o', sp') = (s, sp))) as [Q|Q].
      + injection Q as -> ->. auto.
      + rewrite lookup_insert_ne by congruence. eapply AL; eauto.
    - repeat split; auto. intros o' sp' v0. cbn [set_allow tk_allow]. destruct (decide ((o', sp') = (s, sp))) as [Q|Q].
      + injection Q as -> ->. rewrite lookup_delete. discriminate.
      + rewrite lookup_delete_ne by congruence. eapply AL; eauto.
    - destruct (Ded _ _ _ _ H2) as (D1 & D2 & D3 & D4 & D5).
      destruct H3 as [(A1 & A2 & A3 & A4 & A5 & A6) _ _ _]. rewrite A6. repeat split; try congruence; auto.
    - destruct (Ded _ _ _ _ H2) as (D1 & D2 & D3 & D4 & D5).
      destruct H3 as [(A1 & A2 & A3 & A4 & A5 & A6) _ _ _]. rewrite A6. repeat split; try congruence; auto.
    - destruct (Ded _ _ _ _ H1) as (D1 & D2 & D3 & D4 & D5).
      apply debit_ok in H2 as [_ ->]. subst t'. cbn [set_supply set_bal tk_name tk_symbol tk_decimals tk_mint tk_allow]. repeat split; auto.
    - assert (U : user C w s) by (eapply may_user; eauto; exact I).
      cbn [set_mint tk_name tk_symbol tk_decimals tk_mint tk_allow]. repeat split; auto.
      + intros p st cap' Em Hp. rewrite H in Em. injection Em as -> _. exfalso.
        destruct (user_not_modelled C w p _ (mn_fresh _ _ M) U Hp) as (k & d & X). unfold pair_at in Hp. congruence.
      + intros; eapply AL; eauto.
  Qed.

  (** ** New contracts *)
  Lemma main_inst w w1 from cs adm s :
    let a := ch_fresh C (w_next w) in
    let w2 := set_insts w1 (<[a := Inst adm s]> (w_insts w1)) in
    main C w -> bank_moved (set_next w (w_next w + 1)) w1 from a cs ->
    (forall st, s = SPair st -> pair_good C w2 a st) ->
    (forall ts, s = SToken ts -> token_ok ts /\ tk_allow ts = ∅) ->
    main C w2 /\ grows w w2 /\ (forall x, state_at w2 x = if decide (x = a) then Some s else state_at w x) /\
    state_at w a = None.
  Proof.
    intros a w2 M Hb HP HT. destruct (fresh_inst C OK w w1 adm s from cs (mn_fresh _ _ M) Hb) as [F G]. fold a w2 in F, G.
    assert (Hn : w_insts w !! a = None) by (apply fresh_none; [exact OK|apply (mn_fresh _ _ M)]).
    assert (S : forall x, state_at w2 x = if decide (x = a) then Some s else state_at w x).
    { intros x. unfold state_at, w2. cbn [set_insts w_insts]. destruct Hb as [E1 _ _ _ _]. rewrite E1. cbn [set_next w_insts]. case_decide.
      - subst x. rewrite lookup_insert. reflexivity.
      - rewrite lookup_insert_ne by congruence. reflexivity. }
    split; [|split; [exact G|split; [exact S|unfold state_at; rewrite Hn; reflexivity]]].
    assert (Pk : forall p st t, pair_at w p st -> lp_at w p t -> lp_at w2 p t).
    { intros p st t Hp [(ts & Ht & Em)|Ha]; [left|right; eapply adv_grows; eauto].
      exists ts. split; [|exact Em]. unfold tok_at in *. rewrite S. case_decide as D; [|exact Ht]. subst t.
      unfold state_at in Ht. rewrite Hn in Ht. discriminate. }
    split; [exact F| | |].
    - intros p st H. unfold pair_at in H. rewrite S in H. case_decide; [subst; injection H as ->; auto|].
      destruct (mn_pairs _ _ M _ _ H) as [A1 A2 A3 A4 A5 A6 A7]. split; auto.
      destruct A7 as [E|(t & Ht & L)]; [left; exact E|right]. exists t. split; [exact Ht|]. eapply Pk; eauto.
    - intros t ts H. unfold tok_at in H. rewrite S in H. case_decide; [subst; injection H as ->; apply HT; reflexivity|].
      eapply mn_tokens; eauto.
    - intros t ts o sp v H Hl. unfold tok_at in H. rewrite S in H. eapply user_grows; [exact G|]. case_decide.
      + subst. injection H as ->. destruct (HT _ eq_refl) as [_ E]. rewrite E, lookup_empty in Hl. discriminate.
      + eapply mn_allow; eauto.
  Qed.

  Lemma rel_from_new w w2 w3 a s : grows w w2 -> admins w w2 ->
    (forall x, state_at w2 x = if decide (x = a) then Some s else state_at w x) -> state_at w a = None ->
    rel (Some a) w2 w3 -> (forall st', pair_at w3 a st' -> r_liquidity_token st' <> ""%string) ->
    rel None w w3.
  Proof.
    intros G Ad S Hn [G' P N T Ad'] HL. split.
    - eapply grows_trans; eauto.
    - intros p st H. assert (D : p <> a) by (intros ->; unfold pair_at in H; congruence).
      assert (H2 : pair_at w2 p st) by (unfold pair_at in *; rewrite S, decide_False by exact D; exact H).
      destruct (P _ _ H2) as (st' & H3 & [->|(E & _)]); [|congruence]. exists st. auto.
    - intros p st' H E. destruct (decide (p = a)) as [->|D]; [exfalso; exact (HL _ H E)|].
      destruct (N _ _ H E) as (st & H2 & E2). exists st. split; [|exact E2].
      unfold pair_at in *. rewrite S, decide_False in H2 by exact D. exact H2.
    - intros t ts H. assert (D : t <> a) by (intros ->; unfold tok_at in H; congruence).
      assert (H2 : tok_at w2 t ts) by (unfold tok_at in *; rewrite S, decide_False by exact D; exact H).
      destruct (T _ _ H2) as (ts' & H3 & B1 & B2 & B3 & B4). exists ts'. split; [exact H3|]. repeat split; auto.
      intros p st cap Em Hp. assert (Dp : p <> a) by (intros ->; unfold pair_at in Hp; congruence).
      apply (B4 p st cap Em). unfold pair_at in *. rewrite S, decide_False by exact Dp. exact Hp.
    - eapply admins_trans; eauto.
  Qed.

  Lemma info_to_raw_normal i r : info_to_raw A i = Ok r -> exists i', raw_to_normal A r = Ok i'.
  Proof.
    destruct i as [a|d]; cbn; intros H.
    - apply rbind_ok in H as (c & E & H). apply addr_canonicalize_ok in E. injection H as <-.
      destruct (api_canon_human C OK _ _ E) as (h & Hh). cbn. unfold addr_humanize. rewrite Hh. cbn. eauto.
    - injection H as <-. cbn. eauto.
  Qed.

  (** What the instantiation of an LP token leaves behind. *)
  Lemma lp_exec f w p code w' r lg : insts_fresh C w ->
    exec C f w p (sm_msg (lp_msg p code)) = Ok (w', r, lg) ->
    exists t, r = Some t /\ t = ch_fresh C (w_next w) /\ lp_at w' p t.
  Proof.
    intros F E. destruct f; [rewrite exec_0 in E; discriminate|]. rewrite exec_eq in E. cbn [lp_msg sm_msg] in E.
    apply rbind_ok in E as (k & Ek & E). cbn [rbind] in E.
    apply rbind_ok in E as (w1 & Eb & E). apply rbind_ok in E as ([s rsp] & Ei & E).
    apply rbind_ok in E as ([w2 lg2] & Er & E). injection E as <- <- <-.
    exists (ch_fresh C (w_next w)). split; [reflexivity|]. split; [reflexivity|].
    apply bank_send_ok in Eb.
    destruct (fresh_inst C OK w w1 None s p [] F Eb) as [F2 _].
    destruct (run_always C OK _ _ _ _ _ _ Er F2) as [_ G].
    assert (Hs : state_at (set_insts w1 (<[ch_fresh C (w_next w) := Inst None s]> (w_insts w1))) (ch_fresh C (w_next w)) = Some s).
    { unfold state_at. cbn [set_insts w_insts]. rewrite lookup_insert. reflexivity. }
    destruct k as [| | | |k]; cbn [init] in Ei; try discriminate; unfold wrap in Ei; apply rbind_ok in Ei as ([s' rsp'] & Ei & E'); injection E' as <- <-.
    - left. pose proof (C37_initial_state _ _ _ _ Ei) as (_ & _ & _ & _ & Hm & _ & _ & _ & Hr).
      rewrite Hr in Er. destruct f; [rewrite run_0 in Er; discriminate|]. rewrite run_nil in Er. injection Er as <- <-.
      exists s'. split; [exact Hs|exact Hm].
    - right. eapply adv_grows; [exact G|]. eexists _, _. exact Hs.
  Qed.

  Lemma lp_run f w p st code w' lg : insts_fresh C w -> pair_at w p st ->
    run C f w p [lp_msg p code] = Ok (w', lg) -> exists st', pair_at w' p st' /\ r_liquidity_token st' <> ""%string.
  Proof.
    intros F Hp E. destruct f; [rewrite run_0 in E; discriminate|]. rewrite run_cons in E.
    apply rbind_ok in E as ([w1 l1] & E1 & E). apply rbind_ok in E as ([w2 l2] & E2 & E). injection E as <- <-.
    destruct f as [|f]; [rewrite run_0 in E2; discriminate|]. rewrite run_nil in E2. injection E2 as <- <-.
    change (sm_reply (lp_msg p code)) with (ReplySuccess INSTANTIATE_REPLY_ID) in E1. cbn match in E1.
    destruct (exec C (S f) w p (sm_msg (lp_msg p code))) as [[[wa r] lg1]|e] eqn:Ex; [|discriminate].
    destruct (lp_exec _ _ _ _ _ _ _ F Ex) as (t & -> & _ & _).
    destruct (exec_always C OK _ _ _ _ _ _ _ Ex F) as [Fa Ga].
    apply rbind_ok in E1 as (i & Ei & E1). apply oget_ok in Ei. apply rbind_ok in E1 as ([s rsp] & Er & E1).
    apply rbind_ok in E1 as ([wb lg2] & Eb & E1). injection E1 as <- <-.
    destruct (grows_state _ _ _ _ Ga Hp) as (s0 & Hs0 & K). unfold state_at in Hs0. rewrite Ei in Hs0. injection Hs0 as <-.
    destruct (i_state i) as [st0| | | |] eqn:Es; try destruct K. cbn [reply] in Er. unfold wrap in Er.
    apply rbind_ok in Er as ([st1 rsp1] & Er & E'). injection E' as <- <-.
    unfold pair_reply in Er. apply rbind_ok in Er as (c & Ec & Er). apply addr_canonicalize_ok in Ec. injection Er as <- <-.
    cbn [rs_msgs] in Eb. rewrite run_nil in Eb. injection Eb as <- <-.
    eexists. split; [unfold pair_at; rewrite state_at_set by eauto; rewrite decide_True by reflexivity; reflexivity|].
    cbn [r_liquidity_token]. intros ->. exact (canon_nonempty C OK _ Ec).
  Qed.

  Lemma call_main w s ro c msg funds a w1 i st rsp :
    main C w -> may w s (SubMsg (MExecute c msg funds) ro) ->
    bank_moved w w1 s a funds -> w_insts w1 !! a = Some i ->
    call C w1 a (i_state i) s funds msg = Ok (st, rsp) ->
    state_at w a = Some (i_state i) /\
    main C (set_state w1 a st) /\ rel None w (set_state w1 a st) /\ Forall (may_state a st) (rs_msgs rsp) /\
    ((forall st0, i_state i <> SPair st0) \/ Forall never (rs_msgs rsp)).
  Proof.
    intros M Hm [E1 E2 E3 _ _] Hi Hc.
    assert (Hs : state_at w a = Some (i_state i)) by (unfold state_at; rewrite <- E1, Hi; reflexivity).
    split; [exact Hs|].
    destruct (i_state i) as [ps|fs|rs|ts|k d] eqn:Es; cbn [call] in Hc; unfold wrap in Hc;
          apply rbind_ok in Hc as ([st0 rsp0] & Hc & E'); injection E' as <- <-.
        - apply pair_execute_msgs in Hc as [-> F].
          destruct (main_set w w1 a (SPair ps) (SPair ps) M E1 E2 E3 Hs I) as [M2 R2]; [auto|discriminate|].
          split; [exact M2|split; [exact R2|split; [exact F|]]]. right. clear - F. induction F; constructor; eauto using pair_msg_never.
        - destruct (main_set w w1 a (SFactory fs) (SFactory st0) M E1 E2 E3 Hs I) as [M2 R2]; [discriminate|discriminate|].
          split; [exact M2|split; [exact R2|split]]. + eapply factory_execute_msgs; eauto. + left. discriminate.
        - destruct (main_set w w1 a (SRouter rs) (SRouter st0) M E1 E2 E3 Hs I) as [M2 R2]; [discriminate|discriminate|].
          split; [exact M2|split; [exact R2|split]]. + eapply router_execute_msgs; eauto. + left. discriminate.
        - apply token_execute_inv in Hc.
          destruct (main_set w w1 a (SToken ts) (SToken st0) M E1 E2 E3 Hs I) as [M2 R2]; [discriminate| |].
          + intros ts0 E. injection E as <-. exists st0. split; [reflexivity|]. eapply token_step; eauto.
          + split; [exact M2|split; [exact R2|split]]. * eapply token_effect_msgs; eauto. * left. discriminate.
        - destruct (main_set w w1 a (SAdv k d) (SAdv k st0) M E1 E2 E3 Hs I) as [M2 R2]; [discriminate|discriminate|].
          split; [exact M2|split; [exact R2|split]]. + apply adv_msgs. + left. discriminate.
  Qed.

  Lemma inst_main w s code msg funds k adm w1 st rsp :
    main C w -> ch_codes C code = Some k ->
    let a := ch_fresh C (w_next w) in
    let w2 := set_insts w1 (<[a := Inst adm st]> (w_insts w1)) in
    bank_moved (set_next w (w_next w + 1)) w1 s a funds ->
    init C w1 a k s funds msg = Ok (st, rsp) ->
    main C w2 /\ grows w w2 /\ (forall x, state_at w2 x = if decide (x = a) then Some st else state_at w x) /\
    state_at w a = None /\
    (forall ps, st = SPair ps -> pair_good C w2 a ps /\ r_liquidity_token ps = ""%string /\ exists tc, rs_msgs rsp = [lp_msg a tc]) /\
    ((forall ps, st <> SPair ps) -> Forall (may_state a st) (rs_msgs rsp)) /\
    mays w2 a (rs_msgs rsp).
  Proof.
    intros M Hk a w2 Hb Hi.
      assert (Q : (forall ps, st = SPair ps -> pair_good C w2 a ps /\ r_liquidity_token ps = ""%string /\ exists tc, rs_msgs rsp = [lp_msg a tc]) /\
        (forall ts, st = SToken ts -> token_ok ts /\ tk_allow ts = ∅) /\ ((forall ps, st <> SPair ps) -> Forall (may_state a st) (rs_msgs rsp))).
      { destruct k, msg; cbn [init] in Hi; try discriminate.
        - destruct (u64_ok token_code_id && u8_ok asset_decimals.1 && u8_ok asset_decimals.2 && reqs_ranges reqs) eqn:Er; [|discriminate].
          bools. unfold wrap in Hi. apply rbind_ok in Hi as ([ps rsp0] & Hi & E'). injection E' as <- <-.
          unfold pair_instantiate in Hi. apply rbind_ok in Hi as (c & Ec & Hi). apply addr_canonicalize_ok in Ec.
          apply rbind_ok in Hi as (r0 & E0 & Hi). apply rbind_ok in Hi as (r1 & E1 & Hi). injection Hi as <- <-.
          split; [|split; [discriminate|intros X; exfalso; exact (X _ eq_refl)]].
          intros ps E. injection E as <-. split; [|split; [reflexivity|eexists; reflexivity]].
          unfold u8_ok in *. bools. split; cbn; auto.
          + apply fresh_human; assumption.
          + eapply info_to_raw_normal; eauto.
          + eapply info_to_raw_normal; eauto.
        - unfold wrap in Hi. apply rbind_ok in Hi as ([ps rsp0] & Hi & E'). injection E' as <- <-.
          unfold factory_instantiate in Hi. destruct (u64_ok pair_code_id && u64_ok token_code_id); [|discriminate]. cbn [negb] in Hi.
          apply rbind_ok in Hi as (o & _ & Hi). injection Hi as <- <-. split; [discriminate|]. split; [discriminate|]. intros _. constructor.
        - unfold wrap in Hi. apply rbind_ok in Hi as ([ps rsp0] & Hi & E'). injection E' as <- <-.
          unfold router_instantiate in Hi. apply rbind_ok in Hi as (o & _ & Hi). injection Hi as <- <-.
          split; [discriminate|]. split; [discriminate|]. intros _. constructor.
        - unfold wrap in Hi. apply rbind_ok in Hi as ([ts rsp0] & Hi & E'). injection E' as <- <-.
          pose proof (token_ok_init _ _ _ _ Hi) as TO. pose proof (C37_initial_state _ _ _ _ Hi) as (_ & _ & _ & _ & _ & Hal & _ & _ & Hr).
          split; [discriminate|]. split; [|intros _; rewrite Hr; constructor]. intros ts' E. injection E as <-. auto.
        - unfold wrap in Hi. apply rbind_ok in Hi as ([ps rsp0] & Hi & E'). injection E' as <- <-.
          split; [discriminate|]. split; [discriminate|]. intros _. apply adv_msgs.
        - unfold wrap in Hi. apply rbind_ok in Hi as ([ps rsp0] & Hi & E'). injection E' as <- <-.
          split; [discriminate|]. split; [discriminate|]. intros _. apply adv_msgs.
        - unfold wrap in Hi. apply rbind_ok in Hi as ([ps rsp0] & Hi & E'). injection E' as <- <-.
          split; [discriminate|]. split; [discriminate|]. intros _. apply adv_msgs.
        - unfold wrap in Hi. apply rbind_ok in Hi as ([ps rsp0] & Hi & E'). injection E' as <- <-.
          split; [discriminate|]. split; [discriminate|]. intros _. apply adv_msgs.
        - unfold wrap in Hi. apply rbind_ok in Hi as ([ps rsp0] & Hi & E'). injection E' as <- <-.
          split; [discriminate|]. split; [discriminate|]. intros _. apply adv_msgs. }
      destruct Q as (QP & QT & QO).
      destruct (main_inst w w1 s funds adm st M Hb) as (M2 & G & S & Hn); [intros ps E; apply (QP ps E)|exact QT|]. fold a w2 in M2, G, S, Hn.
      assert (Sa : state_at w2 a = Some st) by (rewrite S; apply decide_True; reflexivity).
      split; [exact M2|]. split; [exact G|]. split; [exact S|]. split; [exact Hn|]. split; [exact QP|]. split; [exact QO|].
      destruct st as [ps| | | |]; [right|left; eexists; (split; [exact Sa|]); apply QO; discriminate..].
      destruct (QP _ eq_refl) as (_ & L0 & tc & Em). rewrite Em. exists (SPair ps), (lp_msg a tc).
      split; [exact Sa|]. split; [|reflexivity]. exists ps, tc. auto.
  Qed.

  Lemma main_ok : ind_ok C (main C) (fun w w' _ => rel None w w') (fun a w w' _ => rel (Some a) w w') may mays.
  Proof.
    split.
    - intros a w w' _ _ _ R. apply rel_sub. exact R.
    - intros w _. apply rel_refl.
    - intros w w1 w2 _ _ _ _ _. apply rel_trans.
    - intros a w w1 w2 _ _ _ _ _. apply rel_trans.
    - intros w a sm rest M [(s & Hs & F)|(s & sm' & Hs & L & E)].
      + inversion F; subst. right. eauto.
      + injection E as -> ->. right. eauto.
    - intros w w' a sm rest lg M M' [(s & Hs & F)|(s & sm' & Hs & L & E)] R Rn.
      + inversion F as [|? ? H1 H2]; subst. destruct (grows_state _ _ _ _ (rl_grows _ _ _ R) Hs) as (s' & Hs' & K).
        left. exists s'. split; [exact Hs'|]. destruct s, s'; try destruct K; try exact H2.
        pose proof (Rn (pair_msg_never _ _ _ H1)) as Rs. destruct (rl_pairs _ _ _ Rs _ _ Hs) as (st' & Hp & [->|(X & _)]); [|discriminate].
        unfold pair_at in Hp. rewrite Hs' in Hp. injection Hp as ->. exact H2.
      + injection E as -> ->. destruct (grows_state _ _ _ _ (rl_grows _ _ _ R) Hs) as (s' & Hs' & K).
        left. exists s'. split; [exact Hs'|constructor].
    - intros w s ro to cs w' M _ H. apply bank_msg_ok in H as (to' & _ & [E1 E2 E3 _ _]). apply same_insts_rel; auto.
    - intros w s ro c msg funds a w1 i st rsp M Hm Ha Hb Hi Hc. apply bank_send_ok in Hb. cbn zeta.
      assert (Hs : state_at w a = Some (i_state i)) by (unfold state_at; rewrite <- (bm_insts _ _ _ _ _ Hb), Hi; reflexivity).
      assert (St : forall st', st = st' -> main C (set_state w1 a st') /\ rel None w (set_state w1 a st') ->
        Forall (may_state a st') (rs_msgs rsp) ->
        main C (set_state w1 a st) /\ mays (set_state w1 a st) a (rs_msgs rsp) /\
        forall f w3 lg, run C f (set_state w1 a st) a (rs_msgs rsp) = Ok (w3, lg) -> main C w3 -> rel (Some a) (set_state w1 a st) w3 ->
          (Forall never (rs_msgs rsp) -> rel None (set_state w1 a st) w3) -> rel (Some a) w w3 /\ (Forall never (rs_msgs rsp) -> rel None w w3)).
      { intros st' <- [M2 R2] F. split; [exact M2|]. split.
        - left. exists st. split; [|exact F]. rewrite state_at_set by eauto. apply decide_True. reflexivity.
        - intros f w3 lg _ M3 R3 R3'. split; [eapply rel_trans; [apply rel_sub; exact R2|exact R3]|].
          intros Nv. eapply rel_trans; [exact R2|auto]. }
      (* a call never makes an existing pair lose its configuration: either all
         submessages are plain or the callee is not a pair *)
      assert (Fin : forall w3, rel (Some a) w w3 -> (forall st0, i_state i <> SPair st0) -> rel None w w3).
      { intros w3 [G P N T Ad] Np. split; auto. intros p st0 Hp. destruct (P _ _ Hp) as (st1 & H1 & [->|(Ea & _)]); [eauto|].
        injection Ea as <-. unfold pair_at in Hp. rewrite Hs in Hp. injection Hp as Hp. exfalso. exact (Np _ Hp). }
      destruct (call_main w s ro c msg funds a w1 i st rsp M Hm Hb Hi Hc) as (_ & M2 & R2 & F & Nv).
      destruct (St st eq_refl (conj M2 R2) F) as (B1 & B2 & B3).
      split; [exact B1|]. split; [exact B2|]. intros f w3 lg Er M3 R3 R3'. destruct (B3 _ _ _ Er M3 R3 R3') as [X Y].
      destruct Nv as [Np|Nv]; [apply Fin; auto|auto].
    - intros w s ro admin code msg funds label k adm w1 st rsp M Hm Hk Had a Hb Hi. cbn zeta.
      apply bank_send_ok in Hb.
      set (w2 := set_insts w1 (<[a := Inst adm st]> (w_insts w1))).
      destruct (inst_main w s code msg funds k adm w1 st rsp M Hk Hb Hi) as (M2 & G & S & Hn & QP & QO & _). fold a w2 in M2, G, S, Hn, QP.
      split; [exact M2|]. assert (Sa : state_at w2 a = Some st) by (rewrite S; apply decide_True; reflexivity).
      assert (Ad : admins w w2).
      { intros x j g s' Hj Hg _ _. unfold w2. cbn [set_insts w_insts]. rewrite (bm_insts _ _ _ _ _ Hb). cbn [set_next w_insts].
        rewrite lookup_insert_ne; [eauto|]. intros <-. unfold state_at in Hn. rewrite Hj in Hn. discriminate. }
      assert (Dp : {ps | st = SPair ps} + {forall ps, st <> SPair ps}) by (destruct st; [left; eauto|right; discriminate..]).
      destruct Dp as [[ps ->]|Np].
      + destruct (QP _ eq_refl) as (_ & L0 & tc & Em). rewrite Em. split.
        * right. exists (SPair ps), (lp_msg a tc). split; [exact Sa|]. split; [|reflexivity]. exists ps, tc. auto.
        * intros f w3 lg Er M3 R3 _. eapply (rel_from_new w w2); eauto.
          destruct (lp_run _ _ _ _ _ _ _ (mn_fresh _ _ M2) Sa Er) as (st' & Hp & L). intros st'' H. rewrite (pair_at_inj _ _ _ _ H Hp). exact L.
      + split.
        * left. exists st. auto.
        * intros f w3 lg Er M3 R3 _. eapply rel_from_new; eauto.
          intros st' H. exfalso. destruct (grows_state _ _ _ _ (rl_grows _ _ _ R3) Sa) as (s' & Hs' & K).
          unfold pair_at in H. rewrite Hs' in H. injection H as ->. destruct st; try destruct K. exact (Np _ eq_refl).
    - intros w s ro c code a i k st M Hm Ha Hi Hk Had Hmg.
      assert (Hs : state_at w a = Some (i_state i)) by (unfold state_at; rewrite Hi; reflexivity).
      apply (main_set w w a (i_state i) st M eq_refl eq_refl eq_refl Hs (migrated_kind _ _ _ _ OK Hmg)).
      + intros ps E. rewrite <- E. apply (migrated_pair _ _ _ _ OK Hmg). rewrite E. discriminate.
      + intros ts E. rewrite E in Hmg. destruct k; try discriminate. cbn in Hmg. rewrite (no_takeover C OK) in Hmg. discriminate.
    - intros w s ro c new a i adm M Hm Ha Hi Had. apply main_admin; [exact M|]. intros i' f st Hi' Hf Hs.
      assert (i' = i) as -> by congruence. assert (f = s) as -> by congruence.
      destruct Hm as [O|(st' & Hs' & [Hm|(ps & code & _ & _ & E)])]; [|rewrite Hs in Hs'; injection Hs' as <-|discriminate].
      { unfold state_at in Hs. rewrite (ordinary_no_inst C w s (mn_fresh _ _ M) O) in Hs. discriminate. }
      destruct st as [st|st|st|st|k d]; cbn [may_state] in Hm; [..|eauto].
      + inversion Hm as [j n to _ E| | |]; subst. destruct j; discriminate.
      + inversion Hm.
      + inversion Hm as [| |p b to E]; subst. unfold asset_into_swap_msg in E. destruct (a_info b); discriminate.
      + inversion Hm.
    - intros w a sm rest f w' r lg id i st rsp M Hms Hro Ex M' R Hi Hr. cbn zeta.
      assert (Hs' : state_at w' a = Some (i_state i)) by (unfold state_at; rewrite Hi; reflexivity).
      assert (Sa : state_at (set_state w' a st) a = Some st) by (rewrite state_at_set by eauto; apply decide_True; reflexivity).
      pose proof (reply_kind _ _ _ _ _ _ _ _ _ Hr) as K.
      assert (Hp : (exists ps, i_state i = SPair ps) \/ (forall ps, i_state i <> SPair ps)) by (destruct (i_state i); [left; eauto|right; discriminate..]).
      destruct Hp as [(ps & Es)|Np].
      + assert (Hw : exists s, state_at w a = Some s /\ same_kind s (SPair ps) /\ lp_inst a s sm).
        { destruct Hms as [(s & Hs & F)|(s & sm' & Hs & L & E)].
          - destruct (grows_state _ _ _ _ (rl_grows _ _ _ R) Hs) as (s' & Hs2 & K2). rewrite Hs', Es in Hs2. injection Hs2 as <-.
            destruct s; try destruct K2. inversion F as [|? ? H1 H2]; subst. apply pair_msg_never in H1. unfold never in H1.
            rewrite H1 in Hro. destruct Hro; discriminate.
          - injection E as -> ->. exists s. split; [exact Hs|]. destruct L as (st0 & code & -> & L). split; [exact I|]. exists st0, code. auto. }
        destruct Hw as (s & Hs & _ & (st0 & code & -> & L0 & ->)).
        destruct (rl_pairs _ _ _ R _ _ Hs) as (st1 & H1 & [->|(X & _)]); [|discriminate].
        unfold pair_at in H1. rewrite Hs', Es in H1. injection H1 as ->.
        destruct (lp_exec _ _ _ _ _ _ _ (mn_fresh _ _ M) Ex) as (t & -> & Et & LP).
        rewrite Es in Hr. cbn [reply] in Hr. unfold wrap in Hr. apply rbind_ok in Hr as ([st1 rsp1] & Hr & E'). injection E' as <- <-.
        unfold pair_reply in Hr. apply rbind_ok in Hr as (c & Ec & Hr). apply addr_canonicalize_ok in Ec. injection Hr as <- <-.
        fold (set_lp st0 c) in *.
        assert (Sx : forall x, state_at (set_state w' a (SPair (set_lp st0 c))) x = if decide (x = a) then Some (SPair (set_lp st0 c)) else state_at w' x).
        { intros x. apply state_at_set. eauto. }
        assert (G2 : grows w' (set_state w' a (SPair (set_lp st0 c)))) by (eapply grows_set; eauto; rewrite Es; exact I).
        assert (R2 : rel (Some a) w' (set_state w' a (SPair (set_lp st0 c)))).
        { split; [exact G2| | | |].
          - intros p stp Hp. unfold pair_at. rewrite Sx. case_decide as D; [|eauto]. subst p. eexists. split; [reflexivity|].
            right. unfold pair_at in Hp. rewrite Hs', Es in Hp. injection Hp as <-. auto.
          - intros p stp Hp E. unfold pair_at in *. rewrite Sx in Hp. case_decide as D; [|eauto]. subst p. exists st0. rewrite Hs', Es. auto.
          - intros t0 ts Ht. unfold tok_at in *. rewrite Sx. case_decide as D; [subst; rewrite Hs', Es in Ht; discriminate|].
            exists ts. repeat split; auto.
          - apply admins_set. reflexivity. }
        split; [|split; [|exact R2]].
        * pose proof (mn_pairs _ _ M' a st0) as PG. unfold pair_at in PG. rewrite Hs', Es in PG. specialize (PG eq_refl).
          split.
          -- apply (fresh_set C w' w'); auto. apply (mn_fresh _ _ M').
          -- intros p stp Hp. unfold pair_at in Hp. rewrite Sx in Hp. case_decide as D.
             ++ subst p. injection Hp as <-. destruct PG as [A1 A2 A3 A4 A5 A6 A7]. split; auto. right. exists t. split.
                ** cbn. subst t. apply fresh_human; assumption.
                ** eapply lp_at_rel; [exact R2| |exact LP]. unfold pair_at. rewrite Hs', Es. reflexivity.
             ++ eapply pair_good_rel; [exact R2|exact Hp|]. apply (mn_pairs _ _ M'). exact Hp.
          -- intros t0 ts Ht. unfold tok_at in Ht. rewrite Sx in Ht. case_decide as D; [discriminate|]. eapply mn_tokens; eauto.
          -- intros t0 ts o sp v Ht Hl. unfold tok_at in Ht. rewrite Sx in Ht. case_decide as D; [discriminate|].
             eapply user_grows; [exact G2|]. eapply mn_allow; eauto.
        * left. eexists. split; [exact Sa|constructor].
      + destruct (main_set w' w' a (i_state i) st M' eq_refl eq_refl eq_refl Hs' K) as [M2 R2].
        * intros ps E. exfalso. exact (Np _ E).
        * intros ts E. rewrite E in Hr. discriminate.
        * split; [exact M2|]. split; [|apply rel_sub; exact R2]. left. exists st. split; [exact Sa|].
          destruct (i_state i); try (exfalso; exact (Np _ eq_refl)); cbn [reply] in Hr; try discriminate.
          -- destruct r; [|discriminate]. unfold wrap in Hr. apply rbind_ok in Hr as ([st1 rsp1] & Hr & E'). injection E' as <- <-.
             apply factory_reply_inv in Hr as (tmp & p & lp & c & _ & _ & _ & _ & _ & ->). constructor.
          -- unfold wrap in Hr. apply rbind_ok in Hr as ([st1 rsp1] & Hr & E'). injection E' as <- <-. apply adv_msgs.
    - intros w a sm rest id i st rsp M Hms Hro Hi Hr. cbn zeta.
      assert (Hs' : state_at w a = Some (i_state i)) by (unfold state_at; rewrite Hi; reflexivity).
      assert (Sa : state_at (set_state w a st) a = Some st) by (rewrite state_at_set by eauto; apply decide_True; reflexivity).
      pose proof (reply_kind _ _ _ _ _ _ _ _ _ Hr) as K.
      destruct (i_state i) as [| | | |k d] eqn:Es; cbn [reply] in Hr; try discriminate.
      destruct (main_set w w a (SAdv k d) st M eq_refl eq_refl eq_refl Hs' K) as [M2 R2]; [discriminate|discriminate|].
      split; [exact M2|]. split; [|apply rel_sub; exact R2]. left. exists st. split; [exact Sa|].
      unfold wrap in Hr. apply rbind_ok in Hr as ([st1 rsp1] & Hr & E'). injection E' as <- <-. apply adv_msgs.
  Qed.

  Lemma exec_main f w s m w' r lg : main C w -> ordinary C s -> exec C f w s m = Ok (w', r, lg) -> main C w' /\ rel None w w'.
  Proof. intros M O E. apply (exec_ind C _ _ _ _ _ main_ok f w s m ReplyNever w' r lg E M). left. exact O. Qed.

  Lemma genesis_main b blk : main C (World b ∅ 0 blk).
  Proof.
    split.
    - intros a. cbn. rewrite lookup_empty. split; [intros [? ?]; discriminate|intros (n & L & _); lia].
    - intros p st H. unfold pair_at, state_at in H. cbn in H. rewrite lookup_empty in H. discriminate.
    - intros p st H. unfold tok_at, state_at in H. cbn in H. rewrite lookup_empty in H. discriminate.
    - intros p st o s v H. unfold tok_at, state_at in H. cbn in H. rewrite lookup_empty in H. discriminate.
  Qed.
  Lemma block_main w blk : main C w -> main C (World (w_bank w) (w_insts w) (w_next w) blk).
  Proof.
    intros [F P T L]. split; auto.
    intros p st H. destruct (P p st H) as [A1 A2 A3 A4 A5 A6 A7]. split; auto.
  Qed.

  Lemma reachable_main w : reachable C w -> main C w.
  Proof.
    induction 1 as [b blk|w s m w' lg _ IH (O & f & r & E)|w blk _ IH _ _].
    - apply genesis_main.
    - eapply exec_main; eauto.
    - apply block_main. exact IH.
  Qed.
End steps.
