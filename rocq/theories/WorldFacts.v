(** Elementary facts about the chain model: bank transfers, contract storage,
    and the facts about executions that hold whatever the contracts do. *)
From Verif Require Import Base BigNumber CwStd BigNumberFacts Asset Messages PairMath Pair PairFacts Token Factory Router
  TokenFacts World WorldInd.
From Coq Require Import ZifyN.
Local Open Scope N_scope.
Ltac Zify.zify_post_hook ::= idtac.

(** ** Addresses *)
Section addr.
  Context (C : chain) (OK : chain_ok C).
  Lemma norm_human s h : norm (ch_api C) s = Some h ->
    exists c, canon (ch_api C) s = Some c /\ human (ch_api C) c = Some h /\ canon (ch_api C) h = Some c.
  Proof.
    unfold norm. destruct (canon (ch_api C) s) as [c|] eqn:E; [|discriminate]. intros H.
    exists c. split; [reflexivity|]. split; [exact H|]. exact (api_human_canon C OK _ _ H).
  Qed.
  Lemma norm_norm s h : norm (ch_api C) s = Some h -> norm (ch_api C) h = Some h.
  Proof. intros H. apply norm_human in H as (c & _ & Hh & Hc). unfold norm. rewrite Hc. exact Hh. Qed.
  Lemma human_norm c h : human (ch_api C) c = Some h -> norm (ch_api C) h = Some h.
  Proof. intros H. unfold norm. rewrite (api_human_canon C OK _ _ H). exact H. Qed.
  Lemma human_nonempty c h : human (ch_api C) c = Some h -> c <> ""%string.
  Proof. intros H ->. apply (api_human_canon C OK) in H. exact (canon_nonempty C OK _ H). Qed.
  Lemma human_inj c c' h : human (ch_api C) c = Some h -> human (ch_api C) c' = Some h -> c = c'.
  Proof. intros H H'. apply (api_human_canon C OK) in H, H'. congruence. Qed.
  Lemma canon_norm_eq s c h : canon (ch_api C) s = Some c -> norm (ch_api C) s = Some s -> human (ch_api C) c = Some h -> h = s.
  Proof. intros H N Hh. unfold norm in N. rewrite H in N. congruence. Qed.
  Lemma fresh_human n c : canon (ch_api C) (ch_fresh C n) = Some c -> human (ch_api C) c = Some (ch_fresh C n).
  Proof. intros H. pose proof (fresh_norm C OK n) as N. unfold norm in N. rewrite H in N. exact N. Qed.
End addr.

(** ** Bank *)
Definition coin_sum (d : string) (cs : list coin) : N :=
  fold_right (fun c n => if decide (c_denom c = d) then c_amount c + n else n) 0 cs.
Lemma coin_sum_cons d c cs : coin_sum d (c :: cs) = (if decide (c_denom c = d) then c_amount c else 0) + coin_sum d cs.
Proof. unfold coin_sum. cbn [fold_right]. destruct (decide (c_denom c = d)); reflexivity. Qed.
Lemma coin_sum_nil d : coin_sum d [] = 0.
Proof. reflexivity. Qed.
(** Total of denom [d] over all accounts. *)
Definition bank_total (b : gmap (string * string) N) (d : string) : N :=
  msum (fun (k : string * string) (v : N) => if decide (k.2 = d) then v else 0) b.
Definition native_total (w : world) (d : string) : N := bank_total (w_bank w) d.

Definition bbal (b : gmap (string * string) N) (a d : string) : N := default 0 (b !! (a, d)).
Lemma bal_bbal w a d : bal w a d = bbal (w_bank w) a d.
Proof. reflexivity. Qed.

Lemma bbal_insert b a d v x d' : bbal (<[(a, d) := v]> b) x d' =
  if decide ((x, d') = (a, d)) then v else bbal b x d'.
Proof.
  unfold bbal. case_decide as D.
  - rewrite D, lookup_insert. reflexivity.
  - rewrite lookup_insert_ne by congruence. reflexivity.
Qed.
Lemma total_insert b a d v d' : bank_total (<[(a, d) := v]> b) d' + (if decide (d = d') then bbal b a d else 0) =
  bank_total b d' + (if decide (d = d') then v else 0).
Proof.
  pose proof (msum_insert (fun (k : string * string) (v : N) => if decide (k.2 = d') then v else 0) b (a, d) v) as H.
  unfold bank_total, mval in *. cbn [snd] in H. rewrite <- H. f_equal. unfold bbal.
  destruct (b !! (a, d)) as [n|]; cbn; case_decide; reflexivity.
Qed.
Lemma bbal_le_total b a d : bbal b a d <= bank_total b d.
Proof.
  pose proof (mval_le_msum (fun (k : string * string) (v : N) => if decide (k.2 = d) then v else 0) b (a, d)) as H.
  unfold bank_total, mval, bbal in *. cbn [snd] in H. destruct (b !! (a, d)); cbn; [|lia].
  rewrite decide_True in H by reflexivity. exact H.
Qed.
Lemma two_bbal_le_total b a a' d : a <> a' -> bbal b a d + bbal b a' d <= bank_total b d.
Proof.
  intros Hne.
  assert (K : (a, d) <> (a', d)) by congruence.
  pose proof (msum_two (fun (k : string * string) (v : N) => if decide (k.2 = d) then v else 0) b (a, d) (a', d) K) as H.
  unfold bank_total, mval, bbal in *. destruct (b !! (a, d)), (b !! (a', d)); cbn [default snd] in *; unfold id in *;
    try (rewrite !decide_True in H by reflexivity); lia.
Qed.

Lemma move_ok b from to c b' : move b from to c = Ok b' ->
  c_amount c <= bbal b from (c_denom c) /\
  (forall x d, bbal b' x d + (if decide (x = from) then coin_sum d [c] else 0) =
               bbal b x d + (if decide (x = to) then coin_sum d [c] else 0)) /\
  (forall d, bank_total b' d = bank_total b d).
Proof.
  unfold move. fold (bbal b from (c_denom c)). destruct (N.leb_spec (c_amount c) (bbal b from (c_denom c))) as [L|]; [|discriminate].
  set (b1 := <[(from, c_denom c) := bbal b from (c_denom c) - c_amount c]> b).
  fold (bbal b1 to (c_denom c)). intros H. injection H as <-. split; [exact L|].
  cbn [coin_sum fold_right]. split.
  - intros x d. rewrite bbal_insert. unfold b1. rewrite !bbal_insert.
    repeat case_decide; repeat match goal with H : (_, _) = (_, _) |- _ => injection H as ? ? end; subst; try congruence; lia.
  - intros d. pose proof (total_insert b1 to (c_denom c) (bbal b1 to (c_denom c) + c_amount c) d) as T1.
    pose proof (total_insert b from (c_denom c) (bbal b from (c_denom c) - c_amount c) d) as T2.
    fold b1 in T2. destruct (decide (c_denom c = d)); lia.
Qed.
Lemma move_all_ok cs : forall b from to b', move_all b from to cs = Ok b' ->
  (forall x d, bbal b' x d + (if decide (x = from) then coin_sum d cs else 0) =
               bbal b x d + (if decide (x = to) then coin_sum d cs else 0)) /\
  (forall d, bank_total b' d = bank_total b d).
Proof.
  induction cs as [|c cs IH]; intros b from to b' H; cbn in H.
  - injection H as <-. split; [|auto]. intros x d. cbn. repeat case_decide; lia.
  - apply rbind_ok in H as (b1 & H1 & H). apply move_ok in H1 as (_ & M1 & T1). apply IH in H as (M2 & T2).
    split; [|intros d; rewrite T2; apply T1].
    intros x d. specialize (M1 x d). specialize (M2 x d). rewrite coin_sum_cons, coin_sum_nil in M1. rewrite coin_sum_cons.
    destruct (decide (x = from)), (decide (x = to)), (decide (c_denom c = d)); lia.
Qed.

(** [cs] left [from] and arrived at [to]; nothing else changed. *)
Record bank_moved (w w' : world) (from to : string) (cs : list coin) : Prop := {
  bm_insts : w_insts w' = w_insts w;
  bm_next : w_next w' = w_next w;
  bm_block : w_block w' = w_block w;
  bm_bal : forall x d, bal w' x d + (if decide (x = from) then coin_sum d cs else 0) =
                       bal w x d + (if decide (x = to) then coin_sum d cs else 0);
  bm_total : forall d, native_total w' d = native_total w d;
}.
Lemma bank_send_ok w from to cs w' : bank_send w from to cs = Ok w' -> bank_moved w w' from to cs.
Proof.
  unfold bank_send. destruct (coins_valid cs); [|discriminate]. intros H.
  apply rbind_ok in H as (b & H & E). injection E as <-. apply move_all_ok in H as [M T].
  split; try reflexivity; assumption.
Qed.
Lemma bank_send_nil w from to w' : bank_send w from to [] = Ok w' -> w' = w.
Proof. unfold bank_send. cbn. intros H. injection H as <-. destruct w; reflexivity. Qed.
Lemma bank_msg_ok A w from to cs w' : bank_msg A w from to cs = Ok w' ->
  exists to', norm A to = Some to' /\ bank_moved w w' from to' cs.
Proof.
  unfold bank_msg. intros H. apply rbind_ok in H as (to' & E & H). apply oget_ok in E. exists to'. split; [exact E|].
  destruct cs; [discriminate|]. apply bank_send_ok. exact H.
Qed.

(** A payment of one coin goes through whenever the sender has it. *)
Lemma bank_one A w from to d n : norm A to = Some to -> 0 < n -> n <= bal w from d ->
  exists w', bank_msg A w from to [Coin d n] = Ok w'.
Proof.
  intros Hn Hp Hb. unfold bank_msg. rewrite Hn. cbn [oget rbind]. unfold bank_send, coins_valid.
  cbn [forallb c_amount map c_denom]. replace (0 <? n) with true by (symmetry; apply N.ltb_lt; exact Hp).
  cbn [andb]. rewrite bool_decide_true by (apply NoDup_singleton).
  cbn [move_all]. unfold move. cbn [c_denom c_amount]. fold (bal w from d).
  replace (n <=? bal w from d) with true by (symmetry; apply N.leb_le; exact Hb). cbn [rbind]. eauto.
Qed.

(** ** Storage *)
Definition state_at (w : world) (a : string) : option cstate := i_state <$> w_insts w !! a.

Lemma state_at_set w a s x : is_Some (w_insts w !! a) ->
  state_at (set_state w a s) x = if decide (x = a) then Some s else state_at w x.
Proof.
  intros [i Hi]. unfold state_at, set_state. rewrite Hi. cbn [set_insts w_insts]. case_decide.
  - subst. rewrite lookup_insert. reflexivity.
  - rewrite lookup_insert_ne by congruence. reflexivity.
Qed.
Lemma set_state_insts w a s x : w_insts (set_state w a s) !! x =
  if decide (x = a) then (fun i => Inst (i_admin i) s) <$> w_insts w !! a else w_insts w !! x.
Proof.
  unfold set_state. destruct (w_insts w !! a) as [i|] eqn:E; cbn [set_insts w_insts].
  - case_decide; [subst; rewrite lookup_insert; reflexivity|]. rewrite lookup_insert_ne by congruence. reflexivity.
  - case_decide; [subst; rewrite E; reflexivity|reflexivity].
Qed.
Lemma set_state_bank w a s : w_bank (set_state w a s) = w_bank w.
Proof. unfold set_state. destruct (w_insts w !! a); reflexivity. Qed.
Lemma set_state_next w a s : w_next (set_state w a s) = w_next w.
Proof. unfold set_state. destruct (w_insts w !! a); reflexivity. Qed.
Lemma set_state_block w a s : w_block (set_state w a s) = w_block w.
Proof. unfold set_state. destruct (w_insts w !! a); reflexivity. Qed.
Lemma set_state_bal w a s x d : bal (set_state w a s) x d = bal w x d.
Proof. unfold bal. rewrite set_state_bank. reflexivity. Qed.
Lemma set_state_total w a s d : native_total (set_state w a s) d = native_total w d.
Proof. unfold native_total. rewrite set_state_bank. reflexivity. Qed.

Lemma set_state_id w a i : w_insts w !! a = Some i -> set_state w a (i_state i) = w.
Proof.
  intros H. unfold set_state. rewrite H. destruct w as [b is n bl]. unfold set_insts. cbn in *. f_equal.
  apply insert_id. rewrite H. destruct i; reflexivity.
Qed.

(** ** What holds of all executions *)
Definition same_kind (s s' : cstate) : Prop :=
  match s, s' with
  | SPair _, SPair _ | SFactory _, SFactory _ | SRouter _, SRouter _ | SToken _, SToken _
  | SAdv _ _, SAdv _ _ => True
  | _, _ => False
  end.
Lemma same_kind_refl s : same_kind s s.
Proof. destruct s; exact I. Qed.
Lemma same_kind_trans a b c : same_kind a b -> same_kind b c -> same_kind a c.
Proof. destruct a, b, c; cbn; tauto. Qed.

Definition insts_fresh (C : chain) (w : world) : Prop :=
  forall a, is_Some (w_insts w !! a) <-> exists n, n < w_next w /\ a = ch_fresh C n.

Record grows (w w' : world) : Prop := {
  gr_next : w_next w <= w_next w';
  gr_insts : forall a i, w_insts w !! a = Some i ->
    exists i', w_insts w' !! a = Some i' /\ same_kind (i_state i) (i_state i');
}.
Lemma grows_refl w : grows w w.
Proof. split; [lia|]. intros a i H. exists i. auto using same_kind_refl. Qed.
Lemma grows_trans w w1 w2 : grows w w1 -> grows w1 w2 -> grows w w2.
Proof.
  intros [A1 C1] [A2 C2]. split; [lia|].
  intros a i H. destruct (C1 _ _ H) as (i1 & H1 & K1). destruct (C2 _ _ H1) as (i2 & H2 & K2).
  exists i2. split; [exact H2|]. eapply same_kind_trans; eauto.
Qed.

Lemma call_kind C w a s sender funds m s' rsp : call C w a s sender funds m = Ok (s', rsp) -> same_kind s s'.
Proof. destruct s; cbn; unfold wrap; intros H; apply rbind_ok in H as ([x y] & _ & H); injection H as <- <-; exact I. Qed.
Lemma reply_kind C w a s id b r s' rsp : reply C w a s id b r = Ok (s', rsp) -> same_kind s s'.
Proof.
  destruct s; cbn; unfold wrap; try discriminate; try (destruct r; [|discriminate]);
    intros H; apply rbind_ok in H as ([x y] & _ & H); injection H as <- <-; exact I.
Qed.
Lemma migrated_kind C s k s' : chain_ok C -> migrated C s k = Some s' -> same_kind s s'.
Proof. intros OK. destruct s, k; cbn; intros H; try discriminate; rewrite ?(no_takeover C OK) in H; try discriminate; injection H as <-; exact I. Qed.
Lemma migrated_pair C s k s' : chain_ok C -> migrated C s k = Some s' -> (forall k' d, s <> SAdv k' d) -> s' = s.
Proof.
  intros OK H N. destruct s, k; cbn in H; try discriminate; rewrite ?(no_takeover C OK) in H; try discriminate; try (injection H as <-; reflexivity).
  destruct (N _ _ eq_refl).
Qed.

Lemma set_admin_insts w a adm x : w_insts (set_admin w a adm) !! x =
  if decide (x = a) then (fun i => Inst adm (i_state i)) <$> w_insts w !! a else w_insts w !! x.
Proof.
  unfold set_admin. destruct (w_insts w !! a) as [i|] eqn:E; cbn [set_insts w_insts].
  - case_decide; [subst; rewrite lookup_insert; reflexivity|]. rewrite lookup_insert_ne by congruence. reflexivity.
  - case_decide; [subst; rewrite E; reflexivity|reflexivity].
Qed.
Lemma set_admin_bank w a adm : w_bank (set_admin w a adm) = w_bank w.
Proof. unfold set_admin. destruct (w_insts w !! a); reflexivity. Qed.
Lemma set_admin_next w a adm : w_next (set_admin w a adm) = w_next w.
Proof. unfold set_admin. destruct (w_insts w !! a); reflexivity. Qed.
Lemma set_admin_block w a adm : w_block (set_admin w a adm) = w_block w.
Proof. unfold set_admin. destruct (w_insts w !! a); reflexivity. Qed.

Lemma grows_set w w1 a s i : w_insts w1 = w_insts w -> w_next w1 = w_next w -> w_block w1 = w_block w ->
  w_insts w !! a = Some i -> same_kind (i_state i) s -> grows w (set_state w1 a s).
Proof.
  intros E1 E2 E3 Hi K. split.
  - rewrite set_state_next, E2. lia.
  - intros x j Hj. rewrite set_state_insts, E1. case_decide.
    + subst. rewrite Hi in Hj |- *. injection Hj as <-. cbn. eexists. split; [reflexivity|]. auto.
    + exists j. auto using same_kind_refl.
Qed.
Lemma fresh_set C w w1 a s : w_insts w1 = w_insts w -> w_next w1 = w_next w ->
  insts_fresh C w -> insts_fresh C (set_state w1 a s).
Proof.
  intros E1 E2 H x. rewrite set_state_insts, set_state_next, E1, E2. case_decide; [subst; rewrite fmap_is_Some|]; apply H.
Qed.

Lemma grows_admin w a adm : grows w (set_admin w a adm).
Proof.
  split; [rewrite set_admin_next; lia|]. intros x i Hx. rewrite set_admin_insts. case_decide.
  - subst. rewrite Hx. cbn. eexists. split; [reflexivity|apply same_kind_refl].
  - exists i. auto using same_kind_refl.
Qed.
Lemma fresh_admin C w a adm : insts_fresh C w -> insts_fresh C (set_admin w a adm).
Proof.
  intros H x. rewrite set_admin_insts, set_admin_next. case_decide; [subst; rewrite fmap_is_Some|]; apply H.
Qed.

Section fresh.
  Context (C : chain) (OK : chain_laws C).

  Lemma fresh_none w : insts_fresh C w -> w_insts w !! ch_fresh C (w_next w) = None.
  Proof.
    intros H. destruct (w_insts w !! ch_fresh C (w_next w)) eqn:E; [|reflexivity].
    assert (X : is_Some (w_insts w !! ch_fresh C (w_next w))) by eauto.
    apply H in X as (n & L & X). apply (fresh_inj C OK) in X. lia.
  Qed.
  Lemma ordinary_no_inst w a : insts_fresh C w -> ordinary C a -> w_insts w !! a = None.
  Proof.
    intros H [_ O]. destruct (w_insts w !! a) eqn:E; [|reflexivity].
    assert (X : is_Some (w_insts w !! a)) by eauto. apply H in X as (n & _ & X). exfalso. exact (O n (eq_sym X)).
  Qed.
  Lemma inst_norm w a i : insts_fresh C w -> w_insts w !! a = Some i -> norm (ch_api C) a = Some a.
  Proof.
    intros H Hi. assert (X : is_Some (w_insts w !! a)) by eauto. apply H in X as (n & _ & ->). apply (fresh_norm C OK).
  Qed.

  Lemma fresh_inst w w1 adm st from cs :
    insts_fresh C w -> bank_moved (set_next w (w_next w + 1)) w1 from (ch_fresh C (w_next w)) cs ->
    let w2 := set_insts w1 (<[ch_fresh C (w_next w) := Inst adm st]> (w_insts w1)) in
    insts_fresh C w2 /\ grows w w2.
  Proof.
    intros H [E1 E2 E3 _ _]. cbn in E1, E2, E3. split.
    - intros x. cbn [set_insts w_insts w_next]. rewrite E1, E2. destruct (decide (x = ch_fresh C (w_next w))).
      + subst. rewrite lookup_insert. split; [|eauto]. intros _. exists (w_next w). split; [lia|reflexivity].
      + rewrite lookup_insert_ne by congruence. rewrite (H x). split; intros (k & L & ->); exists k; (split; [|reflexivity]).
        * lia.
        * destruct (decide (k = w_next w)); [subst; congruence|lia].
    - split; cbn [set_insts w_next w_block w_insts].
      + rewrite E2. lia.
      + intros a i Hi. rewrite E1. rewrite lookup_insert_ne by (intros <-; rewrite (fresh_none w H) in Hi; discriminate).
        exists i. auto using same_kind_refl.
  Qed.

End fresh.

Section always.
  Context (C : chain) (OK : chain_ok C).
  Lemma always_ok : ind_ok C (insts_fresh C) (fun w w' _ => grows w w') (fun _ w w' _ => grows w w')
    (fun _ _ _ => True) (fun _ _ _ => True).
  Proof.
    split; auto.
    - intros w _. apply grows_refl.
    - intros w w1 w2 _ _ _ _ _. apply grows_trans.
    - intros _ w w1 w2 _ _ _ _ _. apply grows_trans.
    - intros w s ro to cs w' HI _ H. apply bank_msg_ok in H as (to' & _ & [E1 E2 E3 _ _]). split.
      + intros a. rewrite E1, E2. apply HI.
      + split; [lia|]. intros a i. rewrite E1. intros Hi. exists i. auto using same_kind_refl.
    - intros w s ro c msg funds a w1 i st rsp HI _ Ha Hb Hi Hc. apply bank_send_ok in Hb as [E1 E2 E3 _ _].
      cbn zeta. rewrite E1 in Hi. split; [apply (fresh_set C w w1); auto|]. split; [exact I|].
      intros f w3 lg _ _ G _. eapply grows_trans; [|exact G]. eapply grows_set; eauto using call_kind.
    - intros w s ro adm code msg funds label k ad w1 st rsp HI _ Hk Had a Hb Hc. apply bank_send_ok in Hb.
      cbn zeta. destruct (fresh_inst C OK w w1 ad st s funds HI Hb) as [F G]. split; [exact F|]. split; [exact I|].
      intros f w3 lg _ _ G' _. eapply grows_trans; [exact G|exact G'].
    - intros w s ro c code a i k st HI _ Ha Hi Hk Had Hm. split; [apply (fresh_set C w w); auto|].
      eapply grows_set; eauto using migrated_kind.
    - intros w s ro c new a i adm HI _ _ _ _. split; [apply fresh_admin; exact HI|apply grows_admin].
    - intros w a sm rest f w' r lg id i st rsp HI _ _ He HI' G Hi Hr. cbn zeta. split; [apply (fresh_set C w' w'); auto|].
      split; [exact I|]. eapply grows_set; eauto using reply_kind.
    - intros w a sm rest id i st rsp HI _ _ Hi Hr. cbn zeta. split; [apply (fresh_set C w w); auto|].
      split; [exact I|]. eapply grows_set; eauto using reply_kind.
  Qed.

  Lemma exec_always f w s m w' r lg : exec C f w s m = Ok (w', r, lg) -> insts_fresh C w ->
    insts_fresh C w' /\ grows w w'.
  Proof. intros E H. exact (exec_ind C _ _ _ _ _ always_ok f w s m ReplyNever w' r lg E H I). Qed.
  Lemma run_always f w a subs w' lg : run C f w a subs = Ok (w', lg) -> insts_fresh C w ->
    insts_fresh C w' /\ grows w w'.
  Proof.
    intros E H. destruct (run_ind C _ _ _ _ _ always_ok f w a subs w' lg E H I) as (A & B & _). auto.
  Qed.
End always.
