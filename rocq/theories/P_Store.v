(** The state of the factory, the pairs and the router in bytes (C100). *)
From Verif Require Import Base BigNumber CwStd BigNumberFacts Asset Messages PairMath Pair PairFacts Token Factory Router
  SwapFacts SwapFacts2 P_Swap P_Pair FactoryFacts P_Factory P_Router TokenFacts World WorldInd WorldFacts WorldInv WorldInd2
  Examples WorldExamples P_Ledger P_Registry ExecFacts P_Exec
  Json JsonFacts Wire WireFacts TokenQueries P_TokenQuery QueryWire FitsInv Storage.
From stdpp Require Import sorting.
From Coq Require Import ZifyN Ascii String.
Local Open Scope N_scope.
Ltac Zify.zify_post_hook ::= idtac.

(** ** Specification *)

(** The entries of the three contracts' storage: the cw2 version, the
    configuration, the pending pair, a registered pair, the decimals of a native
    coin, and a pair's own record. *)
Inductive cell := AtVersion | AtConfig | AtTmp | AtPair (k : string) | AtNative (d : string) | AtSelf.
Definition cell_key (c : cell) : string :=
  match c with
  | AtVersion => "contract_info"
  | AtConfig => "config"
  | AtTmp => "tmp_pair_info"
  | AtPair k => String "000" (String "009" ("pair_info" ++ k))
  | AtNative d => String "000" (String "018" ("allow_native_token" ++ d))
  | AtSelf => "pair_info"
  end%string.
(** What a contract with state [st] keeps there. *)
Definition content (st : cstate) (c : cell) : option json :=
  match st, c with
  | SFactory f, AtVersion => Some (w_version "crates.io:halo-factory" "0.1.0")
  | SFactory f, AtConfig => Some (w_fconfig (f_owner f, f_pair_code f, f_token_code f))
  | SFactory f, AtTmp => option_map w_tmp (f_tmp f)
  | SFactory f, AtPair k => option_map w_pair_raw (f_pairs f !! k)
  | SFactory f, AtNative d => option_map w_num (f_native f !! d)
  | SPair p, AtVersion => Some (w_version "crates.io:halo-pair" "0.1.0")
  | SPair p, AtSelf => Some (w_pair_raw p)
  | SRouter r, AtVersion => Some (w_version "crates.io:halo-router" "0.1.0")
  | SRouter r, AtConfig => Some (w_rconfig r)
  | _, _ => None
  end.
(** The store holds this and nothing else. *)
Definition stored (s : store) (st : cstate) : Prop :=
  (forall c, s !! cell_key c = option_map render (content st c)) /\
  forall k b, s !! k = Some b -> exists c, cell_key c = k.
(** Numbers within their types. *)
Definition in_types (st : cstate) : Prop :=
  match st with SFactory f => factory_fits f | SPair p => rec_fits p | SRouter _ => True | _ => False end.
(** The same outcome: the same response and a store for the new state, or the
    same error. *)
Definition same_outcome {X} (mk : X -> cstate) (b : res (store * response)) (t : res (X * response)) : Prop :=
  match b, t with
  | Ok (s, r), Ok (x, r') => r = r' /\ stored s (mk x)
  | Err e, Err e' => e = e'
  | _, _ => False
  end.

(** ** Keys *)
Theorem C100_entries_apart c c' : cell_key c = cell_key c' -> c = c'.
Proof.
  destruct c, c'; cbn [cell_key]; intros H; try reflexivity; try discriminate H.
  - injection H as H. congruence.
  - injection H as H. congruence.
Qed.
Lemma key_pair k : k_pair k = cell_key (AtPair k). Proof. reflexivity. Qed.
Lemma key_native d : k_native d = cell_key (AtNative d). Proof. reflexivity. Qed.

(** ** Values *)
Lemma rw_raw i : r_raw (w_raw i) = Some i.
Proof. destruct i as [a|d]; [|reflexivity]. unfold r_raw, w_raw. cbn -[r_bin w_bin]. rewrite rw_bin. reflexivity. Qed.
Lemma rw_raws p : r_two r_raw (w_two w_raw p) = Some p. Proof. apply rw_two_id, rw_raw. Qed.
Lemma rw_pair_raw p : rec_fits p -> r_pair_raw (w_pair_raw p) = Some p.
Proof.
  intros (D0 & D1 & R). destruct p as [i c l d r]. cbn [r_asset_decimals r_requirements] in *. unfold r_pair_raw, w_pair_raw.
  cbn -[r_two w_two r_reqs w_reqs r_bin w_bin]. rewrite rw_raws. cbn [obind]. rewrite !rw_bin. cbn [obind]. rewrite rw_u8s. unfold u8_ok.
  apply N.ltb_lt in D0, D1. rewrite D0, D1. cbn [andb obind]. rewrite rw_reqs, R. reflexivity.
Qed.
Lemma rw_fconfig o p t : p < B64 -> t < B64 -> r_fconfig (w_fconfig (o, p, t)) = Some (o, p, t).
Proof.
  intros Hp Ht. unfold r_fconfig, w_fconfig. cbn -[r_bin w_bin r_num w_num]. rewrite rw_bin. cbn [obind]. rewrite !rw_num.
  apply N.ltb_lt in Hp, Ht. rewrite Hp, Ht. reflexivity.
Qed.
Lemma rw_bytes s : r_bytes (w_bytes s) = Some s.
Proof.
  unfold r_bytes, w_bytes. Local Transparent r_list w_list. unfold r_list, w_list.
  assert (E : forall l, all_some (r_num 256) (map (fun c => w_num (N_of_ascii c)) l) = Some (map N_of_ascii l)).
  { intros l. induction l as [|c l IH]; [reflexivity|]. cbn [map all_some]. rewrite rw_num. pose proof (N_ascii_bounded c) as B. apply N.ltb_lt in B. rewrite B.
    cbn [obind]. rewrite IH. reflexivity. }
  rewrite E. cbn [obind]. rewrite map_map. f_equal. rewrite (map_ext _ (fun c => c)) by (intros; apply ascii_N_embedding). rewrite map_id. apply string_of_list_ascii_of_string.
Qed.
Lemma rw_tmp t : (t_decimals t).1 < 256 -> (t_decimals t).2 < 256 -> r_tmp (w_tmp t) = Some t.
Proof.
  destruct t as [k i d]. cbn [t_decimals]. intros D0 D1. unfold r_tmp, w_tmp. cbn -[r_two w_two r_bytes w_bytes]. rewrite rw_bytes. cbn [obind]. rewrite rw_raws. cbn [obind].
  rewrite rw_u8s. unfold u8_ok. apply N.ltb_lt in D0, D1. rewrite D0, D1. reflexivity.
Qed.
Lemma rw_rconfig r : r_rconfig (w_rconfig r) = Some r.
Proof. unfold r_rconfig, w_rconfig. cbn -[r_bin w_bin]. apply rw_bin. Qed.
Lemma read_back {X} (r : json -> option X) v : from_bytes r (render v) = r v.
Proof. unfold from_bytes. rewrite parse_render. reflexivity. Qed.

(** ** Stores *)
Lemma load_cell {X} (r : json -> option X) s st c v x : stored s st -> content st c = Some v -> r v = Some x -> load r (cell_key c) s = Ok x.
Proof. intros [S _] Hc Hr. unfold load. rewrite S, Hc. cbn [option_map]. rewrite read_back, Hr. reflexivity. Qed.
Lemma load_none {X} (r : json -> option X) s st c : stored s st -> content st c = None -> load r (cell_key c) s = Err ENotFound.
Proof. intros [S _] Hc. unfold load. rewrite S, Hc. reflexivity. Qed.
Lemma stored_save {X} (w : X -> json) s st st' c x : stored s st -> content st' c = Some (w x) ->
  (forall c', c' <> c -> content st' c' = content st c') -> stored (save w (cell_key c) x s) st'.
Proof.
  intros [S K] Hc Ho. unfold save. split.
  - intros c'. destruct (decide (cell_key c = cell_key c')) as [E|E].
    + rewrite E, lookup_insert. apply C100_entries_apart in E. subst c'. rewrite Hc. reflexivity.
    + rewrite lookup_insert_ne by exact E. rewrite S, Ho; [reflexivity|]. intros ->. apply E. reflexivity.
  - intros k b Hb. destruct (decide (cell_key c = k)) as [E|E]; [eauto|]. rewrite lookup_insert_ne in Hb by exact E. eapply K; exact Hb.
Qed.
Lemma stored_again s st (n : string) : stored s st -> content st AtVersion = Some (w_version n "0.1.0") -> stored (set_version n s) st.
Proof.
  intros S Hc. change (set_version n s) with (save (w_version n) (cell_key AtVersion) "0.1.0"%string s). eapply stored_save; [exact S|exact Hc|reflexivity].
Qed.
Lemma stored_first {X} (w : X -> json) st c x (n : string) : content st AtVersion = Some (w_version n "0.1.0") -> content st c = Some (w x) ->
  (forall c', c' <> c -> c' <> AtVersion -> content st c' = None) -> stored (save w (cell_key c) x (set_version n ∅)) st.
Proof.
  intros Hv Hc Ho. unfold save, set_version. change "contract_info"%string with (cell_key AtVersion). split.
  - intros c'. destruct (decide (cell_key c = cell_key c')) as [E|E].
    + rewrite E, lookup_insert. apply C100_entries_apart in E. subst c'. rewrite Hc. reflexivity.
    + rewrite lookup_insert_ne by exact E. destruct (decide (cell_key AtVersion = cell_key c')) as [E'|E'].
      * rewrite E', lookup_insert. apply C100_entries_apart in E'. subst c'. rewrite Hv. reflexivity.
      * rewrite lookup_insert_ne by exact E'. rewrite lookup_empty, Ho; [reflexivity|intros ->; apply E; reflexivity|intros ->; apply E'; reflexivity].
  - intros k b Hb. destruct (decide (cell_key c = k)) as [E|E]; [eauto|]. rewrite lookup_insert_ne in Hb by exact E.
    destruct (decide (cell_key AtVersion = k)) as [E'|E']; [eauto|]. rewrite lookup_insert_ne in Hb by exact E'. rewrite lookup_empty in Hb. discriminate.
Qed.

(** ** The factory *)
Section factory.
  Context (A : api) (f : factory_state) (s : store) (S : stored s (SFactory f)) (F : factory_fits f).
  Lemma load_config : load r_fconfig k_config s = Ok (f_owner f, f_pair_code f, f_token_code f).
  Proof. change k_config with (cell_key AtConfig). eapply load_cell; [exact S|reflexivity|]. apply rw_fconfig; apply F. Qed.
  Lemma load_tmp : load r_tmp k_tmp s = oget (f_tmp f) ENotFound.
  Proof.
    change k_tmp with (cell_key AtTmp). destruct (f_tmp f) as [t|] eqn:E; cbn [oget].
    - eapply load_cell; [exact S|cbn; rewrite E; reflexivity|]. destruct F as (_ & _ & _ & _ & F5). destruct (F5 t E). apply rw_tmp; assumption.
    - eapply load_none; [exact S|]. cbn. rewrite E. reflexivity.
  Qed.
  Lemma load_pair k : load r_pair_raw (k_pair k) s = oget (f_pairs f !! k) ENotFound.
  Proof.
    rewrite key_pair. destruct (f_pairs f !! k) as [p|] eqn:E; cbn [oget].
    - eapply load_cell; [exact S|cbn; rewrite E; reflexivity|]. apply rw_pair_raw. destruct F as (_ & _ & _ & F4 & _). eapply F4; exact E.
    - eapply load_none; [exact S|]. cbn. rewrite E. reflexivity.
  Qed.
  Lemma may_load_pair k : may_load r_pair_raw (k_pair k) s = Ok (f_pairs f !! k).
  Proof.
    unfold may_load. rewrite key_pair, (proj1 S (AtPair k)). cbn [content]. destruct (f_pairs f !! k) as [p|] eqn:E; cbn [option_map]; [|reflexivity].
    rewrite read_back, rw_pair_raw; [reflexivity|]. destruct F as (_ & _ & _ & F4 & _). eapply F4; exact E.
  Qed.
  Lemma load_native d : load (r_num 256) (k_native d) s = oget (f_native f !! d) ENotFound.
  Proof.
    rewrite key_native. destruct (f_native f !! d) as [n|] eqn:E; cbn [oget].
    - eapply load_cell; [exact S|cbn; rewrite E; reflexivity|]. rewrite rw_num. destruct F as (_ & _ & F3 & _). specialize (F3 d n E). apply N.ltb_lt in F3. rewrite F3. reflexivity.
    - eapply load_none; [exact S|]. cbn. rewrite E. reflexivity.
  Qed.
  Lemma bf_execute_same Q self sender m : same_outcome SFactory (bf_execute A Q self s sender m) (factory_execute A Q self f sender m).
  Proof.
    unfold bf_execute, factory_execute. destruct (negb (jmsg_ranges m)); [reflexivity|]. destruct m; try reflexivity.
    - unfold bf_update_config, update_config, bf_owner, owner_only. rewrite load_config. cbn [rbind fst snd].
      destruct (addr_canonicalize A sender) as [c|e]; [|reflexivity]. cbn [rbind]. destruct (require _ _) as [u|e]; [|reflexivity]. cbn [rbind].
      match goal with |- context [rbind ?X _] => destruct X as [o|e] eqn:Eo end; cbn [rbind]; [|reflexivity].
      split; [reflexivity|]. change k_config with (cell_key AtConfig). eapply stored_save; [exact S|reflexivity|]. intros [] H; try reflexivity. congruence.
    - unfold bf_create_pair, create_pair. rewrite load_config. cbn [rbind fst snd]. destruct (require _ _) as [u|e]; [|reflexivity]. cbn [rbind].
      destruct (or_invalid _ "asset1 is invalid") as [d0|e]; [|reflexivity]. cbn [rbind].
      destruct (or_invalid _ "asset2 is invalid") as [d1|e]; [|reflexivity]. cbn [rbind].
      match goal with |- context [info_to_raw A ?i.1] => destruct (info_to_raw A i.1) as [r0|e] end; [|reflexivity]. cbn [rbind]. match goal with |- context [info_to_raw A ?i.2] => destruct (info_to_raw A i.2) as [r1|e] end; [|reflexivity]. cbn [rbind].
      rewrite may_load_pair. destruct (f_pairs f !! pair_key (r0, r1)) as [p|]; [reflexivity|]. split; [reflexivity|].
      change k_tmp with (cell_key AtTmp). eapply stored_save; [exact S|reflexivity|]. intros [] H; try reflexivity. congruence.
    - unfold bf_add_native, add_native, bf_owner, owner_only. rewrite load_config. cbn [rbind fst snd].
      destruct (addr_canonicalize A sender) as [c|e]; [|reflexivity]. cbn [rbind]. destruct (require _ (EStd "unauthorized")) as [u|e]; [|reflexivity]. cbn [rbind].
      match goal with |- context [q_balance Q self ?d] => destruct (q_balance Q self d) as [b|e] end; [|reflexivity]. cbn [rbind]. destruct (require _ _) as [u'|e]; [|reflexivity]. cbn [rbind].
      split; [reflexivity|]. rewrite key_native. eapply stored_save; [exact S|cbn; rewrite lookup_insert; reflexivity|].
      intros [] H; try reflexivity. cbn. rewrite lookup_insert_ne by congruence. reflexivity.
    - unfold bf_migrate_pair, migrate_pair, bf_owner, owner_only. rewrite load_config. cbn [rbind fst snd].
      destruct (addr_canonicalize A sender) as [c|e]; [|reflexivity]. cbn [rbind]. destruct (require _ _) as [u|e]; [|reflexivity]. cbn [rbind]. split; [reflexivity|exact S].
  Qed.
  Lemma bf_reply_same Q a : same_outcome SFactory (bf_reply A Q s a) (factory_reply A Q f a).
  Proof.
    unfold bf_reply, factory_reply. rewrite load_tmp. destruct (oget (f_tmp f) ENotFound) as [t|e]; [|reflexivity]. cbn [rbind].
    destruct (q_pair_self Q a) as [p|e]; [|reflexivity]. cbn [rbind]. destruct (addr_canonicalize A (p_liquidity_token p)) as [lp|e]; [|reflexivity]. cbn [rbind].
    destruct (addr_canonicalize A a) as [c|e]; [|reflexivity]. cbn [rbind]. split; [reflexivity|]. rewrite key_pair.
    eapply stored_save; [exact S|cbn; rewrite lookup_insert; reflexivity|]. intros [] H; try reflexivity. cbn. rewrite lookup_insert_ne by congruence. reflexivity.
  Qed.
End factory.

(** ** Ranges *)
Lemma app_nonempty_leb p x : str_leb p (p ++ x) = true.
Proof. rewrite str_leb_ltb, str_ltb_app_self. reflexivity. Qed.
Lemma ltb_common p x y : str_ltb (p ++ x) (p ++ y) = str_ltb x y.
Proof.
  induction p as [|c p IH]; [reflexivity|]. rewrite !app_cons, ltb_cons. destruct (ascii_compare_spec c c) as (_ & E & _). rewrite (proj2 E eq_refl). exact IH.
Qed.
Lemma leb_common p x y : str_leb (p ++ x) (p ++ y) = str_leb x y.
Proof. rewrite !str_leb_ltb, ltb_common. reflexivity. Qed.
Lemma leb_after k x : str_leb (k ++ String (ascii_of_N 0) "") x = str_ltb k x.
Proof.
  rewrite str_leb_ltb. revert x. induction k as [|c k IH]; intros [|d x]; try reflexivity.
  - rewrite app_empty, ltb_cons. destruct (ascii_compare_spec d (ascii_of_N 0)) as (E1 & _ & _). destruct (Ascii.compare d (ascii_of_N 0)) eqn:E; try reflexivity.
    + destruct x; reflexivity.
    + pose proof (proj1 E1 eq_refl) as L. change (N_of_ascii (ascii_of_N 0)) with 0 in L. lia.
  - rewrite app_cons, !ltb_cons. specialize (IH x). destruct (ascii_compare_spec c d) as (A1 & A2 & A3), (ascii_compare_spec d c) as (B1 & B2 & B3).
    destruct (Ascii.compare c d) eqn:E1.
    + pose proof (proj1 A2 eq_refl); subst. rewrite (proj2 B2 eq_refl). exact IH.
    + pose proof (proj1 A1 eq_refl). rewrite (proj2 B3); [reflexivity|lia].
    + pose proof (proj1 A3 eq_refl). rewrite (proj2 B1); [reflexivity|lia].
Qed.
Lemma bump_last q c : N_of_ascii c < 255 -> bump (q ++ String c "") = ((q ++ String (ascii_of_N (N_of_ascii c + 1)) "")%string, false).
Proof.
  intros Hc. induction q as [|d q IH].
  - rewrite app_empty. cbn. destruct (N.eqb_spec (N_of_ascii c) 255); [lia|reflexivity].
  - rewrite app_cons. cbn [bump]. rewrite IH. reflexivity.
Qed.
Lemma between q c k : N_of_ascii c < 255 ->
  str_leb (q ++ String c "") k = true -> str_ltb k (q ++ String (ascii_of_N (N_of_ascii c + 1)) "") = true -> exists x, k = ((q ++ String c "") ++ x)%string.
Proof.
  intros Hc. revert k. induction q as [|d q IH]; intros k Hl Hu.
  - rewrite app_empty in Hl, Hu. destruct k as [|e k]; [discriminate Hl|]. exists k. rewrite app_empty, app_cons, app_empty. f_equal.
    rewrite str_leb_ltb, ltb_cons in Hl. rewrite ltb_cons in Hu.
    destruct (ascii_compare_spec e c) as (A1 & A2 & A3), (ascii_compare_spec e (ascii_of_N (N_of_ascii c + 1))) as (B1 & B2 & B3).
    rewrite N_ascii_embedding in * by lia.
    destruct (Ascii.compare e c) eqn:E1; [apply A2; reflexivity|discriminate Hl|]. pose proof (proj1 A3 eq_refl).
    destruct (Ascii.compare e (ascii_of_N (N_of_ascii c + 1))) eqn:E2; [destruct k; discriminate Hu| |discriminate Hu]. pose proof (proj1 B1 eq_refl). lia.
  - rewrite app_cons in Hl, Hu. destruct k as [|e k]; [discriminate Hl|]. rewrite str_leb_ltb, ltb_cons in Hl. rewrite ltb_cons in Hu.
    destruct (ascii_compare_spec e d) as (A1 & A2 & A3). destruct (Ascii.compare e d) eqn:E1; [|discriminate Hl|discriminate Hu].
    pose proof (proj1 A2 eq_refl); subst. destruct (IH k) as (x & ->); [rewrite str_leb_ltb; exact Hl|exact Hu|]. exists x. reflexivity.
Qed.
Lemma under q c x : N_of_ascii c < 255 -> str_ltb ((q ++ String c "") ++ x) (q ++ String (ascii_of_N (N_of_ascii c + 1)) "") = true.
Proof.
  intros Hc. rewrite str_app_assoc, ltb_common. rewrite app_cons, app_empty, ltb_cons.
  destruct (ascii_compare_spec c (ascii_of_N (N_of_ascii c + 1))) as (A1 & _ & _). rewrite N_ascii_embedding in * by lia. rewrite (proj2 A1); [reflexivity|lia].
Qed.
Lemma trim_app p x : trim p (p ++ x) = x.
Proof. induction p as [|c p IH]; [reflexivity|]. rewrite app_cons. exact IH. Qed.
Lemma sorted_same {X} (l1 l2 : list (string * X)) : StronglySorted entry_lt l1 -> StronglySorted entry_lt l2 ->
  (forall e, In e l1 <-> In e l2) -> l1 = l2.
Proof.
  assert (Ir : forall e : string * X, ~ entry_lt e e) by (intros e; unfold entry_lt; rewrite str_ltb_irrefl; discriminate).
  intros H1. revert l2. induction H1 as [|a l1 H1 IH Ha]; intros l2 H2 E.
  - destruct l2 as [|b l2]; [reflexivity|]. exfalso. apply (E b). left. reflexivity.
  - destruct H2 as [|b l2 H2 Hb]; [exfalso; apply (E a); left; reflexivity|]. rewrite List.Forall_forall in Ha, Hb.
    assert (a = b) as ->.
    { destruct (proj1 (E a) (or_introl eq_refl)) as [K|K]; [congruence|]. destruct (proj2 (E b) (or_introl eq_refl)) as [K'|K']; [exact K'|].
      exfalso. apply (Ir a). unfold entry_lt in *. eapply str_ltb_trans; [apply Ha; exact K'|apply Hb; exact K]. }
    f_equal. apply IH; [exact H2|]. intros e. split; intros K.
    + destruct (proj1 (E e) (or_intror K)) as [<-|K2]; [exfalso; apply (Ir b), Ha, K|exact K2].
    + destruct (proj2 (E e) (or_intror K)) as [<-|K2]; [exfalso; apply (Ir b), Hb, K|exact K2].
Qed.
Lemma sorted_filter {X} (R : X -> X -> Prop) p l : StronglySorted R l -> StronglySorted R (List.filter p l).
Proof.
  induction 1 as [|a l H IH Ha]; [constructor|]. cbn [List.filter]. destruct (p a); [|exact IH]. constructor; [exact IH|].
  rewrite List.Forall_forall in *. intros x Hx. apply Ha. apply filter_In in Hx. tauto.
Qed.
Lemma sorted_map {X Y} (R : X -> X -> Prop) (R' : Y -> Y -> Prop) g l : (forall x y, In x l -> In y l -> R x y -> R' (g x) (g y)) ->
  StronglySorted R l -> StronglySorted R' (map g l).
Proof.
  intros Hg H. induction H as [|a l H IH Ha]; [constructor|]. cbn [map]. constructor; [apply IH; intros; apply Hg; auto; right; assumption|].
  rewrite List.Forall_forall in *. intros y Hy. apply in_map_iff in Hy as (x & <- & Hx). apply Hg; [left; reflexivity|right; exact Hx|apply Ha; exact Hx].
Qed.
(** What a range over a prefix ending in [c] gives. *)
Lemma range_elem s p q c start k b : p = (q ++ String c "")%string -> N_of_ascii c < 255 ->
  In (k, b) (range_in s p start) <-> s !! (p ++ k)%string = Some b /\ (forall k0, start = Some k0 -> str_ltb k0 k = true).
Proof.
  intros Eq Hc. unfold range_in, raw_range. rewrite in_map_iff. split.
  - intros ([k' b'] & E & H). apply pair_equal_spec in E as [<- <-]. cbn [fst snd]. apply filter_In in H as [H1 H2]. cbn [fst] in H2. apply andb_prop in H2 as [Hl Hu].
    rewrite Eq, bump_last in Hu by exact Hc. cbn [fst] in Hu. apply elem_of_list_In in H1. rewrite (in_order_perm (map_to_list s)) in H1. apply elem_of_map_to_list in H1.
    assert (Hp : str_leb p k' = true).
    { destruct start as [k0|]; [|exact Hl]. eapply str_leb_trans; [|exact Hl]. apply app_nonempty_leb. }
    rewrite Eq in Hp. destruct (between q c k' Hc Hp Hu) as (x & ->). rewrite <- Eq in H1, Hl |- *. rewrite trim_app. split; [exact H1|].
    intros k0 ->. rewrite leb_common, leb_after in Hl. exact Hl.
  - intros [H1 H2]. exists ((p ++ k)%string, b). cbn [fst snd]. rewrite trim_app. split; [reflexivity|]. apply filter_In. split.
    + apply elem_of_list_In. rewrite (in_order_perm (map_to_list s)). apply elem_of_map_to_list. exact H1.
    + cbn [fst]. apply andb_true_intro. split; [|rewrite Eq, bump_last by exact Hc; apply under; exact Hc].
      destruct start as [k0|]; [|apply app_nonempty_leb]. rewrite leb_common, leb_after. apply H2. reflexivity.
Qed.
Lemma range_sorted s p q c start : p = (q ++ String c "")%string -> N_of_ascii c < 255 -> StronglySorted entry_lt (range_in s p start).
Proof.
  intros Eq Hc. unfold range_in. set (lo := match start with None => _ | Some k => _ end). assert (Hlo : str_leb p lo = true).
  { destruct start; [apply app_nonempty_leb|]. apply str_leb_spec. right. reflexivity. }
  assert (Hpre : forall e, In e (raw_range s lo (bump p).1) -> exists x, e.1 = (p ++ x)%string).
  { intros e H. apply filter_In in H as [_ H2]. apply andb_prop in H2 as [Hl Hu]. rewrite Eq, bump_last in Hu by exact Hc. cbn [fst] in Hu.
    pose proof (str_leb_trans _ _ _ Hlo Hl) as Hp. rewrite Eq in *. exact (between q c _ Hc Hp Hu). }
  apply (sorted_map entry_lt).
  - intros x y Hx Hy. destruct (Hpre x Hx) as (u & Ex), (Hpre y Hy) as (v & Ey). unfold entry_lt. cbn [fst]. rewrite Ex, Ey, !trim_app, ltb_common. auto.
  - apply sorted_filter, in_order_strict. change (NoDup ((map_to_list s).*1)). apply NoDup_fst_map_to_list.
Qed.

(** ** The pages of the factory *)
Lemma pairs_range f s start : stored s (SFactory f) -> 
  range_from s "pair_info" (option_map range_start start) =
  map (fun e => (e.1, render (w_pair_raw e.2)))
    (match start with Some i => List.filter (fun e => str_ltb (range_start i) e.1) (pairs_sorted (f_pairs f)) | None => pairs_sorted (f_pairs f) end).
Proof.
  intros [S _]. set (q := String "000" (String "009" "pair_inf")).
  assert (Eq : space "pair_info" = (q ++ String "o" "")%string) by reflexivity. assert (Hc : N_of_ascii "o" < 255) by reflexivity.
  apply sorted_same; [unfold range_from; eapply range_sorted; eauto| |].
  - apply (sorted_map key_lt); [intros x y _ _ H; exact H|]. destruct start; [apply sorted_filter|]; apply pairs_sorted_strict.
  - intros [k b]. unfold range_from. rewrite (range_elem s (space "pair_info") q "o" _ k b Eq Hc), in_map_iff.
    change (space "pair_info" ++ k)%string with (cell_key (AtPair k)). rewrite S. cbn [content].
    assert (P : forall p, In (k, p) (pairs_sorted (f_pairs f)) <-> f_pairs f !! k = Some p).
    { intros p. rewrite <- elem_of_list_In. apply pairs_sorted_elem. }
    split.
    + intros [H1 H2]. destruct (f_pairs f !! k) as [p|] eqn:E; [|discriminate H1]. cbn [option_map] in H1. injection H1 as <-. exists (k, p). split; [reflexivity|].
      destruct start as [i|]; [|apply P; reflexivity]. apply filter_In. split; [apply P; reflexivity|]. apply H2. reflexivity.
    + intros ([k' p] & E & H). apply pair_equal_spec in E as [E1 <-]. cbn [fst] in E1. subst k'.
      assert (H' : In (k, p) (pairs_sorted (f_pairs f)) /\ forall i, start = Some i -> str_ltb (range_start i) k = true).
      { destruct start as [i|]; [|split; [exact H|discriminate]]. apply filter_In in H as [H1 H2]. split; [exact H1|]. intros j Hj. injection Hj as <-. exact H2. }
      destruct H' as [H1 H2]. apply P in H1. rewrite H1. split; [reflexivity|]. intros k0 Hk. destruct start as [i|]; [|discriminate Hk]. injection Hk as <-. apply H2. reflexivity.
Qed.
Lemma rmap_same {X Y Z} (g : X -> Y) (h : Y -> res Z) (h' : X -> res Z) l : (forall x, In x l -> h (g x) = h' x) -> rmap h (map g l) = rmap h' l.
Proof.
  induction l as [|x l IH]; intros H; [reflexivity|]. cbn [map rmap]. rewrite H by (left; reflexivity). destruct (h' x); [|reflexivity]. cbn [rbind].
  rewrite IH by (intros; apply H; right; assumption). reflexivity.
Qed.
Lemma bf_query_same A f s q : stored s (SFactory f) -> factory_fits f -> bf_query A s q = factory_query A f q.
Proof.
  intros S F. destruct q; try reflexivity; unfold bf_query, factory_query; f_equal.
  - unfold bf_query_config, factory_query_config. rewrite (load_config f s S F). reflexivity.
  - unfold bf_query_pair, factory_query_pair. destruct (info_to_raw A _.1) as [r0|e]; [|reflexivity]. cbn [rbind]. destruct (info_to_raw A _.2) as [r1|e]; [|reflexivity]. cbn [rbind].
    rewrite (load_pair f s S F). reflexivity.
  - unfold bf_query_pairs, factory_query_pairs. match goal with |- rbind ?x _ = _ => destruct x as [i|e]; [|reflexivity] end. cbn [rbind].
    unfold bf_read_pairs, read_pairs. rewrite (pairs_range f s i S). rewrite firstn_map. cbv zeta.
    set (l := match i with None => _ | Some j => _ end).
    assert (Hl : forall e, In e (take (page_limit limit) l) -> f_pairs f !! e.1 = Some e.2).
    { intros [k p] H. cbn [fst snd]. apply pairs_sorted_elem, elem_of_list_In. apply elem_of_list_In, elem_of_take in H as (n & H & _). apply elem_of_list_lookup_2, elem_of_list_In in H.
      unfold l in H. destruct i; [apply filter_In in H; tauto|exact H]. }
    apply rmap_same. intros e He. cbn [snd]. rewrite read_back, rw_pair_raw; [reflexivity|]. destruct F as (_ & _ & _ & F4 & _). eapply F4, Hl, He.
  - unfold bf_query_native, factory_query_native. apply (load_native f s S F).
Qed.

(** ** C100 *)

(** The entry points of the three contracts, on bytes as in state.rs and on the
    states of the model, give the same errors, responses and answers, and a store
    for the new state. *)
Theorem C100_factory A Q self f s : stored s (SFactory f) -> in_types (SFactory f) ->
  (forall sender m, same_outcome SFactory (bf_execute A Q self s sender m) (factory_execute A Q self f sender m)) /\
  (forall a, same_outcome SFactory (bf_reply A Q s a) (factory_reply A Q f a)) /\
  (forall q, bf_query A s q = factory_query A f q) /\
  same_outcome SFactory (bf_migrate s) (factory_migrate f).
Proof.
  intros S F. split; [intros; apply bf_execute_same; assumption|]. split; [intros; apply bf_reply_same; assumption|].
  split; [intros; apply bf_query_same; assumption|]. split; [reflexivity|]. apply stored_again; [exact S|reflexivity].
Qed.
Theorem C100_pair C Q self p s : stored s (SPair p) -> in_types (SPair p) ->
  (forall sender funds m, same_outcome SPair (bp_execute (ch_api C) Q self s sender funds m) (pair_execute (ch_api C) Q self p sender funds m)) /\
  (forall a, same_outcome SPair (bp_reply (ch_api C) s a) (pair_reply (ch_api C) p a)) /\
  (forall q, bp_query (ch_api C) Q s q = pair_query (ch_api C) Q p q) /\
  same_outcome SPair (bp_migrate s) (pair_migrate p).
Proof.
  intros S F. assert (L : load r_pair_raw k_self s = Ok p).
  { change k_self with (cell_key AtSelf). eapply load_cell; [exact S|reflexivity|apply rw_pair_raw; exact F]. }
  split; [|split; [|split]].
  - intros sender funds m. unfold bp_execute. rewrite L. cbn [rbind]. destruct (pair_execute (ch_api C) Q self p sender funds m) as [[p' r]|e] eqn:E; [|reflexivity].
    cbn [rbind]. apply pair_execute_msgs in E as [-> _]. split; [reflexivity|exact S].
  - intros a. unfold bp_reply. rewrite L. cbn [rbind]. unfold pair_reply. destruct (addr_canonicalize (ch_api C) a) as [c|e]; [|reflexivity]. cbn [rbind].
    split; [reflexivity|]. change k_self with (cell_key AtSelf). eapply stored_save; [exact S|reflexivity|]. intros [] H; try reflexivity. congruence.
  - intros q. unfold bp_query. rewrite L. reflexivity.
  - split; [reflexivity|]. apply stored_again; [exact S|reflexivity].
Qed.
Theorem C100_router C Q self r s : stored s (SRouter r) ->
  (forall sender m, same_outcome SRouter (br_execute (ch_api C) Q self s sender m) (router_execute (ch_api C) Q self r sender m)) /\
  (forall q, br_query (ch_api C) Q s q = router_query (ch_api C) Q r q) /\
  same_outcome SRouter (br_migrate s) (router_migrate r).
Proof.
  intros S. assert (L : load r_rconfig k_config s = Ok r).
  { change k_config with (cell_key AtConfig). eapply load_cell; [exact S|reflexivity|apply rw_rconfig]. }
  split; [|split].
  - intros sender m. unfold br_execute. rewrite L. cbn [rbind]. destruct (router_execute (ch_api C) Q self r sender m) as [[r' rs]|e] eqn:E; [|reflexivity].
    cbn [rbind]. apply router_execute_msgs in E as [-> _]. split; [reflexivity|exact S].
  - intros q. unfold br_query. rewrite L. reflexivity.
  - split; [reflexivity|]. apply stored_again; [exact S|reflexivity].
Qed.
(** A new contract starts from an empty store. *)
Theorem C100_new A : 
  (forall sender p t, same_outcome SFactory (bf_instantiate A ∅ sender p t) (factory_instantiate A sender p t)) /\
  (forall self infos tc dec reqs, same_outcome SPair (bp_instantiate A self ∅ infos tc dec reqs) (pair_instantiate A self infos tc dec reqs)) /\
  (forall f, same_outcome SRouter (br_instantiate A ∅ f) (router_instantiate A f)).
Proof.
  split; [|split].
  - intros sender p t. unfold bf_instantiate, factory_instantiate. destruct (negb _); [reflexivity|]. cbv zeta. destruct (addr_canonicalize A sender) as [o|e]; [|reflexivity].
    cbn [rbind]. split; [reflexivity|]. change k_config with (cell_key AtConfig). apply stored_first; [reflexivity|reflexivity|].
    intros [] H1 H2; try reflexivity; congruence.
  - intros self infos tc dec reqs. unfold bp_instantiate. cbv zeta. destruct (pair_instantiate A self infos tc dec reqs) as [[p r]|e]; [|reflexivity].
    cbn [rbind]. split; [reflexivity|]. change k_self with (cell_key AtSelf). apply stored_first; [reflexivity|reflexivity|].
    intros [] H1 H2; try reflexivity; congruence.
  - intros f. unfold br_instantiate. cbv zeta. destruct (router_instantiate A f) as [[p r]|e]; [|reflexivity].
    cbn [rbind]. split; [reflexivity|]. change k_config with (cell_key AtConfig). apply stored_first; [reflexivity|reflexivity|].
    intros [] H1 H2; try reflexivity; congruence.
Qed.
(** The numbers of every contract of a reachable state are within their types. *)
Theorem C100_reachable C w a st : chain_ok C -> reachable C w -> state_at w a = Some st ->
  (exists f, st = SFactory f) \/ (exists p, st = SPair p) \/ (exists r, st = SRouter r) -> in_types st.
Proof.
  intros OK Hr Ha [(f & ->)|[(p & ->)|(r & ->)]]; [|split; [|split]|exact I].
  - exact (reachable_fits C w OK Hr a _ Ha).
  - eapply pg_dec0, (mn_pairs _ _ (reachable_main C OK w Hr) a p Ha).
  - eapply pg_dec1, (mn_pairs _ _ (reachable_main C OK w Hr) a p Ha).
  - eapply pg_reqs, (mn_pairs _ _ (reachable_main C OK w Hr) a p Ha).
Qed.
(** A state has exactly one store, and a store belongs to one state of a contract. *)
Definition cells (st : cstate) : list cell :=
  match st with
  | SFactory f => [AtVersion; AtConfig; AtTmp] ++ map (fun e => AtPair e.1) (map_to_list (f_pairs f)) ++ map (fun e => AtNative e.1) (map_to_list (f_native f))
  | SPair _ => [AtVersion; AtSelf]
  | SRouter _ => [AtVersion; AtConfig]
  | _ => []
  end.
Lemma content_cells st c v : content st c = Some v -> In c (cells st).
Proof.
  destruct st as [s|s|s|s|? s]; cbn [cells]; destruct c; cbn [content]; try discriminate; intros H; try (cbn; tauto).
  - apply in_or_app. right. apply in_or_app. left. destruct (f_pairs s !! k) as [p|] eqn:E; [|discriminate H].
    apply in_map_iff. exists (k, p). split; [reflexivity|]. apply elem_of_list_In, elem_of_map_to_list, E.
  - apply in_or_app. right. apply in_or_app. right. destruct (f_native s !! d) as [p|] eqn:E; [|discriminate H].
    apply in_map_iff. exists (d, p). split; [reflexivity|]. apply elem_of_list_In, elem_of_map_to_list, E.
Qed.
Fixpoint fill (st : cstate) (l : list cell) : store :=
  match l with [] => ∅ | c :: l => match content st c with Some v => <[cell_key c := render v]> (fill st l) | None => fill st l end end.
Lemma fill_lookup st l k b : fill st l !! k = Some b <-> exists c v, In c l /\ cell_key c = k /\ content st c = Some v /\ b = render v.
Proof.
  revert k b. induction l as [|c l IH]; intros k b; cbn [fill].
  - rewrite lookup_empty. split; [discriminate|]. intros (c & v & [] & _).
  - destruct (content st c) as [v|] eqn:Ec.
    + destruct (decide (cell_key c = k)) as [E|E].
      * rewrite E, lookup_insert. split.
        -- intros H. injection H as <-. exists c, v. split; [left; reflexivity|]. auto.
        -- intros (c' & v' & _ & E' & Hc & ->). rewrite <- E in E'. apply C100_entries_apart in E'. subst c'. congruence.
      * rewrite lookup_insert_ne, IH by exact E. split; intros (c' & v' & I' & H); exists c', v'; (split; [|exact H]); [right; exact I'|].
        destruct I' as [<-|I']; [|exact I']. exfalso. apply E. apply H.
    + rewrite IH. split; intros (c' & v' & I' & H); exists c', v'; (split; [|exact H]); [right; exact I'|].
      destruct I' as [<-|I']; [|exact I']. destruct H as (_ & H & _). congruence.
Qed.
Lemma fill_stored st : stored (fill st (cells st)) st.
Proof.
  split.
  - intros c. destruct (fill st (cells st) !! cell_key c) as [b|] eqn:E.
    + apply fill_lookup in E as (c' & v & _ & E & Hc & ->). apply C100_entries_apart in E. subst c'. rewrite Hc. reflexivity.
    + destruct (content st c) as [v|] eqn:Ec; [|reflexivity]. exfalso.
      assert (X : fill st (cells st) !! cell_key c = Some (render v)) by (apply fill_lookup; exists c, v; split; [eapply content_cells; exact Ec|auto]). congruence.
  - intros k b H. apply fill_lookup in H as (c & v & _ & E & _). eauto.
Qed.
Theorem C100_one_store st : exists s, stored s st /\ forall s', stored s' st -> s' = s.
Proof.
  exists (fill st (cells st)). pose proof (fill_stored st) as S. set (s := fill st (cells st)) in *. clearbody s.
  split; [exact S|]. intros s' S'. apply map_eq. intros k. destruct (s' !! k) as [b|] eqn:E.
  - destruct (proj2 S' k b E) as (c & <-). rewrite (proj1 S c), <- (proj1 S' c). congruence.
  - destruct (s !! k) as [b|] eqn:E2; [|reflexivity]. destruct (proj2 S k b E2) as (c & <-). rewrite (proj1 S' c), <- (proj1 S c) in E. congruence.
Qed.
Theorem C100_bytes_tell s st st' : stored s st -> stored s st' -> in_types st -> in_types st' -> st = st'.
Proof.
  intros S S' T T'. assert (E : forall c, content st c = content st' c).
  { intros c. pose proof (proj1 S c) as E1. rewrite (proj1 S' c) in E1. destruct (content st c), (content st' c); try discriminate E1; [|reflexivity].
    injection E1 as E1. apply render_inj in E1. congruence. }
  clear S S'. destruct st as [p|f|r|t|k x], st' as [p'|f'|r'|t'|k' x']; try contradiction; try (specialize (E AtVersion); discriminate E).
  - specialize (E AtSelf). cbn [content] in E. assert (E' := f_equal (fun o => match o with Some v => r_pair_raw v | None => None end) E). cbn beta iota in E'.
    rewrite !rw_pair_raw in E' by assumption. congruence.
  - f_equal. pose proof T as (F1 & F2 & F3 & F4 & F5). pose proof T' as (G1 & G2 & G3 & G4 & G5).
    assert (E1 : (f_owner f, f_pair_code f, f_token_code f) = (f_owner f', f_pair_code f', f_token_code f')).
    { specialize (E AtConfig). cbn [content] in E. assert (E' := f_equal (fun o => match o with Some v => r_fconfig v | None => None end) E). cbn beta iota in E'.
      rewrite !rw_fconfig in E' by assumption. congruence. }
    assert (E2 : f_tmp f = f_tmp f').
    { specialize (E AtTmp). cbn [content] in E. destruct (f_tmp f) as [x|], (f_tmp f') as [y|]; try discriminate E; [|reflexivity].
      assert (E' := f_equal (fun o => match o with Some v => r_tmp v | None => None end) E). cbn [option_map] in E'.
      destruct (F5 x eq_refl), (G5 y eq_refl). rewrite !rw_tmp in E' by assumption. exact E'. }
    assert (E3 : f_pairs f = f_pairs f').
    { apply map_eq. intros k. specialize (E (AtPair k)). cbn [content] in E. destruct (f_pairs f !! k) as [x|] eqn:X, (f_pairs f' !! k) as [y|] eqn:Y; try discriminate E; [|reflexivity].
      assert (E' := f_equal (fun o => match o with Some v => r_pair_raw v | None => None end) E). cbn [option_map] in E'.
      rewrite !rw_pair_raw in E' by eauto. exact E'. }
    assert (E4 : f_native f = f_native f').
    { apply map_eq. intros d. specialize (E (AtNative d)). cbn [content] in E. destruct (f_native f !! d) as [x|] eqn:X, (f_native f' !! d) as [y|] eqn:Y; try discriminate E; [|reflexivity].
      assert (E' := f_equal (fun o => match o with Some v => r_num 256 v | None => None end) E). cbn [option_map] in E'. rewrite !rw_num in E'.
      pose proof (F3 _ _ X) as B1. pose proof (G3 _ _ Y) as B2. apply N.ltb_lt in B1, B2. rewrite B1, B2 in E'. exact E'. }
    destruct f, f'. cbn in E1, E2, E3, E4. congruence.
  - specialize (E AtConfig). cbn [content] in E. assert (E' := f_equal (fun o => match o with Some v => r_rconfig v | None => None end) E). cbn beta iota in E'.
    rewrite !rw_rconfig in E'. congruence.
Qed.

(** *** Cases *)

(** The factory of the example world: its store, what it says of one pair and the
    first page of the list, from the bytes. *)
Example C100_case : let f := fac_of ex_world "#0" in let s := fill (SFactory f) (cells (SFactory f)) in
  state_at ex_world "#0" = Some (SFactory f) /\ in_types (SFactory f) /\ stored s (SFactory f) /\
  map_to_list (f_pairs f) <> [] /\ f_tmp f <> None /\
  s !! "config"%string = Some "{""owner"":""YWxpY2U="",""pair_code_id"":1,""token_code_id"":2}"%string /\
  s !! (cell_key (AtNative "uaura")) = Some "6"%string /\
  s !! "tmp_pair_info"%string = Some "{""pair_key"":[35,49,35,50],""asset_infos"":[{""token"":{""contract_addr"":""IzE=""}},{""token"":{""contract_addr"":""IzI=""}}],""asset_decimals"":[6,6]}"%string /\
  s !! (String "000" (String "009" "pair_info#1uaura")) = Some "{""asset_infos"":[{""token"":{""contract_addr"":""IzE=""}},{""native_token"":{""denom"":""uaura""}}],""contract_addr"":""IzQ="",""liquidity_token"":""IzU="",""asset_decimals"":[6,6],""requirements"":{""whitelist"":[""alice""],""first_asset_minimum"":""1000"",""second_asset_minimum"":""1000""}}"%string /\
  bf_query ex_api s (QPair (Token "#1", Token "#2")%string) = Ok (APairInfo (PairInfo (Token "#1", Token "#2") "#6" "#7" (6, 6) ex_wl)%string) /\
  is_ok (bf_execute ex_api (wq ex_chain ex_world) "#0" s "alice" (JUpdateConfig (Some "bob"%string) None (Some 7))) = true /\
  is_ok (bf_execute ex_api (wq ex_chain ex_world) "#0" s "bob" (JUpdateConfig (Some "bob"%string) None (Some 7))) = false.
Proof.
  intros f s. assert (Hf : state_at ex_world "#0" = Some (SFactory f)) by (apply fac_of_at; vm_compute; reflexivity).
  split; [exact Hf|]. split; [exact (reachable_fits ex_chain ex_world ex_chain_ok ex_reachable _ _ Hf)|].
  split; [apply fill_stored|]. split; [vm_compute; discriminate|]. split; [vm_compute; discriminate|]. split; [vm_compute; reflexivity|].
  do 5 (split; [vm_compute; reflexivity|]). vm_compute; reflexivity.
Qed.
(** Over the bytes the first page holds both pairs in key order, the page after the
    first of them only the second, and no entry of another map gets in. *)
Example C100_pages : let s := fill (SFactory (fac_of ex_world "#0")) (cells (SFactory (fac_of ex_world "#0"))) in
  map fst (range_from s "pair_info" None) = ["#1#2"; "#1uaura"]%string /\
  map fst (range_from s "pair_info" (Some (range_start (TokenRaw "#1", TokenRaw "#2"))))%string = ["#1uaura"]%string /\
  map fst (range_from s "allow_native_token" None) = ["uaura"]%string /\ map fst (map_to_list s) <> ["uaura"]%string.
Proof. intros s. split; [vm_compute; reflexivity|]. split; [vm_compute; reflexivity|]. split; [vm_compute; reflexivity|]. vm_compute. discriminate. Qed.
