(** Properties of the factory's own calls and queries: C20, C21, C22, C24, C25,
    C26 (the histories behind C20, C21, C23, C25 are in P_World). *)
From Verif Require Import Base BigNumber CwStd BigNumberFacts Asset Messages PairMath Pair PairFacts Factory FactoryFacts Examples.
From stdpp Require Import sorting.
From Coq Require Import Ascii String.
Local Open Scope N_scope.
Ltac Zify.zify_post_hook ::= idtac.

(** Laws of the chain's address functions: humanizing gives a spelling of the
    same address, and every accepted spelling has a normalized form. *)
Definition api_ok (A : api) : Prop :=
  (forall c h, human A c = Some h -> canon A h = Some c) /\
  (forall s c, canon A s = Some c -> exists h, human A c = Some h).

Lemma lower_byte_idem c : lower_byte (lower_byte c) = lower_byte c.
Proof. destruct c as [[] [] [] [] [] [] [] []]; vm_compute; reflexivity. Qed.
Lemma lower_idem s : lower (lower s) = lower s.
Proof. induction s as [|c s IH]; [reflexivity|]. cbn [lower]. rewrite IH, lower_byte_idem. reflexivity. Qed.
Lemma ex_api_ok : api_ok ex_api.
Proof.
  split.
  - intros c h. cbn. destruct (bool_decide (lower c = c)) eqn:E; [|discriminate].
    apply bool_decide_eq_true in E. destruct c; [discriminate|]. cbn [nonempty].
    intros H. injection H as <-. rewrite E. reflexivity.
  - intros s c. cbn. destruct (lower s) as [|x l] eqn:E; [discriminate|].
    cbn [nonempty]. intros H. injection H as <-. exists (String x l).
    rewrite <- E, lower_idem, bool_decide_eq_true_2 by reflexivity. rewrite E. reflexivity.
Qed.

(** ** C20: effects of one call *)

Definition same_config (st st' : factory_state) : Prop :=
  f_owner st' = f_owner st /\ f_pair_code st' = f_pair_code st /\ f_token_code st' = f_token_code st.

(** A call that changes the owner, a code id or the registry of native decimals
    was sent by the owner and did exactly what it says; only the owner can
    have a pair migrated. *)
Theorem C20_call_effects A Q self st sender m st' rsp :
  factory_execute A Q self st sender m = Ok (st', rsp) ->
  match m with
  | JUpdateConfig o t p =>
      canon A sender = Some (f_owner st) /\
      match o with Some a => norm A a = Some a /\ canon A a = Some (f_owner st') | None => f_owner st' = f_owner st end /\
      f_token_code st' = default (f_token_code st) t /\ f_pair_code st' = default (f_pair_code st) p /\
      f_native st' = f_native st /\ f_pairs st' = f_pairs st /\ rs_msgs rsp = []
  | JAddNativeTokenDecimals d n =>
      canon A sender = Some (f_owner st) /\ same_config st st' /\
      f_native st' = <[d := n]> (f_native st) /\ f_pairs st' = f_pairs st /\ rs_msgs rsp = []
  | JMigratePair c k =>
      canon A sender = Some (f_owner st) /\ st' = st /\
      rs_msgs rsp = [plain (MMigrate c (default (f_pair_code st) k))]
  | JCreatePair _ _ =>
      same_config st st' /\ f_native st' = f_native st /\ f_pairs st' = f_pairs st
  | _ => False
  end.
Proof.
  intros H. apply factory_execute_inv in H as
    [(o & t & p & -> & H)|[(infos & reqs & -> & H)|[(d & n & -> & _ & H)|(c & k & -> & H)]]].
  - unfold update_config in H. apply rbind_ok in H as ([] & E & H). apply owner_only_ok in E.
    apply rbind_ok in H as (o' & Eo & H). injection H as <- <-. cbn.
    split; [exact E|]. split; [|auto].
    destruct o as [a|]; [|injection Eo as <-; reflexivity].
    apply rbind_ok in Eo as (? & E1 & E2). apply addr_validate_ok in E1 as [_ E1].
    apply addr_canonicalize_ok in E2. auto.
  - apply create_pair_inv in H as (d0 & d1 & r0 & r1 & _ & _ & _ & _ & _ & _ & -> & _). cbn.
    unfold same_config. cbn. auto.
  - unfold add_native in H. apply rbind_ok in H as ([] & E & H). apply owner_only_ok in E.
    apply rbind_ok in H as (b & _ & H). apply rbind_ok in H as (? & _ & H). injection H as <- <-.
    unfold same_config. cbn. auto.
  - unfold migrate_pair in H. apply rbind_ok in H as ([] & E & H). apply owner_only_ok in E.
    injection H as <- <-. auto.
Qed.

(** Anyone else gets an error. *)
Theorem C20_strangers_refused A Q self st sender m :
  canon A sender <> Some (f_owner st) ->
  (forall i r, m <> JCreatePair i r) ->
  exists e, factory_execute A Q self st sender m = Err e.
Proof.
  intros Hs Hm. destruct (factory_execute A Q self st sender m) as [[st' rsp]|e] eqn:E; [|eauto].
  exfalso. apply C20_call_effects in E. destruct m; intuition. eapply Hm; reflexivity.
Qed.

Definition ex_factory : factory_state := FactoryState "owner" 7 8 {[ "uaura"%string := 6 ]} ∅ None.
Example C20_case :
  factory_execute ex_api (ex_querier 1 1 1) "factory" ex_factory "owner"
    (JUpdateConfig (Some "bob"%string) (Some 9) None)
  = Ok (FactoryState "bob" 7 9 {[ "uaura"%string := 6 ]} ∅ None, Response [] [("action", "update_config")]%string) /\
  factory_execute ex_api (ex_querier 1 1 1) "factory" ex_factory "mallory"
    (JUpdateConfig (Some "mallory"%string) None None) = Err (EStd "unauthorized").
Proof. split; vm_compute; reflexivity. Qed.

(** ** C21: one call *)

(** CreatePair fails when the two assets' key is taken, whatever the order. *)
Theorem C21_duplicate_refused A Q self st i j r0 r1 reqs :
  info_to_raw A i = Ok r0 -> info_to_raw A j = Ok r1 ->
  is_Some (f_pairs st !! pair_key (r0, r1)) ->
  (exists e, create_pair A Q self st (i, j) reqs = Err e) /\
  (exists e, create_pair A Q self st (j, i) reqs = Err e).
Proof.
  intros H0 H1 [v Hv]. split.
  - destruct (create_pair A Q self st (i, j) reqs) as [[st' rsp]|e] eqn:E; [|eauto].
    apply create_pair_inv in E as (d0 & d1 & r0' & r1' & _ & _ & _ & H0' & H1' & Hn & _).
    cbn in *. congruence.
  - destruct (create_pair A Q self st (j, i) reqs) as [[st' rsp]|e] eqn:E; [|eauto].
    apply create_pair_inv in E as (d0 & d1 & r0' & r1' & _ & _ & _ & H0' & H1' & Hn & _).
    cbn in *. rewrite pair_key_comm in Hn. congruence.
Qed.

(** The registry answers the same for both orders. *)
Theorem C21_lookup_order_irrelevant A st i j r0 r1 :
  info_to_raw A i = Ok r0 -> info_to_raw A j = Ok r1 ->
  factory_query_pair A st (i, j) = factory_query_pair A st (j, i).
Proof.
  intros H0 H1. unfold factory_query_pair. cbn [fst snd]. rewrite H0, H1. cbn [rbind].
  rewrite pair_key_comm. reflexivity.
Qed.

(** ** C22 *)

(** No two of the four identifiers are one a proper prefix of the other.  This
    holds for instance when all have the same length. *)
Definition prefix_free4 (a b c d : string) : Prop :=
  forall x y, x ∈ [a; b; c; d] -> y ∈ [a; b; c; d] -> is_prefix x y -> x = y.

Lemma str_length_app (x e : string) : String.length (x ++ e) = (String.length x + String.length e)%nat.
Proof. induction x as [|c x IH]; [reflexivity|]. rewrite app_cons. cbn. rewrite IH. reflexivity. Qed.
Lemma same_length_prefix_free a b c d n :
  String.length a = n -> String.length b = n -> String.length c = n -> String.length d = n ->
  prefix_free4 a b c d.
Proof.
  intros Ha Hb Hc Hd x y Hx Hy [e ->].
  assert (L : forall z, z ∈ [a; b; c; d] -> String.length z = n).
  { intros z Hz. rewrite !elem_of_cons, elem_of_nil in Hz. intuition congruence. }
  apply L in Hx. apply L in Hy. rewrite str_length_app in Hy.
  destruct e; [rewrite str_app_nil; reflexivity|]. cbn in Hy. lia.
Qed.

(** Same key, prefix-free identifiers: the same two identifiers. *)
Theorem C22_same_key_same_assets a b c d :
  prefix_free4 (raw_bytes a) (raw_bytes b) (raw_bytes c) (raw_bytes d) ->
  pair_key (a, b) = pair_key (c, d) ->
  (raw_bytes a = raw_bytes c /\ raw_bytes b = raw_bytes d) \/
  (raw_bytes a = raw_bytes d /\ raw_bytes b = raw_bytes c).
Proof.
  assert (X : forall x1 x2 y1 y2, prefix_free4 x1 x2 y1 y2 -> (x1 ++ x2)%string = (y1 ++ y2)%string ->
    x1 = y1 /\ x2 = y2).
  { intros x1 x2 y1 y2 Hp E. assert (x1 = y1) as ->.
    { destruct (str_app_split _ _ _ _ E) as [H|H]; [|symmetry]; apply Hp; auto; set_solver. }
    split; [reflexivity|]. eapply str_app_inj. exact E. }
  intros Hp. unfold pair_key. cbn [fst snd].
  destruct (str_leb (raw_bytes a) (raw_bytes b)), (str_leb (raw_bytes c) (raw_bytes d)); intros E;
    apply X in E as [-> ->]; auto; intros x y Hx Hy; apply Hp; set_solver.
Qed.

(** For pairs of cw20 tokens (canonical addresses all of one length), the pairs
    themselves agree up to order. *)
Theorem C22_token_pairs n a b c d :
  String.length a = n -> String.length b = n -> String.length c = n -> String.length d = n ->
  pair_key (TokenRaw a, TokenRaw b) = pair_key (TokenRaw c, TokenRaw d) ->
  (TokenRaw a, TokenRaw b) = (TokenRaw c, TokenRaw d) \/ (TokenRaw b, TokenRaw a) = (TokenRaw c, TokenRaw d).
Proof.
  intros Ha Hb Hc Hd E. apply C22_same_key_same_assets in E.
  - cbn in E. destruct E as [[-> ->]|[-> ->]]; auto.
  - cbn. eapply same_length_prefix_free; eauto.
Qed.
Example C22_case : pair_key (TokenRaw "tokA", TokenRaw "tokB") <> pair_key (TokenRaw "tokA", TokenRaw "tokC").
Proof. vm_compute. discriminate. Qed.

(** In general keys do collide: identifiers are concatenated without a
    separator.  With aaa/bbbccc registered, asking for aaabbb/ccc answers the
    other pair, and aaabbb/ccc can never be created. *)
Definition collide_pair : pair_info_raw :=
  PairInfoRaw (NativeRaw "aaa", NativeRaw "bbbccc") "pair" "lp" (6, 6) ex_reqs.
Definition collide_factory : factory_state :=
  FactoryState "owner" 7 8
    (<["aaa"%string := 6]> (<["bbbccc"%string := 6]> (<["aaabbb"%string := 6]> {["ccc"%string := 6]})))
    {[ pair_key (NativeRaw "aaa", NativeRaw "bbbccc") := collide_pair ]} None.
Theorem C22_keys_never_collide_refuted :
  (exists a b c d, pair_key (a, b) = pair_key (c, d) /\
     ~ (raw_bytes a ∈ [raw_bytes c; raw_bytes d])) /\
  factory_query_pair ex_api collide_factory (Native "aaabbb", Native "ccc") =
    Ok (PairInfo (Native "aaa", Native "bbbccc") "pair" "lp" (6, 6) ex_reqs) /\
  forall Q reqs, (forall d, q_native_decimals Q "factory" d = factory_query_native collide_factory d) ->
    create_pair ex_api Q "factory" collide_factory (Native "aaabbb", Native "ccc") reqs =
    Err (EStd "Pair already exists").
Proof.
  split; [|split].
  - exists (NativeRaw "aaa"), (NativeRaw "bbbccc"), (NativeRaw "aaabbb"), (NativeRaw "ccc").
    split; [vm_compute; reflexivity|]. cbn. set_solver.
  - vm_compute. reflexivity.
  - intros Q reqs H. unfold create_pair, query_decimals. cbn [fst snd]. rewrite !H.
    vm_compute. reflexivity.
Qed.

(** ** C24 *)

Lemma to_normal_to_raw A r i : api_ok A -> raw_to_normal A r = Ok i -> info_to_raw A i = Ok r.
Proof.
  intros [H1 _]. destruct r as [c|d]; cbn; intros H.
  - apply rbind_ok in H as (h & Eh & H). injection H as <-. apply addr_humanize_ok in Eh.
    cbn. rewrite (proj2 (addr_canonicalize_ok A h c) (H1 c h Eh)). reflexivity.
  - injection H as <-. reflexivity.
Qed.

(** A client's loop over Pairs: ask, continue after the last answered pair,
    stop at an empty page; [n] bounds the number of requests. *)
Fixpoint walk (A : api) (st : factory_state) (limit : option N) (n : nat)
    (start : option (asset_info * asset_info)) : res (list pair_info) :=
  match n with
  | O => Ok []
  | S n' =>
      let* page := factory_query_pairs A st start limit in
      match list.last page with
      | None => Ok []
      | Some p =>
          let* rest := walk A st limit n' (Some (p_asset_infos p)) in
          Ok (page ++ rest)
      end
  end.

(** Every entry is stored under the key of its own assets and is readable
    (kept by every call of the factory). *)
Definition registry_ok (A : api) (m : gmap string pair_info_raw) : Prop :=
  forall k v, m !! k = Some v ->
    k = pair_key (r_asset_infos v) /\ exists p, pair_to_normal A v = Ok p.
Definition prefix_free_keys (m : gmap string pair_info_raw) : Prop :=
  forall k k', is_Some (m !! k) -> is_Some (m !! k') -> is_prefix k k' -> k = k'.

Lemma pair_to_normal_infos A v p : pair_to_normal A v = Ok p ->
  raw_to_normal A (r_asset_infos v).1 = Ok (p_asset_infos p).1 /\
  raw_to_normal A (r_asset_infos v).2 = Ok (p_asset_infos p).2.
Proof.
  unfold pair_to_normal. intros H.
  apply rbind_ok in H as (? & _ & H). apply rbind_ok in H as (? & _ & H).
  apply rbind_ok in H as (i & E1 & H). apply rbind_ok in H as (j & E2 & H).
  injection H as <-. auto.
Qed.

Lemma rmap_Forall2 {X Y} (f : X -> res Y) l r :
  rmap f l = Ok r <-> Forall2 (fun x y => f x = Ok y) l r.
Proof.
  revert r. induction l as [|x l IH]; intros r; cbn.
  - split; [intros H; injection H as <-; constructor|intros H; inversion H; reflexivity].
  - split.
    + intros H. apply rbind_ok in H as (y & E & H). apply rbind_ok in H as (ys & E2 & H).
      injection H as <-. constructor; [exact E|]. apply IH, E2.
    + intros H. inversion H as [|? y ? ys E1 E2]; subst. rewrite E1. cbn [rbind].
      apply IH in E2. rewrite E2. reflexivity.
Qed.

Lemma filter_above m pre suf k v :
  prefix_free_keys m -> pairs_sorted m = (pre ++ [(k, v)]) ++ suf ->
  List.filter (fun e => str_ltb (k ++ String (ascii_of_N 1) "") e.1) (pairs_sorted m) = suf.
Proof.
  intros Hp E. pose proof (pairs_sorted_strict m) as Hs. rewrite E in Hs.
  assert (Hm : forall e, e ∈ (pre ++ [(k, v)]) ++ suf -> is_Some (m !! e.1)).
  { intros [k' v'] He. rewrite <- E in He. apply pairs_sorted_elem in He. cbn. eauto. }
  rewrite E, List.filter_app.
  assert (List.filter (fun e => str_ltb (k ++ String (ascii_of_N 1) "") e.1) (pre ++ [(k, v)]) = []) as ->.
  { apply StronglySorted_app_inv_l in Hs.
    assert (H : forall e, In e (pre ++ [(k, v)]) -> str_ltb (k ++ String (ascii_of_N 1) "") e.1 = false).
    { intros e He. apply not_true_is_false. intros Hlt.
      apply elem_of_list_In, elem_of_app in He as [He|He].
      - assert (key_lt e (k, v)) as Hk.
        { clear -Hs He. induction pre as [|x pre IH]; [apply elem_of_nil in He; contradiction|].
          cbn in Hs. apply StronglySorted_inv in Hs as [Hs Hf].
          apply elem_of_cons in He as [->|He]; [|auto].
          rewrite Forall_forall in Hf. apply Hf. set_solver. }
        unfold key_lt in Hk. cbn in Hk. pose proof (str_ltb_trans _ _ _ Hlt Hk) as X.
        rewrite str_ltb_app_self in X. discriminate.
      - apply elem_of_list_singleton in He as ->. cbn in Hlt. rewrite str_ltb_app_self in Hlt. discriminate. }
    revert H. generalize (pre ++ [(k, v)]). intros l H. induction l as [|x l IH]; [reflexivity|].
    cbn. rewrite H by (left; reflexivity). apply IH. intros e He. apply H. right. exact He. }
  cbn [app].
  assert (H : forall e, In e suf -> str_ltb (k ++ String (ascii_of_N 1) "") e.1 = true).
  { intros e He. apply elem_of_list_In in He.
    assert (key_lt (k, v) e) as Hk.
    { clear -Hs He. induction pre as [|x pre IH].
      - cbn in Hs. apply StronglySorted_inv in Hs as [_ Hf]. rewrite Forall_forall in Hf. auto.
      - cbn in Hs. apply StronglySorted_inv in Hs as [Hs _]. auto. }
    unfold key_lt in Hk. cbn in Hk. rewrite ltb_app_iff; [exact Hk|].
    intros Hpre. apply Hp in Hpre.
    - rewrite Hpre, str_ltb_irrefl in Hk. discriminate.
    - apply (Hm (k, v)). set_solver.
    - apply Hm. set_solver. }
  clear -H. induction suf as [|x l IH]; [reflexivity|].
  cbn. rewrite H by (left; reflexivity). f_equal. apply IH. intros e He. apply H. right. exact He.
Qed.

Lemma walk_suffix A st limit : api_ok A -> registry_ok A (f_pairs st) -> prefix_free_keys (f_pairs st) ->
  (0 < page_limit limit)%nat ->
  forall n pre suf start,
  pairs_sorted (f_pairs st) = pre ++ suf ->
  match list.last pre with
  | None => start = None
  | Some (k, v) => exists p, pair_to_normal A v = Ok p /\ start = Some (p_asset_infos p)
  end ->
  (Datatypes.length suf < n)%nat ->
  exists l, walk A st limit n start = Ok l /\
    Forall2 (fun e p => pair_to_normal A e.2 = Ok p) suf l.
Proof.
  intros HA Hr Hp Hl. induction n as [|n IH]; intros pre suf start E Hst Hn; [lia|].
  assert (Hq : factory_query_pairs A st start limit =
    rmap (fun e => pair_to_normal A e.2) (take (page_limit limit) suf)).
  { unfold factory_query_pairs, read_pairs. destruct (list.last pre) as [[k v]|] eqn:El.
    - destruct Hst as (p & Ep & ->). destruct (p_asset_infos p) as [i j] eqn:Ei.
      pose proof (pair_to_normal_infos _ _ _ Ep) as [E1 E2]. rewrite Ei in E1, E2. cbn [fst snd] in E1, E2.
      rewrite (to_normal_to_raw _ _ _ HA E1), (to_normal_to_raw _ _ _ HA E2). cbn [rbind].
      apply last_Some in El as (pre' & ->).
      unfold range_start.
      assert (k = pair_key ((r_asset_infos v).1, (r_asset_infos v).2)) as <-.
      { assert ((k, v) ∈ pairs_sorted (f_pairs st)) as Hin by (rewrite E; set_solver).
        apply pairs_sorted_elem, Hr in Hin as [-> _]. destruct (r_asset_infos v). reflexivity. }
      rewrite (filter_above _ _ _ _ _ Hp E). reflexivity.
    - subst start. cbn [rbind]. apply last_None in El. subst pre. rewrite E. reflexivity. }
  assert (Hpage : exists page, rmap (fun e => pair_to_normal A e.2) (take (page_limit limit) suf) = Ok page).
  { assert (Hin : forall e, e ∈ suf -> exists p, pair_to_normal A e.2 = Ok p).
    { intros [k v] He. assert ((k, v) ∈ pairs_sorted (f_pairs st)) as Hin by (rewrite E; set_solver).
      apply pairs_sorted_elem, Hr in Hin as [_ Hin]. exact Hin. }
    assert (Hin' : forall e, e ∈ take (page_limit limit) suf -> exists p, pair_to_normal A e.2 = Ok p).
    { intros e He. apply Hin. eapply elem_of_submseteq; [exact He|].
      apply sublist_submseteq, sublist_take. }
    clear -Hin'. induction (take (page_limit limit) suf) as [|x l IH].
    - eexists. reflexivity.
    - cbn. destruct (Hin' x) as [p ->]; [set_solver|]. destruct IH as [ps ->]; [set_solver|].
      eexists. reflexivity. }
  destruct Hpage as [page Epage]. pose proof Epage as F2. apply rmap_Forall2 in F2.
  cbn [walk]. rewrite Hq, Epage. cbn [rbind].
  destruct suf as [|x suf'].
  - rewrite take_nil in F2. inversion F2; subst. cbn. exists []. split; [reflexivity|constructor].
  - remember (x :: suf') as suf. 
    destruct (page_limit limit) as [|lim] eqn:Elim; [lia|].
    destruct (list.last (take (S lim) suf)) as [[k v]|] eqn:El.
    2:{ apply last_None in El. subst suf. discriminate. }
    pose proof El as El'. apply last_Some in El' as (tpre & Et).
    assert (exists p, list.last page = Some p /\ pair_to_normal A v = Ok p) as (p & Elp & Ep).
    { rewrite Et in F2. apply Forall2_app_inv_l in F2 as (p1 & p2 & F1 & F2 & ->).
      inversion F2 as [|? p ? ? Hv Hnil]; subst. inversion Hnil; subst. exists p.
      rewrite last_snoc. auto. }
    rewrite Elp.
    destruct (IH (pre ++ take (S lim) suf) (drop (S lim) suf) (Some (p_asset_infos p))) as (l & El2 & F).
    + rewrite <- app_assoc, take_drop. exact E.
    + rewrite Et, app_assoc, last_snoc. eauto.
    + subst suf. cbn [drop]. rewrite drop_length. cbn in Hn. lia.
    + rewrite El2. cbn [rbind]. eexists. split; [reflexivity|].
      rewrite <- (take_drop (S lim) suf). apply Forall2_app; assumption.
Qed.

Lemma sorted_weaken {X} (R S : X -> X -> Prop) l : (forall x y, R x y -> S x y) -> StronglySorted R l -> StronglySorted S l.
Proof. intros H. induction 1 as [|x l Hl IH Hx]; constructor; [exact IH|]. eapply List.Forall_impl; [|exact Hx]. intros y. apply H. Qed.
(** Walking the pages with any limit of at least 1 yields every registered pair
    exactly once, in key order. *)
Theorem C24_paging_complete A st limit :
  api_ok A -> registry_ok A (f_pairs st) -> prefix_free_keys (f_pairs st) ->
  limit <> Some 0 ->
  exists entries l,
    entries ≡ₚ map_to_list (f_pairs st) /\
    StronglySorted (fun x y => String.compare x.1 y.1 = Lt) entries /\
    Forall2 (fun e p => pair_to_normal A e.2 = Ok p) entries l /\
    forall n, (size (f_pairs st) < n)%nat -> walk A st limit n None = Ok l.
Proof.
  intros HA Hr Hp Hl.
  assert (Hlen : Datatypes.length (pairs_sorted (f_pairs st)) = size (f_pairs st)).
  { rewrite (pairs_sorted_perm (f_pairs st)). reflexivity. }
  assert (Hpl : (0 < page_limit limit)%nat).
  { unfold page_limit. destruct limit as [x|].
    - change (0 < N.to_nat (N.min x 30))%nat. assert (x <> 0) by congruence. lia.
    - change (0 < 10)%nat. lia. }
  assert (W : forall n, (size (f_pairs st) < n)%nat -> exists l, walk A st limit n None = Ok l /\
      Forall2 (fun e p => pair_to_normal A e.2 = Ok p) (pairs_sorted (f_pairs st)) l).
  { intros n Hn. apply (walk_suffix A st limit HA Hr Hp Hpl n [] (pairs_sorted (f_pairs st)) None); [reflexivity|reflexivity|lia]. }
  destruct (W (S (size (f_pairs st)))) as (l & El & F); [lia|].
  exists (pairs_sorted (f_pairs st)), l. split; [apply pairs_sorted_perm|].
  split; [apply (sorted_weaken key_lt); [intros x y; apply str_ltb_spec|apply pairs_sorted_strict]|]. split; [exact F|].
  intros n Hn. destruct (W n Hn) as (l' & -> & F'). f_equal.
  clear -F F'. revert l' F'. induction F as [|e p es ps Hep _ IH]; intros l' F'; inversion F' as [|? ? ? ? H1 H2]; subst; [reflexivity|].
  f_equal; [congruence|]. apply IH, H2.
Qed.

(** A page has at most min(limit, 30) entries, 10 if no limit is given. *)
Theorem C24_page_size A st start limit l :
  factory_query_pairs A st start limit = Ok l ->
  N.of_nat (Datatypes.length l) <= N.min (default 10 limit) 30.
Proof.
  unfold factory_query_pairs, read_pairs. intros H. apply rbind_ok in H as (s & _ & H).
  apply rmap_Forall2, Forall2_length in H. rewrite take_length in H.
  unfold page_limit in H. lia.
Qed.

(** When one key extends another, a pair can be skipped.  Denoms may not
    contain a byte 0 or 1, but canonical addresses may: with the denom aaa
    paired with the token whose canonical address is bb, and with the token
    bb.01, the second pair is never listed one page at a time. *)
Definition skip_token : string := String "b" (String "b" (String (ascii_of_N 1) "")).
Definition skip_pair (t lp : string) : pair_info_raw :=
  PairInfoRaw (NativeRaw "aaa", TokenRaw t) "pair" lp (6, 6) ex_reqs.
Definition skip_factory : factory_state :=
  FactoryState "owner" 7 8 ∅
    (<[ pair_key (NativeRaw "aaa", TokenRaw "bb") := skip_pair "bb" "lp1" ]>
     {[ pair_key (NativeRaw "aaa", TokenRaw skip_token) := skip_pair skip_token "lp2" ]}) None.
Theorem C24_paging_complete_refuted :
  registry_ok ex_api (f_pairs skip_factory) /\ size (f_pairs skip_factory) = 2%nat /\
  exists p, forall n, (1 < n)%nat -> walk ex_api skip_factory (Some 1) n None = Ok [p].
Proof.
  split; [|split].
  - intros k v H. unfold skip_factory in H. cbn [f_pairs] in H.
    apply lookup_insert_Some in H as [[<- <-]|[_ H]].
    + split; [reflexivity|]. eexists. vm_compute. reflexivity.
    + apply lookup_singleton_Some in H as [<- <-].
      split; [reflexivity|]. eexists. vm_compute. reflexivity.
  - vm_compute. reflexivity.
  - exists (PairInfo (Native "aaa", Token "bb") "pair" "lp1" (6, 6) ex_reqs).
    intros n Hn. destruct n as [|[|n]]; try lia.
    change (walk ex_api skip_factory (Some 1) (S (S n)) None) with
      (let* page := factory_query_pairs ex_api skip_factory None (Some 1) in
      match list.last page with
      | None => Ok []
      | Some p =>
          let* rest := walk ex_api skip_factory (Some 1) (S n) (Some (p_asset_infos p)) in
          Ok (page ++ rest)
      end).
    assert (factory_query_pairs ex_api skip_factory None (Some 1) =
      Ok [PairInfo (Native "aaa", Token "bb") "pair" "lp1" (6, 6) ex_reqs]) as -> by (vm_compute; reflexivity).
    cbn [rbind list.last p_asset_infos].
    change (walk ex_api skip_factory (Some 1) (S n) (Some (Native "aaa", Token "bb"))) with
      (let* page := factory_query_pairs ex_api skip_factory (Some (Native "aaa", Token "bb")) (Some 1) in
      match list.last page with
      | None => Ok []
      | Some p =>
          let* rest := walk ex_api skip_factory (Some 1) n (Some (p_asset_infos p)) in
          Ok (page ++ rest)
      end).
    assert (factory_query_pairs ex_api skip_factory (Some (Native "aaa", Token "bb")) (Some 1) = Ok []) as ->
      by (vm_compute; reflexivity).
    reflexivity.
Qed.

Definition paged_factory : factory_state :=
  FactoryState "owner" 7 8 ∅
    (<[ pair_key (NativeRaw "aaa", TokenRaw "bb") := skip_pair "bb" "lp1" ]>
     (<[ pair_key (NativeRaw "aaa", TokenRaw "cc") := skip_pair "cc" "lp2" ]>
     {[ pair_key (NativeRaw "aaa", TokenRaw "dd") := skip_pair "dd" "lp3" ]})) None.
Example C24_case :
  walk ex_api paged_factory (Some 2) 4 None =
  Ok [PairInfo (Native "aaa", Token "bb") "pair" "lp1" (6, 6) ex_reqs;
      PairInfo (Native "aaa", Token "cc") "pair" "lp2" (6, 6) ex_reqs;
      PairInfo (Native "aaa", Token "dd") "pair" "lp3" (6, 6) ex_reqs].
Proof. vm_compute. reflexivity. Qed.

(** ** C25: one call *)

(** CreatePair hands the pair the registered decimals of a native asset and the
    reported decimals of a cw20. *)
Theorem C25_decimals_of_created_pair A Q self st sender infos reqs st' rsp :
  factory_execute A Q self st sender (JCreatePair infos reqs) = Ok (st', rsp) ->
  exists d0 d1,
    (forall i d, (i = infos.1 /\ d = d0) \/ (i = infos.2 /\ d = d1) ->
       match i with
       | Native n => q_native_decimals Q self n = Ok d
       | Token t => exists ti, q_token_info Q t = Ok ti /\ ti_decimals ti = d
       end) /\
    rs_msgs rsp = [SubMsg (MInstantiate (Some self) (f_pair_code st)
      (IPair infos (f_token_code st) (d0, d1) reqs) [] "pair") (ReplySuccess 1)].
Proof.
  intros H. apply factory_execute_inv in H as
    [(? & ? & ? & ? & _)|[(i & r & E & H)|[(? & ? & ? & _)|(? & ? & ? & _)]]]; try discriminate.
  injection E as <- <-.
  apply create_pair_inv in H as (d0 & d1 & r0 & r1 & _ & E0 & E1 & _ & _ & _ & _ & Hm).
  exists d0, d1. split; [|exact Hm].
  intros i d [[-> ->]|[-> ->]].
  - destruct infos.1; cbn in E0; [|exact E0]. apply rbind_ok in E0 as (ti & ? & E). injection E as <-. eauto.
  - destruct infos.2; cbn in E1; [|exact E1]. apply rbind_ok in E1 as (ti & ? & E). injection E as <-. eauto.
Qed.

(** Registering decimals needs a non-zero balance of the denom. *)
Theorem C25_registration_needs_balance A Q self st sender d n st' rsp :
  factory_execute A Q self st sender (JAddNativeTokenDecimals d n) = Ok (st', rsp) ->
  exists b, q_balance Q self d = Ok b /\ 0 < b /\ canon A sender = Some (f_owner st) /\
    factory_query_native st' d = Ok n /\
    forall d', d' <> d -> factory_query_native st' d' = factory_query_native st d'.
Proof.
  intros H. apply factory_execute_inv in H as
    [(? & ? & ? & ? & _)|[(? & ? & ? & _)|[(d' & n' & E & _ & H)|(? & ? & ? & _)]]]; try discriminate.
  injection E as <- <-. unfold add_native in H.
  apply rbind_ok in H as ([] & E & H). apply owner_only_ok in E.
  apply rbind_ok in H as (b & Eb & H). apply rbind_ok in H as ([] & E2 & H).
  apply require_ok in E2. injection H as <- <-. bools. exists b. split; [exact Eb|].
  split; [lia|]. split; [exact E|]. unfold factory_query_native. cbn [f_native].
  rewrite lookup_insert. split; [reflexivity|]. intros d' Hd. rewrite lookup_insert_ne by congruence. reflexivity.
Qed.

(** ** C26 *)

Lemma normalized_raw_inj A i j r :
  api_ok A -> (forall a, i = Token a -> norm A a = Some a) -> (forall a, j = Token a -> norm A a = Some a) ->
  info_to_raw A i = Ok r -> info_to_raw A j = Ok r -> i = j.
Proof.
  intros [H1 _] Hi Hj. destruct i as [a|d], j as [b|d']; cbn; intros E1 E2.
  - apply rbind_ok in E1 as (c1 & C1 & E1). apply rbind_ok in E2 as (c2 & C2 & E2).
    apply addr_canonicalize_ok in C1, C2. injection E1 as <-. injection E2 as ->.
    specialize (Hi a eq_refl). specialize (Hj b eq_refl). unfold norm in Hi, Hj.
    rewrite C1 in Hi. rewrite C2 in Hj. congruence.
  - apply rbind_ok in E1 as (c1 & C1 & E1). congruence.
  - apply rbind_ok in E2 as (c2 & C2 & E2). congruence.
  - congruence.
Qed.

(** With normalized token addresses the factory never creates a pair of an
    asset with itself. *)
Theorem C26_two_different_assets A Q self st infos reqs st' rsp :
  api_ok A ->
  (forall a, infos.1 = Token a -> norm A a = Some a) ->
  (forall a, infos.2 = Token a -> norm A a = Some a) ->
  create_pair A Q self st infos reqs = Ok (st', rsp) ->
  forall r0 r1, info_to_raw A infos.1 = Ok r0 -> info_to_raw A infos.2 = Ok r1 -> r0 <> r1.
Proof.
  intros HA H1 H2 H r0 r1 E0 E1 ->.
  apply create_pair_inv in H as (? & ? & ? & ? & Hne & _). apply Hne.
  eapply normalized_raw_inj; eauto.
Qed.
Theorem C26_same_asset_refused A Q self st i reqs :
  create_pair A Q self st (i, i) reqs = Err (EStd "same asset").
Proof. unfold create_pair. cbn [fst snd]. rewrite bool_decide_eq_true_2 by reflexivity. reflexivity. Qed.
Example C26_case : exists st' rsp,
  create_pair ex_api (ex_querier 1 1 1) "factory" ex_factory (Token "tok", Native "uaura") ex_reqs = Ok (st', rsp).
Proof. eexists _, _. vm_compute. reflexivity. Qed.

(** With another spelling of the same address the check is bypassed: both
    stored assets of the new pair are the same token. *)
Theorem C26_two_different_assets_refuted :
  exists st' rsp pst prsp,
    create_pair ex_api (ex_querier 1 1 1) "factory" ex_factory (Token "tok", Token "TOK") ex_reqs = Ok (st', rsp) /\
    rs_msgs rsp = [SubMsg (MInstantiate (Some "factory"%string) 7
      (IPair (Token "tok", Token "TOK") 8 (6, 6) ex_reqs) [] "pair") (ReplySuccess 1)] /\
    pair_instantiate ex_api "pair" (Token "tok", Token "TOK") 8 (6, 6) ex_reqs = Ok (pst, prsp) /\
    r_asset_infos pst = (TokenRaw "tok", TokenRaw "tok").
Proof. eexists _, _, _, _. repeat split; vm_compute; reflexivity. Qed.
