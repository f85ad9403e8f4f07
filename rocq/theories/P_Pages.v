(** C21, C22, C24, C26, said by what factories answer: the Pairs pages tell
    exactly what Pair queries tell. *)
From Verif Require Import Base BigNumber CwStd BigNumberFacts Asset Messages PairMath Pair PairFacts Token Factory Router
  SwapFacts SwapFacts2 P_Swap P_Pair FactoryFacts P_Factory P_Router TokenFacts World WorldInd WorldFacts WorldInv WorldInd2
  Examples WorldExamples P_Ledger P_Registry ExecFacts P_Exec P_Admin.
From stdpp Require Import sorting.
From Coq Require Import ZifyN Ascii String.
Local Open Scope N_scope.
Ltac Zify.zify_post_hook ::= idtac.

(** ** Specification *)

(** The bytes that stand for an asset in a factory's book: the denomination, or
    the canonical address of the token. *)
Definition ident (A : api) (i : asset_info) (s : string) : Prop :=
  match i with Native d => s = d | Token a => canon A a = Some s end.
(** The place of a pair in the book: both identifiers, the smaller first. *)
Definition place (A : api) (ij : asset_info * asset_info) (k : string) : Prop :=
  exists x y, ident A ij.1 x /\ ident A ij.2 y /\
    ((String.compare x y <> Gt /\ k = (x ++ y)%string) \/ (String.compare x y = Gt /\ k = (y ++ x)%string)).
(** The factory answers [p] to some Pair query. *)
Definition told (A : api) (st : factory_state) (p : pair_info) : Prop := exists ij, factory_query_pair A st ij = Ok p.
(** No place is the beginning of another. *)
Definition separated (A : api) (st : factory_state) : Prop :=
  forall p q k k', told A st p -> told A st q -> place A (p_asset_infos p) k -> place A (p_asset_infos q) k' -> is_prefix k k' -> k = k'.
Definition same_asset (A : api) (i j : asset_info) : Prop :=
  match i, j with
  | Native d, Native e => d = e
  | Token a, Token b => exists c, canon A a = Some c /\ canon A b = Some c
  | _, _ => False
  end.

(** ** Proofs *)
Lemma ident_raw A i s : ident A i s <-> exists r, info_to_raw A i = Ok r /\ raw_bytes r = s.
Proof.
  destruct i as [a|d]; cbn [ident info_to_raw].
  - unfold addr_canonicalize. destruct (canon A a) as [c|]; cbn [oget rbind].
    + split; [intros E; injection E as <-; eexists; split; reflexivity|intros (r & E & <-); injection E as <-; reflexivity].
    + split; [discriminate|intros (r & E & _); discriminate].
  - split; [intros ->; eexists; split; reflexivity|intros (r & E & <-); injection E as <-; reflexivity].
Qed.
Lemma place_key A ij k : place A ij k <-> exists r0 r1, info_to_raw A ij.1 = Ok r0 /\ info_to_raw A ij.2 = Ok r1 /\ pair_key (r0, r1) = k.
Proof.
  unfold place. split.
  - intros (x & y & Hx & Hy & H). apply ident_raw in Hx as (r0 & E0 & <-). apply ident_raw in Hy as (r1 & E1 & <-). exists r0, r1. split; [exact E0|]. split; [exact E1|].
    unfold pair_key, str_leb. cbn [fst snd]. destruct H as [[H ->]|[H ->]]; [|rewrite H; reflexivity]. destruct (String.compare _ _); [reflexivity|reflexivity|congruence].
  - intros (r0 & r1 & E0 & E1 & <-). exists (raw_bytes r0), (raw_bytes r1). split; [apply ident_raw; eauto|]. split; [apply ident_raw; eauto|].
    unfold pair_key, str_leb. cbn [fst snd]. destruct (String.compare _ _); [left|left|right]; split; congruence || reflexivity.
Qed.
Lemma asked_pair A st ij p : factory_query_pair A st ij = Ok p <->
  exists k v, place A ij k /\ f_pairs st !! k = Some v /\ pair_to_normal A v = Ok p.
Proof.
  unfold factory_query_pair. split.
  - intros H. apply rbind_ok in H as (r0 & E0 & H). apply rbind_ok in H as (r1 & E1 & H). apply rbind_ok in H as (v & Ev & H).
    exists (pair_key (r0, r1)), v. split; [apply place_key; eauto|]. split; [|exact H]. unfold oget in Ev. destruct (f_pairs st !! pair_key (r0, r1)); [congruence|discriminate].
  - intros (k & v & Pk & Ev & H). apply place_key in Pk as (r0 & r1 & E0 & E1 & <-). rewrite E0. cbn [rbind]. rewrite E1. cbn [rbind]. rewrite Ev. cbn [oget rbind]. exact H.
Qed.
Lemma place_swap A i j k : place A (i, j) k -> place A (j, i) k.
Proof. intros H. apply place_key in H as (r0 & r1 & E0 & E1 & <-). apply place_key. exists r1, r0. split; [exact E1|]. split; [exact E0|]. apply pair_key_comm. Qed.
Lemma place_inj A ij k k' : place A ij k -> place A ij k' -> k = k'.
Proof. intros H H'. apply place_key in H as (r0 & r1 & E0 & E1 & <-). apply place_key in H' as (r2 & r3 & E2 & E3 & <-). congruence. Qed.

(** C21: the order of the two assets does not matter to a Pair query. *)
Theorem C21_either_order A st i j p : factory_query_pair A st (i, j) = Ok p <-> factory_query_pair A st (j, i) = Ok p.
Proof. rewrite !asked_pair. split; intros (k & v & Pk & H); exists k, v; (split; [apply place_swap, Pk|exact H]). Qed.
(** C21: whatever a Pair query answers cannot be created again. *)
Theorem C21_known_refused A st i j p : factory_query_pair A st (i, j) = Ok p -> forall Q self reqs,
  (exists e, create_pair A Q self st (i, j) reqs = Err e) /\ (exists e, create_pair A Q self st (j, i) reqs = Err e).
Proof.
  intros H Q self reqs. apply asked_pair in H as (k & v & Pk & Ev & _). apply place_key in Pk as (r0 & r1 & E0 & E1 & <-).
  apply (C21_duplicate_refused A Q self st i j r0 r1 reqs E0 E1). rewrite Ev. eauto.
Qed.

Section pages.
Context (C : chain) (OK : chain_ok C).
Local Notation A := (ch_api C).
Lemma fac_api : api_ok A.
Proof. split; [apply api_human_canon, OK|apply api_canon_human, OK]. Qed.
Definition booked (s : cstate) : Prop :=
  match s with
  | SFactory fs => registry_ok A (f_pairs fs) /\
      forall t, f_tmp fs = Some t -> t_key t = pair_key (t_infos t) /\ exists i j, raw_to_normal A (t_infos t).1 = Ok i /\ raw_to_normal A (t_infos t).2 = Ok j
  | _ => True
  end.
Lemma raw_readable i r : info_to_raw A i = Ok r -> exists j, raw_to_normal A r = Ok j.
Proof.
  destruct i as [a|d]; cbn [info_to_raw]; intros H; [|injection H as <-; eexists; reflexivity].
  apply rbind_ok in H as (c & Hc & H). apply addr_canonicalize_ok in Hc. injection H as <-. destruct (api_canon_human C OK _ _ Hc) as [h Hh].
  exists (Token h). cbn [raw_to_normal]. unfold addr_humanize. rewrite Hh. reflexivity.
Qed.
Lemma booked_inv : local_inv C booked.
Proof.
  split.
  - intros w a k s funds m st rsp H. destruct k, m; cbn [init] in H; try discriminate;
      try (unfold wrap in H; try (destruct (_ && _); [|discriminate]); apply rbind_ok in H as ([x y] & H & E); injection E as <- _; exact I).
    unfold wrap in H. apply rbind_ok in H as ([x y] & H & E). injection E as <- _. unfold factory_instantiate in H.
    match type of H with context [negb (?x && ?y)] => destruct (x && y) end; [|discriminate]. cbn [negb] in H.
    apply rbind_ok in H as (c & Hc & H). injection H as <- _. cbn [booked f_pairs f_tmp]. split; [intros k v E; rewrite lookup_empty in E; discriminate|discriminate].
  - intros w a st0 s funds m st rsp H0 H. destruct st0; cbn [call] in H; unfold wrap in H; apply rbind_ok in H as ([x y] & H & E); injection E as <- _; try exact I.
    destruct H0 as (Hr & Ht).
    apply factory_execute_inv in H as [(o & t & p & -> & H)|[(i & r & -> & H)|[(d & n & -> & _ & H)|(c & k & -> & H)]]].
    + unfold update_config in H. apply rbind_ok in H as ([] & _ & H). apply rbind_ok in H as (o' & Eo & H). injection H as <- _. split; assumption.
    + apply create_pair_inv in H as (d0 & d1 & r0 & r1 & _ & _ & _ & E0 & E1 & _ & -> & _). split; [exact Hr|]. cbn [f_tmp]. intros t E. injection E as <-.
      split; [reflexivity|]. cbn [t_infos fst snd]. destruct (raw_readable _ _ E0) as [x0 X0]. destruct (raw_readable _ _ E1) as [x1 X1]. eauto.
    + unfold add_native in H. apply rbind_ok in H as ([] & _ & H). apply rbind_ok in H as (b & _ & H). apply rbind_ok in H as (? & _ & H). injection H as <- _. split; assumption.
    + unfold migrate_pair in H. apply rbind_ok in H as ([] & _ & H). injection H as <- _. split; assumption.
  - intros w a st0 id b r st rsp H0 H. destruct st0; cbn [reply] in H; try discriminate; try (destruct r; try discriminate);
      unfold wrap in H; apply rbind_ok in H as ([x y] & H & E); injection E as <- _; try exact I.
    destruct H0 as (Hr & Ht). apply factory_reply_inv in H as (t & p & lp & c & Et & _ & Hlp & Hc & -> & _). split; [|exact Ht]. cbn [f_pairs].
    destruct (Ht t Et) as (Ek & i & j & Ei & Ej). intros k v Ev. apply lookup_insert_Some in Ev as [[<- <-]|[_ Ev]]; [|exact (Hr k v Ev)].
    cbn [r_asset_infos]. split; [rewrite Ek; destruct (t_infos t); reflexivity|]. unfold pair_to_normal. cbn [r_liquidity_token r_contract_addr r_asset_infos].
    destruct (api_canon_human C OK _ _ Hlp) as [h1 E1]. destruct (api_canon_human C OK _ _ Hc) as [h2 E2]. unfold addr_humanize. rewrite E1, E2. cbn [oget rbind].
    rewrite Ei. cbn [rbind]. rewrite Ej. cbn [rbind]. eauto.
  - intros k d. exact I.
Qed.
Lemma book_ok w f fs : reachable C w -> fac_at w f fs -> registry_ok A (f_pairs fs).
Proof. intros R H. exact (proj1 (reachable_everywhere C OK booked w booked_inv R f _ H)). Qed.
Lemma entry_place fs k v p : registry_ok A (f_pairs fs) -> f_pairs fs !! k = Some v -> pair_to_normal A v = Ok p -> place A (p_asset_infos p) k.
Proof.
  intros Hr Ev Ep. destruct (Hr k v Ev) as [-> _]. apply pair_to_normal_infos in Ep as [E0 E1]. apply (to_normal_to_raw A _ _ fac_api) in E0, E1.
  apply place_key. do 2 eexists. split; [exact E0|]. split; [exact E1|]. destruct (r_asset_infos v); reflexivity.
Qed.
Lemma told_entry fs p : told A fs p <-> exists k v, f_pairs fs !! k = Some v /\ pair_to_normal A v = Ok p /\ exists ij, place A ij k.
Proof. unfold told. setoid_rewrite asked_pair. split; [intros (ij & k & v & Pk & Ev & Ep); eauto 8|intros (k & v & Ev & Ep & ij & Pk); eauto 8]. Qed.

(** C24: in every state the chain can get into, for every factory: if no place in
    the book is the beginning of another, walking the pages with any limit of at
    least 1 ends and yields exactly the pairs that Pair queries answer, each once,
    in the order of their places. *)
Theorem C24_pages_are_the_pairs w f fs limit : reachable C w -> fac_at w f fs -> separated A fs -> limit <> Some 0 ->
  exists l m, (forall n, (m <= n)%nat -> walk A fs limit n None = Ok l) /\
    List.NoDup l /\ (forall p, In p l <-> told A fs p) /\
    StronglySorted (fun p q => exists k k', place A (p_asset_infos p) k /\ place A (p_asset_infos q) k' /\ String.compare k k' = Lt) l.
Proof.
  intros R Hf Sep Hl. pose proof (book_ok w f fs R Hf) as Hr.
  assert (Pf : prefix_free_keys (f_pairs fs)).
  { intros k k' [v Ev] [v' Ev'] Hk. destruct (Hr k v Ev) as [_ [p Ep]]. destruct (Hr k' v' Ev') as [_ [q Eq]].
    pose proof (entry_place fs k v p Hr Ev Ep) as Pp. pose proof (entry_place fs k' v' q Hr Ev' Eq) as Pq.
    apply (Sep p q k k'); auto; apply told_entry; eauto 8. }
  destruct (C24_paging_complete A fs limit fac_api Hr Pf Hl) as (es & l & Perm & Srt & F & W).
  exists l, (S (size (f_pairs fs))). split; [intros n Hn; apply W; lia|].
  assert (E : forall e, In e es -> f_pairs fs !! e.1 = Some e.2).
  { intros [k v] I. apply elem_of_list_In in I. rewrite Perm in I. apply elem_of_map_to_list in I. exact I. }
  assert (S1 : StronglySorted (fun p q => exists k k', place A (p_asset_infos p) k /\ place A (p_asset_infos q) k' /\ String.compare k k' = Lt) l).
  { clear W Perm. revert E Srt. induction F as [|e p es l Hep F IH]; intros E Srt; [constructor|].
    inversion Srt as [|? ? S' Hall]; subst. constructor; [apply IH; [intros x I; apply E; right; exact I|exact S']|].
    assert (Pp : place A (p_asset_infos p) e.1) by (eapply entry_place; [exact Hr|apply E; left; reflexivity|exact Hep]).
    clear IH. apply List.Forall_forall. intros q Iq.
    assert (X : exists x, In x es /\ pair_to_normal A x.2 = Ok q).
    { clear - F Iq. induction F as [|x y xs ys Hxy F IH]; [destruct Iq|]. destruct Iq as [<-|Iq]; [exists x; split; [left; reflexivity|exact Hxy]|].
      destruct (IH Iq) as (z & Iz & Hz). exists z. split; [right; exact Iz|exact Hz]. }
    destruct X as (x & Ix & Hx). exists e.1, x.1. split; [exact Pp|].
    split; [eapply entry_place; [exact Hr|apply E; right; exact Ix|exact Hx]|]. rewrite List.Forall_forall in Hall. exact (Hall x Ix). }
  split; [|split; [|exact S1]].
  - clear - S1. induction S1 as [|p l S1 IH Hall]; constructor; [|exact IH]. intros I. rewrite List.Forall_forall in Hall. destruct (Hall p I) as (k & k' & P1 & P2 & L).
    rewrite (place_inj _ _ _ _ P1 P2) in L. rewrite compare_refl in L. discriminate.
  - intros p. rewrite told_entry. split.
    + intros I. assert (X : exists x, In x es /\ pair_to_normal A x.2 = Ok p).
      { clear - F I. induction F as [|x y xs ys Hxy F IH]; [destruct I|]. destruct I as [<-|I]; [exists x; split; [left; reflexivity|exact Hxy]|].
        destruct (IH I) as (z & Iz & Hz). exists z. split; [right; exact Iz|exact Hz]. }
      destruct X as (x & Ix & Hx). exists x.1, x.2. split; [exact (E x Ix)|]. split; [exact Hx|]. exists (p_asset_infos p). eapply entry_place; [exact Hr|exact (E x Ix)|exact Hx].
    + intros (k & v & Ev & Ep & _). assert (I : In (k, v) es) by (apply elem_of_list_In; rewrite Perm; apply elem_of_map_to_list; exact Ev).
      clear - F I Ep. induction F as [|x y xs ys Hxy F IH]; [destruct I|]. destruct I as [->|I]; [left; cbn [snd] in Hxy; congruence|right; exact (IH I)].
Qed.
(** Pairs of cw20 tokens are always separated on a chain whose canonical addresses
    all have one length. *)
Theorem C24_token_pairs_separated w f fs n : reachable C w -> fac_at w f fs ->
  (forall a c, canon A a = Some c -> String.length c = n) ->
  (forall p, told A fs p -> exists a b, p_asset_infos p = (Token a, Token b)) -> separated A fs.
Proof.
  intros R Hf L T p q k k' Tp Tq Pp Pq [e E].
  assert (Len : forall p k, told A fs p -> place A (p_asset_infos p) k -> String.length k = (n + n)%nat).
  { clear - L T. intros p k Tp (x & y & Hx & Hy & H). destruct (T p Tp) as (a & b & Ei). rewrite Ei in Hx, Hy. cbn [fst snd ident] in Hx, Hy. apply L in Hx, Hy.
    destruct H as [[_ ->]|[_ ->]]; rewrite str_length_app; lia. }
  apply (Len p k Tp) in Pp. apply (Len q k' Tq) in Pq. rewrite E, str_length_app in Pq.
  destruct e as [|c e]; [rewrite E, str_app_nil; reflexivity|]. cbn [String.length] in Pq. lia.
Qed.

(** C22: what a Pair query answers is about the assets asked for, if none of the
    identifiers is a proper beginning of another. *)
Theorem C22_answer_is_about_the_question w f fs i j p xi xj yi yj : reachable C w -> fac_at w f fs ->
  factory_query_pair A fs (i, j) = Ok p ->
  ident A i xi -> ident A j xj -> ident A (p_asset_infos p).1 yi -> ident A (p_asset_infos p).2 yj ->
  prefix_free4 xi xj yi yj -> (xi = yi /\ xj = yj) \/ (xi = yj /\ xj = yi).
Proof.
  intros R Hf Hq H1 H2 H3 H4 Pf. pose proof (book_ok w f fs R Hf) as Hr. apply asked_pair in Hq as (k & v & Pk & Ev & Ep).
  pose proof (entry_place fs k v p Hr Ev Ep) as Pp. apply place_key in Pk as (r0 & r1 & E0 & E1 & K1). apply place_key in Pp as (r2 & r3 & E2 & E3 & K2). cbn [fst snd] in E0, E1.
  apply ident_raw in H1 as (? & X1 & <-). apply ident_raw in H2 as (? & X2 & <-). apply ident_raw in H3 as (? & X3 & <-). apply ident_raw in H4 as (? & X4 & <-).
  rewrite E0 in X1. rewrite E1 in X2. rewrite E2 in X3. rewrite E3 in X4. injection X1 as <-. injection X2 as <-. injection X3 as <-. injection X4 as <-.
  apply C22_same_key_same_assets; [exact Pf|congruence].
Qed.
(** C26: from assets written in normalized form no pair of an asset with itself
    can be created. *)
Theorem C26_never_itself Q self fs i j reqs st' rsp :
  (forall a, i = Token a -> norm A a = Some a) -> (forall a, j = Token a -> norm A a = Some a) ->
  create_pair A Q self fs (i, j) reqs = Ok (st', rsp) -> ~ same_asset A i j.
Proof.
  intros Ni Nj H S. pose proof (C26_two_different_assets A Q self fs (i, j) reqs st' rsp fac_api Ni Nj H) as X. cbn [fst snd] in X.
  apply create_pair_inv in H as (d0 & d1 & r0 & r1 & _ & _ & _ & E0 & E1 & _). cbn [fst snd] in E0, E1. apply (X r0 r1 E0 E1).
  destruct i as [a|d], j as [b|d']; cbn [same_asset] in S; try contradiction.
  - destruct S as (c & Ca & Cb). cbn [info_to_raw] in E0, E1. unfold addr_canonicalize in E0, E1. rewrite Ca in E0. rewrite Cb in E1. cbn [oget rbind] in E0, E1. congruence.
  - subst d'. congruence.
Qed.
End pages.

Lemma keys_among {V} (m : gmap string V) l : map fst (map_to_list m) = l -> forall x, is_Some (m !! x) -> In x l.
Proof. intros <- x [y E]. change x with (fst (x, y)). apply in_map, elem_of_list_In, elem_of_map_to_list, E. Qed.
(** The example chain: two pairs with a token in common. *)
Lemma separated_keys w f fs : reachable ex_chain w -> fac_at w f fs -> prefix_free_keys (f_pairs fs) -> separated (ch_api ex_chain) fs.
Proof.
  intros R Hf Pf p q k k' Tp Tq Pp Pq Hk. pose proof (book_ok ex_chain ex_chain_ok w f fs R Hf) as Hr.
  apply told_entry in Tp as (k1 & v1 & E1 & N1 & _). apply told_entry in Tq as (k2 & v2 & E2 & N2 & _).
  rewrite (place_inj _ _ _ _ Pp (entry_place ex_chain ex_chain_ok fs k1 v1 p Hr E1 N1)) in *.
  rewrite (place_inj _ _ _ _ Pq (entry_place ex_chain ex_chain_ok fs k2 v2 q Hr E2 N2)) in *. apply Pf; eauto.
Qed.
Example C24_case_pages : let fs := fac_of ex_world "#0" in
  reachable ex_chain ex_world /\ fac_at ex_world "#0" fs /\ separated (ch_api ex_chain) fs /\
  walk (ch_api ex_chain) fs (Some 1) 3 None = Ok [PairInfo (Token "#1", Token "#2") "#6" "#7" (6, 6) ex_wl; PairInfo (Token "#1", Native "uaura") "#4" "#5" (6, 6) ex_wl]%string /\
  factory_query_pair (ch_api ex_chain) fs (Native "uaura", Token "#1") = Ok (PairInfo (Token "#1", Native "uaura") "#4" "#5" (6, 6) ex_wl)%string /\
  place (ch_api ex_chain) (Native "uaura", Token "#1") "#1uaura".
Proof.
  intros fs. assert (Hf : fac_at ex_world "#0" fs) by (apply fac_of_at; vm_compute; reflexivity).
  split; [exact ex_reachable|]. split; [exact Hf|]. split; [|split; [vm_compute; reflexivity|split; [vm_compute; reflexivity|]]].
  - apply (separated_keys ex_world "#0" fs ex_reachable Hf). intros k k' [v Ev] [v' Ev'] [e He].
    assert (K : map fst (map_to_list (f_pairs fs)) = ["#1uaura"; "#1#2"]%string) by (vm_compute; reflexivity).
    pose proof (keys_among _ _ K k (ex_intro _ v Ev)) as I. pose proof (keys_among _ _ K k' (ex_intro _ v' Ev')) as I'.
    clear Ev Ev' K. cbn [In] in I, I'. destruct I as [<-|[<-|[]]], I' as [<-|[<-|[]]]; try reflexivity; discriminate He.
  - exists "uaura"%string, "#1"%string. split; [reflexivity|]. split; [vm_compute; reflexivity|]. right. split; reflexivity.
Qed.
(** A question in the other order, and an attempt to create the pair again. *)
Example C21_case_known : let fs := fac_of ex_world "#0" in
  factory_query_pair (ch_api ex_chain) fs (Token "#2", Token "#1") = Ok (PairInfo (Token "#1", Token "#2") "#6" "#7" (6, 6) ex_wl)%string /\
  create_pair (ch_api ex_chain) (wq ex_chain ex_world) "#0" fs (Token "#2", Token "#1") ex_wl = Err (EStd "Pair already exists").
Proof. split; vm_compute; reflexivity. Qed.
