(** Byte-string order, and inversion of the factory's handlers. *)
From Verif Require Import Base BigNumber CwStd BigNumberFacts Asset Messages PairMath Pair PairFacts Factory.
From stdpp Require Import sorting.
From Coq Require Import Ascii String.
Local Open Scope N_scope.
Ltac Zify.zify_post_hook ::= idtac.

Lemma compare_refl s : String.compare s s = Eq.
Proof.
  induction s as [|c s IH]; cbn; [reflexivity|].
  unfold Ascii.compare. rewrite N.compare_refl. exact IH.
Qed.
Lemma str_ltb_spec a b : str_ltb a b = true <-> String.compare a b = Lt.
Proof. unfold str_ltb. destruct (String.compare a b); split; congruence. Qed.
Lemma str_leb_spec a b : str_leb a b = true <-> str_ltb a b = true \/ a = b.
Proof.
  unfold str_leb, str_ltb. destruct (String.compare a b) eqn:E; split; auto; try discriminate.
  - intros _. right. apply String.compare_eq_iff. exact E.
  - intros [?| ->]; [discriminate|]. rewrite compare_refl in E. discriminate.
Qed.
Lemma str_leb_ltb a b : str_leb a b = negb (str_ltb b a).
Proof.
  unfold str_leb, str_ltb. rewrite String.compare_antisym. destruct (String.compare b a); reflexivity.
Qed.
Lemma str_ltb_irrefl a : str_ltb a a = false.
Proof. unfold str_ltb. rewrite compare_refl. reflexivity. Qed.

Lemma ltb_cons x a y b : str_ltb (String x a) (String y b) =
  match Ascii.compare x y with Lt => true | Eq => str_ltb a b | Gt => false end.
Proof. unfold str_ltb. cbn. destruct (Ascii.compare x y); reflexivity. Qed.

Lemma ascii_compare_spec x y :
  (Ascii.compare x y = Lt <-> N_of_ascii x < N_of_ascii y) /\
  (Ascii.compare x y = Eq <-> x = y) /\ (Ascii.compare x y = Gt <-> N_of_ascii y < N_of_ascii x).
Proof.
  unfold Ascii.compare. destruct (N.compare_spec (N_of_ascii x) (N_of_ascii y)) as [E|E|E].
  - apply (f_equal ascii_of_N) in E. rewrite !ascii_N_embedding in E. subst.
    repeat split; try discriminate; try lia; auto.
  - repeat split; try discriminate; try lia; auto. intros ->. lia.
  - repeat split; try discriminate; try lia; auto. intros ->. lia.
Qed.

Lemma str_ltb_trans a : forall b c, str_ltb a b = true -> str_ltb b c = true -> str_ltb a c = true.
Proof.
  induction a as [|x a IH]; intros [|y b] [|z c]; try (cbn; congruence).
  rewrite !ltb_cons.
  destruct (ascii_compare_spec x y) as (A1 & A2 & A3), (ascii_compare_spec y z) as (B1 & B2 & B3),
    (ascii_compare_spec x z) as (C1 & C2 & C3).
  destruct (Ascii.compare x y) eqn:E1; try discriminate;
  destruct (Ascii.compare y z) eqn:E2; try discriminate.
  - pose proof (proj1 A2 eq_refl). pose proof (proj1 B2 eq_refl). subst. rewrite E1. eauto.
  - pose proof (proj1 A2 eq_refl). subst. rewrite E2. auto.
  - pose proof (proj1 B2 eq_refl). subst. rewrite E1. auto.
  - assert (Ascii.compare x z = Lt) as ->; [|auto]. apply C1.
    pose proof (proj1 A1 eq_refl). pose proof (proj1 B1 eq_refl). lia.
Qed.

Lemma str_leb_trans a b c : str_leb a b = true -> str_leb b c = true -> str_leb a c = true.
Proof.
  rewrite !str_leb_spec. intros [H| ->] [H'| ->]; auto. left. eapply str_ltb_trans; eauto.
Qed.
Lemma str_leb_total a b : str_leb a b = true \/ str_leb b a = true.
Proof.
  rewrite (str_leb_ltb a b). destruct (str_ltb b a) eqn:E; [right|left; reflexivity].
  rewrite str_leb_spec. auto.
Qed.
Lemma str_leb_antisym a b : str_leb a b = true -> str_leb b a = true -> a = b.
Proof.
  rewrite !str_leb_spec. intros [H| ->] [H'|H']; auto.
  pose proof (str_ltb_trans _ _ _ H H') as X. rewrite str_ltb_irrefl in X. discriminate.
Qed.

(** [a] is a prefix of [b]. *)
Definition is_prefix (a b : string) : Prop := exists c, b = (a ++ c)%string.
Lemma app_cons x (a b : string) : (String x a ++ b)%string = String x (a ++ b).
Proof. reflexivity. Qed.
Lemma app_empty (b : string) : ("" ++ b)%string = b.
Proof. reflexivity. Qed.
Lemma str_app_assoc (a b c : string) : ((a ++ b) ++ c)%string = (a ++ (b ++ c))%string.
Proof. induction a; rewrite ?app_cons, ?app_empty; congruence. Qed.
Lemma str_app_inj (a b c : string) : (a ++ b)%string = (a ++ c)%string -> b = c.
Proof. induction a; rewrite ?app_cons, ?app_empty; [auto|]. intros H. injection H. auto. Qed.
Lemma str_app_nil (a : string) : (a ++ "")%string = a.
Proof. induction a; rewrite ?app_cons, ?app_empty; congruence. Qed.
Lemma str_app_split (a b c d : string) : (a ++ b)%string = (c ++ d)%string -> is_prefix a c \/ is_prefix c a.
Proof.
  revert c. induction a as [|x a IH]; intros c H.
  - left. exists c. reflexivity.
  - destruct c as [|y c].
    + right. exists (String x a). reflexivity.
    + rewrite !app_cons in H. injection H as -> H. destruct (IH c H) as [[e ->]|[e ->]]; [left|right]; exists e; reflexivity.
Qed.

(** Above a key but not extending it = above the key with anything appended. *)
Lemma ltb_app_iff a b c : ~ is_prefix a b -> str_ltb (a ++ c) b = str_ltb a b.
Proof.
  revert b. induction a as [|x a IH]; intros b Hp.
  - exfalso. apply Hp. exists b. reflexivity.
  - destruct b as [|y b]; [reflexivity|].
    change (String x a ++ c)%string with (String x (a ++ c)).
    rewrite !ltb_cons. destruct (ascii_compare_spec x y) as (_ & E & _).
    destruct (Ascii.compare x y); try reflexivity.
    apply IH. intros [e ->]. apply Hp. exists e. cbn. rewrite (proj1 E eq_refl). reflexivity.
Qed.
Lemma str_ltb_app_self a c : str_ltb (a ++ c) a = false.
Proof.
  induction a as [|x a IH]; [destruct c; reflexivity|].
  change (String x a ++ c)%string with (String x (a ++ c)). rewrite ltb_cons.
  destruct (ascii_compare_spec x x) as (_ & E & _). rewrite (proj2 E eq_refl). exact IH.
Qed.

(** pair_key does not depend on the order of the two assets. *)
Lemma pair_key_comm a b : pair_key (a, b) = pair_key (b, a).
Proof.
  unfold pair_key. cbn [fst snd]. rewrite (str_leb_ltb (raw_bytes a)).
  destruct (str_ltb (raw_bytes b) (raw_bytes a)) eqn:E; cbn [negb].
  - assert (str_leb (raw_bytes b) (raw_bytes a) = true) as ->; [|reflexivity].
    apply str_leb_spec. auto.
  - destruct (str_leb (raw_bytes b) (raw_bytes a)) eqn:E2; [|reflexivity].
    apply str_leb_spec in E2 as [E2|E2]; [congruence|]. rewrite E2. reflexivity.
Qed.

Global Instance key_le_trans : Transitive key_le.
Proof. intros x y z. unfold key_le. apply str_leb_trans. Qed.
Global Instance key_le_total : Total key_le.
Proof. intros x y. unfold key_le. apply str_leb_total. Qed.

Lemma pairs_sorted_perm m : pairs_sorted m ≡ₚ map_to_list m.
Proof. apply merge_sort_Permutation. Qed.
Lemma pairs_sorted_sorted m : StronglySorted key_le (pairs_sorted m).
Proof. apply Sorted_StronglySorted; [apply _|]. apply Sorted_merge_sort; apply _. Qed.
Lemma pairs_sorted_keys m : NoDup (map fst (pairs_sorted m)).
Proof.
  change (NoDup ((pairs_sorted m).*1)). rewrite (pairs_sorted_perm m). apply NoDup_fst_map_to_list.
Qed.
Lemma pairs_sorted_elem m k v : (k, v) ∈ pairs_sorted m <-> m !! k = Some v.
Proof. rewrite (pairs_sorted_perm m). apply elem_of_map_to_list. Qed.

(** Strictly increasing keys. *)
Definition key_lt (x y : string * pair_info_raw) : Prop := str_ltb x.1 y.1 = true.
Lemma pairs_sorted_strict m : StronglySorted key_lt (pairs_sorted m).
Proof.
  pose proof (pairs_sorted_sorted m) as H. pose proof (pairs_sorted_keys m) as Hn.
  induction H as [|x l H IH Hx]; [constructor|].
  cbn in Hn. apply NoDup_cons in Hn as [Hni Hn]. constructor; [auto|].
  apply Forall_forall. intros y Hy. rewrite Forall_forall in Hx. specialize (Hx y Hy).
  unfold key_le in Hx. apply str_leb_spec in Hx as [Hx|Hx]; [exact Hx|].
  exfalso. apply Hni. rewrite Hx. apply elem_of_list_In, in_map, elem_of_list_In. exact Hy.
Qed.

(** ** Handlers *)

Lemma owner_only_ok A st sender : owner_only A st sender = Ok tt <-> canon A sender = Some (f_owner st).
Proof.
  unfold owner_only, addr_canonicalize. destruct (canon A sender) as [c|]; cbn [oget rbind].
  - rewrite require_ok, bool_decide_eq_true. split; congruence.
  - split; discriminate.
Qed.

Lemma create_pair_inv A Q self st infos reqs st' rsp :
  create_pair A Q self st infos reqs = Ok (st', rsp) ->
  exists d0 d1 r0 r1,
    infos.1 <> infos.2 /\
    query_decimals Q infos.1 self = Ok d0 /\ query_decimals Q infos.2 self = Ok d1 /\
    info_to_raw A infos.1 = Ok r0 /\ info_to_raw A infos.2 = Ok r1 /\
    f_pairs st !! pair_key (r0, r1) = None /\
    st' = FactoryState (f_owner st) (f_pair_code st) (f_token_code st) (f_native st) (f_pairs st)
            (Some (TmpPair (pair_key (r0, r1)) (r0, r1) (d0, d1))) /\
    rs_msgs rsp = [SubMsg (MInstantiate (Some self) (f_pair_code st)
                     (IPair infos (f_token_code st) (d0, d1) reqs) [] "pair") (ReplySuccess 1)].
Proof.
  unfold create_pair. intros H.
  apply rbind_ok in H as ([] & E & H). apply require_ok in E.
  apply rbind_ok in H as (d0 & E0 & H). apply rbind_ok in H as (d1 & E1 & H).
  apply rbind_ok in H as (r0 & E2 & H). apply rbind_ok in H as (r1 & E3 & H).
  destruct (f_pairs st !! pair_key (r0, r1)) eqn:El; [discriminate|]. injection H as <- <-.
  apply negb_true_iff, bool_decide_eq_false in E.
  exists d0, d1, r0, r1. repeat split; auto.
  - unfold or_invalid in E0. destruct (query_decimals Q infos.1 self); congruence.
  - unfold or_invalid in E1. destruct (query_decimals Q infos.2 self); congruence.
Qed.

(** The four calls of the factory. *)
Lemma factory_execute_inv A Q self st sender m st' rsp :
  factory_execute A Q self st sender m = Ok (st', rsp) ->
  (exists o t p, m = JUpdateConfig o t p /\ update_config A st sender o t p = Ok (st', rsp)) \/
  (exists infos reqs, m = JCreatePair infos reqs /\ create_pair A Q self st infos reqs = Ok (st', rsp)) \/
  (exists d n, m = JAddNativeTokenDecimals d n /\ n < 256 /\ add_native A Q self st sender d n = Ok (st', rsp)) \/
  (exists c k, m = JMigratePair c k /\ migrate_pair A st sender c k = Ok (st', rsp)).
Proof.
  unfold factory_execute. destruct (jmsg_ranges m) eqn:Er; [|discriminate]. cbn [negb].
  destruct m; try discriminate; intros H.
  - left. eauto 10.
  - right; left. eauto 10.
  - right; right; left. cbn in Er. unfold u8_ok in Er. bools. eauto 10.
  - right; right; right. eauto 10.
Qed.

Lemma factory_reply_inv A Q st pc st' rsp :
  factory_reply A Q st pc = Ok (st', rsp) ->
  exists tmp p lp c, f_tmp st = Some tmp /\ q_pair_self Q pc = Ok p /\
    canon A (p_liquidity_token p) = Some lp /\ canon A pc = Some c /\
    st' = FactoryState (f_owner st) (f_pair_code st) (f_token_code st) (f_native st)
       (<[t_key tmp := PairInfoRaw (t_infos tmp) c lp (t_decimals tmp) (p_requirements p)]> (f_pairs st))
       (f_tmp st) /\ rs_msgs rsp = [].
Proof.
  unfold factory_reply. intros H.
  apply rbind_ok in H as (tmp & E0 & H). apply oget_ok in E0.
  apply rbind_ok in H as (p & E1 & H).
  apply rbind_ok in H as (lp & E2 & H). apply addr_canonicalize_ok in E2.
  apply rbind_ok in H as (c & E3 & H). apply addr_canonicalize_ok in E3.
  injection H as <- <-. exists tmp, p, lp, c. repeat split; auto.
Qed.
