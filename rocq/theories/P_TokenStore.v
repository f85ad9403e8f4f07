(** The state of a token in bytes (C101). *)
From Verif Require Import Base BigNumber CwStd BigNumberFacts Asset Messages PairMath Pair PairFacts Token Factory Router
  SwapFacts SwapFacts2 P_Swap P_Pair FactoryFacts P_Factory P_Router TokenFacts World WorldInd WorldFacts WorldInv WorldInd2
  Examples WorldExamples P_Ledger P_Registry ExecFacts P_Exec
  Json JsonFacts Wire WireFacts TokenQueries P_TokenQuery QueryWire P_QueryWire FitsInv Replay P_TokenHistory TokenMirror P_Mirror Storage P_Store TokenStorage.
From stdpp Require Import sorting.
From Coq Require Import ZifyN Ascii String.
Local Open Scope N_scope.
Ltac Zify.zify_post_hook ::= idtac.

(** ** Specification *)

(** The entries of a token's storage: the cw2 version, the token's data, the
    balance of an account, what an owner allows a spender, and the same by
    spender. *)
Inductive tcell := TVersion | TInfo | TBal (a : string) | TAllow (o s : string) | TGrant (s o : string).
(** Two bytes for a length, the higher one first. *)
Definition size2 (a : string) (rest : string) : string :=
  String (ascii_of_N (N.of_nat (String.length a) / 256)) (String (ascii_of_N (N.of_nat (String.length a) mod 256)) rest).
Definition tcell_key (c : tcell) : string :=
  match c with
  | TVersion => "contract_info"
  | TInfo => "token_info"
  | TBal a => String "000" (String "007" ("balance" ++ a))
  | TAllow o s => String "000" (String "009" ("allowance" ++ size2 o (o ++ s)))
  | TGrant s o => String "000" (String "017" ("allowance_spender" ++ size2 s (s ++ o)))
  end%string.
Definition tcontent (t : token_state) (c : tcell) : option json :=
  match c with
  | TVersion => Some (w_version "crates.io:cw20-base" "0.1.0")
  | TInfo => Some (w_stored_info (StoredInfo (tk_name t) (tk_symbol t) (tk_decimals t) (tk_supply t) (tk_mint t)))
  | TBal a => option_map w_u128 (tk_bal t !! a)
  | TAllow o s => option_map w_allowance (tk_allow t !! (o, s))
  | TGrant s o => option_map w_allowance (tk_allow t !! (o, s))
  end.
(** What the addresses of a chain are like: shorter than 2^16 bytes, and no byte
    255 (which no UTF-8 text has). *)
Fixpoint no_ff (a : string) : Prop := match a with EmptyString => True | String c r => N_of_ascii c <> 255 /\ no_ff r end.
Definition text (a : string) : Prop := N.of_nat (String.length a) < 65536 /\ no_ff a.
(** The addresses under which a message or question looks up allowances. *)
Definition msg_text (m : jmsg) : Prop :=
  match m with
  | JIncreaseAllowance a _ _ | JDecreaseAllowance a _ _ | JTransferFrom a _ _ | JBurnFrom a _ | JSendFrom a _ _ _ => text a
  | _ => True
  end.
Definition q_text (q : qmsg) : Prop := match q with QAllowance o _ | QAllAllowances o _ _ => text o | _ => True end.
Definition tcell_ok (c : tcell) : Prop := match c with TAllow o _ => text o | TGrant s _ => text s | _ => True end.
(** The store holds exactly the contents of the entries. *)
Definition tstored (s : store) (t : token_state) : Prop :=
  (forall c, tcell_ok c -> s !! tcell_key c = option_map render (tcontent t c)) /\
  (forall k b, s !! k = Some b -> exists c, tcell_ok c /\ tcell_key c = k).
(** Numbers within their types, and allowances between addresses. *)
Definition tok_types (t : token_state) : Prop :=
  token_fits t /\ tk_supply t < B128 /\ (forall a n, tk_bal t !! a = Some n -> n < B128) /\
  (forall o s, is_Some (tk_allow t !! (o, s)) -> text o /\ text s).
(** The same outcome: the same response and a store for the new state, or the
    same error. *)
Definition tok_same (b : res (store * response)) (t : res (token_state * response)) : Prop :=
  match b, t with
  | Ok (s, r), Ok (x, r') => r = r' /\ tstored s x /\ tok_types x
  | Err e, Err e' => e = e'
  | _, _ => False
  end.

(** ** Keys *)
Lemma app_same_len a b x y : String.length a = String.length b -> (a ++ x = b ++ y)%string -> a = b /\ x = y.
Proof.
  revert b. induction a as [|c a IH]; intros [|d b] L E; try discriminate L; [rewrite !app_empty in E; auto|].
  rewrite !app_cons in E. injection E as -> E. injection L as L. destruct (IH b L E) as [-> ->]. auto.
Qed.
Lemma size2_inj a b x y : N.of_nat (String.length a) < 65536 -> N.of_nat (String.length b) < 65536 -> size2 a (a ++ x) = size2 b (b ++ y) -> a = b /\ x = y.
Proof.
  unfold size2. intros La Lb H.
  assert (E : forall c d u v r r', String c (String d r) = String u (String v r') -> c = u /\ d = v /\ r = r') by (intros; injection H0; auto).
  apply E in H as (H1 & H2 & H3). apply (f_equal N_of_ascii) in H1, H2.
  rewrite !N_ascii_embedding in H1 by (apply N.div_lt_upper_bound; lia). rewrite !N_ascii_embedding in H2 by (apply N.mod_lt; lia).
  apply app_same_len; [|exact H3]. pose proof (N.div_mod (N.of_nat (String.length a)) 256). pose proof (N.div_mod (N.of_nat (String.length b)) 256). lia.
Qed.
Theorem C101_entries_apart c c' : tcell_ok c -> tcell_ok c' -> tcell_key c = tcell_key c' -> c = c'.
Proof.
  destruct c, c'; cbn [tcell_key tcell_ok]; intros K K' H; try reflexivity; try discriminate H.
  - injection H as H. congruence.
  - assert (E : size2 o (o ++ s) = size2 o0 (o0 ++ s0)) by (injection H as H; unfold size2; congruence).
    apply size2_inj in E as [-> ->]; [reflexivity|apply K|apply K'].
  - assert (E : size2 s (s ++ o) = size2 s0 (s0 ++ o0)) by (injection H as H; unfold size2; congruence).
    apply size2_inj in E as [-> ->]; [reflexivity|apply K|apply K'].
Qed.
Lemma key_bal a : k_bal a = tcell_key (TBal a). Proof. reflexivity. Qed.
Lemma space_size a x : (space a ++ x = size2 a (a ++ x))%string.
Proof. unfold space, len16, size2. rewrite !app_cons, app_empty. reflexivity. Qed.
Lemma key_allow o s : k_allow o s = tcell_key (TAllow o s).
Proof. unfold k_allow, map_key. rewrite space_size. reflexivity. Qed.
Lemma key_grant s o : k_grant s o = tcell_key (TGrant s o).
Proof. unfold k_grant, map_key. rewrite space_size. reflexivity. Qed.

(** ** Values *)
Lemma rw_stored_info i : si_decimals i < 256 -> si_supply i < B128 -> (forall m c, si_mint i = Some (m, Some c) -> c < B128) -> r_stored_info (w_stored_info i) = Some i.
Proof.
  destruct i as [n y d t m]. cbn [si_decimals si_supply si_mint]. intros D S M. unfold r_stored_info, w_stored_info. cbn [si_name si_symbol si_decimals si_supply si_mint]. aread.
  rewrite !rw_str. cbn [obind]. rewrite rw_num. apply N.ltb_lt in D, S. rewrite D. cbn [obind]. rewrite rw_u128. unfold u128_ok. rewrite S. cbn [obind].
  unfold opt_field. aread. rewrite rw_opt by apply w_minter_some. destruct m as [[a c]|]; [|reflexivity]. rewrite rw_minter. cbn [snd].
  destruct c as [c|]; [|reflexivity]. cbn [ou128_ok]. unfold u128_ok. specialize (M a c eq_refl). apply N.ltb_lt in M. rewrite M. reflexivity.
Qed.
Lemma rw_bal n : n < B128 -> r_u128 (w_u128 n) = Some n.
Proof. intros H. rewrite rw_u128. unfold u128_ok. apply N.ltb_lt in H. rewrite H. reflexivity. Qed.
Lemma rw_allow v e : v < B128 -> exp_ok e = true -> r_allowance (w_allowance (v, e)) = Some (v, e).
Proof. intros H E. rewrite rw_allowance. cbn [fst snd]. unfold u128_ok. apply N.ltb_lt in H. rewrite H, E. reflexivity. Qed.

(** ** Stores *)
Lemma tload {X} (r : json -> option X) s t c v x : tstored s t -> tcell_ok c -> tcontent t c = Some v -> r v = Some x -> load r (tcell_key c) s = Ok x.
Proof. intros [S _] K Hc Hr. unfold load. rewrite S, Hc by exact K. cbn [option_map]. rewrite read_back, Hr. reflexivity. Qed.
Lemma tmay_load {X} (r : json -> option X) s t c x : tstored s t -> tcell_ok c ->
  (match tcontent t c with Some v => r v | None => None end = x) -> (tcontent t c <> None -> x <> None) -> may_load r (tcell_key c) s = Ok x.
Proof.
  intros [S _] K Hr Hn. unfold may_load. rewrite S by exact K. destruct (tcontent t c) as [v|]; cbn [option_map]; [|congruence].
  rewrite read_back, Hr. destruct x; [reflexivity|]. exfalso. apply Hn; congruence.
Qed.
Lemma tstored_save {X} (w : X -> json) s t t' c x : tstored s t -> tcell_ok c -> tcontent t' c = Some (w x) ->
  (forall c', c' <> c -> tcontent t' c' = tcontent t c') -> tstored (save w (tcell_key c) x s) t'.
Proof.
  intros [S K] Oc Hc Ho. unfold save. split.
  - intros c' Oc'. destruct (decide (tcell_key c = tcell_key c')) as [E|E].
    + rewrite E, lookup_insert. apply C101_entries_apart in E; [|assumption..]. subst c'. rewrite Hc. reflexivity.
    + rewrite lookup_insert_ne by exact E. rewrite S, Ho; [reflexivity| |exact Oc']. intros ->. apply E. reflexivity.
  - intros k b Hb. destruct (decide (tcell_key c = k)) as [E|E]; [eauto|]. rewrite lookup_insert_ne in Hb by exact E. eapply K; exact Hb.
Qed.
(** Two entries at once: the two allowance maps. *)
Lemma tstored_both s t o p x t' : tstored s t -> text o -> text p -> t' = set_allow t (<[(o, p) := x]> (tk_allow t)) ->
  tstored (save w_allowance (k_grant p o) x (save w_allowance (k_allow o p) x s)) t'.
Proof.
  intros [S K] To Tp ->. rewrite key_allow, key_grant. unfold save. split.
  - intros c' Oc'. destruct (decide (tcell_key (TGrant p o) = tcell_key c')) as [E|E].
    + rewrite E, lookup_insert. apply C101_entries_apart in E; [|assumption..]. subst c'. cbn. rewrite lookup_insert. reflexivity.
    + rewrite lookup_insert_ne by exact E. destruct (decide (tcell_key (TAllow o p) = tcell_key c')) as [E'|E'].
      * rewrite E', lookup_insert. apply C101_entries_apart in E'; [|assumption..]. subst c'. cbn. rewrite lookup_insert. reflexivity.
      * rewrite lookup_insert_ne by exact E'. rewrite S by exact Oc'. f_equal. destruct c'; try reflexivity; cbn [tcontent set_allow tk_allow].
        -- rewrite lookup_insert_ne; [reflexivity|]. intros D. injection D as <- <-. apply E'. reflexivity.
        -- rewrite lookup_insert_ne; [reflexivity|]. intros D. injection D as <- <-. apply E. reflexivity.
  - intros k b Hb. destruct (decide (tcell_key (TGrant p o) = k)) as [E|E]; [exists (TGrant p o); auto|]. rewrite lookup_insert_ne in Hb by exact E.
    destruct (decide (tcell_key (TAllow o p) = k)) as [E'|E']; [exists (TAllow o p); auto|]. rewrite lookup_insert_ne in Hb by exact E'. eapply K; exact Hb.
Qed.
Lemma tstored_none s t o p : tstored s t -> text o -> text p -> tstored (delete (k_grant p o) (delete (k_allow o p) s)) (set_allow t (delete (o, p) (tk_allow t))).
Proof.
  intros [S K] To Tp. rewrite key_allow, key_grant. split.
  - intros c' Oc'. destruct (decide (tcell_key (TGrant p o) = tcell_key c')) as [E|E].
    + rewrite E, lookup_delete. apply C101_entries_apart in E; [|assumption..]. subst c'. cbn. rewrite lookup_delete. reflexivity.
    + rewrite lookup_delete_ne by exact E. destruct (decide (tcell_key (TAllow o p) = tcell_key c')) as [E'|E'].
      * rewrite E', lookup_delete. apply C101_entries_apart in E'; [|assumption..]. subst c'. cbn. rewrite lookup_delete. reflexivity.
      * rewrite lookup_delete_ne by exact E'. rewrite S by exact Oc'. f_equal. destruct c'; try reflexivity; cbn [tcontent set_allow tk_allow].
        -- rewrite lookup_delete_ne; [reflexivity|]. intros D. injection D as <- <-. apply E'. reflexivity.
        -- rewrite lookup_delete_ne; [reflexivity|]. intros D. injection D as <- <-. apply E. reflexivity.
  - intros k b Hb. apply lookup_delete_Some in Hb as [_ Hb]. apply lookup_delete_Some in Hb as [_ Hb]. eapply K; exact Hb.
Qed.

(** ** One step *)
Definition sim (b : res store) (t : res token_state) : Prop :=
  match b, t with Ok s, Ok x => tstored s x /\ tok_types x | Err e, Err e' => e = e' | _, _ => False end.
Lemma sim_same b t f g : sim b t -> (forall s x, tstored s x -> tok_types x -> tok_same (f s) (g x)) -> tok_same (rbind b f) (rbind t g).
Proof. destruct b as [s|e], t as [x|e']; cbn; try contradiction; [|intros ->; reflexivity]. intros [S T] H. apply H; assumption. Qed.
Lemma same_bind {X} (r : res X) f g : (forall x, r = Ok x -> tok_same (f x) (g x)) -> tok_same (rbind r f) (rbind r g).
Proof. destruct r; cbn; auto. Qed.
Lemma sim_bind {X} (r : res X) f g : (forall x, r = Ok x -> sim (f x) (g x)) -> sim (rbind r f) (rbind r g).
Proof. destruct r; cbn; auto. Qed.
Section step.
  Context (A : api) (t : token_state) (s : store) (S : tstored s t) (T : tok_types t).
  Lemma load_bal a : may_load r_u128 (k_bal a) s = Ok (tk_bal t !! a).
  Proof.
    rewrite key_bal. eapply tmay_load; [exact S|exact I| |].
    - cbn [tcontent]. destruct (tk_bal t !! a) as [n|] eqn:E; [|reflexivity]. cbn [option_map]. rewrite rw_bal; [reflexivity|]. eapply T; exact E.
    - cbn [tcontent]. destruct (tk_bal t !! a); [discriminate|]. intros X. destruct (X eq_refl).
  Qed.
  Lemma load_allow o p : text o -> may_load r_allowance (k_allow o p) s = Ok (tk_allow t !! (o, p)).
  Proof.
    intros To. rewrite key_allow. eapply tmay_load; [exact S|exact To| |].
    - cbn [tcontent]. destruct (tk_allow t !! (o, p)) as [[v e]|] eqn:E; [|reflexivity]. cbn [option_map]. destruct (proj2 (proj2 (proj1 T)) _ _ _ E). rewrite rw_allow; auto.
    - cbn [tcontent]. destruct (tk_allow t !! (o, p)); [discriminate|]. intros X. destruct (X eq_refl).
  Qed.
  Lemma load_grant o p : text p -> may_load r_allowance (k_grant p o) s = Ok (tk_allow t !! (o, p)).
  Proof.
    intros To. rewrite key_grant. eapply tmay_load; [exact S|exact To| |].
    - cbn [tcontent]. destruct (tk_allow t !! (o, p)) as [[v e]|] eqn:E; [|reflexivity]. cbn [option_map]. destruct (proj2 (proj2 (proj1 T)) _ _ _ E). rewrite rw_allow; auto.
    - cbn [tcontent]. destruct (tk_allow t !! (o, p)); [discriminate|]. intros X. destruct (X eq_refl).
  Qed.
  Local Notation info := (StoredInfo (tk_name t) (tk_symbol t) (tk_decimals t) (tk_supply t) (tk_mint t)).
  Lemma read_info : r_stored_info (w_stored_info info) = Some info.
  Proof. apply rw_stored_info; apply T. Qed.
  Lemma load_info : load r_stored_info k_info s = Ok info.
  Proof. change k_info with (tcell_key TInfo). eapply tload; [exact S|exact I|reflexivity|exact read_info]. Qed.
  Lemma may_info : may_load r_stored_info k_info s = Ok (Some info).
  Proof. change k_info with (tcell_key TInfo). eapply tmay_load; [exact S|exact I|exact read_info|discriminate]. Qed.
  Lemma stored_bal a n : n < B128 -> tstored (save w_u128 (k_bal a) n s) (set_bal t (<[a := n]> (tk_bal t))) /\ tok_types (set_bal t (<[a := n]> (tk_bal t))).
  Proof.
    intros Hn. split.
    - rewrite key_bal. eapply tstored_save; [exact S|exact I|cbn; rewrite lookup_insert; reflexivity|]. intros [] D; try reflexivity. cbn. rewrite lookup_insert_ne by congruence. reflexivity.
    - destruct T as (T1 & T2 & T3 & T4). split; [exact T1|]. split; [exact T2|]. split; [|exact T4]. intros a' n' H. cbn in H.
      destruct (decide (a = a')) as [->|D]; [rewrite lookup_insert in H; congruence|]. rewrite lookup_insert_ne in H by exact D. eauto.
  Qed.
  Lemma bal_fits a : balance_of t a < B128.
  Proof. unfold balance_of. destruct (tk_bal t !! a) as [n|] eqn:E; cbn; [|reflexivity]. eapply T; exact E. Qed.
  Lemma sim_debit a n : sim (bt_debit s a n) (debit t a n).
  Proof.
    unfold bt_debit, debit. rewrite load_bal. cbn [rbind]. change (default 0 (tk_bal t !! a)) with (balance_of t a). apply sim_bind. intros b Hb.
    apply u128_checked_sub_ok in Hb. apply stored_bal. pose proof (bal_fits a). lia.
  Qed.
  Lemma sim_credit a n : sim (bt_credit s a n) (credit t a n).
  Proof.
    unfold bt_credit, credit. rewrite load_bal. cbn [rbind]. change (default 0 (tk_bal t !! a)) with (balance_of t a). apply sim_bind. intros b Hb.
    apply u128_add_ok in Hb. apply stored_bal. lia.
  Qed.
  Lemma stored_info i u m : i = StoredInfo (tk_name t) (tk_symbol t) (tk_decimals t) u m -> u < B128 -> (forall a c, m = Some (a, Some c) -> c < B128) ->
    tstored (save w_stored_info k_info i s) (set_mint (set_supply t u) m) /\ tok_types (set_mint (set_supply t u) m).
  Proof.
    intros -> Hu Hm. destruct T as ((F1 & F2 & F3) & T2 & T3 & T4). split.
    - change k_info with (tcell_key TInfo). eapply tstored_save; [exact S|exact I|reflexivity|]. intros [] D; try reflexivity. congruence.
    - split; [split; [exact F1|split; [exact Hm|exact F3]]|]. split; [exact Hu|]. split; [exact T3|exact T4].
  Qed.
  Lemma types_allow o p v e : text o -> text p -> v < B128 -> exp_ok e = true -> tok_types (set_allow t (<[(o, p) := (v, e)]> (tk_allow t))).
  Proof.
    intros To Tp Hv He. destruct T as (T1 & T2 & T3 & T4). split; [apply fits_set_allow; assumption|]. split; [exact T2|]. split; [exact T3|].
    intros o' p' H. cbn in H. destruct (decide ((o, p) = (o', p'))) as [D|D]; [injection D as <- <-; auto|]. rewrite lookup_insert_ne in H by exact D. auto.
  Qed.
  Lemma grant_after o p x : may_load r_allowance (k_grant p o) (save w_allowance (k_allow o p) x s) = may_load r_allowance (k_grant p o) s.
  Proof. unfold may_load, save. rewrite lookup_insert_ne; [reflexivity|]. rewrite key_allow, key_grant. discriminate. Qed.
  Lemma sim_deduct o p b n : text o -> text p -> sim (bt_deduct s o p b n) (deduct_allowance t o p b n).
  Proof.
    intros To Tp. unfold bt_deduct, deduct_allowance, bt_deduct1 at 1. rewrite load_allow by exact To. cbn [rbind].
    destruct (tk_allow t !! (o, p)) as [[v e]|] eqn:E; [|reflexivity]. destruct (is_expired e b) eqn:Ee; [reflexivity|].
    destruct (u128_checked_sub v n) as [v'|er] eqn:Ev; [|reflexivity]. cbn [rbind]. unfold bt_deduct1. rewrite grant_after, load_grant by exact Tp. cbn [rbind]. rewrite E, Ee, Ev. cbn [rbind].
    destruct (proj2 (proj2 (proj1 T)) _ _ _ E) as [Hv He]. apply u128_checked_sub_ok in Ev.
    split; [eapply tstored_both; [exact S|exact To|exact Tp|reflexivity]|]. apply types_allow; [exact To|exact Tp|lia|exact He].
  Qed.
  Lemma sim_less n : sim (bt_less s n) (let* u := u128_checked_sub (tk_supply t) n in Ok (set_supply t u)).
  Proof.
    unfold bt_less. rewrite load_info. cbn [rbind si_supply si_name si_symbol si_decimals si_mint]. apply sim_bind. intros u Hu. apply u128_checked_sub_ok in Hu.
    pose proof T as ((_ & F2 & _) & T2 & _). change (set_supply t u) with (set_mint (set_supply t u) (tk_mint t)). apply stored_info; [reflexivity|lia|exact F2].
  Qed.
End step.
Lemma less_bind (t : token_state) n (g : token_state -> res (token_state * response)) :
  (let* u := u128_checked_sub (tk_supply t) n in g (set_supply t u)) = rbind (let* u := u128_checked_sub (tk_supply t) n in Ok (set_supply t u)) g.
Proof. destruct (u128_checked_sub (tk_supply t) n); reflexivity. Qed.

Lemma increase1 s k b n e cur v old : may_load r_allowance k s = Ok cur -> default (0, ENever) cur = (v, old) ->
  bt_increase1 s k b n e =
  let* exp := match e with Some x => if is_expired x b then Err (ECw20 "Invalid expiration") else Ok x | None => Ok old end in
  let* v' := u128_add v n in Ok (save w_allowance k (v', exp) s).
Proof. intros H D. unfold bt_increase1. rewrite H. cbn [rbind]. rewrite D. reflexivity. Qed.

Lemma bt_execute_same A b t s sender m : tstored s t -> tok_types t -> text sender -> msg_text m -> tok_same (bt_execute A b s sender m) (token_execute A b t sender m).
Proof.
  intros S T Ts Tm. unfold bt_execute, token_execute. destruct (jmsg_ranges m) eqn:Rg; [|reflexivity]. cbn [negb]. destruct m; try reflexivity.
  - unfold bt_transfer, token_transfer. apply same_bind. intros _ _. apply same_bind. intros rc Hr.
    eapply sim_same; [apply sim_debit; assumption|]. intros s1 t1 S1 T1. eapply sim_same; [apply sim_credit; assumption|]. intros s2 t2 S2 T2. split; [reflexivity|auto].
  - unfold bt_burn, token_burn. apply same_bind. intros _ _.
    eapply sim_same; [apply sim_debit; assumption|]. intros s1 t1 S1 T1. rewrite (less_bind t1 amount (fun x => Ok (x, _))). eapply sim_same; [apply sim_less; assumption|]. intros s2 t2 S2 T2. split; [reflexivity|auto].
  - unfold bt_send, token_send. apply same_bind. intros _ _. apply same_bind. intros rc Hr.
    eapply sim_same; [apply sim_debit; assumption|]. intros s1 t1 S1 T1. eapply sim_same; [apply sim_credit; assumption|]. intros s2 t2 S2 T2. split; [reflexivity|auto].
  - cbn [jmsg_ranges] in Rg. apply andb_prop in Rg as [_ Re]. unfold bt_increase, token_increase. apply same_bind. intros sp Hsp. apply same_bind. intros _ _.
    assert (Tp : text sp) by (apply addr_validate_ok in Hsp as [-> _]; exact Tm).     destruct (default (0, ENever) (tk_allow t !! (sender, sp))) as [v old] eqn:D.
    assert (Ho : exp_ok old = true).
    { destruct (tk_allow t !! (sender, sp)) as [[v0 e0]|] eqn:L; cbn [default] in D; injection D as <- <-; [|reflexivity]. exact (proj2 (proj2 (proj2 (proj1 T)) _ _ _ L)). }
    rewrite (increase1 s _ b amount expires _ v old (load_allow t s S T sender sp Ts) D).
    match goal with |- tok_same (rbind (rbind ?X _) _) _ => destruct X as [ex|er] eqn:Ex; [|reflexivity] end. cbn [rbind].
    match goal with |- tok_same (rbind (rbind ?X _) _) _ => destruct X as [v'|er] eqn:Ev; [|reflexivity] end. cbn [rbind].
    erewrite increase1; [|rewrite grant_after; apply (load_grant t s S T); exact Tp|exact D]. rewrite Ex. cbn [rbind]. rewrite Ev. cbn [rbind]. split; [reflexivity|].
    split; [eapply tstored_both; [exact S|exact Ts|exact Tp|reflexivity]|]. apply u128_add_ok in Ev. apply types_allow; [exact T|exact Ts|exact Tp|lia|].
    destruct expires as [y|]; [destruct (is_expired y b); [discriminate|]|]; injection Ex as <-; assumption.
  - cbn [jmsg_ranges] in Rg. apply andb_prop in Rg as [_ Re]. unfold bt_decrease, token_decrease. apply same_bind. intros sp Hsp. apply same_bind. intros _ _.
    assert (Tp : text sp) by (apply addr_validate_ok in Hsp as [-> _]; exact Tm). destruct (tk_allow t !! (sender, sp)) as [[v old]|] eqn:L.
    + destruct (proj2 (proj2 (proj1 T)) _ _ _ L) as [V E].
      assert (Hl : load r_allowance (k_allow sender sp) s = Ok (v, old)).
      { rewrite key_allow. eapply tload; [exact S|exact Ts|exact (f_equal (option_map w_allowance) L)|]. apply rw_allow; assumption. }
      rewrite Hl. cbn [rbind]. destruct (amount <? v).
      * apply same_bind. intros ex Ex. split; [reflexivity|]. split; [eapply tstored_both; [exact S|exact Ts|exact Tp|reflexivity]|].
        apply types_allow; [exact T|exact Ts|exact Tp|lia|]. destruct expires as [y|]; [destruct (is_expired y b); [discriminate|]|]; injection Ex as <-; assumption.
      * split; [reflexivity|]. split; [apply tstored_none; assumption|]. destruct T as ((F1 & F2 & F3) & T2 & T3 & T4).
        split; [split; [exact F1|split; [exact F2|]]|split; [exact T2|split; [exact T3|]]].
        -- intros k v' e' H. cbn [set_allow tk_allow] in H. apply lookup_delete_Some in H as [_ H]. eauto.
        -- intros o p [x H]. cbn [set_allow tk_allow] in H. apply lookup_delete_Some in H as [_ H]. apply T4. eauto.
    + assert (Hl : load r_allowance (k_allow sender sp) s = Err ENotFound).
      { unfold load. rewrite key_allow, (proj1 S) by exact Ts. pose proof (f_equal (option_map w_allowance) L) as L'. cbn [option_map] in L'. replace (tcontent t (TAllow sender sp)) with (@None json) by (symmetry; exact L'). reflexivity. }
      rewrite Hl. reflexivity.
  - unfold bt_transfer_from, token_transfer_from. apply same_bind. intros rc Hr. apply same_bind. intros o Ho. assert (To : text o) by (apply addr_validate_ok in Ho as [-> _]; exact Tm).
    eapply sim_same; [apply sim_deduct; assumption|]. intros s1 t1 S1 T1. eapply sim_same; [apply sim_debit; assumption|]. intros s2 t2 S2 T2.
    eapply sim_same; [apply sim_credit; assumption|]. intros s3 t3 S3 T3. split; [reflexivity|auto].
  - unfold bt_send_from, token_send_from. apply same_bind. intros rc Hr. apply same_bind. intros o Ho. assert (To : text o) by (apply addr_validate_ok in Ho as [-> _]; exact Tm).
    eapply sim_same; [apply sim_deduct; assumption|]. intros s1 t1 S1 T1. eapply sim_same; [apply sim_debit; assumption|]. intros s2 t2 S2 T2.
    eapply sim_same; [apply sim_credit; assumption|]. intros s3 t3 S3 T3. split; [reflexivity|auto].
  - unfold bt_burn_from, token_burn_from. apply same_bind. intros o Ho. assert (To : text o) by (apply addr_validate_ok in Ho as [-> _]; exact Tm).
    eapply sim_same; [apply sim_deduct; assumption|]. intros s1 t1 S1 T1. eapply sim_same; [apply sim_debit; assumption|]. intros s2 t2 S2 T2.
    rewrite (less_bind t2 amount (fun x => Ok (x, _))). eapply sim_same; [apply sim_less; assumption|]. intros s3 t3 S3 T3. split; [reflexivity|auto].
  - unfold bt_mint, token_mint. apply same_bind. intros _ _. rewrite (may_info t s S T). cbn [rbind oget si_mint si_supply si_name si_symbol si_decimals].
    destruct (tk_mint t) as [[mi cap]|] eqn:Em; [|reflexivity]. apply same_bind. intros _ _. apply same_bind. intros u Hu. apply same_bind. intros _ _. cbv zeta. apply same_bind. intros rc Hr.
    apply u128_add_ok in Hu. destruct (stored_info t s S T (StoredInfo (tk_name t) (tk_symbol t) (tk_decimals t) u (Some (mi, cap))) u (Some (mi, cap)) eq_refl) as [S1 T1]; [lia| |].
    { intros a c E. rewrite <- Em in E. exact (proj1 (proj2 (proj1 T)) a c E). }
    assert (E1 : set_mint (set_supply t u) (Some (mi, cap)) = set_supply t u) by (unfold set_mint, set_supply; cbn; rewrite Em; reflexivity). rewrite E1 in S1, T1.
    eapply sim_same; [apply sim_credit; assumption|]. intros s2 t2 S2 T2. split; [reflexivity|auto].
  - unfold bt_update_minter, token_update_minter. rewrite (may_info t s S T). cbn [rbind oget si_mint si_supply si_name si_symbol si_decimals].
    destruct (tk_mint t) as [[mi cap]|] eqn:Em; [|reflexivity]. apply same_bind. intros _ _. apply same_bind. intros nm Hn. split; [reflexivity|].
    change (set_mint t nm) with (set_mint (set_supply t (tk_supply t)) nm). apply stored_info; [exact S|exact T|reflexivity|apply T|].
    intros a c ->. destruct new_minter as [y|]; [|discriminate]. apply rbind_ok in Hn as (y' & _ & Hn). injection Hn as <- Hc. apply (proj1 (proj2 (proj1 T)) mi c). rewrite Em, Hc. reflexivity.
Qed.

(** ** New tokens *)
Lemma bt_rows_same A rows : forall s t total, tstored s t -> tok_types t -> forallb (fun r => u128_ok r.2) rows = true -> total < B128 ->
  match bt_rows A rows s total, create_rows A rows (tk_bal t) total with
  | Ok (s', n), Ok (bal, n') => n = n' /\ n < B128 /\ tstored s' (set_bal t bal) /\ tok_types (set_bal t bal)
  | Err e, Err e' => e = e'
  | _, _ => False
  end.
Proof.
  induction rows as [|[a n] rows IH]; intros s t total S T Hf Ht; cbn [bt_rows create_rows].
  - split; [reflexivity|]. split; [exact Ht|]. assert (E : set_bal t (tk_bal t) = t) by (destruct t; reflexivity). rewrite E. auto.
  - cbn [forallb] in Hf. apply andb_prop in Hf as [Hn Hf]. apply N.ltb_lt in Hn. destruct (addr_validate A a) as [a'|e]; [|reflexivity]. cbn [rbind].
    destruct (u128_add total n) as [total'|e] eqn:Et; [|reflexivity]. cbn [rbind]. apply u128_add_ok in Et.
    destruct (stored_bal t s S T a' n Hn) as [S1 T1]. exact (IH _ _ total' S1 T1 Hf ltac:(lia)).
Qed.

Definition blank (m : token_init) : token_state := TokenState (in_name m) (in_symbol m) (in_decimals m) 0 None ∅ ∅.
Lemma bt_instantiate_same A m : tok_same (bt_instantiate A ∅ m) (token_instantiate A m).
Proof.
  unfold bt_instantiate, token_instantiate, create_accounts. destruct (token_init_ranges m) eqn:R; [|reflexivity]. cbn [negb]. cbv zeta.
  unfold token_init_ranges in R. apply andb_prop in R as [R Rc]. apply andb_prop in R as [Rd Rb]. apply N.ltb_lt in Rd.
  apply same_bind. intros _ _. destruct (require _ (ECw20 "Duplicate initial balance addresses")) as [[]|e]; [|reflexivity]. cbn [rbind].
  (* the rows are saved before the token's data; add the data of an empty token first *)
  set (s0 := set_version "crates.io:cw20-base" ∅). set (i0 := StoredInfo (in_name m) (in_symbol m) (in_decimals m) 0 None).
  assert (T0 : tok_types (blank m)).
  { split; [split; [exact Rd|split; [discriminate|]]|split; [reflexivity|split]]; cbn; intros; [exfalso|exfalso|exfalso];
      match goal with H : _ |- _ => rewrite lookup_empty in H; (discriminate H || destruct H; discriminate) end. }
  assert (S0 : tstored (save w_stored_info k_info i0 s0) (blank m)).
  { unfold save, s0, set_version. change k_info with (tcell_key TInfo). change "contract_info"%string with (tcell_key TVersion). split.
    - intros c Oc. destruct (decide (tcell_key TInfo = tcell_key c)) as [E|E].
      + rewrite E, lookup_insert. apply C101_entries_apart in E; [|exact I|exact Oc]. subst c. reflexivity.
      + rewrite lookup_insert_ne by exact E. destruct (decide (tcell_key TVersion = tcell_key c)) as [E'|E'].
        * rewrite E', lookup_insert. apply C101_entries_apart in E'; [|exact I|exact Oc]. subst c. reflexivity.
        * rewrite lookup_insert_ne, lookup_empty by exact E'. destruct c; cbn; rewrite ?lookup_empty; try reflexivity; congruence.
    - intros k b Hb. destruct (decide (tcell_key TInfo = k)) as [E|E]; [exists TInfo; split; [exact I|exact E]|]. rewrite lookup_insert_ne in Hb by exact E.
      destruct (decide (tcell_key TVersion = k)) as [E'|E']; [exists TVersion; split; [exact I|exact E']|]. rewrite lookup_insert_ne, lookup_empty in Hb by exact E'. discriminate. }
  assert (Sw : forall rows s total, bt_rows A rows (save w_stored_info k_info i0 s) total = let* '(s', n) := bt_rows A rows s total in Ok (save w_stored_info k_info i0 s', n)).
  { intros rows. induction rows as [|[a n] rows IH]; intros s total; cbn [bt_rows]; [reflexivity|]. destruct (addr_validate A a) as [a'|e]; [|reflexivity]. cbn [rbind].
    destruct (u128_add total n) as [tt'|e]; [|reflexivity]. cbn [rbind]. rewrite <- IH. f_equal. unfold save. apply insert_commute. rewrite key_bal. discriminate. }
  pose proof (bt_rows_same A (in_balances m) _ _ 0 S0 T0 Rb eq_refl) as H. rewrite Sw in H. change (tk_bal (blank m)) with (∅ : gmap string uint128) in H.
  fold s0. destruct (bt_rows A (in_balances m) s0 0) as [[s1 total]|e]; cbn [rbind] in H |- *.
  2:{ destruct (create_rows _ _ _ _) as [[bal n']|e']; [contradiction|]. subst e'. reflexivity. }
  destruct (create_rows _ _ _ _) as [[bal n']|e']; [|contradiction]. destruct H as (<- & Hn & S1 & T1). cbn [rbind].
  apply same_bind. intros _ _. apply same_bind. intros mint Hm. split; [reflexivity|].
  assert (M : forall a c, mint = Some (a, Some c) -> c < B128).
  { intros a c ->. destruct (in_mint m) as [[y cap]|]; [|discriminate]. apply rbind_ok in Hm as (y' & _ & Hm). injection Hm as _ ->. apply N.ltb_lt. exact Rc. }
  pose proof (stored_info _ _ S1 T1 (StoredInfo (in_name m) (in_symbol m) (in_decimals m) total mint) total mint eq_refl Hn M) as H2.
  unfold save in H2 |- *. rewrite insert_insert in H2. exact H2.
Qed.

(** ** Questions *)
Lemma space_end a : text a -> exists q c, space a = (q ++ String c "")%string /\ N_of_ascii c < 255.
Proof.
  intros [L F]. unfold space, len16. destruct a as [|c a].
  - exists (String (ascii_of_N 0) ""), (ascii_of_N 0). split; reflexivity.
  - assert (H : forall c a, no_ff (String c a) -> exists q d, String c a = (q ++ String d "")%string /\ N_of_ascii d < 255).
    { clear. intros c a. revert c. induction a as [|d a IH]; intros c [F1 F2].
      - exists ""%string, c. split; [reflexivity|]. pose proof (N_ascii_bounded c). lia.
      - destruct (IH d F2) as (q & e & -> & He). exists (String c q), e. split; [rewrite app_cons; reflexivity|exact He]. }
    destruct (H c a F) as (q & d & E & Hd). eexists (String _ (String _ q)), d. split; [|exact Hd]. rewrite !app_cons, app_empty. rewrite E at 3. reflexivity.
Qed.
Lemma prefix_end ns a : text a -> exists q c, map_key ns (space a) = (q ++ String c "")%string /\ N_of_ascii c < 255.
Proof. intros T. destruct (space_end a T) as (q & c & E & H). unfold map_key. exists (space ns ++ q)%string, c. split; [|exact H]. rewrite E, str_app_assoc. reflexivity. Qed.
(** A page over a prefix is the page over the entries kept there. *)
Lemma page_bytes {X} (w : X -> json) s p q c (l : list (string * X)) start limit : p = (q ++ String c "")%string -> N_of_ascii c < 255 -> NoDup (map fst l) ->
  (forall k b, s !! (p ++ k)%string = Some b <-> exists x, In (k, x) l /\ b = render (w x)) ->
  take (enum_limit limit) (range_in s p start) = map (fun e => (e.1, render (w e.2))) (page_of l start limit).
Proof.
  intros Eq Hc Nd H. unfold page_of. cbv zeta. rewrite <- firstn_map. f_equal.
  apply sorted_same; [eapply range_sorted; eauto| |].
  - apply (sorted_map entry_lt); [intros x y _ _ R; exact R|]. destruct start; [apply sorted_filter|]; apply in_order_strict, Nd.
  - assert (P : forall e, In e (in_order l) <-> In e l) by (intros e; rewrite <- !elem_of_list_In, (in_order_perm l); reflexivity).
    intros [k b]. rewrite (range_elem s p q c start k b Eq Hc), H, in_map_iff. split.
    + intros [(x & Hx & ->) Hs]. exists (k, x). split; [reflexivity|]. destruct start as [k0|]; [|apply P, Hx]. apply filter_In. split; [apply P, Hx|apply Hs; reflexivity].
    + intros ([k' x] & E & Hi). apply pair_equal_spec in E as [E1 <-]. cbn [fst] in E1. subst k'. cbn [snd]. destruct start as [k0|].
      * apply filter_In in Hi as [Hi Hl]. split; [exists x; split; [apply P, Hi|reflexivity]|]. intros k1 E. injection E as <-. exact Hl.
      * split; [exists x; split; [apply P, Hi|reflexivity]|discriminate].
Qed.
Lemma page_in {X} (l : list (string * X)) start limit e : In e (page_of l start limit) -> In e l.
Proof.
  unfold page_of. cbv zeta. intros H. apply elem_of_list_In, elem_of_take in H as (n & H & _). apply elem_of_list_lookup_2, elem_of_list_In in H.
  rewrite <- elem_of_list_In, <- (in_order_perm l), elem_of_list_In. destruct start; [apply filter_In in H; tauto|exact H].
Qed.
Lemma bt_page_same s ns a (l : list (string * (uint128 * expiration))) start limit : text a -> NoDup (map fst l) ->
  (forall k b, s !! (map_key ns (space a) ++ k)%string = Some b <-> exists x, In (k, x) l /\ b = render (w_allowance x)) ->
  (forall k v e, In (k, (v, e)) l -> v < B128 /\ exp_ok e = true) -> bt_page s ns a start limit = Ok (page_of l start limit).
Proof.
  intros Ta Nd H F. unfold bt_page. destruct (prefix_end ns a Ta) as (q & c & E & Hc). rewrite (page_bytes w_allowance s _ q c l start limit E Hc Nd H).
  assert (G : forall e, In e (page_of l start limit) -> In e l) by (intros e; apply page_in).
  induction (page_of l start limit) as [|[k [v e]] p IH]; [reflexivity|]. cbn [map rmap fst snd]. destruct (F k v e) as [Hv He]; [apply G; left; reflexivity|].
  rewrite read_back, rw_allow by assumption. cbn [rbind]. rewrite IH by (intros x Hx; apply G; right; exact Hx). reflexivity.
Qed.
Lemma allowances_elem t o k x : In (k, x) (allowances_of t o) <-> tk_allow t !! (o, k) = Some x.
Proof. destruct x as [v e]. apply allow_entry. Qed.
Lemma bt_query_same A t s q : tstored s t -> tok_types t -> q_text q -> bt_query A s q = token_query A t q.
Proof.
  intros S T Tq. destruct q; try reflexivity; unfold bt_query, token_query; f_equal.
  - unfold bt_query_balance, token_query_balance. destruct (addr_validate A _) as [a'|e]; [|reflexivity]. cbn [rbind]. rewrite (load_bal t s S T). reflexivity.
  - unfold bt_query_info, token_query_info. rewrite (load_info t s S T). reflexivity.
  - unfold bt_query_minter, token_query_minter. rewrite (load_info t s S T). reflexivity.
  - unfold bt_query_allowance, token_query_allowance. match goal with |- context [addr_validate A ?o] => destruct (addr_validate A o) as [o'|e] eqn:Eo end; [|reflexivity]. cbn [rbind].
    match goal with |- context [addr_validate A ?o] => destruct (addr_validate A o) as [p'|e] end; [|reflexivity]. cbn [rbind]. rewrite (load_allow t s S T) by (apply addr_validate_ok in Eo as [-> _]; exact Tq). reflexivity.
  - unfold bt_all_allowances, token_all_allowances. match goal with |- context [addr_validate A ?o] => destruct (addr_validate A o) as [o'|e] eqn:Eo end; [|reflexivity]. cbn [rbind].
    assert (To : text o') by (apply addr_validate_ok in Eo as [-> _]; exact Tq). apply bt_page_same; [exact To|apply allow_nodup| |].
    + intros k b. unfold map_key. rewrite !str_app_assoc. change (space "allowance" ++ space o' ++ k)%string with (k_allow o' k). rewrite key_allow, (proj1 S) by exact To. cbn [tcontent].
      split.
      * destruct (tk_allow t !! (o', k)) as [x|] eqn:E; [|discriminate]. cbn. intros H. injection H as <-. exists x. split; [|reflexivity]. apply allowances_elem. exact E.
      * intros (x & Hx & ->). apply allowances_elem in Hx. rewrite Hx. reflexivity.
    + intros k v e Hx. apply allowances_elem in Hx. exact (proj2 (proj2 (proj1 T)) _ _ _ Hx).
  - unfold bt_all_accounts, token_all_accounts. f_equal. unfold range_from.
    rewrite (page_bytes w_u128 s (space "balance") (String "000" (String "007" "balanc")) "e" (map_to_list (tk_bal t))); [rewrite map_map; apply map_ext; reflexivity|reflexivity|reflexivity|apply bal_nodup|].
    intros k b. change (space "balance" ++ k)%string with (tcell_key (TBal k)). rewrite (proj1 S) by exact I. cbn [tcontent]. split.
    + destruct (tk_bal t !! k) as [x|] eqn:E; [|discriminate]. cbn [option_map]. intros H. injection H as <-. exists x. split; [|reflexivity]. apply elem_of_list_In, elem_of_map_to_list, E.
    + intros (x & Hx & ->). apply elem_of_list_In, elem_of_map_to_list in Hx. rewrite Hx. reflexivity.
Qed.
Lemma bt_spender_same A t s als p start limit : tstored s t -> tok_types t -> text p -> agree t als ->
  bt_spender_allowances A s p start limit = token_spender_allowances A (t, als) p start limit.
Proof.
  intros S T Tp0 Ag. unfold bt_spender_allowances, token_spender_allowances. destruct (addr_validate A p) as [p'|e] eqn:Ep; [|reflexivity]. cbn [rbind snd].
  assert (Tp : text p') by (apply addr_validate_ok in Ep as [-> _]; exact Tp0). assert (G : forall k x, In (k, x) (granted_to als p') <-> tk_allow t !! (k, p') = Some x).
  { intros k [v e]. rewrite granted_entry. rewrite Ag. reflexivity. }
  apply bt_page_same; [exact Tp|apply granted_nodup| |].
  - intros k b. unfold map_key. rewrite !str_app_assoc. change (space "allowance_spender" ++ space p' ++ k)%string with (k_grant p' k). rewrite key_grant, (proj1 S) by exact Tp. cbn [tcontent].
    split.
    + destruct (tk_allow t !! (k, p')) as [x|] eqn:E; [|discriminate]. cbn. intros H. injection H as <-. exists x. split; [|reflexivity]. apply G. exact E.
    + intros (x & Hx & ->). apply G in Hx. rewrite Hx. reflexivity.
  - intros k v e Hx. apply G in Hx. exact (proj2 (proj2 (proj1 T)) _ _ _ Hx).
Qed.

(** ** C101 *)

(** The entry points of a token, on bytes as cw20-base works on them and on the
    state of the model, give the same errors, responses and answers, and a store for
    the new state.  The allowances by spender are those of the second map of
    TokenMirror.v. *)
Theorem C101_token A b t s : tstored s t -> tok_types t ->
  (forall sender m, text sender -> msg_text m -> tok_same (bt_execute A b s sender m) (token_execute A b t sender m)) /\
  (forall q, q_text q -> bt_query A s q = token_query A t q) /\
  (forall als spender start limit, text spender -> (forall o p, als !! (p, o) = tk_allow t !! (o, p)) ->
     bt_spender_allowances A s spender start limit = token_spender_allowances A (t, als) spender start limit).
Proof.
  intros S T. split; [intros; apply bt_execute_same; assumption|]. split; [intros; apply bt_query_same; assumption|].
  intros als p start limit Tp Ag. apply bt_spender_same; assumption.
Qed.
(** A new token starts from an empty store. *)
Theorem C101_new A m : tok_same (bt_instantiate A ∅ m) (token_instantiate A m).
Proof. apply bt_instantiate_same. Qed.
(** A store belongs to one state, and a state has exactly one store. *)
Theorem C101_bytes_tell s t t' : tstored s t -> tstored s t' -> tok_types t -> tok_types t' -> t = t'.
Proof.
  intros S S' T T'. assert (E : forall c, tcell_ok c -> tcontent t c = tcontent t' c).
  { intros c K. pose proof (proj1 S c K) as E1. rewrite (proj1 S' c K) in E1. destruct (tcontent t c), (tcontent t' c); try discriminate E1; [|reflexivity].
    injection E1 as E1. apply render_inj in E1. congruence. }
  pose proof (load_info t s S T) as E1. rewrite (load_info t' s S' T') in E1.
  assert (E2 : tk_bal t = tk_bal t').
  { apply map_eq. intros a. pose proof (load_bal t s S T a) as H. rewrite (load_bal t' s S' T' a) in H. congruence. }
  assert (E3 : tk_allow t = tk_allow t').
  { apply map_eq. intros [o p]. destruct (tk_allow t !! (o, p)) as [x|] eqn:X.
    - assert (To : text o) by (apply (proj2 (proj2 (proj2 T)) o p); eauto). pose proof (load_allow t s S T o p To) as H. rewrite (load_allow t' s S' T' o p To) in H. congruence.
    - destruct (tk_allow t' !! (o, p)) as [y|] eqn:Y; [|reflexivity].
      assert (To : text o) by (apply (proj2 (proj2 (proj2 T')) o p); eauto). pose proof (load_allow t s S T o p To) as H. rewrite (load_allow t' s S' T' o p To) in H. congruence. }
  destruct t, t'. cbn in E1, E2, E3. congruence.
Qed.
Definition tcells (t : token_state) : list tcell :=
  [TVersion; TInfo] ++ map (fun e => TBal e.1) (map_to_list (tk_bal t)) ++ map (fun e => TAllow e.1.1 e.1.2) (map_to_list (tk_allow t)) ++
  map (fun e => TGrant e.1.2 e.1.1) (map_to_list (tk_allow t)).
Lemma tcells_content t c v : tcontent t c = Some v -> In c (tcells t).
Proof.
  unfold tcells. destruct c; cbn [tcontent]; intros H; [left; reflexivity|right; left; reflexivity|..]; do 2 right; cbn [app]; rewrite !in_app_iff.
  - left. destruct (tk_bal t !! a) as [n|] eqn:E; [|discriminate H]. apply in_map_iff. exists (a, n). split; [reflexivity|]. apply elem_of_list_In, elem_of_map_to_list, E.
  - right; left. destruct (tk_allow t !! (o, s)) as [n|] eqn:E; [|discriminate H]. apply in_map_iff. exists ((o, s), n). split; [reflexivity|]. apply elem_of_list_In, elem_of_map_to_list, E.
  - right; right. destruct (tk_allow t !! (o, s)) as [n|] eqn:E; [|discriminate H]. apply in_map_iff. exists ((o, s), n). split; [reflexivity|]. apply elem_of_list_In, elem_of_map_to_list, E.
Qed.
Lemma tcells_ok t c : tok_types t -> In c (tcells t) -> tcell_ok c.
Proof.
  intros (_ & _ & _ & T). unfold tcells. intros H. destruct H as [<-|[<-|H]]; [exact I|exact I|]. cbn [app] in H. rewrite !in_app_iff in H. destruct H as [H|[H|H]]; apply in_map_iff in H as ([k x] & <- & H); [exact I|..];
    apply elem_of_list_In, elem_of_map_to_list in H; destruct k as [o p]; cbn; apply (T o p); eauto.
Qed.
Fixpoint tfill (t : token_state) (l : list tcell) : store :=
  match l with [] => ∅ | c :: l => match tcontent t c with Some v => <[tcell_key c := render v]> (tfill t l) | None => tfill t l end end.
Lemma tfill_lookup t l k b : (forall c, In c l -> tcell_ok c) -> tfill t l !! k = Some b <-> exists c v, In c l /\ tcell_key c = k /\ tcontent t c = Some v /\ b = render v.
Proof.
  revert k b. induction l as [|c l IH]; intros k b K; cbn [tfill].
  - rewrite lookup_empty. split; [discriminate|]. intros (c & v & [] & _).
  - specialize (fun k b => IH k b (fun c' H => K c' (or_intror H))). destruct (tcontent t c) as [v|] eqn:Ec.
    + destruct (decide (tcell_key c = k)) as [E|E].
      * rewrite E, lookup_insert. split.
        -- intros H. injection H as <-. exists c, v. split; [left; reflexivity|]. auto.
        -- intros (c' & v' & I' & E' & Hc & ->). rewrite <- E in E'. apply C101_entries_apart in E'; [|apply K; exact I'|apply K; left; reflexivity]. subst c'. congruence.
      * rewrite lookup_insert_ne, IH by exact E. split; intros (c' & v' & I' & H); exists c', v'; (split; [|exact H]); [right; exact I'|].
        destruct I' as [<-|I']; [|exact I']. exfalso. apply E. apply H.
    + rewrite IH. split; intros (c' & v' & I' & H); exists c', v'; (split; [|exact H]); [right; exact I'|].
      destruct I' as [<-|I']; [|exact I']. destruct H as (_ & H & _). congruence.
Qed.
Lemma tfill_stored t : tok_types t -> tstored (tfill t (tcells t)) t.
Proof.
  intros T. assert (K : forall c, In c (tcells t) -> tcell_ok c) by (intros c; apply tcells_ok, T). split.
  - intros c Oc. destruct (tfill t (tcells t) !! tcell_key c) as [b|] eqn:E.
    + apply (tfill_lookup _ _ _ _ K) in E as (c' & v & I' & E & Hc & ->). apply C101_entries_apart in E; [|apply K; exact I'|exact Oc]. subst c'. rewrite Hc. reflexivity.
    + destruct (tcontent t c) as [v|] eqn:Ec; [|reflexivity]. exfalso.
      assert (X : tfill t (tcells t) !! tcell_key c = Some (render v)) by (apply (tfill_lookup _ _ _ _ K); exists c, v; split; [eapply tcells_content; exact Ec|auto]). congruence.
  - intros k b H. apply (tfill_lookup _ _ _ _ K) in H as (c & v & I' & E & _). eauto.
Qed.
Theorem C101_one_store t : tok_types t -> exists s, tstored s t /\ forall s', tstored s' t -> s' = s.
Proof.
  intros T. exists (tfill t (tcells t)). pose proof (tfill_stored t T) as S. set (s := tfill t (tcells t)) in *. clearbody s.
  split; [exact S|]. intros s' S'. apply map_eq. intros k. destruct (s' !! k) as [b|] eqn:E.
  - destruct (proj2 S' k b E) as (c & K & <-). rewrite (proj1 S c K), <- (proj1 S' c K). congruence.
  - destruct (s !! k) as [b|] eqn:E2; [|reflexivity]. destruct (proj2 S k b E2) as (c & K & <-). rewrite (proj1 S' c K), <- (proj1 S c K) in E. congruence.
Qed.

(** Running a token's logged calls on its bytes. *)
Inductive breplay (A : api) (t : string) : store -> list event -> store -> Prop :=
| br_nil s : breplay A t s [] s
| br_other s e lg s' : ev_contract e <> t -> breplay A t s lg s' -> breplay A t s (e :: lg) s'
| br_call s e rsp s1 lg s' : ev_contract e = t ->
    bt_execute A (w_block (ev_world e)) s (ev_sender e) (ev_msg e) = Ok (s1, rsp) -> breplay A t s1 lg s' -> breplay A t s (e :: lg) s'.
(** In any history from an empty chain the token works on its bytes as in the
    model: from the empty store, through all calls it accepted, to the store of its
    state. *)
Theorem C101_history C w lg w' t ts : chain_ok C -> w_insts w = ∅ -> reachable C w -> history C w lg w' -> tok_at w' t ts ->
  Forall (fun e => ev_contract e = t -> text (ev_sender e) /\ msg_text (ev_msg e)) lg ->
  exists m s0 rsp s, bt_instantiate (ch_api C) ∅ m = Ok (s0, rsp) /\ breplay (ch_api C) t s0 lg s /\ tstored s ts /\ tok_types ts.
Proof.
  intros OK Hw Hr Hh Ht F.
  destruct (history_replay C _ lg w' t ts OK Hr Hh Ht) as (ts0 & [Hs|(_ & m & rsp & Hi)] & P).
  - unfold tok_at, state_at in Hs. rewrite Hw, lookup_empty in Hs. discriminate.
  - pose proof (C101_new (ch_api C) m) as H0. rewrite Hi in H0. destruct (bt_instantiate (ch_api C) ∅ m) as [[s0 r0]|e] eqn:E0; [|contradiction].
    destruct H0 as (-> & S0 & T0). exists m, s0, rsp. clear Hi Hh Ht.
    assert (X : exists s, breplay (ch_api C) t s0 lg s /\ tstored s ts /\ tok_types ts).
    { clear E0. revert s0 S0 T0. induction P as [x|x e l x' Hn P IH|x e rs x1 l x' He Hte Hx P IH]; intros s0 S0 T0.
      - exists s0. split; [constructor|auto].
      - destruct (IH (Forall_inv_tail F) s0 S0 T0) as (s & B & R). exists s. split; [apply br_other; assumption|exact R].
      - destruct (Forall_inv F He) as [Tx Tm]. pose proof (bt_execute_same (ch_api C) (w_block (ev_world e)) x s0 (ev_sender e) (ev_msg e) S0 T0 Tx Tm) as H.
        rewrite Hx in H. destruct (bt_execute _ _ s0 _ _) as [[s1 r1]|er] eqn:E1; [|contradiction]. destruct H as (-> & S1 & T1).
        destruct (IH (Forall_inv_tail F) s1 S1 T1) as (s & B & R). exists s. split; [eapply br_call; eauto|exact R]. }
    destruct X as (s & B & R). exists s. split; [exact E0|auto].
Qed.

(** *** Cases *)

(** A token from its instantiation on, in bytes: alice allows bob and, separately,
    an account whose name and spender spell the same text; bob uses it in part. *)
Definition tx_init : token_init := TokenInit "Halo"%string "HALO"%string 6 [("alice", 100); ("ali", 50)]%string (Some ("minter"%string, Some 1000)).
Definition tx_calls : list (string * jmsg) :=
  [("alice", JIncreaseAllowance "bob" 30 (Some (EAtHeight 900))); ("ali", JIncreaseAllowance "cebob" 7 None);
   ("bob", JTransferFrom "alice" "carol" 10); ("minter", JMint "ali" 25); ("carol", JBurn 4)]%string.
Definition tx_run {X} (ex : X -> string -> jmsg -> res (X * response)) (x : res (X * response)) : res (X * response) :=
  fold_left (fun r c => let* '(x, _) := r in ex x c.1 c.2) tx_calls x.
Definition tx_block := Block 12 1000.
Definition tx_state : token_state := match tx_run (token_execute ex_api tx_block) (token_instantiate ex_api tx_init) with Ok (t, _) => t | Err _ => blank tx_init end.
Definition tx_store : store := match tx_run (bt_execute ex_api tx_block) (bt_instantiate ex_api ∅ tx_init) with Ok (s, _) => s | Err _ => ∅ end.
Lemma tx_same : tok_same (tx_run (bt_execute ex_api tx_block) (bt_instantiate ex_api ∅ tx_init)) (tx_run (token_execute ex_api tx_block) (token_instantiate ex_api tx_init)).
Proof.
  assert (St : forall b t sender m, tok_same b t -> text sender -> msg_text m ->
    tok_same (let* '(x, _) := b in bt_execute ex_api tx_block x sender m) (let* '(x, _) := t in token_execute ex_api tx_block x sender m)).
  { intros [[s r]|e] [[t r']|e'] sender m H Ts Tm; cbn in H; try contradiction; [|subst; reflexivity]. destruct H as (_ & S & T). apply bt_execute_same; assumption. }
  unfold tx_run, tx_calls. cbn [fold_left fst snd].
  repeat (apply St; [|split; [reflexivity|cbn; repeat (split; [discriminate|]); exact I]|first [exact I|split; [reflexivity|cbn; repeat (split; [discriminate|]); exact I]]]).
  apply C101_new.
Qed.
Example C101_case : tstored tx_store tx_state /\ tok_types tx_state /\
  tx_store !! "token_info"%string = Some "{""name"":""Halo"",""symbol"":""HALO"",""decimals"":6,""total_supply"":""171"",""mint"":{""minter"":""minter"",""cap"":""1000""}}"%string /\
  tx_store !! tcell_key (TBal "alice") = Some """90"""%string /\ tx_store !! tcell_key (TBal "bob") = None /\
  tx_store !! tcell_key (TAllow "alice" "bob") = Some "{""allowance"":""20"",""expires"":{""at_height"":900}}"%string /\
  tx_store !! tcell_key (TGrant "bob" "alice") = tx_store !! tcell_key (TAllow "alice" "bob") /\
  tx_store !! tcell_key (TAllow "ali" "cebob") = Some "{""allowance"":""7"",""expires"":{""never"":{}}}"%string /\
  bt_query ex_api tx_store (QBalance "carol") = Ok (ABalance 6) /\
  bt_query ex_api tx_store (QAllAccounts (Some "ali"%string) None) = Ok (AAccounts ["alice"; "carol"]%string) /\
  bt_query ex_api tx_store (QAllAllowances "ali" None None) = Ok (AAllowances [("cebob"%string, (7, ENever))]) /\
  bt_spender_allowances ex_api tx_store "bob" None None = Ok [("alice"%string, (20, EAtHeight 900))] /\
  is_ok (bt_execute ex_api tx_block tx_store "bob" (JTransferFrom "alice" "bob" 20)) = true /\
  is_ok (bt_execute ex_api tx_block tx_store "bob" (JTransferFrom "alice" "bob" 21)) = false.
Proof.
  pose proof tx_same as H. assert (E1 : exists r, tx_run (bt_execute ex_api tx_block) (bt_instantiate ex_api ∅ tx_init) = Ok (tx_store, r)).
  { unfold tx_store. destruct (tx_run (bt_execute ex_api tx_block) (bt_instantiate ex_api ∅ tx_init)) as [[s r]|e] eqn:E; [eauto|].
    assert (X : is_ok (tx_run (bt_execute ex_api tx_block) (bt_instantiate ex_api ∅ tx_init)) = true) by (vm_compute; reflexivity). rewrite E in X. discriminate. }
  assert (E2 : exists r, tx_run (token_execute ex_api tx_block) (token_instantiate ex_api tx_init) = Ok (tx_state, r)).
  { unfold tx_state. destruct (tx_run (token_execute ex_api tx_block) (token_instantiate ex_api tx_init)) as [[s r]|e] eqn:E; [eauto|].
    assert (X : is_ok (tx_run (token_execute ex_api tx_block) (token_instantiate ex_api tx_init)) = true) by (vm_compute; reflexivity). rewrite E in X. discriminate. }
  destruct E1 as [r1 E1], E2 as [r2 E2]. rewrite E1, E2 in H. destruct H as (_ & S & T). split; [exact S|]. split; [exact T|].
  do 11 (split; [vm_compute; reflexivity|]). vm_compute; reflexivity.
Qed.
(** Why byte 255 is excluded: the upper bound of a range over a prefix ending in it
    lets in a key without the prefix. *)
Example C101_byte_255 : let p := String "a" (String "255" "") in
  map snd (range_in {[ "b"%string := "another's"%string ]} p None) = ["another's"%string] /\ forall x, (p ++ x)%string <> "b"%string.
Proof. split; [vm_compute; reflexivity|]. intros x. discriminate. Qed.
