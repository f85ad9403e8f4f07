(** Properties of whole histories: token supplies, caps, who can spend what,
    native coins, pair balances and pair configuration (C34-C36, C38, C44,
    C46, C47). *)
From Verif Require Import Base BigNumber CwStd BigNumberFacts Asset Messages PairMath Pair PairFacts Token Factory Router
  FactoryFacts TokenFacts World WorldInd WorldFacts WorldInv WorldInd2 Examples WorldExamples.
From Coq Require Import ZifyN.
Local Open Scope N_scope.
Ltac Zify.zify_post_hook ::= idtac.

(** What account [a] holds of an asset. *)
Definition holds (w : world) (a : string) (i : asset_info) : N :=
  match i with
  | Native d => bal w a d
  | Token t => match state_at w t with Some (SToken ts) => balance_of ts a | _ => 0 end
  end.
(** Some call of kind [P] on contract [p] succeeded in the log. *)
Definition called (p : string) (P : jmsg -> Prop) (lg : list event) : Prop :=
  exists e, In e lg /\ ev_contract e = p /\ P (ev_msg e).
Definition is_swap_or_withdraw (m : jmsg) : Prop :=
  exists s n h, m = JReceive s n h /\ (h = HWithdrawLiquidity \/ exists b ms to, h = HSwap b ms to).
Definition is_provide (m : jmsg) : Prop := exists a t r, m = JProvideLiquidity a t r.

Lemma called_app p P l1 l2 : called p P (l1 ++ l2) <-> called p P l1 \/ called p P l2.
Proof.
  unfold called. split.
  - intros (e & H & K). apply in_app_or in H as [H|H]; eauto.
  - intros [(e & H & K)|(e & H & K)]; exists e; (split; [apply in_or_app; auto|exact K]).
Qed.
Lemma called_cons p P e l : called p P (e :: l) <-> (ev_contract e = p /\ P (ev_msg e)) \/ called p P l.
Proof.
  unfold called. split.
  - intros (x & [->|H] & K); eauto.
  - intros [K|(x & H & K)]; eauto using in_eq, in_cons.
Qed.
Lemma called_nil p P : ~ called p P [].
Proof. intros (e & [] & _). Qed.

(** The calls in a log, for the Examples. *)
Definition calls (lg : list event) : list (string * jmsg) := map (fun e => (ev_contract e, ev_msg e)) lg.
Lemma called_in p P lg : called p P lg -> exists m, In (p, m) (calls lg) /\ P m.
Proof.
  intros (e & H & <- & K). exists (ev_msg e). split; [|exact K]. exact (in_map (fun e => (ev_contract e, ev_msg e)) _ _ H).
Qed.
(** The tokens and pairs of the example chain. *)
Definition ex_pair4 : pair_info_raw := PairInfoRaw (TokenRaw "#1", NativeRaw "uaura") "#4" "#5" (6, 6) ex_wl.
Lemma ex_pair4_at : pair_at ex_world "#4" ex_pair4.
Proof. unfold pair_at. vm_compute. reflexivity. Qed.
Definition tok_of (w : world) (t : string) : token_state :=
  match state_at w t with Some (SToken ts) => ts | _ => TokenState "" "" 0 0 None ∅ ∅ end.
Lemma tok_of_at w t : match state_at w t with Some (SToken _) => true | _ => false end = true -> tok_at w t (tok_of w t).
Proof. unfold tok_at, tok_of. destruct (state_at w t) as [[]|]; try discriminate. reflexivity. Qed.
Definition ex_swap : bool * cmsg := (false, x_call "#1" (JSend "#4" 1000000 (HSwap None None None))).
Definition ex_transfer : bool * cmsg := (false, x_call "#1" (JTransfer "#4" 500)).
Definition ex_provide : bool * cmsg :=
  (true, MExecute "#4" (JProvideLiquidity (Asset (Token "#1") 1000000, Asset (Native "uaura") 2000000) None None) [Coin "uaura" 2000000])%string.
Definition ex_withdraw : bool * cmsg := (true, x_call "#5" (JSend "#4" 1000000 HWithdrawLiquidity)).
Definition ex_mint : bool * cmsg := (true, x_call "#1" (JMint "bob" 900000000000)).
Definition ex_minter : bool * cmsg := (true, x_call "#1" (JUpdateMinter (Some "bob"%string))).

(** ** C34, C35 *)

(** C34: in every reachable state the supply a token reports is the sum of all
    balances it reports. *)
Theorem C34_supply_is_sum C w t ts : chain_ok C -> reachable C w -> tok_at w t ts ->
  tk_supply ts = map_fold (fun _ v s => v + s) 0 (tk_bal ts) /\ tk_supply ts < B128.
Proof.
  intros OK Hr Ht. pose proof (reachable_main C OK w Hr) as M. destruct (mn_tokens _ _ M _ _ Ht) as [E L _]. auto.
Qed.
Example C34_case : reachable ex_chain ex_world /\ tok_at ex_world "#1" (tok_of ex_world "#1") /\
  tk_supply (tok_of ex_world "#1") = 1001000000000 /\ size (tk_bal (tok_of ex_world "#1")) = 4%nat.
Proof.
  split; [exact ex_reachable|]. split; [apply tok_of_at; vm_compute; reflexivity|]. vm_compute. auto.
Qed.

(** Properties of single tokens that every token call keeps are kept by histories. *)
Section token_inv.
  Context (C : chain) (OK : chain_ok C) (P : token_state -> Prop).
  Context (HP : forall ts s m ts' l b, token_ok ts -> P ts -> tok_effect (ch_api C) b ts s m ts' l -> P ts').
  Let R (w w' : world) (_ : list event) : Prop :=
    forall t ts, tok_at w t ts -> P ts -> exists ts', tok_at w' t ts' /\ P ts'.
  Lemma token_inv_ok : ind2_ok C R (fun _ _ _ => True).
  Proof.
    assert (Fo : forall l : list submsg, Forall (fun _ => True) l) by (induction l; constructor; auto).
    split.
    - intros w _ t ts. eauto.
    - intros w w1 w2 l1 l2 _ _ _ _ _ H1 H2 t ts Ht HPt. destruct (H1 _ _ Ht HPt) as (ts1 & Ht1 & HP1). eauto.
    - auto.
    - intros w s ro to cs w' to' _ _ _ _ Hb _ _ t ts Ht HPt. exists ts. split; [|exact HPt]. eapply same_toks; [apply (bm_insts _ _ _ _ _ Hb)|exact Ht].
    - intros w s ro c msg funds a w1 i st rsp f w3 lg M _ _ _ Hb Hs Hi Hc w2 _ _ _ _ _ _. right. split; [apply Fo|].
      intros H t ts Ht HPt. destruct (call_toks C _ _ _ _ _ _ _ _ _ _ _ Hb Hs Hi Hc Ht) as [(_ & Ht2)|(-> & ts' & _ & Ht2 & E)]; [eauto|].
      eapply H; [exact Ht2|]. eapply HP; [|exact HPt|exact E]. eapply mn_tokens; eauto.
    - intros w s ro ad code msg funds label k adm w1 st rsp f w3 lg M _ _ _ _ a Hb Hc w2 _ S Hn _ _ _ _. right. split; [apply Fo|].
      intros H t ts Ht HPt. eapply H; [|exact HPt]. eapply new_toks; eauto.
    - intros w s ro c code a i k st M _ _ _ Hi _ _ Hm _ _ t ts Ht HPt. exists ts. split; [|exact HPt]. eapply mig_toks; eauto.
    - intros w a adm _ _ _ t ts Ht HPt. exists ts. split; [|exact HPt]. apply admin_toks. exact Ht.
    - intros w a sm rest f w' r lg id i st rsp _ _ _ _ _ _ _ _ Hi Hr w2 _ _. split; [apply Fo|].
      intros t ts Ht HPt. exists ts. split; [|exact HPt]. eapply reply_toks; eauto.
    - intros w a sm rest id k d st rsp _ _ _ _ Hs _ w2 _ _. split; [apply Fo|].
      intros t ts Ht HPt. exists ts. split; [|exact HPt]. eapply set_toks; [exact Hs|discriminate|exact Ht].
  Qed.
  Lemma token_inv w lg w' t ts : main C w -> history C w lg w' -> tok_at w t ts -> P ts ->
    exists ts', tok_at w' t ts' /\ P ts'.
  Proof.
    intros M Hh Ht HPt. eapply (history_ind2 C OK R (fun _ _ _ => True) w lg w'); eauto using token_inv_ok.
    intros w0 blk _ t0 ts0 H HP0. exists ts0. auto.
  Qed.
End token_inv.

(** C35: once a token has a cap its supply never exceeds it, even after the
    minter is changed or removed. *)
Theorem C35_cap C w lg w' t ts m c : chain_ok C -> reachable C w -> history C w lg w' ->
  tok_at w t ts -> tk_mint ts = Some (m, Some c) ->
  tk_supply ts <= c /\ exists ts', tok_at w' t ts' /\ tk_supply ts' <= c.
Proof.
  intros OK Hr Hh Ht Em. pose proof (reachable_main C OK w Hr) as M.
  pose proof (mn_tokens _ _ M _ _ Ht) as TO. pose proof (to_cap _ TO _ _ Em) as Cp. split; [exact Cp|].
  destruct (token_inv C OK (fun x => (tk_mint x = None \/ exists m', tk_mint x = Some (m', Some c)) /\ tk_supply x <= c))
    with (w := w) (lg := lg) (w' := w') (t := t) (ts := ts) as (ts' & Ht' & _ & L); eauto.
  clear. intros ts s m ts' l b TO [Hm Hs] E.
  assert (Mv : forall t0 from to n, tk_mint t0 = tk_mint ts -> tk_supply t0 = tk_supply ts -> moved t0 ts' from to n ->
    (tk_mint ts' = None \/ exists m', tk_mint ts' = Some (m', Some c)) /\ tk_supply ts' <= c).
  { intros t0 from to n E1 E2 [(_ & _ & _ & A4 & A5 & _) _ _ _]. rewrite A5, A4, E1, E2. auto. }
  destruct E.
  - eapply Mv; eauto.
  - eapply Mv; eauto.
  - apply debit_ok in H1 as [_ ->]. subst t'. cbn [set_supply set_bal tk_mint tk_supply]. split; [exact Hm|lia].
  - apply credit_ok in H5 as [_ ->]. cbn [set_supply set_bal tk_mint tk_supply]. split; [exact Hm|].
    destruct Hm as [Hm|(m' & Hm)]; rewrite H2 in Hm; [discriminate|]. injection Hm as _ ->. auto.
  - auto.
  - auto.
  - auto.
  - apply deduct_ok in H2 as (? & ? & _ & _ & _ & ->). eapply Mv; [| |exact H3]; reflexivity.
  - apply deduct_ok in H2 as (? & ? & _ & _ & _ & ->). eapply Mv; [| |exact H3]; reflexivity.
  - apply deduct_ok in H1 as (? & ? & _ & _ & _ & ->). apply debit_ok in H2 as [_ ->]. subst t'.
    cbn [set_supply set_bal set_allow tk_mint tk_supply]. split; [exact Hm|lia].
  - cbn [set_mint tk_mint tk_supply]. split; [|exact Hs]. destruct new; [right|left; reflexivity].
    destruct Hm as [Hm|(m' & Hm)]; rewrite H in Hm; [discriminate|]. injection Hm as _ ->. eauto.
Qed.
(** alice mints, then hands the minter role to bob, who cannot pass the cap. *)
Example C35_case :
  let w' := after ex_world [ex_mint; ex_minter] in
  history ex_chain ex_world (log_of ex_world [ex_mint; ex_minter]) w' /\
  tok_at ex_world "#1" (tok_of ex_world "#1") /\
  tk_mint (tok_of ex_world "#1") = Some ("alice"%string, Some 2000000000000) /\
  tk_mint (tok_of w' "#1") = Some ("bob"%string, Some 2000000000000) /\
  tk_supply (tok_of w' "#1") = 1901000000000 /\
  is_ok (script w' [(false, x_call "#1" (JMint "bob" 99000000000))]) = true /\
  is_ok (script w' [(false, x_call "#1" (JMint "bob" 99000000001))]) = false.
Proof.
  split; [apply after_history|]. split; [apply tok_of_at; vm_compute; reflexivity|]. vm_compute. auto 10.
Qed.

(** ** C44 *)
Lemma total_ok C d : ind2_ok C (fun w w' _ => native_total w' d = native_total w d) (fun _ _ _ => True).
Proof.
  assert (Fo : forall l : list submsg, Forall (fun _ => True) l) by (induction l; constructor; auto).
  split; auto.
  - intros; congruence.
  - intros w s ro to cs w' to' _ _ _ _ Hb _ _. apply (bm_total _ _ _ _ _ Hb).
  - intros w s ro c msg funds a w1 i st rsp f w3 lg _ _ _ _ Hb _ _ _ w2 _ _ _ _ _ _. right. split; [apply Fo|].
    unfold w2. rewrite set_state_total. intros ->. apply (bm_total _ _ _ _ _ Hb).
  - intros w s ro ad code msg funds label k adm w1 st rsp f w3 lg _ _ _ _ _ a Hb _ w2 _ _ _ _ _ _ _. right. split; [apply Fo|].
    intros ->. pose proof (bm_total _ _ _ _ _ Hb d) as T. exact T.
  - intros. apply set_state_total.
  - intros. unfold native_total. rewrite set_admin_bank. reflexivity.
  - intros. split; [apply Fo|apply set_state_total].
  - intros. split; [apply Fo|apply set_state_total].
Qed.
(** C44: the total of every native denom is the same before and after any history. *)
Theorem C44_native_conserved C w lg w' d : chain_ok C -> reachable C w -> history C w lg w' ->
  map_fold (fun (k : string * string) v s => (if decide (k.2 = d) then v else 0) + s) 0 (w_bank w') =
  map_fold (fun (k : string * string) v s => (if decide (k.2 = d) then v else 0) + s) 0 (w_bank w).
Proof.
  intros OK Hr Hh. apply (history_ind2 C OK _ _ w lg w' (total_ok C d)); auto. apply reachable_main; auto.
Qed.
Example C44_case :
  let w' := after ex_world [ex_provide; ex_swap] in
  history ex_chain ex_world (log_of ex_world [ex_provide; ex_swap]) w' /\
  native_total ex_world "uaura" = 1001000000000 /\ native_total w' "uaura" = 1001000000000 /\
  bal ex_world "bob" "uaura" < bal w' "bob" "uaura".
Proof. split; [apply after_history|]. vm_compute. auto 12. Qed.

(** ** C47 *)
(** C47: whatever happens, a pair keeps its assets, decimals, requirements, LP
    token and address, and its Pair query its answer. *)
Theorem C47_pair_immutable C w lg w' p st : chain_ok C -> reachable C w -> history C w lg w' ->
  pair_at w p st -> pair_at w' p st /\ ask_pair_self C w' p = ask_pair_self C w p.
Proof.
  intros OK Hr Hh Hp. pose proof (reachable_main C OK w Hr) as M.
  destruct (history_main C OK w lg w' M Hh) as [M' R]. destruct (rl_pairs _ _ _ R _ _ Hp) as (st' & H' & [->|(X & _)]); [|discriminate].
  split; [exact H'|]. unfold ask_pair_self, contract_at.
  pose proof Hp as Hp0. apply state_at_inst in Hp as (ad & Hi). apply state_at_inst in H' as (ad' & Hi').
  rewrite (inst_norm C OK w p _ (mn_fresh _ _ M) Hi). cbn [oget rbind]. rewrite Hi, Hi'. reflexivity.
Qed.
Example C47_case :
  let txs := [ex_provide; ex_swap; ex_withdraw; ex_transfer] in
  history ex_chain ex_world (log_of ex_world txs) (after ex_world txs) /\ pair_at ex_world "#4" ex_pair4 /\
  is_ok (script ex_world txs) = true /\
  ask_pair_self ex_chain (after ex_world txs) "#4" =
    Ok (PairInfo (Token "#1", Native "uaura") "#4" "#5" (6, 6) ex_wl)%string.
Proof. split; [apply after_history|]. split; [exact ex_pair4_at|]. vm_compute. auto 12. Qed.

(** Every pair has its LP token between transactions. *)
Lemma reachable_lp C w p st : chain_ok C -> reachable C w -> pair_at w p st ->
  exists t, human (ch_api C) (r_liquidity_token st) = Some t /\ lp_at w p t.
Proof.
  intros OK Hr Hp. pose proof (reachable_main C OK w Hr) as M.
  assert (L : forall w, reachable C w -> forall p st, pair_at w p st -> r_liquidity_token st <> ""%string).
  { clear w p st Hr Hp M. intros w Hr. induction Hr as [b blk|w s m w' lg Hr IH (O & f & r & E)|w blk Hr IH _ _].
    - intros p st H. unfold pair_at, state_at in H. cbn in H. rewrite lookup_empty in H. discriminate.
    - destruct (exec_main C OK f w s m w' r lg (reachable_main C OK w Hr) O E) as [M' R].
      intros p st H L. destruct (rl_new _ _ _ R _ _ H L) as (st0 & H0 & L0). exact (IH _ _ H0 L0).
    - exact IH. }
  destruct (pg_lp _ _ _ _ (mn_pairs _ _ M _ _ Hp)) as [E|X]; [|exact X]. exfalso. exact (L w Hr p st Hp E).
Qed.

(** ** C46 *)
Lemma token_no_loss A b ts s m ts' l p : tok_effect A b ts s m ts' l ->
  (s = p -> (exists o r n, m = JTransferFrom o r n) \/ (exists r n, m = JMint r n)) ->
  (forall sp v, tk_allow ts !! (p, sp) = Some v -> False) ->
  balance_of ts p <= balance_of ts' p.
Proof.
  intros E Hs Ha.
  assert (Mv : forall t0 from to n, tk_bal t0 = tk_bal ts -> from <> p -> moved t0 ts' from to n -> balance_of ts p <= balance_of ts' p).
  { intros t0 from to n E1 Hn [_ _ B _]. specialize (B p). rewrite decide_False in B by congruence.
    unfold balance_of in *. rewrite E1 in B. case_decide; lia. }
  assert (De : forall t0 o n t1 sp, deduct_allowance ts o sp b n = Ok t0 -> debit t0 o n = Ok t1 -> balance_of t1 p = balance_of ts p).
  { intros t0 o n t1 sp D1 D2. apply deduct_ok in D1 as (v & e & Al & _ & _ & ->). apply debit_ok in D2 as [_ ->].
    rewrite balance_set. case_decide; [|reflexivity]. subst. exfalso. eapply Ha; eauto. }
  destruct E.
  - eapply Mv; [reflexivity| |exact H2]. intros ->. destruct (Hs eq_refl) as [(? & ? & ? & X)|(? & ? & X)]; discriminate.
  - eapply Mv; [reflexivity| |exact H2]. intros ->. destruct (Hs eq_refl) as [(? & ? & ? & X)|(? & ? & X)]; discriminate.
  - assert (s <> p) by (intros ->; destruct (Hs eq_refl) as [(? & ? & ? & X)|(? & ? & X)]; discriminate).
    apply debit_ok in H1 as [_ ->]. subst t'. change (balance_of ts p <= balance_of (set_bal ts (<[s := balance_of ts s - n]> (tk_bal ts))) p).
    rewrite balance_set, decide_False by congruence. lia.
  - apply credit_ok in H5 as [_ ->]. rewrite balance_set. change (balance_of (set_supply ts (tk_supply ts + n)) r) with (balance_of ts r).
    change (balance_of (set_supply ts (tk_supply ts + n)) p) with (balance_of ts p). case_decide; subst; lia.
  - unfold balance_of. reflexivity.
  - unfold balance_of. reflexivity.
  - unfold balance_of. reflexivity.
  - apply deduct_ok in H2 as (v & e & Al & _ & _ & ->). eapply Mv; [|clear Mv|exact H3]; [reflexivity|].
    intros ->. eapply Ha; eauto.
  - apply deduct_ok in H2 as (v & e & Al & _ & _ & ->). eapply Mv; [|clear Mv|exact H3]; [reflexivity|].
    intros ->. eapply Ha; eauto.
  - pose proof (De _ _ _ _ _ H1 H2) as X. subst t'. change (balance_of ts p <= balance_of t2 p). lia.
  - unfold balance_of. reflexivity.
Qed.

(** The calls a pair accepts. *)
Lemma pair_calls A Q self st s funds m r : pair_execute A Q self st s funds m = Ok r ->
  is_swap_or_withdraw m \/ is_provide m.
Proof.
  unfold pair_execute. destruct (jmsg_ranges m); [|discriminate]. cbn [negb].
  destruct m as [| | | | | | | | | | |x y h|x y z| | | | | | | | |]; try discriminate; intros H.
  - left. exists x, y, h. split; [reflexivity|]. unfold pair_receive in H. destruct (hook_ranges h); [|discriminate].
    cbn [negb] in H. destruct h; try discriminate; eauto.
  - right. exists x, y, z. reflexivity.
Qed.
(** What ProvideLiquidity sends: pulls from the caller and one mint. *)
Lemma provide_msgs A Q p st s funds assets tol rcv st' rsp :
  pair_execute A Q p st s funds (JProvideLiquidity assets tol rcv) = Ok (st', rsp) ->
  Forall (fun sm => (exists t n, sm = plain (MExecute t (JTransferFrom s p n) [])) \/
                    (exists t r n, sm = plain (MExecute t (JMint r n) []))) (rs_msgs rsp).
Proof.
  unfold pair_execute. destruct (jmsg_ranges _); [|discriminate]. cbn [negb]. intros H.
  apply provide_inv in H as (x & d0 & d1 & m0 & p0 & m1 & p1 & lp & ti & share & _ & _ & _ & _ & _ & _ & P0 & P1 & _ & _ & _ & _ & _ & ->).
  apply pull_deposit_ok in P0, P1. rewrite !map_app. repeat apply Forall_app_2.
  - destruct (a_info x.1); destruct P0 as [-> _]; [|constructor]. constructor; [|constructor]. left. eexists _, _. reflexivity.
  - destruct (a_info x.2); destruct P1 as [-> _]; [|constructor]. constructor; [|constructor]. left. eexists _, _. reflexivity.
  - constructor; [|constructor]. right. eexists _, _, _. reflexivity.
Qed.
(** What swaps and withdrawals send: payments and one burn. *)
Lemma other_msgs A Q p st s funds m st' rsp :
  pair_execute A Q p st s funds m = Ok (st', rsp) -> is_swap_or_withdraw m ->
  Forall (fun sm => (exists a to, sm = plain (into_msg a to)) \/
                    (exists t n, sm = plain (MExecute t (JBurn n) []))) (rs_msgs rsp).
Proof.
  intros H (x & n & h & -> & [->|(b & ms & to & ->)]).
  - apply receive_withdraw_inv in H as (_ & _ & _ & H).
    apply withdraw_inv in H as (y & lp & ti & r0 & r1 & _ & _ & _ & _ & _ & ->).
    constructor; [left; eauto|]. constructor; [left; eauto|]. constructor; [right; eauto|constructor].
  - apply receive_swap_inv in H as (y & to' & _ & _ & _ & _ & _ & _ & _ & H).
    apply swap_inv in H as (z & op & ai & ask & od & ad & r & sp & c & _ & _ & _ & _ & _ & -> & _).
    destruct (r =? 0); [constructor|]. constructor; [left; eauto|constructor].
Qed.

Section pair_keeps.
  Context (C : chain) (OK : chain_ok C) (p : string) (n0 : N) (Hp : p = ch_fresh C n0).
  Definition keeps_R (w w' : world) (lg : list event) : Prop :=
    (exists st, pair_at w p st) -> ~ called p is_swap_or_withdraw lg -> forall i, holds w p i <= holds w' p i.
  Definition keeps_may (w : world) (a : string) (sm : submsg) : Prop :=
    a = p -> (exists st, pair_at w p st) -> (exists t o r n, sm = plain (MExecute t (JTransferFrom o r n) [])) \/
             (exists t r n, sm = plain (MExecute t (JMint r n) [])) \/ (exists code, sm = lp_msg p code).

  Lemma pair_at_grows w w' : (exists x, rel x w w') -> (exists st, pair_at w p st) -> exists st, pair_at w' p st.
  Proof. intros (x & R) (st & H). destruct (rl_pairs _ _ _ R _ _ H) as (st' & H' & _). eauto. Qed.

  Lemma holds_same w w' : w_insts w' = w_insts w -> forall a i, (forall d, bal w a d <= bal w' a d) -> holds w a i <= holds w' a i.
  Proof. intros E a [t|d] H; cbn; [|apply H]. unfold state_at. rewrite E. lia. Qed.

  Lemma pair_at_back x w w' : rel x w w' -> is_Some (state_at w p) -> (exists st, pair_at w' p st) -> exists st, pair_at w p st.
  Proof.
    intros R [s Hs] (st & H). destruct (grows_state _ _ _ _ (rl_grows _ _ _ R) Hs) as (s' & Hs' & K).
    unfold pair_at in *. rewrite H in Hs'. injection Hs' as <-. destruct s; try destruct K. eauto.
  Qed.
  Lemma keeps_other w a l : a <> p -> Forall (keeps_may w a) l.
  Proof. intros D. induction l; constructor; [|assumption]. intros E. exfalso. exact (D E). Qed.
  Lemma keeps_nopair w a l : (forall st, ~ pair_at w p st) -> Forall (keeps_may w a) l.
  Proof. intros D. induction l; constructor; [|assumption]. intros _ (st & E). exfalso. exact (D _ E). Qed.
  Lemma keeps_funds w c m funds ro : keeps_may w p (SubMsg (MExecute c m funds) ro) -> (exists st, pair_at w p st) ->
    funds = [] /\ ((exists o r n, m = JTransferFrom o r n) \/ (exists r n, m = JMint r n)).
  Proof.
    intros H E. destruct (H eq_refl E) as [(? & ? & ? & ? & X)|[(? & ? & ? & X)|(? & X)]]; [| |discriminate];
      injection X; intros; subst; split; eauto.
  Qed.

  Lemma keeps_ok : ind2_ok C keeps_R keeps_may.
  Proof.
    split.
    - intros w _ _ _ i. lia.
    - intros w w1 w2 l1 l2 _ _ _ R1 R2 H1 H2 E Hn i. rewrite called_app in Hn.
      pose proof (pair_at_grows _ _ R1 E) as E1. etransitivity; [apply H1; tauto|apply H2; tauto].
    - intros w w' a sm lg _ _ Ha R _ H -> E. apply H; [reflexivity|]. eapply pair_at_back; eauto.
    - intros w s ro to cs w' to' M _ Hm Hn Hb _ _ E _ i. apply (holds_same w w' (bm_insts _ _ _ _ _ Hb)).
      intros d. pose proof (bm_bal _ _ _ _ _ Hb p d) as B. rewrite decide_False in B.
      + destruct (decide (p = to')); lia.
      + intros X. destruct (Hm (eq_sym X) E) as [(? & ? & ? & ? & Y)|[(? & ? & ? & Y)|(? & Y)]]; discriminate.
    - intros w s ro c msg funds a w1 i st rsp f w3 lg M Hm Hm2 _ Hb Hs Hi Hc w2 M2 R2 Fm Er M3 R3.
      assert (Step : (exists st, pair_at w p st) -> forall i0, holds w p i0 <= holds w2 p i0).
      { intros E [t|d]; cbn [holds].
        - destruct (state_at w t) as [[| | |ts|]|] eqn:Et; try lia.
          destruct (call_toks C _ _ _ _ _ _ _ _ _ _ _ Hb Hs Hi Hc Et) as [(_ & Ht2)|(-> & ts' & _ & Ht2 & Ef)];
            fold w2 in Ht2; unfold tok_at in Ht2; rewrite Ht2; [lia|].
          eapply token_no_loss; [exact Ef| |].
          + intros ->. exact (proj2 (keeps_funds _ _ _ _ _ Hm2 E)).
          + intros sp v Hal. destruct E as (ps & Hps). apply (pair_not_user C w p ps M Hps). eapply mn_allow; eauto.
        - unfold w2. rewrite set_state_bal. pose proof (bm_bal _ _ _ _ _ Hb p d) as B.
          destruct (decide (p = s)) as [<-|]; [|destruct (decide (p = a)); lia].
          rewrite (proj1 (keeps_funds _ _ _ _ _ Hm2 E)), coin_sum_nil in B. destruct (decide (p = a)); lia. }
      assert (Fin : keeps_R w2 w3 lg -> keeps_R w w3 (Event a s msg (rs_attrs rsp) funds w1 :: lg)).
      { intros H E Hn i0. etransitivity; [apply Step; exact E|]. apply H.
        - apply (pair_at_grows w w2); [exists None; exact R2|exact E].
        - intros Hcl. apply Hn. apply called_cons. right. exact Hcl. }
      destruct (decide (a = p)) as [->|Dp].
      2: right; split; [apply keeps_other; exact Dp|exact Fin].
      destruct (i_state i) as [ps| | | |] eqn:Es.
      2-5: left; intros (ps & Hps); unfold pair_at in Hps; rewrite Hs in Hps; discriminate.
      cbn [call] in Hc. unfold wrap in Hc. apply rbind_ok in Hc as ([ps' rsp'] & Hc & E'). injection E' as <- <-.
      assert (Hx : (is_swap_or_withdraw msg) \/ (exists a t r, msg = JProvideLiquidity a t r)).
      { destruct (pair_calls _ _ _ _ _ _ _ _ Hc) as [X|X]; auto. }
      destruct Hx as [Hx|(as0 & tol & rcv & ->)].
      + left. intros _ Hn. exfalso. apply Hn. apply called_cons. left. auto.
      + right. split; [|exact Fin].
        eapply List.Forall_impl; [|exact (provide_msgs _ _ _ _ _ _ _ _ _ _ _ Hc)].
        cbn beta. intros sm [(t & n & X)|X] _ _; [left; eauto 6|auto].
    - intros w s ro ad code msg funds label k adm w1 st rsp f w3 lg M Hm Hm2 Hk Had a Hb Hc w2 M2 S Hn QP Er M3 R3.
      destruct (decide (a = p)) as [Ea|Dp].
      { left. intros (ps & Hps). unfold pair_at in Hps. rewrite <- Ea in Hps. congruence. }
      right. split; [apply keeps_other; exact Dp|].
      intros H (ps & Hps) Hnc i0. assert (Hps2 : pair_at w2 p ps) by (unfold pair_at in *; rewrite S, decide_False by congruence; exact Hps).
      etransitivity; [|apply H; eauto]. destruct i0 as [t|d]; cbn [holds].
      + rewrite S. destruct (decide (t = a)) as [->|]; [rewrite Hn; lia|lia].
      + change (bal w2 p d) with (bal w1 p d). pose proof (bm_bal _ _ _ _ _ Hb p d) as B.
        change (bal (set_next w (w_next w + 1)) p d) with (bal w p d) in B.
        destruct (decide (p = s)) as [E|]; [|destruct (decide (p = ch_fresh C (w_next w))); lia].
        assert (X : funds = []).
        { destruct (Hm2 (eq_sym E) (ex_intro _ ps Hps)) as [(? & ? & ? & ? & X)|[(? & ? & ? & X)|(? & X)]]; try discriminate. injection X; intros; subst; reflexivity. }
        rewrite X, coin_sum_nil in B. destruct (decide (p = ch_fresh C (w_next w))); lia.
    - intros w s ro c code a i k st M Hm _ _ Hi _ _ Hmg _ _ _ _ i0. destruct i0 as [t|d]; cbn [holds].
      + destruct (state_at w t) as [[| | |ts|]|] eqn:Et; try lia. pose proof (mig_toks C OK _ _ _ _ _ _ _ Hi Hmg Et) as T. unfold tok_at in T. rewrite T. lia.
      + rewrite set_state_bal. lia.
    - intros w a adm _ _ _ _ _ i0. destruct i0 as [t|d]; cbn [holds]; [rewrite admin_state; reflexivity|].
      unfold bal. rewrite set_admin_bank. lia.
    - intros w a sm rest f w' r lg id i st rsp M Hms Hm2 Hro Ex M' R' HR Hi Hr w2 M2 Rr2. split.
      + destruct (reply_msgs C _ _ _ _ _ _ _ _ Hi Hr) as [->|(k & d & Ha)]; [constructor|].
        destruct (decide (a = p)) as [->|D]; [|apply keeps_other; exact D].
        apply keeps_nopair. intros ps Hps. destruct (grows_state _ _ _ _ (rl_grows _ _ _ Rr2) Ha) as (s' & Hs' & K).
        unfold pair_at in Hps. rewrite Hps in Hs'. injection Hs' as <-. destruct K.
      + intros _ _ i0. destruct i0 as [t|d]; cbn [holds].
        * destruct (state_at w' t) as [[| | |ts|]|] eqn:Et; try lia. pose proof (reply_toks C _ _ _ _ _ _ _ _ _ _ Hi Hr Et) as T. fold w2 in T. unfold tok_at in T. rewrite T. lia.
        * unfold w2. rewrite set_state_bal. lia.
    - intros w a sm rest id k d st rsp M _ _ _ Hs _ w2 M2 Rr2. split.
      + destruct (decide (a = p)) as [->|D]; [|apply keeps_other; exact D].
        apply keeps_nopair. intros ps Hps. destruct (grows_state _ _ _ _ (rl_grows _ _ _ Rr2) Hs) as (s' & Hs' & K).
        unfold pair_at in Hps. rewrite Hps in Hs'. injection Hs' as <-. destruct K.
      + intros _ _ i0. destruct i0 as [t|dn]; cbn [holds].
        * destruct (state_at w t) as [[| | |ts|]|] eqn:Et; try lia. assert (T : tok_at w2 t ts) by (eapply set_toks; [exact Hs|discriminate|exact Et]).
          unfold tok_at in T. rewrite T. lia.
        * unfold w2. rewrite set_state_bal. lia.
  Qed.
End pair_keeps.

(** C46: if no swap and no withdrawal on the pair succeeds in a history, none of
    the pair's balances falls in it. *)
Theorem C46_reserves_stay C w lg w' p st : chain_ok C -> reachable C w -> history C w lg w' ->
  pair_at w p st -> ~ called p is_swap_or_withdraw lg ->
  forall i, holds w p i <= holds w' p i.
Proof.
  intros OK Hr Hh Hp Hn. pose proof (reachable_main C OK w Hr) as M.
  destruct (pair_fresh C w p st M Hp) as (n0 & Ep).
  apply (history_ind2 C OK _ _ w lg w' (keeps_ok C OK p)); eauto.
  - intros w0 s m [_ O] -> . exfalso. exact (O n0 (eq_sym Ep)).
  - intros w0 blk _ _ _ i. apply holds_same; [reflexivity|]. intros d. unfold bal. cbn. lia.
Qed.
(** A deposit and a donation raise the balances; the swap lowers one. *)
Example C46_case :
  let txs := [ex_provide; ex_transfer] in
  history ex_chain ex_world (log_of ex_world txs) (after ex_world txs) /\ pair_at ex_world "#4" ex_pair4 /\
  ~ called "#4" is_swap_or_withdraw (log_of ex_world txs) /\
  holds ex_world "#4" (Token "#1") = 10000000 /\ holds (after ex_world txs) "#4" (Token "#1") = 11000500 /\
  holds (after ex_world txs) "#4" (Native "uaura") = 22000000 /\
  holds (after ex_world [ex_swap]) "#4" (Native "uaura") = 18187273.
Proof.
  split; [apply after_history|]. split; [exact ex_pair4_at|]. split; [|vm_compute; auto 12].
  intros H. apply called_in in H as (m & H & (s & n & h & -> & _)). revert H.
  match goal with |- In _ ?l -> _ => let v := eval vm_compute in l in replace l with v by (vm_compute; reflexivity) end.
  cbn [In]. intuition discriminate.
Qed.

(** ** C36 *)
Lemma token_no_mint A b ts s m ts' l : tok_effect A b ts s m ts' l ->
  (forall cap r n, tk_mint ts = Some (s, cap) -> m <> JMint r n) -> tk_supply ts' <= tk_supply ts.
Proof.
  intros E Hs.
  assert (Mv : forall t0 from to n, tk_supply t0 = tk_supply ts -> moved t0 ts' from to n -> tk_supply ts' <= tk_supply ts).
  { intros t0 from to n E2 [(_ & _ & _ & A4 & _) _ _ _]. lia. }
  destruct E.
  - eapply Mv; eauto.
  - eapply Mv; eauto.
  - subst t'. cbn [set_supply tk_supply]. lia.
  - exfalso. exact (Hs _ _ _ H2 eq_refl).
  - reflexivity.
  - reflexivity.
  - reflexivity.
  - apply deduct_ok in H2 as (? & ? & _ & _ & _ & ->). eapply Mv; [|exact H3]; reflexivity.
  - apply deduct_ok in H2 as (? & ? & _ & _ & _ & ->). eapply Mv; [|exact H3]; reflexivity.
  - subst t'. cbn [set_supply tk_supply]. lia.
  - reflexivity.
Qed.

Section lp_supply.
  Context (C : chain) (OK : chain_ok C) (p t : string).
  Definition lps_R (w w' : world) (lg : list event) : Prop :=
    forall ts, (exists st, pair_at w p st) -> tok_at w t ts -> tk_mint ts = Some (p, None) ->
    ~ called p is_provide lg -> exists ts', tok_at w' t ts' /\ tk_mint ts' = Some (p, None) /\ tk_supply ts' <= tk_supply ts.
  Definition lps_may (w : world) (a : string) (sm : submsg) : Prop :=
    a = p -> (exists st, pair_at w p st) -> forall c r n f, sm_msg sm <> MExecute c (JMint r n) f.

  Lemma lps_other w a l : a <> p -> Forall (lps_may w a) l.
  Proof. intros D. induction l; constructor; [|assumption]. intros E. exfalso. exact (D E). Qed.
  Lemma lps_nopair w a l : (forall st, ~ pair_at w p st) -> Forall (lps_may w a) l.
  Proof. intros D. induction l; constructor; [|assumption]. intros _ (st & E). exfalso. exact (D _ E). Qed.
  Lemma lps_same w w' lg : (forall ts, tok_at w t ts -> tok_at w' t ts) -> lps_R w w' lg.
  Proof. intros H ts _ Ht Hm _. exists ts. split; [auto|]. split; [exact Hm|lia]. Qed.

  Lemma lps_ok : ind2_ok C lps_R lps_may.
  Proof.
    split.
    - intros w _. apply lps_same. auto.
    - intros w w1 w2 l1 l2 _ _ _ R1 R2 H1 H2 ts E Ht Hm Hn. rewrite called_app in Hn.
      destruct (H1 ts E Ht Hm) as (ts1 & Ht1 & Hm1 & L1); [tauto|].
      destruct (H2 ts1 (pair_at_grows p _ _ R1 E) Ht1 Hm1) as (ts2 & Ht2 & Hm2 & L2); [tauto|].
      exists ts2. split; [exact Ht2|]. split; [exact Hm2|lia].
    - intros w w' a sm lg _ _ Ha R _ H -> E. apply H; [reflexivity|]. eapply pair_at_back; eauto.
    - intros w s ro to cs w' to' _ _ _ _ Hb _ _. apply lps_same. intros ts. apply same_toks. apply (bm_insts _ _ _ _ _ Hb).
    - intros w s ro c msg funds a w1 i st rsp f w3 lg M Hm Hm2 _ Hb Hs Hi Hc w2 M2 R2 Fm Er M3 R3.
      assert (Fin : lps_R w2 w3 lg -> lps_R w w3 (Event a s msg (rs_attrs rsp) funds w1 :: lg)).
      { intros H ts E Ht Hmt Hn.
        assert (X : exists ts2, tok_at w2 t ts2 /\ tk_mint ts2 = Some (p, None) /\ tk_supply ts2 <= tk_supply ts).
        { destruct (call_toks C _ _ _ _ _ _ _ _ _ _ _ Hb Hs Hi Hc Ht) as [(_ & Ht2)|(-> & ts2 & _ & Ht2 & Ef)].
          - exists ts. split; [exact Ht2|]. split; [exact Hmt|lia].
          - exists ts2. split; [exact Ht2|]. split.
            + destruct (rl_toks _ _ _ R2 _ _ Ht) as (ts2' & Ht2' & _ & _ & _ & K). rewrite (tok_at_inj _ _ _ _ Ht2 Ht2').
              destruct E as (ps & Hps). rewrite (K _ _ _ Hmt Hps). exact Hmt.
            + eapply token_no_mint; [exact Ef|]. intros cap r n Hc2 ->. rewrite Hmt in Hc2. injection Hc2 as <- _.
              exact (Hm2 eq_refl E _ _ _ _ eq_refl). }
        destruct X as (ts2 & Ht2 & Hmt2 & L).
        destruct (H ts2 (pair_at_grows p _ _ (ex_intro _ None R2) E) Ht2 Hmt2) as (ts3 & Ht3 & Hmt3 & L3).
        - intros Hcl. apply Hn. apply called_cons. right. exact Hcl.
        - exists ts3. split; [exact Ht3|]. split; [exact Hmt3|lia]. }
      destruct (decide (a = p)) as [->|Dp].
      2: right; split; [apply lps_other; exact Dp|exact Fin].
      destruct (i_state i) as [ps| | | |] eqn:Es.
      2-5: left; intros ts (ps & Hps); unfold pair_at in Hps; rewrite Hs in Hps; discriminate.
      cbn [call] in Hc. unfold wrap in Hc. apply rbind_ok in Hc as ([ps' rsp'] & Hc & E'). injection E' as <- <-.
      destruct (pair_calls _ _ _ _ _ _ _ _ Hc) as [X|X].
      + right. split; [|exact Fin]. eapply List.Forall_impl; [|exact (other_msgs _ _ _ _ _ _ _ _ _ Hc X)].
        cbn beta. intros sm [(x & to & ->)|(tt & n & ->)] _ _ c0 r n0 f0; [destruct x as [[]]|]; discriminate.
      + left. intros ts _ _ _ Hn. exfalso. apply Hn. apply called_cons. left. auto.
    - intros w s ro ad code msg funds label k adm w1 st rsp f w3 lg M Hm Hm2 Hk Had a Hb Hc w2 M2 S Hn QP Er M3 R3.
      destruct (decide (a = p)) as [Ea|Dp].
      { left. intros ts (ps & Hps). unfold pair_at in Hps. rewrite <- Ea in Hps. congruence. }
      right. split; [apply lps_other; exact Dp|].
      intros H ts (ps & Hps) Ht Hmt Hnc. apply H; [|eapply new_toks; eauto|exact Hmt|exact Hnc].
      exists ps. unfold pair_at in *. rewrite S, decide_False by congruence. exact Hps.
    - intros w s ro c code a i k st M Hm _ _ Hi _ _ Hmg _ _. apply lps_same. intros ts. eapply mig_toks; eauto.
    - intros w a adm _ _ _. apply lps_same. intros ts. apply admin_toks.
    - intros w a sm rest f w' r lg id i st rsp M Hms Hm2 Hro Ex M' R' HR Hi Hr w2 M2 Rr2. split.
      + destruct (reply_msgs C _ _ _ _ _ _ _ _ Hi Hr) as [->|(k & d & Ha)]; [constructor|].
        destruct (decide (a = p)) as [->|D]; [|apply lps_other; exact D].
        apply lps_nopair. intros ps Hps. destruct (grows_state _ _ _ _ (rl_grows _ _ _ Rr2) Ha) as (s' & Hs' & K).
        unfold pair_at in Hps. rewrite Hps in Hs'. injection Hs' as <-. destruct K.
      + apply lps_same. intros ts. eapply reply_toks; eauto.
    - intros w a sm rest id k d st rsp M _ _ _ Hs _ w2 M2 Rr2. split.
      + destruct (decide (a = p)) as [->|D]; [|apply lps_other; exact D].
        apply lps_nopair. intros ps Hps. destruct (grows_state _ _ _ _ (rl_grows _ _ _ Rr2) Hs) as (s' & Hs' & K).
        unfold pair_at in Hps. rewrite Hps in Hs'. injection Hs' as <-. destruct K.
      + apply lps_same. intros ts. eapply set_toks; [exact Hs|discriminate].
  Qed.
End lp_supply.

(** C36: a pair's LP token (if it runs halo-token) has the pair as only minter
    for ever, and its supply does not grow in a history in which no
    ProvideLiquidity call on the pair succeeds. *)
Theorem C36_lp_minted_only_by_provide C w lg w' p st t ts : chain_ok C -> reachable C w -> history C w lg w' ->
  pair_at w p st -> human (ch_api C) (r_liquidity_token st) = Some t -> tok_at w t ts ->
  tk_mint ts = Some (p, None) /\
  (exists ts', tok_at w' t ts' /\ tk_mint ts' = Some (p, None)) /\
  (~ called p is_provide lg -> exists ts', tok_at w' t ts' /\ tk_supply ts' <= tk_supply ts).
Proof.
  intros OK Hr Hh Hp Hlp Ht. pose proof (reachable_main C OK w Hr) as M.
  destruct (reachable_lp C w p st OK Hr Hp) as (t' & Hlp' & L). rewrite Hlp in Hlp'. injection Hlp' as <-.
  assert (Hm : tk_mint ts = Some (p, None)).
  { destruct L as [(ts0 & Ht0 & E)|(k & d & X)]; [rewrite (tok_at_inj _ _ _ _ Ht Ht0); exact E|unfold tok_at in Ht; congruence]. }
  split; [exact Hm|]. split.
  - destruct (history_main C OK w lg w' M Hh) as [_ R]. destruct (rl_toks _ _ _ R _ _ Ht) as (ts' & Ht' & _ & _ & _ & K).
    exists ts'. split; [exact Ht'|]. rewrite (K _ _ _ Hm Hp). exact Hm.
  - intros Hn. destruct (pair_fresh C w p st M Hp) as (n0 & Ep).
    destruct (history_ind2 C OK _ _ w lg w' (lps_ok C OK p t)) with (ts := ts) as (ts' & Ht' & _ & X); eauto.
    + intros w0 s m [_ O] ->. exfalso. exact (O n0 (eq_sym Ep)).
    + intros w0 blk _. apply lps_same. auto.
Qed.
(** A swap, a donation and a withdrawal do not raise the LP supply; a deposit does. *)
Example C36_case :
  let txs := [ex_swap; ex_transfer; ex_withdraw] in
  history ex_chain ex_world (log_of ex_world txs) (after ex_world txs) /\ pair_at ex_world "#4" ex_pair4 /\
  human ex_api (r_liquidity_token ex_pair4) = Some "#5"%string /\ tok_at ex_world "#5" (tok_of ex_world "#5") /\
  ~ called "#4" is_provide (log_of ex_world txs) /\
  tk_supply (tok_of ex_world "#5") = 14142135 /\ tk_supply (tok_of (after ex_world txs) "#5") = 13142135 /\
  tk_supply (tok_of (after ex_world [ex_provide]) "#5") = 15556348.
Proof.
  split; [apply after_history|]. split; [exact ex_pair4_at|]. split; [vm_compute; reflexivity|].
  split; [apply tok_of_at; vm_compute; reflexivity|]. split; [|vm_compute; auto 12].
  intros H. apply called_in in H as (m & H & (s & n & h & ->)). revert H.
  match goal with |- In _ ?l -> _ => let v := eval vm_compute in l in replace l with v by (vm_compute; reflexivity) end.
  cbn [In]. intuition discriminate.
Qed.

(** ** C38 *)
Section spend.
  Context (C : chain) (OK : chain_ok C) (v s : string) (Ov : ordinary C v) (Ns : s <> v).
  (** Whom [v] may have approved without exposing anything to [s]: other ordinary
      accounts and the contracts of this repository. *)
  Definition safe_spender (w : world) (x : string) : Prop :=
    (ordinary C x /\ x <> s) \/ (exists st, state_at w x = Some st /\ forall k d, st <> SAdv k d).
  Definition safe_token (w : world) (ts : token_state) : Prop :=
    forall x e, tk_allow ts !! (v, x) = Some e -> safe_spender w x.
  Definition spend_R (w w' : world) (_ : list event) : Prop :=
    (forall d, bal w v d <= bal w' v d) /\
    forall t ts, tok_at w t ts -> safe_token w ts ->
      exists ts', tok_at w' t ts' /\ safe_token w' ts' /\ balance_of ts v <= balance_of ts' v.
  Definition spend_may (w : world) (a : string) (sm : submsg) : Prop :=
    a <> v /\ (ordinary C a -> a = s) /\
    ((exists st, pair_at w a st) -> forall t r n f, sm_msg sm <> MExecute t (JTransferFrom v r n) f).

  Lemma safe_grows w w' ts : grows w w' -> safe_token w ts -> safe_token w' ts.
  Proof.
    intros G H x e Hx. destruct (H x e Hx) as [X|(st & Hs & N)]; [left; exact X|]. right.
    destruct (grows_state _ _ _ _ G Hs) as (s' & Hs' & K). exists s'. split; [exact Hs'|].
    intros k d ->. destruct st; try destruct K. exact (N _ _ eq_refl).
  Qed.
  Lemma spend_same w w' lg : grows w w' -> (forall d, bal w v d <= bal w' v d) ->
    (forall t ts, tok_at w t ts -> tok_at w' t ts) -> spend_R w w' lg.
  Proof.
    intros G B T. split; [exact B|]. intros t ts Ht Hs. exists ts. split; [auto|]. split; [eapply safe_grows; eauto|lia].
  Qed.
  Lemma not_victim w a : main C w -> is_Some (state_at w a) -> a <> v /\ (ordinary C a -> a = s).
  Proof.
    intros M [st Ha]. assert (X : ~ ordinary C a).
    { intros O. pose proof (ordinary_no_inst C w a (mn_fresh _ _ M) O) as E. unfold state_at in Ha. rewrite E in Ha. discriminate. }
    split; [intros ->; exact (X Ov)|intros O; destruct (X O)].
  Qed.
  Lemma spend_msgs w a l : main C w -> is_Some (state_at w a) ->
    ((exists st, pair_at w a st) -> Forall (fun sm => forall t r n f, sm_msg sm <> MExecute t (JTransferFrom v r n) f) l) ->
    Forall (spend_may w a) l.
  Proof.
    intros M Ha H. destruct (not_victim w a M Ha) as [A B].
    assert (X : forall sm, In sm l -> (exists st, pair_at w a st) -> forall t r n f, sm_msg sm <> MExecute t (JTransferFrom v r n) f).
    { intros sm Hin E. specialize (H E). rewrite List.Forall_forall in H. exact (H sm Hin). }
    apply List.Forall_forall. intros sm Hin. split; [exact A|]. split; [exact B|]. auto.
  Qed.

  (** Of the contracts of this repository only pairs use allowances. *)
  Definition from_msg (o : string) (m : jmsg) : Prop :=
    match m with JTransferFrom x _ _ | JSendFrom x _ _ _ | JBurnFrom x _ => x = o | _ => False end.
  Lemma from_only_pairs w a st c m funds ro o : main C w -> may C w a (SubMsg (MExecute c m funds) ro) ->
    state_at w a = Some st -> (forall k d, st <> SAdv k d) -> from_msg o m ->
    (exists ps, pair_at w a ps) /\ exists r n, m = JTransferFrom o r n.
  Proof.
    intros M Hm Hst N Hf. destruct Hm as [O|(st' & Hst' & K)].
    { pose proof (ordinary_no_inst C w a (mn_fresh _ _ M) O) as E. unfold state_at in Hst. rewrite E in Hst. discriminate. }
    rewrite Hst in Hst'. injection Hst' as <-. destruct K as [K|(ps & code & _ & _ & K)]; [|discriminate].
    destruct st as [ps|fs|rs|ts|k d]; cbn [may_state] in K.
    - split; [eauto|]. inversion K as [i n to _ E|t o' n _ E|lp r n _ E|lp n _ E]; subst.
      + destruct i; inversion E; subst; destruct Hf.
      + cbn in Hf. subst. eauto.
      + destruct Hf.
      + destruct Hf.
    - inversion K.
    - inversion K as [o' to E|i b mn rc E|q x to E]; subst; try destruct Hf.
      destruct x as [[] ?]; inversion E; subst; destruct Hf.
    - inversion K; subst. destruct Hf.
    - destruct (N k d eq_refl).
  Qed.

  (** One token call by somebody else. *)
  Lemma spend_token w b ts a m ts' l c funds ro :
    tok_effect (ch_api C) b ts a m ts' l -> main C w ->
    may C w a (SubMsg (MExecute c m funds) ro) -> spend_may w a (SubMsg (MExecute c m funds) ro) -> safe_token w ts ->
    safe_token w ts' /\ balance_of ts v <= balance_of ts' v.
  Proof.
    intros E M Hm (Nv & Ha & Hp) Sf.
    assert (Nf : from_msg v m -> forall e, tk_allow ts !! (v, a) = Some e -> False).
    { intros Hf e He. destruct (Sf _ _ He) as [[O N]|(st & Hst & N)]; [exact (N (Ha O))|].
      destruct (from_only_pairs _ _ _ _ _ _ _ _ M Hm Hst N Hf) as (Ep & r & n & ->). exact (Hp Ep _ _ _ _ eq_refl). }
    assert (Al : forall x y, (forall z e, tk_allow y !! (v, z) = Some e -> exists e', tk_allow x !! (v, z) = Some e') -> safe_token w x -> safe_token w y).
    { intros x y H Hx z e Hz. destruct (H _ _ Hz) as (e' & He'). eapply Hx; eauto. }
    assert (Mv : forall t0 from to n, (forall z e, tk_allow t0 !! (v, z) = Some e -> exists e', tk_allow ts !! (v, z) = Some e') ->
      tk_bal t0 = tk_bal ts -> from <> v -> moved t0 ts' from to n -> safe_token w ts' /\ balance_of ts v <= balance_of ts' v).
    { intros t0 from to n E0 E1 Hn [(_ & _ & _ & _ & _ & A6) _ B _]. split.
      - eapply Al; [|exact Sf]. rewrite A6. exact E0.
      - specialize (B v). rewrite decide_False in B by congruence. unfold balance_of in *. rewrite E1 in B. destruct (decide (v = to)); lia. }
    assert (De : forall t0 o n, deduct_allowance ts o a b n = Ok t0 -> tk_bal t0 = tk_bal ts /\ (from_msg o m -> o <> v) /\
      forall z e, tk_allow t0 !! (v, z) = Some e -> exists e', tk_allow ts !! (v, z) = Some e').
    { intros t0 o n D. apply deduct_ok in D as (x & e & He & _ & _ & ->). split; [reflexivity|]. split.
      - intros Hf ->. exact (Nf Hf _ He).
      - cbn [set_allow tk_allow]. intros z e' Hz. destruct (decide ((o, a) = (v, z))) as [X|X]; [rewrite <- X; eauto|].
        rewrite lookup_insert_ne in Hz by exact X. eauto. }
    assert (Own : forall z x, safe_token w (set_allow ts (<[(a, z) := x]> (tk_allow ts)))).
    { intros z x. eapply Al; [|exact Sf]. cbn [set_allow tk_allow]. intros y e Hy. rewrite lookup_insert_ne in Hy by congruence. eauto. }
    destruct E.
    - eapply Mv; [eauto|reflexivity|exact Nv|eassumption].
    - eapply Mv; [eauto|reflexivity|exact Nv|eassumption].
    - apply debit_ok in H1 as [_ ->]. subst t'. split; [exact Sf|].
      change (balance_of ts v <= balance_of (set_bal ts (<[a := balance_of ts a - n]> (tk_bal ts))) v).
      rewrite balance_set, decide_False by congruence. lia.
    - apply credit_ok in H5 as [_ ->]. split; [exact Sf|]. rewrite balance_set.
      change (balance_of (set_supply ts (tk_supply ts + n)) r) with (balance_of ts r).
      change (balance_of (set_supply ts (tk_supply ts + n)) v) with (balance_of ts v). destruct (decide (v = r)); subst; lia.
    - split; [apply Own|reflexivity].
    - split; [apply Own|reflexivity].
    - split; [|reflexivity]. eapply Al; [|exact Sf]. cbn [set_allow tk_allow]. intros y e' Hy.
      rewrite lookup_delete_ne in Hy by congruence. eauto.
    - destruct (De _ _ _ H2) as (D1 & D2 & D3). eapply Mv; [exact D3|exact D1|apply D2; reflexivity|eassumption].
    - destruct (De _ _ _ H2) as (D1 & D2 & D3). eapply Mv; [exact D3|exact D1|apply D2; reflexivity|eassumption].
    - destruct (De _ _ _ H1) as (D1 & D2 & D3). specialize (D2 eq_refl). apply debit_ok in H2 as [_ ->]. subst t'. split.
      + eapply Al; [|exact Sf]. exact D3.
      + change (balance_of ts v <= balance_of (set_bal t1 (<[o := balance_of t1 o - n]> (tk_bal t1))) v).
        rewrite balance_set, decide_False by congruence. unfold balance_of. rewrite D1. lia.
    - split; [exact Sf|reflexivity].
  Qed.

  Lemma spend_ok : ind2_ok C spend_R spend_may.
  Proof.
    split.
    - intros w _. apply spend_same; [apply grows_refl|intros; lia|auto].
    - intros w w1 w2 l1 l2 _ _ _ _ _ [B1 T1] [B2 T2]. split; [intros d; etransitivity; eauto|].
      intros t ts Ht Hs. destruct (T1 _ _ Ht Hs) as (t1 & Ht1 & Hs1 & L1). destruct (T2 _ _ Ht1 Hs1) as (t2 & Ht2 & Hs2 & L2).
      exists t2. split; [exact Ht2|]. split; [exact Hs2|lia].
    - intros w w' a sm lg _ _ Ha R _ (A & B & D). split; [exact A|]. split; [exact B|]. intros E. apply D. eapply pair_at_back; eauto.
    - intros w a ro to cs w' to' M _ (Nv & _ & _) _ Hb _ R. apply spend_same; [apply (rl_grows _ _ _ R)| |].
      + intros d. pose proof (bm_bal _ _ _ _ _ Hb v d) as B. rewrite decide_False in B by congruence. destruct (decide (v = to')); lia.
      + intros t ts. apply same_toks. apply (bm_insts _ _ _ _ _ Hb).
    - intros w x ro c msg funds a w1 i st rsp f w3 lg M Hm Hm2 _ Hb Hs Hi Hc w2 M2 R2 Fm Er M3 R3. right. split.
      + assert (Ha2 : is_Some (state_at w2 a)).
        { unfold w2. rewrite state_at_set by eauto. rewrite decide_True by reflexivity. eauto. }
        apply spend_msgs; [exact M2|exact Ha2|]. intros (ps2 & Hps2).
        destruct (pair_at_back a _ _ _ R2 (ex_intro _ _ Hs) (ex_intro _ _ Hps2)) as (ps & Hps). unfold pair_at in Hps.
        rewrite Hs in Hps. injection Hps as Es. rewrite Es in Hc.
        cbn [call] in Hc. unfold wrap in Hc. apply rbind_ok in Hc as ([ps' rsp'] & Hc & E'). injection E' as <- <-.
        destruct (pair_calls _ _ _ _ _ _ _ _ Hc) as [X|(as0 & tol & rcv & ->)].
        * eapply List.Forall_impl; [|exact (other_msgs _ _ _ _ _ _ _ _ _ Hc X)].
          cbn beta. intros sm [(y & to & ->)|(tt & n & ->)] c0 r n0 f0; [destruct y as [[]]|]; discriminate.
        * eapply List.Forall_impl; [|exact (provide_msgs _ _ _ _ _ _ _ _ _ _ _ Hc)].
          cbn beta. intros sm [(t & n & ->)|(t & r & n & ->)] c0 r0 n0 f0 E; [|discriminate].
          injection E; intros. apply (proj1 Hm2). congruence.
      + intros [B T]. split.
        * intros d. etransitivity; [|apply B]. unfold w2. rewrite set_state_bal. pose proof (bm_bal _ _ _ _ _ Hb v d) as Bm.
          rewrite decide_False in Bm by (intros E; exact (proj1 Hm2 (eq_sym E))). destruct (decide (v = a)); lia.
        * intros t ts Ht Sf. 
          assert (X : exists ts2, tok_at w2 t ts2 /\ safe_token w ts2 /\ balance_of ts v <= balance_of ts2 v).
          { destruct (call_toks C _ _ _ _ _ _ _ _ _ _ _ Hb Hs Hi Hc Ht) as [(_ & Ht2)|(-> & ts2 & _ & Ht2 & Ef)].
            - exists ts. split; [exact Ht2|]. split; [exact Sf|lia].
            - exists ts2. split; [exact Ht2|]. eapply spend_token; eauto. }
          destruct X as (ts2 & Ht2 & Sf2 & L). destruct (T _ _ Ht2 (safe_grows _ _ _ (rl_grows _ _ _ R2) Sf2)) as (ts3 & Ht3 & Sf3 & L3).
          exists ts3. split; [exact Ht3|]. split; [exact Sf3|lia].
    - intros w x ro ad code msg funds label k adm w1 st rsp f w3 lg M Hm Hm2 Hk Had a Hb Hc w2 M2 S Hn QP Er M3 R3. right.
      assert (Ha2 : state_at w2 a = Some st) by (rewrite S; apply decide_True; reflexivity). split.
      + apply spend_msgs; [exact M2|eauto|]. intros (ps & Hps). unfold pair_at in Hps. rewrite Ha2 in Hps. injection Hps as ->.
        destruct (QP ps eq_refl) as (_ & _ & tc & ->). constructor; [|constructor]. intros; discriminate.
      + intros [B T]. split.
        * intros d. etransitivity; [|apply B]. change (bal w2 v d) with (bal w1 v d). pose proof (bm_bal _ _ _ _ _ Hb v d) as Bm.
          change (bal (set_next w (w_next w + 1)) v d) with (bal w v d) in Bm.
          rewrite decide_False in Bm by (intros E; exact (proj1 Hm2 (eq_sym E))). destruct (decide (v = ch_fresh C (w_next w))); lia.
        * intros t ts Ht Sf. apply T; [eapply new_toks; eauto|].
          intros y e Hy. destruct (Sf y e Hy) as [X|(st0 & Hs0 & N)]; [left; exact X|]. right. exists st0. split; [|exact N].
          rewrite S, decide_False; [exact Hs0|]. intros ->. congruence.
    - intros w x ro c code a i k st M Hm _ _ Hi _ _ Hmg _ R. apply spend_same; [apply (rl_grows _ _ _ R)| |].
      + intros d. rewrite set_state_bal. lia.
      + intros t ts. eapply mig_toks; eauto.
    - intros w a adm _ _ R. apply spend_same; [apply (rl_grows _ _ _ R)| |].
      + intros d. unfold bal. rewrite set_admin_bank. lia.
      + intros t ts. apply admin_toks.
    - intros w a sm rest f w' r lg id i st rsp M Hms Hm2 Hro Ex M' R' HR Hi Hr w2 M2 Rr2. split.
      + destruct (reply_msgs C _ _ _ _ _ _ _ _ Hi Hr) as [->|(k & d & Ha)]; [constructor|].
        destruct (grows_state _ _ _ _ (rl_grows _ _ _ Rr2) Ha) as (s' & Hs' & K).
        apply spend_msgs; [exact M2|eauto|]. intros (ps & Hps). unfold pair_at in Hps. rewrite Hps in Hs'. injection Hs' as <-. destruct K.
      + apply spend_same; [apply (rl_grows _ _ _ Rr2)| |].
        * intros d. unfold w2. rewrite set_state_bal. lia.
        * intros t ts. eapply reply_toks; eauto.
    - intros w a sm rest id k d st rsp M _ _ _ Hs _ w2 M2 Rr2. split.
      + destruct (grows_state _ _ _ _ (rl_grows _ _ _ Rr2) Hs) as (s' & Hs' & K).
        apply spend_msgs; [exact M2|eauto|]. intros (ps & Hps). unfold pair_at in Hps. rewrite Hps in Hs'. injection Hs' as <-. destruct K.
      + apply spend_same; [apply (rl_grows _ _ _ Rr2)| |].
        * intros dn. unfold w2. rewrite set_state_bal. lia.
        * intros t ts. eapply set_toks; [exact Hs|discriminate].
  Qed.
End spend.

(** C38: a transaction signed by [s] lowers no native balance of another
    ordinary account [v], and lowers [v]'s balance of a token only if [v] gave an
    allowance on it to [s] or to a third-party contract (or to an address at
    which there is no contract yet). *)
Theorem C38_nobody_else_spends C w s m w' lg v : chain_ok C -> reachable C w -> tx C w s m w' lg ->
  ordinary C v -> s <> v ->
  (forall d, bal w v d <= bal w' v d) /\
  forall t ts, tok_at w t ts ->
    (forall x e, tk_allow ts !! (v, x) = Some e ->
      (ordinary C x /\ x <> s) \/ (exists st, state_at w x = Some st /\ forall k d, st <> SAdv k d)) ->
    exists ts', tok_at w' t ts' /\ balance_of ts v <= balance_of ts' v.
Proof.
  intros OK Hr (O & f & r & E) Ov Ns. pose proof (reachable_main C OK w Hr) as M.
  assert (R : spend_R C v s w w' lg).
  { eapply (exec_ind2 C OK _ _ (spend_ok C OK v s Ov)); [exact E|exact M|exact O|].
    split; [exact Ns|]. split; [reflexivity|]. intros (ps & Hps).
    exfalso. pose proof (ordinary_no_inst C w s (mn_fresh _ _ M) O) as X. unfold pair_at, state_at in Hps. rewrite X in Hps. discriminate. }
  destruct R as [B T]. split; [exact B|]. intros t ts Ht Sf. destruct (T t ts Ht Sf) as (ts' & Ht' & _ & L). eauto.
Qed.
(** alice has approved the pairs #4 and #6 only: bob, calling the thief, fails;
    bob's swap leaves alice's balance.  Had alice approved the thief, bob would get
    the tokens. *)
Example C38_case :
  tx ex_chain ex_world "bob" (ex_swap.2) (after ex_world [ex_swap]) (log_of ex_world [ex_swap]) /\
  ordinary ex_chain "alice" /\ tok_at ex_world "#1" (tok_of ex_world "#1") /\
  (forall x e, tk_allow (tok_of ex_world "#1") !! ("alice"%string, x) = Some e ->
    (ordinary ex_chain x /\ x <> "bob"%string) \/ (exists st, state_at ex_world x = Some st /\ forall k d, st <> SAdv k d)) /\
  balance_of (tok_of ex_world "#1") "alice" = 999980000000.
Proof.
  split; [apply (one_tx ex_world false (ex_swap.2)); vm_compute; reflexivity|]. split; [exact alice_ordinary|].
  split; [apply tok_of_at; vm_compute; reflexivity|]. split; [|vm_compute; reflexivity].
  intros x e H. right.
  assert (X : x = "#4"%string \/ x = "#6"%string).
  { apply elem_of_map_to_list in H. apply elem_of_list_In in H. revert H.
    match goal with |- In _ ?l -> _ => let v := eval vm_compute in l in replace l with v by (vm_compute; reflexivity) end.
    cbn [In]. intros [H|[H|[]]]; injection H; intros; subst; auto. }
  destruct X as [-> | ->]; (eexists; split; [vm_compute; reflexivity|discriminate]).
Qed.
Example C38_thief :
  is_ok (script ex_world [(false, x_call "#8" (JOther "go"))]) = false /\
  (let w := after ex_world [(true, x_call "#1" (JIncreaseAllowance "#8" 100 None)); (false, x_call "#8" (JOther "go"))] in
   balance_of (tok_of w "#1") "alice" = 999979999995).
Proof. vm_compute. auto 12. Qed.
