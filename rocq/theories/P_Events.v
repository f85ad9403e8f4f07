(** The events of a pair tell the truth (C61). *)
From Verif Require Import Base BigNumber CwStd BigNumberFacts Asset Messages PairMath Pair PairFacts Token Factory Router
  SwapFacts SwapFacts2 P_Swap P_Pair FactoryFacts P_Factory P_Router TokenFacts World WorldInd WorldFacts WorldInv WorldInd2
  Examples WorldExamples P_Ledger P_Registry ExecFacts P_Exec P_Value P_Deposit P_Quotes P_Withdraw.
From Coq Require Import ZifyN.
Local Open Scope N_scope.
Ltac Zify.zify_post_hook ::= idtac.

(** ** Specification *)

(** The value reported under a key: the first attribute of that name. *)
Fixpoint attr (l : list (string * string)) (k : string) : option string :=
  match l with
  | [] => None
  | (k', v) :: r => if decide (k = k') then Some v else attr r k
  end.
Definition says (e : event) (k v : string) : Prop := attr (ev_attrs e) k = Some v.
(** A number reported in decimal. *)
Definition says_num (e : event) (k : string) (n : N) : Prop := says e k (dec_to_string n).
(** The events of one contract in a log. *)
Definition own (p : string) (lg : list event) : list event := filter (fun e => ev_contract e = p) lg.

(** ** Lemmas *)
Lemma sapp_assoc (a b c : string) : ((a ++ b) ++ c = a ++ (b ++ c))%string.
Proof. induction a as [|x a IH]; [reflexivity|]. change (String x ((a ++ b) ++ c) = String x (a ++ (b ++ c)))%string. rewrite IH. reflexivity. Qed.
Lemma dec_to_string_inj a b : dec_to_string a = dec_to_string b -> a = b.
Proof. intros E. rewrite <- (dec_to_string_value a), E. apply dec_to_string_value. Qed.
Section events.
  Context (C : chain) (OK : chain_ok C).
  Local Notation A := (ch_api C).

  (** messages that call nothing but one token, or nothing at all *)
  Definition quiet (w : world) (m : cmsg) : Prop :=
    match m with
    | MBankSend _ _ => True
    | MExecute t j [] =>
        norm A t = Some t /\ live w (Token t) /\
        match j with JTransfer _ _ | JTransferFrom _ _ _ | JMint _ _ | JBurn _ => True | _ => False end
    | _ => False
    end.
  Lemma quiet_exec f w s m w' x lg : quiet w m -> exec C f w s m = Ok (w', x, lg) ->
    (forall t, live w' (Token t) <-> live w (Token t)) /\ Forall (fun e => live w (Token (ev_contract e))) lg.
  Proof.
    intros Q E. destruct f; [rewrite exec_0 in E; discriminate|]. rewrite exec_eq in E. destruct m as [to cs|t j [|]| | |]; try destruct Q.
    - apply rbind_ok in E as (w1 & E & X). injection X as <- <- <-. apply bank_msg_ok in E as (to' & _ & B).
      split; [|constructor]. intros t. cbn [live]. unfold tok_at, state_at. rewrite (bm_insts _ _ _ _ _ B). tauto.
    - rename H into Nt. destruct H0 as [(ts & Ht) Hj]. rewrite Nt in E. cbn [oget rbind] in E. rewrite bank_send_none in E. cbn [rbind] in E.
      pose proof Ht as Hi. apply state_at_inst in Hi as (ad & Hi). rewrite Hi in E. cbn [oget rbind i_state call] in E.
      apply rbind_ok in E as ([s' rsp] & Ec & E). apply rbind_ok in Ec as ([ts' rsp'] & Ec & X). injection X as <- <-.
      apply token_execute_inv in Ec.
      assert (E3 : rs_msgs rsp' = []) by (destruct j; try destruct Hj; inversion Ec; reflexivity).
      rewrite E3 in E. destruct f; [rewrite run_0 in E; discriminate|]. rewrite run_nil in E. cbn [rbind] in E. injection E as <- <- <-.
      split.
      + intros u. cbn [live]. unfold tok_at. rewrite (state_at_set w t _ u) by eauto. destruct (decide (u = t)) as [->|_]; [|tauto].
        split; intros _; [exists ts; exact Ht|exists ts'; reflexivity].
      + constructor; [exists ts; exact Ht|constructor].
  Qed.
  Lemma quiet_run ms : forall f w p w' lg, Forall (quiet w) ms -> run C f w p (map plain ms) = Ok (w', lg) ->
    Forall (fun e => live w (Token (ev_contract e))) lg.
  Proof.
    induction ms as [|m ms IH]; intros f w p w' lg Q E; (destruct f; [rewrite run_0 in E; discriminate|]).
    - cbn [map] in E. rewrite run_nil in E. injection E as <- <-. constructor.
    - cbn [map] in E. rewrite run_plain in E. apply rbind_ok in E as ([[w1 x1] l1] & E1 & E). apply rbind_ok in E as ([w2 l2] & E2 & E). injection E as <- <-.
      apply list.Forall_cons in Q as [Q1 Q2]. destruct (quiet_exec _ _ _ _ _ _ _ Q1 E1) as [L F]. apply Forall_app. split; [exact F|].
      assert (Q2' : Forall (quiet w1) ms).
      { eapply list.Forall_impl; [exact Q2|]. intros m' Hm'. destruct m' as [|t j [|]| | |]; try destruct Hm'; [exact I|].
        split; [assumption|]. destruct H0. split; [apply L|]; assumption. }
      pose proof (IH _ _ _ _ _ Q2' E2) as F2. eapply list.Forall_impl; [exact F2|]. intros e. apply L.
  Qed.

  (** The events of a pair in the log of a call of it. *)
  Lemma pair_log f w s p st m funds w' x lg : sane C w -> pair_at w p st -> s <> p \/ funds = [] ->
    exec C f w s (MExecute p m funds) = Ok (w', x, lg) ->
    exists w1 st' rsp, bank_send w s p funds = Ok w1 /\ pair_execute A (wq C w1) p st s funds m = Ok (st', rsp) /\
      forall ms, rs_msgs rsp = map plain ms -> Forall (quiet w) ms -> own p lg = [Event p s m (rs_attrs rsp) funds w1].
  Proof.
    intros Sn Hp Hsp E. destruct f; [rewrite exec_0 in E; discriminate|]. rewrite exec_eq in E.
    rewrite (sane_norm C OK _ _ _ Sn Hp) in E. cbn [oget rbind] in E. apply rbind_ok in E as (w1 & Eb & E).
    assert (X : forall a, state_at w1 a = state_at w a).
    { intros a. unfold bank_send in Eb. destruct (coins_valid _); [|discriminate]. apply rbind_ok in Eb as (b & _ & Eb). injection Eb as <-. reflexivity. }
    pose proof Hp as Hi. unfold pair_at in Hi. rewrite <- X in Hi. pose proof Hi as Hp1. apply state_at_inst in Hi as (adm & Hi). rewrite Hi in E. cbn [oget rbind i_state call] in E.
    apply rbind_ok in E as ([s' rsp] & Ec & E). apply rbind_ok in Ec as ([st' rsp'] & Ec & Y). injection Y as <- <-.
    apply rbind_ok in E as ([w2 lg2] & Er & E). injection E as <- _ <-.
    exists w1, st', rsp'. split; [exact Eb|]. split; [exact Ec|]. intros ms Hm Q. rewrite Hm in Er. apply quiet_run in Er.
    - unfold own. rewrite filter_cons_True by reflexivity. f_equal.
      induction lg2 as [|e l IH]; [reflexivity|]. apply list.Forall_cons in Er as [(ts & He) Er]. rewrite filter_cons_False; [apply IH; exact Er|].
      intros Ee. unfold tok_at in He. rewrite Ee, state_at_set in He by eauto. rewrite decide_True in He by reflexivity. discriminate.
    - eapply list.Forall_impl; [exact Q|]. intros m'. destruct m' as [|t j [|]| | |]; try (intros []; fail); [auto|]. intros (N1 & (ts & L1) & J). split; [exact N1|]. split; [|exact J].
      exists ts. unfold tok_at. rewrite state_at_set by eauto. destruct (decide (t = p)) as [->|_]; [|rewrite X; exact L1].
      unfold tok_at in L1. unfold pair_at in Hp. congruence.
  Qed.

  Lemma quiet_pay w i r z : sane C w -> live w i -> quiet w (into_msg (Asset i r) z).
  Proof. intros Sn L. destruct i as [t|d]; cbn [into_msg a_info a_amount quiet]; [|exact I]. destruct L as (ts & H). split; [eapply sane_norm; eauto|]. split; [exists ts; exact H|exact I]. Qed.
  Lemma own_other p e l : ev_contract e <> p -> own p (e :: l) = own p l.
  Proof. intros H. unfold own. rewrite filter_cons_False; auto. Qed.
  Lemma own_self p e l : ev_contract e = p -> own p (e :: l) = e :: own p l.
  Proof. intros H. unfold own. rewrite filter_cons_True; auto. Qed.
End events.

(** ** C61 *)

(** A swap through one of the pair's tokens: the pair reports once, and what it
    reports as paid is what was paid. *)
Theorem C61_swap_event C w p st t ai od ad s n bp ms to f w' z lg : chain_ok C -> reachable C w -> pair_at w p st ->
  sides (ch_api C) st (Token t) ai od ad -> Token t <> ai -> live w (Token t) -> live w ai -> s <> p -> norm (ch_api C) s = Some s ->
  exec C f w s (MExecute t (JSend p n (HSwap bp ms to)) []) = Ok (w', z, lg) ->
  exists e r c, own p lg = [e] /\
    says e "action" "swap" /\ says e "sender" s /\ says e "receiver" (default s to) /\
    says e "offer_asset" t /\ says e "ask_asset" (spelled ai) /\
    says_num e "offer_amount" n /\ says_num e "return_amount" r /\ says_num e "commission_amount" c /\
    settled w w' [(Token t, s, p, n); (ai, p, default s to, r)] /\
    r + c = gross (holds w p (Token t)) (holds w p ai) n /\
    says_num e "spread_amount" (at_price (holds w p (Token t)) (holds w p ai) n - (r + c)).
Proof.
  intros OK Hr Hp Hs Hne Lt La Hsp Ns E. pose proof (main_sane C w (reachable_main C OK w Hr)) as Sn. pose proof E as E'.
  apply (swap_tx_inv C OK w p st t ai od ad s) in E' as (r & sp & c & _ & _ & Rn & Ro & Ra & _ & _ & _ & Hc & _ & H); auto.
  pose proof Lt as Lt'. destruct Lt' as (ts & Ht). assert (Htp : t <> p) by (intros ->; unfold tok_at, pair_at in *; congruence).
  apply (send_inv C OK) in E as (w1 & f' & lg' & att & P1 & S1 & Hn & _ & _ & E & ->); auto.
  rewrite own_other by exact Htp.
  assert (H1 : holds w1 p (Token t) = holds w p (Token t) + n).
  { pose proof (pd_holds _ _ _ _ _ _ P1 p (Token t)) as Y. destruct (decide (p = s /\ _)) as [[? _]|_]; [congruence|].
    rewrite decide_True in Y by auto. lia. }
  assert (H2 : holds w1 p ai = holds w p ai) by (eapply paid_other; [eassumption|congruence|congruence]).
  pose proof (paid_pair _ _ _ _ _ _ _ _ P1 Hp) as Hp1. pose proof (paid_live _ _ _ _ _ _ _ P1 Lt) as Lt1. pose proof (paid_live _ _ _ _ _ _ _ P1 La) as La1.
  destruct (pair_log C OK f' w1 t p st _ [] w' None lg' S1 Hp1 (or_introl Htp) E) as (w1' & st' & rsp & Eb & Ec & K).
  rewrite bank_send_none in Eb. injection Eb as <-.
  apply receive_swap_inv in Ec as (y & to' & _ & _ & _ & Hy & _ & -> & _ & Ec).
  apply swap_inv in Ec as (y' & op & ak & ask & od' & ad' & r2 & sp2 & c2 & Hy' & _ & Hdir & Hc2 & _ & Hmsg & Hat).
  rewrite Hy in Hy'. injection Hy' as <-.
  apply (pools_inv C OK w1 p st y (Token t) ai od ad) in Hy as (_ & _ & Hy); auto. cbn [a_info a_amount] in Hdir.
  assert (Z : ak = ai /\ ask = holds w1 p ai /\ op = holds w1 p (Token t) - n).
  { destruct Hy as [[-> Ed]|[-> Ed]]; cbn [fst snd a_info a_amount] in Hdir; rewrite Ed in Hdir; cbn [fst snd] in Hdir;
      destruct Hdir as [(F1 & F2 & F3 & F4 & F5 & F6 & F7)|(F0 & F1 & F2 & F3 & F4 & F5 & F6 & F7)]; subst; auto; congruence. }
  destruct Z as (-> & -> & ->). cbn [a_info a_amount] in *.
  rewrite H1, H2 in Hc2. replace (holds w p (Token t) + n - n) with (holds w p (Token t)) in Hc2 by lia. rewrite Hc in Hc2. injection Hc2 as <- <- <-.
  apply compute_swap_iff in Hc as (Pr & Er & Esp & Ec); auto.
  rewrite (K (if r =? 0 then [] else [into_msg (Asset ai r) (match to with Some z0 => z0 | None => s end)])).
  2: { rewrite Hmsg. destruct (r =? 0); reflexivity. }
  2: { destruct (r =? 0); [constructor|]. constructor; [|constructor]. apply (quiet_pay C OK); auto. }
  eexists _, r, c. split; [reflexivity|]. unfold says_num, says. cbn [ev_attrs]. rewrite Hat.
  do 3 (split; [reflexivity|]). do 5 (split; [reflexivity|]). split; [exact H|].
  assert (G : r + c = gross (holds w p (Token t)) (holds w p ai) n).
  { rewrite Er, Ec. generalize (gross (holds w p (Token t)) (holds w p ai) n). intros g. unfold fee. pose proof (N.div_le_upper_bound (g * (3 * 10 ^ 15)) (10 ^ 18) g). lia. }
  split; [exact G|]. rewrite G, <- Esp. reflexivity.
Qed.

(** A deposit: the share reported is the number of LP tokens created. *)
Theorem C61_deposit_event C w p st i0 i1 lp ts s assets tol rcv funds f w' x lg : chain_ok C -> reachable C w ->
  pair_at w p st -> assets_are C st i0 i1 -> i0 <> i1 -> live w i0 -> live w i1 ->
  human (ch_api C) (r_liquidity_token st) = Some lp -> tok_at w lp ts -> i0 <> Token lp -> i1 <> Token lp -> s <> p ->
  exec C f w s (MExecute p (JProvideLiquidity assets tol rcv) funds) = Ok (w', x, lg) ->
  exists e share ts', own p lg = [e] /\
    says e "action" "provide_liquidity" /\ says e "sender" s /\ says e "receiver" (receiver_or rcv s) /\
    says e "assets" (dec_to_string (a_amount assets.1) ++ spelled (a_info assets.1) ++ ", " ++
                     dec_to_string (a_amount assets.2) ++ spelled (a_info assets.2)) /\
    says_num e "share" share /\
    tok_at w' lp ts' /\ tk_supply ts' = tk_supply ts + share /\
    holds w' (receiver_or rcv s) (Token lp) = holds w (receiver_or rcv s) (Token lp) + share.
Proof.
  intros OK Hr Hp Has H01 L0 L1 Hlp Ht H0l H1l Hsp E. pose proof (main_sane C w (reachable_main C OK w Hr)) as Sn.
  destruct (C54_deposit_effect C w p st i0 i1 lp ts s assets tol rcv funds f w' x lg) as (d0 & d1 & ts' & D0 & D1 & Y); auto. cbv zeta in Y.
  destruct Y as (_ & Hh & Ht' & Es & _).
  destruct (deposit_inv C OK w p st i0 i1 lp ts s Sn Hp Has H01 L0 L1 Hlp Ht H0l H1l Hsp f assets tol rcv funds w' x lg E)
    as (d0' & d1' & w1 & wa & wb & D0' & D1' & _ & _ & _ & _ & _ & _ & _ & _ & _ & lg' & Elg).
  destruct (pair_log C OK f w s p st _ funds w' x lg Sn Hp (or_introl Hsp) E) as (w1' & st' & rsp & Eb & Ec & K).
  unfold pair_execute in Ec. destruct (jmsg_ranges _) eqn:Rg; [|discriminate]. cbn [negb] in Ec.
  apply provide_inv in Ec as (y & e0 & e1 & m0 & p0 & m1 & p1 & lp' & ti & share & A0 & A1 & -> & Hy & Z0 & Z1 & P0 & P1 & Hsl & Hlp' & Hti & Hnz & Hsh & Hm).
  rewrite Hlp in Hlp'. injection Hlp' as <-.
  assert (Hi : a_info y.1 = i0 /\ a_info y.2 = i1).
  { destruct Has as [I0 I1]. apply named_normal in I0, I1. unfold query_pools in Hy. rewrite I0, I1 in Hy. cbn [rbind] in Hy. apply rbind_ok in Hy as (v0 & _ & Hy). apply rbind_ok in Hy as (v1 & _ & Hy).
    injection Hy as <-. auto. }
  destruct Hi as [Hi0 Hi1].
  assert (Qp : forall i v d m q, live w i -> a_info v = i -> pull_deposit p s v d = Ok (m, q) -> Forall (quiet C w) m).
  { intros i v d m q L Hv P. unfold pull_deposit in P. rewrite Hv in P. destruct i as [t|n].
    - injection P as <- _. constructor; [|constructor]. destruct L as (us & Hu). split; [eapply sane_norm; eauto|]. split; [exists us; exact Hu|exact I].
    - apply rbind_ok in P as (? & _ & P). injection P as <- _. constructor. }
  specialize (K _ Hm). assert (Qa : Forall (quiet C w) (m0 ++ m1 ++ [MExecute lp (JMint (match rcv with Some r => r | None => s end) share) []])).
  { apply Forall_app. split; [exact (Qp i0 y.1 e0 m0 p0 L0 Hi0 P0)|]. apply Forall_app. split; [exact (Qp i1 y.2 e1 m1 p1 L1 Hi1 P1)|]. constructor; [|constructor].
    split; [eapply sane_norm; eauto|]. split; [exists ts; exact Ht|exact I]. }
  specialize (K Qa). rewrite Elg, own_self in K by reflexivity. rewrite Elg, own_self by reflexivity.
  assert (Ed : forall i a b, declared assets i a -> declared assets i b -> a = b).
  { intros i a b [[? <-]|(? & ? & <-)] [[? <-]|(? & ? & <-)]; congruence. }
  assert (d0' = d0) as -> by (eapply Ed; eauto). assert (d1' = d1) as -> by (eapply Ed; eauto). clear Hsh share Hm Qa Hnz.
  set (share := earned _ _ _ _ _) in *. injection K as K1 K2 K3.
  eexists _, share, ts'. rewrite K3. split; [reflexivity|]. unfold says_num, says. cbn [ev_attrs deposit_attrs attr].
  split; [reflexivity|]. split; [reflexivity|]. split; [reflexivity|].
  split. { cbn. unfold asset_to_string. rewrite !sapp_assoc. reflexivity. }
  split; [reflexivity|]. split; [exact Ht'|]. split; [exact Es|].
  specialize (Hh (receiver_or rcv s) (Token lp)). fold (given s p (stray i0 i1 funds)) in Hh.
  rewrite left_app, arrived_app, given_left, given_arrived in Hh. cbn [left_ arrived fold_right] in Hh. fold share in Hh.
  rewrite !(decide_False (P := _ /\ Token lp = i0)) in Hh by (intros [_ X]; congruence).
  rewrite !(decide_False (P := _ /\ Token lp = i1)) in Hh by (intros [_ X]; congruence). rewrite (decide_True (P := _ /\ Token lp = Token lp)) in Hh by auto.
  destruct (decide (receiver_or rcv s = s)), (decide (receiver_or rcv s = p)); lia.
Qed.

Lemma withdraw_attrs A Q self st sender amount st' rsp :
  withdraw_liquidity A Q self st sender amount = Ok (st', rsp) ->
  exists x lp ti r0 r1, query_pools A Q st self = Ok x /\ human A (r_liquidity_token st) = Some lp /\ q_token_info Q lp = Ok ti /\
    refunds (a_amount x.1) (a_amount x.2) amount (ti_total_supply ti) = Ok (r0, r1) /\
    rs_msgs rsp = map plain [into_msg (Asset (a_info x.1) r0) sender; into_msg (Asset (a_info x.2) r1) sender; MExecute lp (JBurn amount) []] /\
    rs_attrs rsp = [("action", "withdraw_liquidity"); ("sender", sender); ("withdrawn_share", dec_to_string amount);
      ("refund_assets", (asset_to_string (Asset (a_info x.1) r0) ++ ", " ++ asset_to_string (Asset (a_info x.2) r1))%string)]%string.
Proof.
  unfold withdraw_liquidity. intros H.
  apply rbind_ok in H as (lp & L & H). apply rbind_ok in H as ([x y] & E & H).
  apply rbind_ok in H as (ti & TI & H). apply rbind_ok in H as ([r0 r1] & R & H).
  apply rbind_ok in H as (lp' & L' & H). rewrite L in L'. apply addr_humanize_ok in L. inv_ok.
  exists (x, y), lp', ti, r0, r1. cbn. repeat split; auto.
Qed.

(** A withdrawal: the share reported is the number of LP tokens destroyed, and
    the refunds reported are the amounts paid. *)
Theorem C61_withdraw_event C w p st i0 i1 lp ts s n f w' x lg : chain_ok C -> reachable C w ->
  pair_at w p st -> assets_are C st i0 i1 -> i0 <> i1 -> live w i0 -> live w i1 ->
  human (ch_api C) (r_liquidity_token st) = Some lp -> tok_at w lp ts -> i0 <> Token lp -> i1 <> Token lp ->
  exec C f w s (MExecute lp (JSend p n HWithdrawLiquidity) []) = Ok (w', x, lg) ->
  exists e r0 r1 ts', own p lg = [e] /\
    says e "action" "withdraw_liquidity" /\ says e "sender" s /\ says_num e "withdrawn_share" n /\
    says e "refund_assets" (dec_to_string r0 ++ spelled i0 ++ ", " ++ dec_to_string r1 ++ spelled i1) /\
    tok_at w' lp ts' /\ tk_supply ts' + n = tk_supply ts /\
    forall y j, holds w' y j + left_ y j [(i0, p, s, r0); (i1, p, s, r1)] + (if decide (y = s /\ j = Token lp) then n else 0) =
      holds w y j + arrived y j [(i0, p, s, r0); (i1, p, s, r1)].
Proof.
  intros OK Hr Hp Has H01 L0 L1 Hlp Ht H0l H1l E. pose proof (main_sane C w (reachable_main C OK w Hr)) as Sn.
  destruct (C59_withdraw_effect C w p st i0 i1 lp ts s n f w' x lg) as (ts' & Ht' & Es & Hh); auto.
  assert (Lt : live w (Token lp)) by (exists ts; exact Ht).
  assert (Htp : lp <> p) by (intros ->; unfold tok_at, pair_at in *; congruence).
  apply (send_inv C OK) in E as (w1 & f' & lg' & att & P1 & S1 & Hn & _ & _ & E & ->); auto.
  rewrite own_other by exact Htp.
  destruct (pd_toks _ _ _ _ _ _ P1 _ _ Ht) as (ts1 & Ht1 & Eb). assert (Es1 : tk_supply ts1 = tk_supply ts) by apply Eb.
  assert (E0 : holds w1 p i0 = holds w p i0) by (eapply paid_other; [exact P1|congruence|congruence]).
  assert (E1 : holds w1 p i1 = holds w p i1) by (eapply paid_other; [exact P1|congruence|congruence]).
  pose proof (paid_pair _ _ _ _ _ _ _ _ P1 Hp) as Hp1. pose proof (paid_live _ _ _ _ _ _ _ P1 L0) as L01. pose proof (paid_live _ _ _ _ _ _ _ P1 L1) as L11.
  destruct (pair_log C OK f' w1 lp p st _ [] w' None lg' S1 Hp1 (or_introl Htp) E) as (w1' & st' & rsp & Eb' & Ec & K).
  rewrite bank_send_none in Eb'. injection Eb' as <-.
  apply receive_withdraw_inv in Ec as (_ & _ & _ & Ec). apply withdraw_attrs in Ec as (y & lp' & ti & r0 & r1 & Hy & Hlp' & Hti & Hrf & Hmsg & Hat).
  rewrite Hlp in Hlp'. injection Hlp' as <-.
  apply (pools_are C OK w1 p st i0 i1 y S1 Hp1 Has L01 L11) in Hy as (_ & _ & ->). cbn [fst snd a_info a_amount] in *.
  rewrite (supply_query C OK _ _ _ _ S1 Ht1 Hti), Es1, E0, E1 in Hrf. apply refunds_ok in Hrf as (_ & _ & -> & _ & -> & _).
  rewrite (K _ Hmsg).
  2: { constructor; [apply (quiet_pay C OK); auto|]. constructor; [apply (quiet_pay C OK); auto|]. constructor; [|constructor].
       split; [eapply sane_norm; eauto|]. split; [exists ts1; exact Ht1|exact I]. }
  eexists _, _, _, ts'. split; [reflexivity|]. unfold says_num, says. cbn [ev_attrs]. rewrite Hat. unfold asset_to_string. cbn [a_amount a_info].
  do 3 (split; [reflexivity|]). split. { rewrite !sapp_assoc. reflexivity. }
  split; [exact Ht'|]. split; [exact Es|]. exact Hh.
Qed.

(** Reported numbers can be read back. *)
Theorem C61_numbers_readable e k m n : says_num e k m -> says_num e k n -> m = n.
Proof. unfold says_num, says. intros H1 H2. rewrite H1 in H2. injection H2 as H2. apply dec_to_string_inj. exact H2. Qed.

(** What pair #4 reports about a swap, a deposit and a withdrawal. *)
Example C61_case :
  reachable ex_chain ex_world /\ pair_at ex_world "#4" ex_pair4 /\ sides ex_api ex_pair4 (Token "#1") (Native "uaura") 6 6 /\
  assets_are ex_chain ex_pair4 (Token "#1") (Native "uaura") /\ live ex_world (Token "#1") /\
  human ex_api (r_liquidity_token ex_pair4) = Some "#5"%string /\ tok_at ex_world "#5" (tok_of ex_world "#5") /\
  norm ex_api "bob" = Some "bob"%string /\
  is_ok (script ex_world [ex_swap]) = true /\ is_ok (script ex_world [ex_provide]) = true /\ is_ok (script ex_world [ex_withdraw]) = true /\
  map ev_attrs (own "#4" (log_of ex_world [ex_swap])) =
    [[("action", "swap"); ("sender", "bob"); ("receiver", "bob"); ("offer_asset", "#1"); ("ask_asset", "uaura"); ("offer_amount", "1000000");
      ("return_amount", "1812727"); ("spread_amount", "181819"); ("commission_amount", "5454")]]%string /\
  holds (after ex_world [ex_swap]) "bob" (Native "uaura") = holds ex_world "bob" (Native "uaura") + 1812727 /\
  map ev_attrs (own "#4" (log_of ex_world [ex_provide])) =
    [[("action", "provide_liquidity"); ("sender", "alice"); ("receiver", "alice"); ("assets", "1000000#1, 2000000uaura"); ("share", "1414213")]]%string /\
  map ev_attrs (own "#4" (log_of ex_world [ex_withdraw])) =
    [[("action", "withdraw_liquidity"); ("sender", "alice"); ("withdrawn_share", "1000000"); ("refund_assets", "707106#1, 1414213uaura")]]%string.
Proof.
  split; [exact ex_reachable|]. split; [exact ex_pair4_at|]. split; [left; vm_compute; auto|]. split; [split; reflexivity|].
  split; [exists (tok_of ex_world "#1"); apply tok_of_at; vm_compute; reflexivity|]. split; [reflexivity|].
  split; [apply tok_of_at; vm_compute; reflexivity|]. repeat (split; [vm_compute; reflexivity|]). vm_compute; reflexivity.
Qed.
