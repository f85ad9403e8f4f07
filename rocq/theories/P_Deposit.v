(** Deposits as whole transactions: the exact effect of a successful one, and
    exactly when one succeeds (C54). *)
From Verif Require Import Base BigNumber CwStd BigNumberFacts Asset Messages PairMath Pair PairFacts Token Factory Router
  SwapFacts SwapFacts2 P_Swap P_Pair FactoryFacts P_Factory P_Router TokenFacts World WorldInd WorldFacts WorldInv WorldInd2
  Examples WorldExamples P_Ledger P_Registry ExecFacts P_Exec P_Value.
From Coq Require Import ZifyN.
Local Open Scope N_scope.
Ltac Zify.zify_post_hook ::= idtac.

(** ** Specification *)

(** The LP tokens a deposit of [d0] and [d1] earns: the square root of the
    product for the first deposit, else the smaller of the two shares of the
    reserves [R0], [R1], both rounded down. *)
Definition earned (S d0 d1 R0 R1 : N) : N :=
  if S =? 0 then N.sqrt (d0 * d1) else N.min (d0 * S / R0) (d1 * S / R1).

(** The coins among [funds] that belong to neither asset. *)
Definition stray (i0 i1 : asset_info) (funds : list coin) : list coin :=
  List.filter (fun c => negb (bool_decide (Native (c_denom c) = i0) || bool_decide (Native (c_denom c) = i1))) funds.

(** [s] can pay [d] of asset [i] to the pair [p]: they hold it, and the pair may
    draw it from them (cw20) or can hold it (native: balances above 128 bits
    cannot be reported to contracts). *)
Definition can_pay (w : world) (s p : string) (i : asset_info) (d : N) : Prop :=
  d < 2 ^ 128 /\ d <= holds w s i /\
  match i with
  | Native _ => holds w p i + d < 2 ^ 128
  | Token t => exists ts (v : uint128) e, tok_at w t ts /\ tk_allow ts !! (s, p) = Some (v, e) /\ pending (w_block w) e /\ d <= v
  end.

(** [s] can attach these coins: distinct denoms, no zero amounts, all covered. *)
Definition can_attach (w : world) (s : string) (funds : list coin) : Prop :=
  NoDup (map c_denom funds) /\ Forall (fun c => 0 < c_amount c /\ c_amount c <= bal w s (c_denom c)) funds.

(** A slippage tolerance of [t] (with 18 digits): at most 1, nothing empty, and
    neither deposit ratio, reduced by the tolerance, exceeds the ratio of the
    reserves; every ratio is rounded down to 18 digits. *)
Definition tolerated (tol : option N) (d0 d1 R0 R1 : N) : Prop :=
  match tol with
  | None => True
  | Some t => t <= 10 ^ 18 /\ 0 < d0 /\ 0 < d1 /\ 0 < R0 /\ 0 < R1 /\
      d0 * 10 ^ 18 / d1 * (10 ^ 18 - t) / 10 ^ 18 <= R0 * 10 ^ 18 / R1 /\
      d1 * 10 ^ 18 / d0 * (10 ^ 18 - t) / 10 ^ 18 <= R1 * 10 ^ 18 / R0
  end.

(** The conditions on a deposit of [d0] of [i0] and [d1] of [i1] by [s] for
    [rcv]; reserves are those before the deposit. *)
Record can_deposit (C : chain) (w : world) (p : string) (st : pair_info_raw) (i0 i1 : asset_info) (S : N)
    (s rcv : string) (tol : option decimal) (d0 d1 : N) : Prop := {
  cd_rcv : norm (ch_api C) rcv = Some rcv;
  cd_pay0 : can_pay w s p i0 d0;
  cd_pay1 : can_pay w s p i1 d1;
  cd_tol : tolerated tol d0 d1 (holds w p i0) (holds w p i1);
  cd_first : S = 0 -> s ∈ whitelist (r_requirements st) /\
    first_asset_minimum (r_requirements st) <= d0 /\ second_asset_minimum (r_requirements st) <= d1 /\ d0 * d1 < 2 ^ 128;
  cd_later : S <> 0 -> 0 < holds w p i0 /\ 0 < holds w p i1 /\
    d0 * S / holds w p i0 < 2 ^ 128 /\ d1 * S / holds w p i1 < 2 ^ 128;
  cd_earned : 0 < earned S d0 d1 (holds w p i0) (holds w p i1);
  cd_supply : S + earned S d0 d1 (holds w p i0) (holds w p i1) < 2 ^ 128;
}.

Lemma tolerated_iff tol d0 d1 R0 R1 : d0 < B128 -> d1 < B128 -> R0 < B128 -> R1 < B128 ->
  tolerated tol d0 d1 R0 R1 <-> ou128_ok tol = true /\ assert_slippage_tolerance tol (d0, d1) (R0, R1) = Ok tt.
Proof.
  intros H0 H1 H2 H3. destruct tol as [t|]; [|split; [split; reflexivity|exact (fun _ => I)]]. unfold tolerated, ou128_ok, u128_ok.
  change (10 ^ 18) with D18. rewrite !N.lt_nge, !N.le_0_r. split.
  - intros (T1 & T2 & T3 & T4 & T5 & T6 & T7). assert (t < B128) by (eapply N.le_lt_trans; [exact T1|reflexivity]).
    split; [apply N.ltb_lt; assumption|]. apply assert_slippage_iff; try assumption. exact (conj T1 (conj T2 (conj T3 (conj T4 (conj T5 (conj T6 T7)))))).
  - intros (T & X). apply N.ltb_lt in T. apply assert_slippage_iff in X; assumption.
Qed.

(** ** Single steps *)

(** [n] of asset [i] was drawn by [to] from [from]. *)
Record pulled (w w' : world) (i : asset_info) (from to : string) (n : N) : Prop := {
  pl_have : n <= holds w from i;
  pl_holds : forall x j, holds w' x j + (if decide (x = from /\ j = i) then n else 0) =
                         holds w x j + (if decide (x = to /\ j = i) then n else 0);
  pl_keep : forall q st, pair_at w q st -> pair_at w' q st;
  pl_toks : forall u us, tok_at w u us -> exists us', tok_at w' u us' /\ tk_supply us' = tk_supply us /\ tk_mint us' = tk_mint us /\
    (i <> Token u -> us' = us) /\
    (i = Token u -> exists (v : uint128) e, tk_allow us !! (from, to) = Some (v, e) /\ pending (w_block w) e /\ n <= v /\
       tk_allow us' = <[(from, to) := (v - n, e)]> (tk_allow us));
  pl_block : w_block w' = w_block w;
}.
Lemma pulled_none w d from to : pulled w w (Native d) from to 0.
Proof.
  split; auto.
  - lia.
  - intros x j. repeat destruct (decide _); lia.
  - intros u us H. exists us. repeat split; auto. intros X; discriminate.
Qed.
Lemma pulled_live w w' i from to n j : pulled w w' i from to n -> live w j -> live w' j.
Proof. intros P. destruct j as [t|d]; [|auto]. intros (ts & H). destruct (pl_toks _ _ _ _ _ _ P _ _ H) as (ts' & H' & _). exists ts'. exact H'. Qed.

(** The attributes that a deposit reports. *)
Definition deposit_attrs (sender rcv : string) (assets : asset * asset) (share : N) : list (string * string) :=
  [("action", "provide_liquidity"); ("sender", sender); ("receiver", rcv);
   ("assets", (asset_to_string assets.1 ++ ", " ++ asset_to_string assets.2)%string);
   ("share", dec_to_string share)]%string.
Lemma provide_attrs A Q self st sender funds assets tol rcv st' rsp :
  provide_liquidity A Q self st sender funds assets tol rcv = Ok (st', rsp) ->
  forall ms lp r share, rs_msgs rsp = map plain (ms ++ [MExecute lp (JMint r share) []]) ->
  rs_attrs rsp = deposit_attrs sender (receiver_or rcv sender) assets share.
Proof.
  unfold provide_liquidity. intros H ms lp r share Hm.
  apply rbind_ok in H as ([] & S1 & H). apply rbind_ok in H as ([] & S2 & H).
  apply rbind_ok in H as ([x y] & E & H).
  apply rbind_ok in H as (d0 & D0 & H). apply rbind_ok in H as (d1 & D1 & H).
  apply rbind_ok in H as ([m0 p0] & P0 & H). apply rbind_ok in H as ([m1 p1] & P1 & H).
  apply rbind_ok in H as ([] & T & H).
  apply rbind_ok in H as (lp1 & L & H). apply rbind_ok in H as (ti & TI & H).
  apply rbind_ok in H as (share' & SH & H). apply rbind_ok in H as (? & Z & H).
  apply rbind_ok in H as (lp' & L' & H). injection H as _ <-. cbn [rs_msgs rs_attrs] in *.
  rewrite app_assoc, !map_app in Hm. cbn [map] in Hm. apply app_inj_tail in Hm as [_ Hm]. injection Hm as _ _ ->. reflexivity.
Qed.

Section deposit.
  Context (C : chain) (OK : chain_ok C).
  Local Notation A := (ch_api C).

  Lemma draw_inv f w p t s n w' r lg : sane C w -> live w (Token t) ->
    exec C f w p (MExecute t (JTransferFrom s p n) []) = Ok (w', r, lg) ->
    pulled w w' (Token t) s p n /\ sane C w' /\ norm A s = Some s.
  Proof.
    intros Sn (ts & Ht) E. destruct f; [rewrite exec_0 in E; discriminate|]. rewrite exec_eq in E.
    rewrite (sane_norm C OK _ _ _ Sn Ht) in E. cbn [oget rbind] in E. rewrite bank_send_none in E. cbn [rbind] in E.
    pose proof Ht as Hi. apply state_at_inst in Hi as (ad & Hi). rewrite Hi in E. cbn [oget rbind i_state call] in E.
    apply rbind_ok in E as ([s' rsp] & Ec & E). apply rbind_ok in Ec as ([ts' rsp'] & Ec & X). injection X as <- <-.
    apply token_execute_inv in Ec. pose proof (token_ok_effect _ _ _ _ _ _ _ (proj2 Sn _ _ Ht) Ec) as TO.
    inversion Ec as [| | | | | | |o r0 n0 t1 t' Hn Ho Hr Hd Hm E1 E2 Em| | |]; subst.
    apply deduct_ok in Hd as (v & e & V1 & V2 & V3 & ->). apply pending_spec in V2. destruct Hm as [(A1 & A2 & A3 & A4 & A5 & A6) H1 B _].
    cbn [set_allow tk_supply tk_mint tk_allow] in A4, A5, A6.
    change (balance_of (set_allow ts (<[(s, p):=(v - n, e)]> (tk_allow ts))) s) with (balance_of ts s) in H1.
    rewrite <- Em in E. destruct f; [rewrite run_0 in E; discriminate|]. rewrite run_nil in E. cbn [rbind] in E. injection E as <- _ _.
    destruct (tok_set C w t ts ts' Sn Ht TO) as (S' & St & Ht' & Hh). split; [|auto]. split.
    - rewrite (holds_tok _ _ _ _ Ht). exact H1.
    - intros x j. rewrite Hh. destruct (decide (j = Token t)) as [->|Hj].
      + rewrite (holds_tok _ _ _ _ Ht). specialize (B x).
        change (balance_of (set_allow ts (<[(s, p):=(v - n, e)]> (tk_allow ts))) x) with (balance_of ts x) in B.
        destruct (decide (x = s)), (decide (x = p)), (decide (x = s /\ Token t = Token t)), (decide (x = p /\ Token t = Token t)); try lia; exfalso; intuition.
      + destruct (decide (x = s /\ j = Token t)) as [[_ ?]|_]; [contradiction|]. destruct (decide (x = p /\ j = Token t)) as [[_ ?]|_]; [contradiction|]. lia.
    - intros q st Hq. unfold pair_at in *. rewrite St. destruct (decide (q = t)) as [->|]; [|exact Hq]. unfold tok_at in Ht. congruence.
    - intros u us Hu. unfold tok_at. rewrite St. destruct (decide (u = t)) as [->|Hne].
      + rewrite (tok_at_inj _ _ _ _ Hu Ht). exists ts'. split; [reflexivity|]. split; [exact A4|]. split; [exact A5|]. split; [congruence|].
        intros _. exists v, e. auto.
      + exists us. split; [exact Hu|]. repeat split; auto. congruence.
    - apply set_state_block.
  Qed.

  Lemma draw_ok w p t ts s n (v : uint128) e : sane C w -> tok_at w t ts -> norm A s = Some s -> norm A p = Some p -> n < B128 ->
    n <= holds w s (Token t) -> tk_allow ts !! (s, p) = Some (v, e) -> pending (w_block w) e -> n <= v ->
    exists w', forall f, exists lg, exec C (S (S f)) w p (MExecute t (JTransferFrom s p n) []) = Ok (w', None, lg).
  Proof.
    intros Sn Ht Ns Np Hr Hh Ha He Hv. rewrite (holds_tok _ _ _ _ Ht) in Hh.
    set (t0 := set_allow ts (<[(s, p) := (v - n, e)]> (tk_allow ts))).
    assert (D0 : deduct_allowance ts s p (w_block w) n = Ok t0).
    { unfold deduct_allowance. apply pending_spec in He. rewrite Ha, He. rewrite (proj2 (u128_checked_sub_ok v n _) (conj eq_refl Hv)). reflexivity. }
    destruct (move_total t0 s p n) as (t1 & t2 & D1 & D2); [exact Hh| |].
    { destruct (proj2 Sn _ _ Ht) as [E1 E2 _]. change (sum_balances t0) with (sum_balances ts). lia. }
    exists (set_state w t (SToken t2)). intros f. eexists. rewrite exec_eq. rewrite (sane_norm C OK _ _ _ Sn Ht). cbn [oget rbind].
    rewrite bank_send_none. cbn [rbind]. pose proof Ht as Hi. apply state_at_inst in Hi as (ad & Hi). rewrite Hi. cbn [oget rbind i_state call].
    unfold token_execute. cbn [jmsg_ranges]. unfold u128_ok. apply N.ltb_lt in Hr. rewrite Hr. cbn [negb].
    unfold token_transfer_from. rewrite (proj2 (addr_validate_ok A p p) (conj eq_refl Np)), (proj2 (addr_validate_ok A s s) (conj eq_refl Ns)). cbn [rbind].
    rewrite D0. cbn [rbind].
    rewrite D1. cbn [rbind]. rewrite D2. cbn [rbind wrap rs_msgs rs_attrs]. rewrite run_nil. cbn [rbind]. reflexivity.
  Qed.

  (** [n] of token [t] was created for [a], and nothing else happened. *)
  Record minted (w w' : world) (t a : string) (n : N) : Prop := {
    mi_holds : forall x j, holds w' x j = holds w x j + (if decide (x = a /\ j = Token t) then n else 0);
    mi_supply : forall ts, tok_at w t ts -> tk_supply ts + n < B128 /\
      exists ts', tok_at w' t ts' /\ tk_supply ts' = tk_supply ts + n /\ tk_mint ts' = tk_mint ts;
    mi_keep : forall q st, pair_at w q st -> pair_at w' q st;
    mi_toks : forall u us, tok_at w u us -> u <> t -> tok_at w' u us;
  }.
  Lemma issue_inv f w p t ts a n w' r lg : sane C w -> tok_at w t ts ->
    exec C f w p (MExecute t (JMint a n) []) = Ok (w', r, lg) ->
    minted w w' t a n /\ sane C w' /\ 0 < n /\ norm A a = Some a.
  Proof.
    intros Sn Ht E. destruct f; [rewrite exec_0 in E; discriminate|]. rewrite exec_eq in E.
    rewrite (sane_norm C OK _ _ _ Sn Ht) in E. cbn [oget rbind] in E. rewrite bank_send_none in E. cbn [rbind] in E.
    pose proof Ht as Hi. apply state_at_inst in Hi as (ad & Hi). rewrite Hi in E. cbn [oget rbind i_state call] in E.
    apply rbind_ok in E as ([s' rsp] & Ec & E). apply rbind_ok in Ec as ([ts' rsp'] & Ec & X). injection X as <- <-.
    apply token_execute_inv in Ec. pose proof (token_ok_effect _ _ _ _ _ _ _ (proj2 Sn _ _ Ht) Ec) as TO.
    inversion Ec as [| | |r0 n0 t' cap Hn Hr Hm Hc Hlt Hcap Hcr E1 E2 Em| | | | | | |]; subst.
    assert (Es : ts' = set_bal (set_supply ts (tk_supply ts + n)) (<[a := balance_of ts a + n]> (tk_bal ts))).
    { match goal with H : credit _ _ _ = Ok _ |- _ => apply credit_ok in H as [_ ->] end. reflexivity. }
    match type of E with context [run _ _ _ _ (rs_msgs ?r)] => replace (rs_msgs r) with (@nil submsg) in E by congruence end.
    destruct f; [rewrite run_0 in E; discriminate|]. rewrite run_nil in E. cbn [rbind] in E. injection E as <- _ _.
    destruct (tok_set C w t ts ts' Sn Ht TO) as (S' & St & Ht' & Hh). split; [|auto]. split.
    - intros x j. rewrite Hh. destruct (decide (j = Token t)) as [->|Hj].
      + rewrite (holds_tok _ _ _ _ Ht), Es. change (balance_of (set_bal (set_supply ts (tk_supply ts + n)) (<[a:=balance_of ts a + n]> (tk_bal ts))) x)
          with (balance_of (set_bal ts (<[a:=balance_of ts a + n]> (tk_bal ts))) x). rewrite balance_set.
        destruct (decide (x = a)) as [->|]; destruct (decide (_ /\ _)); try lia; exfalso; intuition.
      + destruct (decide (x = a /\ j = Token t)) as [[_ ?]|_]; [contradiction|]. lia.
    - intros us Hu. rewrite (tok_at_inj _ _ _ _ Hu Ht). split; [assumption|]. exists ts'. split; [exact Ht'|]. rewrite Es. split; reflexivity.
    - intros q st Hq. unfold pair_at in *. rewrite St. destruct (decide (q = t)) as [->|]; [|exact Hq]. unfold tok_at in Ht. congruence.
    - intros u us Hu Hne. unfold tok_at. rewrite St, decide_False by exact Hne. exact Hu.
  Qed.
  Lemma issue_ok w p t ts a n : sane C w -> tok_at w t ts -> tk_mint ts = Some (p, None) -> norm A a = Some a -> 0 < n ->
    tk_supply ts + n < B128 ->
    exists w', forall f, exists lg, exec C (S (S f)) w p (MExecute t (JMint a n) []) = Ok (w', None, lg).
  Proof.
    intros Sn Ht Hm Na Hn Hr.
    assert (Hb : balance_of ts a + n < B128). { destruct (proj2 Sn _ _ Ht) as [E1 _ _]. pose proof (balance_le_sum ts a). lia. }
    eexists. intros f. eexists. rewrite exec_eq. rewrite (sane_norm C OK _ _ _ Sn Ht). cbn [oget rbind].
    rewrite bank_send_none. cbn [rbind]. pose proof Ht as Hi. apply state_at_inst in Hi as (ad & Hi). rewrite Hi. cbn [oget rbind i_state call].
    unfold token_execute. cbn [jmsg_ranges]. unfold u128_ok. rewrite (proj2 (N.ltb_lt n B128)) by lia. cbn [negb].
    unfold token_mint. rewrite (proj2 (nonzero_ok n) Hn). cbn [rbind]. rewrite Hm. rewrite bool_decide_true by reflexivity. cbn [require rbind].
    rewrite (proj2 (u128_add_ok (tk_supply ts) n _) (conj eq_refl Hr)). cbn [rbind].
    rewrite (proj2 (addr_validate_ok A a a) (conj eq_refl Na)). cbn [rbind].
    rewrite (proj2 (credit_ok (set_supply ts (tk_supply ts + n)) a n _) (conj Hb eq_refl)). cbn [rbind wrap rs_msgs rs_attrs].
    rewrite run_nil. cbn [rbind]. reflexivity.
  Qed.

  (** *** Coins *)
  Lemma coins_valid_ok cs : coins_valid cs = true <-> NoDup (map c_denom cs) /\ Forall (fun c => 0 < c_amount c) cs.
  Proof.
    unfold coins_valid. rewrite andb_true_iff, bool_decide_eq_true, forallb_forall, Forall_forall.
    setoid_rewrite N.ltb_lt. tauto.
  Qed.
  Lemma coin_sum_none d cs : (forall c, c ∈ cs -> c_denom c <> d) -> coin_sum d cs = 0.
  Proof.
    induction cs as [|c l IH]; intros H; [apply coin_sum_nil|]. rewrite coin_sum_cons, decide_False by (apply H; left).
    rewrite IH; [reflexivity|]. intros c' H'. apply H. right. exact H'.
  Qed.
  Lemma coin_sum_in c cs : NoDup (map c_denom cs) -> c ∈ cs -> coin_sum (c_denom c) cs = c_amount c.
  Proof.
    induction cs as [|x l IH]; intros Nd Hc; [apply elem_of_nil in Hc; contradiction|]. cbn [map] in Nd. apply list.NoDup_cons in Nd as [N1 N2].
    rewrite coin_sum_cons. apply elem_of_cons in Hc as [->|Hc].
    - rewrite decide_True by reflexivity. rewrite coin_sum_none; [lia|]. intros c' H' E. apply N1. rewrite <- E. apply elem_of_list_fmap. eauto.
    - rewrite decide_False; [rewrite IH by assumption; reflexivity|]. intros E. apply N1. rewrite E. apply elem_of_list_fmap. eauto.
  Qed.
  Lemma native_sent funds a d : NoDup (map c_denom funds) -> assert_sent_native a funds = Ok tt -> a_info a = Native d ->
    coin_sum d funds = a_amount a.
  Proof.
    intros Nd H Hi. apply assert_sent_native_paid in H. destruct (H d Hi) as [(l & c & r & -> & <- & <- & _)|(Hn & ->)].
    - apply coin_sum_in; [exact Nd|]. apply elem_of_app. right. left.
    - apply coin_sum_none. exact Hn.
  Qed.
  Lemma stray_sum i0 i1 d funds : coin_sum d (stray i0 i1 funds) =
    if decide (Native d = i0 \/ Native d = i1) then 0 else coin_sum d funds.
  Proof.
    induction funds as [|c l IH]; [rewrite coin_sum_nil; destruct (decide _); reflexivity|].
    cbn [stray List.filter]. fold (stray i0 i1 l). rewrite coin_sum_cons.
    destruct (bool_decide (Native (c_denom c) = i0)) eqn:E0; [|destruct (bool_decide (Native (c_denom c) = i1)) eqn:E1]; bools; cbn [orb negb];
      rewrite ?coin_sum_cons, IH; repeat destruct (decide _); subst; try lia; exfalso; intuition congruence.
  Qed.
  Definition given (s p : string) (funds : list coin) : list payment :=
    map (fun c => (Native (c_denom c), s, p, c_amount c)) funds.
  Lemma given_left s p funds x j : left_ x j (given s p funds) =
    if decide (x = s) then match j with Native d => coin_sum d funds | Token _ => 0 end else 0.
  Proof.
    induction funds as [|c l IH]; cbn [given map left_ fold_right]; [destruct (decide _), j; reflexivity|].
    fold (given s p l). fold (left_ x j (given s p l)). rewrite IH. destruct j as [t|d]; rewrite ?coin_sum_cons;
      repeat destruct (decide _); try lia; exfalso; intuition congruence.
  Qed.
  Lemma given_arrived s p funds x j : arrived x j (given s p funds) =
    if decide (x = p) then match j with Native d => coin_sum d funds | Token _ => 0 end else 0.
  Proof.
    induction funds as [|c l IH]; cbn [given map arrived fold_right]; [destruct (decide _), j; reflexivity|].
    fold (given s p l). fold (arrived x j (given s p l)). rewrite IH. destruct j as [t|d]; rewrite ?coin_sum_cons;
      repeat destruct (decide _); try lia; exfalso; intuition congruence.
  Qed.
  Lemma left_app x j l1 l2 : left_ x j (l1 ++ l2) = left_ x j l1 + left_ x j l2.
  Proof.
    unfold left_. induction l1 as [|[[[i a] b] n] l IH]; [reflexivity|]. cbn [app fold_right].
    destruct (decide _); [rewrite IH; apply N.add_assoc|exact IH].
  Qed.
  Lemma arrived_app x j l1 l2 : arrived x j (l1 ++ l2) = arrived x j l1 + arrived x j l2.
  Proof.
    unfold arrived. induction l1 as [|[[[i a] b] n] l IH]; [reflexivity|]. cbn [app fold_right].
    destruct (decide _); [rewrite IH; apply N.add_assoc|exact IH].
  Qed.
  (** Attaching coins that the sender has goes through. *)
  Lemma attach_inv w s p funds w1 : bank_send w s p funds = Ok w1 -> s <> p -> bank_moved w w1 s p funds /\ can_attach w s funds.
  Proof.
    intros E Hsp. pose proof (bank_send_ok _ _ _ _ _ E) as B. split; [exact B|]. unfold bank_send in E.
    destruct (coins_valid funds) eqn:V; [|discriminate]. apply coins_valid_ok in V as [V1 V2]. split; [exact V1|].
    apply list.Forall_forall. intros c Hc. split; [exact (proj1 (list.Forall_forall _ _) V2 c Hc)|].
    pose proof (bm_bal _ _ _ _ _ B s (c_denom c)) as X. rewrite decide_True in X by reflexivity. rewrite decide_False in X by exact Hsp.
    rewrite (coin_sum_in c funds V1 Hc) in X. lia.
  Qed.
  Lemma move_all_total cs : forall (b : gmap (string * string) N) s p, s <> p -> NoDup (map c_denom cs) ->
    Forall (fun c => c_amount c <= bbal b s (c_denom c)) cs -> exists b', move_all b s p cs = Ok b'.
  Proof.
    induction cs as [|c l IH]; intros b s p Hsp Nd F; cbn [move_all]; [eauto|].
    cbn [map] in Nd. apply list.NoDup_cons in Nd as [N1 N2]. apply list.Forall_cons in F as [F1 F2].
    destruct (move b s p c) as [b1|e] eqn:E; cbn [rbind].
    - apply IH; [exact Hsp|exact N2|]. apply list.Forall_forall. intros c' H'. pose proof (proj1 (list.Forall_forall _ _) F2 c' H') as X.
      apply move_ok in E as (_ & M & _). specialize (M s (c_denom c')). rewrite decide_True in M by reflexivity. rewrite decide_False in M by exact Hsp.
      rewrite coin_sum_cons, coin_sum_nil, decide_False in M; [cbv beta in X; lia|]. intros X'. apply N1. rewrite X'. apply elem_of_list_fmap. eauto.
    - exfalso. unfold move in E. unfold bbal in F1. destruct (N.leb_spec (c_amount c) (default 0 (b !! (s, c_denom c)))); [discriminate|lia].
  Qed.
  Lemma attach_ok w s p funds : s <> p -> can_attach w s funds -> exists w1, bank_send w s p funds = Ok w1.
  Proof.
    intros Hsp [N1 F]. unfold bank_send. rewrite (proj2 (coins_valid_ok funds)).
    - destruct (move_all_total funds (w_bank w) s p Hsp N1) as (b & E).
      + eapply Forall_impl; [|exact F]. intros c [_ H]. exact H.
      + rewrite E. cbn [rbind]. eauto.
    - split; [exact N1|]. eapply Forall_impl; [|exact F]. intros c [H _]. exact H.
  Qed.

  (** *** The call *)
  Definition drawn (i : asset_info) (d : N) : N := match i with Token _ => d | Native _ => 0 end.
  Lemma take_inv f w p s i R d m q l w' lg : sane C w -> live w i -> pull_deposit p s (Asset i R) d = Ok (m, q) ->
    run C f w p (map plain m ++ l) = Ok (w', lg) ->
    exists f' wa lg', pulled w wa i s p (drawn i d) /\ sane C wa /\ run C f' wa p l = Ok (w', lg').
  Proof.
    intros Sn L P E. apply pull_deposit_ok in P. cbn [a_info a_amount] in P. destruct i as [t|dn].
    - destruct P as [-> _]. cbn [map app] in E. destruct f; [rewrite run_0 in E; discriminate|]. rewrite run_plain in E.
      apply rbind_ok in E as ([[wa xa] la] & Ea & E). apply rbind_ok in E as ([wz lz] & Er & Z). injection Z as <- _.
      apply draw_inv in Ea as (Pa & Sa & _); [|exact Sn|exact L]. exists f, wa, lz. auto.
    - destruct P as (-> & _). cbn [map app] in E. exists f, w, lg. split; [apply pulled_none|]. auto.
  Qed.
  Lemma deposit_declared assets i d : deposit_of assets i = Ok d <-> declared assets i d.
  Proof.
    split; [apply deposit_of_ok|]. unfold deposit_of. intros [[E <-]|(Hn & E & <-)].
    - rewrite (proj2 (info_equal_spec _ _) E). reflexivity.
    - destruct (info_equal (a_info assets.1) i) eqn:X; [apply info_equal_spec in X; contradiction|].
      rewrite (proj2 (info_equal_spec _ _) E). reflexivity.
  Qed.
  Lemma share_earned S d0 d1 p0 p1 share s st :
    (if S =? 0 then s ∈ whitelist (r_requirements st) /\
       first_asset_minimum (r_requirements st) <= d0 /\ second_asset_minimum (r_requirements st) <= d1 /\
       initial_share d0 d1 = Ok share
     else later_share d0 d1 S p0 p1 = Ok share) <->
    share = earned S d0 d1 p0 p1 /\
    (S = 0 -> s ∈ whitelist (r_requirements st) /\
       first_asset_minimum (r_requirements st) <= d0 /\ second_asset_minimum (r_requirements st) <= d1 /\ d0 * d1 < B128) /\
    (S <> 0 -> 0 < p0 /\ 0 < p1 /\ d0 * S / p0 < B128 /\ d1 * S / p1 < B128).
  Proof.
    unfold earned. destruct (N.eqb_spec S 0) as [E|E].
    - rewrite initial_share_ok. intuition.
    - rewrite later_share_ok. assert (forall x, 0 < x <-> x <> 0) as X by lia. rewrite !X. tauto.
  Qed.

  Section one.
    Context (w : world) (p : string) (st : pair_info_raw) (i0 i1 : asset_info) (lp : string) (ts : token_state) (s : string).
    Hypothesis Sn : sane C w.
    Hypothesis Hp : pair_at w p st.
    Hypothesis Has : assets_are C st i0 i1.
    Hypothesis H01 : i0 <> i1.
    Hypothesis L0 : live w i0.
    Hypothesis L1 : live w i1.
    Hypothesis Hlp : human A (r_liquidity_token st) = Some lp.
    Hypothesis Ht : tok_at w lp ts.
    Hypothesis H0l : i0 <> Token lp.
    Hypothesis H1l : i1 <> Token lp.
    Hypothesis Hsp : s <> p.

    (** The state the pair sees: the coins have arrived. *)
    Lemma bank_sane w1 funds : bank_moved w w1 s p funds -> sane C w1 /\ (forall a, state_at w1 a = state_at w a) /\
      (forall x t, holds w1 x (Token t) = holds w x (Token t)) /\
      (forall d, holds w1 p (Native d) = holds w p (Native d) + coin_sum d funds).
    Proof.
      intros B. assert (X : forall a, state_at w1 a = state_at w a) by (intros a; unfold state_at; rewrite (bm_insts _ _ _ _ _ B); reflexivity).
      split; [|split; [exact X|split]].
      - destruct Sn as [F T]. split.
        + intros a. rewrite (bm_insts _ _ _ _ _ B), (bm_next _ _ _ _ _ B). apply F.
        + intros t us Hu. unfold tok_at in Hu. rewrite X in Hu. eauto.
      - intros x t. unfold holds. rewrite X. reflexivity.
      - intros d. pose proof (bm_bal _ _ _ _ _ B p d) as Q. rewrite decide_False in Q by congruence. rewrite decide_True in Q by reflexivity. cbn [holds]. lia.
    Qed.
    (** What is in the pair when it computes, and what it takes the reserve to be. *)
    Lemma seen w1 funds i d a m q : bank_moved w w1 s p funds -> NoDup (map c_denom funds) ->
      assert_sent_native a funds = Ok tt -> a_info a = i -> a_amount a = d ->
      pull_deposit p s (Asset i (holds w1 p i)) d = Ok (m, q) -> q = holds w p i.
    Proof.
      intros B Nd Hs Hi Hd P. destruct (bank_sane _ _ B) as (_ & _ & X1 & X2). apply pull_deposit_ok in P. cbn [a_info a_amount] in P.
      destruct i as [t|dn].
      - destruct P as [_ ->]. apply X1.
      - destruct P as (_ & -> & _). rewrite X2, (native_sent funds a dn Nd Hs Hi), Hd. lia.
    Qed.

    Lemma deposit_inv f assets tol rcv funds w' x lg :
      exec C f w s (MExecute p (JProvideLiquidity assets tol rcv) funds) = Ok (w', x, lg) ->
      exists d0 d1 w1 wa wb, declared assets i0 d0 /\ declared assets i1 d1 /\ can_attach w s funds /\
        assert_sent_native assets.1 funds = Ok tt /\ assert_sent_native assets.2 funds = Ok tt /\
        can_deposit C w p st i0 i1 (tk_supply ts) s (receiver_or rcv s) tol d0 d1 /\
        bank_moved w w1 s p funds /\ pulled w1 wa i0 s p (drawn i0 d0) /\ pulled wa wb i1 s p (drawn i1 d1) /\
        minted wb w' lp (receiver_or rcv s) (earned (tk_supply ts) d0 d1 (holds w p i0) (holds w p i1)) /\ sane C w' /\
        exists lg', lg = Event p s (JProvideLiquidity assets tol rcv)
          (deposit_attrs s (receiver_or rcv s) assets (earned (tk_supply ts) d0 d1 (holds w p i0) (holds w p i1))) funds w1 :: lg'.
    Proof.
      intros E. destruct f; [rewrite exec_0 in E; discriminate|]. rewrite exec_eq in E.
      rewrite (sane_norm C OK _ _ _ Sn Hp) in E. cbn [oget rbind] in E. apply rbind_ok in E as (w1 & Eb & E).
      apply attach_inv in Eb as (B & At); [|exact Hsp].
      destruct (bank_sane _ _ B) as (Sn1 & X0 & X1 & X2).
      pose proof Hp as Hi. unfold pair_at in Hi. rewrite <- X0 in Hi. pose proof Hi as Hp1. apply state_at_inst in Hi as (adm & Hi). rewrite Hi in E. cbn [oget rbind i_state call] in E.
      apply rbind_ok in E as ([s' rsp] & Ec & E). apply rbind_ok in Ec as ([st' rsp'] & Ec & X). injection X as <- <-.
      apply rbind_ok in E as ([w2 lg2] & Er & E). injection E as <- _ <-.
      unfold pair_execute in Ec. destruct (jmsg_ranges _) eqn:Rg; [|discriminate]. cbn [negb] in Ec.
      cbn [jmsg_ranges] in Rg. destruct assets as [a0 a1]. bools. unfold u128_ok in *. bools.
      pose proof (provide_attrs _ _ _ _ _ _ _ _ _ _ _ Ec) as Hat.
      apply provide_inv in Ec as (y & d0 & d1 & m0 & p0 & m1 & p1 & lp' & ti & share & A0 & A1 & -> & Hy & D0 & D1 & P0 & P1 & Hsl & Hlp' & Hti & Hnz & Hsh & Hm).
      rewrite Hlp in Hlp'. injection Hlp' as <-.
      assert (L0' : live w1 i0) by (destruct i0 as [t|]; [|exact I]; destruct L0 as (us & Hu); exists us; unfold tok_at; rewrite X0; exact Hu).
      assert (L1' : live w1 i1) by (destruct i1 as [t|]; [|exact I]; destruct L1 as (us & Hu); exists us; unfold tok_at; rewrite X0; exact Hu).
      assert (Ht1 : tok_at w1 lp ts) by (unfold tok_at; rewrite X0; exact Ht).
      apply (pools_are C OK w1 p st i0 i1 y Sn1 Hp1 Has L0' L1') in Hy as (B0 & B1 & ->). cbn [fst snd a_info a_amount] in *.
      rewrite (supply_query C OK _ _ _ _ Sn1 Ht1 Hti) in Hsh.
      pose proof (set_state_id w1 p _ Hi) as Hid. cbn [i_state] in Hid. rewrite Hid in Er. rewrite Hm in Er. rewrite !map_app in Er.
      pose proof P0 as P0'. pose proof P1 as P1'.
      apply (take_inv _ _ _ _ _ _ _ _ _ _ _ _ Sn1 L0' P0) in Er as (f1 & wa & la & Pa & Sa & Er).
      apply (take_inv _ _ _ _ _ _ _ _ _ _ _ _ Sa (pulled_live _ _ _ _ _ _ _ Pa L1') P1) in Er as (f2 & wb & lb & Pb & Sb & Er).
      assert (Htb : exists tsb, tok_at wb lp tsb /\ tk_supply tsb = tk_supply ts /\ tk_mint tsb = tk_mint ts).
      { destruct (pl_toks _ _ _ _ _ _ Pa _ _ Ht1) as (tsa & Hta & E1 & E2 & _). destruct (pl_toks _ _ _ _ _ _ Pb _ _ Hta) as (tsb & Htb & E3 & E4 & _).
        exists tsb. split; [exact Htb|]. split; congruence. }
      destruct Htb as (tsb & Htb & Esb & Emb).
      cbn [map] in Er. destruct f2; [rewrite run_0 in Er; discriminate|]. rewrite run_plain in Er.
      apply rbind_ok in Er as ([[wc xc] lc] & Ecc & Er). apply rbind_ok in Er as ([wd ld] & Ed & Z). injection Z as <- _.
      destruct f2; [rewrite run_0 in Ed; discriminate|]. rewrite run_nil in Ed. injection Ed as <- _.
      apply (issue_inv _ _ _ _ tsb) in Ecc as (Mi & Sc & Hn & Nr); [|exact Sb|exact Htb].
      apply deposit_declared in D0, D1.
      assert (Q0 : p0 = holds w p i0).
      { destruct D0 as [[I1 I2]|(_ & I1 & I2)]; [exact (seen _ _ _ _ _ _ _ B (proj1 At) A0 I1 I2 P0)|exact (seen _ _ _ _ _ _ _ B (proj1 At) A1 I1 I2 P0)]. }
      assert (Q1 : p1 = holds w p i1).
      { destruct D1 as [[I1 I2]|(_ & I1 & I2)]; [exact (seen _ _ _ _ _ _ _ B (proj1 At) A0 I1 I2 P1)|exact (seen _ _ _ _ _ _ _ B (proj1 At) A1 I1 I2 P1)]. }
      subst p0 p1. apply share_earned in Hsh as (-> & Hf & Hl).
      exists d0, d1, w1, wa, wb. split; [exact D0|]. split; [exact D1|]. split; [exact At|]. split; [exact A0|]. split; [exact A1|].
      rewrite app_assoc in Hm. apply Hat in Hm. rewrite Hm.
      split; [|eauto 10].
      assert (Cs : forall i d, declared (a0, a1) i d -> d < B128).
      { intros i d [[_ <-]|(_ & _ & <-)]; assumption. }
      assert (Nt : forall d n, declared (a0, a1) (Native n) d -> coin_sum n funds = d).
      { intros d n [[I1 <-]|(_ & I1 & <-)]; cbn [fst snd] in *; (eapply native_sent; [exact (proj1 At)| |exact I1]); assumption. }
      assert (Nb : forall n, coin_sum n funds <= bal w s n).
      { intros n. pose proof (bm_bal _ _ _ _ _ B s n) as Z. rewrite decide_True in Z by reflexivity. rewrite decide_False in Z by exact Hsp. lia. }
      split.
      - exact Nr.
      - split; [eapply Cs; eauto|]. destruct i0 as [t|n].
        + split; [rewrite <- X1; exact (pl_have _ _ _ _ _ _ Pa)|]. destruct L0' as (us & Hu).
          destruct (pl_toks _ _ _ _ _ _ Pa _ _ Hu) as (us' & _ & _ & _ & _ & K). destruct (K eq_refl) as (v & e & K1 & K2 & K3 & _).
          exists us, v, e. rewrite (bm_block _ _ _ _ _ B) in K2. split; [unfold tok_at in *; rewrite <- X0; exact Hu|auto].
        + split; [rewrite <- (Nt _ _ D0); apply Nb|]. rewrite X2, (Nt _ _ D0) in B0. exact B0.
      - split; [eapply Cs; eauto|]. destruct i1 as [t|n].
        + pose proof (pl_have _ _ _ _ _ _ Pb) as Hv. pose proof (pl_holds _ _ _ _ _ _ Pa s (Token t)) as Hw.
          rewrite !decide_False in Hw by (intros [_ Z]; congruence). rewrite !N.add_0_r in Hw. rewrite Hw, X1 in Hv. split; [exact Hv|].
          destruct L1' as (us & Hu). destruct (pl_toks _ _ _ _ _ _ Pa _ _ Hu) as (us' & Hu' & _ & _ & K & _). rewrite (K H01) in Hu'.
          destruct (pl_toks _ _ _ _ _ _ Pb _ _ Hu') as (us2 & _ & _ & _ & _ & K'). destruct (K' eq_refl) as (v & e & K1 & K2 & K3 & _).
          exists us, v, e. rewrite (pl_block _ _ _ _ _ _ Pa), (bm_block _ _ _ _ _ B) in K2. split; [unfold tok_at in *; rewrite <- X0; exact Hu|auto].
        + split; [rewrite <- (Nt _ _ D1); apply Nb|]. rewrite X2, (Nt _ _ D1) in B1. exact B1.
      - assert (Mo : forall i, holds w p i <= holds w1 p i) by (intros [t|n]; [rewrite X1; apply N.le_refl|rewrite X2; lia]).
        apply tolerated_iff; [eapply Cs; eauto|eapply Cs; eauto|eapply N.le_lt_trans; [apply Mo|exact B0]|eapply N.le_lt_trans; [apply Mo|exact B1]|]. auto.
      - exact Hf.
      - exact Hl.
      - exact Hn.
      - destruct (mi_supply _ _ _ _ _ Mi _ Htb) as (Z & _). rewrite Esb in Z. exact Z.
    Qed.

    Lemma take_ok v i R d m q l : sane C v -> live v i -> norm A s = Some s -> norm A p = Some p ->
      pull_deposit p s (Asset i R) d = Ok (m, q) -> d < B128 ->
      (forall t, i = Token t -> d <= holds v s i /\
         exists us (n : uint128) e, tok_at v t us /\ tk_allow us !! (s, p) = Some (n, e) /\ pending (w_block v) e /\ d <= n) ->
      exists va, pulled v va i s p (drawn i d) /\ sane C va /\
        forall k v', (forall f, exists lg, run C (k + f) va p l = Ok (v', lg)) ->
          exists k', forall f, exists lg, run C (k' + f) v p (map plain m ++ l) = Ok (v', lg).
    Proof.
      intros Sv Li Ns Np P Hd H. apply pull_deposit_ok in P. cbn [a_info a_amount] in P. destruct i as [t|n].
      - destruct P as [-> _]. destruct (H t eq_refl) as (H1 & us & n & e & Hu & Ha & He & Hn).
        destruct (draw_ok v p t us s d n e Sv Hu Ns Np Hd H1 Ha He Hn) as (va & K).
        destruct (K 0%nat) as (lg0 & E0). apply draw_inv in E0 as (Pl & Sa & _); [|exact Sv|exact Li].
        exists va. split; [exact Pl|]. split; [exact Sa|]. intros k v' Hk. exists (3 + k)%nat. intros f.
        destruct (K (k + f)%nat) as (l1 & E1). destruct (Hk (S (S f))) as (l2 & E2). cbn [map app Nat.add]. rewrite run_plain, E1. cbn [rbind].
        replace (S (S (k + f))) with (k + S (S f))%nat by lia. rewrite E2. cbn [rbind]. eauto.
      - destruct P as (-> & _). exists v. split; [apply pulled_none|]. split; [exact Sv|]. intros k v' Hk. exists k. exact Hk.
    Qed.

    Lemma deposit_ok assets tol rcv funds d0 d1 : tk_mint ts = Some (p, None) -> norm A s = Some s ->
      declared assets i0 d0 -> declared assets i1 d1 -> can_attach w s funds ->
      assert_sent_native assets.1 funds = Ok tt -> assert_sent_native assets.2 funds = Ok tt ->
      can_deposit C w p st i0 i1 (tk_supply ts) s (receiver_or rcv s) tol d0 d1 ->
      exists w' k, forall f, exists lg, exec C (k + f) w s (MExecute p (JProvideLiquidity assets tol rcv) funds) = Ok (w', None, lg).
    Proof.
      intros Hm Ns D0 D1 At A0 A1 [Nr Y0 Y1 T Yf Yl Ye Ys]. change (2 ^ 128) with B128 in *.
      pose proof (sane_norm C OK _ _ _ Sn Hp) as Np.
      destruct (attach_ok w s p funds Hsp At) as (w1 & Eb). destruct (attach_inv _ _ _ _ _ Eb Hsp) as (B & _).
      destruct (bank_sane _ _ B) as (Sn1 & X0 & X1 & X2).
      assert (L0' : live w1 i0) by (destruct i0 as [t|]; [|exact I]; destruct L0 as (us & Hu); exists us; unfold tok_at; rewrite X0; exact Hu).
      assert (L1' : live w1 i1) by (destruct i1 as [t|]; [|exact I]; destruct L1 as (us & Hu); exists us; unfold tok_at; rewrite X0; exact Hu).
      assert (Ht1 : tok_at w1 lp ts) by (unfold tok_at; rewrite X0; exact Ht).
      pose proof Hp as Hi. unfold pair_at in Hi. rewrite <- X0 in Hi. pose proof Hi as Hp1. apply state_at_inst in Hi as (adm & Hi).
      pose proof (set_state_id w1 p _ Hi) as Hid. cbn [i_state] in Hid.
      assert (Nt : forall d n, declared assets (Native n) d -> coin_sum n funds = d).
      { intros d n [[I1 <-]|(_ & I1 & <-)]; (eapply native_sent; [exact (proj1 At)| |exact I1]); assumption. }
      assert (Hb : forall i d, declared assets i d -> can_pay w s p i d -> live w1 i -> holds w1 p i < B128 /\
        exists m, pull_deposit p s (Asset i (holds w1 p i)) d = Ok (m, holds w p i)).
      { intros i d Dd (Z1 & Z2 & Z3) Li. destruct i as [t|n].
        - split; [apply (holds_range C); assumption|]. eexists. unfold pull_deposit. cbn [a_info a_amount]. rewrite X1. reflexivity.
        - rewrite X2, (Nt _ _ Dd). split; [exact Z3|]. eexists. unfold pull_deposit. cbn [a_info a_amount].
          rewrite (proj2 (u128_checked_sub_ok _ d (holds w p (Native n)))) by (split; lia). reflexivity. }
      destruct (Hb _ _ D0 Y0 L0') as (B0 & m0 & P0). destruct (Hb _ _ D1 Y1 L1') as (B1 & m1 & P1).
      assert (Mo : forall i, holds w p i <= holds w1 p i) by (intros [t|n]; [rewrite X1; apply N.le_refl|rewrite X2; lia]).
      apply tolerated_iff in T as [T1 T2];
        [|exact (proj1 Y0)|exact (proj1 Y1)|eapply N.le_lt_trans; [apply Mo|exact B0]|eapply N.le_lt_trans; [apply Mo|exact B1]].
      set (sh := earned (tk_supply ts) d0 d1 (holds w p i0) (holds w p i1)) in *.
      assert (Hc : exists attrs, pair_execute A (wq C w1) p st s funds (JProvideLiquidity assets tol rcv) =
        Ok (st, Response (map plain (m0 ++ m1 ++ [MExecute lp (JMint (receiver_or rcv s) sh) []])) attrs)).
      { assert (Hr : a_amount assets.1 < B128 /\ a_amount assets.2 < B128).
        { destruct Y0 as (R0 & _), Y1 as (R1 & _). destruct D0 as [[I1 I2]|(I0 & I1 & I2)], D1 as [[J1 J2]|(J0 & J1 & J2)]; subst; auto; congruence. }
        destruct assets as [a0 a1]. eexists. unfold pair_execute. cbn [jmsg_ranges fst snd] in *. unfold u128_ok.
        rewrite (proj2 (N.ltb_lt _ _) (proj1 Hr)), (proj2 (N.ltb_lt _ _) (proj2 Hr)), T1. cbn [andb negb].
        unfold provide_liquidity. cbn [fst snd]. rewrite A0, A1. cbn [rbind].
        rewrite (proj2 (pools_are C OK w1 p st i0 i1 _ Sn1 Hp1 Has L0' L1') (conj B0 (conj B1 eq_refl))). cbn [rbind a_info].
        rewrite (proj2 (deposit_declared _ _ _) D0), (proj2 (deposit_declared _ _ _) D1). cbn [rbind]. rewrite P0, P1. cbn [rbind].
        change uint128 with N in T2 |- *. rewrite T2. cbn [rbind]. unfold addr_humanize. rewrite Hlp. cbn [oget rbind].
        assert (Q : q_token_info (wq C w1) lp = token_query_info ts).
        { cbn [wq q_token_info]. unfold ask_token_info, contract_at. rewrite (sane_norm C OK _ _ _ Sn1 Ht1). cbn [oget rbind].
          pose proof Ht1 as Hit. apply state_at_inst in Hit as (adt & Hit). rewrite Hit. reflexivity. }
        rewrite Q. unfold token_query_info. cbn [rbind ti_total_supply].
        pose proof (proj2 (share_earned (tk_supply ts) d0 d1 (holds w p i0) (holds w p i1) sh s st) (conj eq_refl (conj Yf Yl))) as Hs.
        destruct (N.eqb_spec (tk_supply ts) 0) as [Z|Z].
        - destruct Hs as (W1 & W2 & W3 & W4). rewrite bool_decide_true by exact W1. cbn [require rbind].
          rewrite (proj2 (N.ltb_ge _ _) W2), (proj2 (N.ltb_ge _ _) W3). cbn [orb negb require rbind]. rewrite W4. cbn [rbind].
          replace (sh =? 0) with false by (symmetry; apply N.eqb_neq; lia). cbn [negb require rbind]. reflexivity.
        - rewrite Hs. cbn [rbind]. replace (sh =? 0) with false by (symmetry; apply N.eqb_neq; lia). cbn [negb require rbind]. reflexivity. }
      destruct Hc as (attrs & Hc).
      set (l2 := map plain [MExecute lp (JMint (receiver_or rcv s) sh) []]).
      destruct (take_ok w1 i0 (holds w1 p i0) d0 m0 (holds w p i0) (map plain m1 ++ l2) Sn1 L0' Ns Np P0) as (wa & Pa & Sa & Ka).
      { exact (proj1 Y0). }
      { intros t Et. destruct Y0 as (_ & Z2 & Z3). rewrite Et in *. rewrite X1. split; [exact Z2|]. destruct Z3 as (us & v & e & Z3 & Z4 & Z5 & Z6).
        exists us, v, e. unfold tok_at. rewrite X0, (bm_block _ _ _ _ _ B). auto. }
      destruct (take_ok wa i1 (holds w1 p i1) d1 m1 (holds w p i1) l2 Sa (pulled_live _ _ _ _ _ _ _ Pa L1') Ns Np P1) as (wb & Pb & Sb & Kb).
      { exact (proj1 Y1). }
      { intros t Et. destruct Y1 as (_ & Z2 & Z3). subst i1. destruct Z3 as (us & v & e & Z3 & Z4 & Z5 & Z6).
        assert (Hu : tok_at w1 t us) by (unfold tok_at; rewrite X0; exact Z3).
        pose proof (pl_holds _ _ _ _ _ _ Pa s (Token t)) as Hw. rewrite !decide_False in Hw by (intros [_ Z]; congruence). rewrite !N.add_0_r in Hw.
        rewrite Hw, X1. split; [exact Z2|]. destruct (pl_toks _ _ _ _ _ _ Pa _ _ Hu) as (us' & Hu' & _ & _ & K & _). rewrite (K H01) in Hu'.
        exists us, v, e. rewrite (pl_block _ _ _ _ _ _ Pa), (bm_block _ _ _ _ _ B). auto. }
      assert (Htb : exists tsb, tok_at wb lp tsb /\ tk_supply tsb = tk_supply ts /\ tk_mint tsb = tk_mint ts).
      { destruct (pl_toks _ _ _ _ _ _ Pa _ _ Ht1) as (tsa & Hta & E1 & E2 & _). destruct (pl_toks _ _ _ _ _ _ Pb _ _ Hta) as (tsb & Htb & E3 & E4 & _).
        exists tsb. split; [exact Htb|]. split; congruence. }
      destruct Htb as (tsb & Htb & Esb & Emb).
      destruct (issue_ok wb p lp tsb (receiver_or rcv s) sh) as (wc & Kc); auto; try (rewrite ?Esb, ?Emb; assumption).
      destruct (Kb 3%nat wc) as (k1 & Hk1).
      { intros f. destruct (Kc f) as (l3 & E3). eexists. cbn [Nat.add]. unfold l2. cbn [map]. rewrite run_plain, E3. cbn [rbind]. rewrite run_nil. reflexivity. }
      destruct (Ka k1 wc Hk1) as (k2 & Hk2).
      exists wc, (S k2). intros f. destruct (Hk2 f) as (lr & Er). eexists. cbn [Nat.add]. rewrite exec_eq, Np. cbn [oget rbind]. rewrite Eb. cbn [rbind].
      rewrite Hi. cbn [oget rbind i_state call]. rewrite Hc. cbn [wrap rbind rs_msgs rs_attrs]. rewrite Hid. rewrite !map_app. fold l2. rewrite Er. cbn [rbind]. reflexivity.
    Qed.
  End one.
End deposit.

Lemma if_and (P Q : Prop) `{Decision P, Decision Q} (d : Decision (P /\ Q)) (a b : N) :
  (if d then a else b) = if decide P then (if decide Q then a else b) else b.
Proof. destruct d, (decide P), (decide Q); tauto. Qed.

(** C54: what a successful deposit does, in every reachable state, for a pair of
    two different assets none of which is its own LP token.  The sender pays
    exactly the amounts declared, the receiver gets the LP tokens earned on the
    reserves before the deposit, the LP supply grows by them, the pair's
    allowances shrink by what it drew; coins attached in other denoms also stay
    with the pair; nothing else moves. *)
Theorem C54_deposit_effect C w p st i0 i1 lp ts s assets tol rcv funds f w' x lg : chain_ok C -> reachable C w ->
  pair_at w p st -> assets_are C st i0 i1 -> i0 <> i1 -> live w i0 -> live w i1 ->
  human (ch_api C) (r_liquidity_token st) = Some lp -> tok_at w lp ts -> i0 <> Token lp -> i1 <> Token lp -> s <> p ->
  exec C f w s (MExecute p (JProvideLiquidity assets tol rcv) funds) = Ok (w', x, lg) ->
  exists d0 d1 ts', declared assets i0 d0 /\ declared assets i1 d1 /\
    let share := earned (tk_supply ts) d0 d1 (holds w p i0) (holds w p i1) in
    let paid := [(i0, s, p, d0); (i1, s, p, d1)] ++ map (fun c => (Native (c_denom c), s, p, c_amount c)) (stray i0 i1 funds) in
    can_deposit C w p st i0 i1 (tk_supply ts) s (receiver_or rcv s) tol d0 d1 /\
    (forall y j, holds w' y j + left_ y j paid =
       holds w y j + arrived y j paid + (if decide (y = receiver_or rcv s /\ j = Token lp) then share else 0)) /\
    tok_at w' lp ts' /\ tk_supply ts' = tk_supply ts + share /\
    (forall t d, (i0 = Token t /\ d = d0) \/ (i1 = Token t /\ d = d1) ->
       exists us us' v e, tok_at w t us /\ tok_at w' t us' /\ tk_allow us !! (s, p) = Some (v, e) /\
         tk_allow us' = <[(s, p) := (v - d, e)]> (tk_allow us)).
Proof.
  intros OK Hr Hp Has H01 L0 L1 Hlp Ht H0l H1l Hsp E.
  pose proof (main_sane C w (reachable_main C OK w Hr)) as Sn.
  destruct (deposit_inv C OK w p st i0 i1 lp ts s Sn Hp Has H01 L0 L1 Hlp Ht H0l H1l Hsp f assets tol rcv funds w' x lg E)
    as (d0 & d1 & w1 & wa & wb & D0 & D1 & At & A0 & A1 & Cd & B & Pa & Pb & Mi & _).
  destruct (bank_sane C w p s Sn Hsp w1 funds B) as (Sn1 & X0 & X1 & X2).
  assert (Ht1 : tok_at w1 lp ts) by (unfold tok_at; rewrite X0; exact Ht).
  destruct (pl_toks _ _ _ _ _ _ Pa _ _ Ht1) as (tsa & Hta & E1 & _ & E2 & _). rewrite (E2 H0l) in Hta.
  destruct (pl_toks _ _ _ _ _ _ Pb _ _ Hta) as (tsb & Htb & E3 & _ & E4 & _). rewrite (E4 H1l) in Htb.
  destruct (mi_supply _ _ _ _ _ Mi _ Htb) as (_ & ts' & Ht' & Es & _).
  exists d0, d1, ts'. split; [exact D0|]. split; [exact D1|]. cbv zeta. split; [exact Cd|].
  assert (Nt : forall d n, declared assets (Native n) d -> coin_sum n funds = d).
  { intros d n [[I1 <-]|(_ & I1 & <-)]; (eapply native_sent; [exact (proj1 At)| |exact I1]); assumption. }
  split; [|split; [exact Ht'|split; [exact Es|]]].
  - intros y j. fold (given s p (stray i0 i1 funds)). rewrite left_app, arrived_app, given_left, given_arrived.
    rewrite (mi_holds _ _ _ _ _ Mi). pose proof (pl_holds _ _ _ _ _ _ Pb y j) as Yb. pose proof (pl_holds _ _ _ _ _ _ Pa y j) as Ya.
    cbn [left_ arrived fold_right]. destruct j as [t|d].
    + rewrite (X1 y t) in Ya.
      assert (Z0 : Token t = i0 -> drawn i0 d0 = d0) by (intros <-; reflexivity). assert (Z1 : Token t = i1 -> drawn i1 d1 = d1) by (intros <-; reflexivity).
      clear E1 E3 Es X0 X1 X2 Nt Cd D0 D1. rewrite !(if_and (y = _) (_ = _)) in *.
      destruct (decide (Token t = i0)) as [Q0|Q0]; [rewrite (Z0 Q0) in Ya|]; (destruct (decide (Token t = i1)) as [Q1|Q1]; [rewrite (Z1 Q1) in Yb|]);
        try (exfalso; congruence); clear Z0 Z1; repeat destruct (decide (y = _)); repeat destruct (decide (Token t = _)); lia.
    + pose proof (bm_bal _ _ _ _ _ B y d) as Yw. cbn [holds] in *. rewrite stray_sum.
      assert (Z0 : Native d = i0 -> drawn i0 d0 = 0 /\ coin_sum d funds = d0) by (intros <-; split; [reflexivity|]; apply Nt; exact D0).
      assert (Z1 : Native d = i1 -> drawn i1 d1 = 0 /\ coin_sum d funds = d1) by (intros <-; split; [reflexivity|]; apply Nt; exact D1).
      clear E1 E3 Es X0 X1 X2 Nt Cd D0 D1. rewrite !(if_and (y = _) (_ = _)) in *. rewrite (decide_False (P := Native d = Token lp)) by discriminate.
      destruct (decide (Native d = i0)) as [Q0|Q0]; [destruct (Z0 Q0) as [W0 V0]; rewrite W0 in Ya; rewrite V0 in Yw|];
        (destruct (decide (Native d = i1)) as [Q1|Q1]; [destruct (Z1 Q1) as [W1 V1]; rewrite W1 in Yb; try rewrite V1 in Yw|]);
        try (exfalso; congruence); clear Z0 Z1;
        (destruct (decide (Native d = i0 \/ Native d = i1)) as [[?|?]|?]; try contradiction; try (exfalso; tauto));
        repeat destruct (decide (y = _)); lia.
  - intros t d H. destruct H as [[Et ->]|[Et ->]].
    + subst i0. destruct L0 as (us & Hu). assert (Hu1 : tok_at w1 t us) by (unfold tok_at; rewrite X0; exact Hu).
      destruct (pl_toks _ _ _ _ _ _ Pa _ _ Hu1) as (ua & Hua & _ & _ & _ & K). destruct (K eq_refl) as (v & e & K1 & _ & _ & K2).
      destruct (pl_toks _ _ _ _ _ _ Pb _ _ Hua) as (ub & Hub & _ & _ & K3 & _). rewrite K3 in Hub by congruence.
      exists us, ua, v, e. split; [exact Hu|]. split; [apply (mi_toks _ _ _ _ _ Mi); [exact Hub|congruence]|]. auto.
    + subst i1. destruct L1 as (us & Hu). assert (Hu1 : tok_at w1 t us) by (unfold tok_at; rewrite X0; exact Hu).
      destruct (pl_toks _ _ _ _ _ _ Pa _ _ Hu1) as (ua & Hua & _ & _ & K3 & _). rewrite K3 in Hua by congruence.
      destruct (pl_toks _ _ _ _ _ _ Pb _ _ Hua) as (ub & Hub & _ & _ & _ & K). destruct (K eq_refl) as (v & e & K1 & _ & _ & K2).
      exists us, ub, v, e. split; [exact Hu|]. split; [apply (mi_toks _ _ _ _ _ Mi); [exact Hub|congruence]|]. auto.
Qed.

(** Exactly when a deposit succeeds: the coins can be attached and match the
    declared native amounts, and the conditions of [can_deposit] hold. *)
Theorem C54_deposit_iff C w p st i0 i1 lp ts s assets tol rcv funds : chain_ok C -> reachable C w ->
  pair_at w p st -> assets_are C st i0 i1 -> i0 <> i1 -> live w i0 -> live w i1 ->
  human (ch_api C) (r_liquidity_token st) = Some lp -> tok_at w lp ts -> i0 <> Token lp -> i1 <> Token lp -> s <> p ->
  norm (ch_api C) s = Some s ->
  (exists w', succeeds C w s (MExecute p (JProvideLiquidity assets tol rcv) funds) w') <->
  (exists d0 d1, declared assets i0 d0 /\ declared assets i1 d1 /\
     can_attach w s funds /\ paid_with assets.1 funds /\ paid_with assets.2 funds /\
     can_deposit C w p st i0 i1 (tk_supply ts) s (receiver_or rcv s) tol d0 d1).
Proof.
  intros OK Hr Hp Has H01 L0 L1 Hlp Ht H0l H1l Hsp Ns.
  pose proof (main_sane C w (reachable_main C OK w Hr)) as Sn. split.
  - intros (w' & k & K). destruct (K k (le_n k)) as (lg & E).
    destruct (deposit_inv C OK w p st i0 i1 lp ts s Sn Hp Has H01 L0 L1 Hlp Ht H0l H1l Hsp k assets tol rcv funds w' _ lg E)
      as (d0 & d1 & w1 & wa & wb & D0 & D1 & At & A0 & A1 & Cd & _).
    exists d0, d1. apply assert_sent_native_paid in A0, A1. auto 10.
  - intros (d0 & d1 & D0 & D1 & At & A0 & A1 & Cd). apply assert_sent_native_paid in A0, A1.
    destruct (C36_lp_minted_only_by_provide C w [] w p st lp ts OK Hr (hist_refl C w) Hp Hlp Ht) as (Hm & _).
    destruct (deposit_ok C OK w p st i0 i1 lp ts s Sn Hp Has H01 L0 L1 Hlp Ht H0l H1l Hsp assets tol rcv funds d0 d1 Hm Ns D0 D1 At A0 A1 Cd) as (w' & k & K).
    exists w'. exact (succeeds_plus C w s _ w' k K).
Qed.

(** A deposit into the example pair meets the conditions and earns the stated
    share. *)
Example C54_case :
  let w' := after ex_world [ex_provide] in
  reachable ex_chain ex_world /\ pair_at ex_world "#4" ex_pair4 /\ assets_are ex_chain ex_pair4 (Token "#1") (Native "uaura") /\
  live ex_world (Token "#1") /\ human ex_api (r_liquidity_token ex_pair4) = Some "#5"%string /\
  tok_at ex_world "#5" (tok_of ex_world "#5") /\ norm ex_api "alice" = Some "alice"%string /\
  is_ok (script ex_world [ex_provide]) = true /\
  tk_supply (tok_of ex_world "#5") = 14142135 /\ holds ex_world "#4" (Token "#1") = 10000000 /\ holds ex_world "#4" (Native "uaura") = 20000000 /\
  earned 14142135 1000000 2000000 10000000 20000000 = 1414213 /\
  tk_supply (tok_of w' "#5") = 15556348 /\ holds w' "alice" (Token "#5") = 15556348 /\
  holds w' "#4" (Token "#1") = 11000000 /\ holds w' "#4" (Native "uaura") = 22000000 /\
  (holds ex_world "alice" (Token "#1") = holds w' "alice" (Token "#1") + 1000000) /\
  (exists v e, tk_allow (tok_of ex_world "#1") !! ("alice", "#4")%string = Some (v, e) /\
     tk_allow (tok_of w' "#1") !! ("alice", "#4")%string = Some (v - 1000000, e)).
Proof.
  split; [exact ex_reachable|]. split; [exact ex_pair4_at|]. split; [split; reflexivity|].
  split; [exists (tok_of ex_world "#1"); apply tok_of_at; vm_compute; reflexivity|]. split; [reflexivity|].
  split; [apply tok_of_at; vm_compute; reflexivity|]. repeat (split; [vm_compute; reflexivity|]).
  exists 40000000, ENever. split; vm_compute; reflexivity.
Qed.

(** ** C14 over whole transactions *)
Lemma round_trip_le R d S share : 0 < share -> (S = 0 -> R = 0) -> (S <> 0 -> 0 < R /\ share <= d * S / R) ->
  refund (R + d) share (S + share) <= d.
Proof.
  intros Hs H0 H1. destruct (refund_bounds (R + d) share (S + share) ltac:(lia)) as [X _]. change D18 with (10 ^ 18) in X.
  fold (refund (R + d) share (S + share)) in X. set (r := refund (R + d) share (S + share)) in *. clearbody r.
  destruct (N.eq_dec S 0) as [->|HS].
  - rewrite H0 in X by reflexivity. rewrite !N.add_0_l in X. nia.
  - destruct (H1 HS) as [HR Hq]. pose proof (div_lo (d * S) R ltac:(lia)) as Y. nia.
Qed.

(** Whoever deposits and then, in a later transaction with nothing in between,
    withdraws exactly the LP tokens minted to them holds no more of anything
    than before; third parties are not affected, and the pair has lost
    nothing. *)
Theorem C14_round_trip C w p st i0 i1 lp ts s assets tol funds f w1 x lg n f' w2 x' lg' : chain_ok C -> reachable C w ->
  pair_at w p st -> assets_are C st i0 i1 -> i0 <> i1 -> live w i0 -> live w i1 ->
  human (ch_api C) (r_liquidity_token st) = Some lp -> tok_at w lp ts -> i0 <> Token lp -> i1 <> Token lp -> s <> p ->
  (tk_supply ts = 0 -> holds w p i0 = 0 /\ holds w p i1 = 0) ->
  exec C f w s (MExecute p (JProvideLiquidity assets tol None) funds) = Ok (w1, x, lg) ->
  holds w1 s (Token lp) = holds w s (Token lp) + n ->
  exec C f' w1 s (MExecute lp (JSend p n HWithdrawLiquidity) []) = Ok (w2, x', lg') ->
  (forall j, holds w2 s j <= holds w s j) /\
  (forall y j, y <> s -> y <> p -> holds w2 y j = holds w y j) /\
  (forall j, holds w p j <= holds w2 p j).
Proof.
  intros OK Hr Hp Has H01 L0 L1 Hlp Ht H0l H1l Hsp Hz E Hn E'.
  pose proof (C54_deposit_effect C w p st i0 i1 lp ts s assets tol None funds f w1 x lg OK Hr Hp Has H01 L0 L1 Hlp Ht H0l H1l Hsp E) as X.
  cbv zeta in X. destruct X as (d0 & d1 & ts1 & D0 & D1 & Cd & Hh & Ht1 & Es & _). cbn [receiver_or] in *.
  pose proof (main_sane C w (reachable_main C OK w Hr)) as Sn.
  destruct (deposit_inv C OK w p st i0 i1 lp ts s Sn Hp Has H01 L0 L1 Hlp Ht H0l H1l Hsp f assets tol None funds w1 x lg E)
    as (d0' & d1' & wx & wa0 & wb0 & _ & _ & _ & _ & _ & _ & B & Pa0 & Pb0 & Mi & Sn1 & _).
  destruct (bank_sane C w p s Sn Hsp wx funds B) as (_ & X0 & _ & _).
  set (share := earned (tk_supply ts) d0 d1 (holds w p i0) (holds w p i1)) in *.
  fold (given s p (stray i0 i1 funds)) in Hh. setoid_rewrite left_app in Hh. setoid_rewrite arrived_app in Hh. setoid_rewrite given_left in Hh. setoid_rewrite given_arrived in Hh.
  cbn [left_ arrived fold_right] in Hh.
  assert (U : forall y j, holds w1 y j + (if decide (y = s) then (if decide (j = i0) then d0 else 0) + (if decide (j = i1) then d1 else 0)
       + (match j with Native d => coin_sum d (stray i0 i1 funds) | Token _ => 0 end) else 0) =
     holds w y j + (if decide (y = p) then (if decide (j = i0) then d0 else 0) + (if decide (j = i1) then d1 else 0)
       + (match j with Native d => coin_sum d (stray i0 i1 funds) | Token _ => 0 end) else 0)
     + (if decide (y = s) then (if decide (j = Token lp) then share else 0) else 0)).
  { intros y j. specialize (Hh y j). rewrite !(if_and (y = _) (_ = _)) in Hh. clear - Hsp Hh.
    destruct (decide (y = s)) as [e1|], (decide (y = p)) as [e2|]; [exfalso; congruence| | |];
      clear Hsp; destruct (decide (j = Token lp)), (decide (j = i0)), (decide (j = i1)), j; lia. }
  assert (En : n = share).
  { pose proof (U s (Token lp)) as Z. rewrite !(decide_True (P := s = s)) in Z by reflexivity. rewrite (decide_False (P := s = p)) in Z by exact Hsp.
    rewrite (decide_True (P := Token lp = Token lp)) in Z by reflexivity. rewrite !(decide_False (P := Token lp = _)) in Z by congruence. lia. }
  subst n.
  assert (Hp1 : pair_at w1 p st).
  { apply (mi_keep _ _ _ _ _ Mi), (pl_keep _ _ _ _ _ _ Pb0), (pl_keep _ _ _ _ _ _ Pa0). unfold pair_at. rewrite X0. exact Hp. }
  assert (Lv : forall i, live w i -> live w1 i).
  { intros [t|d]; [|auto]. intros (us & Hu). assert (Hux : tok_at wx t us) by (unfold tok_at; rewrite X0; exact Hu).
    destruct (pl_toks _ _ _ _ _ _ Pa0 _ _ Hux) as (ua & Hua & _). destruct (pl_toks _ _ _ _ _ _ Pb0 _ _ Hua) as (ub & Hub & _).
    destruct (decide (t = lp)) as [->|Hne]; [exists ts1; exact Ht1|]. exists ub. exact (mi_toks _ _ _ _ _ Mi _ _ Hub Hne). }
  apply (send_inv C OK) in E' as (w1' & f2 & lg2 & att & P1' & S1' & _ & _ & _ & E' & _); [|exact Sn1|exists ts1; exact Ht1].
  destruct (pd_toks _ _ _ _ _ _ P1' _ _ Ht1) as (ts1' & Ht1' & Eb'). assert (Es' : tk_supply ts1' = tk_supply ts1) by apply Eb'.
  assert (E0' : holds w1' p i0 = holds w1 p i0) by (eapply paid_other; [exact P1'|congruence|congruence]).
  assert (E1' : holds w1' p i1 = holds w1 p i1) by (eapply paid_other; [exact P1'|congruence|congruence]).
  pose proof (withdraw_recv_inv C OK f2 w1' lp p s share st i0 i1 ts1' _ _ _ S1' (paid_pair _ _ _ _ _ _ _ _ P1' Hp1) Has
    (paid_live _ _ _ _ _ _ _ P1' (Lv _ L0)) (paid_live _ _ _ _ _ _ _ P1' (Lv _ L1)) Hlp Ht1' E') as Y. cbv zeta in Y.
  destruct Y as (wa & wb & _ & _ & _ & _ & _ & _ & Pa & Pb & Bu & _ & _ & _).
  assert (St : forall i, i = i0 \/ i = i1 -> match i with Native d => coin_sum d (stray i0 i1 funds) | Token _ => 0 end = 0).
  { intros [t|d] Hi; [reflexivity|]. rewrite stray_sum. rewrite decide_True by exact Hi. reflexivity. }
  assert (R0 : holds w1 p i0 = holds w p i0 + d0).
  { pose proof (U p i0) as Z. rewrite (St i0) in Z by auto. rewrite !(decide_False (P := p = s)) in Z by congruence.
    rewrite (decide_True (P := p = p)), (decide_True (P := i0 = i0)), (decide_False (P := i0 = i1)) in Z by auto. lia. }
  assert (R1 : holds w1 p i1 = holds w p i1 + d1).
  { pose proof (U p i1) as Z. rewrite (St i1) in Z by auto. rewrite !(decide_False (P := p = s)) in Z by congruence.
    rewrite (decide_True (P := p = p)), (decide_True (P := i1 = i1)), (decide_False (P := i1 = i0)) in Z by auto. lia. }
  rewrite E0', R0, Es', Es in Pa. rewrite E1', R1, Es', Es in Pb.
  assert (Sh : 0 < share) by exact (cd_earned _ _ _ _ _ _ _ _ _ _ _ _ Cd).
  assert (Le : tk_supply ts <> 0 -> share <= d0 * tk_supply ts / holds w p i0 /\ share <= d1 * tk_supply ts / holds w p i1).
  { intros Z. unfold share, earned. destruct (N.eqb_spec (tk_supply ts) 0); [contradiction|]. lia. }
  assert (r0 : refund (holds w p i0 + d0) share (tk_supply ts + share) <= d0).
  { apply round_trip_le; [exact Sh|apply Hz|]. intros Z. split; [apply (cd_later _ _ _ _ _ _ _ _ _ _ _ _ Cd Z)|apply (Le Z)]. }
  assert (r1 : refund (holds w p i1 + d1) share (tk_supply ts + share) <= d1).
  { apply round_trip_le; [exact Sh|apply Hz|]. intros Z. split; [apply (cd_later _ _ _ _ _ _ _ _ _ _ _ _ Cd Z)|apply (Le Z)]. }
  set (q0 := refund (holds w p i0 + d0) share (tk_supply ts + share)) in *. set (q1 := refund (holds w p i1 + d1) share (tk_supply ts + share)) in *.
  assert (T : forall y j, holds w2 y j + (if decide (y = s) then (if decide (j = Token lp) then share else 0) else 0)
      + (if decide (y = p) then (if decide (j = i0) then q0 else 0) + (if decide (j = i1) then q1 else 0) else 0) =
    holds w1 y j + (if decide (y = s) then (if decide (j = i0) then q0 else 0) + (if decide (j = i1) then q1 else 0) else 0)).
  { intros y j. pose proof (pd_holds _ _ _ _ _ _ P1' y j) as Z1. pose proof (pd_holds _ _ _ _ _ _ Pa y j) as Z2.
    pose proof (pd_holds _ _ _ _ _ _ Pb y j) as Z3. pose proof (bn_holds _ _ _ _ _ Bu y j) as Z4.
    rewrite !(if_and (y = _) (_ = _)) in *. clear - Hsp Z1 Z2 Z3 Z4. clearbody q0 q1 share.
    destruct (decide (y = s)) as [e1|], (decide (y = p)) as [e2|]; [exfalso; congruence| | |];
      clear Hsp; destruct (decide (j = Token lp)), (decide (j = i0)), (decide (j = i1)); lia. }
  clearbody q0 q1 share.
  set (m := fun j => match j with Native d => coin_sum d (stray i0 i1 funds) | Token _ => 0 end) in U.
  assert (U' : forall y j, holds w1 y j + (if decide (y = s) then (if decide (j = i0) then d0 else 0) + (if decide (j = i1) then d1 else 0) + m j else 0) =
     holds w y j + (if decide (y = p) then (if decide (j = i0) then d0 else 0) + (if decide (j = i1) then d1 else 0) + m j else 0)
     + (if decide (y = s) then (if decide (j = Token lp) then share else 0) else 0)) by exact U.
  clear - T U' r0 r1 Hsp H0l H1l H01. clearbody m. split; [|split].
  - intros j. specialize (T s j). specialize (U' s j). destruct (decide (s = s)) as [_|]; [|contradiction]. destruct (decide (s = p)); [contradiction|].
    destruct (decide (j = Token lp)), (decide (j = i0)), (decide (j = i1)); try lia; exfalso; congruence.
  - intros y j Hy1 Hy2. specialize (T y j). specialize (U' y j). destruct (decide (y = s)); [contradiction|]. destruct (decide (y = p)); [contradiction|]. lia.
  - intros j. specialize (T p j). specialize (U' p j). destruct (decide (p = p)) as [_|]; [|contradiction]. destruct (decide (p = s)); [congruence|].
    destruct (decide (j = i0)), (decide (j = i1)); try lia; exfalso; congruence.
Qed.

Example C14_round_trip_case :
  let w1 := after ex_world [ex_provide] in
  let w2 := after w1 [(true, x_call "#5" (JSend "#4" 1414213 HWithdrawLiquidity))] in
  is_ok (script w1 [(true, x_call "#5" (JSend "#4" 1414213 HWithdrawLiquidity))]) = true /\
  holds w1 "alice" (Token "#5") = holds ex_world "alice" (Token "#5") + 1414213 /\
  holds ex_world "alice" (Token "#1") = holds w2 "alice" (Token "#1") + 1 /\
  holds ex_world "alice" (Native "uaura") = holds w2 "alice" (Native "uaura") + 1.
Proof. intros w1 w2. repeat (split; [vm_compute; reflexivity|]). vm_compute; reflexivity. Qed.
