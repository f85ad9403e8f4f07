(** What a route pays against the prices of its pools; cycles of routes (C99). *)
From Verif Require Import Base BigNumber CwStd BigNumberFacts Asset Messages PairMath Pair PairFacts Token Factory Router
  SwapFacts SwapFacts2 P_Swap P_Pair FactoryFacts P_Factory P_Router TokenFacts World WorldInd WorldFacts WorldInv WorldInd2
  Examples WorldExamples P_Ledger P_Registry ExecFacts P_Exec P_Value P_Route P_Route2 P_Quotes P_Moves P_Round.
From Coq Require Import ZifyN QArith Lqa.
Local Open Scope N_scope.
Ltac Zify.zify_post_hook ::= idtac.

(** ** Specification *)

(** What the pools on a route hold: of the offered and of the asked asset. *)
Inductive pools_on (C : chain) (w : world) (fs : factory_state) : list swap_op -> list (N * N) -> Prop :=
| pools_nil : pools_on C w fs [] []
| pools_cons o pi ops l : factory_query_pair (ch_api C) fs (op_offer o, op_ask o) = Ok pi -> pools_on C w fs ops l ->
    pools_on C w fs (o :: ops) ((holds w (p_contract_addr pi) (op_offer o), holds w (p_contract_addr pi) (op_ask o)) :: l).
(** The price of a pool less 0.3 percent, along a route; one unit of rounding per
    hop, at the prices of the hops that follow. *)
Definition qn (n : N) : Q := inject_Z (Z.of_N n).
Fixpoint rates (l : list (N * N)) : Q :=
  match l with [] => 1 | (x, y) :: l => (997 # 1000) * (qn y / qn x) * rates l end%Q.
Fixpoint dust (l : list (N * N)) : Q := match l with [] => 0 | _ :: l => rates l + dust l end%Q.

(** ** Lemmas *)
Lemma hop_bound x y n : x <> 0 -> let g := gross x y n in 1000 * (g - fee g) * x <= 997 * y * n + 1000 * x.
Proof.
  intros Hx g. pose proof (gross_bounds x y n ltac:(lia)) as [_ B]. pose proof (fee_bounds g) as [_ F]. fold g in B. set (q := g - fee g) in *. clearbody q g.
  assert (B2 : g * x * 10 ^ 18 <= y * n * 10 ^ 18 + x).
  { apply (N.mul_le_mono_pos_r _ _ (x + n)); [lia|]. replace (g * x * 10 ^ 18 * (x + n)) with (g * (x + n) * 10 ^ 18 * x) by ring.
    etransitivity; [apply N.mul_le_mono_r; exact B|]. replace ((y * n * 10 ^ 18 + x) * (x + n)) with ((y * n * 10 ^ 18 + (x + n)) * x + y * n * 10 ^ 18 * n) by ring. apply N.le_add_r. }
  assert (F2 : 1000 * (q * x) <= 997 * (g * x) + 999 * x) by (pose proof (N.mul_le_mono_r _ _ x F); lia).
  replace (1000 * q * x) with (1000 * (q * x)) by ring. replace (997 * y * n) with (997 * (y * n)) by ring.
  change (10 ^ 18) with 1000000000000000000 in B2. set (gx := g * x) in *. set (qx := q * x) in *. set (yn := y * n) in *. clearbody gx qx yn. lia.
Qed.
Lemma qn_nonneg n : (0 <= qn n)%Q.
Proof. unfold qn. change 0%Q with (inject_Z 0). rewrite <- Zle_Qle. lia. Qed.
Lemma qn_pos n : n <> 0 -> (0 < qn n)%Q.
Proof. unfold qn. intros H. change 0%Q with (inject_Z 0). rewrite <- Zlt_Qlt. lia. Qed.
Lemma qn_mul a b : (qn (a * b) == qn a * qn b)%Q.
Proof. unfold qn. rewrite N2Z.inj_mul, inject_Z_mult. reflexivity. Qed.
Lemma qn_add a b : (qn (a + b) == qn a + qn b)%Q.
Proof. unfold qn. rewrite N2Z.inj_add, inject_Z_plus. reflexivity. Qed.
Lemma qn_le a b : a <= b <-> (qn a <= qn b)%Q.
Proof. unfold qn. rewrite <- Zle_Qle. lia. Qed.
Lemma hop_boundQ x y n : x <> 0 -> let g := gross x y n in (qn (g - fee g) <= (997 # 1000) * (qn y / qn x) * qn n + 1)%Q.
Proof.
  intros Hx g. pose proof (hop_bound x y n Hx) as H. cbv zeta in H. fold g in H. set (q := g - fee g) in *. clearbody q. clear g.
  apply qn_le in H. rewrite qn_add, !qn_mul in H. change (qn 1000) with (1000 # 1)%Q in H. change (qn 997) with (997 # 1)%Q in H.
  pose proof (qn_pos x Hx) as Px.
  assert (E : ((997 # 1000) * (qn y / qn x) * qn n + 1 == ((997 # 1) * qn y * qn n + (1000 # 1) * qn x) / ((1000 # 1) * qn x))%Q).
  { field. intros Z. rewrite Z in Px. apply (Qlt_irrefl 0 Px). }
  rewrite E. apply Qle_shift_div_l; lra.
Qed.
Lemma rates_nonneg l : (forall x y, In (x, y) l -> x <> 0) -> (0 <= rates l)%Q.
Proof.
  induction l as [|[x y] l IH]; intros H; cbn [rates]; [lra|]. apply Qmult_le_0_compat; [|apply IH; intros u v K; apply (H u v); right; exact K].
  apply Qmult_le_0_compat; [lra|]. pose proof (qn_nonneg y). pose proof (qn_pos x (H x y (or_introl eq_refl))) as Px.
  apply Qle_shift_div_l; [exact Px|]. lra.
Qed.

Section cycle.
  Context (C : chain) (OK : chain_ok C).
  Lemma hop_pool w f fs o pi n r : reachable C w -> fac_at w f fs -> tradable C w fs o ->
    factory_query_pair (ch_api C) fs (op_offer o, op_ask o) = Ok pi -> hop_quote (wq C w) f o n r ->
    let x := holds w (p_contract_addr pi) (op_offer o) in let y := holds w (p_contract_addr pi) (op_ask o) in
    x <> 0 /\ r = gross x y n - fee (gross x y n).
  Proof.
    intros Hr Hf (Hne & Lo & La & pi' & st & od & ad & Hq & Hp & Hs) Hq' (pj & s & E1 & E2 & ->) x y.
    rewrite Hq in Hq'. injection Hq' as <-. pose proof (main_sane C w (reachable_main C OK w Hr)) as Sn.
    pose proof (known_pair C OK w f fs o pi' Sn Hf Hq) as Hk. pose proof (reachable_pair C OK w _ st Hr Hp) as Hh.
    rewrite Hk in E1. injection E1 as <-. destruct s as [r sp c]. cbn [s_return].
    apply (sim_inv C OK w _ st (op_offer o) (op_ask o) od ad) in E2 as (Rn & Ro & Ra & Hc); auto.
    apply swap_answer in Hc as (H0 & -> & _); auto. split; [exact H0|]. unfold fee. rewrite gross_eq by exact H0. fold x y.
    rewrite sw_comm_eq. reflexivity.
  Qed.
  Lemma quotes_bound w f fs ops : reachable C w -> fac_at w f fs -> (forall o, In o ops -> tradable C w fs o) ->
    forall a r l, pools_on C w fs ops l -> quotes (wq C w) f a ops r ->
    (forall x y, In (x, y) l -> x <> 0) /\ (qn r <= rates l * qn a + dust l)%Q.
  Proof.
    intros Hr Hf. induction ops as [|o ops IH]; intros Ht a r l Hl H; inversion Hl as [|? pi ? l0 Hpi Hl0]; subst; inversion H as [|? ? b ? ? H1 H2]; subst.
    - split; [intros x y []|]. cbn [rates dust]. lra.
    - destruct (hop_pool w f fs o pi a b Hr Hf (Ht o (or_introl eq_refl)) Hpi H1) as [Hx Eb].
      destruct (IH (fun u K => Ht u (or_intror K)) b r l0 Hl0 H2) as [Hz L]. set (x := holds w _ (op_offer o)) in *. set (y := holds w _ (op_ask o)) in *. split.
      + intros u v [K|K]; [congruence|eapply Hz; exact K].
      + cbn [rates dust]. pose proof (hop_boundQ x y a Hx) as B. cbv zeta in B. rewrite <- Eb in B. pose proof (rates_nonneg l0 Hz) as P.
        set (k := ((997 # 1000) * (qn y / qn x))%Q) in *. set (R := rates l0) in *. set (D := dust l0) in *.
        assert (R * qn b <= R * (k * qn a + 1))%Q by (rewrite (Qmult_comm R (qn b)), (Qmult_comm R (k * qn a + 1)); apply Qmult_le_compat_r; assumption).
        lra.
  Qed.
End cycle.

(** ** C99 *)

(** A route quote never exceeds the product of the prices of the pools on the
    route, each less 0.3 percent, times the offer, plus the worth of one unit per
    hop. *)
Theorem C99_quote_below_prices C w rst f fs ops l a q : chain_ok C -> reachable C w ->
  human (ch_api C) rst = Some f -> fac_at w f fs -> (forall o, In o ops -> tradable C w fs o) -> pools_on C w fs ops l ->
  router_simulate (ch_api C) (wq C w) rst a ops = Ok q ->
  (qn q <= rates l * qn a + dust l)%Q.
Proof.
  intros OK Hr Hh Hf Ht Hl H. apply C31_simulation_composes in H as (_ & _ & g & Hg & H). rewrite Hh in Hg. injection Hg as <-.
  eapply quotes_bound; eauto.
Qed.

(** A cycle pays no more than was sent, up to that rounding, unless the prices
    along it disagree by more than the commissions. [s] sends [a] of a token
    round a route that ends in the same token, as in C33: whatever the pools
    hold, if the prices less commissions multiply to at most one, [s] has
    afterwards at most the rounding more than before. *)
Theorem C99_no_gain_round_a_cycle C w r rst f fs s T a ops ps l q z o0 lst : chain_ok C -> reachable C w ->
  state_at w r = Some (SRouter rst) -> human (ch_api C) rst = Some f -> fac_at w f fs ->
  executable C w fs a ops ps z -> is_chain ops -> NoDup ps ->
  list.head ops = Some o0 -> op_offer o0 = Token T -> list.last ops = Some lst -> op_ask lst = Token T ->
  router_simulate (ch_api C) (wq C w) rst a ops = Ok q -> 0 < q ->
  (forall o, In o ops -> holds w r (op_offer o) = 0) ->
  norm (ch_api C) s = Some s -> a <= holds w s (Token T) -> s <> r -> ~ In s ps ->
  pools_on C w fs ops l -> (rates l <= 1)%Q ->
  exists w', succeeds C w s (MExecute T (JSend r a (HExecuteSwapOperations ops None None)) []) w' /\
    (qn (holds w' s (Token T)) <= qn (holds w s (Token T)) + dust l)%Q /\
    forall j, j <> Token T -> holds w' s j = holds w s j.
Proof.
  intros OK Hr Hs Hh Hf Hx Hch Hnd Ho HT Hl HlT Hsim Hq Hclean Ns Hle Hsr Hsps Hp Hrates.
  destruct (C33_route_pays_quote C w r rst f fs s T a ops ps q z None None o0 lst OK Hr Hs Hh Hf Hx Hch Hnd Ho HT Hl Hsim Hq Hclean Ns Hle Hsr Ns Hsr Hsps Hsps ltac:(discriminate))
    as (w' & Hw & Hd). cbn [default] in Hd. rewrite HlT in Hd. exists w'. split; [exact Hw|].
  assert (Ht : forall o, In o ops -> tradable C w fs o).
  { clear - Hx. induction Hx as [|a o t pi st od ad r sp c ops ps z E1 E2 L1 L2 E3 E4 E5 E6 E7 Hx IH]; [intros o []|]. intros u [<-|Hu]; [|apply IH; exact Hu].
    rewrite <- E1 in *. unfold tradable. split; [exact E2|]. split; [exact L1|]. split; [exact L2|]. exists pi, st, od, ad. auto. }
  split.
  - pose proof (C99_quote_below_prices C w rst f fs ops l a q OK Hr Hh Hf Ht Hp Hsim) as B.
    pose proof (Hd s (Token T) Hsps) as E. rewrite !decide_True in E by auto.
    assert (EQ : (qn (holds w' s (Token T)) + qn a == qn (holds w s (Token T)) + qn q)%Q) by (rewrite <- !qn_add, E; reflexivity).
    pose proof (Qmult_le_compat_r _ _ (qn a) Hrates (qn_nonneg a)). lra.
  - intros j Hj. pose proof (Hd s j Hsps) as E. rewrite !decide_False in E by tauto. lia.
Qed.

(** *** Cases *)

(** A third token #9 and the pairs #10 of #2 and #9, #12 of #9 and #1. *)
Definition cy_setup (y : N) : list (bool * cmsg) :=
  [(true, ex_tok "token three" "TOKC");
   (true, x_call "#0" (JCreatePair (Token "#2", Token "#9") ex_wl));
   (true, x_call "#0" (JCreatePair (Token "#9", Token "#1") ex_wl));
   (true, x_call "#2" (JIncreaseAllowance "#10" 50000000 None));
   (true, x_call "#9" (JIncreaseAllowance "#10" 50000000 None));
   (true, x_call "#10" (JProvideLiquidity (Asset (Token "#2") 30000000, Asset (Token "#9") 5000000) None None));
   (true, x_call "#9" (JIncreaseAllowance "#12" 50000000 None));
   (true, x_call "#1" (JIncreaseAllowance "#12" 50000000 None));
   (true, x_call "#12" (JProvideLiquidity (Asset (Token "#9") 5000000, Asset (Token "#1") y) None None))]%string.
Definition cy_route : list swap_op := [hop (Token "#1") (Token "#2"); hop (Token "#2") (Token "#9"); hop (Token "#9") (Token "#1")]%string.
Definition cy_send a : bool * cmsg := (false, x_call "#1" (JSend "#3" a (HExecuteSwapOperations cy_route None None))).
Definition cy_world (y : N) : world := after ex_world (cy_setup y).
Lemma cy_reachable y : reachable ex_chain (cy_world y).
Proof. eapply history_reachable; [exact ex_reachable|apply after_history]. Qed.
Lemma pools_at C w fs o pi ops l x y : factory_query_pair (ch_api C) fs (op_offer o, op_ask o) = Ok pi ->
  holds w (p_contract_addr pi) (op_offer o) = x -> holds w (p_contract_addr pi) (op_ask o) = y -> pools_on C w fs ops l -> pools_on C w fs (o :: ops) ((x, y) :: l).
Proof. intros H <- <- Hl. constructor; assumption. Qed.
(** Three pools whose prices agree: 30000 sent round bring 29466. *)
Example C99_case : let w := cy_world 10000000 in let fs := fac_of w "#0" in
  let l := [(10000000, 30000000); (30000000, 5000000); (5000000, 10000000)] in
  reachable ex_chain w /\ state_at w "#3" = Some (SRouter "#0") /\ human ex_api "#0" = Some "#0"%string /\ fac_at w "#0" fs /\
  executable ex_chain w fs 30000 cy_route ["#6"; "#10"; "#12"]%string 29466 /\ is_chain cy_route /\ NoDup ["#6"; "#10"; "#12"]%string /\
  (forall o, In o cy_route -> holds w "#3" (op_offer o) = 0) /\
  norm ex_api "bob" = Some "bob"%string /\ 30000 <= holds w "bob" (Token "#1") /\
  router_simulate ex_api (wq ex_chain w) "#0" 30000 cy_route = Ok 29466 /\
  pools_on ex_chain w fs cy_route l /\ (rates l == 991026973 # 1000000000)%Q /\ (dust l == 9976009 # 3000000)%Q /\
  holds w "bob" (Token "#1") = 1000000000 /\ holds (after w [cy_send 30000]) "bob" (Token "#1") = 1000000000 - 30000 + 29466.
Proof.
  intros w fs l. split; [apply cy_reachable|]. split; [vm_compute; reflexivity|]. split; [vm_compute; reflexivity|].
  split; [apply fac_of_at; vm_compute; reflexivity|].
  assert (L1 : live w (Token "#1")) by (exists (tok_of w "#1"); apply tok_of_at; vm_compute; reflexivity).
  assert (L2 : live w (Token "#2")) by (exists (tok_of w "#2"); apply tok_of_at; vm_compute; reflexivity).
  assert (L9 : live w (Token "#9")) by (exists (tok_of w "#9"); apply tok_of_at; vm_compute; reflexivity).
  split.
  { apply (exe_cons ex_chain w fs 30000 (hop (Token "#1") (Token "#2")) "#1"
      (PairInfo (Token "#1", Token "#2") "#6" "#7" (6, 6) ex_wl)%string ex_pair6 6 6 89461 270 269);
      [reflexivity|discriminate|exact L1|exact L2|vm_compute; reflexivity|vm_compute; reflexivity|left; vm_compute; auto|vm_compute; reflexivity|split; lia|].
    apply (exe_cons ex_chain w fs 89461 (hop (Token "#2") (Token "#9")) "#2"
      (PairInfo (Token "#2", Token "#9") "#10" "#11" (6, 6) ex_wl)%string (PairInfoRaw (TokenRaw "#2", TokenRaw "#9") "#10" "#11" (6, 6) ex_wl)%string 6 6 14821 45 44);
      [reflexivity|discriminate|exact L2|exact L9|vm_compute; reflexivity|vm_compute; reflexivity|left; vm_compute; auto|vm_compute; reflexivity|split; lia|].
    apply (exe_cons ex_chain w fs 14821 (hop (Token "#9") (Token "#1")) "#9"
      (PairInfo (Token "#9", Token "#1") "#12" "#13" (6, 6) ex_wl)%string (PairInfoRaw (TokenRaw "#9", TokenRaw "#1") "#12" "#13" (6, 6) ex_wl)%string 6 6 29466 88 88);
      [reflexivity|discriminate|exact L9|exact L1|vm_compute; reflexivity|vm_compute; reflexivity|left; vm_compute; auto|vm_compute; reflexivity|split; lia|].
    constructor. }
  split; [intros [|[|[|i]]] o o' H H'; cbn in H, H'; try discriminate; injection H as <-; injection H' as <-; reflexivity|].
  split; [apply (bool_decide_unpack _); vm_compute; exact I|].
  split; [intros o [<-|[<-|[<-|[]]]]; vm_compute; reflexivity|].
  split; [vm_compute; reflexivity|]. split; [vm_compute; discriminate|]. split; [vm_compute; reflexivity|].
  split.
  { apply (pools_at ex_chain w fs _ (PairInfo (Token "#1", Token "#2") "#6" "#7" (6, 6) ex_wl)%string); [vm_compute; reflexivity|vm_compute; reflexivity|vm_compute; reflexivity|].
    apply (pools_at ex_chain w fs _ (PairInfo (Token "#2", Token "#9") "#10" "#11" (6, 6) ex_wl)%string); [vm_compute; reflexivity|vm_compute; reflexivity|vm_compute; reflexivity|].
    apply (pools_at ex_chain w fs _ (PairInfo (Token "#9", Token "#1") "#12" "#13" (6, 6) ex_wl)%string); [vm_compute; reflexivity|vm_compute; reflexivity|vm_compute; reflexivity|]. constructor. }
  split; [vm_compute; reflexivity|]. split; [vm_compute; reflexivity|]. split; vm_compute; reflexivity.
Qed.
(** The condition on the prices is needed: with 12000000 in the last pool, a fifth
    off, the same cycle brings 35359 for 30000. *)
Example C99_disagreeing_prices_pay :
  let w := cy_world 12000000 in
  reachable ex_chain w /\ ~ (rates [(10000000, 30000000); (30000000, 5000000); (5000000, 12000000)]%N <= 1)%Q /\
  holds w "bob" (Token "#1") = 1000000000 /\
  holds (after w [cy_send 30000]) "bob" (Token "#1") = 1000000000 - 30000 + 35359.
Proof.
  intros w. split; [apply cy_reachable|]. split; [intros H; vm_compute in H; apply H; reflexivity|]. split; vm_compute; reflexivity.
Qed.
