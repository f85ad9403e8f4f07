(** What a passive liquidity provider keeps (C71), and that no group of accounts
    can gain at a pool's expense (C72). *)
From Verif Require Import Base BigNumber CwStd BigNumberFacts Asset Messages PairMath Pair PairFacts Token Factory Router
  SwapFacts SwapFacts2 P_Swap P_Pair FactoryFacts P_Factory P_Router TokenFacts World WorldInd WorldFacts WorldInv WorldInd2
  Examples WorldExamples P_Ledger P_Registry ExecFacts P_Exec P_Value P_Sides.
From Coq Require Import ZifyN.
Local Open Scope N_scope.
Ltac Zify.zify_post_hook ::= idtac.

(** ** Specification *)

(** What the accounts [G] hold of [i] together. *)
Definition own (w : world) (G : list string) (i : asset_info) : N := total (fun a => holds w a i) G.
(** How much of [i] exists: the supply of a token, or the coins in the bank. *)
Definition in_existence (w : world) (i : asset_info) : N :=
  match i with
  | Token t => supply w t
  | Native d => map_fold (fun (k : string * string) v s => (if decide (k.2 = d) then v else 0) + s) 0 (w_bank w)
  end.
(** The worth of [x] units of asset 0 and [y] units of asset 1 if [a] units of
    asset 0 are worth as much as [b] units of asset 1 are, i.e. each unit of
    asset 0 counts [b] and each of asset 1 counts [a]. *)
Definition valued (a b x y : N) : N := x * b + y * a.
(** The worth of all the accounts [G] own: their two assets and their share of
    the reserves of [p]. This is multiplied by the LP supply. *)
Definition worth (w : world) (p lp : string) (i0 i1 : asset_info) (G : list string) (a b : N) : N :=
  valued a b (own w G i0) (own w G i1) * supply w lp +
  own w G (Token lp) * valued a b (holds w p i0) (holds w p i1).

(** ** Sums over all accounts *)

(** [E] is the sum of [f] over all accounts. *)
Definition is_sum (f : string -> N) (E : N) : Prop :=
  exists l, NoDup l /\ (forall a, ~ In a l -> f a = 0) /\ total f l = E.

Lemma total_app f l k : total f (l ++ k) = total f l + total f k.
Proof. induction l as [|a l IH]; [reflexivity|]. cbn [total foldr app]. fold (total f (l ++ k)) (total f l). lia. Qed.
Lemma total_perm f l k : l ≡ₚ k -> total f l = total f k.
Proof.
  intros P. induction P; cbn [total foldr]; repeat match goal with |- context [foldr _ 0 ?l] => fold (total f l) end; try lia; congruence.
Qed.
Lemma total_zero f l : (forall a, In a l -> f a = 0) -> total f l = 0.
Proof.
  induction l as [|a l IH]; intros H; [reflexivity|]. cbn [total foldr]. fold (total f l).
  rewrite (H a) by (left; reflexivity). apply IH. intros b Hb. apply H. right. exact Hb.
Qed.
Lemma total_mono f g l : (forall a, In a l -> f a <= g a) -> total f l <= total g l.
Proof.
  induction l as [|a l IH]; intros H; [reflexivity|]. cbn [total foldr]. fold (total f l) (total g l).
  apply N.add_le_mono; [apply H; left; reflexivity|]. apply IH. intros b Hb. apply H. right. exact Hb.
Qed.

(** The elements of [l] that are not in [k]. *)
Definition rest (k l : list string) : list string := base.filter (fun a => a ∉ k) l.
Lemma rest_in k l a : In a (rest k l) <-> In a l /\ ~ In a k.
Proof. unfold rest. rewrite <- elem_of_list_In, elem_of_list_filter, !elem_of_list_In. tauto. Qed.
Lemma total_in f k l : NoDup k -> NoDup l -> (forall a, In a l -> ~ In a k -> f a = 0) -> (forall a, In a k -> ~ In a l -> f a = 0) ->
  total f k = total f l.
Proof.
  intros Hk Hl H1 H2. transitivity (total f (k ++ rest k l)).
  { rewrite total_app, (total_zero f (rest k l)); [lia|]. intros a Ha. apply rest_in in Ha. apply H1; tauto. }
  transitivity (total f (l ++ rest l k)).
  - apply total_perm. apply NoDup_Permutation.
    + apply NoDup_app. split; [exact Hk|]. split; [|apply list.NoDup_filter; exact Hl].
      intros a A B. rewrite elem_of_list_In in A, B. apply rest_in in B. tauto.
    + apply NoDup_app. split; [exact Hl|]. split; [|apply list.NoDup_filter; exact Hk].
      intros a A B. rewrite elem_of_list_In in A, B. apply rest_in in B. tauto.
    + intros a. rewrite !elem_of_app, !elem_of_list_In, !rest_in. destruct (in_dec string_dec a k), (in_dec string_dec a l); tauto.
  - rewrite total_app, (total_zero f (rest l k)); [lia|]. intros a Ha. apply rest_in in Ha. apply H2; tauto.
Qed.
Lemma is_sum_list f E l : is_sum f E -> NoDup l -> (forall a, ~ In a l -> f a = 0) -> total f l = E.
Proof. intros (k & Hk & Hz & <-) Hl Hzl. apply total_in; auto. Qed.

Lemma is_sum_zero f : (forall a, f a = 0) -> is_sum f 0.
Proof. intros H. exists []. split; [constructor|]. auto. Qed.
Lemma is_sum_update f g E E' a : is_sum f E -> (forall b, b <> a -> g b = f b) -> E' + f a = E + g a -> is_sum g E'.
Proof.
  intros (l & Hl & Hz & <-) Hg HE. exists (a :: rest [a] l).
  assert (Ha : ~ In a (rest [a] l)) by (intros X; apply rest_in in X as [_ X]; apply X; left; reflexivity).
  assert (Hn : NoDup (a :: rest [a] l)).
  { constructor; [rewrite elem_of_list_In; exact Ha|apply list.NoDup_filter; exact Hl]. }
  split; [exact Hn|]. split.
  - intros b Hb. assert (b <> a) by (intros ->; apply Hb; left; reflexivity). rewrite Hg by assumption. apply Hz. intros X. apply Hb. right. apply rest_in.
    split; [exact X|]. intros [Y|[]]. congruence.
  - cbn [total foldr]. fold (total g (rest [a] l)). rewrite (total_ext g f).
    + assert (X : total f (a :: rest [a] l) = total f l).
      { apply total_in; [exact Hn|exact Hl| |].
        - intros b Hb Nb. destruct Nb. destruct (decide (b = a)) as [->|D]; [left; reflexivity|]. right. apply rest_in. split; [exact Hb|]. intros [Y|[]]. congruence.
        - intros b _ Nb. apply Hz. exact Nb. }
      cbn [total foldr] in X. fold (total f (rest [a] l)) in X. lia.
    + intros b Hb. apply Hg. intros ->. exact (Ha Hb).
Qed.

(** If no account outside [G] loses, what is outside does not fall. *)
Lemma outside_le f g E E' G : is_sum f E -> is_sum g E' -> NoDup G -> (forall a, ~ In a G -> f a <= g a) ->
  exists r r', E = total f G + r /\ E' = total g G + r' /\ r <= r'.
Proof.
  intros Hf Hg HG Ho. pose proof Hf as (l & Hl & Hz & _). pose proof Hg as (k & Hk & Hzk & _).
  set (r := rest G (list_union l k)).
  assert (Hn : NoDup (G ++ r)).
  { apply NoDup_app. split; [exact HG|]. split; [|apply list.NoDup_filter, NoDup_list_union; assumption].
    intros a A B. rewrite elem_of_list_In in A, B. apply rest_in in B. tauto. }
  assert (Hin : forall a, ~ In a (G ++ r) -> ~ In a l /\ ~ In a k).
  { intros a Ha. rewrite in_app_iff in Ha. assert (~ In a (list_union l k)) as X by (intros X; apply Ha; destruct (in_dec string_dec a G); [auto|right; apply rest_in; auto]).
    rewrite <- elem_of_list_In, elem_of_list_union, !elem_of_list_In in X. tauto. }
  pose proof (is_sum_list f E (G ++ r) Hf Hn (fun a H => Hz a (proj1 (Hin a H)))) as F.
  pose proof (is_sum_list g E' (G ++ r) Hg Hn (fun a H => Hzk a (proj2 (Hin a H)))) as F'.
  rewrite total_app in F, F'. exists (total f r), (total g r). split; [lia|]. split; [lia|].
  apply total_mono; intros a Ha; apply Ho; apply rest_in in Ha; tauto.
Qed.

Lemma is_sum_bal (m : gmap string N) : is_sum (fun a => default 0 (m !! a)) (msum (fun (_ : string) v => v) m).
Proof.
  induction m as [|a v m Hm IH] using map_ind.
  - rewrite msum_empty. apply is_sum_zero. intros a. rewrite lookup_empty. reflexivity.
  - eapply (is_sum_update _ _ _ _ a IH).
    + intros b Hb. rewrite lookup_insert_ne by congruence. reflexivity.
    + rewrite msum_insert_new by exact Hm. rewrite lookup_insert, Hm. cbn. lia.
Qed.
Lemma is_sum_bank (m : gmap (string * string) N) d :
  is_sum (fun a => default 0 (m !! (a, d))) (msum (fun (k : string * string) v => if decide (k.2 = d) then v else 0) m).
Proof.
  induction m as [|[a e] v m Hm IH] using map_ind.
  - rewrite msum_empty. apply is_sum_zero. intros a. rewrite lookup_empty. reflexivity.
  - rewrite msum_insert_new by exact Hm. cbn [snd]. eapply (is_sum_update _ _ _ _ a IH).
    + intros b Hb. rewrite lookup_insert_ne by congruence. reflexivity.
    + destruct (decide (e = d)) as [->|D].
      * rewrite lookup_insert, Hm. cbn. lia.
      * rewrite lookup_insert_ne by congruence. lia.
Qed.
Lemma is_sum_asset C w i : chain_ok C -> reachable C w -> live w i -> is_sum (fun a => holds w a i) (in_existence w i).
Proof.
  intros OK Hr L. destruct i as [t|d]; cbn [in_existence holds].
  - destruct L as (ts & Ht). rewrite (supply_at _ _ _ Ht). destruct (mn_tokens _ _ (reachable_main C OK w Hr) _ _ Ht) as [E _ _]. unfold tok_at in Ht. rewrite Ht, E.
    exact (is_sum_bal (tk_bal ts)).
  - exact (is_sum_bank (w_bank w) d).
Qed.

(** ** Arithmetic *)
Lemma sq_le_inv a b : a * a <= b * b -> a <= b.
Proof. intros H. destruct (N.le_gt_cases a b) as [|L]; [assumption|]. assert (b * b < a * a) by (apply N.mul_lt_mono; assumption). lia. Qed.
(** The arithmetic and geometric mean. *)
Lemma am_gm u v : 4 * (u * v) <= (u + v) * (u + v).
Proof.
  destruct (N.le_ge_cases u v) as [H|H].
  - set (k := v - u). replace v with (u + k) by lia. assert (0 <= k * k) by apply N.le_0_l. lia.
  - set (k := u - v). replace u with (v + k) by lia. assert (0 <= k * k) by apply N.le_0_l. lia.
Qed.

(** With [q = x * y] fixed and the product of the reserves per share not lower. *)
Lemma floor_at_price a b x y s x' y' s' : s' ^ 2 * (x * y) <= s ^ 2 * (x' * y') ->
  4 * (a * b) * (x * y) * (s' * s') <= valued a b x' y' * s * (valued a b x' y' * s).
Proof.
  intros H. unfold valued. pose proof (am_gm (x' * b) (y' * a)) as A. set (v := x' * b + y' * a) in *.
  apply (N.mul_le_mono_r _ _ (s * s)) in A. rewrite !N.pow_2_r in H. apply (N.mul_le_mono_l _ _ (4 * (a * b))) in H.
  clearbody v. lia.
Qed.
Lemma at_old_price x y s x' y' s' : s' ^ 2 * (x * y) <= s ^ 2 * (x' * y') -> valued x y x y * s' <= valued x y x' y' * s.
Proof.
  intros H. apply sq_le_inv. etransitivity; [|apply (floor_at_price x y x y s x' y' s' H)]. unfold valued. apply N.eq_le_incl. lia.
Qed.
Lemma one_side x y s x' y' s' : 0 < s' -> s' ^ 2 * (x * y) <= s ^ 2 * (x' * y') -> s' * x <= s * x' \/ s' * y <= s * y'.
Proof.
  intros Hs H. destruct (N.le_gt_cases (s' * x) (s * x')) as [|A]; [auto|]. destruct (N.le_gt_cases (s' * y) (s * y')) as [|B]; [auto|].
  exfalso. assert (s * x' * (s * y') < s' * x * (s' * y)) by (apply N.mul_lt_mono; assumption). rewrite !N.pow_2_r in H. lia.
Qed.

(** ** C71 *)

(** Over every history in which the LP supply stays positive (and with the
    exception for swaps of C45), a given number [n] of LP tokens is redeemable
    for as much as before, up to rounding, on at least one of the two sides. *)
Theorem C71_never_loses_on_both_sides C w lg w' p st lp i0 i1 n :
  chain_ok C -> reachable C w -> history C w lg w' ->
  pair_at w p st -> assets_are C st i0 i1 -> i0 <> i1 -> live w i0 -> live w i1 ->
  human (ch_api C) (r_liquidity_token st) = Some lp -> live w (Token lp) -> i0 <> Token lp -> i1 <> Token lp ->
  0 < supply w lp -> (forall e, In e lg -> 0 < supply (ev_world e) lp) -> 0 < supply w' lp ->
  (forall e, In e lg -> ordinary_swap p e) ->
  exists i, (i = i0 \/ i = i1) /\ backing_le p lp i w w' /\
    redeemable w p lp i n <= redeemable w' p lp i n + holds w' p i / 10 ^ 18 + 1.
Proof.
  intros OK Hr Hh Hp Has Hne L0 L1 Hlp Lt N0 N1 Hs0 Hs Hs' Ho.
  pose proof (C45_share_value_never_falls C w lg w' p st lp i0 i1 OK Hr Hh Hp Has Hne L0 L1 Hlp Lt N0 N1 Hs Hs' Ho) as V.
  destruct (one_side _ _ _ _ _ _ Hs' V) as [H|H]; [exists i0|exists i1]; (split; [auto|]; split; [exact H|]; apply refund_mono; assumption).
Qed.

(** Whatever the two assets are worth in the end (each unit of asset 0 counts
    [b], each of asset 1 counts [a]), the reserves behind one LP token are worth
    at least 2 * sqrt (a * b * x * y) / s, where x, y and s are the reserves and
    the LP supply at the start; squared and multiplied out. At the prices of the
    start, where a : b = x : y, this is what they were worth then. *)
Theorem C71_guaranteed_worth C w lg w' p st lp i0 i1 a b :
  chain_ok C -> reachable C w -> history C w lg w' ->
  pair_at w p st -> assets_are C st i0 i1 -> i0 <> i1 -> live w i0 -> live w i1 ->
  human (ch_api C) (r_liquidity_token st) = Some lp -> live w (Token lp) -> i0 <> Token lp -> i1 <> Token lp ->
  (forall e, In e lg -> 0 < supply (ev_world e) lp) -> 0 < supply w' lp ->
  (forall e, In e lg -> ordinary_swap p e) ->
  let x := holds w p i0 in let y := holds w p i1 in let s := supply w lp in
  let x' := holds w' p i0 in let y' := holds w' p i1 in let s' := supply w' lp in
  4 * (a * b) * (x * y) * (s' * s') <= (valued a b x' y' * s) * (valued a b x' y' * s) /\
  valued x y x y * s' <= valued x y x' y' * s.
Proof.
  intros OK Hr Hh Hp Has Hne L0 L1 Hlp Lt N0 N1 Hs Hs' Ho x y s x' y' s'.
  pose proof (C45_share_value_never_falls C w lg w' p st lp i0 i1 OK Hr Hh Hp Has Hne L0 L1 Hlp Lt N0 N1 Hs Hs' Ho) as V.
  split; [apply floor_at_price; exact V|apply at_old_price; exact V].
Qed.

(** ** C72 *)

(** A group [G] of accounts, the pair [p] not among them. If over a history
    nobody outside loses any of the two assets or of the LP token and no new
    units of the two assets come into existence, then the group owns in the end
    no more than before, valued at the prices of the pool at the start: LP
    tokens count as their share of the reserves. *)
Theorem C72_no_gain C w lg w' p st lp i0 i1 G :
  chain_ok C -> reachable C w -> history C w lg w' ->
  pair_at w p st -> assets_are C st i0 i1 -> i0 <> i1 -> live w i0 -> live w i1 ->
  human (ch_api C) (r_liquidity_token st) = Some lp -> live w (Token lp) -> i0 <> Token lp -> i1 <> Token lp ->
  (forall e, In e lg -> 0 < supply (ev_world e) lp) -> 0 < supply w' lp ->
  (forall e, In e lg -> ordinary_swap p e) ->
  NoDup G -> ~ In p G ->
  (forall i, i = i0 \/ i = i1 -> in_existence w' i <= in_existence w i) ->
  (forall o i, ~ In o G -> i = i0 \/ i = i1 -> o <> p -> holds w o i <= holds w' o i) ->
  (forall o, ~ In o G -> holds w o (Token lp) <= holds w' o (Token lp)) ->
  let a := holds w p i0 in let b := holds w p i1 in
  worth w' p lp i0 i1 G a b * supply w lp <= worth w p lp i0 i1 G a b * supply w' lp.
Proof.
  intros OK Hr Hh Hp Has Hne L0 L1 Hlp Lt N0 N1 Hs Hs' Ho HG HpG He Hi Hl a b.
  pose proof (C45_share_value_never_falls C w lg w' p st lp i0 i1 OK Hr Hh Hp Has Hne L0 L1 Hlp Lt N0 N1 Hs Hs' Ho) as V.
  apply at_old_price in V. fold a b in V.
  pose proof (history_reachable C w lg w' Hr Hh) as Hr'. destruct (history_main C OK w lg w' (reachable_main C OK w Hr) Hh) as [_ R].
  assert (Lv : forall i, live w i -> live w' i).
  { intros [u|d]; [|auto]. intros (us & Hu). destruct (rl_toks _ _ _ R _ _ Hu) as (us' & Hu' & _). exists us'. exact Hu'. }
  assert (HpGn : NoDup (p :: G)) by (constructor; [rewrite elem_of_list_In; exact HpG|exact HG]).
  assert (S : forall i, i = i0 \/ i = i1 -> own w' G i + holds w' p i <= own w G i + holds w p i).
  { intros i Hj. assert (L : live w i) by (destruct Hj as [->| ->]; assumption).
    destruct (outside_le _ _ _ _ (p :: G) (is_sum_asset C w i OK Hr L) (is_sum_asset C w' i OK Hr' (Lv i L)) HpGn) as (r & r' & E & E' & Hrr).
    - intros o Ho'. apply Hi; [|exact Hj|]; intros X; apply Ho'; [right; exact X|left; auto].
    - specialize (He i Hj). cbn [total foldr] in E, E'. fold (total (fun a => holds w a i) G) in E. fold (total (fun a => holds w' a i) G) in E'. unfold own. lia. }
  destruct (outside_le _ _ _ _ G (is_sum_asset C w (Token lp) OK Hr Lt) (is_sum_asset C w' (Token lp) OK Hr' (Lv _ Lt)) HG Hl) as (r & r' & E & E' & Hrr).
  cbn [in_existence] in E, E'. pose proof (S i0 (or_introl eq_refl)) as S0. pose proof (S i1 (or_intror eq_refl)) as S1. clear S.
  unfold worth. fold a b. change (total (fun a => holds w a (Token lp)) G) with (own w G (Token lp)) in E.
  change (total (fun a => holds w' a (Token lp)) G) with (own w' G (Token lp)) in E'.
  fold a in S0. fold b in S1. set (x' := holds w' p i0) in *. set (y' := holds w' p i1) in *. set (g := own w G (Token lp)) in *. set (g' := own w' G (Token lp)) in *.
  set (s := supply w lp) in *. set (s' := supply w' lp) in *. set (o0 := own w G i0) in *. set (o0' := own w' G i0) in *. set (o1 := own w G i1) in *. set (o1' := own w' G i1) in *.
  clearbody x' y' g g' s s' o0 o0' o1 o1' a b.
  set (v' := valued a b x' y') in *. set (v := valued a b a b) in *.
  assert (K : valued a b o0' o1' + v' <= valued a b o0 o1 + v).
  { unfold v', v, valued. assert ((o0' + x') * b <= (o0 + a) * b) by (apply N.mul_le_mono_r; exact S0).
    assert ((o1' + y') * a <= (o1 + b) * a) by (apply N.mul_le_mono_r; exact S1). lia. }
  clearbody v v'. set (k := valued a b o0 o1) in *. set (k' := valued a b o0' o1') in *. clearbody k k'.
  (* (k' s' + g' v') s <= (k s + g v) s' *)
  assert (A1 : (k' + v') * s' * s <= (k + v) * s' * s) by (apply N.mul_le_mono_r, N.mul_le_mono_r; exact K).
  assert (A2 : v * s' * r <= v' * s * r) by (apply N.mul_le_mono_r; exact V).
  assert (A3 : v' * s * r <= v' * s * r') by (apply N.mul_le_mono_l; exact Hrr).
  subst s s'. lia.
Qed.

(** In particular the group cannot gain on both sides: its holdings of one of
    the assets, its share of the reserve included, are not higher than before. *)
Definition side_worth (w : world) (p lp : string) (i : asset_info) (G : list string) : N :=
  own w G i * supply w lp + own w G (Token lp) * holds w p i.
Theorem C72_not_on_both_sides C w lg w' p st lp i0 i1 G :
  chain_ok C -> reachable C w -> history C w lg w' ->
  pair_at w p st -> assets_are C st i0 i1 -> i0 <> i1 -> live w i0 -> live w i1 ->
  human (ch_api C) (r_liquidity_token st) = Some lp -> live w (Token lp) -> i0 <> Token lp -> i1 <> Token lp ->
  (forall e, In e lg -> 0 < supply (ev_world e) lp) -> 0 < supply w' lp ->
  (forall e, In e lg -> ordinary_swap p e) ->
  NoDup G -> ~ In p G ->
  (forall i, i = i0 \/ i = i1 -> in_existence w' i <= in_existence w i) ->
  (forall o i, ~ In o G -> i = i0 \/ i = i1 -> o <> p -> holds w o i <= holds w' o i) ->
  (forall o, ~ In o G -> holds w o (Token lp) <= holds w' o (Token lp)) ->
  0 < holds w p i0 -> 0 < holds w p i1 ->
  exists i, (i = i0 \/ i = i1) /\ side_worth w' p lp i G * supply w lp <= side_worth w p lp i G * supply w' lp.
Proof.
  intros OK Hr Hh Hp Has Hne L0 L1 Hlp Lt N0 N1 Hs Hs' Ho HG HpG He Hi Hl P0 P1.
  pose proof (C72_no_gain C w lg w' p st lp i0 i1 G OK Hr Hh Hp Has Hne L0 L1 Hlp Lt N0 N1 Hs Hs' Ho HG HpG He Hi Hl) as X. cbv zeta in X.
  destruct (N.le_gt_cases (side_worth w' p lp i0 G * supply w lp) (side_worth w p lp i0 G * supply w' lp)) as [A|A]; [exists i0; auto|].
  destruct (N.le_gt_cases (side_worth w' p lp i1 G * supply w lp) (side_worth w p lp i1 G * supply w' lp)) as [B|B]; [exists i1; auto|]. exfalso.
  apply (N.mul_lt_mono_pos_r _ _ _ P1) in A. apply (N.mul_lt_mono_pos_r _ _ _ P0) in B.
  unfold worth, side_worth, valued in *. lia.
Qed.

(** ** Concrete cases *)

(** The history of C45's case: the LP tokens lose on the side of uaura and gain
    on the side of #1. *)
Example C71_case :
  let w' := after ex_world ex_value_txs in let u := Native "uaura" in let t := Token "#1" in
  history ex_chain ex_world (log_of ex_world ex_value_txs) w' /\ pair_at ex_world "#4" ex_pair4 /\
  assets_are ex_chain ex_pair4 t u /\ live ex_world t /\ live ex_world (Token "#5") /\
  human ex_api (r_liquidity_token ex_pair4) = Some "#5"%string /\
  (forall e, In e (log_of ex_world ex_value_txs) -> 0 < supply (ev_world e) "#5") /\
  (forall e, In e (log_of ex_world ex_value_txs) -> ordinary_swap "#4" e) /\
  (redeemable ex_world "#4" "#5" t 1000000, redeemable w' "#4" "#5" t 1000000) = (707106, 771474) /\
  (redeemable ex_world "#4" "#5" u 1000000, redeemable w' "#4" "#5" u 1000000) = (1414213, 1296805).
Proof.
  split; [apply after_history|]. split; [exact ex_pair4_at|]. split; [split; reflexivity|].
  split; [exists (tok_of ex_world "#1"); apply tok_of_at; vm_compute; reflexivity|].
  split; [exists (tok_of ex_world "#5"); apply tok_of_at; vm_compute; reflexivity|].
  split; [reflexivity|].
  destruct (log_facts_ok (log_of ex_world ex_value_txs)) as [X Y]; [vm_compute; reflexivity|].
  split; [exact X|]. split; [exact Y|]. vm_compute. auto 12.
Qed.

(** Nobody outside [G] loses tokens of [ts] or coins [d]. *)
Definition keeps_tokens (ts ts' : token_state) (G : list string) : bool :=
  bool_decide (map_Forall (fun a v => a ∈ G \/ v <= default 0 (tk_bal ts' !! a)) (tk_bal ts)).
Lemma keeps_tokens_ok w w' t ts ts' G : tok_at w t ts -> tok_at w' t ts' -> keeps_tokens ts ts' G = true ->
  forall o, ~ In o G -> holds w o (Token t) <= holds w' o (Token t).
Proof.
  unfold tok_at, holds, keeps_tokens. intros -> -> H o Ho. apply bool_decide_eq_true in H. unfold balance_of.
  destruct (tk_bal ts !! o) as [v|] eqn:E; cbn [default from_option id]; [|apply N.le_0_l].
  destruct (H o v E) as [X|X]; [destruct Ho; apply elem_of_list_In; exact X|exact X].
Qed.
Definition keeps_coins (d : string) (w w' : world) (G : list string) : bool :=
  bool_decide (map_Forall (fun k v => k.2 <> d \/ k.1 ∈ G \/ v <= default 0 (w_bank w' !! k)) (w_bank w)).
Lemma keeps_coins_ok w w' d G : keeps_coins d w w' G = true -> forall o, ~ In o G -> holds w o (Native d) <= holds w' o (Native d).
Proof.
  unfold holds, keeps_coins, bal. intros H o Ho. apply bool_decide_eq_true in H.
  destruct (w_bank w !! (o, d)) as [v|] eqn:E; cbn [default from_option id]; [|apply N.le_0_l].
  destruct (H (o, d) v E) as [X|[X|X]]; [destruct X; reflexivity|destruct Ho; apply elem_of_list_In; exact X|exact X].
Qed.

(** bob swaps, deposits, withdraws half of it and swaps back. *)
Definition ex_gain_txs : list (bool * cmsg) :=
  [ex_swap; (false, x_call "#1" (JIncreaseAllowance "#4" 50000000 None));
   (false, MExecute "#4" (JProvideLiquidity (Asset (Token "#1") 1100000, Asset (Native "uaura") 1800000) None None) [Coin "uaura" 1800000]);
   (false, x_call "#5" (JSend "#4" 600000 HWithdrawLiquidity)); (false, x_call "#1" (JSend "#4" 500000 (HSwap None None None)))]%string.
Example C72_case :
  let w' := after ex_world ex_gain_txs in let u := Native "uaura" in let t := Token "#1" in let G := ["bob"]%string in
  history ex_chain ex_world (log_of ex_world ex_gain_txs) w' /\ pair_at ex_world "#4" ex_pair4 /\
  assets_are ex_chain ex_pair4 t u /\ live ex_world t /\ live ex_world (Token "#5") /\
  human ex_api (r_liquidity_token ex_pair4) = Some "#5"%string /\
  (forall e, In e (log_of ex_world ex_gain_txs) -> 0 < supply (ev_world e) "#5") /\
  (forall e, In e (log_of ex_world ex_gain_txs) -> ordinary_swap "#4" e) /\
  (forall i, i = t \/ i = u -> in_existence w' i <= in_existence ex_world i) /\
  (forall o i, ~ In o G -> i = t \/ i = u -> o <> "#4"%string -> holds ex_world o i <= holds w' o i) /\
  (forall o, ~ In o G -> holds ex_world o (Token "#5") <= holds w' o (Token "#5")) /\
  (own ex_world G t, own ex_world G u, own ex_world G (Token "#5")) = (1000000000, 1000000000, 0) /\
  (own w' G t, own w' G u, own w' G (Token "#5")) = (997867127, 1001573855, 799651).
Proof.
  cbv zeta. split; [apply after_history|]. split; [exact ex_pair4_at|]. split; [split; reflexivity|].
  split; [exists (tok_of ex_world "#1"); apply tok_of_at; vm_compute; reflexivity|].
  split; [exists (tok_of ex_world "#5"); apply tok_of_at; vm_compute; reflexivity|].
  split; [reflexivity|].
  destruct (log_facts_ok (log_of ex_world ex_gain_txs)) as [X Y]; [vm_compute; reflexivity|].
  split; [exact X|]. split; [exact Y|].
  split; [intros i [->| ->]; vm_compute; discriminate|].
  split.
  { intros o i Ho [->| ->] Hp.
    - apply (keeps_tokens_ok _ _ _ (tok_of ex_world "#1") (tok_of (after ex_world ex_gain_txs) "#1") ["bob"; "#4"]%string);
        [apply tok_of_at; vm_compute; reflexivity|apply tok_of_at; vm_compute; reflexivity|vm_compute; reflexivity|].
      intros [E|[E|[]]]; [apply Ho; left; exact E|congruence].
    - apply (keeps_coins_ok _ _ _ ["bob"; "#4"]%string); [vm_compute; reflexivity|].
      intros [E|[E|[]]]; [apply Ho; left; exact E|congruence]. }
  split.
  { apply (keeps_tokens_ok _ _ _ (tok_of ex_world "#5") (tok_of (after ex_world ex_gain_txs) "#5"));
        [apply tok_of_at; vm_compute; reflexivity|apply tok_of_at; vm_compute; reflexivity|vm_compute; reflexivity]. }
  vm_compute. auto.
Qed.
