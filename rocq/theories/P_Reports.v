(** C92: what the factory reports, and what a pair reports when its LP token
    exists, can be read back by asking. *)
From Verif Require Import Base BigNumber CwStd BigNumberFacts Asset Messages PairMath Pair PairFacts Token Factory Router
  FactoryFacts P_Factory P_Router World WorldInd WorldFacts WorldInv WorldExamples P_Ledger Examples P_Registry P_Events P_Pages.
From Coq Require Import ZifyN Ascii String.
Local Open Scope N_scope.
Ltac Zify.zify_post_hook ::= idtac.

(** A response reports the value [v] under the key [k]. *)
Definition reports (r : response) (k v : string) : Prop := attr (rs_attrs r) k = Some v.
(** An asset with the usual spelling of its address. *)
Definition usual (A : api) (i : asset_info) : Prop := match i with Token a => norm A a = Some a | Native _ => True end.

Lemma usual_back A i r : usual A i -> info_to_raw A i = Ok r -> raw_to_normal A r = Ok i.
Proof.
  destruct i as [a|d]; cbn [usual info_to_raw raw_to_normal]; intros U H.
  - apply rbind_ok in H as (c & Ec & H). injection H as <-. apply addr_canonicalize_ok in Ec. unfold norm in U. rewrite Ec in U.
    cbn [raw_to_normal]. rewrite (proj2 (addr_humanize_ok A c a) U). reflexivity.
  - injection H as <-. reflexivity.
Qed.

(** C92: creating a pair takes two steps of the factory, the call and the reply
    from the new pair.  The first reports the two assets, the second the address of
    the pair and that of its LP token; asking for the pair afterwards, in either
    order of the assets, tells these addresses, the two assets, and the decimals
    and requirements. *)
Theorem C92_created_pair A Q Q' self st st1 st2 i j reqs pc rsp1 rsp2 :
  usual A i -> usual A j -> norm A pc = Some pc ->
  create_pair A Q self st (i, j) reqs = Ok (st1, rsp1) -> factory_reply A Q' st1 pc = Ok (st2, rsp2) ->
  reports rsp1 "action" "create_pair" /\ reports rsp1 "pair" (spelled i ++ "-" ++ spelled j) /\
  exists lp own, q_pair_self Q' pc = Ok own /\ p_liquidity_token own = lp /\
    reports rsp2 "pair_contract_addr" pc /\ reports rsp2 "liquidity_token_addr" lp /\
    (norm A lp = Some lp -> exists p, factory_query_pair A st2 (i, j) = Ok p /\ factory_query_pair A st2 (j, i) = Ok p /\
       p_asset_infos p = (i, j) /\ p_contract_addr p = pc /\ p_liquidity_token p = lp /\ p_requirements p = p_requirements own).
Proof.
  intros Ui Uj Np Hc Hr. pose proof Hc as Hc0. apply create_pair_inv in Hc as (d0 & d1 & r0 & r1 & _ & _ & _ & E0 & E1 & _ & -> & _). cbn [fst snd] in E0, E1.
  assert (Ra : rs_attrs rsp1 = [("action", "create_pair"); ("pair", (info_to_string i ++ "-" ++ info_to_string j)%string)]%string).
  { unfold create_pair in Hc0. apply rbind_ok in Hc0 as (? & _ & H). apply rbind_ok in H as (? & _ & H). apply rbind_ok in H as (? & _ & H). apply rbind_ok in H as (? & _ & H). apply rbind_ok in H as (? & _ & H).
    destruct (_ !! _); [discriminate|]. injection H; intros; subst rsp1; reflexivity. }
  split; [unfold reports; rewrite Ra; reflexivity|]. split; [unfold reports; rewrite Ra; reflexivity|].
  pose proof Hr as Hr0. apply factory_reply_inv in Hr as (tmp & p & lc & c & Et & Hq & Hl & Hp & -> & _). cbn [f_tmp] in Et. injection Et as <-.
  exists (p_liquidity_token p), p. split; [exact Hq|]. split; [reflexivity|].
  assert (Rb : rs_attrs rsp2 = [("pair_contract_addr", pc); ("liquidity_token_addr", p_liquidity_token p)]%string).
  { unfold factory_reply in Hr0. cbn [f_tmp oget rbind] in Hr0. rewrite Hq in Hr0. cbn [rbind] in Hr0.
    apply rbind_ok in Hr0 as (? & _ & H). apply rbind_ok in H as (? & _ & H). injection H; intros; subst rsp2; reflexivity. }
  split; [unfold reports; rewrite Rb; reflexivity|]. split; [unfold reports; rewrite Rb; reflexivity|].
  intros Nl. unfold norm in Np, Nl. rewrite Hp in Np. rewrite Hl in Nl.
  exists (PairInfo (i, j) pc (p_liquidity_token p) (d0, d1) (p_requirements p)).
  assert (K : factory_query_pair A
    (FactoryState (f_owner st) (f_pair_code st) (f_token_code st) (f_native st)
       (<[pair_key (r0, r1) := PairInfoRaw (r0, r1) c lc (d0, d1) (p_requirements p)]> (f_pairs st)) (Some (TmpPair (pair_key (r0, r1)) (r0, r1) (d0, d1)))) (i, j) =
    Ok (PairInfo (i, j) pc (p_liquidity_token p) (d0, d1) (p_requirements p))).
  { unfold factory_query_pair. cbn [fst snd f_pairs]. rewrite E0, E1. cbn [rbind]. rewrite lookup_insert. cbn [oget rbind]. unfold pair_to_normal. cbn [r_liquidity_token r_contract_addr r_asset_infos fst snd r_asset_decimals r_requirements].
    rewrite (proj2 (addr_humanize_ok A lc _) Nl), (proj2 (addr_humanize_ok A c _) Np). cbn [rbind]. rewrite (usual_back A i r0 Ui E0), (usual_back A j r1 Uj E1). reflexivity. }
  cbn [f_owner f_pair_code f_token_code f_native f_pairs f_tmp t_key t_infos t_decimals].
  split; [exact K|]. split; [apply C21_either_order; exact K|]. repeat split.
Qed.

(** C92: the LP token a pair reports is the one it tells when asked. *)
Theorem C92_lp_token A st a st' rsp p : norm A a = Some a -> pair_reply A st a = Ok (st', rsp) ->
  reports rsp "liquidity_token_addr" a /\ (pair_query_pair A st' = Ok p -> p_liquidity_token p = a).
Proof.
  intros Na H. unfold pair_reply in H. apply rbind_ok in H as (c & Ec & H). apply addr_canonicalize_ok in Ec. injection H as <- <-. split; [reflexivity|].
  intros E. unfold pair_query_pair, pair_to_normal in E. cbn [r_liquidity_token] in E. unfold norm in Na. rewrite Ec in Na.
  rewrite (proj2 (addr_humanize_ok A c a) Na) in E. cbn [rbind] in E. apply rbind_ok in E as (? & _ & E). apply rbind_ok in E as (? & _ & E). apply rbind_ok in E as (? & _ & E). injection E as <-. reflexivity.
Qed.

(** C92: the factory reports the decimals it notes, and tells them when asked;
    what it tells about other coins does not change. *)
Theorem C92_native_decimals A Q self st sender d n st' rsp : add_native A Q self st sender d n = Ok (st', rsp) ->
  reports rsp "action" "add_allow_native_token" /\ reports rsp "denom" d /\ reports rsp "decimals" (dec_to_string n) /\
  factory_query_native st' d = Ok n /\ forall d', d' <> d -> factory_query_native st' d' = factory_query_native st d'.
Proof.
  unfold add_native. intros H. apply rbind_ok in H as (? & _ & H). apply rbind_ok in H as (? & _ & H). apply rbind_ok in H as (? & _ & H). injection H as <- <-.
  repeat (split; [reflexivity|]). unfold factory_query_native. cbn [f_native]. split; [rewrite lookup_insert; reflexivity|].
  intros d' Hd. rewrite lookup_insert_ne by congruence. reflexivity.
Qed.

(** The example factory creates a pair of the second token and the coin. *)
Example C92_case :
  let fs := fac_of ex_world "#0" in let own := PairInfo (Token "#2", Native "uaura") "#9" "#10" (6, 6) ex_wl in
  let Q' := wq ex_chain (after ex_world [(false, x_call "#0" (JCreatePair (Token "#2", Native "uaura") ex_wl))]) in
  match create_pair ex_api (wq ex_chain ex_world) "#0" fs (Token "#2", Native "uaura") ex_wl with
  | Ok (st1, rsp1) =>
      rs_attrs rsp1 = [("action", "create_pair"); ("pair", "#2-uaura")] /\
      match factory_reply ex_api Q' st1 "#9" with
      | Ok (st2, rsp2) => rs_attrs rsp2 = [("pair_contract_addr", "#9"); ("liquidity_token_addr", "#10")] /\
                          factory_query_pair ex_api st2 (Native "uaura", Token "#2") = Ok own
      | Err _ => False
      end
  | Err _ => False
  end%string.
Proof. vm_compute. repeat split. Qed.
