(** C25, continued: the decimals that a listed pair records are those its cw20
    assets have, and those the owner had registered for its native assets. *)
From Verif Require Import Base BigNumber CwStd BigNumberFacts Asset Messages PairMath Pair PairFacts Token Factory Router
  SwapFacts SwapFacts2 P_Swap P_Pair FactoryFacts P_Factory P_Router TokenFacts World WorldInd WorldFacts WorldInv WorldInd2
  Examples WorldExamples P_Ledger P_Registry ExecFacts P_Exec P_Value P_Sides P_Events P_Fees P_Listed.
From Coq Require Import ZifyN.
Local Open Scope N_scope.
Ltac Zify.zify_post_hook ::= idtac.

(** Contracts stay what they are, and tokens keep their decimals. *)
Definition kept (w w' : world) : Prop :=
  forall a s, state_at w a = Some s -> exists s', state_at w' a = Some s' /\ same_kind s s' /\
    forall ts, s = SToken ts -> exists ts', s' = SToken ts' /\ tk_decimals ts' = tk_decimals ts.
Lemma kept_refl w : kept w w.
Proof. intros a s H. exists s. split; [exact H|]. split; [apply same_kind_refl|]. intros ts ->. eauto. Qed.
Lemma kept_trans w w1 w2 : kept w w1 -> kept w1 w2 -> kept w w2.
Proof.
  intros K1 K2 a s H. destruct (K1 _ _ H) as (s1 & H1 & E1 & T1). destruct (K2 _ _ H1) as (s2 & H2 & E2 & T2).
  exists s2. split; [exact H2|]. split; [eapply same_kind_trans; eauto|]. intros ts Hs.
  destruct (T1 _ Hs) as (t1 & X1 & D1). destruct (T2 _ X1) as (t2 & X2 & D2). exists t2. split; [exact X2|congruence].
Qed.
Lemma rel_kept x w w' : rel x w w' -> kept w w'.
Proof.
  intros R a s H. destruct (grows_state _ _ _ _ (rl_grows _ _ _ R) H) as (s' & H' & K). exists s'. split; [exact H'|]. split; [exact K|].
  intros ts ->. destruct (rl_toks _ _ _ R a ts H) as (ts' & Ht' & _ & _ & D & _). exists ts'. split; [|exact D].
  unfold tok_at in Ht'. congruence.
Qed.

Definition all_kept (w w' : world) (lg : list event) : Prop := forall e, In e lg -> kept (ev_world e) w'.
Lemma all_kept_ok C (OK : chain_ok C) : ind2_ok C all_kept (fun _ _ _ => True).
Proof.
  assert (N : forall w w', all_kept w w' []) by (intros w w' e []).
  split; intros; auto.
  - intros e He. apply in_app_or in He as [He|He]; [|auto]. destruct H3 as (x & H3). eapply kept_trans; [apply H4; exact He|]. eapply rel_kept; eauto.
  - right. split; [apply List.Forall_forall; auto|]. intros K e [<-|He]; [|auto]. cbn [ev_world].
    eapply kept_trans; [|exact (rel_kept _ _ _ H12)]. pose proof (rel_kept _ _ _ H8) as K2. intros x s1 Hx. apply K2.
    unfold state_at in Hx |- *. rewrite <- (bm_insts _ _ _ _ _ H3). exact Hx.
  - right. split; [apply List.Forall_forall; auto|auto].
  - split; [apply List.Forall_forall; auto|auto].
  - split; [apply List.Forall_forall; auto|auto].
Qed.
Lemma history_kept C w lg w' e : chain_ok C -> main C w -> history C w lg w' -> In e lg -> kept (ev_world e) w'.
Proof.
  intros OK M Hh. apply (history_ind2 C OK all_kept (fun _ _ _ => True) w lg w'); auto using all_kept_ok. intros w1 blk _ e' [].
Qed.

(** C25: an honest factory's listed pair records for a cw20 of the project exactly
    the decimals of that cw20 (which never change, C51), and for a native asset
    those in the factory's own registry when the pair was made. *)
Theorem C25_listed_decimals C w0 f lg w pi i d : chain_ok C -> honestly_listed C w0 f lg w pi ->
  (i = (p_asset_infos pi).1 /\ d = (p_asset_decimals pi).1) \/ (i = (p_asset_infos pi).2 /\ d = (p_asset_decimals pi).2) ->
  match i with
  | Token t => forall ts, tok_at w t ts -> tk_decimals ts = d
  | Native n => exists e infos fs, In e lg /\ ev_contract e = f /\ ev_msg e = JCreatePair infos (p_requirements pi) /\
      (infos.1 = Native n \/ infos.2 = Native n) /\ fac_at (ev_world e) f fs /\ f_native fs !! n = Some d
  end.
Proof.
  intros OK H Hi. pose proof H as ((pc & tc & Hn & _ & _) & Hh & _ & _). destruct (new_factory_state C w0 f pc tc OK Hn) as (Hr & _).
  pose proof (reachable_main C OK w0 Hr) as M0.
  destruct (listed_full C w0 f lg w pi OK H) as (M & _ & pr & e & ts & E & Hp & [A0 A1] & Hhp & Hhl & Htk & Hm & Ie & Me & Ha & fse & Hfe).
  destruct Me as (infos & reqs & Ec & Em & R0 & R1 & Rq & Fr & Dec).
  apply named_normal in A0, A1. pose proof (raw_infos _ _ _ _ R0 A0) as X0. pose proof (raw_infos _ _ _ _ R1 A1) as X1.
  assert (Ed : p_asset_decimals pi = r_asset_decimals pr /\ p_requirements pi = reqs).
  { unfold pair_to_normal in E. repeat (apply rbind_ok in E as (? & _ & E)). injection E as <-. cbn. auto. }
  destruct Ed as [Ed Er].
  assert (G : exists i', (i' = infos.1 /\ d = (r_asset_decimals pr).1 \/ i' = infos.2 /\ d = (r_asset_decimals pr).2) /\
    match i', i with Native d, Native d' => d' = d | Token t, Token t' => norm (ch_api C) t = Some t' | _, _ => False end).
  { rewrite <- Ed. destruct Hi as [[-> ->]|[-> ->]]; eauto. }
  destruct G as (i' & Hi' & Hx). specialize (Dec i' d Hi'). destruct i' as [t'|n'], i as [t|n]; try contradiction.
  - intros ts' Ht'. destruct Dec as (ti & Q & D). unfold ask_token_info in Q. apply rbind_ok in Q as ([t2 s] & Q & X).
    unfold contract_at in Q. rewrite Hx in Q. cbn [oget rbind] in Q. apply rbind_ok in Q as (x & Q & Q2). apply oget_ok in Q. injection Q2 as <- <-.
    assert (Hs : state_at (ev_world e) t = Some (i_state x)) by (unfold state_at; rewrite Q; reflexivity).
    destruct (history_kept C w0 lg w e OK M0 Hh Ie t _ Hs) as (s' & Hs' & K & T). unfold tok_at in Ht'. rewrite Ht' in Hs'. injection Hs' as <-.
    destruct (i_state x) as [| | |te|]; try contradiction. destruct (T te eq_refl) as (t3 & Y & D3). injection Y as <-. rewrite D3.
    unfold token_query_info in X. injection X as <-. exact D.
  - subst n'. exists e, infos, fse. split; [exact Ie|]. split; [exact Ec|]. split; [congruence|].
    split; [destruct Hi' as [[<- _]|[<- _]]; auto|]. split; [exact Hfe|].
    unfold ask_native_decimals, contract_at in Dec. pose proof Hfe as Hs. apply state_at_inst in Hs as (adm & Hs).
    destruct Ha as (Me & _). rewrite (inst_norm C OK _ _ _ (mn_fresh _ _ Me) Hs) in Dec. cbn [oget rbind] in Dec. rewrite Hs in Dec. cbn [oget rbind i_state] in Dec.
    unfold factory_query_native in Dec. apply oget_ok in Dec. exact Dec.
Qed.

(** The pair #1 / uaura of the example chain: both decimals are 6, the cw20's own
    and the registered ones. *)
Example C25_listed_case :
  honestly_listed ex_chain ex_first "#0" (log_of ex_first ex_rest) ex_then ex_listed4 /\
  (p_asset_infos ex_listed4, p_asset_decimals ex_listed4) = ((Token "#1", Native "uaura"), (6, 6))%string /\
  tok_at ex_then "#1" (tok_of ex_then "#1") /\ tk_decimals (tok_of ex_then "#1") = 6.
Proof.
  assert (T : tok_at ex_then "#1" (tok_of ex_then "#1")) by (apply tok_of_at; vm_compute; reflexivity).
  assert (H : honestly_listed ex_chain ex_first "#0" (log_of ex_first ex_rest) ex_then ex_listed4) by (apply ex_listed; left; reflexivity).
  split; [exact H|]. split; [reflexivity|]. split; [exact T|].
  exact (C25_listed_decimals ex_chain ex_first "#0" _ ex_then ex_listed4 (Token "#1") 6 ex_chain_ok H (or_introl (conj eq_refl eq_refl)) _ T).
Qed.
