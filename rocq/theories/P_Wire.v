(** C87: what the contracts do with the bytes they receive.

    The model's contracts take typed messages ([jmsg]), whereas the chain hands
    them bytes. Here the entry points are given bytes, read with the decoders of
    Wire.v, and compared with the model. *)
From Verif Require Import Base BigNumber BigNumberFacts CwStd Asset Messages PairMath Pair Token Factory Router World Examples Json JsonFacts Wire WireFacts.
From Coq Require Import Ascii String.
Local Open Scope N_scope.

(** ** Entry points on bytes: the execute functions of the four contracts, which
    the wasm entry point calls after from_slice (cosmwasm_std's entry_point
    macro); bytes that do not decode are an error. *)
Definition pair_entry A Q self st sender funds (b : string) : res (pair_info_raw * response) :=
  match from_bytes r_pair_msg b with Some m => pair_execute A Q self st sender funds m | None => Err EParse end.
Definition router_entry A Q self st sender (b : string) : res (router_state * response) :=
  match from_bytes r_router_msg b with Some m => router_execute A Q self st sender m | None => Err EParse end.
Definition factory_entry A Q self st sender (b : string) : res (factory_state * response) :=
  match from_bytes r_factory_msg b with Some m => factory_execute A Q self st sender m | None => Err EParse end.
Definition token_entry A blk st sender (b : string) : res (token_state * response) :=
  match from_bytes r_token_msg b with Some m => token_execute A blk st sender m | None => Err EParse end.

(** The typed message that stands for the bytes [b]. *)
Definition jmsg_of (b : string) : jmsg :=
  match from_bytes r_token_msg b with
  | Some m => m
  | None =>
      match from_bytes r_pair_msg b with
      | Some m => m
      | None =>
          match from_bytes r_router_msg b with
          | Some m => m
          | None => match from_bytes r_factory_msg b with Some m => m | None => JOther b end
          end
      end
  end.

(** A payload stands for its own bytes. *)
Definition hook_fits (h : hook) : Prop :=
  hook_ranges h = true /\ match h with HOther p => pair_hook p = None /\ router_hook p = None | _ => True end.
Definition unread (b : string) : Prop :=
  from_bytes r_token_msg b = None /\ from_bytes r_pair_msg b = None /\ from_bytes r_router_msg b = None /\ from_bytes r_factory_msg b = None.
Definition msg_fits (m : jmsg) : Prop :=
  match m with
  | JSend _ _ h | JSendFrom _ _ _ h | JReceive _ _ h => hook_fits h
  | JOther b => unread b
  | _ => True
  end.

(** ** Hooks *)
Lemma r_u128_ok v n : r_u128 v = Some n -> u128_ok n = true.
Proof.
  Local Transparent r_u128. destruct v; cbn [r_u128]; try discriminate. unfold u128_parse, u128_ok. intros H. apply N.ltb_lt.
  assert (G : forall r a, a < B128 -> u128_from_dec a r = Some n -> n < B128).
  { clear. intros r. induction r as [|c r IH]; intros a Ha; cbn [u128_from_dec]; [intros E; injection E as <-; exact Ha|].
    destruct (is_digit c); [|intros X; discriminate X].
    destruct (N.ltb_spec (a * 10 + digit_val c) B128) as [Y|Y]; [|intros X; discriminate X]. apply IH, Y. }
  destruct s as [|c r]; [discriminate|]. destruct (Ascii.eqb c "+"); [destruct r; [discriminate|]|]; eapply G; try exact H; reflexivity.
Qed.
Lemma r_dec_ok v n : r_dec v = Some n -> u128_ok n = true.
Proof.
  Local Transparent r_dec. destruct v; cbn [r_dec]; try discriminate. destruct (dec_from_str s) as [d|] eqn:E; [|discriminate].
  intros X. injection X as <-. revert E. unfold dec_from_str, u128_ok.
  destruct (split_dot _) as [|w r]; [discriminate|]. destruct (u128_parse w) as [wh|]; [|discriminate].
  destruct (N.ltb_spec (wh * D18) B128); [|discriminate]. destruct r as [|f r]; [intros E; injection E as <-; apply N.ltb_lt; assumption|].
  destruct (u128_parse f) as [fr|]; [|discriminate]. destruct (_ <=? 18)%nat; [|discriminate]. cbv zeta.
  destruct (N.ltb_spec (wh * D18 + fr * 10 ^ N.of_nat (18 - String.length f)) B128); [|discriminate]. destruct r; [|discriminate].
  intros E. injection E as <-. apply N.ltb_lt. assumption.
Qed.
Lemma r_num_ok b v n : r_num b v = Some n -> (n <? b) = true.
Proof. Local Transparent r_num. destruct v; cbn [r_num]; try discriminate. destruct (n0 <? b) eqn:E; [|discriminate]. intros X. injection X as <-. exact E. Qed.
Lemma opt_ok {A} (d : json -> option A) (ok : A -> bool) g n o : (forall v a, d v = Some a -> ok a = true) ->
  opt_field g n d = Some o -> match o with Some a => ok a | None => true end = true.
Proof.
  intros H. unfold opt_field, optional. destruct (g n) as [v|]; [|intros E; injection E as <-; reflexivity].
  destruct v; cbn [obind]; try (intros E; injection E as <-; reflexivity);
    (destruct (d _) eqn:X; cbn [obind]; [|discriminate]; intros E; injection E as <-; eapply H, X).
Qed.
Local Opaque r_u128 r_dec r_num.
Lemma ou128_field g n o : opt_field g n r_u128 = Some o -> ou128_ok o = true.
Proof. apply (opt_ok r_u128 u128_ok), r_u128_ok. Qed.
Lemma odec_field g n o : opt_field g n r_dec = Some o -> ou128_ok o = true.
Proof. apply (opt_ok r_dec u128_ok), r_dec_ok. Qed.
Lemma ou64_field g n o : opt_field g n (r_num B64) = Some o -> ou64_ok o = true.
Proof. apply (opt_ok (r_num B64) u64_ok). intros v a. apply r_num_ok. Qed.
Lemma r_exp_ok v e : r_exp v = Some e -> exp_ok e = true.
Proof.
  Local Transparent r_exp. unfold r_exp, tagged. destruct v as [| | | |[|[t c] []]]; try discriminate.
  destruct (String.eqb t "at_height").
  { destruct (r_num B64 c) eqn:E; cbn [obind]; [|discriminate]. intros X. injection X as <-. exact (r_num_ok _ _ _ E). }
  destruct (String.eqb t "at_time").
  { unfold r_u64_text. destruct c; try discriminate. destruct (u128_parse s) as [k|]; cbn [obind]; [|discriminate].
    destruct (k <? B64) eqn:E; cbn [obind]; [|discriminate]. intros X. injection X as <-. exact E. }
  destruct (String.eqb t "never"); [|discriminate]. unfold struct. destruct c; try discriminate. destruct (_ && _); [|discriminate].
  intros X. injection X as <-. reflexivity.
Qed.
Local Opaque r_exp.
Lemma oexp_field g n o : opt_field g n r_exp = Some o -> oexp_ok o = true.
Proof. apply (opt_ok r_exp exp_ok), r_exp_ok. Qed.
Lemma obind_some {A B} (o : option A) (k : A -> option B) b : obind o k = Some b -> exists a, o = Some a /\ k a = Some b.
Proof. destruct o; [eauto|discriminate]. Qed.
Lemma struct_some {A} ns v (k : _ -> option A) a : struct ns v k = Some a -> exists g, k g = Some a.
Proof. unfold struct. destruct v; try discriminate. destruct (_ && _); [eauto|discriminate]. Qed.
Lemma required_some {A} g n (d : json -> option A) a : required g n d = Some a -> exists v, d v = Some a.
Proof. unfold required. destruct (g n); [eauto|discriminate]. Qed.
(** Takes a successful reader apart. *)
Ltac readers :=
  repeat match goal with
  | H : struct _ _ _ = Some _ |- _ => apply struct_some in H as [? H]
  | H : obind _ _ = Some _ |- _ => apply obind_some in H as (? & ? & H)
  | H : Some _ = Some _ |- _ => injection H as <-
  | H : required _ _ r_u128 = Some _ |- _ => apply required_some in H as [? H]; apply r_u128_ok in H
  | H : required _ _ (r_num _) = Some _ |- _ => apply required_some in H as [? H]; apply r_num_ok in H
  | H : opt_field _ _ r_u128 = Some _ |- _ => apply ou128_field in H
  | H : opt_field _ _ r_dec = Some _ |- _ => apply odec_field in H
  | H : opt_field _ _ (r_num B64) = Some _ |- _ => apply ou64_field in H
  | H : opt_field _ _ r_exp = Some _ |- _ => apply oexp_field in H
  end.
Lemma r_route_some {A} (mk : _ -> _ -> _ -> A) v a : r_route mk v = Some a -> exists ops mr to, a = mk ops mr to /\ ou128_ok mr = true.
Proof. Local Transparent r_route. unfold r_route. intros H. readers. do 3 eexists. split; [reflexivity|assumption]. Qed.
Local Opaque r_route.
Lemma r_pair_hook_some v h : r_pair_hook v = Some h ->
  hook_ranges h = true /\ (h = HWithdrawLiquidity \/ exists b m t, h = HSwap b m t).
Proof.
  unfold r_pair_hook, tagged. destruct v as [| | | |[|[t c] []]]; try discriminate.
  destruct (String.eqb t "swap"); [|destruct (String.eqb t "withdraw_liquidity"); [|discriminate]]; intros H; readers.
  - cbn [hook_ranges]. split; [apply andb_true_intro; split; assumption|right; eauto].
  - split; [reflexivity|left; reflexivity].
Qed.
Lemma r_router_hook_some v h : r_router_hook v = Some h ->
  hook_ranges h = true /\ (exists ops mr to, h = HExecuteSwapOperations ops mr to).
Proof.
  unfold r_router_hook, tagged. destruct v as [| | | |[|[t c] []]]; try discriminate.
  destruct (String.eqb t "execute_swap_operations"); [|discriminate]. intros H. apply r_route_some in H as (ops & mr & to & -> & H).
  split; [exact H|eauto].
Qed.
Lemma hook_of_fits b : hook_fits (hook_of b).
Proof.
  unfold hook_of, hook_fits. destruct (pair_hook b) as [h|] eqn:E.
  - unfold pair_hook in E. apply obind_some in E as (v & _ & E). apply r_pair_hook_some in E as [R [->|(? & ? & ? & ->)]]; auto.
  - destruct (router_hook b) as [h|] eqn:E'; [|auto]. unfold router_hook in E'. apply obind_some in E' as (v & _ & E').
    apply r_router_hook_some in E' as [R (? & ? & ? & ->)]. auto.
Qed.
Lemma hook_of_bytes h : hook_fits h -> hook_of (hook_bytes h) = h.
Proof.
  intros [R H]. unfold hook_of. rewrite pair_hook_bytes, router_hook_bytes by exact R. destruct h; try reflexivity.
  destruct H as [-> ->]. reflexivity.
Qed.
Global Opaque hook_of hook_bytes.

(** ** Decoded messages: which they are, and that their numbers fit *)
Lemma r_asset_ok v a : r_asset v = Some a -> u128_ok (a_amount a) = true.
Proof. Local Transparent r_asset. unfold r_asset. intros H. readers. assumption. Qed.
Lemma r_reqs_ok v a : r_reqs v = Some a -> reqs_ranges a = true.
Proof. Local Transparent r_reqs. unfold r_reqs, reqs_ranges. intros H. readers. cbn [first_asset_minimum second_asset_minimum]. apply andb_true_intro. split; assumption. Qed.
Lemma r_assets_ok g n a : required g n (r_two r_asset) = Some a -> u128_ok (a_amount (fst a)) && u128_ok (a_amount (snd a)) = true.
Proof.
  intros H. apply required_some in H as [v H]. unfold r_two in H. destruct v as [| | |[|x [|y []]]|]; try discriminate.
  apply obind_some in H as (p & Hp & H). apply obind_some in H as (q & Hq & H). injection H as <-.
  apply r_asset_ok in Hp, Hq. cbn [fst snd]. rewrite Hp, Hq. reflexivity.
Qed.
Local Opaque r_asset r_reqs r_two r_list.

Definition good (m : jmsg) : Prop := jmsg_ranges m = true /\ msg_fits m.
Lemma r_receive_some v m : r_receive v = Some m -> good m /\ exists s n h, m = JReceive s n h.
Proof.
  unfold r_receive. intros H. readers. split; [split; [assumption|apply hook_of_fits]|eauto].
Qed.
Ltac tag t s := destruct (String.eqb_spec t s) as [->|?].
Ltac yes := match goal with |- good _ /\ _ => split; [split; cbn [jmsg_ranges msg_fits]; unfold u8_ok, u64_ok; auto using hook_of_fits|auto] end.
Lemma r_pair_msg_some v m : r_pair_msg v = Some m ->
  good m /\ match m with JReceive _ _ _ | JProvideLiquidity _ _ _ => True | _ => False end.
Proof.
  unfold r_pair_msg, tagged. destruct v as [| | | |[|[t c] []]]; try discriminate. intros H.
  tag t "receive". { apply r_receive_some in H as [G (? & ? & ? & ->)]. auto. }
  tag t "provide_liquidity"; [|discriminate]. readers. destruct x0 as [a b].
  match goal with H : required _ _ (r_two _) = _ |- _ => apply r_assets_ok in H; cbn [fst snd] in H; rename H into Ha end.
  yes. rewrite Ha. assumption.
Qed.
Lemma r_router_msg_some v m : r_router_msg v = Some m ->
  good m /\ match m with JReceive _ _ _ | JExecuteSwapOperations _ _ _ | JExecuteSwapOperation _ _ | JAssertMinimumReceive _ _ _ _ => True | _ => False end.
Proof.
  unfold r_router_msg, tagged. destruct v as [| | | |[|[t c] []]]; try discriminate. intros H.
  tag t "receive". { apply r_receive_some in H as [G (? & ? & ? & ->)]. auto. }
  tag t "execute_swap_operations". { apply r_route_some in H as (? & ? & ? & -> & H). yes. }
  tag t "execute_swap_operation". { readers. yes. }
  tag t "assert_minimum_receive"; [|discriminate]. readers. yes. apply andb_true_intro; split; assumption.
Qed.
Lemma r_factory_msg_some v m : r_factory_msg v = Some m ->
  good m /\ match m with JUpdateConfig _ _ _ | JCreatePair _ _ | JAddNativeTokenDecimals _ _ | JMigratePair _ _ => True | _ => False end.
Proof.
  unfold r_factory_msg, tagged. destruct v as [| | | |[|[t c] []]]; try discriminate. intros H.
  tag t "update_config". { readers. yes. apply andb_true_intro; split; assumption. }
  tag t "create_pair". { readers. match goal with H : required _ _ r_reqs = _ |- _ => apply required_some in H as [? H]; apply r_reqs_ok in H end. yes. }
  tag t "add_native_token_decimals". { readers. yes. }
  tag t "migrate_pair"; [|discriminate]. readers. yes.
Qed.
Lemma r_token_msg_some v m : r_token_msg v = Some m ->
  good m /\ match m with JTransfer _ _ | JBurn _ | JSend _ _ _ | JIncreaseAllowance _ _ _ | JDecreaseAllowance _ _ _ | JTransferFrom _ _ _
    | JSendFrom _ _ _ _ | JBurnFrom _ _ | JMint _ _ | JUpdateMinter _ | JMarketing => True | _ => False end.
Proof.
  unfold r_token_msg, tagged. destruct v as [| | | |[|[t c] []]]; try discriminate. intros H.
  tag t "transfer". { readers. yes. }
  tag t "burn". { readers. yes. }
  tag t "send". { readers. yes. }
  tag t "increase_allowance". { readers. yes. apply andb_true_intro; split; assumption. }
  tag t "decrease_allowance". { readers. yes. apply andb_true_intro; split; assumption. }
  tag t "transfer_from". { readers. yes. }
  tag t "send_from". { readers. yes. }
  tag t "burn_from". { readers. yes. }
  tag t "mint". { readers. yes. }
  tag t "update_minter". { readers. yes. }
  tag t "update_marketing". { readers. yes. }
  tag t "upload_logo"; [|discriminate]. readers. yes.
Qed.

(** The tag of a message, if it has the form of one. *)
Definition tag_of (v : json) : option string := match v with VObj [(t, _)] => Some t | _ => None end.
Lemma tag_in {A} v (k : string -> json -> option A) a (names : list string) :
  (forall t c, ~ In t names -> k t c = None) -> tagged v k = Some a -> exists t, tag_of v = Some t /\ In t names.
Proof.
  intros H. unfold tagged, tag_of. destruct v as [| | | |[|[t c] []]]; try discriminate. intros E. exists t. split; [reflexivity|].
  destruct (in_dec string_dec t names) as [I|I]; [exact I|]. rewrite (H t c I) in E. discriminate.
Qed.
Definition token_tags : list string := ["transfer"; "burn"; "send"; "increase_allowance"; "decrease_allowance"; "transfer_from"; "send_from"; "burn_from";
  "mint"; "update_minter"; "update_marketing"; "upload_logo"].
Definition pair_tags : list string := ["receive"; "provide_liquidity"].
Definition router_tags : list string := ["receive"; "execute_swap_operations"; "execute_swap_operation"; "assert_minimum_receive"].
Definition factory_tags : list string := ["update_config"; "create_pair"; "add_native_token_decimals"; "migrate_pair"].
Ltac other_tags := intros t c I; repeat match goal with |- context [String.eqb t ?s] => destruct (String.eqb_spec t s) as [->|?]; [exfalso; apply I; cbn; tauto|] end; reflexivity.
Lemma token_tagged v m : r_token_msg v = Some m -> exists t, tag_of v = Some t /\ In t token_tags.
Proof. apply tag_in. other_tags. Qed.
Lemma pair_tagged v m : r_pair_msg v = Some m -> exists t, tag_of v = Some t /\ In t pair_tags.
Proof. apply tag_in. other_tags. Qed.
Lemma router_tagged v m : r_router_msg v = Some m -> exists t, tag_of v = Some t /\ In t router_tags.
Proof. apply tag_in. other_tags. Qed.
Lemma factory_tagged v m : r_factory_msg v = Some m -> exists t, tag_of v = Some t /\ In t factory_tags.
Proof. apply tag_in. other_tags. Qed.
Ltac clash := repeat match goal with H : exists t, tag_of ?v = Some t /\ _ |- _ => destruct H as (? & ? & ?) end;
  simplify_eq; cbn in *; repeat match goal with H : _ \/ _ |- _ => destruct H end; subst; try discriminate; try contradiction.
(** Only the hook message is read by two contracts, alike. *)
Lemma pair_router v m m' : r_pair_msg v = Some m -> r_router_msg v = Some m' -> m = m'.
Proof.
  intros H H'. destruct v as [| | | |[|[t c] []]]; try discriminate. cbn [r_pair_msg r_router_msg tagged] in *.
  unfold r_pair_msg, r_router_msg, tagged in *. tag t "receive"; [congruence|].
  destruct (String.eqb_spec t "provide_liquidity") as [->|]; discriminate.
Qed.

(** ** Every sequence of bytes stands for one typed message *)
Theorem C87_bytes_are_messages b :
  msg_fits (jmsg_of b) /\ jmsg_ranges (jmsg_of b) = true /\
  (forall A Q self st sender funds, pair_entry A Q self st sender funds b = pair_execute A Q self st sender funds (jmsg_of b)) /\
  (forall A Q self st sender, router_entry A Q self st sender b = router_execute A Q self st sender (jmsg_of b)) /\
  (forall A Q self st sender, factory_entry A Q self st sender b = factory_execute A Q self st sender (jmsg_of b)) /\
  (forall A blk st sender, token_entry A blk st sender b = token_execute A blk st sender (jmsg_of b)).
Proof.
  unfold jmsg_of, pair_entry, router_entry, factory_entry, token_entry.
  destruct (from_bytes r_token_msg b) as [m|] eqn:Et.
  { unfold from_bytes in *. destruct (parse b) as [v|]; [|discriminate]. cbn [obind] in *.
    pose proof (token_tagged _ _ Et) as T. apply r_token_msg_some in Et as [[R F] K].
    destruct (r_pair_msg v) eqn:Ep; [apply pair_tagged in Ep; clash|]. destruct (r_router_msg v) eqn:Er; [apply router_tagged in Er; clash|].
    destruct (r_factory_msg v) eqn:Ef; [apply factory_tagged in Ef; clash|].
    unfold pair_execute, router_execute, factory_execute. rewrite R. cbn [negb]. split; [exact F|]. split; [reflexivity|].
    destruct m; try contradiction; auto. }
  destruct (from_bytes r_pair_msg b) as [m|] eqn:Ep.
  { unfold from_bytes in *. destruct (parse b) as [v|]; [|discriminate]. cbn [obind] in *.
    pose proof (pair_tagged _ _ Ep) as T. pose proof Ep as Ep'. apply r_pair_msg_some in Ep as [[R F] K].
    destruct (r_factory_msg v) eqn:Ef; [apply factory_tagged in Ef; clash|].
    unfold token_execute, factory_execute. rewrite R. cbn [negb]. split; [exact F|]. split; [reflexivity|].
    split; [reflexivity|]. split; [|destruct m; try contradiction; auto].
    destruct (r_router_msg v) as [m'|] eqn:Er; [rewrite (pair_router _ _ _ Ep' Er); reflexivity|].
    unfold router_execute. rewrite R. cbn [negb]. destruct m; try contradiction; auto. exfalso.
    clear - Ep' Er. unfold r_pair_msg, r_router_msg, tagged in *. destruct v as [| | | |[|[t c] []]]; try discriminate.
    tag t "receive"; [congruence|]. tag t "provide_liquidity"; [|discriminate]. readers. discriminate. }
  destruct (from_bytes r_router_msg b) as [m|] eqn:Er.
  { unfold from_bytes in *. destruct (parse b) as [v|]; [|discriminate]. cbn [obind] in *.
    pose proof (router_tagged _ _ Er) as T. pose proof Er as Er'. apply r_router_msg_some in Er as [[R F] K].
    destruct (r_factory_msg v) eqn:Ef; [apply factory_tagged in Ef; clash|].
    unfold token_execute, factory_execute, pair_execute. rewrite R. cbn [negb]. split; [exact F|]. split; [reflexivity|].
    split; [|destruct m; try contradiction; auto]. destruct m; try contradiction; auto. exfalso.
    clear - Ep Er'. unfold r_pair_msg, r_router_msg, tagged in *. destruct v as [| | | |[|[t c] []]]; try discriminate.
    tag t "receive"; [congruence|]. tag t "execute_swap_operations". { apply r_route_some in Er' as (? & ? & ? & ? & ?). discriminate. }
    tag t "execute_swap_operation". { readers. discriminate. } tag t "assert_minimum_receive"; [|discriminate]. readers. discriminate. }
  destruct (from_bytes r_factory_msg b) as [m|] eqn:Ef.
  { unfold from_bytes in Ef. destruct (parse b) as [v|]; [|discriminate]. cbn [obind] in Ef.
    apply r_factory_msg_some in Ef as [[R F] K].
    unfold token_execute, router_execute, pair_execute. rewrite R. cbn [negb]. split; [exact F|]. split; [reflexivity|]. destruct m; try contradiction; auto. }
  split; [split; auto|]. auto.
Qed.

(** ** Written messages are read back *)
Ltac bring := unfold required, opt_field; cbn -[optional w_opt u128_ok ou128_ok ou64_ok oexp_ok r_two w_two];
  repeat (first [ rewrite rw_str | rewrite rw_u128 | rewrite rw_info | rewrite rw_bin | rewrite rw_ostr | rewrite rw_ou128 | rewrite rw_odec
    | rewrite rw_ou64 | rewrite rw_oexp | rewrite rw_num | rewrite rw_op | rewrite rw_infos | rewrite rw_reqs | rewrite rw_route | rewrite rw_assets
    | match goal with |- context [obind (if ?c then _ else _) _] => destruct c end ]; cbn [obind negb andb]; unfold required, opt_field;
    cbn -[optional w_opt u128_ok ou128_ok ou64_ok oexp_ok r_two w_two]).

(** How each contract reads each message *)
Lemma parse_msg m {A} (r : json -> option A) v : w_msg m = Some v -> from_bytes r (msg_bytes m) = r v.
Proof. intros H. unfold msg_bytes, from_bytes. destruct m; try discriminate; rewrite H, parse_render; reflexivity. Qed.
Definition for_token (m : jmsg) : bool :=
  match m with JTransfer _ _ | JBurn _ | JSend _ _ _ | JIncreaseAllowance _ _ _ | JDecreaseAllowance _ _ _ | JTransferFrom _ _ _
    | JSendFrom _ _ _ _ | JBurnFrom _ _ | JMint _ _ | JUpdateMinter _ | JMarketing => true | _ => false end.
Definition for_pair (m : jmsg) : bool := match m with JReceive _ _ _ | JProvideLiquidity _ _ _ => true | _ => false end.
Definition for_router (m : jmsg) : bool :=
  match m with JReceive _ _ _ | JExecuteSwapOperations _ _ _ | JExecuteSwapOperation _ _ | JAssertMinimumReceive _ _ _ _ => true | _ => false end.
Definition for_factory (m : jmsg) : bool :=
  match m with JUpdateConfig _ _ _ | JCreatePair _ _ | JAddNativeTokenDecimals _ _ | JMigratePair _ _ => true | _ => false end.


Ltac read_as r := intros F;
  match goal with |- from_bytes _ (msg_bytes ?m) = _ => destruct m end; cbn [msg_fits] in F; try apply F;
  (match goal with |- from_bytes _ (msg_bytes ?m) = _ => erewrite (parse_msg m) by reflexivity end); try reflexivity;
  cbn [for_token for_pair for_router for_factory andb jmsg_ranges]; repeat match goal with p : (_ * _)%type |- _ => destruct p end;
  unfold r, r_receive, u8_ok; bring; rewrite ?hook_of_bytes by exact F; try reflexivity.
Lemma token_reads m : msg_fits m -> from_bytes r_token_msg (msg_bytes m) = if for_token m && jmsg_ranges m then Some m else None.
Proof. read_as r_token_msg. Qed.
Lemma pair_reads m : msg_fits m -> from_bytes r_pair_msg (msg_bytes m) = if for_pair m && jmsg_ranges m then Some m else None.
Proof. read_as r_pair_msg. Qed.
Lemma router_reads m : msg_fits m -> from_bytes r_router_msg (msg_bytes m) = if for_router m && jmsg_ranges m then Some m else None.
Proof. read_as r_router_msg. Qed.
Lemma factory_reads m : msg_fits m -> from_bytes r_factory_msg (msg_bytes m) = if for_factory m && jmsg_ranges m then Some m else None.
Proof. read_as r_factory_msg. Qed.

(** A message handed to a contract as bytes has the effect that the model gives it. *)
Theorem C87_messages_survive m : msg_fits m ->
  (forall A Q self st sender funds, pair_entry A Q self st sender funds (msg_bytes m) = pair_execute A Q self st sender funds m) /\
  (forall A Q self st sender, router_entry A Q self st sender (msg_bytes m) = router_execute A Q self st sender m) /\
  (forall A Q self st sender, factory_entry A Q self st sender (msg_bytes m) = factory_execute A Q self st sender m) /\
  (forall A blk st sender, token_entry A blk st sender (msg_bytes m) = token_execute A blk st sender m).
Proof.
  intros F. unfold pair_entry, router_entry, factory_entry, token_entry.
  rewrite pair_reads, router_reads, factory_reads, token_reads by exact F.
  unfold pair_execute, router_execute, factory_execute, token_execute.
  destruct (jmsg_ranges m) eqn:R; [|rewrite !andb_false_r; auto]. rewrite !andb_true_r. cbn [negb].
  repeat split; intros; destruct m; cbn [for_pair for_router for_factory for_token]; cbn beta iota; rewrite ?R; reflexivity.
Qed.

(** Reading the bytes of a message gives the message, if some contract reads such
    messages and its numbers have their types. *)
Theorem C87_read_back m : msg_fits m -> jmsg_ranges m = true -> for_token m || for_pair m || for_router m || for_factory m = true ->
  jmsg_of (msg_bytes m) = m.
Proof.
  intros F R K. unfold jmsg_of. rewrite token_reads, pair_reads, router_reads, factory_reads by exact F. rewrite R, !andb_true_r.
  destruct (for_token m); [reflexivity|]. destruct (for_pair m); [reflexivity|]. destruct (for_router m); [reflexivity|].
  destruct (for_factory m); [reflexivity|discriminate].
Qed.

(** ** Instantiate messages *)
Definition init_entry (C : chain) (w : world) (self : string) (c : code) (sender : string) (funds : list coin) (b : string) : res (cstate * response) :=
  let read r := match from_bytes r b with Some m => init C w self c sender funds m | None => Err EParse end in
  match c with
  | CPair => read r_pair_init
  | CFactory => read r_factory_init
  | CRouter => read r_router_init
  | CToken => read r_token_init
  | CAdv _ => init C w self c sender funds (IOther b)
  end.
Definition init_fits (m : imsg) : Prop :=
  match m with
  | IOther b => from_bytes r_token_init b = None /\ from_bytes r_pair_init b = None /\ from_bytes r_router_init b = None /\ from_bytes r_factory_init b = None
  | _ => True
  end.
Lemma parse_init m {A} (r : json -> option A) v : w_init m = Some v -> from_bytes r (init_bytes m) = r v.
Proof. intros H. unfold init_bytes, from_bytes. destruct m; try discriminate; rewrite H, parse_render; reflexivity. Qed.
Lemma rw_coin c : r_coin (w_coin c) = if u128_ok (snd c) then Some c else None.
Proof. destruct c as [a n]. unfold r_coin, w_coin. cbn -[u128_ok]. rewrite rw_str, rw_u128. cbn [obind]. destruct (u128_ok n); reflexivity. Qed.
Lemma rw_coins l : r_list r_coin (w_list w_coin l) = if forallb (fun c => u128_ok (snd c)) l then Some l else None.
Proof. Local Transparent r_list w_list. apply all_some_map. intros a. apply rw_coin. Qed.
Local Opaque r_list w_list.
Lemma rw_mint o : optional r_minter (w_opt w_minter o) = if ou128_ok (get_cap o) then Some o else None.
Proof.
  rewrite rw_opt by apply w_minter_some. destruct o as [[a c]|]; [|reflexivity]. unfold r_minter, w_minter, get_cap. cbn -[ou128_ok optional w_opt].
  rewrite rw_str. cbn [obind]. unfold opt_field. cbn -[ou128_ok optional w_opt]. rewrite rw_ou128. destruct (ou128_ok c); reflexivity.
Qed.
Ltac bring_init := unfold required, opt_field; cbn -[optional w_opt r_two w_two r_list w_list r_coin w_coin w_minter r_minter u64_ok B64];
  rewrite ?rw_str, ?rw_num, ?rw_coins, ?rw_mint, ?rw_infos, ?rw_u8s, ?rw_reqs; cbn [obind].
Lemma token_init_reads m : init_fits m ->
  from_bytes r_token_init (init_bytes m) = match m with IToken t => if token_init_ranges t then Some m else None | _ => None end.
Proof.
  intros F. destruct m as [t| | | |p]; [| | | |apply F]; (match goal with |- from_bytes _ (init_bytes ?m) = _ => erewrite (parse_init m) by reflexivity end); try reflexivity.
  destruct t as [n s d b mi]. unfold r_token_init, token_init_ranges, u8_ok. bring_init. cbn [in_decimals in_balances in_mint].
  destruct (d <? 256); [|reflexivity]. cbn [obind andb]. destruct (forallb (fun r => u128_ok (snd r)) b); [|reflexivity]. cbn [obind andb]. destruct (ou128_ok (get_cap mi)); reflexivity.
Qed.
Lemma pair_init_reads m : init_fits m ->
  from_bytes r_pair_init (init_bytes m) = match m with IPair _ tc dec reqs => if u64_ok tc && u8_ok dec.1 && u8_ok dec.2 && reqs_ranges reqs then Some m else None | _ => None end.
Proof.
  intros F. destruct m as [t|i tc d r| | |p]; [| | | |apply F]; (match goal with |- from_bytes _ (init_bytes ?m) = _ => erewrite (parse_init m) by reflexivity end); try reflexivity.
  unfold r_pair_init, u64_ok. bring_init.
  destruct (tc <? B64); [|reflexivity]. cbn [obind andb]. destruct (u8_ok d.1 && u8_ok d.2); [|reflexivity]. cbn [obind andb]. destruct (reqs_ranges r); reflexivity.
Qed.
Lemma router_init_reads m : init_fits m -> from_bytes r_router_init (init_bytes m) = match m with IRouter _ => Some m | _ => None end.
Proof.
  intros F. destruct m as [t| | | |p]; [| | | |apply F]; (match goal with |- from_bytes _ (init_bytes ?m) = _ => erewrite (parse_init m) by reflexivity end); try reflexivity.
Qed.
Lemma factory_init_reads m : init_fits m ->
  from_bytes r_factory_init (init_bytes m) = match m with IFactory p t => if u64_ok p && u64_ok t then Some m else None | _ => None end.
Proof.
  intros F. destruct m as [t| |p t| |p]; [| | | |apply F]; (match goal with |- from_bytes _ (init_bytes ?m) = _ => erewrite (parse_init m) by reflexivity end); try reflexivity.
  unfold r_factory_init, u64_ok. bring_init. destruct (p <? B64); [|reflexivity]. cbn [obind andb]. destruct (t <? B64); reflexivity.
Qed.
Theorem C87_instantiate_survives C w self c sender funds m : (forall k, c <> CAdv k) -> init_fits m ->
  init_entry C w self c sender funds (init_bytes m) = init C w self c sender funds m.
Proof.
  intros Hc F. unfold init_entry. destruct c; [| | | |destruct (Hc _ eq_refl)].
  all: rewrite ?token_init_reads, ?pair_init_reads, ?router_init_reads, ?factory_init_reads by exact F; destruct m; try reflexivity; unfold init; cbn [wrap].
  - destruct (u64_ok token_code_id && u8_ok asset_decimals.1 && u8_ok asset_decimals.2 && reqs_ranges reqs) eqn:R; cbn beta iota; rewrite ?R; reflexivity.
  - unfold factory_instantiate. destruct (u64_ok pair_code_id && u64_ok token_code_id) eqn:R; cbn beta iota; rewrite ?R; reflexivity.
  - unfold token_instantiate. destruct (token_init_ranges m) eqn:R; cbn beta iota; rewrite ?R; reflexivity.
Qed.

(** ** What the contracts send is again of this kind *)
Definition out_fits (sm : submsg) : Prop :=
  match sm_msg sm with
  | MExecute _ m _ => msg_fits m
  | MInstantiate _ _ m _ _ => init_fits m
  | _ => True
  end.
Definition sends_fit (rsp : response) : Prop := List.Forall out_fits (rs_msgs rsp).
Ltac opened H :=
  lazymatch type of H with
  | rbind _ _ = Ok _ => apply rbind_ok in H as (? & ? & H); opened H
  | Err _ = Ok _ => discriminate H
  | panic _ = Ok _ => discriminate H
  | Ok _ = Ok _ => injection H as <- <-
  | (match ?x with _ => _ end) = Ok _ => destruct x eqn:?; opened H
  | _ => idtac
  end.
Lemma into_msg_fits a to : out_fits (plain (into_msg a to)).
Proof. unfold out_fits, into_msg. destruct (a_info a); cbn; auto. Qed.
Ltac fits := unfold sends_fit; cbn [rs_msgs map]; repeat match goal with |- List.Forall _ (if ?c then _ else _) => destruct c end;
  repeat (apply List.Forall_cons || apply List.Forall_nil); try apply into_msg_fits; unfold out_fits; cbn; auto.
Lemma token_sends_fit A blk st sender m st' rsp : msg_fits m -> token_execute A blk st sender m = Ok (st', rsp) -> sends_fit rsp.
Proof.
  intros F H. unfold token_execute in H. destruct (jmsg_ranges m); [|discriminate]. cbn [negb] in H.
  destruct m; try discriminate; cbn [msg_fits] in F.
  - unfold token_transfer in H. opened H; fits.
  - unfold token_burn in H. opened H; fits.
  - unfold token_send in H. opened H; fits.
  - unfold token_increase in H. opened H; fits.
  - unfold token_decrease in H. opened H; fits.
  - unfold token_transfer_from in H. opened H; fits.
  - unfold token_send_from in H. opened H; fits.
  - unfold token_burn_from in H. opened H; fits.
  - unfold token_mint in H. opened H; fits.
  - unfold token_update_minter in H. opened H; fits.
Qed.
Lemma pull_fits self sender pool d ms p : pull_deposit self sender pool d = Ok (ms, p) -> List.Forall out_fits (map plain ms).
Proof. intros H. unfold pull_deposit in H. opened H; cbn; repeat constructor. Qed.
Lemma pair_sends_fit A Q self st sender funds m st' rsp : pair_execute A Q self st sender funds m = Ok (st', rsp) -> sends_fit rsp.
Proof.
  intros H. unfold pair_execute in H. destruct (jmsg_ranges m); [|discriminate]. cbn [negb] in H. destruct m; try discriminate.
  - unfold pair_receive in H. destruct (hook_ranges msg); [|discriminate]. cbn [negb] in H. destruct msg; try discriminate.
    + opened H. unfold swap in H. opened H; fits.
    + opened H. unfold withdraw_liquidity in H. opened H; fits.
  - unfold provide_liquidity in H. opened H. unfold sends_fit. cbn [rs_msgs].
    repeat match goal with X : pull_deposit _ _ _ _ = Ok (_, _) |- _ => apply pull_fits in X end.
    rewrite !List.map_app. apply List.Forall_app. split; [assumption|]. apply List.Forall_app. split; [assumption|]. fits.
Qed.
Lemma op_messages_fit self to ops : List.Forall out_fits (map plain (op_messages self to ops)).
Proof. induction ops as [|o [|o' r] IH]; [constructor|constructor; [exact I|constructor]|]. cbn [op_messages map]. constructor; [exact I|exact IH]. Qed.
Lemma router_sends_fit A Q self st sender m st' rsp : router_execute A Q self st sender m = Ok (st', rsp) -> sends_fit rsp.
Proof.
  assert (G : forall s ops mr to, execute_swap_operations A Q self st s ops mr to = Ok (st', rsp) -> sends_fit rsp).
  { intros s ops mr to H. unfold execute_swap_operations in H. opened H; unfold sends_fit; cbn [rs_msgs]; [|apply op_messages_fit].
    rewrite List.map_app. apply List.Forall_app. split; [apply op_messages_fit|]. fits. }
  intros H. unfold router_execute in H. destruct (jmsg_ranges m); [|discriminate]. cbn [negb] in H. destruct m; try discriminate.
  - unfold router_receive in H. apply rbind_ok in H as (? & ? & H). destruct (hook_ranges msg); [|discriminate]. cbn [negb] in H. destruct msg; try discriminate.
    apply rbind_ok in H as (? & ? & H). exact (G _ _ _ _ H).
  - apply rbind_ok in H as (? & ? & H). exact (G _ _ _ _ H).
  - unfold execute_swap_operation in H. opened H; fits; unfold asset_into_swap_msg; cbn [a_info]; destruct (op_offer op); cbn; auto; split; auto.
  - unfold assert_minimum_receive in H. opened H; fits.
Qed.
Lemma factory_sends_fit A Q self st sender m st' rsp : factory_execute A Q self st sender m = Ok (st', rsp) -> sends_fit rsp.
Proof.
  intros H. unfold factory_execute in H. destruct (jmsg_ranges m); [|discriminate]. cbn [negb] in H. destruct m; try discriminate.
  - unfold update_config in H. opened H; fits.
  - unfold create_pair in H. opened H; fits.
  - unfold add_native in H. opened H; fits.
  - unfold migrate_pair in H. opened H; fits.
Qed.
Theorem C87_sent_messages_fit :
  (forall A Q self st sender funds m st' rsp, pair_execute A Q self st sender funds m = Ok (st', rsp) -> sends_fit rsp) /\
  (forall A Q self st sender m st' rsp, router_execute A Q self st sender m = Ok (st', rsp) -> sends_fit rsp) /\
  (forall A Q self st sender m st' rsp, factory_execute A Q self st sender m = Ok (st', rsp) -> sends_fit rsp) /\
  (forall A blk st sender m st' rsp, msg_fits m -> token_execute A blk st sender m = Ok (st', rsp) -> sends_fit rsp) /\
  (forall C w self c sender funds m st' rsp, (forall k, c <> CAdv k) -> init C w self c sender funds m = Ok (st', rsp) -> sends_fit rsp) /\
  (forall C w self s id ok r st' rsp, (forall k n, s <> SAdv k n) -> reply C w self s id ok r = Ok (st', rsp) -> sends_fit rsp).
Proof.
  split; [exact pair_sends_fit|]. split; [exact router_sends_fit|]. split; [exact factory_sends_fit|]. split; [exact token_sends_fit|]. split.
  - intros C w self c sender funds m st' rsp Hc H. unfold init in H.
    destruct c; [| | | |destruct (Hc _ eq_refl)]; destruct m; try discriminate; unfold wrap in H.
    + destruct (u64_ok _ && _ && _ && _); [|discriminate]. unfold pair_instantiate in H. opened H. 
      match goal with X : _ = Ok (_, _) |- _ => opened X end. fits.
    + opened H. match goal with X : factory_instantiate _ _ _ _ = Ok _ |- _ => unfold factory_instantiate in X; opened X end. fits.
    + opened H. match goal with X : router_instantiate _ _ = Ok _ |- _ => unfold router_instantiate in X; opened X end. fits.
    + opened H. match goal with X : token_instantiate _ _ = Ok _ |- _ => unfold token_instantiate in X; opened X end. fits.
  - intros C w self s id ok r st' rsp Hs H. unfold reply in H. destruct s; try discriminate; unfold wrap in H.
    + destruct r; [|discriminate]. opened H. match goal with X : pair_reply _ _ _ = Ok _ |- _ => unfold pair_reply in X; opened X end. fits.
    + destruct r; [|discriminate]. opened H. match goal with X : factory_reply _ _ _ _ = Ok _ |- _ => unfold factory_reply in X; opened X end. fits.
    + destruct (Hs _ _ eq_refl).
Qed.

(** ** The texts themselves: every message of the four contracts, written and read *)
Definition texts : list (jmsg * string) := [
  (JTransfer "bob" 5,
   "{""transfer"":{""recipient"":""bob"",""amount"":""5""}}");
  (JBurn 5,
   "{""burn"":{""amount"":""5""}}");
  (JSend "#4" 100 (HSwap (Some (5 * 10 ^ 17)) None (Some "bob")),
   "{""send"":{""contract"":""#4"",""amount"":""100"",""msg"":""eyJzd2FwIjp7ImJlbGllZl9wcmljZSI6IjAuNSIsIm1heF9zcHJlYWQiOm51bGwsInRvIjoiYm9iIn19""}}");
  (JSend "#4" 100 HWithdrawLiquidity,
   "{""send"":{""contract"":""#4"",""amount"":""100"",""msg"":""eyJ3aXRoZHJhd19saXF1aWRpdHkiOnt9fQ==""}}");
  (JIncreaseAllowance "#4" 7 None,
   "{""increase_allowance"":{""spender"":""#4"",""amount"":""7"",""expires"":null}}");
  (JIncreaseAllowance "#4" 7 (Some (EAtHeight 12)),
   "{""increase_allowance"":{""spender"":""#4"",""amount"":""7"",""expires"":{""at_height"":12}}}");
  (JDecreaseAllowance "#4" 7 (Some (EAtTime 12)),
   "{""decrease_allowance"":{""spender"":""#4"",""amount"":""7"",""expires"":{""at_time"":""12""}}}");
  (JDecreaseAllowance "#4" 7 (Some ENever),
   "{""decrease_allowance"":{""spender"":""#4"",""amount"":""7"",""expires"":{""never"":{}}}}");
  (JTransferFrom "alice" "bob" 5,
   "{""transfer_from"":{""owner"":""alice"",""recipient"":""bob"",""amount"":""5""}}");
  (JSendFrom "alice" "#3" 5 (HExecuteSwapOperations [HaloSwap (Native "uaura") (Token "#1")] (Some 3) None),
   "{""send_from"":{""owner"":""alice"",""contract"":""#3"",""amount"":""5"",""msg"":""eyJleGVjdXRlX3N3YXBfb3BlcmF0aW9ucyI6eyJvcGVyYXRpb25zIjpbeyJoYWxvX3N3YXAiOnsib2ZmZXJfYXNzZXRfaW5mbyI6eyJuYXRpdmVfdG9rZW4iOnsiZGVub20iOiJ1YXVyYSJ9fSwiYXNrX2Fzc2V0X2luZm8iOnsidG9rZW4iOnsiY29udHJhY3RfYWRkciI6IiMxIn19fX1dLCJtaW5pbXVtX3JlY2VpdmUiOiIzIiwidG8iOm51bGx9fQ==""}}");
  (JBurnFrom "alice" 5,
   "{""burn_from"":{""owner"":""alice"",""amount"":""5""}}");
  (JMint "bob" 340282366920938463463374607431768211455,
   "{""mint"":{""recipient"":""bob"",""amount"":""340282366920938463463374607431768211455""}}");
  (JUpdateMinter None,
   "{""update_minter"":{""new_minter"":null}}");
  (JReceive "alice" 100 HWithdrawLiquidity,
   "{""receive"":{""sender"":""alice"",""amount"":""100"",""msg"":""eyJ3aXRoZHJhd19saXF1aWRpdHkiOnt9fQ==""}}");
  (JProvideLiquidity (Asset (Token "#1") 10, Asset (Native "uaura") 20) (Some (10 ^ 16)) None,
   "{""provide_liquidity"":{""assets"":[{""info"":{""token"":{""contract_addr"":""#1""}},""amount"":""10""},{""info"":{""native_token"":{""denom"":""uaura""}},""amount"":""20""}],""slippage_tolerance"":""0.01"",""receiver"":null}}");
  (JExecuteSwapOperations [HaloSwap (Native "uaura") (Token "#1")] None (Some "bob"),
   "{""execute_swap_operations"":{""operations"":[{""halo_swap"":{""offer_asset_info"":{""native_token"":{""denom"":""uaura""}},""ask_asset_info"":{""token"":{""contract_addr"":""#1""}}}}],""minimum_receive"":null,""to"":""bob""}}");
  (JExecuteSwapOperation (HaloSwap (Native "uaura") (Token "#1")) (Some "bob"),
   "{""execute_swap_operation"":{""operation"":{""halo_swap"":{""offer_asset_info"":{""native_token"":{""denom"":""uaura""}},""ask_asset_info"":{""token"":{""contract_addr"":""#1""}}}},""to"":""bob""}}");
  (JAssertMinimumReceive (Token "#1") 4 3 "bob",
   "{""assert_minimum_receive"":{""asset_info"":{""token"":{""contract_addr"":""#1""}},""prev_balance"":""4"",""minimum_receive"":""3"",""receiver"":""bob""}}");
  (JUpdateConfig (Some "bob") None (Some 3),
   "{""update_config"":{""owner"":""bob"",""token_code_id"":null,""pair_code_id"":3}}");
  (JCreatePair (Token "#1", Native "uaura") (Requirements ["alice"] 1 2),
   "{""create_pair"":{""asset_infos"":[{""token"":{""contract_addr"":""#1""}},{""native_token"":{""denom"":""uaura""}}],""requirements"":{""whitelist"":[""alice""],""first_asset_minimum"":""1"",""second_asset_minimum"":""2""}}}");
  (JAddNativeTokenDecimals "uaura" 6,
   "{""add_native_token_decimals"":{""denom"":""uaura"",""decimals"":6}}");
  (JMigratePair "#4" None,
   "{""migrate_pair"":{""contract"":""#4"",""code_id"":null}}")].
Example C87_case_texts : map (fun p => msg_bytes (fst p)) texts = map snd texts /\ map (fun p => jmsg_of (snd p)) texts = map fst texts.
Proof. Local Transparent hook_bytes hook_of w_route r_route w_reqs r_reqs w_op r_op w_asset r_asset w_exp r_exp r_list w_list w_info r_info w_u128 r_u128 w_dec r_dec w_bin r_bin w_num r_num w_str r_str r_two.
  split; vm_compute; reflexivity. Qed.
(** Other ways to write a message: fields in another order, white space, optional
    fields left out, a plus sign and leading zeros. *)
Example C87_case_variants :
  jmsg_of "
 { ""transfer"" : {""amount"": ""+005"", ""recipient"":""b\u006fb""} } " = JTransfer "bob" 5 /\
  jmsg_of "{""send"":{""contract"":""#4"",""amount"":""100"",""msg"":""eyJzd2FwIjp7fX0=""}}" = JSend "#4" 100 (HSwap None None None) /\
  jmsg_of "{""migrate_pair"":{""contract"":""#4""}}" = JMigratePair "#4" None.
Proof. do 2 (split; [vm_compute; reflexivity|]). vm_compute; reflexivity. Qed.
(** Refused by all four contracts: an amount that is not a string, that is negative or
    too large; an unknown field; a missing field; a repeated field; two tags; the
    tag that the router uses for native coins. *)
Definition unread_b (b : string) : bool :=
  match from_bytes r_token_msg b, from_bytes r_pair_msg b, from_bytes r_router_msg b, from_bytes r_factory_msg b with None, None, None, None => true | _, _, _, _ => false end.
Lemma unread_all l : forallb unread_b l = true -> List.Forall unread l.
Proof.
  intros H. apply List.Forall_forall. intros b I. apply (proj1 (forallb_forall _ _) H) in I. unfold unread_b in I. unfold unread.
  destruct (from_bytes r_token_msg b), (from_bytes r_pair_msg b), (from_bytes r_router_msg b), (from_bytes r_factory_msg b); try discriminate. auto.
Qed.
Example C87_case_refused : List.Forall unread [
  "{""transfer"":{""recipient"":""bob"",""amount"":5}}";
  "{""transfer"":{""recipient"":""bob"",""amount"":""-5""}}";
  "{""transfer"":{""recipient"":""bob"",""amount"":""340282366920938463463374607431768211456""}}";
  "{""transfer"":{""recipient"":""bob"",""amount"":""5"",""memo"":""""}}";
  "{""transfer"":{""recipient"":""bob""}}";
  "{""transfer"":{""recipient"":""bob"",""amount"":""5"",""amount"":""6""}}";
  "{""transfer"":{""recipient"":""bob"",""amount"":""5""},""burn"":{""amount"":""5""}}";
  "{""burn"":{""amount"":""5""}}}";
  "{""add_native_token_decimals"":{""denom"":""uaura"",""decimals"":256}}";
  "{""swap"":{""belief_price"":null,""max_spread"":null,""to"":null}}";
  "{}";
  ""].
Proof. apply unread_all. vm_compute. reflexivity. Qed.
(** The bytes of a withdrawal, given to a token and passed on to a pair. *)
Example C87_case_send :
  match token_entry ex_api (Block 1 1) (TokenState "halo liquidity token" "uLP" 6 10 None {["alice" := 10]} ∅) "alice"
    (msg_bytes (JSend "#4" 7 HWithdrawLiquidity)) with
  | Ok (_, rsp) => map (fun s => match sm_msg s with MExecute c m _ => (c, msg_bytes m) | _ => ("", "")%string end) (rs_msgs rsp)
  | Err _ => []
  end = [("#4", "{""receive"":{""sender"":""alice"",""amount"":""7"",""msg"":""eyJ3aXRoZHJhd19saXF1aWRpdHkiOnt9fQ==""}}")].
Proof. vm_compute. reflexivity. Qed.
Example C87_case_init :
  init_bytes (IToken (TokenInit "halo liquidity token" "uLP" 6 [] (Some ("#4", None)))) =
    "{""name"":""halo liquidity token"",""symbol"":""uLP"",""decimals"":6,""initial_balances"":[],""mint"":{""minter"":""#4"",""cap"":null}}" /\
  init_bytes (IPair (Token "#1", Native "uaura") 4 (6, 6) (Requirements [] 0 0)) =
    "{""asset_infos"":[{""token"":{""contract_addr"":""#1""}},{""native_token"":{""denom"":""uaura""}}],""token_code_id"":4,""asset_decimals"":[6,6],""requirements"":{""whitelist"":[],""first_asset_minimum"":""0"",""second_asset_minimum"":""0""}}" /\
  from_bytes r_factory_init "{""pair_code_id"":3,""token_code_id"":4}" = Some (IFactory 3 4) /\
  from_bytes r_router_init "{""halo_factory"":""#0""}" = Some (IRouter "#0").
Proof. do 3 (split; [vm_compute; reflexivity|]). vm_compute; reflexivity. Qed.
