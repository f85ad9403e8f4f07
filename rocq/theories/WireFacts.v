(** Reading back the JSON of the message types. *)
From Verif Require Import Base BigNumber BigNumberFacts CwStd Asset Messages PairMath Token Json JsonFacts Wire.
From Coq Require Import Ascii String.
Local Open Scope N_scope.

(** ** Numbers as text, also beyond the range *)
Lemma text_u128 n : u128_parse (dec_to_string n) = if n <? B128 then Some n else None.
Proof.
  rewrite u128_parse_digits by (auto using dec_to_string_digits, dec_to_string_nonempty). rewrite dec_to_string_value. reflexivity.
Qed.
Lemma text_dec d : dec_from_str (dec_display d) = Ok d \/ (exists e, dec_from_str (dec_display d) = Err e) /\ B128 <= d.
Proof.
  destruct (N.ltb_spec d B128) as [H|H]; [left; apply dec_text_roundtrip, H|]. right. split; [|exact H].
  unfold dec_display, d256_to_string. destruct (N.eqb_spec (d mod D18) 0) as [E|E].
  - unfold dec_from_str. rewrite split_dot_digits by apply dec_to_string_digits. rewrite text_u128.
    destruct (d / D18 <? B128); [|eauto].
    destruct (N.ltb_spec (d / D18 * D18) B128) as [X|X]; [|eauto]. exfalso. unfold D18 in *. lia.
  - assert (Hfl : d mod D18 < D18) by (apply N.mod_lt; discriminate).
    destruct (frac_text (d mod D18)) as (T1 & T2 & T3 & T4); [lia|assumption|].
    set (t := trim_end0 _) in *.
    unfold dec_from_str. rewrite split_dot_app by apply dec_to_string_digits. rewrite split_dot_digits by assumption. rewrite text_u128.
    destruct (d / D18 <? B128); [|eauto]. destruct (N.ltb_spec (d / D18 * D18) B128) as [X|X]; [|eauto].
    rewrite u128_parse_digits by assumption. destruct (dec_value t <? B128); [|eauto].
    destruct (String.length t <=? 18)%nat; [|eauto]. rewrite T4. cbv zeta.
    assert (Hs : d / D18 * D18 + d mod D18 = d) by (unfold D18; lia). rewrite Hs.
    destruct (N.ltb_spec d B128); [lia|eauto].
Qed.

(** ** Fields *)
Lemma rw_str s : r_str (w_str s) = Some s. Proof. reflexivity. Qed.
Lemma rw_u128 n : r_u128 (w_u128 n) = if u128_ok n then Some n else None. Proof. apply text_u128. Qed.
Lemma rw_num b n : r_num b (w_num n) = if n <? b then Some n else None. Proof. reflexivity. Qed.
Lemma rw_dec d : r_dec (w_dec d) = if u128_ok d then Some d else None.
Proof.
  unfold r_dec, w_dec, u128_ok. destruct (N.ltb_spec d B128) as [H|H].
  - unfold dec_display. rewrite dec_text_roundtrip by exact H. reflexivity.
  - destruct (text_dec d) as [E|[[e E] _]]; [|rewrite E; reflexivity].
    exfalso. destruct (text_dec d) as [E'|[[e E'] _]]; [|congruence].
    revert E. unfold dec_display, d256_to_string, dec_from_str. clear E'. intros E.
    destruct (split_dot _) as [|w r]; [discriminate|]. destruct (u128_parse w) as [wh|]; [|discriminate].
    destruct (N.ltb_spec (wh * D18) B128); [|discriminate]. destruct r as [|f r]; [injection E as <-; lia|].
    destruct (u128_parse f) as [fr|]; [|discriminate]. destruct (_ <=? 18)%nat; [|discriminate]. cbv zeta in E.
    destruct (N.ltb_spec (wh * D18 + fr * 10 ^ N.of_nat (18 - String.length f)) B128); [|discriminate]. destruct r; [|discriminate].
    injection E as <-. lia.
Qed.
Lemma rw_bin b : r_bin (w_bin b) = Some b. Proof. apply b64_roundtrip. Qed.
Lemma rw_time n : r_u64_text (VStr (dec_to_string n)) = if u64_ok n then Some n else None.
Proof.
  unfold r_u64_text, u64_ok. rewrite text_u128. destruct (N.ltb_spec n B128) as [H|H]; [reflexivity|].
  destruct (N.ltb_spec n B64) as [H'|]; [|reflexivity]. unfold B64, B128 in *. lia.
Qed.
Lemma rw_info i : r_info (w_info i) = Some i. Proof. destruct i; reflexivity. Qed.
Global Opaque w_info r_info w_u128 r_u128 w_dec r_dec w_bin r_bin w_num r_num w_str r_str.

Lemma rw_opt {A} (e : A -> json) (d : json -> option A) o : (forall a, e a <> VNull) ->
  optional d (w_opt e o) = match o with Some a => match d (e a) with Some x => Some (Some x) | None => None end | None => Some None end.
Proof. intros H. destruct o as [a|]; [|reflexivity]. cbn [w_opt]. unfold optional. specialize (H a). destruct (e a); try reflexivity. congruence. Qed.
Lemma all_some_map {A B} (e : A -> B) (d : B -> option A) (ok : A -> bool) l : (forall a, d (e a) = if ok a then Some a else None) ->
  all_some d (map e l) = if forallb ok l then Some l else None.
Proof.
  intros H. induction l as [|a l IH]; [reflexivity|]. cbn [map all_some forallb]. rewrite H. destruct (ok a); [|reflexivity].
  cbn [obind andb]. rewrite IH. destruct (forallb ok l); reflexivity.
Qed.
Lemma all_some_id {A B} (e : A -> B) (d : B -> option A) l : (forall a, d (e a) = Some a) -> all_some d (map e l) = Some l.
Proof. intros H. induction l as [|a l IH]; [reflexivity|]. cbn [map all_some]. rewrite H. cbn [obind]. rewrite IH. reflexivity. Qed.
Lemma rw_two_id {A} (e : A -> json) (d : json -> option A) p : (forall a, d (e a) = Some a) -> r_two d (w_two e p) = Some p.
Proof. intros H. destruct p as [a b]. unfold r_two, w_two. cbn [fst snd]. rewrite !H. reflexivity. Qed.
Lemma rw_strs l : r_list r_str (w_list w_str l) = Some l. Proof. apply all_some_id, rw_str. Qed.

Lemma w_str_some s : w_str s <> VNull. Proof. Local Transparent w_str. discriminate. Qed.
Lemma w_u128_some n : w_u128 n <> VNull. Proof. Local Transparent w_u128. discriminate. Qed.
Lemma w_dec_some n : w_dec n <> VNull. Proof. Local Transparent w_dec. discriminate. Qed.
Lemma w_num_some n : w_num n <> VNull. Proof. Local Transparent w_num. discriminate. Qed.
Lemma w_exp_some n : w_exp n <> VNull. Proof. destruct n; discriminate. Qed.
Lemma w_minter_some n : w_minter n <> VNull. Proof. discriminate. Qed.
Local Opaque w_str w_u128 w_dec w_num.
Lemma rw_ostr o : optional r_str (w_opt w_str o) = Some o.
Proof. rewrite rw_opt by apply w_str_some. destruct o; [rewrite rw_str|]; reflexivity. Qed.
Lemma rw_ou128 o : optional r_u128 (w_opt w_u128 o) = if ou128_ok o then Some o else None.
Proof. rewrite rw_opt by apply w_u128_some. destruct o; [rewrite rw_u128; cbn [ou128_ok]; destruct (u128_ok _)|]; reflexivity. Qed.
Lemma rw_odec o : optional r_dec (w_opt w_dec o) = if ou128_ok o then Some o else None.
Proof. rewrite rw_opt by apply w_dec_some. destruct o; [rewrite rw_dec; cbn [ou128_ok]; destruct (u128_ok _)|]; reflexivity. Qed.
Lemma rw_ou64 o : optional (r_num B64) (w_opt w_num o) = if ou64_ok o then Some o else None.
Proof. rewrite rw_opt by apply w_num_some. destruct o; [rewrite rw_num; cbn [ou64_ok]; unfold u64_ok; destruct (_ <? _)|]; reflexivity. Qed.
Lemma rw_exp e : r_exp (w_exp e) = if exp_ok e then Some e else None.
Proof.
  destruct e as [|h|t]; [reflexivity| |].
  - change (r_exp (w_exp (EAtHeight h))) with (obind (r_num B64 (w_num h)) (fun x => Some (EAtHeight x))).
    rewrite rw_num. cbn [exp_ok]. unfold u64_ok. destruct (_ <? _); reflexivity.
  - change (r_exp (w_exp (EAtTime t))) with (obind (r_u64_text (VStr (dec_to_string t))) (fun x => Some (EAtTime x))).
    rewrite rw_time. cbn [exp_ok]. destruct (u64_ok t); reflexivity.
Qed.
Lemma rw_oexp o : optional r_exp (w_opt w_exp o) = if oexp_ok o then Some o else None.
Proof. rewrite rw_opt by apply w_exp_some. destruct o; [rewrite rw_exp; cbn [oexp_ok]; destruct (exp_ok _)|]; reflexivity. Qed.

Lemma rw_asset a : r_asset (w_asset a) = if u128_ok (a_amount a) then Some a else None.
Proof.
  destruct a as [i n]. cbn -[u128_ok]. rewrite rw_info. cbn [obind]. rewrite rw_u128. destruct (u128_ok n); reflexivity.
Qed.
Lemma rw_assets a b : r_two r_asset (w_two w_asset (a, b)) = if u128_ok (a_amount a) && u128_ok (a_amount b) then Some (a, b) else None.
Proof.
  unfold r_two, w_two. cbn [fst snd]. rewrite !rw_asset. destruct (u128_ok (a_amount a)); [|reflexivity]. cbn [obind andb].
  destruct (u128_ok (a_amount b)); reflexivity.
Qed.
Lemma rw_infos p : r_two r_info (w_two w_info p) = Some p. Proof. apply rw_two_id, rw_info. Qed.
Lemma rw_u8s p : r_two (r_num 256) (w_two w_num p) = if u8_ok (fst p) && u8_ok (snd p) then Some p else None.
Proof.
  destruct p as [a b]. unfold r_two, w_two, u8_ok. cbn [fst snd]. rewrite !rw_num. destruct (a <? 256); [|reflexivity]. cbn [obind andb].
  destruct (b <? 256); reflexivity.
Qed.
Lemma rw_reqs r : r_reqs (w_reqs r) = if reqs_ranges r then Some r else None.
Proof.
  destruct r as [l a b]. unfold reqs_ranges. cbn -[u128_ok r_list w_list]. rewrite rw_strs. cbn [obind]. rewrite !rw_u128.
  destruct (u128_ok a); [|reflexivity]. cbn [obind andb]. destruct (u128_ok b); reflexivity.
Qed.
Lemma rw_op o : r_op (w_op o) = Some o.
Proof. destruct o as [a b]. cbn. rewrite !rw_info. reflexivity. Qed.
Lemma rw_ops l : r_list r_op (w_list w_op l) = Some l. Proof. apply all_some_id, rw_op. Qed.
Lemma rw_route {A} (mk : _ -> _ -> _ -> A) ops mr to : r_route mk (w_route ops mr to) = if ou128_ok mr then Some (mk ops mr to) else None.
Proof.
  unfold r_route, w_route. cbn -[r_list w_list optional w_opt ou128_ok]. rewrite rw_ops. cbn [obind]. unfold opt_field. cbn -[optional w_opt ou128_ok].
  rewrite rw_ou128. destruct (ou128_ok mr); [|reflexivity]. cbn [obind]. rewrite rw_ostr. reflexivity.
Qed.
Lemma rw_pair_info p : r_pair_info (w_pair_info p) = if u8_ok (fst (p_asset_decimals p)) && u8_ok (snd (p_asset_decimals p)) && reqs_ranges (p_requirements p) then Some p else None.
Proof.
  destruct p as [i c l d r]. unfold r_pair_info, w_pair_info. cbn -[r_two w_two r_reqs w_reqs u8_ok reqs_ranges]. rewrite rw_infos. cbn [obind]. rewrite rw_u8s, rw_reqs.
  rewrite !rw_str. cbn [obind].
  destruct (u8_ok (fst d) && u8_ok (snd d)); [|reflexivity]. cbn [obind andb]. destruct (reqs_ranges r); reflexivity.
Qed.
Global Opaque w_route r_route w_reqs r_reqs w_op r_op w_asset r_asset w_exp r_exp r_list w_list.

(** ** Hooks *)
Lemma pair_hook_bytes h : hook_ranges h = true ->
  pair_hook (hook_bytes h) = match h with HSwap _ _ _ | HWithdrawLiquidity => Some h | HExecuteSwapOperations _ _ _ => None | HOther p => pair_hook p end.
Proof.
  unfold pair_hook, hook_bytes. destruct h as [b m t| |ops mr to|p]; cbn [w_hook hook_ranges]; intros H; [| | |reflexivity]; rewrite parse_render; cbn [obind].
  - apply andb_prop in H as [H1 H2]. cbn -[optional w_opt ou128_ok]. unfold opt_field. cbn -[optional w_opt ou128_ok].
    rewrite !rw_odec, H1, H2. cbn [obind]. rewrite rw_ostr. reflexivity.
  - reflexivity.
  - reflexivity.
Qed.
Lemma router_hook_bytes h : hook_ranges h = true ->
  router_hook (hook_bytes h) = match h with HSwap _ _ _ | HWithdrawLiquidity => None | HExecuteSwapOperations _ _ _ => Some h | HOther p => router_hook p end.
Proof.
  unfold router_hook, hook_bytes. destruct h as [b m t| |ops mr to|p]; cbn [w_hook hook_ranges]; intros H; [| | |reflexivity]; rewrite parse_render; cbn [obind].
  - reflexivity.
  - reflexivity.
  - cbn -[ou128_ok]. rewrite rw_route, H. reflexivity.
Qed.
