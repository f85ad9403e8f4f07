(** A token is exactly an abstract account book (C85); allowances follow the log
    exactly (C50) and a token without a minter never grows (C51). *)
From Verif Require Import Base BigNumber CwStd BigNumberFacts Asset Messages PairMath Pair PairFacts Token Factory Router
  SwapFacts SwapFacts2 P_Swap P_Pair FactoryFacts P_Factory P_Router TokenFacts World WorldInd WorldFacts WorldInv WorldInd2
  Examples WorldExamples P_Ledger P_Registry ExecFacts P_Exec P_Token Replay P_TokenHistory P_Cw20 TokenQueries.
From Coq Require Import ZifyN.
Local Open Scope N_scope.
Ltac Zify.zify_post_hook ::= idtac.

(** ** The abstract book *)

(** Who has how much, how much there is, who may spend how much of whose tokens
    until when, who may mint and up to which total. *)
Record book := Book {
  b_balance : string -> N;
  b_supply : N;
  b_allowed : string -> string -> option (N * expiration);
  b_minter : option (string * option N) }.

Definition put (f : string -> N) (x : string) (v : N) : string -> N := fun y => if decide (y = x) then v else f y.
Definition give (f : string -> N) (from to : string) (n : N) : string -> N :=
  let g := put f from (f from - n) in put g to (g to + n).
Definition allow (f : string -> string -> option (N * expiration)) (o x : string) (v : option (N * expiration)) :
  string -> string -> option (N * expiration) := fun o' x' => if decide (o' = o /\ x' = x) then v else f o' x'.
(** [x] uses [n] of what [o] allowed. *)
Definition use (K : book) (o x : string) (n : N) : string -> string -> option (N * expiration) :=
  allow (b_allowed K) o x (match b_allowed K o x with Some (v, e) => Some (v - n, e) | None => None end).

(** The entry a call [m] by [s] makes. *)
Definition entry (K : book) (s : string) (m : jmsg) : book :=
  let 'Book B U P M := K in
  match m with
  | JTransfer r n | JSend r n _ => Book (give B s r n) U P M
  | JTransferFrom o r n | JSendFrom o r n _ => Book (give B o r n) U (use K o s n) M
  | JBurn n => Book (put B s (B s - n)) (U - n) P M
  | JBurnFrom o n => Book (put B o (B o - n)) (U - n) (use K o s n) M
  | JMint r n => Book (put B r (B r + n)) (U + n) P M
  | JIncreaseAllowance x n e =>
      Book B U (allow P s x (Some (match P s x with Some (v, old) => (v + n, default old e) | None => (n, default ENever e) end))) M
  | JDecreaseAllowance x n e =>
      Book B U (allow P s x (match P s x with
                             | Some (v, old) => if n <? v then Some (v - n, default old e) else None
                             | None => None end)) M
  | JUpdateMinter new => Book B U P (match new, M with Some a, Some (_, cap) => Some (a, cap) | _, _ => None end)
  | _ => K
  end.

(** When that call is in order at block [b]. *)
Definition covers (b : blockinfo) (K : book) (o x : string) (n : N) : Prop :=
  (exists v e, b_allowed K o x = Some (v, e) /\ pending b e /\ n <= v) /\ n <= b_balance K o.
Definition in_order_now (A : api) (b : blockinfo) (K : book) (s : string) (m : jmsg) : Prop :=
  match m with
  | JTransfer r n | JSend r n _ => 0 < n /\ n <= b_balance K s /\ norm A r = Some r
  | JBurn n => 0 < n /\ n <= b_balance K s
  | JMint r n => 0 < n /\ norm A r = Some r /\ b_supply K + n < 2 ^ 128 /\
      exists cap, b_minter K = Some (s, cap) /\ forall c, cap = Some c -> b_supply K + n <= c
  | JTransferFrom o r n | JSendFrom o r n _ => norm A o = Some o /\ norm A r = Some r /\ covers b K o s n
  | JBurnFrom o n => norm A o = Some o /\ covers b K o s n
  | JIncreaseAllowance x n e => (forall y, e = Some y -> spellable y) /\ norm A x = Some x /\ x <> s /\ (forall y, e = Some y -> pending b y) /\
      match b_allowed K s x with Some (v, _) => v + n | None => n end < 2 ^ 128
  | JDecreaseAllowance x n e => n < 2 ^ 128 /\ (forall y, e = Some y -> spellable y) /\ norm A x = Some x /\ x <> s /\
      exists v old, b_allowed K s x = Some (v, old) /\ (n < v -> forall y, e = Some y -> pending b y)
  | JUpdateMinter new => (exists cap, b_minter K = Some (s, cap)) /\ forall a, new = Some a -> norm A a = Some a
  | _ => False
  end.

(** The book after all logged calls of contract [t], and that each was in order
    when it was made. *)
Fixpoint book_after (t : string) (K : book) (lg : list event) : book :=
  match lg with
  | [] => K
  | e :: r => book_after t (if decide (ev_contract e = t) then entry K (ev_sender e) (ev_msg e) else K) r
  end.
Fixpoint all_in_order (A : api) (t : string) (K : book) (lg : list event) : Prop :=
  match lg with
  | [] => True
  | e :: r =>
      if decide (ev_contract e = t)
      then in_order_now A (w_block (ev_world e)) K (ev_sender e) (ev_msg e) /\ all_in_order A t (entry K (ev_sender e) (ev_msg e)) r
      else all_in_order A t K r
  end.

(** The book of a new token. *)
Fixpoint listed (rows : list (string * N)) (a : string) : N :=
  match rows with [] => 0 | (k, n) :: r => if decide (a = k) then n else listed r a end.
Definition opening (m : token_init) : book :=
  Book (listed (in_balances m)) (fold_right (fun r z => r.2 + z) 0 (in_balances m)) (fun _ _ => None) (in_mint m).

(** What a token's queries answer (an address that never had tokens has 0, a
    pair of addresses without allowance has 0 that never expires). *)
Definition shows (A : api) (ts : token_state) (K : book) : Prop :=
  (forall a, norm A a = Some a -> token_query_balance A ts a = Ok (b_balance K a)) /\
  (exists n s d, token_query_info ts = Ok (TokenInfo n s d (b_supply K))) /\
  (forall o x, norm A o = Some o -> norm A x = Some x ->
     token_query_allowance A ts o x = Ok (default (0, ENever) (b_allowed K o x))) /\
  token_query_minter ts = Ok (b_minter K).
(** The token's storage is the book. *)
Definition keeps (ts : token_state) (K : book) : Prop :=
  (forall a, balance_of ts a = b_balance K a) /\ tk_supply ts = b_supply K /\
  (forall o x, tk_allow ts !! (o, x) = b_allowed K o x) /\ tk_mint ts = b_minter K.
Definition book_of (ts : token_state) : book :=
  Book (balance_of ts) (tk_supply ts) (fun o x => tk_allow ts !! (o, x)) (tk_mint ts).

(** ** Proofs *)
Lemma book_of_keeps ts : keeps ts (book_of ts).
Proof. repeat split. Qed.
Lemma keeps_shows A ts K : keeps ts K -> shows A ts K.
Proof.
  intros (H1 & H2 & H3 & H4). split; [|split; [|split]].
  - intros a Ha. unfold token_query_balance. rewrite (proj2 (addr_validate_ok A a a) (conj eq_refl Ha)). cbn [rbind]. rewrite H1. reflexivity.
  - unfold token_query_info. do 3 eexists. rewrite H2. reflexivity.
  - intros o x Ho Hx. unfold token_query_allowance. rewrite (proj2 (addr_validate_ok A o o) (conj eq_refl Ho)). cbn [rbind].
    rewrite (proj2 (addr_validate_ok A x x) (conj eq_refl Hx)). cbn [rbind]. specialize (H3 o x). change uint128 with N in *. rewrite H3. reflexivity.
  - unfold token_query_minter. rewrite H4. reflexivity.
Qed.

(** Sending is transferring, as far as the token itself is concerned. *)
Definition settle (m : jmsg) : jmsg :=
  match m with JSend c n _ => JTransfer c n | JSendFrom o c n _ => JTransferFrom o c n | _ => m end.
Lemma settle_exec A b ts s m ts' rsp : token_execute A b ts s m = Ok (ts', rsp) ->
  simple_call (settle m) /\ exists rsp', token_execute A b ts s (settle m) = Ok (ts', rsp').
Proof.
  intros H. destruct m; cbn [settle]; try (split; [exact I|eauto]; fail).
  all: try (unfold token_execute in H; destruct (negb _) in H; discriminate).
  - split; [exact I|]. unfold token_execute in *. cbn [jmsg_ranges] in *. destruct (u128_ok amount); cbn [negb] in *; [|discriminate].
    unfold token_send, token_transfer in *. destruct (nonzero amount); cbn [rbind] in *; [|discriminate].
    destruct (addr_validate _ _) as [r|]; cbn [rbind] in *; [|discriminate].
    destruct (debit ts s amount) as [t1|]; cbn [rbind] in *; [|discriminate].
    destruct (credit t1 r amount) as [t2|]; cbn [rbind] in *; [|discriminate]. injection H as <- _. eauto.
  - split; [exact I|]. unfold token_execute in *. cbn [jmsg_ranges] in *. destruct (u128_ok amount); cbn [negb] in *; [|discriminate].
    unfold token_send_from, token_transfer_from in *. destruct (addr_validate _ _) as [r|]; cbn [rbind] in *; [|discriminate].
    destruct (addr_validate _ _) as [o|]; cbn [rbind] in *; [|discriminate].
    destruct (deduct_allowance _ _ _ _ _) as [t0|]; cbn [rbind] in *; [|discriminate].
    destruct (debit _ _ _) as [t1|]; cbn [rbind] in *; [|discriminate].
    destruct (credit _ _ _) as [t2|]; cbn [rbind] in *; [|discriminate]. injection H as <- _. eauto.
Qed.
Lemma settle_entry K s m : entry K s (settle m) = entry K s m.
Proof. destruct m; reflexivity. Qed.
Lemma settle_in_order A b K s m : in_order_now A b K s (settle m) <-> in_order_now A b K s m.
Proof. destruct m; reflexivity. Qed.

Lemma accepted_in_order A b ts K s m : keeps ts K -> simple_call m -> token_ok ts ->
  P_Cw20.accepted A b ts s m <-> in_order_now A b K s m.
Proof.
  intros (H1 & H2 & H3 & H4) Hm TO. destruct TO as [T1 T2 _].
  assert (Bl : forall x, b_balance K x < 2 ^ 128) by (intros x; rewrite <- H1; pose proof (balance_le_sum ts x); rewrite <- B128_eq; lia).
  destruct m; try contradiction; cbn [P_Cw20.accepted in_order_now]; rewrite ?H1, ?H2, ?H4; try tauto.
  - unfold allowance. specialize (H3 s spender). change uint128 with N in *. rewrite H3. destruct (b_allowed K s spender) as [[v e]|]; intuition lia.
  - specialize (H3 s spender). change uint128 with N in *. rewrite H3. tauto.
  - unfold may_spend, covers. specialize (H3 owner s). change uint128 with N in *. rewrite H3. specialize (Bl owner). intuition lia.
  - unfold may_spend, covers. specialize (H3 owner s). change uint128 with N in *. rewrite H3. specialize (Bl owner). intuition lia.
Qed.

Lemma give_spec f o r n x : n <= f o -> give f o r n x + if_eq x o n = f x + if_eq x r n.
Proof.
  intros L. unfold give, put, if_eq. repeat case_decide; subst; try lia; try congruence.
Qed.
Lemma put_sub_spec f o n x : n <= f o -> put f o (f o - n) x + if_eq x o n = f x.
Proof. intros L. unfold put, if_eq. case_decide; subst; lia. Qed.
Lemma put_add_spec f o n x : put f o (f o + n) x = f x + if_eq x o n.
Proof. unfold put, if_eq. case_decide; subst; lia. Qed.

Lemma keeps_step A b ts K s m ts' rsp : token_ok ts -> keeps ts K -> token_execute A b ts s m = Ok (ts', rsp) ->
  in_order_now A b K s m /\ keeps ts' (entry K s m).
Proof.
  intros TO HK Hx. destruct (settle_exec _ _ _ _ _ _ _ Hx) as (Hs & rsp' & Hx').
  rewrite <- settle_in_order, <- settle_entry. clear Hx. revert Hs Hx'. generalize (settle m). clear m. intros m Hm Hx.
  assert (Ac : in_order_now A b K s m).
  { apply (accepted_in_order A b ts K s m HK Hm TO), (tok_call_iff A b ts s m TO Hm). eauto. }
  split; [exact Ac|]. destruct HK as (H1 & H2 & H3 & H4).
  destruct (tok_call_effect _ _ _ _ _ _ _ Hm Hx) as (_ & E1 & E2 & _).
  assert (E3 : forall x, balance_of ts' x + debit_of s m x = b_balance K x + credit_of m x).
  { intros x. rewrite <- H1. exact (proj1 (exec_balances _ _ _ _ _ _ _ x Hx)). }
  assert (E4 : tk_supply ts' + burned_of m = b_supply K + minted_of m).
  { rewrite <- H2. exact (proj2 (exec_balances _ _ _ _ _ _ _ ""%string Hx)). }
  assert (Su : forall x, b_balance K x <= b_supply K).
  { intros x. rewrite <- H1, <- H2. destruct TO as [T1 T2 _]. pose proof (balance_le_sum ts x). lia. }
  assert (E1' : forall o x, tk_allow ts' !! (o, x) = allowance_after ts s m o x) by exact E1. clear E1 Hx.
  unfold allowance_after in E1'. unfold minter_after in E2. rewrite H4 in E2. change uint128 with N in *.
  assert (H3' : forall o x, tk_allow ts !! (o, x) = b_allowed K o x) by exact H3. clear H3 H4 H2 H1 TO.
  destruct K as [B U P M]. cbn [b_balance b_supply b_allowed b_minter] in *.
  destruct m; try contradiction; cbn [entry in_order_now debit_of credit_of burned_of minted_of b_balance b_supply] in *;
    unfold keeps; cbn [b_balance b_supply b_allowed b_minter].
  - destruct Ac as (_ & L & _). split; [intros x; specialize (E3 x); pose proof (give_spec B s recipient amount x L); lia|].
    split; [lia|]. split; [intros o x; rewrite E1'; apply H3'|exact E2].
  - destruct Ac as (_ & L). split; [intros x; specialize (E3 x); pose proof (put_sub_spec B s amount x L); lia|].
    split; [lia|]. split; [intros o x; rewrite E1'; apply H3'|exact E2].
  - split; [intros x; specialize (E3 x); lia|]. split; [lia|]. split; [|exact E2].
    intros o x. rewrite E1'. unfold allow. destruct (decide (o = s /\ x = spender)) as [[-> ->]|D]; [|apply H3'].
    match goal with |- context [default _ ?q] => replace q with (P s spender) by (symmetry; exact (H3' s spender)) end.
    destruct (P s spender) as [[v old]|]; reflexivity.
  - split; [intros x; specialize (E3 x); lia|]. split; [lia|]. split; [|exact E2].
    intros o x. rewrite E1'. unfold allow. destruct (decide (o = s /\ x = spender)) as [[-> ->]|D]; [|apply H3'].
    match goal with |- match ?q with _ => _ end = _ => replace q with (P s spender) by (symmetry; exact (H3' s spender)) end.
    destruct (P s spender) as [[v old]|]; [|reflexivity].
    destruct (N.ltb_spec amount v); [rewrite decide_True by assumption|rewrite decide_False by lia]; reflexivity.
  - destruct Ac as (_ & _ & _ & L). cbn [b_balance] in L. split; [intros x; specialize (E3 x); pose proof (give_spec B owner recipient amount x L); lia|].
    split; [lia|]. split; [|exact E2]. intros o x. rewrite E1'. unfold use, allow. cbn [b_allowed].
    destruct (decide (o = owner /\ x = s)) as [[-> ->]|D]; [|apply H3']. 
    match goal with |- match ?q with _ => _ end = _ => replace q with (P owner s) by (symmetry; exact (H3' owner s)) end. reflexivity.
  - destruct Ac as (_ & _ & L). cbn [b_balance] in L. split; [intros x; specialize (E3 x); pose proof (put_sub_spec B owner amount x L); lia|].
    split; [lia|]. split; [|exact E2]. intros o x. rewrite E1'. unfold use, allow. cbn [b_allowed].
    destruct (decide (o = owner /\ x = s)) as [[-> ->]|D]; [|apply H3']. 
    match goal with |- match ?q with _ => _ end = _ => replace q with (P owner s) by (symmetry; exact (H3' owner s)) end. reflexivity.
  - split; [intros x; specialize (E3 x); pose proof (put_add_spec B recipient amount x); lia|].
    split; [lia|]. split; [intros o x; rewrite E1'; apply H3'|exact E2].
  - split; [intros x; specialize (E3 x); lia|]. split; [lia|]. split; [intros o x; rewrite E1'; apply H3'|exact E2].
Qed.

Lemma token_ok_exec A b ts s m ts' rsp : token_ok ts -> token_execute A b ts s m = Ok (ts', rsp) -> token_ok ts'.
Proof. intros TO H. apply token_execute_inv in H. eapply token_ok_effect; eauto. Qed.

Lemma replay_book A t ts lg ts' : tok_replay A t ts lg ts' -> forall K, token_ok ts -> keeps ts K ->
  all_in_order A t K lg /\ keeps ts' (book_after t K lg).
Proof.
  induction 1 as [ts|ts e lg ts' Hn P IH|ts e rsp ts1 lg ts' He Ht Hx P IH]; intros K TO HK; cbn [all_in_order book_after].
  - auto.
  - rewrite !decide_False by exact Hn. auto.
  - rewrite !decide_True by exact He. destruct (keeps_step _ _ _ _ _ _ _ _ TO HK Hx) as [A1 A2].
    destruct (IH _ (token_ok_exec _ _ _ _ _ _ _ TO Hx) A2). auto.
Qed.

Lemma listed_in rows a n : In (a, n) rows -> List.NoDup (map fst rows) -> listed rows a = n.
Proof.
  induction rows as [|[k v] r IH]; intros Hin Hd; [destruct Hin|]. cbn [listed map fst] in *. inversion Hd; subst.
  destruct Hin as [E|Hin]; [injection E as -> ->; apply decide_True; reflexivity|].
  rewrite decide_False; [auto|]. intros ->. apply H1. apply (in_map fst) in Hin. exact Hin.
Qed.
Lemma listed_out rows a : ~ In a (map fst rows) -> listed rows a = 0.
Proof.
  induction rows as [|[k v] r IH]; intros Hn; [reflexivity|]. cbn [listed map fst] in *. rewrite decide_False; [|intros ->; apply Hn; left; reflexivity].
  apply IH. intros X. apply Hn. right. exact X.
Qed.
Lemma opening_keeps A m ts rsp : token_instantiate A m = Ok (ts, rsp) -> keeps ts (opening m) /\ token_ok ts.
Proof.
  intros H. assert (V : token_init_valid A m) by (apply C37_instantiates_iff; eauto).
  assert (TO : token_ok ts) by (eapply token_ok_init; eauto). split; [|exact TO].
  destruct (C37_initial_state A m ts rsp H) as (_ & _ & _ & H1 & H2 & H3 & H4 & H5 & _).
  unfold keeps, opening. cbn [b_balance b_supply b_allowed b_minter]. split; [|split; [|split]].
  - intros a. destruct (in_dec string_eq_dec a (map fst (in_balances m))) as [Hin|Hn].
    + apply in_map_iff in Hin as ([k n] & E & Hin). cbn [fst] in E. subst k. rewrite (H4 _ _ Hin). symmetry. apply listed_in; [exact Hin|].
      clear -V. destruct V. apply NoDup_ListNoDup. assumption.
    + rewrite (H5 _ Hn). symmetry. apply listed_out. exact Hn.
  - rewrite H1. unfold sum_amounts. induction (in_balances m) as [|[k n] r IH]; [reflexivity|]. cbn [fold_right snd] in *. congruence.
  - intros o x. rewrite H3. apply lookup_empty.
  - exact H2.
Qed.

(** C85: over any history, a token's storage and the answers of its queries are
    the account book that results from entering every logged call to it, in
    order, into the book it started with; and every such call was in order when it
    was made. *)
Theorem C85_book C w lg w' t ts K : chain_ok C -> reachable C w -> history C w lg w' -> tok_at w t ts -> keeps ts K ->
  all_in_order (ch_api C) t K lg /\
  exists ts', tok_at w' t ts' /\ keeps ts' (book_after t K lg) /\ shows (ch_api C) ts' (book_after t K lg).
Proof.
  intros OK Hr Hh Ht HK. pose proof (reachable_main C OK w Hr) as M.
  destruct (tok_replay_history C OK t _ _ _ M Hh) as (A1 & _ & _). destruct (A1 _ Ht) as (ts' & Ht' & P).
  destruct (replay_book _ _ _ _ _ P K (proj2 (main_sane C w M) _ _ Ht) HK) as [R1 R2]. split; [exact R1|].
  exists ts'. split; [exact Ht'|]. split; [exact R2|]. apply keeps_shows. exact R2.
Qed.
(** A token created during the history starts with the book its instantiation
    message asks for. *)
Theorem C85_new_book C w lg w' t ts' : chain_ok C -> reachable C w -> history C w lg w' -> state_at w t = None -> tok_at w' t ts' ->
  exists m, token_init_valid (ch_api C) m /\ tk_name ts' = in_name m /\ tk_symbol ts' = in_symbol m /\ tk_decimals ts' = in_decimals m /\
    all_in_order (ch_api C) t (opening m) lg /\
    keeps ts' (book_after t (opening m) lg) /\ shows (ch_api C) ts' (book_after t (opening m) lg).
Proof.
  intros OK Hr Hh Hn Ht'. pose proof (reachable_main C OK w Hr) as M.
  destruct (tok_replay_history C OK t _ _ _ M Hh) as (_ & _ & A3). destruct (A3 Hn _ Ht') as (m & ts0 & rsp & Hi & P).
  destruct (opening_keeps _ _ _ _ Hi) as [K0 TO]. destruct (replay_book _ _ _ _ _ P _ TO K0) as [R1 R2].
  exists m. split; [apply C37_instantiates_iff; eauto|].
  destruct (C37_initial_state _ _ _ _ Hi) as (N1 & N2 & N3 & _). rewrite <- N1, <- N2, <- N3.
  assert (X : tk_name ts' = tk_name ts0 /\ tk_symbol ts' = tk_symbol ts0 /\ tk_decimals ts' = tk_decimals ts0).
  { clear -P. induction P as [ts|ts e lg ts' Hn P IH|ts e rsp ts1 lg ts' He Ht Hx P IH]; [auto|exact IH|].
    destruct (settle_exec _ _ _ _ _ _ _ Hx) as (Hs & rsp' & Hx'). destruct (tok_call_effect _ _ _ _ _ _ _ Hs Hx') as (_ & _ & _ & E1 & E2 & E3).
    destruct IH as (I1 & I2 & I3). repeat split; congruence. }
  destruct X as (X1 & X2 & X3). repeat (split; [assumption|]). apply keeps_shows. exact R2.
Qed.
(** Conversely every call that is in order is executed and makes its entry. *)
Theorem C85_every_entry C w t ts K s m : chain_ok C -> reachable C w -> tok_at w t ts -> keeps ts K -> simple_call m ->
  in_order_now (ch_api C) (w_block w) K s m <->
  exists w' ts', succeeds C w s (MExecute t m []) w' /\ tok_at w' t ts' /\ keeps ts' (entry K s m).
Proof.
  intros OK Hr Ht HK Hm. pose proof (proj2 (main_sane C w (reachable_main C OK w Hr)) _ _ Ht) as TO. split.
  - intros Ho. apply (accepted_in_order _ _ ts K s m HK Hm TO) in Ho.
    apply (C63_token_call_iff C w t ts s m OK Hr Ht Hm) in Ho as (w' & Hs). pose proof Hs as (f & Hf). destruct (Hf f (le_n f)) as (lg & Ex).
    exists w'. destruct f; [rewrite exec_0 in Ex; discriminate|].
    rewrite (tok_exec C OK w t ts) in Ex by (first [apply (main_sane C w (reachable_main C OK w Hr))|assumption]).
    apply rbind_ok in Ex as ([ts1 rsp] & E1 & Ex). destruct (keeps_step _ _ _ _ _ _ _ _ TO HK E1) as [_ HK1].
    destruct (tok_call_effect _ _ _ _ _ _ _ Hm E1) as (Em & _). rewrite Em in Ex. apply rbind_ok in Ex as ([w2 lg2] & Er & Ex).
    destruct f; [rewrite run_0 in Er; discriminate|]. rewrite run_nil in Er. injection Er as <- <-. injection Ex as <- _.
    exists ts1. split; [exact Hs|]. split; [|exact HK1]. apply state_at_inst in Ht as (ad & Hi).
    unfold tok_at. rewrite state_at_set by eauto. apply decide_True. reflexivity.
  - intros (w' & ts' & Hs & _ & _). apply (accepted_in_order _ _ ts K s m HK Hm TO).
    apply (C63_token_call_iff C w t ts s m OK Hr Ht Hm). eauto.
Qed.

(** alice lets bob spend 500 of their tokens, bob spends 300 of them, alice takes
    back 150, mints 7 for bob and hands over the minter role; the book says the
    same as the queries. *)
Definition ex_book : list (bool * cmsg) :=
  [(true, x_call "#1" (JIncreaseAllowance "bob" 500 (Some (EAtHeight 200))));
   (false, x_call "#1" (JTransferFrom "alice" "#4" 300));
   (true, x_call "#1" (JDecreaseAllowance "bob" 150 None));
   (true, x_call "#1" (JMint "bob" 7)); ex_minter; ex_swap]%string.
Example C85_case :
  let K := book_of (tok_of ex_world "#1") in
  let lg := log_of ex_world ex_book in let w' := after ex_world ex_book in let K' := book_after "#1" K lg in
  reachable ex_chain ex_world /\ history ex_chain ex_world lg w' /\ tok_at ex_world "#1" (tok_of ex_world "#1") /\
  keeps (tok_of ex_world "#1") K /\
  b_allowed K "alice" "bob" = None /\ b_allowed K' "alice" "bob" = Some (50, EAtHeight 200) /\
  b_balance K' "alice" + 300 = b_balance K "alice" /\ b_balance K' "#4" = b_balance K "#4" + 300 + 1000000 /\
  b_supply K' = b_supply K + 7 /\ b_minter K' = Some ("bob"%string, Some 2000000000000) /\
  balance_of (tok_of w' "#1") "bob" = b_balance K' "bob" /\
  in_order_now ex_api (w_block w') K' "bob" (JTransferFrom "alice" "carol" 50) /\
  ~ in_order_now ex_api (w_block w') K' "bob" (JTransferFrom "alice" "carol" 51).
Proof.
  intros K lg w' K'. split; [exact ex_reachable|]. split; [apply after_history|]. split; [apply tok_of_at; vm_compute; reflexivity|].
  split; [apply book_of_keeps|]. repeat (split; [vm_compute; reflexivity|]).
  assert (E : b_allowed K' "alice" "bob" = Some (50, EAtHeight 200)) by (vm_compute; reflexivity).
  assert (Eb : (51 <=? b_balance K' "alice") = true) by (vm_compute; reflexivity). apply N.leb_le in Eb.
  assert (Eh : (b_height (w_block w') <? 200) = true) by (vm_compute; reflexivity). apply N.ltb_lt in Eh. split.
  - split; [vm_compute; reflexivity|]. split; [vm_compute; reflexivity|]. split; [|lia]. exists 50, (EAtHeight 200). split; [exact E|]. split; [exact Eh|lia].
  - intros (_ & _ & (v & e & Ev & _ & L) & _). rewrite E in Ev. injection Ev as <- _. lia.
Qed.

(** ** Allowances, both ways (C50) *)
(** What a call by [s] takes back of [o]'s allowance for [x]. *)
Definition lowered_of (s : string) (m : jmsg) (o x : string) : N :=
  match m with JDecreaseAllowance x' n _ => if_eq o s (if_eq x x' n) | _ => 0 end.
Definition book_allowance (K : book) (o x : string) : N := match b_allowed K o x with Some (v, _) => v | None => 0 end.

Lemma entry_allowance A b K s m o x : in_order_now A b K s m ->
  book_allowance K o x + granted_of s m o x <= book_allowance (entry K s m) o x + spent_of s m o x + lowered_of s m o x.
Proof.
  intros Ho. destruct K as [B U P M]. unfold book_allowance.
  destruct m; cbn [entry b_allowed granted_of spent_of lowered_of in_order_now covers b_balance b_supply] in *; try lia; try contradiction.
  - unfold allow, if_eq. repeat case_decide; subst; try lia; try (destruct (P s spender) as [[v e]|]; lia); try tauto.
  - unfold allow, if_eq. destruct Ho as (_ & _ & _ & _ & v & old & E & _).
    destruct (decide (o = s /\ x = spender)) as [[-> ->]|D]; [|repeat case_decide; subst; try tauto; lia].
    rewrite E, !decide_True by reflexivity. destruct (N.ltb_spec amount v); lia.
  - destruct Ho as (_ & _ & (v & e & E & _ & L) & _). cbn [b_allowed] in E. unfold use, allow, if_eq. cbn [b_allowed].
    destruct (decide (o = owner /\ x = s)) as [[-> ->]|D]; [rewrite E, !decide_True by reflexivity; lia|repeat case_decide; subst; try tauto; lia].
  - destruct Ho as (_ & _ & (v & e & E & _ & L) & _). cbn [b_allowed] in E. unfold use, allow, if_eq. cbn [b_allowed].
    destruct (decide (o = owner /\ x = s)) as [[-> ->]|D]; [rewrite E, !decide_True by reflexivity; lia|repeat case_decide; subst; try tauto; lia].
  - destruct Ho as (_ & (v & e & E & _ & L) & _). cbn [b_allowed] in E. unfold use, allow, if_eq. cbn [b_allowed].
    destruct (decide (o = owner /\ x = s)) as [[-> ->]|D]; [rewrite E, !decide_True by reflexivity; lia|repeat case_decide; subst; try tauto; lia].
Qed.
Lemma book_allowance_after A t o x lg : forall K, all_in_order A t K lg ->
  book_allowance K o x + tally t (fun s m => granted_of s m o x) lg <=
  book_allowance (book_after t K lg) o x + tally t (fun s m => spent_of s m o x) lg + tally t (fun s m => lowered_of s m o x) lg.
Proof.
  induction lg as [|e lg IH]; intros K H; cbn [all_in_order book_after tally] in *; [lia|]. destruct (decide (ev_contract e = t)) as [E|E].
  - destruct H as [H1 H2]. specialize (IH _ H2). pose proof (entry_allowance _ _ _ _ _ o x H1). lia.
  - specialize (IH _ H). lia.
Qed.
(** C50, the other direction: an allowance shrinks only by what the spender spends
    and what the owner takes back; so without DecreaseAllowance what is left is
    exactly what was granted less what was spent. *)
Theorem C50_allowance_shrinks_only_so C w lg w' t ts' o x : chain_ok C -> reachable C w -> history C w lg w' -> tok_at w' t ts' ->
  allowance_at w t o x + tally t (fun s m => granted_of s m o x) lg <=
  allowance ts' o x + tally t (fun s m => spent_of s m o x) lg + tally t (fun s m => lowered_of s m o x) lg.
Proof.
  intros OK Hr Hh Ht'. unfold allowance_at.
  assert (Al : forall ts K, keeps ts K -> allowance ts o x = book_allowance K o x).
  { intros ts K (_ & _ & H & _). unfold allowance, book_allowance. specialize (H o x). change uint128 with N in *. rewrite H. reflexivity. }
  destruct (history_replay C w lg w' t ts' OK Hr Hh Ht') as (ts0 & Hs & _). destruct Hs as [Hs|(Hn & _)].
  - destruct (C85_book C w lg w' t ts0 _ OK Hr Hh Hs (book_of_keeps ts0)) as (Ho & ts1 & Ht1 & K1 & _).
    assert (ts1 = ts') as -> by (unfold tok_at in *; congruence). rewrite (Al _ _ K1). unfold tok_at in Hs. rewrite Hs. rewrite (Al _ _ (book_of_keeps ts0)).
    eapply book_allowance_after; eauto.
  - destruct (C85_new_book C w lg w' t ts' OK Hr Hh Hn Ht') as (m & _ & _ & _ & _ & Ho & K1 & _). rewrite Hn, (Al _ _ K1).
    exact (book_allowance_after _ _ o x lg _ Ho).
Qed.
Theorem C50_allowance_exact C w lg w' t ts' o x : chain_ok C -> reachable C w -> history C w lg w' -> tok_at w' t ts' ->
  ~ (exists e n ex, In e lg /\ ev_contract e = t /\ ev_sender e = o /\ ev_msg e = JDecreaseAllowance x n ex) ->
  allowance ts' o x + tally t (fun s m => spent_of s m o x) lg = allowance_at w t o x + tally t (fun s m => granted_of s m o x) lg.
Proof.
  intros OK Hr Hh Ht' Hno. pose proof (C50_allowances C w lg w' t ts' o x OK Hr Hh Ht') as U.
  pose proof (C50_allowance_shrinks_only_so C w lg w' t ts' o x OK Hr Hh Ht') as L.
  assert (tally t (fun s m => lowered_of s m o x) lg = 0); [|lia]. clear -Hno.
  induction lg as [|e lg IH]; [reflexivity|]. cbn [tally]. rewrite IH.
  - destruct (decide (ev_contract e = t)) as [E|E]; [|reflexivity]. destruct (ev_msg e) eqn:Em; try reflexivity. cbn [lowered_of]. unfold if_eq.
    repeat case_decide; subst; try reflexivity. destruct Hno. do 3 eexists. split; [left; reflexivity|]. split; [reflexivity|]. split; [reflexivity|]. exact Em.
  - intros (e' & n & ex & Hin & H). apply Hno. exists e', n, ex. split; [right; exact Hin|exact H].
Qed.
Example C50_exact_case :
  let lg := log_of ex_world ex_book in let w' := after ex_world ex_book in
  history ex_chain ex_world lg w' /\ tok_at w' "#1" (tok_of w' "#1") /\ allowance_at ex_world "#1" "alice" "bob" = 0 /\
  tally "#1" (fun s m => granted_of s m "alice" "bob") lg = 500 /\ tally "#1" (fun s m => spent_of s m "alice" "bob") lg = 300 /\
  tally "#1" (fun s m => lowered_of s m "alice" "bob") lg = 150 /\ allowance (tok_of w' "#1") "alice" "bob" = 50.
Proof. split; [apply after_history|]. split; [apply tok_of_at; vm_compute; reflexivity|]. vm_compute. auto 10. Qed.

(** ** Without a minter (C51) *)
(** A token whose minter role was given up never grows again. *)
Theorem C51_no_minter_no_growth C w lg w' t ts : chain_ok C -> reachable C w -> history C w lg w' -> tok_at w t ts -> tk_mint ts = None ->
  ~ called t (fun m => exists r n, m = JMint r n) lg /\
  exists ts', tok_at w' t ts' /\ tk_mint ts' = None /\ tk_supply ts' + tally t (fun _ m => burned_of m) lg = tk_supply ts.
Proof.
  intros OK Hr Hh Ht Hm. destruct (C85_book C w lg w' t ts _ OK Hr Hh Ht (book_of_keeps ts)) as (Ho & ts' & Ht' & (_ & K2 & _ & K4) & _).
  assert (X : forall lg K, b_minter K = None -> all_in_order (ch_api C) t K lg ->
    ~ called t (fun m => exists r n, m = JMint r n) lg /\ b_minter (book_after t K lg) = None).
  { clear. induction lg as [|e lg IH]; intros K Hk Ho; cbn [all_in_order book_after] in *.
    - split; [|auto]. intros (e & Hin & _). destruct Hin.
    - destruct (decide (ev_contract e = t)) as [E|E].
      + destruct Ho as [H1 H2]. assert (Hk' : b_minter (entry K (ev_sender e) (ev_msg e)) = None).
        { destruct K as [B U P M]. cbn [b_minter] in Hk. subst M. destruct (ev_msg e); cbn [entry b_minter]; try reflexivity. destruct new_minter; reflexivity. }
        destruct (IH _ Hk' H2) as (I1 & I2). split; [|auto]. intros X. apply called_cons in X as [[_ (r & n & Em)]|X]; [|contradiction].
        rewrite Em in H1. cbn [in_order_now] in H1. destruct H1 as (_ & _ & _ & cap & E1 & _). congruence.
      + destruct (IH _ Hk Ho) as (I1 & I2). split; [|auto]. intros X. apply called_cons in X as [[X _]|X]; contradiction. }
  destruct (X lg (book_of ts) Hm Ho) as (X1 & X2). split; [exact X1|]. exists ts'. split; [exact Ht'|]. split; [rewrite K4; exact X2|].
  destruct (C49_ledger C w lg w' t ts' OK Hr Hh Ht') as (ts0 & [Hs|(Hn & _)] & _ & S); [|unfold tok_at in Ht; congruence].
  assert (ts0 = ts) as -> by (unfold tok_at in *; congruence). rewrite S.
  assert (tally t (fun _ m => minted_of m) lg = 0); [|lia]. clear -X1.
  induction lg as [|e lg IH]; [reflexivity|]. cbn [tally]. rewrite IH by (intros Y; apply X1; apply called_cons; right; exact Y).
  destruct (decide (ev_contract e = t)) as [E|E]; [|reflexivity]. destruct (ev_msg e) eqn:Em; try reflexivity.
  destruct X1. apply called_cons. left. split; [exact E|]. eauto.
Qed.
(** bob, the last minter, gave the role up; then alice burns 1000. *)
Example C51_no_minter_case :
  let w := after ex_world ex_roles in let l := [(true, x_call "#1" (JBurn 1000))] in
  reachable ex_chain w /\ history ex_chain w (log_of w l) (after w l) /\ tok_at w "#1" (tok_of w "#1") /\ tk_mint (tok_of w "#1") = None /\
  tk_supply (tok_of (after w l) "#1") + 1000 = tk_supply (tok_of w "#1") /\ is_ok (script w [(true, x_call "#1" (JMint "bob" 1))]) = false.
Proof.
  intros w l. split; [eapply history_reachable; [exact ex_reachable|apply after_history]|]. split; [apply after_history|].
  split; [apply tok_of_at; vm_compute; reflexivity|]. vm_compute. auto.
Qed.
