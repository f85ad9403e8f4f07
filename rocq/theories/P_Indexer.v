(** C91: whoever follows the events of a token knows everything it stores but
    the expirations. *)
From Verif Require Import Base BigNumber CwStd BigNumberFacts Asset Messages PairMath Pair PairFacts Token Factory Router
  SwapFacts SwapFacts2 P_Swap P_Pair FactoryFacts P_Factory P_Router TokenFacts World WorldInd WorldFacts WorldInv WorldInd2
  Examples WorldExamples P_Ledger P_Registry ExecFacts P_Exec P_Token Replay P_TokenHistory P_Cw20 TokenQueries P_Book P_Events.
From Coq Require Import ZifyN Ascii String.
Local Open Scope N_scope.
Ltac Zify.zify_post_hook ::= idtac.

(** ** The follower *)

(** What someone who reads only the attributes of events writes down about a
    token: balances, the supply, the amounts of allowances and the minter (None
    if there is none). *)
Record view := View {
  v_balance : string -> N;
  v_supply : N;
  v_allowed : string -> string -> N;
  v_minter : string }.

(** The number under the key amount. *)
Definition spoken (l : list (string * string)) : N := match attr l "amount" with Some s => dec_value s | None => 0 end.
(** An amount leaves the account under from and arrives at the account under to;
    if only one of the two is there, the supply changes; an amount together with
    owner and spender changes an allowance; one with from and by uses it up. *)
Definition heard (V : view) (l : list (string * string)) : view :=
  let n := spoken l in
  View
    (fun x => v_balance V x - (if decide (attr l "from" = Some x) then n else 0) + (if decide (attr l "to" = Some x) then n else 0))
    (match attr l "from", attr l "to" with
     | Some _, None => v_supply V - n
     | None, Some _ => v_supply V + n
     | _, _ => v_supply V
     end)
    (fun o x =>
       if decide (attr l "owner" = Some o /\ attr l "spender" = Some x)
       then if decide (attr l "action" = Some "increase_allowance"%string) then v_allowed V o x + n else v_allowed V o x - n
       else if decide (attr l "from" = Some o /\ attr l "by" = Some x) then v_allowed V o x - n else v_allowed V o x)
    (default (v_minter V) (attr l "new_minter")).

(** The view is right about a token. *)
Definition right (V : view) (ts : token_state) : Prop :=
  (forall a, v_balance V a = balance_of ts a) /\ v_supply V = tk_supply ts /\
  (forall o x, v_allowed V o x = allowance ts o x) /\
  v_minter V = match tk_mint ts with Some (a, _) => a | None => "None"%string end.

(** ** Proofs *)

(** What a token call reports. *)
Definition said (s : string) (m : jmsg) : list (string * string) :=
  match m with
  | JTransfer r n => [("action", "transfer"); ("from", s); ("to", r); ("amount", dec_to_string n)]
  | JSend c n _ => [("action", "send"); ("from", s); ("to", c); ("amount", dec_to_string n)]
  | JBurn n => [("action", "burn"); ("from", s); ("amount", dec_to_string n)]
  | JMint r n => [("action", "mint"); ("to", r); ("amount", dec_to_string n)]
  | JIncreaseAllowance x n _ => [("action", "increase_allowance"); ("owner", s); ("spender", x); ("amount", dec_to_string n)]
  | JDecreaseAllowance x n _ => [("action", "decrease_allowance"); ("owner", s); ("spender", x); ("amount", dec_to_string n)]
  | JTransferFrom o r n => [("action", "transfer_from"); ("from", o); ("to", r); ("by", s); ("amount", dec_to_string n)]
  | JSendFrom o c n _ => [("action", "send_from"); ("from", o); ("to", c); ("by", s); ("amount", dec_to_string n)]
  | JBurnFrom o n => [("action", "burn_from"); ("from", o); ("by", s); ("amount", dec_to_string n)]
  | JUpdateMinter new => [("action", "update_minter"); ("new_minter", default "None" new)]
  | _ => []
  end%string.
Lemma exec_said A b ts s m ts' rsp : token_execute A b ts s m = Ok (ts', rsp) -> rs_attrs rsp = said s m.
Proof.
  unfold token_execute. destruct (negb _); [discriminate|]. destruct m; try discriminate; intros H;
    unfold token_transfer, token_burn, token_send, token_mint, token_increase, token_decrease, token_transfer_from, token_burn_from, token_send_from, token_update_minter in H.
  all: repeat match goal with
    | H : rbind _ _ = Ok _ |- _ => apply rbind_ok in H as (? & ? & H)
    | H : (let '(_, _) := ?y in _) = Ok _ |- _ => destruct y
    | H : (if ?y then _ else _) = Ok _ |- _ => destruct y
    | H : (match ?y with Some _ => _ | None => _ end) = Ok _ |- _ => destruct y as [[? ?]|] eqn:?
    end; try discriminate; try (injection H as <- <-; reflexivity).
  injection H as <- <-. destruct new_minter as [a|]; cbn [said rs_attrs default from_option id].
  - apply rbind_ok in H1 as (a' & Ev & X). apply addr_validate_ok in Ev as [-> _]. injection X as <-. reflexivity.
  - injection H1 as <-. reflexivity.
Qed.

Lemma amount_said l n : attr l "amount" = Some (dec_to_string n) -> spoken l = n.
Proof. intros H. unfold spoken. rewrite H. apply dec_to_string_value. Qed.



Definition from_of (s : string) (m : jmsg) : option string :=
  match m with JTransfer _ _ | JSend _ _ _ | JBurn _ => Some s | JTransferFrom o _ _ | JSendFrom o _ _ _ | JBurnFrom o _ => Some o | _ => None end.
Definition to_of (m : jmsg) : option string :=
  match m with JTransfer r _ | JSend r _ _ | JMint r _ | JTransferFrom _ r _ | JSendFrom _ r _ _ => Some r | _ => None end.
Definition by_of (s : string) (m : jmsg) : option string :=
  match m with JTransferFrom _ _ _ | JSendFrom _ _ _ _ | JBurnFrom _ _ => Some s | _ => None end.
Definition owner_of (s : string) (m : jmsg) : option string :=
  match m with JIncreaseAllowance _ _ _ | JDecreaseAllowance _ _ _ => Some s | _ => None end.
Definition spender_of (m : jmsg) : option string :=
  match m with JIncreaseAllowance x _ _ | JDecreaseAllowance x _ _ => Some x | _ => None end.
Definition minter_of (m : jmsg) : option string := match m with JUpdateMinter n => Some (default "None"%string n) | _ => None end.
Definition amount_of (m : jmsg) : N :=
  match m with
  | JTransfer _ n | JSend _ n _ | JMint _ n | JBurn n | JTransferFrom _ _ n | JSendFrom _ _ n _ | JBurnFrom _ n
  | JIncreaseAllowance _ n _ | JDecreaseAllowance _ n _ => n
  | _ => 0 end.
Definition raises (m : jmsg) : bool := match m with JIncreaseAllowance _ _ _ => true | _ => false end.
Lemma heard_said V s m : heard V (said s m) =
  View
    (fun x => v_balance V x - (if decide (from_of s m = Some x) then amount_of m else 0) + (if decide (to_of m = Some x) then amount_of m else 0))
    (match from_of s m, to_of m with
     | Some _, None => v_supply V - amount_of m
     | None, Some _ => v_supply V + amount_of m
     | _, _ => v_supply V
     end)
    (fun o x =>
       if decide (owner_of s m = Some o /\ spender_of m = Some x)
       then if raises m then v_allowed V o x + amount_of m else v_allowed V o x - amount_of m
       else if decide (from_of s m = Some o /\ by_of s m = Some x) then v_allowed V o x - amount_of m else v_allowed V o x)
    (default (v_minter V) (minter_of m)).
Proof.
  assert (E1 : attr (said s m) "from" = from_of s m) by (destruct m; reflexivity).
  assert (E2 : attr (said s m) "to" = to_of m) by (destruct m; reflexivity).
  assert (E3 : attr (said s m) "by" = by_of s m) by (destruct m; reflexivity).
  assert (E4 : attr (said s m) "owner" = owner_of s m) by (destruct m; reflexivity).
  assert (E5 : attr (said s m) "spender" = spender_of m) by (destruct m; reflexivity).
  assert (E6 : attr (said s m) "new_minter" = minter_of m) by (destruct m; reflexivity).
  assert (E7 : spoken (said s m) = amount_of m) by (destruct m; try reflexivity; apply amount_said; reflexivity).
  assert (E8 : forall a b : N, owner_of s m <> None -> (if decide (attr (said s m) "action" = Some "increase_allowance"%string) then a else b) = if raises m then a else b)
    by (intros a b H; destruct m; try (destruct H; reflexivity); reflexivity).
  unfold heard. cbv zeta. rewrite E1, E2, E3, E4, E5, E6, E7.
  replace (fun o x : string => if decide (owner_of s m = Some o /\ spender_of m = Some x)
       then if decide (attr (said s m) "action" = Some "increase_allowance"%string) then v_allowed V o x + amount_of m else v_allowed V o x - amount_of m
       else if decide (from_of s m = Some o /\ by_of s m = Some x) then v_allowed V o x - amount_of m else v_allowed V o x)
  with (fun o x : string => if decide (owner_of s m = Some o /\ spender_of m = Some x)
       then if raises m then v_allowed V o x + amount_of m else v_allowed V o x - amount_of m
       else if decide (from_of s m = Some o /\ by_of s m = Some x) then v_allowed V o x - amount_of m else v_allowed V o x); [reflexivity|].
  destruct m; reflexivity.
Qed.

Lemma heard_step A b ts s m ts' rsp V : token_ok ts -> token_execute A b ts s m = Ok (ts', rsp) -> right V ts -> right (heard V (rs_attrs rsp)) ts'.
Proof.
  intros TO Hx (V1 & V2 & V3 & V4). rewrite (exec_said _ _ _ _ _ _ _ Hx), heard_said.
  destruct (keeps_step _ _ _ _ _ _ _ _ TO (book_of_keeps ts) Hx) as [Io (K1 & K2 & K3 & K4)].
  assert (Al : forall o x, allowance ts' o x = match b_allowed (entry (book_of ts) s m) o x with Some (v, _) => v | None => 0 end).
  { intros o x. unfold allowance. specialize (K3 o x). change uint128 with N in *. rewrite K3. reflexivity. }
  assert (Al0 : forall o x, allowance ts o x = match b_allowed (book_of ts) o x with Some (v, _) => v | None => 0 end) by reflexivity.
  unfold right. cbn [v_balance v_supply v_allowed v_minter]. rewrite K4, K2. clear K2 K3 K4 Hx.
  change (balance_of ts) with (b_balance (book_of ts)) in V1. change (tk_supply ts) with (b_supply (book_of ts)) in V2. change (tk_mint ts) with (b_minter (book_of ts)) in V4.
  revert Io V1 V2 V4 K1 Al Al0. generalize (book_of ts). intros [B U P M]. cbn [b_balance b_supply b_minter b_allowed]. intros Io V1 V2 V4 K1 Al Al0. split; [|split; [|split]].
  - intros a. rewrite K1. rewrite V1. clear - Io.
    destruct m; try destruct Io; cbn [entry b_balance in_order_now from_of to_of amount_of] in *; unfold covers in *; cbn [b_balance] in *; unfold give, put.
    all: repeat match goal with H : _ /\ _ |- _ => destruct H end.
    all: repeat case_decide; simplify_eq; try congruence; try lia.
  - rewrite V2. clear. destruct m; reflexivity.
  - intros o x. rewrite Al, V3, Al0. clear - Io. destruct m; try destruct Io; cbn [entry b_allowed owner_of spender_of by_of from_of raises amount_of in_order_now] in *; unfold use, allow; cbn [b_allowed] in *.
    all: repeat match goal with H : _ /\ _ |- _ => destruct H end.
    all: try (repeat (rewrite decide_False by (intros [? ?]; discriminate)); reflexivity).
    + rewrite (decide_False (P := None = Some o /\ _)) by (intros [? ?]; discriminate). destruct (decide (o = s /\ x = spender)) as [[-> ->]|Ne].
      * rewrite decide_True by auto. destruct (P s spender) as [[v old]|]; cbn [default from_option]; lia.
      * rewrite decide_False by (intros [X Y]; apply Ne; split; congruence). reflexivity.
    + rewrite (decide_False (P := None = Some o /\ _)) by (intros [? ?]; discriminate). destruct (decide (o = s /\ x = spender)) as [[-> ->]|Ne].
      * rewrite decide_True by auto. destruct (P s spender) as [[v old]|]; [|reflexivity]. destruct (N.ltb_spec amount v); lia.
      * rewrite decide_False by (intros [X Y]; apply Ne; split; congruence). reflexivity.
    + rewrite (decide_False (P := None = Some o /\ _)) by (intros [? ?]; discriminate). destruct (decide (o = owner /\ x = s)) as [[-> ->]|Ne].
      * rewrite decide_True by auto. destruct (P owner s) as [[v old]|]; lia.
      * rewrite decide_False by (intros [X Y]; apply Ne; split; congruence). reflexivity.
    + rewrite (decide_False (P := None = Some o /\ _)) by (intros [? ?]; discriminate). destruct (decide (o = owner /\ x = s)) as [[-> ->]|Ne].
      * rewrite decide_True by auto. destruct (P owner s) as [[v old]|]; lia.
      * rewrite decide_False by (intros [X Y]; apply Ne; split; congruence). reflexivity.
    + rewrite (decide_False (P := None = Some o /\ _)) by (intros [? ?]; discriminate). destruct (decide (o = owner /\ x = s)) as [[-> ->]|Ne].
      * rewrite decide_True by auto. destruct (P owner s) as [[v old]|]; lia.
      * rewrite decide_False by (intros [X Y]; apply Ne; split; congruence). reflexivity.
  - rewrite V4. clear - Io. destruct m; try destruct Io; try reflexivity. cbn [entry b_minter in_order_now minter_of] in *. destruct H as [cap ->].
    destruct new_minter; reflexivity.
Qed.

Lemma heard_replay C t ts lg ts' : tok_replay (ch_api C) t ts lg ts' -> Forall (P_Registry.accepted C) lg -> token_ok ts -> forall V, right V ts ->
  right (fold_left heard (map ev_attrs (own t lg)) V) ts'.
Proof.
  induction 1 as [ts|ts e lg ts' Hn P IH|ts e rsp ts1 lg ts' He Ht Hx P IH]; intros F TO V HV.
  - exact HV.
  - rewrite own_other by exact Hn. inversion F; subst. auto.
  - rewrite own_self by exact He. cbn [map fold_left]. inversion F as [|? ? (_ & i & st & rsp' & Hi & Hc & Ha) F']; subst x l. subst t. apply IH; [exact F'|eapply token_ok_exec; eauto|].
    apply state_at_inst in Ht as (ad & Hi'). rewrite Hi in Hi'. injection Hi' as ->. cbn [i_state call] in Hc.
    rewrite Hx in Hc. cbn [wrap rbind] in Hc. injection Hc as _ <-. rewrite <- Ha. eapply heard_step; eauto.
Qed.

(** C91: whoever is right about a token and then reads the attributes of its
    events is right about it after any history. *)
Theorem C91_following_events C w lg w' t ts V : chain_ok C -> reachable C w -> history C w lg w' -> tok_at w t ts -> right V ts ->
  exists ts', tok_at w' t ts' /\ right (fold_left heard (map ev_attrs (own t lg)) V) ts'.
Proof.
  intros OK Hr Hh Ht HV. pose proof (reachable_main C OK w Hr) as M.
  destruct (tok_replay_history C OK t _ _ _ M Hh) as (A1 & _ & _). destruct (A1 _ Ht) as (ts' & Ht' & P). exists ts'. split; [exact Ht'|].
  apply (heard_replay C t ts); auto; [eapply log_accepted; eauto|exact (proj2 (main_sane C w M) _ _ Ht)].
Qed.
(** A token created on the way: the follower starts from the message that
    instantiated it. *)
Theorem C91_from_the_start C w lg w' t ts' : chain_ok C -> reachable C w -> history C w lg w' -> state_at w t = None -> tok_at w' t ts' ->
  exists m, token_init_valid (ch_api C) m /\
    right (fold_left heard (map ev_attrs (own t lg))
      (View (listed (in_balances m)) (fold_right (fun r z => r.2 + z) 0 (in_balances m)) (fun _ _ => 0)
            (match in_mint m with Some (a, _) => a | None => "None"%string end))) ts'.
Proof.
  intros OK Hr Hh Hn Ht'. pose proof (reachable_main C OK w Hr) as M.
  destruct (tok_replay_history C OK t _ _ _ M Hh) as (_ & _ & A3). destruct (A3 Hn _ Ht') as (m & ts0 & rsp & Hi & P).
  destruct (opening_keeps _ _ _ _ Hi) as [(K1 & K2 & K3 & K4) TO]. exists m. split; [apply C37_instantiates_iff; eauto|].
  apply (heard_replay C t ts0); auto; [eapply log_accepted; eauto|].
  cbn [opening b_balance b_supply b_allowed b_minter] in K1, K2, K3, K4. unfold right. cbn [v_balance v_supply v_allowed v_minter]. split; [|split; [|split]].
  - intros a. symmetry. apply K1.
  - symmetry. exact K2.
  - intros o x. unfold allowance. specialize (K3 o x). change uint128 with N in *. rewrite K3. reflexivity.
  - change uint128 with N in *. rewrite K4. reflexivity.
Qed.

(** Alice lets bob spend 500 of token 1, bob spends 300 of them and burns 20,
    alice takes back 150 and sends 5 to the pair, which swaps them: what the token
    reports, and what the follower concludes. *)
Definition ex_heard : list (bool * cmsg) :=
  [(true, x_call "#1" (JIncreaseAllowance "bob" 500 None)); (false, x_call "#1" (JTransferFrom "alice" "carol" 300));
   (false, x_call "#1" (JBurnFrom "alice" 20)); (true, x_call "#1" (JDecreaseAllowance "bob" 150 None)); (true, x_call "#1" (JSend "#4" 5 (HSwap None None None)))]%string.
Example C91_case :
  let l := map ev_attrs (own "#1" (log_of ex_world ex_heard)) in
  let V := fold_left heard l (View (balance_of (tok_of ex_world "#1")) (tk_supply (tok_of ex_world "#1")) (fun _ _ => 0) "alice") in
  tok_at ex_world "#1" (tok_of ex_world "#1") /\ is_ok (script ex_world ex_heard) = true /\
  l = [[("action", "increase_allowance"); ("owner", "alice"); ("spender", "bob"); ("amount", "500")];
       [("action", "transfer_from"); ("from", "alice"); ("to", "carol"); ("by", "bob"); ("amount", "300")];
       [("action", "burn_from"); ("from", "alice"); ("by", "bob"); ("amount", "20")];
       [("action", "decrease_allowance"); ("owner", "alice"); ("spender", "bob"); ("amount", "150")];
       [("action", "send"); ("from", "alice"); ("to", "#4"); ("amount", "5")]]%string /\
  v_balance V "carol" = 300 /\ v_allowed V "alice" "bob" = 30 /\ v_supply V + 20 = tk_supply (tok_of ex_world "#1") /\
  v_balance V "#4" = balance_of (tok_of ex_world "#1") "#4" + 5.
Proof.
  intros l V. split; [apply tok_of_at; vm_compute; reflexivity|]. repeat (split; [vm_compute; reflexivity|]). vm_compute. reflexivity.
Qed.
