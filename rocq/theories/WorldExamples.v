(** A concrete chain with a factory, two tokens, a router, two pairs and a
    third-party contract, used by the Examples next to theorems on histories. *)
From Verif Require Import Base BigNumber CwStd BigNumberFacts Asset Messages PairMath Pair Token Factory Router Examples
  FactoryFacts TokenFacts World WorldInd WorldFacts WorldInv.
From Coq Require Import Ascii String.
Local Open Scope N_scope.

(** Third-party code 5: called with anything, it tries to spend an allowance of
    alice on token #1 in favour of its caller.  Third-party code 6 claims to be
    a pair with LP token bob when asked. *)
Definition thief (w : world) (self sender : string) : response :=
  Response [plain (MExecute "#1" (JTransferFrom "alice" sender 5) [])] [].
Definition ex_chain : chain := {|
  ch_api := ex_api;
  ch_fresh := fun n => String "#" (dec_to_string n);
  ch_codes := fun n => if n =? 1 then Some CPair else if n =? 2 then Some CToken else if n =? 3 then Some CFactory
                       else if n =? 4 then Some CRouter else if n =? 5 then Some (CAdv 0) else if n =? 6 then Some (CAdv 1) else None;
  adv_init := fun _ _ _ _ _ _ => Ok (""%string, Response [] []);
  adv_exec := fun _ w self sender _ _ => Ok (""%string, thief w self sender);
  adv_reply := fun _ _ _ _ _ => Ok (""%string, Response [] []);
  adv_token_balance := fun _ _ _ _ => Ok 0;
  adv_token_info := fun _ _ _ => Ok (TokenInfo "x" "XXX" 6 1);
  adv_native_decimals := fun _ _ _ _ => Ok 6;
  adv_pair_info := fun _ _ _ _ => Err ENotFound;
  adv_simulate := fun _ _ _ _ => Err ENotFound;
  adv_reverse := fun _ _ _ _ => Err ENotFound;
  ch_takeover := fun _ _ => None;
  adv_pair_self := fun k _ _ => if k =? 1 then Ok (PairInfo (Native "uaura", Native "ufoo") "bob" "bob" (6, 6) (Requirements [] 0 0)) else Err ENotFound;
|}.

Lemma lower_byte_idem c : lower_byte (lower_byte c) = lower_byte c.
Proof.
  destruct c as [[] [] [] [] [] [] [] []]; reflexivity.
Qed.
Lemma lower_idem s : lower (lower s) = lower s.
Proof. induction s as [|c s IH]; [reflexivity|]. cbn. rewrite lower_byte_idem, IH. reflexivity. Qed.
Lemma lower_digits s : all_digits s = true -> lower s = s.
Proof.
  induction s as [|c s IH]; [reflexivity|]. cbn. intros H. apply andb_true_iff in H as [H1 H2]. rewrite IH by exact H2.
  f_equal. destruct c as [[] [] [] [] [] [] [] []]; try reflexivity; discriminate.
Qed.
Lemma ex_chain_ok : chain_ok ex_chain.
Proof.
  split; [|reflexivity]. split; cbn [ex_chain ch_api ch_fresh ex_api canon human].
  - intros c h H. case_bool_decide as E; [|discriminate]. destruct c; [discriminate|]. cbn [nonempty] in H. injection H as <-. rewrite E. reflexivity.
  - intros s c H. exists c. destruct (lower s) eqn:E; [discriminate|]. injection H as <-.
    rewrite bool_decide_eq_true_2; [reflexivity|]. rewrite <- E. apply lower_idem.
  - intros s. destruct (lower s); discriminate.
  - intros n m H. injection H as H. apply (f_equal dec_value) in H. rewrite !dec_to_string_value in H. exact H.
  - intros n. unfold norm. cbn [ex_chain ch_api ch_fresh ex_api canon human].
    assert (L : lower (String "#" (dec_to_string n)) = String "#" (dec_to_string n)).
    { cbn [lower]. rewrite (lower_digits _ (dec_to_string_digits n)). reflexivity. }
    rewrite L. cbn [nonempty]. rewrite L, bool_decide_eq_true_2 by reflexivity. reflexivity.
Qed.
Lemma ex_ordinary c s : lower (String c s) = String c s -> c <> "#"%char -> ordinary ex_chain (String c s).
Proof.
  intros L N. split.
  - unfold norm. cbn [ch_api ex_chain ex_api canon human]. rewrite L. cbn [nonempty]. rewrite L, bool_decide_eq_true_2 by reflexivity. reflexivity.
  - intros n E. injection E as E _. auto.
Qed.
Lemma alice_ordinary : ordinary ex_chain "alice". Proof. apply ex_ordinary; [reflexivity|discriminate]. Qed.
Lemma bob_ordinary : ordinary ex_chain "bob". Proof. apply ex_ordinary; [reflexivity|discriminate]. Qed.

(** Transactions of alice ([true]) and bob ([false]), one after another. *)
Definition who (b : bool) : string := if b then "alice" else "bob".
Fixpoint script (w : world) (txs : list (bool * cmsg)) : res (world * list event) :=
  match txs with
  | [] => Ok (w, [])
  | (b, m) :: r =>
      let* '(w1, _, lg1) := exec ex_chain 40 w (who b) m in
      let* '(w2, lg2) := script w1 r in Ok (w2, lg1 ++ lg2)
  end.
Lemma who_ordinary b : ordinary ex_chain (who b).
Proof. destruct b; [apply alice_ordinary|apply bob_ordinary]. Qed.
Lemma history_cons C w s m w1 l1 : tx C w s m w1 l1 -> forall l2 w2, history C w1 l2 w2 -> history C w (l1 ++ l2) w2.
Proof.
  intros T l2 w2 H. induction H as [w1|w1 lg w2 s' m' w3 l3 H IH T'|w1 lg w2 blk H IH H1 H2].
  - rewrite app_nil_r. apply (hist_tx C w [] w s m w1 l1 (hist_refl C w) T).
  - rewrite app_assoc. eapply hist_tx; [apply IH; exact T|exact T'].
  - apply hist_block; auto.
Qed.
Lemma script_history txs : forall w w' lg, script w txs = Ok (w', lg) -> history ex_chain w lg w'.
Proof.
  induction txs as [|[b m] r IH]; intros w w' lg H.
  - injection H as <- <-. constructor.
  - cbn [script] in H. apply rbind_ok in H as ([[w1 x] l1] & E & H). apply rbind_ok in H as ([w2 l2] & E2 & H). injection H as <- <-.
    eapply history_cons; [|apply IH; exact E2]. split; [apply who_ordinary|]. exists 40%nat, x. exact E.
Qed.
Lemma history_reachable C w lg w' : reachable C w -> history C w lg w' -> reachable C w'.
Proof. intros Hr H. induction H; [exact Hr|eapply reach_tx; [apply IHhistory; exact Hr|eassumption]|apply reach_block; auto]. Qed.

Definition ex_genesis : world :=
  World {[ ("alice", "uaura") := 1000000000000; ("bob", "uaura") := 1000000000 ]}%string ∅ 0 (Block 1 1).
Definition x_call (c : string) (m : jmsg) : cmsg := MExecute c m [].
Definition ex_tok (name sym : string) : cmsg :=
  MInstantiate None 2 (IToken (TokenInit name sym 6 [("alice", 1000000000000); ("bob", 1000000000)]%string
    (Some ("alice"%string, Some 2000000000000)))) [] "token".
Definition ex_wl : requirements := Requirements ["alice"%string] 1000 1000.
(** #0 factory, #1 and #2 tokens, #3 router, #4 pair of #1 and uaura with LP
    token #5, #6 pair of #1 and #2 with LP token #7, #8 the thief. *)
Definition ex_setup : list (bool * cmsg) :=
  [(true, MInstantiate None 3 (IFactory 1 2) [] "factory");
   (true, ex_tok "token one" "TOKA"); (true, ex_tok "token two" "TOKB");
   (true, MInstantiate None 4 (IRouter "#0") [] "router");
   (true, MBankSend "#0" [Coin "uaura" 1]);
   (true, x_call "#0" (JAddNativeTokenDecimals "uaura" 6));
   (true, x_call "#0" (JCreatePair (Token "#1", Native "uaura") ex_wl));
   (true, x_call "#0" (JCreatePair (Token "#1", Token "#2") ex_wl));
   (false, MInstantiate None 5 (IRouter "#0") [] "thief");
   (true, x_call "#1" (JIncreaseAllowance "#4" 50000000 None));
   (true, MExecute "#4" (JProvideLiquidity (Asset (Token "#1") 10000000, Asset (Native "uaura") 20000000) None None) [Coin "uaura" 20000000]);
   (true, x_call "#1" (JIncreaseAllowance "#6" 50000000 None));
   (true, x_call "#2" (JIncreaseAllowance "#6" 50000000 None));
   (true, x_call "#6" (JProvideLiquidity (Asset (Token "#1") 10000000, Asset (Token "#2") 30000000) None None))]%string.
(** The world and log after a script; a failing script changes nothing. *)
Definition after (w : world) (txs : list (bool * cmsg)) : world :=
  match script w txs with Ok (w', _) => w' | Err _ => w end.
Definition log_of (w : world) (txs : list (bool * cmsg)) : list event :=
  match script w txs with Ok (_, l) => l | Err _ => [] end.
Lemma after_history w txs : history ex_chain w (log_of w txs) (after w txs).
Proof.
  unfold after, log_of. destruct (script w txs) as [[w' l]|e] eqn:E; [exact (script_history _ _ _ _ E)|constructor].
Qed.
Definition is_ok {X} (r : res X) : bool := match r with Ok _ => true | Err _ => false end.
Lemma one_tx w b m : is_ok (script w [(b, m)]) = true -> tx ex_chain w (who b) m (after w [(b, m)]) (log_of w [(b, m)]).
Proof.
  unfold after, log_of. cbn [script]. destruct (exec ex_chain 40 w (who b) m) as [[[w1 x] l1]|e] eqn:E; cbn; [|discriminate].
  intros _. rewrite app_nil_r. split; [apply who_ordinary|]. exists 40%nat, x. exact E.
Qed.

Definition ex_world : world := after ex_genesis ex_setup.
Lemma ex_reachable : reachable ex_chain ex_world.
Proof. eapply history_reachable; [apply reach_genesis|]. apply after_history. Qed.
(** All of the set-up succeeds: thirteen calls. *)
Example ex_setup_succeeds : is_ok (script ex_genesis ex_setup) = true /\ Datatypes.length (log_of ex_genesis ex_setup) = 13%nat.
Proof. vm_compute. auto. Qed.
Global Opaque after log_of script ex_world.
