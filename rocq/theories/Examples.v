(** A small concrete setting used by the Examples next to the theorems: the Api
    whose human and canonical forms coincide except that letters A-Z are read
    as their lower-case forms, one cw20 / native pair, and queriers. *)
From Verif Require Import Base BigNumber CwStd Asset Messages PairMath Pair.
From Coq Require Import Ascii String.
Local Open Scope N_scope.

Definition lower_byte (c : ascii) : ascii :=
  let n := N_of_ascii c in
  if (65 <=? n) && (n <=? 90) then ascii_of_N (n + 32) else c.
Fixpoint lower (s : string) : string :=
  match s with
  | EmptyString => EmptyString
  | String c r => String (lower_byte c) (lower r)
  end.
Definition nonempty (s : string) : option string :=
  match s with EmptyString => None | _ => Some s end.
Definition ex_api : api := {|
  canon := fun s => nonempty (lower s);
  human := fun c => if bool_decide (lower c = c) then nonempty c else None;
|}.

(** A pair of the cw20 tok and the native uaura, with LP token lp. *)
Definition ex_reqs : requirements := Requirements ["alice"%string] 1000 1000.
Definition ex_pair : pair_info_raw :=
  PairInfoRaw (TokenRaw "tok", NativeRaw "uaura") "pair" "lp" (6, 6) ex_reqs.
(** Reserves [a] of tok and [b] of uaura, LP supply [s]. *)
Definition ex_querier (a b s : N) : querier := {|
  q_balance := fun acc d => if bool_decide (acc = "pair"%string /\ d = "uaura"%string) then Ok b else Ok 0;
  q_token_balance := fun t acc => if bool_decide (t = "tok"%string /\ acc = "pair"%string) then Ok a else Ok 0;
  q_token_info := fun t => if bool_decide (t = "lp"%string) then Ok (TokenInfo "halo liquidity token" "uLP" 6 s)
                           else Ok (TokenInfo "token" "TOK" 6 1000000000000);
  q_native_decimals := fun _ _ => Ok 6;
  q_pair_info := fun _ _ => Err ENotFound;
  q_simulate := fun _ _ => Err ENotFound;
  q_reverse_simulate := fun _ _ => Err ENotFound;
  q_pair_self := fun _ => Err ENotFound;
|}.
