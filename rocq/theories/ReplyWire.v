(** The bytes in which a pair and the factory are told the address of a contract
    they instantiated: cw-utils 1.0.0, parse_reply.rs (protobuf), as called in
    contracts/halo-pair/src/contract.rs:194-196 and
    contracts/halo-factory/src/contract.rs:233-243. *)
From Verif Require Import Base BigNumber CwStd Asset Messages PairMath Pair Token Factory Router World.
From Coq Require Import Ascii String.
Local Open Scope N_scope.

(** core::str::from_utf8, as a test: the well-formed byte sequences (Unicode 15,
    table 3-7). *)
Definition cont (c : ascii) : bool := (128 <=? N_of_ascii c) && (N_of_ascii c <? 192).
Definition second_lo (n : N) : N := if n =? 224 then 160 else if n =? 240 then 144 else 128.
Definition second_hi (n : N) : N := if n =? 237 then 160 else if n =? 244 then 144 else 192.
Fixpoint is_utf8 (s : string) : bool :=
  match s with
  | EmptyString => true
  | String a r =>
      let n := N_of_ascii a in
      if n <? 128 then is_utf8 r
      else match r with
      | String b r1 =>
          (second_lo n <=? N_of_ascii b) && (N_of_ascii b <? second_hi n) &&
          (if (194 <=? n) && (n <? 224) then is_utf8 r1
           else match r1 with
           | String c r2 =>
               cont c &&
               (if (224 <=? n) && (n <? 240) then is_utf8 r2
                else match r2 with
                | String d r3 => cont d && (240 <=? n) && (n <? 245) && is_utf8 r3
                | EmptyString => false
                end)
           | EmptyString => false
           end)
      | EmptyString => false
      end
  end.

(** parse_protobuf_varint: at most VARINT_MAX_BYTES = 9 bytes; [k] counts down
    from 9, [unit] is 2^(7*i). *)
Fixpoint varint (k : nat) (unit acc : N) (data : string) : option (N * string) :=
  match k with
  | O => None
  | S k =>
      match data with
      | EmptyString => None
      | String c r =>
          let acc := acc + N_of_ascii c mod 128 * unit in
          if N_of_ascii c <? 128 then Some (acc, r) else varint k (unit * 128) acc r
      end
  end.
(** Vec::split_off, from the front; None if there are too few bytes. *)
Fixpoint split_at (n : nat) (s : string) : option (string * string) :=
  match n, s with
  | O, _ => Some (EmptyString, s)
  | S n, String c r => match split_at n r with Some (a, b) => Some (String c a, b) | None => None end
  | S _, EmptyString => None
  end.
(** parse_protobuf_length_prefixed. The wire type is masked with 0b11. The length
    is cast with `as usize`, which is 32 bits in wasm32. *)
Definition length_prefixed (field : N) (data : string) : option (string * string) :=
  match data with
  | EmptyString => Some (EmptyString, EmptyString)
  | String t r =>
      if negb (N_of_ascii t / 8 =? field) then None
      else if negb (N_of_ascii t mod 4 =? 2) then None
      else match varint 9 1 0 r with
           | Some (len, r1) =>
               (* compare before counting in unary *)
               if N.of_nat (String.length r1) <? len mod 2 ^ 32 then None
               else split_at (N.to_nat (len mod 2 ^ 32)) r1
           | None => None
           end
  end.
(** parse_instantiate_response_data: the address and the optional data; what
    follows is ignored. All errors are alike, the callers unwrap. *)
Definition parse_instantiate (data : string) : option (string * option string) :=
  match length_prefixed 1 data with
  | Some (addr, r) =>
      if is_utf8 addr then
        match length_prefixed 2 r with
        | Some (EmptyString, _) => Some (addr, None)
        | Some (d, _) => Some (addr, Some d)
        | None => None
        end
      else None
  | None => None
  end.
(** parse_reply_instantiate_data(msg).unwrap(): [r] is None for a failed
    submessage, Some None if there are no data. *)
Definition new_address (r : option (option string)) : res string :=
  match r with
  | Some (Some b) => match parse_instantiate b with Some (a, _) => Ok a | None => panic "called Result::unwrap() on an Err value" end
  | _ => panic "called Result::unwrap() on an Err value"
  end.
(** halo-pair contract.rs:194-205 *)
Definition pair_reply_bytes (A : api) (st : pair_info_raw) (r : option (option string)) : res (pair_info_raw * response) :=
  let* a := new_address r in pair_reply A st a.
(** halo-factory contract.rs:233-262 *)
Definition factory_reply_bytes (A : api) (Q : querier) (st : factory_state) (r : option (option string)) : res (factory_state * response) :=
  let* _ := oget (f_tmp st) ENotFound in
  let* a := new_address r in factory_reply A Q st a.
