(** JSON text and base64, as used for every message of /repo
    (cosmwasm_std::to_binary / from_binary: serde-json-wasm 0.4.1, and
    cosmwasm_std::Binary: base64 0.13.1).

    Only the forms that occur in /repo's message types are kept: null, unsigned
    integers, strings, arrays and objects. Other forms (booleans, negative and
    fractional numbers) are refused here; every decoder of /repo's types refuses
    them as well, because no field has such a type and unknown fields are
    refused. Strings are sequences of bytes; that they are valid UTF-8 is not
    checked. *)
From Verif Require Import Base BigNumber.
From Coq Require Import Ascii String.
Local Open Scope N_scope.

Inductive json :=
| VNull
| VNum (n : N)
| VStr (s : string)
| VArr (l : list json)
| VObj (l : list (string * json)).

(** ** Writing (serde_json_wasm::to_vec): no white space; the quotation mark, the
    backslash and control characters are escaped. *)
Definition hex_digit (d : N) : ascii := ascii_of_N (if d <? 10 then 48 + d else 55 + d).
Definition escape (c : ascii) : string :=
  match N_of_ascii c with
  | 34 => "\"""
  | 92 => "\\"
  | 8 => "\b"
  | 9 => "\t"
  | 10 => "\n"
  | 12 => "\f"
  | 13 => "\r"
  | n => if n <? 32 then String "\" (String "u" (String "0" (String "0" (String (hex_digit (n / 16)) (String (hex_digit (n mod 16)) "")))))
         else String c ""
  end.
Fixpoint escaped (s : string) : string :=
  match s with EmptyString => EmptyString | String c r => (escape c ++ escaped r)%string end.
Definition quote (s : string) : string := (String """" (escaped s ++ """"))%string.
Fixpoint render (v : json) : string :=
  match v with
  | VNull => "null"
  | VNum n => dec_to_string n
  | VStr s => quote s
  | VArr [] => "[]"
  | VArr (x :: l) =>
      ("[" ++ render x ++ (fix more l := match l with [] => "]" | y :: l => "," ++ render y ++ more l end) l)%string
  | VObj [] => "{}"
  | VObj ((k, x) :: l) =>
      ("{" ++ quote k ++ ":" ++ render x ++
       (fix more l := match l with [] => "}" | (k, y) :: l => "," ++ quote k ++ ":" ++ render y ++ more l end) l)%string
  end.

(** ** Reading (serde_json_wasm::from_slice) *)
Definition is_space (c : ascii) : bool :=
  let n := N_of_ascii c in (n =? 32) || (n =? 9) || (n =? 10) || (n =? 13).
Fixpoint skip (s : string) : string :=
  match s with String c r => if is_space c then skip r else s | EmptyString => EmptyString end.

Definition hex_val (c : ascii) : option N :=
  let n := N_of_ascii c in
  if (48 <=? n) && (n <=? 57) then Some (n - 48)
  else if (65 <=? n) && (n <=? 70) then Some (n - 55)
  else if (97 <=? n) && (n <=? 102) then Some (n - 87)
  else None.
Definition hex4 (a b c d : ascii) : option N :=
  match hex_val a, hex_val b, hex_val c, hex_val d with
  | Some a, Some b, Some c, Some d => Some (((a * 16 + b) * 16 + c) * 16 + d)
  | _, _, _, _ => None
  end.
(** A code point in UTF-8. *)
Definition utf8 (n : N) : string :=
  let t k := ascii_of_N (128 + (n / 64 ^ k) mod 64) in
  if n <? 128 then String (ascii_of_N n) ""
  else if n <? 2048 then String (ascii_of_N (192 + n / 64)) (String (t 0) "")
  else if n <? 65536 then String (ascii_of_N (224 + n / 4096)) (String (t 1) (String (t 0) ""))
  else String (ascii_of_N (240 + n / 262144)) (String (t 2) (String (t 1) (String (t 0) ""))).
Definition simple_escape (c : ascii) : option ascii :=
  match N_of_ascii c with
  | 34 => Some c
  | 92 => Some c
  | 47 => Some c
  | 98 => Some (ascii_of_N 8)
  | 116 => Some (ascii_of_N 9)
  | 110 => Some (ascii_of_N 10)
  | 102 => Some (ascii_of_N 12)
  | 114 => Some (ascii_of_N 13)
  | _ => None
  end.
(** The rest of a string after its opening quotation mark. *)
Definition then_str (p : string) (o : option (string * string)) : option (string * string) :=
  match o with Some (s, r) => Some ((p ++ s)%string, r) | None => None end.
Fixpoint read_str (s : string) : option (string * string) :=
  match s with
  | EmptyString => None
  | String c r =>
      if N_of_ascii c =? 34 then Some (EmptyString, r)
      else if N_of_ascii c =? 92 then
        match r with
        | String "u" (String a (String b (String c (String d r1)))) =>
            match hex4 a b c d with
            | Some n =>
                if (55296 <=? n) && (n <? 57344) then      (* a surrogate: the first of a pair *)
                  match r1 with
                  | String "\" (String "u" (String a (String b (String c (String d r2))))) =>
                      match hex4 a b c d with
                      | Some m => if (n <? 56320) && (56320 <=? m) && (m <? 57344)
                                  then then_str (utf8 (65536 + (n - 55296) * 1024 + (m - 56320))) (read_str r2) else None
                      | None => None
                      end
                  | _ => None
                  end
                else then_str (utf8 n) (read_str r1)
            | None => None
            end
        | String e r1 => match simple_escape e with Some c => then_str (String c "") (read_str r1) | None => None end
        | EmptyString => None
        end
      else then_str (String c "") (read_str r)
  end.

(** An unsigned integer: no leading zeros. *)
Fixpoint read_digits (acc : N) (s : string) : N * string :=
  match s with
  | String c r => if is_digit c then read_digits (acc * 10 + digit_val c) r else (acc, s)
  | EmptyString => (acc, s)
  end.
Definition read_num (c : ascii) (r : string) : N * string :=
  if N_of_ascii c =? 48 then (0, r) else read_digits (digit_val c) r.

(** [fuel] bounds the nesting and the number of elements; the caller passes
    enough. *)
Fixpoint read_val (fuel : nat) (s : string) : option (json * string) :=
  match fuel with
  | O => None
  | S f =>
      match skip s with
      | String "n" (String "u" (String "l" (String "l" r))) => Some (VNull, r)
      | String """" r => match read_str r with Some (s, r) => Some (VStr s, r) | None => None end
      | String "[" r =>
          match skip r with
          | String "]" r => Some (VArr [], r)
          | r => match read_elems f r with Some (l, r) => Some (VArr l, r) | None => None end
          end
      | String "{" r =>
          match skip r with
          | String "}" r => Some (VObj [], r)
          | r => match read_fields f r with Some (l, r) => Some (VObj l, r) | None => None end
          end
      | String c r => if is_digit c then let '(n, r) := read_num c r in Some (VNum n, r) else None
      | EmptyString => None
      end
  end
with read_elems (fuel : nat) (s : string) : option (list json * string) :=
  match fuel with
  | O => None
  | S f =>
      match read_val f s with
      | Some (v, r) =>
          match skip r with
          | String "]" r => Some ([v], r)
          | String "," r => match read_elems f r with Some (l, r) => Some (v :: l, r) | None => None end
          | _ => None
          end
      | None => None
      end
  end
with read_fields (fuel : nat) (s : string) : option (list (string * json) * string) :=
  match fuel with
  | O => None
  | S f =>
      match skip s with
      | String """" r =>
          match read_str r with
          | Some (k, r) =>
              match skip r with
              | String ":" r =>
                  match read_val f r with
                  | Some (v, r) =>
                      match skip r with
                      | String "}" r => Some ([(k, v)], r)
                      | String "," r => match read_fields f r with Some (l, r) => Some ((k, v) :: l, r) | None => None end
                      | _ => None
                      end
                  | None => None
                  end
              | _ => None
              end
          | None => None
          end
      | _ => None
      end
  end.
Definition parse (s : string) : option json :=
  match read_val (2 * String.length s + 2) s with
  | Some (v, r) => match skip r with EmptyString => Some v | _ => None end
  | None => None
  end.

(** ** Base64 (base64 0.13.1, STANDARD): A-Z a-z 0-9 + /, padded with =.
    Reading refuses text without padding and text whose unused bits are not
    zero. *)
Definition b64_char (n : N) : ascii :=
  ascii_of_N (if n <? 26 then 65 + n else if n <? 52 then 71 + n else if n <? 62 then n - 4 else if n =? 62 then 43 else 47).
Definition b64_val (c : ascii) : option N :=
  let n := N_of_ascii c in
  if (65 <=? n) && (n <=? 90) then Some (n - 65)
  else if (97 <=? n) && (n <=? 122) then Some (n - 71)
  else if (48 <=? n) && (n <=? 57) then Some (n + 4)
  else if n =? 43 then Some 62
  else if n =? 47 then Some 63
  else None.
Fixpoint b64_encode (s : string) : string :=
  match s with
  | EmptyString => EmptyString
  | String a EmptyString =>
      let a := N_of_ascii a in
      String (b64_char (a / 4)) (String (b64_char (a mod 4 * 16)) "==")
  | String a (String b EmptyString) =>
      let a := N_of_ascii a in let b := N_of_ascii b in
      String (b64_char (a / 4)) (String (b64_char (a mod 4 * 16 + b / 16)) (String (b64_char (b mod 16 * 4)) "="))
  | String a (String b (String c r)) =>
      let a := N_of_ascii a in let b := N_of_ascii b in let c := N_of_ascii c in
      String (b64_char (a / 4)) (String (b64_char (a mod 4 * 16 + b / 16))
        (String (b64_char (b mod 16 * 4 + c / 64)) (String (b64_char (c mod 64)) (b64_encode r))))
  end.
Fixpoint b64_decode (s : string) : option string :=
  match s with
  | EmptyString => Some EmptyString
  | String p (String q (String x (String y r))) =>
      match b64_val p, b64_val q with
      | Some p, Some q =>
          let a := ascii_of_N (p * 4 + q / 16) in
          match b64_val x with
          | Some x =>
              let b := ascii_of_N (q mod 16 * 16 + x / 4) in
              match b64_val y with
              | Some y =>
                  match b64_decode r with
                  | Some t => Some (String a (String b (String (ascii_of_N (x mod 4 * 64 + y)) t)))
                  | None => None
                  end
              | None => if Ascii.eqb y "=" && (x mod 4 =? 0) then match r with EmptyString => Some (String a (String b "")) | _ => None end else None
              end
          | None => if Ascii.eqb x "=" && Ascii.eqb y "=" && (q mod 16 =? 0) then match r with EmptyString => Some (String a "") | _ => None end else None
          end
      | _, _ => None
      end
  | _ => None
  end.
