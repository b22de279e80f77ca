(** Python text primitives used by the generator: str.split / join / replace / upper on single
    characters, str(int) and int(text, 0).  Nothing here is specific to flatdata. *)
From Coq Require Import List ZArith Bool String Ascii DecimalString DecimalZ.
From Verif Require Import PyBase.
Import ListNotations.
Local Open Scope Z_scope.

(** [s.split(c)] for a one-character separator: never empty. *)
Fixpoint split_on (c : ascii) (s : string) : list string :=
  match s with
  | EmptyString => [EmptyString]
  | String a t => if Ascii.eqb a c then EmptyString :: split_on c t
                  else match split_on c t with
                       | [] => [String a EmptyString]
                       | w :: ws => String a w :: ws
                       end
  end.

(** [sep.join(l)] *)
Definition join (sep : string) (l : list string) : string := String.concat sep l.

(** [s.replace(a, b)] for one-character [a], [b]. *)
Fixpoint replace_char (a b : ascii) (s : string) : string :=
  match s with
  | EmptyString => EmptyString
  | String c t => String (if Ascii.eqb c a then b else c) (replace_char a b t)
  end.

(** [c in s] *)
Fixpoint has_char (c : ascii) (s : string) : bool :=
  match s with EmptyString => false | String a t => Ascii.eqb a c || has_char c t end.

(** [str(n)] *)
Definition py_str (n : Z) : string := NilZero.string_of_int (Z.to_int n).

(** Value of one digit in base 10 / 16 *)
Definition digit_val (base : Z) (c : ascii) : option Z :=
  let n := Z.of_N (N_of_ascii c) in
  let v := if (48 <=? n) && (n <=? 57) then Some (n - 48)
           else if (97 <=? n) && (n <=? 102) then Some (n - 87)
           else if (65 <=? n) && (n <=? 70) then Some (n - 55) else None in
  match v with Some d => if d <? base then Some d else None | None => None end.

Fixpoint digits_val (base acc : Z) (s : string) : option Z :=
  match s with
  | EmptyString => Some acc
  | String c t => match digit_val base c with Some d => digits_val base (acc * base + d) t | None => None end
  end.

(** Unsigned [int(s, 0)] restricted to the literals of grammar.py:24-26 (decimal digits or 0x hex
    digits; underscores, 0o, 0b and blanks cannot occur): a decimal with leading zeros is rejected
    unless it is zero. *)
Definition int0_body (s : string) : option Z :=
  match s with
  | EmptyString => None
  | String "0" (String "x" EmptyString) => None
  | String "0" (String "x" t) => digits_val 16 0 t
  | String "0" t => match digits_val 10 0 t with Some v => if v =? 0 then Some 0 else None | None => None end
  | _ => digits_val 10 0 s
  end.
Definition py_int0 (s : string) : res Z :=
  let r := match s with
           | String "-" t => option_map Z.opp (int0_body t)
           | _ => int0_body s
           end in
  match r with Some v => Ok v | None => Err ValueError end.

(** [v.bit_length()] *)
Definition bit_length (v : Z) : Z := if v =? 0 then 0 else Z.log2 (Z.abs v) + 1.

(** [range(a, b)] *)
Definition zrange (a b : Z) : list Z := map (fun i => a + Z.of_nat i) (seq 0 (Z.to_nat (b - a))).

(** ASCII part of [s.upper()] (identifiers are ASCII, grammar.py:16-17) *)
Definition upper_char (c : ascii) : ascii :=
  let n := N_of_ascii c in if ((97 <=? n) && (n <=? 122))%N then ascii_of_N (n - 32) else c.
Fixpoint upper (s : string) : string :=
  match s with EmptyString => EmptyString | String c t => String (upper_char c) (upper t) end.
