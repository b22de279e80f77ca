(** How the target languages read numbers. *)
From Coq Require Import List ZArith Bool String Ascii.
From Verif Require Import PyBase PyText Spec GenSpec.
Import ListNotations.
Local Open Scope string_scope.
Local Open Scope Z_scope.

Definition digit (c : ascii) : option Z :=
  let n := Z.of_N (N_of_ascii c) in if (48 <=? n) && (n <=? 57) then Some (n - 48) else None.
(** The number with these digits in a base, read from the left *)
Fixpoint digits (base acc : Z) (s : string) : option Z :=
  match s with
  | EmptyString => Some acc
  | String c t => match digit c with Some d => if d <? base then digits base (acc * base + d) t else None | None => None end
  end.
Fixpoint drop (c : ascii) (s : string) : string :=
  match s with EmptyString => EmptyString | String a t => if Ascii.eqb a c then drop c t else String a (drop c t) end.
Definition negated (read : string -> option Z) (s : string) : option Z :=
  match s with String "-" t => option_map Z.opp (read t) | _ => read s end.

(** Rust: a digit, then digits and underscores, which count for nothing; the value must be one of the type (also [-128] for i8, of
    which the literal itself is not: the compiler looks at both), and numbers are no booleans. *)
Definition rust_unsigned (s : string) : option Z :=
  match s with
  | String c t => match digit c with Some _ => digits 10 0 (drop "_" s) | None => None end
  | EmptyString => None
  end.
Definition in_type (ty : string) (v : Z) : bool :=
  existsb (fun t : string * (bool * Z) => String.eqb (fst t) ty && (if fst (snd t) then (- 2 ^ (snd (snd t) - 1) <=? v) && (v <? 2 ^ (snd (snd t) - 1)) else (0 <=? v) && (v <? 2 ^ snd (snd t)))) basic_types.
Definition typed (ty : string) (v : option Z) : option Z := match v with Some v => if in_type ty v then Some v else None | None => None end.
Definition rust_reads_number (ty src : string) : option Z :=
  if String.eqb ty "bool" then None else typed ty (negated rust_unsigned src).

(** C++: with a leading zero octal, else decimal; no type for a decimal number from 2^63 on, whatever its sign; the value must be
    one of the underlying type. *)
Definition cpp_unsigned (s : string) : option Z :=
  match s with
  | String c t => match digit c with
                  | Some 0 => digits 8 0 t
                  | Some _ => match digits 10 0 s with Some v => if v <? 2 ^ 63 then Some v else None | None => None end
                  | None => None
                  end
  | EmptyString => None
  end.
Definition cpp_reads_number (ty src : string) : option Z := typed ty (negated cpp_unsigned src).

(** Go: decimal without leading zero, of any size; the value must be one of the type; constants of type bool are of type uint8. *)
Definition go_unsigned (s : string) : option Z :=
  match s with
  | String c t => match digit c with
                  | Some 0 => digits 8 0 t
                  | Some _ => digits 10 0 s
                  | None => None
                  end
  | EmptyString => None
  end.
Definition go_reads_number (ty src : string) : option Z := typed (if String.eqb ty "bool" then "u8" else ty) (negated go_unsigned src).

(** Digits in groups of three, counted from the right, with underscores between them *)
Definition all_digits (s : string) : Prop := digits 10 0 s <> None.
Definition grouped (s : string) : Prop :=
  exists first rest, s = String.concat "_" (first :: rest) /\ all_digits first /\ (1 <= String.length first <= 3)%nat
    /\ Forall (fun g => all_digits g /\ String.length g = 3%nat) rest.
