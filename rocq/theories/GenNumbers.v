(** Numbers in generated code (constants and enumerators). *)
From Coq Require Import List ZArith Bool String Ascii.
From Verif Require Import PyBase PyText.
Import ListNotations.
Local Open Scope string_scope.

(** [\d] on the ASCII text of a number *)
Definition is_digit (c : ascii) : bool := match digit_val 10 c with Some _ => true | None => false end.

(** generators/rust.py:39: the lookahead [(\d{3})+(?!\d)] matches at the start of [s]: some groups of three digits, then no digit *)
Fixpoint threes (s : string) : bool :=
  match s with
  | String a (String b (String c t)) =>
      is_digit a && is_digit b && is_digit c &&
      (match t with String d _ => negb (is_digit d) | EmptyString => true end || threes t)
  | _ => false
  end.
(** generators/rust.py:38-39: [re.sub(r"(\d)(?=(\d{3})+(?!\d))", r"\1_", s)]; a match is one character, so all positions are tried *)
Fixpoint separate (s : string) : string :=
  match s with
  | EmptyString => EmptyString
  | String c t => if is_digit c && threes t then String c (String "_" (separate t)) else String c (separate t)
  end.
(** generators/rust.py:34-42 [_format_numeric_literal] for an integer; templates/rust/constant.jinja2:6, enumeration.jinja2:16 *)
Definition rust_number (v : Z) : string := separate (py_str v).
(** templates/cpp/constant.jinja2:7, templates/cpp/enumeration.jinja2:12, templates/go/base.jinja2:32,
    templates/flatdata/constant.jinja2:2, templates/flatdata/enumeration.jinja2:5: [{{ value }}] *)
Definition plain_number (v : Z) : string := py_str v.
