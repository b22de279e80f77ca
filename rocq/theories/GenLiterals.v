(** Model of how the generator puts schema texts and comments into C++, Rust, Go and Python code. *)
From Coq Require Import List Bool String Ascii.
From Verif Require Import PyBase PyText.
Import ListNotations.
Local Open Scope string_scope.

Definition nl : ascii := ascii_of_nat 10.
Definition cr : ascii := ascii_of_nat 13.
Definition quote : ascii := ascii_of_nat 34.
Definition backslash : ascii := ascii_of_nat 92.
Definition tick : ascii := ascii_of_nat 96.
Definition one (c : ascii) : string := String c "".

(** [s.replace(c, by)] for a single character *)
Fixpoint replace_with (c : ascii) (by_ : string) (s : string) : string :=
  match s with
  | "" => ""
  | String a s => if Ascii.eqb a c then by_ ++ replace_with c by_ s else String a (replace_with c by_ s)
  end.
(** generators/cpp.py:25-28 [_safe_cpp_string_line], generators/python.py:78-79 [_safe_py_string_line] *)
Definition escape (s : string) : string :=
  replace_with quote (String backslash (one quote)) (replace_with backslash (String backslash (one backslash)) s).

(** templates/cpp/archive.jinja2:94-100: the literals of the schemas of archives and resources *)
Definition cpp_join : string := String backslash "n" ++ one quote ++ one nl ++ "    " ++ one quote.
Definition cpp_literal (schema : string) : string :=
  one quote ++ join cpp_join (map escape (split_on nl schema)) ++ one quote.
(** templates/cpp/structure.jinja2:77 *)
Definition cpp_raw_open : string := "R" ++ one quote ++ "schema(".
Definition cpp_raw_close : string := ")schema" ++ one quote.
Definition cpp_struct_literal (schema : string) : string := cpp_raw_open ++ schema ++ cpp_raw_close.
(** templates/rust/rust.jinja2:41, 45 *)
Definition rust_open : string := "r#" ++ one quote.
Definition rust_close : string := one quote ++ "#".
Definition rust_literal (schema : string) : string := rust_open ++ schema ++ rust_close.
(** templates/go/archive.jinja2:136 *)
Definition go_literal (schema : string) : string := one tick ++ schema ++ one tick.
(** templates/py/python.jinja2:12, 34-37, 63-66 (texts of archives and resources, and all comments), :13 (texts of structures) *)
Definition three : string := String quote (String quote (one quote)).
Definition py_literal (schema : string) : string := three ++ escape schema ++ three.
Definition py_struct_literal (schema : string) : string := three ++ schema ++ three.
