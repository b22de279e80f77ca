(** Model of how the generator puts the comments of a schema into C++, Rust, Go and Python code.

    Simplification: characters are those with numbers below 256 (Python also ends lines at U+2028 and U+2029). *)
From Coq Require Import List Bool String Ascii.
From Verif Require Import PyBase PyText GenLiterals LiteralSpec.
Import ListNotations.
Local Open Scope string_scope.

Definition among (l : list nat) (c : ascii) : bool := existsb (Nat.eqb (nat_of_ascii c)) l.
(** [str.splitlines()] *)
Definition line_end : ascii -> bool := among [10; 11; 12; 13; 28; 29; 30; 133].
Fixpoint split_lines (s cur : string) (open : bool) : list string :=
  match s with
  | "" => if open then [cur] else []
  | String c t =>
      if line_end c then
        cur :: match t with
               | String d u => if Ascii.eqb c cr && Ascii.eqb d nl then split_lines u "" false else split_lines t "" false
               | "" => []
               end
      else split_lines t (cur ++ one c) true
  end.
Definition splitlines (s : string) : list string := split_lines s "" false.
(** [str.isspace] and [\s] *)
Definition is_space : ascii -> bool := among [9; 10; 11; 12; 13; 28; 29; 30; 31; 32; 133; 160].
Fixpoint drop_while (p : ascii -> bool) (s : string) : string := match s with "" => "" | String c t => if p c then drop_while p t else s end.
Fixpoint rstrip (s : string) : string :=
  match s with
  | "" => ""
  | String c t => match rstrip t with "" => if is_space c then "" else one c | u => String c u end
  end.
Definition strip (s : string) : string := rstrip (drop_while is_space s).

(** generators/go.py:27-29 [to_go_doc] *)
Definition nonempty (s : string) : bool := match s with "" => false | _ => true end.
Definition go_doc (doc : string) : string := join (one nl) (map (append "// ") (filter nonempty (splitlines doc))).

(** [s.replace(p, '', 1)] *)
Fixpoint remove_first (p s : string) : string :=
  match after_prefix p s with
  | Some r => r
  | None => match s with "" => "" | String c t => String c (remove_first p t) end
  end.
(** generators/python.py:26-31 [to_python_doc] *)
Definition py_doc (doc : string) : string :=
  join (one nl) (map (fun line => "# " ++ remove_first "//" (remove_first " *" (remove_first "*/" (remove_first "/**" line)))) (splitlines doc)).

(** jinja2's [indent(8)] on a text without other line ends than newlines, and without one at its end
    (templates/go/structure.jinja2:11, templates/py/python.jinja2:20) *)
Definition indent (s : string) : string :=
  match split_on nl s with
  | [] => ""
  | first :: ls => join (one nl) (first :: map (fun l => if nonempty l then "        " ++ l else l) ls)
  end.

(** generators/rust.py:59-73 [_rust_doc]: the regular expression on one line; always the first alternative that matches, as the rest
    matches any text *)
Definition skip_space (s : string) : string := match s with String c t => if is_space c then t else s | "" => "" end.
Definition doc_opening (s : string) : option string :=
  match after_prefix "/**" s with
  | Some r => Some (skip_space r)
  | None => match after_prefix "/*" s with
            | Some r => Some (skip_space r)
            | None => match after_prefix "*/" s with
                      | Some r => Some r
                      | None => match after_prefix "*" s with Some r => Some (skip_space r) | None => None end
                      end
            end
  end.
(** the end of the expression: blanks, then perhaps the end of a comment *)
Definition doc_closing (s : string) : bool := let t := drop_while is_space s in String.eqb t "" || String.eqb t "*/".
(** [(.*?)] *)
Fixpoint doc_text (s : string) : string := if doc_closing s then "" else match s with "" => "" | String c t => String c (doc_text t) end.
Definition rust_line (line : string) : string :=
  strip (match doc_opening (drop_while (among [9; 32]) line) with Some r => "/// " ++ doc_text r | None => line end).
Definition rust_doc (doc : string) : string :=
  let lines := map rust_line (split_on nl doc) in
  let kept := if String.eqb (last lines "") "///" then removelast lines else lines in
  join (one nl) (if String.eqb (hd "" lines) "///" then tl kept else kept).

(** generators/cpp.py:23 [cpp_doc]: unchanged *)
Definition cpp_doc (doc : string) : string := doc.
