(** What a comment is in C++, Rust, Go and Python. *)
From Coq Require Import List Bool String Ascii.
From Verif Require Import PyBase PyText GenAstSpec GenLiterals LiteralSpec GenDocs.
Import ListNotations.
Local Open Scope string_scope.

Definition begins_with (p s : string) : Prop := exists r, s = p ++ r.
(** A line (of code) with a comment and nothing else *)
Definition comment_line (marker l : string) : Prop := exists blanks r, only_chars (fun c => Ascii.eqb c " ") blanks = true /\ l = blanks ++ marker ++ r.
(** All lines of a text are comments. *)
Definition all_comments (marker code : string) : Prop := forall l, In l (split_on nl code) -> comment_line marker l.
(** All lines of a text are comments or empty. *)
Definition comments_or_empty (marker code : string) : Prop := forall l, In l (split_on nl code) -> l = "" \/ comment_line marker l.

(** A line of a comment that [rust_doc] recognises: it is blank, or its first characters are [*], [/*] or [//]. *)
Definition recognised (l : string) : Prop :=
  (exists blanks r, only_chars (among [9; 32]) blanks = true /\ (l = blanks ++ "*" ++ r \/ l = blanks ++ "/*" ++ r)) \/ strip l = "" \/ begins_with "//" (strip l).

(** What follows a comment in C++: lines ending in a backslash are joined, then [/*] goes on to the first [*/], [//] to the end of the line. *)
Fixpoint rest_of_line (s : string) : string := match s with "" => "" | String c t => if Ascii.eqb c nl then s else rest_of_line t end.
Definition cpp_after_comment (src : string) : option string :=
  let s := splice src in
  match after_prefix "/*" s with
  | Some r => match until "*/" r with Some (_, rest) => Some rest | None => None end
  | None => match after_prefix "//" s with Some r => Some (rest_of_line r) | None => None end
  end.
(** No backslash at the end of a line *)
Definition unspliced (s : string) : Prop := forall x y, s <> x ++ String backslash (String nl y).
