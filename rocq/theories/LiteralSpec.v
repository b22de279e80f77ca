(** How C++, Rust, Go and Python read string literals. *)
From Coq Require Import List Bool String Ascii.
From Verif Require Import PyBase PyText GenLiterals.
Import ListNotations.
Local Open Scope string_scope.

(** What is left of [s] after [p] *)
Fixpoint after_prefix (p s : string) : option string :=
  match p, s with
  | "", _ => Some s
  | String a p, String b s => if Ascii.eqb a b then after_prefix p s else None
  | _, "" => None
  end.
(** The text before the first [stop], and what follows it *)
Fixpoint until (stop s : string) : option (string * string) :=
  match after_prefix stop s with
  | Some rest => Some ("", rest)
  | None => match s with
            | "" => None
            | String c s => match until stop s with Some (v, rest) => Some (String c v, rest) | None => None end
            end
  end.
Definition delimited (start stop src : string) : option (string * string) :=
  match after_prefix start src with Some s => until stop s | None => None end.
Fixpoint mentions (c : ascii) (s : string) : bool := match s with "" => false | String a s => Ascii.eqb a c || mentions c s end.

(** ** C++: lines ending in a backslash are joined (phase 2); adjacent literals make one string (phase 6) *)
Fixpoint splice (s : string) : string :=
  match s with
  | "" => ""
  | String a s' =>
      match s' with
      | String b s'' => if Ascii.eqb a backslash && Ascii.eqb b nl then splice s'' else String a (splice s')
      | "" => s
      end
  end.
Definition blank (c : ascii) : bool := Ascii.eqb c " " || Ascii.eqb c nl || Ascii.eqb c (ascii_of_nat 9).
(** Escape sequences; others (octal, hexadecimal, universal names) are not read here. *)
Definition escaped (c : ascii) : option ascii :=
  if Ascii.eqb c "n" then Some nl else if Ascii.eqb c "t" then Some (ascii_of_nat 9) else if Ascii.eqb c "r" then Some cr
  else if Ascii.eqb c backslash || Ascii.eqb c quote || Ascii.eqb c (ascii_of_nat 39) then Some c else None.
Definition put (c : ascii) (r : option (string * string)) : option (string * string) :=
  match r with Some (v, rest) => Some (String c v, rest) | None => None end.
Fixpoint cpp_strings (inside : bool) (s : string) : option (string * string) :=
  match s with
  | "" => if inside then None else Some ("", "")
  | String c t =>
      if inside then
        if Ascii.eqb c quote then cpp_strings false t
        else if Ascii.eqb c nl then None
        else if Ascii.eqb c backslash then
          match t with
          | String d t => match escaped d with Some e => put e (cpp_strings true t) | None => None end
          | "" => None
          end
        else put c (cpp_strings true t)
      else if blank c then cpp_strings false t
      else if Ascii.eqb c quote then cpp_strings true t
      else Some ("", s)
  end.
Definition cpp_reads (src : string) : option (string * string) := cpp_strings false (splice src).
Definition cpp_raw_reads (src : string) : option (string * string) := delimited cpp_raw_open cpp_raw_close src.

(** ** Rust: r#"..."#; a carriage return before a newline is dropped, any other is an error *)
Fixpoint join_crlf (s : string) : string :=
  match s with
  | "" => ""
  | String a s' =>
      match s' with
      | String b s'' => if Ascii.eqb a cr && Ascii.eqb b nl then String nl (join_crlf s'') else String a (join_crlf s')
      | "" => s
      end
  end.
Definition rust_reads (src : string) : option (string * string) :=
  match delimited rust_open rust_close (join_crlf src) with
  | Some (v, rest) => if mentions cr v then None else Some (v, rest)
  | None => None
  end.

(** ** Go: `...`, without carriage returns *)
Fixpoint without (c : ascii) (s : string) : string := match s with "" => "" | String a s => if Ascii.eqb a c then without c s else String a (without c s) end.
Definition go_reads (src : string) : option (string * string) :=
  match delimited (one tick) (one tick) src with Some (v, rest) => Some (without cr v, rest) | None => None end.

(** ** Python: """..."""; carriage returns are newlines (alone or before one); unknown escape sequences stay.  Octal, hexadecimal and
    Unicode escapes are not read here. *)
Fixpoint newlines (s : string) : string :=
  match s with
  | "" => ""
  | String a s' =>
      if Ascii.eqb a cr then
        match s' with
        | String b s'' => if Ascii.eqb b nl then String nl (newlines s'') else String nl (newlines s')
        | "" => one nl
        end
      else String a (newlines s')
  end.
Definition py_unread (c : ascii) : bool := existsb (Ascii.eqb c) ["x"; "N"; "u"; "U"; "0"; "1"; "2"; "3"; "4"; "5"; "6"; "7"; "a"; "b"; "f"; "v"]%char.
Fixpoint py_body (s : string) : option (string * string) :=
  match after_prefix three s with
  | Some rest => Some ("", rest)
  | None =>
      match s with
      | "" => None
      | String c t =>
          if Ascii.eqb c backslash then
            match t with
            | "" => None
            | String d u =>
                if Ascii.eqb d nl then py_body u
                else match escaped d with
                     | Some e => put e (py_body u)
                     | None => if py_unread d then None else put c (put d (py_body u))
                     end
            end
          else put c (py_body t)
      end
  end.
Definition py_reads (src : string) : option (string * string) :=
  match after_prefix three (newlines src) with Some s => py_body s | None => None end.
