(** Model of the Rust crate's build helper (flatdata-rs/lib/src/generator.rs:71-172) and of the command line program it runs
    (flatdata-generator/flatdata/generator/app.py).

    A file system gives for every path - a list of names, from the root - what is there.  Left out: how the generator is installed
    (78-114), symbolic links, permissions, messages, and everything printed for cargo. *)
From Coq Require Import List Bool String Ascii.
Import ListNotations.
Local Open Scope string_scope.

Definition path := list string.
Inductive entry := File (text : string) | Dir.
Definition fs := path -> option entry.
Definition path_eq_dec : forall p q : path, {p = q} + {p <> q} := list_eq_dec string_dec.
Definition put (f : fs) (p : path) (e : entry) : fs := fun q => if path_eq_dec p q then Some e else f q.
Definition is_dir (f : fs) (p : path) : bool := match f p with Some Dir => true | _ => false end.

(** std::path: [rsplit_file_at_dot], [extension], [with_extension] on a file name.  Simplification: not for the name "..", which
    directory listings do not have *)
Fixpoint rsplit (s : string) : option (string * string) :=
  match s with
  | "" => None
  | String c t => match rsplit t with Some (a, b) => Some (String c a, b) | None => if Ascii.eqb c "." then Some ("", t) else None end
  end.
Definition extension (name : string) : option string := match rsplit name with Some (String c a, e) => Some e | _ => None end.
Definition stem (name : string) : string := match rsplit name with Some (String c a, e) => String c a | _ => name end.
Definition file_name (p : path) : string := last p "".
Definition with_extension (p : path) (e : string) : path := match p with [] => [] | _ => (removelast p ++ [(stem (file_name p) ++ "." ++ e)%string])%list end.

(** std::fs::create_dir_all: all directories of [base ++ rest] below [base]; fails if there is a file *)
Fixpoint create_dirs (f : fs) (base rest : path) : option fs :=
  match rest with
  | [] => Some f
  | c :: r => let p := (base ++ [c])%list in
              match f p with None => create_dirs (put f p Dir) p r | Some Dir => create_dirs f p r | Some (File _) => None end
  end.

(** app.py:53-81: whether the exit code is 0.  [gen] is the rendering of engine.py for the chosen language, [None] for every exception
    (those that are not caught end with the exit code 1 too).  The directory of the output exists already (77-79). *)
Definition app (gen : string -> option string) (f : fs) (schema output : path) : fs * bool :=
  match f schema with
  | Some (File text) =>
      match gen text with
      | Some code => match f output with Some Dir => (f, false) | _ => (put f output (File code), true) end
      | None => (f, false)
      end
  | _ => (f, false)
  end.

(** generator.rs:121-130 *)
Definition target (f : fs) (src out e : path) : path :=
  if is_dir f src then with_extension (out ++ skipn (List.length src) e)%list "rs" else with_extension (out ++ [file_name e])%list "rs".
(** generator.rs:116-170, over the entries that walkdir finds; the entry that an error is about *)
Fixpoint run (gen : string -> option string) (src out : path) (es : list path) (f : fs) : fs * option path :=
  match es with
  | [] => (f, None)
  | e :: r =>
      match extension (file_name e) with
      | Some "flatdata" =>
          let result := target f src out e in
          match create_dirs f [] (removelast result) with
          | None => (f, Some e)
          | Some f1 => let (f2, ok) := app gen f1 e result in if ok then run gen src out r f2 else (f2, Some e)
          end
      | _ => run gen src out r f
      end
  end.
(** The same, with the errors of walkdir: a path where there is nothing *)
Definition generate (gen : string -> option string) (src out : path) (es : list path) (f : fs) : fs * option path :=
  match f src with None => (f, Some src) | Some _ => run gen src out es f end.
