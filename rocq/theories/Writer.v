(** Model of flatdata-py/flatdata/lib/flatdata_writer.py and inspector.py (name selection only). *)
From Coq Require Import List ZArith Bool String Ascii.
From Verif Require Import PyBase DataAccess Structure Resources Builder Archive.
Import ListNotations.
Local Open Scope string_scope.
Local Open Scope Z_scope.

(** Python [s.find(p)]: first position, or -1. *)
Fixpoint py_find (p s : string) : Z :=
  if starts_with p s then 0
  else match s with
       | "" => -1
       | String _ t => let r := py_find p t in if r <? 0 then -1 else r + 1
       end.

(** [s[a:b]] for 0 <= a, 0 <= b *)
Definition py_substr (s : string) (a b : Z) : string := String.substring (Z.to_nat a) (Z.to_nat (b - a)) s.

(** [str.strip()]: Unicode white space below code point 256.
    Simplification: texts are sequences of code points below 256. *)
Definition is_space (c : ascii) : bool :=
  let n := Z.of_nat (nat_of_ascii c) in
  ((9 <=? n) && (n <=? 13)) || ((28 <=? n) && (n <=? 32)) || (n =? 133) || (n =? 160).
Fixpoint lstrip (s : string) : string :=
  match s with
  | "" => ""
  | String c t => if is_space c then lstrip t else s
  end.
Fixpoint rstrip (s : string) : string :=
  match s with
  | "" => ""
  | String c t => match rstrip t with
                  | "" => if is_space c then "" else String c ""
                  | u => String c u
                  end
  end.
Definition strip (s : string) : string := rstrip (lstrip s).

(** flatdata_writer.py:55-70 [Writer._get_archive_name] *)
Definition get_archive_name (schema : string) : res string :=
  if String.eqb schema "" then Err RuntimeError else
  let index := py_find "archive" schema + 7 in
  let rest := drop (Z.to_nat index) schema in
  if 0 <=? py_find "archive" rest then Err RuntimeError
  else Ok (strip (py_substr schema index (index + py_find "{" rest))).

(** inspector.py:51 [fnmatch.fnmatch(p, "*.archive")] on POSIX: the name ends in ".archive". *)
Definition ends_with (s suffix : string) : bool :=
  (Nat.leb (String.length suffix) (String.length s)) &&
  String.eqb (drop (String.length s - String.length suffix) s) suffix.

(** inspector.py:51-72: which signature file is chosen *)
Definition signatures (st : storage) : list string := filter (fun p => ends_with p ".archive") (st_ls st).
Definition select_signature (st : storage) (archive : option string) : res string :=
  match signatures st, archive with
  | [], _ => Err RuntimeError
  | _ :: _ :: _, None => Err RuntimeError
  | sg :: _, None => Ok sg
  | sigs, Some a => if existsb (String.eqb (a ++ ".archive")) sigs then Ok (a ++ ".archive") else Err RuntimeError
  end.

(** inspector.py:71 [signatures[matching].rsplit('.', 1)] *)
Definition signature_name (sg : string) : string := String.substring 0 (String.length sg - 8) sg.

(** inspector.py:73-76: the schema text.  [schema.read()] exists on the mmap a FileResourceStorage returns but not on
    the memoryview a TarArchiveResourceStorage returns (AttributeError) nor on a nested storage. *)
Definition read_schema (st : storage) (sg : string) : res (list Z) :=
  g <- st_lookup st (sg ++ ".schema") false ;;
  match st, g with
  | StDir _, GotMem m => decode m
  | _, _ => Err AttributeError
  end.

(** inspector.py:32-83 [open_archive] with the schema compiler [engine] (schema text, archive name -> archive type) as a
    parameter.  Simplification: the path exists. *)
Definition inspect (engine : list Z -> string -> res adef) (st : storage) (archive : option string)
  : res (list (string * option opened)) :=
  sg <- select_signature st archive ;;
  text <- read_schema st sg ;;
  a <- engine text (signature_name sg) ;;
  open_archive a st.
