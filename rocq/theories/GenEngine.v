(** Model of flatdata-generator/flatdata/generator/engine.py as flatdata-py's inspector uses it: from the text of a schema to the
    class of one archive. *)
From Coq Require Import List ZArith Bool String Ascii.
From Verif Require Import PyBase PyText DataAccess Structure Builder Archive Writer GenTypes GenTree GenBuild GenPython Grammar.
Import ListNotations.
Local Open Scope string_scope.
Local Open Scope Z_scope.

(** inspector.py:75 [schema.read().decode()]: the text of the bytes.
    Simplification: one character per byte (the grammar only accepts more in comments, which it drops). *)
Definition bytes_text (b : list Z) : string := string_of_list_ascii (map (fun x => ascii_of_nat (Z.to_nat x)) b).

(** engine.py:93-95 [isinstance(child, Namespace) and "builtin" not in child.name] *)
Definition mentions_builtin (name : string) : bool := 0 <=? py_find "builtin" name.
Definition is_user_namespace (t : tree) : bool := is_namespace t && negb (mentions_builtin (t_name t)).
(** engine.py:87-102 [Engine._find_root_namespace] *)
Definition find_root_namespace (root : tree) : res tree :=
  match filter is_user_namespace (t_children root) with
  | [] => Err RuntimeError
  | [n] => Ok n
  | _ => Err RuntimeError
  end.

(** engine.py:58-77 [Engine.render_python_module(archive_name=...)].
    Simplification: the attributes every Python module has ([__name__], the imported modules) are not among the classes: no
    archive of a namespace is called like one of them, as they contain no "_" followed by a letter or start with "__". *)
Definition module_archive (ko : list string -> list string) (root : tree) (archive_name : string) : res adef :=
  n <- find_root_namespace root ;;
  g <- generate_python ko root ;;
  match archive_name with
  | "" => Err TypeError
  | _ =>
    match dict_get g (t_name n ++ "_" ++ archive_name) with
    | Some (ClsArchive a) => Ok a
    | Some _ => Err TypeError
    | None => Err AttributeError
    end
  end.

(** inspector.py:74-80: [Engine(schema.read().decode()).render_python_module(...)]; with the schema and a name this is the [engine]
    that [Writer.inspect] takes.
    Simplification: inspector.py:79-80 turns the errors of the schema into RuntimeError; here they keep their names.  A class that is
    no archive is reported as TypeError here, where Python calls it with the storage. *)
Definition engine (so : list Z -> list Z) (ko : list string -> list string) (schema : list Z) (archive_name : string) : res adef :=
  root <- build_text so (bytes_text schema) ;;
  module_archive ko root archive_name.
