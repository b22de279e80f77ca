(** Vocabulary for C101: which file is generated from which schema. *)
From Coq Require Import List Bool String Ascii.
From Verif Require Import RustBuild.
Import ListNotations.
Local Open Scope string_scope.

(** Names of schema files: something, and then ".flatdata" *)
Definition schema_named (p : path) : Prop := exists up name, name <> "" /\ p = (up ++ [(name ++ ".flatdata")%string])%list.
(** The file generated from the schema [p]: in the same place below [out] as the schema below the folder [src], or in [out] if [src] is the
    schema; with ".rs" for ".flatdata" *)
Definition mirrored (f : fs) (src out p q : path) : Prop :=
  exists dirs name, name <> "" /\ q = (out ++ dirs ++ [(name ++ ".rs")%string])%list
    /\ ((f src = Some Dir /\ p = (src ++ dirs ++ [(name ++ ".flatdata")%string])%list) \/ (f src <> Some Dir /\ dirs = [] /\ p = src /\ exists up, src = (up ++ [(name ++ ".flatdata")%string])%list)).
(** What a walk finds: everything below [src], in some order *)
Definition walk (f : fs) (src : path) (es : list path) : Prop := forall p, In p es <-> (exists rel, p = (src ++ rel)%list) /\ f p <> None.
(** Everything is in a directory *)
Definition tree_like (f : fs) : Prop := forall p r, r <> [] -> f (p ++ r)%list <> None -> p <> [] -> f p = Some Dir.
Definition above (x q : path) : Prop := exists r, r <> [] /\ q = (x ++ r)%list.
