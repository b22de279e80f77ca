(** Vocabulary for C96: the outermost namespaces of a schema, and the ones the inspector looks at. *)
From Coq Require Import List ZArith Bool String Ascii.
From Verif Require Import PyBase PyText GenTypes GenTree GenBuild GenAstSpec.
Import ListNotations.
Local Open Scope string_scope.

(** [namespace a.b.c { ... }] is inside [a] *)
Definition outermost (p : pnamespace) : string := hd "" (ns_keys p).
(** the name contains the word, anywhere *)
Definition contains (word name : string) : Prop := exists a b, name = a ++ word ++ b.
(** [n] is the only outermost namespace of the schema whose name does not contain the word "builtin" *)
Definition only_root (s : pschema) (n : string) : Prop :=
  ~ contains "builtin" n /\ (exists p, In p s /\ outermost p = n) /\ forall p, In p s -> outermost p = n \/ contains "builtin" (outermost p).
