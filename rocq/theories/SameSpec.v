(** Vocabulary for the theorem that equal embedded schema texts mean equal layouts. *)
From Coq Require Import List ZArith Bool String Ascii.
From Verif Require Import PyBase PyText Structure Builder GenTypes GenTree GenBuild GenAstSpec GenFlatdata.
Import ListNotations.
Local Open Scope Z_scope.

(** The same fields in the same order (each with name, offset, width, sign), the same size and the same set of keys *)
Definition same_layout (a b : sdef) : Prop := s_fields a = s_fields b /\ s_size a = s_size b /\ forall k, In k (s_keys a) <-> In k (s_keys b).
(** ... and the same class name *)
Definition same_struct (a b : sdef) : Prop := s_name a = s_name b /\ same_layout a b.

(** The same kind of container with the same structures; for sub-archives the same resources in the same order, with equal
    names and equally optional, and so on. *)
Inductive same_container : container -> container -> Prop :=
| same_instance a b : same_struct a b -> same_container (CInstance a) (CInstance b)
| same_vector a b : same_struct a b -> same_container (CVector a) (CVector b)
| same_multivector i j ts us : same_layout i j -> Forall2 same_struct ts us -> same_container (CMultivector i ts) (CMultivector j us)
| same_raw : same_container CRawData CRawData
| same_sub a b : same_archive a b -> same_container (CArchive a) (CArchive b)
with same_archive : adef -> adef -> Prop :=
| same_archive_intro n s s' rs rs' : same_resources rs rs' -> same_archive (ADef n s rs) (ADef n s' rs')
with same_resources : list (string * rsig) -> list (string * rsig) -> Prop :=
| same_none : same_resources [] []
| same_one n c c' s s' o rs rs' : same_container c c' -> same_resources rs rs' -> same_resources ((n, RSig c s o) :: rs) ((n, RSig c' s' o) :: rs').

(** No resource or field of the schema names something in the namespace of the generator's own index structures *)
Definition builtins_unused (root : tree) : Prop :=
  forall l r d, points_to root l r d -> r <> RBuiltin -> ~ In "_builtin"%string (namespaces root d).
