(** Vocabulary for C102: two schemas that say the same in another order.  A schema is seen as the collection of its definitions,
    each with the name of its namespace, and the namespaces it names; which declaration a definition is written in, and where, is
    left out. *)
From Coq Require Import List ZArith String Permutation.
From Verif Require Import PyBase GenTree GenBuild GenAstSpec DeclSpec.
Import ListNotations.

Inductive definition := OfConstant (c : pconst) | OfStructure (s : pstruct) | OfEnumeration (e : penum) | OfArchive (a : parchive).
Definition definitions_of (p : pnamespace) : list definition :=
  (map OfConstant (pn_constants p) ++ map OfStructure (pn_structures p) ++ map OfEnumeration (pn_enumerations p) ++ map OfArchive (pn_archives p))%list.
Definition definitions (s : pschema) : list (string * definition) := flat_map (fun p => map (pair (pn_name p)) (definitions_of p)) s.

(** The same definitions in the same namespaces (any order, any grouping), and the same namespaces *)
Definition same_schema (s s' : pschema) : Prop :=
  Permutation (definitions s) (definitions s') /\ forall n, In n (map pn_name s) <-> In n (map pn_name s').

Definition def_name (d : definition) : string := match d with OfConstant c => pc_name c | OfStructure s => ps_name s | OfEnumeration e => pe_name e | OfArchive a => pa_name a end.
(** The definition [d] of namespace [n] is in the tree: at the path its names give it, with the declared contents (DeclSpec) *)
Definition contains (t : tree) (n : string) (d : definition) : Prop :=
  exists l, path_at t l = Some ("." ++ n ++ "." ++ def_name d)%string
    /\ match d with OfConstant c => constant_is t l c | OfStructure x => structure_is t l x | OfEnumeration e => enumeration_is t l e | OfArchive a => archive_is t l a end.
