(** Vocabulary for the theorems about the generated Python module: what class belongs to a structure or an archive of the
    schema's tree.  A tree is only inspected through its nodes' locations, names, kinds and the places references point to. *)
From Coq Require Import List ZArith Bool String Ascii.
From Verif Require Import PyBase PyText Structure Builder GenTypes GenTree GenBuild GenAstSpec GenFlatdata.
Import ListNotations.
Local Open Scope string_scope.
Local Open Scope Z_scope.

Definition is_definition (k : kind) : bool := match k with KStructure _ | KArchive => true | _ => false end.

(** The name of the Python class of a definition: its namespaces and its name, joined by underscores *)
Definition py_class (root : tree) (l : loc) : string :=
  match at_loc root l with Some t => join "_" (namespaces root l) ++ "_" ++ t_name t | None => "" end.

(** The layout of the structure at [l]: the fields in the order of declaration, each with its name, offset, width and sign *)
Definition layout_is (fs : list fsig) (cs : list tree) : Prop :=
  Forall2 (fun f c => exists rng ty, t_kind c = KField rng (Some ty) (Some (f_off f)) /\ f_name f = t_name c
                                     /\ f_width f = ft_width ty /\ f_signed f = ft_signed ty) fs cs.
Definition struct_is (root : tree) (l : loc) (sd : sdef) : Prop :=
  exists n bits cs, at_loc root l = Some (Node n (KStructure (Some bits)) cs)
    /\ s_name sd = py_class root l /\ s_size sd = (bits + 7) / 8 /\ layout_is (s_fields sd) cs
    /\ forall k, In k (s_keys sd) <-> In k (map f_name (s_fields sd)).

(** The [i]th child of the node at [l] *)
Definition child_at (root : tree) (l : loc) (i : nat) (t : tree) : Prop := at_loc root (l ++ [i])%list = Some t.

(** The structures the references of a given sort below [l] point to, in order *)
Definition structs_of (root : tree) (l : loc) (r : refkind) (sds : list sdef) : Prop :=
  exists t, at_loc root l = Some t /\
    Forall2 (fun c sd => exists d, path_at root d = Some (target c) /\ struct_is root d sd)
            (filter (fun c => match t_kind c, r with KRef RStructure, RStructure | KRef RBuiltin, RBuiltin => true | _, _ => false end) (t_children t)) sds.

(** The type of the archive at [l]: one entry for the archive itself and one for each resource, in the order of declaration *)
Inductive archive_is (root : tree) : loc -> adef -> Prop :=
| archive_is_intro l t s rs :
    at_loc root l = Some t -> t_kind t = KArchive -> schema_text root l = Ok s ->
    resources_are root l O (t_children t) rs ->
    archive_is root l (ADef (t_name t) (ascii_bytes s) ((t_name t ++ ".archive", RSig CRawData (ascii_bytes s) false) :: rs))
with resources_are (root : tree) : loc -> nat -> list tree -> list (string * rsig) -> Prop :=
| resources_nil l i : resources_are root l i [] []
| resources_other l i t ts rs : (forall rk o m, t_kind t = KResource rk o m -> rk = KBound) ->
    resources_are root l (S i) ts rs -> resources_are root l i (t :: ts) rs
| resources_one l i t ts rs rk o m c s : t_kind t = KResource rk o m -> rk <> KBound ->
    container_is root (l ++ [i])%list rk c -> schema_text root (l ++ [i])%list = Ok s ->
    resources_are root l (S i) ts rs -> resources_are root l i (t :: ts) ((t_name t, RSig c (ascii_bytes s) o) :: rs)
with container_is (root : tree) : loc -> reskind -> container -> Prop :=
| is_instance l sd : structs_of root l RStructure [sd] -> container_is root l KInstance (CInstance sd)
| is_vector l sd : structs_of root l RStructure [sd] -> container_is root l KVector (CVector sd)
| is_multivector l w it ts : structs_of root l RBuiltin [it] -> structs_of root l RStructure ts -> container_is root l (KMultivector w) (CMultivector it ts)
| is_raw l : container_is root l KRawData CRawData
| is_subarchive l i d a : points_to root (l ++ [i])%list RArchive d -> archive_is root d a -> container_is root l KArchiveRes (CArchive a).

Scheme archive_is_mut := Induction for archive_is Sort Prop
  with resources_are_mut := Induction for resources_are Sort Prop
  with container_is_mut := Induction for container_is Sort Prop.
Combined Scheme archive_is_all from archive_is_mut, resources_are_mut, container_is_mut.

(** Class names of the module: no two definitions share one, and none is the builder class of an archive *)
Definition distinct_classes (root : tree) : Prop :=
  (forall l t l' t', at_loc root l = Some t -> at_loc root l' = Some t' -> is_definition (t_kind t) = true -> is_definition (t_kind t') = true ->
     py_class root l = py_class root l' -> l = l')
  /\ (forall l t l' t', at_loc root l = Some t -> at_loc root l' = Some t' -> t_kind t = KArchive -> is_definition (t_kind t') = true ->
     py_class root l ++ "Builder" <> py_class root l').
(** The first letter *)
Definition starts_with_underscore (s : string) : Prop := exists t, s = String "_" t.
Definition plain_classes (root : tree) : Prop :=
  forall l t, at_loc root l = Some t -> is_definition (t_kind t) = true -> ~ starts_with_underscore (py_class root l).
(** Names of resources: distinct also when written in capitals, and not starting with an underscore *)
Definition plain_resources (root : tree) : Prop :=
  forall l t, at_loc root l = Some t -> t_kind t = KArchive ->
    (forall c rk o m, In c (t_children t) -> t_kind c = KResource rk o m -> ~ starts_with_underscore (t_name c))
    /\ (forall c c' rk o m rk' o' m', In c (t_children t) -> In c' (t_children t) -> t_kind c = KResource rk o m -> t_kind c' = KResource rk' o' m' ->
          upper (t_name c) = upper (t_name c') -> t_name c = t_name c').

(** ** Names in the schema *)
Definition no_underscores (s : pschema) : Prop :=
  forall p, In p s -> (forall k, In k (ns_keys p) -> has_char "_" k = false) /\ (forall n, In n (def_names p) -> has_char "_" n = false).
Definition plain_namespaces (s : pschema) : Prop := forall p, In p s -> ~ starts_with_underscore (pn_name p).
(** No archive has a sibling definition called like its builder *)
Definition no_builder_clash (root : tree) : Prop :=
  forall l t l' t', at_loc root l = Some t -> at_loc root l' = Some t' -> t_kind t = KArchive -> is_definition (t_kind t') = true -> parent_loc l = parent_loc l' -> t_name t' <> t_name t ++ "Builder".

