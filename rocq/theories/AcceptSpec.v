(** Vocabulary for C70: which schemas are valid.  The first part is about the declarations as they are written, the second about
    the tree of declarations ([GenAstSpec.declared_tree]), where names have places; neither mentions the passes that follow. *)
From Coq Require Import List ZArith Bool String Ascii Relations.
From Verif Require Import PyBase PyText Spec GenSpec GenTypes GenTypesFacts GenTree GenBuild GenAstSpec DeclSpec.
Import ListNotations.
Local Open Scope Z_scope.

(** ** Declarations by themselves *)
Definition proper_name (n : string) : Prop := n <> ""%string /\ has_char "."%char n = false.
Definition basic (ty : string) : Prop := In ty (map fst basic_types).

(** The literal is an integer that the type can hold *)
Definition constant_valid (c : pconst) : Prop :=
  proper_name (pc_name c) /\ exists signed width v, In (pc_type c, (signed, width)) basic_types /\ py_int0 (pc_value c) = Ok v /\ representable width signed v.

(** The names a field mentions: its constants, and its type unless that is a basic type *)
Definition field_names (f : pfield) : list string :=
  (map snd (constants_used (pf_decs f)) ++ if in_dec string_dec (pf_type f) (map fst basic_types) then [] else [pf_type f])%list.
(** A basic type is not wider than its storage; nothing is mentioned twice *)
Definition field_valid (f : pfield) : Prop :=
  proper_name (pf_name f) /\ NoDup (field_names f)
  /\ (forall signed storage w, In (pf_type f, (signed, storage)) basic_types -> declared_width f = Some w -> w <= storage).
Definition structure_valid (st : pstruct) : Prop :=
  proper_name (ps_name st) /\ NoDup (map pf_name (ps_fields st)) /\ Forall field_valid (ps_fields st).

(** Distinct names; distinct values that the type can hold; few missing values, whose invented names are not taken *)
Definition enumeration_valid (e : penum) : Prop :=
  proper_name (pe_name e) /\ Forall (fun v => proper_name (fst v)) (pe_values e) /\ pe_values e <> [] /\ NoDup (map fst (pe_values e))
  /\ exists signed storage width explicit values,
       In (pe_type e, (signed, storage)) basic_types /\ width = match pe_width e with Some w => Z.of_N w | None => storage end /\ width <= storage
       /\ Forall2 parsed (map snd (pe_values e)) explicit /\ numbered explicit values /\ NoDup values /\ Forall (representable width signed) values
       /\ 2 ^ width <= 2 * zlen (pe_values e) + 256
       /\ forall v, representable width signed v -> ~ In v values -> ~ In (unknown_name v) (map fst (pe_values e)).

(** An explicit reference mentions three different names; the names derived from the explicit references of a resource differ *)
Definition explicit_name (x : string * string * string) : string :=
  let '(st, f, dest) := x in ("er_" ++ underscored (st ++ "." ++ f) ++ "_" ++ underscored dest)%string.
Definition explicit_valid (x : string * string * string) : Prop :=
  let '(st, f, dest) := x in dest <> (st ++ "." ++ f)%string /\ dest <> st.
Definition resource_valid (r : presource) : Prop :=
  proper_name (pr_name r) /\ Forall explicit_valid (explicit_references (pr_decs r)) /\ NoDup (map explicit_name (explicit_references (pr_decs r)))
  /\ NoDup (map snd (types_used (pr_type r))).
Definition bound_valid (b : string * list string) : Prop := proper_name (fst b) /\ NoDup (snd b).
Definition archive_valid (a : parchive) : Prop :=
  proper_name (pa_name a) /\ NoDup (map pr_name (pa_resources a) ++ map fst (pa_bound a)) /\ Forall resource_valid (pa_resources a) /\ Forall bound_valid (pa_bound a).

(** The index of a multivector has at most 64 bits, and its structure is not also one of the multivector's types *)
Definition index_path (p : pnamespace) (w : N) : string := ("." ++ pn_name p ++ "._builtin.multivector." ++ index_type_name (Z.of_N w))%string.
Definition index_valid (p : pnamespace) (r : presource) : Prop :=
  forall w ns, pr_type r = TMulti w ns -> (w <= 64)%N /\ ~ In (index_path p w) ns.

Definition declarations_valid (s : pschema) : Prop :=
  NoDup (defined_paths s)
  /\ forall p, In p s -> (forall k, In k (ns_keys p) -> k <> ""%string)
       /\ Forall constant_valid (pn_constants p) /\ Forall structure_valid (pn_structures p)
       /\ Forall enumeration_valid (pn_enumerations p) /\ Forall archive_valid (pn_archives p)
       /\ forall a r, In a (pn_archives p) -> In r (pa_resources a) -> index_valid p r.

(** ** Names in their places *)

(** The reference of kind [r] at [l] names the node at [d]: the one with that path if the name starts with a dot, the one in the
    innermost visible scope otherwise *)
Definition meant (t : tree) (l : loc) (r : refkind) (d : loc) : Prop :=
  exists u, at_loc t l = Some u /\ t_kind u = KRef r
    /\ (qualified (target u) -> path_at t d = Some (target u)) /\ (~ qualified (target u) -> innermost t l (target u) d).

(** A resource of the archive at [a] is an archive of the type at [b] *)
Definition holds (t : tree) (a b : loc) : Prop := exists i j, meant t (a ++ [i; j])%list RArchive b.

Record names_valid (t : tree) : Prop := {
  (* every name denotes something of the right kind *)
  nv_kinds : forall l u r, at_loc t l = Some u -> t_kind u = KRef r -> exists d v, meant t l r d /\ at_loc t d = Some v /\ right_kind r (t_kind v);
  (* nothing is mentioned twice in a place *)
  nv_distinct : forall l i j r r' d, meant t (l ++ [i])%list r d -> meant t (l ++ [j])%list r' d -> i = j;
  (* a range has a name of its own and is not optional *)
  nv_range_name : forall l i j f g name rng ty off ty' off', at_loc t (l ++ [i])%list = Some f -> t_kind f = KField (Some name) ty off ->
    at_loc t (l ++ [j])%list = Some g -> t_kind g = KField rng ty' off' -> t_name g <> name;
  nv_range_optional : forall l f name ty off i d, at_loc t l = Some f -> t_kind f = KField (Some name) ty off -> ~ meant t (l ++ [i])%list RInvalidValue d;
  (* structures with ranges are only held by vectors *)
  nv_range_vector : forall l x rk o m i d j f name ty off, at_loc t l = Some x -> t_kind x = KResource rk o m -> rk <> KVector -> meant t (l ++ [i])%list RStructure d ->
    at_loc t (d ++ [j])%list = Some f -> t_kind f <> KField (Some name) ty off;
  (* a field of an enumeration may only repeat its width *)
  nv_enum : forall l w d v b, meant t l (REnum (Some w)) d -> at_loc t d = Some v -> t_kind v = KEnum b -> w = 0 \/ w = bt_width b;
  (* a constant has the type of the field and fits into it; there is at most one invalid value *)
  nv_constant : forall l f rng ty off i r d v c cty, at_loc t l = Some f -> t_kind f = KField rng ty off -> r = RConstValue \/ r = RInvalidValue -> meant t (l ++ [i])%list r d ->
    at_loc t d = Some v -> t_kind v = KConstant cty c -> exists fty, ty = Some fty /\ ft_name fty = cty /\ representable (ft_width fty) (ft_signed fty) c;
  nv_invalid : forall l i j d d', meant t (l ++ [i])%list RInvalidValue d -> meant t (l ++ [j])%list RInvalidValue d' -> i = j;
  (* an explicit reference starts at a structure the resource holds *)
  nv_explicit : forall l i x j d, at_loc t (l ++ [i])%list = Some x -> t_kind x = KExplicit -> meant t (l ++ [i; j])%list RStructure d -> exists k, meant t (l ++ [k])%list RStructure d;
  (* no archive holds itself *)
  nv_acyclic : forall a, ~ clos_trans _ (holds t) a a
}.
