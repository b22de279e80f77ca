(** Vocabulary for C69: what the finished tree has to contain for each declaration of a schema.  The tree is inspected through
    locations, names, kinds and paths only; nothing here mentions the passes that build it. *)
From Coq Require Import List ZArith Bool String Ascii.
From Verif Require Import PyBase PyText GenSpec GenTypes GenTree GenBuild GenAstSpec GenTypesFacts.
Import ListNotations.
Local Open Scope Z_scope.

(** The definition called [name] in the namespace declaration [p] is at [l] *)
Definition defined_at (root : tree) (p : pnamespace) (name : string) (l : loc) : Prop :=
  path_at root l = Some ("." ++ pn_name p ++ "." ++ name)%string.

(** The name [snd m], written at [l], is a reference of kind [fst m] to a definition of the right kind: the one with exactly
    that path if the name is qualified, the one in the innermost visible scope otherwise. *)
Definition mention (root : tree) (l : loc) (m : refkind * string) : Prop :=
  exists d v, points_to root l (fst m) d /\ at_loc root d = Some v /\ right_kind (fst m) (t_kind v)
    /\ (qualified (snd m) -> path_at root d = Some (snd m)) /\ (~ qualified (snd m) -> innermost root l (snd m) d).

(** [xs] are, in order, at the children [from], [from+1], ... of [l] *)
Definition in_order {A} (P : loc -> A -> Prop) (l : loc) (from : nat) (xs : list A) : Prop :=
  forall i x, nth_error xs i = Some x -> P (l ++ [(from + i)%nat])%list x.

(** ** Fields *)
Definition ranges (ds : list fdec) : list string := flat_map (fun d => match d with FRange n => [n] | _ => [] end) ds.
Definition constants_used (ds : list fdec) : list (refkind * string) :=
  flat_map (fun d => match d with FConst n => [(RConstValue, n)] | FOptional n => [(RInvalidValue, n)] | FRange _ => [] end) ds.
Definition declared_width (f : pfield) : option Z := option_map Z.of_N (pf_width f).

(** The field [f] is at [l]: its name, its (first) range, the constants it mentions and its type.  A basic type has the declared
    width, or its own; an enumeration gives its own width and signedness to the field, and a width may only repeat that; the type
    is named after the reference to the enumeration. *)
Definition field_is (root : tree) (l : loc) (f : pfield) : Prop :=
  exists ty off cs, at_loc root l = Some (Node (pf_name f) (KField (hd_error (ranges (pf_decs f))) (Some ty) (Some off)) cs)
  /\ in_order (mention root) l 0 (constants_used (pf_decs f))
  /\ ((exists signed width, In (pf_type f, (signed, width)) basic_types
        /\ List.length cs = List.length (constants_used (pf_decs f))
        /\ ty = FT (pf_type f) (match declared_width f with Some w => w | None => width end) signed)
      \/ (~ In (pf_type f) (map fst basic_types)
        /\ List.length cs = S (List.length (constants_used (pf_decs f)))
        /\ let r := (l ++ [List.length (constants_used (pf_decs f))])%list in
           mention root r (REnum (declared_width f), pf_type f)
           /\ (exists c, at_loc root r = Some c /\ ft_name ty = t_name c)
           /\ exists d e b signed storage, points_to root r (REnum (declared_width f)) d /\ at_loc root d = Some e /\ t_kind e = KEnum b
              /\ In (bt_name b, (signed, storage)) basic_types /\ ft_width ty = bt_width b /\ ft_signed ty = signed
              /\ (forall w, declared_width f = Some w -> w = 0 \/ w = bt_width b))).

Definition structure_is (root : tree) (l : loc) (st : pstruct) : Prop :=
  exists size cs, at_loc root l = Some (Node (ps_name st) (KStructure (Some size)) cs)
    /\ List.length cs = List.length (ps_fields st) /\ in_order (field_is root) l 0 (ps_fields st).

(** ** Constants and enumerations *)
Definition constant_is (root : tree) (l : loc) (c : pconst) : Prop :=
  exists v, py_int0 (pc_value c) = Ok v /\ at_loc root l = Some (Node (pc_name c) (KConstant (pc_type c) v) []).

(** The enumerators in the order they are declared, numbered; after them enumerators the generator invents *)
Definition enumeration_is (root : tree) (l : loc) (e : penum) : Prop :=
  exists b cs explicit values, at_loc root l = Some (Node (pe_name e) (KEnum b) cs) /\ bt_name b = pe_type e
    /\ (forall w, pe_width e = Some w -> bt_width b = Z.of_N w)
    /\ (pe_width e = None -> exists signed, In (pe_type e, (signed, bt_width b)) basic_types)
    /\ Forall2 parsed (map snd (pe_values e)) explicit /\ numbered explicit values
    /\ in_order (fun lv nv => at_loc root lv = Some (Node (fst nv) (KEnumValue (snd nv) false) [])) l 0 (combine (map fst (pe_values e)) values)
    /\ forall i c, (List.length (pe_values e) <= i)%nat -> nth_error cs i = Some c -> exists v, t_kind c = KEnumValue v true.

(** ** Archives *)
Definition resource_kind (t : rtype) : reskind :=
  match t with TRaw => KRawData | TVector _ => KVector | TMulti w _ => KMultivector (Z.of_N w) | TArchive _ => KArchiveRes | TObject _ => KInstance end.
Definition explicit_references (ds : list rdec) : list (string * string * string) :=
  flat_map (fun d => match d with RExplicit a b c => [(a, b, c)] | ROptional => [] end) ds.
Definition types_used (t : rtype) : list (refkind * string) :=
  match t with
  | TRaw => [] | TVector n | TObject n => [(RStructure, n)] | TArchive n => [(RArchive, n)] | TMulti _ ns => map (pair RStructure) ns
  end.

(** An explicit reference is three mentions: the target resource, the field [structure.field], and the structure *)
Definition explicit_is (root : tree) (l : loc) (x : string * string * string) : Prop :=
  let '(st, f, dest) := x in
  exists n cs, at_loc root l = Some (Node n KExplicit cs) /\ List.length cs = 3%nat
    /\ in_order (mention root) l 0 [(RResource, dest); (RField, (st ++ "." ++ f)%string); (RStructure, st)].

(** A resource has its explicit references, the types it holds (a multivector also the structure of its index), and no more *)
Definition resource_is (root : tree) (l : loc) (r : presource) : Prop :=
  let xs := explicit_references (pr_decs r) in let ts := types_used (pr_type r) in
  exists opt m cs, at_loc root l = Some (Node (pr_name r) (KResource (resource_kind (pr_type r)) opt m) cs)
    /\ (opt = true <-> In ROptional (pr_decs r))
    /\ in_order (explicit_is root) l 0 xs /\ in_order (mention root) l (List.length xs) ts
    /\ match pr_type r with
       | TMulti _ _ => List.length cs = S (List.length xs + List.length ts) /\ exists d, points_to root (l ++ [(List.length xs + List.length ts)%nat])%list RBuiltin d
       | _ => List.length cs = (List.length xs + List.length ts)%nat
       end.
Definition bound_is (root : tree) (l : loc) (b : string * list string) : Prop :=
  exists m cs, at_loc root l = Some (Node (fst b) (KResource KBound false m) cs)
    /\ List.length cs = List.length (snd b) /\ in_order (mention root) l 0 (map (pair RResource) (snd b)).

(** An archive has its resources, then its bound resources; after those only references to constants *)
Definition archive_is (root : tree) (l : loc) (a : parchive) : Prop :=
  exists cs, at_loc root l = Some (Node (pa_name a) KArchive cs)
    /\ in_order (resource_is root) l 0 (pa_resources a) /\ in_order (bound_is root) l (List.length (pa_resources a)) (pa_bound a)
    /\ forall i c, (List.length (pa_resources a) + List.length (pa_bound a) <= i)%nat -> nth_error cs i = Some c -> t_kind c = KRef RConstValue.
