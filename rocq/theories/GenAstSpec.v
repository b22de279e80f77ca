(** Vocabulary for the theorems about schema trees: what a scope is, where a reference points, which limits apply.  A tree is
    only inspected through its nodes' locations, names, kinds and paths. *)
From Coq Require Import List ZArith Bool String Ascii Permutation.
From Verif Require Import PyBase PyText GenTypes GenTree GenBuild.
Import ListNotations.
Local Open Scope Z_scope.

(** [n] encloses the place [l] of a reference, at least two levels up (a reference is not resolved among its own siblings),
    and no namespace lies strictly between them: [n] is at or below the nearest namespace. *)
Definition visible (root : tree) (l n : loc) : Prop :=
  exists m, l = (n ++ m)%list /\ (2 <= List.length m)%nat
    /\ forall a b t, m = (a ++ b)%list -> a <> [] -> b <> [] -> at_loc root (n ++ a) = Some t -> t_kind t <> KNamespace.

(** [d] is declared in scope [n] under the (possibly dotted) name [name]: its path is the scope's path, a dot, the name. *)
Definition declared (root : tree) (n : loc) (name : string) (d : loc) : Prop :=
  exists p, path_at root n = Some p /\ path_at root d = Some (p ++ "." ++ name)%string.

(** the declaration the innermost visible scope has for [name] *)
Definition innermost (root : tree) (l : loc) (name : string) (d : loc) : Prop :=
  exists n, visible root l n /\ declared root n name d
    /\ forall n' d', visible root l n' -> (List.length n < List.length n')%nat -> ~ declared root n' name d'.

(** A reference node at [l] pointing (by its absolute path) to the node at [tl] *)
Definition points_to (root : tree) (l : loc) (r : refkind) (tl : loc) : Prop :=
  exists t, at_loc root l = Some t /\ t_kind t = KRef r /\ path_at root tl = Some (target t).

(** An explicit reference from a field of width [w] to the resource at [dl] (somewhere in the tree) *)
Definition referenced_by (root : tree) (dl : loc) (w : Z) : Prop :=
  exists l e i j fl f rng ty off, at_loc root l = Some e /\ t_kind e = KExplicit
    /\ points_to root (l ++ [i]) RResource dl /\ points_to root (l ++ [j]) RField fl
    /\ at_loc root fl = Some f /\ t_kind f = KField rng (Some ty) off /\ w = ft_width ty.

(** [m] is the least element of [S], [None] if there is none *)
Definition least (S : Z -> Prop) (m : option Z) : Prop :=
  match m with Some x => S x /\ forall y, S y -> x <= y | None => forall y, ~ S y end.

(** Names of the definitions in a namespace declaration, in the order they are processed *)
Definition def_names (p : pnamespace) : list string :=
  (map pc_name (pn_constants p) ++ map ps_name (pn_structures p) ++ map pe_name (pn_enumerations p) ++ map pa_name (pn_archives p))%list.
Definition ns_keys (p : pnamespace) : list string := split_on "."%char (pn_name p).
(** No definition's path is also (part of) a namespace's path *)
Definition separated (s : pschema) : Prop :=
  forall p q n m, In p s -> In q s -> In n (def_names p) -> ns_keys q <> (ns_keys p ++ n :: m)%list.
(** The node found by following child names *)
Definition node_at (t : tree) (ks : list string) : option tree :=
  match find_keys t ks with Some l => at_loc t l | None => None end.
(** Same names everywhere, same kinds, and equal definitions; the order of definitions within a namespace is free *)
Definition same_definitions (a b : tree) : Prop :=
  forall ks, match node_at a ks, node_at b ks with
             | Some x, Some y => t_kind x = t_kind y /\ (t_kind x <> KNamespace -> t_kind x <> KRoot -> x = y)
             | None, None => True
             | _, _ => False
             end.
(** One declaration with the definitions of both *)
Definition merged (p q : pnamespace) : pnamespace :=
  PNamespace (pn_name p) (pn_constants p ++ pn_constants q) (pn_structures p ++ pn_structures q)
             (pn_enumerations p ++ pn_enumerations q) (pn_archives p ++ pn_archives q).

(** Python iterates sets in an arbitrary order *)
Definition any_order (so : list Z -> list Z) : Prop := forall l, Permutation (so l) l.
(** The identifiers a schema declares, and those in its explicit references; the grammar allows letters, digits and '_' (and '.'
    in namespace and referenced names), so never '@' *)
Definition resource_names (r : presource) : list string :=
  pr_name r :: flat_map (fun d => match d with RExplicit a b c => [a; b; c] | ROptional => [] end) (pr_decs r).
Definition namespace_names (p : pnamespace) : list string :=
  (pn_name p :: map pc_name (pn_constants p)
   ++ flat_map (fun s => ps_name s :: map pf_name (ps_fields s)) (pn_structures p)
   ++ flat_map (fun e => pe_name e :: map fst (pe_values e)) (pn_enumerations p)
   ++ flat_map (fun a => pa_name a :: map fst (pa_bound a) ++ flat_map resource_names (pa_resources a)) (pn_archives p))%list.
Definition well_named (s : pschema) : Prop := forall n, In n (flat_map namespace_names s) -> has_char "@"%char n = false.

(** the fields among the children of a structure: name, type, offset *)
Definition fields_of (cs : list tree) : list (string * option ftype * option Z) :=
  flat_map (fun c => match t_kind c with KField _ ty off => [(t_name c, ty, off)] | _ => [] end) cs.
Definition width_of (f : string * option ftype * option Z) : Z := match snd (fst f) with Some ty => ft_width ty | None => 0 end.
Definition total (ws : list Z) : Z := fold_right Z.add 0 ws.

(** Trees made by the tree operations: creating a node, inserting a finished node (never a root), renaming a node *)
Inductive made_by_operations : tree -> Prop :=
| op_root : made_by_operations new_root
| op_node n k t : make_node n k = Ok t -> made_by_operations t
| op_insert t l c t' : made_by_operations t -> made_by_operations c -> t_name c <> ""%string -> insert_at t l c = Ok t' -> made_by_operations t'
| op_rename t l v t' : made_by_operations t -> name_ok v = true -> l <> [] -> set_name t l v = Ok t' -> made_by_operations t'.

(** The tree of a schema's declarations, before references are resolved (with the index structures of multivectors) *)
Definition declared_tree (so : list Z -> list Z) (s : pschema) : res tree := t <- build_node_tree so s ;; append_builtins t.

(** The kind of definition a reference must name *)
Definition right_kind (r : refkind) (k : kind) : Prop :=
  match r with
  | RStructure | RBuiltin => exists size, k = KStructure size
  | RArchive => k = KArchive
  | RConstValue | RInvalidValue => exists ty v, k = KConstant ty v
  | REnum _ => exists b, k = KEnum b
  | RResource => exists rk o m, k = KResource rk o m
  | RField => exists rng ty off, k = KField rng ty off
  end.
(** A fully qualified name starts with a dot *)
Definition qualified (name : string) : Prop := exists rest, name = String "."%char rest.

(** The paths of the definitions of a schema, as lists of names *)
Definition defined_paths (s : pschema) : list (list string) :=
  flat_map (fun p => map (fun n => ns_keys p ++ [n])%list (def_names p)) s.
(** Each definition of the schema is acceptable by itself, and namespace names are non-empty identifiers joined by dots *)
Definition definitions_valid (so : list Z -> list Z) (s : pschema) : Prop :=
  forall p, In p s ->
    (forall k, In k (ns_keys p) -> k <> ""%string)
    /\ (forall c, In c (pn_constants p) -> exists t, create_constant c = Ok t)
    /\ (forall c, In c (pn_structures p) -> exists t, create_structure c = Ok t)
    /\ (forall c, In c (pn_enumerations p) -> exists t, create_enumeration so c = Ok t)
    /\ (forall c, In c (pn_archives p) -> exists t, create_archive c = Ok t).
(** The generator's own namespace for the index structures of multivectors is not used as a name by the schema *)
Definition no_builtin (s : pschema) : Prop :=
  forall p, In p s -> ~ In "_builtin"%string (ns_keys p) /\ ~ In "_builtin"%string (def_names p).

(** ** The characters of identifiers *)
Fixpoint only_chars (p : ascii -> bool) (s : string) : bool :=
  match s with EmptyString => true | String c t => p c && only_chars p t end.
(** letters, digits, '_' and '.': the characters of names in a schema (grammar.py:16-20) *)
Definition plain_char (c : ascii) : bool :=
  let n := N_of_ascii c in
  ((48 <=? n) && (n <=? 57) || (65 <=? n) && (n <=? 90) || (97 <=? n) && (n <=? 122) || (n =? 95) || (n =? 46))%N.
(** All names a schema declares or mentions, including the names of types *)
Definition fdec_mentions (d : fdec) : list string := match d with FRange n | FConst n | FOptional n => [n] end.
Definition rtype_mentions (t : rtype) : list string :=
  match t with TRaw => [] | TVector n | TArchive n | TObject n => [n] | TMulti _ ns => ns end.
Definition mentioned (p : pnamespace) : list string :=
  (namespace_names p
   ++ map pc_type (pn_constants p)
   ++ flat_map (fun s => flat_map (fun f => pf_type f :: flat_map fdec_mentions (pf_decs f)) (ps_fields s)) (pn_structures p)
   ++ map pe_type (pn_enumerations p)
   ++ flat_map (fun a => flat_map snd (pa_bound a) ++ flat_map (fun r => rtype_mentions (pr_type r)) (pa_resources a)) (pn_archives p))%list.
(** Every name is made of letters, digits, '_' and '.' *)
Definition identifiers (s : pschema) : Prop := forall p n, In p s -> In n (mentioned p) -> only_chars plain_char n = true.
