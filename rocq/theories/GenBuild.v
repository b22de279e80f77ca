(** Model of flatdata-generator/flatdata/generator/tree/builder.py and resolver.py, with the [create] functions of the node
    classes.  Input: the parse result of the grammar (grammar.py), as plain data. *)
From Coq Require Import List ZArith Bool String Ascii.
From Verif Require Import PyBase PyText GenTypes GenTree GenTraversal.
Import ListNotations.
Local Open Scope string_scope.
Local Open Scope Z_scope.

(** ** Parse results.  Widths are digit strings in the grammar (grammar.py:22 [bit_width = Word(nums)]), hence [N]. *)
(** grammar.py:46-72 *)
Inductive fdec : Type := FRange (name : string) | FConst (name : string) | FOptional (name : string).
(** grammar.py:74-81 *)
Record pfield := PField { pf_name : string; pf_decs : list fdec; pf_type : string; pf_width : option N }.
(** grammar.py:83-90 *)
Record pstruct := PStruct { ps_name : string; ps_fields : list pfield }.
(** grammar.py:30-44 *)
Record penum := PEnum { pe_name : string; pe_type : string; pe_width : option N; pe_values : list (string * option string) }.
(** grammar.py:179-186 *)
Record pconst := PConst { pc_name : string; pc_type : string; pc_value : string }.
(** grammar.py:125-139, 149-156 *)
Inductive rdec : Type := RExplicit (source_type source_field destination : string) | ROptional.
(** grammar.py:92-123 *)
Inductive rtype : Type :=
| TRaw | TVector (type : string) | TMulti (width : N) (types : list string) | TArchive (name : string) | TObject (type : string).
(** grammar.py:162-167 *)
Record presource := PResource { pr_name : string; pr_decs : list rdec; pr_type : rtype }.
(** grammar.py:141-147, 158-177: [pa_bound] are the @bound_implicitly decorations *)
Record parchive := PArchive { pa_name : string; pa_bound : list (string * list string); pa_resources : list presource }.
(** grammar.py:198-204 *)
Record pnamespace := PNamespace { pn_name : string; pn_constants : list pconst; pn_structures : list pstruct;
                                  pn_enumerations : list penum; pn_archives : list parchive }.
Definition pschema := list pnamespace.

(** ** Node creation *)
Definition insert_all (t : tree) (cs : list (res tree)) : res tree :=
  foldM (fun t rc => c <- rc ;; insert t c) t cs.

(** constant.py:5-16 *)
Definition create_constant (p : pconst) : res tree :=
  t <- make_node (pc_name p) (KConstant (pc_type p) 0) ;;
  v <- make_constant (pc_name p) (pc_type p) (pc_value p) ;;
  Ok (Node (t_name t) (KConstant (pc_type p) v) []).

(** field.py:38-43 [range]: the first @range decoration *)
Fixpoint first_range (ds : list fdec) : option string :=
  match ds with [] => None | FRange n :: _ => Some n | _ :: t => first_range t end.

(** field.py:7-29 [__init__], :31-40 [create] *)
Definition create_field (p : pfield) : res tree :=
  t <- make_node (pf_name p) (KField (first_range (pf_decs p)) None None) ;;
  t <- foldM (fun t d => match d with
                         | FConst n => c <- make_ref RConstValue n ;; insert t c
                         | FOptional n => c <- make_ref RInvalidValue n ;; insert t c
                         | FRange _ => Ok t
                         end) t (pf_decs p) ;;
  if is_basic_type (pf_type p) then
    b <- make_btype (pf_type p) (option_map Z.of_N (pf_width p)) ;;
    Ok (Node (t_name t) (KField (first_range (pf_decs p)) (Some (FT (bt_name b) (bt_width b) (bt_signed b))) None)
             (t_children t))
  else
    c <- make_ref (REnum (option_map Z.of_N (pf_width p))) (pf_type p) ;; insert t c.

(** structure.py:17-22 *)
Definition create_structure (p : pstruct) : res tree :=
  t <- make_node (ps_name p) (KStructure None) ;; insert_all t (map create_field (ps_fields p)).

(** enumeration.py:14-48 (see [GenTypes.create_enum], which does the duplicate-name checks).  Simplification: the
    assertions on the value names (node.py:37-38) are made last; the grammar's identifiers always pass them. *)
Definition create_enumeration (set_order : list Z -> list Z) (p : penum) : res tree :=
  '(b, vs) <- create_enum set_order (pe_name p) (pe_type p) (option_map Z.of_N (pe_width p)) (pe_values p) ;;
  t <- make_node (pe_name p) (KEnum b) ;;
  cs <- mapM (fun v => make_node (ev_name v) (KEnumValue (ev_value v) (ev_auto v))) vs ;;
  Ok (Node (t_name t) (KEnum b) cs).

Definition underscored (s : string) : string := replace_char "." "_" s.

(** explicit_reference.py:9-22 *)
Definition create_explicit (ty field dest : string) : res tree :=
  let f := (ty ++ "." ++ field)%string in
  t <- make_node ("er_" ++ underscored f ++ "_" ++ underscored dest) KExplicit ;;
  insert_all t [make_ref RResource dest; make_ref RField f; make_ref RStructure ty].

Definition has_optional (ds : list rdec) : bool := existsb (fun d => match d with ROptional => true | _ => false end) ds.

(** archive.py:6-26 [_create_resource], resources/base.py:9-18, and the [create_references] of the resource classes *)
Definition create_resource (p : presource) : res tree :=
  let rk := match pr_type p with
            | TRaw => KRawData | TVector _ => KVector | TMulti w _ => KMultivector (Z.of_N w) | TArchive _ => KArchiveRes
            | TObject _ => KInstance
            end in
  t <- make_node (pr_name p) (KResource rk (has_optional (pr_decs p)) None) ;;
  t <- foldM (fun t d => match d with
                         | RExplicit ty f dest => c <- create_explicit ty f dest ;; insert t c
                         | ROptional => Ok t
                         end) t (pr_decs p) ;;
  insert_all t (match pr_type p with
                | TRaw => []
                | TVector ty | TObject ty => [make_ref RStructure ty]
                | TMulti _ tys => map (make_ref RStructure) tys
                | TArchive n => [make_ref RArchive n]
                end).

(** bound_resource.py:10-19 with archive.py:40-46 *)
Definition create_bound (b : string * list string) : res tree :=
  t <- make_node (fst b) (KResource KBound false None) ;; insert_all t (map (make_ref RResource) (snd b)).

(** archive.py:34-47 *)
Definition create_archive (p : parchive) : res tree :=
  t <- make_node (pa_name p) KArchive ;;
  t <- insert_all t (map create_resource (pa_resources p)) ;;
  insert_all t (map create_bound (pa_bound p)).

(** ** Namespaces *)

(** builder.py:31-41 [_create_nested_namespaces]: a chain of namespaces with [children] in the innermost one.  The
    code first creates the chain and then inserts; the caller passes the finished children. *)
Fixpoint nest (keys : list string) (children : list tree) : res tree :=
  match keys with
  | [] => Err AssertionError
  | [k] => t <- make_node k KNamespace ;; Ok (Node (t_name t) KNamespace children)
  | k :: ks => t <- make_node k KNamespace ;; c <- nest ks children ;; Ok (Node (t_name t) KNamespace [c])
  end.

(** node.py:143-161 [find_last]: the deepest existing node along the keys, and the keys left over *)
Fixpoint find_last (t : tree) (keys : list string) : loc * list string :=
  match keys with
  | [] => ([], [])
  | k :: ks => match child_pos (t_children t) k with
               | Some i => match nth_error (t_children t) i with
                           | Some c => let (l, r) := find_last c ks in (i :: l, r)
                           | None => ([], keys)
                           end
               | None => ([], keys)
               end
  end.

(** builder.py:44-58 [_ensure_namespace(root, path)] where [keys] are the components of [path] below the root.
    Simplification: the path strings are component lists ([split] and [join] on '.' are inverse on names without '.'). *)
Definition ensure_namespace (root : tree) (keys : list string) : res (tree * loc) :=
  match find_keys root keys with
  | Some l => match at_loc root l with
              | Some t => if is_namespace t then Ok (root, l) else Err AssertionError
              | None => Err RuntimeError
              end
  | None =>
      let (l, rest) := find_last root keys in
      first <- nest rest [] ;;
      root' <- insert_at root l first ;;
      match find_keys root' keys with Some l' => Ok (root', l') | None => Err RuntimeError end
  end.

(** builder.py:93-110: the definitions of one namespace declaration, checked for duplicates by inserting them into a
    fresh namespace node (the innermost of the chain) *)
Definition create_definitions (set_order : list Z -> list Z) (p : pnamespace) : res (list string * list tree) :=
  let keys := split_on "." (pn_name p) in
  if match pn_name p with String "." _ => true | _ => false end then Err AssertionError else   (* :32 *)
  _ <- nest keys [] ;;
  t <- insert_all (Node "" KNamespace [])
         (map create_constant (pn_constants p) ++ map create_structure (pn_structures p) ++
          map (create_enumeration set_order) (pn_enumerations p) ++ map create_archive (pn_archives p))%list ;;
  Ok (keys, t_children t).

(** builder.py:71-79 [_merge_roots]; [_innermost_namespace] (61-68) of a declaration is the namespace its definitions were
    inserted into, because definitions are never namespaces. *)
Definition merge_one (root : tree) (d : list string * list tree) : res tree :=
  '(root, l) <- ensure_namespace root (fst d) ;;
  foldM (fun root c => insert_at root l c) root (snd d).

(** builder.py:82-112 [_build_node_tree] *)
Definition build_node_tree (set_order : list Z -> list Z) (s : pschema) : res tree :=
  ds <- mapM (create_definitions set_order) s ;;
  foldM merge_one new_root ds.

(** ** builder.py:115-124 [_append_builtin_structures], multivector.py:44-58 [builtins] *)
Definition index_type_name (w : Z) : string := "IndexType" ++ py_str w.
Definition builtin_structure (w : Z) : res tree :=
  create_structure (PStruct (index_type_name w)
    [PField "value" [FRange "range"] "u64" (if w =? 0 then None else Some (Z.to_N w))]).   (* field.py:33: [if properties.width] *)

Definition append_builtin (root : tree) (l : loc) : res tree :=
  match at_loc root l, names_at root (parent_loc (parent_loc l)) with
  | Some (Node _ (KResource (KMultivector w) _ _) _), Some (_ :: keys) =>
      '(root, ns) <- ensure_namespace root (keys ++ ["_builtin"; "multivector"])%list ;;
      b <- builtin_structure w ;;
      root <- match at_loc root ns with
              | Some n => match find_relative n (t_name b) with
                          | Some _ => Ok root
                          | None => insert_at root ns b
                          end
              | None => Err RuntimeError
              end ;;
      match path_at root ns with
      | Some p => r <- make_ref RBuiltin (p ++ "." ++ t_name b) ;; insert_at root l r
      | None => Err RuntimeError
      end
  | _, _ => Err RuntimeError
  end.
Definition is_multivector (k : kind) : bool := match k with KResource (KMultivector _) _ _ => true | _ => false end.
Definition append_builtins (root : tree) : res tree := foldM append_builtin root (iterate root is_multivector).

(** ** resolver.py *)

(** resolver.py:14-25: the scopes tried by [_resolve_in_parent_scope], innermost first; [rl] is the reversed location of
    [scope], initially the reference's parent *)
Fixpoint scopes (root : tree) (rl : list nat) : list loc :=
  match rl with
  | [] => []
  | _ :: up => match at_loc root (rev up) with
               | Some t => if is_namespace t then [] else rev up :: scopes root up
               | None => []
               end
  end.
(** node.py:63-67 [first_parent_like(Namespace)] of the node whose parent has reversed location [rl] *)
Fixpoint first_namespace (root : tree) (rl : list nat) : option loc :=
  match at_loc root (rev rl) with
  | Some t => if is_namespace t then Some (rev rl)
              else match rl with [] => None | _ :: up => first_namespace root up end
  | None => None
  end.

(** [scope.get_relative(ref.target)] as a location from the root *)
Definition lookup_in (root : tree) (tgt : string) (scope : loc) : option loc :=
  match at_loc root scope with
  | Some s => option_map (fun l => (scope ++ l)%list) (find_relative s tgt)
  | None => None
  end.
Fixpoint first_some {A B} (f : A -> option B) (l : list A) : option B :=
  match l with [] => None | x :: t => match f x with Some y => Some y | None => first_some f t end end.

(** resolver.py:14-35: where an unqualified reference at location [l] resolves to *)
Definition resolve_unqualified (root : tree) (l : loc) (tgt : string) : res loc :=
  match first_some (lookup_in root tgt) (scopes root (rev (parent_loc l))) with
  | Some s => Ok s
  | None => match first_namespace root (rev (parent_loc l)) with
            | Some n => match lookup_in root tgt n with Some s => Ok s | None => Err (MissingSymbol tgt) end
            | None => Err AssertionError          (* resolver.py:30 *)
            end
  end.

(** resolver.py:47-62 [_validate_target_type] *)
Definition expected_kind (r : refkind) (k : kind) : bool :=
  match r, k with
  | RStructure, KStructure _ | RBuiltin, KStructure _ => true
  | RArchive, KArchive => true
  | RResource, KResource _ _ _ => true
  | RField, KField _ _ _ => true
  | RConstValue, KConstant _ _ | RInvalidValue, KConstant _ _ => true
  | REnum _, KEnum _ => true
  | _, _ => false
  end.
Definition validate_target (root : tree) (l : loc) (r : refkind) : res tree :=
  match at_loc root l with
  | None => Err RuntimeError
  | Some t =>
      tl <- ref_loc root t ;;
      match at_loc root tl with
      | Some n => if expected_kind r (t_kind n) then Ok root else Err (IncorrectReferenceType (t_name t))
      | None => Err RuntimeError
      end
  end.

(** resolver.py:66-76, one reference node.  [update_reference]'s assertion (references.py:22) always holds: the new path
    ends with the old target. *)
Definition resolve_one (root : tree) (l : loc) : res tree :=
  match at_loc root l with
  | Some t =>
      match t_kind t with
      | KRef r =>
          root <- (if is_qualified t then
                     match find root (target t) with
                     | Some _ => Ok root
                     | None => Err (MissingSymbol (target t))
                     end
                   else
                     s <- resolve_unqualified root l (target t) ;;
                     match path_at root s with
                     | Some p => set_name root l (referencify p)
                     | None => Err RuntimeError
                     end) ;;
          validate_target root l r
      | _ => Err RuntimeError
      end
  | None => Err RuntimeError
  end.
Definition is_ref_kind (k : kind) : bool := match k with KRef _ => true | _ => false end.
Definition resolve_references (root : tree) : res tree := foldM resolve_one root (iterate root is_ref_kind).

(** ** builder.py:127-134 [_append_constant_references] *)
Definition is_constant (k : kind) : bool := match k with KConstant _ _ => true | _ => false end.
Definition is_archive (k : kind) : bool := match k with KArchive => true | _ => false end.
Definition is_const_ref_kind (k : kind) : bool := match k with KRef r => is_const_ref r | _ => false end.
Definition nodes_at (root : tree) (ls : list loc) : list tree :=
  flat_map (fun l => match at_loc root l with Some t => [t] | None => [] end) ls.
Definition paths_at (root : tree) (ls : list loc) : list string :=
  flat_map (fun l => match path_at root l with Some p => [p] | None => [] end) ls.
Definition append_constants (root : tree) : res tree :=
  let referenced := map target (nodes_at root (iterate root is_const_ref_kind)) in
  let constants := filter (fun p => negb (existsb (String.eqb p) referenced)) (paths_at root (iterate root is_constant)) in
  foldM (fun root a => foldM (fun root p => c <- make_ref RConstValue p ;; insert_at root a c) root constants)
        root (iterate root is_archive).

(** ** builder.py:175-192 [_check_ranges] *)
Definition is_field (k : kind) : bool := match k with KField _ _ _ => true | _ => false end.
Definition is_invalid_ref (k : kind) : bool := match k with KRef RInvalidValue => true | _ => false end.
Definition is_structure_ref (k : kind) : bool := match k with KRef RStructure => true | _ => false end.
Definition check_range (root : tree) (l : loc) : res unit :=
  match at_loc root l, at_loc root (parent_loc l) with
  | Some (Node _ (KField (Some name) _ _) cs as f), Some p =>
      if existsb (fun s => String.eqb (t_name s) name) (children_like p is_field) then Err (InvalidRangeName name)
      else match children_like f is_invalid_ref with [] => Ok tt | _ => Err (OptionalRange name) end
  | Some _, Some _ => Ok tt
  | _, _ => Err RuntimeError
  end.
(** structure.py:24-26 *)
Definition has_range (t : tree) : bool :=
  existsb (fun f => match t_kind f with KField (Some _) _ _ => true | _ => false end) (t_children t).
Definition check_range_ref (root : tree) (l : loc) : res unit :=
  match at_loc root l, at_loc root (parent_loc l) with
  | Some r, Some p =>
      tl <- ref_loc root r ;;
      match at_loc root tl with
      | Some s => match t_kind s, t_kind p with
                  | KStructure _, KResource KVector _ _ => Ok tt
                  | KStructure _, KResource _ _ _ => if has_range s then Err (InvalidRangeReference (target r)) else Ok tt
                  | _, _ => Ok tt
                  end
      | None => Err RuntimeError
      end
  | _, _ => Err RuntimeError
  end.
Definition check_ranges (root : tree) : res unit :=
  _ <- mapM (check_range root) (iterate root is_field) ;;
  _ <- mapM (check_range_ref root) (iterate root is_structure_ref) ;;
  Ok tt.

(** ** builder.py:137-147 [_update_field_type_references] *)
Definition is_enum_ref (k : kind) : bool := match k with KRef (REnum _) => true | _ => false end.
Definition set_kind (k : kind) (t : tree) : tree := Node (t_name t) k (t_children t).
Definition update_field (root : tree) (l : loc) : res tree :=
  match at_loc root l with
  | Some (Node _ (KField rng None off) cs) =>
      match List.filter (fun c => is_enum_ref (t_kind c)) cs with
      | r :: _ =>
          tl <- ref_loc root r ;;
          match at_loc root tl, t_kind r with
          | Some (Node _ (KEnum b) _), KRef (REnum w) =>
              b' <- make_btype (bt_name b) (Some (bt_width b)) ;;
              if match w with Some x => negb (x =? 0) && negb (x =? bt_width b) | None => false end
              then Err (InvalidEnumWidthError (t_name r))
              else Ok (modify root l (set_kind (KField rng (Some (FT (t_name r) (bt_width b') (bt_signed b'))) off)))
          | _, _ => Err AttributeError
          end
      | [] => Err AttributeError
      end
  | Some _ => Ok root
  | None => Err RuntimeError
  end.
Definition update_field_types (root : tree) : res tree := foldM update_field root (iterate root is_field).

(** ** traversal.py:12-15 [children]: what a node depends on *)
Fixpoint enum_from {A} (i : nat) (l : list A) : list (nat * A) :=
  match l with [] => [] | x :: t => (i, x) :: enum_from (S i) t end.
Definition kids (root : tree) (l : loc) : res (list loc) :=
  match at_loc root l with
  | None => Err RuntimeError
  | Some t =>
      rs <- mapM (ref_loc root)
                 (filter (fun c => match t_kind c with KRef r => is_type_ref r | _ => false end) (t_children t)) ;;
      Ok (map (fun ic => l ++ [fst ic])%list (filter (fun ic => negb (is_ref (snd ic))) (enum_from 0 (t_children t))) ++ rs)%list
  end.
Definition loc_eq_dec : forall a b : loc, {a = b} + {a <> b} := list_eq_dec PeanoNat.Nat.eq_dec.

(** number of loop iterations that always suffices (lemma [tree_fuel_enough]) *)
Definition fuel_for (root : tree) : nat :=
  S (list_sum (map (fun l => S (match kids root l with Ok cs => List.length cs | Err _ => 0 end)) (locs root))).
Definition tree_order (root : tree) : res (list loc) :=
  match dependency_order loc_eq_dec (kids root) (fuel_for root) [] with
  | Some r => r
  | None => Err RuntimeError
  end.

(** ** builder.py:150-163 [_compute_structure_sizes] *)
Fixpoint layout (offset : Z) (cs : list tree) : res (list tree * Z) :=
  match cs with
  | [] => Ok ([], offset)
  | c :: t =>
      match t_kind c with
      | KField rng (Some ty) _ =>
          '(t', size) <- layout (offset + ft_width ty) t ;;
          Ok (set_kind (KField rng (Some ty) (Some offset)) c :: t', size)
      | KField _ None _ => Err AttributeError
      | _ => '(t', size) <- layout offset t ;; Ok (c :: t', size)
      end
  end.
Definition size_structure (root : tree) (l : loc) : res tree :=
  match at_loc root l with
  | Some (Node n (KStructure _) cs) =>
      '(cs', size) <- layout 0 cs ;; Ok (modify root l (fun _ => Node n (KStructure (Some size)) cs'))
  | Some _ => Ok root
  | None => Err RuntimeError
  end.
Definition compute_sizes (root : tree) : res tree := order <- tree_order root ;; foldM size_structure root order.

(** structure.py:40-42 *)
Definition size_in_bytes (size_in_bits : Z) : Z := (size_in_bits + 7) / 8.

(** ** builder.py:165-173 [_compute_max_resource_size] *)
Definition is_explicit (k : kind) : bool := match k with KExplicit => true | _ => false end.
Definition only {A} (l : list A) : res A := match l with [x] => Ok x | _ => Err AssertionError end.
Definition explicit_field (t : tree) : res tree := only (children_like t (fun k => match k with KRef RField => true | _ => false end)).
Definition explicit_destination (t : tree) : res tree := only (children_like t (fun k => match k with KRef RResource => true | _ => false end)).
Definition limit_one (root : tree) (l : loc) : res tree :=
  match at_loc root l with
  | None => Err RuntimeError
  | Some e =>
      f <- explicit_field e ;; fl <- ref_loc root f ;;
      match at_loc root fl with
      | Some (Node _ (KField _ (Some ty) _) _) =>
          if ft_width ty =? 64 then Ok root
          else
            d <- explicit_destination e ;; dl <- ref_loc root d ;;
            match at_loc root dl with
            | Some (Node _ (KResource rk opt mx) _) =>
                let lim := 2 ^ ft_width ty in
                let mx' := match mx with None => lim | Some m => if m >? lim then lim else m end in
                Ok (modify root dl (set_kind (KResource rk opt (Some mx'))))
            | _ => Err AttributeError
            end
      | _ => Err AttributeError
      end
  end.
Definition compute_max_sizes (root : tree) : res tree := foldM limit_one root (iterate root is_explicit).

(** ** builder.py:194-205 [_check_const_refs] *)
Definition check_const_ref (root : tree) (fty : ftype) (r : tree) : res unit :=
  cl <- ref_loc root r ;;
  match at_loc root cl with
  | Some (Node _ (KConstant ty v) _) =>
      if negb (String.eqb ty (ft_name fty)) then Err (InvalidConstReference (target r))
      else
        b <- make_btype ty None ;; n <- bits_required b v ;;
        if n >? ft_width fty then Err (InvalidConstValueReference (target r)) else Ok tt
  | _ => Err AttributeError
  end.
Definition check_const_refs_at (root : tree) (l : loc) : res unit :=
  match at_loc root l with
  | Some (Node n (KField _ (Some ty) _) _ as f) =>
      _ <- mapM (check_const_ref root ty) (children_like f is_const_ref_kind) ;;
      if zlen (children_like f is_invalid_ref) >? 1 then Err (DuplicateInvalidValueReference n) else Ok tt
  | _ => Err AttributeError
  end.
Definition check_const_refs (root : tree) : res unit := _ <- mapM (check_const_refs_at root) (iterate root is_field) ;; Ok tt.

(** ** builder.py:207-211 [_check_explicit_references] *)
Definition check_explicit (root : tree) (l : loc) : res unit :=
  match at_loc root l, at_loc root (parent_loc l) with
  | Some e, Some p =>
      _ <- mapM (fun r => if existsb (fun x => String.eqb (target x) (target r)) (children_like p is_structure_ref)
                          then Ok tt else Err (InvalidStructInExplicitReference (t_name p)))
                (children_like e is_structure_ref) ;;
      Ok tt
  | _, _ => Err RuntimeError
  end.
Definition check_explicits (root : tree) : res unit := _ <- mapM (check_explicit root) (iterate root is_explicit) ;; Ok tt.

(** builder.py:213-226 [build_ast] *)
Definition build_ast (set_order : list Z -> list Z) (s : pschema) : res tree :=
  root <- build_node_tree set_order s ;;
  root <- append_builtins root ;;
  root <- resolve_references root ;;
  root <- append_constants root ;;
  _ <- check_ranges root ;;
  root <- update_field_types root ;;
  root <- compute_sizes root ;;
  root <- compute_max_sizes root ;;
  _ <- check_const_refs root ;;
  _ <- check_explicits root ;;
  Ok root.
