(** Model of flatdata-generator's schema output: generators/flatdata.py, generators/__init__.py [BaseGenerator.render],
    templates/flatdata/*.jinja2, tree/syntax_tree.py [SyntaxTree.schema / namespaces], tree/nodes/node.py [extract_subtree].

    Text is produced as lines, each a list of words: the words are separated by single blanks, every line ends with a
    newline, and the templates' indentation of four blanks is four empty words.  jinja2's [trim_blocks] / [lstrip_blocks]
    (generators/__init__.py:42) remove the lines of the template that contain only a statement. *)
From Coq Require Import List ZArith Bool String Ascii.
From Verif Require Import PyBase PyText GenTypes GenTree GenTraversal GenBuild.
Import ListNotations.
Local Open Scope string_scope.
Local Open Scope Z_scope.

Definition line := list string.
Definition newline : string := String (ascii_of_nat 10) "".
Definition line_text (w : line) : string := join " " w ++ newline.
Fixpoint text (ls : list line) : string := match ls with [] => "" | w :: t => line_text w ++ text t end.
Definition indented (w : line) : line := "" :: "" :: "" :: "" :: w.

(** ', '.join(l) as words; the empty list gives the empty word *)
Fixpoint comma (l : list string) : line :=
  match l with [] => [""] | [x] => [x] | x :: t => (x ++ ",") :: comma t end.
(** a suffix on the last word *)
Fixpoint ending (l : line) (suffix : string) : line :=
  match l with [] => [suffix] | [x] => [x ++ suffix] | x :: t => x :: ending t suffix end.

(** ** Names *)
(** syntax_tree.py:79-84 [namespaces]: the names of the enclosing namespaces, outermost first *)
Fixpoint namespaces (t : tree) (l : loc) : list string :=
  match l with
  | [] => []
  | i :: l' => ((if is_namespace t then [t_name t] else []) ++
                match nth_error (t_children t) i with Some c => namespaces c l' | None => [] end)%list
  end.
(** generators/flatdata.py:24-28 [_is_builtin] *)
Definition is_builtin (root : tree) (l : loc) : bool := existsb (String.eqb "_builtin") (namespaces root l).

(** [ref.node.path_with(".")]: node.py:69-82; replacing "." by "." changes nothing *)
Definition ref_path (root : tree) (r : tree) : res string :=
  l <- ref_loc root r ;; match path_at root l with Some p => Ok p | None => Err RuntimeError end.
(** [ref.node.name] *)
Definition ref_name (root : tree) (r : tree) : res string :=
  l <- ref_loc root r ;; match at_loc root l with Some t => Ok (t_name t) | None => Err RuntimeError end.

(** generators/flatdata.py:31-32 [_field_type]: .replace("@@", ".").replace("@", ".") *)
Fixpoint replace_ats (s : string) : string :=
  match s with
  | String "@" (String "@" t) => String "." (replace_ats t)
  | String c t => String c (replace_ats t)
  | EmptyString => EmptyString
  end.
Definition field_type (name : string) : string := replace_char "@" "." (replace_ats name).

(** ** Declarations *)
(** templates/flatdata/constant.jinja2 *)
Definition constant_lines (name ty : string) (v : Z) : list line := [["const"; ty; name; "="; py_str v ++ ";"]].

(** templates/flatdata/enumeration.jinja2, filter [not_auto_generated] (generators/__init__.py:63) *)
Definition value_lines (v : tree) : list line :=
  match t_kind v with
  | KEnumValue x false => [indented [t_name v; "="; py_str x ++ ","]]
  | _ => []
  end.
Definition enum_lines (name : string) (b : btype) (cs : list tree) : list line :=
  ([["enum"; name; ":"; bt_name b; ":"; py_str (bt_width b)]; ["{"]] ++ flat_map value_lines cs ++ [["}"]])%list.

(** templates/flatdata/structure.jinja2; field.py:38-60 *)
Definition is_const_value_ref (k : kind) : bool := match k with KRef RConstValue => true | _ => false end.
Definition range_lines (rng : option string) : list line :=
  match rng with
  | None | Some EmptyString => []
  | Some r => [indented ["@range("; r; ")"]]
  end.
Definition field_lines (f : tree) : res (list line) :=
  match t_kind f with
  | KField rng (Some ty) _ =>
      Ok (range_lines rng ++
          map (fun c => indented ["@const("; target c; ")"]) (children_like f is_const_value_ref) ++
          (match children_like f is_invalid_ref with c :: _ => [indented ["@optional("; target c; ")"]] | [] => [] end) ++
          [indented [t_name f; ":"; field_type (ft_name ty); ":"; (py_str (ft_width ty) ++ ";")%string]])%list
  | _ => Err AttributeError
  end.
Definition structure_lines (name : string) (cs : list tree) : res (list line) :=
  fs <- mapM field_lines (filter (fun c => is_field (t_kind c)) cs) ;;
  Ok ([["struct"; name]; ["{"]] ++ List.concat fs ++ [["}"]])%list.

(** resources/base.py:42-44 [referenced_structures]: the index structure first *)
Definition is_builtin_ref (k : kind) : bool := match k with KRef RBuiltin => true | _ => false end.
Definition is_archive_ref (k : kind) : bool := match k with KRef RArchive => true | _ => false end.
Definition referenced_structures (r : tree) : list tree :=
  (children_like r is_builtin_ref ++ children_like r is_structure_ref)%list.
(** generators/flatdata.py:36-37 [_to_type_params], before joining *)
Fixpoint type_params (root : tree) (refs : list tree) : res (list string) :=
  match refs with
  | [] => Ok []
  | r :: t => l <- ref_loc root r ;; p <- ref_path root r ;; ps <- type_params root t ;;
              Ok (if is_builtin root l then ps else p :: ps)
  end.
(** templates/flatdata/resource.jinja2; resources/archive.py:18-21 [target] *)
Definition resource_type (root r : tree) : res line :=
  ps <- type_params root (referenced_structures r) ;;
  match t_kind r with
  | KResource KInstance _ _ => Ok (comma ps)
  | KResource KVector _ _ => Ok ("vector<" :: comma ps ++ [">"])%list
  | KResource (KMultivector w) _ _ => Ok ("multivector<" :: (py_str w ++ ",")%string :: comma ps ++ [">"])%list
  | KResource KRawData _ _ => Ok ["raw_data"]
  | KResource KArchiveRes _ _ => a <- only (children_like r is_archive_ref) ;; p <- ref_path root a ;; Ok ["archive"; p]
  | _ => Err RuntimeError
  end.

(** templates/flatdata/archive.jinja2; explicit_reference.py:25-42 *)
Definition explicit_structure (t : tree) : res tree := only (children_like t is_structure_ref).
Definition explicit_lines (root e : tree) : res (list line) :=
  s <- explicit_structure e ;; sp <- ref_path root s ;;
  f <- explicit_field e ;; fp <- ref_name root f ;;
  d <- explicit_destination e ;; dp <- ref_path root d ;;
  Ok [indented ["@explicit_reference("; sp ++ "." ++ fp ++ ","; dp; ")"]].
Definition resource_lines (root r : tree) : res (list line) :=
  es <- mapM (explicit_lines root) (children_like r is_explicit) ;;
  ty <- resource_type root r ;;
  Ok (List.concat es ++
      (match t_kind r with KResource _ true _ => [indented ["@optional"]] | _ => [] end) ++
      [indented (t_name r :: ":" :: ending ty ";")])%list.
Definition is_bound (k : kind) : bool := match k with KResource KBound _ _ => true | _ => false end.
Definition is_supported_resource (k : kind) : bool := match k with KResource KBound _ _ => false | KResource _ _ _ => true | _ => false end.
Definition bound_lines (root b : tree) : res (list line) :=
  ps <- mapM (fun c => if is_ref c then ref_path root c else Err AttributeError) (t_children b) ;;
  Ok [("@bound_implicitly(" :: t_name b :: ":" :: comma ps ++ [")"])%list].
Definition archive_lines (root : tree) (name : string) (cs : list tree) : res (list line) :=
  bs <- mapM (bound_lines root) (filter (fun c => is_bound (t_kind c)) cs) ;;
  rs <- mapM (resource_lines root) (filter (fun c => is_supported_resource (t_kind c)) cs) ;;
  Ok (List.concat bs ++ [["archive"; name]; ["{"]] ++ List.concat rs ++ [["}"]])%list.

(** generators/flatdata.py:20-21 [supported_nodes] and the dispatch in templates/flatdata/flatdata.jinja2:7-15 *)
Definition is_supported (k : kind) : bool :=
  match k with KStructure _ | KArchive | KConstant _ _ | KEnum _ => true | _ => false end.
Definition declaration (root t : tree) : res (list line) :=
  match t_kind t with
  | KStructure _ => structure_lines (t_name t) (t_children t)
  | KEnum b => Ok (enum_lines (t_name t) b (t_children t))
  | KArchive => archive_lines root (t_name t) (t_children t)
  | KConstant ty v => Ok (constant_lines (t_name t) ty v)
  | _ => Err RuntimeError
  end.
(** templates/flatdata/flatdata.jinja2:6-17, namespace.jinja2: one definition inside its namespaces, and an empty line *)
Definition block (root : tree) (l : loc) (t : tree) : res (list line) :=
  d <- declaration root t ;;
  Ok (map (fun n => ["namespace"; n; "{"]) (namespaces root l) ++ d ++ map (fun _ => ["}"]) (namespaces root l) ++ [[""]])%list.

(** ** Subtrees *)
(** A node in a tree made by [extract_subtree]: a copy ([true]) or the original object ([false]) at a location *)
Definition vnode := (bool * loc)%type.
Definition vnode_eq_dec : forall a b : vnode, {a = b} + {a <> b}.
Proof. intros [a l] [b m]. destruct (Bool.bool_dec a b) as [->|]; [|right; congruence]. destruct (loc_eq_dec l m) as [->|]; [left; reflexivity|right; congruence]. Defined.

(** node.py:181-197 [extract_subtree]: the node and its ancestors are copied; an ancestor's copy has only the copy on the
    path as child, the node's copy shares its children (which keep the original parent, so references below it are resolved
    in the original tree) *)
Definition view (root : tree) (tgt : loc) (n : vnode) : option tree :=
  match at_loc root (snd n) with
  | Some t => if fst n then
                match nth_error tgt (List.length (snd n)) with
                | Some i => match nth_error (t_children t) i with
                            | Some c => Some (Node (t_name t) (t_kind t) [c])
                            | None => None
                            end
                | None => Some t
                end
              else Some t
  | None => None
  end.
(** traversal.py:12-15 [children] in that tree *)
Definition vkids (root : tree) (tgt : loc) (n : vnode) : res (list vnode) :=
  if fst n then
    match nth_error tgt (List.length (snd n)) with
    | Some i => Ok [(true, (snd n ++ [i])%list)]
    | None => cs <- kids root (snd n) ;; Ok (map (pair false) cs)
    end
  else cs <- kids root (snd n) ;; Ok (map (pair false) cs).

(** generators/__init__.py:66-68, over the extracted tree *)
Fixpoint prefixes (l : loc) : list loc := match l with [] => [[]] | i :: t => [] :: map (cons i) (prefixes t) end.
Definition vnodes (root : tree) (tgt : loc) : list vnode := (map (pair true) (prefixes tgt) ++ map (pair false) (locs root))%list.
Definition vfuel (root : tree) (tgt : loc) : nat :=
  S (list_sum (map (fun n => S (match vkids root tgt n with Ok cs => List.length cs | Err _ => 0 end)) (vnodes root tgt))).
Definition vorder (root : tree) (tgt : loc) : res (list vnode) :=
  match dependency_order vnode_eq_dec (vkids root tgt) (vfuel root tgt) (true, []) with Some r => r | None => Err RuntimeError end.
Definition vblock (root : tree) (tgt : loc) (n : vnode) : res (list line) :=
  match view root tgt n with
  | Some t => if is_supported (t_kind t) && negb (is_builtin root (snd n)) then block root (snd n) t else Ok []
  | None => Err RuntimeError
  end.
(** syntax_tree.py:68-76 [schema(node)] of the node at [tgt] *)
Definition schema_lines (root : tree) (tgt : loc) : res (list line) :=
  order <- vorder root tgt ;; bs <- mapM (vblock root tgt) order ;; Ok (List.concat bs).
Definition schema_text (root : tree) (tgt : loc) : res string := ls <- schema_lines root tgt ;; Ok (text ls).

(** generators/__init__.py:38-68 [render] of a whole tree with the flatdata generator *)
Definition node_block (root : tree) (l : loc) : res (list line) :=
  match at_loc root l with
  | Some t => if is_supported (t_kind t) && negb (is_builtin root l) then block root l t else Ok []
  | None => Err RuntimeError
  end.
Definition render_lines (root : tree) : res (list line) :=
  order <- tree_order root ;; bs <- mapM (node_block root) order ;; Ok (List.concat bs).
