(** Model of flatdata-generator's Python output: generators/python.py and templates/py/python.jinja2, together with what
    executing the generated module does.

    The generated text is represented by the class statements it consists of, in order; expressions inside them (names,
    string and integer literals) are evaluated as Python does: a name used in a class body is first mangled, then looked up
    in the class body's namespace, then among the module's globals.  Not represented: comments, docstrings, the values of the
    [_DOC] attributes, [dtype], [_SIZE_IN_BITS], the [__init__] methods and the rendering of all this as text. *)
From Coq Require Import List ZArith Bool String Ascii.
From Verif Require Import PyBase PyText Structure Builder GenTypes GenTree GenTraversal GenBuild GenFlatdata.
Import ListNotations.
Local Open Scope string_scope.
Local Open Scope Z_scope.

(** ** Names *)
(** python.py:24-26 [_decorate_archive_type], python.jinja2:11, 33, 62: [tree.namespace_path(node, "_") + "_" + node.name] *)
Definition class_name (root : tree) (l : loc) (t : tree) : string := join "_" (namespaces root l) ++ "_" ++ t_name t.

(** python.jinja2:36-37, 50-52: the attribute holding a resource's schema text *)
Definition schema_attr (resource : string) : string := "_" ++ upper resource ++ "_SCHEMA".
Definition doc_attr (resource : string) : string := "_" ++ upper resource ++ "_DOC".

(** Python's private name mangling inside the body of class [cls]: identifiers that start with two underscores and do not end
    with two underscores *)
Fixpoint ends_with_dunder (s : string) : bool :=
  match s with
  | String "_" (String "_" EmptyString) => true
  | String _ t => ends_with_dunder t
  | EmptyString => false
  end.
Definition starts_with_dunder (s : string) : bool := match s with String "_" (String "_" _) => true | _ => false end.
Fixpoint lstrip_underscores (s : string) : string := match s with String "_" t => lstrip_underscores t | _ => s end.
Definition mangle (cls name : string) : string :=
  if starts_with_dunder name && negb (ends_with_dunder name) then
    match lstrip_underscores cls with EmptyString => name | s => "_" ++ s ++ name end
  else name.

(** ** The class statements *)
Inductive cexpr : Type :=                 (* container= and initializer= arguments, python.py:36-66 *)
| EInstance (cls : string) | EVector (cls : string) | EMulti (cls : list string) | ERaw | EArchive (cls : string).
Inductive stmt : Type :=
| SStruct (cls : string) (sd : sdef) (schema : string)
| SArchive (builder : bool) (cls : string) (name : string)
           (schema : string) (attrs : list (string * string)) (resources : list (string * cexpr * bool)).

(** python.jinja2:9-30; structure.py:40-42.  [_FIELD_KEYS] is a set: [ko] gives its iteration order. *)
Definition field_sig (f : tree) : res fsig :=
  match t_kind f with
  | KField _ (Some ty) (Some off) => Ok (FSig (t_name f) off (ft_width ty) (ft_signed ty))
  | _ => Err AttributeError
  end.
Definition structure_def (ko : list string -> list string) (root : tree) (l : loc) (t : tree) : res sdef :=
  match t_kind t with
  | KStructure (Some bits) =>
      fs <- mapM field_sig (filter (fun c => is_field (t_kind c)) (t_children t)) ;;
      Ok (SDef (class_name root l t) (size_in_bytes bits) fs (ko (map f_name fs)))
  | _ => Err AttributeError
  end.

(** [_decorate_archive_type(tree, ref.node)] *)
Definition ref_class (root r : tree) : res string :=
  l <- ref_loc root r ;; match at_loc root l with Some t => Ok (class_name root l t) | None => Err RuntimeError end.
(** python.py:36-66 [to_container], [to_initializer] *)
Definition container_expr (root r : tree) : res cexpr :=
  match t_kind r with
  | KResource KInstance _ _ =>
      match referenced_structures r with c :: _ => n <- ref_class root c ;; Ok (EInstance n) | [] => Err IndexError end
  | KResource KVector _ _ =>
      match referenced_structures r with c :: _ => n <- ref_class root c ;; Ok (EVector n) | [] => Err IndexError end
  | KResource (KMultivector _) _ _ => ns <- mapM (ref_class root) (referenced_structures r) ;; Ok (EMulti ns)
  | KResource KRawData _ _ => Ok ERaw
  | KResource KArchiveRes _ _ =>
      match t_children r with
      | c :: _ => if is_ref c then n <- ref_class root c ;; Ok (EArchive n) else Err AttributeError
      | [] => Err IndexError
      end
  | _ => Err ValueError
  end.
Definition is_optional (r : tree) : bool := match t_kind r with KResource _ o _ => o | _ => false end.

(** the resources the template iterates over: [archive.resources if not resource|is_bound_resource], with their locations *)
Definition resources_at (l : loc) (t : tree) : list (loc * tree) :=
  map (fun ic => (l ++ [fst ic], snd ic)%list)
      (filter (fun ic => is_supported_resource (t_kind (snd ic))) (enum_from 0 (t_children t))).

(** python.jinja2:32-58 [archive_definition], 60-87 [archive_builder_definition] *)
Definition archive_stmts (root : tree) (l : loc) (t : tree) : res (list stmt) :=
  schema <- schema_text root l ;;
  rs <- mapM (fun lr => s <- schema_text root (fst lr) ;; Ok (t_name (snd lr), s)) (resources_at l t) ;;
  es <- mapM (fun lr => e <- container_expr root (snd lr) ;; Ok (t_name (snd lr), e, is_optional (snd lr))) (resources_at l t) ;;
  let cls := class_name root l t in
  Ok [SArchive false cls (t_name t) schema rs es; SArchive true (cls ++ "Builder") (t_name t) schema rs es].

(** python.jinja2:89-96: structures and archives in dependency order (generators/__init__.py:66-68) *)
Definition node_stmts (ko : list string -> list string) (root : tree) (l : loc) : res (list stmt) :=
  match at_loc root l with
  | Some t => match t_kind t with
              | KStructure _ => sd <- structure_def ko root l t ;; s <- schema_text root l ;;
                                Ok [SStruct (class_name root l t) sd s]
              | KArchive => archive_stmts root l t
              | _ => Ok []
              end
  | None => Err RuntimeError
  end.
Definition python_module (ko : list string -> list string) (root : tree) : res (list stmt) :=
  order <- tree_order root ;; ss <- mapM (node_stmts ko root) order ;; Ok (List.concat ss).

(** ** Executing the module *)
Inductive pyclass : Type := ClsStruct (sd : sdef) (schema : string) | ClsArchive (a : adef) | ClsBuilder (a : adef).
(** a namespace (dict): the latest assignment to a name is found first *)
Definition globals := list (string * pyclass).

(** UTF-8 of an ASCII text *)
Definition text_bytes (s : string) : list Z := ascii_bytes s.

(** A name in the body of class [cls].  [locals] are the names assigned so far in the body, which all hold strings.
    Simplification: using a string or a class of the wrong sort as an initializer is reported here as a TypeError; Python
    reports it (if at all) when the resource is used. *)
Definition lookup_class (g : globals) (cls : string) (locals : list (string * string)) (name : string) : res pyclass :=
  let m := mangle cls name in
  if dict_mem locals m then Err TypeError
  else match dict_get g m with Some c => Ok c | None => Err NameError end.
Definition as_struct (c : pyclass) : res sdef := match c with ClsStruct sd _ => Ok sd | _ => Err TypeError end.
Definition as_archive (c : pyclass) : res adef := match c with ClsArchive a => Ok a | _ => Err TypeError end.
Definition eval_container (g : globals) (cls : string) (locals : list (string * string)) (e : cexpr) : res container :=
  match e with
  | EInstance n => c <- lookup_class g cls locals n ;; sd <- as_struct c ;; Ok (CInstance sd)
  | EVector n => c <- lookup_class g cls locals n ;; sd <- as_struct c ;; Ok (CVector sd)
  | EMulti ns =>
      sds <- mapM (fun n => c <- lookup_class g cls locals n ;; as_struct c) ns ;;
      match sds with it :: ts => Ok (CMultivector it ts) | [] => Err IndexError end
  | ERaw => Ok CRawData
  | EArchive n => c <- lookup_class g cls locals n ;; a <- as_archive c ;; Ok (CArchive a)
  end.
(** the assignments of the class body before [_RESOURCES], latest first *)
Definition body_locals (cls name schema : string) (attrs : list (string * string)) : list (string * string) :=
  (("_NAME", name) :: rev (("_SCHEMA", schema) ::
     flat_map (fun a => [(mangle cls (schema_attr (fst a)), snd a); (mangle cls (doc_attr (fst a)), "")]) attrs))%list.
Definition eval_resource (g : globals) (cls : string) (locals : list (string * string)) (r : string * cexpr * bool) : res (string * rsig) :=
  let '(n, e, o) := r in
  c <- eval_container g cls locals e ;;
  match dict_get locals (mangle cls (schema_attr n)) with
  | Some s => Ok (n, RSig c (text_bytes s) o)
  | None => Err NameError
  end.
Definition exec (g : globals) (s : stmt) : res globals :=
  match s with
  | SStruct cls sd schema => Ok ((cls, ClsStruct sd schema) :: g)
  | SArchive builder cls name schema attrs resources =>
      let locals := body_locals cls name schema attrs in
      rs <- mapM (eval_resource g cls locals) resources ;;
      let a := ADef name (text_bytes schema) (((name ++ ".archive")%string, RSig CRawData (text_bytes schema) false) :: rs)%list in
      Ok ((cls, if builder then ClsBuilder a else ClsArchive a) :: g)
  end.
Definition run_module (ss : list stmt) : res globals := foldM exec [] ss.

(** Importing the module generated for a tree *)
Definition generate_python (ko : list string -> list string) (root : tree) : res globals :=
  ss <- python_module ko root ;; run_module ss.
