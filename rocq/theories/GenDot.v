(** Model of the diagrams of flatdata-generator: generators/dot.py, templates/dot/*.jinja2, and the functions of
    tree/syntax_tree.py, tree/nodes/resources/base.py and bound_resource.py they use.

    The text of a diagram is kept as its statements: clusters ("subgraph cluster_..."), nodes and edges with their identifiers,
    ports, titles and rows.  Simplifications: colours, fonts, sizes and white space are left out. *)
From Coq Require Import List ZArith Bool String Ascii.
From Verif Require Import PyBase PyText GenTypes GenTree GenTraversal GenBuild GenFlatdata GenPaths.
Import ListNotations.
Local Open Scope string_scope.

Record row := Row { r_port : string; r_name : string; r_type : string; r_width : Z }.
(** [Cluster id title notes body]: a subgraph with its label; [Spot id]: an invisible node; [Table id title rows]: a node *)
Inductive stmt : Type :=
| Cluster (id title : string) (notes : list string) (body : list stmt)
| Spot (id : string)
| Table (id title : string) (rows : list row).
(** "origin:port -> destination [lhead=cluster]" *)
Record arrow := Arrow { a_from : string; a_port : string; a_to : string; a_head : string }.

(** node.py:78-82 [path_with()], with its default separator *)
Definition id_of (root : tree) (l : loc) : res string :=
  match path_with "_" root l with Some s => Ok s | None => Err RuntimeError end.

(** [children_like(ResourceReference)] *)
Definition is_resource_ref (k : kind) : bool := match k with KRef RResource => true | _ => false end.
(** resources/base.py:42-44 and bound_resource.py:20-23 [referenced_structures]; a bound resource asks the resources it binds.  Python
    recurses until it raises RecursionError (a RuntimeError) when a bound resource binds itself; here the depth is bounded by the number
    of nodes. *)
Fixpoint shown_structures (depth : nat) (root r : tree) : res (list tree) :=
  if is_bound (t_kind r) then
    match depth with
    | O => Err RuntimeError
    | S d => parts <- mapM (fun c => l <- ref_loc root c ;; match at_loc root l with Some t => shown_structures d root t | None => Err RuntimeError end)
                           (children_like r is_resource_ref) ;;
             Ok (List.concat parts)
    end
  else Ok (referenced_structures r).
Definition depth_of (root : tree) : nat := S (List.length (locs root)).

(** syntax_tree.py:98-99, 112-113: [any([c.node == node for c in resource.children_like(ResourceReference)])] *)
Definition loc_eqb (a b : loc) : bool := if loc_eq_dec a b then true else false.
Definition binds (root b : tree) (l : loc) : res bool :=
  ds <- mapM (ref_loc root) (children_like b is_resource_ref) ;; Ok (existsb (loc_eqb l) ds).
(** syntax_tree.py:102-113 [binding_resources] of the resource at [l]: among the children [cs] of the archive at [a], from position [i] on.
    Simplification: [is_bound_implicitly] (88-99) stops at the first one; here it asks whether there is any. *)
Fixpoint binding_from (root : tree) (a : loc) (l : loc) (i : nat) (cs : list tree) : res (list loc) :=
  match cs with
  | [] => Ok []
  | b :: r =>
      h <- (if is_bound (t_kind b) then binds root b l else Ok false) ;;
      rest <- binding_from root a l (S i) r ;;
      Ok (if h then (a ++ [i])%list :: rest else rest)
  end.
Definition binding_resources (root : tree) (l : loc) : res (list loc) :=
  match at_loc root (parent_loc l) with
  | Some a => if GenBuild.is_archive (t_kind a) then binding_from root (parent_loc l) l 0 (t_children a) else Err AssertionError
  | None => Err RuntimeError
  end.
(** syntax_tree.py:115-119 [binding_resources_or_self] *)
Definition binding_or_self (root : tree) (l : loc) : res (list loc) :=
  bs <- binding_resources root l ;; Ok match bs with [] => [l] | _ => bs end.

(** dot.py:25-33 [field_value_type]: the prefix is the path of the structure's namespace *)
Definition starts_with (p s : string) : bool := String.prefix p s.
Fixpoint drop (n : nat) (s : string) : string := match n, s with S m, String _ t => drop m t | _, _ => s end.
Definition field_value_type (root : tree) (struct : loc) (name : string) : string :=
  let t := field_type name in
  let ns := match path_at root (parent_loc struct) with Some p => p | None => "" end in
  let t := if starts_with ns t then drop (String.length ns) t else t in
  if starts_with "." t then drop 1 t else t.

(** templates/dot/structure.jinja2: the structure at [d] as part of the resource at [l] *)
Definition row_of (root : tree) (rid : string) (d : loc) (i : nat) (f : tree) : res row :=
  match t_kind f with
  | KField _ (Some ty) _ => p <- id_of root (d ++ [i])%list ;; Ok (Row ("port_" ++ rid ++ p) (t_name f) (field_value_type root d (ft_name ty)) (ft_width ty))
  | _ => Err AttributeError
  end.
Fixpoint rows_from (root : tree) (rid : string) (d : loc) (i : nat) (cs : list tree) : res (list row) :=
  match cs with
  | [] => Ok []
  | f :: r => here <- (if is_field (t_kind f) then x <- row_of root rid d i f ;; Ok [x] else Ok []) ;; rest <- rows_from root rid d (S i) r ;; Ok (here ++ rest)%list
  end.
Definition table_of (root : tree) (rid : string) (c : tree) : res stmt :=
  d <- ref_loc root c ;;
  match at_loc root d with
  | Some s => sid <- id_of root d ;; rows <- rows_from root rid d 0 (t_children s) ;; Ok (Table (rid ++ sid) (t_name s) rows)
  | None => Err RuntimeError
  end.

(** templates/dot/resource.jinja2: [resource.__class__.__name__] *)
Definition class_name (rk : reskind) : string :=
  match rk with
  | KInstance => "Instance" | KVector => "Vector" | KMultivector _ => "Multivector" | KRawData => "RawData" | KArchiveRes => "Archive" | KBound => "BoundResource"
  end.
Definition resource_body (root : tree) (rid : string) (t : tree) : res (list stmt) :=
  refs <- shown_structures (depth_of root) root t ;;
  ts <- mapM (table_of root rid) refs ;;
  Ok (match refs with [] => [Spot rid] | _ => ts end).

(** templates/dot/render.jinja2:5-32 and the enter / exit macros of namespace.jinja2, archive.jinja2, resource.jinja2 *)
Definition enclose (root : tree) (l : loc) (t : tree) (body : list stmt) : res (list stmt) :=
  match t_kind t with
  | KNamespace | KArchive => i <- id_of root l ;; Ok [Cluster ("cluster_" ++ i) (t_name t) [] body]
  | KResource rk opt _ =>
      bs <- binding_resources root l ;;
      match bs with
      | [] => i <- id_of root l ;; own <- resource_body root i t ;;
              Ok [Cluster ("cluster_" ++ i) (t_name t) (class_name rk :: if opt then ["optional"] else []) (own ++ body)%list]
      | _ => Ok body
      end
  | _ => Ok body
  end.
Fixpoint draw (root : tree) (l : loc) (t : tree) {struct t} : res (list stmt) :=
  match t with
  | Node n k cs =>
      body <- (fix go (i : nat) (cs : list tree) : res (list stmt) :=
                 match cs with
                 | [] => Ok []
                 | c :: r => x <- draw root (l ++ [i])%list c ;; y <- go (S i) r ;; Ok (x ++ y)%list
                 end) 0 cs ;;
      enclose root l (Node n k cs) body
  end.

(** templates/dot/references.jinja2:1-10 [_render_edge] for the explicit reference [e] *)
Definition arrow_of (root e : tree) (origin destination : loc) : res arrow :=
  o <- id_of root origin ;; d <- id_of root destination ;;
  to <- match at_loc root destination with
        | Some t => refs <- shown_structures (depth_of root) root t ;;
                    match refs with
                    | [] => Ok d
                    | c :: _ => x <- ref_loc root c ;; i <- id_of root x ;; Ok (d ++ i)
                    end
        | None => Err RuntimeError
        end ;;
  s <- explicit_structure e ;; sl <- ref_loc root s ;; si <- id_of root sl ;;
  f <- explicit_field e ;; fl <- ref_loc root f ;; fi <- id_of root fl ;;
  Ok (Arrow (o ++ si) ("port_" ++ o ++ fi) to ("cluster_" ++ d)).
(** references.jinja2:12-18 [_render_explicit_reference] *)
Definition arrows_of (root e : tree) (l : loc) : res (list arrow) :=
  os <- binding_or_self root l ;;
  d <- explicit_destination e ;; dl <- ref_loc root d ;;
  ds <- binding_or_self root dl ;;
  parts <- mapM (fun o => mapM (arrow_of root e o) ds) os ;; Ok (List.concat parts).
(** references.jinja2:20-28: [resource.explicit_references] of [archive.resources] *)
Definition is_resource (k : kind) : bool := match k with KResource _ _ _ => true | _ => false end.
Fixpoint archive_arrows (root : tree) (a : loc) (i : nat) (cs : list tree) : res (list arrow) :=
  match cs with
  | [] => Ok []
  | r :: t =>
      here <- (if is_resource (t_kind r) then parts <- mapM (fun e => arrows_of root e (a ++ [i])%list) (children_like r is_explicit) ;; Ok (List.concat parts) else Ok []) ;;
      rest <- archive_arrows root a (S i) t ;; Ok (here ++ rest)%list
  end.
(** generators/__init__.py:66-68 with dot.py:37-38: the nodes are the archives, in dependency order *)
Definition arrows (root : tree) : res (list arrow) :=
  order <- tree_order root ;;
  parts <- mapM (fun l => match at_loc root l with
                          | Some a => if GenBuild.is_archive (t_kind a) then archive_arrows root l 0 (t_children a) else Ok []
                          | None => Err RuntimeError
                          end) order ;;
  Ok (List.concat parts).
(** templates/dot/dot.jinja2 *)
Definition diagram (root : tree) : res (list stmt * list arrow) :=
  ss <- draw root [] root ;; es <- arrows root ;; Ok (ss, es).
