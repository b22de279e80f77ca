(** Vocabulary for the theorems about the schema text embedded for a definition or a resource.  A tree is only inspected through
    its nodes' locations, names, kinds and the places references point to. *)
From Coq Require Import List ZArith Bool String Ascii.
From Verif Require Import PyBase PyText GenTypes GenTree GenBuild GenAstSpec GenFlatdata GenOutSpec.
Import ListNotations.
Local Open Scope Z_scope.

(** References that make a definition depend on another one: to the structure, archive, enumeration or constant that is used.
    (An explicit reference's field and destination, and the members of a bound resource, are named but not needed.) *)
Definition uses (r : refkind) : bool := match r with RStructure | RArchive | REnum _ | RConstValue | RInvalidValue | RBuiltin => true | _ => false end.

(** What the node at [l] depends on: itself, what it contains, and what the references in there use, and so on. *)
Inductive depends (root : tree) (l : loc) : loc -> Prop :=
| depends_self : depends root l l
| depends_part m i c : depends root l m -> at_loc root (m ++ [i])%list = Some c -> is_ref c = false -> depends root l (m ++ [i])%list
| depends_use m i r d : depends root l m -> points_to root (m ++ [i])%list r d -> uses r = true -> depends root l d.

(** A node without the limits on the sizes of resources (these are not part of the schema text) *)
Definition without_limit (k : kind) : kind := match k with KResource rk o _ => KResource rk o None | _ => k end.
Fixpoint unlimited (t : tree) : tree := Node (t_name t) (without_limit (t_kind t)) (map unlimited (t_children t)).

(** Everything the node at [l1] depends on is declared in the other schema as well, with the same qualified name and contents. *)
Definition same_dependencies (root1 : tree) (l1 : loc) (root2 : tree) : Prop :=
  forall m t, depends root1 l1 m -> at_loc root1 m = Some t ->
    exists m' t', at_loc root2 m' = Some t' /\ names_at root2 m' = names_at root1 m /\ unlimited t' = unlimited t.

(** A structure or an archive, or a resource (in an archive): the nodes a schema text is embedded for *)
Definition has_schema (k : kind) : bool := match k with KStructure _ | KArchive | KResource _ _ _ => true | _ => false end.

(** A declaration that is written to a schema text: in no [_builtin] namespace *)
Definition declared (root : tree) (d : loc) : Prop :=
  exists t, at_loc root d = Some t /\ is_supported (t_kind t) = true /\ ~ In "_builtin"%string (namespaces root d).

(** The line of the text that introduces a declaration *)
Definition heading (t : tree) : line :=
  match t_kind t with
  | KStructure _ => ["struct"; t_name t]
  | KArchive => ["archive"; t_name t]
  | KConstant ty v => ["const"; ty; t_name t; "="; py_str v ++ ";"]
  | KEnum b => ["enum"; t_name t; ":"; bt_name b; ":"; py_str (bt_width b)]
  | _ => []
  end%string.
