(** Vocabulary for C100: what a diagram should show.  The schema is looked at through its tree only (locations, kinds, names, and where
    references point); a diagram through its clusters, nodes with their ports, and arrows. *)
From Coq Require Import List ZArith Bool String Ascii.
From Verif Require Import PyBase PyText GenTypes GenTree GenAstSpec GenDot.
Import ListNotations.
Local Open Scope string_scope.

(** ** Diagrams: all the clusters, and all the nodes with their ports *)
Fixpoint clusters (s : stmt) : list string :=
  match s with Cluster id _ _ body => id :: flat_map clusters body | Spot _ | Table _ _ _ => [] end.
Fixpoint nodes (s : stmt) : list (string * list string) :=
  match s with
  | Cluster _ _ _ body => flat_map nodes body
  | Spot id => [(id, [])]
  | Table id _ rows => [(id, map r_port rows)]
  end.
(** An arrow starts at a port of a node, and ends at a node and at a cluster, that are in the diagram *)
Definition connected (ss : list stmt) (e : arrow) : Prop :=
  (exists ports, In (a_from e, ports) (flat_map nodes ss) /\ In (a_port e) ports)
  /\ (exists ports, In (a_to e, ports) (flat_map nodes ss))
  /\ In (a_head e) (flat_map clusters ss).

(** ** Schemas *)
(** A resource, bound by a sibling or not *)
Definition resource_at (root : tree) (l : loc) (rk : reskind) : Prop := exists t o m, at_loc root l = Some t /\ t_kind t = KResource rk o m.
(** The bound resource at [b] binds the resource at [l], of the same archive *)
Definition bound_by (root : tree) (l b : loc) : Prop :=
  resource_at root b KBound /\ parent_loc b = parent_loc l /\ exists i, points_to root (b ++ [i])%list RResource l.
Definition hidden (root : tree) (l : loc) : Prop := exists b, bound_by root l b.
(** What stands for a resource: the resources that bind it, itself if there are none *)
Definition stands_for (root : tree) (l o : loc) : Prop := bound_by root l o \/ (o = l /\ ~ hidden root l).
(** The structures of a resource: its own (a multivector has the one of its index too), or those of the resources it binds *)
Inductive shows (root : tree) : loc -> loc -> Prop :=
| shows_own l rk i r d : resource_at root l rk -> rk <> KBound -> r = RStructure \/ r = RBuiltin -> points_to root (l ++ [i])%list r d -> shows root l d
| shows_bound l i m d : resource_at root l KBound -> points_to root (l ++ [i])%list RResource m -> shows root m d -> shows root l d.
(** Bound resources bind resources that are not bound themselves *)
Definition plainly_bound (root : tree) : Prop :=
  forall b i l rk, resource_at root b KBound -> points_to root (b ++ [i])%list RResource l -> resource_at root l rk -> rk <> KBound.

(** The parts of a diagram are called after the paths of what they show, with '_' for '.' *)
Fixpoint underscores (s : string) : string :=
  match s with "" => "" | String c t => String (if Ascii.eqb c "." then "_" else c)%char (underscores t) end.
Definition called (root : tree) (l : loc) (id : string) : Prop := exists p, path_at root l = Some p /\ id = underscores p.
Definition called_in (root : tree) (l d : loc) (id : string) : Prop := exists a b, called root l a /\ called root d b /\ id = a ++ b.

(** The fields of the structure at [d], in order, called after the resource at [l] too *)
Definition field_positions (root : tree) (d : loc) (is : list nat) : Prop :=
  exists s, at_loc root d = Some s
    /\ is = filter (fun i => match nth_error (t_children s) i with Some f => match t_kind f with KField _ _ _ => true | _ => false end | None => false end) (seq 0 (List.length (t_children s))).
Definition ports_of (root : tree) (l d : loc) (ports : list string) : Prop :=
  exists is, field_positions root d is /\ Forall2 (fun i port => exists id, called_in root l (d ++ [i])%list id /\ port = "port_" ++ id) is ports.

(** The nodes of the resource at [l] *)
Definition node_of (root : tree) (l : loc) (id : string) (ports : list string) : Prop :=
  (exists d, shows root l d /\ called_in root l d id /\ ports_of root l d ports)
  \/ ((forall d, ~ shows root l d) /\ called root l id /\ ports = []).

(** An explicit reference of the resource at [l]: from the field at [f] of the structure at [s] to the resource at [d] *)
Definition refers (root : tree) (l s f d : loc) : Prop :=
  exists i e j k m, at_loc root (l ++ [i])%list = Some e /\ t_kind e = KExplicit
    /\ points_to root (l ++ [i; j])%list RStructure s /\ points_to root (l ++ [i; k])%list RField f /\ points_to root (l ++ [i; m])%list RResource d.
(** The arrow from what stands for the one resource to what stands for the other *)
Definition arrow_between (root : tree) (o s f h : loc) (e : arrow) : Prop :=
  called_in root o s (a_from e) /\ (exists id, called_in root o f id /\ a_port e = "port_" ++ id)
  /\ (exists ports, node_of root h (a_to e) ports) /\ exists id, called root h id /\ a_head e = "cluster_" ++ id.

(** Names may begin with '_', and have no other '_' *)
Fixpoint leading_only (after_dot : bool) (p : string) : bool :=
  match p with
  | "" => negb after_dot
  | String c t => (if Ascii.eqb c "_" then after_dot else if Ascii.eqb c "." then negb after_dot else true) && leading_only (Ascii.eqb c ".") t
  end.
Definition plainly_named (root : tree) (l : loc) : Prop := exists p, path_at root l = Some p /\ leading_only false p = true.

(** ** What is written on the parts *)
(** The titles and notes of the clusters; the titles and rows of the tables *)
Fixpoint cluster_labels (s : stmt) : list (string * string * list string) :=
  match s with Cluster id title notes body => (id, title, notes) :: flat_map cluster_labels body | Spot _ | Table _ _ _ => [] end.
Fixpoint tables (s : stmt) : list (string * string * list row) :=
  match s with Cluster _ _ _ body => flat_map tables body | Spot _ => [] | Table id title rows => [(id, title, rows)] end.
(** Namespaces and archives: no notes.  Resources: their kind, and whether they are optional. *)
Definition notes_of (k : kind) (notes : list string) : Prop :=
  match k with
  | KResource rk o _ =>
      (exists what, notes = what :: if o then ["optional"] else [])
      /\ (forall what, In (rk, what) [(KInstance, "Instance"); (KVector, "Vector"); (KRawData, "RawData"); (KArchiveRes, "Archive"); (KBound, "BoundResource")] -> hd_error notes = Some what)
      /\ (forall w, rk = KMultivector w -> hd_error notes = Some "Multivector")
  | KNamespace | KArchive => notes = []
  | _ => False
  end.
(** The type of the field at [d ++ [i]], as it is shown: the basic type, or the path of the enumeration - the part after the namespace
    of the structure if it starts with that namespace, all of it (without the first dot) if it does not start like it. *)
Definition type_shown (root : tree) (d : loc) (i : nat) (ty : ftype) (label : string) : Prop :=
  (In (ft_name ty) ["bool"; "i8"; "u8"; "i16"; "u16"; "i32"; "u32"; "i64"; "u64"] /\ label = ft_name ty)
  \/ exists j w e pe pn, points_to root (d ++ [i; j])%list (REnum w) e /\ path_at root e = Some pe /\ path_at root (parent_loc d) = Some pn
      /\ (forall x, pe = pn ++ "." ++ x -> label = x) /\ ((forall x, pe <> pn ++ x) -> pe = "." ++ label).
Definition row_shown (root : tree) (l d : loc) (i : nat) (r : row) : Prop :=
  exists f rng ty off id, at_loc root (d ++ [i])%list = Some f /\ t_kind f = KField rng (Some ty) off
    /\ called_in root l (d ++ [i])%list id /\ r_port r = "port_" ++ id /\ r_name r = t_name f /\ r_width r = ft_width ty /\ type_shown root d i ty (r_type r).
