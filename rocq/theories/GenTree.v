(** Model of the syntax tree of flatdata-generator: tree/nodes/node.py, references.py and the node classes.

    A Python tree of mutable, parent-linked nodes is a rose tree; a node object inside the tree is addressed by its
    location [loc] (child positions from the root), its parent is the location without the last position.  Children are an
    OrderedDict keyed by the child's name; the keys always agree with the names ([set_name] reindexes), so children are a
    list searched by name.  Docs and raw parse results ([_properties]) are not kept, except for what the code reads. *)
From Coq Require Import List ZArith Bool String Ascii.
From Verif Require Import PyBase PyText GenTypes.
Import ListNotations.
Local Open Scope string_scope.
Local Open Scope Z_scope.

(** references.py:39-103, the classes that are instantiated *)
Inductive refkind : Type :=
| RStructure | RBuiltin | RArchive | RConstValue | RInvalidValue | REnum (width : option Z) | RResource | RField.

(** subclasses of TypeReference (references.py:66-93) *)
Definition is_type_ref (r : refkind) : bool := match r with RResource | RField => false | _ => true end.
(** subclasses of ConstantReference (references.py:82-90) *)
Definition is_const_ref (r : refkind) : bool := match r with RConstValue | RInvalidValue => true | _ => false end.

(** What the code uses of a field's type object: BasicType (basictype.py) or EnumType (enumtype.py) *)
Record ftype := FT { ft_name : string; ft_width : Z; ft_signed : bool }.

(** tree/nodes/resources/*.py *)
Inductive reskind : Type := KInstance | KVector | KMultivector (width : Z) | KRawData | KArchiveRes | KBound.

(** The node classes with the attributes that are read or written after creation *)
Inductive kind : Type :=
| KRoot
| KNamespace
| KConstant (type_name : string) (value : Z)
| KStructure (size_in_bits : option Z)
| KField (range : option string) (type : option ftype) (offset : option Z)
| KEnum (type : btype)
| KEnumValue (value : Z) (auto_generated : bool)
| KArchive
| KResource (rk : reskind) (optional : bool) (max_size : option Z)
| KExplicit
| KRef (r : refkind).

Inductive tree : Type := Node (name : string) (k : kind) (children : list tree).
Definition t_name (t : tree) : string := let (n, _, _) := t in n.
Definition t_kind (t : tree) : kind := let (_, k, _) := t in k.
Definition t_children (t : tree) : list tree := let (_, _, c) := t in c.

Definition is_ref (t : tree) : bool := match t_kind t with KRef _ => true | _ => false end.
Definition is_namespace (t : tree) : bool := match t_kind t with KNamespace => true | _ => false end.

(** root.py:4-7: the root is named "" *)
Definition new_root : tree := Node "" KRoot [].

Definition loc := list nat.

(** The node at a location *)
Fixpoint at_loc (t : tree) (l : loc) : option tree :=
  match l with
  | [] => Some t
  | i :: l' => match nth_error (t_children t) i with Some c => at_loc c l' | None => None end
  end.

Definition parent_loc (l : loc) : loc := removelast l.

(** In-place update of the node at a location *)
Fixpoint upd {A} (l : list A) (i : nat) (f : A -> A) : list A :=
  match l, i with
  | [], _ => []
  | x :: t, O => f x :: t
  | x :: t, S j => x :: upd t j f
  end.
Fixpoint modify (t : tree) (l : loc) (f : tree -> tree) : tree :=
  match l with
  | [] => f t
  | i :: l' => match t with Node n k cs => Node n k (upd cs i (fun c => modify c l' f)) end
  end.

(** dict lookup by name among the children: position and node *)
Fixpoint child_pos (cs : list tree) (name : string) : option nat :=
  match cs with
  | [] => None
  | c :: t => if String.eqb (t_name c) name then Some O else option_map S (child_pos t name)
  end.

(** node.py:113-121, following keys below a node *)
Fixpoint find_keys (t : tree) (keys : list string) : option loc :=
  match keys with
  | [] => Some []
  | k :: ks => match child_pos (t_children t) k with
               | Some i => match nth_error (t_children t) i with
                           | Some c => option_map (cons i) (find_keys c ks)
                           | None => None
                           end
               | None => None
               end
  end.

(** node.py:103-125 [find(path)], 127-135 [get]: [None] is RuntimeError resp. the default *)
Definition find (t : tree) (path : string) : option loc :=
  match split_on "." path with
  | k :: ks => if String.eqb (t_name t) k then find_keys t ks else None
  | [] => None
  end.

(** node.py:137-141 [find_relative], 163-167 [get_relative] *)
Definition find_relative (t : tree) (path : string) : option loc := find t (t_name t ++ "." ++ path).

(** names from the root down to a location; node.py:69-76 [path] is their join *)
Fixpoint names_at (t : tree) (l : loc) : option (list string) :=
  match l with
  | [] => Some [t_name t]
  | i :: l' => match nth_error (t_children t) i with
               | Some c => option_map (cons (t_name t)) (names_at c l')
               | None => None
               end
  end.
Definition path_at (t : tree) (l : loc) : option string := option_map (join ".") (names_at t l).

(** node.py:36-42 [__init__]: the assertions on a name *)
Definition name_ok (name : string) : bool := negb (has_char "." name) && negb (String.eqb name "").
Definition make_node (name : string) (k : kind) : res tree :=
  if name_ok name then Ok (Node name k []) else Err AssertionError.

(** node.py:203-221 [insert] of a node without parent *)
Definition insert (t c : tree) : res tree :=
  match child_pos (t_children t) (t_name c) with
  | Some _ => Err (SymbolRedefinition (t_name c))
  | None => Ok (Node (t_name t) (t_kind t) (t_children t ++ [c])%list)
  end.
Definition insert_at (root : tree) (l : loc) (c : tree) : res tree :=
  match at_loc root l with
  | None => Err RuntimeError
  | Some t => t' <- insert t c ;; Ok (modify root l (fun _ => t'))
  end.

(** node.py:241-249 [iterate()]: all locations in pre-order *)
Fixpoint locs (t : tree) : list loc :=
  match t with
  | Node _ _ cs =>
      [] :: (fix go (i : nat) (cs : list tree) : list loc :=
               match cs with
               | [] => []
               | c :: r => (map (cons i) (locs c) ++ go (S i) r)%list
               end) O cs
  end.
(** [iterate(node_type)] *)
Definition iterate (root : tree) (p : kind -> bool) : list loc :=
  filter (fun l => match at_loc root l with Some t => p (t_kind t) | None => false end) (locs root).

(** node.py:57-61 [children_like] *)
Definition children_like (t : tree) (p : kind -> bool) : list tree := filter (fun c => p (t_kind c)) (t_children t).

(** references.py:32-38 *)
Definition referencify (name : string) : string := String "@" (replace_char "." "@" name).
Definition dereferencify (name : string) : string :=
  match name with EmptyString => EmptyString | String _ t => replace_char "@" "." t end.
(** references.py:13-14, 17-19: a reference node *)
Definition make_ref (r : refkind) (name : string) : res tree := make_node (referencify name) (KRef r).
Definition target (t : tree) : string := dereferencify (t_name t).
(** references.py:28-30 [is_qualified] *)
Definition is_qualified (t : tree) : bool := match t_name t with String "@" (String "@" _) => true | _ => false end.
(** references.py:24-26 [node]: [self.root.find(self.target)] *)
Definition ref_loc (root : tree) (r : tree) : res loc :=
  match find root (target r) with Some l => Ok l | None => Err RuntimeError end.

(** node.py:88-102 [set_name] of the node at location [l] *)
Definition set_name (root : tree) (l : loc) (value : string) : res tree :=
  match at_loc root l with
  | None => Err RuntimeError
  | Some t =>
      if String.eqb (t_name t) value then Ok root
      else match l, at_loc root (parent_loc l) with
           | _ :: _, Some p => match child_pos (t_children p) value with
                               | Some _ => Err RuntimeError
                               | None => Ok (modify root l (fun t => Node value (t_kind t) (t_children t)))
                               end
           | _, _ => Ok (modify root l (fun t => Node value (t_kind t) (t_children t)))
           end
  end.
