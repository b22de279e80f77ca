(** Vocabulary for C49: the declarations a schema text in normal form is made of.  A definition of a finished tree is declared alone
    in a block of its namespace, with absolute names and explicit widths. *)
From Coq Require Import List ZArith Bool String Ascii.
From Verif Require Import PyBase PyText GenTypes GenTree GenBuild GenAstSpec GrammarSpec.
Import ListNotations.
Local Open Scope string_scope.

(** The names a node's references of some kind point to *)
Definition refers (p : refkind -> bool) (t : tree) : list string :=
  flat_map (fun c => match t_kind c with KRef r => if p r then [target c] else [] | _ => [] end) (t_children t).
Definition sole (l : list string) : string := hd "" l.
Definition last_name (path : string) : string := List.last (split_on "."%char path) "".
Definition to_structure (r : refkind) : bool := match r with RStructure => true | _ => false end.
Definition to_archive (r : refkind) : bool := match r with RArchive => true | _ => false end.
Definition to_field (r : refkind) : bool := match r with RField => true | _ => false end.
Definition to_resource (r : refkind) : bool := match r with RResource => true | _ => false end.
Definition to_constant (r : refkind) : bool := match r with RConstValue => true | _ => false end.
Definition to_invalid (r : refkind) : bool := match r with RInvalidValue => true | _ => false end.
Definition to_enum (r : refkind) : bool := match r with REnum _ => true | _ => false end.

(** A field: the width is written for every type, an enumeration by its path *)
Definition normal_field (f : tree) : pfield :=
  match t_kind f with
  | KField rng (Some ty) _ =>
      PField (t_name f)
        ((match rng with Some r => [FRange r] | None => [] end) ++ map FConst (refers to_constant f)
           ++ (match refers to_invalid f with c :: _ => [FOptional c] | [] => [] end))%list
        (match refers to_enum f with e :: _ => e | [] => ft_name ty end) (Some (Z.to_N (ft_width ty)))
  | _ => PField "" [] "" None
  end.
Definition fields_in (t : tree) : list tree := filter (fun c => match t_kind c with KField _ _ _ => true | _ => false end) (t_children t).
Definition normal_structure (t : tree) : pstruct := PStruct (t_name t) (map normal_field (fields_in t)).
(** An enumeration: the width and all values are written; values the generator invented are not *)
Definition normal_values (t : tree) : list (string * option string) :=
  flat_map (fun v => match t_kind v with KEnumValue x false => [(t_name v, Some (py_str x))] | _ => [] end) (t_children t).
Definition normal_enum (t : tree) : penum :=
  match t_kind t with KEnum b => PEnum (t_name t) (bt_name b) (Some (Z.to_N (bt_width b))) (normal_values t) | _ => PEnum "" "" None [] end.
Definition normal_constant (t : tree) : pconst :=
  match t_kind t with KConstant ty v => PConst (t_name t) ty (py_str v) | _ => PConst "" "" "" end.
(** Resources *)
Definition normal_explicit (e : tree) : rdec :=
  RExplicit (sole (refers to_structure e)) (last_name (sole (refers to_field e))) (sole (refers to_resource e)).
Definition explicits_in (t : tree) : list tree := filter (fun c => match t_kind c with KExplicit => true | _ => false end) (t_children t).
Definition normal_type (r : tree) (k : reskind) : rtype :=
  match k with
  | KVector => TVector (sole (refers to_structure r))
  | KMultivector w => TMulti (Z.to_N w) (refers to_structure r)
  | KInstance => TObject (sole (refers to_structure r))
  | KArchiveRes => TArchive (sole (refers to_archive r))
  | _ => TRaw
  end.
Definition normal_resource (r : tree) : presource :=
  match t_kind r with
  | KResource k opt _ => PResource (t_name r) (map normal_explicit (explicits_in r) ++ (if opt then [ROptional] else []))%list (normal_type r k)
  | _ => PResource "" [] TRaw
  end.
Definition bounds_in (t : tree) : list tree := filter (fun c => match t_kind c with KResource KBound _ _ => true | _ => false end) (t_children t).
Definition resources_in (t : tree) : list tree := filter (fun c => match t_kind c with KResource KBound _ _ => false | KResource _ _ _ => true | _ => false end) (t_children t).
Definition normal_bound (b : tree) : string * list string := (t_name b, map target (t_children b)).
Definition normal_archive (t : tree) : parchive := PArchive (t_name t) (map normal_bound (bounds_in t)) (map normal_resource (resources_in t)).

(** A block [namespace N { ... }] with one definition *)
Definition normal_block (n : string) (t : tree) : pnamespace :=
  match t_kind t with
  | KConstant _ _ => PNamespace n [normal_constant t] [] [] []
  | KStructure _ => PNamespace n [] [normal_structure t] [] []
  | KEnum _ => PNamespace n [] [] [normal_enum t] []
  | KArchive => PNamespace n [] [] [] [normal_archive t]
  | _ => PNamespace n [] [] [] []
  end.
