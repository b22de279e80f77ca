(** Model of the paths by which generated Rust and C++ code names definitions of the schema. *)
From Coq Require Import List ZArith Bool String Ascii.
From Verif Require Import PyBase PyText GenTypes GenTree GenBuild GenNames.
Import ListNotations.
Local Open Scope string_scope.

(** [s.replace(".", sep)] *)
Fixpoint replace_dots (sep s : string) : string :=
  match s with "" => "" | String c t => (if Ascii.eqb c "." then sep else String c "") ++ replace_dots sep t end.
(** node.py:78-82 [path_with] *)
Definition path_with (sep : string) (root : tree) (l : loc) : option string := option_map (replace_dots sep) (path_at root l).
(** node.py:84-90 [path_depth] *)
Definition path_depth (l : loc) : nat := List.length l.
(** generators/rust.py:87-88 [_fully_qualified_name] *)
Definition rust_path (root : tree) (current node : loc) : option string :=
  option_map (fun p => join "::" (repeat "super" (path_depth current - 1)) ++ p) (path_with "::" root node).
(** references.py:24-26 [node] *)
Definition ref_node (root c : tree) : option loc := find root (target c).
(** field.py:66-67 [type_reference]: of a field whose type is an [EnumType], and that has the reference's name (builder.py:142-144); the names
    of other types do not start with '@' *)
Definition is_enum_ref (k : kind) : bool := match k with KRef (REnum _) => true | _ => false end.
Definition is_enum_type (ty : ftype) : bool := match ft_name ty with String c _ => Ascii.eqb c "@" | "" => false end.
Definition type_reference (f : tree) (ty : ftype) : option tree := hd_error (filter (fun r => String.eqb (t_name r) (ft_name ty)) (children_like f is_enum_ref)).
(** generators/rust.py:76-80 [_field_type] of a field of the structure at [l] *)
Definition rust_field_type (root : tree) (l : loc) (f : tree) : option string :=
  match t_kind f with
  | KField _ (Some ty) _ =>
      if is_enum_type ty then
        match type_reference f ty with Some r => match ref_node root r with Some d => rust_path root l d | None => None end | None => None end
      else Some (ft_name ty)
  | _ => None
  end.
(** generators/rust.py:82-85 [_primitive_type] *)
Definition rust_primitive_type (root f : tree) : option string :=
  match t_kind f with
  | KField _ (Some ty) _ =>
      if is_enum_type ty then
        match type_reference f ty with
        | Some r => match ref_node root r with
                    | Some d => match at_loc root d with Some e => match t_kind e with KEnum b => Some (bt_name b) | _ => None end | None => None end
                    | None => None
                    end
        | None => None
        end
      else Some (ft_name ty)
  | _ => None
  end.

(** generators/cpp.py:31-44 [_cpp_base_type]: [.replace("@@", "::").replace("@", "::")] *)
Fixpoint replace_ats_colons (s : string) : string :=
  match s with
  | "" => ""
  | String "@" (String "@" t) => "::" ++ replace_ats_colons t
  | String c t => String c (replace_ats_colons t)
  end.
Fixpoint replace_at_colons (s : string) : string :=
  match s with "" => "" | String c t => (if Ascii.eqb c "@" then "::" else String c "") ++ replace_at_colons t end.
Definition cpp_basic : list (string * string) :=
  [("bool", "bool"); ("i8", "int8_t"); ("u8", "uint8_t"); ("u16", "uint16_t"); ("i16", "int16_t"); ("u32", "uint32_t"); ("i32", "int32_t"); ("u64", "uint64_t"); ("i64", "int64_t")].
Fixpoint lookup (n : string) (l : list (string * string)) : option string :=
  match l with [] => None | (k, v) :: t => if String.eqb k n then Some v else lookup n t end.
Definition cpp_base_type (name : string) : string :=
  match lookup name cpp_basic with Some c => c | None => replace_at_colons (replace_ats_colons name) end.
Definition cpp_field_type (f : tree) : option string := match t_kind f with KField _ (Some ty) _ => Some (cpp_base_type (ft_name ty)) | _ => None end.

(** ** What the generated code declares
    templates/rust/rust.jinja2:10-47 and templates/cpp/cpp.jinja2 go down from the root through namespaces only, and write a module (a
    namespace) for each; definitions in it are declared there.  [declared root l m n]: the definition at [l] is declared in module [m],
    a path from the top of the generated code. *)
Definition is_declared (k : kind) : bool := match k with KStructure _ | KEnum _ | KArchive | KConstant _ _ => true | _ => false end.
Definition is_const (k : kind) : bool := match k with KConstant _ _ => true | _ => false end.
Definition declared (root : tree) (l : loc) (m : list string) (v : tree) : Prop :=
  exists p i, l = (p ++ [i])%list /\ at_loc root l = Some v /\ is_declared (t_kind v) = true
    /\ names_at root p = Some (t_name root :: m)
    /\ (forall q r u, p = (q ++ r)%list -> q <> [] -> at_loc root q = Some u -> t_kind u = KNamespace).
(** The name it is declared with; templates/rust/constant.jinja2:6 changes the names of constants *)
Definition rust_item (v : tree) : string := if is_const (t_kind v) then upper (snake (t_name v)) else t_name v.
Definition cpp_item (v : tree) : string := t_name v.
