(** Model of the names that the Rust and C++ generators declare.

    Simplification: a scope is the list of the names declared in it; types, comments and bodies are not part of this model.  Names are
    ASCII (grammar.py:16). *)
From Coq Require Import List ZArith Bool String Ascii.
From Verif Require Import PyBase PyText GenTypes GenTree GenBuild.
Import ListNotations.
Local Open Scope string_scope.

(** ** Text *)
Definition between (a b : N) (c : ascii) : bool := ((a <=? N_of_ascii c) && (N_of_ascii c <=? b))%N.
Definition is_upper : ascii -> bool := between 65 90.
Definition is_lower : ascii -> bool := between 97 122.
(** [str.lower] *)
Definition lower_char (c : ascii) : ascii := if is_upper c then ascii_of_N (N_of_ascii c + 32) else c.
Fixpoint lower (s : string) : string := match s with "" => "" | String c t => String (lower_char c) (lower t) end.
(** [str.title]: a letter is a capital exactly if no letter precedes it *)
Fixpoint title (inside : bool) (s : string) : string :=
  match s with
  | "" => ""
  | String c t => String (if inside then lower_char c else upper_char c) (title (is_upper c || is_lower c) t)
  end.
(** generators/rust.py:51-52, generators/cpp.py:52-53 [_snake_to_upper_camel_case] *)
Definition camel (s : string) : string := join "" (map (title false) (split_on "_" s)).
(** [[A-Z][a-z]+] matches at the start *)
Definition word_starts (s : string) : bool :=
  match s with String a (String b _) => is_upper a && is_lower b | _ => false end.
(** generators/rust.py:46: [re.sub('(.)([A-Z][a-z]+)', r'\1_\2', s)].  [Free]: before a match; [Capital]: at the capital of a match;
    [Inside]: in its small letters, of which as many as possible belong to it *)
Inductive place := Free | Capital | Inside.
Fixpoint underscores (p : place) (s : string) : string :=
  match s with
  | "" => ""
  | String c t =>
      let free := if word_starts t then String c (String "_" (underscores Capital t)) else String c (underscores Free t) in
      match p with
      | Free => free
      | Capital => String c (underscores Inside t)
      | Inside => if is_lower c then String c (underscores Inside t) else free
      end
  end.
(** generators/rust.py:45-47 [_camel_to_snake_case]; the second expression, '([a-z0-9])(A-Z)', matches no identifier: it needs a
    hyphen *)
Definition snake (s : string) : string := lower (underscores Free s).
(** generators/rust.py:19-24 *)
Definition rust_escaped : list string :=
  ["abstract"; "alignof"; "as"; "become"; "box"; "break"; "const"; "continue"; "crate"; "do"; "else"; "enum"; "extern"; "false";
   "final"; "fn"; "for"; "if"; "impl"; "in"; "let"; "loop"; "macro"; "match"; "mod"; "move"; "mut"; "offsetof"; "override"; "priv";
   "proc"; "pub"; "pure"; "ref"; "return"; "self"; "sizeof"; "static"; "struct"; "super"; "trait"; "true"; "type"; "typeof";
   "unsafe"; "unsized"; "use"; "virtual"; "where"; "while"; "yield"].
(** generators/rust.py:77-80 [_escape_rust_keywords] *)
Definition escape (s : string) : string := if existsb (String.eqb s) rust_escaped then s ++ "_" else s.

(** ** Parts of a node *)
Local Open Scope list_scope.
Local Notation "a ^^ b" := (String.append a b) (right associativity, at level 60).
Definition field_names (t : tree) : list string := map t_name (children_like t is_field).
Definition range_of (f : tree) : list string := match t_kind f with KField (Some r) _ _ => [r] | _ => [] end.
Definition range_names (t : tree) : list string := flat_map range_of (children_like t is_field).
(** archive.py: resources; the filter [supported_resources] (generators/rust.py:113-114, generators/cpp.py:93-94) *)
Definition is_supported (k : kind) : bool := match k with KResource KBound _ _ => false | KResource _ _ _ => true | _ => false end.
Definition supported (t : tree) : list tree := children_like t is_supported.
Definition resource_names (t : tree) : list string := map t_name (supported t).
Definition is_multi (k : kind) : bool := match k with KResource (KMultivector _) _ _ => true | _ => false end.
Definition is_sub (k : kind) : bool := match k with KResource KArchiveRes _ _ => true | _ => false end.
Definition is_structure (k : kind) : bool := match k with KStructure _ => true | _ => false end.
Definition is_enum (k : kind) : bool := match k with KEnum _ => true | _ => false end.
Definition names_like (t : tree) (p : kind -> bool) : list string := map t_name (children_like t p).

(** ** Rust (the order of the names in a scope does not matter; they are listed by kind) *)
(** templates/rust/structure.jinja2: methods of a structure, lines 15, 31-73, 97-124, 160-175 *)
Definition rust_methods (t : tree) : list string :=
  ["new_unchecked"; "fill_from"] ++ (if has_range t then [] else ["new"; "from_bytes"; "from_bytes_mut"; "from_bytes_slice"; "from_bytes_slice_mut"; "as_bytes"])
  ++ map escape (field_names t ++ range_names t) ++ map (fun n => "set_" ^^ escape n) (field_names t).
(** templates/rust/enumeration.jinja2:8-18: variants *)
Definition rust_variants (values : list string) : list string := map camel values.
(** templates/rust/constant.jinja2:6: constants of a module *)
Definition rust_constants (ns : tree) : list string := map (fun n => upper (snake n)) (names_like ns is_constant).
(** templates/rust/rust.jinja2:10-47: types and modules of a module; templates/rust/archive.jinja2:19, 180,
    templates/rust/variadic.jinja2:10, 44, 89: the types of an archive *)
Definition multi_names (ns : tree) : list string := flat_map (fun a => names_like a is_multi) (children_like ns is_archive).
Definition is_module (k : kind) : bool := match k with KNamespace => true | _ => false end.
Definition rust_types (ns : tree) : list string :=
  names_like ns is_module ++ names_like ns is_structure ++ names_like ns is_enum ++ names_like ns is_archive ++ map camel (multi_names ns) ++ ["schema"]
  ++ map (fun n => n ^^ "Builder") (names_like ns is_archive ++ map camel (multi_names ns)) ++ map (fun n => camel n ^^ "Ref") (multi_names ns).
(** templates/rust/rust.jinja2:36-50: the modules in [schema], and the constants in each [resources] *)
Definition rust_schema_modules (ns : tree) : list string := map snake (names_like ns is_archive).
Definition rust_schema_constants (a : tree) : list string := map upper (resource_names a).
(** templates/rust/archive.jinja2:19-115: data members and methods of an archive *)
Definition rust_archive_fields (a : tree) : list string := "_storage" :: resource_names a.
Definition rust_archive_methods (a : tree) : list string := ["signature_name"; "open"] ++ resource_names a.
(** templates/rust/archive.jinja2:112-176: the variables of [open], all used until its end *)
Definition rust_open_variables (a : tree) : list string := ["storage"; "extend"] ++ resource_names a.
(** templates/rust/archive.jinja2:184-270: methods of a builder; raw data, instances and vectors can be set, vectors and multivectors
    started (generators/cpp.py:66-91 for C++) *)
Definition can_set (k : kind) : bool := match k with KResource (KRawData | KInstance | KVector) _ _ => true | _ => false end.
Definition can_start (k : kind) : bool := match k with KResource (KVector | KMultivector _) _ _ => true | _ => false end.
Definition rust_builder_methods (a : tree) : list string :=
  "new" :: map (fun n => "set_" ^^ n) (names_like a can_set) ++ map (fun n => "start_" ^^ n) (names_like a can_start) ++ names_like a is_sub.

(** ** C++ *)
(** generators/cpp.py:56-59 [_typedef_name] *)
Definition typedef (n suffix : string) : string := camel n ^^ suffix ^^ "Type".
(** templates/cpp/structure.jinja2:1-65: the template parameter and the members of a structure *)
Definition cpp_members (t : tree) : list string :=
  ["Member"; t_name t ^^ "Template"; "StreamType"; "MutatorType"; "AccessorType"; "data"; "schema"; "name"; "size_in_bytes"; "to_string"; "describe"; "IS_OVERLAPPING_WITH_NEXT"; "_data"]
  ++ (field_names t ++ range_names t) ++ map (fun n => typedef n "") (field_names t ++ range_names t).
(** templates/cpp/enumeration.jinja2:6-15 *)
Definition cpp_enumerators (values : list string) : list string := values.
(** templates/cpp/archive.jinja2:5-47: members of an archive, and those of its base class (flatdata-cpp/include/flatdata/Archive.h:23-107) *)
Definition cpp_archive_own : list string :=
  ["schema_definition"; "name_definition"; "open"; "name"; "schema"; "load_contents"; "describe_resources"; "is_open"; "describe"; "describe_resource"; "initialize";
   "read_resource"; "load_archive"; "storage"; "describe_impl"; "m_storage"; "m_signature"; "m_is_open"].
Definition cpp_archive_members (a : tree) : list string :=
  t_name a :: cpp_archive_own ++ resource_names a ++ map (fun n => typedef n "") (resource_names a) ++ map (fun n => "m_" ^^ n) (resource_names a).
(** templates/cpp/archive.jinja2:50-87: members of a builder, and those of its base class (flatdata-cpp/include/flatdata/ArchiveBuilder.h:20-60) *)
Definition cpp_builder_own : list string :=
  ["open"; "schema_definition"; "name"; "schema"; "is_open"; "initialize"; "storage"; "is_created"; "check_created"; "m_storage"; "m_created"].
Definition is_simple (k : kind) : bool := can_set k || can_start k.
Definition cpp_builder_members (a : tree) : list string :=
  (t_name a ^^ "Builder") :: cpp_builder_own ++ map (fun n => typedef n "") (names_like a is_simple ++ names_like a is_sub)
  ++ map (fun n => typedef n "Reader") (names_like a is_simple) ++ map (fun n => "set_" ^^ n) (names_like a can_set)
  ++ map (fun n => "start_" ^^ n) (names_like a can_start) ++ names_like a is_sub ++ map (fun n => "m_" ^^ n) (names_like a is_sub).
(** templates/cpp/cpp.jinja2:14-47: names of a namespace; templates/cpp/structure.jinja2:8, 68-69, templates/cpp/archive.jinja2:5, 50 *)
Definition cpp_names (ns : tree) : list string :=
  ["to_string"; "internal"] ++ names_like ns is_module ++ names_like ns is_constant ++ names_like ns is_enum ++ names_like ns is_structure ++ names_like ns is_archive
  ++ map (fun n => n ^^ "Template") (names_like ns is_structure) ++ map (fun n => n ^^ "Mutator") (names_like ns is_structure)
  ++ map (fun n => n ^^ "Builder") (names_like ns is_archive).
(** templates/cpp/structure.jinja2:77, templates/cpp/archive.jinja2:95, 99: names of the namespace [internal] *)
Definition cpp_internal (ns : tree) : list string :=
  map (fun n => n ^^ "__schema__") (names_like ns is_structure ++ names_like ns is_archive)
  ++ flat_map (fun a => map (fun n => t_name a ^^ "__" ^^ n ^^ "__schema__") (resource_names a)) (children_like ns is_archive).
