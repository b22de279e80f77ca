(** Which names a target language accepts in one scope. *)
From Coq Require Import List ZArith Bool String Ascii.
Import ListNotations.
Local Open Scope string_scope.

(** ASCII *)
Definition letter (c : ascii) : bool := let n := nat_of_ascii c in ((65 <=? n) && (n <=? 90) || (97 <=? n) && (n <=? 122))%nat.
Definition digit (c : ascii) : bool := let n := nat_of_ascii c in ((48 <=? n) && (n <=? 57))%nat.
Definition small (c : ascii) : ascii := let n := nat_of_ascii c in if ((65 <=? n) && (n <=? 90))%nat then ascii_of_nat (n + 32) else c.
Fixpoint every (p : ascii -> bool) (s : string) : bool := match s with "" => true | String c t => p c && every p t end.
(** An identifier: letters, digits and underscores, not starting with a digit *)
Definition identifier (s : string) : Prop :=
  match s with "" => False | String c _ => digit c = false end /\ every (fun c => letter c || digit c || Ascii.eqb c "_") s = true.
(** A name can be declared in a scope with the others: all are identifiers, none is a keyword, no two are equal. *)
Definition usable (keywords names : list string) : Prop :=
  NoDup names /\ forall n, In n names -> identifier n /\ ~ In n keywords.

(** Keywords of Rust 2018, those in use and those reserved; a single underscore is no name *)
Definition rust_keywords : list string :=
  ["as"; "break"; "const"; "continue"; "crate"; "else"; "enum"; "extern"; "false"; "fn"; "for"; "if"; "impl"; "in"; "let"; "loop";
   "match"; "mod"; "move"; "mut"; "pub"; "ref"; "return"; "self"; "Self"; "static"; "struct"; "super"; "trait"; "true"; "type";
   "unsafe"; "use"; "where"; "while"; "async"; "await"; "dyn"; "abstract"; "become"; "box"; "do"; "final"; "macro"; "override";
   "priv"; "typeof"; "unsized"; "virtual"; "yield"; "try"; "_"].
(** Keywords of C++17, with the spelled operators *)
Definition cpp_keywords : list string :=
  ["alignas"; "alignof"; "and"; "and_eq"; "asm"; "auto"; "bitand"; "bitor"; "bool"; "break"; "case"; "catch"; "char"; "char16_t";
   "char32_t"; "class"; "compl"; "const"; "constexpr"; "const_cast"; "continue"; "decltype"; "default"; "delete"; "do"; "double";
   "dynamic_cast"; "else"; "enum"; "explicit"; "export"; "extern"; "false"; "float"; "for"; "friend"; "goto"; "if"; "inline"; "int";
   "long"; "mutable"; "namespace"; "new"; "noexcept"; "not"; "not_eq"; "nullptr"; "operator"; "or"; "or_eq"; "private"; "protected";
   "public"; "register"; "reinterpret_cast"; "return"; "short"; "signed"; "sizeof"; "static"; "static_assert"; "static_cast";
   "struct"; "switch"; "template"; "this"; "thread_local"; "throw"; "true"; "try"; "typedef"; "typeid"; "typename"; "union";
   "unsigned"; "using"; "virtual"; "void"; "volatile"; "wchar_t"; "while"; "xor"; "xor_eq"].

(** A name without its underscores, in small letters *)
Fixpoint flat (s : string) : string :=
  match s with "" => "" | String c t => if Ascii.eqb c "_" then flat t else String (small c) (flat t) end.
(** Names that differ in more than underscores and case *)
Definition apart (names : list string) : Prop := NoDup (map flat names).
(** A name starting with a letter *)
Definition plain (s : string) : Prop := match s with "" => False | String c _ => letter c = true end.
Definition starts (p s : string) : Prop := exists t, s = p ++ t.
Definition ends (p s : string) : Prop := exists t, s = t ++ p.

(** ** Names that generated code takes for itself *)
(** Rust structures, with the keywords that are not escaped *)
Definition rust_struct_taken : list string :=
  ["new_unchecked"; "fill_from"; "new"; "from_bytes"; "from_bytes_mut"; "from_bytes_slice"; "from_bytes_slice_mut"; "as_bytes";
   "async"; "await"; "dyn"; "try"; "Self"; "_"].
(** Rust archives *)
Definition rust_archive_taken : list string := ["signature_name"; "open"; "new"; "_storage"; "storage"; "extend"].
(** C++ structures *)
Definition cpp_struct_taken : list string :=
  ["Member"; "StreamType"; "MutatorType"; "AccessorType"; "data"; "schema"; "name"; "size_in_bytes"; "to_string"; "describe"; "IS_OVERLAPPING_WITH_NEXT"; "_data"].
(** C++ archives and their builders *)
Definition cpp_archive_taken : list string :=
  ["schema_definition"; "name_definition"; "open"; "name"; "schema"; "load_contents"; "describe_resources"; "is_open"; "describe"; "describe_resource"; "initialize";
   "read_resource"; "load_archive"; "storage"; "describe_impl"; "is_created"; "check_created"; "signature"; "created"].
(** Two underscores in a row *)
Definition doubled (s : string) : Prop := exists a b, s = a ++ "__" ++ b.
