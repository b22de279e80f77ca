(** The language of schemas, as it is documented: the words and signs of a schema ([lexeme]s), how they may be laid out in a text
    ([spelled]), and which sequences of them declare what ([denotes]).  Nothing here refers to the parser. *)
From Coq Require Import List ZArith Bool String Ascii.
From Verif Require Import PyBase PyText GenBuild GenAstSpec.
Import ListNotations.
Local Open Scope string_scope.

(** ** Characters *)
Definition in_range (a b : N) (c : ascii) : bool := let n := N_of_ascii c in ((a <=? n) && (n <=? b))%N.
Definition is_letter (c : ascii) : bool := in_range 65 90 c || in_range 97 122 c || Ascii.eqb c "_".
Definition is_digit (c : ascii) : bool := in_range 48 57 c.
Definition is_hex (c : ascii) : bool := is_digit c || in_range 65 70 c || in_range 97 102 c.
Definition name_char (c : ascii) : bool := is_letter c || is_digit c.
Definition path_char (c : ascii) : bool := name_char c || Ascii.eqb c ".".
Definition line_feed : string := String (ascii_of_nat 10) "".
Definition is_blank (c : ascii) : bool := existsb (fun n => Ascii.eqb c (ascii_of_nat n)) [32; 9; 10; 13].
Definition no_next (p : ascii -> bool) (s : string) : Prop := match s with String c _ => p c = false | EmptyString => True end.

(** ** Words and signs *)
Inductive lexeme : Type :=
| Key (k : string)      (** a keyword or the name of a basic type *)
| Ident (n : string)    (** a declared name *)
| Qual (n : string)     (** a name that may contain dots *)
| Num (d : string)      (** a bit width *)
| Lit (v : string)      (** a value *)
| Sign (c : ascii)      (** punctuation *)
| Comment (t : string).
Definition lexeme_text (x : lexeme) : string :=
  match x with Key t | Ident t | Qual t | Num t | Lit t | Comment t => t | Sign c => String c "" end.

Definition begins (p q : ascii -> bool) (s : string) : Prop := exists c t, s = String c t /\ p c = true /\ only_chars q t = true.
Definition decimal (v : string) : Prop := begins is_digit is_digit v.
Definition hexadecimal (v : string) : Prop := exists h, v = "0x" ++ h /\ begins is_hex is_hex h.
Definition unsigned (v : string) (p : string -> Prop) : Prop := p v \/ exists u, v = "-" ++ u /\ p u.
(** a block comment ends with its first [*/] *)
Definition block_comment (t : string) : Prop := exists b, t = "/*" ++ b ++ "*/" /\ forall x y, b ++ "*" <> x ++ "*/" ++ y.
(** a line comment contains only line feeds behind a backslash *)
Definition line_comment (t : string) : Prop := exists b, t = "//" ++ b /\ forall x y, b = x ++ line_feed ++ y -> exists x', x = x' ++ "\".
Definition well_spelled (x : lexeme) : Prop :=
  match x with
  | Key k => begins (fun c => is_letter c || Ascii.eqb c "@") name_char k
  | Sign c => existsb (Ascii.eqb c) ["{"; "}"; "("; ")"; "<"; ">"; ":"; ";"; ","; "="; "."]%char = true
  | Ident n => begins is_letter name_char n
  | Qual n => begins (fun c => is_letter c || Ascii.eqb c ".") path_char n
  | Num d => decimal d
  | Lit v => unsigned v decimal \/ unsigned v hexadecimal
  | Comment t => block_comment t \/ line_comment t
  end.
(** what may follow directly: nothing that would make the word longer *)
Definition ends_before (x : lexeme) (s : string) : Prop :=
  match x with
  | Key _ => no_next (fun c => name_char c || Ascii.eqb c "$") s
  | Ident _ => no_next name_char s
  | Qual _ => no_next path_char s
  | Num _ => no_next is_digit s
  | Lit v => (unsigned v decimal -> no_next is_digit s)
             /\ (v = "0" \/ v = "-0" -> forall c t, s = String "x" (String c t) -> is_hex c = false)
             /\ (unsigned v hexadecimal -> no_next is_hex s)
  | Sign _ => True
  | Comment t => line_comment t -> s = "" \/ exists s', s = line_feed ++ s' /\ ~ exists t', t = t' ++ "\"
  end.

(** [reads xs s r]: the text [s] consists of the words and signs [xs], separated by any blanks, and then [r] *)
Fixpoint reads (xs : list lexeme) (s r : string) : Prop :=
  match xs with
  | [] => s = r
  | x :: t => exists b s', s = b ++ lexeme_text x ++ s' /\ only_chars is_blank b = true /\ well_spelled x /\ ends_before x s' /\ reads t s' r
  end.
Definition spelled (xs : list lexeme) (s : string) : Prop := exists r, reads xs s r /\ only_chars is_blank r = true.

(** ** Declarations *)
Definition sequence {A} (g : A -> list lexeme -> Prop) (l : list A) (xs : list lexeme) : Prop :=
  exists xss, Forall2 g l xss /\ xs = List.concat xss.
(** one or more, separated by commas *)
Definition comma_list {A} (g : A -> list lexeme -> Prop) (l : list A) (xs : list lexeme) : Prop :=
  exists x t ys ts, l = x :: t /\ g x ys /\ sequence (fun a zs => exists as_, g a as_ /\ zs = Sign "," :: as_) t ts /\ xs = (ys ++ ts)%list.
(** at most one comment *)
Definition doc (xs : list lexeme) : Prop := xs = [] \/ exists t, xs = [Comment t].
Definition number (d : string) (n : N) : Prop := digits_val 10 0 d = Some (Z.of_N n).
Definition g_width (w : option N) (xs : list lexeme) : Prop :=
  match w with None => xs = [] | Some n => exists d, number d n /\ xs = [Sign ":"; Num d] end.
Definition g_type (t : string) : Prop := In t ["bool"; "i8"; "u8"; "i16"; "u16"; "i32"; "u32"; "i64"; "u64"].

(** [const u8 NAME = 3;] *)
Definition g_constant (p : pconst) (xs : list lexeme) : Prop :=
  g_type (pc_type p) /\ xs = [Key "const"; Key (pc_type p); Ident (pc_name p); Sign "="; Lit (pc_value p); Sign ";"].
(** [enum NAME : u8 : 2 { A, B = 3, }] *)
Definition g_value (v : string * option string) (xs : list lexeme) : Prop :=
  exists c, doc c /\ xs = (c ++ Ident (fst v) :: match snd v with Some x => [Sign "="; Lit x] | None => [] end)%list.
Definition g_enum (p : penum) (xs : list lexeme) : Prop :=
  exists w vs e, g_type (pe_type p) /\ g_width (pe_width p) w /\ comma_list g_value (pe_values p) vs /\ (e = [] \/ e = [Sign ","])
    /\ xs = ([Key "enum"; Ident (pe_name p); Sign ":"; Key (pe_type p)] ++ w ++ [Sign "{"] ++ vs ++ e ++ [Sign "}"])%list.
(** [struct NAME { @range(r) @const(C) @optional(D) FIELD : TYPE : 3; }] *)
Definition g_decoration (d : fdec) (xs : list lexeme) : Prop :=
  match d with
  | FRange n => exists c, doc c /\ xs = (c ++ [Key "@range"; Sign "("; Ident n; Sign ")"])%list
  | FConst n => xs = [Key "@const"; Sign "("; Qual n; Sign ")"]
  | FOptional n => xs = [Key "@optional"; Sign "("; Qual n; Sign ")"]
  end.
Definition g_field (p : pfield) (xs : list lexeme) : Prop :=
  exists c ds w, doc c /\ sequence g_decoration (pf_decs p) ds /\ g_width (pf_width p) w
    /\ xs = (c ++ ds ++ [Ident (pf_name p); Sign ":"; Qual (pf_type p)] ++ w ++ [Sign ";"])%list.
Definition g_struct (p : pstruct) (xs : list lexeme) : Prop :=
  exists fs, ps_fields p <> [] /\ sequence g_field (ps_fields p) fs
    /\ xs = ([Key "struct"; Ident (ps_name p); Sign "{"] ++ fs ++ [Sign "}"])%list.
(** [@explicit_reference( S.f, r ) @optional NAME : vector< S >;]; a structure may not be called like a kind of resource (and
    [archive.x] is the archive [.x]) *)
Definition like (k t : string) : Prop := t = k \/ exists u, t = k ++ "." ++ u.
Definition g_name (n : string) (xs : list lexeme) : Prop := xs = [Qual n].
Definition g_resource_type (t : rtype) (xs : list lexeme) : Prop :=
  match t with
  | TRaw => xs = [Key "raw_data"]
  | TVector n => xs = [Key "vector"; Sign "<"; Qual n; Sign ">"]
  | TMulti w ns => exists d ts, number d w /\ comma_list g_name ns ts
                     /\ xs = ([Key "multivector"; Sign "<"; Num d; Sign ","] ++ ts ++ [Sign ">"])%list
  | TArchive n => exists c, doc c /\ xs = (c ++ [Key "archive"; Qual n])%list
  | TObject n => ~ like "raw_data" n /\ ~ like "vector" n /\ ~ like "multivector" n /\ (forall u, n <> "archive." ++ u) /\ xs = [Qual n]
  end.
(** a piece of the name of a structure: the pieces of [n.S] are [n] and [.S]; blanks between them do not count *)
Definition g_piece (p : string) (xs : list lexeme) : Prop :=
  xs = [Ident p] \/ exists n, p = "." ++ n /\ xs = [Sign "."; Ident n].
Definition g_resource_decoration (d : rdec) (xs : list lexeme) : Prop :=
  match d with
  | RExplicit a f t => exists ps ys, ps <> [] /\ a = String.concat "" ps /\ sequence g_piece ps ys
      /\ xs = ([Key "@explicit_reference"; Sign "("] ++ ys ++ [Sign "."; Ident f; Sign ","; Qual t; Sign ")"])%list
  | ROptional => xs = [Key "@optional"]
  end.
Definition g_resource (p : presource) (xs : list lexeme) : Prop :=
  exists c ds ts, doc c /\ sequence g_resource_decoration (pr_decs p) ds /\ g_resource_type (pr_type p) ts
    /\ xs = (c ++ ds ++ [Ident (pr_name p); Sign ":"] ++ ts ++ [Sign ";"])%list.
(** [@bound_implicitly( NAME : r, s ) archive NAME { ... }] *)
Definition g_bound (b : string * list string) (xs : list lexeme) : Prop :=
  exists rs, comma_list g_name (snd b) rs /\ xs = ([Key "@bound_implicitly"; Sign "("; Ident (fst b); Sign ":"] ++ rs ++ [Sign ")"])%list.
Definition g_archive (p : parchive) (xs : list lexeme) : Prop :=
  exists bs rs, sequence g_bound (pa_bound p) bs /\ sequence g_resource (pa_resources p) rs
    /\ xs = (bs ++ [Key "archive"; Ident (pa_name p); Sign "{"] ++ rs ++ [Sign "}"])%list.

(** ** Schemas *)
Inductive definition : Type := DConstant (p : pconst) | DStruct (p : pstruct) | DEnum (p : penum) | DArchive (p : parchive).
Definition g_definition (d : definition) (xs : list lexeme) : Prop :=
  match d with DConstant p => g_constant p xs | DStruct p => g_struct p xs | DEnum p => g_enum p xs | DArchive p => g_archive p xs end.
Definition comments (xs : list lexeme) : Prop := Forall (fun x => exists t, x = Comment t) xs.
(** any number of comments before each definition and behind the last *)
Fixpoint g_body (ds : list definition) (xs : list lexeme) : Prop :=
  match ds with
  | [] => comments xs
  | d :: t => exists cs ys zs, comments cs /\ g_definition d ys /\ g_body t zs /\ xs = (cs ++ ys ++ zs)%list
  end.
Definition constants_of (ds : list definition) := flat_map (fun d => match d with DConstant p => [p] | _ => [] end) ds.
Definition structs_of (ds : list definition) := flat_map (fun d => match d with DStruct p => [p] | _ => [] end) ds.
Definition enums_of (ds : list definition) := flat_map (fun d => match d with DEnum p => [p] | _ => [] end) ds.
Definition archives_of (ds : list definition) := flat_map (fun d => match d with DArchive p => [p] | _ => [] end) ds.
(** [namespace NAME { ... }], at most one comment behind it *)
Definition g_namespace (p : pnamespace) (xs : list lexeme) : Prop :=
  exists ds body c, g_body ds body /\ doc c
    /\ p = PNamespace (pn_name p) (constants_of ds) (structs_of ds) (enums_of ds) (archives_of ds)
    /\ xs = ([Key "namespace"; Qual (pn_name p); Sign "{"] ++ body ++ [Sign "}"] ++ c)%list.
(** comments, then one or more namespaces *)
Definition g_schema (s : pschema) (xs : list lexeme) : Prop :=
  exists cs ns, s <> [] /\ comments cs /\ sequence g_namespace s ns /\ xs = (cs ++ ns)%list.

(** The text [text] declares the schema [s]; the empty text declares nothing *)
Definition denotes (text : string) (s : pschema) : Prop :=
  (text = "" /\ s = []) \/ exists xs, g_schema s xs /\ spelled xs text.
