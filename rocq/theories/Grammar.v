(** Model of flatdata-generator/flatdata/generator/grammar.py and of the call of the parser in tree/builder.py:82-90, with the
    parts of pyparsing they use.

    pyparsing: a parser element skips blanks (space, tab, newline, carriage return) before its first character.  [Soft] is
    ParseException, which [Optional], [ZeroOrMore] and [|] catch; [Fatal] is ParseSyntaxException, raised instead of it behind a
    [-], which nothing catches.  Simplifications: [Keyword] also looks at the character before the keyword; in this grammar it is
    always a blank, a punctuation character or the end of a comment, so the check always succeeds.  Comments are recognised and
    dropped: they only reach the generated code as documentation.  Tabs are not expanded (they only occur as blanks or in
    comments). *)
From Coq Require Import List ZArith Bool String Ascii.
From Verif Require Import PyBase PyText GenBuild GenTypes.
Import ListNotations.
Local Open Scope string_scope.

(** ** pyparsing *)
Inductive outcome (A : Type) : Type := Got (a : A) (rest : string) | Soft | Fatal.
Arguments Got {A} a rest. Arguments Soft {A}. Arguments Fatal {A}.
Definition parser (A : Type) := string -> outcome A.

(** [p + q] *)
Definition seq {A B} (p : parser A) (q : A -> parser B) : parser B :=
  fun s => match p s with Got a r => q a r | Soft => Soft | Fatal => Fatal end.
Notation "x <~ p ;; q" := (seq p (fun x => q)) (at level 61, p at next level, right associativity).
Definition give {A} (a : A) : parser A := fun s => Got a s.
(** everything behind [-] *)
Definition hard {A} (p : parser A) : parser A := fun s => match p s with Soft => Fatal | o => o end.
(** [Optional(p)] *)
Definition opt {A} (p : parser A) : parser (option A) :=
  fun s => match p s with Got a r => Got (Some a) r | Soft => Got None s | Fatal => Fatal end.
(** [p | q] *)
Definition alt {A} (p q : parser A) : parser A := fun s => match p s with Soft => q s | o => o end.
(** [ZeroOrMore(p)]; every element of this grammar consumes something, so the length of the input bounds the repetitions *)
Fixpoint repeat {A} (fuel : nat) (p : parser A) (s : string) : outcome (list A) :=
  match fuel with
  | O => Got [] s
  | S n => match p s with
           | Got a r => match repeat n p r with Got l r' => Got (a :: l) r' | Soft => Soft | Fatal => Fatal end
           | Soft => Got [] s
           | Fatal => Fatal
           end
  end.
Definition many {A} (p : parser A) : parser (list A) := fun s => repeat (S (String.length s)) p s.
(** [OneOrMore(p)] *)
Definition some {A} (p : parser A) : parser (list A) := x <~ p ;; l <~ many p ;; give (x :: l).

(** ** Characters *)
Definition between (a b : N) (c : ascii) : bool := let n := N_of_ascii c in ((a <=? n) && (n <=? b))%N.
Definition digit (c : ascii) : bool := between 48 57 c.
Definition alpha (c : ascii) : bool := between 65 90 c || between 97 122 c.
Definition hexdigit (c : ascii) : bool := digit c || between 65 70 c || between 97 102 c.
Definition newline_char : ascii := ascii_of_nat 10.
Definition blank (c : ascii) : bool :=
  (Ascii.eqb c " " || Ascii.eqb c newline_char || Ascii.eqb c (ascii_of_nat 9) || Ascii.eqb c (ascii_of_nat 13))%char.
(** grammar.py:16-17 *)
Definition id_start (c : ascii) : bool := alpha c || Ascii.eqb c "_".
Definition id_char (c : ascii) : bool := id_start c || digit c.
Definition qual_start (c : ascii) : bool := id_start c || Ascii.eqb c ".".
Definition qual_char (c : ascii) : bool := id_char c || Ascii.eqb c ".".
(** pyparsing's Keyword.DEFAULT_KEYWORD_CHARS *)
Definition key_char (c : ascii) : bool := id_char c || Ascii.eqb c "$".

Fixpoint skip (s : string) : string :=
  match s with String c t => if blank c then skip t else s | EmptyString => s end.
(** the longest prefix of characters in a class *)
Fixpoint span (p : ascii -> bool) (s : string) : string * string :=
  match s with
  | EmptyString => ("", "")
  | String c t => if p c then let (a, b) := span p t in (String c a, b) else ("", s)
  end.
Fixpoint strip (k s : string) : option string :=
  match k, s with
  | EmptyString, _ => Some s
  | String a k', String b s' => if Ascii.eqb a b then strip k' s' else None
  | _, _ => None
  end.
Definition starts (p : ascii -> bool) (s : string) : bool := match s with String c _ => p c | EmptyString => false end.

(** [Word(start, body)] at this very character *)
Definition word_here (start body : ascii -> bool) : parser string :=
  fun s => match s with
           | String c t => if start c then let (a, b) := span body t in Got (String c a) b else Soft
           | EmptyString => Soft
           end.
Definition blanks {A} (p : parser A) : parser A := fun s => p (skip s).
Definition word (start body : ascii -> bool) : parser string := blanks (word_here start body).
(** a literal of one character *)
Definition sym (c : ascii) : parser unit :=
  blanks (fun s => match s with String a t => if Ascii.eqb a c then Got tt t else Soft | EmptyString => Soft end).
(** [Keyword(k)] *)
Definition keyword (k : string) : parser string :=
  blanks (fun s => match strip k s with Some r => if starts key_char r then Soft else Got k r | None => Soft end).

(** ** Tokens *)
(** grammar.py:16-17 *)
Definition identifier : parser string := word id_start id_char.
Definition qualified_identifier : parser string := word qual_start qual_char.
(** grammar.py:19-20: at most one of the keywords matches, so [Or] takes it *)
Fixpoint one_of (ks : list string) : parser string :=
  match ks with [] => fun _ => Soft | k :: t => alt (keyword k) (one_of t) end.
Definition BASIC_TYPES : list string := ["bool"; "i8"; "u8"; "i16"; "u16"; "i32"; "u32"; "i64"; "u64"].
Definition basic_type : parser string := one_of BASIC_TYPES.
(** grammar.py:22; int(text) where it is used *)
Definition bit_width : parser N :=
  w <~ word digit digit ;; give (match digits_val 10 0 w with Some v => Z.to_N v | None => 0%N end).
(** grammar.py:24-26: [Or] takes the longer of the two; blanks are not skipped inside [Combine] *)
Definition unsigned_literal : parser string :=
  fun s => match strip "0x" s with
           | Some r => match word_here hexdigit hexdigit r with Got a t => Got ("0x" ++ a) t | _ => word_here digit digit s end
           | None => word_here digit digit s
           end.
Definition signed_literal : parser string :=
  blanks (fun s => match strip "-" s with
                   | Some r => match unsigned_literal r with Got a t => Got ("-" ++ a) t | _ => Soft end
                   | None => unsigned_literal s
                   end).
(** grammar.py:28, pyparsing's cppStyleComment: [/*] up to the first [*/], or [//] up to the end of the line, where a backslash
    at the end of the line continues it *)
Fixpoint block_rest (s : string) : option string :=
  match s with
  | String "*" (String "/" t) => Some t
  | String _ t => block_rest t
  | EmptyString => None
  end.
Fixpoint line_rest (s : string) : string :=
  match s with
  | EmptyString => s
  | String c t => if Ascii.eqb c newline_char then s else
                  match t with
                  | String d t' => if Ascii.eqb c "\" && Ascii.eqb d newline_char then line_rest t' else line_rest t
                  | EmptyString => t
                  end
  end.
Definition comment : parser unit :=
  blanks (fun s => match s with
                   | String "/" (String "*" t) => match block_rest t with Some r => Got tt r | None => Soft end
                   | String "/" (String "/" t) => Got tt (line_rest t)
                   | _ => Soft
                   end).
(** [delimitedList(p)] *)
Definition delimited {A} (p : parser A) : parser (list A) :=
  x <~ p ;; l <~ many (_ <~ sym "," ;; p) ;; give (x :: l).

(** ** Declarations *)
(** grammar.py:30-34 *)
Definition enum_value : parser (string * option string) :=
  _ <~ opt comment ;; n <~ identifier ;; c <~ opt (_ <~ sym "=" ;; signed_literal) ;; give (n, c).
(** grammar.py:36-44 *)
Definition enum : parser penum :=
  _ <~ opt comment ;; _ <~ keyword "enum" ;; n <~ identifier ;; _ <~ sym ":" ;; t <~ basic_type ;;
  w <~ opt (_ <~ sym ":" ;; bit_width) ;; _ <~ sym "{" ;; vs <~ delimited enum_value ;; _ <~ opt (sym ",") ;; _ <~ sym "}" ;;
  give (PEnum n t w vs).
(** grammar.py:46-52 *)
Definition range : parser fdec :=
  _ <~ opt comment ;; _ <~ keyword "@range" ;; hard (_ <~ sym "(" ;; n <~ identifier ;; _ <~ sym ")" ;; give (FRange n)).
(** grammar.py:54-59 *)
Definition const_ref : parser fdec :=
  _ <~ keyword "@const" ;; hard (_ <~ sym "(" ;; n <~ qualified_identifier ;; _ <~ sym ")" ;; give (FConst n)).
(** grammar.py:61-66 *)
Definition invalid_value : parser fdec :=
  _ <~ keyword "@optional" ;; hard (_ <~ sym "(" ;; n <~ qualified_identifier ;; _ <~ sym ")" ;; give (FOptional n)).
(** grammar.py:68-72 *)
Definition field_decoration : parser fdec := alt range (alt const_ref invalid_value).
(** grammar.py:74-81 *)
Definition field : parser pfield :=
  _ <~ opt comment ;; ds <~ many field_decoration ;; n <~ identifier ;;
  hard (_ <~ sym ":" ;; t <~ qualified_identifier ;; w <~ opt (_ <~ sym ":" ;; bit_width) ;; _ <~ sym ";" ;; give (PField n ds t w)).
(** grammar.py:83-90 *)
Definition struct : parser pstruct :=
  _ <~ opt comment ;; _ <~ keyword "struct" ;;
  hard (n <~ identifier ;; _ <~ sym "{" ;; fs <~ some field ;; _ <~ sym "}" ;; give (PStruct n fs)).
(** grammar.py:92-94 *)
Definition vector : parser rtype :=
  _ <~ keyword "vector" ;; hard (_ <~ sym "<" ;; t <~ qualified_identifier ;; _ <~ sym ">" ;; give (TVector t)).
(** grammar.py:96-102 *)
Definition multivector : parser rtype :=
  _ <~ keyword "multivector" ;;
  hard (_ <~ sym "<" ;; w <~ bit_width ;; _ <~ sym "," ;; ts <~ delimited qualified_identifier ;; _ <~ sym ">" ;; give (TMulti w ts)).
(** grammar.py:104-106 *)
Definition single_object : parser rtype := t <~ qualified_identifier ;; give (TObject t).
(** grammar.py:108-110 *)
Definition raw_data : parser rtype := _ <~ keyword "raw_data" ;; give TRaw.
(** grammar.py:112-115 *)
Definition archive_resource : parser rtype :=
  _ <~ opt comment ;; _ <~ keyword "archive" ;; n <~ qualified_identifier ;; give (TArchive n).
(** grammar.py:117-123 *)
Definition resource_type : parser rtype := alt raw_data (alt vector (alt multivector (alt archive_resource single_object))).
(** grammar.py:125-130: the pieces are joined without their blanks *)
Definition not_followed_by (c : ascii) : parser unit := fun s => match sym c s with Soft => Got tt s | _ => Soft end.
Definition prefix_piece : parser string :=
  d <~ opt (sym ".") ;; n <~ identifier ;; _ <~ not_followed_by "," ;;
  give (match d with Some _ => "." ++ n | None => n end).
Definition explicit_field_reference_prefix : parser string := l <~ some prefix_piece ;; give (join "" l).
(** grammar.py:132-139 *)
Definition explicit_reference : parser rdec :=
  _ <~ keyword "@explicit_reference" ;;
  hard (_ <~ sym "(" ;; a <~ explicit_field_reference_prefix ;; _ <~ sym "." ;; f <~ identifier ;; _ <~ sym "," ;;
        d <~ qualified_identifier ;; _ <~ sym ")" ;; give (RExplicit a f d)).
(** grammar.py:141-147 *)
Definition bound_implicitly : parser (string * list string) :=
  _ <~ keyword "@bound_implicitly" ;;
  hard (_ <~ sym "(" ;; n <~ identifier ;; _ <~ sym ":" ;; rs <~ delimited qualified_identifier ;; _ <~ sym ")" ;; give (n, rs)).
(** grammar.py:149-151 *)
Definition optional_decoration : parser rdec := _ <~ keyword "@optional" ;; give ROptional.
(** grammar.py:153-160 *)
Definition resource_decoration : parser rdec := alt explicit_reference optional_decoration.
(** grammar.py:162-167 *)
Definition resource : parser presource :=
  _ <~ opt comment ;; ds <~ many resource_decoration ;; n <~ identifier ;; _ <~ sym ":" ;;
  hard (t <~ resource_type ;; _ <~ sym ";" ;; give (PResource n ds t)).
(** grammar.py:169-177 *)
Definition archive : parser parchive :=
  _ <~ opt comment ;; bs <~ many bound_implicitly ;; _ <~ keyword "archive" ;;
  hard (n <~ identifier ;; _ <~ sym "{" ;; rs <~ many resource ;; _ <~ sym "}" ;; give (PArchive n bs rs)).
(** grammar.py:179-186 *)
Definition constant : parser pconst :=
  _ <~ opt comment ;; _ <~ keyword "const" ;; t <~ basic_type ;; n <~ identifier ;; _ <~ sym "=" ;; v <~ signed_literal ;; _ <~ sym ";" ;;
  give (PConst n t v).

(** ** Schemas *)
Inductive entry := EEnum (e : penum) | EStruct (s : pstruct) | EArchive (a : parchive) | EConst (c : pconst) | EComment.
Definition as_entry {A} (f : A -> entry) (p : parser A) : parser entry := x <~ p ;; give (f x).
(** grammar.py:188-194 *)
Definition flatdata_entry : parser entry :=
  alt (as_entry EEnum enum) (alt (as_entry EStruct struct) (alt (as_entry EArchive archive)
      (alt (as_entry EConst constant) (as_entry (fun _ => EComment) comment)))).
(** grammar.py:188-194 [setResultsName(..., listAllMatches=True)]: the matches of each kind, in order *)
Definition namespace_of (n : string) (es : list entry) : pnamespace :=
  PNamespace n (flat_map (fun e => match e with EConst c => [c] | _ => [] end) es)
    (flat_map (fun e => match e with EStruct s => [s] | _ => [] end) es)
    (flat_map (fun e => match e with EEnum x => [x] | _ => [] end) es)
    (flat_map (fun e => match e with EArchive a => [a] | _ => [] end) es).
(** grammar.py:198-204 *)
Definition namespace : parser pnamespace :=
  _ <~ keyword "namespace" ;; n <~ qualified_identifier ;; _ <~ sym "{" ;; es <~ many flatdata_entry ;; _ <~ sym "}" ;;
  _ <~ opt comment ;; give (namespace_of n es).
(** grammar.py:196, 206-208 *)
Definition flatdata_grammar : parser pschema := _ <~ many comment ;; some namespace.

(** builder.py:82-90: the empty definition is the empty schema; [parseAll=True] *)
Definition parse_schema (definition : string) : res pschema :=
  if String.eqb definition "" then Ok [] else
  match flatdata_grammar definition with
  | Got s r => if String.eqb (skip r) "" then Ok s else Err ParsingError
  | _ => Err ParsingError
  end.
(** builder.py [build_ast(definition)]: the whole front end *)
Definition build_text (so : list Z -> list Z) (definition : string) : res GenTree.tree :=
  s <- parse_schema definition ;; build_ast so s.
