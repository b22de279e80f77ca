(** Property theorems C68: the text of a schema.  Vocabulary: [GrammarSpec] (the language), [GenAstSpec.identifiers]. *)
From Coq Require Import List ZArith Bool String Ascii Lia.
From Verif Require Import PyBase PyText GenTree GenBuild GenAstSpec GrammarSpec Grammar GrammarLex GrammarFacts GrammarThms GrammarNames.
Import ListNotations.
Local Open Scope string_scope.

(** C68: the parser accepts exactly the texts of the documented language, and what it returns is what the text declares. *)
Theorem C68_parse : forall text s, parse_schema text = Ok s <-> denotes text s.
Proof. exact parse_denotes. Qed.
Print Assumptions C68_parse.

(** Every other text is rejected with a parsing error. *)
Theorem C68_rejects : forall text, parse_schema text = Err ParsingError <-> forall s, ~ denotes text s.
Proof.
  intros text. split.
  - intros E s D. apply parse_denotes in D. congruence.
  - intros N. destruct (parse_schema text) as [s|e] eqn:E; [destruct (N s); now apply parse_denotes|]. f_equal. exact (parse_error _ _ E).
Qed.
Print Assumptions C68_rejects.

(** A text has at most one meaning, and the meaning depends on the words and signs only, not on the blanks between them. *)
Theorem C68_unambiguous : forall text s s', denotes text s -> denotes text s' -> s = s'.
Proof. intros text s s' D D'. apply parse_denotes in D, D'. congruence. Qed.
Print Assumptions C68_unambiguous.
Theorem C68_blanks : forall xs s text text', g_schema s xs -> spelled xs text -> spelled xs text' -> parse_schema text = Ok s /\ parse_schema text' = Ok s.
Proof. intros xs s t t' G S S'. split; apply parse_denotes; right; eauto. Qed.
Print Assumptions C68_blanks.

(** The names in a parsed schema are made of letters, digits, '_' and '.' — the hypothesis of the theorems about schema trees and
    generated code — so these theorems hold for every text the generator accepts. *)
Theorem C68_names : forall so text root, build_text so text = Ok root -> exists s, denotes text s /\ identifiers s /\ build_ast so s = Ok root.
Proof.
  intros so text root H. unfold build_text, bind in H. destruct (parse_schema text) as [s|] eqn:E; [|discriminate]. apply parse_denotes in E. exists s. split; [exact E|]. split; [|exact H].
  exact (denotes_identifiers _ _ E).
Qed.
Print Assumptions C68_names.

(** ** Instances *)
Definition nl : string := line_feed.
Definition sample : string :=
  "// a comment" ++ nl ++ "/* another * one */ namespace n.a {" ++ nl ++
  "  /** doc */ const u8 C=0x1F;const i8 D = -3 ;" ++ nl ++
  "  enum E:u8:2{A,/* b */B=2,}" ++ nl ++
  "  /* free */ /* doc */ struct S { @range( rng ) @const(C) x : u8 : 3; /* e */ e: .n.a.E; @optional(C) y:u8; }" ++ nl ++
  "  @bound_implicitly( b : v,m ) archive A {" ++ nl ++
  "    @explicit_reference( S . y, m ) @optional v : vector< S >;" ++ nl ++
  "    m : multivector<33, S>; r:raw_data; o : .n.a.S ; q : archive .n.b.B;" ++ nl ++ "  } // end" ++ nl ++ "} // n.a" ++ nl ++
  "namespace n.b { archive B { } }" ++ nl.
Definition sample_schema : pschema :=
  [PNamespace "n.a" [PConst "C" "u8" "0x1F"; PConst "D" "i8" "-3"]
     [PStruct "S" [PField "x" [FRange "rng"; FConst "C"] "u8" (Some 3%N); PField "e" [] ".n.a.E" None; PField "y" [FOptional "C"] "u8" None]]
     [PEnum "E" "u8" (Some 2%N) [("A", None); ("B", Some "2")]]
     [PArchive "A" [("b", ["v"; "m"])]
        [PResource "v" [RExplicit "S" "y" "m"; ROptional] (TVector "S"); PResource "m" [] (TMulti 33%N ["S"]); PResource "r" [] TRaw;
         PResource "o" [] (TObject ".n.a.S"); PResource "q" [] (TArchive ".n.b.B")]];
   PNamespace "n.b" [] [] [] [PArchive "B" [] []]].
Theorem C68_instance : denotes sample sample_schema.
Proof. apply parse_denotes. vm_compute. reflexivity. Qed.
(** a comment behind the last field, a missing separator, a structure without fields, a keyword that runs into a name, text behind
    the last namespace *)
Theorem C68_rejected : forall text, In text
  ["namespace n { struct S { x : u8; /* c */ } }"; "namespace n { struct S { x : u8 } }"; "namespace n { struct S { } }"; "namespace n { structS { x : u8; } }";
   "namespace n { } struct S { x : u8; }"; "struct S { x : u8; }"; " "] -> forall s, ~ denotes text s.
Proof. intros text H. apply C68_rejects. cbn [In] in H. repeat (destruct H as [<-|H]; [vm_compute; reflexivity|]). destruct H. Qed.
(** Two readings that may surprise: a resource of type [archive.B] is an archive resource, and blanks inside the name of the
    structure of an explicit reference are dropped, even between two names. *)
Theorem C68_surprises : denotes "namespace n { archive A { x : archive.B; @explicit_reference( S T . f, x ) y : vector< ST >; } }"
  [PNamespace "n" [] [] [] [PArchive "A" [] [PResource "x" [] (TArchive ".B"); PResource "y" [RExplicit "ST" "f" "x"] (TVector "ST")]]].
Proof. apply parse_denotes. vm_compute. reflexivity. Qed.
