(** C70: the generator accepts exactly the valid schemas. *)
From Coq Require Import List ZArith Bool String Ascii Lia Relations.
From Verif Require Import PyBase PyText Spec GenSpec GenTypes GenTypesFacts GenTree GenTreeFacts GenTraversal GenBuild GenBuildFacts GenPassFacts GenAstFacts
  GenAstSpec GenLayoutFacts GenMergeFacts GenResolveFacts GenShapeFacts GenLimitFacts GenFieldFacts GenTidy GenFinal GenAstThms GenWords Props_GenTree Props_GenOutput
  GrammarSpec Grammar GrammarNames GrammarFacts Props_Grammar DeclSpec Props_Decl
  AcceptSpec AcceptCreate AcceptResolve AcceptIndex AcceptLocal AcceptConst AcceptCarry AcceptTypes AcceptSizes.
Import ListNotations.
Local Open Scope string_scope.
Local Open Scope Z_scope.

Lemma declared_facts so s r : any_order so -> identifiers s -> separated s -> no_builtin s -> declared_tree so s = Ok r ->
  rooted r /\ local (shape true) r /\ local fk r
  /\ forall p i u c, at_loc r p = Some u -> at_loc r (p ++ [i])%list = Some c -> t_kind c = KNamespace -> t_kind u = KRoot \/ t_kind u = KNamespace.
Proof.
  intros Hso I Sp NB H. pose proof (well_named_clean s (identifiers_named s I)) as C. pose proof (declared_enumed so s r H) as En.
  unfold declared_tree in H. apply bind_ok in H as (r1 & H1 & H2). pose proof (build_node_tree_good so s r1 Hso C H1) as G1. pose proof (build_node_tree_shaped false so s r1 Hso C H1) as S1.
  pose proof (append_builtins_good r1 r H2 G1) as G. pose proof (append_builtins_shaped r1 r H2 G1 (shaped_any _ _ S1) (builtins_none r1 S1)) as (Sh & _).
  split; [exact G|]. split; [exact Sh|]. split; [exact En|]. destruct (declared_tidy so s r1 r Hso C Sp NB H1 H2) as (Td & _).
  intros p i u c Hu Hc Kc. destruct (parent_at _ _ _ _ Hc) as (u' & Hu' & Hi). rewrite Hu in Hu'. injection Hu' as <-. destruct (loc_keys r p u (good_wf _ (proj1 G)) Hu) as (a & Na & Fa & Ga).
  assert (Gc : getk r (a ++ [t_name c]) = Some c).
  { pose proof (names_snoc r p i u c _ Hu Hi Na) as Nc. destruct (loc_keys r _ c (good_wf _ (proj1 G)) Hc) as (ks & Nk & _ & Gk). rewrite Nc in Nk. injection Nk as <-. exact Gk. }
  destruct (td_ns _ Td _ _ _ Gc Kc) as [->|(x & Hx & Kx)].
  - cbn in Fa. injection Fa as <-. left. cbn in Hu. injection Hu as <-. apply G.
  - right. rewrite Ga in Hx. injection Hx as <-. exact Kx.
Qed.

(** C70: the tree of declarations exists exactly when the declarations are valid by themselves *)
Theorem C70_declarations : forall so s, any_order so -> identifiers s -> separated s -> no_builtin s ->
  ((exists t, declared_tree so s = Ok t) <-> declarations_valid s).
Proof.
  intros so s Hso I Sp NB. assert (E : declarations_valid s <-> (NoDup (defined_paths s) /\ parts_valid s) /\ forall p a r, In p s -> In a (pn_archives p) -> In r (pa_resources a) -> index_valid p r).
  { unfold declarations_valid, parts_valid. split.
    - intros (N & V). split; [split; [exact N|]|].
      + intros p Hp. destruct (V p Hp) as (A & B & D & F & K & _). auto.
      + intros p a r Hp. destruct (V p Hp) as (_ & _ & _ & _ & _ & X). apply X.
    - intros ((N & V) & X). split; [exact N|]. intros p Hp. destruct (V p Hp) as (A & B & D & F & K). repeat (split; [assumption|]). intros a r. now apply X. }
  rewrite E, <- (build_accepts so s Hso I Sp). unfold declared_tree. split.
  - intros (t & H). apply bind_ok in H as (r1 & H1 & H2). split; [eauto|]. apply (index_iff so s r1 Hso I Sp NB H1). eauto.
  - intros ((r1 & H1) & X). destruct (proj2 (index_iff so s r1 Hso I Sp NB H1) X) as (r2 & H2). exists r2. rewrite H1. exact H2.
Qed.

(** C70: a schema is accepted exactly when its declarations are valid and every name in them can be used where it is *)
Theorem C70_accepts : forall so s, any_order so -> identifiers s -> separated s -> no_builtin s ->
  ((exists root, build_ast so s = Ok root) <-> declarations_valid s /\ forall t, declared_tree so s = Ok t -> names_valid t).
Proof.
  intros so s Hso I Sp NB. rewrite <- (C70_declarations so s Hso I Sp NB).
  assert (X : forall r, declared_tree so s = Ok r -> ((exists root, build_ast so s = Ok root) <-> names_valid r)).
  { intros r Hr. destruct (declared_facts so s r Hso I Sp NB Hr) as (G & Sh & En & NS).
    assert (E : build_ast so s = (root <- resolve_references r ;; root <- append_constants root ;; _ <- check_ranges root ;; root <- update_field_types root ;; root <- compute_sizes root ;; root <- compute_max_sizes root ;; _ <- check_const_refs root ;; _ <- check_explicits root ;; Ok root)).
    { unfold declared_tree in Hr. apply bind_ok in Hr as (r1 & H1 & H2). unfold build_ast. rewrite H1. cbn [bind]. rewrite H2. reflexivity. }
    rewrite E. clear E. split.
    - intros (root & H). apply bind_ok in H as (r3 & H3 & H). apply bind_ok in H as (r4 & H4 & H). apply bind_ok in H as ([] & Hr4 & H). apply bind_ok in H as (r5 & H5 & H).
      apply bind_ok in H as (r6 & H6 & H). apply bind_ok in H as (r7 & H7 & H). apply bind_ok in H as ([] & Hc & H). apply bind_ok in H as ([] & He & H). injection H as ->.
      destruct (carries_constants r r3 r4 G Sh H3 H4) as (C4 & G4 & R4 & X4). destruct (proj1 (resolve_iff r G Sh) (ex_intro _ r3 H3)) as (NK & ND).
      apply (check_ranges_iff r r4 G Sh C4 G4 R4) in Hr4 as (N1 & N2 & N3). destruct (types_iff r r4 G Sh En C4 G4 R4 X4) as (T5 & P5). destruct (P5 r5 H5) as (C5 & G5 & R5 & Ty5).
      destruct (sizes_iff r r5 G Sh C5 G5 R5 NS Ty5) as (T6 & P6). destruct (P6 r6 H6) as (C6 & G6 & R6 & Ty6). destruct (limits_total r G Sh r6 G6 R6 C6 Ty6) as (r7 & H7' & C7 & G7 & R7 & Ty7). rewrite H7 in H7'. injection H7' as <-.
      apply (check_consts_iff r root G Sh C7 G7 R7 Ty7) in Hc as (N4 & N5). pose proof (proj1 (check_explicits_iff r root G Sh C7 G7 R7) He) as NX.
      constructor; [exact NK|exact ND|exact N1|exact N2|exact N3|exact (proj1 T5 (ex_intro _ r5 H5))|exact N4|exact N5|exact NX|exact (proj1 T6 (ex_intro _ r6 H6))].
    - intros [NK ND N1 N2 N3 NE N4 N5 NX NA]. destruct (proj2 (resolve_iff r G Sh) (conj NK ND)) as (r3 & H3). rewrite H3. cbn [bind]. destruct (resolved_facts r r3 G H3) as (G3 & S3 & R3).
      destruct (constants_total r3 G3 (shaped_skel true true r r3 (eq_sym S3) Sh)) as (r4 & H4). rewrite H4. cbn [bind]. destruct (carries_constants r r3 r4 G Sh H3 H4) as (C4 & G4 & R4 & X4).
      rewrite (proj2 (check_ranges_iff r r4 G Sh C4 G4 R4) (conj N1 (conj N2 N3))). cbn [bind]. destruct (types_iff r r4 G Sh En C4 G4 R4 X4) as (T5 & P5). destruct (proj2 T5 NE) as (r5 & H5). rewrite H5. cbn [bind].
      destruct (P5 r5 H5) as (C5 & G5 & R5 & Ty5). destruct (sizes_iff r r5 G Sh C5 G5 R5 NS Ty5) as (T6 & P6). destruct (proj2 T6 NA) as (r6 & H6). rewrite H6. cbn [bind]. destruct (P6 r6 H6) as (C6 & G6 & R6 & Ty6).
      destruct (limits_total r G Sh r6 G6 R6 C6 Ty6) as (r7 & H7 & C7 & G7 & R7 & Ty7). rewrite H7. cbn [bind].
      rewrite (proj2 (check_consts_iff r r7 G Sh C7 G7 R7 Ty7) (conj N4 N5)). cbn [bind]. rewrite (proj2 (check_explicits_iff r r7 G Sh C7 G7 R7) NX). cbn [bind]. eauto. }
  split.
  - intros H. pose proof H as (root & Hb). assert (D : exists t, declared_tree so s = Ok t).
    { unfold build_ast in Hb. apply bind_ok in Hb as (r1 & H1 & Hb). apply bind_ok in Hb as (r2 & H2 & _). exists r2. unfold declared_tree. now rewrite H1. }
    split; [exact D|]. intros t Ht. now apply X.
  - intros ((t & Ht) & N). apply (X t Ht). now apply N.
Qed.

(** The same for schema texts *)
Theorem C70_text : forall so text s, any_order so -> denotes text s -> separated s -> no_builtin s ->
  ((exists root, build_text so text = Ok root) <-> declarations_valid s /\ forall t, declared_tree so s = Ok t -> names_valid t).
Proof.
  intros so text s Hso D Sp NB. rewrite <- (C70_accepts so s Hso (denotes_identifiers _ _ D) Sp NB). apply C68_parse in D. unfold build_text. rewrite D. reflexivity.
Qed.

(** ** Instances: an accepted schema, and one-step changes of an accepted schema that break exactly one rule *)
Example C70_instance : any_order same_order /\ identifiers example /\ separated example /\ no_builtin example /\ declarations_valid example
  /\ exists t, declared_tree same_order example = Ok t /\ names_valid t.
Proof.
  split; [exact same_order_any|]. split; [exact example_identifiers|]. split; [exact example_separated|]. split; [exact example_no_builtin|].
  destruct (proj1 (C70_accepts same_order example same_order_any example_identifiers example_separated example_no_builtin) (ex_intro _ _ example_ok)) as (D & N). split; [exact D|].
  destruct (proj2 (C70_declarations same_order example same_order_any example_identifiers example_separated example_no_builtin) D) as (t & Ht). exists t. auto.
Qed.

(** One text per rule: the first breaks it and is refused, the second repairs it and is accepted *)
Definition in_namespace (t : string) : string := "namespace n { " ++ t ++ " }".
Definition rule_texts : list (string * string) :=
  [ (* declarations: distinct paths, representable constants, distinct and narrow fields *)
    ("struct S { x : u8; } struct S { y : u8; }", "struct S { x : u8; } struct T { y : u8; }");
    ("const u8 C = 256;", "const u8 C = 255;");
    ("const i8 C = -129;", "const i8 C = -128;");
    ("const u8 C = 010;", "const u8 C = 10;");
    ("struct S { x : u8; x : u8; }", "struct S { x : u8; y : u8; }");
    ("struct S { x : u8 : 9; }", "struct S { x : u8 : 8; }");
    ("const u8 C = 1; struct S { @const(C) @const(C) x : u8; }", "const u8 C = 1; struct S { @const(C) x : u8; }");
    ("enum E : u8 : 1 { A, B, C }", "enum E : u8 : 2 { A, B, C }");
    ("enum E : u8 : 2 { A, B = 0 }", "enum E : u8 : 2 { A, B = 3 }");
    ("enum E : u8 : 2 { A, A }", "enum E : u8 : 2 { A, B }");
    ("enum E : u16 { A }", "enum E : u16 : 8 { A }");
    ("enum E : u8 : 2 { A, UNKNOWN_VALUE_3 }", "enum E : u8 : 2 { A, UNKNOWN_VALUE_1 }");
    ("archive A { x : raw_data; x : raw_data; }", "archive A { x : raw_data; y : raw_data; }");
    ("@bound_implicitly( b : x, x ) archive A { x : raw_data; }", "@bound_implicitly( b : x ) archive A { x : raw_data; }");
    ("struct S { x : u8; } archive A { x : multivector<65, S>; }", "struct S { x : u8; } archive A { x : multivector<64, S>; }");
    ("struct S { x : u8; } archive A { x : multivector<8, S, S>; }", "struct S { x : u8; } archive A { x : multivector<8, S>; }");
    ("struct S { x : u8; } archive A { x : multivector<8, S, .n._builtin.multivector.IndexType8>; }", "struct S { x : u8; } archive A { x : multivector<8, S>; }");
    ("struct S { r : u8; } archive A { @explicit_reference( S.r, v ) @explicit_reference( S.r, v ) v : vector< S >; }", "struct S { r : u8; } archive A { @explicit_reference( S.r, v ) v : vector< S >; }");
    (* names: they denote something of the right kind, once *)
    ("archive A { x : vector< S >; }", "struct S { x : u8; } archive A { x : vector< S >; }");
    ("enum S : u8 : 1 { X } archive A { x : vector< S >; }", "struct S { x : u8; } archive A { x : vector< S >; }");
    ("struct S { x : u8; } archive A { S : vector< S >; }", "struct S { x : u8; } archive A { T : vector< S >; }");
    ("struct S { x : u8; } archive A { x : multivector<8, S, .n.S>; }", "struct S { x : u8; } archive A { x : multivector<8, .n.S>; }");
    (* ranges *)
    ("struct S { @range(y) x : u8; y : u8; } archive A { v : vector< S >; }", "struct S { @range(z) x : u8; y : u8; } archive A { v : vector< S >; }");
    ("const u8 C = 1; struct S { @range(y) @optional(C) x : u8; } archive A { v : vector< S >; }", "const u8 C = 1; struct S { @range(y) @const(C) x : u8; } archive A { v : vector< S >; }");
    ("struct S { @range(y) x : u8; } archive A { v : multivector<8, S>; }", "struct S { @range(y) x : u8; } archive A { v : vector< S >; }");
    ("struct S { @range(y) x : u8; } archive A { v : S; }", "struct S { x : u8; } archive A { v : S; }");
    (* enumeration fields, constants, explicit references, archives *)
    ("enum E : u8 : 2 { X } struct S { x : E : 3; }", "enum E : u8 : 2 { X } struct S { x : E : 2; }");
    ("const u16 C = 1; struct S { @const(C) x : u8; }", "const u16 C = 1; struct S { @const(C) x : u16; }");
    ("const u8 C = 4; struct S { @const(C) x : u8 : 2; }", "const u8 C = 4; struct S { @const(C) x : u8 : 3; }");
    ("const u8 C = 1; const u8 D = 2; struct S { @optional(C) @optional(D) x : u8; }", "const u8 C = 1; const u8 D = 2; struct S { @optional(C) @const(D) x : u8; }");
    ("struct S { r : u8; } struct T { x : u8; } archive A { @explicit_reference( S.r, v ) v : vector< T >; }", "struct S { r : u8; } struct T { x : u8; } archive A { @explicit_reference( S.r, v ) v : vector< S >; }");
    ("archive A { b : archive B; } archive B { a : archive A; }", "archive A { b : archive B; } archive B { a : raw_data; }") ].
Lemma single_usable p : ns_keys p = ["n"] -> existsb (String.eqb "_builtin") (def_names p) = false -> separated [p] /\ no_builtin [p].
Proof.
  intros K D. split.
  - intros a b n m [<-|[]] [<-|[]] _. rewrite K. discriminate.
  - intros a [<-|[]]. rewrite K. split; [intros [E|[]]; discriminate|]. intros H. assert (existsb (String.eqb "_builtin") (def_names p) = true); [|congruence].
    apply existsb_exists. exists "_builtin". split; [exact H|reflexivity].
Qed.
Definition usable_text (t : string) : bool :=
  match parse_schema t with Ok [p] => (if list_eq_dec string_dec (ns_keys p) ["n"] then true else false) && negb (existsb (String.eqb "_builtin") (def_names p)) | _ => false end.
Lemma usable_single t : usable_text t = true -> exists s, denotes t s /\ separated s /\ no_builtin s.
Proof.
  unfold usable_text. destruct (parse_schema t) as [[|p [|q s]]|] eqn:E; try discriminate. intros H. apply andb_true_iff in H as (K & D). destruct (list_eq_dec _ _ _) as [K'|]; [|discriminate].
  apply negb_true_iff in D. exists [p]. split; [now apply C68_parse|]. now apply single_usable.
Qed.
Example C70_rules : forall bad good, In (bad, good) rule_texts ->
  ((exists s, denotes (in_namespace bad) s /\ separated s /\ no_builtin s) /\ ~ exists root, build_text same_order (in_namespace bad) = Ok root)
  /\ ((exists s, denotes (in_namespace good) s /\ separated s /\ no_builtin s) /\ exists root, build_text same_order (in_namespace good) = Ok root).
Proof.
  assert (F : forallb (fun bg => (usable_text (in_namespace (fst bg)) && negb (is_ok (build_text same_order (in_namespace (fst bg)))))
                                 && (usable_text (in_namespace (snd bg)) && is_ok (build_text same_order (in_namespace (snd bg))))) rule_texts = true) by (vm_compute; reflexivity).
  intros bad good H. rewrite forallb_forall in F. specialize (F _ H). cbn [fst snd] in F. apply andb_true_iff in F as (B & G). apply andb_true_iff in B as (B1 & B2). apply andb_true_iff in G as (G1 & G2).
  split; (split; [now apply usable_single|]).
  - intros (root & E). rewrite E in B2. discriminate.
  - destruct (build_text same_order (in_namespace good)) as [root|]; [eauto|discriminate].
Qed.
Print Assumptions C70_declarations.
Print Assumptions C70_accepts.
Print Assumptions C70_text.
