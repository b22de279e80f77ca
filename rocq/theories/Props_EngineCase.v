(** C96, a case: a schema with a sub-archive, what the inspector finds in the directories, and archives that it can not open. *)
From Coq Require Import List ZArith Bool String Ascii Lia Permutation.
From Verif Require Import PyBase PyText DataAccess Structure StructSpec Resources ResourceSpec Builder Archive ArchiveSpec OpenSpec HistorySpec Writer
  GenTypes GenTree GenTreeFacts GraphSpec GenTraversal GenBuild GenAstSpec GenBuildFacts GenAstFacts GenAstThms GenFlatdata GenPython GenOutSpec GenFinal GenModule GenWords UsableSpec GenUsable Props_Archive Props_GenTree Props_GenOutput
  EmbedSpec SameSpec Props_Same NestedSpec Props_NestedGen
  GrammarSpec Grammar GrammarNames Props_Grammar NormSpec NormText NormReady NormWritten Props_Norm EngineSpec GenEngine EngineFacts Props_Engine.
Import ListNotations.
Local Open Scope string_scope.
Local Open Scope Z_scope.

Definition c_input : string :=
  "namespace n { /** s */ struct S { x : u8 : 3; y : i16 : 13; } archive B { s : vector< S >; } archive A { v : vector< S >; m : multivector< 16, S >; @optional raw : archive B; b : archive B; } }".
Definition c_schema : pschema := match parse_schema c_input with Ok s => s | Err _ => [] end.
Definition c_root : tree := tree_of c_schema.
Definition c_archive : adef := match module_archive sorted_keys c_root "A" with Ok a => a | _ => ADef "" [] [] end.
Definition c_inner : adef := match module_archive sorted_keys c_root "B" with Ok a => a | _ => ADef "" [] [] end.
(** the tree of the text in A.archive.schema *)
Definition c_again : tree := match build_text same_order (bytes_text (a_schema c_archive)) with Ok t => t | Err _ => c_root end.
Definition c_rec (x y : Z) : record := [("x", PInt x); ("y", PInt y)].
Definition c_inner_sets : list (string * setval) := [("s", SRecords [c_rec 7 (-4096)])].
Definition c_sets : list (string * setval) := [("v", SRecords [c_rec 1 2; c_rec 0 4095]); ("m", SBuckets [[("n_S", c_rec 1 (-1))]; []; [("n_S", c_rec 2 0); ("n_S", c_rec 3 2)]])].
Definition c_before : fs := [("notes.txt", [104;105])].
Definition c_contents : contents := Contents c_before c_sets [("b", Contents [] c_inner_sets [])].
Definition found_kinds (r : res (list (string * option opened))) : list string := match r with Ok rs => map fst rs | Err _ => [] end.

Lemma c_denotes : denotes c_input c_schema. Proof. apply C68_parse. vm_compute. reflexivity. Qed.
Lemma c_flat : flat_namespaces c_schema. Proof. intros p Hp. vm_compute in Hp. destruct Hp as [<-|[]]; reflexivity. Qed.
Lemma c_no_builtin : no_builtin c_schema. Proof. intros p Hp. vm_compute in Hp. destruct Hp as [<-|[]]; split; intros X; vm_compute in X; intuition discriminate. Qed.
Lemma c_plain : plain_namespaces c_schema.
Proof. intros p Hp (t & E). vm_compute in Hp. destruct Hp as [<-|[]]; discriminate E. Qed.
Lemma c_built : build_ast same_order c_schema = Ok c_root. Proof. vm_compute. reflexivity. Qed.
Lemma c_again_built : build_text same_order (bytes_text (a_schema c_archive)) = Ok c_again. Proof. vm_compute. reflexivity. Qed.
Lemma c_unused : builtins_unused c_root. Proof. apply unused_checked. vm_compute. reflexivity. Qed.
Lemma c_distinct : distinct_classes c_root. Proof. apply distinct_checked. vm_compute. reflexivity. Qed.
Lemma c_resources : plain_resources c_root. Proof. apply resources_checked. vm_compute. reflexivity. Qed.
Lemma c_usable : usable_layouts c_root. Proof. apply usable_checked. vm_compute. reflexivity. Qed.
Lemma c_few : few_types c_root.
Proof. intros l t w o m Hl K. pose proof (everywhere c_root (fun l t => zlen (filter (fun c => is_structure_ref (t_kind c)) (t_children t)) <=? 256) ltac:(vm_compute; reflexivity) l t Hl) as X. cbn beta in X. now apply Z.leb_le in X. Qed.
Lemma c_indices : no_index_clash c_root.
Proof.
  intros l t c c' w o m rk o' m' Hl K Hc Hc' _ _ E. pose proof (everywhere c_root (fun l t => forallb (fun c => forallb (fun c' => negb (String.eqb (t_name c') (t_name c ++ "_index"))) (t_children t)) (t_children t)) ltac:(vm_compute; reflexivity) l t Hl) as X.
  cbn beta in X. rewrite forallb_forall in X. specialize (X c Hc). rewrite forallb_forall in X. specialize (X c' Hc'). rewrite E, String.eqb_refl in X. discriminate.
Qed.
Lemma c_only : only_root c_schema "n".
Proof.
  split; [intros (a & b & E); destruct a as [|x a]; [discriminate E|]; cbn in E; injection E as _ E; destruct a; discriminate E|]. split.
  - assert (E : exists p r, c_schema = p :: r /\ outermost p = "n") by (do 2 eexists; split; [vm_compute; reflexivity|vm_compute; reflexivity]). destruct E as (p & r & -> & E). exists p. split; [now left|exact E].
  - intros p Hp. left. vm_compute in Hp. destruct Hp as [<-|[]]. reflexivity.
Qed.
Lemma c_at : exists t, at_loc c_root [0;2]%nat = Some t /\ t_kind t = KArchive /\ t_name t = "A" /\ namespaces c_root [0;2]%nat = ["n"].
Proof. destruct (at_loc c_root [0;2]%nat) as [t|] eqn:E; [|vm_compute in E; discriminate]. exists t. split; [reflexivity|]. vm_compute in E. injection E as <-. repeat split; vm_compute; reflexivity. Qed.
Lemma c_engine : module_archive sorted_keys c_root "A" = Ok c_archive. Proof. unfold c_archive. destruct (module_archive sorted_keys c_root "A") eqn:E; [reflexivity|]. vm_compute in E. discriminate. Qed.
Lemma ok_inj {A} (x y : A) : Ok x = Ok y -> x = y. Proof. congruence. Qed.
Lemma c_archive_is : GenOutSpec.archive_is c_root [0;2]%nat c_archive.
Proof.
  destruct c_at as (t & Ht & K & Nt & Ns). destruct (C96_finds_partial same_order sorted_keys c_input c_schema c_root "n" [0;2]%nat t same_order_any (fun _ _ => conj (fun H => H) (fun H => H)) c_denotes (flat_separated _ c_flat) c_no_builtin c_plain c_built c_distinct c_resources c_only Ht K Ns) as (a & E & A).
  rewrite (engine_root same_order sorted_keys c_input c_schema c_root (t_name t) c_denotes c_built), Nt, c_engine in E. rewrite (ok_inj _ _ E). exact A.
Qed.
Lemma c_fillable : fillable c_archive c_contents.
Proof.
  assert (Er : a_resources c_archive = ltac:(let x := eval vm_compute in (a_resources c_archive) in exact x)) by (vm_compute; reflexivity).
  assert (Ei : a_resources c_inner = ltac:(let x := eval vm_compute in (a_resources c_inner) in exact x)) by (vm_compute; reflexivity).
  assert (Ef : archive_file c_archive = "A.archive") by (vm_compute; reflexivity). assert (Eg : archive_file c_inner = "B.archive") by (vm_compute; reflexivity).
  assert (Nm : map fst (a_resources c_archive) = ["A.archive"; "v"; "m"; "raw"; "b"]) by (vm_compute; reflexivity).
  assert (Ni : map fst (a_resources c_inner) = ["B.archive"; "s"]) by (vm_compute; reflexivity).
  assert (Hs : exists sch opt, In ("b", RSig (CArchive c_inner) sch opt) (a_resources c_archive)).
  { assert (Ea : c_inner = ltac:(let x := eval vm_compute in c_inner in exact x)) by (vm_compute; reflexivity). do 2 eexists. rewrite Er, Ea. do 4 right. left. reflexivity. }
  constructor.
  - intros n sig f Hi Hf. unfold c_before. cbn [dict_get]. destruct (String.eqb "notes.txt" f) eqn:E; [|reflexivity]. exfalso. apply String.eqb_eq in E. subst f.
    assert (X : forallb (fun r => negb (existsb (String.eqb "notes.txt") (files_of (fst r) (snd r)))) (a_resources c_archive) = true) by (vm_compute; reflexivity).
    rewrite forallb_forall in X. specialize (X _ Hi). cbn [fst snd] in X. apply negb_true_iff in X. assert (Y : existsb (String.eqb "notes.txt") (files_of n sig) = true) by (apply existsb_exists; exists "notes.txt"; split; [exact Hf|reflexivity]). congruence.
  - repeat constructor; cbn; intuition discriminate.
  - repeat constructor. intros [].
  - intros n v Hi. rewrite Ef. destruct Hi as [E|[E|[]]]; injection E as <- <-; (split; [discriminate|]).
    + eexists. split; [rewrite Er; right; left; reflexivity|]. cbn [storable r_container]. split; [vm_compute; reflexivity|]. exists [[1; 2]; [0; 4095]].
      repeat (constructor; [split; [repeat (constructor; [split; [vm_compute; reflexivity|vm_compute; split; congruence]|]); constructor|intros k Hk; vm_compute in Hk |- *; tauto]|]). constructor.
    + eexists. split; [rewrite Er; right; right; left; reflexivity|]. cbn [storable r_container]. split; [vm_compute; reflexivity|]. exists [[(0, [1; -1])]; []; [(0, [2; 0]); (0, [3; 2])]]. split.
      * repeat (first [apply Forall2_nil | apply Forall2_cons]); (eexists; split; [cbn [fst]; lia|]; split; [vm_compute; reflexivity|]; split; [reflexivity|]; split; [repeat (constructor; [split; [vm_compute; reflexivity|vm_compute; split; congruence]|]); constructor|intros k Hk; vm_compute in Hk |- *; tauto]).
      * intros f [<-|[]]. vm_compute. reflexivity.
  - intros n c [E|[]]. injection E as <- <-. destruct Hs as (sch & opt & Hs). exists c_inner, sch, opt. split; [exact Hs|]. constructor.
    + intros n sig f _ _. reflexivity.
    + repeat constructor. intros [].
    + constructor.
    + intros n v [E|[]]. injection E as <- <-. rewrite Eg. split; [discriminate|]. eexists. split; [rewrite Ei; right; left; reflexivity|]. cbn [storable r_container]. split; [vm_compute; reflexivity|]. exists [[7; -4096]].
      repeat (constructor; [split; [repeat (constructor; [split; [vm_compute; reflexivity|vm_compute; split; congruence]|]); constructor|intros k Hk; vm_compute in Hk |- *; tauto]|]). constructor.
    + intros n c [].
    + intros n sig Hi Na Op. pose proof (in_map fst _ _ Hi) as Hn. cbn [fst] in Hn. rewrite Ni in Hn. rewrite Eg in Na. destruct Hn as [<-|[<-|[]]]; [exfalso; apply Na; reflexivity|left; left; reflexivity].
  - intros n sig Hi Na Op. pose proof (in_map fst _ _ Hi) as Hn. cbn [fst] in Hn. rewrite Nm in Hn. rewrite Ef in Na. destruct Hn as [<-|[<-|[<-|[<-|[<-|[]]]]]].
    + exfalso. apply Na. reflexivity.
    + left. left. reflexivity.
    + left. right. left. reflexivity.
    + exfalso. assert (X : forallb (fun r => negb (String.eqb (fst r) "raw") || r_optional (snd r)) (a_resources c_archive) = true) by (vm_compute; reflexivity).
      rewrite forallb_forall in X. specialize (X _ Hi). cbn [fst snd] in X. rewrite Op in X. discriminate X.
    + right. left. reflexivity.
Qed.
Lemma c_again_good : builtins_unused c_again /\ distinct_classes c_again /\ plain_resources c_again.
Proof. split; [apply unused_checked; vm_compute; reflexivity|]. split; [apply distinct_checked; vm_compute; reflexivity|apply resources_checked; vm_compute; reflexivity]. Qed.

(** Everything [C96_finds_partial] and [C96_shows_partial] ask for holds of a schema with a sub-archive, a multivector and an
    optional resource that is left out, in a directory with another file; and the inspector does open it. *)
Theorem C96_instance :
  (any_order same_order /\ same_members sorted_keys /\ denotes c_input c_schema /\ flat_namespaces c_schema /\ separated c_schema /\ no_builtin c_schema /\ plain_namespaces c_schema /\ build_ast same_order c_schema = Ok c_root
    /\ builtins_unused c_root /\ distinct_classes c_root /\ plain_resources c_root /\ usable_layouts c_root /\ few_types c_root /\ no_index_clash c_root /\ only_root c_schema "n")
  /\ (exists t, at_loc c_root [0;2]%nat = Some t /\ t_kind t = KArchive /\ t_name t = "A" /\ namespaces c_root [0;2]%nat = ["n"])
  /\ GenOutSpec.archive_is c_root [0;2]%nat c_archive
  /\ (forall root2, build_text same_order (bytes_text (a_schema c_archive)) = Ok root2 -> builtins_unused root2 /\ distinct_classes root2 /\ plain_resources root2)
  /\ fillable c_archive c_contents /\ NoDup (map fst c_before) /\ (forall n, dict_get c_before (n ++ ".archive") = None)
  /\ exists rs, inspect (engine same_order sorted_keys) (StDir (directory c_archive c_contents)) None = Ok rs /\ map fst rs = ["A.archive"; "b"; "m"; "raw"; "v"].
Proof.
  split; [exact (conj same_order_any (conj (fun _ _ => conj (fun H => H) (fun H => H)) (conj c_denotes (conj c_flat (conj (flat_separated _ c_flat) (conj c_no_builtin (conj c_plain (conj c_built
    (conj c_unused (conj c_distinct (conj c_resources (conj c_usable (conj c_few (conj c_indices c_only))))))))))))))|].
  split; [exact c_at|]. split; [exact c_archive_is|]. split; [intros root2 E; rewrite c_again_built in E; rewrite <- (ok_inj _ _ E); exact c_again_good|]. split; [exact c_fillable|].
  split; [repeat constructor; intros []|]. split.
  - intros n. unfold c_before. cbn [dict_get]. destruct (String.eqb "notes.txt" (n ++ ".archive")) eqn:E; [|reflexivity]. exfalso. apply String.eqb_eq in E.
    do 10 (destruct n as [|? n]; [discriminate E|]; try discriminate E; cbn in E; injection E as _ E).
  - assert (X : found_kinds (inspect (engine same_order sorted_keys) (StDir (directory c_archive c_contents)) None) = ["A.archive"; "b"; "m"; "raw"; "v"]) by (vm_compute; reflexivity).
    destruct (inspect (engine same_order sorted_keys) (StDir (directory c_archive c_contents)) None) as [rs|e]; [|discriminate X]. exists rs. split; [reflexivity|exact X].
Qed.
Print Assumptions C96_instance.

(** ** What the inspector can not open, although the generated module does *)
(** the archive class that the generator emits for [input] under the given class name *)
Definition class_archive (input class : string) : adef :=
  match build_text same_order input with
  | Ok root => match generate_python sorted_keys root with Ok g => match dict_get g class with Some (ClsArchive a) => a | _ => ADef "" [] [] end | Err _ => ADef "" [] [] end
  | Err _ => ADef "" [] []
  end.
Definition one_vector : contents := Contents [] [("v", SRecords [[("x", PInt 5)]])] [].
Definition opens {A} (r : res A) : bool := match r with Ok _ => true | Err _ => false end.
(** what the generated class and the inspector make of the directory with one vector *)
Definition by_class (input class : string) : bool := opens (open_archive (class_archive input class) (StDir (directory (class_archive input class) one_vector))).
Definition by_inspector (input class : string) : option exn :=
  match inspect (engine same_order sorted_keys) (StDir (directory (class_archive input class) one_vector)) (Some (a_name (class_archive input class))) with Ok _ => None | Err e => Some e end.
(** an archive of a structure of another namespace *)
Definition r_two : string := "namespace a { struct S { x : u8; } } namespace b { archive A { v : vector< .a.S >; } }".
(** a constant of another namespace, that the archive does not even mention *)
Definition r_constant : string := "namespace a { const u8 C = 1; } namespace b { struct S { x : u8; } archive A { v : vector< S >; } }".
(** a namespace with the word "builtin" in its name *)
Definition r_builtin : string := "namespace mybuiltins { struct S { x : u8; } archive A { v : vector< S >; } }".
(** a namespace in a namespace: the generator does not accept the schemas it stores *)
Definition r_nested : string := "namespace a.b { struct S { x : u8; } archive A { v : vector< S >; } }".
(** constants that the stored schema puts in another order than a second run does: the archive is refused as not matching *)
Definition r_order : string := "namespace n { const u8 C = 1; const u8 D = 2; struct S { @optional( D ) @const( C ) x : u8; } archive A { v : vector< S >; } }".
(** two namespaces that do not use each other are fine *)
Definition r_apart : string := "namespace a { struct S { x : u8; } archive A { v : vector< S >; } } namespace b { struct S { x : u8; } archive A { v : vector< S >; } }".
Theorem C96_refuted :
  (by_class r_two "b_A" = true /\ by_inspector r_two "b_A" = Some RuntimeError)
  /\ (by_class r_constant "b_A" = true /\ by_inspector r_constant "b_A" = Some RuntimeError)
  /\ (by_class r_builtin "mybuiltins_A" = true /\ by_inspector r_builtin "mybuiltins_A" = Some RuntimeError)
  /\ (by_class r_nested "a_b_A" = true /\ by_inspector r_nested "a_b_A" = Some ParsingError)
  /\ (by_class r_order "n_A" = true /\ by_inspector r_order "n_A" = Some (SchemaMismatchError "A.archive"))
  /\ (by_class r_apart "b_A" = true /\ by_inspector r_apart "b_A" = None).
Proof. repeat split; vm_compute; reflexivity. Qed.
Print Assumptions C96_refuted.
