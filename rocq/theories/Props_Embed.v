(** Properties of the schema text embedded for definitions and resources: C50. *)
From Coq Require Import List ZArith Bool String Ascii Lia Permutation.
From Verif Require Import PyBase PyText GenTypes GenTree GenTreeFacts GraphSpec GenTraversal GenBuild GenBuildFacts GenPassFacts GenAstSpec GenLayoutFacts GenFlatdata GenOutFacts GenFinal GenRender GenWords
  GenOutSpec EmbedSpec GenAgree GenMentions Props_GenTree Props_GenOutput.
Import ListNotations.
Local Open Scope string_scope.
Local Open Scope Z_scope.

Lemma identifiers_finished so s root : any_order so -> identifiers s -> separated s -> no_builtin s -> build_ast so s = Ok root -> finished root.
Proof. intros Ho Id Sp Nb H. exact (build_ast_finished so s root Ho (well_named_clean s (identifiers_named s Id)) Sp Nb H). Qed.

(** C50: the schema text of a structure, archive or resource is the same in any two schemas in which everything it depends on is
    declared the same, whatever else the schemas contain and in whatever order.
    Partial: the schemas must not put definitions inside definitions or use the name [_builtin]. *)
Theorem C50_independent_partial : forall so1 s1 root1 so2 s2 root2 l1 l2 t1 t2,
  any_order so1 -> identifiers s1 -> separated s1 -> no_builtin s1 -> build_ast so1 s1 = Ok root1 ->
  any_order so2 -> identifiers s2 -> separated s2 -> no_builtin s2 -> build_ast so2 s2 = Ok root2 ->
  at_loc root1 l1 = Some t1 -> at_loc root2 l2 = Some t2 -> path_at root1 l1 = path_at root2 l2 -> has_schema (t_kind t1) = true ->
  same_dependencies root1 l1 root2 ->
  exists s, schema_text root1 l1 = Ok s /\ schema_text root2 l2 = Ok s.
Proof.
  intros so1 s1 root1 so2 s2 root2 l1 l2 t1 t2 O1 I1 S1 N1 B1 O2 I2 S2 N2 B2 H1 H2 P K Sd.
  pose proof (identifiers_finished so1 s1 root1 O1 I1 S1 N1 B1) as F1. pose proof (identifiers_finished so2 s2 root2 O2 I2 S2 N2 B2) as F2.
  assert (Nm : names_at root1 l1 = names_at root2 l2).
  { destruct (proj1 (names_at_some root1 l1) (ex_intro _ t1 H1)) as (n1 & E1). destruct (proj1 (names_at_some root2 l2) (ex_intro _ t2 H2)) as (n2 & E2). unfold path_at in P. rewrite E1, E2 in P. cbn in P. injection P as P.
    pose proof (f_built _ F1) as Bu1. pose proof (f_built _ F2) as Bu2.
    pose proof (names_dot_free root1 l1 n1 (good_wf _ (proj1 (b_rooted _ Bu1))) (rooted_dot _ (b_rooted _ Bu1)) E1) as D1.
    pose proof (names_dot_free root2 l2 n2 (good_wf _ (proj1 (b_rooted _ Bu2))) (rooted_dot _ (b_rooted _ Bu2)) E2) as D2.
    assert (n1 = n2); [|congruence]. pose proof (names_nonempty _ _ _ E1) as Q1. pose proof (names_nonempty _ _ _ E2) as Q2.
    rewrite <- (split_dotted n1 Q1 D1), <- (split_dotted n2 Q2 D2). unfold dotted. now rewrite P. }
  pose proof (schema_alike root1 root2 F1 F2 l1 l2 t1 t2 H1 H2 K Nm Sd) as E.
  destruct (schema_total root1 F1 l1 t1 H1) as (s & Es); [unfold is_ref; destruct (t_kind t1); try discriminate; reflexivity|destruct (t_kind t1); try discriminate; reflexivity|].
  exists s. split; [exact Es|congruence].
Qed.
Print Assumptions C50_independent_partial.

(** ... and it contains the declaration of everything it depends on, each once and after the ones it depends on itself, nothing
    else, and finally the declaration of the definition itself (for a resource: its archive with this resource only). *)
Theorem C50_mentions_partial : forall so s root l t, any_order so -> identifiers s -> separated s -> no_builtin s -> build_ast so s = Ok root ->
  at_loc root l = Some t -> has_schema (t_kind t) = true ->
  exists ds bs own, schema_text root l = Ok (text (List.concat bs ++ own))
    /\ NoDup ds /\ (forall d, In d ds <-> depends root l d /\ d <> l /\ declared root d)
    /\ Forall2 (fun d b => exists u, at_loc root d = Some u /\ In (heading u) b /\ block root d u = Ok b) ds bs
    /\ (forall before d after, ds = (before ++ d :: after)%list -> forall e, depends root d e -> e <> d -> declared root e -> In e before)
    /\ (is_supported (t_kind t) = true -> ~ In "_builtin" (namespaces root l) -> In (heading t) own /\ block root l t = Ok own)
    /\ (is_supported (t_kind t) = false -> exists p i a, l = (p ++ [i])%list /\ at_loc root p = Some a /\ t_kind a = KArchive
          /\ (~ In "_builtin" (namespaces root p) -> In ["archive"; t_name a] own /\ block root p (Node (t_name a) KArchive [t]) = Ok own)).
Proof.
  intros so s root l t O I S N B H K. pose proof (identifiers_finished so s root O I S N B) as F. destruct (schema_parts root F l t H K) as (ds & bs & own & E & Nd & Hin & Fb & Ord & Own).
  exists ds, bs, own. split; [unfold schema_text; rewrite E; reflexivity|]. split; [exact Nd|]. split; [exact Hin|]. split.
  { assert (X : forall d, In d ds -> declared root d) by (intros d Hd; now apply Hin in Hd). clear - Fb X F H K. induction Fb as [|d b ds bs (u & Hu & Hb) Fb IH]; constructor; [|apply IH; intros; apply X; now right].
    exists u. split; [exact Hu|]. split; [|exact Hb]. apply (block_heading root d u b Hb). destruct (X d (or_introl eq_refl)) as (u' & Hu' & Su & _). congruence. }
  split; [exact Ord|]. unfold own_part in Own. destruct (is_supported (t_kind t)) eqn:Su; (split; [intros Q|intros Q]); try discriminate.
  - intros Nb. apply (node_block_declared root t K) in Own as [(_ & u & Hu & Hb)|(D & _)].
    + rewrite H in Hu. injection Hu as <-. split; [exact (block_heading root l t own Hb Su)|exact Hb].
    + destruct D. exists t. auto.
  - destruct Own as (p & i & a & El & Ha & Ka & X). exists p, i, a. split; [exact El|]. split; [exact Ha|]. split; [exact Ka|]. intros Nb. destruct (is_builtin root p) eqn:Bi; [now apply builtin_in in Bi|].
    split; [|exact X]. exact (block_heading root p (Node (t_name a) KArchive [t]) own X eq_refl).
Qed.
Print Assumptions C50_mentions_partial.

(** a finite check of the dependencies *)
Definition closed_under (root : tree) (ds : list loc) : bool :=
  forallb (fun m => match kids root m with Ok cs => forallb (fun c => existsb (fun d => if loc_eq_dec c d then true else false) ds) cs | Err _ => false end) ds.
Lemma depends_in root l t ds : finished root -> at_loc root l = Some t -> In l ds -> closed_under root ds = true -> forall m, depends root l m -> In m ds.
Proof.
  intros F H Hl C m D. apply (depends_reach root F l t H) in D as (k & W). revert m W. induction k as [|k IH]; intros m W.
  - apply walk_0_inv in W. now subst.
  - apply walk_S_inv in W as (y & W & (cs & Hk & Hc)). specialize (IH y W). unfold closed_under in C. rewrite forallb_forall in C. specialize (C y IH). rewrite Hk in C. rewrite forallb_forall in C. specialize (C m Hc).
    apply existsb_exists in C as (d & Hd & E). destruct (loc_eq_dec m d) as [->|]; [exact Hd|discriminate].
Qed.
Definition corresponding (root1 root2 : tree) (ps : list (loc * loc)) : Prop :=
  Forall (fun p => names_at root2 (snd p) = names_at root1 (fst p) /\ option_map unlimited (at_loc root2 (snd p)) = option_map unlimited (at_loc root1 (fst p))) ps.
Lemma dependencies_checked root1 l1 t1 root2 ps : finished root1 -> at_loc root1 l1 = Some t1 -> In l1 (map fst ps) -> closed_under root1 (map fst ps) = true -> corresponding root1 root2 ps -> same_dependencies root1 l1 root2.
Proof.
  intros F H Hl C P m t D Hm. pose proof (depends_in root1 l1 t1 _ F H Hl C m D) as Hi. apply in_map_iff in Hi as ((a & b) & E & Hi). cbn in E. subst a. unfold corresponding in P. rewrite Forall_forall in P. specialize (P _ Hi). cbn in P. destruct P as (Nm & Eu).
  rewrite Hm in Eu. cbn in Eu. destruct (at_loc root2 b) as [t'|] eqn:Hb; [|discriminate]. injection Eu as Eu. exists b, t'. auto.
Qed.

(** The example's [Ar.v] and the same resource in a schema with other definitions around it, in another order *)
Definition other : pschema :=
 [PNamespace "k" [PConst "X" "u16" "12"] [PStruct "S" [PField "x" [] "u8" None]] [] [];
  PNamespace "n.a" [PConst "C" "u8" "7"]
   [PStruct "Other" [PField "r" [] "E2" None]; PStruct "S" [PField "x" [FConst "C"] "u8" (Some 3%N); PField "e" [] "E" None; PField "r" [] "u32" (Some 20%N)]]
   [PEnum "E2" "u16" (Some 1%N) [("A",None)]; PEnum "E" "u8" (Some 2%N) [("A",None);("B",Some "2")]]
   [PArchive "Ar" [] [PResource "m" [] (TMulti 33%N ["Other";"S"]); PResource "z" [] TRaw; PResource "v" [RExplicit "S" "r" "m"] (TVector "S")]]].
Definition other_tree : tree := tree_of other.
Lemma other_separated : separated other.
Proof.
  intros p q n m Hp Hq Hn E. cbn in Hp, Hq. destruct Hp as [<-|[<-|[]]]; destruct Hq as [<-|[<-|[]]]; vm_compute in E; injection E as E; try discriminate; try (destruct m; discriminate); try (injection E as E E'; destruct m; discriminate); congruence || (subst; vm_compute in Hn; repeat destruct Hn as [Hn|Hn]; congruence || destruct Hn).
Qed.
Lemma other_no_builtin : no_builtin other.
Proof. intros p Hp. cbn in Hp. destruct Hp as [<-|[<-|[]]]; split; intros H; vm_compute in H; repeat destruct H as [H|H]; congruence || destruct H. Qed.
Lemma other_identifiers : identifiers other.
Proof. intros p n Hp Hn. assert (X : forallb (fun p => forallb (only_chars plain_char) (mentioned p)) other = true) by (vm_compute; reflexivity). rewrite forallb_forall in X. specialize (X p Hp). rewrite forallb_forall in X. exact (X n Hn). Qed.
Lemma other_ok : build_ast same_order other = Ok other_tree. Proof. vm_compute. reflexivity. Qed.
(** [Ar.v], its explicit reference, [S] and its fields, [C], [E] and its values *)
Definition example_pairs : list (loc * loc) :=
  [([0;0;3;0], [1;0;5;2]); ([0;0;3;0;0], [1;0;5;2;0]); ([0;0;1], [1;0;2]); ([0;0;1;0], [1;0;2;0]); ([0;0;1;1], [1;0;2;1]); ([0;0;1;2], [1;0;2;2]);
   ([0;0;0], [1;0;0]); ([0;0;2], [1;0;4]); ([0;0;2;0], [1;0;4;0]); ([0;0;2;1], [1;0;4;1]); ([0;0;2;2], [1;0;4;2]); ([0;0;2;3], [1;0;4;3])]%nat.
Theorem C50_instance :
  any_order same_order /\ identifiers example /\ separated example /\ no_builtin example /\ build_ast same_order example = Ok example_tree
  /\ identifiers other /\ separated other /\ no_builtin other /\ build_ast same_order other = Ok other_tree
  /\ (exists t1 t2, at_loc example_tree [0;0;3;0]%nat = Some t1 /\ at_loc other_tree [1;0;5;2]%nat = Some t2 /\ has_schema (t_kind t1) = true)
  /\ path_at example_tree [0;0;3;0]%nat = path_at other_tree [1;0;5;2]%nat
  /\ same_dependencies example_tree [0;0;3;0]%nat other_tree /\ depends example_tree [0;0;3;0]%nat [0;0;2]%nat /\ declared example_tree [0;0;2]%nat
  /\ unlimited example_tree <> unlimited other_tree.
Proof.
  split; [exact same_order_any|]. split; [exact example_identifiers|]. split; [exact example_separated|]. split; [exact example_no_builtin|]. split; [exact example_ok|].
  split; [exact other_identifiers|]. split; [exact other_separated|]. split; [exact other_no_builtin|]. split; [exact other_ok|].
  pose proof (identifiers_finished same_order example example_tree same_order_any example_identifiers example_separated example_no_builtin example_ok) as F.
  assert (Et : exists t1, at_loc example_tree [0;0;3;0]%nat = Some t1) by (eexists; vm_compute; reflexivity). destruct Et as (t1 & Et).
  split; [eexists; eexists; split; [vm_compute; reflexivity|]; split; [vm_compute; reflexivity|reflexivity]|]. split; [vm_compute; reflexivity|]. split.
  - apply (dependencies_checked example_tree _ t1 other_tree example_pairs F Et); [left; reflexivity|vm_compute; reflexivity|]. unfold corresponding, example_pairs. repeat (constructor; [split; vm_compute; reflexivity|]). constructor.
  - split; [|split; [eexists; split; [vm_compute; reflexivity|]; split; [reflexivity|intros H; vm_compute in H; repeat destruct H as [H|H]; congruence || destruct H]|intros E; vm_compute in E; discriminate]].
    apply (depends_use _ _ [0;0;1;1]%nat 0%nat (REnum None)); [|eexists; split; [vm_compute; reflexivity|]; split; vm_compute; reflexivity|reflexivity].
    eapply (depends_part _ _ [0;0;1]%nat 1%nat); [|vm_compute; reflexivity|reflexivity].
    apply (depends_use _ _ [0;0;3;0]%nat 1%nat RStructure); [constructor|eexists; split; [vm_compute; reflexivity|]; split; vm_compute; reflexivity|reflexivity].
Qed.

(** The text of an archive, and of a resource holding an archive, is not independent of the rest of the schema: it contains the
    constants of the whole schema that no structure of it uses.  Here a constant in another namespace is added. *)
Definition two_archives (more : pschema) : pschema :=
  (PNamespace "n" [] [] [] [PArchive "A" [] [PResource "d" [] TRaw]; PArchive "B" [] [PResource "a" [] (TArchive "A")]] :: more)%list.
Definition unrelated : pschema := [PNamespace "z" [PConst "K" "u8" "1"] [] [] []].
Theorem C50_refuted : exists r1 r2 s1 s2,
  build_ast same_order (two_archives []) = Ok r1 /\ build_ast same_order (two_archives unrelated) = Ok r2
  /\ path_at r1 [0;1;0]%nat = Some ".n.B.a" /\ path_at r2 [0;1;0]%nat = Some ".n.B.a"
  /\ schema_text r1 [0;1;0]%nat = Ok s1 /\ schema_text r2 [0;1;0]%nat = Ok s2 /\ s1 <> s2.
Proof.
  eexists. eexists. eexists. eexists. split; [vm_compute; reflexivity|]. split; [vm_compute; reflexivity|]. split; [vm_compute; reflexivity|]. split; [vm_compute; reflexivity|]. split; [vm_compute; reflexivity|]. split; [vm_compute; reflexivity|]. discriminate.
Qed.
