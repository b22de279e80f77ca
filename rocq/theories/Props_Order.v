(** C102: the order in which a schema's namespaces and definitions are written makes no difference to whether the schema is accepted, nor to
    what it defines. *)
From Coq Require Import List ZArith Bool String Ascii Lia Permutation.
From Verif Require Import PyBase PyText Spec GenSpec GenTypes GenTypesFacts GenTree GenTreeFacts GenBuild GenBuildFacts GenAstSpec GenAstThms GenMergeFacts
  Props_GenTree Props_GenOutput DeclSpec Props_Decl GenPassFacts GenAstFacts GenShapeFacts GenTidy GenWords AcceptSpec Props_Accept MergeBuiltins MergeNames OrderSpec Props_Merge.
Import ListNotations.
Local Open Scope list_scope.
Local Open Scope Z_scope.

Definition created (so : list Z -> list Z) (d : definition) : res tree :=
  match d with OfConstant c => create_constant c | OfStructure s => create_structure s | OfEnumeration e => create_enumeration so e | OfArchive a => create_archive a end.

Lemma creations_defs so p : creations so p = map (created so) (definitions_of p).
Proof. unfold creations, definitions_of. now rewrite !map_app, !map_map. Qed.
Lemma names_defs p : def_names p = map def_name (definitions_of p).
Proof. unfold def_names, definitions_of. now rewrite !map_app, !map_map. Qed.
Lemma in_definitions s n d : In (n, d) (definitions s) <-> exists p, In p s /\ pn_name p = n /\ In d (definitions_of p).
Proof.
  unfold definitions. rewrite in_flat_map. split.
  - intros (p & Hp & H). apply in_map_iff in H as (x & [= <- <-] & Hx). eauto.
  - intros (p & Hp & <- & Hd). exists p. split; [exact Hp|]. now apply in_map.
Qed.
Lemma paths_definitions s : defined_paths s = map (fun x => split_on "."%char (fst x) ++ [def_name (snd x)]) (definitions s).
Proof.
  unfold defined_paths, definitions. induction s as [|p s IH]; [reflexivity|]. cbn [flat_map]. rewrite map_app, <- IH. f_equal. rewrite names_defs, !map_map. reflexivity.
Qed.

Lemma same_sym_schema s s' : same_schema s s' -> same_schema s' s.
Proof. intros (P & N). split; [now apply Permutation_sym|]. intros n. symmetry. apply N. Qed.
Lemma same_in s s' p d : same_schema s s' -> In p s' -> In d (definitions_of p) -> exists q, In q s /\ pn_name q = pn_name p /\ In d (definitions_of q).
Proof.
  intros (P & _) Hp Hd. apply in_definitions. apply (Permutation_in _ (Permutation_sym P)). apply in_definitions. eauto.
Qed.
Lemma same_name s s' p : same_schema s s' -> In p s' -> exists q, In q s /\ pn_name q = pn_name p.
Proof. intros (_ & N) Hp. pose proof (proj2 (N (pn_name p)) (in_map _ _ _ Hp)) as Q. apply in_map_iff in Q as (x & Ex & Hx). eauto. Qed.

Lemma same_separated s s' : same_schema s s' -> separated s -> separated s'.
Proof.
  intros E S p q n m Hp Hq Hn. rewrite names_defs in Hn. apply in_map_iff in Hn as (d & <- & Hd). destruct (same_in s s' p d E Hp Hd) as (p' & Hp' & Np & Hd'). destruct (same_name s s' q E Hq) as (q' & Hq' & Nq).
  unfold ns_keys. rewrite <- Np, <- Nq. apply (S p' q' _ m Hp' Hq'). rewrite names_defs. now apply in_map.
Qed.
Lemma same_no_builtin s s' : same_schema s s' -> no_builtin s -> no_builtin s'.
Proof.
  intros E N p Hp. destruct (same_name s s' p E Hp) as (q & Hq & Nq). split.
  - unfold ns_keys. rewrite <- Nq. exact (proj1 (N q Hq)).
  - intros Q. rewrite names_defs in Q. apply in_map_iff in Q as (d & Ed & Hd). destruct (same_in s s' p d E Hp Hd) as (p' & Hp' & _ & Hd'). apply (proj2 (N p' Hp')). rewrite names_defs, <- Ed. now apply in_map.
Qed.

(** ** The declarations by themselves *)
Definition definition_valid (n : string) (d : definition) : Prop :=
  match d with
  | OfConstant c => constant_valid c | OfStructure s => structure_valid s | OfEnumeration e => enumeration_valid e
  | OfArchive a => archive_valid a /\ forall r, In r (pa_resources a) -> index_valid (PNamespace n [] [] [] []) r
  end.
Lemma namespace_valid p :
  (Forall constant_valid (pn_constants p) /\ Forall structure_valid (pn_structures p) /\ Forall enumeration_valid (pn_enumerations p) /\ Forall archive_valid (pn_archives p)
    /\ forall a r, In a (pn_archives p) -> In r (pa_resources a) -> index_valid p r)
  <-> forall d, In d (definitions_of p) -> definition_valid (pn_name p) d.
Proof.
  unfold definitions_of. rewrite !Forall_forall. split.
  - intros (A & B & C & D & X) d Hd. rewrite !in_app_iff, !in_map_iff in Hd. destruct Hd as [(x & <- & H)|[(x & <- & H)|[(x & <- & H)|(x & <- & H)]]]; cbn; auto. split; [auto|]. intros r Hr. exact (X x r H Hr).
  - intros H. assert (Q : forall d, In d (map OfConstant (pn_constants p)) \/ In d (map OfStructure (pn_structures p)) \/ In d (map OfEnumeration (pn_enumerations p)) \/ In d (map OfArchive (pn_archives p)) -> definition_valid (pn_name p) d).
    { intros d Hd. apply H. rewrite !in_app_iff. exact Hd. }
    split; [|split; [|split; [|split]]].
    + intros x Hx. apply (Q (OfConstant x)). left. now apply in_map.
    + intros x Hx. apply (Q (OfStructure x)). right. left. now apply in_map.
    + intros x Hx. apply (Q (OfEnumeration x)). right. right. left. now apply in_map.
    + intros x Hx. apply (Q (OfArchive x)). right. right. right. now apply in_map.
    + intros x r Hx Hr. apply (proj2 (Q (OfArchive x) ltac:(right; right; right; now apply in_map)) r Hr).
Qed.

Lemma same_declarations s s' : same_schema s s' -> declarations_valid s -> declarations_valid s'.
Proof.
  intros E (N & V). split.
  - rewrite paths_definitions in *. exact (Permutation_NoDup (Permutation_map _ (proj1 E)) N).
  - intros p Hp. split.
    + destruct (same_name s s' p E Hp) as (q & Hq & Nq). unfold ns_keys. rewrite <- Nq. exact (proj1 (V q Hq)).
    + apply namespace_valid. intros d Hd. destruct (same_in s s' p d E Hp Hd) as (q & Hq & Nq & Hd'). rewrite <- Nq. exact (proj1 (namespace_valid q) (proj2 (V q Hq)) d Hd').
Qed.

(** ** The trees *)
Lemma made_definitions so s D : made so s D -> forall K d, decl D K d <-> exists p x, In p s /\ K = ns_keys p /\ In x (definitions_of p) /\ created so x = Ok d.
Proof.
  intros M K d. split.
  - intros H. destruct (made_decl so s D K d M H) as (p & Hp & EK & Hin & _). rewrite creations_defs in Hin. apply in_map_iff in Hin as (x & Ex & Hx). exists p, x. auto.
  - intros (p & x & Hp & -> & Hx & Ex). induction M as [|q [K ds] s' D (E1 & E2 & E3) F IH]; [destruct Hp|]. destruct Hp as [->|Hp].
    + exists ds. cbn in E1. split; [left; now rewrite E1|]. cbn in E3. assert (Q : In (Ok d) (map Ok ds)) by (rewrite <- E3, creations_defs, <- Ex; now apply in_map). apply in_map_iff in Q as (z & [= <-] & Hz). exact Hz.
    + destruct (IH Hp) as (es & He & Hd). exists es. split; [now right|exact Hd].
Qed.
Lemma made_namespaces so s D : made so s D -> forall ks, ns D ks <-> exists p m, In p s /\ ns_keys p = ks ++ m.
Proof.
  intros M ks. split.
  - intros (K & ds & m & Hin & EK). destruct (made_in so s D K ds M Hin) as (p & Hp & E & _). exists p, m. split; [exact Hp|]. congruence.
  - intros (p & m & Hp & E). induction M as [|q [K ds] s' D (E1 & E2 & E3) F IH]; [destruct Hp|]. destruct Hp as [->|Hp].
    + exists K, ds, m. split; [now left|]. cbn in E1. congruence.
    + destruct (IH Hp) as (K' & ds' & m' & Hin & EK). exists K', ds', m'. split; [now right|exact EK].
Qed.
Lemma same_made so s s' D : same_schema s s' -> made so s D -> exists D', made so s' D'.
Proof.
  intros E M. assert (X : forall l, (forall p, In p l -> In p s') -> exists D', made so l D').
  { induction l as [|p l IH]; intros I; [exists []; constructor|]. destruct IH as (D' & M'); [intros x Hx; apply I; now right|]. specialize (I p (or_introl eq_refl)).
    assert (Y : forall xs, (forall x, In x xs -> In x (definitions_of p)) -> exists ds, map (created so) xs = map Ok ds).
    { induction xs as [|x xs IHx]; intros Ix; [exists []; reflexivity|]. destruct IHx as (ds & Eds); [intros y Hy; apply Ix; now right|].
      destruct (same_in s s' p x E I (Ix x (or_introl eq_refl))) as (q & Hq & _ & Hx). assert (exists d, created so x = Ok d) as (d & Ed).
      { clear - M Hq Hx. induction M as [|q' [K ds] s0 D (E1 & _ & E3) F IHM]; [destruct Hq|]. destruct Hq as [->|Hq]; [|exact (IHM Hq)]. cbn in E3.
        assert (Q : In (created so x) (map Ok ds)) by (rewrite <- E3, creations_defs; now apply in_map). apply in_map_iff in Q as (z & <- & _). eauto. }
      exists (d :: ds). cbn. now rewrite Ed, Eds. }
    destruct (Y (definitions_of p) (fun x Hx => Hx)) as (ds & Eds). exists ((ns_keys p, ds) :: D'). constructor; [|exact M'].
    split; [reflexivity|]. split; [|cbn; now rewrite creations_defs].
    destruct (same_name s s' p E I) as (q & Hq & Nq). clear - M Hq Nq. induction M as [|q' [K ds] s0 D (E1 & E2 & E3) F IHM]; [destruct Hq|]. destruct Hq as [->|Hq]; [|exact (IHM Hq)].
    unfold ns_name_ok, ns_keys in *. now rewrite <- Nq. }
  exact (X s' (fun p Hp => Hp)).
Qed.

Lemma same_built so s s' t t' : any_order so -> same_schema s s' -> separated s -> build_node_tree so s = Ok t -> build_node_tree so s' = Ok t' -> same_definitions t t'.
Proof.
  intros Hso E S H H'. pose proof (same_separated s s' E S) as S'. destruct (build_iff so s S t H) as (D & M & _ & I). destruct (build_iff so s' S' t' H') as (D' & M' & _ & I').
  apply (inv_same t t' D D'); [| |exact I|exact I'].
  - assert (X : forall s1 s2 D1 D2, same_schema s1 s2 -> made so s1 D1 -> made so s2 D2 -> forall K d, decl D2 K d -> decl D1 K d).
    { intros s1 s2 D1 D2 E0 M1 M2 K d Q. apply (made_definitions so s2 D2 M2) in Q as (p & x & Hp & -> & Hx & Ex). destruct (same_in s1 s2 p x E0 Hp Hx) as (q & Hq & Nq & Hx').
      apply (made_definitions so s1 D1 M1). exists q, x. split; [exact Hq|]. split; [unfold ns_keys; now rewrite Nq|auto]. }
    intros K d. split; [exact (X s' s D' D (same_sym_schema _ _ E) M' M K d)|exact (X s s' D D' E M M' K d)].
  - assert (X : forall s1 s2 D1 D2, same_schema s1 s2 -> made so s1 D1 -> made so s2 D2 -> forall ks, ns D2 ks -> ns D1 ks).
    { intros s1 s2 D1 D2 E0 M1 M2 ks Q. apply (made_namespaces so s2 D2 M2) in Q as (p & m & Hp & Ek). destruct (same_name s1 s2 p E0 Hp) as (q & Hq & Nq).
      apply (made_namespaces so s1 D1 M1). exists q, m. split; [exact Hq|]. unfold ns_keys in *. now rewrite Nq. }
    intros ks. split; [exact (X s' s D' D (same_sym_schema _ _ E) M' M ks)|exact (X s s' D D' E M M' ks)].
Qed.
Lemma same_declared so s s' t t' : any_order so -> same_schema s s' -> identifiers s -> identifiers s' -> separated s -> no_builtin s ->
  declared_tree so s = Ok t -> declared_tree so s' = Ok t' -> rooted t /\ rooted t' /\ alike t t'.
Proof.
  intros Hso E I I' S N H H'. pose proof (same_separated s s' E S) as S'. pose proof (same_no_builtin s s' E N) as N'.
  destruct (declared_facts so _ t Hso I S N H) as (G & _). destruct (declared_facts so _ t' Hso I' S' N' H') as (G' & _). split; [exact G|]. split; [exact G'|].
  unfold declared_tree in H, H'. apply bind_ok in H as (r & H1 & H2). apply bind_ok in H' as (r' & H1' & H2').
  pose proof (well_named_clean _ (identifiers_named _ I)) as C. pose proof (well_named_clean _ (identifiers_named _ I')) as C'.
  apply (append_builtins_alike r r' t t' H2 H2'); [exact (build_node_tree_good so _ r Hso C H1)|exact (shaped_any _ _ (build_node_tree_shaped false so _ r Hso C H1))|exact (build_tidy so _ r Hso S N H1)
    |exact (build_node_tree_good so _ r' Hso C' H1')|exact (shaped_any _ _ (build_node_tree_shaped false so _ r' Hso C' H1'))|exact (build_tidy so _ r' Hso S' N' H1')|exact (same_alike _ _ (same_built so s s' r r' Hso E S H1 H1'))].
Qed.

(** ** C102 *)
(** What remains to be checked is the same *)
Theorem C102_declarations : forall s s', same_schema s s' -> (declarations_valid s <-> declarations_valid s').
Proof. intros s s' E. split; [exact (same_declarations s s' E)|exact (same_declarations s' s (same_sym_schema _ _ E))]. Qed.
Print Assumptions C102_declarations.

(** Both are accepted or both are refused *)
Theorem C102_accepts : forall so s s', any_order so -> same_schema s s' -> identifiers s -> identifiers s' -> separated s -> no_builtin s ->
  ((exists t, build_ast so s = Ok t) <-> (exists t, build_ast so s' = Ok t)).
Proof.
  assert (X : forall so s s', any_order so -> same_schema s s' -> identifiers s -> identifiers s' -> separated s -> no_builtin s -> (exists t, build_ast so s = Ok t) -> (exists t, build_ast so s' = Ok t)).
  { intros so s s' Hso E I I' S N H. pose proof (same_separated s s' E S) as S'. pose proof (same_no_builtin s s' E N) as N'.
    apply (C70_accepts so s' Hso I' S' N'). apply (C70_accepts so s Hso I S N) in H as (D & V). split; [exact (same_declarations s s' E D)|]. intros t Ht.
    destruct (proj2 (C70_declarations so s Hso I S N) D) as (r & Hr). destruct (same_declared so s s' r t Hso E I I' S N Hr Ht) as (Gr & Gt & A). exact (names_valid_alike r t Gr Gt A (V r Hr)). }
  intros so s s' Hso E I I' S N. split; [exact (X so s s' Hso E I I' S N)|].
  exact (X so s' s Hso (same_sym_schema _ _ E) I' I (same_separated _ _ E S) (same_no_builtin _ _ E N)).
Qed.
Print Assumptions C102_accepts.

(** Both define the same: every definition is in both trees, at the same path, with the same contents (nothing else is defined, C69) *)
Lemma contains_all so s t : any_order so -> identifiers s -> separated s -> no_builtin s -> build_ast so s = Ok t -> forall n d, In (n, d) (definitions s) -> contains t n d.
Proof.
  intros Hso I S N H n d Hd. apply in_definitions in Hd as (p & Hp & <- & Hd). unfold definitions_of in Hd. rewrite !in_app_iff, !in_map_iff in Hd.
  destruct Hd as [(x & <- & Hx)|[(x & <- & Hx)|[(x & <- & Hx)|(x & <- & Hx)]]].
  - destruct (C69_constants so s t p x Hso I S N H Hp Hx) as (l & Q). exists l. exact Q.
  - destruct (C69_structures so s t p x Hso I S N H Hp Hx) as (l & Q). exists l. exact Q.
  - destruct (C69_enumerations so s t p x Hso I S N H Hp Hx) as (l & Q). exists l. exact Q.
  - destruct (C69_archives so s t p x Hso I S N H Hp Hx) as (l & Q). exists l. exact Q.
Qed.
Theorem C102_contents : forall so s s' t t', any_order so -> same_schema s s' -> identifiers s -> identifiers s' -> separated s -> no_builtin s ->
  build_ast so s = Ok t -> build_ast so s' = Ok t' -> forall n d, In (n, d) (definitions s) \/ In (n, d) (definitions s') -> contains t n d /\ contains t' n d.
Proof.
  intros so s s' t t' Hso E I I' S N H H' n d Hd. assert (D : In (n, d) (definitions s) /\ In (n, d) (definitions s')).
  { destruct Hd as [Hd|Hd]; split; try exact Hd; [exact (Permutation_in _ (proj1 E) Hd)|exact (Permutation_in _ (Permutation_sym (proj1 E)) Hd)]. }
  split; [exact (contains_all so s t Hso I S N H n d (proj1 D))|exact (contains_all so s' t' Hso I' (same_separated _ _ E S) (same_no_builtin _ _ E N) H' n d (proj2 D))].
Qed.
Print Assumptions C102_contents.

(** ** Instances *)
Definition n_shuffled : pschema := [n_other; PNamespace "n" [] (pn_structures n_second ++ pn_structures n_first) [] [];
  PNamespace "n" (pn_constants n_first) [] (pn_enumerations n_second) (pn_archives n_second ++ pn_archives n_first)].
Example C102_instance : same_schema n_spread n_shuffled /\ identifiers n_spread /\ identifiers n_shuffled /\ separated n_spread /\ no_builtin n_spread
  /\ (exists t, build_ast same_order n_spread = Ok t) /\ (exists t, build_ast same_order n_shuffled = Ok t) /\ build_ast same_order n_spread <> build_ast same_order n_shuffled.
Proof.
  split.
  { split.
    - unfold definitions, n_spread, n_shuffled, n_first, n_other, n_second. cbn.
      apply NoDup_Permutation.
      + repeat (constructor; [cbn; intuition discriminate|]). constructor.
      + repeat (constructor; [cbn; intuition discriminate|]). constructor.
      + intros x. cbn. tauto.
    - intros n. cbn. tauto. }
  split; [exact n_identifiers|]. split.
  { intros p n Hp Hn. repeat (destruct Hp as [<-|Hp]; [vm_compute in Hn; repeat (destruct Hn as [<-|Hn]; [reflexivity|]); destruct Hn|]). destruct Hp. }
  split; [exact n_separated|]. split; [exact n_no_builtin|]. split; [eexists; vm_compute; reflexivity|]. split; [eexists; vm_compute; reflexivity|]. vm_compute. discriminate.
Qed.
(** Dropping a definition is noticed: the schemas are not the same, and here the other one is refused *)
Example C102_dropped : ~ same_schema n_spread [n_first; n_other] /\ exists e, build_ast same_order [n_first; n_other] = Err e.
Proof.
  split; [|eexists; vm_compute; reflexivity]. intros (P & _). apply Permutation_length in P. vm_compute in P. discriminate.
Qed.
