(** C64 and C65 for archives with sub-archives: generated classes, and readers of other schema versions. *)
From Coq Require Import List ZArith Bool String Ascii Lia Permutation.
From Verif Require Import PyBase Spec PyText DataAccess Structure StructSpec Resources ResourceSpec Builder Archive ArchiveSpec OpenSpec HistorySpec
  BuilderFacts ArchiveFacts HistoryFacts CrashFacts EndToEnd GenTypes GenTree GenTreeFacts GenTraversal GraphSpec GenBuild GenAstSpec GenBuildFacts GenPassFacts GenAstFacts
  GenLayoutFacts GenShapeFacts GenAstThms GenEvery GenFlatdata GenPython GenOutSpec GenOutFacts GenFinal GenModule GenClassNames GenWords UsableSpec GenUsable Props_Archive Props_GenTree Props_GenOutput
  GenTidy GenRender GenMentions GenDecode GenSame Props_Embed SameSpec EvolveFacts Props_Same NestedSpec Props_Nested.
Import ListNotations.
Local Open Scope string_scope.
Local Open Scope Z_scope.

(** ** C64 *)
(** The resources of a generated archive that are sub-archives are generated archives. *)
Lemma sub_is root l a n a' schema opt : archive_is root l a -> In (n, RSig (CArchive a') schema opt) (a_resources a) -> exists d, archive_is root d a'.
Proof.
  intros A Hi. destruct A as [l t s rs Ht Kt Es Rs]. destruct Hi as [E|Hi]; [discriminate|].
  destruct (resources_in root l t Ht O _ rs Rs eq_refl n _ Hi) as (j & r & rk & o & m & s1 & _ & _ & _ & _ & _ & Ci & _).
  cbn [r_container] in Ci. inversion Ci; subst. eauto.
Qed.
Lemma fillable_fits root : finished root -> every word_node root -> (forall l t, at_loc root l = Some t -> t_kind t = KArchive -> is_builtin root l = false) ->
  usable_layouts root -> few_types root -> distinct_classes root -> no_index_clash root ->
  forall c l a, archive_is root l a -> fillable a c -> fits a c.
Proof.
  intros F Ww Out U Ft Dc Ni c. induction c as [before sets subs IH] using contents_induction. intros l a Ai Hf. inversion Hf as [? ? ? ? Cl Nd Ns St Sub Rq]; subst.
  constructor; try assumption.
  - exact (archive_generated root F Ni l a Ai).
  - exact (archive_sizes root F U l a Ai).
  - exact (archive_schemas root F Ww Out l a Ai).
  - intros n v Hi. destruct (St n v Hi) as (Na & sig & Hs & V). split; [exact Na|]. exists sig. split; [exact Hs|]. exact (archive_storable root F U Ft Dc l a n sig v Ai Na Hs V).
  - intros n c Hi. destruct (Sub n c Hi) as (a' & sch & opt & Hr & Hf'). exists a', sch, opt. split; [exact Hr|].
    destruct (sub_is root l a n a' sch opt Ai Hr) as (d & Ad). exact (IH n c Hi d a' Ad Hf').
Qed.

(** C64 with sub-archives to any depth: the generated builder classes write any storable data such that the generated archive
    class opens the directories and shows exactly this data.
    Partial: under the conditions of [C64_usable_partial] on the schema. *)
Theorem C64_nested_partial : forall so ko s root, any_order so -> same_members ko -> identifiers s -> separated s -> no_builtin s -> build_ast so s = Ok root ->
  plain_namespaces s -> distinct_classes root -> plain_resources root -> usable_layouts root -> few_types root -> no_index_clash root ->
  exists g, generate_python ko root = Ok g /\ forall l t, at_loc root l = Some t -> t_kind t = KArchive ->
    exists a, dict_get g (py_class root l) = Some (ClsArchive a) /\ dict_get g (py_class root l ++ "Builder") = Some (ClsBuilder a) /\ archive_is root l a
      /\ forall c, fillable a c -> exists rs, open_archive a (StDir (directory a c)) = Ok rs /\ shows a c rs.
Proof.
  intros so ko s root Hso Hko Id Sp Nb H Pn Dc Pr U Ft Ni. pose proof (identifiers_named s Id) as W. pose proof (well_named_clean s W) as C.
  pose proof (build_ast_finished so s root Hso C Sp Nb H) as F. pose proof (final_words so s root Hso C (identifiers_words s Id) H) as Ww. pose proof (archive_outside so s root Hso W Sp Nb H) as Out.
  destruct (C63_module_partial so ko s root Hso Hko W Sp Nb H Pn Dc Pr) as (g & Eg & _ & Da & _). exists g. split; [exact Eg|]. intros l t Hl K. destruct (Da l t Hl K) as (a & E1 & E2 & Ai). exists a. split; [exact E1|]. split; [exact E2|]. split; [exact Ai|].
  intros c Hf. apply nested_opens. exact (fillable_fits root F Ww Out U Ft Dc Ni c l a Ai Hf).
Qed.
Print Assumptions C64_nested_partial.

(** The archive [Br] of the example, with the archive [Ar] as its sub-archive [v] *)
Definition example_outer : adef := match generate_python sorted_keys example_tree with Ok g => match dict_get g "n_b_Br" with Some (ClsArchive a) => a | _ => ADef "" [] [] end | Err _ => ADef "" [] [] end.
Definition example_contents : contents := Contents [] [] [("v", Contents [] example_sets [])].
Theorem C64_nested_instance : fillable example_outer example_contents
  /\ (exists g, generate_python sorted_keys example_tree = Ok g /\ dict_get g (py_class example_tree [0;1;1]%nat) = Some (ClsArchive example_outer))
  /\ exists n sch opt, In (n, RSig (CArchive example_archive) sch opt) (a_resources example_outer).
Proof.
  destruct C64_instance as (_ & _ & _ & _ & _ & _ & _ & _ & _ & _ & _ & _ & _ & _ & I11 & I12 & I13 & I14).
  assert (Er : a_resources example_outer = ltac:(let x := eval vm_compute in (a_resources example_outer) in exact x)) by (vm_compute; reflexivity).
  assert (Ea : example_archive = ltac:(let x := eval vm_compute in example_archive in exact x)) by (vm_compute; reflexivity).
  assert (Ef : archive_file example_outer = "Br.archive") by (vm_compute; reflexivity).
  assert (Hs : exists sch opt, In ("v", RSig (CArchive example_archive) sch opt) (a_resources example_outer)).
  { do 2 eexists. rewrite Er, Ea. right. left. reflexivity. }
  split; [|split].
  - constructor.
    + intros n sig f _ _. reflexivity.
    + constructor.
    + repeat constructor. intros [].
    + intros n v [].
    + intros n c [E|[]]. injection E as <- <-. destruct Hs as (sch & opt & Hs). exists example_archive, sch, opt. split; [exact Hs|]. constructor; [exact I11|exact I12|constructor|exact I13|intros n c []|].
      intros n sig Hr Hne Ho. left. exact (I14 n sig Hr Hne Ho).
    + intros n sig Hr Hne Ho. right. assert (Nm : map fst (a_resources example_outer) = ["Br.archive"; "v"]) by (vm_compute; reflexivity).
      apply (in_map fst) in Hr. rewrite Nm in Hr. cbn [fst] in Hr. destruct Hr as [<-|[<-|[]]]; [congruence|now left].
  - destruct (generate_python sorted_keys example_tree) as [g|e] eqn:E; [|exfalso; vm_compute in E; discriminate]. exists g. split; [reflexivity|]. unfold example_outer. rewrite E. vm_compute in E. injection E as <-. vm_compute. reflexivity.
  - exists "v". exact Hs.
Qed.

(** ** C65 *)
Lemma same_fst rs1 rs2 : same_resources rs1 rs2 -> map fst rs1 = map fst rs2.
Proof. induction 1 as [|n c c' s s' o rs rs' C R IH]; [reflexivity|]. cbn [map fst]. now rewrite IH. Qed.
Lemma same_names a1 a2 : same_archive a1 a2 -> a_name a1 = a_name a2 /\ same_resources (a_resources a1) (a_resources a2).
Proof. destruct 1 as [n s s' rs rs' R]. now split. Qed.

Section Dir.
  Variables (a : adef) (before : fs) (sets : list (string * setval)) (subs : list (string * contents)).
  Hypothesis Hf : fits a (Contents before sets subs).
  Let D := files_after before (build a (sets_of sets)).
  Let E := directory a (Contents before sets subs).

  Lemma dir_parts : generated a /\ sizes_ok a /\ schemas_ok a /\ HistorySpec.clean a before /\ NoDup (map fst sets) /\ NoDup (map fst subs)
    /\ (forall n v, In (n, v) sets -> n <> archive_file a /\ exists sig, In (n, sig) (a_resources a) /\ acceptable sig v)
    /\ (forall n c, In (n, c) subs -> exists a' schema opt, In (n, RSig (CArchive a') schema opt) (a_resources a) /\ fits a' c)
    /\ (forall n sig, In (n, sig) (a_resources a) -> n <> archive_file a -> r_optional sig = false -> In n (map fst sets) \/ In n (map fst subs)).
  Proof. inversion Hf; subst. repeat (split; [assumption|]). assumption. Qed.

  Lemma dir_valid : Forall (valid_call a) sets.
  Proof.
    destruct dir_parts as (G & Z & S & _ & _ & _ & Acc & _). apply Forall_forall. intros [n v] Hin. destruct (Acc n v Hin) as (Hne & sig & Hs & Ha). eapply acceptable_valid; eassumption.
  Qed.
  Lemma dir_files f : dict_get D f = match dict_get (expected_files a sets) f with
     | Some c => Some c
     | None => if String.eqb (schema_file (archive_file a)) f then Some (a_schema a)
               else if String.eqb (archive_file a) f then Some (zeros 16) else dict_get before f
     end.
  Proof. destruct dir_parts as (G & Z & S & _ & Nd & _). apply (build_files a sets G Z Nd dir_valid). Qed.
  Lemma dir_entry k : dict_get E k = match dict_get D k with Some b => Some (NFile b) | None => dict_get (subdirs a subs) k end.
  Proof. unfold E. rewrite directory_eq. fold D. rewrite dict_get_app, files_get. now destruct (dict_get D k). Qed.
  Lemma dir_sub_names n sig k : In (n, sig) (a_resources a) -> OpenSpec.is_archive (r_container sig) = false -> In k (files_of n sig) -> dict_get (subdirs a subs) k = None.
  Proof.
    destruct dir_parts as (G & _ & _ & _ & _ & _ & _ & Hsub & _). intros Hr Hl Hk. apply subdirs_none. intros Hi. apply in_map_iff in Hi. destruct Hi as ([m c] & Em & Hi). cbn in Em. subst m.
    destruct (Hsub k c Hi) as (a' & sch & opt & Hr' & _).
    pose proof (distinct_neq a n sig k _ k (proj2 G) Hr Hr' Hk (proj1 (files_of_self _ _))) as Eq. injection Eq as <- ->. discriminate Hl.
  Qed.
  (** resources that are no archives see only the files *)
  Lemma dir_leaf n sig sig' : OpenSpec.is_archive (r_container sig') = false -> (forall k, In k (files_of n sig') -> dict_get (subdirs a subs) k = None) -> sig = sig' ->
    open_resource n sig (StDir E) = open_resource n sig (storage_of_fs D).
  Proof.
    intros Hl Hk ->. apply leaf_agree; [assumption|]. intros k Hi.
    assert (Hkf : In k (files_of n sig')).
    { unfold files_of. unfold read_files, data_files in Hi. destruct (r_container sig'); cbn in Hi |- *; tauto. }
    rewrite storage_lookup. cbn [st_lookup]. unfold dir_get. rewrite dir_entry, (Hk k Hkf).
    unfold same_leaf. destruct (dict_get D k) as [[|b t]|]; destruct (r_optional sig'); reflexivity.
  Qed.
  Lemma dir_unset n sig : In (n, sig) (a_resources a) -> ~ In n (map fst sets) -> forall f, In f (files_of n sig) -> dict_get (expected_files a sets) f = None.
  Proof.
    destruct dir_parts as (G & _). intros Hr Hni f Hff. destruct (dict_get (expected_files a sets) f) as [c|] eqn:Ex; [|reflexivity]. exfalso.
    apply expected_inv in Ex. destruct Ex as (n' & v' & sig' & p' & ix' & Hin' & Ha' & Hp' & Hc').
    pose proof (distinct_neq a n sig n' sig' f (proj2 G) Hr (dict_get_in _ _ _ Ha') Hff (set_get_file a n' v' sig' p' ix' f c Ha' Hp' Hc')) as Eq.
    inversion Eq; subst. apply Hni. now apply (in_map fst) in Hin'.
  Qed.
  Lemma dir_nothing n sig f : In (n, sig) (a_resources a) -> n <> archive_file a -> ~ In n (map fst sets) -> In f (files_of n sig) -> dict_get D f = None.
  Proof.
    destruct dir_parts as (G & _ & _ & Hcl & _). intros Hr Hne Hni Hff. rewrite dir_files, (dir_unset n sig Hr Hni f Hff).
    assert (X : forall g, In g (files_of (archive_file a) (RSig CRawData (a_schema a) false)) -> String.eqb g f = false).
    { intros g Hgf. apply String.eqb_neq. intros <-. pose proof (distinct_neq a _ _ _ _ g (proj2 G) (proj1 G) Hr Hgf Hff) as Eq. injection Eq as Eq _. congruence. }
    rewrite (X _ (proj2 (files_of_self _ _))), (X _ (proj1 (files_of_self _ _))). exact (Hcl n sig f Hr Hff).
  Qed.
  Lemma sets_not_archive : ~ In (archive_file a) (map fst sets).
  Proof. destruct dir_parts as (_ & _ & _ & _ & _ & _ & Acc & _). intros Hi. apply in_map_iff in Hi as ((n, v) & En & Hi). cbn in En. destruct (Acc n v Hi) as (X & _). congruence. Qed.
End Dir.

(** Reading with a type that has the same layouts at every depth *)
Lemma nested_evolve : forall c a1 a2 rs, fits a1 c -> same_archive a1 a2 -> open_archive a2 (StDir (directory a1 c)) = Ok rs -> shows a2 c rs.
Proof.
  intros c. induction c as [before sets subs IH] using contents_induction. intros a1 a2 rs Hf Sa Op.
  destruct (dir_parts a1 before sets subs Hf) as (G & Zs & S1 & C0 & Nd & Ns & Acc & Hsub & Hall). destruct (same_names a1 a2 Sa) as (En & Sr).
  assert (D2 : NoDup (map fst (a_resources a2))) by (rewrite <- (same_fst _ _ Sr); exact (distinct_names a1 (proj2 G))).
  set (D := files_after before (build a1 (sets_of sets))) in *. set (E := directory a1 (Contents before sets subs)) in *.
  assert (Files : forall f, dict_get D f = _) by (exact (dir_files a1 before sets subs Hf)).
  assert (Leaf : forall n c1 s1 o c2 s2, In (n, RSig c1 s1 o) (a_resources a1) -> same_container c1 c2 -> OpenSpec.is_archive c2 = false ->
            open_resource n (RSig c2 s2 o) (StDir E) = open_resource n (RSig c2 s2 o) (storage_of_fs D)).
  { intros n c1 s1 o c2 s2 H1 Sc Na. apply (dir_leaf a1 before sets subs n _ (RSig c2 s2 o)); [exact Na| |reflexivity]. intros k Hk.
    rewrite <- (files_same n c1 c2 s1 s2 o o Sc) in Hk. apply (dir_sub_names a1 before sets subs Hf n (RSig c1 s1 o) k H1); [|exact Hk]. cbn [r_container]. now rewrite (archive_same_kind _ _ Sc). }
  assert (Pair : forall n c2 s2 o, In (n, RSig c2 s2 o) (a_resources a2) -> exists c1 s1, In (n, RSig c1 s1 o) (a_resources a1) /\ same_container c1 c2).
  { exact (same_find _ _ Sr). }
  assert (Absent : forall n c1 s1 o, In (n, RSig c1 s1 o) (a_resources a1) -> n <> archive_file a1 -> ~ In n (map fst sets) -> ~ In n (map fst subs) ->
            absent (StDir E) (if OpenSpec.is_archive c1 then n else schema_file n)).
  { intros n c1 s1 o H1 Ne Hni Hnu. unfold absent. cbn [st_lookup]. unfold dir_get.
    destruct (OpenSpec.is_archive c1) eqn:Ec.
    - unfold E. rewrite (dir_entry a1 before sets subs n), (dir_nothing a1 before sets subs Hf n _ n H1 Ne Hni (proj1 (files_of_self _ _))), (subdirs_none a1 subs n Hnu). reflexivity.
    - unfold E. rewrite (dir_entry a1 before sets subs (schema_file n)), (dir_nothing a1 before sets subs Hf n _ (schema_file n) H1 Ne Hni (proj2 (files_of_self _ _))).
      rewrite (dir_sub_names a1 before sets subs Hf n _ (schema_file n) H1 Ec (proj2 (files_of_self _ _))). reflexivity. }
  constructor.
  - intros n v [c2 s2 o2] Hin Hr. destruct (Pair _ _ _ _ Hr) as (c1 & s1 & H1 & Sc). destruct (Acc n v Hin) as (Ne & sig & Hs & Ha).
    assert (sig = RSig c1 s1 o2) by (pose proof (res_get a1 n sig (proj2 G) Hs); pose proof (res_get a1 n _ (proj2 G) H1); congruence). subst sig. destruct (S1 _ _ H1) as (Sn & Su). cbn [r_schema] in Sn, Su.
    assert (Na : OpenSpec.is_archive c2 = false) by (rewrite <- (archive_same_kind _ _ Sc); exact (acceptable_leaf _ _ Ha)).
    destruct (stored_holds n (RSig c1 s1 o2) v Ha Sn Su) as (p & ix & _ & (V1 & V2 & V3 & V4) & _ & _).
    assert (File : forall f c, dict_get (set_files n (RSig c1 s1 o2) p ix) f = Some c -> dict_get D f = Some c).
    { intros f c Hc. rewrite Files, (expected_get a1 sets n v (RSig c1 s1 o2) p ix f c (proj2 G) Nd Hin (res_get _ _ _ (proj2 G) H1) V2 Hc). reflexivity. }
    destruct (open_archive_get a2 _ rs n _ D2 Op Hr) as (o & Hg & Ho). exists o. unfold archive_getattr. rewrite Hg. split; [reflexivity|].
    rewrite (Leaf n c1 s1 o2 c2 s2 H1 Sc Na) in Ho.
    assert (s1 = s2). { apply (leaf_schema n c2 s2 o2 _ o s1 Na Ho); [|exact Sn]. unfold file_is. rewrite storage_lookup, (File (schema_file n) s1); [destruct s1; [congruence|reflexivity]|]. unfold set_files. cbn [dict_get]. now rewrite String.eqb_refl. } subst s2.
    destruct (stored_holds n (RSig c2 s1 o2) v (acceptable_same c1 c2 s1 s1 o2 o2 v Sc Ha) Sn Su) as (p' & ix' & o' & (W1 & W2 & W3 & W4) & Ho' & Hh).
    rewrite <- (payload_same c1 c2 s1 s1 o2 o2 v Sc), V2 in W2. injection W2 as <- <-. enough (Ok o = Ok o') as Eo by (injection Eo as ->; exact Hh). rewrite <- Ho, <- Ho'. apply open_local; [exact Na|]. intros f Hff. rewrite <- (files_same n c1 c2 s1 s1 o2 o2 Sc) in Hff.
    destruct (file_set_get n v _ p ix f V2 Hff) as (c & Hc). rewrite (File f c Hc). symmetry. exact Hc.
  - intros n c a2' sch opt Hin Hr. destruct (Pair _ _ _ _ Hr) as (c1 & s1 & H1 & Sc). inversion Sc as [| | | |a1' ? Sa']; subst.
    destruct (Hsub n c Hin) as (a3 & sch3 & opt3 & Hr3 & Hf3). pose proof (res_get a1 _ _ (proj2 G) H1) as E1. pose proof (res_get a1 _ _ (proj2 G) Hr3) as E3. rewrite E1 in E3. injection E3 as <- <- <-.
    assert (Hni : ~ In n (map fst sets)).
    { intros Hi. apply in_map_iff in Hi. destruct Hi as ([m v] & Em & Hi). cbn in Em. subst m. destruct (Acc n v Hi) as (_ & sig & Hs & Ha).
      assert (sig = RSig (CArchive a1') s1 opt) by (pose proof (res_get a1 n sig (proj2 G) Hs); congruence). subst sig. pose proof (acceptable_leaf _ _ Ha) as X. discriminate X. }
    assert (Hne : n <> archive_file a1) by (intros ->; pose proof (res_get a1 _ _ (proj2 G) (proj1 G)) as X; rewrite E1 in X; discriminate X).
    destruct (open_archive_get a2 _ rs n _ D2 Op Hr) as (o & Hg & Ho). unfold archive_getattr. rewrite Hg.
    cbn [open_resource open_any st_lookup] in Ho. unfold dir_get, E in Ho.
    rewrite (dir_entry a1 before sets subs n), (dir_nothing a1 before sets subs Hf n _ n H1 Hne Hni (proj1 (files_of_self _ _))), (subdirs_get a1 subs n c a1' s1 opt Ns Hin E1) in Ho.
    cbn [bind] in Ho. destruct (open_archive a2' (StDir (directory a1' c))) as [rs'|e] eqn:Eo; [|discriminate Ho]. exists rs'. pose proof (IH n c Hin a1' a2' rs' Hf3 Sa' Eo) as Hsh. split; [|exact Hsh].
    cbn [bind] in Ho. unfold keep_truthy in Ho. cbn [truthy bind] in Ho. destruct rs' as [|x l].
    + exfalso. destruct c as [b3 se3 su3]. destruct (dir_parts a1' b3 se3 su3 Hf3) as (G3 & _). destruct (same_names a1' a2' Sa') as (En' & Sr').
      assert (D3 : NoDup (map fst (a_resources a2'))) by (rewrite <- (same_fst _ _ Sr'); exact (distinct_names a1' (proj2 G3))).
      assert (Hi : In (archive_file a1') (map fst (a_resources a2'))) by (rewrite <- (same_fst _ _ Sr'); exact (in_map fst _ _ (proj1 G3))).
      apply in_map_iff in Hi as ((m, sg) & Em & Hi). destruct (open_archive_get a2' _ [] _ _ D3 Eo Hi) as (o3 & X & _). discriminate X.
    + replace (zlen (x :: l) =? 0) with false in Ho by (symmetry; apply Z.eqb_neq; unfold zlen; cbn [List.length]; lia). cbn [negb] in Ho. now injection Ho as <-.
  - intros n [c2 s2 o2] Hr Hni Hnu. destruct (Pair _ _ _ _ Hr) as (c1 & s1 & H1 & Sc). destruct (open_archive_get a2 _ rs n _ D2 Op Hr) as (o & Hg & Ho). unfold archive_getattr. rewrite Hg. f_equal.
    destruct (string_dec n (archive_file a1)) as [->|Ne].
    + pose proof (res_get a1 _ _ (proj2 G) (proj1 G)) as X. rewrite (res_get a1 _ _ (proj2 G) H1) in X. injection X as -> -> ->. inversion Sc; subst.
      destruct (S1 _ _ (proj1 G)) as (Sn & Su). cbn [r_schema] in Sn, Su. rewrite (Leaf _ _ _ _ _ s2 (proj1 G) same_raw eq_refl) in Ho.
      assert (P1 : dict_get D (schema_file (archive_file a1)) = Some (a_schema a1)) by (rewrite Files, (dir_unset a1 before sets subs Hf _ _ (proj1 G) Hni) by (apply files_of_self); now rewrite String.eqb_refl).
      assert (P2 : dict_get D (archive_file a1) = Some (zeros 16)) by (rewrite Files, (dir_unset a1 before sets subs Hf _ _ (proj1 G) Hni) by (apply files_of_self); rewrite schema_neq; now rewrite String.eqb_refl).
      assert (a_schema a1 = s2). { apply (leaf_schema (archive_file a1) CRawData s2 false _ o (a_schema a1) eq_refl Ho); [|exact Sn]. unfold file_is. rewrite storage_lookup, P1. destruct (a_schema a1); [congruence|reflexivity]. } subst s2.
      rewrite (archive_resource_opens a1 D Sn Su P1 P2) in Ho. congruence.
    + pose proof (Absent n c1 s1 o2 H1 Ne Hni Hnu) as Ab. rewrite (archive_same_kind _ _ Sc) in Ab. destruct o2.
      * rewrite (optional_absent n c2 s2 _ Ab) in Ho. congruence.
      * exfalso. destruct (Hall n _ H1 Ne eq_refl); contradiction.
Qed.

(** The signature tells which archive a directory belongs to. *)
Lemma dir_signature a1 a2 before sets subs o : fits a1 (Contents before sets subs) ->
  (forall n sig, In (n, sig) (a_resources a1) -> In (archive_file a2) (files_of n sig) -> archive_file a2 = archive_file a1) ->
  (forall k, In k (map fst subs) -> k <> archive_file a2 /\ k <> schema_file (archive_file a2)) ->
  dict_get before (archive_file a2) = None ->
  open_resource (archive_file a2) (RSig CRawData (a_schema a2) false) (StDir (directory a1 (Contents before sets subs))) = Ok o ->
  a_schema a1 = a_schema a2.
Proof.
  intros Hf Own Hsn E0 Ho. destruct (dir_parts a1 before sets subs Hf) as (G & Zs & S1 & C0 & Nd & Ns & Acc & _).
  rewrite (dir_leaf a1 before sets subs (archive_file a2) _ (RSig CRawData (a_schema a2) false)) in Ho; [|reflexivity| |reflexivity].
  2:{ intros k Hk. apply subdirs_none. intros Hi. destruct (Hsn k Hi) as (X & Y). unfold files_of in Hk. cbn [r_container] in Hk. destruct Hk as [Hk|[Hk|[]]]; congruence. }
  set (D := files_after before (build a1 (sets_of sets))) in *.
  assert (Files : forall f, dict_get D f = _) by (exact (dir_files a1 before sets subs Hf)).
  pose proof (leaf_required _ CRawData _ _ _ eq_refl Ho) as P. cbn in P. inversion P as [|? ? P1 P']; subst. inversion P' as [|? ? P2 _]; subst. clear P P'.
  assert (Ef : archive_file a2 = archive_file a1).
  { destruct P2 as (g & Hg). rewrite storage_lookup, Files in Hg. destruct (dict_get (expected_files a1 sets) (archive_file a2)) as [c|] eqn:E.
    - apply expected_inv in E as (n & v & sig & p & ix & Hin & Ha & Hp & Hc). exact (Own n sig (dict_get_in _ _ _ Ha) (set_get_file a1 n v sig p ix _ _ Ha Hp Hc)).
    - destruct (String.eqb (schema_file (archive_file a1)) (archive_file a2)) eqn:X.
      + apply String.eqb_eq in X. apply (Own _ _ (proj1 G)). right. left. exact X.
      + destruct (String.eqb (archive_file a1) (archive_file a2)) eqn:X'; [now apply String.eqb_eq in X'|]. rewrite E0 in Hg. discriminate. }
  destruct (S1 _ _ (proj1 G)) as (Sn & Su). cbn [r_schema] in Sn, Su. apply (leaf_schema (archive_file a2) CRawData (a_schema a2) false _ o (a_schema a1) eq_refl Ho); [|exact Sn].
  unfold file_is. rewrite storage_lookup, Files, Ef. rewrite (dir_unset a1 before sets subs Hf _ _ (proj1 G) (sets_not_archive a1 before sets subs Hf) _ (proj2 (files_of_self _ _))).
  rewrite String.eqb_refl. destruct (a_schema a1); [congruence|reflexivity].
Qed.

(** C65 with sub-archives to any depth: directories written with the classes of one schema and opened with an archive class of
    another schema are either refused, or the types are the same at every depth and the data is shown as it was written.
    Partial: under the conditions of [C65_evolution_partial] on the schemas, and for data with all required resources. *)
Theorem C65_nested_partial : forall so1 s1 root1 so2 s2 root2 l1 a1 l2 a2,
  any_order so1 -> identifiers s1 -> separated s1 -> no_builtin s1 -> build_ast so1 s1 = Ok root1 -> builtins_unused root1 ->
  distinct_classes root1 -> usable_layouts root1 -> few_types root1 -> no_index_clash root1 ->
  any_order so2 -> identifiers s2 -> separated s2 -> no_builtin s2 -> build_ast so2 s2 = Ok root2 -> builtins_unused root2 ->
  archive_is root1 l1 a1 -> archive_is root2 l2 a2 ->
  forall before sets subs, fillable a1 (Contents before sets subs) -> dict_get before (archive_file a2) = None ->
  forall rs, open_archive a2 (StDir (directory a1 (Contents before sets subs))) = Ok rs ->
  same_archive a1 a2 /\ shows a2 (Contents before sets subs) rs.
Proof.
  intros so1 s1 root1 so2 s2 root2 l1 a1 l2 a2 O1 I1 Sp1 N1 B1 U1 Dc Us Ft Ni O2 I2 Sp2 N2 B2 U2 A1 A2 before sets subs Fi E0 rs Op.
  pose proof (identifiers_finished so1 s1 root1 O1 I1 Sp1 N1 B1) as F1. pose proof (identifiers_finished so2 s2 root2 O2 I2 Sp2 N2 B2) as F2.
  pose proof (final_words so1 s1 root1 O1 (well_named_clean s1 (identifiers_named s1 I1)) (identifiers_words s1 I1) B1) as W1. pose proof (archive_outside so1 s1 root1 O1 (identifiers_named s1 I1) Sp1 N1 B1) as X1.
  destruct (C62_layouts_partial so1 s1 root1 so2 s2 root2 l1 a1 l2 a2 O1 I1 Sp1 N1 B1 U1 O2 I2 Sp2 N2 B2 U2 A1 A2) as (Lay & _).
  pose proof (fillable_fits root1 F1 W1 X1 Us Ft Dc Ni _ l1 a1 A1 Fi) as Hf.
  assert (Dots : forall root l a, finished root -> archive_is root l a -> exists t rest, a_name a = t /\ has_char "." t = false /\ a_resources a = (archive_file a, RSig CRawData (a_schema a) false) :: rest
    /\ NoDup (map fst rest) /\ forall n sig, In (n, sig) rest -> has_char "." n = false).
  { clear. intros root l a F A. destruct A as [l t s rs Ht Kt Es Rs]. exists (t_name t), rs. split; [reflexivity|]. split; [exact (name_dot root F l t Ht)|]. split; [reflexivity|]. split.
    - rewrite (resources_names root l O _ rs Rs). apply nodup_filter. exact (sibling_names root F l t Ht).
    - intros n sig Hi. destruct (resources_in root l t Ht O _ rs Rs eq_refl n sig Hi) as (j & r & rk & o & m & s' & Hc & _ & <- & _). exact (name_dot root F _ r Hc). }
  destruct (Dots root1 l1 a1 F1 A1) as (t1 & rest1 & T1 & Q1 & R1 & _ & V1). destruct (Dots root2 l2 a2 F2 A2) as (t2 & rest2 & T2 & Q2 & R2 & Y2 & V2).
  assert (Sf2 : split_on "." (archive_file a2) = [t2; "archive"]) by (unfold archive_file; rewrite T2; change ".archive" with (String "." "archive"); apply split_dot2; [exact Q2|reflexivity]).
  assert (Ss2 : split_on "." (schema_file (archive_file a2)) = [t2; "archive"; "schema"]).
  { unfold schema_file, archive_file. rewrite T2, app_assoc_str. change (".archive" ++ ".schema") with (String "." ("archive" ++ String "." "schema")). rewrite !split_append, (split_no_char _ _ Q2). reflexivity. }
  assert (D2 : NoDup (map fst (a_resources a2))).
  { rewrite R2. cbn [map fst]. constructor; [|exact Y2]. intros Hin. apply in_map_iff in Hin as ((n, sig) & En & Hin). cbn in En. subst n. pose proof (split_dot1 _ (V2 _ _ Hin)) as E. rewrite Sf2 in E. discriminate. }
  assert (Sig2 : In (archive_file a2, RSig CRawData (a_schema a2) false) (a_resources a2)) by (rewrite R2; now left).
  destruct (open_archive_get a2 _ rs _ _ D2 Op Sig2) as (o & _ & Ho).
  enough (Es : a_schema a1 = a_schema a2).
  { pose proof (Lay Es) as Sa. split; [exact Sa|]. exact (nested_evolve _ a1 a2 rs Hf Sa Op). }
  apply (dir_signature a1 a2 before sets subs o Hf); [| |exact E0|exact Ho].
  - intros n sig Hin Hff. rewrite R1 in Hin. destruct Hin as [E|Hin].
    + injection E as <- <-. unfold files_of in Hff. cbn [r_container] in Hff. destruct Hff as [E|[E|[]]]; [now symmetry|]. exfalso.
      assert (Sf1 : split_on "." (schema_file (archive_file a1)) = [t1; "archive"; "schema"]).
      { unfold schema_file, archive_file. rewrite T1, app_assoc_str. change (".archive" ++ ".schema") with (String "." ("archive" ++ String "." "schema")). rewrite !split_append, (split_no_char _ _ Q1). reflexivity. }
      rewrite E, Sf2 in Sf1. discriminate.
    + exfalso. pose proof (in_map (split_on ".") _ _ Hff) as Hf'. rewrite (files_split n sig (V1 _ _ Hin)), Sf2 in Hf'. apply in_file_keys in Hf'. destruct Hf' as [H|[H|(_ & [H|H])]]; injection H; intros; discriminate.
  - intros k Hk. apply in_map_iff in Hk as ((m, c) & Em & Hk). cbn in Em. subst m. destruct (dir_parts a1 before sets subs Hf) as (_ & _ & _ & _ & _ & _ & _ & Hsub & _).
    destruct (Hsub k c Hk) as (a' & sch & opt & Hr & _). rewrite R1 in Hr. destruct Hr as [E|Hr]; [discriminate E|]. pose proof (split_dot1 _ (V1 _ _ Hr)) as X.
    split; intros ->; rewrite ?Sf2, ?Ss2 in X; discriminate X.
Qed.
Print Assumptions C65_nested_partial.

(** The definitions of the example, among others and in another order *)
Definition relocated : pschema :=
 [PNamespace "k" [] [PStruct "S" [PField "x" [] "u16" None]] [] [PArchive "Ar" [] [PResource "v" [] (TVector "S")]];
  PNamespace "n.b" [] [] [] [PArchive "Br" [] [PResource "v" [] (TArchive ".n.a.Ar")]];
  PNamespace "n.b" [PConst "D" "u8" "7"] [] [] [];
  PNamespace "n.a" [] [] [PEnum "E" "u8" (Some 2%N) [("A",None);("B",Some "2")]] [PArchive "Ar" [("bd",["v";"m"])]
     [PResource "v" [RExplicit "S" "r" "m"] (TVector "S"); PResource "m" [] (TMulti 33%N ["S"]); PResource "q" [ROptional] TRaw]];
  PNamespace "n.a" [PConst "C" "u8" "7"] [PStruct "S" [PField "x" [FConst "C"] "u8" (Some 3%N); PField "e" [] "E" None; PField "r" [] "u32" (Some 20%N)]] [] []].
Definition relocated_tree : tree := tree_of relocated.
Lemma relocated_separated : separated relocated.
Proof.
  intros p q n m Hp Hq Hn E. cbn in Hp, Hq. destruct Hp as [<-|[<-|[<-|[<-|[<-|[]]]]]]; destruct Hq as [<-|[<-|[<-|[<-|[<-|[]]]]]]; vm_compute in E; injection E as E; try discriminate; try (destruct m; discriminate); try (injection E as E E'; destruct m; discriminate); congruence || (subst; vm_compute in Hn; repeat destruct Hn as [Hn|Hn]; congruence || destruct Hn).
Qed.
Lemma relocated_no_builtin : no_builtin relocated.
Proof. intros p Hp. cbn in Hp. destruct Hp as [<-|[<-|[<-|[<-|[<-|[]]]]]]; split; intros H; vm_compute in H; repeat destruct H as [H|H]; congruence || destruct H. Qed.
Lemma relocated_identifiers : identifiers relocated.
Proof. intros p n Hp Hn. assert (X : forallb (fun p => forallb (only_chars plain_char) (mentioned p)) relocated = true) by (vm_compute; reflexivity). rewrite forallb_forall in X. specialize (X p Hp). rewrite forallb_forall in X. exact (X n Hn). Qed.
Lemma relocated_ok : build_ast same_order relocated = Ok relocated_tree. Proof. vm_compute. reflexivity. Qed.
Lemma relocated_plain : plain_namespaces relocated. Proof. intros p Hp (t & E). cbn in Hp. destruct Hp as [<-|[<-|[<-|[<-|[<-|[]]]]]]; discriminate. Qed.
Definition relocated_outer : adef := match generate_python sorted_keys relocated_tree with Ok g => match dict_get g "n_b_Br" with Some (ClsArchive a) => a | _ => ADef "" [] [] end | Err _ => ADef "" [] [] end.
Lemma outer_is s root l : identifiers s -> separated s -> no_builtin s -> build_ast same_order s = Ok root -> plain_namespaces s -> distinct_classes root -> plain_resources root ->
  (exists t, at_loc root l = Some t /\ t_kind t = KArchive) -> py_class root l = "n_b_Br" ->
  archive_is root l (match generate_python sorted_keys root with Ok g => match dict_get g "n_b_Br" with Some (ClsArchive a) => a | _ => ADef "" [] [] end | Err _ => ADef "" [] [] end).
Proof.
  intros I Sp N B Pn Dc Pr (t & Ht & Kt) En. destruct (C63_module_partial same_order sorted_keys s root same_order_any ltac:(intros ks k; reflexivity) (identifiers_named s I) Sp N B Pn Dc Pr) as (g & Eg & _ & Da & _).
  destruct (Da _ t Ht Kt) as (a & E & _ & A). rewrite En in E. rewrite Eg, E. exact A.
Qed.
Theorem C65_nested_instance :
  identifiers relocated /\ separated relocated /\ no_builtin relocated /\ build_ast same_order relocated = Ok relocated_tree /\ builtins_unused relocated_tree
  /\ archive_is example_tree [0;1;1]%nat example_outer /\ archive_is relocated_tree [1;0;0]%nat relocated_outer
  /\ fillable example_outer example_contents
  /\ exists rs, open_archive relocated_outer (StDir (directory example_outer example_contents)) = Ok rs.
Proof.
  split; [exact relocated_identifiers|]. split; [exact relocated_separated|]. split; [exact relocated_no_builtin|]. split; [exact relocated_ok|]. split; [apply unused_checked; vm_compute; reflexivity|].
  split. { apply (outer_is example); [exact example_identifiers|exact example_separated|exact example_no_builtin|exact example_ok|exact example_plain|apply distinct_checked; vm_compute; reflexivity|apply resources_checked; vm_compute; reflexivity|eexists; split; vm_compute; reflexivity|vm_compute; reflexivity]. }
  split. { apply (outer_is relocated); [exact relocated_identifiers|exact relocated_separated|exact relocated_no_builtin|exact relocated_ok|exact relocated_plain|apply distinct_checked; vm_compute; reflexivity|apply resources_checked; vm_compute; reflexivity|eexists; split; vm_compute; reflexivity|vm_compute; reflexivity]. }
  split; [exact (proj1 C64_nested_instance)|].
  destruct (open_archive relocated_outer (StDir (directory example_outer example_contents))) as [rs|e] eqn:E; [exists rs; reflexivity|exfalso; vm_compute in E; discriminate].
Qed.
