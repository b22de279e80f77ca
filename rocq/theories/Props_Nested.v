(** C92: archives with sub-archives, built directory by directory, open with everything that was written. *)
From Coq Require Import List ZArith Bool String Lia Permutation.
From Verif Require Import PyBase Spec DataAccess Structure StructSpec Resources Builder Archive ArchiveSpec OpenSpec ResourceSpec
  HistorySpec BuilderFacts ResourceFacts ArchiveFacts HistoryFacts CrashFacts EndToEnd
  ResourceThms BitFacts Props_Structure Props_Resources Props_Archive TarSpec TarPack Props_Builder NestedSpec.
Import ListNotations.
Local Open Scope string_scope.
Local Open Scope Z_scope.

Lemma contents_induction (P : contents -> Prop) :
  (forall before sets subs, (forall n c, In (n, c) subs -> P c) -> P (Contents before sets subs)) -> forall c, P c.
Proof.
  intros H. fix IH 1. intros [before sets subs]. apply H. induction subs as [|[m c] t IHt]; intros n c' Hin.
  - destruct Hin.
  - destruct Hin as [E|Hin]; [injection E as _ <-; apply IH|eapply IHt; exact Hin].
Qed.

(** The entries of the directory. *)
Definition subdirs (a : adef) (subs : list (string * contents)) : list (string * fsnode) :=
  flat_map (fun nc => match dict_get (a_resources a) (fst nc) with
                      | Some (RSig (CArchive a') _ _) => [(fst nc, NDir (directory a' (snd nc)))]
                      | _ => []
                      end) subs.
Lemma directory_eq a before sets subs : directory a (Contents before sets subs) =
  (map (fun kx => (fst kx, NFile (snd kx))) (files_after before (build a (sets_of sets))) ++ subdirs a subs)%list.
Proof.
  cbn [directory]. f_equal. induction subs as [|[n c] t IH]; [reflexivity|]. cbn [subdirs flat_map fst snd].
  unfold subdirs in IH. now rewrite <- IH.
Qed.

Lemma subdirs_get a subs n c a' schema opt : NoDup (map fst subs) -> In (n, c) subs ->
  dict_get (a_resources a) n = Some (RSig (CArchive a') schema opt) ->
  dict_get (subdirs a subs) n = Some (NDir (directory a' c)).
Proof.
  intros Nd Hin Hr. induction subs as [|[m d] t IH]; [destruct Hin|]. cbn [map fst] in Nd. inversion Nd as [|? ? N1 N2]; subst.
  cbn [subdirs flat_map fst snd]. destruct Hin as [E|Hin].
  - injection E as -> ->. rewrite Hr. cbn [app dict_get]. now rewrite String.eqb_refl.
  - assert (m <> n). { intros ->. apply N1. now apply (in_map fst) in Hin. }
    rewrite dict_get_app. fold (subdirs a t). specialize (IH N2 Hin).
    destruct (dict_get (a_resources a) m) as [[[] sch o]|]; cbn [dict_get]; try exact IH.
    apply String.eqb_neq in H. now rewrite H.
Qed.
Lemma subdirs_none a subs k : ~ In k (map fst subs) -> dict_get (subdirs a subs) k = None.
Proof.
  induction subs as [|[m d] t IH]; intros H; [reflexivity|]. cbn [subdirs flat_map fst snd]. cbn [map fst] in H.
  assert (m <> k) by (intros ->; apply H; now left). rewrite dict_get_app. fold (subdirs a t).
  rewrite IH by (intros X; apply H; now right).
  destruct (dict_get (a_resources a) m) as [[[] sch o]|]; cbn [dict_get]; try reflexivity.
  apply String.eqb_neq in H0. now rewrite H0.
Qed.

Lemma files_get d k : dict_get (map (fun kx : string * list Z => (fst kx, NFile (snd kx))) d) k = option_map NFile (dict_get d k).
Proof. induction d as [|[j y] t IH]; cbn [map dict_get fst snd]; [reflexivity|]. destruct (String.eqb j k); [reflexivity|exact IH]. Qed.

Lemma acceptable_leaf sig v : acceptable sig v -> is_archive (r_container sig) = false.
Proof. unfold acceptable. destruct (r_container sig), v; try reflexivity; try contradiction. Qed.

Lemma nested_opens : forall c a, fits a c -> exists rs, open_archive a (StDir (directory a c)) = Ok rs /\ shows a c rs.
Proof.
  intros c. induction c as [before sets subs IH] using contents_induction. intros a Hf. inversion Hf as [? ? ? ? Hg Hsz Hsch Hcl Hnd Hns Hacc Hsub Hall]; subst.
  pose proof (proj2 Hg) as Hd.
  assert (Hv : Forall (valid_call a) sets).
  { apply Forall_forall. intros [n v] Hin. destruct (Hacc n v Hin) as (Hne & sig & Hs & Ha). eapply acceptable_valid; eassumption. }
  assert (Hacc' : forall n v sig, In (n, v) sets -> In (n, sig) (a_resources a) -> acceptable sig v).
  { intros n v sig Hin Hs. destruct (Hacc n v Hin) as (_ & sig' & Hs' & Ha).
    assert (sig = sig') by (pose proof (res_get a n sig Hd Hs); pose proof (res_get a n sig' Hd Hs'); congruence). now subst. }
  destruct (build_files a sets Hg Hsz Hnd Hv) as [HF _]. rewrite directory_eq.
  set (D := files_after before (build a (sets_of sets))) in *.
  assert (FD : forall f, dict_get D f = match dict_get (expected_files a sets) f with
     | Some c => Some c
     | None => if String.eqb (schema_file (archive_file a)) f then Some (a_schema a)
               else if String.eqb (archive_file a) f then Some (zeros 16) else dict_get before f
     end) by (intros f; apply HF). clear HF. clearbody D.
  set (E := (map (fun kx => (fst kx, NFile (snd kx))) D ++ subdirs a subs)%list).
  assert (GE : forall k, dict_get E k = match dict_get D k with Some b => Some (NFile b) | None => dict_get (subdirs a subs) k end).
  { intros k. unfold E. rewrite dict_get_app, files_get. now destruct (dict_get D k). }
  clearbody E.
  (* names of sub-archives are no files of other resources *)
  assert (Nsub : forall n sig k, In (n, sig) (a_resources a) -> is_archive (r_container sig) = false -> In k (files_of n sig) ->
            dict_get (subdirs a subs) k = None).
  { intros n sig k Hr Hl Hk. apply subdirs_none. intros Hi. apply in_map_iff in Hi. destruct Hi as ([m c] & Em & Hi). cbn in Em. subst m.
    destruct (Hsub k c Hi) as (a' & sch & opt & Hr' & _).
    pose proof (distinct_neq a n sig k _ k Hd Hr Hr' Hk (proj1 (files_of_self _ _))) as Eq. injection Eq as <- ->. discriminate Hl. }
  assert (Leaf : forall n sig, In (n, sig) (a_resources a) -> is_archive (r_container sig) = false ->
            open_resource n sig (StDir E) = open_resource n sig (storage_of_fs D)).
  { intros n sig Hr Hl. apply leaf_agree; [assumption|]. intros k Hk.
    assert (Hkf : In k (files_of n sig)).
    { unfold files_of. unfold read_files, data_files in Hk. destruct (r_container sig); cbn in Hk |- *; tauto. }
    rewrite storage_lookup. cbn [st_lookup]. unfold dir_get. rewrite GE, (Nsub n sig k Hr Hl Hkf).
    unfold same_leaf. destruct (dict_get D k) as [[|b t]|]; destruct (r_optional sig); reflexivity. }
  assert (Hset : forall n v sig, In (n, v) sets -> In (n, sig) (a_resources a) ->
            exists o, open_resource n sig (StDir E) = Ok o /\ holds sig v o).
  { intros n v sig Hin Hr. pose proof (res_get a n sig Hd Hr) as Ha. destruct (Hsch _ _ Hr) as [Hs Hu].
    pose proof (Hacc' _ _ _ Hin Hr) as Hac. pose proof (acceptable_leaf _ _ Hac) as Hl.
    destruct (stored_holds n sig v Hac Hs Hu) as (p & ix & o & Hval & Ho & Hh).
    exists o. split; [|exact Hh]. rewrite (Leaf n sig Hr Hl). rewrite <- Ho. apply open_local; [exact Hl|].
    intros f Hff. pose proof (proj1 (proj2 Hval)) as Hp. destruct (file_set_get n v sig p ix f Hp Hff) as (c & Hc).
    rewrite FD, Hc. rewrite (expected_get a sets n v sig p ix f c Hd Hnd Hin Ha Hp Hc). reflexivity. }
  assert (Hnone : forall n sig, In (n, sig) (a_resources a) -> ~ In n (map fst sets) ->
            forall f, In f (files_of n sig) -> dict_get (expected_files a sets) f = None).
  { intros n sig Hr Hni f Hff. destruct (dict_get (expected_files a sets) f) as [c|] eqn:Ex; [|reflexivity]. exfalso.
    apply expected_inv in Ex. destruct Ex as (n' & v' & sig' & p' & ix' & Hin' & Ha' & Hp' & Hc').
    pose proof (distinct_neq a n sig n' sig' f Hd Hr (dict_get_in _ _ _ Ha') Hff (set_get_file a n' v' sig' p' ix' f c Ha' Hp' Hc')) as Eq.
    inversion Eq; subst. apply Hni. now apply (in_map fst) in Hin'. }
  (* nothing is written under the name of a resource that is not set *)
  assert (Dnone : forall n sig f, In (n, sig) (a_resources a) -> n <> archive_file a -> ~ In n (map fst sets) ->
            In f (files_of n sig) -> dict_get D f = None).
  { intros n sig f Hr Hne Hni Hff. rewrite FD, (Hnone n sig Hr Hni f Hff).
    assert (X : forall g, In g (files_of (archive_file a) (RSig CRawData (a_schema a) false)) -> String.eqb g f = false).
    { intros g Hgf. apply String.eqb_neq. intros <-.
      pose proof (distinct_neq a _ _ _ _ g Hd (proj1 Hg) Hr Hgf Hff) as Eq. injection Eq as Eq _. congruence. }
    rewrite (X _ (proj2 (files_of_self _ _))), (X _ (proj1 (files_of_self _ _))). exact (Hcl n sig f Hr Hff). }
  assert (Hunset : forall n sig, In (n, sig) (a_resources a) -> ~ In n (map fst sets) -> ~ In n (map fst subs) ->
            open_resource n sig (StDir E) = Ok None).
  { intros n sig Hr Hni Hnu. destruct (string_dec n (archive_file a)) as [->|Hne].
    - pose proof (res_get a _ _ Hd Hr) as E1. pose proof (res_get a _ _ Hd (proj1 Hg)) as E2.
      assert (sig = RSig CRawData (a_schema a) false) by congruence. subst sig. destruct (Hsch _ _ Hr) as [Hs Hu].
      rewrite (Leaf _ _ Hr eq_refl). pose proof (Hnone _ _ Hr Hni) as HN.
      apply archive_resource_opens; [assumption|assumption| |].
      + rewrite FD, HN by (apply files_of_self). now rewrite String.eqb_refl.
      + rewrite FD, HN by (apply files_of_self). rewrite schema_neq. now rewrite String.eqb_refl.
    - destruct sig as [c sch opt]. destruct opt.
      2:{ exfalso. destruct (Hall n _ Hr Hne eq_refl); contradiction. }
      apply optional_absent. unfold absent. cbn [st_lookup]. unfold dir_get.
      destruct (is_archive c) eqn:Ec.
      + rewrite GE, (Dnone n _ n Hr Hne Hni (proj1 (files_of_self _ _))), (subdirs_none a subs n Hnu). reflexivity.
      + rewrite GE, (Dnone n _ (schema_file n) Hr Hne Hni (proj2 (files_of_self _ _))).
        rewrite (Nsub n _ (schema_file n) Hr Ec (proj2 (files_of_self _ _))). reflexivity. }
  assert (Harch : forall n c a' sch opt, In (n, c) subs -> In (n, RSig (CArchive a') sch opt) (a_resources a) ->
            exists rs', open_resource n (RSig (CArchive a') sch opt) (StDir E) = Ok (Some (OArch rs')) /\ shows a' c rs').
  { intros n c a' sch opt Hin Hr. destruct (Hsub n c Hin) as (a2 & sch2 & opt2 & Hr2 & Hf2).
    pose proof (res_get a _ _ Hd Hr) as E1. pose proof (res_get a _ _ Hd Hr2) as E2. rewrite E1 in E2. injection E2 as <- <- <-.
    destruct (IH n c Hin a' Hf2) as (rs' & Hrs & Hsh).
    assert (Hni : ~ In n (map fst sets)).
    { intros Hi. apply in_map_iff in Hi. destruct Hi as ([m v] & Em & Hi). cbn in Em. subst m.
      pose proof (acceptable_leaf _ _ (Hacc' _ _ _ Hi Hr)) as X. discriminate X. }
    assert (Hne : n <> archive_file a).
    { intros ->. pose proof (res_get a _ _ Hd (proj1 Hg)) as E3. rewrite E1 in E3. discriminate E3. }
    exists rs'. split; [|exact Hsh]. cbn [open_resource open_any st_lookup]. unfold dir_get.
    rewrite GE, (Dnone n _ n Hr Hne Hni (proj1 (files_of_self _ _))), (subdirs_get a subs n c a' sch opt Hns Hin E1).
    cbn [bind]. rewrite Hrs. cbn [bind]. unfold keep_truthy. cbn [truthy bind].
    inversion Hf2 as [? ? ? ? Hg2 _ _ _ _ _ _ _ _]; subst.
    destruct (open_archive_get a' _ rs' _ _ (distinct_names a' (proj2 Hg2)) Hrs (proj1 Hg2)) as (o & Eo & _).
    destruct rs' as [|x l]; [discriminate Eo|]. replace (zlen (x :: l) =? 0) with false; [reflexivity|].
    symmetry. apply Z.eqb_neq. unfold zlen. cbn [List.length]. lia. }
  destruct (open_archive_all a (StDir E)) as (rs & Hrs).
  { intros n sig Hr. destruct (in_dec string_dec n (map fst sets)) as [Hi|Hi].
    - apply in_map_iff in Hi. destruct Hi as ([m v] & Em & Hi). cbn in Em. subst m.
      destruct (Hset _ _ _ Hi Hr) as (o & Ho & _). eauto.
    - destruct (in_dec string_dec n (map fst subs)) as [Hj|Hj]; [|eauto].
      apply in_map_iff in Hj. destruct Hj as ([m c] & Em & Hj). cbn in Em. subst m.
      destruct (Hsub n c Hj) as (a' & sch & opt & Hr' & _). pose proof (res_get a _ _ Hd Hr) as E1. pose proof (res_get a _ _ Hd Hr') as E2.
      rewrite E1 in E2. injection E2 as ->. destruct (Harch _ _ _ _ _ Hj Hr') as (rs' & Ho & _). eauto. }
  exists rs. split; [exact Hrs|]. constructor.
  - intros n v sig Hin Hr. destruct (open_archive_get a _ rs n sig (distinct_names a Hd) Hrs Hr) as (o & Eo & Ho).
    destruct (Hset _ _ _ Hin Hr) as (o' & Ho' & Hh). rewrite Ho in Ho'. inversion Ho'; subst o'.
    exists o. unfold archive_getattr. rewrite Eo. auto.
  - intros n c a' sch opt Hin Hr. destruct (open_archive_get a _ rs n _ (distinct_names a Hd) Hrs Hr) as (o & Eo & Ho).
    destruct (Harch _ _ _ _ _ Hin Hr) as (rs' & Ho' & Hh). rewrite Ho in Ho'. inversion Ho'; subst o.
    exists rs'. unfold archive_getattr. rewrite Eo. auto.
  - intros n sig Hr Hni Hnu. destruct (open_archive_get a _ rs n sig (distinct_names a Hd) Hrs Hr) as (o & Eo & Ho).
    rewrite (Hunset _ _ Hr Hni Hnu) in Ho. inversion Ho; subst o. unfold archive_getattr. now rewrite Eo.
Qed.

(** For every archive type, with sub-archives to any depth, and all contents that fit it: the directories the builders leave
    open, and show exactly these contents. *)
Theorem C92_nested : forall a c, fits a c -> exists rs, open_archive a (StDir (directory a c)) = Ok rs /\ shows a c rs.
Proof. intros a c. apply nested_opens. Qed.
Print Assumptions C92_nested.

(** The same from a tar of these directories, however it was packed. *)
Theorem C92_tar : forall a c t, fits a c -> tree_ok (directory a c) -> no_empty_files (directory a c) -> packs t (directory a c) -> names_ok a ->
  exists st rs, tar_create t "" = Ok st /\ open_archive a st = Ok rs /\ shows a c rs.
Proof.
  intros a c t Hf Ht Hn Hp Ha. destruct (C34_same_result t _ a Ht Hn Hp Ha) as (f & d & Ec & Hs).
  destruct (nested_opens c a Hf) as (rs & Ho & Hsh). exists (StTar f d ""), rs. split; [exact Ec|]. split; [|exact Hsh].
  rewrite <- Ho. exact (Hs [] _ eq_refl).
Qed.
Print Assumptions C92_tar.

(** An archive with raw data and a sub-archive: a vector, an instance and a multivector. *)
Definition twofold : adef := ADef "O" (ascii_bytes "archive O") [
  ("O.archive", RSig CRawData (ascii_bytes "archive O") false);
  ("sub", RSig (CArchive full) (ascii_bytes "sub") false);
  ("more", RSig (CArchive full) (ascii_bytes "more") true);
  ("raw", RSig CRawData (ascii_bytes "raw") false) ].
Definition twofold_contents : contents :=
  Contents [("notes.txt", [3])] [("raw", SBytes [1; 2; 255])] [("sub", Contents [("README", [1; 2])] full_sets [])].
Theorem C92_instance : fits twofold twofold_contents /\ tree_ok (directory twofold twofold_contents)
  /\ no_empty_files (directory twofold twofold_contents) /\ names_ok twofold
  /\ exists es, lookup_path (directory twofold twofold_contents) ["sub"] = Some (NDir es) /\ List.length es = 11%nat.
Proof.
  assert (Ff : fits full (Contents [("README", [1; 2])] full_sets [])).
  { constructor; [exact full_generated|exact full_sizes|exact full_schemas|exact full_clean| |constructor|exact full_acceptable|intros n c []|].
    - repeat (constructor; [cbn; intuition discriminate|]); constructor.
    - intros n sig H Hne Ho. left. in_cases H; cbn in *; try congruence; auto. }
  split.
  { constructor.
    - split; [now left|]. unfold distinct_files. repeat (constructor; [cbn; intuition discriminate|]). constructor.
    - intros n sig H. in_cases H; exact I.
    - intros n sig H. in_cases H; (split; [discriminate|reflexivity]).
    - intros n sig f H Hf. in_cases H; cbn in Hf; intuition (subst; reflexivity).
    - repeat (constructor; [cbn; intuition discriminate|]); constructor.
    - repeat (constructor; [cbn; intuition discriminate|]); constructor.
    - intros n v H. in_cases H. split; [discriminate|]. eexists. split; [right; right; right; now left|]. cbn. split; [|reflexivity]. repeat constructor; lia.
    - intros n c H. in_cases H. do 3 eexists. split; [right; now left|exact Ff].
    - intros n sig H Hne Ho. in_cases H; cbn in *; try congruence; auto. }
  assert (G : forall k, String.eqb k "" = false -> has_slash k = false -> String.eqb k "." = false -> good k).
  { intros k H1 H2 H3. apply String.eqb_neq in H1, H3. now split. }
  assert (Ed : directory twofold twofold_contents = ltac:(let x := eval vm_compute in (directory twofold twofold_contents) in exact x)) by (vm_compute; reflexivity).
  rewrite Ed. clear Ed. split; [|split; [|split]].
  - apply tree_ok_intro; [repeat (constructor; [cbn; intuition discriminate|]); constructor|].
    intros k x H. in_cases H; (split; [apply G; reflexivity|]); try discriminate. intros es' E. inversion E; subst es'.
    apply tree_ok_intro; [repeat (constructor; [cbn; intuition discriminate|]); constructor|].
    intros k x H. in_cases H; (split; [apply G; reflexivity|discriminate]).
  - intros cs m H. destruct cs as [|c t]; [discriminate|]. cbn [lookup_path] in H.
    match type of H with context [dict_get ?d c] => destruct (dict_get d c) as [x|] eqn:E; [|discriminate] end.
    apply dict_get_in in E. in_cases E; (destruct t as [|c2 t]; [inversion H; subst m; discriminate|]); try discriminate.
    cbn [lookup_path] in H. match type of H with context [dict_get ?d c2] => destruct (dict_get d c2) as [x|] eqn:E2; [|discriminate] end.
    apply dict_get_in in E2. in_cases E2; (destruct t as [|c3 t]; [inversion H; subst m; discriminate|]); discriminate.
  - assert (N : forall a', nested twofold a' -> a' = twofold \/ a' = full).
    { intros a' H. induction H as [|a1 n a2 sch opt H IH Hin]; [now left|]. destruct IH as [->| ->].
      - destruct Hin as [X|[X|[X|[X|[]]]]]; try discriminate; inversion X; now right.
      - destruct Hin as [X|[X|[X|[X|[X|[]]]]]]; discriminate. }
    intros a' n sig Ha Hin. destruct (N a' Ha) as [->| ->]; in_cases Hin; apply G; reflexivity.
  - eexists. split; [reflexivity|reflexivity].
Qed.
