(** Properties C22, C25-C35, C61: archives, builders, storages.
    Vocabulary: ArchiveSpec.v, OpenSpec.v, HistorySpec.v, TarSpec.v (specifications); Builder.v, Archive.v, Writer.v (model). *)
From Coq Require Import List ZArith Bool String Ascii Lia Permutation.
From Verif Require Import PyBase Spec DataAccess Structure StructSpec Resources Builder Archive Writer ArchiveSpec OpenSpec ResourceSpec
  HistorySpec TarSpec BuilderFacts ResourceFacts ArchiveFacts HistoryFacts CrashFacts EndToEnd TarFacts TarPack WriterFacts
  ResourceThms BitFacts Props_Structure Props_Resources.
Import ListNotations.
Local Open Scope string_scope.
Local Open Scope Z_scope.

(** ** a concrete archive type used in the instances *)
Definition full : adef := ADef "A" (ascii_bytes "archive A") [
  ("A.archive", RSig CRawData (ascii_bytes "archive A") false);
  ("ins", RSig (CInstance demo) (ascii_bytes "ins") false);
  ("vec", RSig (CVector demo) (ascii_bytes "vec") false);
  ("mv", RSig (CMultivector idx8 [demo; pt]) (ascii_bytes "mv") false);
  ("raw", RSig CRawData (ascii_bytes "raw") true) ].
Definition full_sets : list (string * setval) :=
  [("mv", SBuckets demo_buckets); ("vec", SRecords [rec1; rec2; rec1]); ("ins", SRecord rec2)].

Ltac in_cases H := repeat (destruct H as [H|H]; [injection H as <- <-|]); [..|destruct H].

Lemma full_generated : generated full.
Proof.
  split; [now left|]. unfold distinct_files. repeat (constructor; [cbn; intuition discriminate|]). constructor.
Qed.
Lemma full_sizes : sizes_ok full.
Proof. intros n sig H. in_cases H; cbn; try lia. split; [lia|]. repeat constructor; cbn; lia. Qed.
Lemma full_schemas : schemas_ok full.
Proof. intros n sig H. in_cases H; (split; [discriminate|reflexivity]). Qed.
Lemma full_flat : no_subarchives full.
Proof. intros n sig H. in_cases H; reflexivity. Qed.
Lemma full_clean : clean full [("README", [1; 2])].
Proof. intros n sig f H Hf. in_cases H; cbn in Hf; intuition (subst; reflexivity). Qed.
Lemma full_acceptable n v : In (n, v) full_sets -> n <> archive_file full /\ exists sig, In (n, sig) (a_resources full) /\ acceptable sig v.
Proof.
  intros H. in_cases H; (split; [discriminate|]).
  - eexists. split; [right; right; right; now left|]. cbn. split; [exact demo_types_ok|]. split; [vm_compute; reflexivity|].
    exists 8, demo_outs. split; [split; [reflexivity|]; split; [lia|reflexivity]|]. split; [exact demo_buckets_ok|]. vm_compute; reflexivity.
  - eexists. split; [right; right; now left|]. cbn. split; [exact demo_ok|]. split; [discriminate|]. split; [vm_compute; reflexivity|].
    exists [vals1; vals2; vals1]. repeat (constructor; [first [exact rec1_ok|exact rec2_ok]|]). constructor.
  - eexists. split; [right; now left|]. cbn. split; [exact demo_ok|]. split; [lia|]. exists vals2. exact rec2_ok.
Qed.

(** ** C28 *)
Lemma acceptable_valid a n sig v : generated a -> schemas_ok a -> In (n, sig) (a_resources a) -> n <> archive_file a ->
  acceptable sig v -> valid_call a (n, v).
Proof.
  intros Hg Hs Hin Hne Ha. destruct (Hs _ _ Hin) as [S1 S2]. destruct (stored_holds n sig v Ha S1 S2) as (p & ix & o & Hv & _).
  split; [assumption|]. exists sig, p, ix. split; [|assumption]. apply res_get; [apply Hg|assumption].
Qed.

(** C28.  For every archive type without sub-archives and every choice of acceptable values for its resources (all non-optional
    ones, any of the optional ones), in any order, with or without a final [finish]: the directory written opens, every resource
    that was set reads back as the value set, and every other one is None. *)
Theorem C28_end_to_end a d0 sets : generated a -> sizes_ok a -> schemas_ok a -> no_subarchives a -> clean a d0 ->
  NoDup (map fst sets) ->
  (forall n v, In (n, v) sets -> n <> archive_file a /\ exists sig, In (n, sig) (a_resources a) /\ acceptable sig v) ->
  (forall n sig, In (n, sig) (a_resources a) -> n <> archive_file a -> r_optional sig = false -> In n (map fst sets)) ->
  forall calls, calls = sets_of sets \/ calls = (sets_of sets ++ [Finish])%list ->
  exists rs, open_archive a (storage_of_fs (files_after d0 (build a calls))) = Ok rs /\
    (forall n v sig, In (n, v) sets -> In (n, sig) (a_resources a) -> exists o, archive_getattr rs n = Ok o /\ holds sig v o) /\
    (forall n sig, In (n, sig) (a_resources a) -> ~ In n (map fst sets) -> archive_getattr rs n = Ok None).
Proof.
  intros Hg Hsz Hsch Hflat Hcl Hnd Hacc Hreq calls Hcalls.
  assert (Hv : Forall (valid_call a) sets).
  { apply Forall_forall. intros [n v] Hin. destruct (Hacc n v Hin) as (Hne & sig & Hs & Ha). eapply acceptable_valid; eassumption. }
  assert (E : build a calls = build a (sets_of sets)).
  { destruct Hcalls as [->| ->]; [reflexivity|]. unfold build. rewrite run_app. cbn [run run_call].
    fold (build a (sets_of sets)). rewrite builder_finish_noop; [reflexivity|]. apply (build_files a sets); assumption. }
  rewrite E. apply end_to_end; try assumption. intros n v sig Hin Hs. destruct (Hacc n v Hin) as (_ & sig' & Hs' & Ha).
  assert (sig = sig') by (pose proof (res_get a n sig (proj2 Hg) Hs); pose proof (res_get a n sig' (proj2 Hg) Hs'); congruence).
  now subst.
Qed.
Example C28_instance :
  generated full /\ sizes_ok full /\ schemas_ok full /\ no_subarchives full /\ clean full [("README", [1; 2])] /\
  NoDup (map fst full_sets) /\
  (forall n v, In (n, v) full_sets -> n <> archive_file full /\ exists sig, In (n, sig) (a_resources full) /\ acceptable sig v) /\
  (forall n sig, In (n, sig) (a_resources full) -> n <> archive_file full -> r_optional sig = false -> In n (map fst full_sets)).
Proof.
  split; [exact full_generated|]. split; [exact full_sizes|]. split; [exact full_schemas|]. split; [exact full_flat|].
  split; [exact full_clean|]. split; [repeat (constructor; [cbn; intuition discriminate|]); constructor|]. split; [exact full_acceptable|].
  intros n sig H Hne Ho. in_cases H; try (cbn; tauto); discriminate.
Qed.

(** ** C22 *)
(** C22 is false: a vector, multivector or raw data that was set to be empty reads back as None, in every archive. *)
Theorem C22_empty_containers_refuted a d0 sets : generated a -> sizes_ok a -> schemas_ok a -> no_subarchives a -> clean a d0 ->
  NoDup (map fst sets) ->
  (forall n v, In (n, v) sets -> n <> archive_file a /\ exists sig, In (n, sig) (a_resources a) /\ acceptable sig v) ->
  (forall n sig, In (n, sig) (a_resources a) -> n <> archive_file a -> r_optional sig = false -> In n (map fst sets)) ->
  exists rs, open_archive a (storage_of_fs (files_after d0 (build a (sets_of sets)))) = Ok rs /\
    forall n v, In (n, v) sets -> v = SRecords [] \/ v = SBuckets [] \/ v = SBytes [] -> archive_getattr rs n = Ok None.
Proof.
  intros Hg Hsz Hsch Hflat Hcl Hnd Hacc Hreq.
  destruct (C28_end_to_end a d0 sets Hg Hsz Hsch Hflat Hcl Hnd Hacc Hreq (sets_of sets) (or_introl eq_refl)) as (rs & Ho & H1 & _).
  exists rs. split; [assumption|]. intros n v Hin Hv. destruct (Hacc n v Hin) as (_ & sig & Hs & Ha).
  destruct (H1 n v sig Hin Hs) as (o & -> & Hh). f_equal. unfold holds in Hh.
  destruct (r_container sig); destruct Hv as [->|[->| ->]]; try contradiction; assumption.
Qed.
Example C22_refuted_instance :
  let sets := [("vec", SRecords []); ("mv", SBuckets []); ("ins", SRecord rec1); ("raw", SBytes [])] in
  NoDup (map fst sets) /\
  (forall n v, In (n, v) sets -> n <> archive_file full /\ exists sig, In (n, sig) (a_resources full) /\ acceptable sig v) /\
  (forall n sig, In (n, sig) (a_resources full) -> n <> archive_file full -> r_optional sig = false -> In n (map fst sets)).
Proof.
  intros sets. split; [repeat (constructor; [cbn; intuition discriminate|]); constructor|]. split.
  - intros n v H. in_cases H; (split; [discriminate|]).
    + eexists. split; [right; right; now left|]. cbn. split; [exact demo_ok|]. split; [discriminate|]. split; [vm_compute; reflexivity|].
      exists []. constructor.
    + eexists. split; [right; right; right; now left|]. cbn. split; [exact demo_types_ok|]. split; [vm_compute; reflexivity|].
      exists 8, []. split; [split; [reflexivity|]; split; [lia|reflexivity]|]. split; [constructor|]. vm_compute; reflexivity.
    + eexists. split; [right; now left|]. cbn. split; [exact demo_ok|]. split; [lia|]. exists vals1. exact rec1_ok.
    + eexists. split; [right; right; right; right; now left|]. cbn. split; [constructor|]. vm_compute; reflexivity.
  - intros n sig H Hne Ho. in_cases H; try (cbn; tauto); discriminate.
Qed.

(** C22, the part that holds: below the archive object, an empty container opens and has length zero.
    Missing: the archive object replaces it by None. *)
Theorem C22_empty_resources_partial sd it ts : s_size sd <> 0 -> 0 < s_size it < 2 ^ 64 ->
  (exists v, vector_open (framed []) sd = Ok v /\ vector_len v = 0) /\
  (exists m, multivector_open (framed (zeros (Z.to_nat (s_size it)))) (framed []) it ts = Ok m /\ multivector_len m = 0) /\
  (exists r, rawdata_open (framed []) = Ok r /\ rawdata_len r = Ok 0).
Proof.
  intros Hs Hi.
  assert (V : forall p d, is_bytes p -> fits64 p = true -> s_size d <> 0 -> zlen p mod s_size d = 0 ->
    vector_open (framed p) d = Ok (Vector (framed p) d (zlen p / s_size d))).
  { intros p d Hb Hf Hd Hm. unfold vector_open. rewrite check_base_framed. cbn [bind].
    change SIZE_OFFSET_IN_BITS with 64. rewrite header_read by assumption. cbn [bind]. unfold py_divmod.
    destruct (Z.eqb_spec (s_size d) 0); [contradiction|]. cbn [bind]. rewrite Hm. reflexivity. }
  assert (Hz : zlen (zeros (Z.to_nat (s_size it))) = s_size it) by (rewrite zlen_zeros_nat; lia).
  split; [|split].
  - eexists. split; [apply V; [constructor|reflexivity|assumption|apply Z.mod_0_l; assumption]|]. cbn [vector_len vec_size]. apply Z.div_0_l; assumption.
  - unfold multivector_open. rewrite V; [|apply is_bytes_zeros|unfold fits64; rewrite Hz; apply Z.ltb_lt; lia|lia|rewrite Hz; apply Z.mod_same; lia].
    cbn [bind]. eexists. split; [reflexivity|]. cbv [multivector_len vector_len vec_size mv_index]. rewrite Hz, Z.div_same by lia. reflexivity.
  - unfold rawdata_open. rewrite check_base_framed. cbn [bind]. eexists. split; [reflexivity|]. cbv [rawdata_len rd_mem].
    change SIZE_OFFSET_IN_BITS with 64. apply (header_read []); [constructor|reflexivity].
Qed.

(** ** C25 *)
(** C25.  When an archive opens, every non-archive resource at every nesting depth whose stored schema is present (and not the
    empty text) has exactly the expected schema. *)
Theorem C25_schema_verified_partial a st rs : open_archive a st = Ok rs ->
  forall a' st' n c sch opt m, reaches a st a' st' -> In (n, RSig c sch opt) (a_resources a') -> is_archive c = false ->
  file_is st' (schema_file n) m -> m <> [] -> m = sch.
Proof.
  intros H a' st' n c sch opt m R Hin Hc Hm Hne. destruct (reached_resource _ _ _ _ _ _ _ H R Hin) as (o & Ho).
  eapply leaf_schema; eassumption.
Qed.

(** Resource [n] of some nested archive is the only resource, on the way down to it, that may fail to open. *)
Definition others_open (a : adef) (st : storage) (n : string) : Prop :=
  NoDup (map fst (a_resources a)) /\
  forall m sg, In (m, sg) (a_resources a) -> m <> n -> exists o, open_resource m sg st = Ok o.
Inductive only_suspect : adef -> storage -> string -> rsig -> storage -> Prop :=
| suspect_here a st n sig : In (n, sig) (a_resources a) -> others_open a st n -> only_suspect a st n sig st
| suspect_sub a st k a2 sch opt st2 n sig st' : In (k, RSig (CArchive a2) sch opt) (a_resources a) -> others_open a st k ->
    st_lookup st k opt = Ok (GotStorage st2) -> only_suspect a2 st2 n sig st' -> only_suspect a st n sig st'.

Lemma suspect_err a st n sig st' e : only_suspect a st n sig st' -> open_resource n sig st' = Err e -> open_archive a st = Err e.
Proof.
  assert (Step : forall a st n sig e, In (n, sig) (a_resources a) -> others_open a st n ->
    open_resource n sig st = Err e -> open_archive a st = Err e).
  { clear. intros a st n sig e Hin [Hnd Hoth] He. destruct (open_archive a st) as [rs|e'] eqn:E.
    - exfalso. destruct (open_archive_in _ _ _ E) as (F & _). destruct (F _ _ Hin) as (o & Ho & _). congruence.
    - destruct (open_archive_err _ _ _ E) as (m & sg & Hm & Hs). f_equal.
      destruct (string_dec m n) as [->|D].
      + assert (sg = sig) by (pose proof (dict_get_nodup _ _ _ Hnd Hin); pose proof (dict_get_nodup _ _ _ Hnd Hm); congruence). congruence.
      + destruct (Hoth m sg Hm D) as (o & Ho). congruence. }
  induction 1 as [a st n sig Hin Hoth|a st k a2 sch opt st2 n sig st' Hin Hoth Hl Hsub IH]; intros He.
  - eapply Step; eassumption.
  - eapply Step; try eassumption. cbn [open_resource open_any]. rewrite Hl. cbn [bind]. rewrite (IH He). reflexivity.
Qed.

(** C25, the error: when everything else is fine, a stored schema that differs makes opening raise SchemaMismatchError naming the
    resource, or UnicodeDecodeError if it is not UTF-8 text. *)
Theorem C25_mismatch_error a st n c sch opt st' m : only_suspect a st n (RSig c sch opt) st' -> is_archive c = false ->
  file_is st' (schema_file n) m -> m <> [] -> m <> sch ->
  open_archive a st = Err (if utf8_valid m then SchemaMismatchError n else UnicodeDecodeError).
Proof. intros Hs Hc Hm Hne Hd. eapply suspect_err; [exact Hs|]. now apply leaf_mismatch. Qed.

(** A directory with a sub-archive. *)
Definition inner : adef := ADef "I" (ascii_bytes "archive I") [
  ("I.archive", RSig CRawData (ascii_bytes "archive I") false);
  ("v", RSig (CVector pt) (ascii_bytes "v") false);
  ("o", RSig (CVector pt) (ascii_bytes "o") true) ].
Definition outer : adef := ADef "O" (ascii_bytes "archive O") [
  ("O.archive", RSig CRawData (ascii_bytes "archive O") false);
  ("sub", RSig (CArchive inner) (ascii_bytes "sub") false);
  ("raw", RSig CRawData (ascii_bytes "raw") false) ].
Definition inner_tree (schema : string) : list (string * fsnode) := [
  ("I.archive", NFile (framed [])); ("I.archive.schema", NFile (ascii_bytes "archive I"));
  ("v", NFile (framed [1; 2; 3; 4])); ("v.schema", NFile (ascii_bytes schema)) ].
Definition outer_tree (schema : string) : list (string * fsnode) := [
  ("raw", NFile (framed [7])); ("sub", NDir (inner_tree schema)); ("O.archive", NFile (framed []));
  ("raw.schema", NFile (ascii_bytes "raw")); ("O.archive.schema", NFile (ascii_bytes "archive O")) ].

Example C25_opens_instance : exists rs, open_archive outer (StDir (outer_tree "v")) = Ok rs /\
  reaches outer (StDir (outer_tree "v")) inner (StDir (inner_tree "v")) /\
  file_is (StDir (inner_tree "v")) (schema_file "v") (ascii_bytes "v").
Proof.
  eexists. split; [vm_compute; reflexivity|]. split; [|reflexivity].
  eapply reaches_sub; [constructor|right; now left|]. reflexivity.
Qed.
Lemma suspect_inner schema : only_suspect outer (StDir (outer_tree schema)) "v" (RSig (CVector pt) (ascii_bytes "v") false) (StDir (inner_tree schema)).
Proof.
  eapply suspect_sub with (k := "sub"); [right; now left| |reflexivity|].
  - split; [repeat (constructor; [cbn; intuition discriminate|]); constructor|].
    intros m sg H Hne. in_cases H; try congruence; eexists; vm_compute; reflexivity.
  - apply suspect_here; [right; now left|]. split; [repeat (constructor; [cbn; intuition discriminate|]); constructor|].
    intros m sg H Hne. in_cases H; try congruence; eexists; vm_compute; reflexivity.
Qed.
Example C25_mismatch_instance :
  only_suspect outer (StDir (outer_tree "w")) "v" (RSig (CVector pt) (ascii_bytes "v") false) (StDir (inner_tree "w")) /\
  file_is (StDir (inner_tree "w")) (schema_file "v") (ascii_bytes "w") /\ ascii_bytes "w" <> [] /\ ascii_bytes "w" <> ascii_bytes "v".
Proof. split; [apply suspect_inner|]. split; [reflexivity|]. split; discriminate. Qed.

(** C25 is false for the empty text: in a tar file an optional resource whose schema file is present but empty is silently
    treated as absent, although its data is there and its schema differs. *)
Definition opt_type : adef := ADef "T" (ascii_bytes "archive T") [("o", RSig (CVector pt) (ascii_bytes "o") true)].
Theorem C25_empty_schema_refuted : exists t f d rs m,
  tar_create t "" = Ok (StTar f d "") /\ file_is (StTar f d "") (schema_file "o") m /\ m <> ascii_bytes "o" /\
  file_is (StTar f d "") "o" (framed [1; 2]) /\
  open_archive opt_type (StTar f d "") = Ok rs /\ archive_getattr rs "o" = Ok None.
Proof.
  exists [("o", TReg (framed [1; 2])); ("o.schema", TReg [])]. do 4 eexists. split; [reflexivity|].
  split; [reflexivity|]. split; [discriminate|]. split; [reflexivity|]. split; [vm_compute; reflexivity|]. reflexivity.
Qed.
(** C25 does not extend to the schema file of a multivector's index: it is written but never looked at. *)
Theorem C25_index_schema_unchecked a st1 st2 : (forall k, In k (flat_map (fun ns => read_files (fst ns) (r_container (snd ns))) (a_resources a)) ->
    st_lookup st1 k true = st_lookup st2 k true /\ st_lookup st1 k false = st_lookup st2 k false) ->
  no_subarchives a -> open_archive a st1 = open_archive a st2.
Proof.
  intros H Hf. apply agree_open. constructor. intros n sig Hin. constructor; [eapply Hf; eassumption|]. intros k Hk.
  destruct (H k) as [H1 H2]. { apply in_flat_map. exists (n, sig). auto. }
  assert (R : forall x, same_leaf x x) by (intros [[]|]; cbn; auto).
  destruct (r_optional sig); [rewrite H1|rewrite H2]; apply R.
Qed.
Example C25_index_schema_instance : ~ In (schema_file (index_name "mv")) (flat_map (fun ns => read_files (fst ns) (r_container (snd ns))) (a_resources full)) /\
  In (schema_file (index_name "mv")) (files_of "mv" (RSig (CMultivector idx8 [demo; pt]) (ascii_bytes "mv") false)).
Proof. split; [cbn; intuition discriminate|cbn; tauto]. Qed.

(** ** C26 *)
(** C26.  When an archive opens, every non-optional resource at every depth has its schema and all its data (a multivector also
    its index); a non-optional sub-archive is there. *)
Theorem C26_required_present a st rs : open_archive a st = Ok rs ->
  forall a' st' n c sch, reaches a st a' st' -> In (n, RSig c sch false) (a_resources a') ->
  if is_archive c then present st' n else Forall (present st') (read_files n c).
Proof.
  intros H a' st' n c sch R Hin. destruct (reached_resource _ _ _ _ _ _ _ H R Hin) as (o & Ho).
  destruct (is_archive c) eqn:E; [|eapply leaf_required; eassumption]. destruct c; try discriminate.
  cbn [open_resource open_any] in Ho. unfold present. destruct (st_lookup st' n false) as [g|]; [eauto|discriminate].
Qed.
(** ... and the error when exactly one thing is missing names it. *)
Theorem C26_missing_error a st n c sch st' : only_suspect a st n (RSig c sch false) st' -> sch <> [] -> utf8_valid sch = true ->
  (is_archive c = true -> absent st' n -> open_archive a st = Err (MissingResourceError n)) /\
  (is_archive c = false -> absent st' (schema_file n) -> open_archive a st = Err (MissingResourceError (schema_file n))) /\
  (forall it ts, c = CMultivector it ts -> file_is st' (schema_file n) sch -> absent st' (index_name n) ->
     open_archive a st = Err (MissingResourceError (index_name n))) /\
  (is_archive c = false -> file_is st' (schema_file n) sch -> absent st' n ->
     (forall it ts, c = CMultivector it ts -> present st' (index_name n)) -> open_archive a st = Err (MissingResourceError n)).
Proof.
  intros Hs Hne Hu. split; [|split; [|split]].
  - intros Hc Ha. eapply suspect_err; [exact Hs|]. destruct c; try discriminate. now apply archive_missing.
  - intros Hc Ha. eapply suspect_err; [exact Hs|]. now apply leaf_missing_schema.
  - intros it ts -> Hf Ha. eapply suspect_err; [exact Hs|]. now apply leaf_missing_index.
  - intros Hc Hf Ha Hi. eapply suspect_err; [exact Hs|]. now apply leaf_missing_data.
Qed.
(** Optional resources that are absent open as None. *)
Theorem C26_optional_absent a st rs n c sch : NoDup (map fst (a_resources a)) -> open_archive a st = Ok rs ->
  In (n, RSig c sch true) (a_resources a) ->
  absent st (if is_archive c then n else schema_file n) -> archive_getattr rs n = Ok None.
Proof.
  intros Hnd H Hin Ha. destruct (open_archive_get _ _ _ _ _ Hnd H Hin) as (o & Hg & Ho).
  rewrite (optional_absent n c sch st Ha) in Ho. unfold archive_getattr. rewrite Hg. congruence.
Qed.
Example C26_instance : exists rs,
  open_archive outer (StDir (outer_tree "v")) = Ok rs /\
  reaches outer (StDir (outer_tree "v")) inner (StDir (inner_tree "v")) /\
  In ("v", RSig (CVector pt) (ascii_bytes "v") false) (a_resources inner) /\
  absent (StDir (inner_tree "v")) (schema_file "o").
Proof.
  eexists. split; [vm_compute; reflexivity|]. split; [|split; [right; now left|reflexivity]].
  eapply reaches_sub; [constructor|right; now left|]. reflexivity.
Qed.
Definition lost_tree : list (string * fsnode) := [
  ("raw", NFile (framed [7])); ("sub", NDir (filter (fun kx => negb (String.eqb (fst kx) "v")) (inner_tree "v"))); ("O.archive", NFile (framed []));
  ("raw.schema", NFile (ascii_bytes "raw")); ("O.archive.schema", NFile (ascii_bytes "archive O")) ].
Example C26_missing_instance : exists st', only_suspect outer (StDir lost_tree) "v" (RSig (CVector pt) (ascii_bytes "v") false) st' /\
  file_is st' (schema_file "v") (ascii_bytes "v") /\ absent st' "v".
Proof.
  exists (StDir (filter (fun kx => negb (String.eqb (fst kx) "v")) (inner_tree "v"))). split; [|split; reflexivity].
  eapply suspect_sub with (k := "sub"); [right; now left| |reflexivity|].
  - split; [repeat (constructor; [cbn; intuition discriminate|]); constructor|].
    intros m sg H Hne. in_cases H; try congruence; eexists; vm_compute; reflexivity.
  - apply suspect_here; [right; now left|]. split; [repeat (constructor; [cbn; intuition discriminate|]); constructor|].
    intros m sg H Hne. in_cases H; try congruence; eexists; vm_compute; reflexivity.
Qed.
(** C26 is false for optional resources that are partly there: an optional multivector with schema and index but without data
    opens, as a multivector of the full length whose elements cannot be read ... *)
Theorem C26_partial_optional_refuted : exists (st : storage) rs ix ts,
  let a := ADef "T" (ascii_bytes "archive T") [("mv", RSig (CMultivector idx8 [pt]) (ascii_bytes "mv") true)] in
  absent st "mv" /\ open_archive a st = Ok rs /\ archive_getattr rs "mv" = Ok (Some (OMultiNoData ix ts)) /\
  vector_len ix = 3.
Proof.
  exists (StDir [("mv.schema", NFile (ascii_bytes "mv")); ("mv_index", NFile (framed [0; 3; 6]))]). do 3 eexists.
  split; [reflexivity|]. split; [vm_compute; reflexivity|]. split; reflexivity.
Qed.
(** ... and any other optional resource with a schema but no data makes opening raise TypeError. *)
Theorem C26_optional_no_data_error a st n c sch st' : only_suspect a st n (RSig c sch true) st' -> is_archive c = false ->
  file_is st' (schema_file n) sch -> sch <> [] -> utf8_valid sch = true -> absent st' n ->
  (forall it ts, c = CMultivector it ts -> absent st' (index_name n)) -> open_archive a st = Err TypeError.
Proof. intros Hs Hc Hf Hne Hu Ha Hi. eapply suspect_err; [exact Hs|]. now apply optional_no_data. Qed.

(** ** C27 *)
(** C27.  The opened archive has exactly the declared resources; each is what opening that resource on the storage gives; any
    other name raises AttributeError. *)
Theorem C27_accessors a st rs : NoDup (map fst (a_resources a)) -> open_archive a st = Ok rs ->
  (forall n sig, In (n, sig) (a_resources a) -> exists o, archive_getattr rs n = Ok o /\ open_resource n sig st = Ok o) /\
  (forall n, ~ In n (map fst (a_resources a)) -> archive_getattr rs n = Err AttributeError).
Proof.
  intros Hnd H. split.
  - intros n sig Hin. destruct (open_archive_get _ _ _ _ _ Hnd H Hin) as (o & Hg & Ho). exists o. unfold archive_getattr. now rewrite Hg.
  - intros n Hn. unfold archive_getattr. destruct (open_archive_in _ _ _ H) as (_ & _ & P).
    assert (E : dict_get rs n = None). { apply dict_get_none. intros X. apply Hn. now apply (Permutation_in _ P). }
    now rewrite E.
Qed.
(** C27.  Opening depends only on what is stored under the names the archive type mentions, at every depth. *)
Theorem C27_only_mentioned_files a st1 st2 : agree a st1 st2 -> open_archive a st1 = open_archive a st2.
Proof. apply agree_open. Qed.
Example C27_instance : agree outer (StDir (outer_tree "v")) (StDir (("junk", NFile [1]) :: ("raw_index", NDir []) :: rev (outer_tree "v")))%list.
Proof.
  constructor. intros n sig H. in_cases H.
  - constructor; [reflexivity|]. intros k Hk. cbn in Hk. intuition (subst; reflexivity).
  - eapply agree_same; reflexivity.
  - constructor; [reflexivity|]. intros k Hk. cbn in Hk. intuition (subst; reflexivity).
Qed.
