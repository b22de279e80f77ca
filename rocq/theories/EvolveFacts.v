(** Reading with a type that has the same layouts as the type the data was written with. *)
From Coq Require Import List ZArith Bool String Ascii Lia.
From Verif Require Import PyBase Spec DataAccess Structure StructSpec Resources Builder Archive ArchiveSpec OpenSpec ResourceSpec HistorySpec
  StructFacts BuilderFacts ArchiveFacts HistoryFacts CrashFacts EndToEnd Props_Archive SameSpec.
Import ListNotations.
Local Open Scope string_scope.
Local Open Scope Z_scope.

Lemma F2_impl {A B} (P Q : A -> B -> Prop) l m : (forall a b, P a b -> Q a b) -> Forall2 P l m -> Forall2 Q l m.
Proof. intros H F. induction F; constructor; auto. Qed.
Lemma sdef_ok_same a b : same_layout a b -> sdef_ok a -> sdef_ok b.
Proof. intros (F & S & K) (A1 & A2 & A3 & A4 & A5 & A6). unfold sdef_ok. rewrite <- F, <- S. repeat (split; [assumption|]). intros k. rewrite <- K. apply A6. Qed.
Lemma record_same a b r vals : same_layout a b -> record_values r a vals -> record_values r b vals.
Proof. intros (F & S & K) (A & B). split; [now rewrite <- F|]. intros k Hk. apply K. now apply B. Qed.
Lemma pack_same a b r : same_layout a b -> pack_record a r = pack_record b r.
Proof. intros (F & S & _). unfold pack_record. now rewrite F, S. Qed.
Lemma nth_same ts us i a : Forall2 same_struct ts us -> nth_error ts i = Some a -> exists b, nth_error us i = Some b /\ same_struct a b.
Proof. intros H. revert i. induction H as [|x y ts us S H IH]; intros [|i] E; try discriminate; cbn in *; [injection E as <-; eauto|]. now apply IH. Qed.
Lemma element_same ts us e out : Forall2 same_struct ts us -> element_is ts e out -> element_is us e out.
Proof. intros H (sd & A & B & C & D). destruct (nth_same ts us _ _ H B) as (b & Eb & N & L). exists b. split; [exact A|]. split; [exact Eb|]. split; [congruence|]. now apply (record_same sd). Qed.
Lemma names_same ts us : Forall2 same_struct ts us -> map s_name ts = map s_name us.
Proof. induction 1 as [|x y ts us (N & _) H IH]; [reflexivity|]. cbn. congruence. Qed.
Lemma types_same ts us : Forall2 same_struct ts us -> types_ok ts -> types_ok us.
Proof.
  intros H (A & B & C). split; [now rewrite <- (names_same ts us H)|]. split.
  - unfold zlen in *. rewrite <- (map_length s_name us), <- (names_same ts us H), map_length. exact B.
  - clear A B. induction H as [|x y ts us (_ & L) H IH]; [constructor|]. inversion C; subst. constructor; [now apply (sdef_ok_same x)|auto].
Qed.
Lemma element_size_same ts us out : Forall2 same_struct ts us -> element_size ts out = element_size us out.
Proof.
  intros H. unfold element_size. generalize (Z.to_nat (fst out)). induction H as [|x y ts us (_ & _ & S & _) H IH]; intros [|i]; cbn; try reflexivity; [now rewrite S|apply IH].
Qed.
Lemma buckets_size_same ts us outss : Forall2 same_struct ts us -> buckets_size ts outss = buckets_size us outss.
Proof. intros H. unfold buckets_size. f_equal. apply map_ext. intros os. f_equal. apply map_ext. intros o. now apply element_size_same. Qed.
Lemma acceptable_same c1 c2 s1 s2 o1 o2 v : same_container c1 c2 -> acceptable (RSig c1 s1 o1) v -> acceptable (RSig c2 s2 o2) v.
Proof.
  intros S H. unfold acceptable in *. cbn [r_container] in *. destruct S as [a b (N & L)|a b (N & L)|i j ts us L H2| |a b A]; destruct v; try contradiction; try exact H.
  - destruct H as (A & B & vals & C). pose proof L as (F & S & _). split; [now apply (sdef_ok_same a)|]. split; [congruence|]. exists vals. now apply (record_same a).
  - destruct H as (A & B & C & valss & D). pose proof L as (F & S & _). split; [now apply (sdef_ok_same a)|]. split; [congruence|]. split; [congruence|]. exists valss. eapply F2_impl; [|exact D]. intros r vals. now apply record_same.
  - destruct H as (A & B & w & outss & (I1 & I2 & I3) & C & D). pose proof L as (F & S & _). split; [now apply (types_same ts)|]. split; [congruence|]. exists w, outss. split; [split; [congruence|split; [exact I2|congruence]]|]. split.
    + eapply F2_impl; [|exact C]. intros es os E. eapply F2_impl; [|exact E]. intros e o. now apply element_same.
    + now rewrite <- (buckets_size_same ts us).
Qed.

Lemma mapM_ext_all {A B} (f g : A -> res B) l : (forall x, f x = g x) -> mapM f l = mapM g l.
Proof. intros H. induction l as [|x l IH]; [reflexivity|]. cbn. now rewrite H, IH. Qed.
Lemma find_type_same ts us n : Forall2 same_struct ts us -> forall i,
  match find_type i ts n, find_type i us n with None, None => True | Some (j, a), Some (k, b) => j = k /\ same_struct a b | _, _ => False end.
Proof.
  induction 1 as [|x y ts us S H IH]; intros i; cbn; [exact I|]. specialize (IH (i + 1)). destruct (find_type (i + 1) ts n) as [(j, a)|], (find_type (i + 1) us n) as [(k, b)|]; try contradiction; [exact IH|].
  pose proof S as (N & _). rewrite N. destruct (String.eqb (s_name y) n); auto.
Qed.
Lemma payload_same c1 c2 s1 s2 o1 o2 v : same_container c1 c2 -> payload_of (RSig c1 s1 o1) v = payload_of (RSig c2 s2 o2) v.
Proof.
  intros S. unfold payload_of. cbn [r_container]. destruct S as [a b (N & L)|a b (N & L)|i j ts us L H2| |a b A]; destruct v; try reflexivity.
  - now rewrite (pack_same a b).
  - now rewrite (mapM_ext_all (pack_record a) (pack_record b)) by (intros; now apply pack_same).
  - destruct L as (F & Sz & _). rewrite <- Sz. rewrite (mapM_ext_all (bucket_bytes ts) (bucket_bytes us)); [reflexivity|]. intros es. unfold bucket_bytes. f_equal. apply mapM_ext_all. intros e. unfold element_bytes.
    pose proof (find_type_same ts us (fst e) H2 0) as X. destruct (find_type 0 ts (fst e)) as [(k, a)|], (find_type 0 us (fst e)) as [(k', b)|]; try contradiction; [|reflexivity].
    destruct X as (-> & _ & (F' & S' & _)). unfold pack_element. now rewrite F', S'.
Qed.

Lemma same_find rs1 rs2 : same_resources rs1 rs2 -> forall n c2 s2 o, In (n, RSig c2 s2 o) rs2 -> exists c1 s1, In (n, RSig c1 s1 o) rs1 /\ same_container c1 c2.
Proof.
  induction 1 as [|n c c' s s' o rs rs' C R IH]; intros m c2 s2 o2 [].
  - injection H as <- <- <- <-. exists c, s. split; [now left|exact C].
  - destruct (IH _ _ _ _ H) as (c1 & s1 & A & B). exists c1, s1. split; [now right|exact B].
Qed.
Lemma files_same n c1 c2 s1 s2 o1 o2 : same_container c1 c2 -> files_of n (RSig c1 s1 o1) = files_of n (RSig c2 s2 o2).
Proof. now destruct 1. Qed.
Lemma archive_same_kind c1 c2 : same_container c1 c2 -> is_archive c1 = is_archive c2.
Proof. now destruct 1. Qed.

Section Evolve.
  Variables a1 a2 : adef.
  Hypothesis (G1 : generated a1) (Z1 : sizes_ok a1) (S1 : schemas_ok a1) (N1 : no_subarchives a1).
  Hypothesis (Sig2 : In (archive_file a2, RSig CRawData (a_schema a2) false) (a_resources a2)) (D2 : NoDup (map fst (a_resources a2))).
  Hypothesis Lay : a_schema a1 = a_schema a2 -> same_archive a1 a2.
  Hypothesis Own : forall n sig, In (n, sig) (a_resources a1) -> In (archive_file a2) (files_of n sig) -> archive_file a2 = archive_file a1.
  Variables (d0 : fs) (sets : list (string * setval)).
  Hypothesis (C0 : clean a1 d0) (E0 : dict_get d0 (archive_file a2) = None) (Nd : NoDup (map fst sets)).
  Hypothesis Acc : forall n v, In (n, v) sets -> n <> archive_file a1 /\ exists sig, In (n, sig) (a_resources a1) /\ acceptable sig v.
  Let D := files_after d0 (build a1 (sets_of sets)).

  Lemma evolve_valid : Forall (valid_call a1) sets.
  Proof. apply Forall_forall. intros [n v] Hin. destruct (Acc n v Hin) as (Hne & sig & Hs & Ha). eapply acceptable_valid; eassumption. Qed.
  Lemma evolve_files f : dict_get D f = match dict_get (expected_files a1 sets) f with
     | Some c => Some c
     | None => if String.eqb (schema_file (archive_file a1)) f then Some (a_schema a1)
               else if String.eqb (archive_file a1) f then Some (zeros 16) else dict_get d0 f
     end.
  Proof. apply (build_files a1 sets G1 Z1 Nd evolve_valid). Qed.
  Lemma evolve_unset n sig : In (n, sig) (a_resources a1) -> ~ In n (map fst sets) -> forall f, In f (files_of n sig) -> dict_get (expected_files a1 sets) f = None.
  Proof.
    intros Hr Hni f Hf. destruct (dict_get (expected_files a1 sets) f) as [c|] eqn:E; [|reflexivity]. exfalso.
    apply expected_inv in E. destruct E as (n' & v' & sig' & p' & ix' & Hin' & Ha' & Hp' & Hc').
    pose proof (distinct_neq a1 n sig n' sig' f (proj2 G1) Hr (dict_get_in _ _ _ Ha') Hf (set_get_file a1 n' v' sig' p' ix' f c Ha' Hp' Hc')) as Eq.
    inversion Eq; subst. apply Hni. now apply (in_map fst) in Hin'.
  Qed.

  Variable rs : list (string * option opened).
  Hypothesis Op : open_archive a2 (storage_of_fs D) = Ok rs.

  Lemma evolve_archive : archive_file a2 = archive_file a1 /\ a_schema a1 = a_schema a2.
  Proof.
    destruct (open_archive_get a2 _ rs _ _ D2 Op Sig2) as (o & _ & Ho). pose proof (leaf_required _ CRawData _ _ _ eq_refl Ho) as P. cbn in P. inversion P as [|? ? P1 P']; subst. inversion P' as [|? ? P2 _]; subst. clear P P'.
    assert (Ef : archive_file a2 = archive_file a1).
    { destruct P2 as (g & Hg). rewrite storage_lookup, evolve_files in Hg. destruct (dict_get (expected_files a1 sets) (archive_file a2)) as [c|] eqn:E.
      - apply expected_inv in E as (n & v & sig & p & ix & Hin & Ha & Hp & Hc). exact (Own n sig (dict_get_in _ _ _ Ha) (set_get_file a1 n v sig p ix _ _ Ha Hp Hc)).
      - destruct (String.eqb (schema_file (archive_file a1)) (archive_file a2)) eqn:X.
        + apply String.eqb_eq in X. apply (Own _ _ (proj1 G1)). right. left. exact X.
        + destruct (String.eqb (archive_file a1) (archive_file a2)) eqn:X'; [now apply String.eqb_eq in X'|]. rewrite E0 in Hg. discriminate. }
    split; [exact Ef|]. destruct (S1 _ _ (proj1 G1)) as (Sn & Su). cbn [r_schema] in Sn, Su. apply (leaf_schema (archive_file a2) CRawData (a_schema a2) false _ o (a_schema a1) eq_refl Ho); [|exact Sn].
    unfold file_is. rewrite storage_lookup, evolve_files, Ef. rewrite (evolve_unset _ _ (proj1 G1)).
    - rewrite String.eqb_refl. destruct (a_schema a1); [congruence|reflexivity].
    - intros Hin. apply in_map_iff in Hin as ((n, v) & En & Hin). cbn in En. destruct (Acc n v Hin) as (X & _). congruence.
    - right. left. reflexivity.
  Qed.

  Lemma evolve : same_archive a1 a2
    /\ (forall n v sig, In (n, v) sets -> In (n, sig) (a_resources a2) -> exists o, archive_getattr rs n = Ok o /\ holds sig v o)
    /\ (forall n sig, In (n, sig) (a_resources a2) -> ~ In n (map fst sets) -> archive_getattr rs n = Ok None).
  Proof.
    destruct evolve_archive as (Ef & Es). pose proof (Lay Es) as Sa. split; [exact Sa|].
    assert (Sr : same_resources (a_resources a1) (a_resources a2)) by (destruct Sa as [n s s' rs1 rs2 R]; exact R).
    assert (Pair : forall n c2 s2 o, In (n, RSig c2 s2 o) (a_resources a2) -> exists c1 s1, In (n, RSig c1 s1 o) (a_resources a1) /\ same_container c1 c2 /\ is_archive c2 = false).
    { intros n c2 s2 o H. destruct (same_find _ _ Sr _ _ _ _ H) as (c1 & s1 & A & B). exists c1, s1. split; [exact A|]. split; [exact B|]. rewrite <- (archive_same_kind _ _ B). exact (N1 _ _ A). }
    split.
    - intros n v [c2 s2 o2] Hin Hr. destruct (Pair _ _ _ _ Hr) as (c1 & s1 & H1 & Sc & Na). destruct (Acc n v Hin) as (Ne & sig & Hs & Ha).
      assert (sig = RSig c1 s1 o2) by (pose proof (res_get a1 n sig (proj2 G1) Hs); pose proof (res_get a1 n _ (proj2 G1) H1); congruence). subst sig. destruct (S1 _ _ H1) as (Sn & Su). cbn [r_schema] in Sn, Su.
      destruct (stored_holds n (RSig c1 s1 o2) v Ha Sn Su) as (p & ix & _ & (V1 & V2 & V3 & V4) & _ & _).
      assert (File : forall f c, dict_get (set_files n (RSig c1 s1 o2) p ix) f = Some c -> dict_get D f = Some c).
      { intros f c Hc. rewrite evolve_files, (expected_get a1 sets n v (RSig c1 s1 o2) p ix f c (proj2 G1) Nd Hin (res_get _ _ _ (proj2 G1) H1) V2 Hc). reflexivity. }
      destruct (open_archive_get a2 _ rs n _ D2 Op Hr) as (o & Hg & Ho). exists o. unfold archive_getattr. rewrite Hg. split; [reflexivity|].
      assert (s1 = s2). { apply (leaf_schema n c2 s2 o2 _ o s1 Na Ho); [|exact Sn]. unfold file_is. rewrite storage_lookup, (File (schema_file n) s1); [destruct s1; [congruence|reflexivity]|]. unfold set_files. cbn [dict_get]. now rewrite String.eqb_refl. } subst s2.
      destruct (stored_holds n (RSig c2 s1 o2) v (acceptable_same c1 c2 s1 s1 o2 o2 v Sc Ha) Sn Su) as (p' & ix' & o' & (W1 & W2 & W3 & W4) & Ho' & Hh).
      rewrite <- (payload_same c1 c2 s1 s1 o2 o2 v Sc), V2 in W2. injection W2 as <- <-. enough (Ok o = Ok o') as E by (injection E as ->; exact Hh). rewrite <- Ho, <- Ho'. apply open_local; [exact Na|]. intros f Hf. rewrite <- (files_same n c1 c2 s1 s1 o2 o2 Sc) in Hf.
      destruct (file_set_get n v _ p ix f V2 Hf) as (c & Hc). rewrite (File f c Hc). symmetry. exact Hc.
    - intros n [c2 s2 o2] Hr Hni. destruct (Pair _ _ _ _ Hr) as (c1 & s1 & H1 & Sc & Na). destruct (open_archive_get a2 _ rs n _ D2 Op Hr) as (o & Hg & Ho). unfold archive_getattr. rewrite Hg. f_equal.
      destruct (string_dec n (archive_file a1)) as [->|Ne].
      + rewrite <- Ef in Hr, Ho, Hg. assert (X : RSig c2 s2 o2 = RSig CRawData (a_schema a2) false) by (pose proof (dict_get_nodup _ _ _ D2 Hr); pose proof (dict_get_nodup _ _ _ D2 Sig2); congruence). injection X as -> -> ->.
        destruct (S1 _ _ (proj1 G1)) as (Sn & Su). cbn [r_schema] in Sn, Su. enough (Y : open_resource (archive_file a2) (RSig CRawData (a_schema a2) false) (storage_of_fs D) = Ok None) by congruence.
        rewrite <- Es, Ef.
        apply archive_resource_opens; [exact Sn|exact Su| |]; rewrite evolve_files, (evolve_unset _ _ (proj1 G1) Hni) by (unfold files_of; cbn; tauto).
        * now rewrite String.eqb_refl.
        * rewrite schema_neq. now rewrite String.eqb_refl.
      + assert (Ab : dict_get D (schema_file n) = None).
        { assert (Hf : In (schema_file n) (files_of n (RSig c1 s1 o2))) by (apply files_of_self). rewrite evolve_files, (evolve_unset n _ H1 Hni _ Hf).
          replace (String.eqb (schema_file (archive_file a1)) (schema_file n)) with false.
          2:{ symmetry. apply String.eqb_neq. intros E. pose proof (distinct_neq a1 _ _ _ _ (schema_file n) (proj2 G1) (proj1 G1) H1) as Eq. rewrite <- E in Eq at 1. specialize (Eq (proj2 (files_of_self _ _)) (proj2 (files_of_self _ _))). congruence. }
          replace (String.eqb (archive_file a1) (schema_file n)) with false.
          2:{ symmetry. apply String.eqb_neq. intros E. pose proof (distinct_neq a1 _ _ _ _ (schema_file n) (proj2 G1) (proj1 G1) H1) as Eq. rewrite <- E in Eq at 1. specialize (Eq (proj1 (files_of_self _ _)) (proj2 (files_of_self _ _))). congruence. }
          exact (C0 n _ _ H1 Hf). }
        destruct o2.
        * rewrite (optional_absent n c2 s2) in Ho; [congruence|]. rewrite Na. unfold absent. rewrite storage_lookup, Ab. reflexivity.
        * exfalso. pose proof (leaf_required n c2 s2 _ o Na Ho) as P. inversion P as [|? ? (g & P1) _]; subst. rewrite storage_lookup, Ab in P1. discriminate.
  Qed.
End Evolve.
