(** What a reader gets back for a stored value; crash points. *)
From Coq Require Import List ZArith Bool String Lia Permutation.
From Coq Require Import ZifyBool ZifyNat.
From Verif Require Import PyBase Spec DataAccess BitFacts DataAccessFacts DataAccessThms Structure StructSpec StructFacts
  Resources SliceSpec Builder Archive ArchiveSpec OpenSpec BuilderFacts ResourceSpec ResourceFacts SliceFacts MultiFacts RawFacts ResourceThms
  ArchiveFacts HistorySpec HistoryFacts CrashFacts.
Import ListNotations.
Local Open Scope string_scope.
Local Open Scope list_scope.
Local Open Scope Z_scope.

Lemma every_one {A} (l : list A) : every 1 l = l.
Proof. unfold every. cbn [Nat.sub]. induction l as [|x t IH]; cbn [every_aux]; [reflexivity|]. now rewrite IH. Qed.

(** ** one resource *)
Lemma lookup_schema n sig p ix opt : r_schema sig <> [] ->
  st_lookup (storage_of_fs (set_files n sig p ix)) (schema_file n) opt = Ok (GotMem (r_schema sig)).
Proof.
  intros H. rewrite storage_lookup. unfold set_files. cbn [dict_get]. rewrite String.eqb_refl.
  destruct (r_schema sig); [congruence|reflexivity].
Qed.
Lemma lookup_data n sig p ix opt :
  st_lookup (storage_of_fs (set_files n sig p ix)) n opt = Ok (GotMem (framed p)).
Proof.
  rewrite storage_lookup, set_files_self. pose proof (framed_ne p). destruct (framed p); [congruence|reflexivity].
Qed.
Lemma lookup_index n sig p i opt :
  st_lookup (storage_of_fs (set_files n sig p (Some i))) (index_name n) opt = Ok (GotMem (framed i)).
Proof.
  rewrite storage_lookup, set_files_index. pose proof (framed_ne i). destruct (framed i); [congruence|reflexivity].
Qed.

Lemma open_set_files n sig p ix : is_archive (r_container sig) = false -> r_schema sig <> [] -> utf8_valid (r_schema sig) = true ->
  open_resource n sig (storage_of_fs (set_files n sig p ix)) =
  (o <- open_container (storage_of_fs (set_files n sig p ix)) n (r_container sig) (r_optional sig) ;; keep_truthy o).
Proof.
  destruct sig as [c sch opt]. cbn [r_container r_schema r_optional]. intros Hc Hs Hu.
  apply leaf_schema_good; try assumption. unfold file_is. apply (lookup_schema n (RSig c sch opt) p ix false Hs).
Qed.

Lemma py_len_ok n : n < 2 ^ 63 -> py_len n = Ok n.
Proof. intros H. unfold py_len. destruct (2 ^ 63 <=? n) eqn:E; [apply Z.leb_le in E; lia|reflexivity]. Qed.

Lemma lt63_64 x : x < 2 ^ 63 -> x < 2 ^ 64.
Proof. intros H. change (2 ^ 64) with (2 * 2 ^ 63). lia. Qed.

(** A valid set of a one-resource archive determines the payload. *)
Definition one (n : string) (sig : rsig) : adef := ADef "" [] [(n, sig)].
Lemma one_get n sig : dict_get (a_resources (one n sig)) n = Some sig.
Proof. cbn. now rewrite String.eqb_refl. Qed.
Lemma one_payload n sig v s' : sig_sized sig -> builder_set (one n sig) n v bstate0 = (s', Ok tt) ->
  exists p ix, valid_set n sig v p ix /\ forall f, dict_get (files_after [] s') f = dict_get (set_files n sig p ix) f.
Proof.
  intros Hsz H. destruct (set_success_files (one n sig) n v bstate0 s') as (sig' & p & ix & Ha & _ & Hv & F).
  - intros m sg Hm. cbn in Hm. destruct (String.eqb n m); [inversion Hm; now subst|discriminate].
  - exact H.
  - rewrite one_get in Ha. inversion Ha; subst sig'. exists p, ix. split; [assumption|]. intros f. rewrite F.
    destruct (dict_get (set_files n sig p ix) f); reflexivity.
Qed.

Lemma stored_holds n sig v : acceptable sig v -> r_schema sig <> [] -> utf8_valid (r_schema sig) = true ->
  exists p ix o, valid_set n sig v p ix /\ open_resource n sig (storage_of_fs (set_files n sig p ix)) = Ok o /\ holds sig v o.
Proof.
  intros Hacc Hs Hu. destruct sig as [c sch opt]. unfold acceptable in Hacc. cbn [r_container r_schema] in *.
  destruct c as [sd|sd|it ts| |sub]; destruct v as [r|rs|bs|b|]; try contradiction.
  - destruct Hacc as (Hsd & Hsz & vals & Hrv).
    destruct (instance_roundtrip (one n (RSig (CInstance sd) sch opt)) n sd sch opt r vals bstate0) as (s' & E & F);
      [apply one_get|intros []|assumption|assumption|now apply lt63_64|].
    destruct (one_payload n _ _ s' (sdef_ok_size _ Hsd : sig_sized (RSig (CInstance sd) sch opt)) E) as (p & ix & Hv & G).
    destruct (F []) as (bytes & x & Hb & Ho & Hg & _). rewrite G, set_files_self in Hb. inversion Hb; subst bytes.
    exists p, ix, (Some (OInstance x)). split; [exact Hv|]. split.
    + rewrite open_set_files by (assumption || reflexivity). cbn [r_container r_optional open_container].
      rewrite lookup_data. cbn [bind need_mem]. rewrite Ho. reflexivity.
    + cbn. destruct (Hg 0 (or_introl eq_refl)) as (e & H1 & H2). exists x, e, vals. auto.
  - destruct Hacc as (Hsd & Hf & Hsz & valss & Hrv).
    destruct (vector_roundtrip (one n (RSig (CVector sd) sch opt)) n sd sch opt rs valss bstate0) as (s' & E & F);
      [apply one_get|intros []|assumption|assumption|assumption|now apply lt63_64|].
    destruct (one_payload n _ _ s' (sdef_ok_size _ Hsd : sig_sized (RSig (CVector sd) sch opt)) E) as (p & ix & Hv & G).
    destruct (F []) as (bytes & x & Hb & _ & Ho & Hl & Hi & _). rewrite G, set_files_self in Hb. inversion Hb; subst bytes.
    assert (Hlen : zlen rs < 2 ^ 63).
    { pose proof (sdef_size_pos sd Hsd Hf). pose proof (zlen_nonneg rs). nia. }
    exists p, ix, (if 0 <? zlen rs then Some (OVector x) else None). split; [exact Hv|]. split.
    + rewrite open_set_files by (assumption || reflexivity). cbn [r_container r_optional open_container].
      rewrite lookup_data. cbn [bind need_mem]. rewrite Ho. cbn [bind]. unfold keep_truthy. cbn [truthy]. rewrite Hl.
      rewrite py_len_ok by assumption. reflexivity.
    + destruct rs as [|r0 rt]; [reflexivity|].
      cbn [holds r_container]. exists x, valss.
      split; [|auto]. rewrite zlen_cons. pose proof (zlen_nonneg rt). destruct (0 <? 1 + zlen rt) eqn:Ez; [reflexivity|lia].
  - destruct Hacc as (Hts & Hsz & w & outss & Hit & Hbs & Hbound).
    destruct (multi_roundtrip (one n (RSig (CMultivector it ts) sch opt)) n it w ts sch opt bs outss bstate0) as (s' & E & F);
      [apply one_get|intros []|assumption|assumption|assumption|assumption|now apply lt63_64|].
    assert (Hss : sig_sized (RSig (CMultivector it ts) sch opt)).
    { cbn. destruct (index_size it w Hit) as [Hs0 _]. split; [lia|]. destruct Hts as (_ & _ & Hok).
      eapply Forall_impl; [|exact Hok]. intros sd. apply sdef_ok_size. }
    destruct (one_payload n _ _ s' Hss E) as (p & ix & Hv & G).
    destruct (F []) as (data & index & m & Hb & Hb2 & Ho & Hl & elss & H1 & H2 & _).
    pose proof (proj1 (proj2 Hv)) as Hp. pose proof (payload_ix _ _ _ _ Hp) as Hix. destruct ix as [i|].
    2:{ exfalso. now apply (Hix it ts). }
    rewrite G, set_files_self in Hb. inversion Hb; subst data. rewrite G, set_files_index in Hb2. inversion Hb2; subst index.
    assert (Hlen : zlen bs + 1 < 2 ^ 63).
    { destruct (index_size it w Hit) as [Hs0 _]. pose proof (zlen_nonneg bs). nia. }
    exists p, (Some i), (if 0 <? zlen bs then Some (OMulti m) else None). split; [exact Hv|]. split.
    + rewrite open_set_files by (assumption || reflexivity). cbn [r_container r_optional open_container].
      change (n ++ "_index")%string with (index_name n). rewrite lookup_index, lookup_data. cbn [bind need_mem].
      rewrite Ho. cbn [bind]. unfold keep_truthy. cbn [truthy]. rewrite py_len_ok; [cbn [bind]; rewrite Hl; reflexivity|].
      unfold multivector_len in Hl. lia.
    + destruct bs as [|r0 rt]; [reflexivity|].
      cbn [holds r_container]. exists m, outss, elss.
      split; [|auto]. rewrite zlen_cons. pose proof (zlen_nonneg rt). destruct (0 <? 1 + zlen rt) eqn:Ez; [reflexivity|lia].
  - destruct Hacc as (Hb & Hsz).
    destruct (raw_roundtrip (one n (RSig CRawData sch opt)) n sch opt b bstate0) as (s' & E & F);
      [apply one_get|intros []|assumption|now apply lt63_64|].
    destruct (one_payload n _ _ s' (I : sig_sized (RSig CRawData sch opt)) E) as (p & ix & Hv & G).
    destruct (F []) as (Hb1 & Ho). rewrite G, set_files_self in Hb1. assert (Hfr : framed p = framed b) by congruence. clear Hb1.
    assert (Hfits : fits64 b = true) by (unfold fits64; apply Z.ltb_lt; now apply lt63_64).
    exists p, ix, (if 0 <? zlen b then Some (ORaw (RawData (framed b))) else None). split; [exact Hv|]. split.
    + rewrite open_set_files by (assumption || reflexivity). cbn [r_container r_optional open_container].
      rewrite lookup_data, Hfr. cbn [bind need_mem]. rewrite Ho. cbn [bind]. unfold keep_truthy. cbn [truthy].
      rewrite raw_len by assumption. cbn [bind]. rewrite py_len_ok by assumption. reflexivity.
    + destruct b as [|b0 bt]; [reflexivity|].
      cbn [holds r_container]. exists (RawData (framed (b0 :: bt))). split.
      { rewrite zlen_cons. pose proof (zlen_nonneg bt). destruct (0 <? 1 + zlen bt) eqn:Ez; [reflexivity|lia]. }
      split; [now apply raw_len|].
      rewrite (raw_slice_spec (b0 :: bt) 0 (zlen (b0 :: bt)) None); [|lia|pose proof (zlen_nonneg (b0 :: bt)); lia|exact I].
      cbn [Z.to_nat skipn]. rewrite Z.sub_0_r. unfold zlen. rewrite Nat2Z.id, firstn_all. f_equal. apply every_one.
Qed.

(** ** end to end *)
Lemma set_unique n sig v p ix p' ix' : valid_set n sig v p ix -> valid_set n sig v p' ix' -> p = p' /\ ix = ix'.
Proof. intros (_ & H & _) (_ & H' & _). rewrite H in H'. inversion H'; auto. Qed.

Lemma stored_as_holds n sig v o : acceptable sig v -> r_schema sig <> [] -> utf8_valid (r_schema sig) = true ->
  stored_as n sig v o -> holds sig v o.
Proof.
  intros Ha Hs Hu (p & ix & Hv & Ho). destruct (stored_holds n sig v Ha Hs Hu) as (p' & ix' & o' & Hv' & Ho' & Hh).
  destruct (set_unique n sig v p ix p' ix' Hv Hv') as [-> ->]. rewrite Ho in Ho'. inversion Ho'; now subst.
Qed.

Lemma archive_resource_opens a d : r_schema (RSig CRawData (a_schema a) false) <> [] -> utf8_valid (a_schema a) = true ->
  dict_get d (schema_file (archive_file a)) = Some (a_schema a) -> dict_get d (archive_file a) = Some (zeros 16) ->
  open_resource (archive_file a) (RSig CRawData (a_schema a) false) (storage_of_fs d) = Ok None.
Proof.
  cbn [r_schema]. intros Hs Hu H1 H2. rewrite leaf_schema_good; try assumption; try reflexivity.
  - cbn [open_container]. rewrite storage_lookup, H2. vm_compute. reflexivity.
  - unfold file_is. rewrite storage_lookup, H1. destruct (a_schema a); [congruence|reflexivity].
Qed.

Lemma end_to_end a sets d0 : generated a -> sizes_ok a -> schemas_ok a -> no_subarchives a -> clean a d0 ->
  NoDup (map fst sets) -> Forall (valid_call a) sets ->
  (forall n v sig, In (n, v) sets -> In (n, sig) (a_resources a) -> acceptable sig v) ->
  (forall n sig, In (n, sig) (a_resources a) -> n <> archive_file a -> r_optional sig = false -> In n (map fst sets)) ->
  exists rs, open_archive a (storage_of_fs (files_after d0 (build a (sets_of sets)))) = Ok rs /\
    (forall n v sig, In (n, v) sets -> In (n, sig) (a_resources a) -> exists o, archive_getattr rs n = Ok o /\ holds sig v o) /\
    (forall n sig, In (n, sig) (a_resources a) -> ~ In n (map fst sets) -> archive_getattr rs n = Ok None).
Proof.
  intros Hg Hsz Hsch Hns Hcl Hnd Hv Hacc Hall. pose proof (proj2 Hg) as Hd.
  destruct (build_files a sets Hg Hsz Hnd Hv) as [HF _]. set (D := files_after d0 (build a (sets_of sets))) in *.
  assert (FD : forall f, dict_get D f = match dict_get (expected_files a sets) f with
     | Some c => Some c
     | None => if String.eqb (schema_file (archive_file a)) f then Some (a_schema a)
               else if String.eqb (archive_file a) f then Some (zeros 16) else dict_get d0 f
     end) by (intros f; apply HF). clear HF. clearbody D.
  assert (Hset : forall n v sig, In (n, v) sets -> In (n, sig) (a_resources a) ->
            exists o, open_resource n sig (storage_of_fs D) = Ok o /\ holds sig v o).
  { intros n v sig Hin Hr. pose proof (res_get a n sig Hd Hr) as Ha. destruct (Hsch _ _ Hr) as [Hs Hu].
    destruct (stored_holds n sig v (Hacc _ _ _ Hin Hr) Hs Hu) as (p & ix & o & Hval & Ho & Hh).
    exists o. split; [|exact Hh]. rewrite <- Ho. apply open_local; [now apply (Hns n)|].
    intros f Hf. pose proof (proj1 (proj2 Hval)) as Hp. destruct (file_set_get n v sig p ix f Hp Hf) as (c & Hc).
    rewrite FD, Hc. rewrite (expected_get a sets n v sig p ix f c Hd Hnd Hin Ha Hp Hc). reflexivity. }
  assert (Hnone : forall n sig, In (n, sig) (a_resources a) -> ~ In n (map fst sets) ->
            forall f, In f (files_of n sig) -> dict_get (expected_files a sets) f = None).
  { intros n sig Hr Hni f Hf. destruct (dict_get (expected_files a sets) f) as [c|] eqn:E; [|reflexivity]. exfalso.
    apply expected_inv in E. destruct E as (n' & v' & sig' & p' & ix' & Hin' & Ha' & Hp' & Hc').
    pose proof (distinct_neq a n sig n' sig' f Hd Hr (dict_get_in _ _ _ Ha') Hf (set_get_file a n' v' sig' p' ix' f c Ha' Hp' Hc')) as Eq.
    inversion Eq; subst. apply Hni. now apply (in_map fst) in Hin'. }
  assert (Hunset : forall n sig, In (n, sig) (a_resources a) -> ~ In n (map fst sets) ->
            open_resource n sig (storage_of_fs D) = Ok None).
  { intros n sig Hr Hni. pose proof (Hnone n sig Hr Hni) as HN.
    destruct (string_dec n (archive_file a)) as [->|Hne].
    - pose proof (res_get a _ _ Hd Hr) as E1. pose proof (res_get a _ _ Hd (proj1 Hg)) as E2.
      assert (sig = RSig CRawData (a_schema a) false) by congruence. subst sig. destruct (Hsch _ _ Hr) as [Hs Hu].
      apply archive_resource_opens; [assumption|assumption| |].
      + rewrite FD, HN by (apply files_of_self). now rewrite String.eqb_refl.
      + rewrite FD, HN by (apply files_of_self). rewrite schema_neq. now rewrite String.eqb_refl.
    - destruct sig as [c sch opt]. destruct opt.
      + apply optional_absent. pose proof (Hns _ _ Hr) as Hc. cbn [r_container] in Hc. rewrite Hc. unfold absent.
        rewrite storage_lookup, FD, HN by (apply files_of_self).
        replace (String.eqb (schema_file (archive_file a)) (schema_file n)) with false.
        2:{ symmetry. apply String.eqb_neq. intros E.
            pose proof (distinct_neq a _ _ _ _ (schema_file n) Hd (proj1 Hg) Hr) as Eq. rewrite <- E in Eq at 1.
            specialize (Eq (proj2 (files_of_self _ _)) (proj2 (files_of_self _ _))). discriminate Eq. }
        replace (String.eqb (archive_file a) (schema_file n)) with false.
        2:{ symmetry. apply String.eqb_neq. intros E.
            pose proof (distinct_neq a _ _ _ _ (schema_file n) Hd (proj1 Hg) Hr) as Eq. rewrite <- E in Eq at 1.
            specialize (Eq (proj1 (files_of_self _ _)) (proj2 (files_of_self _ _))). discriminate Eq. }
        rewrite (Hcl n _ (schema_file n) Hr (proj2 (files_of_self _ _))). reflexivity.
      + exfalso. apply Hni. eapply Hall; eauto. }
  destruct (open_archive_all a (storage_of_fs D)) as (rs & Hrs).
  { intros n sig Hr. destruct (in_dec string_dec n (map fst sets)) as [Hi|Hi].
    - apply in_map_iff in Hi. destruct Hi as ([m v] & Em & Hi). cbn in Em. subst m.
      destruct (Hset _ _ _ Hi Hr) as (o & Ho & _). eauto.
    - eauto. }
  exists rs. split; [exact Hrs|]. split.
  - intros n v sig Hin Hr. destruct (open_archive_get a _ rs n sig (distinct_names a Hd) Hrs Hr) as (o & E & Ho).
    destruct (Hset _ _ _ Hin Hr) as (o' & Ho' & Hh). rewrite Ho in Ho'. inversion Ho'; subst o'.
    exists o. unfold archive_getattr. rewrite E. auto.
  - intros n sig Hr Hni. destruct (open_archive_get a _ rs n sig (distinct_names a Hd) Hrs Hr) as (o & E & Ho).
    rewrite (Hunset _ _ Hr Hni) in Ho. inversion Ho; subst o. unfold archive_getattr. now rewrite E.
Qed.

(** ** crash points *)
Definition untouched (n : string) (sig : rsig) (d : fs) : Prop := forall f, In f (files_of n sig) -> dict_get d f = None.
Definition failed (n : string) (sig : rsig) (d : fs) : Prop :=
  dict_get d (schema_file n) = Some (r_schema sig) /\ dict_get d n = Some [].
Definition broken (n : string) (sig : rsig) (d : fs) : Prop :=
  dict_get d (schema_file n) = Some [] \/
  (dict_get d (schema_file n) = Some (r_schema sig) /\ dict_get d n = None /\
   (In (index_name n) (files_of n sig) -> dict_get d (index_name n) = None)) \/
  failed n sig d.
Definition complete (n : string) (sig : rsig) (L : list (string * setval)) (d : fs) : Prop :=
  exists v p ix, In (n, v) L /\ valid_set n sig v p ix /\
    forall f, In f (files_of n sig) -> dict_get d f = dict_get (set_files n sig p ix) f.

Lemma broken_err n sig d : is_archive (r_container sig) = false -> r_schema sig <> [] -> utf8_valid (r_schema sig) = true ->
  broken n sig d -> exists e, open_resource n sig (storage_of_fs d) = Err e.
Proof.
  destruct sig as [c sch opt]. cbn [r_container r_schema]. intros Hc Hs Hu [H|[H|H]].
  - exists ValueError. rewrite open_leaf by assumption. unfold schema_validated. cbn [r_optional].
    change (n ++ ".schema")%string with (schema_file n). rewrite storage_lookup, H. reflexivity.
  - cbn [r_schema] in H. destruct H as (H1 & H2 & H3).
    rewrite leaf_schema_good; try assumption.
    2:{ unfold file_is. rewrite storage_lookup, H1. destruct sch; [congruence|reflexivity]. }
    unfold files_of in H3. cbn [r_container] in H3.
    destruct c as [sd|sd|it ts| |x]; cbn [open_container]; try discriminate;
      try (rewrite storage_lookup, H2; destruct opt; cbn; eauto).
    rewrite (storage_lookup d (n ++ "_index")). change (n ++ "_index")%string with (index_name n).
    rewrite H3 by (cbn; auto). destruct opt; cbn [bind]; [|eauto]. rewrite storage_lookup, H2. cbn. eauto.
  - destruct H as (H1 & H2). cbn [r_schema] in H1.
    rewrite leaf_schema_good; try assumption.
    2:{ unfold file_is. rewrite storage_lookup, H1. destruct sch; [congruence|reflexivity]. }
    destruct c as [sd|sd|it ts| |x]; cbn [open_container]; try discriminate;
      try (rewrite storage_lookup, H2; cbn; eauto).
    destruct (st_lookup (storage_of_fs d) (n ++ "_index") opt) as [g|]; cbn [bind]; [|eauto].
    rewrite storage_lookup, H2. cbn. eauto.
Qed.

Lemma prefix_nil {A} (q : list A) : prefix q [] -> q = [].
Proof. intros (r & H). symmetry in H. apply app_eq_nil in H. tauto. Qed.
Lemma prefix_cons {A} (q : list A) x l : prefix q (x :: l) -> q = [] \/ exists q', q = x :: q' /\ prefix q' l.
Proof.
  intros (r & H). destruct q as [|y q']; [now left|]. cbn in H. inversion H; subst. right. exists q'. split; [reflexivity|]. now exists r.
Qed.
Lemma prefix_app {A} (l1 : list A) : forall q l2, prefix q (l1 ++ l2) -> prefix q l1 \/ exists q', q = l1 ++ q' /\ prefix q' l2.
Proof.
  induction l1 as [|x t IH]; intros q l2 H; cbn [app] in H.
  - right. exists q. auto.
  - apply prefix_cons in H. destruct H as [->|(q' & -> & H)].
    + left. now exists (x :: t).
    + apply IH in H. destruct H as [(r & ->)|(q2 & -> & H)].
      * left. exists r. reflexivity.
      * right. exists q2. auto.
Qed.
Lemma prefix_forall {A} (P : A -> Prop) q l : prefix q l -> Forall P l -> Forall P q.
Proof. intros (r & ->) H. apply Forall_app in H. tauto. Qed.

(** Applying a strict or full prefix of the operations of one (failing or succeeding) set to its own files. *)
Lemma seg_status n sig d q mid : r_schema sig <> [] -> untouched n sig d \/ failed n sig d ->
  Forall (fun o => side_file n sig (op_file o)) mid -> prefix q (begin_ops n sig ++ mid) ->
  untouched n sig (apply_ops d q) \/ broken n sig (apply_ops d q).
Proof.
  intros Hs Hst Hmid Hq. apply prefix_app in Hq. destruct Hq as [Hq|(q2 & -> & Hq)].
  - assert (W : wr (schema_file n) (r_schema sig) = [OWrite (schema_file n) (r_schema sig)]).
    { destruct (r_schema sig); [congruence|reflexivity]. }
    unfold begin_ops in Hq. rewrite W in Hq. cbn [app] in Hq.
    apply prefix_cons in Hq. destruct Hq as [->|(q1 & -> & Hq)].
    { destruct Hst; [now left|right]. now right; right. }
    apply prefix_cons in Hq. destruct Hq as [->|(q3 & -> & Hq)].
    { right. left. cbn [apply_ops fold_left]. rewrite apply_op_get. cbn [op_file]. now rewrite String.eqb_refl. }
    apply prefix_cons in Hq. destruct Hq as [->|(q4 & -> & Hq)].
    { right. right. change (apply_ops d [OOpen (schema_file n); OWrite (schema_file n) (r_schema sig)])
        with (apply_ops d (OOpen (schema_file n) :: [OWrite (schema_file n) (r_schema sig)])). rewrite <- W.
      assert (S1 : dict_get (apply_ops d (OOpen (schema_file n) :: wr (schema_file n) (r_schema sig))) (schema_file n) = Some (r_schema sig)).
      { rewrite open_write_get. now rewrite String.eqb_refl. }
      assert (S2 : dict_get (apply_ops d (OOpen (schema_file n) :: wr (schema_file n) (r_schema sig))) n = dict_get d n).
      { rewrite open_write_get. now rewrite schema_neq. }
      destruct Hst as [Hu|(F1 & F2)].
      - left. split; [exact S1|]. split; [rewrite S2; apply Hu; apply files_of_self|].
        intros Hi. rewrite open_write_get, schema_index_neq. now apply Hu.
      - right. split; [exact S1|]. now rewrite S2. }
    apply prefix_nil in Hq. subst q4. right. right. right.
    assert (B : [OOpen (schema_file n); OWrite (schema_file n) (r_schema sig); OOpen n] = begin_ops n sig).
    { unfold begin_ops. rewrite W. reflexivity. }
    rewrite B. split; rewrite begin_get; [rewrite String.eqb_sym, schema_neq|]; now rewrite String.eqb_refl.
  - right. right. right. apply (prefix_forall _ _ _ Hq) in Hmid. rewrite apply_ops_app.
    split; rewrite apply_ops_other.
    + rewrite begin_get. rewrite String.eqb_sym, schema_neq. now rewrite String.eqb_refl.
    + eapply Forall_impl; [|exact Hmid]. intros o Ho E. apply side_neq in Ho. tauto.
    + rewrite begin_get. now rewrite String.eqb_refl.
    + eapply Forall_impl; [|exact Hmid]. intros o Ho E. apply side_neq in Ho. tauto.
Qed.

Definition status (L : list (string * setval)) (n : string) (sig : rsig) (d : fs) : Prop :=
  untouched n sig d \/ broken n sig d \/ complete n sig L d.

Lemma status_same L n sig d d' : (forall f, In f (files_of n sig) -> dict_get d' f = dict_get d f) ->
  status L n sig d -> status L n sig d'.
Proof.
  intros H [U|[B|(v & p & ix & C1 & C2 & C3)]].
  - left. intros f Hf. rewrite H by assumption. auto.
  - right; left. unfold broken, failed in *. rewrite !H by (apply files_of_self).
    destruct B as [B|[(B1 & B2 & B3)|B]]; [now left| |now right; right]. right; left. split; [exact B1|]. split; [exact B2|].
    intros Hi. rewrite H by assumption. auto.
  - right; right. exists v, p, ix. split; [exact C1|]. split; [exact C2|]. intros f Hf. rewrite H by assumption. auto.
Qed.
Lemma status_more L x n sig d : status L n sig d -> status (L ++ [x]) n sig d.
Proof.
  intros [U|[B|(v & p & ix & C1 & C2 & C3)]]; [now left|now right; left|]. right; right. exists v, p, ix.
  split; [apply in_app_iff; now left|auto].
Qed.

(** Between calls: a resource not yet counted as written is untouched or failed; any other is in any status. *)
Definition Inv (a : adef) (d0 : fs) (L : list (string * setval)) (s : bstate) : Prop :=
  forall n sig, In (n, sig) (a_resources a) -> n <> archive_file a ->
    status L n sig (files_after d0 s) /\
    (~ In n (b_written s) -> untouched n sig (files_after d0 s) \/ failed n sig (files_after d0 s)).

Lemma index_ops_side n sig v p ix : payload_of sig v = Ok (p, ix) -> Forall (fun o => side_file n sig (op_file o)) (index_ops n sig ix).
Proof.
  intros Hp. destruct ix as [i|]; cbn [index_ops]; [|constructor].
  pose proof (payload_ix _ _ _ _ Hp) as (it & ts & Ec).
  assert (I1 : side_file n sig (index_name n)) by (unfold side_file, files_of; rewrite Ec; cbn; auto).
  assert (I2 : side_file n sig (schema_file (index_name n))) by (unfold side_file, files_of; rewrite Ec; cbn; auto 6).
  repeat (constructor; [assumption|]). constructor.
Qed.

Lemma step_inv a d0 L n v s : distinct_files a -> sizes_ok a -> schemas_ok a -> Inv a d0 L s ->
  In (archive_file a) (b_written s) ->
  let s' := fst (builder_set a n v s) in
  Inv a d0 (L ++ [(n, v)]) s' /\
  exists seg, b_ops s' = b_ops s ++ seg /\
    forall q, prefix q seg -> forall m sig, In (m, sig) (a_resources a) -> m <> archive_file a ->
      status (L ++ [(n, v)]) m sig (apply_ops (files_after d0 s) q).
Proof.
  intros Hd Hsz Hsch HI HA s'.
  assert (Triv : s' = s -> Inv a d0 (L ++ [(n, v)]) s' /\
     exists seg, b_ops s' = b_ops s ++ seg /\
      forall q, prefix q seg -> forall m sig, In (m, sig) (a_resources a) -> m <> archive_file a ->
      status (L ++ [(n, v)]) m sig (apply_ops (files_after d0 s) q)).
  { intros ->. split.
    - intros m sig Hm Hne. destruct (HI m sig Hm Hne) as [H1 H2]. split; [now apply status_more|exact H2].
    - exists []. rewrite app_nil_r. split; [reflexivity|]. intros q Hq m sig Hm Hne. apply prefix_nil in Hq. subst q.
      apply status_more. now apply HI. }
  destruct (dict_get (a_resources a) n) as [sig|] eqn:Ha.
  2:{ apply Triv. unfold s', builder_set. now rewrite Ha. }
  destruct (in_dec string_dec n (b_written s)) as [Hw|Hw].
  { apply Triv. unfold s'. now rewrite (set_already a n v s sig Ha Hw). }
  clear Triv. pose proof (dict_get_in _ _ _ Ha) as Hin.
  assert (Hne : n <> archive_file a) by (intros ->; contradiction).
  destruct (HI n sig Hin Hne) as [_ HU]. specialize (HU Hw). destruct (Hsch _ _ Hin) as [Hs _].
  destruct (builder_set_footprint a n v sig Ha s) as ((seg & Eseg & Fseg) & (w & Ew & Fw) & _). fold s' in Eseg, Ew.
  assert (Own : forall q, prefix q seg -> status (L ++ [(n, v)]) n sig (apply_ops (files_after d0 s) q)).
  { intros q Hq. destruct (builder_set a n v s) as [s1 [[]|e]] eqn:E.
    - destruct (builder_set_inv a n v s s1) as (sig' & p & ix & Ha' & _ & Hv).
      { intros m sg Hm. eapply Hsz. eapply dict_get_in. exact Hm. } { exact E. }
      assert (sig' = sig) by congruence. subst sig'.
      destruct (builder_set_ok a n sig v s p ix Ha Hw (Hsz _ _ Hin) Hv) as (st & E' & _).
      rewrite E' in E. inversion E; subst s1. unfold s' in Eseg. cbn [fst b_ops] in Eseg.
      apply app_inv_head in Eseg. pose proof (proj1 (proj2 Hv)) as Hp.
      unfold set_ops in Eseg. rewrite app_assoc in Eseg. rewrite <- Eseg in Hq.
      pose proof (index_ops_side n sig v p ix Hp) as Hmid.
      apply prefix_app in Hq. destruct Hq as [Hq|(q' & -> & Hq)].
      + destruct (seg_status n sig (files_after d0 s) q (index_ops n sig ix) Hs HU Hmid Hq) as [U|B]; [now left|now right; left].
      + apply prefix_cons in Hq. destruct Hq as [->|(q2 & -> & Hq)].
        * rewrite app_nil_r. destruct (seg_status n sig (files_after d0 s) (begin_ops n sig ++ index_ops n sig ix) (index_ops n sig ix) Hs HU Hmid) as [U|B];
            [exists []; now rewrite app_nil_r|now left|now right; left].
        * apply prefix_nil in Hq. subst q2. right; right. exists v, p, ix. split; [apply in_app_iff; right; now left|].
          split; [exact Hv|]. intros f Hf. rewrite <- app_assoc. fold (set_ops n sig p ix). rewrite set_ops_get.
          destruct (file_set_get n v sig p ix f Hp Hf) as (c & ->). reflexivity.
    - destruct (set_err_ops a n v s s1 e sig Ha Hw E) as (mid & Em & Fm). unfold s' in Eseg. cbn [fst] in Eseg.
      rewrite Em in Eseg. apply app_inv_head in Eseg. rewrite <- Eseg in Hq.
      destruct (seg_status n sig (files_after d0 s) q mid Hs HU Fm Hq) as [U|B]; [now left|now right; left]. }
  assert (Oth : forall q, prefix q seg -> forall m sg, In (m, sg) (a_resources a) -> m <> n ->
            forall f, In f (files_of m sg) -> dict_get (apply_ops (files_after d0 s) q) f = dict_get (files_after d0 s) f).
  { intros q Hq m sg Hm Hmn f Hf. apply apply_ops_other. apply (prefix_forall _ _ _ Hq) in Fseg.
    eapply Forall_impl; [|exact Fseg]. intros o Ho E. cbv beta in Ho. rewrite E in Ho.
    pose proof (distinct_neq a n sig m sg f Hd Hin Hm Ho Hf) as Eq. inversion Eq; congruence. }
  assert (All : forall q, prefix q seg -> forall m sg, In (m, sg) (a_resources a) -> m <> archive_file a ->
      status (L ++ [(n, v)]) m sg (apply_ops (files_after d0 s) q)).
  { intros q Hq m sg Hm Hma. destruct (string_dec m n) as [->|Hmn].
    - assert (sg = sig) by (pose proof (res_get a n sg Hd Hm); congruence). subst sg. now apply Own.
    - apply (status_same _ _ _ (files_after d0 s)); [now apply Oth|]. apply status_more. now apply HI. }
  assert (Ff : files_after d0 s' = apply_ops (files_after d0 s) seg).
  { unfold files_after. now rewrite Eseg, apply_ops_app. }
  assert (Pf : prefix seg seg) by (exists []; now rewrite app_nil_r).
  split.
  - intros m sg Hm Hma. rewrite Ff. split; [now apply All|]. intros Hnw.
    destruct (string_dec m n) as [->|Hmn].
    + assert (sg = sig) by (pose proof (res_get a n sg Hd Hm); congruence). subst sg.
      destruct (builder_set a n v s) as [s1 [[]|e]] eqn:E.
      * exfalso. apply Hnw. unfold s'. cbn [fst].
        destruct (set_seals a n v s s1 sig Hsz Hd Hin E) as [X _]. exact X.
      * destruct (set_err_ops a n v s s1 e sig Ha Hw E) as (mid & Em & Fm). unfold s' in Eseg. cbn [fst] in Eseg.
        rewrite Em in Eseg. apply app_inv_head in Eseg. rewrite <- Eseg. right. rewrite apply_ops_app.
        split; rewrite apply_ops_other.
        -- rewrite begin_get. rewrite String.eqb_sym, schema_neq. now rewrite String.eqb_refl.
        -- eapply Forall_impl; [|exact Fm]. intros o Ho Eo. apply side_neq in Ho. tauto.
        -- rewrite begin_get. now rewrite String.eqb_refl.
        -- eapply Forall_impl; [|exact Fm]. intros o Ho Eo. apply side_neq in Ho. tauto.
    + assert (Hnw0 : ~ In m (b_written s)) by (intros X; apply Hnw; rewrite Ew; apply in_app_iff; now left).
      destruct (HI m sg Hm Hma) as [_ H2]. pose proof (Oth seg Pf m sg Hm Hmn) as O.
      destruct (H2 Hnw0) as [U|(F1 & F2)].
      * left. intros f Hf. rewrite O by assumption. auto.
      * right. split; rewrite O by (apply files_of_self); assumption.
  - exists seg. split; [exact Eseg|exact All].
Qed.

Lemma sets_status a d0 : distinct_files a -> sizes_ok a -> schemas_ok a -> forall sets L s,
  Inv a d0 L s -> In (archive_file a) (b_written s) ->
  exists ops, b_ops (run a (sets_of sets) s) = b_ops s ++ ops /\
    forall q, prefix q ops -> forall m sig, In (m, sig) (a_resources a) -> m <> archive_file a ->
      status (L ++ sets) m sig (apply_ops (files_after d0 s) q).
Proof.
  intros Hd Hsz Hsch. induction sets as [|[n v] t IH]; intros L s HI HA.
  - exists []. cbn [sets_of map run]. rewrite !app_nil_r. split; [reflexivity|]. intros q Hq m sig Hm Hma.
    apply prefix_nil in Hq. subst q. now apply HI.
  - cbn [sets_of map run run_call fst snd]. destruct (step_inv a d0 L n v s Hd Hsz Hsch HI HA) as (HI' & seg & Eseg & Hseg).
    destruct (IH (L ++ [(n, v)]) (fst (builder_set a n v s)) HI') as (ops & Eops & Hops).
    { destruct (call_written a (Set_ n v) s) as (w & Hw). cbn [run_call] in Hw. rewrite Hw. apply in_app_iff. now left. }
    exists (seg ++ ops). split; [unfold sets_of in Eops; rewrite Eops, Eseg, app_assoc; reflexivity|].
    intros q Hq m sig Hm Hma. replace (L ++ (n, v) :: t) with ((L ++ [(n, v)]) ++ t) by (rewrite <- app_assoc; reflexivity).
    apply prefix_app in Hq. destruct Hq as [Hq|(q' & -> & Hq)].
    + specialize (Hseg q Hq m sig Hm Hma). clear -Hseg. destruct Hseg as [U|[B|(w & p & ix & C1 & C2 & C3)]]; [now left|now right; left|].
      right; right. exists w, p, ix. split; [apply in_app_iff; now left|auto].
    + specialize (Hops q' Hq m sig Hm Hma). rewrite apply_ops_app.
      replace (apply_ops (files_after d0 s) seg) with (files_after d0 (fst (builder_set a n v s))); [exact Hops|].
      unfold files_after. now rewrite Eseg, apply_ops_app.
Qed.

(** Before the constructor has finished, nothing opens. *)
Lemma new_prefix a d0 q : generated a -> schemas_ok a -> clean a d0 -> prefix q (new_ops a) -> q <> new_ops a ->
  exists e, open_resource (archive_file a) (RSig CRawData (a_schema a) false) (storage_of_fs (apply_ops d0 q)) = Err e.
Proof.
  intros Hg Hsch Hcl Hq Hne. destruct Hg as [Hin Hd]. destruct (Hsch _ _ Hin) as [Hs _]. cbn [r_schema] in Hs.
  set (A := archive_file a) in *.
  assert (H0 : dict_get d0 (schema_file A) = None) by (eapply Hcl; [exact Hin|apply files_of_self]).
  assert (Miss : forall d, dict_get d (schema_file A) = None -> exists e, open_resource A (RSig CRawData (a_schema a) false) (storage_of_fs d) = Err e).
  { intros d H. eexists. apply leaf_missing_schema; [reflexivity|]. unfold absent. rewrite storage_lookup, H. reflexivity. }
  assert (SA : String.eqb A (schema_file A) = false) by (rewrite String.eqb_sym; apply schema_neq).
  unfold new_ops in Hq, Hne. fold A in Hq, Hne.
  assert (W : wr (schema_file A) (a_schema a) = [OWrite (schema_file A) (a_schema a)]) by (destruct (a_schema a); [congruence|reflexivity]).
  rewrite W in Hq, Hne. cbn [app] in Hq, Hne.
  apply prefix_cons in Hq. destruct Hq as [->|(q1 & -> & Hq)]; [now apply Miss|].
  apply prefix_cons in Hq. destruct Hq as [->|(q2 & -> & Hq)].
  { apply Miss. rewrite apply_ops_other; [assumption|]. repeat constructor. cbn. apply String.eqb_neq. exact SA. }
  apply prefix_cons in Hq. destruct Hq as [->|(q3 & -> & Hq)].
  { apply Miss. rewrite apply_ops_other; [assumption|]. repeat constructor; cbn [op_file]; apply String.eqb_neq; exact SA. }
  apply prefix_cons in Hq. destruct Hq as [->|(q4 & -> & Hq)].
  - eexists. rewrite open_leaf by reflexivity. unfold schema_validated. cbn [r_optional].
    change (A ++ ".schema")%string with (schema_file A). rewrite storage_lookup.
    match goal with |- context [dict_get ?x (schema_file A)] => assert (Ex : dict_get x (schema_file A) = Some []) end.
    { change [OOpen A; OWrite A (zeros 16); OOpen (schema_file A)] with ([OOpen A; OWrite A (zeros 16)] ++ [OOpen (schema_file A)]).
      rewrite apply_ops_app. cbn [apply_ops fold_left]. rewrite apply_op_get. cbn [op_file]. now rewrite String.eqb_refl. }
    rewrite Ex. reflexivity.
  - apply prefix_nil in Hq. subst q4. congruence.
Qed.

Lemma crash a d0 sets q rs : generated a -> sizes_ok a -> schemas_ok a -> no_subarchives a -> clean a d0 ->
  prefix q (b_ops (build a (sets_of sets))) -> open_archive a (storage_of_fs (apply_ops d0 q)) = Ok rs ->
  archive_getattr rs (archive_file a) = Ok None /\
  forall n sig, In (n, sig) (a_resources a) -> n <> archive_file a ->
    exists o, archive_getattr rs n = Ok o /\
    ((r_optional sig = true /\ o = None /\ forall f, In f (files_of n sig) -> dict_get (apply_ops d0 q) f = None) \/
     exists v, In (n, v) sets /\ stored_as n sig v o).
Proof.
  intros Hg Hsz Hsch Hns Hcl Hq Hop. pose proof (proj2 Hg) as Hd.
  destruct (builder_new_eq a) as (st & Enew & Gnew). unfold build in Hq. rewrite Enew in Hq. cbn [fst] in Hq.
  set (s0 := BState st [archive_file a] (new_ops a)) in *.
  assert (HI : Inv a d0 [] s0).
  { intros n sig Hn Hne. assert (U : untouched n sig (files_after d0 s0)).
    { intros f Hf. unfold files_after. cbn [b_ops s0]. rewrite new_ops_get.
      assert (X : forall g, In g (files_of (archive_file a) (RSig CRawData (a_schema a) false)) -> String.eqb g f = false).
      { intros g Hgf. apply String.eqb_neq. intros ->.
        pose proof (distinct_neq a _ _ _ _ f Hd (proj1 Hg) Hn Hgf Hf) as Eq. inversion Eq; congruence. }
      rewrite !X by (apply files_of_self). eapply Hcl; eauto. }
    split; [now left|intros _; now left]. }
  destruct (sets_status a d0 Hd Hsz Hsch sets [] s0 HI (or_introl eq_refl)) as (ops & Eops & Hops).
  rewrite Eops in Hq. cbn [b_ops s0] in Hq.
  assert (Hfull : exists q', q = new_ops a ++ q' /\ prefix q' ops).
  { apply prefix_app in Hq. destruct Hq as [Hq|Hq]; [|exact Hq].
    assert (Dec : {q = new_ops a} + {q <> new_ops a}).
    { apply list_eq_dec. intros x y. decide equality; try apply string_dec. apply list_eq_dec. apply Z.eq_dec. }
    destruct Dec as [->|Hne]; [exists []; rewrite app_nil_r; split; [reflexivity|now exists ops]|].
    exfalso. destruct (new_prefix a d0 q Hg Hsch Hcl Hq Hne) as (e & He).
    destruct (open_archive_in _ _ _ Hop) as (F & _). destruct (F _ _ (proj1 Hg)) as (o & Ho & _). congruence. }
  destruct Hfull as (q' & -> & Hq').
  assert (Es : apply_ops d0 (new_ops a ++ q') = apply_ops (files_after d0 s0) q').
  { rewrite apply_ops_app. reflexivity. }
  assert (Main : forall n sig, In (n, sig) (a_resources a) -> n <> archive_file a ->
    exists o, archive_getattr rs n = Ok o /\
    ((r_optional sig = true /\ o = None /\ forall f, In f (files_of n sig) -> dict_get (apply_ops d0 (new_ops a ++ q')) f = None) \/
     exists v, In (n, v) sets /\ stored_as n sig v o)).
  { intros n sig Hn Hne.
    destruct (open_archive_get a _ rs n sig (distinct_names a Hd) Hop Hn) as (o & Eg & Ho).
    exists o. split; [unfold archive_getattr; now rewrite Eg|].
    pose proof (Hops q' Hq' n sig Hn Hne) as S. cbn [app] in S. rewrite <- Es in S.
    destruct (Hsch _ _ Hn) as [Hs Hu]. pose proof (Hns _ _ Hn) as Hc.
    destruct S as [U|[B|(v & p & ix & C1 & C2 & C3)]].
    - left. destruct sig as [c sch opt]. cbn [r_container r_optional] in *.
      destruct opt.
      + split; [reflexivity|]. split; [|exact U].
        rewrite optional_absent in Ho; [now inversion Ho|]. rewrite Hc. unfold absent. rewrite storage_lookup, U by (apply files_of_self). reflexivity.
      + exfalso. rewrite leaf_missing_schema in Ho; [discriminate|exact Hc|].
        unfold absent. rewrite storage_lookup, U by (apply files_of_self). reflexivity.
    - exfalso. destruct (broken_err n sig _ Hc Hs Hu B) as (e & He). congruence.
    - right. exists v. split; [exact C1|]. exists p, ix. split; [exact C2|]. rewrite <- Ho. symmetry. now apply open_local. }
  split; [|exact Main].
  destruct (open_archive_get a _ rs _ _ (distinct_names a Hd) Hop (proj1 Hg)) as (o & Eg & Ho).
  unfold archive_getattr. rewrite Eg. f_equal. destruct (Hsch _ _ (proj1 Hg)) as [Hs Hu].
  assert (Keep : forall f, In f (files_of (archive_file a) (RSig CRawData (a_schema a) false)) ->
            dict_get (apply_ops (files_after d0 s0) q') f = dict_get (files_after d0 s0) f).
  { intros f Hf. apply apply_ops_other.
    destruct (run_sealed a (sets_of sets) s0 _ _ f Hd (proj1 Hg) Hf (or_introl eq_refl)) as (_ & ops' & E1 & E2).
    - exists (RObj [] false). split; [|reflexivity]. cbn [b_store s0]. rewrite Gnew.
      cbn [files_of r_container In] in Hf. destruct Hf as [<-|[<-|[]]]; rewrite String.eqb_refl; rewrite ?orb_true_r; reflexivity.
    - rewrite Eops in E1. apply app_inv_head in E1. subst ops'. exact (prefix_forall _ _ _ Hq' E2). }
  rewrite archive_resource_opens in Ho; [now inversion Ho|exact Hs|exact Hu| |].
  - rewrite Es, Keep by (apply files_of_self). unfold files_after. cbn [b_ops s0]. rewrite new_ops_get.
    now rewrite String.eqb_refl.
  - rewrite Es, Keep by (apply files_of_self). unfold files_after. cbn [b_ops s0]. rewrite new_ops_get.
    rewrite schema_neq. now rewrite String.eqb_refl.
Qed.
