(** Properties C29-C35, C61: builder histories, crashes, tar files, archive-name selection. *)
From Coq Require Import List ZArith Bool String Ascii Lia Permutation.
From Verif Require Import PyBase Spec DataAccess Structure StructSpec Resources Builder Archive Writer ArchiveSpec OpenSpec ResourceSpec
  HistorySpec TarSpec BuilderFacts ResourceFacts ArchiveFacts HistoryFacts CrashFacts EndToEnd TarFacts TarPack WriterFacts
  ResourceThms BitFacts Props_Structure Props_Resources Props_Archive.
Import ListNotations.
Local Open Scope string_scope.
Local Open Scope Z_scope.

(** ** C29 *)
(** C29.  Setting a name that is not declared raises and changes nothing. *)
Theorem C29_unknown a n v s : ~ In n (map fst (a_resources a)) -> builder_set a n v s = (s, Err (UnknownResourceError n)).
Proof. intros H. unfold builder_set. apply dict_get_none in H. now rewrite H. Qed.

(** C29.  After a successful set, whatever calls follow (sets of this or other resources, valid or not, finish): setting the
    resource again raises and changes nothing, and none of the files of the resource ever changes. *)
Theorem C29_set_once a n sig v s s' : sizes_ok a -> distinct_files a -> In (n, sig) (a_resources a) ->
  builder_set a n v s = (s', Ok tt) ->
  forall calls, let later := run a calls s' in
  (forall v', builder_set a n v' later = (later, Err ResourceAlreadySetError)) /\
  (forall d0 f, In f (files_of n sig) -> dict_get (files_after d0 later) f = dict_get (files_after d0 s') f).
Proof.
  intros Hsz Hd Hin Hset calls later. destruct (set_seals a n v s s' sig Hsz Hd Hin Hset) as [Hw Hs]. split.
  - intros v'. apply set_already with sig; [now apply res_get|]. now apply run_written.
  - intros d0 f Hf. destruct (run_sealed a calls s' n sig f Hd Hin Hf Hw (Hs f Hf)) as (_ & ops & E & Ho).
    unfold files_after, later. rewrite E. unfold apply_ops. rewrite fold_left_app. now apply apply_ops_other.
Qed.
Example C29_instance : exists s', sizes_ok full /\ distinct_files full /\
  In ("vec", RSig (CVector demo) (ascii_bytes "vec") false) (a_resources full) /\
  builder_set full "vec" (SRecords [rec1]) (fst (builder_new full bstate0)) = (s', Ok tt) /\
  dict_get (files_after [] (run full [Set_ "vec" (SRecords [rec2]); Set_ "nope" SOther; Finish; Set_ "mv" SOther; Set_ "ins" (SRecord rec1); Finish] s')) "vec"
    = dict_get (files_after [] s') "vec".
Proof.
  eexists. split; [exact full_sizes|]. split; [exact (proj2 full_generated)|]. split; [right; right; now left|].
  split; [vm_compute; reflexivity|]. vm_compute. reflexivity.
Qed.

(** C29 is false for archive types in which the files of two resources coincide (which the generator accepts): a vector named
    "x_index" is overwritten when the multivector "x" is set. *)
Definition clash : adef := ADef "C" (ascii_bytes "archive C") [
  ("C.archive", RSig CRawData (ascii_bytes "archive C") false);
  ("x_index", RSig (CVector pt) (ascii_bytes "x_index") false);
  ("x", RSig (CMultivector idx8 [pt]) (ascii_bytes "x") false) ].
Theorem C29_index_clash_refuted : exists s s',
  NoDup (map fst (a_resources clash)) /\
  builder_set clash "x_index" (SRecords [prec; prec]) (fst (builder_new clash bstate0)) = (s, Ok tt) /\
  builder_set clash "x" (SBuckets [[("P", prec)]]) s = (s', Ok tt) /\
  dict_get (files_after [] s) "x_index" <> dict_get (files_after [] s') "x_index".
Proof.
  do 2 eexists. split; [repeat (constructor; [cbn; intuition discriminate|]); constructor|].
  split; [vm_compute; reflexivity|]. split; [vm_compute; reflexivity|]. vm_compute. discriminate.
Qed.

(** ** C30 *)
(** The record has exactly the fields of the structure. *)
Definition right_fields (sd : sdef) (r : record) : Prop := forall k, In k (s_keys sd) <-> In k (map fst r).
Definition field_error (n : string) (sd : sdef) (r : record) (e : exn) : Prop :=
  (exists k, In k (s_keys sd) /\ ~ In k (map fst r) /\ e = MissingFieldError k n) \/
  (exists k, ~ In k (s_keys sd) /\ In k (map fst r) /\ e = UnknownFieldError k n).
(** The element names one of the types and has exactly its fields. *)
Definition right_element (ts : list sdef) (e : string * record) : Prop :=
  exists sd, In sd ts /\ s_name sd = fst e /\ right_fields sd (snd e).
Definition element_error (n : string) (ts : list sdef) (el : string * record) (e : exn) : Prop :=
  (~ In (fst el) (map s_name ts) /\ e = UnknownStructureError (fst el)) \/
  (exists sd, In sd ts /\ s_name sd = fst el /\ field_error n sd (snd el) e).
Definition right_value (sig : rsig) (v : setval) : Prop :=
  match r_container sig, v with
  | CInstance sd, SRecord r => right_fields sd r
  | CVector sd, SRecords rs => Forall (right_fields sd) rs
  | CMultivector _ ts, SBuckets bs => Forall (Forall (right_element ts)) bs
  | _, _ => False
  end.
Definition value_error (n : string) (sig : rsig) (v : setval) (e : exn) : Prop :=
  match r_container sig, v with
  | CInstance sd, SRecord r => field_error n sd r e
  | CVector sd, SRecords rs => exists r, In r rs /\ field_error n sd r e
  | CMultivector _ ts, SBuckets bs => exists b el, In b bs /\ In el b /\ element_error n ts el e
  | _, _ => False
  end.
(** A list / dict value was given where one is expected. *)
Definition right_shape (sig : rsig) (v : setval) : Prop :=
  match r_container sig, v with
  | CInstance _, SRecord _ | CVector _, SRecords _ => True
  | CMultivector _ ts, SBuckets _ => NoDup (map s_name ts)
  | _, _ => False
  end.

Lemma dict_mem_in (r : record) k : dict_mem r k = true <-> In k (map fst r).
Proof.
  unfold dict_mem. rewrite dict_in_keys. destruct (dict_get r k) as [x|]; split; [eauto|auto|discriminate|intros (x & Hx); discriminate].
Qed.
Lemma existsb_in k l : existsb (String.eqb k) l = true <-> In k l.
Proof.
  rewrite existsb_exists. split; [intros (x & Hx & E); apply String.eqb_eq in E; now subst|]. intros H. exists k. split; [assumption|apply String.eqb_refl].
Qed.

Lemma validate_fields_spec n r sd :
  (validate_fields n r sd = Ok tt /\ right_fields sd r) \/
  (exists e, validate_fields n r sd = Err e /\ ~ right_fields sd r /\ field_error n sd r e).
Proof.
  unfold validate_fields. destruct (mapM _ (s_keys sd)) as [u|e] eqn:E1; cbn [bind].
  - assert (A : forall k, In k (s_keys sd) -> In k (map fst r)).
    { intros k Hk. apply mapM_ok_iff in E1. destruct (Forall2_in_l _ _ _ _ E1 Hk) as (y & _ & Hy).
      apply dict_mem_in. destruct (dict_mem r k); [reflexivity|discriminate]. }
    destruct (mapM _ r) as [u'|e] eqn:E2; cbn [bind].
    + left. split; [reflexivity|]. intros k. split; [apply A|]. intros Hk. apply in_map_iff in Hk. destruct Hk as ([k' x] & Ek & Hk).
      cbn in Ek. subst k'. apply mapM_ok_iff in E2. destruct (Forall2_in_l _ _ _ _ E2 Hk) as (y & _ & Hy). cbn [fst] in Hy.
      apply existsb_in. destruct (existsb _ _); [reflexivity|discriminate].
    + right. exists e. split; [reflexivity|]. apply mapM_err in E2. destruct E2 as ([k x] & Hk & He). cbn [fst] in He.
      destruct (existsb (String.eqb k) (s_keys sd)) eqn:Ee; [discriminate|].
      assert (Nk : ~ In k (s_keys sd)) by (intros X; apply existsb_in in X; congruence).
      assert (Ik : In k (map fst r)) by (apply in_map_iff; now exists (k, x)).
      split; [intros X; apply Nk; now apply X|]. right. exists k. inversion He. auto.
  - right. exists e. split; [reflexivity|]. apply mapM_err in E1. destruct E1 as (k & Hk & He).
    destruct (dict_mem r k) eqn:Ee; [discriminate|].
    assert (Nk : ~ In k (map fst r)) by (intros X; apply dict_mem_in in X; congruence).
    split; [intros X; apply Nk; now apply X|]. left. exists k. inversion He. auto.
Qed.

Lemma filter_name ts nm : NoDup (map s_name ts) ->
  (filter (fun t => String.eqb (s_name t) nm) ts = [] /\ ~ In nm (map s_name ts)) \/
  (exists t, filter (fun t => String.eqb (s_name t) nm) ts = [t] /\ In t ts /\ s_name t = nm /\ forall t', In t' ts -> s_name t' = nm -> t' = t).
Proof.
  induction ts as [|t ts IH]; cbn [map filter]; intros H; [left; auto|]. inversion H as [|? ? H1 H2]; subst.
  destruct (String.eqb (s_name t) nm) eqn:E.
  - apply String.eqb_eq in E. subst nm. right. exists t.
    destruct (IH H2) as [[-> _]|(t' & _ & Hin & Hn & _)].
    + split; [reflexivity|]. split; [now left|]. split; [reflexivity|]. intros t' [->|Ht'] Hn; [reflexivity|]. exfalso. apply H1. rewrite <- Hn. now apply in_map.
    + exfalso. apply H1. rewrite <- Hn. now apply in_map.
  - apply String.eqb_neq in E. destruct (IH H2) as [[-> N]|(t' & -> & Hin & Hn & U)].
    + left. split; [reflexivity|]. intros [X|X]; contradiction.
    + right. exists t'. split; [reflexivity|]. split; [now right|]. split; [assumption|]. intros u [<-|Hu] Hun; [contradiction|auto].
Qed.
Lemma validate_element_spec n ts e : NoDup (map s_name ts) ->
  (validate_element n ts e = Ok tt /\ right_element ts e) \/
  (exists x, validate_element n ts e = Err x /\ ~ right_element ts e /\ element_error n ts e x).
Proof.
  intros H. unfold validate_element. destruct (filter_name ts (fst e) H) as [[-> N]|(t & -> & Hin & Hn & U)].
  - right. eexists. split; [reflexivity|]. split; [|left; auto]. intros (sd & Hs & En & _). apply N. rewrite <- En. now apply in_map.
  - destruct (validate_fields_spec n (snd e) t) as [[-> R]|(x & -> & R & F)].
    + left. split; [reflexivity|]. exists t. auto.
    + right. exists x. split; [reflexivity|]. split; [|right; eauto]. intros (sd & Hs & En & R'). rewrite (U sd Hs En) in R'. contradiction.
Qed.

Lemma mapM_spec {A} (f : A -> res unit) (P : A -> Prop) (Q : A -> exn -> Prop) l :
  (forall x, In x l -> (f x = Ok tt /\ P x) \/ exists e, f x = Err e /\ ~ P x /\ Q x e) ->
  (exists u, mapM f l = Ok u /\ Forall P l) \/ (exists e, mapM f l = Err e /\ ~ Forall P l /\ exists x, In x l /\ Q x e).
Proof.
  induction l as [|x t IH]; intros H; cbn [mapM]; [left; exists []; auto|].
  destruct (H x (or_introl eq_refl)) as [[-> Px]|(e & -> & Nx & Qx)]; cbn [bind].
  - destruct IH as [(u & -> & F)|(e & -> & N & y & Hy & Qy)]; [intros; apply H; now right| |]; cbn [bind].
    + left. eexists. split; [reflexivity|]. now constructor.
    + right. exists e. split; [reflexivity|]. split; [|exists y; split; [now right|assumption]]. intros X. inversion X; contradiction.
  - right. exists e. split; [reflexivity|]. split; [|exists x; split; [now left|assumption]]. intros X. inversion X; contradiction.
Qed.

Lemma validate_value_spec n sig v : right_shape sig v ->
  (validate_value n sig v = Ok tt /\ right_value sig v) \/
  (exists e, validate_value n sig v = Err e /\ ~ right_value sig v /\ value_error n sig v e).
Proof.
  unfold right_shape, validate_value, right_value, value_error. destruct (r_container sig) as [sd|sd|it ts| |sub]; destruct v as [r|rs|bs|b|]; try contradiction; intros Hs.
  - apply validate_fields_spec.
  - destruct (mapM_spec (fun r => validate_fields n r sd) (right_fields sd) (field_error n sd) rs) as [(u & -> & F)|(e & -> & N & r & Hr & Q)].
    + intros r _. apply validate_fields_spec.
    + left. auto.
    + right. exists e. split; [reflexivity|]. split; [assumption|]. eauto.
  - assert (B : forall b, (exists u, mapM (validate_element n ts) b = Ok u /\ Forall (right_element ts) b) \/
        (exists e, mapM (validate_element n ts) b = Err e /\ ~ Forall (right_element ts) b /\ exists el, In el b /\ element_error n ts el e)).
    { intros b. apply mapM_spec. intros el _. now apply validate_element_spec. }
    clear Hs. induction bs as [|b t IH]; cbn [mapM bind]; [left; auto|].
    destruct (B b) as [(u & -> & F)|(e & -> & N & el & He & Q)]; cbn [bind].
    + destruct (mapM (mapM (validate_element n ts)) t) as [u'|e'] eqn:Et; cbn [bind] in *.
      * destruct IH as [[_ F']|(e & X & _)]; [|discriminate]. left. split; [reflexivity|]. now constructor.
      * destruct IH as [[X _]|(e & X & N & b' & el & Hb & He & Q)]; [discriminate|]. inversion X; subst e'. right. exists e. split; [reflexivity|].
        split; [intros Y; inversion Y; contradiction|]. exists b', el. split; [now right|auto].
    + right. exists e. split; [reflexivity|]. split; [intros Y; inversion Y; contradiction|]. exists b, el. split; [now left|auto].
Qed.

(** C30.  A value in which some record (at any position) lacks a field, has an extra one or names an unknown structure is rejected
    with an error naming such a fault; of the resource only the schema and an empty data file are created; nothing else in the
    directory changes; the resource does not count as set. *)
Theorem C30_rejected a n sig v s : dict_get (a_resources a) n = Some sig -> ~ In n (b_written s) -> right_shape sig v ->
  ~ right_value sig v ->
  exists s' e, builder_set a n v s = (s', Err e) /\ value_error n sig v e /\ b_written s' = b_written s /\
    forall d0 f, dict_get (files_after d0 s') f =
      if String.eqb n f then Some [] else if String.eqb (schema_file n) f then Some (r_schema sig) else dict_get (files_after d0 s) f.
Proof.
  intros Hg Hw Hsh Hbad. destruct (validate_value_spec n sig v Hsh) as [[_ R]|(e & Hv & _ & He)]; [contradiction|].
  destruct (set_invalid a n sig v s e Hg Hw Hv) as (st' & E & _). eexists. exists e. split; [exact E|]. split; [assumption|].
  split; [reflexivity|]. intros d0 f. unfold files_after. cbn [b_ops]. unfold apply_ops. rewrite fold_left_app. apply begin_get.
Qed.
(** C30.  A later valid set of the resource leaves exactly the same files as if the rejected one had not been attempted. *)
Theorem C30_retry a n sig bad v p ix s : (forall m sg, dict_get (a_resources a) m = Some sg -> sig_sized sg) ->
  dict_get (a_resources a) n = Some sig -> ~ In n (b_written s) -> right_shape sig bad -> ~ right_value sig bad ->
  valid_set n sig v p ix ->
  exists s1 e s2 s3, builder_set a n bad s = (s1, Err e) /\ builder_set a n v s1 = (s2, Ok tt) /\ builder_set a n v s = (s3, Ok tt) /\
    forall d0, same_files (files_after d0 s2) (files_after d0 s3).
Proof.
  intros Hsz Hg Hw Hsh Hbad Hv. destruct (C30_rejected a n sig bad s Hg Hw Hsh Hbad) as (s1 & e & E1 & _ & W1 & F1).
  destruct (builder_set_ok a n sig v s1 p ix Hg ltac:(rewrite W1; assumption) (Hsz _ _ Hg) Hv) as (st2 & E2 & _).
  destruct (builder_set_ok a n sig v s p ix Hg Hw (Hsz _ _ Hg) Hv) as (st3 & E3 & _).
  do 2 eexists. eexists. eexists. split; [exact E1|]. split; [exact E2|]. split; [exact E3|].
  destruct (set_success_files a n v s1 _ Hsz E2) as (sig2 & p2 & ix2 & G2 & _ & V2 & F2).
  destruct (set_success_files a n v s _ Hsz E3) as (sig3 & p3 & ix3 & G3 & _ & V3 & F3).
  rewrite Hg in G2, G3. inversion G2; subst sig2. inversion G3; subst sig3.
  destruct (set_unique _ _ _ _ _ _ _ V2 V3) as [-> ->]. intros d0 f. rewrite F2, F3.
  destruct (dict_get (set_files n sig p3 ix3) f) as [c|] eqn:Ef; [reflexivity|]. rewrite F1.
  unfold set_files in Ef. cbn [dict_get] in Ef. destruct (String.eqb (schema_file n) f); [discriminate|].
  destruct (String.eqb n f); [discriminate|reflexivity].
Qed.
Definition bad_vec : setval := SRecords [rec1; rec2; [("a", PInt 1); ("b", PInt 1); ("c", PInt 1); ("flagg", PInt 0)]; rec1].
Example C30_instance : exists p,
  dict_get (a_resources full) "vec" = Some (RSig (CVector demo) (ascii_bytes "vec") false) /\
  ~ In "vec" (b_written (fst (builder_new full bstate0))) /\
  right_shape (RSig (CVector demo) (ascii_bytes "vec") false) bad_vec /\
  ~ right_value (RSig (CVector demo) (ascii_bytes "vec") false) bad_vec /\
  valid_set "vec" (RSig (CVector demo) (ascii_bytes "vec") false) (SRecords [rec1; rec2]) p None.
Proof.
  eexists. split; [reflexivity|]. split; [cbn; intuition discriminate|]. split; [exact I|]. split.
  - intros H. inversion H as [|? ? _ H2]; subst. inversion H2 as [|? ? _ H3]; subst. inversion H3 as [|? ? H4 _]; subst.
    assert (X : In "flag" (map fst [("a", PInt 1); ("b", PInt 1); ("c", PInt 1); ("flagg", PInt 0)])) by (apply H4; cbn; tauto).
    cbn in X. intuition discriminate.
  - split; [reflexivity|]. split; [vm_compute; reflexivity|]. split; vm_compute; reflexivity.
Qed.

(** ** C31 *)
(** C31.  For distinct resources, any two orders of the same valid sets leave the same files with the same contents. *)
Theorem C31_order_irrelevant a sets1 sets2 d0 : generated a -> sizes_ok a -> NoDup (map fst sets1) -> Forall (valid_call a) sets1 ->
  Permutation sets1 sets2 ->
  same_files (files_after d0 (build a (sets_of sets1))) (files_after d0 (build a (sets_of sets2))).
Proof.
  intros Hg Hsz Hnd Hv Hp f.
  destruct (build_files a sets1 Hg Hsz Hnd Hv) as [F1 _].
  destruct (build_files a sets2 Hg Hsz) as [F2 _].
  - apply (Permutation_NoDup (Permutation_map fst Hp) Hnd).
  - apply Forall_forall. intros x Hx. apply (proj1 (Forall_forall _ _) Hv). now apply (Permutation_in _ (Permutation_sym Hp)).
  - rewrite F1, F2. now rewrite (expected_perm a sets1 sets2 (proj2 Hg) Hnd Hp f).
Qed.
Example C31_instance : generated full /\ sizes_ok full /\ NoDup (map fst full_sets) /\ Forall (valid_call full) full_sets /\
  Permutation full_sets (rev full_sets) /\ full_sets <> rev full_sets.
Proof.
  split; [exact full_generated|]. split; [exact full_sizes|]. split; [repeat (constructor; [cbn; intuition discriminate|]); constructor|].
  split; [|split; [apply Permutation_rev|discriminate]].
  apply Forall_forall. intros [n v] H. destruct (full_acceptable n v H) as (Hne & sig & Hs & Ha).
  eapply acceptable_valid; try eassumption; [exact full_generated|exact full_schemas].
Qed.

(** ** C32 *)
(** C32.  Any sequence of sets (valid or not, repeated or not) interrupted between any two file-system effects: if the directory
    opens at all, every resource of the opened archive is either an optional one none of whose files exist (None), or is what
    reading a complete, successful set of one of the values given for it yields; for acceptable values: exactly that value. *)
Theorem C32_crash a d0 sets q rs : generated a -> sizes_ok a -> schemas_ok a -> no_subarchives a -> clean a d0 ->
  prefix q (b_ops (build a (sets_of sets))) -> open_archive a (storage_of_fs (apply_ops d0 q)) = Ok rs ->
  forall n sig, In (n, sig) (a_resources a) -> n <> archive_file a ->
    exists o, archive_getattr rs n = Ok o /\
    ((r_optional sig = true /\ o = None /\ forall f, In f (files_of n sig) -> dict_get (apply_ops d0 q) f = None) \/
     exists v, In (n, v) sets /\ stored_as n sig v o /\ (acceptable sig v -> holds sig v o)).
Proof.
  intros Hg Hsz Hsch Hf Hcl Hq Ho n sig Hin Hne.
  destruct (crash a d0 sets q rs Hg Hsz Hsch Hf Hcl Hq Ho) as [_ H]. destruct (H n sig Hin Hne) as (o & Hget & [L|(v & Hv & Hst)]).
  - exists o. auto.
  - exists o. split; [assumption|]. right. exists v. split; [assumption|]. split; [assumption|]. intros Ha.
    destruct (Hsch _ _ Hin) as [S1 S2]. now apply (stored_as_holds n sig v o).
Qed.
Definition crash_sets : list (string * setval) := (("vec", bad_vec) :: full_sets ++ [("raw", SBytes [1; 2; 3]); ("ins", SRecord rec1)])%list.
Example C32_instance : exists q rs,
  prefix q (b_ops (build full (sets_of crash_sets))) /\ q <> b_ops (build full (sets_of crash_sets)) /\
  open_archive full (storage_of_fs (apply_ops [("README", [1; 2])] q)) = Ok rs /\ archive_getattr rs "raw" = Ok None.
Proof.
  exists (b_ops (build full (sets_of (("vec", bad_vec) :: full_sets)))). eexists. split; [|split; [|split]].
  - eexists. vm_compute. reflexivity.
  - vm_compute. discriminate.
  - vm_compute. reflexivity.
  - reflexivity.
Qed.

(** C32 needs whole writes: if a data file is cut short in the middle of its write, the archive still opens, reporting the full
    length, and elements past the cut read as something else than what was written. *)
Definition one_vec : adef := ADef "T" (ascii_bytes "archive T") [("v", RSig (CVector pt) (ascii_bytes "v") false)].
Theorem C32_torn_write_refuted : exists b torn rs v e,
  payload_of (RSig (CVector pt) (ascii_bytes "v") false) (SRecords [prec; prec; prec; prec; prec; prec]) = Ok (b, None) /\
  prefix torn (framed b) /\
  open_archive one_vec (storage_of_fs [("v.schema", ascii_bytes "v"); ("v", torn)]) = Ok rs /\
  archive_getattr rs "v" = Ok (Some (OVector v)) /\ vector_len v = 6 /\
  vector_get v 5 = Ok e /\ as_list e = Ok [0; 0] /\ record_values prec pt [-256; 127].
Proof.
  do 5 eexists. split; [vm_compute; reflexivity|]. split. { exists (skipn 16 (framed [0; 255; 0; 255; 0; 255; 0; 255; 0; 255; 0; 255])). symmetry. apply firstn_skipn. }
  split; [vm_compute; reflexivity|]. split; [reflexivity|]. split; [reflexivity|]. split; [vm_compute; reflexivity|].
  split; [vm_compute; reflexivity|exact prec_ok].
Qed.

(** C32 needs that [finish] is not called after a failed set: a set that fails while packing leaves its resource open, and
    [finish] then writes the bytes packed so far without size and padding; the directory opens with a value nobody set. *)
Definition word : sdef := SDef "W" 8 [FSig "v" 0 64 false] ["v"].
Definition words : adef := ADef "W" (ascii_bytes "archive W") [
  ("W.archive", RSig CRawData (ascii_bytes "archive W") false); ("ws", RSig (CVector word) (ascii_bytes "ws") false) ].
Theorem C32_finish_after_failure_refuted : exists s e rs v el,
  let sets := SRecords [[("v", PInt 8)]; [("v", PInt 7)]; [("v", PInt 0)]; [("v", POther false)]] in
  generated words /\ builder_set words "ws" sets (fst (builder_new words bstate0)) = (s, Err e) /\
  open_archive words (storage_of_fs (files_after [] (run words [Finish] s))) = Ok rs /\
  archive_getattr rs "ws" = Ok (Some (OVector v)) /\ vector_len v = 1 /\ vector_get v 0 = Ok el /\ as_list el = Ok [7].
Proof.
  do 5 eexists. intros sets. split. { split; [now left|]. unfold distinct_files. repeat (constructor; [cbn; intuition discriminate|]). constructor. }
  split; [vm_compute; reflexivity|]. split; [vm_compute; reflexivity|]. split; [reflexivity|]. split; [reflexivity|].
  split; [vm_compute; reflexivity|]. vm_compute. reflexivity.
Qed.

(** ** C33, C34 *)
(** C33.  A tar of a directory tree (members in any order, with or without "./") gives, for every directory of the tree, the same
    answers to [get] and [ls] as the directory itself. *)
Theorem C33_tar_equals_directory t es : tree_ok es -> packs t es ->
  exists f d, tar_create t "" = Ok (StTar f d "") /\
  forall path es', lookup_path es path = Some (NDir es') ->
    let dir := StDir es' in let tar := StTar f d (join path) in
    Permutation (st_ls tar) (st_ls dir) /\
    forall k opt, good k ->
      match dict_get es' k with
      | None => st_lookup tar k opt = st_lookup dir k opt
      | Some (NFile m) => st_lookup tar k opt = Ok (GotMem m) /\ (m <> [] -> st_lookup dir k opt = Ok (GotMem m))
      | Some (NDir es2) => st_lookup tar k opt = Ok (GotStorage (StTar f d (join (path ++ [k])%list))) /\
                           st_lookup dir k opt = Ok (GotStorage (StDir es2)) /\ lookup_path es (path ++ [k])%list = Some (NDir es2)
      end.
Proof.
  intros Ht Hp. destruct (tar_indexes t es Ht Hp) as (f & d & E & Hi). exists f, d. split; [unfold tar_create; now rewrite E|].
  intros path es' Hl dir tar. split; [apply (tar_ls_spec es f d path es' Ht Hi Hl)|]. intros k opt Hk.
  pose proof (tar_get_spec es f d path es' k opt Ht Hi Hl Hk) as G. pose proof (lookup_snoc path es es' k Hl) as S.
  unfold tar, dir. cbn [st_lookup]. rewrite G. unfold dir_get. destruct (dict_get es' k) as [[m|es2]|]; [|auto|reflexivity].
  split; [reflexivity|]. intros Hm. destruct m; [congruence|reflexivity].
Qed.
(** A tar with a sparse member is refused, and for no other reason is the index of a tar's members refused. *)
Theorem C33_sparse t sub : (exists n, In (n, TSparse) t) <-> tar_create t sub = Err CorruptResourceError.
Proof.
  unfold tar_create. assert (G : forall f d, (exists n, In (n, TSparse) t) <-> tar_entries t f d = Err CorruptResourceError).
  { induction t as [|[n0 k] t IH]; intros f d; cbn [tar_entries].
    - split; [intros (n & []); fail|discriminate].
    - split.
      + intros (n & [H|H]); [inversion H; subst; reflexivity|].
        destruct k; try reflexivity; try (apply IH; eauto).
        destruct (String.eqb (strip_dot n0) "." || existsb (String.eqb (strip_dot n0)) d); apply IH; eauto.
      + intros H. destruct k; [apply IH in H| |exists n0; now left|apply IH in H].
        * destruct H as [n H]. exists n. now right.
        * destruct (String.eqb (strip_dot n0) "." || existsb (String.eqb (strip_dot n0)) d); apply IH in H;
            destruct H as [n H]; exists n; now right.
        * destruct H as [n H]. exists n. now right. }
  rewrite (G [] []). destruct (tar_entries t [] []) as [[f d]|e]; cbn; split; congruence.
Qed.
(** When a path occurs several times the last member counts. *)
Theorem C33_last_wins t n data t' f d : tar_create (t ++ (n, TReg data) :: t')%list "" = Ok (StTar f d "") ->
  (forall n' data', In (n', TReg data') t' -> strip_dot n' <> strip_dot n) ->
  st_lookup (StTar f d "") (strip_dot n) false = Ok (GotMem data).
Proof.
  unfold tar_create. intros H Hn.
  assert (G : forall t f0 d0, tar_entries (t ++ (n, TReg data) :: t')%list f0 d0 = Ok (f, d) -> dict_get f (strip_dot n) = Some data).
  { clear t H. induction t as [|[n0 k] t IH]; intros f0 d0 H; cbn [app tar_entries] in H.
    - assert (G2 : forall t' f0 d0, (forall n' data', In (n', TReg data') t' -> strip_dot n' <> strip_dot n) ->
        dict_get f0 (strip_dot n) = Some data -> tar_entries t' f0 d0 = Ok (f, d) -> dict_get f (strip_dot n) = Some data).
      { clear. induction t' as [|[n0 k] t' IH]; intros f0 d0 Hn Hg H; cbn [tar_entries] in H; [congruence|].
        assert (Hn' : forall n' data', In (n', TReg data') t' -> strip_dot n' <> strip_dot n) by (intros n' d' Hi; apply (Hn n' d'); now right).
        destruct k; try discriminate; try (apply (IH _ _ Hn' Hg H)).
        - apply (IH _ _ Hn') in H; [assumption|]. rewrite dict_put_get.
          destruct (String.eqb (strip_dot n0) (strip_dot n)) eqn:E; [|assumption].
          apply String.eqb_eq in E. exfalso. apply (Hn n0 data0); [now left|assumption].
        - destruct (_ || _); apply (IH _ _ Hn' Hg H). }
      apply (G2 _ _ _ Hn) in H; [assumption|]. rewrite dict_put_get, String.eqb_refl. reflexivity.
    - destruct k; try discriminate; try (apply (IH _ _ H)). destruct (_ || _); apply (IH _ _ H). }
  destruct (tar_entries (t ++ (n, TReg data) :: t')%list [] []) as [[f' d']|] eqn:E; cbn in H; [|discriminate].
  inversion H; subst. cbn [st_lookup]. unfold tar_get, tar_path. now rewrite (G _ _ _ E).
Qed.
(** Every well-formed tree can be packed, in both styles. *)
Theorem C33_packable es : tree_ok es -> packs (pack es) es /\ packs (dotted (pack es)) es.
Proof. intros H. split; [now apply pack_packs|now apply dotted_packs]. Qed.
Lemma outer_tree_ok s : tree_ok (outer_tree s).
Proof.
  assert (G : forall k, String.eqb k "" = false -> has_slash k = false -> String.eqb k "." = false -> good k).
  { intros k H1 H2 H3. apply String.eqb_neq in H1, H3. now split. }
  apply tree_ok_intro; [repeat (constructor; [cbn; intuition discriminate|]); constructor|].
  intros k x H. in_cases H; (split; [apply G; reflexivity|]); try discriminate. intros es' E. inversion E; subst es'.
  apply tree_ok_intro; [repeat (constructor; [cbn; intuition discriminate|]); constructor|].
  intros k x H. in_cases H; (split; [apply G; reflexivity|discriminate]).
Qed.
Example C33_instance : tree_ok (outer_tree "v") /\ packs (dotted (pack (outer_tree "v"))) (outer_tree "v") /\
  dotted (pack (outer_tree "v")) <> pack (outer_tree "v") /\ lookup_path (outer_tree "v") ["sub"] = Some (NDir (inner_tree "v")).
Proof.
  split; [apply outer_tree_ok|]. split; [apply C33_packable, outer_tree_ok|]. split; [discriminate|reflexivity].
Qed.

(** C34.  Opening any archive type gives the same result (same values or same exception) on a directory tree and on a tar of it,
    when the tree contains no empty file; this also holds for every sub-directory. *)
Theorem C34_same_result t es a : tree_ok es -> no_empty_files es -> packs t es -> names_ok a ->
  exists f d, tar_create t "" = Ok (StTar f d "") /\
  forall path es', lookup_path es path = Some (NDir es') ->
    open_archive a (StTar f d (join path)) = open_archive a (StDir es').
Proof.
  intros Ht He Hp Hn. destruct (tar_indexes t es Ht Hp) as (f & d & E & Hi). exists f, d. unfold tar_create. rewrite E.
  split; [reflexivity|]. intros path es' Hl. symmetry. now apply (tar_open es f d path es' a Ht He Hi Hn).
Qed.
Example C34_instance : tree_ok (outer_tree "v") /\ no_empty_files (outer_tree "v") /\ packs (pack (outer_tree "v")) (outer_tree "v") /\
  names_ok outer /\ exists rs, open_archive outer (StDir (outer_tree "v")) = Ok rs.
Proof.
  split; [apply outer_tree_ok|]. split; [|split; [apply C33_packable, outer_tree_ok|split]].
  - intros cs m H. destruct cs as [|c t]; [discriminate|]. cbn [lookup_path] in H.
    destruct (dict_get (outer_tree "v") c) as [x|] eqn:E; [|discriminate]. apply dict_get_in in E. in_cases E;
      (destruct t as [|c2 t]; [inversion H; subst m; discriminate|]); try discriminate.
    cbn [lookup_path] in H. destruct (dict_get (inner_tree "v") c2) as [x|] eqn:E2; [|discriminate]. apply dict_get_in in E2. in_cases E2;
      (destruct t as [|c3 t]; [inversion H; subst m; discriminate|]); discriminate.
  - assert (G : forall k, String.eqb k "" = false -> has_slash k = false -> String.eqb k "." = false -> good k).
    { intros k H1 H2 H3. apply String.eqb_neq in H1, H3. now split. }
    assert (N : forall a', nested outer a' -> a' = outer \/ a' = inner).
    { intros a' H. induction H as [|a1 n a2 sch opt H IH Hin]; [now left|]. destruct IH as [->| ->].
      - destruct Hin as [X|[X|[X|[]]]]; try discriminate. inversion X. now right.
      - destruct Hin as [X|[X|[X|[]]]]; discriminate. }
    intros a' n sig Ha Hin. destruct (N a' Ha) as [->| ->]; in_cases Hin; apply G; reflexivity.
  - eexists. vm_compute. reflexivity.
Qed.
(** Empty files are where the two differ: mapping an empty file raises ValueError, an empty tar member is an empty resource. *)
Theorem C34_empty_file_refuted : exists es t f d e e',
  tree_ok es /\ packs t es /\ names_ok one_vec /\ tar_create t "" = Ok (StTar f d "") /\
  open_archive one_vec (StDir es) = Err e /\ open_archive one_vec (StTar f d "") = Err e' /\ e <> e'.
Proof.
  exists [("v.schema", NFile [])], (pack [("v.schema", NFile [])]). do 4 eexists.
  assert (T : tree_ok [("v.schema", NFile [])]).
  { apply tree_ok_intro; [repeat (constructor; [cbn; intuition discriminate|]); constructor|].
    intros k x H. in_cases H. split; [|discriminate]. split; [discriminate|]. split; [reflexivity|discriminate]. }
  split; [exact T|]. split; [now apply pack_packs|]. split.
  - intros a' n sig H Hin. assert (a' = one_vec).
    { clear Hin. induction H as [|a1 m a2 sch opt H IH Hin]; [reflexivity|]. subst a1. destruct Hin as [X|[]]. discriminate. }
    subst a'. in_cases Hin. split; [discriminate|]. split; [reflexivity|discriminate].
  - split; [reflexivity|]. split; [vm_compute; reflexivity|]. split; [vm_compute; reflexivity|]. discriminate.
Qed.

(** ** C35 *)
(** C35, the part that holds: if the text contains the letters "archive" exactly once, in the declaration, followed by the name and
    an opening brace, the name is found. *)
Theorem C35_single_partial pre w1 n w2 post : let s := pre ++ "archive" ++ w1 ++ n ++ w2 ++ "{" ++ post in
  (forall i, occurs_at "archive" s i -> i = String.length pre) ->
  all_space w1 -> all_space w2 -> trimmed n -> (forall i, ~ occurs_at "{" (w1 ++ n ++ w2) i) ->
  get_archive_name s = Ok n.
Proof. apply name_single. Qed.
(** C35.  If the letters "archive" occur more than once (in particular, if several archives are declared) it raises. *)
Theorem C35_several s i j : occurs_at "archive" s i -> occurs_at "archive" s j -> i <> j -> get_archive_name s = Err RuntimeError.
Proof. apply name_several. Qed.
Lemma occurs_dec p s i : occurs_at p s i -> py_find p (drop i s) = 0.
Proof.
  intros (a & b & -> & <-). rewrite drop_app. destruct (p ++ b) eqn:E; cbn [py_find]; rewrite <- E, prefix_app; reflexivity.
Qed.
Example C35_instance : let s := "namespace n { " ++ "archive" ++ " " ++ "Foo" ++ " " ++ "{" ++ " r : raw_data; } }" in
  (forall i, occurs_at "archive" s i -> i = String.length "namespace n { ") /\ trimmed "Foo" /\ all_space " " /\
  (forall i, ~ occurs_at "{" (" " ++ "Foo" ++ " ") i).
Proof.
  split; [|split; [|split]].
  - intros i H. pose proof (occurs_le _ _ _ H) as L. apply occurs_dec in H. cbn [append String.length] in *.
    do 40 (destruct i as [|i]; [vm_compute in H; first [discriminate|reflexivity]|]). cbn in L. lia.
  - split; [reflexivity|]. exists "Fo", "o"%char. split; reflexivity.
  - repeat constructor.
  - intros i H. pose proof (occurs_le _ _ _ H) as L. apply occurs_dec in H. cbn [append String.length] in *.
    do 6 (destruct i as [|i]; [vm_compute in H; discriminate|]). lia.
Qed.
(** C35 is false in general: an identifier or comment containing the word makes a schema with one archive fail, and a comment
    between keyword and name becomes part of the name. *)
Theorem C35_refuted :
  get_archive_name "struct Archived { x : u8; } archive Foo { r : raw_data; }" = Ok "Foo" /\
  get_archive_name "struct archived { x : u8; } archive Foo { r : raw_data; }" = Err RuntimeError /\
  get_archive_name "archive Foo /* v2 */ { r : raw_data; }" = Ok "Foo /* v2 */".
Proof. repeat split. Qed.

(** ** C61 *)
Lemma ends_with_spec s suf : ends_with s suf = true <-> exists a, s = a ++ suf.
Proof.
  unfold ends_with. split.
  - intros H. apply andb_true_iff in H. destruct H as [H1 H2]. apply Nat.leb_le in H1. apply String.eqb_eq in H2.
    exists (String.substring 0 (String.length s - String.length suf) s). rewrite <- H2 at 2. unfold drop.
    generalize (String.length s - String.length suf)%nat as k. clear. intros k. revert k.
    induction s as [|c s IH]; intros k; [destruct k; reflexivity|]. destruct k as [|k].
    + cbn [substring append]. rewrite Nat.sub_0_r. cbn [String.length]. cbn [substring]. now rewrite substring_all.
    + cbn [substring append String.length]. rewrite Nat.sub_succ. f_equal. apply IH.
  - intros (a & ->). rewrite length_app_s. apply andb_true_iff. split; [apply Nat.leb_le; lia|].
    replace (String.length a + String.length suf - String.length suf)%nat with (String.length a) by lia.
    rewrite drop_app. apply String.eqb_refl.
Qed.
Lemma signature_name_spec n : signature_name (n ++ ".archive") = n.
Proof.
  unfold signature_name. rewrite length_app_s. cbn [String.length]. replace (String.length n + 8 - 8)%nat with (String.length n) by lia.
  pose proof (substring_mid "" n ".archive") as H. exact H.
Qed.

(** C61, the part that holds (directories): the inspector opens the archive type compiled from the schema stored next to the
    only signature file, or next to the one that was asked for. *)
Theorem C61_directory_partial engine es n want text a :
  In (n ++ ".archive") (map fst es) -> NoDup (map fst es) ->
  (want = Some n \/ want = None /\ forall k, In (k ++ ".archive") (map fst es) -> k = n) ->
  dict_get es ((n ++ ".archive") ++ ".schema") = Some (NFile text) -> text <> [] -> utf8_valid text = true ->
  engine text n = Ok a ->
  inspect engine (StDir es) want = open_archive a (StDir es).
Proof.
  intros Hin Hnd Hw Hs Hne Hu He. unfold inspect.
  assert (Sel : select_signature (StDir es) want = Ok (n ++ ".archive")).
  { unfold select_signature, signatures. cbn [st_ls].
    assert (Hf : In (n ++ ".archive") (filter (fun p => ends_with p ".archive") (map fst es))).
    { apply filter_In. split; [assumption|]. apply ends_with_spec. eauto. }
    destruct Hw as [->|(-> & Huniq)].
    - assert (X : existsb (String.eqb (n ++ ".archive")) (filter (fun p => ends_with p ".archive") (map fst es)) = true).
      { apply existsb_exists. eexists. split; [exact Hf|apply String.eqb_refl]. }
      destruct (filter _ _) as [|s1 [|s2 t]]; [destruct Hf| |]; now rewrite X.
    - assert (U : forall s, In s (filter (fun p => ends_with p ".archive") (map fst es)) -> s = n ++ ".archive").
      { intros s H. apply filter_In in H. destruct H as [H1 H2]. apply ends_with_spec in H2. destruct H2 as (k & ->). f_equal. now apply Huniq. }
      assert (N2 : NoDup (filter (fun p => ends_with p ".archive") (map fst es))) by now apply NoDup_filter.
      destruct (filter _ _) as [|s1 [|s2 t]]; [destruct Hf| |].
      + f_equal. apply U. now left.
      + exfalso. inversion N2 as [|? ? X _]; subst. apply X. rewrite (U s1), (U s2); [now left|right; now left|now left]. }
  rewrite Sel. cbn [bind]. rewrite signature_name_spec. unfold read_schema. cbn [st_lookup]. unfold dir_get. rewrite Hs.
  destruct text as [|b tx]; [congruence|]. cbn [bind]. unfold decode. rewrite Hu. cbn [bind]. rewrite He. reflexivity.
Qed.
(** Several archives and no name, no archive, or a name that is not there: RuntimeError. *)
Theorem C61_selection_errors engine st :
  (forall k1 k2, k1 <> k2 -> In (k1 ++ ".archive") (st_ls st) -> In (k2 ++ ".archive") (st_ls st) ->
     inspect engine st None = Err RuntimeError) /\
  (forall want, (forall k, ~ In (k ++ ".archive") (st_ls st)) -> inspect engine st want = Err RuntimeError) /\
  (forall n, ~ In (n ++ ".archive") (st_ls st) -> inspect engine st (Some n) = Err RuntimeError).
Proof.
  assert (A : forall n, ~ In (n ++ ".archive") (st_ls st) -> inspect engine st (Some n) = Err RuntimeError).
  { intros n H. unfold inspect, select_signature.
    assert (X : existsb (String.eqb (n ++ ".archive")) (signatures st) = false).
    { destruct (existsb _ _) eqn:E; [|reflexivity]. apply existsb_exists in E. destruct E as (x & Hx & Ex). apply String.eqb_eq in Ex. subst x.
      apply filter_In in Hx. tauto. }
    destruct (signatures st) as [|s1 [|s2 t]]; [reflexivity| |]; now rewrite X. }
  split; [|split; [|exact A]].
  - intros k1 k2 Hne H1 H2. unfold inspect, select_signature.
    assert (F : forall k, In (k ++ ".archive") (st_ls st) -> In (k ++ ".archive") (signatures st)).
    { intros k H. apply filter_In. split; [assumption|]. apply ends_with_spec. eauto. }
    apply F in H1, H2. destruct (signatures st) as [|s1 [|s2 t]]; [reflexivity| |reflexivity].
    destruct H1 as [->|[]], H2 as [E|[]]. exfalso. apply Hne. rewrite <- (signature_name_spec k1), E. apply signature_name_spec.
  - intros want H. destruct want as [n|]; [now apply A|]. unfold inspect, select_signature.
    destruct (signatures st) as [|s1 t] eqn:E; [reflexivity|]. exfalso.
    assert (Hs : In s1 (signatures st)) by (rewrite E; now left). apply filter_In in Hs. destruct Hs as [H1 H2].
    apply ends_with_spec in H2. destruct H2 as (k & ->). now apply (H k).
Qed.
Example C61_instance :
  let es := outer_tree "v" in
  In ("O" ++ ".archive") (map fst es) /\ NoDup (map fst es) /\ (forall k, In (k ++ ".archive") (map fst es) -> k = "O") /\
  dict_get es (("O" ++ ".archive") ++ ".schema") = Some (NFile (ascii_bytes "archive O")) /\ utf8_valid (ascii_bytes "archive O") = true.
Proof.
  intros es. split; [cbn; tauto|]. split; [repeat (constructor; [cbn; intuition discriminate|]); constructor|].
  split; [|split; reflexivity]. intros k H. rewrite <- (signature_name_spec k).
  cbn [map fst es outer_tree In] in H.
  assert (E : forall x, x = k ++ ".archive" -> ends_with x ".archive" = true) by (intros x ->; apply ends_with_spec; eauto).
  destruct H as [H|[H|[H|[H|[H|[]]]]]]; try (apply E in H; vm_compute in H; discriminate). now rewrite <- H.
Qed.
(** C61 is false for tar files: whatever the tar contains, the inspector raises. *)
Theorem C61_tar_refuted engine f d s want : exists e, inspect engine (StTar f d s) want = Err e.
Proof.
  unfold inspect. destruct (select_signature (StTar f d s) want) as [sg|e]; cbn [bind]; [|eauto].
  unfold read_schema. destruct (st_lookup (StTar f d s) (sg ++ ".schema") false) as [g|e]; cbn [bind]; [|eauto]. eauto.
Qed.
Example C61_tar_instance : exists f d rs, tar_create (pack (outer_tree "v")) "" = Ok (StTar f d "") /\
  inspect (fun _ _ => Ok outer) (StTar f d "") None = Err AttributeError /\
  inspect (fun _ _ => Ok outer) (StDir (outer_tree "v")) None = Ok rs.
Proof. do 3 eexists. split; [reflexivity|]. split; vm_compute; reflexivity. Qed.
