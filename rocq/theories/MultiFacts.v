(** Proofs about multivectors. *)
From Coq Require Import List ZArith Bool String Lia.
From Coq Require Import ZifyBool ZifyNat.
From Verif Require Import PyBase Spec DataAccess BitFacts DataAccessFacts DataAccessThms Structure StructSpec StructFacts
  Resources SliceSpec Builder Archive ArchiveSpec ResourceSpec BuilderFacts ResourceFacts SliceFacts.
Import ListNotations.
Local Open Scope string_scope.
Local Open Scope list_scope.
Local Open Scope Z_scope.
Ltac Zify.zify_post_hook ::= Z.div_mod_to_equations.

(** ** finding the type of an element *)
Lemma find_type_shift ts : forall i n, find_type i ts n = option_map (fun p => (i + fst p, snd p)) (find_type 0 ts n).
Proof.
  induction ts as [|t ts IH]; intros i n; cbn [find_type]; [reflexivity|].
  rewrite (IH (i + 1)), (IH (0 + 1)). destruct (find_type 0 ts n) as [[j sd]|]; cbn [option_map fst snd].
  - do 2 f_equal. lia.
  - destruct (String.eqb (s_name t) n); cbn; [|reflexivity]. do 2 f_equal. lia.
Qed.

Lemma find_type_notin ts n : ~ In n (map s_name ts) -> forall i, find_type i ts n = None.
Proof.
  induction ts as [|t ts IH]; intros H i; cbn [find_type]; [reflexivity|]. cbn [map In] in H.
  rewrite IH by tauto. destruct (String.eqb (s_name t) n) eqn:E; [apply String.eqb_eq in E; tauto|reflexivity].
Qed.

Lemma find_type_nth ts : NoDup (map s_name ts) -> forall k sd, nth_error ts k = Some sd ->
  find_type 0 ts (s_name sd) = Some (Z.of_nat k, sd).
Proof.
  induction ts as [|t ts IH]; intros Hnd k sd Hk; [destruct k; discriminate|].
  cbn [map] in Hnd. inversion Hnd as [|? ? Hn Hnd']; subst. cbn [find_type]. rewrite find_type_shift.
  destruct k as [|k]; cbn [nth_error] in Hk.
  - inversion Hk; subst. rewrite find_type_notin by assumption. cbn [option_map]. now rewrite String.eqb_refl.
  - rewrite (IH Hnd' k sd Hk). cbn [option_map fst snd]. do 2 f_equal. lia.
Qed.

Lemma filter_notin ts n : ~ In n (map s_name ts) -> filter (fun t => String.eqb (s_name t) n) ts = [].
Proof.
  induction ts as [|t ts IH]; intros H; [reflexivity|]. cbn [map In filter] in *.
  destruct (String.eqb (s_name t) n) eqn:E; [apply String.eqb_eq in E; tauto|]. apply IH. tauto.
Qed.

Lemma filter_nth ts : NoDup (map s_name ts) -> forall k sd, nth_error ts k = Some sd ->
  filter (fun t => String.eqb (s_name t) (s_name sd)) ts = [sd].
Proof.
  induction ts as [|t ts IH]; intros Hnd k sd Hk; [destruct k; discriminate|].
  cbn [map] in Hnd. inversion Hnd as [|? ? Hn Hnd']; subst. cbn [filter].
  destruct k as [|k]; cbn [nth_error] in Hk.
  - inversion Hk; subst. rewrite String.eqb_refl. f_equal. now apply filter_notin.
  - destruct (String.eqb (s_name t) (s_name sd)) eqn:E.
    + exfalso. apply String.eqb_eq in E. apply Hn. rewrite E. apply in_map. eapply nth_error_In; eauto.
    + eauto.
Qed.

(** ** one element *)
Lemma element_ok name ts e out : types_ok ts -> element_is ts e out ->
  validate_element name ts e = Ok tt /\
  exists b, element_bytes ts e = Ok b /\ is_bytes b /\ zlen b = element_size ts out /\ 0 < zlen b /\
  forall pre post m, is_bytes pre -> is_bytes post -> mv_mem m = pre ++ b ++ post -> mv_types m = ts ->
    exists el, reads_as ts out el /\
    forall fuel next rest, zlen pre < next ->
      bucket_elements fuel m (zlen pre + zlen b) next = Ok rest ->
      bucket_elements (S fuel) m (zlen pre) next = Ok (el :: rest).
Proof.
  intros (Hnd & H256 & Hok) (sd & Hti & Hnth & Hname & Hrec). destruct out as [ti vals]; cbn [fst snd] in *.
  assert (Hsd : sdef_ok sd). { rewrite Forall_forall in Hok. apply Hok. eapply nth_error_In; eauto. }
  assert (Hlt : ti < 256). { pose proof (proj1 (nth_error_Some ts (Z.to_nat ti))) as HH. rewrite Hnth in HH.
    specialize (HH ltac:(discriminate)). unfold zlen in H256. lia. }
  split.
  - unfold validate_element. rewrite <- Hname. rewrite (filter_nth ts Hnd _ _ Hnth). eapply validate_ok; eauto.
  - destruct (pack_element_ok ti sd (snd e) vals ltac:(lia) Hsd Hrec) as (b & Hp & Hl & Hb & Hread).
    pose proof (sdef_ok_size sd Hsd) as Hs0.
    exists (ti :: b). unfold element_bytes. rewrite <- Hname. rewrite (find_type_nth ts Hnd _ _ Hnth).
    rewrite Z2Nat.id by assumption. split; [exact Hp|].
    split; [constructor; [unfold is_byte; lia|assumption]|]. split; [unfold element_size; cbn [fst]; rewrite Hnth, zlen_cons; lia|].
    split; [rewrite zlen_cons; lia|].
    intros pre post m Hpre Hpost Hm Hts. pose proof (zlen_nonneg pre) as Hp0.
    exists (ti, SView sd (mv_mem m) (zlen pre + 1)). split.
    + split; [reflexivity|]. cbn [fst snd v_def]. split; [assumption|]. rewrite Hm. apply as_list_ok. cbn [v_def]. now apply Hread.
    + intros fuel next rest Hnext Hrest. cbn [bucket_elements]. replace (zlen pre <? next) with true by lia.
      assert (Hby : is_bytes (mv_mem m)).
      { rewrite Hm. rewrite !is_bytes_app. repeat split; try assumption. constructor; [unfold is_byte; lia|assumption]. }
      rewrite read_value_exact.
      * unfold field_value. cbv iota.
        replace (uint_at (mv_mem m) (zlen pre * 8) (Z.to_nat 8)) with ti.
        -- cbn [bind]. rewrite Hts. unfold py_get. replace (ti <? 0) with false by lia. replace (ti <? 0) with false by lia.
           rewrite Hnth. cbn [bind]. rewrite zlen_cons, Hl in Hrest.
           replace (zlen pre + 1 + s_size sd) with (zlen pre + (1 + s_size sd)) by lia. rewrite Hrest. reflexivity.
        -- rewrite Hm. rewrite (uint_at_shift _ [ti] _ _ 0).
           ++ rewrite uint_at_le by (try lia; repeat constructor; unfold is_byte; lia). cbn [le].
              rewrite Z.mul_0_r, Z.add_0_r, Z.pow_0_r, Z.div_1_r. symmetry. apply Z.mod_small. change (2 ^ Z.of_nat (Z.to_nat 8)) with 256. lia.
           ++ intros k Hk. replace (zlen pre * 8 + k) with (8 * zlen pre + k) by lia. rewrite bit_at_app_r by lia.
              rewrite Z.add_0_l. change ((ti :: b) ++ post) with ([ti] ++ (b ++ post)). apply bit_at_app_l.
              unfold zlen; cbn [List.length]. lia.
      * assumption.
      * unfold in_bounds. rewrite Hm, !zlen_app, zlen_cons. pose proof (zlen_nonneg post). pose proof (zlen_nonneg b). lia.
      * lia.
      * discriminate.
Qed.

Lemma bucket_elements_done fuel m o n : n <= o -> bucket_elements fuel m o n = Ok [].
Proof. intros H. destruct fuel; cbn [bucket_elements]; replace (o <? n) with false by lia; reflexivity. Qed.

(** ** one bucket *)
Lemma bucket_ok name ts es outs : types_ok ts -> Forall2 (element_is ts) es outs ->
  mapM (validate_element name ts) es = Ok (map (fun _ => tt) es) /\
  exists b, bucket_bytes ts es = Ok b /\ is_bytes b /\ zlen b = zsum (map (element_size ts) outs) /\
  forall pre post m fuel, is_bytes pre -> is_bytes post -> mv_mem m = pre ++ b ++ post -> mv_types m = ts ->
    (Z.to_nat (zlen b) <= fuel)%nat ->
    exists els, Forall2 (reads_as ts) outs els /\ bucket_elements fuel m (zlen pre) (zlen pre + zlen b) = Ok els.
Proof.
  intros Hts H. induction H as [|e out es outs He _ IH].
  - split; [reflexivity|]. exists []. split; [reflexivity|]. split; [constructor|]. split; [reflexivity|].
    intros pre post m fuel _ _ _ _ _. exists []. split; [constructor|]. apply bucket_elements_done. unfold zlen; cbn [List.length]; lia.
  - destruct IH as (Hv & b & Hb & Hby & Hl & Hr).
    destruct (element_ok name ts e out Hts He) as (Hv1 & b1 & Hb1 & Hby1 & Hl1 & Hp1 & Hr1).
    split. { cbn [mapM map]. rewrite Hv1. cbn [bind]. rewrite Hv. reflexivity. }
    exists (b1 ++ b). split.
    { unfold bucket_bytes in *. cbn [mapM]. rewrite Hb1. cbn [bind].
      destruct (mapM (element_bytes ts) es) as [l|x]; cbn [bind] in *; [|discriminate].
      inversion Hb; subst. reflexivity. }
    split; [apply is_bytes_app; auto|]. split; [rewrite zlen_app; cbn [map zsum]; lia|].
    intros pre post m fuel Hpre Hpost Hm Ht Hf. rewrite zlen_app in *. pose proof (zlen_nonneg b).
    destruct (Hr1 pre (b ++ post) m Hpre) as (el & Hel & Hstep); [apply is_bytes_app; auto|now rewrite Hm, <- app_assoc|assumption|].
    destruct fuel as [|fuel]; [lia|].
    destruct (Hr (pre ++ b1) post m fuel) as (els & Hels & Hbe);
      [apply is_bytes_app; auto|assumption|now rewrite Hm, <- !app_assoc|assumption|lia|].
    exists (el :: els). split; [constructor; assumption|].
    apply Hstep; [lia|]. rewrite zlen_app in Hbe. replace (zlen pre + (zlen b1 + zlen b)) with (zlen pre + zlen b1 + zlen b) by lia. exact Hbe.
Qed.

(** ** all buckets *)
Lemma buckets_ok name ts bs outss : types_ok ts -> Forall2 (Forall2 (element_is ts)) bs outss ->
  mapM (mapM (validate_element name ts)) bs = Ok (map (map (fun _ => tt)) bs) /\
  exists bufs, mapM (bucket_bytes ts) bs = Ok bufs /\ Forall is_bytes bufs /\ List.length bufs = List.length bs /\
    zlen (List.concat bufs) = buckets_size ts outss /\
    Forall2 (fun b outs => forall pre post m fuel, is_bytes pre -> is_bytes post -> mv_mem m = pre ++ b ++ post -> mv_types m = ts ->
    (Z.to_nat (zlen b) <= fuel)%nat ->
    exists els, Forall2 (reads_as ts) outs els /\ bucket_elements fuel m (zlen pre) (zlen pre + zlen b) = Ok els) bufs outss.
Proof.
  intros Hts H. induction H as [|es outs bs outss He _ IH].
  - split; [reflexivity|]. exists []. repeat split; constructor.
  - destruct IH as (Hv & bufs & Hm & Hb & Hl & Hz & Hr).
    destruct (bucket_ok name ts es outs Hts He) as (Hv1 & b & Hb1 & Hby1 & Hl1 & Hr1).
    split. { cbn [mapM map]. rewrite Hv1. cbn [bind]. rewrite Hv. reflexivity. }
    exists (b :: bufs). cbn [mapM]. rewrite Hb1. cbn [bind]. rewrite Hm. cbn [bind].
    split; [reflexivity|]. split; [constructor; assumption|]. split; [cbn [List.length]; lia|].
    split; [cbn [List.concat]; rewrite zlen_app; unfold buckets_size in *; cbn [map zsum]; lia|].
    constructor; assumption.
Qed.

Lemma bucket_points_length start sizes : List.length (bucket_points start sizes) = S (List.length sizes).
Proof. revert start. induction sizes as [|x t IH]; intros start; cbn [bucket_points List.length]; [reflexivity|]. now rewrite IH. Qed.

Lemma bucket_points_nth (bufs : list (list Z)) : forall start i, (i <= List.length bufs)%nat ->
  nth i (bucket_points start (map zlen bufs)) 0 = start + zlen (List.concat (firstn i bufs)).
Proof.
  induction bufs as [|b t IH]; intros start i Hi; cbn [List.length] in Hi.
  - assert (i = 0)%nat by lia. subst. cbn. lia.
  - cbn [map bucket_points]. destruct i as [|i]; cbn [nth firstn List.concat]; [cbn; lia|].
    rewrite IH by lia. rewrite zlen_app. lia.
Qed.

Lemma bucket_points_range (bufs : list (list Z)) start p : In p (bucket_points start (map zlen bufs)) ->
  start <= p <= start + zlen (List.concat bufs).
Proof.
  revert start. induction bufs as [|b t IH]; intros start; cbn [map bucket_points List.concat].
  - intros [<-|[]]. cbn. lia.
  - rewrite zlen_app. pose proof (zlen_nonneg b). pose proof (zlen_nonneg (List.concat t)). intros [<-|Hin]; [lia|].
    specialize (IH _ Hin). lia.
Qed.

Lemma to_bytes_points size pts : 0 <= size -> (forall p, In p pts -> 0 <= p < 2 ^ (8 * size)) ->
  mapM (fun p => py_to_bytes p size false) pts = Ok (map (to_le (Z.to_nat size)) pts).
Proof.
  intros Hs H. apply mapM_Forall2. induction pts as [|p t IH]; cbn [map]; constructor.
  - unfold py_to_bytes. replace (size <? 0) with false by lia. specialize (H p (or_introl eq_refl)).
    replace (0 <=? p) with true by lia. replace (p <? 2 ^ (8 * size)) with true by lia. reflexivity.
  - apply IH. intros q Hq. apply H. now right.
Qed.

(** ** reading the index *)
Lemma index_size it w : index_def_ok it w -> 0 < s_size it /\ w <= 8 * s_size it.
Proof. intros (_ & Hw & Hs). rewrite Hs. lia. Qed.

Lemma index_entry it w mem pre p post : index_def_ok it w -> is_bytes pre -> is_bytes post ->
  mem = pre ++ to_le (Z.to_nat (s_size it)) p ++ post -> 0 <= p < 2 ^ w ->
  getattr (SView it mem (zlen pre)) "value" = Ok p.
Proof.
  intros Hit Hpre Hpost -> Hp. destruct (index_size it w Hit) as [Hs0 Hs8]. destruct Hit as (Hf & Hw & Hs).
  unfold getattr. cbn [v_def]. rewrite Hf. cbn [find_field f_name String.eqb]. cbn.
  unfold get_value. cbn [v_mem v_pos f_off f_width f_signed].
  set (mem := pre ++ _ ++ post). assert (Hmem : is_bytes mem).
  { unfold mem. rewrite !is_bytes_app. auto using to_le_bytes. }
  pose proof (zlen_nonneg pre) as Hp0. pose proof (zlen_nonneg post) as Hp1.
  assert (Hbits : forall k, 0 <= k < w -> bit_at mem (zlen pre * 8 + 0 + k) = Z.testbit p k).
  { intros k Hk. unfold mem. replace (zlen pre * 8 + 0 + k) with (8 * zlen pre + k) by lia. rewrite bit_at_app_r by lia.
    rewrite bit_at_app_l by (rewrite zlen_to_le; lia). rewrite to_le_testbit by lia.
    replace (k <? 8 * Z.of_nat (Z.to_nat (s_size it))) with true by lia. reflexivity. }
  assert (Hib : in_bounds (zlen mem) (zlen pre * 8 + 0) w).
  { unfold in_bounds, mem. rewrite !zlen_app, zlen_to_le. lia. }
  apply (read_back mem _ w false p); try assumption.
  - intros ->. change (2 ^ 1) with 2 in Hp. lia.
  - intros k Hk. rewrite Hbits by assumption. unfold vbit. replace (0 <=? k) with true by lia.
    replace (k <? w) with true by lia. reflexivity.
  - intros _ _ Hm. exfalso. apply Hm. lia.
Qed.

Lemma bucket_offset_ok it w mem ts pts : index_def_ok it w -> Forall (fun p => 0 <= p < 2 ^ w) pts ->
  forall i, (i < List.length pts)%nat ->
  let idx := map (to_le (Z.to_nat (s_size it))) pts in
  bucket_offset (Multivector (Vector (framed (List.concat idx)) it (zlen pts)) mem ts) (Z.of_nat i) = Ok (nth i pts 0 + 8).
Proof.
  intros Hit Hpts i Hi idx. destruct (index_size it w Hit) as [Hs0 Hs8].
  assert (Hlen : Forall (fun b => zlen b = s_size it) idx).
  { unfold idx. apply Forall_map. apply Forall_forall. intros p _. rewrite zlen_to_le. lia. }
  assert (Hby : Forall is_bytes idx). { unfold idx. apply Forall_map. apply Forall_forall. intros; apply to_le_bytes. }
  destruct (framed_chunk (s_size it) idx i Hlen) as (pre & post & E & Hz & Hb); [unfold idx; now rewrite map_length|].
  destruct (Hb Hby) as [B1 B2].
  unfold bucket_offset. cbn [mv_index]. rewrite vector_get_spec by (cbn; apply zlen_nonneg).
  unfold vector_len. cbn [vec_size vec_mem vec_def].
  replace ((- zlen pts <=? Z.of_nat i) && (Z.of_nat i <? zlen pts)) with true by (unfold zlen; lia).
  replace (Z.of_nat i <? 0) with false by lia. cbn [bind]. unfold get_item, item_offset. change SIZE_OFFSET_IN_BYTES with 8.
  rewrite <- Hz.
  replace (nth i idx []) with (to_le (Z.to_nat (s_size it)) (nth i pts 0)) in E.
  2:{ unfold idx. rewrite (nth_indep _ [] (to_le (Z.to_nat (s_size it)) 0)) by (rewrite map_length; lia). symmetry. apply map_nth. }
  rewrite (index_entry it w _ pre (nth i pts 0) post Hit B1 B2 E); [reflexivity|].
  rewrite Forall_forall in Hpts. apply Hpts. now apply nth_In.
Qed.

(** ** the whole multivector *)
Lemma multi_ok name it w ts schema opt bs outss :
  index_def_ok it w -> types_ok ts -> Forall2 (Forall2 (element_is ts)) bs outss ->
  buckets_size ts outss < 2 ^ w -> s_size it * (zlen bs + 1) < 2 ^ 64 ->
  exists p ix m, valid_set name (RSig (CMultivector it ts) schema opt) (SBuckets bs) p (Some ix) /\
    zlen p = buckets_size ts outss /\ is_bytes p /\ is_bytes ix /\
    multivector_open (framed ix) (framed p) it ts = Ok m /\ multivector_len m = zlen bs /\
    vector_len (mv_index m) = zlen bs + 1 /\
    forall i, (i < List.length bs)%nat -> exists els, multivector_get m (Z.of_nat i) = Ok els /\
      Forall2 (reads_as ts) (nth i outss []) els.
Proof.
  intros Hit Hts H Hsz Hix. destruct (index_size it w Hit) as [Hs0 Hs8].
  destruct (buckets_ok name ts bs outss Hts H) as (Hv & bufs & Hm & Hb & Hl & Hz & Hr).
  set (pts := bucket_points 0 (map zlen bufs)). set (idx := map (to_le (Z.to_nat (s_size it))) pts).
  assert (Hw : w <= 64) by (destruct Hit; lia).
  assert (H2 : 2 ^ w <= 2 ^ (8 * s_size it)) by (apply Z.pow_le_mono_r; lia).
  assert (H3 : 2 ^ w <= 2 ^ 64) by (apply Z.pow_le_mono_r; lia).
  assert (Hpts : Forall (fun p => 0 <= p < 2 ^ w) pts).
  { apply Forall_forall. intros p Hp. apply bucket_points_range in Hp. lia. }
  assert (Hlp : List.length pts = S (List.length bs)) by (unfold pts; rewrite bucket_points_length, map_length; lia).
  assert (Htb : mapM (fun p => py_to_bytes p (s_size it) false) pts = Ok idx).
  { apply to_bytes_points; [lia|]. intros p Hp. rewrite Forall_forall in Hpts. specialize (Hpts p Hp). lia. }
  assert (Hilen : Forall (fun b => zlen b = s_size it) idx).
  { unfold idx. apply Forall_map. apply Forall_forall. intros p _. rewrite zlen_to_le. lia. }
  assert (Hiby : Forall is_bytes idx). { unfold idx. apply Forall_map. apply Forall_forall. intros; apply to_le_bytes. }
  assert (Hil : zlen idx = zlen bs + 1) by (unfold idx; rewrite zlen_map; unfold zlen; lia).
  assert (Hifit : fits64 (List.concat idx) = true).
  { unfold fits64. rewrite (zlen_concat_const idx (s_size it)) by assumption. rewrite Hil. lia. }
  exists (List.concat bufs), (List.concat idx), (Multivector (Vector (framed (List.concat idx)) it (zlen idx)) (framed (List.concat bufs)) ts).
  split; [|split; [assumption|split; [now apply is_bytes_concat|split; [now apply is_bytes_concat|split; [|split; [|split; [exact Hil|]]]]]]].
  - unfold valid_set, validate_value, payload_of. cbn [r_container]. rewrite Hv, Hm. cbn [bind].
    replace (s_size it =? 0) with false by lia. fold pts. rewrite Htb. cbn [bind].
    split; [reflexivity|]. split; [reflexivity|]. split; [unfold fits64; lia|assumption].
  - unfold multivector_open. rewrite vector_open_concat by (assumption || lia). reflexivity.
  - unfold multivector_len, vector_len. cbn [mv_index vec_size]. rewrite Hil. pose proof (zlen_nonneg bs). lia.
  - intros i Hi.
    pose proof (bucket_offset_ok it w (framed (List.concat bufs)) ts pts Hit Hpts) as HO. cbv zeta in HO. fold idx in HO.
    replace (zlen pts) with (zlen idx) in HO by (unfold idx; apply zlen_map).
    unfold multivector_get. rewrite (HO i) by lia. cbn [bind].
    replace (Z.of_nat i + 1) with (Z.of_nat (S i)) by lia. rewrite (HO (S i)) by lia. cbn [bind].
    unfold pts. rewrite !bucket_points_nth by lia.
    pose proof (Forall2_nth _ _ _ [] [] i Hr ltac:(lia)) as Hri. cbv beta in Hri.
    destruct (Hri (to_le 8 (zlen (List.concat bufs)) ++ List.concat (firstn i bufs)) (List.concat (skipn (S i) bufs) ++ zeros 8)
       (Multivector (Vector (framed (List.concat idx)) it (zlen idx)) (framed (List.concat bufs)) ts)
       (Z.to_nat (zlen (nth i bufs [])))) as (els & Hels & Hbe).
    + apply is_bytes_app. split; [apply to_le_bytes|apply is_bytes_concat; now apply Forall_firstn].
    + apply is_bytes_app. split; [apply is_bytes_concat; now apply Forall_skipn|apply is_bytes_zeros].
    + cbn [mv_mem]. unfold framed. rewrite (concat_split bufs i []) at 2 by lia. now rewrite <- !app_assoc.
    + reflexivity.
    + lia.
    + exists els. split; [|assumption]. rewrite zlen_app, zlen_to_le in Hbe.
      replace (zlen (List.concat (firstn (S i) bufs))) with (zlen (List.concat (firstn i bufs)) + zlen (nth i bufs [])).
      * replace (0 + (zlen (List.concat (firstn i bufs)) + zlen (nth i bufs [])) + 8 - (0 + zlen (List.concat (firstn i bufs)) + 8))
          with (zlen (nth i bufs [])) by lia.
        replace (0 + zlen (List.concat (firstn i bufs)) + 8) with (Z.of_nat 8 + zlen (List.concat (firstn i bufs))) by lia.
        replace (0 + (zlen (List.concat (firstn i bufs)) + zlen (nth i bufs [])) + 8)
          with (Z.of_nat 8 + zlen (List.concat (firstn i bufs)) + zlen (nth i bufs [])) by lia.
        exact Hbe.
      * assert (E : firstn (S i) bufs = firstn i bufs ++ [nth i bufs []]).
        { clear - Hi Hl. revert i bs Hi Hl. induction bufs as [|b t IH]; intros i bs Hi Hl; cbn [List.length] in *; [lia|].
          destruct i as [|i]; cbn [firstn nth app]; [destruct t; reflexivity|]. f_equal.
          destruct bs as [|b0 bs]; cbn [List.length] in *; [lia|]. eapply (IH i bs); lia. }
        rewrite E, concat_app, zlen_app. cbn [List.concat]. rewrite app_nil_r. reflexivity.
Qed.
