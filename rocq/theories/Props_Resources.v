(** Property theorems C10-C22, C24, C58-C60: resources (resources.py) as written by the builder
    (archive_builder.py, resource_storage.py).  Vocabulary: [Spec], [StructSpec], [SliceSpec], [ArchiveSpec],
    [ResourceSpec].  [files_after d0 s] are the files of directory [d0] after the effects of builder state [s];
    every statement holds for every directory [d0] the builder started in and every builder state [s]
    (whatever was done with the builder before) in which the resource has not been written yet. *)
From Coq Require Import List ZArith Bool String Lia.
From Verif Require Import PyBase Spec DataAccess BitFacts DataAccessFacts DataAccessThms Structure StructSpec StructFacts
  Resources Utf8 SliceSpec Builder Archive ArchiveSpec ResourceSpec BuilderFacts ResourceFacts SliceFacts MultiFacts RawFacts
  ResourceThms Props_Structure.
Import ListNotations.
Local Open Scope string_scope.
Local Open Scope list_scope.
Local Open Scope Z_scope.

(** ** A concrete archive type for the examples *)
Definition idx8 : sdef := SDef "IndexType8" 1 [FSig "value" 0 8 false] ["value"].
Definition pt : sdef := SDef "P" 2 [FSig "x" 0 9 true; FSig "y" 9 7 false] ["x"; "y"].
Definition demo_archive : adef := ADef "A" (ascii_bytes "archive A") [
  ("ins", RSig (CInstance demo) (ascii_bytes "ins") false);
  ("vec", RSig (CVector demo) (ascii_bytes "vec") false);
  ("mv", RSig (CMultivector idx8 [demo; pt]) (ascii_bytes "mv") false);
  ("raw", RSig CRawData (ascii_bytes "raw") true) ].
Definition rec1 : record := [("b", PInt (-65536)); ("a", PInt 5); ("c", PInt 8589934591); ("flag", PInt 1)].
Definition rec2 : record := [("a", PInt 0); ("b", PInt 1); ("c", PInt 77); ("flag", PInt 0)].
Definition vals1 : list Z := [5; 1; -65536; 8589934591].
Definition vals2 : list Z := [0; 0; 1; 77].
Definition prec : record := [("y", PInt 127); ("x", PInt (-256))].
Definition start : bstate := fst (builder_new demo_archive bstate0).

Lemma demo_ok : sdef_ok demo.
Proof. exact (proj1 C08_instance). Qed.
Lemma rec1_ok : record_values rec1 demo vals1.
Proof. exact (proj1 (proj2 C08_instance)). Qed.
Lemma rec2_ok : record_values rec2 demo vals2.
Proof.
  split; [|intros k; cbn; tauto].
  repeat (constructor; [split; [reflexivity|unfold representable; cbn; lia]|]). constructor.
Qed.
Lemma pt_ok : sdef_ok pt.
Proof.
  split; [cbn; lia|]. split; [cbn; lia|]. split; [repeat constructor; cbn; try lia; discriminate|].
  split. { intros f Hf E. exfalso. cbn in Hf. destruct Hf as [<-|[<-|[]]]; cbn in E; lia. }
  split. { repeat constructor; cbn; intuition discriminate. }
  intros k. cbn. tauto.
Qed.
Lemma prec_ok : record_values prec pt [-256; 127].
Proof.
  split; [|intros k; cbn; tauto].
  repeat (constructor; [split; [reflexivity|unfold representable; cbn; lia]|]). constructor.
Qed.
Lemma demo_sized : forall m sig, dict_get (a_resources demo_archive) m = Some sig -> sig_sized sig.
Proof.
  intros m sig H. cbn [a_resources demo_archive dict_get] in H.
  repeat match type of H with context [if ?c then _ else _] => destruct c end;
    try discriminate; injection H as <-; cbn; try lia.
  split; [lia|]. repeat constructor; cbn; lia.
Qed.

(** ** C10: framing.  Whatever [set] accepts is stored as size header, payload, padding. *)
Theorem C10_framing : forall a n v s s',
  (forall m sig, dict_get (a_resources a) m = Some sig -> sig_sized sig) ->
  builder_set a n v s = (s', Ok tt) ->
  forall d0, exists payload, zlen payload < 2 ^ 64 /\
    dict_get (files_after d0 s') n = Some (to_le 8 (zlen payload) ++ payload ++ zeros 8).
Proof. exact framing. Qed.
Print Assumptions C10_framing.

(** ... and the complete effect of a successful [set] on the files: exactly the files of that resource
    change, and they hold the schema, the framed payload and (multivector) the framed index and its schema. *)
Theorem C10_exact_effect : forall a n v s s',
  (forall m sig, dict_get (a_resources a) m = Some sig -> sig_sized sig) ->
  builder_set a n v s = (s', Ok tt) ->
  exists sig p ix, dict_get (a_resources a) n = Some sig /\ ~ In n (b_written s) /\ valid_set n sig v p ix /\
    forall d0 f, dict_get (files_after d0 s') f =
      match dict_get (set_files n sig p ix) f with Some c => Some c | None => dict_get (files_after d0 s) f end.
Proof. exact set_success_files. Qed.
Print Assumptions C10_exact_effect.

Example C10_instance : exists s',
  builder_set demo_archive "raw" (SBytes [1; 2; 3]) start = (s', Ok tt) /\
  dict_get (files_after [("old", [9])] s') "raw" = Some [3; 0; 0; 0; 0; 0; 0; 0; 1; 2; 3; 0; 0; 0; 0; 0; 0; 0; 0].
Proof. eexists. split; vm_compute; reflexivity. Qed.

(** ** C11: vector round trip *)
Theorem C11_vector_roundtrip : forall a n sd schema opt rs valss s,
  dict_get (a_resources a) n = Some (RSig (CVector sd) schema opt) -> ~ In n (b_written s) ->
  sdef_ok sd -> s_fields sd <> [] -> Forall2 (fun r vals => record_values r sd vals) rs valss ->
  s_size sd * zlen rs < 2 ^ 64 ->
  exists s', builder_set a n (SRecords rs) s = (s', Ok tt) /\
  forall d0, exists bytes v, dict_get (files_after d0 s') n = Some bytes /\ is_bytes bytes /\ vector_open bytes sd = Ok v /\
    vector_len v = zlen rs /\ mapM as_list (vector_iter v) = Ok valss /\
    (forall i, - zlen rs <= i < zlen rs -> exists e, vector_get v i = Ok e /\
       as_list e = Ok (nth (Z.to_nat (if i <? 0 then i + zlen rs else i)) valss [])).
Proof. exact vector_roundtrip. Qed.
Print Assumptions C11_vector_roundtrip.

Example C11_instance :
  dict_get (a_resources demo_archive) "vec" = Some (RSig (CVector demo) (ascii_bytes "vec") false) /\
  ~ In "vec" (b_written start) /\ sdef_ok demo /\ s_fields demo <> [] /\
  Forall2 (fun r vals => record_values r demo vals) [rec1; rec2; rec1] [vals1; vals2; vals1] /\
  s_size demo * zlen [rec1; rec2; rec1] < 2 ^ 64.
Proof.
  split; [reflexivity|]. split; [cbn; intuition discriminate|]. split; [exact demo_ok|]. split; [discriminate|].
  split; [|vm_compute; reflexivity].
  repeat (constructor; [first [exact rec1_ok|exact rec2_ok]|]). constructor.
Qed.

(** ** C12: indexing any opened vector *)
Theorem C12_indexing : forall mem sd v, is_bytes mem -> 0 < s_size sd -> vector_open mem sd = Ok v ->
  forall i,
  (- vector_len v <= i < vector_len v ->
     vector_get v i = Ok (SView sd mem (8 + s_size sd * (if i <? 0 then i + vector_len v else i)))) /\
  (~ (- vector_len v <= i < vector_len v) -> vector_get v i = Err IndexError).
Proof. exact vector_indexing. Qed.
Print Assumptions C12_indexing.

Example C12_instance : let mem := framed [1; 2; 3; 4; 5; 6] in exists v,
  is_bytes mem /\ 0 < s_size pt /\ vector_open mem pt = Ok v /\ vector_len v = 3 /\
  vector_get v (-1) = vector_get v 2 /\ vector_get v 3 = Err IndexError /\ vector_get v (-4) = Err IndexError.
Proof.
  cbv zeta. eexists. split; [apply framed_bytes; repeat constructor; unfold is_byte; lia|].
  split; [cbn; lia|]. split; [vm_compute; reflexivity|]. repeat (split; [vm_compute; reflexivity|]); vm_compute; reflexivity.
Qed.

(** ** C13: slices *)
Theorem C13_slices : forall mem sd v s, is_bytes mem -> 0 < s_size sd -> vector_open mem sd = Ok v ->
  vector_slice v s = if match sl_step s with None => 1 | Some k => k end =? 0 then Err ValueError
                     else Ok (list_slice (vector_iter v) s).
Proof.
  intros mem sd v s Hb Hs H. apply vector_slice_spec. now destruct (vector_open_len mem sd v Hb Hs H).
Qed.
Print Assumptions C13_slices.

(** Sanity of [list_slice] (the specification): plain bounds, everything, reversal. *)
Theorem C13_list_slice_plain : forall A (l : list A) a b, 0 <= a -> 0 <= b <= zlen l ->
  list_slice l (PySlice (Some a) (Some b) None) = firstn (Z.to_nat (b - a)) (skipn (Z.to_nat a) l).
Proof. exact @list_slice_simple. Qed.
Theorem C13_list_slice_reverse : forall A (l : list A), list_slice l (PySlice None None (Some (-1))) = rev l.
Proof. exact @list_slice_reverse. Qed.
Theorem C13_list_slice_full : forall A (l : list A), list_slice l (PySlice None None None) = l.
Proof. exact @list_slice_full. Qed.
Example C13_instance :
  list_slice [10; 11; 12; 13; 14; 15] (PySlice (Some (-2)) None (Some (-2))) = [14; 12; 10] /\
  list_slice [10; 11; 12; 13; 14; 15] (PySlice (Some 1) (Some 100) (Some 2)) = [11; 13; 15] /\
  (v <- vector_open (framed [1; 0; 2; 0; 3; 0]) pt ;; e <- vector_slice v (PySlice None None (Some (-2))) ;; mapM as_list e)
    = Ok [[3; 0]; [1; 0]].
Proof. repeat (split; [vm_compute; reflexivity|]); vm_compute; reflexivity. Qed.

(** ** C14: truncated data.  FALSE of the code: the size header is never compared with the data. *)
Theorem C14_truncated_refuted : exists mem sd v, is_bytes mem /\ sdef_ok sd /\ vector_open mem sd = Ok v /\
  vector_len v = 1000 /\ zlen mem = 16.
Proof.
  exists (to_le 8 2000 ++ zeros 8), pt. eexists.
  split; [apply is_bytes_app; auto using to_le_bytes, is_bytes_zeros|]. split; [exact pt_ok|].
  split; [vm_compute; reflexivity|]. split; vm_compute; reflexivity.
Qed.
Print Assumptions C14_truncated_refuted.

(** What is checked, exactly: at least 16 bytes, and the header a multiple of the element size. *)
Theorem C14_open_checks_partial : forall mem sd, is_bytes mem -> 0 < s_size sd ->
  vector_open mem sd =
    if zlen mem <? 16 then Err CorruptResourceError
    else if uint_at mem 0 64 mod s_size sd =? 0 then Ok (Vector mem sd (uint_at mem 0 64 / s_size sd))
    else Err AssertionError.
Proof. exact vector_open_exact. Qed.
Print Assumptions C14_open_checks_partial.

Example C14_instance : is_bytes (framed [1; 2; 3]) /\ 0 < s_size pt /\
  vector_open (framed [1; 2; 3]) pt = Err AssertionError /\ vector_open (zeros 15) pt = Err CorruptResourceError.
Proof.
  split; [apply framed_bytes; repeat constructor; unfold is_byte; lia|].
  split; [cbn; lia|]. split; vm_compute; reflexivity.
Qed.

(** ** C15: multivector round trip *)
Theorem C15_multivector_roundtrip : forall a n it w ts schema opt bs outss s,
  dict_get (a_resources a) n = Some (RSig (CMultivector it ts) schema opt) -> ~ In n (b_written s) ->
  index_def_ok it w -> types_ok ts -> Forall2 (Forall2 (element_is ts)) bs outss ->
  buckets_size ts outss < 2 ^ w -> s_size it * (zlen bs + 1) < 2 ^ 64 ->
  exists s', builder_set a n (SBuckets bs) s = (s', Ok tt) /\
  forall d0, exists data index m, dict_get (files_after d0 s') n = Some data /\
    dict_get (files_after d0 s') (n ++ "_index")%string = Some index /\
    multivector_open index data it ts = Ok m /\ multivector_len m = zlen bs /\
    exists elss, Forall2 (Forall2 (reads_as ts)) outss elss /\ multivector_iter m = Ok elss /\
      (forall i, 0 <= i < zlen bs -> multivector_get m i = Ok (nth (Z.to_nat i) elss [])) /\
      (forall sl, multivector_slice m sl = if match sl_step sl with None => 1 | Some k => k end =? 0
                                           then Err ValueError else Ok (list_slice elss sl)).
Proof. exact multi_roundtrip. Qed.
Print Assumptions C15_multivector_roundtrip.

Definition demo_buckets : list (list (string * record)) := [[("P", prec); ("S", rec1)]; []; [("S", rec2); ("P", prec); ("P", prec)]].
Definition demo_outs : list (list (Z * list Z)) := [[(1, [-256; 127]); (0, vals1)]; []; [(0, vals2); (1, [-256; 127]); (1, [-256; 127])]].
Lemma demo_types_ok : types_ok [demo; pt].
Proof.
  split; [repeat constructor; cbn; intuition discriminate|]. split; [cbn; lia|].
  constructor; [exact demo_ok|]. constructor; [exact pt_ok|constructor].
Qed.
Lemma demo_buckets_ok : Forall2 (Forall2 (element_is [demo; pt])) demo_buckets demo_outs.
Proof.
  assert (EP : element_is [demo; pt] ("P", prec) (1, [-256; 127]))
    by (exists pt; split; [cbn; lia|]; split; [reflexivity|]; split; [reflexivity|exact prec_ok]).
  assert (E1 : element_is [demo; pt] ("S", rec1) (0, vals1))
    by (exists demo; split; [cbn; lia|]; split; [reflexivity|]; split; [reflexivity|exact rec1_ok]).
  assert (E2 : element_is [demo; pt] ("S", rec2) (0, vals2))
    by (exists demo; split; [cbn; lia|]; split; [reflexivity|]; split; [reflexivity|exact rec2_ok]).
  repeat (constructor; [repeat (constructor; [assumption|]); constructor|]). constructor.
Qed.
Example C15_instance :
  dict_get (a_resources demo_archive) "mv" = Some (RSig (CMultivector idx8 [demo; pt]) (ascii_bytes "mv") false) /\
  ~ In "mv" (b_written start) /\ index_def_ok idx8 8 /\ types_ok [demo; pt] /\
  Forall2 (Forall2 (element_is [demo; pt])) demo_buckets demo_outs /\
  buckets_size [demo; pt] demo_outs < 2 ^ 8 /\ s_size idx8 * (zlen demo_buckets + 1) < 2 ^ 64.
Proof.
  split; [reflexivity|]. split; [cbn; intuition discriminate|].
  split; [split; [reflexivity|]; split; [lia|reflexivity]|]. split; [exact demo_types_ok|].
  split; [exact demo_buckets_ok|]. split; vm_compute; reflexivity.
Qed.

(** ** C16: index overflow.  Holds when the index width is a whole number of bytes: *)
Theorem C16_index_overflow_partial : forall a n it w ts schema opt bs outss s s',
  (forall m sig, dict_get (a_resources a) m = Some sig -> sig_sized sig) ->
  dict_get (a_resources a) n = Some (RSig (CMultivector it ts) schema opt) ->
  index_def_ok it w -> w mod 8 = 0 -> types_ok ts -> Forall2 (Forall2 (element_is ts)) bs outss ->
  builder_set a n (SBuckets bs) s = (s', Ok tt) -> buckets_size ts outss < 2 ^ w.
Proof.
  intros a n it w ts schema opt bs outss s s' Hsz Ha Hit Hw Hts Hbs H.
  pose proof (index_overflow_rejected a n it ts schema opt bs outss s s' Hsz Ha Hts Hbs H) as R.
  destruct Hit as (_ & _ & Es). replace w with (8 * s_size it) by (rewrite Es; pose proof (Z.div_mod (w + 7) 8); pose proof (Z.mod_pos_bound (w + 7) 8);
    assert (w = 8 * (w / 8)) by (pose proof (Z.div_mod w 8); lia);
    assert ((w + 7) / 8 = w / 8) by (rewrite H2; rewrite Z.mul_comm, Z.div_add_l by lia; rewrite (Z.div_small 7 8) by lia; rewrite Z.div_mul by lia; lia); lia).
  exact R.
Qed.
Print Assumptions C16_index_overflow_partial.

Definition idx4 : sdef := SDef "IndexType4" 1 [FSig "value" 0 4 false] ["value"].
Definition mv4_archive : adef := ADef "A" [] [("m", RSig (CMultivector idx4 [pt]) (ascii_bytes "m") false)].

(** FALSE otherwise: a 4-bit index silently stores offset 18 and reads back 2, so a bucket of a
    successfully written multivector reads as something else. *)
Theorem C16_sub_byte_index_refuted : exists bs outss s' data index m,
  types_ok [pt] /\ index_def_ok idx4 4 /\ Forall2 (Forall2 (element_is [pt])) bs outss /\
  builder_set mv4_archive "m" (SBuckets bs) (fst (builder_new mv4_archive bstate0)) = (s', Ok tt) /\
  dict_get (files_after [] s') "m" = Some data /\ dict_get (files_after [] s') "m_index" = Some index /\
  multivector_open index data idx4 [pt] = Ok m /\
  exists els, multivector_get m 0 = Ok els /\ ~ Forall2 (reads_as [pt]) (nth 0 outss []) els.
Proof.
  exists [repeat ("P", prec) 6], [repeat (0, [-256; 127]) 6]. do 4 eexists.
  split. { split; [repeat constructor; cbn; intuition discriminate|]. split; [cbn; lia|]. constructor; [exact pt_ok|constructor]. }
  split. { split; [reflexivity|]. split; [lia|reflexivity]. }
  split. { constructor; [|constructor]. cbn [repeat].
    assert (EP : element_is [pt] ("P", prec) (0, [-256; 127]))
      by (exists pt; split; [cbn; lia|]; split; [reflexivity|]; split; [reflexivity|exact prec_ok]).
    repeat (constructor; [exact EP|]). constructor. }
  split; [vm_compute; reflexivity|]. split; [vm_compute; reflexivity|]. split; [vm_compute; reflexivity|].
  split; [vm_compute; reflexivity|]. eexists. split; [vm_compute; reflexivity|].
  intros F. apply Forall2_len in F. cbn in F. discriminate.
Qed.
Print Assumptions C16_sub_byte_index_refuted.

(** ** C17: negative multivector indices.  FALSE of the code: mv[-1] is empty, not the last bucket. *)
Theorem C17_negative_index_refuted : exists s' data index m els,
  builder_set demo_archive "mv" (SBuckets demo_buckets) start = (s', Ok tt) /\
  dict_get (files_after [] s') "mv" = Some data /\ dict_get (files_after [] s') "mv_index" = Some index /\
  multivector_open index data idx8 [demo; pt] = Ok m /\
  multivector_get m 2 = Ok els /\ List.length els = 3%nat /\ multivector_get m (-1) = Ok [].
Proof. do 5 eexists. repeat (split; [vm_compute; reflexivity|]); vm_compute; reflexivity. Qed.
Print Assumptions C17_negative_index_refuted.

(** What holds, for every multivector object with a readable index: negative indices are shifted by one
    bucket, and everything further out raises IndexError. *)
Theorem C17_indexing_partial : forall m i, 1 <= vector_len (mv_index m) ->
  (- (multivector_len m + 1) <= i <= -2 -> multivector_get m i = multivector_get m (i + (multivector_len m + 1))) /\
  (i < - (multivector_len m + 1) \/ multivector_len m < i -> multivector_get m i = Err IndexError) /\
  (forall o, bucket_offset m (multivector_len m) = Ok o -> multivector_get m (multivector_len m) = Err IndexError).
Proof.
  intros m i Hl. split; [intros Hi; now apply multi_negative|]. split.
  - intros Hi. apply multi_out_of_range; unfold multivector_len in Hi; lia.
  - intros o Ho. now apply (multi_at_len m o).
Qed.
Print Assumptions C17_indexing_partial.

Example C17_instance : exists m,
  multivector_open (framed [0; 3; 3; 6]) (framed [0; 1; 0; 0; 2; 0]) idx8 [pt] = Ok m /\ 1 <= vector_len (mv_index m) /\
  multivector_len m = 3 /\ multivector_get m (-2) = multivector_get m 2 /\ multivector_get m 3 = Err IndexError /\
  multivector_get m (-5) = Err IndexError.
Proof. eexists. split; [vm_compute; reflexivity|]. split; [cbn; lia|]. repeat (split; [vm_compute; reflexivity|]); vm_compute; reflexivity. Qed.

(** ** C18: raw data round trip *)
Theorem C18_raw_roundtrip : forall a n schema opt b s,
  dict_get (a_resources a) n = Some (RSig CRawData schema opt) -> ~ In n (b_written s) ->
  is_bytes b -> zlen b < 2 ^ 64 ->
  exists s', builder_set a n (SBytes b) s = (s', Ok tt) /\
  forall d0, exists bytes r, dict_get (files_after d0 s') n = Some bytes /\ rawdata_open bytes = Ok r /\
    rawdata_len r = Ok (zlen b) /\
    (forall i, 0 <= i < zlen b -> rawdata_get r i = [nth (Z.to_nat i) b 0]) /\
    (forall i j st, 0 <= i -> 0 <= j <= zlen b -> match st with None => True | Some k => 0 < k end ->
       rawdata_slice r (PySlice (Some i) (Some j) st)
       = Ok (every (Z.to_nat (match st with None => 1 | Some k => k end)) (firstn (Z.to_nat (j - i)) (skipn (Z.to_nat i) b)))).
Proof.
  intros a n schema opt b s Ha Hw Hb Hl. destruct (raw_roundtrip a n schema opt b s Ha Hw Hb Hl) as (s' & E & F).
  exists s'. split; [exact E|]. intros d0. destruct (F d0) as [F1 F2]. exists (framed b), (RawData (framed b)).
  split; [exact F1|]. split; [exact F2|]. split; [apply raw_len; [assumption|now apply Z.ltb_lt]|].
  split; [exact (raw_get_spec b)|exact (raw_slice_spec b)].
Qed.
Print Assumptions C18_raw_roundtrip.

Example C18_instance :
  dict_get (a_resources demo_archive) "raw" = Some (RSig CRawData (ascii_bytes "raw") true) /\
  ~ In "raw" (b_written start) /\ is_bytes [7; 8; 9; 255] /\ zlen [7; 8; 9; 255] < 2 ^ 64 /\
  rawdata_slice (RawData (framed [7; 8; 9; 255])) (PySlice (Some 1) (Some 4) (Some 2)) = Ok [8; 255].
Proof.
  split; [reflexivity|]. split; [cbn; intuition discriminate|].
  split; [repeat constructor; unfold is_byte; lia|]. split; vm_compute; reflexivity.
Qed.

(** ** C58: raw[a:b:c] is bytes slicing for all slices.  FALSE of the code in three ways: an omitted stop
    runs into the padding, an omitted start raises TypeError, a negative index reads the size header. *)
Theorem C58_raw_slices_refuted : exists b, is_bytes b /\ zlen b < 2 ^ 64 /\
  rawdata_slice (RawData (framed b)) (PySlice (Some 0) None None) <> Ok (list_slice b (PySlice (Some 0) None None)) /\
  rawdata_slice (RawData (framed b)) (PySlice None (Some 1) None) = Err TypeError /\
  rawdata_get (RawData (framed b)) (-8) = [zlen b].
Proof.
  exists [1; 2]. split; [repeat constructor; unfold is_byte; lia|]. split; [cbn; lia|].
  split; [vm_compute; discriminate|]. split; vm_compute; reflexivity.
Qed.
Print Assumptions C58_raw_slices_refuted.

(** ** C19: sub_str *)
Theorem C19_sub_str : forall b pre s sep post,
  is_bytes b -> zlen b < 2 ^ 64 -> sep <> [] -> b = pre ++ s ++ sep ++ post ->
  (* no earlier occurrence of the separator *)
  (forall s' post', s ++ sep ++ post = s' ++ sep ++ post' -> (List.length s <= List.length s')%nat) ->
  sub_str (RawData (framed b)) (zlen pre) sep = if utf8_valid s then Ok s else Err UnicodeDecodeError.
Proof.
  intros b pre s sep post Hb Hl. apply (sub_str_found b pre s sep post Hb). unfold fits64. now apply Z.ltb_lt.
Qed.
Print Assumptions C19_sub_str.

(** The usual case: a NUL-terminated string. *)
Theorem C19_nul_terminated : forall b pre s post,
  is_bytes b -> zlen b < 2 ^ 64 -> b = pre ++ s ++ 0 :: post -> ~ In 0 s -> utf8_valid s = true ->
  sub_str (RawData (framed b)) (zlen pre) [0] = Ok s.
Proof.
  intros b pre s post Hb Hl E H0 Hu. rewrite (C19_sub_str b pre s [0] post); auto.
  - now rewrite Hu.
  - discriminate.
  - intros s' post' E'. eapply app_uniq_sep; eauto.
Qed.
Print Assumptions C19_nul_terminated.

(** The same for texts: a NUL-terminated UTF-8 text (RFC 3629, [Utf8.utf8_text]) is returned as that text, and bytes that are
    not the encoding of any text raise UnicodeDecodeError; different texts are different byte strings. *)
Theorem C19_text : forall b pre s post,
  is_bytes b -> zlen b < 2 ^ 64 -> b = pre ++ s ++ 0 :: post -> ~ In 0 s ->
  (forall cs, Forall scalar cs -> s = utf8_text cs -> sub_str (RawData (framed b)) (zlen pre) [0] = Ok (utf8_text cs))
  /\ ((forall cs, Forall scalar cs -> s <> utf8_text cs) -> sub_str (RawData (framed b)) (zlen pre) [0] = Err UnicodeDecodeError)
  /\ (forall cs ds, Forall scalar cs -> Forall scalar ds -> utf8_text cs = utf8_text ds -> cs = ds).
Proof.
  intros b pre s post Hb Hl E H0.
  assert (R : sub_str (RawData (framed b)) (zlen pre) [0] = if utf8_valid s then Ok s else Err UnicodeDecodeError).
  { apply (C19_sub_str b pre s [0] post); auto; [discriminate|]. intros s' post' E'. eapply app_uniq_sep; eauto. }
  assert (Fs : Forall (fun x => 0 <= x) s).
  { apply Forall_forall. intros x Hx. unfold is_bytes in Hb. rewrite Forall_forall in Hb. assert (Hin : In x b) by (rewrite E; apply in_or_app; right; apply in_or_app; now left).
    specialize (Hb x Hin). unfold is_byte in Hb. lia. }
  rewrite R. split; [|split].
  - intros cs F ->. now rewrite (encodes_valid cs F).
  - intros N. destruct (utf8_valid s) eqn:V; [|reflexivity]. destruct (valid_decodes s Fs V) as (cs & F & Es). now destruct (N cs F).
  - exact utf8_text_inj.
Qed.
Print Assumptions C19_text.
Example C19_text_instance : Forall scalar [104; 0xE4; 0x20AC; 0x1F600] /\ utf8_text [104; 0xE4; 0x20AC; 0x1F600] = [104; 195; 164; 226; 130; 172; 240; 159; 152; 128]
  /\ (forall cs, Forall scalar cs -> [0xED; 0xA0; 0x80] <> utf8_text cs).
Proof.
  split; [repeat constructor; unfold scalar; lia|]. split; [reflexivity|]. intros cs F E. pose proof (encodes_valid cs F) as V. rewrite <- E in V. discriminate.
Qed.

Example C19_instance : let b := [1; 0; 104; 195; 164; 33; 0; 5] in
  is_bytes b /\ b = [1; 0] ++ [104; 195; 164; 33] ++ 0 :: [5] /\ utf8_valid [104; 195; 164; 33] = true /\
  sub_str (RawData (framed b)) 2 [0] = Ok [104; 195; 164; 33].
Proof.
  cbv zeta. split; [repeat constructor; unfold is_byte; lia|]. repeat (split; [vm_compute; reflexivity|]); vm_compute; reflexivity.
Qed.

(** C59: an unterminated string is returned up to the end of the data.  FALSE: only its first byte is. *)
Theorem C59_unterminated_refuted : exists b, is_bytes b /\ ~ In 0 b /\ utf8_valid b = true /\
  sub_str (RawData (framed b)) 0 [0] <> Ok b /\ sub_str (RawData (framed b)) 0 [0] = Ok [97].
Proof.
  exists [97; 98; 99]. split; [repeat constructor; unfold is_byte; lia|]. split; [cbn; lia|].
  split; [reflexivity|]. split; [vm_compute; discriminate|vm_compute; reflexivity].
Qed.
Print Assumptions C59_unterminated_refuted.

(** ** C20: sequences of strings (separator byte [c], by default NUL; list terminator two of them) *)
Theorem C20_sub_str_array : forall b pre c strs rest n,
  is_bytes b -> zlen b < 2 ^ 64 -> b = pre ++ joined c strs ++ rest -> (forall s, In s strs -> ~ In c s) ->
  Forall (fun s => utf8_valid s = true) strs -> 1 <= n -> n <= zlen strs \/ ~ In c rest ->
  sub_str_array (RawData (framed b)) (zlen pre) n [c] = Ok (firstn (Z.to_nat n) strs).
Proof.
  intros b pre c strs rest n Hb Hl E Hc Hu Hn Hr.
  pose proof (zlen_nonneg pre). pose proof (zlen_nonneg (joined c strs ++ rest)).
  rewrite sub_str_array_spec; [|assumption|now apply Z.ltb_lt|rewrite E, zlen_app; lia|assumption].
  replace (skipn (Z.to_nat (zlen pre)) b) with (joined c strs ++ rest)
    by (rewrite E; unfold zlen; rewrite Nat2Z.id; symmetry; apply skipn_app_exact).
  rewrite pieces_joined by assumption.
  assert (Ef : firstn (Z.to_nat n) (strs ++ pieces c [] rest) = firstn (Z.to_nat n) strs).
  { destruct Hr as [Hr|Hr].
    - rewrite firstn_app. replace (Z.to_nat n - Datatypes.length strs)%nat with 0%nat by (unfold zlen in Hr; lia).
      cbn [firstn]. apply app_nil_r.
    - rewrite (pieces_none c rest Hr). now rewrite app_nil_r. }
  rewrite Ef. apply mapM_decode_ok. now apply Forall_firstn.
Qed.
Print Assumptions C20_sub_str_array.

Theorem C20_sub_str_list : forall b pre c strs post,
  is_bytes b -> zlen b < 2 ^ 64 -> b = pre ++ joined c strs ++ post -> (forall s, In s strs -> ~ In c s) ->
  Forall (fun s => utf8_valid s = true) strs -> separated strs ->
  (post = [] \/ exists post', post = c :: c :: post') ->
  sub_str_list (RawData (framed b)) (zlen pre) [c] [c; c] = Ok strs.
Proof.
  intros b pre c strs post Hb Hl E Hc Hu Hs Hp.
  rewrite (sub_str_list_spec b c strs pre post); auto; [|now apply Z.ltb_lt]. now apply mapM_decode_ok.
Qed.
Print Assumptions C20_sub_str_list.

Example C20_instance : let b := [9] ++ joined 0 [[97; 98]; []; [99]] ++ [0; 0; 100; 0] in
  separated [[97; 98]; []; [99]] /\ is_bytes b /\
  sub_str_list (RawData (framed b)) 1 [0] [0; 0] = Ok [[97; 98]; []; [99]] /\
  sub_str_array (RawData (framed b)) 1 2 [0] = Ok [[97; 98]; []].
Proof.
  cbv zeta. split; [cbn; intuition discriminate|]. split; [repeat constructor; unfold is_byte; lia|].
  split; vm_compute; reflexivity.
Qed.

(** C60: the above for every size and separator.  FALSE: size 0 returns everything; a multi-byte separator
    leaves its tail in the next string; a list ending with an empty string loses it to the padding. *)
Theorem C60_string_lists_refuted :
  sub_str_array (RawData (framed (joined 0 [[97]; [98]]))) 0 0 [0] = Ok [[97]; [98]] /\
  sub_str_array (RawData (framed [97; 13; 10; 98; 13; 10])) 0 2 [13; 10] = Ok [[97]; [10; 98]] /\
  sub_str_list (RawData (framed (joined 0 [[97]; []]))) 0 [0] [0; 0] = Ok [[97]].
Proof. repeat (split; [vm_compute; reflexivity|]); vm_compute; reflexivity. Qed.
Print Assumptions C60_string_lists_refuted.

(** ** C21: instance round trip *)
Theorem C21_instance_roundtrip : forall a n sd schema opt rec vals s,
  dict_get (a_resources a) n = Some (RSig (CInstance sd) schema opt) -> ~ In n (b_written s) ->
  sdef_ok sd -> record_values rec sd vals -> s_size sd < 2 ^ 64 ->
  exists s', builder_set a n (SRecord rec) s = (s', Ok tt) /\
  forall d0, exists bytes x, dict_get (files_after d0 s') n = Some bytes /\ instance_open bytes sd = Ok x /\
    (forall i, i = 0 \/ i = -1 -> exists e, instance_get x i = Ok e /\ as_list e = Ok vals) /\
    (forall name v, In (name, v) (combine (map f_name (s_fields sd)) vals) -> instance_getattr x name = Ok v) /\
    (forall i, i <> 0 -> i <> -1 -> instance_get x i = Err IndexError).
Proof. exact instance_roundtrip. Qed.
Print Assumptions C21_instance_roundtrip.

Example C21_instance :
  dict_get (a_resources demo_archive) "ins" = Some (RSig (CInstance demo) (ascii_bytes "ins") false) /\
  ~ In "ins" (b_written start) /\ sdef_ok demo /\ record_values rec1 demo vals1 /\ s_size demo < 2 ^ 64.
Proof.
  split; [reflexivity|]. split; [cbn; intuition discriminate|]. split; [exact demo_ok|]. split; [exact rec1_ok|]. cbn; lia.
Qed.

(** ** C24: slice to numpy.  [None] marks a row that is never assigned (np.empty garbage). *)
Theorem C24_to_numpy_partial : forall mem sd v s limit rows,
  is_bytes mem -> 0 < s_size sd -> vector_open mem sd = Ok v ->
  match sl_step s with Some 0 => False | _ => True end ->
  mapM as_list (list_slice (vector_iter v) s) = Ok rows ->
  slice_to_numpy v s limit =
    match limit with
    | None | Some 0 => Ok (map Some rows)
    | Some l => if l <? 0 then Err ValueError
                else if l <? zlen rows then Err IndexError
                else Ok (map Some rows ++ repeat None (Z.to_nat (l - zlen rows)))
    end.
Proof.
  intros mem sd v s limit rows Hb Hs H. apply slice_to_numpy_spec. now destruct (vector_open_len mem sd v Hb Hs H).
Qed.
Print Assumptions C24_to_numpy_partial.

(** FALSE with a limit: a smaller limit raises IndexError, a larger one leaves uninitialised rows. *)
Theorem C24_limit_refuted : exists v, vector_open (framed [1; 0; 2; 0; 3; 0]) pt = Ok v /\
  slice_to_numpy v (PySlice None None None) (Some 2) = Err IndexError /\
  slice_to_numpy v (PySlice None None None) (Some 4) = Ok [Some [1; 0]; Some [2; 0]; Some [3; 0]; None].
Proof. eexists. repeat (split; [vm_compute; reflexivity|]); vm_compute; reflexivity. Qed.
Print Assumptions C24_limit_refuted.
