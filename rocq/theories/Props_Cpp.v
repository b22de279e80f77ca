(** C71-C75: the C++ library's resource storage, vectors, multivectors and views. *)
From Coq Require Import List ZArith Bool Lia String Permutation.
From Coq Require Import ZifyBool ZifyNat.
From Verif Require Import PyBase Spec DataAccess Structure StructSpec BitFacts DataAccessFacts DataAccessThms StructFacts
  SliceFacts Resources Builder Archive ArchiveSpec ResourceFacts BuilderFacts ArchiveFacts Codecs CodecSpec CodecFacts CodecThms
  Props_Codecs Streams StoreSpec StoreFacts CppStore CppFacts CppViews CppMulti.
Import ListNotations.
Local Open Scope string_scope.
Local Open Scope Z_scope.
Ltac Zify.zify_post_hook ::= Z.div_mod_to_equations.

(** ** C71 *)

(** Writing a resource leaves the file of the format (size, data, padding) and the schema file, and no other file changes. *)
Theorem C71_write : forall p st name schema data,
  p_reuse p = false -> sound st -> zlen data < 2 ^ 64 ->
  let st' := cpp_write_resource p st name schema data in
  sound st' /\ file_of st' name = Some (framed data) /\ file_of st' (schema_file name) = Some schema /\
  same_but [name; schema_file name] st st'.
Proof.
  intros p st name schema data Hp Hs Hl. destruct (write_resource_facts p st name schema data Hp Hs Hl) as (S & F & G & B & _). auto.
Qed.

(** Reading succeeds exactly if the file holds a resource (the size in it matches its length) and the stored schema is the
    expected one, and then gives the data of the file. *)
Theorem C71_read : forall p st name schema,
  sound st -> unread st name -> unread st (schema_file name) ->
  (forall f, file_of st name = Some f -> is_bytes f /\ zlen f < 2 ^ 64) ->
  forall d, snd (cpp_read_resource p st name schema) = Some d <->
    exists f data, file_of st name = Some f /\ holds_resource f data /\
      file_of st (schema_file name) = Some schema /\ (p_null_empty p = true -> schema <> []) /\
      d = Desc (skipn 8 f) (zlen data).
Proof. exact cpp_read_facts. Qed.

(** Reading changes no file. *)
Theorem C71_read_only : forall p st name schema, sound st ->
  forall n, file_of (fst (cpp_read_resource p st name schema)) n = file_of st n.
Proof. intros p st name schema Hs. exact (proj2 (cpp_read_touches p st name schema Hs)). Qed.

(** What was written is read, and with another schema nothing is. *)
Theorem C71_round_trip : forall p st name schema data expected,
  p_reuse p = false -> sound st -> unread st name -> unread st (schema_file name) ->
  is_bytes data -> zlen data + 16 < 2 ^ 64 -> schema <> [] ->
  snd (cpp_read_resource p (cpp_write_resource p st name schema data) name expected) =
    if eqb_list schema expected then Some (Desc (data ++ zeros 8) (zlen data)) else None.
Proof.
  intros p st name schema data expected Hp Hs Hu1 Hu2 Hb Hl Hne.
  destruct (write_resource_facts p st name schema data Hp Hs ltac:(lia)) as (S & F & G & B & R).
  set (st' := cpp_write_resource p st name schema data) in *.
  assert (Hf : forall f, file_of st' name = Some f -> is_bytes f /\ zlen f < 2 ^ 64).
  { intros f E. rewrite F in E. assert (E' : f = framed data) by congruence. subst f. unfold framed. split.
    - rewrite !is_bytes_app. split; [apply to_le_bytes|]. split; [assumption|apply is_bytes_zeros].
    - rewrite !zlen_app, zlen_to_le, zlen_zeros_nat. lia. }
  pose proof (cpp_read_facts p st' name expected S) as Hr. unfold unread in Hr. rewrite R in Hr. specialize (Hr Hu1 Hu2 Hf).
  destruct (eqb_list schema expected) eqn:E.
  - apply eqb_list_spec in E. subst expected. apply Hr. exists (framed data), data. split; [assumption|]. split; [apply framed_holds|].
    split; [assumption|]. split; [auto|]. reflexivity.
  - destruct (snd (cpp_read_resource p st' name expected)) as [d|]; [|reflexivity]. exfalso.
    destruct (proj1 (Hr d) eq_refl) as (f & dt & _ & _ & E' & _). rewrite G in E'. injection E' as ->.
    rewrite (proj2 (eqb_list_spec expected expected) eq_refl) in E. discriminate.
Qed.

(** The files the Python builder leaves for a resource are read by C++, with the same payload. *)
Theorem C71_python : forall p st n sig payload ix,
  sound st -> (forall f x, In (f, x) (set_files n sig payload ix) -> file_of st f = Some x) ->
  is_bytes payload -> zlen payload + 16 < 2 ^ 64 -> r_schema sig <> [] ->
  (unread st n -> unread st (schema_file n) ->
   snd (cpp_read_resource p st n (r_schema sig)) = Some (Desc (payload ++ zeros 8) (zlen payload))) /\
  (forall i, ix = Some i -> is_bytes i -> zlen i + 16 < 2 ^ 64 -> unread st (index_name n) -> unread st (schema_file (index_name n)) ->
   snd (cpp_read_resource p st (index_name n) (index_schema (r_schema sig))) = Some (Desc (i ++ zeros 8) (zlen i))).
Proof.
  intros p st n sig payload ix Hs Hfiles Hb Hl Hne.
  assert (Hbasic : forall name schema data, file_of st name = Some (framed data) -> file_of st (schema_file name) = Some schema -> schema <> [] ->
            is_bytes data -> zlen data + 16 < 2 ^ 64 -> unread st name -> unread st (schema_file name) ->
            snd (cpp_read_resource p st name schema) = Some (Desc (data ++ zeros 8) (zlen data))).
  { intros name schema data F G Hne' Hb' Hl' U1 U2. apply cpp_read_facts; auto.
    - intros f E. rewrite F in E. assert (E' : f = framed data) by congruence. subst f. unfold framed. split.
      + rewrite !is_bytes_app. split; [apply to_le_bytes|]. split; [assumption|apply is_bytes_zeros].
      + rewrite !zlen_app, zlen_to_le, zlen_zeros_nat. lia.
    - exists (framed data), data. split; [assumption|]. split; [apply framed_holds|]. split; [assumption|]. split; [auto|]. reflexivity. }
  split.
  - intros U1 U2. apply Hbasic; auto; apply Hfiles; unfold set_files; cbn; auto.
  - intros i -> Hbi Hli U1 U2. apply Hbasic; auto; try (apply Hfiles; unfold set_files; cbn; auto). unfold index_schema. discriminate.
Qed.

(** What has been read is remembered: a resource rewritten later still reads as before through the same storage. *)
Theorem C71_stale : exists p st name schema a b,
  sound st /\ a <> b /\
  let st1 := cpp_write_resource p st name schema a in
  let st2 := fst (cpp_read_resource p st1 name schema) in
  let st3 := cpp_write_resource p st2 name schema b in
  file_of st3 name = Some (framed b) /\
  snd (cpp_read_resource p st3 name schema) = Some (Desc (a ++ zeros 8) (zlen a)).
Proof.
  exists cpp_memory_storage, empty_store, "x", [115], [1], [2; 3]. split; [|split; [discriminate|split; vm_compute; reflexivity]].
  split; [constructor|]. split; constructor.
Qed.

(** A file storage takes an empty schema file for a missing one. *)
Theorem C71_empty_schema : exists data,
  snd (cpp_read_resource cpp_memory_storage (cpp_write_resource cpp_memory_storage empty_store "x" [] data) "x" []) = Some (Desc (data ++ zeros 8) (zlen data)) /\
  snd (cpp_read_resource cpp_file_storage (cpp_write_resource cpp_file_storage empty_store "x" [] data) "x" []) = None.
Proof. exists [7]. split; vm_compute; reflexivity. Qed.

Example C71_instance :
  let st := cpp_write_resource cpp_file_storage (cpp_write_resource cpp_file_storage empty_store "b" [66] [1; 2; 3]) "a" [65] [9; 8] in
  p_reuse cpp_file_storage = false /\ sound empty_store /\
  file_of st "a" = Some [2; 0; 0; 0; 0; 0; 0; 0; 9; 8; 0; 0; 0; 0; 0; 0; 0; 0] /\ file_of st "a.schema" = Some [65] /\
  file_of st "b" = Some [3; 0; 0; 0; 0; 0; 0; 0; 1; 2; 3; 0; 0; 0; 0; 0; 0; 0; 0] /\
  snd (cpp_read_resource cpp_file_storage st "a" [65]) = Some (Desc [9; 8; 0; 0; 0; 0; 0; 0; 0; 0] 2) /\
  snd (cpp_read_resource cpp_file_storage st "a" [66]) = None /\ snd (cpp_read_resource cpp_file_storage st "c" [65]) = None.
Proof.
  split; [reflexivity|]. split; [split; [constructor|split; constructor]|]. vm_compute. repeat split.
Qed.

(** ** C72 *)

(** The user of [grow()] assigns fields of the new element; these writes make exactly the bytes of Python's record. *)
Lemma assign_makes is_enum sd rec vals fvs :
  sdef_ok sd -> record_values rec sd vals -> Permutation fvs (combine (s_fields sd) vals) ->
  (forall f v, In (f, v) fvs -> is_enum f = false \/ 0 <= v) ->
  exists bytes, pack_record sd rec = Ok bytes /\
    makes (Z.to_nat (s_size sd)) (store_all (fun f v b => cpp_write (f_signed f) (is_enum f) b (f_off f) (f_width f) v) fvs) bytes.
Proof.
  intros Hsd Hrv Hp He. destruct (C51_same_bytes_partial is_enum sd rec vals fvs Hsd Hrv Hp He) as (bytes & Hpk & Hst).
  destruct (pack_record_ok sd rec vals Hsd Hrv) as (bytes' & Hpk' & Hlen & Hby & _ & _).
  assert (bytes' = bytes) by congruence. subst bytes'. exists bytes. split; [assumption|]. split; [unfold zlen in Hlen; lia|]. split; assumption.
Qed.

(** Creating a vector, growing it element by element and closing it leaves exactly the resource with these elements, however
    often the elements were flushed on the way, and [close] returns the view of it. *)
Theorem C72_files : forall p limit t st name schema fs rs,
  p_reuse p = false -> sound st -> unread st name -> unread st (schema_file name) -> schema <> [] ->
  (0 < e_size t)%nat -> Forall2 (makes (e_size t)) fs rs -> zlen (List.concat rs) + 16 < 2 ^ 64 ->
  exists st1 v1, ev_grow_all limit t (fst (ev_create p st name schema)) (snd (ev_create p st name schema)) fs = Some (st1, v1) /\
    ev_size v1 = zlen rs /\
    let st2 := fst (ev_close p t st1 v1) in
    file_of st2 name = Some (framed (List.concat rs)) /\ file_of st2 (schema_file name) = Some schema /\
    same_but [name; schema_file name] st st2 /\ sound st2 /\
    snd (ev_close p t st1 v1) = Some (av_create t (List.concat rs ++ zeros 8) (zlen (List.concat rs))).
Proof.
  intros p limit t st name schema fs rs Hp Hs Hu1 Hu2 Hne Ht Hf Hl.
  destruct (ev_create_facts p st name schema Hp Hs) as (W0 & F0 & H0). destruct (ev_create p st name schema) as [st0 v0]. cbn [fst snd] in *.
  destruct (ev_grow_all_facts limit t name schema fs rs st0 v0 [] 0 (proj1 W0) H0 Hf) as (st1 & v1 & E1 & W1 & H1).
  exists st1, v1. split; [assumption|]. pose proof H1 as (fl & pe & A & B & C & _). split; [lia|].
  pose proof W0 as (_ & B0 & R0 & _). pose proof W1 as (S1 & B1 & R1 & _).
  assert (Hin : forall a b, (~ In (b : string) [a]) <-> b <> a) by (intros a b; cbn; intuition congruence).
  assert (Bb : is_bytes (List.concat rs)).
  { clear - Hf. induction Hf as [|f r fs rs (_ & Hr & _) _ IH]; cbn; [constructor|]. now rewrite is_bytes_app. }
  destruct (ev_close_facts p t st1 v1 name schema (List.concat rs) _ S1 H1) as (T2 & F2 & G2 & V2); auto.
  - rewrite B1; [assumption|]. apply Hin. apply schema_name_ne.
  - unfold unread in *. now rewrite R1, R0.
  - unfold unread in *. now rewrite R1, R0.
  - split; [assumption|]. split; [assumption|]. pose proof T2 as (S2 & B2 & _). split; [|auto].
    intros n Hn. rewrite B2 by assumption. rewrite B1; [now apply B0|]. intros [->|[]]. apply Hn. now left.
Qed.

(** Hence C++ and Python leave the same files for the same records. *)
Theorem C72_python : forall p limit is_enum st name sd sig recs valss fvss payload ix,
  p_reuse p = false -> sound st -> unread st name -> unread st (schema_file name) ->
  r_container sig = CVector sd -> r_schema sig <> [] -> sdef_ok sd -> 0 < s_size sd ->
  Forall2 (fun rec vals => record_values rec sd vals) recs valss ->
  Forall2 (fun fvs vals => Permutation fvs (combine (s_fields sd) vals)) fvss valss ->
  (forall fvs f v, In fvs fvss -> In (f, v) fvs -> is_enum f = false \/ 0 <= v) ->
  payload_of sig (SRecords recs) = Ok (payload, ix) -> zlen payload + 16 < 2 ^ 64 ->
  exists st1 v1, ev_grow_all limit (EType (Z.to_nat (s_size sd)) false) (fst (ev_create p st name (r_schema sig)))
      (snd (ev_create p st name (r_schema sig)))
      (map (store_all (fun f v b => cpp_write (f_signed f) (is_enum f) b (f_off f) (f_width f) v)) fvss) = Some (st1, v1) /\
    forall f x, In (f, x) (set_files name sig payload ix) -> file_of (fst (ev_close p (EType (Z.to_nat (s_size sd)) false) st1 v1)) f = Some x.
Proof.
  intros p limit is_enum st name sd sig recs valss fvss payload ix Hp Hs Hu1 Hu2 Hc Hne Hsd Hsz Hrv Hperm He Hpay Hl.
  unfold payload_of in Hpay. rewrite Hc in Hpay. destruct (mapM (pack_record sd) recs) as [rs|er] eqn:Em; cbn [bind] in Hpay; [|discriminate].
  injection Hpay as <- <-.
  assert (Hm : Forall2 (makes (Z.to_nat (s_size sd))) (map (store_all (fun f v b => cpp_write (f_signed f) (is_enum f) b (f_off f) (f_width f) v)) fvss) rs).
  { clear - Hsd Hrv Hperm He Em. revert fvss rs Hperm He Em. induction Hrv as [|rec vals recs valss Hr Hrs IH]; intros fvss rs Hperm He Em.
    - inversion Hperm; subst. cbn in Em. injection Em as <-. constructor.
    - inversion Hperm as [|fvs ? fvss' ? Hp1 Hp2]; subst. cbn [mapM] in Em.
      destruct (assign_makes is_enum sd rec vals fvs Hsd Hr Hp1) as (bytes & Hpk & Hmk); [intros f v Hin; apply (He fvs); [now left|assumption]|].
      rewrite Hpk in Em. cbn [bind] in Em. destruct (mapM (pack_record sd) recs) as [rs'|]; cbn [bind] in Em; [|discriminate]. injection Em as <-.
      cbn [map]. constructor; [assumption|]. apply IH; auto. intros fvs' f v Hin. apply He. now right. }
  destruct (C72_files p limit (EType (Z.to_nat (s_size sd)) false) st name (r_schema sig) _ rs Hp Hs Hu1 Hu2 Hne ltac:(cbn; lia) Hm Hl)
    as (st1 & v1 & E1 & _ & F & G & _).
  exists st1, v1. split; [assumption|]. intros f x Hin. unfold set_files in Hin. cbn in Hin. destruct Hin as [E|[E|[]]]; injection E as <- <-; assumption.
Qed.

(** Two elements, and flushing after every element or never: the same files *)
Example C72_instance :
  let f b := fun mem => match mem with _ :: t => Some (b :: t) | [] => None end in
  let files limit :=
    match ev_grow_all limit (EType 2 false) (fst (ev_create cpp_file_storage empty_store "v" [115])) (snd (ev_create cpp_file_storage empty_store "v" [115])) [f 7; f 9] with
    | Some (st, v) => Some (file_of (fst (ev_close cpp_file_storage (EType 2 false) st v)) "v")
    | None => None
    end in
  Forall2 (makes 2) [f 7; f 9] [[7; 0]; [9; 0]] /\
  files 8 = Some (Some (framed [7; 0; 9; 0])) /\ files block_limit = files 8.
Proof.
  cbv zeta. split; [|split; vm_compute; reflexivity].
  assert (B : forall b, 0 <= b < 256 -> is_bytes [b; 0]) by (intros b Hb; constructor; [exact Hb|constructor; [unfold is_byte; lia|constructor]]).
  constructor; [|constructor; [|constructor]]; (split; [reflexivity|]; split; [apply B; lia|reflexivity]).
Qed.

(** ** C73 *)

(** A vector in memory follows the list of its elements while elements are only added or changed (new ones are zero until assigned)... *)
Theorem C73_grows_partial : forall t ops rs, (0 < e_size t)%nat -> vdo_all (e_size t) false ops [] rs ->
  exists v, vec_ops t (vec_new t 0) ops = Some v /\ v = (List.concat rs ++ zeros 8)%list /\
    vec_size t v = zlen rs /\ vec_view t v = av_create t (List.concat rs ++ zeros 8) (zlen (List.concat rs)).
Proof.
  intros t ops rs Ht Hd. destruct (vec_ops_holds t false Ht ops (vec_new t 0) [] rs) as (v & E & H); [|assumption|].
  - split; [constructor|]. exists (zeros 8). split; [reflexivity|]. split; [reflexivity|]. split; [apply is_bytes_zeros|reflexivity].
  - exists v. split; [assumption|]. pose proof (vec_size_holds t false v rs Ht H) as Hn. destruct H as (_ & pad & -> & _ & _ & Z). rewrite (Z eq_refl).
    split; [reflexivity|]. split; [rewrite (Z eq_refl) in Hn; exact Hn|]. unfold vec_view. f_equal. rewrite zlen_app, zlen_zeros_nat. unfold PADDING_SIZE. lia.
Qed.
(** ... and, when elements are also removed, if every new element is assigned completely. *)
Theorem C73_shrinks_partial : forall t ops rs, (0 < e_size t)%nat -> vdo_all (e_size t) true ops [] rs ->
  exists v pad, vec_ops t (vec_new t 0) ops = Some v /\ v = (List.concat rs ++ pad)%list /\ List.length pad = 8%nat /\
    vec_size t v = zlen rs /\ vec_view t v = av_create t (List.concat rs ++ pad) (zlen (List.concat rs)).
Proof.
  intros t ops rs Ht Hd. destruct (vec_ops_holds t true Ht ops (vec_new t 0) [] rs) as (v & E & H); [|assumption|].
  - split; [constructor|]. exists (zeros 8). split; [reflexivity|]. split; [reflexivity|]. split; [apply is_bytes_zeros|reflexivity].
  - pose proof (vec_size_holds t true v rs Ht H) as Hn. destruct H as (_ & pad & Ev & L & _ & _). subst v. exists (List.concat rs ++ pad)%list, pad.
    split; [assumption|]. split; [reflexivity|]. split; [assumption|]. split; [exact Hn|]. unfold vec_view. f_equal. rewrite zlen_app.
    unfold zlen at 2. rewrite L. unfold PADDING_SIZE. lia.
Qed.

(** Writing a vector's view to a storage writes exactly its elements, unless it is an empty vector of overlapping elements. *)
Theorem C73_view_bytes_partial : forall t rs rest, (0 < e_size t)%nat -> Forall (fun r => List.length r = e_size t) rs ->
  (e_overlap t = true -> rs <> []) ->
  view_bytes t (av_create t (List.concat rs ++ rest) (zlen (List.concat rs))) = Some (List.concat rs).
Proof.
  intros t rs rest Ht Hr Ho. unfold view_bytes, av_bytes. rewrite (view_size t rs rest Hr Ht).
  assert (E : (Z.of_nat (List.length rs - (if e_overlap t then 1 else 0)) + (if e_overlap t then 1 else 0)) * Z.of_nat (e_size t) = zlen (List.concat rs)).
  { unfold zlen. rewrite (concat_length rs _ Hr). destruct (e_overlap t); [|lia]. specialize (Ho eq_refl). destruct rs; [congruence|]. cbn [List.length]. nia. }
  rewrite E. unfold av_create. cbn [av_mem]. replace (zlen (List.concat rs) <=? zlen (List.concat rs ++ rest)) with true by (rewrite zlen_app; pose proof (zlen_nonneg rest); lia).
  f_equal. unfold zlen. rewrite Nat2Z.id, firstn_app, Nat.sub_diag, firstn_O, firstn_all, app_nil_r. reflexivity.
Qed.

(** The full claim is false: after removing an element, a new one starts with the first bytes of the removed one instead of zeros;
    an empty vector of overlapping elements is written as one element, and if that is larger than the padding, memory behind the
    vector is read. *)
Theorem C73_refuted :
  let set_all b := fun mem => Some (repeat b 2 ++ skipn 2 mem)%list in
  let nothing := fun mem : list Z => Some mem in
  option_map (firstn 2) (vec_ops (EType 2 false) (vec_new (EType 2 false) 0) [VGrow (set_all 7); VPop; VGrow nothing]) = Some [7; 7] /\
  view_bytes (EType 4 true) (vec_view (EType 4 true) (vec_new (EType 4 true) 0)) = Some [0; 0; 0; 0] /\
  view_bytes (EType 12 true) (vec_view (EType 12 true) (vec_new (EType 12 true) 0)) = None.
Proof. vm_compute. repeat split. Qed.

Example C73_instance : let f b := fun mem => match mem with _ :: t => Some (b :: t) | [] => None end in
  vdo_all 2 false [VGrow (f 7); VResize 3; VSet 1 (f 9)] [] [[7; 0]; [9; 0]; [0; 0]] /\
  vdo_all 1 true [VGrow (f 7); VGrow (f 8); VPop; VGrow (f 9)] [] [[7]; [9]].
Proof.
  cbv zeta.
  assert (F : forall b c d, 0 <= b < 256 -> 0 <= d < 256 -> fills 2 (fun mem => match mem with _ :: t => Some (b :: t) | [] => None end) [c; d] [b; d]).
  { intros b c d Hb Hd. split; [reflexivity|]. split; [reflexivity|]. split; [|intros; reflexivity]. constructor; [exact Hb|constructor; [exact Hd|constructor]]. }
  assert (G : forall b old, 0 <= b < 256 -> List.length old = 1%nat -> fills 1 (fun mem => match mem with _ :: t => Some (b :: t) | [] => None end) old [b]).
  { intros b [|c [|]] Hb L; try discriminate. split; [reflexivity|]. split; [reflexivity|]. split; [|intros; reflexivity]. constructor; [exact Hb|constructor]. }
  split.
  - econstructor; [apply (DGrowZero 2 false _ [7; 0] []); [reflexivity|apply (F 7 0 0); lia]|].
    econstructor; [apply (DExtend 2 false 3 [[7; 0]]); [reflexivity|cbn; lia]|].
    econstructor; [apply (DSet 2 false 1 _ [0; 0] [9; 0]); [reflexivity|apply (F 9 0 0); lia]|]. constructor.
  - econstructor; [apply (DGrow 1 true _ [7] []); intros; apply (G 7); [lia|assumption]|].
    econstructor; [apply (DGrow 1 true _ [8] [[7]]); intros; apply (G 8); [lia|assumption]|].
    econstructor; [apply (DPop 1 true [[7]] [8]); reflexivity|].
    econstructor; [apply (DGrow 1 true _ [9] [[7]]); intros; apply (G 9); [lia|assumption]|]. constructor.
Qed.

(** ** C74 *)

(** The index of a multivector with these buckets, in bytes, and the view of both files *)
Definition index_of (w : Z) (bufs : list (list Z)) : list Z := List.concat (map (to_le (index_bytes w)) (bucket_points 0 (map zlen bufs))).
Definition multi_view (w : Z) (bufs : list (list Z)) : maview :=
  MAView (av_create (index_type w) (index_of w bufs ++ zeros 8) (zlen (index_of w bufs))) (List.concat bufs ++ zeros 8).

Lemma adds_bytes bs bss : Forall2 (Forall2 adds) bs bss -> is_bytes (List.concat (map bucket bss)).
Proof.
  induction 1 as [|b es bs bss Hb _ IH]; cbn; [constructor|]. rewrite is_bytes_app. split; [|assumption].
  clear - Hb. induction Hb as [|a e b es (_ & Hr & (_ & Hb & _)) _ IH]; [constructor|]. rewrite bucket_cons. rewrite is_bytes_app. split; [|assumption].
  unfold element. constructor; [exact Hr|exact Hb].
Qed.
Lemma starts_length (bufs : list (list Z)) : forall from, List.length (starts from bufs) = List.length bufs.
Proof. induction bufs; intros from; cbn; [reflexivity|]. now rewrite IHbufs. Qed.
Lemma points_bound (bufs : list (list Z)) : forall from limit, 0 <= from -> from + zlen (List.concat bufs) < limit ->
  Forall (fun q => 0 <= q < limit) (bucket_points from (map zlen bufs)).
Proof.
  induction bufs as [|b bufs IH]; intros from limit H0 Hl; cbn [map bucket_points List.concat] in *.
  - constructor; [|constructor]. unfold zlen in Hl. cbn in Hl. lia.
  - rewrite zlen_app in Hl. pose proof (zlen_nonneg b). pose proof (zlen_nonneg (List.concat bufs)). constructor; [lia|]. apply IH; lia.
Qed.

(** Creating a multivector, adding buckets of elements and closing it leaves exactly the data and the index of these buckets, however
    often something was flushed on the way, as long as the positions fit into the index. *)
Theorem C74_files : forall p limit w st name schema bs bss,
  p_reuse p = false -> sound st -> Forall (unread st) [name; schema_file name; index_name name; schema_file (index_name name)] -> schema <> [] ->
  1 <= w <= 64 -> Forall2 (Forall2 adds) bs bss -> zlen (List.concat (map bucket bss)) < 2 ^ w ->
  zlen (List.concat (map bucket bss)) + 16 < 2 ^ 64 -> (zlen bss + 1) * ((w + 7) / 8) + 16 < 2 ^ 64 ->
  exists st1 m1, mv_fill limit w (fst (mv_create p st name schema)) (snd (mv_create p st name schema)) bs = Some (st1, m1) /\
  exists st2, mv_close limit p w st1 m1 = Some (st2, Some (multi_view w (map bucket bss))) /\
    file_of st2 name = Some (framed (List.concat (map bucket bss))) /\ file_of st2 (schema_file name) = Some schema /\
    file_of st2 (index_name name) = Some (framed (index_of w (map bucket bss))) /\
    file_of st2 (schema_file (index_name name)) = Some (index_schema schema) /\
    same_but [name; schema_file name; index_name name; schema_file (index_name name)] st st2 /\ sound st2.
Proof.
  intros p limit w st name schema bs bss Hp Hs Hu Hne Hw Hb Hl H64 H64i.
  destruct (mv_create_facts p st w name schema Hp Hs) as (W0 & F0 & G0 & H0). destruct (mv_create p st name schema) as [st0 m0]. cbn [fst snd] in *.
  destruct (mv_fill_facts limit w name schema Hw bs bss st0 m0 [] [] (proj1 W0) H0 Hb Hl) as (st1 & m1 & E1 & W1 & H1).
  exists st1, m1. split; [assumption|]. cbn [app] in H1.
  destruct (names_distinct name) as (D1 & D2 & D3 & D4 & D5 & D6).
  assert (Hin2 : forall a a' b, (~ In (b : string) [a; a']) <-> b <> a /\ b <> a') by (intros a a' b; cbn; intuition congruence).
  pose proof W0 as (_ & B0 & R0 & _). pose proof W1 as (S1 & B1 & R1 & _).
  destruct (mv_close_facts limit p w st1 m1 name schema _ _ S1 Hw H1 Hl) as (st2 & E2 & T2 & F2 & G2 & F2i & G2i).
  - rewrite B1; [assumption|]. apply Hin2. split; congruence.
  - rewrite B1; [assumption|]. apply Hin2. split; congruence.
  - eapply Forall_impl; [|exact Hu]. intros n Hn. unfold unread in *. now rewrite R1, R0.
  - now apply adds_bytes with bs.
  - assumption.
  - unfold zlen at 1. rewrite starts_length, map_length. unfold index_bytes. unfold zlen in H64i. lia.
  - auto.
  - exists st2. pose proof (points_starts (map bucket bss) 0) as Hps. rewrite Z.add_0_l in Hps. change (zlen (@nil Z)) with 0 in *.
    rewrite <- Hps in E2, F2i. split; [exact E2|]. split; [assumption|]. split; [assumption|]. split; [exact F2i|]. split; [assumption|].
    pose proof T2 as (S2 & B2 & _). split; [|assumption]. intros n Hn. rewrite B2 by assumption. rewrite B1; [now apply B0|].
    intros Hi. apply Hn. cbn in *. tauto.
Qed.

(** These are the files the Python builder leaves for the same buckets. *)
Theorem C74_python : forall w sig it ts bs bss payload ix,
  r_container sig = CMultivector it ts -> s_size it = (w + 7) / 8 -> 1 <= w ->
  Forall2 (Forall2 (fun pe e => element_bytes ts pe = Ok (element e))) bs bss ->
  payload_of sig (SBuckets bs) = Ok (payload, ix) ->
  payload = List.concat (map bucket bss) /\ ix = Some (index_of w (map bucket bss)).
Proof.
  intros w sig it ts bs bss payload ix Hc Hsz Hw Hbs Hpay. unfold payload_of in Hpay. rewrite Hc in Hpay.
  assert (Em : mapM (bucket_bytes ts) bs = Ok (map bucket bss)).
  { clear - Hbs. induction Hbs as [|b es bs bss Hb _ IH]; [reflexivity|]. cbn [mapM map].
    assert (Eb : bucket_bytes ts b = Ok (bucket es)).
    { unfold bucket_bytes, bucket. assert (E : mapM (element_bytes ts) b = Ok (map element es)); [|now rewrite E].
      clear - Hb. induction Hb as [|pe e b es He _ IH]; [reflexivity|]. cbn [mapM map]. now rewrite He, IH. }
    now rewrite Eb, IH. }
  rewrite Em in Hpay. cbn [bind] in Hpay. replace (s_size it =? 0) with false in Hpay by lia.
  destruct (mapM (fun p => py_to_bytes p (s_size it) false) (bucket_points 0 (map zlen (map bucket bss)))) as [idx|er] eqn:Ei; cbn [bind] in Hpay; [|discriminate].
  injection Hpay as <- <-. split; [reflexivity|]. f_equal. unfold index_of.
  assert (E : idx = map (to_le (index_bytes w)) (bucket_points 0 (map zlen (map bucket bss)))); [|now rewrite E].
  revert Ei. generalize (bucket_points 0 (map zlen (map bucket bss))) as ps. clear - Hsz. intros ps. revert idx. induction ps as [|q ps IH]; intros idx E; cbn [mapM] in E.
  - injection E as <-. reflexivity.
  - destruct (py_to_bytes q (s_size it) false) as [b|] eqn:Eb; cbn [bind] in E; [|discriminate].
    destruct (mapM _ ps) as [bs'|]; cbn [bind] in E; [|discriminate]. injection E as <-. cbn [map]. f_equal; [|now apply IH].
    unfold py_to_bytes in Eb. destruct (s_size it <? 0); [discriminate|]. destruct (_ && _); [|discriminate]. unfold index_bytes. rewrite Hsz in Eb. congruence.
Qed.

(** The view has one entry per bucket; [for_each] visits exactly its elements, in order, with their types and bytes; an iterator
    visits those of its type. *)
Theorem C74_view : forall w types bss i es,
  1 <= w <= 64 -> zlen (List.concat (map bucket bss)) < 2 ^ w -> Forall (Forall (known types)) bss -> nth_error bss i = Some es ->
  let v := multi_view w (map bucket bss) in
  ma_size v = zlen bss /\
  exists ps, for_each types w v i = Value ps /\
    Forall2 (fun p e => fst p = fst e /\ firstn (List.length (snd e)) (skipn (Z.to_nat (snd p)) (ma_mem v)) = snd e) ps es /\
    forall wanted, iterator types w v i wanted = Value (map snd (filter (fun p => fst p =? wanted) ps)).
Proof.
  intros w types bss i es Hw Hl Hk Hi v.
  assert (Hpos : (0 < index_bytes w)%nat) by (unfold index_bytes; lia).
  set (points := bucket_points 0 (map zlen (map bucket bss))).
  assert (Lp : List.length points = S (List.length bss)).
  { unfold points. rewrite points_starts, app_length, starts_length, map_length. cbn. lia. }
  split.
  { unfold v, multi_view, ma_size. cbn [ma_index]. unfold index_of. rewrite (view_size (index_type w)).
    - cbn [index_type e_overlap]. fold points. rewrite map_length, Lp. unfold zlen. lia.
    - apply Forall_map. apply Forall_forall. intros; apply to_le_length.
    - exact Hpos. }
  assert (Hes : Forall (known types) es) by (rewrite Forall_forall in Hk; apply Hk; eapply nth_error_In; eassumption).
  destruct (nth_error_split bss i Hi) as (b1 & b2 & Eb & Li).
  set (pre := List.concat (map bucket b1)). set (post := (List.concat (map bucket b2) ++ zeros 8)%list).
  assert (Em : ma_mem v = (pre ++ bucket es ++ post)%list).
  { unfold v, multi_view, pre, post. cbn [ma_mem]. rewrite Eb, map_app, concat_app. cbn [map List.concat]. now rewrite <- !app_assoc. }
  assert (Hpts : nth_error points i = Some (zlen pre) /\ nth_error points (S i) = Some (zlen pre + zlen (bucket es))).
  { unfold points, pre. clear - Eb Li. rewrite Eb, <- Li. clear Eb Li. change (zlen (List.concat (map bucket b1))) with (0 + zlen (List.concat (map bucket b1))).
    generalize 0 as from. induction b1 as [|b b1 IH]; intros from.
    - cbn [app map List.concat bucket_points nth_error List.length]. change (zlen (@nil Z)) with 0. rewrite Z.add_0_r. split; [reflexivity|].
      destruct b2; cbn [map bucket_points nth_error]; reflexivity.
    - cbn [app map List.concat List.length bucket_points nth_error]. rewrite zlen_app, Z.add_assoc. apply IH. }
  destruct Hpts as [Hp1 Hp2].
  assert (Hr : ma_range w v i = Some (zlen pre, zlen pre + zlen (bucket es))).
  { unfold v, multi_view, av_create. unfold index_of. fold points. apply range_points; [assumption| |apply is_bytes_zeros|rewrite zlen_zeros_nat; lia|assumption|assumption].
    unfold points. apply points_bound; lia. }
  assert (Hfuel : (List.length es < S (List.length (pre ++ bucket es ++ post)%list))%nat) by (rewrite !app_length; pose proof (bucket_longer es); lia).
  exists (positions (zlen pre) es). split; [|split].
  - unfold for_each. rewrite Hr, Em. now apply for_each_from_facts.
  - rewrite Em. apply positions_hold.
  - intros wanted. unfold iterator. rewrite Hr, Em. destruct (zlen pre <? zlen pre + zlen (bucket es)) eqn:E.
    + now apply iter_from_facts.
    + destruct es as [|e es']; [reflexivity|]. exfalso. rewrite bucket_cons, zlen_app, element_zlen in E.
      pose proof (zlen_nonneg (snd e)). pose proof (zlen_nonneg (bucket es')). lia.
Qed.

(** Reading the files gives that view. *)
Theorem C74_open : forall p w st name schema bufs,
  sound st -> Forall (unread st) [name; schema_file name; index_name name; schema_file (index_name name)] -> schema <> [] ->
  file_of st name = Some (framed (List.concat bufs)) -> file_of st (schema_file name) = Some schema ->
  file_of st (index_name name) = Some (framed (index_of w bufs)) -> file_of st (schema_file (index_name name)) = Some (index_schema schema) ->
  Forall is_bytes bufs -> zlen (List.concat bufs) + 16 < 2 ^ 64 -> zlen (index_of w bufs) + 16 < 2 ^ 64 ->
  snd (cpp_read_multi p w st name schema) = Some (multi_view w bufs).
Proof.
  intros p w st name schema bufs Hs Hu Hne F1 F2 F3 F4 Hb Hl Hli.
  inversion Hu as [|? ? U1 Hu2]; subst. inversion Hu2 as [|? ? U2 Hu3]; subst. inversion Hu3 as [|? ? U3 Hu4]; subst. inversion Hu4 as [|? ? U4 _]; subst.
  assert (Hbasic : forall st name schema data, sound st -> file_of st name = Some (framed data) -> file_of st (schema_file name) = Some schema -> schema <> [] ->
            is_bytes data -> zlen data + 16 < 2 ^ 64 -> unread st name -> unread st (schema_file name) ->
            snd (cpp_read_resource p st name schema) = Some (Desc (data ++ zeros 8) (zlen data))).
  { clear. intros st name schema data Hs F G Hne' Hb' Hl' U1 U2. apply cpp_read_facts; auto.
    - intros f E. rewrite F in E. assert (E' : f = framed data) by congruence. subst f. unfold framed. split.
      + rewrite !is_bytes_app. split; [apply to_le_bytes|]. split; [assumption|apply is_bytes_zeros].
      + rewrite !zlen_app, zlen_to_le, zlen_zeros_nat. lia.
    - exists (framed data), data. split; [assumption|]. split; [apply framed_holds|]. split; [assumption|]. split; [auto|]. reflexivity. }
  unfold cpp_read_multi. fold (index_name name). fold (index_schema schema).
  assert (Bi : is_bytes (index_of w bufs)) by apply points_bytes.
  assert (Bd : is_bytes (List.concat bufs)) by (clear - Hb; induction Hb; cbn; [constructor|]; now rewrite is_bytes_app).
  pose proof (Hbasic st (index_name name) (index_schema schema) (index_of w bufs) Hs F3 F4 ltac:(unfold index_schema; discriminate) Bi Hli U3 U4) as R1.
  destruct (cpp_read_touches p st (index_name name) (index_schema schema) Hs) as [T1 F1'].
  destruct (cpp_read_resource p st (index_name name) (index_schema schema)) as [st1 r1]. cbn [fst snd] in *. subst r1.
  destruct (names_distinct name) as (D1 & D2 & D3 & D4 & D5 & D6). pose proof T1 as (S1 & _ & C1 & _).
  assert (Hin2 : forall a a' b, (~ In (b : string) [a; a']) <-> b <> a /\ b <> a') by (intros a a' b; cbn; intuition congruence).
  pose proof (Hbasic st1 name schema (List.concat bufs) S1) as R2. rewrite !F1' in R2. unfold unread in R2.
  rewrite !C1 in R2 by (apply Hin2; split; congruence). specialize (R2 F1 F2 Hne Bd Hl U1 U2).
  destruct (cpp_read_resource p st1 name schema) as [st2 r2]. cbn [fst snd] in *. subst r2. reflexivity.
Qed.

(** A byte that is not the number of a type of the multivector, where an element should start, is reported. *)
Theorem C74_unknown : forall types es pre bad post stop, Forall (known types) es -> type_size types bad = None -> zlen pre + zlen (bucket es) < stop ->
  for_each_from (S (List.length (pre ++ bucket es ++ bad :: post))) types (pre ++ bucket es ++ bad :: post) (zlen pre) stop = Throws.
Proof.
  intros types es pre bad post stop Hk Hb Hs. apply for_each_from_throws; auto. rewrite !app_length. pose proof (bucket_longer es). lia.
Qed.

(** If the data is longer than the index can say, nothing stops the writer (Python raises): with an 8 bit index, 128 elements of one
    byte each in the first bucket, and the view shows the first bucket as empty and the second one with the first one's first element. *)
Theorem C74_overflow : exists bs st1 m1 st2 v,
  let f := fun mem => match mem with _ :: t => Some (7 :: t) | [] => None end in
  bs = [repeat (Addition 0 1 f) 128; [Addition 0 1 f]] /\
  mv_fill block_limit 8 (fst (mv_create cpp_file_storage empty_store "m" [115])) (snd (mv_create cpp_file_storage empty_store "m" [115])) bs = Some (st1, m1) /\
  mv_close block_limit cpp_file_storage 8 st1 m1 = Some (st2, Some v) /\
  for_each [1%nat] 8 v 0 = Value [] /\ for_each [1%nat] 8 v 1 = Value [(0, 1)].
Proof.
  set (f := fun mem : list Z => match mem with _ :: t => Some (7 :: t) | [] => None end).
  set (bs := [repeat (Addition 0 1 f) 128; [Addition 0 1 f]]).
  destruct (mv_fill block_limit 8 (fst (mv_create cpp_file_storage empty_store "m" [115])) (snd (mv_create cpp_file_storage empty_store "m" [115])) bs) as [[st1 m1]|] eqn:E1;
    [|vm_compute in E1; discriminate].
  destruct (mv_close block_limit cpp_file_storage 8 st1 m1) as [[st2 [v|]]|] eqn:E2.
  - exists bs, st1, m1, st2, v. cbv zeta. fold f. split; [reflexivity|]. split; [assumption|]. split; [assumption|].
    vm_compute in E1. injection E1 as <- <-. vm_compute in E2. injection E2 as <- <-. vm_compute. split; reflexivity.
  - exfalso. vm_compute in E1. injection E1 as <- <-. vm_compute in E2. discriminate.
  - exfalso. vm_compute in E1. injection E1 as <- <-. vm_compute in E2. discriminate.
Qed.

Example C74_instance :
  let f b := fun mem => match mem with _ :: t => Some (b :: t) | [] => None end in
  let bs := [[Addition 1 2 (f 5); Addition 0 1 (f 6)]; []; [Addition 0 1 (f 8)]] in
  let bss := [[(1, [5; 0]); (0, [6])]; []; [(0, [8])]] in
  Forall2 (Forall2 adds) bs bss /\ Forall (Forall (known [1%nat; 2%nat])) bss /\
  for_each [1%nat; 2%nat] 33 (multi_view 33 (map bucket bss)) 0 = Value [(1, 1); (0, 4)] /\
  iterator [1%nat; 2%nat] 33 (multi_view 33 (map bucket bss)) 0 0 = Value [4].
Proof.
  cbv zeta. split; [|split; [|split; vm_compute; reflexivity]].
  - assert (A : forall ti n b r, 0 <= ti < 256 -> 0 <= b < 256 -> n = S (List.length r) -> r = zeros (List.length r) ->
              adds (Addition ti n (fun mem => match mem with _ :: t => Some (b :: t) | [] => None end)) (ti, b :: r)).
    { intros ti n b r Ht Hb -> Hr. split; [reflexivity|]. split; [exact Ht|]. split; [reflexivity|]. cbn [snd]. split.
      - constructor; [exact Hb|]. rewrite Hr. apply is_bytes_zeros.
      - cbn [ad_size ad_fill]. change (zeros (S (List.length r) + 8)) with (0 :: zeros (List.length r + 8)). cbn [app]. now rewrite zeros_app, <- Hr. }
    constructor; [|constructor; [constructor|constructor; [|constructor]]].
    + constructor; [apply A; try lia; reflexivity|]. constructor; [apply A; try lia; reflexivity|constructor].
    + constructor; [apply A; try lia; reflexivity|constructor].
  - constructor; [|constructor; [constructor|constructor; [|constructor]]].
    + constructor; [split; [cbn; lia|reflexivity]|constructor; [split; [cbn; lia|reflexivity]|constructor]].
    + constructor; [split; [cbn; lia|reflexivity]|constructor].
Qed.

(** ** C75 *)

(** Iterating over a view visits the elements indexing gives. *)
Theorem C75_iterate : forall t v, 0 <= av_size v ->
  zlen (av_elements t v) = av_size v /\
  forall i, (i < Z.to_nat (av_size v))%nat -> nth_error (av_elements t v) i = Some (av_at t v i).
Proof.
  intros t v H. unfold av_elements. split; [unfold zlen; rewrite iterate_length; lia|]. intros i Hi. now apply iterate_nth.
Qed.

(** The view of a file of records (followed by the padding) has the records as elements, one fewer if they overlap; each element
    starts at its record and can see what follows it (the next record for a range). *)
Theorem C75_elements : forall t rs rest, (0 < e_size t)%nat -> Forall (fun r => List.length r = e_size t) rs ->
  let v := av_create t (List.concat rs ++ rest) (zlen (List.concat rs)) in
  let n := (List.length rs - (if e_overlap t then 1 else 0))%nat in
  av_size v = Z.of_nat n /\ List.length (av_elements t v) = n /\
  forall i, (i < n)%nat -> nth_error (av_elements t v) i = Some (List.concat (skipn i rs) ++ rest)%list.
Proof.
  intros t rs rest Ht Hr v n. split; [now apply view_size|]. destruct (view_elements t rs rest Hr Ht) as [L E]. split; [exact L|].
  intros i Hi. exact (proj1 (E i Hi)).
Qed.

(** Slices of a view are the slices of its elements. *)
Theorem C75_slices : forall t v, 0 <= av_size v -> forall a b, (a + b <= Z.to_nat (av_size v))%nat ->
  av_elements t (av_slice t v a (Z.of_nat b)) = firstn b (skipn a (av_elements t v)) /\
  av_elements t (av_slice_range t v (a, (a + b)%nat)) = firstn b (skipn a (av_elements t v)) /\
  av_elements t (av_slice_before v a) = firstn a (av_elements t v) /\
  av_elements t (av_slice_after t v a) = skipn a (av_elements t v) /\
  av_elements t (av_skip t v a) = skipn a (av_elements t v) /\
  av_elements t (av_skip_last v a) = firstn (Z.to_nat (av_size v) - a) (av_elements t v).
Proof.
  intros t v H0 a b Hab. unfold av_elements, av_slice, av_slice_range, av_slice_before, av_slice_after, av_skip, av_skip_last, av_slice_after, av_slice_before.
  cbn [av_mem av_size fst snd]. rewrite !iterate_skipn by lia. rewrite Nat2Z.id.
  replace (Z.to_nat (Z.of_nat (a + b) - Z.of_nat a)) with b by lia. rewrite !iterate_firstn by lia.
  replace (Z.to_nat (av_size v - Z.of_nat a)) with (Z.to_nat (av_size v) - a)%nat by lia.
  rewrite !Nat2Z.id. auto 8.
Qed.

(** A slice of overlapping records, written to a storage, also has the record its last element overlaps with. *)
Theorem C75_slice_bytes : forall t rs rest a b, (0 < e_size t)%nat -> Forall (fun r => List.length r = e_size t) rs ->
  (a + b + (if e_overlap t then 1 else 0) <= List.length rs)%nat ->
  view_bytes t (av_slice t (av_create t (List.concat rs ++ rest) (zlen (List.concat rs))) a (Z.of_nat b)) =
    Some (List.concat (firstn (b + (if e_overlap t then 1 else 0)) (skipn a rs))).
Proof.
  intros t rs rest a b Ht Hr Hab. unfold view_bytes, av_bytes, av_slice, av_create. cbn [av_mem av_size].
  rewrite (Nat.mul_comm a). rewrite (concat_skip rs (e_size t) rest Hr a) by lia.
  set (k := (b + (if e_overlap t then 1 else 0))%nat).
  assert (Hs : Forall (fun r => List.length r = e_size t) (skipn a rs)) by (now apply Forall_skipn).
  assert (Lk : List.length (List.concat (firstn k (skipn a rs))) = (k * e_size t)%nat).
  { rewrite (concat_length _ (e_size t)); [|now apply Forall_firstn]. rewrite firstn_length, skipn_length, Nat.min_l; [reflexivity|]. unfold k. lia. }
  replace ((Z.of_nat b + (if e_overlap t then 1 else 0)) * Z.of_nat (e_size t)) with (Z.of_nat (k * e_size t)) by (unfold k; destruct (e_overlap t); lia).
  assert (Hsp : List.concat (skipn a rs) = (List.concat (firstn k (skipn a rs)) ++ List.concat (skipn k (skipn a rs)))%list)
    by (rewrite <- concat_app, firstn_skipn; reflexivity).
  rewrite Hsp, <- app_assoc.
  replace (Z.of_nat (k * e_size t) <=? _) with true.
  - f_equal. rewrite Nat2Z.id, <- Lk, firstn_app, Nat.sub_diag, firstn_O, firstn_all, app_nil_r. reflexivity.
  - rewrite zlen_app. unfold zlen. rewrite Lk. lia.
Qed.

Example C75_instance :
  let rs := [[1; 2]; [3; 4]; [5; 6]; [7; 8]] in
  let v := av_create (EType 2 true) (List.concat rs ++ zeros 8) 8 in
  Forall (fun r => List.length r = 2%nat) rs /\ av_size v = 3 /\
  map (firstn 4) (av_elements (EType 2 true) (av_slice_after (EType 2 true) v 1)) = [[3; 4; 5; 6]; [5; 6; 7; 8]] /\
  view_bytes (EType 2 true) (av_slice (EType 2 true) v 1 1) = Some [3; 4; 5; 6].
Proof. split; [repeat (constructor; [reflexivity|]); constructor|]. vm_compute. repeat split. Qed.

Print Assumptions C71_round_trip.
Print Assumptions C72_python.
Print Assumptions C74_files.
Print Assumptions C74_view.
Print Assumptions C75_slice_bytes.
