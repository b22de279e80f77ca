(** C78-C80: the Rust library's resource storage, vectors, multivectors and views. *)
From Coq Require Import List ZArith Bool Lia String Permutation.
From Coq Require Import ZifyBool ZifyNat.
From Verif Require Import PyBase Spec DataAccess Structure StructSpec BitFacts DataAccessFacts DataAccessThms StructFacts
  SliceFacts Resources Builder Archive ArchiveSpec ResourceFacts BuilderFacts ArchiveFacts Codecs CodecSpec CodecFacts CodecThms
  RawFacts Props_Resources Props_Codecs Streams StoreSpec StoreFacts CppStore CppFacts CppViews CppMulti Props_Cpp RustStore RustSpec RustFacts RustVectors RustMulti.
Import ListNotations.
Local Open Scope string_scope.
Local Open Scope Z_scope.
Ltac Zify.zify_post_hook ::= Z.div_mod_to_equations.

(** ** C78 *)

(** Writing a resource leaves the file of the format (size, data, padding) and the schema file, and no other file changes, if the
    storage replaces files or has none of these names. *)
Theorem C78_write : forall p st name schema data,
  startable p st name -> startable p st (schema_file name) -> sound st -> zlen data < 2 ^ 64 ->
  let st' := rust_write_resource p st name schema data in
  sound st' /\ file_of st' name = Some (framed data) /\ file_of st' (schema_file name) = Some schema /\
  same_but [name; schema_file name] st st' /\ same_reads st st'.
Proof.
  intros p st name schema data H1 H2 Hs Hl. destruct (rwrite_facts p st name schema data H1 H2 Hs Hl) as ((S & B & R & _) & F & G).
  split; [assumption|]. split; [assumption|]. split; [assumption|]. split; [exact B|]. exact R.
Qed.

(** The result of reading is the one the contents of the two files call for. *)
Theorem C78_read : forall checks p st name expected,
  p_null_empty p = false -> sound st -> current st name -> current st (schema_file name) -> utf8_valid expected = true ->
  (forall f, file_of st name = Some f -> is_bytes f /\ zlen f < 2 ^ 64) ->
  reads_as checks (file_of st) name expected (snd (rust_read_resource checks p st name expected)).
Proof. intros checks p st name expected Hp Hs C1 C2 Hu Hf. exact (proj1 (rread_facts checks p st name expected Hp Hs C1 C2 Hu Hf)). Qed.
(** ... and no two results are. *)
Lemma holds_no_overflow f data : holds_resource f data -> zlen f < 2 ^ 64 -> ~ size_overflows f.
Proof.
  intros H Hl (_ & Ho). assert (L : zlen data < 2 ^ 64).
  { destruct H as (pad & Lp & ->). rewrite !zlen_app, zlen_to_le in Hl. unfold zlen in *. lia. }
  destruct (holds_header f data H L) as (E & E2 & _). lia.
Qed.
Theorem C78_unique : forall checks F name expected r1 r2,
  utf8_valid expected = true -> (forall f, F name = Some f -> is_bytes f /\ zlen f < 2 ^ 64) ->
  reads_as checks F name expected r1 -> reads_as checks F name expected r2 -> r1 = r2.
Proof.
  intros checks F name expected r1 r2 Hu Hf H1 H2.
  assert (Hh : forall f d1 d2, F name = Some f -> holds_resource f d1 -> holds_resource f d2 -> d1 = d2).
  { intros f d1 d2 Ef A B. eapply holds_unique; eauto. now apply Hf. }
  assert (Ho : forall f d, F name = Some f -> holds_resource f d -> ~ size_overflows f).
  { intros f d Ef A. eapply holds_no_overflow; eauto. now apply Hf. }
  destruct H1 as [f1 d1 A1 B1 C1|A1|f1 A1 C1|f1 s1 A1 C1 B1 D1|f1 s1 A1 C1 D1 E1|f1 d1 s1 A1 B1 C1 D1|f1 d1 s1 A1 B1 C1 D1 E1];
  destruct H2 as [f2 d2 A2 B2 C2|A2|f2 A2 C2|f2 s2 A2 C2 B2 D2|f2 s2 A2 C2 D2 E2|f2 d2 s2 A2 B2 C2 D2|f2 d2 s2 A2 B2 C2 D2 E2];
  try congruence;
  try (assert (f2 = f1) by congruence; subst f2);
  try (assert (s2 = s1) by congruence; subst s2);
  try (now rewrite (Hh f1 d1 d2));
  try (exfalso; now apply (B1 d2)); try (exfalso; now apply (B2 d1));
  try (exfalso; now apply (Ho f1 d1)); try (exfalso; now apply (Ho f1 d2));
  try (exfalso; now apply D1); try (exfalso; now apply D2).
Qed.

(** Reading changes no file, and what was read before stays current. *)
Theorem C78_read_only : forall checks p st name expected,
  p_null_empty p = false -> sound st -> current st name -> current st (schema_file name) -> utf8_valid expected = true ->
  (forall f, file_of st name = Some f -> is_bytes f /\ zlen f < 2 ^ 64) ->
  let st' := fst (rust_read_resource checks p st name expected) in
  sound st' /\ (forall n, file_of st' n = file_of st n) /\ (forall n, current st n -> current st' n).
Proof.
  intros checks p st name expected Hp Hs C1 C2 Hu Hf. destruct (rread_facts checks p st name expected Hp Hs C1 C2 Hu Hf) as (_ & T & F & K).
  split; [exact (proj1 T)|]. split; assumption.
Qed.

(** What was written is read; with another schema there is an error. *)
Theorem C78_round_trip : forall checks p st name schema data expected,
  p_null_empty p = false -> startable p st name -> startable p st (schema_file name) -> sound st -> unread st name -> unread st (schema_file name) ->
  is_bytes data -> zlen data + 16 < 2 ^ 64 -> utf8_valid schema = true -> utf8_valid expected = true ->
  snd (rust_read_resource checks p (rust_write_resource p st name schema data) name expected) =
    if eqb_list schema expected then ROk (Desc (data ++ zeros 8) (zlen data)) else RErr ESignature.
Proof.
  intros checks p st name schema data expected Hp H1 H2 Hs U1 U2 Hb Hl Hu Hue.
  destruct (C78_write p st name schema data H1 H2 Hs ltac:(lia)) as (S & F & G & B & R).
  set (st' := rust_write_resource p st name schema data) in *.
  assert (Hf : forall f, file_of st' name = Some f -> is_bytes f /\ zlen f < 2 ^ 64).
  { intros f E. rewrite F in E. assert (E' : f = framed data) by congruence. subst f. unfold framed. split.
    - rewrite !is_bytes_app. split; [apply to_le_bytes|]. split; [assumption|apply is_bytes_zeros].
    - rewrite !zlen_app, zlen_to_le, zlen_zeros_nat. lia. }
  assert (Cu : forall n, unread st n -> current st' n) by (intros n Hn d E; unfold same_reads in R; unfold unread in Hn; rewrite R, Hn in E; discriminate).
  pose proof (C78_read checks p st' name expected Hp S (Cu _ U1) (Cu _ U2) Hue Hf) as Hr.
  refine (C78_unique checks (file_of st') name expected _ _ Hue Hf Hr _).
  destruct (eqb_list schema expected) eqn:E.
  - apply eqb_list_spec in E. subst expected.
    replace (data ++ zeros 8)%list with (skipn 8 (framed data)).
    + eapply ReadsOk; [exact F|apply framed_holds|exact G].
    + unfold framed. rewrite skipn_app, to_le_length. rewrite skipn_all2 by (rewrite to_le_length; lia). reflexivity.
  - eapply ReadsOther; [exact F|apply framed_holds|exact G|assumption|]. intros ->. rewrite (proj2 (eqb_list_spec expected expected) eq_refl) in E. discriminate.
Qed.

(** Rust and C++ write the same two files, and each reads what the other wrote. *)
Theorem C78_cpp : forall p q st1 st2 name schema data,
  startable p st1 name -> startable p st1 (schema_file name) -> sound st1 -> p_reuse q = false -> sound st2 -> zlen data < 2 ^ 64 ->
  forall n, In n [name; schema_file name] ->
    file_of (rust_write_resource p st1 name schema data) n = file_of (cpp_write_resource q st2 name schema data) n.
Proof.
  intros p q st1 st2 name schema data H1 H2 Hs1 Hq Hs2 Hl n Hn.
  destruct (C78_write p st1 name schema data H1 H2 Hs1 Hl) as (_ & F & G & _). destruct (C71_write q st2 name schema data Hq Hs2 Hl) as (_ & F' & G' & _).
  destruct Hn as [<-|[<-|[]]]; congruence.
Qed.
Lemma framed_reads checks p st name schema data : p_null_empty p = false -> sound st -> current st name -> current st (schema_file name) ->
  utf8_valid schema = true -> is_bytes data -> zlen data + 16 < 2 ^ 64 ->
  file_of st name = Some (framed data) -> file_of st (schema_file name) = Some schema ->
  snd (rust_read_resource checks p st name schema) = ROk (Desc (data ++ zeros 8) (zlen data)).
Proof. intros Hp Hs C1 C2 Hu Hb Hl F G. exact (proj1 (reads_ok checks p st name schema data Hp Hs C1 C2 Hu Hb Hl F G)). Qed.
(** The files the Python builder leaves for a resource are read by Rust, with the same payload. *)
Theorem C78_python : forall checks p st n sig payload ix,
  p_null_empty p = false -> sound st -> (forall f, current st f) -> (forall f x, In (f, x) (set_files n sig payload ix) -> file_of st f = Some x) ->
  is_bytes payload -> zlen payload + 16 < 2 ^ 64 -> utf8_valid (r_schema sig) = true ->
  snd (rust_read_resource checks p st n (r_schema sig)) = ROk (Desc (payload ++ zeros 8) (zlen payload)) /\
  (forall i, ix = Some i -> is_bytes i -> zlen i + 16 < 2 ^ 64 ->
   snd (rust_read_resource checks p st (index_name n) (index_schema (r_schema sig))) = ROk (Desc (i ++ zeros 8) (zlen i))).
Proof.
  intros checks p st n sig payload ix Hp Hs Hc Hfiles Hb Hl Hu. split.
  - apply framed_reads; auto; apply Hfiles; unfold set_files; cbn; auto.
  - intros i -> Hbi Hli. apply framed_reads; auto; try (now apply index_schema_utf8); apply Hfiles; unfold set_files; cbn; auto.
Qed.

(** The contents a new stream of that name starts with *)
Definition starts_with (p : policy) (st : store) (name : string) (c : list Z) : Prop :=
  (startable p st name /\ c = []) \/ (p_reuse p = true /\ exists i, holds_stream st name i (OStream c (List.length c))).
Lemma create_continues p st name c : starts_with p st name c -> sound st ->
  writes [name] st (fst (create_stream p st name)) /\
  holds_stream (fst (create_stream p st name)) name (snd (create_stream p st name)) (OStream c (List.length c)).
Proof.
  intros [[H ->]|[Hp (i & Hh)]] Hs; [now apply create_starts|].
  unfold create_stream. rewrite (proj1 Hh), Hp. cbn [fst snd]. split; [now apply writes_refl|assumption].
Qed.
Lemma starts_writes p l st st' name c : writes l st st' -> ~ In name l -> starts_with p st name c -> starts_with p st' name c.
Proof.
  intros W N [[H ->]|[Hp (i & Hh)]]; [left; split; [eapply startable_writes; eassumption|reflexivity]|right].
  split; [assumption|]. exists i. destruct W as (_ & _ & _ & K). now apply K.
Qed.
Lemma rwrite_continues p st name schema data c cs : starts_with p st name c -> starts_with p st (schema_file name) cs -> sound st -> zlen data < 2 ^ 64 ->
  let st' := rust_write_resource p st name schema data in
  writes [name; schema_file name] st st' /\
  (exists i, holds_stream st' name i (OStream (c ++ framed data) (List.length (c ++ framed data)))) /\
  (exists i, holds_stream st' (schema_file name) i (OStream (cs ++ schema) (List.length (cs ++ schema)))).
Proof.
  intros H1 H2 Hs Hl. unfold rust_write_resource. pose proof (zlen_nonneg data).
  destruct (create_continues p st name c H1 Hs) as [W1 S1]. destruct (create_stream p st name) as [st1 i]. cbn [fst snd] in *.
  destruct (write_writes st1 _ i _ (rust_size_bytes (zlen data)) (proj1 W1) S1) as [W2 S2]. set (st2 := write_stream st1 i _) in *.
  destruct (write_writes st2 _ i _ data (proj1 W2) S2) as [W3 S3]. set (st3 := write_stream st2 i _) in *.
  destruct (write_writes st3 _ i _ (zeros 8) (proj1 W3) S3) as [W4 S4]. set (st4 := write_stream st3 i _) in *.
  assert (W : writes [name] st st4) by (apply writes_trans with st1; [assumption|]; apply writes_trans with st2; [assumption|]; now apply writes_trans with st3).
  rewrite rsize_bytes in S4 by lia. rewrite <- !app_assoc in S4. fold (framed data) in S4.
  assert (N : ~ In (schema_file name) [name]) by (intros [E|[]]; symmetry in E; now apply schema_name_ne in E).
  destruct (create_continues p st4 (schema_file name) cs) as [W5 S5]; [eapply starts_writes; eassumption|exact (proj1 W)|].
  unfold rust_write_schema. fold (schema_file name). destruct (create_stream p st4 (schema_file name)) as [st5 j]. cbn [fst snd] in *.
  destruct (write_writes st5 _ j _ schema (proj1 W5) S5) as [W6 S6]. split; [|split].
  - apply writes_trans with st4; [eapply writes_incl; [|exact W]; intros x Hx; cbn in *; tauto|].
    apply writes_trans with st5; (eapply writes_incl; [|eassumption]); intros x Hx; cbn in *; tauto.
  - exists i. assert (N' : ~ In name [schema_file name]) by (intros [E|[]]; now apply schema_name_ne in E).
    destruct W6 as (_ & _ & _ & K6). apply K6; [assumption|]. destruct W5 as (_ & _ & _ & K5). apply K5; assumption.
  - now exists j.
Qed.

(** The memory storage does not replace what has a stream: a resource written twice becomes both, one after the other, and is no
    longer readable. *)
Theorem C78_rewrite_memory : forall checks st name schema a b,
  sound st -> file_of st name = None -> file_of st (schema_file name) = None -> unread st name -> unread st (schema_file name) ->
  is_bytes a -> is_bytes b -> zlen a + zlen b + 32 < 2 ^ 64 -> utf8_valid schema = true ->
  let st2 := rust_write_resource rust_memory_storage (rust_write_resource rust_memory_storage st name schema a) name schema b in
  file_of st2 name = Some (framed a ++ framed b)%list /\ snd (rust_read_resource checks rust_memory_storage st2 name schema) = RErr ESize.
Proof.
  intros checks st name schema a b Hs F1 F2 U1 U2 Ha Hb Hl Hu. pose proof (zlen_nonneg a). pose proof (zlen_nonneg b).
  destruct (rwrite_continues rust_memory_storage st name schema a [] []) as (W1 & (i & A1) & (j & B1)); [left; split; [right; assumption|reflexivity]..|assumption|lia|].
  set (st1 := rust_write_resource rust_memory_storage st name schema a) in *. cbn [app] in A1, B1.
  destruct (rwrite_continues rust_memory_storage st1 name schema b (framed a) schema) as (W2 & (i2 & A2) & (j2 & B2));
    [right; split; [reflexivity|eauto]|right; split; [reflexivity|eauto]|exact (proj1 W1)|lia|].
  cbv zeta. set (st2 := rust_write_resource rust_memory_storage st1 name schema b) in *.
  apply holds_file in A2. apply holds_file in B2. cbn [os_bytes] in A2, B2. split; [assumption|].
  assert (Cu : forall n, unread st n -> current st2 n).
  { intros n Hn d E. destruct W1 as (_ & _ & R1 & _). destruct W2 as (_ & _ & R2 & _). unfold same_reads, unread in *. rewrite R2, R1, Hn in E. discriminate. }
  assert (L2 : forall x, is_bytes x -> is_bytes (framed x) /\ zlen (framed x) = zlen x + 16).
  { intros x Hx. unfold framed. rewrite !is_bytes_app, !zlen_app, zlen_to_le, zlen_zeros_nat. split; [|lia].
    split; [apply to_le_bytes|]. split; [assumption|apply is_bytes_zeros]. }
  destruct (L2 a Ha) as [Ba La]. destruct (L2 b Hb) as [Bb Lb].
  assert (Hf : forall f, file_of st2 name = Some f -> is_bytes f /\ zlen f < 2 ^ 64).
  { intros f E. rewrite A2 in E. assert (E' : f = (framed a ++ framed b)%list) by congruence. subst f. rewrite is_bytes_app, zlen_app. split; [auto|lia]. }
  assert (El : le (firstn 8 (framed a ++ framed b)) = zlen a).
  { unfold framed. rewrite <- !app_assoc. rewrite firstn_app, to_le_length, Nat.sub_diag, firstn_O, app_nil_r. rewrite firstn_all2 by (rewrite to_le_length; lia).
    rewrite le_to_le. apply Z.mod_small. change (2 ^ (8 * Z.of_nat 8)) with (2 ^ 64). lia. }
  refine (C78_unique checks (file_of st2) name schema _ _ Hu Hf (C78_read checks rust_memory_storage st2 name schema eq_refl (proj1 W2) (Cu _ U1) (Cu _ U2) Hu Hf) _).
  eapply ReadsSize; [exact A2|exact B2| |].
  - intros d Hd. assert (Ld : zlen d < 2 ^ 64).
    { destruct Hd as (pad & Lp & E). apply (f_equal zlen) in E. rewrite !zlen_app, zlen_to_le in E. pose proof (zlen_nonneg pad). lia. }
    destruct (holds_header _ _ Hd Ld) as (E1 & E2 & _). rewrite El in E1. rewrite zlen_app in E2. lia.
  - intros _ (_ & Ho). rewrite El in Ho. lia.
Qed.

(** What has been read is remembered: a resource rewritten later still reads as before through the same storage (files: through
    another one as well, until the file is mapped anew). *)
Theorem C78_stale : exists st name schema a b,
  sound st /\ a <> b /\
  let p := rust_file_storage in
  let st1 := rust_write_resource p st name schema a in
  let st2 := fst (rust_read_resource true p st1 name schema) in
  let st3 := rust_write_resource p st2 name schema b in
  file_of st3 name = Some (framed b) /\
  snd (rust_read_resource true p st3 name schema) = ROk (Desc (a ++ zeros 8) (zlen a)).
Proof.
  exists empty_store, "x", [115], [1], [2; 3]. split; [|split; [discriminate|split; vm_compute; reflexivity]].
  split; [constructor|]. split; constructor.
Qed.

(** A size near the largest is an error, or a panic if the program checks for overflows. *)
Theorem C78_overflow : forall checks, exists st,
  sound st /\ (forall n, current st n) /\ snd (rust_read_resource checks rust_file_storage st "x" [115]) = if checks then RPanic else RErr ESize.
Proof.
  intros checks.
  exists (Store [OStream (repeat 255 8 ++ zeros 8) 0; OStream [115] 0] [("x", 0%nat); ("x.schema", 1%nat)] []). split; [|split].
  - split; [repeat constructor; cbn; intuition discriminate|]. split; [repeat constructor; cbn; intuition discriminate|]. repeat constructor.
  - intros n d E. discriminate.
  - destruct checks; vm_compute; reflexivity.
Qed.

Example C78_instance :
  let st := rust_write_resource rust_file_storage (rust_write_resource rust_file_storage empty_store "b" [66] [1; 2; 3]) "a" [65] [9; 8] in
  sound empty_store /\ startable rust_memory_storage empty_store "a" /\ startable rust_file_storage st "a" /\
  file_of st "a" = Some [2; 0; 0; 0; 0; 0; 0; 0; 9; 8; 0; 0; 0; 0; 0; 0; 0; 0] /\ file_of st "a.schema" = Some [65] /\
  file_of st "b" = Some [3; 0; 0; 0; 0; 0; 0; 0; 1; 2; 3; 0; 0; 0; 0; 0; 0; 0; 0] /\
  snd (rust_read_resource true rust_file_storage st "a" [65]) = ROk (Desc [9; 8; 0; 0; 0; 0; 0; 0; 0; 0] 2) /\
  snd (rust_read_resource true rust_file_storage st "a" [66]) = RErr ESignature /\
  snd (rust_read_resource true rust_file_storage st "c" [65]) = RErr EMissing.
Proof.
  split; [split; [constructor|split; constructor]|]. split; [right; reflexivity|]. split; [left; reflexivity|]. vm_compute. repeat split.
Qed.

(** ** C79 *)

(** The user of [grow()] sets fields of the new element; these writes make exactly the bytes of Python's record. *)
Lemma assign_sets sd rec vals fvs :
  sdef_ok sd -> record_values rec sd vals -> Permutation fvs (combine (s_fields sd) vals) ->
  (forall f, In f (s_fields sd) -> rust_ok (f_off f) (f_width f)) ->
  exists bytes, pack_record sd rec = Ok bytes /\
    sets (Z.to_nat (s_size sd)) (store_all (fun f v b => rust_write (f_signed f) b (f_off f) (f_width f) v) fvs) (zeros (Z.to_nat (s_size sd))) bytes.
Proof.
  intros Hsd Hrv Hp Hok. destruct (C52_same_bytes_partial sd rec vals fvs Hsd Hrv Hp Hok) as (bytes & Hpk & Hst).
  destruct (pack_record_ok sd rec vals Hsd Hrv) as (bytes' & Hpk' & Hlen & Hby & _ & _).
  assert (bytes' = bytes) by congruence. subst bytes'. exists bytes. split; [assumption|]. split; [apply zeros_len|]. split; [unfold zlen in Hlen; lia|]. split; assumption.
Qed.

(** Creating an external vector, growing it element by element and closing it leaves exactly the resource with these elements,
    however often the elements were flushed on the way, and [close] returns the view of it.  An empty vector of overlapping elements
    is stored as one zeroed element ([stored_records]). *)
Theorem C79_files : forall checks p limit t st name schema fs rs,
  p_null_empty p = false -> startable p st name -> startable p st (schema_file name) -> sound st -> unread st name -> unread st (schema_file name) ->
  utf8_valid schema = true -> (0 < e_size t)%nat -> 0 <= limit -> (e_overlap t = true -> Z.of_nat (e_size t) <= limit) ->
  Forall2 (fun f r => sets (e_size t) f (zeros (e_size t)) r) fs rs -> zlen (List.concat (stored_records t rs)) + 16 < 2 ^ 64 ->
  exists st1 v1, rev_grow_all limit t (fst (rev_create p t st name schema)) (snd (rev_create p t st name schema)) fs = Some (st1, v1) /\
    rv_len v1 = zlen rs /\
  exists st2, rev_close checks p t st1 v1 = Some (st2, ROk (records_view t (stored_records t rs) (zeros 8))) /\
    file_of st2 name = Some (framed (List.concat (stored_records t rs))) /\ file_of st2 (schema_file name) = Some schema /\
    same_but [name; schema_file name] st st2 /\ sound st2.
Proof.
  intros checks p limit t st name schema fs rs Hp P1 P2 Hs U1 U2 Hu Ht Hl0 Hlim Hf Hl.
  destruct (rev_create_facts p t st name schema P1 P2 Hs) as (W0 & F0 & H0). destruct (rev_create p t st name schema) as [st0 v0]. cbn [fst snd] in *.
  destruct (rev_grow_all_facts limit t name schema Ht Hlim Hl0 fs rs st0 v0 [] (proj1 W0) H0 Hf) as (st1 & v1 & E1 & W1 & H1). cbn [app] in H1.
  exists st1, v1. split; [assumption|]. split; [destruct H1 as (fl & pe & _ & _ & L & _); exact L|].
  pose proof W0 as (_ & B0 & R0 & _). pose proof W1 as (S1 & B1 & R1 & _).
  assert (Nx : ~ In (schema_file name) [name]) by (intros [E|[]]; symmetry in E; now apply schema_name_ne in E).
  destruct (rev_close_facts checks p t st1 v1 name schema rs Ht Hp S1 H1) as (st2 & E2 & T2 & F2 & G2 & _).
  - rewrite B1 by assumption. assumption.
  - unfold unread in *. now rewrite R1, R0.
  - unfold unread in *. now rewrite R1, R0.
  - assumption.
  - assumption.
  - exists st2. split; [assumption|]. split; [assumption|]. split; [assumption|]. pose proof T2 as (S2 & B2 & _). split; [|assumption].
    intros n Hn. rewrite B2 by assumption. rewrite B1; [now apply B0|]. intros [->|[]]. apply Hn. now left.
Qed.

(** Hence Rust and Python leave the same files for the same records, unless there are none and they overlap. *)
Theorem C79_python : forall checks p limit st name sd overlap sig recs valss fvss payload ix,
  p_null_empty p = false -> startable p st name -> startable p st (schema_file name) -> sound st -> unread st name -> unread st (schema_file name) ->
  r_container sig = CVector sd -> utf8_valid (r_schema sig) = true -> sdef_ok sd -> 0 < s_size sd <= limit -> (overlap = true -> recs <> []) ->
  (forall f, In f (s_fields sd) -> rust_ok (f_off f) (f_width f)) ->
  Forall2 (fun rec vals => record_values rec sd vals) recs valss ->
  Forall2 (fun fvs vals => Permutation fvs (combine (s_fields sd) vals)) fvss valss ->
  payload_of sig (SRecords recs) = Ok (payload, ix) -> zlen payload + 16 < 2 ^ 64 ->
  let t := EType (Z.to_nat (s_size sd)) overlap in
  exists st1 v1, rev_grow_all limit t (fst (rev_create p t st name (r_schema sig))) (snd (rev_create p t st name (r_schema sig)))
      (map (store_all (fun f v b => rust_write (f_signed f) b (f_off f) (f_width f) v)) fvss) = Some (st1, v1) /\
  exists st2 a, rev_close checks p t st1 v1 = Some (st2, ROk a) /\
    forall f x, In (f, x) (set_files name sig payload ix) -> file_of st2 f = Some x.
Proof.
  intros checks p limit st name sd overlap sig recs valss fvss payload ix Hp P1 P2 Hs U1 U2 Hc Hu Hsd Hsz Hov Hok Hrv Hperm Hpay Hl t.
  unfold payload_of in Hpay. rewrite Hc in Hpay. destruct (mapM (pack_record sd) recs) as [rs|er] eqn:Em; cbn [bind] in Hpay; [|discriminate].
  injection Hpay as <- <-.
  assert (Hm : Forall2 (fun f r => sets (Z.to_nat (s_size sd)) f (zeros (Z.to_nat (s_size sd))) r) (map (store_all (fun f v b => rust_write (f_signed f) b (f_off f) (f_width f) v)) fvss) rs).
  { clear - Hsd Hrv Hperm Hok Em. revert fvss rs Hperm Em. induction Hrv as [|rec vals recs valss Hr Hrs IH]; intros fvss rs Hperm Em;
      inversion Hperm as [|fvs ? fvss' ? Hpf Hpfs]; subst; cbn [mapM] in Em.
    - injection Em as <-. constructor.
    - destruct (assign_sets sd rec vals fvs Hsd Hr Hpf Hok) as (bytes & Ep & Hset). rewrite Ep in Em. cbn [bind] in Em.
      destruct (mapM (pack_record sd) recs) as [rs'|]; cbn [bind] in Em; [|discriminate]. injection Em as <-. cbn [map]. constructor; [assumption|]. now apply IH. }
  assert (Hst : stored_records t rs = rs).
  { destruct rs as [|r rs]; [|reflexivity]. unfold t. cbn [stored_records e_overlap]. destruct overlap; [|reflexivity]. exfalso.
    destruct recs as [|r recs]; [now apply Hov|]. cbn [mapM] in Em. destruct (pack_record sd r); cbn [bind] in Em; [|discriminate].
    destruct (mapM (pack_record sd) recs); cbn [bind] in Em; discriminate. }
  destruct (C79_files checks p limit t st name (r_schema sig) (map (store_all (fun f v b => rust_write (f_signed f) b (f_off f) (f_width f) v)) fvss) rs Hp P1 P2 Hs U1 U2 Hu) as (st1 & v1 & E1 & _ & st2 & E2 & F2 & G2 & _);
    [unfold t; cbn [e_size]; lia|lia|intros _; unfold t; cbn [e_size]; lia|exact Hm|rewrite Hst; exact Hl|].
  exists st1, v1. split; [exact E1|]. eexists st2, _. split; [exact E2|]. rewrite Hst in F2. unfold set_files. intros f x Hin.
  cbn in Hin. destruct Hin as [E|[E|[]]]; apply pair_equal_spec in E as [<- <-]; assumption.
Qed.

(** Vectors in memory: any sequence of adding and changing elements gives the vector of the elements it makes; its bytes, as written
    by a builder's setter, are these elements (with the same exception). *)
Theorem C79_vector : forall t n ops rs, (0 < e_size t)%nat -> rvdo_all (e_size t) ops (repeat (zeros (e_size t)) n) rs ->
  exists v, rvec_ops t (rvec_new t n) ops = Some v /\ rvec_len v = List.length rs /\
    rvec_slice v = AView (List.concat rs ++ zeros (e_size t)) (zlen rs) /\
    ras_bytes t (rvec_view t v) = Some (List.concat (stored_records t rs)).
Proof.
  intros t n ops rs Ht Hd. destruct (rvec_ops_facts t ops (rvec_new t n) _ rs (rvec_new_at t n) Hd) as (v & E & Hv). exists v. split; [assumption|].
  pose proof (rvec_bytes t v rs Ht Hv) as Hb. destruct Hv as [-> _]. unfold rvec_len, rvec_slice. rewrite app_length. cbn [List.length]. rewrite Nat.add_sub.
  split; [reflexivity|]. split; [|assumption]. rewrite concat_app. cbn [List.concat]. now rewrite app_nil_r.
Qed.

(** A resource opened as a slice: rejected unless it consists of elements of the size (at least one if they overlap); otherwise
    element [i] is the [i]-th and, if they overlap, the last one is not counted.  Converting back gives the data. *)
Theorem C79_open : forall t data rest, (0 < e_size t)%nat ->
  let r := rfrom_bytes t (Desc (data ++ rest) (zlen data)) in
  (forall rs, data = List.concat rs -> Forall (fun x => List.length x = e_size t) rs -> (e_overlap t = true -> rs <> []) ->
     r = ROk (records_view t rs rest) /\
     av_size (records_view t rs rest) = zlen rs - (if e_overlap t then 1 else 0) /\
     ras_bytes t (records_view t rs rest) = Some data /\
     forall i x, nth_error rs i = Some x -> firstn (e_size t) (av_at t (records_view t rs rest) i) = x) /\
  ((~ exists rs, data = List.concat rs /\ Forall (fun x => List.length x = e_size t) rs /\ (e_overlap t = true -> rs <> [])) -> r = RErr ESize).
Proof.
  intros t data rest Ht r. split.
  - intros rs -> Hr Ho. unfold r. rewrite rfrom_bytes_records by assumption. split; [|split; [|split]].
    + destruct rs; [|reflexivity]. destruct (e_overlap t); [|reflexivity]. exfalso. now apply Ho.
    + unfold records_view, zlen. cbn [av_size]. destruct (e_overlap t); [|lia]. specialize (Ho eq_refl). destruct rs; [congruence|]. cbn [List.length]. lia.
    + unfold records_view. pose proof (ras_bytes_records t rs rest 0 (List.length rs - (if e_overlap t then 1 else 0)) Ht Hr) as R.
      rewrite Nat.mul_0_r, !skipn_O in R. rewrite R by (destruct (e_overlap t); [|lia]; specialize (Ho eq_refl); destruct rs; [congruence|]; cbn; lia).
      f_equal. f_equal. apply firstn_all2. lia.
    + intros i x Hi. unfold records_view, av_at. cbn [av_mem]. assert (Li : (i < List.length rs)%nat) by (apply nth_error_Some; congruence).
      rewrite (concat_skip rs (e_size t) rest Hr i) by lia.
      assert (E : skipn i rs = x :: skipn (S i) rs).
      { clear - Hi. revert rs Hi. induction i as [|i IH]; intros [|y rs] H; cbn in *; try discriminate; [congruence|]. now apply IH. }
      rewrite E. cbn [List.concat]. rewrite <- app_assoc. assert (Lx : List.length x = e_size t) by (rewrite Forall_forall in Hr; apply Hr; eapply nth_error_In; eassumption).
      rewrite <- Lx, firstn_app, Nat.sub_diag, firstn_O, firstn_all, app_nil_r. reflexivity.
  - intros Hn. unfold r, rfrom_bytes. cbn [d_mem d_size]. destruct (zlen data mod Z.of_nat (e_size t) =? 0) eqn:Em; cbn [negb]; [|reflexivity].
    destruct (chunks (e_size t) (Z.to_nat (zlen data / Z.of_nat (e_size t))) data) as (rs & E & L & F); [unfold zlen in *; nia|].
    destruct (e_overlap t) eqn:Eo.
    + destruct (zlen data <? Z.of_nat (e_size t)) eqn:El; [reflexivity|]. exfalso. apply Hn. exists rs. split; [assumption|]. split; [assumption|].
      intros _ ->. cbn in E. subst data. change (zlen (@nil Z)) with 0 in El. lia.
    + exfalso. apply Hn. exists rs. split; [assumption|]. split; [assumption|]. discriminate.
Qed.

(** Refuted in full: the empty vector of overlapping elements.  Rust stores it as one zeroed element and cannot open the file Python
    and C++ leave for it (C73).  Elements written through the spare element are those a later [grow] returns. *)
Theorem C79_empty_refuted :
  (forall size, (0 < size)%nat -> let t := EType size true in
     ras_bytes t (rvec_view t (rvec_new t 0)) = Some (zeros size) /\
     rfrom_bytes t (Desc (zeros 8) 0) = RErr ESize) /\
  (exists t v f v', rvec_set t (rvec_new t 0) 0 f = Some v /\ rvec_len v = 0%nat /\
     rvec_grow t v (fun d => Some d) = Some v' /\ hd [] v' <> zeros (e_size t)).
Proof.
  split.
  - intros size Hs t. split.
    + rewrite (rvec_bytes t (rvec_new t 0) []); [|exact Hs|apply (rvec_new_at t 0)]. unfold t. cbn [stored_records e_overlap e_size List.concat]. now rewrite app_nil_r.
    + unfold rfrom_bytes. cbn [d_size d_mem]. rewrite Z.mod_0_l by (unfold t; cbn [e_size]; lia). cbn [Z.eqb negb]. unfold t. cbn [e_overlap e_size].
      now replace (0 <? Z.of_nat size) with true by lia.
  - exists (EType 2 true). eexists. exists (fun d => match d with _ :: r => Some (7 :: r) | [] => None end). eexists. split; [reflexivity|]. split; [reflexivity|]. split; [reflexivity|]. discriminate.
Qed.

Example C79_instance : let f b := fun mem => match mem with _ :: t => Some (b :: t) | [] => None end in
  rvdo_all 2 [RGrow (f 7); RSet 0 (f 9)] (repeat (zeros 2) 1) [[9; 0]; [7; 0]] /\
  Forall2 (fun f r => sets 2 f (zeros 2) r) [f 1; f 2] [[1; 0]; [2; 0]] /\
  startable rust_memory_storage empty_store "v".
Proof.
  cbv zeta.
  assert (F : forall b, 0 <= b < 256 -> sets 2 (fun mem => match mem with _ :: t => Some (b :: t) | [] => None end) (zeros 2) [b; 0]).
  { intros b Hb. split; [reflexivity|]. split; [reflexivity|]. split; [|reflexivity]. constructor; [exact Hb|]. constructor; [split; reflexivity || lia|constructor]. }
  split; [|split].
  - econstructor; [apply (RDGrow 2 _ [7; 0] [zeros 2]); apply F; lia|]. econstructor; [apply (RDSet 2 0 _ (zeros 2) [9; 0]); [reflexivity|apply F; lia]|]. constructor.
  - constructor; [apply F; lia|]. constructor; [apply F; lia|constructor].
  - right. reflexivity.
Qed.

(** ** C80 *)

(** Creating a multivector, adding buckets of elements and closing it leaves exactly the data and the index of these buckets, however
    often something was flushed on the way, as long as the positions fit into the index. *)
Definition rust_multi_view (w : Z) (bufs : list (list Z)) : rmview :=
  RMView (AView (index_of w bufs ++ zeros 8) (zlen bufs)) (Desc (List.concat bufs ++ zeros 8) (zlen (List.concat bufs))).
Lemma radds_bytes bs bss : Forall2 (Forall2 radds) bs bss -> is_bytes (List.concat (map bucket bss)).
Proof.
  induction 1 as [|b es bs bss Hb _ IH]; cbn; [constructor|]. rewrite is_bytes_app. split; [|assumption].
  clear - Hb. induction Hb as [|[[ti size] f] e b es (Et & Hr & (_ & _ & Hb & _)) _ IH]; [constructor|]. rewrite bucket_cons. rewrite is_bytes_app. split; [|assumption].
  unfold element. constructor; [|exact Hb]. rewrite <- Et. exact Hr.
Qed.
Theorem C80_files : forall checks p limit w st name schema bs bss,
  p_null_empty p = false -> Forall (startable p st) [name; schema_file name; index_name name; schema_file (index_name name)] -> sound st ->
  Forall (unread st) [name; schema_file name; index_name name; schema_file (index_name name)] -> utf8_valid schema = true -> 8 <= limit ->
  1 <= w <= 64 -> Forall2 (Forall2 radds) bs bss -> zlen (List.concat (map bucket bss)) < 2 ^ w ->
  zlen (List.concat (map bucket bss)) + 16 < 2 ^ 64 -> (zlen bss + 1) * ((w + 7) / 8) + 16 < 2 ^ 64 ->
  exists st1 m1, rm_fill limit w (fst (rm_create p w st name schema)) (snd (rm_create p w st name schema)) bs = Some (st1, m1) /\
  exists st2, rm_close checks limit p w st1 m1 = Some (st2, ROk (rust_multi_view w (map bucket bss))) /\
    file_of st2 name = Some (framed (List.concat (map bucket bss))) /\ file_of st2 (schema_file name) = Some schema /\
    file_of st2 (index_name name) = Some (framed (index_of w (map bucket bss))) /\
    file_of st2 (schema_file (index_name name)) = Some (index_schema schema) /\
    same_but [name; schema_file name; index_name name; schema_file (index_name name)] st st2 /\ sound st2.
Proof.
  intros checks p limit w st name schema bs bss Hp HP Hs Hu Hutf Hlim Hw Hb Hl H64 H64i.
  destruct (rm_create_facts p st w name schema HP Hs) as (W0 & F0 & G0 & H0). destruct (rm_create p w st name schema) as [st0 m0]. cbn [fst snd] in *.
  destruct (rm_fill_facts limit w name schema Hw Hlim bs bss st0 m0 [] [] (proj1 W0) H0 Hb Hl) as (st1 & m1 & E1 & W1 & H1).
  exists st1, m1. split; [assumption|]. cbn [app] in H1. change (zlen (@nil Z)) with 0 in H1.
  destruct (names_distinct name) as (D1 & D2 & D3 & D4 & D5 & D6).
  pose proof W0 as (_ & B0 & R0 & _). pose proof W1 as (S1 & B1 & R1 & _).
  assert (Lz : zlen (starts 0 (map bucket bss)) = zlen bss) by (unfold zlen; rewrite starts_length, map_length; reflexivity).
  destruct (rm_close_facts checks limit p w st1 m1 name schema _ _ Hp S1 Hw Hlim H1 Hl) as (st2 & E2 & T2 & F2 & G2 & F2i & G2i & _).
  - rewrite B1; [assumption|]. no_in.
  - rewrite B1; [assumption|]. no_in.
  - eapply Forall_impl; [|exact Hu]. intros n Hn. unfold unread in *. now rewrite R1, R0.
  - now apply radds_bytes with bs.
  - assumption.
  - rewrite Lz. unfold index_bytes. rewrite Z2Nat.id by lia. assumption.
  - assumption.
  - assert (Ei : List.concat (map (to_le (index_bytes w)) (starts 0 (map bucket bss) ++ [zlen (List.concat (map bucket bss))])) = index_of w (map bucket bss)).
    { unfold index_of. rewrite points_starts. reflexivity. }
    exists st2. split; [|split; [assumption|split; [assumption|split; [|split; [assumption|split]]]]].
    + rewrite E2. unfold rindex_view, rust_multi_view. rewrite Ei. do 5 f_equal. rewrite zlen_app, Lz. unfold zlen. rewrite map_length. cbn [List.length]. lia.
    + now rewrite F2i, Ei.
    + pose proof T2 as (_ & B2 & _). intros n Hn. rewrite B2 by assumption. rewrite B1; [now apply B0|]. intros Hx. apply Hn. cbn in *. tauto.
    + exact (proj1 T2).
Qed.

(** C++ leaves the same files for the same buckets (C74_files). *)
Theorem C80_cpp : forall checks p q limit w st st' name schema bs bs' bss,
  p_null_empty p = false -> Forall (startable p st) [name; schema_file name; index_name name; schema_file (index_name name)] -> sound st ->
  Forall (unread st) [name; schema_file name; index_name name; schema_file (index_name name)] -> utf8_valid schema = true -> 8 <= limit ->
  p_reuse q = false -> sound st' -> Forall (unread st') [name; schema_file name; index_name name; schema_file (index_name name)] -> schema <> [] ->
  1 <= w <= 64 -> Forall2 (Forall2 radds) bs bss -> Forall2 (Forall2 adds) bs' bss -> zlen (List.concat (map bucket bss)) < 2 ^ w ->
  zlen (List.concat (map bucket bss)) + 16 < 2 ^ 64 -> (zlen bss + 1) * ((w + 7) / 8) + 16 < 2 ^ 64 ->
  exists st1 m1 st2 v st1' m1' st2' v',
    rm_fill limit w (fst (rm_create p w st name schema)) (snd (rm_create p w st name schema)) bs = Some (st1, m1) /\ rm_close checks limit p w st1 m1 = Some (st2, ROk v) /\
    mv_fill limit w (fst (mv_create q st' name schema)) (snd (mv_create q st' name schema)) bs' = Some (st1', m1') /\ mv_close limit q w st1' m1' = Some (st2', Some v') /\
    forall n, In n [name; schema_file name; index_name name; schema_file (index_name name)] -> file_of st2 n = file_of st2' n.
Proof.
  intros checks p q limit w st st' name schema bs bs' bss Hp HP Hs Hu Hutf Hlim Hq Hs' Hu' Hne Hw Hb Hb' Hl H64 H64i.
  destruct (C80_files checks p limit w st name schema bs bss) as (st1 & m1 & A1 & st2 & A2 & A3 & A4 & A5 & A6 & _); auto.
  destruct (C74_files q limit w st' name schema bs' bss) as (st1' & m1' & B1 & st2' & B2 & B3 & B4 & B5 & B6 & _); auto.
  eexists st1, m1, st2, _, st1', m1', st2', _. split; [exact A1|]. split; [exact A2|]. split; [exact B1|]. split; [exact B2|].
  intros n [<-|[<-|[<-|[<-|[]]]]]; congruence.
Qed.

(** Any two files that open show, for each bucket, exactly the elements whose bytes are in the data between the two positions in the
    index, or panic: if the positions are not in order or not within the data, or if the bytes between them are not a sequence of
    elements of the types of the multivector. *)
Theorem C80_safe : forall types w rs rest data rest' i es,
  1 <= w <= 64 -> rs <> [] -> Forall (fun r => List.length r = Z.to_nat ((w + 7) / 8) /\ is_bytes r) rs -> is_bytes rest ->
  is_bytes data -> is_bytes rest' ->
  let v := RMView (records_view (index_type w) rs rest) (Desc (data ++ rest') (zlen data)) in
  let point k := uint_at (nth k rs []) 0 (Z.to_nat w) in
  rw_len v = zlen rs - 1 /\
  (rw_bucket types w v i = Some es <->
   (S i < List.length rs)%nat /\ point i <= point (S i) <= zlen data /\ Forall (known types) es /\
   exists a b, data = (a ++ bucket es ++ b)%list /\ zlen a = point i /\ zlen (a ++ bucket es) = point (S i)).
Proof.
  intros types w rs rest data rest' i es Hw Hne Hrs Hrest Hd Hrest' v point.
  assert (Hlen : rw_len v = zlen rs - 1).
  { unfold v, rw_len, records_view. cbn [rw_index av_size index_type e_overlap]. unfold zlen. destruct rs; [congruence|]. cbn [List.length]. lia. }
  split; [assumption|].
  assert (Hn : 0 <= Z.of_nat (List.length rs - 1) < zlen rs) by (unfold zlen; destruct rs; [congruence|]; cbn [List.length]; lia).
  unfold rw_bucket, v, records_view. cbn [index_type e_overlap].
  rewrite (rw_at_facts w rs rest _ (Desc (data ++ rest') (zlen data)) i Hw Hrs Hrest Hn). cbn [d_size d_mem].
  fold (point i). fold (point (S i)).
  assert (P0 : forall k, 0 <= point k).
  { assert (G : forall m o l, 0 <= uint_at l o m).
    { induction m as [|m IH]; intros o l; cbn [uint_at]; [lia|]. specialize (IH (o + 1) l). destruct (bit_at l o); lia. }
    intros k. apply G. }
  destruct (Z.of_nat i <? Z.of_nat (List.length rs - 1)) eqn:Ei.
  2:{ split; [discriminate|]. intros (Hi & _). lia. }
  destruct ((point i <=? point (S i)) && (point (S i) <=? zlen data)) eqn:Ep; cbn [obind].
  2:{ split; [discriminate|]. intros (_ & Hp & _). lia. }
  apply andb_true_iff in Ep as [E1 E2]. pose proof (P0 i). pose proof (zlen_nonneg rest'). cbn [d_size].
  assert (Lsk : zlen (skipn (Z.to_nat (point i)) (data ++ rest')) = zlen data + zlen rest' - point i) by (unfold zlen in *; rewrite skipn_length, app_length; lia).
  rewrite rw_elements_facts; [|lia|lia|apply is_bytes_skipn; rewrite is_bytes_app; auto].
  split.
  - intros (Hk & Hz & post & E). split; [lia|]. split; [lia|]. split; [assumption|].
    assert (Ed : (bucket es = firstn (List.length (bucket es)) (skipn (Z.to_nat (point i)) data))%list).
    { apply (f_equal (firstn (List.length (bucket es)))) in E. rewrite firstn_app, Nat.sub_diag, firstn_O, firstn_all, app_nil_r in E. rewrite <- E at 1.
      rewrite skipn_app. rewrite firstn_app. replace (List.length (bucket es) - List.length (skipn (Z.to_nat (point i)) data))%nat with 0%nat by (rewrite skipn_length; unfold zlen in *; lia).
      now rewrite firstn_O, app_nil_r. }
    exists (firstn (Z.to_nat (point i)) data), (skipn (List.length (bucket es)) (skipn (Z.to_nat (point i)) data)). split; [|split].
    + rewrite Ed at 1. rewrite firstn_skipn, firstn_skipn. reflexivity.
    + unfold zlen in *. rewrite firstn_length. lia.
    + rewrite zlen_app, <- Hz. unfold zlen in *. rewrite firstn_length. lia.
  - intros (Hi & Hp & Hk & a & b & E & La & Lb). split; [assumption|]. rewrite zlen_app in Lb. split; [lia|]. exists (b ++ rest')%list.
    replace (Z.to_nat (point i)) with (List.length a) by (unfold zlen in La; lia). rewrite E, <- !app_assoc, skipn_app, Nat.sub_diag, skipn_O, skipn_all. reflexivity.
Qed.

(** Hence the view of the files of some buckets shows these buckets. *)
Theorem C80_view : forall types w bss i es,
  1 <= w <= 64 -> zlen (List.concat (map bucket bss)) < 2 ^ w -> Forall (Forall (fun e => 0 <= fst e < 256 /\ is_bytes (snd e))) bss ->
  Forall (Forall (known types)) bss -> nth_error bss i = Some es ->
  let v := rust_multi_view w (map bucket bss) in
  rw_len v = zlen bss /\ rw_bucket types w v i = Some es.
Proof.
  intros types w bss i es Hw Hl Hbytes Hk Hi v.
  set (points := bucket_points 0 (map zlen (map bucket bss))).
  assert (Ep : points = (starts 0 (map bucket bss) ++ [zlen (List.concat (map bucket bss))])%list) by (unfold points; rewrite points_starts; reflexivity).
  assert (Lp : List.length points = S (List.length bss)) by (rewrite Ep, app_length, starts_length, map_length; cbn; lia).
  assert (Hpb : Forall (fun q => 0 <= q < 2 ^ w) points) by (apply points_bound; lia).
  set (rs := map (to_le (index_bytes w)) points).
  assert (Ev : v = RMView (records_view (index_type w) rs (zeros 8)) (Desc (List.concat (map bucket bss) ++ zeros 8) (zlen (List.concat (map bucket bss))))).
  { unfold v, rust_multi_view, records_view, index_of. fold points. fold rs. cbn [index_type e_overlap]. do 2 f_equal. unfold rs, zlen. rewrite !map_length, Lp. lia. }
  assert (Hb : is_bytes (List.concat (map bucket bss))).
  { clear - Hbytes. induction Hbytes as [|es bss He _ IH]; cbn; [constructor|]. rewrite is_bytes_app. split; [|assumption].
    induction He as [|e es [H1 H2] _ IH']; [constructor|]. rewrite bucket_cons, is_bytes_app. split; [|assumption]. constructor; assumption. }
  assert (Hr : Forall (fun r => List.length r = Z.to_nat ((w + 7) / 8) /\ is_bytes r) rs).
  { unfold rs. apply Forall_map. apply Forall_forall. intros q _. split; [apply to_le_length|apply to_le_bytes]. }
  destruct (C80_safe types w rs (zeros 8) (List.concat (map bucket bss)) (zeros 8) i es Hw) as [L1 L2];
    [unfold rs; destruct points; [discriminate|discriminate]|exact Hr|apply is_bytes_zeros|exact Hb|apply is_bytes_zeros|].
  rewrite Ev. split; [rewrite L1; unfold rs, zlen; rewrite map_length, Lp; lia|]. apply L2.
  assert (Hpt : forall k q, nth_error points k = Some q -> uint_at (nth k rs []) 0 (Z.to_nat w) = q).
  { intros k q Hq. assert (Hn : nth k rs [] = to_le (index_bytes w) q) by (apply nth_error_nth; unfold rs; now apply map_nth_error).
    rewrite Hn. assert (Hqr : 0 <= q < 2 ^ w) by (rewrite Forall_forall in Hpb; apply Hpb; eapply nth_error_In; eassumption).
    pose proof (rread_point w q [] Hw Hqr ltac:(constructor)) as R1. pose proof (rread_record w (to_le (index_bytes w) q) [] Hw ltac:(apply to_le_length) ltac:(apply to_le_bytes) ltac:(constructor)) as R2.
    congruence. }
  destruct (nth_error_split bss i Hi) as (b1 & b2 & Eb & Li).
  assert (Hpi : nth_error points i = Some (zlen (List.concat (map bucket b1))) /\ nth_error points (S i) = Some (zlen (List.concat (map bucket (b1 ++ [es]))))).
  { rewrite Ep, Eb. clear - Li. subst i. rewrite !map_app, !concat_app. cbn [map List.concat]. rewrite app_nil_r.
    assert (G : forall l from r, nth_error (starts from (map bucket l ++ bucket es :: r) ++ [from + zlen (List.concat (map bucket l ++ bucket es :: r))]) (List.length l) = Some (from + zlen (List.concat (map bucket l))) /\
                nth_error (starts from (map bucket l ++ bucket es :: r) ++ [from + zlen (List.concat (map bucket l ++ bucket es :: r))]) (S (List.length l)) = Some (from + zlen (List.concat (map bucket l) ++ bucket es)%list)).
    { induction l as [|b l IH]; intros from r.
      - cbn [map app List.length starts nth_error List.concat]. change (zlen (@nil Z)) with 0. split; [f_equal; lia|]. destruct r as [|x r]; cbn [starts app nth_error List.concat]; rewrite ?app_nil_r; reflexivity.
      - cbn [map app List.length starts List.concat]. specialize (IH (from + zlen (bucket b)) r). destruct IH as [I1 I2].
        cbn [nth_error]. rewrite <- !app_assoc, !zlen_app, !Z.add_assoc. rewrite zlen_app in I2. rewrite Z.add_assoc in I2. split; [exact I1|exact I2]. }
    specialize (G b1 0 (map bucket b2)). rewrite !Z.add_0_l, concat_app in G. cbn [List.concat] in G. exact G. }
  destruct Hpi as [Hp1 Hp2]. rewrite (Hpt _ _ Hp1), (Hpt _ _ Hp2). rewrite map_app, concat_app. cbn [map List.concat]. rewrite app_nil_r.
  assert (Ec : List.concat (map bucket bss) = (List.concat (map bucket b1) ++ bucket es ++ List.concat (map bucket b2))%list) by (rewrite Eb, map_app, concat_app; reflexivity).
  split; [unfold rs; rewrite map_length, Lp; apply Nat.lt_succ_r; apply nth_error_Some; congruence|]. split.
  - rewrite Ec, !zlen_app. pose proof (zlen_nonneg (bucket es)). pose proof (zlen_nonneg (List.concat (map bucket b2))). lia.
  - split; [rewrite Forall_forall in Hk; apply Hk; eapply nth_error_In; eassumption|].
    exists (List.concat (map bucket b1)), (List.concat (map bucket b2)). split; [assumption|]. split; reflexivity.
Qed.

(** Iterating over the buckets, from either end, gives each of them in order (or panics where access would). *)
Theorem C80_iter : forall w v, 0 <= rw_len v ->
  rw_iter w false v = all_some (map (rw_at w v) (seq 0 (Z.to_nat (rw_len v)))) /\
  rw_iter w true v = all_some (rev (map (rw_at w v) (seq 0 (Z.to_nat (rw_len v))))).
Proof. intros w v H. split; [apply (rw_iter_facts w false v H)|apply (rw_iter_facts w true v H)]. Qed.
(** A slice of the buckets has these buckets. *)
Theorem C80_slice : forall w v a b,
  ((exists s, rw_slice w v a b = Some s) <-> (a <= b)%nat /\ Z.of_nat b <= rw_len v) /\
  forall s, rw_slice w v a b = Some s -> rw_len s = Z.of_nat b - Z.of_nat a /\ forall i, (i < b - a)%nat -> rw_at w s i = rw_at w v (a + i).
Proof.
  intros w v a b. split.
  - unfold rw_slice. destruct ((a <=? b)%nat && (Z.of_nat b <=? rw_len v)) eqn:E.
    + apply andb_true_iff in E as [E1 E2]. split; [intros _; split; [now apply Nat.leb_le|lia]|eauto].
    + split; [intros (s & Hs); discriminate|]. intros [H1 H2]. exfalso. apply andb_false_iff in E as [E|E]; [apply Nat.leb_gt in E; lia|lia].
  - intros s Hs. split; [exact (rw_slice_len _ _ _ _ _ Hs)|]. intros i Hi. exact (rw_slice_at w v a b s i Hs Hi).
Qed.

(** If the data is longer than the index can say, nothing stops the writer, as in C++ (C74_overflow); the view then panics or shows
    other buckets. *)
Theorem C80_overflow : exists st1 m1 st2 v,
  let f := fun mem => match mem with _ :: t => Some (7 :: t) | [] => None end in
  let bs := [repeat (0, 1%nat, f) 128; [(0, 1%nat, f)]] in
  let c := rm_create rust_file_storage 8 empty_store "m" [115] in
  rm_fill 1024 8 (fst c) (snd c) bs = Some (st1, m1) /\
  rm_close true 1024 rust_file_storage 8 st1 m1 = Some (st2, ROk v) /\
  rw_bucket [1%nat] 8 v 0 = Some [] /\ rw_bucket [1%nat] 8 v 1 = Some [(0, [7])].
Proof.
  cbv zeta. set (f := fun mem : list Z => match mem with _ :: t => Some (7 :: t) | [] => None end).
  set (bs := [repeat (0, 1%nat, f) 128; [(0, 1%nat, f)]]). set (c := rm_create rust_file_storage 8 empty_store "m" [115]).
  destruct (rm_fill 1024 8 (fst c) (snd c) bs) as [[st1 m1]|] eqn:E1; [|vm_compute in E1; discriminate].
  destruct (rm_close true 1024 rust_file_storage 8 st1 m1) as [[st2 [v| |]]|] eqn:E2;
    [|exfalso; vm_compute in E1; injection E1 as <- <-; vm_compute in E2; discriminate..].
  exists st1, m1, st2, v. split; [first [reflexivity|exact E1]|]. split; [first [exact E2|reflexivity]|].
  vm_compute in E1. injection E1 as <- <-. vm_compute in E2. injection E2 as <- <-. vm_compute. split; reflexivity.
Qed.

Example C80_instance :
  let f b := fun mem => match mem with _ :: t => Some (b :: t) | [] => None end in
  let bs := [[(1, 2%nat, f 5); (0, 1%nat, f 6)]; []; [(0, 1%nat, f 8)]] in
  let bss := [[(1, [5; 0]); (0, [6])]; []; [(0, [8])]] in
  Forall2 (Forall2 radds) bs bss /\ Forall (Forall (known [1%nat; 2%nat])) bss /\
  Forall (Forall (fun e => 0 <= fst e < 256 /\ is_bytes (snd e))) bss /\
  rw_bucket [1%nat; 2%nat] 32 (rust_multi_view 32 (map bucket bss)) 0 = Some [(1, [5; 0]); (0, [6])] /\
  rw_bucket [1%nat] 32 (rust_multi_view 32 (map bucket bss)) 0 = None.
Proof.
  cbv zeta.
  assert (F : forall b n, 0 <= b < 256 -> sets (S n) (fun mem => match mem with _ :: t => Some (b :: t) | [] => None end) (zeros (S n)) (b :: zeros n)).
  { intros b n Hb. split; [apply zeros_len|]. split; [cbn; f_equal; apply zeros_len|]. split; [|reflexivity]. constructor; [exact Hb|apply is_bytes_zeros]. }
  split; [|split; [|split; [|split; vm_compute; reflexivity]]].
  - assert (R : forall ti b n, 0 <= ti < 256 -> 0 <= b < 256 -> radds (ti, S n, fun mem => match mem with _ :: t => Some (b :: t) | [] => None end) (ti, b :: zeros n))
      by (intros ti b n Ht Hb; split; [reflexivity|]; split; [assumption|]; now apply F).
    constructor; [|constructor; [constructor|constructor; [|constructor]]].
    + constructor; [apply (R 1 5 1%nat); lia|]. constructor; [apply (R 0 6 0%nat); lia|constructor].
    + constructor; [apply (R 0 8 0%nat); lia|constructor].
  - repeat (apply Forall_cons || apply Forall_nil); (split; [cbn; lia|reflexivity]).
  - assert (Bt : forall n, 0 <= n < 256 -> is_byte n) by (intros n Hn; exact Hn).
    constructor; [|constructor; [constructor|constructor; [|constructor]]].
    + constructor; [split; [cbn; lia|constructor; [apply Bt; lia|constructor; [apply Bt; lia|constructor]]]|].
      constructor; [split; [cbn; lia|constructor; [apply Bt; lia|constructor]]|constructor].
    + constructor; [split; [cbn; lia|constructor; [apply Bt; lia|constructor]]|constructor].
Qed.

(** ** C81 *)

(** The substring from a position on is the bytes up to the next zero byte, or to the end if there is none; a position behind the end
    panics. *)
Lemma position_zero_spec : forall l, match position_zero l with
  | Some i => exists post, l = (firstn i l ++ 0 :: post)%list /\ ~ In 0 (firstn i l)
  | None => ~ In 0 l
  end.
Proof.
  induction l as [|b l IH]; cbn [position_zero]; [auto|]. destruct (b =? 0) eqn:E.
  - exists l. cbn. assert (b = 0) by lia. subst. auto.
  - assert (Hb : b <> 0) by lia. destruct (position_zero l) as [i|]; cbn [option_map].
    + destruct IH as (post & El & Hn). exists post. cbn [firstn app]. split; [now rewrite <- El|]. intros [H|H]; [congruence|now apply Hn].
    + intros [H|H]; [congruence|now apply IH].
Qed.
Theorem C81_substring : forall data start r,
  substring_raw data start = Some r <->
  exists pre post, data = (pre ++ r ++ post)%list /\ List.length pre = start /\ ~ In 0 r /\ (post = [] \/ hd_error post = Some 0).
Proof.
  intros data start r. unfold substring_raw. destruct (Nat.ltb_spec (List.length data) start) as [Hl|Hl].
  - split; [discriminate|]. intros (pre & post & -> & L & _). rewrite !app_length in Hl. lia.
  - assert (Ed : data = (firstn start data ++ skipn start data)%list) by (symmetry; apply firstn_skipn).
    assert (Lf : List.length (firstn start data) = start) by (rewrite firstn_length; lia).
    pose proof (position_zero_spec (skipn start data)) as P. split.
    + intros [= <-]. exists (firstn start data). destruct (position_zero (skipn start data)) as [i|].
      * destruct P as (post & E & Hn). exists (0 :: post). rewrite <- E. auto.
      * exists []. rewrite app_nil_r. auto.
    + intros (pre & post & E & L & Hn & Hp). assert (Es : skipn start data = (r ++ post)%list).
      { rewrite E, <- L, skipn_app, Nat.sub_diag, skipn_O, skipn_all. reflexivity. }
      rewrite Es in *. destruct (position_zero (r ++ post)) as [i|] eqn:Ei.
      * destruct P as (post' & E' & Hn'). f_equal.
        assert (U : forall (a b x y : list Z), (a ++ 0 :: x)%list = (b ++ 0 :: y)%list -> ~ In 0 a -> ~ In 0 b -> a = b).
        { clear. induction a as [|c a IH]; intros [|d b] x y E Ha Hb; cbn in *; try (injection E as E1 E2); try reflexivity.
          - exfalso. apply Hb. left. congruence.
          - exfalso. apply Ha. left. congruence.
          - f_equal; [assumption|]. eapply IH; [eassumption|tauto|tauto]. }
        destruct Hp as [-> |Hp].
        -- exfalso. rewrite app_nil_r in *. apply Hn. rewrite E'. apply in_or_app. right. now left.
        -- destruct post as [|z post]; [discriminate|]. injection Hp as ->. symmetry. eapply U; eassumption.
      * f_equal. destruct Hp as [-> |Hp]; [apply app_nil_r|]. destruct post as [|z post]; [discriminate|]. injection Hp as ->.
        exfalso. apply P. apply in_or_app. right. now left.
Qed.
(** It is the substring Python reads, if it is terminated (and valid text): C19.  Python's unterminated substring is one byte. *)
Theorem C81_python : forall data pre s post,
  is_bytes data -> zlen data < 2 ^ 64 -> data = (pre ++ s ++ 0 :: post)%list -> ~ In 0 s ->
  substring_raw data (List.length pre) = Some s /\
  sub_str (RawData (framed data)) (zlen pre) [0] = if utf8_valid s then Ok s else Err UnicodeDecodeError.
Proof.
  intros data pre s post Hb Hl E Hn. split.
  - apply C81_substring. exists pre, (0 :: post). auto.
  - apply (C19_sub_str data pre s [0] post); auto; [discriminate|]. intros s' post' E'. eapply app_uniq_sep; eauto.
Qed.
Example C81_instance : substring_raw [97; 98; 0; 99] 1 = Some [98] /\ substring_raw [97; 98] 1 = Some [98] /\ substring_raw [97] 2 = None.
Proof. repeat split. Qed.
