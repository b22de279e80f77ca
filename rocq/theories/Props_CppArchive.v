(** C76, C77: opening and building archives with the C++ library. *)
From Coq Require Import List ZArith Bool Lia String.
From Coq Require Import ZifyBool ZifyNat.
From Verif Require Import PyBase Spec DataAccess Structure StructSpec BitFacts DataAccessFacts DataAccessThms StructFacts
  SliceFacts Resources Builder Archive ArchiveSpec ResourceFacts BuilderFacts ArchiveFacts Codecs CodecSpec CodecFacts CodecThms
  Streams StoreSpec StoreFacts CppStore CppFacts CppViews CppMulti CppArchive CppArchiveSpec CppArchiveFacts CppSessionSpec CppSessionFacts.
Import ListNotations.
Local Open Scope string_scope.
Local Open Scope Z_scope.

(** ** C76 *)

(** Opening an archive from a storage that remembers nothing: the object says whether everything mandatory is there (and within its
    limits), has exactly the resources that are there with their contents, and the sub-archives that can be opened. *)
Theorem C76_open : forall p dirs a st path, sound st -> sane st -> st_cache st = [] ->
  shows (file_of st) dirs (p_null_empty p) path a (snd (cpp_open p dirs a st path)) /\
  (is_open (snd (cpp_open p dirs a st path)) = true <-> opens (file_of st) dirs (p_null_empty p) path a) /\
  forall n, file_of (fst (cpp_open p dirs a st path)) n = file_of st n.
Proof.
  intros p dirs a st path Hs Hn Hc. assert (C : coherent p st) by (intros n d H; rewrite Hc in H; discriminate).
  destruct (cpp_open_shows p dirs a st path Hs C Hn) as (H & _ & _ & Hf). split; [exact H|]. split; [|exact Hf].
  destruct a as [name schema rs subs]. remember (snd (cpp_open p dirs (CArch name schema rs subs) st path)) as x. clear Heqx.
  inversion H; subst. match goal with O : open = true <-> _ |- _ => exact O end.
Qed.

(** There is only one object that shows given files, so this determines the result completely. *)
Lemma forall2_nth {A B} (P : A -> B -> Prop) l m : Forall2 P l m -> forall i x, nth_error l i = Some x -> exists y, nth_error m i = Some y /\ P x y.
Proof.
  induction 1 as [|a b l m H _ IH]; intros [|i] x E; try discriminate; cbn in *.
  - exists b. split; [reflexivity|]. congruence.
  - apply IH. exact E.
Qed.
Lemma forall2_len {A B} (P : A -> B -> Prop) l m : Forall2 P l m -> List.length l = List.length m.
Proof. induction 1; cbn; congruence. Qed.
Lemma nth_ext' {A} (l m : list A) : List.length l = List.length m -> (forall i x, nth_error l i = Some x -> nth_error m i = Some x) -> l = m.
Proof.
  revert m. induction l as [|a l IH]; intros [|b m] E H; try discriminate; [reflexivity|]. f_equal.
  - specialize (H 0%nat a eq_refl). cbn in H. congruence.
  - apply IH; [cbn in E; congruence|]. intros i x Hx. exact (H (S i) x Hx).
Qed.
Theorem C76_unique : forall F dirs b a path x y, shows F dirs b path a x -> shows F dirs b path a y -> x = y.
Proof.
  intros F dirs b. induction a as [name schema rs subs IH] using carch_ind'. intros path x y Hx Hy.
  inversion Hx as [? ? ? ? ? s1 o1 m1 a1 S1 O1 M1 N1 A1 B1]; subst. inversion Hy as [? ? ? ? ? s2 o2 m2 a2 S2 O2 M2 N2 A2 B2]; subst.
  assert (s1 = s2) as -> by (destruct s1, s2; intuition congruence).
  assert (o1 = o2) as -> by (destruct o1, o2; intuition congruence).
  assert (m1 = m2) as ->.
  { clear -M1 M2. revert m2 M2. induction M1 as [|r [n v] rs ms [H1 H2] _ IHm]; intros m2 M2; inversion M2 as [|? [n' v'] ? ? [G1 G2]]; subst; [reflexivity|].
    cbn [fst snd] in *. subst. f_equal; [|apply IHm; assumption]. f_equal. destruct v as [v|].
    - symmetry. apply G2. apply H2. reflexivity.
    - destruct v' as [v'|]; [|reflexivity]. apply H2. apply G2. reflexivity. }
  f_equal. apply nth_ext'; [rewrite <- (forall2_len _ _ _ N1); apply (forall2_len _ _ _ N2)|].
  intros i [n v] Hi. destruct (nth_error subs i) as [[n' [o sub]]|] eqn:Es.
  2:{ apply nth_error_None in Es. rewrite (forall2_len _ _ _ N1) in Es. apply nth_error_None in Es. congruence. }
  destruct (forall2_nth _ _ _ N1 i _ Es) as ([? ?] & E1 & En1). destruct (forall2_nth _ _ _ N2 i _ Es) as ([n2 v2] & E2 & En2). cbn [fst] in *. subst.
  assert (n = n') by congruence. subst n. rewrite E2. do 2 f_equal.
  assert (Hsub : In (n', (o, sub)) subs) by (eapply nth_error_In; exact Es). rewrite Forall_forall in IH. specialize (IH _ Hsub). cbn [snd] in IH.
  destruct v as [v|], v2 as [v2|].
  - destruct (A1 _ _ _ _ _ Es Hi) as (_ & _ & G1). destruct (A2 _ _ _ _ _ Es E2) as (_ & _ & G2). f_equal. symmetry. exact (IH _ _ _ G1 G2).
  - exfalso. destruct (A1 _ _ _ _ _ Es Hi) as (D & Op & _). exact (B2 _ _ _ _ Es E2 (conj D Op)).
  - exfalso. destruct (A2 _ _ _ _ _ Es E2) as (D & Op & _). exact (B1 _ _ _ _ Es Hi (conj D Op)).
  - reflexivity.
Qed.

(** Opening it again through the same storage gives the same. *)
Theorem C76_again : forall p dirs a st path, sound st -> sane st -> st_cache st = [] ->
  snd (cpp_open p dirs a (fst (cpp_open p dirs a st path)) path) = snd (cpp_open p dirs a st path).
Proof.
  intros p dirs a st path Hs Hn Hc. assert (C : coherent p st) by (intros n d H; rewrite Hc in H; discriminate).
  destruct (cpp_open_shows p dirs a st path Hs C Hn) as (H & S1 & C1 & Hf).
  destruct (cpp_open_shows p dirs a _ path S1 C1 (sane_ext _ _ Hf Hn)) as (H' & _).
  eapply C76_unique; [|exact H]. eapply shows_ext; [exact Hf|exact H'].
Qed.

(** The files the Python builder writes for a resource are shown by C++: instances, vectors and raw data with the payload, multivectors
    with payload and index. *)
Theorem C76_python : forall F b n sig payload ix,
  (forall f x, In (f, x) (set_files n sig payload ix) -> F f = Some x) -> r_schema sig <> [] ->
  (forall size, shows_value F b n (r_schema sig) (KInst size) (VInst (payload ++ zeros 8))) /\
  (forall t, shows_value F b n (r_schema sig) (KVec t) (VVec (av_create t (payload ++ zeros 8) (zlen payload)))) /\
  shows_value F b n (r_schema sig) KRaw (VRaw (Desc (payload ++ zeros 8) (zlen payload))) /\
  (forall w ts i, ix = Some i -> shows_value F b n (r_schema sig) (KMulti w ts)
     (VMulti (MAView (av_create (index_type w) (i ++ zeros 8) (zlen i)) (payload ++ zeros 8)))).
Proof.
  intros F b n sig payload ix Hf Hne.
  assert (Hsk : forall d, skipn 8 (framed d) = (d ++ zeros 8)%list).
  { intro d. unfold framed. rewrite skipn_app. pose proof (zlen_to_le 8 (zlen d)) as L. unfold zlen in L at 1.
    rewrite skipn_all2 by lia. replace (8 - List.length (to_le 8 (zlen d)))%nat with 0%nat by lia. reflexivity. }
  assert (S1 : stored F b n (r_schema sig) (framed payload) payload).
  { split; [apply Hf; right; left; reflexivity|]. split; [apply framed_holds|]. split; [apply Hf; left; reflexivity|intros _; exact Hne]. }
  split; [|split; [|split]]; cbn [shows_value].
  - intro size. exists (framed payload), payload. split; [exact S1|]. now rewrite Hsk.
  - intro t. exists (framed payload), payload. split; [exact S1|]. now rewrite Hsk.
  - exists (framed payload), payload. split; [exact S1|]. now rewrite Hsk.
  - intros w ts i ->. exists (framed payload), payload, (framed i), i. split; [exact S1|]. split; [|now rewrite !Hsk].
    split; [apply Hf; right; right; left; reflexivity|]. split; [apply framed_holds|].
    split; [apply Hf; right; right; right; left; reflexivity|]. intros _. discriminate.
Qed.

(** The size of an instance is not compared with its type: an archive with an empty file for an instance of 4 bytes opens (and its fields
    are read from the padding), and so does one with a single byte for 16: reading the last field is then outside the file. *)
Theorem C76_instance_size_unchecked : exists a st1 st2,
  a = CArch "A" [65] [CRes "i" [73] (KInst 16) false None] [] /\
  (let open st := snd (cpp_open cpp_file_storage [] a st "") in
   is_open (open st1) = true /\ is_open (open st2) = true /\
   open st1 = COpened true true [("i", Some (VInst (zeros 8)))] [] /\ open st2 = COpened true true [("i", Some (VInst (255 :: zeros 8)))] []).
Proof.
  exists (CArch "A" [65] [CRes "i" [73] (KInst 16) false None] []).
  exists (cpp_write_resource cpp_file_storage (cpp_write_resource cpp_file_storage empty_store "A.archive" [65] []) "i" [73] []).
  exists (cpp_write_resource cpp_file_storage (cpp_write_resource cpp_file_storage empty_store "A.archive" [65] []) "i" [73] [255]).
  vm_compute. repeat split.
Qed.

(** An archive with an optional resource whose schema is another one, and one whose file is cut: missing, but the archive is open *)
Example C76_instance :
  let a := CArch "A" [65] [CRes "v" [86] (KVec (EType 2 false)) false (Some 2); CRes "o" [79] KRaw true None] [("s", (true, CArch "S" [83] [] []))] in
  let w st n s d := cpp_write_resource cpp_file_storage st n s d in
  let st v o := w (w (w empty_store "A.archive" [65] []) "v" [86] v) "o" o [1; 2] in
  let open st := snd (cpp_open cpp_file_storage ["s/"] a (forget st) "") in
  sound (st [1; 2; 3; 4] [79]) /\
  open (st [1; 2; 3; 4] [79]) = COpened true true [("v", Some (VVec (AView ([1; 2; 3; 4] ++ zeros 8) 2))); ("o", Some (VRaw (Desc ([1; 2] ++ zeros 8) 2)))] [("s", None)] /\
  open (st [1; 2; 3; 4] [80]) = COpened true true [("v", Some (VVec (AView ([1; 2; 3; 4] ++ zeros 8) 2))); ("o", None)] [("s", None)] /\
  is_open (open (st [1; 2; 3; 4; 5; 6] [79])) = false.
Proof.
  cbv zeta. split; [|vm_compute; repeat split].
  split; [|split]; vm_compute; repeat constructor; cbn; intuition (try congruence; try lia; discriminate).
Qed.

(** ** C77 *)

Lemma skip_framed d : skipn 8 (framed d) = (d ++ zeros 8)%list.
Proof.
  unfold framed. rewrite skipn_app. pose proof (zlen_to_le 8 (zlen d)) as L. unfold zlen in L at 1.
  rewrite skipn_all2 by lia. replace (8 - List.length (to_le 8 (zlen d)))%nat with 0%nat by lia. reflexivity.
Qed.
Lemma framed_sane d : is_bytes d -> zlen d + 16 < 2 ^ 64 -> is_bytes (framed d) /\ zlen (framed d) < 2 ^ 64.
Proof.
  intros Hb Hl. unfold framed. split.
  - rewrite !is_bytes_app. split; [apply to_le_bytes|]. split; [assumption|apply is_bytes_zeros].
  - rewrite !zlen_app, zlen_to_le, zlen_zeros_nat. lia.
Qed.
Lemma handle_file st h name schema payload : handle_at st h name schema payload -> file_of st name = Some (to_le 8 0 ++ payload)%list.
Proof. intros (_ & _ & _ & H). apply holds_file in H. exact H. Qed.
Lemma ascii_is_bytes s : is_bytes (ascii_bytes s).
Proof.
  unfold ascii_bytes. apply Forall_forall. intros x Hx. apply in_map_iff in Hx as (c & <- & _).
  pose proof (Ascii.nat_ascii_bounded c). unfold is_byte. lia.
Qed.

Lemma session_sane limit p bs its s : invariant limit p bs its s -> Forall storable its -> sane (se_store s).
Proof.
  intros I Hst n f Hf. destruct (in_dec string_dec n (all_names its)) as [Ha|Ha].
  2:{ destruct (i_others _ _ _ _ _ I n Ha) as [F _]. congruence. }
  apply all_in in Ha as (it & Hit & Hn). pose proof (i_items _ _ _ _ _ I) as Hh. rewrite Forall_forall in Hh, Hst.
  specialize (Hh it Hit). destruct (Hst it Hit) as (Sb & Sl & Pl & Il).
  assert (Hsch : is_bytes (it_schema it) /\ zlen (it_schema it) < 2 ^ 64) by (split; [exact Sb|lia]).
  assert (Hixs : is_bytes (index_schema (it_schema it)) /\ zlen (index_schema (it_schema it)) < 2 ^ 64).
  { unfold index_schema. split; [rewrite !is_bytes_app; split; [apply ascii_is_bytes|split; [exact Sb|apply ascii_is_bytes]]|].
    rewrite !zlen_app. change (zlen (ascii_bytes "index(")) with 6. change (zlen (ascii_bytes ")")) with 1. lia. }
  assert (Hlow : forall fl pe : list Z, is_bytes (fl ++ pe) -> zlen (fl ++ pe) + 16 < 2 ^ 64 -> is_bytes (to_le 8 0 ++ fl) /\ zlen (to_le 8 0 ++ fl) < 2 ^ 64).
  { intros fl pe H1 H2. apply is_bytes_app in H1 as [H1 _]. rewrite zlen_app in H2. pose proof (zlen_nonneg pe). split.
    - apply is_bytes_app. split; [apply to_le_bytes|exact H1].
    - rewrite zlen_app, zlen_to_le. lia. }
  unfold holding in Hh. unfold item_names, item_files in Hn. destruct (it_open it).
  - destruct Hh as (U & Hne & F & Hby & H). destruct (it_content it) as [d|t rs|w bss] eqn:Ec; [destruct H| |].
    + cbn [map fst payload] in *. destruct H as (v & _ & (fl & pe & Epl & _ & _ & Hha) & _). apply handle_file in Hha. destruct Hn as [<-|[<-|[]]].
      * rewrite Hf in Hha. assert (f = (to_le 8 0 ++ fl)%list) as -> by congruence. apply (Hlow fl pe); rewrite <- Epl; assumption.
      * rewrite Hf in F. assert (f = it_schema it) as -> by congruence. exact Hsch.
    + cbn [map fst payload] in *. destruct H as (Hw & Fi & m & _ & (fl & pe & Epl & _ & _ & Hha & (fl' & pe' & Epl' & _ & _ & Hha')) & _).
      apply handle_file in Hha, Hha'. destruct Hn as [<-|[<-|[<-|[<-|[]]]]].
      * rewrite Hf in Hha. assert (f = (to_le 8 0 ++ fl)%list) as -> by congruence. apply (Hlow fl pe); rewrite <- Epl; assumption.
      * rewrite Hf in F. assert (f = it_schema it) as -> by congruence. exact Hsch.
      * rewrite Hf in Hha'. assert (f = (to_le 8 0 ++ fl')%list) as -> by congruence. apply (Hlow fl' pe').
        -- rewrite <- Epl'. apply points_bytes.
        -- rewrite <- Epl', points_zlen, starts_zlen. specialize (Il w bss eq_refl). unfold zlen in *. rewrite map_length.
           unfold index_bytes. rewrite Z2Nat.id by (apply Z.div_pos; lia). assert (0 <= (w + 7) / 8) by (apply Z.div_pos; lia). nia.
      * rewrite Hf in Fi. assert (f = index_schema (it_schema it)) as -> by congruence. exact Hixs.
  - destruct Hh as (Hfs & Hby & Hl & Hix). destruct (proj1 (in_map_iff _ _ _) Hn) as ([n' x] & En & Hin). cbn [fst] in En. subst n'.
    specialize (Hfs n x Hin). rewrite Hf in Hfs. assert (x = f) by congruence. subst x. clear Hn Hfs.
    destruct Hin as [E|[E|Hin]].
    + apply pair_equal_spec in E as [_ <-]. apply framed_sane; assumption.
    + apply pair_equal_spec in E as [_ <-]. exact Hsch.
    + destruct (it_content it) as [d|t rs|w bss] eqn:Ec; try destruct Hin as [].
      * apply pair_equal_spec in H as [_ <-]. destruct (Hix w bss eq_refl) as [_ Hz]. apply framed_sane; [apply points_bytes|exact Hz].
      * destruct H as [E|[]]. apply pair_equal_spec in E as [_ <-]. exact Hixs.
Qed.

(** What was written and closed is shown. *)
Lemma written_shows limit p bs its s path r c : invariant limit p bs its s -> written its path r c -> c_schema r <> [] ->
  shows_value (file_of (se_store s)) (p_null_empty p) (path ++ c_name r) (c_schema r) (c_kind r) (content_value (c_kind r) c).
Proof.
  intros I [Hin Hk] Hne. pose proof (i_items _ _ _ _ _ I) as Hh. rewrite Forall_forall in Hh. specialize (Hh _ Hin).
  unfold holding in Hh. cbn [it_open] in Hh. destruct Hh as (Hf & Hby & Hl & _).
  assert (S1 : stored (file_of (se_store s)) (p_null_empty p) (path ++ c_name r) (c_schema r) (framed (payload c)) (payload c)).
  { split; [apply Hf; left; reflexivity|]. split; [apply framed_holds|]. split; [apply Hf; right; left; reflexivity|intros _; exact Hne]. }
  destruct (c_kind r) as [n|t|w ts|]; cbn [shows_value content_value].
  - exists (framed (payload c)), (payload c). split; [exact S1|]. now rewrite skip_framed.
  - exists (framed (payload c)), (payload c). split; [exact S1|]. now rewrite skip_framed.
  - destruct Hk as [bss ->]. exists (framed (payload (Buckets w bss))), (payload (Buckets w bss)), (framed (index_payload w bss)), (index_payload w bss).
    split; [exact S1|]. split; [|now rewrite !skip_framed].
    split; [apply Hf; right; right; left; reflexivity|]. split; [apply framed_holds|].
    split; [apply Hf; right; right; right; left; reflexivity|]. intros _. discriminate.
  - exists (framed (payload c)), (payload c). split; [exact S1|]. now rewrite skip_framed.
Qed.

(** What was not written or not closed is not shown. *)
Lemma hidden limit p bs its s file schema k v : 16 <= limit -> invariant limit p bs its s -> sane (se_store s) -> absent its file ->
  ~ shows_value (file_of (se_store s)) (p_null_empty p) file schema k v.
Proof.
  intros Hlim I Hsane Ha Hsv.
  assert (Hst : exists f data, stored (file_of (se_store s)) (p_null_empty p) file schema f data).
  { destruct k; cbn [shows_value] in Hsv.
    - destruct Hsv as (f & d & S & _). exists f, d. exact S.
    - destruct Hsv as (f & d & S & _). exists f, d. exact S.
    - destruct Hsv as (f & d & fi & di & S & _). exists f, d. exact S.
    - destruct Hsv as (f & d & S & _). exists f, d. exact S. }
  destruct Hst as (f & data & F & (pad & Lp & Ef) & _).
  destruct (in_dec string_dec file (all_names its)) as [Hn|Hn].
  2:{ destruct (i_others _ _ _ _ _ I file Hn) as [F' _]. congruence. }
  apply all_in in Hn as (it & Hit & Hn). destruct (Ha it Hit Hn) as [<- Ho].
  pose proof (i_items _ _ _ _ _ I) as Hh. rewrite Forall_forall in Hh. specialize (Hh _ Hit). unfold holding in Hh. rewrite Ho in Hh.
  destruct Hh as (_ & _ & _ & _ & Hc).
  assert (Hcon : forall fl : list Z, zlen fl = 0 \/ limit - 8 < zlen fl -> f = (to_le 8 0 ++ fl)%list -> False).
  { intros fl Hb E. rewrite Ef in E. pose proof (f_equal zlen E) as El. rewrite !zlen_app, !zlen_to_le in El.
    assert (Hz : zlen pad = 8) by (unfold zlen; lia). pose proof (zlen_nonneg data).
    assert (E8 : le (firstn 8 (to_le 8 (zlen data) ++ data ++ pad)) = le (firstn 8 (to_le 8 0 ++ fl))) by (rewrite E; reflexivity).
    assert (L8 : forall x, List.length (to_le 8 x) = 8%nat) by (intro x; pose proof (zlen_to_le 8 x) as L; unfold zlen in L; lia).
    rewrite !firstn_app in E8. rewrite !L8 in E8. rewrite Nat.sub_diag, !firstn_O, !app_nil_r in E8.
    rewrite !firstn_all2 in E8 by (rewrite L8; lia).
    rewrite !le_to_le in E8. change (2 ^ (8 * Z.of_nat 8)) with (2 ^ 64) in E8. rewrite (Z.mod_small 0) in E8 by lia.
    destruct (Hsane _ _ F) as [_ Hlt]. rewrite Ef, !zlen_app, zlen_to_le in Hlt. rewrite Z.mod_small in E8 by lia. lia. }
  destruct (it_content it) as [d|t rs|w bss]; [destruct Hc| |].
  - destruct Hc as (w & _ & (fl & pe & _ & _ & _ & Hha) & Hg). pose proof (handle_file _ _ _ _ _ Hha) as F'. destruct Hha as [Hz _].
    apply (Hcon fl); [unfold big in Hg; lia|congruence].
  - destruct Hc as (_ & _ & m & _ & (fl & pe & _ & _ & _ & Hha & _) & Hg). pose proof (handle_file _ _ _ _ _ Hha) as F'. destruct Hha as [Hz _].
    apply (Hcon fl); [unfold big in Hg; lia|congruence].
Qed.

Lemma does_head a : forall ops rest its bs' its', does_all (("", a) :: rest, its) ops (bs', its') -> exists rest', bs' = ("", a) :: rest'.
Proof.
  induction ops as [|op ops IH]; intros rest its bs' its' H; inversion H as [|x op' y ops' z Hd Hr]; subst; [eauto|].
  destruct y as [b1 i1]. assert (exists rest1, b1 = ("", a) :: rest1) as [rest1 ->]; [|exact (IH _ _ _ _ Hr)].
  inversion Hd; subst; eauto.
Qed.

(** Any interleaving of setting resources, growing vectors and multivectors, adding elements, opening sub-archives and closing
    succeeds; the finished resources are in the files of the format with exactly the contents given to them, whatever else was
    going on between their calls, and there are no other files than those of resources that were started. *)
Theorem C77_files : forall limit p a ops bs its,
  p_reuse p = false -> 16 <= limit -> does_all ([("", a)], [signature "" a]) ops (bs, its) ->
  exists s, bsteps limit p (begin_session p [] a empty_store) ops = Value s /\
    (forall it n f, In it its -> it_open it = false -> In (n, f) (item_files it) -> file_of (se_store s) n = Some f) /\
    (forall n, (forall it, In it its -> ~ In n (item_names it)) -> file_of (se_store s) n = None) /\
    se_dirs s = tl (map fst bs).
Proof.
  intros limit p a ops bs its Hp Hl Hd. assert (H8 : 8 <= limit) by lia.
  destruct (steps_invariant limit p ops _ _ _ _ _ Hp H8 (begin_invariant limit p a Hp) Hd) as (s & E & I).
  exists s. split; [exact E|]. split; [|split].
  - intros it n f Hit Ho Hin. pose proof (i_items _ _ _ _ _ I) as Hh. rewrite Forall_forall in Hh. specialize (Hh _ Hit). unfold holding in Hh.
    rewrite Ho in Hh. apply Hh. exact Hin.
  - intros n Hn. apply (i_others _ _ _ _ _ I). intro Ha. apply all_in in Ha as (it & Hit & Hin). exact (Hn it Hit Hin).
  - apply I.
Qed.

Lemma finished_opens limit p bs its s : 16 <= limit -> invariant limit p bs its s -> sane (se_store s) ->
  (forall path, In path (map fst bs) -> path <> "" -> In path (se_dirs s)) ->
  forall a path, finished bs its path a -> opens (file_of (se_store s)) (se_dirs s) (p_null_empty p) path a.
Proof.
  intros Hlim I Hsane Hdirs. induction a as [name schema rs subs IH] using carch_ind'. intros path H.
  inversion H as [? ? ? ? ? Hsig Hne Hsch Hman Hmax Hsub]; subst. constructor.
  - pose proof (i_items _ _ _ _ _ I) as Hh. rewrite Forall_forall in Hh. specialize (Hh _ Hsig). destruct Hh as (Hf & _).
    exists (framed []), []. split; [apply (Hf _ _ (or_introl eq_refl))|]. split; [apply framed_holds|].
    split; [apply (Hf _ _ (or_intror (or_introl eq_refl)))|intros _; exact Hne].
  - intros r Hr Ho. destruct (Hman r Hr Ho) as [c Hc]. eexists. eapply written_shows; [exact I|exact Hc|exact (Hsch r Hr)].
  - intros r v m Hr Hv Hm. destruct (Hmax r Hr) as [(c & Hc & Hcm)|Ha].
    + pose proof (written_shows limit p bs its s path r c I Hc (Hsch r Hr)) as Hv'.
      apply value_spec in Hv; [|apply I|exact Hsane]. apply value_spec in Hv'; [|apply I|exact Hsane].
      assert (v = content_value (c_kind r) c) as -> by congruence. exact (Hcm m Hm).
    + exfalso. exact (hidden limit p bs its s _ _ _ _ Hlim I Hsane Ha Hv).
  - intros n sub Hin. destruct (Hsub n sub Hin) as (Hb & Hp & Hfin). split; [apply Hdirs; assumption|].
    rewrite Forall_forall in IH. specialize (IH _ Hin). cbn [snd] in IH. apply IH. exact Hfin.
Qed.

(** If everything mandatory was written and closed, the archive opens, through the same storage or a new one on the same files,
    with the contents that were given. *)
Theorem C77_complete : forall limit p a ops bs its s,
  p_reuse p = false -> 16 <= limit -> does_all ([("", a)], [signature "" a]) ops (bs, its) -> Forall storable its ->
  bsteps limit p (begin_session p [] a empty_store) ops = Value s -> finished bs its "" a ->
  forall st, st = se_store s \/ st = forget (se_store s) ->
  let r := snd (cpp_open p (se_dirs s) a st "") in
  is_open r = true /\ shows (file_of (se_store s)) (se_dirs s) (p_null_empty p) "" a r.
Proof.
  intros limit p a ops bs its s Hp Hl Hd Hst E Hfin st Hs r. assert (H8 : 8 <= limit) by lia.
  destruct (steps_invariant limit p ops _ _ _ _ _ Hp H8 (begin_invariant limit p a Hp) Hd) as (s' & E' & I).
  assert (s' = s) by congruence. subst s'. pose proof (session_sane _ _ _ _ _ I Hst) as Hsane.
  destruct (does_head _ _ _ _ _ _ Hd) as [rest Hbs].
  assert (Hop : opens (file_of (se_store s)) (se_dirs s) (p_null_empty p) "" a).
  { apply (finished_opens limit p bs its s Hl I Hsane); [|exact Hfin]. intros path Hin Hne. destruct (i_dirs _ _ _ _ _ I) as [_ ->].
    subst bs. cbn [map fst tl] in *. destruct Hin as [E0|Hin]; [congruence|exact Hin]. }
  assert (Hst' : sound st /\ coherent p st /\ sane st /\ same_files (file_of st) (file_of (se_store s))).
  { destruct Hs as [->| ->].
    - split; [apply I|]. split; [apply I|]. split; [exact Hsane|]. intro n. reflexivity.
    - split; [apply (i_sound _ _ _ _ _ I)|]. split; [intros n d H; discriminate|]. split; [exact Hsane|]. intro n. reflexivity. }
  destruct Hst' as (S' & C' & Sa' & Sf). destruct (cpp_open_shows p (se_dirs s) a st "" S' C' Sa') as (H & _). fold r in H.
  assert (H' : shows (file_of (se_store s)) (se_dirs s) (p_null_empty p) "" a r) by (eapply shows_ext; [|exact H]; intro n; now rewrite Sf).
  split; [|exact H']. inversion H'; subst. cbn [is_open]. match goal with O : open = true <-> _ |- _ => apply O; exact Hop end.
Qed.

(** Each resource written and closed is a member with its contents. *)
Theorem C77_contents : forall limit p a ops bs its s path r c,
  p_reuse p = false -> 16 <= limit -> does_all ([("", a)], [signature "" a]) ops (bs, its) ->
  bsteps limit p (begin_session p [] a empty_store) ops = Value s ->
  written its path r c -> c_schema r <> [] ->
  shows_value (file_of (se_store s)) (p_null_empty p) (path ++ c_name r) (c_schema r) (c_kind r) (content_value (c_kind r) c).
Proof.
  intros limit p a ops bs its s path r c Hp Hl Hd E Hw Hne. assert (H8 : 8 <= limit) by lia.
  destruct (steps_invariant limit p ops _ _ _ _ _ Hp H8 (begin_invariant limit p a Hp) Hd) as (s' & E' & I).
  assert (s' = s) by congruence. subst s'. eapply written_shows; eassumption.
Qed.

(** A builder that stops (at any call) with a mandatory resource not started or not closed leaves an archive that does not open. *)
Theorem C77_incomplete : forall limit p a ops bs its s name schema rs subs r,
  p_reuse p = false -> 16 <= limit -> does_all ([("", a)], [signature "" a]) ops (bs, its) -> Forall storable its ->
  bsteps limit p (begin_session p [] a empty_store) ops = Value s ->
  a = CArch name schema rs subs -> In r rs -> c_optional r = false -> absent its (c_name r) ->
  is_open (snd (cpp_open p (se_dirs s) a (forget (se_store s)) "")) = false.
Proof.
  intros limit p a ops bs its s name schema rs subs r Hp Hl Hd Hst E Ha Hr Ho Habs. assert (H8 : 8 <= limit) by lia.
  destruct (steps_invariant limit p ops _ _ _ _ _ Hp H8 (begin_invariant limit p a Hp) Hd) as (s' & E' & I).
  assert (s' = s) by congruence. subst s'. pose proof (session_sane _ _ _ _ _ I Hst) as Hsane.
  destruct (is_open (snd (cpp_open p (se_dirs s) a (forget (se_store s)) ""))) eqn:Eo; [|reflexivity]. exfalso.
  destruct (C76_open p (se_dirs s) a (forget (se_store s)) "" (i_sound _ _ _ _ _ I) Hsane eq_refl) as (_ & Hop & _).
  apply Hop in Eo. subst a. inversion Eo; subst.
  match goal with M : forall r, In r rs -> c_optional r = false -> _ |- _ => destruct (M r Hr Ho) as [v Hv] end.
  exact (hidden limit p bs its s _ _ _ _ Hl I Hsane Habs Hv).
Qed.

(** A builder for an archive that exists writes nothing: it is not open if the stored schema is another one, and otherwise every
    attempt to set or start a resource throws. *)
Theorem C77_existing : forall limit p dirs name schema rs subs st,
  sound st -> sane st -> st_cache st = [] -> let a := CArch name schema rs subs in
  storage_exists dirs st (signature_name name) = true ->
  let s := begin_session p dirs a st in
  (forall n, file_of (se_store s) n = file_of st n) /\
  ((exists f data, stored (file_of st) (p_null_empty p) (signature_name name) schema f data) <-> dict_get (se_builders s) "" = Some (a, false)) /\
  ((~ exists f data, stored (file_of st) (p_null_empty p) (signature_name name) schema f data) <-> se_builders s = []) /\
  (forall r data s', bstep limit p s (BSet "" r data) <> Value s') /\
  (forall r s', bstep limit p s (BStart "" r) <> Value s') /\
  (forall r data, dict_get (se_builders s) "" <> None -> find_resource a (c_name r) = Some r -> (forall w ts, c_kind r <> KMulti w ts) ->
     bstep limit p s (BSet "" (c_name r) data) = Throws).
Proof.
  intros limit p dirs name schema rs subs st Hs Hsane Hc a Hex s.
  assert (C : coherent p st) by (intros n d H; rewrite Hc in H; discriminate).
  unfold s, begin_session, builder_open, a. change ("" ++ signature_name name) with (signature_name name). rewrite Hex. cbn [negb].
  destruct (cpp_read_coherent p st (signature_name name) schema Hs C) as (Ev & _ & _ & Hf).
  pose proof (checked_none p st (signature_name name) schema Hs Hsane) as Hn. rewrite <- Ev in Hn.
  destruct (cpp_read_resource p st (signature_name name) schema) as [st' [d|]]; cbn [fst snd se_store se_builders dict_get String.eqb] in *.
  - split; [exact Hf|]. split; [split; [reflexivity|intros _; apply Hn; discriminate]|].
    split; [split; [intro H; exfalso; apply H; apply Hn; discriminate|discriminate]|].
    split; [|split].
    + intros r data s'. cbn [bstep se_builders dict_get String.eqb]. destruct (find_resource _ _) as [x|]; [|discriminate]. destruct (c_kind x); discriminate.
    + intros r s'. cbn [bstep se_builders dict_get String.eqb]. destruct (find_resource _ _) as [x|]; [|discriminate]. destruct (c_kind x); discriminate.
    + intros r data _ Hr Hk. cbn [bstep se_builders dict_get String.eqb]. rewrite Hr. destruct (c_kind r) eqn:E; try reflexivity. exfalso. eapply Hk. reflexivity.
  - split; [exact Hf|]. split; [split; [intro H; apply Hn in H; congruence|discriminate]|].
    split; [split; [reflexivity|intros _ H; apply Hn in H; congruence]|].
    split; [intros; discriminate|]. split; [intros; discriminate|]. intros r data H. exfalso. apply H. reflexivity.
Qed.

(** Two vectors, a sub-archive and raw data, with the calls interleaved *)
Definition byte_filler (b : Z) : filler := fun mem => match mem with _ :: t => Some (b :: t) | [] => None end.
Definition sub_example : carch := CArch "S" [83] [CRes "i" [73] (KInst 1) false None] [].
Definition archive_example : carch :=
  CArch "A" [65] [CRes "v" [86] (KVec (EType 1 false)) false (Some 5); CRes "m" [77] (KMulti 8 [1%nat]) false None; CRes "d" [68] KRaw true None]
    [("s", (false, sub_example)); ("t", (true, sub_example))].
Definition ops_example : list bop :=
  [BStart "" "v"; BSub "" "s"; BStart "" "m"; BGrow "v" (byte_filler 7); BBucket "m"; BAdd "m" 0 1 (byte_filler 3); BSet "s/" "i" [5];
   BGrow "v" (byte_filler 9); BSub "" "s"; BClose "m"; BClose "v"].
Definition items_example : list item :=
  [signature "" archive_example; Item "v" [86] (Records (EType 1 false) [[7]; [9]]) false; signature "s/" sub_example;
   Item "m" [77] (Buckets 8 [[(0, [3])]]) false; Item "s/i" [73] (Bytes [5]) false].

Lemma byte_makes b : 0 <= b < 256 -> makes 1 (byte_filler b) [b].
Proof. intro H. split; [reflexivity|]. split; [constructor; [exact H|constructor]|reflexivity]. Qed.
Definition fresh_b (its : list item) (new : item) : bool :=
  forallb (fun it => forallb (fun n => negb (existsb (String.eqb n) (item_names it))) (item_names new)) its.
Lemma fresh_ok its new : fresh_b its new = true -> fresh its new.
Proof.
  unfold fresh_b. rewrite forallb_forall. intros H it n Hit Hn Hin. specialize (H it Hit). rewrite forallb_forall in H. specialize (H n Hn).
  apply negb_true_iff in H. assert (E : existsb (String.eqb n) (item_names it) = true); [|congruence].
  apply existsb_exists. exists n. split; [exact Hin|apply String.eqb_refl].
Qed.
Definition apart_b (its : list item) (p : string) : bool := forallb (fun it => forallb (fun n => negb (String.prefix p n)) (item_names it)) its.
Lemma apart_ok its p : apart_b its p = true -> forall it n, In it its -> In n (item_names it) -> String.prefix p n = false.
Proof.
  unfold apart_b. rewrite forallb_forall. intros H it n Hit Hn. specialize (H it Hit). rewrite forallb_forall in H. specialize (H n Hn).
  now apply negb_true_iff in H.
Qed.

Example C77_instance :
  does_all ([("", archive_example)], [signature "" archive_example]) ops_example ([("", archive_example); ("s/", sub_example)], items_example) /\
  Forall storable items_example /\ finished [("", archive_example); ("s/", sub_example)] items_example "" archive_example /\
  exists s, bsteps block_limit cpp_file_storage (begin_session cpp_file_storage [] archive_example empty_store) ops_example = Value s /\
    file_of (se_store s) "v" = Some (framed [7; 9]) /\ file_of (se_store s) "m" = Some (framed [0; 3]) /\ file_of (se_store s) "m_index" = Some (framed [0; 2]) /\
    is_open (snd (cpp_open cpp_file_storage (se_dirs s) archive_example (forget (se_store s)) "")) = true /\
    is_open (snd (cpp_open cpp_file_storage [] archive_example (forget (se_store s)) "")) = false.
Proof.
  assert (Hd : does_all ([("", archive_example)], [signature "" archive_example]) ops_example ([("", archive_example); ("s/", sub_example)], items_example)).
  { unfold ops_example, items_example.
    eapply DCons. { eapply DStartVector; try reflexivity; [discriminate|]. apply fresh_ok. vm_compute. reflexivity. }
    eapply DCons. { eapply DSub; try reflexivity.
      - apply fresh_ok. vm_compute. reflexivity.
      - intro H. vm_compute in H. repeat (destruct H as [H|H]; [discriminate|]). exact H.
      - apply apart_ok. vm_compute. reflexivity. }
    eapply DCons. { eapply DStartMulti; try reflexivity; [discriminate|lia|]. apply fresh_ok. vm_compute. reflexivity. }
    eapply DCons. { apply (DGrow _ [signature "" archive_example] _ "v"). apply byte_makes. lia. }
    eapply DCons. { eapply (DBucket _ [signature "" archive_example; _; _] _ "m"). vm_compute. reflexivity. }
    eapply DCons. { apply (DAdd _ [signature "" archive_example; _; _] _ "m" _ _ [] _ _ _ _ (0, [3])). split; [reflexivity|]. split; [cbn; lia|]. apply byte_makes. lia. }
    eapply DCons. { eapply DSet; try reflexivity; [intros w ts; cbn; discriminate|constructor; [unfold is_byte; lia|constructor]|].
      apply fresh_ok. vm_compute. reflexivity. }
    eapply DCons. { apply (DGrow _ [signature "" archive_example] _ "v" _ _ _ _ [9]). apply byte_makes. lia. }
    eapply DCons. { eapply DSubAgain; reflexivity. }
    eapply DCons. { apply (DClose _ [signature "" archive_example; _; _] _ "m"); [reflexivity|]. intros w bss E. injection E as <- <-. split; reflexivity. }
    eapply DCons. { apply (DClose _ [signature "" archive_example] _ "v"); [reflexivity|]. intros; discriminate. }
    apply DNil. }
  assert (Hst : Forall storable items_example).
  { assert (By : forall b, 0 <= b < 256 -> is_bytes [b]) by (intros b Hb; constructor; [exact Hb|constructor]).
    repeat constructor; cbn [it_schema it_content signature archive_example sub_example]; try (apply By; lia); try reflexivity; try (intros; discriminate); try lia.
    intros w bss E. injection E as <- <-. reflexivity. }
  assert (Hfin : finished [("", archive_example); ("s/", sub_example)] items_example "" archive_example).
  { constructor.
    - left. reflexivity.
    - discriminate.
    - intros r [<-|[<-|[<-|[]]]]; discriminate.
    - intros r [<-|[<-|[<-|[]]]] Ho; [| |discriminate].
      + exists (Records (EType 1 false) [[7]; [9]]). split; [right; left; reflexivity|exact I].
      + exists (Buckets 8 [[(0, [3])]]). split; [right; right; right; left; reflexivity|]. cbn. eauto.
    - intros r [<-|[<-|[<-|[]]]].
      + left. exists (Records (EType 1 false) [[7]; [9]]). split; [split; [right; left; reflexivity|exact I]|]. intros m E.
        assert (m = 5) as -> by (cbn in E; congruence). vm_compute. discriminate.
      + left. exists (Buckets 8 [[(0, [3])]]). split; [split; [right; right; right; left; reflexivity|cbn; eauto]|]. intros m E. discriminate.
      + right. intros it Hit Hn. exfalso. assert (Hb : forallb (fun it => negb (existsb (String.eqb "d") (item_names it))) items_example = true) by (vm_compute; reflexivity).
        rewrite forallb_forall in Hb. specialize (Hb it Hit). apply negb_true_iff in Hb.
        assert (E : existsb (String.eqb "d") (item_names it) = true); [|congruence]. apply existsb_exists. exists "d". split; [exact Hn|reflexivity].
    - intros n sub [E|[E|[]]]; [|discriminate]. assert (n = "s" /\ sub = sub_example) as [-> ->] by (split; congruence).
      split; [right; left; reflexivity|]. split; [discriminate|]. constructor.
      + right; right; left. reflexivity.
      + discriminate.
      + intros r [<-|[]]; discriminate.
      + intros r [<-|[]] _. exists (Bytes [5]). split; [right; right; right; right; left; reflexivity|exact I].
      + intros r [<-|[]]. left. exists (Bytes [5]). split; [split; [right; right; right; right; left; reflexivity|exact I]|]. intros; discriminate.
      + intros n sub []. }
  split; [exact Hd|]. split; [exact Hst|]. split; [exact Hfin|].
  destruct (C77_files block_limit cpp_file_storage archive_example ops_example _ _ eq_refl ltac:(unfold block_limit; lia) Hd) as (s & E & _).
  exists s. split; [exact E|].
  assert (Es : s = ltac:(let y := eval vm_compute in (bsteps block_limit cpp_file_storage (begin_session cpp_file_storage [] archive_example empty_store) ops_example) in
                         match y with Value ?z => exact z end)).
  { assert (E2 : Value s = ltac:(let y := eval vm_compute in (bsteps block_limit cpp_file_storage (begin_session cpp_file_storage [] archive_example empty_store) ops_example) in exact y)) by (rewrite <- E; vm_compute; reflexivity).
    injection E2. intro X. exact X. }
  rewrite Es. vm_compute. repeat split.
Qed.
