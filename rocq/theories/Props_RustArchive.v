(** C82, C83: opening and building archives with the Rust library. *)
From Coq Require Import List ZArith Bool Lia String.
From Coq Require Import ZifyBool ZifyNat.
From Verif Require Import PyBase Spec DataAccess Structure StructSpec BitFacts DataAccessFacts DataAccessThms StructFacts
  SliceFacts Resources Builder Archive ArchiveSpec ResourceFacts BuilderFacts ArchiveFacts Codecs CodecSpec CodecFacts CodecThms
  Streams StoreSpec StoreFacts CppStore CppFacts CppViews CppMulti CppArchive CppArchiveSpec CppArchiveFacts CppSessionSpec CppSessionFacts Props_CppArchive
  RustStore RustSpec RustFacts RustVectors RustMulti Props_Rust RustArchive RustArchiveSpec RustArchiveFacts RustSessionSpec RustSessionFacts.
Import ListNotations.
Local Open Scope string_scope.
Local Open Scope Z_scope.

(** ** C82 *)

(** Opening gives the result the contents of the files call for, whatever they are, and changes no file. *)
Theorem C82_open : forall checks p a st path,
  p_null_empty p = false -> sound st -> (forall n, current st n) -> sane st -> rsane a ->
  opens_as checks (file_of st) path a (snd (ropen checks p a st path)) /\
  (forall n, file_of (fst (ropen checks p a st path)) n = file_of st n).
Proof.
  intros checks p a st path Hp Hs Hc Hf Ha. destruct (ropen_as checks p Hp a st path Hs Hc Hf Ha) as (H & _ & _ & G). split; assumption.
Qed.
(** ... and only one does. *)
Theorem C82_unique : forall checks F path a r1 r2,
  (forall n f, F n = Some f -> is_bytes f /\ zlen f < 2 ^ 64) -> rsane a -> opens_as checks F path a r1 -> opens_as checks F path a r2 -> r1 = r2.
Proof. intros checks F path a r1 r2 Hf Ha H1 H2. exact (proj1 (opens_unique checks F Hf) path a r1 H1 Ha r2 H2). Qed.

(** The archive is opened if and only if it is complete: signature with the schema, every resource there (mandatory), or there or
    without any of its files (optional), with a size that fits its type and within its limit, and so for the sub-archives; and then it
    has these members. *)
Theorem C82_ok : forall checks p a st path x,
  p_null_empty p = false -> sound st -> (forall n, current st n) -> sane st -> rsane a ->
  (snd (ropen checks p a st path) = ROk x <-> complete (file_of st) path a x).
Proof.
  intros checks p a st path x Hp Hs Hc Hf Ha. destruct (ropen_as checks p Hp a st path Hs Hc Hf Ha) as (H & _).
  rewrite <- (opens_complete checks (file_of st) Hf a Ha path x). split.
  - intros E. rewrite <- E. exact H.
  - intros H'. exact (C82_unique checks _ path a _ _ Hf Ha H H').
Qed.

(** Opening it again through the same storage gives the same. *)
Theorem C82_again : forall checks p a st path,
  p_null_empty p = false -> sound st -> (forall n, current st n) -> sane st -> rsane a ->
  snd (ropen checks p a (fst (ropen checks p a st path)) path) = snd (ropen checks p a st path).
Proof.
  intros checks p a st path Hp Hs Hc Hf Ha. destruct (ropen_as checks p Hp a st path Hs Hc Hf Ha) as (H & S1 & C1 & G).
  assert (Hf1 : fsane (file_of (fst (ropen checks p a st path)))) by (intros n f; rewrite G; apply Hf).
  destruct (ropen_as checks p Hp a _ path S1 C1 Hf1 Ha) as (H1 & _).
  apply (C82_unique checks (file_of st) path a); [exact Hf|exact Ha| |exact H]. exact (proj1 (opens_as_ext checks _ _ G) _ _ _ H1).
Qed.

(** The files the Python builder writes for a resource are shown by Rust: instances, vectors and raw data with the payload,
    multivectors with payload and index; but an empty vector of overlapping structures is rejected. *)
Theorem C82_python : forall F n sig payload ix,
  (forall f x, In (f, x) (set_files n sig payload ix) -> F f = Some x) ->
  rshows F n (r_schema sig) (KInst (List.length payload)) (RVInst (payload ++ zeros 8)) /\
  (forall t rs, payload = List.concat rs -> Forall (fun x => List.length x = e_size t) rs -> (e_overlap t = true -> rs <> []) ->
     rshows F n (r_schema sig) (KVec t) (RVVec (records_view t rs (zeros 8)))) /\
  rshows F n (r_schema sig) KRaw (RVRaw (Desc (payload ++ zeros 8) (zlen payload))) /\
  (forall w ts points, 1 <= w <= 64 -> points <> [] -> ix = Some (List.concat (map (to_le (index_bytes w)) points)) ->
     rshows F n (r_schema sig) (KMulti w ts)
       (RVMulti (RMView (records_view (index_type w) (map (to_le (index_bytes w)) points) (zeros 8)) (Desc (payload ++ zeros 8) (zlen payload))))) /\
  (forall checks t, payload = [] -> e_overlap t = true -> (0 < e_size t)%nat -> value_as checks F n (r_schema sig) (KVec t) (RErr ESize)).
Proof.
  intros F n sig payload ix Hf.
  assert (S1 : rstored F n (r_schema sig) (framed payload) payload).
  { split; [apply Hf; right; left; reflexivity|]. split; [apply framed_holds|]. apply Hf; left; reflexivity. }
  split; [|split; [|split; [|split]]]; cbn [rshows].
  - exists (framed payload), payload. split; [exact S1|]. rewrite skip_framed. unfold zlen. split; [lia|reflexivity].
  - intros t rs -> Hr Ho. exists (framed (List.concat rs)), (List.concat rs), rs, (zeros 8). split; [exact S1|]. rewrite skip_framed.
    split; [split; [reflexivity|split; assumption]|reflexivity].
  - exists (framed payload), payload. split; [exact S1|]. now rewrite skip_framed.
  - intros w ts points Hw Hp ->. set (i := List.concat (map (to_le (index_bytes w)) points)) in *.
    exists (framed payload), payload, (framed i), i, (map (to_le (index_bytes w)) points), (zeros 8). rewrite !skip_framed. split; [exact S1|].
    split; [|split; [|reflexivity]].
    + split; [apply Hf; right; right; left; reflexivity|]. split; [apply framed_holds|]. apply Hf; right; right; right; left; reflexivity.
    + split; [reflexivity|]. split; [|intros _; destruct points; [congruence|discriminate]].
      apply Forall_forall. intros x Hx. apply in_map_iff in Hx as (z & <- & _). now rewrite to_le_length.
  - intros checks t E Eo Ht. rewrite E in *.
    eapply ValueOdd; [apply stored_reads; exact S1|]. intros rs rest (Ed & Hl & Hn). specialize (Hn Eo).
    destruct rs as [|r rs]; [congruence|]. inversion Hl; subst. assert (El : zlen (@nil Z) = zlen (List.concat (r :: rs))) by congruence.
    cbn [List.concat] in El. rewrite zlen_app in El. pose proof (zlen_nonneg (List.concat rs)). unfold zlen in *. cbn [List.length] in El. lia.
Qed.

(** Unlike in C++, an optional resource that is there but damaged is an error of the whole archive; an optional archive is absent if
    its signature is; a structure that is too short makes [open] panic. *)
Example C82_instance :
  let a := RArch "A" [65] [RRes (CRes "v" [86] (KVec (EType 2 false)) false (Some 2)); RRes (CRes "o" [79] KRaw true None);
                           RSub "s" true (RArch "S" [83] [RRes (CRes "i" [73] (KInst 4) false None)])] in
  let w st n s d := rust_write_resource rust_file_storage st n s d in
  let st v o := w (w (w empty_store "A.archive" [65] []) "v" [86] v) "o" o [1; 2] in
  let open st := snd (ropen true rust_file_storage a st "") in
  rsane a /\ sound (st [1; 2; 3; 4] [79]) /\
  open (st [1; 2; 3; 4] [79]) = ROk (ROpened [("v", Some (RCValue (RVVec (AView ([1; 2; 3; 4] ++ zeros 8) 2)))); ("o", Some (RCValue (RVRaw (Desc ([1; 2] ++ zeros 8) 2)))); ("s", None)]) /\
  open (st [1; 2; 3; 4] [80]) = RErr ESignature /\
  open (st [1; 2; 3] [79]) = RErr ESize /\
  open (st [1; 2; 3; 4; 5; 6] [79]) = RErr ETooBig /\
  open (w empty_store "A.archive" [65] []) = RErr EMissingData /\
  open (w (st [1; 2; 3; 4] [79]) "s/S.archive" [83] []) = RErr EMissingData /\
  open (w (w (st [1; 2; 3; 4] [79]) "s/S.archive" [83] []) "s/i" [73] [1]) = RPanic /\
  open (w (w (st [1; 2; 3; 4] [79]) "s/S.archive" [83] []) "s/i" [73] [1; 2; 3; 4]) =
    ROk (ROpened [("v", Some (RCValue (RVVec (AView ([1; 2; 3; 4] ++ zeros 8) 2)))); ("o", Some (RCValue (RVRaw (Desc ([1; 2] ++ zeros 8) 2))));
                  ("s", Some (RCArchive (ROpened [("i", Some (RCValue (RVInst ([1; 2; 3; 4] ++ zeros 8))))])))]).
Proof.
  cbv zeta. split; [|split].
  - constructor; [reflexivity| |].
    + intros r [E|[E|[E|[]]]]; try discriminate; injection E as <-; split; try reflexivity; cbn; lia.
    + intros n o a [E|[E|[E|[]]]]; try discriminate. injection E as <- <- <-. constructor; [reflexivity| |].
      * intros r [E|[]]. injection E as <-. split; [reflexivity|exact I].
      * intros n o a [E|[]]. discriminate.
  - split; [|split]; vm_compute; repeat constructor; cbn; intuition (try congruence; try lia; discriminate).
  - vm_compute. repeat split.
Qed.

(** ** C83 *)

Lemma rsession_sane limit bs its s : rinvariant limit bs its s -> Forall rstorable its -> sane (rs_store s).
Proof.
  intros I Hst n f Hf. destruct (in_dec string_dec n (all_names its)) as [Ha|Ha].
  2:{ destruct (ri_others _ _ _ _ I n Ha) as [F _]. congruence. }
  apply all_in in Ha as (it & Hit & Hn). pose proof (ri_items _ _ _ _ I) as Hh. rewrite Forall_forall in Hh, Hst.
  specialize (Hh it Hit). destruct (Hst it Hit) as (Sb & Sl & Pl & Il).
  assert (Hsch : is_bytes (it_schema it) /\ zlen (it_schema it) < 2 ^ 64) by (split; [exact Sb|lia]).
  assert (Hixs : is_bytes (index_schema (it_schema it)) /\ zlen (index_schema (it_schema it)) < 2 ^ 64).
  { unfold index_schema. split; [rewrite !is_bytes_app; split; [apply ascii_is_bytes|split; [exact Sb|apply ascii_is_bytes]]|].
    rewrite !zlen_app. change (zlen (ascii_bytes "index(")) with 6. change (zlen (ascii_bytes ")")) with 1. lia. }
  assert (Hlow : forall fl : list Z, is_bytes fl -> zlen fl + 16 < 2 ^ 64 -> is_bytes (to_le 8 0 ++ fl) /\ zlen (to_le 8 0 ++ fl) < 2 ^ 64).
  { intros fl H1 H2. split.
    - apply is_bytes_app. split; [apply to_le_bytes|exact H1].
    - rewrite zlen_app, zlen_to_le. lia. }
  unfold rholding in Hh. rewrite <- ritem_names in Hn. unfold ritem_files in Hn. destruct (it_open it).
  - destruct Hh as (U & Hne & F & H). destruct (it_content it) as [d|t rs|w bss] eqn:Ec; [destruct H| |].
    + cbn [map fst rpayload] in *. destruct H as (_ & _ & v & _ & (fl & pe & Ers & _ & _ & _ & Hfl & Hha) & _). apply handle_file in Hha. destruct Hn as [<-|[<-|[]]].
      * rewrite Hf in Hha. assert (f = (to_le 8 0 ++ List.concat fl)%list) as -> by congruence.
        assert (Hle : zlen (List.concat fl) <= zlen (List.concat (stored_records t rs))).
        { destruct rs as [|r rs]; [symmetry in Ers; apply app_eq_nil in Ers as [-> ->]; change (zlen (@List.concat Z [])) with 0; apply zlen_nonneg|].
          cbn [stored_records]. rewrite Ers, concat_app, zlen_app. pose proof (zlen_nonneg (List.concat pe)). lia. }
        apply Hlow; [eapply rec_bytes; exact Hfl|lia].
      * rewrite Hf in F. assert (f = it_schema it) as -> by congruence. exact Hsch.
    + cbn [map fst rpayload payload] in *. destruct H as (Hw & Hby & Fi & m & _ & (fl & Epl & _ & Hha & (fl' & pe' & Epl' & _ & _ & _ & Hfl' & Hha')) & _).
      apply handle_file in Hha, Hha'. destruct Hn as [<-|[<-|[<-|[<-|[]]]]].
      * rewrite Hf in Hha. assert (f = (to_le 8 0 ++ fl)%list) as -> by congruence. rewrite Epl in Hby, Pl. apply is_bytes_app in Hby as [Hby _].
        rewrite zlen_app in Pl. pose proof (zlen_nonneg (rm_data m)). apply Hlow; [exact Hby|lia].
      * rewrite Hf in F. assert (f = it_schema it) as -> by congruence. exact Hsch.
      * rewrite Hf in Hha'. assert (f = (to_le 8 0 ++ List.concat fl')%list) as -> by congruence. apply Hlow; [eapply rec_bytes; exact Hfl'|].
        assert (Hle : zlen (List.concat fl') <= zlen (List.concat (map (to_le (index_bytes w)) (starts 0 (map bucket bss))))).
        { rewrite Epl', concat_app, zlen_app. pose proof (zlen_nonneg (List.concat pe')). lia. }
        rewrite points_zlen, starts_zlen in Hle. specialize (Il w bss eq_refl). unfold zlen in *. rewrite map_length in Hle.
        unfold index_bytes in Hle. rewrite Z2Nat.id in Hle by (apply Z.div_pos; lia). assert (0 <= (w + 7) / 8) by (apply Z.div_pos; lia). nia.
      * rewrite Hf in Fi. assert (f = index_schema (it_schema it)) as -> by congruence. exact Hixs.
  - destruct Hh as (Hfs & Hby & Hl & Hix). destruct (proj1 (in_map_iff _ _ _) Hn) as ([n' x] & En & Hin). cbn [fst] in En. subst n'.
    specialize (Hfs n x Hin). rewrite Hf in Hfs. assert (x = f) by congruence. subst x. clear Hn Hfs.
    destruct Hin as [E|[E|Hin]].
    + apply pair_equal_spec in E as [_ <-]. apply framed_sane; assumption.
    + apply pair_equal_spec in E as [_ <-]. exact Hsch.
    + destruct (it_content it) as [d|t rs|w bss] eqn:Ec; try destruct Hin as [].
      * apply pair_equal_spec in H as [_ <-]. destruct Hix as [_ Hz]. apply framed_sane; [apply points_bytes|exact Hz].
      * destruct H as [E|[]]. apply pair_equal_spec in E as [_ <-]. exact Hixs.
Qed.

Lemma str_assoc' (a b c : string) : (a ++ b) ++ c = a ++ b ++ c.
Proof. induction a as [|x a IH]; cbn; [reflexivity|]. now rewrite IH. Qed.
Lemma sub_path path n name : (path ++ n ++ "/") ++ name ++ ".archive" = path ++ n ++ "/" ++ name ++ ".archive".
Proof. now rewrite !str_assoc'. Qed.
(** What is in the files after building is complete if everything was finished. *)
Lemma finished_complete F its :
  (forall it n f, In it its -> it_open it = false -> In (n, f) (ritem_files it) -> F n = Some f) ->
  (forall n, untouched its n -> F n = None) ->
  (forall it t rs, In it its -> it_open it = false -> it_content it = Records t rs -> Forall (fun x => List.length x = e_size t) rs) ->
  (forall it w bss, In it its -> it_open it = false -> it_content it = Buckets w bss -> 1 <= w <= 64) ->
  (forall path a, In (rsignature path a) its -> it_open (rsignature path a) = false) ->
  forall a path x, rfinished its path a x -> complete F path a x.
Proof.
  intros Hfiles Hno Hrec Hbuc Hsig. induction a as [name schema ms IH] using rarch_ind'. intros path x H.
  inversion H as [? ? ? ? l Hs Hm]; subst. constructor.
  - exists (framed []), []. pose proof (Hsig _ _ Hs) as Ho. split; [apply (Hfiles _ _ _ Hs Ho (or_introl eq_refl))|]. split; [apply framed_holds|].
    apply (Hfiles _ _ _ Hs Ho (or_intror (or_introl eq_refl))).
  - clear H Hs. induction Hm as [|m c ms l Hc Hcs IHm]; [constructor|]. inversion IH as [|? ? I1 I2]; subst. constructor; [|apply IHm; assumption].
    inversion Hc as [? r c' v Hit Hsh Hmax|? r Ho Hu Hi|? n o a y Hfin|? n nm sch sms Hu]; subst.
    + apply CompleteRes; [|exact Hmax].
      assert (S1 : rstored F (path ++ c_name r) (c_schema r) (framed (rpayload c')) (rpayload c')).
      { split; [apply (Hfiles _ _ _ Hit eq_refl (or_introl eq_refl))|]. split; [apply framed_holds|]. apply (Hfiles _ _ _ Hit eq_refl (or_intror (or_introl eq_refl))). }
      inversion Hsh as [d Ek|d Ek|t rs Hl Hn Ek|t rs Ek|w ts bss Ek]; subst; cbn [rshows rpayload payload] in *.
      * exists (framed d), d. split; [exact S1|]. rewrite skip_framed. unfold zlen. split; [lia|reflexivity].
      * exists (framed d), d. split; [exact S1|]. now rewrite skip_framed.
      * exists (framed (List.concat rs)), (List.concat rs), rs, (zeros 8). split; [exact S1|]. rewrite skip_framed.
        split; [split; [reflexivity|split; assumption]|reflexivity].
      * exists (framed (List.concat (stored_records t rs))), (List.concat (stored_records t rs)), (stored_records t rs), (zeros 8). split; [exact S1|].
        rewrite skip_framed. split; [|reflexivity]. split; [reflexivity|]. pose proof (Hrec _ t rs Hit eq_refl eq_refl) as Hl.
        destruct rs as [|r' rs]; cbn [stored_records]; [|split; [exact Hl|discriminate]].
        destruct (e_overlap t); [|split; [constructor|discriminate]]. split; [constructor; [apply zeros_len|constructor]|discriminate].
      * pose proof (Hbuc _ w bss Hit eq_refl eq_refl) as Hw.
        exists (framed (List.concat (map bucket bss))), (List.concat (map bucket bss)), (framed (index_payload w bss)), (index_payload w bss).
        exists (map (to_le (index_bytes w)) (bucket_points 0 (map zlen (map bucket bss)))), (zeros 8). rewrite !skip_framed. split; [exact S1|].
        split; [|split; [|reflexivity]].
        -- split; [apply (Hfiles _ _ _ Hit eq_refl (or_intror (or_intror (or_introl eq_refl))))|]. split; [apply framed_holds|].
           apply (Hfiles _ _ _ Hit eq_refl (or_intror (or_intror (or_intror (or_introl eq_refl))))).
        -- split; [reflexivity|]. split; [|intros _; destruct bss; discriminate].
           apply Forall_forall. intros z Hz. apply in_map_iff in Hz as (y & <- & _). now rewrite to_le_length.
    + apply CompleteNone; [exact Ho|]. split; [apply Hno; exact Hu|]. destruct (c_kind r); try exact I. apply Hno. exact Hi.
    + apply CompleteSub. apply I1. exact Hfin.
    + apply CompleteNoSub. rewrite <- sub_path. apply Hno. exact Hu.
Qed.

Lemma item_file its it : In it its -> ~ untouched its (it_file it).
Proof. intros Hin H. apply (H it Hin). unfold item_names, item_files. cbn. auto. Qed.
Lemma started_file limit bs its s it : rinvariant limit bs its s -> In it its -> file_of (rs_store s) (it_file it) <> None.
Proof.
  intros I Hit Hn. pose proof (ri_items _ _ _ _ I) as Hh. rewrite Forall_forall in Hh. specialize (Hh _ Hit). unfold rholding in Hh.
  destruct (it_open it).
  - destruct Hh as (_ & _ & _ & Hc). destruct (it_content it) as [d|t rs|w bss]; [destruct Hc| |].
    + destruct Hc as (_ & _ & v & _ & (fl & pe & _ & _ & _ & _ & _ & Hha) & _). apply handle_file in Hha. congruence.
    + destruct Hc as (_ & _ & _ & m & _ & (fl & _ & _ & Hha & _) & _). apply handle_file in Hha. congruence.
  - destruct Hh as (Hf & _). specialize (Hf _ _ (or_introl eq_refl)). congruence.
Qed.
(** A resource that was not closed is not readable. *)
Lemma open_unreadable limit bs its s file sch c schema f data : 16 <= limit -> rinvariant limit bs its s -> sane (rs_store s) ->
  In (Item file sch c true) its -> ~ rstored (file_of (rs_store s)) file schema f data.
Proof.
  intros Hlim I Hsane Hit (F & (pad & Lp & Ef) & _).
  pose proof (ri_items _ _ _ _ I) as Hh. rewrite Forall_forall in Hh. specialize (Hh _ Hit). unfold rholding in Hh. cbn [it_open it_content it_file] in Hh.
  destruct Hh as (_ & _ & _ & Hc).
  assert (Hcon : forall fl : list Z, zlen fl = 0 \/ limit - 8 < zlen fl -> f = (to_le 8 0 ++ fl)%list -> False).
  { intros fl Hb E. rewrite Ef in E. pose proof (f_equal zlen E) as El. rewrite !zlen_app, !zlen_to_le in El.
    assert (Hz : zlen pad = 8) by (unfold zlen; lia). pose proof (zlen_nonneg data).
    assert (E8 : le (firstn 8 (to_le 8 (zlen data) ++ data ++ pad)) = le (firstn 8 (to_le 8 0 ++ fl))) by (rewrite E; reflexivity).
    assert (L8 : forall x, List.length (to_le 8 x) = 8%nat) by (intro x; apply to_le_length).
    rewrite !firstn_app in E8. rewrite !L8 in E8. rewrite Nat.sub_diag, !firstn_O, !app_nil_r in E8.
    rewrite !firstn_all2 in E8 by (rewrite L8; lia).
    rewrite !le_to_le in E8. change (2 ^ (8 * Z.of_nat 8)) with (2 ^ 64) in E8. rewrite (Z.mod_small 0) in E8 by lia.
    destruct (Hsane _ _ F) as [_ Hlt]. rewrite Ef, !zlen_app, zlen_to_le in Hlt. rewrite Z.mod_small in E8 by lia. lia. }
  destruct c as [d|t rs|w bss]; [destruct Hc| |].
  - destruct Hc as (_ & _ & v & _ & (fl & pe & _ & _ & _ & _ & _ & Hha) & Hg & _). pose proof (handle_file _ _ _ _ _ Hha) as F'. destruct Hha as [Hz _].
    apply (Hcon (List.concat fl)); [unfold big in Hg; lia|congruence].
  - destruct Hc as (_ & _ & _ & m & _ & (fl & _ & _ & Hha & _) & Hg & _). pose proof (handle_file _ _ _ _ _ Hha) as F'. destruct Hha as [Hz _].
    apply (Hcon fl); [unfold big in Hg; lia|congruence].
Qed.

(** Any interleaving of setting resources, growing vectors and multivectors, adding elements, opening sub-archives and closing
    succeeds, on both storages; the finished resources are in the files of the format with exactly the contents given to them, and
    there are no other files than those of resources that were started. *)
Theorem C83_files : forall checks limit p a ops bs its,
  p_null_empty p = false -> 16 <= limit -> rdoes_all limit ([("", a)], [rsignature "" a]) ops (bs, its) ->
  exists s0 s, rbegin p a empty_store = (s0, ROk tt) /\ rsteps checks limit p s0 ops = Some (s, ROk tt) /\
    (forall it n f, In it its -> it_open it = false -> In (n, f) (ritem_files it) -> file_of (rs_store s) n = Some f) /\
    (forall n, untouched its n -> file_of (rs_store s) n = None).
Proof.
  intros checks limit p a ops bs its Hp Hl Hd. assert (H8 : 8 <= limit) by lia.
  destruct (rbegin_invariant limit p a) as (s0 & E0 & I0).
  destruct (rsteps_invariant checks limit p ops _ _ s0 _ _ Hp H8 I0 Hd) as (s & E & I).
  exists s0, s. split; [exact E0|]. split; [exact E|]. split.
  - intros it n f Hit Ho Hin. pose proof (ri_items _ _ _ _ I) as Hh. rewrite Forall_forall in Hh. specialize (Hh _ Hit). unfold rholding in Hh.
    rewrite Ho in Hh. apply Hh. exact Hin.
  - intros n Hn. apply (ri_others _ _ _ _ I). intro Ha. apply all_in in Ha as (it & Hit & Hin). exact (Hn it Hit Hin).
Qed.

Lemma rsession_of checks limit p a ops bs its s0 s :
  p_null_empty p = false -> 16 <= limit -> rdoes_all limit ([("", a)], [rsignature "" a]) ops (bs, its) ->
  rbegin p a empty_store = (s0, ROk tt) -> rsteps checks limit p s0 ops = Some (s, ROk tt) -> rinvariant limit bs its s.
Proof.
  intros Hp Hl Hd E0 E. assert (H8 : 8 <= limit) by lia. destruct (rbegin_invariant limit p a) as (s0' & E0' & I0).
  assert (s0' = s0) by congruence. subst s0'. destruct (rsteps_invariant checks limit p ops _ _ s0 _ _ Hp H8 I0 Hd) as (s' & E' & I).
  assert (s' = s) by congruence. subst s'. exact I.
Qed.
Lemma rsession_complete limit bs its s : rinvariant limit bs its s -> forall a path x, rfinished its path a x -> complete (file_of (rs_store s)) path a x.
Proof.
  intros I. pose proof (ri_items _ _ _ _ I) as Hh. rewrite Forall_forall in Hh.
  assert (Hcl : forall it, In it its -> it_open it = false -> rholding limit s it) by auto. unfold rholding in Hcl.
  apply finished_complete.
  - intros it n f Hit Ho Hin. specialize (Hcl it Hit Ho). rewrite Ho in Hcl. apply Hcl. exact Hin.
  - intros n Hn. apply (ri_others _ _ _ _ I). intro Ha. apply all_in in Ha as (it & Hit & Hin). exact (Hn it Hit Hin).
  - intros it t rs Hit Ho Ec. specialize (Hcl it Hit Ho). rewrite Ho, Ec in Hcl. apply Hcl.
  - intros it w bss Hit Ho Ec. specialize (Hcl it Hit Ho). rewrite Ho, Ec in Hcl. apply Hcl.
  - intros path [? ? ?] _. reflexivity.
Qed.

(** If everything mandatory was written and closed, and nothing was left unfinished, the archive opens, through the same storage or a
    new one on the same files, and has exactly the contents that were given. *)
Theorem C83_complete : forall checks limit p a ops bs its s0 s x,
  p_null_empty p = false -> 16 <= limit -> rsane a -> rdoes_all limit ([("", a)], [rsignature "" a]) ops (bs, its) -> Forall rstorable its ->
  rbegin p a empty_store = (s0, ROk tt) -> rsteps checks limit p s0 ops = Some (s, ROk tt) -> rfinished its "" a x ->
  forall st, st = rs_store s \/ st = forget (rs_store s) -> snd (ropen checks p a st "") = ROk x.
Proof.
  intros checks limit p a ops bs its s0 s x Hp Hl Ha Hd Hst E0 E Hfin st Hs.
  pose proof (rsession_of _ _ _ _ _ _ _ _ _ Hp Hl Hd E0 E) as I. pose proof (rsession_sane _ _ _ _ I Hst) as Hsane.
  pose proof (rsession_complete _ _ _ _ I a "" x Hfin) as Hc.
  apply C82_ok; try assumption.
  - destruct Hs as [->| ->]; [apply I|exact (ri_sound _ _ _ _ I)].
  - destruct Hs as [->| ->]; [apply I|]. intros n d H. discriminate.
  - destruct Hs as [->| ->]; exact Hsane.
  - destruct Hs as [->| ->]; exact Hc.
Qed.

(** A builder that stops (at any call) with something mandatory not written or anything not closed leaves an archive that does not
    open. *)
Theorem C83_incomplete : forall checks limit p a ops bs its s0 s,
  p_null_empty p = false -> 16 <= limit -> rsane a -> rdoes_all limit ([("", a)], [rsignature "" a]) ops (bs, its) -> Forall rstorable its ->
  rbegin p a empty_store = (s0, ROk tt) -> rsteps checks limit p s0 ops = Some (s, ROk tt) -> broken its "" a ->
  forall x, snd (ropen checks p a (forget (rs_store s)) "") <> ROk x.
Proof.
  intros checks limit p a ops bs its s0 s Hp Hl Ha Hd Hst E0 E Hb x Ex.
  pose proof (rsession_of _ _ _ _ _ _ _ _ _ Hp Hl Hd E0 E) as I. pose proof (rsession_sane _ _ _ _ I Hst) as Hsane.
  assert (Hc : complete (file_of (rs_store s)) "" a x).
  { apply (C82_ok checks p a (forget (rs_store s)) "" x Hp (ri_sound _ _ _ _ I)); try assumption. intros n d H. discriminate. }
  clear Ex Hd Hst E0 E Ha. revert x Hc.
  assert (Hnone : forall n, untouched its n -> file_of (rs_store s) n = None).
  { intros n Hn. apply (ri_others _ _ _ _ I). intro Ha. apply all_in in Ha as (it & Hit & Hin). exact (Hn it Hit Hin). }
  assert (Hrs : forall name schema k v, rshows (file_of (rs_store s)) name schema k v -> exists f data, rstored (file_of (rs_store s)) name schema f data).
  { intros name schema k v H. destruct k; cbn [rshows] in H; [destruct H as (f & d & H & _)|destruct H as (f & d & rs & rest & H & _)|destruct H as (f & d & fi & di & rs & rest & H & _)|destruct H as (f & d & H & _)];
      exists f, d; exact H. }
  induction Hb as [path name schema ms r Hr Ho Hu|path name schema ms r sch c Hr Hit|path name schema ms n sname sschema sms Hn Hu|path name schema ms n o a Hn Hsig Hb IH];
    intros x Hc; inversion Hc as [? ? ? ? l _ Hm]; subst.
  - destruct (In_nth_error _ _ Hr) as [i Hi]. destruct (forall2_nth _ _ _ Hm i _ Hi) as (y & _ & Hy). inversion Hy; subst; [|congruence].
    match goal with V : rshows _ _ _ _ _ |- _ => destruct (Hrs _ _ _ _ V) as (f & d & F & _) end. rewrite (Hnone _ Hu) in F. discriminate.
  - destruct (In_nth_error _ _ Hr) as [i Hi]. destruct (forall2_nth _ _ _ Hm i _ Hi) as (y & _ & Hy). inversion Hy; subst.
    + match goal with V : rshows _ _ _ _ _ |- _ => destruct (Hrs _ _ _ _ V) as (f & d & St) end. exact (open_unreadable _ _ _ _ _ _ _ _ _ _ Hl I Hsane Hit St).
    + match goal with V : rabsent _ _ _ |- _ => exact (started_file _ _ _ _ _ I Hit (proj1 V)) end.
  - destruct (In_nth_error _ _ Hn) as [i Hi]. destruct (forall2_nth _ _ _ Hm i _ Hi) as (y & _ & Hy). inversion Hy; subst.
    match goal with V : complete _ _ _ _ |- _ => inversion V as [? ? ? ? ? (f & d & F & _) _]; subst end. rewrite (Hnone _ Hu) in F. discriminate.
  - destruct (In_nth_error _ _ Hn) as [i Hi]. destruct (forall2_nth _ _ _ Hm i _ Hi) as (y & _ & Hy). inversion Hy; subst.
    + eapply IH. eassumption.
    + match goal with V : file_of _ _ = None |- _ => rewrite <- sub_path in V; exact (started_file _ _ _ _ _ I Hsig V) end.
Qed.

(** A builder for an archive that exists is refused, and nothing is written; neither is anything by asking for the builder of a
    sub-archive a second time. *)
Theorem C83_existing : forall checks limit p a st,
  rust_exists st (it_file (rsignature "" a)) = true ->
  rbegin p a st = (RSession st [] [], RErr EIo) /\
  forall s path name b sub, dict_get (rs_builders s) path = Some b -> rfind_sub b name = Some sub ->
    rust_exists (rs_store s) (it_file (rsignature (path ++ name ++ "/") sub)) = true ->
    rstep checks limit p s (BSub path name) = Some (s, RErr EIo).
Proof.
  intros checks limit p [name schema ms] st Hex. cbn [rsignature it_file] in Hex. split.
  - unfold rbegin, rbuilder_new. rewrite Hex. reflexivity.
  - intros [st' bs ws] path n b sub Hb Hsub H. destruct sub as [sn ss sm]. cbn [rsignature it_file rs_store rs_builders] in *.
    cbn [rstep rs_builders rs_store rs_writers]. rewrite Hb. cbn [obind]. rewrite Hsub. cbn [obind]. unfold rbuilder_new. rewrite H. reflexivity.
Qed.

(** Two vectors, a sub-archive and raw data, with the calls interleaved *)
Definition rsub_example : rarch := RArch "S" [83] [RRes (CRes "i" [73] (KInst 1) false None)].
Definition rarchive_example : rarch :=
  RArch "A" [65] [RRes (CRes "v" [86] (KVec (EType 1 true)) false (Some 5)); RSub "s" false rsub_example;
                  RRes (CRes "m" [77] (KMulti 8 [1%nat]) false None); RRes (CRes "d" [68] KRaw true None); RSub "t" true rsub_example].
Definition rops_example : list bop :=
  [BStart "" "v"; BSub "" "s"; BStart "" "m"; BGrow "v" (byte_filler 7); BBucket "m"; BAdd "m" 0 1 (byte_filler 3); BSet "s/" "i" [5];
   BGrow "v" (byte_filler 9); BClose "m"].
Definition ritems_example (b : bool) : list item :=
  [rsignature "" rarchive_example; Item "v" [86] (Records (EType 1 true) [[7]; [9]]) b; rsignature "s/" rsub_example;
   Item "m" [77] (Buckets 8 [[(0, [3])]]) false; Item "s/i" [73] (Bytes [5]) false].
Definition ropened_example : rarchive :=
  ROpened [("v", Some (RCValue (RVVec (AView ([7; 9] ++ zeros 8) 1)))); ("s", Some (RCArchive (ROpened [("i", Some (RCValue (RVInst (5 :: zeros 8))))])));
           ("m", Some (RCValue (RVMulti (RMView (AView ([0; 2] ++ zeros 8) 1) (Desc ([0; 3] ++ zeros 8) 2))))); ("d", None); ("t", None)].

Lemma byte_sets b : 0 <= b < 256 -> sets 1 (byte_filler b) (zeros 1) [b].
Proof. intro H. split; [reflexivity|]. split; [reflexivity|]. split; [constructor; [exact H|constructor]|reflexivity]. Qed.
Definition untouched_b (its : list item) (n : string) : bool := forallb (fun it => negb (existsb (String.eqb n) (item_names it))) its.
Lemma untouched_ok its n : untouched_b its n = true -> untouched its n.
Proof.
  unfold untouched_b. rewrite forallb_forall. intros H it Hit Hin. specialize (H it Hit). apply negb_true_iff in H.
  assert (E : existsb (String.eqb n) (item_names it) = true); [|congruence]. apply existsb_exists. exists n. split; [exact Hin|apply String.eqb_refl].
Qed.
Lemma rsub_sane : rsane rsub_example.
Proof.
  constructor; [reflexivity| |].
  - intros r [E|[]]. injection E as <-. split; [reflexivity|exact I].
  - intros n o a [E|[]]. discriminate.
Qed.
Lemma rarchive_sane : rsane rarchive_example.
Proof.
  constructor; [reflexivity| |].
  - intros r [E|[E|[E|[E|[E|[]]]]]]; try discriminate; injection E as <-; split; try reflexivity; cbn; lia.
  - intros n o a [E|[E|[E|[E|[E|[]]]]]]; try discriminate; injection E as <- <- <-; exact rsub_sane.
Qed.
Example C83_instance :
  let run ops := match rsteps true block_limit rust_memory_storage (fst (rbegin rust_memory_storage rarchive_example empty_store)) ops with
                 | Some (s, ROk _) => Some (rs_store s) | _ => None end in
  let bs := [("", rarchive_example); ("s/", rsub_example)] in
  rsane rarchive_example /\
  rdoes_all block_limit ([("", rarchive_example)], [rsignature "" rarchive_example]) rops_example (bs, ritems_example true) /\
  rdoes_all block_limit ([("", rarchive_example)], [rsignature "" rarchive_example]) (rops_example ++ [BClose "v"]) (bs, ritems_example false) /\
  Forall rstorable (ritems_example true) /\ Forall rstorable (ritems_example false) /\
  rfinished (ritems_example false) "" rarchive_example ropened_example /\ broken (ritems_example true) "" rarchive_example /\
  (exists st, run (rops_example ++ [BClose "v"])%list = Some st /\ snd (ropen true rust_memory_storage rarchive_example (forget st) "") = ROk ropened_example /\
              file_of st "v" = Some (framed [7; 9])) /\
  (exists st, run rops_example = Some st /\ snd (ropen true rust_memory_storage rarchive_example (forget st) "") = RErr ESize).
Proof.
  cbv zeta.
  assert (Hops : forall ops z, rdoes_all block_limit ([("", rarchive_example); ("s/", rsub_example)], ritems_example true) ops z ->
            rdoes_all block_limit ([("", rarchive_example)], [rsignature "" rarchive_example]) (rops_example ++ ops) z).
  { intros ops z Hz. unfold rops_example. cbn [app].
    eapply RDoCons. { eapply RDStartVector; try reflexivity; [cbn; lia|intros _; vm_compute; discriminate|]. apply fresh_ok. vm_compute. reflexivity. }
    eapply RDoCons. { eapply RDSub; try reflexivity. apply fresh_ok. vm_compute. reflexivity. }
    eapply RDoCons. { eapply RDStartMulti; try reflexivity; [lia|]. apply fresh_ok. vm_compute. reflexivity. }
    eapply RDoCons. { apply (RDGrowVector _ _ [rsignature "" rarchive_example] _ "v"). apply byte_sets. lia. }
    eapply RDoCons. { eapply (RDBucket _ _ [rsignature "" rarchive_example; _; _] _ "m"). vm_compute. reflexivity. }
    eapply RDoCons. { apply (RDAdd _ _ [rsignature "" rarchive_example; _; _] _ "m" _ _ [] _ _ _ _ (0, [3])). split; [reflexivity|]. split; [lia|]. apply byte_sets. lia. }
    eapply RDoCons. { eapply RDSetRes; try reflexivity; [constructor; [unfold is_byte; lia|constructor]|].
      apply fresh_ok. vm_compute. reflexivity. }
    eapply RDoCons. { apply (RDGrowVector _ _ [rsignature "" rarchive_example] _ "v" _ _ _ _ [9]). apply byte_sets. lia. }
    eapply RDoCons. { apply (RDClose _ _ [rsignature "" rarchive_example; _; _] _ "m"); [reflexivity|]. intros w bss E. injection E as <- <-. split; reflexivity. }
    exact Hz. }
  assert (Hst : forall b, Forall rstorable (ritems_example b)).
  { assert (By : forall b, 0 <= b < 256 -> is_bytes [b]) by (intros b Hb; constructor; [exact Hb|constructor]).
    intros b. repeat constructor; cbn [it_schema it_content rsignature rarchive_example rsub_example]; try (apply By; lia); try reflexivity; try (intros; discriminate); try lia.
    intros w bss E. injection E as <- <-. reflexivity. }
  split; [exact rarchive_sane|]. split; [|split; [|split; [|split; [|split; [|split; [|split]]]]]].
  - rewrite <- (app_nil_r rops_example). apply Hops. apply RDoNil.
  - apply Hops. eapply RDoCons; [|apply RDoNil]. apply (RDClose _ _ [rsignature "" rarchive_example] _ "v"); [reflexivity|]. intros; discriminate.
  - apply Hst.
  - apply Hst.
  - constructor; [left; reflexivity|]. repeat apply Forall2_cons; [| | | | |constructor].
    + apply (RFinishedRes _ "" (CRes "v" [86] (KVec (EType 1 true)) false (Some 5)) (Records (EType 1 true) [[7]; [9]])).
      * right; left; reflexivity.
      * apply (ShownVec (EType 1 true) [[7]; [9]]).
      * intros m E. assert (m = 5) as -> by (cbn in E; congruence). cbn. lia.
    + apply (RFinishedSub _ "" "s" false rsub_example). constructor; [right; right; left; reflexivity|]. repeat constructor.
      apply (RFinishedRes _ "s/" (CRes "i" [73] (KInst 1) false None) (Bytes [5])).
      * right; right; right; right; left; reflexivity.
      * apply (ShownInst [5]).
      * intros m E. discriminate.
    + apply (RFinishedRes _ "" (CRes "m" [77] (KMulti 8 [1%nat]) false None) (Buckets 8 [[(0, [3])]])).
      * right; right; right; left; reflexivity.
      * apply (ShownMulti 8 [1%nat] [[(0, [3])]]).
      * intros m E. discriminate.
    + apply (RFinishedNone _ "" (CRes "d" [68] KRaw true None)); [reflexivity| |exact I]. apply untouched_ok. vm_compute. reflexivity.
    + apply (RFinishedNoSub _ "" "t" "S" [83]). apply untouched_ok. vm_compute. reflexivity.
  - eapply BrokenOpen; [left; reflexivity|]. right; left; reflexivity.
  - eexists. split; [vm_compute; reflexivity|]. split; vm_compute; reflexivity.
  - eexists. split; [vm_compute; reflexivity|]. vm_compute. reflexivity.
Qed.
