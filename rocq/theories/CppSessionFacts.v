(** Building archives in C++. *)
From Coq Require Import List ZArith Bool Lia String.
From Coq Require Import ZifyBool ZifyNat.
From Verif Require Import PyBase Spec DataAccess Structure StructSpec BitFacts DataAccessFacts DataAccessThms StructFacts
  SliceFacts Resources Builder Archive ArchiveSpec ResourceFacts BuilderFacts ArchiveFacts Codecs CodecSpec CodecFacts CodecThms
  Streams StoreSpec StoreFacts CppStore CppFacts CppViews CppMulti CppArchive CppArchiveSpec CppArchiveFacts CppSessionSpec.
Import ListNotations.
Local Open Scope string_scope.
Local Open Scope Z_scope.

(** ** What is remembered stays what is in the files *)
Lemma writes_coherent p l st st' : writes l st st' -> Forall (unread st) l -> coherent p st -> coherent p st'.
Proof.
  intros (Hs & Hb & Hr & _) Hu Hc n d Hd. rewrite Hr in Hd. destruct (Hc n d Hd) as [Hf Hz]. split; [|exact Hz].
  rewrite Hb; [exact Hf|]. intro Hin. rewrite Forall_forall in Hu. specialize (Hu n Hin). unfold unread in Hu. congruence.
Qed.
Lemma writes_unread l st st' n : writes l st st' -> unread st n -> unread st' n.
Proof. intros (_ & _ & Hr & _) Hu. unfold unread. rewrite Hr. exact Hu. Qed.

Lemma handle_close_coherent p st h name schema payload : sound st -> coherent p st -> unread st name ->
  handle_at st h name schema payload -> zlen payload < 2 ^ 64 -> coherent p (fst (handle_close p st h)).
Proof.
  intros Hs Hc Hu (Hz & Hn & Hsch & Hh) Hlt. unfold handle_close. rewrite Hn, Hsch, Hz.
  destruct (write_writes st name (h_stream h) _ (zeros PADDING_SIZE) Hs Hh) as [W1 H1].
  assert (S1 : sound (write_stream st (h_stream h) (zeros PADDING_SIZE))) by apply W1.
  pose proof (zlen_nonneg payload) as Hnn.
  destruct (rewrite_start _ name (h_stream h) _ (cpp_size_bytes (zlen payload)) S1 H1) as [W2 H2].
  { rewrite size_bytes by lia. pose proof (zlen_to_le 8 (zlen payload)) as L. unfold zlen in L at 1. rewrite !app_length.
    pose proof (zlen_to_le 8 0) as L0. unfold zlen in L0. lia. }
  pose proof (writes_trans _ _ _ _ W1 W2) as W.
  apply cpp_read_coherent; [apply W|]. apply (writes_coherent p _ _ _ W); [|exact Hc]. constructor; [exact Hu|constructor].
Qed.

Lemma ev_close_coherent p t st v name schema payload n : sound st -> coherent p st -> unread st name ->
  ev_at st v name schema payload n -> zlen payload < 2 ^ 64 -> coherent p (fst (ev_close p t st v)).
Proof.
  intros Hs Hc Hu Hv Hlt. destruct (ev_flush_facts st v name schema payload n Hs Hv) as (W & _ & _ & Hh).
  unfold ev_close. destruct (ev_flush st v) as [st1 v1] eqn:E. cbn [fst snd] in *.
  assert (C1 : coherent p (fst (handle_close p st1 (ev_handle v1)))).
  { apply (handle_close_coherent p st1 _ name schema payload); [apply W| |exact (writes_unread _ _ _ _ W Hu)|exact Hh|exact Hlt].
    apply (writes_coherent p _ _ _ W); [|exact Hc]. constructor; [exact Hu|constructor]. }
  destruct (handle_close p st1 (ev_handle v1)) as [st2 d]. exact C1.
Qed.

Lemma mv_close_coherent limit p w st m name schema payload points st' r :
  sound st -> coherent p st -> 1 <= w <= 64 -> mv_at st m w name schema payload points -> zlen payload < 2 ^ w ->
  unread st name -> unread st (index_name name) ->
  zlen payload < 2 ^ 64 -> (zlen points + 1) * Z.of_nat (index_bytes w) < 2 ^ 64 ->
  mv_close limit p w st m = Some (st', r) -> coherent p st'.
Proof.
  intros Hs Hc Hw Hm Hl U1 U3 H64 H64i. destruct (names_distinct name) as (D1 & D2 & D3 & D4 & D5 & D6).
  unfold mv_close.
  destruct (add_to_index_facts limit st m w name schema payload points Hs Hw Hm Hl) as (st1 & m1 & E1 & W1 & H1 & _). rewrite E1. cbn [obind fst snd].
  destruct (mv_flush_facts st1 m1 w name schema payload _ (proj1 W1) H1) as (W2 & H2 & G2). destruct (mv_flush st1 m1) as [st2 m2]. cbn [fst snd] in *.
  assert (W12 : writes [name; index_name name] st st2).
  { apply writes_trans with st1; (eapply writes_incl; [|eassumption]); intros x Hx; cbn in *; tauto. }
  assert (C2 : coherent p st2).
  { apply (writes_coherent p _ _ _ W12); [|exact Hc]. repeat (constructor; [assumption|]). constructor. }
  assert (T : touches [name; schema_file name] st2 (fst (handle_close p st2 (mv_handle m2))) ).
  { destruct G2 as (Hz & Hn & Hsch & Hh). unfold handle_close. rewrite Hn, Hsch, Hz.
    destruct (write_writes st2 name _ _ (zeros PADDING_SIZE) (proj1 W12) Hh) as [V1 G1].
    pose proof (zlen_nonneg payload).
    destruct (rewrite_start _ name _ _ (cpp_size_bytes (zlen payload)) (proj1 V1) G1) as [V2 _].
    { rewrite size_bytes by lia. pose proof (zlen_to_le 8 (zlen payload)) as L. unfold zlen in L at 1. rewrite !app_length.
      pose proof (zlen_to_le 8 0) as L0. unfold zlen in L0. lia. }
    pose proof (writes_trans _ _ _ _ V1 V2) as V.
    destruct (cpp_read_touches p _ name schema (proj1 V)) as [T _].
    eapply touches_trans; [|exact T]. apply writes_touches. eapply writes_incl; [|exact V]. intros x Hx; cbn in *; tauto. }
  pose proof (handle_close_coherent p st2 (mv_handle m2) name schema payload (proj1 W12) C2 (writes_unread _ _ _ _ W12 U1) G2 H64) as C3.
  destruct (handle_close p st2 (mv_handle m2)) as [st3 d]. cbn [fst snd] in *.
  destruct H2 as (fl & pe & _ & _ & _ & _ & I2). destruct T as (S3 & B3 & R3 & K3).
  assert (Ni : ~ In (index_name name) [name; schema_file name]) by (cbn; intuition congruence).
  pose proof (ev_close_coherent p (index_type w) st3 (mv_ev m2) (index_name name) (index_schema schema) (List.concat (map (to_le (index_bytes w)) (points ++ [zlen payload]))) (zlen (points ++ [zlen payload])) S3 C3) as C4.
  assert (U3' : unread st3 (index_name name)).
  { unfold unread. rewrite R3 by exact Ni. exact (writes_unread _ _ _ _ W12 U3). }
  specialize (C4 U3' (ev_frame _ _ _ _ _ _ _ I2 (fun j s => K3 (index_name name) j s Ni))).
  rewrite points_zlen, zlen_app in C4. unfold zlen in C4 at 2. cbn [List.length] in C4. specialize (C4 H64i).
  destruct (ev_close p (index_type w) st3 (mv_ev m2)) as [st4 v]. cbn [fst] in C4. intro E.
  assert (E' : st' = st4) by congruence. subst st'. exact C4.
Qed.

(** ** Nothing is flushed, or more than a block *)
Definition big (limit n : Z) : Prop := n = 0 \/ limit - 8 < n.
Lemma flush_big limit n (d : list Z) : big limit n -> limit < zlen d -> 8 <= limit -> big limit (n + zlen (firstn (List.length d - PADDING_SIZE) d)).
Proof.
  intros Hb Hl H8. unfold big in *. right. unfold zlen in *. rewrite firstn_length_le by lia. unfold PADDING_SIZE. lia.
Qed.
Lemma ev_grow_big limit t st v f st' v' : 8 <= limit -> big limit (h_size (ev_handle v)) -> ev_grow limit t st v f = Some (st', v') ->
  big limit (h_size (ev_handle v')).
Proof.
  intros H8 Hb. unfold ev_grow. destruct (limit <? zlen (ev_data v)) eqn:El.
  - destruct (ev_flush st v) as [s1 v1] eqn:Ef. destruct (fill_at _ _ _); cbn [obind]; intro E; [|discriminate].
    assert (E' : v' = EVector l (ev_handle v1) (ev_size v1 + 1)) by congruence. subst v'. cbn [ev_handle].
    unfold ev_flush, handle_write in Ef. assert (Ev : ev_handle v1 = Handle (h_stream (ev_handle v)) (h_size (ev_handle v) + zlen (firstn (List.length (ev_data v) - PADDING_SIZE) (ev_data v))) (h_name (ev_handle v)) (h_schema (ev_handle v))) by (inversion Ef; reflexivity).
    rewrite Ev. cbn [h_size]. apply flush_big; [assumption|lia|assumption].
  - destruct (fill_at _ _ _); cbn [obind]; intro E; [|discriminate].
    assert (E' : v' = EVector l (ev_handle v) (ev_size v + 1)) by congruence. subst v'. exact Hb.
Qed.
Lemma mv_grow_big limit w st m st' m' : 8 <= limit -> big limit (h_size (mv_handle m)) -> mv_grow limit w st m = Some (st', m') ->
  big limit (h_size (mv_handle m')).
Proof.
  intros H8 Hb. unfold mv_grow. destruct (limit <? zlen (mv_data m)) eqn:El.
  - destruct (mv_flush st m) as [s1 m1] eqn:Ef. unfold mv_add_to_index. destruct (ev_grow _ _ _ _ _) as [[s2 v2]|]; cbn [obind fst snd]; intro E; [|discriminate].
    assert (E' : m' = MVector (mv_data m1) v2 (mv_handle m1) (mv_flushed m1)) by congruence. subst m'. cbn [mv_handle].
    unfold mv_flush, handle_write in Ef. assert (Em : mv_handle m1 = Handle (h_stream (mv_handle m)) (h_size (mv_handle m) + zlen (firstn (List.length (mv_data m) - PADDING_SIZE) (mv_data m))) (h_name (mv_handle m)) (h_schema (mv_handle m))) by (inversion Ef; reflexivity).
    rewrite Em. cbn [h_size]. apply flush_big; [assumption|lia|assumption].
  - unfold mv_add_to_index. destruct (ev_grow _ _ _ _ _) as [[s2 v2]|]; cbn [obind fst snd]; intro E; [|discriminate].
    assert (E' : m' = MVector (mv_data m) v2 (mv_handle m) (mv_flushed m)) by congruence. subst m'. exact Hb.
Qed.
Lemma mv_add_handle m ti size f m' : mv_add m ti size f = Some m' -> mv_handle m' = mv_handle m.
Proof.
  unfold mv_add. destruct (fill_at _ _ _); cbn [obind]; [|discriminate]. destruct (fill_at _ _ _); cbn [obind]; [|discriminate].
  intro E. assert (E' : m' = MVector l0 (mv_ev m) (mv_handle m) (mv_flushed m)) by congruence. subst m'. reflexivity.
Qed.

(** ** The invariant *)
Definition holding (limit : Z) (p : policy) (s : session) (it : item) : Prop :=
  let st := se_store s in
  if it_open it then
    Forall (unread st) (item_names it) /\ it_schema it <> [] /\ file_of st (schema_file (it_file it)) = Some (it_schema it) /\
    is_bytes (payload (it_content it)) /\
    match it_content it with
    | Bytes _ => False
    | Records t rs => exists v, dict_get (se_writers s) (it_file it) = Some (WVec t v) /\
        ev_at st v (it_file it) (it_schema it) (List.concat rs) (zlen rs) /\ big limit (h_size (ev_handle v))
    | Buckets w bss => 1 <= w <= 64 /\ file_of st (schema_file (index_name (it_file it))) = Some (index_schema (it_schema it)) /\
        exists m, dict_get (se_writers s) (it_file it) = Some (WMulti w m) /\
        mv_at st m w (it_file it) (it_schema it) (payload (it_content it)) (starts 0 (map bucket bss)) /\ big limit (h_size (mv_handle m))
    end
  else (forall n f, In (n, f) (item_files it) -> file_of st n = Some f) /\ is_bytes (payload (it_content it)) /\
       zlen (payload (it_content it)) + 16 < 2 ^ 64 /\
       forall w bss, it_content it = Buckets w bss -> 1 <= w <= 64 /\ zlen (index_payload w bss) + 16 < 2 ^ 64.
Definition all_names (its : list item) : list string := List.concat (map item_names its).
Record invariant (limit : Z) (p : policy) (bs : list (string * carch)) (its : list item) (s : session) : Prop := {
  i_sound : sound (se_store s);
  i_coherent : coherent p (se_store s);
  i_builders : se_builders s = map (fun b => (fst b, (snd b, true))) bs;
  i_dirs : bs <> [] /\ se_dirs s = tl (map fst bs);
  i_others : forall n, ~ In n (all_names its) -> file_of (se_store s) n = None /\ unread (se_store s) n;
  i_apart : NoDup (all_names its);
  i_items : Forall (holding limit p s) its
}.

Lemma mv_frame st st' m w name schema pl points : mv_at st m w name schema pl points ->
  (forall n j s, In n [name; index_name name] -> holds_stream st n j s -> holds_stream st' n j s) -> mv_at st' m w name schema pl points.
Proof.
  intros (fl & pe & A & B & C & D & E) H. exists fl, pe. split; [exact A|]. split; [exact B|]. split; [exact C|]. split.
  - eapply handle_frame; [exact D|]. intros j s. apply H. cbn. auto.
  - eapply ev_frame; [exact E|]. intros j s. apply H. cbn. auto.
Qed.

Lemma in_all its it n : In it its -> In n (item_names it) -> In n (all_names its).
Proof. intros H1 H2. unfold all_names. apply in_concat. exists (item_names it). split; [apply in_map; exact H1|exact H2]. Qed.
Lemma all_in its n : In n (all_names its) -> exists it, In it its /\ In n (item_names it).
Proof. intro H. unfold all_names in H. apply in_concat in H as (l & Hl & Hn). apply in_map_iff in Hl as (it & <- & Hi). exists it. auto. Qed.
Lemma all_app a b : all_names (a ++ b) = (all_names a ++ all_names b)%list.
Proof. unfold all_names. now rewrite map_app, concat_app. Qed.

(** The others are not affected by what only touches the names [l]. *)
Lemma holding_frame limit p s s' l it :
  touches l (se_store s) (se_store s') -> (forall n, In n (item_names it) -> ~ In n l) ->
  dict_get (se_writers s') (it_file it) = dict_get (se_writers s) (it_file it) -> holding limit p s it -> holding limit p s' it.
Proof.
  intros (_ & Hb & Hr & Hk) Hl Hw. unfold holding. destruct (it_open it).
  - intros (U & Hne & Fs & Hby & Hc). split; [|split; [exact Hne|split; [|split; [exact Hby|]]]].
    + rewrite Forall_forall in *. intros n Hn. unfold unread. rewrite Hr by auto. apply U. exact Hn.
    + rewrite Hb; [exact Fs|]. apply Hl. unfold item_names, item_files. cbn. auto.
    + destruct (it_content it) as [d|t rs|w bss] eqn:Ec; [exact Hc| |].
      * destruct Hc as (v & Hv & He & Hg). exists v. split; [congruence|]. split; [|exact Hg].
        eapply ev_frame; [exact He|]. intros j x. apply Hk. apply Hl. unfold item_names, item_files. cbn. auto.
      * destruct Hc as (Hw64 & Fi & m & Hm & He & Hg). split; [exact Hw64|]. split.
        -- rewrite Hb; [exact Fi|]. apply Hl. unfold item_names, item_files. rewrite Ec. cbn. auto.
        -- exists m. split; [congruence|]. split; [|exact Hg]. eapply mv_frame; [exact He|]. intros n j x Hn. apply Hk. apply Hl.
           unfold item_names, item_files. rewrite Ec. cbn in *. intuition.
  - intros (Hf & Hrest). split; [|exact Hrest]. intros n f Hin. rewrite Hb; [apply Hf; exact Hin|]. apply Hl. unfold item_names.
    change n with (fst (n, f)). apply in_map. exact Hin.
Qed.

Lemma nodup_disjoint {A} (a b : list A) n : NoDup (a ++ b) -> In n a -> In n b -> False.
Proof.
  induction a as [|x a IH]; cbn [app]; intros H Ha Hb; [destruct Ha|]. inversion H; subst. destruct Ha as [->|Ha]; [|auto].
  apply H2. apply in_or_app. auto.
Qed.
Lemma nodup_right {A} (a b : list A) : NoDup (a ++ b) -> NoDup b.
Proof. induction a as [|x a IH]; cbn [app]; intro H; [exact H|]. inversion H; auto. Qed.
(** A changed or new item, all other items as before *)
Lemma split_fresh its1 it its2 : NoDup (all_names (its1 ++ it :: its2)) ->
  forall o n, In o (its1 ++ its2) -> In n (item_names it) -> ~ In n (item_names o).
Proof.
  intros Hd o n Ho Hn Hno. rewrite all_app in Hd. change (it :: its2) with ([it] ++ its2)%list in Hd. rewrite all_app in Hd.
  assert (N1 : all_names [it] = item_names it) by (unfold all_names; cbn [map List.concat]; apply app_nil_r). rewrite N1 in Hd.
  apply in_app_or in Ho as [Ho|Ho]; apply (in_all _ _ n) in Ho; try exact Hno.
  - exact (nodup_disjoint _ _ n Hd Ho (in_or_app _ _ _ (or_introl Hn))).
  - apply nodup_right in Hd. exact (nodup_disjoint _ _ n Hd Hn Ho).
Qed.

Lemma invariant_change limit p bs bs' its1 it it' its2 s s' :
  invariant limit p bs (its1 ++ it :: its2) s -> item_names it' = item_names it ->
  touches (item_names it) (se_store s) (se_store s') -> coherent p (se_store s') ->
  se_builders s' = map (fun b => (fst b, (snd b, true))) bs' -> (bs' <> [] /\ se_dirs s' = tl (map fst bs')) ->
  (forall n, n <> it_file it -> dict_get (se_writers s') n = dict_get (se_writers s) n) ->
  holding limit p s' it' -> invariant limit p bs' (its1 ++ it' :: its2) s'.
Proof.
  intros [I1 I2 I3 I4 I5 I6 I7] Hn Ht Hc Hb Hd Hw Hh.
  assert (Na : all_names (its1 ++ it' :: its2) = all_names (its1 ++ it :: its2)) by (unfold all_names; rewrite !map_app; cbn [map]; now rewrite Hn).
  assert (Hin : In (it_file it) (item_names it)) by (unfold item_names, item_files; cbn; auto).
  constructor; try assumption.
  - apply Ht.
  - intros n Hnn. rewrite Na in Hnn. destruct Ht as (_ & Hbut & Hr & _).
    assert (Hno : ~ In n (item_names it)) by (intro H; apply Hnn; apply (in_all _ it); [apply in_or_app; right; left; reflexivity|exact H]).
    destruct (I5 n Hnn) as [F U]. split; [rewrite Hbut by exact Hno; exact F|]. unfold unread. rewrite Hr by exact Hno. exact U.
  - rewrite Na. exact I6.
  - pose proof (split_fresh _ _ _ I6) as Hfr. apply Forall_app in I7 as [G1 G2]. inversion G2 as [|? ? G3 G4]; subst.
    assert (Hone : forall o, In o (its1 ++ its2) -> holding limit p s o -> holding limit p s' o).
    { intros o Ho Hold. apply (holding_frame limit p s s' (item_names it)); [exact Ht| | |exact Hold].
      - intros n Hn1 Hn2. exact (Hfr o n Ho Hn2 Hn1).
      - apply Hw. intro E. apply (Hfr o (it_file it) Ho Hin). rewrite <- E. unfold item_names, item_files. cbn. auto. }
    apply Forall_app. split; [|constructor; [exact Hh|]].
    + rewrite Forall_forall in *. intros o Ho. apply Hone; [apply in_or_app; auto|apply G1; exact Ho].
    + rewrite Forall_forall in *. intros o Ho. apply Hone; [apply in_or_app; auto|apply G4; exact Ho].
Qed.

Lemma names_nodup it : NoDup (item_names it).
Proof.
  destruct (names_distinct (it_file it)) as (D1 & D2 & D3 & D4 & D5 & D6). unfold item_names, item_files.
  assert (N : forall l : list (string * list Z), NoDup (map fst l) -> ~ In (it_file it) (map fst l) -> ~ In (schema_file (it_file it)) (map fst l) ->
    NoDup (map fst ((it_file it, framed (payload (it_content it))) :: (schema_file (it_file it), it_schema it) :: l))).
  { intros l Hl H1 H2. cbn [map fst]. constructor; [cbn; intuition congruence|]. constructor; assumption. }
  apply N; destruct (it_content it); cbn; try tauto; try (constructor; fail).
  - constructor; [cbn; intuition congruence|]. constructor; [tauto|constructor].
  - intuition congruence.
  - intuition congruence.
Qed.

Lemma invariant_new limit p bs bs' its it s s' :
  invariant limit p bs its s -> fresh its it ->
  touches (item_names it) (se_store s) (se_store s') -> coherent p (se_store s') ->
  se_builders s' = map (fun b => (fst b, (snd b, true))) bs' -> (bs' <> [] /\ se_dirs s' = tl (map fst bs')) ->
  (forall n, n <> it_file it -> dict_get (se_writers s') n = dict_get (se_writers s) n) ->
  holding limit p s' it -> invariant limit p bs' (its ++ [it]) s'.
Proof.
  intros [I1 I2 I3 I4 I5 I6 I7] Hfr Ht Hc Hb Hd Hw Hh.
  assert (N1 : all_names [it] = item_names it) by (unfold all_names; cbn [map List.concat]; apply app_nil_r).
  assert (Hin : In (it_file it) (item_names it)) by (unfold item_names, item_files; cbn; auto).
  constructor; try assumption.
  - apply Ht.
  - intros n Hnn. rewrite all_app, N1 in Hnn. destruct Ht as (_ & Hbut & Hr & _).
    assert (Hno : ~ In n (item_names it)) by (intro H; apply Hnn; apply in_or_app; auto).
    assert (Hna : ~ In n (all_names its)) by (intro H; apply Hnn; apply in_or_app; auto).
    destruct (I5 n Hna) as [F U]. split; [rewrite Hbut by exact Hno; exact F|]. unfold unread. rewrite Hr by exact Hno. exact U.
  - rewrite all_app, N1. pose proof (names_nodup it) as Hnd. clear -I6 Hfr Hnd.
    assert (Hdis : forall n, In n (all_names its) -> ~ In n (item_names it)).
    { intros n Hn Hn2. apply all_in in Hn as (o & Ho & Hno). exact (Hfr o n Ho Hn2 Hno). }
    revert I6 Hdis. generalize (all_names its) as l. induction l as [|x l IH]; intros H1 H2; cbn; [exact Hnd|].
    inversion H1; subst. constructor; [|apply IH; [assumption|intros n Hn; apply H2; right; exact Hn]].
    intro H. apply in_app_or in H as [H|H]; [contradiction|]. apply (H2 x); [left; reflexivity|exact H].
  - apply Forall_app. split; [|constructor; [exact Hh|constructor]]. rewrite Forall_forall in *. intros o Ho.
    apply (holding_frame limit p s s' (item_names it)); [exact Ht| | |apply I7; exact Ho].
    + intros n Hn1 Hn2. exact (Hfr o n Ho Hn2 Hn1).
    + apply Hw. intro E. apply (Hfr o (it_file it) Ho Hin). rewrite <- E. unfold item_names, item_files. cbn. auto.
Qed.

Lemma fresh_unread limit p bs its s it : invariant limit p bs its s -> fresh its it -> Forall (unread (se_store s)) (item_names it).
Proof.
  intros I Hf. rewrite Forall_forall. intros n Hn. apply (i_others _ _ _ _ _ I). intro Ha. apply all_in in Ha as (o & Ho & Hno).
  exact (Hf o n Ho Hn Hno).
Qed.
Lemma dict_builders bs path : dict_get (map (fun b : string * carch => (fst b, (snd b, true))) bs) path = option_map (fun a => (a, true)) (dict_get bs path).
Proof. induction bs as [|[k a] bs IH]; cbn; [reflexivity|]. destruct (String.eqb k path); [reflexivity|exact IH]. Qed.
Lemma without_other {A} (d : list (string * A)) k n : n <> k -> dict_get (without d k) n = dict_get d n.
Proof.
  intro Hne. induction d as [|[k' x] d IH]; [reflexivity|]. unfold without. cbn [filter fst]. destruct (String.eqb k' k) eqn:E; cbn [negb].
  - apply String.eqb_eq in E as ->. cbn [dict_get]. destruct (String.eqb_spec k n); [congruence|]. exact IH.
  - cbn [dict_get]. destruct (String.eqb k' n); [reflexivity|exact IH].
Qed.
Lemma starts_app a : forall from b, starts from (a ++ b) = (starts from a ++ starts (from + zlen (List.concat a)) b)%list.
Proof.
  induction a as [|x a IH]; intros from b; cbn [app starts List.concat].
  - f_equal. unfold zlen. cbn [List.length]. lia.
  - rewrite IH. cbn [app]. f_equal. f_equal. f_equal. rewrite zlen_app. lia.
Qed.
Lemma starts_zlen bufs : forall from, zlen (starts from bufs) = zlen bufs.
Proof. induction bufs as [|b t IH]; intro from; cbn [starts]; [reflexivity|]. specialize (IH (from + zlen b)). unfold zlen in *. cbn [List.length]. lia. Qed.

Lemma file_none st n : sound st -> file_of st n = None -> dict_get (st_names st) n = None.
Proof.
  intros (_ & _ & Hf) H. unfold file_of in H. destruct (dict_get (st_names st) n) as [i|] eqn:E; [|reflexivity]. exfalso.
  assert (Hin : exists k, In (k, i) (st_names st)).
  { clear -E. induction (st_names st) as [|[k x] l IH]; cbn in E; [discriminate|]. destruct (String.eqb k n).
    - exists k. left. congruence.
    - destruct (IH E) as [k' H]. exists k'. right. exact H. }
  destruct Hin as [k Hin]. rewrite Forall_forall in Hf. specialize (Hf _ Hin). cbn [snd] in Hf. apply nth_error_Some in Hf.
  destruct (nth_error (st_heap st) i); [discriminate|congruence].
Qed.
Lemma named_file st n i : sound st -> In (n, i) (st_names st) -> file_of st n <> None.
Proof.
  intros Hs Hin H. apply file_none in H; [|exact Hs]. clear -Hin H. induction (st_names st) as [|[k x] l IH]; [destruct Hin|]. cbn in H.
  destruct (String.eqb k n) eqn:E; [discriminate|]. destruct Hin as [E'|Hin]; [|auto]. apply String.eqb_neq in E. congruence.
Qed.

Lemma not_exists limit p bs its s dirs name : invariant limit p bs its s -> ~ In name (all_names its) -> ~ In (name ++ "/") dirs ->
  (forall it n, In it its -> In n (item_names it) -> String.prefix (name ++ "/") n = false) ->
  storage_exists dirs (se_store s) name = false.
Proof.
  intros I Hn Hd Hp. destruct (i_others _ _ _ _ _ I name Hn) as [F U]. pose proof (i_sound _ _ _ _ _ I) as Hs. unfold storage_exists.
  rewrite (file_none _ _ Hs F). unfold unread in U. rewrite U. apply orb_false_iff. split.
  - destruct (has_directory dirs (name ++ "/")) eqn:E; [|reflexivity]. apply has_directory_spec in E. contradiction.
  - destruct (existsb _ _) eqn:E; [|reflexivity]. apply existsb_exists in E as ([k i] & Hk & E). cbn [fst] in E.
    pose proof (named_file _ _ _ Hs Hk) as Hf. destruct (in_dec string_dec k (all_names its)) as [Ha|Ha].
    + apply all_in in Ha as (it & Hit & Hin). rewrite (Hp it k Hit Hin) in E. discriminate.
    + destruct (i_others _ _ _ _ _ I k Ha) as [F' _]. contradiction.
Qed.

Lemma write_touches p st name schema data : p_reuse p = false -> sound st -> zlen data < 2 ^ 64 -> Forall (unread st) [name; schema_file name] ->
  coherent p st ->
  let st' := cpp_write_resource p st name schema data in
  touches [name; schema_file name] st st' /\ coherent p st' /\ file_of st' name = Some (framed data) /\ file_of st' (schema_file name) = Some schema.
Proof.
  intros Hp Hs Hl Hu Hc st'. destruct (write_resource_facts p st name schema data Hp Hs Hl) as (S' & F1 & F2 & Hb & Hr). fold st' in S', F1, F2, Hb, Hr.
  assert (W : writes [name; schema_file name] st st').
  { unfold st', cpp_write_resource. destruct (create_writes p st name Hp Hs) as [W1 H1].
    destruct (create_stream p st name) as [s1 i]. cbn [fst snd] in *.
    destruct (write_writes s1 name i [] (cpp_size_bytes (zlen data)) (proj1 W1) H1) as [W2 H2].
    destruct (write_writes _ name i _ data (proj1 W2) H2) as [W3 H3].
    destruct (write_writes _ name i _ (zeros PADDING_SIZE) (proj1 W3) H3) as [W4 H4].
    destruct (schema_writes p _ name schema Hp (proj1 W4)) as [W5 _].
    pose proof (writes_trans _ _ _ _ (writes_trans _ _ _ _ (writes_trans _ _ _ _ W1 W2) W3) W4) as W14.
    eapply writes_trans; [eapply writes_incl; [|exact W14]|eapply writes_incl; [|exact W5]]; intros x Hx; cbn in *; tauto. }
  split; [apply writes_touches; exact W|]. split; [|split; assumption]. exact (writes_coherent p _ _ _ W Hu Hc).
Qed.

Lemma signature_schema path a : exists n, it_file (signature path a) = (path ++ signature_name n) /\ a = CArch n (it_schema (signature path a)) (match a with CArch _ _ rs _ => rs end) (match a with CArch _ _ _ subs => subs end).
Proof. destruct a as [n s rs subs]. exists n. split; reflexivity. Qed.

Lemma holding_bytes limit p s file schema data : file_of (se_store s) file = Some (framed data) ->
  file_of (se_store s) (schema_file file) = Some schema -> is_bytes data -> zlen data + 16 < 2 ^ 64 ->
  holding limit p s (Item file schema (Bytes data) false).
Proof.
  intros F1 F2 Hb Hl. unfold holding. cbn [it_open it_content payload]. split; [|split; [exact Hb|split; [exact Hl|intros; discriminate]]].
  intros n f [E|[E|[]]]; cbn [it_file it_schema it_content payload] in E; apply pair_equal_spec in E as [<- <-]; assumption.
Qed.

Lemma start_vector limit p bs its s path name schema t : p_reuse p = false -> 8 <= limit -> invariant limit p bs its s -> schema <> [] ->
  fresh its (Item (path ++ name) schema (Records t []) true) ->
  let r := ev_create p (se_store s) (path ++ name) schema in
  invariant limit p bs (its ++ [Item (path ++ name) schema (Records t []) true])
    (Session (fst r) (se_dirs s) (se_builders s) (put (se_writers s) (path ++ name) (WVec t (snd r)))).
Proof.
  intros Hp H8 I Hne Hf r. pose proof (fresh_unread _ _ _ _ _ _ I Hf) as Hu.
  destruct (ev_create_facts p (se_store s) (path ++ name) schema Hp (i_sound _ _ _ _ _ I)) as (W & F & He).
  fold r in W, F, He. apply (invariant_new limit p bs bs its _ s); cbn [se_store se_dirs se_builders se_writers]; try exact I; try exact Hf; try apply I.
  - apply writes_touches. exact W.
  - exact (writes_coherent p _ _ _ W Hu (i_coherent _ _ _ _ _ I)).
  - intros n Hn. apply put_other. exact Hn.
  - unfold holding. cbn [it_open it_schema it_file it_content payload se_store se_writers]. split; [|split; [exact Hne|split; [exact F|split; [constructor|]]]].
    + rewrite Forall_forall in *. intros n Hn. apply (writes_unread _ _ _ _ W). apply Hu. exact Hn.
    + exists (snd r). split; [apply put_same|]. split; [exact He|]. left. destruct He as (fl & pe & E & _ & _ & Hh).
      symmetry in E. apply app_eq_nil in E as [-> ->]. destruct Hh as [Hz _]. exact Hz.
Qed.

Lemma start_multi limit p bs its s path name schema w : p_reuse p = false -> 8 <= limit -> 1 <= w <= 64 -> invariant limit p bs its s -> schema <> [] ->
  fresh its (Item (path ++ name) schema (Buckets w []) true) ->
  let r := mv_create p (se_store s) (path ++ name) schema in
  invariant limit p bs (its ++ [Item (path ++ name) schema (Buckets w []) true])
    (Session (fst r) (se_dirs s) (se_builders s) (put (se_writers s) (path ++ name) (WMulti w (snd r)))).
Proof.
  intros Hp H8 Hw I Hne Hf r. pose proof (fresh_unread _ _ _ _ _ _ I Hf) as Hu.
  destruct (mv_create_facts p (se_store s) w (path ++ name) schema Hp (i_sound _ _ _ _ _ I)) as (W & F & Fi & He).
  fold r in W, F, Fi, He.
  apply (invariant_new limit p bs bs its _ s); cbn [se_store se_dirs se_builders se_writers]; try exact I; try exact Hf; try apply I.
  - apply writes_touches. exact W.
  - exact (writes_coherent p _ _ _ W Hu (i_coherent _ _ _ _ _ I)).
  - intros n Hn. apply put_other. exact Hn.
  - unfold holding. cbn [it_open it_schema it_file it_content payload se_store se_writers]. split; [|split; [exact Hne|split; [exact F|split; [constructor|]]]].
    + rewrite Forall_forall in *. intros n Hn. apply (writes_unread _ _ _ _ W). apply Hu. exact Hn.
    + split; [exact Hw|]. split; [exact Fi|]. exists (snd r). split; [apply put_same|]. split; [exact He|].
      left. destruct He as (fl & pe & E & _ & _ & Hh & _). cbn [map List.concat] in E.
      symmetry in E. apply app_eq_nil in E as [-> ->]. destruct Hh as [Hz _]. exact Hz.
Qed.

Lemma held limit p bs its1 it its2 s : invariant limit p bs (its1 ++ it :: its2) s -> holding limit p s it.
Proof. intro I. pose proof (i_items _ _ _ _ _ I) as H. apply Forall_app in H as [_ H]. inversion H; assumption. Qed.

Lemma bytes_app a b : is_bytes a -> is_bytes b -> is_bytes (a ++ b).
Proof. intros; apply Forall_app; auto. Qed.

Lemma step_grow limit p bs its1 its2 s file schema t rs f new : 8 <= limit ->
  invariant limit p bs (its1 ++ Item file schema (Records t rs) true :: its2) s -> makes (e_size t) f new ->
  exists s', bstep limit p s (BGrow file f) = Value s' /\
    invariant limit p bs (its1 ++ Item file schema (Records t (rs ++ [new])) true :: its2) s'.
Proof.
  intros H8 I Hm. pose proof (i_sound _ _ _ _ _ I) as Hs. pose proof (held _ _ _ _ _ _ _ I) as (U & Hne & F & Hby & v & Ev & He & Hg).
  cbn [it_schema it_file it_content payload] in *.
  destruct (ev_grow_facts limit t _ v _ _ _ _ f new Hs He Hm) as (st' & v' & E & W & He').
  pose proof (ev_grow_big _ _ _ _ _ _ _ H8 Hg E) as Hg'.
  cbn [bstep]. rewrite Ev, E. eexists. split; [reflexivity|].
  assert (Wi : writes (item_names (Item file schema (Records t rs) true)) (se_store s) st').
  { eapply writes_incl; [|exact W]. intros x [<-|[]]. left. reflexivity. }
  eapply (invariant_change limit p bs bs its1 _ _ its2 s); cbn [se_store se_dirs se_builders se_writers]; try exact I; try apply I.
  - reflexivity.
  - apply writes_touches. exact Wi.
  - exact (writes_coherent p _ _ _ Wi U (i_coherent _ _ _ _ _ I)).
  - intros n Hn. apply put_other. exact Hn.
  - unfold holding. cbn [it_open it_schema it_file it_content payload se_store se_writers].
    assert (Hc : List.concat (rs ++ [new]) = (List.concat rs ++ new)%list) by (rewrite concat_app; cbn [List.concat]; now rewrite app_nil_r).
    split; [|split; [exact Hne|split; [|split]]].
    + rewrite Forall_forall in *. intros n Hn. apply (writes_unread _ _ _ _ W). apply U. exact Hn.
    + destruct W as (_ & Hbut & _). rewrite Hbut; [exact F|]. intros [E'|[]]. symmetry in E'. revert E'. apply schema_name_ne.
    + rewrite Hc. apply bytes_app; [exact Hby|]. apply Hm.
    + exists v'. split; [apply put_same|]. split; [|exact Hg']. rewrite Hc, zlen_app. exact He'.
Qed.

Lemma step_bucket limit p bs its1 its2 s file schema w bss : 8 <= limit ->
  invariant limit p bs (its1 ++ Item file schema (Buckets w bss) true :: its2) s -> zlen (payload (Buckets w bss)) < 2 ^ w ->
  exists s', bstep limit p s (BBucket file) = Value s' /\
    invariant limit p bs (its1 ++ Item file schema (Buckets w (bss ++ [[]])) true :: its2) s'.
Proof.
  intros H8 I Hl. pose proof (i_sound _ _ _ _ _ I) as Hs. pose proof (held _ _ _ _ _ _ _ I) as (U & Hne & F & Hby & Hw & Fi & m & Em & He & Hg).
  cbn [it_schema it_file it_content payload] in *.
  destruct (mv_grow_facts limit _ m w _ _ _ _ Hs Hw He Hl) as (st' & m' & E & W & He').
  pose proof (mv_grow_big _ _ _ _ _ _ H8 Hg E) as Hg'.
  cbn [bstep]. rewrite Em, E. eexists. split; [reflexivity|].
  assert (Wi : writes (item_names (Item file schema (Buckets w bss) true)) (se_store s) st').
  { eapply writes_incl; [|exact W]. unfold item_names, item_files. cbn [it_file it_content map fst]. intros x [<-|[<-|[]]]; cbn; auto. }
  destruct (names_distinct file) as (D1 & D2 & D3 & D4 & D5 & D6).
  eapply (invariant_change limit p bs bs its1 _ _ its2 s); cbn [se_store se_dirs se_builders se_writers]; try exact I; try apply I.
  - reflexivity.
  - apply writes_touches. exact Wi.
  - exact (writes_coherent p _ _ _ Wi U (i_coherent _ _ _ _ _ I)).
  - intros n Hn. apply put_other. exact Hn.
  - unfold holding. cbn [it_open it_schema it_file it_content payload se_store se_writers].
    assert (Hc : List.concat (map bucket (bss ++ [[]])) = List.concat (map bucket bss)).
    { rewrite map_app, concat_app. cbn. apply app_nil_r. }
    destruct W as (W1 & Hbut & W3 & W4).
    split; [|split; [exact Hne|split; [|split]]].
    + rewrite Forall_forall in *. intros n Hn. apply (writes_unread _ _ _ _ Wi). apply U. exact Hn.
    + rewrite Hbut; [exact F|]. cbn; intuition congruence.
    + rewrite Hc. exact Hby.
    + split; [exact Hw|]. split; [rewrite Hbut; [exact Fi|]; cbn; intuition congruence|].
      exists m'. split; [apply put_same|]. split; [|exact Hg']. rewrite Hc, map_app, starts_app. cbn [map starts]. rewrite Z.add_0_l. exact He'.
Qed.

Lemma step_add limit p bs its1 its2 s file schema w bss es ti size f e :
  invariant limit p bs (its1 ++ Item file schema (Buckets w (bss ++ [es])) true :: its2) s -> adds (Addition ti size f) e ->
  exists s', bstep limit p s (BAdd file ti size f) = Value s' /\
    invariant limit p bs (its1 ++ Item file schema (Buckets w (bss ++ [(es ++ [e])%list])) true :: its2) s'.
Proof.
  intros I Ha. pose proof (i_sound _ _ _ _ _ I) as Hs. pose proof (held _ _ _ _ _ _ _ I) as (U & Hne & F & Hby & Hw & Fi & m & Em & He & Hg).
  cbn [it_schema it_file it_content payload] in *.
  destruct (mv_add_facts _ m w _ _ _ _ _ e He Ha) as (m' & E & He'). cbn [ad_type ad_size ad_fill] in E.
  pose proof (mv_add_handle _ _ _ _ _ E) as Eh.
  cbn [bstep]. rewrite Em, E. eexists. split; [reflexivity|].
  eapply (invariant_change limit p bs bs its1 _ _ its2 s); cbn [se_store se_dirs se_builders se_writers]; try exact I; try apply I.
  - reflexivity.
  - apply writes_touches. apply writes_refl. exact Hs.
  - intros n Hn. apply put_other. exact Hn.
  - unfold holding. cbn [it_open it_schema it_file it_content payload se_store se_writers].
    assert (Hc : List.concat (map bucket (bss ++ [(es ++ [e])%list])) = (List.concat (map bucket (bss ++ [es])) ++ element e)%list).
    { rewrite !map_app, !concat_app. cbn [map List.concat]. rewrite !app_nil_r, bucket_app, <- app_assoc. f_equal. f_equal.
      unfold bucket. cbn [map List.concat]. apply app_nil_r. }
    split; [exact U|split; [exact Hne|split; [exact F|split]]].
    + rewrite Hc. apply bytes_app; [exact Hby|]. destruct Ha as (Ht & Hr & Hm). unfold element. constructor; [exact Hr|apply Hm].
    + split; [exact Hw|]. split; [exact Fi|].
      exists m'. split; [apply put_same|]. split; [|rewrite Eh; exact Hg]. rewrite Hc.
      replace (starts 0 (map bucket (bss ++ [(es ++ [e])%list]))) with (starts 0 (map bucket (bss ++ [es]))) by (rewrite !map_app, !starts_app; reflexivity).
      exact He'.
Qed.

Lemma step_close limit p bs its1 its2 s file schema c :
  invariant limit p bs (its1 ++ Item file schema c true :: its2) s -> zlen (payload c) + 16 < 2 ^ 64 ->
  (forall w bss, c = Buckets w bss -> zlen (payload c) < 2 ^ w /\ (zlen bss + 1) * ((w + 7) / 8) + 16 < 2 ^ 64) ->
  exists s', bstep limit p s (BClose file) = Value s' /\
    invariant limit p bs (its1 ++ Item file schema c false :: its2) s'.
Proof.
  intros I Hl Hmu. pose proof (i_sound _ _ _ _ _ I) as Hs. pose proof (i_coherent _ _ _ _ _ I) as Hc.
  pose proof (held _ _ _ _ _ _ _ I) as (U & Hne & F & Hby & H). cbn [it_schema it_file it_content] in *.
  destruct c as [d|t rs|w bss]; [destruct H| |].
  - destruct H as (v & Ev & He & Hg). cbn [payload] in *.
    assert (U1 : unread (se_store s) file) by (rewrite Forall_forall in U; apply U; left; reflexivity).
    assert (U2 : unread (se_store s) (schema_file file)) by (rewrite Forall_forall in U; apply U; right; left; reflexivity).
    destruct (ev_close_facts p t _ v _ _ _ _ Hs He F U1 U2 Hby Hl (fun _ => Hne)) as (T & F1 & F2 & _).
    assert (Hlt : zlen (List.concat rs) < 2 ^ 64) by lia.
    pose proof (ev_close_coherent p t _ v _ _ _ _ Hs Hc U1 He Hlt) as Hc'.
    cbn [bstep]. rewrite Ev. eexists. split; [reflexivity|].
    eapply (invariant_change limit p bs bs its1 _ _ its2 s); cbn [se_store se_dirs se_builders se_writers]; try exact I; try apply I; try exact Hc'.
    + reflexivity.
    + exact T.
    + intros n Hn. apply without_other. exact Hn.
    + unfold holding. cbn [it_open it_content payload se_store]. split; [|split; [exact Hby|split; [exact Hl|intros; discriminate]]].
      intros n f [E|[E|[]]]; cbn [it_file it_schema it_content payload] in E; apply pair_equal_spec in E as [<- <-]; assumption.
  - destruct H as (Hw & Fi & m & Em & He & Hg). destruct (Hmu w bss eq_refl) as [Hlw Hli].
    assert (Hz : zlen (starts 0 (map bucket bss)) = zlen bss) by (rewrite starts_zlen; unfold zlen; now rewrite map_length).
    assert (Hpts : (starts 0 (map bucket bss) ++ [zlen (payload (Buckets w bss))])%list = bucket_points 0 (map zlen (map bucket bss))).
    { rewrite points_starts. f_equal. }
    assert (Hib : Z.of_nat (index_bytes w) = (w + 7) / 8) by (unfold index_bytes; rewrite Z2Nat.id; [reflexivity|]; apply Z.div_pos; lia).
    assert (Hli' : (zlen (starts 0 (map bucket bss)) + 1) * Z.of_nat (index_bytes w) + 16 < 2 ^ 64) by (rewrite Hz, Hib; exact Hli).
    destruct (mv_close_facts limit p w _ m _ _ _ _ Hs Hw He Hlw F Fi U Hby Hl Hli' (fun _ => Hne)) as (st' & E & T & F1 & F2 & F3 & F4).
    assert (U1 : unread (se_store s) file) by (rewrite Forall_forall in U; apply U; left; reflexivity).
    assert (U3 : unread (se_store s) (index_name file)) by (rewrite Forall_forall in U; apply U; right; right; left; reflexivity).
    assert (Hlt : zlen (payload (Buckets w bss)) < 2 ^ 64) by lia.
    assert (Hlti : (zlen (starts 0 (map bucket bss)) + 1) * Z.of_nat (index_bytes w) < 2 ^ 64) by lia.
    pose proof (mv_close_coherent limit p w _ m _ _ _ _ _ _ Hs Hc Hw He Hlw U1 U3 Hlt Hlti E) as Hc'.
    rewrite Hpts in F3. cbn [bstep]. rewrite Em, E. eexists. split; [reflexivity|].
    eapply (invariant_change limit p bs bs its1 _ _ its2 s); cbn [se_store se_dirs se_builders se_writers]; try exact I; try apply I; try exact Hc'.
    + reflexivity.
    + exact T.
    + intros n Hn. apply without_other. exact Hn.
    + unfold holding. cbn [it_open it_content se_store]. split; [|split; [exact Hby|split; [exact Hl|]]].
      * intros n f [E'|[E'|[E'|[E'|[]]]]]; cbn [it_file it_schema it_content] in E'; apply pair_equal_spec in E' as [<- <-]; assumption.
      * intros w' bss' E'. assert (w' = w /\ bss' = bss) as [-> ->] by (split; congruence). split; [exact Hw|].
        unfold index_payload. rewrite points_zlen, <- Hpts, zlen_app. unfold zlen at 2. cbn [List.length]. exact Hli'.
Qed.

Lemma step_set limit p bs its s path name data a r : p_reuse p = false ->
  invariant limit p bs its s -> dict_get bs path = Some a -> find_resource a name = Some r -> (forall w ts, c_kind r <> KMulti w ts) ->
  is_bytes data -> zlen data + 16 < 2 ^ 64 -> fresh its (Item (path ++ name) (c_schema r) (Bytes data) false) ->
  exists s', bstep limit p s (BSet path name data) = Value s' /\
    invariant limit p bs (its ++ [Item (path ++ name) (c_schema r) (Bytes data) false]) s'.
Proof.
  intros Hp I Ha Hr Hk Hby Hl Hf. pose proof (fresh_unread _ _ _ _ _ _ I Hf) as Hu.
  assert (Hlt : zlen data < 2 ^ 64) by lia.
  destruct (write_touches p _ (path ++ name) (c_schema r) data Hp (i_sound _ _ _ _ _ I) Hlt Hu (i_coherent _ _ _ _ _ I)) as (T & Hc & F1 & F2).
  cbn [bstep]. rewrite (i_builders _ _ _ _ _ I), dict_builders, Ha. cbn [option_map]. rewrite Hr.
  eexists. split; [destruct (c_kind r); try reflexivity; exfalso; eapply Hk; reflexivity|].
  apply (invariant_new limit p bs bs its _ s); cbn [se_store se_dirs se_builders se_writers]; try exact I; try exact Hf; try apply I; try exact Hc; try exact T.
  - reflexivity.
  - intros n _. reflexivity.
  - apply holding_bytes; assumption.
Qed.

Lemma open_new limit p bs its s dirs path a : p_reuse p = false -> invariant limit p bs its s -> fresh its (signature path a) ->
  ~ In (it_file (signature path a) ++ "/") dirs ->
  (forall it n, In it its -> In n (item_names it) -> String.prefix (it_file (signature path a) ++ "/") n = false) ->
  exists st', builder_open p dirs a (se_store s) path = (st', Some true) /\
    touches (item_names (signature path a)) (se_store s) st' /\ coherent p st' /\
    file_of st' (it_file (signature path a)) = Some (framed []) /\ file_of st' (schema_file (it_file (signature path a))) = Some (it_schema (signature path a)).
Proof.
  intros Hp I Hf Hd Hpre. destruct a as [n schema rs subs]. cbn [signature it_file it_schema builder_open] in *.
  pose proof (fresh_unread _ _ _ _ _ _ I Hf) as Hu.
  rewrite (not_exists limit p bs its s dirs _ I); [| |exact Hd|exact Hpre].
  - cbn [negb]. eexists. split; [reflexivity|].
    assert (Hlt : zlen (@nil Z) < 2 ^ 64) by (unfold zlen; cbn; lia).
    exact (write_touches p _ (path ++ signature_name n) schema [] Hp (i_sound _ _ _ _ _ I) Hlt Hu (i_coherent _ _ _ _ _ I)).
  - intro Ha. apply all_in in Ha as (it & Hit & Hn). apply (Hf it _ Hit) in Hn; [exact Hn|]. left. reflexivity.
Qed.
Lemma signature_item path a : signature path a = Item (it_file (signature path a)) (it_schema (signature path a)) (Bytes []) false.
Proof. destruct a. reflexivity. Qed.

Lemma step_sub limit p bs its s path name a sub : p_reuse p = false -> invariant limit p bs its s ->
  dict_get bs path = Some a -> find_sub a name = Some sub -> dict_get bs (path ++ name ++ "/") = None ->
  fresh its (signature (path ++ name ++ "/") sub) ->
  ~ In (it_file (signature (path ++ name ++ "/") sub) ++ "/") ((path ++ name ++ "/") :: map fst bs) ->
  (forall it n, In it its -> In n (item_names it) -> String.prefix (it_file (signature (path ++ name ++ "/") sub) ++ "/") n = false) ->
  exists s', bstep limit p s (BSub path name) = Value s' /\
    invariant limit p (bs ++ [((path ++ name ++ "/")%string, sub)]) (its ++ [signature (path ++ name ++ "/") sub]) s'.
Proof.
  intros Hp I Ha Hsub Hno Hf Hd Hpre. destruct (i_dirs _ _ _ _ _ I) as [Hne Hdirs].
  assert (Hnk : ~ In (path ++ name ++ "/") (map fst bs)).
  { clear -Hno. induction bs as [|[k x] l IH]; [tauto|]. cbn in Hno. destruct (String.eqb_spec k (path ++ name ++ "/")); [discriminate|].
    intros [E|E]; [cbn in E; congruence|exact (IH Hno E)]. }
  assert (Hnt : ~ In (path ++ name ++ "/") (se_dirs s)) by (rewrite Hdirs; intro H; apply Hnk; destruct bs; [destruct H|right; exact H]).
  assert (Hnew : ~ In (it_file (signature (path ++ name ++ "/") sub) ++ "/") (se_dirs s ++ [(path ++ name ++ "/")%string])%list).
  { intro H. apply Hd. apply in_app_or in H as [H|[H|[]]]; [right|left; exact H]. rewrite Hdirs in H. destruct bs; [destruct H|right; exact H]. }
  destruct (open_new limit p bs its s _ _ sub Hp I Hf Hnew Hpre) as (st' & E & T & Hc & F1 & F2).
  cbn [bstep]. rewrite (i_builders _ _ _ _ _ I), !dict_builders, Ha, Hno. cbn [option_map]. rewrite Hsub.
  destruct (has_directory (se_dirs s) (path ++ name ++ "/")) eqn:Eh; [apply has_directory_spec in Eh; contradiction|]. rewrite E.
  eexists. split; [reflexivity|].
  apply (invariant_new limit p bs _ its _ s); cbn [se_store se_dirs se_builders se_writers]; try exact I; try exact Hf; try exact Hc.
  - exact T.
  - rewrite map_app. reflexivity.
  - split; [intro H; apply app_eq_nil in H as [_ H]; discriminate|]. rewrite map_app, Hdirs. destruct bs; [congruence|reflexivity].
  - reflexivity.
  - rewrite signature_item. apply holding_bytes; try assumption; [constructor|unfold zlen; cbn; lia].
Qed.

Lemma step_invariant limit p bs its s op bs' its' : p_reuse p = false -> 8 <= limit ->
  invariant limit p bs its s -> does (bs, its) op (bs', its') ->
  exists s', bstep limit p s op = Value s' /\ invariant limit p bs' its' s'.
Proof.
  intros Hp H8 I Hd. inversion Hd; subst; clear Hd.
  - eapply step_sub; eassumption.
  - exists s. split; [|exact I]. cbn [bstep]. rewrite (i_builders _ _ _ _ _ I), !dict_builders.
    repeat match goal with H : dict_get bs' _ = Some _ |- _ => rewrite H; clear H end. cbn [option_map].
    match goal with H : find_sub _ _ = Some _ |- _ => rewrite H end. reflexivity.
  - eapply step_set; eassumption.
  - cbn [bstep]. rewrite (i_builders _ _ _ _ _ I), dict_builders.
    match goal with H : dict_get bs' _ = Some _ |- _ => rewrite H end. cbn [option_map].
    match goal with H : find_resource _ _ = Some _ |- _ => rewrite H end. match goal with H : c_kind _ = _ |- _ => rewrite H end.
    match goal with H : c_schema r <> [], G : fresh _ _ |- _ => pose proof (start_vector limit p _ _ _ _ _ _ _ Hp H8 I H G) as R end. cbn zeta in R.
    rewrite (i_builders _ _ _ _ _ I) in R.
    destruct (ev_create p (se_store s) (path ++ name) (c_schema r)) as [st' v]. eexists. split; [reflexivity|exact R].
  - cbn [bstep]. rewrite (i_builders _ _ _ _ _ I), dict_builders.
    match goal with H : dict_get bs' _ = Some _ |- _ => rewrite H end. cbn [option_map].
    match goal with H : find_resource _ _ = Some _ |- _ => rewrite H end. match goal with H : c_kind _ = _ |- _ => rewrite H end.
    match goal with H : c_schema r <> [], G : fresh _ _, W : _ <= w <= _ |- _ => pose proof (start_multi limit p _ _ _ _ _ _ _ Hp H8 W I H G) as R end. cbn zeta in R.
    rewrite (i_builders _ _ _ _ _ I) in R.
    destruct (mv_create p (se_store s) (path ++ name) (c_schema r)) as [st' v]. eexists. split; [reflexivity|exact R].
  - eapply step_grow; eassumption.
  - eapply step_bucket; eassumption.
  - eapply step_add; eassumption.
  - eapply step_close; eassumption.
Qed.

Lemma steps_invariant limit p ops : forall bs its s bs' its', p_reuse p = false -> 8 <= limit ->
  invariant limit p bs its s -> does_all (bs, its) ops (bs', its') ->
  exists s', bsteps limit p s ops = Value s' /\ invariant limit p bs' its' s'.
Proof.
  induction ops as [|op ops IH]; intros bs its s bs' its' Hp H8 I Hd; inversion Hd; subst.
  - exists s. split; [reflexivity|exact I].
  - destruct y as [b1 i1]. destruct (step_invariant limit p bs its s op b1 i1 Hp H8 I) as (s1 & E1 & I1); [assumption|].
    destruct (IH b1 i1 s1 bs' its' Hp H8 I1) as (s2 & E2 & I2); [assumption|]. exists s2. split; [|exact I2]. cbn [bsteps]. rewrite E1. exact E2.
Qed.

Lemma begin_invariant limit p a : p_reuse p = false -> invariant limit p [("", a)] [signature "" a] (begin_session p [] a empty_store).
Proof.
  intro Hp. assert (I0 : invariant limit p [("", a)] [] (Session empty_store [] [("", (a, true))] [])).
  { constructor; cbn [se_store se_dirs se_builders]; try reflexivity.
    - repeat split; constructor.
    - intros k d H. discriminate.
    - split; [discriminate|reflexivity].
    - intros n _. split; reflexivity.
    - constructor.
    - constructor. }
  assert (Hf : fresh [] (signature "" a)) by (intros it n []).
  destruct (open_new limit p _ [] _ [] "" a Hp I0 Hf) as (st' & E & T & Hc & F1 & F2); [tauto|intros it n []|]. cbn [se_store] in *.
  unfold begin_session. rewrite E. change [signature "" a] with ([] ++ [signature "" a])%list.
  apply (invariant_new limit p _ [("", a)] [] _ _ _ I0); cbn [se_store se_dirs se_builders se_writers]; try reflexivity; try exact Hf; try exact T; try exact Hc.
  - split; [discriminate|reflexivity].
  - rewrite signature_item. apply holding_bytes; try assumption; [constructor|unfold zlen; cbn; lia].
Qed.
