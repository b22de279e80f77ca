(** C84: an archive opened with the C++ and with the Rust library. *)
From Coq Require Import List ZArith Bool Lia String.
From Coq Require Import ZifyBool ZifyNat.
From Verif Require Import PyBase Spec DataAccess Structure StructSpec BitFacts DataAccessFacts DataAccessThms StructFacts
  SliceFacts Resources Builder Archive ArchiveSpec ResourceFacts BuilderFacts ArchiveFacts Codecs CodecSpec CodecFacts CodecThms
  Streams StoreSpec StoreFacts CppStore CppFacts CppViews CppMulti CppArchive CppArchiveSpec CppArchiveFacts CppSessionSpec CppSessionFacts Props_CppArchive
  RustStore RustSpec RustFacts RustVectors RustMulti Props_Rust RustArchive RustArchiveSpec RustArchiveFacts RustSessionSpec RustSessionFacts
  Props_RustArchive CrossSpec.
Import ListNotations.
Local Open Scope string_scope.
Local Open Scope Z_scope.

Lemma concat_zlen size (rs : list (list Z)) : Forall (fun r => List.length r = size) rs -> zlen (List.concat rs) = Z.of_nat size * Z.of_nat (List.length rs).
Proof. induction 1 as [|r rs L _ IH]; cbn [List.concat List.length]; [unfold zlen; cbn; lia|]. rewrite zlen_app, IH. unfold zlen. lia. Qed.
Lemma view_agree t d rs rest : (0 < e_size t)%nat -> consists t d rs rest -> av_create t (d_mem d) (d_size d) = records_view t rs rest.
Proof.
  intros Ht (-> & Hl & Ho). unfold av_create, records_view. cbn [d_mem d_size]. f_equal. rewrite (concat_zlen _ _ Hl).
  rewrite Z.mul_comm, Z.div_mul by lia. destruct (e_overlap t); cbn [andb]; [|lia].
  destruct rs; [exfalso; now apply Ho|]. cbn [List.length]. replace (Z.of_nat (S (List.length rs)) =? 0) with false by lia. cbn [negb]. lia.
Qed.
Lemma stored_agree F b name schema f data : (b = true -> schema <> []) -> rstored F name schema f data -> stored F b name schema f data.
Proof. intros Hb (A & B & C). split; [exact A|]. split; [exact B|]. split; [exact C|exact Hb]. Qed.
Lemma value_agree F b name schema k v : rsane_kind k -> (b = true -> schema <> []) -> rshows F name schema k v ->
  shows_value F b name schema k (as_value v) /\ value_size (as_value v) = rvalue_size v.
Proof.
  intros Hk Hb H. destruct k as [size|t|w ts|]; cbn [rshows shows_value rsane_kind] in *.
  - destruct H as (f & d & S & _ & ->). split; [|reflexivity]. exists f, d. split; [now apply stored_agree|reflexivity].
  - destruct H as (f & d & rs & rest & S & C & ->). split; [|reflexivity]. exists f, d. split; [now apply stored_agree|]. cbn [as_value]. f_equal.
    symmetry. exact (view_agree t _ rs rest Hk C).
  - destruct H as (f & d & fi & di & rs & rest & S & Si & C & ->). split; [|reflexivity]. exists f, d, fi, di. split; [now apply stored_agree|].
    split; [apply stored_agree; [intros _; discriminate|exact Si]|]. cbn [as_value rw_index rw_data d_mem]. do 2 f_equal.
    symmetry. exact (view_agree _ _ rs rest (index_size w Hk) C).
  - destruct H as (f & d & S & ->). split; [|reflexivity]. exists f, d. split; [now apply stored_agree|reflexivity].
Qed.
Lemma shows_stored F b name schema k v : shows_value F b name schema k v -> exists f data, stored F b name schema f data.
Proof.
  intros H. destruct k; cbn [shows_value] in H; [destruct H as (f & d & H & _)|destruct H as (f & d & H & _)|destruct H as (f & d & fi & di & H & _)|destruct H as (f & d & H & _)];
    exists f, d; exact H.
Qed.
Lemma stored_unique F b name schema f d f' d' : (forall n f, F n = Some f -> is_bytes f /\ zlen f < 2 ^ 64) ->
  stored F b name schema f d -> stored F b name schema f' d' -> f' = f /\ d' = d.
Proof.
  intros Hf (A & B & _) (A' & B' & _). assert (f' = f) by congruence. subst f'. split; [reflexivity|].
  eapply holds_unique; [exact B'|exact B|]. exact (proj2 (Hf _ _ A)).
Qed.
Lemma shows_unique F b name schema k v v' : (forall n f, F n = Some f -> is_bytes f /\ zlen f < 2 ^ 64) ->
  shows_value F b name schema k v -> shows_value F b name schema k v' -> v = v'.
Proof.
  intros Hf H H'. destruct k; cbn [shows_value] in *.
  - destruct H as (f & d & S & ->). destruct H' as (f' & d' & S' & ->). destruct (stored_unique _ _ _ _ _ _ _ _ Hf S S') as [-> ->]. reflexivity.
  - destruct H as (f & d & S & ->). destruct H' as (f' & d' & S' & ->). destruct (stored_unique _ _ _ _ _ _ _ _ Hf S S') as [-> ->]. reflexivity.
  - destruct H as (f & d & fi & di & S & Si & ->). destruct H' as (f' & d' & fi' & di' & S' & Si' & ->).
    destruct (stored_unique _ _ _ _ _ _ _ _ Hf S S') as [-> ->]. destruct (stored_unique _ _ _ _ _ _ _ _ Hf Si Si') as [-> ->]. reflexivity.
  - destruct H as (f & d & S & ->). destruct H' as (f' & d' & S' & ->). destruct (stored_unique _ _ _ _ _ _ _ _ Hf S S') as [-> ->]. reflexivity.
Qed.
Lemma in_resources r ms : In r (resources_of ms) <-> In (RRes r) ms.
Proof.
  unfold resources_of. rewrite in_flat_map. split.
  - intros ([x|] & Hin & Hm); [|destruct Hm]. destruct Hm as [E|[]]. now subst.
  - intros H. exists (RRes r). split; [exact H|left; reflexivity].
Qed.
Lemma in_subs n o c ms : In (n, (o, c)) (flat_map (fun m => match m with RRes _ => [] | RSub n o a => [(n, (o, as_cpp a))] end) ms) <-> exists a, c = as_cpp a /\ In (RSub n o a) ms.
Proof.
  rewrite in_flat_map. split.
  - intros ([x|n' o' a'] & Hin & Hm); [destruct Hm|]. destruct Hm as [E|[]]. injection E as <- <- <-. exists a'. split; [reflexivity|exact Hin].
  - intros (a & -> & Hin). exists (RSub n o a). split; [exact Hin|left; reflexivity].
Qed.
Lemma forall2_both {A B} (P Q : A -> B -> Prop) l m : Forall2 P l m ->
  (forall i x y, nth_error l i = Some x -> nth_error m i = Some y -> Q x y) -> Forall2 (fun x y => P x y /\ Q x y) l m.
Proof.
  induction 1 as [|x y l m H _ IH]; intros HQ; constructor.
  - split; [exact H|]. exact (HQ 0%nat x y eq_refl eq_refl).
  - apply IH. intros i a b Ha Hb. exact (HQ (S i) a b Ha Hb).
Qed.
Lemma dir_path path n name : (path ++ n) ++ "/" ++ name ++ ".archive" = (path ++ n ++ "/") ++ name ++ ".archive".
Proof. now rewrite !str_assoc'. Qed.
Lemma dir_path' path n : (path ++ n) ++ "/" = path ++ n ++ "/".
Proof. now rewrite !str_assoc'. Qed.
Lemma complete_dir F dirs path n a x : directories_of F dirs -> complete F (path ++ n ++ "/") a x -> In (path ++ n ++ "/") dirs.
Proof.
  intros Hd H. inversion H as [? name ? ? ? (f & d & E & _) _]; subst. rewrite <- dir_path in E. rewrite <- dir_path'. eapply Hd. exact E.
Qed.

Section CROSS.
Variable F : string -> option (list Z).
Variable dirs : list string.
Variable b : bool.
Hypothesis Hdirs : directories_of F dirs.

Lemma complete_opens : forall a path x, rsane a -> (b = true -> schemas_nonempty a) -> (forall n f, F n = Some f -> is_bytes f /\ zlen f < 2 ^ 64) ->
  complete F path a x -> opens F dirs b path (as_cpp a).
Proof.
  induction a as [name schema ms IH] using rarch_ind'. intros path x Ha Hne Hf H.
  inversion Ha as [? ? ? _ Hr Hsub]; subst. inversion H as [? ? ? ? l (f & d & Hsig) Hm]; subst. cbn [as_cpp].
  assert (Hne' : b = true -> schema <> [] /\ (forall r, In (RRes r) ms -> c_schema r <> []) /\ forall n o a, In (RSub n o a) ms -> schemas_nonempty a).
  { intros Eb. specialize (Hne Eb). inversion Hne; subst. auto. }
  assert (Hone : forall m, In m ms -> exists c, complete_member F path m c).
  { intros m Hin. destruct (In_nth_error _ _ Hin) as [i Hi]. destruct (forall2_nth _ _ _ Hm i _ Hi) as (y & _ & Hy). exists y. exact Hy. }
  constructor.
  - exists f, d. apply stored_agree; [apply Hne'|exact Hsig].
  - intros r Hin Ho. apply in_resources in Hin. destruct (Hone _ Hin) as [c Hc]. inversion Hc as [? ? v Hv Hmax| | |]; subst; [|congruence].
    exists (as_value v). apply value_agree; [apply (Hr r Hin)|intros Eb; now apply (Hne' Eb)|exact Hv].
  - intros r v m Hin Hv Emax. apply in_resources in Hin. destruct (Hone _ Hin) as [c Hc]. inversion Hc as [? ? v' Hv' Hmax|? ? Ho Hab| |]; subst.
    + destruct (value_agree F b _ _ _ v' (proj2 (Hr r Hin)) (fun Eb => proj1 (proj2 (Hne' Eb)) r Hin) Hv') as [Hv2 Hsz].
      assert (v = as_value v') as ->; [|rewrite Hsz; exact (Hmax m Emax)].
      eapply shows_unique; [exact Hf|exact Hv|exact Hv2].
    + exfalso. destruct (shows_stored _ _ _ _ _ _ Hv) as (f' & d' & E & _). destruct Hab as [Hab _]. congruence.
  - intros n c Hin. apply in_subs in Hin as (a & -> & Hin). destruct (Hone _ Hin) as [y Hy]. inversion Hy as [| |? ? ? ? z Hz|]; subst.
    split; [eapply complete_dir; eassumption|]. rewrite Forall_forall in IH. apply (IH _ Hin _ z); try assumption.
    + apply (Hsub _ _ _ Hin).
    + intros Eb. exact (proj2 (proj2 (Hne' Eb)) _ _ _ Hin).
Qed.
Lemma complete_agree : forall a path x y, rsane a -> (b = true -> schemas_nonempty a) -> (forall n f, F n = Some f -> is_bytes f /\ zlen f < 2 ^ 64) ->
  complete F path a x -> shows F dirs b path (as_cpp a) y -> agree a x y.
Proof.
  induction a as [name schema ms IH] using rarch_ind'. intros path x y Ha Hne Hf H Hs.
  pose proof (complete_opens _ _ _ Ha Hne Hf H) as Hop.
  inversion Ha as [? ? ? _ Hr Hsub]; subst. inversion H as [? ? ? ? l (f & d & Hsig) Hm]; subst. cbn [as_cpp] in *.
  assert (Hne' : b = true -> schema <> [] /\ (forall r, In (RRes r) ms -> c_schema r <> []) /\ forall n o a, In (RSub n o a) ms -> schemas_nonempty a).
  { intros Eb. specialize (Hne Eb). inversion Hne; subst. auto. }
  inversion Hs as [? ? ? ? ? signed open members archives H1 H2 H3 H4 H5 H6]; subst.
  assert (signed = true) as -> by (apply H1; exists f, d; apply stored_agree; [apply Hne'|exact Hsig]).
  assert (open = true) as -> by (apply H2; exact Hop). constructor.
  assert (Har : Forall2 (fun (s : string * (bool * carch)) (m : string * option carchive) => fst m = fst s /\
                  ((forall z, snd m = Some z -> opens F dirs b (path ++ fst s ++ "/") (snd (snd s)) /\ shows F dirs b (path ++ fst s ++ "/") (snd (snd s)) z) /\
                   (snd m = None -> ~ (In (path ++ fst s ++ "/") dirs /\ opens F dirs b (path ++ fst s ++ "/") (snd (snd s))))))
                (flat_map (fun m => match m with RRes _ => [] | RSub n o a => [(n, (o, as_cpp a))] end) ms) archives).
  { apply forall2_both; [exact H4|]. intros i [n [o c]] [n' z] Ei Ej. destruct (forall2_nth _ _ _ H4 i _ Ei) as ([n2 z2] & Ej2 & En). cbn [fst snd] in *.
    assert (n' = n) by congruence. subst n'. split.
    - intros z' ->. destruct (H5 _ _ _ _ _ Ei Ej) as (_ & A & B). split; assumption.
    - intros ->. exact (H6 _ _ _ _ Ei Ej). }
  clear H H1 H2 H4 H5 H6 Hs Hop Hsig Hne Ha. revert members archives H3 Har.
  induction Hm as [|m c ms l Hc Hcs IHm]; intros members archives H3 Har.
  - cbn in *. inversion H3; subst. inversion Har; subst. constructor.
  - inversion IH as [|? ? I1 I2]; subst.
    assert (Next : forall members archives,
      Forall2 (fun r m => fst m = c_name r /\ forall v, snd m = Some v <-> shows_value F b (path ++ c_name r) (c_schema r) (c_kind r) v) (resources_of ms) members ->
      Forall2 (fun (s : string * (bool * carch)) (m : string * option carchive) => fst m = fst s /\
                  ((forall z, snd m = Some z -> opens F dirs b (path ++ fst s ++ "/") (snd (snd s)) /\ shows F dirs b (path ++ fst s ++ "/") (snd (snd s)) z) /\
                   (snd m = None -> ~ (In (path ++ fst s ++ "/") dirs /\ opens F dirs b (path ++ fst s ++ "/") (snd (snd s))))))
        (flat_map (fun m => match m with RRes _ => [] | RSub n o a => [(n, (o, as_cpp a))] end) ms) archives ->
      agree_members ms l members archives).
    { intros. apply IHm; try assumption.
      - intros r Hin. apply Hr. right. exact Hin.
      - intros n o a Hin. apply (Hsub n o a). right. exact Hin.
      - intros Eb. destruct (Hne' Eb) as (A & B & C). split; [exact A|]. split; [intros r Hin; apply B; right; exact Hin|intros n o a Hin; apply (C n o a); right; exact Hin]. }
    destruct m as [r|n o a].
    + change (resources_of (RRes r :: ms)) with (r :: resources_of ms) in H3. cbn [flat_map app] in Har.
      inversion H3 as [|? [n v] ? ms' [En Ev] H3']; subst. cbn [fst snd] in *. subst n.
      destruct (Hr r (or_introl eq_refl)) as [_ Hk].
      inversion Hc as [? ? v' Hv' Hmax|? ? Ho Hab| |]; subst.
      * assert (v = option_map as_value (Some v')) as ->.
        { apply Ev. apply value_agree; [exact Hk| |exact Hv']. intros Eb. apply (proj1 (proj2 (Hne' Eb))). left. reflexivity. }
        change (Some (RCValue v')) with (option_map RCValue (Some v')). apply AgreeRes. now apply Next.
      * assert (v = option_map as_value None) as ->.
        { destruct v as [v|]; [|reflexivity]. exfalso. destruct (shows_stored _ _ _ _ _ _ (proj1 (Ev v) eq_refl)) as (f' & d' & E & _). destruct Hab as [Hab _]. congruence. }
        change (@None rcontent) with (option_map RCValue None). apply AgreeRes. now apply Next.
    + change (resources_of (RSub n o a :: ms)) with (resources_of ms) in H3. cbn [flat_map app] in Har.
      inversion Har as [|? [n' v] ? ars' [En [Ev En0]] Har']; subst. cbn [fst snd] in *. subst n'.
      inversion Hc as [| |? ? ? ? z Hz|? ? sname sschema sms Hno]; subst.
      * assert (Hs1 : rsane a) by (apply (Hsub n o a); left; reflexivity).
        assert (Hn1 : b = true -> schemas_nonempty a) by (intros Eb; apply (proj2 (proj2 (Hne' Eb)) n o a); left; reflexivity).
        destruct v as [v|].
        -- apply AgreeSub; [|now apply Next]. destruct (Ev v eq_refl) as [_ Hsh]. exact (I1 _ _ _ Hs1 Hn1 Hf Hz Hsh).
        -- exfalso. apply (En0 eq_refl). split; [eapply complete_dir; eassumption|]. exact (complete_opens _ _ _ Hs1 Hn1 Hf Hz).
      * destruct v as [v|]; [|apply AgreeNoSub; now apply Next]. exfalso. destruct (Ev v eq_refl) as [Hop _]. cbn [as_cpp] in Hop.
        inversion Hop as [? ? ? ? ? (f' & d' & E & _)]; subst. rewrite sub_path in E. congruence.
Qed.
Lemma opens_complete_too : forall a path, rsane a -> (b = true -> schemas_nonempty a) -> undamaged F dirs b path a -> opens F dirs b path (as_cpp a) ->
  exists x, complete F path a x.
Proof.
  induction a as [name schema ms IH] using rarch_ind'. intros path Ha Hne Hu Hop.
  inversion Ha as [? ? ? _ Hr Hsub]; subst. inversion Hu as [? ? ? ? U1 U2]; subst. cbn [as_cpp] in Hop.
  inversion Hop as [? ? ? ? ? (f & d & A1 & A2 & A3 & _) O2 O3 O4]; subst.
  assert (Hne' : b = true -> (forall r, In (RRes r) ms -> c_schema r <> []) /\ forall n o a, In (RSub n o a) ms -> schemas_nonempty a).
  { intros Eb. specialize (Hne Eb). inversion Hne; subst. auto. }
  assert (Hone : forall m, In m ms -> exists c, complete_member F path m c).
  { intros m Hin. destruct m as [r|n o a].
    - destruct (U1 r Hin) as [Hab|[v Hv]].
      + exists (c_name r, None). apply CompleteNone; [|exact Hab]. destruct (c_optional r) eqn:Eo; [reflexivity|]. exfalso.
        destruct (O2 r (proj2 (in_resources r ms) Hin) Eo) as [v Hv]. destruct (shows_stored _ _ _ _ _ _ Hv) as (f' & d' & E & _). destruct Hab. congruence.
      + exists (c_name r, Some (RCValue v)). apply CompleteRes; [exact Hv|]. intros m Em.
        destruct (value_agree F b _ _ _ v (proj2 (Hr r Hin)) (fun Eb => proj1 (Hne' Eb) r Hin) Hv) as [Hv2 <-].
        exact (O3 r _ m (proj2 (in_resources r ms) Hin) Hv2 Em).
    - destruct a as [sname sschema sms]. destruct (U2 n o sname sschema sms Hin) as [Hno|[Ho Hun]].
      + exists (n, None). destruct o; [apply CompleteNoSub; exact Hno|]. exfalso.
        destruct (O4 n _ (proj2 (in_subs n false _ ms) (ex_intro _ _ (conj eq_refl Hin)))) as [_ Hs]. cbn [as_cpp] in Hs.
        inversion Hs as [? ? ? ? ? (f' & d' & E & _)]; subst. rewrite sub_path in E. congruence.
      + assert (Hs : opens F dirs b (path ++ n ++ "/") (as_cpp (RArch sname sschema sms))).
        { destruct o; [apply Ho; reflexivity|]. apply (O4 n _ (proj2 (in_subs n false _ ms) (ex_intro _ _ (conj eq_refl Hin)))). }
        rewrite Forall_forall in IH. destruct (IH _ Hin (path ++ n ++ "/") (Hsub _ _ _ Hin) (fun Eb => proj2 (Hne' Eb) _ _ _ Hin) Hun Hs) as [x Hx].
        exists (n, Some (RCArchive x)). apply CompleteSub. exact Hx. }
  assert (Hall : exists l, Forall2 (complete_member F path) ms l).
  { clear - Hone. induction ms as [|m ms IHm]; [exists []; constructor|]. destruct (Hone m (or_introl eq_refl)) as [c Hc].
    destruct IHm as [l Hl]; [intros m' Hin; apply Hone; right; exact Hin|]. exists (c :: l). constructor; assumption. }
  destruct Hall as [l Hl]. exists (ROpened l). constructor; [|exact Hl]. exists f, d. split; [exact A1|]. split; assumption.
Qed.
Lemma complete_undamaged : forall a path x, rsane a -> (b = true -> schemas_nonempty a) -> (forall n f, F n = Some f -> is_bytes f /\ zlen f < 2 ^ 64) ->
  complete F path a x -> undamaged F dirs b path a.
Proof.
  induction a as [name schema ms IH] using rarch_ind'. intros path x Ha Hne Hf H.
  inversion Ha as [? ? ? _ Hr Hsub]; subst. inversion H as [? ? ? ? l (f & d & Hsig) Hm]; subst.
  assert (Hne' : b = true -> forall n o a, In (RSub n o a) ms -> schemas_nonempty a).
  { intros Eb. specialize (Hne Eb). inversion Hne; subst. auto. }
  assert (Hone : forall m, In m ms -> exists c, complete_member F path m c).
  { intros m Hin. destruct (In_nth_error _ _ Hin) as [i Hi]. destruct (forall2_nth _ _ _ Hm i _ Hi) as (y & _ & Hy). exists y. exact Hy. }
  constructor.
  - intros r Hin. destruct (Hone _ Hin) as [c Hc]. inversion Hc as [? ? v Hv Hmax|? ? Ho Hab| |]; subst; [right; exists v; exact Hv|left; exact Hab].
  - intros n o sname sschema sms Hin. destruct (Hone _ Hin) as [c Hc]. inversion Hc as [| |? ? ? ? z Hz|? ? ? ? ? Hno]; subst; [right|left; exact Hno].
    split.
    + intros _. exact (complete_opens _ _ _ (Hsub _ _ _ Hin) (fun Eb => Hne' Eb _ _ _ Hin) Hf Hz).
    + rewrite Forall_forall in IH. exact (IH _ Hin _ _ (Hsub _ _ _ Hin) (fun Eb => Hne' Eb _ _ _ Hin) Hf Hz).
Qed.
End CROSS.

(** ** C84 *)

(** An archive that Rust opens is opened by C++, through any storage with the same files in which the directories of these files exist,
    and the two objects have the same members with the same data. *)
Theorem C84_rust_cpp : forall checks p q dirs a st st' path x,
  p_null_empty p = false -> sound st -> (forall n, current st n) -> sane st -> rsane a -> (p_null_empty q = true -> schemas_nonempty a) ->
  sound st' -> st_cache st' = [] -> (forall n, file_of st' n = file_of st n) -> directories_of (file_of st) dirs ->
  snd (ropen checks p a st path) = ROk x -> agree a x (snd (cpp_open q dirs (as_cpp a) st' path)).
Proof.
  intros checks p q dirs a st st' path x Hp Hs Hc Hf Ha Hne Hs' Hc' G Hd E. apply (C82_ok checks p a st path x Hp Hs Hc Hf Ha) in E.
  assert (Hf' : sane st') by (intros n f Hn; rewrite G in Hn; exact (Hf n f Hn)).
  destruct (C76_open q dirs (as_cpp a) st' path Hs' Hf' Hc') as (Hsh & _).
  eapply (complete_agree (file_of st) dirs (p_null_empty q)); try eassumption. eapply shows_ext; [|exact Hsh]. exact G.
Qed.

(** Rust opens exactly the archives that C++ opens and in which nothing is damaged. *)
Theorem C84_iff : forall checks p q dirs a st st' path,
  p_null_empty p = false -> sound st -> (forall n, current st n) -> sane st -> rsane a -> (p_null_empty q = true -> schemas_nonempty a) ->
  sound st' -> st_cache st' = [] -> (forall n, file_of st' n = file_of st n) -> directories_of (file_of st) dirs ->
  ((exists x, snd (ropen checks p a st path) = ROk x) <->
   is_open (snd (cpp_open q dirs (as_cpp a) st' path)) = true /\ undamaged (file_of st) dirs (p_null_empty q) path a).
Proof.
  intros checks p q dirs a st st' path Hp Hs Hc Hf Ha Hne Hs' Hc' G Hd.
  assert (Hf' : sane st') by (intros n f Hn; rewrite G in Hn; exact (Hf n f Hn)).
  destruct (C76_open q dirs (as_cpp a) st' path Hs' Hf' Hc') as (Hsh & Hop & _). rewrite Hop. split.
  - intros [x Hx]. apply (C82_ok checks p a st path x Hp Hs Hc Hf Ha) in Hx. split.
    + eapply opens_ext; [|eapply (complete_opens (file_of st) dirs (p_null_empty q) Hd); eassumption]. intros n. symmetry. apply G.
    + eapply (complete_undamaged (file_of st) dirs (p_null_empty q) Hd); eassumption.
  - intros [E Hu]. destruct (opens_complete_too (file_of st) dirs (p_null_empty q) a path Ha Hne Hu) as [x Hx].
    { eapply opens_ext; [|exact E]. exact G. }
    exists x. now apply (C82_ok checks p a st path x Hp Hs Hc Hf Ha).
Qed.

(** An archive written by C++, with everything finished, is opened by Rust with the contents that were given. *)
Lemma cpp_records : forall ops bs its bs' its', does_all (bs, its) ops (bs', its') ->
  Forall (fun it => forall t rs, it_content it = Records t rs -> Forall (fun x => List.length x = e_size t) rs) its ->
  Forall (fun it => forall t rs, it_content it = Records t rs -> Forall (fun x => List.length x = e_size t) rs) its'.
Proof.
  induction ops as [|op ops IH]; intros bs its bs' its' H Hi; inversion H as [|x op' y ops' z Hd Hr]; subst; [exact Hi|].
  destruct y as [b1 i1]. apply (IH _ _ _ _ Hr). clear IH Hr H.
  assert (Hbytes : forall f s d o, (fun it => forall t rs, it_content it = Records t rs -> Forall (fun x => List.length x = e_size t) rs) (Item f s (Bytes d) o)) by (intros; discriminate).
  inversion Hd; subst; try exact Hi; try (apply Forall_app; split; [exact Hi|constructor; [|constructor]]).
  - destruct sub. intros t rs E. discriminate.
  - intros t rs E. discriminate.
  - intros t' rs E. cbn in E. injection E as <- <-. constructor.
  - intros t' rs E. discriminate.
  - apply Forall_app in Hi as [A B]. inversion B as [|? ? C D]; subst. apply Forall_app. split; [exact A|]. constructor; [|exact D].
    intros t' rs' E. cbn in E. injection E as <- <-. apply Forall_app. split; [exact (C t rs eq_refl)|]. constructor; [|constructor].
    match goal with M : makes _ _ _ |- _ => destruct M as (L & _) end. exact L.
  - apply Forall_app in Hi as [A B]. inversion B as [|? ? C D]; subst. apply Forall_app. split; [exact A|]. constructor; [|exact D]. intros t' rs' E. discriminate.
  - apply Forall_app in Hi as [A B]. inversion B as [|? ? C D]; subst. apply Forall_app. split; [exact A|]. constructor; [|exact D]. intros t' rs' E. discriminate.
  - apply Forall_app in Hi as [A B]. inversion B as [|? ? C D]; subst. apply Forall_app. split; [exact A|]. constructor; [|exact D]. exact C.
Qed.
Theorem C84_cpp_built : forall checks p q limit a ca ops bs its s x,
  p_reuse q = false -> 16 <= limit -> does_all ([("", ca)], [signature "" ca]) ops (bs, its) -> Forall storable its ->
  bsteps limit q (begin_session q [] ca empty_store) ops = Value s ->
  (forall t, ~ In (Records t []) (map it_content its) \/ e_overlap t = false) ->
  p_null_empty p = false -> rsane a -> rfinished its "" a x ->
  snd (ropen checks p a (forget (se_store s)) "") = ROk x.
Proof.
  intros checks p q limit a ca ops bs its s x Hq Hl Hd Hst E Hov Hp Ha Hfin. assert (H8 : 8 <= limit) by lia.
  destruct (steps_invariant limit q ops _ _ _ _ _ Hq H8 (begin_invariant limit q ca Hq) Hd) as (s' & E' & I).
  assert (s' = s) by congruence. subst s'. pose proof (session_sane _ _ _ _ _ I Hst) as Hsane.
  pose proof (i_items _ _ _ _ _ I) as Hh. rewrite Forall_forall in Hh.
  assert (Hcl : forall it, In it its -> it_open it = false -> holding limit q s it) by auto. unfold holding in Hcl.
  apply C82_ok; try assumption.
  - exact (i_sound _ _ _ _ _ I).
  - intros n d H. discriminate.
  - apply (finished_complete (file_of (se_store s)) its); try exact Hfin.
    + intros it n f Hit Ho Hin. specialize (Hcl it Hit Ho). rewrite Ho in Hcl. apply Hcl.
      replace (item_files it) with (ritem_files it); [exact Hin|]. unfold ritem_files, item_files. do 3 f_equal.
      destruct (it_content it) as [d|t [|r rs]|w bss] eqn:Ec; try reflexivity. cbn [rpayload stored_records payload].
      destruct (Hov t) as [Hn|Hn]; [|now rewrite Hn]. exfalso. apply Hn. apply in_map_iff. exists it. split; assumption.
    + intros n Hn. apply (i_others _ _ _ _ _ I). intro Hx. apply all_in in Hx as (it & Hit & Hin). exact (Hn it Hit Hin).
    + intros it t rs Hit Ho Ec. pose proof (cpp_records ops _ _ _ _ Hd) as Hc.
      assert (Hc' : Forall (fun it => forall t rs, it_content it = Records t rs -> Forall (fun x => List.length x = e_size t) rs) its).
      { apply Hc. constructor; [|constructor]. destruct ca. intros; discriminate. }
      rewrite Forall_forall in Hc'. exact (Hc' it Hit t rs Ec).
    + intros it w bss Hit Ho Ec. specialize (Hcl it Hit Ho). rewrite Ho in Hcl. apply (proj2 (proj2 (proj2 Hcl)) w bss Ec).
    + intros path [? ? ?] _. reflexivity.
Qed.

(** Where the two differ: C++ opens, Rust does not, archives with a damaged optional resource, with a vector whose size is not a multiple
    of the element's, with a structure that is cut off, with an empty vector of overlapping structures (which C++ and Python write), and
    with an optional sub-archive that is incomplete. *)
Example C84_differences :
  let a := RArch "A" [65] [RRes (CRes "v" [86] (KVec (EType 2 true)) false None); RRes (CRes "o" [79] KRaw true None);
                           RRes (CRes "i" [73] (KInst 2) true None); RSub "s" true (RArch "S" [83] [RRes (CRes "d" [68] KRaw false None)])] in
  let w st n s d := rust_write_resource rust_file_storage st n s d in
  let st v o i := w (w (w (w empty_store "A.archive" [65] []) "v" [86] v) "o" o [1; 2]) "i" [73] i in
  let rust st := snd (ropen true rust_file_storage a st "") in
  let cpp st := is_open (snd (cpp_open cpp_file_storage ["s/"] (as_cpp a) (forget st) "")) in
  let good := st [1; 2; 3; 4] [79] [5; 6] in
  rsane a /\ schemas_nonempty a /\ sound good /\
  (exists x, rust good = ROk x /\ agree a x (snd (cpp_open cpp_file_storage ["s/"] (as_cpp a) (forget good) ""))) /\
  (rust (st [1; 2; 3; 4] [80] [5; 6]), cpp (st [1; 2; 3; 4] [80] [5; 6])) = (RErr ESignature, true) /\
  (rust (st [1; 2; 3; 4; 5] [79] [5; 6]), cpp (st [1; 2; 3; 4; 5] [79] [5; 6])) = (RErr ESize, true) /\
  (rust (st [1; 2; 3; 4] [79] [5]), cpp (st [1; 2; 3; 4] [79] [5])) = (RPanic, true) /\
  (rust (st [] [79] [5; 6]), cpp (st [] [79] [5; 6])) = (RErr ESize, true) /\
  (rust (w good "s/S.archive" [83] []), cpp (w good "s/S.archive" [83] [])) = (RErr EMissingData, true).
Proof.
  cbv zeta. split; [|split; [|split; [|split]]].
  - constructor; [reflexivity| |].
    + intros r [E|[E|[E|[E|[]]]]]; try discriminate; injection E as <-; split; try reflexivity; cbn; lia.
    + intros n o a [E|[E|[E|[E|[]]]]]; try discriminate. injection E as <- <- <-. constructor; [reflexivity| |].
      * intros r [E|[]]. injection E as <-. split; [reflexivity|exact I].
      * intros n o a [E|[]]. discriminate.
  - constructor; [discriminate| |].
    + intros r [E|[E|[E|[E|[]]]]]; try discriminate; injection E as <-; discriminate.
    + intros n o a [E|[E|[E|[E|[]]]]]; try discriminate. injection E as <- <- <-. constructor; [discriminate| |].
      * intros r [E|[]]. injection E as <-. discriminate.
      * intros n o a [E|[]]. discriminate.
  - split; [|split]; vm_compute; repeat constructor; cbn; intuition (try congruence; try lia; discriminate).
  - eexists. split; [vm_compute; reflexivity|]. vm_compute. constructor.
    do 3 (match goal with |- agree_members (RRes ?r :: _) ((_, Some (RCValue ?v)) :: _) _ _ => apply (AgreeRes r (Some v)) end). apply AgreeNoSub. apply AgreeNil.
  - vm_compute. repeat split.
Qed.

(** The archive of C77_instance, written by C++ *)
Example C84_instance :
  let a := RArch "A" [65] [RRes (CRes "v" [86] (KVec (EType 1 false)) false (Some 5)); RRes (CRes "m" [77] (KMulti 8 [1%nat]) false None); RRes (CRes "d" [68] KRaw true None);
                           RSub "s" false rsub_example; RSub "t" true rsub_example] in
  let x := ROpened [("v", Some (RCValue (RVVec (AView ([7; 9] ++ zeros 8) 2))));
                    ("m", Some (RCValue (RVMulti (RMView (AView ([0; 2] ++ zeros 8) 1) (Desc ([0; 3] ++ zeros 8) 2))))); ("d", None);
                    ("s", Some (RCArchive (ROpened [("i", Some (RCValue (RVInst (5 :: zeros 8))))]))); ("t", None)] in
  as_cpp a = archive_example /\ rsane a /\ rfinished items_example "" a x /\
  (forall t, ~ In (Records t []) (map it_content items_example) \/ e_overlap t = false) /\
  exists s, bsteps block_limit cpp_file_storage (begin_session cpp_file_storage [] archive_example empty_store) ops_example = Value s /\
    snd (ropen true rust_file_storage a (forget (se_store s)) "") = ROk x.
Proof.
  cbv zeta.
  assert (Ha : rsane (RArch "A" [65] [RRes (CRes "v" [86] (KVec (EType 1 false)) false (Some 5)); RRes (CRes "m" [77] (KMulti 8 [1%nat]) false None); RRes (CRes "d" [68] KRaw true None);
                           RSub "s" false rsub_example; RSub "t" true rsub_example])).
  { constructor; [reflexivity| |].
    - intros r [F|[F|[F|[F|[F|[]]]]]]; try discriminate; injection F as <-; split; try reflexivity; cbn; lia.
    - intros n o a [F|[F|[F|[F|[F|[]]]]]]; try discriminate; injection F as <- <- <-; exact rsub_sane. }
  assert (Hov : forall t, ~ In (Records t []) (map it_content items_example) \/ e_overlap t = false).
  { intros t. left. intros H. cbn in H. repeat (destruct H as [H|H]; [discriminate|]). exact H. }
  split; [reflexivity|]. split; [exact Ha|].
  match goal with |- rfinished ?its ?p ?a ?x /\ _ => assert (Hfin : rfinished its p a x) end.
  { constructor; [left; reflexivity|]. repeat apply Forall2_cons; [| | | | |constructor].
    + apply (RFinishedRes _ "" (CRes "v" [86] (KVec (EType 1 false)) false (Some 5)) (Records (EType 1 false) [[7]; [9]])).
      * right; left; reflexivity.
      * apply (ShownVec (EType 1 false) [[7]; [9]]).
      * intros m F. assert (m = 5) as -> by (cbn in F; congruence). cbn. lia.
    + apply (RFinishedRes _ "" (CRes "m" [77] (KMulti 8 [1%nat]) false None) (Buckets 8 [[(0, [3])]])).
      * right; right; right; left; reflexivity.
      * apply (ShownMulti 8 [1%nat] [[(0, [3])]]).
      * intros m F. discriminate.
    + apply (RFinishedNone _ "" (CRes "d" [68] KRaw true None)); [reflexivity| |exact I]. apply untouched_ok. vm_compute. reflexivity.
    + apply (RFinishedSub _ "" "s" false rsub_example). constructor; [right; right; left; reflexivity|]. repeat constructor.
      apply (RFinishedRes _ "s/" (CRes "i" [73] (KInst 1) false None) (Bytes [5])).
      * right; right; right; right; left; reflexivity.
      * apply (ShownInst [5]).
      * intros m F. discriminate.
    + apply (RFinishedNoSub _ "" "t" "S" [83]). apply untouched_ok. vm_compute. reflexivity. }
  split; [exact Hfin|]. split; [exact Hov|]. assert (Hlim : 16 <= block_limit) by (unfold block_limit; lia).
  pose proof C77_instance as (Hd & Hst & _ & s & E & _). exists s. split; [exact E|].
  exact (C84_cpp_built true rust_file_storage cpp_file_storage block_limit _ archive_example ops_example _ _ s _ eq_refl Hlim Hd Hst E Hov eq_refl Ha Hfin).
Qed.
