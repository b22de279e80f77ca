(** C85, C86: archives read with Go. *)
From Coq Require Import List ZArith Bool String Lia.
From Verif Require Import PyBase Spec BitFacts DataAccess Structure Resources Builder Archive ArchiveSpec Codecs CodecSpec CodecFacts CodecThms Props_Codecs
  Streams StoreSpec CppStore RustStore RustSpec StoreFacts CppFacts CppViews CppMulti RustMulti Props_Cpp
  CppArchive RustArchive CppArchiveSpec RustArchiveSpec RustArchiveFacts CrossSpec GenTreeFacts ResourceFacts GoArchive GoSpec GoFacts.
Import ListNotations.
Local Open Scope string_scope.
Local Open Scope Z_scope.

(** ** C85 *)

(** Opening gives an error exactly if some resource has files that cannot be used, and then the error of the first one; otherwise it
    succeeds. *)
Theorem C85_open : forall F a path,
  (forall e, go_open F a path = GErr e <-> gfails F path a e) /\ ((exists l, go_open F a path = GOk l) <-> gopens F path a).
Proof.
  intros F a path. split.
  - intros e. split; [|apply gfails_unique]. intros H. destruct (go_open_facts F a path) as [(e' & _ & E & Hf)|(l & E & _)]; [|congruence].
    assert (e' = e) by congruence. now subst.
  - split.
    + intros [l H]. destruct (go_open_facts F a path) as [(e' & _ & E & Hf)|(l' & E & _ & Ho)]; [congruence|assumption].
    + intros Ho. destruct (go_open_facts F a path) as [(e' & _ & E & Hf)|(l' & E & _)]; [now apply gfails_not in Hf|eauto].
Qed.

(** The archive object then has a member for each resource, with the bytes of its files, open if (all of) its files are there. *)
Theorem C85_members : forall F a path l, go_open F a path = GOk l -> gshows F path a l.
Proof.
  intros F a path l H. destruct (go_open_facts F a path) as [(e' & _ & E & _)|(l' & E & Hs & _)]; [congruence|]. assert (l' = l) by congruence. now subst.
Qed.

(** No signature and no resource is needed, not even a mandatory one: an empty directory is an open archive. *)
Theorem C85_empty : forall F a path, (forall x, F (path ++ x) = None) -> exists l, go_open F a path = GOk l /\ Forall (fun m => gclosed (snd m)) l.
Proof.
  intros F. induction a as [name schema ms IH] using rarch_ind'. intros path Hn. rewrite go_open_eq. induction ms as [|m ms IHm].
  - exists []. split; [reflexivity|constructor].
  - inversion IH as [|? ? Hm Hms]; subst. destruct (IHm Hms) as (l & El & Hl). cbn [go_members].
    assert (exists v, go_member F path m = GOk v /\ gclosed (snd v)) as (v & Ev & Hv).
    { destruct m as [r|n o a]; cbn [go_member].
      - unfold go_load, go_descriptor. rewrite Hn. unfold go_index_of. destruct (c_kind r) as [sz|t|w ts|].
        3:{ unfold go_descriptor. rewrite str_app_assoc, Hn. eexists. split; [reflexivity|]. now constructor. }
        all: eexists; (split; [reflexivity|now constructor]).
      - cbn [sub_of] in Hm. destruct (Hm (path ++ go_lower n ++ "/")%string) as (l' & E' & Hc).
        { intros x. rewrite !str_app_assoc. apply Hn. }
        rewrite E'. eexists. split; [reflexivity|]. constructor. auto. }
    rewrite Ev, El. exists (v :: l). split; [reflexivity|]. now constructor.
Qed.

(** An archive that Rust opens (so that C++ shows the same, C84) opens in Go, and shows the same, if its sub-archives have lower case names. *)
Theorem C85_rust : forall F path a x, complete F path a x -> schemas_nonempty a -> lower_case F path a ->
  exists g, go_open F a path = GOk g /\ gagrees a x g.
Proof.
  intros F path a. revert path. induction a as [name schema ms IH] using rarch_ind'. intros path x Hc Hn Hl. rewrite go_open_eq.
  inversion Hc as [? ? ? ? l _ Hm]; subst. inversion Hn as [? ? ? _ Hr Hsub]; subst. inversion Hl as [? ? ? ? Hlow]; subst.
  assert (G : exists g, go_members F path ms = GOk g /\ gagrees_members ms l g).
  2:{ destruct G as (g & E & Hg). exists g. split; [assumption|now constructor]. }
  clear Hc Hn Hl. revert l Hm. induction ms as [|m ms IHm]; intros l Hm; inversion Hm as [|? y ? l' Hy Hm']; subst.
  { exists []. split; [reflexivity|constructor]. }
  inversion IH as [|? ? Hs Hss]; subst.
  destruct (IHm Hss) with (l := l') as (g & Eg & Hg); auto.
  { intros. eapply Hr. now right. } { intros. eapply Hsub. right. eassumption. } { intros. eapply Hlow. right. eassumption. }
  cbn [go_members]. clear IHm.
  assert (Hframe : forall n s f d, rstored F n s f d -> s <> [] -> go_descriptor F n = GOk (f, s)).
  { intros n s f d (A & (pad & Lp & Ef) & B) Hs0. unfold go_descriptor. rewrite A.
    replace (zlen f <? 8 + 8) with false; [|symmetry; apply Z.ltb_ge; rewrite Ef, !zlen_app, zlen_to_le; unfold zlen at 2; rewrite Lp; pose proof (zlen_nonneg d); lia].
    unfold schema_file in B. rewrite B. destruct s as [|c s]; [congruence|]. replace (zlen (c :: s) =? 0) with false by (unfold zlen; cbn [List.length]; lia). reflexivity. }
  assert (Hsame : forall s : list Z, (if list_eq_dec Z.eq_dec s s then true else false) = true) by (intros s; destruct (list_eq_dec Z.eq_dec s s); congruence).
  inversion Hy as [? r v Hv Hmax|? r Hopt Habs|? n o a z Hz|? n sname sschema sms Hnone]; subst.
  - (* a resource that is there *)
    assert (Hne : c_schema r <> []) by (apply Hr; now left).
    assert (exists v', go_load F path r = GOk v' /\ gsame (Some v) v' /\ g_optional v' = c_optional r) as (v' & E & Hv' & Ho).
    { unfold go_load. unfold rshows in Hv. destruct (c_kind r) as [sz|t|w ts|] eqn:Ek.
      - destruct Hv as (f & data & St & _ & ->). rewrite (Hframe _ _ _ _ St Hne). cbn [go_index_of]. rewrite Hsame. cbn [negb andb].
        eexists. split; [reflexivity|]. split; [|reflexivity]. split; [reflexivity|]. exists f, data. destruct St as (_ & Hh & _). auto.
      - destruct Hv as (f & data & rs & rest & St & Hco & ->). rewrite (Hframe _ _ _ _ St Hne). cbn [go_index_of]. rewrite Hsame. cbn [negb andb].
        eexists. split; [reflexivity|]. split; [|reflexivity]. split; [reflexivity|]. exists f, data. destruct St as (_ & Hh & _). destruct Hco as (Ed & _).
        split; [reflexivity|]. split; [assumption|]. injection Ed as Ed _. symmetry. exact Ed.
      - destruct Hv as (f & data & fi & di & rs & rest & St & Sti & Hco & ->). rewrite (Hframe _ _ _ _ St Hne). cbn [go_index_of].
        unfold index_name in Sti. assert (Hni : index_schema (c_schema r) <> []) by (unfold index_schema; cbn; discriminate).
        rewrite (Hframe _ _ _ _ Sti Hni). rewrite Hsame. cbn [negb andb].
        eexists. split; [reflexivity|]. split; [|reflexivity]. split; [reflexivity|]. exists f, data. destruct St as (_ & Hh & _), Sti as (_ & Hhi & _). destruct Hco as (Ed & _).
        split; [reflexivity|]. split; [assumption|]. split; [reflexivity|]. exists fi, di. split; [reflexivity|]. split; [assumption|]. injection Ed as Ed _. symmetry. exact Ed.
      - destruct Hv as (f & data & St & ->). rewrite (Hframe _ _ _ _ St Hne). cbn [go_index_of]. rewrite Hsame. cbn [negb andb].
        eexists. split; [reflexivity|]. split; [|reflexivity]. split; [reflexivity|]. exists f, data. destruct St as (_ & Hh & _). auto. }
    cbn [go_member]. rewrite E, Eg. eexists. split; [reflexivity|]. now apply (GAgreesRes r (Some v)).
  - (* an absent resource *)
    destruct Habs as [A B]. assert (exists v', go_load F path r = GOk v' /\ gsame None v' /\ g_optional v' = c_optional r) as (v' & E & Hv' & Ho).
    { unfold go_load, go_descriptor. rewrite A. unfold go_index_of. destruct (c_kind r) as [sz|t|w ts|].
      3:{ unfold go_descriptor. unfold index_name in B. rewrite B. eexists. split; [reflexivity|]. cbn. auto. }
      all: eexists; (split; [reflexivity|cbn; auto]). }
    cbn [go_member]. rewrite E, Eg. eexists. split; [reflexivity|]. now apply (GAgreesRes r None).
  - (* a sub-archive *)
    destruct a as [sname sschema sms]. destruct (Hlow n o sname sschema sms) as (Lo & Ls & _); [now left|].
    cbn [sub_of] in Hs. destruct (Hs _ _ Hz) as (g' & E & Hg'); [eapply Hsub; now left|assumption|].
    cbn [go_member]. rewrite Lo, E, Eg. eexists. split; [reflexivity|]. now constructor.
  - destruct (Hlow n true sname sschema sms) as (Lo & Ls & Lx); [now left|].
    destruct (C85_empty F (RArch sname sschema sms) (path ++ n ++ "/")) as (g' & E & Hg').
    { intros y. rewrite !str_app_assoc. now apply Lx. }
    cbn [go_member]. rewrite Lo, E, Eg. eexists. split; [reflexivity|]. constructor; [|assumption]. constructor. auto.
Qed.

(** [Close] leaves no resource open, in any sub-archive; closing again changes nothing. *)
Theorem C85_close : forall c, gclosed (go_close c) /\ go_close (go_close c) = go_close c.
Proof.
  fix IH 1. intros [r|o open l].
  - cbn [go_close]. destruct (g_open r) eqn:E; cbn; [|rewrite E]; split; try reflexivity; constructor; auto.
  - cbn [go_close]. destruct open.
    + cbn [go_close]. split.
      * constructor. intros _. induction l as [|[n c] l IHl]; cbn [map]; constructor; [apply (IH c)|exact IHl].
      * f_equal. induction l as [|[n c] l IHl]; [reflexivity|]. cbn [map fst snd]. rewrite (proj2 (IH c)), IHl. reflexivity.
    + split; [constructor; discriminate|reflexivity].
Qed.
(** The size of an archive in bytes: that of the data files of its open members, at every depth (not of the indices of multivectors, nor
    of the schemas) *)
Theorem C85_size : forall c, exists files, open_files c files /\ go_bytes c = zlen (List.concat files) /\ forall files', open_files c files' -> files' = files.
Proof.
  fix IH 1. intros [r|o open l].
  - destruct (g_open r) eqn:E; [destruct (g_data r) as [d|] eqn:D|].
    + exists [d]. split; [now apply FilesRes|]. split; [cbn; now rewrite E, D, app_nil_r|]. intros f' H. inversion H; subst; [congruence|]. destruct H1; congruence.
    + exists []. split; [apply FilesNoRes; now right|]. split; [cbn; now rewrite E, D|]. intros f' H. inversion H; subst; [congruence|reflexivity].
    + exists []. split; [apply FilesNoRes; now left|]. split; [cbn; now rewrite E|]. intros f' H. inversion H; subst; [congruence|reflexivity].
  - destruct open.
    + assert (X : exists fs, Forall2 (fun x f => open_files (snd x) f) l fs /\ go_bytes (GCSub o true l) = zlen (List.concat (List.concat fs)) /\ forall fs', Forall2 (fun x f => open_files (snd x) f) l fs' -> fs' = fs).
      { induction l as [|[n c] l IHl].
        - exists []. split; [constructor|]. split; [reflexivity|]. intros fs' H. now inversion H.
        - destruct IHl as (fs & A & B & C). destruct (IH c) as (f & Fa & Fb & Fc). exists (f :: fs). split; [now constructor|]. split.
          + cbn [go_bytes snd] in *. rewrite Fb, B. cbn [List.concat]. rewrite concat_app, zlen_app. reflexivity.
          + intros fs' H. inversion H; subst. cbn [snd] in *. f_equal; [now apply Fc|now apply C]. }
      destruct X as (fs & A & B & C). exists (List.concat fs). split; [now constructor|]. split; [exact B|]. intros f' H. inversion H; subst. now rewrite (C _ H3).
    + exists []. split; [constructor|]. split; [reflexivity|]. intros f' H. now inversion H.
Qed.

(** ** C86 *)

Lemma shows_record_at f pre r post : f = (pre ++ r ++ post)%list -> is_bytes f -> 1 <= zlen post -> shows_record f (zlen pre) r.
Proof.
  intros Ef Hb Hp wT sT off n (H0 & Hn & Hin & Ht & Hs).
  assert (Hz : zlen f = zlen pre + zlen r + zlen post) by (rewrite Ef, !zlen_app; lia).
  unfold zlen in Hin, Hz, Hp. rewrite C53_reader_partial; auto; try (unfold zlen; lia). f_equal.
  rewrite <- schema_value_skipn by (unfold zlen; lia). unfold zlen. rewrite Nat2Z.id, Ef, skipn_app, skipn_all2, Nat.sub_diag, skipn_O by lia. cbn [app].
  assert (E : forall i, off <= i < off + n -> bit_at (r ++ post) i = bit_at r i).
  { intros i Hi. unfold bit_at. f_equal. apply app_nth1. lia. }
  unfold schema_value. rewrite E by lia. destruct (n =? 1); [reflexivity|]. unfold field_value.
  rewrite (uint_at_ext (r ++ post) r) by (intros i Hi; apply E; lia). reflexivity.
Qed.

Lemma go_len_holds f data : holds_resource f data -> zlen f < 2 ^ 63 -> go_len f = zlen data.
Proof.
  intros H Hl. pose proof H as (pad & Lp & Ef).
  assert (Hz : zlen f = zlen data + 16) by (rewrite Ef, !zlen_app, zlen_to_le; unfold zlen at 2; rewrite Lp; lia).
  pose proof (zlen_nonneg data). destruct (holds_header f data H) as (E & _); [lia|].
  unfold go_len, go_read_at. replace (0 + 8 <=? List.length f)%nat with true by (symmetry; apply Nat.leb_le; unfold zlen in *; lia).
  rewrite skipn_O, E. apply cast_signed_small; [lia|]. lia.
Qed.
Lemma go_position_at size i : 0 <= i -> i * Z.of_nat size + 8 < 2 ^ 63 -> go_position size i = i * Z.of_nat size + 8.
Proof.
  intros Hi Hl. unfold go_position. rewrite (Z.mod_small (i * Z.of_nat size)) by nia. rewrite Z.mod_small by nia. apply cast_signed_small; [lia|]. nia.
Qed.
Lemma concat_length (rs : list (list Z)) size : Forall (fun r => List.length r = size) rs -> List.length (List.concat rs) = (List.length rs * size)%nat.
Proof. induction 1 as [|r rs Hr _ IH]; [reflexivity|]. cbn [List.concat List.length]. rewrite app_length, IH, Hr. lia. Qed.

(** A vector: as many elements as records in the file (for structures with a range, this counts the sentinel at the end, too), each
    showing its record *)
Theorem C86_vector : forall size f rs, (0 < size)%nat -> is_bytes f -> zlen f < 2 ^ 63 -> holds_resource f (List.concat rs) ->
  Forall (fun r => List.length r = size) rs ->
  go_size size f = zlen rs /\
  forall i r, nth_error rs i = Some r -> shows_record f (go_position size (Z.of_nat i)) r.
Proof.
  intros size f rs Hs Hb Hl Hh Hr. pose proof (concat_length rs size Hr) as Lc. split.
  - unfold go_size. rewrite (go_len_holds f _ Hh Hl). unfold zlen. rewrite Lc, Nat2Z.inj_mul. rewrite Z.quot_mul by lia. reflexivity.
  - intros i r Hi. destruct (nth_error_split rs i Hi) as (r1 & r2 & Er & Li). destruct Hh as (pad & Lp & Ef).
    assert (H1 : Forall (fun r => List.length r = size) r1) by (rewrite Er in Hr; apply Forall_app in Hr; apply Hr).
    assert (Hz : zlen (to_le 8 (zlen (List.concat rs)) ++ List.concat r1) = Z.of_nat i * Z.of_nat size + 8).
    { rewrite zlen_app, zlen_to_le. unfold zlen. rewrite (concat_length r1 size H1), Li. lia. }
    assert (Ef' : f = ((to_le 8 (zlen (List.concat rs)) ++ List.concat r1) ++ r ++ List.concat r2 ++ pad)%list).
    { rewrite Ef, Er, concat_app. cbn [List.concat]. now rewrite <- !app_assoc. }
    rewrite go_position_at, <- Hz; [|lia|].
    + eapply shows_record_at; [exact Ef'|assumption|]. rewrite zlen_app. unfold zlen. rewrite Lp. lia.
    + rewrite <- Hz. rewrite Ef', zlen_app in Hl. pose proof (zlen_nonneg (r ++ List.concat r2 ++ pad)). lia.
Qed.

(** [GetSlice(start, end, step)] gives the elements [start], [start + step], ... up to and including [end]; for other steps it does not return
    (unless [start > end]). *)
Theorem C86_slice : forall size start stop step,
  go_slice size start stop step =
    if stop <? start then Some []
    else if step <=? 0 then None
    else Some (map (fun k => go_position size (start + Z.of_nat k * step)) (seq 0 (S (Z.to_nat ((stop - start) / step))))).
Proof.
  intros size start stop step. unfold go_slice.
  assert (G : forall fuel start, stop - start < Z.of_nat fuel -> 0 < step -> start <= stop ->
     go_slice_from fuel size start stop step = Some (map (fun k => go_position size (start + Z.of_nat k * step)) (seq 0 (S (Z.to_nat ((stop - start) / step)))))).
  { induction fuel as [|fuel IH]; intros s Hf Hs Hle; [lia|]. cbn [go_slice_from]. replace (s <=? stop) with true by lia.
    destruct (Z.leb_spec (s + step) stop) as [H|H].
    - rewrite IH by lia. cbn [obind]. f_equal.
      replace (Z.to_nat ((stop - s) / step)) with (S (Z.to_nat ((stop - (s + step)) / step))).
      2:{ replace (stop - s) with (stop - (s + step) + 1 * step) by lia. rewrite Z_div_plus by lia.
          pose proof (Z.div_pos (stop - (s + step)) step). lia. }
      cbn [seq map]. f_equal; [f_equal; lia|]. rewrite <- (seq_shift _ 1), map_map. cbn [map]. f_equal; [f_equal; lia|].
      apply map_ext. intros k. f_equal. lia.
    - destruct fuel; cbn [go_slice_from]; replace (s + step <=? stop) with false by lia; cbn [obind];
        rewrite (Z.div_small (stop - s) step) by lia; cbn; do 2 f_equal; f_equal; lia. }
  destruct (Z.ltb_spec stop start) as [H|H].
  { destruct (Z.to_nat (stop - start + 1)); cbn [go_slice_from]; now replace (start <=? stop) with false by lia. }
  destruct (Z.leb_spec step 0) as [Hs|Hs]; [|apply G; lia].
  assert (N : forall fuel start, start <= stop -> go_slice_from fuel size start stop step = None).
  { induction fuel as [|fuel IH]; intros s Hle; cbn [go_slice_from]; replace (s <=? stop) with true by lia; [reflexivity|]. rewrite IH by lia. reflexivity. }
  now apply N.
Qed.

(** An instance shows its record, raw data gives its bytes. *)
Theorem C86_instance_raw : forall f data, is_bytes f -> zlen f < 2 ^ 63 -> holds_resource f data ->
  shows_record f go_instance data /\ go_raw f = Some data.
Proof.
  intros f data Hb Hl Hh. pose proof (go_len_holds f data Hh Hl) as El. destruct Hh as (pad & Lp & Ef). split.
  - replace go_instance with (zlen (to_le 8 (zlen data))) by (rewrite zlen_to_le; reflexivity).
    eapply shows_record_at; [exact Ef|assumption|]. unfold zlen. rewrite Lp. lia.
  - unfold go_raw. rewrite El. pose proof (zlen_nonneg data). replace (zlen data <? 0) with false by lia.
    unfold go_read_at. replace (8 + Z.to_nat (zlen data) <=? List.length f)%nat with true.
    2:{ symmetry. apply Nat.leb_le. rewrite Ef, !app_length, to_le_length. unfold zlen. lia. }
    rewrite Ef. rewrite skipn_app, to_le_length, Nat.sub_diag, skipn_O, skipn_all2 by (rewrite to_le_length; lia). cbn [app].
    rewrite firstn_app. unfold zlen. rewrite Nat2Z.id, Nat.sub_diag, firstn_all, firstn_O, app_nil_r. reflexivity.
Qed.

(** *** Multivectors *)

Lemma go_read_byte f pre b post : f = (pre ++ b :: post)%list -> is_bytes f -> 1 <= zlen post -> go_read f (zlen pre * 8) 8 false = Some b.
Proof.
  intros Ef Hb Hp. assert (Hz : zlen f = zlen pre + 1 + zlen post) by (rewrite Ef, zlen_app; unfold zlen; cbn [List.length]; lia).
  pose proof (zlen_nonneg pre). rewrite go_read_value; auto; try lia.
  - assert (Hbb : 0 <= b < 256) by (rewrite Ef, is_bytes_app in Hb; destruct Hb as [_ Hb]; now inversion Hb).
    assert (E : field_value f (zlen pre * 8) 8 false = b).
    { unfold field_value. change (Z.to_nat 8) with 8%nat.
      replace (zlen pre * 8) with (8 * zlen pre + 0) by lia. rewrite Ef, uint_shift by lia. 
      change (b :: post) with ([b] ++ post)%list. rewrite uint_prefix by (unfold zlen; cbn; lia).
      apply Z.bits_inj'. intros i Hi. rewrite uint_at_testbit by lia.
      destruct (Z.ltb_spec i (Z.of_nat 8)) as [H8|H8]; cbn [andb].
      - replace (0 + i) with (8 * Z.of_nat 0 + i) by lia. rewrite bit_at_nth by lia. reflexivity.
      - symmetry. apply Z.bits_above_log2; [lia|]. destruct (Z.eq_dec b 0) as [->|]; [cbn; lia|]. apply Z.log2_lt_pow2; [lia|].
        assert (2 ^ 8 <= 2 ^ i) by (apply Z.pow_le_mono_r; lia). lia. }
    rewrite E. f_equal. apply cast_signed_small; lia.
  - unfold go_ok. intros Es. discriminate.
Qed.
Lemma set_position_facts ps ti x : (ti < List.length ps)%nat ->
  List.length (set_position ps ti x) = List.length ps /\ nth ti (set_position ps ti x) 0 = x /\ forall j, j <> ti -> nth j (set_position ps ti x) 0 = nth j ps 0.
Proof.
  intros H. unfold set_position. revert ps H. induction ti as [|ti IH]; intros [|p ps] H; cbn [List.length] in H; try lia.
  - cbn. split; [reflexivity|]. split; [reflexivity|]. intros [|j] Hj; [congruence|reflexivity].
  - change (skipn (S (S ti)) (p :: ps)) with (skipn (S ti) ps). cbn [firstn app List.length nth]. destruct (IH ps ltac:(lia)) as (A & B & C). split; [now rewrite A|]. split; [exact B|].
    intros [|j] Hj; [reflexivity|]. cbn [nth]. apply C. congruence.
Qed.

Lemma go_bucket_from_facts types f : is_bytes f -> forall es fuel pre post objects, (List.length es < fuel)%nat -> f = (pre ++ bucket es ++ post)%list -> 1 <= zlen post ->
  Forall (known types) es -> List.length objects = List.length types ->
  exists objects', go_bucket_from fuel types f (zlen pre) (zlen pre + zlen (bucket es)) objects = Some (objects', map fst es) /\
    List.length objects' = List.length types /\
    forall ti, match last_of ti es with Some r => shows_record f (nth ti objects' 0) r | None => nth ti objects' 0 = nth ti objects 0 end.
Proof.
  intros Hb. induction es as [|e es IH]; intros [|fuel] pre post objects Hf Ef Hp Hk Ho; try (cbn in Hf; lia).
  - cbn [go_bucket_from]. rewrite bucket_nil. replace (zlen pre <? zlen pre + 0) with false by lia. exists objects. split; [reflexivity|]. split; [assumption|]. reflexivity.
  - inversion Hk as [|? ? He Hes]; subst x l. rewrite bucket_cons, zlen_app, element_zlen. pose proof (zlen_nonneg (snd e)). pose proof (zlen_nonneg (bucket es)).
    rewrite bucket_cons in Ef. cbn [go_bucket_from]. replace (zlen pre <? zlen pre + (1 + zlen (snd e) + zlen (bucket es))) with true by lia.
    assert (Ef1 : f = (pre ++ fst e :: (snd e ++ bucket es ++ post))%list) by (rewrite Ef; unfold element; cbn [app]; now rewrite <- app_assoc).
    assert (Ef2 : f = ((pre ++ [fst e]) ++ snd e ++ (bucket es ++ post))%list) by (rewrite Ef1, <- app_assoc; reflexivity).
    assert (Ef3 : f = ((pre ++ element e) ++ bucket es ++ post)%list) by (rewrite Ef1; unfold element; now rewrite <- !app_assoc).
    rewrite (go_read_byte f pre (fst e) _ Ef1 Hb) by (rewrite !zlen_app; lia). cbn [obind]. rewrite (known_size types e He).
    destruct He as [He0 Hen].
    assert (Hti : (Z.to_nat (fst e) < List.length objects)%nat) by (rewrite Ho; apply nth_error_Some; congruence).
    destruct (set_position_facts objects (Z.to_nat (fst e)) (zlen pre + 1) Hti) as (S1 & S2 & S3).
    destruct (IH fuel (pre ++ element e)%list post (set_position objects (Z.to_nat (fst e)) (zlen pre + 1))) as (objects' & E & L & Hl); auto; [cbn in Hf; lia|congruence|].
    rewrite zlen_app, element_zlen in E. change (Z.of_nat (List.length (snd e))) with (zlen (snd e)).
    replace (zlen pre + 1 + zlen (snd e)) with (zlen pre + (1 + zlen (snd e))) by lia.
    replace (zlen pre + (1 + zlen (snd e) + zlen (bucket es))) with (zlen pre + (1 + zlen (snd e)) + zlen (bucket es)) by lia.
    rewrite E. cbn [obind fst snd]. exists objects'. split; [reflexivity|]. split; [assumption|].
    intros ti. specialize (Hl ti). cbn [last_of]. destruct (last_of ti es) as [r|]; [assumption|]. rewrite Hl.
    destruct (Z.eqb_spec (fst e) (Z.of_nat ti)) as [Et|Et].
    + replace (Z.to_nat (fst e)) with ti in * by lia. rewrite S2.
      replace (zlen pre + 1) with (zlen (pre ++ [fst e])) by (rewrite zlen_app; reflexivity).
      eapply shows_record_at; [exact Ef2|assumption|]. rewrite zlen_app. lia.
    + apply S3. lia.
Qed.

Lemma go_offset_at w f fi points i q : 1 <= w <= 64 -> is_bytes fi -> zlen fi < 2 ^ 63 -> holds_resource fi (List.concat (map (to_le (index_bytes w)) points)) ->
  Forall (fun q => 0 <= q < 2 ^ w) points -> nth_error points i = Some q -> q + 8 < 2 ^ 63 -> go_offset w f fi (Z.of_nat i) = Some (q + 8).
Proof.
  intros Hw Hb Hl Hh Hp Hi Hq. assert (Hs : (0 < index_bytes w)%nat) by (unfold index_bytes; lia).
  assert (Hlen : Forall (fun r => List.length r = index_bytes w) (map (to_le (index_bytes w)) points)).
  { apply Forall_map, Forall_forall. intros; apply to_le_length. }
  destruct (C86_vector (index_bytes w) fi (map (to_le (index_bytes w)) points) Hs Hb Hl Hh Hlen) as (Hsz & Hv).
  assert (Hq0 : 0 <= q < 2 ^ w) by (rewrite Forall_forall in Hp; apply Hp; eapply nth_error_In; eassumption).
  unfold go_offset. cbn [index_type e_size]. fold (index_bytes w). rewrite Hsz.
  assert (Hlt : (i < List.length points)%nat) by (apply nth_error_Some; congruence).
  replace (Z.of_nat i =? zlen (map (to_le (index_bytes w)) points)) with false by (unfold zlen; rewrite map_length; lia).
  rewrite (Hv i (to_le (index_bytes w) q)).
  - cbn [obind]. f_equal.
    assert (Eq : schema_value (to_le (index_bytes w) q) 0 w false = q).
    { rewrite schema_uint. apply Z.bits_inj'. intros k Hk. rewrite uint_at_testbit by lia. rewrite Z.add_0_l, to_le_testbit by lia.
      destruct (Z.ltb_spec k w) as [H1|H1].
      - replace (k <? Z.of_nat (Z.to_nat w)) with true by lia. replace (k <? 8 * Z.of_nat (index_bytes w)) with true by (unfold index_bytes in *; lia). reflexivity.
      - replace (k <? Z.of_nat (Z.to_nat w)) with false by lia. cbn [andb]. symmetry. destruct (Z.eq_dec q 0) as [->|]; [apply Z.bits_0|].
        apply Z.bits_above_log2; [lia|]. apply Z.log2_lt_pow2; [lia|]. assert (2 ^ w <= 2 ^ k) by (apply Z.pow_le_mono_r; lia). lia. }
    rewrite Eq. rewrite (cast_signed_small 64 q) by lia. rewrite Z.mod_small by lia. apply cast_signed_small; lia.
  - now apply map_nth_error.
  - unfold gfield. rewrite to_le_length. split; [lia|]. split; [lia|]. split; [unfold index_bytes; lia|]. split; [split; [lia|discriminate]|discriminate].
Qed.

(** A multivector says it has one bucket more than was written (the empty bucket between the sentinel of the index and the end of the
    data).  [Get(i)] gives an object for each element of bucket [i], in order, of its type; but there is only one object per type, so that
    all elements of a type in the bucket are shown as the last one. *)
Theorem C86_multivector_partial : forall w types f fi bss, 1 <= w <= 64 -> is_bytes f -> is_bytes fi -> zlen f < 2 ^ 63 -> zlen fi < 2 ^ 63 ->
  zlen (List.concat (map bucket bss)) < 2 ^ w -> Forall (Forall (known types)) bss ->
  holds_resource f (List.concat (map bucket bss)) -> holds_resource fi (index_of w (map bucket bss)) ->
  go_buckets w fi = zlen bss + 1 /\
  (forall objects, go_bucket w types f fi objects (zlen bss) = Some (objects, [])) /\
  forall i es objects, nth_error bss i = Some es -> List.length objects = List.length types ->
    exists objects', go_bucket w types f fi objects (Z.of_nat i) = Some (objects', map fst es) /\ List.length objects' = List.length types /\
      forall ti, match last_of ti es with Some r => shows_record f (nth ti objects' 0) r | None => nth ti objects' 0 = nth ti objects 0 end.
Proof.
  intros w types f fi bss Hw Hb Hbi Hl Hli Hmax Hk Hh Hhi. assert (Hs : (0 < index_bytes w)%nat) by (unfold index_bytes; lia).
  set (points := bucket_points 0 (map zlen (map bucket bss))).
  assert (Lp : List.length points = S (List.length bss)).
  { unfold points. rewrite points_starts, app_length, starts_length, map_length. cbn. lia. }
  assert (Pb : Forall (fun q => 0 <= q < 2 ^ w) points) by (apply points_bound; lia).
  assert (Hlen : Forall (fun r => List.length r = index_bytes w) (map (to_le (index_bytes w)) points)).
  { apply Forall_map, Forall_forall. intros; apply to_le_length. }
  destruct (C86_vector (index_bytes w) fi (map (to_le (index_bytes w)) points) Hs Hbi Hli Hhi Hlen) as (Hsz & _).
  assert (Hsz' : go_size (index_bytes w) fi = zlen bss + 1) by (rewrite Hsz; unfold zlen; rewrite map_length, Lp; lia).
  assert (Hzf : zlen f = zlen (List.concat (map bucket bss)) + 16).
  { destruct Hh as (pad & L8 & ->). rewrite !zlen_app, zlen_to_le. unfold zlen at 2. rewrite L8. lia. }
  assert (Hoff : forall i q, nth_error points i = Some q -> q <= zlen (List.concat (map bucket bss)) -> go_offset w f fi (Z.of_nat i) = Some (q + 8)).
  { intros i q Hi Hq. eapply go_offset_at; eauto. lia. }
  assert (Hpts : forall b1 es b2, bss = (b1 ++ es :: b2)%list ->
            nth_error points (List.length b1) = Some (zlen (List.concat (map bucket b1))) /\
            nth_error points (S (List.length b1)) = Some (zlen (List.concat (map bucket b1)) + zlen (bucket es))).
  { intros b1 es b2 Eb. unfold points. rewrite Eb. clear. change (zlen (List.concat (map bucket b1))) with (0 + zlen (List.concat (map bucket b1))).
    generalize 0 as from. induction b1 as [|b b1 IH]; intros from.
    - cbn [app map List.concat bucket_points nth_error List.length]. change (zlen (@nil Z)) with 0. rewrite Z.add_0_r. split; [reflexivity|].
      destruct b2; cbn [map bucket_points nth_error]; reflexivity.
    - cbn [app map List.concat List.length bucket_points nth_error]. rewrite zlen_app, Z.add_assoc. apply IH. }
  split; [exact Hsz'|]. split.
  - intros objects. unfold go_bucket.
    assert (Hn : nth_error points (List.length bss) = Some (zlen (List.concat (map bucket bss)))).
    { unfold points. rewrite points_starts, nth_error_app2; rewrite starts_length, map_length; [|lia]. now rewrite Nat.sub_diag. }
    change (zlen bss) with (Z.of_nat (List.length bss)). rewrite (Hoff _ _ Hn) by lia. cbn [obind].
    unfold go_offset at 1. cbn [index_type e_size]. fold (index_bytes w). rewrite Hsz'.
    replace (Z.of_nat (List.length bss) + 1 =? zlen bss + 1) with true by (unfold zlen; lia). cbn [obind]. cbn [go_bucket_from].
    replace (zlen (List.concat (map bucket bss)) + 8 <? zlen f - 8) with false by lia. reflexivity.
  - intros i es objects Hi Ho. destruct (nth_error_split bss i Hi) as (b1 & b2 & Eb & Li).
    destruct (Hpts b1 es b2 Eb) as [P1 P2]. rewrite Li in P1, P2.
    assert (Hbd : zlen (List.concat (map bucket b1)) + zlen (bucket es) <= zlen (List.concat (map bucket bss))).
    { rewrite Eb, map_app, concat_app. cbn [map List.concat]. rewrite !zlen_app. pose proof (zlen_nonneg (List.concat (map bucket b2))). lia. }
    pose proof (zlen_nonneg (bucket es)).
    unfold go_bucket. rewrite (Hoff _ _ P1) by lia. cbn [obind].
    replace (Z.of_nat i + 1) with (Z.of_nat (S i)) by lia. rewrite (Hoff _ _ P2) by lia. cbn [obind].
    destruct Hh as (pad & L8 & Ef). 
    destruct (go_bucket_from_facts types f Hb es (S (List.length f)) (to_le 8 (zlen (List.concat (map bucket bss))) ++ List.concat (map bucket b1)) (List.concat (map bucket b2) ++ pad) objects) as (objects' & E & L & Hlast).
    + assert (List.length (bucket es) <= List.length f)%nat by (unfold zlen in *; lia). pose proof (bucket_longer es). lia.
    + rewrite Ef at 1. rewrite Eb at 2. rewrite map_app, concat_app. cbn [map List.concat]. now rewrite <- !app_assoc.
    + rewrite zlen_app. unfold zlen at 2. rewrite L8. pose proof (zlen_nonneg (List.concat (map bucket b2))). lia.
    + rewrite Forall_forall in Hk. apply Hk. eapply nth_error_In; eassumption.
    + assumption.
    + exists objects'. rewrite zlen_app, zlen_to_le in E.
      replace (zlen (List.concat (map bucket b1)) + 8) with (Z.of_nat 8 + zlen (List.concat (map bucket b1))) by lia.
      replace (zlen (List.concat (map bucket b1)) + zlen (bucket es) + 8) with (Z.of_nat 8 + zlen (List.concat (map bucket b1)) + zlen (bucket es)) by lia. auto.
Qed.

(** Two elements of the same type in a bucket: both are shown as the second one. *)
Theorem C86_refuted : let bss := [[(0, [1]); (0, [2])]] in
  exists f fi p, holds_resource f (List.concat (map bucket bss)) /\ holds_resource fi (index_of 8 (map bucket bss)) /\
    go_bucket 8 [1%nat] f fi [0] 0 = Some ([p], [0; 0]) /\ go_get 8 false f p 0 8 = Some 2 /\ go_buckets 8 fi = 2.
Proof.
  cbv zeta. exists (framed [0; 1; 0; 2]), (framed [0; 4]), 11. split; [exact (framed_holds [0; 1; 0; 2])|]. split; [exact (framed_holds [0; 4])|].
  vm_compute. repeat split.
Qed.

(** A structure with a range: the sentinel at the end of the vector is counted as an element. *)
Theorem C86_range_counted : let f := framed (List.concat [[7]; [9]]) in
  go_size 1 f = 2 /\ av_size (av_create (EType 1 true) (skipn 8 f) (zlen [7; 9])) = 1.
Proof. vm_compute. split; reflexivity. Qed.

Example C86_instance :
  let f := framed (List.concat [[7; 1]; [255; 3]; [9; 0]]) in
  is_bytes f /\ holds_resource f (List.concat [[7; 1]; [255; 3]; [9; 0]]) /\ gfield 2 16 true 3 9 /\
  go_size 2 f = 3 /\ go_get 16 true f (go_position 2 1) 3 9 = Some 127 /\ go_get 16 true f (go_position 2 1) 2 8 = Some (-1) /\
  go_slice 2 0 2 2 = Some [8; 12] /\ go_slice 2 0 3 2 = Some [8; 12] /\ go_slice 2 1 0 0 = Some [] /\ go_slice 2 0 1 0 = None /\
  go_raw f = Some [7; 1; 255; 3; 9; 0] /\
  let bss := [[(0, [1]); (1, [2; 3]); (0, [4])]; []; [(1, [5; 6])]] in
  let m := framed (List.concat (map bucket bss)) in let ix := framed (index_of 16 (map bucket bss)) in
  Forall (Forall (known [1%nat; 2%nat])) bss /\ go_buckets 16 ix = 4 /\
  go_bucket 16 [1%nat; 2%nat] m ix [0; 0] 0 = Some ([14; 11], [0; 1; 0]) /\ go_bucket 16 [1%nat; 2%nat] m ix [14; 11] 2 = Some ([14; 16], [1]) /\
  go_get 16 false m 16 0 16 = Some 1541 /\ last_of 0 [(0, [1]); (1, [2; 3]); (0, [4])] = Some [4].
Proof.
  cbv zeta. split; [|split; [apply framed_holds|]].
  { vm_compute. repeat constructor; discriminate. }
  split; [unfold gfield, type_holds; change (3 mod 8) with 3; lia|]. repeat (split; [vm_compute; reflexivity|]). split; [|vm_compute; repeat split].
  repeat (apply Forall_cons || apply Forall_nil); (split; [cbn; lia|reflexivity]).
Qed.

Example C85_instance :
  let a sub := RArch "A" [65] [RRes (CRes "v" [86] (KVec (EType 2 false)) false None); RRes (CRes "m" [77] (KMulti 8 [1%nat]) true None);
                           RSub sub true (RArch "S" [83] [RRes (CRes "i" [73] (KInst 1) false None)])] in
  let files := [("v", framed [1; 2]); ("v.schema", [86]); ("m", framed [0; 1]); ("m.schema", [77]); ("m_index", framed [0; 2]); ("m_index.schema", index_schema [77]);
                ("A.archive", framed []); ("A.archive.schema", [65]); ("sub/S.archive", framed []); ("sub/S.archive.schema", [83]);
                ("sub/i", framed [5]); ("sub/i.schema", [73])] in
  let F := dict_get files in
  let with_ n b := fun x => if String.eqb x n then b else F x in
  let vec := ("v", GCRes (GRes (Some (framed [1; 2])) None false true)) in
  let multi := ("m", GCRes (GRes (Some (framed [0; 1])) (Some (framed [0; 2])) true true)) in
  let inst := ("i", GCRes (GRes (Some (framed [5])) None false true)) in
  go_open F (a "sub") "" = GOk [vec; multi; ("sub", GCSub true true [inst])] /\
  (* a sub-archive whose name has capitals, written where C++, Rust and Python write it, is not found *)
  go_open (fun x => if String.prefix "Sub/" x then F ("sub/" ++ substring 4 (String.length x - 4) x)%string else if String.prefix "sub/" x then None else F x) (a "Sub") ""
    = GOk [vec; multi; ("Sub", GCSub true true [("i", GCRes (GRes None None false false))])] /\
  go_open (with_ "v" None) (a "sub") "" = GOk [("v", GCRes (GRes None None false false)); multi; ("sub", GCSub true true [inst])] /\
  go_open (with_ "A.archive" None) (a "sub") "" = go_open F (a "sub") "" /\
  go_open (with_ "m_index.schema" (Some [1])) (a "sub") "" = go_open F (a "sub") "" /\
  go_open (with_ "m_index" None) (a "sub") "" = GOk [vec; ("m", GCRes (GRes (Some (framed [0; 1])) None true false)); ("sub", GCSub true true [inst])] /\
  go_open (with_ "v.schema" (Some [87])) (a "sub") "" = GErr GMismatch /\ go_open (with_ "v.schema" None) (a "sub") "" = GErr GNoSchema /\
  go_open (with_ "sub/i" (Some [1])) (a "sub") "" = GErr GInvalid /\ go_open (with_ "m_index.schema" (Some [])) (a "sub") "" = GErr GEmptySchema /\
  (exists x, complete F "" (a "sub") x) /\ schemas_nonempty (a "sub") /\ lower_case F "" (a "sub") /\
  go_bytes (GCSub false true [vec; multi; ("sub", GCSub true true [inst])]) = 18 + 18 + 17.
Proof.
  cbv zeta. repeat (split; [vm_compute; reflexivity|]). split; [|split; [|split; [|vm_compute; reflexivity]]].
  - eexists. constructor.
    + exists (framed []), []. split; [reflexivity|]. split; [apply framed_holds|reflexivity].
    + apply Forall2_cons.
      { apply CompleteRes; [|discriminate]. cbn [c_kind rshows]. exists (framed [1; 2]), [1; 2], [[1; 2]], (zeros 8).
        split; [split; [reflexivity|split; [apply framed_holds|reflexivity]]|]. split; [|reflexivity].
        split; [vm_compute; reflexivity|]. split; [repeat constructor|discriminate]. }
      apply Forall2_cons.
      { apply CompleteRes; [|discriminate]. cbn [c_kind rshows]. exists (framed [0; 1]), [0; 1], (framed [0; 2]), [0; 2], [[0]; [2]], (zeros 8).
        split; [split; [reflexivity|split; [apply framed_holds|reflexivity]]|]. split; [split; [reflexivity|split; [apply framed_holds|reflexivity]]|].
        split; [|reflexivity]. split; [vm_compute; reflexivity|]. split; [repeat constructor|discriminate]. }
      apply Forall2_cons; [|constructor]. apply CompleteSub. constructor.
      { exists (framed []), []. split; [reflexivity|]. split; [apply framed_holds|reflexivity]. }
      apply Forall2_cons; [|constructor]. apply CompleteRes; [|discriminate]. cbn [c_kind rshows]. exists (framed [5]), [5].
      split; [split; [reflexivity|split; [apply framed_holds|reflexivity]]|]. split; [unfold zlen; cbn; lia|reflexivity].
  - constructor; [discriminate| |].
    + intros r [E|[E|[E|[]]]]; try discriminate; injection E as <-; discriminate.
    + intros n o x [E|[E|[E|[]]]]; try discriminate. injection E as <- <- <-. constructor; [discriminate| |].
      * intros r [E|[]]. injection E as <-. discriminate.
      * intros n o x [E|[]]. discriminate.
  - constructor. intros n o sname sschema sms [E|[E|[E|[]]]]; try discriminate. injection E as <- <- <- <- <-. split; [reflexivity|]. split.
    + constructor. intros n o sname sschema sms [E|[]]. discriminate.
    + intros H. vm_compute in H. discriminate.
Qed.

Print Assumptions C85_open.
Print Assumptions C85_members.
Print Assumptions C85_empty.
Print Assumptions C85_rust.
Print Assumptions C85_close.
Print Assumptions C86_vector.
Print Assumptions C86_slice.
Print Assumptions C86_instance_raw.
Print Assumptions C86_multivector_partial.
Print Assumptions C86_refuted.
Print Assumptions C86_range_counted.
