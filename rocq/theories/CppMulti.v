(** Facts about C++ multivectors. *)
From Coq Require Import List ZArith Bool Lia String.
From Coq Require Import ZifyBool ZifyNat.
From Verif Require Import PyBase Spec DataAccess Structure StructSpec BitFacts DataAccessFacts DataAccessThms StructFacts
  SliceFacts Resources Builder Archive ArchiveSpec ResourceFacts BuilderFacts ArchiveFacts Codecs CodecSpec CodecFacts CodecThms
  Streams StoreSpec StoreFacts CppStore CppFacts CppViews.
Import ListNotations.
Local Open Scope string_scope.
Local Open Scope Z_scope.
Ltac Zify.zify_post_hook ::= Z.div_mod_to_equations.

Definition index_bytes (w : Z) : nat := Z.to_nat ((w + 7) / 8).

Lemma index_makes w v : 1 <= w <= 64 -> 0 <= v < 2 ^ w ->
  makes (index_bytes w) (fun mem => cpp_write false false mem 0 w v) (to_le (index_bytes w) v).
Proof.
  intros Hw Hv. split; [apply to_le_length|]. split; [apply to_le_bytes|].
  set (k := index_bytes w). assert (Hk : w <= 8 * Z.of_nat k) by (unfold k, index_bytes; lia).
  destruct (cpp_write_stores false false (zeros (k + 8)) 0 w v) as (d & E & Sl & Sb & Sbit).
  - apply is_bytes_zeros.
  - unfold padded, in_bounds. rewrite zlen_zeros_nat. lia.
  - assumption.
  - cbn. lia.
  - now left.
  - rewrite E. f_equal. apply bytes_ext.
    + assumption.
    + rewrite is_bytes_app. split; [apply to_le_bytes|apply is_bytes_zeros].
    + rewrite Sl, app_length, to_le_length, !zeros_len. reflexivity.
    + intros i Hi. rewrite Sbit by assumption. rewrite zeros_bit. rewrite Z.sub_0_r, Z.add_0_l.
      replace (0 <=? i) with true by lia. cbn [andb].
      assert (Ha : bit_at (to_le k v ++ zeros 8) i = bit_at (to_le k v) i).
      { unfold bit_at. destruct (Nat.lt_ge_cases (Z.to_nat (i / 8)) (List.length (to_le k v))) as [Hlt|Hge].
        - now rewrite app_nth1.
        - rewrite app_nth2 by lia. rewrite (nth_overflow (to_le k v)) by lia.
          assert (N : nth (Z.to_nat (i / 8) - List.length (to_le k v)) (zeros 8) 0 = 0) by apply nth_repeat. now rewrite N. }
      rewrite Ha, to_le_testbit by assumption. destruct (i <? w) eqn:Ei.
      * replace (i <? 8 * Z.of_nat k) with true by lia. reflexivity.
      * rewrite (bits_above v w i) by lia. now rewrite andb_false_r.
Qed.

(** What the user adds to a bucket: the number and size of the type, and the writes. *)
Record addition := Addition { ad_type : Z; ad_size : nat; ad_fill : filler }.
Fixpoint mv_add_all (m : mvector) (adds : list addition) : option mvector :=
  match adds with
  | [] => Some m
  | a :: adds => m <== mv_add m (ad_type a) (ad_size a) (ad_fill a) ;; mv_add_all m adds
  end.
Fixpoint mv_fill (limit w : Z) (st : store) (m : mvector) (buckets : list (list addition)) : option (store * mvector) :=
  match buckets with
  | [] => Some (st, m)
  | b :: buckets => r <== mv_grow limit w st m ;; m <== mv_add_all (snd r) b ;; mv_fill limit w (fst r) m buckets
  end.
(** An addition and the element it makes: the number of its type and its bytes *)
Definition adds (a : addition) (e : Z * list Z) : Prop := ad_type a = fst e /\ 0 <= fst e < 256 /\ makes (ad_size a) (ad_fill a) (snd e).
Definition element (e : Z * list Z) : list Z := fst e :: snd e.
Definition bucket (es : list (Z * list Z)) : list Z := List.concat (map element es).

(** [name]: the data has been written up to [payload], the index has the points [points] *)
Definition mv_at (st : store) (m : mvector) (w : Z) (name : string) (schema payload : list Z) (points : list Z) : Prop :=
  exists flushed pending, payload = (flushed ++ pending)%list /\ mv_data m = (pending ++ zeros 8)%list /\ mv_flushed m = zlen flushed /\
    handle_at st (mv_handle m) name schema flushed /\
    ev_at st (mv_ev m) (index_name name) (index_schema schema) (List.concat (map (to_le (index_bytes w)) points)) (zlen points).

Lemma names_distinct n : n <> index_name n /\ n <> schema_file n /\ schema_file n <> index_name n /\ n <> schema_file (index_name n) /\
  index_name n <> schema_file (index_name n) /\ schema_file n <> schema_file (index_name n).
Proof.
  unfold index_name, schema_file. split; [now apply ne_suffix|]. split; [now apply ne_suffix|].
  split; [intros E; apply append_inj_l in E; discriminate|].
  split; [intros E; apply (f_equal String.length) in E; rewrite !append_length in E; cbn in E; lia|].
  split; [now apply ne_suffix|]. intros E. apply (f_equal String.length) in E. rewrite !append_length in E. cbn in E. lia.
Qed.

Lemma mv_create_facts p st w name schema : p_reuse p = false -> sound st ->
  let st' := fst (mv_create p st name schema) in
  writes [name; schema_file name; index_name name; schema_file (index_name name)] st st' /\
  file_of st' (schema_file name) = Some schema /\ file_of st' (schema_file (index_name name)) = Some (index_schema schema) /\
  mv_at st' (snd (mv_create p st name schema)) w name schema [] [].
Proof.
  intros Hp Hs. destruct (names_distinct name) as (D1 & D2 & D3 & D4 & D5 & D6). unfold mv_create. fold (index_name name). fold (index_schema schema).
  destruct (ev_create_facts p st (index_name name) (index_schema schema) Hp Hs) as (W1 & F1 & H1).
  destruct (ev_create p st (index_name name) (index_schema schema)) as [st1 index]. cbn [fst snd] in *.
  destruct (schema_writes p st1 name schema Hp (proj1 W1)) as [W2 F2]. set (st2 := cpp_write_schema p st1 name schema) in *.
  destruct (handle_create_facts p st2 name schema Hp (proj1 W2)) as [W3 H3].
  destruct (handle_create p st2 name schema) as [st3 h]. cbn [fst snd] in *.
  pose proof W2 as (_ & B2 & _ & K2). pose proof W3 as (_ & B3 & _ & K3).
  assert (Hin : forall a b, (~ In (b : string) [a]) <-> b <> a) by (intros a b; cbn; intuition congruence).
  split; [|split; [|split]].
  - apply writes_trans with st1; [|apply writes_trans with st2]; (eapply writes_incl; [|eassumption]); intros x Hx; cbn in *; tauto.
  - rewrite B3 by (apply Hin; congruence). assumption.
  - rewrite B3 by (apply Hin; congruence). rewrite B2 by (apply Hin; congruence). assumption.
  - exists [], []. cbn [mv_data mv_flushed mv_handle mv_ev app]. split; [reflexivity|]. split; [reflexivity|]. split; [reflexivity|]. split; [assumption|].
    cbn [map List.concat]. eapply ev_frame; [exact H1|]. intros j s Hh. apply K3; [apply Hin; congruence|]. apply K2; [apply Hin; congruence|assumption].
Qed.

Lemma add_to_index_facts limit st m w name schema payload points : sound st -> 1 <= w <= 64 ->
  mv_at st m w name schema payload points -> zlen payload < 2 ^ w ->
  exists st' m', mv_add_to_index limit w st m = Some (st', m') /\ writes [index_name name] st st' /\
    mv_at st' m' w name schema payload (points ++ [zlen payload]) /\ mv_data m' = mv_data m /\ mv_flushed m' = mv_flushed m.
Proof.
  intros Hs Hw (fl & pe & A & B & C & H & I) Hl. unfold mv_add_to_index.
  assert (Ep : mv_flushed m + zlen (mv_data m) - Z.of_nat PADDING_SIZE = zlen payload).
  { rewrite B, C, A, !zlen_app, zlen_zeros_nat. unfold PADDING_SIZE. lia. }
  rewrite Ep. pose proof (zlen_nonneg payload).
  destruct (ev_grow_facts limit (index_type w) st (mv_ev m) (index_name name) (index_schema schema) _ _
              (fun mem => cpp_write false false mem 0 w (zlen payload)) (to_le (index_bytes w) (zlen payload)) Hs I)
    as (st1 & v1 & E1 & W1 & H1).
  { apply index_makes; [assumption|lia]. }
  rewrite E1. cbn [obind fst snd]. exists st1, (MVector (mv_data m) v1 (mv_handle m) (mv_flushed m)). split; [reflexivity|]. split; [assumption|].
  split; [|split; reflexivity]. exists fl, pe. cbn [mv_data mv_flushed mv_handle mv_ev]. split; [assumption|]. split; [assumption|]. split; [assumption|]. split.
  - eapply handle_frame; [exact H|]. intros j s. destruct W1 as (_ & _ & _ & K). apply K. intros [E|[]]. symmetry in E. now apply (proj1 (names_distinct name)) in E.
  - rewrite map_app, concat_app. cbn [map List.concat]. rewrite app_nil_r, zlen_app. exact H1.
Qed.

Lemma mv_flush_facts st m w name schema payload points : sound st -> mv_at st m w name schema payload points ->
  let st' := fst (mv_flush st m) in let m' := snd (mv_flush st m) in
  writes [name] st st' /\ mv_at st' m' w name schema payload points /\ handle_at st' (mv_handle m') name schema payload.
Proof.
  intros Hs (fl & pe & A & B & C & H & I). unfold mv_flush. rewrite B.
  replace (List.length (pe ++ zeros 8)%list - PADDING_SIZE)%nat with (List.length pe) by (rewrite app_length, zeros_len; unfold PADDING_SIZE; lia).
  rewrite firstn_app, Nat.sub_diag, firstn_O, firstn_all, app_nil_r.
  destruct (handle_write_facts st _ _ _ _ pe Hs H) as [W1 H1]. destruct (handle_write st (mv_handle m) pe) as [st1 h1]. cbn [fst snd] in *.
  split; [assumption|]. rewrite <- A in H1. split; [|exact H1]. exists payload, []. cbn [mv_data mv_flushed mv_handle mv_ev].
  split; [now rewrite app_nil_r|]. split; [reflexivity|]. split; [rewrite C, A, zlen_app; unfold zlen; lia|]. split; [assumption|].
  eapply ev_frame; [exact I|]. intros j s. destruct W1 as (_ & _ & _ & K). apply K. intros [E|[]]. now apply (proj1 (names_distinct name)) in E.
Qed.

Lemma mv_grow_facts limit st m w name schema payload points : sound st -> 1 <= w <= 64 ->
  mv_at st m w name schema payload points -> zlen payload < 2 ^ w ->
  exists st' m', mv_grow limit w st m = Some (st', m') /\ writes [name; index_name name] st st' /\
    mv_at st' m' w name schema payload (points ++ [zlen payload]).
Proof.
  intros Hs Hw Hm Hl. unfold mv_grow.
  assert (Hx : exists st1 m1, (if limit <? zlen (mv_data m) then mv_flush st m else (st, m)) = (st1, m1) /\ writes [name] st st1 /\
            mv_at st1 m1 w name schema payload points).
  { destruct (limit <? zlen (mv_data m)).
    - destruct (mv_flush_facts st m w name schema payload points Hs Hm) as (W & H & _). destruct (mv_flush st m) as [st1 m1]. eauto.
    - exists st, m. split; [reflexivity|]. split; [now apply writes_refl|assumption]. }
  destruct Hx as (st1 & m1 & -> & W1 & H1).
  destruct (add_to_index_facts limit st1 m1 w name schema payload points (proj1 W1) Hw H1 Hl) as (st2 & m2 & E2 & W2 & H2 & _).
  exists st2, m2. split; [assumption|]. split; [|assumption].
  apply writes_trans with st1; (eapply writes_incl; [|eassumption]); intros x Hx; cbn in *; tauto.
Qed.

Lemma mv_add_facts st m w name schema payload points a e : mv_at st m w name schema payload points -> adds a e ->
  exists m', mv_add m (ad_type a) (ad_size a) (ad_fill a) = Some m' /\ mv_at st m' w name schema (payload ++ element e) points.
Proof.
  intros (fl & pe & A & B & C & H & I) (Et & Hb & Hf). unfold mv_add. rewrite B, Et.
  set (size := ad_size a) in *. set (ti := fst e) in *. set (f := ad_fill a) in *.
  replace (List.length (pe ++ zeros 8)%list - PADDING_SIZE)%nat with (List.length pe) by (rewrite app_length, zeros_len; unfold PADDING_SIZE; lia).
  replace (1 + List.length (pe ++ zeros 8)%list - PADDING_SIZE)%nat with (List.length (pe ++ [ti])%list) by (rewrite !app_length, zeros_len; cbn; lia).
  assert (E1 : fill_at (fun mem => match mem with [] => None | _ :: t => Some (ti :: t) end) (List.length pe) ((pe ++ zeros 8) ++ zeros (1 + size))%list
             = Some ((pe ++ [ti]) ++ zeros size ++ zeros 8)%list).
  { unfold fill_at. rewrite <- app_assoc, zeros_swap. rewrite skipn_app, Nat.sub_diag, skipn_O, skipn_all2 by lia.
    change (zeros (1 + size)) with (0 :: zeros size). cbn [app obind]. rewrite firstn_app, Nat.sub_diag, firstn_O, firstn_all, app_nil_r.
    now rewrite <- app_assoc. }
  rewrite E1. cbn [obind]. rewrite (fill_new f size _ _ Hf). cbn [obind]. eexists. split; [reflexivity|].
  exists fl, (pe ++ element e)%list. cbn [mv_data mv_flushed mv_handle mv_ev]. split; [rewrite A; now rewrite app_assoc|].
  split; [unfold element; fold ti; now rewrite <- !app_assoc|]. auto.
Qed.
Lemma mv_add_all_facts st w name schema points : forall b es m payload, mv_at st m w name schema payload points -> Forall2 adds b es ->
  exists m', mv_add_all m b = Some m' /\ mv_at st m' w name schema (payload ++ bucket es) points.
Proof.
  induction b as [|a b IH]; intros es m payload Hm Hb; inversion Hb as [|? e ? es' He Hes]; subst; cbn [mv_add_all].
  - exists m. split; [reflexivity|]. unfold bucket. cbn. now rewrite app_nil_r.
  - destruct (mv_add_facts st m w name schema payload points a e Hm He) as (m1 & E1 & H1). rewrite E1. cbn [obind].
    destruct (IH es' m1 _ H1 Hes) as (m2 & E2 & H2). exists m2. split; [assumption|]. unfold bucket in *. cbn [map List.concat]. now rewrite app_assoc.
Qed.

Fixpoint starts (from : Z) (bufs : list (list Z)) : list Z := match bufs with [] => [] | b :: t => from :: starts (from + zlen b) t end.

Lemma mv_fill_facts limit w name schema : 1 <= w <= 64 -> forall bs bss st m payload points, sound st ->
  mv_at st m w name schema payload points -> Forall2 (Forall2 adds) bs bss -> zlen (payload ++ List.concat (map bucket bss)) < 2 ^ w ->
  exists st' m', mv_fill limit w st m bs = Some (st', m') /\ writes [name; index_name name] st st' /\
    mv_at st' m' w name schema (payload ++ List.concat (map bucket bss)) (points ++ starts (zlen payload) (map bucket bss)).
Proof.
  intros Hw. induction bs as [|b bs IH]; intros bss st m payload points Hs Hm Hb Hl; inversion Hb as [|? es ? bss' He Hes]; subst; cbn [mv_fill].
  - exists st, m. split; [reflexivity|]. split; [now apply writes_refl|]. cbn. now rewrite !app_nil_r.
  - cbn [map List.concat] in *. rewrite !zlen_app in Hl. pose proof (zlen_nonneg (bucket es)). pose proof (zlen_nonneg (List.concat (map bucket bss'))).
    destruct (mv_grow_facts limit st m w name schema payload points Hs Hw Hm ltac:(lia)) as (st1 & m1 & E1 & W1 & H1). rewrite E1. cbn [obind fst snd].
    destruct (mv_add_all_facts st1 w name schema _ b es m1 payload H1 He) as (m2 & E2 & H2). rewrite E2. cbn [obind].
    destruct (IH bss' st1 m2 _ _ (proj1 W1) H2 Hes) as (st3 & m3 & E3 & W3 & H3); [rewrite !zlen_app; lia|].
    exists st3, m3. split; [assumption|]. split; [now apply writes_trans with st1|]. cbn [starts].
    rewrite zlen_app, <- !app_assoc in H3. exact H3.
Qed.

Lemma points_starts bufs : forall from, bucket_points from (map zlen bufs) = (starts from bufs ++ [from + zlen (List.concat bufs)])%list.
Proof.
  induction bufs as [|b bufs IH]; intros from; cbn [bucket_points map starts List.concat app].
  - unfold zlen. cbn. now rewrite Z.add_0_r.
  - rewrite IH, zlen_app. cbn [app]. now rewrite Z.add_assoc.
Qed.

Lemma points_bytes w points : is_bytes (List.concat (map (to_le (index_bytes w)) points)).
Proof. induction points; cbn; [constructor|]. rewrite is_bytes_app. split; [apply to_le_bytes|assumption]. Qed.
Lemma points_zlen w points : zlen (List.concat (map (to_le (index_bytes w)) points)) = zlen points * Z.of_nat (index_bytes w).
Proof. induction points as [|q points IH]; cbn [map List.concat]; [reflexivity|]. rewrite zlen_app, zlen_to_le, IH. unfold zlen. cbn [List.length]. lia. Qed.

Lemma mv_close_facts limit p w st m name schema payload points :
  sound st -> 1 <= w <= 64 -> mv_at st m w name schema payload points -> zlen payload < 2 ^ w ->
  file_of st (schema_file name) = Some schema -> file_of st (schema_file (index_name name)) = Some (index_schema schema) ->
  Forall (unread st) [name; schema_file name; index_name name; schema_file (index_name name)] -> is_bytes payload ->
  zlen payload + 16 < 2 ^ 64 -> (zlen points + 1) * Z.of_nat (index_bytes w) + 16 < 2 ^ 64 -> (p_null_empty p = true -> schema <> []) ->
  exists st' , mv_close limit p w st m =
      Some (st', Some (MAView (av_create (index_type w) (List.concat (map (to_le (index_bytes w)) (points ++ [zlen payload])) ++ zeros 8)
                                 (zlen (List.concat (map (to_le (index_bytes w)) (points ++ [zlen payload]))))) (payload ++ zeros 8))) /\
    touches [name; schema_file name; index_name name; schema_file (index_name name)] st st' /\
    file_of st' name = Some (framed payload) /\ file_of st' (schema_file name) = Some schema /\
    file_of st' (index_name name) = Some (framed (List.concat (map (to_le (index_bytes w)) (points ++ [zlen payload])))) /\
    file_of st' (schema_file (index_name name)) = Some (index_schema schema).
Proof.
  intros Hs Hw Hm Hl F1 F2 Hu Hb H64 H64i Hne. destruct (names_distinct name) as (D1 & D2 & D3 & D4 & D5 & D6).
  inversion Hu as [|? ? U1 Hu2]; subst. inversion Hu2 as [|? ? U2 Hu3]; subst. inversion Hu3 as [|? ? U3 Hu4]; subst. inversion Hu4 as [|? ? U4 _]; subst. clear Hu Hu2 Hu3 Hu4.
  assert (Hin : forall a b, (~ In (b : string) [a]) <-> b <> a) by (intros a b; cbn; intuition congruence).
  assert (Hin2 : forall a a' b, (~ In (b : string) [a; a']) <-> b <> a /\ b <> a') by (intros a a' b; cbn; intuition congruence).
  unfold mv_close.
  destruct (add_to_index_facts limit st m w name schema payload points Hs Hw Hm Hl) as (st1 & m1 & E1 & W1 & H1 & _). rewrite E1. cbn [obind fst snd].
  destruct (mv_flush_facts st1 m1 w name schema payload _ (proj1 W1) H1) as (W2 & H2 & G2). destruct (mv_flush st1 m1) as [st2 m2]. cbn [fst snd] in *.
  assert (W12 : writes [name; index_name name] st st2).
  { apply writes_trans with st1; (eapply writes_incl; [|eassumption]); intros x Hx; cbn in *; tauto. }
  pose proof W12 as (S2 & B12 & R12 & _).
  assert (Ru : forall n, unread st n -> unread st2 n) by (intros n; unfold unread; now rewrite R12).
  destruct (handle_close_facts p st2 (mv_handle m2) name schema payload S2 G2) as (T3 & F3 & F3s & D3'); auto.
  { rewrite B12; [assumption|]. apply Hin2. split; congruence. }
  destruct (handle_close p st2 (mv_handle m2)) as [st3 d]. cbn [fst snd] in *. subst d.
  pose proof T3 as (S3 & B3 & R3 & K3). destruct H2 as (fl & pe & _ & _ & _ & _ & I2).
  assert (I3 : ev_at st3 (mv_ev m2) (index_name name) (index_schema schema) (List.concat (map (to_le (index_bytes w)) (points ++ [zlen payload]))) (zlen (points ++ [zlen payload]))).
  { eapply ev_frame; [exact I2|]. intros j s. apply K3. apply Hin2. split; congruence. }
  set (ix := List.concat (map (to_le (index_bytes w)) (points ++ [zlen payload]))) in *.
  destruct (ev_close_facts p (index_type w) st3 (mv_ev m2) (index_name name) (index_schema schema) ix _ S3 I3) as (T4 & F4 & F4s & V4).
  - rewrite B3 by (apply Hin2; split; congruence). rewrite B12 by (apply Hin2; split; congruence). assumption.
  - unfold unread. rewrite R3 by (apply Hin2; split; congruence). apply Ru. assumption.
  - unfold unread. rewrite R3 by (apply Hin2; split; congruence). apply Ru. assumption.
  - apply points_bytes.
  - unfold ix. rewrite points_zlen, zlen_app. unfold zlen at 2. cbn [List.length]. lia.
  - intros _. unfold index_schema. discriminate.
  - destruct (ev_close p (index_type w) st3 (mv_ev m2)) as [st4 v]. cbn [fst snd] in *. subst v. cbn [obind d_mem].
    exists st4. split; [reflexivity|]. pose proof T4 as (S4 & B4 & R4 & K4). split; [|split; [|split; [|split; assumption]]].
    + apply touches_trans with st2; [apply writes_touches; eapply writes_incl; [|exact W12]; intros x Hx; cbn in *; tauto|].
      apply touches_trans with st3; (eapply touches_incl; [|eassumption]); intros x Hx; cbn in *; tauto.
    + rewrite B4 by (apply Hin2; split; congruence). assumption.
    + rewrite B4 by (apply Hin2; split; congruence). assumption.
Qed.

(** ** Reading *)
Lemma to_le_stores k w q rest : 0 <= w <= 8 * Z.of_nat k -> 0 <= q < 2 ^ w -> is_bytes rest ->
  stores (zeros k ++ rest) 0 w q (to_le k q ++ rest).
Proof.
  intros Hw Hq Hr. split; [rewrite !app_length, to_le_length, zeros_len; reflexivity|].
  split; [rewrite is_bytes_app; split; [apply to_le_bytes|assumption]|].
  intros i Hi. rewrite Z.sub_0_r, Z.add_0_l. replace (0 <=? i) with true by lia. cbn [andb]. unfold bit_at at 1 2.
  destruct (Nat.lt_ge_cases (Z.to_nat (i / 8)) k) as [Hlt|Hge].
  - rewrite app_nth1 by (rewrite to_le_length; lia). rewrite app_nth1 by (rewrite zeros_len; lia).
    change (Z.testbit (nth (Z.to_nat (i / 8)) (to_le k q) 0) (i mod 8)) with (bit_at (to_le k q) i).
    change (Z.testbit (nth (Z.to_nat (i / 8)) (zeros k) 0) (i mod 8)) with (bit_at (zeros k) i).
    rewrite to_le_testbit, zeros_bit by assumption. replace (i <? 8 * Z.of_nat k) with true by lia. cbn [andb].
    destruct (i <? w) eqn:Ei; [reflexivity|]. apply (bits_above q w i); lia.
  - rewrite app_nth2 by (rewrite to_le_length; lia). rewrite app_nth2 by (rewrite zeros_len; lia). rewrite to_le_length, zeros_len.
    replace (i <? w) with false by lia. reflexivity.
Qed.
Lemma read_point w q rest : 1 <= w <= 64 -> 0 <= q < 2 ^ w -> is_bytes rest -> 8 <= zlen rest ->
  cpp_read 64 false (to_le (index_bytes w) q ++ rest) 0 w = Some q.
Proof.
  intros Hw Hq Hr Hl. assert (Hk : w <= 8 * Z.of_nat (index_bytes w)) by (unfold index_bytes; lia).
  rewrite cpp_read_value.
  - f_equal. apply (stores_value (zeros (index_bytes w) ++ rest)); [lia|assumption|auto|cbn; lia|]. apply to_le_stores; [lia|assumption|assumption].
  - rewrite is_bytes_app. split; [apply to_le_bytes|assumption].
  - unfold padded, in_bounds. rewrite zlen_app, zlen_to_le. lia.
  - assumption.
  - split; [lia|discriminate].
Qed.
Lemma points_at w points rest : forall i q, nth_error points i = Some q ->
  skipn (index_bytes w * i) (List.concat (map (to_le (index_bytes w)) points) ++ rest) =
  (to_le (index_bytes w) q ++ List.concat (map (to_le (index_bytes w)) (skipn (S i) points)) ++ rest)%list.
Proof.
  intros i q Hi. rewrite (concat_skip _ (index_bytes w)).
  - rewrite skipn_map. assert (E : skipn i points = q :: skipn (S i) points).
    { revert points Hi. induction i as [|i IH]; intros [|a points] H; cbn in *; try discriminate; [congruence|]. apply IH. assumption. }
    rewrite E. cbn [map List.concat]. now rewrite app_assoc.
  - apply Forall_map. apply Forall_forall. intros; apply to_le_length.
  - rewrite map_length. apply Nat.lt_le_incl. apply nth_error_Some. congruence.
Qed.
Lemma range_points w points rest n mem i a b : 1 <= w <= 64 -> Forall (fun q => 0 <= q < 2 ^ w) points -> is_bytes rest -> 8 <= zlen rest ->
  nth_error points i = Some a -> nth_error points (S i) = Some b ->
  ma_range w (MAView (AView (List.concat (map (to_le (index_bytes w)) points) ++ rest) n) mem) i = Some (a, b).
Proof.
  intros Hw Hp Hr Hl Ha Hb. unfold ma_range, av_at. cbn [ma_index av_mem index_type e_size]. fold (index_bytes w).
  rewrite (points_at w points rest i a Ha). unfold cpp_read_range. rewrite Nat2Z.id.
  assert (Hra : 0 <= a < 2 ^ w) by (rewrite Forall_forall in Hp; apply Hp; eapply nth_error_In; eassumption).
  assert (Hrb : 0 <= b < 2 ^ w) by (rewrite Forall_forall in Hp; apply Hp; eapply nth_error_In; eassumption).
  assert (B : forall l, is_bytes (List.concat (map (to_le (index_bytes w)) l) ++ rest)) by (intros l; rewrite is_bytes_app; split; [apply points_bytes|assumption]).
  assert (L : forall l, 8 <= zlen (List.concat (map (to_le (index_bytes w)) l) ++ rest)) by (intros l; rewrite zlen_app; pose proof (zlen_nonneg (List.concat (map (to_le (index_bytes w)) l))); lia).
  rewrite read_point by auto. cbn [obind]. rewrite skipn_app, to_le_length, Nat.sub_diag, skipn_O, skipn_all2 by (rewrite to_le_length; lia). cbn [app].
  assert (E : skipn (S i) points = b :: skipn (S (S i)) points).
  { clear - Hb. revert points Hb. generalize (S i) as j. induction j as [|j IH]; intros [|x points] H; cbn in *; try discriminate; [congruence|]. now apply IH. }
  rewrite E. cbn [map List.concat]. rewrite <- app_assoc, read_point by auto. reflexivity.
Qed.

(** Where the elements of a bucket are, if the bucket starts at [from] *)
Fixpoint positions (from : Z) (es : list (Z * list Z)) : list (Z * Z) :=
  match es with [] => [] | e :: t => (fst e, from + 1) :: positions (from + 1 + zlen (snd e)) t end.
Definition known (types : list nat) (e : Z * list Z) : Prop := 0 <= fst e /\ nth_error types (Z.to_nat (fst e)) = Some (List.length (snd e)).

Lemma known_size types e : known types e -> type_size types (fst e) = Some (List.length (snd e)).
Proof. intros [H0 H]. unfold type_size. now replace (fst e <? 0) with false by lia. Qed.
Lemma byte_here pre b post : mem_byte (pre ++ b :: post) (zlen pre) = Some b.
Proof.
  unfold mem_byte. replace ((0 <=? zlen pre) && (zlen pre <? zlen (pre ++ b :: post))) with true.
  - f_equal. unfold zlen. rewrite Nat2Z.id, app_nth2, Nat.sub_diag by lia. reflexivity.
  - rewrite zlen_app. unfold zlen. cbn [List.length]. lia.
Qed.
Lemma bucket_nil : zlen (bucket []) = 0.
Proof. reflexivity. Qed.
Lemma bucket_cons e es : bucket (e :: es) = (element e ++ bucket es)%list.
Proof. reflexivity. Qed.
Lemma element_zlen e : zlen (element e) = 1 + zlen (snd e).
Proof. unfold element, zlen. cbn [List.length]. lia. Qed.

Lemma for_each_from_facts types : forall es fuel pre post, (List.length es < fuel)%nat -> Forall (known types) es ->
  for_each_from fuel types (pre ++ bucket es ++ post) (zlen pre) (zlen pre + zlen (bucket es)) = Value (positions (zlen pre) es).
Proof.
  induction es as [|e es IH]; intros [|fuel] pre post Hf Hk; try (cbn in Hf; lia).
  - cbn [for_each_from positions]. rewrite bucket_nil. replace (zlen pre <? zlen pre + 0) with false by lia. reflexivity.
  - inversion Hk as [|? ? He Hes]; subst. rewrite bucket_cons, zlen_app, element_zlen. pose proof (zlen_nonneg (snd e)). pose proof (zlen_nonneg (bucket es)).
    cbn [for_each_from]. replace (zlen pre <? zlen pre + (1 + zlen (snd e) + zlen (bucket es))) with true by lia.
    unfold element at 1. cbn [app]. rewrite byte_here. rewrite (known_size types e He).
    specialize (IH fuel (pre ++ element e)%list post ltac:(cbn in Hf; lia) Hes). rewrite zlen_app, element_zlen in IH.
    change (Z.of_nat (List.length (snd e))) with (zlen (snd e)).
    replace (zlen pre + 1 + zlen (snd e)) with (zlen pre + (1 + zlen (snd e))) by lia.
    replace (zlen pre + (1 + zlen (snd e) + zlen (bucket es))) with (zlen pre + (1 + zlen (snd e)) + zlen (bucket es)) by lia.
    unfold element at 1. cbn [app].
    replace (pre ++ fst e :: (snd e ++ bucket es) ++ post)%list with ((pre ++ element e) ++ bucket es ++ post)%list by (unfold element; now rewrite <- !app_assoc).
    rewrite IH. cbn [positions]. f_equal. f_equal. f_equal. lia.
Qed.

(** The elements are at those positions. *)
Lemma positions_hold : forall es pre post,
  Forall2 (fun p e => fst p = fst e /\ firstn (List.length (snd e)) (skipn (Z.to_nat (snd p)) (pre ++ bucket es ++ post)) = snd e)
          (positions (zlen pre) es) es.
Proof.
  induction es as [|e es IH]; intros pre post; cbn [positions]; constructor.
  - cbn [fst snd]. split; [reflexivity|]. rewrite bucket_cons. unfold element at 1.
    replace (pre ++ ((fst e :: snd e) ++ bucket es) ++ post)%list with ((pre ++ [fst e]) ++ snd e ++ bucket es ++ post)%list by (rewrite <- !app_assoc; reflexivity).
    replace (Z.to_nat (zlen pre + 1)) with (List.length (pre ++ [fst e])) by (rewrite app_length; unfold zlen; cbn; lia).
    rewrite skipn_app, Nat.sub_diag, skipn_O, skipn_all2 by lia. cbn [app]. rewrite firstn_app, Nat.sub_diag, firstn_O, firstn_all, app_nil_r. reflexivity.
  - specialize (IH (pre ++ element e)%list post). rewrite zlen_app, element_zlen in IH. rewrite bucket_cons.
    replace (zlen pre + 1 + zlen (snd e)) with (zlen pre + (1 + zlen (snd e))) by lia.
    replace (pre ++ (element e ++ bucket es) ++ post)%list with ((pre ++ element e) ++ bucket es ++ post)%list by (now rewrite <- !app_assoc). exact IH.
Qed.

(** A byte that is not the number of a type *)
Lemma for_each_from_throws types : forall es fuel pre bad post stop, (List.length es < fuel)%nat -> Forall (known types) es ->
  type_size types bad = None -> zlen pre + zlen (bucket es) < stop ->
  for_each_from fuel types (pre ++ bucket es ++ bad :: post) (zlen pre) stop = Throws.
Proof.
  induction es as [|e es IH]; intros [|fuel] pre bad post stop Hf Hk Hb Hs; try (cbn in Hf; lia).
  - rewrite bucket_nil in Hs. change (bucket [] ++ bad :: post)%list with (bad :: post). cbn [for_each_from].
    replace (zlen pre <? stop) with true by lia. now rewrite byte_here, Hb.
  - inversion Hk as [|? ? He Hes]; subst. rewrite bucket_cons, zlen_app, element_zlen in *. pose proof (zlen_nonneg (snd e)). pose proof (zlen_nonneg (bucket es)).
    cbn [for_each_from]. replace (zlen pre <? stop) with true by lia.
    unfold element at 1. cbn [app]. rewrite byte_here. rewrite (known_size types e He).
    specialize (IH fuel (pre ++ element e)%list bad post stop ltac:(cbn in Hf; lia) Hes Hb). rewrite zlen_app, element_zlen in IH.
    change (Z.of_nat (List.length (snd e))) with (zlen (snd e)).
    replace (zlen pre + 1 + zlen (snd e)) with (zlen pre + (1 + zlen (snd e))) by lia.
    unfold element at 1. cbn [app].
    replace (pre ++ fst e :: (snd e ++ bucket es) ++ bad :: post)%list with ((pre ++ element e) ++ bucket es ++ bad :: post)%list by (unfold element; now rewrite <- !app_assoc).
    rewrite IH; [reflexivity|lia].
Qed.

(** ** Iterators *)
Definition wanted_positions (wanted : Z) (ps : list (Z * Z)) : list Z := map snd (filter (fun p => fst p =? wanted) ps).
Lemma iter_next_facts types wanted : forall es fuel pre post, (List.length es < fuel)%nat -> Forall (known types) es ->
  iter_next fuel types (pre ++ bucket es ++ post) wanted (zlen pre) (zlen pre + zlen (bucket es)) =
  match find (fun p => fst (fst p) =? wanted) (combine (positions (zlen pre) es) es) with
  | Some ((_, at_), e) => Value (Some at_, at_ + zlen (snd e))
  | None => Value (None, zlen pre + zlen (bucket es))
  end.
Proof.
  induction es as [|e es IH]; intros [|fuel] pre post Hf Hk; try (cbn in Hf; lia).
  - cbn [iter_next positions combine find]. rewrite bucket_nil, Z.add_0_r, Z.eqb_refl. reflexivity.
  - inversion Hk as [|? ? He Hes]; subst. rewrite bucket_cons, zlen_app, element_zlen. pose proof (zlen_nonneg (snd e)). pose proof (zlen_nonneg (bucket es)).
    cbn [iter_next]. replace (zlen pre =? zlen pre + (1 + zlen (snd e) + zlen (bucket es))) with false by lia.
    unfold element at 1. cbn [app]. rewrite byte_here. rewrite (known_size types e He). cbn [positions combine find fst].
    change (Z.of_nat (List.length (snd e))) with (zlen (snd e)). destruct (fst e =? wanted); [reflexivity|].
    specialize (IH fuel (pre ++ element e)%list post ltac:(cbn in Hf; lia) Hes). rewrite zlen_app, element_zlen in IH.
    replace (zlen pre + 1 + zlen (snd e)) with (zlen pre + (1 + zlen (snd e))) by lia.
    replace (zlen pre + (1 + zlen (snd e) + zlen (bucket es))) with (zlen pre + (1 + zlen (snd e)) + zlen (bucket es)) by lia.
    unfold element at 1. cbn [app].
    replace (pre ++ fst e :: (snd e ++ bucket es) ++ post)%list with ((pre ++ element e) ++ bucket es ++ post)%list by (unfold element; now rewrite <- !app_assoc).
    exact IH.
Qed.
Lemma wanted_split wanted : forall es from, match find (fun p => fst (fst p) =? wanted) (combine (positions from es) es) with
  | None => wanted_positions wanted (positions from es) = []
  | Some ((_, at_), e) => exists es1 es2, es = (es1 ++ e :: es2)%list /\ at_ = from + zlen (bucket es1) + 1 /\
      wanted_positions wanted (positions from es) = at_ :: wanted_positions wanted (positions (at_ + zlen (snd e)) es2)
  end.
Proof.
  induction es as [|e es IH]; intros from; [reflexivity|]. cbn [positions combine find fst]. unfold wanted_positions. cbn [filter fst].
  destruct (fst e =? wanted) eqn:E.
  - exists [], es. split; [reflexivity|]. split; [unfold bucket, zlen; cbn; lia|]. cbn [map snd]. reflexivity.
  - specialize (IH (from + 1 + zlen (snd e))). destruct (find _ _) as [[[ti at_] e']|]; [|exact IH].
    destruct IH as (es1 & es2 & Ee & Ea & Ew). exists (e :: es1), es2. split; [now rewrite Ee|]. split; [|exact Ew].
    rewrite Ea, bucket_cons, zlen_app, element_zlen. lia.
Qed.
Lemma bucket_app a b : bucket (a ++ b) = (bucket a ++ bucket b)%list.
Proof. unfold bucket. now rewrite map_app, concat_app. Qed.
Lemma bucket_longer es : (List.length es <= List.length (bucket es))%nat.
Proof. induction es as [|e es IH]; [cbn; lia|]. rewrite bucket_cons, app_length. unfold element. cbn [List.length]. lia. Qed.
Lemma iter_from_facts types wanted : forall fuel es pre post, (List.length es < fuel)%nat -> Forall (known types) es ->
  iter_from fuel types (pre ++ bucket es ++ post) wanted (zlen pre) (zlen pre + zlen (bucket es)) = Value (wanted_positions wanted (positions (zlen pre) es)).
Proof.
  induction fuel as [|fuel IH]; intros es pre post Hf Hk; [lia|]. cbn [iter_from].
  rewrite iter_next_facts; [|rewrite !app_length; pose proof (bucket_longer es); lia|assumption].
  pose proof (wanted_split wanted es (zlen pre)) as Hw. destruct (find _ _) as [[[ti at_] e]|]; [|now rewrite Hw].
  destruct Hw as (es1 & es2 & Ee & Ea & Ew). rewrite Ew.
  assert (Hk2 : Forall (known types) es2) by (rewrite Ee in Hk; apply Forall_app in Hk; destruct Hk as [_ Hk]; now inversion Hk).
  specialize (IH es2 (pre ++ bucket es1 ++ element e)%list post).
  rewrite !zlen_app, element_zlen in IH.
  replace (at_ + zlen (snd e)) with (zlen pre + (zlen (bucket es1) + (1 + zlen (snd e)))) by lia.
  replace (zlen pre + zlen (bucket es)) with (zlen pre + (zlen (bucket es1) + (1 + zlen (snd e))) + zlen (bucket es2))
    by (rewrite Ee, bucket_app, bucket_cons, !zlen_app, element_zlen; lia).
  replace (pre ++ bucket es ++ post)%list with ((pre ++ bucket es1 ++ element e) ++ bucket es2 ++ post)%list
    by (rewrite Ee, bucket_app, bucket_cons, <- !app_assoc; reflexivity).
  rewrite IH; [reflexivity| |assumption]. rewrite Ee, app_length in Hf. cbn in Hf. lia.
Qed.
