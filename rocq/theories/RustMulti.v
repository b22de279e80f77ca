(** Facts about Rust multivectors. *)
From Coq Require Import List ZArith Bool Lia String.
From Coq Require Import ZifyBool ZifyNat.
From Verif Require Import PyBase Spec DataAccess Structure StructSpec BitFacts DataAccessFacts DataAccessThms StructFacts
  SliceFacts Resources Builder Archive ArchiveSpec ResourceFacts BuilderFacts ArchiveFacts Codecs CodecSpec CodecFacts CodecThms
  Streams StoreSpec StoreFacts CppStore CppFacts CppViews CppMulti RustStore RustSpec RustFacts RustVectors.
Import ListNotations.
Local Open Scope string_scope.
Local Open Scope Z_scope.
Ltac Zify.zify_post_hook ::= Z.div_mod_to_equations.

Lemma rindex_sets w v : 1 <= w <= 64 -> 0 <= v < 2 ^ w ->
  sets (index_bytes w) (fun d => rust_write false d 0 w v) (zeros (index_bytes w)) (to_le (index_bytes w) v).
Proof.
  intros Hw Hv. set (k := index_bytes w). assert (Hk : w <= 8 * Z.of_nat k) by (unfold k, index_bytes; lia).
  split; [apply zeros_len|]. split; [apply to_le_length|]. split; [apply to_le_bytes|].
  destruct (rust_write_stores false (zeros k) 0 w v) as (d & E & Sl & Sb & Sbit).
  - apply is_bytes_zeros.
  - unfold in_bounds. rewrite zlen_zeros_nat. lia.
  - assumption.
  - cbn. lia.
  - left. change (0 mod 8) with 0. lia.
  - rewrite E. f_equal.
    destruct (to_le_stores k w v [] ltac:(lia) Hv ltac:(constructor)) as (Tl & Tb & Tbit). rewrite !app_nil_r in *.
    apply bytes_ext; [assumption|apply to_le_bytes|congruence|]. intros i Hi. now rewrite Sbit, Tbit.
Qed.

Definition rm_at (st : store) (m : rmvector) (w : Z) (name : string) (schema payload : list Z) (points : list Z) : Prop :=
  exists flushed, payload = (flushed ++ rm_data m)%list /\ rm_flushed m = zlen flushed /\
    handle_at st (rm_handle m) name schema flushed /\
    rev_at st (index_type w) (rm_index m) (index_name name) (index_schema schema) (map (to_le (index_bytes w)) points).

Ltac no_in := let H := fresh in intros H; cbn in H; intuition congruence.

Lemma rm_create_facts p st w name schema :
  Forall (startable p st) [name; schema_file name; index_name name; schema_file (index_name name)] -> sound st ->
  let st' := fst (rm_create p w st name schema) in
  writes [name; schema_file name; index_name name; schema_file (index_name name)] st st' /\
  file_of st' (schema_file name) = Some schema /\ file_of st' (schema_file (index_name name)) = Some (index_schema schema) /\
  rm_at st' (snd (rm_create p w st name schema)) w name schema [] [].
Proof.
  intros Hp Hs. destruct (names_distinct name) as (D1 & D2 & D3 & D4 & D5 & D6).
  inversion Hp as [|? ? P1 Hp2]; subst. inversion Hp2 as [|? ? P2 Hp3]; subst. inversion Hp3 as [|? ? P3 Hp4]; subst. inversion Hp4 as [|? ? P4 _]; subst. clear Hp Hp2 Hp3 Hp4.
  unfold rm_create. fold (index_name name). fold (index_schema schema).
  destruct (rev_create_facts p (index_type w) st (index_name name) (index_schema schema) P3 P4 Hs) as (W1 & F1 & H1).
  destruct (rev_create p (index_type w) st (index_name name) (index_schema schema)) as [st1 index]. cbn [fst snd] in *.
  destruct (rschema_writes p st1 name schema) as [W2 F2]; [eapply startable_writes; [exact W1|no_in|assumption]|exact (proj1 W1)|].
  set (st2 := rust_write_schema p st1 name schema) in *.
  destruct (rhandle_new_facts p st2 name schema) as [W3 H3].
  { eapply startable_writes; [exact W2|no_in|]. eapply startable_writes; [exact W1|no_in|assumption]. }
  { exact (proj1 W2). }
  destruct (rhandle_new p st2 name schema) as [st3 h]. cbn [fst snd] in *.
  pose proof W2 as (_ & B2 & _ & K2). pose proof W3 as (_ & B3 & _ & K3).
  split; [|split; [|split]].
  - apply writes_trans with st1; [|apply writes_trans with st2]; (eapply writes_incl; [|eassumption]); intros x Hx; cbn in *; tauto.
  - rewrite B3 by no_in. assumption.
  - rewrite B3 by no_in. rewrite B2 by no_in. assumption.
  - exists []. cbn [rm_data rm_flushed rm_handle rm_index app map]. split; [reflexivity|]. split; [reflexivity|]. split; [assumption|].
    eapply rev_frame; [exact H1|]. intros j s Hh. apply K3; [no_in|]. apply K2; [no_in|assumption].
Qed.

Lemma radd_to_index_facts limit st m w name schema payload points : sound st -> 1 <= w <= 64 -> 8 <= limit ->
  rm_at st m w name schema payload points -> zlen payload < 2 ^ w ->
  exists st' m', rm_add_to_index limit w st m = Some (st', m') /\ writes [index_name name] st st' /\
    rm_at st' m' w name schema payload (points ++ [zlen payload]) /\ rm_data m' = rm_data m.
Proof.
  intros Hs Hw Hlim (fl & A & C & H & I) Hl. unfold rm_add_to_index.
  assert (Ep : rm_flushed m + zlen (rm_data m) = zlen payload) by (rewrite C, A, zlen_app; lia).
  rewrite Ep. pose proof (zlen_nonneg payload).
  destruct (rev_grow_facts limit (index_type w) st (rm_index m) (index_name name) (index_schema schema) (map (to_le (index_bytes w)) points)
              (fun mem => rust_write false mem 0 w (zlen payload)) (to_le (index_bytes w) (zlen payload))) as (st1 & v1 & E1 & W1 & H1).
  { cbn [index_type e_size]. lia. }
  { cbn [index_type e_size]. lia. }
  { lia. }
  { assumption. }
  { exact I. }
  { apply rindex_sets; [assumption|lia]. }
  rewrite E1. cbn [obind fst snd]. eexists st1, _. split; [reflexivity|]. split; [assumption|].
  split; [|reflexivity]. exists fl. cbn [rm_data rm_flushed rm_handle rm_index]. split; [assumption|]. split; [assumption|]. split.
  - eapply handle_frame; [exact H|]. intros j s. destruct W1 as (_ & _ & _ & K). apply K. intros [E|[]]. symmetry in E. now apply (proj1 (names_distinct name)) in E.
  - rewrite map_app. exact H1.
Qed.

Lemma rm_flush_facts st m w name schema payload points : sound st -> rm_at st m w name schema payload points ->
  let st' := fst (rm_flush st m) in let m' := snd (rm_flush st m) in
  writes [name] st st' /\ rm_at st' m' w name schema payload points /\ handle_at st' (rm_handle m') name schema payload.
Proof.
  intros Hs (fl & A & C & H & I). unfold rm_flush.
  destruct (rhandle_write_facts st _ _ _ _ (rm_data m) Hs H) as [W1 H1]. destruct (rhandle_write st (rm_handle m) (rm_data m)) as [st1 h1]. cbn [fst snd] in *.
  split; [assumption|]. rewrite <- A in H1. split; [|exact H1]. exists payload. cbn [rm_data rm_flushed rm_handle rm_index].
  split; [now rewrite app_nil_r|]. split; [rewrite C, A, zlen_app; reflexivity|]. split; [assumption|].
  eapply rev_frame; [exact I|]. intros j s. destruct W1 as (_ & _ & _ & K). apply K. intros [E|[]]. now apply (proj1 (names_distinct name)) in E.
Qed.

Lemma rm_grow_facts limit st m w name schema payload points : sound st -> 1 <= w <= 64 -> 8 <= limit ->
  rm_at st m w name schema payload points -> zlen payload < 2 ^ w ->
  exists st' m', rm_grow limit w st m = Some (st', m') /\ writes [name; index_name name] st st' /\
    rm_at st' m' w name schema payload (points ++ [zlen payload]).
Proof.
  intros Hs Hw Hlim Hm Hl. unfold rm_grow.
  assert (Hx : exists st1 m1, (if limit <? zlen (rm_data m) then rm_flush st m else (st, m)) = (st1, m1) /\ writes [name] st st1 /\
            rm_at st1 m1 w name schema payload points).
  { destruct (limit <? zlen (rm_data m)).
    - destruct (rm_flush_facts st m w name schema payload points Hs Hm) as (W & H & _). destruct (rm_flush st m) as [st1 m1]. eauto.
    - exists st, m. split; [reflexivity|]. split; [now apply writes_refl|assumption]. }
  destruct Hx as (st1 & m1 & -> & W1 & H1).
  destruct (radd_to_index_facts limit st1 m1 w name schema payload points (proj1 W1) Hw Hlim H1 Hl) as (st2 & m2 & E2 & W2 & H2 & _).
  exists st2, m2. split; [assumption|]. split; [|assumption].
  apply writes_trans with st1; (eapply writes_incl; [|eassumption]); intros x Hx; cbn in *; tauto.
Qed.

Lemma set_at_end (l : list Z) b r x : set_at (l ++ b :: r) (List.length l) x = (l ++ x :: r)%list.
Proof. induction l as [|a l IH]; cbn; [reflexivity|]. now rewrite IH. Qed.
Lemma rm_add_facts st m w name schema payload points ti size f e : rm_at st m w name schema payload points -> radds (ti, size, f) e ->
  exists m', rm_add m ti size f = Some m' /\ rm_at st m' w name schema (payload ++ element e) points.
Proof.
  intros (fl & A & C & H & I) (Et & Hb & (_ & Ls & Bs & Hf)). unfold rm_add.
  change (zeros (1 + size)) with (0 :: zeros size). rewrite set_at_end.
  replace (rm_data m ++ ti :: zeros size)%list with ((rm_data m ++ [ti]) ++ zeros size)%list by (now rewrite <- app_assoc).
  replace (1 + List.length (rm_data m))%nat with (List.length (rm_data m ++ [ti])) by (rewrite app_length; cbn; lia).
  rewrite skipn_app, Nat.sub_diag, skipn_O, skipn_all2 by lia. cbn [app].
  rewrite zeros_len, Nat.ltb_irrefl. rewrite firstn_all2 by (rewrite zeros_len; lia). rewrite Hf. cbn [obind].
  rewrite (skipn_all2 (zeros size)) by (rewrite zeros_len; lia). rewrite firstn_app, Nat.sub_diag, firstn_O, firstn_all, !app_nil_r.
  eexists. split; [reflexivity|]. exists fl. cbn [rm_data rm_flushed rm_handle rm_index].
  split; [|auto]. rewrite A. unfold element. rewrite <- Et, <- !app_assoc. reflexivity.
Qed.
Lemma rm_add_all_facts st w name schema points : forall b es m payload, rm_at st m w name schema payload points -> Forall2 radds b es ->
  exists m', rm_add_all m b = Some m' /\ rm_at st m' w name schema (payload ++ bucket es) points.
Proof.
  induction b as [|[[ti size] f] b IH]; intros es m payload Hm Hb; inversion Hb as [|? e ? es' He Hes]; subst; cbn [rm_add_all].
  - exists m. split; [reflexivity|]. unfold bucket. cbn. now rewrite app_nil_r.
  - destruct (rm_add_facts st m w name schema payload points ti size f e Hm He) as (m1 & E1 & H1). rewrite E1. cbn [obind].
    destruct (IH es' m1 _ H1 Hes) as (m2 & E2 & H2). exists m2. split; [assumption|]. unfold bucket in *. cbn [map List.concat]. now rewrite app_assoc.
Qed.
Lemma rm_fill_facts limit w name schema : 1 <= w <= 64 -> 8 <= limit -> forall bs bss st m payload points, sound st ->
  rm_at st m w name schema payload points -> Forall2 (Forall2 radds) bs bss -> zlen (payload ++ List.concat (map bucket bss)) < 2 ^ w ->
  exists st' m', rm_fill limit w st m bs = Some (st', m') /\ writes [name; index_name name] st st' /\
    rm_at st' m' w name schema (payload ++ List.concat (map bucket bss)) (points ++ starts (zlen payload) (map bucket bss)).
Proof.
  intros Hw Hlim. induction bs as [|b bs IH]; intros bss st m payload points Hs Hm Hb Hl; inversion Hb as [|? es ? bss' He Hes]; subst; cbn [rm_fill].
  - exists st, m. split; [reflexivity|]. split; [now apply writes_refl|]. cbn. now rewrite !app_nil_r.
  - cbn [map List.concat] in *. rewrite !zlen_app in Hl. pose proof (zlen_nonneg (bucket es)). pose proof (zlen_nonneg (List.concat (map bucket bss'))).
    destruct (rm_grow_facts limit st m w name schema payload points Hs Hw Hlim Hm ltac:(lia)) as (st1 & m1 & E1 & W1 & H1). rewrite E1. cbn [obind fst snd].
    destruct (rm_add_all_facts st1 w name schema _ b es m1 payload H1 He) as (m2 & E2 & H2). rewrite E2. cbn [obind].
    destruct (IH bss' st1 m2 _ _ (proj1 W1) H2 Hes) as (st3 & m3 & E3 & W3 & H3); [rewrite !zlen_app; lia|].
    exists st3, m3. split; [assumption|]. split; [now apply writes_trans with st1|]. cbn [starts].
    rewrite zlen_app, <- !app_assoc in H3. exact H3.
Qed.

Lemma utf8_app (a b : list Z) : utf8_valid a = true -> utf8_valid (a ++ b) = utf8_valid b.
Proof.
  remember (List.length a) as n eqn:E. assert (L : (List.length a <= n)%nat) by lia. clear E. revert a L.
  induction n as [|n IH]; intros a L H; [destruct a; [reflexivity|cbn in L; lia]|].
  destruct a as [|x a]; [reflexivity|]. cbn [app utf8_valid] in *. cbn [List.length] in L.
  destruct (x <? 0x80); [apply IH; [lia|assumption]|].
  destruct ((0xC2 <=? x) && (x <=? 0xDF)).
  { destruct a as [|c1 a]; [discriminate|]. cbn [app]. cbn [List.length] in L. apply andb_true_iff in H as [-> H]. cbn [andb]. apply IH; [lia|assumption]. }
  destruct ((0xE0 <=? x) && (x <=? 0xEF)).
  { destruct a as [|c1 [|c2 a]]; try discriminate. cbn [app]. cbn [List.length] in L. apply andb_true_iff in H as [-> H]. cbn [andb]. apply IH; [lia|assumption]. }
  destruct ((0xF0 <=? x) && (x <=? 0xF4)); [|discriminate].
  destruct a as [|c1 [|c2 [|c3 a]]]; try discriminate. cbn [app]. cbn [List.length] in L. apply andb_true_iff in H as [-> H]. cbn [andb]. apply IH; [lia|assumption].
Qed.
Lemma index_schema_utf8 schema : utf8_valid schema = true -> utf8_valid (index_schema schema) = true.
Proof.
  intros H. unfold index_schema. rewrite utf8_app by reflexivity. rewrite utf8_app by assumption. reflexivity.
Qed.

Definition rindex_view (w : Z) (points : list Z) : aview :=
  AView (List.concat (map (to_le (index_bytes w)) points) ++ zeros 8) (zlen points - 1).
Lemma rm_close_facts checks limit p w st m name schema payload points : p_null_empty p = false ->
  sound st -> 1 <= w <= 64 -> 8 <= limit -> rm_at st m w name schema payload points -> zlen payload < 2 ^ w ->
  file_of st (schema_file name) = Some schema -> file_of st (schema_file (index_name name)) = Some (index_schema schema) ->
  Forall (unread st) [name; schema_file name; index_name name; schema_file (index_name name)] -> is_bytes payload ->
  zlen payload + 16 < 2 ^ 64 -> (zlen points + 1) * Z.of_nat (index_bytes w) + 16 < 2 ^ 64 -> utf8_valid schema = true ->
  exists st', rm_close checks limit p w st m = Some (st', ROk (RMView (rindex_view w (points ++ [zlen payload])) (Desc (payload ++ zeros 8) (zlen payload)))) /\
    touches [name; schema_file name; index_name name; schema_file (index_name name)] st st' /\
    file_of st' name = Some (framed payload) /\ file_of st' (schema_file name) = Some schema /\
    file_of st' (index_name name) = Some (framed (List.concat (map (to_le (index_bytes w)) (points ++ [zlen payload])))) /\
    file_of st' (schema_file (index_name name)) = Some (index_schema schema) /\
    (forall n, current st n -> current st' n).
Proof.
  intros Hp Hs Hw Hlim Hm Hl F1 F2 Hu Hb H64 H64i Hutf. destruct (names_distinct name) as (D1 & D2 & D3 & D4 & D5 & D6).
  inversion Hu as [|? ? U1 Hu2]; subst. inversion Hu2 as [|? ? U2 Hu3]; subst. inversion Hu3 as [|? ? U3 Hu4]; subst. inversion Hu4 as [|? ? U4 _]; subst. clear Hu Hu2 Hu3 Hu4.
  unfold rm_close.
  destruct (radd_to_index_facts limit st m w name schema payload points Hs Hw Hlim Hm Hl) as (st1 & m1 & E1 & W1 & H1 & _). rewrite E1. cbn [obind fst snd].
  destruct (rm_flush_facts st1 m1 w name schema payload _ (proj1 W1) H1) as (W2 & H2 & G2). destruct (rm_flush st1 m1) as [st2 m2]. cbn [fst snd] in *.
  assert (W12 : writes [name; index_name name] st st2).
  { apply writes_trans with st1; (eapply writes_incl; [|eassumption]); intros x Hx; cbn in *; tauto. }
  pose proof W12 as (S2 & B12 & R12 & _).
  assert (Ru : forall n, unread st n -> unread st2 n) by (intros n; unfold unread; now rewrite R12).
  destruct H2 as (fl & _ & _ & _ & I2).
  set (pts := (points ++ [zlen payload])%list) in *.
  assert (Est : stored_records (index_type w) (map (to_le (index_bytes w)) pts) = map (to_le (index_bytes w)) pts) by (unfold pts; destruct points; reflexivity).
  destruct (rev_close_facts checks p (index_type w) st2 (rm_index m2) (index_name name) (index_schema schema) (map (to_le (index_bytes w)) pts)) as (st3 & E3 & T3 & F3 & F3s & K3a & K3b).
  { cbn [index_type e_size]. lia. }
  { assumption. }
  { assumption. }
  { assumption. }
  { rewrite B12 by no_in. assumption. }
  { auto. }
  { auto. }
  { rewrite Est, points_zlen. unfold pts. rewrite zlen_app. unfold zlen at 2. cbn [List.length]. lia. }
  { now apply index_schema_utf8. }
  rewrite E3. cbn [obind]. rewrite Est in *. pose proof T3 as (S3 & B3 & R3 & K3).
  destruct (rhandle_close_facts checks p st3 (rm_handle m2) name schema payload Hp S3) as (T4 & F4 & F4s & V4 & K4a & K4b).
  { eapply handle_frame; [exact G2|]. intros j s. apply K3. no_in. }
  { rewrite B3 by no_in. rewrite B12 by no_in. assumption. }
  { unfold unread. rewrite R3 by no_in. apply Ru. assumption. }
  { unfold unread. rewrite R3 by no_in. apply Ru. assumption. }
  { assumption. }
  { assumption. }
  { assumption. }
  destruct (rhandle_close checks p st3 (rm_handle m2)) as [st4 d]. cbn [fst snd] in *. subst d. pose proof T4 as (S4 & B4 & R4 & K4).
  exists st4. split; [|split; [|split; [|split; [|split; [|split]]]]].
  - do 4 f_equal. unfold records_view, rindex_view. cbn [index_type e_overlap]. f_equal. rewrite map_length. unfold pts, zlen. rewrite !app_length. cbn [List.length]. lia.
  - apply touches_trans with st2; [apply writes_touches; eapply writes_incl; [|exact W12]; intros x Hx; cbn in *; tauto|].
    apply touches_trans with st3; (eapply touches_incl; [|eassumption]); intros x Hx; cbn in *; tauto.
  - assumption.
  - assumption.
  - rewrite B4 by no_in. assumption.
  - rewrite B4 by no_in. assumption.
  - assert (C2 : forall n, current st n -> current st2 n).
    { intros n Hc d Ed. rewrite R12 in Ed. rewrite B12; [now apply Hc|]. intros [<-|[<-|[]]]; unfold unread in *; congruence. }
    intros n Hc. destruct (string_dec n name) as [->|N]; [assumption|]. apply K4a; [assumption|].
    destruct (string_dec n (index_name name)) as [->|Ni]; [assumption|]. apply K3a; [assumption|]. now apply C2.
Qed.

(** ** Reading *)
Lemma rread_point w q (rest : list Z) : 1 <= w <= 64 -> 0 <= q < 2 ^ w -> is_bytes rest ->
  rust_read 64 false (to_le (index_bytes w) q ++ rest) 0 w = Some q.
Proof.
  intros Hw Hq Hr. assert (Hk : w <= 8 * Z.of_nat (index_bytes w)) by (unfold index_bytes; lia).
  rewrite rust_read_value.
  - f_equal. apply (stores_value (zeros (index_bytes w) ++ rest)); [lia|assumption|auto|cbn; lia|]. apply to_le_stores; [lia|assumption|assumption].
  - rewrite is_bytes_app. split; [apply to_le_bytes|assumption].
  - unfold in_bounds. rewrite zlen_app, zlen_to_le. pose proof (zlen_nonneg rest). lia.
  - assumption.
  - split; [lia|discriminate].
  - right. lia.
Qed.

(** ** Any contents of the index *)
Lemma uint_shift pre (l : list Z) : forall n o, 0 <= o -> uint_at (pre ++ l) (8 * zlen pre + o) n = uint_at l o n.
Proof.
  induction n as [|n IH]; intros o Ho; [reflexivity|]. cbn [uint_at]. rewrite bit_at_app_r by assumption. rewrite <- Z.add_assoc, IH by lia. reflexivity.
Qed.
Lemma uint_prefix (l post : list Z) : forall n o, 0 <= o -> o + Z.of_nat n <= 8 * zlen l -> uint_at (l ++ post) o n = uint_at l o n.
Proof.
  induction n as [|n IH]; intros o Ho Hl; [reflexivity|]. cbn [uint_at]. rewrite bit_at_app_l by lia. rewrite IH by lia. reflexivity.
Qed.
Lemma schema_uint d off n : schema_value d off n false = uint_at d off (Z.to_nat n).
Proof.
  unfold schema_value, field_value. destruct (n =? 1) eqn:E; [|reflexivity]. assert (n = 1) by lia. subst n.
  change (Z.to_nat 1) with 1%nat. cbn [uint_at]. lia.
Qed.
Lemma rread_record w (r rest : list Z) : 1 <= w <= 64 -> List.length r = index_bytes w -> is_bytes r -> is_bytes rest ->
  rust_read 64 false (r ++ rest) 0 w = Some (uint_at r 0 (Z.to_nat w)).
Proof.
  intros Hw Hl Hr Hrest. assert (Hz : zlen r = Z.of_nat (index_bytes w)) by (unfold zlen; lia).
  assert (Hk : w <= 8 * Z.of_nat (index_bytes w)) by (unfold index_bytes; lia). pose proof (zlen_nonneg rest).
  rewrite rust_read_value.
  - rewrite schema_uint. f_equal. apply uint_prefix; lia.
  - now rewrite is_bytes_app.
  - unfold in_bounds. rewrite zlen_app. lia.
  - assumption.
  - split; [lia|discriminate].
  - right. lia.
Qed.
Lemma rread_next w (a r rest : list Z) : 1 <= w <= 64 -> List.length a = index_bytes w -> List.length r = index_bytes w -> is_bytes a -> is_bytes r -> is_bytes rest ->
  rust_read 64 false (a ++ r ++ rest) (Z.of_nat (index_bytes w) * 8) w = Some (uint_at r 0 (Z.to_nat w)).
Proof.
  intros Hw Ha Hl Hba Hr Hrest. assert (Hz : zlen r = Z.of_nat (index_bytes w)) by (unfold zlen; lia).
  assert (Hza : zlen a = Z.of_nat (index_bytes w)) by (unfold zlen; lia).
  assert (Hk : w <= 8 * Z.of_nat (index_bytes w)) by (unfold index_bytes; lia). pose proof (zlen_nonneg rest).
  rewrite rust_read_value.
  - rewrite schema_uint. f_equal. rewrite <- Hza. replace (zlen a * 8) with (8 * zlen a + 0) by lia. rewrite uint_shift by lia. apply uint_prefix; lia.
  - rewrite !is_bytes_app. auto.
  - unfold in_bounds. rewrite !zlen_app. lia.
  - assumption.
  - split; [lia|discriminate].
  - left. rewrite Z_mod_mult. lia.
Qed.
Lemma rw_at_facts w (rs : list (list Z)) rest n d i : 1 <= w <= 64 ->
  Forall (fun r => List.length r = index_bytes w /\ is_bytes r) rs -> is_bytes rest -> 0 <= n < zlen rs ->
  rw_at w (RMView (AView (List.concat rs ++ rest) n) d) i =
    if Z.of_nat i <? n then
      let a := uint_at (nth i rs []) 0 (Z.to_nat w) in let b := uint_at (nth (S i) rs []) 0 (Z.to_nat w) in
      if (a <=? b) && (b <=? d_size d) then Some (Desc (skipn (Z.to_nat a) (d_mem d)) (b - a)) else None
    else None.
Proof.
  intros Hw Hr Hrest Hn. unfold rw_at, rw_len. cbn [rw_index rw_data av_size]. destruct (Z.of_nat i <? n) eqn:Ei; [|reflexivity].
  assert (Li : (S i < List.length rs)%nat) by (unfold zlen in Hn; lia). pose proof (rec_lengths _ _ Hr) as Hlen.
  assert (E : rs = (firstn i rs ++ nth i rs [] :: nth (S i) rs [] :: skipn (S (S i)) rs)%list).
  { clear - Li. revert i Li. induction rs as [|r rs IH]; intros [|i] Li; cbn [List.length] in Li; try lia.
    - destruct rs as [|r' rs]; [cbn in Li; lia|reflexivity].
    - cbn [firstn nth skipn app]. f_equal. apply (IH i). lia. }
  assert (Lf : List.length (firstn i rs) = i) by (rewrite firstn_length; lia).
  unfold av_at. cbn [av_mem index_type e_size]. fold (index_bytes w). rewrite (concat_skip rs (index_bytes w) rest Hlen i) by lia.
  assert (Es : skipn i rs = nth i rs [] :: nth (S i) rs [] :: skipn (S (S i)) rs).
  { rewrite E at 1. rewrite <- Lf at 1. rewrite skipn_app, Nat.sub_diag, skipn_O, skipn_all. reflexivity. }
  rewrite Es. cbn [List.concat]. rewrite <- !app_assoc.
  assert (H1 : forall j, (j < List.length rs)%nat -> List.length (nth j rs []) = index_bytes w /\ is_bytes (nth j rs [])).
  { intros j Hj. rewrite Forall_forall in Hr. apply Hr. now apply nth_In. }
  destruct (H1 i ltac:(lia)) as [L1 B1]. destruct (H1 (S i) ltac:(lia)) as [L2 B2].
  assert (B3 : is_bytes (List.concat (skipn (S (S i)) rs))) by (apply (rec_bytes (index_bytes w)); now apply Forall_skipn).
  rewrite rread_record; [|assumption|assumption|assumption|rewrite !is_bytes_app; auto]. cbn [obind].
  rewrite rread_next; [|assumption|assumption|assumption|assumption|assumption|rewrite is_bytes_app; auto]. cbn [obind]. reflexivity.
Qed.

(** ** The elements of a bucket *)
Lemma rw_elements_facts types : forall fuel mem size es, 0 <= size <= zlen mem -> size < Z.of_nat fuel -> is_bytes mem ->
  (rw_elements fuel types (Desc mem size) = Some es <->
   Forall (known types) es /\ size = zlen (bucket es) /\ exists post, mem = (bucket es ++ post)%list).
Proof.
  induction fuel as [|fuel IH]; intros mem size es Hs Hf Hb; [lia|]. cbn [rw_elements d_size d_mem].
  destruct (size =? 0) eqn:E0.
  { assert (size = 0) by lia. subst size. split.
    - intros [= <-]. split; [constructor|]. split; [reflexivity|]. exists mem. reflexivity.
    - intros (Hk & Hz & _). f_equal. destruct es as [|e es]; [reflexivity|]. exfalso. rewrite bucket_cons, zlen_app, element_zlen in Hz.
      pose proof (zlen_nonneg (snd e)). pose proof (zlen_nonneg (bucket es)). lia. }
  destruct mem as [|ti rest]; [unfold zlen in Hs; cbn in Hs; lia|].
  assert (Hz : zlen (ti :: rest) = 1 + zlen rest) by (unfold zlen; cbn [List.length]; lia).
  inversion Hb as [|? ? Hti Hrest]; subst.
  unfold rw_create. destruct (type_size types ti) as [n|] eqn:Et; cbn [obind].
  2:{ split; [discriminate|]. intros (Hk & Hz' & post & E). exfalso. destruct es as [|e es]; [unfold bucket, zlen in Hz'; cbn in Hz'; lia|].
      rewrite bucket_cons in E. unfold element in E. cbn [app] in E. injection E as E1 E2. inversion Hk as [|? ? He _]; subst.
      rewrite (known_size types e He) in Et. discriminate. }
  destruct (size - 1 <? Z.of_nat n) eqn:En.
  { split; [discriminate|]. intros (Hk & Hz' & post & E). exfalso. destruct es as [|e es]; [unfold bucket, zlen in Hz'; cbn in Hz'; lia|].
    rewrite bucket_cons in *. unfold element in E. cbn [app] in E. injection E as E1 E2. inversion Hk as [|? ? He _]; subst.
    rewrite (known_size types e He) in Et. injection Et as <-. rewrite zlen_app, element_zlen in *. pose proof (zlen_nonneg (bucket es)). change (Z.of_nat (List.length (snd e))) with (zlen (snd e)) in En. lia. }
  cbn [obind]. assert (Ln : (n <= List.length rest)%nat) by (unfold zlen in *; lia).
  assert (IHn := fun l => IH (skipn n rest) (size - 1 - Z.of_nat n) l ltac:(unfold zlen in *; rewrite skipn_length; lia) ltac:(lia) ltac:(now apply is_bytes_skipn)).
  split.
  - destruct (rw_elements fuel types (Desc (skipn n rest) (size - 1 - Z.of_nat n))) as [l|] eqn:El; cbn [obind]; [|discriminate].
    intros [= <-]. destruct (proj1 (IHn l) eq_refl) as (Hk & Hz' & post & E). split; [|split].
    + constructor; [|assumption]. unfold known. cbn [fst snd]. split; [apply Hti|]. rewrite firstn_length, Nat.min_l by lia.
      unfold type_size in Et. destruct (ti <? 0); [discriminate|exact Et].
    + rewrite bucket_cons, zlen_app, element_zlen. cbn [snd]. unfold zlen at 1. rewrite firstn_length, Nat.min_l by lia. lia.
    + exists post. rewrite bucket_cons. unfold element. cbn [fst snd app]. f_equal. rewrite <- app_assoc, <- E. symmetry. apply firstn_skipn.
  - intros (Hk & Hz' & post & E). destruct es as [|e es]; [unfold bucket, zlen in Hz'; cbn in Hz'; lia|].
    rewrite bucket_cons in *. unfold element in E. cbn [app] in E. injection E as E1 E2. inversion Hk as [|? ? He Hes]; subst ti.
    rewrite (known_size types e He) in Et. injection Et as <-. rewrite zlen_app, element_zlen in Hz'.
    assert (Er : rw_elements fuel types (Desc (skipn (List.length (snd e)) rest) (size - 1 - Z.of_nat (List.length (snd e)))) = Some es).
    { apply IHn. split; [assumption|]. split; [unfold zlen in *; lia|]. exists post. rewrite E2, <- app_assoc, skipn_app, Nat.sub_diag, skipn_O, skipn_all. reflexivity. }
    rewrite Er. cbn [obind]. f_equal. f_equal. rewrite E2, <- app_assoc, firstn_app, Nat.sub_diag, firstn_O, firstn_all, app_nil_r. now destruct e.
Qed.

(** ** Slices and iterators *)
Lemma rw_slice_at w v a b s i : rw_slice w v a b = Some s -> (i < b - a)%nat -> rw_at w s i = rw_at w v (a + i).
Proof.
  unfold rw_slice. destruct ((a <=? b)%nat && (Z.of_nat b <=? rw_len v)) eqn:E; [|discriminate]. intros [= <-] Hi.
  apply andb_true_iff in E as [E1 E2]. unfold rw_at, rw_len in *. cbn [rw_index rw_data av_size].
  replace (Z.of_nat i <? Z.of_nat b - Z.of_nat a) with true by lia. replace (Z.of_nat (a + i) <? av_size (rw_index v)) with true by lia.
  unfold av_at. cbn [av_mem]. rewrite skipn_add. replace (e_size (index_type w) * a + e_size (index_type w) * i)%nat with (e_size (index_type w) * (a + i))%nat by lia.
  reflexivity.
Qed.
Lemma rw_slice_len w v a b s : rw_slice w v a b = Some s -> rw_len s = Z.of_nat b - Z.of_nat a.
Proof. unfold rw_slice. destruct (_ && _); [|discriminate]. intros [= <-]. reflexivity. Qed.
Lemma map_seq_ext {A} (f g : nat -> A) n a b : (forall i, (i < n)%nat -> f (a + i)%nat = g (b + i)%nat) -> map f (seq a n) = map g (seq b n).
Proof.
  revert a b. induction n as [|n IH]; intros a b H; [reflexivity|]. cbn [seq map]. f_equal.
  - specialize (H 0%nat ltac:(lia)). now rewrite !Nat.add_0_r in H.
  - apply IH. intros i Hi. specialize (H (S i) ltac:(lia)). now rewrite !Nat.add_succ_r in H.
Qed.
Lemma rw_iterate_facts w (back : bool) : forall fuel v, 0 <= rw_len v < Z.of_nat fuel ->
  rw_iterate fuel w back v = all_some (let l := map (rw_at w v) (seq 0 (Z.to_nat (rw_len v))) in if back then rev l else l).
Proof.
  induction fuel as [|fuel IH]; intros v Hv; [lia|]. cbn [rw_iterate]. destruct (rw_len v =? 0) eqn:E0.
  { replace (Z.to_nat (rw_len v)) with 0%nat by lia. destruct back; reflexivity. }
  set (n := Z.to_nat (rw_len v - 1)). assert (En : Z.to_nat (rw_len v) = S n) by (unfold n; lia). cbv zeta. rewrite En.
  destruct back.
  - rewrite seq_S, map_app, rev_app_distr. cbn [map rev app Nat.add all_some].
    destruct (rw_at w v n) as [e|]; cbn [obind]; [|reflexivity].
    destruct (rw_slice w v 0 n) as [s|] eqn:Es.
    2:{ exfalso. unfold rw_slice in Es. replace ((0 <=? n)%nat && (Z.of_nat n <=? rw_len v)) with true in Es by (unfold n; lia). discriminate. }
    cbn [obind]. assert (Ls : rw_len s = Z.of_nat n).
    { revert Es. unfold rw_slice. destruct (_ && _); [|discriminate]. intros [= <-]. cbn. lia. }
    rewrite IH by lia. rewrite Ls, Nat2Z.id. cbv zeta.
    rewrite (map_seq_ext (rw_at w s) (rw_at w v) n 0 0); [reflexivity|]. intros i Hi. rewrite !Nat.add_0_l. rewrite (rw_slice_at w v 0 n s i Es); [reflexivity|lia].
  - cbn [seq map all_some]. destruct (rw_at w v 0) as [e|]; cbn [obind]; [|reflexivity].
    destruct (rw_slice w v 1 (S n)) as [s|] eqn:Es.
    2:{ exfalso. unfold rw_slice in Es. replace ((1 <=? S n)%nat && (Z.of_nat (S n) <=? rw_len v)) with true in Es by (unfold n; lia). discriminate. }
    cbn [obind]. assert (Ls : rw_len s = Z.of_nat n).
    { pose proof (rw_slice_len _ _ _ _ _ Es). lia. }
    rewrite IH by lia. rewrite Ls, Nat2Z.id. cbv zeta.
    rewrite (map_seq_ext (rw_at w s) (rw_at w v) n 0 1); [reflexivity|]. intros i Hi. rewrite Nat.add_0_l. rewrite (rw_slice_at w v 1 (S n) s i Es); [reflexivity|lia].
Qed.
Lemma rw_iter_facts w back v : 0 <= rw_len v ->
  rw_iter w back v = all_some (let l := map (rw_at w v) (seq 0 (Z.to_nat (rw_len v))) in if back then rev l else l).
Proof. intros H. apply rw_iterate_facts. lia. Qed.
