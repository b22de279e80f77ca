(** Facts about the C++ resource storage and growing vectors. *)
From Coq Require Import List ZArith Bool Lia String.
From Coq Require Import ZifyBool ZifyNat.
From Verif Require Import PyBase Spec DataAccess Structure StructSpec BitFacts DataAccessFacts DataAccessThms StructFacts
  SliceFacts Resources Builder Archive ArchiveSpec ResourceFacts BuilderFacts ArchiveFacts Codecs CodecSpec CodecFacts CodecThms
  Streams StoreSpec StoreFacts CppStore.
Import ListNotations.
Local Open Scope string_scope.
Local Open Scope Z_scope.
Ltac Zify.zify_post_hook ::= Z.div_mod_to_equations.

(** A size in a resource file. *)
Lemma size_bytes n : 0 <= n < 2 ^ 64 -> cpp_size_bytes n = to_le 8 n.
Proof.
  intros Hn. unfold cpp_size_bytes, cpp_write. change (cpp_word 0 64) with 64. cbv zeta.
  change (mem_load (zeros 8) (0 / 8) (64 / 8)) with (Some 0). cbn [obind]. change (0 mod 8) with 0.
  change (64 - 0 <? 64) with false. cbv iota. unfold cpp_masked. change (64 =? 64) with true. cbv iota. cbn [andb].
  rewrite Z.land_0_l, Z.lor_0_l, Z.shiftl_0_r, !(Z.mod_small n) by lia. reflexivity.
Qed.

Lemma read_size f : is_bytes f -> 8 <= zlen f -> cpp_read 64 false f 0 64 = Some (le (firstn 8 f)).
Proof.
  intros Hf Hl. unfold cpp_read. change (cpp_word 0 64) with 64. cbv zeta. change (64 =? 1) with false. cbv iota.
  unfold mem_load. change (0 / 8) with 0. change (64 / 8) with 8. replace ((0 <=? 0) && (0 <=? 8) && (0 + 8 <=? zlen f)) with true by lia.
  cbn [obind]. change (0 mod 8) with 0. change (64 - 0 <? 64) with false. cbv iota. cbn [obind].
  rewrite Z.shiftr_0_r. change (Z.to_nat 0) with 0%nat. change (Z.to_nat 8) with 8%nat. cbn [skipn].
  assert (B : 0 <= le (firstn 8 f) < 2 ^ 64).
  { pose proof (le_bound (firstn 8 f) (is_bytes_firstn 8 f Hf)) as B. unfold zlen in *. rewrite firstn_length in B.
    replace (8 * Z.of_nat (Nat.min 8 (List.length f))) with 64 in B by lia. exact B. }
  unfold cpp_masked, cpp_extend_sign. change (64 =? 64) with true. cbv iota. f_equal.
  unfold cast. cbv iota. now rewrite Z.mod_small.
Qed.

Lemma header_split f : is_bytes f -> 16 <= zlen f -> (le (firstn 8 f) + 8 + 8) mod 2 ^ 64 = zlen f -> zlen f < 2 ^ 64 ->
  exists data, holds_resource f data /\ zlen data = le (firstn 8 f) /\ data = firstn (Z.to_nat (le (firstn 8 f))) (skipn 8 f).
Proof.
  intros Hf Hl Hm Hb.
  assert (B : 0 <= le (firstn 8 f) < 2 ^ 64).
  { pose proof (le_bound (firstn 8 f) (is_bytes_firstn 8 f Hf)) as B. unfold zlen in *. rewrite firstn_length in B.
    replace (8 * Z.of_nat (Nat.min 8 (List.length f))) with 64 in B by lia. exact B. }
  assert (Hs : le (firstn 8 f) + 16 = zlen f).
  { destruct (Z.lt_ge_cases (le (firstn 8 f) + 16) (2 ^ 64)) as [Hlt|Hge].
    - rewrite Z.mod_small in Hm by lia. lia.
    - exfalso. rewrite <- (Z.mod_add _ (-1)) in Hm by lia. rewrite Z.mod_small in Hm by lia. lia. }
  set (n := le (firstn 8 f)) in *.
  exists (firstn (Z.to_nat n) (skipn 8 f)).
  assert (Ld : zlen (firstn (Z.to_nat n) (skipn 8 f)) = n).
  { unfold zlen in *. rewrite firstn_length, skipn_length. lia. }
  split; [|split; [exact Ld|reflexivity]].
  exists (skipn (Z.to_nat n) (skipn 8 f)). split.
  - unfold zlen in *. rewrite !skipn_length. lia.
  - rewrite firstn_skipn. rewrite Ld. unfold n. rewrite <- (firstn_skipn 8 f) at 1. f_equal.
    assert (L8 : List.length (firstn 8 f) = 8%nat) by (unfold zlen in *; rewrite firstn_length; lia).
    transitivity (to_le (List.length (firstn 8 f)) (le (firstn 8 f))); [|now rewrite L8].
    symmetry. apply to_le_le. now apply is_bytes_firstn.
Qed.

Lemma holds_header f data : holds_resource f data -> zlen data < 2 ^ 64 ->
  le (firstn 8 f) = zlen data /\ zlen f = zlen data + 16 /\ exists pad, List.length pad = 8%nat /\ skipn 8 f = (data ++ pad)%list.
Proof.
  intros (pad & Lp & ->) Hb.
  assert (L8 : List.length (to_le 8 (zlen data)) = 8%nat) by apply to_le_length.
  split; [|split].
  - rewrite firstn_app, L8, Nat.sub_diag, firstn_O. rewrite app_nil_r, firstn_all2 by lia. rewrite le_to_le.
    pose proof (zlen_nonneg data). now rewrite Z.mod_small.
  - rewrite !zlen_app. unfold zlen at 1. rewrite L8. unfold zlen. lia.
  - exists pad. split; [assumption|]. rewrite skipn_app, L8, Nat.sub_diag, skipn_O. rewrite skipn_all2 by lia. reflexivity.
Qed.

Lemma eqb_list_spec a : forall b, eqb_list a b = true <-> a = b.
Proof.
  induction a as [|x a IH]; intros [|y b]; cbn; try (split; congruence).
  rewrite andb_true_iff, IH, Z.eqb_eq. split; [intros [-> ->]; reflexivity|intros E; injection E; auto].
Qed.

Lemma schema_name_ne n : n ++ ".schema" <> n.
Proof. intros E. symmetry in E. now apply ne_suffix in E. Qed.

(** ** Writing a whole resource *)
Lemma write_schema_facts p st name schema : p_reuse p = false -> sound st ->
  let st' := cpp_write_schema p st name schema in
  sound st' /\ file_of st' (schema_file name) = Some schema /\ same_but [schema_file name] st st' /\ same_reads st st' /\
  (forall n j s, n <> schema_file name -> holds_stream st n j s -> holds_stream st' n j s) /\
  (forall n, n <> schema_file name -> dict_get (st_names st') n = dict_get (st_names st) n).
Proof.
  intros Hp Hs. unfold cpp_write_schema. destruct (create_fresh p st (schema_file name) Hp Hs) as (S1 & H1 & B1 & R1 & K1 & N1).
  unfold schema_file in *. destruct (create_stream p st (name ++ ".schema")) as [st1 i]. cbn [fst snd] in *.
  destruct (on_stream_facts (fun s => os_write s schema) st1 _ i _ S1 H1) as (S2 & H2 & B2 & R2 & K2 & N2).
  fold (write_stream st1 i schema) in *. split; [assumption|]. split; [|split; [|split; [|split]]].
  - rewrite (holds_file _ _ _ _ H2). change os_new with (OStream [] (List.length (@nil Z))). now rewrite os_write_end.
  - eapply same_but_incl; [|eapply same_but_trans; eassumption]. intros x Hx. rewrite in_app_iff in Hx. cbn in *. tauto.
  - unfold same_reads in *. congruence.
  - intros n j s Hn Hh. apply K2; auto.
  - intros n Hn. rewrite N2. now apply N1.
Qed.

Lemma framed_holds data : holds_resource (framed data) data.
Proof. exists (zeros 8). split; reflexivity. Qed.

Lemma write_resource_facts p st name schema data : p_reuse p = false -> sound st -> zlen data < 2 ^ 64 ->
  let st' := cpp_write_resource p st name schema data in
  sound st' /\ file_of st' name = Some (framed data) /\ file_of st' (schema_file name) = Some schema /\
  same_but [name; schema_file name] st st' /\ same_reads st st'.
Proof.
  intros Hp Hs Hb. unfold cpp_write_resource. pose proof (zlen_nonneg data) as Hz.
  destruct (create_fresh p st name Hp Hs) as (S1 & H1 & B1 & R1 & K1 & N1).
  destruct (create_stream p st name) as [st1 i]. cbn [fst snd] in *.
  destruct (on_stream_facts (fun s => os_write s (cpp_size_bytes (zlen data))) st1 _ i _ S1 H1) as (S2 & H2 & B2 & R2 & K2 & N2).
  fold (write_stream st1 i (cpp_size_bytes (zlen data))) in *. set (st2 := write_stream st1 i (cpp_size_bytes (zlen data))) in *.
  destruct (on_stream_facts (fun s => os_write s data) st2 _ i _ S2 H2) as (S3 & H3 & B3 & R3 & K3 & N3).
  fold (write_stream st2 i data) in *. set (st3 := write_stream st2 i data) in *.
  destruct (on_stream_facts (fun s => os_write s (zeros PADDING_SIZE)) st3 _ i _ S3 H3) as (S4 & H4 & B4 & R4 & K4 & N4).
  fold (write_stream st3 i (zeros PADDING_SIZE)) in *. set (st4 := write_stream st3 i (zeros PADDING_SIZE)) in *.
  destruct (write_schema_facts p st4 name schema Hp S4) as (S5 & F5 & B5 & R5 & K5 & N5).
  split; [assumption|]. split; [|split; [assumption|split]].
  - rewrite (B5 name); [|intros [E|[]]; now apply schema_name_ne in E].
    rewrite (holds_file _ _ _ _ H4). change os_new with (OStream [] (List.length (@nil Z))). rewrite !os_write_end.
    cbn [os_bytes]. unfold framed. rewrite size_bytes by lia. rewrite <- app_assoc. reflexivity.
  - eapply same_but_incl; [|eapply same_but_trans; [|exact B5]; eapply same_but_trans; [|exact B4]; eapply same_but_trans; [|exact B3];
      eapply same_but_trans; [exact B1|exact B2]]. intros x Hx. rewrite !in_app_iff in Hx. cbn in *. tauto.
  - unfold same_reads in *. congruence.
Qed.

(** ** Reading *)
Lemma cpp_read_facts p st name schema : sound st -> unread st name -> unread st (schema_file name) ->
  (forall f, file_of st name = Some f -> is_bytes f /\ zlen f < 2 ^ 64) ->
  forall d, snd (cpp_read_resource p st name schema) = Some d <->
    exists f data, file_of st name = Some f /\ holds_resource f data /\
      file_of st (schema_file name) = Some schema /\ (p_null_empty p = true -> schema <> []) /\
      d = Desc (skipn 8 f) (zlen data).
Proof.
  intros Hs Hu1 Hu2 Hf d. unfold cpp_read_resource.
  pose proof (read_value p st name Hs Hu1) as V1. destruct (read_store p st name Hs) as (S1 & F1 & _ & _ & C1).
  destruct (read_resource p st name) as [st1 r1]. cbn [fst snd] in *.
  assert (Hu2' : unread st1 (schema_file name)) by (unfold unread; rewrite C1; [exact Hu2|apply schema_name_ne]).
  pose proof (read_value p st1 (schema_file name) S1 Hu2') as V2. rewrite F1 in V2. unfold schema_file in *.
  destruct (read_resource p st1 (name ++ ".schema")) as [st2 r2]. cbn [fst snd] in *.
  destruct (file_of st name) as [f|]; [|subst r1; cbn; split; [discriminate|intros (f & data & E & _); discriminate]].
  destruct (Hf f eq_refl) as [Bf Lf].
  assert (E1 : r1 = Some f \/ (r1 = None /\ zlen f = 0)).
  { rewrite V1. destruct (p_null_empty p); cbn [andb]; [|now left]. destruct (zlen f =? 0) eqn:E; [right; split; [reflexivity|lia]|now left]. }
  destruct E1 as [->|[-> Ez]].
  2: { cbn [obind]. split; [discriminate|]. intros (f' & data & E & (pad & Lp & Ef) & _). assert (E' : f = f') by congruence. rewrite E', Ef in *.
       exfalso. rewrite !zlen_app, zlen_to_le in Ez. pose proof (zlen_nonneg data). unfold zlen in Ez at 2. lia. }
  cbn [obind].
  destruct (file_of st (name ++ ".schema")) as [sch|].
  2: { subst r2. cbn [obind]. split; [discriminate|]. intros (f' & data & _ & _ & E & _). discriminate. }
  assert (E2 : (r2 = Some sch /\ (p_null_empty p = true -> sch <> [])) \/ (r2 = None /\ p_null_empty p = true /\ sch = [])).
  { rewrite V2. destruct (p_null_empty p); cbn [andb]; [|left; split; [reflexivity|discriminate]].
    destruct sch as [|x sch]; [right; auto|left]. replace (zlen (x :: sch) =? 0) with false by (unfold zlen; cbn; lia). split; [reflexivity|discriminate]. }
  destruct E2 as [[-> Hne]|(-> & Hpe & ->)].
  2: { cbn [obind]. split; [discriminate|]. intros (f' & data & _ & _ & E & Hn & _). injection E as <-. now elim (Hn Hpe). }
  cbn [obind]. change (8 + 8) with 16. destruct (zlen f <? 16) eqn:E16.
  { split; [discriminate|]. intros (f' & data & E & (pad & Lp & Ef) & _). assert (E' : f = f') by congruence. rewrite E', Ef in *.
    exfalso. rewrite !zlen_app, zlen_to_le in E16. pose proof (zlen_nonneg data). unfold zlen in E16 at 2. lia. }
  rewrite read_size by (auto; lia). cbn [obind].
  destruct ((le (firstn 8 f) + 8 + 8) mod 2 ^ 64 =? zlen f) eqn:Em; cbn [negb].
  2: { split; [discriminate|]. intros (f' & data & E & Hh & _). injection E as <-. exfalso.
       assert (Hd : zlen data < 2 ^ 64) by (destruct Hh as (pad & Lp & ->); unfold zlen in *; rewrite !app_length in Lf; lia).
       destruct (holds_header f data Hh Hd) as (Eh & El & _). rewrite Eh in Em.
       pose proof (zlen_nonneg data). replace (zlen data + 8 + 8) with (zlen f) in Em by lia. rewrite Z.mod_small in Em by lia. lia. }
  destruct (header_split f Bf ltac:(lia) ltac:(lia) Lf) as (data & Hh & Ed & _).
  destruct (eqb_list sch schema) eqn:Es; cbn [negb].
  - apply eqb_list_spec in Es. subst sch. split.
    + intros E. injection E as <-. exists f, data. rewrite Ed. auto 6.
    + intros (f' & data' & E & Hh' & _ & _ & ->). injection E as <-. f_equal. f_equal.
      assert (Hd : zlen data' < 2 ^ 64) by (destruct Hh' as (pad & Lp & ->); unfold zlen in *; rewrite !app_length in Lf; lia).
      now destruct (holds_header f data' Hh' Hd) as (Eh & _).
  - split; [discriminate|]. intros (f' & data' & _ & _ & E & _). injection E as ->.
    rewrite (proj2 (eqb_list_spec schema schema) eq_refl) in Es. discriminate.
Qed.

(** ** What an operation touches *)
(** Only these files change, and nothing new is remembered as read. *)
Definition writes (names : list string) (st st' : store) : Prop :=
  sound st' /\ same_but names st st' /\ same_reads st st' /\
  (forall n j s, ~ In n names -> holds_stream st n j s -> holds_stream st' n j s).
(** Only these files change and are read. *)
Definition touches (names : list string) (st st' : store) : Prop :=
  sound st' /\ same_but names st st' /\ (forall n, ~ In n names -> dict_get (st_cache st') n = dict_get (st_cache st) n) /\
  (forall n j s, ~ In n names -> holds_stream st n j s -> holds_stream st' n j s).

Lemma writes_touches l a b : writes l a b -> touches l a b.
Proof. intros (S & B & R & K). split; [assumption|]. split; [assumption|]. split; [intros n _; now rewrite R|assumption]. Qed.
Lemma writes_refl l a : sound a -> writes l a a.
Proof. intros S. split; [assumption|]. split; [apply same_but_refl|]. split; [reflexivity|auto]. Qed.
Lemma writes_incl l l' a b : incl l l' -> writes l a b -> writes l' a b.
Proof. intros I (S & B & R & K). split; [assumption|]. split; [eapply same_but_incl; eauto|]. split; [assumption|]. intros n j s Hn. apply K. intros Hl. apply Hn. now apply I. Qed.
Lemma touches_incl l l' a b : incl l l' -> touches l a b -> touches l' a b.
Proof.
  intros I (S & B & R & K). split; [assumption|]. split; [eapply same_but_incl; eauto|]. split.
  - intros n Hn. apply R. intros Hl. apply Hn. now apply I.
  - intros n j s Hn. apply K. intros Hl. apply Hn. now apply I.
Qed.
Lemma writes_trans l a b c : writes l a b -> writes l b c -> writes l a c.
Proof.
  intros (S1 & B1 & R1 & K1) (S2 & B2 & R2 & K2). split; [assumption|]. split.
  - intros n Hn. rewrite B2 by assumption. now apply B1.
  - split; [unfold same_reads in *; congruence|]. intros n j s Hn Hh. apply K2; auto.
Qed.
Lemma touches_trans l a b c : touches l a b -> touches l b c -> touches l a c.
Proof.
  intros (S1 & B1 & R1 & K1) (S2 & B2 & R2 & K2). split; [assumption|]. split.
  - intros n Hn. rewrite B2 by assumption. now apply B1.
  - split; [intros n Hn; rewrite R2 by assumption; now apply R1|]. intros n j s Hn Hh. apply K2; auto.
Qed.

Lemma create_writes p st name : p_reuse p = false -> sound st ->
  writes [name] st (fst (create_stream p st name)) /\
  holds_stream (fst (create_stream p st name)) name (snd (create_stream p st name)) (OStream [] 0).
Proof.
  intros Hp Hs. destruct (create_fresh p st name Hp Hs) as (S1 & H1 & B1 & R1 & K1 & N1). split; [|assumption].
  split; [assumption|]. split; [assumption|]. split; [assumption|]. intros n j s Hn. apply K1. intros ->. apply Hn. now left.
Qed.
Lemma write_writes st name i b d : sound st -> holds_stream st name i (OStream b (List.length b)) ->
  writes [name] st (write_stream st i d) /\ holds_stream (write_stream st i d) name i (OStream (b ++ d) (List.length (b ++ d))).
Proof.
  intros Hs Hh. destruct (on_stream_facts (fun s => os_write s d) st name i _ Hs Hh) as (S1 & H1 & B1 & R1 & K1 & N1).
  fold (write_stream st i d) in *. rewrite os_write_end in H1. split; [|assumption].
  split; [assumption|]. split; [assumption|]. split; [assumption|]. intros n j s Hn. apply K1. intros ->. apply Hn. now left.
Qed.
Lemma schema_writes p st name schema : p_reuse p = false -> sound st ->
  writes [schema_file name] st (cpp_write_schema p st name schema) /\
  file_of (cpp_write_schema p st name schema) (schema_file name) = Some schema.
Proof.
  intros Hp Hs. destruct (write_schema_facts p st name schema Hp Hs) as (S1 & F1 & B1 & R1 & K1 & N1). split; [|assumption].
  split; [assumption|]. split; [assumption|]. split; [assumption|]. intros n j s Hn. apply K1. intros ->. apply Hn. now left.
Qed.
Lemma rewrite_start st name i b d : sound st -> holds_stream st name i (OStream b (List.length b)) -> (List.length d <= List.length b)%nat ->
  writes [name] st (write_stream (seek_stream st i) i d) /\
  file_of (write_stream (seek_stream st i) i d) name = Some (d ++ skipn (List.length d) b)%list.
Proof.
  intros Hs Hh Hl. destruct (on_stream_facts os_seek st name i _ Hs Hh) as (S1 & H1 & B1 & R1 & K1 & N1). fold (seek_stream st i) in *.
  destruct (on_stream_facts (fun s => os_write s d) _ name i _ S1 H1) as (S2 & H2 & B2 & R2 & K2 & N2).
  fold (write_stream (seek_stream st i) i d) in *. split.
  - apply writes_trans with (seek_stream st i).
    + split; [assumption|]. split; [assumption|]. split; [assumption|]. intros n j s Hn. apply K1. intros ->. apply Hn. now left.
    + split; [assumption|]. split; [assumption|]. split; [assumption|]. intros n j s Hn. apply K2. intros ->. apply Hn. now left.
  - rewrite (holds_file _ _ _ _ H2). now rewrite os_write_start.
Qed.
Lemma read_touches p st name : sound st -> touches [name] st (fst (read_resource p st name)) /\
  forall n, file_of (fst (read_resource p st name)) n = file_of st n.
Proof.
  intros Hs. destruct (read_store p st name Hs) as (S1 & F1 & N1 & H1 & C1). split; [|assumption].
  split; [assumption|]. split; [intros n _; apply F1|]. split; [intros n Hn; apply C1; intros ->; apply Hn; now left|].
  intros n j s _ [A B]. split; congruence.
Qed.
Lemma cpp_read_touches p st name schema : sound st ->
  touches [name; schema_file name] st (fst (cpp_read_resource p st name schema)) /\
  forall n, file_of (fst (cpp_read_resource p st name schema)) n = file_of st n.
Proof.
  intros Hs. unfold cpp_read_resource. destruct (read_touches p st name Hs) as [T1 F1].
  destruct (read_resource p st name) as [st1 r1]. cbn [fst] in *.
  destruct (read_touches p st1 (schema_file name) (proj1 T1)) as [T2 F2]. unfold schema_file in *.
  destruct (read_resource p st1 (name ++ ".schema")) as [st2 r2]. cbn [fst] in *. split.
  - apply touches_trans with st1; (eapply touches_incl; [|eassumption]); intros x Hx; cbn in *; tauto.
  - intros n. rewrite F2. apply F1.
Qed.

(** ** Handles *)
Definition handle_at (st : store) (h : handle) (name : string) (schema payload : list Z) : Prop :=
  h_size h = zlen payload /\ h_name h = name /\ h_schema h = schema /\
  holds_stream st name (h_stream h) (OStream (to_le 8 0 ++ payload) (List.length (to_le 8 0 ++ payload))).

Lemma handle_create_facts p st name schema : p_reuse p = false -> sound st ->
  writes [name] st (fst (handle_create p st name schema)) /\
  handle_at (fst (handle_create p st name schema)) (snd (handle_create p st name schema)) name schema [].
Proof.
  intros Hp Hs. unfold handle_create. destruct (create_writes p st name Hp Hs) as [W1 H1].
  destruct (create_stream p st name) as [st1 i]. cbn [fst snd] in *.
  destruct (write_writes st1 name i [] (cpp_size_bytes 0) (proj1 W1) H1) as [W2 H2]. split.
  - now apply writes_trans with st1.
  - split; [reflexivity|]. split; [reflexivity|]. split; [reflexivity|]. cbn [h_stream snd].
    rewrite size_bytes in H2 by lia. cbn [app] in H2. now rewrite app_nil_r.
Qed.
Lemma handle_write_facts st h name schema payload d : sound st -> handle_at st h name schema payload ->
  writes [name] st (fst (handle_write st h d)) /\
  handle_at (fst (handle_write st h d)) (snd (handle_write st h d)) name schema (payload ++ d).
Proof.
  intros Hs (A & B & C & H). unfold handle_write. cbn [fst snd].
  destruct (write_writes st name _ _ d Hs H) as [W1 H1]. split; [assumption|].
  split; [cbn; rewrite A, zlen_app; lia|]. split; [assumption|]. split; [assumption|]. cbn [h_stream]. now rewrite app_assoc.
Qed.
Lemma handle_frame st st' h name schema payload : handle_at st h name schema payload ->
  (forall j s, holds_stream st name j s -> holds_stream st' name j s) -> handle_at st' h name schema payload.
Proof. intros (A & B & C & H) K. split; [assumption|]. split; [assumption|]. split; [assumption|]. now apply K. Qed.

Lemma handle_close_facts p st h name schema payload :
  sound st -> handle_at st h name schema payload -> file_of st (schema_file name) = Some schema ->
  unread st name -> unread st (schema_file name) -> is_bytes payload -> zlen payload + 16 < 2 ^ 64 ->
  (p_null_empty p = true -> schema <> []) ->
  touches [name; schema_file name] st (fst (handle_close p st h)) /\
  file_of (fst (handle_close p st h)) name = Some (framed payload) /\
  file_of (fst (handle_close p st h)) (schema_file name) = Some schema /\
  snd (handle_close p st h) = Some (Desc (payload ++ zeros 8) (zlen payload)).
Proof.
  intros Hs (A & B & C & H) Hsch Hu1 Hu2 Hb Hl Hne. unfold handle_close. cbv zeta.
  destruct (write_writes st name _ _ (zeros PADDING_SIZE) Hs H) as [W1 H1].
  set (st1 := write_stream st (h_stream h) (zeros PADDING_SIZE)) in *.
  pose proof (zlen_nonneg payload) as Hz.
  assert (Hlen : (List.length (cpp_size_bytes (h_size h)) <= List.length ((to_le 8 0 ++ payload) ++ zeros PADDING_SIZE))%nat).
  { rewrite A, size_bytes by lia. rewrite !app_length, !to_le_length. lia. }
  destruct (rewrite_start st1 name (h_stream h) _ (cpp_size_bytes (h_size h)) (proj1 W1) H1 Hlen) as [W2 F2].
  set (st2 := write_stream (seek_stream st1 (h_stream h)) (h_stream h) (cpp_size_bytes (h_size h))) in *.
  assert (W : writes [name] st st2) by (now apply writes_trans with st1).
  assert (F : file_of st2 name = Some (framed payload)).
  { rewrite F2. f_equal. rewrite A, size_bytes by lia. rewrite to_le_length. unfold framed.
    rewrite <- !app_assoc. f_equal. }
  assert (Fs : file_of st2 (schema_file name) = Some schema).
  { destruct W as (_ & Bw & _ & _). rewrite Bw; [assumption|]. intros [E|[]]. symmetry in E. now apply schema_name_ne in E. }
  rewrite B, C.
  destruct (cpp_read_touches p st2 name schema (proj1 W)) as [T3 F3].
  assert (Hu1' : unread st2 name) by (unfold unread; destruct W as (_ & _ & R & _); now rewrite R).
  assert (Hu2' : unread st2 (schema_file name)) by (unfold unread; destruct W as (_ & _ & R & _); now rewrite R).
  split; [|split; [|split]].
  - apply touches_trans with st2; [|assumption]. apply writes_touches. eapply writes_incl; [|exact W]. intros x Hx. cbn in *. tauto.
  - now rewrite F3.
  - now rewrite F3.
  - apply cpp_read_facts; auto; [exact (proj1 W)| |].
    + intros f E. rewrite F in E. assert (E' : f = framed payload) by congruence. subst f. unfold framed. split.
      * rewrite !is_bytes_app. split; [apply to_le_bytes|]. split; [assumption|apply is_bytes_zeros].
      * rewrite !zlen_app, zlen_to_le, zlen_zeros_nat. lia.
    + exists (framed payload), payload. split; [assumption|]. split; [apply framed_holds|]. split; [assumption|]. split; [assumption|].
      reflexivity.
Qed.

(** ** Records filled in through mutators *)
(** The writes [f] turn the record [old] into [new], whatever follows it (at least the padding), and touch nothing else. *)
Definition fills (size : nat) (f : filler) (old new : list Z) : Prop :=
  List.length old = size /\ List.length new = size /\ is_bytes new /\
  forall rest, is_bytes rest -> 8 <= zlen rest -> f (old ++ rest)%list = Some (new ++ rest)%list.

Lemma fill_at_end f size pre old new rest : fills size f old new -> is_bytes rest -> 8 <= zlen rest ->
  fill_at f (List.length pre) (pre ++ old ++ rest) = Some (pre ++ new ++ rest)%list.
Proof.
  intros (_ & _ & _ & H) Hb Hl. unfold fill_at. rewrite skipn_app, Nat.sub_diag, skipn_O, skipn_all2 by lia. cbn [app].
  rewrite H by assumption. cbn [obind]. rewrite firstn_app, Nat.sub_diag, firstn_O, firstn_all, app_nil_r. reflexivity.
Qed.
Lemma zeros_app a b : zeros (a + b) = (zeros a ++ zeros b)%list.
Proof. unfold zeros. apply repeat_app. Qed.
Lemma zeros_swap a b : (zeros a ++ zeros b = zeros b ++ zeros a)%list.
Proof. rewrite <- !zeros_app. f_equal. lia. Qed.

(** The writes [f] turn a zeroed record followed by the zeroed padding into [r], and leave the padding alone. *)
Definition makes (size : nat) (f : filler) (r : list Z) : Prop :=
  List.length r = size /\ is_bytes r /\ f (zeros (size + 8)) = Some (r ++ zeros 8)%list.
Lemma fills_makes size f r : fills size f (zeros size) r -> makes size f r.
Proof.
  intros (_ & L & B & H). split; [assumption|]. split; [assumption|]. rewrite zeros_app.
  apply H; [apply is_bytes_zeros|rewrite zlen_zeros_nat; lia].
Qed.
Lemma fill_new f size pre new : makes size f new ->
  fill_at f (List.length pre) (pre ++ zeros size ++ zeros 8) = Some (pre ++ new ++ zeros 8)%list.
Proof.
  intros (_ & _ & H). unfold fill_at. rewrite skipn_app, Nat.sub_diag, skipn_O, skipn_all2 by lia. cbn [app].
  rewrite <- zeros_app, H. cbn [obind]. rewrite firstn_app, Nat.sub_diag, firstn_O, firstn_all, app_nil_r. reflexivity.
Qed.

(** ** External vectors *)
Fixpoint ev_grow_all (limit : Z) (t : etype) (st : store) (v : evector) (fs : list filler) : option (store * evector) :=
  match fs with
  | [] => Some (st, v)
  | f :: fs => r <== ev_grow limit t st v f ;; ev_grow_all limit t (fst r) (snd r) fs
  end.

Definition ev_at (st : store) (v : evector) (name : string) (schema payload : list Z) (n : Z) : Prop :=
  exists flushed pending, payload = (flushed ++ pending)%list /\ ev_data v = (pending ++ zeros 8)%list /\ ev_size v = n /\
    handle_at st (ev_handle v) name schema flushed.

Lemma ev_frame st st' v name schema payload n : ev_at st v name schema payload n ->
  (forall j s, holds_stream st name j s -> holds_stream st' name j s) -> ev_at st' v name schema payload n.
Proof.
  intros (fl & pe & A & B & C & H) K. exists fl, pe. split; [assumption|]. split; [assumption|]. split; [assumption|].
  now apply handle_frame with st.
Qed.

Lemma ev_create_facts p st name schema : p_reuse p = false -> sound st ->
  let st' := fst (ev_create p st name schema) in
  writes [name; schema_file name] st st' /\ file_of st' (schema_file name) = Some schema /\
  ev_at st' (snd (ev_create p st name schema)) name schema [] 0.
Proof.
  intros Hp Hs. unfold ev_create. destruct (schema_writes p st name schema Hp Hs) as [W1 F1].
  set (st1 := cpp_write_schema p st name schema) in *.
  destruct (handle_create_facts p st1 name schema Hp (proj1 W1)) as [W2 H2].
  destruct (handle_create p st1 name schema) as [st2 h]. cbn [fst snd] in *. split; [|split].
  - apply writes_trans with st1; (eapply writes_incl; [|eassumption]); intros x Hx; cbn in *; tauto.
  - destruct W2 as (_ & B & _ & _). rewrite B; [assumption|]. intros [E|[]]. symmetry in E. now apply schema_name_ne in E.
  - exists [], []. cbn. auto.
Qed.
Lemma ev_flush_facts st v name schema payload n : sound st -> ev_at st v name schema payload n ->
  let st' := fst (ev_flush st v) in let v' := snd (ev_flush st v) in
  writes [name] st st' /\ ev_data v' = zeros 8 /\ ev_size v' = n /\ handle_at st' (ev_handle v') name schema payload.
Proof.
  intros Hs (fl & pe & A & B & C & H). unfold ev_flush. rewrite B, app_length.
  replace (List.length pe + List.length (zeros 8) - PADDING_SIZE)%nat with (List.length pe) by (change (List.length (zeros 8)) with 8%nat; unfold PADDING_SIZE; lia).
  rewrite firstn_app, Nat.sub_diag, firstn_O, firstn_all, app_nil_r.
  destruct (handle_write_facts st _ _ _ _ pe Hs H) as [W1 H1].
  destruct (handle_write st (ev_handle v) pe) as [st1 h1]. cbn [fst snd ev_data ev_size ev_handle] in *. subst payload. auto.
Qed.
Lemma ev_grow_facts limit t st v name schema payload n f new : sound st -> ev_at st v name schema payload n ->
  makes (e_size t) f new ->
  exists st' v', ev_grow limit t st v f = Some (st', v') /\ writes [name] st st' /\ ev_at st' v' name schema (payload ++ new) (n + 1).
Proof.
  intros Hs He Hf. unfold ev_grow.
  assert (Hx : exists st1 v1, (if limit <? zlen (ev_data v) then ev_flush st v else (st, v)) = (st1, v1) /\
             writes [name] st st1 /\ ev_at st1 v1 name schema payload n).
  { destruct (limit <? zlen (ev_data v)).
    - destruct (ev_flush_facts st v name schema payload n Hs He) as (W & D & Z & H). destruct (ev_flush st v) as [st1 v1]. cbn [fst snd] in *.
      exists st1, v1. split; [reflexivity|]. split; [assumption|]. exists payload, []. rewrite app_nil_r. auto.
    - exists st, v. split; [reflexivity|]. split; [now apply writes_refl|assumption]. }
  destruct Hx as (st1 & v1 & -> & W1 & (fl & pe & A & B & C & H)). cbv zeta beta iota. rewrite B.
  replace (List.length (pe ++ zeros 8) - PADDING_SIZE)%nat with (List.length pe) by (rewrite app_length; change (List.length (zeros 8)) with 8%nat; unfold PADDING_SIZE; lia).
  rewrite <- app_assoc, zeros_swap.
  rewrite (fill_new f (e_size t) pe new Hf).
  cbn [obind]. exists st1, (EVector (pe ++ new ++ zeros 8) (ev_handle v1) (ev_size v1 + 1)).
  split; [reflexivity|]. split; [assumption|]. exists fl, (pe ++ new)%list. cbn [ev_data ev_size ev_handle].
  split; [now rewrite A, app_assoc|]. split; [now rewrite app_assoc|]. split; [lia|assumption].
Qed.
Lemma ev_grow_all_facts limit t name schema : forall fs rs st v payload n, sound st -> ev_at st v name schema payload n ->
  Forall2 (fun f r => makes (e_size t) f r) fs rs ->
  exists st' v', ev_grow_all limit t st v fs = Some (st', v') /\ writes [name] st st' /\
    ev_at st' v' name schema (payload ++ List.concat rs) (n + zlen rs).
Proof.
  induction fs as [|f fs IH]; intros rs st v payload n Hs He Hf; inversion Hf as [|? r ? rs' Hr Hrs]; subst; cbn [ev_grow_all List.concat].
  - exists st, v. split; [reflexivity|]. split; [now apply writes_refl|]. rewrite app_nil_r. unfold zlen. cbn. now rewrite Z.add_0_r.
  - destruct (ev_grow_facts limit t st v name schema payload n f r Hs He Hr) as (st1 & v1 & E1 & W1 & H1). rewrite E1. cbn [obind fst snd].
    destruct (IH rs' st1 v1 _ _ (proj1 W1) H1 Hrs) as (st2 & v2 & E2 & W2 & H2). exists st2, v2. split; [assumption|].
    split; [now apply writes_trans with st1|]. rewrite app_assoc. replace (n + zlen (r :: rs')) with (n + 1 + zlen rs'); [assumption|].
    unfold zlen. cbn [List.length]. lia.
Qed.
Lemma ev_close_facts p t st v name schema payload n :
  sound st -> ev_at st v name schema payload n -> file_of st (schema_file name) = Some schema ->
  unread st name -> unread st (schema_file name) -> is_bytes payload -> zlen payload + 16 < 2 ^ 64 ->
  (p_null_empty p = true -> schema <> []) ->
  let st' := fst (ev_close p t st v) in
  touches [name; schema_file name] st st' /\ file_of st' name = Some (framed payload) /\ file_of st' (schema_file name) = Some schema /\
  snd (ev_close p t st v) = Some (av_create t (payload ++ zeros 8) (zlen payload)).
Proof.
  intros Hs He Hsch Hu1 Hu2 Hb Hl Hne. unfold ev_close.
  destruct (ev_flush_facts st v name schema payload n Hs He) as (W1 & _ & _ & H1).
  destruct (ev_flush st v) as [st1 v1]. cbn [fst snd] in *.
  assert (Fs : file_of st1 (schema_file name) = Some schema).
  { destruct W1 as (_ & B & _ & _). rewrite B; [assumption|]. intros [E|[]]. symmetry in E. now apply schema_name_ne in E. }
  assert (R : forall m, unread st m -> unread st1 m) by (intros m; unfold unread; destruct W1 as (_ & _ & R & _); now rewrite R).
  destruct (handle_close_facts p st1 (ev_handle v1) name schema payload (proj1 W1) H1 Fs (R _ Hu1) (R _ Hu2) Hb Hl Hne) as (T2 & F2 & G2 & D2).
  destruct (handle_close p st1 (ev_handle v1)) as [st2 d]. cbn [fst snd] in *. subst d. cbn [obind d_mem d_size].
  split; [|auto]. apply touches_trans with st1; [|assumption]. apply writes_touches. eapply writes_incl; [|exact W1]. intros x Hx. cbn in *. tauto.
Qed.
