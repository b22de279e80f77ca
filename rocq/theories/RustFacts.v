(** Facts about the Rust resource storage and vectors. *)
From Coq Require Import List ZArith Bool Lia String.
From Coq Require Import ZifyBool ZifyNat.
From Verif Require Import PyBase Spec DataAccess Structure StructSpec BitFacts DataAccessFacts DataAccessThms StructFacts
  SliceFacts Resources Builder Archive ArchiveSpec ResourceFacts BuilderFacts ArchiveFacts Codecs CodecSpec CodecFacts CodecThms
  Streams StoreSpec StoreFacts CppStore CppFacts CppViews RustStore RustSpec.
Import ListNotations.
Local Open Scope string_scope.
Local Open Scope Z_scope.
Ltac Zify.zify_post_hook ::= Z.div_mod_to_equations.

Lemma rsize_bytes n : 0 <= n < 2 ^ 64 -> rust_size_bytes n = to_le 8 n.
Proof.
  intros Hn. unfold rust_size_bytes, rust_write. change (0 / 8) with 0. change (0 mod 8) with 0. cbv zeta.
  change (Z.min 8 ((64 + 0 + 7) / 8)) with 8. change (mem_load (zeros 8) 0 8) with (Some 0). cbn [obind].
  change (rust_mask (2 ^ 64 - 1) 64) with (2 ^ 64 - 1). cbv iota. rewrite Z.land_0_l, Z.lor_0_l, Z.shiftl_0_r, !(Z.mod_small n) by lia.
  change (8 * 8 - 0 <? 64) with false. reflexivity.
Qed.
Lemma rread_size f : is_bytes f -> 8 <= zlen f -> rust_read 64 false f 0 64 = Some (le (firstn 8 f)).
Proof.
  intros Hf Hl. unfold rust_read. change (0 / 8) with 0. change (0 mod 8) with 0. cbv zeta. change (64 =? 1) with false. cbv iota.
  change (Z.min 8 ((64 + 0 + 7) / 8)) with 8. unfold mem_load. replace ((0 <=? 0) && (0 <=? 8) && (0 + 8 <=? zlen f)) with true by lia.
  cbn [obind]. change (8 * 8 - 0 <? 64) with false. cbv iota. cbn [obind].
  rewrite Z.shiftr_0_r. change (Z.to_nat 0) with 0%nat. change (Z.to_nat 8) with 8%nat. cbn [skipn].
  assert (B : 0 <= le (firstn 8 f) < 2 ^ 64).
  { pose proof (le_bound (firstn 8 f) (is_bytes_firstn 8 f Hf)) as B. unfold zlen in *. rewrite firstn_length in B.
    replace (8 * Z.of_nat (Nat.min 8 (List.length f))) with 64 in B by lia. exact B. }
  unfold rust_mask, rust_extend. change (64 <? 64) with false. cbv iota. f_equal. unfold cast. cbv iota. now rewrite Z.mod_small.
Qed.

(** ** Streams *)
Lemma no_stream st name : sound st -> file_of st name = None -> dict_get (st_names st) name = None.
Proof.
  intros (_ & _ & Hb) H. unfold file_of in H. destruct (dict_get (st_names st) name) as [i|] eqn:E; [|reflexivity]. exfalso.
  apply dict_get_in in E. rewrite Forall_forall in Hb. specialize (Hb _ E). cbn in Hb. apply nth_error_Some in Hb.
  destruct (nth_error (st_heap st) i); [discriminate|congruence].
Qed.
Lemma create_starts p st name : startable p st name -> sound st ->
  writes [name] st (fst (create_stream p st name)) /\
  holds_stream (fst (create_stream p st name)) name (snd (create_stream p st name)) (OStream [] 0).
Proof.
  intros [Hp|Hn] Hs; [now apply create_writes|]. pose proof (no_stream st name Hs Hn) as N.
  replace (create_stream p st name) with (create_stream (Policy false false) st name) by (unfold create_stream; rewrite N; reflexivity).
  now apply create_writes.
Qed.
Lemma startable_writes p l st st' name : writes l st st' -> ~ In name l -> startable p st name -> startable p st' name.
Proof. intros (_ & B & _) Hn [H|H]; [now left|right]. now rewrite B. Qed.

Lemma rschema_writes p st name schema : startable p st (schema_file name) -> sound st ->
  writes [schema_file name] st (rust_write_schema p st name schema) /\
  file_of (rust_write_schema p st name schema) (schema_file name) = Some schema.
Proof.
  intros Hp Hs. unfold rust_write_schema. destruct (create_starts p st (schema_file name) Hp Hs) as [W1 H1]. unfold schema_file in *.
  destruct (create_stream p st (name ++ ".schema")) as [st1 i]. cbn [fst snd] in *.
  destruct (write_writes st1 _ i [] schema (proj1 W1) H1) as [W2 H2]. split; [now apply writes_trans with st1|].
  rewrite (holds_file _ _ _ _ H2). reflexivity.
Qed.

Lemma rwrite_facts p st name schema data : startable p st name -> startable p st (schema_file name) -> sound st -> zlen data < 2 ^ 64 ->
  let st' := rust_write_resource p st name schema data in
  writes [name; schema_file name] st st' /\ file_of st' name = Some (framed data) /\ file_of st' (schema_file name) = Some schema.
Proof.
  intros Hp1 Hp2 Hs Hb. unfold rust_write_resource. pose proof (zlen_nonneg data) as Hz.
  destruct (create_starts p st name Hp1 Hs) as [W1 H1]. destruct (create_stream p st name) as [st1 i]. cbn [fst snd] in *.
  destruct (write_writes st1 _ i [] (rust_size_bytes (zlen data)) (proj1 W1) H1) as [W2 H2]. set (st2 := write_stream st1 i _) in *.
  destruct (write_writes st2 _ i _ data (proj1 W2) H2) as [W3 H3]. set (st3 := write_stream st2 i _) in *.
  destruct (write_writes st3 _ i _ (zeros 8) (proj1 W3) H3) as [W4 H4]. set (st4 := write_stream st3 i _) in *.
  assert (W : writes [name] st st4) by (apply writes_trans with st1; [assumption|]; apply writes_trans with st2; [assumption|]; now apply writes_trans with st3).
  destruct (rschema_writes p st4 name schema) as [W5 F5].
  { eapply startable_writes; [exact W| |assumption]. intros [E|[]]. symmetry in E. now apply schema_name_ne in E. }
  { exact (proj1 W). }
  split; [|split; [|assumption]].
  - apply writes_trans with st4; (eapply writes_incl; [|eassumption]); intros x Hx; cbn in *; tauto.
  - destruct W5 as (_ & B5 & _). rewrite (B5 name); [|intros [E|[]]; now apply schema_name_ne in E].
    rewrite (holds_file _ _ _ _ H4). cbn [os_bytes app]. unfold framed. rewrite rsize_bytes by lia. now rewrite <- app_assoc.
Qed.

(** ** Reading *)
Lemma holds_unique f a b : holds_resource f a -> holds_resource f b -> zlen f < 2 ^ 64 -> a = b.
Proof.
  intros Ha Hb Hl.
  assert (L : forall d, holds_resource f d -> zlen d < 2 ^ 64).
  { intros d (pad & Lp & ->). rewrite !zlen_app, zlen_to_le in Hl. unfold zlen in *. lia. }
  destruct (holds_header f a Ha (L _ Ha)) as (Ea & _ & pa & Lpa & Sa). destruct (holds_header f b Hb (L _ Hb)) as (Eb & _ & pb & Lpb & Sb).
  assert (E : List.length a = List.length b) by (unfold zlen in *; lia). rewrite Sa in Sb.
  apply (f_equal (firstn (List.length a))) in Sb. rewrite E in Sb at 2. now rewrite !firstn_app, !Nat.sub_diag, !firstn_O, !app_nil_r, !firstn_all in Sb.
Qed.
Lemma holds_none f : is_bytes f -> zlen f < 2 ^ 64 -> zlen f < 16 -> forall data, ~ holds_resource f data.
Proof.
  intros _ _ Hl data (pad & Lp & ->). rewrite !zlen_app, zlen_to_le in Hl. pose proof (zlen_nonneg data). unfold zlen in Hl at 2. lia.
Qed.

Lemma read_current p st n : p_null_empty p = false -> sound st -> current st n ->
  let st' := fst (read_resource p st n) in
  snd (read_resource p st n) = file_of st n /\ touches [n] st st' /\ (forall m, file_of st' m = file_of st m) /\
  (forall m, current st m -> current st' m).
Proof.
  intros Hp Hs Hc. destruct (read_touches p st n Hs) as [T F]. split; [|split; [assumption|split; [assumption|]]].
  - destruct (dict_get (st_cache st) n) as [d|] eqn:E.
    + rewrite (Hc d E). unfold read_resource. now rewrite E.
    + rewrite (read_value p st n Hs E). rewrite Hp. cbn [andb]. destruct (file_of st n); reflexivity.
  - intros m Hm d. rewrite F. destruct (string_dec m n) as [->|N].
    + destruct (dict_get (st_cache st) n) as [d'|] eqn:E.
      * unfold read_resource. rewrite E. cbn [fst]. intros E'. rewrite E in E'. injection E' as <-. now apply Hc.
      * unfold read_resource, file_of. rewrite E. destruct (dict_get (st_names st) n) as [i|] eqn:Ei; [|cbn [fst]; congruence].
        rewrite Hp. cbn [andb fst st_cache]. destruct Hs as (_ & _ & Hb). apply dict_get_in in Ei. rewrite Forall_forall in Hb.
        specialize (Hb _ Ei). cbn in Hb. apply nth_error_Some in Hb. destruct (nth_error (st_heap st) i) as [s|]; [|congruence].
        intros E'. cbn [option_map]. assert (G : forall (l : list (string * list Z)) x, dict_get l n = None -> dict_get (l ++ [(n, x)]) n = Some x).
        { induction l as [|[k y] l IH]; intros x; cbn; [now rewrite String.eqb_refl|]. destruct (String.eqb k n); [discriminate|apply IH]. }
        rewrite G in E' by assumption. exact E'.
    + destruct T as (_ & _ & C & _). rewrite C by (cbn; intuition congruence). apply Hm.
Qed.

Lemma rread_facts checks p st name expected : p_null_empty p = false -> sound st -> current st name -> current st (schema_file name) ->
  utf8_valid expected = true -> (forall f, file_of st name = Some f -> is_bytes f /\ zlen f < 2 ^ 64) ->
  let st' := fst (rust_read_resource checks p st name expected) in
  reads_as checks (file_of st) name expected (snd (rust_read_resource checks p st name expected)) /\
  touches [name; schema_file name] st st' /\ (forall m, file_of st' m = file_of st m) /\ (forall m, current st m -> current st' m).
Proof.
  intros Hp Hs Hc1 Hc2 Hu Hf. unfold rust_read_resource.
  destruct (read_current p st name Hp Hs Hc1) as (V1 & T1 & F1 & K1). destruct (read_resource p st name) as [st1 r1]. cbn [fst snd] in *.
  destruct r1 as [f|]; [|cbn [fst snd]; split; [now apply ReadsMissing|split; [|auto]]; eapply touches_incl; [|exact T1]; intros x Hx; cbn in *; tauto].
  destruct (read_current p st1 (schema_file name) Hp (proj1 T1) (K1 _ Hc2)) as (V2 & T2 & F2 & K2). unfold schema_file in *.
  destruct (read_resource p st1 (name ++ ".schema")) as [st2 r2]. cbn [fst snd] in *. split; [|split; [|split]].
  2:{ apply touches_trans with st1; (eapply touches_incl; [|eassumption]); intros x Hx; cbn in *; tauto. }
  2:{ intros m. now rewrite F2, F1. }
  2:{ intros m Hm. auto. }
  symmetry in V1. rewrite F1 in V2. symmetry in V2. fold (schema_file name) in V2. destruct (Hf f V1) as [Bf Lf].
  destruct r2 as [s|]; [|eapply ReadsNoSchema; eassumption].
  destruct (zlen f <? 8 + 8) eqn:E16.
  { eapply ReadsSize; try eassumption; [apply holds_none; auto; lia|]. intros _ [H _]. lia. }
  rewrite rread_size by (auto; lia).
  assert (B : 0 <= le (firstn 8 f) < 2 ^ 64).
  { pose proof (le_bound (firstn 8 f) (is_bytes_firstn 8 f Bf)) as B. unfold zlen in *. rewrite firstn_length in B.
    replace (8 * Z.of_nat (Nat.min 8 (List.length f))) with 64 in B by lia. exact B. }
  destruct (checks && (2 ^ 64 <=? le (firstn 8 f) + 8 + 8)) eqn:Eo.
  { apply andb_true_iff in Eo as [-> Eo]. eapply ReadsOverflow; eauto. split; lia. }
  destruct ((le (firstn 8 f) + 8 + 8) mod 2 ^ 64 =? zlen f) eqn:Es; cbn [negb].
  2:{ eapply ReadsSize; try eassumption.
      - intros data Hh. assert (Hd : zlen data < 2 ^ 64) by (destruct Hh as (pad & Lp & ->); rewrite !zlen_app, zlen_to_le in Lf; unfold zlen in *; lia).
        destruct (holds_header f data Hh Hd) as (Eh & Lh & _). rewrite Eh, Z.mod_small in Es by (pose proof (zlen_nonneg data); lia). lia.
      - intros -> [_ H]. cbn [andb] in Eo. lia. }
  destruct (header_split f Bf ltac:(lia) ltac:(lia) Lf) as (data & Hh & Ld & Ed).
  destruct (utf8_valid s) eqn:Eu; cbn [negb]; [|eapply ReadsNoText; eassumption].
  destruct (eqb_list s expected) eqn:Ee; cbn [negb].
  - apply eqb_list_spec in Ee. subst s. destruct (holds_header f data Hh ltac:(lia)) as (_ & Lh & _).
    replace (zlen f - 8 <? le (firstn 8 f)) with false by lia. rewrite <- Ld. eapply ReadsOk; eassumption.
  - eapply ReadsOther; eauto. intros ->. rewrite (proj2 (eqb_list_spec expected expected) eq_refl) in Ee. discriminate.
Qed.
Lemma reads_ok checks p st name schema data : p_null_empty p = false -> sound st -> current st name -> current st (schema_file name) ->
  utf8_valid schema = true -> is_bytes data -> zlen data + 16 < 2 ^ 64 ->
  file_of st name = Some (framed data) -> file_of st (schema_file name) = Some schema ->
  let st' := fst (rust_read_resource checks p st name schema) in
  snd (rust_read_resource checks p st name schema) = ROk (Desc (data ++ zeros 8) (zlen data)) /\
  touches [name; schema_file name] st st' /\ (forall m, file_of st' m = file_of st m) /\ (forall m, current st m -> current st' m).
Proof.
  intros Hp Hs C1 C2 Hu Hb Hl F G.
  assert (Hf : is_bytes (framed data) /\ zlen (framed data) < 2 ^ 64).
  { unfold framed. split; [|rewrite !zlen_app, zlen_to_le, zlen_zeros_nat; lia].
    rewrite !is_bytes_app. split; [apply to_le_bytes|]. split; [assumption|apply is_bytes_zeros]. }
  destruct (rread_facts checks p st name schema Hp Hs C1 C2 Hu) as (R & T & K & C).
  { intros f E. rewrite F in E. assert (E' : f = framed data) by congruence. subst f. exact Hf. }
  split; [|auto]. assert (Hh : holds_resource (framed data) data) by apply framed_holds.
  inversion R as [f d Ff Hd Fs E|Fn E|f Ff Fs E|f s Ff Fs Hn _ E|f s Ff Fs _ Ho E|f d s Ff Hd Fs Hx E|f d s Ff Hd Fs _ Hx E].
  - assert (f = framed data) by congruence. subst f. rewrite (holds_unique _ _ _ Hd Hh (proj2 Hf)).
    assert (Sk : skipn 8 (framed data) = (data ++ zeros 8)%list)
      by (unfold framed; rewrite skipn_app, to_le_length, Nat.sub_diag, skipn_O, skipn_all2 by (rewrite to_le_length; lia); reflexivity).
    change (ROk (Desc (skipn 8 (framed data)) (zlen data)) = ROk (Desc (data ++ zeros 8) (zlen data))). now rewrite Sk.
  - congruence.
  - congruence.
  - exfalso. assert (f = framed data) by congruence. subst f. exact (Hn data Hh).
  - exfalso. assert (f = framed data) by congruence. subst f. destruct Ho as [_ Ho].
    destruct (holds_header _ data Hh ltac:(lia)) as (Eh & _). lia.
  - congruence.
  - congruence.
Qed.

(** ** Handles *)
Lemma rhandle_new_facts p st name schema : startable p st name -> sound st ->
  writes [name] st (fst (rhandle_new p st name schema)) /\
  handle_at (fst (rhandle_new p st name schema)) (snd (rhandle_new p st name schema)) name schema [].
Proof.
  intros Hp Hs. unfold rhandle_new. destruct (create_starts p st name Hp Hs) as [W1 H1].
  destruct (create_stream p st name) as [st1 i]. cbn [fst snd] in *.
  destruct (write_writes st1 name i [] (rust_size_bytes 0) (proj1 W1) H1) as [W2 H2]. split.
  - now apply writes_trans with st1.
  - split; [reflexivity|]. split; [reflexivity|]. split; [reflexivity|]. cbn [h_stream snd].
    rewrite rsize_bytes in H2 by lia. cbn [app] in H2. now rewrite app_nil_r.
Qed.
Lemma rhandle_write_facts st h name schema payload d : sound st -> handle_at st h name schema payload ->
  writes [name] st (fst (rhandle_write st h d)) /\
  handle_at (fst (rhandle_write st h d)) (snd (rhandle_write st h d)) name schema (payload ++ d).
Proof. exact (handle_write_facts st h name schema payload d). Qed.

Lemma rhandle_close_facts checks p st h name schema payload : p_null_empty p = false ->
  sound st -> handle_at st h name schema payload -> file_of st (schema_file name) = Some schema ->
  unread st name -> unread st (schema_file name) -> is_bytes payload -> zlen payload + 16 < 2 ^ 64 -> utf8_valid schema = true ->
  let st' := fst (rhandle_close checks p st h) in
  touches [name; schema_file name] st st' /\
  file_of st' name = Some (framed payload) /\ file_of st' (schema_file name) = Some schema /\
  snd (rhandle_close checks p st h) = ROk (Desc (payload ++ zeros 8) (zlen payload)) /\
  (forall m, m <> name -> current st m -> current st' m) /\ current st' name.
Proof.
  intros Hp Hs (A & B & C & H) Hsch Hu1 Hu2 Hb Hl Hu. unfold rhandle_close. cbv zeta.
  destruct (write_writes st name _ _ (zeros 8) Hs H) as [W1 H1].
  set (st1 := write_stream st (h_stream h) (zeros 8)) in *.
  pose proof (zlen_nonneg payload) as Hz.
  assert (Hlen : (List.length (rust_size_bytes (h_size h)) <= List.length ((to_le 8 0 ++ payload) ++ zeros 8))%nat).
  { rewrite A, rsize_bytes by lia. rewrite !app_length, !to_le_length. lia. }
  destruct (rewrite_start st1 name (h_stream h) _ (rust_size_bytes (h_size h)) (proj1 W1) H1 Hlen) as [W2 F2].
  set (st2 := write_stream (seek_stream st1 (h_stream h)) (h_stream h) (rust_size_bytes (h_size h))) in *.
  assert (W : writes [name] st st2) by (now apply writes_trans with st1).
  assert (F : file_of st2 name = Some (framed payload)).
  { rewrite F2. f_equal. rewrite A, rsize_bytes by lia. rewrite to_le_length. unfold framed. rewrite <- !app_assoc. f_equal. }
  assert (Fs : file_of st2 (schema_file name) = Some schema).
  { destruct W as (_ & Bw & _ & _). rewrite Bw; [assumption|]. intros [E|[]]. symmetry in E. now apply schema_name_ne in E. }
  rewrite B, C.
  assert (Hc : forall n, n <> name -> current st n -> current st2 n).
  { intros n Hn Hcn d E. destruct W as (_ & Bw & R & _). rewrite R in E. rewrite Bw by (cbn; intuition congruence). now apply Hcn. }
  assert (Hu1' : current st2 name) by (intros d E; destruct W as (_ & _ & R & _); rewrite R in E; unfold unread in Hu1; congruence).
  assert (Hu2' : current st2 (schema_file name)) by (intros d E; destruct W as (_ & _ & R & _); rewrite R in E; unfold unread in Hu2; congruence).
  destruct (reads_ok checks p st2 name schema payload Hp (proj1 W) Hu1' Hu2' Hu Hb Hl F Fs) as (V & T & G & K).
  split; [|split; [now rewrite G|split; [now rewrite G|split; [exact V|split]]]].
  - apply touches_trans with st2; [|assumption]. apply writes_touches. eapply writes_incl; [|exact W]. intros x Hx. cbn in *. tauto.
  - intros m Hm Hcm. apply K. now apply Hc.
  - now apply K.
Qed.
