(** Facts about Rust slices, vectors and external vectors. *)
From Coq Require Import List ZArith Bool Lia String.
From Coq Require Import ZifyBool ZifyNat.
From Verif Require Import PyBase Spec DataAccess Structure StructSpec BitFacts DataAccessFacts DataAccessThms StructFacts
  SliceFacts Resources Builder Archive ArchiveSpec ResourceFacts BuilderFacts ArchiveFacts Codecs CodecSpec CodecFacts CodecThms
  Streams StoreSpec StoreFacts CppStore CppFacts CppViews RustStore RustSpec RustFacts.
Import ListNotations.
Local Open Scope string_scope.
Local Open Scope Z_scope.
Ltac Zify.zify_post_hook ::= Z.div_mod_to_equations.

(** ** Slices *)
Lemma rfrom_bytes_records t (rs : list (list Z)) rest : (0 < e_size t)%nat -> Forall (fun r => List.length r = e_size t) rs ->
  rfrom_bytes t (Desc (List.concat rs ++ rest) (zlen (List.concat rs))) =
    match rs, e_overlap t with [], true => RErr ESize | _, _ => ROk (records_view t rs rest) end.
Proof.
  intros Ht Hr. unfold rfrom_bytes. cbn [d_mem d_size].
  assert (E : zlen (List.concat rs) = Z.of_nat (List.length rs) * Z.of_nat (e_size t)) by (unfold zlen; rewrite (concat_length rs _ Hr); lia).
  rewrite E. rewrite Z.mod_mul by lia. cbn [Z.eqb negb]. unfold records_view.
  destruct rs as [|r rs]; destruct (e_overlap t); cbn [List.length].
  - now replace (Z.of_nat 0 * Z.of_nat (e_size t) <? Z.of_nat (e_size t)) with true by lia.
  - reflexivity.
  - replace (Z.of_nat (S (List.length rs)) * Z.of_nat (e_size t) <? Z.of_nat (e_size t)) with false by nia.
    do 2 f_equal. replace (Z.of_nat (S (List.length rs)) * Z.of_nat (e_size t) - Z.of_nat (e_size t)) with (Z.of_nat (List.length rs) * Z.of_nat (e_size t)) by lia.
    rewrite Z.div_mul by lia. lia.
  - do 2 f_equal. rewrite Z.div_mul by lia. lia.
Qed.
(** The slice of any resource is either rejected or consists of the records in it. *)
Lemma chunks {A} size : forall n (l : list A), List.length l = (n * size)%nat -> exists rs, l = List.concat rs /\ List.length rs = n /\ Forall (fun r => List.length r = size) rs.
Proof.
  induction n as [|n IH]; intros l H.
  - exists []. destruct l; [|discriminate]. auto.
  - destruct (IH (skipn size l)) as (rs & E & L & F); [rewrite skipn_length; lia|]. exists (firstn size l :: rs). cbn [List.concat List.length].
    rewrite <- E, firstn_skipn. split; [reflexivity|]. split; [lia|]. constructor; [|assumption]. rewrite firstn_length. lia.
Qed.
Lemma ras_bytes_records t (rs : list (list Z)) rest a b : (0 < e_size t)%nat -> Forall (fun r => List.length r = e_size t) rs ->
  (a + b + (if e_overlap t then 1 else 0) <= List.length rs)%nat ->
  ras_bytes t (AView (skipn (e_size t * a) (List.concat rs ++ rest)) (Z.of_nat b)) = Some (List.concat (firstn (b + (if e_overlap t then 1 else 0)) (skipn a rs))).
Proof.
  intros Ht Hr Hab. unfold ras_bytes. cbn [av_mem av_size].
  rewrite (concat_skip rs (e_size t) rest Hr a) by lia.
  set (k := (b + (if e_overlap t then 1 else 0))%nat).
  assert (Hs : Forall (fun r => List.length r = e_size t) (skipn a rs)) by (now apply Forall_skipn).
  assert (Lk : List.length (List.concat (firstn k (skipn a rs))) = (k * e_size t)%nat).
  { rewrite (concat_length _ (e_size t)); [|now apply Forall_firstn]. rewrite firstn_length, skipn_length, Nat.min_l; [reflexivity|]. unfold k. lia. }
  replace ((Z.of_nat b + (if e_overlap t then 1 else 0)) * Z.of_nat (e_size t)) with (Z.of_nat (k * e_size t)) by (unfold k; destruct (e_overlap t); lia).
  assert (Hsp : List.concat (skipn a rs) = (List.concat (firstn k (skipn a rs)) ++ List.concat (skipn k (skipn a rs)))%list)
    by (rewrite <- concat_app, firstn_skipn; reflexivity).
  rewrite Hsp, <- app_assoc.
  replace (Z.of_nat (k * e_size t) <=? _) with true.
  - f_equal. rewrite Nat2Z.id, <- Lk, firstn_app, Nat.sub_diag, firstn_O, firstn_all, app_nil_r. reflexivity.
  - rewrite zlen_app. unfold zlen. rewrite Lk. lia.
Qed.

(** ** Vectors *)
Definition rvec_at (t : etype) (v : rvec) (rs : list (list Z)) : Prop :=
  v = (rs ++ [zeros (e_size t)])%list /\ Forall (fun r => List.length r = e_size t /\ is_bytes r) rs.

Lemma rvec_bytes t v rs : (0 < e_size t)%nat -> rvec_at t v rs -> ras_bytes t (rvec_view t v) = Some (List.concat (stored_records t rs)).
Proof.
  intros Ht [-> Hr]. apply rec_lengths in Hr. unfold rvec_view. rewrite app_length. cbn [List.length].
  assert (Hall : Forall (fun r => List.length r = e_size t) (rs ++ [zeros (e_size t)])%list).
  { apply Forall_app. split; [assumption|]. constructor; [apply zeros_len|constructor]. }
  pose proof (fun b H => ras_bytes_records t _ [] 0 b Ht Hall H) as R. rewrite app_nil_r, Nat.mul_0_r, !skipn_O, app_length in R. cbn [List.length] in R.
  destruct (e_overlap t) eqn:Eo.
  - rewrite R by (destruct rs; cbn; lia). f_equal. f_equal. destruct rs as [|r rs].
    + cbn. now rewrite Eo.
    + cbn [stored_records]. rewrite firstn_app. replace (List.length (r :: rs) + 1 - 2 + 1)%nat with (List.length (r :: rs)) by (cbn; lia).
      now rewrite Nat.sub_diag, firstn_O, firstn_all, app_nil_r.
  - rewrite R by lia. f_equal. f_equal. rewrite Nat.add_sub, Nat.add_0_r, firstn_app, Nat.sub_diag, firstn_O, firstn_all, app_nil_r.
    destruct rs; cbn [stored_records]; rewrite ?Eo; reflexivity.
Qed.
Lemma rvec_grow_facts t v rs f new : rvec_at t v rs -> sets (e_size t) f (zeros (e_size t)) new ->
  exists v', rvec_grow t v f = Some v' /\ rvec_at t v' (rs ++ [new]).
Proof.
  intros [-> Hr] (_ & Ln & Bn & Hf). unfold rvec_grow, rvec_len, change_at. rewrite app_length. cbn [List.length]. rewrite Nat.add_sub.
  rewrite <- app_assoc. rewrite nth_error_app2, Nat.sub_diag by lia. cbn [nth_error app obind]. rewrite Hf. cbn [obind].
  eexists. split; [reflexivity|]. split.
  - rewrite <- app_assoc. cbn [app]. clear. induction rs as [|r rs IH]; cbn; [reflexivity|]. now rewrite IH.
  - apply Forall_app. split; [assumption|]. constructor; [auto|constructor].
Qed.
Lemma rvec_set_facts t v rs i f old new : rvec_at t v rs -> nth_error rs i = Some old -> sets (e_size t) f old new ->
  exists v', rvec_set t v i f = Some v' /\ rvec_at t v' (set_at rs i new).
Proof.
  intros [-> Hr] Hi (_ & Ln & Bn & Hf). assert (Li : (i < List.length rs)%nat) by (apply nth_error_Some; congruence).
  unfold rvec_set, rvec_len. rewrite app_length. cbn [List.length].
  replace (if e_overlap t then _ else _) with true by (destruct (e_overlap t); symmetry; apply Nat.ltb_lt; lia).
  unfold change_at. rewrite nth_error_app1 by assumption. rewrite Hi. cbn [obind]. rewrite Hf. cbn [obind]. eexists. split; [reflexivity|]. split.
  - clear -Li. revert i Li. induction rs as [|r rs IH]; intros [|i] Li; cbn in *; try lia; [reflexivity|]. f_equal. apply IH. lia.
  - apply set_at_forall; auto.
Qed.
Lemma rvec_ops_facts t : forall ops v rs rs', rvec_at t v rs -> rvdo_all (e_size t) ops rs rs' ->
  exists v', rvec_ops t v ops = Some v' /\ rvec_at t v' rs'.
Proof.
  induction ops as [|op ops IH]; intros v rs rs' Hv Hd; inversion Hd as [|? ? ? b ? Ho Hos]; subst; [exists v; auto|].
  inversion Ho as [f new ? Hs|i f old new ? Hi Hs]; subst; cbn [rvec_ops].
  - destruct (rvec_grow_facts t v rs f new Hv Hs) as (v1 & -> & H1). cbn [obind]. eapply IH; eassumption.
  - destruct (rvec_set_facts t v rs i f old new Hv Hi Hs) as (v1 & -> & H1). cbn [obind]. eapply IH; eassumption.
Qed.
Lemma rvec_new_at t n : rvec_at t (rvec_new t n) (repeat (zeros (e_size t)) n).
Proof.
  unfold rvec_new. split; [now rewrite repeat_app|]. apply Forall_forall. intros x Hx. apply repeat_spec in Hx. subst x.
  split; [apply zeros_len|apply is_bytes_zeros].
Qed.

(** ** External vectors *)
Definition rev_at (st : store) (t : etype) (v : revector) (name : string) (schema : list Z) (rs : list (list Z)) : Prop :=
  exists flushed pending, rs = (flushed ++ pending)%list /\ rvec_at t (rv_data v) pending /\ rv_len v = zlen rs /\ (pending = [] -> rs = []) /\
    Forall (fun r => List.length r = e_size t /\ is_bytes r) flushed /\
    handle_at st (rv_handle v) name schema (List.concat flushed).

Lemma rev_frame st st' t v name schema rs : rev_at st t v name schema rs ->
  (forall j s, holds_stream st name j s -> holds_stream st' name j s) -> rev_at st' t v name schema rs.
Proof.
  intros (fl & pe & A & B & C & D & E & H) K. exists fl, pe. repeat (split; [assumption|]). now apply handle_frame with st.
Qed.
Lemma rev_create_facts p t st name schema : startable p st name -> startable p st (schema_file name) -> sound st ->
  let st' := fst (rev_create p t st name schema) in
  writes [name; schema_file name] st st' /\ file_of st' (schema_file name) = Some schema /\
  rev_at st' t (snd (rev_create p t st name schema)) name schema [].
Proof.
  intros Hp1 Hp2 Hs. unfold rev_create. destruct (rschema_writes p st name schema Hp2 Hs) as [W1 F1].
  set (st1 := rust_write_schema p st name schema) in *.
  destruct (rhandle_new_facts p st1 name schema) as [W2 H2]; [|exact (proj1 W1)|].
  { eapply startable_writes; [exact W1| |assumption]. intros [E|[]]. now apply schema_name_ne in E. }
  destruct (rhandle_new p st1 name schema) as [st2 h]. cbn [fst snd] in *. split; [|split].
  - apply writes_trans with st1; (eapply writes_incl; [|eassumption]); intros x Hx; cbn in *; tauto.
  - destruct W2 as (_ & B & _ & _). rewrite B; [assumption|]. intros [E|[]]. symmetry in E. now apply schema_name_ne in E.
  - exists [], []. cbn. split; [reflexivity|]. split; [apply (rvec_new_at t 0)|]. auto.
Qed.
(** Flushing what has been added, if there is anything *)
Lemma rev_flush_facts t st v name schema flushed pending : (0 < e_size t)%nat -> sound st ->
  rvec_at t (rv_data v) pending -> handle_at st (rv_handle v) name schema (List.concat flushed) ->
  exists st' v', rev_flush t st v = Some (st', v') /\ writes [name] st st' /\ rv_data v' = rvec_new t 0 /\ rv_len v' = rv_len v /\
    handle_at st' (rv_handle v') name schema (List.concat (flushed ++ stored_records t pending)).
Proof.
  intros Ht Hs Hv H. unfold rev_flush. rewrite (rvec_bytes t _ _ Ht Hv). cbn [obind].
  destruct (rhandle_write_facts st _ _ _ _ (List.concat (stored_records t pending)) Hs H) as [W1 H1].
  destruct (rhandle_write st (rv_handle v) _) as [st1 h1]. cbn [fst snd] in *. eexists st1, _. split; [reflexivity|]. split; [assumption|].
  cbn [rv_data rv_len rv_handle]. split; [reflexivity|]. split; [reflexivity|]. now rewrite concat_app.
Qed.
Lemma rev_grow_facts limit t st v name schema rs f new : (0 < e_size t)%nat -> (e_overlap t = true -> Z.of_nat (e_size t) <= limit) -> 0 <= limit ->
  sound st -> rev_at st t v name schema rs -> sets (e_size t) f (zeros (e_size t)) new ->
  exists st' v', rev_grow limit t st v f = Some (st', v') /\ writes [name] st st' /\ rev_at st' t v' name schema (rs ++ [new]).
Proof.
  intros Ht Hlim Hl0 Hs (fl & pe & A & B & C & D & E & H) Hf. unfold rev_grow. rewrite (rvec_bytes t _ _ Ht B). cbn [obind].
  assert (Hx : exists st1 v1 fl1 pe1, (if limit <? zlen (List.concat (stored_records t pe)) then rev_flush t st v else Some (st, v)) = Some (st1, v1) /\
             writes [name] st st1 /\ rs = (fl1 ++ pe1)%list /\ rvec_at t (rv_data v1) pe1 /\ rv_len v1 = zlen rs /\
             Forall (fun r => List.length r = e_size t /\ is_bytes r) fl1 /\ handle_at st1 (rv_handle v1) name schema (List.concat fl1)).
  { destruct (limit <? zlen (List.concat (stored_records t pe))) eqn:El.
    - destruct pe as [|r pe].
      { exfalso. cbn [stored_records] in El. destruct (e_overlap t) eqn:Eo; cbn [List.concat] in El.
        - specialize (Hlim eq_refl). rewrite app_nil_r, zlen_zeros_nat in El. lia.
        - change (zlen (@nil Z)) with 0 in El. lia. }
      destruct (rev_flush_facts t st v name schema fl (r :: pe) Ht Hs B H) as (st1 & v1 & E1 & W1 & D1 & L1 & H1).
      exists st1, v1, rs, []. split; [assumption|]. split; [assumption|]. split; [now rewrite app_nil_r|]. split; [rewrite D1; apply (rvec_new_at t 0)|].
      split; [congruence|]. destruct B as [_ B]. split; [rewrite A; apply Forall_app; auto|]. rewrite A. exact H1.
    - exists st, v, fl, pe. split; [reflexivity|]. split; [now apply writes_refl|]. auto 6. }
  destruct Hx as (st1 & v1 & fl1 & pe1 & -> & W1 & A1 & B1 & C1 & E1 & H1). cbn [obind fst snd].
  destruct (rvec_grow_facts t _ _ f new B1 Hf) as (d & -> & B2). cbn [obind]. eexists st1, _. split; [reflexivity|]. split; [assumption|].
  exists fl1, (pe1 ++ [new])%list. cbn [rv_data rv_len rv_handle]. split; [now rewrite A1, app_assoc|]. split; [assumption|].
  split; [rewrite C1, zlen_app; reflexivity|]. split; [intros En; apply app_eq_nil in En as [_ En]; discriminate|]. auto.
Qed.
Lemma rev_grow_all_facts limit t name schema : (0 < e_size t)%nat -> (e_overlap t = true -> Z.of_nat (e_size t) <= limit) -> 0 <= limit ->
  forall fs rs st v done, sound st -> rev_at st t v name schema done ->
  Forall2 (fun f r => sets (e_size t) f (zeros (e_size t)) r) fs rs ->
  exists st' v', rev_grow_all limit t st v fs = Some (st', v') /\ writes [name] st st' /\ rev_at st' t v' name schema (done ++ rs).
Proof.
  intros Ht Hlim Hl0. induction fs as [|f fs IH]; intros rs st v dn Hs He Hf; inversion Hf as [|? r ? rs' Hr Hrs]; subst; cbn [rev_grow_all].
  - exists st, v. split; [reflexivity|]. split; [now apply writes_refl|]. now rewrite app_nil_r.
  - destruct (rev_grow_facts limit t st v name schema dn f r Ht Hlim Hl0 Hs He Hr) as (st1 & v1 & -> & W1 & H1). cbn [obind fst snd].
    destruct (IH rs' st1 v1 _ (proj1 W1) H1 Hrs) as (st2 & v2 & -> & W2 & H2). exists st2, v2. split; [reflexivity|].
    split; [now apply writes_trans with st1|]. rewrite <- app_assoc in H2. exact H2.
Qed.
Lemma stored_ok t rs : Forall (fun r => List.length r = e_size t /\ is_bytes r) rs ->
  Forall (fun r => List.length r = e_size t /\ is_bytes r) (stored_records t rs).
Proof.
  intros H. destruct rs; cbn [stored_records]; [|assumption]. destruct (e_overlap t); [|constructor]. constructor; [|constructor].
  split; [apply zeros_len|apply is_bytes_zeros].
Qed.
Lemma rev_close_facts checks p t st v name schema rs : (0 < e_size t)%nat -> p_null_empty p = false ->
  sound st -> rev_at st t v name schema rs -> file_of st (schema_file name) = Some schema ->
  unread st name -> unread st (schema_file name) -> zlen (List.concat (stored_records t rs)) + 16 < 2 ^ 64 -> utf8_valid schema = true ->
  exists st', rev_close checks p t st v = Some (st', ROk (records_view t (stored_records t rs) (zeros 8))) /\
  touches [name; schema_file name] st st' /\ file_of st' name = Some (framed (List.concat (stored_records t rs))) /\
  file_of st' (schema_file name) = Some schema /\ (forall m, m <> name -> current st m -> current st' m) /\ current st' name.
Proof.
  intros Ht Hp Hs (fl & pe & A & B & C & D & E & H) Hsch Hu1 Hu2 Hl Hu. unfold rev_close.
  assert (Hlen : rvec_len (rv_data v) = List.length pe) by (destruct B as [-> _]; unfold rvec_len; rewrite app_length; cbn; lia).
  rewrite Hlen, C.
  assert (Hrs : Forall (fun r => List.length r = e_size t /\ is_bytes r) rs) by (rewrite A; apply Forall_app; split; [assumption|exact (proj2 B)]).
  replace ((0 <? List.length pe)%nat || (zlen rs =? 0)) with true.
  2:{ destruct pe as [|r pe]; [|reflexivity]. rewrite (D eq_refl). reflexivity. }
  destruct (rev_flush_facts t st v name schema fl pe Ht Hs B H) as (st1 & v1 & -> & W1 & _ & _ & H1). cbn [obind fst snd].
  replace (fl ++ stored_records t pe)%list with (stored_records t rs) in H1.
  2:{ rewrite A. destruct pe as [|r pe]; [|destruct fl; reflexivity]. rewrite A in D. specialize (D eq_refl). rewrite app_nil_r in D. subst fl. reflexivity. }
  assert (Fs : file_of st1 (schema_file name) = Some schema).
  { destruct W1 as (_ & Bw & _ & _). rewrite Bw; [assumption|]. intros [En|[]]. symmetry in En. now apply schema_name_ne in En. }
  assert (R : forall m, unread st m -> unread st1 m) by (intros m; unfold unread; destruct W1 as (_ & _ & R & _); now rewrite R).
  pose proof (stored_ok t rs Hrs) as Hst.
  destruct (rhandle_close_facts checks p st1 (rv_handle v1) name schema _ Hp (proj1 W1) H1 Fs (R _ Hu1) (R _ Hu2) (rec_bytes _ _ Hst) Hl Hu) as (T2 & F2 & G2 & V2 & K2 & N2).
  destruct (rhandle_close checks p st1 (rv_handle v1)) as [st2 d]. cbn [fst snd] in *. subst d. exists st2.
  rewrite rfrom_bytes_records; [|assumption|now apply rec_lengths in Hst]. split; [|split; [|split; [assumption|split; [assumption|split; [|assumption]]]]].
  - destruct rs as [|r rs]; cbn [stored_records]; [|reflexivity]. destruct (e_overlap t); reflexivity.
  - apply touches_trans with st1; [|assumption]. apply writes_touches. eapply writes_incl; [|exact W1]. intros x Hx. cbn in *. tauto.
  - intros m Hm Hc. apply K2; [assumption|]. intros d Ed. destruct W1 as (_ & Bw & Rw & _). rewrite Rw in Ed. rewrite Bw by (cbn; intuition congruence). now apply Hc.
Qed.
