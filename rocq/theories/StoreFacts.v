(** Facts about storages: what each operation does to the files. *)
From Coq Require Import List ZArith Bool Lia String.
From Coq Require Import ZifyBool ZifyNat.
From Verif Require Import PyBase Spec DataAccess Structure StructSpec BitFacts DataAccessFacts DataAccessThms StructFacts
  SliceFacts Resources Builder Archive ArchiveSpec ResourceFacts BuilderFacts ArchiveFacts Codecs CodecSpec CodecFacts CodecThms Streams StoreSpec.
Import ListNotations.
Local Open Scope string_scope.
Local Open Scope Z_scope.

(** ** Dictionaries and positions *)
Lemma put_keys {A} (d : list (string * A)) k x : forall n, In n (map fst (put d k x)) <-> n = k \/ In n (map fst d).
Proof.
  induction d as [|[k' y] t IH]; intros n; cbn; [intuition congruence|].
  destruct (String.eqb_spec k' k) as [->|N]; cbn; [intuition congruence|]. rewrite IH. intuition congruence.
Qed.
Lemma put_same {A} (d : list (string * A)) k x : dict_get (put d k x) k = Some x.
Proof.
  induction d as [|[k' y] t IH]; cbn; [now rewrite String.eqb_refl|].
  destruct (String.eqb_spec k' k) as [->|N]; cbn; [now rewrite String.eqb_refl|].
  destruct (String.eqb_spec k' k); [congruence|assumption].
Qed.
Lemma put_other {A} (d : list (string * A)) k x n : n <> k -> dict_get (put d k x) n = dict_get d n.
Proof.
  intros Hn. induction d as [|[k' y] t IH]; cbn.
  - destruct (String.eqb_spec k n); [congruence|reflexivity].
  - destruct (String.eqb_spec k' k) as [->|N]; cbn; [|now rewrite IH].
    destruct (String.eqb_spec k n); [congruence|reflexivity].
Qed.
Lemma put_nodup {A} (d : list (string * A)) k x : NoDup (map fst d) -> NoDup (map fst (put d k x)).
Proof.
  induction d as [|[k' y] t IH]; intros H; cbn; [constructor; [intros []|constructor]|].
  inversion H as [|? ? Hn Ht]; subst. destruct (String.eqb_spec k' k) as [->|N]; cbn; [assumption|].
  constructor; [|now apply IH]. rewrite put_keys. intros [->|Hi]; [now elim N|contradiction].
Qed.
Lemma put_values (d : list (string * nat)) k x : forall v, In v (map snd (put d k x)) -> v = x \/ In v (map snd d).
Proof.
  induction d as [|[k' y] t IH]; intros v; cbn; [intuition|].
  destruct (String.eqb k' k); cbn; [intuition|]. intros [->|H]; [auto|]. destruct (IH _ H); auto.
Qed.
Lemma put_values_nodup (d : list (string * nat)) k x : NoDup (map snd d) -> ~ In x (map snd d) -> NoDup (map snd (put d k x)).
Proof.
  induction d as [|[k' y] t IH]; intros H Hx; cbn; [constructor; [intros []|constructor]|].
  inversion H as [|? ? Hn Ht]; subst. cbn in Hx. destruct (String.eqb_spec k' k) as [->|N]; cbn.
  - constructor; [intros Hi; apply Hx; auto|assumption].
  - constructor; [|apply IH; auto]. intros Hi. apply put_values in Hi. destruct Hi as [->|Hi]; [apply Hx; auto|contradiction].
Qed.
Lemma put_forall {A} (P : string * A -> Prop) d k x : Forall P d -> P (k, x) -> Forall P (put d k x).
Proof.
  induction d as [|[k' y] t IH]; intros H Hx; cbn; [constructor; auto|].
  inversion H; subst. destruct (String.eqb_spec k' k) as [->|N]; constructor; auto.
Qed.
Lemma set_at_length {A} (l : list A) i x : List.length (set_at l i x) = List.length l.
Proof. revert i. induction l; intros [|i]; cbn; congruence. Qed.
Lemma set_at_same {A} (l : list A) i x : (i < List.length l)%nat -> nth_error (set_at l i x) i = Some x.
Proof. revert i. induction l; intros [|i] H; cbn in *; try lia; auto. apply IHl. lia. Qed.
Lemma set_at_other {A} (l : list A) i j x : i <> j -> nth_error (set_at l i x) j = nth_error l j.
Proof. revert i j. induction l; intros [|i] [|j] H; cbn; auto; try congruence. Qed.

(** ** Streams *)
(** The stream [i] is the one written under [name], holds [s], and its end is its position. *)
Definition appends (st : store) (name : string) (i : nat) (b : list Z) : Prop :=
  dict_get (st_names st) name = Some i /\ nth_error (st_heap st) i = Some (OStream b (List.length b)).
Definition holds_stream (st : store) (name : string) (i : nat) (s : ostream) : Prop :=
  dict_get (st_names st) name = Some i /\ nth_error (st_heap st) i = Some s.

Lemma sound_inj st n m i : sound st -> dict_get (st_names st) n = Some i -> dict_get (st_names st) m = Some i -> n = m.
Proof.
  intros (Hk & Hv & _) Hn Hm. apply dict_get_in in Hn. apply dict_get_in in Hm. clear Hk.
  induction (st_names st) as [|[k y] t IH]; [destruct Hn|]. cbn in Hv. inversion Hv as [|? ? Ha Ht]; subst.
  destruct Hn as [En|Hn], Hm as [Em|Hm].
  - congruence.
  - injection En as -> ->. elim Ha. change i with (snd (m, i)). now apply in_map.
  - injection Em as -> ->. elim Ha. change i with (snd (n, i)). now apply in_map.
  - now apply IH.
Qed.

Lemma create_fresh p st name : p_reuse p = false -> sound st ->
  let st' := fst (create_stream p st name) in let i := snd (create_stream p st name) in
  sound st' /\ holds_stream st' name i os_new /\ same_but [name] st st' /\ same_reads st st' /\
  (forall n j s, n <> name -> holds_stream st n j s -> holds_stream st' n j s) /\
  (forall n, n <> name -> dict_get (st_names st') n = dict_get (st_names st) n).
Proof.
  intros Hp (Hk & Hv & Hb). unfold create_stream. rewrite Hp.
  replace (match dict_get (st_names st) name with Some i => _ | None => _ end)
    with (Store (st_heap st ++ [os_new]) (put (st_names st) name (List.length (st_heap st))) (st_cache st), List.length (st_heap st))
    by (destruct (dict_get (st_names st) name); reflexivity).
  cbn [fst snd]. split; [|split; [|split; [|split; [|split]]]].
  - split; [now apply put_nodup|]. cbn [st_names st_heap]. split.
    + apply put_values_nodup; [assumption|]. intros Hi. apply in_map_iff in Hi. destruct Hi as ([m j] & Ej & Hi). cbn in Ej. subst j.
      rewrite Forall_forall in Hb. specialize (Hb _ Hi). cbn in Hb. lia.
    + apply put_forall; [|cbn; rewrite app_length; cbn; lia]. eapply Forall_impl; [|exact Hb]. intros [m j]. cbn. rewrite app_length. lia.
  - split; cbn [st_names st_heap]; [apply put_same|]. now rewrite nth_error_app2, Nat.sub_diag by lia.
  - intros n Hn. unfold file_of. cbn [st_names st_heap]. rewrite put_other by (intros ->; apply Hn; now left).
    destruct (dict_get (st_names st) n) as [j|] eqn:E; [|reflexivity].
    apply dict_get_in in E. rewrite Forall_forall in Hb. specialize (Hb _ E). cbn in Hb. now rewrite nth_error_app1.
  - reflexivity.
  - intros n j s Hn [H1 H2]. split; cbn [st_names st_heap]; [now rewrite put_other|]. rewrite nth_error_app1; [assumption|].
    apply nth_error_Some. congruence.
  - intros n Hn. cbn [st_names]. now apply put_other.
Qed.

Lemma on_stream_facts f st name i s : sound st -> holds_stream st name i s ->
  let st' := on_stream f st i in
  sound st' /\ holds_stream st' name i (f s) /\ same_but [name] st st' /\ same_reads st st' /\
  (forall n j s', n <> name -> holds_stream st n j s' -> holds_stream st' n j s') /\
  st_names st' = st_names st.
Proof.
  intros Hs [Hn Hi]. unfold on_stream. rewrite Hi.
  assert (Hl : (i < List.length (st_heap st))%nat) by (apply nth_error_Some; congruence).
  split; [|split; [|split; [|split; [|split]]]].
  - destruct Hs as (Hk & Hv & Hb). split; [assumption|]. split; [assumption|]. cbn [st_names st_heap].
    eapply Forall_impl; [|exact Hb]. intros [m j]. cbn. now rewrite set_at_length.
  - split; cbn [st_names st_heap]; [assumption|]. now apply set_at_same.
  - intros n Hx. unfold file_of. cbn [st_names st_heap]. destruct (dict_get (st_names st) n) as [j|] eqn:E; [|reflexivity].
    rewrite set_at_other; [reflexivity|]. intros ->. apply Hx. left. symmetry. now apply (sound_inj st n name j).
  - reflexivity.
  - intros n j s' Hx [H1 H2]. split; cbn [st_names st_heap]; [assumption|]. rewrite set_at_other; [assumption|].
    intros ->. apply Hx. now apply (sound_inj st n name j).
  - reflexivity.
Qed.

Lemma os_write_end b d : os_write (OStream b (List.length b)) d = OStream (b ++ d) (List.length (b ++ d)).
Proof.
  unfold os_write. cbn [os_bytes os_pos]. rewrite firstn_all, skipn_all2 by lia. now rewrite app_nil_r, app_length.
Qed.
Lemma os_write_start b d : (List.length d <= List.length b)%nat ->
  os_bytes (os_write (os_seek (OStream b (List.length b))) d) = (d ++ skipn (List.length d) b)%list.
Proof. reflexivity. Qed.

Lemma same_but_trans l l' a b c : same_but l a b -> same_but l' b c -> same_but (l ++ l') a c.
Proof. intros H1 H2 n Hn. rewrite in_app_iff in Hn. rewrite H2 by tauto. apply H1. tauto. Qed.
Lemma same_but_incl l l' a b : incl l l' -> same_but l a b -> same_but l' a b.
Proof. intros Hi H n Hn. apply H. intros Hl. apply Hn. now apply Hi. Qed.
Lemma same_but_refl l a : same_but l a a.
Proof. intros n _. reflexivity. Qed.

Lemma holds_file st name i s : holds_stream st name i s -> file_of st name = Some (os_bytes s).
Proof. intros [H1 H2]. unfold file_of. now rewrite H1, H2. Qed.

(** ** Sizes *)
Lemma zlen_nonneg {A} (l : list A) : 0 <= zlen l.
Proof. unfold zlen. lia. Qed.
Lemma ne_suffix (n s : string) : s <> "" -> n <> (n ++ s).
Proof.
  intros Hs E. apply (f_equal String.length) in E. rewrite append_length in E. destruct s; [congruence|]. cbn in E. lia.
Qed.

(** ** Reading *)
Lemma read_unread p st name : unread st name ->
  snd (read_resource p st name) =
  match file_of st name with Some d => if p_null_empty p && (zlen d =? 0) then None else Some d | None => None end \/
  ~ sound st.
Proof.
  intros Hu. unfold read_resource, file_of. rewrite Hu. destruct (dict_get (st_names st) name) as [i|] eqn:E; [|now left].
  destruct (nth_error (st_heap st) i) as [s|] eqn:Ei; cbn [option_map].
  - left. destruct (p_null_empty p && (zlen (os_bytes s) =? 0)); reflexivity.
  - right. intros (_ & _ & Hb). apply dict_get_in in E. rewrite Forall_forall in Hb. specialize (Hb _ E). cbn in Hb.
    apply nth_error_None in Ei. lia.
Qed.
Lemma read_value p st name : sound st -> unread st name ->
  snd (read_resource p st name) =
  match file_of st name with Some d => if p_null_empty p && (zlen d =? 0) then None else Some d | None => None end.
Proof. intros Hs Hu. destruct (read_unread p st name Hu); [assumption|contradiction]. Qed.
Lemma read_store p st name : sound st ->
  let st' := fst (read_resource p st name) in
  sound st' /\ (forall n, file_of st' n = file_of st n) /\ st_names st' = st_names st /\ st_heap st' = st_heap st /\
  (forall n, n <> name -> dict_get (st_cache st') n = dict_get (st_cache st) n).
Proof.
  intros Hs. unfold read_resource. destruct (dict_get (st_cache st) name) as [d|] eqn:Ec; [cbn; auto 6|].
  destruct (dict_get (st_names st) name) as [i|] eqn:E; [|cbn; auto 6].
  match goal with |- context [if ?b then _ else _] => destruct b end; cbn [fst]; [auto 6|].
  split; [exact Hs|]. split; [reflexivity|]. split; [reflexivity|]. split; [reflexivity|].
  intros n Hn. cbn [st_cache]. clear - Hn. induction (st_cache st) as [|[k y] t IH]; cbn.
  - destruct (String.eqb_spec name n); [congruence|reflexivity].
  - now rewrite IH.
Qed.
Lemma append_inj_l (a : string) : forall b c, a ++ b = a ++ c -> b = c.
Proof. induction a as [|x a IH]; cbn; intros b c H; [assumption|]. injection H as H. now apply IH. Qed.
