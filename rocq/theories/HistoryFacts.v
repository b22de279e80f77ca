(** Proofs about builder histories. *)
From Coq Require Import List ZArith Bool String Lia Permutation.
From Coq Require Import ZifyBool ZifyNat.
From Verif Require Import PyBase Spec DataAccess BitFacts DataAccessFacts DataAccessThms Structure StructSpec StructFacts
  Resources Builder Archive ArchiveSpec OpenSpec BuilderFacts ResourceSpec ResourceFacts MultiFacts RawFacts ResourceThms
  ArchiveFacts HistorySpec.
Import ListNotations.
Local Open Scope string_scope.
Local Open Scope list_scope.
Local Open Scope Z_scope.

(** ** distinct files *)
Lemma nodup_flat {A B} (f : A -> list B) l x y b : NoDup (flat_map f l) -> In x l -> In y l -> In b (f x) -> In b (f y) -> x = y.
Proof.
  induction l as [|z t IH]; intros Hn Hx Hy Hbx Hby; [destruct Hx|]. cbn [flat_map] in Hn.
  assert (D : forall c, In c (f z) -> ~ In c (flat_map f t)).
  { clear -Hn. induction (f z) as [|c l IH]; intros c' H; [destruct H|]. cbn [app] in Hn. inversion Hn; subst.
    destruct H as [->|H]; [rewrite in_app_iff in *; tauto|auto]. }
  assert (Ht : NoDup (flat_map f t)).
  { clear -Hn. induction (f z) as [|c l IH]; [assumption|]. inversion Hn; auto. }
  destruct Hx as [->|Hx], Hy as [->|Hy].
  - reflexivity.
  - exfalso. apply (D b Hbx). apply in_flat_map. eauto.
  - exfalso. apply (D b Hby). apply in_flat_map. eauto.
  - auto.
Qed.

Lemma distinct_neq a n sig m sig' f : distinct_files a -> In (n, sig) (a_resources a) -> In (m, sig') (a_resources a) ->
  In f (files_of n sig) -> In f (files_of m sig') -> (n, sig) = (m, sig').
Proof. intros H Hn Hm Hf Hf'. exact (nodup_flat _ _ _ _ _ H Hn Hm Hf Hf'). Qed.

Lemma distinct_names a : distinct_files a -> NoDup (map fst (a_resources a)).
Proof.
  unfold distinct_files. induction (a_resources a) as [|[n sig] t IH]; intros H; cbn [map fst]; [constructor|].
  cbn [flat_map fst snd] in H. constructor.
  - intros Hin. apply in_map_iff in Hin. destruct Hin as ([m sig'] & E & Hin). cbn in E. subst m.
    assert (D : forall c, In c (files_of n sig) -> ~ In c (flat_map (fun ns => files_of (fst ns) (snd ns)) t)).
    { clear -H. induction (files_of n sig) as [|c l IH]; intros c' H'; [destruct H'|]. cbn [app] in H. inversion H; subst.
      destruct H' as [->|H']; [rewrite in_app_iff in *; tauto|auto]. }
    apply (D n (proj1 (files_of_self n sig))). apply in_flat_map. exists (n, sig'). split; [assumption|].
    apply (proj1 (files_of_self n sig')).
  - apply IH. clear -H. induction (files_of n sig) as [|c l IH]; [assumption|]. inversion H; auto.
Qed.

Lemma res_get a n sig : distinct_files a -> In (n, sig) (a_resources a) -> dict_get (a_resources a) n = Some sig.
Proof. intros H. apply dict_get_nodup. now apply distinct_names. Qed.

(** ** finish *)
Definition fin : string * robj -> M unit :=
  fun kr => r <== get_obj (fst kr) ;; if o_valid r then st_close (fst kr) else retM tt.
Lemma finish_eq s : builder_finish s = iterM fin (b_store s) s.
Proof. reflexivity. Qed.
Lemma fin_cons k x t s : iterM fin ((k, x) :: t) s =
  match dict_get (b_store s) k with
  | None => (s, Err KeyError)
  | Some r => if o_valid r
              then iterM fin t (BState (store_put (b_store s) k (RObj [] false)) (b_written s) (b_ops s ++ wr k (o_data r)))
              else iterM fin t s
  end.
Proof.
  cbn [iterM]. unfold bindM at 1. unfold fin at 1. unfold bindM at 1. unfold get_obj. cbn [fst].
  destruct (dict_get (b_store s) k) as [r|] eqn:E; [|reflexivity].
  destruct (o_valid r); [|reflexivity]. now rewrite (st_close_eq k s r E).
Qed.
Lemma finish_fp f : forall l s r, dict_get (b_store s) f = Some r -> o_valid r = false ->
  let s' := fst (iterM fin l s) in
  dict_get (b_store s') f = Some r /\ b_written s' = b_written s /\
  exists ops, b_ops s' = b_ops s ++ ops /\ Forall (fun o => op_file o <> f) ops.
Proof.
  induction l as [|[k x] t IH]; intros s r Hf Hv.
  - cbn [fst retM iterM]. split; [assumption|]. split; [reflexivity|]. exists []. rewrite app_nil_r. auto.
  - rewrite fin_cons. destruct (dict_get (b_store s) k) as [rk|] eqn:Ek.
    2:{ cbn [fst]. split; [assumption|]. split; [reflexivity|]. exists []. rewrite app_nil_r. auto. }
    destruct (o_valid rk) eqn:Evk.
    +
      assert (Nk : String.eqb k f = false).
      { destruct (String.eqb k f) eqn:E; [|reflexivity]. apply String.eqb_eq in E. subst. congruence. }
      match goal with |- context [iterM _ t ?s1] => specialize (IH s1 r) end.
      cbn [b_store b_written b_ops] in IH. rewrite store_get_put, Nk in IH. specialize (IH Hf Hv).
      destruct IH as (I1 & I2 & ops & I3 & I4). split; [exact I1|]. split; [exact I2|].
      exists (wr k (o_data rk) ++ ops). split; [rewrite I3, app_assoc; reflexivity|].
      apply Forall_app. split; [|assumption]. apply String.eqb_neq in Nk.
      destruct (o_data rk); cbn [wr]; constructor; auto.
    + apply IH; assumption.
Qed.

Lemma finish_noop : forall l s, (forall k r, dict_get (b_store s) k = Some r -> o_valid r = false) ->
  Forall (fun kr => dict_get (b_store s) (fst kr) <> None) l ->
  iterM fin l s = (s, Ok tt).
Proof.
  induction l as [|[k x] t IH]; intros s H Hl; [reflexivity|].
  inversion Hl as [|? ? Hk Ht]; subst. rewrite fin_cons. cbn [fst] in *.
  destruct (dict_get (b_store s) k) as [rk|] eqn:Ek; [|congruence].
  rewrite (H _ _ Ek). now apply IH.
Qed.

Lemma builder_finish_noop s : (forall k r, dict_get (b_store s) k = Some r -> o_valid r = false) -> builder_finish s = (s, Ok tt).
Proof.
  intros H. rewrite finish_eq. apply finish_noop; [assumption|]. apply Forall_forall. intros [k x] Hin. cbn [fst].
  intros E. apply dict_get_none in E. apply E. now apply (in_map fst) in Hin.
Qed.

(** ** sealing: one call *)
Definition sealed (s : bstate) (f : string) : Prop := exists r, dict_get (b_store s) f = Some r /\ o_valid r = false.

Lemma set_already a n v s sig : dict_get (a_resources a) n = Some sig -> In n (b_written s) ->
  builder_set a n v s = (s, Err ResourceAlreadySetError).
Proof.
  intros Ha Hw. unfold builder_set. rewrite Ha.
  replace (existsb (String.eqb n) (b_written s)) with true; [reflexivity|]. symmetry.
  apply existsb_exists. exists n. split; [assumption|apply String.eqb_refl].
Qed.

Lemma call_written a c s : exists w, b_written (fst (run_call a c s)) = b_written s ++ w.
Proof.
  destruct c as [n v|]; cbn [run_call].
  - destruct (dict_get (a_resources a) n) as [sig|] eqn:E.
    + destruct (builder_set_footprint a n v sig E s) as (_ & (w & Hw & _) & _). eauto.
    + unfold builder_set. rewrite E. exists []. now rewrite app_nil_r.
  - exists []. rewrite app_nil_r, finish_eq. generalize (b_store s) as l. intros l. revert s.
    induction l as [|[k x] t IH]; intros s; [reflexivity|]. rewrite fin_cons.
    destruct (dict_get (b_store s) k) as [rk|] eqn:Ek; [|reflexivity].
    destruct (o_valid rk); rewrite IH; reflexivity.
Qed.

Lemma run_written a cs : forall s n, In n (b_written s) -> In n (b_written (run a cs s)).
Proof.
  induction cs as [|c t IH]; intros s n H; cbn [run]; [assumption|]. apply IH.
  destruct (call_written a c s) as (w & ->). apply in_app_iff. now left.
Qed.

Lemma call_sealed a c s n sig f : distinct_files a -> In (n, sig) (a_resources a) -> In f (files_of n sig) ->
  In n (b_written s) -> sealed s f ->
  sealed (fst (run_call a c s)) f /\
  exists ops, b_ops (fst (run_call a c s)) = b_ops s ++ ops /\ Forall (fun o => op_file o <> f) ops.
Proof.
  intros Hd Hin Hf Hw Hs. destruct c as [m v|]; cbn [run_call].
  - destruct (dict_get (a_resources a) m) as [sig'|] eqn:E.
    + destruct (in_dec string_dec m (b_written s)) as [Hm|Hm].
      { rewrite (set_already a m v s sig' E Hm). cbn [fst]. split; [assumption|]. exists []. rewrite app_nil_r. auto. }
      pose proof (dict_get_in _ _ _ E) as Hin'.
      assert (Nf : ~ In f (files_of m sig')).
      { intros Hf'. pose proof (distinct_neq a n sig m sig' f Hd Hin Hin' Hf Hf') as Eq. inversion Eq; subst. contradiction. }
      destruct (builder_set_footprint a m v sig' E s) as ((ops & Ho & Fo) & _ & Hk).
      split; [destruct Hs as (r & Hr & Hv); exists r; split; [now rewrite Hk|assumption]|].
      exists ops. split; [assumption|]. eapply Forall_impl; [|exact Fo]. intros o Ho1 Ho2. cbv beta in Ho1. congruence.
    + unfold builder_set. rewrite E. cbn [fst]. split; [assumption|]. exists []. rewrite app_nil_r. auto.
  - destruct Hs as (r & Hr & Hv). destruct (finish_fp f (b_store s) s r Hr Hv) as (F1 & _ & ops & F3 & F4).
    split; [exists r; auto|]. exists ops. auto.
Qed.

Lemma run_sealed a cs : forall s n sig f, distinct_files a -> In (n, sig) (a_resources a) -> In f (files_of n sig) ->
  In n (b_written s) -> sealed s f ->
  sealed (run a cs s) f /\
  exists ops, b_ops (run a cs s) = b_ops s ++ ops /\ Forall (fun o => op_file o <> f) ops.
Proof.
  induction cs as [|c t IH]; intros s n sig f Hd Hin Hf Hw Hs; cbn [run].
  - split; [assumption|]. exists []. rewrite app_nil_r. auto.
  - destruct (call_sealed a c s n sig f Hd Hin Hf Hw Hs) as (H1 & o1 & H2 & H3).
    assert (Hw1 : In n (b_written (fst (run_call a c s)))).
    { destruct (call_written a c s) as (w & ->). apply in_app_iff. now left. }
    destruct (IH _ n sig f Hd Hin Hf Hw1 H1) as (H4 & o2 & H5 & H6).
    split; [assumption|]. exists (o1 ++ o2). rewrite H5, H2, app_assoc. split; [reflexivity|]. now apply Forall_app.
Qed.

Lemma payload_ix sig v p ix : payload_of sig v = Ok (p, ix) ->
  match ix with Some _ => exists it ts, r_container sig = CMultivector it ts
              | None => forall it ts, r_container sig <> CMultivector it ts end.
Proof.
  unfold payload_of. destruct (r_container sig) as [sd|sd|it ts| |x]; destruct v as [r|rs|bs|b|]; try discriminate.
  - destruct (pack_record sd r); [|discriminate]. cbn [bind]. intros H; inversion H; subst. discriminate.
  - destruct (mapM (pack_record sd) rs); [|discriminate]. cbn [bind]. intros H; inversion H; subst. discriminate.
  - destruct (mapM (bucket_bytes ts) bs); [|discriminate]. cbn [bind]. destruct (s_size it =? 0); [discriminate|].
    destruct (mapM _ (bucket_points _ _)); [|discriminate]. cbn [bind]. intros H; inversion H; subst. eauto.
  - intros H; inversion H; subst. discriminate.
  - intros H; inversion H; subst. discriminate.
  - intros H; inversion H; subst. discriminate.
  - intros H; inversion H; subst. discriminate.
  - intros H; inversion H; subst. discriminate.
  - intros H; inversion H; subst. discriminate.
  - intros H; inversion H; subst. discriminate.
  - intros H; inversion H; subst. discriminate.
  - intros H; inversion H; subst. discriminate.
  - intros H; inversion H; subst. discriminate.
Qed.

Lemma set_file_iff n sig v p ix f : payload_of sig v = Ok (p, ix) -> is_set_file n ix f = true <-> In f (files_of n sig).
Proof.
  intros H. apply payload_ix in H. unfold is_set_file, files_of. destruct ix as [i|].
  - destruct H as (it & ts & ->). cbn [In]. rewrite !orb_true_iff, !String.eqb_eq. tauto.
  - destruct (r_container sig) as [sd|sd|it ts| |x]; try (exfalso; now apply (H it ts));
      cbn [In]; rewrite !orb_true_iff, !String.eqb_eq; intuition congruence.
Qed.

Lemma set_files_keys n sig v p ix f : payload_of sig v = Ok (p, ix) ->
  In f (map fst (set_files n sig p ix)) <-> In f (files_of n sig).
Proof.
  intros H. apply payload_ix in H. unfold set_files, files_of. destruct ix as [i|].
  - destruct H as (it & ts & ->). cbn. tauto.
  - destruct (r_container sig) as [sd|sd|it ts| |x]; try (exfalso; now apply (H it ts)); cbn; tauto.
Qed.

Lemma set_seals a n v s s' sig : sizes_ok a -> distinct_files a -> In (n, sig) (a_resources a) ->
  builder_set a n v s = (s', Ok tt) -> In n (b_written s') /\ forall f, In f (files_of n sig) -> sealed s' f.
Proof.
  intros Hsz Hd Hin H. pose proof (res_get a n sig Hd Hin) as Hg.
  assert (Hsz' : forall m sg, dict_get (a_resources a) m = Some sg -> sig_sized sg).
  { intros m sg Hm. eapply Hsz. eapply dict_get_in. exact Hm. }
  destruct (builder_set_inv a n v s s' Hsz' H) as (sig1 & p & ix & Hg1 & Hnw & Hv).
  assert (sig1 = sig) by congruence. subst sig1.
  destruct (builder_set_ok a n sig v s p ix Hg Hnw (Hsz _ _ Hin) Hv) as (st & E & K).
  rewrite E in H. inversion H; subst s'. cbn [b_written b_store]. split.
  - apply in_app_iff. right. unfold new_written. destruct ix; now left.
  - intros f Hf. exists (RObj [] false). split; [|reflexivity]. cbn [b_store]. rewrite K.
    destruct Hv as (_ & Hp & _). now rewrite (proj2 (set_file_iff n sig v p ix f Hp)).
Qed.
