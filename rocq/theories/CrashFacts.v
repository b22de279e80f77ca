(** Proofs about failing sets, the files a history leaves, and crash points. *)
From Coq Require Import List ZArith Bool String Lia Permutation.
From Coq Require Import ZifyBool ZifyNat.
From Verif Require Import PyBase Spec DataAccess BitFacts DataAccessFacts DataAccessThms Structure StructSpec StructFacts
  Resources Builder Archive ArchiveSpec OpenSpec BuilderFacts ResourceSpec ResourceFacts MultiFacts RawFacts ResourceThms
  ArchiveFacts HistorySpec HistoryFacts.
Import ListNotations.
Local Open Scope string_scope.
Local Open Scope list_scope.
Local Open Scope Z_scope.

(** ** which files an action writes to *)
Definition emits {A} (P : string -> Prop) (m : M A) : Prop :=
  forall s, exists ops, b_ops (fst (m s)) = b_ops s ++ ops /\ Forall (fun o => P (op_file o)) ops.

Lemma em_same {A} P (m : M A) : (forall s, b_ops (fst (m s)) = b_ops s) -> emits P m.
Proof. intros H s. exists []. rewrite app_nil_r. auto. Qed.
Lemma em_bind {A B} P (m : M A) (f : A -> M B) : emits P m -> (forall a, emits P (f a)) -> emits P (bindM m f).
Proof.
  intros Hm Hf s. unfold bindM. specialize (Hm s). destruct (m s) as [s1 [a|e]]; cbn [fst] in *.
  - destruct Hm as (o1 & E1 & F1). destruct (Hf a s1) as (o2 & E2 & F2). exists (o1 ++ o2).
    rewrite E2, E1, app_assoc. split; [reflexivity|]. now apply Forall_app.
  - assumption.
Qed.
Lemma em_get_obj P n : emits P (get_obj n).
Proof. apply em_same. intros s. unfold get_obj. destruct (dict_get (b_store s) n); reflexivity. Qed.
Lemma em_put P n r : emits P (put_obj n r).
Proof. apply em_same. reflexivity. Qed.
Lemma em_lift {A} P (r : res A) : emits P (liftM r).
Proof. apply em_same. reflexivity. Qed.
Lemma em_ret {A} P (x : A) : emits P (retM x).
Proof. apply em_same. reflexivity. Qed.
Lemma em_written P n : emits P (add_written n).
Proof. apply em_same. reflexivity. Qed.
Lemma em_emit (P : string -> Prop) o : P (op_file o) -> emits P (emit o).
Proof. intros H s. exists [o]. cbn. auto. Qed.
Lemma em_write P n x : emits P (st_write n x).
Proof. apply em_bind; [apply em_get_obj|intros r; apply em_put]. Qed.
Lemma em_add_size P n : emits P (st_add_size n).
Proof. apply em_bind; [apply em_get_obj|intros r]. apply em_bind; [apply em_lift|intros h; apply em_put]. Qed.
Lemma em_add_padding P n : emits P (st_add_padding n).
Proof. apply em_bind; [apply em_get_obj|intros r; apply em_put]. Qed.
Lemma em_close (P : string -> Prop) n : P n -> emits P (st_close n).
Proof.
  intros H. apply em_bind; [apply em_get_obj|intros r]. apply em_bind; [|intros; apply em_put].
  destruct (o_data r); [apply em_ret|now apply em_emit].
Qed.
Lemma em_st_get (P : string -> Prop) n : P n -> emits P (st_get n).
Proof. intros H. apply em_bind; [now apply em_emit|intros; apply em_put]. Qed.
Lemma em_raw (P : string -> Prop) n x : P n -> emits P (write_raw_data n x).
Proof.
  intros H. apply em_bind; [now apply em_st_get|intros _]. apply em_bind; [apply em_write|intros _; now apply em_close].
Qed.
Lemma em_iter {A} P (f : A -> M unit) l : (forall x, emits P (f x)) -> emits P (iterM f l).
Proof. intros H. induction l as [|x t IH]; cbn [iterM]; [apply em_ret|]. apply em_bind; auto. Qed.
Lemma em_bucket P n types es : forall point, emits P (write_bucket n types point es).
Proof.
  induction es as [|e t IH]; intros point; cbn [write_bucket]; [apply em_ret|].
  destruct (find_type 0 types (fst e)) as [[ti sd]|]; [|apply em_lift].
  apply em_bind; [apply em_lift|intros b]. apply em_bind; [apply em_write|auto].
Qed.
Lemma em_buckets P n types bs : forall point, emits P (write_buckets n types point bs).
Proof.
  induction bs as [|es t IH]; intros point; cbn [write_buckets]; [apply em_ret|].
  apply em_bind; [apply em_bucket|intros p]. apply em_bind; [auto|intros r; apply em_ret].
Qed.

(** The files of a resource other than data and schema. *)
Definition side_file (n : string) (sig : rsig) (k : string) : Prop :=
  In k (files_of n sig) /\ (k = index_name n \/ k = schema_file (index_name n)).

Lemma em_dispatch n sig v : emits (side_file n sig) (set_dispatch n sig v).
Proof.
  unfold set_dispatch. destruct (r_container sig) as [sd|sd|it ts| |sub] eqn:Ec; destruct v as [r|rs|bs|b|];
    try apply em_lift; try apply em_ret.
  - apply em_bind; [apply em_lift|intros _]. apply em_bind; [apply em_lift|intros b]. apply em_write.
  - apply em_bind; [apply em_iter; intros x; apply em_lift|intros _].
    apply em_iter. intros x. apply em_bind; [apply em_lift|intros b]. apply em_write.
  - assert (I1 : side_file n sig (index_name n)).
    { unfold side_file, files_of. rewrite Ec. cbn. auto. }
    assert (I2 : side_file n sig (schema_file (index_name n))).
    { unfold side_file, files_of. rewrite Ec. cbn. auto 6. }
    apply em_bind; [apply em_iter; intros x; apply em_iter; intros y; apply em_lift|intros _].
    apply em_bind; [apply em_buckets|intros pts].
    apply em_bind.
    { unfold write_index. destruct (s_size it =? 0); [apply em_lift|].
      apply em_bind; [now apply em_st_get|intros _].
      apply em_bind; [apply em_iter; intros p; apply em_bind; [apply em_lift|intros b; apply em_write]|intros _].
      apply em_bind; [apply em_add_size|intros _].
      apply em_bind; [apply em_add_padding|intros _]. now apply em_close. }
    intros _. apply em_bind; [now apply em_raw|intros _].
    apply em_bind; [apply em_written|intros _]. apply em_written.
  - apply em_write.
Qed.

Lemma side_neq n sig k : side_file n sig k -> k <> n /\ k <> schema_file n.
Proof.
  intros (_ & [->| ->]); split; apply String.eqb_neq.
  - apply index_neq'. - rewrite String.eqb_sym. apply schema_index_neq.
  - apply ixschema_neq. - rewrite String.eqb_sym. apply schema_ixschema_neq.
Qed.

(** ** running the head of a set *)
Lemma set_head a n v s sig : dict_get (a_resources a) n = Some sig -> ~ In n (b_written s) ->
  exists st1, (forall k, dict_get st1 k = if String.eqb n k then Some (RObj [] true)
                             else if String.eqb (schema_file n) k then Some (RObj [] false)
                             else dict_get (b_store s) k) /\
  builder_set a n v s =
   (_ <== set_dispatch n sig v ;; _ <== st_add_size n ;; _ <== st_add_padding n ;; _ <== st_close n ;; add_written n)
     (BState st1 (b_written s) (b_ops s ++ begin_ops n sig)).
Proof.
  intros Ha Hw. destruct (begin_eq n sig s) as (st1 & E1 & G1). exists st1. split; [exact G1|].
  unfold builder_set. rewrite Ha, existsb_eqb_false by assumption.
  change (n ++ ".schema")%string with (schema_file n).
  unfold bindM at 1. unfold bindM in E1 at 1.
  destruct (write_raw_data (schema_file n) (r_schema sig) s) as [s1 [u1|e1]]; [|discriminate].
  unfold bindM at 1. rewrite E1. reflexivity.
Qed.

Lemma tail_err n s s' e :
  (_ <== st_add_size n ;; _ <== st_add_padding n ;; _ <== st_close n ;; add_written n) s = (s', Err e) ->
  b_ops s' = b_ops s.
Proof.
  unfold bindM at 1. destruct (dict_get (b_store s) n) as [r|] eqn:E.
  - rewrite (st_add_size_eq n s r E). destruct (fits64 (o_data r)); [|intros H; inversion H; reflexivity].
    unfold bindM. erewrite st_add_padding_eq by (cbn [b_store]; rewrite store_get_put, String.eqb_refl; reflexivity).
    erewrite st_close_eq by (cbn [b_store]; rewrite store_get_put, String.eqb_refl; reflexivity).
    discriminate.
  - unfold st_add_size, bindM, get_obj. rewrite E. intros H; inversion H; reflexivity.
Qed.

Lemma set_err_ops a n v s s' e sig : dict_get (a_resources a) n = Some sig -> ~ In n (b_written s) ->
  builder_set a n v s = (s', Err e) ->
  exists mid, b_ops s' = b_ops s ++ begin_ops n sig ++ mid /\ Forall (fun o => side_file n sig (op_file o)) mid.
Proof.
  intros Ha Hw H. destruct (set_head a n v s sig Ha Hw) as (st1 & G & E). rewrite E in H.
  unfold bindM at 1 in H. set (s1 := BState st1 (b_written s) (b_ops s ++ begin_ops n sig)) in *.
  destruct (em_dispatch n sig v s1) as (mid & Em & Fm).
  exists mid. split; [|exact Fm]. rewrite app_assoc. change (b_ops s ++ begin_ops n sig) with (b_ops s1). rewrite <- Em.
  destruct (set_dispatch n sig v s1) as [s2 [[]|e2]]; cbn [fst].
  - now apply tail_err in H.
  - now inversion H.
Qed.

(** ** validation failures *)
Lemma dispatch_invalid n sig v s e : validate_value n sig v = Err e -> set_dispatch n sig v s = (s, Err e).
Proof.
  unfold validate_value, set_dispatch. destruct (r_container sig) as [sd|sd|it ts| |sub]; destruct v as [r|rs|bs|b|];
    intros H; try discriminate; try (inversion H; subst; reflexivity).
  - unfold set_instance, bindM, liftM. rewrite H. reflexivity.
  - unfold set_vector, bindM at 1. rewrite iterM_lift, H. reflexivity.
  - unfold set_multivector, bindM at 1. rewrite iterM_lift2, H. reflexivity.
Qed.

Lemma set_invalid a n sig v s e : dict_get (a_resources a) n = Some sig -> ~ In n (b_written s) ->
  validate_value n sig v = Err e ->
  exists st', builder_set a n v s = (BState st' (b_written s) (b_ops s ++ begin_ops n sig), Err e) /\
   (forall k, dict_get st' k = if String.eqb n k then Some (RObj [] true)
                             else if String.eqb (schema_file n) k then Some (RObj [] false)
                             else dict_get (b_store s) k).
Proof.
  intros Ha Hw He. destruct (set_head a n v s sig Ha Hw) as (st1 & G & E). exists st1. split; [|exact G].
  rewrite E. unfold bindM at 1. rewrite (dispatch_invalid n sig v _ e He). reflexivity.
Qed.

(** Directory after [begin_ops] *)
Lemma begin_get d n sig f : dict_get (apply_ops d (begin_ops n sig)) f =
  if String.eqb n f then Some [] else if String.eqb (schema_file n) f then Some (r_schema sig) else dict_get d f.
Proof.
  unfold begin_ops. change (OOpen (schema_file n) :: wr (schema_file n) (r_schema sig) ++ [OOpen n])
    with ((OOpen (schema_file n) :: wr (schema_file n) (r_schema sig)) ++ [OOpen n]).
  rewrite apply_ops_app. cbn [apply_ops fold_left].
  rewrite apply_op_get. cbn [op_file]. destruct (String.eqb n f); [reflexivity|].
  apply (open_write_get d (schema_file n) (r_schema sig) f).
Qed.

(** ** histories of valid sets *)
Lemma set_get_file a n v sig p ix f c : dict_get (a_resources a) n = Some sig -> payload_of sig v = Ok (p, ix) ->
  dict_get (set_files n sig p ix) f = Some c -> In f (files_of n sig).
Proof.
  intros Ha Hp H. apply (set_files_keys n sig v p ix f Hp). apply dict_get_in in H. now apply (in_map fst) in H.
Qed.
Lemma file_set_get n v sig p ix f : payload_of sig v = Ok (p, ix) -> In f (files_of n sig) ->
  exists c, dict_get (set_files n sig p ix) f = Some c.
Proof.
  intros Hp H. apply (set_files_keys n sig v p ix f Hp) in H.
  destruct (dict_get (set_files n sig p ix) f) eqn:E; [eauto|]. apply dict_get_none in E. contradiction.
Qed.

Lemma expected_inv a sets f c : dict_get (expected_files a sets) f = Some c ->
  exists n v sig p ix, In (n, v) sets /\ dict_get (a_resources a) n = Some sig /\ payload_of sig v = Ok (p, ix) /\
    dict_get (set_files n sig p ix) f = Some c.
Proof.
  induction sets as [|[n v] t IH]; cbn [expected_files flat_map fst snd]; [discriminate|].
  rewrite dict_get_app. intros H.
  destruct (dict_get (a_resources a) n) as [sig|] eqn:Ea.
  - destruct (payload_of sig v) as [[p ix]|] eqn:Ep.
    + destruct (dict_get (set_files n sig p ix) f) as [c'|] eqn:Ef.
      * inversion H; subst. exists n, v, sig, p, ix. repeat split; auto. now left.
      * destruct (IH H) as (n' & v' & sig' & p' & ix' & Hin & R). exists n', v', sig', p', ix'. split; [now right|exact R].
    + cbn [dict_get] in H. destruct (IH H) as (n' & v' & sig' & p' & ix' & Hin & R). exists n', v', sig', p', ix'. split; [now right|exact R].
  - cbn [dict_get] in H. destruct (IH H) as (n' & v' & sig' & p' & ix' & Hin & R). exists n', v', sig', p', ix'. split; [now right|exact R].
Qed.

Lemma nodup_fst_inj {A} (l : list (string * A)) k x y : NoDup (map fst l) -> In (k, x) l -> In (k, y) l -> x = y.
Proof.
  intros Hn H1 H2. apply (dict_get_nodup l k x Hn) in H1. apply (dict_get_nodup l k y Hn) in H2. congruence.
Qed.

Lemma expected_get a sets n v sig p ix f c : distinct_files a -> NoDup (map fst sets) -> In (n, v) sets ->
  dict_get (a_resources a) n = Some sig -> payload_of sig v = Ok (p, ix) ->
  dict_get (set_files n sig p ix) f = Some c -> dict_get (expected_files a sets) f = Some c.
Proof.
  intros Hd Hn Hin Ha Hp Hc.
  destruct (dict_get (expected_files a sets) f) as [c'|] eqn:E.
  - apply expected_inv in E. destruct E as (n' & v' & sig' & p' & ix' & Hin' & Ha' & Hp' & Hc').
    pose proof (set_get_file a n v sig p ix f c Ha Hp Hc) as F. pose proof (set_get_file a n' v' sig' p' ix' f c' Ha' Hp' Hc') as F'.
    pose proof (distinct_neq a n sig n' sig' f Hd (dict_get_in _ _ _ Ha) (dict_get_in _ _ _ Ha') F F') as Eq. inversion Eq; subst n' sig'.
    assert (v' = v) by (eapply nodup_fst_inj; eauto). subst v'. congruence.
  - exfalso. clear Hn. induction sets as [|[m w] t IH]; [destruct Hin|]. cbn [expected_files flat_map fst snd] in E.
    rewrite dict_get_app in E. destruct Hin as [Hin|Hin].
    + inversion Hin; subst. rewrite Ha, Hp, Hc in E. discriminate.
    + apply IH; [exact Hin|].
      match type of E with match ?x with _ => _ end = None => destruct x; [discriminate|exact E] end.
Qed.

Lemma index_file_of n sig v p i : payload_of sig v = Ok (p, Some i) -> In (index_name n) (files_of n sig).
Proof. intros H. apply payload_ix in H. destruct H as (it & ts & Ec). unfold files_of. rewrite Ec. cbn. auto. Qed.

Definition all_closed (s : bstate) : Prop := forall k r, dict_get (b_store s) k = Some r -> o_valid r = false.

Lemma sets_files a : distinct_files a -> sizes_ok a -> forall sets s,
  NoDup (map fst sets) -> Forall (valid_call a) sets -> (forall n, In n (map fst sets) -> ~ In n (b_written s)) ->
  all_closed s ->
  let s' := run a (sets_of sets) s in
  (forall d0 f, dict_get (files_after d0 s') f =
     match dict_get (expected_files a sets) f with Some c => Some c | None => dict_get (files_after d0 s) f end) /\
  all_closed s'.
Proof.
  intros Hd Hsz. induction sets as [|[n v] t IH]; intros s Hn Hv Hw Hc; [split; [reflexivity|assumption]|].
  cbn [sets_of map run run_call fst snd]. inversion Hn as [|? ? Hn1 Hn2]; subst. inversion Hv as [|? ? Hv1 Hv2]; subst.
  destruct Hv1 as (_ & sig & p & ix & Ha & Hval). cbn [fst snd] in *.
  pose proof (dict_get_in _ _ _ Ha) as Hin.
  assert (Hnw : ~ In n (b_written s)) by (apply Hw; now left).
  destruct (builder_set_ok a n sig v s p ix Ha Hnw (Hsz _ _ Hin) Hval) as (st' & E & K).
  pose proof (proj1 (proj2 Hval)) as Hp.
  rewrite E. cbn [fst].
  match goal with |- context [run a _ ?s1] => destruct (IH s1 Hn2 Hv2) as [H1 H2] end.
  - intros m Hm. cbn [b_written]. rewrite in_app_iff. intros [Hm'|Hm']; [apply (Hw m); [now right|assumption]|].
    assert (Em : m = n \/ exists i, ix = Some i /\ m = index_name n).
    { unfold new_written in Hm'. destruct ix as [i|]; cbn in Hm'; intuition eauto. }
    destruct Em as [->|(i & -> & ->)]; [contradiction|].
    apply in_map_iff in Hm. destruct Hm as ([m' w] & Em & Hm). cbn in Em. subst m'.
    rewrite Forall_forall in Hv2. destruct (Hv2 _ Hm) as (_ & sig' & _ & _ & Ha' & _). cbn [fst] in Ha'.
    pose proof (distinct_neq a n sig _ sig' (index_name n) Hd Hin (dict_get_in _ _ _ Ha') (index_file_of _ _ _ _ _ Hp)
                  (proj1 (files_of_self _ _))) as Eq.
    inversion Eq as [[Eq1 Eq2]]. pose proof (index_neq n) as X. rewrite <- Eq1, String.eqb_refl in X. discriminate.
  - intros k r. cbn [b_store]. rewrite K. destruct (is_set_file n ix k); [intros X; inversion X; reflexivity|apply Hc].
  - split; [|exact H2]. intros d0 f. rewrite H1. unfold files_after. cbn [b_ops].
    rewrite apply_ops_app, set_ops_get. cbn [expected_files flat_map fst snd]. rewrite Ha, Hp, dict_get_app.
    destruct (dict_get (set_files n sig p ix) f) as [c|] eqn:Ef.
    + destruct (dict_get (expected_files a t) f) as [c'|] eqn:Et; [|reflexivity]. exfalso.
      apply expected_inv in Et. destruct Et as (n' & v' & sig' & p' & ix' & Hin' & Ha' & Hp' & Hc').
      pose proof (distinct_neq a n sig n' sig' f Hd Hin (dict_get_in _ _ _ Ha') (set_get_file a n v sig p ix f c Ha Hp Ef)
                    (set_get_file a n' v' sig' p' ix' f c' Ha' Hp' Hc')) as Eq.
      inversion Eq; subst. apply Hn1. now apply (in_map fst) in Hin'.
    + reflexivity.
Qed.

(** ** the constructor *)
Definition new_ops (a : adef) : list fsop :=
  (OOpen (archive_file a) :: [OWrite (archive_file a) (zeros 16)]) ++
  OOpen (schema_file (archive_file a)) :: wr (schema_file (archive_file a)) (a_schema a).

Lemma builder_new_eq a : exists st, builder_new a bstate0 = (BState st [archive_file a] (new_ops a), Ok tt) /\
  forall k, dict_get st k = if String.eqb (archive_file a) k || String.eqb (schema_file (archive_file a)) k
                            then Some (RObj [] false) else None.
Proof.
  unfold builder_new. destruct (write_raw_data_eq (archive_file a) (zeros 16) bstate0) as (st1 & E1 & G1).
  unfold bindM at 1. rewrite E1. cbn [b_written b_ops bstate0] in *.
  match goal with |- context [write_raw_data ?f ?x] =>
    destruct (write_raw_data_eq f x (BState st1 [] ([] ++ OOpen (archive_file a) :: wr (archive_file a) (zeros 16)))) as (st2 & E2 & G2) end.
  unfold bindM. rewrite E2. unfold add_written. cbn [b_written b_ops b_store app] in *. exists st2. split.
  - reflexivity.
  - intros k. rewrite G2, G1. fold (schema_file (archive_file a)). cbn [b_store bstate0 dict_get].
    destruct (String.eqb (archive_file a) k); destruct (String.eqb (schema_file (archive_file a)) k); reflexivity.
Qed.

Lemma new_ops_get a d f : dict_get (apply_ops d (new_ops a)) f =
  if String.eqb (schema_file (archive_file a)) f then Some (a_schema a)
  else if String.eqb (archive_file a) f then Some (zeros 16) else dict_get d f.
Proof.
  unfold new_ops. rewrite apply_ops_app, open_write_get.
  destruct (String.eqb (schema_file (archive_file a)) f); [reflexivity|].
  apply (open_write_get d (archive_file a) (zeros 16) f).
Qed.

Lemma build_files a sets : generated a -> sizes_ok a -> NoDup (map fst sets) -> Forall (valid_call a) sets ->
  (forall d0 f, dict_get (files_after d0 (build a (sets_of sets))) f =
     match dict_get (expected_files a sets) f with
     | Some c => Some c
     | None => if String.eqb (schema_file (archive_file a)) f then Some (a_schema a)
               else if String.eqb (archive_file a) f then Some (zeros 16) else dict_get d0 f
     end) /\
  all_closed (build a (sets_of sets)).
Proof.
  intros [Hg Hd] Hsz Hn Hv. unfold build. destruct (builder_new_eq a) as (st & E & G). rewrite E. cbn [fst].
  destruct (sets_files a Hd Hsz sets (BState st [archive_file a] (new_ops a)) Hn Hv) as [H1 H2].
  - intros n Hin [<-|[]]. apply in_map_iff in Hin. destruct Hin as ([m w] & Em & Hin). cbn in Em. subst m.
    rewrite Forall_forall in Hv. destruct (Hv _ Hin) as (X & _). now apply X.
  - intros k r. cbn [b_store]. rewrite G. destruct (_ || _); [intros X; inversion X; reflexivity|discriminate].
  - split; [|exact H2]. intros d0 f. rewrite H1. destruct (dict_get (expected_files a sets) f); [reflexivity|].
    unfold files_after. cbn [b_ops]. apply new_ops_get.
Qed.

Lemma run_app a c1 : forall c2 s, run a (c1 ++ c2) s = run a c2 (run a c1 s).
Proof. induction c1 as [|c t IH]; intros c2 s; cbn [app run]; [reflexivity|]. apply IH. Qed.

Lemma expected_perm a s1 s2 : distinct_files a -> NoDup (map fst s1) -> Permutation s1 s2 ->
  forall f, dict_get (expected_files a s1) f = dict_get (expected_files a s2) f.
Proof.
  intros Hd Hn P f. assert (Hn2 : NoDup (map fst s2)) by (apply (Permutation_NoDup (Permutation_map fst P) Hn)).
  destruct (dict_get (expected_files a s1) f) as [c|] eqn:E.
  - apply expected_inv in E. destruct E as (n & v & sig & p & ix & Hin & Ha & Hp & Hc). symmetry.
    eapply expected_get; eauto. now apply (Permutation_in _ P).
  - destruct (dict_get (expected_files a s2) f) as [c|] eqn:E2; [|reflexivity].
    apply expected_inv in E2. destruct E2 as (n & v & sig & p & ix & Hin & Ha & Hp & Hc).
    assert (X : dict_get (expected_files a s1) f = Some c); [|congruence].
    eapply expected_get; eauto. now apply (Permutation_in _ (Permutation_sym P)).
Qed.
