(** Proofs about the builder: the imperative [set] refines the pure description in [ArchiveSpec]. *)
From Coq Require Import List ZArith Bool String Lia.
From Coq Require Import ZifyBool ZifyNat.
From Verif Require Import PyBase Spec DataAccess BitFacts DataAccessFacts DataAccessThms Structure StructSpec StructFacts
  Resources Builder Archive ArchiveSpec.
Import ListNotations.
Local Open Scope string_scope.
Local Open Scope list_scope.
Local Open Scope Z_scope.
Ltac Zify.zify_post_hook ::= Z.div_mod_to_equations.

(** ** maps *)
Lemma store_get_put d k x k' : dict_get (store_put d k x) k' = if String.eqb k k' then Some x else dict_get d k'.
Proof.
  induction d as [|[j y] t IH]; cbn [store_put dict_get]; [reflexivity|].
  destruct (String.eqb j k) eqn:E; cbn [dict_get].
  - apply String.eqb_eq in E. subst j. destruct (String.eqb k k'); reflexivity.
  - destruct (String.eqb j k') eqn:E2; [|exact IH].
    apply String.eqb_eq in E2. subst j. now rewrite String.eqb_sym, E.
Qed.

Lemma fs_get_put d k x k' : dict_get (fs_put d k x) k' = if String.eqb k k' then Some x else dict_get d k'.
Proof.
  induction d as [|[j y] t IH]; cbn [fs_put dict_get]; [reflexivity|].
  destruct (String.eqb j k) eqn:E; cbn [dict_get].
  - apply String.eqb_eq in E. subst j. destruct (String.eqb k k'); reflexivity.
  - destruct (String.eqb j k') eqn:E2; [|exact IH].
    apply String.eqb_eq in E2. subst j. now rewrite String.eqb_sym, E.
Qed.

Lemma append_neq n s : s <> "" -> String.eqb (n ++ s)%string n = false.
Proof.
  intros Hs. apply String.eqb_neq. intros E.
  assert (L := f_equal String.length E). revert L.
  assert (A : forall a b, String.length (a ++ b)%string = (String.length a + String.length b)%nat).
  { induction a as [|c a IH]; intros b; cbn; [reflexivity|]. now rewrite IH. }
  rewrite A. destruct s; [congruence|]. cbn. lia.
Qed.
Lemma append_neq' n s : s <> "" -> String.eqb n (n ++ s)%string = false.
Proof. intros. rewrite String.eqb_sym. now apply append_neq. Qed.
Lemma append_length a : forall b, String.length (a ++ b)%string = (String.length a + String.length b)%nat.
Proof. induction a as [|c a IH]; intros b; cbn; [reflexivity|]. now rewrite IH. Qed.
Lemma eqb_len a b : String.length a <> String.length b -> String.eqb a b = false.
Proof. intros H. apply String.eqb_neq. congruence. Qed.

(** ** storage primitives, run symbolically *)
Definition wr (n : string) (x : list Z) : list fsop := match x with [] => [] | _ => [OWrite n x] end.

Lemma st_get_eq n s :
  st_get n s = (BState (store_put (b_store s) n (RObj [] true)) (b_written s) (b_ops s ++ [OOpen n]), Ok tt).
Proof. reflexivity. Qed.

Lemma st_write_eq n x s r : dict_get (b_store s) n = Some r ->
  st_write n x s = (BState (store_put (b_store s) n (RObj (o_data r ++ x) (o_valid r))) (b_written s) (b_ops s), Ok tt).
Proof. intros H. unfold st_write, bindM, get_obj. rewrite H. reflexivity. Qed.

Lemma to_bytes8 (x : list Z) : zlen x < 2 ^ 64 -> py_to_bytes (zlen x) 8 false = Ok (to_le 8 (zlen x)).
Proof.
  intros H. unfold py_to_bytes. change (8 <? 0) with false. cbv iota. change (8 * 8) with 64.
  pose proof (zlen_nonneg x). destruct ((0 <=? zlen x) && (zlen x <? 2 ^ 64)) eqn:E; [reflexivity|].
  apply andb_false_iff in E. destruct E as [E|E]; [apply Z.leb_gt in E|apply Z.ltb_ge in E]; lia.
Qed.

Lemma to_bytes8_err (x : list Z) : 2 ^ 64 <= zlen x -> py_to_bytes (zlen x) 8 false = Err OverflowError.
Proof.
  intros H. unfold py_to_bytes. change (8 <? 0) with false. cbv iota. change (8 * 8) with 64.
  destruct (zlen x <? 2 ^ 64) eqn:E; [apply Z.ltb_lt in E; lia|]. now rewrite andb_false_r.
Qed.

Lemma st_add_size_eq n s r : dict_get (b_store s) n = Some r ->
  st_add_size n s = if fits64 (o_data r)
    then (BState (store_put (b_store s) n (RObj (to_le 8 (zlen (o_data r)) ++ o_data r) (o_valid r)))
                 (b_written s) (b_ops s), Ok tt)
    else (s, Err OverflowError).
Proof.
  intros H. unfold st_add_size, bindM at 1, get_obj. rewrite H. unfold fits64.
  destruct (zlen (o_data r) <? 2 ^ 64) eqn:E.
  - apply Z.ltb_lt in E. unfold liftM, bindM. rewrite to_bytes8 by assumption. reflexivity.
  - apply Z.ltb_ge in E. unfold liftM, bindM. rewrite to_bytes8_err by assumption. reflexivity.
Qed.

Lemma st_add_padding_eq n s r : dict_get (b_store s) n = Some r ->
  st_add_padding n s = (BState (store_put (b_store s) n (RObj (o_data r ++ zeros 8) (o_valid r))) (b_written s) (b_ops s), Ok tt).
Proof. intros H. unfold st_add_padding, bindM, get_obj. rewrite H. reflexivity. Qed.

Lemma st_close_eq n s r : dict_get (b_store s) n = Some r ->
  st_close n s = (BState (store_put (b_store s) n (RObj [] false)) (b_written s) (b_ops s ++ wr n (o_data r)), Ok tt).
Proof.
  intros H. unfold st_close, bindM, get_obj. rewrite H.
  destruct (o_data r) as [|b t] eqn:E; cbn [wr]; unfold retM, emit, put_obj; cbn [b_store b_written b_ops].
  - now rewrite app_nil_r.
  - reflexivity.
Qed.

Lemma write_raw_data_eq n x s : exists st',
  write_raw_data n x s = (BState st' (b_written s) (b_ops s ++ OOpen n :: wr n x), Ok tt) /\
  forall k, dict_get st' k = if String.eqb n k then Some (RObj [] false) else dict_get (b_store s) k.
Proof.
  eexists. split.
  - unfold write_raw_data, bindM. rewrite st_get_eq.
    erewrite st_write_eq by (cbn [b_store]; rewrite store_get_put, String.eqb_refl; reflexivity).
    erewrite st_close_eq by (cbn [b_store]; rewrite store_get_put, String.eqb_refl; reflexivity).
    cbn [b_store b_written b_ops o_data app]. rewrite <- app_assoc. reflexivity.
  - intros k. cbn [b_store]. rewrite !store_get_put. destruct (String.eqb n k); reflexivity.
Qed.

(** The closing sequence add_size; add_padding; close on an object holding [x]. *)
Lemma seal_eq n s x : dict_get (b_store s) n = Some (RObj x true) -> fits64 x = true ->
  exists st', (_ <== st_add_size n ;; _ <== st_add_padding n ;; st_close n) s
    = (BState st' (b_written s) (b_ops s ++ [OWrite n (framed x)]), Ok tt) /\
  forall k, dict_get st' k = if String.eqb n k then Some (RObj [] false) else dict_get (b_store s) k.
Proof.
  intros H Hf. eexists. split.
  - unfold bindM. erewrite st_add_size_eq by exact H. cbn [o_data]. rewrite Hf. cbn [o_valid].
    erewrite st_add_padding_eq by (cbn [b_store]; rewrite store_get_put, String.eqb_refl; reflexivity).
    erewrite st_close_eq by (cbn [b_store]; rewrite store_get_put, String.eqb_refl; reflexivity).
    cbn [b_store b_written b_ops o_data]. rewrite <- app_assoc. fold (framed x).
    assert (W : wr n (framed x) = [OWrite n (framed x)]) by reflexivity.
    rewrite W. reflexivity.
  - intros k. cbn [b_store]. rewrite !store_get_put. destruct (String.eqb n k); reflexivity.
Qed.

(** ** loops *)
Lemma iterM_lift {A} (f : A -> res unit) l s :
  iterM (fun x => liftM (f x)) l s = (s, _ <- mapM f l ;; Ok tt).
Proof.
  induction l as [|x t IH]; cbn [iterM mapM]; [reflexivity|].
  unfold bindM, liftM at 1. destruct (f x) as [[]|e]; cbn [bind]; [|reflexivity].
  rewrite IH. destruct (mapM f t); reflexivity.
Qed.

Lemma iterM_ext {A} (f g : A -> M unit) l s : (forall x s, f x s = g x s) -> iterM f l s = iterM g l s.
Proof.
  intros H. revert s. induction l as [|x t IH]; intros s; cbn [iterM]; [reflexivity|].
  unfold bindM. rewrite H. destruct (g x s) as [s' [u|e]]; auto.
Qed.

Lemma iterM_lift2 {A} (f : A -> res unit) ls s :
  iterM (iterM (fun x => liftM (f x))) ls s = (s, _ <- mapM (mapM f) ls ;; Ok tt).
Proof.
  rewrite (iterM_ext _ (fun l => liftM (_ <- mapM f l ;; Ok tt))) by (intros; apply iterM_lift).
  rewrite iterM_lift. f_equal. induction ls as [|l t IH]; cbn [mapM]; [reflexivity|].
  destruct (mapM f l); cbn [bind]; [|reflexivity]. revert IH.
  destruct (mapM _ t); destruct (mapM (mapM f) t); cbn [bind]; congruence.
Qed.

(** Appending packed items one by one to object [n]. *)
Lemma iterM_append {A} (f : A -> res (list Z)) n l : forall s x bs,
  dict_get (b_store s) n = Some (RObj x true) -> mapM f l = Ok bs ->
  exists st', iterM (fun v => b <== liftM (f v) ;; st_write n b) l s = (BState st' (b_written s) (b_ops s), Ok tt) /\
    forall k, dict_get st' k = if String.eqb n k then Some (RObj (x ++ List.concat bs) true) else dict_get (b_store s) k.
Proof.
  induction l as [|v t IH]; intros s x bs H Hm; cbn [mapM iterM] in *.
  - inversion Hm; subst. exists (b_store s). split; [now destruct s|]. intros k. cbn [List.concat]. rewrite app_nil_r.
    destruct (String.eqb n k) eqn:E; [|reflexivity]. apply String.eqb_eq in E. now subst.
  - destruct (f v) as [b|e] eqn:Ef; cbn [bind] in Hm; [|discriminate].
    destruct (mapM f t) as [bs'|e] eqn:Et; cbn [bind] in Hm; [|discriminate]. inversion Hm; subst.
    unfold bindM at 1, bindM at 1, liftM at 1. rewrite ?Ef. erewrite st_write_eq by exact H. cbn [o_data o_valid].
    destruct (IH (BState (store_put (b_store s) n (RObj (x ++ b) true)) (b_written s) (b_ops s)) (x ++ b) bs' ) as (st' & E1 & E2);
      [cbn [b_store]; rewrite store_get_put, String.eqb_refl; reflexivity|reflexivity|].
    exists st'. split; [exact E1|]. intros k. rewrite E2. cbn [b_store]. rewrite store_get_put.
    destruct (String.eqb n k); [|reflexivity]. cbn [List.concat]. now rewrite app_assoc.
Qed.

(** One bucket. *)
Lemma write_bucket_eq n types es : forall s x point b,
  dict_get (b_store s) n = Some (RObj x true) -> bucket_bytes types es = Ok b ->
  (forall e ti sd, In e es -> find_type 0 types (fst e) = Some (ti, sd) ->
     forall bb, pack_element ti sd (snd e) = Ok bb -> zlen bb = s_size sd + 1) ->
  exists st', write_bucket n types point es s = (BState st' (b_written s) (b_ops s), Ok (point + zlen b)) /\
    forall k, dict_get st' k = if String.eqb n k then Some (RObj (x ++ b) true) else dict_get (b_store s) k.
Proof.
  induction es as [|e t IH]; intros s x point b H Hm Hsz; unfold bucket_bytes in Hm; cbn [mapM write_bucket] in *.
  - inversion Hm; subst. exists (b_store s). cbn [List.concat]. rewrite zlen_nil, Z.add_0_r, app_nil_r.
    split; [now destruct s|]. intros k.
    destruct (String.eqb n k) eqn:E; [|reflexivity]. apply String.eqb_eq in E. now subst.
  - unfold element_bytes at 1 in Hm. destruct (find_type 0 types (fst e)) as [[ti sd]|] eqn:Ef; [|discriminate].
    destruct (pack_element ti sd (snd e)) as [b0|er] eqn:Ep; cbn [bind] in Hm; [|discriminate].
    destruct (mapM (element_bytes types) t) as [bs'|er] eqn:Et; cbn [bind] in Hm; [|discriminate].
    inversion Hm; subst b.
    unfold bindM at 1, liftM at 1. unfold bindM at 1. erewrite st_write_eq by exact H. cbn [o_data o_valid].
    pose proof (Hsz e ti sd (or_introl eq_refl) Ef b0 Ep) as Hz.
    destruct (IH (BState (store_put (b_store s) n (RObj (x ++ b0) true)) (b_written s) (b_ops s)) (x ++ b0)
                 (point + (s_size sd + 1)) (List.concat bs')) as (st' & E1 & E2).
    { cbn [b_store]; rewrite store_get_put, String.eqb_refl; reflexivity. }
    { unfold bucket_bytes. now rewrite Et. }
    { intros e' ti' sd' Hin. apply Hsz. now right. }
    exists st'. split.
    + rewrite E1. cbn [List.concat]. rewrite zlen_app, Hz. cbn [b_written b_ops]. do 2 f_equal. lia.
    + intros k. rewrite E2. cbn [b_store]. rewrite store_get_put.
      destruct (String.eqb n k); [|reflexivity]. cbn [List.concat]. now rewrite app_assoc.
Qed.

Lemma write_buckets_eq n types bs : forall s x point bufs,
  dict_get (b_store s) n = Some (RObj x true) -> mapM (bucket_bytes types) bs = Ok bufs ->
  (forall es e ti sd, In es bs -> In e es -> find_type 0 types (fst e) = Some (ti, sd) ->
     forall bb, pack_element ti sd (snd e) = Ok bb -> zlen bb = s_size sd + 1) ->
  exists st', write_buckets n types point bs s
      = (BState st' (b_written s) (b_ops s), Ok (bucket_points point (map zlen bufs))) /\
    forall k, dict_get st' k = if String.eqb n k then Some (RObj (x ++ List.concat bufs) true) else dict_get (b_store s) k.
Proof.
  induction bs as [|es t IH]; intros s x point bufs H Hm Hsz; cbn [mapM write_buckets] in *.
  - inversion Hm; subst. exists (b_store s). cbn [List.concat map bucket_points]. rewrite app_nil_r.
    split; [now destruct s|]. intros k.
    destruct (String.eqb n k) eqn:E; [|reflexivity]. apply String.eqb_eq in E. now subst.
  - destruct (bucket_bytes types es) as [b|er] eqn:Eb; cbn [bind] in Hm; [|discriminate].
    destruct (mapM (bucket_bytes types) t) as [bufs'|er] eqn:Et; cbn [bind] in Hm; [|discriminate].
    inversion Hm; subst bufs.
    destruct (write_bucket_eq n types es s x point b H Eb) as (st1 & E1 & G1).
    { intros e ti sd Hin. apply (Hsz es); [now left|assumption]. }
    unfold bindM at 1. rewrite E1.
    destruct (IH (BState st1 (b_written s) (b_ops s)) (x ++ b) (point + zlen b) bufs') as (st2 & E2 & G2).
    { cbn [b_store]. rewrite G1, String.eqb_refl. reflexivity. }
    { reflexivity. }
    { intros es' e ti sd Hin. apply (Hsz es'). now right. }
    exists st2. split.
    + unfold bindM. rewrite E2. reflexivity.
    + intros k. rewrite G2. cbn [b_store]. rewrite G1. destruct (String.eqb n k); [|reflexivity].
      cbn [List.concat]. now rewrite app_assoc.
Qed.

(** pack_element always yields s_size + 1 bytes when it succeeds. *)
Lemma py_set_length l i x l' : py_set l i x = Ok l' -> List.length l' = List.length l.
Proof.
  unfold py_set. destruct (_ || _); [discriminate|]. destruct (_ || _); [discriminate|].
  intros H; inversion H. apply list_set_length.
Qed.

Lemma copy_bytes_length k : forall data ob i src d, copy_bytes k data ob i src = Ok d -> List.length d = List.length data.
Proof.
  induction k as [|k IH]; intros data ob i src d H; cbn [copy_bytes] in H; [now inversion H|].
  destruct (py_get src i) as [b|e]; cbn [bind] in H; [|discriminate].
  destruct (py_set data (ob + i) b) as [d1|e] eqn:E; cbn [bind] in H; [|discriminate].
  rewrite (IH _ _ _ _ _ H). eapply py_set_length; eauto.
Qed.

Ltac bind_inv H :=
  match type of H with
  | bind ?r _ = Ok _ => let E := fresh "E" in destruct r eqn:E; cbn [bind] in H; [|discriminate]
  end.

Lemma write_value_length data off n s v d : write_value data off n s v = Ok d -> List.length d = List.length data.
Proof.
  unfold write_value. destruct (negb (n <=? 64)); [discriminate|]. cbv zeta.
  destruct (n =? 1).
  - intros H. bind_inv H. destruct (v =? 1); eapply py_set_length; eauto.
  - intros H. bind_inv H. bind_inv H. bind_inv H. bind_inv H. bind_inv H. bind_inv H. bind_inv H. bind_inv H. bind_inv H.
    assert (L : List.length a7 = List.length data).
    { rewrite (copy_bytes_length _ _ _ _ _ _ E7), (py_set_length _ _ _ _ E6), (py_set_length _ _ _ _ E4). reflexivity. }
    destruct (_ <? n).
    + bind_inv H. bind_inv H. bind_inv H. bind_inv H.
      rewrite (py_set_length _ _ _ _ H), (py_set_length _ _ _ _ E10). exact L.
    + inversion H; subst. exact L.
Qed.

Lemma write_pyval_length data off n s v d : write_pyval data off n s v = Ok d -> List.length d = List.length data.
Proof.
  destruct v as [v|e1]; cbn [write_pyval]; [apply write_value_length|].
  destruct (negb (n <=? 64)); [discriminate|]. destruct (n =? 1); [apply write_value_length|].
  intros H. bind_inv H. discriminate.
Qed.

Lemma fold_write_length base rec fs : forall buf b,
  foldM (write_field base rec) buf fs = Ok b -> List.length b = List.length buf.
Proof.
  induction fs as [|f t IH]; intros buf b H; cbn [foldM] in H; [now inversion H|].
  bind_inv H. rewrite (IH _ _ H). unfold write_field in E.
  destruct (dict_get rec (f_name f)); [|discriminate]. eapply write_pyval_length; eauto.
Qed.

Lemma pack_record_length sd rec b : 0 <= s_size sd -> pack_record sd rec = Ok b -> zlen b = s_size sd.
Proof.
  intros Hs H. unfold pack_record in H. apply fold_write_length in H. unfold zlen. rewrite H.
  unfold zeros. rewrite repeat_length. lia.
Qed.

Lemma pack_element_length ti sd rec b : 0 <= s_size sd -> pack_element ti sd rec = Ok b -> zlen b = s_size sd + 1.
Proof.
  intros Hs H. unfold pack_element in H. cbv zeta in H. bind_inv H. bind_inv H. bind_inv H.
  apply fold_write_length in H. apply py_set_length in E1. unfold zlen. rewrite H, E1.
  unfold zeros. rewrite repeat_length. lia.
Qed.

(** ** [set] as a whole *)
Definition begin_ops (n : string) (sig : rsig) : list fsop :=
  OOpen (schema_file n) :: wr (schema_file n) (r_schema sig) ++ [OOpen n].

Definition index_ops (n : string) (sig : rsig) (ix : option (list Z)) : list fsop :=
  match ix with
  | None => []
  | Some i => [OOpen (index_name n); OWrite (index_name n) (framed i);
               OOpen (schema_file (index_name n));
               OWrite (schema_file (index_name n)) (index_schema (r_schema sig))]
  end.

Definition set_ops (n : string) (sig : rsig) (p : list Z) (ix : option (list Z)) : list fsop :=
  begin_ops n sig ++ index_ops n sig ix ++ [OWrite n (framed p)].

Definition new_written (n : string) (ix : option (list Z)) : list string :=
  match ix with None => [n] | Some _ => [n; index_name n; n] end.

(** The state after the schema has been written and the file opened. *)
Lemma begin_eq n sig s : exists st',
  (_ <== write_raw_data (schema_file n) (r_schema sig) ;; st_get n) s
    = (BState st' (b_written s) (b_ops s ++ begin_ops n sig), Ok tt) /\
  forall k, dict_get st' k = if String.eqb n k then Some (RObj [] true)
                             else if String.eqb (schema_file n) k then Some (RObj [] false)
                             else dict_get (b_store s) k.
Proof.
  destruct (write_raw_data_eq (schema_file n) (r_schema sig) s) as (st1 & E1 & G1).
  eexists. split.
  - unfold bindM. rewrite E1. rewrite st_get_eq. cbn [b_store b_written b_ops].
    unfold begin_ops. rewrite <- app_assoc. reflexivity.
  - intros k. rewrite store_get_put. destruct (String.eqb n k); [reflexivity|]. apply G1.
Qed.

Lemma index_neq n : String.eqb n (index_name n) = false.
Proof. apply append_neq'. discriminate. Qed.
Lemma index_neq' n : String.eqb (index_name n) n = false.
Proof. apply append_neq. discriminate. Qed.
Lemma schema_neq n : String.eqb (schema_file n) n = false.
Proof. apply append_neq. discriminate. Qed.
Lemma ixschema_neq n : String.eqb (schema_file (index_name n)) n = false.
Proof. apply eqb_len. unfold schema_file, index_name. rewrite !append_length. cbn. lia. Qed.
Lemma ixschema_index n : String.eqb (schema_file (index_name n)) (index_name n) = false.
Proof. apply schema_neq. Qed.

Lemma index_schema_wr f sch : wr f (index_schema sch) = [OWrite f (index_schema sch)].
Proof. reflexivity. Qed.

Lemma write_index_eq n size points idx s : size <> 0 ->
  mapM (fun p => py_to_bytes p size false) points = Ok idx -> fits64 (List.concat idx) = true ->
  exists st', write_index n size points s
    = (BState st' (b_written s) (b_ops s ++ [OOpen (index_name n); OWrite (index_name n) (framed (List.concat idx))]), Ok tt) /\
  forall k, dict_get st' k = if String.eqb (index_name n) k then Some (RObj [] false) else dict_get (b_store s) k.
Proof.
  intros Hsz Hm Hf. unfold write_index. destruct (size =? 0) eqn:E; [lia|].
  unfold bindM at 1. rewrite st_get_eq.
  destruct (iterM_append (fun p => py_to_bytes p size false) (index_name n) points
             (BState (store_put (b_store s) (index_name n) (RObj [] true)) (b_written s) (b_ops s ++ [OOpen (index_name n)])) [] idx)
    as (st1 & E1 & G1); [cbn [b_store]; rewrite store_get_put, String.eqb_refl; reflexivity|assumption|].
  unfold bindM at 1. rewrite E1. cbn [b_written b_ops].
  destruct (seal_eq (index_name n) (BState st1 (b_written s) (b_ops s ++ [OOpen (index_name n)])) (List.concat idx))
    as (st2 & E2 & G2); [cbn [b_store]; rewrite G1, String.eqb_refl; reflexivity|assumption|].
  rewrite E2. cbn [b_written b_ops]. rewrite <- app_assoc. exists st2. split; [reflexivity|].
  intros k. rewrite G2. cbn [b_store]. rewrite G1. cbn [b_store]. rewrite store_get_put.
  destruct (String.eqb (index_name n) k); reflexivity.
Qed.

Lemma find_type_sized types : Forall (fun t => 0 <= s_size t) types ->
  forall i n ti sd, find_type i types n = Some (ti, sd) -> 0 <= s_size sd.
Proof.
  induction 1 as [|t ts Ht _ IH]; intros i n ti sd H; cbn [find_type] in H; [discriminate|].
  destruct (find_type (i + 1) ts n) as [[ti' sd']|] eqn:E.
  - inversion H; subst. eauto.
  - destruct (String.eqb (s_name t) n); [|discriminate]. inversion H; subst. assumption.
Qed.

(** The dispatch on a valid value. *)
Lemma dispatch_ok n sig v s p ix : sig_sized sig ->
  dict_get (b_store s) n = Some (RObj [] true) ->
  validate_value n sig v = Ok tt -> payload_of sig v = Ok (p, ix) -> ix_fits ix = true ->
  exists st', set_dispatch n sig v s
    = (BState st' (b_written s ++ match ix with None => [] | Some _ => [n; index_name n] end)
              (b_ops s ++ index_ops n sig ix), Ok tt) /\
  forall k, dict_get st' k =
    if String.eqb n k then Some (RObj p true)
    else match ix with
         | None => dict_get (b_store s) k
         | Some _ => if String.eqb (index_name n) k || String.eqb (schema_file (index_name n)) k
                     then Some (RObj [] false) else dict_get (b_store s) k
         end.
Proof.
  intros Hsz H Hv Hp Hf. unfold sig_sized, set_dispatch, validate_value, payload_of in *.
  destruct (r_container sig) as [sd|sd|it ts| |sub] eqn:Ec.
  - destruct v as [r|rs|bs|b|]; try discriminate.
    bind_inv Hp. inversion Hp; subst. unfold set_instance, bindM, liftM. rewrite Hv, E.
    erewrite st_write_eq by exact H. eexists. cbn [o_data o_valid app index_ops]. rewrite !app_nil_r. split; [reflexivity|].
    intros k. cbn [b_store]. now rewrite store_get_put.
  - destruct v as [r|rs|bs|b|]; try discriminate.
    bind_inv Hp. inversion Hp; subst. unfold set_vector, bindM at 1. rewrite iterM_lift, Hv.
    destruct (iterM_append (pack_record sd) n rs s [] a H E) as (st' & E1 & G1).
    rewrite E1. exists st'. cbn [index_ops]. rewrite !app_nil_r. split; [reflexivity|]. exact G1.
  - destruct v as [r|rs|bs|b|]; try discriminate.
    bind_inv Hp. destruct (s_size it =? 0) eqn:Ez; [discriminate|]. bind_inv Hp. inversion Hp; subst.
    destruct Hsz as [Hit Hts]. unfold set_multivector, bindM at 1. rewrite iterM_lift2, Hv.
    destruct (write_buckets_eq n ts bs s [] 0 a H E) as (st1 & E1 & G1).
    { intros es e ti sd Hes He Hft bb Hbb. eapply pack_element_length; [|eassumption].
      eapply find_type_sized; eauto. }
    unfold bindM at 1. rewrite E1.
    destruct (write_index_eq n (s_size it) (bucket_points 0 (map zlen a)) a0 (BState st1 (b_written s) (b_ops s)))
      as (st2 & E2' & G2); [lia|assumption|assumption|].
    unfold bindM at 1. rewrite E2'.
    match goal with |- context [write_raw_data ?f ?x] =>
      destruct (write_raw_data_eq f x (BState st2 (b_written s) (b_ops s ++ [OOpen (index_name n); OWrite (index_name n) (framed (List.concat a0))])))
        as (st3 & E3 & G3) end.
    cbn [b_written b_ops b_store] in *.
    unfold bindM at 1. rewrite E3. unfold bindM, add_written. cbn [b_store b_written b_ops].
    exists st3. cbn [index_ops]. split.
    + rewrite <- !app_assoc. cbn [app]. fold (schema_file (index_name n)). fold (index_schema (r_schema sig)).
      rewrite index_schema_wr. reflexivity.
    + intros k. rewrite G3, G2, G1. fold (schema_file (index_name n)). cbn [app].
      destruct (String.eqb n k) eqn:En.
      * apply String.eqb_eq in En. subst k. rewrite ixschema_neq, index_neq'. reflexivity.
      * destruct (String.eqb (schema_file (index_name n)) k) eqn:E4;
        destruct (String.eqb (index_name n) k) eqn:E5; cbn [orb]; reflexivity.
  - destruct v as [r|rs|bs|b|]; inversion Hp; subst; cbn [index_ops].
    1,2,3,5: exists (b_store s); rewrite !app_nil_r; split; [now destruct s|];
      intros k; destruct (String.eqb n k) eqn:E; [apply String.eqb_eq in E; now subst|reflexivity].
    erewrite st_write_eq by exact H. eexists. rewrite !app_nil_r. split; [reflexivity|].
    intros k. cbn [b_store o_data o_valid app]. now rewrite store_get_put.
  - assert (p = [] /\ ix = None) as [-> ->] by (destruct v; inversion Hp; auto). cbn [index_ops].
    exists (b_store s). rewrite !app_nil_r. split; [destruct v; now destruct s|].
    intros k; destruct (String.eqb n k) eqn:E; [apply String.eqb_eq in E; now subst|reflexivity].
Qed.

Definition is_set_file (n : string) (ix : option (list Z)) (k : string) : bool :=
  String.eqb n k || String.eqb (schema_file n) k ||
  match ix with None => false | Some _ => String.eqb (index_name n) k || String.eqb (schema_file (index_name n)) k end.

Lemma existsb_eqb_false n l : ~ In n l -> existsb (String.eqb n) l = false.
Proof.
  intros H. destruct (existsb (String.eqb n) l) eqn:E; [|reflexivity]. apply existsb_eqb_in in E. contradiction.
Qed.

Lemma builder_set_ok a n sig v s p ix :
  dict_get (a_resources a) n = Some sig -> ~ In n (b_written s) -> sig_sized sig -> valid_set n sig v p ix ->
  exists st', builder_set a n v s
    = (BState st' (b_written s ++ new_written n ix) (b_ops s ++ set_ops n sig p ix), Ok tt) /\
  forall k, dict_get st' k = if is_set_file n ix k then Some (RObj [] false) else dict_get (b_store s) k.
Proof.
  intros Ha Hw Hsz (Hv & Hp & Hf & Hix).
  unfold builder_set. rewrite Ha. rewrite existsb_eqb_false by assumption.
  destruct (begin_eq n sig s) as (st1 & E1 & G1).
  change (n ++ ".schema")%string with (schema_file n).
  unfold bindM at 1. unfold bindM in E1 at 1.
  destruct (write_raw_data (schema_file n) (r_schema sig) s) as [s1 [u1|e1]]; [|discriminate].
  unfold bindM at 1. rewrite E1.
  destruct (dispatch_ok n sig v (BState st1 (b_written s) (b_ops s ++ begin_ops n sig)) p ix Hsz) as (st2 & E2 & G2);
    [cbn [b_store]; rewrite G1, String.eqb_refl; reflexivity|assumption|assumption|assumption|].
  unfold bindM at 1. rewrite E2. cbn [b_written b_ops b_store] in *.
  match goal with |- context [bindM (st_add_size n) _ ?s] =>
    destruct (seal_eq n s p) as (st3 & E3 & G3); [cbn [b_store]; rewrite G2, String.eqb_refl; reflexivity|assumption|] end.
  assert (E4 : forall m s s', (_ <== st_add_size n ;; _ <== st_add_padding n ;; st_close n) s = (s', Ok tt) ->
            (_ <== st_add_size n ;; _ <== st_add_padding n ;; _ <== st_close n ;; m) s = (m : M unit) s').
  { clear. intros m s s' H. unfold bindM in *. destruct (st_add_size n s) as [s1 [[]|e]]; [|discriminate].
    destruct (st_add_padding n s1) as [s2 [[]|e]]; [|discriminate].
    destruct (st_close n s2) as [s3 [[]|e]]; [|discriminate]. now inversion H. }
  rewrite (E4 _ _ _ E3). unfold add_written. cbn [b_written b_ops b_store] in *.
  exists st3. split.
  - unfold set_ops, new_written. rewrite <- !app_assoc. destruct ix; cbn [app]; reflexivity.
  - intros k. rewrite G3, G2, G1. unfold is_set_file.
    destruct (String.eqb n k) eqn:En; cbn [orb]; [reflexivity|].
    destruct ix as [i|].
    + destruct (String.eqb (schema_file n) k); cbn [orb]; [destruct (_ || _); reflexivity|].
      destruct (_ || _); reflexivity.
    + destruct (String.eqb (schema_file n) k); reflexivity.
Qed.

(** ** Inversion: a [set] that returned normally was valid. *)
Lemma bindM_ok {A B} (m : M A) (f : A -> M B) s s' b : bindM m f s = (s', Ok b) ->
  exists s1 a, m s = (s1, Ok a) /\ f a s1 = (s', Ok b).
Proof.
  unfold bindM. destruct (m s) as [s1 [a|e]] eqn:E; [|discriminate]. intros H. exists s1, a. auto.
Qed.

Lemma liftM_ok {A} (r : res A) s s' a : liftM r s = (s', Ok a) -> s' = s /\ r = Ok a.
Proof. unfold liftM. intros H. inversion H. auto. Qed.

Lemma iterM_append_inv {A} (f : A -> res (list Z)) n l : forall s s',
  iterM (fun v => b <== liftM (f v) ;; st_write n b) l s = (s', Ok tt) -> exists bs, mapM f l = Ok bs.
Proof.
  induction l as [|v t IH]; intros s s' H; cbn [iterM mapM] in *; [eauto|].
  apply bindM_ok in H. destruct H as (s1 & [] & H1 & H2).
  apply bindM_ok in H1. destruct H1 as (s2 & b & H3 & H4). apply liftM_ok in H3. destruct H3 as [-> Hf].
  destruct (IH _ _ H2) as (bs & ->). rewrite Hf. cbn [bind]. eauto.
Qed.

Lemma write_bucket_inv n types es : forall point s s' pt,
  write_bucket n types point es s = (s', Ok pt) -> exists b, bucket_bytes types es = Ok b.
Proof.
  unfold bucket_bytes.
  induction es as [|e t IH]; intros point s s' pt H; cbn [write_bucket mapM] in *; [cbn; eauto|].
  unfold element_bytes at 1. destruct (find_type 0 types (fst e)) as [[ti sd]|]; [|discriminate].
  apply bindM_ok in H. destruct H as (s1 & bout & H1 & H2). apply liftM_ok in H1. destruct H1 as [-> Hpk]. rewrite Hpk. cbn [bind].
  apply bindM_ok in H2. destruct H2 as (s2 & [] & _ & H4).
  destruct (IH _ _ _ _ H4) as (b & Hb). bind_inv Hb. cbn [bind]. eauto.
Qed.

Lemma write_buckets_inv n types bs : forall point s s' pts,
  write_buckets n types point bs s = (s', Ok pts) -> exists bufs, mapM (bucket_bytes types) bs = Ok bufs.
Proof.
  induction bs as [|es t IH]; intros point s s' pts H; cbn [write_buckets mapM] in *; [eauto|].
  apply bindM_ok in H. destruct H as (s1 & pt & H1 & H2).
  destruct (write_bucket_inv _ _ _ _ _ _ _ H1) as (b & ->). cbn [bind].
  apply bindM_ok in H2. destruct H2 as (s2 & r & H3 & _).
  destruct (IH _ _ _ _ H3) as (bufs & ->). cbn [bind]. eauto.
Qed.

Lemma write_index_inv n size points s s' :
  write_index n size points s = (s', Ok tt) ->
  size <> 0 /\ exists idx, mapM (fun p => py_to_bytes p size false) points = Ok idx /\ fits64 (List.concat idx) = true.
Proof.
  unfold write_index. destruct (size =? 0) eqn:E; [discriminate|]. intros H. split; [lia|].
  apply bindM_ok in H. destruct H as (s1 & [] & H1 & H2). rewrite st_get_eq in H1. inversion H1; subst s1. clear H1.
  apply bindM_ok in H2. destruct H2 as (s2 & [] & H3 & H4).
  destruct (iterM_append_inv _ _ _ _ _ H3) as (idx & Hi). exists idx. split; [exact Hi|].
  destruct (iterM_append (fun p => py_to_bytes p size false) (index_name n) points
             (BState (store_put (b_store s) (index_name n) (RObj [] true)) (b_written s) (b_ops s ++ [OOpen (index_name n)])) [] idx)
    as (st1 & E1 & G1); [cbn [b_store]; rewrite store_get_put, String.eqb_refl; reflexivity|assumption|].
  rewrite E1 in H3. inversion H3; subst s2.
  apply bindM_ok in H4. destruct H4 as (s5 & [] & H5 & _).
  erewrite st_add_size_eq in H5 by (cbn [b_store]; rewrite G1, String.eqb_refl; reflexivity).
  cbn [o_data app] in H5. destruct (fits64 (List.concat idx)); [reflexivity|discriminate].
Qed.

Lemma dispatch_inv n sig v s s' : sig_sized sig ->
  dict_get (b_store s) n = Some (RObj [] true) -> set_dispatch n sig v s = (s', Ok tt) ->
  validate_value n sig v = Ok tt /\ exists p ix, payload_of sig v = Ok (p, ix) /\ ix_fits ix = true.
Proof.
  intros Hsz Hst H. unfold sig_sized, set_dispatch, validate_value, payload_of in *.
  destruct (r_container sig) as [sd|sd|it ts| |sub] eqn:Ec.
  - destruct v as [r|rs|bs|b|]; try (cbn in H; discriminate).
    unfold set_instance in H. apply bindM_ok in H. destruct H as (s1 & [] & H1 & H2).
    apply bindM_ok in H2. destruct H2 as (s2 & b & H3 & _). apply liftM_ok in H1. apply liftM_ok in H3. destruct H1 as [-> Hva]. destruct H3 as [-> Hpk].
    rewrite Hpk. split; [assumption|]. cbn [bind]. eauto.
  - destruct v as [r|rs|bs|b|]; try (cbn in H; discriminate).
    unfold set_vector in H. apply bindM_ok in H. destruct H as (s1 & [] & H1 & H2).
    rewrite iterM_lift in H1. assert (Hva := f_equal snd H1). cbn [snd] in Hva.
    destruct (iterM_append_inv _ _ _ _ _ H2) as (bs & ->).
    split; [exact Hva|]. cbn [bind]. eauto.
  - destruct v as [r|rs|bs|b|]; try (cbn in H; discriminate). destruct Hsz as [Hit Hts].
    unfold set_multivector in H. apply bindM_ok in H. destruct H as (s1 & [] & H1 & H2).
    rewrite iterM_lift2 in H1. assert (Hva := f_equal snd H1). assert (Hs := f_equal fst H1). cbn [fst snd] in Hva, Hs.
    subst s1. split; [exact Hva|].
    apply bindM_ok in H2. destruct H2 as (s2 & pts & H3 & H4).
    destruct (write_buckets_inv _ _ _ _ _ _ _ H3) as (bufs & Hb). rewrite Hb. cbn [bind].
    destruct (write_buckets_eq n ts bs s [] 0 bufs Hst Hb) as (st1 & E1 & G1).
    { intros es e ti sd Hes He Hft bb Hbb. eapply pack_element_length; [|eassumption].
      eapply find_type_sized; eauto. }
    rewrite E1 in H3. inversion H3; subst.
    apply bindM_ok in H4. destruct H4 as (s5 & [] & H5 & _).
    destruct (write_index_inv _ _ _ _ _ H5) as (Hnz & idx & Hi & Hf).
    destruct (s_size it =? 0) eqn:Ez; [lia|]. rewrite Hi. cbn [bind]. eauto.
  - split; [reflexivity|]. destruct v; eauto.
  - split; [reflexivity|]. destruct v; eauto.
Qed.

Lemma builder_set_inv a n v s s' : (forall m sig, dict_get (a_resources a) m = Some sig -> sig_sized sig) ->
  builder_set a n v s = (s', Ok tt) ->
  exists sig p ix, dict_get (a_resources a) n = Some sig /\ ~ In n (b_written s) /\ valid_set n sig v p ix.
Proof.
  intros Hsz H. unfold builder_set in H.
  destruct (dict_get (a_resources a) n) as [sig|] eqn:Ea; [|discriminate].
  destruct (existsb (String.eqb n) (b_written s)) eqn:Ew; [discriminate|].
  assert (Hw : ~ In n (b_written s)) by (intros Hc; apply existsb_eqb_in in Hc; congruence).
  specialize (Hsz n sig Ea). exists sig.
  destruct (begin_eq n sig s) as (st1 & E1 & G1).
  change (n ++ ".schema")%string with (schema_file n) in H.
  apply bindM_ok in H. destruct H as (s1 & [] & H1 & H). unfold bindM in E1. rewrite H1 in E1.
  apply bindM_ok in H. destruct H as (s2 & [] & H2 & H). rewrite E1 in H2. inversion H2; subst s2. clear H2.
  apply bindM_ok in H. destruct H as (s3 & [] & H3 & H).
  assert (Hst : dict_get (b_store (BState st1 (b_written s) (b_ops s ++ begin_ops n sig))) n = Some (RObj [] true))
    by (cbn [b_store]; rewrite G1, String.eqb_refl; reflexivity).
  destruct (dispatch_inv n sig v _ s3 Hsz Hst H3) as (Hv & p & ix & Hp & Hix).
  exists p, ix. split; [reflexivity|]. split; [assumption|]. split; [assumption|]. split; [assumption|]. split; [|assumption].
  destruct (dispatch_ok n sig v _ p ix Hsz Hst Hv Hp Hix) as (st2 & E2 & G2).
  rewrite E2 in H3. inversion H3; subst s3.
  apply bindM_ok in H. destruct H as (s4 & [] & H4 & _).
  erewrite st_add_size_eq in H4 by (cbn [b_store]; rewrite G2, String.eqb_refl; reflexivity).
  cbn [o_data] in H4. destruct (fits64 p); [reflexivity|discriminate].
Qed.

(** ** Footprints: what a call can touch at most. *)
Definition op_file (o : fsop) : string := match o with OOpen n => n | OWrite n _ => n end.

Definition footprint {A} (F : string -> Prop) (m : M A) : Prop :=
  forall s, let s' := fst (m s) in
    (exists ops, b_ops s' = b_ops s ++ ops /\ Forall (fun o => F (op_file o)) ops) /\
    (exists w, b_written s' = b_written s ++ w /\ Forall F w) /\
    (forall k, ~ F k -> dict_get (b_store s') k = dict_get (b_store s) k).

Lemma fp_bind {A B} F (m : M A) (f : A -> M B) : footprint F m -> (forall a, footprint F (f a)) -> footprint F (bindM m f).
Proof.
  intros Hm Hf s. unfold bindM. specialize (Hm s). destruct (m s) as [s1 [a|e]]; cbn [fst] in *.
  - destruct Hm as ((o1 & Ho1 & Fo1) & (w1 & Hw1 & Fw1) & Hk1).
    specialize (Hf a s1). cbv zeta in Hf. destruct Hf as ((o2 & Ho2 & Fo2) & (w2 & Hw2 & Fw2) & Hk2).
    split; [exists (o1 ++ o2); rewrite Ho2, Ho1, app_assoc; split; [reflexivity|now apply Forall_app]|].
    split; [exists (w1 ++ w2); rewrite Hw2, Hw1, app_assoc; split; [reflexivity|now apply Forall_app]|].
    intros k Hk. rewrite Hk2, Hk1 by assumption. reflexivity.
  - exact Hm.
Qed.

Lemma fp_nop {A} F (m : M A) : (forall s, fst (m s) = s) -> footprint F m.
Proof.
  intros H s. cbv zeta. rewrite H. split; [exists []; rewrite app_nil_r; auto|]. split; [exists []; rewrite app_nil_r; auto|auto].
Qed.
Lemma fp_ret {A} F (x : A) : footprint F (retM x). Proof. apply fp_nop. reflexivity. Qed.
Lemma fp_lift {A} F (r : res A) : footprint F (liftM r). Proof. apply fp_nop. reflexivity. Qed.
Lemma fp_get_obj F n : footprint F (get_obj n).
Proof. apply fp_nop. intros s. unfold get_obj. destruct (dict_get _ _); reflexivity. Qed.
Lemma fp_emit (F : string -> Prop) o : F (op_file o) -> footprint F (emit o).
Proof.
  intros H s. cbn. split; [exists [o]; auto|]. split; [exists []; rewrite app_nil_r; auto|auto].
Qed.
Lemma fp_put (F : string -> Prop) n r : F n -> footprint F (put_obj n r).
Proof.
  intros H s. cbn. split; [exists []; rewrite app_nil_r; auto|]. split; [exists []; rewrite app_nil_r; auto|].
  intros k Hk. rewrite store_get_put. destruct (String.eqb n k) eqn:E; [|reflexivity].
  apply String.eqb_eq in E. subst. contradiction.
Qed.
Lemma fp_written (F : string -> Prop) n : F n -> footprint F (add_written n).
Proof.
  intros H s. cbn. split; [exists []; rewrite app_nil_r; auto|]. split; [exists [n]; auto|auto].
Qed.
Lemma fp_iter {A} F (f : A -> M unit) l : (forall x, footprint F (f x)) -> footprint F (iterM f l).
Proof. intros H. induction l as [|x t IH]; cbn [iterM]; [apply fp_ret|]. apply fp_bind; auto. Qed.

Lemma fp_st_get (F : string -> Prop) n : F n -> footprint F (st_get n).
Proof. intros H. apply fp_bind; [now apply fp_emit|intros _; now apply fp_put]. Qed.
Lemma fp_st_write (F : string -> Prop) n x : F n -> footprint F (st_write n x).
Proof. intros H. apply fp_bind; [apply fp_get_obj|intros r; now apply fp_put]. Qed.
Lemma fp_add_size (F : string -> Prop) n : F n -> footprint F (st_add_size n).
Proof. intros H. apply fp_bind; [apply fp_get_obj|intros r]. apply fp_bind; [apply fp_lift|intros h; now apply fp_put]. Qed.
Lemma fp_add_padding (F : string -> Prop) n : F n -> footprint F (st_add_padding n).
Proof. intros H. apply fp_bind; [apply fp_get_obj|intros r; now apply fp_put]. Qed.
Lemma fp_close (F : string -> Prop) n : F n -> footprint F (st_close n).
Proof.
  intros H. apply fp_bind; [apply fp_get_obj|intros r]. apply fp_bind; [|intros _; now apply fp_put].
  destruct (o_data r); [apply fp_ret|now apply fp_emit].
Qed.
Lemma fp_raw (F : string -> Prop) n x : F n -> footprint F (write_raw_data n x).
Proof. intros H. apply fp_bind; [now apply fp_st_get|intros _]. apply fp_bind; [now apply fp_st_write|intros _; now apply fp_close]. Qed.

Lemma fp_bucket (F : string -> Prop) n types es : F n -> forall point, footprint F (write_bucket n types point es).
Proof.
  intros H. induction es as [|e t IH]; intros point; cbn [write_bucket]; [apply fp_ret|].
  destruct (find_type 0 types (fst e)) as [[ti sd]|]; [|apply fp_lift].
  apply fp_bind; [apply fp_lift|intros b]. apply fp_bind; [now apply fp_st_write|auto].
Qed.
Lemma fp_buckets (F : string -> Prop) n types bs : F n -> forall point, footprint F (write_buckets n types point bs).
Proof.
  intros H. induction bs as [|es t IH]; intros point; cbn [write_buckets]; [apply fp_ret|].
  apply fp_bind; [now apply fp_bucket|intros p]. apply fp_bind; [auto|intros r; apply fp_ret].
Qed.

Lemma fp_dispatch n sig v : footprint (fun k => In k (files_of n sig)) (set_dispatch n sig v).
Proof.
  unfold set_dispatch, files_of. destruct (r_container sig) as [sd|sd|it ts| |sub]; destruct v as [r|rs|bs|b|];
    try apply fp_lift; try apply fp_ret.
  - apply fp_bind; [apply fp_lift|intros _]. apply fp_bind; [apply fp_lift|intros b]. apply fp_st_write. now left.
  - apply fp_bind; [apply fp_iter; intros x; apply fp_lift|intros _].
    apply fp_iter. intros x. apply fp_bind; [apply fp_lift|intros b]. apply fp_st_write. now left.
  - apply fp_bind; [apply fp_iter; intros x; apply fp_iter; intros y; apply fp_lift|intros _].
    apply fp_bind; [apply fp_buckets; now left|intros pts].
    apply fp_bind.
    { unfold write_index. destruct (s_size it =? 0); [apply fp_lift|].
      apply fp_bind; [apply fp_st_get; cbn; auto|intros _].
      apply fp_bind; [apply fp_iter; intros p; apply fp_bind; [apply fp_lift|intros b; apply fp_st_write; cbn; auto]|intros _].
      apply fp_bind; [apply fp_add_size; cbn; auto|intros _].
      apply fp_bind; [apply fp_add_padding; cbn; auto|intros _]. apply fp_close; cbn; auto. }
    intros _. apply fp_bind; [apply fp_raw; cbn; auto|intros _].
    apply fp_bind; [apply fp_written; cbn; auto|intros _]. apply fp_written; cbn; auto.
  - apply fp_st_write. now left.
Qed.

Lemma files_of_self n sig : In n (files_of n sig) /\ In (schema_file n) (files_of n sig).
Proof. unfold files_of. destruct (r_container sig); cbn; auto. Qed.

Lemma builder_set_footprint a n v sig : dict_get (a_resources a) n = Some sig ->
  footprint (fun k => In k (files_of n sig)) (builder_set a n v).
Proof.
  intros Ha s. unfold builder_set. rewrite Ha. destruct (existsb _ _).
  - exact (fp_ret (fun k => In k (files_of n sig)) tt s).
  - destruct (files_of_self n sig) as [F1 F2].
    match goal with |- context [fst (?m s)] =>
      assert (HF : footprint (fun k => In k (files_of n sig)) m); [|exact (HF s)] end.
    apply fp_bind; [now apply fp_raw|intros _].
    apply fp_bind; [now apply fp_st_get|intros _].
    apply fp_bind; [apply fp_dispatch|intros _].
    apply fp_bind; [now apply fp_add_size|intros _].
    apply fp_bind; [now apply fp_add_padding|intros _].
    apply fp_bind; [now apply fp_close|intros _]. now apply fp_written.
Qed.
