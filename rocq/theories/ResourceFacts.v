(** Proofs about opened resources. *)
From Coq Require Import List ZArith Bool String Lia.
From Coq Require Import ZifyBool ZifyNat.
From Verif Require Import PyBase Spec DataAccess BitFacts DataAccessFacts DataAccessThms Structure StructSpec StructFacts
  Resources Builder Archive ArchiveSpec BuilderFacts.
Import ListNotations.
Local Open Scope string_scope.
Local Open Scope list_scope.
Local Open Scope Z_scope.
Ltac Zify.zify_post_hook ::= Z.div_mod_to_equations.

(** ** framing *)
Lemma zlen_zeros_nat n : zlen (zeros n) = Z.of_nat n.
Proof. unfold zeros. apply zlen_repeat. Qed.

Lemma zlen_to_le n v : zlen (to_le n v) = Z.of_nat n.
Proof. unfold zlen. now rewrite to_le_length. Qed.

Lemma framed_len p : zlen (framed p) = zlen p + 16.
Proof. unfold framed. rewrite !zlen_app, zlen_to_le, zlen_zeros_nat. lia. Qed.

Lemma framed_bytes p : is_bytes p -> is_bytes (framed p).
Proof. intros H. unfold framed. rewrite !is_bytes_app. auto using to_le_bytes, is_bytes_zeros. Qed.

Lemma uint_at_prefix l rest n : is_bytes l -> is_bytes rest -> zlen l = Z.of_nat n ->
  uint_at (l ++ rest) 0 (8 * n) = le l.
Proof.
  intros Hl Hr Hn. rewrite (uint_at_ext _ l).
  - rewrite uint_at_le by (try assumption; lia). rewrite Z.pow_0_r, Z.div_1_r.
    apply Z.mod_small. pose proof (le_bound l Hl) as Hb. rewrite Hn in Hb.
    replace (Z.of_nat (8 * n)) with (8 * Z.of_nat n) by lia. exact Hb.
  - intros i Hi. apply bit_at_app_l. lia.
Qed.

Lemma header_read p : is_bytes p -> fits64 p = true -> read_value (framed p) 0 64 false = Ok (zlen p).
Proof.
  intros Hp Hf. unfold fits64 in Hf. apply Z.ltb_lt in Hf. pose proof (zlen_nonneg p) as Hp0.
  rewrite read_value_exact.
  - f_equal. unfold field_value, framed. change (Z.to_nat 64) with (8 * 8)%nat.
    rewrite uint_at_prefix.
    + rewrite le_to_le. apply Z.mod_small. change (8 * Z.of_nat 8) with 64. lia.
    + apply to_le_bytes.
    + apply is_bytes_app. auto using is_bytes_zeros.
    + now rewrite zlen_to_le.
  - now apply framed_bytes.
  - unfold in_bounds. rewrite framed_len. lia.
  - lia.
  - reflexivity.
Qed.

Lemma check_base_framed p : check_base (framed p) = Ok tt.
Proof.
  unfold check_base. rewrite framed_len. pose proof (zlen_nonneg p).
  change (SIZE_OFFSET_IN_BYTES + SIZE_PADDING_IN_BYTES) with 16. destruct (zlen p + 16 <? 16) eqn:E; [lia|reflexivity].
Qed.

(** ** concatenations of equal-size chunks *)
Lemma zlen_concat_const {A} (bs : list (list A)) sz : Forall (fun b => zlen b = sz) bs ->
  zlen (List.concat bs) = sz * zlen bs.
Proof.
  induction 1 as [|b t Hb _ IH]; cbn [List.concat]; [unfold zlen; cbn [List.length]; lia|].
  rewrite zlen_app, zlen_cons, IH, Hb. lia.
Qed.

Lemma is_bytes_concat bs : Forall is_bytes bs -> is_bytes (List.concat bs).
Proof. induction 1; cbn [List.concat]; [constructor|]. apply is_bytes_app; auto. Qed.

Lemma concat_split {A} (bs : list (list A)) i d : (i < List.length bs)%nat ->
  List.concat bs = List.concat (firstn i bs) ++ nth i bs d ++ List.concat (skipn (S i) bs).
Proof.
  revert i. induction bs as [|b t IH]; intros i Hi; cbn [List.length] in Hi; [lia|].
  destruct i as [|i]; cbn [firstn skipn nth List.concat]; [reflexivity|].
  rewrite (IH i) at 1 by lia. now rewrite app_assoc.
Qed.

Lemma Forall_firstn {A} (P : A -> Prop) n l : Forall P l -> Forall P (firstn n l).
Proof. intros H. revert n. induction H; intros [|n]; cbn; auto. Qed.
Lemma Forall_skipn {A} (P : A -> Prop) n l : Forall P l -> Forall P (skipn n l).
Proof. intros H. revert n. induction H as [|x l Hx Hl IH]; intros [|n]; cbn; auto. Qed.

Lemma zlen_firstn {A} n (l : list A) : (n <= List.length l)%nat -> zlen (firstn n l) = Z.of_nat n.
Proof. intros H. unfold zlen. rewrite firstn_length. lia. Qed.

(** ** vector *)
Lemma vector_open_framed sd p : is_bytes p -> fits64 p = true -> s_size sd <> 0 ->
  vector_open (framed p) sd =
    if zlen p mod s_size sd =? 0 then Ok (Vector (framed p) sd (zlen p / s_size sd)) else Err AssertionError.
Proof.
  intros Hp Hf Hs. unfold vector_open. rewrite check_base_framed. cbn [bind].
  unfold SIZE_OFFSET_IN_BITS. rewrite header_read by assumption. cbn [bind].
  unfold py_divmod. destruct (s_size sd =? 0) eqn:E; [lia|]. cbn [bind]. reflexivity.
Qed.

Lemma vector_open_concat sd bs : Forall is_bytes bs -> Forall (fun b => zlen b = s_size sd) bs ->
  fits64 (List.concat bs) = true -> 0 < s_size sd ->
  vector_open (framed (List.concat bs)) sd = Ok (Vector (framed (List.concat bs)) sd (zlen bs)).
Proof.
  intros Hb Hl Hf Hs. rewrite vector_open_framed by (auto using is_bytes_concat; lia).
  rewrite (zlen_concat_const bs (s_size sd)) by assumption.
  rewrite Z.mul_comm, Z.mod_mul by lia. cbn [Z.eqb]. rewrite Z.div_mul by lia. reflexivity.
Qed.

(** The i-th chunk of a framed concatenation. *)
Lemma framed_chunk sz bs i : Forall (fun b => zlen b = sz) bs -> (i < List.length bs)%nat ->
  exists pre post, framed (List.concat bs) = pre ++ nth i bs [] ++ post /\ zlen pre = 8 + sz * Z.of_nat i /\
    (Forall is_bytes bs -> is_bytes pre /\ is_bytes post).
Proof.
  intros Hl Hi.
  exists (to_le 8 (zlen (List.concat bs)) ++ List.concat (firstn i bs)), (List.concat (skipn (S i) bs) ++ zeros 8).
  split; [|split].
  - unfold framed. rewrite (concat_split bs i []) at 2 by assumption. now rewrite <- !app_assoc.
  - rewrite zlen_app, zlen_to_le. rewrite (zlen_concat_const _ sz) by (now apply Forall_firstn).
    rewrite zlen_firstn by lia. lia.
  - intros Hb. split; apply is_bytes_app; split; auto using to_le_bytes, is_bytes_zeros;
      apply is_bytes_concat; auto using Forall_firstn, Forall_skipn.
Qed.

Lemma map_nth_seq {A} (l : list A) d : map (fun k => nth k l d) (seq 0 (List.length l)) = l.
Proof.
  induction l as [|x t IH]; [reflexivity|]. cbn [List.length seq map nth]. f_equal.
  rewrite <- seq_shift, map_map. exact IH.
Qed.

(** The list of packed records of a list of valid records. *)
Lemma pack_records_ok sd rs valss : sdef_ok sd -> Forall2 (fun r vals => record_values r sd vals) rs valss ->
  exists bs, mapM (pack_record sd) rs = Ok bs /\ Forall is_bytes bs /\ Forall (fun b => zlen b = s_size sd) bs /\
    List.length bs = List.length rs /\
    Forall2 (fun b vals => forall pre post, is_bytes pre -> is_bytes post ->
      as_list (SView sd (pre ++ b ++ post) (zlen pre)) = Ok vals) bs valss.
Proof.
  intros Hsd H. induction H as [|r vals rs valss Hr _ IH].
  - exists []. cbn. repeat split; constructor.
  - destruct IH as (bs & Hm & Hb & Hl & Hlen & Hv).
    destruct (pack_record_ok sd r vals Hsd Hr) as (b & He & Hz & Hby & _ & Hread).
    exists (b :: bs). cbn [mapM]. rewrite He. cbn [bind]. rewrite Hm. cbn [bind].
    repeat split; auto; [cbn; lia|]. constructor; [|assumption].
    intros pre post Hpre Hpost. apply as_list_ok. now apply Hread.
Qed.

Lemma Forall2_nth {A B} (R : A -> B -> Prop) l r da db i : Forall2 R l r -> (i < List.length l)%nat ->
  R (nth i l da) (nth i r db).
Proof.
  intros H. revert i. induction H as [|a b l r Hab _ IH]; intros i Hi; cbn [List.length] in Hi; [lia|].
  destruct i as [|i]; cbn [nth]; [assumption|]. apply IH. lia.
Qed.

Lemma Forall2_len {A B} (R : A -> B -> Prop) l r : Forall2 R l r -> List.length l = List.length r.
Proof. induction 1; cbn; lia. Qed.

Lemma vector_elements sd bs valss : Forall is_bytes bs -> Forall (fun b => zlen b = s_size sd) bs ->
  Forall2 (fun b vals => forall pre post, is_bytes pre -> is_bytes post ->
      as_list (SView sd (pre ++ b ++ post) (zlen pre)) = Ok vals) bs valss ->
  forall i, (i < List.length bs)%nat ->
    as_list (get_item (framed (List.concat bs)) sd (Z.of_nat i)) = Ok (nth i valss []).
Proof.
  intros Hb Hl Hv i Hi. destruct (framed_chunk (s_size sd) bs i Hl Hi) as (pre & post & E & Hz & Hbb).
  destruct (Hbb Hb) as [B1 B2].
  unfold get_item, item_offset. change SIZE_OFFSET_IN_BYTES with 8. rewrite <- Hz. rewrite E.
  exact (Forall2_nth _ _ _ [] [] i Hv Hi pre post B1 B2).
Qed.

Lemma vector_get_spec v i : 0 <= vector_len v ->
  vector_get v i = if (- vector_len v <=? i) && (i <? vector_len v)
                   then Ok (get_item (vec_mem v) (vec_def v) (if i <? 0 then i + vector_len v else i))
                   else Err IndexError.
Proof.
  intros Hl. unfold vector_get, vector_len in *.
  destruct (i <? 0) eqn:E.
  - destruct (- vec_size v <=? i) eqn:E2; cbn [andb].
    + replace (i <? vec_size v) with true by lia.
      replace (vec_size v <=? i + vec_size v) with false by lia. replace (i + vec_size v <? 0) with false by lia. reflexivity.
    + replace (i + vec_size v <? 0) with true by lia. now rewrite orb_true_r.
  - replace (- vec_size v <=? i) with true by lia. cbn [andb].
    destruct (i <? vec_size v) eqn:E2.
    + replace (vec_size v <=? i) with false by lia. rewrite E. reflexivity.
    + replace (vec_size v <=? i) with true by lia. reflexivity.
Qed.

Lemma vector_iter_values sd bs valss : Forall is_bytes bs -> Forall (fun b => zlen b = s_size sd) bs ->
  Forall2 (fun b vals => forall pre post, is_bytes pre -> is_bytes post ->
      as_list (SView sd (pre ++ b ++ post) (zlen pre)) = Ok vals) bs valss ->
  mapM as_list (vector_iter (Vector (framed (List.concat bs)) sd (zlen bs))) = Ok valss.
Proof.
  intros Hb Hl Hv. unfold vector_iter, vector_len. cbn [vec_mem vec_def vec_size].
  replace (Z.to_nat (zlen bs)) with (List.length bs) by (unfold zlen; lia).
  pose proof (Forall2_len _ _ _ Hv) as Hlen.
  rewrite <- (map_nth_seq valss []). rewrite <- Hlen.
  assert (Hin : forall k, In k (seq 0 (List.length bs)) -> (k < List.length bs)%nat) by (intros k Hk; apply in_seq in Hk; lia).
  revert Hin. generalize (seq 0 (List.length bs)) as ks. induction ks as [|k t IH]; intros Hin; cbn [map mapM]; [reflexivity|].
  rewrite (vector_elements sd bs valss Hb Hl Hv k) by (apply Hin; now left). cbn [bind].
  rewrite IH by (intros k' Hk'; apply Hin; now right). reflexivity.
Qed.

(** ** what the files contain after a set *)
Lemma apply_ops_app d o1 o2 : apply_ops d (o1 ++ o2) = apply_ops (apply_ops d o1) o2.
Proof. unfold apply_ops. apply fold_left_app. Qed.

Lemma apply_op_get d o f : dict_get (apply_op d o) f =
  if String.eqb (op_file o) f then Some (match o with OOpen _ => [] | OWrite n x => fs_content d n ++ x end)
  else dict_get d f.
Proof. destruct o; cbn [apply_op op_file]; apply fs_get_put. Qed.

Lemma apply_ops_other f ops : forall d, Forall (fun o => op_file o <> f) ops -> dict_get (apply_ops d ops) f = dict_get d f.
Proof.
  induction ops as [|o t IH]; intros d H; [reflexivity|]. inversion H; subst. cbn [apply_ops fold_left].
  change (fold_left apply_op t (apply_op d o)) with (apply_ops (apply_op d o) t). rewrite IH by assumption.
  rewrite apply_op_get. destruct (String.eqb (op_file o) f) eqn:E; [apply String.eqb_eq in E; contradiction|reflexivity].
Qed.

Lemma open_write_get d n x f :
  dict_get (apply_ops d (OOpen n :: wr n x)) f = if String.eqb n f then Some x else dict_get d f.
Proof.
  destruct x as [|b t]; cbn [wr apply_ops fold_left]; rewrite ?apply_op_get; cbn [op_file].
  - reflexivity.
  - destruct (String.eqb n f) eqn:E; [|reflexivity]. unfold fs_content. rewrite apply_op_get. cbn [op_file].
    now rewrite String.eqb_refl.
Qed.

Lemma schema_index_neq n : String.eqb (schema_file n) (index_name n) = false.
Proof. apply eqb_len. unfold schema_file, index_name. rewrite !append_length. cbn. lia. Qed.
Lemma schema_ixschema_neq n : String.eqb (schema_file n) (schema_file (index_name n)) = false.
Proof. apply eqb_len. unfold schema_file, index_name. rewrite !append_length. cbn. lia. Qed.

Lemma framed_ne p : framed p <> [].
Proof. intros H. assert (L := framed_len p). rewrite H, zlen_nil in L. pose proof (zlen_nonneg p). lia. Qed.

Lemma set_ops_get d n sig p ix f :
  dict_get (apply_ops d (set_ops n sig p ix)) f =
    match dict_get (set_files n sig p ix) f with Some c => Some c | None => dict_get d f end.
Proof.
  unfold set_ops, begin_ops, set_files.
  replace ((OOpen (schema_file n) :: wr (schema_file n) (r_schema sig) ++ [OOpen n]) ++ index_ops n sig ix ++ [OWrite n (framed p)])
    with ((OOpen (schema_file n) :: wr (schema_file n) (r_schema sig)) ++ [OOpen n] ++ index_ops n sig ix ++ [OWrite n (framed p)])
    by (cbn [app]; rewrite <- ?app_assoc; reflexivity).
  rewrite apply_ops_app. set (d1 := apply_ops d _).
  assert (G1 : forall g, dict_get d1 g = if String.eqb (schema_file n) g then Some (r_schema sig) else dict_get d g)
    by (intros g; apply open_write_get).
  clearbody d1.
  rewrite apply_ops_app. set (d2 := apply_ops d1 [OOpen n]).
  assert (G2 : forall g, dict_get d2 g = if String.eqb n g then Some [] else dict_get d1 g)
    by (intros g; exact (open_write_get d1 n [] g)).
  clearbody d2. rewrite apply_ops_app. set (d3 := apply_ops d2 (index_ops n sig ix)).
  assert (G3 : forall g, dict_get d3 g =
     match ix with None => dict_get d2 g
     | Some i => if String.eqb (schema_file (index_name n)) g then Some (index_schema (r_schema sig))
                 else if String.eqb (index_name n) g then Some (framed i) else dict_get d2 g end).
  { intros g. unfold d3. destruct ix as [i|]; cbn [index_ops]; [|reflexivity].
    change [OOpen (index_name n); OWrite (index_name n) (framed i); OOpen (schema_file (index_name n));
       OWrite (schema_file (index_name n)) (index_schema (r_schema sig))]
     with ((OOpen (index_name n) :: wr (index_name n) (framed i)) ++
           (OOpen (schema_file (index_name n)) :: wr (schema_file (index_name n)) (index_schema (r_schema sig)))).
    rewrite apply_ops_app, open_write_get. destruct (String.eqb (schema_file (index_name n)) g); [reflexivity|].
    apply open_write_get. }
  clearbody d3. cbn [apply_ops fold_left]. rewrite apply_op_get. cbn [op_file].
  assert (C : fs_content d3 n = []).
  { unfold fs_content. rewrite G3. destruct ix as [i|].
    - rewrite ixschema_neq, index_neq', G2, String.eqb_refl. reflexivity.
    - rewrite G2, String.eqb_refl. reflexivity. }
  rewrite C. cbn [app dict_get]. rewrite (G3 f), (G2 f), (G1 f).
  destruct (String.eqb n f) eqn:En.
  - apply String.eqb_eq in En. subst f. rewrite schema_neq. reflexivity.
  - destruct (String.eqb (schema_file n) f) eqn:Es.
    + apply String.eqb_eq in Es. subst f. destruct ix as [i|]; [|reflexivity].
      rewrite (String.eqb_sym (schema_file (index_name n))), schema_ixschema_neq.
      rewrite (String.eqb_sym (index_name n)), schema_index_neq. reflexivity.
    + destruct ix as [i|]; cbn [dict_get]; [|reflexivity].
      destruct (String.eqb (schema_file (index_name n)) f) eqn:E1; destruct (String.eqb (index_name n) f) eqn:E2; try reflexivity.
      apply String.eqb_eq in E2. subst f. rewrite ixschema_index in E1. discriminate.
Qed.

Lemma set_files_after a n sig v s p ix : dict_get (a_resources a) n = Some sig -> ~ In n (b_written s) ->
  sig_sized sig -> valid_set n sig v p ix ->
  exists s', builder_set a n v s = (s', Ok tt) /\
    forall d0 f, dict_get (files_after d0 s') f =
      match dict_get (set_files n sig p ix) f with Some c => Some c | None => dict_get (files_after d0 s) f end.
Proof.
  intros Ha Hw Hsz Hv. destruct (builder_set_ok a n sig v s p ix Ha Hw Hsz Hv) as (st' & E & _).
  eexists. split; [exact E|]. intros d0 f. unfold files_after. cbn [b_ops]. rewrite apply_ops_app. apply set_ops_get.
Qed.

(** Valid vectors and instances. *)
Lemma valid_vector n sd schema opt rs valss : sdef_ok sd ->
  Forall2 (fun r vals => record_values r sd vals) rs valss -> s_size sd * zlen rs < 2 ^ 64 ->
  exists bs, valid_set n (RSig (CVector sd) schema opt) (SRecords rs) (List.concat bs) None /\
    Forall is_bytes bs /\ Forall (fun b => zlen b = s_size sd) bs /\ List.length bs = List.length rs /\
    Forall2 (fun b vals => forall pre post, is_bytes pre -> is_bytes post ->
      as_list (SView sd (pre ++ b ++ post) (zlen pre)) = Ok vals) bs valss.
Proof.
  intros Hsd H Hlen. destruct (pack_records_ok sd rs valss Hsd H) as (bs & Hm & Hb & Hl & Hn & Hv).
  exists bs. split; [|auto]. unfold valid_set, validate_value, payload_of. cbn [r_container].
  split; [|split; [|split; [|reflexivity]]].
  - assert (E : mapM (fun r => validate_fields n r sd) rs = Ok (map (fun _ => tt) rs)).
    { apply mapM_all_ok. intros r Hr. clear - Hsd H Hr. induction H as [|r0 v0 rs vs H0 _ IH]; [destruct Hr|].
      destruct Hr as [->|Hr]; [eapply validate_ok; eauto|auto]. }
    now rewrite E.
  - now rewrite Hm.
  - unfold fits64. rewrite (zlen_concat_const bs (s_size sd)) by assumption.
    replace (zlen bs) with (zlen rs) by (unfold zlen; lia). now apply Z.ltb_lt.
Qed.

Lemma sdef_ok_size sd : sdef_ok sd -> 0 <= s_size sd.
Proof. intros (H & _). exact H. Qed.

Lemma set_files_self n sig p ix : dict_get (set_files n sig p ix) n = Some (framed p).
Proof. unfold set_files. cbn [dict_get]. now rewrite schema_neq, String.eqb_refl. Qed.
