(** Slicing: [slice.indices] + [range] select exactly what [list_slice] describes. *)
From Coq Require Import List ZArith Bool String Lia.
From Coq Require Import ZifyBool ZifyNat.
From Verif Require Import PyBase Spec DataAccess BitFacts Structure StructFacts Resources SliceSpec
  Builder Archive ArchiveSpec BuilderFacts ResourceFacts.
Import ListNotations.
Local Open Scope Z_scope.
Ltac Zify.zify_post_hook ::= Z.div_mod_to_equations.

Lemma every_aux_skip {A} k : forall j (l : list A), every_aux k j l = every_aux k 0 (skipn j l).
Proof.
  intros j l. revert j. induction l as [|x t IH]; intros j; [destruct j; reflexivity|].
  destruct j as [|j]; [reflexivity|]. cbn [every_aux skipn]. apply IH.
Qed.

Lemma every_cons {A} k (x : A) t : (0 < k)%nat -> every k (x :: t) = x :: every k (skipn k (x :: t)).
Proof.
  intros Hk. unfold every. cbn [every_aux]. f_equal. rewrite every_aux_skip.
  destruct k as [|k]; [lia|]. cbn [skipn]. now rewrite Nat.sub_succ, Nat.sub_0_r.
Qed.

Lemma nth_skipn {A} (l : list A) d : forall n i, nth i (skipn n l) d = nth (n + i) l d.
Proof. induction l as [|x t IH]; intros [|n] i; cbn [skipn Nat.add nth]; auto; destruct i; auto. Qed.

Lemma nth_firstn {A} (l : list A) d : forall n i, (i < n)%nat -> nth i (firstn n l) d = nth i l d.
Proof. induction l as [|x t IH]; intros [|n] [|i] H; cbn; auto; try lia. apply IH. lia. Qed.

Lemma every_nth {A} (d : A) k : (0 < k)%nat -> forall n l,
  n = Nat.div (List.length l + k - 1) k -> every k l = map (fun i => nth (i * k) l d) (seq 0 n).
Proof.
  intros Hk. induction n as [|n IH]; intros l Hn.
  - destruct l as [|x t]; [reflexivity|]. exfalso. cbn [List.length] in Hn.
    assert (1 <= Nat.div (S (List.length t) + k - 1) k)%nat; [|lia].
    apply Nat.div_le_lower_bound; lia.
  - destruct l as [|x t].
    + exfalso. cbn [List.length] in Hn. rewrite Nat.div_small in Hn by lia. discriminate.
    + rewrite every_cons by assumption. cbn [seq map Nat.mul nth]. f_equal.
      rewrite <- seq_shift, map_map. rewrite (IH (skipn k (x :: t))).
      * apply map_ext. intros i. rewrite nth_skipn. reflexivity.
      * rewrite skipn_length. cbn [List.length] in *.
        destruct (Nat.le_gt_cases k (S (List.length t))) as [Hle|Hgt].
        -- replace (S (List.length t) + k - 1)%nat with ((S (List.length t) - k + k - 1) + 1 * k)%nat in Hn by lia.
           rewrite Nat.div_add in Hn by lia. lia.
        -- replace (S (List.length t) - k)%nat with 0%nat by lia. rewrite Nat.add_0_l.
           rewrite (Nat.div_small (k - 1) k) by lia.
           assert (Nat.div (S (List.length t) + k - 1) k <= 1)%nat; [|lia].
           apply Nat.lt_succ_r. apply Nat.div_lt_upper_bound; lia.
Qed.

(** Ranges over a list. *)
Lemma ceil_nat x c : 0 < c -> Z.to_nat ((x + c - 1) / c) = Nat.div (Z.to_nat x + Z.to_nat c - 1) (Z.to_nat c).
Proof.
  intros Hc. destruct (Z.le_gt_cases 0 x) as [Hx|Hx].
  - apply Nat2Z.inj. rewrite Nat2Z.inj_div.
    assert (0 <= (x + c - 1) / c) by (apply Z.div_pos; lia). rewrite Z2Nat.id by assumption. f_equal; lia.
  - replace (Z.to_nat x) with 0%nat by lia. rewrite (Nat.div_small (0 + Z.to_nat c - 1)) by lia.
    assert ((x + c - 1) / c < 1) by (apply Z.div_lt_upper_bound; lia). lia.
Qed.

Lemma lt_ceil k x c : 0 < c -> Z.of_nat k < (x + c - 1) / c -> Z.of_nat k * c < x.
Proof.
  intros Hc H. pose proof (Z.mul_div_le (x + c - 1) c Hc). nia.
Qed.

Lemma range_pos {A} (d : A) l a b c : 0 < c -> 0 <= a -> b <= zlen l ->
  map (fun i => nth (Z.to_nat i) l d) (py_range a b c)
  = every (Z.to_nat c) (firstn (Z.to_nat (b - a)) (skipn (Z.to_nat a) l)).
Proof.
  intros Hc Ha Hb. unfold py_range. replace (0 <? c) with true by lia. cbv zeta. rewrite map_map.
  set (L := firstn (Z.to_nat (b - a)) (skipn (Z.to_nat a) l)).
  assert (HL : List.length L = Z.to_nat (b - a)).
  { unfold L. rewrite firstn_length, skipn_length. unfold zlen in Hb. lia. }
  rewrite (every_nth d (Z.to_nat c) ltac:(lia) (Z.to_nat ((b - a + c - 1) / c)) L).
  - apply map_ext_in. intros k Hk. apply in_seq in Hk. unfold L.
    pose proof (lt_ceil k (b - a) c Hc ltac:(lia)) as Hlt.
    assert (E : (k * Z.to_nat c)%nat = Z.to_nat (Z.of_nat k * c)) by nia.
    rewrite E. rewrite nth_firstn by lia. rewrite nth_skipn. f_equal. nia.
  - rewrite HL. now apply ceil_nat.
Qed.

Lemma range_neg {A} (d : A) l a b c : c < 0 -> -1 <= b -> a < zlen l ->
  map (fun i => nth (Z.to_nat i) l d) (py_range a b c)
  = every (Z.to_nat (- c)) (rev (firstn (Z.to_nat (a - b)) (skipn (Z.to_nat (b + 1)) l))).
Proof.
  intros Hc Hb Ha. unfold py_range. replace (0 <? c) with false by lia. cbv zeta. rewrite map_map.
  set (F := firstn (Z.to_nat (a - b)) (skipn (Z.to_nat (b + 1)) l)).
  assert (HF : List.length F = Z.to_nat (a - b)).
  { unfold F. rewrite firstn_length, skipn_length. unfold zlen in Ha. lia. }
  rewrite (every_nth d (Z.to_nat (- c)) ltac:(lia) (Z.to_nat ((a - b + - c - 1) / - c)) (rev F)).
  - apply map_ext_in. intros k Hk. apply in_seq in Hk.
    pose proof (lt_ceil k (a - b) (- c) ltac:(lia) ltac:(lia)) as Hlt.
    assert (E : (k * Z.to_nat (- c))%nat = Z.to_nat (Z.of_nat k * - c)) by nia.
    assert (Hkc : 0 <= Z.of_nat k * - c) by nia.
    rewrite E. rewrite rev_nth by lia. rewrite HF. unfold F. rewrite nth_firstn by lia.
    rewrite nth_skipn. f_equal. lia.
  - rewrite rev_length, HF. apply ceil_nat. lia.
Qed.

(** Every index produced by [slice.indices] is a valid non-negative index. *)
Lemma slice_indices_spec s len : 0 <= len ->
  let step := match sl_step s with None => 1 | Some k => k end in
  slice_indices s len =
    if step =? 0 then Err ValueError
    else if 0 <? step then Ok (bound len (sl_start s) 0 0 len, bound len (sl_stop s) len 0 len, step)
    else Ok (bound len (sl_start s) (len - 1) (-1) (len - 1), bound len (sl_stop s) (-1) (-1) (len - 1), step).
Proof.
  intros Hl. cbv zeta. unfold slice_indices. cbv zeta.
  set (step := match sl_step s with Some k => k | None => 1 end).
  destruct (step =? 0) eqn:E0; [reflexivity|].
  assert (B : forall lo hi x, lo <= hi ->
     (if (if x <? 0 then x + len else x) <? lo then lo
      else if hi <? (if x <? 0 then x + len else x) then hi else (if x <? 0 then x + len else x))
     = clamp lo hi (from_end len x)).
  { intros lo hi x H. unfold clamp, from_end. set (y := if x <? 0 then x + len else x).
    destruct (y <? lo) eqn:E1; [lia|]. destruct (hi <? y) eqn:E2; lia. }
  destruct (0 <? step) eqn:E1.
  - replace (step <? 0) with false by lia. unfold bound.
    destruct (sl_start s) as [x|]; destruct (sl_stop s) as [y|]; rewrite ?B by lia; reflexivity.
  - replace (step <? 0) with true by lia. unfold bound.
    destruct (sl_start s) as [x|]; destruct (sl_stop s) as [y|]; rewrite ?B by lia; reflexivity.
Qed.

Lemma in_py_range i a b c : c <> 0 -> In i (py_range a b c) -> (0 < c -> a <= i < b) /\ (c < 0 -> b < i <= a).
Proof.
  intros Hc H. unfold py_range in H. cbv zeta in H. apply in_map_iff in H. destruct H as (k & <- & Hk). apply in_seq in Hk.
  destruct (0 <? c) eqn:E.
  - pose proof (lt_ceil k (b - a) c ltac:(lia) ltac:(lia)). split; [nia|lia].
  - pose proof (lt_ceil k (a - b) (- c) ltac:(lia) ltac:(lia)). split; [lia|nia].
Qed.

Lemma bound_range len o dflt lo hi : lo <= hi -> lo <= dflt <= hi -> lo <= bound len o dflt lo hi <= hi.
Proof. intros H1 H2. destruct o; cbn [bound]; [unfold clamp; lia|assumption]. Qed.

Lemma mapM_map {A B} (f : A -> B) l : mapM (fun x => Ok (f x)) l = Ok (map f l).
Proof. induction l as [|x t IH]; cbn [mapM map bind]; [reflexivity|]. rewrite IH. reflexivity. Qed.

(** Generic: slicing any sequence object that answers [get i] with the i-th element of [l]. *)
Lemma slice_generic {A} (d : A) (l : list A) (get : Z -> res A) s :
  (forall i, 0 <= i < zlen l -> get i = Ok (nth (Z.to_nat i) l d)) ->
  (r <- slice_indices s (zlen l) ;; let '(a, b, c) := r in mapM get (py_range a b c)) =
  if match sl_step s with None => 1 | Some k => k end =? 0 then Err ValueError else Ok (list_slice l s).
Proof.
  intros Hget. pose proof (zlen_nonneg l) as Hl. rewrite slice_indices_spec by assumption.
  set (step := match sl_step s with None => 1 | Some k => k end) in *.
  destruct (step =? 0) eqn:E0; [reflexivity|]. unfold list_slice. cbv zeta. fold step.
  destruct (0 <? step) eqn:E1; cbn [bind].
  - pose proof (bound_range (zlen l) (sl_start s) 0 0 (zlen l) ltac:(lia) ltac:(lia)) as Ba.
    pose proof (bound_range (zlen l) (sl_stop s) (zlen l) 0 (zlen l) ltac:(lia) ltac:(lia)) as Bb.
    rewrite (mapM_ext_in _ (fun i => Ok (nth (Z.to_nat i) l d))).
    + rewrite mapM_map. f_equal. apply range_pos; lia.
    + intros i Hi. apply in_py_range in Hi; [|lia]. apply Hget. destruct Hi as [Hi _]. specialize (Hi ltac:(lia)). lia.
  - pose proof (bound_range (zlen l) (sl_start s) (zlen l - 1) (-1) (zlen l - 1) ltac:(lia) ltac:(lia)) as Ba.
    pose proof (bound_range (zlen l) (sl_stop s) (-1) (-1) (zlen l - 1) ltac:(lia) ltac:(lia)) as Bb.
    rewrite (mapM_ext_in _ (fun i => Ok (nth (Z.to_nat i) l d))).
    + rewrite mapM_map. f_equal. apply range_neg; lia.
    + intros i Hi. apply in_py_range in Hi; [|lia]. apply Hget. destruct Hi as [_ Hi]. specialize (Hi ltac:(lia)). lia.
Qed.

Lemma py_getslice_spec {A} (l : list A) s :
  py_getslice l s = if match sl_step s with None => 1 | Some k => k end =? 0 then Err ValueError else Ok (list_slice l s).
Proof.
  destruct l as [|d t].
  - unfold py_getslice. pose proof (slice_generic (A:=A)) as G.
    rewrite slice_indices_spec by (cbn; lia). destruct (_ =? 0) eqn:E0; [reflexivity|].
    unfold list_slice. cbv zeta. destruct (0 <? _) eqn:E1; cbn [bind].
    + assert (E : forall o dd, bound (zlen (@nil A)) o dd 0 (zlen (@nil A)) = match o with None => dd | _ => 0 end)
        by (intros [x|] dd; cbn; unfold clamp; lia).
      rewrite !E. replace (match sl_start s with Some _ | _ => 0 end) with 0 by (destruct (sl_start s); reflexivity).
      replace (match sl_stop s with Some _ => 0 | None => zlen (@nil A) end) with 0 by (destruct (sl_stop s); reflexivity).
      unfold py_range. rewrite E1. cbv zeta. rewrite (ceil_nat (0 - 0)) by lia. cbn [Z.sub Z.to_nat].
      rewrite (Nat.div_small) by lia. reflexivity.
    + change (zlen (@nil A)) with 0. 
      assert (E : forall o, bound 0 o (-1) (-1) (-1) = -1) by (intros [x|]; cbn; unfold clamp; lia).
      change (0 - 1) with (-1). rewrite !E.
      unfold py_range. rewrite E1. cbv zeta. change (-1 - -1) with 0. rewrite (ceil_nat 0) by lia.
      rewrite Nat.div_small by lia. reflexivity.
  - unfold py_getslice. rewrite <- (slice_generic d (d :: t) (py_get (d :: t)) s); [reflexivity|].
    intros i Hi. unfold py_get. replace (i <? 0) with false by lia. replace (i <? 0) with false by lia.
    rewrite (nth_error_nth' _ d); [reflexivity|]. unfold zlen in Hi. lia.
Qed.

Lemma vector_iter_nth v d i : 0 <= i < vector_len v -> nth (Z.to_nat i) (vector_iter v) d = get_item (vec_mem v) (vec_def v) i.
Proof.
  intros Hi. unfold vector_iter. rewrite map_map.
  rewrite (nth_indep _ d (get_item (vec_mem v) (vec_def v) (Z.of_nat 0))) by (rewrite map_length, seq_length; lia).
  rewrite (map_nth (fun x => get_item (vec_mem v) (vec_def v) (Z.of_nat x))). rewrite seq_nth by lia. f_equal. lia.
Qed.

Lemma vector_iter_len v : 0 <= vector_len v -> zlen (vector_iter v) = vector_len v.
Proof. intros H. unfold vector_iter, zlen. rewrite !map_length, seq_length. lia. Qed.

Lemma vector_slice_spec v s : 0 <= vector_len v ->
  vector_slice v s = if match sl_step s with None => 1 | Some k => k end =? 0 then Err ValueError
                     else Ok (list_slice (vector_iter v) s).
Proof.
  intros Hl. unfold vector_slice.
  rewrite <- (slice_generic (get_item (vec_mem v) (vec_def v) 0) (vector_iter v) (vector_get v) s).
  - rewrite vector_iter_len by assumption. reflexivity.
  - intros i Hi. rewrite vector_iter_len in Hi by assumption. rewrite vector_iter_nth by assumption.
    rewrite vector_get_spec by assumption.
    replace ((- vector_len v <=? i) && (i <? vector_len v)) with true by lia. replace (i <? 0) with false by lia. reflexivity.
Qed.

(** Sanity of the specification: the common cases. *)
Lemma every_1 {A} (l : list A) : every 1 l = l.
Proof. unfold every. cbn [Nat.sub]. induction l as [|x t IH]; cbn [every_aux]; [reflexivity|]. now rewrite IH. Qed.

Lemma list_slice_simple {A} (l : list A) a b : 0 <= a -> 0 <= b <= zlen l ->
  list_slice l (PySlice (Some a) (Some b) None) = firstn (Z.to_nat (b - a)) (skipn (Z.to_nat a) l).
Proof.
  intros Ha Hb. unfold list_slice. cbn [sl_step sl_start sl_stop bound]. cbv zeta. change (0 <? 1) with true. cbv iota.
  change (Z.to_nat 1) with 1%nat. rewrite every_1. unfold clamp, from_end.
  replace (a <? 0) with false by lia. replace (b <? 0) with false by lia.
  replace (Z.max 0 (Z.min (zlen l) b)) with b by lia.
  destruct (Z.le_gt_cases a (zlen l)).
  - replace (Z.max 0 (Z.min (zlen l) a)) with a by lia. reflexivity.
  - replace (Z.max 0 (Z.min (zlen l) a)) with (zlen l) by lia.
    replace (Z.to_nat (b - zlen l)) with 0%nat by lia. replace (Z.to_nat (b - a)) with 0%nat by lia. reflexivity.
Qed.

Lemma list_slice_full {A} (l : list A) : list_slice l (PySlice None None None) = l.
Proof.
  unfold list_slice. cbn [sl_step sl_start sl_stop bound]. cbv zeta. change (0 <? 1) with true. cbv iota.
  change (Z.to_nat 1) with 1%nat. rewrite every_1, Z.sub_0_r. cbn [Z.to_nat skipn].
  unfold zlen. rewrite Nat2Z.id. apply firstn_all.
Qed.

Lemma list_slice_reverse {A} (l : list A) : list_slice l (PySlice None None (Some (-1))) = rev l.
Proof.
  unfold list_slice. cbn [sl_step sl_start sl_stop bound]. cbv zeta. change (0 <? -1) with false. cbv iota.
  change (Z.to_nat (- -1)) with 1%nat. rewrite every_1. change (-1 + 1) with 0. cbn [Z.to_nat skipn].
  replace (Z.to_nat (zlen l - 1 - -1)) with (List.length l) by (unfold zlen; lia). now rewrite firstn_all.
Qed.
