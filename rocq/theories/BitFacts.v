(** Lemmas about byte strings, little-endian values and bits. *)
From Coq Require Import List ZArith Bool Lia.
From Coq Require Import ZifyBool ZifyNat.
From Verif Require Import PyBase Spec.
Import ListNotations.
Local Open Scope Z_scope.
Ltac Zify.zify_post_hook ::= Z.div_mod_to_equations.

Lemma zlen_nil {A} : zlen (@nil A) = 0. Proof. reflexivity. Qed.
Lemma zlen_cons {A} (x : A) l : zlen (x :: l) = 1 + zlen l.
Proof. unfold zlen; simpl List.length; lia. Qed.
Lemma zlen_app {A} (a b : list A) : zlen (a ++ b) = zlen a + zlen b.
Proof. unfold zlen; rewrite app_length; lia. Qed.
Lemma zlen_nonneg {A} (l : list A) : 0 <= zlen l. Proof. unfold zlen; lia. Qed.
Lemma zlen_repeat {A} (x : A) n : zlen (repeat x n) = Z.of_nat n.
Proof. unfold zlen; now rewrite repeat_length. Qed.
Lemma zlen_map {A B} (f : A -> B) l : zlen (map f l) = zlen l.
Proof. unfold zlen; now rewrite map_length. Qed.

Lemma pow2_pos n : 0 <= n -> 0 < 2 ^ n.
Proof. intros; apply Z.pow_pos_nonneg; lia. Qed.

Lemma pow2_8S (n : nat) : 2 ^ (8 * Z.of_nat (S n)) = 256 * 2 ^ (8 * Z.of_nat n).
Proof.
  replace (8 * Z.of_nat (S n)) with (8 + 8 * Z.of_nat n) by lia.
  rewrite Z.pow_add_r by lia. reflexivity.
Qed.

(** ** le *)
Lemma le_nonneg l : is_bytes l -> 0 <= le l.
Proof. induction 1 as [|b t Hb Ht IH]; cbn [le]; [lia|]. unfold is_byte in Hb; lia. Qed.

Lemma le_bound l : is_bytes l -> 0 <= le l < 2 ^ (8 * zlen l).
Proof.
  induction 1 as [|b t Hb Ht IH]; cbn [le]; [cbn; lia|].
  unfold zlen in *; cbn [List.length]. rewrite pow2_8S. unfold is_byte in Hb. lia.
Qed.

Lemma le_app a b : le (a ++ b) = le a + 2 ^ (8 * zlen a) * le b.
Proof.
  induction a as [|x a IH]; cbn [app le].
  - change (2 ^ (8 * zlen (@nil Z))) with 1. lia.
  - unfold zlen in *; cbn [List.length]. rewrite pow2_8S, IH. ring.
Qed.

Lemma le_zeros n : le (zeros n) = 0.
Proof. unfold zeros; induction n; cbn [repeat le]; lia. Qed.

Lemma is_bytes_app a b : is_bytes (a ++ b) <-> is_bytes a /\ is_bytes b.
Proof. unfold is_bytes; apply Forall_app. Qed.

Lemma is_bytes_zeros n : is_bytes (zeros n).
Proof. unfold zeros, is_bytes; induction n; cbn [repeat]; constructor; auto. unfold is_byte; lia. Qed.

Lemma is_bytes_firstn k l : is_bytes l -> is_bytes (firstn k l).
Proof.
  intros H. rewrite <- (firstn_skipn k l) in H. apply is_bytes_app in H; tauto.
Qed.
Lemma is_bytes_skipn k l : is_bytes l -> is_bytes (skipn k l).
Proof.
  intros H. rewrite <- (firstn_skipn k l) in H. apply is_bytes_app in H; tauto.
Qed.

Lemma is_bytes_nth l k : is_bytes l -> is_byte (nth k l 0).
Proof.
  intros H. destruct (Nat.lt_ge_cases k (List.length l)) as [Hk|Hk].
  - unfold is_bytes in H. rewrite Forall_forall in H. apply H. now apply nth_In.
  - rewrite nth_overflow by lia. unfold is_byte; lia.
Qed.

Lemma le_firstn_skipn k l : (k <= List.length l)%nat ->
  le l = le (firstn k l) + 2 ^ (8 * Z.of_nat k) * le (skipn k l).
Proof.
  intros Hk. rewrite <- (firstn_skipn k l) at 1. rewrite le_app.
  unfold zlen. rewrite firstn_length_le by lia. reflexivity.
Qed.

Lemma le_firstn k l : is_bytes l -> le (firstn k l) = le l mod 2 ^ (8 * Z.of_nat k).
Proof.
  intros Hl. destruct (Nat.le_gt_cases k (List.length l)) as [Hk|Hk].
  - pose proof (le_bound _ (is_bytes_firstn k l Hl)) as Hb.
    unfold zlen in Hb. rewrite firstn_length_le in Hb by lia.
    rewrite (le_firstn_skipn k l) by lia.
    rewrite Z.mul_comm, Z.mod_add by lia. rewrite Z.mod_small; lia.
  - rewrite firstn_all2 by lia. pose proof (le_bound _ Hl) as Hb. unfold zlen in Hb.
    rewrite Z.mod_small; [reflexivity|]. split; [lia|].
    eapply Z.lt_le_trans; [apply Hb|]. apply Z.pow_le_mono_r; lia.
Qed.

Lemma le_skipn k l : is_bytes l -> le (skipn k l) = le l / 2 ^ (8 * Z.of_nat k).
Proof.
  intros Hl. destruct (Nat.le_gt_cases k (List.length l)) as [Hk|Hk].
  - pose proof (le_bound _ (is_bytes_firstn k l Hl)) as Hb.
    unfold zlen in Hb. rewrite firstn_length_le in Hb by lia.
    rewrite (le_firstn_skipn k l) by lia.
    rewrite Z.mul_comm, Z.div_add by lia. rewrite Z.div_small; lia.
  - rewrite skipn_all2 by lia. pose proof (le_bound _ Hl) as Hb. unfold zlen in Hb.
    rewrite Z.div_small; [reflexivity|]. split; [lia|].
    eapply Z.lt_le_trans; [apply Hb|]. apply Z.pow_le_mono_r; lia.
Qed.

Lemma le_cons_testbit b t i : is_byte b -> 0 <= i ->
  Z.testbit (b + 256 * le t) i = if i <? 8 then Z.testbit b i else Z.testbit (le t) (i - 8).
Proof.
  intros Hb Hi. unfold is_byte in Hb.
  destruct (i <? 8) eqn:E.
  - rewrite <- (Z.mod_pow2_bits_low (b + 256 * le t) 8 i) by lia.
    change (2 ^ 8) with 256. rewrite Z.mul_comm, Z.mod_add by lia.
    rewrite Z.mod_small by lia. reflexivity.
  - replace i with ((i - 8) + 8) at 1 by lia.
    rewrite <- Z.div_pow2_bits by lia. change (2 ^ 8) with 256.
    rewrite Z.mul_comm, Z.div_add by lia. rewrite (Z.div_small b) by lia. reflexivity.
Qed.

Lemma le_testbit l i : is_bytes l -> 0 <= i -> Z.testbit (le l) i = bit_at l i.
Proof.
  intros Hl. revert i. induction Hl as [|b t Hb Ht IH]; intros i Hi; cbn [le].
  - unfold bit_at. rewrite Z.bits_0. destruct (Z.to_nat (i / 8)); cbn [nth]; now rewrite Z.bits_0.
  - rewrite le_cons_testbit by assumption. unfold bit_at.
    destruct (i <? 8) eqn:E.
    + replace (Z.to_nat (i / 8)) with 0%nat by lia. cbn [nth]. f_equal. lia.
    + rewrite IH by lia. unfold bit_at.
      replace (Z.to_nat (i / 8)) with (S (Z.to_nat ((i - 8) / 8))) by lia. cbn [nth].
      f_equal. lia.
Qed.

Lemma bit_at_nth l j b : (0 <= b < 8) -> bit_at l (8 * Z.of_nat j + b) = Z.testbit (nth j l 0) b.
Proof.
  intros Hb. unfold bit_at.
  replace (Z.to_nat ((8 * Z.of_nat j + b) / 8)) with j by lia. f_equal. lia.
Qed.

(** ** uint_at is a slice of the little-endian value *)
Lemma uint_at_le buf : is_bytes buf -> forall n off, 0 <= off ->
  uint_at buf off n = (le buf / 2 ^ off) mod 2 ^ (Z.of_nat n).
Proof.
  intros Hb. induction n as [|n IH]; intros off Hoff.
  - cbn [uint_at]. change (2 ^ Z.of_nat 0) with 1. now rewrite Z.mod_1_r.
  - cbn [uint_at]. rewrite IH by lia.
    rewrite <- le_testbit by assumption.
    replace (Z.of_nat (S n)) with (1 + Z.of_nat n) by lia.
    rewrite (Z.pow_add_r 2 1 (Z.of_nat n)) by lia. rewrite (Z.pow_add_r 2 off 1) by lia.
    change (2 ^ 1) with 2.
    assert (Hp : 0 < 2 ^ off) by (apply pow2_pos; lia).
    assert (Hq : 0 < 2 ^ Z.of_nat n) by (apply pow2_pos; lia).
    rewrite Z.rem_mul_r by lia.
    rewrite Z.div_div by lia. f_equal.
    pose proof (Z.testbit_true (le buf) off Hoff) as T.
    pose proof (Z.mod_pos_bound (le buf / 2 ^ off) 2 ltac:(lia)) as Hm.
    destruct (Z.testbit (le buf) off).
    + destruct T as [T _]. rewrite T by reflexivity. reflexivity.
    + destruct T as [_ T].
      assert ((le buf / 2 ^ off) mod 2 <> 1) by (intros E; discriminate (T E)). lia.
Qed.

Lemma uint_at_bound buf n off : 0 <= uint_at buf off n < 2 ^ Z.of_nat n.
Proof.
  revert off. induction n as [|n IH]; intros off; cbn [uint_at]; [cbn; lia|].
  specialize (IH (off + 1)).
  replace (Z.of_nat (S n)) with (1 + Z.of_nat n) by lia.
  rewrite Z.pow_add_r by lia. change (2 ^ 1) with 2. destruct (bit_at buf off); lia.
Qed.

Lemma uint_at_ext a b n off : (forall i, off <= i < off + Z.of_nat n -> bit_at a i = bit_at b i) ->
  uint_at a off n = uint_at b off n.
Proof.
  revert off. induction n as [|n IH]; intros off H; cbn [uint_at]; [reflexivity|].
  rewrite (H off) by lia. rewrite (IH (off + 1)); [reflexivity|].
  intros i Hi. apply H. lia.
Qed.

Lemma uint_at_testbit buf n : forall off k, 0 <= k ->
  Z.testbit (uint_at buf off n) k = (k <? Z.of_nat n) && bit_at buf (off + k).
Proof.
  induction n as [|n IH]; intros off k Hk; cbn [uint_at].
  - rewrite Z.bits_0. destruct (k <? Z.of_nat 0) eqn:E; [lia|reflexivity].
  - destruct (Z.eq_dec k 0) as [->|Hk0].
    + rewrite Z.add_0_r.
      replace ((if bit_at buf off then 1 else 0) + 2 * uint_at buf (off + 1) n)
        with (2 * uint_at buf (off + 1) n + Z.b2z (bit_at buf off))
        by (destruct (bit_at buf off); cbn [Z.b2z]; lia).
      rewrite Z.testbit_0_r. destruct (0 <? Z.of_nat (S n)) eqn:E; [reflexivity|lia].
    + replace ((if bit_at buf off then 1 else 0) + 2 * uint_at buf (off + 1) n)
        with (2 * uint_at buf (off + 1) n + Z.b2z (bit_at buf off))
        by (destruct (bit_at buf off); cbn [Z.b2z]; lia).
      replace k with (Z.succ (k - 1)) at 1 by lia.
      rewrite Z.testbit_succ_r by lia.
      rewrite IH by lia. replace (off + 1 + (k - 1)) with (off + k) by lia.
      f_equal. lia.
Qed.

(** uint_at of any value assembled bit by bit *)
Lemma uint_at_mod buf n off v : 
  (forall k, 0 <= k < Z.of_nat n -> bit_at buf (off + k) = Z.testbit v k) ->
  uint_at buf off n = v mod 2 ^ Z.of_nat n.
Proof.
  intros H. apply Z.bits_inj'. intros k Hk.
  rewrite uint_at_testbit by assumption.
  destruct (k <? Z.of_nat n) eqn:E.
  - rewrite Z.mod_pow2_bits_low by lia. cbn [andb]. apply H; lia.
  - rewrite Z.mod_pow2_bits_high by lia. reflexivity.
Qed.

(** ** to_le *)
Lemma to_le_length n v : List.length (to_le n v) = n.
Proof. revert v; induction n as [|n IH]; intros v; cbn [to_le List.length]; [reflexivity|]. now rewrite IH. Qed.

Lemma to_le_bytes n v : is_bytes (to_le n v).
Proof.
  revert v; induction n as [|n IH]; intros v; cbn [to_le]; constructor; [|apply IH].
  unfold is_byte. lia.
Qed.

Lemma le_to_le n v : le (to_le n v) = v mod 2 ^ (8 * Z.of_nat n).
Proof.
  revert v; induction n as [|n IH]; intros v; cbn [to_le le].
  - change (2 ^ (8 * Z.of_nat 0)) with 1. now rewrite Z.mod_1_r.
  - rewrite IH, pow2_8S. rewrite Z.rem_mul_r; [ring|lia|]. apply pow2_pos; lia.
Qed.

Lemma le_inj a b : is_bytes a -> is_bytes b -> List.length a = List.length b -> le a = le b -> a = b.
Proof.
  intros Ha. revert b. induction Ha as [|x a Hx Ha IH]; intros b Hb Hl He.
  - destruct b; [reflexivity|discriminate].
  - destruct b as [|y b]; [discriminate|]. inversion Hb as [|? ? Hy Hb']; subst.
    cbn [le] in He. unfold is_byte in *.
    assert (x = y) by lia. subst y. f_equal. apply IH; [assumption|now inversion Hl|lia].
Qed.

Lemma to_le_le l : is_bytes l -> to_le (List.length l) (le l) = l.
Proof.
  intros Hl. apply le_inj; [apply to_le_bytes|assumption|apply to_le_length|].
  rewrite le_to_le. apply Z.mod_small. apply le_bound; assumption.
Qed.

Lemma to_le_testbit n v i : 0 <= i -> bit_at (to_le n v) i = (i <? 8 * Z.of_nat n) && Z.testbit v i.
Proof.
  intros Hi. rewrite <- le_testbit by (auto using to_le_bytes). rewrite le_to_le.
  destruct (i <? 8 * Z.of_nat n) eqn:E.
  - now rewrite Z.mod_pow2_bits_low by lia.
  - now rewrite Z.mod_pow2_bits_high by lia.
Qed.

(** ** list_set *)
Lemma list_set_length {A} (l : list A) n x : List.length (list_set l n x) = List.length l.
Proof. revert n; induction l as [|h t IH]; intros [|n]; cbn [list_set List.length]; auto. Qed.

Lemma list_set_nth l n x j : (n < List.length l)%nat ->
  nth j (list_set l n x) 0 = if Nat.eqb j n then x else nth j l 0.
Proof.
  revert n j; induction l as [|h t IH]; intros n j Hn; cbn [List.length] in Hn; [lia|].
  destruct n as [|n]; destruct j as [|j]; cbn [list_set nth Nat.eqb]; try reflexivity.
  apply IH. lia.
Qed.

Lemma list_set_bytes l n x : is_bytes l -> is_byte x -> is_bytes (list_set l n x).
Proof.
  intros Hl Hx. revert n. induction Hl as [|h t Hh Ht IH]; intros [|n]; cbn [list_set]; constructor; auto.
  apply IH.
Qed.

(** ** python access in range *)
Lemma py_get_in l i : 0 <= i < zlen l -> py_get l i = Ok (nth (Z.to_nat i) l 0).
Proof.
  intros Hi. unfold py_get. destruct (i <? 0) eqn:E; [lia|]. rewrite E.
  rewrite (nth_error_nth' l 0); [reflexivity|]. unfold zlen in Hi. lia.
Qed.

Lemma py_get_out {A} (l : list A) i : zlen l <= i -> py_get l i = Err IndexError.
Proof.
  intros Hi. pose proof (zlen_nonneg l). unfold py_get. destruct (i <? 0) eqn:E; [lia|]. rewrite E.
  destruct (nth_error l (Z.to_nat i)) eqn:N; [|reflexivity].
  assert (Hn : nth_error l (Z.to_nat i) <> None) by congruence.
  apply nth_error_Some in Hn. unfold zlen in Hi. lia.
Qed.

Lemma py_set_in l i x : 0 <= i < zlen l -> is_byte x -> py_set l i x = Ok (list_set l (Z.to_nat i) x).
Proof.
  intros Hi Hx. unfold is_byte in Hx. unfold py_set. destruct (i <? 0) eqn:E; [lia|].
  rewrite E. destruct (zlen l <=? i) eqn:E2; [lia|]. cbn [orb].
  destruct (x <? 0) eqn:E3; [lia|]. destruct (255 <? x) eqn:E4; [lia|]. reflexivity.
Qed.

Lemma py_set_out l i x : zlen l <= i -> py_set l i x = Err IndexError.
Proof.
  intros Hi. pose proof (zlen_nonneg l). unfold py_set. destruct (i <? 0) eqn:E; [lia|]. rewrite E.
  destruct (zlen l <=? i) eqn:E2; [|lia]. reflexivity.
Qed.

Lemma py_slice_in {A} (l : list A) a b : 0 <= a <= b -> b <= zlen l ->
  py_slice l a b = firstn (Z.to_nat (b - a)) (skipn (Z.to_nat a) l).
Proof.
  intros Ha Hb. unfold py_slice, py_clip.
  destruct (a <? 0) eqn:E; [lia|]. destruct (b <? 0) eqn:E2; [lia|].
  repeat (f_equal; try lia).
Qed.

Lemma py_slice_gen {A} (l : list A) a b : 0 <= a <= b ->
  py_slice l a b = firstn (Z.to_nat (b - a)) (skipn (Z.to_nat a) l).
Proof.
  intros Ha. unfold py_slice, py_clip. pose proof (zlen_nonneg l) as Hn.
  destruct (a <? 0) eqn:E; [lia|]. destruct (b <? 0) eqn:E2; [lia|].
  destruct (Z.le_gt_cases (zlen l) a) as [Hla|Hla].
  - rewrite (skipn_all2 (n := Z.to_nat a)) by (unfold zlen in *; lia).
    rewrite skipn_all2 by (unfold zlen in *; lia). now rewrite !firstn_nil.
  - replace (Z.max 0 (Z.min (zlen l) a)) with a by lia.
    destruct (Z.le_gt_cases b (zlen l)) as [Hlb|Hlb].
    + replace (Z.max 0 (Z.min (zlen l) b)) with b by lia. reflexivity.
    + rewrite !firstn_all2; [reflexivity| |]; rewrite skipn_length; unfold zlen in *; lia.
Qed.

(** ** masks *)
Lemma shiftl_1_minus_1 k : 0 <= k -> Z.shiftl 1 k - 1 = Z.ones k.
Proof. intros. unfold Z.ones. now rewrite Z.sub_1_r. Qed.

Lemma land_ones_lt x k : 0 <= k -> 0 <= Z.land x (Z.ones k) < 2 ^ k.
Proof. intros. rewrite Z.land_ones by assumption. apply Z.mod_pos_bound, pow2_pos; assumption. Qed.

Lemma byte_testbit_high b i : is_byte b -> 8 <= i -> Z.testbit b i = false.
Proof.
  intros Hb Hi. unfold is_byte in Hb. destruct (Z.eq_dec b 0) as [->|Hn]; [apply Z.bits_0|].
  apply Z.bits_above_log2; [lia|]. apply Z.log2_lt_pow2; [lia|].
  eapply Z.lt_le_trans with (2 ^ 8); [change (2^8) with 256; lia|]. apply Z.pow_le_mono_r; lia.
Qed.

(** A number whose bits from 8 up (and sign) vanish is a byte. *)
Lemma byte_of_bits x : 0 <= x -> (forall i, 8 <= i -> Z.testbit x i = false) -> is_byte x.
Proof.
  intros Hx H. unfold is_byte. split; [assumption|].
  destruct (Z.lt_ge_cases x 256) as [|Hge]; [assumption|exfalso].
  assert (Hl : 8 <= Z.log2 x) by (change 8 with (Z.log2 256); apply Z.log2_le_mono; lia).
  specialize (H _ Hl). pose proof (Z.bit_log2 x ltac:(lia)). congruence.
Qed.

Lemma lor_byte a b : is_byte a -> is_byte b -> is_byte (Z.lor a b).
Proof.
  intros Ha Hb. apply byte_of_bits.
  - unfold is_byte in *. apply Z.lor_nonneg; lia.
  - intros i Hi. rewrite Z.lor_spec, !byte_testbit_high by assumption. reflexivity.
Qed.

Lemma land_byte a b : is_byte a -> is_byte (Z.land a b).
Proof.
  intros Ha. apply byte_of_bits.
  - unfold is_byte in *. apply Z.land_nonneg; lia.
  - intros i Hi. rewrite Z.land_spec, (byte_testbit_high a) by assumption. reflexivity.
Qed.
