(** Proofs about the model of data_access.py. *)
From Coq Require Import List ZArith Bool Lia.
From Coq Require Import ZifyBool ZifyNat.
From Verif Require Import PyBase Spec DataAccess BitFacts.
Import ListNotations.
Local Open Scope Z_scope.
Ltac Zify.zify_post_hook ::= Z.div_mod_to_equations.

Lemma py_shl_ok x k : 0 <= k -> py_shl x k = Ok (Z.shiftl x k).
Proof. intros. unfold py_shl. destruct (k <? 0) eqn:E; [lia|reflexivity]. Qed.

Lemma sign_bits_get n : 1 <= n <= 64 -> py_get sign_bits n = Ok (2 ^ (n - 1)).
Proof.
  intros Hn. rewrite py_get_in by (change (zlen sign_bits) with 65; lia).
  f_equal. unfold sign_bits.
  replace (Z.to_nat n) with (S (Z.to_nat (n - 1))) by lia. cbn [nth].
  set (f := fun bits : nat => Z.shiftl 1 (Z.of_nat bits - 1)).
  rewrite (nth_indep _ 0 (f 0%nat)) by (rewrite map_length, seq_length; lia).
  rewrite map_nth, seq_nth by lia. unfold f. rewrite Z.shiftl_1_l. f_equal. lia.
Qed.

(** Sign extension as the code does it. *)
Lemma sign_extend n r : 1 <= n -> 0 <= r < 2 ^ n ->
  Z.land r (2 ^ (n - 1) - 1) - Z.land r (2 ^ (n - 1)) = twos_complement n r.
Proof.
  intros Hn Hr.
  assert (Hp : 2 ^ n = 2 * 2 ^ (n - 1)).
  { replace n with (1 + (n - 1)) at 1 by lia. rewrite Z.pow_add_r by lia. reflexivity. }
  assert (Hpos : 0 < 2 ^ (n - 1)) by (apply pow2_pos; lia).
  assert (H1 : Z.land r (2 ^ (n - 1) - 1) = r mod 2 ^ (n - 1)).
  { rewrite <- Z.land_ones by lia. f_equal. rewrite Z.ones_equiv. lia. }
  assert (H2 : Z.land r (2 ^ (n - 1)) = if r <? 2 ^ (n - 1) then 0 else 2 ^ (n - 1)).
  { apply Z.bits_inj'. intros k Hk. rewrite Z.land_spec.
    rewrite Z.pow2_bits_eqb by lia.
    destruct (n - 1 =? k) eqn:E.
    - assert (k = n - 1) by lia. subst k. rewrite andb_true_r.
      destruct (r <? 2 ^ (n - 1)) eqn:E2.
      + rewrite Z.bits_0. rewrite <- (Z.mod_small r (2 ^ (n - 1))) by lia.
        apply Z.mod_pow2_bits_high; lia.
      + rewrite Z.pow2_bits_true by lia. apply Z.testbit_true; [lia|].
        replace (r / 2 ^ (n - 1)) with 1; [reflexivity|].
        apply Z.div_unique with (r - 2 ^ (n - 1)); lia.
    - rewrite andb_false_r. destruct (r <? 2 ^ (n - 1)); [now rewrite Z.bits_0|].
      rewrite Z.pow2_bits_eqb by lia. now rewrite E. }
  rewrite H1, H2. unfold twos_complement.
  destruct (r <? 2 ^ (n - 1)) eqn:E.
  - rewrite Z.mod_small; lia.
  - replace (r mod 2 ^ (n - 1)) with (r - 2 ^ (n - 1)); [lia|].
    apply Z.mod_unique with 1; lia.
Qed.

(** The unmasked intermediate value of read_value: everything from the field's first bit up to the end
    of the last byte touched. *)
Definition read_span (off n : Z) : Z :=
  let extra := off mod 8 in let tb := (n + 7) / 8 in
  if tb * 8 - extra <? n then 8 * (tb + 1) - extra else 8 * tb - extra.

Lemma read_raw data off n : is_bytes data -> in_bounds (zlen data) off n ->
  let ob := off / 8 in let extra := off mod 8 in let tb := (n + 7) / 8 in
  (if tb * 8 - extra <? n then
     remainder <- py_get data (ob + tb) ;;
     r <- py_shl remainder (tb * 8 - extra) ;;
     Ok (Z.lor (Z.shiftr (le (py_slice data ob (ob + tb))) extra) r)
   else Ok (Z.shiftr (le (py_slice data ob (ob + tb))) extra))
  = Ok (uint_at data off (Z.to_nat (read_span off n))).
Proof.
  intros Hd (Ho & Hn & Hb) ob extra tb.
  assert (Hobl : ob + tb <= zlen data) by (unfold ob, tb; lia).
  rewrite py_slice_in by (unfold ob, tb in *; lia).
  replace (ob + tb - ob) with tb by lia.
  set (S := firstn (Z.to_nat tb) (skipn (Z.to_nat ob) data)).
  assert (HS : is_bytes S) by (unfold S; auto using is_bytes_firstn, is_bytes_skipn).
  assert (HSb : forall k, 0 <= k -> Z.testbit (le S) k = (k <? 8 * tb) && bit_at data (8 * ob + k)).
  { intros k Hk. unfold S. rewrite le_firstn by auto using is_bytes_skipn.
    rewrite le_skipn by assumption. rewrite !Z2Nat.id by (unfold ob, tb; lia).
    destruct (k <? 8 * tb) eqn:E.
    - rewrite Z.mod_pow2_bits_low by lia. rewrite Z.div_pow2_bits by (unfold ob in *; lia).
      rewrite le_testbit by (auto; unfold ob in *; lia). cbn [andb]. f_equal. lia.
    - rewrite Z.mod_pow2_bits_high by (unfold tb in *; lia). reflexivity. }
  unfold read_span. fold extra. fold tb.
  destruct (tb * 8 - extra <? n) eqn:E.
  - rewrite py_get_in by (unfold ob, tb, extra in *; lia). cbn [bind].
    rewrite py_shl_ok by (unfold tb, extra; lia). cbn [bind]. f_equal.
    apply Z.bits_inj'. intros k Hk.
    rewrite Z.lor_spec, Z.shiftr_spec by assumption.
    rewrite HSb by (unfold extra; lia).
    rewrite uint_at_testbit by assumption.
    rewrite Z2Nat.id by (unfold tb, extra; lia).
    replace (8 * ob + (k + extra)) with (off + k) by (unfold ob, extra; lia).
    destruct (k + extra <? 8 * tb) eqn:E1.
    + rewrite Z.shiftl_spec_low by lia. rewrite orb_false_r.
      replace (k <? 8 * (tb + 1) - extra) with true by lia. reflexivity.
    + cbn [andb orb]. rewrite Z.shiftl_spec_high by lia.
      destruct (k <? 8 * (tb + 1) - extra) eqn:E2; cbn [andb].
      * unfold bit_at. replace (Z.to_nat ((off + k) / 8)) with (Z.to_nat (ob + tb)) by
          (unfold ob, extra, tb in *; lia).
        f_equal. unfold ob, extra, tb in *; lia.
      * apply byte_testbit_high; [now apply is_bytes_nth | lia].
  - f_equal. apply Z.bits_inj'. intros k Hk. rewrite Z.shiftr_spec by assumption.
    rewrite HSb by (unfold extra; lia). rewrite uint_at_testbit by assumption.
    rewrite Z2Nat.id by (unfold tb, extra; lia).
    replace (8 * ob + (k + extra)) with (off + k) by (unfold ob, extra; lia).
    f_equal. lia.
Qed.

Lemma uint_at_land_ones data off m n : 0 <= n <= m ->
  Z.land (uint_at data off (Z.to_nat m)) (Z.ones n) = uint_at data off (Z.to_nat n).
Proof.
  intros Hn. apply Z.bits_inj'. intros k Hk.
  rewrite Z.land_spec, !uint_at_testbit by assumption. rewrite Z.testbit_ones by lia.
  rewrite !Z2Nat.id by lia.
  destruct (k <? n) eqn:E.
  - replace (k <? m) with true by lia. replace (0 <=? k) with true by lia. cbn. now rewrite andb_true_r.
  - replace (0 <=? k) with true by lia. cbn [andb]. now rewrite andb_false_r.
Qed.

Lemma read_span_ge off n : 0 < n -> 0 <= off -> n <= read_span off n.
Proof. intros Hn Ho. unfold read_span. destruct (_ <? _) eqn:E; lia. Qed.

Lemma read_value_one data off s : is_bytes data -> in_bounds (zlen data) off 1 ->
  read_value data off 1 s = Ok (if bit_at data off then 1 else 0).
Proof.
  intros Hd (Ho & _ & Hb). unfold read_value.
  change (1 =? 1) with true. cbv iota.
  rewrite py_get_in by lia. cbn [bind]. f_equal.
  set (b := nth (Z.to_nat (off / 8)) data 0). unfold bit_at. fold b.
  rewrite Z.shiftl_1_l.
  assert (H : Z.land b (2 ^ (off mod 8)) = if Z.testbit b (off mod 8) then 2 ^ (off mod 8) else 0).
  { apply Z.bits_inj'. intros k Hk. rewrite Z.land_spec, Z.pow2_bits_eqb by lia.
    destruct (off mod 8 =? k) eqn:E.
    - assert (k = off mod 8) by lia. subst k. rewrite andb_true_r.
      destruct (Z.testbit b (off mod 8)); [now rewrite Z.pow2_bits_true by lia|now rewrite Z.bits_0].
    - rewrite andb_false_r. destruct (Z.testbit b (off mod 8)); [|now rewrite Z.bits_0].
      rewrite Z.pow2_bits_eqb by lia. now rewrite E. }
  rewrite H. destruct (Z.testbit b (off mod 8)); [|reflexivity].
  assert (0 < 2 ^ (off mod 8)) by (apply pow2_pos; lia).
  destruct (2 ^ (off mod 8) =? 0) eqn:E; [lia|reflexivity].
Qed.

Lemma read_value_lt64 data off n s : is_bytes data -> in_bounds (zlen data) off n -> 2 <= n < 64 ->
  read_value data off n s = Ok (field_value data off n s).
Proof.
  intros Hd Hb Hn. unfold read_value.
  destruct (n =? 1) eqn:E1; [lia|].
  cbv zeta. rewrite (read_raw data off n Hd Hb). cbn [bind].
  destruct (n <? 64) eqn:E2; [|lia].
  rewrite py_shl_ok by lia. cbn [bind]. rewrite shiftl_1_minus_1 by lia.
  destruct Hb as (Ho & Hn0 & Hb).
  rewrite uint_at_land_ones by (split; [lia|apply read_span_ge; lia]).
  unfold field_value.
  pose proof (uint_at_bound data (Z.to_nat n) off) as Hu. rewrite Z2Nat.id in Hu by lia.
  destruct s; cbn [negb]; [|reflexivity].
  rewrite sign_bits_get by lia. cbn [bind]. f_equal. apply sign_extend; lia.
Qed.

(** Exact value returned for 64-bit unsigned reads: the mask is skipped, so everything up to the end of
    the last byte touched is returned. *)
Lemma read_value_64_unsigned data off : is_bytes data -> in_bounds (zlen data) off 64 ->
  read_value data off 64 false =
  Ok (uint_at data off (Z.to_nat (if off mod 8 =? 0 then 64 else 72 - off mod 8))).
Proof.
  intros Hd Hb. unfold read_value. change (64 =? 1) with false. cbv iota zeta.
  rewrite (read_raw data off 64 Hd Hb). cbn [bind].
  change (64 <? 64) with false. cbn [bind negb]. do 2 f_equal. f_equal.
  unfold read_span. change ((64 + 7) / 8) with 8. destruct Hb as (Ho & _ & _).
  destruct (off mod 8 =? 0) eqn:E; destruct (8 * 8 - off mod 8 <? 64) eqn:E2; lia.
Qed.

Lemma read_value_64_signed data off : is_bytes data -> in_bounds (zlen data) off 64 ->
  read_value data off 64 true = Ok (field_value data off 64 true).
Proof.
  intros Hd Hb. unfold read_value. change (64 =? 1) with false. cbv iota zeta.
  rewrite (read_raw data off 64 Hd Hb). cbn [bind].
  change (64 <? 64) with false. cbn [bind negb].
  rewrite sign_bits_get by lia. cbn [bind]. f_equal.
  unfold field_value. destruct Hb as (Ho & Hn0 & Hb).
  set (u := uint_at data off (Z.to_nat 64)).
  assert (Hu : 0 <= u < 2 ^ 64).
  { pose proof (uint_at_bound data (Z.to_nat 64) off) as Hu. rewrite Z2Nat.id in Hu by lia. exact Hu. }
  rewrite <- (sign_extend 64 u) by lia.
  assert (Hm : u = Z.land (uint_at data off (Z.to_nat (read_span off 64))) (Z.ones 64)).
  { unfold u. symmetry. apply uint_at_land_ones. split; [lia|apply read_span_ge; lia]. }
  rewrite Hm. rewrite <- !Z.land_assoc. f_equal.
Qed.

(** ** write_value: the exact effect on every bit *)

(** The bits stored: bit [k] of the value for [0 <= k < n]. *)
Definition vbit (v n k : Z) : bool := (0 <=? k) && (k <? n) && Z.testbit v k.

Lemma masked_testbit v n extra k : 0 <= n -> 0 <= extra -> 0 <= k ->
  Z.testbit (Z.land (Z.shiftl v extra) (Z.shiftl (Z.ones n) extra)) k = vbit v n (k - extra).
Proof.
  intros Hn He Hk. rewrite Z.land_spec. unfold vbit.
  destruct (0 <=? k - extra) eqn:E.
  - rewrite !Z.shiftl_spec_high by lia. rewrite Z.testbit_ones by lia. rewrite E.
    cbn [andb]. apply andb_comm.
  - rewrite Z.shiftl_spec_low by lia. reflexivity.
Qed.

Lemma masked_bound v n extra : 0 <= n -> 0 <= extra ->
  0 <= Z.land (Z.shiftl v extra) (Z.shiftl (Z.ones n) extra) < 2 ^ (n + extra).
Proof.
  intros Hn He.
  rewrite <- Z.shiftl_land, Z.land_ones by lia.
  rewrite Z.shiftl_mul_pow2 by lia. rewrite Z.pow_add_r by lia.
  pose proof (Z.mod_pos_bound v (2 ^ n) (pow2_pos n Hn)).
  pose proof (pow2_pos extra He). nia.
Qed.

Lemma copy_bytes_spec k : forall data ob idx src,
  0 <= ob -> 0 <= idx -> is_bytes data -> is_bytes src ->
  ob + idx + Z.of_nat k <= zlen data -> idx + Z.of_nat k <= zlen src ->
  exists data', copy_bytes k data ob idx src = Ok data' /\ List.length data' = List.length data /\
    is_bytes data' /\
    forall j, nth j data' 0 =
      if (ob + idx <=? Z.of_nat j) && (Z.of_nat j <? ob + idx + Z.of_nat k)
      then nth (Z.to_nat (Z.of_nat j - ob)) src 0 else nth j data 0.
Proof.
  induction k as [|k IH]; intros data ob idx src Hob Hidx Hd Hs Hl1 Hl2; cbn [copy_bytes].
  - exists data. repeat split; auto. intros j.
    destruct ((ob + idx <=? Z.of_nat j) && (Z.of_nat j <? ob + idx + Z.of_nat 0)) eqn:E; [lia|reflexivity].
  - rewrite py_get_in by lia. cbn [bind].
    rewrite py_set_in by (try apply is_bytes_nth; auto; lia). cbn [bind].
    set (d1 := list_set data (Z.to_nat (ob + idx)) (nth (Z.to_nat idx) src 0)).
    assert (Hd1l : List.length d1 = List.length data) by apply list_set_length.
    destruct (IH d1 ob (idx + 1) src) as (d' & He & Hlen & Hby & Hn); try lia.
    + apply list_set_bytes; [assumption|now apply is_bytes_nth].
    + assumption.
    + unfold zlen in *. rewrite Hd1l. lia.
    + exists d'. repeat split; [exact He| congruence | assumption |].
      intros j. rewrite Hn. unfold d1.
      rewrite list_set_nth by (unfold zlen in *; lia).
      destruct ((ob + (idx + 1) <=? Z.of_nat j) && (Z.of_nat j <? ob + (idx + 1) + Z.of_nat k)) eqn:E1;
      destruct ((ob + idx <=? Z.of_nat j) && (Z.of_nat j <? ob + idx + Z.of_nat (S k))) eqn:E2; try lia.
      destruct (Nat.eqb j (Z.to_nat (ob + idx))) eqn:E3.
      * f_equal. apply Nat.eqb_eq in E3. lia.
      * apply Nat.eqb_neq in E3. lia.
      * destruct (Nat.eqb j (Z.to_nat (ob + idx))) eqn:E3; [apply Nat.eqb_eq in E3; lia|reflexivity].
Qed.

(** Bit [i] of the buffer after [write_value] of a field of 2..64 bits. *)
Definition written_bit (data : list Z) (off n v i : Z) : bool :=
  let ob := off / 8 in let tb := (n + 7) / 8 in
  if i / 8 =? ob then (bit_at data i && (i mod 8 <? off)) || vbit v n (i - off)
  else if (ob <? i / 8) && (i / 8 <? ob + tb) then vbit v n (i - off)
  else if (i / 8 =? ob + tb) && (8 * tb - off mod 8 <? n)
       then vbit v n (i - off) || (bit_at data i && (off <=? i mod 8))
  else bit_at data i.

Lemma vle_nth v k j b : 0 <= b < 8 -> (j < k)%nat ->
  Z.testbit (nth j (to_le k v) 0) b = Z.testbit v (8 * Z.of_nat j + b).
Proof.
  intros Hb Hj. rewrite <- bit_at_nth by assumption. rewrite to_le_testbit by lia.
  replace (8 * Z.of_nat j + b <? 8 * Z.of_nat k) with true by lia. reflexivity.
Qed.

Lemma write_value_bits data off n s v :
  is_bytes data -> in_bounds (zlen data) off n -> 2 <= n <= 64 ->
  exists data', write_value data off n s v = Ok data' /\ List.length data' = List.length data /\
    is_bytes data' /\ forall i, 0 <= i -> bit_at data' i = written_bit data off n v i.
Proof.
  intros Hd (Ho & Hn0 & Hb) Hn. unfold write_value.
  destruct (n <=? 64) eqn:E64; [|lia]. cbn [negb]. cbv zeta.
  destruct (n =? 1) eqn:E1; [lia|].
  rewrite py_shl_ok by lia. cbn [bind]. rewrite shiftl_1_minus_1 by lia.
  set (ob := off / 8). set (extra := off mod 8). set (tb := (n + 7) / 8).
  set (val := Z.land (Z.shiftl v extra) (Z.shiftl (Z.ones n) extra)).
  assert (Hval : 0 <= val < 2 ^ (n + extra)) by (apply masked_bound; unfold extra; lia).
  assert (Hvalb : 2 ^ (n + extra) <= 2 ^ (8 * (tb + 1) - 1)) by
    (apply Z.pow_le_mono_r; unfold tb, extra; lia).
  assert (Hvalc : 2 ^ (8 * (tb + 1) - 1) <= 2 ^ (8 * (tb + 1))) by
    (apply Z.pow_le_mono_r; unfold tb; lia).
  assert (Hpos : 0 < 2 ^ (8 * (tb + 1) - 1)) by (apply pow2_pos; unfold tb; lia).
  assert (HTB : py_to_bytes val (tb + 1) s = Ok (to_le (Z.to_nat (tb + 1)) val)).
  { unfold py_to_bytes. destruct (tb + 1 <? 0) eqn:E; [unfold tb in *; lia|].
    destruct (tb + 1 =? 0) eqn:E2; [unfold tb in *; lia|].
    destruct s.
    - replace ((- 2 ^ (8 * (tb + 1) - 1) <=? val) && (val <? 2 ^ (8 * (tb + 1) - 1))) with true by lia.
      reflexivity.
    - replace ((0 <=? val) && (val <? 2 ^ (8 * (tb + 1)))) with true by lia. reflexivity. }
  rewrite HTB. cbn [bind].
  set (vle := to_le (Z.to_nat (tb + 1)) val).
  assert (Hvle : is_bytes vle) by apply to_le_bytes.
  assert (Hvlel : zlen vle = tb + 1) by
    (unfold zlen, vle; rewrite to_le_length; unfold tb; lia).
  assert (Hobl : 0 <= ob /\ ob + tb <= zlen data) by (unfold ob, tb; lia).
  assert (Htb : 1 <= tb <= 8) by (unfold tb; lia).
  rewrite (py_get_in data ob) by lia. cbn [bind].
  rewrite py_shl_ok by lia. cbn [bind]. rewrite shiftl_1_minus_1 by lia.
  rewrite (py_get_in vle 0) by lia. cbn [bind].
  set (old := nth (Z.to_nat ob) data 0).
  assert (Hold : is_byte old) by (now apply is_bytes_nth).
  rewrite py_set_in by (try apply is_bytes_nth; auto; lia). cbn [bind].
  set (d1 := list_set data (Z.to_nat ob) (nth (Z.to_nat 0) vle 0)).
  assert (Hd1 : is_bytes d1) by (apply list_set_bytes; [assumption|now apply is_bytes_nth]).
  assert (Hd1l : zlen d1 = zlen data) by (unfold zlen, d1; now rewrite list_set_length).
  rewrite (py_get_in d1 ob) by lia. cbn [bind].
  set (b0 := nth (Z.to_nat ob) d1 0).
  assert (Hb0 : is_byte b0) by (now apply is_bytes_nth).
  assert (Hb0e : b0 = nth 0 vle 0).
  { unfold b0, d1. rewrite list_set_nth by (unfold zlen in *; lia). now rewrite Nat.eqb_refl. }
  assert (Hs0 : is_byte (Z.lor b0 (Z.land old (Z.ones off)))).
  { apply lor_byte; [assumption|now apply land_byte]. }
  rewrite py_set_in by (auto; lia). cbn [bind].
  set (d2 := list_set d1 (Z.to_nat ob) (Z.lor b0 (Z.land old (Z.ones off)))).
  assert (Hd2 : is_bytes d2) by (apply list_set_bytes; assumption).
  assert (Hd2l : zlen d2 = zlen data) by (unfold zlen, d2, d1; now rewrite !list_set_length).
  destruct (copy_bytes_spec (Z.to_nat (tb - 1)) d2 ob 1 vle) as (d3 & He3 & Hl3 & Hby3 & Hn3);
    try lia; try assumption.
  rewrite He3. cbn [bind].
  assert (Hl3z : zlen d3 = zlen data) by (unfold zlen in *; lia).
  replace (Z.max 1 tb) with tb by lia.
  (* bytes of d3 *)
  assert (HB3 : forall j, nth j d3 0 =
     if Z.of_nat j =? ob then Z.lor (nth 0 vle 0) (Z.land old (Z.ones off))
     else if (ob <? Z.of_nat j) && (Z.of_nat j <? ob + tb) then nth (Z.to_nat (Z.of_nat j - ob)) vle 0
     else nth j data 0).
  { intros j. rewrite Hn3.
    assert (Hx1 : (Z.to_nat ob < List.length d1)%nat) by (unfold zlen in *; lia).
    assert (Hx2 : (Z.to_nat ob < List.length data)%nat) by (unfold zlen in *; lia).
    unfold d2. rewrite list_set_nth by exact Hx1. unfold d1 at 1. rewrite list_set_nth by exact Hx2.
    destruct ((ob + 1 <=? Z.of_nat j) && (Z.of_nat j <? ob + 1 + Z.of_nat (Z.to_nat (tb - 1)))) eqn:F1.
    - destruct (Z.of_nat j =? ob) eqn:F2; [lia|].
      destruct ((ob <? Z.of_nat j) && (Z.of_nat j <? ob + tb)) eqn:F3; [reflexivity|lia].
    - destruct (Nat.eqb j (Z.to_nat ob)) eqn:F4.
      + apply Nat.eqb_eq in F4. destruct (Z.of_nat j =? ob) eqn:F2; [|lia]. now rewrite Hb0e.
      + apply Nat.eqb_neq in F4. destruct (Z.of_nat j =? ob) eqn:F2; [lia|].
        destruct ((ob <? Z.of_nat j) && (Z.of_nat j <? ob + tb)) eqn:F3; [lia|reflexivity]. }
  (* bits of vle *)
  assert (HV : forall j b, 0 <= b < 8 -> 0 <= j <= tb ->
     Z.testbit (nth (Z.to_nat j) vle 0) b = vbit v n (8 * (ob + j) + b - off)).
  { intros j b Hbb Hj. unfold vle. rewrite vle_nth by lia.
    unfold val. rewrite masked_testbit by (unfold extra; lia). f_equal.
    unfold ob, extra; lia. }
  assert (HBits : forall i, 0 <= i -> bit_at d3 i =
     if i / 8 =? ob then (bit_at data i && (i mod 8 <? off)) || vbit v n (i - off)
     else if (ob <? i / 8) && (i / 8 <? ob + tb) then vbit v n (i - off)
     else bit_at data i).
  { intros i Hi. unfold bit_at at 1. rewrite HB3. rewrite Z2Nat.id by lia.
    destruct (i / 8 =? ob) eqn:F1.
    - rewrite Z.lor_spec, Z.land_spec. change 0%nat with (Z.to_nat 0).
      rewrite HV by lia. rewrite Z.testbit_ones_nonneg by lia.
      rewrite orb_comm. f_equal; [|f_equal; lia]. f_equal. unfold bit_at, old.
      do 2 f_equal. lia.
    - destruct ((ob <? i / 8) && (i / 8 <? ob + tb)) eqn:F2; [|reflexivity].
      rewrite HV by lia. f_equal. lia. }
  destruct (tb * 8 - extra <? n) eqn:Esp.
  - assert (Hspill : ob + tb < zlen data) by (unfold ob, tb, extra in *; lia).
    rewrite (py_get_in d3) by lia. cbn [bind].
    rewrite (py_get_in vle) by lia. cbn [bind].
    set (oldl := nth (Z.to_nat (ob + tb)) d3 0).
    assert (Holdl : is_byte oldl) by (now apply is_bytes_nth).
    assert (Holdle : oldl = nth (Z.to_nat (ob + tb)) data 0).
    { unfold oldl. rewrite HB3.
      destruct (Z.of_nat (Z.to_nat (ob + tb)) =? ob) eqn:F1; [lia|].
      destruct ((ob <? Z.of_nat (Z.to_nat (ob + tb))) && (Z.of_nat (Z.to_nat (ob + tb)) <? ob + tb)) eqn:F2;
        [lia|reflexivity]. }
    set (bl := nth (Z.to_nat tb) vle 0).
    assert (Hbl : is_byte bl) by (now apply is_bytes_nth).
    set (msk := Z.shiftl 1 (8 - (tb * 8 - extra) mod 8) - 1).
    assert (Hmsk : msk = Z.ones extra).
    { unfold msk. rewrite shiftl_1_minus_1 by lia. f_equal. unfold extra, tb in *. lia. }
    assert (Hbm : is_byte (Z.land bl msk)) by (now apply land_byte).
    rewrite py_set_in by (auto; lia). cbn [bind].
    set (d4 := list_set d3 (Z.to_nat (ob + tb)) (Z.land bl msk)).
    assert (Hd4l : zlen d4 = zlen data) by (unfold zlen, d4 in *; rewrite list_set_length; lia).
    rewrite (py_get_in d4) by lia. cbn [bind].
    assert (Hb' : nth (Z.to_nat (ob + tb)) d4 0 = Z.land bl msk).
    { unfold d4. rewrite list_set_nth by (unfold zlen in *; lia). now rewrite Nat.eqb_refl. }
    rewrite Hb'.
    assert (Hlast : is_byte (Z.lor (Z.land bl msk) (Z.land oldl (Z.lnot (Z.ones off))))).
    { apply lor_byte; [assumption|now apply land_byte]. }
    rewrite py_set_in by (auto; lia).
    eexists. split; [reflexivity|].
    split; [unfold d4; rewrite !list_set_length; unfold zlen in *; lia|].
    split; [unfold d4; repeat apply list_set_bytes; assumption|].
    intros i Hi. unfold written_bit. fold ob. fold tb. fold extra.
    unfold bit_at at 1. unfold d4.
    rewrite list_set_nth by (rewrite list_set_length; unfold zlen in *; lia).
    rewrite list_set_nth by (unfold zlen in *; lia).
    destruct (Nat.eqb (Z.to_nat (i / 8)) (Z.to_nat (ob + tb))) eqn:F1.
    + apply Nat.eqb_eq in F1.
      destruct (i / 8 =? ob) eqn:F2; [lia|].
      destruct ((ob <? i / 8) && (i / 8 <? ob + tb)) eqn:F3; [lia|].
      replace (8 * tb) with (tb * 8) by lia. rewrite Esp.
      replace (i / 8 =? ob + tb) with true by lia. cbn [andb].
      rewrite Z.lor_spec, !Z.land_spec, Hmsk. rewrite Z.lnot_spec by lia.
      rewrite !Z.testbit_ones_nonneg by (unfold extra; lia).
      unfold bl. rewrite HV by lia.
      replace (8 * (ob + tb) + i mod 8 - off) with (i - off) by lia.
      f_equal.
      * unfold vbit. destruct (i mod 8 <? extra) eqn:F4; [now rewrite andb_true_r|].
        replace (i - off <? n) with false by (unfold ob, tb, extra in *; lia).
        rewrite !andb_false_r. reflexivity.
      * rewrite Holdle. unfold bit_at. rewrite F1. f_equal. lia.
    + apply Nat.eqb_neq in F1. change (Z.testbit (nth (Z.to_nat (i / 8)) d3 0) (i mod 8)) with (bit_at d3 i).
      rewrite HBits by assumption.
      destruct (i / 8 =? ob) eqn:F2; [reflexivity|].
      destruct ((ob <? i / 8) && (i / 8 <? ob + tb)) eqn:F3; [reflexivity|].
      replace (i / 8 =? ob + tb) with false by lia. reflexivity.
  - exists d3. split; [reflexivity|]. split; [unfold zlen in *; lia|]. split; [assumption|].
    intros i Hi. unfold written_bit. fold ob. fold tb. fold extra.
    rewrite HBits by assumption.
    replace (8 * tb) with (tb * 8) by lia. rewrite Esp. rewrite andb_false_r. reflexivity.
Qed.

Lemma write_value_one_bits data off s v :
  is_bytes data -> in_bounds (zlen data) off 1 ->
  exists data', write_value data off 1 s v = Ok data' /\ List.length data' = List.length data /\
    is_bytes data' /\
    forall i, 0 <= i -> bit_at data' i = if i =? off then (v =? 1) else bit_at data i.
Proof.
  intros Hd (Ho & _ & Hb). unfold write_value. change (1 <=? 64) with true. cbn [negb].
  cbv zeta. change (1 =? 1) with true. cbv iota.
  rewrite py_get_in by lia. cbn [bind].
  set (ob := off / 8). set (e := off mod 8). set (b := nth (Z.to_nat ob) data 0).
  assert (Hbb : is_byte b) by (now apply is_bytes_nth).
  rewrite Z.shiftl_1_l.
  assert (Hpe : is_byte (2 ^ e)).
  { unfold is_byte. assert (0 < 2 ^ e) by (apply pow2_pos; unfold e; lia).
    assert (2 ^ e <= 2 ^ 7) by (apply Z.pow_le_mono_r; unfold e; lia).
    change (2 ^ 7) with 128 in *. lia. }
  set (x := if v =? 1 then Z.lor b (2 ^ e) else Z.land b (Z.lnot (2 ^ e))).
  assert (Hx : is_byte x).
  { unfold x. destruct (v =? 1); [now apply lor_byte|now apply land_byte]. }
  assert (Hxb : forall k, 0 <= k -> Z.testbit x k = if k =? e then (v =? 1) else Z.testbit b k).
  { intros k Hk. unfold x. destruct (v =? 1).
    - rewrite Z.lor_spec, Z.pow2_bits_eqb by (unfold e; lia).
      destruct (k =? e) eqn:E; destruct (e =? k) eqn:E'; rewrite ?orb_true_r, ?orb_false_r;
        try reflexivity; lia.
    - rewrite Z.land_spec, Z.lnot_spec by lia. rewrite Z.pow2_bits_eqb by (unfold e; lia).
      destruct (k =? e) eqn:E; destruct (e =? k) eqn:E'; cbn [negb];
        rewrite ?andb_true_r, ?andb_false_r; try reflexivity; lia. }
  exists (list_set data (Z.to_nat ob) x).
  split.
  { unfold x in *. destruct (v =? 1); apply py_set_in; auto; unfold ob; lia. }
  split; [apply list_set_length|]. split; [now apply list_set_bytes|].
  intros i Hi. unfold bit_at at 1. rewrite list_set_nth by (unfold zlen, ob in *; lia).
  destruct (Nat.eqb (Z.to_nat (i / 8)) (Z.to_nat ob)) eqn:F.
  - apply Nat.eqb_eq in F. rewrite Hxb by lia.
    destruct (i =? off) eqn:F1; destruct (i mod 8 =? e) eqn:F2; try reflexivity;
      try (exfalso; unfold e, ob in *; lia). unfold bit_at, b. now rewrite F.
  - apply Nat.eqb_neq in F. destruct (i =? off) eqn:F1; [unfold ob in *; lia|]. reflexivity.
Qed.
