(** Bit-level facts about the codec models of Codecs.v. *)
From Coq Require Import List ZArith Bool Lia.
From Coq Require Import ZifyBool ZifyNat.
From Verif Require Import PyBase Spec BitFacts StructFacts SliceFacts Codecs CodecSpec.
Import ListNotations.
Local Open Scope Z_scope.
Ltac Zify.zify_post_hook ::= Z.div_mod_to_equations.

Lemma testbit_mod x n i : 0 <= n -> 0 <= i -> Z.testbit (x mod 2 ^ n) i = (i <? n) && Z.testbit x i.
Proof.
  intros Hn Hi. destruct (i <? n) eqn:E; cbn [andb].
  - apply Z.mod_pow2_bits_low. lia.
  - apply Z.mod_pow2_bits_high. lia.
Qed.

Lemma testbit_ones n i : 0 <= n -> 0 <= i -> Z.testbit (Z.ones n) i = (i <? n).
Proof.
  intros Hn Hi. destruct (i <? n) eqn:E.
  - apply Z.ones_spec_low. lia.
  - apply Z.ones_spec_high. lia.
Qed.

Lemma testbit_shiftl x n i : 0 <= n -> 0 <= i ->
  Z.testbit (Z.shiftl x n) i = (n <=? i) && Z.testbit x (i - n).
Proof.
  intros Hn Hi. rewrite Z.shiftl_spec by assumption. destruct (n <=? i) eqn:E; cbn [andb]; [reflexivity|].
  apply Z.testbit_neg_r. lia.
Qed.

Lemma pow_m1_ones n : 0 <= n -> 2 ^ n - 1 = Z.ones n.
Proof. intros H. rewrite Z.ones_equiv. lia. Qed.

Lemma below_of_bits x n : 0 <= x -> 0 <= n -> (forall i, n <= i -> Z.testbit x i = false) -> x < 2 ^ n.
Proof.
  intros Hx Hn H. assert (E : x = x mod 2 ^ n).
  { apply Z.bits_inj'. intros i Hi. rewrite testbit_mod by assumption.
    destruct (i <? n) eqn:F; cbn [andb]; [reflexivity|]. apply H. lia. }
  rewrite E. apply Z.mod_pos_bound. lia.
Qed.

Lemma bits_above x n i : 0 <= x < 2 ^ n -> 0 <= n -> n <= i -> Z.testbit x i = false.
Proof.
  intros Hx Hn Hi. rewrite <- (Z.mod_small x (2 ^ n)) by lia. rewrite testbit_mod by lia.
  replace (i <? n) with false by lia. reflexivity.
Qed.

(** ** Memory accesses *)

Lemma mem_byte_in data i : 0 <= i < zlen data -> mem_byte data i = Some (nth (Z.to_nat i) data 0).
Proof. intros H. unfold mem_byte. replace ((0 <=? i) && (i <? zlen data)) with true by lia. reflexivity. Qed.

Lemma nth_bit data i b : 0 <= i -> 0 <= b < 8 ->
  Z.testbit (nth (Z.to_nat i) data 0) b = bit_at data (8 * i + b).
Proof. intros Hi Hb. rewrite <- bit_at_nth by assumption. f_equal. lia. Qed.

Lemma nth_bit_high data i b : is_bytes data -> 8 <= b -> Z.testbit (nth i data 0) b = false.
Proof. intros Hd Hb. apply byte_testbit_high; [now apply is_bytes_nth|assumption]. Qed.

Lemma mem_load_in data pos k : 0 <= pos -> 0 <= k -> pos + k <= zlen data ->
  mem_load data pos k = Some (le (firstn (Z.to_nat k) (skipn (Z.to_nat pos) data))).
Proof.
  intros. unfold mem_load.
  replace ((0 <=? pos) && (0 <=? k) && (pos + k <=? zlen data)) with true by lia. reflexivity.
Qed.

Lemma nth_firstn_skipn data p k j : (p + k <= List.length data)%nat ->
  nth j (firstn k (skipn p data)) 0 = if (j <? k)%nat then nth (p + j) data 0 else 0.
Proof.
  intros Hl. destruct (j <? k)%nat eqn:E.
  - rewrite nth_firstn by lia. apply nth_skipn.
  - apply nth_overflow. rewrite firstn_length, skipn_length. lia.
Qed.

Lemma load_bits data pos k i : is_bytes data -> 0 <= pos -> 0 <= k -> pos + k <= zlen data -> 0 <= i ->
  Z.testbit (le (firstn (Z.to_nat k) (skipn (Z.to_nat pos) data))) i
  = (i <? 8 * k) && bit_at data (8 * pos + i).
Proof.
  intros Hd Hp Hk Hl Hi.
  rewrite le_testbit by (auto using is_bytes_firstn, is_bytes_skipn).
  unfold bit_at. rewrite nth_firstn_skipn by (unfold zlen in Hl; lia).
  replace ((8 * pos + i) mod 8) with (i mod 8) by lia.
  destruct (Z.to_nat (i / 8) <? Z.to_nat k)%nat eqn:E.
  - replace (i <? 8 * k) with true by lia. cbn [andb]. do 2 f_equal. lia.
  - replace (i <? 8 * k) with false by lia. apply Z.bits_0.
Qed.

Lemma load_bound data pos k : is_bytes data -> 0 <= pos -> 0 <= k -> pos + k <= zlen data ->
  0 <= le (firstn (Z.to_nat k) (skipn (Z.to_nat pos) data)) < 2 ^ (8 * k).
Proof.
  intros Hd Hp Hk Hl. pose proof (le_bound (firstn (Z.to_nat k) (skipn (Z.to_nat pos) data))) as H.
  replace (zlen (firstn (Z.to_nat k) (skipn (Z.to_nat pos) data))) with k in H.
  - apply H. auto using is_bytes_firstn, is_bytes_skipn.
  - unfold zlen in *. rewrite firstn_length, skipn_length. lia.
Qed.

Lemma mem_store_in data pos k v : is_bytes data -> 0 <= pos -> 0 <= k -> pos + k <= zlen data ->
  exists data', mem_store data pos k v = Some data' /\ List.length data' = List.length data /\
    is_bytes data' /\
    forall i, 0 <= i -> bit_at data' i = if (8 * pos <=? i) && (i <? 8 * (pos + k))
                                         then Z.testbit v (i - 8 * pos) else bit_at data i.
Proof.
  intros Hd Hp Hk Hl. unfold mem_store.
  replace ((0 <=? pos) && (0 <=? k) && (pos + k <=? zlen data)) with true by lia.
  set (a := firstn (Z.to_nat pos) data). set (c := skipn (Z.to_nat pos + Z.to_nat k) data).
  assert (La : List.length a = Z.to_nat pos) by (unfold a, zlen in *; rewrite firstn_length; lia).
  assert (Lc : List.length c = (List.length data - (Z.to_nat pos + Z.to_nat k))%nat) by apply skipn_length.
  exists (a ++ to_le (Z.to_nat k) v ++ c). split; [reflexivity|].
  split; [rewrite !app_length, to_le_length; unfold zlen in *; lia|].
  split.
  { rewrite !is_bytes_app. split; [now apply is_bytes_firstn|]. split; [apply to_le_bytes|now apply is_bytes_skipn]. }
  intros i Hi. unfold bit_at at 1.
  destruct (8 * pos <=? i) eqn:E1; cbn [andb].
  - rewrite app_nth2 by lia. destruct (i <? 8 * (pos + k)) eqn:E2.
    + rewrite app_nth1 by (rewrite to_le_length; lia).
      pose proof (to_le_testbit (Z.to_nat k) v (i - 8 * pos) ltac:(lia)) as Ht. unfold bit_at in Ht.
      replace ((i - 8 * pos) mod 8) with (i mod 8) in Ht by lia.
      replace (Z.to_nat (i / 8) - List.length a)%nat with (Z.to_nat ((i - 8 * pos) / 8)) by lia.
      rewrite Ht. replace (i - 8 * pos <? 8 * Z.of_nat (Z.to_nat k)) with true by lia. reflexivity.
    + rewrite app_nth2 by (rewrite to_le_length; lia). unfold c, bit_at. rewrite nth_skipn.
      rewrite to_le_length. do 2 f_equal. lia.
  - rewrite app_nth1 by lia. unfold a, bit_at. rewrite nth_firstn by lia. reflexivity.
Qed.

(** ** Conversions *)

Lemma cast_unsigned_small w v : 0 <= v < 2 ^ w -> cast w false v = v.
Proof. intros H. cbn. now apply Z.mod_small. Qed.

Lemma pow_split n : 1 <= n -> 2 ^ n = 2 * 2 ^ (n - 1).
Proof. intros H. replace n with (1 + (n - 1)) at 1 by lia. rewrite Z.pow_add_r by lia. reflexivity. Qed.

Lemma cast_signed_small w v : 1 <= w -> - 2 ^ (w - 1) <= v < 2 ^ (w - 1) -> cast w true v = v.
Proof. intros Hw H. cbn [cast]. rewrite Z.mod_small; [lia|]. rewrite (pow_split w) by lia. lia. Qed.

Lemma cast_twos n v : 1 <= n -> 0 <= v < 2 ^ n -> cast n true v = twos_complement n v.
Proof.
  intros Hn Hv. cbn [cast]. unfold twos_complement. pose proof (pow_split n Hn) as Hp.
  destruct (v <? 2 ^ (n - 1)) eqn:E.
  - rewrite Z.mod_small by lia. lia.
  - replace ((v + 2 ^ (n - 1)) mod 2 ^ n) with (v - 2 ^ (n - 1)).
    + lia.
    + apply Z.mod_unique with 1; lia.
Qed.

Lemma twos_range n v : 1 <= n -> 0 <= v < 2 ^ n -> - 2 ^ (n - 1) <= twos_complement n v < 2 ^ (n - 1).
Proof.
  intros Hn Hv. pose proof (pow_split n Hn). unfold twos_complement. destruct (v <? 2 ^ (n - 1)) eqn:E; lia.
Qed.

Lemma cast_extend w n v : 1 <= n <= w -> - 2 ^ (n - 1) <= v < 2 ^ (n - 1) -> cast w true v = v.
Proof.
  intros Hn Hv. apply cast_signed_small; [lia|].
  assert (2 ^ (n - 1) <= 2 ^ (w - 1)) by (apply Z.pow_le_mono_r; lia). lia.
Qed.

Lemma cast_extend_u w n v : 0 <= n <= w -> 0 <= v < 2 ^ n -> cast w false v = v.
Proof.
  intros Hn Hv. apply cast_unsigned_small.
  assert (2 ^ n <= 2 ^ w) by (apply Z.pow_le_mono_r; lia). lia.
Qed.

(** ** What a word read yields *)

Lemma uint_pos_bound buf off n : 0 <= n -> 0 <= uint_at buf off (Z.to_nat n) < 2 ^ n.
Proof.
  intros Hn. pose proof (uint_at_bound buf (Z.to_nat n) off) as H. now rewrite Z2Nat.id in H by assumption.
Qed.

(** The whole field lies in the [k] loaded bytes. *)
Lemma word_field data off n k : is_bytes data -> 0 <= off -> 1 <= n -> 0 <= k -> off / 8 + k <= zlen data ->
  n <= 8 * k - off mod 8 ->
  Z.land (Z.shiftr (le (firstn (Z.to_nat k) (skipn (Z.to_nat (off / 8)) data))) (off mod 8)) (Z.ones n)
  = uint_at data off (Z.to_nat n).
Proof.
  intros Hd Ho Hn Hk Hl Hb. apply Z.bits_inj'. intros i Hi.
  rewrite Z.land_spec, testbit_ones, Z.shiftr_spec, uint_at_testbit by lia.
  rewrite load_bits by (auto; lia). rewrite Z2Nat.id by lia.
  replace (8 * (off / 8) + (i + off mod 8)) with (off + i) by lia.
  destruct (i <? n) eqn:E; cbn [andb].
  - replace (i + off mod 8 <? 8 * k) with true by lia. now rewrite andb_true_r.
  - now rewrite andb_false_r.
Qed.

(** The field spills into the byte after the 8 loaded bytes. *)
Lemma word_field_spill data off n : is_bytes data -> 0 <= off -> 1 <= n <= 64 ->
  off / 8 + 9 <= zlen data -> 64 - off mod 8 < n ->
  Z.land (Z.lor (Z.shiftr (le (firstn (Z.to_nat 8) (skipn (Z.to_nat (off / 8)) data))) (off mod 8))
                ((Z.shiftl (nth (Z.to_nat (off / 8 + 8)) data 0) (64 - off mod 8)) mod 2 ^ 64)) (Z.ones n)
  = uint_at data off (Z.to_nat n).
Proof.
  intros Hd Ho Hn Hl Hs. apply Z.bits_inj'. intros i Hi.
  rewrite Z.land_spec, testbit_ones, Z.lor_spec, Z.shiftr_spec, uint_at_testbit by lia.
  rewrite load_bits by (auto; lia). rewrite testbit_mod, testbit_shiftl by lia. rewrite Z2Nat.id by lia.
  replace (8 * (off / 8) + (i + off mod 8)) with (off + i) by lia.
  destruct (i <? n) eqn:E; cbn [andb]; [|now rewrite andb_false_r].
  rewrite andb_true_r. replace (i <? 64) with true by lia. cbn [andb].
  destruct (i + off mod 8 <? 8 * 8) eqn:F; cbn [andb].
  - replace (64 - off mod 8 <=? i) with false by lia. cbn [andb]. now rewrite orb_false_r.
  - replace (64 - off mod 8 <=? i) with true by lia. cbn [andb orb].
    rewrite nth_bit by lia. f_equal. lia.
Qed.

(** ** Readers *)

Lemma extend_value wT sT n u : 1 <= n -> type_holds wT sT n -> 0 <= u < 2 ^ n ->
  cpp_extend_sign wT sT n u = if sT then twos_complement n u else u.
Proof.
  intros Hn [Hw Hs] Hu. unfold cpp_extend_sign. destruct sT.
  - rewrite (cast_twos n u) by lia. apply cast_extend with n; [lia|]. now apply twos_range.
  - apply cast_extend_u with n; lia.
Qed.

Lemma cast_bit wT sT n (b : bool) : 1 <= n -> type_holds wT sT n ->
  cast wT sT (if b then 0 else 1) = if b then 0 else 1.
Proof.
  intros Hn [Hw Hs]. destruct sT.
  - apply cast_extend with 2; [lia|]. destruct b; cbn; lia.
  - apply cast_extend_u with 1; [lia|]. destruct b; cbn; lia.
Qed.

Lemma bit_test data off : is_bytes data -> 0 <= off ->
  (Z.land (nth (Z.to_nat (off / 8)) data 0) (Z.shiftl 1 (off mod 8)) =? 0) = negb (bit_at data off).
Proof.
  intros Hd Ho. unfold bit_at. set (b := nth _ _ _). set (k := off mod 8).
  assert (Hk : 0 <= k) by lia. rewrite Z.shiftl_1_l.
  destruct (Z.testbit b k) eqn:E; cbn [negb].
  - apply Z.eqb_neq. intros H. assert (F : Z.testbit (Z.land b (2 ^ k)) k = false) by (rewrite H; apply Z.bits_0).
    rewrite Z.land_spec, E, Z.pow2_bits_true in F by assumption. discriminate.
  - apply Z.eqb_eq. apply Z.bits_inj'. intros i Hi. rewrite Z.bits_0, Z.land_spec.
    destruct (Z.eq_dec i k) as [->|Hne].
    + now rewrite E.
    + rewrite Z.pow2_bits_false by auto. apply andb_false_r.
Qed.

Lemma word_cases off n : 0 <= off -> 1 <= n <= 64 ->
  let w := cpp_word off n in
  (w = 8 \/ w = 16 \/ w = 32 \/ w = 64) /\ n <= w /\ (w - off mod 8 < n -> w = 64 /\ off mod 8 <> 0).
Proof.
  intros Ho Hn w. unfold w, cpp_word, bits_to_unsigned.
  destruct (n + off mod 8 <=? 64) eqn:E0; cbv zeta.
  - destruct ((n + off mod 8 + 7) / 8 <=? 1) eqn:E1; [lia|].
    destruct ((n + off mod 8 + 7) / 8 <=? 2) eqn:E2; [lia|].
    destruct ((n + off mod 8 + 7) / 8 <=? 4) eqn:E3; lia.
  - destruct ((n + 7) / 8 <=? 1) eqn:E1; [lia|].
    destruct ((n + 7) / 8 <=? 2) eqn:E2; [lia|].
    destruct ((n + 7) / 8 <=? 4) eqn:E3; lia.
Qed.

Lemma masked_ones n w v : 1 <= n <= w -> 0 <= v < 2 ^ w -> cpp_masked n w v = Z.land v (Z.ones n).
Proof.
  intros Hn Hv. unfold cpp_masked. destruct (n =? w) eqn:E.
  - assert (n = w) by lia. subst n. rewrite Z.land_ones by lia. now rewrite Z.mod_small.
  - rewrite Z.shiftl_1_l. rewrite (Z.mod_small (2 ^ n)).
    + now rewrite pow_m1_ones by lia.
    + split; [apply Z.pow_nonneg; lia|]. apply Z.pow_lt_mono_r; lia.
Qed.

Lemma shiftr_bound x b w : 0 <= x < 2 ^ w -> 0 <= b -> 0 <= Z.shiftr x b < 2 ^ w.
Proof.
  intros Hx Hb. rewrite Z.shiftr_div_pow2 by assumption.
  assert (0 < 2 ^ b) by (apply Z.pow_pos_nonneg; lia). split.
  - apply Z.div_pos; lia.
  - apply Z.le_lt_trans with x; [|lia]. apply Z.div_le_upper_bound; [lia|]. nia.
Qed.

Lemma lor_bound a b w : 0 <= w -> 0 <= a < 2 ^ w -> 0 <= b < 2 ^ w -> 0 <= Z.lor a b < 2 ^ w.
Proof.
  intros Hw Ha Hb. assert (0 <= Z.lor a b) by (apply Z.lor_nonneg; lia). split; [assumption|].
  apply below_of_bits; auto. intros i Hi. rewrite Z.lor_spec.
  now rewrite !(bits_above _ w) by lia.
Qed.

Lemma schema_value_field data off n s : n <> 1 ->
  schema_value data off n s
  = (if s then twos_complement n (uint_at data off (Z.to_nat n)) else uint_at data off (Z.to_nat n)).
Proof. intros H. unfold schema_value. replace (n =? 1) with false by lia. reflexivity. Qed.

Lemma cpp_read_value wT sT data off n :
  is_bytes data -> padded data off n -> 1 <= n <= 64 -> type_holds wT sT n ->
  cpp_read wT sT data off n = Some (schema_value data off n sT).
Proof.
  intros Hd (Ho & _ & Hl) Hn Ht. unfold cpp_read. cbv zeta.
  destruct (n =? 1) eqn:E1.
  - rewrite mem_byte_in by lia. cbn [obind]. rewrite bit_test by assumption.
    rewrite (cast_bit wT sT n) by (auto; lia). unfold schema_value. rewrite E1.
    now destruct (bit_at data off).
  - rewrite schema_value_field by lia.
    destruct (word_cases off n Ho Hn) as (Hw & Hnw & Hsp). cbv zeta in Hw, Hnw, Hsp.
    set (w := cpp_word off n) in *.
    assert (Hw8 : 8 * (w / 8) = w) by lia.
    assert (Hfit : off / 8 + w / 8 <= zlen data) by lia.
    rewrite mem_load_in by lia. cbn [obind].
    pose proof (load_bound data (off / 8) (w / 8) Hd ltac:(lia) ltac:(lia) Hfit) as HL. rewrite Hw8 in HL.
    assert (HS := shiftr_bound _ (off mod 8) _ HL ltac:(lia)).
    destruct (w - off mod 8 <? n) eqn:E2.
    + destruct (Hsp ltac:(lia)) as [W64 Hne]. rewrite W64 in *.
      change (64 / 8) with 8 in *. rewrite mem_byte_in by lia. cbn [obind].
      replace ((64 - off mod 8) mod 64) with (64 - off mod 8) by lia.
      rewrite masked_ones; [|lia|].
      * rewrite word_field_spill by (auto; lia). f_equal.
        apply extend_value; [lia|assumption|]. apply uint_pos_bound. lia.
      * apply lor_bound; [lia|assumption|]. apply Z.mod_pos_bound. reflexivity.
    + cbn [obind]. rewrite masked_ones by (auto; lia).
      rewrite word_field by (auto; lia). f_equal.
      apply extend_value; [lia|assumption|]. apply uint_pos_bound. lia.
Qed.

Lemma rust_extend_value wT sT n u : 1 <= n -> type_holds wT sT n -> 0 <= u < 2 ^ n ->
  rust_extend wT sT u n = if sT then twos_complement n u else u.
Proof.
  intros Hn [Hw Hs] Hu. unfold rust_extend. destruct sT; [|apply cast_extend_u with n; lia].
  cbv zeta. rewrite (Z.mod_small (wT - n) wT) by lia.
  set (m := wT - n). assert (Hm : 0 <= m) by lia.
  rewrite Z.shiftl_mul_pow2, Z.shiftr_div_pow2 by assumption.
  assert (Hpm : 0 < 2 ^ m) by (apply Z.pow_pos_nonneg; lia).
  assert (Ep : 2 ^ wT = 2 ^ m * 2 ^ n) by (rewrite <- Z.pow_add_r by lia; f_equal; lia).
  assert (Ep1 : 2 ^ (wT - 1) = 2 ^ m * 2 ^ (n - 1)) by (rewrite <- Z.pow_add_r by lia; f_equal; lia).
  pose proof (pow_split n Hn) as Hpn.
  assert (Hc : cast wT true (cast wT true u * 2 ^ m) = twos_complement n u * 2 ^ m).
  { assert (Hcu : exists q, cast wT true u = u + q * 2 ^ wT).
    { exists (- ((u + 2 ^ (wT - 1)) / 2 ^ wT)). cbn [cast].
      rewrite (Z.mod_eq (u + 2 ^ (wT - 1)) (2 ^ wT)) by nia. lia. }
    destruct Hcu as [q Hq]. rewrite Hq.
    assert (Htw : exists e, u = twos_complement n u + e * 2 ^ n).
    { unfold twos_complement. destruct (u <? 2 ^ (n - 1)); [exists 0; lia|exists 1; lia]. }
    destruct Htw as [e He].
    pose proof (twos_range n u Hn Hu) as Hr. set (t := twos_complement n u) in *.
    cbn [cast].
    replace ((u + q * 2 ^ wT) * 2 ^ m + 2 ^ (wT - 1)) with (t * 2 ^ m + 2 ^ (wT - 1) + (e + q * 2 ^ m) * 2 ^ wT).
    - rewrite Z_mod_plus_full. rewrite Z.mod_small; [lia|]. rewrite Ep, Ep1, Hpn. nia.
    - rewrite He at 1. rewrite Ep. ring. }
  rewrite Hc. apply Z.div_mul. lia.
Qed.

Lemma rust_mask_ones v n : 1 <= n <= 64 -> 0 <= v < 2 ^ 64 -> rust_mask v n = Z.land v (Z.ones n).
Proof.
  intros Hn Hv. unfold rust_mask. destruct (n <? 64) eqn:E.
  - now rewrite shiftl_1_minus_1 by lia.
  - assert (n = 64) by lia. subst n. rewrite Z.land_ones by lia. now rewrite Z.mod_small.
Qed.

(** Rust reads the field correctly unless it spans nine bytes and does not start in the first byte. *)
Definition rust_ok (off n : Z) : Prop := off mod 8 + n <= 64 \/ off < 8.

Lemma rust_read_value wT sT data off n :
  is_bytes data -> in_bounds (zlen data) off n -> 1 <= n <= 64 -> type_holds wT sT n ->
  rust_ok off n ->
  rust_read wT sT data off n = Some (schema_value data off n sT).
Proof.
  intros Hd (Ho & _ & Hl) Hn Ht Hok. unfold rust_read. cbv zeta.
  destruct (n =? 1) eqn:E1.
  - rewrite mem_byte_in by lia. cbn [obind]. rewrite bit_test by assumption.
    rewrite (cast_bit wT sT n) by (auto; lia). unfold schema_value. rewrite E1.
    now destruct (bit_at data off).
  - rewrite schema_value_field by lia.
    set (k := Z.min 8 ((n + off mod 8 + 7) / 8)).
    assert (Hk : 1 <= k <= 8) by (unfold k; lia).
    assert (Hfit : off / 8 + k <= zlen data) by (unfold k; lia).
    rewrite mem_load_in by lia. cbn [obind].
    pose proof (load_bound data (off / 8) k Hd ltac:(lia) ltac:(lia) Hfit) as HL.
    assert (HL64 : 2 ^ (8 * k) <= 2 ^ 64) by (apply Z.pow_le_mono_r; lia).
    assert (HS := shiftr_bound _ (off mod 8) 64 ltac:(split; [apply HL|apply Z.lt_le_trans with (1 := proj2 HL); exact HL64]) ltac:(lia)).
    destruct (k * 8 - off mod 8 <? n) eqn:E2.
    + assert (K8 : k = 8) by (unfold k in *; lia). rewrite K8 in *. change (8 * 8) with 64 in *.
      assert (B0 : off / 8 = 0) by (unfold rust_ok in Hok; lia). rewrite B0 in *.
      rewrite mem_byte_in by lia. cbn [obind].
      replace ((64 - off mod 8) mod 64) with (64 - off mod 8) by lia.
      rewrite rust_mask_ones; [|lia|].
      * pose proof (word_field_spill data off n Hd Ho Hn ltac:(lia) ltac:(lia)) as Hws. rewrite B0 in Hws.
        change (0 + (0 + 8)) with (0 + 8). rewrite Hws. f_equal.
        apply rust_extend_value; [lia|assumption|]. apply uint_pos_bound. lia.
      * apply lor_bound; [lia|assumption|]. apply Z.mod_pos_bound. reflexivity.
    + cbn [obind]. rewrite rust_mask_ones by (auto; lia).
      rewrite word_field by (auto; lia). f_equal.
      apply rust_extend_value; [lia|assumption|]. apply uint_pos_bound. lia.
Qed.

(** ** Writers *)

(** [x] holds exactly the low [n] bits of [t]. *)
Definition low_bits (n t x : Z) : Prop := forall i, 0 <= i -> Z.testbit x i = (i <? n) && Z.testbit t i.

Lemma word_store data off n t S M k W :
  is_bytes data -> 0 <= off -> 1 <= n -> 0 <= k -> 8 * k <= W -> off / 8 + k <= zlen data ->
  low_bits n t S -> low_bits n (-1) M ->
  exists data', mem_store data (off / 8) k
      (Z.lor (Z.land (le (firstn (Z.to_nat k) (skipn (Z.to_nat (off / 8)) data)))
                     ((Z.lnot (Z.shiftl M (off mod 8))) mod 2 ^ W))
             ((Z.shiftl S (off mod 8)) mod 2 ^ W)) = Some data' /\
    List.length data' = List.length data /\ is_bytes data' /\
    forall i, 0 <= i -> bit_at data' i
      = if (off <=? i) && (i <? off + n) && (i <? 8 * (off / 8 + k)) then Z.testbit t (i - off)
        else bit_at data i.
Proof.
  intros Hd Ho Hn Hk HW Hl HS HM.
  match goal with |- exists d, mem_store _ _ _ ?v = _ /\ _ => set (V := v) end.
  destruct (mem_store_in data (off / 8) k V Hd ltac:(lia) Hk Hl) as (d & Hs & Hlen & Hb & Hbits).
  exists d. split; [assumption|]. split; [assumption|]. split; [assumption|].
  intros i Hi. rewrite Hbits by assumption.
  destruct ((8 * (off / 8) <=? i) && (i <? 8 * (off / 8 + k))) eqn:E.
  - unfold V. rewrite Z.lor_spec, Z.land_spec, !testbit_mod, Z.lnot_spec, !testbit_shiftl, load_bits by (auto; lia).
    replace (i - 8 * (off / 8) <? W) with true by lia. cbn [andb].
    replace (i - 8 * (off / 8) <? 8 * k) with true by lia. cbn [andb].
    replace (8 * (off / 8) + (i - 8 * (off / 8))) with i by lia.
    replace (i - 8 * (off / 8) - off mod 8) with (i - off) by lia.
    replace (off mod 8 <=? i - 8 * (off / 8)) with (off <=? i) by lia.
    replace (i <? 8 * (off / 8 + k)) with true by lia. rewrite andb_true_r.
    destruct (off <=? i) eqn:F1; cbn [andb negb].
    + rewrite HS, HM by lia. rewrite Z.bits_m1 by lia. rewrite andb_true_r.
      replace (i - off <? n) with (i <? off + n) by lia.
      destruct (i <? off + n); cbn [andb negb orb].
      * rewrite andb_false_r. reflexivity.
      * rewrite andb_true_r, orb_false_r. reflexivity.
    + rewrite andb_true_r, orb_false_r. reflexivity.
  - replace ((off <=? i) && (i <? off + n) && (i <? 8 * (off / 8 + k))) with false by lia. reflexivity.
Qed.

Lemma spill_store data off n t S M p A :
  is_bytes data -> 0 <= off -> 1 <= n <= 64 -> 64 - off mod 8 < n -> p = off / 8 + 8 -> p + 1 <= zlen data ->
  low_bits n t S -> low_bits n (-1) M ->
  (forall i, 0 <= i < 8 -> Z.testbit A i = Z.testbit (nth (Z.to_nat p) data 0) i
                                            && negb (Z.testbit M (i + (64 - off mod 8)))) ->
  exists data', mem_store data p 1
      (Z.lor A ((Z.shiftr S (64 - off mod 8)) mod 256)) = Some data' /\
    List.length data' = List.length data /\ is_bytes data' /\
    forall i, 0 <= i -> bit_at data' i
      = if (off + (64 - off mod 8) <=? i) && (i <? off + n) then Z.testbit t (i - off) else bit_at data i.
Proof.
  intros Hd Ho Hn Hsp -> Hl HS HM HA.
  match goal with |- exists d, mem_store _ _ _ ?v = _ /\ _ => set (V := v) end.
  destruct (mem_store_in data (off / 8 + 8) 1 V Hd ltac:(lia) ltac:(lia) Hl) as (d & Hs & Hlen & Hb & Hbits).
  exists d. split; [assumption|]. split; [assumption|]. split; [assumption|].
  intros i Hi. rewrite Hbits by assumption.
  destruct ((8 * (off / 8 + 8) <=? i) && (i <? 8 * (off / 8 + 8 + 1))) eqn:E.
  - unfold V. rewrite Z.lor_spec, HA by lia. change 256 with (2 ^ 8).
    rewrite testbit_mod, Z.shiftr_spec by lia.
    replace (i - 8 * (off / 8 + 8) <? 8) with true by lia. cbn [andb].
    rewrite HS, HM by lia. rewrite Z.bits_m1 by lia. rewrite andb_true_r.
    rewrite nth_bit by lia.
    replace (8 * (off / 8 + 8) + (i - 8 * (off / 8 + 8))) with i by lia.
    replace (i - 8 * (off / 8 + 8) + (64 - off mod 8)) with (i - off) by lia.
    replace (off + (64 - off mod 8) <=? i) with true by lia. cbn [andb].
    replace (i - off <? n) with (i <? off + n) by lia.
    destruct (i <? off + n); cbn [andb negb orb].
    + rewrite andb_false_r. reflexivity.
    + rewrite andb_true_r, orb_false_r. reflexivity.
  - replace ((off + (64 - off mod 8) <=? i) && (i <? off + n)) with false by lia. reflexivity.
Qed.

Lemma low_bits_mod n t x : 0 <= n -> x = t mod 2 ^ n -> low_bits n t x.
Proof. intros Hn -> i Hi. now apply testbit_mod. Qed.

Lemma low_bits_ones n : 0 <= n -> low_bits n (-1) (Z.ones n).
Proof. intros Hn i Hi. rewrite testbit_ones by assumption. rewrite Z.bits_m1 by assumption. now rewrite andb_true_r. Qed.

Lemma mod_mod_pow t n w : 0 <= n <= w -> (t mod 2 ^ w) mod 2 ^ n = t mod 2 ^ n.
Proof.
  intros H. apply Z.bits_inj'. intros i Hi. rewrite !testbit_mod by lia.
  destruct (i <? n) eqn:E; cbn [andb]; [|reflexivity]. replace (i <? w) with true by lia. reflexivity.
Qed.

(** The value a representable [t] is stored as: its low [n] bits, whether masked or not. *)
Lemma stored_value n w t sT mask_it : 1 <= n <= w -> representable n sT t -> (mask_it = true \/ 0 <= t) ->
  (if mask_it : bool then (t mod 2 ^ w) mod 2 ^ n else t mod 2 ^ w) = t mod 2 ^ n.
Proof.
  intros Hn Hr Hm. destruct mask_it; [apply mod_mod_pow; lia|].
  destruct Hm as [Hm|Hm]; [discriminate|].
  assert (Ht : t < 2 ^ n).
  { unfold representable in Hr. destruct sT; [|lia]. pose proof (pow_split n ltac:(lia)). lia. }
  assert (2 ^ n <= 2 ^ w) by (apply Z.pow_le_mono_r; lia).
  rewrite !Z.mod_small by lia. reflexivity.
Qed.

Lemma mod_land_ones x n : 0 <= n -> Z.land x (Z.ones n) = x mod 2 ^ n.
Proof. intros. now apply Z.land_ones. Qed.

Lemma cpp_write_stores sT is_enum data off n t :
  is_bytes data -> padded data off n -> 1 <= n <= 64 -> representable n sT t ->
  (is_enum = false \/ 0 <= t) ->
  exists data', cpp_write sT is_enum data off n t = Some data' /\ stores data off n t data'.
Proof.
  intros Hd (Ho & _ & Hl) Hn Hr Hen. unfold cpp_write. cbv zeta.
  destruct (word_cases off n Ho Hn) as (Hw & Hnw & Hsp). cbv zeta in Hw, Hnw, Hsp.
  set (w := cpp_word off n) in *.
  assert (Hw8 : 8 * (w / 8) = w) by lia.
  assert (Hfit : off / 8 + w / 8 <= zlen data) by lia.
  rewrite mem_load_in by lia. cbn [obind].
  set (S := if sT && negb is_enum then cpp_masked n w (t mod 2 ^ w) else t mod 2 ^ w).
  set (M := cpp_masked n w (2 ^ w - 1)).
  assert (HS : low_bits n t S).
  { apply low_bits_mod; [lia|]. unfold S.
    assert (Hp : 0 < 2 ^ w) by (apply Z.pow_pos_nonneg; lia).
    rewrite masked_ones by (try lia; now apply Z.mod_pos_bound).
    rewrite mod_land_ones by lia. apply stored_value with sT; [lia|assumption|].
    destruct sT; cbn [andb]; [|right; cbn in Hr; lia].
    destruct is_enum; cbn [negb]; [|now left]. destruct Hen; [discriminate|now right]. }
  assert (HM : low_bits n (-1) M).
  { unfold M. rewrite masked_ones.
    - rewrite pow_m1_ones by lia. rewrite mod_land_ones by lia. intros i Hi.
      rewrite testbit_mod, testbit_ones, Z.bits_m1 by lia. rewrite andb_true_r.
      destruct (i <? n) eqn:E; cbn [andb]; [lia|reflexivity].
    - lia.
    - assert (0 < 2 ^ w) by (apply Z.pow_pos_nonneg; lia). lia. }
  destruct (word_store data off n t S M (w / 8) w Hd Ho ltac:(lia) ltac:(lia) ltac:(lia) Hfit HS HM)
    as (d1 & E1 & L1 & B1 & H1).
  rewrite E1. cbn [obind].
  destruct (w - off mod 8 <? n) eqn:E2.
  - destruct (Hsp ltac:(lia)) as [W64 Hne]. rewrite W64 in *. change (64 / 8) with 8 in *.
    assert (Lz : zlen d1 = zlen data) by (unfold zlen; lia).
    rewrite mem_byte_in by lia. cbn [obind].
    replace ((64 - off mod 8) mod 64) with (64 - off mod 8) by lia.
    destruct (spill_store d1 off n t S M (off / 8 + 8)
                ((Z.land (nth (Z.to_nat (off / 8 + 8)) d1 0) (Z.lnot (Z.shiftr M (64 - off mod 8)))) mod 256)
                B1 Ho Hn ltac:(lia) eq_refl ltac:(lia) HS HM) as (d2 & E3 & L3 & B3 & H3).
    + intros i Hi. change 256 with (2 ^ 8). rewrite testbit_mod by lia.
      replace (i <? 8) with true by lia. cbn [andb].
      rewrite Z.land_spec, Z.lnot_spec, Z.shiftr_spec by lia. reflexivity.
    + exists d2. split; [exact E3|]. split; [lia|]. split; [assumption|].
      intros i Hi. rewrite H3, H1 by assumption.
      destruct ((off + (64 - off mod 8) <=? i) && (i <? off + n)) eqn:F1;
      destruct ((off <=? i) && (i <? off + n)) eqn:F2; cbn [andb]; try reflexivity; try lia.
      replace (i <? 8 * (off / 8 + 8)) with true by lia. reflexivity.
  - exists d1. split; [reflexivity|]. split; [assumption|]. split; [assumption|].
    intros i Hi. rewrite H1 by assumption.
    destruct ((off <=? i) && (i <? off + n)) eqn:F2; cbn [andb]; [|reflexivity].
    replace (i <? 8 * (off / 8 + w / 8)) with true by lia. reflexivity.
Qed.

Lemma rust_write_stores sT data off n t :
  is_bytes data -> in_bounds (zlen data) off n -> 1 <= n <= 64 -> representable n sT t -> rust_ok off n ->
  exists data', rust_write sT data off n t = Some data' /\ stores data off n t data'.
Proof.
  intros Hd (Ho & _ & Hl) Hn Hr Hok. unfold rust_write. cbv zeta.
  set (k := Z.min 8 ((n + off mod 8 + 7) / 8)).
  assert (Hk : 1 <= k <= 8) by (unfold k; lia).
  assert (Hfit : off / 8 + k <= zlen data) by (unfold k; lia).
  rewrite mem_load_in by lia. cbn [obind].
  set (S := if sT then rust_mask (t mod 2 ^ 64) n else t mod 2 ^ 64).
  set (M := rust_mask (2 ^ 64 - 1) n).
  assert (HS : low_bits n t S).
  { apply low_bits_mod; [lia|]. unfold S.
    rewrite rust_mask_ones by (try lia; now apply Z.mod_pos_bound).
    rewrite mod_land_ones by lia. apply stored_value with sT; [lia|assumption|].
    destruct sT; [now left|right; cbn in Hr; lia]. }
  assert (HM : low_bits n (-1) M).
  { unfold M. rewrite rust_mask_ones by lia.
    rewrite (pow_m1_ones 64) by lia. rewrite mod_land_ones by lia. intros i Hi.
    rewrite testbit_mod, testbit_ones, Z.bits_m1 by lia. rewrite andb_true_r.
    destruct (i <? n) eqn:E; cbn [andb]; [lia|reflexivity]. }
  destruct (word_store data off n t S M k 64 Hd Ho ltac:(lia) ltac:(lia) ltac:(lia) Hfit HS HM)
    as (d1 & E1 & L1 & B1 & H1).
  rewrite E1. cbn [obind].
  assert (Lz : zlen d1 = zlen data) by (unfold zlen; lia).
  destruct (k * 8 - off mod 8 <? n) eqn:E2.
  - assert (K8 : k = 8) by (unfold k in *; lia). rewrite K8 in *. change (8 * 8) with 64 in *.
    assert (B0 : off / 8 = 0) by (unfold rust_ok in Hok; lia).
    rewrite mem_byte_in by lia. cbn [obind].
    replace ((64 - off mod 8) mod 64) with (64 - off mod 8) by lia.
    destruct (spill_store d1 off n t S M 8
                (Z.land (nth (Z.to_nat 8) d1 0) ((Z.lnot (Z.shiftr M (64 - off mod 8))) mod 256))
                B1 Ho Hn ltac:(lia) ltac:(lia) ltac:(lia) HS HM) as (d2 & E3 & L3 & B3 & H3).
    + intros i Hi. change 256 with (2 ^ 8). rewrite Z.land_spec, testbit_mod by lia.
      replace (i <? 8) with true by lia. cbn [andb].
      rewrite Z.lnot_spec, Z.shiftr_spec by lia. reflexivity.
    + exists d2. split; [exact E3|]. split; [lia|]. split; [assumption|].
      intros i Hi. rewrite H3, H1 by assumption.
      destruct ((off + (64 - off mod 8) <=? i) && (i <? off + n)) eqn:F1;
      destruct ((off <=? i) && (i <? off + n)) eqn:F2; cbn [andb]; try reflexivity; try lia.
      replace (i <? 8 * (off / 8 + 8)) with true by lia. reflexivity.
  - exists d1. split; [reflexivity|]. split; [assumption|]. split; [assumption|].
    intros i Hi. rewrite H1 by assumption.
    destruct ((off <=? i) && (i <? off + n)) eqn:F2; cbn [andb]; [|reflexivity].
    replace (i <? 8 * (off / 8 + k)) with true by lia. reflexivity.
Qed.

(** ** Go *)

Lemma go_loop_ok data off size : is_bytes data -> 0 <= off -> 1 <= size <= 64 -> off + size < 8 * zlen data ->
  forall k bl index result,
  0 <= index -> 0 <= bl <= size -> bl / 8 = Z.of_nat k -> 8 * index = off + (size - bl) ->
  (forall i, 0 <= i -> Z.testbit result i = (i <? size - bl) && bit_at data (off + i)) ->
  exists result', go_loop k data size bl index (nth (Z.to_nat index) data 0) result
      = Some (bl mod 8, nth (Z.to_nat (index + bl / 8)) data 0, result') /\
    forall i, 0 <= i -> Z.testbit result' i = (i <? size - bl mod 8) && bit_at data (off + i).
Proof.
  intros Hd Ho Hs Hl. induction k as [|k IH]; intros bl index result Hi Hb Hk He HR; cbn [go_loop].
  - exists result. replace (bl mod 8) with bl by lia. replace (index + bl / 8) with index by lia.
    split; [reflexivity|assumption].
  - rewrite mem_byte_in by lia. cbn [obind].
    destruct (IH (bl - 8) (index + 1)
                (Z.lor result ((Z.shiftl (nth (Z.to_nat index) data 0) (size - bl)) mod 2 ^ 64)))
      as (r' & E & H'); try lia.
    + intros i H0. rewrite Z.lor_spec, HR, testbit_mod, testbit_shiftl by lia.
      destruct (i <? size - bl) eqn:E1; cbn [andb].
      * replace (size - bl <=? i) with false by lia. cbn [andb]. rewrite andb_false_r, orb_false_r.
        replace (i <? size - (bl - 8)) with true by lia. reflexivity.
      * replace (size - bl <=? i) with true by lia. cbn [andb orb].
        destruct (i <? size - (bl - 8)) eqn:E2; cbn [andb].
        -- replace (i <? 64) with true by lia. cbn [andb]. rewrite nth_bit by lia. f_equal. lia.
        -- rewrite nth_bit_high by (auto; lia). apply andb_false_r.
    + exists r'. rewrite E. split.
      * replace ((bl - 8) mod 8) with (bl mod 8) by lia.
        replace (index + 1 + (bl - 8) / 8) with (index + bl / 8) by lia. reflexivity.
      * intros i H0. rewrite H' by assumption. do 2 f_equal. lia.
Qed.

Lemma sign_formula n r : 1 <= n <= 64 -> 0 <= r < 2 ^ n ->
  Z.land r (go_sign_bit (n - 1) - 1) - Z.land r (go_sign_bit (n - 1)) = twos_complement n r.
Proof.
  intros Hn Hr. unfold go_sign_bit. rewrite pow_m1_ones by lia. rewrite mod_land_ones by lia.
  pose proof (pow_split n ltac:(lia)) as Hp.
  assert (Hs : Z.land r (2 ^ (n - 1)) = if Z.testbit r (n - 1) then 2 ^ (n - 1) else 0).
  { apply Z.bits_inj'. intros i Hi. rewrite Z.land_spec. destruct (Z.eq_dec i (n - 1)) as [->|Hne].
    - rewrite Z.pow2_bits_true by lia. rewrite andb_true_r.
      destruct (Z.testbit r (n - 1)) eqn:E; [now rewrite Z.pow2_bits_true by lia|now rewrite Z.bits_0].
    - rewrite Z.pow2_bits_false by lia. rewrite andb_false_r.
      destruct (Z.testbit r (n - 1)); [now rewrite Z.pow2_bits_false by lia|now rewrite Z.bits_0]. }
  rewrite Hs. unfold twos_complement. destruct (r <? 2 ^ (n - 1)) eqn:E.
  - rewrite (bits_above r (n - 1)) by lia. rewrite Z.mod_small by lia. lia.
  - assert (Ht : Z.testbit r (n - 1) = true).
    { destruct (Z.testbit r (n - 1)) eqn:F; [reflexivity|]. exfalso.
      assert (r < 2 ^ (n - 1)); [|lia]. apply below_of_bits; [lia|lia|]. intros i Hi.
      destruct (Z.eq_dec i (n - 1)) as [->|]; [assumption|]. apply bits_above with n; lia. }
    rewrite Ht. replace (r mod 2 ^ (n - 1)) with (r - 2 ^ (n - 1)); [lia|].
    apply Z.mod_unique with 1; lia.
Qed.

Lemma cast_mod w s x : 1 <= w -> cast w s (x mod 2 ^ w) = cast w s x.
Proof.
  intros Hw. assert (0 < 2 ^ w) by (apply Z.pow_pos_nonneg; lia). destruct s; cbn [cast].
  - now rewrite Zplus_mod_idemp_l.
  - rewrite Z.mod_mod by lia. reflexivity.
Qed.

Lemma go_finish_ok data off n s bl index result :
  is_bytes data -> 0 <= off -> 1 <= n <= 64 -> 0 <= bl < 8 -> bl <= n -> 0 <= index ->
  8 * index = off + (n - bl) ->
  (forall i, 0 <= i -> Z.testbit result i = (i <? n - bl) && bit_at data (off + i)) ->
  go_finish n s bl (nth (Z.to_nat index) data 0) result
  = cast 64 true (field_value data off n s).
Proof.
  intros Hd Ho Hn Hb Hbn Hi He HR. unfold go_finish. cbv zeta.
  match goal with |- context [if negb ?c then ?a else ?b] => set (r := if negb c then a else b) end.
  assert (Hr : r = uint_at data off (Z.to_nat n)).
  { apply Z.bits_inj'. intros i H0. rewrite uint_at_testbit by assumption. rewrite Z2Nat.id by lia.
    unfold r. destruct (bl =? 0) eqn:E; cbn [negb].
    - rewrite HR by assumption. replace (n - bl) with n by lia. reflexivity.
    - rewrite Z.lor_spec, HR, testbit_mod, testbit_shiftl by lia.
      destruct (i <? n - bl) eqn:E1; cbn [andb].
      + replace (n - bl <=? i) with false by lia. cbn [andb]. rewrite andb_false_r, orb_false_r.
        replace (i <? n) with true by lia. reflexivity.
      + replace (n - bl <=? i) with true by lia. cbn [andb orb].
        rewrite shiftl_1_minus_1, Z.land_spec, testbit_ones by lia.
        destruct (i <? n) eqn:E2; cbn [andb].
        * replace (i - (n - bl) <? bl) with true by lia. rewrite andb_true_r.
          replace (i <? 64) with true by lia. cbn [andb]. rewrite nth_bit by lia. f_equal. lia.
        * replace (i - (n - bl) <? bl) with false by lia. rewrite andb_false_r. apply andb_false_r. }
  pose proof (uint_pos_bound data off n ltac:(lia)) as Hub.
  unfold field_value. rewrite <- Hr in *. destruct s; [|reflexivity].
  rewrite sign_formula by lia. apply cast_mod. lia.
Qed.

(** Go skips the sign extension of a field that does not start on a byte boundary and ends within its
    first byte. *)
Definition go_ok (off n : Z) (s : bool) : Prop := s = true -> off mod 8 = 0 \/ 8 < off mod 8 + n.

Lemma go_read_value data off n s :
  is_bytes data -> 0 <= off -> 1 <= n <= 64 -> off + n < 8 * zlen data -> go_ok off n s ->
  go_read data off n s = Some (cast 64 true (field_value data off n s)).
Proof.
  intros Hd Ho Hn Hl Hok. unfold go_read. cbv zeta. rewrite mem_byte_in by lia. cbn [obind].
  destruct (off mod 8 =? 0) eqn:E0; cbn [negb].
  - destruct (go_loop_ok data off n Hd Ho Hn Hl (Z.to_nat (n / 8)) n (off / 8) 0) as (r & E & HR); try lia.
    { intros i Hi. rewrite Z.bits_0. replace (i <? n - n) with false by lia. reflexivity. }
    rewrite E. cbn [obind]. f_equal. apply go_finish_ok; auto; try lia.
  - destruct (n <=? 8 - off mod 8) eqn:E1.
    + destruct s; [destruct (Hok eq_refl); lia|]. f_equal.
      rewrite shiftl_1_minus_1 by lia.
      pose proof (word_field data off n 1 Hd Ho ltac:(lia) ltac:(lia) ltac:(lia) ltac:(lia)) as Hw.
      assert (Hone : le (firstn (Z.to_nat 1) (skipn (Z.to_nat (off / 8)) data)) = nth (Z.to_nat (off / 8)) data 0).
      { rewrite <- (Nat.add_0_r (Z.to_nat (off / 8))) at 2. rewrite <- (nth_skipn data 0).
        assert (Hlen : (1 <= List.length (skipn (Z.to_nat (off / 8)) data))%nat)
          by (rewrite skipn_length; unfold zlen in Hl; lia).
        destruct (skipn (Z.to_nat (off / 8)) data) as [|b t]; [cbn in Hlen; lia|]. change (Z.to_nat 1) with 1%nat. cbn [firstn le nth]. lia. }
      rewrite Hone in Hw. rewrite Hw. unfold field_value.
      symmetry. apply cast_extend with (n + 1); [lia|].
      pose proof (uint_pos_bound data off n ltac:(lia)). replace (n + 1 - 1) with n by lia. lia.
    + rewrite mem_byte_in by lia. cbn [obind].
      set (bl := n - (8 - off mod 8)).
      destruct (go_loop_ok data off n Hd Ho Hn Hl (Z.to_nat (bl / 8)) bl (off / 8 + 1)
                  (Z.shiftr (nth (Z.to_nat (off / 8)) data 0) (off mod 8))) as (r & E & HR);
        try (unfold bl; lia).
      { intros i Hi. rewrite Z.shiftr_spec by lia. unfold bl.
        destruct (i <? n - (n - (8 - off mod 8))) eqn:F; cbn [andb].
        - rewrite nth_bit by lia. f_equal. lia.
        - apply nth_bit_high; [assumption|lia]. }
      rewrite E. cbn [obind]. f_equal. apply go_finish_ok; auto; try (unfold bl; lia).
Qed.
