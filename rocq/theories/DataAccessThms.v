(** Derived facts about read_value / write_value used by the property theorems and by later layers. *)
From Coq Require Import List ZArith Bool Lia.
From Coq Require Import ZifyBool ZifyNat.
From Verif Require Import PyBase Spec DataAccess BitFacts DataAccessFacts.
Import ListNotations.
Local Open Scope Z_scope.
Ltac Zify.zify_post_hook ::= Z.div_mod_to_equations.

Lemma read_value_exact data off n s :
  is_bytes data -> in_bounds (zlen data) off n -> 2 <= n <= 64 ->
  (n = 64 -> s = false -> off mod 8 = 0) ->
  read_value data off n s = Ok (field_value data off n s).
Proof.
  intros Hd Hb Hn H64. destruct (Z.eq_dec n 64) as [->|Hne].
  - destruct s; [now apply read_value_64_signed|].
    rewrite read_value_64_unsigned by assumption. rewrite H64 by reflexivity. reflexivity.
  - apply read_value_lt64; auto; lia.
Qed.

(** What read_value returns for any width 1..64 of a field that lies inside the buffer. *)
Definition read_result (data : list Z) (off n : Z) (s : bool) : Z :=
  if n =? 1 then (if bit_at data off then 1 else 0)
  else if (n =? 64) && negb s
       then uint_at data off (Z.to_nat (if off mod 8 =? 0 then 64 else 72 - off mod 8))
       else field_value data off n s.

Lemma read_value_total data off n s :
  is_bytes data -> in_bounds (zlen data) off n -> 1 <= n <= 64 ->
  read_value data off n s = Ok (read_result data off n s).
Proof.
  intros Hd Hb Hn. unfold read_result.
  destruct (n =? 1) eqn:E1.
  - assert (n = 1) by lia. subst n. now apply read_value_one.
  - destruct ((n =? 64) && negb s) eqn:E2.
    + assert (n = 64) by lia. subst n. destruct s; [discriminate|]. now apply read_value_64_unsigned.
    + apply read_value_exact; auto; [lia|]. intros -> ->. discriminate.
Qed.

(** Two's complement round trip. *)
Lemma twos_complement_mod n v : 1 <= n -> - 2 ^ (n - 1) <= v < 2 ^ (n - 1) ->
  twos_complement n (v mod 2 ^ n) = v.
Proof.
  intros Hn Hv.
  assert (Hp : 2 ^ n = 2 * 2 ^ (n - 1)).
  { replace n with (1 + (n - 1)) at 1 by lia. rewrite Z.pow_add_r by lia. reflexivity. }
  unfold twos_complement. destruct (Z.lt_ge_cases v 0) as [Hneg|Hpos].
  - replace (v mod 2 ^ n) with (v + 2 ^ n) by (apply Z.mod_unique with (-1); lia).
    destruct (v + 2 ^ n <? 2 ^ (n - 1)) eqn:E; lia.
  - rewrite Z.mod_small by lia. destruct (v <? 2 ^ (n - 1)) eqn:E; lia.
Qed.

(** Writing where nothing is set from the field's first bit onwards: bits below the field are kept, the
    field gets the value's low bits, everything above stays zero. *)
Lemma write_zero_tail data off n s v :
  is_bytes data -> in_bounds (zlen data) off n -> 1 <= n <= 64 -> (n = 1 -> v = 0 \/ v = 1) ->
  (forall i, off <= i -> bit_at data i = false) ->
  exists data', write_value data off n s v = Ok data' /\ List.length data' = List.length data /\
    is_bytes data' /\
    forall i, 0 <= i -> bit_at data' i = if i <? off then bit_at data i else vbit v n (i - off).
Proof.
  intros Hd Hb Hn H1 Hz. pose proof Hb as (Ho & _ & Hlen).
  destruct (Z.eq_dec n 1) as [->|Hne].
  - destruct (write_value_one_bits data off s v Hd Hb) as (d & He & Hl & Hby & Hbit).
    exists d. repeat split; auto. intros i Hi. rewrite Hbit by assumption.
    destruct (i =? off) eqn:E1; destruct (i <? off) eqn:E2; try lia.
    + assert (i = off) by lia. subst i. unfold vbit. replace (off - off) with 0 by lia.
      destruct (H1 eq_refl) as [-> | ->]; reflexivity.
    + reflexivity.
    + rewrite Hz by lia. unfold vbit. replace (i - off <? 1) with false by lia.
      now rewrite andb_false_r.
  - destruct (write_value_bits data off n s v Hd Hb) as (d & He & Hl & Hby & Hbit); [lia|].
    exists d. repeat split; auto. intros i Hi. rewrite Hbit by assumption. unfold written_bit.
    destruct (i <? off) eqn:E2.
    + assert (Hv : vbit v n (i - off) = false) by (unfold vbit; replace (0 <=? i - off) with false by lia; reflexivity).
      rewrite Hv, orb_false_r.
      replace (i mod 8 <? off) with true by lia. rewrite andb_true_r.
      destruct (i / 8 =? off / 8) eqn:F1; [reflexivity|].
      destruct ((off / 8 <? i / 8) && (i / 8 <? off / 8 + (n + 7) / 8)) eqn:F2; [lia|].
      destruct ((i / 8 =? off / 8 + (n + 7) / 8) && (8 * ((n + 7) / 8) - off mod 8 <? n)) eqn:F3; [lia|].
      reflexivity.
    + rewrite (Hz i) by lia. cbn [andb orb]. rewrite orb_false_r.
      destruct (i / 8 =? off / 8) eqn:F1; [reflexivity|].
      destruct ((off / 8 <? i / 8) && (i / 8 <? off / 8 + (n + 7) / 8)) eqn:F2; [reflexivity|].
      destruct ((i / 8 =? off / 8 + (n + 7) / 8) && (8 * ((n + 7) / 8) - off mod 8 <? n)) eqn:F3;
        [reflexivity|].
      unfold vbit. replace (i - off <? n) with false by lia. now rewrite andb_false_r.
Qed.

Lemma vbit_uint data off n v : 0 <= n ->
  (forall k, 0 <= k < n -> bit_at data (off + k) = vbit v n k) ->
  uint_at data off (Z.to_nat n) = v mod 2 ^ n.
Proof.
  intros Hn H. replace n with (Z.of_nat (Z.to_nat n)) at 2 by lia. apply uint_at_mod.
  intros k Hk. rewrite H by lia. unfold vbit.
  replace (0 <=? k) with true by lia. replace (k <? n) with true by lia. reflexivity.
Qed.

(** Extending a field read by zero bits does not change it. *)
Lemma uint_at_zero_ext data off m n : (n <= m)%nat ->
  (forall i, off + Z.of_nat n <= i < off + Z.of_nat m -> bit_at data i = false) ->
  uint_at data off m = uint_at data off n.
Proof.
  intros Hm H. apply Z.bits_inj'. intros k Hk. rewrite !uint_at_testbit by assumption.
  destruct (k <? Z.of_nat n) eqn:E1; destruct (k <? Z.of_nat m) eqn:E2; try lia; try reflexivity.
  cbn [andb]. apply H. lia.
Qed.

(** A buffer whose field bits are those of a representable [v], read back. *)
Lemma read_back data off n s v :
  is_bytes data -> in_bounds (zlen data) off n -> 1 <= n <= 64 -> representable n s v ->
  (n = 1 -> v = 0 \/ v = 1) ->
  (forall k, 0 <= k < n -> bit_at data (off + k) = vbit v n k) ->
  (n = 64 -> s = false -> off mod 8 <> 0 ->
     forall i, off + 64 <= i < off + 72 - off mod 8 -> bit_at data i = false) ->
  read_value data off n s = Ok v.
Proof.
  intros Hd Hb Hn Hr H1 Hf H64. rewrite read_value_total by assumption. f_equal. unfold read_result.
  destruct (n =? 1) eqn:E1.
  - assert (n = 1) by lia. subst n. specialize (Hf 0 ltac:(lia)). rewrite Z.add_0_r in Hf.
    rewrite Hf. destruct (H1 eq_refl) as [-> | ->]; reflexivity.
  - pose proof (vbit_uint data off n v ltac:(lia) Hf) as Hu.
    destruct ((n =? 64) && negb s) eqn:E2.
    + assert (n = 64) by lia. subst n. destruct s; [discriminate|].
      assert (Hx : uint_at data off (Z.to_nat (if off mod 8 =? 0 then 64 else 72 - off mod 8))
                   = uint_at data off (Z.to_nat 64)).
      { destruct (off mod 8 =? 0) eqn:E3; [reflexivity|]. destruct Hb as (Ho & _ & _).
        apply uint_at_zero_ext; [lia|]. intros i Hi. apply H64; try lia; reflexivity. }
      rewrite Hx, Hu. apply Z.mod_small. exact Hr.
    + unfold field_value. rewrite Hu. unfold representable in Hr. destruct s.
      * apply twos_complement_mod; [lia|exact Hr].
      * apply Z.mod_small. exact Hr.
Qed.

Lemma write_read_zero_tail data off n s v :
  is_bytes data -> in_bounds (zlen data) off n -> 1 <= n <= 64 -> representable n s v ->
  (n = 1 -> s = false) ->
  (forall i, off <= i -> bit_at data i = false) ->
  exists data', write_value data off n s v = Ok data' /\ read_value data' off n s = Ok v.
Proof.
  intros Hd Hb Hn Hr H1 Hz.
  assert (Hv1 : n = 1 -> v = 0 \/ v = 1).
  { intros ->. rewrite H1 in Hr by reflexivity. cbn in Hr. lia. }
  destruct (write_zero_tail data off n s v Hd Hb Hn Hv1 Hz) as (d & He & Hl & Hby & Hbit).
  exists d. split; [assumption|]. pose proof Hb as (Ho & _ & _).
  assert (Hlz : zlen d = zlen data) by (unfold zlen; lia).
  apply read_back; auto; [now rewrite Hlz| |].
  - intros k Hk. rewrite Hbit by lia. replace (off + k <? off) with false by lia. f_equal. lia.
  - intros -> -> Hne i Hi. rewrite Hbit by lia. replace (i <? off) with false by lia.
    unfold vbit. replace (i - off <? 64) with false by lia. now rewrite andb_false_r.
Qed.

(** Round trip when only the field's own bits were clear before. *)
Lemma write_read_clear_field data off n s v :
  is_bytes data -> in_bounds (zlen data) off n -> 1 <= n <= 64 -> representable n s v ->
  (n = 1 -> s = false) -> (n = 64 -> s = false -> off mod 8 = 0) ->
  (forall i, off <= i < off + n -> bit_at data i = false) ->
  exists data', write_value data off n s v = Ok data' /\ read_value data' off n s = Ok v.
Proof.
  intros Hd Hb Hn Hr H1 H64 Hz. pose proof Hb as (Ho & _ & Hlen).
  assert (Hv1 : n = 1 -> v = 0 \/ v = 1).
  { intros ->. rewrite H1 in Hr by reflexivity. cbn in Hr. lia. }
  destruct (Z.eq_dec n 1) as [->|Hne].
  - destruct (write_value_one_bits data off s v Hd Hb) as (d & He & Hl & Hby & Hbit).
    exists d. split; [assumption|].
    assert (Hlz : zlen d = zlen data) by (unfold zlen; lia).
    apply read_back; auto; [now rewrite Hlz| |].
    + intros k Hk. rewrite Hbit by lia. replace (off + k =? off) with true by lia.
      assert (k = 0) by lia. subst k. destruct (Hv1 eq_refl) as [-> | ->]; reflexivity.
    + intros; lia.
  - destruct (write_value_bits data off n s v Hd Hb) as (d & He & Hl & Hby & Hbit); [lia|].
    exists d. split; [assumption|].
    assert (Hlz : zlen d = zlen data) by (unfold zlen; lia).
    apply read_back; auto; [now rewrite Hlz| |].
    + intros k Hk. rewrite Hbit by lia. unfold written_bit. rewrite (Hz (off + k)) by lia.
      cbn [andb orb]. rewrite orb_false_r. replace (off + k - off) with k by lia.
      destruct ((off + k) / 8 =? off / 8) eqn:F1; [reflexivity|].
      destruct ((off / 8 <? (off + k) / 8) && ((off + k) / 8 <? off / 8 + (n + 7) / 8)) eqn:F2;
        [reflexivity|].
      destruct (((off + k) / 8 =? off / 8 + (n + 7) / 8) && (8 * ((n + 7) / 8) - off mod 8 <? n)) eqn:F3;
        [reflexivity|]. lia.
    + intros -> -> Hc. exfalso. apply Hc. auto.
Qed.

(** Wrapping: the field holds the value modulo 2^n. *)
Lemma write_wraps len off n s v : in_bounds (Z.of_nat len) off n -> 2 <= n <= 64 ->
  exists data', write_value (zeros len) off n s v = Ok data' /\ List.length data' = len /\
    is_bytes data' /\ uint_at data' off (Z.to_nat n) = v mod 2 ^ n /\
    forall i, 0 <= i -> (i < off \/ off + n <= i) -> bit_at data' i = false.
Proof.
  intros Hb Hn. pose proof Hb as (Ho & _ & _).
  assert (Hz : forall i, bit_at (zeros len) i = false).
  { intros i. unfold bit_at, zeros.
    assert (E : forall k, nth k (repeat 0 len) 0 = 0).
    { clear. induction len as [|m IH]; intros [|k]; cbn; auto. }
    rewrite E. apply Z.bits_0. }
  destruct (write_zero_tail (zeros len) off n s v) as (d & He & Hl & Hby & Hbit);
    try assumption; try lia.
  - apply is_bytes_zeros.
  - unfold zeros. rewrite zlen_repeat. exact Hb.
  - intros i _. apply Hz.
  - exists d. split; [assumption|]. split; [unfold zeros in Hl; now rewrite repeat_length in Hl|].
    split; [assumption|]. split.
    + apply vbit_uint; [lia|]. intros k Hk. rewrite Hbit by lia.
      replace (off + k <? off) with false by lia. f_equal. lia.
    + intros i Hi Hout. rewrite Hbit by assumption. rewrite Hz.
      destruct (i <? off) eqn:E; [reflexivity|]. unfold vbit.
      replace (i - off <? n) with false by lia. now rewrite andb_false_r.
Qed.

(** Other bits are preserved whenever no bit between the field's end and the end of its last byte is set. *)
Lemma write_preserves_others data off n s v :
  is_bytes data -> in_bounds (zlen data) off n -> 1 <= n <= 64 ->
  (n = 1 \/ forall i, off + n <= i < 8 * ((off + n + 7) / 8) -> bit_at data i = false) ->
  exists data', write_value data off n s v = Ok data' /\
    forall i, 0 <= i -> (i < off \/ off + n <= i) -> bit_at data' i = bit_at data i.
Proof.
  intros Hd Hb Hn Hc. pose proof Hb as (Ho & _ & _).
  destruct (Z.eq_dec n 1) as [->|Hne].
  - destruct (write_value_one_bits data off s v Hd Hb) as (d & He & Hl & Hby & Hbit).
    exists d. split; [assumption|]. intros i Hi Hout. rewrite Hbit by assumption.
    replace (i =? off) with false by lia. reflexivity.
  - destruct Hc as [Hc|Hc]; [lia|].
    destruct (write_value_bits data off n s v Hd Hb) as (d & He & Hl & Hby & Hbit); [lia|].
    exists d. split; [assumption|]. intros i Hi Hout. rewrite Hbit by assumption. unfold written_bit.
    assert (Hv : vbit v n (i - off) = false).
    { unfold vbit. destruct Hout; [replace (0 <=? i - off) with false by lia; reflexivity|].
      replace (i - off <? n) with false by lia. now rewrite andb_false_r. }
    rewrite Hv, orb_false_r. cbn [orb].
    destruct (Z.lt_ge_cases i (off + n)) as [Hlo|Hhi].
    + assert (i < off) by lia.
      replace (i mod 8 <? off) with true by lia. rewrite andb_true_r.
      destruct (i / 8 =? off / 8) eqn:F1; [reflexivity|].
      destruct ((off / 8 <? i / 8) && (i / 8 <? off / 8 + (n + 7) / 8)) eqn:F2; [lia|].
      destruct ((i / 8 =? off / 8 + (n + 7) / 8) && (8 * ((n + 7) / 8) - off mod 8 <? n)) eqn:F3; [lia|].
      reflexivity.
    + destruct (Z.lt_ge_cases i (8 * ((off + n + 7) / 8))) as [Hin|Hfar].
      * rewrite (Hc i) by lia. cbn [andb].
        destruct (i / 8 =? off / 8); destruct ((off / 8 <? i / 8) && (i / 8 <? off / 8 + (n + 7) / 8));
        destruct ((i / 8 =? off / 8 + (n + 7) / 8) && (8 * ((n + 7) / 8) - off mod 8 <? n)); reflexivity.
      * destruct (i / 8 =? off / 8) eqn:F1; [lia|].
        destruct ((off / 8 <? i / 8) && (i / 8 <? off / 8 + (n + 7) / 8)) eqn:F2; [lia|].
        destruct ((i / 8 =? off / 8 + (n + 7) / 8) && (8 * ((n + 7) / 8) - off mod 8 <? n)) eqn:F3; [lia|].
        reflexivity.
Qed.

(** Writes succeed exactly when the field is inside the buffer. *)
Lemma write_in_bounds_ok data off n s v :
  is_bytes data -> in_bounds (zlen data) off n -> n <= 64 ->
  exists data', write_value data off n s v = Ok data' /\ List.length data' = List.length data /\ is_bytes data'.
Proof.
  intros Hd Hb Hn. pose proof Hb as (Ho & Hn0 & _).
  destruct (Z.eq_dec n 1) as [->|Hne].
  - destruct (write_value_one_bits data off s v Hd Hb) as (d & ? & ? & ? & _). eauto.
  - destruct (write_value_bits data off n s v Hd Hb) as (d & ? & ? & ? & _); [lia|]. eauto.
Qed.

Lemma copy_bytes_out k : forall data ob idx src,
  0 <= ob -> 0 <= idx -> is_bytes data -> is_bytes src -> (0 < k)%nat ->
  zlen data < ob + idx + Z.of_nat k -> idx + Z.of_nat k <= zlen src ->
  copy_bytes k data ob idx src = Err IndexError.
Proof.
  induction k as [|k IH]; intros data ob idx src Hob Hidx Hd Hs Hk Hl1 Hl2; [lia|]. cbn [copy_bytes].
  rewrite py_get_in by lia. cbn [bind].
  destruct (Z.le_gt_cases (zlen data) (ob + idx)) as [Hout|Hin].
  - rewrite py_set_out by lia. reflexivity.
  - rewrite py_set_in by (try apply is_bytes_nth; auto; lia). cbn [bind].
    apply IH; try lia; auto.
    + apply list_set_bytes; [assumption|now apply is_bytes_nth].
    + unfold zlen in *. rewrite list_set_length. lia.
Qed.

Lemma write_out_of_bounds data off n s v :
  is_bytes data -> 0 <= off -> 1 <= n <= 64 -> 8 * zlen data < off + n ->
  write_value data off n s v = Err IndexError.
Proof.
  intros Hd Ho Hn Hout. unfold write_value.
  destruct (n <=? 64) eqn:E64; [|lia]. cbn [negb]. cbv zeta.
  destruct (n =? 1) eqn:E1.
  { rewrite py_get_out by lia. reflexivity. }
  rewrite py_shl_ok by lia. cbn [bind]. rewrite shiftl_1_minus_1 by lia.
  set (ob := off / 8). set (extra := off mod 8). set (tb := (n + 7) / 8).
  set (val := Z.land (Z.shiftl v extra) (Z.shiftl (Z.ones n) extra)).
  assert (Hval : 0 <= val < 2 ^ (n + extra)) by (apply masked_bound; unfold extra; lia).
  assert (Hvalb : 2 ^ (n + extra) <= 2 ^ (8 * (tb + 1) - 1)) by
    (apply Z.pow_le_mono_r; unfold tb, extra; lia).
  assert (Hvalc : 2 ^ (8 * (tb + 1) - 1) <= 2 ^ (8 * (tb + 1))) by
    (apply Z.pow_le_mono_r; unfold tb; lia).
  assert (Hpos : 0 < 2 ^ (8 * (tb + 1) - 1)) by (apply pow2_pos; unfold tb; lia).
  assert (HTB : py_to_bytes val (tb + 1) s = Ok (to_le (Z.to_nat (tb + 1)) val)).
  { unfold py_to_bytes. destruct (tb + 1 <? 0) eqn:E; [unfold tb in *; lia|].
    destruct (tb + 1 =? 0) eqn:E2; [unfold tb in *; lia|].
    destruct s.
    - replace ((- 2 ^ (8 * (tb + 1) - 1) <=? val) && (val <? 2 ^ (8 * (tb + 1) - 1))) with true by lia.
      reflexivity.
    - replace ((0 <=? val) && (val <? 2 ^ (8 * (tb + 1)))) with true by lia. reflexivity. }
  rewrite HTB. cbn [bind].
  set (vle := to_le (Z.to_nat (tb + 1)) val).
  assert (Hvle : is_bytes vle) by apply to_le_bytes.
  assert (Hvlel : zlen vle = tb + 1) by (unfold zlen, vle; rewrite to_le_length; unfold tb; lia).
  assert (Htb : 1 <= tb <= 8) by (unfold tb; lia).
  assert (Hob : 0 <= ob) by (unfold ob; lia).
  destruct (Z.le_gt_cases (zlen data) ob) as [H0|H0].
  { rewrite (py_get_out data ob) by lia. reflexivity. }
  rewrite (py_get_in data ob) by lia. cbn [bind].
  rewrite py_shl_ok by lia. cbn [bind].
  rewrite (py_get_in vle 0) by lia. cbn [bind].
  rewrite py_set_in by (try apply is_bytes_nth; auto; lia). cbn [bind].
  set (d1 := list_set data (Z.to_nat ob) (nth (Z.to_nat 0) vle 0)).
  assert (Hd1 : is_bytes d1) by (apply list_set_bytes; [assumption|now apply is_bytes_nth]).
  assert (Hd1l : zlen d1 = zlen data) by (unfold zlen, d1; now rewrite list_set_length).
  rewrite (py_get_in d1 ob) by lia. cbn [bind].
  assert (Hs0 : is_byte (Z.lor (nth (Z.to_nat ob) d1 0) (Z.land (nth (Z.to_nat ob) data 0) (Z.shiftl 1 off - 1)))).
  { apply lor_byte; [now apply is_bytes_nth|]. apply land_byte. now apply is_bytes_nth. }
  rewrite py_set_in by (auto; lia). cbn [bind].
  match goal with |- context [copy_bytes _ ?d _ _ _] => set (d2 := d) end.
  assert (Hd2 : is_bytes d2) by (apply list_set_bytes; assumption).
  assert (Hd2l : zlen d2 = zlen data) by (unfold zlen, d2, d1; now rewrite !list_set_length).
  destruct (Z.lt_ge_cases (zlen data) (ob + tb)) as [H1|H1].
  { rewrite copy_bytes_out; auto; lia. }
  destruct (copy_bytes_spec (Z.to_nat (tb - 1)) d2 ob 1 vle) as (d3 & He3 & Hl3 & Hby3 & Hn3);
    try lia; try assumption.
  rewrite He3. cbn [bind]. replace (Z.max 1 tb) with tb by lia.
  destruct (tb * 8 - extra <? n) eqn:Esp; [|unfold tb, extra, ob in *; lia].
  rewrite (py_get_out d3); [reflexivity|]. unfold zlen in *. unfold tb, extra, ob in *. lia.
Qed.

(** Reads depend only on the bits of the field (unaligned unsigned 64-bit fields excepted). *)
Lemma read_value_local a b off n s :
  is_bytes a -> is_bytes b -> in_bounds (zlen a) off n -> in_bounds (zlen b) off n -> 1 <= n <= 64 ->
  (n = 64 -> s = false -> off mod 8 = 0) ->
  (forall i, off <= i < off + n -> bit_at a i = bit_at b i) ->
  read_value a off n s = read_value b off n s.
Proof.
  intros Ha Hb Hia Hib Hn H64 Hbits.
  rewrite !read_value_total by assumption. f_equal. unfold read_result.
  destruct (n =? 1) eqn:E1; [rewrite (Hbits off) by lia; reflexivity|].
  assert (Hu : uint_at a off (Z.to_nat n) = uint_at b off (Z.to_nat n)).
  { apply uint_at_ext. intros i Hi. apply Hbits. lia. }
  destruct ((n =? 64) && negb s) eqn:E2.
  - assert (n = 64) by lia. subst n. destruct s; [discriminate|]. rewrite H64 by reflexivity. exact Hu.
  - unfold field_value. now rewrite Hu.
Qed.

(** Zero-width fields off a byte boundary. *)
Lemma zero_width_raises data off s v :
  is_bytes data -> 0 <= off -> off < 8 * zlen data -> off mod 8 <> 0 ->
  write_value data off 0 s v = Err IndexError /\ read_value data off 0 s = Err ValueError.
Proof.
  intros Hd Ho Hlt Hm. split.
  - unfold write_value. change (0 <=? 64) with true. cbn [negb]. cbv zeta. change (0 =? 1) with false. cbv iota.
    change ((0 + 7) / 8) with 0.
    change (py_shl 1 0) with (Ok 1). cbn [bind].
    assert (Hmask : Z.shiftl (1 - 1) (off mod 8) = 0) by (apply Z.shiftl_0_l).
    rewrite Hmask, Z.land_0_r.
    assert (Htb : py_to_bytes 0 (0 + 1) s = Ok [0]) by (destruct s; reflexivity).
    rewrite Htb. cbn [bind].
    rewrite py_get_in by lia. cbn [bind].
    unfold py_shl. replace (off <? 0) with false by lia. cbn [bind].
    change (py_get [0] 0) with (Ok 0). cbn [bind].
    rewrite py_set_in by (try lia; unfold is_byte; lia). cbn [bind].
    set (d1 := list_set data (Z.to_nat (off / 8)) 0).
    assert (Hd1 : zlen d1 = zlen data) by (unfold d1, zlen; now rewrite list_set_length).
    assert (Hg : py_get d1 (off / 8) = Ok 0).
    { rewrite py_get_in by lia. unfold d1. rewrite list_set_nth by (unfold zlen in *; lia). now rewrite Nat.eqb_refl. }
    rewrite Hg. cbn [bind].
    assert (Hbyte : is_byte (nth (Z.to_nat (off / 8)) data 0)) by (apply is_bytes_nth; assumption).
    rewrite py_set_in; [|lia|].
    2:{ change (Z.lor 0 ?x) with x. now apply land_byte. }
    cbn [bind]. change (Z.to_nat (0 - 1)) with 0%nat. cbn [copy_bytes bind].
    change (Z.max 1 0) with 1. replace (0 * 8 - off mod 8 <? 0) with true by lia.
    set (d2 := list_set d1 _ _).
    destruct (py_get d2 (off / 8 + 1)) as [x|e] eqn:E; cbn [bind].
    + reflexivity.
    + unfold py_get in E. replace (off / 8 + 1 <? 0) with false in E by lia.
      replace (off / 8 + 1 <? 0) with false in E by lia.
      destruct (nth_error d2 _) in E; congruence.
  - unfold read_value. change (0 =? 1) with false. cbv iota zeta. change ((0 + 7) / 8) with 0.
    replace (0 * 8 - off mod 8 <? 0) with true by lia. rewrite Z.add_0_r.
    rewrite py_get_in by lia. cbn [bind]. unfold py_shl at 1.
    replace (0 * 8 - off mod 8 <? 0) with true by lia. reflexivity.
Qed.
