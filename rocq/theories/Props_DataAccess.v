(** Property theorems C01-C07, C55: bit field access (data_access.py).
    Vocabulary: [Spec.bit_at], [Spec.uint_at], [Spec.field_value], [Spec.representable], [Spec.in_bounds]. *)
From Coq Require Import List ZArith Bool Lia.
From Verif Require Import PyBase Spec DataAccess BitFacts DataAccessFacts DataAccessThms.
Import ListNotations.
Local Open Scope Z_scope.

(** C01: reading returns exactly the field's bits. *)
Theorem C01_read_exact : forall data off n signed,
  is_bytes data -> in_bounds (zlen data) off n -> 2 <= n <= 64 ->
  (n = 64 -> signed = false -> off mod 8 = 0) ->
  read_value data off n signed = Ok (field_value data off n signed).
Proof. exact read_value_exact. Qed.
Print Assumptions C01_read_exact.

Theorem C01_read_bool : forall data off signed,
  is_bytes data -> in_bounds (zlen data) off 1 ->
  read_value data off 1 signed = Ok (if bit_at data off then 1 else 0).
Proof. exact read_value_one. Qed.
Print Assumptions C01_read_bool.

Example C01_instance :
  let d := [0x3c; 0xff; 0x01] in
  is_bytes d /\ in_bounds (zlen d) 5 11 /\ read_value d 5 11 true = Ok (-7) /\
  field_value d 5 11 true = -7 /\ read_value d 2 1 false = Ok 1.
Proof.
  cbv zeta. split; [repeat constructor; unfold is_byte; lia|].
  split; [unfold in_bounds; cbn; lia|]. repeat split; vm_compute; reflexivity.
Qed.

(** C02: an unsigned 64-bit field at any offset.  FALSE of the code: the mask is applied only below 64
    bits, so an unaligned field picks up the neighbouring bits. *)
Theorem C02_read_u64_refuted : exists data off,
  is_bytes data /\ in_bounds (zlen data) off 64 /\
  read_value data off 64 false <> Ok (field_value data off 64 false).
Proof.
  exists (zeros 8 ++ [0x80]), 1.
  split; [apply is_bytes_app; split; [apply is_bytes_zeros|repeat constructor; unfold is_byte; lia]|].
  split; [unfold in_bounds; cbn; lia|]. vm_compute. discriminate.
Qed.
Print Assumptions C02_read_u64_refuted.

(** What the code returns instead: every bit up to the end of the field's last byte. *)
Theorem C02_read_u64_partial : forall data off,
  is_bytes data -> in_bounds (zlen data) off 64 ->
  read_value data off 64 false =
  Ok (uint_at data off (Z.to_nat (if off mod 8 =? 0 then 64 else 72 - off mod 8))).
Proof. exact read_value_64_unsigned. Qed.
Print Assumptions C02_read_u64_partial.

(** C03: a written value is read back (from the state the builder writes in). *)
Theorem C03_write_read : forall data off n signed v,
  is_bytes data -> in_bounds (zlen data) off n -> 1 <= n <= 64 -> representable n signed v ->
  (n = 1 -> signed = false) ->
  (forall i, off <= i -> bit_at data i = false) ->
  exists data', write_value data off n signed v = Ok data' /\ read_value data' off n signed = Ok v.
Proof. exact write_read_zero_tail. Qed.
Print Assumptions C03_write_read.

(** ... and, unaligned u64 excepted, from any state in which only the field's own bits are clear. *)
Theorem C03_write_read_clear_field : forall data off n signed v,
  is_bytes data -> in_bounds (zlen data) off n -> 1 <= n <= 64 -> representable n signed v ->
  (n = 1 -> signed = false) -> (n = 64 -> signed = false -> off mod 8 = 0) ->
  (forall i, off <= i < off + n -> bit_at data i = false) ->
  exists data', write_value data off n signed v = Ok data' /\ read_value data' off n signed = Ok v.
Proof. exact write_read_clear_field. Qed.
Print Assumptions C03_write_read_clear_field.

Example C03_instance :
  let d := [0x05; 0; 0; 0] in
  is_bytes d /\ in_bounds (zlen d) 3 17 /\ representable 17 true (-65536) /\
  (forall i, 3 <= i -> bit_at d i = false) /\
  (x <- write_value d 3 17 true (-65536) ;; read_value x 3 17 true) = Ok (-65536).
Proof.
  cbv zeta. split; [repeat constructor; unfold is_byte; lia|].
  split; [unfold in_bounds; cbn; lia|].
  split; [unfold representable; cbn; lia|].
  split; [|vm_compute; reflexivity].
  intros i Hi. rewrite <- le_testbit by (try lia; repeat constructor; unfold is_byte; lia).
  change (le [5; 0; 0; 0]) with 5. apply Z.bits_above_log2; [lia|]. change (Z.log2 5) with 2. lia.
Qed.

(** The exception: a signed 1-bit field cannot hold -1 (it is stored as 0). *)
Theorem C03_signed_one_bit_refuted : exists data off v data',
  is_bytes data /\ in_bounds (zlen data) off 1 /\ representable 1 true v /\
  (forall i, bit_at data i = false) /\
  write_value data off 1 true v = Ok data' /\ read_value data' off 1 true <> Ok v.
Proof.
  exists [0], 0, (-1), [0].
  split; [repeat constructor; unfold is_byte; lia|]. split; [unfold in_bounds; cbn; lia|].
  split; [unfold representable; cbn; lia|]. split.
  - intros i. unfold bit_at. destruct (Z.to_nat (i / 8)) as [|[|k]]; cbn; apply Z.bits_0.
  - split; [vm_compute; reflexivity|vm_compute; discriminate].
Qed.
Print Assumptions C03_signed_one_bit_refuted.

(** C04: any integer is stored modulo 2^width, nothing else is touched, nothing is raised. *)
Theorem C04_write_wraps : forall len off n signed v,
  in_bounds (Z.of_nat len) off n -> 2 <= n <= 64 ->
  exists data', write_value (zeros len) off n signed v = Ok data' /\ length data' = len /\
    is_bytes data' /\ uint_at data' off (Z.to_nat n) = v mod 2 ^ n /\
    forall i, 0 <= i -> (i < off \/ off + n <= i) -> bit_at data' i = false.
Proof. exact write_wraps. Qed.
Print Assumptions C04_write_wraps.

Example C04_instance : in_bounds (Z.of_nat 3) 6 9 /\ 2 <= 9 <= 64 /\
  write_value (zeros 3) 6 9 false (-1) = Ok [0xc0; 0x7f; 0].
Proof. split; [unfold in_bounds; cbn; lia|]. split; [lia|]. vm_compute. reflexivity. Qed.

(** C05: "no other bit changes".  FALSE of the code in general (two different ways): *)
Theorem C05_other_bits_refuted :
  (exists data off n signed v data' i,
     is_bytes data /\ in_bounds (zlen data) off n /\ 2 <= n <= 64 /\ representable n signed v /\
     write_value data off n signed v = Ok data' /\ off + n <= i /\ bit_at data' i <> bit_at data i) /\
  (exists data off n signed v data',
     is_bytes data /\ in_bounds (zlen data) off n /\ 2 <= n <= 64 /\ representable n signed v /\
     write_value data off n signed v = Ok data' /\ read_value data' off n signed <> Ok v).
Proof.
  split.
  - exists [0xff], 2, 3, false, 0, [0x03], 7.
    split; [repeat constructor; unfold is_byte; lia|]. split; [unfold in_bounds; cbn; lia|].
    split; [lia|]. split; [unfold representable; cbn; lia|].
    split; [vm_compute; reflexivity|]. split; [lia|]. vm_compute. discriminate.
  - exists [0xff; 0xff], 8, 4, false, 0, [0xff; 0xff].
    split; [repeat constructor; unfold is_byte; lia|]. split; [unfold in_bounds; cbn; lia|].
    split; [lia|]. split; [unfold representable; cbn; lia|].
    split; [vm_compute; reflexivity|]. vm_compute. discriminate.
Qed.
Print Assumptions C05_other_bits_refuted.

(** It does hold whenever no bit is set between the field's end and the end of its last byte, and
    always for 1-bit fields. *)
Theorem C05_other_bits_partial : forall data off n signed v,
  is_bytes data -> in_bounds (zlen data) off n -> 1 <= n <= 64 ->
  (n = 1 \/ forall i, off + n <= i < 8 * ((off + n + 7) / 8) -> bit_at data i = false) ->
  exists data', write_value data off n signed v = Ok data' /\
    forall i, 0 <= i -> (i < off \/ off + n <= i) -> bit_at data' i = bit_at data i.
Proof. exact write_preserves_others. Qed.
Print Assumptions C05_other_bits_partial.

Example C05_instance :
  let d := [0xff; 0x03; 0xff] in
  is_bytes d /\ in_bounds (zlen d) 6 8 /\
  (forall i, 6 + 8 <= i < 8 * ((6 + 8 + 7) / 8) -> bit_at d i = false) /\
  write_value d 6 8 false 0 = Ok [0x3f; 0x00; 0xff].
Proof.
  cbv zeta. split; [repeat constructor; unfold is_byte; lia|].
  split; [unfold in_bounds; cbn; lia|]. split; [|vm_compute; reflexivity].
  intros i Hi. change (8 * ((6 + 8 + 7) / 8)) with 16 in Hi.
  assert (i = 14 \/ i = 15) as [-> | ->] by lia; reflexivity.
Qed.

(** The exact effect of a multi-bit write on every bit of every buffer. *)
Theorem C05_write_exact_effect : forall data off n signed v,
  is_bytes data -> in_bounds (zlen data) off n -> 2 <= n <= 64 ->
  exists data', write_value data off n signed v = Ok data' /\ length data' = length data /\
    is_bytes data' /\
    forall i, 0 <= i ->
      let first := off / 8 in let bytes := (n + 7) / 8 in
      let stored := (0 <=? i - off) && (i - off <? n) && Z.testbit v (i - off) in
      bit_at data' i =
        if i / 8 =? first then (bit_at data i && (i mod 8 <? off)) || stored
        else if (first <? i / 8) && (i / 8 <? first + bytes) then stored
        else if (i / 8 =? first + bytes) && (8 * bytes - off mod 8 <? n)
             then stored || (bit_at data i && (off <=? i mod 8))
        else bit_at data i.
Proof. exact write_value_bits. Qed.
Print Assumptions C05_write_exact_effect.

(** C06 is proved with the structure packing loop, see Props_Structure.v. *)

(** C07: in-bounds accesses never raise; a write that does not fit always raises IndexError. *)
Theorem C07_read_in_bounds : forall data off n signed,
  is_bytes data -> in_bounds (zlen data) off n -> 1 <= n <= 64 ->
  exists v, read_value data off n signed = Ok v.
Proof. intros data off n s Hd Hb Hn. eexists. exact (read_value_total data off n s Hd Hb Hn). Qed.
Print Assumptions C07_read_in_bounds.

Theorem C07_write_in_bounds : forall data off n signed v,
  is_bytes data -> in_bounds (zlen data) off n -> n <= 64 ->
  exists data', write_value data off n signed v = Ok data' /\ length data' = length data /\ is_bytes data'.
Proof. exact write_in_bounds_ok. Qed.
Print Assumptions C07_write_in_bounds.

Theorem C07_write_out_of_bounds : forall data off n signed v,
  is_bytes data -> 0 <= off -> 1 <= n <= 64 -> 8 * zlen data < off + n ->
  write_value data off n signed v = Err IndexError.
Proof. exact write_out_of_bounds. Qed.
Print Assumptions C07_write_out_of_bounds.

Example C07_instance : let d := [1; 2; 3] in is_bytes d /\ in_bounds (zlen d) 4 20 /\
  8 * zlen d < 5 + 20 /\ is_ok (write_value d 4 20 true 77) = true /\
  write_value d 5 20 true 77 = Err IndexError.
Proof.
  cbv zeta. split; [repeat constructor; unfold is_byte; lia|].
  split; [unfold in_bounds; cbn; lia|]. split; [cbn; lia|]. split; vm_compute; reflexivity.
Qed.

(** C55: reading past the end raises.  FALSE of the code: a truncated slice is silently accepted. *)
Theorem C55_read_past_end_refuted : exists data off n signed v,
  is_bytes data /\ 0 <= off /\ 1 <= n <= 64 /\ 8 * zlen data < off + n /\
  read_value data off n signed = Ok v.
Proof.
  exists [7], 0, 16, false, 7. split; [repeat constructor; unfold is_byte; lia|].
  split; [lia|]. split; [lia|]. split; [cbn; lia|]. vm_compute. reflexivity.
Qed.
Print Assumptions C55_read_past_end_refuted.
