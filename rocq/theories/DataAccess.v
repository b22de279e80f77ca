(** Model of flatdata-py/flatdata/lib/data_access.py *)
From Coq Require Import List ZArith Bool.
From Verif Require Import PyBase.
Import ListNotations.
Local Open Scope Z_scope.

(** data_access.py:7  [_SIGN_BITS = [0] + [(1 << (bits - 1)) for bits in range(1, 65)]] *)
Definition sign_bits : list Z :=
  0 :: map (fun bits => Z.shiftl 1 (Z.of_nat bits - 1)) (seq 1 64).

(** data_access.py:10-29  [read_value(data, offset_bits, num_bits, is_signed)] *)
Definition read_value (data : list Z) (offset_bits num_bits : Z) (is_signed : bool) : res Z :=
  let offset_bytes := offset_bits / 8 in
  let offset_extra_bits := offset_bits mod 8 in
  let total_bytes := (num_bits + 7) / 8 in
  if num_bits =? 1 then                                                         (* :14-15 *)
    b <- py_get data offset_bytes ;;
    Ok (if Z.land b (Z.shiftl 1 offset_extra_bits) =? 0 then 0 else 1)
  else
    let result := le (py_slice data offset_bytes (offset_bytes + total_bytes)) in (* :17 *)
    let result := Z.shiftr result offset_extra_bits in                           (* :18 *)
    result <- (if total_bytes * 8 - offset_extra_bits <? num_bits then            (* :19-21 *)
                 remainder <- py_get data (offset_bytes + total_bytes) ;;
                 r <- py_shl remainder (total_bytes * 8 - offset_extra_bits) ;;
                 Ok (Z.lor result r)
               else Ok result) ;;
    result <- (if num_bits <? 64 then                                             (* :23-24 *)
                 m <- py_shl 1 num_bits ;; Ok (Z.land result (m - 1))
               else Ok result) ;;
    if negb is_signed then Ok result                                              (* :26-27 *)
    else
      s <- py_get sign_bits num_bits ;;                                           (* :29 *)
      Ok (Z.land result (s - 1) - Z.land result s).

(** data_access.py:56-58: the loop copying the middle bytes; [k] iterations remain, starting at
    [byte_idx]. *)
Fixpoint copy_bytes (k : nat) (data : list Z) (offset_bytes byte_idx : Z) (src : list Z) : res (list Z) :=
  match k with
  | O => Ok data
  | S k' =>
      b <- py_get src byte_idx ;;
      data <- py_set data (offset_bytes + byte_idx) b ;;
      copy_bytes k' data offset_bytes (byte_idx + 1) src
  end.

(** data_access.py:32-64  [write_value(data, offset_bits, num_bits, is_signed, value)] for an int
    [value]; returns the mutated bytearray.  On an exception the partially mutated bytearray is
    discarded by every caller (a fresh local bytearray), so it is not returned. *)
Definition write_value (data : list Z) (offset_bits num_bits : Z) (is_signed : bool) (value : Z)
  : res (list Z) :=
  if negb (num_bits <=? 64) then Err AssertionError else                          (* :33 *)
  let offset_bytes := offset_bits / 8 in                                          (* :35 *)
  let offset_extra_bits := offset_bits mod 8 in
  let total_bytes := (num_bits + 7) / 8 in                                        (* :36 *)
  if num_bits =? 1 then                                                           (* :38-43 *)
    b <- py_get data offset_bytes ;;
    if value =? 1
    then py_set data offset_bytes (Z.lor b (Z.shiftl 1 offset_extra_bits))
    else py_set data offset_bytes (Z.land b (Z.lnot (Z.shiftl 1 offset_extra_bits)))
  else
    m <- py_shl 1 num_bits ;;                                                     (* :45 *)
    let mask := m - 1 in
    let value := Z.shiftl value offset_extra_bits in                              (* :46 *)
    let value := Z.land value (Z.shiftl mask offset_extra_bits) in                (* :47 *)
    vle <- py_to_bytes value (total_bytes + 1) is_signed ;;                       (* :48 *)
    old <- py_get data offset_bytes ;;                                            (* :49 *)
    lowmask <- py_shl 1 offset_bits ;;
    let surrounding_bits := Z.land old (lowmask - 1) in
    b0 <- py_get vle 0 ;;                                                         (* :51-52 *)
    data <- py_set data offset_bytes b0 ;;
    b0' <- py_get data offset_bytes ;;                                            (* :53 *)
    data <- py_set data offset_bytes (Z.lor b0' surrounding_bits) ;;
    (* :55-58 byte_idx runs from 1 to total_bytes - 1 and ends at max 1 total_bytes *)
    data <- copy_bytes (Z.to_nat (total_bytes - 1)) data offset_bytes 1 vle ;;
    let byte_idx := Z.max 1 total_bytes in
    let bits_written := total_bytes * 8 - offset_extra_bits in                    (* :60 *)
    if bits_written <? num_bits then                                              (* :61-64 *)
      oldl <- py_get data (offset_bytes + byte_idx) ;;
      let surrounding_bits := Z.land oldl (Z.lnot (lowmask - 1)) in
      bl <- py_get vle byte_idx ;;
      data <- py_set data (offset_bytes + byte_idx)
                (Z.land bl (Z.shiftl 1 (8 - bits_written mod 8) - 1)) ;;
      b' <- py_get data (offset_bytes + byte_idx) ;;
      py_set data (offset_bytes + byte_idx) (Z.lor b' surrounding_bits)
    else Ok data.

(** Values a user may put in a record: an int (bool included, it is an int subclass) or any other
    object, of which only [value == 1] matters (data_access.py:39). *)
Inductive pyval : Type := PInt (v : Z) | POther (equals_one : bool).

(** [write_value] on an arbitrary Python value: non-ints raise TypeError at [value <<= ...]
    (data_access.py:46) after the checks at :33 and :38-43 and :45. *)
Definition write_pyval (data : list Z) (offset_bits num_bits : Z) (is_signed : bool) (value : pyval)
  : res (list Z) :=
  match value with
  | PInt v => write_value data offset_bits num_bits is_signed v
  | POther e1 =>
      if negb (num_bits <=? 64) then Err AssertionError
      else if num_bits =? 1 then write_value data offset_bits 1 is_signed (if e1 then 1 else 0)
      else _ <- py_shl 1 num_bits ;; Err TypeError
  end.
