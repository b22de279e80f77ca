(** Models of the bit-field codecs of the other language bindings: C++ [Reader]/[Writer]
    (flatdata-cpp/include/flatdata/internal), Rust [flatdata_read_bytes!]/[flatdata_write_bytes!]
    (flatdata-rs/lib/src) and Go [Read] (flatdata-go/flatdata/reader.go).

    Memory is the list of bytes the accessed pointer or slice points into, starting at the first byte of
    the structure; [None] is an access outside it (undefined behaviour in C++ and in Rust's raw pointer
    code, a panic for a checked Rust slice index and for Go).  Machine words are integers reduced modulo
    two to the word's width, exactly as C++ unsigned, Rust [u64] and Go [uint] (64-bit platforms)
    arithmetic is defined. *)
From Coq Require Import List ZArith Bool.
From Verif Require Import PyBase.
Import ListNotations.
Local Open Scope Z_scope.

Definition obind {A B} (x : option A) (f : A -> option B) : option B :=
  match x with Some a => f a | None => None end.
Notation "x <== a ;; b" := (obind a (fun x => b)) (at level 61, a at next level, right associativity).

(** [data\[i\]] / [*data.add(i)] *)
Definition mem_byte (data : list Z) (i : Z) : option Z :=
  if (0 <=? i) && (i <? zlen data) then Some (nth (Z.to_nat i) data 0) else None.

(** [memcpy(&word, data + pos, k)] followed by little-endian to native conversion. *)
Definition mem_load (data : list Z) (pos k : Z) : option Z :=
  if (0 <=? pos) && (0 <=? k) && (pos + k <=? zlen data)
  then Some (le (firstn (Z.to_nat k) (skipn (Z.to_nat pos) data))) else None.

(** native to little-endian conversion followed by [memcpy(data + pos, &word, k)]. *)
Definition mem_store (data : list Z) (pos k v : Z) : option (list Z) :=
  if (0 <=? pos) && (0 <=? k) && (pos + k <=? zlen data)
  then Some (firstn (Z.to_nat pos) data ++ to_le (Z.to_nat k) v
             ++ skipn (Z.to_nat pos + Z.to_nat k) data) else None.

(** Conversion to an integer type of [w] bits (C++ [static_cast], Rust [as], Go conversions). *)
Definition cast (w : Z) (signed : bool) (v : Z) : Z :=
  if signed then (v + 2 ^ (w - 1)) mod 2 ^ w - 2 ^ (w - 1) else v mod 2 ^ w.

(** ** C++ *)

(** BitHelpers.h:15-48 [BitsToUnsigned<bits>::type], as its width in bits: [MakeUnsignedInt<n>] exists
    for 1, 2, 4 and 8 bytes and otherwise goes on to [n + 1].  Widths above 64 do not compile; the model
    returns 64 there and no theorem uses it. *)
Definition bits_to_unsigned (bits : Z) : Z :=
  let bytes := (bits + 7) / 8 in
  if bytes <=? 1 then 8 else if bytes <=? 2 then 16 else if bytes <=? 4 then 32 else 64.

(** Reader.h:60-62 and Writer.h:31-32: width in bits of [UnsignedType] ([int_choice], BitHelpers.h:144-160). *)
Definition cpp_word (offset num_bits : Z) : Z :=
  bits_to_unsigned (if num_bits + offset mod 8 <=? 64 then num_bits + offset mod 8 else num_bits).

(** BitHelpers.h:127-142 [masked<bits>(value)] for a [w]-bit unsigned value. *)
Definition cpp_masked (bits w v : Z) : Z :=
  if bits =? w then v else Z.land v ((Z.shiftl 1 bits) mod 2 ^ w - 1).

(** BitHelpers.h:105-125 [extend_sign<T, num_bits>]: for a signed type assignment to a signed bit field of
    [num_bits] bits (two's complement), then conversion to the result type. *)
Definition cpp_extend_sign (wT : Z) (sT : bool) (num_bits v : Z) : Z :=
  if sT then cast wT true (cast num_bits true v) else cast wT false v.

(** Reader.h:58-101 [Reader<T, offset, num_bits>::operator T()]; [wT] and [sT] are the width and the
    signedness of [T], or of the underlying type of an enumeration ([IsSigned], BitHelpers.h:51-83);
    [bool] is [wT = 1], [sT = false]. *)
Definition cpp_read (wT : Z) (sT : bool) (data : list Z) (offset num_bits : Z) : option Z :=
  let w := cpp_word offset num_bits in
  let byte_offset := offset / 8 in
  let bit_offset := offset mod 8 in
  if num_bits =? 1 then                                                          (* :84-87 *)
    b <== mem_byte data byte_offset ;;
    Some (cast wT sT (if Z.land b (Z.shiftl 1 bit_offset) =? 0 then 0 else 1))
  else
    result <== mem_load data byte_offset (w / 8) ;;                              (* :89-91 *)
    let result := Z.shiftr result bit_offset in                                  (* :92 *)
    result <== (if w - bit_offset <? num_bits then                               (* :93-98 *)
                  temp <== mem_byte data (byte_offset + w / 8) ;;
                  Some (Z.lor result ((Z.shiftl temp ((w - bit_offset) mod w)) mod 2 ^ w))
                else Some result) ;;
    let result := cpp_masked num_bits w result in                                (* :99 *)
    Some (cpp_extend_sign wT sT num_bits result).                                (* :100 *)

(** Writer.h:40-86 [Writer<T, offset, num_bits>::operator=(T t)].  [std::is_signed<T>] (unlike
    [IsSigned<T>]) is false for every enumeration, whatever its underlying type: [is_enum]. *)
Definition cpp_write (sT is_enum : bool) (data : list Z) (offset num_bits t : Z) : option (list Z) :=
  let w := cpp_word offset num_bits in
  let destination := offset / 8 in                                               (* :52 *)
  let bit_offset := offset mod 8 in
  let value_to_store := t mod 2 ^ w in                                           (* :55 *)
  let value_to_store :=
    if sT && negb is_enum then cpp_masked num_bits w value_to_store else value_to_store in (* :56-60 *)
  let value_mask := cpp_masked num_bits w (2 ^ w - 1) in                         (* :61 *)
  value <== mem_load data destination (w / 8) ;;                                 (* :64-65 *)
  let value := Z.land value ((Z.lnot (Z.shiftl value_mask bit_offset)) mod 2 ^ w) in (* :67 *)
  let value := Z.lor value ((Z.shiftl value_to_store bit_offset) mod 2 ^ w) in   (* :69 *)
  data <== mem_store data destination (w / 8) value ;;                           (* :71-72 *)
  let batched_bits_written := w - bit_offset in                                  (* :73 *)
  if batched_bits_written <? num_bits then                                       (* :75-84 *)
    let destination := destination + w / 8 in
    let value_to_store := Z.shiftr value_to_store (batched_bits_written mod w) in
    let value_mask := Z.shiftr value_mask (batched_bits_written mod w) in
    b <== mem_byte data destination ;;
    let byte_value := (Z.land b (Z.lnot value_mask)) mod 256 in
    mem_store data destination 1 (Z.lor byte_value (value_to_store mod 256))
  else Some data.

(** Reader.h:111-125 [Reader<std::pair<T, T>, ...>]: the field of this structure and of the next one. *)
Definition cpp_read_range (wT : Z) (sT : bool) (data : list Z) (offset num_bits struct_size : Z)
  : option (Z * Z) :=
  s <== cpp_read wT sT data offset num_bits ;;
  e <== cpp_read wT sT (skipn (Z.to_nat struct_size) data) offset num_bits ;;
  Some (s, e).

(** Reader.h:145-157 [Reader<Tagged<T, INVALID_VALUE>, ...>] as [boost::optional]. *)
Definition cpp_read_tagged (wT : Z) (sT : bool) (invalid : Z) (data : list Z) (offset num_bits : Z)
  : option (option Z) :=
  v <== cpp_read wT sT data offset num_bits ;;
  Some (if v =? invalid then None else Some v).

(** ** Rust *)

(** bytereader.rs:37-41 [@mask]: [1u64.checked_shl(n)] is [None] from 64 on. *)
Definition rust_mask (v num_bits : Z) : Z :=
  if num_bits <? 64 then Z.land v (Z.shiftl 1 num_bits - 1) else v.

(** bytereader.rs:25-34 [@extend] for a type [T] of [wT] bits; [wrapping_shl]/[wrapping_shr] reduce the
    shift amount modulo the type's width. *)
Definition rust_extend (wT : Z) (sT : bool) (v num_bits : Z) : Z :=
  if sT then
    let num_otherbits := (wT - num_bits) mod wT in
    Z.shiftr (cast wT true (Z.shiftl (cast wT true v) num_otherbits)) num_otherbits
  else cast wT false v.

(** bytereader.rs:47-72 [flatdata_read_bytes!(T, data, offset, num_bits)].  The rule for [bool]
    (:44-46) reads a [u8] and compares it with 0: [wT = 8] there. *)
Definition rust_read (wT : Z) (sT : bool) (bytes : list Z) (offset num_bits : Z) : option Z :=
  let byte_offset := offset / 8 in
  let bit_offset := offset mod 8 in
  let data := byte_offset in                                                     (* :53 pointer *)
  if num_bits =? 1 then                                                          (* :55-56 *)
    b <== mem_byte bytes data ;;
    Some (cast wT sT (if Z.land b (Z.shiftl 1 bit_offset) =? 0 then 0 else 1))
  else
    let num_bytes := Z.min 8 ((num_bits + bit_offset + 7) / 8) in                (* :58 *)
    result <== mem_load bytes data num_bytes ;;                                  (* :59-61 *)
    let result := Z.shiftr result bit_offset in                                  (* :62 *)
    let read_bits := num_bytes * 8 - bit_offset in                               (* :64 *)
    result <== (if read_bits <? num_bits then                                    (* :65-68 *)
                  temp <== mem_byte bytes (data + (byte_offset + num_bytes)) ;;
                  Some (Z.lor result ((Z.shiftl temp (read_bits mod (num_bytes * 8))) mod 2 ^ 64))
                else Some result) ;;
    let result := rust_mask result num_bits in                                   (* :69 *)
    Some (rust_extend wT sT result num_bits).                                    (* :70 *)

(** bytewriter.rs:26-78 [flatdata_write_bytes!(T; value, data, offset, num_bits)] in a release build (the
    [debug_assert] on the width is not modelled). *)
Definition rust_write (sT : bool) (data : list Z) (offset num_bits value : Z) : option (list Z) :=
  let destination := offset / 8 in                                               (* :29 *)
  let bit_offset := offset mod 8 in
  let value_to_store := value mod 2 ^ 64 in                                      (* :32 *)
  let value_to_store := if sT then rust_mask value_to_store num_bits else value_to_store in (* :33-35 *)
  let value_mask := rust_mask (2 ^ 64 - 1) num_bits in                           (* :36 *)
  let num_bytes := Z.min 8 ((num_bits + bit_offset + 7) / 8) in                  (* :40 *)
  v <== mem_load data destination num_bytes ;;                                   (* :41-48 *)
  let v := Z.land v ((Z.lnot (Z.shiftl value_mask bit_offset)) mod 2 ^ 64) in    (* :51 *)
  let v := Z.lor v ((Z.shiftl value_to_store bit_offset) mod 2 ^ 64) in          (* :53 *)
  data <== mem_store data destination num_bytes v ;;                             (* :56-63 *)
  let batched_bits_written := num_bytes * 8 - bit_offset in                      (* :66 *)
  if batched_bits_written <? num_bits then                                       (* :67-77 *)
    let destination := num_bytes in
    let value_to_store := Z.shiftr value_to_store (batched_bits_written mod (num_bytes * 8)) in
    let value_mask := Z.shiftr value_mask (batched_bits_written mod (num_bytes * 8)) in
    b <== mem_byte data destination ;;
    let byte_value := Z.land b ((Z.lnot value_mask) mod 256) in
    mem_store data destination 1 (Z.lor byte_value (value_to_store mod 256))
  else Some data.

(** ** Go *)

(** reader.go:12-17 [signBits]: [uint(math.Exp2(i))] is exact for [i < 64]. *)
Definition go_sign_bit (i : Z) : Z := 2 ^ i.

(** reader.go:38-46, the loop over whole bytes; [k] iterations remain. *)
Fixpoint go_loop (k : nat) (data : list Z) (size bits_left index cur result : Z) : option (Z * Z * Z) :=
  match k with
  | O => Some (bits_left, cur, result)
  | S k' =>
      let result := Z.lor result ((Z.shiftl cur (size - bits_left)) mod 2 ^ 64) in
      nxt <== mem_byte data (index + 1) ;;
      go_loop k' data size (bits_left - 8) (index + 1) nxt result
  end.

(** reader.go:48-58, after the loop. *)
Definition go_finish (size : Z) (signed : bool) (bits_left cur result : Z) : Z :=
  let result :=
    if negb (bits_left =? 0)
    then Z.lor result ((Z.shiftl (Z.land cur (Z.shiftl 1 bits_left - 1)) (size - bits_left)) mod 2 ^ 64)
    else result in                                                               (* :48-52 *)
  if signed                                                                      (* :54-56 *)
  then cast 64 true ((Z.land result (go_sign_bit (size - 1) - 1)
                      - Z.land result (go_sign_bit (size - 1))) mod 2 ^ 64)
  else cast 64 true result.                                                      (* :58 *)

(** reader.go:20-59 [Read(descriptor, offset, size, signed)]; the loop runs while 8 bits are left, that is
    [bits_left / 8] times. *)
Definition go_read (data : list Z) (offset size : Z) (signed : bool) : option Z :=
  let index := offset / 8 in                                                     (* :21 *)
  cur <== mem_byte data index ;;                                                 (* :22 *)
  let local_offset := offset mod 8 in                                            (* :24 *)
  if negb (local_offset =? 0) then                                               (* :27-36 *)
    let result := Z.shiftr cur local_offset in
    if size <=? 8 - local_offset then Some (Z.land result (Z.shiftl 1 size - 1))
    else
      let bits_left := size - (8 - local_offset) in
      cur <== mem_byte data (index + 1) ;;
      st <== go_loop (Z.to_nat (bits_left / 8)) data size bits_left (index + 1) cur result ;;
      let '(bits_left, cur, result) := st in
      Some (go_finish size signed bits_left cur result)
  else
    st <== go_loop (Z.to_nat (size / 8)) data size size index cur 0 ;;
    let '(bits_left, cur, result) := st in
    Some (go_finish size signed bits_left cur result).

(** flatdata-generator templates/go/structure.jinja2:9-22, the getter of a field of integer type [T]
    ([wT] bits) of the structure at byte [position]: the result of [Read] converted to [T]. *)
Definition go_get (wT : Z) (sT : bool) (data : list Z) (position offset num_bits : Z) : option Z :=
  v <== go_read data (position * 8 + offset) num_bits sT ;;
  Some (cast wT sT v).
