(** What the codecs of all language bindings are meant to do, in terms of the bits of the buffer only. *)
From Coq Require Import List ZArith Bool.
From Verif Require Import PyBase Spec.
Import ListNotations.
Local Open Scope Z_scope.

(** The value of a field as every binding documents it: a one-bit field is 0 or 1 (a boolean), any other
    field is the little-endian, two's complement if signed, value of its bits. *)
Definition schema_value (data : list Z) (off n : Z) (signed : bool) : Z :=
  if n =? 1 then (if bit_at data off then 1 else 0) else field_value data off n signed.

(** [data'] is [data] with the [n] bits from bit [off] on replaced by the low bits of [v] and no other
    bit changed. *)
Definition stores (data : list Z) (off n v : Z) (data' : list Z) : Prop :=
  List.length data' = List.length data /\ is_bytes data' /\
  forall i, 0 <= i ->
    bit_at data' i = if (off <=? i) && (i <? off + n) then Z.testbit v (i - off) else bit_at data i.

(** The field is followed by at least 8 more bytes (the padding the format puts after the data of every
    resource and the C++ codec asks for). *)
Definition padded (data : list Z) (off n : Z) : Prop := in_bounds (zlen data - 8) off n.

(** An integer type of [w] bits can hold the field; a signed type has at least two bits. *)
Definition type_holds (w : Z) (signed : bool) (n : Z) : Prop :=
  n <= w <= 64 /\ (signed = true -> 2 <= w).
