(** Specification vocabulary for bit fields, independent of the code: what it means for a buffer to
    hold a bit, a field and a value.  (docs/schema-language.md: "little endian", packed structs.) *)
From Coq Require Import List ZArith Bool.
Import ListNotations.
Local Open Scope Z_scope.

(** Bit [i] of a byte buffer: bit [i mod 8] of byte [i / 8]; bytes past the end count as 0. *)
Definition bit_at (buf : list Z) (i : Z) : bool :=
  Z.testbit (nth (Z.to_nat (i / 8)) buf 0) (i mod 8).

(** The unsigned value of the [n] bits starting at bit [off]: bit [off + k] has weight [2^k]. *)
Fixpoint uint_at (buf : list Z) (off : Z) (n : nat) : Z :=
  match n with
  | O => 0
  | S n' => (if bit_at buf off then 1 else 0) + 2 * uint_at buf (off + 1) n'
  end.

(** Two's complement reinterpretation of an unsigned [n]-bit value. *)
Definition twos_complement (n v : Z) : Z := if v <? 2 ^ (n - 1) then v else v - 2 ^ n.

(** Value of a field as the schema language defines it. *)
Definition field_value (buf : list Z) (off n : Z) (signed : bool) : Z :=
  let u := uint_at buf off (Z.to_nat n) in
  if signed then twos_complement n u else u.

(** [v] is representable in an [n]-bit field of the given signedness. *)
Definition representable (n : Z) (signed : bool) (v : Z) : Prop :=
  if signed then - 2 ^ (n - 1) <= v < 2 ^ (n - 1) else 0 <= v < 2 ^ n.

(** The field [off, off+n) lies inside a buffer of [len] bytes. *)
Definition in_bounds (len off n : Z) : Prop := 0 <= off /\ 0 < n /\ off + n <= 8 * len.
