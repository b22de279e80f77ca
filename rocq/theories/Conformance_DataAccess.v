(** GENERATED by tools/gen_vectors.py from flatdata-py/tests/test_data_access.py: the repository's own
    test vectors evaluated on the model (tests of the model's faithfulness, not proofs of properties). *)
From Coq Require Import List ZArith Bool.
From Verif Require Import PyBase DataAccess.
Import ListNotations.
Local Open Scope Z_scope.

Definition read_ok (t : list Z * Z * Z * bool * Z) : bool :=
  let '(d, o, n, s, v) := t in
  match read_value d o n s with Ok r => r =? v | Err _ => false end.
Fixpoint eqbl (a b : list Z) : bool :=
  match a, b with [], [] => true | x :: a', y :: b' => (x =? y) && eqbl a' b' | _, _ => false end.
(** test_data_access.py: _test_writer writes into a zeroed bytearray of the same length. *)
Definition write_ok (t : list Z * Z * Z * bool * Z) : bool :=
  let '(d, o, n, s, v) := t in
  match write_value (zeros (List.length d)) o n s v with Ok r => eqbl r d | Err _ => false end.

Definition read_vectors : list (list Z * Z * Z * bool * Z) :=
 [([0; 1; 0; 0; 0; 0; 0; 0; 0; 0], 8, 8, false, 1);
  ([0; 1; 0; 0; 0; 0; 0; 0; 0; 0], 8, 7, false, 1);
  ([0; 1; 0; 0; 0; 0; 0; 0; 0; 0], 8, 6, false, 1);
  ([0; 1; 0; 0; 0; 0; 0; 0; 0; 0], 8, 5, false, 1);
  ([0; 1; 0; 0; 0; 0; 0; 0; 0; 0], 8, 4, false, 1);
  ([0; 1; 0; 0; 0; 0; 0; 0; 0; 0], 8, 3, false, 1);
  ([0; 1; 0; 0; 0; 0; 0; 0; 0; 0], 8, 2, false, 1);
  ([0; 1; 0; 0; 0; 0; 0; 0; 0; 0], 8, 1, false, 1);
  ([128; 0; 0; 0; 0; 0; 0; 0; 0; 0], 7, 8, false, 1);
  ([128; 0; 0; 0; 0; 0; 0; 0; 0; 0], 7, 7, false, 1);
  ([128; 0; 0; 0; 0; 0; 0; 0; 0; 0], 7, 6, false, 1);
  ([128; 0; 0; 0; 0; 0; 0; 0; 0; 0], 7, 5, false, 1);
  ([128; 0; 0; 0; 0; 0; 0; 0; 0; 0], 7, 4, false, 1);
  ([128; 0; 0; 0; 0; 0; 0; 0; 0; 0], 7, 3, false, 1);
  ([128; 0; 0; 0; 0; 0; 0; 0; 0; 0], 7, 2, false, 1);
  ([128; 0; 0; 0; 0; 0; 0; 0; 0; 0], 7, 1, false, 1);
  ([64; 0; 0; 0; 0; 0; 0; 0; 0; 0], 6, 8, false, 1);
  ([64; 0; 0; 0; 0; 0; 0; 0; 0; 0], 6, 7, false, 1);
  ([64; 0; 0; 0; 0; 0; 0; 0; 0; 0], 6, 6, false, 1);
  ([64; 0; 0; 0; 0; 0; 0; 0; 0; 0], 6, 5, false, 1);
  ([64; 0; 0; 0; 0; 0; 0; 0; 0; 0], 6, 4, false, 1);
  ([64; 0; 0; 0; 0; 0; 0; 0; 0; 0], 6, 3, false, 1);
  ([64; 0; 0; 0; 0; 0; 0; 0; 0; 0], 6, 2, false, 1);
  ([64; 0; 0; 0; 0; 0; 0; 0; 0; 0], 6, 1, false, 1);
  ([32; 0; 0; 0; 0; 0; 0; 0; 0; 0], 5, 8, false, 1);
  ([32; 0; 0; 0; 0; 0; 0; 0; 0; 0], 5, 7, false, 1);
  ([32; 0; 0; 0; 0; 0; 0; 0; 0; 0], 5, 6, false, 1);
  ([32; 0; 0; 0; 0; 0; 0; 0; 0; 0], 5, 5, false, 1);
  ([32; 0; 0; 0; 0; 0; 0; 0; 0; 0], 5, 4, false, 1);
  ([32; 0; 0; 0; 0; 0; 0; 0; 0; 0], 5, 3, false, 1);
  ([32; 0; 0; 0; 0; 0; 0; 0; 0; 0], 5, 2, false, 1);
  ([32; 0; 0; 0; 0; 0; 0; 0; 0; 0], 5, 1, false, 1);
  ([16; 0; 0; 0; 0; 0; 0; 0; 0; 0], 4, 8, false, 1);
  ([16; 0; 0; 0; 0; 0; 0; 0; 0; 0], 4, 7, false, 1);
  ([16; 0; 0; 0; 0; 0; 0; 0; 0; 0], 4, 6, false, 1);
  ([16; 0; 0; 0; 0; 0; 0; 0; 0; 0], 4, 5, false, 1);
  ([16; 0; 0; 0; 0; 0; 0; 0; 0; 0], 4, 4, false, 1);
  ([16; 0; 0; 0; 0; 0; 0; 0; 0; 0], 4, 3, false, 1);
  ([16; 0; 0; 0; 0; 0; 0; 0; 0; 0], 4, 2, false, 1);
  ([16; 0; 0; 0; 0; 0; 0; 0; 0; 0], 4, 1, false, 1);
  ([8; 0; 0; 0; 0; 0; 0; 0; 0; 0], 3, 8, false, 1);
  ([8; 0; 0; 0; 0; 0; 0; 0; 0; 0], 3, 7, false, 1);
  ([8; 0; 0; 0; 0; 0; 0; 0; 0; 0], 3, 6, false, 1);
  ([8; 0; 0; 0; 0; 0; 0; 0; 0; 0], 3, 5, false, 1);
  ([8; 0; 0; 0; 0; 0; 0; 0; 0; 0], 3, 4, false, 1);
  ([8; 0; 0; 0; 0; 0; 0; 0; 0; 0], 3, 3, false, 1);
  ([8; 0; 0; 0; 0; 0; 0; 0; 0; 0], 3, 2, false, 1);
  ([8; 0; 0; 0; 0; 0; 0; 0; 0; 0], 3, 1, false, 1);
  ([4; 0; 0; 0; 0; 0; 0; 0; 0; 0], 2, 8, false, 1);
  ([4; 0; 0; 0; 0; 0; 0; 0; 0; 0], 2, 7, false, 1);
  ([4; 0; 0; 0; 0; 0; 0; 0; 0; 0], 2, 6, false, 1);
  ([4; 0; 0; 0; 0; 0; 0; 0; 0; 0], 2, 5, false, 1);
  ([4; 0; 0; 0; 0; 0; 0; 0; 0; 0], 2, 4, false, 1);
  ([4; 0; 0; 0; 0; 0; 0; 0; 0; 0], 2, 3, false, 1);
  ([4; 0; 0; 0; 0; 0; 0; 0; 0; 0], 2, 2, false, 1);
  ([4; 0; 0; 0; 0; 0; 0; 0; 0; 0], 2, 1, false, 1);
  ([2; 0; 0; 0; 0; 0; 0; 0; 0; 0], 1, 8, false, 1);
  ([2; 0; 0; 0; 0; 0; 0; 0; 0; 0], 1, 7, false, 1);
  ([2; 0; 0; 0; 0; 0; 0; 0; 0; 0], 1, 6, false, 1);
  ([2; 0; 0; 0; 0; 0; 0; 0; 0; 0], 1, 5, false, 1);
  ([2; 0; 0; 0; 0; 0; 0; 0; 0; 0], 1, 4, false, 1);
  ([2; 0; 0; 0; 0; 0; 0; 0; 0; 0], 1, 3, false, 1);
  ([2; 0; 0; 0; 0; 0; 0; 0; 0; 0], 1, 2, false, 1);
  ([2; 0; 0; 0; 0; 0; 0; 0; 0; 0], 1, 1, false, 1);
  ([1; 0; 0; 0; 0; 0; 0; 0; 0], 0, 8, false, 1);
  ([1; 0; 0; 0; 0; 0; 0; 0; 0], 0, 7, false, 1);
  ([1; 0; 0; 0; 0; 0; 0; 0; 0], 0, 6, false, 1);
  ([1; 0; 0; 0; 0; 0; 0; 0; 0], 0, 5, false, 1);
  ([1; 0; 0; 0; 0; 0; 0; 0; 0], 0, 4, false, 1);
  ([1; 0; 0; 0; 0; 0; 0; 0; 0], 0, 3, false, 1);
  ([1; 0; 0; 0; 0; 0; 0; 0; 0], 0, 2, false, 1);
  ([1; 0; 0; 0; 0; 0; 0; 0; 0], 0, 1, false, 1);
  ([0; 1; 0; 0; 0; 0; 0; 0; 0; 0; 0], 8, 16, false, 1);
  ([0; 1; 0; 0; 0; 0; 0; 0; 0; 0; 0], 8, 15, false, 1);
  ([0; 1; 0; 0; 0; 0; 0; 0; 0; 0; 0], 8, 14, false, 1);
  ([0; 1; 0; 0; 0; 0; 0; 0; 0; 0; 0], 8, 13, false, 1);
  ([0; 1; 0; 0; 0; 0; 0; 0; 0; 0; 0], 8, 12, false, 1);
  ([0; 1; 0; 0; 0; 0; 0; 0; 0; 0; 0], 8, 11, false, 1);
  ([0; 1; 0; 0; 0; 0; 0; 0; 0; 0; 0], 8, 10, false, 1);
  ([0; 1; 0; 0; 0; 0; 0; 0; 0; 0; 0], 8, 9, false, 1);
  ([0; 1; 0; 0; 0; 0; 0; 0; 0; 0; 0], 8, 8, false, 1);
  ([0; 1; 0; 0; 0; 0; 0; 0; 0; 0; 0], 8, 7, false, 1);
  ([0; 1; 0; 0; 0; 0; 0; 0; 0; 0; 0], 8, 6, false, 1);
  ([0; 1; 0; 0; 0; 0; 0; 0; 0; 0; 0], 8, 5, false, 1);
  ([0; 1; 0; 0; 0; 0; 0; 0; 0; 0; 0], 8, 4, false, 1);
  ([0; 1; 0; 0; 0; 0; 0; 0; 0; 0; 0], 8, 3, false, 1);
  ([0; 1; 0; 0; 0; 0; 0; 0; 0; 0; 0], 8, 2, false, 1);
  ([0; 1; 0; 0; 0; 0; 0; 0; 0; 0; 0], 8, 1, false, 1);
  ([128; 0; 0; 0; 0; 0; 0; 0; 0; 0; 0], 7, 16, false, 1);
  ([128; 0; 0; 0; 0; 0; 0; 0; 0; 0; 0], 7, 15, false, 1);
  ([128; 0; 0; 0; 0; 0; 0; 0; 0; 0; 0], 7, 14, false, 1);
  ([128; 0; 0; 0; 0; 0; 0; 0; 0; 0; 0], 7, 13, false, 1);
  ([128; 0; 0; 0; 0; 0; 0; 0; 0; 0; 0], 7, 12, false, 1);
  ([128; 0; 0; 0; 0; 0; 0; 0; 0; 0; 0], 7, 11, false, 1);
  ([128; 0; 0; 0; 0; 0; 0; 0; 0; 0; 0], 7, 10, false, 1);
  ([128; 0; 0; 0; 0; 0; 0; 0; 0; 0; 0], 7, 9, false, 1);
  ([128; 0; 0; 0; 0; 0; 0; 0; 0; 0; 0], 7, 8, false, 1);
  ([128; 0; 0; 0; 0; 0; 0; 0; 0; 0; 0], 7, 7, false, 1);
  ([128; 0; 0; 0; 0; 0; 0; 0; 0; 0; 0], 7, 6, false, 1);
  ([128; 0; 0; 0; 0; 0; 0; 0; 0; 0; 0], 7, 5, false, 1);
  ([128; 0; 0; 0; 0; 0; 0; 0; 0; 0; 0], 7, 4, false, 1);
  ([128; 0; 0; 0; 0; 0; 0; 0; 0; 0; 0], 7, 3, false, 1);
  ([128; 0; 0; 0; 0; 0; 0; 0; 0; 0; 0], 7, 2, false, 1);
  ([128; 0; 0; 0; 0; 0; 0; 0; 0; 0; 0], 7, 1, false, 1);
  ([64; 0; 0; 0; 0; 0; 0; 0; 0; 0; 0], 6, 16, false, 1);
  ([64; 0; 0; 0; 0; 0; 0; 0; 0; 0; 0], 6, 15, false, 1);
  ([64; 0; 0; 0; 0; 0; 0; 0; 0; 0; 0], 6, 14, false, 1);
  ([64; 0; 0; 0; 0; 0; 0; 0; 0; 0; 0], 6, 13, false, 1);
  ([64; 0; 0; 0; 0; 0; 0; 0; 0; 0; 0], 6, 12, false, 1);
  ([64; 0; 0; 0; 0; 0; 0; 0; 0; 0; 0], 6, 11, false, 1);
  ([64; 0; 0; 0; 0; 0; 0; 0; 0; 0; 0], 6, 10, false, 1);
  ([64; 0; 0; 0; 0; 0; 0; 0; 0; 0; 0], 6, 9, false, 1);
  ([64; 0; 0; 0; 0; 0; 0; 0; 0; 0; 0], 6, 8, false, 1);
  ([64; 0; 0; 0; 0; 0; 0; 0; 0; 0; 0], 6, 7, false, 1);
  ([64; 0; 0; 0; 0; 0; 0; 0; 0; 0; 0], 6, 6, false, 1);
  ([64; 0; 0; 0; 0; 0; 0; 0; 0; 0; 0], 6, 5, false, 1);
  ([64; 0; 0; 0; 0; 0; 0; 0; 0; 0; 0], 6, 4, false, 1);
  ([64; 0; 0; 0; 0; 0; 0; 0; 0; 0; 0], 6, 3, false, 1);
  ([64; 0; 0; 0; 0; 0; 0; 0; 0; 0; 0], 6, 2, false, 1);
  ([64; 0; 0; 0; 0; 0; 0; 0; 0; 0; 0], 6, 1, false, 1);
  ([32; 0; 0; 0; 0; 0; 0; 0; 0; 0; 0], 5, 16, false, 1);
  ([32; 0; 0; 0; 0; 0; 0; 0; 0; 0; 0], 5, 15, false, 1);
  ([32; 0; 0; 0; 0; 0; 0; 0; 0; 0; 0], 5, 14, false, 1);
  ([32; 0; 0; 0; 0; 0; 0; 0; 0; 0; 0], 5, 13, false, 1);
  ([32; 0; 0; 0; 0; 0; 0; 0; 0; 0; 0], 5, 12, false, 1);
  ([32; 0; 0; 0; 0; 0; 0; 0; 0; 0; 0], 5, 11, false, 1);
  ([32; 0; 0; 0; 0; 0; 0; 0; 0; 0; 0], 5, 10, false, 1);
  ([32; 0; 0; 0; 0; 0; 0; 0; 0; 0; 0], 5, 9, false, 1);
  ([32; 0; 0; 0; 0; 0; 0; 0; 0; 0; 0], 5, 8, false, 1);
  ([32; 0; 0; 0; 0; 0; 0; 0; 0; 0; 0], 5, 7, false, 1);
  ([32; 0; 0; 0; 0; 0; 0; 0; 0; 0; 0], 5, 6, false, 1);
  ([32; 0; 0; 0; 0; 0; 0; 0; 0; 0; 0], 5, 5, false, 1);
  ([32; 0; 0; 0; 0; 0; 0; 0; 0; 0; 0], 5, 4, false, 1);
  ([32; 0; 0; 0; 0; 0; 0; 0; 0; 0; 0], 5, 3, false, 1);
  ([32; 0; 0; 0; 0; 0; 0; 0; 0; 0; 0], 5, 2, false, 1);
  ([32; 0; 0; 0; 0; 0; 0; 0; 0; 0; 0], 5, 1, false, 1);
  ([16; 0; 0; 0; 0; 0; 0; 0; 0; 0; 0], 4, 16, false, 1);
  ([16; 0; 0; 0; 0; 0; 0; 0; 0; 0; 0], 4, 15, false, 1);
  ([16; 0; 0; 0; 0; 0; 0; 0; 0; 0; 0], 4, 14, false, 1);
  ([16; 0; 0; 0; 0; 0; 0; 0; 0; 0; 0], 4, 13, false, 1);
  ([16; 0; 0; 0; 0; 0; 0; 0; 0; 0; 0], 4, 12, false, 1);
  ([16; 0; 0; 0; 0; 0; 0; 0; 0; 0; 0], 4, 11, false, 1);
  ([16; 0; 0; 0; 0; 0; 0; 0; 0; 0; 0], 4, 10, false, 1);
  ([16; 0; 0; 0; 0; 0; 0; 0; 0; 0; 0], 4, 9, false, 1);
  ([16; 0; 0; 0; 0; 0; 0; 0; 0; 0; 0], 4, 8, false, 1);
  ([16; 0; 0; 0; 0; 0; 0; 0; 0; 0; 0], 4, 7, false, 1);
  ([16; 0; 0; 0; 0; 0; 0; 0; 0; 0; 0], 4, 6, false, 1);
  ([16; 0; 0; 0; 0; 0; 0; 0; 0; 0; 0], 4, 5, false, 1);
  ([16; 0; 0; 0; 0; 0; 0; 0; 0; 0; 0], 4, 4, false, 1);
  ([16; 0; 0; 0; 0; 0; 0; 0; 0; 0; 0], 4, 3, false, 1);
  ([16; 0; 0; 0; 0; 0; 0; 0; 0; 0; 0], 4, 2, false, 1);
  ([16; 0; 0; 0; 0; 0; 0; 0; 0; 0; 0], 4, 1, false, 1);
  ([8; 0; 0; 0; 0; 0; 0; 0; 0; 0; 0], 3, 16, false, 1);
  ([8; 0; 0; 0; 0; 0; 0; 0; 0; 0; 0], 3, 15, false, 1);
  ([8; 0; 0; 0; 0; 0; 0; 0; 0; 0; 0], 3, 14, false, 1);
  ([8; 0; 0; 0; 0; 0; 0; 0; 0; 0; 0], 3, 13, false, 1);
  ([8; 0; 0; 0; 0; 0; 0; 0; 0; 0; 0], 3, 12, false, 1);
  ([8; 0; 0; 0; 0; 0; 0; 0; 0; 0; 0], 3, 11, false, 1);
  ([8; 0; 0; 0; 0; 0; 0; 0; 0; 0; 0], 3, 10, false, 1);
  ([8; 0; 0; 0; 0; 0; 0; 0; 0; 0; 0], 3, 9, false, 1);
  ([8; 0; 0; 0; 0; 0; 0; 0; 0; 0; 0], 3, 8, false, 1);
  ([8; 0; 0; 0; 0; 0; 0; 0; 0; 0; 0], 3, 7, false, 1);
  ([8; 0; 0; 0; 0; 0; 0; 0; 0; 0; 0], 3, 6, false, 1);
  ([8; 0; 0; 0; 0; 0; 0; 0; 0; 0; 0], 3, 5, false, 1);
  ([8; 0; 0; 0; 0; 0; 0; 0; 0; 0; 0], 3, 4, false, 1);
  ([8; 0; 0; 0; 0; 0; 0; 0; 0; 0; 0], 3, 3, false, 1);
  ([8; 0; 0; 0; 0; 0; 0; 0; 0; 0; 0], 3, 2, false, 1);
  ([8; 0; 0; 0; 0; 0; 0; 0; 0; 0; 0], 3, 1, false, 1);
  ([4; 0; 0; 0; 0; 0; 0; 0; 0; 0; 0], 2, 16, false, 1);
  ([4; 0; 0; 0; 0; 0; 0; 0; 0; 0; 0], 2, 15, false, 1);
  ([4; 0; 0; 0; 0; 0; 0; 0; 0; 0; 0], 2, 14, false, 1);
  ([4; 0; 0; 0; 0; 0; 0; 0; 0; 0; 0], 2, 13, false, 1);
  ([4; 0; 0; 0; 0; 0; 0; 0; 0; 0; 0], 2, 12, false, 1);
  ([4; 0; 0; 0; 0; 0; 0; 0; 0; 0; 0], 2, 11, false, 1);
  ([4; 0; 0; 0; 0; 0; 0; 0; 0; 0; 0], 2, 10, false, 1);
  ([4; 0; 0; 0; 0; 0; 0; 0; 0; 0; 0], 2, 9, false, 1);
  ([4; 0; 0; 0; 0; 0; 0; 0; 0; 0; 0], 2, 8, false, 1);
  ([4; 0; 0; 0; 0; 0; 0; 0; 0; 0; 0], 2, 7, false, 1);
  ([4; 0; 0; 0; 0; 0; 0; 0; 0; 0; 0], 2, 6, false, 1);
  ([4; 0; 0; 0; 0; 0; 0; 0; 0; 0; 0], 2, 5, false, 1);
  ([4; 0; 0; 0; 0; 0; 0; 0; 0; 0; 0], 2, 4, false, 1);
  ([4; 0; 0; 0; 0; 0; 0; 0; 0; 0; 0], 2, 3, false, 1);
  ([4; 0; 0; 0; 0; 0; 0; 0; 0; 0; 0], 2, 2, false, 1);
  ([4; 0; 0; 0; 0; 0; 0; 0; 0; 0; 0], 2, 1, false, 1);
  ([2; 0; 0; 0; 0; 0; 0; 0; 0; 0; 0], 1, 16, false, 1);
  ([2; 0; 0; 0; 0; 0; 0; 0; 0; 0; 0], 1, 15, false, 1);
  ([2; 0; 0; 0; 0; 0; 0; 0; 0; 0; 0], 1, 14, false, 1);
  ([2; 0; 0; 0; 0; 0; 0; 0; 0; 0; 0], 1, 13, false, 1);
  ([2; 0; 0; 0; 0; 0; 0; 0; 0; 0; 0], 1, 12, false, 1);
  ([2; 0; 0; 0; 0; 0; 0; 0; 0; 0; 0], 1, 11, false, 1);
  ([2; 0; 0; 0; 0; 0; 0; 0; 0; 0; 0], 1, 10, false, 1);
  ([2; 0; 0; 0; 0; 0; 0; 0; 0; 0; 0], 1, 9, false, 1);
  ([2; 0; 0; 0; 0; 0; 0; 0; 0; 0; 0], 1, 8, false, 1);
  ([2; 0; 0; 0; 0; 0; 0; 0; 0; 0; 0], 1, 7, false, 1);
  ([2; 0; 0; 0; 0; 0; 0; 0; 0; 0; 0], 1, 6, false, 1);
  ([2; 0; 0; 0; 0; 0; 0; 0; 0; 0; 0], 1, 5, false, 1);
  ([2; 0; 0; 0; 0; 0; 0; 0; 0; 0; 0], 1, 4, false, 1);
  ([2; 0; 0; 0; 0; 0; 0; 0; 0; 0; 0], 1, 3, false, 1);
  ([2; 0; 0; 0; 0; 0; 0; 0; 0; 0; 0], 1, 2, false, 1);
  ([2; 0; 0; 0; 0; 0; 0; 0; 0; 0; 0], 1, 1, false, 1);
  ([1; 0; 0; 0; 0; 0; 0; 0; 0; 0], 0, 16, false, 1);
  ([1; 0; 0; 0; 0; 0; 0; 0; 0; 0], 0, 15, false, 1);
  ([1; 0; 0; 0; 0; 0; 0; 0; 0; 0], 0, 14, false, 1);
  ([1; 0; 0; 0; 0; 0; 0; 0; 0; 0], 0, 13, false, 1);
  ([1; 0; 0; 0; 0; 0; 0; 0; 0; 0], 0, 12, false, 1);
  ([1; 0; 0; 0; 0; 0; 0; 0; 0; 0], 0, 11, false, 1);
  ([1; 0; 0; 0; 0; 0; 0; 0; 0; 0], 0, 10, false, 1);
  ([1; 0; 0; 0; 0; 0; 0; 0; 0; 0], 0, 9, false, 1);
  ([1; 0; 0; 0; 0; 0; 0; 0; 0; 0], 0, 8, false, 1);
  ([1; 0; 0; 0; 0; 0; 0; 0; 0; 0], 0, 7, false, 1);
  ([1; 0; 0; 0; 0; 0; 0; 0; 0; 0], 0, 6, false, 1);
  ([1; 0; 0; 0; 0; 0; 0; 0; 0; 0], 0, 5, false, 1);
  ([1; 0; 0; 0; 0; 0; 0; 0; 0; 0], 0, 4, false, 1);
  ([1; 0; 0; 0; 0; 0; 0; 0; 0; 0], 0, 3, false, 1);
  ([1; 0; 0; 0; 0; 0; 0; 0; 0; 0], 0, 2, false, 1);
  ([1; 0; 0; 0; 0; 0; 0; 0; 0; 0], 0, 1, false, 1);
  ([0; 1; 0; 0; 0; 0; 0; 0; 0; 0; 0; 0; 0], 8, 32, false, 1);
  ([0; 1; 0; 0; 0; 0; 0; 0; 0; 0; 0; 0; 0], 8, 31, false, 1);
  ([0; 1; 0; 0; 0; 0; 0; 0; 0; 0; 0; 0; 0], 8, 30, false, 1);
  ([0; 1; 0; 0; 0; 0; 0; 0; 0; 0; 0; 0; 0], 8, 29, false, 1);
  ([0; 1; 0; 0; 0; 0; 0; 0; 0; 0; 0; 0; 0], 8, 28, false, 1);
  ([0; 1; 0; 0; 0; 0; 0; 0; 0; 0; 0; 0; 0], 8, 27, false, 1);
  ([0; 1; 0; 0; 0; 0; 0; 0; 0; 0; 0; 0; 0], 8, 26, false, 1);
  ([0; 1; 0; 0; 0; 0; 0; 0; 0; 0; 0; 0; 0], 8, 25, false, 1);
  ([0; 1; 0; 0; 0; 0; 0; 0; 0; 0; 0; 0; 0], 8, 24, false, 1);
  ([0; 1; 0; 0; 0; 0; 0; 0; 0; 0; 0; 0; 0], 8, 23, false, 1);
  ([0; 1; 0; 0; 0; 0; 0; 0; 0; 0; 0; 0; 0], 8, 22, false, 1);
  ([0; 1; 0; 0; 0; 0; 0; 0; 0; 0; 0; 0; 0], 8, 21, false, 1);
  ([0; 1; 0; 0; 0; 0; 0; 0; 0; 0; 0; 0; 0], 8, 20, false, 1);
  ([0; 1; 0; 0; 0; 0; 0; 0; 0; 0; 0; 0; 0], 8, 19, false, 1);
  ([0; 1; 0; 0; 0; 0; 0; 0; 0; 0; 0; 0; 0], 8, 18, false, 1);
  ([0; 1; 0; 0; 0; 0; 0; 0; 0; 0; 0; 0; 0], 8, 17, false, 1);
  ([0; 1; 0; 0; 0; 0; 0; 0; 0; 0; 0; 0; 0], 8, 16, false, 1);
  ([0; 1; 0; 0; 0; 0; 0; 0; 0; 0; 0; 0; 0], 8, 15, false, 1);
  ([0; 1; 0; 0; 0; 0; 0; 0; 0; 0; 0; 0; 0], 8, 14, false, 1);
  ([0; 1; 0; 0; 0; 0; 0; 0; 0; 0; 0; 0; 0], 8, 13, false, 1);
  ([0; 1; 0; 0; 0; 0; 0; 0; 0; 0; 0; 0; 0], 8, 12, false, 1);
  ([0; 1; 0; 0; 0; 0; 0; 0; 0; 0; 0; 0; 0], 8, 11, false, 1);
  ([0; 1; 0; 0; 0; 0; 0; 0; 0; 0; 0; 0; 0], 8, 10, false, 1);
  ([0; 1; 0; 0; 0; 0; 0; 0; 0; 0; 0; 0; 0], 8, 9, false, 1);
  ([0; 1; 0; 0; 0; 0; 0; 0; 0; 0; 0; 0; 0], 8, 8, false, 1);
  ([0; 1; 0; 0; 0; 0; 0; 0; 0; 0; 0; 0; 0], 8, 7, false, 1);
  ([0; 1; 0; 0; 0; 0; 0; 0; 0; 0; 0; 0; 0], 8, 6, false, 1);
  ([0; 1; 0; 0; 0; 0; 0; 0; 0; 0; 0; 0; 0], 8, 5, false, 1);
  ([0; 1; 0; 0; 0; 0; 0; 0; 0; 0; 0; 0; 0], 8, 4, false, 1);
  ([0; 1; 0; 0; 0; 0; 0; 0; 0; 0; 0; 0; 0], 8, 3, false, 1);
  ([0; 1; 0; 0; 0; 0; 0; 0; 0; 0; 0; 0; 0], 8, 2, false, 1);
  ([0; 1; 0; 0; 0; 0; 0; 0; 0; 0; 0; 0; 0], 8, 1, false, 1);
  ([128; 0; 0; 0; 0; 0; 0; 0; 0; 0; 0; 0; 0], 7, 32, false, 1);
  ([128; 0; 0; 0; 0; 0; 0; 0; 0; 0; 0; 0; 0], 7, 31, false, 1);
  ([128; 0; 0; 0; 0; 0; 0; 0; 0; 0; 0; 0; 0], 7, 30, false, 1);
  ([128; 0; 0; 0; 0; 0; 0; 0; 0; 0; 0; 0; 0], 7, 29, false, 1);
  ([128; 0; 0; 0; 0; 0; 0; 0; 0; 0; 0; 0; 0], 7, 28, false, 1);
  ([128; 0; 0; 0; 0; 0; 0; 0; 0; 0; 0; 0; 0], 7, 27, false, 1);
  ([128; 0; 0; 0; 0; 0; 0; 0; 0; 0; 0; 0; 0], 7, 26, false, 1);
  ([128; 0; 0; 0; 0; 0; 0; 0; 0; 0; 0; 0; 0], 7, 25, false, 1);
  ([128; 0; 0; 0; 0; 0; 0; 0; 0; 0; 0; 0; 0], 7, 24, false, 1);
  ([128; 0; 0; 0; 0; 0; 0; 0; 0; 0; 0; 0; 0], 7, 23, false, 1);
  ([128; 0; 0; 0; 0; 0; 0; 0; 0; 0; 0; 0; 0], 7, 22, false, 1);
  ([128; 0; 0; 0; 0; 0; 0; 0; 0; 0; 0; 0; 0], 7, 21, false, 1);
  ([128; 0; 0; 0; 0; 0; 0; 0; 0; 0; 0; 0; 0], 7, 20, false, 1);
  ([128; 0; 0; 0; 0; 0; 0; 0; 0; 0; 0; 0; 0], 7, 19, false, 1);
  ([128; 0; 0; 0; 0; 0; 0; 0; 0; 0; 0; 0; 0], 7, 18, false, 1);
  ([128; 0; 0; 0; 0; 0; 0; 0; 0; 0; 0; 0; 0], 7, 17, false, 1);
  ([128; 0; 0; 0; 0; 0; 0; 0; 0; 0; 0; 0; 0], 7, 16, false, 1);
  ([128; 0; 0; 0; 0; 0; 0; 0; 0; 0; 0; 0; 0], 7, 15, false, 1);
  ([128; 0; 0; 0; 0; 0; 0; 0; 0; 0; 0; 0; 0], 7, 14, false, 1);
  ([128; 0; 0; 0; 0; 0; 0; 0; 0; 0; 0; 0; 0], 7, 13, false, 1);
  ([128; 0; 0; 0; 0; 0; 0; 0; 0; 0; 0; 0; 0], 7, 12, false, 1);
  ([128; 0; 0; 0; 0; 0; 0; 0; 0; 0; 0; 0; 0], 7, 11, false, 1);
  ([128; 0; 0; 0; 0; 0; 0; 0; 0; 0; 0; 0; 0], 7, 10, false, 1);
  ([128; 0; 0; 0; 0; 0; 0; 0; 0; 0; 0; 0; 0], 7, 9, false, 1);
  ([128; 0; 0; 0; 0; 0; 0; 0; 0; 0; 0; 0; 0], 7, 8, false, 1);
  ([128; 0; 0; 0; 0; 0; 0; 0; 0; 0; 0; 0; 0], 7, 7, false, 1);
  ([128; 0; 0; 0; 0; 0; 0; 0; 0; 0; 0; 0; 0], 7, 6, false, 1);
  ([128; 0; 0; 0; 0; 0; 0; 0; 0; 0; 0; 0; 0], 7, 5, false, 1);
  ([128; 0; 0; 0; 0; 0; 0; 0; 0; 0; 0; 0; 0], 7, 4, false, 1);
  ([128; 0; 0; 0; 0; 0; 0; 0; 0; 0; 0; 0; 0], 7, 3, false, 1);
  ([128; 0; 0; 0; 0; 0; 0; 0; 0; 0; 0; 0; 0], 7, 2, false, 1);
  ([128; 0; 0; 0; 0; 0; 0; 0; 0; 0; 0; 0; 0], 7, 1, false, 1);
  ([64; 0; 0; 0; 0; 0; 0; 0; 0; 0; 0; 0; 0], 6, 32, false, 1);
  ([64; 0; 0; 0; 0; 0; 0; 0; 0; 0; 0; 0; 0], 6, 31, false, 1);
  ([64; 0; 0; 0; 0; 0; 0; 0; 0; 0; 0; 0; 0], 6, 30, false, 1);
  ([64; 0; 0; 0; 0; 0; 0; 0; 0; 0; 0; 0; 0], 6, 29, false, 1);
  ([64; 0; 0; 0; 0; 0; 0; 0; 0; 0; 0; 0; 0], 6, 28, false, 1);
  ([64; 0; 0; 0; 0; 0; 0; 0; 0; 0; 0; 0; 0], 6, 27, false, 1);
  ([64; 0; 0; 0; 0; 0; 0; 0; 0; 0; 0; 0; 0], 6, 26, false, 1);
  ([64; 0; 0; 0; 0; 0; 0; 0; 0; 0; 0; 0; 0], 6, 25, false, 1);
  ([64; 0; 0; 0; 0; 0; 0; 0; 0; 0; 0; 0; 0], 6, 24, false, 1);
  ([64; 0; 0; 0; 0; 0; 0; 0; 0; 0; 0; 0; 0], 6, 23, false, 1);
  ([64; 0; 0; 0; 0; 0; 0; 0; 0; 0; 0; 0; 0], 6, 22, false, 1);
  ([64; 0; 0; 0; 0; 0; 0; 0; 0; 0; 0; 0; 0], 6, 21, false, 1);
  ([64; 0; 0; 0; 0; 0; 0; 0; 0; 0; 0; 0; 0], 6, 20, false, 1);
  ([64; 0; 0; 0; 0; 0; 0; 0; 0; 0; 0; 0; 0], 6, 19, false, 1);
  ([64; 0; 0; 0; 0; 0; 0; 0; 0; 0; 0; 0; 0], 6, 18, false, 1);
  ([64; 0; 0; 0; 0; 0; 0; 0; 0; 0; 0; 0; 0], 6, 17, false, 1);
  ([64; 0; 0; 0; 0; 0; 0; 0; 0; 0; 0; 0; 0], 6, 16, false, 1);
  ([64; 0; 0; 0; 0; 0; 0; 0; 0; 0; 0; 0; 0], 6, 15, false, 1);
  ([64; 0; 0; 0; 0; 0; 0; 0; 0; 0; 0; 0; 0], 6, 14, false, 1);
  ([64; 0; 0; 0; 0; 0; 0; 0; 0; 0; 0; 0; 0], 6, 13, false, 1);
  ([64; 0; 0; 0; 0; 0; 0; 0; 0; 0; 0; 0; 0], 6, 12, false, 1);
  ([64; 0; 0; 0; 0; 0; 0; 0; 0; 0; 0; 0; 0], 6, 11, false, 1);
  ([64; 0; 0; 0; 0; 0; 0; 0; 0; 0; 0; 0; 0], 6, 10, false, 1);
  ([64; 0; 0; 0; 0; 0; 0; 0; 0; 0; 0; 0; 0], 6, 9, false, 1);
  ([64; 0; 0; 0; 0; 0; 0; 0; 0; 0; 0; 0; 0], 6, 8, false, 1);
  ([64; 0; 0; 0; 0; 0; 0; 0; 0; 0; 0; 0; 0], 6, 7, false, 1);
  ([64; 0; 0; 0; 0; 0; 0; 0; 0; 0; 0; 0; 0], 6, 6, false, 1);
  ([64; 0; 0; 0; 0; 0; 0; 0; 0; 0; 0; 0; 0], 6, 5, false, 1);
  ([64; 0; 0; 0; 0; 0; 0; 0; 0; 0; 0; 0; 0], 6, 4, false, 1);
  ([64; 0; 0; 0; 0; 0; 0; 0; 0; 0; 0; 0; 0], 6, 3, false, 1);
  ([64; 0; 0; 0; 0; 0; 0; 0; 0; 0; 0; 0; 0], 6, 2, false, 1);
  ([64; 0; 0; 0; 0; 0; 0; 0; 0; 0; 0; 0; 0], 6, 1, false, 1);
  ([32; 0; 0; 0; 0; 0; 0; 0; 0; 0; 0; 0; 0], 5, 32, false, 1);
  ([32; 0; 0; 0; 0; 0; 0; 0; 0; 0; 0; 0; 0], 5, 31, false, 1);
  ([32; 0; 0; 0; 0; 0; 0; 0; 0; 0; 0; 0; 0], 5, 30, false, 1);
  ([32; 0; 0; 0; 0; 0; 0; 0; 0; 0; 0; 0; 0], 5, 29, false, 1);
  ([32; 0; 0; 0; 0; 0; 0; 0; 0; 0; 0; 0; 0], 5, 28, false, 1);
  ([32; 0; 0; 0; 0; 0; 0; 0; 0; 0; 0; 0; 0], 5, 27, false, 1);
  ([32; 0; 0; 0; 0; 0; 0; 0; 0; 0; 0; 0; 0], 5, 26, false, 1);
  ([32; 0; 0; 0; 0; 0; 0; 0; 0; 0; 0; 0; 0], 5, 25, false, 1);
  ([32; 0; 0; 0; 0; 0; 0; 0; 0; 0; 0; 0; 0], 5, 24, false, 1);
  ([32; 0; 0; 0; 0; 0; 0; 0; 0; 0; 0; 0; 0], 5, 23, false, 1);
  ([32; 0; 0; 0; 0; 0; 0; 0; 0; 0; 0; 0; 0], 5, 22, false, 1);
  ([32; 0; 0; 0; 0; 0; 0; 0; 0; 0; 0; 0; 0], 5, 21, false, 1);
  ([32; 0; 0; 0; 0; 0; 0; 0; 0; 0; 0; 0; 0], 5, 20, false, 1);
  ([32; 0; 0; 0; 0; 0; 0; 0; 0; 0; 0; 0; 0], 5, 19, false, 1);
  ([32; 0; 0; 0; 0; 0; 0; 0; 0; 0; 0; 0; 0], 5, 18, false, 1);
  ([32; 0; 0; 0; 0; 0; 0; 0; 0; 0; 0; 0; 0], 5, 17, false, 1);
  ([32; 0; 0; 0; 0; 0; 0; 0; 0; 0; 0; 0; 0], 5, 16, false, 1);
  ([32; 0; 0; 0; 0; 0; 0; 0; 0; 0; 0; 0; 0], 5, 15, false, 1);
  ([32; 0; 0; 0; 0; 0; 0; 0; 0; 0; 0; 0; 0], 5, 14, false, 1);
  ([32; 0; 0; 0; 0; 0; 0; 0; 0; 0; 0; 0; 0], 5, 13, false, 1);
  ([32; 0; 0; 0; 0; 0; 0; 0; 0; 0; 0; 0; 0], 5, 12, false, 1);
  ([32; 0; 0; 0; 0; 0; 0; 0; 0; 0; 0; 0; 0], 5, 11, false, 1);
  ([32; 0; 0; 0; 0; 0; 0; 0; 0; 0; 0; 0; 0], 5, 10, false, 1);
  ([32; 0; 0; 0; 0; 0; 0; 0; 0; 0; 0; 0; 0], 5, 9, false, 1);
  ([32; 0; 0; 0; 0; 0; 0; 0; 0; 0; 0; 0; 0], 5, 8, false, 1);
  ([32; 0; 0; 0; 0; 0; 0; 0; 0; 0; 0; 0; 0], 5, 7, false, 1);
  ([32; 0; 0; 0; 0; 0; 0; 0; 0; 0; 0; 0; 0], 5, 6, false, 1);
  ([32; 0; 0; 0; 0; 0; 0; 0; 0; 0; 0; 0; 0], 5, 5, false, 1);
  ([32; 0; 0; 0; 0; 0; 0; 0; 0; 0; 0; 0; 0], 5, 4, false, 1);
  ([32; 0; 0; 0; 0; 0; 0; 0; 0; 0; 0; 0; 0], 5, 3, false, 1);
  ([32; 0; 0; 0; 0; 0; 0; 0; 0; 0; 0; 0; 0], 5, 2, false, 1);
  ([32; 0; 0; 0; 0; 0; 0; 0; 0; 0; 0; 0; 0], 5, 1, false, 1);
  ([16; 0; 0; 0; 0; 0; 0; 0; 0; 0; 0; 0; 0], 4, 32, false, 1);
  ([16; 0; 0; 0; 0; 0; 0; 0; 0; 0; 0; 0; 0], 4, 31, false, 1);
  ([16; 0; 0; 0; 0; 0; 0; 0; 0; 0; 0; 0; 0], 4, 30, false, 1);
  ([16; 0; 0; 0; 0; 0; 0; 0; 0; 0; 0; 0; 0], 4, 29, false, 1);
  ([16; 0; 0; 0; 0; 0; 0; 0; 0; 0; 0; 0; 0], 4, 28, false, 1);
  ([16; 0; 0; 0; 0; 0; 0; 0; 0; 0; 0; 0; 0], 4, 27, false, 1);
  ([16; 0; 0; 0; 0; 0; 0; 0; 0; 0; 0; 0; 0], 4, 26, false, 1);
  ([16; 0; 0; 0; 0; 0; 0; 0; 0; 0; 0; 0; 0], 4, 25, false, 1);
  ([16; 0; 0; 0; 0; 0; 0; 0; 0; 0; 0; 0; 0], 4, 24, false, 1);
  ([16; 0; 0; 0; 0; 0; 0; 0; 0; 0; 0; 0; 0], 4, 23, false, 1);
  ([16; 0; 0; 0; 0; 0; 0; 0; 0; 0; 0; 0; 0], 4, 22, false, 1);
  ([16; 0; 0; 0; 0; 0; 0; 0; 0; 0; 0; 0; 0], 4, 21, false, 1);
  ([16; 0; 0; 0; 0; 0; 0; 0; 0; 0; 0; 0; 0], 4, 20, false, 1);
  ([16; 0; 0; 0; 0; 0; 0; 0; 0; 0; 0; 0; 0], 4, 19, false, 1);
  ([16; 0; 0; 0; 0; 0; 0; 0; 0; 0; 0; 0; 0], 4, 18, false, 1);
  ([16; 0; 0; 0; 0; 0; 0; 0; 0; 0; 0; 0; 0], 4, 17, false, 1);
  ([16; 0; 0; 0; 0; 0; 0; 0; 0; 0; 0; 0; 0], 4, 16, false, 1);
  ([16; 0; 0; 0; 0; 0; 0; 0; 0; 0; 0; 0; 0], 4, 15, false, 1);
  ([16; 0; 0; 0; 0; 0; 0; 0; 0; 0; 0; 0; 0], 4, 14, false, 1);
  ([16; 0; 0; 0; 0; 0; 0; 0; 0; 0; 0; 0; 0], 4, 13, false, 1);
  ([16; 0; 0; 0; 0; 0; 0; 0; 0; 0; 0; 0; 0], 4, 12, false, 1);
  ([16; 0; 0; 0; 0; 0; 0; 0; 0; 0; 0; 0; 0], 4, 11, false, 1);
  ([16; 0; 0; 0; 0; 0; 0; 0; 0; 0; 0; 0; 0], 4, 10, false, 1);
  ([16; 0; 0; 0; 0; 0; 0; 0; 0; 0; 0; 0; 0], 4, 9, false, 1);
  ([16; 0; 0; 0; 0; 0; 0; 0; 0; 0; 0; 0; 0], 4, 8, false, 1);
  ([16; 0; 0; 0; 0; 0; 0; 0; 0; 0; 0; 0; 0], 4, 7, false, 1);
  ([16; 0; 0; 0; 0; 0; 0; 0; 0; 0; 0; 0; 0], 4, 6, false, 1);
  ([16; 0; 0; 0; 0; 0; 0; 0; 0; 0; 0; 0; 0], 4, 5, false, 1);
  ([16; 0; 0; 0; 0; 0; 0; 0; 0; 0; 0; 0; 0], 4, 4, false, 1);
  ([16; 0; 0; 0; 0; 0; 0; 0; 0; 0; 0; 0; 0], 4, 3, false, 1);
  ([16; 0; 0; 0; 0; 0; 0; 0; 0; 0; 0; 0; 0], 4, 2, false, 1);
  ([16; 0; 0; 0; 0; 0; 0; 0; 0; 0; 0; 0; 0], 4, 1, false, 1);
  ([8; 0; 0; 0; 0; 0; 0; 0; 0; 0; 0; 0; 0], 3, 32, false, 1);
  ([8; 0; 0; 0; 0; 0; 0; 0; 0; 0; 0; 0; 0], 3, 31, false, 1);
  ([8; 0; 0; 0; 0; 0; 0; 0; 0; 0; 0; 0; 0], 3, 30, false, 1);
  ([8; 0; 0; 0; 0; 0; 0; 0; 0; 0; 0; 0; 0], 3, 29, false, 1);
  ([8; 0; 0; 0; 0; 0; 0; 0; 0; 0; 0; 0; 0], 3, 28, false, 1);
  ([8; 0; 0; 0; 0; 0; 0; 0; 0; 0; 0; 0; 0], 3, 27, false, 1);
  ([8; 0; 0; 0; 0; 0; 0; 0; 0; 0; 0; 0; 0], 3, 26, false, 1);
  ([8; 0; 0; 0; 0; 0; 0; 0; 0; 0; 0; 0; 0], 3, 25, false, 1);
  ([8; 0; 0; 0; 0; 0; 0; 0; 0; 0; 0; 0; 0], 3, 24, false, 1);
  ([8; 0; 0; 0; 0; 0; 0; 0; 0; 0; 0; 0; 0], 3, 23, false, 1);
  ([8; 0; 0; 0; 0; 0; 0; 0; 0; 0; 0; 0; 0], 3, 22, false, 1);
  ([8; 0; 0; 0; 0; 0; 0; 0; 0; 0; 0; 0; 0], 3, 21, false, 1);
  ([8; 0; 0; 0; 0; 0; 0; 0; 0; 0; 0; 0; 0], 3, 20, false, 1);
  ([8; 0; 0; 0; 0; 0; 0; 0; 0; 0; 0; 0; 0], 3, 19, false, 1);
  ([8; 0; 0; 0; 0; 0; 0; 0; 0; 0; 0; 0; 0], 3, 18, false, 1);
  ([8; 0; 0; 0; 0; 0; 0; 0; 0; 0; 0; 0; 0], 3, 17, false, 1);
  ([8; 0; 0; 0; 0; 0; 0; 0; 0; 0; 0; 0; 0], 3, 16, false, 1);
  ([8; 0; 0; 0; 0; 0; 0; 0; 0; 0; 0; 0; 0], 3, 15, false, 1);
  ([8; 0; 0; 0; 0; 0; 0; 0; 0; 0; 0; 0; 0], 3, 14, false, 1);
  ([8; 0; 0; 0; 0; 0; 0; 0; 0; 0; 0; 0; 0], 3, 13, false, 1);
  ([8; 0; 0; 0; 0; 0; 0; 0; 0; 0; 0; 0; 0], 3, 12, false, 1);
  ([8; 0; 0; 0; 0; 0; 0; 0; 0; 0; 0; 0; 0], 3, 11, false, 1);
  ([8; 0; 0; 0; 0; 0; 0; 0; 0; 0; 0; 0; 0], 3, 10, false, 1);
  ([8; 0; 0; 0; 0; 0; 0; 0; 0; 0; 0; 0; 0], 3, 9, false, 1);
  ([8; 0; 0; 0; 0; 0; 0; 0; 0; 0; 0; 0; 0], 3, 8, false, 1);
  ([8; 0; 0; 0; 0; 0; 0; 0; 0; 0; 0; 0; 0], 3, 7, false, 1);
  ([8; 0; 0; 0; 0; 0; 0; 0; 0; 0; 0; 0; 0], 3, 6, false, 1);
  ([8; 0; 0; 0; 0; 0; 0; 0; 0; 0; 0; 0; 0], 3, 5, false, 1);
  ([8; 0; 0; 0; 0; 0; 0; 0; 0; 0; 0; 0; 0], 3, 4, false, 1);
  ([8; 0; 0; 0; 0; 0; 0; 0; 0; 0; 0; 0; 0], 3, 3, false, 1);
  ([8; 0; 0; 0; 0; 0; 0; 0; 0; 0; 0; 0; 0], 3, 2, false, 1);
  ([8; 0; 0; 0; 0; 0; 0; 0; 0; 0; 0; 0; 0], 3, 1, false, 1);
  ([4; 0; 0; 0; 0; 0; 0; 0; 0; 0; 0; 0; 0], 2, 32, false, 1);
  ([4; 0; 0; 0; 0; 0; 0; 0; 0; 0; 0; 0; 0], 2, 31, false, 1);
  ([4; 0; 0; 0; 0; 0; 0; 0; 0; 0; 0; 0; 0], 2, 30, false, 1);
  ([4; 0; 0; 0; 0; 0; 0; 0; 0; 0; 0; 0; 0], 2, 29, false, 1);
  ([4; 0; 0; 0; 0; 0; 0; 0; 0; 0; 0; 0; 0], 2, 28, false, 1);
  ([4; 0; 0; 0; 0; 0; 0; 0; 0; 0; 0; 0; 0], 2, 27, false, 1);
  ([4; 0; 0; 0; 0; 0; 0; 0; 0; 0; 0; 0; 0], 2, 26, false, 1);
  ([4; 0; 0; 0; 0; 0; 0; 0; 0; 0; 0; 0; 0], 2, 25, false, 1);
  ([4; 0; 0; 0; 0; 0; 0; 0; 0; 0; 0; 0; 0], 2, 24, false, 1);
  ([4; 0; 0; 0; 0; 0; 0; 0; 0; 0; 0; 0; 0], 2, 23, false, 1);
  ([4; 0; 0; 0; 0; 0; 0; 0; 0; 0; 0; 0; 0], 2, 22, false, 1);
  ([4; 0; 0; 0; 0; 0; 0; 0; 0; 0; 0; 0; 0], 2, 21, false, 1);
  ([4; 0; 0; 0; 0; 0; 0; 0; 0; 0; 0; 0; 0], 2, 20, false, 1);
  ([4; 0; 0; 0; 0; 0; 0; 0; 0; 0; 0; 0; 0], 2, 19, false, 1);
  ([4; 0; 0; 0; 0; 0; 0; 0; 0; 0; 0; 0; 0], 2, 18, false, 1);
  ([4; 0; 0; 0; 0; 0; 0; 0; 0; 0; 0; 0; 0], 2, 17, false, 1);
  ([4; 0; 0; 0; 0; 0; 0; 0; 0; 0; 0; 0; 0], 2, 16, false, 1);
  ([4; 0; 0; 0; 0; 0; 0; 0; 0; 0; 0; 0; 0], 2, 15, false, 1);
  ([4; 0; 0; 0; 0; 0; 0; 0; 0; 0; 0; 0; 0], 2, 14, false, 1);
  ([4; 0; 0; 0; 0; 0; 0; 0; 0; 0; 0; 0; 0], 2, 13, false, 1);
  ([4; 0; 0; 0; 0; 0; 0; 0; 0; 0; 0; 0; 0], 2, 12, false, 1);
  ([4; 0; 0; 0; 0; 0; 0; 0; 0; 0; 0; 0; 0], 2, 11, false, 1);
  ([4; 0; 0; 0; 0; 0; 0; 0; 0; 0; 0; 0; 0], 2, 10, false, 1);
  ([4; 0; 0; 0; 0; 0; 0; 0; 0; 0; 0; 0; 0], 2, 9, false, 1);
  ([4; 0; 0; 0; 0; 0; 0; 0; 0; 0; 0; 0; 0], 2, 8, false, 1);
  ([4; 0; 0; 0; 0; 0; 0; 0; 0; 0; 0; 0; 0], 2, 7, false, 1);
  ([4; 0; 0; 0; 0; 0; 0; 0; 0; 0; 0; 0; 0], 2, 6, false, 1);
  ([4; 0; 0; 0; 0; 0; 0; 0; 0; 0; 0; 0; 0], 2, 5, false, 1);
  ([4; 0; 0; 0; 0; 0; 0; 0; 0; 0; 0; 0; 0], 2, 4, false, 1);
  ([4; 0; 0; 0; 0; 0; 0; 0; 0; 0; 0; 0; 0], 2, 3, false, 1);
  ([4; 0; 0; 0; 0; 0; 0; 0; 0; 0; 0; 0; 0], 2, 2, false, 1);
  ([4; 0; 0; 0; 0; 0; 0; 0; 0; 0; 0; 0; 0], 2, 1, false, 1);
  ([2; 0; 0; 0; 0; 0; 0; 0; 0; 0; 0; 0; 0], 1, 32, false, 1);
  ([2; 0; 0; 0; 0; 0; 0; 0; 0; 0; 0; 0; 0], 1, 31, false, 1);
  ([2; 0; 0; 0; 0; 0; 0; 0; 0; 0; 0; 0; 0], 1, 30, false, 1);
  ([2; 0; 0; 0; 0; 0; 0; 0; 0; 0; 0; 0; 0], 1, 29, false, 1);
  ([2; 0; 0; 0; 0; 0; 0; 0; 0; 0; 0; 0; 0], 1, 28, false, 1);
  ([2; 0; 0; 0; 0; 0; 0; 0; 0; 0; 0; 0; 0], 1, 27, false, 1);
  ([2; 0; 0; 0; 0; 0; 0; 0; 0; 0; 0; 0; 0], 1, 26, false, 1);
  ([2; 0; 0; 0; 0; 0; 0; 0; 0; 0; 0; 0; 0], 1, 25, false, 1);
  ([2; 0; 0; 0; 0; 0; 0; 0; 0; 0; 0; 0; 0], 1, 24, false, 1);
  ([2; 0; 0; 0; 0; 0; 0; 0; 0; 0; 0; 0; 0], 1, 23, false, 1);
  ([2; 0; 0; 0; 0; 0; 0; 0; 0; 0; 0; 0; 0], 1, 22, false, 1);
  ([2; 0; 0; 0; 0; 0; 0; 0; 0; 0; 0; 0; 0], 1, 21, false, 1);
  ([2; 0; 0; 0; 0; 0; 0; 0; 0; 0; 0; 0; 0], 1, 20, false, 1);
  ([2; 0; 0; 0; 0; 0; 0; 0; 0; 0; 0; 0; 0], 1, 19, false, 1);
  ([2; 0; 0; 0; 0; 0; 0; 0; 0; 0; 0; 0; 0], 1, 18, false, 1);
  ([2; 0; 0; 0; 0; 0; 0; 0; 0; 0; 0; 0; 0], 1, 17, false, 1);
  ([2; 0; 0; 0; 0; 0; 0; 0; 0; 0; 0; 0; 0], 1, 16, false, 1);
  ([2; 0; 0; 0; 0; 0; 0; 0; 0; 0; 0; 0; 0], 1, 15, false, 1);
  ([2; 0; 0; 0; 0; 0; 0; 0; 0; 0; 0; 0; 0], 1, 14, false, 1);
  ([2; 0; 0; 0; 0; 0; 0; 0; 0; 0; 0; 0; 0], 1, 13, false, 1);
  ([2; 0; 0; 0; 0; 0; 0; 0; 0; 0; 0; 0; 0], 1, 12, false, 1);
  ([2; 0; 0; 0; 0; 0; 0; 0; 0; 0; 0; 0; 0], 1, 11, false, 1);
  ([2; 0; 0; 0; 0; 0; 0; 0; 0; 0; 0; 0; 0], 1, 10, false, 1);
  ([2; 0; 0; 0; 0; 0; 0; 0; 0; 0; 0; 0; 0], 1, 9, false, 1);
  ([2; 0; 0; 0; 0; 0; 0; 0; 0; 0; 0; 0; 0], 1, 8, false, 1);
  ([2; 0; 0; 0; 0; 0; 0; 0; 0; 0; 0; 0; 0], 1, 7, false, 1);
  ([2; 0; 0; 0; 0; 0; 0; 0; 0; 0; 0; 0; 0], 1, 6, false, 1);
  ([2; 0; 0; 0; 0; 0; 0; 0; 0; 0; 0; 0; 0], 1, 5, false, 1);
  ([2; 0; 0; 0; 0; 0; 0; 0; 0; 0; 0; 0; 0], 1, 4, false, 1);
  ([2; 0; 0; 0; 0; 0; 0; 0; 0; 0; 0; 0; 0], 1, 3, false, 1);
  ([2; 0; 0; 0; 0; 0; 0; 0; 0; 0; 0; 0; 0], 1, 2, false, 1);
  ([2; 0; 0; 0; 0; 0; 0; 0; 0; 0; 0; 0; 0], 1, 1, false, 1);
  ([1; 0; 0; 0; 0; 0; 0; 0; 0; 0; 0; 0], 0, 32, false, 1);
  ([1; 0; 0; 0; 0; 0; 0; 0; 0; 0; 0; 0], 0, 31, false, 1);
  ([1; 0; 0; 0; 0; 0; 0; 0; 0; 0; 0; 0], 0, 30, false, 1);
  ([1; 0; 0; 0; 0; 0; 0; 0; 0; 0; 0; 0], 0, 29, false, 1);
  ([1; 0; 0; 0; 0; 0; 0; 0; 0; 0; 0; 0], 0, 28, false, 1);
  ([1; 0; 0; 0; 0; 0; 0; 0; 0; 0; 0; 0], 0, 27, false, 1);
  ([1; 0; 0; 0; 0; 0; 0; 0; 0; 0; 0; 0], 0, 26, false, 1);
  ([1; 0; 0; 0; 0; 0; 0; 0; 0; 0; 0; 0], 0, 25, false, 1);
  ([1; 0; 0; 0; 0; 0; 0; 0; 0; 0; 0; 0], 0, 24, false, 1);
  ([1; 0; 0; 0; 0; 0; 0; 0; 0; 0; 0; 0], 0, 23, false, 1);
  ([1; 0; 0; 0; 0; 0; 0; 0; 0; 0; 0; 0], 0, 22, false, 1);
  ([1; 0; 0; 0; 0; 0; 0; 0; 0; 0; 0; 0], 0, 21, false, 1);
  ([1; 0; 0; 0; 0; 0; 0; 0; 0; 0; 0; 0], 0, 20, false, 1);
  ([1; 0; 0; 0; 0; 0; 0; 0; 0; 0; 0; 0], 0, 19, false, 1);
  ([1; 0; 0; 0; 0; 0; 0; 0; 0; 0; 0; 0], 0, 18, false, 1);
  ([1; 0; 0; 0; 0; 0; 0; 0; 0; 0; 0; 0], 0, 17, false, 1);
  ([1; 0; 0; 0; 0; 0; 0; 0; 0; 0; 0; 0], 0, 16, false, 1);
  ([1; 0; 0; 0; 0; 0; 0; 0; 0; 0; 0; 0], 0, 15, false, 1);
  ([1; 0; 0; 0; 0; 0; 0; 0; 0; 0; 0; 0], 0, 14, false, 1);
  ([1; 0; 0; 0; 0; 0; 0; 0; 0; 0; 0; 0], 0, 13, false, 1);
  ([1; 0; 0; 0; 0; 0; 0; 0; 0; 0; 0; 0], 0, 12, false, 1);
  ([1; 0; 0; 0; 0; 0; 0; 0; 0; 0; 0; 0], 0, 11, false, 1);
  ([1; 0; 0; 0; 0; 0; 0; 0; 0; 0; 0; 0], 0, 10, false, 1);
  ([1; 0; 0; 0; 0; 0; 0; 0; 0; 0; 0; 0], 0, 9, false, 1);
  ([1; 0; 0; 0; 0; 0; 0; 0; 0; 0; 0; 0], 0, 8, false, 1);
  ([1; 0; 0; 0; 0; 0; 0; 0; 0; 0; 0; 0], 0, 7, false, 1);
  ([1; 0; 0; 0; 0; 0; 0; 0; 0; 0; 0; 0], 0, 6, false, 1);
  ([1; 0; 0; 0; 0; 0; 0; 0; 0; 0; 0; 0], 0, 5, false, 1);
  ([1; 0; 0; 0; 0; 0; 0; 0; 0; 0; 0; 0], 0, 4, false, 1);
  ([1; 0; 0; 0; 0; 0; 0; 0; 0; 0; 0; 0], 0, 3, false, 1);
  ([1; 0; 0; 0; 0; 0; 0; 0; 0; 0; 0; 0], 0, 2, false, 1);
  ([1; 0; 0; 0; 0; 0; 0; 0; 0; 0; 0; 0], 0, 1, false, 1);
  ([0; 1; 0; 0; 0; 0; 0; 0; 0; 0; 0; 0; 0; 0; 0; 0; 0], 8, 64, false, 1);
  ([0; 1; 0; 0; 0; 0; 0; 0; 0; 0; 0; 0; 0; 0; 0; 0; 0], 8, 63, false, 1);
  ([0; 1; 0; 0; 0; 0; 0; 0; 0; 0; 0; 0; 0; 0; 0; 0; 0], 8, 62, false, 1);
  ([0; 1; 0; 0; 0; 0; 0; 0; 0; 0; 0; 0; 0; 0; 0; 0; 0], 8, 61, false, 1);
  ([0; 1; 0; 0; 0; 0; 0; 0; 0; 0; 0; 0; 0; 0; 0; 0; 0], 8, 60, false, 1);
  ([0; 1; 0; 0; 0; 0; 0; 0; 0; 0; 0; 0; 0; 0; 0; 0; 0], 8, 59, false, 1);
  ([0; 1; 0; 0; 0; 0; 0; 0; 0; 0; 0; 0; 0; 0; 0; 0; 0], 8, 58, false, 1);
  ([0; 1; 0; 0; 0; 0; 0; 0; 0; 0; 0; 0; 0; 0; 0; 0; 0], 8, 57, false, 1);
  ([0; 1; 0; 0; 0; 0; 0; 0; 0; 0; 0; 0; 0; 0; 0; 0; 0], 8, 56, false, 1);
  ([0; 1; 0; 0; 0; 0; 0; 0; 0; 0; 0; 0; 0; 0; 0; 0; 0], 8, 55, false, 1);
  ([0; 1; 0; 0; 0; 0; 0; 0; 0; 0; 0; 0; 0; 0; 0; 0; 0], 8, 54, false, 1);
  ([0; 1; 0; 0; 0; 0; 0; 0; 0; 0; 0; 0; 0; 0; 0; 0; 0], 8, 53, false, 1);
  ([0; 1; 0; 0; 0; 0; 0; 0; 0; 0; 0; 0; 0; 0; 0; 0; 0], 8, 52, false, 1);
  ([0; 1; 0; 0; 0; 0; 0; 0; 0; 0; 0; 0; 0; 0; 0; 0; 0], 8, 51, false, 1);
  ([0; 1; 0; 0; 0; 0; 0; 0; 0; 0; 0; 0; 0; 0; 0; 0; 0], 8, 50, false, 1);
  ([0; 1; 0; 0; 0; 0; 0; 0; 0; 0; 0; 0; 0; 0; 0; 0; 0], 8, 49, false, 1);
  ([0; 1; 0; 0; 0; 0; 0; 0; 0; 0; 0; 0; 0; 0; 0; 0; 0], 8, 48, false, 1);
  ([0; 1; 0; 0; 0; 0; 0; 0; 0; 0; 0; 0; 0; 0; 0; 0; 0], 8, 47, false, 1);
  ([0; 1; 0; 0; 0; 0; 0; 0; 0; 0; 0; 0; 0; 0; 0; 0; 0], 8, 46, false, 1);
  ([0; 1; 0; 0; 0; 0; 0; 0; 0; 0; 0; 0; 0; 0; 0; 0; 0], 8, 45, false, 1);
  ([0; 1; 0; 0; 0; 0; 0; 0; 0; 0; 0; 0; 0; 0; 0; 0; 0], 8, 44, false, 1);
  ([0; 1; 0; 0; 0; 0; 0; 0; 0; 0; 0; 0; 0; 0; 0; 0; 0], 8, 43, false, 1);
  ([0; 1; 0; 0; 0; 0; 0; 0; 0; 0; 0; 0; 0; 0; 0; 0; 0], 8, 42, false, 1);
  ([0; 1; 0; 0; 0; 0; 0; 0; 0; 0; 0; 0; 0; 0; 0; 0; 0], 8, 41, false, 1);
  ([0; 1; 0; 0; 0; 0; 0; 0; 0; 0; 0; 0; 0; 0; 0; 0; 0], 8, 40, false, 1);
  ([0; 1; 0; 0; 0; 0; 0; 0; 0; 0; 0; 0; 0; 0; 0; 0; 0], 8, 39, false, 1);
  ([0; 1; 0; 0; 0; 0; 0; 0; 0; 0; 0; 0; 0; 0; 0; 0; 0], 8, 38, false, 1);
  ([0; 1; 0; 0; 0; 0; 0; 0; 0; 0; 0; 0; 0; 0; 0; 0; 0], 8, 37, false, 1);
  ([0; 1; 0; 0; 0; 0; 0; 0; 0; 0; 0; 0; 0; 0; 0; 0; 0], 8, 36, false, 1);
  ([0; 1; 0; 0; 0; 0; 0; 0; 0; 0; 0; 0; 0; 0; 0; 0; 0], 8, 35, false, 1);
  ([0; 1; 0; 0; 0; 0; 0; 0; 0; 0; 0; 0; 0; 0; 0; 0; 0], 8, 34, false, 1);
  ([0; 1; 0; 0; 0; 0; 0; 0; 0; 0; 0; 0; 0; 0; 0; 0; 0], 8, 33, false, 1);
  ([0; 1; 0; 0; 0; 0; 0; 0; 0; 0; 0; 0; 0; 0; 0; 0; 0], 8, 32, false, 1);
  ([0; 1; 0; 0; 0; 0; 0; 0; 0; 0; 0; 0; 0; 0; 0; 0; 0], 8, 31, false, 1);
  ([0; 1; 0; 0; 0; 0; 0; 0; 0; 0; 0; 0; 0; 0; 0; 0; 0], 8, 30, false, 1);
  ([0; 1; 0; 0; 0; 0; 0; 0; 0; 0; 0; 0; 0; 0; 0; 0; 0], 8, 29, false, 1);
  ([0; 1; 0; 0; 0; 0; 0; 0; 0; 0; 0; 0; 0; 0; 0; 0; 0], 8, 28, false, 1);
  ([0; 1; 0; 0; 0; 0; 0; 0; 0; 0; 0; 0; 0; 0; 0; 0; 0], 8, 27, false, 1);
  ([0; 1; 0; 0; 0; 0; 0; 0; 0; 0; 0; 0; 0; 0; 0; 0; 0], 8, 26, false, 1);
  ([0; 1; 0; 0; 0; 0; 0; 0; 0; 0; 0; 0; 0; 0; 0; 0; 0], 8, 25, false, 1);
  ([0; 1; 0; 0; 0; 0; 0; 0; 0; 0; 0; 0; 0; 0; 0; 0; 0], 8, 24, false, 1);
  ([0; 1; 0; 0; 0; 0; 0; 0; 0; 0; 0; 0; 0; 0; 0; 0; 0], 8, 23, false, 1);
  ([0; 1; 0; 0; 0; 0; 0; 0; 0; 0; 0; 0; 0; 0; 0; 0; 0], 8, 22, false, 1);
  ([0; 1; 0; 0; 0; 0; 0; 0; 0; 0; 0; 0; 0; 0; 0; 0; 0], 8, 21, false, 1);
  ([0; 1; 0; 0; 0; 0; 0; 0; 0; 0; 0; 0; 0; 0; 0; 0; 0], 8, 20, false, 1);
  ([0; 1; 0; 0; 0; 0; 0; 0; 0; 0; 0; 0; 0; 0; 0; 0; 0], 8, 19, false, 1);
  ([0; 1; 0; 0; 0; 0; 0; 0; 0; 0; 0; 0; 0; 0; 0; 0; 0], 8, 18, false, 1);
  ([0; 1; 0; 0; 0; 0; 0; 0; 0; 0; 0; 0; 0; 0; 0; 0; 0], 8, 17, false, 1);
  ([0; 1; 0; 0; 0; 0; 0; 0; 0; 0; 0; 0; 0; 0; 0; 0; 0], 8, 16, false, 1);
  ([0; 1; 0; 0; 0; 0; 0; 0; 0; 0; 0; 0; 0; 0; 0; 0; 0], 8, 15, false, 1);
  ([0; 1; 0; 0; 0; 0; 0; 0; 0; 0; 0; 0; 0; 0; 0; 0; 0], 8, 14, false, 1);
  ([0; 1; 0; 0; 0; 0; 0; 0; 0; 0; 0; 0; 0; 0; 0; 0; 0], 8, 13, false, 1);
  ([0; 1; 0; 0; 0; 0; 0; 0; 0; 0; 0; 0; 0; 0; 0; 0; 0], 8, 12, false, 1);
  ([0; 1; 0; 0; 0; 0; 0; 0; 0; 0; 0; 0; 0; 0; 0; 0; 0], 8, 11, false, 1);
  ([0; 1; 0; 0; 0; 0; 0; 0; 0; 0; 0; 0; 0; 0; 0; 0; 0], 8, 10, false, 1);
  ([0; 1; 0; 0; 0; 0; 0; 0; 0; 0; 0; 0; 0; 0; 0; 0; 0], 8, 9, false, 1);
  ([0; 1; 0; 0; 0; 0; 0; 0; 0; 0; 0; 0; 0; 0; 0; 0; 0], 8, 8, false, 1);
  ([0; 1; 0; 0; 0; 0; 0; 0; 0; 0; 0; 0; 0; 0; 0; 0; 0], 8, 7, false, 1);
  ([0; 1; 0; 0; 0; 0; 0; 0; 0; 0; 0; 0; 0; 0; 0; 0; 0], 8, 6, false, 1);
  ([0; 1; 0; 0; 0; 0; 0; 0; 0; 0; 0; 0; 0; 0; 0; 0; 0], 8, 5, false, 1);
  ([0; 1; 0; 0; 0; 0; 0; 0; 0; 0; 0; 0; 0; 0; 0; 0; 0], 8, 4, false, 1);
  ([0; 1; 0; 0; 0; 0; 0; 0; 0; 0; 0; 0; 0; 0; 0; 0; 0], 8, 3, false, 1);
  ([0; 1; 0; 0; 0; 0; 0; 0; 0; 0; 0; 0; 0; 0; 0; 0; 0], 8, 2, false, 1);
  ([0; 1; 0; 0; 0; 0; 0; 0; 0; 0; 0; 0; 0; 0; 0; 0; 0], 8, 1, false, 1);
  ([128; 0; 0; 0; 0; 0; 0; 0; 0; 0; 0; 0; 0; 0; 0; 0; 0], 7, 64, false, 1);
  ([128; 0; 0; 0; 0; 0; 0; 0; 0; 0; 0; 0; 0; 0; 0; 0; 0], 7, 63, false, 1);
  ([128; 0; 0; 0; 0; 0; 0; 0; 0; 0; 0; 0; 0; 0; 0; 0; 0], 7, 62, false, 1);
  ([128; 0; 0; 0; 0; 0; 0; 0; 0; 0; 0; 0; 0; 0; 0; 0; 0], 7, 61, false, 1);
  ([128; 0; 0; 0; 0; 0; 0; 0; 0; 0; 0; 0; 0; 0; 0; 0; 0], 7, 60, false, 1);
  ([128; 0; 0; 0; 0; 0; 0; 0; 0; 0; 0; 0; 0; 0; 0; 0; 0], 7, 59, false, 1);
  ([128; 0; 0; 0; 0; 0; 0; 0; 0; 0; 0; 0; 0; 0; 0; 0; 0], 7, 58, false, 1);
  ([128; 0; 0; 0; 0; 0; 0; 0; 0; 0; 0; 0; 0; 0; 0; 0; 0], 7, 57, false, 1);
  ([128; 0; 0; 0; 0; 0; 0; 0; 0; 0; 0; 0; 0; 0; 0; 0; 0], 7, 56, false, 1);
  ([128; 0; 0; 0; 0; 0; 0; 0; 0; 0; 0; 0; 0; 0; 0; 0; 0], 7, 55, false, 1);
  ([128; 0; 0; 0; 0; 0; 0; 0; 0; 0; 0; 0; 0; 0; 0; 0; 0], 7, 54, false, 1);
  ([128; 0; 0; 0; 0; 0; 0; 0; 0; 0; 0; 0; 0; 0; 0; 0; 0], 7, 53, false, 1);
  ([128; 0; 0; 0; 0; 0; 0; 0; 0; 0; 0; 0; 0; 0; 0; 0; 0], 7, 52, false, 1);
  ([128; 0; 0; 0; 0; 0; 0; 0; 0; 0; 0; 0; 0; 0; 0; 0; 0], 7, 51, false, 1);
  ([128; 0; 0; 0; 0; 0; 0; 0; 0; 0; 0; 0; 0; 0; 0; 0; 0], 7, 50, false, 1);
  ([128; 0; 0; 0; 0; 0; 0; 0; 0; 0; 0; 0; 0; 0; 0; 0; 0], 7, 49, false, 1);
  ([128; 0; 0; 0; 0; 0; 0; 0; 0; 0; 0; 0; 0; 0; 0; 0; 0], 7, 48, false, 1);
  ([128; 0; 0; 0; 0; 0; 0; 0; 0; 0; 0; 0; 0; 0; 0; 0; 0], 7, 47, false, 1);
  ([128; 0; 0; 0; 0; 0; 0; 0; 0; 0; 0; 0; 0; 0; 0; 0; 0], 7, 46, false, 1);
  ([128; 0; 0; 0; 0; 0; 0; 0; 0; 0; 0; 0; 0; 0; 0; 0; 0], 7, 45, false, 1);
  ([128; 0; 0; 0; 0; 0; 0; 0; 0; 0; 0; 0; 0; 0; 0; 0; 0], 7, 44, false, 1);
  ([128; 0; 0; 0; 0; 0; 0; 0; 0; 0; 0; 0; 0; 0; 0; 0; 0], 7, 43, false, 1);
  ([128; 0; 0; 0; 0; 0; 0; 0; 0; 0; 0; 0; 0; 0; 0; 0; 0], 7, 42, false, 1);
  ([128; 0; 0; 0; 0; 0; 0; 0; 0; 0; 0; 0; 0; 0; 0; 0; 0], 7, 41, false, 1);
  ([128; 0; 0; 0; 0; 0; 0; 0; 0; 0; 0; 0; 0; 0; 0; 0; 0], 7, 40, false, 1);
  ([128; 0; 0; 0; 0; 0; 0; 0; 0; 0; 0; 0; 0; 0; 0; 0; 0], 7, 39, false, 1);
  ([128; 0; 0; 0; 0; 0; 0; 0; 0; 0; 0; 0; 0; 0; 0; 0; 0], 7, 38, false, 1);
  ([128; 0; 0; 0; 0; 0; 0; 0; 0; 0; 0; 0; 0; 0; 0; 0; 0], 7, 37, false, 1);
  ([128; 0; 0; 0; 0; 0; 0; 0; 0; 0; 0; 0; 0; 0; 0; 0; 0], 7, 36, false, 1);
  ([128; 0; 0; 0; 0; 0; 0; 0; 0; 0; 0; 0; 0; 0; 0; 0; 0], 7, 35, false, 1);
  ([128; 0; 0; 0; 0; 0; 0; 0; 0; 0; 0; 0; 0; 0; 0; 0; 0], 7, 34, false, 1);
  ([128; 0; 0; 0; 0; 0; 0; 0; 0; 0; 0; 0; 0; 0; 0; 0; 0], 7, 33, false, 1);
  ([128; 0; 0; 0; 0; 0; 0; 0; 0; 0; 0; 0; 0; 0; 0; 0; 0], 7, 32, false, 1);
  ([128; 0; 0; 0; 0; 0; 0; 0; 0; 0; 0; 0; 0; 0; 0; 0; 0], 7, 31, false, 1);
  ([128; 0; 0; 0; 0; 0; 0; 0; 0; 0; 0; 0; 0; 0; 0; 0; 0], 7, 30, false, 1);
  ([128; 0; 0; 0; 0; 0; 0; 0; 0; 0; 0; 0; 0; 0; 0; 0; 0], 7, 29, false, 1);
  ([128; 0; 0; 0; 0; 0; 0; 0; 0; 0; 0; 0; 0; 0; 0; 0; 0], 7, 28, false, 1);
  ([128; 0; 0; 0; 0; 0; 0; 0; 0; 0; 0; 0; 0; 0; 0; 0; 0], 7, 27, false, 1);
  ([128; 0; 0; 0; 0; 0; 0; 0; 0; 0; 0; 0; 0; 0; 0; 0; 0], 7, 26, false, 1);
  ([128; 0; 0; 0; 0; 0; 0; 0; 0; 0; 0; 0; 0; 0; 0; 0; 0], 7, 25, false, 1);
  ([128; 0; 0; 0; 0; 0; 0; 0; 0; 0; 0; 0; 0; 0; 0; 0; 0], 7, 24, false, 1);
  ([128; 0; 0; 0; 0; 0; 0; 0; 0; 0; 0; 0; 0; 0; 0; 0; 0], 7, 23, false, 1);
  ([128; 0; 0; 0; 0; 0; 0; 0; 0; 0; 0; 0; 0; 0; 0; 0; 0], 7, 22, false, 1);
  ([128; 0; 0; 0; 0; 0; 0; 0; 0; 0; 0; 0; 0; 0; 0; 0; 0], 7, 21, false, 1);
  ([128; 0; 0; 0; 0; 0; 0; 0; 0; 0; 0; 0; 0; 0; 0; 0; 0], 7, 20, false, 1);
  ([128; 0; 0; 0; 0; 0; 0; 0; 0; 0; 0; 0; 0; 0; 0; 0; 0], 7, 19, false, 1);
  ([128; 0; 0; 0; 0; 0; 0; 0; 0; 0; 0; 0; 0; 0; 0; 0; 0], 7, 18, false, 1);
  ([128; 0; 0; 0; 0; 0; 0; 0; 0; 0; 0; 0; 0; 0; 0; 0; 0], 7, 17, false, 1);
  ([128; 0; 0; 0; 0; 0; 0; 0; 0; 0; 0; 0; 0; 0; 0; 0; 0], 7, 16, false, 1);
  ([128; 0; 0; 0; 0; 0; 0; 0; 0; 0; 0; 0; 0; 0; 0; 0; 0], 7, 15, false, 1);
  ([128; 0; 0; 0; 0; 0; 0; 0; 0; 0; 0; 0; 0; 0; 0; 0; 0], 7, 14, false, 1);
  ([128; 0; 0; 0; 0; 0; 0; 0; 0; 0; 0; 0; 0; 0; 0; 0; 0], 7, 13, false, 1);
  ([128; 0; 0; 0; 0; 0; 0; 0; 0; 0; 0; 0; 0; 0; 0; 0; 0], 7, 12, false, 1);
  ([128; 0; 0; 0; 0; 0; 0; 0; 0; 0; 0; 0; 0; 0; 0; 0; 0], 7, 11, false, 1);
  ([128; 0; 0; 0; 0; 0; 0; 0; 0; 0; 0; 0; 0; 0; 0; 0; 0], 7, 10, false, 1);
  ([128; 0; 0; 0; 0; 0; 0; 0; 0; 0; 0; 0; 0; 0; 0; 0; 0], 7, 9, false, 1);
  ([128; 0; 0; 0; 0; 0; 0; 0; 0; 0; 0; 0; 0; 0; 0; 0; 0], 7, 8, false, 1);
  ([128; 0; 0; 0; 0; 0; 0; 0; 0; 0; 0; 0; 0; 0; 0; 0; 0], 7, 7, false, 1);
  ([128; 0; 0; 0; 0; 0; 0; 0; 0; 0; 0; 0; 0; 0; 0; 0; 0], 7, 6, false, 1);
  ([128; 0; 0; 0; 0; 0; 0; 0; 0; 0; 0; 0; 0; 0; 0; 0; 0], 7, 5, false, 1);
  ([128; 0; 0; 0; 0; 0; 0; 0; 0; 0; 0; 0; 0; 0; 0; 0; 0], 7, 4, false, 1);
  ([128; 0; 0; 0; 0; 0; 0; 0; 0; 0; 0; 0; 0; 0; 0; 0; 0], 7, 3, false, 1);
  ([128; 0; 0; 0; 0; 0; 0; 0; 0; 0; 0; 0; 0; 0; 0; 0; 0], 7, 2, false, 1);
  ([128; 0; 0; 0; 0; 0; 0; 0; 0; 0; 0; 0; 0; 0; 0; 0; 0], 7, 1, false, 1);
  ([64; 0; 0; 0; 0; 0; 0; 0; 0; 0; 0; 0; 0; 0; 0; 0; 0], 6, 64, false, 1);
  ([64; 0; 0; 0; 0; 0; 0; 0; 0; 0; 0; 0; 0; 0; 0; 0; 0], 6, 63, false, 1);
  ([64; 0; 0; 0; 0; 0; 0; 0; 0; 0; 0; 0; 0; 0; 0; 0; 0], 6, 62, false, 1);
  ([64; 0; 0; 0; 0; 0; 0; 0; 0; 0; 0; 0; 0; 0; 0; 0; 0], 6, 61, false, 1);
  ([64; 0; 0; 0; 0; 0; 0; 0; 0; 0; 0; 0; 0; 0; 0; 0; 0], 6, 60, false, 1);
  ([64; 0; 0; 0; 0; 0; 0; 0; 0; 0; 0; 0; 0; 0; 0; 0; 0], 6, 59, false, 1);
  ([64; 0; 0; 0; 0; 0; 0; 0; 0; 0; 0; 0; 0; 0; 0; 0; 0], 6, 58, false, 1);
  ([64; 0; 0; 0; 0; 0; 0; 0; 0; 0; 0; 0; 0; 0; 0; 0; 0], 6, 57, false, 1);
  ([64; 0; 0; 0; 0; 0; 0; 0; 0; 0; 0; 0; 0; 0; 0; 0; 0], 6, 56, false, 1);
  ([64; 0; 0; 0; 0; 0; 0; 0; 0; 0; 0; 0; 0; 0; 0; 0; 0], 6, 55, false, 1);
  ([64; 0; 0; 0; 0; 0; 0; 0; 0; 0; 0; 0; 0; 0; 0; 0; 0], 6, 54, false, 1);
  ([64; 0; 0; 0; 0; 0; 0; 0; 0; 0; 0; 0; 0; 0; 0; 0; 0], 6, 53, false, 1);
  ([64; 0; 0; 0; 0; 0; 0; 0; 0; 0; 0; 0; 0; 0; 0; 0; 0], 6, 52, false, 1);
  ([64; 0; 0; 0; 0; 0; 0; 0; 0; 0; 0; 0; 0; 0; 0; 0; 0], 6, 51, false, 1);
  ([64; 0; 0; 0; 0; 0; 0; 0; 0; 0; 0; 0; 0; 0; 0; 0; 0], 6, 50, false, 1);
  ([64; 0; 0; 0; 0; 0; 0; 0; 0; 0; 0; 0; 0; 0; 0; 0; 0], 6, 49, false, 1);
  ([64; 0; 0; 0; 0; 0; 0; 0; 0; 0; 0; 0; 0; 0; 0; 0; 0], 6, 48, false, 1);
  ([64; 0; 0; 0; 0; 0; 0; 0; 0; 0; 0; 0; 0; 0; 0; 0; 0], 6, 47, false, 1);
  ([64; 0; 0; 0; 0; 0; 0; 0; 0; 0; 0; 0; 0; 0; 0; 0; 0], 6, 46, false, 1);
  ([64; 0; 0; 0; 0; 0; 0; 0; 0; 0; 0; 0; 0; 0; 0; 0; 0], 6, 45, false, 1);
  ([64; 0; 0; 0; 0; 0; 0; 0; 0; 0; 0; 0; 0; 0; 0; 0; 0], 6, 44, false, 1);
  ([64; 0; 0; 0; 0; 0; 0; 0; 0; 0; 0; 0; 0; 0; 0; 0; 0], 6, 43, false, 1);
  ([64; 0; 0; 0; 0; 0; 0; 0; 0; 0; 0; 0; 0; 0; 0; 0; 0], 6, 42, false, 1);
  ([64; 0; 0; 0; 0; 0; 0; 0; 0; 0; 0; 0; 0; 0; 0; 0; 0], 6, 41, false, 1);
  ([64; 0; 0; 0; 0; 0; 0; 0; 0; 0; 0; 0; 0; 0; 0; 0; 0], 6, 40, false, 1);
  ([64; 0; 0; 0; 0; 0; 0; 0; 0; 0; 0; 0; 0; 0; 0; 0; 0], 6, 39, false, 1);
  ([64; 0; 0; 0; 0; 0; 0; 0; 0; 0; 0; 0; 0; 0; 0; 0; 0], 6, 38, false, 1);
  ([64; 0; 0; 0; 0; 0; 0; 0; 0; 0; 0; 0; 0; 0; 0; 0; 0], 6, 37, false, 1);
  ([64; 0; 0; 0; 0; 0; 0; 0; 0; 0; 0; 0; 0; 0; 0; 0; 0], 6, 36, false, 1);
  ([64; 0; 0; 0; 0; 0; 0; 0; 0; 0; 0; 0; 0; 0; 0; 0; 0], 6, 35, false, 1);
  ([64; 0; 0; 0; 0; 0; 0; 0; 0; 0; 0; 0; 0; 0; 0; 0; 0], 6, 34, false, 1);
  ([64; 0; 0; 0; 0; 0; 0; 0; 0; 0; 0; 0; 0; 0; 0; 0; 0], 6, 33, false, 1);
  ([64; 0; 0; 0; 0; 0; 0; 0; 0; 0; 0; 0; 0; 0; 0; 0; 0], 6, 32, false, 1);
  ([64; 0; 0; 0; 0; 0; 0; 0; 0; 0; 0; 0; 0; 0; 0; 0; 0], 6, 31, false, 1);
  ([64; 0; 0; 0; 0; 0; 0; 0; 0; 0; 0; 0; 0; 0; 0; 0; 0], 6, 30, false, 1);
  ([64; 0; 0; 0; 0; 0; 0; 0; 0; 0; 0; 0; 0; 0; 0; 0; 0], 6, 29, false, 1);
  ([64; 0; 0; 0; 0; 0; 0; 0; 0; 0; 0; 0; 0; 0; 0; 0; 0], 6, 28, false, 1);
  ([64; 0; 0; 0; 0; 0; 0; 0; 0; 0; 0; 0; 0; 0; 0; 0; 0], 6, 27, false, 1);
  ([64; 0; 0; 0; 0; 0; 0; 0; 0; 0; 0; 0; 0; 0; 0; 0; 0], 6, 26, false, 1);
  ([64; 0; 0; 0; 0; 0; 0; 0; 0; 0; 0; 0; 0; 0; 0; 0; 0], 6, 25, false, 1);
  ([64; 0; 0; 0; 0; 0; 0; 0; 0; 0; 0; 0; 0; 0; 0; 0; 0], 6, 24, false, 1);
  ([64; 0; 0; 0; 0; 0; 0; 0; 0; 0; 0; 0; 0; 0; 0; 0; 0], 6, 23, false, 1);
  ([64; 0; 0; 0; 0; 0; 0; 0; 0; 0; 0; 0; 0; 0; 0; 0; 0], 6, 22, false, 1);
  ([64; 0; 0; 0; 0; 0; 0; 0; 0; 0; 0; 0; 0; 0; 0; 0; 0], 6, 21, false, 1);
  ([64; 0; 0; 0; 0; 0; 0; 0; 0; 0; 0; 0; 0; 0; 0; 0; 0], 6, 20, false, 1);
  ([64; 0; 0; 0; 0; 0; 0; 0; 0; 0; 0; 0; 0; 0; 0; 0; 0], 6, 19, false, 1);
  ([64; 0; 0; 0; 0; 0; 0; 0; 0; 0; 0; 0; 0; 0; 0; 0; 0], 6, 18, false, 1);
  ([64; 0; 0; 0; 0; 0; 0; 0; 0; 0; 0; 0; 0; 0; 0; 0; 0], 6, 17, false, 1);
  ([64; 0; 0; 0; 0; 0; 0; 0; 0; 0; 0; 0; 0; 0; 0; 0; 0], 6, 16, false, 1);
  ([64; 0; 0; 0; 0; 0; 0; 0; 0; 0; 0; 0; 0; 0; 0; 0; 0], 6, 15, false, 1);
  ([64; 0; 0; 0; 0; 0; 0; 0; 0; 0; 0; 0; 0; 0; 0; 0; 0], 6, 14, false, 1);
  ([64; 0; 0; 0; 0; 0; 0; 0; 0; 0; 0; 0; 0; 0; 0; 0; 0], 6, 13, false, 1);
  ([64; 0; 0; 0; 0; 0; 0; 0; 0; 0; 0; 0; 0; 0; 0; 0; 0], 6, 12, false, 1);
  ([64; 0; 0; 0; 0; 0; 0; 0; 0; 0; 0; 0; 0; 0; 0; 0; 0], 6, 11, false, 1);
  ([64; 0; 0; 0; 0; 0; 0; 0; 0; 0; 0; 0; 0; 0; 0; 0; 0], 6, 10, false, 1);
  ([64; 0; 0; 0; 0; 0; 0; 0; 0; 0; 0; 0; 0; 0; 0; 0; 0], 6, 9, false, 1);
  ([64; 0; 0; 0; 0; 0; 0; 0; 0; 0; 0; 0; 0; 0; 0; 0; 0], 6, 8, false, 1);
  ([64; 0; 0; 0; 0; 0; 0; 0; 0; 0; 0; 0; 0; 0; 0; 0; 0], 6, 7, false, 1);
  ([64; 0; 0; 0; 0; 0; 0; 0; 0; 0; 0; 0; 0; 0; 0; 0; 0], 6, 6, false, 1);
  ([64; 0; 0; 0; 0; 0; 0; 0; 0; 0; 0; 0; 0; 0; 0; 0; 0], 6, 5, false, 1);
  ([64; 0; 0; 0; 0; 0; 0; 0; 0; 0; 0; 0; 0; 0; 0; 0; 0], 6, 4, false, 1);
  ([64; 0; 0; 0; 0; 0; 0; 0; 0; 0; 0; 0; 0; 0; 0; 0; 0], 6, 3, false, 1);
  ([64; 0; 0; 0; 0; 0; 0; 0; 0; 0; 0; 0; 0; 0; 0; 0; 0], 6, 2, false, 1);
  ([64; 0; 0; 0; 0; 0; 0; 0; 0; 0; 0; 0; 0; 0; 0; 0; 0], 6, 1, false, 1);
  ([32; 0; 0; 0; 0; 0; 0; 0; 0; 0; 0; 0; 0; 0; 0; 0; 0], 5, 64, false, 1);
  ([32; 0; 0; 0; 0; 0; 0; 0; 0; 0; 0; 0; 0; 0; 0; 0; 0], 5, 63, false, 1);
  ([32; 0; 0; 0; 0; 0; 0; 0; 0; 0; 0; 0; 0; 0; 0; 0; 0], 5, 62, false, 1);
  ([32; 0; 0; 0; 0; 0; 0; 0; 0; 0; 0; 0; 0; 0; 0; 0; 0], 5, 61, false, 1);
  ([32; 0; 0; 0; 0; 0; 0; 0; 0; 0; 0; 0; 0; 0; 0; 0; 0], 5, 60, false, 1);
  ([32; 0; 0; 0; 0; 0; 0; 0; 0; 0; 0; 0; 0; 0; 0; 0; 0], 5, 59, false, 1);
  ([32; 0; 0; 0; 0; 0; 0; 0; 0; 0; 0; 0; 0; 0; 0; 0; 0], 5, 58, false, 1);
  ([32; 0; 0; 0; 0; 0; 0; 0; 0; 0; 0; 0; 0; 0; 0; 0; 0], 5, 57, false, 1);
  ([32; 0; 0; 0; 0; 0; 0; 0; 0; 0; 0; 0; 0; 0; 0; 0; 0], 5, 56, false, 1);
  ([32; 0; 0; 0; 0; 0; 0; 0; 0; 0; 0; 0; 0; 0; 0; 0; 0], 5, 55, false, 1);
  ([32; 0; 0; 0; 0; 0; 0; 0; 0; 0; 0; 0; 0; 0; 0; 0; 0], 5, 54, false, 1);
  ([32; 0; 0; 0; 0; 0; 0; 0; 0; 0; 0; 0; 0; 0; 0; 0; 0], 5, 53, false, 1);
  ([32; 0; 0; 0; 0; 0; 0; 0; 0; 0; 0; 0; 0; 0; 0; 0; 0], 5, 52, false, 1);
  ([32; 0; 0; 0; 0; 0; 0; 0; 0; 0; 0; 0; 0; 0; 0; 0; 0], 5, 51, false, 1);
  ([32; 0; 0; 0; 0; 0; 0; 0; 0; 0; 0; 0; 0; 0; 0; 0; 0], 5, 50, false, 1);
  ([32; 0; 0; 0; 0; 0; 0; 0; 0; 0; 0; 0; 0; 0; 0; 0; 0], 5, 49, false, 1);
  ([32; 0; 0; 0; 0; 0; 0; 0; 0; 0; 0; 0; 0; 0; 0; 0; 0], 5, 48, false, 1);
  ([32; 0; 0; 0; 0; 0; 0; 0; 0; 0; 0; 0; 0; 0; 0; 0; 0], 5, 47, false, 1);
  ([32; 0; 0; 0; 0; 0; 0; 0; 0; 0; 0; 0; 0; 0; 0; 0; 0], 5, 46, false, 1);
  ([32; 0; 0; 0; 0; 0; 0; 0; 0; 0; 0; 0; 0; 0; 0; 0; 0], 5, 45, false, 1);
  ([32; 0; 0; 0; 0; 0; 0; 0; 0; 0; 0; 0; 0; 0; 0; 0; 0], 5, 44, false, 1);
  ([32; 0; 0; 0; 0; 0; 0; 0; 0; 0; 0; 0; 0; 0; 0; 0; 0], 5, 43, false, 1);
  ([32; 0; 0; 0; 0; 0; 0; 0; 0; 0; 0; 0; 0; 0; 0; 0; 0], 5, 42, false, 1);
  ([32; 0; 0; 0; 0; 0; 0; 0; 0; 0; 0; 0; 0; 0; 0; 0; 0], 5, 41, false, 1);
  ([32; 0; 0; 0; 0; 0; 0; 0; 0; 0; 0; 0; 0; 0; 0; 0; 0], 5, 40, false, 1);
  ([32; 0; 0; 0; 0; 0; 0; 0; 0; 0; 0; 0; 0; 0; 0; 0; 0], 5, 39, false, 1);
  ([32; 0; 0; 0; 0; 0; 0; 0; 0; 0; 0; 0; 0; 0; 0; 0; 0], 5, 38, false, 1);
  ([32; 0; 0; 0; 0; 0; 0; 0; 0; 0; 0; 0; 0; 0; 0; 0; 0], 5, 37, false, 1);
  ([32; 0; 0; 0; 0; 0; 0; 0; 0; 0; 0; 0; 0; 0; 0; 0; 0], 5, 36, false, 1);
  ([32; 0; 0; 0; 0; 0; 0; 0; 0; 0; 0; 0; 0; 0; 0; 0; 0], 5, 35, false, 1);
  ([32; 0; 0; 0; 0; 0; 0; 0; 0; 0; 0; 0; 0; 0; 0; 0; 0], 5, 34, false, 1);
  ([32; 0; 0; 0; 0; 0; 0; 0; 0; 0; 0; 0; 0; 0; 0; 0; 0], 5, 33, false, 1);
  ([32; 0; 0; 0; 0; 0; 0; 0; 0; 0; 0; 0; 0; 0; 0; 0; 0], 5, 32, false, 1);
  ([32; 0; 0; 0; 0; 0; 0; 0; 0; 0; 0; 0; 0; 0; 0; 0; 0], 5, 31, false, 1);
  ([32; 0; 0; 0; 0; 0; 0; 0; 0; 0; 0; 0; 0; 0; 0; 0; 0], 5, 30, false, 1);
  ([32; 0; 0; 0; 0; 0; 0; 0; 0; 0; 0; 0; 0; 0; 0; 0; 0], 5, 29, false, 1);
  ([32; 0; 0; 0; 0; 0; 0; 0; 0; 0; 0; 0; 0; 0; 0; 0; 0], 5, 28, false, 1);
  ([32; 0; 0; 0; 0; 0; 0; 0; 0; 0; 0; 0; 0; 0; 0; 0; 0], 5, 27, false, 1);
  ([32; 0; 0; 0; 0; 0; 0; 0; 0; 0; 0; 0; 0; 0; 0; 0; 0], 5, 26, false, 1);
  ([32; 0; 0; 0; 0; 0; 0; 0; 0; 0; 0; 0; 0; 0; 0; 0; 0], 5, 25, false, 1);
  ([32; 0; 0; 0; 0; 0; 0; 0; 0; 0; 0; 0; 0; 0; 0; 0; 0], 5, 24, false, 1);
  ([32; 0; 0; 0; 0; 0; 0; 0; 0; 0; 0; 0; 0; 0; 0; 0; 0], 5, 23, false, 1);
  ([32; 0; 0; 0; 0; 0; 0; 0; 0; 0; 0; 0; 0; 0; 0; 0; 0], 5, 22, false, 1);
  ([32; 0; 0; 0; 0; 0; 0; 0; 0; 0; 0; 0; 0; 0; 0; 0; 0], 5, 21, false, 1);
  ([32; 0; 0; 0; 0; 0; 0; 0; 0; 0; 0; 0; 0; 0; 0; 0; 0], 5, 20, false, 1);
  ([32; 0; 0; 0; 0; 0; 0; 0; 0; 0; 0; 0; 0; 0; 0; 0; 0], 5, 19, false, 1);
  ([32; 0; 0; 0; 0; 0; 0; 0; 0; 0; 0; 0; 0; 0; 0; 0; 0], 5, 18, false, 1);
  ([32; 0; 0; 0; 0; 0; 0; 0; 0; 0; 0; 0; 0; 0; 0; 0; 0], 5, 17, false, 1);
  ([32; 0; 0; 0; 0; 0; 0; 0; 0; 0; 0; 0; 0; 0; 0; 0; 0], 5, 16, false, 1);
  ([32; 0; 0; 0; 0; 0; 0; 0; 0; 0; 0; 0; 0; 0; 0; 0; 0], 5, 15, false, 1);
  ([32; 0; 0; 0; 0; 0; 0; 0; 0; 0; 0; 0; 0; 0; 0; 0; 0], 5, 14, false, 1);
  ([32; 0; 0; 0; 0; 0; 0; 0; 0; 0; 0; 0; 0; 0; 0; 0; 0], 5, 13, false, 1);
  ([32; 0; 0; 0; 0; 0; 0; 0; 0; 0; 0; 0; 0; 0; 0; 0; 0], 5, 12, false, 1);
  ([32; 0; 0; 0; 0; 0; 0; 0; 0; 0; 0; 0; 0; 0; 0; 0; 0], 5, 11, false, 1);
  ([32; 0; 0; 0; 0; 0; 0; 0; 0; 0; 0; 0; 0; 0; 0; 0; 0], 5, 10, false, 1);
  ([32; 0; 0; 0; 0; 0; 0; 0; 0; 0; 0; 0; 0; 0; 0; 0; 0], 5, 9, false, 1);
  ([32; 0; 0; 0; 0; 0; 0; 0; 0; 0; 0; 0; 0; 0; 0; 0; 0], 5, 8, false, 1);
  ([32; 0; 0; 0; 0; 0; 0; 0; 0; 0; 0; 0; 0; 0; 0; 0; 0], 5, 7, false, 1);
  ([32; 0; 0; 0; 0; 0; 0; 0; 0; 0; 0; 0; 0; 0; 0; 0; 0], 5, 6, false, 1);
  ([32; 0; 0; 0; 0; 0; 0; 0; 0; 0; 0; 0; 0; 0; 0; 0; 0], 5, 5, false, 1);
  ([32; 0; 0; 0; 0; 0; 0; 0; 0; 0; 0; 0; 0; 0; 0; 0; 0], 5, 4, false, 1);
  ([32; 0; 0; 0; 0; 0; 0; 0; 0; 0; 0; 0; 0; 0; 0; 0; 0], 5, 3, false, 1);
  ([32; 0; 0; 0; 0; 0; 0; 0; 0; 0; 0; 0; 0; 0; 0; 0; 0], 5, 2, false, 1);
  ([32; 0; 0; 0; 0; 0; 0; 0; 0; 0; 0; 0; 0; 0; 0; 0; 0], 5, 1, false, 1);
  ([16; 0; 0; 0; 0; 0; 0; 0; 0; 0; 0; 0; 0; 0; 0; 0; 0], 4, 64, false, 1);
  ([16; 0; 0; 0; 0; 0; 0; 0; 0; 0; 0; 0; 0; 0; 0; 0; 0], 4, 63, false, 1);
  ([16; 0; 0; 0; 0; 0; 0; 0; 0; 0; 0; 0; 0; 0; 0; 0; 0], 4, 62, false, 1);
  ([16; 0; 0; 0; 0; 0; 0; 0; 0; 0; 0; 0; 0; 0; 0; 0; 0], 4, 61, false, 1);
  ([16; 0; 0; 0; 0; 0; 0; 0; 0; 0; 0; 0; 0; 0; 0; 0; 0], 4, 60, false, 1);
  ([16; 0; 0; 0; 0; 0; 0; 0; 0; 0; 0; 0; 0; 0; 0; 0; 0], 4, 59, false, 1);
  ([16; 0; 0; 0; 0; 0; 0; 0; 0; 0; 0; 0; 0; 0; 0; 0; 0], 4, 58, false, 1);
  ([16; 0; 0; 0; 0; 0; 0; 0; 0; 0; 0; 0; 0; 0; 0; 0; 0], 4, 57, false, 1);
  ([16; 0; 0; 0; 0; 0; 0; 0; 0; 0; 0; 0; 0; 0; 0; 0; 0], 4, 56, false, 1);
  ([16; 0; 0; 0; 0; 0; 0; 0; 0; 0; 0; 0; 0; 0; 0; 0; 0], 4, 55, false, 1);
  ([16; 0; 0; 0; 0; 0; 0; 0; 0; 0; 0; 0; 0; 0; 0; 0; 0], 4, 54, false, 1);
  ([16; 0; 0; 0; 0; 0; 0; 0; 0; 0; 0; 0; 0; 0; 0; 0; 0], 4, 53, false, 1);
  ([16; 0; 0; 0; 0; 0; 0; 0; 0; 0; 0; 0; 0; 0; 0; 0; 0], 4, 52, false, 1);
  ([16; 0; 0; 0; 0; 0; 0; 0; 0; 0; 0; 0; 0; 0; 0; 0; 0], 4, 51, false, 1);
  ([16; 0; 0; 0; 0; 0; 0; 0; 0; 0; 0; 0; 0; 0; 0; 0; 0], 4, 50, false, 1);
  ([16; 0; 0; 0; 0; 0; 0; 0; 0; 0; 0; 0; 0; 0; 0; 0; 0], 4, 49, false, 1);
  ([16; 0; 0; 0; 0; 0; 0; 0; 0; 0; 0; 0; 0; 0; 0; 0; 0], 4, 48, false, 1);
  ([16; 0; 0; 0; 0; 0; 0; 0; 0; 0; 0; 0; 0; 0; 0; 0; 0], 4, 47, false, 1);
  ([16; 0; 0; 0; 0; 0; 0; 0; 0; 0; 0; 0; 0; 0; 0; 0; 0], 4, 46, false, 1);
  ([16; 0; 0; 0; 0; 0; 0; 0; 0; 0; 0; 0; 0; 0; 0; 0; 0], 4, 45, false, 1);
  ([16; 0; 0; 0; 0; 0; 0; 0; 0; 0; 0; 0; 0; 0; 0; 0; 0], 4, 44, false, 1);
  ([16; 0; 0; 0; 0; 0; 0; 0; 0; 0; 0; 0; 0; 0; 0; 0; 0], 4, 43, false, 1);
  ([16; 0; 0; 0; 0; 0; 0; 0; 0; 0; 0; 0; 0; 0; 0; 0; 0], 4, 42, false, 1);
  ([16; 0; 0; 0; 0; 0; 0; 0; 0; 0; 0; 0; 0; 0; 0; 0; 0], 4, 41, false, 1);
  ([16; 0; 0; 0; 0; 0; 0; 0; 0; 0; 0; 0; 0; 0; 0; 0; 0], 4, 40, false, 1);
  ([16; 0; 0; 0; 0; 0; 0; 0; 0; 0; 0; 0; 0; 0; 0; 0; 0], 4, 39, false, 1);
  ([16; 0; 0; 0; 0; 0; 0; 0; 0; 0; 0; 0; 0; 0; 0; 0; 0], 4, 38, false, 1);
  ([16; 0; 0; 0; 0; 0; 0; 0; 0; 0; 0; 0; 0; 0; 0; 0; 0], 4, 37, false, 1);
  ([16; 0; 0; 0; 0; 0; 0; 0; 0; 0; 0; 0; 0; 0; 0; 0; 0], 4, 36, false, 1);
  ([16; 0; 0; 0; 0; 0; 0; 0; 0; 0; 0; 0; 0; 0; 0; 0; 0], 4, 35, false, 1);
  ([16; 0; 0; 0; 0; 0; 0; 0; 0; 0; 0; 0; 0; 0; 0; 0; 0], 4, 34, false, 1);
  ([16; 0; 0; 0; 0; 0; 0; 0; 0; 0; 0; 0; 0; 0; 0; 0; 0], 4, 33, false, 1);
  ([16; 0; 0; 0; 0; 0; 0; 0; 0; 0; 0; 0; 0; 0; 0; 0; 0], 4, 32, false, 1);
  ([16; 0; 0; 0; 0; 0; 0; 0; 0; 0; 0; 0; 0; 0; 0; 0; 0], 4, 31, false, 1);
  ([16; 0; 0; 0; 0; 0; 0; 0; 0; 0; 0; 0; 0; 0; 0; 0; 0], 4, 30, false, 1);
  ([16; 0; 0; 0; 0; 0; 0; 0; 0; 0; 0; 0; 0; 0; 0; 0; 0], 4, 29, false, 1);
  ([16; 0; 0; 0; 0; 0; 0; 0; 0; 0; 0; 0; 0; 0; 0; 0; 0], 4, 28, false, 1);
  ([16; 0; 0; 0; 0; 0; 0; 0; 0; 0; 0; 0; 0; 0; 0; 0; 0], 4, 27, false, 1);
  ([16; 0; 0; 0; 0; 0; 0; 0; 0; 0; 0; 0; 0; 0; 0; 0; 0], 4, 26, false, 1);
  ([16; 0; 0; 0; 0; 0; 0; 0; 0; 0; 0; 0; 0; 0; 0; 0; 0], 4, 25, false, 1);
  ([16; 0; 0; 0; 0; 0; 0; 0; 0; 0; 0; 0; 0; 0; 0; 0; 0], 4, 24, false, 1);
  ([16; 0; 0; 0; 0; 0; 0; 0; 0; 0; 0; 0; 0; 0; 0; 0; 0], 4, 23, false, 1);
  ([16; 0; 0; 0; 0; 0; 0; 0; 0; 0; 0; 0; 0; 0; 0; 0; 0], 4, 22, false, 1);
  ([16; 0; 0; 0; 0; 0; 0; 0; 0; 0; 0; 0; 0; 0; 0; 0; 0], 4, 21, false, 1);
  ([16; 0; 0; 0; 0; 0; 0; 0; 0; 0; 0; 0; 0; 0; 0; 0; 0], 4, 20, false, 1);
  ([16; 0; 0; 0; 0; 0; 0; 0; 0; 0; 0; 0; 0; 0; 0; 0; 0], 4, 19, false, 1);
  ([16; 0; 0; 0; 0; 0; 0; 0; 0; 0; 0; 0; 0; 0; 0; 0; 0], 4, 18, false, 1);
  ([16; 0; 0; 0; 0; 0; 0; 0; 0; 0; 0; 0; 0; 0; 0; 0; 0], 4, 17, false, 1);
  ([16; 0; 0; 0; 0; 0; 0; 0; 0; 0; 0; 0; 0; 0; 0; 0; 0], 4, 16, false, 1);
  ([16; 0; 0; 0; 0; 0; 0; 0; 0; 0; 0; 0; 0; 0; 0; 0; 0], 4, 15, false, 1);
  ([16; 0; 0; 0; 0; 0; 0; 0; 0; 0; 0; 0; 0; 0; 0; 0; 0], 4, 14, false, 1);
  ([16; 0; 0; 0; 0; 0; 0; 0; 0; 0; 0; 0; 0; 0; 0; 0; 0], 4, 13, false, 1);
  ([16; 0; 0; 0; 0; 0; 0; 0; 0; 0; 0; 0; 0; 0; 0; 0; 0], 4, 12, false, 1);
  ([16; 0; 0; 0; 0; 0; 0; 0; 0; 0; 0; 0; 0; 0; 0; 0; 0], 4, 11, false, 1);
  ([16; 0; 0; 0; 0; 0; 0; 0; 0; 0; 0; 0; 0; 0; 0; 0; 0], 4, 10, false, 1);
  ([16; 0; 0; 0; 0; 0; 0; 0; 0; 0; 0; 0; 0; 0; 0; 0; 0], 4, 9, false, 1);
  ([16; 0; 0; 0; 0; 0; 0; 0; 0; 0; 0; 0; 0; 0; 0; 0; 0], 4, 8, false, 1);
  ([16; 0; 0; 0; 0; 0; 0; 0; 0; 0; 0; 0; 0; 0; 0; 0; 0], 4, 7, false, 1);
  ([16; 0; 0; 0; 0; 0; 0; 0; 0; 0; 0; 0; 0; 0; 0; 0; 0], 4, 6, false, 1);
  ([16; 0; 0; 0; 0; 0; 0; 0; 0; 0; 0; 0; 0; 0; 0; 0; 0], 4, 5, false, 1);
  ([16; 0; 0; 0; 0; 0; 0; 0; 0; 0; 0; 0; 0; 0; 0; 0; 0], 4, 4, false, 1);
  ([16; 0; 0; 0; 0; 0; 0; 0; 0; 0; 0; 0; 0; 0; 0; 0; 0], 4, 3, false, 1);
  ([16; 0; 0; 0; 0; 0; 0; 0; 0; 0; 0; 0; 0; 0; 0; 0; 0], 4, 2, false, 1);
  ([16; 0; 0; 0; 0; 0; 0; 0; 0; 0; 0; 0; 0; 0; 0; 0; 0], 4, 1, false, 1);
  ([8; 0; 0; 0; 0; 0; 0; 0; 0; 0; 0; 0; 0; 0; 0; 0; 0], 3, 64, false, 1);
  ([8; 0; 0; 0; 0; 0; 0; 0; 0; 0; 0; 0; 0; 0; 0; 0; 0], 3, 63, false, 1);
  ([8; 0; 0; 0; 0; 0; 0; 0; 0; 0; 0; 0; 0; 0; 0; 0; 0], 3, 62, false, 1);
  ([8; 0; 0; 0; 0; 0; 0; 0; 0; 0; 0; 0; 0; 0; 0; 0; 0], 3, 61, false, 1);
  ([8; 0; 0; 0; 0; 0; 0; 0; 0; 0; 0; 0; 0; 0; 0; 0; 0], 3, 60, false, 1);
  ([8; 0; 0; 0; 0; 0; 0; 0; 0; 0; 0; 0; 0; 0; 0; 0; 0], 3, 59, false, 1);
  ([8; 0; 0; 0; 0; 0; 0; 0; 0; 0; 0; 0; 0; 0; 0; 0; 0], 3, 58, false, 1);
  ([8; 0; 0; 0; 0; 0; 0; 0; 0; 0; 0; 0; 0; 0; 0; 0; 0], 3, 57, false, 1);
  ([8; 0; 0; 0; 0; 0; 0; 0; 0; 0; 0; 0; 0; 0; 0; 0; 0], 3, 56, false, 1);
  ([8; 0; 0; 0; 0; 0; 0; 0; 0; 0; 0; 0; 0; 0; 0; 0; 0], 3, 55, false, 1);
  ([8; 0; 0; 0; 0; 0; 0; 0; 0; 0; 0; 0; 0; 0; 0; 0; 0], 3, 54, false, 1);
  ([8; 0; 0; 0; 0; 0; 0; 0; 0; 0; 0; 0; 0; 0; 0; 0; 0], 3, 53, false, 1);
  ([8; 0; 0; 0; 0; 0; 0; 0; 0; 0; 0; 0; 0; 0; 0; 0; 0], 3, 52, false, 1);
  ([8; 0; 0; 0; 0; 0; 0; 0; 0; 0; 0; 0; 0; 0; 0; 0; 0], 3, 51, false, 1);
  ([8; 0; 0; 0; 0; 0; 0; 0; 0; 0; 0; 0; 0; 0; 0; 0; 0], 3, 50, false, 1);
  ([8; 0; 0; 0; 0; 0; 0; 0; 0; 0; 0; 0; 0; 0; 0; 0; 0], 3, 49, false, 1);
  ([8; 0; 0; 0; 0; 0; 0; 0; 0; 0; 0; 0; 0; 0; 0; 0; 0], 3, 48, false, 1);
  ([8; 0; 0; 0; 0; 0; 0; 0; 0; 0; 0; 0; 0; 0; 0; 0; 0], 3, 47, false, 1);
  ([8; 0; 0; 0; 0; 0; 0; 0; 0; 0; 0; 0; 0; 0; 0; 0; 0], 3, 46, false, 1);
  ([8; 0; 0; 0; 0; 0; 0; 0; 0; 0; 0; 0; 0; 0; 0; 0; 0], 3, 45, false, 1);
  ([8; 0; 0; 0; 0; 0; 0; 0; 0; 0; 0; 0; 0; 0; 0; 0; 0], 3, 44, false, 1);
  ([8; 0; 0; 0; 0; 0; 0; 0; 0; 0; 0; 0; 0; 0; 0; 0; 0], 3, 43, false, 1);
  ([8; 0; 0; 0; 0; 0; 0; 0; 0; 0; 0; 0; 0; 0; 0; 0; 0], 3, 42, false, 1);
  ([8; 0; 0; 0; 0; 0; 0; 0; 0; 0; 0; 0; 0; 0; 0; 0; 0], 3, 41, false, 1);
  ([8; 0; 0; 0; 0; 0; 0; 0; 0; 0; 0; 0; 0; 0; 0; 0; 0], 3, 40, false, 1);
  ([8; 0; 0; 0; 0; 0; 0; 0; 0; 0; 0; 0; 0; 0; 0; 0; 0], 3, 39, false, 1);
  ([8; 0; 0; 0; 0; 0; 0; 0; 0; 0; 0; 0; 0; 0; 0; 0; 0], 3, 38, false, 1);
  ([8; 0; 0; 0; 0; 0; 0; 0; 0; 0; 0; 0; 0; 0; 0; 0; 0], 3, 37, false, 1);
  ([8; 0; 0; 0; 0; 0; 0; 0; 0; 0; 0; 0; 0; 0; 0; 0; 0], 3, 36, false, 1);
  ([8; 0; 0; 0; 0; 0; 0; 0; 0; 0; 0; 0; 0; 0; 0; 0; 0], 3, 35, false, 1);
  ([8; 0; 0; 0; 0; 0; 0; 0; 0; 0; 0; 0; 0; 0; 0; 0; 0], 3, 34, false, 1);
  ([8; 0; 0; 0; 0; 0; 0; 0; 0; 0; 0; 0; 0; 0; 0; 0; 0], 3, 33, false, 1);
  ([8; 0; 0; 0; 0; 0; 0; 0; 0; 0; 0; 0; 0; 0; 0; 0; 0], 3, 32, false, 1);
  ([8; 0; 0; 0; 0; 0; 0; 0; 0; 0; 0; 0; 0; 0; 0; 0; 0], 3, 31, false, 1);
  ([8; 0; 0; 0; 0; 0; 0; 0; 0; 0; 0; 0; 0; 0; 0; 0; 0], 3, 30, false, 1);
  ([8; 0; 0; 0; 0; 0; 0; 0; 0; 0; 0; 0; 0; 0; 0; 0; 0], 3, 29, false, 1);
  ([8; 0; 0; 0; 0; 0; 0; 0; 0; 0; 0; 0; 0; 0; 0; 0; 0], 3, 28, false, 1);
  ([8; 0; 0; 0; 0; 0; 0; 0; 0; 0; 0; 0; 0; 0; 0; 0; 0], 3, 27, false, 1);
  ([8; 0; 0; 0; 0; 0; 0; 0; 0; 0; 0; 0; 0; 0; 0; 0; 0], 3, 26, false, 1);
  ([8; 0; 0; 0; 0; 0; 0; 0; 0; 0; 0; 0; 0; 0; 0; 0; 0], 3, 25, false, 1);
  ([8; 0; 0; 0; 0; 0; 0; 0; 0; 0; 0; 0; 0; 0; 0; 0; 0], 3, 24, false, 1);
  ([8; 0; 0; 0; 0; 0; 0; 0; 0; 0; 0; 0; 0; 0; 0; 0; 0], 3, 23, false, 1);
  ([8; 0; 0; 0; 0; 0; 0; 0; 0; 0; 0; 0; 0; 0; 0; 0; 0], 3, 22, false, 1);
  ([8; 0; 0; 0; 0; 0; 0; 0; 0; 0; 0; 0; 0; 0; 0; 0; 0], 3, 21, false, 1);
  ([8; 0; 0; 0; 0; 0; 0; 0; 0; 0; 0; 0; 0; 0; 0; 0; 0], 3, 20, false, 1);
  ([8; 0; 0; 0; 0; 0; 0; 0; 0; 0; 0; 0; 0; 0; 0; 0; 0], 3, 19, false, 1);
  ([8; 0; 0; 0; 0; 0; 0; 0; 0; 0; 0; 0; 0; 0; 0; 0; 0], 3, 18, false, 1);
  ([8; 0; 0; 0; 0; 0; 0; 0; 0; 0; 0; 0; 0; 0; 0; 0; 0], 3, 17, false, 1);
  ([8; 0; 0; 0; 0; 0; 0; 0; 0; 0; 0; 0; 0; 0; 0; 0; 0], 3, 16, false, 1);
  ([8; 0; 0; 0; 0; 0; 0; 0; 0; 0; 0; 0; 0; 0; 0; 0; 0], 3, 15, false, 1);
  ([8; 0; 0; 0; 0; 0; 0; 0; 0; 0; 0; 0; 0; 0; 0; 0; 0], 3, 14, false, 1);
  ([8; 0; 0; 0; 0; 0; 0; 0; 0; 0; 0; 0; 0; 0; 0; 0; 0], 3, 13, false, 1);
  ([8; 0; 0; 0; 0; 0; 0; 0; 0; 0; 0; 0; 0; 0; 0; 0; 0], 3, 12, false, 1);
  ([8; 0; 0; 0; 0; 0; 0; 0; 0; 0; 0; 0; 0; 0; 0; 0; 0], 3, 11, false, 1);
  ([8; 0; 0; 0; 0; 0; 0; 0; 0; 0; 0; 0; 0; 0; 0; 0; 0], 3, 10, false, 1);
  ([8; 0; 0; 0; 0; 0; 0; 0; 0; 0; 0; 0; 0; 0; 0; 0; 0], 3, 9, false, 1);
  ([8; 0; 0; 0; 0; 0; 0; 0; 0; 0; 0; 0; 0; 0; 0; 0; 0], 3, 8, false, 1);
  ([8; 0; 0; 0; 0; 0; 0; 0; 0; 0; 0; 0; 0; 0; 0; 0; 0], 3, 7, false, 1);
  ([8; 0; 0; 0; 0; 0; 0; 0; 0; 0; 0; 0; 0; 0; 0; 0; 0], 3, 6, false, 1);
  ([8; 0; 0; 0; 0; 0; 0; 0; 0; 0; 0; 0; 0; 0; 0; 0; 0], 3, 5, false, 1);
  ([8; 0; 0; 0; 0; 0; 0; 0; 0; 0; 0; 0; 0; 0; 0; 0; 0], 3, 4, false, 1);
  ([8; 0; 0; 0; 0; 0; 0; 0; 0; 0; 0; 0; 0; 0; 0; 0; 0], 3, 3, false, 1);
  ([8; 0; 0; 0; 0; 0; 0; 0; 0; 0; 0; 0; 0; 0; 0; 0; 0], 3, 2, false, 1);
  ([8; 0; 0; 0; 0; 0; 0; 0; 0; 0; 0; 0; 0; 0; 0; 0; 0], 3, 1, false, 1);
  ([4; 0; 0; 0; 0; 0; 0; 0; 0; 0; 0; 0; 0; 0; 0; 0; 0], 2, 64, false, 1);
  ([4; 0; 0; 0; 0; 0; 0; 0; 0; 0; 0; 0; 0; 0; 0; 0; 0], 2, 63, false, 1);
  ([4; 0; 0; 0; 0; 0; 0; 0; 0; 0; 0; 0; 0; 0; 0; 0; 0], 2, 62, false, 1);
  ([4; 0; 0; 0; 0; 0; 0; 0; 0; 0; 0; 0; 0; 0; 0; 0; 0], 2, 61, false, 1);
  ([4; 0; 0; 0; 0; 0; 0; 0; 0; 0; 0; 0; 0; 0; 0; 0; 0], 2, 60, false, 1);
  ([4; 0; 0; 0; 0; 0; 0; 0; 0; 0; 0; 0; 0; 0; 0; 0; 0], 2, 59, false, 1);
  ([4; 0; 0; 0; 0; 0; 0; 0; 0; 0; 0; 0; 0; 0; 0; 0; 0], 2, 58, false, 1);
  ([4; 0; 0; 0; 0; 0; 0; 0; 0; 0; 0; 0; 0; 0; 0; 0; 0], 2, 57, false, 1);
  ([4; 0; 0; 0; 0; 0; 0; 0; 0; 0; 0; 0; 0; 0; 0; 0; 0], 2, 56, false, 1);
  ([4; 0; 0; 0; 0; 0; 0; 0; 0; 0; 0; 0; 0; 0; 0; 0; 0], 2, 55, false, 1);
  ([4; 0; 0; 0; 0; 0; 0; 0; 0; 0; 0; 0; 0; 0; 0; 0; 0], 2, 54, false, 1);
  ([4; 0; 0; 0; 0; 0; 0; 0; 0; 0; 0; 0; 0; 0; 0; 0; 0], 2, 53, false, 1);
  ([4; 0; 0; 0; 0; 0; 0; 0; 0; 0; 0; 0; 0; 0; 0; 0; 0], 2, 52, false, 1);
  ([4; 0; 0; 0; 0; 0; 0; 0; 0; 0; 0; 0; 0; 0; 0; 0; 0], 2, 51, false, 1);
  ([4; 0; 0; 0; 0; 0; 0; 0; 0; 0; 0; 0; 0; 0; 0; 0; 0], 2, 50, false, 1);
  ([4; 0; 0; 0; 0; 0; 0; 0; 0; 0; 0; 0; 0; 0; 0; 0; 0], 2, 49, false, 1);
  ([4; 0; 0; 0; 0; 0; 0; 0; 0; 0; 0; 0; 0; 0; 0; 0; 0], 2, 48, false, 1);
  ([4; 0; 0; 0; 0; 0; 0; 0; 0; 0; 0; 0; 0; 0; 0; 0; 0], 2, 47, false, 1);
  ([4; 0; 0; 0; 0; 0; 0; 0; 0; 0; 0; 0; 0; 0; 0; 0; 0], 2, 46, false, 1);
  ([4; 0; 0; 0; 0; 0; 0; 0; 0; 0; 0; 0; 0; 0; 0; 0; 0], 2, 45, false, 1);
  ([4; 0; 0; 0; 0; 0; 0; 0; 0; 0; 0; 0; 0; 0; 0; 0; 0], 2, 44, false, 1);
  ([4; 0; 0; 0; 0; 0; 0; 0; 0; 0; 0; 0; 0; 0; 0; 0; 0], 2, 43, false, 1);
  ([4; 0; 0; 0; 0; 0; 0; 0; 0; 0; 0; 0; 0; 0; 0; 0; 0], 2, 42, false, 1);
  ([4; 0; 0; 0; 0; 0; 0; 0; 0; 0; 0; 0; 0; 0; 0; 0; 0], 2, 41, false, 1);
  ([4; 0; 0; 0; 0; 0; 0; 0; 0; 0; 0; 0; 0; 0; 0; 0; 0], 2, 40, false, 1);
  ([4; 0; 0; 0; 0; 0; 0; 0; 0; 0; 0; 0; 0; 0; 0; 0; 0], 2, 39, false, 1);
  ([4; 0; 0; 0; 0; 0; 0; 0; 0; 0; 0; 0; 0; 0; 0; 0; 0], 2, 38, false, 1);
  ([4; 0; 0; 0; 0; 0; 0; 0; 0; 0; 0; 0; 0; 0; 0; 0; 0], 2, 37, false, 1);
  ([4; 0; 0; 0; 0; 0; 0; 0; 0; 0; 0; 0; 0; 0; 0; 0; 0], 2, 36, false, 1);
  ([4; 0; 0; 0; 0; 0; 0; 0; 0; 0; 0; 0; 0; 0; 0; 0; 0], 2, 35, false, 1);
  ([4; 0; 0; 0; 0; 0; 0; 0; 0; 0; 0; 0; 0; 0; 0; 0; 0], 2, 34, false, 1);
  ([4; 0; 0; 0; 0; 0; 0; 0; 0; 0; 0; 0; 0; 0; 0; 0; 0], 2, 33, false, 1);
  ([4; 0; 0; 0; 0; 0; 0; 0; 0; 0; 0; 0; 0; 0; 0; 0; 0], 2, 32, false, 1);
  ([4; 0; 0; 0; 0; 0; 0; 0; 0; 0; 0; 0; 0; 0; 0; 0; 0], 2, 31, false, 1);
  ([4; 0; 0; 0; 0; 0; 0; 0; 0; 0; 0; 0; 0; 0; 0; 0; 0], 2, 30, false, 1);
  ([4; 0; 0; 0; 0; 0; 0; 0; 0; 0; 0; 0; 0; 0; 0; 0; 0], 2, 29, false, 1);
  ([4; 0; 0; 0; 0; 0; 0; 0; 0; 0; 0; 0; 0; 0; 0; 0; 0], 2, 28, false, 1);
  ([4; 0; 0; 0; 0; 0; 0; 0; 0; 0; 0; 0; 0; 0; 0; 0; 0], 2, 27, false, 1);
  ([4; 0; 0; 0; 0; 0; 0; 0; 0; 0; 0; 0; 0; 0; 0; 0; 0], 2, 26, false, 1);
  ([4; 0; 0; 0; 0; 0; 0; 0; 0; 0; 0; 0; 0; 0; 0; 0; 0], 2, 25, false, 1);
  ([4; 0; 0; 0; 0; 0; 0; 0; 0; 0; 0; 0; 0; 0; 0; 0; 0], 2, 24, false, 1);
  ([4; 0; 0; 0; 0; 0; 0; 0; 0; 0; 0; 0; 0; 0; 0; 0; 0], 2, 23, false, 1);
  ([4; 0; 0; 0; 0; 0; 0; 0; 0; 0; 0; 0; 0; 0; 0; 0; 0], 2, 22, false, 1);
  ([4; 0; 0; 0; 0; 0; 0; 0; 0; 0; 0; 0; 0; 0; 0; 0; 0], 2, 21, false, 1);
  ([4; 0; 0; 0; 0; 0; 0; 0; 0; 0; 0; 0; 0; 0; 0; 0; 0], 2, 20, false, 1);
  ([4; 0; 0; 0; 0; 0; 0; 0; 0; 0; 0; 0; 0; 0; 0; 0; 0], 2, 19, false, 1);
  ([4; 0; 0; 0; 0; 0; 0; 0; 0; 0; 0; 0; 0; 0; 0; 0; 0], 2, 18, false, 1);
  ([4; 0; 0; 0; 0; 0; 0; 0; 0; 0; 0; 0; 0; 0; 0; 0; 0], 2, 17, false, 1);
  ([4; 0; 0; 0; 0; 0; 0; 0; 0; 0; 0; 0; 0; 0; 0; 0; 0], 2, 16, false, 1);
  ([4; 0; 0; 0; 0; 0; 0; 0; 0; 0; 0; 0; 0; 0; 0; 0; 0], 2, 15, false, 1);
  ([4; 0; 0; 0; 0; 0; 0; 0; 0; 0; 0; 0; 0; 0; 0; 0; 0], 2, 14, false, 1);
  ([4; 0; 0; 0; 0; 0; 0; 0; 0; 0; 0; 0; 0; 0; 0; 0; 0], 2, 13, false, 1);
  ([4; 0; 0; 0; 0; 0; 0; 0; 0; 0; 0; 0; 0; 0; 0; 0; 0], 2, 12, false, 1);
  ([4; 0; 0; 0; 0; 0; 0; 0; 0; 0; 0; 0; 0; 0; 0; 0; 0], 2, 11, false, 1);
  ([4; 0; 0; 0; 0; 0; 0; 0; 0; 0; 0; 0; 0; 0; 0; 0; 0], 2, 10, false, 1);
  ([4; 0; 0; 0; 0; 0; 0; 0; 0; 0; 0; 0; 0; 0; 0; 0; 0], 2, 9, false, 1);
  ([4; 0; 0; 0; 0; 0; 0; 0; 0; 0; 0; 0; 0; 0; 0; 0; 0], 2, 8, false, 1);
  ([4; 0; 0; 0; 0; 0; 0; 0; 0; 0; 0; 0; 0; 0; 0; 0; 0], 2, 7, false, 1);
  ([4; 0; 0; 0; 0; 0; 0; 0; 0; 0; 0; 0; 0; 0; 0; 0; 0], 2, 6, false, 1);
  ([4; 0; 0; 0; 0; 0; 0; 0; 0; 0; 0; 0; 0; 0; 0; 0; 0], 2, 5, false, 1);
  ([4; 0; 0; 0; 0; 0; 0; 0; 0; 0; 0; 0; 0; 0; 0; 0; 0], 2, 4, false, 1);
  ([4; 0; 0; 0; 0; 0; 0; 0; 0; 0; 0; 0; 0; 0; 0; 0; 0], 2, 3, false, 1);
  ([4; 0; 0; 0; 0; 0; 0; 0; 0; 0; 0; 0; 0; 0; 0; 0; 0], 2, 2, false, 1);
  ([4; 0; 0; 0; 0; 0; 0; 0; 0; 0; 0; 0; 0; 0; 0; 0; 0], 2, 1, false, 1);
  ([2; 0; 0; 0; 0; 0; 0; 0; 0; 0; 0; 0; 0; 0; 0; 0; 0], 1, 64, false, 1);
  ([2; 0; 0; 0; 0; 0; 0; 0; 0; 0; 0; 0; 0; 0; 0; 0; 0], 1, 63, false, 1);
  ([2; 0; 0; 0; 0; 0; 0; 0; 0; 0; 0; 0; 0; 0; 0; 0; 0], 1, 62, false, 1);
  ([2; 0; 0; 0; 0; 0; 0; 0; 0; 0; 0; 0; 0; 0; 0; 0; 0], 1, 61, false, 1);
  ([2; 0; 0; 0; 0; 0; 0; 0; 0; 0; 0; 0; 0; 0; 0; 0; 0], 1, 60, false, 1);
  ([2; 0; 0; 0; 0; 0; 0; 0; 0; 0; 0; 0; 0; 0; 0; 0; 0], 1, 59, false, 1);
  ([2; 0; 0; 0; 0; 0; 0; 0; 0; 0; 0; 0; 0; 0; 0; 0; 0], 1, 58, false, 1);
  ([2; 0; 0; 0; 0; 0; 0; 0; 0; 0; 0; 0; 0; 0; 0; 0; 0], 1, 57, false, 1);
  ([2; 0; 0; 0; 0; 0; 0; 0; 0; 0; 0; 0; 0; 0; 0; 0; 0], 1, 56, false, 1);
  ([2; 0; 0; 0; 0; 0; 0; 0; 0; 0; 0; 0; 0; 0; 0; 0; 0], 1, 55, false, 1);
  ([2; 0; 0; 0; 0; 0; 0; 0; 0; 0; 0; 0; 0; 0; 0; 0; 0], 1, 54, false, 1);
  ([2; 0; 0; 0; 0; 0; 0; 0; 0; 0; 0; 0; 0; 0; 0; 0; 0], 1, 53, false, 1);
  ([2; 0; 0; 0; 0; 0; 0; 0; 0; 0; 0; 0; 0; 0; 0; 0; 0], 1, 52, false, 1);
  ([2; 0; 0; 0; 0; 0; 0; 0; 0; 0; 0; 0; 0; 0; 0; 0; 0], 1, 51, false, 1);
  ([2; 0; 0; 0; 0; 0; 0; 0; 0; 0; 0; 0; 0; 0; 0; 0; 0], 1, 50, false, 1);
  ([2; 0; 0; 0; 0; 0; 0; 0; 0; 0; 0; 0; 0; 0; 0; 0; 0], 1, 49, false, 1);
  ([2; 0; 0; 0; 0; 0; 0; 0; 0; 0; 0; 0; 0; 0; 0; 0; 0], 1, 48, false, 1);
  ([2; 0; 0; 0; 0; 0; 0; 0; 0; 0; 0; 0; 0; 0; 0; 0; 0], 1, 47, false, 1);
  ([2; 0; 0; 0; 0; 0; 0; 0; 0; 0; 0; 0; 0; 0; 0; 0; 0], 1, 46, false, 1);
  ([2; 0; 0; 0; 0; 0; 0; 0; 0; 0; 0; 0; 0; 0; 0; 0; 0], 1, 45, false, 1);
  ([2; 0; 0; 0; 0; 0; 0; 0; 0; 0; 0; 0; 0; 0; 0; 0; 0], 1, 44, false, 1);
  ([2; 0; 0; 0; 0; 0; 0; 0; 0; 0; 0; 0; 0; 0; 0; 0; 0], 1, 43, false, 1);
  ([2; 0; 0; 0; 0; 0; 0; 0; 0; 0; 0; 0; 0; 0; 0; 0; 0], 1, 42, false, 1);
  ([2; 0; 0; 0; 0; 0; 0; 0; 0; 0; 0; 0; 0; 0; 0; 0; 0], 1, 41, false, 1);
  ([2; 0; 0; 0; 0; 0; 0; 0; 0; 0; 0; 0; 0; 0; 0; 0; 0], 1, 40, false, 1);
  ([2; 0; 0; 0; 0; 0; 0; 0; 0; 0; 0; 0; 0; 0; 0; 0; 0], 1, 39, false, 1);
  ([2; 0; 0; 0; 0; 0; 0; 0; 0; 0; 0; 0; 0; 0; 0; 0; 0], 1, 38, false, 1);
  ([2; 0; 0; 0; 0; 0; 0; 0; 0; 0; 0; 0; 0; 0; 0; 0; 0], 1, 37, false, 1);
  ([2; 0; 0; 0; 0; 0; 0; 0; 0; 0; 0; 0; 0; 0; 0; 0; 0], 1, 36, false, 1);
  ([2; 0; 0; 0; 0; 0; 0; 0; 0; 0; 0; 0; 0; 0; 0; 0; 0], 1, 35, false, 1);
  ([2; 0; 0; 0; 0; 0; 0; 0; 0; 0; 0; 0; 0; 0; 0; 0; 0], 1, 34, false, 1);
  ([2; 0; 0; 0; 0; 0; 0; 0; 0; 0; 0; 0; 0; 0; 0; 0; 0], 1, 33, false, 1);
  ([2; 0; 0; 0; 0; 0; 0; 0; 0; 0; 0; 0; 0; 0; 0; 0; 0], 1, 32, false, 1);
  ([2; 0; 0; 0; 0; 0; 0; 0; 0; 0; 0; 0; 0; 0; 0; 0; 0], 1, 31, false, 1);
  ([2; 0; 0; 0; 0; 0; 0; 0; 0; 0; 0; 0; 0; 0; 0; 0; 0], 1, 30, false, 1);
  ([2; 0; 0; 0; 0; 0; 0; 0; 0; 0; 0; 0; 0; 0; 0; 0; 0], 1, 29, false, 1);
  ([2; 0; 0; 0; 0; 0; 0; 0; 0; 0; 0; 0; 0; 0; 0; 0; 0], 1, 28, false, 1);
  ([2; 0; 0; 0; 0; 0; 0; 0; 0; 0; 0; 0; 0; 0; 0; 0; 0], 1, 27, false, 1);
  ([2; 0; 0; 0; 0; 0; 0; 0; 0; 0; 0; 0; 0; 0; 0; 0; 0], 1, 26, false, 1);
  ([2; 0; 0; 0; 0; 0; 0; 0; 0; 0; 0; 0; 0; 0; 0; 0; 0], 1, 25, false, 1);
  ([2; 0; 0; 0; 0; 0; 0; 0; 0; 0; 0; 0; 0; 0; 0; 0; 0], 1, 24, false, 1);
  ([2; 0; 0; 0; 0; 0; 0; 0; 0; 0; 0; 0; 0; 0; 0; 0; 0], 1, 23, false, 1);
  ([2; 0; 0; 0; 0; 0; 0; 0; 0; 0; 0; 0; 0; 0; 0; 0; 0], 1, 22, false, 1);
  ([2; 0; 0; 0; 0; 0; 0; 0; 0; 0; 0; 0; 0; 0; 0; 0; 0], 1, 21, false, 1);
  ([2; 0; 0; 0; 0; 0; 0; 0; 0; 0; 0; 0; 0; 0; 0; 0; 0], 1, 20, false, 1);
  ([2; 0; 0; 0; 0; 0; 0; 0; 0; 0; 0; 0; 0; 0; 0; 0; 0], 1, 19, false, 1);
  ([2; 0; 0; 0; 0; 0; 0; 0; 0; 0; 0; 0; 0; 0; 0; 0; 0], 1, 18, false, 1);
  ([2; 0; 0; 0; 0; 0; 0; 0; 0; 0; 0; 0; 0; 0; 0; 0; 0], 1, 17, false, 1);
  ([2; 0; 0; 0; 0; 0; 0; 0; 0; 0; 0; 0; 0; 0; 0; 0; 0], 1, 16, false, 1);
  ([2; 0; 0; 0; 0; 0; 0; 0; 0; 0; 0; 0; 0; 0; 0; 0; 0], 1, 15, false, 1);
  ([2; 0; 0; 0; 0; 0; 0; 0; 0; 0; 0; 0; 0; 0; 0; 0; 0], 1, 14, false, 1);
  ([2; 0; 0; 0; 0; 0; 0; 0; 0; 0; 0; 0; 0; 0; 0; 0; 0], 1, 13, false, 1);
  ([2; 0; 0; 0; 0; 0; 0; 0; 0; 0; 0; 0; 0; 0; 0; 0; 0], 1, 12, false, 1);
  ([2; 0; 0; 0; 0; 0; 0; 0; 0; 0; 0; 0; 0; 0; 0; 0; 0], 1, 11, false, 1);
  ([2; 0; 0; 0; 0; 0; 0; 0; 0; 0; 0; 0; 0; 0; 0; 0; 0], 1, 10, false, 1);
  ([2; 0; 0; 0; 0; 0; 0; 0; 0; 0; 0; 0; 0; 0; 0; 0; 0], 1, 9, false, 1);
  ([2; 0; 0; 0; 0; 0; 0; 0; 0; 0; 0; 0; 0; 0; 0; 0; 0], 1, 8, false, 1);
  ([2; 0; 0; 0; 0; 0; 0; 0; 0; 0; 0; 0; 0; 0; 0; 0; 0], 1, 7, false, 1);
  ([2; 0; 0; 0; 0; 0; 0; 0; 0; 0; 0; 0; 0; 0; 0; 0; 0], 1, 6, false, 1);
  ([2; 0; 0; 0; 0; 0; 0; 0; 0; 0; 0; 0; 0; 0; 0; 0; 0], 1, 5, false, 1);
  ([2; 0; 0; 0; 0; 0; 0; 0; 0; 0; 0; 0; 0; 0; 0; 0; 0], 1, 4, false, 1);
  ([2; 0; 0; 0; 0; 0; 0; 0; 0; 0; 0; 0; 0; 0; 0; 0; 0], 1, 3, false, 1);
  ([2; 0; 0; 0; 0; 0; 0; 0; 0; 0; 0; 0; 0; 0; 0; 0; 0], 1, 2, false, 1);
  ([2; 0; 0; 0; 0; 0; 0; 0; 0; 0; 0; 0; 0; 0; 0; 0; 0], 1, 1, false, 1);
  ([1; 0; 0; 0; 0; 0; 0; 0; 0; 0; 0; 0; 0; 0; 0; 0], 0, 64, false, 1);
  ([1; 0; 0; 0; 0; 0; 0; 0; 0; 0; 0; 0; 0; 0; 0; 0], 0, 63, false, 1);
  ([1; 0; 0; 0; 0; 0; 0; 0; 0; 0; 0; 0; 0; 0; 0; 0], 0, 62, false, 1);
  ([1; 0; 0; 0; 0; 0; 0; 0; 0; 0; 0; 0; 0; 0; 0; 0], 0, 61, false, 1);
  ([1; 0; 0; 0; 0; 0; 0; 0; 0; 0; 0; 0; 0; 0; 0; 0], 0, 60, false, 1);
  ([1; 0; 0; 0; 0; 0; 0; 0; 0; 0; 0; 0; 0; 0; 0; 0], 0, 59, false, 1);
  ([1; 0; 0; 0; 0; 0; 0; 0; 0; 0; 0; 0; 0; 0; 0; 0], 0, 58, false, 1);
  ([1; 0; 0; 0; 0; 0; 0; 0; 0; 0; 0; 0; 0; 0; 0; 0], 0, 57, false, 1);
  ([1; 0; 0; 0; 0; 0; 0; 0; 0; 0; 0; 0; 0; 0; 0; 0], 0, 56, false, 1);
  ([1; 0; 0; 0; 0; 0; 0; 0; 0; 0; 0; 0; 0; 0; 0; 0], 0, 55, false, 1);
  ([1; 0; 0; 0; 0; 0; 0; 0; 0; 0; 0; 0; 0; 0; 0; 0], 0, 54, false, 1);
  ([1; 0; 0; 0; 0; 0; 0; 0; 0; 0; 0; 0; 0; 0; 0; 0], 0, 53, false, 1);
  ([1; 0; 0; 0; 0; 0; 0; 0; 0; 0; 0; 0; 0; 0; 0; 0], 0, 52, false, 1);
  ([1; 0; 0; 0; 0; 0; 0; 0; 0; 0; 0; 0; 0; 0; 0; 0], 0, 51, false, 1);
  ([1; 0; 0; 0; 0; 0; 0; 0; 0; 0; 0; 0; 0; 0; 0; 0], 0, 50, false, 1);
  ([1; 0; 0; 0; 0; 0; 0; 0; 0; 0; 0; 0; 0; 0; 0; 0], 0, 49, false, 1);
  ([1; 0; 0; 0; 0; 0; 0; 0; 0; 0; 0; 0; 0; 0; 0; 0], 0, 48, false, 1);
  ([1; 0; 0; 0; 0; 0; 0; 0; 0; 0; 0; 0; 0; 0; 0; 0], 0, 47, false, 1);
  ([1; 0; 0; 0; 0; 0; 0; 0; 0; 0; 0; 0; 0; 0; 0; 0], 0, 46, false, 1);
  ([1; 0; 0; 0; 0; 0; 0; 0; 0; 0; 0; 0; 0; 0; 0; 0], 0, 45, false, 1);
  ([1; 0; 0; 0; 0; 0; 0; 0; 0; 0; 0; 0; 0; 0; 0; 0], 0, 44, false, 1);
  ([1; 0; 0; 0; 0; 0; 0; 0; 0; 0; 0; 0; 0; 0; 0; 0], 0, 43, false, 1);
  ([1; 0; 0; 0; 0; 0; 0; 0; 0; 0; 0; 0; 0; 0; 0; 0], 0, 42, false, 1);
  ([1; 0; 0; 0; 0; 0; 0; 0; 0; 0; 0; 0; 0; 0; 0; 0], 0, 41, false, 1);
  ([1; 0; 0; 0; 0; 0; 0; 0; 0; 0; 0; 0; 0; 0; 0; 0], 0, 40, false, 1);
  ([1; 0; 0; 0; 0; 0; 0; 0; 0; 0; 0; 0; 0; 0; 0; 0], 0, 39, false, 1);
  ([1; 0; 0; 0; 0; 0; 0; 0; 0; 0; 0; 0; 0; 0; 0; 0], 0, 38, false, 1);
  ([1; 0; 0; 0; 0; 0; 0; 0; 0; 0; 0; 0; 0; 0; 0; 0], 0, 37, false, 1);
  ([1; 0; 0; 0; 0; 0; 0; 0; 0; 0; 0; 0; 0; 0; 0; 0], 0, 36, false, 1);
  ([1; 0; 0; 0; 0; 0; 0; 0; 0; 0; 0; 0; 0; 0; 0; 0], 0, 35, false, 1);
  ([1; 0; 0; 0; 0; 0; 0; 0; 0; 0; 0; 0; 0; 0; 0; 0], 0, 34, false, 1);
  ([1; 0; 0; 0; 0; 0; 0; 0; 0; 0; 0; 0; 0; 0; 0; 0], 0, 33, false, 1);
  ([1; 0; 0; 0; 0; 0; 0; 0; 0; 0; 0; 0; 0; 0; 0; 0], 0, 32, false, 1);
  ([1; 0; 0; 0; 0; 0; 0; 0; 0; 0; 0; 0; 0; 0; 0; 0], 0, 31, false, 1);
  ([1; 0; 0; 0; 0; 0; 0; 0; 0; 0; 0; 0; 0; 0; 0; 0], 0, 30, false, 1);
  ([1; 0; 0; 0; 0; 0; 0; 0; 0; 0; 0; 0; 0; 0; 0; 0], 0, 29, false, 1);
  ([1; 0; 0; 0; 0; 0; 0; 0; 0; 0; 0; 0; 0; 0; 0; 0], 0, 28, false, 1);
  ([1; 0; 0; 0; 0; 0; 0; 0; 0; 0; 0; 0; 0; 0; 0; 0], 0, 27, false, 1);
  ([1; 0; 0; 0; 0; 0; 0; 0; 0; 0; 0; 0; 0; 0; 0; 0], 0, 26, false, 1);
  ([1; 0; 0; 0; 0; 0; 0; 0; 0; 0; 0; 0; 0; 0; 0; 0], 0, 25, false, 1);
  ([1; 0; 0; 0; 0; 0; 0; 0; 0; 0; 0; 0; 0; 0; 0; 0], 0, 24, false, 1);
  ([1; 0; 0; 0; 0; 0; 0; 0; 0; 0; 0; 0; 0; 0; 0; 0], 0, 23, false, 1);
  ([1; 0; 0; 0; 0; 0; 0; 0; 0; 0; 0; 0; 0; 0; 0; 0], 0, 22, false, 1);
  ([1; 0; 0; 0; 0; 0; 0; 0; 0; 0; 0; 0; 0; 0; 0; 0], 0, 21, false, 1);
  ([1; 0; 0; 0; 0; 0; 0; 0; 0; 0; 0; 0; 0; 0; 0; 0], 0, 20, false, 1);
  ([1; 0; 0; 0; 0; 0; 0; 0; 0; 0; 0; 0; 0; 0; 0; 0], 0, 19, false, 1);
  ([1; 0; 0; 0; 0; 0; 0; 0; 0; 0; 0; 0; 0; 0; 0; 0], 0, 18, false, 1);
  ([1; 0; 0; 0; 0; 0; 0; 0; 0; 0; 0; 0; 0; 0; 0; 0], 0, 17, false, 1);
  ([1; 0; 0; 0; 0; 0; 0; 0; 0; 0; 0; 0; 0; 0; 0; 0], 0, 16, false, 1);
  ([1; 0; 0; 0; 0; 0; 0; 0; 0; 0; 0; 0; 0; 0; 0; 0], 0, 15, false, 1);
  ([1; 0; 0; 0; 0; 0; 0; 0; 0; 0; 0; 0; 0; 0; 0; 0], 0, 14, false, 1);
  ([1; 0; 0; 0; 0; 0; 0; 0; 0; 0; 0; 0; 0; 0; 0; 0], 0, 13, false, 1);
  ([1; 0; 0; 0; 0; 0; 0; 0; 0; 0; 0; 0; 0; 0; 0; 0], 0, 12, false, 1);
  ([1; 0; 0; 0; 0; 0; 0; 0; 0; 0; 0; 0; 0; 0; 0; 0], 0, 11, false, 1);
  ([1; 0; 0; 0; 0; 0; 0; 0; 0; 0; 0; 0; 0; 0; 0; 0], 0, 10, false, 1);
  ([1; 0; 0; 0; 0; 0; 0; 0; 0; 0; 0; 0; 0; 0; 0; 0], 0, 9, false, 1);
  ([1; 0; 0; 0; 0; 0; 0; 0; 0; 0; 0; 0; 0; 0; 0; 0], 0, 8, false, 1);
  ([1; 0; 0; 0; 0; 0; 0; 0; 0; 0; 0; 0; 0; 0; 0; 0], 0, 7, false, 1);
  ([1; 0; 0; 0; 0; 0; 0; 0; 0; 0; 0; 0; 0; 0; 0; 0], 0, 6, false, 1);
  ([1; 0; 0; 0; 0; 0; 0; 0; 0; 0; 0; 0; 0; 0; 0; 0], 0, 5, false, 1);
  ([1; 0; 0; 0; 0; 0; 0; 0; 0; 0; 0; 0; 0; 0; 0; 0], 0, 4, false, 1);
  ([1; 0; 0; 0; 0; 0; 0; 0; 0; 0; 0; 0; 0; 0; 0; 0], 0, 3, false, 1);
  ([1; 0; 0; 0; 0; 0; 0; 0; 0; 0; 0; 0; 0; 0; 0; 0], 0, 2, false, 1);
  ([1; 0; 0; 0; 0; 0; 0; 0; 0; 0; 0; 0; 0; 0; 0; 0], 0, 1, false, 1);
  ([248; 255; 7; 0; 0; 0; 0; 0; 0; 0; 0; 0; 0], 3, 16, true, (-1));
  ([240; 255; 7; 0; 0; 0; 0; 0; 0; 0; 0; 0; 0], 3, 16, true, (-2));
  ([224; 255; 7; 0; 0; 0; 0; 0; 0; 0; 0; 0; 0], 3, 16, true, (-4));
  ([192; 255; 7; 0; 0; 0; 0; 0; 0; 0; 0; 0; 0], 3, 16, true, (-8));
  ([128; 255; 7; 0; 0; 0; 0; 0; 0; 0; 0; 0; 0], 3, 16, true, (-16));
  ([0; 255; 7; 0; 0; 0; 0; 0; 0; 0; 0; 0; 0], 3, 16, true, (-32));
  ([0; 254; 7; 0; 0; 0; 0; 0; 0; 0; 0; 0; 0], 3, 16, true, (-64));
  ([0; 252; 7; 0; 0; 0; 0; 0; 0; 0; 0; 0; 0], 3, 16, true, (-128));
  ([0; 248; 7; 0; 0; 0; 0; 0; 0; 0; 0; 0; 0], 3, 16, true, (-256));
  ([0; 240; 7; 0; 0; 0; 0; 0; 0; 0; 0; 0; 0], 3, 16, true, (-512));
  ([0; 224; 7; 0; 0; 0; 0; 0; 0; 0; 0; 0; 0], 3, 16, true, (-1024));
  ([0; 192; 7; 0; 0; 0; 0; 0; 0; 0; 0; 0; 0], 3, 16, true, (-2048));
  ([0; 128; 7; 0; 0; 0; 0; 0; 0; 0; 0; 0; 0], 3, 16, true, (-4096));
  ([0; 0; 7; 0; 0; 0; 0; 0; 0; 0; 0; 0; 0], 3, 16, true, (-8192));
  ([0; 0; 6; 0; 0; 0; 0; 0; 0; 0; 0; 0; 0], 3, 16, true, (-16384));
  ([8; 0; 0; 0; 0; 0; 0; 0; 0; 0; 0; 0; 0], 3, 16, true, 1);
  ([16; 0; 0; 0; 0; 0; 0; 0; 0; 0; 0; 0; 0], 3, 16, true, 2);
  ([32; 0; 0; 0; 0; 0; 0; 0; 0; 0; 0; 0; 0], 3, 16, true, 4);
  ([64; 0; 0; 0; 0; 0; 0; 0; 0; 0; 0; 0; 0], 3, 16, true, 8);
  ([128; 0; 0; 0; 0; 0; 0; 0; 0; 0; 0; 0; 0], 3, 16, true, 16);
  ([0; 1; 0; 0; 0; 0; 0; 0; 0; 0; 0; 0; 0], 3, 16, true, 32);
  ([0; 2; 0; 0; 0; 0; 0; 0; 0; 0; 0; 0; 0], 3, 16, true, 64);
  ([0; 4; 0; 0; 0; 0; 0; 0; 0; 0; 0; 0; 0], 3, 16, true, 128);
  ([0; 8; 0; 0; 0; 0; 0; 0; 0; 0; 0; 0; 0], 3, 16, true, 256);
  ([0; 16; 0; 0; 0; 0; 0; 0; 0; 0; 0; 0; 0], 3, 16, true, 512);
  ([0; 32; 0; 0; 0; 0; 0; 0; 0; 0; 0; 0; 0], 3, 16, true, 1024);
  ([0; 64; 0; 0; 0; 0; 0; 0; 0; 0; 0; 0; 0], 3, 16, true, 2048);
  ([0; 128; 0; 0; 0; 0; 0; 0; 0; 0; 0; 0; 0], 3, 16, true, 4096);
  ([0; 0; 1; 0; 0; 0; 0; 0; 0; 0; 0; 0; 0], 3, 16, true, 8192);
  ([0; 0; 2; 0; 0; 0; 0; 0; 0; 0; 0; 0; 0], 3, 16, true, 16384);
  ([0; 0; 0; 0; 0; 0; 0; 0; 0; 0; 0; 0; 0], 3, 2, true, 0)].
Definition write_vectors : list (list Z * Z * Z * bool * Z) :=
 [([0; 1; 0; 0; 0; 0; 0; 0; 0; 0], 8, 8, false, 1);
  ([0; 1; 0; 0; 0; 0; 0; 0; 0; 0], 8, 7, false, 1);
  ([0; 1; 0; 0; 0; 0; 0; 0; 0; 0], 8, 6, false, 1);
  ([0; 1; 0; 0; 0; 0; 0; 0; 0; 0], 8, 5, false, 1);
  ([0; 1; 0; 0; 0; 0; 0; 0; 0; 0], 8, 4, false, 1);
  ([0; 1; 0; 0; 0; 0; 0; 0; 0; 0], 8, 3, false, 1);
  ([0; 1; 0; 0; 0; 0; 0; 0; 0; 0], 8, 2, false, 1);
  ([0; 1; 0; 0; 0; 0; 0; 0; 0; 0], 8, 1, false, 1);
  ([128; 0; 0; 0; 0; 0; 0; 0; 0; 0], 7, 8, false, 1);
  ([128; 0; 0; 0; 0; 0; 0; 0; 0; 0], 7, 7, false, 1);
  ([128; 0; 0; 0; 0; 0; 0; 0; 0; 0], 7, 6, false, 1);
  ([128; 0; 0; 0; 0; 0; 0; 0; 0; 0], 7, 5, false, 1);
  ([128; 0; 0; 0; 0; 0; 0; 0; 0; 0], 7, 4, false, 1);
  ([128; 0; 0; 0; 0; 0; 0; 0; 0; 0], 7, 3, false, 1);
  ([128; 0; 0; 0; 0; 0; 0; 0; 0; 0], 7, 2, false, 1);
  ([128; 0; 0; 0; 0; 0; 0; 0; 0; 0], 7, 1, false, 1);
  ([64; 0; 0; 0; 0; 0; 0; 0; 0; 0], 6, 8, false, 1);
  ([64; 0; 0; 0; 0; 0; 0; 0; 0; 0], 6, 7, false, 1);
  ([64; 0; 0; 0; 0; 0; 0; 0; 0; 0], 6, 6, false, 1);
  ([64; 0; 0; 0; 0; 0; 0; 0; 0; 0], 6, 5, false, 1);
  ([64; 0; 0; 0; 0; 0; 0; 0; 0; 0], 6, 4, false, 1);
  ([64; 0; 0; 0; 0; 0; 0; 0; 0; 0], 6, 3, false, 1);
  ([64; 0; 0; 0; 0; 0; 0; 0; 0; 0], 6, 2, false, 1);
  ([64; 0; 0; 0; 0; 0; 0; 0; 0; 0], 6, 1, false, 1);
  ([32; 0; 0; 0; 0; 0; 0; 0; 0; 0], 5, 8, false, 1);
  ([32; 0; 0; 0; 0; 0; 0; 0; 0; 0], 5, 7, false, 1);
  ([32; 0; 0; 0; 0; 0; 0; 0; 0; 0], 5, 6, false, 1);
  ([32; 0; 0; 0; 0; 0; 0; 0; 0; 0], 5, 5, false, 1);
  ([32; 0; 0; 0; 0; 0; 0; 0; 0; 0], 5, 4, false, 1);
  ([32; 0; 0; 0; 0; 0; 0; 0; 0; 0], 5, 3, false, 1);
  ([32; 0; 0; 0; 0; 0; 0; 0; 0; 0], 5, 2, false, 1);
  ([32; 0; 0; 0; 0; 0; 0; 0; 0; 0], 5, 1, false, 1);
  ([16; 0; 0; 0; 0; 0; 0; 0; 0; 0], 4, 8, false, 1);
  ([16; 0; 0; 0; 0; 0; 0; 0; 0; 0], 4, 7, false, 1);
  ([16; 0; 0; 0; 0; 0; 0; 0; 0; 0], 4, 6, false, 1);
  ([16; 0; 0; 0; 0; 0; 0; 0; 0; 0], 4, 5, false, 1);
  ([16; 0; 0; 0; 0; 0; 0; 0; 0; 0], 4, 4, false, 1);
  ([16; 0; 0; 0; 0; 0; 0; 0; 0; 0], 4, 3, false, 1);
  ([16; 0; 0; 0; 0; 0; 0; 0; 0; 0], 4, 2, false, 1);
  ([16; 0; 0; 0; 0; 0; 0; 0; 0; 0], 4, 1, false, 1);
  ([8; 0; 0; 0; 0; 0; 0; 0; 0; 0], 3, 8, false, 1);
  ([8; 0; 0; 0; 0; 0; 0; 0; 0; 0], 3, 7, false, 1);
  ([8; 0; 0; 0; 0; 0; 0; 0; 0; 0], 3, 6, false, 1);
  ([8; 0; 0; 0; 0; 0; 0; 0; 0; 0], 3, 5, false, 1);
  ([8; 0; 0; 0; 0; 0; 0; 0; 0; 0], 3, 4, false, 1);
  ([8; 0; 0; 0; 0; 0; 0; 0; 0; 0], 3, 3, false, 1);
  ([8; 0; 0; 0; 0; 0; 0; 0; 0; 0], 3, 2, false, 1);
  ([8; 0; 0; 0; 0; 0; 0; 0; 0; 0], 3, 1, false, 1);
  ([4; 0; 0; 0; 0; 0; 0; 0; 0; 0], 2, 8, false, 1);
  ([4; 0; 0; 0; 0; 0; 0; 0; 0; 0], 2, 7, false, 1);
  ([4; 0; 0; 0; 0; 0; 0; 0; 0; 0], 2, 6, false, 1);
  ([4; 0; 0; 0; 0; 0; 0; 0; 0; 0], 2, 5, false, 1);
  ([4; 0; 0; 0; 0; 0; 0; 0; 0; 0], 2, 4, false, 1);
  ([4; 0; 0; 0; 0; 0; 0; 0; 0; 0], 2, 3, false, 1);
  ([4; 0; 0; 0; 0; 0; 0; 0; 0; 0], 2, 2, false, 1);
  ([4; 0; 0; 0; 0; 0; 0; 0; 0; 0], 2, 1, false, 1);
  ([2; 0; 0; 0; 0; 0; 0; 0; 0; 0], 1, 8, false, 1);
  ([2; 0; 0; 0; 0; 0; 0; 0; 0; 0], 1, 7, false, 1);
  ([2; 0; 0; 0; 0; 0; 0; 0; 0; 0], 1, 6, false, 1);
  ([2; 0; 0; 0; 0; 0; 0; 0; 0; 0], 1, 5, false, 1);
  ([2; 0; 0; 0; 0; 0; 0; 0; 0; 0], 1, 4, false, 1);
  ([2; 0; 0; 0; 0; 0; 0; 0; 0; 0], 1, 3, false, 1);
  ([2; 0; 0; 0; 0; 0; 0; 0; 0; 0], 1, 2, false, 1);
  ([2; 0; 0; 0; 0; 0; 0; 0; 0; 0], 1, 1, false, 1);
  ([1; 0; 0; 0; 0; 0; 0; 0; 0], 0, 8, false, 1);
  ([1; 0; 0; 0; 0; 0; 0; 0; 0], 0, 7, false, 1);
  ([1; 0; 0; 0; 0; 0; 0; 0; 0], 0, 6, false, 1);
  ([1; 0; 0; 0; 0; 0; 0; 0; 0], 0, 5, false, 1);
  ([1; 0; 0; 0; 0; 0; 0; 0; 0], 0, 4, false, 1);
  ([1; 0; 0; 0; 0; 0; 0; 0; 0], 0, 3, false, 1);
  ([1; 0; 0; 0; 0; 0; 0; 0; 0], 0, 2, false, 1);
  ([1; 0; 0; 0; 0; 0; 0; 0; 0], 0, 1, false, 1);
  ([0; 1; 0; 0; 0; 0; 0; 0; 0; 0; 0], 8, 16, false, 1);
  ([0; 1; 0; 0; 0; 0; 0; 0; 0; 0; 0], 8, 15, false, 1);
  ([0; 1; 0; 0; 0; 0; 0; 0; 0; 0; 0], 8, 14, false, 1);
  ([0; 1; 0; 0; 0; 0; 0; 0; 0; 0; 0], 8, 13, false, 1);
  ([0; 1; 0; 0; 0; 0; 0; 0; 0; 0; 0], 8, 12, false, 1);
  ([0; 1; 0; 0; 0; 0; 0; 0; 0; 0; 0], 8, 11, false, 1);
  ([0; 1; 0; 0; 0; 0; 0; 0; 0; 0; 0], 8, 10, false, 1);
  ([0; 1; 0; 0; 0; 0; 0; 0; 0; 0; 0], 8, 9, false, 1);
  ([0; 1; 0; 0; 0; 0; 0; 0; 0; 0; 0], 8, 8, false, 1);
  ([0; 1; 0; 0; 0; 0; 0; 0; 0; 0; 0], 8, 7, false, 1);
  ([0; 1; 0; 0; 0; 0; 0; 0; 0; 0; 0], 8, 6, false, 1);
  ([0; 1; 0; 0; 0; 0; 0; 0; 0; 0; 0], 8, 5, false, 1);
  ([0; 1; 0; 0; 0; 0; 0; 0; 0; 0; 0], 8, 4, false, 1);
  ([0; 1; 0; 0; 0; 0; 0; 0; 0; 0; 0], 8, 3, false, 1);
  ([0; 1; 0; 0; 0; 0; 0; 0; 0; 0; 0], 8, 2, false, 1);
  ([0; 1; 0; 0; 0; 0; 0; 0; 0; 0; 0], 8, 1, false, 1);
  ([128; 0; 0; 0; 0; 0; 0; 0; 0; 0; 0], 7, 16, false, 1);
  ([128; 0; 0; 0; 0; 0; 0; 0; 0; 0; 0], 7, 15, false, 1);
  ([128; 0; 0; 0; 0; 0; 0; 0; 0; 0; 0], 7, 14, false, 1);
  ([128; 0; 0; 0; 0; 0; 0; 0; 0; 0; 0], 7, 13, false, 1);
  ([128; 0; 0; 0; 0; 0; 0; 0; 0; 0; 0], 7, 12, false, 1);
  ([128; 0; 0; 0; 0; 0; 0; 0; 0; 0; 0], 7, 11, false, 1);
  ([128; 0; 0; 0; 0; 0; 0; 0; 0; 0; 0], 7, 10, false, 1);
  ([128; 0; 0; 0; 0; 0; 0; 0; 0; 0; 0], 7, 9, false, 1);
  ([128; 0; 0; 0; 0; 0; 0; 0; 0; 0; 0], 7, 8, false, 1);
  ([128; 0; 0; 0; 0; 0; 0; 0; 0; 0; 0], 7, 7, false, 1);
  ([128; 0; 0; 0; 0; 0; 0; 0; 0; 0; 0], 7, 6, false, 1);
  ([128; 0; 0; 0; 0; 0; 0; 0; 0; 0; 0], 7, 5, false, 1);
  ([128; 0; 0; 0; 0; 0; 0; 0; 0; 0; 0], 7, 4, false, 1);
  ([128; 0; 0; 0; 0; 0; 0; 0; 0; 0; 0], 7, 3, false, 1);
  ([128; 0; 0; 0; 0; 0; 0; 0; 0; 0; 0], 7, 2, false, 1);
  ([128; 0; 0; 0; 0; 0; 0; 0; 0; 0; 0], 7, 1, false, 1);
  ([64; 0; 0; 0; 0; 0; 0; 0; 0; 0; 0], 6, 16, false, 1);
  ([64; 0; 0; 0; 0; 0; 0; 0; 0; 0; 0], 6, 15, false, 1);
  ([64; 0; 0; 0; 0; 0; 0; 0; 0; 0; 0], 6, 14, false, 1);
  ([64; 0; 0; 0; 0; 0; 0; 0; 0; 0; 0], 6, 13, false, 1);
  ([64; 0; 0; 0; 0; 0; 0; 0; 0; 0; 0], 6, 12, false, 1);
  ([64; 0; 0; 0; 0; 0; 0; 0; 0; 0; 0], 6, 11, false, 1);
  ([64; 0; 0; 0; 0; 0; 0; 0; 0; 0; 0], 6, 10, false, 1);
  ([64; 0; 0; 0; 0; 0; 0; 0; 0; 0; 0], 6, 9, false, 1);
  ([64; 0; 0; 0; 0; 0; 0; 0; 0; 0; 0], 6, 8, false, 1);
  ([64; 0; 0; 0; 0; 0; 0; 0; 0; 0; 0], 6, 7, false, 1);
  ([64; 0; 0; 0; 0; 0; 0; 0; 0; 0; 0], 6, 6, false, 1);
  ([64; 0; 0; 0; 0; 0; 0; 0; 0; 0; 0], 6, 5, false, 1);
  ([64; 0; 0; 0; 0; 0; 0; 0; 0; 0; 0], 6, 4, false, 1);
  ([64; 0; 0; 0; 0; 0; 0; 0; 0; 0; 0], 6, 3, false, 1);
  ([64; 0; 0; 0; 0; 0; 0; 0; 0; 0; 0], 6, 2, false, 1);
  ([64; 0; 0; 0; 0; 0; 0; 0; 0; 0; 0], 6, 1, false, 1);
  ([32; 0; 0; 0; 0; 0; 0; 0; 0; 0; 0], 5, 16, false, 1);
  ([32; 0; 0; 0; 0; 0; 0; 0; 0; 0; 0], 5, 15, false, 1);
  ([32; 0; 0; 0; 0; 0; 0; 0; 0; 0; 0], 5, 14, false, 1);
  ([32; 0; 0; 0; 0; 0; 0; 0; 0; 0; 0], 5, 13, false, 1);
  ([32; 0; 0; 0; 0; 0; 0; 0; 0; 0; 0], 5, 12, false, 1);
  ([32; 0; 0; 0; 0; 0; 0; 0; 0; 0; 0], 5, 11, false, 1);
  ([32; 0; 0; 0; 0; 0; 0; 0; 0; 0; 0], 5, 10, false, 1);
  ([32; 0; 0; 0; 0; 0; 0; 0; 0; 0; 0], 5, 9, false, 1);
  ([32; 0; 0; 0; 0; 0; 0; 0; 0; 0; 0], 5, 8, false, 1);
  ([32; 0; 0; 0; 0; 0; 0; 0; 0; 0; 0], 5, 7, false, 1);
  ([32; 0; 0; 0; 0; 0; 0; 0; 0; 0; 0], 5, 6, false, 1);
  ([32; 0; 0; 0; 0; 0; 0; 0; 0; 0; 0], 5, 5, false, 1);
  ([32; 0; 0; 0; 0; 0; 0; 0; 0; 0; 0], 5, 4, false, 1);
  ([32; 0; 0; 0; 0; 0; 0; 0; 0; 0; 0], 5, 3, false, 1);
  ([32; 0; 0; 0; 0; 0; 0; 0; 0; 0; 0], 5, 2, false, 1);
  ([32; 0; 0; 0; 0; 0; 0; 0; 0; 0; 0], 5, 1, false, 1);
  ([16; 0; 0; 0; 0; 0; 0; 0; 0; 0; 0], 4, 16, false, 1);
  ([16; 0; 0; 0; 0; 0; 0; 0; 0; 0; 0], 4, 15, false, 1);
  ([16; 0; 0; 0; 0; 0; 0; 0; 0; 0; 0], 4, 14, false, 1);
  ([16; 0; 0; 0; 0; 0; 0; 0; 0; 0; 0], 4, 13, false, 1);
  ([16; 0; 0; 0; 0; 0; 0; 0; 0; 0; 0], 4, 12, false, 1);
  ([16; 0; 0; 0; 0; 0; 0; 0; 0; 0; 0], 4, 11, false, 1);
  ([16; 0; 0; 0; 0; 0; 0; 0; 0; 0; 0], 4, 10, false, 1);
  ([16; 0; 0; 0; 0; 0; 0; 0; 0; 0; 0], 4, 9, false, 1);
  ([16; 0; 0; 0; 0; 0; 0; 0; 0; 0; 0], 4, 8, false, 1);
  ([16; 0; 0; 0; 0; 0; 0; 0; 0; 0; 0], 4, 7, false, 1);
  ([16; 0; 0; 0; 0; 0; 0; 0; 0; 0; 0], 4, 6, false, 1);
  ([16; 0; 0; 0; 0; 0; 0; 0; 0; 0; 0], 4, 5, false, 1);
  ([16; 0; 0; 0; 0; 0; 0; 0; 0; 0; 0], 4, 4, false, 1);
  ([16; 0; 0; 0; 0; 0; 0; 0; 0; 0; 0], 4, 3, false, 1);
  ([16; 0; 0; 0; 0; 0; 0; 0; 0; 0; 0], 4, 2, false, 1);
  ([16; 0; 0; 0; 0; 0; 0; 0; 0; 0; 0], 4, 1, false, 1);
  ([8; 0; 0; 0; 0; 0; 0; 0; 0; 0; 0], 3, 16, false, 1);
  ([8; 0; 0; 0; 0; 0; 0; 0; 0; 0; 0], 3, 15, false, 1);
  ([8; 0; 0; 0; 0; 0; 0; 0; 0; 0; 0], 3, 14, false, 1);
  ([8; 0; 0; 0; 0; 0; 0; 0; 0; 0; 0], 3, 13, false, 1);
  ([8; 0; 0; 0; 0; 0; 0; 0; 0; 0; 0], 3, 12, false, 1);
  ([8; 0; 0; 0; 0; 0; 0; 0; 0; 0; 0], 3, 11, false, 1);
  ([8; 0; 0; 0; 0; 0; 0; 0; 0; 0; 0], 3, 10, false, 1);
  ([8; 0; 0; 0; 0; 0; 0; 0; 0; 0; 0], 3, 9, false, 1);
  ([8; 0; 0; 0; 0; 0; 0; 0; 0; 0; 0], 3, 8, false, 1);
  ([8; 0; 0; 0; 0; 0; 0; 0; 0; 0; 0], 3, 7, false, 1);
  ([8; 0; 0; 0; 0; 0; 0; 0; 0; 0; 0], 3, 6, false, 1);
  ([8; 0; 0; 0; 0; 0; 0; 0; 0; 0; 0], 3, 5, false, 1);
  ([8; 0; 0; 0; 0; 0; 0; 0; 0; 0; 0], 3, 4, false, 1);
  ([8; 0; 0; 0; 0; 0; 0; 0; 0; 0; 0], 3, 3, false, 1);
  ([8; 0; 0; 0; 0; 0; 0; 0; 0; 0; 0], 3, 2, false, 1);
  ([8; 0; 0; 0; 0; 0; 0; 0; 0; 0; 0], 3, 1, false, 1);
  ([4; 0; 0; 0; 0; 0; 0; 0; 0; 0; 0], 2, 16, false, 1);
  ([4; 0; 0; 0; 0; 0; 0; 0; 0; 0; 0], 2, 15, false, 1);
  ([4; 0; 0; 0; 0; 0; 0; 0; 0; 0; 0], 2, 14, false, 1);
  ([4; 0; 0; 0; 0; 0; 0; 0; 0; 0; 0], 2, 13, false, 1);
  ([4; 0; 0; 0; 0; 0; 0; 0; 0; 0; 0], 2, 12, false, 1);
  ([4; 0; 0; 0; 0; 0; 0; 0; 0; 0; 0], 2, 11, false, 1);
  ([4; 0; 0; 0; 0; 0; 0; 0; 0; 0; 0], 2, 10, false, 1);
  ([4; 0; 0; 0; 0; 0; 0; 0; 0; 0; 0], 2, 9, false, 1);
  ([4; 0; 0; 0; 0; 0; 0; 0; 0; 0; 0], 2, 8, false, 1);
  ([4; 0; 0; 0; 0; 0; 0; 0; 0; 0; 0], 2, 7, false, 1);
  ([4; 0; 0; 0; 0; 0; 0; 0; 0; 0; 0], 2, 6, false, 1);
  ([4; 0; 0; 0; 0; 0; 0; 0; 0; 0; 0], 2, 5, false, 1);
  ([4; 0; 0; 0; 0; 0; 0; 0; 0; 0; 0], 2, 4, false, 1);
  ([4; 0; 0; 0; 0; 0; 0; 0; 0; 0; 0], 2, 3, false, 1);
  ([4; 0; 0; 0; 0; 0; 0; 0; 0; 0; 0], 2, 2, false, 1);
  ([4; 0; 0; 0; 0; 0; 0; 0; 0; 0; 0], 2, 1, false, 1);
  ([2; 0; 0; 0; 0; 0; 0; 0; 0; 0; 0], 1, 16, false, 1);
  ([2; 0; 0; 0; 0; 0; 0; 0; 0; 0; 0], 1, 15, false, 1);
  ([2; 0; 0; 0; 0; 0; 0; 0; 0; 0; 0], 1, 14, false, 1);
  ([2; 0; 0; 0; 0; 0; 0; 0; 0; 0; 0], 1, 13, false, 1);
  ([2; 0; 0; 0; 0; 0; 0; 0; 0; 0; 0], 1, 12, false, 1);
  ([2; 0; 0; 0; 0; 0; 0; 0; 0; 0; 0], 1, 11, false, 1);
  ([2; 0; 0; 0; 0; 0; 0; 0; 0; 0; 0], 1, 10, false, 1);
  ([2; 0; 0; 0; 0; 0; 0; 0; 0; 0; 0], 1, 9, false, 1);
  ([2; 0; 0; 0; 0; 0; 0; 0; 0; 0; 0], 1, 8, false, 1);
  ([2; 0; 0; 0; 0; 0; 0; 0; 0; 0; 0], 1, 7, false, 1);
  ([2; 0; 0; 0; 0; 0; 0; 0; 0; 0; 0], 1, 6, false, 1);
  ([2; 0; 0; 0; 0; 0; 0; 0; 0; 0; 0], 1, 5, false, 1);
  ([2; 0; 0; 0; 0; 0; 0; 0; 0; 0; 0], 1, 4, false, 1);
  ([2; 0; 0; 0; 0; 0; 0; 0; 0; 0; 0], 1, 3, false, 1);
  ([2; 0; 0; 0; 0; 0; 0; 0; 0; 0; 0], 1, 2, false, 1);
  ([2; 0; 0; 0; 0; 0; 0; 0; 0; 0; 0], 1, 1, false, 1);
  ([1; 0; 0; 0; 0; 0; 0; 0; 0; 0], 0, 16, false, 1);
  ([1; 0; 0; 0; 0; 0; 0; 0; 0; 0], 0, 15, false, 1);
  ([1; 0; 0; 0; 0; 0; 0; 0; 0; 0], 0, 14, false, 1);
  ([1; 0; 0; 0; 0; 0; 0; 0; 0; 0], 0, 13, false, 1);
  ([1; 0; 0; 0; 0; 0; 0; 0; 0; 0], 0, 12, false, 1);
  ([1; 0; 0; 0; 0; 0; 0; 0; 0; 0], 0, 11, false, 1);
  ([1; 0; 0; 0; 0; 0; 0; 0; 0; 0], 0, 10, false, 1);
  ([1; 0; 0; 0; 0; 0; 0; 0; 0; 0], 0, 9, false, 1);
  ([1; 0; 0; 0; 0; 0; 0; 0; 0; 0], 0, 8, false, 1);
  ([1; 0; 0; 0; 0; 0; 0; 0; 0; 0], 0, 7, false, 1);
  ([1; 0; 0; 0; 0; 0; 0; 0; 0; 0], 0, 6, false, 1);
  ([1; 0; 0; 0; 0; 0; 0; 0; 0; 0], 0, 5, false, 1);
  ([1; 0; 0; 0; 0; 0; 0; 0; 0; 0], 0, 4, false, 1);
  ([1; 0; 0; 0; 0; 0; 0; 0; 0; 0], 0, 3, false, 1);
  ([1; 0; 0; 0; 0; 0; 0; 0; 0; 0], 0, 2, false, 1);
  ([1; 0; 0; 0; 0; 0; 0; 0; 0; 0], 0, 1, false, 1);
  ([0; 1; 0; 0; 0; 0; 0; 0; 0; 0; 0; 0; 0], 8, 32, false, 1);
  ([0; 1; 0; 0; 0; 0; 0; 0; 0; 0; 0; 0; 0], 8, 31, false, 1);
  ([0; 1; 0; 0; 0; 0; 0; 0; 0; 0; 0; 0; 0], 8, 30, false, 1);
  ([0; 1; 0; 0; 0; 0; 0; 0; 0; 0; 0; 0; 0], 8, 29, false, 1);
  ([0; 1; 0; 0; 0; 0; 0; 0; 0; 0; 0; 0; 0], 8, 28, false, 1);
  ([0; 1; 0; 0; 0; 0; 0; 0; 0; 0; 0; 0; 0], 8, 27, false, 1);
  ([0; 1; 0; 0; 0; 0; 0; 0; 0; 0; 0; 0; 0], 8, 26, false, 1);
  ([0; 1; 0; 0; 0; 0; 0; 0; 0; 0; 0; 0; 0], 8, 25, false, 1);
  ([0; 1; 0; 0; 0; 0; 0; 0; 0; 0; 0; 0; 0], 8, 24, false, 1);
  ([0; 1; 0; 0; 0; 0; 0; 0; 0; 0; 0; 0; 0], 8, 23, false, 1);
  ([0; 1; 0; 0; 0; 0; 0; 0; 0; 0; 0; 0; 0], 8, 22, false, 1);
  ([0; 1; 0; 0; 0; 0; 0; 0; 0; 0; 0; 0; 0], 8, 21, false, 1);
  ([0; 1; 0; 0; 0; 0; 0; 0; 0; 0; 0; 0; 0], 8, 20, false, 1);
  ([0; 1; 0; 0; 0; 0; 0; 0; 0; 0; 0; 0; 0], 8, 19, false, 1);
  ([0; 1; 0; 0; 0; 0; 0; 0; 0; 0; 0; 0; 0], 8, 18, false, 1);
  ([0; 1; 0; 0; 0; 0; 0; 0; 0; 0; 0; 0; 0], 8, 17, false, 1);
  ([0; 1; 0; 0; 0; 0; 0; 0; 0; 0; 0; 0; 0], 8, 16, false, 1);
  ([0; 1; 0; 0; 0; 0; 0; 0; 0; 0; 0; 0; 0], 8, 15, false, 1);
  ([0; 1; 0; 0; 0; 0; 0; 0; 0; 0; 0; 0; 0], 8, 14, false, 1);
  ([0; 1; 0; 0; 0; 0; 0; 0; 0; 0; 0; 0; 0], 8, 13, false, 1);
  ([0; 1; 0; 0; 0; 0; 0; 0; 0; 0; 0; 0; 0], 8, 12, false, 1);
  ([0; 1; 0; 0; 0; 0; 0; 0; 0; 0; 0; 0; 0], 8, 11, false, 1);
  ([0; 1; 0; 0; 0; 0; 0; 0; 0; 0; 0; 0; 0], 8, 10, false, 1);
  ([0; 1; 0; 0; 0; 0; 0; 0; 0; 0; 0; 0; 0], 8, 9, false, 1);
  ([0; 1; 0; 0; 0; 0; 0; 0; 0; 0; 0; 0; 0], 8, 8, false, 1);
  ([0; 1; 0; 0; 0; 0; 0; 0; 0; 0; 0; 0; 0], 8, 7, false, 1);
  ([0; 1; 0; 0; 0; 0; 0; 0; 0; 0; 0; 0; 0], 8, 6, false, 1);
  ([0; 1; 0; 0; 0; 0; 0; 0; 0; 0; 0; 0; 0], 8, 5, false, 1);
  ([0; 1; 0; 0; 0; 0; 0; 0; 0; 0; 0; 0; 0], 8, 4, false, 1);
  ([0; 1; 0; 0; 0; 0; 0; 0; 0; 0; 0; 0; 0], 8, 3, false, 1);
  ([0; 1; 0; 0; 0; 0; 0; 0; 0; 0; 0; 0; 0], 8, 2, false, 1);
  ([0; 1; 0; 0; 0; 0; 0; 0; 0; 0; 0; 0; 0], 8, 1, false, 1);
  ([128; 0; 0; 0; 0; 0; 0; 0; 0; 0; 0; 0; 0], 7, 32, false, 1);
  ([128; 0; 0; 0; 0; 0; 0; 0; 0; 0; 0; 0; 0], 7, 31, false, 1);
  ([128; 0; 0; 0; 0; 0; 0; 0; 0; 0; 0; 0; 0], 7, 30, false, 1);
  ([128; 0; 0; 0; 0; 0; 0; 0; 0; 0; 0; 0; 0], 7, 29, false, 1);
  ([128; 0; 0; 0; 0; 0; 0; 0; 0; 0; 0; 0; 0], 7, 28, false, 1);
  ([128; 0; 0; 0; 0; 0; 0; 0; 0; 0; 0; 0; 0], 7, 27, false, 1);
  ([128; 0; 0; 0; 0; 0; 0; 0; 0; 0; 0; 0; 0], 7, 26, false, 1);
  ([128; 0; 0; 0; 0; 0; 0; 0; 0; 0; 0; 0; 0], 7, 25, false, 1);
  ([128; 0; 0; 0; 0; 0; 0; 0; 0; 0; 0; 0; 0], 7, 24, false, 1);
  ([128; 0; 0; 0; 0; 0; 0; 0; 0; 0; 0; 0; 0], 7, 23, false, 1);
  ([128; 0; 0; 0; 0; 0; 0; 0; 0; 0; 0; 0; 0], 7, 22, false, 1);
  ([128; 0; 0; 0; 0; 0; 0; 0; 0; 0; 0; 0; 0], 7, 21, false, 1);
  ([128; 0; 0; 0; 0; 0; 0; 0; 0; 0; 0; 0; 0], 7, 20, false, 1);
  ([128; 0; 0; 0; 0; 0; 0; 0; 0; 0; 0; 0; 0], 7, 19, false, 1);
  ([128; 0; 0; 0; 0; 0; 0; 0; 0; 0; 0; 0; 0], 7, 18, false, 1);
  ([128; 0; 0; 0; 0; 0; 0; 0; 0; 0; 0; 0; 0], 7, 17, false, 1);
  ([128; 0; 0; 0; 0; 0; 0; 0; 0; 0; 0; 0; 0], 7, 16, false, 1);
  ([128; 0; 0; 0; 0; 0; 0; 0; 0; 0; 0; 0; 0], 7, 15, false, 1);
  ([128; 0; 0; 0; 0; 0; 0; 0; 0; 0; 0; 0; 0], 7, 14, false, 1);
  ([128; 0; 0; 0; 0; 0; 0; 0; 0; 0; 0; 0; 0], 7, 13, false, 1);
  ([128; 0; 0; 0; 0; 0; 0; 0; 0; 0; 0; 0; 0], 7, 12, false, 1);
  ([128; 0; 0; 0; 0; 0; 0; 0; 0; 0; 0; 0; 0], 7, 11, false, 1);
  ([128; 0; 0; 0; 0; 0; 0; 0; 0; 0; 0; 0; 0], 7, 10, false, 1);
  ([128; 0; 0; 0; 0; 0; 0; 0; 0; 0; 0; 0; 0], 7, 9, false, 1);
  ([128; 0; 0; 0; 0; 0; 0; 0; 0; 0; 0; 0; 0], 7, 8, false, 1);
  ([128; 0; 0; 0; 0; 0; 0; 0; 0; 0; 0; 0; 0], 7, 7, false, 1);
  ([128; 0; 0; 0; 0; 0; 0; 0; 0; 0; 0; 0; 0], 7, 6, false, 1);
  ([128; 0; 0; 0; 0; 0; 0; 0; 0; 0; 0; 0; 0], 7, 5, false, 1);
  ([128; 0; 0; 0; 0; 0; 0; 0; 0; 0; 0; 0; 0], 7, 4, false, 1);
  ([128; 0; 0; 0; 0; 0; 0; 0; 0; 0; 0; 0; 0], 7, 3, false, 1);
  ([128; 0; 0; 0; 0; 0; 0; 0; 0; 0; 0; 0; 0], 7, 2, false, 1);
  ([128; 0; 0; 0; 0; 0; 0; 0; 0; 0; 0; 0; 0], 7, 1, false, 1);
  ([64; 0; 0; 0; 0; 0; 0; 0; 0; 0; 0; 0; 0], 6, 32, false, 1);
  ([64; 0; 0; 0; 0; 0; 0; 0; 0; 0; 0; 0; 0], 6, 31, false, 1);
  ([64; 0; 0; 0; 0; 0; 0; 0; 0; 0; 0; 0; 0], 6, 30, false, 1);
  ([64; 0; 0; 0; 0; 0; 0; 0; 0; 0; 0; 0; 0], 6, 29, false, 1);
  ([64; 0; 0; 0; 0; 0; 0; 0; 0; 0; 0; 0; 0], 6, 28, false, 1);
  ([64; 0; 0; 0; 0; 0; 0; 0; 0; 0; 0; 0; 0], 6, 27, false, 1);
  ([64; 0; 0; 0; 0; 0; 0; 0; 0; 0; 0; 0; 0], 6, 26, false, 1);
  ([64; 0; 0; 0; 0; 0; 0; 0; 0; 0; 0; 0; 0], 6, 25, false, 1);
  ([64; 0; 0; 0; 0; 0; 0; 0; 0; 0; 0; 0; 0], 6, 24, false, 1);
  ([64; 0; 0; 0; 0; 0; 0; 0; 0; 0; 0; 0; 0], 6, 23, false, 1);
  ([64; 0; 0; 0; 0; 0; 0; 0; 0; 0; 0; 0; 0], 6, 22, false, 1);
  ([64; 0; 0; 0; 0; 0; 0; 0; 0; 0; 0; 0; 0], 6, 21, false, 1);
  ([64; 0; 0; 0; 0; 0; 0; 0; 0; 0; 0; 0; 0], 6, 20, false, 1);
  ([64; 0; 0; 0; 0; 0; 0; 0; 0; 0; 0; 0; 0], 6, 19, false, 1);
  ([64; 0; 0; 0; 0; 0; 0; 0; 0; 0; 0; 0; 0], 6, 18, false, 1);
  ([64; 0; 0; 0; 0; 0; 0; 0; 0; 0; 0; 0; 0], 6, 17, false, 1);
  ([64; 0; 0; 0; 0; 0; 0; 0; 0; 0; 0; 0; 0], 6, 16, false, 1);
  ([64; 0; 0; 0; 0; 0; 0; 0; 0; 0; 0; 0; 0], 6, 15, false, 1);
  ([64; 0; 0; 0; 0; 0; 0; 0; 0; 0; 0; 0; 0], 6, 14, false, 1);
  ([64; 0; 0; 0; 0; 0; 0; 0; 0; 0; 0; 0; 0], 6, 13, false, 1);
  ([64; 0; 0; 0; 0; 0; 0; 0; 0; 0; 0; 0; 0], 6, 12, false, 1);
  ([64; 0; 0; 0; 0; 0; 0; 0; 0; 0; 0; 0; 0], 6, 11, false, 1);
  ([64; 0; 0; 0; 0; 0; 0; 0; 0; 0; 0; 0; 0], 6, 10, false, 1);
  ([64; 0; 0; 0; 0; 0; 0; 0; 0; 0; 0; 0; 0], 6, 9, false, 1);
  ([64; 0; 0; 0; 0; 0; 0; 0; 0; 0; 0; 0; 0], 6, 8, false, 1);
  ([64; 0; 0; 0; 0; 0; 0; 0; 0; 0; 0; 0; 0], 6, 7, false, 1);
  ([64; 0; 0; 0; 0; 0; 0; 0; 0; 0; 0; 0; 0], 6, 6, false, 1);
  ([64; 0; 0; 0; 0; 0; 0; 0; 0; 0; 0; 0; 0], 6, 5, false, 1);
  ([64; 0; 0; 0; 0; 0; 0; 0; 0; 0; 0; 0; 0], 6, 4, false, 1);
  ([64; 0; 0; 0; 0; 0; 0; 0; 0; 0; 0; 0; 0], 6, 3, false, 1);
  ([64; 0; 0; 0; 0; 0; 0; 0; 0; 0; 0; 0; 0], 6, 2, false, 1);
  ([64; 0; 0; 0; 0; 0; 0; 0; 0; 0; 0; 0; 0], 6, 1, false, 1);
  ([32; 0; 0; 0; 0; 0; 0; 0; 0; 0; 0; 0; 0], 5, 32, false, 1);
  ([32; 0; 0; 0; 0; 0; 0; 0; 0; 0; 0; 0; 0], 5, 31, false, 1);
  ([32; 0; 0; 0; 0; 0; 0; 0; 0; 0; 0; 0; 0], 5, 30, false, 1);
  ([32; 0; 0; 0; 0; 0; 0; 0; 0; 0; 0; 0; 0], 5, 29, false, 1);
  ([32; 0; 0; 0; 0; 0; 0; 0; 0; 0; 0; 0; 0], 5, 28, false, 1);
  ([32; 0; 0; 0; 0; 0; 0; 0; 0; 0; 0; 0; 0], 5, 27, false, 1);
  ([32; 0; 0; 0; 0; 0; 0; 0; 0; 0; 0; 0; 0], 5, 26, false, 1);
  ([32; 0; 0; 0; 0; 0; 0; 0; 0; 0; 0; 0; 0], 5, 25, false, 1);
  ([32; 0; 0; 0; 0; 0; 0; 0; 0; 0; 0; 0; 0], 5, 24, false, 1);
  ([32; 0; 0; 0; 0; 0; 0; 0; 0; 0; 0; 0; 0], 5, 23, false, 1);
  ([32; 0; 0; 0; 0; 0; 0; 0; 0; 0; 0; 0; 0], 5, 22, false, 1);
  ([32; 0; 0; 0; 0; 0; 0; 0; 0; 0; 0; 0; 0], 5, 21, false, 1);
  ([32; 0; 0; 0; 0; 0; 0; 0; 0; 0; 0; 0; 0], 5, 20, false, 1);
  ([32; 0; 0; 0; 0; 0; 0; 0; 0; 0; 0; 0; 0], 5, 19, false, 1);
  ([32; 0; 0; 0; 0; 0; 0; 0; 0; 0; 0; 0; 0], 5, 18, false, 1);
  ([32; 0; 0; 0; 0; 0; 0; 0; 0; 0; 0; 0; 0], 5, 17, false, 1);
  ([32; 0; 0; 0; 0; 0; 0; 0; 0; 0; 0; 0; 0], 5, 16, false, 1);
  ([32; 0; 0; 0; 0; 0; 0; 0; 0; 0; 0; 0; 0], 5, 15, false, 1);
  ([32; 0; 0; 0; 0; 0; 0; 0; 0; 0; 0; 0; 0], 5, 14, false, 1);
  ([32; 0; 0; 0; 0; 0; 0; 0; 0; 0; 0; 0; 0], 5, 13, false, 1);
  ([32; 0; 0; 0; 0; 0; 0; 0; 0; 0; 0; 0; 0], 5, 12, false, 1);
  ([32; 0; 0; 0; 0; 0; 0; 0; 0; 0; 0; 0; 0], 5, 11, false, 1);
  ([32; 0; 0; 0; 0; 0; 0; 0; 0; 0; 0; 0; 0], 5, 10, false, 1);
  ([32; 0; 0; 0; 0; 0; 0; 0; 0; 0; 0; 0; 0], 5, 9, false, 1);
  ([32; 0; 0; 0; 0; 0; 0; 0; 0; 0; 0; 0; 0], 5, 8, false, 1);
  ([32; 0; 0; 0; 0; 0; 0; 0; 0; 0; 0; 0; 0], 5, 7, false, 1);
  ([32; 0; 0; 0; 0; 0; 0; 0; 0; 0; 0; 0; 0], 5, 6, false, 1);
  ([32; 0; 0; 0; 0; 0; 0; 0; 0; 0; 0; 0; 0], 5, 5, false, 1);
  ([32; 0; 0; 0; 0; 0; 0; 0; 0; 0; 0; 0; 0], 5, 4, false, 1);
  ([32; 0; 0; 0; 0; 0; 0; 0; 0; 0; 0; 0; 0], 5, 3, false, 1);
  ([32; 0; 0; 0; 0; 0; 0; 0; 0; 0; 0; 0; 0], 5, 2, false, 1);
  ([32; 0; 0; 0; 0; 0; 0; 0; 0; 0; 0; 0; 0], 5, 1, false, 1);
  ([16; 0; 0; 0; 0; 0; 0; 0; 0; 0; 0; 0; 0], 4, 32, false, 1);
  ([16; 0; 0; 0; 0; 0; 0; 0; 0; 0; 0; 0; 0], 4, 31, false, 1);
  ([16; 0; 0; 0; 0; 0; 0; 0; 0; 0; 0; 0; 0], 4, 30, false, 1);
  ([16; 0; 0; 0; 0; 0; 0; 0; 0; 0; 0; 0; 0], 4, 29, false, 1);
  ([16; 0; 0; 0; 0; 0; 0; 0; 0; 0; 0; 0; 0], 4, 28, false, 1);
  ([16; 0; 0; 0; 0; 0; 0; 0; 0; 0; 0; 0; 0], 4, 27, false, 1);
  ([16; 0; 0; 0; 0; 0; 0; 0; 0; 0; 0; 0; 0], 4, 26, false, 1);
  ([16; 0; 0; 0; 0; 0; 0; 0; 0; 0; 0; 0; 0], 4, 25, false, 1);
  ([16; 0; 0; 0; 0; 0; 0; 0; 0; 0; 0; 0; 0], 4, 24, false, 1);
  ([16; 0; 0; 0; 0; 0; 0; 0; 0; 0; 0; 0; 0], 4, 23, false, 1);
  ([16; 0; 0; 0; 0; 0; 0; 0; 0; 0; 0; 0; 0], 4, 22, false, 1);
  ([16; 0; 0; 0; 0; 0; 0; 0; 0; 0; 0; 0; 0], 4, 21, false, 1);
  ([16; 0; 0; 0; 0; 0; 0; 0; 0; 0; 0; 0; 0], 4, 20, false, 1);
  ([16; 0; 0; 0; 0; 0; 0; 0; 0; 0; 0; 0; 0], 4, 19, false, 1);
  ([16; 0; 0; 0; 0; 0; 0; 0; 0; 0; 0; 0; 0], 4, 18, false, 1);
  ([16; 0; 0; 0; 0; 0; 0; 0; 0; 0; 0; 0; 0], 4, 17, false, 1);
  ([16; 0; 0; 0; 0; 0; 0; 0; 0; 0; 0; 0; 0], 4, 16, false, 1);
  ([16; 0; 0; 0; 0; 0; 0; 0; 0; 0; 0; 0; 0], 4, 15, false, 1);
  ([16; 0; 0; 0; 0; 0; 0; 0; 0; 0; 0; 0; 0], 4, 14, false, 1);
  ([16; 0; 0; 0; 0; 0; 0; 0; 0; 0; 0; 0; 0], 4, 13, false, 1);
  ([16; 0; 0; 0; 0; 0; 0; 0; 0; 0; 0; 0; 0], 4, 12, false, 1);
  ([16; 0; 0; 0; 0; 0; 0; 0; 0; 0; 0; 0; 0], 4, 11, false, 1);
  ([16; 0; 0; 0; 0; 0; 0; 0; 0; 0; 0; 0; 0], 4, 10, false, 1);
  ([16; 0; 0; 0; 0; 0; 0; 0; 0; 0; 0; 0; 0], 4, 9, false, 1);
  ([16; 0; 0; 0; 0; 0; 0; 0; 0; 0; 0; 0; 0], 4, 8, false, 1);
  ([16; 0; 0; 0; 0; 0; 0; 0; 0; 0; 0; 0; 0], 4, 7, false, 1);
  ([16; 0; 0; 0; 0; 0; 0; 0; 0; 0; 0; 0; 0], 4, 6, false, 1);
  ([16; 0; 0; 0; 0; 0; 0; 0; 0; 0; 0; 0; 0], 4, 5, false, 1);
  ([16; 0; 0; 0; 0; 0; 0; 0; 0; 0; 0; 0; 0], 4, 4, false, 1);
  ([16; 0; 0; 0; 0; 0; 0; 0; 0; 0; 0; 0; 0], 4, 3, false, 1);
  ([16; 0; 0; 0; 0; 0; 0; 0; 0; 0; 0; 0; 0], 4, 2, false, 1);
  ([16; 0; 0; 0; 0; 0; 0; 0; 0; 0; 0; 0; 0], 4, 1, false, 1);
  ([8; 0; 0; 0; 0; 0; 0; 0; 0; 0; 0; 0; 0], 3, 32, false, 1);
  ([8; 0; 0; 0; 0; 0; 0; 0; 0; 0; 0; 0; 0], 3, 31, false, 1);
  ([8; 0; 0; 0; 0; 0; 0; 0; 0; 0; 0; 0; 0], 3, 30, false, 1);
  ([8; 0; 0; 0; 0; 0; 0; 0; 0; 0; 0; 0; 0], 3, 29, false, 1);
  ([8; 0; 0; 0; 0; 0; 0; 0; 0; 0; 0; 0; 0], 3, 28, false, 1);
  ([8; 0; 0; 0; 0; 0; 0; 0; 0; 0; 0; 0; 0], 3, 27, false, 1);
  ([8; 0; 0; 0; 0; 0; 0; 0; 0; 0; 0; 0; 0], 3, 26, false, 1);
  ([8; 0; 0; 0; 0; 0; 0; 0; 0; 0; 0; 0; 0], 3, 25, false, 1);
  ([8; 0; 0; 0; 0; 0; 0; 0; 0; 0; 0; 0; 0], 3, 24, false, 1);
  ([8; 0; 0; 0; 0; 0; 0; 0; 0; 0; 0; 0; 0], 3, 23, false, 1);
  ([8; 0; 0; 0; 0; 0; 0; 0; 0; 0; 0; 0; 0], 3, 22, false, 1);
  ([8; 0; 0; 0; 0; 0; 0; 0; 0; 0; 0; 0; 0], 3, 21, false, 1);
  ([8; 0; 0; 0; 0; 0; 0; 0; 0; 0; 0; 0; 0], 3, 20, false, 1);
  ([8; 0; 0; 0; 0; 0; 0; 0; 0; 0; 0; 0; 0], 3, 19, false, 1);
  ([8; 0; 0; 0; 0; 0; 0; 0; 0; 0; 0; 0; 0], 3, 18, false, 1);
  ([8; 0; 0; 0; 0; 0; 0; 0; 0; 0; 0; 0; 0], 3, 17, false, 1);
  ([8; 0; 0; 0; 0; 0; 0; 0; 0; 0; 0; 0; 0], 3, 16, false, 1);
  ([8; 0; 0; 0; 0; 0; 0; 0; 0; 0; 0; 0; 0], 3, 15, false, 1);
  ([8; 0; 0; 0; 0; 0; 0; 0; 0; 0; 0; 0; 0], 3, 14, false, 1);
  ([8; 0; 0; 0; 0; 0; 0; 0; 0; 0; 0; 0; 0], 3, 13, false, 1);
  ([8; 0; 0; 0; 0; 0; 0; 0; 0; 0; 0; 0; 0], 3, 12, false, 1);
  ([8; 0; 0; 0; 0; 0; 0; 0; 0; 0; 0; 0; 0], 3, 11, false, 1);
  ([8; 0; 0; 0; 0; 0; 0; 0; 0; 0; 0; 0; 0], 3, 10, false, 1);
  ([8; 0; 0; 0; 0; 0; 0; 0; 0; 0; 0; 0; 0], 3, 9, false, 1);
  ([8; 0; 0; 0; 0; 0; 0; 0; 0; 0; 0; 0; 0], 3, 8, false, 1);
  ([8; 0; 0; 0; 0; 0; 0; 0; 0; 0; 0; 0; 0], 3, 7, false, 1);
  ([8; 0; 0; 0; 0; 0; 0; 0; 0; 0; 0; 0; 0], 3, 6, false, 1);
  ([8; 0; 0; 0; 0; 0; 0; 0; 0; 0; 0; 0; 0], 3, 5, false, 1);
  ([8; 0; 0; 0; 0; 0; 0; 0; 0; 0; 0; 0; 0], 3, 4, false, 1);
  ([8; 0; 0; 0; 0; 0; 0; 0; 0; 0; 0; 0; 0], 3, 3, false, 1);
  ([8; 0; 0; 0; 0; 0; 0; 0; 0; 0; 0; 0; 0], 3, 2, false, 1);
  ([8; 0; 0; 0; 0; 0; 0; 0; 0; 0; 0; 0; 0], 3, 1, false, 1);
  ([4; 0; 0; 0; 0; 0; 0; 0; 0; 0; 0; 0; 0], 2, 32, false, 1);
  ([4; 0; 0; 0; 0; 0; 0; 0; 0; 0; 0; 0; 0], 2, 31, false, 1);
  ([4; 0; 0; 0; 0; 0; 0; 0; 0; 0; 0; 0; 0], 2, 30, false, 1);
  ([4; 0; 0; 0; 0; 0; 0; 0; 0; 0; 0; 0; 0], 2, 29, false, 1);
  ([4; 0; 0; 0; 0; 0; 0; 0; 0; 0; 0; 0; 0], 2, 28, false, 1);
  ([4; 0; 0; 0; 0; 0; 0; 0; 0; 0; 0; 0; 0], 2, 27, false, 1);
  ([4; 0; 0; 0; 0; 0; 0; 0; 0; 0; 0; 0; 0], 2, 26, false, 1);
  ([4; 0; 0; 0; 0; 0; 0; 0; 0; 0; 0; 0; 0], 2, 25, false, 1);
  ([4; 0; 0; 0; 0; 0; 0; 0; 0; 0; 0; 0; 0], 2, 24, false, 1);
  ([4; 0; 0; 0; 0; 0; 0; 0; 0; 0; 0; 0; 0], 2, 23, false, 1);
  ([4; 0; 0; 0; 0; 0; 0; 0; 0; 0; 0; 0; 0], 2, 22, false, 1);
  ([4; 0; 0; 0; 0; 0; 0; 0; 0; 0; 0; 0; 0], 2, 21, false, 1);
  ([4; 0; 0; 0; 0; 0; 0; 0; 0; 0; 0; 0; 0], 2, 20, false, 1);
  ([4; 0; 0; 0; 0; 0; 0; 0; 0; 0; 0; 0; 0], 2, 19, false, 1);
  ([4; 0; 0; 0; 0; 0; 0; 0; 0; 0; 0; 0; 0], 2, 18, false, 1);
  ([4; 0; 0; 0; 0; 0; 0; 0; 0; 0; 0; 0; 0], 2, 17, false, 1);
  ([4; 0; 0; 0; 0; 0; 0; 0; 0; 0; 0; 0; 0], 2, 16, false, 1);
  ([4; 0; 0; 0; 0; 0; 0; 0; 0; 0; 0; 0; 0], 2, 15, false, 1);
  ([4; 0; 0; 0; 0; 0; 0; 0; 0; 0; 0; 0; 0], 2, 14, false, 1);
  ([4; 0; 0; 0; 0; 0; 0; 0; 0; 0; 0; 0; 0], 2, 13, false, 1);
  ([4; 0; 0; 0; 0; 0; 0; 0; 0; 0; 0; 0; 0], 2, 12, false, 1);
  ([4; 0; 0; 0; 0; 0; 0; 0; 0; 0; 0; 0; 0], 2, 11, false, 1);
  ([4; 0; 0; 0; 0; 0; 0; 0; 0; 0; 0; 0; 0], 2, 10, false, 1);
  ([4; 0; 0; 0; 0; 0; 0; 0; 0; 0; 0; 0; 0], 2, 9, false, 1);
  ([4; 0; 0; 0; 0; 0; 0; 0; 0; 0; 0; 0; 0], 2, 8, false, 1);
  ([4; 0; 0; 0; 0; 0; 0; 0; 0; 0; 0; 0; 0], 2, 7, false, 1);
  ([4; 0; 0; 0; 0; 0; 0; 0; 0; 0; 0; 0; 0], 2, 6, false, 1);
  ([4; 0; 0; 0; 0; 0; 0; 0; 0; 0; 0; 0; 0], 2, 5, false, 1);
  ([4; 0; 0; 0; 0; 0; 0; 0; 0; 0; 0; 0; 0], 2, 4, false, 1);
  ([4; 0; 0; 0; 0; 0; 0; 0; 0; 0; 0; 0; 0], 2, 3, false, 1);
  ([4; 0; 0; 0; 0; 0; 0; 0; 0; 0; 0; 0; 0], 2, 2, false, 1);
  ([4; 0; 0; 0; 0; 0; 0; 0; 0; 0; 0; 0; 0], 2, 1, false, 1);
  ([2; 0; 0; 0; 0; 0; 0; 0; 0; 0; 0; 0; 0], 1, 32, false, 1);
  ([2; 0; 0; 0; 0; 0; 0; 0; 0; 0; 0; 0; 0], 1, 31, false, 1);
  ([2; 0; 0; 0; 0; 0; 0; 0; 0; 0; 0; 0; 0], 1, 30, false, 1);
  ([2; 0; 0; 0; 0; 0; 0; 0; 0; 0; 0; 0; 0], 1, 29, false, 1);
  ([2; 0; 0; 0; 0; 0; 0; 0; 0; 0; 0; 0; 0], 1, 28, false, 1);
  ([2; 0; 0; 0; 0; 0; 0; 0; 0; 0; 0; 0; 0], 1, 27, false, 1);
  ([2; 0; 0; 0; 0; 0; 0; 0; 0; 0; 0; 0; 0], 1, 26, false, 1);
  ([2; 0; 0; 0; 0; 0; 0; 0; 0; 0; 0; 0; 0], 1, 25, false, 1);
  ([2; 0; 0; 0; 0; 0; 0; 0; 0; 0; 0; 0; 0], 1, 24, false, 1);
  ([2; 0; 0; 0; 0; 0; 0; 0; 0; 0; 0; 0; 0], 1, 23, false, 1);
  ([2; 0; 0; 0; 0; 0; 0; 0; 0; 0; 0; 0; 0], 1, 22, false, 1);
  ([2; 0; 0; 0; 0; 0; 0; 0; 0; 0; 0; 0; 0], 1, 21, false, 1);
  ([2; 0; 0; 0; 0; 0; 0; 0; 0; 0; 0; 0; 0], 1, 20, false, 1);
  ([2; 0; 0; 0; 0; 0; 0; 0; 0; 0; 0; 0; 0], 1, 19, false, 1);
  ([2; 0; 0; 0; 0; 0; 0; 0; 0; 0; 0; 0; 0], 1, 18, false, 1);
  ([2; 0; 0; 0; 0; 0; 0; 0; 0; 0; 0; 0; 0], 1, 17, false, 1);
  ([2; 0; 0; 0; 0; 0; 0; 0; 0; 0; 0; 0; 0], 1, 16, false, 1);
  ([2; 0; 0; 0; 0; 0; 0; 0; 0; 0; 0; 0; 0], 1, 15, false, 1);
  ([2; 0; 0; 0; 0; 0; 0; 0; 0; 0; 0; 0; 0], 1, 14, false, 1);
  ([2; 0; 0; 0; 0; 0; 0; 0; 0; 0; 0; 0; 0], 1, 13, false, 1);
  ([2; 0; 0; 0; 0; 0; 0; 0; 0; 0; 0; 0; 0], 1, 12, false, 1);
  ([2; 0; 0; 0; 0; 0; 0; 0; 0; 0; 0; 0; 0], 1, 11, false, 1);
  ([2; 0; 0; 0; 0; 0; 0; 0; 0; 0; 0; 0; 0], 1, 10, false, 1);
  ([2; 0; 0; 0; 0; 0; 0; 0; 0; 0; 0; 0; 0], 1, 9, false, 1);
  ([2; 0; 0; 0; 0; 0; 0; 0; 0; 0; 0; 0; 0], 1, 8, false, 1);
  ([2; 0; 0; 0; 0; 0; 0; 0; 0; 0; 0; 0; 0], 1, 7, false, 1);
  ([2; 0; 0; 0; 0; 0; 0; 0; 0; 0; 0; 0; 0], 1, 6, false, 1);
  ([2; 0; 0; 0; 0; 0; 0; 0; 0; 0; 0; 0; 0], 1, 5, false, 1);
  ([2; 0; 0; 0; 0; 0; 0; 0; 0; 0; 0; 0; 0], 1, 4, false, 1);
  ([2; 0; 0; 0; 0; 0; 0; 0; 0; 0; 0; 0; 0], 1, 3, false, 1);
  ([2; 0; 0; 0; 0; 0; 0; 0; 0; 0; 0; 0; 0], 1, 2, false, 1);
  ([2; 0; 0; 0; 0; 0; 0; 0; 0; 0; 0; 0; 0], 1, 1, false, 1);
  ([1; 0; 0; 0; 0; 0; 0; 0; 0; 0; 0; 0], 0, 32, false, 1);
  ([1; 0; 0; 0; 0; 0; 0; 0; 0; 0; 0; 0], 0, 31, false, 1);
  ([1; 0; 0; 0; 0; 0; 0; 0; 0; 0; 0; 0], 0, 30, false, 1);
  ([1; 0; 0; 0; 0; 0; 0; 0; 0; 0; 0; 0], 0, 29, false, 1);
  ([1; 0; 0; 0; 0; 0; 0; 0; 0; 0; 0; 0], 0, 28, false, 1);
  ([1; 0; 0; 0; 0; 0; 0; 0; 0; 0; 0; 0], 0, 27, false, 1);
  ([1; 0; 0; 0; 0; 0; 0; 0; 0; 0; 0; 0], 0, 26, false, 1);
  ([1; 0; 0; 0; 0; 0; 0; 0; 0; 0; 0; 0], 0, 25, false, 1);
  ([1; 0; 0; 0; 0; 0; 0; 0; 0; 0; 0; 0], 0, 24, false, 1);
  ([1; 0; 0; 0; 0; 0; 0; 0; 0; 0; 0; 0], 0, 23, false, 1);
  ([1; 0; 0; 0; 0; 0; 0; 0; 0; 0; 0; 0], 0, 22, false, 1);
  ([1; 0; 0; 0; 0; 0; 0; 0; 0; 0; 0; 0], 0, 21, false, 1);
  ([1; 0; 0; 0; 0; 0; 0; 0; 0; 0; 0; 0], 0, 20, false, 1);
  ([1; 0; 0; 0; 0; 0; 0; 0; 0; 0; 0; 0], 0, 19, false, 1);
  ([1; 0; 0; 0; 0; 0; 0; 0; 0; 0; 0; 0], 0, 18, false, 1);
  ([1; 0; 0; 0; 0; 0; 0; 0; 0; 0; 0; 0], 0, 17, false, 1);
  ([1; 0; 0; 0; 0; 0; 0; 0; 0; 0; 0; 0], 0, 16, false, 1);
  ([1; 0; 0; 0; 0; 0; 0; 0; 0; 0; 0; 0], 0, 15, false, 1);
  ([1; 0; 0; 0; 0; 0; 0; 0; 0; 0; 0; 0], 0, 14, false, 1);
  ([1; 0; 0; 0; 0; 0; 0; 0; 0; 0; 0; 0], 0, 13, false, 1);
  ([1; 0; 0; 0; 0; 0; 0; 0; 0; 0; 0; 0], 0, 12, false, 1);
  ([1; 0; 0; 0; 0; 0; 0; 0; 0; 0; 0; 0], 0, 11, false, 1);
  ([1; 0; 0; 0; 0; 0; 0; 0; 0; 0; 0; 0], 0, 10, false, 1);
  ([1; 0; 0; 0; 0; 0; 0; 0; 0; 0; 0; 0], 0, 9, false, 1);
  ([1; 0; 0; 0; 0; 0; 0; 0; 0; 0; 0; 0], 0, 8, false, 1);
  ([1; 0; 0; 0; 0; 0; 0; 0; 0; 0; 0; 0], 0, 7, false, 1);
  ([1; 0; 0; 0; 0; 0; 0; 0; 0; 0; 0; 0], 0, 6, false, 1);
  ([1; 0; 0; 0; 0; 0; 0; 0; 0; 0; 0; 0], 0, 5, false, 1);
  ([1; 0; 0; 0; 0; 0; 0; 0; 0; 0; 0; 0], 0, 4, false, 1);
  ([1; 0; 0; 0; 0; 0; 0; 0; 0; 0; 0; 0], 0, 3, false, 1);
  ([1; 0; 0; 0; 0; 0; 0; 0; 0; 0; 0; 0], 0, 2, false, 1);
  ([1; 0; 0; 0; 0; 0; 0; 0; 0; 0; 0; 0], 0, 1, false, 1);
  ([0; 1; 0; 0; 0; 0; 0; 0; 0; 0; 0; 0; 0; 0; 0; 0; 0], 8, 64, false, 1);
  ([0; 1; 0; 0; 0; 0; 0; 0; 0; 0; 0; 0; 0; 0; 0; 0; 0], 8, 63, false, 1);
  ([0; 1; 0; 0; 0; 0; 0; 0; 0; 0; 0; 0; 0; 0; 0; 0; 0], 8, 62, false, 1);
  ([0; 1; 0; 0; 0; 0; 0; 0; 0; 0; 0; 0; 0; 0; 0; 0; 0], 8, 61, false, 1);
  ([0; 1; 0; 0; 0; 0; 0; 0; 0; 0; 0; 0; 0; 0; 0; 0; 0], 8, 60, false, 1);
  ([0; 1; 0; 0; 0; 0; 0; 0; 0; 0; 0; 0; 0; 0; 0; 0; 0], 8, 59, false, 1);
  ([0; 1; 0; 0; 0; 0; 0; 0; 0; 0; 0; 0; 0; 0; 0; 0; 0], 8, 58, false, 1);
  ([0; 1; 0; 0; 0; 0; 0; 0; 0; 0; 0; 0; 0; 0; 0; 0; 0], 8, 57, false, 1);
  ([0; 1; 0; 0; 0; 0; 0; 0; 0; 0; 0; 0; 0; 0; 0; 0; 0], 8, 56, false, 1);
  ([0; 1; 0; 0; 0; 0; 0; 0; 0; 0; 0; 0; 0; 0; 0; 0; 0], 8, 55, false, 1);
  ([0; 1; 0; 0; 0; 0; 0; 0; 0; 0; 0; 0; 0; 0; 0; 0; 0], 8, 54, false, 1);
  ([0; 1; 0; 0; 0; 0; 0; 0; 0; 0; 0; 0; 0; 0; 0; 0; 0], 8, 53, false, 1);
  ([0; 1; 0; 0; 0; 0; 0; 0; 0; 0; 0; 0; 0; 0; 0; 0; 0], 8, 52, false, 1);
  ([0; 1; 0; 0; 0; 0; 0; 0; 0; 0; 0; 0; 0; 0; 0; 0; 0], 8, 51, false, 1);
  ([0; 1; 0; 0; 0; 0; 0; 0; 0; 0; 0; 0; 0; 0; 0; 0; 0], 8, 50, false, 1);
  ([0; 1; 0; 0; 0; 0; 0; 0; 0; 0; 0; 0; 0; 0; 0; 0; 0], 8, 49, false, 1);
  ([0; 1; 0; 0; 0; 0; 0; 0; 0; 0; 0; 0; 0; 0; 0; 0; 0], 8, 48, false, 1);
  ([0; 1; 0; 0; 0; 0; 0; 0; 0; 0; 0; 0; 0; 0; 0; 0; 0], 8, 47, false, 1);
  ([0; 1; 0; 0; 0; 0; 0; 0; 0; 0; 0; 0; 0; 0; 0; 0; 0], 8, 46, false, 1);
  ([0; 1; 0; 0; 0; 0; 0; 0; 0; 0; 0; 0; 0; 0; 0; 0; 0], 8, 45, false, 1);
  ([0; 1; 0; 0; 0; 0; 0; 0; 0; 0; 0; 0; 0; 0; 0; 0; 0], 8, 44, false, 1);
  ([0; 1; 0; 0; 0; 0; 0; 0; 0; 0; 0; 0; 0; 0; 0; 0; 0], 8, 43, false, 1);
  ([0; 1; 0; 0; 0; 0; 0; 0; 0; 0; 0; 0; 0; 0; 0; 0; 0], 8, 42, false, 1);
  ([0; 1; 0; 0; 0; 0; 0; 0; 0; 0; 0; 0; 0; 0; 0; 0; 0], 8, 41, false, 1);
  ([0; 1; 0; 0; 0; 0; 0; 0; 0; 0; 0; 0; 0; 0; 0; 0; 0], 8, 40, false, 1);
  ([0; 1; 0; 0; 0; 0; 0; 0; 0; 0; 0; 0; 0; 0; 0; 0; 0], 8, 39, false, 1);
  ([0; 1; 0; 0; 0; 0; 0; 0; 0; 0; 0; 0; 0; 0; 0; 0; 0], 8, 38, false, 1);
  ([0; 1; 0; 0; 0; 0; 0; 0; 0; 0; 0; 0; 0; 0; 0; 0; 0], 8, 37, false, 1);
  ([0; 1; 0; 0; 0; 0; 0; 0; 0; 0; 0; 0; 0; 0; 0; 0; 0], 8, 36, false, 1);
  ([0; 1; 0; 0; 0; 0; 0; 0; 0; 0; 0; 0; 0; 0; 0; 0; 0], 8, 35, false, 1);
  ([0; 1; 0; 0; 0; 0; 0; 0; 0; 0; 0; 0; 0; 0; 0; 0; 0], 8, 34, false, 1);
  ([0; 1; 0; 0; 0; 0; 0; 0; 0; 0; 0; 0; 0; 0; 0; 0; 0], 8, 33, false, 1);
  ([0; 1; 0; 0; 0; 0; 0; 0; 0; 0; 0; 0; 0; 0; 0; 0; 0], 8, 32, false, 1);
  ([0; 1; 0; 0; 0; 0; 0; 0; 0; 0; 0; 0; 0; 0; 0; 0; 0], 8, 31, false, 1);
  ([0; 1; 0; 0; 0; 0; 0; 0; 0; 0; 0; 0; 0; 0; 0; 0; 0], 8, 30, false, 1);
  ([0; 1; 0; 0; 0; 0; 0; 0; 0; 0; 0; 0; 0; 0; 0; 0; 0], 8, 29, false, 1);
  ([0; 1; 0; 0; 0; 0; 0; 0; 0; 0; 0; 0; 0; 0; 0; 0; 0], 8, 28, false, 1);
  ([0; 1; 0; 0; 0; 0; 0; 0; 0; 0; 0; 0; 0; 0; 0; 0; 0], 8, 27, false, 1);
  ([0; 1; 0; 0; 0; 0; 0; 0; 0; 0; 0; 0; 0; 0; 0; 0; 0], 8, 26, false, 1);
  ([0; 1; 0; 0; 0; 0; 0; 0; 0; 0; 0; 0; 0; 0; 0; 0; 0], 8, 25, false, 1);
  ([0; 1; 0; 0; 0; 0; 0; 0; 0; 0; 0; 0; 0; 0; 0; 0; 0], 8, 24, false, 1);
  ([0; 1; 0; 0; 0; 0; 0; 0; 0; 0; 0; 0; 0; 0; 0; 0; 0], 8, 23, false, 1);
  ([0; 1; 0; 0; 0; 0; 0; 0; 0; 0; 0; 0; 0; 0; 0; 0; 0], 8, 22, false, 1);
  ([0; 1; 0; 0; 0; 0; 0; 0; 0; 0; 0; 0; 0; 0; 0; 0; 0], 8, 21, false, 1);
  ([0; 1; 0; 0; 0; 0; 0; 0; 0; 0; 0; 0; 0; 0; 0; 0; 0], 8, 20, false, 1);
  ([0; 1; 0; 0; 0; 0; 0; 0; 0; 0; 0; 0; 0; 0; 0; 0; 0], 8, 19, false, 1);
  ([0; 1; 0; 0; 0; 0; 0; 0; 0; 0; 0; 0; 0; 0; 0; 0; 0], 8, 18, false, 1);
  ([0; 1; 0; 0; 0; 0; 0; 0; 0; 0; 0; 0; 0; 0; 0; 0; 0], 8, 17, false, 1);
  ([0; 1; 0; 0; 0; 0; 0; 0; 0; 0; 0; 0; 0; 0; 0; 0; 0], 8, 16, false, 1);
  ([0; 1; 0; 0; 0; 0; 0; 0; 0; 0; 0; 0; 0; 0; 0; 0; 0], 8, 15, false, 1);
  ([0; 1; 0; 0; 0; 0; 0; 0; 0; 0; 0; 0; 0; 0; 0; 0; 0], 8, 14, false, 1);
  ([0; 1; 0; 0; 0; 0; 0; 0; 0; 0; 0; 0; 0; 0; 0; 0; 0], 8, 13, false, 1);
  ([0; 1; 0; 0; 0; 0; 0; 0; 0; 0; 0; 0; 0; 0; 0; 0; 0], 8, 12, false, 1);
  ([0; 1; 0; 0; 0; 0; 0; 0; 0; 0; 0; 0; 0; 0; 0; 0; 0], 8, 11, false, 1);
  ([0; 1; 0; 0; 0; 0; 0; 0; 0; 0; 0; 0; 0; 0; 0; 0; 0], 8, 10, false, 1);
  ([0; 1; 0; 0; 0; 0; 0; 0; 0; 0; 0; 0; 0; 0; 0; 0; 0], 8, 9, false, 1);
  ([0; 1; 0; 0; 0; 0; 0; 0; 0; 0; 0; 0; 0; 0; 0; 0; 0], 8, 8, false, 1);
  ([0; 1; 0; 0; 0; 0; 0; 0; 0; 0; 0; 0; 0; 0; 0; 0; 0], 8, 7, false, 1);
  ([0; 1; 0; 0; 0; 0; 0; 0; 0; 0; 0; 0; 0; 0; 0; 0; 0], 8, 6, false, 1);
  ([0; 1; 0; 0; 0; 0; 0; 0; 0; 0; 0; 0; 0; 0; 0; 0; 0], 8, 5, false, 1);
  ([0; 1; 0; 0; 0; 0; 0; 0; 0; 0; 0; 0; 0; 0; 0; 0; 0], 8, 4, false, 1);
  ([0; 1; 0; 0; 0; 0; 0; 0; 0; 0; 0; 0; 0; 0; 0; 0; 0], 8, 3, false, 1);
  ([0; 1; 0; 0; 0; 0; 0; 0; 0; 0; 0; 0; 0; 0; 0; 0; 0], 8, 2, false, 1);
  ([0; 1; 0; 0; 0; 0; 0; 0; 0; 0; 0; 0; 0; 0; 0; 0; 0], 8, 1, false, 1);
  ([128; 0; 0; 0; 0; 0; 0; 0; 0; 0; 0; 0; 0; 0; 0; 0; 0], 7, 64, false, 1);
  ([128; 0; 0; 0; 0; 0; 0; 0; 0; 0; 0; 0; 0; 0; 0; 0; 0], 7, 63, false, 1);
  ([128; 0; 0; 0; 0; 0; 0; 0; 0; 0; 0; 0; 0; 0; 0; 0; 0], 7, 62, false, 1);
  ([128; 0; 0; 0; 0; 0; 0; 0; 0; 0; 0; 0; 0; 0; 0; 0; 0], 7, 61, false, 1);
  ([128; 0; 0; 0; 0; 0; 0; 0; 0; 0; 0; 0; 0; 0; 0; 0; 0], 7, 60, false, 1);
  ([128; 0; 0; 0; 0; 0; 0; 0; 0; 0; 0; 0; 0; 0; 0; 0; 0], 7, 59, false, 1);
  ([128; 0; 0; 0; 0; 0; 0; 0; 0; 0; 0; 0; 0; 0; 0; 0; 0], 7, 58, false, 1);
  ([128; 0; 0; 0; 0; 0; 0; 0; 0; 0; 0; 0; 0; 0; 0; 0; 0], 7, 57, false, 1);
  ([128; 0; 0; 0; 0; 0; 0; 0; 0; 0; 0; 0; 0; 0; 0; 0; 0], 7, 56, false, 1);
  ([128; 0; 0; 0; 0; 0; 0; 0; 0; 0; 0; 0; 0; 0; 0; 0; 0], 7, 55, false, 1);
  ([128; 0; 0; 0; 0; 0; 0; 0; 0; 0; 0; 0; 0; 0; 0; 0; 0], 7, 54, false, 1);
  ([128; 0; 0; 0; 0; 0; 0; 0; 0; 0; 0; 0; 0; 0; 0; 0; 0], 7, 53, false, 1);
  ([128; 0; 0; 0; 0; 0; 0; 0; 0; 0; 0; 0; 0; 0; 0; 0; 0], 7, 52, false, 1);
  ([128; 0; 0; 0; 0; 0; 0; 0; 0; 0; 0; 0; 0; 0; 0; 0; 0], 7, 51, false, 1);
  ([128; 0; 0; 0; 0; 0; 0; 0; 0; 0; 0; 0; 0; 0; 0; 0; 0], 7, 50, false, 1);
  ([128; 0; 0; 0; 0; 0; 0; 0; 0; 0; 0; 0; 0; 0; 0; 0; 0], 7, 49, false, 1);
  ([128; 0; 0; 0; 0; 0; 0; 0; 0; 0; 0; 0; 0; 0; 0; 0; 0], 7, 48, false, 1);
  ([128; 0; 0; 0; 0; 0; 0; 0; 0; 0; 0; 0; 0; 0; 0; 0; 0], 7, 47, false, 1);
  ([128; 0; 0; 0; 0; 0; 0; 0; 0; 0; 0; 0; 0; 0; 0; 0; 0], 7, 46, false, 1);
  ([128; 0; 0; 0; 0; 0; 0; 0; 0; 0; 0; 0; 0; 0; 0; 0; 0], 7, 45, false, 1);
  ([128; 0; 0; 0; 0; 0; 0; 0; 0; 0; 0; 0; 0; 0; 0; 0; 0], 7, 44, false, 1);
  ([128; 0; 0; 0; 0; 0; 0; 0; 0; 0; 0; 0; 0; 0; 0; 0; 0], 7, 43, false, 1);
  ([128; 0; 0; 0; 0; 0; 0; 0; 0; 0; 0; 0; 0; 0; 0; 0; 0], 7, 42, false, 1);
  ([128; 0; 0; 0; 0; 0; 0; 0; 0; 0; 0; 0; 0; 0; 0; 0; 0], 7, 41, false, 1);
  ([128; 0; 0; 0; 0; 0; 0; 0; 0; 0; 0; 0; 0; 0; 0; 0; 0], 7, 40, false, 1);
  ([128; 0; 0; 0; 0; 0; 0; 0; 0; 0; 0; 0; 0; 0; 0; 0; 0], 7, 39, false, 1);
  ([128; 0; 0; 0; 0; 0; 0; 0; 0; 0; 0; 0; 0; 0; 0; 0; 0], 7, 38, false, 1);
  ([128; 0; 0; 0; 0; 0; 0; 0; 0; 0; 0; 0; 0; 0; 0; 0; 0], 7, 37, false, 1);
  ([128; 0; 0; 0; 0; 0; 0; 0; 0; 0; 0; 0; 0; 0; 0; 0; 0], 7, 36, false, 1);
  ([128; 0; 0; 0; 0; 0; 0; 0; 0; 0; 0; 0; 0; 0; 0; 0; 0], 7, 35, false, 1);
  ([128; 0; 0; 0; 0; 0; 0; 0; 0; 0; 0; 0; 0; 0; 0; 0; 0], 7, 34, false, 1);
  ([128; 0; 0; 0; 0; 0; 0; 0; 0; 0; 0; 0; 0; 0; 0; 0; 0], 7, 33, false, 1);
  ([128; 0; 0; 0; 0; 0; 0; 0; 0; 0; 0; 0; 0; 0; 0; 0; 0], 7, 32, false, 1);
  ([128; 0; 0; 0; 0; 0; 0; 0; 0; 0; 0; 0; 0; 0; 0; 0; 0], 7, 31, false, 1);
  ([128; 0; 0; 0; 0; 0; 0; 0; 0; 0; 0; 0; 0; 0; 0; 0; 0], 7, 30, false, 1);
  ([128; 0; 0; 0; 0; 0; 0; 0; 0; 0; 0; 0; 0; 0; 0; 0; 0], 7, 29, false, 1);
  ([128; 0; 0; 0; 0; 0; 0; 0; 0; 0; 0; 0; 0; 0; 0; 0; 0], 7, 28, false, 1);
  ([128; 0; 0; 0; 0; 0; 0; 0; 0; 0; 0; 0; 0; 0; 0; 0; 0], 7, 27, false, 1);
  ([128; 0; 0; 0; 0; 0; 0; 0; 0; 0; 0; 0; 0; 0; 0; 0; 0], 7, 26, false, 1);
  ([128; 0; 0; 0; 0; 0; 0; 0; 0; 0; 0; 0; 0; 0; 0; 0; 0], 7, 25, false, 1);
  ([128; 0; 0; 0; 0; 0; 0; 0; 0; 0; 0; 0; 0; 0; 0; 0; 0], 7, 24, false, 1);
  ([128; 0; 0; 0; 0; 0; 0; 0; 0; 0; 0; 0; 0; 0; 0; 0; 0], 7, 23, false, 1);
  ([128; 0; 0; 0; 0; 0; 0; 0; 0; 0; 0; 0; 0; 0; 0; 0; 0], 7, 22, false, 1);
  ([128; 0; 0; 0; 0; 0; 0; 0; 0; 0; 0; 0; 0; 0; 0; 0; 0], 7, 21, false, 1);
  ([128; 0; 0; 0; 0; 0; 0; 0; 0; 0; 0; 0; 0; 0; 0; 0; 0], 7, 20, false, 1);
  ([128; 0; 0; 0; 0; 0; 0; 0; 0; 0; 0; 0; 0; 0; 0; 0; 0], 7, 19, false, 1);
  ([128; 0; 0; 0; 0; 0; 0; 0; 0; 0; 0; 0; 0; 0; 0; 0; 0], 7, 18, false, 1);
  ([128; 0; 0; 0; 0; 0; 0; 0; 0; 0; 0; 0; 0; 0; 0; 0; 0], 7, 17, false, 1);
  ([128; 0; 0; 0; 0; 0; 0; 0; 0; 0; 0; 0; 0; 0; 0; 0; 0], 7, 16, false, 1);
  ([128; 0; 0; 0; 0; 0; 0; 0; 0; 0; 0; 0; 0; 0; 0; 0; 0], 7, 15, false, 1);
  ([128; 0; 0; 0; 0; 0; 0; 0; 0; 0; 0; 0; 0; 0; 0; 0; 0], 7, 14, false, 1);
  ([128; 0; 0; 0; 0; 0; 0; 0; 0; 0; 0; 0; 0; 0; 0; 0; 0], 7, 13, false, 1);
  ([128; 0; 0; 0; 0; 0; 0; 0; 0; 0; 0; 0; 0; 0; 0; 0; 0], 7, 12, false, 1);
  ([128; 0; 0; 0; 0; 0; 0; 0; 0; 0; 0; 0; 0; 0; 0; 0; 0], 7, 11, false, 1);
  ([128; 0; 0; 0; 0; 0; 0; 0; 0; 0; 0; 0; 0; 0; 0; 0; 0], 7, 10, false, 1);
  ([128; 0; 0; 0; 0; 0; 0; 0; 0; 0; 0; 0; 0; 0; 0; 0; 0], 7, 9, false, 1);
  ([128; 0; 0; 0; 0; 0; 0; 0; 0; 0; 0; 0; 0; 0; 0; 0; 0], 7, 8, false, 1);
  ([128; 0; 0; 0; 0; 0; 0; 0; 0; 0; 0; 0; 0; 0; 0; 0; 0], 7, 7, false, 1);
  ([128; 0; 0; 0; 0; 0; 0; 0; 0; 0; 0; 0; 0; 0; 0; 0; 0], 7, 6, false, 1);
  ([128; 0; 0; 0; 0; 0; 0; 0; 0; 0; 0; 0; 0; 0; 0; 0; 0], 7, 5, false, 1);
  ([128; 0; 0; 0; 0; 0; 0; 0; 0; 0; 0; 0; 0; 0; 0; 0; 0], 7, 4, false, 1);
  ([128; 0; 0; 0; 0; 0; 0; 0; 0; 0; 0; 0; 0; 0; 0; 0; 0], 7, 3, false, 1);
  ([128; 0; 0; 0; 0; 0; 0; 0; 0; 0; 0; 0; 0; 0; 0; 0; 0], 7, 2, false, 1);
  ([128; 0; 0; 0; 0; 0; 0; 0; 0; 0; 0; 0; 0; 0; 0; 0; 0], 7, 1, false, 1);
  ([64; 0; 0; 0; 0; 0; 0; 0; 0; 0; 0; 0; 0; 0; 0; 0; 0], 6, 64, false, 1);
  ([64; 0; 0; 0; 0; 0; 0; 0; 0; 0; 0; 0; 0; 0; 0; 0; 0], 6, 63, false, 1);
  ([64; 0; 0; 0; 0; 0; 0; 0; 0; 0; 0; 0; 0; 0; 0; 0; 0], 6, 62, false, 1);
  ([64; 0; 0; 0; 0; 0; 0; 0; 0; 0; 0; 0; 0; 0; 0; 0; 0], 6, 61, false, 1);
  ([64; 0; 0; 0; 0; 0; 0; 0; 0; 0; 0; 0; 0; 0; 0; 0; 0], 6, 60, false, 1);
  ([64; 0; 0; 0; 0; 0; 0; 0; 0; 0; 0; 0; 0; 0; 0; 0; 0], 6, 59, false, 1);
  ([64; 0; 0; 0; 0; 0; 0; 0; 0; 0; 0; 0; 0; 0; 0; 0; 0], 6, 58, false, 1);
  ([64; 0; 0; 0; 0; 0; 0; 0; 0; 0; 0; 0; 0; 0; 0; 0; 0], 6, 57, false, 1);
  ([64; 0; 0; 0; 0; 0; 0; 0; 0; 0; 0; 0; 0; 0; 0; 0; 0], 6, 56, false, 1);
  ([64; 0; 0; 0; 0; 0; 0; 0; 0; 0; 0; 0; 0; 0; 0; 0; 0], 6, 55, false, 1);
  ([64; 0; 0; 0; 0; 0; 0; 0; 0; 0; 0; 0; 0; 0; 0; 0; 0], 6, 54, false, 1);
  ([64; 0; 0; 0; 0; 0; 0; 0; 0; 0; 0; 0; 0; 0; 0; 0; 0], 6, 53, false, 1);
  ([64; 0; 0; 0; 0; 0; 0; 0; 0; 0; 0; 0; 0; 0; 0; 0; 0], 6, 52, false, 1);
  ([64; 0; 0; 0; 0; 0; 0; 0; 0; 0; 0; 0; 0; 0; 0; 0; 0], 6, 51, false, 1);
  ([64; 0; 0; 0; 0; 0; 0; 0; 0; 0; 0; 0; 0; 0; 0; 0; 0], 6, 50, false, 1);
  ([64; 0; 0; 0; 0; 0; 0; 0; 0; 0; 0; 0; 0; 0; 0; 0; 0], 6, 49, false, 1);
  ([64; 0; 0; 0; 0; 0; 0; 0; 0; 0; 0; 0; 0; 0; 0; 0; 0], 6, 48, false, 1);
  ([64; 0; 0; 0; 0; 0; 0; 0; 0; 0; 0; 0; 0; 0; 0; 0; 0], 6, 47, false, 1);
  ([64; 0; 0; 0; 0; 0; 0; 0; 0; 0; 0; 0; 0; 0; 0; 0; 0], 6, 46, false, 1);
  ([64; 0; 0; 0; 0; 0; 0; 0; 0; 0; 0; 0; 0; 0; 0; 0; 0], 6, 45, false, 1);
  ([64; 0; 0; 0; 0; 0; 0; 0; 0; 0; 0; 0; 0; 0; 0; 0; 0], 6, 44, false, 1);
  ([64; 0; 0; 0; 0; 0; 0; 0; 0; 0; 0; 0; 0; 0; 0; 0; 0], 6, 43, false, 1);
  ([64; 0; 0; 0; 0; 0; 0; 0; 0; 0; 0; 0; 0; 0; 0; 0; 0], 6, 42, false, 1);
  ([64; 0; 0; 0; 0; 0; 0; 0; 0; 0; 0; 0; 0; 0; 0; 0; 0], 6, 41, false, 1);
  ([64; 0; 0; 0; 0; 0; 0; 0; 0; 0; 0; 0; 0; 0; 0; 0; 0], 6, 40, false, 1);
  ([64; 0; 0; 0; 0; 0; 0; 0; 0; 0; 0; 0; 0; 0; 0; 0; 0], 6, 39, false, 1);
  ([64; 0; 0; 0; 0; 0; 0; 0; 0; 0; 0; 0; 0; 0; 0; 0; 0], 6, 38, false, 1);
  ([64; 0; 0; 0; 0; 0; 0; 0; 0; 0; 0; 0; 0; 0; 0; 0; 0], 6, 37, false, 1);
  ([64; 0; 0; 0; 0; 0; 0; 0; 0; 0; 0; 0; 0; 0; 0; 0; 0], 6, 36, false, 1);
  ([64; 0; 0; 0; 0; 0; 0; 0; 0; 0; 0; 0; 0; 0; 0; 0; 0], 6, 35, false, 1);
  ([64; 0; 0; 0; 0; 0; 0; 0; 0; 0; 0; 0; 0; 0; 0; 0; 0], 6, 34, false, 1);
  ([64; 0; 0; 0; 0; 0; 0; 0; 0; 0; 0; 0; 0; 0; 0; 0; 0], 6, 33, false, 1);
  ([64; 0; 0; 0; 0; 0; 0; 0; 0; 0; 0; 0; 0; 0; 0; 0; 0], 6, 32, false, 1);
  ([64; 0; 0; 0; 0; 0; 0; 0; 0; 0; 0; 0; 0; 0; 0; 0; 0], 6, 31, false, 1);
  ([64; 0; 0; 0; 0; 0; 0; 0; 0; 0; 0; 0; 0; 0; 0; 0; 0], 6, 30, false, 1);
  ([64; 0; 0; 0; 0; 0; 0; 0; 0; 0; 0; 0; 0; 0; 0; 0; 0], 6, 29, false, 1);
  ([64; 0; 0; 0; 0; 0; 0; 0; 0; 0; 0; 0; 0; 0; 0; 0; 0], 6, 28, false, 1);
  ([64; 0; 0; 0; 0; 0; 0; 0; 0; 0; 0; 0; 0; 0; 0; 0; 0], 6, 27, false, 1);
  ([64; 0; 0; 0; 0; 0; 0; 0; 0; 0; 0; 0; 0; 0; 0; 0; 0], 6, 26, false, 1);
  ([64; 0; 0; 0; 0; 0; 0; 0; 0; 0; 0; 0; 0; 0; 0; 0; 0], 6, 25, false, 1);
  ([64; 0; 0; 0; 0; 0; 0; 0; 0; 0; 0; 0; 0; 0; 0; 0; 0], 6, 24, false, 1);
  ([64; 0; 0; 0; 0; 0; 0; 0; 0; 0; 0; 0; 0; 0; 0; 0; 0], 6, 23, false, 1);
  ([64; 0; 0; 0; 0; 0; 0; 0; 0; 0; 0; 0; 0; 0; 0; 0; 0], 6, 22, false, 1);
  ([64; 0; 0; 0; 0; 0; 0; 0; 0; 0; 0; 0; 0; 0; 0; 0; 0], 6, 21, false, 1);
  ([64; 0; 0; 0; 0; 0; 0; 0; 0; 0; 0; 0; 0; 0; 0; 0; 0], 6, 20, false, 1);
  ([64; 0; 0; 0; 0; 0; 0; 0; 0; 0; 0; 0; 0; 0; 0; 0; 0], 6, 19, false, 1);
  ([64; 0; 0; 0; 0; 0; 0; 0; 0; 0; 0; 0; 0; 0; 0; 0; 0], 6, 18, false, 1);
  ([64; 0; 0; 0; 0; 0; 0; 0; 0; 0; 0; 0; 0; 0; 0; 0; 0], 6, 17, false, 1);
  ([64; 0; 0; 0; 0; 0; 0; 0; 0; 0; 0; 0; 0; 0; 0; 0; 0], 6, 16, false, 1);
  ([64; 0; 0; 0; 0; 0; 0; 0; 0; 0; 0; 0; 0; 0; 0; 0; 0], 6, 15, false, 1);
  ([64; 0; 0; 0; 0; 0; 0; 0; 0; 0; 0; 0; 0; 0; 0; 0; 0], 6, 14, false, 1);
  ([64; 0; 0; 0; 0; 0; 0; 0; 0; 0; 0; 0; 0; 0; 0; 0; 0], 6, 13, false, 1);
  ([64; 0; 0; 0; 0; 0; 0; 0; 0; 0; 0; 0; 0; 0; 0; 0; 0], 6, 12, false, 1);
  ([64; 0; 0; 0; 0; 0; 0; 0; 0; 0; 0; 0; 0; 0; 0; 0; 0], 6, 11, false, 1);
  ([64; 0; 0; 0; 0; 0; 0; 0; 0; 0; 0; 0; 0; 0; 0; 0; 0], 6, 10, false, 1);
  ([64; 0; 0; 0; 0; 0; 0; 0; 0; 0; 0; 0; 0; 0; 0; 0; 0], 6, 9, false, 1);
  ([64; 0; 0; 0; 0; 0; 0; 0; 0; 0; 0; 0; 0; 0; 0; 0; 0], 6, 8, false, 1);
  ([64; 0; 0; 0; 0; 0; 0; 0; 0; 0; 0; 0; 0; 0; 0; 0; 0], 6, 7, false, 1);
  ([64; 0; 0; 0; 0; 0; 0; 0; 0; 0; 0; 0; 0; 0; 0; 0; 0], 6, 6, false, 1);
  ([64; 0; 0; 0; 0; 0; 0; 0; 0; 0; 0; 0; 0; 0; 0; 0; 0], 6, 5, false, 1);
  ([64; 0; 0; 0; 0; 0; 0; 0; 0; 0; 0; 0; 0; 0; 0; 0; 0], 6, 4, false, 1);
  ([64; 0; 0; 0; 0; 0; 0; 0; 0; 0; 0; 0; 0; 0; 0; 0; 0], 6, 3, false, 1);
  ([64; 0; 0; 0; 0; 0; 0; 0; 0; 0; 0; 0; 0; 0; 0; 0; 0], 6, 2, false, 1);
  ([64; 0; 0; 0; 0; 0; 0; 0; 0; 0; 0; 0; 0; 0; 0; 0; 0], 6, 1, false, 1);
  ([32; 0; 0; 0; 0; 0; 0; 0; 0; 0; 0; 0; 0; 0; 0; 0; 0], 5, 64, false, 1);
  ([32; 0; 0; 0; 0; 0; 0; 0; 0; 0; 0; 0; 0; 0; 0; 0; 0], 5, 63, false, 1);
  ([32; 0; 0; 0; 0; 0; 0; 0; 0; 0; 0; 0; 0; 0; 0; 0; 0], 5, 62, false, 1);
  ([32; 0; 0; 0; 0; 0; 0; 0; 0; 0; 0; 0; 0; 0; 0; 0; 0], 5, 61, false, 1);
  ([32; 0; 0; 0; 0; 0; 0; 0; 0; 0; 0; 0; 0; 0; 0; 0; 0], 5, 60, false, 1);
  ([32; 0; 0; 0; 0; 0; 0; 0; 0; 0; 0; 0; 0; 0; 0; 0; 0], 5, 59, false, 1);
  ([32; 0; 0; 0; 0; 0; 0; 0; 0; 0; 0; 0; 0; 0; 0; 0; 0], 5, 58, false, 1);
  ([32; 0; 0; 0; 0; 0; 0; 0; 0; 0; 0; 0; 0; 0; 0; 0; 0], 5, 57, false, 1);
  ([32; 0; 0; 0; 0; 0; 0; 0; 0; 0; 0; 0; 0; 0; 0; 0; 0], 5, 56, false, 1);
  ([32; 0; 0; 0; 0; 0; 0; 0; 0; 0; 0; 0; 0; 0; 0; 0; 0], 5, 55, false, 1);
  ([32; 0; 0; 0; 0; 0; 0; 0; 0; 0; 0; 0; 0; 0; 0; 0; 0], 5, 54, false, 1);
  ([32; 0; 0; 0; 0; 0; 0; 0; 0; 0; 0; 0; 0; 0; 0; 0; 0], 5, 53, false, 1);
  ([32; 0; 0; 0; 0; 0; 0; 0; 0; 0; 0; 0; 0; 0; 0; 0; 0], 5, 52, false, 1);
  ([32; 0; 0; 0; 0; 0; 0; 0; 0; 0; 0; 0; 0; 0; 0; 0; 0], 5, 51, false, 1);
  ([32; 0; 0; 0; 0; 0; 0; 0; 0; 0; 0; 0; 0; 0; 0; 0; 0], 5, 50, false, 1);
  ([32; 0; 0; 0; 0; 0; 0; 0; 0; 0; 0; 0; 0; 0; 0; 0; 0], 5, 49, false, 1);
  ([32; 0; 0; 0; 0; 0; 0; 0; 0; 0; 0; 0; 0; 0; 0; 0; 0], 5, 48, false, 1);
  ([32; 0; 0; 0; 0; 0; 0; 0; 0; 0; 0; 0; 0; 0; 0; 0; 0], 5, 47, false, 1);
  ([32; 0; 0; 0; 0; 0; 0; 0; 0; 0; 0; 0; 0; 0; 0; 0; 0], 5, 46, false, 1);
  ([32; 0; 0; 0; 0; 0; 0; 0; 0; 0; 0; 0; 0; 0; 0; 0; 0], 5, 45, false, 1);
  ([32; 0; 0; 0; 0; 0; 0; 0; 0; 0; 0; 0; 0; 0; 0; 0; 0], 5, 44, false, 1);
  ([32; 0; 0; 0; 0; 0; 0; 0; 0; 0; 0; 0; 0; 0; 0; 0; 0], 5, 43, false, 1);
  ([32; 0; 0; 0; 0; 0; 0; 0; 0; 0; 0; 0; 0; 0; 0; 0; 0], 5, 42, false, 1);
  ([32; 0; 0; 0; 0; 0; 0; 0; 0; 0; 0; 0; 0; 0; 0; 0; 0], 5, 41, false, 1);
  ([32; 0; 0; 0; 0; 0; 0; 0; 0; 0; 0; 0; 0; 0; 0; 0; 0], 5, 40, false, 1);
  ([32; 0; 0; 0; 0; 0; 0; 0; 0; 0; 0; 0; 0; 0; 0; 0; 0], 5, 39, false, 1);
  ([32; 0; 0; 0; 0; 0; 0; 0; 0; 0; 0; 0; 0; 0; 0; 0; 0], 5, 38, false, 1);
  ([32; 0; 0; 0; 0; 0; 0; 0; 0; 0; 0; 0; 0; 0; 0; 0; 0], 5, 37, false, 1);
  ([32; 0; 0; 0; 0; 0; 0; 0; 0; 0; 0; 0; 0; 0; 0; 0; 0], 5, 36, false, 1);
  ([32; 0; 0; 0; 0; 0; 0; 0; 0; 0; 0; 0; 0; 0; 0; 0; 0], 5, 35, false, 1);
  ([32; 0; 0; 0; 0; 0; 0; 0; 0; 0; 0; 0; 0; 0; 0; 0; 0], 5, 34, false, 1);
  ([32; 0; 0; 0; 0; 0; 0; 0; 0; 0; 0; 0; 0; 0; 0; 0; 0], 5, 33, false, 1);
  ([32; 0; 0; 0; 0; 0; 0; 0; 0; 0; 0; 0; 0; 0; 0; 0; 0], 5, 32, false, 1);
  ([32; 0; 0; 0; 0; 0; 0; 0; 0; 0; 0; 0; 0; 0; 0; 0; 0], 5, 31, false, 1);
  ([32; 0; 0; 0; 0; 0; 0; 0; 0; 0; 0; 0; 0; 0; 0; 0; 0], 5, 30, false, 1);
  ([32; 0; 0; 0; 0; 0; 0; 0; 0; 0; 0; 0; 0; 0; 0; 0; 0], 5, 29, false, 1);
  ([32; 0; 0; 0; 0; 0; 0; 0; 0; 0; 0; 0; 0; 0; 0; 0; 0], 5, 28, false, 1);
  ([32; 0; 0; 0; 0; 0; 0; 0; 0; 0; 0; 0; 0; 0; 0; 0; 0], 5, 27, false, 1);
  ([32; 0; 0; 0; 0; 0; 0; 0; 0; 0; 0; 0; 0; 0; 0; 0; 0], 5, 26, false, 1);
  ([32; 0; 0; 0; 0; 0; 0; 0; 0; 0; 0; 0; 0; 0; 0; 0; 0], 5, 25, false, 1);
  ([32; 0; 0; 0; 0; 0; 0; 0; 0; 0; 0; 0; 0; 0; 0; 0; 0], 5, 24, false, 1);
  ([32; 0; 0; 0; 0; 0; 0; 0; 0; 0; 0; 0; 0; 0; 0; 0; 0], 5, 23, false, 1);
  ([32; 0; 0; 0; 0; 0; 0; 0; 0; 0; 0; 0; 0; 0; 0; 0; 0], 5, 22, false, 1);
  ([32; 0; 0; 0; 0; 0; 0; 0; 0; 0; 0; 0; 0; 0; 0; 0; 0], 5, 21, false, 1);
  ([32; 0; 0; 0; 0; 0; 0; 0; 0; 0; 0; 0; 0; 0; 0; 0; 0], 5, 20, false, 1);
  ([32; 0; 0; 0; 0; 0; 0; 0; 0; 0; 0; 0; 0; 0; 0; 0; 0], 5, 19, false, 1);
  ([32; 0; 0; 0; 0; 0; 0; 0; 0; 0; 0; 0; 0; 0; 0; 0; 0], 5, 18, false, 1);
  ([32; 0; 0; 0; 0; 0; 0; 0; 0; 0; 0; 0; 0; 0; 0; 0; 0], 5, 17, false, 1);
  ([32; 0; 0; 0; 0; 0; 0; 0; 0; 0; 0; 0; 0; 0; 0; 0; 0], 5, 16, false, 1);
  ([32; 0; 0; 0; 0; 0; 0; 0; 0; 0; 0; 0; 0; 0; 0; 0; 0], 5, 15, false, 1);
  ([32; 0; 0; 0; 0; 0; 0; 0; 0; 0; 0; 0; 0; 0; 0; 0; 0], 5, 14, false, 1);
  ([32; 0; 0; 0; 0; 0; 0; 0; 0; 0; 0; 0; 0; 0; 0; 0; 0], 5, 13, false, 1);
  ([32; 0; 0; 0; 0; 0; 0; 0; 0; 0; 0; 0; 0; 0; 0; 0; 0], 5, 12, false, 1);
  ([32; 0; 0; 0; 0; 0; 0; 0; 0; 0; 0; 0; 0; 0; 0; 0; 0], 5, 11, false, 1);
  ([32; 0; 0; 0; 0; 0; 0; 0; 0; 0; 0; 0; 0; 0; 0; 0; 0], 5, 10, false, 1);
  ([32; 0; 0; 0; 0; 0; 0; 0; 0; 0; 0; 0; 0; 0; 0; 0; 0], 5, 9, false, 1);
  ([32; 0; 0; 0; 0; 0; 0; 0; 0; 0; 0; 0; 0; 0; 0; 0; 0], 5, 8, false, 1);
  ([32; 0; 0; 0; 0; 0; 0; 0; 0; 0; 0; 0; 0; 0; 0; 0; 0], 5, 7, false, 1);
  ([32; 0; 0; 0; 0; 0; 0; 0; 0; 0; 0; 0; 0; 0; 0; 0; 0], 5, 6, false, 1);
  ([32; 0; 0; 0; 0; 0; 0; 0; 0; 0; 0; 0; 0; 0; 0; 0; 0], 5, 5, false, 1);
  ([32; 0; 0; 0; 0; 0; 0; 0; 0; 0; 0; 0; 0; 0; 0; 0; 0], 5, 4, false, 1);
  ([32; 0; 0; 0; 0; 0; 0; 0; 0; 0; 0; 0; 0; 0; 0; 0; 0], 5, 3, false, 1);
  ([32; 0; 0; 0; 0; 0; 0; 0; 0; 0; 0; 0; 0; 0; 0; 0; 0], 5, 2, false, 1);
  ([32; 0; 0; 0; 0; 0; 0; 0; 0; 0; 0; 0; 0; 0; 0; 0; 0], 5, 1, false, 1);
  ([16; 0; 0; 0; 0; 0; 0; 0; 0; 0; 0; 0; 0; 0; 0; 0; 0], 4, 64, false, 1);
  ([16; 0; 0; 0; 0; 0; 0; 0; 0; 0; 0; 0; 0; 0; 0; 0; 0], 4, 63, false, 1);
  ([16; 0; 0; 0; 0; 0; 0; 0; 0; 0; 0; 0; 0; 0; 0; 0; 0], 4, 62, false, 1);
  ([16; 0; 0; 0; 0; 0; 0; 0; 0; 0; 0; 0; 0; 0; 0; 0; 0], 4, 61, false, 1);
  ([16; 0; 0; 0; 0; 0; 0; 0; 0; 0; 0; 0; 0; 0; 0; 0; 0], 4, 60, false, 1);
  ([16; 0; 0; 0; 0; 0; 0; 0; 0; 0; 0; 0; 0; 0; 0; 0; 0], 4, 59, false, 1);
  ([16; 0; 0; 0; 0; 0; 0; 0; 0; 0; 0; 0; 0; 0; 0; 0; 0], 4, 58, false, 1);
  ([16; 0; 0; 0; 0; 0; 0; 0; 0; 0; 0; 0; 0; 0; 0; 0; 0], 4, 57, false, 1);
  ([16; 0; 0; 0; 0; 0; 0; 0; 0; 0; 0; 0; 0; 0; 0; 0; 0], 4, 56, false, 1);
  ([16; 0; 0; 0; 0; 0; 0; 0; 0; 0; 0; 0; 0; 0; 0; 0; 0], 4, 55, false, 1);
  ([16; 0; 0; 0; 0; 0; 0; 0; 0; 0; 0; 0; 0; 0; 0; 0; 0], 4, 54, false, 1);
  ([16; 0; 0; 0; 0; 0; 0; 0; 0; 0; 0; 0; 0; 0; 0; 0; 0], 4, 53, false, 1);
  ([16; 0; 0; 0; 0; 0; 0; 0; 0; 0; 0; 0; 0; 0; 0; 0; 0], 4, 52, false, 1);
  ([16; 0; 0; 0; 0; 0; 0; 0; 0; 0; 0; 0; 0; 0; 0; 0; 0], 4, 51, false, 1);
  ([16; 0; 0; 0; 0; 0; 0; 0; 0; 0; 0; 0; 0; 0; 0; 0; 0], 4, 50, false, 1);
  ([16; 0; 0; 0; 0; 0; 0; 0; 0; 0; 0; 0; 0; 0; 0; 0; 0], 4, 49, false, 1);
  ([16; 0; 0; 0; 0; 0; 0; 0; 0; 0; 0; 0; 0; 0; 0; 0; 0], 4, 48, false, 1);
  ([16; 0; 0; 0; 0; 0; 0; 0; 0; 0; 0; 0; 0; 0; 0; 0; 0], 4, 47, false, 1);
  ([16; 0; 0; 0; 0; 0; 0; 0; 0; 0; 0; 0; 0; 0; 0; 0; 0], 4, 46, false, 1);
  ([16; 0; 0; 0; 0; 0; 0; 0; 0; 0; 0; 0; 0; 0; 0; 0; 0], 4, 45, false, 1);
  ([16; 0; 0; 0; 0; 0; 0; 0; 0; 0; 0; 0; 0; 0; 0; 0; 0], 4, 44, false, 1);
  ([16; 0; 0; 0; 0; 0; 0; 0; 0; 0; 0; 0; 0; 0; 0; 0; 0], 4, 43, false, 1);
  ([16; 0; 0; 0; 0; 0; 0; 0; 0; 0; 0; 0; 0; 0; 0; 0; 0], 4, 42, false, 1);
  ([16; 0; 0; 0; 0; 0; 0; 0; 0; 0; 0; 0; 0; 0; 0; 0; 0], 4, 41, false, 1);
  ([16; 0; 0; 0; 0; 0; 0; 0; 0; 0; 0; 0; 0; 0; 0; 0; 0], 4, 40, false, 1);
  ([16; 0; 0; 0; 0; 0; 0; 0; 0; 0; 0; 0; 0; 0; 0; 0; 0], 4, 39, false, 1);
  ([16; 0; 0; 0; 0; 0; 0; 0; 0; 0; 0; 0; 0; 0; 0; 0; 0], 4, 38, false, 1);
  ([16; 0; 0; 0; 0; 0; 0; 0; 0; 0; 0; 0; 0; 0; 0; 0; 0], 4, 37, false, 1);
  ([16; 0; 0; 0; 0; 0; 0; 0; 0; 0; 0; 0; 0; 0; 0; 0; 0], 4, 36, false, 1);
  ([16; 0; 0; 0; 0; 0; 0; 0; 0; 0; 0; 0; 0; 0; 0; 0; 0], 4, 35, false, 1);
  ([16; 0; 0; 0; 0; 0; 0; 0; 0; 0; 0; 0; 0; 0; 0; 0; 0], 4, 34, false, 1);
  ([16; 0; 0; 0; 0; 0; 0; 0; 0; 0; 0; 0; 0; 0; 0; 0; 0], 4, 33, false, 1);
  ([16; 0; 0; 0; 0; 0; 0; 0; 0; 0; 0; 0; 0; 0; 0; 0; 0], 4, 32, false, 1);
  ([16; 0; 0; 0; 0; 0; 0; 0; 0; 0; 0; 0; 0; 0; 0; 0; 0], 4, 31, false, 1);
  ([16; 0; 0; 0; 0; 0; 0; 0; 0; 0; 0; 0; 0; 0; 0; 0; 0], 4, 30, false, 1);
  ([16; 0; 0; 0; 0; 0; 0; 0; 0; 0; 0; 0; 0; 0; 0; 0; 0], 4, 29, false, 1);
  ([16; 0; 0; 0; 0; 0; 0; 0; 0; 0; 0; 0; 0; 0; 0; 0; 0], 4, 28, false, 1);
  ([16; 0; 0; 0; 0; 0; 0; 0; 0; 0; 0; 0; 0; 0; 0; 0; 0], 4, 27, false, 1);
  ([16; 0; 0; 0; 0; 0; 0; 0; 0; 0; 0; 0; 0; 0; 0; 0; 0], 4, 26, false, 1);
  ([16; 0; 0; 0; 0; 0; 0; 0; 0; 0; 0; 0; 0; 0; 0; 0; 0], 4, 25, false, 1);
  ([16; 0; 0; 0; 0; 0; 0; 0; 0; 0; 0; 0; 0; 0; 0; 0; 0], 4, 24, false, 1);
  ([16; 0; 0; 0; 0; 0; 0; 0; 0; 0; 0; 0; 0; 0; 0; 0; 0], 4, 23, false, 1);
  ([16; 0; 0; 0; 0; 0; 0; 0; 0; 0; 0; 0; 0; 0; 0; 0; 0], 4, 22, false, 1);
  ([16; 0; 0; 0; 0; 0; 0; 0; 0; 0; 0; 0; 0; 0; 0; 0; 0], 4, 21, false, 1);
  ([16; 0; 0; 0; 0; 0; 0; 0; 0; 0; 0; 0; 0; 0; 0; 0; 0], 4, 20, false, 1);
  ([16; 0; 0; 0; 0; 0; 0; 0; 0; 0; 0; 0; 0; 0; 0; 0; 0], 4, 19, false, 1);
  ([16; 0; 0; 0; 0; 0; 0; 0; 0; 0; 0; 0; 0; 0; 0; 0; 0], 4, 18, false, 1);
  ([16; 0; 0; 0; 0; 0; 0; 0; 0; 0; 0; 0; 0; 0; 0; 0; 0], 4, 17, false, 1);
  ([16; 0; 0; 0; 0; 0; 0; 0; 0; 0; 0; 0; 0; 0; 0; 0; 0], 4, 16, false, 1);
  ([16; 0; 0; 0; 0; 0; 0; 0; 0; 0; 0; 0; 0; 0; 0; 0; 0], 4, 15, false, 1);
  ([16; 0; 0; 0; 0; 0; 0; 0; 0; 0; 0; 0; 0; 0; 0; 0; 0], 4, 14, false, 1);
  ([16; 0; 0; 0; 0; 0; 0; 0; 0; 0; 0; 0; 0; 0; 0; 0; 0], 4, 13, false, 1);
  ([16; 0; 0; 0; 0; 0; 0; 0; 0; 0; 0; 0; 0; 0; 0; 0; 0], 4, 12, false, 1);
  ([16; 0; 0; 0; 0; 0; 0; 0; 0; 0; 0; 0; 0; 0; 0; 0; 0], 4, 11, false, 1);
  ([16; 0; 0; 0; 0; 0; 0; 0; 0; 0; 0; 0; 0; 0; 0; 0; 0], 4, 10, false, 1);
  ([16; 0; 0; 0; 0; 0; 0; 0; 0; 0; 0; 0; 0; 0; 0; 0; 0], 4, 9, false, 1);
  ([16; 0; 0; 0; 0; 0; 0; 0; 0; 0; 0; 0; 0; 0; 0; 0; 0], 4, 8, false, 1);
  ([16; 0; 0; 0; 0; 0; 0; 0; 0; 0; 0; 0; 0; 0; 0; 0; 0], 4, 7, false, 1);
  ([16; 0; 0; 0; 0; 0; 0; 0; 0; 0; 0; 0; 0; 0; 0; 0; 0], 4, 6, false, 1);
  ([16; 0; 0; 0; 0; 0; 0; 0; 0; 0; 0; 0; 0; 0; 0; 0; 0], 4, 5, false, 1);
  ([16; 0; 0; 0; 0; 0; 0; 0; 0; 0; 0; 0; 0; 0; 0; 0; 0], 4, 3, false, 1);
  ([16; 0; 0; 0; 0; 0; 0; 0; 0; 0; 0; 0; 0; 0; 0; 0; 0], 4, 2, false, 1);
  ([16; 0; 0; 0; 0; 0; 0; 0; 0; 0; 0; 0; 0; 0; 0; 0; 0], 4, 1, false, 1);
  ([8; 0; 0; 0; 0; 0; 0; 0; 0; 0; 0; 0; 0; 0; 0; 0; 0], 3, 64, false, 1);
  ([8; 0; 0; 0; 0; 0; 0; 0; 0; 0; 0; 0; 0; 0; 0; 0; 0], 3, 63, false, 1);
  ([8; 0; 0; 0; 0; 0; 0; 0; 0; 0; 0; 0; 0; 0; 0; 0; 0], 3, 62, false, 1);
  ([8; 0; 0; 0; 0; 0; 0; 0; 0; 0; 0; 0; 0; 0; 0; 0; 0], 3, 61, false, 1);
  ([8; 0; 0; 0; 0; 0; 0; 0; 0; 0; 0; 0; 0; 0; 0; 0; 0], 3, 60, false, 1);
  ([8; 0; 0; 0; 0; 0; 0; 0; 0; 0; 0; 0; 0; 0; 0; 0; 0], 3, 59, false, 1);
  ([8; 0; 0; 0; 0; 0; 0; 0; 0; 0; 0; 0; 0; 0; 0; 0; 0], 3, 58, false, 1);
  ([8; 0; 0; 0; 0; 0; 0; 0; 0; 0; 0; 0; 0; 0; 0; 0; 0], 3, 57, false, 1);
  ([8; 0; 0; 0; 0; 0; 0; 0; 0; 0; 0; 0; 0; 0; 0; 0; 0], 3, 56, false, 1);
  ([8; 0; 0; 0; 0; 0; 0; 0; 0; 0; 0; 0; 0; 0; 0; 0; 0], 3, 55, false, 1);
  ([8; 0; 0; 0; 0; 0; 0; 0; 0; 0; 0; 0; 0; 0; 0; 0; 0], 3, 54, false, 1);
  ([8; 0; 0; 0; 0; 0; 0; 0; 0; 0; 0; 0; 0; 0; 0; 0; 0], 3, 53, false, 1);
  ([8; 0; 0; 0; 0; 0; 0; 0; 0; 0; 0; 0; 0; 0; 0; 0; 0], 3, 52, false, 1);
  ([8; 0; 0; 0; 0; 0; 0; 0; 0; 0; 0; 0; 0; 0; 0; 0; 0], 3, 51, false, 1);
  ([8; 0; 0; 0; 0; 0; 0; 0; 0; 0; 0; 0; 0; 0; 0; 0; 0], 3, 50, false, 1);
  ([8; 0; 0; 0; 0; 0; 0; 0; 0; 0; 0; 0; 0; 0; 0; 0; 0], 3, 49, false, 1);
  ([8; 0; 0; 0; 0; 0; 0; 0; 0; 0; 0; 0; 0; 0; 0; 0; 0], 3, 48, false, 1);
  ([8; 0; 0; 0; 0; 0; 0; 0; 0; 0; 0; 0; 0; 0; 0; 0; 0], 3, 47, false, 1);
  ([8; 0; 0; 0; 0; 0; 0; 0; 0; 0; 0; 0; 0; 0; 0; 0; 0], 3, 46, false, 1);
  ([8; 0; 0; 0; 0; 0; 0; 0; 0; 0; 0; 0; 0; 0; 0; 0; 0], 3, 45, false, 1);
  ([8; 0; 0; 0; 0; 0; 0; 0; 0; 0; 0; 0; 0; 0; 0; 0; 0], 3, 44, false, 1);
  ([8; 0; 0; 0; 0; 0; 0; 0; 0; 0; 0; 0; 0; 0; 0; 0; 0], 3, 43, false, 1);
  ([8; 0; 0; 0; 0; 0; 0; 0; 0; 0; 0; 0; 0; 0; 0; 0; 0], 3, 42, false, 1);
  ([8; 0; 0; 0; 0; 0; 0; 0; 0; 0; 0; 0; 0; 0; 0; 0; 0], 3, 41, false, 1);
  ([8; 0; 0; 0; 0; 0; 0; 0; 0; 0; 0; 0; 0; 0; 0; 0; 0], 3, 40, false, 1);
  ([8; 0; 0; 0; 0; 0; 0; 0; 0; 0; 0; 0; 0; 0; 0; 0; 0], 3, 39, false, 1);
  ([8; 0; 0; 0; 0; 0; 0; 0; 0; 0; 0; 0; 0; 0; 0; 0; 0], 3, 38, false, 1);
  ([8; 0; 0; 0; 0; 0; 0; 0; 0; 0; 0; 0; 0; 0; 0; 0; 0], 3, 37, false, 1);
  ([8; 0; 0; 0; 0; 0; 0; 0; 0; 0; 0; 0; 0; 0; 0; 0; 0], 3, 36, false, 1);
  ([8; 0; 0; 0; 0; 0; 0; 0; 0; 0; 0; 0; 0; 0; 0; 0; 0], 3, 35, false, 1);
  ([8; 0; 0; 0; 0; 0; 0; 0; 0; 0; 0; 0; 0; 0; 0; 0; 0], 3, 34, false, 1);
  ([8; 0; 0; 0; 0; 0; 0; 0; 0; 0; 0; 0; 0; 0; 0; 0; 0], 3, 33, false, 1);
  ([8; 0; 0; 0; 0; 0; 0; 0; 0; 0; 0; 0; 0; 0; 0; 0; 0], 3, 32, false, 1);
  ([8; 0; 0; 0; 0; 0; 0; 0; 0; 0; 0; 0; 0; 0; 0; 0; 0], 3, 31, false, 1);
  ([8; 0; 0; 0; 0; 0; 0; 0; 0; 0; 0; 0; 0; 0; 0; 0; 0], 3, 30, false, 1);
  ([8; 0; 0; 0; 0; 0; 0; 0; 0; 0; 0; 0; 0; 0; 0; 0; 0], 3, 29, false, 1);
  ([8; 0; 0; 0; 0; 0; 0; 0; 0; 0; 0; 0; 0; 0; 0; 0; 0], 3, 28, false, 1);
  ([8; 0; 0; 0; 0; 0; 0; 0; 0; 0; 0; 0; 0; 0; 0; 0; 0], 3, 27, false, 1);
  ([8; 0; 0; 0; 0; 0; 0; 0; 0; 0; 0; 0; 0; 0; 0; 0; 0], 3, 26, false, 1);
  ([8; 0; 0; 0; 0; 0; 0; 0; 0; 0; 0; 0; 0; 0; 0; 0; 0], 3, 25, false, 1);
  ([8; 0; 0; 0; 0; 0; 0; 0; 0; 0; 0; 0; 0; 0; 0; 0; 0], 3, 24, false, 1);
  ([8; 0; 0; 0; 0; 0; 0; 0; 0; 0; 0; 0; 0; 0; 0; 0; 0], 3, 23, false, 1);
  ([8; 0; 0; 0; 0; 0; 0; 0; 0; 0; 0; 0; 0; 0; 0; 0; 0], 3, 22, false, 1);
  ([8; 0; 0; 0; 0; 0; 0; 0; 0; 0; 0; 0; 0; 0; 0; 0; 0], 3, 21, false, 1);
  ([8; 0; 0; 0; 0; 0; 0; 0; 0; 0; 0; 0; 0; 0; 0; 0; 0], 3, 20, false, 1);
  ([8; 0; 0; 0; 0; 0; 0; 0; 0; 0; 0; 0; 0; 0; 0; 0; 0], 3, 19, false, 1);
  ([8; 0; 0; 0; 0; 0; 0; 0; 0; 0; 0; 0; 0; 0; 0; 0; 0], 3, 18, false, 1);
  ([8; 0; 0; 0; 0; 0; 0; 0; 0; 0; 0; 0; 0; 0; 0; 0; 0], 3, 17, false, 1);
  ([8; 0; 0; 0; 0; 0; 0; 0; 0; 0; 0; 0; 0; 0; 0; 0; 0], 3, 16, false, 1);
  ([8; 0; 0; 0; 0; 0; 0; 0; 0; 0; 0; 0; 0; 0; 0; 0; 0], 3, 15, false, 1);
  ([8; 0; 0; 0; 0; 0; 0; 0; 0; 0; 0; 0; 0; 0; 0; 0; 0], 3, 14, false, 1);
  ([8; 0; 0; 0; 0; 0; 0; 0; 0; 0; 0; 0; 0; 0; 0; 0; 0], 3, 13, false, 1);
  ([8; 0; 0; 0; 0; 0; 0; 0; 0; 0; 0; 0; 0; 0; 0; 0; 0], 3, 12, false, 1);
  ([8; 0; 0; 0; 0; 0; 0; 0; 0; 0; 0; 0; 0; 0; 0; 0; 0], 3, 11, false, 1);
  ([8; 0; 0; 0; 0; 0; 0; 0; 0; 0; 0; 0; 0; 0; 0; 0; 0], 3, 10, false, 1);
  ([8; 0; 0; 0; 0; 0; 0; 0; 0; 0; 0; 0; 0; 0; 0; 0; 0], 3, 9, false, 1);
  ([8; 0; 0; 0; 0; 0; 0; 0; 0; 0; 0; 0; 0; 0; 0; 0; 0], 3, 8, false, 1);
  ([8; 0; 0; 0; 0; 0; 0; 0; 0; 0; 0; 0; 0; 0; 0; 0; 0], 3, 7, false, 1);
  ([8; 0; 0; 0; 0; 0; 0; 0; 0; 0; 0; 0; 0; 0; 0; 0; 0], 3, 6, false, 1);
  ([8; 0; 0; 0; 0; 0; 0; 0; 0; 0; 0; 0; 0; 0; 0; 0; 0], 3, 5, false, 1);
  ([8; 0; 0; 0; 0; 0; 0; 0; 0; 0; 0; 0; 0; 0; 0; 0; 0], 3, 4, false, 1);
  ([8; 0; 0; 0; 0; 0; 0; 0; 0; 0; 0; 0; 0; 0; 0; 0; 0], 3, 3, false, 1);
  ([8; 0; 0; 0; 0; 0; 0; 0; 0; 0; 0; 0; 0; 0; 0; 0; 0], 3, 2, false, 1);
  ([8; 0; 0; 0; 0; 0; 0; 0; 0; 0; 0; 0; 0; 0; 0; 0; 0], 3, 1, false, 1);
  ([4; 0; 0; 0; 0; 0; 0; 0; 0; 0; 0; 0; 0; 0; 0; 0; 0], 2, 64, false, 1);
  ([4; 0; 0; 0; 0; 0; 0; 0; 0; 0; 0; 0; 0; 0; 0; 0; 0], 2, 63, false, 1);
  ([4; 0; 0; 0; 0; 0; 0; 0; 0; 0; 0; 0; 0; 0; 0; 0; 0], 2, 62, false, 1);
  ([4; 0; 0; 0; 0; 0; 0; 0; 0; 0; 0; 0; 0; 0; 0; 0; 0], 2, 61, false, 1);
  ([4; 0; 0; 0; 0; 0; 0; 0; 0; 0; 0; 0; 0; 0; 0; 0; 0], 2, 60, false, 1);
  ([4; 0; 0; 0; 0; 0; 0; 0; 0; 0; 0; 0; 0; 0; 0; 0; 0], 2, 59, false, 1);
  ([4; 0; 0; 0; 0; 0; 0; 0; 0; 0; 0; 0; 0; 0; 0; 0; 0], 2, 58, false, 1);
  ([4; 0; 0; 0; 0; 0; 0; 0; 0; 0; 0; 0; 0; 0; 0; 0; 0], 2, 57, false, 1);
  ([4; 0; 0; 0; 0; 0; 0; 0; 0; 0; 0; 0; 0; 0; 0; 0; 0], 2, 56, false, 1);
  ([4; 0; 0; 0; 0; 0; 0; 0; 0; 0; 0; 0; 0; 0; 0; 0; 0], 2, 55, false, 1);
  ([4; 0; 0; 0; 0; 0; 0; 0; 0; 0; 0; 0; 0; 0; 0; 0; 0], 2, 54, false, 1);
  ([4; 0; 0; 0; 0; 0; 0; 0; 0; 0; 0; 0; 0; 0; 0; 0; 0], 2, 53, false, 1);
  ([4; 0; 0; 0; 0; 0; 0; 0; 0; 0; 0; 0; 0; 0; 0; 0; 0], 2, 52, false, 1);
  ([4; 0; 0; 0; 0; 0; 0; 0; 0; 0; 0; 0; 0; 0; 0; 0; 0], 2, 51, false, 1);
  ([4; 0; 0; 0; 0; 0; 0; 0; 0; 0; 0; 0; 0; 0; 0; 0; 0], 2, 50, false, 1);
  ([4; 0; 0; 0; 0; 0; 0; 0; 0; 0; 0; 0; 0; 0; 0; 0; 0], 2, 49, false, 1);
  ([4; 0; 0; 0; 0; 0; 0; 0; 0; 0; 0; 0; 0; 0; 0; 0; 0], 2, 48, false, 1);
  ([4; 0; 0; 0; 0; 0; 0; 0; 0; 0; 0; 0; 0; 0; 0; 0; 0], 2, 47, false, 1);
  ([4; 0; 0; 0; 0; 0; 0; 0; 0; 0; 0; 0; 0; 0; 0; 0; 0], 2, 46, false, 1);
  ([4; 0; 0; 0; 0; 0; 0; 0; 0; 0; 0; 0; 0; 0; 0; 0; 0], 2, 45, false, 1);
  ([4; 0; 0; 0; 0; 0; 0; 0; 0; 0; 0; 0; 0; 0; 0; 0; 0], 2, 44, false, 1);
  ([4; 0; 0; 0; 0; 0; 0; 0; 0; 0; 0; 0; 0; 0; 0; 0; 0], 2, 43, false, 1);
  ([4; 0; 0; 0; 0; 0; 0; 0; 0; 0; 0; 0; 0; 0; 0; 0; 0], 2, 42, false, 1);
  ([4; 0; 0; 0; 0; 0; 0; 0; 0; 0; 0; 0; 0; 0; 0; 0; 0], 2, 41, false, 1);
  ([4; 0; 0; 0; 0; 0; 0; 0; 0; 0; 0; 0; 0; 0; 0; 0; 0], 2, 40, false, 1);
  ([4; 0; 0; 0; 0; 0; 0; 0; 0; 0; 0; 0; 0; 0; 0; 0; 0], 2, 39, false, 1);
  ([4; 0; 0; 0; 0; 0; 0; 0; 0; 0; 0; 0; 0; 0; 0; 0; 0], 2, 38, false, 1);
  ([4; 0; 0; 0; 0; 0; 0; 0; 0; 0; 0; 0; 0; 0; 0; 0; 0], 2, 37, false, 1);
  ([4; 0; 0; 0; 0; 0; 0; 0; 0; 0; 0; 0; 0; 0; 0; 0; 0], 2, 36, false, 1);
  ([4; 0; 0; 0; 0; 0; 0; 0; 0; 0; 0; 0; 0; 0; 0; 0; 0], 2, 35, false, 1);
  ([4; 0; 0; 0; 0; 0; 0; 0; 0; 0; 0; 0; 0; 0; 0; 0; 0], 2, 34, false, 1);
  ([4; 0; 0; 0; 0; 0; 0; 0; 0; 0; 0; 0; 0; 0; 0; 0; 0], 2, 33, false, 1);
  ([4; 0; 0; 0; 0; 0; 0; 0; 0; 0; 0; 0; 0; 0; 0; 0; 0], 2, 32, false, 1);
  ([4; 0; 0; 0; 0; 0; 0; 0; 0; 0; 0; 0; 0; 0; 0; 0; 0], 2, 31, false, 1);
  ([4; 0; 0; 0; 0; 0; 0; 0; 0; 0; 0; 0; 0; 0; 0; 0; 0], 2, 30, false, 1);
  ([4; 0; 0; 0; 0; 0; 0; 0; 0; 0; 0; 0; 0; 0; 0; 0; 0], 2, 29, false, 1);
  ([4; 0; 0; 0; 0; 0; 0; 0; 0; 0; 0; 0; 0; 0; 0; 0; 0], 2, 28, false, 1);
  ([4; 0; 0; 0; 0; 0; 0; 0; 0; 0; 0; 0; 0; 0; 0; 0; 0], 2, 27, false, 1);
  ([4; 0; 0; 0; 0; 0; 0; 0; 0; 0; 0; 0; 0; 0; 0; 0; 0], 2, 26, false, 1);
  ([4; 0; 0; 0; 0; 0; 0; 0; 0; 0; 0; 0; 0; 0; 0; 0; 0], 2, 25, false, 1);
  ([4; 0; 0; 0; 0; 0; 0; 0; 0; 0; 0; 0; 0; 0; 0; 0; 0], 2, 24, false, 1);
  ([4; 0; 0; 0; 0; 0; 0; 0; 0; 0; 0; 0; 0; 0; 0; 0; 0], 2, 23, false, 1);
  ([4; 0; 0; 0; 0; 0; 0; 0; 0; 0; 0; 0; 0; 0; 0; 0; 0], 2, 22, false, 1);
  ([4; 0; 0; 0; 0; 0; 0; 0; 0; 0; 0; 0; 0; 0; 0; 0; 0], 2, 21, false, 1);
  ([4; 0; 0; 0; 0; 0; 0; 0; 0; 0; 0; 0; 0; 0; 0; 0; 0], 2, 20, false, 1);
  ([4; 0; 0; 0; 0; 0; 0; 0; 0; 0; 0; 0; 0; 0; 0; 0; 0], 2, 19, false, 1);
  ([4; 0; 0; 0; 0; 0; 0; 0; 0; 0; 0; 0; 0; 0; 0; 0; 0], 2, 18, false, 1);
  ([4; 0; 0; 0; 0; 0; 0; 0; 0; 0; 0; 0; 0; 0; 0; 0; 0], 2, 17, false, 1);
  ([4; 0; 0; 0; 0; 0; 0; 0; 0; 0; 0; 0; 0; 0; 0; 0; 0], 2, 16, false, 1);
  ([4; 0; 0; 0; 0; 0; 0; 0; 0; 0; 0; 0; 0; 0; 0; 0; 0], 2, 15, false, 1);
  ([4; 0; 0; 0; 0; 0; 0; 0; 0; 0; 0; 0; 0; 0; 0; 0; 0], 2, 14, false, 1);
  ([4; 0; 0; 0; 0; 0; 0; 0; 0; 0; 0; 0; 0; 0; 0; 0; 0], 2, 13, false, 1);
  ([4; 0; 0; 0; 0; 0; 0; 0; 0; 0; 0; 0; 0; 0; 0; 0; 0], 2, 12, false, 1);
  ([4; 0; 0; 0; 0; 0; 0; 0; 0; 0; 0; 0; 0; 0; 0; 0; 0], 2, 11, false, 1);
  ([4; 0; 0; 0; 0; 0; 0; 0; 0; 0; 0; 0; 0; 0; 0; 0; 0], 2, 10, false, 1);
  ([4; 0; 0; 0; 0; 0; 0; 0; 0; 0; 0; 0; 0; 0; 0; 0; 0], 2, 9, false, 1);
  ([4; 0; 0; 0; 0; 0; 0; 0; 0; 0; 0; 0; 0; 0; 0; 0; 0], 2, 8, false, 1);
  ([4; 0; 0; 0; 0; 0; 0; 0; 0; 0; 0; 0; 0; 0; 0; 0; 0], 2, 7, false, 1);
  ([4; 0; 0; 0; 0; 0; 0; 0; 0; 0; 0; 0; 0; 0; 0; 0; 0], 2, 6, false, 1);
  ([4; 0; 0; 0; 0; 0; 0; 0; 0; 0; 0; 0; 0; 0; 0; 0; 0], 2, 5, false, 1);
  ([4; 0; 0; 0; 0; 0; 0; 0; 0; 0; 0; 0; 0; 0; 0; 0; 0], 2, 4, false, 1);
  ([4; 0; 0; 0; 0; 0; 0; 0; 0; 0; 0; 0; 0; 0; 0; 0; 0], 2, 3, false, 1);
  ([4; 0; 0; 0; 0; 0; 0; 0; 0; 0; 0; 0; 0; 0; 0; 0; 0], 2, 2, false, 1);
  ([4; 0; 0; 0; 0; 0; 0; 0; 0; 0; 0; 0; 0; 0; 0; 0; 0], 2, 1, false, 1);
  ([2; 0; 0; 0; 0; 0; 0; 0; 0; 0; 0; 0; 0; 0; 0; 0; 0], 1, 64, false, 1);
  ([2; 0; 0; 0; 0; 0; 0; 0; 0; 0; 0; 0; 0; 0; 0; 0; 0], 1, 63, false, 1);
  ([2; 0; 0; 0; 0; 0; 0; 0; 0; 0; 0; 0; 0; 0; 0; 0; 0], 1, 62, false, 1);
  ([2; 0; 0; 0; 0; 0; 0; 0; 0; 0; 0; 0; 0; 0; 0; 0; 0], 1, 61, false, 1);
  ([2; 0; 0; 0; 0; 0; 0; 0; 0; 0; 0; 0; 0; 0; 0; 0; 0], 1, 60, false, 1);
  ([2; 0; 0; 0; 0; 0; 0; 0; 0; 0; 0; 0; 0; 0; 0; 0; 0], 1, 59, false, 1);
  ([2; 0; 0; 0; 0; 0; 0; 0; 0; 0; 0; 0; 0; 0; 0; 0; 0], 1, 58, false, 1);
  ([2; 0; 0; 0; 0; 0; 0; 0; 0; 0; 0; 0; 0; 0; 0; 0; 0], 1, 57, false, 1);
  ([2; 0; 0; 0; 0; 0; 0; 0; 0; 0; 0; 0; 0; 0; 0; 0; 0], 1, 56, false, 1);
  ([2; 0; 0; 0; 0; 0; 0; 0; 0; 0; 0; 0; 0; 0; 0; 0; 0], 1, 55, false, 1);
  ([2; 0; 0; 0; 0; 0; 0; 0; 0; 0; 0; 0; 0; 0; 0; 0; 0], 1, 54, false, 1);
  ([2; 0; 0; 0; 0; 0; 0; 0; 0; 0; 0; 0; 0; 0; 0; 0; 0], 1, 53, false, 1);
  ([2; 0; 0; 0; 0; 0; 0; 0; 0; 0; 0; 0; 0; 0; 0; 0; 0], 1, 52, false, 1);
  ([2; 0; 0; 0; 0; 0; 0; 0; 0; 0; 0; 0; 0; 0; 0; 0; 0], 1, 51, false, 1);
  ([2; 0; 0; 0; 0; 0; 0; 0; 0; 0; 0; 0; 0; 0; 0; 0; 0], 1, 50, false, 1);
  ([2; 0; 0; 0; 0; 0; 0; 0; 0; 0; 0; 0; 0; 0; 0; 0; 0], 1, 49, false, 1);
  ([2; 0; 0; 0; 0; 0; 0; 0; 0; 0; 0; 0; 0; 0; 0; 0; 0], 1, 48, false, 1);
  ([2; 0; 0; 0; 0; 0; 0; 0; 0; 0; 0; 0; 0; 0; 0; 0; 0], 1, 47, false, 1);
  ([2; 0; 0; 0; 0; 0; 0; 0; 0; 0; 0; 0; 0; 0; 0; 0; 0], 1, 46, false, 1);
  ([2; 0; 0; 0; 0; 0; 0; 0; 0; 0; 0; 0; 0; 0; 0; 0; 0], 1, 45, false, 1);
  ([2; 0; 0; 0; 0; 0; 0; 0; 0; 0; 0; 0; 0; 0; 0; 0; 0], 1, 44, false, 1);
  ([2; 0; 0; 0; 0; 0; 0; 0; 0; 0; 0; 0; 0; 0; 0; 0; 0], 1, 43, false, 1);
  ([2; 0; 0; 0; 0; 0; 0; 0; 0; 0; 0; 0; 0; 0; 0; 0; 0], 1, 42, false, 1);
  ([2; 0; 0; 0; 0; 0; 0; 0; 0; 0; 0; 0; 0; 0; 0; 0; 0], 1, 41, false, 1);
  ([2; 0; 0; 0; 0; 0; 0; 0; 0; 0; 0; 0; 0; 0; 0; 0; 0], 1, 40, false, 1);
  ([2; 0; 0; 0; 0; 0; 0; 0; 0; 0; 0; 0; 0; 0; 0; 0; 0], 1, 39, false, 1);
  ([2; 0; 0; 0; 0; 0; 0; 0; 0; 0; 0; 0; 0; 0; 0; 0; 0], 1, 38, false, 1);
  ([2; 0; 0; 0; 0; 0; 0; 0; 0; 0; 0; 0; 0; 0; 0; 0; 0], 1, 37, false, 1);
  ([2; 0; 0; 0; 0; 0; 0; 0; 0; 0; 0; 0; 0; 0; 0; 0; 0], 1, 36, false, 1);
  ([2; 0; 0; 0; 0; 0; 0; 0; 0; 0; 0; 0; 0; 0; 0; 0; 0], 1, 35, false, 1);
  ([2; 0; 0; 0; 0; 0; 0; 0; 0; 0; 0; 0; 0; 0; 0; 0; 0], 1, 34, false, 1);
  ([2; 0; 0; 0; 0; 0; 0; 0; 0; 0; 0; 0; 0; 0; 0; 0; 0], 1, 33, false, 1);
  ([2; 0; 0; 0; 0; 0; 0; 0; 0; 0; 0; 0; 0; 0; 0; 0; 0], 1, 32, false, 1);
  ([2; 0; 0; 0; 0; 0; 0; 0; 0; 0; 0; 0; 0; 0; 0; 0; 0], 1, 31, false, 1);
  ([2; 0; 0; 0; 0; 0; 0; 0; 0; 0; 0; 0; 0; 0; 0; 0; 0], 1, 30, false, 1);
  ([2; 0; 0; 0; 0; 0; 0; 0; 0; 0; 0; 0; 0; 0; 0; 0; 0], 1, 29, false, 1);
  ([2; 0; 0; 0; 0; 0; 0; 0; 0; 0; 0; 0; 0; 0; 0; 0; 0], 1, 28, false, 1);
  ([2; 0; 0; 0; 0; 0; 0; 0; 0; 0; 0; 0; 0; 0; 0; 0; 0], 1, 27, false, 1);
  ([2; 0; 0; 0; 0; 0; 0; 0; 0; 0; 0; 0; 0; 0; 0; 0; 0], 1, 26, false, 1);
  ([2; 0; 0; 0; 0; 0; 0; 0; 0; 0; 0; 0; 0; 0; 0; 0; 0], 1, 25, false, 1);
  ([2; 0; 0; 0; 0; 0; 0; 0; 0; 0; 0; 0; 0; 0; 0; 0; 0], 1, 24, false, 1);
  ([2; 0; 0; 0; 0; 0; 0; 0; 0; 0; 0; 0; 0; 0; 0; 0; 0], 1, 23, false, 1);
  ([2; 0; 0; 0; 0; 0; 0; 0; 0; 0; 0; 0; 0; 0; 0; 0; 0], 1, 22, false, 1);
  ([2; 0; 0; 0; 0; 0; 0; 0; 0; 0; 0; 0; 0; 0; 0; 0; 0], 1, 21, false, 1);
  ([2; 0; 0; 0; 0; 0; 0; 0; 0; 0; 0; 0; 0; 0; 0; 0; 0], 1, 20, false, 1);
  ([2; 0; 0; 0; 0; 0; 0; 0; 0; 0; 0; 0; 0; 0; 0; 0; 0], 1, 19, false, 1);
  ([2; 0; 0; 0; 0; 0; 0; 0; 0; 0; 0; 0; 0; 0; 0; 0; 0], 1, 18, false, 1);
  ([2; 0; 0; 0; 0; 0; 0; 0; 0; 0; 0; 0; 0; 0; 0; 0; 0], 1, 17, false, 1);
  ([2; 0; 0; 0; 0; 0; 0; 0; 0; 0; 0; 0; 0; 0; 0; 0; 0], 1, 16, false, 1);
  ([2; 0; 0; 0; 0; 0; 0; 0; 0; 0; 0; 0; 0; 0; 0; 0; 0], 1, 15, false, 1);
  ([2; 0; 0; 0; 0; 0; 0; 0; 0; 0; 0; 0; 0; 0; 0; 0; 0], 1, 14, false, 1);
  ([2; 0; 0; 0; 0; 0; 0; 0; 0; 0; 0; 0; 0; 0; 0; 0; 0], 1, 13, false, 1);
  ([2; 0; 0; 0; 0; 0; 0; 0; 0; 0; 0; 0; 0; 0; 0; 0; 0], 1, 12, false, 1);
  ([2; 0; 0; 0; 0; 0; 0; 0; 0; 0; 0; 0; 0; 0; 0; 0; 0], 1, 11, false, 1);
  ([2; 0; 0; 0; 0; 0; 0; 0; 0; 0; 0; 0; 0; 0; 0; 0; 0], 1, 10, false, 1);
  ([2; 0; 0; 0; 0; 0; 0; 0; 0; 0; 0; 0; 0; 0; 0; 0; 0], 1, 9, false, 1);
  ([2; 0; 0; 0; 0; 0; 0; 0; 0; 0; 0; 0; 0; 0; 0; 0; 0], 1, 8, false, 1);
  ([2; 0; 0; 0; 0; 0; 0; 0; 0; 0; 0; 0; 0; 0; 0; 0; 0], 1, 7, false, 1);
  ([2; 0; 0; 0; 0; 0; 0; 0; 0; 0; 0; 0; 0; 0; 0; 0; 0], 1, 6, false, 1);
  ([2; 0; 0; 0; 0; 0; 0; 0; 0; 0; 0; 0; 0; 0; 0; 0; 0], 1, 5, false, 1);
  ([2; 0; 0; 0; 0; 0; 0; 0; 0; 0; 0; 0; 0; 0; 0; 0; 0], 1, 4, false, 1);
  ([2; 0; 0; 0; 0; 0; 0; 0; 0; 0; 0; 0; 0; 0; 0; 0; 0], 1, 3, false, 1);
  ([2; 0; 0; 0; 0; 0; 0; 0; 0; 0; 0; 0; 0; 0; 0; 0; 0], 1, 2, false, 1);
  ([2; 0; 0; 0; 0; 0; 0; 0; 0; 0; 0; 0; 0; 0; 0; 0; 0], 1, 1, false, 1);
  ([1; 0; 0; 0; 0; 0; 0; 0; 0; 0; 0; 0; 0; 0; 0; 0], 0, 64, false, 1);
  ([1; 0; 0; 0; 0; 0; 0; 0; 0; 0; 0; 0; 0; 0; 0; 0], 0, 63, false, 1);
  ([1; 0; 0; 0; 0; 0; 0; 0; 0; 0; 0; 0; 0; 0; 0; 0], 0, 62, false, 1);
  ([1; 0; 0; 0; 0; 0; 0; 0; 0; 0; 0; 0; 0; 0; 0; 0], 0, 61, false, 1);
  ([1; 0; 0; 0; 0; 0; 0; 0; 0; 0; 0; 0; 0; 0; 0; 0], 0, 60, false, 1);
  ([1; 0; 0; 0; 0; 0; 0; 0; 0; 0; 0; 0; 0; 0; 0; 0], 0, 59, false, 1);
  ([1; 0; 0; 0; 0; 0; 0; 0; 0; 0; 0; 0; 0; 0; 0; 0], 0, 58, false, 1);
  ([1; 0; 0; 0; 0; 0; 0; 0; 0; 0; 0; 0; 0; 0; 0; 0], 0, 57, false, 1);
  ([1; 0; 0; 0; 0; 0; 0; 0; 0; 0; 0; 0; 0; 0; 0; 0], 0, 56, false, 1);
  ([1; 0; 0; 0; 0; 0; 0; 0; 0; 0; 0; 0; 0; 0; 0; 0], 0, 55, false, 1);
  ([1; 0; 0; 0; 0; 0; 0; 0; 0; 0; 0; 0; 0; 0; 0; 0], 0, 54, false, 1);
  ([1; 0; 0; 0; 0; 0; 0; 0; 0; 0; 0; 0; 0; 0; 0; 0], 0, 53, false, 1);
  ([1; 0; 0; 0; 0; 0; 0; 0; 0; 0; 0; 0; 0; 0; 0; 0], 0, 52, false, 1);
  ([1; 0; 0; 0; 0; 0; 0; 0; 0; 0; 0; 0; 0; 0; 0; 0], 0, 51, false, 1);
  ([1; 0; 0; 0; 0; 0; 0; 0; 0; 0; 0; 0; 0; 0; 0; 0], 0, 50, false, 1);
  ([1; 0; 0; 0; 0; 0; 0; 0; 0; 0; 0; 0; 0; 0; 0; 0], 0, 49, false, 1);
  ([1; 0; 0; 0; 0; 0; 0; 0; 0; 0; 0; 0; 0; 0; 0; 0], 0, 48, false, 1);
  ([1; 0; 0; 0; 0; 0; 0; 0; 0; 0; 0; 0; 0; 0; 0; 0], 0, 47, false, 1);
  ([1; 0; 0; 0; 0; 0; 0; 0; 0; 0; 0; 0; 0; 0; 0; 0], 0, 46, false, 1);
  ([1; 0; 0; 0; 0; 0; 0; 0; 0; 0; 0; 0; 0; 0; 0; 0], 0, 45, false, 1);
  ([1; 0; 0; 0; 0; 0; 0; 0; 0; 0; 0; 0; 0; 0; 0; 0], 0, 44, false, 1);
  ([1; 0; 0; 0; 0; 0; 0; 0; 0; 0; 0; 0; 0; 0; 0; 0], 0, 43, false, 1);
  ([1; 0; 0; 0; 0; 0; 0; 0; 0; 0; 0; 0; 0; 0; 0; 0], 0, 42, false, 1);
  ([1; 0; 0; 0; 0; 0; 0; 0; 0; 0; 0; 0; 0; 0; 0; 0], 0, 41, false, 1);
  ([1; 0; 0; 0; 0; 0; 0; 0; 0; 0; 0; 0; 0; 0; 0; 0], 0, 40, false, 1);
  ([1; 0; 0; 0; 0; 0; 0; 0; 0; 0; 0; 0; 0; 0; 0; 0], 0, 39, false, 1);
  ([1; 0; 0; 0; 0; 0; 0; 0; 0; 0; 0; 0; 0; 0; 0; 0], 0, 38, false, 1);
  ([1; 0; 0; 0; 0; 0; 0; 0; 0; 0; 0; 0; 0; 0; 0; 0], 0, 37, false, 1);
  ([1; 0; 0; 0; 0; 0; 0; 0; 0; 0; 0; 0; 0; 0; 0; 0], 0, 36, false, 1);
  ([1; 0; 0; 0; 0; 0; 0; 0; 0; 0; 0; 0; 0; 0; 0; 0], 0, 35, false, 1);
  ([1; 0; 0; 0; 0; 0; 0; 0; 0; 0; 0; 0; 0; 0; 0; 0], 0, 34, false, 1);
  ([1; 0; 0; 0; 0; 0; 0; 0; 0; 0; 0; 0; 0; 0; 0; 0], 0, 33, false, 1);
  ([1; 0; 0; 0; 0; 0; 0; 0; 0; 0; 0; 0; 0; 0; 0; 0], 0, 32, false, 1);
  ([1; 0; 0; 0; 0; 0; 0; 0; 0; 0; 0; 0; 0; 0; 0; 0], 0, 31, false, 1);
  ([1; 0; 0; 0; 0; 0; 0; 0; 0; 0; 0; 0; 0; 0; 0; 0], 0, 30, false, 1);
  ([1; 0; 0; 0; 0; 0; 0; 0; 0; 0; 0; 0; 0; 0; 0; 0], 0, 29, false, 1);
  ([1; 0; 0; 0; 0; 0; 0; 0; 0; 0; 0; 0; 0; 0; 0; 0], 0, 28, false, 1);
  ([1; 0; 0; 0; 0; 0; 0; 0; 0; 0; 0; 0; 0; 0; 0; 0], 0, 27, false, 1);
  ([1; 0; 0; 0; 0; 0; 0; 0; 0; 0; 0; 0; 0; 0; 0; 0], 0, 26, false, 1);
  ([1; 0; 0; 0; 0; 0; 0; 0; 0; 0; 0; 0; 0; 0; 0; 0], 0, 25, false, 1);
  ([1; 0; 0; 0; 0; 0; 0; 0; 0; 0; 0; 0; 0; 0; 0; 0], 0, 24, false, 1);
  ([1; 0; 0; 0; 0; 0; 0; 0; 0; 0; 0; 0; 0; 0; 0; 0], 0, 23, false, 1);
  ([1; 0; 0; 0; 0; 0; 0; 0; 0; 0; 0; 0; 0; 0; 0; 0], 0, 22, false, 1);
  ([1; 0; 0; 0; 0; 0; 0; 0; 0; 0; 0; 0; 0; 0; 0; 0], 0, 21, false, 1);
  ([1; 0; 0; 0; 0; 0; 0; 0; 0; 0; 0; 0; 0; 0; 0; 0], 0, 20, false, 1);
  ([1; 0; 0; 0; 0; 0; 0; 0; 0; 0; 0; 0; 0; 0; 0; 0], 0, 19, false, 1);
  ([1; 0; 0; 0; 0; 0; 0; 0; 0; 0; 0; 0; 0; 0; 0; 0], 0, 18, false, 1);
  ([1; 0; 0; 0; 0; 0; 0; 0; 0; 0; 0; 0; 0; 0; 0; 0], 0, 17, false, 1);
  ([1; 0; 0; 0; 0; 0; 0; 0; 0; 0; 0; 0; 0; 0; 0; 0], 0, 16, false, 1);
  ([1; 0; 0; 0; 0; 0; 0; 0; 0; 0; 0; 0; 0; 0; 0; 0], 0, 15, false, 1);
  ([1; 0; 0; 0; 0; 0; 0; 0; 0; 0; 0; 0; 0; 0; 0; 0], 0, 14, false, 1);
  ([1; 0; 0; 0; 0; 0; 0; 0; 0; 0; 0; 0; 0; 0; 0; 0], 0, 13, false, 1);
  ([1; 0; 0; 0; 0; 0; 0; 0; 0; 0; 0; 0; 0; 0; 0; 0], 0, 12, false, 1);
  ([1; 0; 0; 0; 0; 0; 0; 0; 0; 0; 0; 0; 0; 0; 0; 0], 0, 11, false, 1);
  ([1; 0; 0; 0; 0; 0; 0; 0; 0; 0; 0; 0; 0; 0; 0; 0], 0, 10, false, 1);
  ([1; 0; 0; 0; 0; 0; 0; 0; 0; 0; 0; 0; 0; 0; 0; 0], 0, 9, false, 1);
  ([1; 0; 0; 0; 0; 0; 0; 0; 0; 0; 0; 0; 0; 0; 0; 0], 0, 8, false, 1);
  ([1; 0; 0; 0; 0; 0; 0; 0; 0; 0; 0; 0; 0; 0; 0; 0], 0, 7, false, 1);
  ([1; 0; 0; 0; 0; 0; 0; 0; 0; 0; 0; 0; 0; 0; 0; 0], 0, 6, false, 1);
  ([1; 0; 0; 0; 0; 0; 0; 0; 0; 0; 0; 0; 0; 0; 0; 0], 0, 5, false, 1);
  ([1; 0; 0; 0; 0; 0; 0; 0; 0; 0; 0; 0; 0; 0; 0; 0], 0, 4, false, 1);
  ([1; 0; 0; 0; 0; 0; 0; 0; 0; 0; 0; 0; 0; 0; 0; 0], 0, 3, false, 1);
  ([1; 0; 0; 0; 0; 0; 0; 0; 0; 0; 0; 0; 0; 0; 0; 0], 0, 2, false, 1);
  ([1; 0; 0; 0; 0; 0; 0; 0; 0; 0; 0; 0; 0; 0; 0; 0], 0, 1, false, 1);
  ([248; 255; 7; 0; 0; 0; 0; 0; 0; 0; 0; 0; 0], 3, 16, true, (-1));
  ([240; 255; 7; 0; 0; 0; 0; 0; 0; 0; 0; 0; 0], 3, 16, true, (-2));
  ([224; 255; 7; 0; 0; 0; 0; 0; 0; 0; 0; 0; 0], 3, 16, true, (-4));
  ([192; 255; 7; 0; 0; 0; 0; 0; 0; 0; 0; 0; 0], 3, 16, true, (-8));
  ([128; 255; 7; 0; 0; 0; 0; 0; 0; 0; 0; 0; 0], 3, 16, true, (-16));
  ([0; 255; 7; 0; 0; 0; 0; 0; 0; 0; 0; 0; 0], 3, 16, true, (-32));
  ([0; 254; 7; 0; 0; 0; 0; 0; 0; 0; 0; 0; 0], 3, 16, true, (-64));
  ([0; 252; 7; 0; 0; 0; 0; 0; 0; 0; 0; 0; 0], 3, 16, true, (-128));
  ([0; 248; 7; 0; 0; 0; 0; 0; 0; 0; 0; 0; 0], 3, 16, true, (-256));
  ([0; 240; 7; 0; 0; 0; 0; 0; 0; 0; 0; 0; 0], 3, 16, true, (-512));
  ([0; 224; 7; 0; 0; 0; 0; 0; 0; 0; 0; 0; 0], 3, 16, true, (-1024));
  ([0; 192; 7; 0; 0; 0; 0; 0; 0; 0; 0; 0; 0], 3, 16, true, (-2048));
  ([0; 128; 7; 0; 0; 0; 0; 0; 0; 0; 0; 0; 0], 3, 16, true, (-4096));
  ([0; 0; 7; 0; 0; 0; 0; 0; 0; 0; 0; 0; 0], 3, 16, true, (-8192));
  ([0; 0; 6; 0; 0; 0; 0; 0; 0; 0; 0; 0; 0], 3, 16, true, (-16384));
  ([8; 0; 0; 0; 0; 0; 0; 0; 0; 0; 0; 0; 0], 3, 16, true, 1);
  ([16; 0; 0; 0; 0; 0; 0; 0; 0; 0; 0; 0; 0], 3, 16, true, 2);
  ([32; 0; 0; 0; 0; 0; 0; 0; 0; 0; 0; 0; 0], 3, 16, true, 4);
  ([64; 0; 0; 0; 0; 0; 0; 0; 0; 0; 0; 0; 0], 3, 16, true, 8);
  ([128; 0; 0; 0; 0; 0; 0; 0; 0; 0; 0; 0; 0], 3, 16, true, 16);
  ([0; 1; 0; 0; 0; 0; 0; 0; 0; 0; 0; 0; 0], 3, 16, true, 32);
  ([0; 2; 0; 0; 0; 0; 0; 0; 0; 0; 0; 0; 0], 3, 16, true, 64);
  ([0; 4; 0; 0; 0; 0; 0; 0; 0; 0; 0; 0; 0], 3, 16, true, 128);
  ([0; 8; 0; 0; 0; 0; 0; 0; 0; 0; 0; 0; 0], 3, 16, true, 256);
  ([0; 16; 0; 0; 0; 0; 0; 0; 0; 0; 0; 0; 0], 3, 16, true, 512);
  ([0; 32; 0; 0; 0; 0; 0; 0; 0; 0; 0; 0; 0], 3, 16, true, 1024);
  ([0; 64; 0; 0; 0; 0; 0; 0; 0; 0; 0; 0; 0], 3, 16, true, 2048);
  ([0; 128; 0; 0; 0; 0; 0; 0; 0; 0; 0; 0; 0], 3, 16, true, 4096);
  ([0; 0; 1; 0; 0; 0; 0; 0; 0; 0; 0; 0; 0], 3, 16, true, 8192);
  ([0; 0; 2; 0; 0; 0; 0; 0; 0; 0; 0; 0; 0], 3, 16, true, 16384);
  ([0; 0; 0; 0; 0; 0; 0; 0; 0; 0; 0; 0; 0], 3, 2, true, 0)].

Example read_vectors_pass : forallb read_ok read_vectors = true.
Proof. vm_compute. reflexivity. Qed.
Example write_vectors_pass : forallb write_ok write_vectors = true.
Proof. vm_compute. reflexivity. Qed.
