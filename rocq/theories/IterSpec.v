(** Vocabulary for C97: arrays of structures in memory. *)
From Coq Require Import List ZArith Bool.
Import ListNotations.
Local Open Scope Z_scope.

(** [n] structures of [size] bytes at address [base]: within the memory, and no object is larger than [PTRDIFF_MAX] *)
Definition array (base size n : Z) : Prop := 0 < size /\ 0 <= base /\ 0 <= n /\ base + n * size < 2 ^ 64 /\ n * size < 2 ^ 63.
(** The address of the [i]-th; [i = n] is the end *)
Definition place (base size i : Z) : Z := base + i * size.
(** The places from the [i]-th on, [k] of them *)
Fixpoint places (base size i : Z) (k : nat) : list Z :=
  match k with O => [] | S k => place base size i :: places base size (i + 1) k end.
