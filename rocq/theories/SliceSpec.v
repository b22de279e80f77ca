(** Python list slicing, as the language reference defines it: clip the bounds, cut, take every k-th. *)
From Coq Require Import List ZArith Bool.
From Verif Require Import PyBase Resources.
Import ListNotations.
Local Open Scope Z_scope.

(** Elements at positions 0, k, 2k, ... (k >= 1). *)
Fixpoint every_aux {A} (k skip : nat) (l : list A) : list A :=
  match l with
  | [] => []
  | x :: t => match skip with O => x :: every_aux k k t | S j => every_aux k j t end
  end.
Definition every {A} (k : nat) (l : list A) : list A := every_aux (k - 1) 0 l.

Definition clamp (lo hi x : Z) : Z := Z.max lo (Z.min hi x).
Definition from_end (len x : Z) : Z := if x <? 0 then x + len else x.
Definition bound (len : Z) (o : option Z) (default lo hi : Z) : Z :=
  match o with None => default | Some x => clamp lo hi (from_end len x) end.

(** [l[start:stop:step]] for a non-zero step. *)
Definition list_slice {A} (l : list A) (s : pyslice) : list A :=
  let n := zlen l in
  let step := match sl_step s with None => 1 | Some k => k end in
  if 0 <? step then
    let a := bound n (sl_start s) 0 0 n in
    let b := bound n (sl_stop s) n 0 n in
    every (Z.to_nat step) (firstn (Z.to_nat (b - a)) (skipn (Z.to_nat a) l))
  else
    let a := bound n (sl_start s) (n - 1) (-1) (n - 1) in
    let b := bound n (sl_stop s) (-1) (-1) (n - 1) in
    every (Z.to_nat (- step)) (rev (firstn (Z.to_nat (a - b)) (skipn (Z.to_nat (b + 1)) l))).
