(** Vocabulary for graphs given by a successor function, independent of the traversal code. *)
From Coq Require Import List.
From Verif Require Import PyBase.
Import ListNotations.

Section Graph.
  Context {N : Type}.
  Variable kids : N -> res (list N).

  Definition edge (x y : N) : Prop := exists cs, kids x = Ok cs /\ In y cs.

  (** [y] can be reached from [x] in exactly [d] steps / in some number of steps / in at least one. *)
  Inductive walk : nat -> N -> N -> Prop :=
  | walk_0 : forall x, walk 0 x x
  | walk_S : forall d x y z, walk d x y -> edge y z -> walk (S d) x z.
  Definition reachable (x y : N) : Prop := exists d, walk d x y.
  Definition on_cycle (x : N) : Prop := exists d, walk (S d) x x.

  (** Only finitely many nodes can be reached from [r], and their successors are all defined. *)
  Definition finite_from (r : N) (univ : list N) : Prop :=
    forall x, reachable r x -> In x univ /\ exists cs, kids x = Ok cs.

  (** Every node of the list comes after all its successors. *)
  Definition dependencies_first (order : list N) : Prop :=
    forall before n after, order = before ++ n :: after -> forall c, edge n c -> In c before.

  Lemma walk_trans d1 d2 x y z : walk d1 x y -> walk d2 y z -> walk (d1 + d2) x z.
  Proof.
    intros H1 H2; revert d1 x H1; induction H2 as [y|d2 y w z H2 IH He]; intros d1 x H1.
    - now rewrite PeanoNat.Nat.add_0_r.
    - rewrite PeanoNat.Nat.add_succ_r. econstructor; [apply IH, H1|exact He].
  Qed.
  Lemma walk_edge x y : edge x y -> walk 1 x y.
  Proof. intros H; econstructor; [apply walk_0|exact H]. Qed.
  Lemma reach_refl x : reachable x x. Proof. exists 0; constructor. Qed.
  Lemma reach_edge x y z : reachable x y -> edge y z -> reachable x z.
  Proof. intros [d H] He; exists (S d); econstructor; eauto. Qed.
  Lemma reach_trans x y z : reachable x y -> reachable y z -> reachable x z.
  Proof. intros [d1 H1] [d2 H2]; exists (d1 + d2); eapply walk_trans; eauto. Qed.
End Graph.
