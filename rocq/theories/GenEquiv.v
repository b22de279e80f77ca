(** Depth-first traversal commutes with renaming the nodes, and does not depend on the fuel once it is sufficient. *)
From Coq Require Import List ZArith Bool Lia.
From Verif Require Import PyBase GenTraversal.
Import ListNotations.

Section Fuel.
  Context {N : Type} (eq_dec : forall x y : N, {x = y} + {x <> y}) (kids : N -> res (list N)).
  Lemma dfs_loop_more fuel : forall k s r, dfs_loop eq_dec kids fuel s = Some r -> dfs_loop eq_dec kids (fuel + k) s = Some r.
  Proof.
    induction fuel as [|f IH]; intros k s r; cbn; destruct (d_stack s) as [|[n b] stk] eqn:E; try discriminate.
    - intros H. destruct k; cbn; now rewrite E.
    - auto.
    - destruct (dfs_step eq_dec kids s n b stk); auto.
  Qed.
  Lemma dfs_loop_fuel f g s r r' : dfs_loop eq_dec kids f s = Some r -> dfs_loop eq_dec kids g s = Some r' -> r = r'.
  Proof.
    intros H H'. apply (dfs_loop_more f g) in H. apply (dfs_loop_more g f) in H'. rewrite PeanoNat.Nat.add_comm in H'. congruence.
  Qed.
End Fuel.

Section Equiv.
  Context {N M : Type} (ndec : forall x y : N, {x = y} + {x <> y}) (mdec : forall x y : M, {x = y} + {x <> y}).
  Variables (nkids : N -> res (list N)) (mkids : M -> res (list M)) (R : N -> M -> Prop).
  Hypothesis R_inj : forall x y x' y', R x y -> R x' y' -> (x = x' <-> y = y').
  Hypothesis R_kids : forall x y, R x y -> exists cs ds, nkids x = Ok cs /\ mkids y = Ok ds /\ Forall2 R cs ds.

  Lemma mem_equiv x y l m : R x y -> Forall2 R l m -> mem ndec x l = mem mdec y m.
  Proof.
    intros H F. unfold mem. assert (E : In x l <-> In y m).
    { induction F as [|a b l m Hab F IH]; [reflexivity|]. cbn. rewrite IH. pose proof (R_inj a b x y Hab H). intuition. }
    destruct (in_dec ndec x l), (in_dec mdec y m); tauto.
  Qed.
  Definition rpair (p : N * bool) (q : M * bool) : Prop := R (fst p) (fst q) /\ snd p = snd q.
  Lemma push_equiv cs ds : Forall2 R cs ds -> forall disc disc' proc proc' stk stk', Forall2 R disc disc' -> Forall2 R proc proc' -> Forall2 rpair stk stk' ->
    match push_kids ndec cs disc proc stk, push_kids mdec ds disc' proc' stk' with Ok a, Ok b => Forall2 rpair a b | Err e, Err e' => e = e' | _, _ => False end.
  Proof.
    induction 1 as [|c d cs ds Hcd F IH]; intros disc disc' proc proc' stk stk' D P S; cbn; [exact S|].
    rewrite (mem_equiv c d disc disc' Hcd D), (mem_equiv c d proc proc' Hcd P). destruct (negb (mem mdec d disc') && negb (mem mdec d proc')).
    - apply IH; auto. constructor; [split; auto|exact S].
    - destruct (negb (mem mdec d proc')); [reflexivity|]. now apply IH.
  Qed.
  Definition rstate (s : @dstate N) (t : @dstate M) : Prop :=
    Forall2 rpair (d_stack s) (d_stack t) /\ Forall2 R (d_disc s) (d_disc t) /\ Forall2 R (d_proc s) (d_proc t)
    /\ Forall2 R (d_early s) (d_early t) /\ Forall2 R (d_late s) (d_late t).
  Lemma step_equiv s t n m b stk stk' : rstate s t -> R n m -> Forall2 rpair stk stk' ->
    match dfs_step ndec nkids s n b stk, dfs_step mdec mkids t m b stk' with Ok a, Ok b => rstate a b | Err e, Err e' => e = e' | _, _ => False end.
  Proof.
    intros (S & D & P & E & L) H K. unfold dfs_step. destruct b.
    - split; [|split; [|split; [|split]]]; cbn; auto.
    - rewrite (mem_equiv n m _ _ H P). destruct (mem mdec m _).
      + split; [|split; [|split; [|split]]]; cbn; auto.
      + destruct (R_kids n m H) as (cs & ds & -> & -> & F). cbn.
        assert (F' : Forall2 R (rev cs) (rev ds)) by (clear - F; induction F; cbn; [constructor|apply Forall2_app; auto]).
        pose proof (push_equiv (rev cs) (rev ds) F' (n :: d_disc s) (m :: d_disc t) (d_proc s) (d_proc t) ((n, true) :: stk) ((m, true) :: stk')
          (Forall2_cons _ _ H D) P (Forall2_cons (R := rpair) (n, true) (m, true) (conj H eq_refl) K)) as X.
        destruct (push_kids ndec _ _ _ _), (push_kids mdec _ _ _ _); try contradiction; cbn; [|exact X].
        split; [|split; [|split; [|split]]]; cbn; auto.
  Qed.
  Theorem loop_equiv fuel : forall s t, rstate s t ->
    match dfs_loop ndec nkids fuel s, dfs_loop mdec mkids fuel t with
    | Some (Ok a), Some (Ok b) => rstate a b | Some (Err e), Some (Err e') => e = e' | None, None => True | _, _ => False end.
  Proof.
    induction fuel as [|k IH]; intros s t Hst; cbn; pose proof Hst as (S & _).
    - destruct S as [|[n b] [m b'] stk stk' (Hr & Hb) S]; [exact Hst|exact I].
    - destruct (d_stack s) as [|[n b] stk] eqn:Es; inversion S as [|? [m b'] ? stk' (Hr & Hb) S' E1 E2]; [exact Hst|]. cbn in Hb. subst b'.
      pose proof (step_equiv s t n m b stk stk' Hst Hr S') as X. destruct (dfs_step ndec _ _ _ _ _), (dfs_step mdec _ _ _ _ _); try contradiction; [now apply IH|exact X].
  Qed.
  Theorem order_equiv f g n m o o' : R n m -> dependency_order ndec nkids f n = Some (Ok o) -> dependency_order mdec mkids g m = Some (Ok o') -> Forall2 R o o'.
  Proof.
    unfold dependency_order, dfs. intros H A B.
    destruct (dfs_loop ndec nkids f _) as [[s|e]|] eqn:E1; cbn in A; try discriminate. injection A as <-.
    destruct (dfs_loop mdec mkids g _) as [[t|e]|] eqn:E2; cbn in B; try discriminate. injection B as <-.
    apply (dfs_loop_more _ _ f g) in E1. apply (dfs_loop_more _ _ g f) in E2. rewrite PeanoNat.Nat.add_comm in E2.
    pose proof (loop_equiv (f + g) (DState [(n, false)] [] [] [] []) (DState [(m, false)] [] [] [] [])) as X. rewrite E1, E2 in X.
    assert (L : Forall2 R (d_late s) (d_late t)).
    { apply X. split; [|split; [|split; [|split]]]; cbn; auto. constructor; [split; auto|constructor]. }
    clear - L. induction L; cbn; [constructor|apply Forall2_app; auto].
  Qed.
End Equiv.
