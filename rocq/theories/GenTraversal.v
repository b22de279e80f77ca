(** Model of flatdata-generator/flatdata/generator/tree/traversal.py, over an arbitrary graph. *)
From Coq Require Import List ZArith Bool.
From Verif Require Import PyBase.
Import ListNotations.

Section Dfs.
  (** A node's identity: the Python sets [discovered] / [processed] compare nodes by identity
      (class Node defines no __eq__), so equality of [N] is identity of node objects. *)
  Context {N : Type} (eq_dec : forall x y : N, {x = y} + {x <> y}).
  (** traversal.py:12-15 [_Traversal.children]; looking up a reference may raise. *)
  Variable kids : N -> res (list N).

  Definition mem (x : N) (l : list N) : bool := if in_dec eq_dec x l then true else false.

  (** traversal.py:44-47: the stack (head = top of the Python list's end), the two sets, and the
      nodes yielded so far: [d_early] for _PROCESS_NODE_EARLY, [d_late] for _PROCESS_NODE_LATE,
      both newest first. *)
  Record dstate := DState { d_stack : list (N * bool); d_disc : list N; d_proc : list N;
                            d_early : list N; d_late : list N }.

  (** traversal.py:62-66: push the children in reverse order, or raise. [cs] is already reversed. *)
  Fixpoint push_kids (cs : list N) (disc proc : list N) (stk : list (N * bool)) : res (list (N * bool)) :=
    match cs with
    | [] => Ok stk
    | c :: t => if negb (mem c disc) && negb (mem c proc) then push_kids t disc proc ((c, false) :: stk)
                else if negb (mem c proc) then Err CircularReferencing
                else push_kids t disc proc stk
    end.

  (** traversal.py:49-69: one iteration of the loop on a non-empty stack. *)
  Definition dfs_step (s : dstate) (n : N) (is_processed : bool) (stk : list (N * bool)) : res dstate :=
    if is_processed then
      Ok (DState stk (d_disc s) (n :: d_proc s) (d_early s) (n :: d_late s))
    else if mem n (d_proc s) then
      Ok (DState stk (d_disc s) (d_proc s) (d_early s) (d_late s))
    else
      let disc := n :: d_disc s in
      cs <- kids n ;;
      stk' <- push_kids (rev cs) disc (d_proc s) ((n, true) :: stk) ;;
      Ok (DState stk' disc (d_proc s) (n :: d_early s) (d_late s)).

  (** The while loop; [None] = still running after [fuel] iterations. *)
  Fixpoint dfs_loop (fuel : nat) (s : dstate) : option (res dstate) :=
    match d_stack s with
    | [] => Some (Ok s)
    | (n, b) :: stk =>
        match fuel with
        | O => None
        | S k => match dfs_step s n b stk with
                 | Err e => Some (Err e)
                 | Ok s' => dfs_loop k s'
                 end
        end
    end.

  (** traversal.py:42-69 [_iterate] *)
  Definition dfs (fuel : nat) (root : N) : option (res dstate) :=
    dfs_loop fuel (DState [(root, false)] [] [] [] []).

  (** traversal.py:71-74 [iterate], consumed completely *)
  Definition dfs_iterate (fuel : nat) (root : N) : option (res (list N)) :=
    option_map (fun r => s <- r ;; Ok (rev (d_early s))) (dfs fuel root).

  (** traversal.py:76-79 [dependency_order], consumed completely *)
  Definition dependency_order (fuel : nat) (root : N) : option (res (list N)) :=
    option_map (fun r => s <- r ;; Ok (rev (d_late s))) (dfs fuel root).

  (** traversal.py:23-38 [BfsTraversal.iterate]: queue of (node, distance). *)
  Fixpoint bfs_loop (fuel : nat) (queue : list (N * nat)) (proc : list N) (out : list (N * nat))
    : option (res (list (N * nat))) :=
    match queue with
    | [] => Some (Ok (rev out))
    | (n, d) :: q =>
        match fuel with
        | O => None
        | S k => if mem n proc then bfs_loop k q proc out
                 else match kids n with
                      | Err e => Some (Err e)
                      | Ok cs => bfs_loop k (q ++ map (fun c => (c, S d)) (filter (fun c => negb (mem c proc)) cs))
                                   (n :: proc) ((n, d) :: out)
                      end
        end
    end.
  Definition bfs (fuel : nat) (root : N) : option (res (list (N * nat))) := bfs_loop fuel [(root, 0)] [] [].
End Dfs.
Arguments DState {N}.
