(** Specification vocabulary for tar files of directory trees. *)
From Coq Require Import List ZArith Bool String Ascii.
From Verif Require Import PyBase DataAccess Structure Resources Builder Archive ArchiveSpec OpenSpec.
Import ListNotations.
Local Open Scope string_scope.
Local Open Scope Z_scope.

(** A usable file name: not empty, no slash, not ".". *)
Definition good (c : string) : Prop := c <> "" /\ has_slash c = false /\ c <> ".".

(** The path made of these components. *)
Fixpoint join (cs : list string) : string :=
  match cs with
  | [] => ""
  | [c] => c
  | c :: t => c ++ "/" ++ join t
  end.

(** What is found by following a path through the directories. *)
Fixpoint lookup_path (es : list (string * fsnode)) (cs : list string) : option fsnode :=
  match cs with
  | [] => Some (NDir es)
  | c :: t => match dict_get es c with
              | None => None
              | Some x => match t, x with
                          | [], _ => Some x
                          | _, NDir es' => lookup_path es' t
                          | _, NFile _ => None
                          end
              end
  end.

Definition tree_ok (es : list (string * fsnode)) : Prop :=
  (forall cs x, lookup_path es cs = Some x -> Forall good cs) /\
  (forall cs es', lookup_path es cs = Some (NDir es') -> NoDup (map fst es')).

Definition kind_of (x : fsnode) : tkind := match x with NFile d => TReg d | NDir _ => TDir end.

(** The tar contains one member (or several equal ones) for every file and every directory of the tree, under its
    relative path with or without "./" in front, in any order, and nothing else except possibly ".". *)
Definition packs (t : tarfile) (es : list (string * fsnode)) : Prop :=
  (forall n k, In (n, k) t -> (n = "." /\ k = TDir) \/
     exists cs x, cs <> [] /\ lookup_path es cs = Some x /\ (n = join cs \/ n = "./" ++ join cs) /\ k = kind_of x) /\
  (forall cs x, cs <> [] -> lookup_path es cs = Some x ->
     In (join cs, kind_of x) t \/ In ("./" ++ join cs, kind_of x) t).

(** The empty file cannot be memory-mapped. *)
Definition no_empty_files (es : list (string * fsnode)) : Prop :=
  forall cs m, lookup_path es cs = Some (NFile m) -> m <> [].

(** Archive types nested in [a]. *)
Inductive nested (a : adef) : adef -> Prop :=
| nested_self : nested a a
| nested_sub a1 n a2 schema opt : nested a a1 -> In (n, RSig (CArchive a2) schema opt) (a_resources a1) -> nested a a2.
Definition names_ok (a : adef) : Prop :=
  forall a' n sig, nested a a' -> In (n, sig) (a_resources a') -> good n.
