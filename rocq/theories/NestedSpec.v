(** Archives with sub-archives, built directory by directory. *)
From Coq Require Import List ZArith Bool String.
From Verif Require Import PyBase DataAccess Structure StructSpec Resources Builder Archive ArchiveSpec OpenSpec ResourceSpec HistorySpec UsableSpec.
Import ListNotations.
Local Open Scope string_scope.
Local Open Scope Z_scope.

(** What a user puts into an archive: the files that are in its directory before, the values of its resources in the
    order they are set, and the contents of its sub-archives. *)
Inductive contents : Type :=
  Contents (before : fs) (sets : list (string * setval)) (subs : list (string * contents)).

(** The directory left behind when the builder of the archive wrote into it, and, for every sub-archive, the builder of
    that archive type into a subdirectory with the name of the resource (flatdata-py's [ArchiveBuilder.subarchive],
    archive_builder.py:119-125, does nothing, so the user makes the sub-archive's builder). *)
Fixpoint directory (a : adef) (c : contents) : list (string * fsnode) :=
  match c with
  | Contents before sets subs =>
      (map (fun kx => (fst kx, NFile (snd kx))) (files_after before (build a (sets_of sets))) ++
       (fix go (subs : list (string * contents)) : list (string * fsnode) :=
          match subs with
          | [] => []
          | (n, c') :: t =>
              match dict_get (a_resources a) n with
              | Some (RSig (CArchive a') _ _) => [(n, NDir (directory a' c'))]
              | _ => []
              end ++ go t
          end) subs)%list
  end.

(** The contents fit the archive type, at every depth: the values can be stored losslessly, all required resources are
    there, and there are no files of the archive in the directory before. *)
Inductive fits : adef -> contents -> Prop :=
| fits_ a before sets subs :
    generated a -> sizes_ok a -> schemas_ok a -> clean a before ->
    NoDup (map fst sets) -> NoDup (map fst subs) ->
    (forall n v, In (n, v) sets -> n <> archive_file a /\ exists sig, In (n, sig) (a_resources a) /\ acceptable sig v) ->
    (forall n c, In (n, c) subs -> exists a' schema opt, In (n, RSig (CArchive a') schema opt) (a_resources a) /\ fits a' c) ->
    (forall n sig, In (n, sig) (a_resources a) -> n <> archive_file a -> r_optional sig = false ->
       In n (map fst sets) \/ In n (map fst subs)) ->
    fits a (Contents before sets subs).

(** The same for archive types that come from the generator, where only the data has to be in order. *)
Inductive fillable : adef -> contents -> Prop :=
| fillable_ a before sets subs :
    clean a before -> NoDup (map fst sets) -> NoDup (map fst subs) ->
    (forall n v, In (n, v) sets -> n <> archive_file a /\ exists sig, In (n, sig) (a_resources a) /\ storable sig v) ->
    (forall n c, In (n, c) subs -> exists a' schema opt, In (n, RSig (CArchive a') schema opt) (a_resources a) /\ fillable a' c) ->
    (forall n sig, In (n, sig) (a_resources a) -> n <> archive_file a -> r_optional sig = false ->
       In n (map fst sets) \/ In n (map fst subs)) ->
    fillable a (Contents before sets subs).

(** The opened archive shows exactly these contents, at every depth: each value that was set, each sub-archive, and
    nothing for anything else. *)
Inductive shows : adef -> contents -> list (string * option opened) -> Prop :=
| shows_ a before sets subs rs :
    (forall n v sig, In (n, v) sets -> In (n, sig) (a_resources a) ->
       exists o, archive_getattr rs n = Ok o /\ holds sig v o) ->
    (forall n c a' schema opt, In (n, c) subs -> In (n, RSig (CArchive a') schema opt) (a_resources a) ->
       exists rs', archive_getattr rs n = Ok (Some (OArch rs')) /\ shows a' c rs') ->
    (forall n sig, In (n, sig) (a_resources a) -> ~ In n (map fst sets) -> ~ In n (map fst subs) ->
       archive_getattr rs n = Ok None) ->
    shows a (Contents before sets subs) rs.
