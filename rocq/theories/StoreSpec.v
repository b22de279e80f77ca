(** What a storage of the C++ or Rust library contains, for stating properties: files by name. *)
From Coq Require Import List ZArith Bool String.
From Verif Require Import PyBase Spec DataAccess Structure Resources Builder Archive ArchiveSpec Streams.
Import ListNotations.
Local Open Scope string_scope.
Local Open Scope Z_scope.

(** The bytes written under a name. *)
Definition file_of (st : store) (name : string) : option (list Z) :=
  match dict_get (st_names st) name with
  | Some i => option_map os_bytes (nth_error (st_heap st) i)
  | None => None
  end.

(** No two names share a stream, and every name has one. *)
Definition sound (st : store) : Prop :=
  NoDup (map fst (st_names st)) /\ NoDup (map snd (st_names st)) /\
  Forall (fun ni => (snd ni < List.length (st_heap st))%nat) (st_names st).

(** The name has not been read yet from this storage (so nothing is remembered for it). *)
Definition unread (st : store) (name : string) : Prop := dict_get (st_cache st) name = None.

(** A file holding a resource: its size in 8 bytes (little endian), the data, 8 more bytes. *)
Definition holds_resource (f data : list Z) : Prop :=
  exists pad, List.length pad = 8%nat /\ f = (to_le 8 (zlen data) ++ data ++ pad)%list.

(** The two storages have the same files except for these names. *)
Definition same_but (names : list string) (st st' : store) : Prop :=
  forall n, ~ In n names -> file_of st' n = file_of st n.

(** What has been read stays as it was read, here: nothing more is remembered. *)
Definition same_reads (st st' : store) : Prop := st_cache st' = st_cache st.
