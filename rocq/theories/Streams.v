(** Model: where the C++ and Rust libraries keep their files.  Streams are byte sequences with a write position; a storage maps
    names to streams and remembers what has been read.  Input and output never fail in this model. *)
From Coq Require Import List ZArith Bool String.
From Verif Require Import PyBase DataAccess Structure Resources Builder Archive.
Import ListNotations.
Local Open Scope Z_scope.

(** An output stream ([std::ostream] on a file or string buffer; Rust [File] and [Cursor<Vec<u8>>]): a write replaces what is at the
    position and extends the stream; [os_seek] is [seekp(0)] / [seek(Start(0))]. *)
Record ostream := OStream { os_bytes : list Z; os_pos : nat }.
Definition os_new : ostream := OStream [] 0.
Definition os_write (s : ostream) (d : list Z) : ostream :=
  OStream (firstn (os_pos s) (os_bytes s) ++ d ++ skipn (os_pos s + List.length d) (os_bytes s)) (os_pos s + List.length d).
Definition os_seek (s : ostream) : ostream := OStream (os_bytes s) 0.

(** How the storages differ:
    - [p_reuse]: creating a stream for a name that has one continues with it.  Only the Rust memory storage does
      (memstorage.rs:144-155, [entry().or_insert_with()]); the C++ storages and Rust's files start an empty stream
      (FileResourceStorage.h:103-108 [ofstream::out] truncates; MemoryResourceStorage.h:70-80 replaces the map entry;
      filestorage.rs:98-105 [File::create] truncates).  Simplification: for files, a stream opened earlier and still being written
      is detached here, while it would write into the same file.
    - [p_null_empty]: an empty file reads as no resource.  Only the C++ file storage does (MemoryMappedFileStorage.h:49-52). *)
Record policy := Policy { p_reuse : bool; p_null_empty : bool }.
Definition cpp_file_storage : policy := Policy false true.
Definition cpp_memory_storage : policy := Policy false false.
Definition rust_file_storage : policy := Policy false false.
Definition rust_memory_storage : policy := Policy true false.

(** [st_names]: MemoryResourceStorage.h:23-30 [streams], memstorage.rs:17-21 [streams], or the directory entries of a file storage;
    [st_cache]: [resources] of the memory storages, [m_maps] (MemoryMappedFileStorage.h:31) and [maps] (filestorage.rs:16-18).
    Simplification: a mapping of a file is a copy made when it is first read. *)
Record store := Store { st_heap : list ostream; st_names : list (string * nat); st_cache : list (string * list Z) }.
Definition empty_store : store := Store [] [] [].

Fixpoint set_at {A} (l : list A) (i : nat) (x : A) : list A :=
  match l, i with
  | [], _ => []
  | _ :: t, O => x :: t
  | y :: t, S i => y :: set_at t i x
  end.
Fixpoint put {A} (d : list (string * A)) (k : string) (x : A) : list (string * A) :=
  match d with
  | [] => [(k, x)]
  | (k', y) :: t => if String.eqb k' k then (k', x) :: t else (k', y) :: put t k x
  end.

(** [create_output_stream] *)
Definition create_stream (p : policy) (st : store) (name : string) : store * nat :=
  match dict_get (st_names st) name, p_reuse p with
  | Some i, true => (st, i)
  | _, _ => let i := List.length (st_heap st) in (Store (st_heap st ++ [os_new]) (put (st_names st) name i) (st_cache st), i)
  end.
Definition on_stream (f : ostream -> ostream) (st : store) (i : nat) : store :=
  match nth_error (st_heap st) i with
  | Some s => Store (set_at (st_heap st) i (f s)) (st_names st) (st_cache st)
  | None => st
  end.
Definition write_stream (st : store) (i : nat) (d : list Z) : store := on_stream (fun s => os_write s d) st i.
Definition seek_stream (st : store) (i : nat) : store := on_stream os_seek st i.
Definition write_streams (st : store) (i : nat) (ds : list (list Z)) : store := fold_left (fun st d => write_stream st i d) ds st.

(** [read_resource]: MemoryResourceStorage.h:108-134, FileResourceStorage.h:122-131 with MemoryMappedFileStorage.h:34-66,
    memstorage.rs:107-142, filestorage.rs:21-32, 80-96.  [None] is a null descriptor, or a NotFound error. *)
Definition read_resource (p : policy) (st : store) (name : string) : store * option (list Z) :=
  match dict_get (st_cache st) name with
  | Some d => (st, Some d)
  | None =>
      match dict_get (st_names st) name with
      | None => (st, None)
      | Some i =>
          let d := match nth_error (st_heap st) i with Some s => os_bytes s | None => [] end in
          if p_null_empty p && (zlen d =? 0) then (st, None)
          else (Store (st_heap st) (st_names st) (st_cache st ++ [(name, d)]), Some d)
      end
  end.
