(** What the Rust library shows of files, for stating properties. *)
From Coq Require Import List ZArith Bool String.
From Verif Require Import PyBase Spec DataAccess Structure Resources Builder Archive ArchiveSpec Codecs Streams StoreSpec CppStore RustStore.
Import ListNotations.
Local Open Scope string_scope.
Local Open Scope Z_scope.

(** A stream for that name starts empty: the storage replaces files, or there is none of that name. *)
Definition startable (p : policy) (st : store) (name : string) : Prop := p_reuse p = false \/ file_of st name = None.
(** If that name has been read, its contents have not changed since. *)
Definition current (st : store) (name : string) : Prop := forall d, dict_get (st_cache st) name = Some d -> file_of st name = Some d.

(** The size in the file, plus the size of size and padding, exceeds 64 bits. *)
Definition size_overflows (f : list Z) : Prop := 16 <= zlen f /\ 2 ^ 64 - 16 <= le (firstn 8 f).

(** The result of reading a resource, given the files: exactly one case applies (see C78_read, C78_unique). *)
Inductive reads_as (checks : bool) (F : string -> option (list Z)) (name : string) (expected : list Z) : rresult desc -> Prop :=
| ReadsOk f data : F name = Some f -> holds_resource f data -> F (schema_file name) = Some expected ->
    reads_as checks F name expected (ROk (Desc (skipn 8 f) (zlen data)))
| ReadsMissing : F name = None -> reads_as checks F name expected (RErr EMissing)
| ReadsNoSchema f : F name = Some f -> F (schema_file name) = None -> reads_as checks F name expected (RErr EIo)
| ReadsSize f s : F name = Some f -> F (schema_file name) = Some s -> (forall data, ~ holds_resource f data) ->
    (checks = true -> ~ size_overflows f) -> reads_as checks F name expected (RErr ESize)
| ReadsOverflow f s : F name = Some f -> F (schema_file name) = Some s -> checks = true -> size_overflows f ->
    reads_as checks F name expected RPanic
| ReadsNoText f data s : F name = Some f -> holds_resource f data -> F (schema_file name) = Some s -> utf8_valid s = false ->
    reads_as checks F name expected (RErr EUtf8)
| ReadsOther f data s : F name = Some f -> holds_resource f data -> F (schema_file name) = Some s -> utf8_valid s = true -> s <> expected ->
    reads_as checks F name expected (RErr ESignature).

(** The writes [f] turn a structure with the bytes [old] into one with the bytes [new]. *)
Definition sets (size : nat) (f : filler) (old new : list Z) : Prop :=
  List.length old = size /\ List.length new = size /\ is_bytes new /\ f old = Some new.

(** The records of a file as the elements of a view: the bytes from each on; with a range the last record only ends the one before. *)
Definition records_view (t : etype) (rs : list (list Z)) (rest : list Z) : aview :=
  AView (List.concat rs ++ rest) (Z.of_nat (List.length rs - if e_overlap t then 1 else 0)).

(** What is stored for a sequence of structures: an empty sequence of overlapping structures is stored as one zeroed structure. *)
Definition stored_records (t : etype) (rs : list (list Z)) : list (list Z) :=
  match rs with [] => if e_overlap t then [zeros (e_size t)] else [] | _ => rs end.

(** The use of a vector: adding an element (zeroed, then written to), changing one *)
Inductive rvop : Type := RGrow (f : filler) | RSet (i : nat) (f : filler).
Inductive rvdoes (size : nat) : rvop -> list (list Z) -> list (list Z) -> Prop :=
| RDGrow f new rs : sets size f (zeros size) new -> rvdoes size (RGrow f) rs (rs ++ [new])%list
| RDSet i f old new rs : nth_error rs i = Some old -> sets size f old new -> rvdoes size (RSet i f) rs (set_at rs i new).
Inductive rvdo_all (size : nat) : list rvop -> list (list Z) -> list (list Z) -> Prop :=
| RDNil rs : rvdo_all size [] rs rs
| RDCons op ops a b c : rvdoes size op a b -> rvdo_all size ops b c -> rvdo_all size (op :: ops) a c.
Fixpoint rvec_ops (t : etype) (v : rvec) (ops : list rvop) : option rvec :=
  match ops with
  | [] => Some v
  | RGrow f :: ops => v <== rvec_grow t v f ;; rvec_ops t v ops
  | RSet i f :: ops => v <== rvec_set t v i f ;; rvec_ops t v ops
  end.
Fixpoint rev_grow_all (limit : Z) (t : etype) (st : store) (v : revector) (fs : list filler) : option (store * revector) :=
  match fs with
  | [] => Some (st, v)
  | f :: fs => r <== rev_grow limit t st v f ;; rev_grow_all limit t (fst r) (snd r) fs
  end.

(** The use of a multivector: the buckets, and what is added to each (as for C++: the number and size of the type, and the writes) *)
Fixpoint rm_add_all (m : rmvector) (adds : list (Z * nat * filler)) : option rmvector :=
  match adds with
  | [] => Some m
  | (ti, size, f) :: adds => m <== rm_add m ti size f ;; rm_add_all m adds
  end.
Fixpoint rm_fill (limit w : Z) (st : store) (m : rmvector) (buckets : list (list (Z * nat * filler))) : option (store * rmvector) :=
  match buckets with
  | [] => Some (st, m)
  | b :: buckets => r <== rm_grow limit w st m ;; m <== rm_add_all (snd r) b ;; rm_fill limit w (fst r) m buckets
  end.
(** An addition and the element it makes: the number of its type and its bytes *)
Definition radds (a : Z * nat * filler) (e : Z * list Z) : Prop :=
  match a with (ti, size, f) => ti = fst e /\ 0 <= ti < 256 /\ sets size f (zeros size) (snd e) end.

(** All of them, or nothing if one is missing *)
Fixpoint all_some {A} (l : list (option A)) : option (list A) :=
  match l with [] => Some [] | x :: l => a <== x ;; r <== all_some l ;; Some (a :: r) end.
