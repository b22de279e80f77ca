(** Specification vocabulary for opening archives. *)
From Coq Require Import List ZArith Bool String.
From Verif Require Import PyBase DataAccess Structure Resources Builder Archive ArchiveSpec.
Import ListNotations.
Local Open Scope string_scope.
Local Open Scope Z_scope.

Definition is_archive (c : container) : bool := match c with CArchive _ => true | _ => false end.

(** [reaches a st a' st']: opening archive type [a] on storage [st] involves opening [a'] on [st'], through any
    number of nested sub-archive resources that are present as directories. *)
Inductive reaches (a : adef) (st : storage) : adef -> storage -> Prop :=
| reaches_here : reaches a st a st
| reaches_sub a1 st1 n a2 schema opt st2 :
    reaches a st a1 st1 ->
    In (n, RSig (CArchive a2) schema opt) (a_resources a1) ->
    st_lookup st1 n opt = Ok (GotStorage st2) ->
    reaches a st a2 st2.

(** The entry [k] exists / does not exist in a storage. *)
Definition present (st : storage) (k : string) : Prop := exists g, st_lookup st k false = Ok g.
Definition absent (st : storage) (k : string) : Prop := st_lookup st k false = Err (MissingResourceError k).
(** [k] is a file with these contents. *)
Definition file_is (st : storage) (k : string) (m : list Z) : Prop := st_lookup st k false = Ok (GotMem m).

(** The files a reader looks at for a resource. *)
Definition data_files (n : string) (c : container) : list string :=
  match c with CMultivector _ _ => [index_name n; n] | _ => [n] end.
Definition read_files (n : string) (c : container) : list string := schema_file n :: data_files n c.

(** Two storages look the same through the entries archive type [a] mentions, at every depth.
    For a resource that is not an archive: the same files with the same contents (or both something that is
    not a file); for a sub-archive: either the same thing, or two directories that again look the same. *)
Definition same_leaf (x y : res got) : Prop :=
  match x, y with
  | Ok (GotStorage _), Ok (GotStorage _) => True
  | _, _ => x = y
  end.

Inductive agree : adef -> storage -> storage -> Prop :=
| agree_ : forall a s1 s2,
    (forall n sig, In (n, sig) (a_resources a) -> agree_on n sig s1 s2) -> agree a s1 s2
with agree_on : string -> rsig -> storage -> storage -> Prop :=
| agree_leaf : forall n sig s1 s2, is_archive (r_container sig) = false ->
    (forall k, In k (read_files n (r_container sig)) ->
       same_leaf (st_lookup s1 k (r_optional sig)) (st_lookup s2 k (r_optional sig))) ->
    agree_on n sig s1 s2
| agree_same : forall n sig s1 s2 a', r_container sig = CArchive a' ->
    st_lookup s1 n (r_optional sig) = st_lookup s2 n (r_optional sig) -> agree_on n sig s1 s2
| agree_sub : forall n sig s1 s2 a' t1 t2, r_container sig = CArchive a' ->
    st_lookup s1 n (r_optional sig) = Ok (GotStorage t1) ->
    st_lookup s2 n (r_optional sig) = Ok (GotStorage t2) ->
    agree a' t1 t2 -> agree_on n sig s1 s2.
