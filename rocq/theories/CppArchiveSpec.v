(** What a directory of files contains, for stating what C++ archives show. *)
From Coq Require Import List ZArith Bool String.
From Verif Require Import PyBase Spec DataAccess Structure Resources Builder Archive ArchiveSpec Streams StoreSpec CppStore CppArchive.
Import ListNotations.
Local Open Scope string_scope.
Local Open Scope Z_scope.

Section FILES.
(** The files by path, the directories (each path ends in '/'), and whether empty files cannot be read *)
Variable F : string -> option (list Z).
Variable dirs : list string.
Variable null_empty : bool.

(** The file [f] of that name holds a resource with that data and schema. *)
Definition stored (name : string) (schema f data : list Z) : Prop :=
  F name = Some f /\ holds_resource f data /\ F (schema_file name) = Some schema /\ (null_empty = true -> schema <> []).

(** The value of a resource: the bytes behind the size, and the number of elements the size gives *)
Definition shows_value (name : string) (schema : list Z) (k : ckind) (v : cvalue) : Prop :=
  match k with
  | KInst _ => exists f data, stored name schema f data /\ v = VInst (skipn 8 f)
  | KVec t => exists f data, stored name schema f data /\ v = VVec (av_create t (skipn 8 f) (zlen data))
  | KMulti w _ => exists f data fi di, stored name schema f data /\ stored (index_name name) (index_schema schema) fi di /\
                    v = VMulti (MAView (av_create (index_type w) (skipn 8 fi) (zlen di)) (skipn 8 f))
  | KRaw => exists f data, stored name schema f data /\ v = VRaw (Desc (skipn 8 f) (zlen data))
  end.

(** The archive's signature is there, every mandatory resource is, none is larger than its limit, and every mandatory sub-archive
    can be opened. *)
Inductive opens : string -> carch -> Prop :=
| Opens path name schema rs subs :
    (exists f data, stored (path ++ name ++ ".archive") schema f data) ->
    (forall r, In r rs -> c_optional r = false -> exists v, shows_value (path ++ c_name r) (c_schema r) (c_kind r) v) ->
    (forall r v m, In r rs -> shows_value (path ++ c_name r) (c_schema r) (c_kind r) v -> c_max r = Some m -> value_size v <= m) ->
    (forall n a, In (n, (false, a)) subs -> In (path ++ n ++ "/") dirs /\ opens (path ++ n ++ "/") a) ->
    opens path (CArch name schema rs subs).

(** The archive object says whether the archive is complete, its members are the resources that are there, and its sub-archives
    those that can be opened, showing what is in them. *)
Inductive shows : string -> carch -> carchive -> Prop :=
| Shows path name schema rs subs signed open members archives :
    (signed = true <-> exists f data, stored (path ++ name ++ ".archive") schema f data) ->
    (open = true <-> opens path (CArch name schema rs subs)) ->
    Forall2 (fun r m => fst m = c_name r /\ forall v, snd m = Some v <-> shows_value (path ++ c_name r) (c_schema r) (c_kind r) v) rs members ->
    Forall2 (fun s m => fst m = fst s) subs archives ->
    (forall i n o a x, nth_error subs i = Some (n, (o, a)) -> nth_error archives i = Some (n, Some x) ->
       In (path ++ n ++ "/") dirs /\ opens (path ++ n ++ "/") a /\ shows (path ++ n ++ "/") a x) ->
    (forall i n o a, nth_error subs i = Some (n, (o, a)) -> nth_error archives i = Some (n, None) ->
       ~ (In (path ++ n ++ "/") dirs /\ opens (path ++ n ++ "/") a)) ->
    shows path (CArch name schema rs subs) (COpened signed open members archives).
End FILES.
