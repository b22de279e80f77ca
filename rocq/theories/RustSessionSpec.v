(** What a Rust program that builds an archive asks for, independent of how it is stored (contents and resources as for C++). *)
From Coq Require Import List ZArith Bool String.
From Verif Require Import PyBase Spec DataAccess Structure Resources Builder Archive ArchiveSpec Streams StoreSpec CppStore CppFacts CppMulti
  CppArchive CppArchiveSpec CppSessionSpec RustStore RustSpec RustArchive RustArchiveSpec.
Import ListNotations.
Local Open Scope string_scope.
Local Open Scope Z_scope.

Definition rpayload (c : content) : list Z :=
  match c with Records t rs => List.concat (stored_records t rs) | _ => payload c end.
(** The files of a finished resource *)
Definition ritem_files (it : item) : list (string * list Z) :=
  ((it_file it, framed (rpayload (it_content it))) :: (schema_file (it_file it), it_schema it) ::
   match it_content it with
   | Buckets w bss => [(index_name (it_file it), framed (index_payload w bss)); (schema_file (index_name (it_file it)), index_schema (it_schema it))]
   | _ => []
   end)%list.
Definition rsignature (path : string) (a : rarch) : item :=
  match a with RArch name schema _ => Item (path ++ signature_name name) schema (Bytes []) false end.

(** What can be given to a setter: the bytes of a structure, of a slice of structures, any bytes *)
Definition settable (k : ckind) (data : list Z) : Prop :=
  match k with
  | KInst size => List.length data = size
  | KVec t => exists rs, consists t (Desc data (zlen data)) rs []
  | KRaw => True
  | KMulti _ _ => False
  end.

(** The effect of a call on the archives being built (by path) and the resources; [limit] is the size of the buffers. *)
Inductive rdoes (limit : Z) : list (string * rarch) * list item -> bop -> list (string * rarch) * list item -> Prop :=
| RDSub bs its path name a sub :
    dict_get bs path = Some a -> rfind_sub a name = Some sub -> dict_get bs (path ++ name ++ "/") = None ->
    fresh its (rsignature (path ++ name ++ "/") sub) ->
    rdoes limit (bs, its) (BSub path name) ((bs ++ [((path ++ name ++ "/")%string, sub)])%list, (its ++ [rsignature (path ++ name ++ "/") sub])%list)
| RDSetRes bs its path name data a r :
    dict_get bs path = Some a -> rfind_resource a name = Some r -> settable (c_kind r) data -> is_bytes data -> zlen data + 16 < 2 ^ 64 ->
    fresh its (Item (path ++ name) (c_schema r) (Bytes data) false) ->
    rdoes limit (bs, its) (BSet path name data) (bs, (its ++ [Item (path ++ name) (c_schema r) (Bytes data) false])%list)
| RDStartVector bs its path name a r t :
    dict_get bs path = Some a -> rfind_resource a name = Some r -> c_kind r = KVec t -> utf8_valid (c_schema r) = true ->
    (0 < e_size t)%nat -> (e_overlap t = true -> Z.of_nat (e_size t) <= limit) ->
    fresh its (Item (path ++ name) (c_schema r) (Records t []) true) ->
    rdoes limit (bs, its) (BStart path name) (bs, (its ++ [Item (path ++ name) (c_schema r) (Records t []) true])%list)
| RDStartMulti bs its path name a r w ts :
    dict_get bs path = Some a -> rfind_resource a name = Some r -> c_kind r = KMulti w ts -> utf8_valid (c_schema r) = true -> 1 <= w <= 64 ->
    fresh its (Item (path ++ name) (c_schema r) (Buckets w []) true) ->
    rdoes limit (bs, its) (BStart path name) (bs, (its ++ [Item (path ++ name) (c_schema r) (Buckets w []) true])%list)
| RDGrowVector bs its1 its2 file schema t rs f new :
    sets (e_size t) f (zeros (e_size t)) new ->
    rdoes limit (bs, (its1 ++ Item file schema (Records t rs) true :: its2)%list) (BGrow file f)
          (bs, (its1 ++ Item file schema (Records t (rs ++ [new])) true :: its2)%list)
| RDBucket bs its1 its2 file schema w bss :
    zlen (payload (Buckets w bss)) < 2 ^ w ->
    rdoes limit (bs, (its1 ++ Item file schema (Buckets w bss) true :: its2)%list) (BBucket file)
          (bs, (its1 ++ Item file schema (Buckets w (bss ++ [[]])) true :: its2)%list)
| RDAdd bs its1 its2 file schema w bss es ti size f e :
    radds (ti, size, f) e ->
    rdoes limit (bs, (its1 ++ Item file schema (Buckets w (bss ++ [es])) true :: its2)%list) (BAdd file ti size f)
          (bs, (its1 ++ Item file schema (Buckets w (bss ++ [(es ++ [e])%list])) true :: its2)%list)
| RDClose bs its1 its2 file schema c :
    zlen (rpayload c) + 16 < 2 ^ 64 ->
    (forall w bss, c = Buckets w bss -> zlen (payload c) < 2 ^ w /\ (zlen bss + 1) * ((w + 7) / 8) + 16 < 2 ^ 64) ->
    rdoes limit (bs, (its1 ++ Item file schema c true :: its2)%list) (BClose file) (bs, (its1 ++ Item file schema c false :: its2)%list).
Inductive rdoes_all (limit : Z) : list (string * rarch) * list item -> list bop -> list (string * rarch) * list item -> Prop :=
| RDoNil x : rdoes_all limit x [] x
| RDoCons x op y ops z : rdoes limit x op y -> rdoes_all limit y ops z -> rdoes_all limit x (op :: ops) z.

(** The contents as the Rust library shows them *)
Inductive shown : ckind -> content -> rvalue -> Prop :=
| ShownInst d : shown (KInst (List.length d)) (Bytes d) (RVInst (d ++ zeros 8))
| ShownRaw d : shown KRaw (Bytes d) (RVRaw (Desc (d ++ zeros 8) (zlen d)))
| ShownSlice t rs : Forall (fun x => List.length x = e_size t) rs -> (e_overlap t = true -> rs <> []) ->
    shown (KVec t) (Bytes (List.concat rs)) (RVVec (records_view t rs (zeros 8)))
| ShownVec t rs : shown (KVec t) (Records t rs) (RVVec (records_view t (stored_records t rs) (zeros 8)))
| ShownMulti w ts bss : shown (KMulti w ts) (Buckets w bss)
    (RVMulti (RMView (records_view (index_type w) (map (to_le (index_bytes w)) (bucket_points 0 (map zlen (map bucket bss)))) (zeros 8))
                     (Desc (payload (Buckets w bss) ++ zeros 8) (zlen (payload (Buckets w bss)))))).

(** No resource has a file of that name. *)
Definition untouched (its : list item) (file : string) : Prop := forall it, In it its -> ~ In file (item_names it).
(** Everything mandatory was written and closed, within its limits, nothing was left unfinished, and so for the sub-archives. *)
Inductive rfinished (its : list item) : string -> rarch -> rarchive -> Prop :=
| RFinished path name schema ms l : In (rsignature path (RArch name schema ms)) its -> Forall2 (rfinished_member its path) ms l ->
    rfinished its path (RArch name schema ms) (ROpened l)
with rfinished_member (its : list item) : string -> rmember -> string * option rcontent -> Prop :=
| RFinishedRes path r c v : In (Item (path ++ c_name r) (c_schema r) c false) its -> shown (c_kind r) c v ->
    (forall m, c_max r = Some m -> rvalue_size v <= m) -> rfinished_member its path (RRes r) (c_name r, Some (RCValue v))
| RFinishedNone path r : c_optional r = true -> untouched its (path ++ c_name r) ->
    match c_kind r with KMulti _ _ => untouched its (index_name (path ++ c_name r)) | _ => True end ->
    rfinished_member its path (RRes r) (c_name r, None)
| RFinishedSub path n o a x : rfinished its (path ++ n ++ "/") a x -> rfinished_member its path (RSub n o a) (n, Some (RCArchive x))
| RFinishedNoSub path n name schema ms : untouched its ((path ++ n ++ "/") ++ name ++ ".archive") ->
    rfinished_member its path (RSub n true (RArch name schema ms)) (n, None).
(** The sizes of the schemas and of what is not finished fit in 64 bits. *)
Definition rstorable (it : item) : Prop :=
  is_bytes (it_schema it) /\ zlen (it_schema it) + 16 < 2 ^ 63 /\ zlen (rpayload (it_content it)) + 16 < 2 ^ 64 /\
  forall w bss, it_content it = Buckets w bss -> (zlen bss + 1) * ((w + 7) / 8) + 16 < 2 ^ 64.
(** Something is missing or unfinished: a mandatory resource or sub-archive that was never started, a resource that was not closed
    (mandatory or not), or such a thing in a sub-archive that was started. *)
Inductive broken (its : list item) : string -> rarch -> Prop :=
| BrokenMissing path name schema ms r : In (RRes r) ms -> c_optional r = false -> untouched its (path ++ c_name r) -> broken its path (RArch name schema ms)
| BrokenOpen path name schema ms r s c : In (RRes r) ms -> In (Item (path ++ c_name r) s c true) its -> broken its path (RArch name schema ms)
| BrokenNoSub path name schema ms n sname sschema sms : In (RSub n false (RArch sname sschema sms)) ms ->
    untouched its ((path ++ n ++ "/") ++ sname ++ ".archive") -> broken its path (RArch name schema ms)
| BrokenSub path name schema ms n o a : In (RSub n o a) ms -> In (rsignature (path ++ n ++ "/") a) its -> broken its (path ++ n ++ "/") a ->
    broken its path (RArch name schema ms).
