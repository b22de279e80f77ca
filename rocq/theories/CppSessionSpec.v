(** What a C++ program that builds an archive asks for, independent of how it is stored. *)
From Coq Require Import List ZArith Bool String.
From Verif Require Import PyBase Spec DataAccess Structure Resources Builder Archive ArchiveSpec Streams StoreSpec CppStore CppFacts CppMulti CppArchive CppArchiveSpec.
Import ListNotations.
Local Open Scope string_scope.
Local Open Scope Z_scope.

(** The contents of a resource: given at once, records added one by one, buckets of elements (type number and bytes) *)
Inductive content : Type := Bytes (data : list Z) | Records (t : etype) (rs : list (list Z)) | Buckets (w : Z) (bss : list (list (Z * list Z))).
(** A resource being written or (not [it_open]) finished *)
Record item := Item { it_file : string; it_schema : list Z; it_content : content; it_open : bool }.

Definition payload (c : content) : list Z :=
  match c with Bytes d => d | Records _ rs => List.concat rs | Buckets _ bss => List.concat (map bucket bss) end.
Definition index_payload (w : Z) (bss : list (list (Z * list Z))) : list Z :=
  List.concat (map (to_le (index_bytes w)) (bucket_points 0 (map zlen (map bucket bss)))).
(** The files of a finished resource *)
Definition item_files (it : item) : list (string * list Z) :=
  ((it_file it, framed (payload (it_content it))) :: (schema_file (it_file it), it_schema it) ::
   match it_content it with
   | Buckets w bss => [(index_name (it_file it), framed (index_payload w bss)); (schema_file (index_name (it_file it)), index_schema (it_schema it))]
   | _ => []
   end)%list.
Definition item_names (it : item) : list string := map fst (item_files it).
(** No file of the new resource belongs to another one. *)
Definition fresh (its : list item) (new : item) : Prop := forall it n, In it its -> In n (item_names new) -> ~ In n (item_names it).

Definition signature (path : string) (a : carch) : item :=
  match a with CArch name schema _ _ => Item (path ++ signature_name name) schema (Bytes []) false end.

(** The effect of a call on the archives being built (by path) and the resources *)
Inductive does : list (string * carch) * list item -> bop -> list (string * carch) * list item -> Prop :=
| DSub bs its path name a sub :
    dict_get bs path = Some a -> find_sub a name = Some sub -> dict_get bs (path ++ name ++ "/") = None ->
    fresh its (signature (path ++ name ++ "/") sub) ->
    (* nothing is below the name of the signature (names in schemas contain neither '.' nor '/') *)
    ~ In (it_file (signature (path ++ name ++ "/") sub) ++ "/") ((path ++ name ++ "/") :: map fst bs) ->
    (forall it n, In it its -> In n (item_names it) -> String.prefix (it_file (signature (path ++ name ++ "/") sub) ++ "/") n = false) ->
    does (bs, its) (BSub path name) ((bs ++ [((path ++ name ++ "/")%string, sub)])%list, (its ++ [signature (path ++ name ++ "/") sub])%list)
| DSubAgain bs its path name a sub b :
    dict_get bs path = Some a -> find_sub a name = Some sub -> dict_get bs (path ++ name ++ "/") = Some b -> does (bs, its) (BSub path name) (bs, its)
| DSet bs its path name data a r :
    dict_get bs path = Some a -> find_resource a name = Some r -> (forall w ts, c_kind r <> KMulti w ts) -> is_bytes data -> zlen data + 16 < 2 ^ 64 ->
    fresh its (Item (path ++ name) (c_schema r) (Bytes data) false) ->
    does (bs, its) (BSet path name data) (bs, (its ++ [Item (path ++ name) (c_schema r) (Bytes data) false])%list)
| DStartVector bs its path name a r t :
    dict_get bs path = Some a -> find_resource a name = Some r -> c_kind r = KVec t -> c_schema r <> [] ->
    fresh its (Item (path ++ name) (c_schema r) (Records t []) true) ->
    does (bs, its) (BStart path name) (bs, (its ++ [Item (path ++ name) (c_schema r) (Records t []) true])%list)
| DStartMulti bs its path name a r w ts :
    dict_get bs path = Some a -> find_resource a name = Some r -> c_kind r = KMulti w ts -> c_schema r <> [] -> 1 <= w <= 64 ->
    fresh its (Item (path ++ name) (c_schema r) (Buckets w []) true) ->
    does (bs, its) (BStart path name) (bs, (its ++ [Item (path ++ name) (c_schema r) (Buckets w []) true])%list)
| DGrow bs its1 its2 file schema t rs f new :
    makes (e_size t) f new ->
    does (bs, (its1 ++ Item file schema (Records t rs) true :: its2)%list) (BGrow file f) (bs, (its1 ++ Item file schema (Records t (rs ++ [new])) true :: its2)%list)
| DBucket bs its1 its2 file schema w bss :
    zlen (payload (Buckets w bss)) < 2 ^ w ->
    does (bs, (its1 ++ Item file schema (Buckets w bss) true :: its2)%list) (BBucket file) (bs, (its1 ++ Item file schema (Buckets w (bss ++ [[]])) true :: its2)%list)
| DAdd bs its1 its2 file schema w bss es ti size f e :
    adds (Addition ti size f) e ->
    does (bs, (its1 ++ Item file schema (Buckets w (bss ++ [es])) true :: its2)%list) (BAdd file ti size f)
         (bs, (its1 ++ Item file schema (Buckets w (bss ++ [(es ++ [e])%list])) true :: its2)%list)
| DClose bs its1 its2 file schema c :
    zlen (payload c) + 16 < 2 ^ 64 ->
    (forall w bss, c = Buckets w bss -> zlen (payload c) < 2 ^ w /\ (zlen bss + 1) * ((w + 7) / 8) + 16 < 2 ^ 64) ->
    does (bs, (its1 ++ Item file schema c true :: its2)%list) (BClose file) (bs, (its1 ++ Item file schema c false :: its2)%list).
Inductive does_all : list (string * carch) * list item -> list bop -> list (string * carch) * list item -> Prop :=
| DNil x : does_all x [] x
| DCons x op y ops z : does x op y -> does_all y ops z -> does_all x (op :: ops) z.

(** The contents as the C++ library shows them *)
Definition content_value (k : ckind) (c : content) : cvalue :=
  match k with
  | KInst _ => VInst (payload c ++ zeros 8)
  | KVec t => VVec (av_create t (payload c ++ zeros 8) (zlen (payload c)))
  | KMulti w _ => VMulti (MAView (av_create (index_type w) (match c with Buckets w bss => index_payload w bss | _ => [] end ++ zeros 8)
                                   (zlen (match c with Buckets w bss => index_payload w bss | _ => [] end))) (payload c ++ zeros 8))
  | KRaw => VRaw (Desc (payload c ++ zeros 8) (zlen (payload c)))
  end.
(** A resource of the archive at [path] was written and finished *)
Definition written (its : list item) (path : string) (r : cres) (c : content) : Prop :=
  In (Item (path ++ c_name r) (c_schema r) c false) its /\
  match c_kind r with KMulti w _ => exists bss, c = Buckets w bss | _ => True end.
(** No resource of that name was started, or it was started and not closed. *)
Definition absent (its : list item) (file : string) : Prop :=
  forall it, In it its -> In file (item_names it) -> it_file it = file /\ it_open it = true.
(** The sizes fit in 64 bits, and the schema is a sequence of bytes. *)
Definition storable (it : item) : Prop :=
  is_bytes (it_schema it) /\ zlen (it_schema it) < 2 ^ 63 /\ zlen (payload (it_content it)) + 16 < 2 ^ 64 /\
  forall w bss, it_content it = Buckets w bss -> (zlen bss + 1) * ((w + 7) / 8) + 16 < 2 ^ 64.
(** Everything mandatory was written, within its limits, and so for the mandatory sub-archives *)
Inductive finished (bs : list (string * carch)) (its : list item) : string -> carch -> Prop :=
| Finished path name schema rs subs :
    In (signature path (CArch name schema rs subs)) its -> schema <> [] ->
    (forall r, In r rs -> c_schema r <> []) ->
    (forall r, In r rs -> c_optional r = false -> exists c, written its path r c) ->
    (forall r, In r rs -> (exists c, written its path r c /\ forall m, c_max r = Some m -> value_size (content_value (c_kind r) c) <= m) \/
                          absent its (path ++ c_name r)) ->
    (forall n a, In (n, (false, a)) subs -> In (path ++ n ++ "/") (map fst bs) /\ path ++ n ++ "/" <> "" /\ finished bs its (path ++ n ++ "/") a) ->
    finished bs its path (CArch name schema rs subs).
