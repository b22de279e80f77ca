(** What a directory of files contains, for stating what Rust archives show. *)
From Coq Require Import List ZArith Bool String.
From Verif Require Import PyBase Spec DataAccess Structure Resources Builder Archive ArchiveSpec Streams StoreSpec CppStore RustStore RustSpec
  CppArchive RustArchive.
Import ListNotations.
Local Open Scope string_scope.
Local Open Scope Z_scope.

(** The bytes [data], followed by [rest] in memory, are the records [rs] of that type. *)
Definition consists (t : etype) (d : desc) (rs : list (list Z)) (rest : list Z) : Prop :=
  d = Desc (List.concat rs ++ rest) (zlen (List.concat rs)) /\ Forall (fun x => List.length x = e_size t) rs /\ (e_overlap t = true -> rs <> []).

Section FILES.
(** Whether the program was built with overflow checks, and the files by path *)
Variable checks : bool.
Variable F : string -> option (list Z).

(** *** What opening gives *)
(** One resource; [reads_as] says what reading one file (with its schema) gives. *)
Inductive value_as (name : string) (schema : list Z) : ckind -> rresult rvalue -> Prop :=
| ValueError k e : (forall w ts, k <> KMulti w ts) -> reads_as checks F name schema (RErr e) -> value_as name schema k (RErr e)
| ValuePanic k : (forall w ts, k <> KMulti w ts) -> reads_as checks F name schema RPanic -> value_as name schema k RPanic
| ValueRaw d : reads_as checks F name schema (ROk d) -> value_as name schema KRaw (ROk (RVRaw d))
| ValueInst size d : reads_as checks F name schema (ROk d) -> Z.of_nat size <= d_size d -> value_as name schema (KInst size) (ROk (RVInst (d_mem d)))
| ValueShort size d : reads_as checks F name schema (ROk d) -> d_size d < Z.of_nat size -> value_as name schema (KInst size) RPanic
| ValueVec t d rs rest : reads_as checks F name schema (ROk d) -> consists t d rs rest -> value_as name schema (KVec t) (ROk (RVVec (records_view t rs rest)))
| ValueOdd t d : reads_as checks F name schema (ROk d) -> (forall rs rest, ~ consists t d rs rest) -> value_as name schema (KVec t) (RErr ESize)
(* multivectors: data and index *)
| ValueMulti w ts i d rs rest : reads_as checks F (index_name name) (index_schema schema) (ROk i) -> reads_as checks F name schema (ROk d) ->
    consists (index_type w) i rs rest -> value_as name schema (KMulti w ts) (ROk (RVMulti (RMView (records_view (index_type w) rs rest) d)))
| ValueMultiOdd w ts i d : reads_as checks F (index_name name) (index_schema schema) (ROk i) -> reads_as checks F name schema (ROk d) ->
    (forall rs rest, ~ consists (index_type w) i rs rest) -> value_as name schema (KMulti w ts) (RErr ESize)
| ValueMultiMissing w ts : F (index_name name) = None -> F name = None -> value_as name schema (KMulti w ts) (RErr EMissing)
| ValueMultiNoData w ts i : reads_as checks F (index_name name) (index_schema schema) (ROk i) -> F name = None ->
    value_as name schema (KMulti w ts) (RErr EMissingData)
| ValueMultiNoIndex w ts d : F (index_name name) = None -> reads_as checks F name schema (ROk d) ->
    value_as name schema (KMulti w ts) (RErr EMissingData)
| ValueMultiData w ts e : ~ reads_as checks F (index_name name) (index_schema schema) RPanic -> reads_as checks F name schema (RErr e) -> e <> EMissing ->
    value_as name schema (KMulti w ts) (RErr e)
| ValueMultiIndex w ts e : reads_as checks F (index_name name) (index_schema schema) (RErr e) -> e <> EMissing ->
    (F name = None \/ exists d, reads_as checks F name schema (ROk d)) -> value_as name schema (KMulti w ts) (RErr e)
| ValueMultiPanic w ts : reads_as checks F (index_name name) (index_schema schema) RPanic \/ reads_as checks F name schema RPanic ->
    value_as name schema (KMulti w ts) RPanic.

(** The result for a member [x] of size [size], mandatory or optional, with a limit *)
Inductive checked_as {A} (optional : bool) (size : A -> Z) (max : option Z) : rresult A -> rresult (option A) -> Prop :=
| CheckedNone : optional = true -> checked_as optional size max (RErr EMissing) (ROk None)
| CheckedMissing : optional = false -> checked_as optional size max (RErr EMissing) (RErr EMissingData)
| CheckedError e : e <> EMissing -> checked_as optional size max (RErr e) (RErr e)
| CheckedPanic : checked_as optional size max RPanic RPanic
| CheckedOk x : (forall m, max = Some m -> size x <= m) -> checked_as optional size max (ROk x) (ROk (Some x))
| CheckedBig x m : max = Some m -> m < size x -> checked_as optional size max (ROk x) (RErr ETooBig).

(** An archive: signature first, then the members in the order of the schema, until one cannot be opened *)
Inductive opens_as : string -> rarch -> rresult rarchive -> Prop :=
| OpensError path name schema ms e : reads_as checks F (path ++ name ++ ".archive") schema (RErr e) -> opens_as path (RArch name schema ms) (RErr e)
| OpensPanic path name schema ms : reads_as checks F (path ++ name ++ ".archive") schema RPanic -> opens_as path (RArch name schema ms) RPanic
| OpensOk path name schema ms d l : reads_as checks F (path ++ name ++ ".archive") schema (ROk d) -> members_as path ms (ROk l) ->
    opens_as path (RArch name schema ms) (ROk (ROpened l))
| OpensMember path name schema ms d e : reads_as checks F (path ++ name ++ ".archive") schema (ROk d) -> members_as path ms (RErr e) ->
    opens_as path (RArch name schema ms) (RErr e)
| OpensMemberPanic path name schema ms d : reads_as checks F (path ++ name ++ ".archive") schema (ROk d) -> members_as path ms RPanic ->
    opens_as path (RArch name schema ms) RPanic
with members_as : string -> list rmember -> rresult (list (string * option rcontent)) -> Prop :=
| MembersNil path : members_as path [] (ROk [])
| MembersError path m ms e : member_as path m (RErr e) -> members_as path (m :: ms) (RErr e)
| MembersPanic path m ms : member_as path m RPanic -> members_as path (m :: ms) RPanic
| MembersCons path m ms v l : member_as path m (ROk v) -> members_as path ms (ROk l) -> members_as path (m :: ms) (ROk ((member_name m, v) :: l))
| MembersLater path m ms v e : member_as path m (ROk v) -> members_as path ms (RErr e) -> members_as path (m :: ms) (RErr e)
| MembersLaterPanic path m ms v : member_as path m (ROk v) -> members_as path ms RPanic -> members_as path (m :: ms) RPanic
with member_as : string -> rmember -> rresult (option rcontent) -> Prop :=
| MemberRes path r x y : value_as (path ++ c_name r) (c_schema r) (c_kind r) x -> checked_as (c_optional r) rvalue_size (c_max r) x y ->
    member_as path (RRes r) (rmap (option_map RCValue) y)
| MemberSub path n o a x y : opens_as (path ++ n ++ "/") a x -> checked_as o (fun _ => 0) None x y ->
    member_as path (RSub n o a) (rmap (option_map RCArchive) y).

(** *** When opening succeeds *)
(** The file [f] of that name holds a resource with that data and schema. *)
Definition rstored (name : string) (schema f data : list Z) : Prop :=
  F name = Some f /\ holds_resource f data /\ F (schema_file name) = Some schema.
Definition rshows (name : string) (schema : list Z) (k : ckind) (v : rvalue) : Prop :=
  match k with
  | KInst size => exists f data, rstored name schema f data /\ Z.of_nat size <= zlen data /\ v = RVInst (skipn 8 f)
  | KVec t => exists f data rs rest, rstored name schema f data /\ consists t (Desc (skipn 8 f) (zlen data)) rs rest /\ v = RVVec (records_view t rs rest)
  | KMulti w _ => exists f data fi di rs rest, rstored name schema f data /\ rstored (index_name name) (index_schema schema) fi di /\
                    consists (index_type w) (Desc (skipn 8 fi) (zlen di)) rs rest /\
                    v = RVMulti (RMView (records_view (index_type w) rs rest) (Desc (skipn 8 f) (zlen data)))
  | KRaw => exists f data, rstored name schema f data /\ v = RVRaw (Desc (skipn 8 f) (zlen data))
  end.
(** Nothing of that resource is there. *)
Definition rabsent (name : string) (k : ckind) : Prop :=
  F name = None /\ match k with KMulti _ _ => F (index_name name) = None | _ => True end.
(** The archive is complete, and has these members. *)
Inductive complete : string -> rarch -> rarchive -> Prop :=
| Complete path name schema ms l : (exists f data, rstored (path ++ name ++ ".archive") schema f data) ->
    Forall2 (complete_member path) ms l -> complete path (RArch name schema ms) (ROpened l)
with complete_member : string -> rmember -> string * option rcontent -> Prop :=
| CompleteRes path r v : rshows (path ++ c_name r) (c_schema r) (c_kind r) v -> (forall m, c_max r = Some m -> rvalue_size v <= m) ->
    complete_member path (RRes r) (c_name r, Some (RCValue v))
| CompleteNone path r : c_optional r = true -> rabsent (path ++ c_name r) (c_kind r) -> complete_member path (RRes r) (c_name r, None)
| CompleteSub path n o a x : complete (path ++ n ++ "/") a x -> complete_member path (RSub n o a) (n, Some (RCArchive x))
| CompleteNoSub path n name schema ms : F (path ++ n ++ "/" ++ name ++ ".archive") = None ->
    complete_member path (RSub n true (RArch name schema ms)) (n, None).
End FILES.

(** Schemas in generated code are texts, the types are not empty *)
Definition rsane_kind (k : ckind) : Prop := match k with KVec t => (0 < e_size t)%nat | KMulti w _ => 1 <= w <= 64 | _ => True end.
Inductive rsane : rarch -> Prop :=
| RSane name schema ms : utf8_valid schema = true ->
    (forall r, In (RRes r) ms -> utf8_valid (c_schema r) = true /\ rsane_kind (c_kind r)) ->
    (forall n o a, In (RSub n o a) ms -> rsane a) -> rsane (RArch name schema ms).
