(** The same archive opened with the C++ and the Rust library. *)
From Coq Require Import List ZArith Bool String.
From Verif Require Import PyBase Spec DataAccess Structure Resources Builder Archive ArchiveSpec Streams StoreSpec CppStore RustStore RustSpec
  CppArchive RustArchive CppArchiveSpec RustArchiveSpec.
Import ListNotations.
Local Open Scope string_scope.
Local Open Scope Z_scope.

(** The C++ class for the same schema: resources and sub-archives separately *)
Definition resources_of (ms : list rmember) : list cres := flat_map (fun m => match m with RRes r => [r] | RSub _ _ _ => [] end) ms.
Fixpoint as_cpp (a : rarch) : carch :=
  match a with
  | RArch name schema ms =>
      CArch name schema (resources_of ms) (flat_map (fun m => match m with RRes _ => [] | RSub n o a => [(n, (o, as_cpp a))] end) ms)
  end.
(** The same data: memory of a structure, view, raw data (a multivector in C++ does not know the size of its data) *)
Definition as_value (v : rvalue) : cvalue :=
  match v with RVInst mem => VInst mem | RVVec v => VVec v | RVMulti m => VMulti (MAView (rw_index m) (d_mem (rw_data m))) | RVRaw d => VRaw d end.
(** Two archive objects are open and have the same members. *)
Inductive agree : rarch -> rarchive -> carchive -> Prop :=
| Agree name schema ms l vs subs : agree_members ms l vs subs -> agree (RArch name schema ms) (ROpened l) (COpened true true vs subs)
with agree_members : list rmember -> list (string * option rcontent) -> list (string * option cvalue) -> list (string * option carchive) -> Prop :=
| AgreeNil : agree_members [] [] [] []
| AgreeRes r v ms l vs subs : agree_members ms l vs subs ->
    agree_members (RRes r :: ms) ((c_name r, option_map RCValue v) :: l) ((c_name r, option_map as_value v) :: vs) subs
| AgreeSub n o a x y ms l vs subs : agree a x y -> agree_members ms l vs subs ->
    agree_members (RSub n o a :: ms) ((n, Some (RCArchive x)) :: l) vs ((n, Some y) :: subs)
| AgreeNoSub n a ms l vs subs : agree_members ms l vs subs -> agree_members (RSub n true a :: ms) ((n, None) :: l) vs ((n, None) :: subs).

(** Every schema in the generated code is a text with at least one character. *)
Inductive schemas_nonempty : rarch -> Prop :=
| SchemasNonempty name schema ms : schema <> [] -> (forall r, In (RRes r) ms -> c_schema r <> []) ->
    (forall n o a, In (RSub n o a) ms -> schemas_nonempty a) -> schemas_nonempty (RArch name schema ms).
(** A file is in a directory. *)
Definition directories_of (F : string -> option (list Z)) (dirs : list string) : Prop :=
  forall path n f, F (path ++ "/" ++ n) = Some f -> In (path ++ "/") dirs.
(** Nothing is damaged: each resource is there with a size that fits its type, or has no files at all; a sub-archive has no signature,
    or the same holds for it and (if it is optional) C++ can open it. *)
Inductive undamaged (F : string -> option (list Z)) (dirs : list string) (null_empty : bool) : string -> rarch -> Prop :=
| Undamaged path name schema ms :
    (forall r, In (RRes r) ms -> rabsent F (path ++ c_name r) (c_kind r) \/ exists v, rshows F (path ++ c_name r) (c_schema r) (c_kind r) v) ->
    (forall n o sname sschema sms, In (RSub n o (RArch sname sschema sms)) ms -> F (path ++ n ++ "/" ++ sname ++ ".archive") = None \/
       ((o = true -> opens F dirs null_empty (path ++ n ++ "/") (as_cpp (RArch sname sschema sms))) /\
        undamaged F dirs null_empty (path ++ n ++ "/") (RArch sname sschema sms))) ->
    undamaged F dirs null_empty path (RArch name schema ms).
