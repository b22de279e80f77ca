(** What a directory of files contains, for stating what Go archives show. *)
From Coq Require Import List ZArith Bool String.
From Verif Require Import PyBase Spec DataAccess Structure Resources Builder Archive ArchiveSpec CodecSpec Streams StoreSpec CppStore RustStore RustSpec
  CppArchive RustArchive CppArchiveSpec RustArchiveSpec GoArchive.
Import ListNotations.
Local Open Scope string_scope.
Local Open Scope Z_scope.

Section FILES.
Variable F : string -> option (list Z).

(** There is a file of at least 16 bytes with that non-empty schema. *)
Definition greadable (n : string) (f schema : list Z) : Prop := F n = Some f /\ 16 <= zlen f /\ F (n ++ ".schema") = Some schema /\ schema <> [].
(** There is a file that cannot be used. *)
Inductive gfaulty (n : string) : gerror -> Prop :=
| FaultySize f : F n = Some f -> zlen f < 16 -> gfaulty n GInvalid
| FaultyNoSchema f : F n = Some f -> 16 <= zlen f -> F (n ++ ".schema") = None -> gfaulty n GNoSchema
| FaultyEmpty f : F n = Some f -> 16 <= zlen f -> F (n ++ ".schema") = Some [] -> gfaulty n GEmptySchema.

(** Why one resource (of file name [n]) stops the archive from being opened *)
Inductive gres_fails (n : string) (r : cres) : gerror -> Prop :=
| FailsData e : gfaulty n e -> gres_fails n r e
| FailsIndex w ts e : (forall e', ~ gfaulty n e') -> c_kind r = KMulti w ts -> gfaulty (n ++ "_index") e -> gres_fails n r e
| FailsSchema f s : greadable n f s -> s <> c_schema r ->
    (forall w ts, c_kind r = KMulti w ts -> exists fi si, greadable (n ++ "_index") fi si) -> gres_fails n r GMismatch.

(** The object for a resource: what is in its files, and open if they are there *)
Definition gres_shows (n : string) (r : cres) (v : gres) : Prop :=
  g_data v = F n /\ g_optional v = c_optional r /\
  match c_kind r with
  | KMulti _ _ => g_index v = F (n ++ "_index") /\ (g_open v = true <-> F n <> None /\ F (n ++ "_index") <> None)
  | _ => g_index v = None /\ (g_open v = true <-> F n <> None)
  end.

(** The archive can be opened: no resource in it or in its sub-archives stops it. *)
Inductive gopens : string -> rarch -> Prop :=
| GOpens path name schema ms :
    (forall r e, In (RRes r) ms -> ~ gres_fails (path ++ c_name r) r e) ->
    (forall n o a, In (RSub n o a) ms -> gopens (path ++ go_lower n ++ "/") a) ->
    gopens path (RArch name schema ms).
(** The first resource that stops it decides the error. *)
Inductive gfails : string -> rarch -> gerror -> Prop :=
| GFailsRes path name schema before r after e : gopens path (RArch name schema before) -> gres_fails (path ++ c_name r) r e ->
    gfails path (RArch name schema (before ++ RRes r :: after)) e
| GFailsSub path name schema before n o a after e : gopens path (RArch name schema before) -> gfails (path ++ go_lower n ++ "/") a e ->
    gfails path (RArch name schema (before ++ RSub n o a :: after)) e.

(** The members of the archive object *)
Inductive gshows : string -> rarch -> list (string * gcontent) -> Prop :=
| GShows path name schema ms l : Forall2 (gshows_member path) ms l -> gshows path (RArch name schema ms) l
with gshows_member : string -> rmember -> string * gcontent -> Prop :=
| GShowsRes path r v : gres_shows (path ++ c_name r) r v -> gshows_member path (RRes r) (c_name r, GCRes v)
| GShowsSub path n o a l : gshows (path ++ go_lower n ++ "/") a l -> gshows_member path (RSub n o a) (n, GCSub o true l).
End FILES.

(** All members closed (sub-archives are always said to be open) *)
Inductive gclosed : gcontent -> Prop :=
| GClosedRes r : g_open r = false -> gclosed (GCRes r)
| GClosedSub o open l : (open = true -> Forall (fun x => gclosed (snd x)) l) -> gclosed (GCSub o open l).

(** The Go object and the Rust value of a resource show the same bytes. *)
Definition gsame (v : option rvalue) (g : gres) : Prop :=
  match v with
  | None => g_open g = false /\ g_data g = None /\ g_index g = None
  | Some v => g_open g = true /\ exists f data, g_data g = Some f /\ holds_resource f data /\
      match v with
      | RVInst mem => mem = skipn 8 f
      | RVVec v => av_mem v = skipn 8 f
      | RVRaw d => d = Desc (skipn 8 f) (zlen data)
      | RVMulti m => rw_data m = Desc (skipn 8 f) (zlen data) /\ exists fi di, g_index g = Some fi /\ holds_resource fi di /\ av_mem (rw_index m) = skipn 8 fi
      end
  end.
(** Rust's and Go's archive objects show the same; a sub-archive that Rust says is absent is open, with closed members, in Go. *)
Inductive gagrees : rarch -> rarchive -> list (string * gcontent) -> Prop :=
| GAgrees name schema ms l g : gagrees_members ms l g -> gagrees (RArch name schema ms) (ROpened l) g
with gagrees_members : list rmember -> list (string * option rcontent) -> list (string * gcontent) -> Prop :=
| GAgreesNil : gagrees_members [] [] []
| GAgreesRes r v g ms l gs : gsame v g -> g_optional g = c_optional r -> gagrees_members ms l gs ->
    gagrees_members (RRes r :: ms) ((c_name r, option_map RCValue v) :: l) ((c_name r, GCRes g) :: gs)
| GAgreesSub n o a x g ms l gs : gagrees a x g -> gagrees_members ms l gs ->
    gagrees_members (RSub n o a :: ms) ((n, Some (RCArchive x)) :: l) ((n, GCSub o true g) :: gs)
| GAgreesNone n a g ms l gs : gclosed (GCSub true true g) -> gagrees_members ms l gs ->
    gagrees_members (RSub n true a :: ms) ((n, None) :: l) ((n, GCSub true true g) :: gs).

(** Every sub-archive's name is in lower case; those that are absent have no files at all. *)
Inductive lower_case (F : string -> option (list Z)) : string -> rarch -> Prop :=
| LowerCase path name schema ms :
    (forall n o sname sschema sms, In (RSub n o (RArch sname sschema sms)) ms -> go_lower n = n /\ lower_case F (path ++ n ++ "/") (RArch sname sschema sms) /\
       (F (path ++ n ++ "/" ++ sname ++ ".archive") = None -> forall x, F (path ++ n ++ "/" ++ x) = None)) ->
    lower_case F path (RArch name schema ms).

(** ** Elements *)

(** A field that the Go code reads correctly (C53): at most 64 bits in a type that can hold it; not signed with a single bit, nor signed inside
    one byte without starting it *)
Definition gfield (size : nat) (wT : Z) (sT : bool) (off n : Z) : Prop :=
  0 <= off /\ 1 <= n <= 64 /\ off + n <= 8 * Z.of_nat size /\ type_holds wT sT n /\ (sT = true -> 2 <= n /\ (off mod 8 = 0 \/ 8 < off mod 8 + n)).
(** All getters of the element at that position of the file give the values of the fields of that record. *)
Definition shows_record (f : list Z) (position : Z) (r : list Z) : Prop :=
  forall wT sT off n, gfield (List.length r) wT sT off n -> Codecs.go_get wT sT f position off n = Some (schema_value r off n sT).
(** The last element of that type *)
Fixpoint last_of (ti : nat) (es : list (Z * list Z)) : option (list Z) :=
  match es with
  | [] => None
  | e :: es => match last_of ti es with Some r => Some r | None => if fst e =? Z.of_nat ti then Some (snd e) else None end
  end.

(** The data files of the open members of an archive, of its sub-archives too *)
Inductive open_files : gcontent -> list (list Z) -> Prop :=
| FilesRes r d : g_open r = true -> g_data r = Some d -> open_files (GCRes r) [d]
| FilesNoRes r : g_open r = false \/ g_data r = None -> open_files (GCRes r) []
| FilesNoSub optional l : open_files (GCSub optional false l) []
| FilesSub optional l fs : Forall2 (fun x f => open_files (snd x) f) l fs -> open_files (GCSub optional true l) (List.concat fs).
