(** Specification vocabulary for builder histories and end-to-end statements. *)
From Coq Require Import List ZArith Bool String.
From Verif Require Import PyBase Spec DataAccess Structure StructSpec Resources Builder Archive ArchiveSpec OpenSpec ResourceSpec.
Import ListNotations.
Local Open Scope string_scope.
Local Open Scope Z_scope.

(** An archive type as the generator emits it (templates/py/python.jinja2:80-99): the signature resource
    "NAME.archive" is raw data whose schema is the archive's schema; names are distinct. *)
Definition generated (a : adef) : Prop :=
  In (archive_file a, RSig CRawData (a_schema a) false) (a_resources a) /\ distinct_files a.

(** Schema texts are not empty and are UTF-8. *)
Definition schemas_ok (a : adef) : Prop :=
  forall n sig, In (n, sig) (a_resources a) -> r_schema sig <> [] /\ utf8_valid (r_schema sig) = true.

Definition no_subarchives (a : adef) : Prop :=
  forall n sig, In (n, sig) (a_resources a) -> is_archive (r_container sig) = false.

Definition sizes_ok (a : adef) : Prop := forall n sig, In (n, sig) (a_resources a) -> sig_sized sig.

(** The directory contains no file of the archive. *)
Definition clean (a : adef) (d : fs) : Prop :=
  forall n sig f, In (n, sig) (a_resources a) -> In f (files_of n sig) -> dict_get d f = None.

(** The value can be stored losslessly: every record supplies a representable value for every field and nothing
    else, layouts are usable, sizes below the format's limits (and below Python's sys.maxsize). *)
Definition acceptable (sig : rsig) (v : setval) : Prop :=
  match r_container sig, v with
  | CInstance sd, SRecord r => sdef_ok sd /\ s_size sd < 2 ^ 63 /\ exists vals, record_values r sd vals
  | CVector sd, SRecords rs =>
      sdef_ok sd /\ s_fields sd <> [] /\ s_size sd * zlen rs < 2 ^ 63 /\
      exists valss, Forall2 (fun r vals => record_values r sd vals) rs valss
  | CMultivector it ts, SBuckets bs =>
      types_ok ts /\ s_size it * (zlen bs + 1) < 2 ^ 63 /\
      exists w outss, index_def_ok it w /\ Forall2 (Forall2 (element_is ts)) bs outss /\ buckets_size ts outss < 2 ^ w
  | CRawData, SBytes b => is_bytes b /\ zlen b < 2 ^ 63
  | _, _ => False
  end.

(** What accessing the resource in the opened archive gives is the value that was set. *)
Definition holds (sig : rsig) (v : setval) (o : option opened) : Prop :=
  match r_container sig, v with
  | CInstance sd, SRecord r => exists x e vals, o = Some (OInstance x) /\ instance_get x 0 = Ok e /\
      record_values r sd vals /\ as_list e = Ok vals
  | CVector sd, SRecords [] => o = None
  | CVector sd, SRecords rs => exists x valss, o = Some (OVector x) /\ vector_len x = zlen rs /\
      Forall2 (fun r vals => record_values r sd vals) rs valss /\ mapM as_list (vector_iter x) = Ok valss
  | CMultivector it ts, SBuckets [] => o = None
  | CMultivector it ts, SBuckets bs => exists m outss elss, o = Some (OMulti m) /\ multivector_len m = zlen bs /\
      Forall2 (Forall2 (element_is ts)) bs outss /\ Forall2 (Forall2 (reads_as ts)) outss elss /\
      multivector_iter m = Ok elss
  | CRawData, SBytes [] => o = None
  | CRawData, SBytes b => exists r, o = Some (ORaw r) /\ rawdata_len r = Ok (zlen b) /\
      rawdata_slice r (PySlice (Some 0) (Some (zlen b)) None) = Ok b
  | _, _ => False
  end.

(** [o] is what a reader gets for resource [n] from a directory that holds exactly what [set n v] should write. *)
Definition stored_as (n : string) (sig : rsig) (v : setval) (o : option opened) : Prop :=
  exists p ix, valid_set n sig v p ix /\ open_resource n sig (storage_of_fs (set_files n sig p ix)) = Ok o.

(** The calls are [set]s only. *)
Definition sets_of (sets : list (string * setval)) : list call := map (fun nv => Set_ (fst nv) (snd nv)) sets.

(** The files a list of valid sets should leave. *)
Definition expected_files (a : adef) (sets : list (string * setval)) : fs :=
  flat_map (fun nv => match dict_get (a_resources a) (fst nv) with
                      | None => []
                      | Some sig => match payload_of sig (snd nv) with
                                    | Ok (p, ix) => set_files (fst nv) sig p ix
                                    | Err _ => []
                                    end
                      end) sets.

(** [set n v] is acceptable to the builder (some payload). *)
Definition valid_call (a : adef) (nv : string * setval) : Prop :=
  fst nv <> archive_file a /\
  exists sig p ix, dict_get (a_resources a) (fst nv) = Some sig /\ valid_set (fst nv) sig (snd nv) p ix.

(** Crash: only a prefix of the file-system effects happened. *)
Definition prefix {A} (p l : list A) : Prop := exists r, l = (p ++ r)%list.
