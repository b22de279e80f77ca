(** Specification vocabulary for resources and archives: what files a successful [set] should leave behind,
    stated purely (no builder state), and what the framing of a resource is. *)
From Coq Require Import List ZArith Bool String.
From Verif Require Import PyBase Spec DataAccess Structure StructSpec Resources Builder Archive.
Import ListNotations.
Local Open Scope string_scope.
Local Open Scope Z_scope.

(** docs: "8 bytes little-endian size, data, 8 bytes padding". *)
Definition framed (payload : list Z) : list Z := (to_le 8 (zlen payload) ++ payload ++ zeros 8)%list.

Definition fits64 (l : list Z) : bool := zlen l <? 2 ^ 64.

(** Files that belong to a resource. *)
Definition schema_file (n : string) : string := n ++ ".schema".
Definition files_of (n : string) (sig : rsig) : list string :=
  match r_container sig with
  | CMultivector _ _ => [n; schema_file n; index_name n; schema_file (index_name n)]
  | _ => [n; schema_file n]
  end.

(** No two resources of the archive type share a file. *)
Definition distinct_files (a : adef) : Prop :=
  NoDup (flat_map (fun ns => files_of (fst ns) (snd ns)) (a_resources a)).

(** Offsets of the buckets relative to the start of the data, and the end. *)
Fixpoint bucket_points (start : Z) (sizes : list Z) : list Z :=
  match sizes with
  | [] => [start]
  | x :: t => start :: bucket_points (start + x) t
  end.

Definition index_schema (schema : list Z) : list Z := (ascii_bytes "index(" ++ schema ++ ascii_bytes ")")%list.

(** One multivector element. *)
Definition element_bytes (types : list sdef) (e : string * record) : res (list Z) :=
  match find_type 0 types (fst e) with
  | None => Err KeyError
  | Some (ti, sd) => pack_element ti sd (snd e)
  end.
Definition bucket_bytes (types : list sdef) (es : list (string * record)) : res (list Z) :=
  l <- mapM (element_bytes types) es ;; Ok (List.concat l).

(** Validation of a value for a resource. *)
Definition validate_value (name : string) (sig : rsig) (v : setval) : res unit :=
  match r_container sig, v with
  | CInstance sd, SRecord r => validate_fields name r sd
  | CVector sd, SRecords rs => _ <- mapM (fun r => validate_fields name r sd) rs ;; Ok tt
  | CMultivector _ ts, SBuckets bs => _ <- mapM (mapM (validate_element name ts)) bs ;; Ok tt
  | CRawData, _ => Ok tt
  | CArchive _, _ => Ok tt
  | _, _ => Err TypeError
  end.

(** The payload of a value, and for a multivector also that of its index. *)
Definition payload_of (sig : rsig) (v : setval) : res (list Z * option (list Z)) :=
  match r_container sig, v with
  | CInstance sd, SRecord r => b <- pack_record sd r ;; Ok (b, None)
  | CVector sd, SRecords rs => bs <- mapM (pack_record sd) rs ;; Ok (List.concat bs, None)
  | CMultivector it ts, SBuckets bs =>
      bufs <- mapM (bucket_bytes ts) bs ;;
      if s_size it =? 0 then Err IndexWriterError else
      idx <- mapM (fun p => py_to_bytes p (s_size it) false) (bucket_points 0 (map zlen bufs)) ;;
      Ok (List.concat bufs, Some (List.concat idx))
  | CRawData, SBytes b => Ok (b, None)
  | CRawData, _ => Ok ([], None)
  | CArchive _, _ => Ok ([], None)
  | _, _ => Err TypeError
  end.

(** The files a successful set writes, with their contents. *)
Definition set_files (n : string) (sig : rsig) (p : list Z) (ix : option (list Z)) : list (string * list Z) :=
  ((schema_file n, r_schema sig) :: (n, framed p) ::
   match ix with
   | None => []
   | Some i => [(index_name n, framed i); (schema_file (index_name n), index_schema (r_schema sig))]
   end)%list.

(** Two directories have the same files with the same contents. *)
Definition same_files (a b : fs) : Prop := forall f, dict_get a f = dict_get b f.

(** The files in directory [d0] after the calls made so far on the builder. *)
Definition files_after (d0 : fs) (s : bstate) : fs := apply_ops d0 (b_ops s).

(** Structure sizes are not negative. *)
Definition sig_sized (sig : rsig) : Prop :=
  match r_container sig with
  | CInstance sd | CVector sd => 0 <= s_size sd
  | CMultivector it ts => 0 <= s_size it /\ Forall (fun t => 0 <= s_size t) ts
  | _ => True
  end.

Definition ix_fits (ix : option (list Z)) : bool := match ix with None => true | Some i => fits64 i end.

(** [set name value] is acceptable for a resource of type [sig] and yields these payloads. *)
Definition valid_set (n : string) (sig : rsig) (v : setval) (p : list Z) (ix : option (list Z)) : Prop :=
  validate_value n sig v = Ok tt /\ payload_of sig v = Ok (p, ix) /\ fits64 p = true /\ ix_fits ix = true.
