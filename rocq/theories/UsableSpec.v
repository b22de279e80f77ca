(** Vocabulary for using generated archive classes with the library: what the schema must avoid, and which data can be stored. *)
From Coq Require Import List ZArith Bool String.
From Verif Require Import PyBase Spec Structure StructSpec Resources ResourceSpec Builder ArchiveSpec GenTypes GenTree GenBuild GenFlatdata GenOutSpec.
Import ListNotations.
Local Open Scope string_scope.
Local Open Scope Z_scope.

(** Every structure has a field; fields are at least one bit wide, and signed ones at least two; an unsigned 64-bit field that does
    not start at a byte shares its last byte with no later field. *)
Definition usable_layouts (root : tree) : Prop :=
  forall l sd, struct_is root l sd ->
    s_fields sd <> [] /\ Forall (fun f => 1 <= f_width f /\ (f_width f = 1 -> f_signed f = false)) (s_fields sd) /\ u64_ok (s_fields sd).

(** No resource is named like the index of a multivector of the same archive *)
Definition no_index_clash (root : tree) : Prop :=
  forall l t c c' w o m rk o' m', at_loc root l = Some t -> t_kind t = KArchive -> In c (t_children t) -> In c' (t_children t) ->
    t_kind c = KResource (KMultivector w) o m -> t_kind c' = KResource rk o' m' -> t_name c' <> t_name c ++ "_index".

(** A multivector has at most 256 types *)
Definition few_types (root : tree) : Prop :=
  forall l t w o m, at_loc root l = Some t -> t_kind t = KResource (KMultivector w) o m ->
    zlen (filter (fun c => is_structure_ref (t_kind c)) (t_children t)) <= 256.

(** The value can be stored in a resource of this type: every record has a representable value for every field and nothing else;
    sizes are below the format's limits. *)
Definition storable (sig : rsig) (v : setval) : Prop :=
  match r_container sig, v with
  | CInstance sd, SRecord r => s_size sd < 2 ^ 63 /\ exists vals, record_values r sd vals
  | CVector sd, SRecords rs => s_size sd * zlen rs < 2 ^ 63 /\ exists valss, Forall2 (fun r vals => record_values r sd vals) rs valss
  | CMultivector it ts, SBuckets bs =>
      s_size it * (zlen bs + 1) < 2 ^ 63 /\
      exists outss, Forall2 (Forall2 (element_is ts)) bs outss /\ forall f, In f (s_fields it) -> buckets_size ts outss < 2 ^ f_width f
  | CRawData, SBytes b => is_bytes b /\ zlen b < 2 ^ 63
  | _, _ => False
  end.
