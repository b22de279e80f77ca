(** Specification vocabulary for structures: what a usable layout is and what it means for a record to
    supply a value for every field. *)
From Coq Require Import List ZArith Bool String.
From Verif Require Import PyBase Spec DataAccess Structure.
Import ListNotations.
Local Open Scope Z_scope.

(** Fields start at or after [start], in ascending order, without overlap, and end by bit [limit]. *)
Fixpoint ascending (start : Z) (fs : list fsig) (limit : Z) : Prop :=
  match fs with
  | [] => start <= limit
  | f :: t => start <= f_off f /\ ascending (f_off f + f_width f) t limit
  end.

(** Widths the format supports; a 1-bit field is unsigned (bool / u8:1 ...). *)
Definition field_ok (f : fsig) : Prop :=
  1 <= f_width f <= 64 /\ (f_width f = 1 -> f_signed f = false).

(** An unaligned unsigned 64-bit field shares its last byte with no later field. *)
Definition u64_ok (fs : list fsig) : Prop :=
  forall f, In f fs -> f_width f = 64 -> f_signed f = false -> f_off f mod 8 <> 0 ->
  forall g, In g fs -> f_off f + 64 <= f_off g -> 8 * ((f_off f + 64 + 7) / 8) <= f_off g.

(** A structure class as the generator emits it. *)
Definition sdef_ok (sd : sdef) : Prop :=
  0 <= s_size sd /\ ascending 0 (s_fields sd) (8 * s_size sd) /\ Forall field_ok (s_fields sd)
  /\ u64_ok (s_fields sd) /\ NoDup (map f_name (s_fields sd))
  /\ (forall k, In k (s_keys sd) <-> In k (map f_name (s_fields sd))).

(** The record maps field [f] to the representable integer [v]. *)
Definition has_value (r : record) (f : fsig) (v : Z) : Prop :=
  dict_get r (f_name f) = Some (PInt v) /\ representable (f_width f) (f_signed f) v.

(** The record supplies exactly the values [vals] for the fields, in declaration order. *)
Definition record_values (r : record) (sd : sdef) (vals : list Z) : Prop :=
  Forall2 (has_value r) (s_fields sd) vals /\ (forall k, In k (map fst r) -> In k (s_keys sd)).

(** A sequence of field writes into one buffer (the loops archive_builder.py:157-159, 177-179). *)
Definition write_fields (buf : list Z) (fvs : list (fsig * Z)) : res (list Z) :=
  foldM (fun b fv => write_value b (f_off (fst fv)) (f_width (fst fv)) (f_signed (fst fv)) (snd fv)) buf fvs.

(** Bit [i] belongs to no field. *)
Definition in_gap (fs : list fsig) (i : Z) : Prop :=
  forall f, In f fs -> i < f_off f \/ f_off f + f_width f <= i.

(** No unsigned 64-bit field starts off a byte boundary. *)
Definition u64_aligned (fs : list fsig) : Prop :=
  forall f, In f fs -> f_width f = 64 -> f_signed f = false -> f_off f mod 8 = 0.
