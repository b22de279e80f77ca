(** What the members and operators of a generated structure are meant to be. *)
From Coq Require Import List ZArith Bool.
From Verif Require Import PyBase Spec Structure StructSpec CodecSpec GenStructs.
Import ListNotations.
Local Open Scope Z_scope.

(** The integer stored in a field. *)
Definition stored (g : gfield) (data : list Z) : Z :=
  schema_value data (f_off (gf_sig g)) (f_width (gf_sig g)) (f_signed (gf_sig g)).

(** What the user sees of it: nothing if it is the invalid value of an optional field. *)
Definition member (g : gfield) (data : list Z) : option Z :=
  match gf_invalid g with
  | Some i => if stored g data =? i then None else Some (stored g data)
  | None => Some (stored g data)
  end.

(** A structure as the generator lays it out: fields in order without overlap inside [size] bytes, types wide
    enough, enumerations with a variant for every storable value, invalid values that can be stored. *)
Definition layout (size : Z) (gs : list gfield) : Prop :=
  0 <= size /\ ascending 0 (map gf_sig gs) (8 * size) /\
  Forall (fun g =>
    field_ok (gf_sig g) /\ type_holds (gf_bits g) (f_signed (gf_sig g)) (f_width (gf_sig g)) /\
    (forall vs, gf_variants g = Some vs ->
       forall v, representable (f_width (gf_sig g)) (f_signed (gf_sig g)) v -> In v vs) /\
    (forall i, gf_invalid g = Some i -> representable (f_width (gf_sig g)) (f_signed (gf_sig g)) i)) gs.

(** The fields the Rust accessors handle (see C52): within 64 bits of the byte they start in, or starting in
    the first byte. *)
Definition rust_fields (gs : list gfield) : Prop :=
  Forall (fun g => f_off (gf_sig g) mod 8 + f_width (gf_sig g) <= 64 \/ f_off (gf_sig g) < 8) gs.

(** A value a member can be given. *)
Definition assignable (g : gfield) (v : option Z) : Prop :=
  match v with
  | Some x => representable (f_width (gf_sig g)) (f_signed (gf_sig g)) x
  | None => gf_invalid g <> None
  end.

(** Bit [i] belongs to no field. *)
Definition unused (gs : list gfield) (i : Z) : Prop :=
  forall g, In g gs -> i < f_off (gf_sig g) \/ f_off (gf_sig g) + f_width (gf_sig g) <= i.

(** The bytes of a structure of [size] bytes. *)
Definition struct_bytes (size : Z) (data : list Z) : Prop := is_bytes data /\ zlen data = size.

(** What a user of the Rust interface can make: a new structure, then setters in any order. *)
Inductive built (size : Z) (gs : list gfield) : list Z -> Prop :=
| built_new : built size gs (rs_new size)
| built_set g v d d' : built size gs d -> In g gs -> assignable g v -> rs_set g d v = CppStore.Value d' -> built size gs d'.
