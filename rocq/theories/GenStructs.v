(** The structures of generated Rust and C++ code: members, comparison, copying.
    The templates are flatdata-generator/flatdata/generator/templates/rust/structure.jinja2 and
    templates/cpp/structure.jinja2; line numbers refer to them. *)
From Coq Require Import List ZArith Bool String.
From Verif Require Import PyBase Structure Codecs CppStore.
Import ListNotations.
Local Open Scope Z_scope.

(** What the templates know about a field (rust/structure.jinja2:86-125): its place and width
    ([gf_sig]), the size in bits of the integer type it is read as ([primitive_type], rust.py:80-83; 8 for
    [bool]), the values of its enumeration if it has one ([field_type], rust.py:74-78) and the constant
    of an [@optional] ([field.invalid_value]). *)
Record gfield := GF { gf_sig : fsig; gf_bits : Z; gf_variants : option (list Z); gf_invalid : option Z }.

(** rust/structure.jinja2:100, :103 [std::mem::transmute::<primitive, field type>(value)]: a value of an
    enumeration that is none of its variants is undefined behaviour.  [enumeration.jinja2:1-18] declares one
    variant per value of the enumeration. *)
Definition rs_transmute (variants : option (list Z)) (v : Z) : outcome Z :=
  match variants with
  | None => Value v
  | Some vs => if existsb (Z.eqb v) vs then Value v else Undefined
  end.

(** rust/structure.jinja2:97-105, the getter of a field of the structure at the start of [data].  Without
    [@optional] the result is always [Some]. *)
Definition rs_get (g : gfield) (data : list Z) : outcome (option Z) :=
  match rust_read (gf_bits g) (f_signed (gf_sig g)) data (f_off (gf_sig g)) (f_width (gf_sig g)) with
  | None => Undefined
  | Some v =>
      match rs_transmute (gf_variants g) v with
      | Value x => Value (match gf_invalid g with
                          | Some i => if x =? i then None else Some x                  (* :101 *)
                          | None => Some x
                          end)
      | Throws => Throws
      | Undefined => Undefined
      end
  end.

(** rust/structure.jinja2:160-163, the setter.  [None] without [@optional] does not type check: [Throws]. *)
Definition rs_set (g : gfield) (data : list Z) (v : option Z) : outcome (list Z) :=
  match (match v with Some x => Some x | None => gf_invalid g end) with                (* :161 *)
  | None => Throws
  | Some x =>
      match rust_write (f_signed (gf_sig g)) data (f_off (gf_sig g)) (f_width (gf_sig g)) x with
      | Some d => Value d
      | None => Undefined
      end
  end.

(** [==] on the values of two getters. *)
Definition opt_eqb (a b : option Z) : bool :=
  match a, b with Some x, Some y => x =? y | None, None => true | _, _ => false end.

(** rust/structure.jinja2:138-146 [PartialEq::eq]: a chain of [&&].  (A structure without fields would give
    a function without a body; the model says [true].) *)
Fixpoint rs_eq (gs : list gfield) (a b : list Z) : outcome bool :=
  match gs with
  | [] => Value true
  | g :: t =>
      match rs_get g a, rs_get g b with
      | Value x, Value y => if opt_eqb x y then rs_eq t a b else Value false
      | _, _ => Undefined
      end
  end.

(** rust/structure.jinja2:169-174 [fill_from]. *)
Fixpoint rs_fill (gs : list gfield) (self other : list Z) : outcome (list Z) :=
  match gs with
  | [] => Value self
  | g :: t =>
      match rs_get g other with
      | Value x => match rs_set g self x with Value d => rs_fill t d other | _ => Undefined end
      | _ => Undefined
      end
  end.

(** rust/structure.jinja2:48-57, :60-69 [from_bytes_slice(_mut)]: the assertion fails for a short slice,
    so that the error after it is never returned; [inr] would be that error. *)
Definition rs_from_slice (size : Z) (data : list Z) : outcome (list Z + unit) :=
  if zlen data <? size
  then (if zlen data =? size then Value (inr tt) else Throws)
  else Value (inl (firstn (Z.to_nat size) data)).

(** rust/structure.jinja2:31-33, :21-23 [new], [create_unchecked]: all bytes zero. *)
Definition rs_new (size : Z) : list Z := zeros (Z.to_nat size).

(** rust/structure.jinja2:107-122, the getter of a [@range] (without [@optional]): the field here and in the
    next structure, [size] bytes further. *)
Definition rs_range (g : gfield) (size : Z) (data : list Z) : outcome (Z * Z) :=
  let rd off := rust_read (gf_bits g) (f_signed (gf_sig g)) data off (f_width (gf_sig g)) in
  match rd (f_off (gf_sig g)), rd (f_off (gf_sig g) + size * 8) with
  | Some s, Some e => Value (s, e)
  | _, _ => Undefined
  end.

(** cpp/structure.jinja2:117-129 [operator==]: bytes [i], [i + 1], ..., [n] of them. *)
Fixpoint cpp_eq_from (n i : nat) (a b : list Z) : outcome bool :=
  match n with
  | O => Value true
  | S n' =>
      match nth_error a i, nth_error b i with
      | Some x, Some y => if negb (x =? y) then Value false else cpp_eq_from n' (S i) a b
      | _, _ => Undefined
      end
  end.
Definition cpp_eq (size : Z) (a b : list Z) : outcome bool := cpp_eq_from (Z.to_nat size) 0 a b.

(** cpp/structure.jinja2:138-147 [operator<]: a chain of [&&].  Simplification: members of [Tagged] types
    ([@optional]), for which the instantiation does not compile, are compared as plain ones. *)
Fixpoint cpp_less (gs : list gfield) (a b : list Z) : outcome bool :=
  match gs with
  | [] => Value true
  | g :: t =>
      match cpp_read (gf_bits g) (f_signed (gf_sig g)) a (f_off (gf_sig g)) (f_width (gf_sig g)),
            cpp_read (gf_bits g) (f_signed (gf_sig g)) b (f_off (gf_sig g)) (f_width (gf_sig g)) with
      | Some x, Some y => if x <? y then cpp_less t a b else Value false
      | _, _ => Undefined
      end
  end.
