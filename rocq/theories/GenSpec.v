(** Specification vocabulary for the generator theorems, independent of the code. *)
From Coq Require Import List ZArith Bool String.
Import ListNotations.
Local Open Scope Z_scope.

(** How enumerators are numbered: an explicit value is taken as is, the first one defaults to 0, any
    other one to its predecessor plus one. *)
Definition numbered (explicit : list (option Z)) (values : list Z) : Prop :=
  List.length values = List.length explicit /\
  forall i v, nth_error values i = Some v ->
    match nth_error explicit i with
    | Some (Some x) => v = x
    | _ => match i with
           | O => v = 0
           | S j => exists p, nth_error values j = Some p /\ v = p + 1
           end
    end.

(** A type name's signedness and its storage width, from docs/schema-language.md "Basic types". *)
Definition basic_types : list (string * (bool * Z)) :=
  [("bool", (false, 1)); ("u8", (false, 8)); ("i8", (true, 8)); ("u16", (false, 16)); ("i16", (true, 16));
   ("u32", (false, 32)); ("i32", (true, 32)); ("u64", (false, 64)); ("i64", (true, 64))]%string.
