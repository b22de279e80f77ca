(** Property C103: the order in which Python iterates its sets makes no difference to what a schema is taken for. *)
From Coq Require Import List ZArith Bool String.
From Verif Require Import PyBase PyText Spec GenSpec GenTypes GenTypesFacts GenBuild GenAstSpec.
Import ListNotations.
Local Open Scope Z_scope.

(** [v] is the number of one of the values of the enumeration [e], and too large or too small for it *)
Definition misfit (e : penum) (v : Z) : Prop :=
  exists signed storage explicit values,
    In (pe_type e, (signed, storage)) basic_types
    /\ Forall2 parsed (map snd (pe_values e)) explicit /\ numbered explicit values
    /\ In v values /\ ~ representable (match pe_width e with Some w => Z.of_N w | None => storage end) signed v.

(** [x] is an error message about such a value *)
Definition about (e : penum) (x : exn) : Prop :=
  exists v, misfit e v /\ (x = InvalidEnumValueError (pe_name e) v \/ x = InvalidSignError v).

(** The same schema with the same outcome: accepted as the same thing, or refused for the same reason. If several values of an
    enumeration do not fit, different ones may be reported. *)
Definition same_outcome {A} (s : pschema) (a b : res A) : Prop :=
  match a, b with
  | Ok x, Ok y => x = y
  | Err x, Err y => x = y \/ exists p e, In p s /\ In e (pn_enumerations p) /\ about e x /\ about e y
  | _, _ => False
  end.
