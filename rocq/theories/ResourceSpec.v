(** Specification vocabulary for multivectors and raw data. *)
From Coq Require Import List ZArith Bool String.
From Verif Require Import PyBase Spec DataAccess Structure StructSpec Resources Builder Archive.
Import ListNotations.
Local Open Scope string_scope.
Local Open Scope Z_scope.

(** The index structure of [multivector<w, ...>] as the generator emits it: one unsigned field
    [value] of [w] bits in as many bytes as needed. *)
Definition index_def_ok (it : sdef) (w : Z) : Prop :=
  s_fields it = [FSig "value" 0 w false] /\ 1 <= w <= 64 /\ s_size it = (w + 7) / 8.

(** The types of a multivector: distinct names, at most 256 of them, usable layouts. *)
Definition types_ok (ts : list sdef) : Prop :=
  NoDup (map s_name ts) /\ zlen ts <= 256 /\ Forall sdef_ok ts.

(** A user-supplied element (structure name, dict) means: type number [fst out] with values [snd out]. *)
Definition element_is (ts : list sdef) (e : string * record) (out : Z * list Z) : Prop :=
  exists sd, 0 <= fst out /\ nth_error ts (Z.to_nat (fst out)) = Some sd /\ s_name sd = fst e /\
             record_values (snd e) sd (snd out).

(** An element read back: its type and its field values. *)
Definition reads_as (ts : list sdef) (out : Z * list Z) (el : Z * sview) : Prop :=
  fst el = fst out /\ nth_error ts (Z.to_nat (fst out)) = Some (v_def (snd el)) /\
  as_list (snd el) = Ok (snd out).

(** Bytes an element / all elements of all buckets take. *)
Definition element_size (ts : list sdef) (out : Z * list Z) : Z :=
  match nth_error ts (Z.to_nat (fst out)) with Some sd => 1 + s_size sd | None => 0 end.
Fixpoint zsum (l : list Z) : Z := match l with [] => 0 | x :: t => x + zsum t end.
Definition buckets_size (ts : list sdef) (outss : list (list (Z * list Z))) : Z :=
  zsum (map (fun os => zsum (map (element_size ts) os)) outss).

(** The complete strings of a byte sequence: the maximal pieces ended by the separator byte [c]
    (what follows the last separator is not a complete string). *)
Fixpoint pieces (c : Z) (cur data : list Z) : list (list Z) :=
  match data with
  | [] => []
  | x :: t => if x =? c then cur :: pieces c [] t else pieces c (cur ++ [x])%list t
  end.

(** Strings written one after the other, each followed by [c]. *)
Definition joined (c : Z) (strs : list (list Z)) : list Z := List.concat (map (fun s => s ++ [c])%list strs).

(** Every empty string is followed by a non-empty one: the list contains no accidental terminator. *)
Fixpoint separated (strs : list (list Z)) : Prop :=
  match strs with
  | [] => True
  | s :: t => (s = [] -> match t with u :: _ => u <> [] | [] => False end) /\ separated t
  end.
