(** Python primitives used by the modelled code.  Nothing here is specific to flatdata.

    Python ints are [Z]; Python's [<<], [>>], [&], [|], [~] on (unbounded, two's complement) ints are
    [Z.shiftl], [Z.shiftr], [Z.land], [Z.lor], [Z.lnot]; [//] and [%] by a positive divisor are
    [Z.div] and [Z.modulo].  bytes / bytearray / memoryview / mmap contents are [list Z].
    Exceptions are values of type [exn] carried by [Err]. *)
From Coq Require Import List ZArith Bool String.
Import ListNotations.
Local Open Scope Z_scope.

(** The exceptions the modelled code can raise: Python built-ins first, then
    flatdata-py/flatdata/lib/errors.py:9-126. *)
Inductive exn : Type :=
| IndexError | ValueError | TypeError | OverflowError | KeyError | AssertionError
| AttributeError | UnicodeDecodeError | ZeroDivisionError | RuntimeError
| SchemaMismatchError (name : string)
| CorruptResourceError
| MissingResourceError (name : string)
| MissingFieldError (key name : string)
| UnknownFieldError (key name : string)
| UnknownStructureError (name : string)
| IndexWriterError
| ArchivePathNotProvidedError
| MissingResourceName
| FileNameNotProvided
| ResourceAlreadySetError
| UnknownResourceError (name : string)
(* flatdata-generator: Python's UnboundLocalError, then tree/errors.py:7-186 *)
| UnboundLocalError | NameError | CircularReferencing | ParsingError
| SymbolRedefinition (name : string)
| MissingSymbol (name : string)
| IncorrectReferenceType (name : string)
| InvalidWidthError (width : Z) (type_name : string)
| InvalidSignError (value : Z)
| InvalidEnumWidthError (name : string)
| DuplicateEnumValueError (name : string) (value : Z)
| InvalidEnumValueError (name : string) (value : Z)
| SparseEnumError (name : string) (width : Z)
| InvalidConstantValueError (name : string) (value : Z)
| InvalidRangeName (name : string)
| InvalidRangeReference (name : string)
| OptionalRange (name : string)
| InvalidConstReference (name : string)
| InvalidConstValueReference (name : string)
| DuplicateInvalidValueReference (name : string)
| InvalidStructInExplicitReference (name : string).

Inductive res (A : Type) : Type := Ok (a : A) | Err (e : exn).
Arguments Ok {A} a.
Arguments Err {A} e.

Definition bind {A B} (r : res A) (f : A -> res B) : res B :=
  match r with Ok a => f a | Err e => Err e end.
Notation "x <- r ;; k" := (bind r (fun x => k)) (at level 61, r at next level, right associativity).
Notation "' p <- r ;; k" := (bind r (fun p => k))
  (at level 61, p pattern, r at next level, right associativity).

Definition is_ok {A} (r : res A) : bool := match r with Ok _ => true | Err _ => false end.

(** A Python loop that evaluates [f] on each element in order and collects the results; the first
    exception propagates. *)
Fixpoint mapM {A B} (f : A -> res B) (l : list A) : res (list B) :=
  match l with
  | [] => Ok []
  | x :: t => y <- f x ;; ys <- mapM f t ;; Ok (y :: ys)
  end.

(** A Python loop threading a state. *)
Fixpoint foldM {A S} (f : S -> A -> res S) (s : S) (l : list A) : res S :=
  match l with
  | [] => Ok s
  | x :: t => s' <- f s x ;; foldM f s' t
  end.

Definition zlen {A} (l : list A) : Z := Z.of_nat (List.length l).

(** Python sequence subscription [l[i]]: negative indices count from the end. *)
Definition py_get {A} (l : list A) (i : Z) : res A :=
  let j := if i <? 0 then i + zlen l else i in
  if j <? 0 then Err IndexError
  else match nth_error l (Z.to_nat j) with Some x => Ok x | None => Err IndexError end.

Fixpoint list_set {A} (l : list A) (n : nat) (x : A) : list A :=
  match l, n with
  | [], _ => []
  | _ :: t, O => x :: t
  | h :: t, S n' => h :: list_set t n' x
  end.

(** bytearray item assignment [l[i] = x]: IndexError out of range, ValueError if not a byte. *)
Definition py_set (l : list Z) (i x : Z) : res (list Z) :=
  let j := if i <? 0 then i + zlen l else i in
  if (j <? 0) || (zlen l <=? j) then Err IndexError
  else if (x <? 0) || (255 <? x) then Err ValueError
  else Ok (list_set l (Z.to_nat j) x).

(** Clipping of a slice bound to [0..n] (positive step). *)
Definition py_clip (n i : Z) : Z := Z.max 0 (Z.min n (if i <? 0 then i + n else i)).

(** [l[a:b]] *)
Definition py_slice {A} (l : list A) (a b : Z) : list A :=
  let s := py_clip (zlen l) a in
  let e := py_clip (zlen l) b in
  firstn (Z.to_nat (e - s)) (skipn (Z.to_nat s) l).

(** [x << k]: ValueError for a negative shift count. *)
Definition py_shl (x k : Z) : res Z := if k <? 0 then Err ValueError else Ok (Z.shiftl x k).

(** [int.from_bytes(l, "little")] for unsigned. *)
Fixpoint le (l : list Z) : Z :=
  match l with [] => 0 | b :: t => b + 256 * le t end.

(** The [n] low bytes of [v], little endian. *)
Fixpoint to_le (n : nat) (v : Z) : list Z :=
  match n with O => [] | S n' => v mod 256 :: to_le n' (v / 256) end.

(** [v.to_bytes(n, byteorder="little", signed=signed)] for [n >= 0]. *)
Definition py_to_bytes (v n : Z) (signed : bool) : res (list Z) :=
  if n <? 0 then Err ValueError
  else if (if signed
           then (if n =? 0 then v =? 0 else (- 2 ^ (8 * n - 1) <=? v) && (v <? 2 ^ (8 * n - 1)))
           else (0 <=? v) && (v <? 2 ^ (8 * n)))
  then Ok (to_le (Z.to_nat n) v)
  else Err OverflowError.

Definition is_byte (b : Z) : Prop := 0 <= b < 256.
Definition is_bytes (l : list Z) : Prop := Forall is_byte l.
Definition is_byteb (b : Z) : bool := (0 <=? b) && (b <? 256).

(** [bytearray(n)] / [b'\x00' * n] *)
Definition zeros (n : nat) : list Z := repeat 0 n.

(** [divmod(a, b)]: ZeroDivisionError for b = 0. *)
Definition py_divmod (a b : Z) : res (Z * Z) :=
  if b =? 0 then Err ZeroDivisionError else Ok (a / b, a mod b).
