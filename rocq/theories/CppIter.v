(** Model of the C++ iterators over arrays of structures (flatdata-cpp/include/flatdata/internal/ArrayViewIterator.h, .inl) and of the
    helpers for single structures (Copy.h, Hash.h, Struct.h).

    An iterator is the address it holds, an integer in [0, 2^64).  [T::size_in_bytes()] is a [size_t] (templates/cpp/structure.jinja2:45),
    offsets and differences are [ptrdiff_t]; arithmetic that mixes the two is done in [size_t], that is modulo 2^64.
    Simplification: moving a pointer out of its array, undefined in C++, is arithmetic modulo 2^64 as the compilers do it. *)
From Coq Require Import List ZArith Bool.
From Verif Require Import PyBase DataAccess Codecs CppStore.
Import ListNotations.
Local Open Scope Z_scope.

Notation address := Z (only parsing).
Definition to_size_t (x : Z) : Z := x mod 2 ^ 64.

(** ArrayViewIterator.inl:31-36, 49-54 [operator++], [operator--] *)
Definition it_next (size : Z) (p : address) : address := to_size_t (p + size).
Definition it_prev (size : Z) (p : address) : address := to_size_t (p - size).
(** :40-45, 58-63: the postfix operators, with the value they return *)
Definition it_next_post (size : Z) (p : address) : address * address := (it_next size p, p).
Definition it_prev_post (size : Z) (p : address) : address * address := (it_prev size p, p).
(** :65-79 [operator+=], [operator-=], and :81-97 [operator+], [operator-] with a number *)
Definition it_plus (size : Z) (p : address) (offset : Z) : address := to_size_t (p + to_size_t (size * to_size_t offset)).
Definition it_minus (size : Z) (p : address) (offset : Z) : address := to_size_t (p - to_size_t (size * to_size_t offset)).
(** :99-104 [operator-] of two iterators: [ptrdiff_t / size_t] is a division of [size_t]s, converted to [ptrdiff_t] *)
Definition it_distance (size : Z) (p q : address) : Z := cast 64 true (to_size_t (p - q) / size).
(** :106-146 *)
Definition it_eq (p q : address) : bool := p =? q.
Definition it_ne (p q : address) : bool := negb (p =? q).
Definition it_lt (p q : address) : bool := p <? q.
Definition it_le (p q : address) : bool := p <=? q.
Definition it_gt (p q : address) : bool := q <? p.
Definition it_ge (p q : address) : bool := q <=? p.
(** :148-167 [operator*], [operator->]: the structure at the address; [operator[]]: at another one *)
Definition it_deref (p : address) : address := p.
Definition it_index (size : Z) (p : address) (index : Z) : address := to_size_t (p + to_size_t (size * to_size_t index)).

(** ArrayView.inl:125-137 [begin], [end] of [n] elements at [base] *)
Definition it_begin (base : Z) : address := base.
Definition it_end (size base n : Z) : address := to_size_t (base + to_size_t (n * size)).

(** [for (it = first; it != last; ++it)]: the structures visited; [None]: not done after [fuel] rounds *)
Fixpoint it_visits (size : Z) (fuel : nat) (first last : address) : option (list address) :=
  match fuel with
  | O => None
  | S fuel => if it_ne first last then option_map (cons (it_deref first)) (it_visits size fuel (it_next size first) last) else Some []
  end.
(** [for (it = last; it != first;) *--it] *)
Fixpoint it_visits_back (size : Z) (fuel : nat) (first last : address) : option (list address) :=
  match fuel with
  | O => None
  | S fuel => if it_ne last first then let p := it_prev size last in option_map (cons (it_deref p)) (it_visits_back size fuel first p) else Some []
  end.
(** [std::lower_bound] / [std::partition_point] on these iterators: the first structure [before] does not hold for.  (The library's
    algorithm: halve the number of remaining elements, [std::distance] is [last - first], [std::advance] is [+=].) *)
Fixpoint it_bound (size : Z) (fuel : nat) (before : address -> bool) (first : address) (count : Z) : option address :=
  match fuel with
  | O => None
  | S fuel =>
      if 0 <? count then
        let step := count / 2 in
        let it := it_plus size first step in
        if before (it_deref it) then it_bound size fuel before (it_next size it) (count - (step + 1))
        else it_bound size fuel before first step
      else Some first
  end.
Definition it_lower_bound (size : Z) (fuel : nat) (before : address -> bool) (first last : address) : option address :=
  it_bound size fuel before first (it_distance size last first).

(** Copy.h:20-25 [copy_struct]: [memcpy] of the structure's bytes; [None]: outside the memory *)
Definition copy_struct (size : nat) (destination source : list Z) : option (list Z) :=
  if (Nat.leb size (List.length destination) && Nat.leb size (List.length source))%bool
  then Some (firstn size source ++ skipn size destination) else None.
(** Hash.h:25-38: [combine] is [boost::hash_combine], which depends on the version of boost *)
Fixpoint hash_from (combine : Z -> Z -> Z) (hash : Z) (n i : nat) (data : list Z) : option Z :=
  match n with
  | O => Some hash
  | S n => match nth_error data i with Some b => hash_from combine (combine hash b) n (S i) data | None => None end
  end.
Definition hash_struct (combine : Z -> Z -> Z) (size : nat) (data : list Z) : option Z := hash_from combine 0 size 0 data.
(** Struct.h:32-45: a structure with its own memory *)
Definition struct_new (size : nat) : list Z := zeros (size + PADDING_SIZE).
