(** Model of the description of a mismatching archive in C++: flatdata-cpp/src/Archive.cpp:63-228 (the difference of two schemas).

    Characters are bytes.  [size_t] counters are natural numbers (they are bounded by numbers of lines). *)
From Coq Require Import List ZArith Bool Lia.
From Verif Require Import PyBase Codecs CppStore.
Import ListNotations.
Local Open Scope nat_scope.

Definition cline := list Z.
Definition eq_line (a b : cline) : bool := if list_eq_dec Z.eq_dec a b then true else false.

(** :63-85 [to_lines] on a pointer to these bytes; [None]: it reads past them (no zero byte) *)
Fixpoint lines_from (mem : list Z) (line : cline) (inside : bool) : option (list cline) :=
  match mem with
  | [] => None
  | c :: mem =>
      if (c =? 0)%Z then Some (if inside then [line] else [])
      else if (c =? 10)%Z then l <== lines_from mem [] false ;; Some (line :: l)
      else lines_from mem (line ++ [c]) true
  end.
Definition to_lines (mem : list Z) : option (list cline) := lines_from mem [] false.

(** :163-177: a row of the table of distances (the entries for one position in [found]) from the row before; [left] is the entry just written *)
Fixpoint fill_row (left : nat) (prev : list nat) (line : cline) (expected : list cline) : list nat :=
  match expected, prev with
  | x :: expected, diag :: ((up :: _) as prev) =>
      let min_cost := Nat.min (left + 1) (up + 1) in
      let min_cost := if eq_line x line then Nat.min min_cost diag else min_cost in
      min_cost :: fill_row min_cost prev line expected
  | _, _ => []
  end.
(** :142-177: the table; rows instead of one array *)
Fixpoint fill_rows (found_pos : nat) (prev : list nat) (expected found : list cline) : list (list nat) :=
  match found with
  | [] => []
  | line :: found => let row := S found_pos :: fill_row (S found_pos) prev line expected in row :: fill_rows (S found_pos) row expected found
  end.
Definition distances (expected found : list cline) : list (list nat) :=
  let first := seq 0 (S (List.length expected)) in first :: fill_rows 0 first expected found.
Definition entry (table : list (list nat)) (expected_pos found_pos : nat) : nat := nth expected_pos (nth found_pos table []) 0.

(** :209-222: marks of the lines of the difference: ' ', '-', '+' *)
Inductive mark : Type := Keep | Drop | Add.
Definition script := list (mark * cline).

(** :186-193 [check] *)
Definition check (table : list (list nat)) (e f : nat) (next : nat * nat) (ne nf cost : nat) : nat * nat :=
  if entry table ne nf + cost =? entry table e f then (ne, nf) else next.
(** :179-225: from the end to the beginning; [None]: the assertion at :208 fails, or a position is out of range *)
Fixpoint backtrack (fuel : nat) (table : list (list nat)) (expected found : list cline) (e f : nat) : option script :=
  match fuel with
  | O => None
  | S fuel =>
      if (f =? 0) && (e =? 0) then Some []
      else
        let next := (e, f) in
        let next := if negb (f =? 0) then check table e f next e (f - 1) 1 else next in
        let next := if negb (e =? 0) then check table e f next (e - 1) f 1 else next in
        let next := if negb (e =? 0) && negb (f =? 0) && eq_line (nth (e - 1) expected []) (nth (f - 1) found [])
                    then check table e f next (e - 1) (f - 1) 0 else next in
        let (ne, nf) := next in
        if (ne =? e) && (nf =? f) then None
        else
          d <== (if nf =? f then l <== nth_error expected ne ;; Some (Drop, l)
                 else if ne =? e then l <== nth_error found nf ;; Some (Add, l)
                 else l <== nth_error expected ne ;; Some (Keep, l)) ;;
          rest <== backtrack fuel table expected found ne nf ;; Some (d :: rest)
  end.
(** [diff], from the last line to the first *)
Definition line_diff (expected found : list cline) : option script :=
  let e := List.length expected in let f := List.length found in
  backtrack (S (e + f)) (distances expected found) expected found e f.

(** :87-128 [create_context].  A [std::vector<bool>] is kept in words of 64 bits; the first loop writes one bit behind the last. *)
Definition changed (d : mark * cline) : bool := match fst d with Keep => false | _ => true end.
Definition context_lines : Z := 3.
(** :94-103: from the last line of [diff] on; the results for [result_mask\[size\]], ..., [result_mask\[1\]] *)
Fixpoint mask_back (lines_to_go : Z) (rev_diff : script) : list bool :=
  match rev_diff with
  | [] => []
  | d :: rest => let n := if changed d then context_lines else lines_to_go in (0 <=? n)%Z :: mask_back (n - 1) rest
  end.
(** :104-113 *)
Fixpoint mask_forward (lines_to_go : Z) (diff : script) (mask : list bool) : list bool :=
  match diff, mask with
  | d :: rest, m :: mask => let n := if changed d then context_lines else lines_to_go in (m || (0 <=? n)%Z) :: mask_forward (n - 1) rest mask
  | _, _ => []
  end.
(** :211-221 [std::string("-") + "\"" + line + "\""], :117-121 *)
Definition show_line (d : mark * cline) : list Z :=
  (match fst d with Keep => 32%Z | Drop => 45%Z | Add => 43%Z end :: 34%Z :: snd d ++ [34%Z; 10%Z])%list.
(** :114-127, from the end *)
Fixpoint print_from (printed_last : bool) (rev_lines : list ((mark * cline) * bool)) : list Z :=
  match rev_lines with
  | [] => []
  | (d, true) :: rest => show_line d ++ print_from true rest
  | (_, false) :: rest => if printed_last then [46%Z; 46%Z; 46%Z; 10%Z] ++ print_from false rest else print_from false rest
  end.
Definition create_context (diff : script) : outcome (list Z) :=
  let n := List.length diff in
  if (0 <? n) && (n mod 64 =? 0) then Undefined
  else
    let back := rev (mask_back (-1) (rev diff)) in   (* result_mask[1], ..., result_mask[n] *)
    let mask := mask_forward (-1) diff (false :: removelast back) in
    Value (print_from false (rev (combine diff mask))).

(** :131-228 [compute_diff]; [found] may be a null pointer *)
Definition compute_diff (expected : list Z) (found : option (list Z)) : outcome (list Z) :=
  match found with
  | None => Value []
  | Some found =>
      match to_lines expected, to_lines found with
      | Some e, Some f => match line_diff e f with Some d => create_context d | None => Undefined end
      | _, _ => Undefined
      end
  end.
