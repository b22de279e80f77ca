(** What a difference of two texts is. *)
From Coq Require Import List ZArith Bool Lia.
From Verif Require Import PyBase CppDiff.
Import ListNotations.
Local Open Scope nat_scope.

(** The text with these lines: each line ends with a newline, the last one perhaps without (then it is not empty). *)
Definition is_line (l : cline) : Prop := Forall (fun c => c <> 0%Z /\ c <> 10%Z) l.
Inductive text_of : list cline -> list Z -> Prop :=
| TextNil : text_of [] []
| TextLast l : is_line l -> l <> [] -> text_of [l] l
| TextCons l ls text : is_line l -> text_of ls text -> text_of (l :: ls) (l ++ 10%Z :: text).

(** The lines before and after a change, and how many lines are changed *)
Definition before (s : script) : list cline := flat_map (fun d => match fst d with Add => [] | _ => [snd d] end) s.
Definition after (s : script) : list cline := flat_map (fun d => match fst d with Drop => [] | _ => [snd d] end) s.
Definition cost (s : script) : nat := List.length (filter changed s).

(** Line [p] of the script is changed, or at most three lines before or two lines after a changed line; the last line is never shown as context. *)
Definition near (s : script) (p : nat) : Prop :=
  exists c d, nth_error s c = Some d /\ changed d = true /\ (p = c \/ (S p < List.length s /\ p <= c + 2 /\ c <= p + 3)).
(** A line of the output: the sign (" ", "-" for lines of the first text only, "+" for lines of the second), and the line in quotes *)
Definition sign (m : mark) : Z := match m with Keep => 32%Z | Drop => 45%Z | Add => 43%Z end.
Definition shown (d : mark * cline) : list Z := ([sign (fst d)] ++ [34%Z] ++ snd d ++ [34%Z] ++ [10%Z])%list.
(** The script with the lines marked [true] shown, and "..." where lines are left out after a line that is shown *)
Inductive excerpt : bool -> list ((mark * cline) * bool) -> list Z -> Prop :=
| ExcerptNil b : excerpt b [] []
| ExcerptShown b d rest out : excerpt true rest out -> excerpt b ((d, true) :: rest) (shown d ++ out)
| ExcerptDots d rest out : excerpt false rest out -> excerpt true ((d, false) :: rest) ([46%Z; 46%Z; 46%Z; 10%Z] ++ out)
| ExcerptSkip d rest out : excerpt false rest out -> excerpt false ((d, false) :: rest) out.
