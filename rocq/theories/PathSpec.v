(** How Rust and C++ find what a path names. *)
From Coq Require Import List Bool String Ascii.
Import ListNotations.
Local Open Scope string_scope.

(** A segment of a path: a name, not the separator *)
Fixpoint no_colon (s : string) : Prop := match s with "" => True | String c t => c <> ":"%char /\ no_colon t end.
Fixpoint separated_by (sep : string) (l : list string) : string :=
  match l with [] => "" | [x] => x | x :: t => x ++ sep ++ separated_by sep t end.
(** Rust: a path of [super]s, at least one, and then names, read in the module [here], names the item [n] of module [m]: each [super] leaves
    one module, each name enters one. *)
Definition rust_names (here : list string) (text : string) (m : list string) (n : string) : Prop :=
  exists up down names, down <> [] /\ here = (up ++ down)%list /\ m = (up ++ names)%list
    /\ text = separated_by "::" (repeat "super" (List.length down) ++ names ++ [n])%list
    /\ Forall (fun s => s <> "" /\ s <> "super" /\ no_colon s) (names ++ [n])%list.
(** C++: a path that starts with two colons is read from the outermost namespace. *)
Definition cpp_names (text : string) (m : list string) (n : string) : Prop :=
  text = "::" ++ separated_by "::" (m ++ [n])%list /\ Forall (fun s => s <> "" /\ no_colon s) (m ++ [n])%list.
