(** Vocabulary for C99: tar files of directory trees as the [tar] crate reports them. *)
From Coq Require Import List ZArith Bool String.
From Verif Require Import PyBase Archive TarSpec PyText RustTar.
Import ListNotations.
Local Open Scope string_scope.
Local Open Scope Z_scope.

(** The crate reports this member for the member [n], [k] of the tar: directories may end in a slash and have no data; the data is inside
    the file. *)
Definition reported (tar : list Z) (m : tmember) (nk : string * tkind) : Prop :=
  let (n, k) := nk in
  (tm_path m = n \/ (k = TDir /\ tm_path m = n ++ "/")) /\
  tm_header_size m = tm_size m /\ 0 <= tm_offset m /\ 0 <= tm_size m /\ tm_offset m + tm_size m <= zlen tar /\
  match k with
  | TReg d => firstn (Z.to_nat (tm_size m)) (skipn (Z.to_nat (tm_offset m)) tar) = d
  | TDir => tm_size m = 0
  | _ => True
  end.
(** What a path of a tree reads as: the file's bytes; nothing, for a directory *)
Definition tree_resource (es : list (string * fsnode)) (path : list string) : option (list Z) :=
  match lookup_path es path with Some (NFile d) => Some d | Some (NDir _) => Some [] | None => None end.
Definition as_read (o : option (list Z)) : RustStore.rresult (list Z) := match o with Some d => RustStore.ROk d | None => RustStore.RErr RustStore.EMissing end.
