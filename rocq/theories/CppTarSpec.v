(** The tar format (POSIX ustar and the GNU extensions the library relies on), stated on the bytes of the
    file and independently of the reader. *)
From Coq Require Import List ZArith Bool.
From Verif Require Import PyBase CppTar.
Import ListNotations.
Local Open Scope Z_scope.

(** The bytes [a .. a+n) of [l]. *)
Definition bytes_at (l : list Z) (a n : Z) : list Z := firstn (Z.to_nat n) (skipn (Z.to_nat a) l).

(** Value of digits in base [b], most significant first. *)
Fixpoint value_of (b acc : Z) (ds : list Z) : Z :=
  match ds with [] => acc | d :: t => value_of b (b * acc + d) t end.

(** A numeric header field holds [n]: octal digits up to the field's end or a NUL, or (GNU) a base-256
    number marked by the top bit of its first byte. *)
Definition octal_field (field : list Z) (n : Z) : Prop :=
  exists ds rest, field = map (fun d => d + 48) ds ++ rest /\ Forall (fun d => 0 <= d < 8) ds /\
    (rest = [] \/ exists r, rest = 0 :: r) /\ n = value_of 8 0 ds.
Definition binary_field (field : list Z) (n : Z) : Prop :=
  exists hi t, field = (128 + hi) :: t /\ 0 <= hi < 128 /\ n = value_of 256 0 (hi :: t).
Definition numeric_field (field : list Z) (n : Z) : Prop := octal_field field n \/ binary_field field n.

(** Text up to the first NUL, or the whole field. *)
Definition text_field (field text : list Z) : Prop :=
  ~ In 0 text /\ (field = text \/ exists r, field = text ++ 0 :: r).

(** The sum of the header's bytes, the eight bytes of the checksum field counted as spaces. *)
Definition checksum (h : list Z) : Z :=
  fold_right Z.add 0 (bytes_at h 0 148) + 8 * 32 + fold_right Z.add 0 (bytes_at h 156 356).

Definition checksum_ok (h : list Z) : Prop := numeric_field (bytes_at h 148 8) (checksum h).

(** The block at [off] is the header of a member with this type flag and size field. *)
Definition header_at (data : list Z) (off flag size : Z) : Prop :=
  0 <= off /\ off + 512 <= zlen data /\ (exists b, In b (bytes_at data off 512) /\ b <> 0) /\
  checksum_ok (bytes_at data off 512) /\ bytes_at data (off + 156) 1 = [flag] /\
  numeric_field (bytes_at data (off + 124) 12) size.

(** Name of the member whose header is at [off]: the name field, preceded by the prefix field and a slash
    in POSIX headers that have one. *)
Definition posix (data : list Z) (off : Z) : Prop := bytes_at data (off + 257) 6 = [117; 115; 116; 97; 114; 0].
Definition has_prefix (data : list Z) (off : Z) : Prop :=
  posix data off /\ exists b, bytes_at data (off + 345) 1 = [b] /\ b <> 0.
Definition header_name (data : list Z) (off : Z) (name : list Z) : Prop :=
  (~ has_prefix data off /\ text_field (bytes_at data off 100) name) \/
  (has_prefix data off /\ exists p n, text_field (bytes_at data (off + 345) 155) p /\
     text_field (bytes_at data off 100) n /\ name = p ++ 47 :: n).

(** Blocks taken by [size] bytes of data. *)
Definition blocks (size : Z) : Z := 512 * ((size + 511) / 512).

(** A member found while reading the archive from front to back. *)
Inductive member :=
| File (name : list Z) (offset size : Z)
| Directory (name : list Z).

(** [walk simple data off pending ms off' pending']: from the header at [off] on, with a GNU long name
    [pending] for the member that comes next, the members up to the header position [off'] are [ms].
    With [simple = true] no regular file has a prefix field that matters and no long name belongs to a
    directory. *)
Inductive walk (simple : bool) (data : list Z) :
  Z -> option (list Z) -> list member -> Z -> option (list Z) -> Prop :=
| walk_nil off pending : walk simple data off pending [] off pending
| walk_file off pending flag size own name ms off' pending' :
    (flag = 48 \/ flag = 0) -> header_at data off flag size -> header_name data off own ->
    (simple = true -> pending = None -> ~ has_prefix data off) ->
    name = match pending with Some n => n | None => own end ->
    off + 512 + blocks size <= zlen data ->
    walk simple data (off + 512 + blocks size) None ms off' pending' ->
    walk simple data off pending (File name (off + 512) size :: ms) off' pending'
| walk_dir off pending own name ms off' pending' :
    header_at data off 53 0 -> header_name data off own ->
    (simple = true -> pending = None) ->
    name = match pending with Some n => n | None => own end ->
    walk simple data (off + 512) None ms off' pending' ->
    walk simple data off pending (Directory name :: ms) off' pending'
| walk_long off pending size name ms off' pending' :
    header_at data off 76 size -> text_field (bytes_at data (off + 512) size) name -> name <> [] ->
    off + 512 + blocks size <= zlen data ->
    walk simple data (off + 512 + blocks size) (Some name) ms off' pending' ->
    walk simple data off pending ms off' pending'.

(** The archive ends where the file ends or with a block of zeros. *)
Definition ends_at (data : list Z) (off : Z) : Prop :=
  off = zlen data \/ (off + 512 <= zlen data /\ bytes_at data off 512 = repeat 0 512).

(** A well-formed tar file (of less than 8 EiB) and its members. *)
Definition tar_members (simple : bool) (data : list Z) (ms : list member) : Prop :=
  is_bytes data /\ zlen data mod 512 = 0 /\ zlen data < 2 ^ 63 /\
  exists off, walk simple data 0 None ms off None /\ ends_at data off.

(** The regular files among the members. *)
Definition files (ms : list member) : list entry :=
  flat_map (fun m => match m with File n o s => [Entry n o s] | Directory _ => [] end) ms.

(** POSIX also lets a space end the digits of a numeric field. *)
Definition octal_field_posix (field : list Z) (n : Z) : Prop :=
  exists ds c rest, field = map (fun d => d + 48) ds ++ c :: rest /\ Forall (fun d => 0 <= d < 8) ds /\
    (c = 0 \/ c = 32) /\ n = value_of 8 0 ds.

(** The path a member's name stands for: "./" in front is dropped. *)
Definition path_of (name path : list Z) : Prop :=
  name = 46 :: 47 :: path \/ (name = path /\ forall p, name <> 46 :: 47 :: p).

(** Components joined with slashes. *)
Fixpoint slashes (cs : list (list Z)) : list Z :=
  match cs with
  | [] => []
  | [c] => c
  | c :: t => c ++ 47 :: slashes t
  end.

(** The file of this path in the archive: position and size. *)
Definition file_at (ms : list member) (path : list Z) (offset size : Z) : Prop :=
  exists name, In (File name offset size) ms /\ path_of name path.
(** No path twice. *)
Definition distinct_paths (ms : list member) : Prop :=
  forall p a b n1 o1 s1 n2 o2 s2, nth_error ms a = Some (File n1 o1 s1) -> nth_error ms b = Some (File n2 o2 s2) ->
    path_of n1 p -> path_of n2 p -> a = b.
