(** Model of flatdata-py/flatdata/lib/file_resource_storage.py, tar_archive_resource_storage.py and archive.py *)
From Coq Require Import List ZArith Bool String Ascii.
From Verif Require Import PyBase DataAccess Structure Resources Builder.
Import ListNotations.

Local Open Scope string_scope.
Local Open Scope Z_scope.

(** ** Storages *)

(** A file system subtree. *)
Inductive fsnode : Type := NFile (data : list Z) | NDir (entries : list (string * fsnode)).

(** Tar members in archive order, as iterated by Python's tarfile (whose header parsing is trusted):
    name and kind.  Data is the member's bytes ([tar_map[offset:offset+length]]). *)
Inductive tkind : Type := TReg (data : list Z) | TDir | TSparse | TOtherKind.
Definition tarfile := list (string * tkind).

Inductive storage : Type :=
| StDir (entries : list (string * fsnode))
| StTar (files : list (string * list Z)) (dirs : list string) (sub_path : string).

(** What [storage.get] returns *)
Inductive got : Type := GotNone | GotMem (mem : list Z) | GotStorage (st : storage).

(** file_resource_storage.py:30-41 [get]; mmap of an empty file raises ValueError (:26).  Keys are plain names
    (no '/'). *)
Definition dir_get (entries : list (string * fsnode)) (key : string) (optional : bool) : res got :=
  match dict_get entries key with
  | None => if optional then Ok GotNone else Err (MissingResourceError key)
  | Some (NFile []) => Err ValueError
  | Some (NFile d) => Ok (GotMem d)
  | Some (NDir es) => Ok (GotStorage (StDir es))
  end.

(** tar_archive_resource_storage.py:56-60 [_path] *)
Definition tar_path (sub_path key : string) : string :=
  match sub_path with "" => key | _ => sub_path ++ "/" ++ key end.

(** tar_archive_resource_storage.py:31-43 [get] *)
Definition tar_get (files : list (string * list Z)) (dirs : list string) (sub key : string) (optional : bool)
  : res got :=
  let path := tar_path sub key in
  match dict_get files path with
  | Some d => Ok (GotMem d)
  | None => if existsb (String.eqb path) dirs then Ok (GotStorage (StTar files dirs path))
            else if optional then Ok GotNone else Err (MissingResourceError key)
  end.

Definition st_lookup (st : storage) (key : string) (optional : bool) : res got :=
  match st with
  | StDir es => dir_get es key optional
  | StTar f d s => tar_get f d s key optional
  end.

(** [s.startswith(p)], [s[len(p):]], ['/' in s] *)
Definition starts_with (p s : string) : bool := String.prefix p s.
Definition drop (n : nat) (s : string) : string := String.substring n (String.length s - n) s.
Fixpoint has_slash (s : string) : bool :=
  match s with "" => false | String c t => Ascii.eqb c "/"%char || has_slash t end.

(** tar_archive_resource_storage.py:45-54 [ls] *)
Definition tar_ls (files : list (string * list Z)) (dirs : list string) (sub : string) : list string :=
  let prefix := tar_path sub "" in
  let sel (n : string) := starts_with prefix n && negb (has_slash (drop (String.length prefix) n)) in
  (map (drop (String.length prefix)) (filter sel dirs) ++
   map (drop (String.length prefix)) (filter sel (map fst files)))%list.

(** file_resource_storage.py:43-44 [ls] (os.listdir order is arbitrary) *)
Definition st_ls (st : storage) : list string :=
  match st with StDir es => map fst es | StTar f d s => tar_ls f d s end.

(** tar_archive_resource_storage.py:17-29 [create]: a later regular member of the same name replaces an
    earlier one in place (dict); directories form a set; "./" is stripped once. *)
Fixpoint dict_put {A} (d : list (string * A)) (k : string) (x : A) : list (string * A) :=
  match d with
  | [] => [(k, x)]
  | (k', y) :: t => if String.eqb k' k then (k', x) :: t else (k', y) :: dict_put t k x
  end.
Definition strip_dot (n : string) : string := if starts_with "./" n then drop 2 n else n.
Fixpoint tar_entries (t : tarfile) (files : list (string * list Z)) (dirs : list string)
  : res (list (string * list Z) * list string) :=
  match t with
  | [] => Ok (files, dirs)
  | (n0, k) :: t' =>
      let n := strip_dot n0 in
      match k with
      | TSparse => Err CorruptResourceError
      | TReg d => tar_entries t' (dict_put files n d) dirs
      | TDir => if String.eqb n "." || existsb (String.eqb n) dirs then tar_entries t' files dirs
                else tar_entries t' files (dirs ++ [n])%list
      | TOtherKind => tar_entries t' files dirs
      end
  end.
Definition tar_create (t : tarfile) (sub_path : string) : res storage :=
  '(f, d) <- tar_entries t [] [] ;; Ok (StTar f d sub_path).

(** ** Opening *)

(** CPython [len()]: OverflowError above sys.maxsize = 2^63 - 1 *)
Definition py_len (n : Z) : res Z := if 2 ^ 63 <=? n then Err OverflowError else Ok n.

(** An opened resource.  [OMultiNoData]: a multivector whose data argument is not bytes (None or a
    directory): it opens, every element access raises TypeError. *)
Inductive opened : Type :=
| OInstance (x : instance)
| OVector (v : vector)
| OMulti (m : multivector)
| OMultiNoData (ix : vector) (types : list sdef)
| ORaw (r : rawdata)
| OArch (resources : list (string * option opened)).

(** [len(mem)] on what a storage returned: only bytes have a length (resources.py:20). *)
Definition need_mem (g : got) : res (list Z) :=
  match g with GotMem m => Ok m | GotNone => Err TypeError | GotStorage _ => Err TypeError end.

(** resources.py:53-55 [ResourceBase.open], :139-143 [Multivector.open] for the non-archive containers.
    The argument order of Multivector.open (index first, then data) is kept. *)
Definition open_container (st : storage) (name : string) (c : container) (optional : bool) : res opened :=
  match c with
  | CInstance sd => g <- st_lookup st name optional ;; m <- need_mem g ;; x <- instance_open m sd ;; Ok (OInstance x)
  | CVector sd => g <- st_lookup st name optional ;; m <- need_mem g ;; x <- vector_open m sd ;; Ok (OVector x)
  | CRawData => g <- st_lookup st name optional ;; m <- need_mem g ;; x <- rawdata_open m ;; Ok (ORaw x)
  | CMultivector it ts =>
      gi <- st_lookup st (name ++ "_index") optional ;;
      gd <- st_lookup st name optional ;;
      mi <- need_mem gi ;;
      match gd with
      | GotMem md => m <- multivector_open mi md it ts ;; Ok (OMulti m)
      | _ => ix <- vector_open mi it ;; Ok (OMultiNoData ix ts)
      end
  | CArchive _ => Err RuntimeError (* not reached: handled by open_resource *)
  end.

(** [bool(resource)] at archive.py:112, via __len__ *)
Definition truthy (o : opened) : res bool :=
  match o with
  | OInstance _ => Ok true
  | OVector v => n <- py_len (vector_len v) ;; Ok (0 <? n)
  | OMulti m => _ <- py_len (vector_len (mv_index m)) ;; Ok (0 <? multivector_len m)
  | OMultiNoData ix _ => n <- py_len (vector_len ix) ;; Ok (0 <? Z.max 0 (n - 1))
  | ORaw r => n <- rawdata_len r ;; n <- py_len n ;; Ok (0 <? n)
  | OArch rs => Ok (negb (zlen rs =? 0))
  end.

(** archive.py:118-123 [_check_non_subarchive_schema] *)
Definition check_schema (name : string) (expected actual : list Z) : res unit :=
  s <- decode actual ;;
  if eqb_list s expected then Ok tt else Err (SchemaMismatchError name).

(** archive.py:92-104 [_schema_validated_resource_signature] for non-archives: whether to open at all.
    [if storage:] is false for None and for a zero-length memoryview. *)
Definition schema_validated (st : storage) (name : string) (sig : rsig) : res bool :=
  g <- st_lookup st (name ++ ".schema") (r_optional sig) ;;
  match g with
  | GotMem ((_ :: _) as m) => _ <- check_schema name (r_schema sig) m ;; Ok true
  | GotStorage _ => Err TypeError
  | GotMem [] | GotNone => if r_optional sig then Ok false else Err (MissingResourceError name)
  end.

(** archive.py:111-116: keep a truthy resource, else None *)
Definition keep_truthy (o : opened) : res (option opened) :=
  b <- truthy o ;; Ok (if b then Some o else None).

(** Insertion sort by name (archive.py:38 [sorted(list(_RESOURCES.items()))]; names are distinct). *)
Fixpoint insert_by {A} (x : string * A) (l : list (string * A)) : list (string * A) :=
  match l with
  | [] => [x]
  | y :: t => if String.leb (fst x) (fst y) then x :: l else y :: insert_by x t
  end.
Fixpoint sort_by {A} (l : list (string * A)) : list (string * A) :=
  match l with [] => [] | x :: t => insert_by x (sort_by t) end.

(** The outcome of [__getattr__(name)] for each resource, in any order of evaluation, then the first
    exception in sorted order (archive.py:38-39).  Opening has no effects, so computing all outcomes
    and then sequencing them is the same as stopping at the first exception. *)
Definition sequence_sorted {A} (l : list (string * res A)) : res (list (string * A)) :=
  mapM (fun nr : string * res A => x <- snd nr ;; Ok (fst nr, x)) (sort_by l).

(** archive.py:27-46 constructor, :76-82 [Archive.open], :106-116 [_open_resource], as one structural
    recursion over the archive type. *)
Fixpoint open_archive (a : adef) (st : storage) {struct a} : res (list (string * option opened)) :=
  match a with
  | ADef _ _ rs =>
      sequence_sorted
        ((fix go (rs : list (string * rsig)) : list (string * res (option opened)) :=
            match rs with
            | [] => []
            | (name, sig) :: t => (name, open_resource name sig st) :: go t
            end) rs)
  end
with open_resource (name : string) (sig : rsig) (st : storage) {struct sig} : res (option opened) :=
  match sig with
  | RSig c schema optional => open_any name c schema optional st
  end
with open_any (name : string) (c : container) (schema : list Z) (optional : bool) (st : storage) {struct c}
  : res (option opened) :=
  match c with
  | CArchive a =>
      g <- st_lookup st name optional ;;
      match g with
      | GotNone => Ok None
      | GotStorage st' => rs <- open_archive a st' ;; keep_truthy (OArch rs)
      | GotMem _ => match a with ADef _ _ [] => Ok None | _ => Err AttributeError end
      end
  | _ =>
      ok <- schema_validated st name (RSig c schema optional) ;;
      if ok : bool then o <- open_container st name c optional ;; keep_truthy o else Ok None
  end.

(** archive.py:41-46 [__getattr__] on an opened archive *)
Definition archive_getattr (rs : list (string * option opened)) (name : string) : res (option opened) :=
  match dict_get rs name with Some o => Ok o | None => Err AttributeError end.

(** The storage of a directory the builder wrote into *)
Definition storage_of_fs (d : fs) : storage := StDir (map (fun kx => (fst kx, NFile (snd kx))) d).
