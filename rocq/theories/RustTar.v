(** Model of the Rust tar storage, flatdata-rs/lib/src/tarstorage.rs.

    The members are those the [tar] crate reports (crates.io, not part of the repository, trusted): path, position of the data in the
    file, size, and the size in the header itself (different for sparse members).  Errors while it reads the headers are not modelled
    ([new] returns them).  [usize] is unbounded: in the code a position that overflows panics, as one behind the end of the file does.
    Paths are [std::path] on Unix. *)
From Coq Require Import List ZArith Bool String Ascii.
From Verif Require Import PyBase PyText Streams RustStore CppArchive RustArchive.
Import ListNotations.
Local Open Scope string_scope.
Local Open Scope Z_scope.

Record tmember := TMember { tm_path : string; tm_offset : Z; tm_size : Z; tm_header_size : Z }.

(** [std::path::Path::components]: the root, then the names between slashes without empty ones and "."; except that a leading "." counts.
    Two [PathBuf]s are equal, and have the same hash, if their components are. *)
Definition components (s : string) : list string :=
  let parts := split_on "/" s in
  let names := filter (fun c => negb (String.eqb c "" || String.eqb c ".")) parts in
  match parts with
  | "" :: _ :: _ => "/" :: names
  | "." :: _ => "." :: names
  | _ => names
  end.
(** [PathBuf::push], [Path::join] *)
Definition ends_in_slash (s : string) : bool := match rev (list_ascii_of_string s) with c :: _ => Ascii.eqb c "/" | [] => false end.
Definition path_join (a b : string) : string :=
  match b with
  | String "/" _ => b
  | _ => if String.eqb a "" || ends_in_slash a then a ++ b else a ++ "/" ++ b
  end.

(** tarstorage.rs:32-36: [strip_prefix(".")] *)
Definition member_key (m : tmember) : list string := match components (tm_path m) with "." :: names => names | names => names end.
(** [HashMap] from components to ranges: a later entry for the same key replaces an earlier one *)
Definition ranges := list (list string * (Z * Z)).
Definition same_path (a b : list string) : bool := if list_eq_dec string_dec a b then true else false.
Fixpoint range_get (f : ranges) (k : list string) : option (Z * Z) :=
  match f with [] => None | (j, r) :: t => if same_path j k then Some r else range_get t k end.
Fixpoint range_put (f : ranges) (k : list string) (r : Z * Z) : ranges :=
  match f with [] => [(k, r)] | (j, q) :: t => if same_path j k then (j, r) :: t else (j, q) :: range_put t k r end.
(** :22-55 [MemoryMappedTarArchiveStorage::new] *)
Fixpoint rtar_ranges (ms : list tmember) (f : ranges) : rresult ranges :=
  match ms with
  | [] => ROk f
  | m :: ms => if negb (tm_header_size m =? tm_size m) then RErr EIo else rtar_ranges ms (range_put f (member_key m) (tm_offset m, tm_size m))
  end.
Definition rtar_new (ms : list tmember) : rresult ranges := rtar_ranges ms [].
(** :57-66 [read]: [&map[offset..offset + size]] panics if the range is not inside the map *)
Definition rtar_slice (tar : list Z) (r : Z * Z) : option (list Z) :=
  if fst r + snd r <=? zlen tar then Some (firstn (Z.to_nat (snd r)) (skipn (Z.to_nat (fst r)) tar)) else None.
(** :102-107 [subdir] (the prefix is [sub_path]) *)
Definition rtar_subdir (sub dir : string) : string := path_join sub dir.
(** :109-125 [exists], [read_resource] *)
Definition rtar_read (tar : list Z) (f : ranges) (sub name : string) : rresult (list Z) :=
  match range_get f (components (path_join sub name)) with
  | None => RErr EMissing
  | Some r => match rtar_slice tar r with Some d => ROk d | None => RPanic end
  end.
Definition rtar_exists (f : ranges) (sub name : string) : bool := match range_get f (components (path_join sub name)) with Some _ => true | None => false end.
(** :127-132 *)
Definition rtar_create_output_stream (name : string) : rresult unit := RErr EIo.

(** Opening an archive uses the storage only through [subdir] and [read_resource]; so it is that of RustArchive.v for the [store] in
    which every path can be read that can be read here, but for the empty path.  (C99_store: it does give the answers of [rtar_read].) *)
Definition path_text (k : list string) : string := String.concat "/" k.
Definition rtar_files (tar : list Z) (f : ranges) : list (string * list Z) :=
  map (fun e => (path_text (fst e), match rtar_slice tar (snd e) with Some d => d | None => [] end))
      (filter (fun e => match fst e with [] => false | _ => true end) f).
Definition store_with (files : list (string * list Z)) : store :=
  Store (map (fun e => OStream (snd e) 0) files) (combine (map fst files) (seq 0 (List.length files))) [].
Definition rtar_store (tar : list Z) (f : ranges) : store := store_with (rtar_files tar f).
Definition rtar_open (checks : bool) (a : rarch) (tar : list Z) (f : ranges) : rresult rarchive :=
  snd (ropen checks rust_file_storage a (rtar_store tar f) "").
