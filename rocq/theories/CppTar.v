(** Model of flatdata-cpp/src/TarReader.cpp and of the tar storages of the C++ library built on it
    (flatdata-cpp/include/flatdata/MemoryMappedTarFileStorage.h, TarArchiveResourceStorage.h).
    Bytes are integers 0..255; [size_t] and [uint64_t] are 64-bit. *)
From Coq Require Import List ZArith Bool.
From Verif Require Import PyBase.
Import ListNotations.
Local Open Scope Z_scope.

(** Field of a header block: [n] bytes at byte offset [a] (struct TarFileHeader, TarReader.cpp:21-41). *)
Definition sub (l : list Z) (a n : nat) : list Z := firstn n (skipn a l).

(** [std::numeric_limits<size_t>::max()] (TarReader.cpp:54) *)
Definition max_value : Z := 2 ^ 64 - 1.

(** TarReader.cpp:58-67, the base-256 loop. *)
Fixpoint decode_binary (value : Z) (l : list Z) : option Z :=
  match l with
  | [] => Some value
  | b :: t => if max_value / 256 <? value then None else decode_binary (value * 256 + b) t
  end.

(** TarReader.cpp:71-83, the octal loop: stops at the end of the field or at a NUL. *)
Fixpoint decode_octal (value : Z) (l : list Z) : option Z :=
  match l with
  | [] => Some value
  | c :: t =>
      if c =? 0 then Some value
      else if max_value / 8 <? value then None
      else if (c <? 48) || (55 <? c) then None
      else decode_octal (value * 8 + (c - 48)) t
  end.

(** TarReader.cpp:49-85 [decode_numeric_field]; [None]: throws. *)
Definition decode_numeric_field (data : list Z) : option Z :=
  match data with
  | [] => None
  | b :: t => if negb (Z.land b 128 =? 0) then decode_binary (Z.land b 127) t else decode_octal 0 data
  end.

(** TarReader.cpp:87-100 [verify_checksum]; the [uint32_t] sum of 512 bytes cannot overflow. *)
Definition verify_checksum (header : list Z) : option bool :=
  let header_copy := firstn 148 header ++ repeat 32 8 ++ skipn 156 header in
  let sum := fold_left Z.add header_copy 0 mod 2 ^ 32 in
  match decode_numeric_field (sub header 148 8) with
  | None => None
  | Some v => Some (sum =? v)
  end.

(** [std::string(p, strnlen(p, n))] *)
Fixpoint cstr (l : list Z) : list Z :=
  match l with
  | [] => []
  | c :: t => if c =? 0 then [] else c :: cstr t
  end.

(** TarReader.h [TarFileEntry] *)
Record entry := Entry { e_name : list Z; e_offset : Z; e_size : Z }.

(** What a call can do; [Runs] means the loop has not ended within the given number of rounds. *)
Inductive outcome := Returns (es : list entry) | Throws | Runs.

Definition block_size : Z := 512.

(** [(BLOCK_SIZE - (size % BLOCK_SIZE)) % BLOCK_SIZE] (TarReader.cpp:154, :164) *)
Definition padding (size : Z) : Z := (block_size - size mod block_size) mod block_size.

(** TarReader.cpp:120-179, the loop; [offset] is a [size_t]; [acc] holds the entries found so far, last
    one first. *)
Fixpoint tar_loop (fuel : nat) (data : list Z) (offset : Z) (long_name : list Z) (acc : list entry) : outcome :=
  match fuel with
  | O => Runs
  | S fuel =>
      if negb (offset <? zlen data) then Returns (rev acc)                                (* :120 *)
      else
        let header := sub data (Z.to_nat offset) 512 in                                   (* :122-123 *)
        let offset := offset + block_size in                                              (* :124 *)
        if forallb (fun b => b =? 0) header then Returns (rev acc)                        (* :126-130 *)
        else
          match verify_checksum header with                                               (* :132-135 *)
          | Some true =>
              let typeflag := nth 156 header 0 in
              if (typeflag =? 48) || (typeflag =? 0) then                                 (* :137-156 *)
                let file_name := if match long_name with [] => false | _ => true end
                                 then long_name else cstr (sub header 0 100) in
                match decode_numeric_field (sub header 124 12) with
                | None => Throws
                | Some file_size =>
                    tar_loop fuel data ((offset + (file_size + padding file_size)) mod 2 ^ 64) []
                             (Entry file_name offset file_size :: acc)
                end
              else if typeflag =? 53 then                                                 (* :157-160 *)
                tar_loop fuel data offset long_name acc
              else if typeflag =? 76 then                                                 (* :161-174 *)
                match decode_numeric_field (sub header 124 12) with
                | None => Throws
                | Some name_size =>
                    if zlen data - offset <? name_size then Throws
                    else tar_loop fuel data ((offset + (name_size + padding name_size)) mod 2 ^ 64)
                                  (cstr (sub data (Z.to_nat offset) (Z.to_nat name_size))) acc
                end
              else Throws                                                                 (* :175-178 *)
          | _ => Throws
          end
  end.

(** TarReader.cpp:103-183 [read_tar_file_entries] *)
Definition read_tar (fuel : nat) (data : list Z) : outcome :=
  if negb (zlen data mod block_size =? 0) then Throws                                     (* :109-112 *)
  else tar_loop fuel data 0 [] [].

(** MemoryMappedTarFileStorage.h:64 [name.substr(0, 2) == "./" ? name.substr(2) : name] *)
Definition strip_dot (name : list Z) : list Z :=
  match name with 46 :: 47 :: t => t | _ => name end.

(** [std::map::emplace] keeps the first value of a key. *)
Definition emplace (m : list (list Z * list Z)) (k : list Z) (v : list Z) : list (list Z * list Z) :=
  if existsb (fun kv => if list_eq_dec Z.eq_dec (fst kv) k then true else false) m then m else m ++ [(k, v)].

Fixpoint find_file (m : list (list Z * list Z)) (k : list Z) : option (list Z) :=
  match m with
  | [] => None
  | (k', v) :: t => if list_eq_dec Z.eq_dec k' k then Some v else find_file t k
  end.

(** MemoryMappedTarFileStorage.h:62-70: the map of paths to memory; a descriptor is represented by the
    bytes it covers, [min(size, total - offset)] bytes from [offset]. *)
Definition tar_files (data : list Z) (es : list entry) : list (list Z * list Z) :=
  fold_left (fun m e =>
    emplace m (strip_dot (e_name e))
              (sub data (Z.to_nat (e_offset e))
                   (Z.to_nat (Z.min (e_size e) (zlen data - e_offset e))))) es [].

(** MemoryMappedTarFileStorage.h:32-84 on the bytes of an existing, non-empty file: construct, then
    [read(path)]; [None]: the constructor throws (or has not finished), [Some None]: no such file. *)
Definition tar_read (fuel : nat) (data path : list Z) : option (option (list Z)) :=
  match read_tar fuel data with
  | Returns es => Some (find_file (tar_files data es) path)
  | _ => None
  end.

(** TarArchiveResourceStorage.h:89-95, 113-118 [directory] / [get_path]: the path of [key] in the
    directory reached through [dirs]. *)
Fixpoint storage_path (sub_path : list Z) (dirs : list (list Z)) (key : list Z) : list Z :=
  match dirs with
  | [] => match sub_path with [] => key | _ => sub_path ++ 47 :: key end
  | d :: t => storage_path (match sub_path with [] => d | _ => sub_path ++ 47 :: d end) t key
  end.
