(** Model of the Go library (flatdata-go/flatdata/resource.go) and of the Go code generated for archives (flatdata-generator templates/go).

    Files are given by path; a path prefix is "" or ends in '/'.  [int] and [uint] are 64 bit.
    Simplifications: [mmap] of a file that exists succeeds and gives its bytes; memory is unlimited; logging and [ToString] are not
    modelled.  The generated code compiles only for schemas without enumerations whose archive resources are named like their archive
    (archive.jinja2:102 calls [Open<name of the resource>Archive]); the model is of code that does. *)
From Coq Require Import List ZArith Bool String Ascii.
From Verif Require Import PyBase DataAccess Structure Resources Builder Archive ArchiveSpec Codecs Streams CppStore RustStore CppArchive RustArchive.
Import ListNotations.
Local Open Scope string_scope.
Local Open Scope Z_scope.

(** ** resource.go *)

(** resource.go:16-29 *)
Inductive gerror : Type := GNoAccess | GInvalid | GNoSchema | GEmptySchema | GMismatch.
Inductive gresult (A : Type) : Type := GOk (a : A) | GErr (e : gerror).
Arguments GOk {A}. Arguments GErr {A}.

(** resource.go:49-70 [FileResourceStorage.GetMemoryDescriptor] and :84-102 [InMemoryResourceStorage.GetMemoryDescriptor] (there the schema
    is looked up in a map of its own, here under the name with ".schema") *)
Definition go_descriptor (F : string -> option (list Z)) (path : string) : gresult (list Z * list Z) :=
  match F path with
  | None => GErr GNoAccess
  | Some d =>
      if zlen d <? 8 + 8 then GErr GInvalid
      else match F (path ++ ".schema") with
           | None => GErr GNoSchema
           | Some s => if zlen s =? 0 then GErr GEmptySchema else GOk (d, s)
           end
  end.

(** ** Archives: templates/go/archive.jinja2 *)

(** A vector, instance, raw data or multivector object (vector.jinja2:3-7, instance.jinja2:2-6, rawdata.jinja2:2-6, multivector.jinja2:5-11):
    descriptor, descriptor of the index, [IsOptional], [IsOpen] *)
Record gres := GRes { g_data : option (list Z); g_index : option (list Z); g_optional : bool; g_open : bool }.
Inductive gcontent : Type := GCRes (r : gres) | GCSub (optional is_open : bool) (members : list (string * gcontent)).

(** jinja2's [lower] on the ASCII names of a schema *)
Fixpoint go_lower (s : string) : string :=
  match s with
  | EmptyString => EmptyString
  | String c s => let n := nat_of_ascii c in
                  String (if (Nat.leb 65 n && Nat.leb n 90)%bool then ascii_of_nat (n + 32) else c) (go_lower s)
  end.

(** archive.jinja2:114-141: one resource; the index of a multivector is read after the data, its schema is not looked at *)
Definition go_index_of (F : string -> option (list Z)) (path : string) (k : ckind) (open : bool) : gresult (option (list Z) * bool) :=
  match k with
  | KMulti _ _ =>
      match go_descriptor F (path ++ "_index") with
      | GOk (d, _) => GOk (Some d, open)
      | GErr GNoAccess => GOk (None, false)
      | GErr e => GErr e
      end
  | _ => GOk (None, open)
  end.
Definition go_load (F : string -> option (list Z)) (path : string) (r : cres) : gresult gres :=
  let data := go_descriptor F (path ++ c_name r) in
  match data with
  | GErr GNoAccess =>
      match go_index_of F (path ++ c_name r) (c_kind r) false with
      | GErr e => GErr e
      | GOk (i, open) => GOk (GRes None i (c_optional r) open)
      end
  | GErr e => GErr e
  | GOk (d, schema) =>
      match go_index_of F (path ++ c_name r) (c_kind r) true with
      | GErr e => GErr e
      | GOk (i, open) =>
          if open && negb (if list_eq_dec Z.eq_dec (c_schema r) schema then true else false) then GErr GMismatch
          else GOk (GRes (Some d) i (c_optional r) open)
      end
  end.

(** archive.jinja2:97-176 [Open<name>Archive]; the signature file is not read.  Members are opened one after the other; sub-archives
    (:101-112) in the directory of their name in lower case. *)
Fixpoint go_open (F : string -> option (list Z)) (a : rarch) (path : string) {struct a} : gresult (list (string * gcontent)) :=
  match a with
  | RArch _ _ ms =>
      (fix load (ms : list rmember) : gresult (list (string * gcontent)) :=
         match ms with
         | [] => GOk []
         | m :: ms =>
             let x := match m with
                      | RRes r => match go_load F path r with GOk v => GOk (c_name r, GCRes v) | GErr e => GErr e end
                      | RSub n optional sub =>
                          match go_open F sub (path ++ go_lower n ++ "/") with
                          | GOk l => GOk (n, GCSub optional true l)
                          | GErr GNoAccess => GOk (n, GCSub optional false [])
                          | GErr e => GErr e
                          end
                      end in
             match x with
             | GErr e => GErr e
             | GOk v => match load ms with GOk l => GOk (v :: l) | GErr e => GErr e end
             end
         end) ms
  end.

(** archive.jinja2:46-74 [GetSizeInBytes] *)
Fixpoint go_bytes (c : gcontent) : Z :=
  match c with
  | GCRes r => if g_open r then match g_data r with Some d => zlen d | None => 0 end else 0
  | GCSub _ open l => if open then (fix sum (l : list (string * gcontent)) : Z := match l with [] => 0 | x :: l => go_bytes (snd x) + sum l end) l else 0
  end.

(** archive.jinja2:20-44 [Close] with vector.jinja2:39-42 etc.: each open member is closed; closing a resource sets [IsOpen], closing an
    archive does not *)
Fixpoint go_close (c : gcontent) : gcontent :=
  match c with
  | GCRes r => GCRes (if g_open r then GRes (g_data r) (g_index r) (g_optional r) false else r)
  | GCSub o open l => if open then GCSub o open (map (fun x => (fst x, go_close (snd x))) l) else c
  end.

(** ** Resources.  [data] is the descriptor; [None] is a panic. *)

(** golang.org/x/exp/mmap [ReaderAt.ReadAt] with an error unless all bytes were read *)
Definition go_read_at (data : list Z) (n : nat) (off : nat) : option (list Z) :=
  if (off + n <=? List.length data)%nat then Some (firstn n (skipn off data)) else None.
(** vector.jinja2:16-24, rawdata.jinja2:17-24: the size field *)
Definition go_len (data : list Z) : Z := match go_read_at data 8 0 with Some b => cast 64 true (le b) | None => 0 end.
(** vector.jinja2:16-24 [GetSize], for elements of [size] bytes *)
Definition go_size (size : nat) (data : list Z) : Z := Z.quot (go_len data) (Z.of_nat size).
(** vector.jinja2:9-14 [Get]: the position of the element *)
Definition go_position (size : nat) (i : Z) : Z := cast 64 true (((i * Z.of_nat size) mod 2 ^ 64 + 8) mod 2 ^ 64).
(** vector.jinja2:26-37 [GetSlice]: the positions of the elements; [None] if the loop does not end (the caller gives enough fuel for every
    positive step; [start] does not overflow before) *)
Fixpoint go_slice_from (fuel : nat) (size : nat) (start stop step : Z) : option (list Z) :=
  if start <=? stop
  then match fuel with
       | O => None
       | S fuel => l <== go_slice_from fuel size (start + step) stop step ;; Some (go_position size start :: l)
       end
  else Some [].
Definition go_slice (size : nat) (start stop step : Z) : option (list Z) := go_slice_from (Z.to_nat (stop - start + 1)) size start stop step.
(** instance.jinja2:8-13 [Get]: the position of the structure *)
Definition go_instance : Z := 8.
(** rawdata.jinja2:8-15 [GetValue]; a negative size panics in [make] *)
Definition go_raw (data : list Z) : option (list Z) :=
  if go_len data <? 0 then None
  else match go_read_at data (Z.to_nat (go_len data)) 8 with Some b => Some b | None => Some [] end.

(** multivector.jinja2:26-31 [getBucketOffset], for an index of [w] bits *)
Definition go_offset (w : Z) (data index : list Z) (i : Z) : option Z :=
  let size := e_size (index_type w) in
  if i =? go_size size index then Some (zlen data - 8)
  else v <== go_get 64 false index (go_position size i) 0 w ;; Some (cast 64 true ((cast 64 true v + 8) mod 2 ^ 64)).
(** archive.jinja2:161-167: there is one object for each type of element; here its position *)
Definition set_position (ps : list Z) (ti : nat) (x : Z) : list Z := (firstn ti ps ++ x :: skipn (S ti) ps)%list.
(** multivector.jinja2:33-62 [Get]: the loop; the result is a list of these objects, given by the numbers of their types *)
Fixpoint go_bucket_from (fuel : nat) (types : list nat) (data : list Z) (offset next : Z) (objects : list Z) : option (list Z * list Z) :=
  match fuel with
  | O => None
  | S fuel =>
      if offset <? next then
        ti <== go_read data (offset * 8) 8 false ;;
        match type_size types ti with
        | Some n => r <== go_bucket_from fuel types data (offset + 1 + Z.of_nat n) next (set_position objects (Z.to_nat ti) (offset + 1)) ;;
                    Some (fst r, ti :: snd r)
        | None => go_bucket_from fuel types data (offset + 1) next objects
        end
      else Some (objects, [])
  end.
Definition go_bucket (w : Z) (types : list nat) (data index objects : list Z) (i : Z) : option (list Z * list Z) :=
  offset <== go_offset w data index i ;; next <== go_offset w data index (i + 1) ;;
  go_bucket_from (S (List.length data)) types data offset next objects.
(** multivector.jinja2:18-20 [GetSize] *)
Definition go_buckets (w : Z) (index : list Z) : Z := go_size (e_size (index_type w)) index.
