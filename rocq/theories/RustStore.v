(** Model of the Rust library above the codecs: resource storage, vectors, multivectors and the views on them (flatdata-rs/lib/src, and the
    code generated from templates/rust/structure.jinja2, index.jinja2 and variadic.jinja2).

    A slice is the bytes from its pointer on, and its length; [usize] has 64 bits and is unbounded except where an overflow decides
    something.  [checks] is whether the program was built with overflow checks (debug builds). *)
From Coq Require Import List ZArith Bool String.
From Verif Require Import PyBase DataAccess Structure Resources Builder Archive Codecs Streams CppStore.
Import ListNotations.
Local Open Scope string_scope.
Local Open Scope Z_scope.

(** error.rs:4-36, without the texts *)
Inductive rerror : Type := EMissing | EMissingData | EIo | ESize | EUtf8 | ESignature | ETooBig.
(** A [Result], or a panic *)
Inductive rresult (A : Type) : Type := ROk (a : A) | RErr (e : rerror) | RPanic.
Arguments ROk {A}. Arguments RErr {A}. Arguments RPanic {A}.

(** storage.rs:402-406 [write_size]: a zeroed array, filled by [flatdata_write_bytes!(u64)] *)
Definition rust_size_bytes (n : Z) : list Z := match rust_write false (zeros 8) 0 64 n with Some d => d | None => [] end.

(** storage.rs:48-50, 397-399 *)
Definition rust_write_schema (p : policy) (st : store) (name : string) (schema : list Z) : store :=
  let (st, i) := create_stream p st (name ++ ".schema") in write_stream st i schema.
(** storage.rs:43-51 with 391-395 *)
Definition rust_write_resource (p : policy) (st : store) (name : string) (schema data : list Z) : store :=
  let (st, i) := create_stream p st name in
  let st := write_stream st i (rust_size_bytes (zlen data)) in
  let st := write_stream st i data in
  let st := write_stream st i (zeros 8) in
  rust_write_schema p st name schema.

(** storage.rs:90-130 [read_and_check_schema]; a missing resource is the only error of [read_resource] *)
Definition rust_read_resource (checks : bool) (p : policy) (st : store) (name : string) (expected : list Z) : store * rresult desc :=
  let (st, data) := read_resource p st name in
  match data with
  | None => (st, RErr EMissing)
  | Some data =>
      let (st, schema) := read_resource p st (name ++ ".schema") in
      (st,
       match schema with
       | None => RErr EIo
       | Some schema =>
           if zlen data <? 8 + 8 then RErr ESize else
           match rust_read 64 false data 0 64 with
           | None => RPanic
           | Some size =>
               if checks && (2 ^ 64 <=? size + 8 + 8) then RPanic else
               if negb ((size + 8 + 8) mod 2 ^ 64 =? zlen data) then RErr ESize else
               if negb (utf8_valid schema) then RErr EUtf8 else
               if negb (eqb_list schema expected) then RErr ESignature else
               if zlen data - 8 <? size then RPanic else ROk (Desc (skipn 8 data) size)
           end
       end)
  end.

(** ** [ResourceHandle], storage.rs:287-362 ([handle] as in C++) *)
Definition rhandle_new (p : policy) (st : store) (name : string) (schema : list Z) : store * handle :=
  let (st, i) := create_stream p st name in (write_stream st i (rust_size_bytes 0), Handle i 0 name schema).
Definition rhandle_write (st : store) (h : handle) (d : list Z) : store * handle :=
  (write_stream st (h_stream h) d, Handle (h_stream h) (h_size h + zlen d) (h_name h) (h_schema h)).
Definition rhandle_close (checks : bool) (p : policy) (st : store) (h : handle) : store * rresult desc :=
  let st := write_stream st (h_stream h) (zeros 8) in
  let st := seek_stream st (h_stream h) in
  let st := write_stream st (h_stream h) (rust_size_bytes (h_size h)) in
  rust_read_resource checks p st (h_name h) (h_schema h).

(** ** Slices of structures: arrayview.rs:21-37 [from_bytes], :39-46 [as_bytes] ([None]: more bytes than there are) *)
Definition rfrom_bytes (t : etype) (d : desc) : rresult aview :=
  let size := Z.of_nat (e_size t) in
  if negb (d_size d mod size =? 0) then RErr ESize
  else if e_overlap t then
    if d_size d <? size then RErr ESize else ROk (AView (d_mem d) ((d_size d - size) / size))
  else ROk (AView (d_mem d) (d_size d / size)).
Definition ras_bytes (t : etype) (v : aview) : option (list Z) :=
  let n := (av_size v + if e_overlap t then 1 else 0) * Z.of_nat (e_size t) in
  if n <=? zlen (av_mem v) then Some (firstn (Z.to_nat n) (av_mem v)) else None.

(** ** [Vector], vector.rs:61-173: the structures including the one behind the last.  Accesses through [&mut T] change one structure. *)
Definition rvec := list (list Z).
(** :80-93 *)
Definition rvec_new (t : etype) (n : nat) : rvec := repeat (zeros (e_size t)) (n + 1).
(** :134-137: the length of the dereferenced slice *)
Definition rvec_len (v : rvec) : nat := (List.length v - 1)%nat.
Definition rvec_slice (v : rvec) : aview := AView (List.concat v) (Z.of_nat (List.length v - 1)).
(** :110-116 *)
Definition rvec_view (t : etype) (v : rvec) : aview :=
  AView (List.concat v) (Z.of_nat (if e_overlap t then List.length v - 2 else List.length v - 1)).
Definition change_at (v : rvec) (i : nat) (f : filler) : option rvec := r <== nth_error v i ;; r <== f r ;; Some (set_at v i r).
(** :121-125, followed by the writes through the result *)
Definition rvec_grow (t : etype) (v : rvec) (f : filler) : option rvec := change_at (v ++ [zeros (e_size t)])%list (rvec_len v) f.
(** :143-151, 166-173: [vector\[i\]] followed by writes; structures that overlap with the next can be accessed behind the last one *)
Definition rvec_set (t : etype) (v : rvec) (i : nat) (f : filler) : option rvec :=
  if (if e_overlap t then (i <? List.length v)%nat else (i <? rvec_len v)%nat) then change_at v i f else None.

(** ** [ExternalVector], vector.rs:248-317 *)
Record revector := REVector { rv_data : rvec; rv_len : Z; rv_handle : handle }.
(** :262-268 with storage.rs:195-213 [create_external_vector] *)
Definition rev_create (p : policy) (t : etype) (st : store) (name : string) (schema : list Z) : store * revector :=
  let st := rust_write_schema p st name schema in
  let (st, h) := rhandle_new p st name schema in (st, REVector (rvec_new t 0) 0 h).
(** :296-302 *)
Definition rev_flush (t : etype) (st : store) (v : revector) : option (store * revector) :=
  d <== ras_bytes t (rvec_view t (rv_data v)) ;;
  let (st, h) := rhandle_write st (rv_handle v) d in Some (st, REVector (rvec_new t 0) (rv_len v) h).
(** :287-293; [limit] is 1024 * 1024 * 32 *)
Definition rev_grow (limit : Z) (t : etype) (st : store) (v : revector) (f : filler) : option (store * revector) :=
  d <== ras_bytes t (rvec_view t (rv_data v)) ;;
  r <== (if limit <? zlen d then rev_flush t st v else Some (st, v)) ;;
  data <== rvec_grow t (rv_data (snd r)) f ;;
  Some (fst r, REVector data (rv_len (snd r) + 1) (rv_handle (snd r))).
(** :308-317 *)
Definition rev_close (checks : bool) (p : policy) (t : etype) (st : store) (v : revector) : option (store * rresult aview) :=
  r <== (if (0 <? rvec_len (rv_data v))%nat || (rv_len v =? 0) then rev_flush t st v else Some (st, v)) ;;
  let (st, d) := rhandle_close checks p (fst r) (rv_handle (snd r)) in
  Some (st, match d with
            | ROk d => match rfrom_bytes t d with ROk a => ROk a | _ => RPanic end
            | RErr e => RErr e
            | RPanic => RPanic
            end).

(** ** [MultiVector], multivector.rs:97-170; [index_type w] is the type of the index, with the one field [value] of [w] bits *)
Record rmvector := RMVector { rm_data : list Z; rm_index : revector; rm_handle : handle; rm_flushed : Z }.
(** :113-121 with storage.rs:221-244 [create_multi_vector] *)
Definition rm_create (p : policy) (w : Z) (st : store) (name : string) (schema : list Z) : store * rmvector :=
  let (st, index) := rev_create p (index_type w) st (name ++ "_index") (ascii_bytes "index(" ++ schema ++ ascii_bytes ")") in
  let st := rust_write_schema p st name schema in
  let (st, h) := rhandle_new p st name schema in (st, RMVector [] index h 0).
(** :144-149 *)
Definition rm_flush (st : store) (m : rmvector) : store * rmvector :=
  let (st, h) := rhandle_write st (rm_handle m) (rm_data m) in
  (st, RMVector [] (rm_index m) h (rm_flushed m + zlen (rm_data m))).
(** :151-155, index.jinja2:15-17 [set_index] *)
Definition rm_add_to_index (limit w : Z) (st : store) (m : rmvector) : option (store * rmvector) :=
  r <== rev_grow limit (index_type w) st (rm_index m) (fun d => rust_write false d 0 w (rm_flushed m + zlen (rm_data m))) ;;
  Some (fst r, RMVector (rm_data m) (snd r) (rm_handle m) (rm_flushed m)).
(** :133-139 *)
Definition rm_grow (limit w : Z) (st : store) (m : rmvector) : option (store * rmvector) :=
  let (st, m) := if limit <? zlen (rm_data m) then rm_flush st m else (st, m) in rm_add_to_index limit w st m.
(** variadic.jinja2:55-62 [add_...] for the type number [ti], structure.jinja2:60-69 [from_bytes_slice_mut], followed by writes *)
Definition rm_add (m : rmvector) (ti : Z) (size : nat) (f : filler) : option rmvector :=
  let old := List.length (rm_data m) in
  let data := set_at (rm_data m ++ zeros (1 + size))%list old ti in
  let slice := skipn (1 + old) data in
  if (List.length slice <? size)%nat then None else
  r <== f (firstn size slice) ;;
  Some (RMVector (firstn (1 + old) data ++ r ++ skipn size slice)%list (rm_index m) (rm_handle m) (rm_flushed m)).

(** ** [MultiArrayView], multiarrayview.rs *)
Record rmview := RMView { rw_index : aview; rw_data : desc }.
(** multivector.rs:161-169 *)
Definition rm_close (checks : bool) (limit : Z) (p : policy) (w : Z) (st : store) (m : rmvector) : option (store * rresult rmview) :=
  r <== rm_add_to_index limit w st m ;;
  let (st, m) := rm_flush (fst r) (snd r) in
  c <== rev_close checks p (index_type w) st (rm_index m) ;;
  match c with
  | (st, ROk index) =>
      let (st, d) := rhandle_close checks p st (rm_handle m) in
      Some (st, match d with ROk d => ROk (RMView index d) | RErr e => RErr e | RPanic => RPanic end)
  | (st, RErr e) => Some (st, RErr e)
  | (st, RPanic) => Some (st, RPanic)
  end.
(** :43-45 *)
Definition rw_len (v : rmview) : Z := av_size (rw_index v).
(** :58-64, index.jinja2:9-12 and structure.jinja2:112-121 [range].  [None] (as everywhere below) is a panic, or an access outside
    the memory of the index *)
Definition rw_at (w : Z) (v : rmview) (i : nat) : option desc :=
  if Z.of_nat i <? rw_len v then
    let t := index_type w in
    first <== rust_read 64 false (av_at t (rw_index v) i) 0 w ;;
    last <== rust_read 64 false (av_at t (rw_index v) i) (Z.of_nat (e_size t) * 8) w ;;
    if (first <=? last) && (last <=? d_size (rw_data v))
    then Some (Desc (skipn (Z.to_nat first) (d_mem (rw_data v))) (last - first)) else None
  else None.
(** variadic.jinja2:99-108 [create] with structure.jinja2:48-57 [from_bytes_slice]: the size of the structure *)
Definition rw_create (types : list nat) (ti : Z) (len : Z) : option nat :=
  n <== type_size types ti ;; if len <? Z.of_nat n then None else Some n.
(** :96-112 [next] until the end: the types and bytes of the elements *)
Fixpoint rw_elements (fuel : nat) (types : list nat) (d : desc) : option (list (Z * list Z)) :=
  match fuel with
  | O => None
  | S fuel =>
      if d_size d =? 0 then Some [] else
      match d_mem d with
      | [] => None
      | ti :: rest =>
          n <== rw_create types ti (d_size d - 1) ;;
          l <== rw_elements fuel types (Desc (skipn n rest) (d_size d - 1 - Z.of_nat n)) ;;
          Some ((ti, firstn n rest) :: l)
      end
  end.
Definition rw_bucket (types : list nat) (w : Z) (v : rmview) (i : nat) : option (list (Z * list Z)) :=
  d <== rw_at w v i ;; rw_elements (S (Z.to_nat (d_size d))) types d.
(** :71-76 with a range [a..b] of the standard library *)
Definition rw_slice (w : Z) (v : rmview) (a b : nat) : option rmview :=
  if (a <=? b)%nat && (Z.of_nat b <=? rw_len v)
  then Some (RMView (AView (av_at (index_type w) (rw_index v) a) (Z.of_nat b - Z.of_nat a)) (rw_data v)) else None.
(** :206-220 [next], :222-236 [next_back] until the end *)
Fixpoint rw_iterate (fuel : nat) (w : Z) (back : bool) (v : rmview) : option (list desc) :=
  match fuel with
  | O => None
  | S fuel =>
      if rw_len v =? 0 then Some [] else
      let last := Z.to_nat (rw_len v - 1) in
      e <== rw_at w v (if back then last else 0) ;;
      v <== (if back then rw_slice w v 0 last else rw_slice w v 1 (Z.to_nat (rw_len v))) ;;
      l <== rw_iterate fuel w back v ;;
      Some (e :: l)
  end.
Definition rw_iter (w : Z) (back : bool) (v : rmview) : option (list desc) := rw_iterate (S (Z.to_nat (rw_len v))) w back v.

(** ** [RawData], rawdata.rs:55-61: [None] is a panic *)
Fixpoint position_zero (l : list Z) : option nat :=
  match l with
  | [] => None
  | b :: l => if b =? 0 then Some O else option_map S (position_zero l)
  end.
Definition substring_raw (data : list Z) (start : nat) : option (list Z) :=
  if (List.length data <? start)%nat then None else
  let suffix := skipn start data in
  Some (match position_zero suffix with Some i => firstn i suffix | None => suffix end).
