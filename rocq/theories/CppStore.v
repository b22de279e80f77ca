(** Model of the C++ library above the codecs: resource storage, growing vectors, multivectors and the views on them
    (flatdata-cpp/include/flatdata, flatdata-cpp/src/ResourceStorage.cpp).

    Memory is the list of bytes from a pointer on; [None] is an access outside it (undefined behaviour).  [size_t] and [uint64_t]
    arithmetic is modulo 2^64 where it decides something (the size check), unbounded elsewhere. *)
From Coq Require Import List ZArith Bool String.
From Verif Require Import PyBase DataAccess Structure Resources Builder Archive Codecs Streams.
Import ListNotations.
Local Open Scope string_scope.
Local Open Scope Z_scope.

(** internal/Constants.h:10-13 *)
Definition PADDING_SIZE : nat := 8.
(** MultiVector.h:129, ExternalVector.h:86 *)
Definition block_limit : Z := 1024 * 1024 * 32.

(** ResourceStorageCommon.h:20-28 [write_to_stream<uint64_t>]: a zeroed array, filled by a [Writer] *)
Definition cpp_size_bytes (n : Z) : list Z :=
  match cpp_write false false (zeros 8) 0 64 n with Some d => d | None => [] end.

(** ResourceStorage.inl:132-140.  Simplification: a schema is a text without NUL characters, so [operator<<] writes all of it *)
Definition cpp_write_schema (p : policy) (st : store) (name : string) (schema : list Z) : store :=
  let (st, i) := create_stream p st (name ++ ".schema") in write_stream st i schema.

(** ResourceStorage.cpp:13-26, ResourceStorage.inl:176-181: the stream cannot fail, so the result is [true] *)
Definition cpp_write_resource (p : policy) (st : store) (name : string) (schema data : list Z) : store :=
  let (st, i) := create_stream p st name in
  let st := write_stream st i (cpp_size_bytes (zlen data)) in
  let st := write_stream st i data in
  let st := write_stream st i (zeros PADDING_SIZE) in
  cpp_write_schema p st name schema.

(** A [MemoryDescriptor]: the bytes from its pointer on (more than its size), and its size *)
Record desc := Desc { d_mem : list Z; d_size : Z }.

(** ResourceStorage.inl:142-174 *)
Definition cpp_read_resource (p : policy) (st : store) (name : string) (expected : list Z) : store * option desc :=
  let (st, data) := read_resource p st name in
  let (st, schema) := read_resource p st (name ++ ".schema") in
  (st,
   data <== data ;; schema <== schema ;;
   if zlen data <? 8 + 8 then None else
   size <== cpp_read 64 false data 0 64 ;;
   if negb ((size + 8 + 8) mod 2 ^ 64 =? zlen data) then None else
   if negb (eqb_list schema expected) then None else
   Some (Desc (skipn 8 data) size)).

(** ** ResourceHandle.h:21-86 *)
Record handle := Handle { h_stream : nat; h_size : Z; h_name : string; h_schema : list Z }.
(** :48-63 *)
Definition handle_create (p : policy) (st : store) (name : string) (schema : list Z) : store * handle :=
  let (st, i) := create_stream p st name in (write_stream st i (cpp_size_bytes 0), Handle i 0 name schema).
(** :40-46 *)
Definition handle_write (st : store) (h : handle) (d : list Z) : store * handle :=
  (write_stream st (h_stream h) d, Handle (h_stream h) (h_size h + zlen d) (h_name h) (h_schema h)).
(** :65-86, ResourceStorage.inl:89-113 [ResourceReader] *)
Definition handle_close (p : policy) (st : store) (h : handle) : store * option desc :=
  let st := write_stream st (h_stream h) (zeros PADDING_SIZE) in
  let st := seek_stream st (h_stream h) in
  let st := write_stream st (h_stream h) (cpp_size_bytes (h_size h)) in
  cpp_read_resource p st (h_name h) (h_schema h).

(** What the user of a mutator does to the memory it points to: the bytes from the record on, changed (or an access outside) *)
Definition filler := list Z -> option (list Z).
Definition fill_at (f : filler) (pos : nat) (data : list Z) : option (list Z) :=
  rest <== f (skipn pos data) ;; Some (firstn pos data ++ rest)%list.

(** ** ArrayView.h, internal/ArrayView.inl.  [elem]: [T::size_in_bytes()], [overlap]: [T::IS_OVERLAPPING_WITH_NEXT] *)
Record etype := EType { e_size : nat; e_overlap : bool }.
Record aview := AView { av_mem : list Z; av_size : Z }.
(** :10-19 *)
Definition av_create (t : etype) (mem : list Z) (bytes : Z) : aview :=
  let n := bytes / Z.of_nat (e_size t) in AView mem (if e_overlap t && negb (n =? 0) then n - 1 else n).
(** :28-33: the memory from the element on *)
Definition av_at (t : etype) (v : aview) (i : nat) : list Z := skipn (e_size t * i) (av_mem v).
(** :49-54 *)
Definition av_bytes (t : etype) (v : aview) : Z := (av_size v + if e_overlap t then 1 else 0) * Z.of_nat (e_size t).
(** :77-117 *)
Definition av_slice (t : etype) (v : aview) (pos : nat) (length : Z) : aview := AView (skipn (pos * e_size t) (av_mem v)) length.
Definition av_slice_range (t : etype) (v : aview) (range : nat * nat) : aview :=
  AView (skipn (fst range * e_size t) (av_mem v)) (Z.of_nat (snd range) - Z.of_nat (fst range)).
Definition av_slice_before (v : aview) (pos : nat) : aview := AView (av_mem v) (Z.of_nat pos).
Definition av_slice_after (t : etype) (v : aview) (pos : nat) : aview := AView (skipn (pos * e_size t) (av_mem v)) (av_size v - Z.of_nat pos).
Definition av_skip (t : etype) (v : aview) (count : nat) : aview := av_slice_after t v count.
Definition av_skip_last (v : aview) (count : nat) : aview := av_slice_before v (Z.to_nat (av_size v - Z.of_nat count)).
(** begin()/end()/operator++/operator*: ArrayView.inl:125-137, ArrayViewIterator.inl:30-35, 146-151 *)
Fixpoint av_iterate (t : etype) (mem : list Z) (n : nat) : list (list Z) :=
  match n with O => [] | S n => mem :: av_iterate t (skipn (e_size t) mem) n end.
Definition av_elements (t : etype) (v : aview) : list (list Z) := av_iterate t (av_mem v) (Z.to_nat (av_size v)).

(** ** Vector.h:17-52: [m_data], elements and padding *)
Definition cvector := list Z.
(** :56-61, 133-138: [std::vector::resize] cuts or appends zeros *)
Definition resize (d : list Z) (n : nat) : list Z := firstn n d ++ zeros (n - List.length d).
Definition vec_resize (t : etype) (v : cvector) (n : nat) : cvector := resize v (n * e_size t + PADDING_SIZE).
Definition vec_new (t : etype) (n : nat) : cvector := vec_resize t [] n.
(** :126-131, 147-154 with :98-103 [back], followed by the writes through the returned mutator *)
Definition vec_size (t : etype) (v : cvector) : Z := (zlen v - Z.of_nat PADDING_SIZE) / Z.of_nat (e_size t).
Definition vec_grow (t : etype) (v : cvector) (f : filler) : option cvector :=
  let v := resize v (List.length v + e_size t) in fill_at f (e_size t * Z.to_nat (vec_size t v - 1)) v.
(** :70-75 with a mutator *)
Definition vec_set (t : etype) (v : cvector) (i : nat) (f : filler) : option cvector := fill_at f (e_size t * i) v.
(** :156-161 *)
Definition vec_pop (t : etype) (v : cvector) : cvector := resize v (List.length v - e_size t).
(** :163-168 *)
Definition vec_view (t : etype) (v : cvector) : aview := av_create t v (zlen v - Z.of_nat PADDING_SIZE).
(** storage.write(name, schema, ArrayView): ResourceStorage.inl:176-181 passes [data()] and [size_in_bytes()] of the view on;
    [None]: more bytes than the memory has *)
Definition view_bytes (t : etype) (v : aview) : option (list Z) :=
  if av_bytes t v <=? zlen (av_mem v) then Some (firstn (Z.to_nat (av_bytes t v)) (av_mem v)) else None.

(** ** ExternalVector.h.  [limit] is [block_limit]. *)
Record evector := EVector { ev_data : list Z; ev_handle : handle; ev_size : Z }.
(** :61-66 and ResourceStorage.inl:183-191 [create_external_vector] *)
Definition ev_create (p : policy) (st : store) (name : string) (schema : list Z) : store * evector :=
  let st := cpp_write_schema p st name schema in
  let (st, h) := handle_create p st name schema in (st, EVector (zeros PADDING_SIZE) h 0).
(** :96-103 [flush] *)
Definition ev_flush (st : store) (v : evector) : store * evector :=
  let (st, h) := handle_write st (ev_handle v) (firstn (List.length (ev_data v) - PADDING_SIZE) (ev_data v)) in
  (st, EVector (zeros PADDING_SIZE) h (ev_size v)).
(** :82-94, followed by the writes through the returned mutator *)
Definition ev_grow (limit : Z) (t : etype) (st : store) (v : evector) (f : filler) : option (store * evector) :=
  let (st, v) := if limit <? zlen (ev_data v) then ev_flush st v else (st, v) in
  let old := List.length (ev_data v) in
  data <== fill_at f (old - PADDING_SIZE) (ev_data v ++ zeros (e_size t)) ;;
  Some (st, EVector data (ev_handle v) (ev_size v + 1)).
(** :105-113 [close] *)
Definition ev_close (p : policy) (t : etype) (st : store) (v : evector) : store * option aview :=
  let (st, v) := ev_flush st v in
  let (st, d) := handle_close p st (ev_handle v) in
  (st, d <== d ;; Some (av_create t (d_mem d) (d_size d))).

(** ** MultiVector.h.  [w]: the width in bits of the index type; the generated index structure has the one field [value] of that
    width at offset 0 and is overlapping with the next (it has the range [range]) *)
Definition index_type (w : Z) : etype := EType (Z.to_nat ((w + 7) / 8)) true.
Record mvector := MVector { mv_data : list Z; mv_ev : evector; mv_handle : handle; mv_flushed : Z }.
(** ResourceStorage.inl:193-208, MultiVector.h:116-123 *)
Definition mv_create (p : policy) (st : store) (name : string) (schema : list Z) : store * mvector :=
  let (st, index) := ev_create p st (name ++ "_index") (ascii_bytes "index(" ++ schema ++ ascii_bytes ")") in
  let st := cpp_write_schema p st name schema in
  let (st, h) := handle_create p st name schema in (st, MVector (zeros PADDING_SIZE) index h 0).
(** :155-160 *)
Definition mv_add_to_index (limit w : Z) (st : store) (m : mvector) : option (store * mvector) :=
  r <== ev_grow limit (index_type w) st (mv_ev m)
          (fun mem => cpp_write false false mem 0 w (mv_flushed m + zlen (mv_data m) - Z.of_nat PADDING_SIZE)) ;;
  Some (fst r, MVector (mv_data m) (snd r) (mv_handle m) (mv_flushed m)).
(** :162-170 *)
Definition mv_flush (st : store) (m : mvector) : store * mvector :=
  let n := (List.length (mv_data m) - PADDING_SIZE)%nat in
  let (st, h) := handle_write st (mv_handle m) (firstn n (mv_data m)) in
  (st, MVector (zeros PADDING_SIZE) (mv_ev m) h (mv_flushed m + Z.of_nat n)).
(** :125-136 *)
Definition mv_grow (limit w : Z) (st : store) (m : mvector) : option (store * mvector) :=
  let (st, m) := if limit <? zlen (mv_data m) then mv_flush st m else (st, m) in mv_add_to_index limit w st m.
(** :99-114 [ListBuilder::add<T>], [ti] the position of [T] among the types, followed by the writes through the mutator *)
Definition mv_add (m : mvector) (ti : Z) (size : nat) (f : filler) : option mvector :=
  let old := List.length (mv_data m) in
  data <== fill_at (fun mem => match mem with [] => None | _ :: t => Some (ti :: t) end) (old - PADDING_SIZE) (mv_data m ++ zeros (1 + size)) ;;
  data <== fill_at f (1 + old - PADDING_SIZE) data ;;
  Some (MVector data (mv_ev m) (mv_handle m) (mv_flushed m)).

(** ** MultiArrayView.h *)
Record maview := MAView { ma_index : aview; ma_mem : list Z }.
(** MultiVector.h:138-153 *)
Definition mv_close (limit : Z) (p : policy) (w : Z) (st : store) (m : mvector) : option (store * option maview) :=
  r <== mv_add_to_index limit w st m ;;
  let (st, m) := mv_flush (fst r) (snd r) in
  let (st, d) := handle_close p st (mv_handle m) in
  let (st, index) := ev_close p (index_type w) st (mv_ev m) in
  Some (st, d <== d ;; index <== index ;; Some (MAView index (d_mem d))).
(** ResourceStorage.inl:54-71: reading a multivector *)
Definition cpp_read_multi (p : policy) (w : Z) (st : store) (name : string) (schema : list Z) : store * option maview :=
  let (st, index) := cpp_read_resource p st (name ++ "_index") (ascii_bytes "index(" ++ schema ++ ascii_bytes ")") in
  let (st, d) := cpp_read_resource p st name schema in
  (st, i <== index ;; d <== d ;; Some (MAView (av_create (index_type w) (d_mem i) (d_size i)) (d_mem d))).

(** Outcomes of reading: a value, the exception of :234-242, or undefined behaviour *)
Inductive outcome (A : Type) : Type := Value (a : A) | Throws | Undefined.
Arguments Value {A}. Arguments Throws {A}. Arguments Undefined {A}.
(** :190-195 *)
Definition ma_size (m : maview) : Z := av_size (ma_index m).
(** :224 [m_index\[index\].range], a reader of a pair *)
Definition ma_range (w : Z) (m : maview) (i : nat) : option (Z * Z) :=
  cpp_read_range 64 false (av_at (index_type w) (ma_index m) i) 0 w (Z.of_nat (e_size (index_type w))).
(** :244-258 [get_impl]: the size of the type with that number *)
Definition type_size (types : list nat) (ti : Z) : option nat := if ti <? 0 then None else nth_error types (Z.to_nat ti).
(** :219-232 [for_each_impl] with a callback that accepts all types: the types and positions of the elements *)
Fixpoint for_each_from (fuel : nat) (types : list nat) (mem : list Z) (data stop : Z) : outcome (list (Z * Z)) :=
  match fuel with
  | O => Undefined
  | S fuel =>
      if data <? stop then
        match mem_byte mem data with
        | None => Undefined
        | Some ti =>
            match type_size types ti with
            | None => Throws
            | Some n => match for_each_from fuel types mem (data + 1 + Z.of_nat n) stop with
                        | Value l => Value ((ti, data + 1) :: l) | Throws => Throws | Undefined => Undefined end
            end
        end
      else Value []
  end.
Definition for_each (types : list nat) (w : Z) (m : maview) (i : nat) : outcome (list (Z * Z)) :=
  match ma_range w m i with
  | None => Undefined
  | Some (first, second) => for_each_from (S (List.length (ma_mem m))) types (ma_mem m) first second
  end.
(** :296-313 [Iterator::operator++]: the element found (as its position) and the position after it.  The loop stops at
    [m_data_current == m_data_end] only. *)
Fixpoint iter_next (fuel : nat) (types : list nat) (mem : list Z) (wanted data stop : Z) : outcome (option Z * Z) :=
  match fuel with
  | O => Undefined
  | S fuel =>
      if data =? stop then Value (None, data)
      else match mem_byte mem data with
           | None => Undefined
           | Some ti =>
               match type_size types ti with
               | None => Throws
               | Some n => if ti =? wanted then Value (Some (data + 1), data + 1 + Z.of_nat n)
                           else iter_next fuel types mem wanted (data + 1 + Z.of_nat n) stop
               end
           end
  end.
(** :271-294, 323-337: [for (auto it = view.iterator<T>(i); it.valid(); ++it)] *)
Fixpoint iter_from (fuel : nat) (types : list nat) (mem : list Z) (wanted data stop : Z) : outcome (list Z) :=
  match fuel with
  | O => Undefined
  | S fuel =>
      match iter_next (S (List.length mem)) types mem wanted data stop with
      | Value (Some e, data) => match iter_from fuel types mem wanted data stop with
                                | Value l => Value (e :: l) | Throws => Throws | Undefined => Undefined end
      | Value (None, _) => Value []
      | Throws => Throws
      | Undefined => Undefined
      end
  end.
Definition iterator (types : list nat) (w : Z) (m : maview) (i : nat) (wanted : Z) : outcome (list Z) :=
  match ma_range w m i with
  | None => Undefined
  | Some (first, second) => if first <? second then iter_from (S (List.length (ma_mem m))) types (ma_mem m) wanted first second else Value []
  end.
