(** Model of flatdata-py/flatdata/lib/resources.py *)
From Coq Require Import List ZArith Bool String.
From Verif Require Import PyBase DataAccess Structure.
Import ListNotations.
Local Open Scope Z_scope.

(** resources.py:14-16 *)
Definition SIZE_OFFSET_IN_BITS : Z := 64.
Definition SIZE_OFFSET_IN_BYTES : Z := SIZE_OFFSET_IN_BITS / 8.
Definition SIZE_PADDING_IN_BYTES : Z := 8.

(** resources.py:19-22 [ResourceBase.__init__]: the minimal-size check. *)
Definition check_base (mem : list Z) : res unit :=
  if zlen mem <? SIZE_OFFSET_IN_BYTES + SIZE_PADDING_IN_BYTES then Err CorruptResourceError else Ok tt.

(** ** Python slices *)

(** [slice(start, stop, step)] with None as [None]. *)
Record pyslice := PySlice { sl_start : option Z; sl_stop : option Z; sl_step : option Z }.

(** CPython [slice.indices(len)] (used at resources.py:63, 77, 125): start, stop, step with Python's
    defaulting and clipping; ValueError for a zero step. *)
Definition slice_indices (s : pyslice) (len : Z) : res (Z * Z * Z) :=
  let step := match sl_step s with Some k => k | None => 1 end in
  if step =? 0 then Err ValueError else
  let lower := if step <? 0 then -1 else 0 in
  let upper := if step <? 0 then len - 1 else len in
  let clip (x : Z) :=
    let x := if x <? 0 then x + len else x in
    if x <? lower then lower else if upper <? x then upper else x in
  (* CPython clips a negative index only against [lower] and a non-negative one only against [upper];
     clipping against both gives the same result because x + len < len for x < 0. *)
  let start := match sl_start s with None => if step <? 0 then upper else lower | Some x => clip x end in
  let stop := match sl_stop s with None => if step <? 0 then lower else upper | Some x => clip x end in
  Ok (start, stop, step).

(** [list(range(start, stop, step))] for step <> 0. *)
Definition py_range (start stop step : Z) : list Z :=
  let n := if 0 <? step then (stop - start + step - 1) / step
           else (start - stop + (- step) - 1) / (- step) in
  map (fun k => start + Z.of_nat k * step) (seq 0 (Z.to_nat n)).

(** [l[start:stop:step]] for lists / memoryviews. *)
Definition py_getslice {A} (l : list A) (s : pyslice) : res (list A) :=
  '(a, b, c) <- slice_indices s (zlen l) ;;
  mapM (fun i => py_get l i) (py_range a b c).

(** ** Vector (resources.py:87-116) *)
Record vector := Vector { vec_mem : list Z; vec_def : sdef; vec_size : Z }.

(** resources.py:88-93 with :19-26: constructor *)
Definition vector_open (mem : list Z) (sd : sdef) : res vector :=
  _ <- check_base mem ;;
  size_in_bytes <- read_value mem 0 SIZE_OFFSET_IN_BITS false ;;
  '(size, rem) <- py_divmod size_in_bytes (s_size sd) ;;
  if rem =? 0 then Ok (Vector mem sd size) else Err AssertionError.

(** resources.py:31-36 [_item_offset], [_get_item] *)
Definition item_offset (sd : sdef) (index : Z) : Z := SIZE_OFFSET_IN_BYTES + s_size sd * index.
Definition get_item (mem : list Z) (sd : sdef) (index : Z) : sview :=
  SView sd mem (item_offset sd index).

(** resources.py:115-116 [__len__] *)
Definition vector_len (v : vector) : Z := vec_size v.

(** resources.py:98-106 [__getitem__] for an int *)
Definition vector_get (v : vector) (index : Z) : res sview :=
  let index := if index <? 0 then index + vector_len v else index in
  if (vec_size v <=? index) || (index <? 0) then Err IndexError
  else Ok (get_item (vec_mem v) (vec_def v) index).

(** resources.py:108-110 [__iter__] *)
Definition vector_iter (v : vector) : list sview :=
  map (get_item (vec_mem v) (vec_def v)) (map Z.of_nat (seq 0 (Z.to_nat (vector_len v)))).

(** resources.py:76-78 [_VectorSlice.__iter__] (list of the yielded elements) *)
Definition vector_slice (v : vector) (s : pyslice) : res (list sview) :=
  '(a, b, c) <- slice_indices s (vector_len v) ;;
  mapM (vector_get v) (py_range a b c).

(** resources.py:62-71 [_VectorSlice.to_numpy(limit)]: a numpy array of [num_items] rows, each either
    assigned (Some tuple) or left uninitialised (None).  numpy's value conversion is not modelled. *)
Definition slice_to_numpy (v : vector) (s : pyslice) (limit : option Z) : res (list (option (list Z))) :=
  '(a, b, c) <- slice_indices s (vector_len v) ;;
  let num_items := match limit with
                   | None => zlen (py_range a b c)
                   | Some l => if l =? 0 then zlen (py_range a b c) else l
                   end in
  if num_items <? 0 then Err ValueError else   (* np.empty(negative shape) *)
  items <- vector_slice v s ;;
  foldM (fun (st : list (option (list Z))) (it : Z * sview) =>
           row <- as_list (snd it) ;;
           if zlen st <=? fst it then Err IndexError
           else Ok (list_set st (Z.to_nat (fst it)) (Some row)))
        (repeat None (Z.to_nat num_items))
        (combine (map Z.of_nat (seq 0 (List.length items))) items).

(** ** Multivector (resources.py:132-175) *)
Record multivector := Multivector {
  mv_index : vector; mv_mem : list Z; mv_types : list sdef }.

(** resources.py:133-137: constructor; note that [mem] is not checked. *)
Definition multivector_open (index_mem mem : list Z) (index_type : sdef) (types : list sdef)
  : res multivector :=
  ix <- vector_open index_mem index_type ;;
  Ok (Multivector ix mem types).

(** resources.py:145-147 [__len__] *)
Definition multivector_len (m : multivector) : Z := Z.max 0 (vector_len (mv_index m) - 1).

(** resources.py:149-150 [_bucket_offset]: attribute [value] of the index entry *)
Definition bucket_offset (m : multivector) (index : Z) : res Z :=
  e <- vector_get (mv_index m) index ;;
  x <- getattr e "value"%string ;;
  Ok (x + SIZE_OFFSET_IN_BYTES).

(** resources.py:159-166: the element loop.  [fuel] bounds the iterations; every iteration advances
    [offset] by at least one (sizes are non-negative), so [next_offset - offset] is always enough
    (lemma [bucket_fuel_enough]); running out is reported as RuntimeError, never as a normal result. *)
Fixpoint bucket_elements (fuel : nat) (m : multivector) (offset next_offset : Z) : res (list (Z * sview)) :=
  if offset <? next_offset then
    match fuel with
    | O => Err RuntimeError
    | S fuel' =>
        type_index <- read_value (mv_mem m) (offset * 8) 8 false ;;
        let offset := offset + 1 in
        element_type <- py_get (mv_types m) type_index ;;
        let element := SView element_type (mv_mem m) offset in
        rest <- bucket_elements fuel' m (offset + s_size element_type) next_offset ;;
        Ok ((type_index, element) :: rest)
    end
  else Ok [].

(** resources.py:152-166 [__getitem__] for an int.  Elements are returned together with the index of
    their type (the Python object's class). *)
Definition multivector_get (m : multivector) (index : Z) : res (list (Z * sview)) :=
  offset <- bucket_offset m index ;;
  next_offset <- bucket_offset m (index + 1) ;;
  bucket_elements (Z.to_nat (next_offset - offset)) m offset next_offset.

(** resources.py:168-170 [__iter__] *)
Definition multivector_iter (m : multivector) : res (list (list (Z * sview))) :=
  mapM (multivector_get m) (map Z.of_nat (seq 0 (Z.to_nat (multivector_len m)))).

(** resources.py:119-129 [_MultivectorSlice.__iter__] *)
Definition multivector_slice (m : multivector) (s : pyslice) : res (list (list (Z * sview))) :=
  '(a, b, c) <- slice_indices s (multivector_len m) ;;
  mapM (multivector_get m) (py_range a b c).

(** ** RawData (resources.py:178-215) *)
Record rawdata := RawData { rd_mem : list Z }.

Definition rawdata_open (mem : list Z) : res rawdata :=
  _ <- check_base mem ;; Ok (RawData mem).

(** resources.py:179-180 *)
Definition rawdata_len (r : rawdata) : res Z := read_value (rd_mem r) 0 SIZE_OFFSET_IN_BITS false.

(** resources.py:189: [raw[i]] for an int is a (0- or 1-byte) memoryview *)
Definition rawdata_get (r : rawdata) (i : Z) : list Z :=
  py_slice (rd_mem r) (i + SIZE_OFFSET_IN_BYTES) (i + SIZE_OFFSET_IN_BYTES + 1).

(** resources.py:183-188: [raw[a:b:c]]; [None + 8] is a TypeError *)
Definition rawdata_slice (r : rawdata) (s : pyslice) : res (list Z) :=
  match sl_start s with
  | None => Err TypeError
  | Some a => py_getslice (rd_mem r)
                (PySlice (Some (a + SIZE_OFFSET_IN_BYTES))
                         (option_map (fun b => b + SIZE_OFFSET_IN_BYTES) (sl_stop s))
                         (sl_step s))
  end.

(** [raw[a:b]] with ints, as used internally (resources.py:193-194, 200, 202-203, 210-211) *)
Definition rawdata_sub (r : rawdata) (a b : Z) : list Z :=
  py_slice (rd_mem r) (a + SIZE_OFFSET_IN_BYTES) (b + SIZE_OFFSET_IN_BYTES).

Fixpoint eqb_list (a b : list Z) : bool :=
  match a, b with
  | [], [] => true
  | x :: a', y :: b' => (x =? y) && eqb_list a' b'
  | _, _ => false
  end.

(** Strict UTF-8 validity as checked by [bytes.decode("utf-8")]: no overlong forms, no surrogates,
    nothing above U+10FFFF.  [decode] returns the byte string itself (a Python str is represented by
    its UTF-8 encoding, which is injective). *)
Definition cont (b : Z) : bool := (0x80 <=? b) && (b <=? 0xBF).
Fixpoint utf8_valid (l : list Z) : bool :=
  match l with
  | [] => true
  | b :: t =>
    if b <? 0x80 then utf8_valid t
    else if (0xC2 <=? b) && (b <=? 0xDF) then
      match t with c1 :: t' => cont c1 && utf8_valid t' | _ => false end
    else if (0xE0 <=? b) && (b <=? 0xEF) then
      match t with
      | c1 :: c2 :: t' =>
          cont c1 && cont c2 && (if b =? 0xE0 then 0xA0 <=? c1 else true)
          && (if b =? 0xED then c1 <=? 0x9F else true) && utf8_valid t'
      | _ => false
      end
    else if (0xF0 <=? b) && (b <=? 0xF4) then
      match t with
      | c1 :: c2 :: c3 :: t' =>
          cont c1 && cont c2 && cont c3 && (if b =? 0xF0 then 0x90 <=? c1 else true)
          && (if b =? 0xF4 then c1 <=? 0x8F else true) && utf8_valid t'
      | _ => false
      end
    else false
  end.
Definition decode (l : list Z) : res (list Z) := if utf8_valid l then Ok l else Err UnicodeDecodeError.

(** [range(a, b)] *)
Definition zrange (a b : Z) : list Z := map (fun k => a + Z.of_nat k) (seq 0 (Z.to_nat (b - a))).

(** resources.py:191-195 [sub_str] *)
Definition sub_str (r : rawdata) (index : Z) (separator : list Z) : res (list Z) :=
  n <- rawdata_len r ;;
  match find (fun i => eqb_list (rawdata_sub r i (i + zlen separator)) separator) (zrange index n) with
  | Some i => decode (rawdata_sub r index i)
  | None => decode (rawdata_get r index)
  end.

(** resources.py:197-205 [sub_str_list]: the loop, state (index, reversed result) *)
Fixpoint sub_str_list_loop (r : rawdata) (sep lsep : list Z) (index : Z) (is : list Z) : res (list (list Z)) :=
  match is with
  | [] => Ok []
  | i :: t =>
      if (index =? i) && eqb_list (rawdata_sub r i (i + zlen lsep)) lsep then Ok []
      else if eqb_list (rawdata_sub r i (i + zlen sep)) sep then
        s <- decode (rawdata_sub r index i) ;;
        rest <- sub_str_list_loop r sep lsep (i + 1) t ;;
        Ok (s :: rest)
      else sub_str_list_loop r sep lsep index t
  end.
Definition sub_str_list (r : rawdata) (index : Z) (sep lsep : list Z) : res (list (list Z)) :=
  n <- rawdata_len r ;; sub_str_list_loop r sep lsep index (zrange index n).

(** resources.py:207-215 [sub_str_array]: [got] strings collected so far *)
Fixpoint sub_str_array_loop (r : rawdata) (sep : list Z) (size got index : Z) (is : list Z)
  : res (list (list Z)) :=
  match is with
  | [] => Ok []
  | i :: t =>
      if eqb_list (rawdata_sub r i (i + zlen sep)) sep then
        s <- decode (rawdata_sub r index i) ;;
        if got + 1 =? size then Ok [s]
        else rest <- sub_str_array_loop r sep size (got + 1) (i + 1) t ;; Ok (s :: rest)
      else sub_str_array_loop r sep size got index t
  end.
Definition sub_str_array (r : rawdata) (index size : Z) (sep : list Z) : res (list (list Z)) :=
  n <- rawdata_len r ;; sub_str_array_loop r sep size 0 index (zrange index n).

(** ** Instance (resources.py:218-239) *)
Record instance := Instance { in_mem : list Z; in_def : sdef }.
Definition instance_open (mem : list Z) (sd : sdef) : res instance :=
  _ <- check_base mem ;; Ok (Instance mem sd).
Definition instance_len (i : instance) : Z := 1.

(** resources.py:219-228 [__getitem__]: an int or a slice *)
Definition instance_get (x : instance) (index : Z) : res sview :=
  let index := if index <? 0 then index + 1 else index in
  if (1 <=? index) || (index <? 0) then Err IndexError
  else Ok (get_item (in_mem x) (in_def x) index).
Definition instance_slice (x : instance) (s : pyslice) : res (list sview) := Err IndexError.

(** resources.py:234-236 [__getattr__] *)
Definition instance_getattr (x : instance) (name : string) : res Z :=
  getattr (SView (in_def x) (in_mem x) (item_offset (in_def x) 0)) name.
