(** Model of flatdata-py/flatdata/lib/structure.py and of the record packing loops of archive_builder.py *)
From Coq Require Import List ZArith Bool String.
From Verif Require Import PyBase DataAccess.
Import ListNotations.
Local Open Scope Z_scope.

(** structure.py:7-8 [FieldSignature(offset, width, is_signed, dtype)]; dtype (numpy only) is not modelled. *)
Record fsig := FSig { f_name : string; f_off : Z; f_width : Z; f_signed : bool }.

(** A generated structure class (flatdata-generator templates/py/python.jinja2:11-29):
    [_NAME], [_SIZE_IN_BYTES], [_FIELDS] (a dict, insertion = declaration order) and [_FIELD_KEYS],
    a Python *set* of names: its iteration order is arbitrary, so it is kept as a separate list
    [s_keys], any permutation of the field names. *)
Record sdef := SDef { s_name : string; s_size : Z; s_fields : list fsig; s_keys : list string }.

Fixpoint find_field (fs : list fsig) (name : string) : option fsig :=
  match fs with
  | [] => None
  | f :: t => if String.eqb (f_name f) name then Some f else find_field t name
  end.

(** structure.py:11-14: a structure object is (class, memory, byte position). *)
Record sview := SView { v_def : sdef; v_mem : list Z; v_pos : Z }.

(** structure.py:23-24 [_get_value] *)
Definition get_value (v : sview) (f : fsig) : res Z :=
  read_value (v_mem v) (v_pos v * 8 + f_off f) (f_width f) (f_signed f).

(** structure.py:16-21 [__getattr__] (for names that are not Python attributes of the object) *)
Definition getattr (v : sview) (name : string) : res Z :=
  match find_field (s_fields (v_def v)) name with
  | Some f => get_value v f
  | None => Err AttributeError
  end.

(** structure.py:29-31 [__iter__]: iterates the *set* of names *)
Definition struct_iter (v : sview) : res (list Z) := mapM (getattr v) (s_keys (v_def v)).

(** structure.py:33-34 [as_dict] *)
Definition as_dict (v : sview) : res (list (string * Z)) :=
  mapM (fun f => x <- get_value v f ;; Ok (f_name f, x)) (s_fields (v_def v)).

(** structure.py:36-40 [as_list] / [as_tuple] *)
Definition as_list (v : sview) : res (list Z) := mapM (get_value v) (s_fields (v_def v)).

(** ** Records as given by the user: Python dicts from field name to value. *)
Definition record := list (string * pyval).

Fixpoint dict_get {A} (d : list (string * A)) (k : string) : option A :=
  match d with
  | [] => None
  | (k', x) :: t => if String.eqb k' k then Some x else dict_get t k
  end.

Definition dict_mem {A} (d : list (string * A)) (k : string) : bool :=
  match dict_get d k with Some _ => true | None => false end.

(** archive_builder.py:127-143 [__validate_structure_fields(name, struct, initializer)] *)
Definition validate_fields (name : string) (struct : record) (init : sdef) : res unit :=
  _ <- mapM (fun key => if dict_mem struct key then Ok tt else Err (MissingFieldError key name)) (s_keys init) ;;
  _ <- mapM (fun kv => if existsb (String.eqb (fst kv)) (s_keys init) then Ok tt
                       else Err (UnknownFieldError (fst kv) name)) struct ;;
  Ok tt.

(** One iteration of the field loops archive_builder.py:157-159, 177-179, 231-233:
    [write_value(bout, field.offset + base, field.width, field.is_signed, value[key])] *)
Definition write_field (base : Z) (value : record) (bout : list Z) (f : fsig) : res (list Z) :=
  match dict_get value (f_name f) with
  | None => Err KeyError
  | Some x => write_pyval bout (f_off f + base) (f_width f) (f_signed f) x
  end.

(** archive_builder.py:156-159 / 176-179: bytes of one record. *)
Definition pack_record (sd : sdef) (value : record) : res (list Z) :=
  foldM (write_field 0 value) (zeros (Z.to_nat (s_size sd))) (s_fields sd).

(** archive_builder.py:224-233: bytes of one multivector element: type index byte, then the record
    with every field shifted by 8 bits. *)
Definition pack_element (type_index : Z) (sd : sdef) (value : record) : res (list Z) :=
  let size := s_size sd + 1 in
  tb <- py_to_bytes type_index 1 false ;;
  t0 <- py_get tb 0 ;;
  bout <- py_set (zeros (Z.to_nat size)) 0 t0 ;;
  foldM (write_field 8 value) bout (s_fields sd).
