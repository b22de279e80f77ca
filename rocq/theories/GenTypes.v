(** Model of the value types of flatdata-generator: tree/helpers/basictype.py,
    tree/nodes/trivial/{constant,enumeration,enumeration_value}.py *)
From Coq Require Import List ZArith Bool String Ascii.
From Verif Require Import PyBase PyText.
Import ListNotations.
Local Open Scope Z_scope.

(** basictype.py:7-17 [_WIDTH]; its keys are exactly grammar.BASIC_TYPES (grammar.py:21) *)
Definition storage_width (name : string) : option Z :=
  match name with
  | "bool" => Some 1 | "u8" => Some 8 | "i8" => Some 8 | "u16" => Some 16 | "i16" => Some 16
  | "u32" => Some 32 | "i32" => Some 32 | "u64" => Some 64 | "i64" => Some 64 | _ => None
  end%string.

(** basictype.py:19-21 *)
Definition is_basic_type (name : string) : bool :=
  match storage_width name with Some _ => true | None => false end.

Record btype := BT { bt_name : string; bt_width : Z }.

(** basictype.py:23-30 [BasicType.__init__] *)
Definition make_btype (name : string) (width : option Z) : res btype :=
  match storage_width name with
  | None => Err AssertionError
  | Some w => let w' := match width with Some x => x | None => w end in
              if w' >? w then Err (InvalidWidthError w' name) else Ok (BT name w')
  end.

(** basictype.py:40-42 [is_signed]: [name[0] == 'i'] *)
Definition name_signed (name : string) : bool :=
  match name with String "i" _ => true | _ => false end.
Definition bt_signed (t : btype) : bool := name_signed (bt_name t).

(** basictype.py:44-53 [bits_required] *)
Definition bits_required (t : btype) (v : Z) : res Z :=
  if bt_signed t then
    (if v >=? 0 then Ok (bit_length v + 1) else Ok (bit_length (- v - 1) + 1))
  else if v >=? 0 then Ok (bit_length v) else Err (InvalidSignError v).

(** basictype.py:55-58 [value_range]; [2 ** (0 - 1)] is a float, which range() rejects *)
Definition value_range (t : btype) : res (list Z) :=
  if bt_signed t then
    (if bt_width t <? 1 then Err TypeError
     else Ok (zrange (- 2 ^ (bt_width t - 1)) (2 ^ (bt_width t - 1))))
  else if bt_width t <? 0 then Err TypeError else Ok (zrange 0 (2 ^ bt_width t)).

(** constant.py:5-11 [Constant.__init__]: name, type name and literal as parsed *)
Definition make_constant (name type_name literal : string) : res Z :=
  v <- py_int0 literal ;;
  t <- make_btype type_name None ;;
  b <- bits_required t v ;;
  if b >? bt_width t then Err (InvalidConstantValueError name v) else Ok v.

(** enumeration_value.py:3-12: (name, value, auto_generated) *)
Record enumval := EV { ev_name : string; ev_value : Z; ev_auto : bool }.

(** node.py:203-221 [insert] restricted to fresh nodes: SymbolRedefinition if the name is taken *)
Definition insert_ev (children : list enumval) (v : enumval) : res (list enumval) :=
  if existsb (fun c => String.eqb (ev_name c) (ev_name v)) children
  then Err (SymbolRedefinition (ev_name v)) else Ok (children ++ [v]).

Definition zmem (x : Z) (l : list Z) : bool := existsb (Z.eqb x) l.

(** enumeration.py:22-32: the assignment loop.  [cur] is current_assigned_value, [seen] unique_values. *)
Fixpoint assign_values (ename : string) (vals : list (string * option string)) (cur : Z)
         (seen : list Z) (children : list enumval) : res (list Z * list enumval) :=
  match vals with
  | [] => Ok (seen, children)
  | (name, lit) :: t =>
      cur' <- match lit with Some l => py_int0 l | None => Ok cur end ;;
      if zmem cur' seen then Err (DuplicateEnumValueError ename cur')
      else
        children' <- insert_ev children (EV name cur' false) ;;
        assign_values ename t (cur' + 1) (seen ++ [cur']) children'
  end.

(** enumeration.py:39: ["UNKNOWN_VALUE_" + str(v).replace("-", "MINUS_")]; str(v) has a '-' only in front *)
Definition unknown_name (v : Z) : string :=
  ("UNKNOWN_VALUE_" ++ (if (v <? 0)%Z then "MINUS_" ++ py_str (- v) else py_str v))%string.

(** enumeration.py:37-40 *)
Definition add_missing (seen : list Z) (children : list enumval) (range : list Z) : res (list enumval) :=
  foldM (fun cs v => if zmem v seen then Ok cs else insert_ev cs (EV (unknown_name v) v true)) children range.

(** enumeration.py:42-46: the loop over the *set* of values, in some order *)
Definition check_values (ename : string) (t : btype) (order : list Z) : res unit :=
  foldM (fun _ v => b <- bits_required t v ;;
                    if b >? bt_width t then Err (InvalidEnumValueError ename v) else Ok tt) tt order.

(** enumeration.py:14-48 [Enumeration.create].  [set_order] is the order in which Python iterates
    the set [unique_values]: any permutation. *)
Definition create_enum (set_order : list Z -> list Z) (name type_name : string) (width : option Z)
           (vals : list (string * option string)) : res (btype * list enumval) :=
  t <- make_btype type_name width ;;
  '(seen, children) <- assign_values name vals 0 [] [] ;;
  if zlen vals * 2 + 256 <? 2 ^ bt_width t then Err (SparseEnumError name (bt_width t))
  else
    range <- value_range t ;;
    children' <- add_missing seen children range ;;
    _ <- check_values name t (set_order seen) ;;
    match seen with
    | [] => Err UnboundLocalError        (* line 47 reads bits_required, unbound without values *)
    | _ => Ok (t, children')
    end.
