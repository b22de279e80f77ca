(** Model of flatdata-py/flatdata/lib/resource_storage.py, file_resource_writer.py and archive_builder.py.

    Effects are explicit: every operation maps a builder state to a new state and a result, so that the
    state reached when an exception is raised is visible. *)
From Coq Require Import List ZArith Bool String.
From Verif Require Import PyBase DataAccess Structure.
Import ListNotations.

Local Open Scope string_scope.
Local Open Scope Z_scope.

(** ** Archive types as the generator emits them (templates/py/python.jinja2:38-100).
    Strings that are written to disk (schemas) are their UTF-8 bytes. *)
Inductive container : Type :=
| CInstance (sd : sdef)
| CVector (sd : sdef)
| CMultivector (index_type : sdef) (types : list sdef)
| CRawData
| CArchive (a : adef)
with rsig : Type := RSig (c : container) (schema : list Z) (optional : bool)
with adef : Type := ADef (name : string) (schema : list Z) (resources : list (string * rsig)).

Definition r_container (r : rsig) := let (c, _, _) := r in c.
Definition r_schema (r : rsig) := let (_, s, _) := r in s.
Definition r_optional (r : rsig) := let (_, _, o) := r in o.
Definition a_name (a : adef) := let (n, _, _) := a in n.
Definition a_schema (a : adef) := let (_, s, _) := a in s.
Definition a_resources (a : adef) := let (_, _, r) := a in r.

(** ** File system effects.  file_resource_writer.py:27-57: [open(name,'wb')] creates or truncates the file,
    [write] appends at the handle's position (the handle is fresh, so: appends).  A resource's file is
    only ever written through the handle opened last for it, see [st_get]. *)
Inductive fsop : Type := OOpen (name : string) | OWrite (name : string) (data : list Z).

(** A directory: file name -> contents. *)
Definition fs := list (string * list Z).

Fixpoint fs_put (d : fs) (k : string) (x : list Z) : fs :=
  match d with
  | [] => [(k, x)]
  | (k', y) :: t => if String.eqb k' k then (k', x) :: t else (k', y) :: fs_put t k x
  end.

Definition fs_content (d : fs) (k : string) : list Z :=
  match dict_get d k with Some x => x | None => [] end.

Definition apply_op (d : fs) (o : fsop) : fs :=
  match o with
  | OOpen n => fs_put d n []
  | OWrite n x => fs_put d n (fs_content d n ++ x)
  end.

Definition apply_ops (d : fs) (ops : list fsop) : fs := fold_left apply_op ops d.

(** ** State.  resource_storage.py:27-43, 96-99: [_store] maps names to resource objects; each has
    in-memory [data] and a [valid] flag.  [b_written] is [_resources_written] (archive_builder.py:74);
    [b_ops] the file system effects so far, oldest first. *)
Record robj := RObj { o_data : list Z; o_valid : bool }.
Record bstate := BState { b_store : list (string * robj); b_written : list string; b_ops : list fsop }.

Definition M (A : Type) : Type := bstate -> bstate * res A.
Definition retM {A} (x : A) : M A := fun s => (s, Ok x).
Definition liftM {A} (r : res A) : M A := fun s => (s, r).
Definition bindM {A B} (m : M A) (f : A -> M B) : M B :=
  fun s => let (s', r) := m s in match r with Ok a => f a s' | Err e => (s', Err e) end.
Notation "x <== m ;; k" := (bindM m (fun x => k)) (at level 61, m at next level, right associativity).

Fixpoint iterM {A} (f : A -> M unit) (l : list A) : M unit :=
  match l with
  | [] => retM tt
  | x :: t => _ <== f x ;; iterM f t
  end.

Fixpoint store_put (d : list (string * robj)) (k : string) (x : robj) : list (string * robj) :=
  match d with
  | [] => [(k, x)]
  | (k', y) :: t => if String.eqb k' k then (k', x) :: t else (k', y) :: store_put t k x
  end.

Definition emit (o : fsop) : M unit :=
  fun s => (BState (b_store s) (b_written s) (b_ops s ++ [o]), Ok tt).

Definition put_obj (name : string) (r : robj) : M unit :=
  fun s => (BState (store_put (b_store s) name r) (b_written s) (b_ops s), Ok tt).

(** The object a caller holds is the one stored under its name (no other object of the same name is
    created while it is in use), so objects are addressed by name. *)
Definition get_obj (name : string) : M robj :=
  fun s => match dict_get (b_store s) name with
           | Some r => (s, Ok r)
           | None => (s, Err KeyError)
           end.

(** resource_storage.py:105-115 [ResourceStorage.get] with :27-43 and file_resource_writer.py:27-47: a new
    object replaces any previous one of that name (whose handle, if still open, has nothing buffered
    and is dropped); the file is created or truncated.
    Simplification: names and the target path are non-empty (else MissingResourceName /
    ArchivePathNotProvidedError before any effect); a writer is configured; OS errors are not modelled. *)
Definition st_get (name : string) : M unit :=
  _ <== emit (OOpen name) ;; put_obj name (RObj [] true).

(** resource_storage.py:49-56 [write] for bytes / bytearray *)
Definition st_write (name : string) (data : list Z) : M unit :=
  r <== get_obj name ;; put_obj name (RObj (o_data r ++ data) (o_valid r)).

(** resource_storage.py:62-65 [add_size] *)
Definition st_add_size (name : string) : M unit :=
  r <== get_obj name ;;
  h <== liftM (py_to_bytes (zlen (o_data r)) 8 false) ;;
  put_obj name (RObj (h ++ o_data r) (o_valid r)).

(** resource_storage.py:67-69 [add_padding] *)
Definition st_add_padding (name : string) : M unit :=
  r <== get_obj name ;; put_obj name (RObj (o_data r ++ zeros 8) (o_valid r)).

(** resource_storage.py:75-85 [close] with file_resource_writer.py:49-57 (empty data is not written) *)
Definition st_close (name : string) : M unit :=
  r <== get_obj name ;;
  _ <== match o_data r with [] => retM tt | _ => emit (OWrite name (o_data r)) end ;;
  put_obj name (RObj [] false).

(** ** archive_builder.py *)

(** archive_builder.py:86-95 [_write_raw_data] *)
Definition write_raw_data (name : string) (data : list Z) : M unit :=
  _ <== st_get name ;; _ <== st_write name data ;; st_close name.

Definition add_written (name : string) : M unit :=
  fun s => (BState (b_store s) (b_written s ++ [name]) (b_ops s), Ok tt).

(** archive_builder.py:64-74 constructor, :106-113 *)
Definition archive_file (a : adef) : string := a_name a ++ ".archive".
Definition builder_new (a : adef) : M unit :=
  _ <== write_raw_data (archive_file a) (zeros 16) ;;
  _ <== write_raw_data (archive_file a ++ ".schema") (a_schema a) ;;
  add_written (archive_file a).

Definition bstate0 : bstate := BState [] [] [].

(** Values a user passes to [set].  Multivector elements are (structure name, attributes). *)
Inductive setval : Type :=
| SRecord (r : record)
| SRecords (rs : list record)
| SBuckets (bs : list (list (string * record)))
| SBytes (b : list Z)
| SOther.

(** archive_builder.py:145-161 [__set_instance] *)
Definition set_instance (name : string) (sd : sdef) (value : record) : M unit :=
  _ <== liftM (validate_fields name value sd) ;;
  bout <== liftM (pack_record sd value) ;;
  st_write name bout.

(** archive_builder.py:163-180 [__set_vector]: validate all, then pack and append one by one *)
Definition set_vector (name : string) (sd : sdef) (vs : list record) : M unit :=
  _ <== iterM (fun v => liftM (validate_fields name v sd)) vs ;;
  iterM (fun v => bout <== liftM (pack_record sd v) ;; st_write name bout) vs.

(** archive_builder.py:194-196: the dict [initializers]: a later type of the same name wins *)
Fixpoint find_type (i : Z) (types : list sdef) (n : string) : option (Z * sdef) :=
  match types with
  | [] => None
  | t :: ts => match find_type (i + 1) ts n with
               | Some r => Some r
               | None => if String.eqb (s_name t) n then Some (i, t) else None
               end
  end.

(** archive_builder.py:198-212: structure name and field checks of one element *)
Definition validate_element (name : string) (types : list sdef) (e : string * record) : res unit :=
  match filter (fun t => String.eqb (s_name t) (fst e)) types with
  | [] => Err (UnknownStructureError (fst e))
  | [t] => validate_fields name (snd e) t
  | _ => Ok tt
  end.

(** archive_builder.py:221-235: one bucket; returns the new data point *)
Fixpoint write_bucket (name : string) (types : list sdef) (point : Z) (es : list (string * record)) : M Z :=
  match es with
  | [] => retM point
  | e :: t =>
      match find_type 0 types (fst e) with
      | None => liftM (Err KeyError)
      | Some (ti, sd) =>
          bout <== liftM (pack_element ti sd (snd e)) ;;
          _ <== st_write name bout ;;
          write_bucket name types (point + (s_size sd + 1)) t
      end
  end.

(** archive_builder.py:214-237: all buckets; returns the index data points including the sentinel *)
Fixpoint write_buckets (name : string) (types : list sdef) (point : Z) (bs : list (list (string * record)))
  : M (list Z) :=
  match bs with
  | [] => retM [point]
  | b :: t =>
      point' <== write_bucket name types point b ;;
      rest <== write_buckets name types point' t ;;
      retM (point :: rest)
  end.

Definition index_name (name : string) : string := name ++ "_index".

(** archive_builder.py:21-55 [IndexWriter]; :239-244 *)
Definition write_index (name : string) (size : Z) (points : list Z) : M unit :=
  if size =? 0 then liftM (Err IndexWriterError) else
  _ <== st_get (index_name name) ;;
  _ <== iterM (fun p => b <== liftM (py_to_bytes p size false) ;; st_write (index_name name) b) points ;;
  _ <== st_add_size (index_name name) ;;
  _ <== st_add_padding (index_name name) ;;
  st_close (index_name name).

(** UTF-8 bytes of an ASCII literal *)
Definition ascii_bytes (s : string) : list Z :=
  map (fun c => Z.of_nat (Ascii.nat_of_ascii c)) (list_ascii_of_string s).

(** archive_builder.py:182-249 [__set_multivector] *)
Definition set_multivector (name : string) (schema : list Z) (index_type : sdef) (types : list sdef)
  (value : list (list (string * record))) : M unit :=
  _ <== iterM (iterM (fun e => liftM (validate_element name types e))) value ;;
  points <== write_buckets name types 0 value ;;
  _ <== write_index name (s_size index_type) points ;;
  _ <== write_raw_data (index_name name ++ ".schema") (ascii_bytes "index(" ++ schema ++ ascii_bytes ")")%list ;;
  _ <== add_written name ;;
  add_written (index_name name).

(** archive_builder.py:271-280: the container dispatch.  Simplification: a value of the wrong shape for
    an instance / vector / multivector raises TypeError before anything is appended (the actual
    exception depends on the object).  RawData ignores anything that is not bytes or bytearray
    (resource_storage.py:55); a sub-archive resource writes nothing and raises nothing (:280). *)
Definition set_dispatch (name : string) (sig : rsig) (value : setval) : M unit :=
  match r_container sig, value with
  | CInstance sd, SRecord r => set_instance name sd r
  | CVector sd, SRecords rs => set_vector name sd rs
  | CMultivector it ts, SBuckets bs => set_multivector name (r_schema sig) it ts bs
  | CRawData, SBytes b => st_write name b
  | CRawData, _ => retM tt
  | CArchive _, _ => retM tt
  | _, _ => liftM (Err TypeError)
  end.

(** archive_builder.py:251-285 [set] *)
Definition builder_set (a : adef) (name : string) (value : setval) : M unit :=
  fun s =>
  match dict_get (a_resources a) name with
  | None => (s, Err (UnknownResourceError name))
  | Some sig =>
      if existsb (String.eqb name) (b_written s) then (s, Err ResourceAlreadySetError)
      else
        (_ <== write_raw_data (name ++ ".schema") (r_schema sig) ;;
         _ <== st_get name ;;
         _ <== set_dispatch name sig value ;;
         _ <== st_add_size name ;;
         _ <== st_add_padding name ;;
         _ <== st_close name ;;
         add_written name) s
  end.

(** archive_builder.py:287-291 [finish], resource_storage.py:117-121 *)
Definition builder_finish : M unit :=
  fun s => iterM (fun kr => r <== get_obj (fst kr) ;;
                            if o_valid r then st_close (fst kr) else retM tt) (b_store s) s.

(** A history: calls on one builder; exceptions are caught by the caller, who goes on. *)
Inductive call : Type := Set_ (name : string) (value : setval) | Finish.
Definition run_call (a : adef) (c : call) : M unit :=
  match c with Set_ n v => builder_set a n v | Finish => builder_finish end.
Fixpoint run (a : adef) (cs : list call) (s : bstate) : bstate :=
  match cs with [] => s | c :: t => run a t (fst (run_call a c s)) end.
Definition build (a : adef) (cs : list call) : bstate := run a cs (fst (builder_new a bstate0)).
