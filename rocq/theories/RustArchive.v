(** Model of opening and building archives in Rust: the code generated from templates/rust/archive.jinja2 and flatdata-rs/lib/src/storage.rs:132-285.

    A storage is a [store] whose names are paths (components separated by '/') and a path prefix ("" or ending in '/'):
    memstorage.rs:85-90, filestorage.rs:72-74 [subdir].
    Simplifications: the file storage remembers what it has mapped per directory object, here once for all of them; directories are not
    modelled (a path that is a directory is not a path of a resource). *)
From Coq Require Import List ZArith Bool String.
From Verif Require Import PyBase DataAccess Structure Resources Builder Archive Codecs Streams CppStore RustStore CppArchive.
Import ListNotations.
Local Open Scope string_scope.
Local Open Scope Z_scope.

(** A generated archive: resources (as for C++) and sub-archives in the order of the schema ([supported_resources]) *)
Inductive rarch : Type := RArch (name : string) (schema : list Z) (members : list rmember)
with rmember : Type := RRes (r : cres) | RSub (name : string) (optional : bool) (a : rarch).
Definition member_name (m : rmember) : string := match m with RRes r => c_name r | RSub n _ _ => n end.

(** What a member of an opened archive is (archive.jinja2:20-38): a reference to a structure, a slice, a view, raw data *)
Inductive rvalue : Type := RVInst (mem : list Z) | RVVec (v : aview) | RVMulti (m : rmview) | RVRaw (d : desc).
Inductive rarchive : Type := ROpened (members : list (string * option rcontent))
with rcontent : Type := RCValue (v : rvalue) | RCArchive (a : rarchive).

Definition rmap {A B} (f : A -> B) (x : rresult A) : rresult B := match x with ROk a => ROk (f a) | RErr e => RErr e | RPanic => RPanic end.
Definition rand_then {A B} (x : rresult A) (f : A -> rresult B) : rresult B := match x with ROk a => f a | RErr e => RErr e | RPanic => RPanic end.

(** templates/rust/structure.jinja2:48-57 [from_bytes_slice]: the assertion fails if there are too few bytes *)
Definition rinstance (size : nat) (d : desc) : rresult rvalue := if d_size d <? Z.of_nat size then RPanic else ROk (RVInst (d_mem d)).

(** archive.jinja2:145-158: the result for a multivector from the results for its index and its data *)
Definition rmulti_result (w : Z) (index data : rresult desc) : rresult rvalue :=
  match index, data with
  | RPanic, _ => RPanic
  | _, RPanic => RPanic
  | ROk i, ROk d => rmap (fun v => RVMulti (RMView v d)) (rfrom_bytes (index_type w) i)
  | RErr EMissing, RErr EMissing => RErr EMissing
  | ROk _, RErr EMissing | RErr EMissing, ROk _ => RErr EMissingData
  | RErr EMissing, RErr x | RErr x, RErr EMissing => RErr x
  | _, RErr x => RErr x
  | RErr x, _ => RErr x
  end.

(** archive.jinja2:129-159: reading one resource *)
Definition rread_value (checks : bool) (p : policy) (k : ckind) (st : store) (name : string) (schema : list Z) : store * rresult rvalue :=
  match k with
  | KVec t => let (st, d) := rust_read_resource checks p st name schema in (st, rand_then d (fun d => rmap RVVec (rfrom_bytes t d)))
  | KInst size => let (st, d) := rust_read_resource checks p st name schema in (st, rand_then d (rinstance size))
  | KRaw => let (st, d) := rust_read_resource checks p st name schema in (st, rmap RVRaw d)
  | KMulti w _ =>
      let (st, i) := rust_read_resource checks p st (name ++ "_index") (ascii_bytes "index(" ++ schema ++ ascii_bytes ")") in
      match i with
      | RPanic => (st, RPanic)
      | _ => let (st, d) := rust_read_resource checks p st name schema in (st, rmulti_result w i d)
      end
  end.
(** archive.jinja2:132, 136, 139, 159: the size given to [check] *)
Definition rvalue_size (v : rvalue) : Z :=
  match v with RVInst _ => 0 | RVVec v => av_size v | RVMulti m => rw_len m | RVRaw d => d_size d end.

(** storage.rs:136-160 [check_optional_resource], :162-186 [check_resource] *)
Definition rcheck {A} (optional : bool) (size : A -> Z) (max : option Z) (x : rresult A) : rresult (option A) :=
  match x, max with
  | RErr EMissing, _ => if optional then ROk None else RErr EMissingData
  | RErr e, _ => RErr e
  | RPanic, _ => RPanic
  | ROk x, None => ROk (Some x)
  | ROk x, Some max => if max <? size x then RErr ETooBig else ROk (Some x)
  end.

(** archive.jinja2:112-173 [open] *)
Fixpoint ropen (checks : bool) (p : policy) (a : rarch) (st : store) (path : string) {struct a} : store * rresult rarchive :=
  match a with
  | RArch name schema members =>
      let (st, sig) := rust_read_resource checks p st (path ++ signature_name name) schema in
      match sig with
      | RErr e => (st, RErr e)
      | RPanic => (st, RPanic)
      | ROk _ =>
          let (st, r) :=
            (fix load (ms : list rmember) (st : store) : store * rresult (list (string * option rcontent)) :=
               match ms with
               | [] => (st, ROk [])
               | m :: ms =>
                   let (st, v) :=
                     match m with
                     | RRes r => let (st, v) := rread_value checks p (c_kind r) st (path ++ c_name r) (c_schema r) in
                                 (st, rmap (option_map RCValue) (rcheck (c_optional r) rvalue_size (c_max r) v))
                     | RSub n optional sub => let (st, v) := ropen checks p sub st (path ++ n ++ "/") in
                                              (st, rmap (option_map RCArchive) (rcheck optional (fun _ => 0) None v))
                     end in
                   match v with
                   | ROk v => let (st, r) := load ms st in (st, rmap (cons (member_name m, v)) r)
                   | RErr e => (st, RErr e)
                   | RPanic => (st, RPanic)
                   end
               end) members st in
          (st, rmap ROpened r)
      end
  end.

(** ** Building *)

(** memstorage.rs:92-105, filestorage.rs:76-78 [exists] *)
Definition rust_exists (st : store) (name : string) : bool :=
  match dict_get (st_names st) name, dict_get (st_cache st) name with None, None => false | _, _ => true end.

(** archive.jinja2:263-270 [new] with storage.rs:246-285 [create_archive] *)
Definition rbuilder_new (p : policy) (a : rarch) (st : store) (path : string) : store * rresult unit :=
  match a with
  | RArch name schema _ =>
      if rust_exists st (path ++ signature_name name) then (st, RErr EIo)
      else (rust_write_resource p st (path ++ signature_name name) schema [], ROk tt)
  end.

(** A growing vector or multivector *)
Inductive rwriter : Type := RWVec (t : etype) (v : revector) | RWMulti (w : Z) (m : rmvector).
(** All builder objects (by the path of their directory), and the vectors being written (by the path of the resource) *)
Record rsession := RSession { rs_store : store; rs_builders : list (string * rarch); rs_writers : list (string * rwriter) }.

Definition rfind_resource (a : rarch) (name : string) : option cres :=
  match a with
  | RArch _ _ ms => match find (fun m => String.eqb (member_name m) name) ms with Some (RRes r) => Some r | _ => None end
  end.
Definition rfind_sub (a : rarch) (name : string) : option rarch :=
  match a with
  | RArch _ _ ms => match find (fun m => String.eqb (member_name m) name) ms with Some (RSub _ _ a) => Some a | _ => None end
  end.

(** One call (the calls are those of C++); in a setter, [data] is the result of [as_bytes].  [None] stands for a panic, for calls that do
    not compile and for using objects that do not exist.  [RErr]: the call returned an error. *)
Definition rstep (checks : bool) (limit : Z) (p : policy) (s : rsession) (op : bop) : option (rsession * rresult unit) :=
  match op with
  | BSub path name =>      (* archive.jinja2:247-256 *)
      a <== dict_get (rs_builders s) path ;;
      sub <== rfind_sub a name ;;
      let (st, r) := rbuilder_new p sub (rs_store s) (path ++ name ++ "/") in
      Some (RSession st (match r with ROk _ => put (rs_builders s) (path ++ name ++ "/") sub | _ => rs_builders s end) (rs_writers s), r)
  | BSet path name data => (* archive.jinja2:186-217 *)
      a <== dict_get (rs_builders s) path ;;
      r <== rfind_resource a name ;;
      match c_kind r with
      | KMulti _ _ => None
      | _ => Some (RSession (rust_write_resource p (rs_store s) (path ++ name) (c_schema r) data) (rs_builders s) (rs_writers s), ROk tt)
      end
  | BStart path name =>    (* archive.jinja2:219-245 *)
      a <== dict_get (rs_builders s) path ;;
      r <== rfind_resource a name ;;
      match c_kind r with
      | KVec t => let (st, v) := rev_create p t (rs_store s) (path ++ name) (c_schema r) in
                  Some (RSession st (rs_builders s) (put (rs_writers s) (path ++ name) (RWVec t v)), ROk tt)
      | KMulti w _ => let (st, m) := rm_create p w (rs_store s) (path ++ name) (c_schema r) in
                      Some (RSession st (rs_builders s) (put (rs_writers s) (path ++ name) (RWMulti w m)), ROk tt)
      | _ => None
      end
  | BGrow file f =>
      match dict_get (rs_writers s) file with
      | Some (RWVec t v) => r <== rev_grow limit t (rs_store s) v f ;;
                            Some (RSession (fst r) (rs_builders s) (put (rs_writers s) file (RWVec t (snd r))), ROk tt)
      | _ => None
      end
  | BBucket file =>
      match dict_get (rs_writers s) file with
      | Some (RWMulti w m) => r <== rm_grow limit w (rs_store s) m ;;
                              Some (RSession (fst r) (rs_builders s) (put (rs_writers s) file (RWMulti w (snd r))), ROk tt)
      | _ => None
      end
  | BAdd file ti size f =>
      match dict_get (rs_writers s) file with
      | Some (RWMulti w m) => m <== rm_add m ti size f ;;
                              Some (RSession (rs_store s) (rs_builders s) (put (rs_writers s) file (RWMulti w m)), ROk tt)
      | _ => None
      end
  | BClose file =>
      match dict_get (rs_writers s) file with
      | Some (RWVec t v) => r <== rev_close checks p t (rs_store s) v ;;
                            Some (RSession (fst r) (rs_builders s) (without (rs_writers s) file), rmap (fun _ => tt) (snd r))
      | Some (RWMulti w m) => r <== rm_close checks limit p w (rs_store s) m ;;
                              Some (RSession (fst r) (rs_builders s) (without (rs_writers s) file), rmap (fun _ => tt) (snd r))
      | None => None
      end
  end.
(** Calls in sequence, as long as they succeed *)
Fixpoint rsteps (checks : bool) (limit : Z) (p : policy) (s : rsession) (ops : list bop) : option (rsession * rresult unit) :=
  match ops with
  | [] => Some (s, ROk tt)
  | op :: ops => r <== rstep checks limit p s op ;;
                 match snd r with ROk _ => rsteps checks limit p (fst r) ops | _ => Some r end
  end.
(** A builder for the archive at the root of a storage *)
Definition rbegin (p : policy) (a : rarch) (st : store) : rsession * rresult unit :=
  let (st, r) := rbuilder_new p a st "" in (RSession st (match r with ROk _ => [("", a)] | _ => [] end) [], r).
