(** Model of opening and building archives in C++: flatdata-cpp/src/Archive.cpp, ArchiveBuilder.cpp, include/flatdata/Archive.h and the
    code generated from templates/cpp/archive.jinja2.

    A storage is a [store] whose names are paths (components separated by '/'), the directories that exist, and a path prefix
    ("" or ending in '/'): MemoryResourceStorage.h:23-30, 64-68, FileResourceStorage.h:116-120.
    Simplification: the file storage remembers what it has mapped per directory object, here once for all of them. *)
From Coq Require Import List ZArith Bool String.
From Verif Require Import PyBase DataAccess Structure Resources Builder Archive Codecs Streams CppStore.
Import ListNotations.
Local Open Scope string_scope.
Local Open Scope Z_scope.

(** A class generated for an archive.  The types of resources (templates/cpp/resource.jinja2:1-17): an instance, a vector of elements, a
    multivector with its index width and the sizes of its types, raw data. *)
Inductive ckind : Type := KInst (size : nat) | KVec (t : etype) | KMulti (w : Z) (types : list nat) | KRaw.
Record cres := CRes { c_name : string; c_schema : list Z; c_kind : ckind; c_optional : bool; c_max : option Z }.
Inductive carch : Type := CArch (name : string) (schema : list Z) (resources : list cres) (subs : list (string * (bool * carch))).

(** What a member of an opened archive is: the memory of an instance, a view, raw data *)
Inductive cvalue : Type := VInst (mem : list Z) | VVec (v : aview) | VMulti (m : maview) | VRaw (d : desc).
(** An archive object: whether the signature was read, [m_is_open], the members ([None]: not assigned) *)
Inductive carchive : Type :=
| COpened (signed is_open : bool) (members : list (string * option cvalue)) (subs : list (string * option carchive)).
Definition is_open (a : carchive) : bool := match a with COpened _ b _ _ => b end.

(** internal/ArchiveUtils.h:15-19 *)
Definition signature_name (name : string) : string := name ++ ".archive".

(** ResourceStorage.inl:116-124 [read<T>] with the [ValueCreator]s :22-88 *)
Definition cpp_read_value (p : policy) (k : ckind) (st : store) (name : string) (schema : list Z) : store * option cvalue :=
  match k with
  | KInst _ => let (st, d) := cpp_read_resource p st name schema in (st, d <== d ;; Some (VInst (d_mem d)))
  | KVec t => let (st, d) := cpp_read_resource p st name schema in (st, d <== d ;; Some (VVec (av_create t (d_mem d) (d_size d))))
  | KMulti w _ => let (st, m) := cpp_read_multi p w st name schema in (st, m <== m ;; Some (VMulti m))
  | KRaw => let (st, d) := cpp_read_resource p st name schema in (st, d <== d ;; Some (VRaw d))
  end.
(** [size()] of a member; instances have none (a limit on one does not compile) *)
Definition value_size (v : cvalue) : Z :=
  match v with VInst _ => 0 | VVec v => av_size v | VMulti m => ma_size m | VRaw d => d_size d end.

(** archive.jinja2:149-154 for one resource, with Archive.h:185-213 [read_resource] *)
Definition load_one (p : policy) (path : string) (r : cres) (st : store) (open : bool) : store * option cvalue * bool :=
  let (st, v) := cpp_read_value p (c_kind r) st (path ++ c_name r) (c_schema r) in
  let open := match v with Some _ => open | None => if c_optional r then open else false end in
  let open := match c_max r with
              | None => open
              | Some m => open && match v with None => true | Some v => value_size v <=? m end
              end in
  (st, v, open).
Fixpoint load_members (p : policy) (path : string) (rs : list cres) (st : store) (open : bool) : store * list (string * option cvalue) * bool :=
  match rs with
  | [] => (st, [], open)
  | r :: rs => let '(st, v, open) := load_one p path r st open in
               let '(st, vs, open) := load_members p path rs st open in (st, (c_name r, v) :: vs, open)
  end.

(** ResourceStorage::directory: MemoryResourceStorage.h:175-186, FileResourceStorage.h:139-143, 77-101 *)
Definition has_directory (dirs : list string) (path : string) : bool := existsb (String.eqb path) dirs.

(** archive.jinja2:129-136 [open], Archive.cpp:31-47 [initialize], archive.jinja2:144-159 [load_contents] and Archive.h:215-252
    [load_archive] *)
Fixpoint cpp_open (p : policy) (dirs : list string) (a : carch) (st : store) (path : string) {struct a} : store * carchive :=
  match a with
  | CArch name schema rs subs =>
      let (st, sig) := cpp_read_resource p st (path ++ signature_name name) schema in
      let signed := match sig with Some _ => true | None => false end in
      let '(st, members, open) := load_members p path rs st true in
      let '(st, archives, open) :=
        (fix load_archives (subs : list (string * (bool * carch))) (st : store) (open : bool) : store * list (string * option carchive) * bool :=
           match subs with
           | [] => (st, [], open)
           | (n, (optional, sub)) :: subs =>
               let (st, v) := if has_directory dirs (path ++ n ++ "/")
                              then let (st, r) := cpp_open p dirs sub st (path ++ n ++ "/") in (st, if is_open r then Some r else None)
                              else (st, None) in
               let open := match v with Some _ => open | None => if optional then open else false end in
               let '(st, vs, open) := load_archives subs st open in (st, (n, v) :: vs, open)
           end) subs st open in
      (st, COpened signed (open && signed) members archives)
  end.

(** ** Building *)

(** ResourceStorage::exists: FileResourceStorage.h:145-151 (a file or a directory), MemoryResourceStorage.h:252-260 with :190-203 (a stream,
    something read, or the beginning of a path).  Simplification: both together. *)
Definition storage_exists (dirs : list string) (st : store) (name : string) : bool :=
  match dict_get (st_names st) name, dict_get (st_cache st) name with
  | None, None => has_directory dirs (name ++ "/") || existsb (fun n => String.prefix (name ++ "/") (fst n)) (st_names st)
  | _, _ => true
  end.

(** archive.jinja2:206-217 [open], ArchiveBuilder.cpp:55-68 [initialize]: [Some created], or [None] if the builder is not open *)
Definition builder_open (p : policy) (dirs : list string) (a : carch) (st : store) (path : string) : store * option bool :=
  match a with
  | CArch name schema _ _ =>
      if negb (storage_exists dirs st (path ++ signature_name name))
      then (cpp_write_resource p st (path ++ signature_name name) schema [], Some true)
      else let (st, sig) := cpp_read_resource p st (path ++ signature_name name) schema in
           (st, match sig with Some _ => Some false | None => None end)
  end.

(** A growing vector or multivector *)
Inductive writer : Type := WVec (t : etype) (v : evector) | WMulti (w : Z) (m : mvector).

(** All builder objects (by the path of their directory), and the vectors being written (by the path of the resource) *)
Record session := Session { se_store : store; se_dirs : list string; se_builders : list (string * (carch * bool)); se_writers : list (string * writer) }.

(** What a user calls: the accessor of a sub-archive; a setter; [start_...]; [grow] on a vector, followed by writes through the mutator;
    [grow] on a multivector, followed by [add] and writes; [close] *)
Inductive bop : Type :=
| BSub (path name : string)
| BSet (path name : string) (data : list Z)
| BStart (path name : string)
| BGrow (file : string) (f : filler)
| BBucket (file : string)
| BAdd (file : string) (ti : Z) (size : nat) (f : filler)
| BClose (file : string).

Definition find_resource (a : carch) (name : string) : option cres :=
  match a with CArch _ _ rs _ => find (fun r => String.eqb (c_name r) name) rs end.
Definition find_sub (a : carch) (name : string) : option carch :=
  match a with CArch _ _ _ subs => option_map snd (dict_get subs name) end.
Definition without {A} (d : list (string * A)) (k : string) : list (string * A) := filter (fun x => negb (String.eqb (fst x) k)) d.

(** One call.  [Throws]: ArchiveBuilder.cpp:45-53 [check_created].  [Undefined] also stands for calls that do not compile and
    for using objects that do not exist (a builder that is not open, a writer after [close]).  [limit] is [block_limit]. *)
Definition bstep (limit : Z) (p : policy) (s : session) (op : bop) : outcome session :=
  match op with
  | BSub path name =>      (* archive.jinja2:236-246 *)
      match dict_get (se_builders s) path with
      | Some (a, _) =>
          match find_sub a name, dict_get (se_builders s) (path ++ name ++ "/") with
          | Some _, Some _ => Value s
          | Some sub, None =>
              let dirs := if has_directory (se_dirs s) (path ++ name ++ "/") then se_dirs s else (se_dirs s ++ [(path ++ name ++ "/")%string])%list in
              let (st, r) := builder_open p dirs sub (se_store s) (path ++ name ++ "/") in
              Value (Session st dirs (match r with Some c => (se_builders s ++ [((path ++ name ++ "/")%string, (sub, c))])%list | None => se_builders s end) (se_writers s))
          | None, _ => Undefined
          end
      | None => Undefined
      end
  | BSet path name data => (* archive.jinja2:226-232 *)
      match dict_get (se_builders s) path with
      | Some (a, created) =>
          match find_resource a name with
          | Some r =>
              match c_kind r with
              | KMulti _ _ => Undefined
              | _ => if created then Value (Session (cpp_write_resource p (se_store s) (path ++ name) (c_schema r) data) (se_dirs s) (se_builders s) (se_writers s))
                     else Throws
              end
          | None => Undefined
          end
      | None => Undefined
      end
  | BStart path name =>    (* archive.jinja2:219-225 *)
      match dict_get (se_builders s) path with
      | Some (a, created) =>
          match find_resource a name with
          | Some r =>
              match c_kind r with
              | KVec t =>
                  if created then
                    let (st, v) := ev_create p (se_store s) (path ++ name) (c_schema r) in
                    Value (Session st (se_dirs s) (se_builders s) (put (se_writers s) (path ++ name) (WVec t v)))
                  else Throws
              | KMulti w _ =>
                  if created then
                    let (st, m) := mv_create p (se_store s) (path ++ name) (c_schema r) in
                    Value (Session st (se_dirs s) (se_builders s) (put (se_writers s) (path ++ name) (WMulti w m)))
                  else Throws
              | _ => Undefined
              end
          | None => Undefined
          end
      | None => Undefined
      end
  | BGrow file f =>
      match dict_get (se_writers s) file with
      | Some (WVec t v) => match ev_grow limit t (se_store s) v f with
                           | Some (st, v) => Value (Session st (se_dirs s) (se_builders s) (put (se_writers s) file (WVec t v)))
                           | None => Undefined
                           end
      | _ => Undefined
      end
  | BBucket file =>
      match dict_get (se_writers s) file with
      | Some (WMulti w m) => match mv_grow limit w (se_store s) m with
                             | Some (st, m) => Value (Session st (se_dirs s) (se_builders s) (put (se_writers s) file (WMulti w m)))
                             | None => Undefined
                             end
      | _ => Undefined
      end
  | BAdd file ti size f =>
      match dict_get (se_writers s) file with
      | Some (WMulti w m) => match mv_add m ti size f with
                             | Some m => Value (Session (se_store s) (se_dirs s) (se_builders s) (put (se_writers s) file (WMulti w m)))
                             | None => Undefined
                             end
      | _ => Undefined
      end
  | BClose file =>
      match dict_get (se_writers s) file with
      | Some (WVec t v) => Value (Session (fst (ev_close p t (se_store s) v)) (se_dirs s) (se_builders s) (without (se_writers s) file))
      | Some (WMulti w m) => match mv_close limit p w (se_store s) m with
                             | Some (st, _) => Value (Session st (se_dirs s) (se_builders s) (without (se_writers s) file))
                             | None => Undefined
                             end
      | None => Undefined
      end
  end.
Fixpoint bsteps (limit : Z) (p : policy) (s : session) (ops : list bop) : outcome session :=
  match ops with
  | [] => Value s
  | op :: ops => match bstep limit p s op with Value s => bsteps limit p s ops | Throws => Throws | Undefined => Undefined end
  end.
(** A builder for the archive at the root of a storage *)
Definition begin_session (p : policy) (dirs : list string) (a : carch) (st : store) : session :=
  let (st, r) := builder_open p dirs a st "" in Session st dirs (match r with Some c => [("", (a, c))] | None => [] end) [].
