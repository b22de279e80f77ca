# Fifth batch: C++ archives (CppArchive), the Rust library (RustStore) and Rust archives (RustArchive)
MUTANTS = [
("CA1","CppArchive","load_one","if c_optional r then open else false end in\n  let open := match c_max r with","open end in\n  let open := match c_max r with","missing mandatory resources do not matter",["C76"]),
("CA2","CppArchive","load_one","value_size v <=? m","value_size v <? m","a resource of exactly the maximal size is rejected",["C76"]),
("CA3","CppArchive","cpp_open","COpened signed (open && signed) members archives","COpened signed open members archives","archives open without signature",["C76"]),
("CA4","CppArchive","cpp_open","(st, if is_open r then Some r else None)","(st, Some r)","sub-archives that are not complete are shown",["C76"]),
("CA5","CppArchive","cpp_open","| None => if optional then open else false end in\n               let '(st, vs, open) := load_archives","| None => false end in\n               let '(st, vs, open) := load_archives","optional sub-archives are mandatory",["C76"]),
("CA6","CppArchive","builder_open","(st, match sig with Some _ => Some false | None => None end)","(st, match sig with Some _ => Some true | None => None end)","a builder overwrites an existing archive",["C77"]),
("CA7","CppArchive","bstep","let (st, m) := mv_create p (se_store s) (path ++ name) (c_schema r) in","let (st, m) := mv_create p (se_store s) name (c_schema r) in","multivectors of sub-archives are written to the root",["C77"]),
("CA8","CppArchive","bstep","Value (Session st (se_dirs s) (se_builders s) (without (se_writers s) file))\n                             | None","Value (Session (se_store s) (se_dirs s) (se_builders s) (without (se_writers s) file))\n                             | None","closing a multivector writes nothing",["C77"]),
("RS1","RustStore","rust_write_resource","let st := write_stream st i (zeros 8) in\n  rust_write_schema","rust_write_schema","no padding",["C78"]),
("RS2","RustStore","rust_read_resource","if negb (eqb_list schema expected) then RErr ESignature else","","the schema is not checked",["C78","C82"]),
("RS3","RustStore","rust_read_resource","if zlen data <? 8 + 8 then RErr ESize else","if zlen data <=? 8 + 8 then RErr ESize else","empty resources are not read",["C78"]),
("RS4","RustStore","rust_read_resource","if negb ((size + 8 + 8) mod 2 ^ 64 =? zlen data) then RErr ESize else","if zlen data <? (size + 8 + 8) mod 2 ^ 64 then RErr ESize else","data behind the padding is accepted",["C78"]),
("RS5","RustStore","rust_read_resource","| None => (st, RErr EMissing)","| None => (st, RErr EIo)","missing resources are I/O errors",["C78","C82"]),
("RS6","RustStore","rhandle_close","let st := seek_stream st (h_stream h) in","","the size is appended",["C79","C80"]),
("RS7","RustStore","rfrom_bytes","if d_size d <? size then RErr ESize else ROk (AView (d_mem d) ((d_size d - size) / size))","ROk (AView (d_mem d) ((d_size d - size) / size))","empty overlapping slices are accepted",["C79"]),
("RS8","RustStore","rfrom_bytes","if negb (d_size d mod size =? 0) then RErr ESize\n  else","","odd sizes are accepted",["C79"]),
("RS9","RustStore","ras_bytes","(av_size v + if e_overlap t then 1 else 0)","(av_size v)","the last structure of an overlapping slice is not written",["C79"]),
("RS10","RustStore","rvec_view","(if e_overlap t then List.length v - 2 else List.length v - 1)","(List.length v - 1)","the sentinel counts as an element",["C79"]),
("RS11","RustStore","rvec_grow","(rvec_len v) f","(List.length v) f","the new element is not the last one",["C79"]),
("RS12","RustStore","rev_flush","Some (st, REVector (rvec_new t 0) (rv_len v) h)","Some (st, REVector (rv_data v) (rv_len v) h)","flushed elements stay in memory",["C79","C80"]),
("RS13","RustStore","rev_close","if (0 <? rvec_len (rv_data v))%nat || (rv_len v =? 0) then","if (0 <? rvec_len (rv_data v))%nat then","an empty overlapping vector is closed without the zeroed element",["C79"]),
("RS14","RustStore","rev_grow","if limit <? zlen d then rev_flush t st v else Some (st, v)","if limit <? zlen d then Some (st, REVector (rvec_new t 0) (rv_len v) (rv_handle v)) else Some (st, v)","full buffers are dropped",["C79","C80"]),
("RS15","RustStore","rm_flush","rm_flushed m + zlen (rm_data m))).","rm_flushed m)).","flushed bytes are not counted",["C80"]),
("RS16","RustStore","rm_close","r <== rm_add_to_index limit w st m ;;\n  let (st, m) := rm_flush (fst r) (snd r) in","let (st, m) := rm_flush st m in","no sentinel in the index",["C80"]),
("RS17","RustStore","rm_add","(rm_data m ++ zeros (1 + size))%list old ti","(rm_data m ++ zeros (1 + size))%list (S old) ti","the type is written into the element",["C80"]),
("RS18","RustStore","rw_at","(first <=? last) && (last <=? d_size (rw_data v))","(first <=? last)","buckets may end behind the data",["C80"]),
("RS19","RustStore","rw_create","if len <? Z.of_nat n then None else Some n","Some n","elements may end behind their bucket",["C80"]),
("RS20","RustStore","rw_elements","(d_size d - 1 - Z.of_nat n)","(d_size d - Z.of_nat n)","the type byte is not counted",["C80"]),
("RS21","RustStore","rw_slice","(Z.of_nat b - Z.of_nat a)","(Z.of_nat b)","slices keep their length",["C80"]),
("RS22","RustStore","rw_iterate","rw_slice w v 0 last else","rw_slice w v 1 (Z.to_nat (rw_len v)) else","iterating backwards drops the front",["C80"]),
("RS23","RustStore","substring_raw","Some i => firstn i suffix","Some i => firstn (S i) suffix","the terminator is part of the string",["C81"]),
("RS24","RustStore","substring_raw","(List.length data <? start)%nat","(List.length data <=? start)%nat","the position at the end panics",["C81"]),
("RA1","RustArchive","rinstance","if d_size d <? Z.of_nat size then RPanic else","","short structures are accepted",["C82","C84"]),
("RA2","RustArchive","rmulti_result","| ROk _, RErr EMissing | RErr EMissing, ROk _ => RErr EMissingData","| ROk _, RErr EMissing | RErr EMissing, ROk _ => RErr EMissing","half a multivector counts as absent",["C82"]),
("RA3","RustArchive","rcheck","| RErr EMissing, _ => if optional then ROk None else RErr EMissingData","| RErr _, _ => if optional then ROk None else RErr EMissingData","a damaged optional resource counts as absent",["C82","C84"]),
("RA4","RustArchive","rcheck","if max <? size x then RErr ETooBig","if max <=? size x then RErr ETooBig","the limit is exclusive",["C82"]),
("RA5","RustArchive","rcheck","| ROk x, Some max => if max <? size x then RErr ETooBig else ROk (Some x)","| ROk x, Some max => ROk (Some x)","limits are not checked",["C82","C84"]),
("RA6","RustArchive","ropen","rcheck (c_optional r) rvalue_size (c_max r) v","rcheck true rvalue_size (c_max r) v","every resource is optional",["C82"]),
("RA7","RustArchive","ropen","let (st, v) := ropen checks p sub st (path ++ n ++ \"/\") in","let (st, v) := ropen checks p sub st path in","sub-archives are opened in the same directory",["C82"]),
("RA8","RustArchive","ropen","| RErr e => (st, RErr e)\n      | RPanic => (st, RPanic)\n      | ROk _ =>","| RPanic => (st, RPanic)\n      | _ =>","the signature is not checked",["C82"]),
("RA9","RustArchive","rbuilder_new","if rust_exists st (path ++ signature_name name) then (st, RErr EIo)\n      else","","existing archives are overwritten",["C83"]),
("RA10","RustArchive","rbuilder_new","schema [], ROk tt)","[] [], ROk tt)","the signature is written without the schema",["C83"]),
("RA11","RustArchive","rstep","rev_create p t (rs_store s) (path ++ name) (c_schema r) in","rev_create p t (rs_store s) name (c_schema r) in","vectors of sub-archives are written to the root",["C83"]),
("RA12","RustArchive","rstep","r <== rev_close checks p t (rs_store s) v ;;\n                            Some (RSession (fst r)","r <== rev_close checks p t (rs_store s) v ;;\n                            Some (RSession (rs_store s)","closing a vector writes nothing",["C83"]),
("RA13","RustArchive","rstep","m <== rm_add m ti size f ;;\n                              Some (RSession (rs_store s) (rs_builders s) (put (rs_writers s) file (RWMulti w m)), ROk tt)","_ <== rm_add m ti size f ;;\n                              Some (RSession (rs_store s) (rs_builders s) (put (rs_writers s) file (RWMulti w m)), ROk tt)","added elements are lost",["C83"]),
("RA14","RustArchive","rread_value","(name ++ \"_index\") (ascii_bytes \"index(\" ++ schema ++ ascii_bytes \")\") in\n      match i with","(name ++ \"_index\") schema in\n      match i with","the index is read with the data's schema",["C82","C83"]),
("RA15","RustArchive","rvalue_size","RVMulti m => rw_len m","RVMulti m => d_size (rw_data m)","the limit of a multivector is compared with its bytes",["C84"]),
]
