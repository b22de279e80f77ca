# Fourth batch: the C++ library (Streams, CppStore), and the acceptance rules of the schema builder (C69, C70)
MUTANTS = [
("CS1","Streams","os_write","os_pos s + List.length d) (os_bytes s)) (os_pos s + List.length d)","os_pos s + List.length d) (os_bytes s)) (os_pos s)","the stream position does not advance",["C71","C72"]),
("CS3","Streams","create_stream","put (st_names st) name i","((name, i) :: st_names st)","names are duplicated instead of replaced",["C71"]),
("CS4","CppStore","cpp_write_resource","let st := write_stream st i (zeros PADDING_SIZE) in\n  cpp_write_schema","cpp_write_schema","no padding",["C71"]),
("CS5","CppStore","cpp_write_schema","(name ++ \".schema\") in write_stream","name in write_stream","the schema overwrites the resource",["C71"]),
("CS6","CppStore","cpp_read_resource","if negb ((size + 8 + 8) mod 2 ^ 64 =? zlen data) then None else","","the size in the file is not checked",["C71"]),
("CS7","CppStore","cpp_read_resource","if negb ((size + 8 + 8) mod 2 ^ 64 =? zlen data) then None else","if negb ((size + 8) mod 2 ^ 64 =? zlen data) then None else","the padding is not counted",["C71"]),
("CS8","CppStore","cpp_read_resource","if negb (eqb_list schema expected) then None else","","the schema is not checked",["C71"]),
("CS9","CppStore","cpp_read_resource","if zlen data <? 8 + 8 then None else","if zlen data <=? 8 + 8 then None else","empty resources are not read",["C71"]),
("CS10","CppStore","handle_write","(h_size h + zlen d)","(zlen d)","only the last flush counts",["C72"]),
("CS11","CppStore","handle_close","let st := seek_stream st (h_stream h) in","","the size is appended instead of put in front",["C72"]),
("CS12","CppStore","ev_flush","firstn (List.length (ev_data v) - PADDING_SIZE) (ev_data v)","ev_data v","the padding is flushed with the data",["C72"]),
("CS13","CppStore","ev_flush","(st, EVector (zeros PADDING_SIZE) h (ev_size v))","(st, EVector (ev_data v) h (ev_size v))","flushed data stays in memory",["C72"]),
("CS14","CppStore","ev_grow","fill_at f (old - PADDING_SIZE)","fill_at f old","the new element is written behind the padding",["C72"]),
("CS15","CppStore","ev_close","let (st, v) := ev_flush st v in\n  let (st, d) := handle_close p st (ev_handle v) in\n  (st, d <== d ;; Some (av_create t","let (st, d) := handle_close p st (ev_handle v) in\n  (st, d <== d ;; Some (av_create t","the last elements are not flushed on close",["C72"]),
("CS16","CppStore","ev_create","let st := cpp_write_schema p st name schema in\n  let (st, h) := handle_create p st name schema in (st, EVector","let (st, h) := handle_create p st name schema in (st, EVector","no schema is written",["C72"]),
("CS17","CppStore","vec_grow","vec_size t v - 1","vec_size t v - 2","the last but one element is changed",["C73"]),
("CS18","CppStore","vec_pop","resize v (List.length v - e_size t)","resize v (List.length v - 1)","one byte is removed",["C73"]),
("CS19","CppStore","vec_view","av_create t v (zlen v - Z.of_nat PADDING_SIZE)","av_create t v (zlen v)","the view includes the padding",["C73"]),
("CS20","CppStore","mv_add_to_index","(mv_flushed m + zlen (mv_data m) - Z.of_nat PADDING_SIZE)","(zlen (mv_data m) - Z.of_nat PADDING_SIZE)","positions restart after a flush",["C74"]),
("CS21","CppStore","mv_flush","(mv_flushed m + Z.of_nat n)","(mv_flushed m)","flushed bytes are not counted",["C74"]),
("CS22","CppStore","mv_add","1 + old - PADDING_SIZE","old - PADDING_SIZE","the element overwrites its type",["C74"]),
("CS23","CppStore","mv_close","r <== mv_add_to_index limit w st m ;;\n  let (st, m) := mv_flush (fst r) (snd r) in","let (st, m) := mv_flush st m in","no sentinel in the index",["C74"]),
("CS24","CppStore","mv_grow","else (st, m) in mv_add_to_index limit w st m.","else (st, m) in Some (st, m).","buckets are not indexed",["C74"]),
("CS25","CppStore","for_each_from","for_each_from fuel types mem (data + 1 + Z.of_nat n) stop","for_each_from fuel types mem (data + Z.of_nat n) stop","the type byte is not skipped",["C74"]),
("CS26","CppStore","iter_next","if ti =? wanted then","if true then","an iterator visits all types",["C74"]),
("CS27","CppStore","for_each_from","| None => Throws\n            | Some n => match for_each_from","| None => Value []\n            | Some n => match for_each_from","unknown types end the bucket silently",["C74"]),
("CS28","CppStore","av_create","if e_overlap t && negb (n =? 0) then n - 1 else n","n","the sentinel counts as an element",["C75"]),
("CS29","CppStore","av_at","skipn (e_size t * i) (av_mem v)","skipn i (av_mem v)","elements are addressed by bytes",["C75"]),
("CS30","CppStore","av_skip_last","Z.to_nat (av_size v - Z.of_nat count)","count","skip_last keeps what it should skip",["C75"]),
("CS31","CppStore","av_slice_after","(av_size v - Z.of_nat pos)","(av_size v)","slice_after keeps the length",["C75"]),
("CS32","CppStore","av_bytes","(av_size v + if e_overlap t then 1 else 0)","(av_size v)","the last range of a slice loses its end",["C75"]),
("CS33","CppStore","cpp_read_multi","cpp_read_resource p st (name ++ \"_index\") (ascii_bytes \"index(\" ++ schema ++ ascii_bytes \")\")","cpp_read_resource p st (name ++ \"_index\") schema","the index is read with the data's schema",["C74"]),
("GA1","GenBuild","check_range","else match children_like f is_invalid_ref with [] => Ok tt | _ => Err (OptionalRange name) end","else Ok tt","optional ranges are accepted",["C70"]),
("GA2","GenBuild","check_range","children_like p is_field) then Err (InvalidRangeName name)","children_like p is_invalid_ref) then Err (InvalidRangeName name)","a range may have the name of a field",["C70"]),
("GA3","GenBuild","check_range_ref","if has_range s then Err (InvalidRangeReference (target r)) else Ok tt","Ok tt","ranges outside vectors are accepted",["C70"]),
("GA4","GenBuild","check_const_refs_at",">? 1 then Err (DuplicateInvalidValueReference n)",">? 2 then Err (DuplicateInvalidValueReference n)","two optional values per field",["C70"]),
("GA5","GenBuild","create_archive","t <- insert_all t (map create_resource (pa_resources p)) ;;\n  insert_all t (map create_bound (pa_bound p)).","insert_all t (map create_resource (pa_resources p)).","bound resources are dropped",["C69"]),
("GA6","GenBuild","create_structure","insert_all t (map create_field (ps_fields p))","insert_all t (rev (map create_field (ps_fields p)))","fields in reverse order",["C69"]),
]
