# Seventh batch: the inspector's engine, C++ iterators and single structures, the Rust tar storage, differences and sizes again
MUTANTS = [
("EN1","GenEngine","is_user_namespace","is_namespace t && negb (mentions_builtin (t_name t))","is_namespace t","the generator's own namespace counts",["C96"]),
("EN2","GenEngine","find_root_namespace","| _ => Err RuntimeError\n  end.","| n :: _ => Ok n\n  end.","the first of several namespaces is taken",["C96"]),
("EN3","GenEngine","find_root_namespace","| [] => Err RuntimeError","| [] => Ok root","no namespace: the root is taken",["C96"]),
("EN4","GenEngine","module_archive","(t_name n ++ \"_\" ++ archive_name)","(archive_name ++ \"_\" ++ t_name n)","name parts swapped",["C96"]),
("EN5","GenEngine","module_archive","(t_name n ++ \"_\" ++ archive_name)","(t_name n ++ archive_name)","no underscore between the parts",["C96"]),
("EN6","GenEngine","module_archive","| \"\" => Err TypeError\n  | _ =>","| _ =>","an empty name is not refused",["C96"]),
("EN7","GenEngine","module_archive","| None => Err AttributeError","| None => match g with (_, ClsArchive a) :: _ => Ok a | _ => Err AttributeError end","another archive for an unknown name",["C96"]),
("IT1","CppIter","it_next","to_size_t (p + size).","to_size_t (p + 1).","increment by one byte",["C97"]),
("IT2","CppIter","it_prev","to_size_t (p - size).","to_size_t (p + size).","decrement goes forwards",["C97"]),
("IT3","CppIter","it_next_post","(it_next size p, p).\nDefinition it_prev_post","(it_next size p, it_next size p).\nDefinition it_prev_post","postfix returns the new iterator",["C97"]),
("IT4","CppIter","it_minus","to_size_t (p - to_size_t","to_size_t (p + to_size_t","subtraction adds",["C97"]),
("IT5","CppIter","it_distance","(to_size_t (p - q) / size)","(to_size_t (p - q))","distance in bytes",["C97"]),
("IT6","CppIter","it_distance","(to_size_t (p - q) / size)","(to_size_t (q - p) / size)","distance with the wrong sign",["C97"]),
("IT7","CppIter","it_distance","cast 64 true (to_size_t (p - q) / size)","((p - q) / size)","the distance is computed in signed numbers (the finding is gone)",["C97_distance_behind","C97_distance_refuted"]),
("IT8","CppIter","it_lt","p <? q.","p <=? q.","less is less or equal",["C97"]),
("IT9","CppIter","it_ge","q <=? p.","p <=? q.","greater or equal swapped",["C97"]),
("IT10","CppIter","it_index","Definition it_index (size : Z) (p : address) (index : Z) : address := to_size_t (p + to_size_t (size * to_size_t index))","Definition it_index (size : Z) (p : address) (index : Z) : address := to_size_t (p + to_size_t index)","indexing in bytes",["C97"]),
("IT11","CppIter","it_end","(base + to_size_t (n * size))","(base + to_size_t n)","the end is n bytes from the start",["C97"]),
("IT12","CppIter","it_bound","(count - (step + 1))","(count - step)","lower_bound forgets the middle",["C97"]),
("IT13","CppIter","copy_struct","firstn size source ++ skipn size destination","firstn (size - 1) source ++ skipn (size - 1) destination","the last byte is not copied",["C98"]),
("IT14","CppIter","copy_struct","Some (firstn size source ++ skipn size destination)","Some (firstn size source)","bytes behind are lost",["C98"]),
("IT15","CppIter","hash_struct","hash_from combine 0 size 0 data","hash_from combine 0 (S size) 0 data","the byte behind the structure counts for the hash",["C98"]),
("IT16","CppIter","struct_new","zeros (size + PADDING_SIZE)","zeros size","no padding",["C98"]),
("IT17","CppIter","struct_new","zeros (size + PADDING_SIZE)","(255 :: zeros (size + 7))","not zeroed",["C98"]),
("RT1","RustTar","components","\"/\" :: names","names","the root is no component",["C99"]),
("RT2","RustTar","member_key","match components (tm_path m) with \".\" :: names => names | names => names end","components (tm_path m)","./ is not stripped",["C99"]),
("RT3","RustTar","components","| \".\" :: _ => \".\" :: names\n","","a leading . is dropped everywhere (only paths starting with ./ differ)",["C99"]),
("RT4","RustTar","components","negb (String.eqb c \"\" || String.eqb c \".\")","negb (String.eqb c \".\")","a slash behind a directory makes another path",["C99"]),
("RT5","RustTar","path_join","then a ++ b else a ++ \"/\" ++ b","then a ++ b else a ++ b","no separator",["C99"]),
("RT6","RustTar","path_join","if String.eqb a \"\" || ends_in_slash a","if ends_in_slash a","absolute paths at the top",["C99"]),
("RT7","RustTar","rtar_ranges","if negb (tm_header_size m =? tm_size m) then RErr EIo else","","sparse members are accepted",["C99"]),
("RT8","RustTar","rtar_ranges","(tm_offset m, tm_size m)","(tm_offset m, tm_offset m + tm_size m)","the end is taken as the size",["C99"]),
("RT9","RustTar","range_put","if same_path j k then (j, r) :: t else","if same_path j k then (j, q) :: t else","the first of repeated members is kept",["C99"]),
("RT10","RustTar","rtar_slice","skipn (Z.to_nat (fst r)) tar","tar","data from the start of the file",["C99"]),
("RT11","RustTar","rtar_read","None => RErr EMissing","None => RErr EIo","missing resources are errors",["C99"]),
("RT12","RustTar","rtar_exists","rtar_exists (f : ranges) (sub name : string) : bool := match range_get f (components (path_join sub name))","rtar_exists (f : ranges) (sub name : string) : bool := match range_get f (components name)","exists ignores the directory",["C99"]),
("RT13","RustTar","rtar_subdir","path_join sub dir.","dir.","subdirectories of subdirectories start at the root",["C99"]),
("RT14","RustTar","rtar_store","store_with (rtar_files tar f)","store_with []","archives see no files",["C99"]),
("DF11","CppDiff","show_line","Drop => 45%Z | Add => 43%Z","Drop => 43%Z | Add => 45%Z","signs swapped (again, after tightening)",["C87"]),
("GO19","GoArchive","go_bytes","if open then (fix sum","if negb open then (fix sum","size of sub-archives left out (again, after tightening)",["C85_size"]),
]
