# Sixth batch: Go archives, the difference of schemas in C++, literals, comments, structures, numbers, names and paths of generated code
MUTANTS = [
("GO1","GoArchive","go_descriptor","if zlen d <? 8 + 8 then","if zlen d <? 8 then","resources shorter than size and padding are accepted",["C85"]),
("GO2","GoArchive","go_descriptor","if zlen s =? 0 then GErr GEmptySchema else GOk (d, s)","GOk (d, s)","empty schema files are accepted",["C85"]),
("GO3","GoArchive","go_index_of","| GErr GNoAccess => GOk (None, false)\n      | GErr e => GErr e","| GErr GNoAccess => GOk (None, open)\n      | GErr e => GErr e","a multivector without index is open",["C85"]),
("GO4","GoArchive","go_load","if open && negb (if list_eq_dec","if negb open && negb (if list_eq_dec","schemas are not compared",["C85"]),
("GO5","GoArchive","go_load","GOk (GRes None i (c_optional r) open)","GOk (GRes None i true open)","missing resources are optional",["C85"]),
("GO6","GoArchive","go_open","(path ++ go_lower n ++ \"/\")","(path ++ n ++ \"/\")","sub-archives are found in the directory of their own name",["C85"]),
("GO7","GoArchive","go_open","| GErr GNoAccess => GOk (n, GCSub optional false [])\n","","a missing optional sub-archive is an error",["C85"]),
("GO8","GoArchive","go_bytes","if open then (fix sum","if negb open then (fix sum","size of sub-archives left out",["C85","C86"]),
("GO9","GoArchive","go_close","(g_optional r) false else r)","(g_optional r) true else r)","closing leaves resources open",["C85","C86"]),
("GO10","GoArchive","go_len","go_read_at data 8 0","go_read_at data 8 8","the size is read behind itself",["C86"]),
("GO11","GoArchive","go_position","* Z.of_nat size) mod 2 ^ 64 + 8) mod","* Z.of_nat size) mod 2 ^ 64 + 0) mod","elements start in the size field",["C86"]),
("GO12","GoArchive","go_slice_from","if start <=? stop","if start <? stop","slices exclude their end",["C86"]),
("GO13","GoArchive","go_raw","go_read_at data (Z.to_nat (go_len data)) 8","go_read_at data (Z.to_nat (go_len data)) 0","raw data starts with the size",["C86"]),
("GO14","GoArchive","go_offset","Some (zlen data - 8)","Some (zlen data)","the last bucket contains the padding",["C86"]),
("GO15","GoArchive","go_offset","Some (cast 64 true ((cast 64 true v + 8) mod 2 ^ 64))","Some (cast 64 true v)","offsets without the size field",["C86"]),
("GO16","GoArchive","go_bucket_from","(offset + 1 + Z.of_nat n) next (set_position","(offset + Z.of_nat n) next (set_position","the type byte is not skipped",["C86"]),
("GO17","GoArchive","set_position","(firstn ti ps ++ x :: skipn (S ti) ps)","(firstn ti ps ++ x :: skipn ti ps)","objects are shifted",["C86"]),
("GO18","GoArchive","go_size","Z.quot (go_len data) (Z.of_nat size)","Z.quot (go_len data) (Z.of_nat size) - 1","one element missing",["C86"]),
("DF1","CppDiff","fill_row","Nat.min (left + 1) (up + 1)","(left + 1)","distance not minimal",["C87"]),
("DF2","CppDiff","fill_row","if eq_line x line then Nat.min min_cost diag else","if eq_line x line then min_cost else","equal lines are not used",["C87"]),
("DF3","CppDiff","check","nf cost : nat) : nat * nat :=\n  if entry table ne nf + cost =? entry","nf cost : nat) : nat * nat :=\n  if entry table ne nf =? entry","wrong predecessor",["C87"]),
("DF4","CppDiff","backtrack","Some (Drop, l)\n","Some (Add, l)\n","removed lines are shown as added",["C87"]),
("DF5","CppDiff","mask_back","let n := if changed d then context_lines else lines_to_go in (0 <=? n)%Z :: mask_back","let n := if changed d then context_lines else lines_to_go in (0 <? n)%Z :: mask_back","two lines of context before a change",["C87"]),
("DF6","CppDiff","mask_forward","(m || (0 <=? n)%Z) :: mask_forward","(0 <=? n)%Z :: mask_forward","no context before a change",["C87"]),
("DF7","CppDiff","context_lines","context_lines : Z := 3","context_lines : Z := 2","two lines of context",["C87"]),
("DF8","CppDiff","lines_from","Some (if inside then [line] else [])","Some []","the last line is lost without a line end",["C87"]),
("DF9","CppDiff","create_context","(n mod 64 =? 0)","(n mod 64 =? 1)","defined for 64 lines",["C87"]),
("DF10","CppDiff","show_line","Drop => 45%Z | Add => 43%Z","Drop => 43%Z | Add => 45%Z","signs swapped",["C87"]),
("DF11","CppDiff","print_from","if printed_last then [46%Z; 46%Z; 46%Z; 10%Z] ++ print_from false rest else","if printed_last then print_from false rest else","left out lines are not shown as such",["C87"]),
("LI1","GenLiterals","escape","(replace_with backslash (String backslash (one backslash)) s)","s","backslashes are not escaped",["C88"]),
("LI2","GenLiterals","cpp_join","String backslash \"n\" ++ one quote ++","one quote ++","line ends are lost in C++",["C88"]),
("LI3","GenLiterals","rust_close","one quote ++ \"#\"","one quote","rust literals are not closed",["C88"]),
("LI4","GenLiterals","py_literal","three ++ escape schema ++ three","three ++ schema ++ three","python texts not escaped",["C88"]),
("DO1","GenDocs","line_end","among [10; 11; 12; 13; 28; 29; 30; 133]","among [10]","only newlines end lines",["C89"]),
("DO2","GenDocs","go_doc","(map (append \"// \") (filter","(map (append \"/ \") (filter","go comments with one slash",["C89"]),
("DO3","GenDocs","py_doc","\"# \" ++ remove_first","\"\" ++ remove_first","python comments without #",["C89"]),
("DO4","GenDocs","indent","(first :: map (fun l =>","(map (fun l =>","the first line is lost",["C89"]),
("DO5","GenDocs","rust_line","\"/// \" ++ doc_text r","\"// \" ++ doc_text r","ordinary comments in rust",["C89"]),
("DO6","GenDocs","rust_doc","if String.eqb (last lines \"\") \"///\" then removelast lines else lines","lines","empty last comment line kept",["C89"]),
("DO7","GenDocs","doc_closing","String.eqb t \"\" || String.eqb t \"*/\"","String.eqb t \"\"","the end of the comment is kept",["C89"]),
("ST1","GenStructs","rs_get","if x =? i then None else Some x","Some x","invalid values are shown",["C90"]),
("ST2","GenStructs","rs_set","match v with Some x => Some x | None => gf_invalid g end","v","None cannot be set",["C90"]),
("ST3","GenStructs","rs_eq","if opt_eqb x y then rs_eq t a b else Value false","if opt_eqb x y then Value true else rs_eq t a b","one equal member suffices",["C90"]),
("ST4","GenStructs","rs_fill","Value d => rs_fill t d other","Value d => Value d","only the first member is copied",["C90"]),
("ST5","GenStructs","rs_from_slice","if zlen data <? size\n","if zlen data <=? size\n","slices of the exact size rejected",["C90"]),
("ST6","GenStructs","rs_range","(f_off (gf_sig g) + size * 8)","(f_off (gf_sig g) + size)","range end read from the wrong place",["C90"]),
("ST7","GenStructs","cpp_eq_from","if negb (x =? y) then Value false else","if negb (x =? y) then Value true else","different bytes are equal",["C90"]),
("ST8","GenStructs","cpp_less","if x <? y then","if x <=? y then","less-than of equal members",["C90"]),
("ST9","GenStructs","rs_transmute","else Undefined","else Value v","any value is a variant",["C91"]),
("ST10","GenStructs","rs_new","zeros (Z.to_nat size)","zeros (Z.to_nat (size - 1))","new structures are too small",["C90"]),
("NU1","GenNumbers","threes","negb (is_digit d) | EmptyString => true end || threes t","negb (is_digit d) | EmptyString => true end","only the last group is separated",["C93"]),
("NU2","GenNumbers","separate","if is_digit c && threes t then String c (String \"_\"","if threes t then String c (String \"_\"","an underscore after the sign",["C93"]),
("NU3","GenNumbers","separate","String c (String \"_\" (separate t))","String \"_\" (String c (separate t))","underscores first",["C93"]),
("NA1","GenNames","title","String (if inside then lower_char c else upper_char c)","String (if inside then c else upper_char c)","capitals inside words are kept",["C94"]),
("NA2","GenNames","camel","join \"\" (map","join \"_\" (map","underscores kept",["C94"]),
("NA3","GenNames","snake","lower (underscores Free s)","underscores Free s","capitals kept",["C94","C95"]),
("NA4","GenNames","underscores","Inside => if is_lower c then String c (underscores Inside t) else free","Inside => String c (underscores Inside t)","only one underscore",["C94"]),
("NA5","GenNames","escape","then s ++ \"_\" else s","then s else s","keywords not escaped",["C94"]),
("NA6","GenNames","rust_escaped","\"while\"; \"yield\"","\"while\"","a keyword is forgotten",["C94"]),
("NA7","GenNames","rust_methods","(fun n => \"set_\" ^^ escape n) (field_names t).","(fun n => \"get_\" ^^ escape n) (field_names t).","setters renamed (harmless for distinctness: should break the refuted instance)",["C94"]),
("NA8","GenNames","rust_types","++ [\"schema\"]\n","++ [\"schema\"; \"super\"]\n","a module called super",["C94"]),
("NA9","GenNames","rust_builder_methods","\"new\" :: map (fun n => \"set_\" ^^ n)","\"new\" :: map (fun n => \"\" ^^ n)","setters of builders without prefix",["C94"]),
("NA10","GenNames","typedef","camel n ^^ suffix ^^ \"Type\"","n ^^ suffix","typedefs without suffix",["C94"]),
("NA11","GenNames","cpp_internal","t_name a ^^ \"__\" ^^ n ^^ \"__schema__\"","n ^^ \"__schema__\"","resource schemas without the archive's name",["C94"]),
("NA12","GenNames","cpp_archive_members","(fun n => \"m_\" ^^ n) (resource_names a).","(fun n => \"\" ^^ n) (resource_names a).","data members called like functions",["C94"]),
("NA13","GenNames","cpp_names","(fun n => n ^^ \"Mutator\") (names_like ns is_structure)\n","(fun n => n ^^ \"Template\") (names_like ns is_structure)\n","mutators called like templates",["C94"]),
("PA1","GenPaths","rust_path","(path_depth current - 1)","(path_depth current)","one super too many",["C95"]),
("PA2","GenPaths","rust_path","(path_depth current - 1)","(path_depth node - 1)","depth of the wrong node",["C95"]),
("PA3","GenPaths","path_with","option_map (replace_dots sep) (path_at root l)","path_at root l","dots kept",["C95"]),
("PA4","GenPaths","replace_ats_colons","String \"@\" (String \"@\" t) => \"::\" ++","String \"@\" (String \"@\" t) => \":\" ++","one colon for two ats",["C95"]),
("PA5","GenPaths","cpp_basic","(\"u16\", \"uint16_t\"); (\"i16\", \"int16_t\")","(\"u16\", \"int16_t\"); (\"i16\", \"uint16_t\")","signs of 16 bit types swapped",["C95"]),
("PA6","GenPaths","rust_item","if is_const (t_kind v) then upper (snake (t_name v)) else t_name v","upper (snake (t_name v))","types declared in capitals",["C95"]),
("PA7","GenPaths","rust_primitive_type","KEnum b => Some (bt_name b)","KEnum b => Some (ft_name ty)","an enumeration is stored as itself",["C95"]),
("PA8","GenPaths","cpp_field_type","Some (cpp_base_type (ft_name ty))","Some (ft_name ty)","names of the schema in C++",["C95"]),
("PA9","GenPaths","ref_node","find root (target c)","find root (\".\" ++ t_name c)","references are not resolved",["C95"]),
]
