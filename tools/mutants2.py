# (id, file, definition, old, new, claim, [expected property ids])
MUTANTS = [
# --- Builder
("BU1","Builder","st_add_padding","o_data r ++ zeros 8","o_data r ++ zeros 7","padding of seven bytes",["C10"]),
("BU2","Builder","st_add_size","py_to_bytes (zlen (o_data r)) 8 false","py_to_bytes (zlen (o_data r) + 8) 8 false","the size header counts itself",["C10","C28"]),
("BU3","Builder","builder_set","if existsb (String.eqb name) (b_written s) then (s, Err ResourceAlreadySetError)","if false then (s, Err ResourceAlreadySetError)","a resource may be set twice",["C29"]),
("BU4","Builder","builder_new","write_raw_data (archive_file a) (zeros 16)","write_raw_data (archive_file a) (zeros 8)","signature file is too short",["C28"]),
("BU5","Builder","set_vector","_ <== iterM (fun v => liftM (validate_fields name v sd)) vs ;;","_ <== retM tt ;;","vector records are not validated",["C30"]),
("BU6","Builder","write_bucket","write_bucket name types (point + (s_size sd + 1)) t","write_bucket name types (point + s_size sd) t","index points forget the type byte",["C28"]),
("BU7","Builder","write_buckets","| [] => retM [point]","| [] => retM []","no sentinel in the index",["C28"]),
("BU8","Builder","set_multivector","_ <== add_written name ;;\n  add_written (index_name name).","_ <== add_written name ;;\n  retM tt.","the index resource is not marked as written",[]),
("BU9","Builder","find_type","match find_type (i + 1) ts n with\n               | Some r => Some r\n               | None => if String.eqb (s_name t) n then Some (i, t) else None\n               end","if String.eqb (s_name t) n then Some (i, t) else find_type i ts n","type index is not incremented",["C28"]),
("BU10","Builder","set_multivector","(ascii_bytes \"index(\" ++ schema ++ ascii_bytes \")\")%list","schema","the index schema is the resource's schema",[]),
("BU11","Builder","builder_set","(_ <== write_raw_data (name ++ \".schema\") (r_schema sig) ;;","(_ <== write_raw_data (name ++ \".schema\") (a_schema a) ;;","the archive's schema is written for every resource",["C28"]),
("BU12","Builder","st_close","_ <== match o_data r with [] => retM tt | _ => emit (OWrite name (o_data r)) end ;;\n  put_obj name (RObj [] false).","_ <== match o_data r with [] => retM tt | _ => emit (OWrite name (o_data r)) end ;;\n  put_obj name (RObj [] true).","a closed resource stays valid and is written again by finish",[]),
("BU13","Builder","validate_element","| [] => Err (UnknownStructureError (fst e))","| [] => Ok tt","unknown structure names are only noticed while writing",["C30"]),
# --- Archive
("AR1","Archive","dir_get","| Some (NFile []) => Err ValueError","| Some (NFile []) => Ok (GotMem [])","empty files can be mapped",[]),
("AR2","Archive","tar_path","match sub_path with \"\" => key | _ => sub_path ++ \"/\" ++ key end","match sub_path with \"\" => key | _ => sub_path ++ key end","no slash between sub path and key",["C33"]),
("AR3","Archive","strip_dot","if starts_with \"./\" n then drop 2 n else n","n","./ is not stripped from member names",["C33","C34"]),
("AR4","Archive","check_schema","if eqb_list s expected then Ok tt else Err (SchemaMismatchError name).","Ok tt.","schemas are not compared",["C25"]),
("AR5","Archive","schema_validated","| GotMem [] | GotNone => if r_optional sig then Ok false else Err (MissingResourceError name)","| GotMem [] | GotNone => if r_optional sig then Ok true else Err (MissingResourceError name)","absent optional resources are opened anyway",["C26"]),
("AR6","Archive","open_container","gi <- st_lookup st (name ++ \"_index\") optional ;;\n      gd <- st_lookup st name optional ;;","gd <- st_lookup st (name ++ \"_index\") optional ;;\n      gi <- st_lookup st name optional ;;","index and data swapped",["C28"]),
("AR7","Archive","tar_entries","| TSparse => Err CorruptResourceError","| TSparse => tar_entries t' files dirs","sparse members are skipped silently",[]),
("AR8","Archive","open_any","| GotStorage st' => rs <- open_archive a st' ;; keep_truthy (OArch rs)","| GotStorage st' => rs <- open_archive a st ;; keep_truthy (OArch rs)","sub-archives are opened in the parent's directory",["C25"]),
("AR9","Archive","tar_ls","let sel (n : string) := starts_with prefix n && negb (has_slash (drop (String.length prefix) n)) in","let sel (n : string) := starts_with prefix n in","ls of a tar lists nested members",["C33"]),
("AR10","Archive","tar_entries","| TReg d => tar_entries t' (dict_put files n d) dirs","| TReg d => tar_entries t' (match dict_get files n with Some _ => files | None => dict_put files n d end) dirs","the first member of a name wins",[]),
# --- Writer / inspector
("WR1","Writer","get_archive_name","let index := py_find \"archive\" schema + 7 in","let index := py_find \"archive\" schema + 8 in","archive name starts one too late",["C35"]),
("WR2","Writer","select_signature","| _ :: _ :: _, None => Err RuntimeError","| a :: _ :: _, None => Ok a","ambiguous archives open the first one",["C61"]),
("WR3","Writer","signature_name","(String.length sg - 8)","(String.length sg - 7)","name of the signature keeps the dot",["C61"]),
# --- GenTypes
("GT1","GenTypes","make_btype","if w' >? w then","if w' >=? w then","full width is rejected",["C38"]),
("GT2","GenTypes","bits_required","Ok (bit_length (- v - 1) + 1)","Ok (bit_length (- v) + 1)","-128 needs nine bits",["C37"]),
("GT3","GenTypes","make_constant","if b >? bt_width t then","if b >? bt_width t + 1 then","constants one bit too wide",["C41"]),
("GT4","GenTypes","assign_values","assign_values ename t (cur' + 1) (seen ++ [cur']) children'","assign_values ename t (cur + 1) (seen ++ [cur']) children'","auto increment continues from the implicit counter",["C39"]),
("GT5","GenTypes","value_range","(2 ^ (bt_width t - 1))))","(2 ^ (bt_width t - 1) - 1)))","largest signed value has no name",["C40"]),
("GT6","GenTypes","assign_values","if zmem cur' seen then Err (DuplicateEnumValueError ename cur')","if zmem cur seen then Err (DuplicateEnumValueError ename cur')","duplicates of explicit values are accepted",["C39"]),
("GT7","GenTypes","add_missing","if zmem v seen then Ok cs else","if zmem (v + 1) seen then Ok cs else","wrong gaps are filled",["C40"]),
("GT8","GenTypes","check_values","if b >? bt_width t then Err (InvalidEnumValueError ename v) else Ok tt","Ok tt","enum values out of range accepted",["C39"]),
# --- GenTraversal
("TR1","GenTraversal","push_kids","else if negb (mem c proc) then Err CircularReferencing","else if negb (mem c proc) then push_kids t disc proc stk","cycles are ignored",["C42"]),
("TR2","GenTraversal","dfs_step","stk' <- push_kids (rev cs) disc (d_proc s) ((n, true) :: stk) ;;","stk' <- push_kids cs disc (d_proc s) ((n, true) :: stk) ;;","children visited last to first",[]),
("TR3","GenTraversal","dfs_step","else if mem n (d_proc s) then","else if false then","nodes pushed twice are processed twice",["C42"]),
# --- GenTree
("TE1","GenTree","find","if String.eqb (t_name t) k then find_keys t ks else None","find_keys t ks","the first path component is not compared",[]),
("TE2","GenTree","insert","| Some _ => Err (SymbolRedefinition (t_name c))","| Some _ => Ok t","redefinitions are dropped silently",["C47"]),
("TE3","GenTree","dereferencify","String _ t => replace_char \"@\" \".\" t","String _ t => t","targets keep their @",["C45"]),
("TE4","GenTree","find_keys","option_map (cons i) (find_keys c ks)","option_map (cons O) (find_keys c ks)","find always descends into the first child",["C44"]),
# --- GenBuild
("GB1","GenBuild","scopes","if is_namespace t then [] else rev up :: scopes root up","if is_namespace t then [] else scopes root up ++ [rev up]","outer scopes are searched first",["C43"]),
("GB2","GenBuild","resolve_unqualified","match lookup_in root tgt n with Some s => Ok s | None => Err (MissingSymbol tgt) end","match lookup_in root tgt n with Some s => Ok s | None => match find root tgt with Some s => Ok s | None => Err (MissingSymbol tgt) end end","unresolved names are also searched from the root",["C43"]),
("GB3","GenBuild","expected_kind","| RStructure, KStructure _ | RBuiltin, KStructure _ => true","| RStructure, KStructure _ | RBuiltin, KStructure _ | RStructure, KEnum _ => true","a vector may refer to an enumeration",[]),
("GB4","GenBuild","layout","layout (offset + ft_width ty) t ;;","layout (offset + ft_width ty + 1) t ;;","a gap of a bit after each field",["C36"]),
("GB5","GenBuild","layout","Ok (set_kind (KField rng (Some ty) (Some offset)) c :: t', size)","Ok (set_kind (KField rng (Some ty) (Some 0)) c :: t', size)","all fields at offset 0",["C36"]),
("GB6","GenBuild","size_in_bytes","(size_in_bits + 7) / 8","size_in_bits / 8","size rounded down",["C36"]),
("GB7","GenBuild","limit_one","if m >? lim then lim else m","if m >? lim then m else lim","the largest limit is kept",["C46"]),
("GB8","GenBuild","limit_one","let lim := 2 ^ ft_width ty in","let lim := 2 ^ (ft_width ty - 1) in","half of the limit",["C46"]),
("GB9","GenBuild","check_const_ref","if n >? ft_width fty then","if n >? ft_width fty + 8 then","constants wider than the field are accepted",["C41"]),
("GB10","GenBuild","check_const_ref","if negb (String.eqb ty (ft_name fty)) then","if false then","constants of another type accepted",["C41"]),
("GB11","GenBuild","update_field","(bt_width b') (bt_signed b')","(bt_width b') false","enumeration fields are unsigned",["C36"]),
("GB12","GenBuild","create_field","b <- make_btype (pf_type p) (option_map Z.of_N (pf_width p)) ;;","b <- make_btype (pf_type p) None ;;","declared widths are ignored",["C36"]),
("GB13","GenBuild","append_constants","filter (fun p => negb (existsb (String.eqb p) referenced))","filter (fun p => (existsb (String.eqb p) referenced))","used constants are attached to archives, unused are not",["C50"]),
("GB14","GenBuild","builtin_structure","(if w =? 0 then None else Some (Z.to_N w))","None","index fields are always 64 bits wide",["C64"]),
("GB15","GenBuild","kids","match t_kind c with KRef r => is_type_ref r | _ => false end","match t_kind c with KRef r => true | _ => false end","field and resource references count as dependencies",[]),
("GB16","GenBuild","create_resource","map (make_ref RStructure) tys","map (make_ref RStructure) (rev tys)","multivector types reversed",["C64"]),
("GB17","GenBuild","create_resource","(has_optional (pr_decs p))","false","@optional is ignored",["C64"]),
("GB18","GenBuild","check_explicit","then Ok tt else Err","then Ok tt else if true then Ok tt else Err","explicit references to foreign structures accepted",[]),
# --- GenFlatdata
("GF1","GenFlatdata","field_lines","(py_str (ft_width ty) ++ \";\")%string","\";\"%string","field widths are not rendered",["C57"]),
("GF2","GenFlatdata","value_lines","| KEnumValue x false =>","| KEnumValue x _ =>","generated enum values are rendered",[]),
("GF3","GenFlatdata","vkids","Ok [(true, (snd n ++ [i])%list)]","Ok []","the extracted node is not reached",["C50"]),
("GF4","GenFlatdata","vblock","if is_supported (t_kind t) && negb (is_builtin root (snd n)) then","if is_supported (t_kind t) then","index structures appear in the text",["C50"]),
("GF5","GenFlatdata","view","Some (Node (t_name t) (t_kind t) [c])","Some t","a resource's text shows the whole archive",["C50"]),
("GF6","GenFlatdata","type_params","Ok (if is_builtin root l then ps else p :: ps)","Ok (p :: ps)","the index structure appears in the type parameters",[]),
# --- GenPython
("GP1","GenPython","schema_attr","\"_\" ++ upper resource ++ \"_SCHEMA\"","\"_\" ++ resource ++ \"_SCHEMA\"","schema attributes keep the case",[]),
("GP2","GenPython","class_name","join \"_\" (namespaces root l) ++ \"_\" ++ t_name t","t_name t","class names without namespace",["C48"]),
("GP3","GenPython","structure_def","(size_in_bytes bits)","bits","size in bits instead of bytes",["C64"]),
("GP4","GenPython","field_sig","(FSig (t_name f) off (ft_width ty) (ft_signed ty))","(FSig (t_name f) (ft_width ty) off (ft_signed ty))","offset and width swapped",["C64"]),
("GP5","GenPython","archive_stmts","rs <- mapM (fun lr => s <- schema_text root (fst lr) ;; Ok (t_name (snd lr), s)) (resources_at l t) ;;","rs <- mapM (fun lr => s <- schema_text root l ;; Ok (t_name (snd lr), s)) (resources_at l t) ;;","every resource gets the archive's schema",["C57"]),
("GP6","GenPython","container_expr","| KResource KVector _ _ =>\n      match referenced_structures r with c :: _ => n <- ref_class root c ;; Ok (EVector n) | [] => Err IndexError end","| KResource KVector _ _ =>\n      match referenced_structures r with c :: _ => n <- ref_class root c ;; Ok (EInstance n) | [] => Err IndexError end","vectors become instances",["C64"]),
("GP7","GenPython","body_locals","rev ((\"_SCHEMA\", schema) ::","((\"_SCHEMA\", schema) ::","the first assignment of an attribute wins",[]),
]
