# (id, file, definition, old, new, claim, [expected property ids])
MUTANTS = [
# --- follow-ups of mutants2
("AR7b","Archive","tar_entries","| TSparse => Err CorruptResourceError","| TSparse => tar_entries t' files dirs","sparse members are skipped silently",["C33"]),
("GB11b","GenBuild","update_field","(bt_width b') (bt_signed b')","(bt_width b') false","enumeration fields are unsigned",[]),
("GF1b","GenFlatdata","field_lines","(py_str (ft_width ty) ++ \";\")%string","\";\"%string","field widths are not rendered",["C62"]),
# --- Grammar
("GR1","Grammar","keyword","if starts key_char r then Soft else Got k r","Got k r","keywords may be followed by identifier characters",["C68"]),
("GR2","Grammar","enum","_ <~ opt (sym \",\") ;; _ <~ sym \"}\" ;;\n  give (PEnum","_ <~ sym \"}\" ;;\n  give (PEnum","no trailing comma in enumerations",["C68"]),
("GR3","Grammar","struct","fs <~ some field","fs <~ many field","empty structures",["C68"]),
("GR4","Grammar","field","w <~ opt (_ <~ sym \":\" ;; bit_width) ;; _ <~ sym \";\"","w <~ (b <~ (_ <~ sym \":\" ;; bit_width) ;; give (Some b)) ;; _ <~ sym \";\"","fields need a width",["C68"]),
("GR5","Grammar","resource_type","alt raw_data (alt vector (alt multivector (alt archive_resource single_object)))","alt single_object (alt raw_data (alt vector (alt multivector archive_resource)))","single objects are tried first",["C68"]),
("GR6","Grammar","unsigned_literal","Got (\"0x\" ++ a) t | _","Got a t | _","0x dropped from hexadecimal literals",["C68"]),
("GR7","Grammar","line_rest","if Ascii.eqb c \"\\\" && Ascii.eqb d newline_char then line_rest t' else line_rest t","line_rest t","continued line comments end at the line",["C68"]),
("GR8","Grammar","prefix_piece","_ <~ not_followed_by \",\" ;;\n","","the structure name of an explicit reference swallows the field",["C68"]),
("GR9","Grammar","parse_schema","if String.eqb (skip r) \"\" then Ok s else Err ParsingError","Ok s","text after the schema is ignored",["C68"]),
("GR10","Grammar","parse_schema","String.eqb (skip r) \"\"","String.eqb r \"\"","trailing blanks are an error",["C68"]),
("GR11","Grammar","range","_ <~ opt comment ;; _ <~ keyword \"@range\"","_ <~ keyword \"@range\"","no comment before @range",["C68"]),
("GR12","Grammar","namespace_of","EStruct s => [s] | _ => [] end) es)\n","EStruct s => [s] | _ => [] end) (rev es))\n","structures in reverse order",["C68"]),
("GR13","Grammar","archive","rs <~ many resource","rs <~ some resource","archives need a resource",["C68"]),
("GR14","Grammar","delimited","l <~ many (_ <~ sym \",\" ;; p)","l <~ many (_ <~ opt (sym \",\") ;; p)","commas of lists are optional",["C68"]),
("GR15","Grammar","const_ref","give (FConst n)","give (FOptional n)","@const is taken for @optional",["C68"]),
("GR16","Grammar","bit_width","digits_val 10 0 w","digits_val 16 0 w","widths are hexadecimal",["C68"]),
("GR17","Grammar","flatdata_grammar","_ <~ many comment ;; some namespace","_ <~ many comment ;; many namespace","a schema of comments only",["C68"]),
("GR18","Grammar","hard","match p s with Soft => Fatal | o => o end","p s","errors behind a minus are caught by alternatives",[]),
("GR19","Grammar","signed_literal","Got (\"-\" ++ a) t","Got a t","the sign is dropped",["C68"]),
("GR20","Grammar","qual_char","id_char c || Ascii.eqb c \".\"","id_char c","no dots inside names",[]),
("GR21","Grammar","block_rest","| String \"*\" (String \"/\" t) => Some t\n  | String _ t => block_rest t","| String \"*\" (String \"/\" t) => match block_rest t with Some r => Some r | None => Some t end\n  | String _ t => block_rest t","comments end at the last end mark",["C68"]),
# --- Codecs: C++
("CO1","Codecs","bits_to_unsigned","if bytes <=? 2 then 16","if bytes <=? 3 then 16","words too small",["C51"]),
("CO2","Codecs","cpp_word","if num_bits + offset mod 8 <=? 64 then num_bits + offset mod 8 else num_bits","num_bits","the word ignores the bit offset",[]),
("CO3","Codecs","cpp_read","(Z.shiftl temp ((w - bit_offset) mod w)) mod 2 ^ w","(Z.shiftl temp ((w - bit_offset + 1) mod w)) mod 2 ^ w","last byte shifted too far",["C51"]),
("CO4","Codecs","cpp_extend_sign","cast wT true (cast num_bits true v)","cast wT true v","no sign extension",["C51"]),
("CO5","Codecs","cpp_read","let result := cpp_masked num_bits w result in                                (* :99 *)","","neighbouring bits are not masked",["C51"]),
("CO6","Codecs","cpp_write","if sT && negb is_enum then cpp_masked num_bits w value_to_store else value_to_store in (* :56-60 *)","value_to_store in","negative values spill over",["C51"]),
("CO7","Codecs","cpp_write","Z.land value ((Z.lnot (Z.shiftl value_mask bit_offset)) mod 2 ^ w)","value","the old value is not cleared",["C51"]),
("CO8","Codecs","cpp_write","let byte_value := (Z.land b (Z.lnot value_mask)) mod 256 in","let byte_value := 0 in","the last byte's other bits are cleared",["C51"]),
("CO9","Codecs","cpp_read_range","(skipn (Z.to_nat struct_size) data) offset","(skipn (Z.to_nat struct_size) data) (offset + 1)","the end of a range is read one bit off",["C66"]),
("CO10","Codecs","cpp_read_tagged","if v =? invalid then None","if v <=? invalid then None","all values up to the invalid one are none",["C66"]),
# --- Rust
("CO11","Codecs","rust_mask","if num_bits <? 64","if num_bits <? 63","63 bit values are not masked",["C52"]),
("CO12","Codecs","rust_extend","(wT - num_bits) mod wT","(wT - num_bits - 1) mod wT","sign extension from the wrong bit",["C52"]),
("CO13","Codecs","rust_read","(data + (byte_offset + num_bytes))","(data + num_bytes)","the ninth byte is read at the right place",["C52"]),
("CO14","Codecs","rust_write","let destination := num_bytes in","let destination := destination + num_bytes in","the ninth byte is written at the right place",[]),
("CO15","Codecs","rust_write","let value_to_store := if sT then rust_mask value_to_store num_bits else value_to_store in (* :33-35 *)","","negative values spill over",["C52"]),
# --- Go
("CO16","Codecs","go_loop","Z.shiftl cur (size - bits_left)","Z.shiftl cur (size - bits_left - 8)","bytes shifted too little",["C53"]),
("CO17","Codecs","go_finish","Z.land cur (Z.shiftl 1 bits_left - 1)","cur","rest bits are not masked",["C53"]),
("CO18","Codecs","go_read","if size <=? 8 - local_offset","if size <? 8 - local_offset","boundary of the one byte case",[]),
("CO19","Codecs","go_finish","- Z.land result (go_sign_bit (size - 1))","+ 0","no sign",["C53"]),
# --- CppTar
("CT1","CppTar","padding","(block_size - size mod block_size) mod block_size","block_size - size mod block_size","a whole block of padding for whole blocks",["C67"]),
("CT2","CppTar","verify_checksum","repeat 32 8 ++ skipn 156 header","repeat 0 8 ++ skipn 156 header","the checksum field counts as NULs",["C67"]),
("CT3","CppTar","tar_loop","(typeflag =? 48) || (typeflag =? 0)","(typeflag =? 48)","old style members are rejected",["C54"]),
("CT4","CppTar","tar_loop","((offset + (file_size + padding file_size)) mod 2 ^ 64) []","((offset + (file_size + padding file_size)) mod 2 ^ 64) long_name","the long name sticks",["C67"]),
("CT5","CppTar","strip_dot","match name with 46 :: 47 :: t => t | _ => name end","name","./ is kept",["C67"]),
("CT6","CppTar","emplace","then m else m ++ [(k, v)]","then (k, v) :: m else m ++ [(k, v)]","the last member of a name wins",["C67"]),
("CT7","CppTar","storage_path","| _ => sub_path ++ 47 :: key end","| _ => sub_path ++ key end","no slash before the key",["C67"]),
("CT8","CppTar","decode_octal","(c <? 48) || (55 <? c)","(c <? 48) || (57 <? c)","8 and 9 are octal digits",[]),
("CT10","CppTar","tar_files","(Z.to_nat (Z.min (e_size e) (zlen data - e_offset e)))","(Z.to_nat (e_size e - 1))","members lose their last byte",["C67"]),
("CT11","CppTar","decode_numeric_field","decode_binary (Z.land b 127) t","decode_binary b t","the marker bit of base-256 sizes counts",["C67"]),
("CT12","CppTar","decode_binary","value * 256 + b","value * 255 + b","base 255",["C67"]),
]
