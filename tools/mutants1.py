# (id, file, definition, old, new, claim, properties whose theorems must fail)
MUTANTS = [
("DA1","DataAccess","read_value","if num_bits <? 64 then                                             (* :23-24 *)","if num_bits <? 63 then                                             (* :23-24 *)","63-bit fields are read without masking",["C01"]),
("DA2","DataAccess","read_value","if total_bytes * 8 - offset_extra_bits <? num_bits then            (* :19-21 *)","if total_bytes * 8 - offset_extra_bits <? num_bits - 1 then            (* :19-21 *)","a field spilling one bit into an extra byte loses it",["C01","C03"]),
("DA3","DataAccess","read_value","Ok (Z.land result (s - 1) - Z.land result s).","Ok (Z.land result (s - 1) + Z.land result s).","negative values read as positive",["C01","C03"]),
("DA4","DataAccess","read_value","(if Z.land b (Z.shiftl 1 offset_extra_bits) =? 0 then 0 else 1)","(if Z.land b 1 =? 0 then 0 else 1)","booleans read from the wrong bit",["C01"]),
("DA5","DataAccess","write_value","let surrounding_bits := Z.land old (lowmask - 1) in","let surrounding_bits := 0 in","writing wipes the preceding field in the shared byte",["C05","C06"]),
("DA6","DataAccess","write_value","let value := Z.land value (Z.shiftl mask offset_extra_bits) in                (* :47 *)","let value := value in                (* :47 *)","oversized values spill into neighbours",["C04"]),
("DA7","DataAccess","write_value","if value =? 1\n","if negb (value =? 0)\n","1-bit writes of values other than 0/1 set the bit",["C04"]),
("DA8","DataAccess","write_value","if bits_written <? num_bits then                                              (* :61-64 *)","if bits_written <=? num_bits then                                              (* :61-64 *)","byte behind a field that ends on a byte boundary is rewritten",["C05"]),
("DA9","DataAccess","write_value","copy_bytes (Z.to_nat (total_bytes - 1)) data offset_bytes 1 vle","copy_bytes (Z.to_nat (total_bytes - 2)) data offset_bytes 1 vle","last middle byte is not written",["C03"]),
("DA10","DataAccess","write_value","(Z.land bl (Z.shiftl 1 (8 - bits_written mod 8) - 1)) ;;","bl ;;","mask of the last partial byte dropped",[]),
("DA11","DataAccess","write_pyval","else _ <- py_shl 1 num_bits ;; Err TypeError","else write_value data offset_bits num_bits is_signed 0","non-integers are silently written as 0",[]),
("ST1","Structure","getattr","| None => Err AttributeError\n  end.\n\n(** structure.py:29","| None => Ok 0\n  end.\n\n(** structure.py:29","unknown attributes read as 0",["C08"]),
("ST2","Structure","get_value","read_value (v_mem v) (v_pos v * 8 + f_off f)","read_value (v_mem v) (v_pos v + f_off f)","byte position used as bit offset",["C08"]),
("ST3","Structure","validate_fields","  _ <- mapM (fun kv => if existsb (String.eqb (fst kv)) (s_keys init) then Ok tt\n                       else Err (UnknownFieldError (fst kv) name)) struct ;;\n  Ok tt.","  Ok tt.","unknown fields accepted",["C30"]),
("ST4","Structure","validate_fields","if dict_mem struct key then Ok tt else Err (MissingFieldError key name)","Ok tt","missing fields not reported as such",["C30"]),
("ST5","Structure","pack_element","foldM (write_field 8 value) bout","foldM (write_field 0 value) bout","multivector elements overwrite their type byte",["C15"]),
("ST6","Structure","as_dict","mapM (fun f => x <- get_value v f ;; Ok (f_name f, x)) (s_fields (v_def v))","mapM (fun f => x <- get_value v f ;; Ok (f_name f, x)) (rev (s_fields (v_def v)))","as_dict in reverse order",["C08"]),
("RE1","Resources","check_base","if zlen mem <? SIZE_OFFSET_IN_BYTES + SIZE_PADDING_IN_BYTES","if zlen mem <? SIZE_OFFSET_IN_BYTES","resources of 8..15 bytes accepted",["C14"]),
("RE2","Resources","vector_open","if rem =? 0 then Ok","if true then Ok","size not divisible by the element size accepted",["C14"]),
("RE3","Resources","vector_get","if (vec_size v <=? index) || (index <? 0)","if (vec_size v <? index) || (index <? 0)","v[len(v)] does not raise",["C12"]),
("RE4","Resources","vector_get","let index := if index <? 0 then index + vector_len v else index in\n  if (vec_size","let index := if index <? 0 then index + vector_len v - 1 else index in\n  if (vec_size","negative indices off by one",["C12"]),
("RE5","Resources","vector_iter","(seq 0 (Z.to_nat (vector_len v)))).","(seq 1 (Z.to_nat (vector_len v) - 1))).","iteration skips the first element",["C12"]),
("RE6","Resources","slice_indices","let upper := if step <? 0 then len - 1 else len in","let upper := if step <? 0 then len else len in","negative-step slices start beyond the end",["C13"]),
("RE7","Resources","py_range","(stop - start + step - 1) / step","(stop - start) / step","slices drop the last element",["C13"]),
("RE8","Resources","multivector_len","Z.max 0 (vector_len (mv_index m) - 1)","vector_len (mv_index m)","sentinel counted as bucket",["C15"]),
("RE9","Resources","bucket_elements","let offset := offset + 1 in","let offset := offset in","type byte not skipped",["C15"]),
("RE10","Resources","bucket_offset","Ok (x + SIZE_OFFSET_IN_BYTES)","Ok x","size header not skipped in multivector data",["C15"]),
("RE11","Resources","rawdata_sub","py_slice (rd_mem r) (a + SIZE_OFFSET_IN_BYTES) (b + SIZE_OFFSET_IN_BYTES)","py_slice (rd_mem r) a b","raw data slices include the header",["C18"]),
("RE12","Resources","sub_str","| Some i => decode (rawdata_sub r index i)","| Some i => decode (rawdata_sub r index (i + 1))","strings include their terminator",["C19"]),
("RE13","Resources","sub_str_array_loop","else rest <- sub_str_array_loop r sep size (got + 1) (i + 1) t","else rest <- sub_str_array_loop r sep size (got + 1) i t","later strings start with the terminator",["C20"]),
("RE14","Resources","utf8_valid","(if b =? 0xED then c1 <=? 0x9F else true)","true","surrogates accepted by decode",[]),
("RE15","Resources","instance_get","if (1 <=? index) || (index <? 0) then Err IndexError","if (1 <? index) || (index <? 0) then Err IndexError","instance[1] does not raise",["C21"]),
("RE16","Resources","slice_to_numpy","| Some l => if l =? 0 then zlen (py_range a b c) else l","| Some l => l","limit 0 gives an empty array",["C24"]),
("RE17","Resources","rawdata_get","(i + SIZE_OFFSET_IN_BYTES + 1)","(i + SIZE_OFFSET_IN_BYTES + 2)","raw[i] returns two bytes",["C18"]),
]
