# Wrong programs for C103 (iteration order of sets).  Run with TARGET=theories/Props_Hash.vo
MUTANTS = [
("HS1","GenTypes","create_enum","_ <- check_values name t (set_order seen) ;;","_ <- check_values name t (match set_order seen with v :: _ => [v] | [] => [] end) ;;","only the first value in the order is checked (a return instead of a raise in the loop)",["C103"]),
("HS2","GenTypes","create_enum","_ <- check_values name t (set_order seen) ;;","_ <- check_values name t (rev (match rev (set_order seen) with v :: _ => [v] | [] => [] end)) ;;","only the last value in the order is checked (the test is after the loop)",["C103"]),
("HS3","GenTypes","create_enum","children' <- add_missing seen children range ;;","children' <- add_missing seen children (set_order range) ;;","the generated values are inserted in the order of a set",["C103"]),
("HS4","GenTypes","create_enum","    | _ => Ok (t, children')","    | _ => Ok (match set_order seen with v :: _ => BT (bt_name t) (Z.max (bt_width t) (Z.min 8 v)) | [] => t end, children')","the width of the type is taken from the value visited first",["C103"]),
("HS5","GenTypes","check_values","if b >? bt_width t then Err (InvalidEnumValueError ename v) else Ok tt","if b >? bt_width t then Err (SparseEnumError ename v) else Ok tt","a value that does not fit is reported as another error",["C103"]),
("HS6","GenBuild","create_definitions","map (create_enumeration set_order) (pn_enumerations p)","map (create_enumeration set_order) (match set_order [0; 1] with 0 :: _ => pn_enumerations p | _ => rev (pn_enumerations p) end)","enumerations are declared in the order of a set",["C103"]),
]
