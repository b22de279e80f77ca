# Tenth batch: the build helper
MUTANTS = [
("RB1","RustBuild","with_extension",'stem (file_name p) ++ "." ++ e','file_name p ++ "." ++ e',"outputs called a.flatdata.rs",["C101"]),
("RB2","RustBuild","rsplit",'match rsplit t with Some (a, b) => Some (String c a, b) | None => if Ascii.eqb c "." then Some ("", t) else None end','if Ascii.eqb c "." then Some ("", t) else match rsplit t with Some (a, b) => Some (String c a, b) | None => None end',"splits at the first dot",["C101"]),
("RB3","RustBuild","extension",'Some (String c a, e) => Some e | _ => None','Some (_, e) => Some e | None => None',"hidden files are schemas",["C101"]),
("RB4","RustBuild","app",'| None => (f, false)\n      end\n  | _','| None => (put f output (File ""), false)\n      end\n  | _',"a failing schema empties its output",["C101"]),
("RB5","RustBuild","app",'| None => (f, false)\n      end\n  | _','| None => (f, true)\n      end\n  | _',"failing schemas are not reported",["C101"]),
("RB6","RustBuild","app",'put f output (File code)','put f output (File text)',"the schema is copied",["C101"]),
("RB7","RustBuild","app",'put f output (File code)','put f schema (File code)',"the schema is overwritten",["C101"]),
("RB8","RustBuild","target",'with_extension (out ++ skipn (List.length src) e)%list "rs"','with_extension (out ++ [file_name e])%list "rs"',"folders are flattened",["C101"]),
("RB9","RustBuild","target",'with_extension (out ++ skipn (List.length src) e)%list "rs"','with_extension (out ++ e)%list "rs"',"the whole path below the output folder",["C101"]),
("RB10","RustBuild","target",'else with_extension (out ++ [file_name e])%list "rs"','else with_extension (out ++ skipn (List.length src) e)%list "rs"',"a single schema replaces the output folder",["C101"]),
("RB11","RustBuild","run",'| _ => run gen src out r f','| _ => (f, None)',"stops at the first other file",["C101"]),
("RB12","RustBuild","run",'if ok then run gen src out r f2 else (f2, Some e)','run gen src out r f2',"failures are ignored",["C101"]),
("RB13","RustBuild","run",'if ok then run gen src out r f2 else (f2, Some e)','if ok then (f2, None) else (f2, Some e)',"stops after the first schema",["C101"]),
("RB14","RustBuild","run",'create_dirs f [] (removelast result)','create_dirs f [] result',"a directory in the place of the output",["C101"]),
("RB15","RustBuild","run",'create_dirs f [] (removelast result)','create_dirs f [] out',"folders below the output folder are not made (an output without a folder)",["C101"]),
("RB16","RustBuild","run",'Some "flatdata" =>','Some "rs" =>',"wrong extension",["C101"]),
("RB17","RustBuild","generate",'None => (f, Some src)','None => (f, None)',"a missing folder is not reported",["C101"]),
("RB18","RustBuild","create_dirs",'| Some (File _) => None','| Some (File _) => create_dirs (put f p Dir) p r',"files are replaced by directories",["C101"]),
("RB19","RustBuild","app",'match f output with Some Dir => (f, false) | _ =>','match f output with Some _ => (f, true) | _ =>',"existing outputs are kept",["C101"]),
]
