# Wrong programs for C47 (merged namespace declarations).  (id, file, definition, old, new, broken claim, expected)
MUTANTS = [
("MG1","GenBuild","merge_one","'(root, l) <- ensure_namespace root (fst d) ;;\n  foldM (fun root c => insert_at root l c) root (snd d).","match find_keys root (fst d) with Some _ => Ok root | None => '(root, l) <- ensure_namespace root (fst d) ;;\n  foldM (fun root c => insert_at root l c) root (snd d) end.","a repeated declaration is ignored",["C47"]),
("MG2","GenBuild","merge_one","foldM (fun root c => insert_at root l c) root (snd d).","foldM (fun root c => match insert_at root l c with Ok r => Ok r | Err _ => Ok root end) root (snd d).","of equal names in two declarations the first wins",["C47"]),
("MG3","GenBuild","append_builtin","| Some _ => Ok root\n                          | None => insert_at root ns b","| Some _ => insert_at root ns b\n                          | None => insert_at root ns b","two multivectors of one width in a namespace clash",["C70","C47"]),
("MG4","GenBuild","append_builtin","(keys ++ [\"_builtin\"; \"multivector\"])%list","[\"_builtin\"; \"multivector\"]","index structures at the root",["C47","C69","C70"]),
("MG5","GenBuild","create_definitions","Ok (keys, t_children t).","Ok (keys, rev (tl (rev (t_children t)))).","the last definition of every declaration is lost",["C47","C69"]),
]
