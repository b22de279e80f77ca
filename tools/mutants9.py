# Ninth batch: what diagrams say
MUTANTS = [
("LB1","GenDot","field_value_type",'if starts_with "." t then drop 1 t else t','t',"types start with a dot",["C100"]),
("LB2","GenDot","field_value_type",'path_at root (parent_loc struct)','path_at root struct',"the namespace is not cut",["C100"]),
("LB3","GenDot","field_value_type",'drop (String.length ns) t else t','drop (S (String.length ns)) t else t',"the dot is cut too (no difference)",[]),
("LB4","GenDot","field_value_type",'drop (String.length ns) t else t','drop (Nat.add 2 (String.length ns)) t else t',"a letter is cut",["C100"]),
("LB5","GenDot","row_of",'(t_name f) (field_value_type root d (ft_name ty))','(field_value_type root d (ft_name ty)) (t_name f)',"name and type swapped",["C100"]),
("LB6","GenDot","row_of",'(ft_width ty))','(ft_width ty + 1)%Z)',"wrong width",["C100"]),
("LB7","GenDot","table_of",'(t_name s) rows','(rid ++ sid) rows',"wrong title",["C100"]),
("LB8","GenDot","class_name",'KVector => "Vector"','KVector => "Multivector"',"wrong kind",["C100"]),
("LB9","GenDot","class_name",'KMultivector _ => "Multivector"','KMultivector _ => "Vector"',"wrong kind",["C100"]),
("LB10","GenDot","enclose",'if opt then ["optional"] else []','if opt then [] else ["optional"]',"optional the wrong way round",["C100"]),
("LB11","GenDot","enclose",'Ok [Cluster ("cluster_" ++ i) (t_name t) [] body]','Ok [Cluster ("cluster_" ++ i) i [] body]',"wrong cluster title",["C100"]),
("LB12","GenDot","field_value_type",'let t := field_type name in','let t := name in',"paths with @",["C100"]),
("LB13","GenDot","class_name",'KArchiveRes => "Archive"','KArchiveRes => "ArchiveResource"',"wrong kind",["C100"]),
]
