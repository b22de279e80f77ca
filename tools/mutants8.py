# Eighth batch: diagrams
MUTANTS = [
("DT1","GenDot","shown_structures","else Ok (referenced_structures r).","else Ok (children_like r is_structure_ref).","the index of a multivector is not drawn",["C100"]),
("DT2","GenDot","shown_structures","(children_like r is_resource_ref) ;;\n             Ok (List.concat parts)","(children_like r is_resource_ref) ;;\n             Ok (List.concat (firstn 1 parts))","only the first bound resource's structures",["C100"]),
("DT3","GenDot","binding_from","Ok (if h then (a ++ [i])%list :: rest else rest)","Ok (if h then [(a ++ [i])%list] else rest)","only the first binding resource",["C100"]),
("DT4","GenDot","binding_from","rest <- binding_from root a l (S i) r ;;\n      Ok (if h","rest <- binding_from root a l i r ;;\n      Ok (if h","positions of later resources are wrong",["C100"]),
("DT5","GenDot","binding_from","(if is_bound (t_kind b) then binds root b l else Ok false)","binds root b l","explicit or other resources can bind",[]),
("DT6","GenDot","binding_or_self","match bs with [] => [l] | _ => bs end","(l :: bs)","a bound resource still stands for itself",["C100"]),
("DT7","GenDot","row_of",'("port_" ++ rid ++ p)','("port_" ++ p)',"ports without the resource",["C100"]),
("DT8","GenDot","row_of","p <- id_of root (d ++ [i])%list","p <- id_of root d","ports without the field",["C100"]),
("DT9","GenDot","rows_from","rest <- rows_from root rid d (S i) r ;; Ok (here ++ rest)%list","rest <- rows_from root rid d (S i) r ;; Ok (rest ++ here)%list","ports in reverse",["C100"]),
("DT10","GenDot","rows_from","rest <- rows_from root rid d (S i) r","rest <- rows_from root rid d i r","all ports are the first field's",["C100"]),
("DT11","GenDot","table_of","(Table (rid ++ sid) (t_name s) rows)","(Table sid (t_name s) rows)","node called after the structure only",["C100"]),
("DT12","GenDot","table_of","(Table (rid ++ sid) (t_name s) rows)","(Table (sid ++ rid) (t_name s) rows)","parts of the node's name swapped",["C100"]),
("DT13","GenDot","resource_body","(match refs with [] => [Spot rid] | _ => ts end)","ts","no node for raw data",["C100"]),
("DT14","GenDot","resource_body","(match refs with [] => [Spot rid] | _ => ts end)","(Spot rid :: ts)","an extra node for every resource",["C100"]),
("DT15","GenDot","enclose","| KNamespace | KArchive =>","| KNamespace =>","no clusters for archives",["C100"]),
("DT16","GenDot","enclose","| _ => Ok body\n      end\n  | _ => Ok body\n  end.","| _ => i <- id_of root l ;; Ok [Cluster (\"cluster_\" ++ i) (t_name t) [] body]\n      end\n  | _ => Ok body\n  end.","clusters for resources that are bound",["C100"]),
("DT17","GenDot","enclose","(own ++ body)%list]","body]","resources without their nodes",["C100"]),
("DT18","GenDot","enclose","[Cluster (\"cluster_\" ++ i) (t_name t) [] body]","[Cluster i (t_name t) [] body]","clusters without their prefix",["C100"]),
("DT19","GenDot","draw","y <- go (S i) r ;; Ok (x ++ y)%list","y <- go (S i) r ;; Ok y","only the last child is drawn",["C100"]),
("DT20","GenDot","draw","x <- draw root (l ++ [i])%list c","x <- draw root l c","children drawn with the path of their parent",["C100"]),
("DT21","GenDot","arrow_of","(Arrow (o ++ si) (\"port_\" ++ o ++ fi) to (\"cluster_\" ++ d))","(Arrow (o ++ si) (\"port_\" ++ fi) to (\"cluster_\" ++ d))","the arrow's port without the resource",["C100"]),
("DT22","GenDot","arrow_of","(Arrow (o ++ si) (\"port_\" ++ o ++ fi) to (\"cluster_\" ++ d))","(Arrow o (\"port_\" ++ o ++ fi) to (\"cluster_\" ++ d))","the arrow starts at the resource, not at its structure",["C100"]),
("DT23","GenDot","arrow_of","(\"cluster_\" ++ d))","d)","the arrow's cluster without prefix",["C100"]),
("DT24","GenDot","arrow_of","i <- id_of root x ;; Ok (d ++ i)","i <- id_of root x ;; Ok d","the arrow ends at a node that is not there",["C100"]),
("DT25","GenDot","arrow_of","i <- id_of root x ;; Ok (d ++ i)","i <- id_of root x ;; Ok (o ++ i)","the arrow ends at the wrong resource",["C100"]),
("DT26","GenDot","arrows_of","(arrow_of root e o) ds) os","(fun h => arrow_of root e h o) ds) os","arrows the other way round",["C100"]),
("DT27","GenDot","arrows_of","ds <- binding_or_self root dl ;;","ds <- Ok [dl] ;;","arrows end at resources that are not drawn",["C100"]),
("DT28","GenDot","arrows_of","os <- binding_or_self root l ;;","os <- Ok [l] ;;","arrows start at resources that are not drawn",["C100"]),
("DT29","GenDot","archive_arrows","(children_like r is_explicit)","(firstn 1 (children_like r is_explicit))","only the first reference of a resource",["C100"]),
("DT30","GenDot","archive_arrows","rest <- archive_arrows root a (S i) t","rest <- archive_arrows root a i t","references drawn from the wrong resource",["C100"]),
("DT31","GenDot","arrows","order <- tree_order root ;;","order <- tree_order root ;; let order := tl order in","the first archive is left out",[]),
("DT32","GenDot","binds","existsb (loc_eqb l) ds","match ds with d :: _ => loc_eqb l d | [] => false end","only the first resource is bound",["C100"]),
]
