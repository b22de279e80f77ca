(** Property theorems C42 (schemas), C48, C57, C63, C64: the order of definitions, and the Python module generated for a schema.
    Vocabulary: [GenAstSpec], [GenOutSpec], [UsableSpec], and for C64 [HistorySpec]. *)
From Coq Require Import List ZArith Bool String Ascii Lia Permutation.
From Verif Require Import PyBase Spec PyText DataAccess Structure StructSpec Resources ResourceSpec Builder Archive ArchiveSpec OpenSpec HistorySpec GenTypes GenTree GenTreeFacts GenTraversal GraphSpec GenBuild GenAstSpec GenBuildFacts GenPassFacts GenAstFacts
  GenLayoutFacts GenShapeFacts GenAstThms GenFlatdata GenPython GenOutSpec GenOutFacts GenFinal GenModule GenClassNames GenWords UsableSpec GenUsable Props_Archive Props_GenTree.
Import ListNotations.
Local Open Scope string_scope.
Local Open Scope Z_scope.

Definition precedes {A} (x y : A) (l : list A) : Prop := exists a b c, l = (a ++ x :: b ++ y :: c)%list.
Lemma first_precedes {N} (kids : N -> res (list N)) order x y : NoDup order -> dependencies_first kids order -> In y order -> GraphSpec.edge kids y x -> precedes x y order.
Proof.
  intros Nd D Hy E. apply in_split in Hy as (b & a & ->). pose proof (D b y a eq_refl x E) as Hx. apply in_split in Hx as (b1 & b2 & ->). exists b1, b2, a. now rewrite <- app_assoc.
Qed.

(** C42 for schemas: the dependency order of an accepted schema exists; it has every node but the references exactly once, nodes
    after the nodes below them, and a node that names a structure, enumeration, constant or archive after what it names. *)
Theorem C42_schema : forall so s root, any_order so -> well_named s -> build_ast so s = Ok root ->
  exists order, tree_order root = Ok order /\ NoDup order
    /\ (forall l t, at_loc root l = Some t -> is_ref t = false -> In l order)
    /\ (forall l, In l order -> exists t, at_loc root l = Some t)
    /\ (forall l i t c, at_loc root l = Some t -> is_ref t = false -> child_at root l i c -> is_ref c = false -> precedes (l ++ [i])%list l order)
    /\ (forall l i r d, points_to root (l ++ [i])%list r d -> r <> RResource -> r <> RField -> precedes d l order).
Proof.
  intros so s root Hso W H. pose proof (build_ast_built so s root Hso (well_named_clean s W) H) as Bu. destruct (built_order root Bu) as (order & Eo & Nd & Ho & Df).
  assert (In' : forall l t, at_loc root l = Some t -> is_ref t = false -> In l order) by (intros l t Hl R; apply Ho; exact (tree_reach root l t (proj1 (b_rooted _ Bu)) (b_resolved _ Bu) Hl R)).
  assert (Par : forall l i c, child_at root l i c -> exists t, at_loc root l = Some t /\ is_ref t = false).
  { intros l i c Hc. destruct (parent_at _ _ _ _ Hc) as (t & Ht & Hi). exists t. split; [exact Ht|]. unfold is_ref. destruct (t_kind t) as [| | | | | | | | | |q] eqn:K; try reflexivity. exfalso.
    pose proof (b_shape _ Bu l t Ht) as (Sh & _). apply nth_error_In, (in_map t_kind) in Hi. rewrite Forall_forall in Sh. specialize (Sh _ Hi). rewrite K in Sh. exact Sh. }
  exists order. split; [exact Eo|]. split; [exact Nd|]. split; [exact In'|]. split; [|split].
  - intros l Hl. apply Ho in Hl. exact (reach_node root l (b_resolved _ Bu) Hl).
  - intros l i t c Hl Rl Hc Rc. apply (first_precedes (kids root)); auto; [exact (In' l t Hl Rl)|]. destruct (parent_at _ _ _ _ Hc) as (t' & Ht & Hi). rewrite Hl in Ht. injection Ht as <-. exact (kids_child root l t i c (b_resolved _ Bu) Hl Hi Rc).
  - intros l i r d P N1 N2. apply points_to_find in P as (c & Hc & K & Fd); [|exact (b_rooted _ Bu)]. destruct (Par l i c Hc) as (t & Ht & Rt). destruct (parent_at _ _ _ _ Hc) as (t' & Ht' & Hi). rewrite Ht in Ht'. injection Ht' as <-.
    apply (first_precedes (kids root)); auto; [exact (In' l t Ht Rt)|].
    destruct (kids_total root l t (b_resolved _ Bu) Ht) as (cs & Hk). exists cs. split; [exact Hk|]. unfold kids in Hk. rewrite Ht in Hk. apply bind_ok in Hk as (ys & Hm & E). injection E as <-.
    apply in_or_app. right. assert (Hc' : In c (filter (fun c => match t_kind c with KRef r => is_type_ref r | _ => false end) (t_children t))) by (apply filter_In; split; [exact (nth_error_In _ _ Hi)|rewrite K; destruct r; auto; congruence]).
    clear - Hm Hc' Fd. revert ys Hm. induction (filter (fun c => match t_kind c with KRef r => is_type_ref r | _ => false end) (t_children t)) as [|x xs IH]; intros ys Hm; [destruct Hc'|].
    cbn in Hm. apply bind_ok in Hm as (y & Hy & Hm). apply bind_ok in Hm as (zs & Hz & E). injection E as <-. destruct Hc' as [->|Hc]; [left; unfold ref_loc in Hy; rewrite Fd in Hy; now injection Hy|right; exact (IH Hc zs Hz)].
Qed.
Print Assumptions C42_schema.

(** What holds at every place of a concrete tree *)
Lemma everywhere root (P : loc -> tree -> bool) : forallb (fun l => match at_loc root l with Some t => P l t | None => true end) (locs root) = true ->
  forall l t, at_loc root l = Some t -> P l t = true.
Proof. intros H l t Hl. rewrite forallb_forall in H. specialize (H l (proj2 (locs_spec root l) (ex_intro _ t Hl))). now rewrite Hl in H. Qed.
Lemma everywhere2 root (P : loc -> tree -> loc -> tree -> bool) :
  forallb (fun l => match at_loc root l with Some t => forallb (fun m => match at_loc root m with Some u => P l t m u | None => true end) (locs root) | None => true end) (locs root) = true ->
  forall l t m u, at_loc root l = Some t -> at_loc root m = Some u -> P l t m u = true.
Proof. intros H l t m u Hl. apply everywhere. exact (everywhere root (fun l t => forallb (fun m => match at_loc root m with Some u => P l t m u | None => true end) (locs root)) H l t Hl). Qed.

Definition distinct_check (root : tree) : bool :=
  forallb (fun l => match at_loc root l with Some t => forallb (fun m => match at_loc root m with Some u =>
    (negb (is_definition (t_kind t) && is_definition (t_kind u) && String.eqb (py_class root l) (py_class root m)) || if loc_eq_dec l m then true else false)
    && negb (GenBuild.is_archive (t_kind t) && is_definition (t_kind u) && String.eqb (py_class root l ++ "Builder") (py_class root m)) | None => true end) (locs root) | None => true end) (locs root).
Lemma distinct_checked root : distinct_check root = true -> distinct_classes root.
Proof.
  intros H. pose proof (everywhere2 root (fun l t m u => (negb (is_definition (t_kind t) && is_definition (t_kind u) && String.eqb (py_class root l) (py_class root m)) || if loc_eq_dec l m then true else false)
    && negb (GenBuild.is_archive (t_kind t) && is_definition (t_kind u) && String.eqb (py_class root l ++ "Builder") (py_class root m))) H) as X. clear H. split.
  - intros l t m u Hl Hm K K' E. specialize (X l t m u Hl Hm). cbn beta in X. rewrite K, K', E, String.eqb_refl in X. apply andb_true_iff in X as (X & _). cbn in X. now destruct (loc_eq_dec l m).
  - intros l t m u Hl Hm K K' E. specialize (X l t m u Hl Hm). cbn beta in X. rewrite K', E, String.eqb_refl in X. apply andb_true_iff in X as (_ & X). rewrite K in X. discriminate.
Qed.
Definition resources_check (root : tree) : bool :=
  forallb (fun l => match at_loc root l with Some t => negb (GenBuild.is_archive (t_kind t)) || forallb (fun c => negb (under (t_name c)) && forallb (fun c' => negb (String.eqb (upper (t_name c)) (upper (t_name c'))) || String.eqb (t_name c) (t_name c')) (t_children t)) (t_children t) | None => true end) (locs root).
Lemma resources_checked root : resources_check root = true -> plain_resources root.
Proof.
  intros H. pose proof (everywhere root (fun l t => negb (GenBuild.is_archive (t_kind t)) || forallb (fun c => negb (under (t_name c)) && forallb (fun c' => negb (String.eqb (upper (t_name c)) (upper (t_name c'))) || String.eqb (t_name c) (t_name c')) (t_children t)) (t_children t)) H) as X. clear H.
  intros l t Hl K. specialize (X l t Hl). cbn beta in X. rewrite K in X. cbn in X. rewrite forallb_forall in X. split.
  - intros c rk o m Hc _ S. apply under_iff in S. specialize (X c Hc). rewrite S in X. discriminate.
  - intros c c' rk o m rk' o' m' Hc Hc' _ _ E. specialize (X c Hc). apply andb_true_iff in X as (_ & X). rewrite forallb_forall in X. specialize (X c' Hc'). rewrite E, String.eqb_refl in X. now apply String.eqb_eq.
Qed.

(** C48, in full: any two structures or archives have different classes.  False: the namespace [a_b] with a structure [C] and the
    namespace [a] with a structure [b_C] give one class name; so do an archive's builder and a structure named like it. *)
Definition names_underscore : pschema := [PNamespace "a_b" [] [PStruct "C" [PField "x" [] "u8" None]] [] []; PNamespace "a" [] [PStruct "b_C" [PField "y" [] "u16" None]] [] []].
Definition names_builder : pschema := [PNamespace "n" [] [PStruct "ABuilder" [PField "x" [] "u8" None]] [] [PArchive "A" [] [PResource "r" [] TRaw]]].
Definition tree_of (s : pschema) : tree := match build_ast same_order s with Ok t => t | Err _ => new_root end.
Definition sorted_keys (l : list string) : list string := l.
Theorem C48_refuted : (exists l t l' t', build_ast same_order names_underscore = Ok (tree_of names_underscore)
    /\ at_loc (tree_of names_underscore) l = Some t /\ at_loc (tree_of names_underscore) l' = Some t' /\ l <> l'
    /\ is_definition (t_kind t) = true /\ is_definition (t_kind t') = true
    /\ py_class (tree_of names_underscore) l = py_class (tree_of names_underscore) l')
  /\ exists l t l' t', build_ast same_order names_builder = Ok (tree_of names_builder)
    /\ at_loc (tree_of names_builder) l = Some t /\ at_loc (tree_of names_builder) l' = Some t' /\ t_kind t = KArchive /\ is_definition (t_kind t') = true
    /\ py_class (tree_of names_builder) l' = py_class (tree_of names_builder) l ++ "Builder".
Proof.
  split.
  - exists [0;0]%nat. eexists. exists [1;0]%nat. eexists. split; [vm_compute; reflexivity|]. split; [vm_compute; reflexivity|]. split; [vm_compute; reflexivity|]. split; [discriminate|]. repeat split; vm_compute; reflexivity.
  - exists [0;1]%nat. eexists. exists [0;0]%nat. eexists. split; [vm_compute; reflexivity|]. split; [vm_compute; reflexivity|]. split; [vm_compute; reflexivity|]. repeat split; vm_compute; reflexivity.
Qed.
(** The consequence: importing the module leaves one of the two classes only *)
Theorem C48_refuted_lost : exists g, generate_python sorted_keys (tree_of names_underscore) = Ok g
  /\ (exists sd s, dict_get g "a_b_C" = Some (ClsStruct sd s) /\ map f_name (s_fields sd) = ["y"])
  /\ py_class (tree_of names_underscore) [0;0]%nat = "a_b_C".
Proof.
  destruct (generate_python sorted_keys (tree_of names_underscore)) as [g|e] eqn:E; [|exfalso; vm_compute in E; discriminate].
  exists g. vm_compute in E. injection E as <-. split; [reflexivity|]. split; [eexists; eexists; split; reflexivity|vm_compute; reflexivity].
Qed.
(** C48, for schemas whose namespaces and definitions are named without underscores: all classes, including the builders of
    archives, have different names unless an archive [A] has a neighbour called [ABuilder]. *)
Theorem C48_partial : forall so s root, any_order so -> well_named s -> separated s -> no_builtin s -> build_ast so s = Ok root ->
  no_underscores s -> no_builder_clash root -> distinct_classes root.
Proof.
  intros so s root Hso W Sp Nb H Nu Nc. pose proof (well_named_clean s W) as C.
  exact (distinct_classes_of s root (build_ast_finished so s root Hso C Sp Nb H) (final_placed so s root Hso C Sp H) Nu Nc).
Qed.
Print Assumptions C48_partial.
Lemma example_separated : separated example.
Proof.
  intros p q n m Hp Hq Hn E. cbn in Hp, Hq. destruct Hp as [<-|[<-|[]]]; destruct Hq as [<-|[<-|[]]]; vm_compute in E; injection E as E; congruence || (subst; vm_compute in Hn; repeat destruct Hn as [Hn|Hn]; congruence || destruct Hn).
Qed.
Lemma example_no_builtin : no_builtin example.
Proof. intros p Hp. cbn in Hp. destruct Hp as [<-|[<-|[]]]; split; intros H; vm_compute in H; repeat destruct H as [H|H]; congruence || destruct H. Qed.
Lemma example_plain : plain_namespaces example.
Proof. intros p Hp (t & E). cbn in Hp. destruct Hp as [<-|[<-|[]]]; discriminate. Qed.
Lemma example_no_underscores : no_underscores example.
Proof. intros p Hp. cbn in Hp. destruct Hp as [<-|[<-|[]]]; split; intros k H; vm_compute in H; repeat destruct H as [<-|H]; reflexivity || destruct H. Qed.
Theorem C48_instance : any_order same_order /\ well_named example /\ separated example /\ no_builtin example /\ build_ast same_order example = Ok example_tree
  /\ no_underscores example /\ no_builder_clash example_tree /\ exists l l', py_class example_tree l = "n_a_S" /\ py_class example_tree l' = "n_a__builtin_multivector_IndexType33".
Proof.
  split; [exact same_order_any|]. split; [exact example_named|]. split; [exact example_separated|]. split; [exact example_no_builtin|]. split; [exact example_ok|]. split; [exact example_no_underscores|]. split.
  - intros l t l' t' Hl Hl' K K' Ep E.
    assert (X : forallb (fun l => match at_loc example_tree l with Some t => forallb (fun m => match at_loc example_tree m with Some u => negb (GenBuild.is_archive (t_kind t) && String.eqb (t_name u) (t_name t ++ "Builder")) | None => true end) (locs example_tree) | None => true end) (locs example_tree) = true) by (vm_compute; reflexivity).
    pose proof (everywhere2 example_tree (fun l t m u => negb (GenBuild.is_archive (t_kind t) && String.eqb (t_name u) (t_name t ++ "Builder"))) X l t l' t' Hl Hl') as Y. cbn beta in Y. rewrite K, E, String.eqb_refl in Y. discriminate.
  - exists [0;0;1]%nat, [0;0;4;0;0]%nat. split; vm_compute; reflexivity.
Qed.

(** C63: the generated Python module can be imported, and then holds, for every structure and every archive of the schema, the
    class with the declared layout or resources (and the builder class), and nothing else. *)
Definition same_members (ko : list string -> list string) : Prop := forall ks k, In k (ko ks) <-> In k ks.
Theorem C63_module_partial : forall so ko s root, any_order so -> same_members ko -> well_named s -> separated s -> no_builtin s -> build_ast so s = Ok root ->
  plain_namespaces s -> distinct_classes root -> plain_resources root ->
  exists g, generate_python ko root = Ok g
    /\ (forall l t bits, at_loc root l = Some t -> t_kind t = KStructure bits ->
          exists sd s, dict_get g (py_class root l) = Some (ClsStruct sd s) /\ struct_is root l sd /\ schema_text root l = Ok s)
    /\ (forall l t, at_loc root l = Some t -> t_kind t = KArchive ->
          exists a, dict_get g (py_class root l) = Some (ClsArchive a) /\ dict_get g (py_class root l ++ "Builder") = Some (ClsBuilder a) /\ archive_is root l a)
    /\ (forall n c, In (n, c) g -> exists l t, at_loc root l = Some t /\ is_definition (t_kind t) = true /\ (n = py_class root l \/ (t_kind t = KArchive /\ n = py_class root l ++ "Builder"))).
Proof.
  intros so ko s root Hso Hko W Sp Nb H Pn Dc Pr. pose proof (well_named_clean s W) as C. pose proof (build_ast_finished so s root Hso C Sp Nb H) as F.
  destruct (module_imports ko root Hko F (plain_classes_of s root F (final_placed so s root Hso C Sp H) Pn) Dc Pr) as (g & Eg & D & O).
  exists g. split; [exact Eg|]. split; [|split].
  - intros l t bits Hl K. specialize (D l t Hl). now rewrite K in D.
  - intros l t Hl K. specialize (D l t Hl). now rewrite K in D.
  - intros n c Hi. destruct (O n c Hi) as (l & t & Hl & [(K & ->)|(K & ->)]); exists l, t; (split; [exact Hl|]); [auto|]. split; [now rewrite K|auto].
Qed.
Print Assumptions C63_module_partial.
Theorem C63_instance : any_order same_order /\ same_members sorted_keys /\ well_named example /\ separated example /\ no_builtin example /\ build_ast same_order example = Ok example_tree
  /\ plain_namespaces example /\ distinct_classes example_tree /\ plain_resources example_tree
  /\ exists g a it ts, generate_python sorted_keys example_tree = Ok g /\ dict_get g "n_a_Ar" = Some (ClsArchive a)
      /\ nth_error (a_resources a) 2 = Some ("m", RSig (CMultivector it [ts]) (match schema_text example_tree [0;0;3;1]%nat with Ok s => ascii_bytes s | Err _ => [] end) false)
      /\ s_name it = "n_a__builtin_multivector_IndexType33" /\ map f_width (s_fields it) = [33] /\ s_size it = 5
      /\ s_name ts = "n_a_S" /\ map (fun f => (f_name f, f_off f, f_width f)) (s_fields ts) = [("x",0,3);("e",3,2);("r",5,20)].
Proof.
  split; [exact same_order_any|]. split; [intros ks k; reflexivity|]. split; [exact example_named|]. split; [exact example_separated|]. split; [exact example_no_builtin|]. split; [exact example_ok|]. split; [exact example_plain|].
  split; [apply distinct_checked; vm_compute; reflexivity|]. split; [apply resources_checked; vm_compute; reflexivity|].
  destruct (generate_python sorted_keys example_tree) as [g|e] eqn:E; [|exfalso; vm_compute in E; discriminate].
  vm_compute in E. injection E as <-. eexists. eexists. eexists. eexists. split; [reflexivity|]. split; [reflexivity|]. split; [vm_compute; reflexivity|]. repeat split; vm_compute; reflexivity.
Qed.
(** Without the conditions on names the module need not import: a namespace starting with two underscores is mangled inside the
    class bodies, and the class [_FOO_SCHEMA] of namespace [_FOO] is hidden by the schema attribute of resource [foo]. *)
Definition mangled_schema : pschema := [PNamespace "__n" [] [PStruct "S" [PField "x" [] "u8" None]] [] [PArchive "A" [] [PResource "r" [] (TVector "S")]]].
Definition hidden_schema : pschema := [PNamespace "_FOO" [] [PStruct "SCHEMA" [PField "x" [] "u8" None]] [] [PArchive "A" [] [PResource "foo" [] (TVector "SCHEMA")]]].
Theorem C63_refuted : build_ast same_order mangled_schema = Ok (tree_of mangled_schema) /\ generate_python sorted_keys (tree_of mangled_schema) = Err NameError
  /\ build_ast same_order hidden_schema = Ok (tree_of hidden_schema) /\ generate_python sorted_keys (tree_of hidden_schema) = Err TypeError.
Proof. repeat split; vm_compute; reflexivity. Qed.

(** C57, in full: the schema of every resource of a generated archive class is that resource's.  False for resources whose names
    differ in case only, and for names starting with an underscore. *)
Definition same_upper : pschema := [PNamespace "n" [] [PStruct "S" [PField "x" [] "u8" None]] [] [PArchive "A" [] [PResource "r" [] (TVector "S"); PResource "R" [] TRaw]]].
Theorem C57_refuted : exists root g a sr sR, build_ast same_order same_upper = Ok root /\ generate_python sorted_keys root = Ok g /\ dict_get g "n_A" = Some (ClsArchive a)
  /\ schema_text root [0;1;0]%nat = Ok sr /\ schema_text root [0;1;1]%nat = Ok sR /\ sr <> sR
  /\ exists c, nth_error (a_resources a) 1 = Some ("r", RSig c (ascii_bytes sR) false).
Proof.
  eexists. eexists. eexists. eexists. eexists. split; [vm_compute; reflexivity|]. split; [vm_compute; reflexivity|]. split; [vm_compute; reflexivity|]. split; [vm_compute; reflexivity|]. split; [vm_compute; reflexivity|].
  split; [discriminate|]. eexists. vm_compute. reflexivity.
Qed.
(** C57 when resource names are distinct in capitals and start with no underscore: each resource has its own schema text *)
Lemma resources_own root l t : at_loc root l = Some t -> forall i cs rs, resources_are root l i cs rs -> cs = skipn i (t_children t) ->
  forall n c b o, In (n, RSig c b o) rs -> exists j r rk m s, child_at root l j r /\ t_name r = n /\ t_kind r = KResource rk o m /\ schema_text root (l ++ [j])%list = Ok s /\ b = ascii_bytes s.
Proof.
  intros Ht i cs rs R. revert Ht. assert (Sk : forall (A : Type) (xs : list A) i x ys, x :: ys = skipn i xs -> nth_error xs i = Some x /\ ys = skipn (S i) xs).
  { clear. induction xs as [|y xs IH]; intros [|i] x ys E; cbn in *; try discriminate; [injection E as -> ->; auto|exact (IH i x ys E)]. }
  induction R as [l i|l i u ts rs K R IH|l i u ts rs rk o m c s K Nb Ci St R IH]; intros Ht Ec n c0 b o0 Hi; [destruct Hi| |].
  - exact (IH Ht (proj2 (Sk _ _ _ _ _ Ec)) n c0 b o0 Hi).
  - destruct (Sk _ _ _ _ _ Ec) as (Nu & Ec'). destruct Hi as [E|Hi]; [|exact (IH Ht Ec' n c0 b o0 Hi)]. injection E as <- <- <- <-. exists i, u, rk, m, s. split; [|auto].
    unfold child_at. rewrite at_loc_app, Ht. cbn. now rewrite Nu.
Qed.
Theorem C57_own_schema_partial : forall so ko s root, any_order so -> same_members ko -> well_named s -> separated s -> no_builtin s -> build_ast so s = Ok root ->
  plain_namespaces s -> distinct_classes root -> plain_resources root ->
  exists g, generate_python ko root = Ok g /\ forall l t, at_loc root l = Some t -> t_kind t = KArchive ->
    exists a s0 rs, dict_get g (py_class root l) = Some (ClsArchive a) /\ dict_get g (py_class root l ++ "Builder") = Some (ClsBuilder a)
      /\ schema_text root l = Ok s0 /\ a_schema a = ascii_bytes s0 /\ a_resources a = (t_name t ++ ".archive", RSig CRawData (ascii_bytes s0) false) :: rs
      /\ (forall n c b o, In (n, RSig c b o) rs -> exists i r rk m s1, child_at root l i r /\ t_name r = n /\ t_kind r = KResource rk o m /\ schema_text root (l ++ [i])%list = Ok s1 /\ b = ascii_bytes s1)
      /\ map fst rs = map t_name (filter (fun c => is_supported_resource (t_kind c)) (t_children t)).
Proof.
  intros so ko s root Hso Hko W Sp Nb H Pn Dc Pr. destruct (C63_module_partial so ko s root Hso Hko W Sp Nb H Pn Dc Pr) as (g & Eg & _ & Da & _). exists g. split; [exact Eg|].
  intros l t Hl K. destruct (Da l t Hl K) as (a & E1 & E2 & Ai). destruct Ai as [l t' s0 rs Ht' Kt Es Rs]. rewrite Hl in Ht'. injection Ht' as <-. eexists. exists s0, rs. split; [exact E1|]. split; [exact E2|]. split; [exact Es|]. split; [reflexivity|]. split; [reflexivity|]. split.
  - exact (resources_own root l t Hl O _ rs Rs eq_refl).
  - clear - Rs. induction Rs as [l i|l i u ts rs K R IH|l i u ts rs rk o m c s K Nb Ci St R IH]; [reflexivity| |]; cbn [filter map].
    + replace (is_supported_resource (t_kind u)) with false; [exact IH|]. destruct (t_kind u) eqn:Ku; try reflexivity. now rewrite (K _ _ _ eq_refl).
    + rewrite K. destruct rk; try (cbn; now rewrite IH); congruence.
Qed.
Print Assumptions C57_own_schema_partial.
Theorem C57_instance : plain_resources example_tree /\ distinct_classes example_tree
  /\ match schema_text example_tree [0;0;3;0]%nat, schema_text example_tree [0;0;3;2]%nat with Ok a, Ok b => a <> b /\ a <> "" /\ b <> "" | _, _ => False end.
Proof. split; [apply resources_checked; vm_compute; reflexivity|]. split; [apply distinct_checked; vm_compute; reflexivity|]. vm_compute. repeat split; discriminate. Qed.

(** C64: for an archive without sub-archives, the generated builder class writes any storable data (all resources that are not
    optional, any of the optional ones, in any order) such that the generated archive class opens it and every resource that was
    set reads back as the value that was set, every other one as None. *)
Lemma archive_outside so s root : any_order so -> well_named s -> separated s -> no_builtin s -> build_ast so s = Ok root ->
  forall l t, at_loc root l = Some t -> t_kind t = KArchive -> is_builtin root l = false.
Proof.
  intros Hso W Sp Nb H l t Hl K. pose proof (well_named_clean s W) as C. pose proof (build_ast_finished so s root Hso C Sp Nb H) as F.
  destruct (class_keys s root F (final_placed so s root Hso C Sp H) l t Hl) as (p & Hp & [(n & E & _)|(w & sz & _ & Kq)]); [now rewrite K| |congruence].
  apply app_inj_tail in E as (E & _). unfold is_builtin. rewrite E. destruct (existsb (String.eqb "_builtin") (ns_keys p)) eqn:X; [|reflexivity]. apply existsb_exists in X as (k & Hk & Ek). apply String.eqb_eq in Ek. subst k. destruct (proj1 (Nb p Hp) Hk).
Qed.
Theorem C64_usable_partial : forall so ko s root, any_order so -> same_members ko -> identifiers s -> separated s -> no_builtin s -> build_ast so s = Ok root ->
  plain_namespaces s -> distinct_classes root -> plain_resources root -> usable_layouts root -> few_types root -> no_index_clash root ->
  exists g, generate_python ko root = Ok g /\ forall l t, at_loc root l = Some t -> t_kind t = KArchive ->
    exists a, dict_get g (py_class root l) = Some (ClsArchive a) /\ dict_get g (py_class root l ++ "Builder") = Some (ClsBuilder a) /\ archive_is root l a
      /\ (no_subarchives a -> forall d0 sets, HistorySpec.clean a d0 -> NoDup (map fst sets) ->
          (forall n v, In (n, v) sets -> n <> archive_file a /\ exists sig, In (n, sig) (a_resources a) /\ storable sig v) ->
          (forall n sig, In (n, sig) (a_resources a) -> n <> archive_file a -> r_optional sig = false -> In n (map fst sets)) ->
          forall calls, calls = sets_of sets \/ calls = (sets_of sets ++ [Finish])%list ->
          exists rs, open_archive a (storage_of_fs (files_after d0 (build a calls))) = Ok rs /\
            (forall n v sig, In (n, v) sets -> In (n, sig) (a_resources a) -> exists o, archive_getattr rs n = Ok o /\ holds sig v o) /\
            (forall n sig, In (n, sig) (a_resources a) -> ~ In n (map fst sets) -> archive_getattr rs n = Ok None)).
Proof.
  intros so ko s root Hso Hko Id Sp Nb H Pn Dc Pr U Ft Ni. pose proof (identifiers_named s Id) as W. pose proof (well_named_clean s W) as C.
  pose proof (build_ast_finished so s root Hso C Sp Nb H) as F. pose proof (final_words so s root Hso C (identifiers_words s Id) H) as Ww. pose proof (archive_outside so s root Hso W Sp Nb H) as Out.
  destruct (C63_module_partial so ko s root Hso Hko W Sp Nb H Pn Dc Pr) as (g & Eg & _ & Da & _). exists g. split; [exact Eg|]. intros l t Hl K. destruct (Da l t Hl K) as (a & E1 & E2 & Ai). exists a. split; [exact E1|]. split; [exact E2|]. split; [exact Ai|].
  intros Ns d0 sets Cl Nd St Rq. apply (C28_end_to_end a d0 sets); auto.
  - exact (archive_generated root F Ni l a Ai).
  - exact (archive_sizes root F U l a Ai).
  - exact (archive_schemas root F Ww Out l a Ai).
  - intros n v Hi. destruct (St n v Hi) as (Na & sig & Hs & V). split; [exact Na|]. exists sig. split; [exact Hs|]. exact (archive_storable root F U Ft Dc l a n sig v Ai Na Hs V).
Qed.
Print Assumptions C64_usable_partial.

Definition field_of (c : tree) : fsig :=
  match t_kind c with KField _ (Some ty) (Some off) => FSig (t_name c) off (ft_width ty) (ft_signed ty) | _ => FSig "" 0 0 false end.
Lemma layout_fields fs cs : layout_is fs cs -> fs = map field_of cs.
Proof. induction 1 as [|f c fs cs (rng & ty & K & N & Wf & Sf) _ IH]; [reflexivity|]. cbn [map]. rewrite <- IH. f_equal. unfold field_of. rewrite K, <- N, <- Wf, <- Sf. now destruct f. Qed.
Definition good_field (f : fsig) : bool :=
  (1 <=? f_width f) && (negb (f_width f =? 1) || negb (f_signed f)) && negb ((f_width f =? 64) && negb (f_signed f) && negb (f_off f mod 8 =? 0)).
Lemma usable_checked root :
  forallb (fun l => match at_loc root l with Some t => match t_kind t with KStructure _ => match t_children t with [] => false | _ => forallb (fun c => good_field (field_of c)) (t_children t) end | _ => true end | None => true end) (locs root) = true -> usable_layouts root.
Proof.
  intros H. pose proof (everywhere root (fun l t => match t_kind t with KStructure _ => match t_children t with [] => false | _ => forallb (fun c => good_field (field_of c)) (t_children t) end | _ => true end) H) as X. clear H.
  intros l sd (n & bits & cs & Hl & _ & _ & La & _). specialize (X l _ Hl). cbn in X. rewrite (layout_fields _ _ La). destruct cs as [|c cs]; [discriminate|]. split; [discriminate|].
  assert (G : forall f, In f (map field_of (c :: cs)) -> good_field f = true) by (intros f Hf; apply in_map_iff in Hf as (x & <- & Hx); rewrite forallb_forall in X; exact (X x Hx)). clear X La Hl. split.
  - apply Forall_forall. intros f Hf. specialize (G f Hf). unfold good_field in G. apply andb_true_iff in G as (G & _). apply andb_true_iff in G as (G1 & G2). apply Z.leb_le in G1. split; [exact G1|]. intros E. rewrite E in G2. cbn in G2. now destruct (f_signed f).
  - intros f Hf E Sf Al. specialize (G f Hf). unfold good_field in G. apply andb_true_iff in G as (_ & G). rewrite E, Sf in G. cbn in G. rewrite negb_involutive in G. apply Z.eqb_eq in G. congruence.
Qed.
Lemma example_usable : usable_layouts example_tree. Proof. apply usable_checked. vm_compute. reflexivity. Qed.
Lemma example_few : few_types example_tree.
Proof.
  intros l t w o m Hl K. pose proof (everywhere example_tree (fun l t => zlen (filter (fun c => is_structure_ref (t_kind c)) (t_children t)) <=? 256) ltac:(vm_compute; reflexivity) l t Hl) as X. cbn beta in X. now apply Z.leb_le in X.
Qed.
Lemma example_indices : no_index_clash example_tree.
Proof.
  intros l t c c' w o m rk o' m' Hl K Hc Hc' _ _ E. pose proof (everywhere example_tree (fun l t => forallb (fun c => forallb (fun c' => negb (String.eqb (t_name c') (t_name c ++ "_index"))) (t_children t)) (t_children t)) ltac:(vm_compute; reflexivity) l t Hl) as X.
  cbn beta in X. rewrite forallb_forall in X. specialize (X c Hc). rewrite forallb_forall in X. specialize (X c' Hc'). rewrite E, String.eqb_refl in X. discriminate.
Qed.
Lemma example_identifiers : identifiers example.
Proof. intros p n Hp Hn. assert (X : forallb (fun p => forallb (only_chars plain_char) (mentioned p)) example = true) by (vm_compute; reflexivity). rewrite forallb_forall in X. specialize (X p Hp). rewrite forallb_forall in X. exact (X n Hn). Qed.
(** the archive [Ar] of the example: a vector of two records, a multivector with an empty bucket, no raw data *)
Definition example_rec (x e r : Z) : record := [("x", PInt x); ("e", PInt e); ("r", PInt r)].
Definition example_sets : list (string * setval) :=
  [("v", SRecords [example_rec 7 2 1048575; example_rec 0 0 3]); ("m", SBuckets [[("n_a_S", example_rec 1 1 1)]; []; [("n_a_S", example_rec 2 0 9); ("n_a_S", example_rec 3 2 0)]])].
Definition example_archive : adef := match generate_python sorted_keys example_tree with Ok g => match dict_get g "n_a_Ar" with Some (ClsArchive a) => a | _ => ADef "" [] [] end | Err _ => ADef "" [] [] end.
Theorem C64_instance : any_order same_order /\ same_members sorted_keys /\ identifiers example /\ separated example /\ no_builtin example /\ build_ast same_order example = Ok example_tree
  /\ plain_namespaces example /\ distinct_classes example_tree /\ plain_resources example_tree /\ usable_layouts example_tree /\ few_types example_tree /\ no_index_clash example_tree
  /\ (exists g, generate_python sorted_keys example_tree = Ok g /\ dict_get g (py_class example_tree [0;0;3]%nat) = Some (ClsArchive example_archive))
  /\ no_subarchives example_archive /\ HistorySpec.clean example_archive [] /\ NoDup (map fst example_sets)
  /\ (forall n v, In (n, v) example_sets -> n <> archive_file example_archive /\ exists sig, In (n, sig) (a_resources example_archive) /\ storable sig v)
  /\ (forall n sig, In (n, sig) (a_resources example_archive) -> n <> archive_file example_archive -> r_optional sig = false -> In n (map fst example_sets)).
Proof.
  split; [exact same_order_any|]. split; [intros ks k; reflexivity|]. split; [exact example_identifiers|]. split; [exact example_separated|]. split; [exact example_no_builtin|]. split; [exact example_ok|]. split; [exact example_plain|].
  split; [apply distinct_checked; vm_compute; reflexivity|]. split; [apply resources_checked; vm_compute; reflexivity|]. split; [exact example_usable|]. split; [exact example_few|]. split; [exact example_indices|].
  assert (Er : a_resources example_archive = ltac:(let x := eval vm_compute in (a_resources example_archive) in exact x)) by (vm_compute; reflexivity).
  assert (Nm : map fst (a_resources example_archive) = ["Ar.archive"; "v"; "m"; "q"]) by (vm_compute; reflexivity).
  split. { destruct (generate_python sorted_keys example_tree) as [g|e] eqn:E; [|exfalso; vm_compute in E; discriminate]. exists g. split; [reflexivity|]. unfold example_archive. rewrite E. vm_compute in E. injection E as <-. vm_compute. reflexivity. }
  split. { intros n sig Hi. assert (X : forallb (fun r => negb (OpenSpec.is_archive (r_container (snd r)))) (a_resources example_archive) = true) by (vm_compute; reflexivity). rewrite forallb_forall in X. specialize (X _ Hi). cbn [snd] in X. clear Hi. destruct (OpenSpec.is_archive (r_container sig)); [discriminate X|reflexivity]. }
  split; [intros n sig f _ _; reflexivity|]. split; [repeat constructor; cbn; intuition discriminate|]. split.
  - intros n v Hi. assert (Ef : archive_file example_archive = "Ar.archive") by (vm_compute; reflexivity). rewrite Ef. destruct Hi as [E|[E|[]]]; injection E as <- <-; (split; [discriminate|]).
    + eexists. split; [rewrite Er; right; left; reflexivity|]. cbn [storable r_container]. split; [vm_compute; reflexivity|]. exists [[7; 2; 1048575]; [0; 0; 3]].
      repeat (constructor; [split; [repeat (constructor; [split; [vm_compute; reflexivity|vm_compute; split; congruence]|]); constructor|intros k Hk; vm_compute in Hk |- *; tauto]|]). constructor.
    + eexists. split; [rewrite Er; right; right; left; reflexivity|]. cbn [storable r_container]. split; [vm_compute; reflexivity|]. exists [[(0, [1; 1; 1])]; []; [(0, [2; 0; 9]); (0, [3; 2; 0])]]. split.
      * repeat (first [apply Forall2_nil | apply Forall2_cons]); (eexists; split; [cbn [fst]; lia|]; split; [vm_compute; reflexivity|]; split; [reflexivity|]; split; [repeat (constructor; [split; [vm_compute; reflexivity|vm_compute; split; congruence]|]); constructor|intros k Hk; vm_compute in Hk |- *; tauto]).
      * intros f [<-|[]]. vm_compute. reflexivity.
  - intros n sig Hi Na Op. pose proof (in_map fst _ _ Hi) as Hn. cbn [fst] in Hn. rewrite Nm in Hn. destruct Hn as [<-|[<-|[<-|[<-|[]]]]].
    + exfalso. apply Na. vm_compute. reflexivity.
    + left. reflexivity.
    + right. left. reflexivity.
    + exfalso. assert (X : forallb (fun r => negb (String.eqb (fst r) "q") || r_optional (snd r)) (a_resources example_archive) = true) by (vm_compute; reflexivity).
      rewrite forallb_forall in X. specialize (X _ Hi). cbn [fst snd] in X. rewrite Op in X. discriminate X.
Qed.
(** Without the condition on index names the statement is false: the generator accepts a resource [m_index] beside a multivector
    [m]; what the builder writes for the two can not be opened. *)
Definition clash_schema : pschema := [PNamespace "n" [] [PStruct "S" [PField "x" [] "u8" None]] [] [PArchive "A" [] [PResource "m" [] (TMulti 8%N ["S"]); PResource "m_index" [] TRaw]]].
Definition clash_archive : adef := match generate_python sorted_keys (tree_of clash_schema) with Ok g => match dict_get g "n_A" with Some (ClsArchive a) => a | _ => ADef "" [] [] end | Err _ => ADef "" [] [] end.
Definition clash_sets : list (string * setval) := [("m", SBuckets [[("n_S", [("x", PInt 5)])]]); ("m_index", SBytes [1;2;3])].
Theorem C64_refuted : build_ast same_order clash_schema = Ok (tree_of clash_schema)
  /\ (exists g, generate_python sorted_keys (tree_of clash_schema) = Ok g /\ dict_get g "n_A" = Some (ClsArchive clash_archive))
  /\ (forall n v, In (n, v) clash_sets -> n <> archive_file clash_archive /\ exists sig, In (n, sig) (a_resources clash_archive) /\ storable sig v)
  /\ open_archive clash_archive (storage_of_fs (files_after [] (build clash_archive (sets_of clash_sets)))) = Err (SchemaMismatchError "m_index").
Proof.
  split; [vm_compute; reflexivity|]. split.
  { destruct (generate_python sorted_keys (tree_of clash_schema)) as [g|e] eqn:E; [|exfalso; vm_compute in E; discriminate]. exists g. split; [reflexivity|]. unfold clash_archive. rewrite E. vm_compute in E. injection E as <-. vm_compute. reflexivity. }
  split; [|vm_compute; reflexivity].
  assert (Er : a_resources clash_archive = ltac:(let x := eval vm_compute in (a_resources clash_archive) in exact x)) by (vm_compute; reflexivity).
  intros n v Hi. assert (Ef : archive_file clash_archive = "A.archive") by (vm_compute; reflexivity). rewrite Ef. destruct Hi as [E|[E|[]]]; injection E as <- <-; (split; [discriminate|]).
  - eexists. split; [rewrite Er; right; left; reflexivity|]. cbn [storable r_container]. split; [vm_compute; reflexivity|]. exists [[(0, [5])]]. split.
    + repeat (first [apply Forall2_nil | apply Forall2_cons]); (eexists; split; [cbn [fst]; lia|]; split; [vm_compute; reflexivity|]; split; [reflexivity|]; split; [repeat (constructor; [split; [vm_compute; reflexivity|vm_compute; split; congruence]|]); constructor|intros k Hk; vm_compute in Hk |- *; tauto]).
    + intros f [<-|[]]. vm_compute. reflexivity.
  - eexists. split; [rewrite Er; right; right; left; reflexivity|]. cbn [storable r_container]. split; [|vm_compute; reflexivity]. repeat constructor; lia.
Qed.
