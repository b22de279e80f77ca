(** C95: what the names of types and constants in generated Rust and C++ code stand for. *)
From Coq Require Import List ZArith Bool String Ascii Lia Permutation.
From Verif Require GenSpec.
From Verif Require Import PyBase PyText GenTypes GenTypesFacts GenTree GenTreeFacts GenTraversal GenBuild GenBuildFacts GenPassFacts GenAstFacts GenAstSpec GenLayoutFacts
  GenResolveFacts GenMergeFacts GenShapeFacts GenEvery GenFieldFacts GenTidy GenWords GenOutFacts GenFinal GenRender GenNames GenPaths PathSpec PathFacts NameFacts Props_Names
  Grammar Props_GenTree Props_Embed.
Import ListNotations.
Local Open Scope string_scope.

(** Code generated for the schema [s]; Rust code is included in a module [outer] of a crate *)
Definition generated (so : list Z -> list Z) (s : pschema) (root : tree) : Prop :=
  any_order so /\ identifiers s /\ separated s /\ no_builtin s /\ build_ast so s = Ok root.
Lemma generated_finished so s root : generated so s root -> finished root /\ every word_node root.
Proof.
  intros (O & I & S & N & H). pose proof (identifiers_finished so s root O I S N H) as F. split; [exact F|].
  exact (final_words so s root O (well_named_clean s (identifiers_named s I)) (identifiers_words s I) H).
Qed.

(** In module [here] the text names the definition at [d], and no other definition of that sort (type or constant) *)
Definition rust_finds (root : tree) (outer here : list string) (text : string) (d : loc) : Prop :=
  exists m v, declared root d m v /\ rust_names (outer ++ here) text (outer ++ m) (rust_item v)
    /\ forall d' m' v', declared root d' m' v' -> is_const (t_kind v') = is_const (t_kind v) -> rust_names (outer ++ here) text (outer ++ m') (rust_item v') -> d' = d.
Definition cpp_finds (root : tree) (text : string) (d : loc) : Prop :=
  exists m v, declared root d m v /\ cpp_names text m (cpp_item v) /\ forall d' m' v', declared root d' m' v' -> cpp_names text m' (cpp_item v') -> d' = d.
(** No namespace and no definition is called [super] *)
Definition no_super (root : tree) : Prop := forall l m v, declared root l m v -> ~ In "super" (m ++ [t_name v])%list.

(** All references of archives, resources and fields are to definitions of the right kind that are part of the generated code. *)
Theorem C95_meant : forall so s root l c r, generated so s root -> at_loc root l = Some c -> t_kind c = KRef r -> (r <> RResource /\ r <> RField) ->
  exists d v m, ref_node root c = Some d /\ declared root d m v
    /\ match r with
       | RStructure | RBuiltin => exists size, t_kind v = KStructure size
       | RArchive => t_kind v = KArchive
       | REnum _ => exists b, t_kind v = KEnum b
       | _ => exists ty n, t_kind v = KConstant ty n
       end.
Proof.
  intros so s root l c r G H K (N1 & N2). destruct (generated_finished so s root G) as (F & W). destruct (ref_target root F l c r H K) as (d & v & p & _ & Fd & Hv & Ex & _).
  assert (D : is_declared (t_kind v) = true) by (destruct r, (t_kind v); try discriminate; try congruence; reflexivity).
  destruct (declared_intro root F d v Hv D) as (m & Dm). exists d, v, m. split; [exact Fd|]. split; [exact Dm|].
  destruct r, (t_kind v); try discriminate; try congruence; eauto.
Qed.
Print Assumptions C95_meant.

Lemma types_found root here l u d m v outer : finished root -> every word_node root -> no_super root -> declared root l here u -> declared root d m v -> is_const (t_kind v) = false ->
  exists text, rust_path root l d = Some text /\ rust_finds root outer here text d.
Proof.
  intros F W Ns Dl Dd Kc. destruct (rust_path_names root F W l here u d m v outer Dl Dd (Ns _ _ _ Dd) (declared_module_inhabited root F _ _ _ Dl)) as (text & E & R).
  exists text. split; [exact E|]. exists m, v. split; [exact Dd|]. assert (I : rust_item v = t_name v) by (unfold rust_item; now rewrite Kc). rewrite I. split; [exact R|].
  intros d' m' v' Dd' Kc' R'. rewrite Kc in Kc'. unfold rust_item in R'. rewrite Kc' in R'. destruct (rust_names_unique _ _ _ _ _ _ R' R) as (Em & En). apply app_inv_head in Em.
  exact (declared_same root F _ _ _ _ _ _ Dd' Dd Em En).
Qed.
(** Rust: the path written for a type in a structure or archive names that type, wherever the generated code is included. *)
Theorem C95_rust_types : forall so s root outer l here u d m v, generated so s root -> no_super root ->
  declared root l here u -> declared root d m v -> is_const (t_kind v) = false ->
  exists text, rust_path root l d = Some text /\ rust_finds root outer here text d.
Proof. intros so s root outer l here u d m v G Ns Dl Dd Kc. destruct (generated_finished so s root G) as (F & W). now apply (types_found root here l u d m v). Qed.
Print Assumptions C95_rust_types.


(** A name without small letters *)
Definition capitals (n : string) : Prop := upper n = n.
Lemma capitals_shouted n : capitals n -> shouted n.
Proof.
  unfold capitals, shouted. induction n as [|c n IH]; cbn; [reflexivity|]. intros [= A B]. rewrite (IH B). destruct c as [[] [] [] [] [] [] [] []]; cbn in A |- *; try reflexivity; discriminate.
Qed.
Lemma upper_capitals s : capitals (upper s).
Proof.
  unfold capitals. induction s as [|c s IH]; cbn; [reflexivity|]. rewrite IH. f_equal. destruct c as [[] [] [] [] [] [] [] []]; reflexivity.
Qed.
(** Rust: the path written for a constant names that constant if its name has no small letter; otherwise it names no constant, and the
    generated code does not compile (C95_rust_refuted). *)
Theorem C95_rust_constants_partial : forall so s root outer l here u d m v, generated so s root -> no_super root ->
  declared root l here u -> declared root d m v -> is_const (t_kind v) = true ->
  (forall d' v', declared root d' m v' -> is_const (t_kind v') = true -> rust_item v' = rust_item v -> d' = d) ->
  exists text, rust_path root l d = Some text
    /\ (capitals (t_name v) -> rust_finds root outer here text d)
    /\ (~ capitals (t_name v) -> forall d' m' v', declared root d' m' v' -> is_const (t_kind v') = true -> ~ rust_names (outer ++ here) text (outer ++ m') (rust_item v')).
Proof.
  intros so s root outer l here u d m v G Ns Dl Dd Kc Un. destruct (generated_finished so s root G) as (F & W).
  destruct (rust_path_names root F W l here u d m v outer Dl Dd (Ns _ _ _ Dd) (declared_module_inhabited root F _ _ _ Dl)) as (text & E & R). exists text. split; [exact E|]. split.
  - intros C. assert (I : rust_item v = t_name v) by (unfold rust_item; rewrite Kc; apply C94_capitals_kept; now apply capitals_shouted).
    exists m, v. split; [exact Dd|]. split; [rewrite I; exact R|]. intros d' m' v' Dd' Kc' R'. rewrite Kc in Kc'. rewrite <- I in R. destruct (rust_names_unique _ _ _ _ _ _ R' R) as (Em & En). apply app_inv_head in Em. subst m'.
    now apply (Un d' v').
  - intros C d' m' v' Dd' Kc' R'. destruct (rust_names_unique _ _ _ _ _ _ R' R) as (_ & En). apply C. rewrite <- En. unfold rust_item. rewrite Kc'. apply upper_capitals.
Qed.
Print Assumptions C95_rust_constants_partial.

(** C++: the path written for a definition names it. *)
Lemma cpp_found root d m v : finished root -> every word_node root -> declared root d m v -> exists text, path_with "::" root d = Some text /\ cpp_finds root text d.
Proof.
  intros F W Dd. exists ("::" ++ separated_by "::" (m ++ [t_name v])%list). split; [exact (path_text root F d m v "::" Dd)|].
  assert (N : cpp_names ("::" ++ separated_by "::" (m ++ [t_name v])%list) m (cpp_item v)) by (split; [reflexivity|exact (declared_segments root F W d m v Dd)]).
  exists m, v. split; [exact Dd|]. split; [exact N|]. intros d' m' v' Dd' N'. destruct (cpp_names_unique _ _ _ _ _ N' N) as (Em & En). exact (declared_same root F _ _ _ _ _ _ Dd' Dd Em En).
Qed.
Theorem C95_cpp : forall so s root d m v, generated so s root -> declared root d m v -> exists text, path_with "::" root d = Some text /\ cpp_finds root text d.
Proof. intros so s root d m v G Dd. destruct (generated_finished so s root G) as (F & W). now apply (cpp_found root d m v). Qed.
Print Assumptions C95_cpp.

(** The types of the languages for the basic types of the schema *)
Definition cpp_basic_name (signed : bool) (width : Z) : string :=
  if (width =? 1)%Z then "bool" else (if signed then "int" else "uint") ++ py_str width ++ "_t".
Lemma basic_named ty : basic ty -> exists sg w, In (ft_name ty, (sg, w)) GenSpec.basic_types.
Proof.
  intros (w & b & H & ->). cbn [ft_name]. apply make_btype_ok in H as (st & Hs & -> & _). apply storage_spec in Hs. eauto.
Qed.
(** The type of a field in the code: for a basic type the type of that name (Rust) or that sign and width (C++); for an enumeration a path
    that names the enumeration the schema meant, stored as the type the enumeration declares. *)
Theorem C95_fields : forall so s root outer l here u i f rng ty off, generated so s root -> no_super root ->
  declared root l here u -> at_loc root (l ++ [i])%list = Some f -> t_kind f = KField rng (Some ty) off ->
  (exists sg w, In (ft_name ty, (sg, w)) GenSpec.basic_types
     /\ rust_field_type root l f = Some (ft_name ty) /\ rust_primitive_type root f = Some (ft_name ty) /\ cpp_field_type f = Some (cpp_basic_name sg w))
  \/ (exists j r rw d m v b text ctext, at_loc root (l ++ [i] ++ [j])%list = Some r /\ t_kind r = KRef (REnum rw) /\ ref_node root r = Some d
     /\ declared root d m v /\ t_kind v = KEnum b
     /\ rust_field_type root l f = Some text /\ rust_finds root outer here text d /\ rust_primitive_type root f = Some (bt_name b)
     /\ cpp_field_type f = Some ctext /\ cpp_finds root ctext d).
Proof.
  intros so s root outer l here u i f rng ty off G Ns Dl Hf Kf. destruct (generated_finished so s root G) as (F & W).
  destruct (f_fields _ F _ _ _ _ _ Hf Kf) as [Hb|He].
  - left. destruct (basic_named ty Hb) as (sg & w & Hin). exists sg, w. split; [exact Hin|]. unfold rust_field_type, rust_primitive_type, cpp_field_type. rewrite Kf. unfold is_enum_type. cbn in Hin.
    repeat (destruct Hin as [E|Hin]; [injection E as <- <- <-; vm_compute; auto|]). destruct Hin.
  - right. destruct He as (j & r & rw & d & n & b & b' & cs & Hr & Kr & Fd & Hd & _ & Ety).
    assert (Hr' : at_loc root (l ++ [i] ++ [j])%list = Some r) by (rewrite app_assoc; exact Hr).
    destruct (declared_intro root F d _ Hd eq_refl) as (m & Dd). set (v := Node n (KEnum b) cs) in *.
    destruct (types_found root here l u d m v outer F W Ns Dl Dd eq_refl) as (text & E & R).
    destruct (cpp_found root d m v F W Dd) as (ctext & Ec & Rc).
    destruct (proj1 (b_rooted _ (f_built _ F)) _ _ Hr) as (_ & _ & M). rewrite Kr in M. destruct M as ((t & Et) & _).
    assert (En : is_enum_type ty = true) by (rewrite Ety; unfold is_enum_type; cbn [ft_name]; rewrite Et; reflexivity).
    assert (Tr : exists r', type_reference f ty = Some r' /\ t_name r' = t_name r).
    { destruct (parent_at _ _ _ _ Hr) as (f' & Hf' & Hc). rewrite Hf in Hf'. injection Hf' as <-. apply nth_error_In in Hc.
      assert (Hi : In r (filter (fun r => String.eqb (t_name r) (ft_name ty)) (children_like f is_enum_ref))).
      { apply filter_In. split; [|rewrite Ety; apply String.eqb_refl]. unfold children_like. apply filter_In. split; [exact Hc|]. now rewrite Kr. }
      unfold type_reference. destruct (filter (fun r => String.eqb (t_name r) (ft_name ty)) (children_like f is_enum_ref)) as [|r' rs] eqn:Q; [destruct Hi|].
      exists r'. split; [reflexivity|]. assert (X : In r' (r' :: rs)) by now left. rewrite <- Q in X. apply filter_In in X as (_ & X). apply String.eqb_eq in X. rewrite X, Ety. reflexivity. }
    destruct Tr as (r' & Tr & Nr). assert (Rn : ref_node root r' = Some d) by (unfold ref_node, target; rewrite Nr; exact Fd).
    exists j, r, rw, d, m, v, b, text, ctext. split; [exact Hr'|]. split; [exact Kr|]. split; [exact Fd|]. split; [exact Dd|]. split; [reflexivity|].
    split; [unfold rust_field_type; rewrite Kf, En, Tr, Rn; exact E|]. split; [exact R|]. split; [unfold rust_primitive_type; rewrite Kf, En, Tr, Rn, Hd; reflexivity|]. split; [|exact Rc].
    unfold cpp_field_type. rewrite Kf. f_equal. replace (ft_name ty) with (t_name r) by (now rewrite Ety). rewrite (cpp_enum_type root F _ r _ d m v Hr Kr Fd Dd).
    rewrite (path_text root F d m v "::" Dd) in Ec. now injection Ec as <-.
Qed.
Print Assumptions C95_fields.

(** A constant written in small letters cannot be used in Rust *)
Definition small_schema : string := "namespace n { const u8 Nothing = 3; struct S { @optional(Nothing) x : u8 : 8; } }".
Definition small_tree : tree := match build_text same_order small_schema with Ok r => r | Err _ => Node "" KRoot [] end.
(** Decides [declared] *)
Fixpoint prefixes {A} (l : list A) : list (list A) := match l with [] => [] | x :: t => [x] :: map (cons x) (prefixes t) end.
Definition declared_check (root : tree) (p : loc) (i : nat) (m : list string) : bool :=
  match at_loc root (p ++ [i])%list, names_at root p with
  | Some v, Some ns => is_declared (t_kind v) && (if list_eq_dec string_dec ns (t_name root :: m) then true else false)
      && forallb (fun q => match at_loc root q with Some u => match t_kind u with KNamespace => true | _ => false end | None => true end) (prefixes p)
  | _, _ => false
  end.
Lemma prefixes_in {A} (p : list A) : forall q r, p = (q ++ r)%list -> q <> [] -> In q (prefixes p).
Proof.
  induction p as [|x p IH]; intros q r E N; [symmetry in E; apply app_eq_nil in E as (-> & _); congruence|]. destruct q as [|y q]; [congruence|]. injection E as <- E. cbn [prefixes].
  destruct q as [|z q]; [now left|]. right. apply in_map. now apply (IH (z :: q) r).
Qed.
Lemma declared_checked root p i m v : at_loc root (p ++ [i])%list = Some v -> declared_check root p i m = true -> declared root (p ++ [i])%list m v.
Proof.
  unfold declared_check. intros Hv H. rewrite Hv in H. destruct (names_at root p) as [ns|] eqn:N; [|discriminate]. apply andb_true_iff in H as (H & H3). apply andb_true_iff in H as (H1 & H2).
  destruct (list_eq_dec string_dec ns (t_name root :: m)) as [->|]; [|discriminate]. exists p, i. split; [reflexivity|]. split; [exact Hv|]. split; [exact H1|]. split; [exact N|].
  intros q r u E Nq Hu. rewrite forallb_forall in H3. specialize (H3 q (prefixes_in p q r E Nq)). rewrite Hu in H3. destruct (t_kind u); try discriminate. reflexivity.
Qed.
Theorem C95_rust_refuted : build_text same_order small_schema = Ok small_tree
  /\ exists l d text u v, declared small_tree l ["n"] u /\ declared small_tree d ["n"] v /\ t_name u = "S" /\ t_name v = "Nothing" /\ is_const (t_kind v) = true
  /\ rust_path small_tree l d = Some text /\ text = "super::n::Nothing" /\ rust_item v = "NOTHING"
  /\ forall d' m' v', declared small_tree d' m' v' -> is_const (t_kind v') = true -> ~ rust_names ["n"] text m' (rust_item v').
Proof.
  split; [vm_compute; reflexivity|]. exists [0; 1]%nat, [0; 0]%nat, "super::n::Nothing".
  destruct (at_loc small_tree [0; 1]%nat) as [u|] eqn:Eu; [|vm_compute in Eu; discriminate]. destruct (at_loc small_tree [0; 0]%nat) as [v|] eqn:Ev; [|vm_compute in Ev; discriminate].
  exists u, v. split; [apply (declared_checked small_tree [0]%nat 1%nat ["n"] u Eu); vm_compute; reflexivity|]. split; [apply (declared_checked small_tree [0]%nat 0%nat ["n"] v Ev); vm_compute; reflexivity|].
  vm_compute in Eu. injection Eu as <-. vm_compute in Ev. injection Ev as <-. split; [reflexivity|]. split; [reflexivity|]. split; [reflexivity|]. split; [vm_compute; reflexivity|]. split; [reflexivity|]. split; [vm_compute; reflexivity|].
  intros d' m' v' _ Kc R. assert (R0 : rust_names ["n"] "super::n::Nothing" ["n"] "Nothing").
  { exists [], ["n"], ["n"]. split; [discriminate|]. repeat (split; [reflexivity|]). repeat constructor; discriminate. }
  destruct (rust_names_unique _ _ _ _ _ _ R R0) as (_ & En). unfold rust_item in En. rewrite Kc in En. pose proof (upper_capitals (snake (t_name v'))) as C. rewrite En in C. discriminate C.
Qed.
Print Assumptions C95_rust_refuted.

(** ** Instance: a field of an enumeration and a vector, in nested namespaces *)
Fixpoint names_checked (P : string -> bool) (fuel : nat) (t : tree) : bool :=
  match fuel with O => false | S k => P (t_name t) && forallb (names_checked P k) (t_children t) end.
Lemma names_checked_at P fuel : forall t l ns, names_checked P fuel t = true -> names_at t l = Some ns -> Forall (fun n => P n = true) ns.
Proof.
  induction fuel as [|k IH]; intros t l ns H N; [discriminate|]. cbn [names_checked] in H. apply andb_true_iff in H as (H1 & H2).
  destruct l as [|i l]; cbn in N; [injection N as <-; now repeat constructor|]. destruct (nth_error (t_children t) i) as [c|] eqn:Hc; [|discriminate]. destruct (names_at c l) as [m|] eqn:Nm; [|discriminate]. injection N as <-.
  constructor; [exact H1|]. rewrite forallb_forall in H2. exact (IH c l m (H2 c (nth_error_In _ _ Hc)) Nm).
Qed.
Lemma no_super_checked root : finished root -> names_checked (fun n => negb (String.eqb n "super")) 20 root = true -> no_super root.
Proof.
  intros F H l m v D I. destruct (declared_names root F l m v D) as (N & _). pose proof (names_checked_at _ _ _ _ _ H N) as Fo. inversion Fo as [|? ? _ Fo']; subst. rewrite Forall_forall in Fo'. specialize (Fo' _ I). discriminate.
Qed.
Lemma other_generated : generated same_order other other_tree.
Proof. split; [exact same_order_any|]. split; [exact other_identifiers|]. split; [exact other_separated|]. split; [exact other_no_builtin|exact other_ok]. Qed.
Theorem C95_instance : generated same_order other other_tree /\ no_super other_tree
  /\ (exists l u f ty rng off, declared other_tree l ["n"; "a"] u /\ t_name u = "S" /\ at_loc other_tree (l ++ [1%nat])%list = Some f /\ t_kind f = KField rng (Some ty) off /\ t_name f = "e"
      /\ rust_field_type other_tree l f = Some "super::super::n::a::E" /\ rust_primitive_type other_tree f = Some "u8" /\ cpp_field_type f = Some "::n::a::E")
  /\ (exists l u d v, declared other_tree l ["n"; "a"] u /\ declared other_tree d ["n"; "a"] v /\ t_name v = "C" /\ is_const (t_kind v) = true /\ capitals (t_name v)
      /\ (forall d' v', declared other_tree d' ["n"; "a"] v' -> is_const (t_kind v') = true -> rust_item v' = rust_item v -> d' = d)).
Proof.
  split; [exact other_generated|]. destruct (generated_finished same_order other other_tree other_generated) as (F & W). split; [apply no_super_checked; [exact F|vm_compute; reflexivity]|].
  destruct (at_loc other_tree [1;0;2]%nat) as [u|] eqn:Eu; [|vm_compute in Eu; discriminate].
  assert (Du : declared other_tree [1;0;2]%nat ["n"; "a"] u) by (apply (declared_checked other_tree [1;0]%nat 2%nat); [exact Eu|vm_compute; reflexivity]).
  split.
  - destruct (at_loc other_tree [1;0;2;1]%nat) as [f|] eqn:Ef; [|vm_compute in Ef; discriminate]. pose proof Eu as Eu'. vm_compute in Eu'. injection Eu' as Nu. pose proof Ef as Ef'. vm_compute in Ef'. injection Ef' as Nf.
    exists [1;0;2]%nat, u, f. do 3 eexists. split; [exact Du|]. split; [now rewrite <- Nu|]. split; [exact Ef|]. split; [rewrite <- Nf; reflexivity|]. split; [now rewrite <- Nf|].
    rewrite <- Nf. repeat split; vm_compute; reflexivity.
  - destruct (at_loc other_tree [1;0;0]%nat) as [v|] eqn:Ev; [|vm_compute in Ev; discriminate]. assert (Dv : declared other_tree [1;0;0]%nat ["n"; "a"] v) by (apply (declared_checked other_tree [1;0]%nat 0%nat); [exact Ev|vm_compute; reflexivity]).
    exists [1;0;2]%nat, u, [1;0;0]%nat, v. split; [exact Du|]. split; [exact Dv|]. vm_compute in Ev. injection Ev as <-. repeat (split; [reflexivity|]).
    intros d' v' D' K' I'. (* the name of the only constant *)
    destruct D' as (p & i & -> & Hv' & _ & Hn & _). destruct (proj2 (names_at_some other_tree p) (ex_intro _ _ Hn)) as (u' & Hu').
    assert (Ep : p = [1;0]%nat).
    { assert (Q : names_at other_tree [1;0]%nat = Some (t_name other_tree :: ["n";"a"])) by (vm_compute; reflexivity). pose proof (root_wf other_tree F) as Wf.
      pose proof (root_name other_tree F) as Rn. rewrite Rn in *.
      destruct (names_find _ _ Wf _ Hn) as (ks & A & Fk). destruct (names_find _ _ Wf _ Q) as (ks' & A' & Fk'). apply (f_equal (@tl _)) in A, A'. cbn [tl] in A, A'. subst ks ks'. rewrite Fk' in Fk. now injection Fk as <-. }
    subst p. rewrite at_loc_app in Hv'. assert (E0 : exists w, at_loc other_tree [1;0]%nat = Some w) by (vm_compute; eauto). destruct E0 as (w & Ew). rewrite Ew in Hv'. cbn in Hv'. vm_compute in Ew. injection Ew as <-.
    cbn [t_children] in Hv'. destruct i as [|i]; [reflexivity|]. exfalso. repeat (destruct i as [|i]; [cbn in Hv'; injection Hv' as <-; discriminate K'|]). destruct i; discriminate Hv'.
Qed.
Print Assumptions C95_instance.
