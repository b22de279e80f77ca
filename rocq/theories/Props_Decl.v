(** C69: the tree of an accepted schema contains what the schema declares: every constant, structure, enumeration and archive is at the path
    its namespace and name give it, with the declared fields, enumerators and resources in the declared order, with the declared
    types, widths, ranges, optional marks and explicit references; nothing else is defined. *)
From Coq Require Import List ZArith Bool String Ascii Lia Permutation.
From Verif Require Import PyBase PyText GenSpec GenTypes GenTypesFacts GenTree GenTreeFacts GenTraversal
  GenBuild GenBuildFacts GenAstFacts GenAstSpec GenAstThms GenMergeFacts GenWords GenClassNames Props_GenTree Props_GenOutput GrammarSpec Grammar Props_Grammar DeclSpec DeclFacts.
Import ListNotations.
Local Open Scope Z_scope.

Lemma free_all s p ns : identifiers s -> In p s -> (forall n, In n ns -> In n (mentioned p)) -> at_free ns.
Proof. intros I Hp H. apply Forall_forall. intros n Hn. exact (plain_clean n (I p n Hp (H n Hn))). Qed.


Lemma located so s root p x : any_order so -> identifiers s -> separated s -> no_builtin s -> build_ast so s = Ok root -> In p s -> In x (creations so p) ->
  exists r1 r2 r3 r4 r5 r6 d l, build_steps so s r1 r2 r3 r4 r5 r6 root /\ x = Ok d /\ at_loc r1 l = Some d /\ defined_at root p (t_name d) l.
Proof.
  intros Hso I Sp NB H Hp Hx. pose proof (identifiers_named s I) as W. destruct (build_ast_steps _ _ _ H) as (r1 & r2 & r3 & r4 & r5 & r6 & St).
  pose proof St as (H1 & _). destruct (build_iff so s Sp r1 H1) as (D & M & _).
  assert (exists d, x = Ok d) as (d & ->).
  { clear - M Hp Hx. induction M as [|q [K ds] s' D (E1 & _ & E3) F IH]; [destruct Hp|]. destruct Hp as [->|Hp]; [|exact (IH Hp)]. rewrite E3 in Hx. apply in_map_iff in Hx as (d & <- & _). eauto. }
  destruct (decl_at so s r1 r2 r3 r4 r5 r6 root Hso W St Sp NB p d Hp Hx) as (l & Hl & D'). exists r1, r2, r3, r4, r5, r6, d, l. auto.
Qed.
Ltac locate x := match goal with Hso : any_order ?so, I : identifiers ?s, Sp : separated ?s, NB : no_builtin ?s, H : build_ast ?so ?s = Ok ?root, Hp : In ?p ?s |- _ =>
  pose proof (identifiers_named s I) as W; destruct (located so s root p x Hso I Sp NB H Hp) as (r1 & r2 & r3 & r4 & r5 & r6 & d & l & St & Hx & Hl & D) end.

Theorem C69_constants : forall so s root p c, any_order so -> identifiers s -> separated s -> no_builtin s -> build_ast so s = Ok root ->
  In p s -> In c (pn_constants p) -> exists l, defined_at root p (pc_name c) l /\ constant_is root l c.
Proof.
  intros so s root p c Hso I Sp NB H Hp Hc. locate (create_constant c); [unfold creations; rewrite !in_app_iff; left; now apply in_map|].
  pose proof (constant_is_final so s r1 r2 r3 r4 r5 r6 root Hso W St Sp NB l c d Hl Hx) as Q. exists l. split; [|exact Q]. apply create_constant_inv in Hx as (v & _ & ->). exact D.
Qed.
Print Assumptions C69_constants.

Theorem C69_structures : forall so s root p st, any_order so -> identifiers s -> separated s -> no_builtin s -> build_ast so s = Ok root ->
  In p s -> In st (pn_structures p) -> exists l, defined_at root p (ps_name st) l /\ structure_is root l st.
Proof.
  intros so s root p st Hso I Sp NB H Hp Hc. locate (create_structure st); [unfold creations; rewrite !in_app_iff; right; left; now apply in_map|].
  exists l. split; [destruct (create_structure_inv _ _ Hx) as (? & _ & ->); exact D|].
  apply (structure_is_final so s r1 r2 r3 r4 r5 r6 root Hso W St Sp NB l st d Hl Hx). intros f Hf. apply (free_all s p _ I Hp). intros n Hn.
  unfold mentioned. rewrite !in_app_iff. right. right. left. apply in_flat_map. exists st. split; [exact Hc|]. apply in_flat_map. exists f. split; [exact Hf|].
  destruct Hn as [<-|Hn]; [now left|]. right. apply in_map_iff in Hn as ([r m] & E & Hn). cbn in E. subst m. unfold constants_used in Hn. apply in_flat_map in Hn as (x & Hx' & Hn).
  apply in_flat_map. exists x. split; [exact Hx'|]. destruct x; cbn in Hn |- *; [destruct Hn|destruct Hn as [[= _ <-]|[]]; now left|destruct Hn as [[= _ <-]|[]]; now left].
Qed.
Print Assumptions C69_structures.

Theorem C69_enumerations : forall so s root p e, any_order so -> identifiers s -> separated s -> no_builtin s -> build_ast so s = Ok root ->
  In p s -> In e (pn_enumerations p) -> exists l, defined_at root p (pe_name e) l /\ enumeration_is root l e.
Proof.
  intros so s root p e Hso I Sp NB H Hp Hc. locate (create_enumeration so e); [unfold creations; rewrite !in_app_iff; right; right; left; now apply in_map|].
  exists l. split; [destruct (create_enumeration_ok so e d Hso Hx) as (? & ? & _ & -> & _); exact D|].
  exact (enumeration_is_final so s r1 r2 r3 r4 r5 r6 root Hso W St Sp NB l e d Hl Hx).
Qed.
Print Assumptions C69_enumerations.

Theorem C69_archives : forall so s root p a, any_order so -> identifiers s -> separated s -> no_builtin s -> build_ast so s = Ok root ->
  In p s -> In a (pn_archives p) -> exists l, defined_at root p (pa_name a) l /\ archive_is root l a.
Proof.
  intros so s root p a Hso I Sp NB H Hp Hc. locate (create_archive a); [unfold creations; rewrite !in_app_iff; right; right; right; now apply in_map|].
  exists l. split; [destruct (create_archive_inv _ _ Hx) as (? & ? & _ & _ & ->); exact D|].
  apply (archive_is_final so s r1 r2 r3 r4 r5 r6 root Hso W St Sp NB l a d Hl Hx).
  - intros r Hr. split.
    + intros x y z Hd. apply (free_all s p _ I Hp). intros n Hn. unfold mentioned. rewrite in_app_iff. left. unfold GenAstSpec.namespace_names. right. rewrite !in_app_iff. right. right. right.
      apply in_flat_map. exists a. split; [exact Hc|]. right. apply in_app_iff. right. apply in_flat_map. exists r. split; [exact Hr|]. right. apply in_flat_map. exists (RExplicit x y z). split; [exact Hd|exact Hn].
    + apply (free_all s p _ I Hp). intros n Hn. unfold mentioned. rewrite !in_app_iff. right. right. right. right. apply in_flat_map. exists a. split; [exact Hc|]. apply in_app_iff. right. apply in_flat_map. exists r. auto.
  - intros b Hb. apply (free_all s p _ I Hp). intros n Hn. unfold mentioned. rewrite !in_app_iff. right. right. right. right. apply in_flat_map. exists a. split; [exact Hc|]. apply in_app_iff. left. apply in_flat_map. exists b. auto.
Qed.
Print Assumptions C69_archives.

(** Nothing else is defined: a constant, structure, enumeration or archive of the tree is at the path of a declaration, or is the
    structure of a multivector's index. *)
Theorem C69_nothing_else : forall so s root l u, any_order so -> identifiers s -> separated s -> build_ast so s = Ok root ->
  at_loc root l = Some u -> defines (t_kind u) = true ->
  exists p, In p s /\ ((exists n, In n (def_names p) /\ defined_at root p n l)
    \/ (exists w sz, defined_at root p ("_builtin.multivector." ++ index_type_name w) l /\ t_kind u = KStructure sz)).
Proof.
  intros so s root l u Hso I Sp H Hl Ku. pose proof (well_named_clean s (identifiers_named s I)) as C. destruct (final_placed so s root Hso C Sp H l u Hl Ku) as (ks & N & p & Hp & X). exists p. split; [exact Hp|].
  destruct (build_ast_steps _ _ _ H) as (r1 & r2 & r3 & r4 & r5 & r6 & St). destruct (steps_good _ _ _ _ _ _ _ _ _ Hso C St) as (_ & _ & _ & _ & _ & _ & _ & _ & _ & _ & _ & _ & (_ & Nr & _) & _).
  assert (J : forall k k0 ks', (k :: ks')%list = (split_on "." (pn_name p) ++ k0)%list -> k0 <> [] -> join "." ("" :: k :: ks')%string = ("." ++ pn_name p ++ "." ++ join "." k0)%string).
  { intros k k0 ks' E Ne. change (join "." ("" :: k :: ks')%string) with ("." ++ join "." (k :: ks'))%string. rewrite E. clear E. f_equal. rewrite <- (dotted_split (pn_name p)) at 2. unfold dotted.
    pose proof (split_nonempty "." (pn_name p)) as Q. destruct (split_on "." (pn_name p)) as [|a as']; [congruence|]. clear Q. revert a. induction as' as [|b as' IH]; intros a.
    - destruct k0 as [|c k0]; [congruence|]. reflexivity.
    - change (join "." ((a :: b :: as') ++ k0)) with (a ++ "." ++ join "." ((b :: as') ++ k0))%string. rewrite IH. change (join "." (a :: b :: as')) with (a ++ "." ++ join "." (b :: as'))%string. now rewrite !str_app_assoc. }
  unfold defined_at, path_at. rewrite N. cbn [option_map]. destruct X as [(n & E & Hn)|(w & sz & E & K)].
  - left. exists n. split; [exact Hn|]. f_equal. destruct ks as [|k ks]; [unfold ns_keys in E; now destruct (split_on "." (pn_name p))|]. rewrite Nr. apply (J k [n] ks E). discriminate.
  - right. exists w, sz. split; [|exact K]. f_equal. destruct ks as [|k ks]; [unfold ns_keys in E; now destruct (split_on "." (pn_name p))|]. rewrite Nr. exact (J k _ ks E ltac:(discriminate)).
Qed.
Print Assumptions C69_nothing_else.

(** The same from the text of a schema *)
Theorem C69_text : forall so text root, any_order so -> build_text so text = Ok root -> exists s, denotes text s /\ (separated s -> no_builtin s -> forall p, In p s ->
  (forall c, In c (pn_constants p) -> exists l, defined_at root p (pc_name c) l /\ constant_is root l c)
  /\ (forall st, In st (pn_structures p) -> exists l, defined_at root p (ps_name st) l /\ structure_is root l st)
  /\ (forall e, In e (pn_enumerations p) -> exists l, defined_at root p (pe_name e) l /\ enumeration_is root l e)
  /\ (forall a, In a (pn_archives p) -> exists l, defined_at root p (pa_name a) l /\ archive_is root l a)).
Proof.
  intros so text root Hso H. destruct (C68_names so text root H) as (s & D & I & B). exists s. split; [exact D|]. intros Sp NB p Hp.
  split; [|split; [|split]]; intros x Hx; [apply (C69_constants so s)|apply (C69_structures so s)|apply (C69_enumerations so s)|apply (C69_archives so s)]; assumption.
Qed.
Print Assumptions C69_text.

(** ** Instances *)
Example C69_instance : any_order same_order /\ identifiers example /\ separated example /\ no_builtin example /\ build_ast same_order example = Ok example_tree
  /\ path_at example_tree [0;0;1]%nat = Some ".n.a.S"%string
  /\ (exists cs, at_loc example_tree [0;0;1]%nat = Some (Node "S" (KStructure (Some 25)) cs))
  /\ (exists c, at_loc example_tree [0;0;1;1]%nat = Some (Node "e" (KField None (Some (FT "@@n@a@E" 2 false)) (Some 3)) [c]))
  /\ (exists c1 c2 c3 c4 c5, at_loc example_tree [0;0;3]%nat = Some (Node "Ar" KArchive [c1; c2; c3; c4; c5]) /\ t_kind c5 = KRef RConstValue).
Proof.
  split; [exact same_order_any|]. split; [exact example_identifiers|]. split; [exact example_separated|]. split; [exact example_no_builtin|]. split; [exact example_ok|].
  split; [vm_compute; reflexivity|]. split; [eexists; vm_compute; reflexivity|]. split; [eexists; vm_compute; reflexivity|]. do 5 eexists. split; vm_compute; reflexivity.
Qed.

(** The condition that definitions and namespaces are kept apart is needed: a namespace below the path of a structure becomes a child of the structure. *)
Example C69_inside : let s := [PNamespace "n" [] [PStruct "a" [PField "x" [] "u8" None]] [] []; PNamespace "n.a.b" [PConst "C" "u8" "1"] [] [] []] in
  identifiers s /\ no_builtin s /\ exists root size f b, build_ast same_order s = Ok root
    /\ at_loc root [0;0]%nat = Some (Node "a" (KStructure size) [f; b]) /\ t_kind b = KNamespace.
Proof.
  cbn zeta. split; [|split].
  - intros p n Hp Hn. repeat (destruct Hp as [<-|Hp]; [vm_compute in Hn; repeat (destruct Hn as [<-|Hn]; [reflexivity|]); destruct Hn|]). destruct Hp.
  - intros p Hp. repeat (destruct Hp as [<-|Hp]; [split; intros Q; vm_compute in Q; repeat (destruct Q as [Q|Q]; [discriminate|]); destruct Q|]). destruct Hp.
  - do 4 eexists. split; [vm_compute; reflexivity|]. split; vm_compute; reflexivity.
Qed.
