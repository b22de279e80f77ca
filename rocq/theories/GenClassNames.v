(** Where the definitions of a finished tree come from, and what that says about the names of the generated classes. *)
From Coq Require Import List ZArith Bool String Ascii Lia Permutation.
From Verif Require Import PyBase PyText Structure Builder GenTypes GenTypesFacts GenTree GenTreeFacts GraphSpec GenTraversal GenTraversalFacts
  GenBuild GenBuildFacts GenPassFacts GenAstFacts GenAstSpec GenLayoutFacts GenResolveFacts GenMergeFacts GenShapeFacts GenEvery GenTidy GenFieldFacts GenWords GenFlatdata GenOutFacts GenFinal GenRender
  GenPython GenOutSpec GenModule.
Import ListNotations.
Local Open Scope string_scope.
Local Open Scope Z_scope.

(** A definition at [ks]: declared by the schema, or the index structure of a multivector *)
Definition from_schema (s : pschema) (k : kind) (ks : list string) : Prop :=
  exists p, In p s /\ ((exists n, ks = (ns_keys p ++ [n])%list /\ In n (def_names p)) \/ (exists w sz, ks = (ns_keys p ++ [B; MV; index_type_name w])%list /\ k = KStructure sz)).
(** Kinds that schemas declare at the top level of a namespace *)
Definition defines (k : kind) : bool := match k with KStructure _ | KArchive | KConstant _ _ | KEnum _ => true | _ => false end.
Lemma definition_defines k : is_definition k = true -> defines k = true.
Proof. destruct k; cbn; auto. Qed.
Definition placed (s : pschema) (root : tree) : Prop :=
  forall l u, at_loc root l = Some u -> defines (t_kind u) = true -> exists ks, names_at root l = Some (t_name root :: ks) /\ from_schema s (t_kind u) ks.

Lemma definition_parent root l u bi : rooted root -> local (shape bi) root -> at_loc root l = Some u -> defines (t_kind u) = true ->
  exists p i v, l = (p ++ [i])%list /\ at_loc root p = Some v /\ t_kind v = KNamespace /\ nth_error (t_children v) i = Some u.
Proof.
  intros (_ & _ & K0) S Hu Ku. destruct l as [|i p _] using rev_ind; [cbn in Hu; injection Hu as <-; rewrite K0 in Ku; discriminate|].
  destruct (parent_at _ _ _ _ Hu) as (v & Hv & Hi). exists p, i, v. split; [reflexivity|]. split; [exact Hv|]. split; [|exact Hi].
  destruct (S p v Hv) as (Fo & _). rewrite Forall_map, Forall_forall in Fo. specialize (Fo u (nth_error_In _ _ Hi)).
  destruct (t_kind u); try discriminate; destruct (t_kind v); cbn in Fo; try contradiction; try reflexivity; destruct rk; contradiction.
Qed.
Lemma build_placed so s t : any_order so -> schema_clean s -> separated s -> build_node_tree so s = Ok t -> placed s t.
Proof.
  intros Hso C S H l u Hu Ku. pose proof (build_node_tree_good so s t Hso C H) as G. pose proof (build_node_tree_shaped false so s t Hso C H) as Sh.
  destruct (definition_parent t l u false G Sh Hu Ku) as (p & i & v & -> & Hv & Kv & Hi).
  destruct (build_iff so s S t H) as (D & M & _ & (I1 & I2 & I3 & I4)). pose proof (good_wf _ (proj1 G)) as W.
  destruct (loc_keys t _ u W Hu) as (ks & Nk & _ & Gk). exists ks. split; [exact Nk|]. destruct (I4 _ _ Gk) as [->|[Hn|(K & d & r & Hd & E)]].
  - exfalso. destruct (proj1 (names_at_some t p) (ex_intro _ v Hv)) as (np & Np). rewrite (names_snoc t p i v u np Hv Hi Np) in Nk. destruct (names_find t p W np Np) as (kp & -> & _). apply (f_equal (option_map (@List.length string))) in Nk. cbn in Nk. rewrite app_length in Nk. cbn in Nk. injection Nk. lia.
  - destruct ks as [|k ks]; [|destruct (I3 (k :: ks)%list ltac:(discriminate) Hn) as (x & Gx & Kx); rewrite Gk in Gx; injection Gx as <-; rewrite Kx in Ku; discriminate].
    exfalso. destruct (proj1 (names_at_some t p) (ex_intro _ v Hv)) as (np & Np). rewrite (names_snoc t p i v u np Hv Hi Np) in Nk. destruct (names_find t p W np Np) as (kp & -> & _). apply (f_equal (option_map (@List.length string))) in Nk. cbn in Nk. rewrite app_length in Nk. cbn in Nk. injection Nk. lia.
  - destruct (made_decl so s D K d M Hd) as (q & Hq & EK & Hc & Hnd). destruct r as [|k r] using rev_ind; [exists q; split; [exact Hq|]; left; exists (t_name d); split; [now rewrite E, EK|exact Hnd]|]. clear IHr. exfalso.
    (* the parent would be inside a definition *)
    destruct (loc_keys t p v W Hv) as (kp & Np & _ & Gp). rewrite (names_snoc t p i v u _ Hv Hi Np) in Nk. injection Nk as Nk. rewrite E in Nk.
    change (t_name d :: r ++ [k])%list with ((t_name d :: r) ++ [k])%list in Nk. rewrite app_assoc in Nk. apply app_inj_tail in Nk as (-> & _). rewrite I2 in Gp by exact Hd.
    exact (proj1 (definition_kinds so q d Hso Hc r v Gp) Kv).
Qed.

Lemma ensure_old root keys root' l : ensure_namespace root keys = Ok (root', l) -> forall m u, at_loc root' m = Some u -> t_kind u <> KNamespace -> exists v, at_loc root m = Some v /\ t_name u = t_name v /\ t_kind u = t_kind v.
Proof.
  intros H m u Hu K. destruct (ensure_namespace_ok _ _ _ _ H) as [(-> & _)|(_ & first & Hf & Hi & _)]; [eauto|].
  destruct (insert_at_new _ _ _ _ _ _ Hi Hu) as [(v & Hv & A & B0)|(t & q & _ & _ & Hq)]; [eauto|]. exfalso. apply K.
  assert (E : every (fun _ k => k = KNamespace) first) by (apply (every_nest _ _ _ Hf); reflexivity). exact (E q u Hq).
Qed.
Lemma insert_names root l c root' m u : insert_at root l c = Ok root' -> at_loc root m = Some u -> names_at root' m = names_at root m.
Proof. intros H Hu. destruct (proj1 (names_at_some root m) (ex_intro _ u Hu)) as (ns & Hn). rewrite Hn. exact (insert_at_names _ _ _ _ _ _ H Hn). Qed.
Lemma ensure_names root keys root' l m u : ensure_namespace root keys = Ok (root', l) -> at_loc root m = Some u -> names_at root' m = names_at root m.
Proof. intros H Hu. destruct (ensure_namespace_ok _ _ _ _ H) as [(-> & _)|(_ & first & _ & Hi & _)]; [reflexivity|]. exact (insert_names _ _ _ _ _ _ Hi Hu). Qed.

Lemma append_builtin_placed s root l root' : append_builtin root l = Ok root' -> rooted root -> local (shape true) root -> placed s root -> placed s root'.
Proof.
  intros H G S Pl. pose proof (append_builtin_good _ _ _ H G) as (G' & _). unfold append_builtin in H. destruct (at_loc root l) as [u|] eqn:Hl; [|discriminate].
  assert (Ku : GenBuild.is_multivector (t_kind u) = true) by (destruct u as [n [] cs]; try discriminate; destruct rk; try discriminate; reflexivity).
  destruct (resource_parents root l u G S Hl Ku) as (p & i & j & v & a & -> & Hv & Kv & Ha & Ka).
  assert (Pp : parent_loc (parent_loc (p ++ [i; j])%list) = p).
  { unfold parent_loc. replace (p ++ [i; j])%list with ((p ++ [i]) ++ [j])%list by (rewrite <- app_assoc; reflexivity). now rewrite !removelast_last. }
  rewrite Pp in H. clear Pp. destruct u as [n k cs]. cbn [t_kind] in Ku. destruct k as [| | | | | | | |rk o m| |]; try discriminate. destruct rk as [| |w| | |]; try discriminate.
  pose proof (good_wf _ (proj1 G)) as W. destruct (names_at root p) as [nsl|] eqn:Np; [|discriminate]. destruct (names_find root p W nsl Np) as (keys & -> & Fk).
  (* the namespace of the archive *)
  assert (Hk : exists q, In q s /\ keys = ns_keys q).
  { destruct (Pl _ a Ha) as (ka & Nka & Fs); [now rewrite Ka|]. destruct (parent_at _ _ _ _ Ha) as (v' & Hv' & Hi). rewrite Hv in Hv'. injection Hv' as <-. rewrite (names_snoc root p i v a _ Hv Hi Np) in Nka. injection Nka as <-.
    destruct Fs as (q & Hq & [(m' & E & _)|(w' & sz & _ & Kq)]); [|congruence]. exists q. split; [exact Hq|]. apply app_inj_tail in E. tauto. }
  destruct Hk as (q & Hq & ->).
  apply bind_ok in H as ([root1 ns1] & H1 & H). apply bind_ok in H as (b & Hb & H). apply bind_ok in H as (root2 & H2 & H).
  assert (T1 : t_name root1 = t_name root).
  { destruct (ensure_getk _ _ _ _ H1) as (T1 & _). exact T1. }
  assert (P1 : placed s root1).
  { intros x y Hy Ky. destruct (ensure_old _ _ _ _ H1 x y Hy) as (z & Hz & _ & Kz); [destruct (t_kind y); discriminate|]. rewrite Kz in Ky |- *. destruct (Pl x z Hz Ky) as (ks & A & Fs). exists ks. rewrite T1. split; [|exact Fs].
    now rewrite (ensure_names _ _ _ _ _ _ H1 Hz). }
  assert (P2 : placed s root2 /\ t_name root2 = t_name root1).
  { destruct (at_loc root1 ns1) as [t1|] eqn:Ht1; [|discriminate]. destruct (find_relative t1 (t_name b)); [injection H2 as <-; auto|].
    assert (Tn : t_name root2 = t_name root1). { destruct (insert_at_inv _ _ _ _ H2) as (t & Ht & _ & ->). destruct ns1 as [|x ns1]; [cbn in *; now injection Ht as <-|]. apply modify_name_kind. discriminate. }
    split; [|exact Tn]. intros x y Hy Ky. destruct (insert_at_new _ _ _ _ _ _ H2 Hy) as [(z & Hz & _ & Kz)|(t & m0 & Ht & -> & Hm)].
    - rewrite Kz in Ky |- *. destruct (P1 x z Hz Ky) as (ks & A & Fs). exists ks. rewrite Tn. split; [|exact Fs]. now rewrite (insert_names _ _ _ _ _ _ H2 Hz).
    - rewrite Ht1 in Ht. injection Ht as <-. pose proof (builtin_structure_eq _ _ Hb) as (_ & Eb). destruct m0 as [|m0 mr].
      + cbn in Hm. injection Hm as <-. exists (ns_keys q ++ [B; MV; index_type_name w])%list. split.
        * pose proof (ensure_namespace_ok _ _ _ _ H1) as En. assert (F1 : find_keys root1 (ns_keys q ++ [B; MV])%list = Some ns1) by (destruct En as [(-> & F1 & _)|(_ & _ & _ & _ & F1)]; exact F1).
          destruct (find_keys_loc _ _ _ F1) as (Nn & _). pose proof (insert_at_names _ _ _ _ _ _ H2 Nn) as N2.
          destruct (parent_at _ _ _ _ Hy) as (t2 & Ht2 & Hi2). rewrite (names_snoc root2 ns1 _ t2 b _ Ht2 Hi2 N2). rewrite Tn. f_equal. rewrite (builtin_name _ _ Hb). cbn. now rewrite <- app_assoc.
        * exists q. split; [exact Hq|]. right. exists w. rewrite Eb. eexists. split; reflexivity.
      + exfalso. rewrite Eb in Hm. cbn in Hm. destruct m0 as [|m0]; cbn in Hm; [|destruct m0; discriminate]. destruct mr as [|m1 mr]; cbn in Hm; [injection Hm as <-; discriminate|destruct m1; discriminate]. }
  destruct P2 as (P2 & Tn). destruct (path_at root2 ns1) as [pp|]; [|discriminate]. apply bind_ok in H as (r & Hr & H). apply make_node_ok in Hr as (_ & ->).
  assert (Tn' : t_name root' = t_name root2) by (rewrite (proj1 (proj2 G')), Tn, T1; symmetry; apply G).
  intros x y Hy Ky. destruct (insert_at_new _ _ _ _ _ _ H Hy) as [(z & Hz & _ & Kz)|(t & m0 & Ht & -> & Hm)].
  - rewrite Kz in Ky |- *. destruct (P2 x z Hz Ky) as (ks & A & Fs). exists ks. rewrite Tn'. split; [|exact Fs]. now rewrite (insert_names _ _ _ _ _ _ H Hz).
  - exfalso. destruct m0 as [|m0 mr]; cbn in Hm; [injection Hm as <-; discriminate|destruct m0; discriminate].
Qed.
Lemma declared_placed so s r1 r2 : any_order so -> schema_clean s -> separated s -> build_node_tree so s = Ok r1 -> append_builtins r1 = Ok r2 -> placed s r2.
Proof.
  intros Hso C Sp H1 H2. pose proof (build_node_tree_good so s r1 Hso C H1) as G1. pose proof (build_node_tree_shaped false so s r1 Hso C H1) as S1.
  unfold append_builtins in H2. assert (Q : rooted r2 /\ local (shape true) r2 /\ placed s r2); [|tauto].
  refine (foldM_inv (fun x => rooted x /\ local (shape true) x /\ placed s x) _ _ _ _ H2 _ _).
  - split; [exact G1|]. split; [exact (shaped_any _ _ S1)|]. exact (build_placed so s r1 Hso C Sp H1).
  - intros l _ x x' (Gx & Sx & Px) Hx. split; [exact (proj1 (append_builtin_good _ _ _ Hx Gx))|]. split; [exact (proj1 (append_builtin_shaped _ _ _ Hx Gx Sx))|]. exact (append_builtin_placed s x l x' Hx Gx Sx Px).
Qed.
Theorem final_placed so s root : any_order so -> schema_clean s -> separated s -> build_ast so s = Ok root -> placed s root.
Proof.
  intros Hso C Sp H. destruct (build_ast_steps _ _ _ H) as (r1 & r2 & r3 & r4 & r5 & r6 & St). pose proof St as (H1 & H2 & _).
  pose proof (declared_placed so s r1 r2 Hso C Sp H1 H2) as Pl. destruct (final_same so s r1 r2 r3 r4 r5 r6 root Hso C St) as (G2 & _ & _ & _ & _ & _ & G7 & _).
  intros l u Hu Ku. destruct (old_node so s r1 r2 r3 r4 r5 r6 root Hso C St l u Hu) as (v & Hv & Nv & Ev); [unfold is_ref; destruct (t_kind u); try discriminate; reflexivity|].
  assert (Kv : defines (t_kind v) = true /\ forall ks, from_schema s (t_kind v) ks -> from_schema s (t_kind u) ks).
  { destruct (t_kind u), (t_kind v); cbn in *; try discriminate; split; auto; intros ks (p & Hp & [X|(w & sz & E & Q)]); exists p; (split; [exact Hp|]); solve [now left|discriminate Q|right; eauto]. }
  assert (Rv : is_ref v = false) by (unfold is_ref; destruct Kv as (Kv & _); destruct (t_kind v); try discriminate; reflexivity). destruct (Pl l v Hv (proj1 Kv)) as (ks & Nk & Fs). exists ks. split; [|exact (proj2 Kv ks Fs)]. clear Fs Kv Ku.
  (* names along the path *)
  assert (X : forall l v, at_loc r2 l = Some v -> is_ref v = false -> names_at root l = names_at r2 l).
  { clear - G2 G7 Hso C St. intros l. induction l as [|i p IH] using rev_ind; intros v Hv Rv.
    - cbn. now rewrite (proj1 (proj2 G7)), (proj1 (proj2 G2)).
    - destruct (parent_at _ _ _ _ Hv) as (x & Hx & Hi). assert (Rx : is_ref x = false).
      { destruct (kept so s r1 r2 r3 r4 r5 r6 root Hso C St p x Hx) as (y & Hy & Ey & _). destruct (kept so s r1 r2 r3 r4 r5 r6 root Hso C St _ v Hv) as (z & Hz & _ & _).
        assert (B0 : built root). { apply (build_ast_built so s root Hso C). unfold build_ast. pose proof St as (A1 & A2 & A3 & A4 & A5 & A6 & A7 & A8 & A9 & A10). rewrite A1. cbn [bind]. rewrite A2. cbn [bind]. rewrite A3. cbn [bind]. rewrite A4. cbn [bind]. rewrite A5. cbn [bind].
          rewrite A6. cbn [bind]. rewrite A7. cbn [bind]. rewrite A8. cbn [bind]. rewrite A9. cbn [bind]. rewrite A10. reflexivity. }
        destruct (parent_at _ _ _ _ Hz) as (y' & Hy' & Hzi). rewrite Hy in Hy'. injection Hy' as <-. destruct (b_shape _ B0 p y Hy) as (Fo & _). rewrite Forall_map, Forall_forall in Fo. specialize (Fo z (nth_error_In _ _ Hzi)).
        unfold is_ref. destruct (t_kind x); try reflexivity. cbn in Ey. destruct (t_kind y); try discriminate. cbn in Fo. contradiction. }
      specialize (IH x Hx Rx). destruct (kept so s r1 r2 r3 r4 r5 r6 root Hso C St p x Hx) as (y & Hy & _ & Ny). destruct (kept so s r1 r2 r3 r4 r5 r6 root Hso C St _ v Hv) as (z & Hz & _ & Nz).
      destruct (parent_at _ _ _ _ Hz) as (y' & Hy' & Hzi). rewrite Hy in Hy'. injection Hy' as <-.
      destruct (proj1 (names_at_some r2 p) (ex_intro _ x Hx)) as (np & Np). rewrite (names_snoc r2 p i x v np Hx Hi Np). rewrite Np in IH. rewrite (names_snoc root p i y z np Hy Hzi IH). now rewrite (Nz Rv). }
  rewrite (X l v Hv); [rewrite Nk, (proj1 (proj2 G2)), (proj1 (proj2 G7)); reflexivity|]. exact Rv.
Qed.

(** ** The components of a class name *)
Lemma namespaces_snoc t p : forall i u, at_loc t p = Some u -> namespaces t (p ++ [i])%list = (namespaces t p ++ (if is_namespace u then [t_name u] else []))%list.
Proof.
  revert t. induction p as [|j p IH]; intros t i u Hu; cbn in Hu |- *.
  - injection Hu as <-. destruct (nth_error (t_children t) i); now rewrite app_nil_r.
  - destruct (nth_error (t_children t) j) as [c|]; [|discriminate]. rewrite (IH c i u Hu). now rewrite app_assoc.
Qed.
Section Names.
  Variable root : tree.
  Hypothesis F : finished root.
  Local Notation Bu := (f_built _ F).
  Lemma namespace_names l u : at_loc root l = Some u -> (t_kind u = KNamespace \/ l = []) -> names_at root l = Some ("" :: namespaces root l ++ (if is_namespace u then [t_name u] else []))%list.
  Proof.
    pose proof (b_rooted _ Bu) as (_ & N0 & K0). revert u. induction l as [|i p IH] using rev_ind; intros u Hu Ku.
    - cbn in *. injection Hu as <-. unfold is_namespace. now rewrite K0, N0.
    - destruct Ku as [Ku|Ku]; [|now destruct p]. destruct (parent_at _ _ _ _ Hu) as (v & Hv & Hi).
      assert (Kv : t_kind v = KNamespace \/ p = []).
      { destruct (f_namespace _ F p i v u Hv Hu Ku) as [Kr|Kn]; [right|now left]. destruct p as [|j p _] using rev_ind; [reflexivity|]. exfalso. destruct (parent_at _ _ _ _ Hv) as (x & Hx & Hj).
        destruct (b_shape _ Bu p x Hx) as (Fo & _). rewrite Forall_map, Forall_forall in Fo. specialize (Fo v (nth_error_In _ _ Hj)). rewrite Kr in Fo. destruct (t_kind x); cbn in Fo; try contradiction. destruct rk; contradiction. }
      rewrite (names_snoc root p i v u _ Hv Hi (IH v Hv Kv)). rewrite (namespaces_snoc root p i v Hv). replace (is_namespace u) with true by (unfold is_namespace; now rewrite Ku). reflexivity.
  Qed.
  Lemma definition_names l t : at_loc root l = Some t -> is_definition (t_kind t) = true ->
    names_at root l = Some ("" :: namespaces root l ++ [t_name t])%list /\ namespaces root l <> [] /\ names_at root (parent_loc l) = Some ("" :: namespaces root l)%list.
  Proof.
    intros H K. destruct (definition_parent root l t true (b_rooted _ Bu) (b_shape _ Bu) H (definition_defines _ K)) as (p & i & v & -> & Hv & Kv & Hi).
    pose proof (namespace_names p v Hv (or_introl Kv)) as Nv. rewrite (namespaces_snoc root p i v Hv). unfold is_namespace in *. rewrite Kv in *.
    split; [exact (names_snoc root p i v t _ Hv Hi Nv)|]. split; [now destruct (namespaces root p)|]. unfold parent_loc. now rewrite removelast_last.
  Qed.
  Lemma names_same l l' ns : names_at root l = Some ns -> names_at root l' = Some ns -> l = l'.
  Proof.
    intros H H'. pose proof (good_wf _ (proj1 (b_rooted _ Bu))) as W. destruct (names_find root l W ns H) as (ks & -> & A). destruct (names_find root l' W _ H') as (ks' & E & A'). injection E as <-. congruence.
  Qed.
  Lemma py_class_join l t : at_loc root l = Some t -> is_definition (t_kind t) = true -> py_class root l = join "_" (namespaces root l ++ [t_name t])%list.
  Proof. intros H K. destruct (definition_names l t H K) as (_ & N & _). unfold py_class. rewrite H. symmetry. now apply join_snoc. Qed.
End Names.

(** ** Joining with underscores is injective on components without underscores *)
Definition flat_name (k : string) : Prop := (k <> "" /\ has_char "_" k = false) \/ k = B.
Lemma split_append c a : forall b, split_on c (a ++ String c b) = (split_on c a ++ split_on c b)%list.
Proof.
  induction a as [|x a IH]; intros b; cbn; [now rewrite Ascii.eqb_refl|]. destruct (Ascii.eqb x c); [cbn; now rewrite IH|]. rewrite IH.
  destruct (split_on c a) as [|w ws] eqn:E; [destruct (split_nonempty _ _ E)|reflexivity].
Qed.
Lemma split_join c l : l <> [] -> split_on c (join (String c "") l) = List.concat (map (split_on c) l).
Proof.
  induction l as [|a l IH]; [congruence|]. intros _. destruct l as [|b l]; [cbn; now rewrite app_nil_r|].
  change (join (String c "") (a :: b :: l)) with (a ++ String c (join (String c "") (b :: l))). rewrite split_append, IH by discriminate. reflexivity.
Qed.
Lemma split_flat k : flat_name k -> (k <> "" /\ split_on "_" k = [k]) \/ (k = B /\ split_on "_" k = [""; "builtin"]).
Proof. intros [(N & H)| ->]; [left|right]; split; auto. now apply split_no_char. Qed.
Lemma flat_concat l : forall m, Forall flat_name l -> Forall flat_name m -> List.concat (map (split_on "_") l) = List.concat (map (split_on "_") m) -> l = m.
Proof.
  induction l as [|a l IH]; intros [|b m] Fl Fm E; cbn [map List.concat] in E.
  - reflexivity.
  - inversion Fm as [|? ? Hb ?]; subst. destruct (split_flat b Hb) as [(_ & E1)|(_ & E1)]; rewrite E1 in E; discriminate.
  - inversion Fl as [|? ? Ha ?]; subst. destruct (split_flat a Ha) as [(_ & E1)|(_ & E1)]; rewrite E1 in E; discriminate.
  - inversion Fl as [|? ? Ha Fl']; inversion Fm as [|? ? Hb Fm']; subst. destruct (split_flat a Ha) as [(Na & E1)|(-> & E1)], (split_flat b Hb) as [(Nb & E2)|(-> & E2)]; rewrite ?E1, ?E2 in E; cbn [app] in E.
    + injection E as -> E. f_equal. now apply IH.
    + injection E as Ea _. congruence.
    + injection E as Ea _. congruence.
    + injection E as E. f_equal. now apply IH.
Qed.
Lemma flat_join l m : l <> [] -> m <> [] -> Forall flat_name l -> Forall flat_name m -> join "_" l = join "_" m -> l = m.
Proof. intros Nl Nm Fl Fm E. apply flat_concat; auto. rewrite <- !split_join by assumption. change (String "_" "") with "_". now rewrite E. Qed.
Lemma app_snoc {A} (a b : list A) x y : (a ++ [x])%list = (b ++ [y])%list -> a = b /\ x = y. Proof. apply app_inj_tail. Qed.

(** ** The schema's side *)
Section Classes.
  Variables (s : pschema) (root : tree).
  Hypothesis (F : finished root) (Pl : placed s root).

  Lemma class_keys l t : at_loc root l = Some t -> is_definition (t_kind t) = true -> from_schema s (t_kind t) (namespaces root l ++ [t_name t])%list.
  Proof.
    intros H K. destruct (Pl l t H (definition_defines _ K)) as (ks & N & Fs). destruct (definition_names root F l t H K) as (N' & _). rewrite N in N'. injection N' as _ <-. exact Fs.
  Qed.
  Lemma key_nonempty l t k : at_loc root l = Some t -> is_definition (t_kind t) = true -> In k (namespaces root l ++ [t_name t])%list -> k <> "".
  Proof.
    intros H K Hk. destruct (definition_names root F l t H K) as (N & _). pose proof (wf_root root F) as W. clear K.
    assert (X : forall (p : loc) r ns x, wf r -> names_at r p = Some ns -> In x (tl ns) -> x <> "").
    { clear. induction p as [|i p IH]; intros r ns x W N Hx; cbn in N; [injection N as <-; destruct Hx|]. destruct (nth_error (t_children r) i) as [c|] eqn:Hc; [|discriminate].
      destruct (names_at c p) as [ms|] eqn:Nm; [|discriminate]. injection N as <-. cbn in Hx. pose proof (wf_child r i c W Hc) as Wc. destruct (names_find c p Wc ms Nm) as (ks & -> & _). destruct Hx as [<-|Hx].
      - destruct (wf_here r W) as (_ & Fo). rewrite Forall_forall in Fo. specialize (Fo c (nth_error_In _ _ Hc)). unfold name_ok in Fo. apply andb_true_iff in Fo as (_ & Fo). intros E. rewrite E in Fo. discriminate.
      - exact (IH c _ x Wc Nm Hx). }
    exact (X l root _ k W N Hk).
  Qed.

  Lemma plain_classes_of : plain_namespaces s -> plain_classes root.
  Proof.
    intros Pn l t H K (x & E). rewrite (py_class_join root F l t H K) in E. destruct (class_keys l t H K) as (p & Hp & C).
    assert (X : exists k r, (namespaces root l ++ [t_name t])%list = k :: r /\ exists r', ns_keys p = k :: r').
    { pose proof (split_nonempty "." (pn_name p)) as N. unfold ns_keys in *. destruct (split_on "." (pn_name p)) as [|k r]; [congruence|]. destruct C as [(n & -> & _)|(w & sz & -> & _)]; cbn; eauto. }
    destruct X as (k & r & E1 & r' & E2). assert (Nk : k <> "") by (apply (key_nonempty l t k H K); rewrite E1; now left).
    apply (Pn p Hp). rewrite E1 in E. destruct k as [|c k]; [congruence|]. assert (c = "_"%char) by (destruct r; cbn in E; now injection E). subst c.
    unfold ns_keys in E2. destruct (pn_name p) as [|c t']; cbn in E2; [discriminate|]. destruct (Ascii.eqb c "."); [discriminate|]. exists t'. destruct (split_on "." t'); injection E2; congruence.
  Qed.

  Lemma flat_keys l t : no_underscores s -> at_loc root l = Some t -> is_definition (t_kind t) = true -> Forall flat_name (namespaces root l ++ [t_name t])%list.
  Proof.
    intros Nu H K. apply Forall_forall. intros k Hk. pose proof (key_nonempty l t k H K Hk) as Ne. destruct (class_keys l t H K) as (p & Hp & C). destruct (Nu p Hp) as (A & D).
    destruct C as [(n & E & Hn)|(w & sz & E & _)]; rewrite E in Hk; apply in_app_or in Hk as [Hk|Hk]; try (left; split; [exact Ne|now apply A]).
    - destruct Hk as [<-|[]]. left. auto.
    - destruct Hk as [<-|[<-|[<-|[]]]]; [now right|left; split; [discriminate|reflexivity]|]. left. split; [discriminate|].
      unfold index_type_name. rewrite has_char_app. cbn [has_char]. clear. unfold py_str.
      assert (X : forall d, has_char "_" (DecimalString.NilEmpty.string_of_uint d) = false) by (induction d; cbn; auto).
      assert (Y : forall d, has_char "_" (DecimalString.NilZero.string_of_uint d) = false) by (intros d; destruct d; try apply X; reflexivity).
      destruct (Z.to_int w) as [d|d]; cbn; [apply Y|apply Y].
  Qed.
  Theorem distinct_classes_of : no_underscores s -> no_builder_clash root -> distinct_classes root.
  Proof.
    intros Nu Nb. split.
    - intros l t l' t' H H' K K' E. rewrite (py_class_join root F l t H K), (py_class_join root F l' t' H' K') in E.
      apply flat_join in E; [|now destruct (namespaces root l)|now destruct (namespaces root l')|now apply (flat_keys l t)|now apply (flat_keys l' t')].
      destruct (definition_names root F l t H K) as (N & _). destruct (definition_names root F l' t' H' K') as (N' & _). rewrite E in N. exact (names_same root F l l' _ N N').
    - intros l t l' t' H H' K K' E. assert (Kd : is_definition (t_kind t) = true) by (now rewrite K).
      rewrite (py_class_join root F l t H Kd), (py_class_join root F l' t' H' K') in E. destruct (definition_names root F l t H Kd) as (N & Nn & Np). destruct (definition_names root F l' t' H' K') as (N' & _ & Np').
      rewrite (join_snoc "_" (namespaces root l)) in E by exact Nn.
      rewrite !app_assoc_str in E. rewrite <- (join_snoc "_" (namespaces root l) (t_name t ++ "Builder")) in E by exact Nn.
      pose proof (flat_keys l t Nu H Kd) as Fl. apply Forall_app in Fl as (Fl & Ft). inversion Ft as [|? ? Ht _]; subst.
      apply flat_join in E; [|now destruct (namespaces root l)|now destruct (namespaces root l')| |now apply (flat_keys l' t')].
      + apply app_inj_tail in E as (E1 & E2). apply (Nb l t l' t' H H' K K'); [|now symmetry]. rewrite E1 in Np. exact (names_same root F _ _ _ Np Np').
      + apply Forall_app. split; [exact Fl|]. constructor; [|constructor]. left. split; [destruct (t_name t); discriminate|]. rewrite has_char_app. destruct Ht as [(_ & ->)|Ht]; [reflexivity|].
        (* an archive is declared by the schema *)
        destruct (class_keys l t H Kd) as (p & Hp & [(n & En & Hn)|(w & sz & _ & Kq)]); [|congruence]. apply app_inj_tail in En as (_ & <-). rewrite (proj2 (Nu p Hp) _ Hn). reflexivity.
  Qed.
End Classes.
