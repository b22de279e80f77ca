(** Rendering the schema of a finished tree never fails. *)
From Coq Require Import List ZArith Bool String Ascii Lia Permutation.
From Verif Require Import PyBase PyText GenTypes GenTypesFacts GenTree GenTreeFacts GraphSpec GenTraversal GenTraversalFacts
  GenBuild GenBuildFacts GenPassFacts GenAstFacts GenAstSpec GenLayoutFacts GenResolveFacts GenMergeFacts GenShapeFacts GenEvery GenFieldFacts GenWords GenFlatdata GenOutFacts GenFinal.
Import ListNotations.
Local Open Scope Z_scope.

Section Render.
  Variable root : tree.
  Hypothesis F : finished root.
  Local Notation Bu := (f_built _ F).

  Lemma at_child l t i c : at_loc root l = Some t -> nth_error (t_children t) i = Some c -> at_loc root (l ++ [i]) = Some c.
  Proof. intros H Hc. rewrite at_loc_app, H. cbn. now rewrite Hc. Qed.
  (** references have targets of the right kind *)
  Lemma ref_target l c r : at_loc root l = Some c -> t_kind c = KRef r ->
    exists d v p, ref_loc root c = Ok d /\ find root (target c) = Some d /\ at_loc root d = Some v /\ expected_kind r (t_kind v) = true /\ path_at root d = Some p /\ p = target c.
  Proof.
    intros Hc K. destruct (b_resolved _ Bu l c Hc) as (r0 & t0 & d & v & A & K0 & Fd & V & X); [unfold is_ref; now rewrite K|]. rewrite Hc in A. injection A as <-. rewrite K in K0. injection K0 as <-.
    destruct (find_path _ _ _ Fd) as (P & _). exists d, v, (target c). unfold ref_loc. rewrite Fd. auto 8.
  Qed.
  Lemma ref_path_target l c r : at_loc root l = Some c -> t_kind c = KRef r -> ref_path root c = Ok (target c).
  Proof. intros Hc K. destruct (ref_target l c r Hc K) as (d & v & p & E & _ & _ & _ & P & ->). unfold ref_path. rewrite E. cbn. now rewrite P. Qed.

  Lemma children_like_in t p c : In c (children_like t p) -> In c (t_children t) /\ p (t_kind c) = true.
  Proof. unfold children_like. rewrite filter_In. auto. Qed.
  Lemma child_kind l t c : at_loc root l = Some t -> In c (t_children t) -> exists i, nth_error (t_children t) i = Some c /\ at_loc root (l ++ [i]) = Some c /\ edge true (t_kind t) (t_kind c).
  Proof.
    intros H Hc. destruct (b_shape _ Bu l t H) as (Fo & _). rewrite Forall_map, Forall_forall in Fo. specialize (Fo c Hc).
    apply In_nth_error in Hc as (i & Hi). exists i. split; [exact Hi|]. split; [exact (at_child l t i c H Hi)|exact Fo].
  Qed.
  (** no namespaces below definitions *)
  Lemma no_namespace l t c : at_loc root l = Some t -> In c (t_children t) -> t_kind t <> KRoot -> t_kind t <> KNamespace -> t_kind c <> KNamespace.
  Proof.
    intros H Hc N1 N2 K. destruct (child_kind l t c H Hc) as (i & _ & Hi & _). destruct (f_namespace _ F l i t c H Hi K); contradiction.
  Qed.

  Lemma ref_count t p : (forall k, p k = true -> is_ref_kind k = true) ->
    map t_kind (children_like t p) = map KRef (filter (fun r => p (KRef r)) (ref_kinds (map t_kind (t_children t)))).
  Proof.
    intros Hp. unfold children_like. induction (t_children t) as [|c cs IH]; cbn; [reflexivity|].
    destruct (t_kind c) eqn:K; cbn; try (destruct (p _) eqn:E; [apply Hp in E; discriminate|exact IH]).
    destruct (p (KRef r)) eqn:E; cbn; [rewrite K; f_equal|]; exact IH.
  Qed.
  Lemma only_one {A} (l : list A) : List.length l = 1%nat -> exists x, l = [x] /\ only l = Ok x.
  Proof. destruct l as [|x [|y l]]; try discriminate. intros _. exists x. auto. Qed.

  Lemma field_lines_total l t c : at_loc root l = Some t -> (exists sz, t_kind t = KStructure sz) -> In c (t_children t) -> is_field (t_kind c) = true ->
    exists ls, field_lines c = Ok ls.
  Proof.
    intros H (sz & K) Hc Kc. destruct t as [n k cs]. cbn in *. subst k. destruct (b_layout _ Bu l n sz cs H) as (size & _ & Co).
    assert (X : forall s, consecutive s (fields_of cs) size -> exists rng ty off, t_kind c = KField rng (Some ty) off).
    { clear - Hc Kc. induction cs as [|x cs IH]; intros s Co; [destruct Hc|]. unfold fields_of in Co. cbn in Co. fold (fields_of cs) in Co. destruct Hc as [->|Hc].
      - destruct (t_kind c) as [| | | |rng ty off| | | | | |]; try discriminate. cbn in Co. destruct Co as (_ & f & -> & _). eauto.
      - destruct (t_kind x); cbn in Co; try exact (IH Hc s Co). destruct Co as (_ & f & _ & Co). exact (IH Hc _ Co). }
    destruct (X 0 Co) as (rng & ty & off & E). unfold field_lines. rewrite E. eauto.
  Qed.
  Lemma structure_lines_total l t : at_loc root l = Some t -> (exists sz, t_kind t = KStructure sz) -> exists ls, structure_lines (t_name t) (t_children t) = Ok ls.
  Proof.
    intros H K. unfold structure_lines. destruct (mapM_total field_lines (filter (fun c => is_field (t_kind c)) (t_children t))) as (fs & ->); [|cbn; eauto].
    intros c Hc. apply filter_In in Hc as (Hc & Kc). exact (field_lines_total l t c H K Hc Kc).
  Qed.

  Lemma refs_of l t p c : at_loc root l = Some t -> (forall k, p k = true -> is_ref_kind k = true) -> In c (children_like t p) ->
    exists i r, at_loc root (l ++ [i]) = Some c /\ t_kind c = KRef r /\ p (KRef r) = true.
  Proof.
    intros H Hp Hc. apply children_like_in in Hc as (Hc & Pc). destruct (child_kind l t c H Hc) as (i & _ & Hi & _). exists i. pose proof (Hp _ Pc) as R.
    destruct (t_kind c) as [| | | | | | | | | |r]; try discriminate. exists r. auto.
  Qed.
  Lemma type_params_total l t refs : at_loc root l = Some t -> (forall c, In c refs -> exists i r, at_loc root (l ++ [i]) = Some c /\ t_kind c = KRef r) ->
    exists ps, type_params root refs = Ok ps.
  Proof.
    intros H. induction refs as [|c refs IH]; intros R; cbn; [eauto|]. destruct (R c (or_introl eq_refl)) as (i & r & Hi & Kr).
    destruct (ref_target _ _ _ Hi Kr) as (d & v & p & -> & _ & _ & _ & _ & _). cbn. rewrite (ref_path_target _ _ _ Hi Kr). cbn.
    destruct IH as (ps & ->); [intros x Hx; apply R; now right|]. cbn. eauto.
  Qed.
  Lemma referenced_refs l t c : at_loc root l = Some t -> In c (referenced_structures t) -> exists i r, at_loc root (l ++ [i]) = Some c /\ t_kind c = KRef r.
  Proof.
    intros H Hc. apply in_app_or in Hc as [Hc|Hc].
    - destruct (refs_of l t is_builtin_ref c H ltac:(intros k; now destruct k) Hc) as (i & r & A & B0 & _). eauto.
    - destruct (refs_of l t is_structure_ref c H ltac:(intros k; now destruct k) Hc) as (i & r & A & B0 & _). eauto.
  Qed.
  Lemma archive_target l t o m : at_loc root l = Some t -> t_kind t = KResource KArchiveRes o m -> exists c i, children_like t is_archive_ref = [c] /\ at_loc root (l ++ [i]) = Some c /\ t_kind c = KRef RArchive.
  Proof.
    intros H K. destruct (b_shape _ Bu l t H) as (_ & Sh). rewrite K in Sh.
    pose proof (ref_count t is_archive_ref ltac:(intros k; now destruct k)) as E. rewrite Sh in E. cbn in E. destruct (children_like t is_archive_ref) as [|c [|x r]] eqn:Ec; try discriminate. injection E as E.
    destruct (refs_of l t is_archive_ref c H ltac:(intros k; now destruct k)) as (i & r & A & B0 & _); [rewrite Ec; now left|]. exists c, i. auto.
  Qed.
  Lemma resource_type_total l t : at_loc root l = Some t -> is_supported_resource (t_kind t) = true -> exists ty, resource_type root t = Ok ty.
  Proof.
    intros H K. unfold resource_type. destruct (type_params_total l t _ H (fun c Hc => referenced_refs l t c H Hc)) as (ps & ->). cbn.
    destruct (t_kind t) as [| | | | | | | |rk o m| |] eqn:Kt; try discriminate. destruct rk; try discriminate; try (eexists; reflexivity).
    destruct (archive_target l t o m H Kt) as (c & i & -> & Hi & Kc). cbn. rewrite (ref_path_target _ _ _ Hi Kc). cbn. eauto.
  Qed.
  Lemma explicit_refs l e : at_loc root l = Some e -> t_kind e = KExplicit ->
    exists s f d i j k, explicit_structure e = Ok s /\ explicit_field e = Ok f /\ explicit_destination e = Ok d
      /\ at_loc root (l ++ [i]) = Some s /\ t_kind s = KRef RStructure /\ at_loc root (l ++ [j]) = Some f /\ t_kind f = KRef RField /\ at_loc root (l ++ [k]) = Some d /\ t_kind d = KRef RResource.
  Proof.
    intros H K. destruct (b_shape _ Bu l e H) as (_ & Sh). rewrite K in Sh.
    assert (X : forall p r, (forall k, p k = true -> is_ref_kind k = true) -> (filter (fun r => p (KRef r)) [RResource; RField; RStructure] = [r]) ->
      exists c i, only (children_like e p) = Ok c /\ at_loc root (l ++ [i]) = Some c /\ t_kind c = KRef r).
    { intros p r Hp Er. pose proof (ref_count e p Hp) as E. rewrite Sh in E. rewrite Er in E. cbn in E. destruct (children_like e p) as [|c [|x q]] eqn:Ec; try discriminate. injection E as E.
      destruct (refs_of l e p c H Hp) as (i & r' & A & B0 & _); [rewrite Ec; now left|]. exists c, i. auto. }
    destruct (X is_structure_ref RStructure ltac:(intros k; now destruct k) eq_refl) as (s & i & A1 & A2 & A3).
    destruct (X (fun k => match k with KRef RField => true | _ => false end) RField ltac:(intros k; now destruct k) eq_refl) as (f & j & B1 & B2 & B3).
    destruct (X (fun k => match k with KRef RResource => true | _ => false end) RResource ltac:(intros k; now destruct k) eq_refl) as (d & k & C1 & C2 & C3).
    exists s, f, d, i, j, k. auto 12.
  Qed.
  Lemma explicit_lines_total l e : at_loc root l = Some e -> t_kind e = KExplicit -> exists ls, explicit_lines root e = Ok ls.
  Proof.
    intros H K. destruct (explicit_refs l e H K) as (s & f & d & i & j & k & A1 & B1 & C1 & A2 & A3 & B2 & B3 & C2 & C3).
    unfold explicit_lines. rewrite A1. cbn. rewrite (ref_path_target _ _ _ A2 A3). cbn. rewrite B1. cbn. unfold ref_name. destruct (ref_target _ _ _ B2 B3) as (fd & fv & _ & -> & _ & Hfv & _). cbn. rewrite Hfv. cbn.
    rewrite C1. cbn. rewrite (ref_path_target _ _ _ C2 C3). cbn. eauto.
  Qed.
  Lemma resource_lines_total l t : at_loc root l = Some t -> is_supported_resource (t_kind t) = true -> exists ls, resource_lines root t = Ok ls.
  Proof.
    intros H K. unfold resource_lines. destruct (mapM_total (explicit_lines root) (children_like t is_explicit)) as (es & ->).
    - intros e He. apply children_like_in in He as (He & Ke). destruct (child_kind l t e H He) as (i & _ & Hi & _). apply (explicit_lines_total _ e Hi). now destruct (t_kind e).
    - cbn. destruct (resource_type_total l t H K) as (ty & ->). cbn. eauto.
  Qed.
  Lemma bound_lines_total l t : at_loc root l = Some t -> is_bound (t_kind t) = true -> exists ls, bound_lines root t = Ok ls.
  Proof.
    intros H K. unfold bound_lines. destruct (mapM_total (fun c => if is_ref c then ref_path root c else Err AttributeError) (t_children t)) as (ps & ->); [|cbn; eauto].
    intros c Hc. destruct (child_kind l t c H Hc) as (i & _ & Hi & E). pose proof (no_namespace l t c H Hc) as NN. destruct (t_kind t) as [| | | | | | | |rk o m| |] eqn:Kt; try discriminate. destruct rk; try discriminate.
    cbn in E. unfold is_ref. destruct (t_kind c) as [| | | | | | | | | |r] eqn:Kc; try contradiction; [exfalso; now apply NN|]. rewrite (ref_path_target _ _ _ Hi Kc). eauto.
  Qed.
  (** an archive with some of its children *)
  Lemma archive_lines_total l t cs : at_loc root l = Some t -> (forall c, In c cs -> In c (t_children t)) -> exists ls, archive_lines root (t_name t) cs = Ok ls.
  Proof.
    intros H Hcs. unfold archive_lines. destruct (mapM_total (bound_lines root) (filter (fun c => is_bound (t_kind c)) cs)) as (bs & ->).
    { intros c Hc. apply filter_In in Hc as (Hc & K). destruct (child_kind l t c H (Hcs c Hc)) as (i & _ & Hi & _). exact (bound_lines_total _ c Hi K). }
    cbn. destruct (mapM_total (resource_lines root) (filter (fun c => is_supported_resource (t_kind c)) cs)) as (rs & ->); [|cbn; eauto].
    intros c Hc. apply filter_In in Hc as (Hc & K). destruct (child_kind l t c H (Hcs c Hc)) as (i & _ & Hi & _). exact (resource_lines_total _ c Hi K).
  Qed.

  Section Target.
    Variables (tgt : loc) (u : tree).
    Hypothesis (Hu : at_loc root tgt = Some u) (Ku : is_ref u = false) (Nf : is_field (t_kind u) = false).

    Lemma view_some n : vgood root tgt n -> exists t v, at_loc root (snd n) = Some t /\ view root tgt n = Some v /\ t_name v = t_name t /\ t_kind v = t_kind t
      /\ (forall c, In c (t_children v) -> In c (t_children t)) /\ (v = t \/ exists i q c, fst n = true /\ tgt = snd n ++ i :: q /\ nth_error (t_children t) i = Some c /\ t_children v = [c]).
    Proof.
      destruct n as [[] p]; cbn; intros G.
      - destruct G as (q & E). rewrite E, at_loc_app in Hu. destruct (at_loc root p) as [t|] eqn:Hp; [|discriminate]. exists t. unfold view. cbn. rewrite Hp, E. destruct q as [|i q].
        + rewrite app_nil_r. rewrite (proj2 (nth_error_None p (List.length p)) (PeanoNat.Nat.le_refl _)). exists t. auto 8.
        + rewrite nth_error_app2 by lia. rewrite PeanoNat.Nat.sub_diag. cbn. cbn in Hu. destruct (nth_error (t_children t) i) as [c|] eqn:Hc; [|discriminate].
          exists (Node (t_name t) (t_kind t) [c]). cbn. split; [reflexivity|]. split; [reflexivity|]. split; [reflexivity|]. split; [reflexivity|]. split; [intros x [<-|[]]; exact (nth_error_In _ _ Hc)|].
          right. exists i, q, c. auto.
      - destruct G as (d & W). destruct (reach_node root p (b_resolved _ Bu) (below_reach root tgt u Bu Hu Ku _ _ W)) as (t & Ht). exists t, t. unfold view. cbn. rewrite Ht. auto 8.
    Qed.
    Lemma vblock_total n : vgood root tgt n -> exists ls, vblock root tgt n = Ok ls.
    Proof.
      intros G. destruct (view_some n G) as (t & v & Ht & Hv & Nv & Kv & Cv & Fv). unfold vblock. rewrite Hv. destruct (is_supported (t_kind v) && negb (is_builtin root (snd n))) eqn:Sp; [|eauto].
      apply andb_true_iff in Sp as (Sp & _). enough (X : exists d, declaration root v = Ok d) by (destruct X as (d & E); unfold block; rewrite E; cbn; eauto).
      unfold declaration. rewrite Kv in *. destruct (t_kind t) as [| | | | | | | | | |] eqn:Kt; try discriminate; try (eexists; reflexivity).
      - destruct Fv as [->|(i & q & c & _ & E & Hi & Ec)].
        + exact (structure_lines_total _ t Ht (ex_intro _ _ Kt)).
        + (* a field of it is the target *) exfalso. pose proof Hu as Hu'. rewrite E, at_loc_app, Ht in Hu'. cbn in Hu'. rewrite Hi in Hu'.
          destruct (child_kind _ t c Ht (nth_error_In _ _ Hi)) as (i' & _ & Hci & Ed). rewrite Kt in Ed. pose proof (no_namespace _ t c Ht (nth_error_In _ _ Hi)) as NN. rewrite Kt in NN.
          destruct (t_kind c) eqn:Kc; cbn in Ed; try contradiction; [now apply NN|]. destruct q as [|j q].
          * cbn in Hu'. injection Hu' as <-. rewrite Kc in Nf. discriminate.
          * cbn in Hu'. destruct (nth_error (t_children c) j) as [x|] eqn:Hj; [|discriminate].
            assert (Hc' : at_loc root (snd n ++ [i]) = Some c) by (exact (at_child _ t i c Ht Hi)).
            destruct (child_kind _ c x Hc' (nth_error_In _ _ Hj)) as (j' & _ & Hxj & Edx). rewrite Kc in Edx. pose proof (no_namespace _ c x Hc' (nth_error_In _ _ Hj)) as NNx. rewrite Kc in NNx.
            destruct (t_kind x) eqn:Kx; cbn in Edx; try contradiction; [now apply NNx|]. destruct q as [|m q]; [cbn in Hu'; injection Hu' as <-; unfold is_ref in Ku; now rewrite Kx in Ku|].
            cbn in Hu'. destruct (nth_error (t_children x) m) as [y|] eqn:Hm; [|discriminate]. destruct (child_kind _ x y Hxj (nth_error_In _ _ Hm)) as (_ & _ & _ & Edy). rewrite Kx in Edy. exact Edy.
      - rewrite Nv. exact (archive_lines_total _ t _ Ht Cv).
    Qed.
    Theorem schema_total : exists s, schema_text root tgt = Ok s.
    Proof.
      unfold schema_text, schema_lines. destruct (vorder_spec root tgt u Bu Hu Ku) as (order & -> & _ & In & _). cbn.
      destruct (mapM_total (vblock root tgt) order) as (bs & ->); [|cbn; eauto]. intros n Hn. apply vblock_total. now apply In.
    Qed.
  End Target.
End Render.
