(** The schema text of a definition or resource only depends on its dependencies. *)
From Coq Require Import List ZArith Bool String Ascii Lia Permutation.
From Verif Require Import PyBase PyText GenTypes GenTypesFacts GenTree GenTreeFacts GraphSpec GenTraversal GenTraversalFacts GenEquiv
  GenBuild GenBuildFacts GenPassFacts GenAstFacts GenAstSpec GenAstThms GenLayoutFacts GenResolveFacts GenMergeFacts GenShapeFacts GenEvery GenFieldFacts GenWords GenFlatdata GenOutFacts GenFinal GenRender
  GenOutSpec GenClassNames EmbedSpec.
Import ListNotations.
Local Open Scope Z_scope.

Lemma uses_type r : uses r = is_type_ref r. Proof. now destruct r. Qed.

Lemma names_length t l : forall ns, names_at t l = Some ns -> List.length ns = S (List.length l).
Proof.
  revert t. induction l as [|i l IH]; intros t ns H; cbn in H; [injection H as <-; reflexivity|]. destruct (nth_error (t_children t) i) as [c|]; [|discriminate].
  destruct (names_at c l) as [ms|] eqn:E; [|discriminate]. injection H as <-. cbn. now rewrite (IH c ms E).
Qed.
Lemma names_prefix t p q : forall ns, names_at t (p ++ q) = Some ns -> names_at t p = Some (firstn (S (List.length p)) ns).
Proof.
  revert t. induction p as [|i p IH]; intros t ns H; cbn in *.
  - destruct q as [|j q]; cbn in H; [injection H as <-; reflexivity|]. destruct (nth_error (t_children t) j); [|discriminate]. destruct (names_at t0 q); [|discriminate]. injection H as <-. reflexivity.
  - destruct (nth_error (t_children t) i) as [c|]; [|discriminate]. destruct (names_at c (p ++ q)) as [ms|] eqn:E; [|discriminate]. injection H as <-. rewrite (IH c ms E). cbn. reflexivity.
Qed.

Section One.
  Variable root : tree.
  Hypothesis F : finished root.
  Local Notation Bu := (f_built _ F).

  Lemma in_enum {A} (l : list A) : forall b i x, In (i, x) (enum_from b l) <-> exists j, i = (b + j)%nat /\ nth_error l j = Some x.
  Proof.
    induction l as [|a l IH]; intros b i x; cbn.
    - split; [tauto|]. intros (j & _ & E). now destruct j.
    - rewrite IH. split.
      + intros [E|(j & -> & E)]; [injection E as <- <-; exists 0%nat; split; [lia|reflexivity]|exists (S j); split; [lia|exact E]].
      + intros (j & -> & E). destruct j as [|j]; cbn in E; [injection E as <-; left; f_equal; lia|]. right. exists j. split; [lia|exact E].
  Qed.
  Lemma kids_edges l t x : at_loc root l = Some t -> GraphSpec.edge (kids root) l x <->
    (exists i c, x = l ++ [i] /\ at_loc root (l ++ [i]) = Some c /\ is_ref c = false) \/ (exists i r, points_to root (l ++ [i]) r x /\ uses r = true).
  Proof.
    intros Ht. pose proof (b_rooted _ Bu) as G. destruct (kids_total root l t (b_resolved _ Bu) Ht) as (cs & Hk). pose proof Hk as Hk'. unfold kids in Hk'. rewrite Ht in Hk'. apply bind_ok in Hk' as (rs & Hm & E). injection E as <-. split.
    - intros (cs' & Hk2 & Hx). rewrite Hk in Hk2. injection Hk2 as <-. apply in_app_or in Hx as [Hx|Hx].
      + left. apply in_map_iff in Hx as ((i & c) & <- & Hi). apply filter_In in Hi as (Hi & Rc). apply in_enum in Hi as (j & -> & Hj). cbn in *. exists j, c. split; [reflexivity|]. split; [rewrite at_loc_app, Ht; cbn; now rewrite Hj|]. now destruct (is_ref c).
      + right. pose proof (proj1 (mapM_ok _ _ _) Hm) as Fm. clear - Fm Hx G Ht. assert (X : exists c, In c (filter (fun c => match t_kind c with KRef r => is_type_ref r | _ => false end) (t_children t)) /\ ref_loc root c = Ok x).
        { induction Fm as [|a b la lb Hab Fm IH]; [destruct Hx|]. destruct Hx as [->|Hx]; [exists a; split; [now left|exact Hab]|]. destruct (IH Hx) as (c & Hc & E). exists c. split; [now right|exact E]. }
        destruct X as (c & Hc & E). apply filter_In in Hc as (Hc & K). apply In_nth_error in Hc as (i & Hi). destruct (t_kind c) as [| | | | | | | | | |r] eqn:Kc; try discriminate. exists i, r. rewrite uses_type. split; [|exact K].
        apply (points_to_find root _ r x G). exists c. split; [rewrite at_loc_app, Ht; cbn; now rewrite Hi|]. split; [exact Kc|]. unfold ref_loc in E. destruct (find root (target c)); [now injection E as ->|discriminate].
    - intros [(i & c & -> & Hc & Rc)|(i & r & P & U)].
      + apply (kids_child root l t i c (b_resolved _ Bu) Ht); [|exact Rc]. rewrite at_loc_app, Ht in Hc. cbn in Hc. destruct (nth_error (t_children t) i); [exact Hc|discriminate].
      + exists (map (fun ic => l ++ [fst ic]) (filter (fun ic => negb (is_ref (snd ic))) (enum_from 0 (t_children t))) ++ rs). split; [exact Hk|]. apply in_or_app. right.
        apply (points_to_find root _ r x G) in P as (c & Hc & Kc & Fc). rewrite at_loc_app, Ht in Hc. cbn in Hc. destruct (nth_error (t_children t) i) as [c'|] eqn:Hi; [|discriminate]. injection Hc as ->.
        pose proof (proj1 (mapM_ok _ _ _) Hm) as Fm. assert (Hin : In c (filter (fun c => match t_kind c with KRef r => is_type_ref r | _ => false end) (t_children t))).
        { apply filter_In. split; [exact (nth_error_In _ _ Hi)|]. rewrite Kc. now rewrite <- uses_type. }
        clear - Fm Hin Fc. induction Fm as [|a b la lb Hab Fm IH]; [destruct Hin|]. destruct Hin as [->|Hin]; [left|right; auto]. unfold ref_loc in Hab. rewrite Fc in Hab. now injection Hab.
  Qed.
  Lemma depends_reach l t : at_loc root l = Some t -> forall m, depends root l m <-> reachable (kids root) l m.
  Proof.
    intros Ht m. split.
    - intros D. assert (X : reachable (kids root) l m /\ exists u, at_loc root m = Some u).
      { induction D as [|m i c D (IH & u & Hu) Hc Rc|m i r d D (IH & u & Hu) P U].
        - split; [apply reach_refl|eauto].
        - split; [|eauto]. eapply reach_edge; [exact IH|]. apply (kids_edges m u _ Hu). left. eauto.
        - split; [|destruct (proj1 (points_to_find root _ r d (b_rooted _ Bu)) P) as (c & _ & _ & Fc); destruct (find_path _ _ _ Fc); auto]. eapply reach_edge; [exact IH|]. apply (kids_edges m u _ Hu). right. eauto. }
      apply X.
    - intros (d & W). remember l as l0 eqn:El in W. assert (X : depends root l m /\ exists u, at_loc root m = Some u); [|apply X]. revert Ht. subst l0. intros Ht.
      induction W as [|d x y z W IH E]; [split; [constructor|eauto]|]. specialize (IH Ht). destruct IH as (D & u & Hu). apply (kids_edges y u _ Hu) in E as [(i & c & -> & Hc & Rc)|(i & r & P & U)].
      + split; [|eauto]. econstructor; eauto.
      + split; [eapply depends_use; eauto|]. destruct (proj1 (points_to_find root _ r z (b_rooted _ Bu)) P) as (c & _ & _ & Fc). destruct (find_path _ _ _ Fc); auto.
  Qed.

  (** names of declarations *)
  Lemma declared_names l t : at_loc root l = Some t -> is_supported (t_kind t) = true -> names_at root l = Some ("" :: namespaces root l ++ [t_name t])%string%list.
  Proof.
    intros H K. destruct l as [|i p _] using rev_ind.
    - cbn in H. injection H as <-. destruct (b_rooted _ Bu) as (_ & _ & K0). rewrite K0 in K. discriminate.
    - destruct (parent_at _ _ _ _ H) as (v & Hv & Hi). destruct (b_shape _ Bu p v Hv) as (Fo & _). rewrite Forall_map, Forall_forall in Fo. specialize (Fo t (nth_error_In _ _ Hi)).
      assert (Kv : t_kind v = KNamespace) by (destruct (t_kind t); try discriminate; destruct (t_kind v) as [| | | | | | | |rk o m| |]; cbn in Fo; try contradiction; try reflexivity; destruct rk; contradiction).
      pose proof (namespace_names root F p v Hv (or_introl Kv)) as Nv. rewrite (namespaces_snoc root p i v Hv). unfold is_namespace in *. rewrite Kv in *. exact (names_snoc root p i v t _ Hv Hi Nv).
  Qed.
  Lemma find_names p d : find root p = Some d -> names_at root d = Some (split_on "." p).
  Proof.
    unfold find. destruct (split_on "." p) as [|k ks] eqn:S; [discriminate|]. destruct (String.eqb_spec (t_name root) k) as [E|E]; [|discriminate]. intros H.
    destruct (find_keys_loc ks root d H) as (N & _). now rewrite N, E.
  Qed.
  Definition located (c : tree) : Prop := exists l, at_loc root l = Some c.
  Lemma located_child t c : located t -> In c (t_children t) -> located c.
  Proof. intros (l & H) Hc. apply In_nth_error in Hc as (i & Hi). exists (l ++ [i]). rewrite at_loc_app, H. cbn. now rewrite Hi. Qed.
  Lemma ref_where c r : located c -> t_kind c = KRef r -> exists d v, ref_loc root c = Ok d /\ at_loc root d = Some v /\ expected_kind r (t_kind v) = true /\ names_at root d = Some (split_on "." (target c)).
  Proof.
    intros (l & H) K. destruct (ref_target root F l c r H K) as (d & v & p & A & Fd & V & X & _). exists d, v. split; [exact A|]. split; [exact V|]. split; [exact X|]. now apply find_names.
  Qed.
  Lemma ref_path_is c r : located c -> t_kind c = KRef r -> ref_path root c = Ok (target c).
  Proof. intros (l & H) K. exact (ref_path_target root F l c r H K). Qed.
  Lemma ref_name_is c r : located c -> t_kind c = KRef r -> ref_name root c = Ok (List.last (split_on "." (target c)) ""%string).
  Proof.
    intros H K. destruct (ref_where c r H K) as (d & v & E & V & _ & N). unfold ref_name. rewrite E. cbn. rewrite V. destruct (names_at_last root d v V) as (ns & N'). rewrite N in N'. injection N' as ->. now rewrite last_last.
  Qed.
  (** what is above a declaration *)
  Lemma above q : forall p u t, at_loc root (p ++ q) = Some u -> q <> [] -> (t_kind u = KNamespace \/ is_supported (t_kind u) = true) -> at_loc root p = Some t ->
    t_kind t = KNamespace \/ t_kind t = KRoot.
  Proof.
    induction q as [|i q IH] using rev_ind; intros p u t Hu Nq Ku Ht; [congruence|]. rewrite app_assoc in Hu. destruct (parent_at _ _ _ _ Hu) as (v & Hv & Hi).
    assert (Kv : t_kind v = KNamespace \/ t_kind v = KRoot).
    { destruct Ku as [Ku|Ku]; [destruct (f_namespace _ F _ i v u Hv Hu Ku); auto|]. destruct (b_shape _ Bu _ v Hv) as (Fo & _). rewrite Forall_map, Forall_forall in Fo. specialize (Fo u (nth_error_In _ _ Hi)).
      left. destruct (t_kind u); try discriminate; destruct (t_kind v) as [| | | | | | | |rk o m| |]; cbn in Fo; try contradiction; try reflexivity; destruct rk; contradiction. }
    destruct q as [|j q _] using rev_ind; [rewrite app_nil_r in Hv; rewrite Hv in Ht; now injection Ht as <-|]. destruct Kv as [Kv|Kv].
    - apply (IH p v t Hv); auto. now destruct q.
    - exfalso. rewrite app_assoc in Hv. destruct (parent_at _ _ _ _ Hv) as (w & Hw & Hj). destruct (b_shape _ Bu _ w Hw) as (Fo & _). rewrite Forall_map, Forall_forall in Fo. specialize (Fo v (nth_error_In _ _ Hj)). rewrite Kv in Fo.
      destruct (t_kind w) as [| | | | | | | |rk o m| |]; cbn in Fo; try contradiction; destruct rk; contradiction.
  Qed.
  Lemma above_schema p i q u t : at_loc root (p ++ i :: q) = Some u -> has_schema (t_kind u) = true -> at_loc root p = Some t ->
    (t_kind t = KArchive /\ q = [] /\ exists rk o m, t_kind u = KResource rk o m) \/ (is_supported (t_kind t) = false /\ (q <> [] \/ is_supported (t_kind u) = true)).
  Proof.
    intros Hu Ku Ht. destruct (is_supported (t_kind u)) eqn:Su.
    - right. split; [|now right]. destruct (above (i :: q) p u t Hu ltac:(discriminate) (or_intror Su) Ht) as [-> | ->]; reflexivity.
    - assert (Kr : exists rk o m, t_kind u = KResource rk o m) by (destruct (t_kind u); try discriminate; eauto).
      assert (Pa : forall w v j, at_loc root (w ++ [j]) = Some u -> at_loc root w = Some v -> t_kind v = KArchive).
      { intros w v j Hu' Hv. destruct (parent_at _ _ _ _ Hu') as (v' & Hv' & Hj). rewrite Hv in Hv'. injection Hv' as <-. destruct (b_shape _ Bu _ v Hv) as (Fo & _). rewrite Forall_map, Forall_forall in Fo. specialize (Fo u (nth_error_In _ _ Hj)).
        destruct Kr as (rk & o & m & Kr). rewrite Kr in Fo. destruct (t_kind v) as [| | | | | | | |rk' o' m'| |]; cbn in Fo; try contradiction; try reflexivity; destruct rk'; contradiction. }
      destruct q as [|j q _] using rev_ind; [left; split; [exact (Pa p t i Hu Ht)|auto]|]. right. split; [|left; now destruct q].
      replace (p ++ i :: q ++ [j]) with ((p ++ i :: q) ++ [j]) in Hu by (now rewrite <- app_assoc). destruct (parent_at _ _ _ _ Hu) as (v & Hv & _). pose proof (Pa _ v j Hu Hv) as Kv.
      assert (Sv : is_supported (t_kind v) = true) by (now rewrite Kv). destruct (above (i :: q) p v t Hv ltac:(discriminate) (or_intror Sv) Ht) as [-> | ->]; reflexivity.
  Qed.
End One.

(** ** Two trees *)
Definition alike (a b : tree) : Prop := unlimited a = unlimited b.
Lemma unlimited_eq t : unlimited t = Node (t_name t) (without_limit (t_kind t)) (map unlimited (t_children t)).
Proof. now destruct t. Qed.
Lemma alike_parts a b : alike a b <-> t_name a = t_name b /\ without_limit (t_kind a) = without_limit (t_kind b) /\ Forall2 alike (t_children a) (t_children b).
Proof.
  unfold alike at 1. rewrite !unlimited_eq. assert (X : forall l m, map unlimited l = map unlimited m <-> Forall2 alike l m).
  { induction l as [|x l IH]; intros [|y m]; cbn; split; intros H; try discriminate; try (now inversion H); try constructor; [unfold alike; congruence|apply IH; congruence|]. inversion H as [|? ? ? ? A F]; subst. apply IH in F. unfold alike in A. congruence. }
  split.
  - intros E. injection E as E1 E2 E3. apply X in E3. auto.
  - intros (-> & -> & E). apply X in E. now rewrite E.
Qed.
Lemma limit_same k k' : without_limit k = without_limit k' -> k = k' \/ exists rk o m m', k = KResource rk o m /\ k' = KResource rk o m'.
Proof. destruct k, k'; cbn; intros E; try discriminate; try (left; exact E). injection E as <- <-. right. eauto 6. Qed.
Lemma forall2_filter {A B} (P : A -> B -> Prop) p q l m : Forall2 P l m -> (forall a b, P a b -> p a = q b) -> Forall2 P (filter p l) (filter q m).
Proof. intros H E. induction H as [|a b l m Hab H IH]; cbn; [constructor|]. rewrite (E a b Hab). destruct (q b); [now constructor|exact IH]. Qed.
Lemma children_alike a b p : alike a b -> (forall k k', without_limit k = without_limit k' -> p k = p k') -> Forall2 alike (children_like a p) (children_like b p).
Proof. intros H E. apply alike_parts in H as (_ & _ & H). apply (forall2_filter alike _ _ _ _ H). intros x y Hxy. apply E. now apply alike_parts in Hxy. Qed.
Lemma alike_target a b : alike a b -> target a = target b.
Proof. intros H. apply alike_parts in H as (N & _). unfold target. now rewrite N. Qed.
Lemma alike_kind a b k : alike a b -> t_kind a = k -> without_limit k = k -> (forall rk o m, k <> KResource rk o m) -> t_kind b = k.
Proof. intros H Ka _ N. apply alike_parts in H as (_ & K & _). apply limit_same in K as [K|(rk & o & m & m' & K & _)]; [congruence|]. rewrite Ka in K. destruct (N _ _ _ K). Qed.
Lemma alike_ref a b r : alike a b -> t_kind a = KRef r -> t_kind b = KRef r.
Proof. intros H K. apply (alike_kind a b _ H K); [reflexivity|discriminate]. Qed.

Ltac kinds := intros k k' E; apply limit_same in E as [->|(? & ? & ? & ? & -> & ->)]; reflexivity.

Lemma mapM_alike {A} (f g : tree -> res A) l m : Forall2 alike l m -> (forall a b, In a l -> In b m -> alike a b -> f a = g b) -> mapM f l = mapM g m.
Proof.
  intros H. induction H as [|a b l m Hab H IH]; intros E; cbn; [reflexivity|]. rewrite (E a b (or_introl eq_refl) (or_introl eq_refl) Hab). rewrite IH; [reflexivity|]. intros x y Hx Hy. apply E; now right.
Qed.
Lemma field_alike a b : alike a b -> field_lines a = field_lines b.
Proof.
  intros H. pose proof (children_alike a b is_const_value_ref H ltac:(kinds)) as C1. pose proof (children_alike a b is_invalid_ref H ltac:(kinds)) as C2.
  apply alike_parts in H as (N & K & _). unfold field_lines. rewrite N. apply limit_same in K as [->|(rk & o & m & m' & -> & ->)]; [|reflexivity].
  destruct (t_kind b); try reflexivity. destruct type as [ty|]; [|reflexivity]. f_equal. f_equal. f_equal.
  - clear - C1. induction C1 as [|x y l m Hxy C IH]; cbn; [reflexivity|]. now rewrite (alike_target x y Hxy), IH.
  - f_equal. destruct C2 as [|x y l m Hxy C]; [reflexivity|]. now rewrite (alike_target x y Hxy).
Qed.
Lemma only_alike l m : Forall2 alike l m -> match only l, only m with Ok a, Ok b => alike a b /\ In a l /\ In b m | Err e, Err e' => e = e' | _, _ => False end.
Proof. intros H. destruct H as [|a b l m Hab H]; [reflexivity|]. destruct H as [|c d l m Hcd H]; cbn; auto. Qed.

Section Two.
  Variables root1 root2 : tree.
  Hypothesis (F1 : finished root1) (F2 : finished root2).
  Local Notation Bu1 := (f_built _ F1).
  Local Notation Bu2 := (f_built _ F2).

  Lemma path_alike a b r : alike a b -> located root1 a -> located root2 b -> t_kind a = KRef r -> ref_path root1 a = ref_path root2 b.
  Proof. intros H L1 L2 K. rewrite (ref_path_is root1 F1 a r L1 K), (ref_path_is root2 F2 b r L2 (alike_ref _ _ _ H K)). now rewrite (alike_target a b H). Qed.
  Lemma name_alike a b r : alike a b -> located root1 a -> located root2 b -> t_kind a = KRef r -> ref_name root1 a = ref_name root2 b.
  Proof. intros H L1 L2 K. rewrite (ref_name_is root1 F1 a r L1 K), (ref_name_is root2 F2 b r L2 (alike_ref _ _ _ H K)). now rewrite (alike_target a b H). Qed.
  Lemma namespaces_alike d v d' v' : at_loc root1 d = Some v -> at_loc root2 d' = Some v' -> is_supported (t_kind v) = true -> is_supported (t_kind v') = true ->
    names_at root1 d = names_at root2 d' -> namespaces root1 d = namespaces root2 d' /\ t_name v = t_name v'.
  Proof.
    intros V V' S S' E. rewrite (declared_names root1 F1 d v V S), (declared_names root2 F2 d' v' V' S') in E. injection E as E. apply app_inj_tail in E. exact E.
  Qed.
  Lemma params_alike l m : Forall2 alike l m -> (forall a, In a l -> located root1 a /\ (t_kind a = KRef RStructure \/ t_kind a = KRef RBuiltin)) -> (forall b, In b m -> located root2 b) ->
    type_params root1 l = type_params root2 m.
  Proof.
    intros H. induction H as [|a b l m Hab H IH]; intros L1 L2; cbn; [reflexivity|]. destruct (L1 a (or_introl eq_refl)) as (La & Ka). pose proof (L2 b (or_introl eq_refl)) as Lb.
    assert (X : exists r, t_kind a = KRef r /\ forall k, expected_kind r k = true -> is_supported k = true) by (destruct Ka as [Ka|Ka]; eexists; (split; [exact Ka|]); intros k; destruct k; auto; discriminate).
    destruct X as (r & Kr & Xr). destruct (ref_where root1 F1 a r La Kr) as (d & v & E1 & V1 & X1 & N1). destruct (ref_where root2 F2 b r Lb (alike_ref _ _ _ Hab Kr)) as (d' & v' & E2 & V2 & X2 & N2).
    rewrite E1, E2. cbn. rewrite (path_alike a b r Hab La Lb Kr). destruct (ref_path root2 b); [|reflexivity]. cbn. rewrite IH; [|intros x Hx; apply L1; now right|intros x Hx; apply L2; now right].
    destruct (type_params root2 m); [|reflexivity]. cbn. unfold is_builtin. destruct (namespaces_alike d v d' v' V1 V2 (Xr _ X1) (Xr _ X2)) as (-> & _); [|reflexivity]. rewrite N1, N2. now rewrite (alike_target a b Hab).
  Qed.
  Lemma like_in t p c : In c (children_like t p) -> In c (t_children t) /\ p (t_kind c) = true.
  Proof. unfold children_like. rewrite filter_In. auto. Qed.
  Lemma resource_type_alike a b : alike a b -> located root1 a -> located root2 b -> resource_type root1 a = resource_type root2 b.
  Proof.
    intros H La Lb. unfold resource_type. rewrite (params_alike (referenced_structures a) (referenced_structures b)).
    - destruct (type_params root2 _); [|reflexivity]. cbn. pose proof (children_alike a b is_archive_ref H ltac:(kinds)) as C. apply only_alike in C.
      apply alike_parts in H as (_ & K & _). apply limit_same in K as [->|(rk & o & m & m' & -> & ->)]; [|].
      + destruct (t_kind b); try reflexivity. destruct rk; try reflexivity. destruct (only (children_like a is_archive_ref)) as [x|], (only (children_like b is_archive_ref)) as [y|]; try contradiction; [|now subst]. cbn. destruct C as (Cxy & Cx & Cy). apply like_in in Cx as (Cx & Kx), Cy as (Cy & _).
        destruct (t_kind x) as [| | | | | | | | | |r] eqn:Kr; try discriminate. now rewrite (path_alike x y r Cxy (located_child root1 a x La Cx) (located_child root2 b y Lb Cy) Kr).
      + destruct rk; try reflexivity. destruct (only (children_like a is_archive_ref)) as [x|], (only (children_like b is_archive_ref)) as [y|]; try contradiction; [|now subst]. cbn. destruct C as (Cxy & Cx & Cy). apply like_in in Cx as (Cx & Kx), Cy as (Cy & _).
        destruct (t_kind x) as [| | | | | | | | | |r] eqn:Kr; try discriminate. now rewrite (path_alike x y r Cxy (located_child root1 a x La Cx) (located_child root2 b y Lb Cy) Kr).
    - apply Forall2_app; apply children_alike; auto; kinds.
    - intros x Hx. apply in_app_or in Hx as [Hx|Hx]; apply like_in in Hx as (Hx & Kx); (split; [exact (located_child root1 a x La Hx)|]); destruct (t_kind x) as [| | | | | | | | | |[]]; try discriminate; auto.
    - intros x Hx. apply in_app_or in Hx as [Hx|Hx]; apply like_in in Hx as (Hx & _); exact (located_child root2 b x Lb Hx).
  Qed.
  Lemma explicit_alike a b : alike a b -> located root1 a -> located root2 b -> explicit_lines root1 a = explicit_lines root2 b.
  Proof.
    intros H La Lb. unfold explicit_lines, explicit_structure, explicit_field, explicit_destination.
    assert (X : forall p, (forall k k', without_limit k = without_limit k' -> p k = p k') -> (forall k, p k = true -> exists r, k = KRef r) ->
      match only (children_like a p), only (children_like b p) with Ok x, Ok y => ref_path root1 x = ref_path root2 y /\ ref_name root1 x = ref_name root2 y | Err e, Err e' => e = e' | _, _ => False end).
    { intros p Hp Pr. pose proof (only_alike _ _ (children_alike a b p H Hp)) as C. destruct (only (children_like a p)) as [x|], (only (children_like b p)) as [y|]; try contradiction; [|exact C]. destruct C as (Cxy & Cx & Cy). apply like_in in Cx as (Cx & Kx), Cy as (Cy & _).
      destruct (Pr _ Kx) as (r & Kr). split; [apply (path_alike x y r)|apply (name_alike x y r)]; eauto using located_child. }
    pose proof (X is_structure_ref ltac:(kinds) ltac:(intros k; destruct k; try discriminate; eauto)) as X1.
    pose proof (X (fun k => match k with KRef RField => true | _ => false end) ltac:(kinds) ltac:(intros k; destruct k; try discriminate; eauto)) as X2.
    pose proof (X (fun k => match k with KRef RResource => true | _ => false end) ltac:(kinds) ltac:(intros k; destruct k; try discriminate; eauto)) as X3. clear X.
    destruct (only (children_like a is_structure_ref)), (only (children_like b is_structure_ref)); try contradiction; [|now subst]. cbn [bind]. destruct X1 as (-> & _). destruct (ref_path root2 _); [|reflexivity]. cbn [bind].
    match type of X2 with match ?x with _ => _ end => destruct x end; (match type of X2 with match ?x with _ => _ end => destruct x end); try contradiction; [|now subst]. cbn [bind]. destruct X2 as (_ & ->). destruct (ref_name root2 _); [|reflexivity]. cbn [bind].
    match type of X3 with match ?x with _ => _ end => destruct x end; (match type of X3 with match ?x with _ => _ end => destruct x end); try contradiction; [|now subst]. cbn [bind]. destruct X3 as (-> & _). reflexivity.
  Qed.
  Lemma resource_alike a b : alike a b -> located root1 a -> located root2 b -> resource_lines root1 a = resource_lines root2 b.
  Proof.
    intros H La Lb. unfold resource_lines. rewrite (mapM_alike (explicit_lines root1) (explicit_lines root2) _ _ (children_alike a b is_explicit H ltac:(kinds))).
    - destruct (mapM _ _); [|reflexivity]. cbn. rewrite (resource_type_alike a b H La Lb). destruct (resource_type root2 b); [|reflexivity]. cbn. apply alike_parts in H as (-> & K & _).
      apply limit_same in K as [->|(rk & o & m & m' & -> & ->)]; reflexivity.
    - intros x y Hx Hy Hxy. apply like_in in Hx as (Hx & _), Hy as (Hy & _). apply explicit_alike; eauto using located_child.
  Qed.
  Lemma bound_alike a b : alike a b -> located root1 a -> located root2 b -> bound_lines root1 a = bound_lines root2 b.
  Proof.
    intros H La Lb. unfold bound_lines. pose proof H as (N & _ & C)%alike_parts. rewrite (mapM_alike _ (fun c => if is_ref c then ref_path root2 c else Err AttributeError) _ _ C); [now rewrite N|].
    intros x y Hx Hy Hxy. unfold is_ref. destruct (t_kind x) as [| | | | | | | | | |r] eqn:Kr; try (apply alike_parts in Hxy as (_ & K & _); rewrite Kr in K; destruct (t_kind y); try discriminate; reflexivity).
    rewrite (alike_ref _ _ _ Hxy Kr). eapply path_alike; eauto using located_child.
  Qed.
  Lemma archive_alike n l m : Forall2 alike l m -> (forall a, In a l -> located root1 a) -> (forall b, In b m -> located root2 b) -> archive_lines root1 n l = archive_lines root2 n m.
  Proof.
    intros H L1 L2. unfold archive_lines.
    assert (P : forall p : kind -> bool, (forall k k', without_limit k = without_limit k' -> p k = p k') -> forall a b, alike a b -> p (t_kind a) = p (t_kind b)) by (intros p Hp a b Hab; apply Hp; now apply alike_parts in Hab).
    rewrite (mapM_alike (bound_lines root1) (bound_lines root2) _ _ (forall2_filter alike _ (fun c => is_bound (t_kind c)) _ _ H (P is_bound ltac:(kinds)))).
    - destruct (mapM _ _); [|reflexivity]. cbn. rewrite (mapM_alike (resource_lines root1) (resource_lines root2) _ _ (forall2_filter alike _ (fun c => is_supported_resource (t_kind c)) _ _ H (P is_supported_resource ltac:(kinds)))); [reflexivity|].
      intros x y Hx Hy. apply filter_In in Hx as (Hx & _), Hy as (Hy & _). intros. apply resource_alike; auto.
    - intros x y Hx Hy. apply filter_In in Hx as (Hx & _), Hy as (Hy & _). intros. apply bound_alike; auto.
  Qed.
  Lemma enum_alike n b l m : Forall2 alike l m -> enum_lines n b l = enum_lines n b m.
  Proof.
    intros H. unfold enum_lines. f_equal. f_equal. induction H as [|x y l m Hxy H IH]; cbn; [reflexivity|]. rewrite IH. f_equal. unfold value_lines. apply alike_parts in Hxy as (-> & K & _).
    apply limit_same in K as [->|(rk & o & w & w' & -> & ->)]; reflexivity.
  Qed.
  Lemma declaration_alike a b : alike a b -> (forall c, In c (t_children a) -> located root1 c) -> (forall c, In c (t_children b) -> located root2 c) -> declaration root1 a = declaration root2 b.
  Proof.
    intros H La Lb. apply alike_parts in H as (N & K & C). unfold declaration. rewrite N. apply limit_same in K as [->|(rk & o & m & m' & -> & ->)]; [|reflexivity]. destruct (t_kind b); try reflexivity.
    - unfold structure_lines. rewrite (mapM_alike field_lines field_lines _ _ (forall2_filter alike (fun c => is_field (t_kind c)) (fun c => is_field (t_kind c)) _ _ C ltac:(intros x y Hxy; apply alike_parts in Hxy as (_ & K & _); revert K; generalize (t_kind x) (t_kind y); kinds))); [reflexivity|].
      intros. now apply field_alike.
    - f_equal. now apply enum_alike.
    - now apply archive_alike.
  Qed.

  Lemma kids_alike l a m b cs ds : at_loc root1 l = Some a -> at_loc root2 m = Some b -> alike a b -> names_at root1 l = names_at root2 m ->
    kids root1 l = Ok cs -> kids root2 m = Ok ds -> Forall2 (fun x y => names_at root1 x = names_at root2 y) cs ds.
  Proof.
    intros Ha Hb H N Kc Kd. unfold kids in Kc, Kd. rewrite Ha in Kc. rewrite Hb in Kd. apply bind_ok in Kc as (rs & Hr & Kc). injection Kc as <-. apply bind_ok in Kd as (ts & Ht & Kd). injection Kd as <-.
    pose proof H as (_ & _ & C)%alike_parts. apply Forall2_app.
    - destruct (proj1 (names_at_some root1 l) (ex_intro _ a Ha)) as (ns & Nl). pose proof N as Nm. rewrite Nl in Nm. symmetry in Nm.
      assert (X : forall i x, nth_error (t_children a) i = Some x -> names_at root1 (l ++ [i]) = Some (ns ++ [t_name x])%list) by (intros i x Hi; exact (names_snoc root1 l i a x ns Ha Hi Nl)).
      assert (Y : forall i y, nth_error (t_children b) i = Some y -> names_at root2 (m ++ [i]) = Some (ns ++ [t_name y])%list) by (intros i y Hi; exact (names_snoc root2 m i b y ns Hb Hi Nm)).
      assert (Z0 : forall la lb (C : Forall2 alike la lb) k, (forall i x, nth_error la i = Some x -> names_at root1 (l ++ [(k + i)%nat]) = Some (ns ++ [t_name x])%list) -> (forall i y, nth_error lb i = Some y -> names_at root2 (m ++ [(k + i)%nat]) = Some (ns ++ [t_name y])%list) ->
        Forall2 (fun x y => names_at root1 x = names_at root2 y) (map (fun ic => l ++ [fst ic]) (filter (fun ic => negb (is_ref (snd ic))) (enum_from k la))) (map (fun ic => m ++ [fst ic]) (filter (fun ic => negb (is_ref (snd ic))) (enum_from k lb)))).
      { clear. induction 1 as [|x y la lb Hxy C IH]; intros k X Y; cbn; [constructor|]. assert (R : is_ref x = is_ref y) by (unfold is_ref; apply alike_parts in Hxy as (_ & K & _); apply limit_same in K as [->|(? & ? & ? & ? & -> & ->)]; reflexivity).
        rewrite R. assert (T : Forall2 (fun x y => names_at root1 x = names_at root2 y) (map (fun ic => l ++ [fst ic]) (filter (fun ic => negb (is_ref (snd ic))) (enum_from (S k) la))) (map (fun ic => m ++ [fst ic]) (filter (fun ic => negb (is_ref (snd ic))) (enum_from (S k) lb)))).
        { apply IH; intros i z Hi; [specialize (X (S i) z Hi)|specialize (Y (S i) z Hi)]; rewrite PeanoNat.Nat.add_succ_r in *; assumption. }
        destruct (negb (is_ref y)); [|exact T]. cbn. constructor; [|exact T]. specialize (X 0%nat x eq_refl). specialize (Y 0%nat y eq_refl). rewrite PeanoNat.Nat.add_0_r in *. rewrite X, Y. apply alike_parts in Hxy as (-> & _). reflexivity. }
      exact (Z0 _ _ C 0%nat X Y).
    - assert (L1 : forall x, In x (t_children a) -> located root1 x) by (intros x; apply located_child; now exists l). assert (L2 : forall x, In x (t_children b) -> located root2 x) by (intros x; apply located_child; now exists m).
      apply mapM_ok in Hr, Ht. set (p := fun c : tree => match t_kind c with KRef r => is_type_ref r | _ => false end) in *.
      assert (Fp : Forall2 alike (filter p (t_children a)) (filter p (t_children b))).
      { apply (forall2_filter alike p p _ _ C). intros x y Hxy. unfold p. apply alike_parts in Hxy as (_ & K & _). apply limit_same in K as [->|(? & ? & ? & ? & -> & ->)]; reflexivity. }
      assert (I1 : forall x, In x (filter p (t_children a)) -> located root1 x /\ exists r, t_kind x = KRef r) by (intros x Hx; apply filter_In in Hx as (Hx & Px); split; [auto|]; unfold p in Px; destruct (t_kind x); try discriminate; eauto).
      assert (I2 : forall x, In x (filter p (t_children b)) -> located root2 x) by (intros x Hx; apply filter_In in Hx as (Hx & _); auto).
      clear - Hr Ht Fp I1 I2 F1 F2. revert rs ts Hr Ht. induction Fp as [|x y la lb Hxy Fp IH]; intros rs ts Hr Ht; inversion Hr as [|? d ? rs' Ed Hr']; inversion Ht as [|? e ? ts' Ee Ht']; subst; constructor.
      + destruct (I1 x (or_introl eq_refl)) as (Lx & r & Kr). destruct (ref_where root1 F1 x r Lx Kr) as (d' & v & E1 & _ & _ & N1). destruct (ref_where root2 F2 y r (I2 y (or_introl eq_refl)) (alike_ref _ _ _ Hxy Kr)) as (e' & v' & E2 & _ & _ & N2).
        rewrite Ed in E1. injection E1 as <-. rewrite Ee in E2. injection E2 as <-. rewrite N1, N2. now rewrite (alike_target x y Hxy).
      + apply IH; auto; intros z Hz; [apply I1|apply I2]; now right.
  Qed.

  (** ** The text *)
  Section Target.
    Variables (tgt1 tgt2 : loc) (u1 u2 : tree).
    Hypothesis (H1 : at_loc root1 tgt1 = Some u1) (H2 : at_loc root2 tgt2 = Some u2) (K1 : has_schema (t_kind u1) = true).
    Hypothesis (Names : names_at root1 tgt1 = names_at root2 tgt2) (Same : same_dependencies root1 tgt1 root2).

    Lemma dep_alike m a b m' : depends root1 tgt1 m -> at_loc root1 m = Some a -> at_loc root2 m' = Some b -> names_at root1 m = names_at root2 m' -> alike a b.
    Proof.
      intros D Ha Hb N. destruct (Same m a D Ha) as (x & t & Ht & Nx & E). destruct (proj1 (names_at_some root1 m) (ex_intro _ a Ha)) as (ns & Nm).
      assert (x = m') by (apply (names_same root2 F2 x m' ns); congruence). subst x. unfold alike. congruence.
    Qed.
    Lemma tgt_alike : alike u1 u2.
    Proof. exact (dep_alike tgt1 u1 u2 tgt2 (depends_self _ _) H1 H2 Names). Qed.
    Lemma kind2 : has_schema (t_kind u2) = true.
    Proof. pose proof tgt_alike as (_ & K & _)%alike_parts. apply limit_same in K as [E|(? & ? & ? & ? & _ & ->)]; [now rewrite <- E|reflexivity]. Qed.
    Lemma schema_not_ref k : has_schema (t_kind k) = true -> is_ref k = false.
    Proof. unfold is_ref. now destruct (t_kind k). Qed.
    Lemma same_len : List.length tgt1 = List.length tgt2.
    Proof.
      destruct (proj1 (names_at_some root1 tgt1) (ex_intro _ u1 H1)) as (ns & N1). pose proof N1 as N2. rewrite Names in N2. apply names_length in N1, N2. congruence.
    Qed.

    Definition related (n n' : vnode) : Prop := vgood root1 tgt1 n /\ vgood root2 tgt2 n' /\ fst n = fst n' /\ names_at root1 (snd n) = names_at root2 (snd n').

    Lemma good_deps x : vgood root1 tgt1 (false, x) -> depends root1 tgt1 x.
    Proof. intros (d & W). apply (depends_reach root1 F1 tgt1 u1 H1). now exists (S d). Qed.
    Lemma related_kids n n' : related n n' -> exists cs ds, vkids root1 tgt1 n = Ok cs /\ vkids root2 tgt2 n' = Ok ds /\ Forall2 related cs ds.
    Proof.
      intros (G1 & G2 & Ef & En). pose proof (schema_not_ref _ K1) as R1. pose proof (schema_not_ref _ kind2) as R2.
      destruct (vkids_total root1 tgt1 u1 Bu1 H1 R1 n G1) as (cs & Kc). destruct (vkids_total root2 tgt2 u2 Bu2 H2 R2 n' G2) as (ds & Kd). exists cs, ds. split; [exact Kc|]. split; [exact Kd|].
      assert (Gc : forall c, In c cs -> vgood root1 tgt1 c) by (intros c Hc; apply (vedge_good root1 tgt1 n c G1); now exists cs).
      assert (Gd : forall c, In c ds -> vgood root2 tgt2 c) by (intros c Hc; apply (vedge_good root2 tgt2 n' c G2); now exists ds).
      assert (X : Forall2 (fun a b => fst a = fst b /\ names_at root1 (snd a) = names_at root2 (snd b)) cs ds).
      { destruct n as [b p], n' as [b' p']. cbn in Ef, En. subst b'.
        assert (Kids : forall l a m b0, at_loc root1 l = Some a -> at_loc root2 m = Some b0 -> alike a b0 -> names_at root1 l = names_at root2 m -> (ks <- kids root1 l ;; Ok (map (pair false) ks)) = Ok cs -> (ks <- kids root2 m ;; Ok (map (pair false) ks)) = Ok ds ->
          Forall2 (fun a b => fst a = fst b /\ names_at root1 (snd a) = names_at root2 (snd b)) cs ds).
        { clear - F1 F2. intros l a m b0 Ha Hb Hab N E1 E2. apply bind_ok in E1 as (ks & Ek & E1). injection E1 as <-. apply bind_ok in E2 as (js & Ej & E2). injection E2 as <-.
          pose proof (kids_alike l a m b0 ks js Ha Hb Hab N Ek Ej) as X. clear - X. induction X; cbn; constructor; auto. }
        destruct b.
        - destruct G1 as (q & E1), G2 as (q' & E2). assert (Lp : List.length p = List.length p').
          { pose proof H1 as H1'. rewrite E1, at_loc_app in H1'. destruct (at_loc root1 p) as [t|] eqn:Hp; [|discriminate]. destruct (proj1 (names_at_some root1 p) (ex_intro _ t Hp)) as (ns & N1). pose proof N1 as N2. rewrite En in N2. apply names_length in N1, N2. congruence. }
          pose proof same_len as Ls. rewrite E1, E2, !app_length in Ls. destruct q as [|i q], q' as [|j q']; cbn in Ls; try lia.
          + rewrite app_nil_r in E1, E2. subst p p'. rewrite vkids_here in Kc, Kd. exact (Kids tgt1 u1 tgt2 u2 H1 H2 tgt_alike Names Kc Kd).
          + rewrite (vkids_above root1 tgt1 p i q E1) in Kc. rewrite (vkids_above root2 tgt2 p' j q' E2) in Kd. injection Kc as <-. injection Kd as <-. constructor; [|constructor]. split; [reflexivity|]. cbn [snd].
            assert (E1' : tgt1 = (p ++ [i]) ++ q) by (now rewrite <- app_assoc). assert (E2' : tgt2 = (p' ++ [j]) ++ q') by (now rewrite <- app_assoc).
            destruct (proj1 (names_at_some root1 tgt1) (ex_intro _ u1 H1)) as (ns & N1). pose proof N1 as N2. rewrite Names in N2. rewrite E1' in N1. rewrite E2' in N2. rewrite (names_prefix _ _ _ _ N1), (names_prefix _ _ _ _ N2). rewrite !app_length, Lp. reflexivity.
        - destruct (vgood_node root1 tgt1 u1 Bu1 H1 R1 _ G1) as (a & Ha & _). destruct (vgood_node root2 tgt2 u2 Bu2 H2 R2 _ G2) as (b0 & Hb & _). cbn in Ha, Hb.
          exact (Kids p a p' b0 Ha Hb (dep_alike p a b0 p' (good_deps p G1) Ha Hb En) En Kc Kd). }
      clear - X Gc Gd. induction X as [|a b la lb (Ea & Eb) X IH]; constructor; [|apply IH; intros c Hc; [apply Gc|apply Gd]; now right]. split; [apply Gc; now left|]. split; [apply Gd; now left|auto].
    Qed.
    Lemma related_inj x y x' y' : related x y -> related x' y' -> (x = x' <-> y = y').
    Proof.
      pose proof (schema_not_ref _ K1) as R1. pose proof (schema_not_ref _ kind2) as R2.
      intros (G1 & G2 & Ef & En) (G1' & G2' & Ef' & En'). destruct x as [b p], y as [c q], x' as [b' p'], y' as [c' q']. cbn [fst snd] in *. subst c c'.
      destruct (vgood_node root1 tgt1 u1 Bu1 H1 R1 _ G1) as (a & Ha & _). destruct (vgood_node root1 tgt1 u1 Bu1 H1 R1 _ G1') as (a' & Ha' & _). cbn in Ha, Ha'.
      destruct (proj1 (names_at_some root1 p) (ex_intro _ a Ha)) as (ns & N). destruct (proj1 (names_at_some root1 p') (ex_intro _ a' Ha')) as (ns' & N'). split; intros E; injection E as <- <-.
      - f_equal. apply (names_same root2 F2 q q' ns); congruence.
      - f_equal. apply (names_same root1 F1 p p' ns); congruence.
    Qed.
    Lemma related_block n n' : related n n' -> vblock root1 tgt1 n = vblock root2 tgt2 n'.
    Proof.
      intros (G1 & G2 & Ef & En). pose proof (schema_not_ref _ K1) as R1. pose proof (schema_not_ref _ kind2) as R2.
      assert (Go : forall l a v l' a' v', at_loc root1 l = Some a -> at_loc root2 l' = Some a' -> names_at root1 l = names_at root2 l' -> t_kind v = t_kind a -> t_kind v' = t_kind a' -> alike v v' ->
        (forall c, In c (t_children v) -> In c (t_children a)) -> (forall c, In c (t_children v') -> In c (t_children a')) ->
        (if is_supported (t_kind v) && negb (is_builtin root1 l) then block root1 l v else Ok []) = (if is_supported (t_kind v') && negb (is_builtin root2 l') then block root2 l' v' else Ok [])).
      { clear - F1 F2. intros l a v l' a' v' Ha Ha' N Ka Ka' Hv C1 C2. assert (Sp : is_supported (t_kind v) = is_supported (t_kind v')) by (pose proof Hv as (_ & K & _)%alike_parts; apply limit_same in K as [->|(? & ? & ? & ? & -> & ->)]; reflexivity).
        rewrite Sp. destruct (is_supported (t_kind v')) eqn:S'; [|reflexivity]. cbn [andb]. rewrite Ka in Sp. rewrite Ka' in S'. destruct (namespaces_alike l a l' a' Ha Ha' Sp S' N) as (Ens & _). unfold is_builtin, block. rewrite Ens.
        rewrite (declaration_alike v v' Hv); [reflexivity| |].
        - intros c Hc. apply (located_child root1 a); [now exists l|auto].
        - intros c Hc. apply (located_child root2 a'); [now exists l'|auto]. }
      destruct n as [b p], n' as [b' p']. cbn in Ef, En. subst b'. destruct (vgood_node root1 tgt1 u1 Bu1 H1 R1 _ G1) as (a & Ha & _). destruct (vgood_node root2 tgt2 u2 Bu2 H2 R2 _ G2) as (a' & Ha' & _). cbn [snd] in Ha, Ha'.
      unfold vblock, view. cbn [fst snd]. rewrite Ha, Ha'. destruct b.
      - destruct G1 as (q & E1), G2 as (q' & E2). assert (Lp : List.length p = List.length p').
        { destruct (proj1 (names_at_some root1 p) (ex_intro _ a Ha)) as (ns & N1). pose proof N1 as N2. rewrite En in N2. apply names_length in N1, N2. congruence. }
        pose proof same_len as Ls. rewrite E1, E2, !app_length in Ls. destruct q as [|i q], q' as [|j q']; cbn in Ls; try lia.
        + rewrite app_nil_r in E1, E2. subst p p'. rewrite !(proj2 (nth_error_None _ _) (PeanoNat.Nat.le_refl _)). rewrite H1 in Ha. rewrite H2 in Ha'. injection Ha as <-. injection Ha' as <-.
          apply (Go tgt1 u1 u1 tgt2 u2 u2); auto. exact tgt_alike.
        + rewrite E1, E2. rewrite !nth_error_app2, !PeanoNat.Nat.sub_diag by lia. cbn [nth_error].
          assert (Hu1 : at_loc root1 (p ++ i :: q) = Some u1) by (now rewrite <- E1). assert (Hu2 : at_loc root2 (p' ++ j :: q') = Some u2) by (now rewrite <- E2).
          pose proof Hu1 as C1. rewrite at_loc_app, Ha in C1. cbn in C1. destruct (nth_error (t_children a) i) as [c|] eqn:Ci; [|discriminate]. pose proof Hu2 as C2. rewrite at_loc_app, Ha' in C2. cbn in C2. destruct (nth_error (t_children a') j) as [c'|] eqn:Cj; [|discriminate].
          pose proof (above_schema root1 F1 p i q u1 a Hu1 K1 Ha) as A1. pose proof (above_schema root2 F2 p' j q' u2 a' Hu2 kind2 Ha') as A2.
          assert (Su : is_supported (t_kind u1) = is_supported (t_kind u2)) by (pose proof tgt_alike as (_ & K & _)%alike_parts; apply limit_same in K as [->|(? & ? & ? & ? & -> & ->)]; reflexivity).
          assert (Qn : q = [] <-> q' = []) by (split; intros ->; [destruct q'|destruct q]; auto; cbn in Ls; lia).
          destruct A1 as [(Ka & Eq & rk & o & m & Kr)|(Ka & Oa)], A2 as [(Ka' & Eq' & rk' & o' & m' & Kr')|(Ka' & Oa')].
          * subst q q'. cbn in C1, C2. injection C1 as ->. injection C2 as ->. apply (Go p a (Node (t_name a) (t_kind a) [u1]) p' a' (Node (t_name a') (t_kind a') [u2])); auto.
            -- apply alike_parts. cbn. destruct (namespaces_alike p a p' a' Ha Ha' ltac:(now rewrite Ka) ltac:(now rewrite Ka') En) as (_ & ->). rewrite Ka, Ka'. split; [reflexivity|]. split; [reflexivity|]. constructor; [exact tgt_alike|constructor].
            -- intros x [<-|[]]. exact (nth_error_In _ _ Ci).
            -- intros x [<-|[]]. exact (nth_error_In _ _ Cj).
          * exfalso. destruct Oa' as [Oa'|Oa']; [now apply Oa', Qn|]. rewrite <- Su, Kr in Oa'. discriminate.
          * exfalso. destruct Oa as [Oa|Oa]; [now apply Oa, Qn|]. rewrite Su, Kr' in Oa. discriminate.
          * cbn [t_kind]. rewrite Ka, Ka'. reflexivity.
      - apply (Go p a a p' a' a'); auto. exact (dep_alike p a a' p' (good_deps p G1) Ha Ha' En).
    Qed.
    Theorem schema_alike : schema_text root1 tgt1 = schema_text root2 tgt2.
    Proof.
      pose proof (schema_not_ref _ K1) as R1. pose proof (schema_not_ref _ kind2) as R2.
      unfold schema_text, schema_lines. destruct (vorder_spec root1 tgt1 u1 Bu1 H1 R1) as (o1 & E1 & _). destruct (vorder_spec root2 tgt2 u2 Bu2 H2 R2) as (o2 & E2 & _).
      assert (R : Forall2 related o1 o2).
      { unfold vorder in E1, E2. destruct (dependency_order vnode_eq_dec (vkids root1 tgt1) _ _) as [r1|] eqn:D1; [|discriminate]. destruct (dependency_order vnode_eq_dec (vkids root2 tgt2) _ _) as [r2|] eqn:D2; [|discriminate]. subst r1 r2.
        refine (order_equiv vnode_eq_dec vnode_eq_dec _ _ related related_inj related_kids _ _ _ _ _ _ _ D1 D2).
        split; [exists tgt1; reflexivity|]. split; [exists tgt2; reflexivity|]. split; [reflexivity|]. cbn. destruct (b_rooted _ Bu1) as (_ & N1 & _), (b_rooted _ Bu2) as (_ & N2 & _). now rewrite N1, N2. }
      rewrite E1, E2. cbn. assert (M : mapM (vblock root1 tgt1) o1 = mapM (vblock root2 tgt2) o2); [|now rewrite M].
      clear - R F1 F2 H1 H2 K1 Names Same. induction R as [|a b la lb Hab R IH]; cbn; [reflexivity|]. rewrite (related_block a b Hab). destruct (vblock root2 tgt2 b); [|reflexivity]. cbn. now rewrite IH.
    Qed.
  End Target.
End Two.
