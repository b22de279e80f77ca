(** Facts about the generated output: the order of definitions, and that rendering never fails. *)
From Coq Require Import List ZArith Bool String Ascii Lia Permutation.
From Verif Require Import PyBase PyText GenTypes GenTypesFacts GenTree GenTreeFacts GraphSpec GenTraversal GenTraversalFacts
  GenBuild GenBuildFacts GenPassFacts GenAstFacts GenAstSpec GenLayoutFacts GenResolveFacts GenMergeFacts GenShapeFacts GenFlatdata.
Import ListNotations.
Local Open Scope Z_scope.

(** ** Dependencies only depend on the skeleton *)
Lemma filter_map_comm {A B} (p : B -> bool) (f : A -> B) l : filter p (map f l) = map f (filter (fun x => p (f x)) l).
Proof. induction l as [|x l IH]; cbn; [reflexivity|]. destruct (p (f x)); cbn; now rewrite IH. Qed.
Lemma mapM_map {A B C} (f : B -> res C) (g : A -> B) l : mapM f (map g l) = mapM (fun x => f (g x)) l.
Proof. induction l as [|x l IH]; cbn; [reflexivity|]. now rewrite IH. Qed.
Lemma mapM_ext {A B} (f g : A -> res B) l : (forall x, In x l -> f x = g x) -> mapM f l = mapM g l.
Proof. induction l as [|x l IH]; intros H; cbn; [reflexivity|]. rewrite (H x (or_introl eq_refl)), IH; [reflexivity|]. intros y Hy. apply H. now right. Qed.
Lemma enum_from_map {A B} (f : A -> B) l : forall b, enum_from b (map f l) = map (fun ic => (fst ic, f (snd ic))) (enum_from b l).
Proof. induction l as [|x l IH]; intros b; cbn; [reflexivity|]. now rewrite IH. Qed.

Lemma ref_loc_skel a b c c' : rooted a -> rooted b -> same_tree a b -> t_name c = t_name c' -> ref_loc a c = ref_loc b c'.
Proof. intros Ga Gb S E. unfold ref_loc, target. rewrite E. now rewrite (skel_find a b _ Ga Gb S). Qed.
Lemma kids_as a l t : at_loc a l = Some t -> kids a l =
  (rs <- mapM (fun c => ref_loc a c) (filter (fun c => match t_kind c with KRef r => is_type_ref r | _ => false end) (map (skel false) (t_children t))) ;;
   Ok (map (fun ic => l ++ [fst ic]) (filter (fun ic => negb (is_ref (snd ic))) (enum_from 0 (map (skel false) (t_children t)))) ++ rs)).
Proof.
  intros H. unfold kids. rewrite H. rewrite filter_map_comm, mapM_map, enum_from_map, filter_map_comm, map_map. cbn.
  assert (E : forall l, filter (fun x => match t_kind (skel false x) with KRef r => is_type_ref r | _ => false end) l = filter (fun c => match t_kind c with KRef r => is_type_ref r | _ => false end) l).
  { intros l'. apply filter_ext. intros x. rewrite skel_kind. now destruct (t_kind x). }
  rewrite E. rewrite (mapM_ext (fun x => ref_loc a (skel false x)) (ref_loc a)).
  - replace (filter (fun x : nat * tree => negb (is_ref (skel false (snd x)))) (enum_from 0 (t_children t))) with (filter (fun x : nat * tree => negb (is_ref (snd x))) (enum_from 0 (t_children t))); [reflexivity|].
    apply filter_ext. intros x. unfold is_ref. rewrite skel_kind. now destruct (t_kind (snd x)).
  - intros x _. unfold ref_loc, target. rewrite (skel_eq false x). reflexivity.
Qed.
Lemma kids_skel a b l : rooted a -> rooted b -> same_tree a b -> kids a l = kids b l.
Proof.
  intros Ga Gb S. destruct (at_loc a l) as [t|] eqn:Ht.
  - destruct (skel_at false a b l t S Ht) as (t' & Ht' & E). rewrite (kids_as a l t Ht), (kids_as b l t' Ht'). apply (f_equal t_children) in E. rewrite !skel_children in E. rewrite E.
    rewrite (mapM_ext (ref_loc a) (ref_loc b)); [reflexivity|]. intros x _. now apply ref_loc_skel.
  - unfold kids. rewrite Ht. destruct (at_loc b l) as [t'|] eqn:Ht'; [|reflexivity].
    destruct (skel_at false b a l t' (eq_sym S) Ht') as (t & Ht2 & _). congruence.
Qed.

(** ** What is known about the tree of an accepted schema *)
Record built (root : tree) : Prop := {
  b_rooted : rooted root;
  b_resolved : all_resolved root;
  b_shape : local (shape true) root;
  b_multi : forall l u, at_loc root l = Some u -> is_multivector (t_kind u) = true -> exists n, refs_at root l = repeat RStructure n ++ [RBuiltin];
  b_layout : forall l n sz cs, at_loc root l = Some (Node n (KStructure sz) cs) -> exists size, sz = Some size /\ consecutive 0 (fields_of cs) size;
  b_acyclic : forall x, reachable (kids root) [] x -> ~ on_cycle (kids root) x;
  b_explicit : check_explicits root = Ok tt }.

Lemma edge_ext {N} (k k' : N -> res (list N)) : (forall x, k x = k' x) -> forall x y, GraphSpec.edge k x y -> GraphSpec.edge k' x y.
Proof. intros E x y (cs & H & I). exists cs. now rewrite <- E. Qed.
Lemma walk_ext {N} (k k' : N -> res (list N)) : (forall x, k x = k' x) -> forall d x y, walk k d x y -> walk k' d x y.
Proof. intros E d x y W. induction W as [|d x y z W IH He]; econstructor; [exact IH|]. now apply (edge_ext k). Qed.

Theorem build_ast_built so s root : any_order so -> schema_clean s -> build_ast so s = Ok root -> built root.
Proof.
  intros Hso C H. destruct (build_ast_steps _ _ _ H) as (r1 & r2 & r3 & r4 & r5 & r6 & St).
  destruct (steps_good _ _ _ _ _ _ _ _ _ Hso C St) as (G1 & G2 & G3 & K3 & R3 & G4 & R4 & X4 & G5 & S5 & G6 & S6 & G7 & S7 & R5 & R6 & R7).
  destruct (final_shape _ _ _ _ _ _ _ _ _ Hso C St) as (_ & _ & Sh & Mu).
  pose proof St as (_ & _ & _ & _ & _ & _ & H6 & _ & _ & H10). constructor; auto.
  - intros l n sz cs Hl. exact (final_layout so s root l n sz cs Hso C H Hl).
  - assert (E : forall x, kids root x = kids r5 x) by (intros x; apply kids_skel; auto; apply same_trans with r6; now apply eq_sym).
    intros x (d & W) (d' & W'). apply (walk_ext _ _ E) in W, W'. unfold compute_sizes in H6. apply bind_ok in H6 as (order & Ho & _).
    destruct (tree_order_spec r5 R5) as [(o & _ & _ & _ & _ & A)|(Eo & _)]; [|congruence]. apply (A x); [now exists d|now exists d'].
Qed.

(** ** The order of definitions *)
Theorem built_order root : built root ->
  exists order, tree_order root = Ok order /\ NoDup order /\ (forall x, In x order <-> reachable (kids root) [] x) /\ dependencies_first (kids root) order.
Proof.
  intros B. destruct (tree_order_spec root (b_resolved _ B)) as [(o & H1 & H2 & H3 & H4 & _)|(_ & x & H1 & H2)]; [exists o; auto|].
  destruct (b_acyclic _ B x H1 H2).
Qed.

Lemma walk_S_inv {N} (k : N -> res (list N)) d x z : walk k (S d) x z -> exists y, walk k d x y /\ GraphSpec.edge k y z.
Proof. intros W. inversion W as [|? ? y ? W' E]; subst. eauto. Qed.
Lemma walk_0_inv {N} (k : N -> res (list N)) x z : walk k 0 x z -> z = x.
Proof. intros W. now inversion W. Qed.
(** The graph of an extracted subtree *)
Section Extracted.
  Variables (root : tree) (tgt : loc) (u : tree).
  Hypothesis (B : built root) (Hu : at_loc root tgt = Some u) (Ru : is_ref u = false).
  Notation vk := (vkids root tgt).

  Lemma vkids_above (p : loc) i (q : loc) : tgt = p ++ i :: q -> vk (true, p) = Ok [(true, p ++ [i])].
  Proof. intros E. unfold vkids. cbn. rewrite E, nth_error_app2 by lia. now rewrite PeanoNat.Nat.sub_diag. Qed.
  Lemma vkids_here : vk (true, tgt) = (cs <- kids root tgt ;; Ok (map (pair false) cs)).
  Proof. unfold vkids. cbn. now rewrite (proj2 (nth_error_None tgt (List.length tgt)) (PeanoNat.Nat.le_refl _)). Qed.
  Lemma vkids_orig (x : loc) : vk (false, x) = (cs <- kids root x ;; Ok (map (pair false) cs)).
  Proof. reflexivity. Qed.

  Definition vgood (n : vnode) : Prop :=
    match n with (true, p) => exists q, tgt = p ++ q | (false, x) => exists d, walk (kids root) (S d) tgt x end.

  Lemma walk_cons {N} (k : N -> res (list N)) d x y z : GraphSpec.edge k x y -> walk k d y z -> walk k (S d) x z.
  Proof. intros E W. exact (walk_trans k 1 d x y z (walk_edge k x y E) W). Qed.
  Lemma vedge_good n m : vgood n -> GraphSpec.edge vk n m -> vgood m.
  Proof.
    intros Gn (cs & Hk & Hin). destruct n as [[] p].
    - destruct Gn as ([|i q] & E).
      + rewrite app_nil_r in E. subst p. rewrite vkids_here in Hk. apply bind_ok in Hk as (ks & Hks & Hk). injection Hk as <-.
        apply in_map_iff in Hin as (x & <- & Hx). exists 0%nat. apply walk_edge. exists ks. auto.
      + rewrite (vkids_above p i q E) in Hk. injection Hk as <-. destruct Hin as [<-|[]]. exists q. now rewrite <- app_assoc.
    - destruct Gn as (d & W). rewrite vkids_orig in Hk. apply bind_ok in Hk as (ks & Hks & Hk). injection Hk as <-.
      apply in_map_iff in Hin as (x & <- & Hx). exists (S d). econstructor; [exact W|]. exists ks. auto.
  Qed.
  Lemma vreach_good n : reachable vk (true, []) n -> vgood n.
  Proof.
    intros (d & W). remember (true, []) as z eqn:Ez. induction W as [|d x y w W IH He]; [subst; exists tgt; reflexivity|].
    exact (vedge_good y w (IH Ez) He).
  Qed.
  Lemma vreach_prefix (p q : loc) : tgt = p ++ q -> reachable vk (true, []) (true, p).
  Proof.
    revert q. induction p as [|i p IH] using rev_ind; intros q E; [apply reach_refl|]. eapply reach_edge; [apply (IH (i :: q)); now rewrite <- app_assoc in E|].
    exists [(true, p ++ [i])]. split; [|now left]. apply (vkids_above p i q). now rewrite <- app_assoc in E.
  Qed.
  Lemma tgt_reach : reachable (kids root) [] tgt.
  Proof. apply (tree_reach root tgt u); auto; apply B. Qed.
  Lemma below_reach d x : walk (kids root) d tgt x -> reachable (kids root) [] x.
  Proof. intros W. apply (reach_trans _ _ tgt); [apply tgt_reach|now exists d]. Qed.
  Lemma vreach_below d : forall x, walk (kids root) (S d) tgt x -> reachable vk (true, []) (false, x).
  Proof.
    induction d as [|d IH]; intros x W; apply walk_S_inv in W as (y & W & (cs & Hk & Hin)).
    - apply walk_0_inv in W. subst y. eapply reach_edge; [apply (vreach_prefix tgt []); now rewrite app_nil_r|]. exists (map (pair false) cs). split; [rewrite vkids_here, Hk; reflexivity|now apply in_map].
    - eapply reach_edge; [exact (IH y W)|]. exists (map (pair false) cs). split; [rewrite vkids_orig, Hk; reflexivity|now apply in_map].
  Qed.
  Lemma vreach_iff n : reachable vk (true, []) n <-> vgood n.
  Proof.
    split; [apply vreach_good|]. destruct n as [[] p]; cbn; [intros (q & E); exact (vreach_prefix p q E)|intros (d & W); exact (vreach_below d p W)].
  Qed.

  Lemma prefixes_in l : forall p q, l = p ++ q -> In p (prefixes l).
  Proof.
    induction l as [|i l IH]; intros p q E; cbn.
    - destruct p; [now left|discriminate].
    - destruct p as [|j p]; [now left|]. injection E as -> E. right. apply in_map. exact (IH p q E).
  Qed.
  Lemma vgood_node n : vgood n -> exists t, at_loc root (snd n) = Some t /\ is_ref t = false.
  Proof.
    destruct n as [[] p]; cbn.
    - intros (q & E). pose proof Hu as Hu'. rewrite E, at_loc_app in Hu'. destruct (at_loc root p) as [t|] eqn:Hp; [|discriminate]. exists t. split; [reflexivity|].
      destruct q as [|i q]; [cbn in Hu'; congruence|]. cbn in Hu'. destruct (nth_error (t_children t) i) as [c|] eqn:Hc; [|discriminate].
      exact (not_ref_of_child t i c (good_at root p t (proj1 (b_rooted root B)) Hp) Hc).
    - intros (d & W). apply walk_S_inv in W as (y & W & (cs & Hk & Hin)). destruct (reach_node root y (b_resolved root B)) as (t & Ht); [now apply (below_reach d)|].
      exact (kids_in root y t cs p (b_resolved root B) Ht Hk Hin).
  Qed.
  Lemma vkids_total n : vgood n -> exists cs, vk n = Ok cs.
  Proof.
    intros G. destruct (vgood_node n G) as (t & Ht & _). destruct (kids_total root (snd n) t (b_resolved root B) Ht) as (cs & Hc).
    unfold vkids. rewrite Hc. destruct (fst n); [|eexists; reflexivity]. destruct (nth_error tgt _); eexists; reflexivity.
  Qed.
  Lemma vfinite : finite_from vk (true, []) (vnodes root tgt).
  Proof.
    intros n Hn. apply vreach_good in Hn. split; [|now apply vkids_total]. destruct (vgood_node n Hn) as (t & Ht & _). unfold vnodes. apply in_or_app.
    destruct n as [[] p]; cbn in *; [left; destruct Hn as (q & E); apply in_map; exact (prefixes_in _ _ _ E)|right; apply in_map; apply locs_spec; eauto].
  Qed.
  Lemma vwalk_false d n x m : walk vk d n m -> n = (false, x) -> exists y, m = (false, y) /\ walk (kids root) d x y.
  Proof.
    intros W. revert x. induction W as [n|d n y z W IH He]; intros x En; [subst; exists x; split; [reflexivity|constructor]|].
    destruct (IH x En) as (w & -> & W'). destruct He as (cs & Hk & Hin). rewrite vkids_orig in Hk. apply bind_ok in Hk as (ks & Hks & Hk). injection Hk as <-.
    apply in_map_iff in Hin as (v & <- & Hv). exists v. split; [reflexivity|]. econstructor; [exact W'|]. exists ks. auto.
  Qed.
  Lemma vwalk_true d n m : walk vk d n m -> vgood n -> forall p, m = (true, p) -> exists q, n = (true, q) /\ List.length p = (d + List.length q)%nat.
  Proof.
    intros W. induction W as [n|d n y z W IH He]; intros G p E; [subst; exists p; auto|].
    destruct He as (cs & Hk & Hin). destruct y as [[] w].
    - destruct (IH G w eq_refl) as (q & -> & L). exists q. split; [reflexivity|].
      assert (Gw : vgood (true, w)).
      { clear - W G B Hu Ru. remember (true, q) as n. remember (true, w) as y. clear Heqn Heqy. induction W as [|d n y z W IH He]; [exact G|]. exact (vedge_good y z (IH G) He). }
      destruct Gw as ([|i r] & E').
      + rewrite app_nil_r in E'. subst w. rewrite vkids_here in Hk. apply bind_ok in Hk as (ks & _ & Hk). injection Hk as <-. apply in_map_iff in Hin as (v & E1 & _). congruence.
      + rewrite (vkids_above w i r E') in Hk. injection Hk as <-. destruct Hin as [E1|[]]. rewrite E in E1. injection E1 as <-. rewrite app_length. cbn. lia.
    - rewrite vkids_orig in Hk. apply bind_ok in Hk as (ks & _ & Hk). injection Hk as <-. apply in_map_iff in Hin as (v & E1 & _). congruence.
  Qed.
  Lemma vacyclic n : reachable vk (true, []) n -> ~ on_cycle vk n.
  Proof.
    intros R (d & W). apply vreach_good in R. destruct n as [[] p].
    - destruct (vwalk_true _ _ _ W R p eq_refl) as (q & E & L). injection E as <-. lia.
    - destruct (vwalk_false _ _ p _ W eq_refl) as (y & E & W'). injection E as <-. destruct R as (d' & W0).
      apply (b_acyclic root B p); [exact (below_reach _ _ W0)|now exists d].
  Qed.
  Theorem vorder_spec : exists order, vorder root tgt = Ok order /\ NoDup order /\ (forall n, In n order <-> vgood n) /\ dependencies_first vk order.
  Proof.
    unfold vorder. destruct (dfs_total vnode_eq_dec vk (true, []) (vnodes root tgt) (vfuel root tgt) vfinite (PeanoNat.Nat.le_refl _))
      as [(pre & order & _ & E & H1 & _ & H2 & _ & H3 & _)|(_ & _ & x & H1 & H2)].
    - exists order. rewrite E. split; [reflexivity|]. split; [exact H1|]. split; [|exact H3]. intros n. rewrite H2. apply vreach_iff.
    - destruct (vacyclic x H1 H2).
  Qed.
End Extracted.
