(** Facts about accepted schemas, from the checks the builder makes last. *)
From Coq Require Import List ZArith Bool String Ascii Lia Permutation.
From Verif Require Import PyBase PyText Spec GenSpec GenTypes GenTypesFacts GenTree GenTreeFacts GraphSpec GenTraversal GenTraversalFacts
  GenBuild GenBuildFacts GenPassFacts GenAstFacts GenLayoutFacts GenAstSpec GenResolveFacts.
Import ListNotations.
Local Open Scope Z_scope.

Lemma F2_in {A B} (R : A -> B -> Prop) l1 l2 x : Forall2 R l1 l2 -> In x l1 -> exists y, In y l2 /\ R x y.
Proof. induction 1; intros []; [subst; eexists; split; [now left|eassumption]|]. destruct (IHForall2 H1) as (z & ? & ?). exists z. split; [now right|assumption]. Qed.

Lemma points_to_find root l r tl : rooted root -> points_to root l r tl <->
  exists t, at_loc root l = Some t /\ t_kind t = KRef r /\ find root (target t) = Some tl.
Proof.
  intros G. split; intros (t & H1 & H2 & H3); exists t; split; [assumption|split; [assumption|]|assumption|split; [assumption|]].
  - apply path_find; [apply good_wf, G|now apply rooted_dot|exact H3].
  - now apply find_path.
Qed.

Lemma bits_required_rep t v n : bits_required t v = Ok n -> forall w, n <= w <-> representable w (bt_signed t) v.
Proof.
  intros H w. assert (C : bt_signed t = true \/ 0 <= v).
  { destruct (bt_signed t) eqn:E; [auto|]. right. destruct (Z.le_gt_cases 0 v); [assumption|]. rewrite bits_required_neg in H by assumption. discriminate. }
  destruct (bits_required_ok t v C) as (b & E & _ & Hb). rewrite H in E. injection E as <-. apply Hb.
Qed.
Lemma basic_not_marked ty s : storage_width ty = Some s -> ~ marked ty.
Proof. intros H (t & ->). discriminate. Qed.

Lemma children_like_in t p c : In c (children_like t p) <-> exists i, nth_error (t_children t) i = Some c /\ p (t_kind c) = true.
Proof.
  unfold children_like. rewrite filter_In. split.
  - intros [Hin Hp]. apply In_nth_error in Hin as (i & Hi). eauto.
  - intros (i & Hi & Hp). split; [eapply nth_error_In; eauto|exact Hp].
Qed.
Lemma at_child root l u i : at_loc root l = Some u -> at_loc root (l ++ [i]) = nth_error (t_children u) i.
Proof. intros H. rewrite at_loc_app, H. cbn. now destruct (nth_error (t_children u) i). Qed.

Lemma constant_fits root l n ty v cs : good root -> at_loc root l = Some (Node n (KConstant ty v) cs) ->
  exists signed width, In (ty, (signed, width)) basic_types /\ representable width signed v.
Proof.
  intros G H. pose proof (good_here _ (good_at _ _ _ G H)) as (_ & _ & _ & b & m & Hb & Hm & Le). cbn in *.
  apply make_btype_ok in Hb as (s & Hs & -> & _). exists (name_signed ty), s. split; [now apply storage_spec|].
  apply (bits_required_rep _ _ _ Hm) in Le. exact Le.
Qed.

Lemma filter_le_one {A} (p : A -> bool) (l : list A) : (List.length (filter p l) <= 1)%nat ->
  forall i j x y, nth_error l i = Some x -> nth_error l j = Some y -> p x = true -> p y = true -> i = j.
Proof.
  induction l as [|a l IH]; intros L i j x y Hi Hj Px Py; [now destruct i|]. cbn in L.
  destruct i as [|i], j as [|j]; cbn in Hi, Hj.
  - reflexivity.
  - injection Hi as ->. rewrite Px in L. cbn in L. exfalso.
    assert (In y (filter p l)) by (apply filter_In; split; [eapply nth_error_In; eauto|assumption]). destruct (filter p l); [contradiction|cbn in L; lia].
  - injection Hj as ->. rewrite Py in L. cbn in L. exfalso.
    assert (In x (filter p l)) by (apply filter_In; split; [eapply nth_error_In; eauto|assumption]). destruct (filter p l); [contradiction|cbn in L; lia].
  - f_equal. apply (IH ltac:(destruct (p a); cbn in L; lia) i j x y); assumption.
Qed.

Lemma const_refs_ok root : rooted root -> check_const_refs root = Ok tt ->
  forall l f, at_loc root l = Some f -> is_field (t_kind f) = true -> exists n rng ty off cs, f = Node n (KField rng (Some ty) off) cs /\
    (forall i r cl, is_const_ref r = true -> points_to root (l ++ [i]) r cl ->
       (exists n' v cs', at_loc root cl = Some (Node n' (KConstant (ft_name ty) v) cs') /\ representable (ft_width ty) (ft_signed ty) v)
       /\ ~ marked (ft_name ty)) /\
    (forall i j a b, points_to root (l ++ [i]) RInvalidValue a -> points_to root (l ++ [j]) RInvalidValue b -> i = j).
Proof.
  intros G H l f Hl Kf. unfold check_const_refs in H. apply bind_ok in H as (us & H & _). apply mapM_ok in H.
  assert (Hin : In l (iterate root is_field)) by (apply iterate_spec; eauto).
  assert (E : check_const_refs_at root l = Ok tt).
  { destruct (F2_in _ _ _ _ H Hin) as (u & _ & E). now destruct u. }
  unfold check_const_refs_at in E. rewrite Hl in E. destruct f as [n k cs]. cbn in Kf. destruct k; try discriminate.
  destruct type as [ty|]; [|discriminate]. exists n, range, ty, offset, cs. split; [reflexivity|].
  apply bind_ok in E as (vs & E & Last). split.
  - intros i r cl Hr P. apply (points_to_find _ _ _ _ G) in P as (t & Ht & Kt & Ft).
    rewrite (at_child _ _ _ _ Hl) in Ht. cbn in Ht.
    assert (Hc : In t (children_like (Node n (KField range (Some ty) offset) cs) is_const_ref_kind)).
    { apply children_like_in. exists i. split; [exact Ht|]. rewrite Kt. exact Hr. }
    apply mapM_ok in E. destruct (F2_in _ _ _ _ E Hc) as (u & _ & Ec). unfold check_const_ref, ref_loc in Ec. rewrite Ft in Ec. cbn [bind] in Ec.
    destruct (at_loc root cl) as [[n' k' cs']|] eqn:Hcl; [|discriminate]. destruct k'; try discriminate.
    destruct (String.eqb_spec type_name (ft_name ty)) as [->|]; [|discriminate]. cbn [negb] in Ec.
    apply bind_ok in Ec as (b & Hb & Ec). apply bind_ok in Ec as (m & Hm & Ec).
    destruct (m >? ft_width ty) eqn:Gt; [discriminate|]. rewrite Z.gtb_ltb in Gt. apply Z.ltb_ge in Gt.
    pose proof (good_here _ (good_at _ _ _ (proj1 G) Hl)) as (_ & _ & _ & _ & Fok). 
    apply make_btype_ok in Hb as (s & Hs & -> & _). pose proof (basic_not_marked _ _ Hs) as Nm. split; [|exact Nm].
    exists n', value, cs'. split; [reflexivity|]. destruct Fok as [M|[Sg _]]; [contradiction|]. rewrite Sg.
    apply (bits_required_rep _ _ _ Hm). exact Gt.
  - intros i j a b (ti & Hi & Ki & _) (tj & Hj & Kj & _). rewrite (at_child _ _ _ i Hl) in Hi. rewrite (at_child _ _ _ j Hl) in Hj. cbn in Hi, Hj.
    destruct (zlen _ >? 1) eqn:Z1 in Last; [discriminate|]. rewrite Z.gtb_ltb in Z1. apply Z.ltb_ge in Z1. unfold zlen in Z1.
    unfold children_like in Z1. cbn [t_children] in Z1.
    eapply (filter_le_one (fun c => is_invalid_ref (t_kind c)) cs ltac:(lia) i j ti tj Hi Hj); [now rewrite Ki|now rewrite Kj].
Qed.
