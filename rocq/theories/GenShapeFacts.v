(** Which nodes occur below which: an invariant of the syntax tree. *)
From Coq Require Import List ZArith Bool String Ascii Lia Permutation.
From Verif Require Import PyBase PyText GenTypes GenTypesFacts GenTree GenTreeFacts GenTraversal
  GenBuild GenBuildFacts GenPassFacts GenAstFacts GenAstSpec GenLayoutFacts GenResolveFacts GenMergeFacts.
Import ListNotations.
Local Open Scope Z_scope.

Section Local.
  Variable P : kind -> list kind -> Prop.
  Definition local (t : tree) : Prop := forall l u, at_loc t l = Some u -> P (t_kind u) (map t_kind (t_children u)).
  Lemma local_here t : local t -> P (t_kind t) (map t_kind (t_children t)). Proof. intros H. exact (H [] t eq_refl). Qed.
  Lemma local_at t l u : local t -> at_loc t l = Some u -> local u.
  Proof. intros H Hl m v Hm. apply (H (l ++ m) v). now rewrite at_loc_app, Hl. Qed.
  Lemma local_intro n k cs : P k (map t_kind cs) -> (forall c, In c cs -> local c) -> local (Node n k cs).
  Proof.
    intros Hk Hc l u Hl. destruct l as [|i l]; cbn in Hl; [injection Hl as <-; exact Hk|].
    destruct (nth_error cs i) as [c|] eqn:E; [|discriminate]. exact (Hc c (nth_error_In _ _ E) l u Hl).
  Qed.
  Lemma local_children t c : local t -> In c (t_children t) -> local c.
  Proof. intros H Hin. apply In_nth_error in Hin as (i & Hi). apply (local_at t [i] c H). cbn. now rewrite Hi. Qed.
  Lemma local_modify f l : forall t u, local t -> at_loc t l = Some u -> local (f u) -> t_kind (f u) = t_kind u -> local (modify t l f).
  Proof.
    induction l as [|i l IH]; intros t u Ht Hl Hf Hk; cbn in *; [injection Hl as ->; exact Hf|].
    destruct t as [n k cs]. cbn in Hl. destruct (nth_error cs i) as [c|] eqn:Hc; [|discriminate].
    assert (Kc : t_kind (modify c l f) = t_kind c).
    { destruct l as [|j l]; [cbn in *; injection Hl as ->; exact Hk|now apply modify_name_kind]. }
    apply local_intro.
    - rewrite (upd_map t_kind cs i (fun c => modify c l f) c Hc Kc). exact (local_here _ Ht).
    - intros x Hx. destruct (upd_in _ _ _ _ _ Hc Hx) as [->|Hin]; [|exact (local_children (Node n k cs) x Ht Hin)].
      apply (IH c u); [exact (local_children (Node n k cs) c Ht (nth_error_In _ _ Hc))|exact Hl|exact Hf|exact Hk].
  Qed.
  Lemma local_insert_at root l c root' t : insert_at root l c = Ok root' -> at_loc root l = Some t -> local root -> local c ->
    P (t_kind t) (map t_kind (t_children t) ++ [t_kind c]) -> local root'.
  Proof.
    intros H Hl G Hc HP. apply insert_at_inv in H as (t' & Ht & _ & ->). rewrite Hl in Ht. injection Ht as <-.
    apply (local_modify _ l root t G Hl); [|reflexivity]. apply local_intro.
    - now rewrite map_app.
    - intros x Hx. apply in_app_or in Hx as [Hx|[<-|[]]]; [|exact Hc]. exact (local_children _ _ (local_at _ _ _ G Hl) Hx).
  Qed.
  Lemma local_leaf n k t : make_node n k = Ok t -> P k [] -> local t.
  Proof. intros H Hk. apply make_node_ok in H as (_ & ->). apply local_intro; [exact Hk|intros c []]. Qed.
End Local.

(** ** The shape of a node *)
Section Created.
Variable bi : bool.    (* whether index references have been added *)
Definition edge (k c : kind) : Prop :=
  match k, c with
  | KRef _, _ => False
  | _, KNamespace => True
  | KNamespace, (KConstant _ _ | KStructure _ | KEnum _ | KArchive) => True
  | KStructure _, KField _ _ _ => True
  | KField _ _ _, KRef (RConstValue | RInvalidValue | REnum _) => True
  | KEnum _, KEnumValue _ _ => True
  | KArchive, (KResource _ _ _ | KRef RConstValue) => True
  | KResource KBound _ _, KExplicit => False
  | KResource _ _ _, KExplicit => True
  | KResource KInstance _ _, KRef RStructure => True
  | KResource KVector _ _, KRef RStructure => True
  | KResource (KMultivector _) _ _, KRef RStructure => True
  | KResource (KMultivector _) _ _, KRef RBuiltin => bi = true
  | KResource KArchiveRes _ _, KRef RArchive => True
  | KResource KBound _ _, KRef RResource => True
  | KExplicit, KRef (RResource | RField | RStructure) => True
  | _, _ => False
  end.
Definition ref_kinds (ks : list kind) : list refkind := flat_map (fun k => match k with KRef r => [r] | _ => [] end) ks.
Definition shape (k : kind) (ks : list kind) : Prop :=
  Forall (edge k) ks /\
  match k with
  | KResource (KVector | KInstance) _ _ => ref_kinds ks = [RStructure]
  | KResource KArchiveRes _ _ => ref_kinds ks = [RArchive]
  | KResource (KMultivector _) _ _ => exists n m, ref_kinds ks = repeat RStructure n ++ repeat RBuiltin m
  | KExplicit => ref_kinds ks = [RResource; RField; RStructure]
  | _ => True
  end.
Notation shaped := (local shape).

Lemma ref_kinds_app a b : ref_kinds (a ++ b) = ref_kinds a ++ ref_kinds b. Proof. apply flat_map_app. Qed.
Lemma edge_erase k c : edge (erase k) (erase c) <-> edge k c.
Proof. destruct k; cbn; try tauto; destruct c; cbn; tauto. Qed.
Lemma ref_kinds_erase ks : ref_kinds (map erase ks) = ref_kinds ks.
Proof. induction ks as [|k ks IH]; cbn; [reflexivity|]. fold (ref_kinds (map erase ks)) (ref_kinds ks). rewrite IH. now destruct k. Qed.
Lemma shape_erase k ks : shape (erase k) (map erase ks) <-> shape k ks.
Proof.
  unfold shape. assert (E : Forall (edge (erase k)) (map erase ks) <-> Forall (edge k) ks).
  { rewrite !Forall_forall. split.
    - intros H x Hx. apply edge_erase. apply H. now apply in_map.
    - intros H x Hx. apply in_map_iff in Hx as (y & <- & Hy). apply edge_erase. auto. }
  rewrite E. destruct k; cbn; rewrite ?ref_kinds_erase; tauto.
Qed.
Lemma shaped_skel b t t' : skel b t = skel b t' -> shaped t -> shaped t'.
Proof.
  intros S H l u' Hu. destruct (skel_at b t' t l u' (eq_sym S) Hu) as (u & Hl & Su). specialize (H l u Hl).
  apply shape_erase. apply shape_erase in H. assert (Ek := skel_kind_eq _ _ _ Su). rewrite <- Ek.
  replace (map erase (map t_kind (t_children u'))) with (map erase (map t_kind (t_children u))); [exact H|].
  apply (f_equal t_children) in Su. rewrite !skel_children in Su. apply (f_equal (map t_kind)) in Su. rewrite !map_map in Su |- *.
  erewrite map_ext; [|intros a; symmetry; apply (skel_kind b)]. rewrite Su. apply map_ext. intros a. apply skel_kind.
Qed.

(** ** Created nodes *)
Lemma ref_shaped r n t : make_ref r n = Ok t -> shaped t /\ t_kind t = KRef r.
Proof. intros H. split; [exact (local_leaf _ _ _ _ H (conj (Forall_nil _) I))|]. apply make_node_ok in H as (_ & ->). reflexivity. Qed.
Lemma refs_shaped r ns cs : Forall2 (fun rc d => rc = Ok d) (map (make_ref r) ns) cs -> Forall (fun c => shaped c /\ t_kind c = KRef r) cs.
Proof.
  revert cs. induction ns as [|n ns IH]; intros cs F; cbn in F; inversion F; subst; constructor; [now apply (ref_shaped r n)|now apply IH].
Qed.
Lemma kinds_repeat r cs : Forall (fun c => shaped c /\ t_kind c = KRef r) cs -> map t_kind cs = repeat (KRef r) (List.length cs).
Proof. induction 1 as [|c cs (_ & E) F IH]; cbn; [reflexivity|now rewrite E, IH]. Qed.
Lemma ref_kinds_repeat r n : ref_kinds (repeat (KRef r) n) = repeat r n.
Proof. induction n; cbn; [reflexivity|]. f_equal. exact IHn. Qed.
Lemma Forall_repeat {A} (P : A -> Prop) x n : P x -> Forall P (repeat x n).
Proof. intros H. induction n; constructor; auto. Qed.

Lemma constant_shaped p t : create_constant p = Ok t -> shaped t /\ exists a b, t_kind t = KConstant a b.
Proof.
  unfold create_constant. intros H. apply bind_ok in H as (a & _ & H). apply bind_ok in H as (v & _ & H). injection H as <-. split; [|do 2 eexists; reflexivity].
  apply local_intro; [split; constructor|intros c []].
Qed.
Definition is_field_kind (k : kind) : Prop := exists a b c, k = KField a b c.
Lemma field_shaped p t : create_field p = Ok t -> shaped t /\ is_field_kind (t_kind t).
Proof.
  unfold create_field. intros H. apply bind_ok in H as (a & Ha & H). apply bind_ok in H as (b & Hb & H). apply make_node_ok in Ha as (_ & ->).
  assert (Fb : Forall (fun c => shaped c /\ (t_kind c = KRef RConstValue \/ t_kind c = KRef RInvalidValue)) (t_children b) /\ is_field_kind (t_kind b)).
  { refine (foldM_inv (fun b => Forall _ (t_children b) /\ is_field_kind (t_kind b)) _ _ _ _ Hb _ _); [split; [constructor|do 3 eexists; reflexivity]|].
    intros d _ x x' (Fx & Kx) E. destruct d; [injection E as <-; auto| |]; apply bind_ok in E as (c & Hc & E); apply insert_ok in E as (_ & ->);
      (split; [|exact Kx]); cbn; apply Forall_app; (split; [exact Fx|]); constructor; try constructor; apply ref_shaped in Hc as (Sc & Kc); auto. }
  destruct Fb as (Fb & (r1 & r2 & r3 & Kb)).
  assert (Ed : forall rng ty off, Forall (edge (KField rng ty off)) (map t_kind (t_children b))).
  { intros rng ty off. apply Forall_forall. intros k Hk. apply in_map_iff in Hk as (c & <- & Hc). rewrite Forall_forall in Fb. destruct (Fb c Hc) as (_ & [-> | ->]); exact I. }
  assert (Fc : forall c, In c (t_children b) -> shaped c) by (intros c Hc; rewrite Forall_forall in Fb; now apply Fb).
  destruct (is_basic_type _).
  - apply bind_ok in H as (bt & _ & H). injection H as <-. split; [|do 3 eexists; reflexivity]. apply local_intro; [split; [apply Ed|exact I]|exact Fc].
  - apply bind_ok in H as (c & Hc & H). apply insert_ok in H as (_ & ->). apply ref_shaped in Hc as (Sc & Kc). split; [|rewrite Kb; do 3 eexists; reflexivity].
    apply local_intro.
    + rewrite Kb. split; [|exact I]. rewrite map_app. apply Forall_app. split; [apply Ed|]. constructor; [cbn; now rewrite Kc|constructor].
    + intros x Hx. apply in_app_or in Hx as [Hx|[<-|[]]]; auto.
Qed.
Lemma structure_shaped p t : create_structure p = Ok t -> shaped t /\ t_kind t = KStructure None.
Proof.
  unfold create_structure. intros H. apply bind_ok in H as (a & Ha & H). apply make_node_ok in Ha as (_ & ->). destruct (insert_all_ok _ _ _ H) as (ds & F & -> & _). cbn.
  split; [|reflexivity]. assert (G : Forall (fun c => shaped c /\ is_field_kind (t_kind c)) ds).
  { clear H. revert ds F. induction (ps_fields p) as [|f fs IH]; intros ds F; cbn in F; inversion F; subst; constructor; [now apply (field_shaped f)|now apply IH]. }
  apply local_intro.
  - split; [|exact I]. apply Forall_forall. intros k Hk. apply in_map_iff in Hk as (c & <- & Hc). rewrite Forall_forall in G. destruct (G c Hc) as (_ & (a & b & e & ->)). exact I.
  - intros c Hc. rewrite Forall_forall in G. now apply G.
Qed.
Lemma enumeration_shaped so p t : create_enumeration so p = Ok t -> shaped t /\ exists b, t_kind t = KEnum b.
Proof.
  unfold create_enumeration. intros H. apply bind_ok in H as ([b vs] & _ & H). apply bind_ok in H as (a & Ha & H). apply bind_ok in H as (cs & Hcs & H).
  injection H as <-. split; [|eexists; reflexivity]. assert (G : forall c, In c cs -> shaped c /\ exists v w, t_kind c = KEnumValue v w).
  { intros c Hc. destruct (mapM_in _ _ _ _ Hcs Hc) as (v & _ & E). split; [exact (local_leaf _ _ _ _ E (conj (Forall_nil _) I))|]. apply make_node_ok in E as (_ & ->). cbn. eauto. }
  apply local_intro; [|intros c Hc; now apply G]. split; [|exact I]. apply Forall_forall. intros k Hk. apply in_map_iff in Hk as (c & <- & Hc). destruct (G c Hc) as (_ & v & w & ->). exact I.
Qed.
Lemma explicit_shaped a b c t : create_explicit a b c = Ok t -> shaped t /\ t_kind t = KExplicit.
Proof.
  unfold create_explicit. intros H. apply bind_ok in H as (x & Hx & H). apply make_node_ok in Hx as (_ & ->). destruct (insert_all_ok _ _ _ H) as (ds & F & -> & _). cbn. split; [|reflexivity].
  inversion F as [|? d1 ? ds1 E1 F1]; subst. inversion F1 as [|? d2 ? ds2 E2 F2]; subst. inversion F2 as [|? d3 ? ds3 E3 F3]; subst. inversion F3; subst.
  apply ref_shaped in E1 as (S1 & K1), E2 as (S2 & K2), E3 as (S3 & K3). apply local_intro.
  - cbn. rewrite K1, K2, K3. split; [repeat constructor|reflexivity].
  - intros y [<-|[<-|[<-|[]]]]; assumption.
Qed.
Lemma resource_shaped p t : create_resource p = Ok t -> shaped t /\ exists rk o m, t_kind t = KResource rk o m.
Proof.
  unfold create_resource. intros H. apply bind_ok in H as (a & Ha & H). apply bind_ok in H as (b & Hb & H). apply make_node_ok in Ha as (_ & ->).
  set (rk := match pr_type p with TRaw => KRawData | TVector _ => KVector | TMulti w _ => KMultivector (Z.of_N w) | TArchive _ => KArchiveRes | TObject _ => KInstance end) in *.
  assert (Fb : Forall (fun c => shaped c /\ t_kind c = KExplicit) (t_children b) /\ t_kind b = KResource rk (has_optional (pr_decs p)) None).
  { refine (foldM_inv (fun b => Forall _ (t_children b) /\ t_kind b = _) _ _ _ _ Hb _ _); [split; [constructor|reflexivity]|].
    intros d _ x x' (Fx & Kx) E. destruct d; [|injection E as <-; auto]. apply bind_ok in E as (c & Hc & E). apply insert_ok in E as (_ & ->). split; [|exact Kx].
    cbn. apply Forall_app. split; [exact Fx|]. constructor; [now apply explicit_shaped in Hc|constructor]. }
  destruct Fb as (Fb & Kb). destruct (insert_all_ok _ _ _ H) as (ds & F & -> & _). cbn [t_kind]. rewrite Kb. split; [|do 3 eexists; reflexivity].
  assert (Ex : ref_kinds (map t_kind (t_children b)) = []).
  { clear - Fb. induction Fb as [|c cs (_ & E) F IH]; cbn; [reflexivity|]. rewrite E. exact IH. }
  assert (Ee : Forall (edge (KResource rk (has_optional (pr_decs p)) None)) (map t_kind (t_children b))).
  { apply Forall_forall. intros k Hk. apply in_map_iff in Hk as (c & <- & Hc). rewrite Forall_forall in Fb. destruct (Fb c Hc) as (_ & ->). unfold rk. destruct (pr_type p); exact I. }
  assert (G : forall r, Forall (fun c => shaped c /\ t_kind c = KRef r) ds -> (ds = [] \/ edge (KResource rk (has_optional (pr_decs p)) None) (KRef r)) ->
    Forall (edge (KResource rk (has_optional (pr_decs p)) None)) (map t_kind (t_children b ++ ds)) /\ ref_kinds (map t_kind (t_children b ++ ds)) = repeat r (List.length ds)
    /\ forall c, In c (t_children b ++ ds) -> shaped c).
  { intros r Fd Er. rewrite map_app, ref_kinds_app, Ex. split; [|split].
    - apply Forall_app. split; [exact Ee|]. destruct Er as [-> |Er]; [constructor|]. rewrite (kinds_repeat r ds Fd). now apply Forall_repeat.
    - cbn. rewrite (kinds_repeat r ds Fd). apply ref_kinds_repeat.
    - rewrite Forall_forall in Fb, Fd. intros c Hc. apply in_app_or in Hc as [Hc|Hc]; [now apply Fb|now apply Fd]. }
  unfold rk in *. destruct (pr_type p) as [|ty|w tys|nm|ty].
  - inversion F; subst. destruct (G RStructure ltac:(constructor) (or_introl eq_refl)) as (G1 & G2 & G3). apply local_intro; [split; [exact G1|exact I]|exact G3].
  - destruct (G RStructure (refs_shaped RStructure [ty] ds F) (or_intror I)) as (G1 & G2 & G3). apply local_intro; [split; [exact G1|]|exact G3].
    apply Forall2_length in F. rewrite G2, <- F. reflexivity.
  - destruct (G RStructure (refs_shaped RStructure tys ds F) (or_intror I)) as (G1 & G2 & G3). apply local_intro; [split; [exact G1|]|exact G3]. exists (List.length ds), O. cbn. now rewrite app_nil_r.
  - destruct (G RArchive (refs_shaped RArchive [nm] ds F) (or_intror I)) as (G1 & G2 & G3). apply local_intro; [split; [exact G1|]|exact G3].
    apply Forall2_length in F. rewrite G2, <- F. reflexivity.
  - destruct (G RStructure (refs_shaped RStructure [ty] ds F) (or_intror I)) as (G1 & G2 & G3). apply local_intro; [split; [exact G1|]|exact G3].
    apply Forall2_length in F. rewrite G2, <- F. reflexivity.
Qed.
Lemma bound_shaped b t : create_bound b = Ok t -> shaped t /\ exists rk o m, t_kind t = KResource rk o m.
Proof.
  unfold create_bound. intros H. apply bind_ok in H as (a & Ha & H). apply make_node_ok in Ha as (_ & ->). destruct (insert_all_ok _ _ _ H) as (ds & F & -> & _). cbn.
  split; [|do 3 eexists; reflexivity]. apply refs_shaped in F. apply local_intro; [|rewrite Forall_forall in F; intros c Hc; now apply F].
  rewrite (kinds_repeat _ _ F). split; [now apply Forall_repeat|exact I].
Qed.
Lemma Forall2_map_ok {A} (f : A -> res tree) (Q : tree -> Prop) l ds : (forall x c, f x = Ok c -> Q c) -> Forall2 (fun rc d => rc = Ok d) (map f l) ds -> Forall Q ds.
Proof. intros Hf. revert ds. induction l as [|x l IH]; intros ds F; cbn in F; inversion F; subst; constructor; eauto. Qed.
Lemma archive_shaped p t : create_archive p = Ok t -> shaped t /\ t_kind t = KArchive.
Proof.
  unfold create_archive. intros H. apply bind_ok in H as (a & Ha & H). apply make_node_ok in Ha as (_ & ->). apply bind_ok in H as (b & Hb & H).
  destruct (insert_all_ok _ _ _ Hb) as (ds & F & -> & _). destruct (insert_all_ok _ _ _ H) as (es & F' & -> & _). cbn. split; [|reflexivity].
  apply (Forall2_map_ok _ _ _ _ resource_shaped) in F. apply (Forall2_map_ok _ _ _ _ bound_shaped) in F'. assert (G := proj2 (Forall_app _ _ _) (conj F F')).
  rewrite Forall_forall in G. apply local_intro; [|intros c Hc; now apply G]. split; [|exact I]. apply Forall_forall. intros k Hk. apply in_map_iff in Hk as (c & <- & Hc).
  destruct (G c Hc) as (_ & rk & o & m & ->). exact I.
Qed.
Definition def_kind (k : kind) : Prop := match k with KConstant _ _ | KStructure _ | KEnum _ | KArchive => True | _ => False end.
Lemma definitions_shaped so p ks ds : create_definitions so p = Ok (ks, ds) -> Forall (fun d => shaped d /\ def_kind (t_kind d)) ds.
Proof.
  unfold create_definitions. destruct (match pn_name p with String "." _ => true | _ => false end); [discriminate|]. intros H.
  apply bind_ok in H as (a & _ & H). apply bind_ok in H as (t & Ht & H). injection H as _ <-. destruct (insert_all_ok _ _ _ Ht) as (ds & F & -> & _). cbn.
  apply Forall2_app_inv_l in F as (d1 & r1 & F1 & F & ->). apply Forall2_app_inv_l in F as (d2 & r2 & F2 & F & ->). apply Forall2_app_inv_l in F as (d3 & d4 & F3 & F4 & ->).
  apply (Forall2_map_ok _ _ _ _ constant_shaped) in F1. apply (Forall2_map_ok _ _ _ _ structure_shaped) in F2.
  apply (Forall2_map_ok _ _ _ _ (enumeration_shaped so)) in F3. apply (Forall2_map_ok _ _ _ _ archive_shaped) in F4.
  repeat (apply Forall_app; split); (eapply Forall_impl; [|eassumption]); intros c (S & K); (split; [exact S|]).
  - destruct K as (a1 & b & ->). exact I.
  - now rewrite K.
  - destruct K as (b & ->). exact I.
  - now rewrite K.
Qed.
Lemma shape_snoc_ns k ks : shape k ks -> (forall r, k <> KRef r) -> shape k (ks ++ [KNamespace]).
Proof.
  intros (F & R) N. split.
  - apply Forall_app. split; [exact F|]. constructor; [|constructor]. destruct k as [| | | | | | | | | |rr]; try exact I; [destruct rk; exact I|now destruct (N rr)].
  - rewrite ref_kinds_app. cbn. rewrite app_nil_r. exact R.
Qed.
Lemma nest_shaped ks : forall t, nest ks [] = Ok t -> shaped t /\ t_kind t = KNamespace.
Proof.
  induction ks as [|k ks IH]; intros t H; [discriminate|]. destruct ks as [|k' ks].
  - cbn in H. apply bind_ok in H as (a & _ & H). injection H as <-. split; [|reflexivity]. apply local_intro; [split; constructor|intros c []].
  - change (nest (k :: k' :: ks) []) with (t0 <- make_node k KNamespace ;; c <- nest (k' :: ks) [] ;; Ok (Node (t_name t0) KNamespace [c])) in H.
    apply bind_ok in H as (a & _ & H). apply bind_ok in H as (c & H1 & H). injection H as <-. destruct (IH _ H1) as (S & K). split; [|reflexivity].
    apply local_intro; [|intros x [<-|[]]; exact S]. split; [|exact I]. cbn. constructor; [now rewrite K|constructor].
Qed.
Lemma ensure_namespace_shaped root ks root' l : ensure_namespace root ks = Ok (root', l) -> rooted root -> Forall clean ks -> shaped root -> shaped root'.
Proof.
  intros H G C S. apply ensure_namespace_ok in H as [(-> & _)|(_ & first & Hn & Hi & _)]; [exact S|]. destruct (nest_shaped _ _ Hn) as (Sf & Kf).
  destruct (find_last_not_ref ks root (proj1 G) (rooted_ref _ G) C) as (t & Ht & N & _).
  apply (local_insert_at _ _ _ _ _ t Hi Ht S Sf). rewrite Kf. apply shape_snoc_ns; [exact (S _ _ Ht)|]. intros r Kr. unfold is_ref in N. now rewrite Kr in N.
Qed.
Lemma shape_snoc_def ks k : shape KNamespace ks -> def_kind k -> shape KNamespace (ks ++ [k]).
Proof. intros (F & _) D. split; [|exact I]. apply Forall_app. split; [exact F|]. constructor; [|constructor]. now destruct k. Qed.
Lemma ensure_namespace_ns root keys root' l : ensure_namespace root keys = Ok (root', l) -> exists t, at_loc root' l = Some t /\ t_kind t = KNamespace.
Proof.
  intros H. destruct (ensure_getk _ _ _ _ H) as (_ & _ & Fl & G). destruct (ensure_namespace_ok _ _ _ _ H) as [(-> & _ & t & Ht & N)|(Fn & _)].
  - exists t. split; [exact Ht|]. now apply is_namespace_kind.
  - specialize (G keys). destruct (getk root' keys) as [x|] eqn:Gx.
    + destruct (getk_at _ _ _ Gx) as (l' & Fl' & Hx). rewrite Fl in Fl'. injection Fl' as <-. exists x. split; [exact Hx|].
      destruct (getk root keys) as [y|] eqn:Gy; [|apply G]. destruct (getk_at _ _ _ Gy) as (l' & Fl' & _). congruence.
    + exfalso. assert (exists u, getk root' keys = Some u) as (u & Hu) by (apply find_keys_getk; eauto). congruence.
Qed.
Lemma insert_at_kinds root m c root' l u : insert_at root m c = Ok root' -> at_loc root l = Some u ->
  exists u', at_loc root' l = Some u' /\ t_kind u' = t_kind u /\ map t_kind (t_children u') = map t_kind (t_children u) ++ (if loc_eq_dec l m then [t_kind c] else []).
Proof.
  intros H Hl. destruct (insert_at_inv _ _ _ _ H) as (t & Ht & _ & ->). destruct (loc_eq_dec l m) as [->|N].
  - rewrite Hl in Ht. injection Ht as <-. eexists. split; [exact (modify_at _ _ _ _ Hl)|]. cbn. split; [reflexivity|]. now rewrite map_app.
  - rewrite app_nil_r. destruct (loc_cases m l) as [(x & ->)|[(x & Nx & ->)|(A & B)]].
    + rewrite (modify_below _ _ _ _ _ Ht). destruct x as [|i x]; [rewrite app_nil_r in N; congruence|]. rewrite at_loc_app, Ht in Hl. cbn in *.
      destruct (nth_error (t_children t) i) as [y|] eqn:Hi; [|discriminate]. rewrite nth_error_app1 by (apply nth_error_Some; congruence). rewrite Hi. eauto.
    + rewrite (modify_above _ x root l u Hl). eexists. split; [reflexivity|]. destruct x as [|i x]; [congruence|]. destruct u as [n k cs]. cbn. split; [reflexivity|].
      rewrite at_loc_app, Hl in Ht. cbn in Ht. destruct (nth_error cs i) as [y|] eqn:Hi; [|discriminate]. apply (upd_map t_kind cs i _ y Hi).
      destruct x as [|j x]; [cbn in *; injection Ht as ->; reflexivity|]. now apply modify_name_kind.
    + rewrite modify_other by assumption. eauto.
Qed.
Lemma merge_one_shaped root d root' : merge_one root d = Ok root' -> rooted root -> Forall clean (fst d) -> Forall (fun c => shaped c /\ def_kind (t_kind c)) (snd d) ->
  shaped root -> shaped root'.
Proof.
  unfold merge_one. intros H G C Fd S. apply bind_ok in H as ([r1 l] & He & H). pose proof (ensure_namespace_shaped _ _ _ _ He G C S) as S1.
  destruct (ensure_namespace_ns _ _ _ _ He) as (t & Ht & Kt). cbn [fst snd] in *.
  assert (I : shaped root' /\ exists u, at_loc root' l = Some u /\ t_kind u = KNamespace); [|apply I].
  refine (foldM_inv (fun x => shaped x /\ exists u, at_loc x l = Some u /\ t_kind u = KNamespace) _ _ _ _ H _ _); [eauto|].
  intros c Hc a a' (Sa & u & Hu & Ku) Ha. rewrite Forall_forall in Fd. destruct (Fd c Hc) as (Sc & Kc). split.
  - apply (local_insert_at _ _ _ _ _ u Ha Hu Sa Sc). pose proof (Sa _ _ Hu) as Su. rewrite Ku in *. now apply shape_snoc_def.
  - destruct (insert_at_old _ _ _ _ _ _ Ha Hu) as (u' & Hu' & _ & K). exists u'. split; [exact Hu'|congruence].
Qed.
Lemma new_root_shaped : shaped new_root.
Proof. apply local_intro; [split; constructor|intros c []]. Qed.
Lemma build_node_tree_shaped so s root : (forall l, Permutation (so l) l) -> schema_clean s -> build_node_tree so s = Ok root -> shaped root.
Proof.
  intros Hso C H. unfold build_node_tree in H. apply bind_ok in H as (ds & Hd & H).
  assert (I : rooted root /\ shaped root); [|apply I]. refine (foldM_inv (fun x => rooted x /\ shaped x) _ _ _ _ H _ _); [split; [apply rooted_new|apply new_root_shaped]|].
  intros [keys cs] Hin a a' (Ga & Sa) Ha. destruct (mapM_in _ _ _ _ Hd Hin) as (p & Hp & Hpd). unfold schema_clean in C. rewrite Forall_forall in C.
  destruct (create_definitions_ok so p keys cs Hso Hpd (C p Hp)) as (_ & Ck & Fg & Fn & _). split.
  - exact (merge_one_good a (keys, cs) a' Ha Ga Ck Fg Fn).
  - exact (merge_one_shaped a (keys, cs) a' Ha Ga Ck (definitions_shaped _ _ _ _ Hpd) Sa).
Qed.

Lemma builtin_structure_eq w b : builtin_structure w = Ok b ->
  let wd := if w =? 0 then 64 else Z.of_N (Z.to_N w) in
  wd <= 64 /\ b = Node (index_type_name w) (KStructure None) [Node "value" (KField (Some "range"%string) (Some (FT "u64" wd false)) None) []].
Proof.
  unfold builtin_structure, create_structure. cbn [ps_name ps_fields map]. intros H. apply bind_ok in H as (a & Ha & H). apply make_node_ok in Ha as (_ & ->).
  unfold insert_all in H. cbn [foldM] in H. apply bind_ok in H as (t & H & [= <-]). apply bind_ok in H as (f & Hf & H). apply insert_ok in H as (_ & ->).
  unfold create_field in Hf. cbn [pf_name pf_decs pf_type pf_width first_range foldM] in Hf. change (make_node "value" (KField (Some "range"%string) None None)) with (Ok (Node "value" (KField (Some "range"%string) None None) [])) in Hf.
  cbn [bind] in Hf. change (is_basic_type "u64") with true in Hf. cbv iota in Hf. apply bind_ok in Hf as (bt & Hb & [= <-]). apply make_btype_ok in Hb as (s & Hs & -> & Le).
  injection Hs as <-. cbn in Le |- *. destruct (w =? 0); cbn in *; (split; [exact Le|reflexivity]).
Qed.
End Created.
Notation shaped := (local (shape true)).
Lemma shape_any bi k ks : shape bi k ks -> shape true k ks.
Proof.
  intros (F & R). split; [|exact R]. eapply Forall_impl; [|exact F]. intros c. destruct k; try tauto; destruct c; try tauto; cbn; destruct rk; try tauto; destruct r; tauto.
Qed.
Lemma shaped_any bi t : local (shape bi) t -> shaped t.
Proof. intros H l u Hu. exact (shape_any bi _ _ (H l u Hu)). Qed.

(** ** Builtins: every multivector gets exactly one index reference, and only multivectors do *)
Definition refs_at (root : tree) (l : loc) : list refkind := match at_loc root l with Some t => ref_kinds (map t_kind (t_children t)) | None => [] end.
Lemma insert_at_refs root m c root' l u : insert_at root m c = Ok root' -> at_loc root l = Some u ->
  refs_at root' l = refs_at root l ++ (if loc_eq_dec l m then ref_kinds [t_kind c] else []).
Proof.
  intros H Hl. destruct (insert_at_kinds _ _ _ _ _ _ H Hl) as (u' & Hu' & _ & E). unfold refs_at. rewrite Hl, Hu', E, ref_kinds_app. now destruct (loc_eq_dec l m).
Qed.
Lemma append_builtin_shaped root x root' : append_builtin root x = Ok root' -> rooted root -> shaped root ->
  shaped root' /\ (forall l u, at_loc root l = Some u -> refs_at root' l = refs_at root l ++ (if loc_eq_dec l x then [RBuiltin] else []))
  /\ (forall l u, at_loc root' l = Some u -> is_multivector (t_kind u) = true -> exists v, at_loc root l = Some v /\ t_kind v = t_kind u).
Proof.
  unfold append_builtin. intros H G S. destruct (at_loc root x) as [[n k cs]|] eqn:Hl; [|discriminate].
  destruct k as [| | | | | | | |rk opt mx| |]; try discriminate. destruct rk as [| |w| | |]; try discriminate.
  assert (R0 : is_ref (Node n (KResource (KMultivector w) opt mx) cs) = false) by reflexivity.
  destruct (prefix_not_ref _ _ _ (proj1 G) R0 Hl) as (v1 & Hv1 & R1).
  destruct (prefix_not_ref _ _ _ (proj1 G) R1 Hv1) as (v2 & Hv2 & R2).
  destruct (names_at root (parent_loc (parent_loc x))) as [[|n0 keys]|] eqn:N; [discriminate| |discriminate].
  pose proof (names_clean _ _ _ _ (proj1 G) Hv2 R2 N) as C. inversion C as [|? ? _ Ck]; subst.
  apply bind_ok in H as ([root1 ns] & He & H).
  assert (Ck' : Forall clean (keys ++ ["_builtin"; "multivector"]%string)).
  { apply Forall_app. split; [exact Ck|]. repeat constructor. }
  pose proof (ensure_namespace_shaped true _ _ _ _ He G Ck' S) as S1. destruct (ensure_namespace_ns _ _ _ _ He) as (t1 & Ht1 & K1).
  assert (E1 : (forall l u, at_loc root l = Some u -> (exists u', at_loc root1 l = Some u' /\ t_kind u' = t_kind u) /\ refs_at root1 l = refs_at root l)
    /\ (forall l u, at_loc root1 l = Some u -> is_multivector (t_kind u) = true -> exists v, at_loc root l = Some v /\ t_kind v = t_kind u)).
  { destruct (ensure_namespace_ok _ _ _ _ He) as [(-> & _)|(_ & first & Hn & Hi & _)]; [split; [intros l u Hu; split; [eauto|reflexivity]|eauto]|].
    destruct (nest_shaped true _ _ Hn) as (Sf & Kf). split.
    - intros l u Hu. split; [destruct (insert_at_kinds _ _ _ _ _ _ Hi Hu) as (u' & ? & ? & _); eauto|].
      rewrite (insert_at_refs _ _ _ _ _ _ Hi Hu), Kf. destruct (loc_eq_dec _ _); now rewrite app_nil_r.
    - intros l u Hu Km. destruct (insert_at_new _ _ _ _ _ _ Hi Hu) as [(v & ? & ? & ?)|(i & m & _ & _ & Hm)]; [eauto|]. exfalso.
      assert (A : forall ks t l u, nest ks [] = Ok t -> at_loc t l = Some u -> t_kind u = KNamespace).
      { clear. induction ks as [|k ks IH]; intros t l u H Hu; [discriminate|]. destruct ks as [|k' ks].
        - cbn in H. apply bind_ok in H as (a & _ & H). injection H as <-. destruct l as [|i l]; cbn in Hu; [now injection Hu as <-|]. now destruct i.
        - change (nest (k :: k' :: ks) []) with (t0 <- make_node k KNamespace ;; c <- nest (k' :: ks) [] ;; Ok (Node (t_name t0) KNamespace [c])) in H.
          apply bind_ok in H as (a & _ & H). apply bind_ok in H as (c & H1 & H). injection H as <-. destruct l as [|i l]; cbn in Hu; [now injection Hu as <-|].
          destruct i as [|i]; [exact (IH _ _ _ H1 Hu)|]. now destruct i. }
      rewrite (A _ _ _ _ Hn Hm) in Km. discriminate. }
  destruct E1 as (E1 & M1). apply bind_ok in H as (b & Hb & H). apply bind_ok in H as (root2 & H2 & H). rewrite Ht1 in H2.
  destruct (structure_shaped true _ _ Hb) as (Sb & Kb).
  assert (E2 : shaped root2 /\ (forall l u, at_loc root1 l = Some u -> (exists u', at_loc root2 l = Some u' /\ t_kind u' = t_kind u) /\ refs_at root2 l = refs_at root1 l)
    /\ (forall l u, at_loc root2 l = Some u -> is_multivector (t_kind u) = true -> exists v, at_loc root1 l = Some v /\ t_kind v = t_kind u)).
  { destruct (find_relative t1 (t_name b)); [injection H2 as <-; split; [exact S1|split; [intros l0 u0 Hu0; split; [eauto|reflexivity]|eauto]]|]. split; [|split].
    - apply (local_insert_at _ _ _ _ _ t1 H2 Ht1 S1 Sb). pose proof (S1 _ _ Ht1) as St1. rewrite K1 in *. apply shape_snoc_def; [exact St1|]. now rewrite Kb.
    - intros l u Hu. split; [destruct (insert_at_kinds _ _ _ _ _ _ H2 Hu) as (u' & ? & ? & _); eauto|].
      rewrite (insert_at_refs _ _ _ _ _ _ H2 Hu), Kb. destruct (loc_eq_dec _ _); now rewrite app_nil_r.
    - intros l u Hu Km. destruct (insert_at_new _ _ _ _ _ _ H2 Hu) as [(v & ? & ? & ?)|(i & m & _ & _ & Hm)]; [eauto|]. exfalso.
      apply builtin_structure_eq in Hb as (_ & ->). destruct m as [|[|j] m]; cbn in Hm; [injection Hm as <-; discriminate| |now destruct j].
      destruct m as [|[|j] m]; cbn in Hm; [injection Hm as <-; discriminate|discriminate|discriminate]. }
  destruct E2 as (S2 & E2 & M2). destruct (path_at root2 ns) as [p|]; [|discriminate]. apply bind_ok in H as (r & Hr & H). destruct (ref_shaped true _ _ _ Hr) as (Sr & Kr).
  destruct (E1 _ _ Hl) as ((u1 & Hu1 & Ku1) & _). destruct (E2 _ _ Hu1) as ((u2 & Hu2 & Ku2) & _). split; [|split].
  - apply (local_insert_at _ _ _ _ _ u2 H Hu2 S2 Sr). pose proof (S2 _ _ Hu2) as Su. rewrite Ku2, Ku1 in *. cbn in Su |- *. rewrite Kr. destruct Su as (Fe & nn & mm & Er). split.
    + apply Forall_app. split; [exact Fe|]. constructor; [reflexivity|constructor].
    + exists nn, (mm + 1)%nat. rewrite ref_kinds_app, Er. cbn. now rewrite repeat_app, <- app_assoc.
  - intros l u Hu. destruct (E1 _ _ Hu) as ((w1 & Hw1 & _) & Q1). destruct (E2 _ _ Hw1) as ((w2 & Hw2 & _) & Q2). rewrite (insert_at_refs _ _ _ _ _ _ H Hw2), Q2, Q1, Kr. reflexivity.
  - intros l u Hu Km. destruct (insert_at_new _ _ _ _ _ _ H Hu) as [(v & Hv & _ & Kv)|(i & m & _ & _ & Hm)].
    + rewrite <- Kv in Km |- * || (rewrite Kv in Km). destruct (M2 l v Hv) as (v' & Hv' & Kv'); [congruence|]. destruct (M1 l v' Hv') as (v'' & Hv'' & Kv''); [congruence|]. exists v''. split; [exact Hv''|congruence].
    + exfalso. apply make_ref_ok in Hr as (-> & _). destruct m as [|j m]; cbn in Hm; [injection Hm as <-; discriminate|now destruct j].
Qed.
Definition builtins_at (root : tree) (l : loc) : nat := List.length (filter (fun r => match r with RBuiltin => true | _ => false end) (refs_at root l)).
Lemma builtins_fold ls : forall root root', foldM append_builtin root ls = Ok root' -> NoDup ls -> rooted root -> shaped root ->
  rooted root' /\ shaped root' /\ (forall l u, at_loc root l = Some u -> builtins_at root' l = (builtins_at root l + if in_dec loc_eq_dec l ls then 1 else 0)%nat)
  /\ (forall l u, at_loc root' l = Some u -> is_multivector (t_kind u) = true -> exists v, at_loc root l = Some v /\ t_kind v = t_kind u)
  /\ (forall l u, at_loc root l = Some u -> exists u', at_loc root' l = Some u' /\ t_name u' = t_name u /\ t_kind u' = t_kind u).
Proof.
  induction ls as [|x ls IH]; intros root root' H ND G S; cbn in H.
  - injection H as <-. split; [exact G|]. split; [exact S|]. split; [|split]; [intros l u _|intros l u Hu _|intros l u Hu]; [|eauto|eauto]. destruct (in_dec loc_eq_dec l []) as [Q|]; [destruct Q|lia].
  - apply bind_ok in H as (r1 & H1 & H). inversion ND as [|? ? Nx ND']; subst. destruct (append_builtin_good _ _ _ H1 G) as (G1 & O1). destruct (append_builtin_shaped _ _ _ H1 G S) as (S1 & E1 & M1).
    destruct (IH r1 root' H ND' G1 S1) as (G' & S' & E' & M' & O'). split; [exact G'|]. split; [exact S'|]. split; [|split].
    + intros l u Hu. destruct (O1 l u Hu) as (u1 & Hu1 & _). rewrite (E' _ _ Hu1). unfold builtins_at at 1. rewrite (E1 _ _ Hu), filter_app, app_length. fold (builtins_at root l).
      destruct (in_dec loc_eq_dec l ls) as [I1|I1], (in_dec loc_eq_dec l (x :: ls)) as [I2|I2], (loc_eq_dec l x) as [I3|I3]; subst; cbn in *; try tauto; try lia.
      exfalso. destruct I2 as [->|]; tauto.
    + intros l u Hu K. destruct (M' l u Hu K) as (v & Hv & Kv). destruct (M1 l v Hv) as (v' & Hv' & Kv'); [congruence|]. exists v'. split; [exact Hv'|congruence].
    + intros l u Hu. destruct (O1 l u Hu) as (u1 & Hu1 & A1 & B1). destruct (O' l u1 Hu1) as (u2 & Hu2 & A2 & B2). exists u2. split; [exact Hu2|]. split; congruence.
Qed.
Lemma append_builtins_shaped root root' : append_builtins root = Ok root' -> rooted root -> shaped root -> (forall l, builtins_at root l = O) ->
  shaped root' /\ (forall l u, at_loc root' l = Some u -> is_multivector (t_kind u) = true -> exists n, refs_at root' l = repeat RStructure n ++ [RBuiltin])
  /\ (forall l u, at_loc root l = Some u -> exists u', at_loc root' l = Some u' /\ t_name u' = t_name u /\ t_kind u' = t_kind u).
Proof.
  unfold append_builtins. intros H G S N0. destruct (builtins_fold _ _ _ H (iterate_nodup _ _) G S) as (G' & S' & E & M & O). split; [exact S'|]. split; [|exact O].
  intros l u Hu K. destruct (M l u Hu K) as (v & Hv & Kv). specialize (E l v Hv). rewrite N0 in E.
  destruct (in_dec loc_eq_dec l (iterate root is_multivector)) as [_|Q]; [|exfalso; apply Q; apply iterate_spec; exists v; split; [exact Hv|congruence]].
  pose proof (S' l u Hu) as (_ & Sh). unfold is_multivector in K. destruct (t_kind u); try discriminate. destruct rk; try discriminate. destruct Sh as (n & m & R).
  exists n. unfold builtins_at in E. unfold refs_at in *. rewrite Hu, R in *. rewrite filter_app, app_length in E.
  assert (F0 : forall n, filter (fun r => match r with RBuiltin => true | _ => false end) (repeat RStructure n) = []) by (clear; induction n; cbn; auto).
  assert (F1 : forall n, List.length (filter (fun r => match r with RBuiltin => true | _ => false end) (repeat RBuiltin n)) = n) by (clear; induction n; cbn; auto).
  rewrite F0, F1 in E. cbn in E. now subst m.
Qed.

(** Before that pass there are none *)
Lemma builtins_none root : local (shape false) root -> forall l, builtins_at root l = O.
Proof.
  intros H l. unfold builtins_at, refs_at. destruct (at_loc root l) as [t|] eqn:Ht; [|reflexivity]. destruct (H l t Ht) as (F & _). rewrite Forall_map in F.
  induction F as [|c cs E F IH]; [reflexivity|]. change (ref_kinds (map t_kind (c :: cs))) with ((match t_kind c with KRef r => [r] | _ => [] end) ++ ref_kinds (map t_kind cs)).
  rewrite filter_app, app_length, IH. destruct (t_kind c); try reflexivity. destruct r; try reflexivity. exfalso. destruct (t_kind t); try exact E. destruct rk; try exact E. discriminate.
Qed.

(** ** Constants appended to archives *)
Lemma shape_snoc_const ks : shape true KArchive ks -> shape true KArchive (ks ++ [KRef RConstValue]).
Proof. intros (F & _). split; [|exact I]. apply Forall_app. split; [exact F|]. constructor; [exact I|constructor]. Qed.
Lemma append_constants_shaped root root' : append_constants root = Ok root' -> shaped root ->
  shaped root' /\ (forall l u, at_loc root l = Some u -> t_kind u <> KArchive -> refs_at root' l = refs_at root l).
Proof.
  unfold append_constants. set (cs := filter _ _). clearbody cs. intros H S.
  assert (J : shaped root' /\ (forall l u, at_loc root l = Some u -> exists u', at_loc root' l = Some u' /\ t_kind u' = t_kind u) /\ (forall l u, at_loc root l = Some u -> t_kind u <> KArchive -> refs_at root' l = refs_at root l)); [|split; apply J].
  refine (foldM_inv (fun x => shaped x /\ (forall l u, at_loc root l = Some u -> exists u', at_loc x l = Some u' /\ t_kind u' = t_kind u) /\ (forall l u, at_loc root l = Some u -> t_kind u <> KArchive -> refs_at x l = refs_at root l)) _ _ _ _ H _ _); [split; [exact S|split; eauto]|].
  intros a Ha x x' Jx Hx. apply iterate_spec in Ha as (ta & Hta & Ka). assert (Ka' : t_kind ta = KArchive) by (destruct (t_kind ta); try discriminate; reflexivity).
  refine (foldM_inv (fun x => shaped x /\ (forall l u, at_loc root l = Some u -> exists u', at_loc x l = Some u' /\ t_kind u' = t_kind u) /\ (forall l u, at_loc root l = Some u -> t_kind u <> KArchive -> refs_at x l = refs_at root l)) _ _ _ _ Hx Jx _).
  intros p _ y y' (Sy & Ey & Ry) Hy. apply bind_ok in Hy as (c & Hc & Hy). destruct (ref_shaped true _ _ _ Hc) as (Sc & Kc). destruct (Ey _ _ Hta) as (ta' & Hta' & Kta). split; [|split].
  - apply (local_insert_at _ _ _ _ _ ta' Hy Hta' Sy Sc). pose proof (Sy _ _ Hta') as Sh. rewrite Kta, Ka', Kc in *. now apply shape_snoc_const.
  - intros l u Hu. destruct (Ey l u Hu) as (u1 & Hu1 & K1). destruct (insert_at_old _ _ _ _ _ _ Hy Hu1) as (u2 & Hu2 & _ & K2). exists u2. split; [exact Hu2|congruence].
  - intros l u Hu Nu. destruct (Ey l u Hu) as (u1 & Hu1 & K1). rewrite (insert_at_refs _ _ _ _ _ _ Hy Hu1), (Ry _ _ Hu Nu). destruct (loc_eq_dec l a) as [->|_]; [|apply app_nil_r]. congruence.
Qed.

Lemma append_constants_old root root' : append_constants root = Ok root' ->
  forall l u, at_loc root' l = Some u -> is_ref u = false -> exists v, at_loc root l = Some v /\ t_kind v = t_kind u.
Proof.
  unfold append_constants. set (cs := filter _ _). clearbody cs. intros H.
  refine (foldM_inv (fun x => forall l u, at_loc x l = Some u -> is_ref u = false -> exists v, at_loc root l = Some v /\ t_kind v = t_kind u) _ _ _ _ H _ _); [eauto|].
  intros a _ x x' Jx Hx. refine (foldM_inv (fun x => forall l u, at_loc x l = Some u -> is_ref u = false -> exists v, at_loc root l = Some v /\ t_kind v = t_kind u) _ _ _ _ Hx Jx _).
  intros p _ y y' Jy Hy l u Hu N. apply bind_ok in Hy as (c & Hc & Hy). destruct (insert_at_new _ _ _ _ _ _ Hy Hu) as [(v & Hv & _ & Kv)|(t & m & _ & _ & Hm)].
  - destruct (Jy l v Hv) as (w & Hw & Kw); [unfold is_ref in *; now rewrite <- Kv|]. exists w. split; [exact Hw|congruence].
  - exfalso. apply make_ref_ok in Hc as (-> & _). destruct m as [|j m]; cbn in Hm; [injection Hm as <-; discriminate|now destruct j].
Qed.

(** ** The finished tree *)
Lemma refs_at_same a b l : skel true a = skel true b -> refs_at a l = refs_at b l.
Proof.
  intros S. unfold refs_at. destruct (at_loc a l) as [u|] eqn:Hu.
  - destruct (skel_at true a b l u S Hu) as (v & -> & Sv). apply (f_equal t_children) in Sv. rewrite !skel_children in Sv. apply (f_equal (map t_kind)) in Sv. rewrite !map_map in Sv.
    assert (E : forall cs, map (fun x => t_kind (skel true x)) cs = map erase (map t_kind cs)) by (intros cs; rewrite map_map; apply map_ext; intros; apply skel_kind).
    rewrite !E in Sv. rewrite <- (ref_kinds_erase (map t_kind (t_children u))), <- Sv. apply ref_kinds_erase.
  - destruct (at_loc b l) as [v|] eqn:Hv; [|reflexivity]. destruct (skel_at true b a l v (eq_sym S) Hv) as (u & Hu' & _). congruence.
Qed.
Theorem final_shape so s r1 r2 r3 r4 r5 r6 root : (forall l, Permutation (so l) l) -> schema_clean s -> build_steps so s r1 r2 r3 r4 r5 r6 root ->
  shaped r1 /\ shaped r2 /\ shaped root
  /\ (forall l u, at_loc root l = Some u -> is_multivector (t_kind u) = true -> exists n, refs_at root l = repeat RStructure n ++ [RBuiltin]).
Proof.
  intros Hso C St. destruct (steps_good _ _ _ _ _ _ _ _ _ Hso C St) as (G1 & G2 & G3 & K3 & R3 & G4 & R4 & X4 & G5 & S5 & G6 & S6 & G7 & S7 & _).
  destruct St as (H1 & H2 & H3 & H4 & _). pose proof (build_node_tree_shaped false so s r1 Hso C H1) as S1.
  destruct (append_builtins_shaped _ _ H2 G1 (shaped_any _ _ S1) (builtins_none _ S1)) as (S2 & B2 & _).
  assert (S3 : shaped r3) by exact (shaped_skel true true _ _ (eq_sym K3) S2). destruct (append_constants_shaped _ _ H4 S3) as (S4 & C4).
  assert (E : skel false r4 = skel false root) by (unfold same_tree in *; congruence).
  split; [exact (shaped_any _ _ S1)|]. split; [exact S2|]. split; [exact (shaped_skel true false _ _ E S4)|].
  intros l u Hu K. destruct (skel_at false root r4 l u (eq_sym E) Hu) as (u4 & Hu4 & Su). assert (K4 : is_multivector (t_kind u4) = true).
  { apply skel_kind_eq in Su. destruct (t_kind u); try discriminate. destruct (t_kind u4); try discriminate. cbn in Su. destruct rk; try discriminate. injection Su as -> _. reflexivity. }
  rewrite <- (refs_at_same r4 root l (skel_weaken _ _ E)).
  assert (exists u3, at_loc r3 l = Some u3 /\ t_kind u3 = t_kind u4) as (u3 & Hu3 & K3').
  { apply (append_constants_old _ _ H4 l u4 Hu4). unfold is_ref. now destruct (t_kind u4). }
  rewrite (C4 l u3 Hu3) by (rewrite K3'; destruct (t_kind u4); discriminate). rewrite (refs_at_same r3 r2 l K3).
  destruct (skel_at true r3 r2 l u3 K3 Hu3) as (u2 & Hu2 & Su2). apply (B2 l u2 Hu2). apply skel_kind_eq in Su2. rewrite <- K3' in K4. destruct (t_kind u3); try discriminate.
  destruct (t_kind u2); try discriminate. cbn in Su2. injection Su2 as -> _. exact K4.
Qed.
