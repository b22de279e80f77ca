(** Facts behind C100: what the diagram of a finished tree contains. *)
From Coq Require Import List ZArith Bool String Ascii Lia Permutation.
From Verif Require Import PyBase PyText GenTypes GenTypesFacts GenTree GenTreeFacts GraphSpec GenTraversal GenTraversalFacts
  GenBuild GenBuildFacts GenPassFacts GenAstFacts GenAstSpec GenLayoutFacts GenResolveFacts GenMergeFacts GenShapeFacts GenEvery GenFieldFacts GenWords GenFlatdata GenOutFacts GenFinal GenRender
  GenPaths GenDot DotSpec.
From Verif Require GenAstThms.
Import ListNotations.
Local Open Scope string_scope.

Lemma mapM_spec {A B} (f : A -> res B) (P : A -> B -> Prop) l : (forall x, In x l -> exists y, f x = Ok y /\ P x y) -> exists ys, mapM f l = Ok ys /\ Forall2 P l ys.
Proof.
  induction l as [|x l IH]; intros H; [exists []; split; [reflexivity|constructor]|].
  destruct (H x (or_introl eq_refl)) as (y & E & Py). destruct IH as (ys & Es & Fs); [intros z Hz; apply H; now right|].
  exists (y :: ys). cbn [mapM]. rewrite E. cbn [bind]. rewrite Es. cbn [bind]. split; [reflexivity|now constructor].
Qed.
Lemma f2_left {A B} (P : A -> B -> Prop) l ys x : Forall2 P l ys -> In x l -> exists y, In y ys /\ P x y.
Proof. induction 1 as [|a b l ys Pab _ IH]; intros []; [subst; exists b; split; [now left|assumption]|]. destruct (IH H) as (y & ? & ?). exists y. split; [now right|assumption]. Qed.
Lemma f2_right {A B} (P : A -> B -> Prop) l ys y : Forall2 P l ys -> In y ys -> exists x, In x l /\ P x y.
Proof. induction 1 as [|a b l ys Pab _ IH]; intros []; [subst; exists a; split; [now left|assumption]|]. destruct (IH H) as (x & ? & ?). exists x. split; [now right|assumption]. Qed.
Lemma replace_underscores p : replace_dots "_" p = underscores p.
Proof. induction p as [|c p IH]; [reflexivity|]. cbn [replace_dots underscores]. rewrite IH. now destruct (Ascii.eqb c "."). Qed.

Section Dot.
  Variable root : tree.
  Hypothesis F : finished root.
  Local Notation Bu := (f_built _ F).

  (** ** Identifiers *)
  Lemma id_called l i : id_of root l = Ok i <-> called root l i.
  Proof.
    unfold id_of, path_with, called. destruct (path_at root l) as [p|]; cbn; [|split; [discriminate|intros (? & ? & _); discriminate]].
    rewrite replace_underscores. split; [intros [= <-]; eauto|intros (q & [= <-] & ->); reflexivity].
  Qed.
  Lemma id_total l u : at_loc root l = Some u -> exists i, id_of root l = Ok i.
  Proof.
    intros H. destruct (proj1 (names_at_some root l) (ex_intro _ u H)) as (ns & N). unfold id_of, path_with, path_at. rewrite N. cbn. eauto.
  Qed.
  Lemma called_fun l i j : called root l i -> called root l j -> i = j.
  Proof. intros A B0. apply id_called in A, B0. congruence. Qed.

  (** ** References *)
  Lemma points_unique l r r' d d' : points_to root l r d -> points_to root l r' d' -> d = d'.
  Proof.
    intros A B0. apply (GenAstThms.points_to_find _ _ _ _ (b_rooted _ Bu)) in A as (t & H & _ & X). apply (GenAstThms.points_to_find _ _ _ _ (b_rooted _ Bu)) in B0 as (t' & H' & _ & X'). congruence.
  Qed.
  Lemma ref_points l c r : at_loc root l = Some c -> t_kind c = KRef r ->
    exists d v, ref_loc root c = Ok d /\ points_to root l r d /\ at_loc root d = Some v /\ expected_kind r (t_kind v) = true.
  Proof.
    intros H K. destruct (ref_target root F l c r H K) as (d & v & p & E & Fd & Hv & X & P & ->). exists d, v. split; [exact E|]. split; [|auto].
    exists c. auto.
  Qed.
  Lemma ref_of_points l c r d : at_loc root l = Some c -> points_to root l r d -> t_kind c = KRef r /\ ref_loc root c = Ok d.
  Proof.
    intros H Pt. pose proof Pt as (t & H' & K & _). rewrite H in H'. injection H' as <-. split; [exact K|].
    destruct (ref_points l c r H K) as (d' & v & E & Q & _). now rewrite (points_unique _ _ _ _ _ Pt Q).
  Qed.
  (** the references of some kind of a node *)
  Lemma refs_where l t (q : kind -> bool) : at_loc root l = Some t -> (forall k, q k = true -> exists r, k = KRef r) ->
    forall d, (exists c, In c (children_like t q) /\ ref_loc root c = Ok d) <-> exists i r, q (KRef r) = true /\ points_to root (l ++ [i])%list r d.
  Proof.
    intros H Hq d. split.
    - intros (c & Hc & E). apply GenAstThms.children_like_in in Hc as (i & Hi & Q). pose proof (GenRender.at_child root l t i c H Hi) as Hci. destruct (Hq _ Q) as (r & K).
      exists i, r. rewrite K in Q. split; [exact Q|]. destruct (ref_points _ _ _ Hci K) as (d' & v & E' & Pt & _). rewrite E in E'. now injection E' as ->.
    - intros (i & r & Q & Pt). pose proof Pt as (c & Hc & K & _). exists c. destruct (ref_of_points _ _ _ _ Hc Pt) as (_ & E). split; [|exact E].
      apply GenAstThms.children_like_in. exists i. split; [rewrite <- (GenAstThms.at_child root l t i H); exact Hc|now rewrite K].
  Qed.
  Lemma child_refs l t (q : kind -> bool) : at_loc root l = Some t -> (forall k, q k = true -> exists r, k = KRef r) ->
    forall c, In c (children_like t q) -> exists d v i r, ref_loc root c = Ok d /\ at_loc root d = Some v /\ t_kind c = KRef r /\ q (KRef r) = true /\ expected_kind r (t_kind v) = true /\ points_to root (l ++ [i])%list r d.
  Proof.
    intros H Hq c Hc. apply GenAstThms.children_like_in in Hc as (i & Hi & Q). pose proof (GenRender.at_child root l t i c H Hi) as Hci. destruct (Hq _ Q) as (r & K).
    destruct (ref_points _ _ _ Hci K) as (d & v & E & Pt & Hv & X). rewrite K in Q. exists d, v, i, r. auto 8.
  Qed.

  (** ** Resources are in archives *)
  Lemma resource_parent l t rk o m : at_loc root l = Some t -> t_kind t = KResource rk o m ->
    exists p i a, l = (p ++ [i])%list /\ parent_loc l = p /\ at_loc root p = Some a /\ t_kind a = KArchive /\ nth_error (t_children a) i = Some t.
  Proof.
    intros H K. destruct l as [|i p _] using rev_ind.
    - cbn in H. injection H as <-. pose proof (b_rooted _ Bu) as (_ & _ & K0). rewrite K0 in K. discriminate.
    - destruct (parent_at _ _ _ _ H) as (a & Ha & Hi). exists p, i, a. split; [reflexivity|]. split; [unfold parent_loc; now rewrite removelast_last|]. split; [exact Ha|]. split; [|exact Hi].
      destruct (child_kind root F p a t Ha (nth_error_In _ _ Hi)) as (_ & _ & _ & E). rewrite K in E. destruct (t_kind a); cbn in E; try contradiction; try reflexivity. destruct rk0; contradiction.
  Qed.

  Lemma resource_ref_kind : forall k, is_resource_ref k = true -> exists r, k = KRef r.
  Proof. intros k. destruct k; try discriminate. eauto. Qed.
  Lemma binds_spec b l t : at_loc root b = Some t -> exists h, binds root t l = Ok h /\ (h = true <-> exists i, points_to root (b ++ [i])%list RResource l).
  Proof.
    intros Hb. unfold binds. destruct (mapM_spec (ref_loc root) (fun c d => ref_loc root c = Ok d) (children_like t is_resource_ref)) as (ds & -> & Fd).
    { intros c Hc. destruct (child_refs b t _ Hb resource_ref_kind c Hc) as (d & _ & _ & _ & E & _). eauto. }
    cbn [bind]. eexists. split; [reflexivity|]. pose proof (refs_where b t _ Hb resource_ref_kind l) as W. rewrite existsb_exists. split.
    - intros (d & Hd & E). unfold loc_eqb in E. destruct (loc_eq_dec l d) as [<-|]; [|discriminate]. destruct (f2_right _ _ _ _ Fd Hd) as (c & Hc & Ec).
      destruct (proj1 W (ex_intro _ c (conj Hc Ec))) as (i & r & Q & Pt). exists i. destruct r; try discriminate. exact Pt.
    - intros (i & Pt). destruct (proj2 W (ex_intro _ i (ex_intro _ RResource (conj eq_refl Pt)))) as (c & Hc & Ec). destruct (f2_left _ _ _ _ Fd Hc) as (d & Hd & Ed). exists d. split; [exact Hd|].
      rewrite Ec in Ed. injection Ed as <-. unfold loc_eqb. now destruct (loc_eq_dec l l).
  Qed.
  Lemma bound_kind t : is_bound (t_kind t) = true <-> exists o m, t_kind t = KResource KBound o m.
  Proof. destruct (t_kind t); cbn; try (split; [discriminate|intros (? & ? & ?); discriminate]). destruct rk; split; try discriminate; try (intros (? & ? & ?); discriminate); eauto. Qed.
  Lemma binding_from_spec p a l : at_loc root p = Some a -> forall cs i, (forall j c, nth_error cs j = Some c -> nth_error (t_children a) (i + j) = Some c) ->
    exists bs, binding_from root p l i cs = Ok bs
      /\ forall b, In b bs <-> exists j c, nth_error cs j = Some c /\ b = (p ++ [(i + j)%nat])%list /\ is_bound (t_kind c) = true /\ exists k, points_to root (b ++ [k])%list RResource l.
  Proof.
    intros Ha. induction cs as [|c cs IH]; intros i Hcs.
    - exists []. split; [reflexivity|]. intros b. split; [intros []|intros (j & c & H & _); now destruct j].
    - destruct (IH (S i)) as (bs & E & S0). { intros j d Hd. specialize (Hcs (S j) d Hd). now rewrite PeanoNat.Nat.add_succ_r in Hcs. }
      pose proof (Hcs 0%nat c eq_refl) as Hc. rewrite PeanoNat.Nat.add_0_r in Hc. pose proof (GenRender.at_child root p a i c Ha Hc) as Hl. cbn [binding_from].
      assert (X : exists h, (if is_bound (t_kind c) then binds root c l else Ok false) = Ok h /\ (h = true <-> is_bound (t_kind c) = true /\ exists k, points_to root ((p ++ [i]) ++ [k])%list RResource l)).
      { destruct (is_bound (t_kind c)); [destruct (binds_spec _ l c Hl) as (h & Eh & Hh); exists h; split; [exact Eh|]; rewrite Hh; tauto|]. exists false. split; [reflexivity|]. split; [discriminate|intros (? & _); discriminate]. }
      destruct X as (h & -> & Hh). cbn [bind]. rewrite E. cbn [bind]. eexists. split; [reflexivity|]. intros b.
      assert (Y : In b (if h then (p ++ [i])%list :: bs else bs) <-> (h = true /\ b = (p ++ [i])%list) \/ In b bs). { destruct h; cbn [In]; [|intuition discriminate]. split; [intros [<-|Q]; auto|intros [(_ & ->)|Q]; auto]. }
      rewrite Y, S0, Hh. split.
      + intros [((B0 & Pt) & ->)|(j & d & Hd & -> & R)]; [exists 0%nat, c; rewrite PeanoNat.Nat.add_0_r; auto|]. exists (S j), d. rewrite PeanoNat.Nat.add_succ_r. auto.
      + intros ([|j] & d & Hd & -> & R); cbn in Hd.
        * injection Hd as <-. left. rewrite PeanoNat.Nat.add_0_r in *. auto.
        * right. exists j, d. rewrite PeanoNat.Nat.add_succ_r in *. auto.
  Qed.
  Lemma binding_spec l rk : resource_at root l rk -> exists bs, binding_resources root l = Ok bs /\ forall b, In b bs <-> bound_by root l b.
  Proof.
    intros (t & o & m & H & K). destruct (resource_parent l t rk o m H K) as (p & i & a & -> & Ep & Ha & Ka & Hi). unfold binding_resources. rewrite Ep, Ha, Ka. cbn [GenBuild.is_archive].
    destruct (binding_from_spec p a (p ++ [i])%list Ha (t_children a) 0%nat) as (bs & E & S0); [auto|]. exists bs. split; [exact E|]. intros b. rewrite S0. unfold bound_by. rewrite Ep. split.
    - intros (j & c & Hc & -> & B0 & Pt). cbn in *. split; [|split; [unfold parent_loc; now rewrite removelast_last|exact Pt]].
      apply bound_kind in B0 as (o' & m' & Kc). exists c, o', m'. split; [exact (GenRender.at_child root p a j c Ha Hc)|exact Kc].
    - intros ((c & o' & m' & Hc & Kc) & Eb & Pt). destruct (resource_parent b c KBound o' m' Hc Kc) as (q & j & a' & -> & Eq & Ha' & _ & Hj). rewrite Eq in Eb. subst q. rewrite Ha in Ha'. injection Ha' as <-.
      exists j, c. cbn. split; [exact Hj|]. split; [reflexivity|]. split; [|exact Pt]. apply bound_kind. eauto.
  Qed.
  Lemma stands_spec l rk : resource_at root l rk -> exists os, binding_or_self root l = Ok os /\ forall o, In o os <-> stands_for root l o.
  Proof.
    intros R. destruct (binding_spec l rk R) as (bs & E & S0). unfold binding_or_self. rewrite E. cbn [bind]. eexists. split; [reflexivity|]. intros o. unfold stands_for, hidden. destruct bs as [|b bs].
    - cbn. split; [intros [<-|[]]; right; split; [reflexivity|]; intros (b & Hb); now apply S0 in Hb|]. intros [Hb|(-> & _)]; [now apply S0 in Hb|auto].
    - rewrite S0. split; [auto|]. intros [Hb|(_ & N)]; [exact Hb|]. exfalso. apply N. exists b. apply S0. now left.
  Qed.

  (** ** The structures of a resource *)
  Lemma structure_kinds : forall k, is_structure_ref k = true -> exists r, k = KRef r. Proof. intros k. destruct k; try discriminate. eauto. Qed.
  Lemma builtin_kinds : forall k, is_builtin_ref k = true -> exists r, k = KRef r. Proof. intros k. destruct k; try discriminate. eauto. Qed.
  Lemma own_structures l t rk : at_loc root l = Some t -> resource_at root l rk -> rk <> KBound -> forall d, (exists c, In c (referenced_structures t) /\ ref_loc root c = Ok d) <-> shows root l d.
  Proof.
    intros H R Nb d. unfold referenced_structures. split.
    - intros (c & Hc & E). apply in_app_or in Hc as [Hc|Hc].
      + destruct (proj1 (refs_where l t _ H builtin_kinds d) (ex_intro _ c (conj Hc E))) as (i & r & Q & Pt). destruct r; try discriminate. exact (shows_own root l rk i RBuiltin d R Nb (or_intror eq_refl) Pt).
      + destruct (proj1 (refs_where l t _ H structure_kinds d) (ex_intro _ c (conj Hc E))) as (i & r & Q & Pt). destruct r; try discriminate. exact (shows_own root l rk i RStructure d R Nb (or_introl eq_refl) Pt).
    - intros S0. inversion S0 as [l0 rk0 i r d0 R0 Nb0 Hr Pt|l0 i m d0 R0 Pt S1]; subst.
      + destruct Hr as [->| ->].
        * destruct (proj2 (refs_where l t _ H structure_kinds d) (ex_intro _ i (ex_intro _ RStructure (conj eq_refl Pt)))) as (c & Hc & E). exists c. split; [apply in_or_app; now right|exact E].
        * destruct (proj2 (refs_where l t _ H builtin_kinds d) (ex_intro _ i (ex_intro _ RBuiltin (conj eq_refl Pt)))) as (c & Hc & E). exists c. split; [apply in_or_app; now left|exact E].
      + exfalso. destruct R as (t1 & o1 & m1 & H1 & K1), R0 as (t2 & o2 & m2 & H2 & K2). rewrite H1 in H2. injection H2 as <-. rewrite K1 in K2. injection K2 as -> _ _. congruence.
  Qed.
  Lemma shown_struct l d : shows root l d -> exists s sz, at_loc root d = Some s /\ t_kind s = KStructure sz.
  Proof.
    induction 1 as [l rk i r d R Nb Hr Pt|l i m d R Pt S0 IH]; [|exact IH]. pose proof Pt as (c & Hc & K & _). destruct (ref_points _ _ _ Hc K) as (d' & v & _ & Pt' & Hv & X).
    rewrite (points_unique _ _ _ _ _ Pt Pt'). exists v. destruct Hr as [->| ->]; destruct (t_kind v); try discriminate; eauto.
  Qed.

  Hypothesis PB : plainly_bound root.
  Lemma shown_spec l t rk : at_loc root l = Some t -> resource_at root l rk ->
    exists refs, shown_structures (depth_of root) root t = Ok refs /\ (forall d, (exists c, In c refs /\ ref_loc root c = Ok d) <-> shows root l d) /\ forall c, In c refs -> exists d, ref_loc root c = Ok d.
  Proof.
    intros H R. unfold depth_of. assert (Plain : forall n m u rk', at_loc root m = Some u -> resource_at root m rk' -> rk' <> KBound -> shown_structures n root u = Ok (referenced_structures u)).
    { intros n m u rk' Hu (u' & o & x & Hu' & K) Nb. rewrite Hu in Hu'. injection Hu' as <-. destruct n; cbn [shown_structures]; rewrite K; destruct rk'; try reflexivity; congruence. }
    assert (Own : forall u m, at_loc root m = Some u -> forall c, In c (referenced_structures u) -> exists d, ref_loc root c = Ok d).
    { intros u m Hu c Hc. unfold referenced_structures in Hc. apply in_app_or in Hc as [Hc|Hc]; [destruct (child_refs m u _ Hu builtin_kinds c Hc) as (d & _ & _ & _ & E & _)|destruct (child_refs m u _ Hu structure_kinds c Hc) as (d & _ & _ & _ & E & _)]; eauto. }
    assert (Db : rk = KBound \/ rk <> KBound) by (destruct rk; auto; right; discriminate). destruct Db as [->|Nb].
    - cbn [shown_structures]. assert (Kb : is_bound (t_kind t) = true). { destruct R as (t' & o & m & H' & K). rewrite H in H'. injection H' as <-. now rewrite K. } rewrite Kb.
      destruct (mapM_spec (fun c => l0 <- ref_loc root c ;; match at_loc root l0 with Some t0 => shown_structures (List.length (locs root)) root t0 | None => Err RuntimeError end)
        (fun c rs => (forall d, (exists m i, ref_loc root c = Ok m /\ points_to root (l ++ [i])%list RResource m /\ shows root m d) <-> exists x, In x rs /\ ref_loc root x = Ok d) /\ forall x, In x rs -> exists d, ref_loc root x = Ok d)
        (children_like t is_resource_ref)) as (parts & E & Fp).
      { intros c Hc. destruct (child_refs l t _ H resource_ref_kind c Hc) as (m & v & i & r & E & Hv & Kc & Q & X & Pt). assert (r = RResource) as -> by (destruct r; try discriminate; reflexivity).
        assert (exists rk', resource_at root m rk') as (rk' & Rm). { destruct (t_kind v) eqn:Kv; try discriminate X. exists rk, v, optional, max_size. auto. }
        pose proof (PB l i m rk' R Pt Rm) as Nb. rewrite E. cbn [bind]. rewrite Hv. rewrite (Plain _ _ _ _ Hv Rm Nb). eexists. split; [reflexivity|]. split.
        - intros d. rewrite (own_structures m v rk' Hv Rm Nb d). split; [intros (m' & i' & E' & _ & S0)|intros S0; exists m, i; auto]. now injection E' as <-.
        - exact (Own v m Hv). }
      rewrite E. cbn [bind]. eexists. split; [reflexivity|]. split.
      + intros d. split.
        * intros (x & Hx & Ex). apply in_concat in Hx as (rs & Hrs & Hx). destruct (f2_right _ _ _ _ Fp Hrs) as (c & Hc & P1 & _). destruct (proj2 (P1 d) (ex_intro _ x (conj Hx Ex))) as (m & i & _ & Pt & S0).
          exact (shows_bound root l i m d R Pt S0).
        * intros S0. inversion S0 as [l0 rk0 i r d0 R0 Nb0 Hr Pt|l0 i m d0 R0 Pt S1]; subst.
          -- exfalso. destruct R as (t1 & o1 & m1 & H1 & K1), R0 as (t2 & o2 & m2 & H2 & K2). rewrite H1 in H2. injection H2 as <-. rewrite K1 in K2. injection K2 as <- _ _. congruence.
          -- destruct (proj2 (refs_where l t _ H resource_ref_kind m) (ex_intro _ i (ex_intro _ RResource (conj eq_refl Pt)))) as (c & Hc & Ec). destruct (f2_left _ _ _ _ Fp Hc) as (rs & Hrs & P1 & _).
             destruct (proj1 (P1 d)) as (x & Hx & Ex); [exists m, i; auto|]. exists x. split; [|exact Ex]. apply in_concat. eauto.
      + intros x Hx. apply in_concat in Hx as (rs & Hrs & Hx). destruct (f2_right _ _ _ _ Fp Hrs) as (c & Hc & _ & P2). exact (P2 x Hx).
    - exists (referenced_structures t). split; [exact (Plain _ l t rk H R Nb)|]. split; [exact (own_structures l t rk H R Nb)|exact (Own t l H)].
  Qed.

  (** ** Tables *)
  Definition is_field_at (s : tree) (i : nat) : bool := match nth_error (t_children s) i with Some f => match t_kind f with KField _ _ _ => true | _ => false end | None => false end.
  Lemma field_typed d s sz i f : at_loc root d = Some s -> t_kind s = KStructure sz -> nth_error (t_children s) i = Some f -> is_field (t_kind f) = true -> exists rng ty off, t_kind f = KField rng (Some ty) off.
  Proof.
    intros Hd K Hi Kf. destruct s as [n k cs]. cbn in K. subst k. destruct (b_layout _ Bu _ _ _ _ Hd) as (size & _ & Co). destruct (t_kind f) as [| | | |rng ty off| | | | | |] eqn:Kt; try discriminate.
    assert (Hin : In (t_name f, ty, off) (fields_of cs)). { unfold fields_of. apply in_flat_map. exists f. split; [exact (nth_error_In _ _ Hi)|]. rewrite Kt. now left. }
    apply In_nth_error in Hin as (j & Hj). destruct (consecutive_prefix _ _ _ Co j _ _ _ Hj) as (t & -> & _). eauto.
  Qed.
  Lemma rows_spec l rid d s sz : called root l rid -> at_loc root d = Some s -> t_kind s = KStructure sz -> forall cs i, (forall j c, nth_error cs j = Some c -> nth_error (t_children s) (i + j) = Some c) ->
    exists rows, rows_from root rid d i cs = Ok rows /\ Forall2 (fun k port => exists id, called_in root l (d ++ [k])%list id /\ port = "port_" ++ id) (filter (is_field_at s) (seq i (List.length cs))) (map r_port rows).
  Proof.
    intros Hl Hd K. induction cs as [|c cs IH]; intros i Hcs; [exists []; split; [reflexivity|constructor]|].
    destruct (IH (S i)) as (rows & E & Fo). { intros j x Hx. specialize (Hcs (S j) x Hx). now rewrite PeanoNat.Nat.add_succ_r in Hcs. }
    pose proof (Hcs 0%nat c eq_refl) as Hc. rewrite PeanoNat.Nat.add_0_r in Hc. cbn [rows_from List.length seq filter]. unfold is_field_at at 1. rewrite Hc.
    destruct (is_field (t_kind c)) eqn:Kc.
    - destruct (field_typed d s sz i c Hd K Hc Kc) as (rng & ty & off & Kf). rewrite Kf. unfold row_of. rewrite Kf. destruct (id_total _ _ (GenRender.at_child root d s i c Hd Hc)) as (p & Ep). rewrite Ep. cbn [bind]. rewrite E. cbn [bind].
      eexists. split; [reflexivity|]. cbn [map app r_port]. constructor; [|exact Fo]. exists (rid ++ p)%string. split; [|reflexivity]. exists rid, p. split; [exact Hl|]. split; [now apply id_called|reflexivity].
    - cbn [bind]. rewrite E. cbn [bind app]. exists rows. split; [reflexivity|]. destruct (t_kind c); try discriminate; exact Fo.
  Qed.
  Lemma table_spec l rid c d : called root l rid -> ref_loc root c = Ok d -> shows root l d ->
    exists id title rows, table_of root rid c = Ok (Table id title rows) /\ called_in root l d id /\ ports_of root l d (map r_port rows).
  Proof.
    intros Hl E S0. destruct (shown_struct _ _ S0) as (s & sz & Hd & K). unfold table_of. rewrite E. cbn [bind]. rewrite Hd. destruct (id_total _ _ Hd) as (sid & Es). rewrite Es. cbn [bind].
    destruct (rows_spec l rid d s sz Hl Hd K (t_children s) 0%nat) as (rows & -> & Fo); [auto|]. cbn [bind]. do 3 eexists. split; [reflexivity|]. split; [exists rid, sid; split; [exact Hl|split; [now apply id_called|reflexivity]]|].
    eexists. split; [exists s; split; [exact Hd|reflexivity]|exact Fo].
  Qed.
  Lemma called_in_fun l d i j : called_in root l d i -> called_in root l d j -> i = j.
  Proof. intros (a & b & A & B0 & ->) (a' & b' & A' & B' & ->). now rewrite (called_fun _ _ _ A A'), (called_fun _ _ _ B0 B'). Qed.
  Lemma ports_fun l d p q : ports_of root l d p -> ports_of root l d q -> p = q.
  Proof.
    intros (is1 & (s & H & E1) & F1) (is2 & (s' & H' & E2) & F2). rewrite H in H'. injection H' as <-. rewrite <- E1 in E2. subst is2. clear E1. revert q F2.
    induction F1 as [|i x l1 l2 (id & A & ->) _ IH]; intros q F2; inversion F2 as [|? y ? ? (id' & A' & ->) F2']; subst; [reflexivity|]. now rewrite (called_in_fun _ _ _ _ A A'), (IH _ F2').
  Qed.
  Lemma body_spec l t rk rid : at_loc root l = Some t -> resource_at root l rk -> called root l rid ->
    exists ss, resource_body root rid t = Ok ss /\ flat_map clusters ss = [] /\ forall id ports, In (id, ports) (flat_map nodes ss) <-> node_of root l id ports.
  Proof.
    intros H R Hl. destruct (shown_spec l t rk H R) as (refs & E & Sh & Tg). unfold resource_body. rewrite E. cbn [bind].
    destruct (mapM_spec (table_of root rid) (fun c s => exists d id title rows, ref_loc root c = Ok d /\ shows root l d /\ s = Table id title rows /\ called_in root l d id /\ ports_of root l d (map r_port rows)) refs) as (ts & -> & Ft).
    { intros c Hc. destruct (Tg c Hc) as (d & Ec). assert (S0 : shows root l d) by (apply Sh; eauto). destruct (table_spec l rid c d Hl Ec S0) as (id & title & rows & Et & A & P). eexists. split; [exact Et|]. exists d, id, title, rows. auto. }
    cbn [bind]. eexists. split; [reflexivity|]. destruct refs as [|c0 refs].
    - split; [reflexivity|]. intros id ports. cbn. split.
      + intros [[= <- <-]|[]]. right. split; [|auto]. intros d Hd. apply Sh in Hd as (? & [] & _).
      + intros [(d & Hd & _)|(_ & A & ->)]; [apply Sh in Hd as (? & [] & _)|]. left. now rewrite (called_fun _ _ _ Hl A).
    - split.
      + clear -Ft. induction Ft as [|c s cs ss (d & id & title & rows & _ & _ & -> & _) _ IH]; [reflexivity|exact IH].
      + intros id ports. rewrite in_flat_map. split.
        * intros (s & Hs & Hin). destruct (f2_right _ _ _ _ Ft Hs) as (c & _ & d & id' & title & rows & _ & S0 & -> & A & P). cbn in Hin. destruct Hin as [[= <- <-]|[]]. left. exists d. auto.
        * intros [(d & S0 & A & P)|(N & _)].
          -- destruct (proj2 (Sh d) S0) as (c & Hc & Ec). destruct (f2_left _ _ _ _ Ft Hc) as (s & Hs & d' & id' & title & rows & Ec' & _ & -> & A' & P'). rewrite Ec in Ec'. injection Ec' as <-. eexists. split; [exact Hs|]. cbn. left.
             now rewrite (called_in_fun _ _ _ _ A A'), (ports_fun _ _ _ _ P P').
          -- destruct (Tg c0 (or_introl eq_refl)) as (d & Ec). destruct (N d). apply Sh. exists c0. split; [now left|exact Ec].
  Qed.

  (** ** The whole drawing *)
  Definition cluster_at (l : loc) (c : string) : Prop := exists u id, at_loc root l = Some u /\ called root l id /\ c = "cluster_" ++ id
    /\ (t_kind u = KNamespace \/ t_kind u = KArchive \/ exists rk, resource_at root l rk /\ ~ hidden root l).
  Definition node_at (l : loc) (id : string) (ports : list string) : Prop := exists rk, resource_at root l rk /\ ~ hidden root l /\ node_of root l id ports.
  Definition draw_all (l : loc) : nat -> list tree -> res (list stmt) :=
    fix go (i : nat) (cs : list tree) : res (list stmt) :=
      match cs with [] => Ok [] | c :: r => x <- draw root (l ++ [i])%list c ;; y <- go (S i) r ;; Ok (x ++ y)%list end.
  Lemma draw_eq l n k cs : draw root l (Node n k cs) = (body <- draw_all l 0 cs ;; enclose root l (Node n k cs) body).
  Proof. reflexivity. Qed.
  (** [ss] shows what is at the places of which [P] holds *)
  Definition shows_all (P : loc -> Prop) (ss : list stmt) : Prop :=
    (forall c, In c (flat_map clusters ss) <-> exists l, P l /\ cluster_at l c) /\ (forall id ports, In (id, ports) (flat_map nodes ss) <-> exists l, P l /\ node_at l id ports).
  Lemma enclose_spec l t body : at_loc root l = Some t -> shows_all (fun m => exists i q, m = (l ++ i :: q)%list) body ->
    exists ss, enclose root l t body = Ok ss /\ shows_all (fun m => exists q, m = (l ++ q)%list) ss.
  Proof.
    intros H (Bc & Bn). unfold enclose. destruct (id_total l t H) as (i & Ei). pose proof (proj1 (id_called l i) Ei) as Ci.
    assert (Below : forall X : loc -> Prop, (exists m, (exists q, m = (l ++ q)%list) /\ X m) <-> X l \/ exists m, (exists i q, m = (l ++ i :: q)%list) /\ X m).
    { intros X. split.
      - intros (m & ([|j q] & ->) & Hx); [left; now rewrite app_nil_r in Hx|right; exists (l ++ j :: q)%list; eauto].
      - intros [Hx|(m & (j & q & ->) & Hx)]; [exists l; split; [exists []; now rewrite app_nil_r|exact Hx]|exists (l ++ j :: q)%list; eauto]. }
    assert (NoRes : forall rk, resource_at root l rk -> exists o m, t_kind t = KResource rk o m). { intros rk (t' & o & m & H' & K). rewrite H in H'. injection H' as <-. eauto. }
    assert (Plain : (forall c, ~ cluster_at l c) -> (forall id ports, ~ node_at l id ports) -> shows_all (fun m => exists q, m = (l ++ q)%list) body).
    { intros Nc Nn. split; intros; rewrite Below; [rewrite Bc|rewrite Bn]; split; auto; intros [X|X]; auto; exfalso; [now apply (Nc c)|now apply (Nn id ports)]. }
    assert (Encl : (t_kind t = KNamespace \/ t_kind t = KArchive) -> shows_all (fun m => exists q, m = (l ++ q)%list) [Cluster ("cluster_" ++ i) (t_name t) [] body]).
    { intros K. split; intros; rewrite Below.
      - cbn [flat_map clusters]. rewrite app_nil_r. cbn [In]. rewrite Bc. split; (intros [X|X]; [left|now right]).
        + exists t, i. split; [exact H|]. split; [exact Ci|]. split; [now symmetry|]. destruct K; auto.
        + destruct X as (u & id & _ & Cid & -> & _). now rewrite (called_fun _ _ _ Ci Cid).
      - cbn [flat_map nodes]. rewrite app_nil_r, Bn. split; [auto|]. intros [(rk & R & _)|X]; [|exact X]. exfalso. destruct (NoRes rk R) as (o & m & E). destruct K as [K|K]; congruence. }
    destruct (t_kind t) as [| | | | | | |rk o m|rk o m| |] eqn:Kt;
      try (exists body; split; [reflexivity|]; apply Plain; [intros c (u & id & Hu & _ & _ & [K|[K|(rk' & R & _)]])|intros id ports (rk' & R & _)];
           [rewrite H in Hu; injection Hu as <-; congruence|rewrite H in Hu; injection Hu as <-; congruence|destruct (NoRes rk' R) as (? & ? & E); congruence|destruct (NoRes rk' R) as (? & ? & E); congruence]).
    - rewrite Ei. cbn [bind]. eexists. split; [reflexivity|]. auto.
    - rewrite Ei. cbn [bind]. eexists. split; [reflexivity|]. auto.
    - assert (R : resource_at root l rk) by (exists t, o, m; auto). destruct (binding_spec l rk R) as (bs & -> & Hb). cbn [bind]. destruct bs as [|b bs].
      + assert (Nh : ~ hidden root l) by (intros (b & X); now apply Hb in X). rewrite Ei. cbn [bind]. destruct (body_spec l t rk i H R Ci) as (own & -> & Oc & On). cbn [bind]. eexists. split; [reflexivity|]. split; intros; rewrite Below.
        * cbn [flat_map clusters]. rewrite app_nil_r, flat_map_app, Oc. cbn [In app]. rewrite Bc. split; (intros [X|X]; [left|now right]).
          -- exists t, i. split; [exact H|]. split; [exact Ci|]. split; [now symmetry|]. right; right. eauto.
          -- destruct X as (u & id & _ & Cid & -> & _). now rewrite (called_fun _ _ _ Ci Cid).
        * cbn [flat_map nodes]. rewrite app_nil_r, flat_map_app, in_app_iff, On, Bn. split; (intros [X|X]; [left|now right]); [exists rk; auto|]. now destruct X as (_ & _ & _ & X).
      + assert (Hh : hidden root l) by (exists b; apply Hb; now left). exists body. split; [reflexivity|]. apply Plain.
        * intros c (u & id & Hu & _ & _ & [K|[K|(_ & _ & N)]]); [rewrite H in Hu; injection Hu as <-; congruence|rewrite H in Hu; injection Hu as <-; congruence|auto].
        * intros id ports (_ & _ & N & _). auto.
  Qed.
  Lemma draw_spec t : forall l, at_loc root l = Some t -> exists ss, draw root l t = Ok ss /\ shows_all (fun m => exists q, m = (l ++ q)%list) ss.
  Proof.
    induction t as [n k cs IH] using tree_ind'. intros l H. rewrite draw_eq.
    assert (X : forall done rest, cs = (done ++ rest)%list -> exists ss, draw_all l (List.length done) rest = Ok ss /\ shows_all (fun m => exists i q, (List.length done <= i)%nat /\ m = (l ++ i :: q)%list) ss).
    { intros done rest. revert done. induction rest as [|c rest IHr]; intros done E.
      - exists []. split; [reflexivity|]. split; intros; cbn; split; try contradiction.
        + intros (m & (i & q & Hi & ->) & u & id & Hu & _). rewrite app_nil_r in E. subst done. rewrite at_loc_app, H in Hu. cbn in Hu. rewrite (proj2 (nth_error_None cs i) Hi) in Hu. discriminate.
        + intros (m & (i & q & Hi & ->) & rk & (u & o & x & Hu & _) & _). rewrite app_nil_r in E. subst done. rewrite at_loc_app, H in Hu. cbn in Hu. rewrite (proj2 (nth_error_None cs i) Hi) in Hu. discriminate.
      - destruct (IHr (done ++ [c])%list) as (ys & Ey & Yc & Yn); [now rewrite <- app_assoc|]. rewrite app_length in Ey, Yc, Yn. cbn [List.length] in Ey, Yc, Yn. rewrite PeanoNat.Nat.add_1_r in Ey, Yc, Yn.
        assert (Hc : nth_error cs (List.length done) = Some c) by (rewrite E, nth_error_app2, PeanoNat.Nat.sub_diag by lia; reflexivity).
        rewrite Forall_forall in IH. destruct (IH c (nth_error_In _ _ Hc) (l ++ [List.length done])%list (GenRender.at_child root l _ _ c H Hc)) as (xs & Ex & Xc & Xn).
        cbn [draw_all]. rewrite Ex. cbn [bind]. fold (draw_all l). rewrite Ey. cbn [bind]. eexists. split; [reflexivity|].
        assert (Split : forall Z : loc -> Prop, (exists m, (exists i q, (List.length done <= i)%nat /\ m = (l ++ i :: q)%list) /\ Z m)
          <-> (exists m, (exists q, m = ((l ++ [List.length done]) ++ q)%list) /\ Z m) \/ (exists m, (exists i q, (S (List.length done) <= i)%nat /\ m = (l ++ i :: q)%list) /\ Z m)).
        { intros Z. split.
          - intros (m & (i & q & Hi & ->) & Hz). destruct (PeanoNat.Nat.eq_dec i (List.length done)) as [->|Ne]; [left; exists (l ++ List.length done :: q)%list; split; [exists q; now rewrite <- app_assoc|exact Hz]|].
            right. exists (l ++ i :: q)%list. split; [exists i, q; split; [lia|reflexivity]|exact Hz].
          - intros [(m & (q & ->) & Hz)|(m & (i & q & Hi & ->) & Hz)].
            + exists ((l ++ [List.length done]) ++ q)%list. split; [exists (List.length done), q; split; [lia|now rewrite <- app_assoc]|exact Hz].
            + exists (l ++ i :: q)%list. split; [exists i, q; split; [lia|reflexivity]|exact Hz]. }
        split; intros; rewrite flat_map_app, in_app_iff, Split; [rewrite Xc, Yc|rewrite Xn, Yn]; reflexivity. }
    destruct (X [] cs eq_refl) as (body & E & Bc & Bn). cbn [List.length] in *. rewrite E. cbn [bind]. apply (enclose_spec l _ body H). split; intros; [rewrite Bc|rewrite Bn]; (split; intros (m & (i & q & Q) & Z)); exists m; (split; [|exact Z]); exists i, q; (tauto || (split; [lia|exact Q])).
  Qed.
  Theorem drawing : exists ss, draw root [] root = Ok ss /\ (forall c, In c (flat_map clusters ss) <-> exists l, cluster_at l c) /\ (forall id ports, In (id, ports) (flat_map nodes ss) <-> exists l, node_at l id ports).
  Proof.
    destruct (draw_spec root [] eq_refl) as (ss & E & C & N). exists ss. split; [exact E|]. split; intros; [rewrite C|rewrite N]; (split; intros (l & X)); exists l; [tauto|split; [now exists l|exact X]|tauto|split; [now exists l|exact X]].
  Qed.

  (** ** Arrows *)
  Definition refers_at (l : loc) (i : nat) (s f d : loc) : Prop :=
    exists e j k m, at_loc root (l ++ [i])%list = Some e /\ t_kind e = KExplicit
      /\ points_to root (l ++ [i; j])%list RStructure s /\ points_to root (l ++ [i; k])%list RField f /\ points_to root (l ++ [i; m])%list RResource d.
  Lemma refers_at_iff l s f d : refers root l s f d <-> exists i, refers_at l i s f d. Proof. reflexivity. Qed.
  Lemma only_ref l e (q : kind -> bool) r x j d : at_loc root l = Some e -> (forall k, q k = true -> exists r, k = KRef r) -> q (KRef r) = true -> only (children_like e q) = Ok x -> points_to root (l ++ [j])%list r d -> ref_loc root x = Ok d.
  Proof.
    intros H Hq Q O Pt. destruct (proj2 (refs_where l e q H Hq d) (ex_intro _ j (ex_intro _ r (conj Q Pt)))) as (c & Hc & E). destruct (children_like e q) as [|y [|z ys]]; try discriminate. injection O as ->. destruct Hc as [->|[]]. exact E.
  Qed.
  Lemma field_kinds : forall k, (match k with KRef RField => true | _ => false end) = true -> exists r, k = KRef r. Proof. intros k. destruct k; try discriminate. eauto. Qed.
  Lemma explicit_parts l i e : at_loc root (l ++ [i])%list = Some e -> t_kind e = KExplicit ->
    exists s f d sl fl dl, explicit_structure e = Ok s /\ explicit_field e = Ok f /\ explicit_destination e = Ok d /\ ref_loc root s = Ok sl /\ ref_loc root f = Ok fl /\ ref_loc root d = Ok dl
      /\ refers_at l i sl fl dl /\ forall sl' fl' dl', refers_at l i sl' fl' dl' -> sl' = sl /\ fl' = fl /\ dl' = dl.
  Proof.
    intros H K. destruct (explicit_refs root F _ e H K) as (s & f & d & j & k & m & A1 & B1 & C1 & A2 & A3 & B2 & B3 & C2 & C3).
    destruct (ref_points _ _ _ A2 A3) as (sl & _ & Es & Ps & _). destruct (ref_points _ _ _ B2 B3) as (fl & _ & Ef & Pf & _). destruct (ref_points _ _ _ C2 C3) as (dl & _ & Ed & Pd & _).
    exists s, f, d, sl, fl, dl. repeat (split; [assumption|]). split.
    - exists e, j, k, m. rewrite <- !app_assoc in Ps, Pf, Pd. auto.
    - intros sl' fl' dl' (e' & j' & k' & m' & H' & K' & Ps' & Pf' & Pd'). rewrite H in H'. injection H' as <-.
      assert (As : forall x, (l ++ [i; x])%list = ((l ++ [i]) ++ [x])%list) by (intros x; now rewrite <- app_assoc). rewrite As in Ps', Pf', Pd'.
      pose proof (only_ref _ e _ RStructure s j' sl' H structure_kinds eq_refl A1 Ps') as X1. pose proof (only_ref _ e _ RField f k' fl' H field_kinds eq_refl B1 Pf') as X2. pose proof (only_ref _ e _ RResource d m' dl' H resource_ref_kind eq_refl C1 Pd') as X3.
      split; [congruence|]. split; congruence.
  Qed.
  Lemma points_resource l d : points_to root l RResource d -> exists rk, resource_at root d rk.
  Proof.
    intros Pt. pose proof Pt as (c & Hc & K & _). destruct (ref_points _ _ _ Hc K) as (d' & v & _ & Pt' & Hv & X). rewrite (points_unique _ _ _ _ _ Pt Pt'). destruct (t_kind v) eqn:Kv; try discriminate. exists rk, v, optional, max_size. auto.
  Qed.
  Lemma stands_resource l rk o : resource_at root l rk -> stands_for root l o -> exists rk', resource_at root o rk'.
  Proof. intros R [(B0 & _)|(-> & _)]; eauto. Qed.
  Lemma ports_exist l d rid : called root l rid -> shows root l d -> exists ports, ports_of root l d ports.
  Proof.
    intros Hl S0. destruct (shown_struct _ _ S0) as (s & sz & Hd & K). destruct (rows_spec l rid d s sz Hl Hd K (t_children s) 0%nat) as (rows & _ & Fo); [auto|]. eexists. eexists. split; [exists s; split; [exact Hd|reflexivity]|exact Fo].
  Qed.
  Lemma arrow_of_spec l i e s f d o h rko rkh : at_loc root (l ++ [i])%list = Some e -> t_kind e = KExplicit -> refers_at l i s f d -> resource_at root o rko -> resource_at root h rkh ->
    exists a, arrow_of root e o h = Ok a /\ arrow_between root o s f h a.
  Proof.
    intros H K Rf (ot & oo & om & Ho & _) Rh. pose proof Rh as (ht & ho & hm & Hh & _). destruct (explicit_parts l i e H K) as (sr & fr & dr & sl & fl & dl & A1 & B1 & C1 & A2 & B2 & C2 & _ & U). destruct (U s f d Rf) as (-> & -> & ->).
    destruct Rf as (e' & j & k & m & He & _ & Ps & Pf & _). pose proof Ps as (sc & Hsc & Ks & _). pose proof Pf as (fc & Hfc & Kf & _).
    destruct (ref_points _ _ _ Hsc Ks) as (s' & sv & _ & Ps' & Hs & _). destruct (ref_points _ _ _ Hfc Kf) as (f' & fv & _ & Pf' & Hf & _). rewrite <- (points_unique _ _ _ _ _ Ps Ps') in Hs. rewrite <- (points_unique _ _ _ _ _ Pf Pf') in Hf.
    destruct (id_total _ _ Ho) as (oi & Eo). destruct (id_total _ _ Hh) as (hi & Eh). destruct (id_total _ _ Hs) as (si & Es). destruct (id_total _ _ Hf) as (fi & Ef).
    pose proof (proj1 (id_called _ _) Eo) as Co. pose proof (proj1 (id_called _ _) Eh) as Ch. pose proof (proj1 (id_called _ _) Es) as Cs. pose proof (proj1 (id_called _ _) Ef) as Cf.
    destruct (shown_spec h ht rkh Hh Rh) as (refs & E & Sh & Tg). unfold arrow_of. rewrite Eo. cbn [bind]. rewrite Eh. cbn [bind]. rewrite Hh, E. cbn [bind].
    assert (X : exists to, match refs with [] => Ok hi | c :: _ => x <- ref_loc root c ;; i <- id_of root x ;; Ok (hi ++ i) end = Ok to /\ exists ports, node_of root h to ports).
    { destruct refs as [|c refs].
      - exists hi. split; [reflexivity|]. exists []. right. split; [intros x Hx; apply Sh in Hx as (? & [] & _)|auto].
      - destruct (Tg c (or_introl eq_refl)) as (x & Ex). rewrite Ex. cbn [bind]. assert (S0 : shows root h x) by (apply Sh; exists c; split; [now left|exact Ex]). destruct (shown_struct _ _ S0) as (xs & sz & Hx & _). destruct (id_total _ _ Hx) as (xi & Exi). rewrite Exi. cbn [bind].
        exists (hi ++ xi). split; [reflexivity|]. destruct (ports_exist h x hi Ch S0) as (ports & P). exists ports. left. exists x. split; [exact S0|]. split; [exists hi, xi; split; [exact Ch|]; split; [now apply id_called|reflexivity]|exact P]. }
    destruct X as (to & -> & Nt). cbn [bind]. rewrite A1. cbn [bind]. rewrite A2. cbn [bind]. rewrite Es. cbn [bind]. rewrite B1. cbn [bind]. rewrite B2. cbn [bind]. rewrite Ef. cbn [bind].
    eexists. split; [reflexivity|]. split; [exists oi, si; auto|]. split; [exists (oi ++ fi); split; [exists oi, fi; auto|reflexivity]|]. split; [exact Nt|]. exists hi. auto.
  Qed.
  (** [es] are the arrows of the explicit references of which [P] holds *)
  Definition arrowed (P : loc -> nat -> Prop) (es : list arrow) : Prop :=
    (forall a, In a es -> exists l i s f d o h, P l i /\ refers_at l i s f d /\ stands_for root l o /\ stands_for root d h /\ arrow_between root o s f h a)
    /\ forall l i s f d o h, P l i -> refers_at l i s f d -> stands_for root l o -> stands_for root d h -> exists a, In a es /\ arrow_between root o s f h a.
  Lemma arrowed_ext P Q es : (forall l i s f d, refers_at l i s f d -> P l i <-> Q l i) -> arrowed P es -> arrowed Q es.
  Proof.
    intros E (S0 & C). split.
    - intros a Ha. destruct (S0 a Ha) as (l & i & s & f & d & o & h & p & R & X). exists l, i, s, f, d, o, h. split; [now apply (E l i s f d R)|auto].
    - intros l i s f d o h q R. apply (C l i s f d); [now apply (E l i s f d R)|exact R].
  Qed.
  Lemma arrowed_app P Q es fs : arrowed P es -> arrowed Q fs -> arrowed (fun l i => P l i \/ Q l i) (es ++ fs)%list.
  Proof.
    intros (S1 & C1) (S2 & C2). split.
    - intros a Ha. apply in_app_or in Ha as [Ha|Ha]; [destruct (S1 a Ha) as (l & i & s & f & d & o & h & p & R)|destruct (S2 a Ha) as (l & i & s & f & d & o & h & p & R)]; exists l, i, s, f, d, o, h; (split; [auto|exact R]).
    - intros l i s f d o h [p|q] R A B0; [destruct (C1 _ _ _ _ _ _ _ p R A B0) as (a & Ha & X)|destruct (C2 _ _ _ _ _ _ _ q R A B0) as (a & Ha & X)]; exists a; (split; [apply in_or_app; auto|exact X]).
  Qed.
  Lemma arrowed_none : arrowed (fun _ _ => False) [].
  Proof. split; [intros a []|intros l i s f d o h []]. Qed.
  Lemma arrowed_concat {A} (P : A -> loc -> nat -> Prop) xs parts : Forall2 (fun x es => arrowed (P x) es) xs parts -> arrowed (fun l i => exists x, In x xs /\ P x l i) (List.concat parts).
  Proof.
    induction 1 as [|x es xs parts Hx _ IH]; [apply (arrowed_ext (fun _ _ => False)); [intros; split; [intros []|intros (y & [] & _)]|exact arrowed_none]|]. cbn [List.concat].
    apply (arrowed_ext (fun l i => P x l i \/ exists y, In y xs /\ P y l i)); [|now apply arrowed_app].
    intros l i _ _ _ _. split; [intros [p|(y & Hy & p)]; [exists x; split; [now left|exact p]|exists y; split; [now right|exact p]]|intros (y & [<-|Hy] & p); eauto].
  Qed.
  Lemma explicit_kind t : is_explicit (t_kind t) = true <-> t_kind t = KExplicit.
  Proof. destruct (t_kind t); cbn; split; congruence. Qed.
  Lemma arrows_of_spec l rk i e : resource_at root l rk -> at_loc root (l ++ [i])%list = Some e -> t_kind e = KExplicit ->
    exists es, arrows_of root e l = Ok es /\ arrowed (fun m j => m = l /\ at_loc root (l ++ [j])%list = Some e) es.
  Proof.
    intros R H K. destruct (explicit_parts l i e H K) as (sr & fr & dr & s & f & d & A1 & B1 & C1 & A2 & B2 & C2 & Rf & _). unfold arrows_of. destruct (stands_spec l rk R) as (os & -> & Os). cbn [bind]. rewrite C1. cbn [bind]. rewrite C2. cbn [bind].
    pose proof Rf as (_ & _ & _ & m & _ & _ & _ & _ & Pd). destruct (points_resource _ _ Pd) as (rkd & Rd). destruct (stands_spec d rkd Rd) as (ds & -> & Ds). cbn [bind].
    assert (X : forall o h, In o os -> In h ds -> exists a, arrow_of root e o h = Ok a /\ arrow_between root o s f h a).
    { intros o h Ho Hh. apply Os in Ho. apply Ds in Hh. destruct (stands_resource _ _ _ R Ho) as (rko & Ro). destruct (stands_resource _ _ _ Rd Hh) as (rkh & Rh). exact (arrow_of_spec l i e s f d o h rko rkh H K Rf Ro Rh). }
    destruct (mapM_spec (fun o => mapM (arrow_of root e o) ds) (fun o es => Forall2 (fun h a => arrow_between root o s f h a) ds es) os) as (parts & -> & Fo).
    { intros o Ho. apply mapM_spec. intros h Hh. exact (X o h Ho Hh). }
    cbn [bind]. eexists. split; [reflexivity|]. split.
    - intros a Ha. apply in_concat in Ha as (es & Hes & Ha). destruct (f2_right _ _ _ _ Fo Hes) as (o & Ho & Fh). destruct (f2_right _ _ _ _ Fh Ha) as (h & Hh & Ab). exists l, i, s, f, d, o, h. split; [auto|]. split; [exact Rf|]. split; [now apply Os|]. split; [now apply Ds|exact Ab].
    - intros l' i' s' f' d' o h (-> & He) Rf' So Sh. destruct (explicit_parts l i' e He K) as (sr' & fr' & dr' & s2 & f2 & d2 & A1' & B1' & C1' & A2' & B2' & C2' & _ & U'). destruct (U' _ _ _ Rf') as (-> & -> & ->).
      assert (s2 = s) as -> by congruence. assert (f2 = f) as -> by congruence. assert (d2 = d) as -> by congruence.
      apply Os in So. apply Ds in Sh. destruct (f2_left _ _ _ _ Fo So) as (es & Hes & Fh). destruct (f2_left _ _ _ _ Fh Sh) as (a & Ha & Ab). exists a. split; [apply in_concat; eauto|exact Ab].
  Qed.
  Lemma archive_arrows_spec p a : at_loc root p = Some a -> forall cs i, (forall j c, nth_error cs j = Some c -> nth_error (t_children a) (i + j) = Some c) -> List.length (t_children a) = (i + List.length cs)%nat ->
    exists es, archive_arrows root p i cs = Ok es /\ arrowed (fun l _ => exists j, (i <= j)%nat /\ l = (p ++ [j])%list) es.
  Proof.
    intros Ha. induction cs as [|c cs IH]; intros i Hcs Hn.
    - exists []. split; [reflexivity|]. apply (arrowed_ext (fun _ _ => False)); [|exact arrowed_none]. intros l k s f d (e & _ & _ & _ & He & _). split; [intros []|]. intros (j & Hj & ->).
      rewrite at_loc_app, at_loc_app, Ha in He. cbn in He. cbn in Hn. rewrite (proj2 (nth_error_None (t_children a) j)) in He by lia. discriminate.
    - destruct (IH (S i)) as (rest & E & Ar). { intros j x Hx. specialize (Hcs (S j) x Hx). now rewrite PeanoNat.Nat.add_succ_r in Hcs. } { rewrite Hn. cbn. lia. }
      pose proof (Hcs 0%nat c eq_refl) as Hc. rewrite PeanoNat.Nat.add_0_r in Hc. pose proof (GenRender.at_child root p a i c Ha Hc) as Hl. cbn [archive_arrows].
      assert (X : exists here, (if is_resource (t_kind c) then parts <- mapM (fun e => arrows_of root e (p ++ [i])%list) (children_like c is_explicit) ;; Ok (List.concat parts) else Ok []) = Ok here /\ arrowed (fun l _ => l = (p ++ [i])%list) here).
      { destruct (is_resource (t_kind c)) eqn:Kc.
        - assert (exists rk, resource_at root (p ++ [i])%list rk) as (rk & R) by (destruct (t_kind c) eqn:K; try discriminate; exists rk, c, optional, max_size; auto).
          destruct (mapM_spec (fun e => arrows_of root e (p ++ [i])%list) (fun e es => arrowed (fun m j => m = (p ++ [i])%list /\ at_loc root ((p ++ [i]) ++ [j])%list = Some e) es) (children_like c is_explicit)) as (parts & -> & Fo).
          { intros e He. apply GenAstThms.children_like_in in He as (k & Hk & Q). apply explicit_kind in Q. exact (arrows_of_spec _ rk k e R (GenRender.at_child root _ c k e Hl Hk) Q). }
          cbn [bind]. eexists. split; [reflexivity|]. refine (arrowed_ext _ _ _ _ (arrowed_concat _ _ _ Fo)). intros l k s f d (e & _ & _ & _ & He & Ke & _). split; [intros (x & _ & Q & _); exact Q|]. intros ->. exists e. split; [|auto].
          apply GenAstThms.children_like_in. exists k. split; [|now apply explicit_kind]. rewrite at_loc_app, Hl in He. cbn in He. destruct (nth_error (t_children c) k); [exact He|discriminate].
        - exists []. split; [reflexivity|]. apply (arrowed_ext (fun _ _ => False)); [|exact arrowed_none]. intros l k s f d (e & _ & _ & _ & He & Ke & _). split; [intros []|]. intros ->. rewrite at_loc_app, Hl in He. cbn in He. destruct (nth_error (t_children c) k) as [x|] eqn:Hk; [|discriminate]. injection He as ->.
          destruct (child_kind root F _ c e Hl (nth_error_In _ _ Hk)) as (_ & _ & _ & Ed). rewrite Ke in Ed. destruct (t_kind c) as [| | | | | | |rk o m|rk o m| |]; try discriminate; cbn in Ed; try contradiction; destruct rk; contradiction. }
      destruct X as (here & -> & Ah). cbn [bind]. rewrite E. cbn [bind]. eexists. split; [reflexivity|]. refine (arrowed_ext _ _ _ _ (arrowed_app _ _ _ _ Ah Ar)). intros l k _ _ _ _. split.
      + intros [->|(j & Hj & ->)]; [exists i; auto|exists j; split; [lia|reflexivity]].
      + intros (j & Hj & ->). destruct (PeanoNat.Nat.eq_dec j i) as [->|Ne]; [now left|right; exists j; split; [lia|reflexivity]].
  Qed.
  Theorem arrowing : exists es, arrows root = Ok es
    /\ (forall a, In a es -> exists l s f d o h, refers root l s f d /\ stands_for root l o /\ stands_for root d h /\ arrow_between root o s f h a)
    /\ (forall l s f d o h, refers root l s f d -> stands_for root l o -> stands_for root d h -> exists a, In a es /\ arrow_between root o s f h a).
  Proof.
    destruct (built_order root Bu) as (order & Eo & _ & Ho & _). unfold arrows. rewrite Eo. cbn [bind].
    destruct (mapM_spec (fun l => match at_loc root l with Some a => if GenBuild.is_archive (t_kind a) then archive_arrows root l 0 (t_children a) else Ok [] | None => Err RuntimeError end)
      (fun p es => arrowed (fun l _ => exists j a, l = (p ++ [j])%list /\ at_loc root p = Some a /\ t_kind a = KArchive) es) order) as (parts & -> & Fo).
    { intros p Hp. apply Ho in Hp. destruct (reach_node root p (b_resolved _ Bu) Hp) as (a & Ha). rewrite Ha. destruct (GenBuild.is_archive (t_kind a)) eqn:Ka.
      - destruct (archive_arrows_spec p a Ha (t_children a) 0%nat) as (es & E & A); [auto|reflexivity|]. exists es. split; [exact E|]. refine (arrowed_ext _ _ _ _ A). intros l _ _ _ _ _. split; [intros (j & _ & ->); exists j, a; split; [reflexivity|]; split; [reflexivity|destruct (t_kind a); try discriminate; reflexivity]|].
        intros (j & _ & -> & _). exists j. split; [lia|reflexivity].
      - exists []. split; [reflexivity|]. apply (arrowed_ext (fun _ _ => False)); [|exact arrowed_none]. intros l _ _ _ _ _. split; [intros []|]. intros (j & a' & _ & Q & K). injection Q as <-. rewrite K in Ka. discriminate. }
    cbn [bind]. eexists. split; [reflexivity|]. destruct (arrowed_concat _ _ _ Fo) as (S0 & C). split.
    - intros a Hin. destruct (S0 a Hin) as (l & i & s & f & d & o & h & _ & Rf & X). exists l, s, f, d, o, h. split; [now exists i|exact X].
    - intros l s f d o h (i & Rf) So Sh. apply (C l i s f d o h); [|exact Rf|exact So|exact Sh]. destruct Rf as (e & _ & _ & _ & He & Ke & _).
      destruct (parent_at _ _ _ _ He) as (r & Hr & Hi). destruct (child_kind root F l r e Hr (nth_error_In _ _ Hi)) as (_ & _ & _ & Ed). rewrite Ke in Ed.
      assert (exists rk o m, t_kind r = KResource rk o m) as (rk & o' & m' & Kr) by (destruct (t_kind r); cbn in Ed; try contradiction; eauto).
      destruct (resource_parent l r rk o' m' Hr Kr) as (p & j & a & -> & _ & Ha & Ka & _). exists p. split; [|exists j, a; auto]. apply Ho. apply (tgt_reach root p a Bu Ha). unfold is_ref. now rewrite Ka.
  Qed.
End Dot.
