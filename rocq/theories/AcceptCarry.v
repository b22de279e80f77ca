(** Later passes keep what the declared tree says; which of their checks fail is decided by the declared tree. *)
From Coq Require Import List ZArith Bool String Ascii Lia.
From Verif Require Import PyBase PyText Spec GenSpec GenTypes GenTypesFacts GenTree GenTreeFacts GenTraversal GenBuild GenBuildFacts GenPassFacts GenAstFacts
  GenAstSpec GenLayoutFacts GenMergeFacts GenResolveFacts GenShapeFacts GenLimitFacts GenFieldFacts GenTidy GenFinal GenAstThms Props_GenTree AcceptSpec AcceptCreate AcceptResolve AcceptIndex AcceptLocal AcceptConst.
Import ListNotations.
Local Open Scope Z_scope.

(** [k'] is [k] after the passes: a field may have got the type of an enumeration *)
Definition ksim (k k' : kind) : Prop :=
  match k, k' with
  | KField r (Some ty) _, KField r' ty' _ => r' = r /\ ty' = Some ty
  | KField r None _, KField r' ty' _ => r' = r /\ (ty' = None \/ exists x, ty' = Some x /\ marked (ft_name x))
  | KStructure _, KStructure _ => True
  | KResource rk o _, KResource rk' o' _ => rk' = rk /\ o' = o
  | _, _ => k' = k
  end.
Lemma ksim_refl k : ksim k k.
Proof. destruct k as [| | |sz|rg [ty|] o|b| | | | |]; cbn; auto. Qed.
Lemma ksim_trans a b c : ksim a b -> ksim b c -> ksim a c.
Proof.
  destruct a as [| | |sz|rg [ty|] o|bb| | |rk o m| |rr]; destruct b as [| | |sz'|rg' [ty'|] o'|bb'| | |rk' o' m'| |rr']; cbn; intros H; try discriminate H; try (destruct H as (H & H')); try discriminate H'; try discriminate H; intros K;
    try (injection H as -> ->); try (injection H as ->); try exact K; destruct c; cbn in K |- *; try discriminate K; auto; destruct K as (K & K'); subst; auto;
    try (destruct H' as [H'|(x & H' & M)]; try discriminate H'; try (injection H' as ->); split; [reflexivity|]; eauto; fail).
Qed.
Lemma ksim_is_ref k k' : ksim k k' -> is_ref_kind k' = is_ref_kind k.
Proof. destruct k as [| | |sz|rg [ty|] o|b| | | | |], k'; cbn; intros H; try discriminate H; reflexivity. Qed.
Lemma ksim_ref k q : ksim (KRef q) k <-> k = KRef q. Proof. cbn. tauto. Qed.
Lemma ksim_to_ref k q : ksim k (KRef q) -> k = KRef q.
Proof. destruct k as [| | |sz|rg [ty|] o|b| | | | |]; cbn; congruence. Qed.
Lemma ksim_same k k' : ksim k k' -> erase k' = erase k.
Proof. destruct k as [| | |sz|rg [ty|] o|b| | | | |], k'; cbn; intros H; try discriminate H; try congruence; try (destruct H; subst; congruence). Qed.
Lemma ksim_archive k : ksim k KArchive <-> k = KArchive. Proof. destruct k as [| | |sz|rg [ty|] o|b| | | | |]; cbn; split; congruence. Qed.

Record carries (r t : tree) : Prop := {
  cr_down : forall l u, at_loc r l = Some u -> exists v, at_loc t l = Some v /\ ksim (t_kind u) (t_kind v) /\ (is_ref u = false -> t_name v = t_name u);
  cr_up : forall l v, at_loc t l = Some v -> (exists u, at_loc r l = Some u) \/ (exists p i a, l = (p ++ [i])%list /\ at_loc r p = Some a /\ t_kind a = KArchive /\ t_kind v = KRef RConstValue);
  cr_points : forall l u q d, at_loc r l = Some u -> (points_to t l q d <-> meant r l q d) }.

Lemma same_points a b l q d : rooted a -> rooted b -> same_tree a b -> (points_to a l q d <-> points_to b l q d).
Proof.
  assert (X : forall a b, rooted a -> rooted b -> same_tree a b -> points_to a l q d -> points_to b l q d).
  { clear a b. intros a b Ga Gb S H. apply (points_to_find a l q d Ga) in H as (t & Ht & K & F). apply (points_to_find b l q d Gb). destruct (same_at a b l t S Ht) as (t' & Ht' & N & E).
    exists t'. split; [exact Ht'|]. split; [rewrite K in E; now apply erase_kref|]. rewrite <- (skel_find a b _ Ga Gb S). unfold target in *. now rewrite N. }
  intros Ga Gb S. split; apply X; auto. now symmetry.
Qed.
Lemma carries_same r a b : carries r a -> rooted a -> rooted b -> same_tree a b ->
  (forall l u v, at_loc a l = Some u -> at_loc b l = Some v -> ksim (t_kind u) (t_kind v)) -> carries r b.
Proof.
  intros C Ga Gb S K. constructor.
  - intros l u Hu. destruct (cr_down _ _ C l u Hu) as (v & Hv & Kv & Nv). destruct (same_at a b l v S Hv) as (w & Hw & Nw & _). exists w. split; [exact Hw|].
    split; [exact (ksim_trans _ _ _ Kv (K l v w Hv Hw))|]. intros R. rewrite Nw. auto.
  - intros l w Hw. destruct (same_at b a l w (eq_sym S) Hw) as (v & Hv & _ & Ev). destruct (cr_up _ _ C l v Hv) as [X|(p & i & x & -> & Hx & Kx & Kv)]; [now left|]. right. exists p, i, x.
    repeat split; auto. rewrite Kv in Ev. symmetry in Ev. now apply erase_kref in Ev.
  - intros l u q d Hu. rewrite <- (same_points a b l q d Ga Gb S). exact (cr_points _ _ C l u q d Hu).
Qed.

Theorem carries_constants r r3 r4 : rooted r -> local (shape true) r -> resolve_references r = Ok r3 -> append_constants r3 = Ok r4 ->
  carries r r4 /\ rooted r4 /\ all_resolved r4 /\ forall l u v, at_loc r l = Some u -> at_loc r4 l = Some v -> t_kind v = t_kind u.
Proof.
  intros G Sh H3 H4. destruct (resolved_facts r r3 G H3) as (G3 & S3 & R3). destruct (append_constants_good _ _ H4 G3 R3) as (G4 & R4 & X4).
  pose proof (resolve_keep _ _ H3) as K3.
  assert (D3 : forall l u, at_loc r l = Some u -> exists v, at_loc r3 l = Some v /\ t_kind v = t_kind u /\ (is_ref u = false -> t_name v = t_name u)).
  { intros l u Hu. destruct (keep_at (fun k => k) true r r3 l u (eq_sym K3) Hu) as (v & Hv & Kv & Nv & _). exists v. split; [exact Hv|]. split; [exact Kv|]. intros R. apply Nv. right.
    rewrite Kv. split; exact R. }
  split; [|split; [exact G4|split; [exact R4|]]]; [|intros l u v Hu Hv; destruct (D3 l u Hu) as (w & Hw & Kw & _); destruct (proj1 X4 l w Hw) as (w' & Hw' & _ & Kw'); congruence].
  constructor.
  - intros l u Hu. destruct (D3 l u Hu) as (v & Hv & Kv & Nv). destruct (proj1 X4 l v Hv) as (w & Hw & Nw & Kw). exists w. split; [exact Hw|]. rewrite Kw, Kv. split; [apply ksim_refl|]. intros R. rewrite Nw. auto.
  - intros l w Hw. destruct (constants_new _ _ H4 l w Hw) as [(v & Hv & _)|(p & i & a & -> & Ha & Ka & Kw)].
    + left. destruct (keep_at (fun k => k) true r3 r l v K3 Hv) as (u & Hu & _). eauto.
    + destruct (keep_at (fun k => k) true r3 r p a K3 Ha) as (u & Hu & Ku & _). right. exists p, i, u. repeat split; auto. congruence.
  - intros l u q d Hu. rewrite <- (points_meant r r3 G Sh H3 l q d). destruct (D3 l u Hu) as (v & Hv & Kv & _). destruct (proj1 X4 l v Hv) as (w & Hw & Nw & Kw).
    rewrite (points_to_find r4 l q d G4), (points_to_find r3 l q d G3). split.
    + intros (t & Ht & K & F). rewrite Hw in Ht. injection Ht as <-. exists v. split; [exact Hv|]. split; [congruence|].
      destruct (R3 l v Hv ltac:(unfold is_ref; rewrite <- Kw, K; reflexivity)) as (q0 & t0 & tl & u0 & A & B & F0 & _). rewrite Hv in A. injection A as <-.
      pose proof (proj2 X4 _ _ F0) as F4. unfold target in *. rewrite Nw in F. rewrite F in F4. injection F4 as ->. exact F0.
    + intros (t & Ht & K & F). rewrite Hv in Ht. injection Ht as <-. exists w. split; [exact Hw|]. split; [congruence|]. apply (proj2 X4). unfold target in *. now rewrite Nw.
Qed.

(** ** Children *)
Section Carried.
  Variables r t : tree.
  Hypothesis (G : rooted r) (Sh : local (shape true) r) (C : carries r t) (Gt : rooted t) (Rt : all_resolved t).

  Lemma up_kind l v : at_loc t l = Some v -> t_kind v <> KRef RConstValue -> exists u, at_loc r l = Some u /\ ksim (t_kind u) (t_kind v) /\ (is_ref u = false -> t_name v = t_name u).
  Proof using C.
    intros Hv N. destruct (cr_up _ _ C l v Hv) as [(u & Hu)|(_ & _ & _ & _ & _ & _ & K)]; [|congruence]. exists u. split; [exact Hu|]. destruct (cr_down _ _ C l u Hu) as (v' & Hv' & X). rewrite Hv in Hv'. now injection Hv' as <-.
  Qed.
  Lemma up_child l i u v : at_loc r l = Some u -> t_kind u <> KArchive -> at_loc t (l ++ [i])%list = Some v ->
    exists c, at_loc r (l ++ [i])%list = Some c /\ ksim (t_kind c) (t_kind v) /\ (is_ref c = false -> t_name v = t_name c).
  Proof using C.
    intros Hu N Hv. destruct (cr_up _ _ C _ v Hv) as [(c & Hc)|(p & j & a & E & Ha & Ka & _)].
    - exists c. split; [exact Hc|]. destruct (cr_down _ _ C _ c Hc) as (v' & Hv' & X). rewrite Hv in Hv'. now injection Hv' as <-.
    - apply app_inj_tail in E as (<- & _). congruence.
  Qed.
  (** every reference means something *)
  Lemma meant_some l u q : at_loc r l = Some u -> t_kind u = KRef q -> exists d v, meant r l q d /\ at_loc r d = Some v /\ expected_kind q (t_kind v) = true.
  Proof using C Gt Rt.
    intros Hu K. destruct (cr_down _ _ C l u Hu) as (v & Hv & Kv & _). rewrite K in Kv. apply ksim_ref in Kv. destruct (Rt l v Hv ltac:(unfold is_ref; now rewrite Kv)) as (q0 & t0 & d & w & A & B & F & W & X).
    rewrite Hv in A. injection A as <-. rewrite Kv in B. injection B as <-. assert (M : meant r l q d) by (apply (cr_points _ _ C l u q d Hu), (points_to_find t l q d Gt); eauto).
    destruct (up_kind d w W) as (x & Hx & Kx & _); [intros E; rewrite E in X; destruct q; discriminate|]. exists d, x. split; [exact M|]. split; [exact Hx|].
    rewrite <- expected_erase, <- (ksim_same _ _ Kx), expected_erase. exact X.
  Qed.
  Lemma points_ref l q d : points_to t l q d -> q <> RConstValue -> meant r l q d.
  Proof using C.
    intros P N. pose proof P as (v & Hv & K & _). destruct (up_kind l v Hv) as (u & Hu & _); [rewrite K; congruence|]. now apply (cr_points _ _ C l u q d Hu).
  Qed.
  Lemma meant_points l q d : meant r l q d -> points_to t l q d.
  Proof using C. intros M. pose proof M as (u & Hu & _). now apply (cr_points _ _ C l u q d Hu). Qed.
  Lemma not_root l v : at_loc t l = Some v -> t_kind v <> KRoot -> exists p i w, l = (p ++ [i])%list /\ at_loc t p = Some w /\ nth_error (t_children w) i = Some v.
  Proof using Gt.
    intros Hv N. destruct l as [|x l0] using rev_ind; [cbn in Hv; injection Hv as <-; destruct Gt as (_ & _ & K); congruence|]. destruct (parent_at _ _ _ _ Hv) as (w & Hw & Hi). exists l0, x, w. auto.
  Qed.
  Lemma ref_ok l v q : at_loc t l = Some v -> t_kind v = KRef q -> exists d, ref_loc t v = Ok d /\ points_to t l q d /\ exists w, at_loc t d = Some w /\ expected_kind q (t_kind w) = true.
  Proof using Gt Rt.
    intros Hv K. destruct (Rt l v Hv ltac:(unfold is_ref; now rewrite K)) as (q0 & t0 & d & w & A & B & F & W & X). rewrite Hv in A. injection A as <-. rewrite K in B. injection B as <-.
    exists d. split; [unfold ref_loc; now rewrite F|]. split; [apply (points_to_find t l q d Gt); eauto|eauto].
  Qed.

  (** ** Ranges *)
  Definition ranges_valid : Prop :=
    (forall l i j f g name rng ty off ty' off', at_loc r (l ++ [i])%list = Some f -> t_kind f = KField (Some name) ty off ->
      at_loc r (l ++ [j])%list = Some g -> t_kind g = KField rng ty' off' -> t_name g <> name)
    /\ (forall l f name ty off i d, at_loc r l = Some f -> t_kind f = KField (Some name) ty off -> ~ meant r (l ++ [i])%list RInvalidValue d)
    /\ (forall l x rk o m i d j f name ty off, at_loc r l = Some x -> t_kind x = KResource rk o m -> rk <> KVector -> meant r (l ++ [i])%list RStructure d ->
      at_loc r (d ++ [j])%list = Some f -> t_kind f <> KField (Some name) ty off).

  Lemma mapM_unit {A} (f : A -> res unit) ls : (exists us, mapM f ls = Ok us) <-> forall x, In x ls -> f x = Ok tt.
  Proof.
    split.
    - intros (us & H) x Hx. apply mapM_ok in H. destruct (F2_in _ _ _ _ H Hx) as ([] & _ & E). exact E.
    - intros H. apply mapM_total. eauto.
  Qed.
  Lemma ksim_field k rng ty off : ksim k (KField rng ty off) -> exists ty' off', k = KField rng ty' off'.
  Proof using. destruct k as [| | |sz|rg [x|] o|b| | | | |]; cbn; intros H; try discriminate H; destruct H as (-> & _); eauto. Qed.
  Lemma ksim_field_down rng ty off k : ksim (KField rng ty off) k -> exists ty' off', k = KField rng ty' off'.
  Proof using. destruct k; destruct ty; cbn; intros H; try discriminate H; destruct H as (-> & _); eauto. Qed.
  Lemma ksim_resource_down rk o m k : ksim (KResource rk o m) k -> exists m', k = KResource rk o m'.
  Proof using. destruct k; cbn; intros H; try discriminate H; destruct H as (-> & ->); eauto. Qed.
  Lemma ksim_resource k rk o m : ksim k (KResource rk o m) -> exists m', k = KResource rk o m'.
  Proof using. destruct k as [| | |sz|rg [x|] o'|b| | | | |]; cbn; intros H; try discriminate H; destruct H as (-> & ->); eauto. Qed.

  Lemma check_ranges_iff : check_ranges t = Ok tt <-> ranges_valid.
  Proof using G Sh C Gt Rt.
    assert (E : check_ranges t = Ok tt <-> (exists us, mapM (check_range t) (iterate t is_field) = Ok us) /\ (exists us, mapM (check_range_ref t) (iterate t is_structure_ref) = Ok us)).
    { unfold check_ranges. destruct (mapM (check_range t) _) as [a|]; cbn; [|split; [discriminate|intros ((? & ?) & _); discriminate]].
      destruct (mapM (check_range_ref t) _) as [b|]; cbn; [|split; [discriminate|intros (_ & (? & ?)); discriminate]]. split; eauto. }
    rewrite E, !mapM_unit. clear E. split.
    - intros (A & B). split; [|split].
      + intros l i j f g name rng ty off ty' off' Hf Kf Hg Kg Nn. destruct (cr_down _ _ C _ _ Hf) as (f' & Hf' & Kf' & _). rewrite Kf in Kf'. destruct (ksim_field_down _ _ _ _ Kf') as (ty1 & off1 & K1).
        destruct (cr_down _ _ C _ _ Hg) as (g' & Hg' & Kg' & Ng'). rewrite Kg in Kg'. destruct (ksim_field_down _ _ _ _ Kg') as (ty2 & off2 & K2).
        specialize (A (l ++ [i])%list ltac:(apply iterate_spec; exists f'; rewrite K1; auto)). unfold check_range in A. rewrite Hf' in A. unfold parent_loc in A. rewrite removelast_last in A.
        destruct (parent_at _ _ _ _ Hf') as (w & Hw & Hi). rewrite Hw in A. destruct f' as [n k cs]. cbn in K1. subst k. destruct (existsb _ (children_like w is_field)) eqn:X; [discriminate|].
        apply not_true_iff_false in X. apply X. apply existsb_exists. exists g'. split.
        * apply children_like_in. exists j. split; [|now rewrite K2]. rewrite (at_child _ _ _ _ Hw) in Hg'. exact Hg'.
        * apply String.eqb_eq. rewrite Ng'; [exact Nn|]. unfold is_ref. now rewrite Kg.
      + intros l f name ty off i d Hf Kf M. destruct (cr_down _ _ C _ _ Hf) as (f' & Hf' & Kf' & _). rewrite Kf in Kf'. destruct (ksim_field_down _ _ _ _ Kf') as (ty1 & off1 & K1).
        specialize (A l ltac:(apply iterate_spec; exists f'; rewrite K1; auto)). destruct (not_root l f' Hf' ltac:(now rewrite K1)) as (p & i0 & w & -> & Hw & Hi0).
        unfold check_range in A. rewrite Hf' in A. unfold parent_loc in A. rewrite removelast_last, Hw in A. pose proof (meant_points _ _ _ M) as (c & Hc & Kc & _). rewrite (at_child _ _ _ _ Hf') in Hc.
        destruct f' as [n k cs]. cbn in K1. subst k. destruct (existsb _ _); [discriminate|]. destruct (children_like _ is_invalid_ref) eqn:X; [|discriminate].
        assert (I : In c (children_like (Node n (KField (Some name) ty1 off1) cs) is_invalid_ref)) by (apply children_like_in; exists i; split; [exact Hc|now rewrite Kc]). rewrite X in I. destruct I.
      + intros l x rk o m i d j f name ty off Hx Kx Nv M Hf Kf. destruct (cr_down _ _ C _ _ Hx) as (x' & Hx' & Kx' & _). rewrite Kx in Kx'. destruct (ksim_resource_down _ _ _ _ Kx') as (m' & K1).
        pose proof (meant_points _ _ _ M) as P. pose proof P as (c & Hc & Kc & _). specialize (B (l ++ [i])%list ltac:(apply iterate_spec; exists c; rewrite Kc; auto)).
        unfold check_range_ref in B. rewrite Hc in B. unfold parent_loc in B. rewrite removelast_last, Hx' in B. destruct (ref_ok _ c _ Hc Kc) as (d' & El & P' & w & Hw & Ew). rewrite El in B. cbn [bind] in B.
        assert (d' = d) as ->. { apply (points_to_find t _ _ _ Gt) in P as (c1 & Hc1 & _ & F1). apply (points_to_find t _ _ _ Gt) in P' as (c2 & Hc2 & _ & F2). congruence. }
        rewrite Hw, K1 in B. destruct (t_kind w) eqn:Kw; try discriminate Ew. destruct rk; try congruence; (destruct (has_range w) eqn:X; [discriminate|]);
        apply not_true_iff_false in X; apply X; apply existsb_exists;
        destruct (cr_down _ _ C _ _ Hf) as (f' & Hf' & Kf' & _); rewrite Kf in Kf'; destruct (ksim_field_down _ _ _ _ Kf') as (ty1 & off1 & K2); rewrite (at_child _ _ _ _ Hw) in Hf';
        exists f'; (split; [exact (nth_error_In _ _ Hf')|now rewrite K2]).
    - intros (A & B & D). split.
      + intros l Hl. apply iterate_spec in Hl as (f & Hf & Kf). destruct (not_root l f Hf ltac:(now destruct (t_kind f))) as (p & i & w & -> & Hw & Hi). unfold check_range. rewrite Hf. unfold parent_loc. rewrite removelast_last, Hw.
        destruct f as [n [| | | |[name|] ty off| | | | | |] cs]; try reflexivity. destruct (up_kind _ _ Hf ltac:(discriminate)) as (f0 & Hf0 & Kf0 & _). destruct (ksim_field _ _ _ _ Kf0) as (ty0 & off0 & K0).
        destruct (existsb _ _) eqn:X.
        * exfalso. apply existsb_exists in X as (g & Hg & E). apply String.eqb_eq in E. apply children_like_in in Hg as (j & Hj & Kg). rewrite <- (at_child _ _ _ _ Hw) in Hj.
          destruct (t_kind g) as [| | | |rng ty' off'| | | | | |] eqn:Kgg; try discriminate Kg. destruct (up_kind _ _ Hj ltac:(rewrite Kgg; discriminate)) as (g0 & Hg0 & Kg0 & Ng0). rewrite Kgg in Kg0.
          destruct (ksim_field _ _ _ _ Kg0) as (ty1 & off1 & K1). apply (A p i j f0 g0 name rng ty0 off0 ty1 off1 Hf0 K0 Hg0 K1). rewrite <- Ng0; [exact E|]. unfold is_ref. now rewrite K1.
        * destruct (children_like _ is_invalid_ref) as [|c cc] eqn:Y; [reflexivity|exfalso].
          assert (I : In c (children_like (Node n (KField (Some name) ty off) cs) is_invalid_ref)) by (rewrite Y; now left). apply children_like_in in I as (j & Hj & Kc). rewrite <- (at_child _ _ _ _ Hf) in Hj.
          assert (Kc' : t_kind c = KRef RInvalidValue) by (destruct (t_kind c) as [| | | | | | | | | |[]]; try discriminate Kc; reflexivity).
          destruct (ref_ok _ c _ Hj Kc') as (d & _ & P & _). apply (B _ f0 name ty0 off0 j d Hf0 K0). apply points_ref; [exact P|discriminate].
      + intros l Hl. apply iterate_spec in Hl as (c & Hc & Kc). assert (Kc' : t_kind c = KRef RStructure) by (destruct (t_kind c) as [| | | | | | | | | |[]]; try discriminate Kc; reflexivity).
        destruct (not_root l c Hc ltac:(rewrite Kc'; discriminate)) as (p & i & w & -> & Hw & Hi). unfold check_range_ref. rewrite Hc. unfold parent_loc. rewrite removelast_last, Hw.
        destruct (ref_ok _ c _ Hc Kc') as (d & El & P & s & Hs & Es). rewrite El. cbn [bind]. rewrite Hs. destruct (t_kind s) eqn:Ks; try discriminate Es.
        destruct (t_kind w) as [| | | | | | | |rk o m| |] eqn:Kw; try reflexivity. assert (X : rk <> KVector -> has_range s = false).
        { intros N. apply not_true_iff_false. intros X. apply existsb_exists in X as (f & Hf & Kf). apply In_nth_error in Hf as (j & Hj). rewrite <- (at_child _ _ _ _ Hs) in Hj.
          destruct (t_kind f) as [| | | |[name|] ty off| | | | | |] eqn:Kff; try discriminate Kf. destruct (up_kind _ _ Hj ltac:(rewrite Kff; discriminate)) as (f0 & Hf0 & Kf0 & _). rewrite Kff in Kf0. destruct (ksim_field _ _ _ _ Kf0) as (ty0 & off0 & K0).
          destruct (up_kind _ _ Hw ltac:(rewrite Kw; discriminate)) as (w0 & Hw0 & Kw0 & _). rewrite Kw in Kw0. destruct (ksim_resource _ _ _ _ Kw0) as (m0 & K1).
          apply (D p w0 rk o m0 i d j f0 name ty0 off0 Hw0 K1 N (points_ref _ _ _ P ltac:(discriminate)) Hf0 K0). }
        destruct rk; try reflexivity; rewrite X by discriminate; reflexivity.
  Qed.

  (** ** Explicit references *)
  Lemma check_explicits_iff : check_explicits t = Ok tt <->
    forall l i x j d, at_loc r (l ++ [i])%list = Some x -> t_kind x = KExplicit -> meant r (l ++ [i; j])%list RStructure d -> exists k, meant r (l ++ [k])%list RStructure d.
  Proof using G Sh C Gt Rt.
    assert (E : check_explicits t = Ok tt <-> (exists us, mapM (check_explicit t) (iterate t is_explicit) = Ok us)).
    { unfold check_explicits. destruct (mapM _ _) as [a|]; cbn; [split; eauto|split; [discriminate|intros (? & ?); discriminate]]. }
    rewrite E, mapM_unit. clear E. split.
    - intros A l i x j d Hx Kx M. destruct (cr_down _ _ C _ _ Hx) as (e & He & Ke & _). rewrite Kx in Ke. cbn in Ke. assert (Ke' : t_kind e = KExplicit) by (destruct (t_kind e); try discriminate Ke; reflexivity).
      specialize (A (l ++ [i])%list ltac:(apply iterate_spec; exists e; rewrite Ke'; auto)). unfold check_explicit in A. rewrite He in A. unfold parent_loc in A. rewrite removelast_last in A.
      destruct (parent_at _ _ _ _ He) as (p & Hp & _). rewrite Hp in A. apply bind_ok in A as (us & A & _). pose proof (proj1 (mapM_unit _ _) (ex_intro _ us A)) as B.
      pose proof (meant_points _ _ _ M) as (c & Hc & Kc & Pc). replace (l ++ [i; j])%list with ((l ++ [i]) ++ [j])%list in Hc by (rewrite <- app_assoc; reflexivity). rewrite (at_child _ _ _ _ He) in Hc.
      specialize (B c ltac:(apply children_like_in; exists j; split; [exact Hc|now rewrite Kc])). cbv beta in B. destruct (existsb _ _) eqn:X; [|discriminate]. apply existsb_exists in X as (y & Hy & Ey). apply String.eqb_eq in Ey.
      apply children_like_in in Hy as (k & Hk & Ky). exists k. rewrite <- (at_child _ _ _ _ Hp) in Hk. assert (Ky' : t_kind y = KRef RStructure) by (destruct (t_kind y) as [| | | | | | | | | |[]]; try discriminate Ky; reflexivity).
      apply points_ref; [|discriminate]. exists y. split; [exact Hk|]. split; [exact Ky'|]. congruence.
    - intros A l Hl. apply iterate_spec in Hl as (e & He & Ke). assert (Ke' : t_kind e = KExplicit) by (destruct (t_kind e); try discriminate Ke; reflexivity).
      destruct (not_root l e He ltac:(rewrite Ke'; discriminate)) as (p & i & w & -> & Hw & Hi). unfold check_explicit. rewrite He. unfold parent_loc. rewrite removelast_last, Hw.
      enough (X : exists us, mapM (fun r0 : tree => if existsb (fun x : tree => (target x =? target r0)%string) (children_like w is_structure_ref) then Ok tt else Err (InvalidStructInExplicitReference (t_name w))) (children_like e is_structure_ref) = Ok us) by (destruct X as (us & ->); reflexivity).
      apply mapM_unit. intros c Hc. apply children_like_in in Hc as (j & Hj & Kc). rewrite <- (at_child _ _ _ _ He) in Hj. assert (Kc' : t_kind c = KRef RStructure) by (destruct (t_kind c) as [| | | | | | | | | |[]]; try discriminate Kc; reflexivity).
      destruct (ref_ok _ c _ Hj Kc') as (d & _ & P & _). destruct (up_kind _ _ He ltac:(rewrite Ke'; discriminate)) as (e0 & He0 & Ke0 & _). assert (Ke1 : t_kind e0 = KExplicit) by (rewrite Ke' in Ke0; destruct (t_kind e0) as [| | |sz|rg [x|] o|b| | | | |]; cbn in Ke0; congruence).
      pose proof (points_ref _ _ _ P ltac:(discriminate)) as M. rewrite <- app_assoc in M. destruct (A p i e0 j d He0 Ke1 M) as (k & Mk). pose proof (meant_points _ _ _ Mk) as (y & Hy & Ky & Py).
      destruct P as (c' & Hc' & _ & Pc). rewrite Hj in Hc'. injection Hc' as <-. rewrite (proj2 (existsb_exists _ _)); [reflexivity|]. exists y. split.
      + apply children_like_in. exists k. split; [rewrite (at_child _ _ _ _ Hw) in Hy; exact Hy|now rewrite Ky].
      + apply String.eqb_eq. congruence.
  Qed.
End Carried.
