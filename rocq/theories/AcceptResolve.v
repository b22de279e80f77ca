(** Resolving references succeeds exactly when every name denotes something of the right kind and no place mentions anything twice. *)
From Coq Require Import List ZArith Bool String Ascii Lia.
From Verif Require Import PyBase PyText GenTypes GenTypesFacts GenTree GenTreeFacts GenTraversal GenBuild GenBuildFacts GenPassFacts GenAstFacts
  GenAstSpec GenResolveFacts GenShapeFacts GenTidy GenAstThms Props_GenTree AcceptSpec AcceptCreate.
Import ListNotations.
Local Open Scope string_scope.

Lemma ref_named root l x r : rooted root -> at_loc root l = Some x -> t_kind x = KRef r -> t_name x = referencify (target x).
Proof.
  intros G H K. destruct (ref_marked _ _ _ _ G H K) as (s & M). pose proof (node_dot root l x G H) as D. unfold target, dereferencify, referencify. rewrite M in *. cbn in D.
  f_equal. symmetry. apply replace_back; [exact D|discriminate].
Qed.
Lemma marked_ref root l x : rooted root -> at_loc root l = Some x -> marked (t_name x) -> exists r, t_kind x = KRef r.
Proof.
  intros G H M. destruct (is_ref x) eqn:R; [unfold is_ref in R; destruct (t_kind x); try discriminate; eauto|].
  exfalso. exact (clean_not_marked _ (name_clean _ (good_at _ _ _ (proj1 G) H) R) M).
Qed.
Lemma right_expected r k : right_kind r k -> expected_kind r k = true.
Proof. destruct r; cbn; intros H; repeat (destruct H as (? & H)); subst; reflexivity. Qed.
Lemma names_head root l ns : names_at root l = Some ns -> exists ks, ns = t_name root :: ks.
Proof. destruct root as [n k cs]. destruct l as [|i l]; cbn; [intros [= <-]; eauto|]. destruct (nth_error cs i); [|discriminate]. destruct (names_at t l); [|discriminate]. intros [= <-]. eauto. Qed.
Lemma path_qualified root d p : rooted root -> d <> [] -> path_at root d = Some p -> qualified p.
Proof.
  intros G Nd H. unfold path_at in H. destruct (names_at root d) as [ns|] eqn:E; [|discriminate]. injection H as <-.
  destruct G as (_ & N & _). destruct root as [n k cs]. cbn in N. subst n. destruct d as [|i d]; [congruence|]. cbn in E. destruct (nth_error cs i) as [c|]; [|discriminate].
  destruct (names_at c d) as [ms|] eqn:Em; [|discriminate]. injection E as <-. pose proof (names_nonempty _ _ _ Em) as Ne. destruct ms as [|m ms]; [congruence|]. cbn. eexists. reflexivity.
Qed.
Lemma skel_find_path a b d p : rooted a -> rooted b -> skel true a = skel true b -> clean p -> (path_at a d = Some p <-> path_at b d = Some p).
Proof.
  intros Ga Gb S C. split; intros H.
  - apply path_find in H; [|exact (good_wf _ (proj1 Ga))|now apply rooted_dot]. rewrite (find_skel true a b p Ga Gb (fun _ => C) S) in H. exact (proj1 (find_path _ _ _ H)).
  - apply path_find in H; [|exact (good_wf _ (proj1 Gb))|now apply rooted_dot]. rewrite <- (find_skel true a b p Ga Gb (fun _ => C) S) in H. exact (proj1 (find_path _ _ _ H)).
Qed.

Section Meant.
  Variable t : tree.
  Hypothesis (G : rooted t) (Sh : local (shape true) t).
  Lemma meant_resolves l u r d : at_loc t l = Some u -> t_kind u = KRef r -> (meant t l r d <-> resolves t l u d).
  Proof using G Sh.
    intros Hu K. destruct (ref_parent t l u r G Sh Hu K) as (p & i & v & El & Hp & Np).
    pose proof (proj1 (resolve_unqualified_spec t l (target u) p i v (good_wf _ (proj1 G)) (rooted_dot _ G) El Hp Np) d) as Q.
    unfold resolves. destruct (qualified_dec t l u r G Hu K) as [(E & X)|(E & X)]; rewrite E; split.
    - intros (u' & Hu' & _ & A & _). rewrite Hu in Hu'. injection Hu' as <-. apply path_find; [exact (good_wf _ (proj1 G))|now apply rooted_dot|auto].
    - intros F. exists u. split; [exact Hu|]. split; [exact K|]. split; [intros _; exact (proj1 (find_path _ _ _ F))|tauto].
    - intros (u' & Hu' & _ & _ & A). rewrite Hu in Hu'. injection Hu' as <-. apply Q. auto.
    - intros R. exists u. split; [exact Hu|]. split; [exact K|]. split; [tauto|]. intros _. now apply Q.
  Qed.
  Lemma meant_at l r d : meant t l r d -> exists u, at_loc t l = Some u /\ t_kind u = KRef r /\ resolves t l u d.
  Proof using G Sh. intros H. pose proof H as (u & Hu & K & _). exists u. split; [exact Hu|]. split; [exact K|]. now apply (meant_resolves l u r d Hu K). Qed.
  Lemma meant_same l r r' d d' : meant t l r d -> meant t l r' d' -> r = r' /\ d = d'.
  Proof using G Sh.
    intros H H'. destruct (meant_at _ _ _ H) as (u & Hu & K & R). destruct (meant_at _ _ _ H') as (u' & Hu' & K' & R'). rewrite Hu in Hu'. injection Hu' as <-.
    split; [congruence|]. unfold resolves in *. destruct (is_qualified u); congruence.
  Qed.
  Lemma resolves_path l u r d : at_loc t l = Some u -> t_kind u = KRef r -> resolves t l u d -> exists v p, at_loc t d = Some v /\ path_at t d = Some p /\ clean p.
  Proof using G.
    intros Hu K R. unfold resolves in R. destruct (is_qualified u).
    - destruct (find_path _ _ _ R) as (P & v & V). exists v, (target u). split; [exact V|]. split; [exact P|]. apply target_no_at.
    - destruct (resolve_unqualified_found t l (target u) d G (target_no_at u) R) as (v & p & V & _ & P & C). eauto.
  Qed.
End Meant.

(** ** Resolving succeeds *)
Record rinv (r a : tree) (todo : list loc) : Prop := {
  ri_rooted : rooted a; ri_skel : skel true a = skel true r;
  ri_todo : forall l u, In l todo -> at_loc r l = Some u -> is_ref u = true -> at_loc a l = Some u;
  ri_done : forall l u q, ~ In l todo -> at_loc r l = Some u -> t_kind u = KRef q ->
    exists t' d p, at_loc a l = Some t' /\ t_name t' = referencify p /\ path_at r d = Some p /\ clean p /\ meant r l q d }.

Lemma skel_kref a b l u q : skel true a = skel true b -> at_loc a l = Some u -> t_kind u = KRef q -> exists u', at_loc b l = Some u' /\ t_kind u' = KRef q.
Proof.
  intros S H K. destruct (skel_at true a b l u S H) as (u' & Hu' & E). exists u'. split; [exact Hu'|]. apply skel_kind_eq in E. rewrite K in E. now apply erase_kref.
Qed.

Section Success.
  Variable r : tree.
  Hypothesis (G : rooted r) (Sh : local (shape true) r).
  Hypothesis (NK : forall l u q, at_loc r l = Some u -> t_kind u = KRef q -> exists d v, meant r l q d /\ at_loc r d = Some v /\ right_kind q (t_kind v)).
  Hypothesis (ND : forall l i j q q' d, meant r (l ++ [i])%list q d -> meant r (l ++ [j])%list q' d -> i = j).

  Lemma resolve_step a l todo u q : rinv r a (l :: todo) -> NoDup (l :: todo) -> at_loc r l = Some u -> t_kind u = KRef q ->
    exists a', resolve_one a l = Ok a' /\ rinv r a' todo.
  Proof using G Sh NK ND.
    intros [Ga Sk To Do] Nd Hu K. inversion Nd as [|? ? Nl _]; subst.
    assert (R : is_ref u = true) by (unfold is_ref; now rewrite K).
    pose proof (To l u (or_introl eq_refl) Hu R) as Hua. destruct (NK l u q Hu K) as (d & v & M & Hv & RK).
    assert (Rs : resolves r l u d) by (apply (meant_resolves r G Sh l u q d Hu K); exact M).
    pose proof (resolves_skel r a l u d G Ga (eq_sym Sk) Rs) as Ra.
    destruct (resolves_path r G l u q d Hu K Rs) as (v0 & p & _ & Pr & Cp). pose proof (proj2 (skel_find_path a r d p Ga G Sk Cp) Pr) as Pa.
    destruct (skel_at true r a d v (eq_sym Sk) Hv) as (va & Hva & Ev). apply skel_kind_eq in Ev.
    assert (X : expected_kind q (t_kind va) = true) by (rewrite <- expected_erase, Ev, expected_erase; now apply right_expected).
    (* the result is as described whenever it is obtained by renaming this reference *)
    assert (Fin : forall a' w, resolve_one a l = Ok a' -> at_loc a' l = Some w -> t_name w = referencify p -> exists a', resolve_one a l = Ok a' /\ rinv r a' todo).
    { intros a' w H Hw Nw. exists a'. split; [exact H|]. destruct (resolve_one_good a l a' H Ga) as (G' & S' & _ & O). constructor.
      - exact G'.
      - congruence.
      - intros l' u' Hin Hu' R'. apply O; [intros ->; contradiction| |exact R']. apply To; [now right|exact Hu'|exact R'].
      - intros l' u' q' Nin Hu' K'. destruct (loc_eq_dec l' l) as [->|Nl'].
        + rewrite Hu in Hu'. injection Hu' as <-. rewrite K in K'. injection K' as <-. exists w, d, p. auto.
        + destruct (Do l' u' q') as (t' & d' & p' & A & B & C & D & E); [intros [->|Q]; congruence|exact Hu'|exact K'|].
          exists t', d', p'. split; [|auto]. apply O; [exact Nl'|exact A|]. destruct (skel_kref r a l' u' q' (eq_sym Sk) Hu' K') as (x & Hx & Kx). rewrite A in Hx. injection Hx as <-. unfold is_ref. now rewrite Kx. }
    destruct (resolve_one a l) as [a'|e] eqn:H.
    - destruct (resolve_one_where a l a' u q H Ga Hua K) as (t' & tl & Ht' & Kt' & Ft' & Rt). assert (tl = d) by (unfold resolves in *; destruct (is_qualified u); congruence). subst tl.
      destruct (resolve_one_good a l a' H Ga) as (G' & S' & _ & _).
      apply (Fin a' t' eq_refl Ht'). rewrite (ref_named a' l t' q G' Ht' Kt'). f_equal.
      pose proof (proj1 (find_path _ _ _ Ft')) as P'. apply (skel_find_path a' a d _ G' Ga S') in P'; [congruence|apply target_no_at].
    - exfalso. unfold resolve_one in H. rewrite Hua, K in H. unfold resolves in Ra. destruct (is_qualified u) eqn:Q.
      + rewrite Ra in H. cbn [bind] in H. unfold validate_target, ref_loc in H. rewrite Hua, Ra in H. cbn [bind] in H. rewrite Hva, X in H. discriminate.
      + rewrite Ra in H. cbn [bind] in H. rewrite Pa in H.
        assert (SN : exists a', set_name a l (referencify p) = Ok a').
        { unfold set_name. rewrite Hua. destruct (String.eqb_spec (t_name u) (referencify p)) as [E|E]; [eexists; reflexivity|].
          destruct l as [|x l0] eqn:El; [eexists; reflexivity|]. rewrite <- El in *. destruct (ref_parent a l u q Ga (shaped_skel true true r a (eq_sym Sk) Sh) Hua K) as (pl & i & pv & El' & Hp & Np).
          rewrite El' in *. unfold parent_loc. rewrite removelast_last, Hp. destruct (child_pos (t_children pv) (referencify p)) as [j|] eqn:Cj; [|eexists; reflexivity]. exfalso.
          apply child_pos_some in Cj as (c & Hc & Nc). assert (Hcl : at_loc a (pl ++ [j])%list = Some c) by (rewrite at_loc_app, Hp; cbn; now rewrite Hc).
          destruct (marked_ref a _ c Ga Hcl) as (q' & Kc); [rewrite Nc; eexists; reflexivity|].
          assert (Nj : j <> i). { intros ->. rewrite Hua in Hcl. injection Hcl as <-. congruence. }
          destruct (skel_kref a r _ c q' Sk Hcl Kc) as (c0 & Hc0 & Kc0).
          assert (Nd0 : d <> []). { intros ->. cbn in Hv. injection Hv as <-. rewrite (proj2 (proj2 G)) in RK. destruct q; cbn in RK; try discriminate RK; repeat (destruct RK as (? & RK)); discriminate. }
          apply Nj. apply (ND pl j i q' q d); [|exact M].
          destruct (in_dec loc_eq_dec (pl ++ [j])%list ((pl ++ [i])%list :: todo)) as [I|I].
          - pose proof (To _ c0 I Hc0 ltac:(unfold is_ref; now rewrite Kc0)) as Q0. rewrite Hcl in Q0. injection Q0 as <-.
            assert (Tc : target c = p) by (unfold target; rewrite Nc; now apply dereferencify_referencify).
            exists c. split; [exact Hc0|]. split; [exact Kc0|]. rewrite Tc. split; [intros _; exact Pr|]. intros NQ. exfalso. apply NQ. exact (path_qualified r d p G Nd0 Pr).
          - destruct (Do _ c0 q' I Hc0 Kc0) as (t' & d' & p' & A & B & C & D & E'). rewrite Hcl in A. injection A as <-. rewrite Nc in B. apply referencify_inj in B; [|exact Cp|exact D]. subst p'.
            assert (d' = d). { apply path_find in C; [|exact (good_wf _ (proj1 G))|now apply rooted_dot]. apply path_find in Pr; [|exact (good_wf _ (proj1 G))|now apply rooted_dot]. congruence. }
            now subst d'. }
        destruct SN as (a' & SN). rewrite SN in H. cbn [bind] in H. destruct (set_name_ref_at a l _ a' u q Hua K (proj1 Ga) SN) as (A & S' & _).
        assert (Nl0 : l <> []). { intros ->. cbn in Hua. injection Hua as <-. destruct Ga as (_ & _ & KR). congruence. }
        assert (G' : rooted a').
        { destruct (set_name_root _ _ _ _ SN Nl0) as (E1 & E2). split; [|split].
          - eapply (good_rename_ref a l (referencify p)); [exact (proj1 Ga)|exact Hua|exact K|apply referencify_ok|eexists; reflexivity|exact SN].
          - destruct Ga as (_ & GN & _). congruence.
          - destruct Ga as (_ & _ & GK). congruence. }
        unfold validate_target, ref_loc in H. rewrite A in H. cbn [target t_name] in H. unfold target in H. cbn [t_name] in H. rewrite (dereferencify_referencify p Cp) in H.
        assert (F : find a' p = Some d). { rewrite (find_skel true a' a p G' Ga (fun _ => Cp) S'). apply path_find; [exact (good_wf _ (proj1 Ga))|now apply rooted_dot|exact Pa]. }
        rewrite F in H. cbn [bind] in H. destruct (skel_at true a a' d va (eq_sym S') Hva) as (vb & Hvb & Eb). apply skel_kind_eq in Eb. rewrite Hvb in H.
        rewrite <- expected_erase, Eb, expected_erase, X in H. discriminate.
  Qed.

  Lemma resolve_steps ls : forall a, rinv r a ls -> NoDup ls -> (forall l, In l ls -> exists u q, at_loc r l = Some u /\ t_kind u = KRef q) -> exists a', foldM resolve_one a ls = Ok a'.
  Proof using G Sh NK ND.
    induction ls as [|l ls IH]; intros a I Nd Rf; [eexists; reflexivity|]. destruct (Rf l (or_introl eq_refl)) as (u & q & Hu & K).
    destruct (resolve_step a l ls u q I Nd Hu K) as (a' & H & I'). cbn [foldM]. rewrite H. cbn [bind]. inversion Nd; subst. apply IH; [exact I'|assumption|]. intros x Hx. apply Rf. now right.
  Qed.
  Theorem resolve_success : exists r3, resolve_references r = Ok r3.
  Proof using G Sh NK ND.
    unfold resolve_references. apply resolve_steps.
    - constructor; [exact G|reflexivity|auto|]. intros l u q Nin Hu K. exfalso. apply Nin. apply iterate_spec. exists u. split; [exact Hu|]. now rewrite K.
    - apply iterate_nodup.
    - intros l Hl. apply iterate_spec in Hl as (u & Hu & K). exists u. destruct (t_kind u) eqn:E; try discriminate. eauto.
  Qed.
End Success.

(** ** What the resolved tree says *)
Section Resolved.
  Variables r r3 : tree.
  Hypothesis (G : rooted r) (Sh : local (shape true) r) (H : resolve_references r = Ok r3).
  Lemma resolved_facts : rooted r3 /\ skel true r3 = skel true r /\ all_resolved r3.
  Proof using G H. exact (resolve_references_good r r3 H G). Qed.
  Lemma points_meant l q d : points_to r3 l q d <-> meant r l q d.
  Proof using G Sh H.
    destruct resolved_facts as (G3 & S3 & R3). split.
    - intros (t3 & Ht3 & K3 & P). destruct (skel_kref r3 r l t3 q S3 Ht3 K3) as (u & Hu & K).
      destruct (resolve_references_where r r3 l u q H G Hu K) as (t' & tl & Ht' & _ & F & Rs). rewrite Ht3 in Ht'. injection Ht' as <-.
      apply (meant_resolves r G Sh l u q d Hu K). apply path_find in P; [|exact (good_wf _ (proj1 G3))|now apply rooted_dot]. rewrite F in P. injection P as ->. exact Rs.
    - intros M. destruct (meant_at r G Sh l q d M) as (u & Hu & K & Rs). destruct (resolve_references_where r r3 l u q H G Hu K) as (t' & tl & Ht' & K' & F & Rs').
      assert (tl = d) by (unfold resolves in *; destruct (is_qualified u); congruence). subst tl. exists t'. split; [exact Ht'|]. split; [exact K'|]. exact (proj1 (find_path _ _ _ F)).
  Qed.
  Lemma resolved_kinds l u q : at_loc r l = Some u -> t_kind u = KRef q -> exists d v, meant r l q d /\ at_loc r d = Some v /\ right_kind q (t_kind v).
  Proof using G Sh H.
    intros Hu K. destruct resolved_facts as (G3 & S3 & R3). destruct (skel_kref r r3 l u q (eq_sym S3) Hu K) as (t3 & Ht3 & K3).
    destruct (R3 l t3 Ht3 ltac:(unfold is_ref; now rewrite K3)) as (q0 & t0 & d & v & A & B & F & V & X). rewrite Ht3 in A. injection A as <-. rewrite K3 in B. injection B as <-.
    destruct (skel_at true r3 r d v S3 V) as (w & Hw & E). apply skel_kind_eq in E. exists d, w. split; [|split; [exact Hw|]].
    - apply points_meant. exists t3. split; [exact Ht3|]. split; [exact K3|]. exact (proj1 (find_path _ _ _ F)).
    - apply expected_right. now rewrite <- expected_erase, E, expected_erase.
  Qed.
  Lemma resolved_distinct l i j q q' d : meant r (l ++ [i])%list q d -> meant r (l ++ [j])%list q' d -> i = j.
  Proof using G Sh H.
    intros M M'. destruct resolved_facts as (G3 & S3 & R3). apply points_meant in M as (t & Ht & K & P). apply points_meant in M' as (t' & Ht' & K' & P').
    pose proof (ref_named r3 _ t q G3 Ht K) as N. pose proof (ref_named r3 _ t' q' G3 Ht' K') as N'. destruct (parent_at _ _ _ _ Ht) as (v & Hv & Hi). destruct (parent_at _ _ _ _ Ht') as (v' & Hv' & Hj).
    rewrite Hv in Hv'. injection Hv' as <-. pose proof (good_here _ (good_at _ _ _ (proj1 G3) Hv)) as (Nd & _).
    assert (E : t_name t = t_name t') by congruence. apply (proj1 (NoDup_nth_error _) Nd).
    - rewrite map_length. apply nth_error_Some. congruence.
    - now rewrite !nth_error_map, Hi, Hj; cbn; rewrite E.
  Qed.
End Resolved.

Theorem resolve_iff r : rooted r -> local (shape true) r -> ((exists r3, resolve_references r = Ok r3) <->
  (forall l u q, at_loc r l = Some u -> t_kind u = KRef q -> exists d v, meant r l q d /\ at_loc r d = Some v /\ right_kind q (t_kind v))
  /\ (forall l i j q q' d, meant r (l ++ [i])%list q d -> meant r (l ++ [j])%list q' d -> i = j)).
Proof.
  intros G Sh. split.
  - intros (r3 & H). split; [exact (resolved_kinds r r3 G Sh H)|exact (resolved_distinct r r3 G Sh H)].
  - intros (A & B). exact (resolve_success r G Sh A B).
Qed.
