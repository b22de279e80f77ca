(** Giving fields the types of enumerations, sizes and limits, and the checks of constants: when they succeed. *)
From Coq Require Import List ZArith Bool String Ascii Lia.
From Verif Require Import PyBase PyText Spec GenSpec GenTypes GenTypesFacts GenTree GenTreeFacts GraphSpec GenTraversal GenTraversalFacts GenBuild GenBuildFacts GenPassFacts GenAstFacts
  GenAstSpec GenLayoutFacts GenMergeFacts GenResolveFacts GenShapeFacts GenLimitFacts GenFieldFacts GenTidy GenFinal GenAstThms Props_GenTree AcceptSpec AcceptCreate AcceptResolve AcceptIndex AcceptLocal AcceptConst AcceptCarry.
Import ListNotations.
Local Open Scope Z_scope.

(** Every field has a type *)
Definition typed (t : tree) : Prop := forall l v rng off, at_loc t l = Some v -> t_kind v <> KField rng None off.

Section Const.
  Variables r t : tree.
  Hypothesis (G : rooted r) (Sh : local (shape true) r) (C : carries r t) (Gt : rooted t) (Rt : all_resolved t) (Ty : typed t).
  Lemma const_parent l i u q : at_loc r (l ++ [i])%list = Some u -> t_kind u = KRef q -> q = RInvalidValue -> exists f rng ty off, at_loc r l = Some f /\ t_kind f = KField rng ty off.
  Proof using Sh.
    intros Hu K ->. destruct (parent_at _ _ _ _ Hu) as (p & Hp & Hi). destruct (Sh l p Hp) as (F & _). rewrite Forall_map, Forall_forall in F. specialize (F u (nth_error_In _ _ Hi)). rewrite K in F.
    exists p. destruct (t_kind p) as [| | | | | | | |[]| |]; cbn in F; try contradiction. eauto.
  Qed.
  Lemma check_consts_iff : check_const_refs t = Ok tt <->
    (forall l f rng ty off i q d v c cty, at_loc r l = Some f -> t_kind f = KField rng ty off -> q = RConstValue \/ q = RInvalidValue -> meant r (l ++ [i])%list q d ->
      at_loc r d = Some v -> t_kind v = KConstant cty c -> exists fty, ty = Some fty /\ ft_name fty = cty /\ representable (ft_width fty) (ft_signed fty) c)
    /\ (forall l i j d d', meant r (l ++ [i])%list RInvalidValue d -> meant r (l ++ [j])%list RInvalidValue d' -> i = j).
  Proof using G Sh C Gt Rt Ty.
    split.
    - intros A. pose proof (const_refs_ok t Gt A) as Q. split.
      + intros l f rng ty off i q d v c cty Hf Kf Hq M Hv Kv. destruct (cr_down _ _ C _ _ Hf) as (f' & Hf' & Kf' & _). rewrite Kf in Kf'.
        destruct (ksim_field_down _ _ _ _ Kf') as (ty1 & off1 & K1). destruct (Q l f' Hf' ltac:(now rewrite K1)) as (n & rng' & fty & off' & cs & Ef & X & _).
        destruct (X i q d) as ((n' & c' & cs' & Hd & Rep) & Nm); [destruct Hq; subst; reflexivity|exact (meant_points r t C _ _ _ M)|].
        destruct (cr_down _ _ C _ _ Hv) as (v' & Hv' & Kv' & _). rewrite Hd in Hv'. injection Hv' as <-. rewrite Kv in Kv'. cbn in Kv'. injection Kv' as E1 E2. subst cty c.
        subst f'. cbn in K1. injection K1 as -> <- ->. destruct ty as [fty0|]; cbn in Kf'.
        * destruct Kf' as (_ & [= ->]). exists fty0. auto.
        * destruct Kf' as (_ & [?|(y & [= ->] & My)]); [discriminate|contradiction].
      + intros l i j d d' M M'. pose proof M as (u & Hu & K & _). destruct (const_parent l i u _ Hu K eq_refl) as (f & rng & ty & off & Hf & Kf).
        destruct (cr_down _ _ C _ _ Hf) as (f' & Hf' & Kf' & _). rewrite Kf in Kf'. destruct (ksim_field_down _ _ _ _ Kf') as (ty1 & off1 & K1). destruct (Q l f' Hf' ltac:(now rewrite K1)) as (n & rng' & fty & off' & cs & Ef & _ & X).
        exact (X i j d d' (meant_points r t C _ _ _ M) (meant_points r t C _ _ _ M')).
    - intros (A & B).
      enough (X : exists us, mapM (check_const_refs_at t) (iterate t is_field) = Ok us) by (unfold check_const_refs; destruct X as (us & ->); reflexivity).
      apply mapM_unit. intros l Hl. apply iterate_spec in Hl as (f & Hf & Kf). destruct f as [n [| | | |rng [fty|] off| | | | | |] cs]; try discriminate Kf; [|destruct (Ty l _ rng off Hf eq_refl)].
      destruct (up_kind r t C _ _ Hf ltac:(discriminate)) as (f0 & Hf0 & Kf0 & _). cbn [t_kind] in Kf0. destruct (ksim_field _ _ _ _ Kf0) as (ty0 & off0 & K0).
      assert (Nar : t_kind f0 <> KArchive) by (rewrite K0; discriminate).
      unfold check_const_refs_at. rewrite Hf.
      assert (X : exists us, mapM (check_const_ref t fty) (children_like (Node n (KField rng (Some fty) off) cs) is_const_ref_kind) = Ok us).
      { apply mapM_unit. intros c Hc. apply children_like_in in Hc as (i & Hi & Kc). rewrite <- (at_child _ _ _ _ Hf) in Hi. destruct (t_kind c) as [| | | | | | | | | |q] eqn:Kcc; try discriminate Kc. cbn in Kc.
        destruct (up_child r t C l i f0 c Hf0 Nar Hi) as (c0 & Hc0 & Kc0 & _). rewrite Kcc in Kc0. apply ksim_to_ref in Kc0.
        destruct (ref_ok t Gt Rt _ c q Hi Kcc) as (d & El & P & w & Hw & Ew). assert (M : meant r (l ++ [i])%list q d) by (apply (cr_points _ _ C _ c0 q d Hc0); exact P).
        unfold check_const_ref. rewrite El. cbn [bind]. rewrite Hw. destruct w as [nw kw cw]. cbn [t_kind] in Ew.
        assert (exists cty cv, kw = KConstant cty cv) as (cty & cv & ->) by (destruct q; try discriminate Kc; destruct kw; try discriminate Ew; eauto).
        destruct (up_kind r t C _ _ Hw ltac:(discriminate)) as (w0 & Hw0 & Kw0 & _). assert (Kw1 : t_kind w0 = KConstant cty cv) by (cbn in Kw0; destruct (t_kind w0) as [| | |sz|rg [x|] o|b| | | | |]; cbn in Kw0; congruence).
        destruct (A l f0 rng ty0 off0 i q d w0 cv cty Hf0 K0 ltac:(destruct q; try discriminate Kc; auto) M Hw0 Kw1) as (fty0 & -> & Nf & Rep). rewrite K0 in Kf0. cbn in Kf0. destruct Kf0 as (_ & [= ->]).
        rewrite Nf, String.eqb_refl. cbn [negb].
        pose proof (good_here _ (good_at _ _ _ (proj1 Gt) Hw)) as (_ & _ & _ & b & m & Hb & Hm & _). rewrite Hb. cbn [bind]. rewrite Hm. cbn [bind].
        apply make_btype_ok in Hb as (sw & Hs & -> & _). pose proof (good_here _ (good_at _ _ _ (proj1 Gt) Hf)) as (_ & _ & _ & _ & Fok). cbn in Fok.
        rewrite Nf in Fok. destruct Fok as [Mk|(Sg & _)]; [destruct (basic_not_marked _ _ Hs Mk)|]. rewrite Sg in Rep.
        apply (bits_required_rep _ _ _ Hm) in Rep. destruct (m >? ft_width fty0) eqn:Gm; [rewrite Z.gtb_ltb in Gm; apply Z.ltb_lt in Gm; lia|]. reflexivity. }
      destruct X as (us & ->). cbn [bind]. destruct (zlen _ >? 1) eqn:Z1; [exfalso|reflexivity]. rewrite Z.gtb_ltb in Z1. apply Z.ltb_lt in Z1. unfold zlen, children_like in Z1. cbn [t_children] in Z1.
      assert (Two : exists i j a b, i <> j /\ nth_error cs i = Some a /\ nth_error cs j = Some b /\ is_invalid_ref (t_kind a) = true /\ is_invalid_ref (t_kind b) = true).
      { assert (L : (1 < List.length (filter (fun c => is_invalid_ref (t_kind c)) cs))%nat) by lia. clear -L. induction cs as [|c cs IH]; cbn in L; [lia|]. destruct (is_invalid_ref (t_kind c)) eqn:E.
        - cbn in L. destruct (filter (fun c => is_invalid_ref (t_kind c)) cs) as [|b bs] eqn:F; [cbn in L; lia|]. assert (I : In b (filter (fun c => is_invalid_ref (t_kind c)) cs)) by (rewrite F; now left).
          apply filter_In in I as (I & Eb). apply In_nth_error in I as (j & Hj). exists 0%nat, (S j), c, b. repeat split; auto.
        - destruct (IH L) as (i & j & a & b & N & X). exists (S i), (S j), a, b. split; [congruence|exact X]. }
      destruct Two as (i & j & a & b & Nij & Ha & Hb & Ka & Kb). apply Nij.
      assert (Y : forall i a, nth_error cs i = Some a -> is_invalid_ref (t_kind a) = true -> exists d, meant r (l ++ [i])%list RInvalidValue d).
      { intros i0 a0 H0 Ka0. assert (K1 : t_kind a0 = KRef RInvalidValue) by (destruct (t_kind a0) as [| | | | | | | | | |[]]; try discriminate Ka0; reflexivity).
        assert (Hl0 : at_loc t (l ++ [i0])%list = Some a0) by (rewrite (at_child _ _ _ _ Hf); exact H0). destruct (ref_ok t Gt Rt _ a0 _ Hl0 K1) as (d & _ & P & _). exists d. apply (points_ref r t C _ _ _ P). discriminate. }
      destruct (Y i a Ha Ka) as (d & M). destruct (Y j b Hb Kb) as (d' & M'). exact (B l i j d d' M M').
  Qed.
End Const.

(** ** Folds *)
Section Fold.
  Context {A B : Type}.
  Variables (f : A -> B -> res A) (I : A -> list B -> Prop) (Q : B -> Prop).
  Hypothesis (Hq : forall a x rest, I a (x :: rest) -> ((exists a', f a x = Ok a') <-> Q x)) (Hs : forall a x rest a', I a (x :: rest) -> f a x = Ok a' -> I a' rest).
  Lemma fold_steps ls : forall a, I a ls -> ((exists b, foldM f a ls = Ok b) <-> forall x, In x ls -> Q x) /\ forall b, foldM f a ls = Ok b -> I b [].
  Proof using Hq Hs.
    induction ls as [|x ls IH]; intros a Ia; cbn [foldM].
    - split; [split; [intros _ x []|eauto]|]. intros b [= <-]. exact Ia.
    - specialize (Hq a x ls Ia). destruct (f a x) as [a1|e] eqn:E; cbn [bind].
      + destruct (IH a1 (Hs a x ls a1 Ia E)) as (X & Y). split; [|exact Y]. rewrite X. split.
        * intros H y [<-|Hy]; [apply Hq; eauto|auto].
        * intros H y Hy. apply H. now right.
      + split; [|discriminate]. split; [intros (? & ?); discriminate|]. intros H. destruct (proj2 Hq (H x (or_introl eq_refl))) as (? & ?). discriminate.
  Qed.
End Fold.

(** ** Types of fields *)
Section Retype.
  Variable r : tree.
  Hypothesis (G : rooted r) (Sh : local (shape true) r) (En : local fk r).
  Definition width_valid (l : loc) : Prop :=
    forall i w d v b, meant r (l ++ [i])%list (REnum (Some w)) d -> at_loc r d = Some v -> t_kind v = KEnum b -> w = 0 \/ w = bt_width b.
  Record rt (a : tree) (rest : list loc) : Prop := {
    rt_rooted : rooted a; rt_res : all_resolved a; rt_car : carries r a; rt_nd : NoDup rest;
    rt_rest : forall l, In l rest -> exists u rng ty off, at_loc r l = Some u /\ t_kind u = KField rng ty off;
    rt_same : forall l u v, In l rest -> at_loc r l = Some u -> at_loc a l = Some v -> t_kind v = t_kind u;
    rt_open : forall l v rng off, at_loc a l = Some v -> t_kind v = KField rng None off -> In l rest }.

  Lemma enum_parent l i u w : at_loc r (l ++ [i])%list = Some u -> t_kind u = KRef (REnum w) -> exists f rng off, at_loc r l = Some f /\ t_kind f = KField rng None off.
  Proof using Sh En.
    intros Hu K. destruct (parent_at _ _ _ _ Hu) as (p & Hp & Hi). destruct (Sh l p Hp) as (F & _). rewrite Forall_map, Forall_forall in F. specialize (F u (nth_error_In _ _ Hi)). rewrite K in F.
    exists p. pose proof (En l p Hp) as X. destruct (t_kind p) as [| | | |rng [ty|] off| | | |[]| |]; cbn in F; try contradiction; [|eauto]. exfalso. cbn in X.
    assert (I : In (KRef (REnum w)) (filter is_enum_ref (map t_kind (t_children p)))) by (apply filter_In; split; [rewrite <- K; apply in_map; exact (nth_error_In _ _ Hi)|reflexivity]). rewrite X in I. destruct I.
  Qed.

  Lemma filter_map {X Y} (g : X -> Y) (p : Y -> bool) ls : filter p (map g ls) = map g (filter (fun x => p (g x)) ls).
  Proof using. induction ls as [|x ls IH]; cbn; [reflexivity|]. destruct (p (g x)); cbn; now rewrite IH. Qed.

  (** the only enumeration a field names *)
  Lemma the_enum a rest l rest' u rng off : rt a rest -> rest = l :: rest' -> at_loc r l = Some u -> t_kind u = KField rng None off ->
    exists n cs c i w d e b, at_loc a l = Some (Node n (KField rng None off) cs) /\ hd_error (filter (fun c => is_enum_ref (t_kind c)) cs) = Some c /\ at_loc a (l ++ [i])%list = Some c /\ t_kind c = KRef (REnum w)
      /\ ref_loc a c = Ok d /\ at_loc a d = Some e /\ t_kind e = KEnum b /\ make_btype (bt_name b) (Some (bt_width b)) = Ok b
      /\ meant r (l ++ [i])%list (REnum w) d /\ (exists e0, at_loc r d = Some e0 /\ t_kind e0 = KEnum b)
      /\ (forall j c' w', at_loc r (l ++ [j])%list = Some c' -> t_kind c' = KRef (REnum w') -> j = i).
  Proof using G Sh En.
    intros [Ga Ra Ca Nd Rs Sm Op] Er Hu Ku. assert (Il : In l rest) by (rewrite Er; now left).
    destruct (cr_down _ _ Ca l u Hu) as (v & Hv & _). pose proof (Sm l u v Il Hu Hv) as Kv. rewrite Ku in Kv. destruct v as [n k cs]. cbn in Kv. subst k.
    pose proof (En l u Hu) as F. rewrite Ku in F. cbn in F. destruct F as (w & F). rewrite filter_map in F.
    destruct (filter (fun x => is_enum_ref (t_kind x)) (t_children u)) as [|c0 [|? ?]] eqn:Fu; try discriminate F. injection F as Kc0.
    assert (Hin : In c0 (filter (fun x => is_enum_ref (t_kind x)) (t_children u))) by (rewrite Fu; now left). apply filter_In in Hin as (Hin & _). apply In_nth_error in Hin as (i & Hi).
    assert (Hc0 : at_loc r (l ++ [i])%list = Some c0) by (rewrite (at_child _ _ _ _ Hu); exact Hi).
    assert (Un : forall j c' w', at_loc r (l ++ [j])%list = Some c' -> t_kind c' = KRef (REnum w') -> j = i).
    { intros j c' w' Hj Kj. rewrite (at_child _ _ _ _ Hu) in Hj. apply (filter_le_one (fun x => is_enum_ref (t_kind x)) (t_children u)) with (x := c') (y := c0); [rewrite Fu; cbn; lia|exact Hj|exact Hi|now rewrite Kj|now rewrite Kc0]. }
    destruct (cr_down _ _ Ca _ c0 Hc0) as (c & Hc & Kc & _). rewrite Kc0 in Kc. apply ksim_ref in Kc.
    assert (Hcs : nth_error cs i = Some c) by (rewrite (at_child _ _ _ _ Hv) in Hc; exact Hc).
    assert (Fa : hd_error (filter (fun c => is_enum_ref (t_kind c)) cs) = Some c).
    { destruct (filter (fun c => is_enum_ref (t_kind c)) cs) as [|h tl] eqn:Fc.
      - assert (I : In c (filter (fun c => is_enum_ref (t_kind c)) cs)) by (apply filter_In; split; [exact (nth_error_In _ _ Hcs)|now rewrite Kc]). rewrite Fc in I. destruct I.
      - cbn. assert (I : In h (filter (fun c => is_enum_ref (t_kind c)) cs)) by (rewrite Fc; now left). apply filter_In in I as (I & Kh). apply In_nth_error in I as (j & Hj).
        assert (Hh : at_loc a (l ++ [j])%list = Some h) by (rewrite (at_child _ _ _ _ Hv); exact Hj). destruct (up_child r a Ca l j u h Hu ltac:(rewrite Ku; discriminate) Hh) as (h0 & Hh0 & Kh0 & _).
        destruct (t_kind h) as [| | | | | | | | | |[]] eqn:Khh; try discriminate Kh. apply ksim_to_ref in Kh0. pose proof (Un j h0 _ Hh0 Kh0) as ->. congruence. }
    destruct (ref_ok a Ga Ra _ c _ Hc Kc) as (d & El & P & e & He & Ee). destruct (t_kind e) as [| | | | |b| | | | |] eqn:Ke; try discriminate Ee.
    destruct (up_kind r a Ca d e He ltac:(rewrite Ke; discriminate)) as (e0 & He0 & Ke0 & _). assert (Ke1 : t_kind e0 = KEnum b) by (rewrite Ke in Ke0; destruct (t_kind e0) as [| | |sz|rg [x|] o|b'| | | | |]; cbn in Ke0; congruence).
    pose proof (En d e0 He0) as Fb. rewrite Ke1 in Fb. cbn in Fb.
    exists n, cs, c, i, w, d, e, b. repeat (split; [assumption|]). split; [|split; [eauto|exact Un]]. apply (points_ref r a Ca _ _ _ P). discriminate.
  Qed.

  Lemma update_iff a l rest : rt a (l :: rest) -> ((exists a', update_field a l = Ok a') <-> width_valid l).
  Proof using G Sh En.
    intros I. destruct (rt_rest _ _ I l (or_introl eq_refl)) as (u & rng & ty & off & Hu & Ku). destruct ty as [ty|].
    - split.
      + intros _ i w d v b (c & Hc & Kc & _). destruct (enum_parent l i c _ Hc Kc) as (f & ? & ? & Hf & Kf). congruence.
      + intros _. destruct (cr_down _ _ (rt_car _ _ I) l u Hu) as (v & Hv & _). pose proof (rt_same _ _ I l u v (or_introl eq_refl) Hu Hv) as Kv. unfold update_field. rewrite Hv. destruct v as [n k cs]. cbn in Kv.
        rewrite Ku in Kv. subst k. eauto.
    - destruct (the_enum a (l :: rest) l rest u rng off I eq_refl Hu Ku) as (n & cs & c & i & w & d & e & b & Hv & Fh & Hc & Kc & El & He & Ke & Mb & M & (e0 & He0 & Ke0) & Un).
      unfold update_field. rewrite Hv. destruct (filter _ cs) as [|c' cc]; [discriminate|]. injection Fh as ->. rewrite El. cbn [bind]. rewrite He, Kc. destruct e as [ne ke ce]. cbn in Ke. subst ke. rewrite Mb. cbn [bind].
      split.
      + intros (a' & H) j w' d' v b' M' Hv' Kv'. pose proof M' as (c1 & Hc1 & Kc1 & _). pose proof (Un j c1 _ Hc1 Kc1) as ->. destruct (meant_same r G Sh _ _ _ _ _ M M') as (Ew & Ed). injection Ew as ->. subst d'. rewrite He0 in Hv'. injection Hv' as <-. rewrite Ke0 in Kv'. injection Kv' as <-.
        destruct (negb (w' =? 0) && negb (w' =? bt_width b)) eqn:X; [discriminate|]. apply andb_false_iff in X as [X|X]; apply negb_false_iff, Z.eqb_eq in X; auto.
      + intros V. destruct w as [w|]; [|eauto]. destruct (V i w d e0 b M He0 Ke0) as [->| ->]; cbn; [eauto|]. rewrite Z.eqb_refl. cbn. rewrite andb_false_r. eauto.
  Qed.
  Lemma update_keeps a l rest a' : rt a (l :: rest) -> update_field a l = Ok a' -> rt a' rest.
  Proof using G Sh En.
    intros I H. destruct (rt_rest _ _ I l (or_introl eq_refl)) as (u & rng & ty & off & Hu & Ku). pose proof I as [Ga Ra Ca Nd Rs Sm Op]. inversion Nd as [|? ? Nl Nd']; subst.
    destruct (cr_down _ _ Ca l u Hu) as (v0 & Hv0 & _). pose proof (Sm l u v0 (or_introl eq_refl) Hu Hv0) as Kv0. rewrite Ku in Kv0. destruct ty as [ty|].
    - assert (a' = a). { unfold update_field in H. rewrite Hv0 in H. destruct v0 as [n k cs]. cbn in Kv0. subst k. now injection H as <-. } subst a'.
      constructor; auto; [intros; apply Rs; now right|intros l' u' v' Hl'; apply Sm; now right|]. intros l' v rng' off' Hv Kv. destruct (Op l' v rng' off' Hv Kv) as [<-|X]; [|exact X]. congruence.
    - destruct (update_field_good a l a' H Ga) as (G' & S'). destruct (the_enum a (l :: rest) l rest u rng off I eq_refl Hu Ku) as (n & cs & c & i & w & d & e & b & Hv & Fh & Hc & Kc & El & He & Ke & Mb & M & _).
      unfold update_field in H. rewrite Hv in H. destruct (filter _ cs) as [|c' cc]; [discriminate|]. injection Fh as ->. rewrite El in H. cbn [bind] in H. rewrite He, Kc in H. destruct e as [ne ke ce]. cbn in Ke. subst ke. rewrite Mb in H. cbn [bind] in H.
      set (k' := KField rng (Some (FT (t_name c) (bt_width b) (bt_signed b))) off) in *.
      assert (Ea : a' = modify a l (set_kind k')) by (destruct w as [w|]; [destruct (negb (w =? 0) && negb (w =? bt_width b)); [discriminate|]|]; now injection H as <-). clear H. subst a'.
      assert (W : forall l' v', at_loc (modify a l (set_kind k')) l' = Some v' -> exists v, at_loc a l' = Some v /\ (l' = l /\ t_kind v' = k' \/ t_kind v' = t_kind v)).
      { intros l' v' Hv'. destruct (set_kind_at a l _ k' l' v' Hv Hv') as (x & Hx & _ & X). eauto. }
      assert (Mk : marked (t_name c)) by (destruct (ref_marked _ _ _ _ Ga Hc Kc) as (s & E); exists s; exact E).
      assert (Hl' : at_loc (modify a l (set_kind k')) l = Some (set_kind k' (Node n (KField rng None off) cs))) by exact (modify_at _ _ _ _ Hv).
      constructor; auto.
      + exact (same_resolved a _ Ga G' S' Ra).
      + apply (carries_same r a _ Ca Ga G' S'). intros l' x y Hx Hy. destruct (W l' y Hy) as (x' & Hx' & [(-> & Ky)|Ky]); rewrite Hx in Hx'; injection Hx' as <-; rewrite Ky; [|apply ksim_refl].
        rewrite Hv in Hx. injection Hx as <-. cbn. split; [reflexivity|]. right. eexists. split; [reflexivity|exact Mk].
      + intros l' Hl0. apply Rs. now right.
      + intros l' x y Hin Hx Hy. destruct (W l' y Hy) as (x' & Hx' & [(-> & Ky)|Ky]); [contradiction|]. rewrite Ky. exact (Sm l' x x' (or_intror Hin) Hx Hx').
      + intros l' y rng' off' Hy Ky. destruct (W l' y Hy) as (x' & Hx' & [(-> & Ky')|Ky']); [rewrite Ky' in Ky; discriminate|]. rewrite Ky' in Ky. destruct (Op l' x' rng' off' Hx' Ky) as [<-|X]; [|exact X].
        exfalso. rewrite Hy in Hl'. injection Hl' as ->. unfold set_kind in Ky'. cbn in Ky'. rewrite <- Ky' in Ky. discriminate.
  Qed.
End Retype.

Theorem types_iff r r4 : rooted r -> local (shape true) r -> local fk r -> carries r r4 -> rooted r4 -> all_resolved r4 ->
  (forall l u v, at_loc r l = Some u -> at_loc r4 l = Some v -> t_kind v = t_kind u) ->
  ((exists r5, update_field_types r4 = Ok r5) <-> forall l w d v b, meant r l (REnum (Some w)) d -> at_loc r d = Some v -> t_kind v = KEnum b -> w = 0 \/ w = bt_width b)
  /\ forall r5, update_field_types r4 = Ok r5 -> carries r r5 /\ rooted r5 /\ all_resolved r5 /\ typed r5.
Proof.
  intros G Sh En C4 G4 R4 Ex. unfold update_field_types.
  assert (I0 : rt r r4 (iterate r4 is_field)).
  { constructor; [exact G4|exact R4|exact C4|apply iterate_nodup| |intros l u v _; apply Ex|].
    - intros l Hl. apply iterate_spec in Hl as (v & Hv & Kv). destruct (t_kind v) as [| | | |rng ty off| | | | | |] eqn:K; try discriminate Kv. destruct (up_kind r r4 C4 l v Hv ltac:(rewrite K; discriminate)) as (u & Hu & Ku & _).
      rewrite K in Ku. destruct (ksim_field _ _ _ _ Ku) as (ty' & off' & E). exists u, rng, ty', off'. auto.
    - intros l v rng off Hv Kv. apply iterate_spec. exists v. rewrite Kv. auto. }
  destruct (fold_steps update_field (rt r) (width_valid r) (fun a x rest => update_iff r G Sh En a x rest) (fun a x rest a' => update_keeps r G Sh En a x rest a') (iterate r4 is_field) r4 I0) as (X & Y). split.
  - rewrite X. split.
    + intros H l w d v b M Hv Kv. pose proof M as (c & Hc & Kc & _). destruct (not_root r G l c Hc ltac:(rewrite Kc; discriminate)) as (p & i & pw & -> & _). destruct (enum_parent r Sh En p i c _ Hc Kc) as (f & rng & off & Hf & Kf).
      apply (H p) with (i := i) (d := d) (v := v); auto. apply iterate_spec. destruct (cr_down _ _ C4 p f Hf) as (f' & Hf' & _). exists f'. split; [exact Hf'|]. rewrite (Ex p f f' Hf Hf'), Kf. reflexivity.
    + intros H l Hl i w d v b. apply H.
  - intros r5 H5. destruct (Y r5 H5) as [G5 R5 C5 _ _ _ Op]. split; [exact C5|]. split; [exact G5|]. split; [exact R5|]. intros l v rng off Hv Kv. exact (Op l v rng off Hv Kv).
Qed.
