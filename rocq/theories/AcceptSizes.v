(** Sizes and limits: computing them fails only if an archive holds itself. *)
From Coq Require Import List ZArith Bool String Ascii Lia Relations.
From Verif Require Import PyBase PyText Spec GenSpec GenTypes GenTypesFacts GenTree GenTreeFacts GraphSpec GenTraversal GenTraversalFacts GenBuild GenBuildFacts GenPassFacts GenAstFacts
  GenAstSpec GenLayoutFacts GenMergeFacts GenResolveFacts GenShapeFacts GenLimitFacts GenFieldFacts GenTidy GenFinal GenAstThms Props_GenTree AcceptSpec AcceptCreate AcceptResolve AcceptIndex AcceptLocal AcceptConst AcceptCarry AcceptTypes.
Import ListNotations.
Local Open Scope Z_scope.

Lemma unsized_sim k k' : unsized k' = unsized k -> ksim k k'.
Proof.
  destruct k as [| | |sz|rg [ty|] o|b| | | | |], k' as [| | |sz'|rg' [ty'|] o'|b'| | | | |]; cbn; intros H; try discriminate H; auto; injection H; intros; subst; auto.
Qed.
Lemma keep_sim a b : keep unsized false a = keep unsized false b -> forall l u v, at_loc a l = Some u -> at_loc b l = Some v -> ksim (t_kind u) (t_kind v).
Proof. intros E l u v Hu Hv. destruct (keep_at unsized false a b l u E Hu) as (v' & Hv' & K & _). rewrite Hv in Hv'. injection Hv' as <-. now apply unsized_sim. Qed.
Lemma keep_typed a b : keep unsized false a = keep unsized false b -> typed a -> typed b.
Proof.
  intros E T l v rng off Hv K. destruct (keep_at unsized false b a l v (eq_sym E) Hv) as (u & Hu & Ku & _). rewrite K in Ku. cbn in Ku. destruct (t_kind u) eqn:Kk; try discriminate Ku. injection Ku as -> ->. exact (T l u _ _ Hu Kk).
Qed.

Lemma layout_total cs : (forall c rng off, In c cs -> t_kind c <> KField rng None off) -> forall o, exists p, layout o cs = Ok p.
Proof.
  induction cs as [|c cs IH]; intros H o; cbn; [eauto|]. assert (H' : forall c rng off, In c cs -> t_kind c <> KField rng None off) by (intros; apply H; now right).
  pose proof (fun rng off => H c rng off (or_introl eq_refl)) as Hc.
  destruct (t_kind c) as [| | |sz|rg [ty|] o'|b| | | | |]; try (destruct (Hc rg o'); reflexivity);
    match goal with |- context [layout ?x cs] => destruct (IH H' x) as ([a z] & ->); cbn; eauto end.
Qed.
Lemma sizes_fold ls : forall t, typed t -> (forall l, In l ls -> exists u, at_loc t l = Some u) -> exists t', foldM size_structure t ls = Ok t'.
Proof.
  intros t. assert (X : forall ls x, typed x -> keep unsized false x = keep unsized false t -> (forall l, In l ls -> exists u, at_loc t l = Some u) -> exists t', foldM size_structure x ls = Ok t').
  { clear ls. induction ls as [|l ls IH]; intros x Tx Ex Hl; cbn; [eauto|]. destruct (Hl l (or_introl eq_refl)) as (u & Hu). destruct (keep_at unsized false t x l u (eq_sym Ex) Hu) as (v & Hv & _).
    assert (Q : exists x', size_structure x l = Ok x' /\ keep unsized false x' = keep unsized false x).
    { unfold size_structure. rewrite Hv. destruct v as [n k cs] eqn:Ev. destruct k; try (eexists; split; [reflexivity|reflexivity]).
      destruct (layout_total cs) with (o := 0) as ([cs' z] & E).
      - intros c rng off Hc. apply In_nth_error in Hc as (i & Hi). apply (Tx (l ++ [i])%list c rng off). rewrite (at_child _ _ _ _ Hv). exact Hi.
      - rewrite E. cbn. eexists. split; [reflexivity|]. apply (keep_modify unsized false _ l x _ Hv). cbn. now rewrite (layout_unsized _ _ _ _ E). }
    destruct Q as (x' & -> & Ek). cbn. apply IH; [exact (keep_typed x x' (eq_sym Ek) Tx)|congruence|]. intros l' Hl'. apply Hl. now right. }
  intros T H. exact (X ls t T eq_refl H).
Qed.

(** ** Cycles *)
Section Cycles.
  Variables r t : tree.
  Hypothesis (G : rooted r) (Sh : local (shape true) r) (C : carries r t) (Gt : rooted t) (Rt : all_resolved t).
  Hypothesis NS : forall p i u c, at_loc r p = Some u -> at_loc r (p ++ [i])%list = Some c -> t_kind c = KNamespace -> t_kind u = KRoot \/ t_kind u = KNamespace.

  Definition rank (k : kind) : nat :=
    match k with
    | KRoot => 7 | KNamespace => 6 | KArchive | KResource _ _ _ => 5 | KExplicit => 4 | KStructure _ => 3 | KField _ _ _ => 2 | KEnum _ => 1 | KConstant _ _ | KEnumValue _ _ | KRef _ => 0
    end.
  (** an edge of the dependency graph *)
  Lemma edge_r x y u : at_loc r x = Some u -> is_ref u = false -> GraphSpec.edge (kids t) x y -> exists w, at_loc r y = Some w /\ is_ref w = false
    /\ ((exists i, y = (x ++ [i])%list)
        \/ (exists i q c, at_loc r (x ++ [i])%list = Some c /\ t_kind c = KRef q /\ meant r (x ++ [i])%list q y /\ expected_kind q (t_kind w) = true /\ is_type_ref q = true)
        \/ (t_kind u = KArchive /\ exists a b, t_kind w = KConstant a b)).
  Proof using G C Gt Rt.
    intros Hu Ru (cs & Hk & Hy). destruct (cr_down _ _ C x u Hu) as (v & Hv & Kv & _). unfold kids in Hk. rewrite Hv in Hk. apply bind_ok in Hk as (ys & Hm & Hk). injection Hk as <-.
    apply in_app_or in Hy as [Hy|Hy].
    - apply in_map_iff in Hy as ([i c] & <- & Hy). apply filter_In in Hy as (Hy & Rc). cbn in Rc. apply enum_from_in in Hy as (j & -> & Hj). apply negb_true_iff in Rc. cbn [fst Nat.add].
      assert (Hc : at_loc t (x ++ [j])%list = Some c) by (rewrite (at_child _ _ _ _ Hv); exact Hj).
      destruct (up_kind r t C _ c Hc ltac:(intros E; unfold is_ref in Rc; now rewrite E in Rc)) as (c0 & Hc0 & Kc0 & _). exists c0. split; [exact Hc0|].
      split; [|left; now exists j]. change (is_ref_kind (t_kind c0) = false). rewrite <- (ksim_is_ref _ _ Kc0). exact Rc.
    - destruct (mapM_in _ _ _ _ Hm Hy) as (c & Hc & E). apply filter_In in Hc as (Hc & K). apply In_nth_error in Hc as (i & Hi). destruct (t_kind c) as [| | | | | | | | | |q] eqn:Kc; try discriminate K.
      assert (Hci : at_loc t (x ++ [i])%list = Some c) by (rewrite (at_child _ _ _ _ Hv); exact Hi). destruct (ref_ok t Gt Rt _ c q Hci Kc) as (d & El & P & w & Hw & Ew). rewrite E in El. injection El as ->.
      destruct (up_kind r t C _ w Hw) as (w0 & Hw0 & Kw0 & _); [intros X; rewrite X in Ew; destruct q; discriminate|]. exists w0. split; [exact Hw0|].
      assert (Ew0 : expected_kind q (t_kind w0) = true) by (rewrite <- expected_erase, <- (ksim_same _ _ Kw0), expected_erase; exact Ew).
      split; [unfold is_ref; destruct (t_kind w0); try reflexivity; destruct q; discriminate|]. right.
      destruct (cr_up _ _ C _ c Hci) as [(c0 & Hc0)|(p & j & a & El & Ha & Ka & Kc')].
      + left. exists i, q, c0. destruct (cr_down _ _ C _ c0 Hc0) as (c' & Hc' & Kc0 & _). rewrite Hci in Hc'. injection Hc' as <-. rewrite Kc in Kc0. apply ksim_to_ref in Kc0.
        split; [exact Hc0|]. split; [exact Kc0|]. split; [apply (cr_points _ _ C _ c0 q d Hc0); exact P|]. auto.
      + right. apply app_inj_tail in El as (<- & _). split; [congruence|]. rewrite Kc in Kc'. injection Kc' as ->. destruct (t_kind w0); try discriminate Ew0. eauto.
  Qed.

  Definition arch (x : loc) : loc := match at_loc r x with Some u => match t_kind u with KArchive => x | _ => parent_loc x end | None => x end.
  Definition archive_at (x : loc) : Prop := exists u, at_loc r x = Some u /\ t_kind u = KArchive.
  Definition resource_at (x : loc) : Prop := exists u rk o m, at_loc r x = Some u /\ t_kind u = KResource rk o m.
  Definition level (x y : loc) : Prop :=
    (List.length x < List.length y)%nat /\ (exists u, at_loc r x = Some u /\ t_kind u = KNamespace) /\ (exists u, at_loc r y = Some u /\ t_kind u = KNamespace)
    \/ archive_at x /\ resource_at y /\ arch y = x
    \/ clos_trans _ (holds r) (arch x) (arch y) /\ (archive_at x \/ resource_at x) /\ (archive_at y \/ resource_at y).
  Definition drops (x y : loc) : Prop := exists u w, at_loc r x = Some u /\ at_loc r y = Some w /\ is_ref u = false /\ is_ref w = false /\ ((rank (t_kind w) < rank (t_kind u))%nat \/ rank (t_kind w) = rank (t_kind u) /\ level x y).

  Lemma edge_drops x y u : at_loc r x = Some u -> is_ref u = false -> GraphSpec.edge (kids t) x y -> drops x y.
  Proof using G Sh C Gt Rt NS.
    intros Hu Ru E. destruct (edge_r x y u Hu Ru E) as (w & Hw & Rw & [(i & ->)|[(i & q & c & Hc & Kc & M & Ew & Tq)|(Ku & a & b & Kw)]]); exists u, w; repeat (split; [assumption|]).
    - destruct (Sh x u Hu) as (F & _). rewrite Forall_map, Forall_forall in F. pose proof Hw as Hi. rewrite (at_child _ _ _ _ Hu) in Hi. specialize (F w (nth_error_In _ _ Hi)).
      pose proof (NS x i u w Hu Hw) as N. unfold is_ref in Ru, Rw. destruct (t_kind w) eqn:Kw; try discriminate Rw.
      2:{ destruct (N eq_refl) as [K|K]; rewrite K; cbn; [left; lia|right]. split; [reflexivity|]. left. split; [rewrite app_length; cbn; lia|]. eauto 6. }
      all: destruct (t_kind u) as [| | | | | | | |[]| |] eqn:Ku; cbn in F; try contradiction; try (cbn; left; lia).
      right. split; [reflexivity|]. right. left. split; [exists u; auto|]. split; [exists w; eauto 6|]. unfold arch. rewrite Hw, Kw. apply removelast_last.
    - destruct (Sh x u Hu) as (F & _). rewrite Forall_map, Forall_forall in F. pose proof Hc as Hi. rewrite (at_child _ _ _ _ Hu) in Hi. specialize (F c (nth_error_In _ _ Hi)). rewrite Kc in F.
      unfold is_ref in Ru, Rw. destruct (t_kind u) as [| | | | | | | |rk o m| |] eqn:Ku; destruct q; cbn in F; try contradiction; try discriminate Tq; try (destruct rk; contradiction);
        destruct (t_kind w) eqn:Kw; try discriminate Ew; cbn; try (left; lia).
      right. split; [reflexivity|]. right. right. assert (Rx : resource_at x) by (exists u; eauto). assert (Ay : archive_at y) by (exists w; auto). split; [|auto].
      apply t_step. destruct (not_root r G x u Hu ltac:(rewrite Ku; discriminate)) as (p & i0 & pw & -> & _). unfold arch. rewrite Hu, Ku, Hw, Kw. unfold parent_loc. rewrite removelast_last.
      exists i0, i. rewrite <- app_assoc in M. exact M.
    - rewrite Ku, Kw. cbn. left. lia.
  Qed.
  Lemma not_both x : archive_at x -> resource_at x -> False.
  Proof using. intros (u & Hu & K) (v & ? & ? & ? & Hv & K'). congruence. Qed.
  Lemma drops_trans x y z : drops x y -> drops y z -> drops x z.
  Proof using NS.
    intros (u & v & Hu & Hv & Ru & Rv & A) (v' & w & Hv' & Hw & _ & Rw & B). rewrite Hv in Hv'. injection Hv' as <-. exists u, w. repeat (split; [assumption|]).
    destruct A as [A|(A & LA)]; [left; destruct B as [B|(B & _)]; lia|]. destruct B as [B|(B & LB)]; [left; lia|]. right. split; [lia|].
    destruct LA as [(La & N1 & N2)|[(A1 & R2 & E2)|(T1 & K1 & K2)]], LB as [(Lb & N3 & N4)|[(A3 & R4 & E4)|(T3 & K3 & K4)]].
    - left. split; [lia|auto].
    - destruct N2 as (n & Hn & Kn), A3 as (n' & Hn' & Kn'). congruence.
    - destruct N2 as (n & Hn & Kn), K3 as [(n' & Hn' & Kn')|(n' & ? & ? & ? & Hn' & Kn')]; congruence.
    - destruct N3 as (n & Hn & Kn), R2 as (n' & ? & ? & ? & Hn' & Kn'). congruence.
    - destruct (not_both y A3 R2).
    - right. right. split; [|auto]. rewrite E2 in T3. assert (Ex : arch x = x) by (destruct A1 as (n & Hn & Kn); unfold arch; now rewrite Hn, Kn). now rewrite Ex.
    - destruct N3 as (n & Hn & Kn), K2 as [(n' & Hn' & Kn')|(n' & ? & ? & ? & Hn' & Kn')]; congruence.
    - right. right. split; [|auto]. assert (Ey : arch y = y) by (destruct A3 as (n & Hn & Kn); unfold arch; now rewrite Hn, Kn). rewrite E4. now rewrite Ey in T1.
    - right. right. split; [|auto]. exact (t_trans _ _ _ _ _ T1 T3).
  Qed.
  Lemma walk_drops d x z : walk (kids t) d x z -> forall u, at_loc r x = Some u -> is_ref u = false -> x = z /\ d = O \/ drops x z.
  Proof using G Sh C Gt Rt NS.
    induction 1 as [x|d x y z W IH E]; intros u Hu Ru; [now left|]. right. destruct (IH u Hu Ru) as [(<- & _)|D]; [exact (edge_drops x z u Hu Ru E)|].
    destruct D as (u' & v & A & Hv & B & Rv & D). apply (drops_trans x y z); [exists u', v; auto|]. exact (edge_drops y z v Hv Rv E).
  Qed.
  Lemma walk_pos d x z : walk (kids t) (S d) x z -> forall u, at_loc r x = Some u -> is_ref u = false -> drops x z.
  Proof using G Sh C Gt Rt NS. intros W u Hu Ru. destruct (walk_drops _ _ _ W u Hu Ru) as [(_ & ?)|D]; [discriminate|exact D]. Qed.

  Lemma cycles_iff : (exists x, reachable (kids t) [] x /\ on_cycle (kids t) x) <-> exists a, clos_trans _ (holds r) a a.
  Proof using G Sh C Gt Rt NS.
    split.
    - intros (x & Rx & (d & W)). assert (X : exists u, at_loc r x = Some u /\ is_ref u = false).
      { destruct Rx as (n & Wn). destruct (walk_drops n [] x Wn r eq_refl) as [(<- & _)|(? & w & _ & Hw & _ & Rw & _)]; [unfold is_ref; destruct G as (_ & _ & ->); reflexivity| |eauto].
        exists r. split; [reflexivity|]. unfold is_ref. destruct G as (_ & _ & ->). reflexivity. }
      destruct X as (u & Hu & Ru). destruct (walk_pos d x x W u Hu Ru) as (u' & w & A & B & _ & _ & D). rewrite Hu in A, B. injection A as <-. injection B as <-. destruct D as [D|(_ & [(L & _)|[(A & R & _)|(T & _)]])]; [lia|lia|destruct (not_both x A R)|eauto].
    - intros (a & T). assert (X : forall a b, clos_trans _ (holds r) a b -> (exists d, walk (kids t) (S d) a b) /\ exists u, at_loc t a = Some u /\ is_ref u = false).
      { clear a T. intros a b T. induction T as [a b (i & j & M)|a b c _ (W1 & U1) _ (W2 & U2)].
        - pose proof (meant_points r t C _ _ _ M) as P. pose proof P as (c & Hc & Kc & _). replace (a ++ [i; j])%list with ((a ++ [i]) ++ [j])%list in Hc by (rewrite <- app_assoc; reflexivity).
          destruct (parent_at _ _ _ _ Hc) as (res & Hres & Hj). destruct (parent_at _ _ _ _ Hres) as (u & Hu & Hi).
          assert (Rr : is_ref res = false) by (eapply not_ref_of_child; [exact (good_at _ _ _ (proj1 Gt) Hres)|exact Hj]).
          assert (Ra : is_ref u = false) by (eapply not_ref_of_child; [exact (good_at _ _ _ (proj1 Gt) Hu)|exact Hi]). split; [|eauto]. exists 1%nat.
          econstructor; [econstructor; [constructor|exact (kids_child t a u i res Rt Hu Hi Rr)]|].
          destruct (kids_total t _ res Rt Hres) as (ks & Hk). exists ks. split; [exact Hk|]. unfold kids in Hk. rewrite Hres in Hk. apply bind_ok in Hk as (ys & Hm & Hk). injection Hk as <-. apply in_or_app. right.
          apply mapM_ok in Hm. assert (Ic : In c (filter (fun c => match t_kind c with KRef r => is_type_ref r | _ => false end) (t_children res))) by (apply filter_In; split; [exact (nth_error_In _ _ Hj)|now rewrite Kc]).
          destruct (F2_in _ _ _ _ Hm Ic) as (d & Hd & E). apply (points_to_find t _ _ _ Gt) in P as (c' & Hc' & _ & F). rewrite <- app_assoc in Hc. cbn in Hc. rewrite Hc in Hc'. injection Hc' as <-. unfold ref_loc in E. rewrite F in E. injection E as ->. exact Hd.
        - split; [|exact U1]. destruct W1 as (d1 & W1), W2 as (d2 & W2). exists (d1 + S d2)%nat. exact (walk_trans (kids t) (S d1) (S d2) a b c W1 W2). }
      destruct (X a a T) as ((d & W) & u & Hu & Ru). exists a. split; [exact (tree_reach t a u (proj1 Gt) Rt Hu Ru)|]. exists d. exact W.
  Qed.

  Hypothesis Ty : typed t.
  Theorem sizes_iff : ((exists r6, compute_sizes t = Ok r6) <-> forall a, ~ clos_trans _ (holds r) a a)
    /\ forall r6, compute_sizes t = Ok r6 -> carries r r6 /\ rooted r6 /\ all_resolved r6 /\ typed r6.
  Proof using G Sh C Gt Rt NS Ty.
    split.
    - unfold compute_sizes. destruct (tree_order_spec t Rt) as [(order & E & _ & Ho & _ & Nc)|(E & Cy)]; rewrite E; cbn [bind].
      + split.
        * intros _ a T. destruct (proj2 cycles_iff (ex_intro _ a T)) as (x & Rx & Cx). exact (Nc x Rx Cx).
        * intros _. apply sizes_fold; [exact Ty|]. intros l Hl. apply (reach_node t l Rt). now apply Ho.
      + split; [intros (? & ?); discriminate|]. intros N. destruct (proj1 cycles_iff Cy) as (a & T). destruct (N a T).
    - intros r6 H. destruct (compute_sizes_good _ _ H Gt) as (G6 & S6). pose proof (sizes_keep _ _ H) as K6. split; [|split; [exact G6|split]].
      + apply (carries_same r t r6 C Gt G6 S6). exact (keep_sim t r6 (eq_sym K6)).
      + exact (same_resolved t r6 Gt G6 S6 Rt).
      + exact (keep_typed t r6 (eq_sym K6) Ty).
  Qed.
End Cycles.

(** ** Limits *)
Section Limits.
  Variable r : tree.
  Hypothesis (G : rooted r) (Sh : local (shape true) r).
  Lemma ref_kinds_sim l u t v : carries r t -> at_loc r l = Some u -> t_kind u <> KArchive -> at_loc t l = Some v -> ref_kinds (map t_kind (t_children v)) = ref_kinds (map t_kind (t_children u)).
  Proof using.
    intros C Hu Nu Hv. assert (X : forall i, option_map is_ref_kind (nth_error (map t_kind (t_children v)) i) = option_map is_ref_kind (nth_error (map t_kind (t_children u)) i)
      /\ forall q, nth_error (map t_kind (t_children v)) i = Some (KRef q) <-> nth_error (map t_kind (t_children u)) i = Some (KRef q)).
    { intros i. rewrite !nth_error_map. pose proof (at_child r l u i Hu) as Eu. pose proof (at_child t l v i Hv) as Ev.
      destruct (nth_error (t_children u) i) as [c|] eqn:Ec.
      - destruct (cr_down _ _ C _ c Eu) as (c' & Hc' & K & _). rewrite Ev in Hc'. rewrite Hc'. cbn. split; [f_equal; exact (ksim_is_ref _ _ K)|]. intros q. split; intros [= E]; f_equal; [rewrite E in K; exact (ksim_to_ref _ _ K)|rewrite E in K; now apply ksim_ref].
      - destruct (nth_error (t_children v) i) as [c'|] eqn:Ec'; [|split; [reflexivity|tauto]]. exfalso. destruct (up_child r t C l i u c' Hu Nu Ev) as (c0 & Hc0 & _). congruence. }
    generalize dependent (map t_kind (t_children v)). generalize (map t_kind (t_children u)). clear. intros a. induction a as [|k a IH]; intros b X.
    - destruct b as [|k b]; [reflexivity|]. specialize (proj1 (X O)). discriminate.
    - destruct b as [|k' b]; [specialize (proj1 (X O)); discriminate|]. assert (E := IH b (fun i => X (S i))). destruct (X O) as (X1 & X2). cbn in X1, X2. injection X1 as X1.
      unfold ref_kinds in *. cbn. rewrite E. f_equal. destruct k' eqn:Ek'; try (destruct k; try discriminate X1; reflexivity). pose proof (proj1 (X2 r) eq_refl) as Q. injection Q as ->. reflexivity.
  Qed.
  Lemma only_ref e p q : (forall k, p k = true -> is_ref_kind k = true) -> filter (fun x => p (KRef x)) (ref_kinds (map t_kind (t_children e))) = [q] ->
    exists i c, only (children_like e p) = Ok c /\ nth_error (t_children e) i = Some c /\ t_kind c = KRef q.
  Proof using.
    intros Hp E. assert (K : map t_kind (children_like e p) = map KRef (filter (fun r => p (KRef r)) (ref_kinds (map t_kind (t_children e))))).
    { clear E. unfold children_like. induction (t_children e) as [|c cs IH]; cbn; [reflexivity|]. destruct (t_kind c) eqn:Kc; cbn; try (destruct (p _) eqn:Q; [apply Hp in Q; discriminate|exact IH]).
      destruct (p (KRef r0)) eqn:Q; cbn; [rewrite Kc; f_equal|]; exact IH. }
    rewrite E in K. destruct (children_like e p) as [|c [|? ?]] eqn:Ec; try discriminate K. injection K as K. assert (I : In c (children_like e p)) by (rewrite Ec; now left). apply children_like_in in I as (i & Hi & _). exists i, c. auto.
  Qed.
  Definition lim (t : tree) (rest : list loc) : Prop :=
    rooted t /\ all_resolved t /\ carries r t /\ typed t /\ forall l, In l rest -> exists u, at_loc r l = Some u /\ t_kind u = KExplicit.
  Lemma limit_total t l rest : lim t (l :: rest) -> exists t', limit_one t l = Ok t'.
  Proof using G Sh.
    intros (Gt & Rt & C & Ty & Ex). destruct (Ex l (or_introl eq_refl)) as (u & Hu & Ku). destruct (cr_down _ _ C l u Hu) as (e & He & Ke & _).
    destruct (Sh l u Hu) as (_ & S). rewrite Ku in S. rewrite <- (ref_kinds_sim l u t e C Hu ltac:(rewrite Ku; discriminate) He) in S.
    unfold limit_one. rewrite He. unfold explicit_field, explicit_destination.
    destruct (only_ref e (fun k => match k with KRef RField => true | _ => false end) RField) as (i & f & -> & Hf & Kf); [intros k; destruct k; try discriminate; reflexivity|rewrite S; reflexivity|]. cbn [bind].
    destruct (only_ref e (fun k => match k with KRef RResource => true | _ => false end) RResource) as (j & d & -> & Hd & Kd); [intros k; destruct k; try discriminate; reflexivity|rewrite S; reflexivity|]. cbn [bind].
    rewrite <- (at_child _ _ _ _ He) in Hf. rewrite <- (at_child _ _ _ _ He) in Hd. destruct (ref_ok t Gt Rt _ f _ Hf Kf) as (fl & -> & _ & w & Hw & Ew). cbn [bind]. rewrite Hw.
    destruct w as [n k cs]. destruct k as [| | | |rng [ty|] off| | | | | |]; try discriminate Ew; [|destruct (Ty fl _ rng off Hw eq_refl)].
    destruct (ft_width ty =? 64); [eauto|]. destruct (ref_ok t Gt Rt _ d _ Hd Kd) as (dl & -> & _ & w & Hw' & Ew'). cbn [bind]. rewrite Hw'.
    destruct w as [n' k' cs']. destruct k'; try discriminate Ew'. eauto.
  Qed.
  Lemma limit_keep t l t' : limit_one t l = Ok t' -> keep unsized false t' = keep unsized false t.
  Proof using.
    intros Hx. unfold limit_one in Hx. destruct (at_loc t l) as [e|]; [|discriminate]. apply bind_ok in Hx as (f & _ & Hx). apply bind_ok in Hx as (fl & _ & Hx).
    destruct (at_loc t fl) as [[n [| | | |rg [ty|] o| | | | | |] cs]|]; try discriminate. destruct (ft_width ty =? 64); [now injection Hx as <-|].
    apply bind_ok in Hx as (d & _ & Hx). apply bind_ok in Hx as (dl & _ & Hx). destruct (at_loc t dl) as [[n' [| | | | | | | |rk op mx| |] cs']|] eqn:Hd; try discriminate.
    injection Hx as <-. apply (keep_modify _ false _ dl t _ Hd). reflexivity.
  Qed.
  Lemma limit_next t l rest t' : lim t (l :: rest) -> limit_one t l = Ok t' -> lim t' rest.
  Proof using.
    intros (Gt & Rt & C & Ty & Ex) H. destruct (limit_one_good _ _ _ H Gt) as (G' & S'). pose proof (limit_keep _ _ _ H) as K. split; [exact G'|]. split; [exact (same_resolved t t' Gt G' S' Rt)|]. split; [|split].
    - apply (carries_same r t t' C Gt G' S'). exact (keep_sim t t' (eq_sym K)).
    - exact (keep_typed t t' (eq_sym K) Ty).
    - intros l' Hl'. apply Ex. now right.
  Qed.
  Theorem limits_total t : rooted t -> all_resolved t -> carries r t -> typed t -> exists t', compute_max_sizes t = Ok t' /\ carries r t' /\ rooted t' /\ all_resolved t' /\ typed t'.
  Proof using G Sh.
    intros Gt Rt C Ty. assert (I0 : lim t (iterate t is_explicit)).
    { split; [exact Gt|]. split; [exact Rt|]. split; [exact C|]. split; [exact Ty|]. intros l Hl. apply iterate_spec in Hl as (v & Hv & Kv). assert (Kv' : t_kind v = KExplicit) by (destruct (t_kind v); try discriminate Kv; reflexivity).
      destruct (up_kind r t C l v Hv ltac:(rewrite Kv'; discriminate)) as (u & Hu & Ku & _). exists u. split; [exact Hu|]. rewrite Kv' in Ku. destruct (t_kind u) as [| | |sz|rg [x|] o|b| | | | |]; cbn in Ku; congruence. }
    destruct (fold_steps limit_one lim (fun _ => True) (fun a x rest I => conj (fun _ => Logic.I) (fun _ => limit_total a x rest I)) limit_next (iterate t is_explicit) t I0) as (X & Y).
    destruct (proj2 X (fun _ _ => Logic.I)) as (t' & H). exists t'. split; [exact H|]. destruct (Y t' H) as (A & B & D & E & _). auto.
  Qed.
End Limits.
