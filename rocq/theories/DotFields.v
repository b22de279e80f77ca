(** Facts behind C100: the field of an explicit reference belongs to the structure it names. *)
From Coq Require Import List ZArith Bool String Ascii Lia.
From Verif Require Import PyBase PyText GenSpec GenTypes GenTypesFacts GenTree GenTreeFacts GenTraversal GenBuild GenBuildFacts GenShapeFacts GenAstFacts GenAstSpec GenAstThms GenWords GenFlatdata GenOutFacts GenFinal GenRender GenMergeFacts
  GenPassFacts GenEvery GenFieldFacts GenTraversalFacts GenLayoutFacts GenModule SameSpec EmbedSpec GenAgree GenMentions GenSame GenClassNames GenResolveFacts Props_GenTree Props_Embed DeclSpec DeclFacts Props_Decl GenDot DotSpec DotFacts GenAstSpec.
Import ListNotations.
Local Open Scope string_scope.

(** What the grammar says about explicit references: they name a structure, and a field by a single word *)
Definition single_fields (s : pschema) : Prop :=
  forall p a r st f dest, In p s -> In a (pn_archives p) -> In r (pa_resources a) -> In (RExplicit st f dest) (pr_decs r) -> st <> "" /\ has_char "." f = false.

Section Fields.
  Variables (so : list Z -> list Z) (s : pschema) (root : tree).
  Hypothesis (Hso : any_order so) (I : identifiers s) (Sp : separated s) (NB : no_builtin s) (Si : single_fields s) (H : build_ast so s = Ok root).
  Let F : finished root := identifiers_finished so s root Hso I Sp NB H.
  Local Notation Bu := (f_built _ F).
  Let W := good_wf _ (proj1 (b_rooted _ Bu)).

  (** ** Where definitions come from *)
  Lemma archive_declared p a : at_loc root p = Some a -> t_kind a = KArchive -> exists q x, In q s /\ In x (pn_archives q) /\ DeclSpec.archive_is root p x.
  Proof.
    intros Ha Ka. pose proof (well_named_clean s (identifiers_named s I)) as C. destruct (final_placed so s root Hso C Sp H p a Ha ltac:(now rewrite Ka)) as (ks & N & q & Hq & [(n & -> & Hn)|(w & sz & _ & K)]); [|congruence].
    destruct (definition_parent root p a true (b_rooted _ Bu) (b_shape _ Bu) Ha ltac:(now rewrite Ka)) as (p' & i & v & -> & Hv & Kv & Hi).
    destruct (proj1 (names_at_some root p') (ex_intro _ v Hv)) as (ns & Nv). pose proof (names_snoc root p' i v a ns Hv Hi Nv) as N2. rewrite N in N2. injection N2 as N2.
    assert (n = t_name a) as ->. { change (t_name root :: (ns_keys q ++ [n]))%list with ((t_name root :: ns_keys q) ++ [n])%list in N2. now apply app_inj_tail in N2 as (_ & ->). }
    assert (Q : forall l', defined_at root q (t_name a) l' -> l' = (p' ++ [i])%list).
    { intros l' D. apply (names_unique root F l' _ (t_name root :: ns_keys q ++ [t_name a])%list); [|exact N]. pose proof (path_names root F l' _ D) as P. rewrite P. f_equal.
      change ("." ++ pn_name q ++ "." ++ t_name a) with (String "." (pn_name q ++ String "." (t_name a))). cbn [split_on]. change (Ascii.eqb "." ".") with true. cbv iota. f_equal; [now rewrite (proj1 (proj2 (b_rooted _ Bu)))|]. rewrite split_append, (split_no_char "." (t_name a)); [reflexivity|].
      exact (node_dot root _ a (b_rooted _ Bu) Ha). }
    unfold def_names in Hn. rewrite !in_app_iff in Hn. destruct Hn as [Hn|[Hn|[Hn|Hn]]]; apply in_map_iff in Hn as (c & En & Hc).
    - exfalso. destruct (C69_constants so s root q c Hso I Sp NB H Hq Hc) as (l' & D & X). rewrite En in D. rewrite (Q l' D) in X. destruct X as (v0 & _ & E). rewrite Ha in E. injection E as ->. discriminate.
    - exfalso. destruct (C69_structures so s root q c Hso I Sp NB H Hq Hc) as (l' & D & X). rewrite En in D. rewrite (Q l' D) in X. destruct X as (sz & cs & E & _). rewrite Ha in E. injection E as ->. discriminate.
    - exfalso. destruct (C69_enumerations so s root q c Hso I Sp NB H Hq Hc) as (l' & D & X). rewrite En in D. rewrite (Q l' D) in X. destruct X as (b & cs & ex & vs & E & _). rewrite Ha in E. injection E as ->. discriminate.
    - exists q, c. split; [exact Hq|]. split; [exact Hc|]. destruct (C69_archives so s root q c Hso I Sp NB H Hq Hc) as (l' & D & X). rewrite En in D. now rewrite <- (Q l' D).
  Qed.
  Lemma explicit_declared l i e : at_loc root (l ++ [i])%list = Some e -> t_kind e = KExplicit ->
    (exists rk, resource_at root l rk) /\ exists st f dest, st <> "" /\ has_char "." f = false /\ explicit_is root (l ++ [i])%list (st, f, dest).
  Proof.
    intros He Ke. destruct (parent_at _ _ _ _ He) as (r & Hr & Hi). destruct (child_kind root F l r e Hr (nth_error_In _ _ Hi)) as (_ & _ & _ & Ed). rewrite Ke in Ed.
    assert (exists rk o m, t_kind r = KResource rk o m) as (rk & o & m & Kr) by (destruct (t_kind r); cbn in Ed; try contradiction; eauto). split; [exists rk, r, o, m; auto|].
    destruct (resource_parent root F l r rk o m Hr Kr) as (p & j & a & -> & _ & Ha & Ka & Hj). destruct (archive_declared p a Ha Ka) as (q & x & Hq & Hx & (cs & E & Rs & Bs & Cs)). rewrite Ha in E. injection E as ->. cbn [t_children] in *.
    destruct (nth_error (pa_resources x) j) as [y|] eqn:Ey.
    - pose proof (Rs j y Ey) as (opt & mx & cs' & E & _ & Ox & Ot & Ln). cbn [Nat.add] in *. rewrite Hr in E. injection E as ->. cbn [t_children] in Hi.
      destruct (nth_error (explicit_references (pr_decs y)) i) as [[[st f] dest]|] eqn:Ex.
      + pose proof (Ox i _ Ex) as X. cbn [Nat.add] in X. exists st, f, dest. assert (In (RExplicit st f dest) (pr_decs y)) as Hd.
        { apply nth_error_In in Ex. unfold explicit_references in Ex. apply in_flat_map in Ex as ([a1 b1 c1|] & Hd & Hx'); [|destruct Hx']. destruct Hx' as [[= <- <- <-]|[]]. exact Hd. }
        destruct (Si q x y st f dest Hq Hx (nth_error_In _ _ Ey) Hd) as (S1 & S2). auto.
      + exfalso. apply nth_error_None in Ex. destruct (nth_error (types_used (pr_type y)) (i - List.length (explicit_references (pr_decs y)))) as [t|] eqn:Et.
        * pose proof (Ot _ t Et) as (d & v & (c & Hc & Kc & _) & _). replace (List.length (explicit_references (pr_decs y)) + (i - List.length (explicit_references (pr_decs y))))%nat with i in Hc by lia. rewrite He in Hc. injection Hc as <-. congruence.
        * apply nth_error_None in Et. assert (Hlt : (i < List.length cs')%nat) by (apply nth_error_Some; congruence). destruct (pr_type y) as [|n|w ns|n|n]; try lia. destruct Ln as (Ln & d & (c & Hc & Kc & _)).
          replace (List.length (explicit_references (pr_decs y)) + List.length (types_used (TMulti w ns)))%nat with i in Hc by lia. rewrite He in Hc. injection Hc as <-. congruence.
    - exfalso. apply nth_error_None in Ey. destruct (nth_error (pa_bound x) (j - List.length (pa_resources x))) as [b|] eqn:Eb.
      + pose proof (Bs _ b Eb) as (mx & cs' & E & Ln & O). replace (List.length (pa_resources x) + (j - List.length (pa_resources x)))%nat with j in * by lia. rewrite Hr in E. injection E as ->. cbn [t_children] in Hi.
        destruct (nth_error (snd b) i) as [n|] eqn:En; [|apply nth_error_None in En; assert (Q : (i < List.length cs')%nat) by (apply nth_error_Some; congruence); lia].
        destruct (O i (RResource, n)) as (d & v & (c & Hc & Kc & _) & _); [now rewrite nth_error_map, En|]. cbn [Nat.add fst] in *. rewrite He in Hc. injection Hc as <-. congruence.
      + apply nth_error_None in Eb. pose proof (Cs j r ltac:(lia) Hj) as K. congruence.
  Qed.

  (** ** Scopes *)
  Definition outer (k : kind) : Prop := match k with KRoot | KNamespace => True | _ => False end.
  Definition around (k : kind) : Prop := match k with KRoot | KNamespace | KArchive | KResource _ _ _ => True | _ => False end.
  Lemma namespaces_up n m : forall u v, at_loc root n = Some u -> at_loc root (n ++ m)%list = Some v -> outer (t_kind v) -> outer (t_kind u).
  Proof.
    induction m as [|i m IH] using rev_ind; intros u v Hu Hv O; [rewrite app_nil_r in Hv; congruence|]. rewrite app_assoc in Hv. destruct (parent_at _ _ _ _ Hv) as (w & Hw & Hi). apply (IH u w Hu Hw).
    destruct (child_kind root F _ w v Hw (nth_error_In _ _ Hi)) as (_ & _ & _ & Ed). destruct (t_kind v) eqn:Kv; try contradiction; [destruct (t_kind w); cbn in Ed; try contradiction; destruct rk; contradiction|].
    destruct (f_namespace _ F _ _ _ _ Hw Hv Kv) as [->| ->]; exact Logic.I.
  Qed.
  Lemma around_up n m : forall u v, at_loc root n = Some u -> at_loc root (n ++ m)%list = Some v -> around (t_kind v) -> around (t_kind u).
  Proof.
    induction m as [|i m IH] using rev_ind; intros u v Hu Hv O; [rewrite app_nil_r in Hv; congruence|]. rewrite app_assoc in Hv. destruct (parent_at _ _ _ _ Hv) as (w & Hw & Hi). apply (IH u w Hu Hw).
    destruct (child_kind root F _ w v Hw (nth_error_In _ _ Hi)) as (_ & _ & _ & Ed). destruct (t_kind v) eqn:Kv; try contradiction; destruct (t_kind w) eqn:Kw; cbn in Ed; try contradiction; try exact Logic.I; try (destruct rk; contradiction).
    all: destruct (f_namespace _ F _ _ _ _ Hw Hv Kv); congruence.
  Qed.
  Lemma declared_below n name d u : at_loc root n = Some u -> declared root n name d -> exists q, d = (n ++ q)%list.
  Proof.
    intros Hu (p & Pn & Pd). destruct (names_find root d W _ (path_names root F d _ Pd)) as (ks & E & Fd). destruct (names_find root n W _ (path_names root F n _ Pn)) as (ks' & E' & Fn).
    change (p ++ "." ++ name) with (p ++ String "." name) in E. rewrite split_append, E' in E. injection E as E. rewrite <- E in Fd. apply find_keys_split in Fd as (p' & q & -> & Fp & _). rewrite Fn in Fp. injection Fp as <-. now exists q.
  Qed.
  (** a structure or a field is declared in a namespace *)
  Lemma scope_outer l rk i k n name d v : resource_at root l rk -> visible root (l ++ [i; k])%list n -> declared root n name d -> at_loc root d = Some v ->
    (exists sz, t_kind v = KStructure sz) \/ (exists rng ty off, t_kind v = KField rng ty off) -> exists m u, l = (n ++ m)%list /\ at_loc root n = Some u /\ outer (t_kind u).
  Proof.
    intros (t & o & mx & Ht & Kt) (m & Em & Lm & _) D Hv Kv. assert (exists m', l = (n ++ m')%list) as (m' & El).
    { destruct (app_eq_app _ _ _ _ Em) as (x & [(E & _)|(E & E2)]); [eauto|]. exists []. rewrite app_nil_r. assert (List.length m + List.length x = 2)%nat by (apply (f_equal (@List.length nat)) in E2; rewrite app_length in E2; cbn in E2; lia).
      destruct x; cbn in *; [now rewrite app_nil_r in E|lia]. }
    pose proof D as (pn & Pn & _). assert (exists u, at_loc root n = Some u) as (u & Hu) by (apply names_at_some; exact (ex_intro _ _ (path_names root F n _ Pn))).
    exists m', u. split; [exact El|]. split; [exact Hu|]. subst l. assert (A : around (t_kind u)) by (apply (around_up n m' u t Hu Ht); now rewrite Kt).
    destruct (declared_below n name d u Hu D) as (q & ->). destruct q as [|j q _] using rev_ind; [exfalso; rewrite app_nil_r in Hv; rewrite Hu in Hv; injection Hv as <-; destruct Kv as [(sz & K)|(rng & ty & off & K)]; now rewrite K in A|].
    rewrite app_assoc in Hv. destruct (parent_at _ _ _ _ Hv) as (w & Hw & Hj). destruct Kv as [(sz & K)|(rng & ty & off & K)].
    - destruct (definition_parent root _ v true (b_rooted _ Bu) (b_shape _ Bu) Hv ltac:(now rewrite K)) as (p & j' & x & E & Hx & Kx & _). apply app_inj_tail in E as (<- & _). apply (namespaces_up n q u x Hu Hx). now rewrite Kx.
    - destruct (child_kind root F _ w v Hw (nth_error_In _ _ Hj)) as (_ & _ & _ & Ed). rewrite K in Ed. assert (exists sz, t_kind w = KStructure sz) as (sz & Kw) by (destruct (t_kind w); cbn in Ed; try contradiction; [eauto|destruct rk0; contradiction]).
      destruct q as [|j' q _] using rev_ind; [rewrite app_nil_r in Hw; rewrite Hu in Hw; injection Hw as <-; now rewrite Kw in A|].
      rewrite app_assoc in Hw. destruct (definition_parent root _ w true (b_rooted _ Bu) (b_shape _ Bu) Hw ltac:(now rewrite Kw)) as (p & j2 & x & E & Hx & Kx & _). apply app_inj_tail in E as (<- & _). apply (namespaces_up n q u x Hu Hx). now rewrite Kx.
  Qed.
  Lemma nearest l i k n n' m m' u : (exists rk, resource_at root l rk) -> visible root (l ++ [i; k])%list n' -> l = (n ++ m)%list -> l = (n' ++ m')%list -> at_loc root n = Some u -> outer (t_kind u) -> forall x, n = (n' ++ x)%list -> x = [].
  Proof.
    intros (rk & t & o & mx & Ht & Kt) (y & Ey & _ & V) E E' Hu O x Ex. destruct x as [|z x]; [reflexivity|]. exfalso. subst n. assert (Y : y = ((z :: x) ++ (m ++ [i; k]))%list). { rewrite E in Ey. rewrite <- !app_assoc in Ey. apply app_inv_head in Ey. symmetry. exact Ey. }
    apply (V (z :: x) (m ++ [i; k])%list u Y); [discriminate|now destruct m|exact Hu|]. destruct (t_kind u) eqn:Ku; try contradiction; [|reflexivity].
    destruct (exists_last (l := z :: x) ltac:(discriminate)) as (x' & z' & Ez). rewrite Ez, app_assoc in Hu. destruct (parent_at _ _ _ _ Hu) as (w & Hw & Hi). destruct (child_kind root F _ w u Hw (nth_error_In _ _ Hi)) as (_ & _ & _ & Ed). rewrite Ku in Ed.
    destruct (t_kind w); cbn in Ed; try contradiction; destruct rk0; contradiction.
  Qed.

  Theorem fields_own l st f d : refers root l st f d -> exists i, f = (st ++ [i])%list.
  Proof.
    intros (i & Rf). pose proof Rf as (e & _ & _ & _ & He & Ke & _). destruct (explicit_declared l i e He Ke) as (Rl & sn & fn & dn & Sn & Fn & (n & cs & Hn & _ & O)).
    pose proof (O 0%nat _ eq_refl) as (d0 & _ & P0 & _). pose proof (O 1%nat _ eq_refl) as (f0 & fv & P1 & Hf & Kf & Q1 & U1). pose proof (O 2%nat _ eq_refl) as (s0 & sv & P2 & Hs & Ks & Q2 & U2). cbn [fst snd Nat.add right_kind] in *.
    rewrite <- !app_assoc in P0, P1, P2, U1, U2. cbn [app] in P0, P1, P2, U1, U2.
    assert (R0 : refers_at root l i s0 f0 d0) by (exists e, 2%nat, 1%nat, 0%nat; auto). destruct (explicit_parts root F l i e He Ke) as (? & ? & ? & s1 & f1 & d1 & _ & _ & _ & _ & _ & _ & _ & U).
    destruct (U _ _ _ Rf) as (-> & -> & _). destruct (U _ _ _ R0) as (<- & <- & _). clear U.
    assert (X : exists ps, path_at root s0 = Some ps /\ path_at root f0 = Some (ps ++ "." ++ fn)).
    { assert (Qd : qualified sn \/ ~ qualified sn). { destruct sn as [|c sn]; [now left|]. destruct (Ascii.eqb_spec c ".") as [->|Nc]; [left; exists sn; reflexivity|right; intros (r & [= -> _]); congruence]. }
      destruct Qd as [Qd|Nq].
      - exists sn. split; [exact (Q2 Qd)|]. apply Q1. destruct Qd as (r & ->). exists (r ++ "." ++ fn). reflexivity.
      - assert (Nq' : ~ qualified (sn ++ "." ++ fn)). { intros (r & E). apply Nq. destruct sn as [|c sn]; [congruence|]. injection E as -> _. now exists sn. }
        destruct (U2 Nq) as (na & Va & Da & _). destruct (U1 Nq') as (nb & Vb & Db & _). pose proof Rl as (rk & R).
        destruct (scope_outer l rk i 2 na sn s0 sv R Va Da Hs (or_introl Ks)) as (ma & ua & Ea & Hua & Oa). destruct (scope_outer l rk i 1 nb _ f0 fv R Vb Db Hf (or_intror Kf)) as (mb & ub & Eb & Hub & Ob).
        assert (na = nb) as ->.
        { pose proof Ea as E2. rewrite Eb in E2. destruct (app_eq_app _ _ _ _ E2) as (y & [(Ex & _)|(Ex & _)]).
          - rewrite (nearest l i 2 nb na mb ma ub Rl Va Eb Ea Hub Ob y Ex) in Ex. now rewrite app_nil_r in Ex.
          - rewrite (nearest l i 1 na nb ma mb ua Rl Vb Ea Eb Hua Oa y Ex) in Ex. now rewrite app_nil_r in Ex. }
        destruct Da as (p & Pp & Ps). destruct Db as (p' & Pp' & Pf). rewrite Pp in Pp'. injection Pp' as <-. exists (p ++ "." ++ sn). split; [exact Ps|]. rewrite Pf. f_equal. now rewrite !str_app_assoc. }
    destruct X as (ps & Ps & Pf). destruct f0 as [|k q _] using rev_ind.
    - exfalso. cbn in Hf. injection Hf as <-. destruct Kf as (rng & ty & off & K). pose proof (b_rooted _ Bu) as (_ & _ & K0). congruence.
    - destruct (parent_at _ _ _ _ Hf) as (w & Hw & Hk). destruct (proj1 (names_at_some root q) (ex_intro _ w Hw)) as (nq & Nq). pose proof (names_snoc root q k w fv nq Hw Hk Nq) as N. pose proof (path_names root F _ _ Pf) as N'. rewrite N in N'. injection N' as N'.
      change (ps ++ "." ++ fn) with (ps ++ String "." fn) in N'. rewrite split_append, (split_no_char "." fn Fn) in N'. apply app_inj_tail in N' as (N' & _). exists k. f_equal.
      apply (names_unique root F q s0 nq Nq). rewrite N'. exact (path_names root F s0 _ Ps).
  Qed.
End Fields.

Section Connected.
  Variable root : tree.
  Hypothesis (F : finished root) (PB : plainly_bound root) (FO : forall l s f d, refers root l s f d -> exists i, f = (s ++ [i])%list).
  Local Notation Bu := (f_built _ F).
  Lemma stands_visible l o : stands_for root l o -> ~ hidden root o.
  Proof.
    intros [(R & _ & i & Pt)|(-> & N)]; [|exact N]. intros (b & (Rb & _ & j & Pb)). exact (PB b j o KBound Rb Pb R eq_refl).
  Qed.
  (** the structure an explicit reference names is one of its resource *)
  Lemma refers_shows l s f d : refers root l s f d -> shows root l s.
  Proof.
    intros (i & Rf). pose proof Rf as (e & j & _ & _ & He & Ke & Ps & _). pose proof Ps as (c & Hc & Kc & Pc).
    destruct (parent_at _ _ _ _ He) as (r & Hr & Hi). destruct (child_kind root F l r e Hr (nth_error_In _ _ Hi)) as (_ & _ & _ & Ed). rewrite Ke in Ed.
    assert (exists rk, resource_at root l rk /\ rk <> KBound) as (rk & R & Nb).
    { destruct (t_kind r) eqn:Kr; cbn in Ed; try contradiction. exists rk. split; [exists r, optional, max_size; auto|]. intros ->. contradiction. }
    pose proof (b_explicit _ Bu) as Ce. unfold check_explicits in Ce. apply bind_ok in Ce as (us & Ce & _).
    assert (Hin : In (l ++ [i])%list (iterate root is_explicit)) by (unfold iterate; apply filter_In; split; [apply locs_spec; eauto|rewrite He, Ke; reflexivity]).
    destruct (mapM_each _ _ _ _ Ce Hin) as (y & Cy). unfold check_explicit in Cy. rewrite He in Cy. unfold parent_loc in Cy. rewrite removelast_last, Hr in Cy. apply bind_ok in Cy as (zs & Cy & _).
    assert (Hs : In c (children_like e is_structure_ref)). { apply GenAstThms.children_like_in. exists j. split; [|now rewrite Kc]. change [i; j] with ([i] ++ [j])%list in Hc. rewrite app_assoc, at_loc_app, He in Hc. cbn in Hc. destruct (nth_error (t_children e) j); [exact Hc|discriminate]. }
    destruct (mapM_each _ _ _ _ Cy Hs) as (z & Cz). destruct (existsb (fun x => String.eqb (target x) (target c)) (children_like r is_structure_ref)) eqn:E; [|discriminate]. apply existsb_exists in E as (x & Hx & E). apply String.eqb_eq in E.
    apply GenAstThms.children_like_in in Hx as (k & Hk & Q). assert (Kx : t_kind x = KRef RStructure) by (destruct (t_kind x) as [| | | | | | | | | |[]]; try discriminate; reflexivity).
    apply (shows_own root l rk k RStructure s R Nb (or_introl eq_refl)). exists x. split; [exact (GenRender.at_child root l r k x Hr Hk)|]. split; [exact Kx|]. now rewrite E.
  Qed.
  Lemma stands_shows l s f d o : refers root l s f d -> stands_for root l o -> shows root o s.
  Proof. intros Rf [(R & _ & i & Pt)|(-> & _)]; [exact (shows_bound root o i l s R Pt (refers_shows l s f d Rf))|exact (refers_shows l s f d Rf)]. Qed.
  Lemma f2_has {A B} (P : A -> B -> Prop) l ys x : Forall2 P l ys -> In x l -> exists y, In y ys /\ P x y. Proof. apply f2_left. Qed.
  Lemma port_there o s i v id ports : shows root o s -> at_loc root (s ++ [i])%list = Some v -> (exists rng ty off, t_kind v = KField rng ty off) -> ports_of root o s ports -> called_in root o (s ++ [i])%list id -> In ("port_" ++ id) ports.
  Proof.
    intros S0 Hv (rng & ty & off & K) (is & (t & Ht & ->) & Fo) C. destruct (parent_at _ _ _ _ Hv) as (t' & Ht' & Hi). rewrite Ht in Ht'. injection Ht' as <-.
    destruct (f2_left _ _ _ i Fo) as (port & Hp & id' & C' & ->).
    - apply filter_In. split; [apply in_seq; split; [lia|]; cbn; apply nth_error_Some; congruence|]. now rewrite Hi, K.
    - now rewrite (called_in_fun root _ _ _ _ C C').
  Qed.
  Lemma visible_arrow l s f d o h a : refers root l s f d -> stands_for root l o -> stands_for root d h -> arrow_between root o s f h a ->
    (exists ports, (exists m, DotFacts.node_at root m (a_from a) ports) /\ In (a_port a) ports) /\ (exists ports, exists m, DotFacts.node_at root m (a_to a) ports) /\ exists m, cluster_at root m (a_head a).
  Proof.
    intros Rf So Sh (Cf & (id & Ci & Ep) & (tp & Nt) & (hid & Ch & Eh)). pose proof (stands_shows l s f d o Rf So) as S0. pose proof Rf as (i & Rf'). pose proof Rf' as (e & j & k & m & He & Ke & Ps & Pf & Pd).
    destruct (points_resource root F _ _ Pd) as (rkd & Rd). destruct (stands_resource root _ _ _ Rd Sh) as (rkh & Rh).
    destruct (parent_at _ _ _ _ He) as (r & Hr & Hi). destruct (child_kind root F l r e Hr (nth_error_In _ _ Hi)) as (_ & _ & _ & Ed). rewrite Ke in Ed.
    assert (exists rk, resource_at root l rk) as (rk & R). { destruct (t_kind r) eqn:Kr; cbn in Ed; try contradiction. exists rk, r, optional, max_size. auto. }
    destruct (stands_resource root _ _ _ R So) as (rko & Ro). pose proof Cf as (ao & bo & Co & Cs & Eo). destruct (ports_exist root F o s ao Co S0) as (ports & P).
    split; [|split].
    - exists ports. split; [exists o, rko; split; [exact Ro|]; split; [exact (stands_visible l o So)|left; exists s; auto]|].
      destruct (FO l s f d Rf) as (fi & ->). rewrite Ep. pose proof Pf as (c & Hc & Kc & _). destruct (ref_points root F _ _ _ Hc Kc) as (f' & fv & _ & Pf' & Hf & X). rewrite <- (points_unique root F _ _ _ _ _ Pf Pf') in Hf.
      apply (port_there o s fi fv id ports S0 Hf); [destruct (t_kind fv); try discriminate; eauto|exact P|exact Ci].
    - exists tp, h, rkh. split; [exact Rh|]. split; [exact (stands_visible d h Sh)|exact Nt].
    - exists h. destruct Rh as (u & o' & mx & Hu & Ku). exists u, hid. split; [exact Hu|]. split; [exact Ch|]. split; [exact Eh|]. right; right. exists rkh. split; [exists u, o', mx; auto|exact (stands_visible d h Sh)].
  Qed.
End Connected.
