(** C102: two trees made from the same declarations give the fields of a structure the same types and offsets. *)
From Coq Require Import List ZArith Bool String Ascii Lia.
From Verif Require Import PyBase PyText Spec GenSpec GenTypes GenTypesFacts GenTree GenTreeFacts GenTraversal GenBuild GenBuildFacts GenPassFacts GenAstFacts
  GenAstSpec GenLayoutFacts GenMergeFacts GenResolveFacts GenShapeFacts GenLimitFacts GenFieldFacts GenTidy GenFinal GenAstThms GenWords Props_GenTree Props_GenOutput
  GrammarSpec Grammar GrammarNames GrammarFacts Props_Grammar DeclSpec Props_Decl
  AcceptSpec AcceptCreate AcceptResolve AcceptIndex AcceptLocal AcceptConst AcceptCarry AcceptTypes AcceptSizes Props_Accept MergeBuiltins MergeNames.
Import ListNotations.
Local Open Scope list_scope.
Local Open Scope Z_scope.

Lemma final_carries so s r root : any_order so -> identifiers s -> separated s -> no_builtin s -> declared_tree so s = Ok r -> build_ast so s = Ok root ->
  rooted r /\ rooted root /\ carries r root.
Proof.
  intros Hso I Sp NB Hr H. destruct (declared_facts so s r Hso I Sp NB Hr) as (G & Sh & En & NS).
  assert (E : build_ast so s = (root <- resolve_references r ;; root <- append_constants root ;; _ <- check_ranges root ;; root <- update_field_types root ;; root <- compute_sizes root ;; root <- compute_max_sizes root ;; _ <- check_const_refs root ;; _ <- check_explicits root ;; Ok root)).
  { unfold declared_tree in Hr. apply bind_ok in Hr as (r1 & H1 & H2). unfold build_ast. rewrite H1. cbn [bind]. rewrite H2. reflexivity. }
  rewrite E in H. clear E. apply bind_ok in H as (r3 & H3 & H). apply bind_ok in H as (r4 & H4 & H). apply bind_ok in H as ([] & Hr4 & H). apply bind_ok in H as (r5 & H5 & H).
  apply bind_ok in H as (r6 & H6 & H). apply bind_ok in H as (r7 & H7 & H). apply bind_ok in H as ([] & Hc & H). apply bind_ok in H as ([] & He & H). injection H as ->.
  destruct (carries_constants r r3 r4 G Sh H3 H4) as (C4 & G4 & R4 & X4). destruct (types_iff r r4 G Sh En C4 G4 R4 X4) as (T5 & P5). destruct (P5 r5 H5) as (C5 & G5 & R5 & Ty5).
  destruct (sizes_iff r r5 G Sh C5 G5 R5 NS Ty5) as (T6 & P6). destruct (P6 r6 H6) as (C6 & G6 & R6 & Ty6). destruct (limits_total r G Sh r6 G6 R6 C6 Ty6) as (r7 & H7' & C7 & G7 & R7 & Ty7). rewrite H7 in H7'. injection H7' as <-.
  auto.
Qed.

(** places without references above keep their names *)
Lemma carried_names a ra : rooted a -> rooted ra -> carries a ra -> forall l u, at_loc a l = Some u -> is_ref u = false -> names_at ra l = names_at a l.
Proof.
  intros G Gr C. induction l as [|i l IH] using rev_ind; intros u Hu Nr.
  - cbn. destruct a as [n k cs], ra as [n' k' cs']. pose proof (proj1 (proj2 G)) as E. pose proof (proj1 (proj2 Gr)) as E'. cbn in E, E'. now subst.
  - destruct (parent_at _ _ _ _ Hu) as (v & Hv & Hi). assert (Nv : is_ref v = false) by (eapply not_ref_of_child; [exact (good_at _ _ _ (proj1 G) Hv)|exact Hi]).
    specialize (IH v Hv Nv). destruct (proj1 (names_at_some a l) (ex_intro _ v Hv)) as (ks & Hk). rewrite (names_snoc a l i v u ks Hv Hi Hk).
    destruct (cr_down _ _ C _ _ Hu) as (u' & Hu' & _ & Nm). destruct (parent_at _ _ _ _ Hu') as (v' & Hv' & Hi'). rewrite Hk in IH.
    rewrite (names_snoc ra l i v' u' ks Hv' Hi' IH). now rewrite (Nm Nr).
Qed.
Lemma names_place a b l l' ns : rooted a -> rooted b -> names_at a l = Some ns -> names_at b l' = Some ns -> same_place a b l l'.
Proof.
  intros Ga Gb N N'. destruct (names_find a l (good_wf _ (proj1 Ga)) ns N) as (ks & -> & F). destruct (names_find b l' (good_wf _ (proj1 Gb)) _ N') as (ks' & E & F').
  injection E as _ <-. exists ks. auto.
Qed.

Lemma ref_carried a ra l v r : carries a ra -> at_loc ra l = Some v -> t_kind v = KRef r -> forall u, at_loc a l = Some u -> t_kind u = KRef r.
Proof.
  intros C Hv Kv u Hu. destruct (cr_down _ _ C _ _ Hu) as (w & Hw & K & _). rewrite Hv in Hw. injection Hw as <-. rewrite Kv in K.
  destruct (t_kind u) as [| | |sz|rg [ty|] o|b| | | | |]; cbn in K; try discriminate; try (now destruct K); try exact (eq_sym K).
Qed.
Lemma enum_carried a ra l v b : carries a ra -> at_loc ra l = Some v -> t_kind v = KEnum b -> forall u, at_loc a l = Some u -> t_kind u = KEnum b.
Proof.
  intros C Hv Kv u Hu. destruct (cr_down _ _ C _ _ Hu) as (w & Hw & K & _). rewrite Hv in Hw. injection Hw as <-. rewrite Kv in K.
  destruct (t_kind u) as [| | |sz|rg [ty|] o|b0| | | | |]; cbn in K; try discriminate; try (now destruct K); try exact (eq_sym K).
Qed.
Lemma struct_carried a ra l v sz : carries a ra -> at_loc ra l = Some v -> t_kind v = KStructure sz -> exists u, at_loc a l = Some u /\ (exists sz', t_kind u = KStructure sz') /\ t_name v = t_name u.
Proof.
  intros C Hv Kv. destruct (cr_up _ _ C _ _ Hv) as [(u & Hu)|(p & i & x & -> & _ & _ & K)]; [|congruence]. exists u. split; [exact Hu|].
  destruct (cr_down _ _ C _ _ Hu) as (w & Hw & K & Nm). rewrite Hv in Hw. injection Hw as <-. rewrite Kv in K.
  assert (Ks : exists sz', t_kind u = KStructure sz') by (destruct (t_kind u) as [| | |sz0|rg [ty|] o|b0| | | | |]; cbn in K; try discriminate; try (now destruct K); eauto).
  split; [exact Ks|]. apply Nm. unfold is_ref. destruct Ks as (x & ->). reflexivity.
Qed.
(** what is in a structure or deeper was there before *)
Lemma inside_carried a ra l i v x : carries a ra -> at_loc ra (l ++ [i]) = Some v -> at_loc a l = Some x -> t_kind x <> KArchive -> exists u, at_loc a (l ++ [i]) = Some u.
Proof.
  intros C Hv Hx Nx. destruct (cr_up _ _ C _ _ Hv) as [H|(p & j & y & E & Hy & K & _)]; [exact H|]. apply app_inj_tail in E as (<- & _). congruence.
Qed.

Section Layout.
  Variables (a b ra rb : tree).
  Hypothesis (Ga : rooted a) (Gb : rooted b) (A : alike a b) (Gra : rooted ra) (Grb : rooted rb) (Ca : carries a ra) (Cb : carries b rb).

  Lemma place_of l l' u u' : path_at ra l = path_at rb l' -> at_loc a l = Some u -> at_loc b l' = Some u' -> is_ref u = false -> is_ref u' = false -> same_place a b l l'.
  Proof using A Ga Gb Gra Grb Ca Cb.
    intros P Hu Hu' N N'. unfold path_at in P. rewrite (carried_names a ra Ga Gra Ca l u Hu N), (carried_names b rb Gb Grb Cb l' u' Hu' N') in P.
    destruct (proj1 (names_at_some a l) (ex_intro _ u Hu)) as (ks & Hk). destruct (proj1 (names_at_some b l') (ex_intro _ u' Hu')) as (ks' & Hk'). rewrite Hk, Hk' in P.
    assert (Pa : path_at a l = Some (join "." ks)) by (unfold path_at; now rewrite Hk). assert (Pb : path_at b l' = Some (join "." ks')) by (unfold path_at; now rewrite Hk').
    cbn in P. injection P as P. rewrite <- P in Pb. destruct (path_exists a b Ga Gb A l' _ Pb) as (m & Sm & Pm). 
    assert (E : m = l); [|now subst]. pose proof (path_find a m _ (good_wf _ (proj1 Ga)) (rooted_dot _ Ga) Pm) as F. pose proof (path_find a l _ (good_wf _ (proj1 Ga)) (rooted_dot _ Ga) Pa) as F'. congruence.
  Qed.

  (** the enumeration a field refers to *)
  Lemma enum_same lf lf' i i' w d d' e e' be be' cf cf' : same_place a b lf lf' -> at_loc a lf = Some cf -> t_kind cf <> KArchive -> at_loc b lf' = Some cf' -> t_kind cf' <> KArchive ->
    points_to ra (lf ++ [i]) (REnum w) d -> points_to rb (lf' ++ [i']) (REnum w) d' ->
    (forall j q x, points_to rb (lf' ++ [j]) (REnum q) x -> j = i') ->
    at_loc ra d = Some e -> t_kind e = KEnum be -> at_loc rb d' = Some e' -> t_kind e' = KEnum be' -> be = be'.
  Proof using All.
    intros S Hf Nf Hf' Nf' P P' U He Ke He' Ke'. destruct P as (v & Hv & Kv & Pv). assert (P : points_to ra (lf ++ [i]) (REnum w) d) by (exists v; auto).
    destruct (inside_carried a ra lf i v cf Ca Hv Hf Nf) as (u & Hu). pose proof (ref_carried a ra _ v _ Ca Hv Kv u Hu) as Ku.
    destruct (same_child b a Gb Ga (alike_sym _ _ A) lf i u lf' (same_sym _ _ _ _ S) Hu) as (j & u' & Sj & Hu' & Ku' & _). rewrite Ku in Ku'.
    apply (cr_points _ _ Ca _ u _ _ Hu) in P. destruct (match_meant a b _ _ _ _ Ga Gb A (same_sym _ _ _ _ Sj) P) as (x & Sx & Mx).
    apply (cr_points _ _ Cb _ u' _ _ Hu') in Mx. pose proof (U _ _ _ Mx) as ->.
    assert (x = d').
    { apply (points_to_find _ _ _ _ Grb) in Mx as (y & Hy & _ & Fy). apply (points_to_find _ _ _ _ Grb) in P' as (y' & Hy' & _ & Fy'). congruence. }
    subst x.
    assert (Xa : exists y, at_loc a d = Some y) by (destruct (cr_up _ _ Ca _ _ He) as [X|(p & k & z & _ & _ & _ & K)]; [exact X|congruence]).
    assert (Xb : exists y, at_loc b d' = Some y) by (destruct (cr_up _ _ Cb _ _ He') as [X|(p & k & z & _ & _ & _ & K)]; [exact X|congruence]).
    destruct Xa as (y & Hy). destruct Xb as (y' & Hy').
    pose proof (enum_carried a ra d e be Ca He Ke y Hy) as Ky. pose proof (enum_carried b rb d' e' be' Cb He' Ke' y' Hy') as Ky'.
    destruct (same_kind a b Ga Gb A d d' y y' (same_sym _ _ _ _ Sx) Hy Hy') as (E & _). congruence.
  Qed.
End Layout.
