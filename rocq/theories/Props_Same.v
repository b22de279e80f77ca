(** Property C62: equal embedded schema texts mean equal layouts. *)
From Coq Require Import List ZArith Bool String Ascii Lia Permutation.
From Verif Require Import PyBase PyText DataAccess Structure Resources Builder GenTypes GenTypesFacts GenTree GenTreeFacts GraphSpec GenTraversal GenTraversalFacts
  GenBuild GenBuildFacts GenPassFacts GenAstFacts GenAstSpec GenAstThms GenLayoutFacts GenResolveFacts GenMergeFacts GenShapeFacts GenEvery GenFieldFacts GenWords GenFlatdata GenInk GenOutFacts GenFinal GenRender
  GenPython GenOutSpec GenModule EmbedSpec GenAgree GenMentions GenDecode SameSpec GenSame Props_GenTree Props_GenOutput Props_Embed ArchiveSpec Archive HistorySpec UsableSpec GenTidy GenClassNames GenUsable OpenSpec ArchiveFacts HistoryFacts EvolveFacts Props_Archive.
Import ListNotations.
Local Open Scope string_scope.
Local Open Scope Z_scope.

Lemma ascii_bytes_inj s : forall t, ascii_bytes s = ascii_bytes t -> s = t.
Proof.
  unfold ascii_bytes. induction s as [|c s IH]; intros [|d t] E; try discriminate; [reflexivity|]. cbn [list_ascii_of_string map] in E. injection E as E1 E2. apply Nat2Z.inj in E1.
  rewrite <- (ascii_nat_embedding c), <- (ascii_nat_embedding d), E1. f_equal. now apply IH.
Qed.

Section Two.
  Variables root1 root2 : tree.
  Hypothesis (F1 : finished root1) (F2 : finished root2) (U1 : builtins_unused root1) (U2 : builtins_unused root2) (W1 : every word_node root1) (W2 : every word_node root2).
  Variables (tgt1 tgt2 : loc) (u1 u2 : tree) (st : string).
  Hypothesis (H1 : at_loc root1 tgt1 = Some u1) (H2 : at_loc root2 tgt2 = Some u2) (S1 : has_schema (t_kind u1) = true) (S2 : has_schema (t_kind u2) = true)
    (T1 : schema_text root1 tgt1 = Ok st) (T2 : schema_text root2 tgt2 = Ok st) (Kd : is_supported (t_kind u1) = is_supported (t_kind u2)).

  Definition own_of (root : tree) (tgt : loc) (u : tree) (ls : list line) : Prop :=
    if is_supported (t_kind u) then block root tgt u = Ok ls
    else exists p i a, tgt = (p ++ [i])%list /\ at_loc root p = Some a /\ t_kind a = KArchive /\ block root p (Node (t_name a) KArchive [u]) = Ok ls.
  Hypothesis (O1 : (is_supported (t_kind u1) = true -> ~ In "_builtin" (namespaces root1 tgt1)) /\ forall p i, tgt1 = (p ++ [i])%list -> is_supported (t_kind u1) = false -> is_builtin root1 p = false)
    (O2 : (is_supported (t_kind u2) = true -> ~ In "_builtin" (namespaces root2 tgt2)) /\ forall p i, tgt2 = (p ++ [i])%list -> is_supported (t_kind u2) = false -> is_builtin root2 p = false).

  Lemma own_block root (F : finished root) tgt u own : at_loc root tgt = Some u -> has_schema (t_kind u) = true -> (is_supported (t_kind u) = true -> ~ In "_builtin" (namespaces root tgt)) /\ (forall p i, tgt = (p ++ [i])%list -> is_supported (t_kind u) = false -> is_builtin root p = false) ->
    own_part root tgt u own -> own_of root tgt u own.
  Proof.
    intros H S (O & Op) P. unfold own_part in P. unfold own_of. destruct (is_supported (t_kind u)) eqn:Su.
    - apply (node_block_declared root u S) in P as [(_ & t & Ht & Hb)|(D & _)]; [congruence|]. destruct D. exists u. auto.
    - destruct P as (p & i & a & E & Ha & Ka & X). rewrite (Op p i E eq_refl) in X. exists p, i, a. auto.
  Qed.
  Lemma own_segment root tgt u own : own_of root tgt u own -> segment blank own /\ GenDecode.full own.
  Proof. unfold own_of. destruct (is_supported (t_kind u)); [intros H; split; [exact (block_segment _ _ _ _ H)|exact (block_full _ _ _ _ H)]|intros (p & i & a & _ & _ & _ & H); split; [exact (block_segment _ _ _ _ H)|exact (block_full _ _ _ _ H)]]. Qed.
  Lemma parts_segments root ds bs : Forall2 (fun d b => exists t, at_loc root d = Some t /\ block root d t = Ok b) ds bs -> Forall (segment blank) bs /\ GenDecode.full (List.concat bs).
  Proof.
    induction 1 as [|d b ds bs (t & _ & Hb) Fb (A & B)]; [split; [constructor|constructor]|]. split; [constructor; [exact (block_segment _ _ _ _ Hb)|exact A]|]. cbn. apply Forall_app. split; [exact (block_full _ _ _ _ Hb)|exact B].
  Qed.

  Lemma same_parts : (forall d1 d2 v1 v2, depends root1 tgt1 d1 -> depends root2 tgt2 d2 -> declared root1 d1 -> declared root2 d2 -> at_loc root1 d1 = Some v1 -> at_loc root2 d2 = Some v2 ->
      names_at root1 d1 = names_at root2 d2 -> exists dl, declaration root1 v1 = Ok dl /\ declaration root2 v2 = Ok dl)
    /\ exists own, own_of root1 tgt1 u1 own /\ own_of root2 tgt2 u2 own.
  Proof.
    destruct (schema_parts root1 F1 tgt1 u1 H1 S1) as (ds1 & bs1 & own1 & E1 & _ & In1 & B1 & _ & P1). destruct (schema_parts root2 F2 tgt2 u2 H2 S2) as (ds2 & bs2 & own2 & E2 & _ & In2 & B2 & _ & P2).
    apply (own_block root1 F1 tgt1 u1 own1 H1 S1 O1) in P1. apply (own_block root2 F2 tgt2 u2 own2 H2 S2 O2) in P2.
    destruct (own_segment _ _ _ _ P1) as (G1 & L1). destruct (own_segment _ _ _ _ P2) as (G2 & L2). destruct (parts_segments _ _ _ B1) as (A1 & M1). destruct (parts_segments _ _ _ B2) as (A2 & M2).
    pose proof T1 as T1'. pose proof T2 as T2'. unfold schema_text in T1', T2'. rewrite E1 in T1'. rewrite E2 in T2'. cbn [bind] in T1', T2'. injection T1' as T1'. injection T2' as T2'. rewrite <- T2' in T1'.
    apply text_inj in T1'; [|exact (schema_inked root1 W1 tgt1 _ E1)|exact (schema_inked root2 W2 tgt2 _ E2)|apply Forall_app; split; assumption|apply Forall_app; split; assumption].
    assert (X : (bs1 ++ [own1] = bs2 ++ [own2])%list).
    { apply (segments_inj blank); [apply Forall_app; split; [exact A1|now constructor]|apply Forall_app; split; [exact A2|now constructor]|]. rewrite !concat_app. cbn. now rewrite !app_nil_r. }
    apply app_inj_tail in X as (-> & ->). split; [|exists own2; auto].
    intros d1 d2 v1 v2 D1 D2 C1 C2 V1 V2 Nm.
    assert (Y : exists b d v, block root1 d1 v1 = Ok b /\ at_loc root2 d = Some v /\ block root2 d v = Ok b).
    { destruct (list_eq_dec PeanoNat.Nat.eq_dec d1 tgt1) as [->|N].
      - exists own2. rewrite H1 in V1. injection V1 as <-. destruct C1 as (u & Hu & Su & _). rewrite H1 in Hu. injection Hu as <-. unfold own_of in P1, P2. rewrite Su in P1.
        rewrite <- Kd, Su in P2. exists tgt2, u2. auto.
      - assert (Hd : In d1 ds1) by (apply In1; auto). clear - B1 B2 Hd V1. revert bs2 ds2 B1 B2. induction ds1 as [|d ds1 IH]; intros bs ds2 B1 B2; [destruct Hd|]. inversion B1 as [|? b ? bs' (t & Ht & Hb) B1']; subst. inversion B2 as [|d' ? ds2' ? (t' & Ht' & Hb') B2']; subst.
        destruct Hd as [->|Hd]; [exists b, d', t'; split; [congruence|auto]|exact (IH Hd _ _ B1' B2')]. }
    destruct Y as (b & d & v & Y1 & Hv & Y2). destruct (block_same _ _ _ _ _ _ _ Y1 Y2) as (En & dl & L1' & L2'). exists dl. split; [exact L1'|].
    pose proof (proj1 (declaration_same _ _ _ _ _ L1' L2')) as Et. destruct C1 as (x & Hx & Sx & _). rewrite V1 in Hx. injection Hx as <-.
    assert (Sv : is_supported (t_kind v) = true) by (destruct (declaration_first _ _ _ L2') as (_ & Q); destruct (t_kind v); try contradiction; reflexivity).
    assert (Q : names_at root2 d = names_at root2 d2) by (rewrite <- Nm, (declared_names root1 F1 d1 v1 V1 Sx), (declared_names root2 F2 d v Hv Sv); congruence).
    destruct (proj1 (names_at_some root2 d2) (ex_intro _ v2 V2)) as (ns & Ens). rewrite Ens in Q. pose proof (names_unique root2 F2 d d2 ns Q Ens) as ->. congruence.
  Qed.
End Two.

(** A resource *)
Lemma same_resource root1 root2 : finished root1 -> finished root2 -> builtins_unused root1 -> builtins_unused root2 -> every word_node root1 -> every word_node root2 ->
  (forall l t, at_loc root1 l = Some t -> t_kind t = KArchive -> is_builtin root1 l = false) -> (forall l t, at_loc root2 l = Some t -> t_kind t = KArchive -> is_builtin root2 l = false) ->
  forall p1 i1 r1 k1 o1 m1 c1 p2 i2 r2 k2 o2 m2 c2 st, at_loc root1 (p1 ++ [i1])%list = Some r1 -> t_kind r1 = KResource k1 o1 m1 -> k1 <> KBound -> container_is root1 (p1 ++ [i1])%list k1 c1 ->
    at_loc root2 (p2 ++ [i2])%list = Some r2 -> t_kind r2 = KResource k2 o2 m2 -> k2 <> KBound -> container_is root2 (p2 ++ [i2])%list k2 c2 ->
    schema_text root1 (p1 ++ [i1])%list = Ok st -> schema_text root2 (p2 ++ [i2])%list = Ok st -> t_name r1 = t_name r2 /\ o1 = o2 /\ same_container c1 c2.
Proof.
  intros F1 F2 U1 U2 W1 W2 X1 X2 p1 i1 r1 k1 o1 m1 c1 p2 i2 r2 k2 o2 m2 c2 st H1 K1 N1 C1 H2 K2 N2 C2 T1 T2.
  assert (Out : forall root, finished root -> (forall l t, at_loc root l = Some t -> t_kind t = KArchive -> is_builtin root l = false) -> forall p i r k o m, at_loc root (p ++ [i])%list = Some r -> t_kind r = KResource k o m ->
    (is_supported (t_kind r) = true -> ~ In "_builtin" (namespaces root (p ++ [i])%list)) /\ (forall p' i', (p ++ [i])%list = (p' ++ [i'])%list -> is_supported (t_kind r) = false -> is_builtin root p' = false)).
  { intros root F X p i r k o m H K. destruct (parent_at _ _ _ _ H) as (a & Ha & Hi). destruct (above_schema root F p i [] r a H ltac:(now rewrite K) Ha) as [(Ka & _)|(_ & [O|O])]; [|congruence|rewrite K in O; discriminate].
    split; [|intros p' i' E _; apply app_inj_tail in E as (<- & _); exact (X p a Ha Ka)]. rewrite K. discriminate. }
  destruct (same_parts root1 root2 F1 F2 W1 W2 _ _ r1 r2 st H1 H2 ltac:(now rewrite K1) ltac:(now rewrite K2) T1 T2 ltac:(now rewrite K1, K2) (Out root1 F1 X1 _ _ _ _ _ _ H1 K1) (Out root2 F2 X2 _ _ _ _ _ _ H2 K2)) as (Same & own & P1 & P2).
  unfold own_of in P1, P2. rewrite K1 in P1. rewrite K2 in P2. cbn in P1, P2. destruct P1 as (q1 & j1 & a1 & _ & _ & _ & B1). destruct P2 as (q2 & j2 & a2 & _ & _ & _ & B2).
  destruct (block_same _ _ _ _ _ _ _ B1 B2) as (_ & dl & L1 & L2). destruct (declaration_same _ _ _ _ _ L1 L2) as (_ & rs & M1 & M2). cbn [t_children filter] in M1, M2.
  assert (Su1 : is_supported_resource (t_kind r1) = true) by (rewrite K1; destruct k1; try reflexivity; congruence). assert (Su2 : is_supported_resource (t_kind r2) = true) by (rewrite K2; destruct k2; try reflexivity; congruence).
  rewrite Su1 in M1. rewrite Su2 in M2. cbn [mapM] in M1, M2. apply bind_ok in M1 as (y1 & Y1 & M1). apply bind_ok in M2 as (y2 & Y2 & M2). cbn in M1, M2. injection M1 as <-. injection M2 as <-.
  destruct (resource_same _ _ _ _ _ Y1 Y2) as (En & ty & x1 & x2 & o & z1 & z2 & R1 & R2 & Q1 & Q2). rewrite K1 in Q1. injection Q1 as <- <- <-. rewrite K2 in Q2. injection Q2 as <- -> <-. split; [exact En|]. split; [reflexivity|].
  destruct (all_same root1 root2 F1 F2 U1 U2 _ _ Same) as (_ & _ & A). unfold P_container in A. apply (A _ _ _ C1 _ _ _ r1 r2 o1 m1 o1 m2 ty C2); try assumption; constructor.
Qed.

(** An archive *)
Lemma same_archives root1 root2 : finished root1 -> finished root2 -> builtins_unused root1 -> builtins_unused root2 -> every word_node root1 -> every word_node root2 ->
  (forall l t, at_loc root1 l = Some t -> t_kind t = KArchive -> is_builtin root1 l = false) -> (forall l t, at_loc root2 l = Some t -> t_kind t = KArchive -> is_builtin root2 l = false) ->
  forall l1 a1 l2 a2, archive_is root1 l1 a1 -> archive_is root2 l2 a2 -> a_schema a1 = a_schema a2 -> same_archive a1 a2.
Proof.
  intros F1 F2 U1 U2 W1 W2 X1 X2 l1 a1 l2 a2 A1 A2 E. pose proof A1 as A1'. pose proof A2 as A2'. destruct A1 as [l1 t1 s1 rs1 H1 K1 T1 R1]. destruct A2 as [l2 t2 s2 rs2 H2 K2 T2 R2]. cbn [a_schema] in E. apply ascii_bytes_inj in E. subst s2.
  assert (Out : forall root, (forall l t, at_loc root l = Some t -> t_kind t = KArchive -> is_builtin root l = false) -> forall l t, at_loc root l = Some t -> t_kind t = KArchive ->
    ~ In "_builtin" (namespaces root l)) by (intros root X l t H K Hin; apply builtin_in in Hin; rewrite (X l t H K) in Hin; discriminate).
  destruct (same_parts root1 root2 F1 F2 W1 W2 _ _ t1 t2 s1 H1 H2 ltac:(now rewrite K1) ltac:(now rewrite K2) T1 T2 ltac:(now rewrite K1, K2)) as (Same & own & P1 & P2).
  { split; [intros _; exact (Out root1 X1 l1 t1 H1 K1)|]. intros p i _. rewrite K1. discriminate. }
  { split; [intros _; exact (Out root2 X2 l2 t2 H2 K2)|]. intros p i _. rewrite K2. discriminate. }
  unfold own_of in P1, P2. rewrite K1 in P1. rewrite K2 in P2. cbn in P1, P2. destruct (block_same _ _ _ _ _ _ _ P1 P2) as (En & dl & L1 & L2). destruct (declaration_same _ _ _ _ _ L1 L2) as (Et & _).
  destruct (all_same root1 root2 F1 F2 U1 U2 _ _ Same) as (A & _ & _). unfold P_archive in A. apply (A _ _ A1' _ _ A2'); try constructor.
  - exists t1. split; [exact H1|]. split; [now rewrite K1|]. exact (Out root1 X1 l1 t1 H1 K1).
  - exists t2. split; [exact H2|]. split; [now rewrite K2|]. exact (Out root2 X2 l2 t2 H2 K2).
  - rewrite (declared_names root1 F1 l1 t1 H1 ltac:(now rewrite K1)), (declared_names root2 F2 l2 t2 H2 ltac:(now rewrite K2)). congruence.
Qed.

(** C62: take any two schemas and an archive of each.  Resources to which the two generated classes attach the same schema have the
    same name, are equally optional and store the same kind of container of structures with the same fields, offsets, widths, signs
    and sizes; archives with the same schema have the same resources in the same order, and so on for their sub-archives.
    Partial: the schemas must not put definitions inside definitions, use the name [_builtin], or refer to the index structures the
    generator adds (see C62_refuted). *)
Theorem C62_layouts_partial : forall so1 s1 root1 so2 s2 root2 l1 a1 l2 a2,
  any_order so1 -> identifiers s1 -> separated s1 -> no_builtin s1 -> build_ast so1 s1 = Ok root1 -> builtins_unused root1 ->
  any_order so2 -> identifiers s2 -> separated s2 -> no_builtin s2 -> build_ast so2 s2 = Ok root2 -> builtins_unused root2 ->
  archive_is root1 l1 a1 -> archive_is root2 l2 a2 ->
  (a_schema a1 = a_schema a2 -> same_archive a1 a2)
  /\ (forall n1 c1 o1 n2 c2 o2 s, In (n1, RSig c1 s o1) (tl (a_resources a1)) -> In (n2, RSig c2 s o2) (tl (a_resources a2)) -> n1 = n2 /\ o1 = o2 /\ same_container c1 c2).
Proof.
  intros so1 s1 root1 so2 s2 root2 l1 a1 l2 a2 O1 I1 Sp1 N1 B1 U1 O2 I2 Sp2 N2 B2 U2 A1 A2.
  pose proof (identifiers_finished so1 s1 root1 O1 I1 Sp1 N1 B1) as F1. pose proof (identifiers_finished so2 s2 root2 O2 I2 Sp2 N2 B2) as F2.
  pose proof (final_words so1 s1 root1 O1 (well_named_clean s1 (identifiers_named s1 I1)) (identifiers_words s1 I1) B1) as W1. pose proof (final_words so2 s2 root2 O2 (well_named_clean s2 (identifiers_named s2 I2)) (identifiers_words s2 I2) B2) as W2.
  pose proof (archive_outside so1 s1 root1 O1 (identifiers_named s1 I1) Sp1 N1 B1) as X1. pose proof (archive_outside so2 s2 root2 O2 (identifiers_named s2 I2) Sp2 N2 B2) as X2.
  split; [exact (same_archives root1 root2 F1 F2 U1 U2 W1 W2 X1 X2 l1 a1 l2 a2 A1 A2)|].
  assert (Each : forall root l a, archive_is root l a -> forall n c o b, In (n, RSig c b o) (tl (a_resources a)) -> exists i r k m s, at_loc root (l ++ [i])%list = Some r /\ t_name r = n /\ t_kind r = KResource k o m /\ k <> KBound
    /\ container_is root (l ++ [i])%list k c /\ schema_text root (l ++ [i])%list = Ok s /\ b = ascii_bytes s).
  { clear. intros root l a A n c o b. destruct A as [l t s rs Ht Kt Es Rs]. cbn [a_resources tl]. assert (Q : forall j x, nth_error (t_children t) j = Some x -> at_loc root (l ++ [(0 + j)%nat])%list = Some x) by (intros j x Hj; rewrite at_loc_app, Ht; cbn; now rewrite Hj).
    revert Q. generalize 0%nat (t_children t) rs Rs. clear - n. intros i cs rs R. induction R as [|l i t0 ts rs N R IH|l i t0 ts rs rk o' m c' s K Nb C Sx R IH]; intros Q Hin.
    - destruct Hin.
    - apply IH; [|exact Hin]. intros j x Hj. replace (S i + j)%nat with (i + S j)%nat by lia. now apply Q.
    - destruct Hin as [E|Hin].
      + injection E as <- <- <- <-. exists i, t0, rk, m, s. split; [specialize (Q 0%nat t0 eq_refl); now rewrite PeanoNat.Nat.add_0_r in Q|]. auto 10.
      + apply IH; [|exact Hin]. intros j x Hj. replace (S i + j)%nat with (i + S j)%nat by lia. now apply Q. }
  intros n1 c1 o1 n2 c2 o2 s Hin1 Hin2. destruct (Each root1 l1 a1 A1 _ _ _ _ Hin1) as (i1 & r1 & k1 & m1 & st1 & H1 & <- & K1 & Nb1 & C1 & T1 & E1). destruct (Each root2 l2 a2 A2 _ _ _ _ Hin2) as (i2 & r2 & k2 & m2 & st2 & H2 & <- & K2 & Nb2 & C2 & T2 & E2).
  rewrite E1 in E2. apply ascii_bytes_inj in E2. subst st2.
  exact (same_resource root1 root2 F1 F2 U1 U2 W1 W2 X1 X2 l1 i1 r1 k1 o1 m1 c1 l2 i2 r2 k2 o2 m2 c2 st1 H1 K1 Nb1 C1 H2 K2 Nb2 C2 T1 T2).
Qed.
Print Assumptions C62_layouts_partial.

(** C62 for the generated modules: any two archive classes of the modules of any two schemas. *)
Lemma module_archive so ko s root g n a : any_order so -> same_members ko -> well_named s -> separated s -> no_builtin s -> build_ast so s = Ok root ->
  plain_namespaces s -> distinct_classes root -> plain_resources root -> generate_python ko root = Ok g -> dict_get g n = Some (ClsArchive a) -> exists l, archive_is root l a.
Proof.
  intros Hso Hko W Sp Nb H Pn Dc Pr Eg E. destruct (C63_module_partial so ko s root Hso Hko W Sp Nb H Pn Dc Pr) as (g' & Eg' & Ds & Da & Dn). rewrite Eg in Eg'. injection Eg' as <-.
  pose proof (dict_get_in _ _ _ E) as Hin. destruct (Dn _ _ Hin) as (l & t & Hl & Kd & [->|(Ka & ->)]).
  - destruct (t_kind t) eqn:Kt; try discriminate.
    + destruct (Ds l t _ Hl Kt) as (sd & st & E' & _). congruence.
    + destruct (Da l t Hl Kt) as (a' & E' & _ & A). rewrite E in E'. injection E' as <-. eauto.
  - destruct (Da l t Hl Ka) as (a' & _ & E' & _). congruence.
Qed.
Theorem C62_modules_partial : forall so1 ko1 s1 root1 g1 n1 a1 so2 ko2 s2 root2 g2 n2 a2,
  any_order so1 -> same_members ko1 -> identifiers s1 -> separated s1 -> no_builtin s1 -> build_ast so1 s1 = Ok root1 -> builtins_unused root1 ->
  plain_namespaces s1 -> distinct_classes root1 -> plain_resources root1 -> generate_python ko1 root1 = Ok g1 ->
  any_order so2 -> same_members ko2 -> identifiers s2 -> separated s2 -> no_builtin s2 -> build_ast so2 s2 = Ok root2 -> builtins_unused root2 ->
  plain_namespaces s2 -> distinct_classes root2 -> plain_resources root2 -> generate_python ko2 root2 = Ok g2 ->
  dict_get g1 n1 = Some (ClsArchive a1) -> dict_get g2 n2 = Some (ClsArchive a2) ->
  (a_schema a1 = a_schema a2 -> same_archive a1 a2)
  /\ (forall n1 c1 o1 n2 c2 o2 s, In (n1, RSig c1 s o1) (tl (a_resources a1)) -> In (n2, RSig c2 s o2) (tl (a_resources a2)) -> n1 = n2 /\ o1 = o2 /\ same_container c1 c2).
Proof.
  intros so1 ko1 s1 root1 g1 n1 a1 so2 ko2 s2 root2 g2 n2 a2 O1 M1 I1 Sp1 N1 B1 U1 P1 D1 R1 E1 O2 M2 I2 Sp2 N2 B2 U2 P2 D2 R2 E2 G1 G2.
  destruct (module_archive so1 ko1 s1 root1 g1 n1 a1 O1 M1 (identifiers_named s1 I1) Sp1 N1 B1 P1 D1 R1 E1 G1) as (l1 & A1). destruct (module_archive so2 ko2 s2 root2 g2 n2 a2 O2 M2 (identifiers_named s2 I2) Sp2 N2 B2 P2 D2 R2 E2 G2) as (l2 & A2).
  exact (C62_layouts_partial so1 s1 root1 so2 s2 root2 l1 a1 l2 a2 O1 I1 Sp1 N1 B1 U1 O2 I2 Sp2 N2 B2 U2 A1 A2).
Qed.
Print Assumptions C62_modules_partial.

(** C65: data written with the builder class of one schema and opened with an archive class of another schema is either refused or
    read as it was written: opening succeeds only if the two archives have the same resources with the same layouts, and then
    every resource that was set has the value that was set and every other one is None.
    Partial: as C64 and C62 (no sub-archives, no definitions inside definitions, no [_builtin] names, ...). *)
Theorem C65_evolution_partial : forall so1 s1 root1 so2 s2 root2 l1 a1 l2 a2,
  any_order so1 -> identifiers s1 -> separated s1 -> no_builtin s1 -> build_ast so1 s1 = Ok root1 -> builtins_unused root1 ->
  distinct_classes root1 -> usable_layouts root1 -> few_types root1 -> no_index_clash root1 ->
  any_order so2 -> identifiers s2 -> separated s2 -> no_builtin s2 -> build_ast so2 s2 = Ok root2 -> builtins_unused root2 ->
  archive_is root1 l1 a1 -> archive_is root2 l2 a2 -> no_subarchives a1 ->
  forall d0 sets, HistorySpec.clean a1 d0 -> dict_get d0 (archive_file a2) = None -> NoDup (map fst sets) ->
  (forall n v, In (n, v) sets -> n <> archive_file a1 /\ exists sig, In (n, sig) (a_resources a1) /\ storable sig v) ->
  forall rs, open_archive a2 (storage_of_fs (files_after d0 (build a1 (sets_of sets)))) = Ok rs ->
  same_archive a1 a2
  /\ (forall n v sig, In (n, v) sets -> In (n, sig) (a_resources a2) -> exists o, archive_getattr rs n = Ok o /\ holds sig v o)
  /\ (forall n sig, In (n, sig) (a_resources a2) -> ~ In n (map fst sets) -> archive_getattr rs n = Ok None).
Proof.
  intros so1 s1 root1 so2 s2 root2 l1 a1 l2 a2 O1 I1 Sp1 N1 B1 U1 Dc Us Ft Ni O2 I2 Sp2 N2 B2 U2 A1 A2 Ns d0 sets Cl E0 Nd St rs Op.
  pose proof (identifiers_finished so1 s1 root1 O1 I1 Sp1 N1 B1) as F1. pose proof (identifiers_finished so2 s2 root2 O2 I2 Sp2 N2 B2) as F2.
  pose proof (final_words so1 s1 root1 O1 (well_named_clean s1 (identifiers_named s1 I1)) (identifiers_words s1 I1) B1) as W1. pose proof (archive_outside so1 s1 root1 O1 (identifiers_named s1 I1) Sp1 N1 B1) as X1.
  destruct (C62_layouts_partial so1 s1 root1 so2 s2 root2 l1 a1 l2 a2 O1 I1 Sp1 N1 B1 U1 O2 I2 Sp2 N2 B2 U2 A1 A2) as (Lay & _).
  assert (Dots : forall root l a, finished root -> archive_is root l a -> exists t rest, a_name a = t /\ has_char "." t = false /\ a_resources a = (archive_file a, RSig CRawData (a_schema a) false) :: rest
    /\ NoDup (map fst rest) /\ forall n sig, In (n, sig) rest -> has_char "." n = false).
  { clear. intros root l a F A. destruct A as [l t s rs Ht Kt Es Rs]. exists (t_name t), rs. split; [reflexivity|]. split; [exact (name_dot root F l t Ht)|]. split; [reflexivity|]. split.
    - rewrite (resources_names root l O _ rs Rs). apply nodup_filter. exact (sibling_names root F l t Ht).
    - intros n sig Hi. destruct (resources_in root l t Ht O _ rs Rs eq_refl n sig Hi) as (j & r & rk & o & m & s' & Hc & _ & <- & _). exact (name_dot root F _ r Hc). }
  destruct (Dots root1 l1 a1 F1 A1) as (t1 & rest1 & T1 & Q1 & R1 & _ & V1). destruct (Dots root2 l2 a2 F2 A2) as (t2 & rest2 & T2 & Q2 & R2 & Y2 & V2).
  assert (Sf2 : split_on "." (archive_file a2) = [t2; "archive"]) by (unfold archive_file; rewrite T2; change ".archive" with (String "." "archive"); apply split_dot2; [exact Q2|reflexivity]).
  apply (evolve a1 a2) with (d0 := d0); try assumption.
  - exact (archive_generated root1 F1 Ni l1 a1 A1).
  - exact (archive_sizes root1 F1 Us l1 a1 A1).
  - exact (archive_schemas root1 F1 W1 X1 l1 a1 A1).
  - rewrite R2. now left.
  - rewrite R2. cbn [map fst]. constructor; [|exact Y2]. intros Hin. apply in_map_iff in Hin as ((n, sig) & En & Hin). cbn in En. subst n. pose proof (split_dot1 _ (V2 _ _ Hin)) as E. rewrite Sf2 in E. discriminate.
  - intros n sig Hin Hf. rewrite R1 in Hin. destruct Hin as [E|Hin].
    + injection E as <- <-. unfold files_of in Hf. cbn [r_container] in Hf. destruct Hf as [E|[E|[]]]; [now symmetry|]. exfalso.
      assert (Sf1 : split_on "." (schema_file (archive_file a1)) = [t1; "archive"; "schema"]).
      { unfold schema_file, archive_file. rewrite T1, app_assoc_str. change (".archive" ++ ".schema") with (String "." ("archive" ++ String "." "schema")). rewrite !split_append, (split_no_char _ _ Q1). reflexivity. }
      rewrite E, Sf2 in Sf1. discriminate.
    + exfalso. pose proof (in_map (split_on ".") _ _ Hf) as Hf'. rewrite (files_split n sig (V1 _ _ Hin)), Sf2 in Hf'. apply in_file_keys in Hf'. destruct Hf' as [H|[H|(_ & [H|H])]]; injection H; intros; discriminate.
  - intros n v Hi. destruct (St n v Hi) as (Na & sig & Hs & V). split; [exact Na|]. exists sig. split; [exact Hs|]. exact (archive_storable root1 F1 Us Ft Dc l1 a1 n sig v A1 Na Hs V).
Qed.
Print Assumptions C65_evolution_partial.

(** ** Instances *)
Definition unused_check (root : tree) : bool :=
  forallb (fun l => match at_loc root l with Some t => forallb (fun m => match at_loc root m with Some u =>
    match t_kind t with KRef RBuiltin => true | KRef _ => match path_at root m with Some p => negb (String.eqb p (target t)) || negb (existsb (String.eqb "_builtin") (namespaces root m)) | None => true end | _ => true end | None => true end) (locs root) | None => true end) (locs root).
Lemma unused_checked root : unused_check root = true -> builtins_unused root.
Proof.
  intros H l r d (t & Ht & Kt & P) Nr Hin. assert (Hd : exists u, at_loc root d = Some u). { unfold path_at in P. destruct (names_at root d) as [ns|] eqn:E; [|discriminate]. apply (proj2 (names_at_some root d)). eauto. } destruct Hd as (u & Hu).
  pose proof (everywhere2 root (fun l t m u => match t_kind t with KRef RBuiltin => true | KRef _ => match path_at root m with Some p => negb (String.eqb p (target t)) || negb (existsb (String.eqb "_builtin") (namespaces root m)) | None => true end | _ => true end) H l t d u Ht Hu) as X. cbn beta in X.
  rewrite Kt, P, String.eqb_refl in X. assert (Y : existsb (String.eqb "_builtin") (namespaces root d) = true) by (apply existsb_exists; exists "_builtin"; split; [exact Hin|reflexivity]). rewrite Y in X. destruct r; try discriminate. congruence.
Qed.
Lemma example_unused : builtins_unused example_tree. Proof. apply unused_checked. vm_compute. reflexivity. Qed.
Lemma other_unused : builtins_unused other_tree. Proof. apply unused_checked. vm_compute. reflexivity. Qed.
Lemma example_is : archive_is example_tree [0;0;3]%nat example_archive.
Proof.
  destruct (C63_module_partial same_order sorted_keys example example_tree same_order_any ltac:(intros ks k; reflexivity) example_named example_separated example_no_builtin example_ok example_plain ltac:(apply distinct_checked; vm_compute; reflexivity) ltac:(apply resources_checked; vm_compute; reflexivity)) as (g & Eg & _ & Da & _).
  assert (Ht : exists t, at_loc example_tree [0;0;3]%nat = Some t /\ t_kind t = KArchive) by (eexists; split; vm_compute; reflexivity). destruct Ht as (t & Ht & Kt). destruct (Da _ t Ht Kt) as (a & E & _ & A).
  assert (En : py_class example_tree [0;0;3]%nat = "n_a_Ar") by (vm_compute; reflexivity). rewrite En in E. assert (Ea : example_archive = a) by (unfold example_archive; rewrite Eg, E; reflexivity). rewrite Ea. exact A.
Qed.
Lemma other_plain : plain_namespaces other. Proof. intros p Hp (t & E). cbn in Hp. destruct Hp as [<-|[<-|[]]]; discriminate. Qed.
Definition other_archive : adef := match generate_python sorted_keys other_tree with Ok g => match dict_get g "n_a_Ar" with Some (ClsArchive a) => a | _ => ADef "" [] [] end | Err _ => ADef "" [] [] end.
Lemma other_is : archive_is other_tree [1;0;5]%nat other_archive.
Proof.
  destruct (C63_module_partial same_order sorted_keys other other_tree same_order_any ltac:(intros ks k; reflexivity) (identifiers_named other other_identifiers) other_separated other_no_builtin other_ok other_plain ltac:(apply distinct_checked; vm_compute; reflexivity) ltac:(apply resources_checked; vm_compute; reflexivity)) as (g & Eg & _ & Da & _).
  assert (Ht : exists t, at_loc other_tree [1;0;5]%nat = Some t /\ t_kind t = KArchive) by (eexists; split; vm_compute; reflexivity). destruct Ht as (t & Ht & Kt). destruct (Da _ t Ht Kt) as (a & E & _ & A).
  assert (En : py_class other_tree [1;0;5]%nat = "n_a_Ar") by (vm_compute; reflexivity). rewrite En in E. assert (Ea : other_archive = a) by (unfold other_archive; rewrite Eg, E; reflexivity). rewrite Ea. exact A.
Qed.
(** Two different archives that share the resource [v] *)
Theorem C62_instance :
  any_order same_order /\ identifiers example /\ separated example /\ no_builtin example /\ build_ast same_order example = Ok example_tree /\ builtins_unused example_tree
  /\ identifiers other /\ separated other /\ no_builtin other /\ build_ast same_order other = Ok other_tree /\ builtins_unused other_tree
  /\ archive_is example_tree [0;0;3]%nat example_archive /\ archive_is other_tree [1;0;5]%nat other_archive /\ a_schema example_archive <> a_schema other_archive
  /\ exists sd1 sd2 s, nth_error (a_resources example_archive) 1 = Some ("v", RSig (CVector sd1) s false) /\ nth_error (a_resources other_archive) 3 = Some ("v", RSig (CVector sd2) s false) /\ List.length (s_fields sd1) = 3%nat.
Proof.
  split; [exact same_order_any|]. split; [exact example_identifiers|]. split; [exact example_separated|]. split; [exact example_no_builtin|]. split; [exact example_ok|]. split; [exact example_unused|].
  split; [exact other_identifiers|]. split; [exact other_separated|]. split; [exact other_no_builtin|]. split; [exact other_ok|]. split; [exact other_unused|]. split; [exact example_is|]. split; [exact other_is|].
  split; [intros E; assert (X : (if list_eq_dec Z.eq_dec (a_schema example_archive) (a_schema other_archive) then true else false) = false) by (vm_compute; reflexivity); destruct (list_eq_dec Z.eq_dec (a_schema example_archive) (a_schema other_archive)); [discriminate|contradiction]|].
  eexists. eexists. eexists. split; [vm_compute; reflexivity|]. split; vm_compute; reflexivity.
Qed.

(** The same archive declared elsewhere in another schema, among other definitions and in another order *)
Definition moved : pschema :=
 [PNamespace "k" [] [PStruct "S" [PField "x" [] "u16" None]] [] [PArchive "Ar" [] [PResource "v" [] (TVector "S")]];
  PNamespace "n.b" [PConst "D" "u8" "7"] [] [] [];
  PNamespace "n.a" [] [] [PEnum "E" "u8" (Some 2%N) [("A",None);("B",Some "2")]] [PArchive "Ar" [("bd",["v";"m"])]
     [PResource "v" [RExplicit "S" "r" "m"] (TVector "S"); PResource "m" [] (TMulti 33%N ["S"]); PResource "q" [ROptional] TRaw]];
  PNamespace "n.a" [PConst "C" "u8" "7"] [PStruct "S" [PField "x" [FConst "C"] "u8" (Some 3%N); PField "e" [] "E" None; PField "r" [] "u32" (Some 20%N)]] [] []].
Definition moved_tree : tree := tree_of moved.
Lemma moved_separated : separated moved.
Proof.
  intros p q n m Hp Hq Hn E. cbn in Hp, Hq. destruct Hp as [<-|[<-|[<-|[<-|[]]]]]; destruct Hq as [<-|[<-|[<-|[<-|[]]]]]; vm_compute in E; injection E as E; try discriminate; try (destruct m; discriminate); try (injection E as E E'; destruct m; discriminate); congruence || (subst; vm_compute in Hn; repeat destruct Hn as [Hn|Hn]; congruence || destruct Hn).
Qed.
Lemma moved_no_builtin : no_builtin moved.
Proof. intros p Hp. cbn in Hp. destruct Hp as [<-|[<-|[<-|[<-|[]]]]]; split; intros H; vm_compute in H; repeat destruct H as [H|H]; congruence || destruct H. Qed.
Lemma moved_identifiers : identifiers moved.
Proof. intros p n Hp Hn. assert (X : forallb (fun p => forallb (only_chars plain_char) (mentioned p)) moved = true) by (vm_compute; reflexivity). rewrite forallb_forall in X. specialize (X p Hp). rewrite forallb_forall in X. exact (X n Hn). Qed.
Lemma moved_ok : build_ast same_order moved = Ok moved_tree. Proof. vm_compute. reflexivity. Qed.
Lemma moved_plain : plain_namespaces moved. Proof. intros p Hp (t & E). cbn in Hp. destruct Hp as [<-|[<-|[<-|[<-|[]]]]]; discriminate. Qed.
Lemma moved_unused : builtins_unused moved_tree. Proof. apply unused_checked. vm_compute. reflexivity. Qed.
Definition moved_archive : adef := match generate_python sorted_keys moved_tree with Ok g => match dict_get g "n_a_Ar" with Some (ClsArchive a) => a | _ => ADef "" [] [] end | Err _ => ADef "" [] [] end.
Lemma moved_is : archive_is moved_tree [1;1;1]%nat moved_archive.
Proof.
  destruct (C63_module_partial same_order sorted_keys moved moved_tree same_order_any ltac:(intros ks k; reflexivity) (identifiers_named moved moved_identifiers) moved_separated moved_no_builtin moved_ok moved_plain ltac:(apply distinct_checked; vm_compute; reflexivity) ltac:(apply resources_checked; vm_compute; reflexivity)) as (g & Eg & _ & Da & _).
  assert (Ht : exists t, at_loc moved_tree [1;1;1]%nat = Some t /\ t_kind t = KArchive) by (eexists; split; vm_compute; reflexivity). destruct Ht as (t & Ht & Kt). destruct (Da _ t Ht Kt) as (a & E & _ & A).
  assert (En : py_class moved_tree [1;1;1]%nat = "n_a_Ar") by (vm_compute; reflexivity). rewrite En in E. assert (Ea : moved_archive = a) by (unfold moved_archive; rewrite Eg, E; reflexivity). rewrite Ea. exact A.
Qed.
Theorem C65_instance :
  any_order same_order /\ identifiers example /\ separated example /\ no_builtin example /\ build_ast same_order example = Ok example_tree /\ builtins_unused example_tree
  /\ distinct_classes example_tree /\ usable_layouts example_tree /\ few_types example_tree /\ no_index_clash example_tree
  /\ identifiers moved /\ separated moved /\ no_builtin moved /\ build_ast same_order moved = Ok moved_tree /\ builtins_unused moved_tree
  /\ archive_is example_tree [0;0;3]%nat example_archive /\ archive_is moved_tree [1;1;1]%nat moved_archive /\ no_subarchives example_archive
  /\ HistorySpec.clean example_archive [] /\ dict_get (@nil (string * list Z)) (archive_file moved_archive) = None /\ NoDup (map fst example_sets)
  /\ (forall n v, In (n, v) example_sets -> n <> archive_file example_archive /\ exists sig, In (n, sig) (a_resources example_archive) /\ storable sig v)
  /\ exists rs, open_archive moved_archive (storage_of_fs (files_after [] (build example_archive (sets_of example_sets)))) = Ok rs.
Proof.
  destruct C64_instance as (I1 & _ & I2 & I3 & I4 & I5 & _ & I6 & _ & I7 & I8 & I9 & _ & I10 & I11 & I12 & I13 & _).
  do 5 (split; [assumption|]). split; [exact example_unused|]. do 4 (split; [assumption|]). split; [exact moved_identifiers|]. split; [exact moved_separated|]. split; [exact moved_no_builtin|]. split; [exact moved_ok|]. split; [exact moved_unused|].
  split; [exact example_is|]. split; [exact moved_is|]. split; [exact I10|]. split; [exact I11|]. split; [reflexivity|]. split; [exact I12|]. split; [exact I13|].
  destruct (open_archive moved_archive (storage_of_fs (files_after [] (build example_archive (sets_of example_sets))))) as [rs|e] eqn:E; [exists rs; reflexivity|exfalso; vm_compute in E; discriminate].
Qed.

(** Without the condition on references to the generator's own index structures both are false: the type of such a vector is left
    out of the text, so data of one index type is accepted, and misread, as data of another one. *)
Definition index_user (t : string) : pschema :=
 [PNamespace "n" [] [PStruct "S" [PField "x" [] "u8" None]] [] [PArchive "A" [] [PResource "m" [ROptional] (TMulti 8%N ["S"]); PResource "k" [ROptional] (TMulti 16%N ["S"]); PResource "v" [] (TVector t)]]].
Definition narrow : pschema := index_user ".n._builtin.multivector.IndexType8".
Definition wide : pschema := index_user ".n._builtin.multivector.IndexType16".
Definition class_of (s : pschema) (n : string) : adef := match generate_python sorted_keys (tree_of s) with Ok g => match dict_get g n with Some (ClsArchive a) => a | _ => ADef "" [] [] end | Err _ => ADef "" [] [] end.
Definition narrow_sets : list (string * setval) := [("v", SRecords [[("value", PInt 1)]; [("value", PInt 2)]])].
Theorem C62_refuted : build_ast same_order narrow = Ok (tree_of narrow) /\ build_ast same_order wide = Ok (tree_of wide)
  /\ a_schema (class_of narrow "n_A") = a_schema (class_of wide "n_A") /\ a_schema (class_of narrow "n_A") <> []
  /\ exists sd1 sd2 s, nth_error (a_resources (class_of narrow "n_A")) 3 = Some ("v", RSig (CVector sd1) s false) /\ nth_error (a_resources (class_of wide "n_A")) 3 = Some ("v", RSig (CVector sd2) s false)
    /\ s_size sd1 = 1 /\ s_size sd2 = 2.
Proof.
  split; [vm_compute; reflexivity|]. split; [vm_compute; reflexivity|]. split; [vm_compute; reflexivity|].
  split; [intros E; assert (X : match a_schema (class_of narrow "n_A") with [] => true | _ => false end = false) by (vm_compute; reflexivity); rewrite E in X; discriminate|].
  eexists. eexists. eexists. split; [vm_compute; reflexivity|]. split; [vm_compute; reflexivity|]. split; reflexivity.
Qed.
Theorem C65_refuted : exists rs x, open_archive (class_of wide "n_A") (storage_of_fs (files_after [] (build (class_of narrow "n_A") (sets_of narrow_sets)))) = Ok rs
  /\ archive_getattr rs "v" = Ok (Some (OVector x)) /\ mapM as_list (vector_iter x) = Ok [[513]].
Proof. eexists. eexists. split; [vm_compute; reflexivity|]. split; [vm_compute; reflexivity|]. vm_compute. reflexivity. Qed.
