(** Facts behind C100: what is written on the parts of a diagram. *)
From Coq Require Import List ZArith Bool String Ascii Lia.
From Verif Require Import PyBase PyText GenTypes GenTypesFacts GenTree GenTreeFacts GenTraversal
  GenBuild GenBuildFacts GenPassFacts GenAstFacts GenAstSpec GenLayoutFacts GenResolveFacts GenShapeFacts GenEvery GenFieldFacts GenWords GenFlatdata GenOutFacts GenFinal GenRender
  GenPaths GenSame GenClassNames GenDot DotSpec DotFacts.
From Verif Require GenAstThms.
Import ListNotations.
Local Open Scope string_scope.

Lemma prefix_app p s : String.prefix p s = true <-> exists x, s = p ++ x.
Proof.
  revert s. induction p as [|c p IH]; intros s; [split; [intros _; now exists s|now destruct s]|]. destruct s as [|d s]; cbn.
  - split; [discriminate|intros (x & E); discriminate].
  - destruct (Ascii.ascii_dec c d) as [<-|N]; [rewrite IH; split; intros (x & E); exists x; [now rewrite E|now injection E]|split; [discriminate|intros (x & [= E _]); congruence]].
Qed.
Lemma drop_app p x : drop (String.length p) (p ++ x) = x.
Proof. induction p as [|c p IH]; [now destruct x|exact IH]. Qed.
Lemma dot_prefix s : String.prefix "." s = true <-> exists x, s = String "." x.
Proof. rewrite prefix_app. reflexivity. Qed.

Section Labels.
  Variable root : tree.
  Hypothesis F : finished root.
  Local Notation Bu := (f_built _ F).

  Lemma path_dot_f d i p : path_at root (d ++ [i])%list = Some p -> exists r, p = String "." r.
  Proof.
    intros P. pose proof (path_names root F _ p P) as N. destruct (proj2 (names_at_some root _) (ex_intro _ _ N)) as (u & Hu). destruct (parent_at _ _ _ _ Hu) as (v & Hv & Hi).
    destruct (proj1 (names_at_some root d) (ex_intro _ v Hv)) as (ns & Nd). pose proof (names_snoc root d i v u ns Hv Hi Nd) as N2. rewrite N in N2. injection N2 as N2. destruct (names_find root d (good_wf _ (proj1 (b_rooted _ Bu))) _ Nd) as (ks & -> & _). rewrite (proj1 (proj2 (b_rooted _ Bu))) in N2.
    destruct p as [|c p]; [cbn in N2; destruct ks; discriminate|]. cbn [split_on] in N2. destruct (Ascii.eqb_spec c ".") as [->|Nc]; [eauto|]. destruct (split_on "." p) as [|w ws]; discriminate.
  Qed.
  Lemma type_label d i f rng ty off s sz : at_loc root d = Some s -> t_kind s = KStructure sz -> nth_error (t_children s) i = Some f -> t_kind f = KField rng (Some ty) off -> type_shown root d i ty (field_value_type root d (ft_name ty)).
  Proof.
    intros Hd Ks Hi Kf. pose proof (GenRender.at_child root d s i f Hd Hi) as Hf. unfold field_value_type, starts_with.
    destruct (definition_parent root d s true (b_rooted _ Bu) (b_shape _ Bu) Hd ltac:(now rewrite Ks)) as (q & k & v & -> & Hv & Kv & _). unfold parent_loc. rewrite removelast_last.
    destruct (proj1 (names_at_some root q) (ex_intro _ v Hv)) as (ns & N). assert (exists pn, path_at root q = Some pn) as (pn & Pn) by (unfold path_at; rewrite N; eexists; reflexivity). rewrite Pn.
    assert (exists r, pn = String "." r) as (r & ->).
    { destruct q as [|i' q _] using rev_ind; [|exact (path_dot_f q i' pn Pn)]. cbn in Hv. injection Hv as <-. pose proof (b_rooted _ Bu) as (_ & _ & K0). congruence. }
    destruct (f_fields _ F _ f rng ty off Hf Kf) as [Ba|En].
    - destruct (basic_name ty Ba) as (E & Nd0 & _). left. rewrite E. split.
      + destruct Ba as (w & b & H & Et). apply make_btype_ok in H as (t & Ht & -> & _). rewrite Et in *. cbn [ft_name bt_name] in *. apply storage_spec in Ht. clear - Ht. cbn [In] in *. 
        repeat (destruct Ht as [Ht|Ht]; [apply (f_equal fst) in Ht; cbn [fst] in Ht; rewrite <- Ht; auto 12|]). destruct Ht.
      + assert (X : forall x, String.prefix (String "." x) (ft_name ty) = false). { intros x. destruct (String.prefix (String "." x) (ft_name ty)) eqn:P; [|reflexivity]. apply prefix_app in P as (y & P). rewrite P in Nd0. discriminate. }
        rewrite (X r), (X ""). reflexivity.
    - destruct En as (j & c & w & tl & n & b & b' & cs & Hr & Kr & Fd & Hn & _ & ->). cbn [ft_name]. destruct (type_target root F _ c (REnum w) Hr Kr) as (-> & Fdot). right.
      destruct (find_path _ _ _ Fd) as (Pe & _). exists j, w, tl, (target c), (String "." r). rewrite <- app_assoc in Hr. cbn [app] in Hr. split; [|split; [exact Pe|split; [unfold parent_loc; rewrite removelast_last; exact Pn|]]].
      + destruct (ref_points root F _ c (REnum w) Hr Kr) as (d' & v' & E' & Pt & _). replace tl with d'; [exact Pt|]. apply (GenAstThms.points_to_find _ _ _ _ (b_rooted _ Bu)) in Pt as (c' & Hc' & _ & X). rewrite Hr in Hc'. injection Hc' as <-. congruence.
      + split.
        * intros x E. rewrite E. assert (String.prefix (String "." r) (String "." r ++ "." ++ x) = true) as -> by (apply prefix_app; eauto). rewrite drop_app. assert (String.prefix "." ("." ++ x) = true) as -> by (apply dot_prefix; cbn; eauto). cbn. now destruct x.
        * intros Nx. destruct (String.prefix (String "." r) (target c)) eqn:P; [apply prefix_app in P as (x & P); destruct (Nx x P)|]. destruct (target c) as [|a t] eqn:Et; [discriminate|]. cbn in Fdot.
          assert (a = "."%char) as -> by (destruct (Ascii.eqb_spec a "."); congruence). assert (String.prefix "." (String "." t) = true) as -> by (apply dot_prefix; eauto). cbn. now destruct t.
  Qed.

  Lemma mapM_each {A B} (f : A -> res B) l ys : mapM f l = Ok ys -> forall y, In y ys -> exists x, In x l /\ f x = Ok y.
  Proof.
    revert ys. induction l as [|x l IH]; intros ys H y Hy; cbn in H; [injection H as <-; destruct Hy|]. apply bind_ok in H as (z & Hz & H). apply bind_ok in H as (zs & Hzs & H). injection H as <-.
    destruct Hy as [<-|Hy]; [exists x; split; [now left|exact Hz]|]. destruct (IH zs Hzs y Hy) as (w & ? & ?). exists w. split; [now right|assumption].
  Qed.
  Lemma rows_labelled l rid d s sz : called root l rid -> at_loc root d = Some s -> t_kind s = KStructure sz -> forall cs i rows, (forall j c, nth_error cs j = Some c -> nth_error (t_children s) (i + j) = Some c) ->
    rows_from root rid d i cs = Ok rows -> Forall2 (row_shown root l d) (filter (is_field_at s) (seq i (List.length cs))) rows.
  Proof.
    intros Hl Hd K. induction cs as [|c cs IH]; intros i rows Hcs H; [cbn in H; injection H as <-; constructor|]. cbn [rows_from] in H. apply bind_ok in H as (here & Hh & H). apply bind_ok in H as (rest & Hr & H). injection H as <-.
    assert (Hcs' : forall j x, nth_error cs j = Some x -> nth_error (t_children s) (S i + j) = Some x). { intros j x Hx. specialize (Hcs (S j) x Hx). now rewrite PeanoNat.Nat.add_succ_r in Hcs. }
    specialize (IH (S i) rest Hcs' Hr). pose proof (Hcs 0%nat c eq_refl) as Hc. rewrite PeanoNat.Nat.add_0_r in Hc. cbn [List.length seq filter]. unfold is_field_at at 1. rewrite Hc.
    destruct (t_kind c) as [| | | |rng ty off| | | | | |] eqn:Kc; cbn [is_field] in Hh; try (injection Hh as <-; exact IH).
    apply bind_ok in Hh as (r & Hrow & Hh). injection Hh as <-. cbn [app]. constructor; [|exact IH]. unfold row_of in Hrow. rewrite Kc in Hrow. destruct ty as [ty|]; [|discriminate]. apply bind_ok in Hrow as (p & Ep & Hrow). injection Hrow as <-.
    exists c, rng, ty, off, (rid ++ p)%string. split; [exact (GenRender.at_child root d s i c Hd Hc)|]. split; [exact Kc|]. split; [exists rid, p; split; [exact Hl|split; [now apply id_called|reflexivity]]|]. cbn. repeat split; try reflexivity.
    exact (type_label d i c rng ty off s sz Hd K Hc Kc).
  Qed.
  Hypothesis PB : plainly_bound root.
  Definition tabled (x : string * string * list row) : Prop :=
    let '(id, title, rows) := x in exists l d s is, shows root l d /\ called_in root l d id /\ at_loc root d = Some s /\ title = t_name s /\ field_positions root d is /\ Forall2 (row_shown root l d) is rows.
  Definition clustered (x : string * string * list string) : Prop :=
    let '(id, title, notes) := x in exists l u i, at_loc root l = Some u /\ called root l i /\ id = "cluster_" ++ i /\ title = t_name u /\ notes_of (t_kind u) notes.
  Definition labelled (ss : list stmt) : Prop := (forall x, In x (flat_map tables ss) -> tabled x) /\ (forall x, In x (flat_map cluster_labels ss) -> clustered x).
  Lemma labelled_app a b : labelled a -> labelled b -> labelled (a ++ b)%list.
  Proof. intros (A1 & A2) (B1 & B2). split; intros x H; rewrite flat_map_app, in_app_iff in H; destruct H; auto. Qed.
  Lemma table_labelled l rid c d t : called root l rid -> ref_loc root c = Ok d -> shows root l d -> table_of root rid c = Ok t -> exists id title rows, t = Table id title rows /\ tabled (id, title, rows).
  Proof.
    intros Hl E S0 H. destruct (shown_struct root F _ _ S0) as (s & sz & Hd & K). unfold table_of in H. rewrite E in H. cbn [bind] in H. rewrite Hd in H. apply bind_ok in H as (sid & Es & H). apply bind_ok in H as (rows & Er & H). injection H as <-.
    do 3 eexists. split; [reflexivity|]. exists l, d, s. eexists. split; [exact S0|]. split; [exists rid, sid; split; [exact Hl|split; [now apply id_called|reflexivity]]|]. split; [exact Hd|]. split; [reflexivity|].
    split; [exists s; split; [exact Hd|reflexivity]|]. refine (rows_labelled l rid d s sz Hl Hd K (t_children s) 0%nat rows _ Er). auto.
  Qed.
  Lemma body_labelled l t rk rid ss : at_loc root l = Some t -> resource_at root l rk -> called root l rid -> resource_body root rid t = Ok ss -> labelled ss.
  Proof.
    intros H R Hl Hb. unfold resource_body in Hb. destruct (shown_spec root F PB l t rk H R) as (refs & E & Sh & Tg). rewrite E in Hb. cbn [bind] in Hb. apply bind_ok in Hb as (ts & Et & Hb).
    assert (X : forall y, In y ts -> exists id title rows, y = Table id title rows /\ tabled (id, title, rows)).
    { intros y Hy. destruct (mapM_each _ _ _ Et y Hy) as (c & Hc & Ey). destruct (Tg c Hc) as (d & Ed). exact (table_labelled l rid c d y Hl Ed (proj1 (Sh d) (ex_intro _ c (conj Hc Ed))) Ey). }
    destruct refs as [|c0 refs]; injection Hb as <-; [split; intros x []|]. split; intros x Hx; apply in_flat_map in Hx as (y & Hy & Hx); destruct (X y Hy) as (id & title & rows & -> & T); [|destruct Hx]. destruct Hx as [<-|[]]. exact T.
  Qed.
  Lemma enclose_labelled l t body ss : at_loc root l = Some t -> labelled body -> enclose root l t body = Ok ss -> labelled ss.
  Proof.
    intros H B0 E. unfold enclose in E.
    assert (Cl : forall i notes inner, called root l i -> notes_of (t_kind t) notes -> labelled inner -> labelled [Cluster ("cluster_" ++ i) (t_name t) notes inner]).
    { intros i notes inner Ci Nn (I1 & I2). split; intros x Hx; cbn [flat_map tables cluster_labels] in Hx; rewrite app_nil_r in Hx; [auto|]. destruct Hx as [<-|Hx]; [|auto]. exists l, t, i. auto 6. }
    destruct (t_kind t) as [| | | | | | |rk o m|rk o m| |] eqn:Kt; try (injection E as <-; exact B0).
    - apply bind_ok in E as (i & Ei & E). injection E as <-. apply Cl; [now apply id_called|reflexivity|exact B0].
    - apply bind_ok in E as (i & Ei & E). injection E as <-. apply Cl; [now apply id_called|reflexivity|exact B0].
    - apply bind_ok in E as (bs & _ & E). destruct bs as [|b bs]; [|injection E as <-; exact B0]. apply bind_ok in E as (i & Ei & E). apply bind_ok in E as (own & Eo & E). injection E as <-. apply id_called in Ei.
      apply Cl; [exact Ei| |apply labelled_app; [exact (body_labelled l t rk i own H (ex_intro _ t (ex_intro _ o (ex_intro _ m (conj H Kt)))) Ei Eo)|exact B0]].
      split; [eexists; reflexivity|]. split; [|intros w ->; reflexivity]. intros what Hw. cbn [In] in Hw. repeat (destruct Hw as [[= <- <-]|Hw]; [reflexivity|]). destruct Hw.
  Qed.
  Lemma draw_labelled t : forall l ss, at_loc root l = Some t -> draw root l t = Ok ss -> labelled ss.
  Proof.
    induction t as [n k cs IH] using tree_ind'. intros l ss H E. rewrite draw_eq in E. apply bind_ok in E as (body & Eb & E). refine (enclose_labelled l _ body ss H _ E). clear E.
    assert (X : forall rest done body, cs = (done ++ rest)%list -> draw_all root l (List.length done) rest = Ok body -> labelled body).
    { induction rest as [|c rest IHr]; intros done b Ec Ed; [cbn in Ed; injection Ed as <-; split; intros x []|]. cbn [draw_all] in Ed. apply bind_ok in Ed as (x & Ex & Ed). apply bind_ok in Ed as (y & Ey & Ed). injection Ed as <-.
      assert (Hc : nth_error cs (List.length done) = Some c) by (rewrite Ec, nth_error_app2, PeanoNat.Nat.sub_diag by lia; reflexivity).
      apply labelled_app.
      - rewrite Forall_forall in IH. exact (IH c (nth_error_In _ _ Hc) _ _ (GenRender.at_child root l _ _ c H Hc) Ex).
      - apply (IHr (done ++ [c])%list); [now rewrite <- app_assoc|]. rewrite app_length. cbn [List.length]. rewrite PeanoNat.Nat.add_1_r. exact Ey. }
    exact (X cs [] body eq_refl Eb).
  Qed.
End Labels.
