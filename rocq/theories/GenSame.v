(** Equal embedded schema texts mean equal layouts. *)
From Coq Require Import List ZArith Bool String Ascii Lia Permutation.
From Verif Require Import PyBase PyText Structure Builder GenTypes GenTypesFacts GenTree GenTreeFacts GraphSpec GenTraversal GenTraversalFacts
  GenBuild GenBuildFacts GenPassFacts GenAstFacts GenAstSpec GenAstThms GenLayoutFacts GenResolveFacts GenMergeFacts GenShapeFacts GenEvery GenFieldFacts GenWords GenFlatdata GenInk GenOutFacts GenFinal GenRender
  GenPython GenOutSpec GenModule EmbedSpec GenAgree GenMentions GenDecode SameSpec.
Import ListNotations.
Local Open Scope string_scope.
Local Open Scope Z_scope.

(** ** Names of types *)
Fixpoint double_dot (s : string) : bool :=
  match s with String a ((String b _) as t) => (Ascii.eqb a "." && Ascii.eqb b ".") || double_dot t | _ => false end.
Lemma ats_once s : double_dot (replace_char "@" "." s) = false -> replace_char "@" "." (replace_ats s) = replace_char "@" "." s.
Proof.
  assert (X : forall n s, (String.length s <= n)%nat -> double_dot (replace_char "@" "." s) = false -> replace_char "@" "." (replace_ats s) = replace_char "@" "." s).
  { induction n as [|n IH]; intros u Hn H; [destruct u; [reflexivity|cbn in Hn; lia]|]. destruct u as [|c u]; [reflexivity|]. cbn [String.length] in Hn.
    assert (D : double_dot (replace_char "@" "." u) = false).
    { cbn [replace_char] in H. destruct u as [|d u]; [reflexivity|]. cbn [replace_char] in *. cbn [double_dot] in H. apply orb_false_iff in H as (_ & H). exact H. }
    assert (E : replace_ats (String c u) = String c (replace_ats u) \/ exists t, c = "@"%char /\ u = String "@" t).
    { destruct (Ascii.eqb_spec c "@") as [->|Nc].
      - destruct u as [|d u]; [now left|]. destruct (Ascii.eqb_spec d "@") as [->|Nd]; [right; eauto|]. left. destruct d as [[] [] [] [] [] [] [] []]; try reflexivity. now destruct Nd.
      - left. destruct c as [[] [] [] [] [] [] [] []]; try reflexivity. now destruct Nc. }
    destruct E as [E|(t & -> & ->)].
    - rewrite E. cbn [replace_char]. rewrite (IH u) by (lia || exact D). reflexivity.
    - exfalso. cbn in H. discriminate. }
  intros H. exact (X (String.length s) s (le_n _) H).
Qed.
Definition first_dot (s : string) : bool := match s with String c _ => Ascii.eqb c "." | EmptyString => false end.
Lemma double_dot_app a : forall b, has_char "." a = false -> first_dot b = false -> double_dot b = false -> a <> "" -> double_dot (a ++ String "." b) = false.
Proof.
  induction a as [|c a IH]; intros b Ha Fb Db Na; [congruence|]. cbn [has_char] in Ha. apply orb_false_iff in Ha as (Hc & Ha). destruct a as [|d a].
  - cbn [append double_dot]. rewrite Hc. destruct b as [|e b]; [reflexivity|]. cbn [first_dot] in Fb. rewrite Fb. cbn [andb orb]. rewrite andb_false_r. exact Db.
  - change (String c (String d a) ++ String "." b) with (String c (String d (a ++ String "." b))). cbn [double_dot]. rewrite Hc. cbn [andb orb]. apply (IH b); auto. discriminate.
Qed.
Lemma join_dots ns : Forall (fun n => n <> "" /\ has_char "." n = false) ns -> first_dot (join "." ns) = false /\ double_dot (join "." ns) = false.
Proof.
  assert (X : forall n, has_char "." n = false -> first_dot n = false /\ double_dot n = false).
  { intros n Hn. split; [destruct n; [reflexivity|]; cbn in *; now apply orb_false_iff in Hn|]. induction n as [|c n IH]; [reflexivity|]. cbn [has_char] in Hn. apply orb_false_iff in Hn as (Hc & Hn). destruct n as [|d n]; [reflexivity|]. cbn [double_dot]. rewrite Hc. exact (IH Hn). }
  induction 1 as [|n ns (Nn & Hn) F (IH1 & IH2)]; [auto|]. destruct ns as [|m ns]; [now apply X|]. change (join "." (n :: m :: ns)) with (n ++ String "." (join "." (m :: ns))). split.
  - destruct n as [|c n]; [congruence|]. cbn in *. now apply orb_false_iff in Hn.
  - now apply double_dot_app.
Qed.
Lemma no_char_name t : name_ok t = true -> t <> "" /\ has_char "." t = false.
Proof. unfold name_ok. intros H. apply andb_true_iff in H as (A & B). split; [intros ->; discriminate|now apply negb_true_iff in A]. Qed.

Lemma names_at_first t d ns : names_at t d = Some ns -> exists ks, ns = t_name t :: ks.
Proof. destruct d as [|i d]; cbn; [intros [= <-]; eauto|]. destruct (nth_error (t_children t) i) as [c|]; [|discriminate]. destruct (names_at c d); [|discriminate]. intros [= <-]. eauto. Qed.

Lemma names_clean d : forall t n ks, good t -> names_at t d = Some (n :: ks) -> Forall (fun n => n <> "" /\ has_char "." n = false) ks.
Proof.
  induction d as [|i d IH]; intros t n ks G N; cbn in N; [injection N as _ <-; constructor|]. destruct (nth_error (t_children t) i) as [c|] eqn:E; [|discriminate].
  destruct (names_at c d) as [ns|] eqn:En; [|discriminate]. cbn in N. injection N as _ <-. destruct (names_at_first c d ns En) as (ks' & ->). constructor.
  - destruct (good_here t G) as (_ & Fa & _). rewrite Forall_forall in Fa. apply no_char_name, Fa, in_map. exact (nth_error_In _ _ E).
  - apply (IH c (t_name c) ks'); [|exact En]. apply (good_at t [i] c G). cbn. now rewrite E.
Qed.

Section Refs.
  Variable root : tree.
  Hypothesis F : finished root.
  Local Notation Bu := (f_built _ F).

  (** the name of an enumeration's reference, as a type *)
  Lemma type_target l r q : at_loc root l = Some r -> t_kind r = KRef q -> field_type (t_name r) = target r /\ first_dot (target r) = true.
  Proof.
    intros H K. destruct (ref_target root F l r q H K) as (d & v & p & _ & Fd & Hv & Ex & Hp & ->). pose proof (find_names root _ _ Fd) as N. pose proof (proj1 (b_rooted _ Bu)) as G.
    destruct (G l r H) as (_ & _ & M). rewrite K in M. destruct M as ((t & Et) & _).
    destruct (names_find root d (good_wf _ G) _ N) as (ks & Es & Fk). rewrite (proj1 (proj2 (b_rooted _ Bu))) in Es.
    assert (Nk : ks <> []). { intros ->. destruct d as [|i d]; [|cbn in Fk; discriminate]. cbn in Hv. injection Hv as <-. rewrite (proj2 (proj2 (b_rooted _ Bu))) in Ex. destruct q; discriminate. }
    assert (Fn : Forall (fun n => n <> "" /\ has_char "." n = false) ks).
    { rewrite Es in N. exact (names_clean d root "" ks G N). }
    destruct (join_dots ks Fn) as (J1 & J2).
    assert (T : target r = String "." (join "." ks)).
    { unfold path_at in Hp. rewrite N, Es in Hp. cbn [option_map] in Hp. injection Hp as Hp. rewrite <- Hp. destruct ks as [|k ks]; [congruence|]. reflexivity. }
    unfold target in T. rewrite Et in T. cbn [dereferencify] in T. destruct t as [|c t]; [discriminate|]. cbn [replace_char] in T.
    assert (c = "@"%char).
    { pose proof (node_dot root l r (b_rooted _ Bu) H) as D. rewrite Et in D. cbn in D. apply orb_false_iff in D as (D & _). destruct (Ascii.eqb_spec c "@") as [E|E]; [exact E|]. injection T as -> _. discriminate. }
    subst c. cbn in T. injection T as T. split.
    - rewrite Et. unfold field_type. change (replace_ats (String "@" (String "@" t))) with (String "." (replace_ats t)). cbn [replace_char]. rewrite ats_once by (now rewrite T). unfold target. rewrite Et. cbn. reflexivity.
    - unfold target. rewrite Et. reflexivity.
  Qed.
End Refs.

Section More.
  Variable root : tree.
  Hypothesis F : finished root.
  Hypothesis U : builtins_unused root.
  Local Notation Bu := (f_built _ F).

  Lemma path_names d p : path_at root d = Some p -> names_at root d = Some (split_on "." p).
  Proof. intros H. apply (find_names root). exact (path_find root d p (good_wf _ (proj1 (b_rooted _ Bu))) (rooted_dot _ (b_rooted _ Bu)) H). Qed.
  Lemma names_unique d d' ns : names_at root d = Some ns -> names_at root d' = Some ns -> d = d'.
  Proof.
    intros H H'. pose proof (good_wf _ (proj1 (b_rooted _ Bu))) as W. destruct (names_find root d W _ H) as (ks & E & K). destruct (names_find root d' W _ H') as (ks' & E' & K'). rewrite E in E'. injection E' as <-. congruence.
  Qed.
  Lemma child_loc l t c : at_loc root l = Some t -> In c (t_children t) -> exists i, at_loc root (l ++ [i])%list = Some c.
  Proof. intros H Hc. apply In_nth_error in Hc as (i & Hi). exists i. rewrite at_loc_app, H. cbn. now rewrite Hi. Qed.
  Lemma ref_points l i c q d : at_loc root (l ++ [i])%list = Some c -> t_kind c = KRef q -> path_at root d = Some (target c) -> points_to root (l ++ [i])%list q d.
  Proof. intros H K P. exists c. auto. Qed.

  Lemma basic_name t : basic t -> field_type (ft_name t) = ft_name t /\ first_dot (ft_name t) = false /\ ft_signed t = name_signed (ft_name t).
  Proof.
    intros (w & b & H & E). apply make_btype_ok in H as (s & Hs & -> & _). rewrite E in *. cbn [ft_name bt_name ft_signed] in *. apply storage_spec in Hs. unfold bt_signed. cbn [bt_name].
    destruct Hs as [Hs|[Hs|[Hs|[Hs|[Hs|[Hs|[Hs|[Hs|[Hs|[]]]]]]]]]]; apply (f_equal fst) in Hs; cbn [fst] in Hs; rewrite <- Hs; repeat split; reflexivity.
  Qed.

  Lemma params_is l r rk o m : at_loc root l = Some r -> t_kind r = KResource rk o m -> (rk = KInstance \/ rk = KVector \/ exists w, rk = KMultivector w) ->
    type_params root (referenced_structures r) = Ok (map target (children_like r is_structure_ref)) /\ Forall (fun p => first_dot p = true) (map target (children_like r is_structure_ref)).
  Proof.
    intros Hr Kr Hk.
    assert (A : forall cs, (forall c, In c cs -> In c (t_children r) /\ t_kind c = KRef RStructure) -> type_params root cs = Ok (map target cs) /\ Forall (fun p => first_dot p = true) (map target cs)).
    { induction cs as [|c cs IH]; intros Hc; [split; [reflexivity|constructor]|]. destruct (Hc c (or_introl eq_refl)) as (Hin & Kc). destruct (child_loc l r c Hr Hin) as (i & Hi). destruct (ref_target root F _ _ _ Hi Kc) as (d & v & p & E & Fd & Hv & _ & Hp & ->).
      destruct (IH (fun x Hx => Hc x (or_intror Hx))) as (IH1 & IH2). split; [|constructor; [exact (proj2 (type_target root F _ _ _ Hi Kc))|exact IH2]].
      cbn [type_params map]. rewrite E. cbn [bind]. rewrite (ref_path_target root F _ _ _ Hi Kc). cbn [bind]. rewrite IH1. cbn [bind]. destruct (is_builtin root d) eqn:B; [|reflexivity]. exfalso. apply builtin_in in B. revert B. exact (U _ _ _ (ref_points l i c RStructure d Hi Kc Hp) ltac:(discriminate)). }
    assert (Sc : forall c, In c (children_like r is_structure_ref) -> In c (t_children r) /\ t_kind c = KRef RStructure).
    { intros c Hc. apply like_in in Hc as (Hc & K). split; [exact Hc|]. destruct (t_kind c) as [| | | | | | | | | |[]]; try discriminate. reflexivity. }
    destruct (A _ Sc) as (A1 & A2). split; [|exact A2]. unfold referenced_structures. pose proof (shape_refs root F l r rk o m Hr Kr) as Sh. destruct Hk as [->|[->|(w & ->)]].
    - destruct Sh as (c & _ & ->); [discriminate|]. exact A1.
    - destruct Sh as (c & _ & ->); [discriminate|]. exact A1.
    - destruct Sh as (c & Ec); [discriminate|]. rewrite Ec. cbn [app type_params].
      destruct (f_index _ F l r w o m Hr Kr) as (i & c' & d & v & Hi & Kc & Fd & _ & _ & B).
      assert (c' = c). { assert (Hc : In c' (children_like r is_builtin_ref)). { unfold children_like. apply filter_In. split; [|now rewrite Kc]. rewrite at_loc_app, Hr in Hi. cbn in Hi. destruct (nth_error (t_children r) i) eqn:N; [|discriminate]. injection Hi as <-. exact (nth_error_In _ _ N). }
        rewrite Ec in Hc. destruct Hc as [Hc|[]]. now symmetry. } subst c'.
      unfold ref_loc. rewrite Fd. cbn [bind]. rewrite (ref_path_target root F _ _ _ Hi Kc). cbn [bind]. rewrite A1. cbn [bind]. now rewrite B.
  Qed.

  (** the words of a resource's type *)
  Lemma type_words l r rk o m ty : at_loc root l = Some r -> t_kind r = KResource rk o m -> resource_type root r = Ok ty ->
    match rk with
    | KInstance => exists c, children_like r is_structure_ref = [c] /\ ty = [target c] /\ first_dot (target c) = true
    | KVector => exists c, children_like r is_structure_ref = [c] /\ ty = ["vector<"; target c; ">"]
    | KMultivector w => ty = ("multivector<" :: (py_str w ++ ",")%string :: comma (map target (children_like r is_structure_ref)) ++ [">"])%list /\ Forall (fun p => first_dot p = true) (map target (children_like r is_structure_ref))
    | KRawData => ty = ["raw_data"]
    | KArchiveRes => exists c i, children_like r is_archive_ref = [c] /\ at_loc root (l ++ [i])%list = Some c /\ t_kind c = KRef RArchive /\ ty = ["archive"; target c]
    | KBound => False
    end.
  Proof.
    intros Hr Kr H. unfold resource_type in H. apply bind_ok in H as (ps & Hp & H). rewrite Kr in H. destruct rk.
    - destruct (params_is l r _ o m Hr Kr ltac:(auto)) as (E & Fd). rewrite E in Hp. injection Hp as <-. destruct (shape_refs root F l r _ o m Hr Kr ltac:(discriminate)) as (c & Ec & _). rewrite Ec in *. injection H as <-. exists c. split; [reflexivity|]. split; [reflexivity|]. now inversion Fd.
    - destruct (params_is l r _ o m Hr Kr ltac:(auto)) as (E & Fd). rewrite E in Hp. injection Hp as <-. destruct (shape_refs root F l r _ o m Hr Kr ltac:(discriminate)) as (c & Ec & _). rewrite Ec in *. injection H as <-. exists c. split; reflexivity.
    - destruct (params_is l r _ o m Hr Kr ltac:(eauto)) as (E & Fd). rewrite E in Hp. injection Hp as <-. injection H as <-. auto.
    - injection H as <-. reflexivity.
    - destruct (archive_target root F l r o m Hr Kr) as (c & i & Ec & Hi & Kc). rewrite Ec in H. cbn [only bind] in H. rewrite (ref_path_target root F _ _ _ Hi Kc) in H. cbn [bind] in H. injection H as <-. exists c, i. auto.
    - discriminate.
  Qed.
  Lemma structs_list l r sds : at_loc root l = Some r -> structs_of root l RStructure sds ->
    Forall2 (fun c sd => exists i d, at_loc root (l ++ [i])%list = Some c /\ t_kind c = KRef RStructure /\ path_at root d = Some (target c) /\ struct_is root d sd) (children_like r is_structure_ref) sds.
  Proof.
    intros Hr (t & Ht & Fs). rewrite Hr in Ht. injection Ht as <-.
    match type of Fs with Forall2 _ (filter ?p _) _ => assert (E : filter p (t_children r) = children_like r is_structure_ref) by (unfold children_like; apply filter_ext; intros c; now destruct (t_kind c) as [| | | | | | | | | |[]]) end.
    rewrite E in Fs. assert (Hc : forall c, In c (children_like r is_structure_ref) -> exists i, at_loc root (l ++ [i])%list = Some c /\ t_kind c = KRef RStructure).
    { intros c Hc. apply like_in in Hc as (Hc & K). destruct (child_loc l r c Hr Hc) as (i & Hi). exists i. split; [exact Hi|]. destruct (t_kind c) as [| | | | | | | | | |[]]; try discriminate. reflexivity. }
    clear E. induction Fs as [|c sd cs sds (d & Hp & Hs) Fs IH]; constructor; [|apply IH; intros x Hx; apply Hc; now right]. destruct (Hc c (or_introl eq_refl)) as (i & Hi & Kc). exists i, d. auto.
  Qed.
End More.
Lemma comma_dots l : forall m, Forall (fun p => first_dot p = true) l -> Forall (fun p => first_dot p = true) m -> comma l = comma m -> l = m.
Proof.
  intros m Hl Hm E. destruct l as [|x l], m as [|y m]; [reflexivity| | |].
  - exfalso. destruct m as [|z m]; [|cbn [comma] in E; apply (f_equal (@List.length string)) in E; cbn in E; destruct m; discriminate]. cbn in E. injection E as <-. inversion Hm. discriminate.
  - exfalso. destruct l as [|z l]; [|cbn [comma] in E; apply (f_equal (@List.length string)) in E; cbn in E; destruct l; discriminate]. cbn in E. injection E as ->. inversion Hl. discriminate.
  - apply comma_inj; [discriminate|discriminate|exact E].
Qed.

Lemma mapM_pairs {A B C} (f : A -> res C) (g : B -> res C) l : forall m ys, mapM f l = Ok ys -> mapM g m = Ok ys -> Forall2 (fun a b => exists y, f a = Ok y /\ g b = Ok y) l m.
Proof.
  induction l as [|a l IH]; intros m ys H1 H2; cbn in H1.
  - injection H1 as <-. destruct m as [|b m]; [constructor|]. cbn in H2. apply bind_ok in H2 as (y & _ & H2). apply bind_ok in H2 as (z & _ & H2). discriminate.
  - apply bind_ok in H1 as (y & Hy & H1). apply bind_ok in H1 as (zs & Hz & H1). injection H1 as <-. destruct m as [|b m]; [discriminate|]. cbn in H2. apply bind_ok in H2 as (y' & Hy' & H2). apply bind_ok in H2 as (zs' & Hz' & H2). injection H2 as -> ->.
    constructor; [eauto|]. exact (IH m zs Hz Hz').
Qed.

Section Core.
  Variables root1 root2 : tree.
  Hypothesis (F1 : finished root1) (F2 : finished root2) (U1 : builtins_unused root1) (U2 : builtins_unused root2).
  Variables tgt1 tgt2 : loc.
  Hypothesis Same : forall d1 d2 u1 u2, depends root1 tgt1 d1 -> depends root2 tgt2 d2 -> declared root1 d1 -> declared root2 d2 -> at_loc root1 d1 = Some u1 -> at_loc root2 d2 = Some u2 ->
    names_at root1 d1 = names_at root2 d2 -> exists dl, declaration root1 u1 = Ok dl /\ declaration root2 u2 = Ok dl.

  Lemma use_declared root l i c q d v : builtins_unused root -> at_loc root (l ++ [i])%list = Some c -> t_kind c = KRef q -> path_at root d = Some (target c) -> q <> RBuiltin -> at_loc root d = Some v -> is_supported (t_kind v) = true -> declared root d.
  Proof. intros U H K P N V S. exists v. split; [exact V|]. split; [exact S|]. apply (U (l ++ [i])%list q d); [exists c; auto|exact N]. Qed.

  Lemma type_same l1 l2 f1 f2 r1 ty1 o1 r2 ty2 o2 : depends root1 tgt1 l1 -> depends root2 tgt2 l2 -> at_loc root1 l1 = Some f1 -> at_loc root2 l2 = Some f2 -> t_kind f1 = KField r1 (Some ty1) o1 -> t_kind f2 = KField r2 (Some ty2) o2 ->
    field_type (ft_name ty1) = field_type (ft_name ty2) -> ft_signed ty1 = ft_signed ty2.
  Proof.
    intros D1 D2 H1 H2 K1 K2 E. destruct (f_fields _ F1 l1 f1 r1 ty1 o1 H1 K1) as [B1|(i1 & c1 & w1 & d1 & n1 & b1 & b1' & cs1 & Hc1 & Kc1 & Fd1 & Hd1 & M1 & T1)]; destruct (f_fields _ F2 l2 f2 r2 ty2 o2 H2 K2) as [B2|(i2 & c2 & w2 & d2 & n2 & b2 & b2' & cs2 & Hc2 & Kc2 & Fd2 & Hd2 & M2 & T2)].
    - destruct (basic_name ty1 B1) as (A1 & _ & S1). destruct (basic_name ty2 B2) as (A2 & _ & S2). congruence.
    - exfalso. destruct (basic_name ty1 B1) as (A1 & A2 & _). destruct (type_target root2 F2 _ _ _ Hc2 Kc2) as (X1 & X2). subst ty2. cbn [ft_name] in E. congruence.
    - exfalso. destruct (basic_name ty2 B2) as (A1 & A2 & _). destruct (type_target root1 F1 _ _ _ Hc1 Kc1) as (X1 & X2). subst ty1. cbn [ft_name] in E. congruence.
    - destruct (type_target root1 F1 _ _ _ Hc1 Kc1) as (X1 & _). destruct (type_target root2 F2 _ _ _ Hc2 Kc2) as (X2 & _). subst ty1 ty2. cbn [ft_name ft_signed] in *. rewrite X1, X2 in E.
      destruct (find_path _ _ _ Fd1) as (P1 & _). destruct (find_path _ _ _ Fd2) as (P2 & _).
      destruct (Same d1 d2 _ _ (depends_use _ _ l1 i1 _ d1 D1 (ref_points root1 _ _ _ _ _ Hc1 Kc1 P1) eq_refl) (depends_use _ _ l2 i2 _ d2 D2 (ref_points root2 _ _ _ _ _ Hc2 Kc2 P2) eq_refl)
        (use_declared root1 l1 i1 c1 _ d1 _ U1 Hc1 Kc1 P1 ltac:(discriminate) Hd1 eq_refl) (use_declared root2 l2 i2 c2 _ d2 _ U2 Hc2 Kc2 P2 ltac:(discriminate) Hd2 eq_refl) Hd1 Hd2) as (dl & L1 & L2).
      { rewrite (path_names root1 F1 _ _ P1), (path_names root2 F2 _ _ P2). now rewrite E. }
      pose proof (declaration_same _ _ _ _ _ L1 L2) as (_ & Eb). cbn in Eb. subst b2. congruence.
  Qed.

  Lemma fields_same d1 d2 : depends root1 tgt1 d1 -> depends root2 tgt2 d2 -> forall cs1 cs2 i1 i2 st fs s1 s2 z1 z2,
    (forall j c, nth_error cs1 j = Some c -> at_loc root1 (d1 ++ [(i1 + j)%nat])%list = Some c) -> (forall j c, nth_error cs2 j = Some c -> at_loc root2 (d2 ++ [(i2 + j)%nat])%list = Some c) ->
    mapM field_lines cs1 = Ok fs -> mapM field_lines cs2 = Ok fs -> layout_is s1 cs1 -> layout_is s2 cs2 -> consecutive st (fields_of cs1) z1 -> consecutive st (fields_of cs2) z2 -> s1 = s2 /\ z1 = z2.
  Proof.
    intros D1 D2 cs1 cs2 i1 i2 st fs s1 s2 z1 z2 L1 L2 M1 M2. pose proof (mapM_pairs _ _ _ _ _ M1 M2) as P. clear M1 M2 fs. revert i1 i2 st s1 s2 z1 z2 L1 L2. induction P as [|c1 c2 cs1 cs2 (y & E1 & E2) P IH]; intros i1 i2 st s1 s2 z1 z2 L1 L2 Y1 Y2 C1 C2.
    - inversion Y1; inversion Y2; subst. cbn in C1, C2. split; congruence.
    - inversion Y1 as [|g1 ? s1' ? (ra & ta & Ka & Na & Wa & Sa) Y1']; subst. inversion Y2 as [|g2 ? s2' ? (rb & tb & Kb & Nb & Wb & Sb) Y2']; subst.
      destruct (field_same _ _ _ E1 E2) as (r1 & ty1 & o1 & r2 & ty2 & o2 & K1 & K2 & En & Et & Ew). rewrite Ka in K1. injection K1 as <- <- <-. rewrite Kb in K2. injection K2 as <- <- <-.
      pose proof (L1 0%nat c1 eq_refl) as H1. pose proof (L2 0%nat c2 eq_refl) as H2. rewrite PeanoNat.Nat.add_0_r in H1, H2.
      assert (Es : ft_signed ta = ft_signed tb).
      { apply (type_same _ _ c1 c2 ra ta _ rb tb _ (depends_part _ _ _ _ _ D1 H1 ltac:(unfold is_ref; now rewrite Ka)) (depends_part _ _ _ _ _ D2 H2 ltac:(unfold is_ref; now rewrite Kb)) H1 H2 Ka Kb Et). }
      unfold fields_of in C1, C2. cbn [flat_map] in C1, C2. rewrite Ka in C1. rewrite Kb in C2. cbn [app consecutive] in C1, C2. destruct C1 as (O1 & x1 & X1 & C1). destruct C2 as (O2 & x2 & X2 & C2). injection X1 as <-. injection X2 as <-. injection O1 as O1. injection O2 as O2.
      rewrite Ew in C1. destruct (IH (S i1) (S i2) (st + ft_width tb) s1' s2' z1 z2) as (-> & ->); [| |exact Y1'|exact Y2'|exact C1|exact C2|].
      + intros j c Hj. replace (S i1 + j)%nat with (i1 + S j)%nat by lia. now apply L1.
      + intros j c Hj. replace (S i2 + j)%nat with (i2 + S j)%nat by lia. now apply L2.
      + split; [|reflexivity]. f_equal. destruct g1, g2. cbn in *. congruence.
  Qed.

  Lemma struct_same d1 d2 sd1 sd2 : depends root1 tgt1 d1 -> depends root2 tgt2 d2 -> declared root1 d1 -> declared root2 d2 -> names_at root1 d1 = names_at root2 d2 -> struct_is root1 d1 sd1 -> struct_is root2 d2 sd2 -> same_struct sd1 sd2.
  Proof.
    intros D1 D2 C1 C2 Nm (n1 & b1 & cs1 & H1 & N1 & Z1 & L1 & Y1) (n2 & b2 & cs2 & H2 & N2 & Z2 & L2 & Y2). destruct (Same d1 d2 _ _ D1 D2 C1 C2 H1 H2 Nm) as (dl & E1 & E2).
    destruct (declaration_same _ _ _ _ _ E1 E2) as (En & Ef). cbn [t_name t_kind t_children] in *. destruct Ef as (fs & M1 & M2).
    assert (Fl : forall root l n b cs, finished root -> at_loc root l = Some (Node n (KStructure b) cs) -> filter (fun c => is_field (t_kind c)) cs = cs).
    { clear. intros root l n b cs F H. pose proof (fun c => struct_children root F l _ b c H eq_refl) as X. cbn [t_children] in X. clear H. induction cs as [|c cs IH]; [reflexivity|]. cbn. rewrite (X c (or_introl eq_refl)). f_equal. apply IH. intros x Hx. apply X. now right. }
    rewrite (Fl root1 d1 n1 _ cs1 F1 H1) in M1. rewrite (Fl root2 d2 n2 _ cs2 F2 H2) in M2.
    destruct (b_layout _ (f_built _ F1) d1 n1 _ cs1 H1) as (z1 & Ez1 & Co1). destruct (b_layout _ (f_built _ F2) d2 n2 _ cs2 H2) as (z2 & Ez2 & Co2). injection Ez1 as <-. injection Ez2 as <-.
    destruct (fields_same d1 d2 D1 D2 cs1 cs2 0%nat 0%nat 0 fs (s_fields sd1) (s_fields sd2) b1 b2) as (Es & Eb); try assumption.
    - intros j c Hj. rewrite at_loc_app, H1. cbn. now rewrite Hj.
    - intros j c Hj. rewrite at_loc_app, H2. cbn. now rewrite Hj.
    - split; [|split; [exact Es|split; [congruence|intros k; rewrite Y1, Y2, Es; tauto]]]. rewrite N1, N2. unfold py_class. rewrite H1, H2. cbn [t_name].
      pose proof (declared_names root1 F1 d1 _ H1 eq_refl) as Q1. pose proof (declared_names root2 F2 d2 _ H2 eq_refl) as Q2. rewrite Nm, Q2 in Q1. injection Q1 as Q1. apply app_inj_tail in Q1 as (-> & _). cbn [t_name] in En. now rewrite En.
  Qed.

  Lemma structs_same l1 l2 r1 r2 sds1 sds2 : depends root1 tgt1 l1 -> depends root2 tgt2 l2 -> at_loc root1 l1 = Some r1 -> at_loc root2 l2 = Some r2 ->
    map target (children_like r1 is_structure_ref) = map target (children_like r2 is_structure_ref) -> structs_of root1 l1 RStructure sds1 -> structs_of root2 l2 RStructure sds2 -> Forall2 same_struct sds1 sds2.
  Proof.
    intros D1 D2 H1 H2 E S1 S2. apply (structs_list root1 l1 r1 _ H1) in S1. apply (structs_list root2 l2 r2 _ H2) in S2. revert sds2 S2 E. generalize (children_like r2 is_structure_ref). induction S1 as [|c1 sd1 cs1 sds1 (i1 & d1 & Hc1 & K1 & P1 & Q1) S1 IH]; intros cs2 sds2 S2 E.
    - destruct cs2; [|discriminate]. inversion S2. constructor.
    - destruct cs2 as [|c2 cs2]; [discriminate|]. cbn [map] in E. injection E as E Er. inversion S2 as [|? sd2 ? sds2' (i2 & d2 & Hc2 & K2 & P2 & Q2) S2']; subst. constructor; [|exact (IH cs2 sds2' S2' Er)].
      assert (X1 : exists v, at_loc root1 d1 = Some v /\ is_supported (t_kind v) = true) by (destruct Q1 as (n & b & cs & Hd & _); eexists; split; [exact Hd|reflexivity]). destruct X1 as (v1 & V1 & W1).
      assert (X2 : exists v, at_loc root2 d2 = Some v /\ is_supported (t_kind v) = true) by (destruct Q2 as (n & b & cs & Hd & _); eexists; split; [exact Hd|reflexivity]). destruct X2 as (v2 & V2 & W2).
      apply (struct_same d1 d2); try assumption.
      + exact (depends_use _ _ l1 i1 RStructure d1 D1 (ref_points root1 _ _ _ _ _ Hc1 K1 P1) eq_refl).
      + exact (depends_use _ _ l2 i2 RStructure d2 D2 (ref_points root2 _ _ _ _ _ Hc2 K2 P2) eq_refl).
      + exact (use_declared root1 l1 i1 c1 _ d1 v1 U1 Hc1 K1 P1 ltac:(discriminate) V1 W1).
      + exact (use_declared root2 l2 i2 c2 _ d2 v2 U2 Hc2 K2 P2 ltac:(discriminate) V2 W2).
      + now rewrite (path_names root1 F1 _ _ P1), (path_names root2 F2 _ _ P2), E.
  Qed.

  Lemma index_same root l r w o m it : finished root -> at_loc root l = Some r -> t_kind r = KResource (KMultivector w) o m -> structs_of root l RBuiltin [it] ->
    s_fields it = [FSig "value" 0 (if w =? 0 then 64 else Z.of_N (Z.to_N w)) false] /\ s_size it = ((if w =? 0 then 64 else Z.of_N (Z.to_N w)) + 7) / 8 /\ forall k, In k (s_keys it) <-> In k (map f_name (s_fields it)).
  Proof.
    intros F H K (t & Ht & Fs). rewrite H in Ht. injection Ht as <-.
    match type of Fs with Forall2 _ (filter ?p _) _ => assert (E : filter p (t_children r) = children_like r is_builtin_ref) by (unfold children_like; apply filter_ext; intros c; now destruct (t_kind c) as [| | | | | | | | | |[]]) end. rewrite E in Fs. clear E.
    destruct (f_index _ F l r w o m H K) as (i & c & d & v & Hi & Kc & Fd & Hv & Ix & _).
    assert (Hc : In c (children_like r is_builtin_ref)). { unfold children_like. apply filter_In. split; [|now rewrite Kc]. rewrite at_loc_app, H in Hi. cbn in Hi. destruct (nth_error (t_children r) i) eqn:N; [|discriminate]. injection Hi as <-. exact (nth_error_In _ _ N). }
    destruct (children_like r is_builtin_ref) as [|c' cs0]; [destruct Hc|]. inversion Fs as [|? ? ? ? (d' & P & S) Fs']; subst. inversion Fs'; subst. destruct Hc as [<-|[]].
    assert (d' = d). { pose proof (path_find root d' _ (good_wf _ (proj1 (b_rooted _ (f_built _ F)))) (rooted_dot _ (b_rooted _ (f_built _ F))) P) as X. congruence. } subst d'.
    destruct S as (n & b & cs & Hd & _ & Z & L & Y). rewrite Hv in Hd. injection Hd as Ev. destruct Ix as (_ & Iv). rewrite Ev in Iv. injection Iv as _ -> ->.
    inversion L as [|f ? fs ? (rng & ty & Kf & Nf & Wf & Sf) L']; subst. inversion L'; subst. cbn in Kf. injection Kf as _ <- Ko. split; [|split; [exact Z|intros k; rewrite Y; match goal with Q : [_] = s_fields it |- _ => rewrite <- Q end; tauto]]. f_equal. destruct f. cbn in *. congruence.
  Qed.

  (** one more resource on the other side *)
  Lemma resources_next l i cs rs : resources_are root2 l i cs rs -> forall t ts, filter (fun c => is_supported_resource (t_kind c)) cs = t :: ts -> (forall j c, nth_error cs j = Some c -> at_loc root2 (l ++ [(i + j)%nat])%list = Some c) ->
    exists k cs' rs' rk o m c s, resources_are root2 l (S k) cs' rs' /\ filter (fun c => is_supported_resource (t_kind c)) cs' = ts /\ (forall j c, nth_error cs' j = Some c -> at_loc root2 (l ++ [(S k + j)%nat])%list = Some c)
      /\ at_loc root2 (l ++ [k])%list = Some t /\ t_kind t = KResource rk o m /\ container_is root2 (l ++ [k])%list rk c /\ rs = (t_name t, RSig c (ascii_bytes s) o) :: rs'.
  Proof.
    induction 1 as [|l i t0 ts0 rs N R IH|l i t0 ts0 rs rk o m c s K Nb C Sx R IH]; intros t ts E L.
    - discriminate.
    - assert (is_supported_resource (t_kind t0) = false) as E0. { destruct (t_kind t0) eqn:K0; try reflexivity. cbn. now rewrite (N rk optional max_size eq_refl). }
      cbn [filter] in E. rewrite E0 in E. apply IH; [exact E|]. intros j c Hj. replace (S i + j)%nat with (i + S j)%nat by lia. now apply L.
    - assert (is_supported_resource (t_kind t0) = true) as E0 by (rewrite K; destruct rk; try reflexivity; congruence). cbn [filter] in E. rewrite E0 in E. injection E as <- <-. exists i, ts0, rs, rk, o, m, c, s. split; [exact R|]. split; [reflexivity|]. split.
      + intros j x Hj. replace (S i + j)%nat with (i + S j)%nat by lia. now apply L.
      + split; [|auto]. specialize (L 0%nat t0 eq_refl). now rewrite PeanoNat.Nat.add_0_r in L.
  Qed.
  Lemma resources_end l i cs rs : resources_are root2 l i cs rs -> filter (fun c => is_supported_resource (t_kind c)) cs = [] -> rs = [].
  Proof.
    induction 1 as [|l i t0 ts0 rs N R IH|l i t0 ts0 rs rk o m c s K Nb C Sx R IH]; intros E; [reflexivity| |].
    - cbn [filter] in E. destruct (is_supported_resource (t_kind t0)); [discriminate|]. auto.
    - exfalso. assert (is_supported_resource (t_kind t0) = true) as E0 by (rewrite K; destruct rk; try reflexivity; congruence). cbn [filter] in E. rewrite E0 in E. discriminate.
  Qed.

  Definition P_archive (l1 : loc) (a1 : adef) (_ : archive_is root1 l1 a1) : Prop :=
    forall l2 a2, archive_is root2 l2 a2 -> depends root1 tgt1 l1 -> depends root2 tgt2 l2 -> declared root1 l1 -> declared root2 l2 -> names_at root1 l1 = names_at root2 l2 -> same_archive a1 a2.
  Definition P_resources (l1 : loc) (i1 : nat) (cs1 : list tree) (rs1 : list (string * rsig)) (_ : resources_are root1 l1 i1 cs1 rs1) : Prop :=
    forall l2 i2 cs2 rs2 ys, resources_are root2 l2 i2 cs2 rs2 -> depends root1 tgt1 l1 -> depends root2 tgt2 l2 ->
      (forall j c, nth_error cs1 j = Some c -> at_loc root1 (l1 ++ [(i1 + j)%nat])%list = Some c) -> (forall j c, nth_error cs2 j = Some c -> at_loc root2 (l2 ++ [(i2 + j)%nat])%list = Some c) ->
      mapM (resource_lines root1) (filter (fun c => is_supported_resource (t_kind c)) cs1) = Ok ys -> mapM (resource_lines root2) (filter (fun c => is_supported_resource (t_kind c)) cs2) = Ok ys -> same_resources rs1 rs2.
  Definition P_container (l1 : loc) (k1 : reskind) (c1 : container) (_ : container_is root1 l1 k1 c1) : Prop :=
    forall l2 k2 c2 r1 r2 o1 m1 o2 m2 ty, container_is root2 l2 k2 c2 -> depends root1 tgt1 l1 -> depends root2 tgt2 l2 -> at_loc root1 l1 = Some r1 -> at_loc root2 l2 = Some r2 ->
      t_kind r1 = KResource k1 o1 m1 -> t_kind r2 = KResource k2 o2 m2 -> resource_type root1 r1 = Ok ty -> resource_type root2 r2 = Ok ty -> same_container c1 c2.

  Theorem all_same : (forall l a A, P_archive l a A) /\ (forall l i cs rs R, P_resources l i cs rs R) /\ (forall l k c C, P_container l k c C).
  Proof.
    apply (archive_is_all root1 P_archive P_resources P_container); unfold P_archive, P_resources, P_container.
    - intros l1 t1 s1 rs1 H1 K1 S1 R1 IH l2 a2 A2 D1 D2 C1 C2 Nm. inversion A2 as [? t2 s2 rs2 H2 K2 S2 R2]; subst.
      destruct (Same l1 l2 t1 t2 D1 D2 C1 C2 H1 H2 Nm) as (dl & E1 & E2). destruct (declaration_same _ _ _ _ _ E1 E2) as (En & X). rewrite K1, K2 in X. destruct X as (ys & M1 & M2). rewrite En. constructor. constructor; [constructor|].
      apply (IH l2 0%nat (t_children t2) rs2 ys R2 D1 D2); [| |exact M1|exact M2].
      + intros j c Hj. rewrite at_loc_app, H1. cbn. now rewrite Hj.
      + intros j c Hj. rewrite at_loc_app, H2. cbn. now rewrite Hj.
    - intros l1 i1 l2 i2 cs2 rs2 ys R2 D1 D2 L1 L2 M1 M2. cbn in M1. injection M1 as <-. assert (E : filter (fun c => is_supported_resource (t_kind c)) cs2 = []).
      { destruct (filter (fun c => is_supported_resource (t_kind c)) cs2); [reflexivity|]. cbn in M2. apply bind_ok in M2 as (y & _ & M2). apply bind_ok in M2 as (z & _ & M2). discriminate. }
      rewrite (resources_end _ _ _ _ R2 E). constructor.
    - intros l1 i1 t1 ts1 rs1 N R1 IH l2 i2 cs2 rs2 ys R2 D1 D2 L1 L2 M1 M2. apply (IH l2 i2 cs2 rs2 ys R2 D1 D2); [|exact L2| |exact M2].
      + intros j c Hj. replace (S i1 + j)%nat with (i1 + S j)%nat by lia. now apply L1.
      + assert (is_supported_resource (t_kind t1) = false) as E0. { destruct (t_kind t1) eqn:K0; try reflexivity. cbn. now rewrite (N rk optional max_size eq_refl). } cbn [filter] in M1. now rewrite E0 in M1.
    - intros l1 i1 t1 ts1 rs1 rk1 o1 m1 c1 s1 K1 Nb C1 IHc S1 R1 IH l2 i2 cs2 rs2 ys R2 D1 D2 L1 L2 M1 M2.
      assert (is_supported_resource (t_kind t1) = true) as E0 by (rewrite K1; destruct rk1; try reflexivity; congruence). cbn [filter] in M1. rewrite E0 in M1. cbn [mapM] in M1. apply bind_ok in M1 as (y & Y1 & M1). apply bind_ok in M1 as (zs & Z1 & M1). injection M1 as <-.
      destruct (filter (fun c => is_supported_resource (t_kind c)) cs2) as [|t2 ts2] eqn:E2; [discriminate|]. cbn [mapM] in M2. apply bind_ok in M2 as (y' & Y2 & M2). apply bind_ok in M2 as (zs' & Z2 & M2). injection M2 as -> ->.
      destruct (resources_next _ _ _ _ R2 t2 ts2 E2 L2) as (k & cs' & rs' & rk2 & o2 & m2 & c2 & s2 & R2' & Ef & L2' & H2 & K2 & C2 & ->).
      pose proof (L1 0%nat t1 eq_refl) as H1. rewrite PeanoNat.Nat.add_0_r in H1. destruct (resource_same _ _ _ _ _ Y1 Y2) as (En & ty & k1 & k2 & o & x1 & x2 & T1 & T2 & Q1 & Q2). rewrite K1 in Q1. injection Q1 as <- <- <-. rewrite K2 in Q2. injection Q2 as <- -> <-.
      rewrite En. constructor.
      + apply (IHc (l2 ++ [k])%list rk2 c2 t1 t2 o1 m1 o1 m2 ty C2); try assumption.
        * apply (depends_part _ _ _ _ t1 D1 H1). unfold is_ref. now rewrite K1.
        * apply (depends_part _ _ _ _ t2 D2 H2). unfold is_ref. now rewrite K2.
      + apply (IH l2 (S k) cs' rs' zs R2' D1 D2); [|exact L2'|exact Z1|now rewrite Ef]. intros j c Hj. replace (S i1 + j)%nat with (i1 + S j)%nat by lia. now apply L1.
    - intros l1 sd1 S1 l2 k2 c2 r1 r2 o1 m1 o2 m2 ty C2 D1 D2 H1 H2 K1 K2 T1 T2. pose proof (type_words root1 F1 U1 l1 r1 _ o1 m1 ty H1 K1 T1) as (x & Ex & -> & Fx). pose proof (type_words root2 F2 U2 l2 r2 _ o2 m2 _ H2 K2 T2) as W2. inversion C2; subst; cbn iota in W2.
      + destruct W2 as (z & Ez & Et & _). injection Et as Et. constructor. assert (Q : Forall2 same_struct [sd1] [sd]) by (apply (structs_same l1 l2 r1 r2); try assumption; rewrite Ex, Ez; cbn; now rewrite Et). now inversion Q.
      + destruct W2 as (z & _ & Et). discriminate.
      + destruct W2 as (Et & _). discriminate.
      + injection W2 as W2. rewrite W2 in Fx. discriminate.
      + destruct W2 as (z & j & _ & _ & _ & Et). discriminate.
    - intros l1 sd1 S1 l2 k2 c2 r1 r2 o1 m1 o2 m2 ty C2 D1 D2 H1 H2 K1 K2 T1 T2. pose proof (type_words root1 F1 U1 l1 r1 _ o1 m1 ty H1 K1 T1) as (x & Ex & ->). pose proof (type_words root2 F2 U2 l2 r2 _ o2 m2 _ H2 K2 T2) as W2. inversion C2; subst; cbn iota in W2.
      + destruct W2 as (z & _ & Et & _). discriminate.
      + destruct W2 as (z & Ez & Et). assert (Et' : target x = target z) by exact (f_equal (fun l => nth 1 l "") Et). constructor. assert (Q : Forall2 same_struct [sd1] [sd]) by (apply (structs_same l1 l2 r1 r2); try assumption; rewrite Ex, Ez; cbn; now rewrite Et'). now inversion Q.
      + destruct W2 as (Et & _). discriminate.
      + discriminate.
      + destruct W2 as (z & j & _ & _ & _ & Et). discriminate.
    - intros l1 w1 it1 ts1 I1 S1 l2 k2 c2 r1 r2 o1 m1 o2 m2 ty C2 D1 D2 H1 H2 K1 K2 T1 T2. pose proof (type_words root1 F1 U1 l1 r1 _ o1 m1 ty H1 K1 T1) as (-> & Fx). pose proof (type_words root2 F2 U2 l2 r2 _ o2 m2 _ H2 K2 T2) as W2. inversion C2; subst; cbn iota in W2.
      + destruct W2 as (z & _ & Et & _). discriminate.
      + destruct W2 as (z & _ & Et). discriminate.
      + destruct W2 as (Et & Fz). assert (Ew : py_str w1 ++ "," = py_str w ++ ",") by exact (f_equal (fun l => nth 1 l "") Et). apply app_inv_tail_string, py_str_inj in Ew. subst w.
        match type of Et with (_ :: _ :: ?a ++ _)%list = (_ :: _ :: ?b ++ _)%list => assert (Ec : (a ++ [">"] = b ++ [">"])%list) by exact (f_equal (@skipn string 2) Et) end. apply app_inj_tail in Ec as (Ec & _). apply comma_dots in Ec; [|exact Fx|exact Fz].
        constructor; [|exact (structs_same l1 l2 r1 r2 _ _ D1 D2 H1 H2 Ec S1 H0)]. destruct (index_same root1 l1 r1 _ _ _ _ F1 H1 K1 I1) as (A1 & A2 & A3). destruct (index_same root2 l2 r2 _ _ _ _ F2 H2 K2 H) as (B1 & B2 & B3). split; [congruence|]. split; [congruence|]. intros k. rewrite A3, B3, A1, B1. tauto.
      + discriminate.
      + destruct W2 as (z & j & _ & _ & _ & Et). discriminate.
    - intros l1 l2 k2 c2 r1 r2 o1 m1 o2 m2 ty C2 D1 D2 H1 H2 K1 K2 T1 T2. pose proof (type_words root1 F1 U1 l1 r1 _ o1 m1 ty H1 K1 T1) as ->. pose proof (type_words root2 F2 U2 l2 r2 _ o2 m2 _ H2 K2 T2) as W2. inversion C2; subst; cbn iota in W2.
      + destruct W2 as (z & _ & Et & Fz). injection Et as Et. rewrite <- Et in Fz. discriminate.
      + destruct W2 as (z & _ & Et). discriminate.
      + destruct W2 as (Et & _). discriminate.
      + constructor.
      + destruct W2 as (z & j & _ & _ & _ & Et). discriminate.
    - intros l1 i1 d1 a1 P1 A1 IH l2 k2 c2 r1 r2 o1 m1 o2 m2 ty C2 D1 D2 H1 H2 K1 K2 T1 T2. pose proof (type_words root1 F1 U1 l1 r1 _ o1 m1 ty H1 K1 T1) as (x & j1 & Ex & Hx & Kx & ->). pose proof (type_words root2 F2 U2 l2 r2 _ o2 m2 _ H2 K2 T2) as W2. inversion C2; subst; cbn iota in W2.
      + destruct W2 as (z & _ & Et & _). discriminate.
      + destruct W2 as (z & _ & Et). discriminate.
      + destruct W2 as (Et & _). discriminate.
      + discriminate.
      + destruct W2 as (z & j2 & Ez & Hz & Kz & Et). assert (Et' : target x = target z) by exact (f_equal (fun l => nth 1 l "") Et).
        assert (Only : forall root l r x i d, at_loc root l = Some r -> children_like r is_archive_ref = [x] -> points_to root (l ++ [i])%list RArchive d -> path_at root d = Some (target x)).
        { clear. intros root l r x i d H E (c & Hc & Kc & P). assert (In c (children_like r is_archive_ref)) as Hin. { unfold children_like. apply filter_In. split; [|now rewrite Kc]. rewrite at_loc_app, H in Hc. cbn in Hc. destruct (nth_error (t_children r) i) eqn:N; [|discriminate]. injection Hc as <-. exact (nth_error_In _ _ N). }
          rewrite E in Hin. destruct Hin as [->|[]]. exact P. }
        match goal with Q : points_to root2 _ RArchive _, A2 : archive_is root2 _ _ |- _ => pose proof (Only root1 l1 r1 x i1 d1 H1 Ex P1) as Q1; pose proof (Only root2 l2 r2 z _ _ H2 Ez Q) as Q2; constructor; apply (IH _ _ A2) end.
        * exact (depends_use _ _ l1 i1 RArchive d1 D1 P1 eq_refl).
        * eapply (depends_use _ _ l2 _ RArchive); [exact D2|eassumption|reflexivity].
        * inversion A1; subst. eexists. split; [eassumption|]. split; [match goal with K : t_kind _ = KArchive |- _ => now rewrite K end|]. apply (U1 _ _ _ P1). discriminate.
        * match goal with A2 : archive_is root2 _ _ |- _ => inversion A2; subst end. eexists. split; [eassumption|]. split; [match goal with K : t_kind ?t = KArchive, H : at_loc root2 _ = Some ?t |- _ => now rewrite K end|]. eapply U2; [eassumption|discriminate].
        * now rewrite (path_names root1 F1 _ _ Q1), (path_names root2 F2 _ _ Q2), Et'.
  Qed.
End Core.
