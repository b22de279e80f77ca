(** Facts about paths and names. *)
From Coq Require Import List ZArith Bool String Ascii Lia Permutation.
From Verif Require Import PyBase PyText GenTypes GenTypesFacts GenTree GenTreeFacts GenTraversal GenBuild GenBuildFacts GenPassFacts GenAstFacts GenAstSpec GenLayoutFacts
  GenResolveFacts GenMergeFacts GenShapeFacts GenEvery GenFieldFacts GenTidy GenWords GenOutFacts GenFinal GenRender GenNames GenPaths PathSpec.
Import ListNotations.
Local Open Scope string_scope.

(** ** Characters *)
Lemma word_no_colon s : word s -> no_colon s.
Proof.
  unfold word. induction s as [|c s IH]; cbn; [auto|]. intros H. apply andb_true_iff in H as (A & B). split; [|now apply IH]. intros ->. discriminate.
Qed.
Lemma no_colon_app a b : no_colon (a ++ b) <-> no_colon a /\ no_colon b.
Proof. induction a as [|c a IH]; cbn; [tauto|]. rewrite IH. tauto. Qed.

(** ** Texts with separators *)
Lemma app_assoc_str a b c : (a ++ b) ++ c = a ++ (b ++ c). Proof. induction a as [|x a IH]; cbn; [reflexivity|now rewrite IH]. Qed.
Lemma app_empty_r s : s ++ "" = s. Proof. induction s as [|c s IH]; cbn; [reflexivity|now rewrite IH]. Qed.
Lemma sep_app sep a b : a <> [] -> b <> [] -> separated_by sep (a ++ b)%list = separated_by sep a ++ sep ++ separated_by sep b.
Proof.
  intros Ha Hb. induction a as [|x a IH]; [congruence|]. destruct a as [|y a].
  - cbn [app separated_by]. destruct b; [congruence|reflexivity].
  - change (separated_by sep ((x :: y :: a) ++ b)%list) with (x ++ sep ++ separated_by sep ((y :: a) ++ b)%list). change (separated_by sep (x :: y :: a)) with (x ++ sep ++ separated_by sep (y :: a)).
    rewrite IH by discriminate. now rewrite !app_assoc_str.
Qed.
Lemma join_sep sep l : join sep l = separated_by sep l.
Proof. unfold join. induction l as [|x l IH]; [reflexivity|]. destruct l as [|y l]; [reflexivity|]. cbn [String.concat separated_by] in *. now rewrite IH. Qed.
Lemma replace_dots_app sep a b : replace_dots sep (a ++ b) = replace_dots sep a ++ replace_dots sep b.
Proof. induction a as [|c a IH]; cbn; [reflexivity|]. now rewrite IH, app_assoc_str. Qed.
Lemma replace_dots_free sep s : has_char "." s = false -> replace_dots sep s = s.
Proof. induction s as [|c s IH]; cbn; [reflexivity|]. intros H. apply orb_false_iff in H as (A & B). rewrite A. cbn. now rewrite IH. Qed.
Lemma replace_dots_join sep l : dot_free l -> replace_dots sep (join "." l) = separated_by sep l.
Proof.
  intros H. rewrite join_sep. induction H as [|x l Hx H IH]; [reflexivity|]. destruct l as [|y l]; [now apply replace_dots_free|].
  change (separated_by "." (x :: y :: l)) with (x ++ "." ++ separated_by "." (y :: l)). change (separated_by sep (x :: y :: l)) with (x ++ sep ++ separated_by sep (y :: l)).
  rewrite !replace_dots_app, IH, (replace_dots_free sep x Hx). cbn. now rewrite app_empty_r.
Qed.

(** A text determines its segments *)
Lemma colon_split a : forall b x y, no_colon a -> no_colon b -> (x = "" \/ exists t, x = String ":" t) -> (y = "" \/ exists t, y = String ":" t) -> a ++ x = b ++ y -> a = b /\ x = y.
Proof.
  induction a as [|c a IH]; intros [|d b] x y Ha Hb Hx Hy H; cbn in *.
  - auto.
  - destruct Hx as [->|(t & ->)]; [discriminate|]. injection H as <- _. now destruct Hb.
  - destruct Hy as [->|(t & ->)]; [discriminate|]. injection H as -> _. now destruct Ha.
  - injection H as -> H. destruct (IH b x y (proj2 Ha) (proj2 Hb) Hx Hy H) as (-> & ->). auto.
Qed.
Lemma segments_unique a : forall b, Forall no_colon a -> Forall no_colon b -> a <> [] -> b <> [] -> separated_by "::" a = separated_by "::" b -> a = b.
Proof.
  induction a as [|x a IH]; intros [|y b] Ha Hb Na Nb H; try congruence. inversion Ha as [|? ? Hx Ha']; subst. inversion Hb as [|? ? Hy Hb']; subst.
  assert (X : forall s l, separated_by "::" (s :: l) = s ++ match l with [] => "" | _ => "::" ++ separated_by "::" l end).
  { intros s [|z l]; cbn; [now rewrite app_empty_r|reflexivity]. }
  rewrite !X in H. apply colon_split in H as (-> & H); [|assumption|assumption|destruct a; cbn; eauto|destruct b; cbn; eauto].
  destruct a as [|a1 a], b as [|b1 b]; try discriminate; [reflexivity|]. cbn [append] in H. injection H as H. f_equal. apply IH; auto; discriminate.
Qed.
Lemma repeat_app_inj {A} (x : A) i : forall j a b, (forall y, hd_error a = Some y -> y <> x) -> (forall y, hd_error b = Some y -> y <> x) -> a <> [] -> b <> [] ->
  (repeat x i ++ a = repeat x j ++ b)%list -> i = j /\ a = b.
Proof.
  induction i as [|i IH]; intros [|j] a b Ha Hb Na Nb H; cbn in *; auto.
  - subst. exfalso. now apply (Ha x).
  - subst. exfalso. now apply (Hb x).
  - injection H as H. destruct (IH j a b Ha Hb Na Nb H) as (-> & ->). auto.
Qed.
Lemma no_colon_super k : Forall no_colon (repeat "super" k).
Proof. apply Forall_forall. intros x Hx. apply repeat_spec in Hx. subst. cbn. repeat split; discriminate. Qed.
Lemma rust_names_unique here text m n m' n' : rust_names here text m n -> rust_names here text m' n' -> m = m' /\ n = n'.
Proof.
  intros (up & down & names & Nd & E & -> & T & Fo) (up' & down' & names' & Nd' & E' & -> & T' & Fo').
  assert (C : forall k l, Forall (fun s => s <> "" /\ s <> "super" /\ no_colon s) l -> Forall no_colon (repeat "super" k ++ l)).
  { intros k l H. apply Forall_app. split; [apply no_colon_super|]. eapply Forall_impl; [|exact H]. cbn. tauto. }
  assert (S : forall l z, Forall (fun s => s <> "" /\ s <> "super" /\ no_colon s) (l ++ [z])%list -> forall y, hd_error (l ++ [z])%list = Some y -> y <> "super").
  { intros l z H y Hy. rewrite Forall_forall in H. destruct (l ++ [z])%list as [|w ws]; [discriminate|]. injection Hy as ->. destruct (H y (or_introl eq_refl)) as (_ & Q & _). exact Q. }
  rewrite T in T'. apply segments_unique in T'; [|now apply C|now apply C|destruct down; [congruence|discriminate]|destruct down'; [congruence|discriminate]].
  apply repeat_app_inj in T' as (L & T'); [|now apply S|now apply S|destruct names; discriminate|destruct names'; discriminate].
  apply app_inj_tail in T' as (-> & ->). split; [|reflexivity]. f_equal.
  rewrite E in E'. assert (Lu : List.length up = List.length up') by (apply (f_equal (@List.length _)) in E'; rewrite !app_length in E'; lia).
  clear - E' Lu. revert up' E' Lu. induction up as [|x up IH]; intros [|y up'] E' Lu; cbn in *; try discriminate; [reflexivity|]. injection E' as -> E'. f_equal. apply IH; [exact E'|lia].
Qed.
Lemma cpp_names_unique text m n m' n' : cpp_names text m n -> cpp_names text m' n' -> m = m' /\ n = n'.
Proof.
  intros (T & F) (T' & F'). rewrite T in T'. cbn [append] in T'. injection T' as T'. 
  apply segments_unique in T'; [|eapply Forall_impl; [|exact F]; cbn; tauto|eapply Forall_impl; [|exact F']; cbn; tauto|destruct m; discriminate|destruct m'; discriminate].
  now apply app_inj_tail in T'.
Qed.

Lemma names_length t l : forall ns, names_at t l = Some ns -> List.length ns = S (List.length l).
Proof.
  revert t. induction l as [|i l IH]; intros t ns H; cbn in H; [now injection H as <-|]. destruct (nth_error (t_children t) i) as [c|]; [|discriminate]. destruct (names_at c l) as [m|] eqn:E; [|discriminate].
  injection H as <-. cbn. now rewrite (IH _ _ E).
Qed.
Lemma words_no_colon root l ns : every word_node root -> names_at root l = Some ns -> Forall no_colon ns.
Proof.
  intros W. assert (X : forall l t ns, every word_node t -> names_at t l = Some ns -> Forall no_colon ns); [|eauto]. clear. intros l. induction l as [|i l IH]; intros t ns W H; cbn in H.
  - injection H as <-. repeat constructor. apply word_no_colon. exact (proj1 (every_here _ _ W)).
  - destruct (nth_error (t_children t) i) as [c|] eqn:Hc; [|discriminate]. destruct (names_at c l) as [m|] eqn:Nm; [|discriminate]. injection H as <-.
    constructor; [apply word_no_colon; exact (proj1 (every_here _ _ W))|]. exact (IH c m (every_child _ _ _ W (nth_error_In _ _ Hc)) Nm).
Qed.
Lemma names_not_empty t l ns : wf t -> names_at t l = Some ns -> Forall (fun s => s <> "") (tl ns).
Proof.
  revert t ns. induction l as [|i l IH]; intros t ns W H; cbn in H; [injection H as <-; constructor|]. destruct (nth_error (t_children t) i) as [c|] eqn:Hc; [|discriminate].
  destruct (names_at c l) as [m|] eqn:Nm; [|discriminate]. injection H as <-. cbn. specialize (IH c m (wf_child _ _ _ W Hc) Nm).
  assert (exists m', m = t_name c :: m') as (m' & ->) by (destruct l; cbn in Nm; [injection Nm as <-; eauto|]; destruct (nth_error (t_children c) n); [|discriminate]; destruct (names_at t0 l); [|discriminate]; injection Nm as <-; eauto).
  constructor; [|exact IH]. destruct (wf_here _ W) as (_ & Fo). rewrite Forall_forall in Fo. specialize (Fo c (nth_error_In _ _ Hc)). unfold name_ok in Fo. apply andb_true_iff in Fo as (_ & Fo). intros E. rewrite E in Fo. discriminate.
Qed.

Section Paths.
  Local Open Scope list_scope.
  Variable root : tree.
  Hypothesis (F : finished root) (W : every word_node root).
  Local Notation Bu := (f_built _ F).
  Lemma root_wf : wf root. Proof. apply good_wf. exact (proj1 (b_rooted _ Bu)). Qed.
  Lemma root_name : t_name root = "". Proof. exact (proj1 (proj2 (b_rooted _ Bu))). Qed.
  Lemma root_kind : t_kind root = KRoot. Proof. exact (proj2 (proj2 (b_rooted _ Bu))). Qed.
  Lemma edge_at p i u v : at_loc root p = Some u -> at_loc root (p ++ [i]) = Some v -> edge true (t_kind u) (t_kind v).
  Proof.
    intros Hu Hv. destruct (parent_at _ _ _ _ Hv) as (u' & Hu' & Hc). rewrite Hu in Hu'. injection Hu' as <-. destruct (b_shape _ Bu p u Hu) as (Fo & _). rewrite Forall_map, Forall_forall in Fo. exact (Fo v (nth_error_In _ _ Hc)).
  Qed.
  Lemma kind_root_here q u : at_loc root q = Some u -> t_kind u = KRoot -> q = [].
  Proof.
    intros Hu K. destruct q as [|j q] using rev_ind; [reflexivity|]. destruct (parent_at _ _ _ _ Hu) as (w & Hw & _). pose proof (edge_at q j w u Hw Hu) as E. rewrite K in E. destruct (t_kind w); cbn in E; try contradiction; destruct rk; contradiction.
  Qed.
  Lemma namespaces_above p u : at_loc root p = Some u -> t_kind u = KNamespace -> forall q r w, p = (q ++ r)%list -> q <> [] -> at_loc root q = Some w -> t_kind w = KNamespace.
  Proof.
    revert u. induction p as [|i p IH] using rev_ind; intros u Hu K q r w E Nq Hw.
    - symmetry in E. apply app_eq_nil in E as (-> & _). congruence.
    - destruct r as [|j r _] using rev_ind; [rewrite app_nil_r in E; subst q; congruence|]. rewrite app_assoc in E. apply app_inj_tail in E as (-> & <-).
      destruct (parent_at _ _ _ _ Hu) as (x & Hx & _). destruct (f_namespace _ F _ _ _ _ Hx Hu K) as [Kx|Kx].
      + pose proof (kind_root_here _ _ Hx Kx) as E. apply app_eq_nil in E as (-> & _). congruence.
      + exact (IH x Hx Kx q r w eq_refl Nq Hw).
  Qed.
  Lemma declared_intro l v : at_loc root l = Some v -> is_declared (t_kind v) = true -> exists m, declared root l m v.
  Proof.
    intros H K. destruct l as [|i p _] using rev_ind; [cbn in H; injection H as <-; rewrite root_kind in K; discriminate|].
    destruct (parent_at _ _ _ _ H) as (u & Hu & _). pose proof (edge_at p i u v Hu H) as E.
    assert (Ku : t_kind u = KNamespace) by (destruct (t_kind u) as [| | | | | | | |rk o mx| |r], (t_kind v); cbn in K, E; try discriminate; try contradiction; try reflexivity; destruct rk; try contradiction; reflexivity).
    destruct (proj1 (names_at_some root p) (ex_intro _ u Hu)) as (ns & Hn). destruct (names_find _ _ root_wf _ Hn) as (m & -> & _). exists m, p, i. repeat split; auto.
    intros q r w E' Nq Hw. exact (namespaces_above p u Hu Ku q r w E' Nq Hw).
  Qed.
  Lemma declared_names l m v : declared root l m v -> names_at root l = Some ("" :: m ++ [t_name v])%list /\ List.length l = S (List.length m).
  Proof.
    intros (p & i & -> & Hv & _ & Hn & _). destruct (parent_at _ _ _ _ Hv) as (u & Hu & Hc). pose proof root_name as Rn. rewrite Rn in Hn. pose proof (names_snoc root p i u v _ Hu Hc Hn) as N. split; [exact N|].
    apply names_length in N. cbn in N. rewrite !app_length in *. cbn in *. lia.
  Qed.
  Lemma declared_same l m v l' m' v' : declared root l m v -> declared root l' m' v' -> m = m' -> t_name v = t_name v' -> l = l'.
  Proof.
    intros D D' -> E. destruct (declared_names _ _ _ D) as (N & _). destruct (declared_names _ _ _ D') as (N' & _). rewrite E in N.
    destruct (names_find _ _ root_wf _ N) as (ks & A & Fk). destruct (names_find _ _ root_wf _ N') as (ks' & A' & Fk'). injection A as _ <-. injection A' as _ <-. congruence.
  Qed.
  Lemma declared_module l m v m' v' : declared root l m v -> declared root l m' v' -> m = m' /\ v = v'.
  Proof.
    intros D D'. destruct (declared_names _ _ _ D) as (N & _). destruct (declared_names _ _ _ D') as (N' & _). rewrite N in N'. injection N' as N'. apply app_inj_tail in N' as (-> & _).
    split; [reflexivity|]. destruct D as (p & i & El & Hv & _), D' as (p' & i' & El' & Hv' & _). congruence.
  Qed.
  Lemma path_text l m v sep : declared root l m v -> path_with sep root l = Some (String.append sep (separated_by sep (m ++ [t_name v]))).
  Proof.
    intros D. destruct (declared_names _ _ _ D) as (N & _). unfold path_with, path_at. rewrite N. cbn [option_map]. f_equal.
    rewrite replace_dots_join; [destruct (m ++ [t_name v])%list eqn:E; [destruct m; discriminate|reflexivity]|]. eapply names_dot_free; [exact root_wf| |exact N]. now rewrite root_name.
  Qed.
  Lemma declared_segments l m v : declared root l m v -> Forall (fun s => s <> "" /\ no_colon s) (m ++ [t_name v])%list.
  Proof.
    intros D. destruct (declared_names _ _ _ D) as (N & _). pose proof (names_not_empty _ _ _ root_wf N) as A. pose proof (words_no_colon _ _ _ W N) as B. cbn in A. inversion B as [|? ? _ B']; subst.
    rewrite Forall_forall in *. auto.
  Qed.
  Lemma rust_path_names l here u d m v outer : declared root l here u -> declared root d m v -> ~ In "super" (m ++ [t_name v])%list -> here <> [] ->
    exists text, rust_path root l d = Some text /\ rust_names (outer ++ here) text (outer ++ m) (t_name v).
  Proof.
    intros Dl Dd Ns Nh. unfold rust_path. rewrite (path_text d m v "::" Dd). cbn [option_map]. eexists. split; [reflexivity|].
    exists outer, here, m. split; [exact Nh|]. split; [reflexivity|]. split; [reflexivity|]. split.
    - destruct (declared_names _ _ _ Dl) as (_ & L). unfold path_depth. rewrite L. cbn [Nat.sub]. rewrite Nat.sub_0_r, join_sep. rewrite <- sep_app; [reflexivity|destruct here; [congruence|discriminate]|destruct m; discriminate].
    - pose proof (declared_segments d m v Dd) as S. rewrite Forall_forall in *. intros s Hs. destruct (S s Hs) as (A & B). repeat split; auto. intros ->. contradiction.
  Qed.
  Lemma declared_module_inhabited l m v : declared root l m v -> m <> [].
  Proof.
    intros (p & i & -> & Hv & K & Hn & _). intros ->. apply names_length in Hn. cbn in Hn. destruct p; [|discriminate]. destruct (parent_at _ _ _ _ Hv) as (u & Hu & _). pose proof (edge_at [] i u v Hu Hv) as E.
    cbn in Hu. injection Hu as <-. rewrite root_kind in E. destruct (t_kind v); cbn in E; try discriminate; contradiction.
  Qed.
End Paths.

(** ** Case *)
Lemma upper_no_small s : forall c, In c (list_ascii_of_string (upper s)) -> is_lower c = false.
Proof.
  induction s as [|a s IH]; cbn; [tauto|]. intros c [<-|H]; [|auto]. destruct a as [[] [] [] [] [] [] [] []]; reflexivity.
Qed.

(** ** Types of fields in C++ *)
Lemma at_colons_app a b : replace_at_colons (a ++ b) = replace_at_colons a ++ replace_at_colons b.
Proof. induction a as [|c a IH]; cbn; [reflexivity|]. now rewrite IH, app_assoc_str. Qed.
Lemma at_colons_clean s : has_char "@" s = false -> replace_at_colons s = s.
Proof. induction s as [|c s IH]; cbn; [reflexivity|]. intros H. apply orb_false_iff in H as (A & B). rewrite A. cbn. now rewrite IH. Qed.
From Verif Require Import GenSame.
Lemma colons_once s : double_dot (replace_char "@" "." s) = false -> replace_at_colons (replace_ats_colons s) = replace_at_colons s.
Proof.
  assert (X : forall n s, (String.length s <= n)%nat -> double_dot (replace_char "@" "." s) = false -> replace_at_colons (replace_ats_colons s) = replace_at_colons s).
  { induction n as [|n IH]; intros u Hn H; [destruct u; [reflexivity|cbn in Hn; lia]|]. destruct u as [|c u]; [reflexivity|]. cbn [String.length] in Hn.
    assert (D : double_dot (replace_char "@" "." u) = false).
    { cbn [replace_char] in H. destruct u as [|d u]; [reflexivity|]. cbn [replace_char] in *. cbn [double_dot] in H. apply orb_false_iff in H as (_ & H). exact H. }
    assert (E : replace_ats_colons (String c u) = String c (replace_ats_colons u) \/ exists t, c = "@"%char /\ u = String "@" t).
    { destruct (Ascii.eqb_spec c "@") as [->|Nc].
      - destruct u as [|d u]; [now left|]. destruct (Ascii.eqb_spec d "@") as [->|Nd]; [right; eauto|]. left. destruct d as [[] [] [] [] [] [] [] []]; try reflexivity. now destruct Nd.
      - left. destruct c as [[] [] [] [] [] [] [] []]; try reflexivity. now destruct Nc. }
    destruct E as [E|(t & -> & ->)].
    - rewrite E. cbn [replace_at_colons]. rewrite (IH u) by (lia || exact D). reflexivity.
    - exfalso. cbn in H. discriminate. }
  intros H. exact (X (String.length s) s (le_n _) H).
Qed.
Lemma at_colons_dots s : has_char "." s = false -> replace_at_colons s = replace_dots "::" (replace_char "@" "." s).
Proof.
  induction s as [|c s IH]; cbn; [reflexivity|]. intros H. apply orb_false_iff in H as (A & B). rewrite (IH B). destruct (Ascii.eqb c "@") eqn:E; cbn; [reflexivity|]. now rewrite A.
Qed.
Section EnumType.
  Variable root : tree.
  Hypothesis F : finished root.
  Local Notation Bu := (f_built _ F).
  Lemma cpp_enum_type l r q d m v : at_loc root l = Some r -> t_kind r = KRef q -> find root (target r) = Some d -> declared root d m v ->
    cpp_base_type (t_name r) = "::" ++ separated_by "::" (m ++ [t_name v])%list.
  Proof.
    intros H K Fd D. destruct (declared_names root F d m v D) as (N & _). pose proof (proj1 (b_rooted _ Bu)) as G.
    destruct (G l r H) as (_ & _ & M). rewrite K in M. destruct M as ((t & Et) & _). destruct (find_path _ _ _ Fd) as (Hp & _). unfold path_at in Hp. rewrite N in Hp. cbn [option_map] in Hp. injection Hp as Hp.
    assert (Fn : Forall (fun n => n <> "" /\ has_char "." n = false) (m ++ [t_name v])%list) by exact (names_clean d root "" _ G N).
    destruct (join_dots _ Fn) as (J1 & J2).
    assert (T : target r = String "." (join "." (m ++ [t_name v])%list)) by (rewrite <- Hp; destruct m; reflexivity).
    unfold target in T. rewrite Et in T. cbn [dereferencify] in T. destruct t as [|c t]; [discriminate|]. cbn [replace_char] in T.
    pose proof (node_dot root l r (b_rooted _ Bu) H) as Nd. rewrite Et in Nd. cbn in Nd. apply orb_false_iff in Nd as (Nc & Nt).
    assert (c = "@"%char) by (destruct (Ascii.eqb_spec c "@") as [E|E]; [exact E|]; injection T as -> _; discriminate).
    subst c. cbn in T. injection T as T. rewrite Et. unfold cpp_base_type. cbn [lookup cpp_basic String.eqb Ascii.eqb Bool.eqb].
    change (replace_ats_colons (String "@" (String "@" t))) with ("::" ++ replace_ats_colons t). rewrite at_colons_app. change (replace_at_colons "::") with "::". f_equal.
    rewrite colons_once by (now rewrite T). rewrite at_colons_dots by exact Nt. rewrite T. apply replace_dots_join. eapply Forall_impl; [|exact Fn]. cbn. tauto.
  Qed.
End EnumType.
