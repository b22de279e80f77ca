(** Structure layout and dependency order of the finished tree. *)
From Coq Require Import List ZArith Bool String Ascii Lia Permutation.
From Verif Require Import PyBase PyText GenTypes GenTypesFacts GenTree GenTreeFacts GraphSpec GenTraversal GenTraversalFacts
  GenBuild GenBuildFacts GenPassFacts GenAstFacts GenAstSpec.
Import ListNotations.
Local Open Scope Z_scope.

(** ** Dependencies are defined everywhere and lead to nodes of the tree *)
Lemma target_find root l t : all_resolved root -> at_loc root l = Some t -> is_ref t = true ->
  exists tl u, ref_loc root t = Ok tl /\ at_loc root tl = Some u /\ is_ref u = false.
Proof.
  intros R Ht Rt. destruct (R l t Ht Rt) as (r & t0 & tl & u & A & K & F & U & X). rewrite Ht in A. injection A as <-.
  exists tl, u. split; [unfold ref_loc; now rewrite F|]. split; [exact U|]. unfold is_ref. now destruct r, (t_kind u).
Qed.
Lemma mapM_total {A B} (f : A -> res B) l : (forall x, In x l -> exists y, f x = Ok y) -> exists ys, mapM f l = Ok ys.
Proof.
  induction l as [|x l IH]; intros H; cbn; [now exists []|]. destruct (H x (or_introl eq_refl)) as (y & ->). cbn.
  destruct IH as (ys & ->); [intros z Hz; apply H; now right|]. cbn. now exists (y :: ys).
Qed.
Lemma mapM_in {A B} (f : A -> res B) l ys y : mapM f l = Ok ys -> In y ys -> exists x, In x l /\ f x = Ok y.
Proof.
  intros H. apply mapM_ok in H. induction H as [|a b l bs E _ IH]; cbn; [tauto|]. intros [<-|Hy]; [exists a; auto|].
  destruct (IH Hy) as (x & Hx & Ex). exists x. auto.
Qed.
Lemma enum_from_in {A} (l : list A) : forall b i x, In (i, x) (enum_from b l) <-> exists j, i = (b + j)%nat /\ nth_error l j = Some x.
Proof.
  induction l as [|a l IH]; intros b i x; cbn.
  - split; [tauto|]. intros ([|j] & _ & H); discriminate.
  - rewrite IH. split.
    + intros [E|(j & -> & H)]; [injection E as -> ->; exists 0%nat; split; [lia|reflexivity]|]. exists (S j). split; [lia|exact H].
    + intros ([|j] & -> & H); cbn in H; [injection H as ->; left; f_equal; lia|right; exists j; split; [lia|exact H]].
Qed.

Lemma kids_total root l t : all_resolved root -> at_loc root l = Some t -> exists cs, kids root l = Ok cs.
Proof.
  intros R Ht. unfold kids. rewrite Ht. destruct (mapM_total (ref_loc root) (filter (fun c => match t_kind c with KRef r => is_type_ref r | _ => false end) (t_children t))) as (ys & ->).
  - intros c Hc. apply filter_In in Hc as [Hc K]. apply In_nth_error in Hc as [i Hi].
    destruct (target_find root (l ++ [i]) c R) as (tl & u & E & _); [rewrite at_loc_app, Ht; cbn; now rewrite Hi|unfold is_ref; now destruct (t_kind c)|].
    now exists tl.
  - cbn. eexists; reflexivity.
Qed.
Lemma kids_in root l t cs y : all_resolved root -> at_loc root l = Some t -> kids root l = Ok cs -> In y cs ->
  exists u, at_loc root y = Some u /\ is_ref u = false.
Proof.
  intros R Ht H Hy. unfold kids in H. rewrite Ht in H. apply bind_ok in H as (ys & Hm & H). injection H as <-.
  apply in_app_or in Hy as [Hy|Hy].
  - apply in_map_iff in Hy as ([i c] & <- & Hy). cbn in *. apply filter_In in Hy as [Hy Rc]. apply enum_from_in in Hy as (j & -> & Hj).
    exists c. rewrite at_loc_app, Ht. cbn. cbn in Rc. rewrite Hj. split; [reflexivity|now apply negb_true_iff].
  - destruct (mapM_in _ _ _ _ Hm Hy) as (c & Hc & E). apply filter_In in Hc as [Hc K]. apply In_nth_error in Hc as [i Hi].
    destruct (target_find root (l ++ [i]) c R) as (tl & u & E' & U & Ru); [rewrite at_loc_app, Ht; cbn; now rewrite Hi|unfold is_ref; now destruct (t_kind c)|].
    rewrite E in E'. injection E' as ->. now exists u.
Qed.
Lemma kids_child root l t i c : all_resolved root -> at_loc root l = Some t -> nth_error (t_children t) i = Some c -> is_ref c = false ->
  edge (kids root) l (l ++ [i]).
Proof.
  intros R Ht Hi Rc. destruct (kids_total root l t R Ht) as (cs & Hk). exists cs. split; [exact Hk|]. unfold kids in Hk. rewrite Ht in Hk.
  apply bind_ok in Hk as (ys & _ & Hk). injection Hk as <-. apply in_or_app. left. apply in_map_iff. exists (i, c). split; [reflexivity|].
  apply filter_In. split; [apply enum_from_in; exists i; split; [reflexivity|exact Hi]|]. cbn. now rewrite Rc.
Qed.
Lemma reach_node root x : all_resolved root -> reachable (kids root) [] x -> exists u, at_loc root x = Some u.
Proof.
  intros R [d W]. remember (@nil nat) as z eqn:Ez. induction W as [|d a y z' W IH (cs & Hk & Hin)]; [subst; now exists root|].
  destruct (IH Ez) as (t & Ht). destruct (kids_in root y t cs z' R Ht Hk Hin) as (u & Hu & _). now exists u.
Qed.
Lemma finite_tree root : all_resolved root -> finite_from (kids root) [] (locs root).
Proof.
  intros R x Hx. destruct (reach_node root x R Hx) as (u & Hu). split; [apply locs_spec; now exists u|]. now apply (kids_total root x u).
Qed.
Lemma tree_reach root l u : good root -> all_resolved root -> at_loc root l = Some u -> is_ref u = false -> reachable (kids root) [] l.
Proof.
  intros G R. revert u. induction l as [|i p IH] using rev_ind; intros u Hu Ru; [apply reach_refl|].
  destruct (parent_at _ _ _ _ Hu) as (v & Hv & Hc). eapply reach_edge.
  - apply (IH v Hv). eapply not_ref_of_child; [exact (good_at _ _ _ G Hv)|exact Hc].
  - eapply kids_child; eauto.
Qed.
Lemma tree_order_spec root : all_resolved root ->
  (exists order, tree_order root = Ok order /\ NoDup order /\ (forall x, In x order <-> reachable (kids root) [] x)
     /\ dependencies_first (kids root) order /\ forall x, reachable (kids root) [] x -> ~ on_cycle (kids root) x)
  \/ (tree_order root = Err CircularReferencing /\ exists x, reachable (kids root) [] x /\ on_cycle (kids root) x).
Proof.
  intros R. unfold tree_order.
  destruct (dfs_total loc_eq_dec (kids root) [] (locs root) (fuel_for root) (finite_tree root R) (PeanoNat.Nat.le_refl _))
    as [(pre & order & _ & E & H1 & _ & H2 & _ & H3 & H4)|(_ & E & x & H1 & H2)].
  - left. exists order. rewrite E. auto.
  - right. rewrite E. eauto.
Qed.

(** ** Layout *)
Definition is_structure (k : kind) : bool := match k with KStructure _ => true | _ => false end.

(** fields at consecutive offsets starting at [start], ending at [size] *)
Fixpoint consecutive (start : Z) (fs : list (string * option ftype * option Z)) (size : Z) : Prop :=
  match fs with
  | [] => size = start
  | (_, ty, off) :: t => off = Some start /\ exists f, ty = Some f /\ consecutive (start + ft_width f) t size
  end.
Lemma layout_consecutive cs : forall start cs' size, layout start cs = Ok (cs', size) -> consecutive start (fields_of cs') size.
Proof.
  induction cs as [|c cs IH]; intros start cs' size H; cbn in H; [injection H as <- <-; reflexivity|].
  destruct c as [n k ch]. destruct k as [| | |sz|rg [ty|] o| | | | | |]; cbn in H; try discriminate;
    apply bind_ok in H as ([t' s] & Ht & H); injection H as <- <-; cbn; try (eapply IH; exact Ht).
  split; [reflexivity|]. exists ty. split; [reflexivity|]. eapply IH; exact Ht.
Qed.
Lemma layout_types cs : forall start cs' size, layout start cs = Ok (cs', size) ->
  map fst (fields_of cs') = map fst (fields_of cs)
  /\ Forall2 (fun c c' => is_field (t_kind c) = false -> c' = c) cs cs'
  /\ Forall2 (fun c c' => t_children c' = t_children c) cs cs'.
Proof.
  induction cs as [|c cs IH]; intros start cs' size H; cbn in H; [injection H as <- <-; repeat split; constructor|].
  destruct c as [n k ch]. destruct k as [| | |sz|rg [ty|] o| | | | | |]; cbn in H; try discriminate;
    apply bind_ok in H as ([t' s] & Ht & H); injection H as <- _; destruct (IH _ _ _ Ht) as (I1 & I2 & I3);
    (split; [unfold fields_of in *; cbn; first [exact I1|now rewrite I1|f_equal; exact I1]|split; (constructor; [|assumption]); cbn; auto; discriminate]).
Qed.

Definition same_struct (u u' : tree) : Prop :=
  t_name u' = t_name u /\ t_kind u' = t_kind u /\ fields_of (t_children u') = fields_of (t_children u).
Lemma same_struct_refl u : same_struct u u. Proof. repeat split. Qed.

Lemma fields_upd cs i f c : nth_error cs i = Some c -> t_name (f c) = t_name c -> t_kind (f c) = t_kind c \/ (is_field (t_kind c) = false /\ is_field (t_kind (f c)) = false) ->
  fields_of (upd cs i f) = fields_of cs.
Proof.
  revert i; induction cs as [|x cs IH]; intros [|i] H N K; cbn in *; try discriminate.
  - injection H as ->. f_equal. rewrite N. destruct K as [->|[K1 K2]]; [reflexivity|]. destruct (t_kind c), (t_kind (f c)); cbn in *; try discriminate; reflexivity.
  - f_equal. now apply IH.
Qed.
(** a change of a non-field node [c] into a non-field keeps the structure attributes of everything above and beside it *)
Lemma modify_struct f l c root : at_loc root l = Some c -> t_name (f c) = t_name c -> is_field (t_kind c) = false -> is_field (t_kind (f c)) = false ->
  forall l' u, at_loc root l' = Some u -> off_path l l' -> exists u', at_loc (modify root l f) l' = Some u' /\ same_struct u u'.
Proof.
  intros Hc N K1 K2 l' u Hu Off. destruct (loc_cases l l') as [[m E]|[[m [M ->]]|[H1 H2]]].
  - exfalso. now apply (Off m).
  - rewrite (modify_above f m root l' u Hu). eexists; split; [reflexivity|]. rewrite at_loc_app, Hu in Hc.
    destruct m as [|i m]; [congruence|]. destruct u as [n k cs]; cbn in *. destruct (nth_error cs i) as [x|] eqn:Hx; [|discriminate].
    split; [reflexivity|]. split; [reflexivity|]. cbn. destruct m as [|j m].
    + cbn in *. injection Hc as ->. eapply fields_upd; [exact Hx|exact N|now right].
    + destruct (modify_name_kind (j :: m) f x ltac:(discriminate)) as [E1 E2]. eapply fields_upd; [exact Hx|exact E1|now left].
  - rewrite modify_other by assumption. exists u. split; [exact Hu|apply same_struct_refl].
Qed.

Lemma size_structure_other root l root' l' u : size_structure root l = Ok root' -> l' <> l -> at_loc root l' = Some u ->
  is_structure (t_kind u) = true -> exists u', at_loc root' l' = Some u' /\ same_struct u u'.
Proof.
  unfold size_structure. intros H D Hu Su. destruct (at_loc root l) as [[n k cs]|] eqn:Hl; [|discriminate].
  destruct k; try (injection H as <-; exists u; split; [exact Hu|apply same_struct_refl]).
  apply bind_ok in H as ([cs' size] & Hly & H). injection H as <-. destruct (layout_types _ _ _ _ Hly) as (_ & F1 & F2).
  destruct (loc_cases l l') as [[m ->]|[A|B]].
  - rewrite (modify_below _ l root _ m Hl). rewrite at_loc_app, Hl in Hu. destruct m as [|i m]; [now rewrite app_nil_r in D|]. cbn in *.
    destruct (nth_error cs i) as [c|] eqn:Hc; [|discriminate].
    assert (exists c', nth_error cs' i = Some c' /\ (is_field (t_kind c) = false -> c' = c) /\ t_children c' = t_children c) as (c' & Hc' & E1 & E2).
    { clear - Hc F1 F2. revert i cs' F1 F2 Hc. induction cs as [|a cs IH]; intros [|i] cs' F1 F2 Hc; cbn in *; try discriminate.
      - injection Hc as ->. inversion F1; subst. inversion F2; subst. eexists; split; [reflexivity|auto].
      - inversion F1; subst. inversion F2; subst. cbn. eapply IH; eauto. }
    rewrite Hc'. destruct m as [|j m]; cbn in *.
    + injection Hu as ->. exists c'. split; [reflexivity|]. rewrite E1; [apply same_struct_refl|]. now destruct (t_kind u).
    + rewrite E2. exists u. split; [exact Hu|apply same_struct_refl].
  - eapply modify_struct; [exact Hl|reflexivity|reflexivity|reflexivity|exact Hu|]. destruct A as (m & M & ->). intros q E.
    rewrite <- app_assoc in E. rewrite <- (app_nil_r l') in E at 1. apply app_inv_head in E. destruct m; [congruence|discriminate].
  - eapply modify_struct; [exact Hl|reflexivity|reflexivity|reflexivity|exact Hu|exact (proj1 B)].
Qed.
Lemma size_structure_here root l root' n sz cs : size_structure root l = Ok root' -> at_loc root l = Some (Node n (KStructure sz) cs) ->
  exists size cs', at_loc root' l = Some (Node n (KStructure (Some size)) cs') /\ layout 0 cs = Ok (cs', size).
Proof.
  unfold size_structure. intros H Hl. rewrite Hl in H. apply bind_ok in H as ([cs' size] & Hly & H). injection H as <-.
  exists size, cs'. split; [|exact Hly]. now rewrite (modify_at _ _ _ _ Hl).
Qed.

(** A laid-out version of the structure [u]: same field names and types, consecutive offsets, size *)
Definition laid_out (u u' : tree) : Prop :=
  t_name u' = t_name u /\ map fst (fields_of (t_children u')) = map fst (fields_of (t_children u))
  /\ exists size, t_kind u' = KStructure (Some size) /\ consecutive 0 (fields_of (t_children u')) size.
Lemma laid_out_same u v w : laid_out u v -> same_struct v w -> laid_out u w.
Proof.
  intros (N & F & size & K & C) (N' & K' & F'). split; [congruence|]. rewrite F'. split; [exact F|]. exists size. split; [congruence|exact C].
Qed.
Lemma laid_out_pre u v w : same_struct u v -> laid_out v w -> laid_out u w.
Proof. intros (N & K & F) (N' & F' & X). split; [congruence|]. split; [congruence|exact X]. Qed.

Lemma size_fold ls : forall root root', foldM size_structure root ls = Ok root' -> NoDup ls ->
  forall l u, at_loc root l = Some u -> is_structure (t_kind u) = true ->
    exists u', at_loc root' l = Some u' /\ (In l ls -> laid_out u u') /\ (~ In l ls -> same_struct u u').
Proof.
  induction ls as [|x ls IH]; intros root root' H ND l u Hu Su; cbn in H.
  - injection H as <-. exists u. split; [exact Hu|]. split; [intros []|intros _; apply same_struct_refl].
  - apply bind_ok in H as (root1 & H1 & H). inversion ND as [|? ? Nx ND']; subst. destruct (loc_eq_dec l x) as [->|D].
    + destruct u as [n k cs]. destruct k; try discriminate. destruct (size_structure_here _ _ _ _ _ _ H1 Hu) as (size & cs' & A & Ly).
      destruct (IH root1 root' H ND' x _ A eq_refl) as (u' & Hu' & _ & S'). exists u'. split; [exact Hu'|]. split; [|intros Q; exfalso; apply Q; now left].
      intros _. eapply laid_out_same; [|apply S'; exact Nx]. split; [reflexivity|]. cbn [t_children t_kind].
      split; [apply (layout_types _ _ _ _ Ly)|]. exists size. split; [reflexivity|]. eapply layout_consecutive; exact Ly.
    + destruct (size_structure_other _ _ _ _ _ H1 D Hu Su) as (u1 & Hu1 & S1).
      assert (Su1 : is_structure (t_kind u1) = true) by (destruct S1 as (_ & -> & _); exact Su).
      destruct (IH root1 root' H ND' l u1 Hu1 Su1) as (u' & Hu' & L' & S'). exists u'. split; [exact Hu'|]. split.
      * intros [E|Hin]; [congruence|]. eapply laid_out_pre; [exact S1|now apply L'].
      * intros Q. destruct S1 as (A1 & A2 & A3). destruct (S' ltac:(intros Hin; apply Q; now right)) as (B1 & B2 & B3). repeat split; congruence.
Qed.
Lemma compute_sizes_layout root root' l u : compute_sizes root = Ok root' -> good root -> all_resolved root -> at_loc root l = Some u ->
  is_structure (t_kind u) = true -> exists u', at_loc root' l = Some u' /\ laid_out u u'.
Proof.
  unfold compute_sizes. intros H G R Hu Su. apply bind_ok in H as (order & Ho & H).
  destruct (tree_order_spec root R) as [(o & Eo & ND & In_o & _)|(E & _)]; [|congruence]. rewrite Ho in Eo. injection Eo as <-.
  destruct (size_fold _ _ _ H ND l u Hu Su) as (u' & Hu' & L & _). exists u'. split; [exact Hu'|]. apply L. apply In_o.
  eapply tree_reach; eauto. unfold is_ref. now destruct (t_kind u).
Qed.

Lemma limit_one_struct root l root' l' u : limit_one root l = Ok root' -> rooted root -> at_loc root l' = Some u ->
  is_structure (t_kind u) = true -> exists u', at_loc root' l' = Some u' /\ same_struct u u'.
Proof.
  intros H G Hu Su. destruct (limit_one_inv _ _ _ H G) as (e & f & fl & rng & ty & off & n & cs & _ & _ & _ & _ & [(_ & ->)|(_ & d & dl & rn & rk & opt & mx & rcs & _ & _ & Hr & ->)]).
  - exists u. split; [exact Hu|apply same_struct_refl].
  - destruct (loc_cases dl l') as [[m ->]|[A|B]].
    + rewrite (modify_below _ dl root _ m Hr). rewrite at_loc_app, Hr in Hu. destruct m as [|i m]; [cbn in Hu; injection Hu as <-; discriminate|].
      exists u. split; [exact Hu|apply same_struct_refl].
    + eapply modify_struct; [exact Hr|reflexivity|reflexivity|reflexivity|exact Hu|]. destruct A as (m & M & ->). intros q E.
      rewrite <- app_assoc in E. rewrite <- (app_nil_r l') in E at 1. apply app_inv_head in E. destruct m; [congruence|discriminate].
    + eapply modify_struct; [exact Hr|reflexivity|reflexivity|reflexivity|exact Hu|exact (proj1 B)].
Qed.
Lemma max_sizes_struct root root' l u : compute_max_sizes root = Ok root' -> rooted root -> at_loc root l = Some u ->
  is_structure (t_kind u) = true -> exists u', at_loc root' l = Some u' /\ same_struct u u'.
Proof.
  unfold compute_max_sizes. intros H G Hu Su.
  assert (I : rooted root' /\ exists u', at_loc root' l = Some u' /\ same_struct u u'); [|exact (proj2 I)].
  refine (foldM_inv (fun x => rooted x /\ exists u', at_loc x l = Some u' /\ same_struct u u') _ _ _ _ H _ _).
  - split; [exact G|]. exists u. split; [exact Hu|apply same_struct_refl].
  - intros x _ a a' (Ga & v & Hv & N & K & F) Ha. split; [apply (limit_one_good _ _ _ Ha Ga)|].
    destruct (limit_one_struct _ _ _ _ _ Ha Ga Hv) as (w & Hw & N' & K' & F'); [congruence|]. exists w. split; [exact Hw|].
    repeat split; congruence.
Qed.

(** Every structure of the finished tree is laid out, and its field widths are between 0 and 64 *)
Lemma consecutive_prefix fs : forall start size, consecutive start fs size ->
  forall i n ty off, nth_error fs i = Some (n, ty, off) -> exists f, ty = Some f
    /\ off = Some (start + fold_right Z.add 0 (map (fun g => match snd (fst g) with Some f => ft_width f | None => 0 end) (firstn i fs))).
Proof.
  induction fs as [|[[n0 ty0] off0] fs IH]; intros start size H i n ty off Hi; [now destruct i|]. cbn in H. destruct H as (-> & f & -> & H).
  destruct i as [|i]; cbn in Hi.
  - injection Hi as <- <- <-. exists f. split; [reflexivity|]. cbn. f_equal. lia.
  - destruct (IH _ _ H i n ty off Hi) as (g & -> & ->). exists g. split; [reflexivity|]. cbn. f_equal. lia.
Qed.
Lemma consecutive_total fs : forall start size, consecutive start fs size ->
  size = start + fold_right Z.add 0 (map (fun g => match snd (fst g) with Some f => ft_width f | None => 0 end) fs).
Proof.
  induction fs as [|[[n0 ty0] off0] fs IH]; intros start size H; cbn in *; [lia|]. destruct H as (-> & f & -> & H). rewrite (IH _ _ H). lia.
Qed.
Lemma final_layout so s root l n sz cs : (forall l, Permutation (so l) l) -> schema_clean s -> build_ast so s = Ok root ->
  at_loc root l = Some (Node n (KStructure sz) cs) -> exists size, sz = Some size /\ consecutive 0 (fields_of cs) size.
Proof.
  intros Hso C H Hl. destruct (build_ast_steps _ _ _ H) as (r1 & r2 & r3 & r4 & r5 & r6 & St).
  destruct (steps_good _ _ _ _ _ _ _ _ _ Hso C St) as (_ & _ & _ & _ & _ & _ & _ & _ & G5 & _ & G6 & S6 & G7 & S7 & R5 & _ & _).
  destruct St as (_ & _ & _ & _ & _ & _ & H6 & H7 & _).
  destruct (same_at root r6 l _ (eq_sym S7) Hl) as (u6 & Hu6 & _ & K6). cbn in K6.
  destruct (same_at r6 r5 l _ (eq_sym S6) Hu6) as (u5 & Hu5 & _ & K5). rewrite K6 in K5.
  assert (Su5 : is_structure (t_kind u5) = true) by (destruct (t_kind u5); try discriminate; reflexivity).
  destruct (compute_sizes_layout _ _ _ _ H6 (proj1 G5) R5 Hu5 Su5) as (u6' & Hu6' & L). rewrite Hu6 in Hu6'. injection Hu6' as <-.
  assert (Su6 : is_structure (t_kind u6) = true) by (destruct (t_kind u6); try discriminate; reflexivity).
  destruct (max_sizes_struct _ _ _ _ H7 G6 Hu6 Su6) as (u7 & Hu7 & S). rewrite Hl in Hu7. injection Hu7 as <-.
  destruct (laid_out_same _ _ _ L S) as (_ & _ & size & K & Cs). cbn in K, Cs. injection K as ->. exists size. auto.
Qed.
