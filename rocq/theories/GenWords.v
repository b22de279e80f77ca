(** The characters of the names in a schema's tree. *)
From Coq Require Import List ZArith Bool String Ascii Lia Permutation Decimal DecimalString.
From Verif Require Import PyBase PyText GenTypes GenTypesFacts GenTree GenTreeFacts GenTraversal
  GenBuild GenBuildFacts GenPassFacts GenAstFacts GenAstSpec GenLayoutFacts GenMergeFacts GenEvery GenFieldFacts.
Import ListNotations.
Local Open Scope string_scope.
Local Open Scope Z_scope.

(** ** Strings over a set of characters *)
Lemma only_chars_app p a b : only_chars p (a ++ b) = only_chars p a && only_chars p b.
Proof. induction a as [|c a IH]; cbn; [reflexivity|]. now rewrite IH, andb_assoc. Qed.
Lemma only_chars_imp (p q : ascii -> bool) s : (forall c, p c = true -> q c = true) -> only_chars p s = true -> only_chars q s = true.
Proof. intros H. induction s as [|c s IH]; cbn; [auto|]. rewrite !andb_true_iff. intros (A & B). auto. Qed.
Lemma only_chars_replace p a b s : p b = true -> only_chars p s = true -> only_chars p (replace_char a b s) = true.
Proof.
  intros Hb. induction s as [|c s IH]; cbn; [auto|]. rewrite !andb_true_iff. intros (A & B). split; [|auto]. now destruct (Ascii.eqb c a).
Qed.
Lemma only_chars_join p sep ls : only_chars p sep = true -> (forall x, In x ls -> only_chars p x = true) -> only_chars p (join sep ls) = true.
Proof.
  intros Hs. induction ls as [|x ls IH]; intros H; [reflexivity|]. destruct ls as [|y ls]; [apply H; now left|].
  change (join sep (x :: y :: ls)) with (x ++ sep ++ join sep (y :: ls)). rewrite !only_chars_app, Hs, (H x (or_introl eq_refl)). cbn. apply IH. intros z Hz. apply H. now right.
Qed.
Lemma only_chars_split p c s : only_chars p s = true -> forall x, In x (split_on c s) -> only_chars p x = true.
Proof.
  induction s as [|a s IH]; cbn; intros H x Hx; [destruct Hx as [<-|[]]; reflexivity|]. apply andb_true_iff in H as (A & B). specialize (IH B). destruct (Ascii.eqb a c).
  - destruct Hx as [<-|Hx]; auto.
  - destruct (split_on c s) as [|y ys]; destruct Hx as [<-|Hx]; cbn.
    + now rewrite A.
    + destruct Hx.
    + rewrite A. apply IH. now left.
    + apply IH. now right.
Qed.

(** in the tree also '@' (references) and '-' *)
Definition word_char (c : ascii) : bool := plain_char c || Ascii.eqb c "@" || Ascii.eqb c "-".
Definition plain (s : string) : Prop := only_chars plain_char s = true.
Definition word (s : string) : Prop := only_chars word_char s = true.
Lemma plain_word s : plain s -> word s.
Proof. apply only_chars_imp. intros c H. unfold word_char. now rewrite H. Qed.
Lemma word_app a b : word (a ++ b) <-> word a /\ word b.
Proof. unfold word. now rewrite only_chars_app, andb_true_iff. Qed.
Lemma word_referencify s : word s -> word (referencify s).
Proof. intros H. unfold referencify, word. cbn. apply only_chars_replace; [reflexivity|exact H]. Qed.
Lemma word_underscored s : word s -> word (underscored s). Proof. intros H. apply only_chars_replace; [reflexivity|exact H]. Qed.
Lemma word_digits d : word (NilEmpty.string_of_uint d).
Proof. unfold word. induction d; cbn; auto. Qed.
Lemma word_py_str z : word (py_str z).
Proof.
  unfold py_str. assert (N : forall d, word (NilZero.string_of_uint d)) by (intros d; destruct d; try reflexivity; apply word_digits).
  destruct (Z.to_int z); cbn; [apply N|]. unfold word. cbn. apply N.
Qed.

Definition word_kind (k : kind) : Prop :=
  match k with
  | KConstant ty _ => word ty
  | KField rng ty _ => (forall r, rng = Some r -> word r) /\ (forall t, ty = Some t -> word (ft_name t))
  | KEnum b => word (bt_name b)
  | _ => True
  end.
Definition word_node (n : string) (k : kind) : Prop := word n /\ word_kind k.
Definition basic_node (n : string) (k : kind) : Prop := match k with KField _ (Some t) _ => basic t | _ => True end.

Lemma path_word root l p : every word_node root -> path_at root l = Some p -> word p.
Proof.
  intros H Hp. unfold path_at in Hp. destruct (names_at root l) as [ns|] eqn:Hn; [|discriminate]. injection Hp as <-. apply only_chars_join; [reflexivity|].
  revert root ns H Hn. induction l as [|i l IH]; intros root ns H Hn x Hx; cbn in Hn.
  - injection Hn as <-. destruct Hx as [<-|[]]. exact (proj1 (every_here _ _ H)).
  - destruct (nth_error (t_children root) i) as [c|] eqn:Hc; [|discriminate]. destruct (names_at c l) as [m|] eqn:Nm; [|discriminate]. injection Hn as <-.
    destruct Hx as [<-|Hx]; [exact (proj1 (every_here _ _ H))|]. exact (IH c m (every_child _ _ _ H (nth_error_In _ _ Hc)) Nm x Hx).
Qed.

Theorem declared_words so s r1 r2 : any_order so -> (forall p, In p s -> namespace_in word p /\ word (pn_name p)) ->
  build_node_tree so s = Ok r1 -> append_builtins r1 = Ok r2 -> every word_node r2.
Proof.
  intros Hso F H1 H2.
  assert (Qr : forall r n, word n -> word_node (referencify n) (KRef r)) by (intros r n Hn; split; [now apply word_referencify|exact I]).
  assert (Qf : forall n rng ty, word n -> (forall r, rng = Some r -> word r) -> (forall t, ty = Some t -> word (ft_name t) /\ basic t) -> word_node n (KField rng ty None)).
  { intros n rng ty A B C. split; [exact A|]. split; [exact B|]. intros t Ht. apply (C t Ht). }
  assert (Qs : forall n, word n -> word_node n (KStructure None)) by (intros n Hn; split; [exact Hn|exact I]).
  refine (append_builtins_every word_node word Qr Qf Qs _ _ _ _ _ r1 r2 H2 _).
  - intros n k (A & _). split; [exact A|exact I].
  - split; (split; [reflexivity|exact I]).
  - repeat split; reflexivity.
  - intros w. apply (word_app "IndexType"). split; [reflexivity|apply word_py_str].
  - intros root l p n Hr Hp (Hn & _). apply Qr. apply word_app. split; [exact (path_word _ _ _ Hr Hp)|]. apply (word_app "."). split; [reflexivity|exact Hn].
  - refine (build_every word_node word Qr _ Qf Qs _ _ _ _ _ _ _ so s r1 Hso H1 _ _).
    + intros n ty v A B. split; [exact A|exact B].
    + intros n b A B. split; [exact A|exact B].
    + intros n v A. split; [exact A|exact I].
    + intros v. split; [|exact I]. unfold unknown_name. apply (word_app "UNKNOWN_VALUE_"). split; [reflexivity|]. destruct (v <? 0)%Z; [apply (word_app "MINUS_"); split; [reflexivity|]|]; apply word_py_str.
    + intros a b c A B C. split; [|exact I]. apply (word_app "er_"). split; [reflexivity|]. apply word_app. split; [apply word_underscored; apply word_app; split; [exact A|]; apply (word_app "."); split; [reflexivity|exact B]|].
      apply (word_app "_"). split; [reflexivity|]. now apply word_underscored.
    + intros a b A B. apply word_app. split; [exact A|]. apply (word_app "."). split; [reflexivity|exact B].
    + intros n rk o A. split; [exact A|exact I].
    + intros n A. split; [exact A|exact I].
    + split; [reflexivity|exact I].
    + intros p Hp. destruct (F p Hp) as (A & B). split; [exact A|]. intros k Hk. split; [|exact I]. exact (only_chars_split _ _ _ B k Hk).
Qed.
Theorem declared_basic so s r1 r2 : any_order so -> build_node_tree so s = Ok r1 -> append_builtins r1 = Ok r2 -> every basic_node r2.
Proof.
  intros Hso H1 H2.
  assert (Qr : forall r (n : string), True -> basic_node (referencify n) (KRef r)) by (intros; exact I).
  assert (Qf : forall n rng ty, True -> (forall r : string, rng = Some r -> True) -> (forall t, ty = Some t -> True /\ basic t) -> basic_node n (KField rng ty None)).
  { intros n rng [t|] _ _ C; [|exact I]. exact (proj2 (C t eq_refl)). }
  refine (append_builtins_every basic_node (fun _ => True) Qr Qf _ _ _ _ _ _ r1 r2 H2 _); try (intros; exact I); try (repeat split; exact I).
  refine (build_every basic_node (fun _ => True) Qr _ Qf _ _ _ _ _ _ _ _ so s r1 Hso H1 _ _); try (intros; exact I).
  intros p _. split; [apply namespace_any|intros; exact I].
Qed.

(** ** Through the passes *)
Lemma every_ref_names root l t n : every word_node root -> at_loc root l = Some t -> is_ref t = true -> word n ->
  every word_node (modify root l (fun t => Node n (t_kind t) (t_children t))).
Proof.
  intros H Hl R Hn. apply (every_modify _ _ l root t H Hl). destruct t as [m k cs]. apply every_intro.
  - split; [exact Hn|]. exact (proj2 (H l _ Hl)).
  - intros c Hc. exact (every_child _ _ _ (every_at _ _ _ _ H Hl) Hc).
Qed.
Lemma resolve_words root root' : resolve_references root = Ok root' -> every word_node root -> every word_node root'.
Proof.
  unfold resolve_references. intros H G. refine (foldM_inv (every word_node) _ _ _ _ H G _).
  intros l _ x x' Gx Hx. destruct (resolve_one_inv _ _ _ Hx) as (t & r & root1 & Ht & Kt & C & V). apply validate_inv in V as (-> & _).
  destruct C as [(_ & -> & _)|(_ & s & p & _ & Hp & Hs)]; [exact Gx|]. destruct (set_name_inv _ _ _ _ _ Ht Hs) as [(_ & ->)|(_ & -> & _)]; [exact Gx|].
  apply (every_ref_names x l t _ Gx Ht); [unfold is_ref; now rewrite Kt|]. apply word_referencify. exact (path_word _ _ _ Gx Hp).
Qed.
Lemma constants_words root root' : append_constants root = Ok root' -> every word_node root -> every word_node root'.
Proof.
  unfold append_constants. intros H G. refine (foldM_inv (every word_node) _ _ _ _ H G _). intros a _ x x' Gx Hx.
  refine (foldM_inv (every word_node) _ _ _ _ Hx Gx _). intros p Hp y y' Gy Hy. apply bind_ok in Hy as (c & Hc & Hy). apply (every_insert_at _ _ _ _ _ Hy Gy).
  apply make_node_ok in Hc as (_ & ->). apply every_leaf. split; [|exact I]. apply word_referencify.
  apply filter_In in Hp as (Hp & _). unfold paths_at in Hp. apply in_flat_map in Hp as (l & _ & Hl). destruct (path_at root l) as [q|] eqn:E; [|destruct Hl]. destruct Hl as [<-|[]]. exact (path_word _ _ _ G E).
Qed.
Lemma fields_words root root' : rooted root -> update_field_types root = Ok root' -> every word_node root -> every word_node root'.
Proof.
  intros G H W l u' Hu'. destruct (fields_retyped _ _ G H l u' Hu') as (u & Hu & N & C). destruct (W l u Hu) as (A & B). rewrite N. split; [exact A|].
  destruct C as [->|(rng & off & ty & K & -> & i & r & w & tl & n & b & b' & cs & Hr & _ & _ & _ & _ & ->)]; [exact B|].
  rewrite K in B. destruct B as (B & _). split; [exact B|]. intros t [= <-]. exact (proj1 (W _ _ Hr)).
Qed.
Lemma unsized_words root root' : keep unsized false root' = keep unsized false root -> every word_node root -> every word_node root'.
Proof.
  intros E W l u' Hu'. destruct (keep_at _ _ _ _ l u' E Hu') as (u & Hu & K & N & _). destruct (W l u Hu) as (A & B). rewrite <- (N (or_introl eq_refl)). split; [exact A|].
  destruct (t_kind u), (t_kind u'); cbn in K; try discriminate; cbn in *; auto; try (now injection K as <- <-). now injection K as <-.
Qed.
(** Every name and type name of the finished tree *)
Theorem final_words so s root : any_order so -> schema_clean s -> (forall p, In p s -> namespace_in word p /\ word (pn_name p)) ->
  build_ast so s = Ok root -> every word_node root.
Proof.
  intros Hso C F H. destruct (build_ast_steps _ _ _ H) as (r1 & r2 & r3 & r4 & r5 & r6 & St).
  destruct (steps_good _ _ _ _ _ _ _ _ _ Hso C St) as (G1 & G2 & G3 & K3 & R3 & G4 & R4 & X4 & G5 & S5 & G6 & S6 & G7 & S7 & R5 & R6 & R7).
  destruct St as (H1 & H2 & H3 & H4 & _ & H5 & H6 & H7 & _).
  apply (unsized_words r6); [now apply limits_keep|]. apply (unsized_words r5); [now apply sizes_keep|]. apply (fields_words r4); auto.
  apply (constants_words r3); auto. apply (resolve_words r2); auto. exact (declared_words so s r1 r2 Hso F H1 H2).
Qed.

(** ** Schemas of identifiers *)
Lemma identifiers_words s : identifiers s -> forall p, In p s -> namespace_in word p /\ word (pn_name p).
Proof.
  intros H p Hp. assert (W : forall n, In n (mentioned p) -> word n) by (intros n Hn; apply plain_word; exact (H p n Hp Hn)). clear H Hp.
  assert (M : forall n, In n (mentioned p) <-> In n (namespace_names p) \/ In n (map pc_type (pn_constants p))
    \/ In n (flat_map (fun s => flat_map (fun f => pf_type f :: flat_map fdec_mentions (pf_decs f)) (ps_fields s)) (pn_structures p))
    \/ In n (map pe_type (pn_enumerations p)) \/ In n (flat_map (fun a => flat_map snd (pa_bound a) ++ flat_map (fun r => rtype_mentions (pr_type r)) (pa_resources a))%list (pn_archives p)))
    by (intros n; unfold mentioned; rewrite !in_app_iff; tauto).
  assert (N : forall n, In n (namespace_names p) <-> n = pn_name p \/ In n (map pc_name (pn_constants p))
    \/ In n (flat_map (fun s => ps_name s :: map pf_name (ps_fields s)) (pn_structures p)) \/ In n (flat_map (fun e => pe_name e :: map fst (pe_values e)) (pn_enumerations p))
    \/ In n (flat_map (fun a => pa_name a :: map fst (pa_bound a) ++ flat_map resource_names (pa_resources a))%list (pn_archives p)))
    by (intros n; unfold namespace_names; cbn [In]; rewrite !in_app_iff; intuition congruence).
  split; [|apply W, M; left; apply N; now left]. split; [|split; [|split]]; apply Forall_forall.
  - intros c Hc. split; apply W, M; [left; apply N; right; left|right; left]; now apply in_map.
  - intros st Hs. split.
    + apply W, M. left. apply N. right. right. left. apply in_flat_map. exists st. split; [exact Hs|now left].
    + apply Forall_forall. intros f Hf. split; [|split].
      * apply W, M. left. apply N. right. right. left. apply in_flat_map. exists st. split; [exact Hs|]. right. now apply in_map.
      * apply Forall_forall. intros d Hd. assert (X : forall n, In n (fdec_mentions d) -> word n).
        { intros n Hn. apply W, M. right. right. left. apply in_flat_map. exists st. split; [exact Hs|]. apply in_flat_map. exists f. split; [exact Hf|]. right. apply in_flat_map. eauto. }
        destruct d; apply X; now left.
      * apply W, M. right. right. left. apply in_flat_map. exists st. split; [exact Hs|]. apply in_flat_map. exists f. split; [exact Hf|now left].
  - intros e He. split; [|split].
    + apply W, M. left. apply N. right. right. right. left. apply in_flat_map. exists e. split; [exact He|now left].
    + apply W, M. right. right. right. left. now apply in_map.
    + apply Forall_forall. intros v Hv. apply W, M. left. apply N. right. right. right. left. apply in_flat_map. exists e. split; [exact He|]. right. now apply in_map.
  - intros a Ha.
    assert (A : forall n, In n (pa_name a :: map fst (pa_bound a) ++ flat_map resource_names (pa_resources a))%list -> word n)
      by (intros n Hn; apply W, M; left; apply N; right; right; right; right; apply in_flat_map; eauto).
    assert (B : forall n, In n (flat_map snd (pa_bound a) ++ flat_map (fun r => rtype_mentions (pr_type r)) (pa_resources a))%list -> word n)
      by (intros n Hn; apply W, M; right; right; right; right; apply in_flat_map; eauto).
    split; [apply A; now left|]. split; apply Forall_forall.
    + intros b Hb. split; [apply A; right; apply in_or_app; left; now apply in_map|]. apply Forall_forall. intros x Hx. apply B. apply in_or_app. left. apply in_flat_map. eauto.
    + intros r Hr. assert (A' : forall n, In n (resource_names r) -> word n) by (intros n Hn; apply A; right; apply in_or_app; right; apply in_flat_map; eauto).
      assert (B' : forall n, In n (rtype_mentions (pr_type r)) -> word n) by (intros n Hn; apply B; apply in_or_app; right; apply in_flat_map; eauto).
      split; [apply A'; now left|]. split.
      * apply Forall_forall. intros d Hd. assert (X : forall n, In n (match d with RExplicit a b c => [a; b; c] | ROptional => [] end) -> word n) by (intros n Hn; apply A'; right; apply in_flat_map; eauto).
        destruct d as [x y z|]; [|exact I]. repeat split; apply X; cbn; tauto.
      * destruct (pr_type r) as [|t|w ts|t|t]; cbn in *; try exact I; try (apply B'; now left). apply Forall_forall. exact B'.
Qed.
Lemma identifiers_named s : identifiers s -> well_named s.
Proof.
  intros H n Hn. apply in_flat_map in Hn as (p & Hp & Hn). assert (X : only_chars plain_char n = true) by (apply (H p n Hp); unfold mentioned; apply in_or_app; now left).
  clear - X. induction n as [|c n IH]; [reflexivity|]. cbn in X |- *. apply andb_true_iff in X as (X & Y). rewrite (IH Y), orb_false_r. destruct (Ascii.eqb_spec c "@") as [->|Q]; [discriminate|reflexivity].
Qed.
