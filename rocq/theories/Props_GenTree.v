(** Property theorems C36, C41, C43-C47: the syntax tree of the generator.
    Vocabulary: [GenAstSpec], [Spec.representable], [GenSpec.basic_types]. *)
From Coq Require Import List ZArith Bool String Ascii Lia Permutation.
From Verif Require Import PyBase Spec PyText GenTypes GenSpec GenTypesFacts GenTree GenTreeFacts GenTraversal GenBuild GenAstSpec
  GenBuildFacts GenPassFacts GenAstFacts GenLayoutFacts GenResolveFacts GenAstThms GenLimitFacts GenMergeFacts GenShapeFacts GenErrorFacts.
Import ListNotations.
Local Open Scope string_scope.
Local Open Scope Z_scope.

Lemma well_named_clean s : well_named s -> schema_clean s.
Proof.
  intros W. apply Forall_forall. intros p Hp.
  assert (N : forall n, In n (namespace_names p) -> clean n) by (intros n Hn; apply W; apply in_flat_map; eauto). clear W Hp.
  unfold namespace_names in N. split; [apply N; now left|]. assert (N1 : forall n, In n (map pc_name (pn_constants p)) -> clean n) by (intros n Hn; apply N; right; rewrite !in_app_iff; tauto).
  split; [apply Forall_forall; intros c Hc; apply N1; now apply in_map|]. split; [|split].
  - apply Forall_forall. intros st Hs. assert (N2 : forall n, In n (ps_name st :: map pf_name (ps_fields st)) -> clean n).
    { intros n Hn. apply N. right. rewrite !in_app_iff. right. left. apply in_flat_map. eauto. }
    split; [apply N2; now left|]. apply Forall_forall. intros f Hf. apply N2. right. now apply in_map.
  - apply Forall_forall. intros st Hs. assert (N2 : forall n, In n (pe_name st :: map fst (pe_values st)) -> clean n).
    { intros n Hn. apply N. right. rewrite !in_app_iff. right. right. left. apply in_flat_map. eauto. }
    split; [apply N2; now left|]. apply Forall_forall. intros f Hf. apply N2. right. now apply in_map.
  - apply Forall_forall. intros a Ha. assert (N2 : forall n, In n (pa_name a :: map fst (pa_bound a) ++ flat_map resource_names (pa_resources a))%list -> clean n).
    { intros n Hn. apply N. right. rewrite !in_app_iff. right. right. right. apply in_flat_map. eauto. }
    split; [apply N2; now left|]. split; [apply Forall_forall; intros f Hf; apply N2; right; apply in_or_app; left; now apply in_map|].
    apply Forall_forall. intros r Hr. assert (N3 : forall n, In n (resource_names r) -> clean n).
    { intros n Hn. apply N2. right. apply in_or_app. right. apply in_flat_map. eauto. }
    split; [apply N3; now left|]. apply Forall_forall. intros d Hd. destruct d as [x y z|]; [|exact I].
    assert (N4 : forall n, In n [x; y; z] -> clean n). { intros n Hn. apply N3. right. apply in_flat_map. eauto. }
    repeat split; apply N4; cbn; tauto.
Qed.

(** A schema that uses most features, for the instances below *)
Definition example : pschema :=
 [PNamespace "n.a" [PConst "C" "u8" "7"]
   [PStruct "S" [PField "x" [FConst "C"] "u8" (Some 3%N); PField "e" [] "E" None; PField "r" [] "u32" (Some 20%N)]]
   [PEnum "E" "u8" (Some 2%N) [("A",None);("B",Some "2")]]
   [PArchive "Ar" [("bd",["v";"m"])]
     [PResource "v" [RExplicit "S" "r" "m"] (TVector "S"); PResource "m" [] (TMulti 33%N ["S"]); PResource "q" [ROptional] TRaw]];
  PNamespace "n.b" [PConst "D" "u8" "7"] [] [] [PArchive "Br" [] [PResource "v" [] (TArchive ".n.a.Ar")]]].
Definition same_order (l : list Z) : list Z := l.
Lemma same_order_any : any_order same_order. Proof. intros l. apply Permutation_refl. Qed.
Lemma example_named : well_named example.
Proof. intros n H. vm_compute in H. repeat (destruct H as [<-|H]; [reflexivity|]). destruct H. Qed.
Definition example_tree : tree := match build_ast same_order example with Ok t => t | Err _ => new_root end.
Lemma example_ok : build_ast same_order example = Ok example_tree. Proof. vm_compute. reflexivity. Qed.

(** C36: every structure of an accepted schema is laid out without gaps: the offset of a field is the sum of the widths of the
    fields before it, fields do not overlap, and everything lies within the size. *)
Theorem C36_layout : forall so s root l n sz cs, any_order so -> well_named s -> build_ast so s = Ok root ->
  at_loc root l = Some (Node n (KStructure sz) cs) ->
  let fs := fields_of cs in
  exists size, sz = Some size /\ size = total (map width_of fs) /\ size <= 8 * size_in_bytes size < size + 8
    /\ (forall i f ty off, nth_error fs i = Some (f, ty, off) -> exists t, ty = Some t /\ 0 <= ft_width t <= 64 /\ off = Some (total (map width_of (firstn i fs))))
    /\ (forall i j f g a b, (i < j)%nat -> nth_error fs i = Some f -> nth_error fs j = Some g -> snd f = Some a -> snd g = Some b ->
          0 <= a /\ a + width_of f <= b /\ b + width_of g <= size).
Proof.
  intros so s root l n sz cs Hso W H Hl fs. pose proof (well_named_clean s W) as C. destruct (final_layout so s root l n sz cs Hso C H Hl) as (size & -> & Co). fold fs in Co.
  assert (Wd : forall i f ty off, nth_error fs i = Some (f, ty, off) -> exists t, ty = Some t /\ 0 <= ft_width t <= 64 /\ off = Some (total (map width_of (firstn i fs)))).
  { intros i f ty off Hi. destruct (consecutive_prefix fs 0 size Co i f ty off Hi) as (t & -> & ->). exists t. split; [reflexivity|]. split; [|reflexivity].
    apply nth_error_In in Hi. unfold fs, fields_of in Hi. apply in_flat_map in Hi as (c & Hc & Hi). destruct (t_kind c) eqn:Kc; try contradiction. destruct Hi as [[= _ -> ->]|[]].
    destruct (build_ast_steps _ _ _ H) as (r1 & r2 & r3 & r4 & r5 & r6 & St). destruct (steps_good _ _ _ _ _ _ _ _ _ Hso C St) as (_ & _ & _ & _ & _ & _ & _ & _ & _ & _ & _ & _ & G7 & _).
    apply In_nth_error in Hc as (j & Hj). assert (At : at_loc root (l ++ [j])%list = Some c) by (rewrite at_loc_app, Hl; cbn; now rewrite Hj).
    pose proof (proj1 G7 _ _ At) as (_ & _ & Q). rewrite Kc in Q. destruct Q as (_ & Q & _). exact Q. }
  assert (Nn : forall gs, incl gs fs -> 0 <= total (map width_of gs)).
  { induction gs as [|g gs IH]; intros Hin; [cbn; lia|]. cbn [map]. change (total (width_of g :: map width_of gs)) with (width_of g + total (map width_of gs)).
    assert (0 <= width_of g); [|specialize (IH (fun x Hx => Hin x (or_intror Hx))); lia].
    destruct (In_nth_error fs g (Hin g (or_introl eq_refl))) as (i & Hi). destruct g as [[f ty] off]. destruct (Wd i f ty off Hi) as (t & -> & ? & _). exact (proj1 H0). }
  exists size. split; [reflexivity|]. split; [exact (consecutive_total fs 0 size Co)|]. split; [|split].
  - unfold size_in_bytes. pose proof (Z.div_mod (size + 7) 8 ltac:(lia)). pose proof (Z.mod_pos_bound (size + 7) 8 ltac:(lia)). lia.
  - exact Wd.
  - intros i j [[fn ft] fo] [[gn gt] go] a b Hij Hi Hj Ha Hb. cbn in Ha, Hb. subst fo go. destruct (Wd _ _ _ _ Hi) as (tf & -> & Wf & [= ->]). destruct (Wd _ _ _ _ Hj) as (tg & -> & Wg & [= ->]).
    assert (T : forall xs ys, total (xs ++ ys)%list = total xs + total ys) by (unfold total; induction xs as [|x xs IH]; intros ys; cbn [app fold_right]; [lia|rewrite IH; lia]).
    assert (Tc : forall x xs, total (x :: xs) = x + total xs) by reflexivity.
    assert (Sp : forall k x, nth_error fs k = Some x -> fs = (firstn k fs ++ x :: skipn (S k) fs)%list).
    { clear. induction fs as [|y ys IH]; intros k x Hk; [now destruct k|]. destruct k as [|k]; cbn in *; [now injection Hk as ->|]. f_equal. exact (IH k x Hk). }
    assert (Ij : firstn j fs = (firstn i fs ++ ((fn, Some tf, Some (total (map width_of (firstn i fs)))) :: firstn (j - S i) (skipn (S i) fs)))%list).
    { rewrite (Sp i _ Hi) at 1. rewrite firstn_app. rewrite firstn_firstn, Nat.min_r by lia. f_equal.
      assert (L : List.length (firstn i fs) = i) by (apply firstn_length_le; apply Nat.lt_le_incl; apply nth_error_Some; congruence). rewrite L. replace (j - i)%nat with (S (j - S i)) by lia. reflexivity. }
    split; [|split].
    + apply Nn. intros x Hx. rewrite <- (firstn_skipn i fs). apply in_or_app. now left.
    + rewrite Ij, map_app, T. cbn [map]. rewrite Tc.
      assert (0 <= total (map width_of (firstn (j - S i) (skipn (S i) fs)))); [|lia]. apply Nn. intros x Hx. rewrite <- (firstn_skipn (S i) fs). apply in_or_app. right.
      rewrite <- (firstn_skipn (j - S i) (skipn (S i) fs)). apply in_or_app. now left.
    + assert (Es : size = total (map width_of fs)) by exact (consecutive_total fs 0 size Co). rewrite Es. rewrite (Sp j _ Hj) at 3. rewrite map_app, T. cbn [map]. rewrite Tc.
      assert (0 <= total (map width_of (skipn (S j) fs))); [|lia]. apply Nn. intros x Hx. rewrite <- (firstn_skipn (S j) fs). apply in_or_app. now right.
Qed.
Print Assumptions C36_layout.
Theorem C36_instance : any_order same_order /\ well_named example /\ build_ast same_order example = Ok example_tree
  /\ exists l n cs, at_loc example_tree l = Some (Node n (KStructure (Some 25)) cs)
       /\ map (fun f => (fst (fst f), width_of f, snd f)) (fields_of cs) = [("x", 3, Some 0); ("e", 2, Some 3); ("r", 20, Some 5)].
Proof.
  split; [apply same_order_any|]. split; [apply example_named|]. split; [exact example_ok|]. 
  exists [0;0;1]%nat. eexists. eexists. split; vm_compute; reflexivity.
Qed.

(** ** C41: constants fit their type, and the fields that use them *)
Theorem C41_constants : forall so s root, any_order so -> well_named s -> build_ast so s = Ok root ->
  (forall l n ty v cs, at_loc root l = Some (Node n (KConstant ty v) cs) ->
     exists signed width, In (ty, (signed, width)) basic_types /\ representable width signed v)
  /\ (forall l n rng ty off cs, at_loc root l = Some (Node n (KField rng ty off) cs) -> exists t, ty = Some t
     /\ (forall i r cl, r = RConstValue \/ r = RInvalidValue -> points_to root (l ++ [i])%list r cl ->
           exists n' v cs', at_loc root cl = Some (Node n' (KConstant (ft_name t) v) cs') /\ representable (ft_width t) (ft_signed t) v)
     /\ (forall i j a b, points_to root (l ++ [i])%list RInvalidValue a -> points_to root (l ++ [j])%list RInvalidValue b -> i = j)).
Proof.
  intros so s root Hso W H. pose proof (well_named_clean s W) as C. destruct (build_ast_steps _ _ _ H) as (r1 & r2 & r3 & r4 & r5 & r6 & St).
  destruct (steps_good _ _ _ _ _ _ _ _ _ Hso C St) as (_ & _ & _ & _ & _ & _ & _ & _ & _ & _ & _ & _ & G7 & _). destruct St as (_ & _ & _ & _ & _ & _ & _ & _ & Cc & _).
  split.
  - intros l n ty v cs Hl. exact (constant_fits root l n ty v cs (proj1 G7) Hl).
  - intros l n rng ty off cs Hl. destruct (const_refs_ok root G7 Cc l _ Hl eq_refl) as (n' & rng' & t & off' & cs' & E & P & Q). injection E as <- <- -> <- <-.
    exists t. split; [reflexivity|]. split; [|exact Q]. intros i r cl Hr Hp. apply (P i r cl); [|exact Hp]. destruct Hr as [->| ->]; reflexivity.
Qed.
Print Assumptions C41_constants.
(** the field [x] of the example has the constant [C] as default value *)
Theorem C41_instance : (exists l n cs, at_loc example_tree l = Some (Node n (KConstant "u8" 7) cs))
  /\ exists l i cl n rng ty off cs, at_loc example_tree l = Some (Node n (KField rng (Some ty) off) cs) /\ ft_width ty = 3
       /\ points_to example_tree (l ++ [i])%list RConstValue cl.
Proof.
  split.
  - exists [0;0;0]%nat. eexists. eexists. vm_compute. reflexivity.
  - exists [0;0;1;0]%nat, 0%nat, [0;0;0]%nat. eexists. eexists. eexists. eexists. eexists. split; [vm_compute; reflexivity|]. split; [reflexivity|].
    eexists. split; [vm_compute; reflexivity|]. split; vm_compute; reflexivity.
Qed.
(** and a schema whose constant does not fit the field is rejected *)
Theorem C41_rejected : build_ast same_order [PNamespace "n" [PConst "C" "u8" "9"] [PStruct "S" [PField "x" [FConst "C"] "u8" (Some 3%N)]] [] []]
  = Err (InvalidConstValueReference ".n.C").
Proof. vm_compute. reflexivity. Qed.

(** ** C43: name resolution *)
Lemma expected_right r k : expected_kind r k = true -> right_kind r k.
Proof. destruct r, k; cbn; try discriminate; eauto. Qed.
Lemma qualified_name n : has_char "." n = false ->
  (match n with String "@" (String "@" _) => true | _ => false end) = true <-> (exists s, n = String "@" s) /\ qualified (dereferencify n).
Proof.
  intros D. split.
  - intros Q. destruct n as [|a n]; [discriminate|]. destruct a as [[] [] [] [] [] [] [] []]; try discriminate. destruct n as [|b n]; [discriminate|].
    destruct b as [[] [] [] [] [] [] [] []]; try discriminate. split; [eauto|]. eexists. reflexivity.
  - intros ((s & ->) & (rest & E)). destruct s as [|b s]; [discriminate|]. cbn [dereferencify replace_char] in E. cbn [has_char] in D.
    apply orb_false_iff in D as (_ & D). apply orb_false_iff in D as (D & _). destruct (Ascii.eqb_spec b "@") as [->|N]; [reflexivity|].
    injection E as E _. subst b. discriminate.
Qed.
Lemma qualified_target t : has_char "." (t_name t) = false -> is_qualified t = true <-> (exists s, t_name t = String "@" s) /\ qualified (target t).
Proof. intros D. exact (qualified_name _ D). Qed.
Lemma ref_marked root l u r : rooted root -> at_loc root l = Some u -> t_kind u = KRef r -> exists s, t_name u = String "@" s.
Proof. intros G Hl K. pose proof (good_here _ (good_at _ _ _ (proj1 G) Hl)) as Q. unfold node_ok in Q. rewrite K in Q. destruct Q as (_ & _ & M & _). exact M. Qed.

Lemma resolve_unqualified_err root l tgt p i u n : wf root -> has_char "." (t_name root) = false ->
  l = (p ++ [i])%list -> at_loc root p = Some u -> is_namespace u = false -> resolve_unqualified root l tgt = Err (MissingSymbol n) ->
  forall sc d, visible root l sc -> ~ declared root sc tgt d.
Proof.
  intros W D El Hp Np H sc d V Dc. pose proof H as H0. rewrite (resolve_scopes root l tgt p i u El Hp Np) in H.
  destruct (first_some (lookup_in root tgt) (all_scopes root (rev p))) as [x|] eqn:F; [discriminate|]. clear H.
  assert (NN : no_namespace root p) by (intros t Ht; rewrite Hp in Ht; injection Ht as <-; exact Np).
  apply (visible_above root l p i sc El NN) in V. rewrite <- (rev_involutive p) in V. apply (all_scopes_in root (rev p) u) in V; [|now rewrite rev_involutive].
  pose proof (proj1 (first_some_none _ _) F sc V) as L. apply lookup_declared in Dc; [|assumption|assumption]. congruence.
Qed.
Lemma ref_parent root l u r : rooted root -> local (shape true) root -> at_loc root l = Some u -> t_kind u = KRef r ->
  exists p i v, l = (p ++ [i])%list /\ at_loc root p = Some v /\ is_namespace v = false.
Proof.
  intros G S Hl K. destruct l as [|a l] using rev_ind.
  - cbn in Hl. injection Hl as <-. destruct G as (_ & _ & Kr). congruence.
  - clear IHl. exists l, a. rewrite at_loc_app in Hl. destruct (at_loc root l) as [v|] eqn:Hv; [|discriminate]. exists v. split; [reflexivity|]. split; [reflexivity|].
    pose proof (S l v Hv) as (E & _). cbn in Hl. destruct (nth_error (t_children v) a) as [c|] eqn:Hc; [|discriminate]. injection Hl as ->.
    rewrite Forall_forall in E. specialize (E (t_kind u) (in_map t_kind _ _ (nth_error_In _ _ Hc))). rewrite K in E. unfold is_namespace. destruct (t_kind v); try reflexivity. destruct E.
Qed.
Lemma at_dot root l u : rooted root -> at_loc root l = Some u -> has_char "." (t_name u) = false.
Proof. intros G H. exact (node_dot root l u G H). Qed.
Lemma qualified_dec root l u r : rooted root -> at_loc root l = Some u -> t_kind u = KRef r ->
  (is_qualified u = true /\ qualified (target u)) \/ (is_qualified u = false /\ ~ qualified (target u)).
Proof.
  intros G Hl K. pose proof (ref_marked _ _ _ _ G Hl K) as M. pose proof (qualified_target u (node_dot _ _ _ G Hl)) as Q.
  destruct (is_qualified u); [left|right]; (split; [reflexivity|]); [now apply Q|]. intros X. assert (false = true) by (apply Q; auto). discriminate.
Qed.

(** Every reference of the declared tree points, in the finished tree, to a node of the right kind: the one with exactly that
    path when the name is qualified, the one declared in the innermost visible scope otherwise. *)
Theorem C43_resolution : forall so s t root, any_order so -> well_named s -> declared_tree so s = Ok t -> build_ast so s = Ok root ->
  forall l u r, at_loc t l = Some u -> t_kind u = KRef r ->
  exists d v, points_to root l r d /\ at_loc root d = Some v /\ right_kind r (t_kind v)
    /\ (qualified (target u) -> path_at t d = Some (target u)) /\ (~ qualified (target u) -> innermost t l (target u) d).
Proof.
  intros so s t root Hso W Ht H l u r Hl K. pose proof (well_named_clean s W) as C. destruct (build_ast_steps _ _ _ H) as (r1 & r2 & r3 & r4 & r5 & r6 & St).
  destruct (steps_good _ _ _ _ _ _ _ _ _ Hso C St) as (G1 & G2 & G3 & K3 & R3 & G4 & R4 & X4 & G5 & S5 & G6 & S6 & G7 & S7 & _ & _ & R7).
  destruct (final_shape _ _ _ _ _ _ _ _ _ Hso C St) as (_ & Sh2 & _ & _).
  destruct St as (H1 & H2 & H3 & H4 & _). assert (E : t = r2) by (unfold declared_tree in Ht; rewrite H1 in Ht; cbn in Ht; congruence). subst t.
  destruct (resolve_references_where r2 r3 l u r H3 G2 Hl K) as (t' & d & Ht' & Kt' & Ft' & Rs).
  destruct (proj1 X4 _ _ Ht') as (t4 & Ht4 & N4 & K4). pose proof (proj2 X4 _ _ Ft') as F4.
  assert (S : same_tree r4 root) by (unfold same_tree in *; congruence). destruct (same_at _ _ _ _ S Ht4) as (t7 & Ht7 & N7 & K7).
  assert (Kr : t_kind t7 = KRef r) by (rewrite K4, Kt' in K7; cbn in K7; destruct (t_kind t7); try discriminate; exact K7).
  assert (F7 : find root (target t7) = Some d). { rewrite <- (skel_find r4 root _ G4 G7 S). unfold target in *. now rewrite N7, N4. }
  destruct (R7 _ _ Ht7) as (r0 & t0 & d0 & v & A & B & F & V & X); [unfold is_ref; now rewrite Kr|]. rewrite Ht7 in A. injection A as <-. rewrite Kr in B. injection B as <-.
  rewrite F7 in F. injection F as <-. exists d, v.
  split; [apply (points_to_find root l r d G7); eauto|]. split; [exact V|]. split; [now apply expected_right|].
  unfold resolves in Rs. destruct (qualified_dec _ _ _ _ G2 Hl K) as [(Q & Q')|(Q & Q')]; rewrite Q in Rs.
  - split; [intros _; exact (proj1 (find_path _ _ _ Rs))|tauto].
  - split; [tauto|]. intros _. destruct (ref_parent r2 l u r G2 Sh2 Hl K) as (p & i & v' & El & Hp & Np).
    apply (proj1 (resolve_unqualified_spec r2 l (target u) p i v' (good_wf _ (proj1 G2)) (rooted_dot _ G2) El Hp Np)). exact Rs.
Qed.
Print Assumptions C43_resolution.

(** A MissingSymbol error names the target of a reference that has no declaration where it is looked up. *)
Theorem C43_missing : forall so s n, any_order so -> well_named s -> build_ast so s = Err (MissingSymbol n) ->
  exists t l u r, declared_tree so s = Ok t /\ at_loc t l = Some u /\ t_kind u = KRef r /\ target u = n
    /\ (qualified n -> forall d, path_at t d <> Some n)
    /\ (~ qualified n -> forall sc d, visible t l sc -> ~ declared t sc n d).
Proof.
  intros so s n Hso W H. pose proof (well_named_clean s W) as C. destruct (build_missing so s n H) as (r1 & r2 & H1 & H2 & H3).
  assert (G1 : rooted r1) by exact (build_node_tree_good so s r1 Hso C H1). assert (G2 : rooted r2) by exact (append_builtins_good r1 r2 H2 G1).
  pose proof (build_node_tree_shaped false so s r1 Hso C H1) as S1.
  destruct (append_builtins_shaped _ _ H2 G1 (shaped_any _ _ S1) (builtins_none _ S1)) as (S2 & _ & _).
  unfold resolve_references in H3. destruct (resolve_fold_missing _ n r2 H3 (iterate_nodup _ _) G2) as (l & u & r & _ & Hu & K & E & U).
  { intros l Hl. apply iterate_spec in Hl as (u & Hu & K). exists u. destruct (t_kind u) eqn:Ku; try discriminate. eauto. }
  exists r2, l, u, r. split; [unfold declared_tree; now rewrite H1|]. split; [exact Hu|]. split; [exact K|]. split; [exact E|]. subst n. unfold unresolvable in U.
  destruct (qualified_dec _ _ _ _ G2 Hu K) as [(Q & Q')|(Q & Q')]; rewrite Q in U.
  - split; [|tauto]. intros _ d P. apply path_find in P; [congruence|exact (good_wf _ (proj1 G2))|exact (rooted_dot _ G2)].
  - split; [tauto|]. intros _. destruct (ref_parent r2 l u r G2 S2 Hu K) as (p & i & v' & El & Hp & Np).
    exact (resolve_unqualified_err r2 l (target u) p i v' _ (good_wf _ (proj1 G2)) (rooted_dot _ G2) El Hp Np U).
Qed.
Print Assumptions C43_missing.
Definition example_declared : tree := match declared_tree same_order example with Ok t => t | Err _ => new_root end.
Lemma example_declared_ok : declared_tree same_order example = Ok example_declared. Proof. vm_compute. reflexivity. Qed.
(** the enumeration reference of field [e] (unqualified) and the archive reference of [Br.v] (qualified); an unknown type *)
Theorem C43_instance :
  (exists l u r, at_loc example_declared l = Some u /\ t_kind u = KRef r /\ target u = "E" /\ ~ qualified (target u) /\ points_to example_tree l r [0;0;2]%nat)
  /\ (exists l u r, at_loc example_declared l = Some u /\ t_kind u = KRef r /\ target u = ".n.a.Ar" /\ qualified (target u) /\ points_to example_tree l r [0;0;3]%nat)
  /\ build_ast same_order [PNamespace "n" [] [] [] [PArchive "A" [] [PResource "v" [] (TVector "m.S")]]; PNamespace "m" [] [PStruct "S" []] [] []]
     = Err (MissingSymbol "m.S").
Proof.
  split; [|split].
  - exists [0;0;1;1;0]%nat. eexists. eexists. split; [vm_compute; reflexivity|]. split; [reflexivity|]. split; [reflexivity|]. split; [intros (x & Q); discriminate Q|].
    eexists. split; [vm_compute; reflexivity|]. split; vm_compute; reflexivity.
  - exists [0;1;1;0;0]%nat. eexists. eexists. split; [vm_compute; reflexivity|]. split; [reflexivity|]. split; [reflexivity|]. split; [eexists; reflexivity|].
    eexists. split; [vm_compute; reflexivity|]. split; vm_compute; reflexivity.
  - vm_compute. reflexivity.
Qed.
(** the innermost scope wins even when what it declares is unsuitable: a resource called like the structure hides it *)
Theorem C43_shadowing : build_ast same_order [PNamespace "n" [] [PStruct "S" []] [] [PArchive "A" [] [PResource "S" [] TRaw; PResource "v" [] (TVector "S")]]]
  = Err (IncorrectReferenceType "@@n@A@S").
Proof. vm_compute. reflexivity. Qed.

(** ** C44: paths identify nodes *)
Lemma made_wf t : made_by_operations t -> wf t /\ has_char "." (t_name t) = false /\ (t_name t <> "" -> name_ok (t_name t) = true).
Proof.
  induction 1 as [|n k t H|t l c t' H IH Hc IHc N I|t l v t' H IH Hv Hl S].
  - split; [exact (wf_leaf "" KRoot)|]. split; [reflexivity|]. intros Q. now destruct Q.
  - apply make_node_ok in H as (Hn & ->). split; [apply wf_leaf|]. split; [now apply name_ok_dot|auto].
  - destruct IH as (W & D & M), IHc as (Wc & Dc & Mc). split; [exact (wf_insert_at t l c t' W Wc (Mc N) I)|].
    destruct (insert_at_old t l c t' [] t I eq_refl) as (t0 & E & En & _). cbn in E. injection E as <-. rewrite En. auto.
  - destruct IH as (W & D & M). split; [exact (wf_set_name t l v t' W Hv S)|]. 
    assert (En : t_name t' = t_name t); [|rewrite En; auto]. unfold set_name in S. destruct (at_loc t l) as [u|] eqn:Hu; [|discriminate]. destruct (String.eqb (t_name u) v); [now injection S as <-|].
    destruct l as [|i l]; [now destruct Hl|]. destruct (at_loc t (parent_loc (i :: l))); [destruct (child_pos _ _); [discriminate|]|]; injection S as <-; refine (proj1 (modify_name_kind (i :: l) _ t _)); discriminate.
Qed.
Lemma wf_paths t : wf t -> has_char "." (t_name t) = false ->
  (forall l u, at_loc t l = Some u -> exists p, path_at t l = Some p /\ find t p = Some l)
  /\ (forall l l' p, path_at t l = Some p -> path_at t l' = Some p -> l = l')
  /\ (forall l p, find t p = Some l -> path_at t l = Some p /\ exists u, at_loc t l = Some u).
Proof.
  intros W D. split; [|split].
  - intros l u Hl. destruct (proj1 (names_at_some t l) (ex_intro _ u Hl)) as (ns & Hn). exists (join "." ns).
    assert (P : path_at t l = Some (join "." ns)) by (unfold path_at; now rewrite Hn). split; [exact P|]. exact (path_find t l _ W D P).
  - intros l l' p H H'. apply (path_find t l p W D) in H. apply (path_find t l' p W D) in H'. congruence.
  - intros l p H. exact (find_path t l p H).
Qed.
Theorem C44_paths : forall t, made_by_operations t ->
  (forall l u, at_loc t l = Some u -> exists p, path_at t l = Some p /\ find t p = Some l)
  /\ (forall l l' p, path_at t l = Some p -> path_at t l' = Some p -> l = l')
  /\ (forall l p, find t p = Some l -> path_at t l = Some p /\ exists u, at_loc t l = Some u).
Proof. intros t H. destruct (made_wf t H) as (W & D & _). exact (wf_paths t W D). Qed.
Print Assumptions C44_paths.
(** the same for the tree of any accepted schema *)
Theorem C44_schema : forall so s root, any_order so -> well_named s -> build_ast so s = Ok root ->
  (forall l u, at_loc root l = Some u -> exists p, path_at root l = Some p /\ find root p = Some l)
  /\ (forall l l' p, path_at root l = Some p -> path_at root l' = Some p -> l = l')
  /\ (forall l p, find root p = Some l -> path_at root l = Some p /\ exists u, at_loc root l = Some u).
Proof.
  intros so s root Hso W H. pose proof (well_named_clean s W) as C. destruct (build_ast_steps _ _ _ H) as (r1 & r2 & r3 & r4 & r5 & r6 & St).
  destruct (steps_good _ _ _ _ _ _ _ _ _ Hso C St) as (_ & _ & _ & _ & _ & _ & _ & _ & _ & _ & _ & _ & G7 & _). exact (wf_paths root (good_wf _ (proj1 G7)) (rooted_dot _ G7)).
Qed.
Print Assumptions C44_schema.
(** Inserting below a node: refused with SymbolRedefinition exactly when a sibling has the name; otherwise the new node is the
    last child, and all nodes keep their place, name and kind.  (A refused insertion yields no new tree, so nothing changes.) *)
Theorem C44_insert : forall t l u c, at_loc t l = Some u ->
  (In (t_name c) (map t_name (t_children u)) -> insert_at t l c = Err (SymbolRedefinition (t_name c)))
  /\ (~ In (t_name c) (map t_name (t_children u)) -> exists t', insert_at t l c = Ok t'
        /\ at_loc t' l = Some (Node (t_name u) (t_kind u) (t_children u ++ [c])%list)
        /\ forall l' v, at_loc t l' = Some v -> exists v', at_loc t' l' = Some v' /\ t_name v' = t_name v /\ t_kind v' = t_kind v).
Proof.
  intros t l u c Hl. split; intros H.
  - unfold insert_at. rewrite Hl. replace (insert u c) with (@Err tree (SymbolRedefinition (t_name c))); [reflexivity|]. symmetry. apply insert_err. auto.
  - assert (I : insert_at t l c = Ok (modify t l (fun _ => Node (t_name u) (t_kind u) (t_children u ++ [c])%list))).
    { unfold insert_at. rewrite Hl. replace (insert u c) with (Ok (Node (t_name u) (t_kind u) (t_children u ++ [c])%list)); [reflexivity|]. symmetry. apply insert_ok. auto. }
    eexists. split; [exact I|]. split; [exact (modify_at _ l t u Hl)|]. intros l' v Hv. exact (insert_at_old t l c _ l' v I Hv).
Qed.
Print Assumptions C44_insert.
Definition ns_a := Node "a" KNamespace [].
Theorem C44_instance : exists t t', made_by_operations t /\ at_loc t [0]%nat = Some (Node "a" KNamespace [Node "S" KArchive []])
  /\ insert_at t [0]%nat (Node "S" (KStructure None) []) = Err (SymbolRedefinition "S")
  /\ insert_at t [0]%nat (Node "T" (KStructure None) []) = Ok t' /\ path_at t' [0;1]%nat = Some ".a.T" /\ find t' ".a.T" = Some [0;1]%nat.
Proof.
  exists (Node "" KRoot [Node "a" KNamespace [Node "S" KArchive []]]). eexists. split; [|split; [reflexivity|split; [reflexivity|split; [reflexivity|split; reflexivity]]]].
  apply (op_insert (Node "" KRoot [ns_a]) [0]%nat (Node "S" KArchive [])); [|now apply (op_node "S" KArchive)|discriminate|reflexivity].
  apply (op_insert new_root [] ns_a); [apply op_root|now apply (op_node "a" KNamespace)|discriminate|reflexivity].
Qed.

(** ** C45: a reference gives back its target *)
Theorem C45_target : forall r path, has_char "@" path = false ->
  exists t, make_ref r path = Ok t /\ target t = path /\ (is_qualified t = true <-> qualified path).
Proof.
  intros r path C. exists (Node (referencify path) (KRef r) []). assert (N : name_ok (referencify path) = true) by apply referencify_ok.
  split; [unfold make_ref, make_node; now rewrite N|]. assert (T : target (Node (referencify path) (KRef r) []) = path) by (unfold target; cbn [t_name]; now apply dereferencify_referencify).
  split; [exact T|]. rewrite (qualified_target (Node (referencify path) (KRef r) []) (name_ok_dot _ N)). rewrite T. cbn [t_name]. split; [tauto|]. intros Q. split; [|exact Q].
  unfold referencify. eauto.
Qed.
Print Assumptions C45_target.
Theorem C45_instance : has_char "@" ".n.a.Some_Name9" = false /\ qualified ".n.a.Some_Name9" /\ referencify ".n.a.Some_Name9" = "@@n@a@Some_Name9".
Proof. split; [reflexivity|]. split; [eexists; reflexivity|reflexivity]. Qed.
(** Outside the schema language's identifiers this fails (so the hypothesis is needed) *)
Theorem C45_refuted : ~ forall r path t, make_ref r path = Ok t -> target t = path.
Proof. intros H. specialize (H RField "a@b" (Node "@a@b" (KRef RField) []) eq_refl). discriminate. Qed.

(** ** C46: the maximum size of a resource *)
Theorem C46_max_size : forall so s root, any_order so -> well_named s -> build_ast so s = Ok root ->
  forall dl n rk o m cs, at_loc root dl = Some (Node n (KResource rk o m) cs) ->
  least (fun v => exists w, referenced_by root dl w /\ w <> 64 /\ v = 2 ^ w) m
  /\ (forall size, m = Some size ->
        (forall w i, referenced_by root dl w -> w <> 64 -> 0 <= i < size -> representable w false i)
        /\ exists w, referenced_by root dl w /\ w <> 64 /\ ~ representable w false size).
Proof.
  intros so s root Hso W H dl n rk o m cs Hl. pose proof (well_named_clean s W) as C. destruct (build_ast_steps _ _ _ H) as (r1 & r2 & r3 & r4 & r5 & r6 & St).
  destruct (steps_good _ _ _ _ _ _ _ _ _ Hso C St) as (_ & _ & _ & _ & _ & _ & _ & _ & _ & _ & G6 & _ & G7 & _). pose proof (steps_fresh _ _ _ _ _ _ _ _ _ St) as F6.
  destruct St as (_ & _ & _ & _ & _ & _ & _ & H8 & _).
  pose proof (max_sizes_spec r6 root G6 F6 H8 dl n rk o m cs Hl) as L. split; [exact L|]. intros size ->. destruct L as ((w0 & R0 & N0 & E0) & L). split.
  - intros w i R N Hi. specialize (L (2 ^ w) (ex_intro _ w (conj R (conj N eq_refl)))). unfold representable. lia.
  - exists w0. split; [exact R0|]. split; [exact N0|]. unfold representable. lia.
Qed.
Print Assumptions C46_max_size.
Theorem C46_instance : exists dl n rk o cs, at_loc example_tree dl = Some (Node n (KResource rk o (Some (2 ^ 20))) cs) /\ referenced_by example_tree dl 20.
Proof.
  exists [0;0;3;1]%nat. eexists. eexists. eexists. eexists. split; [vm_compute; reflexivity|].
  exists [0;0;3;0;0]%nat. eexists. exists 0%nat, 1%nat, [0;0;1;2]%nat. eexists. eexists. eexists. eexists. split; [vm_compute; reflexivity|]. split; [reflexivity|].
  split; [eexists; split; [vm_compute; reflexivity|split; vm_compute; reflexivity]|]. split; [eexists; split; [vm_compute; reflexivity|split; vm_compute; reflexivity]|].
  split; [vm_compute; reflexivity|]. split; reflexivity.
Qed.
(** For a signed referencing field the limit is too generous: an [i8] field limits the resource to 256 items, but reaches only
    127 of the indices. *)
Definition signed_ref : pschema := [PNamespace "n" [] [PStruct "S" [PField "r" [] "i8" None]] []
   [PArchive "A" [] [PResource "v" [RExplicit "S" "r" "d"] (TVector "S"); PResource "d" [] (TVector "S")]]].
Theorem C46_refuted_signed : exists root dl n rk o cs, build_ast same_order signed_ref = Ok root
  /\ at_loc root dl = Some (Node n (KResource rk o (Some 256)) cs) /\ referenced_by root dl 8 /\ ~ representable 8 true 200.
Proof.
  eexists. exists [0;1;1]%nat. eexists. eexists. eexists. eexists. split; [vm_compute; reflexivity|]. split; [reflexivity|]. split.
  - exists [0;1;0;0]%nat. eexists. exists 0%nat, 1%nat, [0;0;0]%nat. eexists. eexists. eexists. eexists. split; [reflexivity|]. split; [reflexivity|].
    split; [eexists; split; [reflexivity|split; reflexivity]|]. split; [eexists; split; [reflexivity|split; reflexivity]|]. split; [reflexivity|]. split; reflexivity.
  - unfold representable. lia.
Qed.

(** ** C47: repeated namespace declarations *)
Theorem C47_merge_partial : forall so a p b q c, pn_name p = pn_name q -> separated (a ++ p :: b ++ q :: c)%list ->
  match build_node_tree so (a ++ p :: b ++ q :: c)%list, build_node_tree so (a ++ merged p q :: b ++ c)%list with
  | Ok t, Ok t' => same_definitions t t'
  | Err _, Err _ => True
  | _, _ => False
  end.
Proof. exact merge_equivalent. Qed.
Print Assumptions C47_merge_partial.

Lemma definitions_made so s : definitions_valid so s -> exists D, made so s D.
Proof.
  induction s as [|p s IH]; intros V; [exists []; constructor|]. destruct IH as (D & M); [intros x Hx; apply V; now right|].
  destruct (V p (or_introl eq_refl)) as (K & V1 & V2 & V3 & V4).
  assert (G : forall {A} (f : A -> res tree) l, (forall x, In x l -> exists t, f x = Ok t) -> exists ds, map f l = map Ok ds).
  { intros A f l. induction l as [|x l IHl]; intros F; [now exists []|]. destruct (F x (or_introl eq_refl)) as (t & Et). destruct IHl as (ds & E); [intros y Hy; apply F; now right|].
    exists (t :: ds). cbn. now rewrite Et, E. }
  destruct (G _ _ _ V1) as (d1 & E1). destruct (G _ _ _ V2) as (d2 & E2). destruct (G _ _ _ V3) as (d3 & E3). destruct (G _ _ _ V4) as (d4 & E4).
  exists ((ns_keys p, d1 ++ d2 ++ d3 ++ d4)%list :: D). constructor; [|exact M]. cbn. split; [reflexivity|]. split.
  - split.
    + unfold ns_keys in K. destruct (pn_name p) as [|a r]; [exact I|]. destruct (Ascii.eqb_spec a ".") as [->|N].
      * exfalso. apply (K ""); [now left|reflexivity].
      * destruct a as [[] [] [] [] [] [] [] []]; try exact I. now destruct N.
    + apply Forall_forall. intros k Hk. unfold name_ok. pose proof (split_dot_free (pn_name p)) as F. unfold dot_free in F. rewrite Forall_forall in F.
      unfold ns_keys in *. rewrite (F k Hk). cbn. destruct (String.eqb_spec k "") as [E|_]; [now destruct (K k Hk)|reflexivity].
  - unfold creations. now rewrite E1, E2, E3, E4, !map_app.
Qed.
(** Two definitions with the same name in the same namespace, in one declaration or in several, are refused; otherwise
    (given that every definition is fine by itself) the tree is built. *)
Theorem C47_duplicates_partial : forall so s, separated s -> definitions_valid so s ->
  (NoDup (defined_paths s) -> exists t, build_node_tree so s = Ok t)
  /\ (~ NoDup (defined_paths s) -> exists n ns a b c, build_node_tree so s = Err (SymbolRedefinition n)
        /\ defined_paths s = (a ++ (ns ++ [n]) :: b ++ (ns ++ [n]) :: c)%list).
Proof.
  intros so s S V. destruct (definitions_made so s V) as (D & M). destruct (build_dup so s D S M) as [(t & B & ND)|(n & K & B & (a & b & c & E))].
  - split; [eauto|]. intros Q. now destruct Q.
  - assert (E' : defined_paths s = (a ++ (K ++ [n]) :: b ++ (K ++ [n]) :: c)%list) by exact E. split.
    + intros ND. exfalso. rewrite E' in ND. apply NoDup_remove_2 in ND. apply ND. apply in_or_app. right. apply in_or_app. right. now left.
    + intros _. exists n, K, a, b, c. auto.
Qed.
Print Assumptions C47_duplicates_partial.
Definition twice_n (m : string) : pschema := [PNamespace "n.m" [] [PStruct "A" []] [] []; PNamespace "o" [] [PStruct "A" []] [] []; PNamespace "n.m" [] [PStruct m []] [] []].
Lemma twice_separated : separated (twice_n "B").
Proof.
  intros p q n m Hp Hq Hn E. cbn in Hp, Hq. destruct Hp as [<-|[<-|[<-|[]]]], Hn as [<-|[]], Hq as [<-|[<-|[<-|[]]]]; vm_compute in E; discriminate E.
Qed.
Lemma twice_separated_A : separated (twice_n "A").
Proof.
  intros p q n m Hp Hq Hn E. cbn in Hp, Hq. destruct Hp as [<-|[<-|[<-|[]]]], Hn as [<-|[]], Hq as [<-|[<-|[<-|[]]]]; vm_compute in E; discriminate E.
Qed.
Theorem C47_instance : separated (twice_n "B") /\ (exists t, build_node_tree same_order (twice_n "B") = Ok t)
  /\ separated (twice_n "A") /\ build_node_tree same_order (twice_n "A") = Err (SymbolRedefinition "A").
Proof. split; [exact twice_separated|]. split; [eexists; vm_compute; reflexivity|]. split; [exact twice_separated_A|]. vm_compute. reflexivity. Qed.
(** Without [separated] the claim is false: a structure and a namespace of the same name.  Whether the schema is accepted then
    depends on how the definitions are spread over declarations, and the error may be a Python assertion. *)
Theorem C47_refuted : let X := PNamespace "n.a.b" [] [PStruct "X" []] [] [] in let n0 := PNamespace "n" [] [] [] [] in let n1 := PNamespace "n" [] [PStruct "a" []] [] [] in
  (exists e, build_node_tree same_order [n0; X; n1] = Err e)
  /\ (exists t, build_node_tree same_order [merged n0 n1; X] = Ok t)
  /\ build_node_tree same_order [n1; PNamespace "n.a" [] [PStruct "X" []] [] []] = Err AssertionError.
Proof. cbv zeta. split; [eexists; vm_compute; reflexivity|]. split; [eexists; vm_compute; reflexivity|]. vm_compute. reflexivity. Qed.
