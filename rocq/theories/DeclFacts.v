(** Proofs for C69: each declaration keeps its contents through all the passes. *)
From Coq Require Import List ZArith Bool String Ascii Lia Permutation.
From Verif Require Import PyBase PyText GenSpec GenTypes GenTypesFacts GenTree GenTreeFacts GenTraversal
  GenBuild GenBuildFacts GenPassFacts GenAstFacts GenAstSpec GenAstThms GenLayoutFacts GenResolveFacts GenMergeFacts GenShapeFacts GenEvery GenTidy GenFieldFacts GenWords
  GenFlatdata GenOutFacts GenFinal GenClassNames Props_GenTree DeclSpec.
Import ListNotations.
Local Open Scope Z_scope.

(** ** Index structures: only multivectors get another child *)
Definition gained (root root' : tree) : Prop := forall l u, at_loc root l = Some u -> t_kind u <> KNamespace ->
  exists u' extra, at_loc root' l = Some u' /\ t_name u' = t_name u /\ t_kind u' = t_kind u
    /\ map t_kind (t_children u') = map t_kind (t_children u) ++ extra /\ Forall (fun k => k = KNamespace \/ k = KRef RBuiltin) extra.
Lemma gained_refl a : gained a a.
Proof. intros l u Hu _. exists u, []. rewrite app_nil_r. auto. Qed.
Lemma gained_trans a b c : gained a b -> gained b c -> gained a c.
Proof.
  intros H1 H2 l u Hu K. destruct (H1 l u Hu K) as (u1 & e1 & Hu1 & N1 & K1 & M1 & F1). destruct (H2 l u1 Hu1 ltac:(congruence)) as (u2 & e2 & Hu2 & N2 & K2 & M2 & F2).
  exists u2, (e1 ++ e2). split; [exact Hu2|]. split; [congruence|]. split; [congruence|]. split; [rewrite M2, M1; now rewrite app_assoc|]. apply Forall_app. auto.
Qed.
Lemma insert_gained root l c root' t : insert_at root l c = Ok root' -> at_loc root l = Some t -> (t_kind t = KNamespace \/ t_kind c = KNamespace \/ t_kind c = KRef RBuiltin) -> gained root root'.
Proof.
  intros H Ht K l' u Hu Ku. destruct (insert_at_kinds _ _ _ _ _ _ H Hu) as (u' & Hu' & K' & M). destruct (insert_at_old _ _ _ _ _ _ H Hu) as (u2 & Hu2 & N2 & _).
  rewrite Hu' in Hu2. injection Hu2 as <-. exists u'. eexists. split; [exact Hu'|]. split; [exact N2|]. split; [exact K'|]. split; [exact M|].
  destruct (loc_eq_dec l' l) as [->|]; [|constructor]. constructor; [|constructor]. rewrite Hu in Ht. injection Ht as <-. tauto.
Qed.
Lemma append_builtin_gained root x root' : append_builtin root x = Ok root' -> gained root root'.
Proof.
  unfold append_builtin. intros H. destruct (at_loc root x) as [[n k cs]|] eqn:Hl; [|discriminate].
  destruct k as [| | | | | | | |rk opt mx| |]; try discriminate. destruct rk as [| |w| | |]; try discriminate.
  destruct (names_at root (parent_loc (parent_loc x))) as [[|n0 keys]|] eqn:N; [discriminate| |discriminate].
  apply bind_ok in H as ([root1 ns] & He & H). destruct (ensure_namespace_ns _ _ _ _ He) as (t1 & Ht1 & K1). apply bind_ok in H as (b & Hb & H). apply bind_ok in H as (root2 & H2 & H). rewrite Ht1 in H2.
  apply (gained_trans root root1); [|apply (gained_trans root1 root2)].
  - destruct (ensure_namespace_ok _ _ _ _ He) as [(-> & _)|(_ & first & Hn & Hi & _)]; [apply gained_refl|]. destruct (insert_at_inv _ _ _ _ Hi) as (t & Ht & _).
    apply (insert_gained _ _ _ _ t Hi Ht). right. left. exact (proj2 (nest_shaped true _ _ Hn)).
  - destruct (find_relative t1 (t_name b)); [injection H2 as <-; apply gained_refl|]. apply (insert_gained _ _ _ _ t1 H2 Ht1). now left.
  - destruct (path_at root2 ns) as [p|]; [|discriminate]. apply bind_ok in H as (r & Hr & H). apply make_ref_ok in Hr as (-> & _). destruct (insert_at_inv _ _ _ _ H) as (t & Ht & _).
    apply (insert_gained _ _ _ _ t H Ht). right. right. reflexivity.
Qed.
Lemma append_builtins_gained root root' : append_builtins root = Ok root' -> gained root root'.
Proof.
  unfold append_builtins. intros H. refine (foldM_inv (fun x => gained root x) _ _ _ _ H (gained_refl _) _). intros l _ a a' Ga Ha. exact (gained_trans _ _ _ Ga (append_builtin_gained _ _ _ Ha)).
Qed.

(** ** Field types of enumerations, with the width check *)
Definition enum_checked (root : tree) (l : loc) (ty : ftype) : Prop :=
  exists i r w tl n b b' cs, at_loc root (l ++ [i]) = Some r /\ t_kind r = KRef (REnum w) /\ find root (target r) = Some tl
    /\ at_loc root tl = Some (Node n (KEnum b) cs) /\ make_btype (bt_name b) (Some (bt_width b)) = Ok b' /\ ty = FT (t_name r) (bt_width b') (bt_signed b')
    /\ (forall x, w = Some x -> x = 0 \/ x = bt_width b).
Lemma enum_checked_same a b l ty : rooted a -> rooted b -> same_tree a b -> enum_checked a l ty -> enum_checked b l ty.
Proof.
  intros Ga Gb S (i & r & w & tl & n & e & e' & cs & Hr & Kr & F & T & M & E & Wd).
  destruct (same_at a b _ _ S Hr) as (r' & Hr' & Nr & K'). rewrite Kr in K'. apply erase_kref in K'.
  destruct (same_at a b _ _ S T) as ([n' k' cs'] & T' & _ & Kt). cbn in Kt. assert (k' = KEnum e) as -> by (now destruct k').
  exists i, r', w, tl, n', e, e', cs'. rewrite Nr. repeat split; auto. rewrite <- (skel_find a b _ Ga Gb S). unfold target in *. now rewrite Nr.
Qed.
(** an untyped field of the tree before gets a checked type *)
Definition checked (root x : tree) : Prop := forall l u u', at_loc root l = Some u -> at_loc x l = Some u' ->
  (t_kind u' = t_kind u) \/ exists rng off ty, t_kind u = KField rng None off /\ t_kind u' = KField rng (Some ty) off /\ enum_checked root l ty.
Lemma update_field_checked root l root' : update_field root l = Ok root' -> checked root root'.
Proof.
  unfold update_field. intros H l' u u' Hu Hu'. assert (Same : root' = root -> t_kind u' = t_kind u) by (intros ->; congruence).
  destruct (at_loc root l) as [[n k cs]|] eqn:Hl; [|discriminate]. destruct k; try (left; apply Same; now injection H). destruct type as [ty|]; [left; apply Same; now injection H|].
  destruct (filter (fun c => is_enum_ref (t_kind c)) cs) as [|r rs] eqn:Fr; [discriminate|]. apply bind_ok in H as (tl & Ht & H).
  destruct (at_loc root tl) as [[n2 [| | | | |b| | | | |] cs2]|] eqn:Htl; try discriminate.
  destruct (t_kind r) as [| | | | | | | | | |[| | | | |w| |]] eqn:Kr; try discriminate. apply bind_ok in H as (b' & Hb & H).
  match type of H with (if ?c then _ else _) = _ => destruct c eqn:Cw end; [discriminate|]. injection H as <-.
  destruct (set_kind_at _ _ _ _ _ _ Hl Hu') as (u0 & Hu0 & N & C). rewrite Hu in Hu0. injection Hu0 as <-. destruct C as [(-> & K)|K]; [|auto]. right. rewrite Hl in Hu. injection Hu as <-.
  eexists _, _, _. split; [reflexivity|]. split; [exact K|]. assert (Hr : In r cs) by (eapply proj1, filter_In; rewrite Fr; now left). apply In_nth_error in Hr as (i & Hi).
  exists i, r, w, tl, n2, b, b', cs2. repeat split; auto.
  - rewrite at_loc_app, Hl. cbn. now rewrite Hi.
  - unfold ref_loc in Ht. destruct (find root (target r)); congruence.
  - intros x ->. destruct (Z.eqb_spec x 0); [now left|]. destruct (Z.eqb_spec x (bt_width b)); [now right|]. discriminate.
Qed.
Lemma update_types_checked root root' : rooted root -> update_field_types root = Ok root' -> checked root root'.
Proof.
  intros G H. unfold update_field_types in H.
  refine (proj2 (proj2 (foldM_inv (fun x => rooted x /\ same_tree root x /\ checked root x) _ _ _ _ H _ _))).
  - split; [exact G|]. split; [reflexivity|]. intros l u u' A B. left. congruence.
  - intros l _ x x' (Gx & Sx & Ix) Hx. destruct (update_field_good _ _ _ Hx Gx) as (G' & S'). split; [exact G'|]. split; [exact (same_trans _ _ _ Sx S')|].
    intros l' u u' Hu Hu'. destruct (same_at _ _ _ _ Sx Hu) as (v & Hv & _ & _). destruct (update_field_checked _ _ _ Hx l' v u' Hv Hu') as [K|(rng & off & ty & K1 & K2 & En)].
    + rewrite K. exact (Ix l' u v Hu Hv).
    + destruct (Ix l' u v Hu Hv) as [K|(rng' & off' & ty' & _ & K' & _)]; [|congruence]. right. exists rng, off, ty. rewrite <- K. split; [exact K1|]. split; [exact K2|].
      exact (enum_checked_same x root l' ty Gx G (eq_sym Sx) En).
Qed.
(** a typed result: every field has a type *)
Lemma Forall2_len {A B} (R : A -> B -> Prop) l m : Forall2 R l m -> List.length l = List.length m.
Proof. induction 1; cbn; congruence. Qed.
Lemma Forall2_nth_ok {A B} (R : A -> B -> Prop) l m : Forall2 R l m -> forall i x y, nth_error l i = Some x -> nth_error m i = Some y -> R x y.
Proof. induction 1; intros [|i] a b Ha Hb; cbn in *; try discriminate; [congruence|eauto]. Qed.
Lemma len_le {A B} (xs : list A) (ys : list B) : (forall i x, nth_error xs i = Some x -> exists y, nth_error ys i = Some y) -> (List.length xs <= List.length ys)%nat.
Proof.
  intros H. destruct (Compare_dec.le_lt_dec (List.length xs) (List.length ys)) as [L|L]; [exact L|]. exfalso.
  destruct (nth_error xs (List.length ys)) as [x|] eqn:E; [|apply nth_error_None in E; lia]. destruct (H _ _ E) as (y & Hy). assert (X : nth_error ys (List.length ys) <> None) by congruence. apply nth_error_Some in X. lia.
Qed.
Lemma refs_builtin extra : Forall (fun k => k = KRef RBuiltin) extra ->
  List.length (filter (fun r => match r with RBuiltin => true | _ => false end) (ref_kinds extra)) = List.length extra.
Proof. induction 1 as [|k ks -> F IH]; [reflexivity|]. cbn. now f_equal. Qed.
Lemma plain_clean n : only_chars plain_char n = true -> has_char "@" n = false.
Proof.
  induction n as [|c n IH]; [reflexivity|]. cbn. intros X. apply andb_true_iff in X as (X & Y). rewrite (IH Y), orb_false_r. destruct (Ascii.eqb_spec c "@") as [->|Q]; [discriminate|reflexivity].
Qed.

(** ** What is created for each declaration *)
Definition ref_nodes (ms : list (refkind * string)) (cs : list tree) : Prop := Forall2 (fun (m : refkind * string) c => make_ref (fst m) (snd m) = Ok c) ms cs.
Lemma first_range_hd ds : first_range ds = hd_error (ranges ds).
Proof. induction ds as [|[n|n|n] ds IH]; cbn; auto. Qed.
Lemma create_field_inv f t : create_field f = Ok t -> exists cs, ref_nodes (constants_used (pf_decs f)) cs /\
  ((exists w, storage_width (pf_type f) = Some w /\ t = Node (pf_name f) (KField (hd_error (ranges (pf_decs f)))
      (Some (FT (pf_type f) (match declared_width f with Some x => x | None => w end) (name_signed (pf_type f)))) None) cs)
   \/ (storage_width (pf_type f) = None /\ exists e, make_ref (REnum (declared_width f)) (pf_type f) = Ok e
        /\ t = Node (pf_name f) (KField (hd_error (ranges (pf_decs f))) None None) (cs ++ [e]))).
Proof.
  unfold create_field. rewrite first_range_hd. intros H. apply bind_ok in H as (a & Ha & H). apply bind_ok in H as (b & Hb & H). apply make_node_ok in Ha as (_ & ->).
  assert (X : forall ds n k cs0 b, foldM (fun t d => match d with FConst n => c <- make_ref RConstValue n ;; insert t c | FOptional n => c <- make_ref RInvalidValue n ;; insert t c | FRange _ => Ok t end) (Node n k cs0) ds = Ok b ->
    exists cs, ref_nodes (constants_used ds) cs /\ b = Node n k (cs0 ++ cs)).
  { clear. induction ds as [|d ds IH]; intros n k cs0 b H; cbn [foldM] in H; [injection H as <-; exists []; rewrite app_nil_r; split; [constructor|reflexivity]|].
    apply bind_ok in H as (t1 & H1 & H). destruct d as [m|m|m].
    - injection H1 as <-. exact (IH _ _ _ _ H).
    - apply bind_ok in H1 as (c & Hc & H1). apply insert_ok in H1 as (_ & ->). destruct (IH _ _ _ _ H) as (cs & F & ->). exists (c :: cs). split; [constructor; [exact Hc|exact F]|]. cbn. now rewrite <- app_assoc.
    - apply bind_ok in H1 as (c & Hc & H1). apply insert_ok in H1 as (_ & ->). destruct (IH _ _ _ _ H) as (cs & F & ->). exists (c :: cs). split; [constructor; [exact Hc|exact F]|]. cbn. now rewrite <- app_assoc. }
  destruct (X _ _ _ _ _ Hb) as (cs & F & ->). clear X Hb. cbn [t_name t_children app] in H. exists cs. split; [exact F|]. unfold is_basic_type in H. destruct (storage_width (pf_type f)) as [w|] eqn:Sw.
  - left. exists w. split; [reflexivity|]. apply bind_ok in H as (bt & Hbt & H). injection H as <-. apply make_btype_ok in Hbt as (w' & Hw & -> & _). rewrite Sw in Hw. injection Hw as <-. reflexivity.
  - right. split; [reflexivity|]. apply bind_ok in H as (e & He & H). apply insert_ok in H as (_ & ->). exists e. split; [exact He|reflexivity].
Qed.
Lemma oks_map {A} (f : A -> res tree) l ds : Forall2 (fun rc d => rc = Ok d) (map f l) ds <-> Forall2 (fun x d => f x = Ok d) l ds.
Proof.
  split.
  - revert ds. induction l as [|x l IH]; intros ds H; cbn in H; inversion H; subst; constructor; auto.
  - induction 1; cbn; constructor; auto.
Qed.
Lemma create_structure_inv st t : create_structure st = Ok t -> exists cs, Forall2 (fun f c => create_field f = Ok c) (ps_fields st) cs /\ t = Node (ps_name st) (KStructure None) cs.
Proof.
  unfold create_structure. intros H. apply bind_ok in H as (a & Ha & H). apply make_node_ok in Ha as (_ & ->). destruct (insert_all_ok _ _ _ H) as (ds & F & -> & _). cbn. exists ds. split; [now apply oks_map|reflexivity].
Qed.
Lemma create_constant_inv c t : create_constant c = Ok t -> exists v, py_int0 (pc_value c) = Ok v /\ t = Node (pc_name c) (KConstant (pc_type c) v) [].
Proof.
  unfold create_constant, make_constant. intros H. apply bind_ok in H as (a & Ha & H). apply make_node_ok in Ha as (_ & ->). apply bind_ok in H as (v & Hv & H). injection H as <-. cbn.
  apply bind_ok in Hv as (v' & Hv' & Hv). apply bind_ok in Hv as (b & _ & Hv). apply bind_ok in Hv as (n & _ & Hv). destruct (n >? bt_width b); [discriminate|]. injection Hv as ->. eauto.
Qed.
Lemma create_explicit_inv a b c t : create_explicit a b c = Ok t -> exists n cs, t = Node n KExplicit cs /\ ref_nodes [(RResource, c); (RField, (a ++ "." ++ b)%string); (RStructure, a)] cs.
Proof.
  unfold create_explicit. intros H. apply bind_ok in H as (x & Hx & H). apply make_node_ok in Hx as (_ & ->). destruct (insert_all_ok _ _ _ H) as (ds & F & -> & _). cbn [t_name t_kind t_children app]. eexists _, ds. split; [reflexivity|].
  inversion F as [|? d1 ? ds1 R1 F1]; subst. inversion F1 as [|? d2 ? ds2 R2 F2]; subst. inversion F2 as [|? d3 ? ds3 R3 F3]; subst. inversion F3; subst. repeat constructor; assumption.
Qed.
Lemma create_resource_inv r t : create_resource r = Ok t -> exists es cs,
  Forall2 (fun x c => create_explicit (fst (fst x)) (snd (fst x)) (snd x) = Ok c) (explicit_references (pr_decs r)) es
  /\ ref_nodes (types_used (pr_type r)) cs /\ t = Node (pr_name r) (KResource (resource_kind (pr_type r)) (has_optional (pr_decs r)) None) (es ++ cs).
Proof.
  unfold create_resource. intros H. apply bind_ok in H as (a & Ha & H). apply bind_ok in H as (b & Hb & H). apply make_node_ok in Ha as (_ & ->).
  assert (X : forall ds n k cs0 b, foldM (fun t d => match d with RExplicit ty f dest => c <- create_explicit ty f dest ;; insert t c | ROptional => Ok t end) (Node n k cs0) ds = Ok b ->
    exists es, Forall2 (fun x c => create_explicit (fst (fst x)) (snd (fst x)) (snd x) = Ok c) (explicit_references ds) es /\ b = Node n k (cs0 ++ es)).
  { clear. induction ds as [|d ds IH]; intros n k cs0 b H; cbn [foldM] in H; [injection H as <-; exists []; rewrite app_nil_r; split; [constructor|reflexivity]|].
    apply bind_ok in H as (t1 & H1 & H). destruct d as [x y z|].
    - apply bind_ok in H1 as (c & Hc & H1). apply insert_ok in H1 as (_ & ->). destruct (IH _ _ _ _ H) as (cs & F & ->). exists (c :: cs). split; [constructor; [exact Hc|exact F]|]. cbn. now rewrite <- app_assoc.
    - injection H1 as <-. exact (IH _ _ _ _ H). }
  destruct (X _ _ _ _ _ Hb) as (es & F & ->). clear X Hb. destruct (insert_all_ok _ _ _ H) as (cs & Fc & -> & _). cbn [t_name t_kind t_children app]. exists es, cs. split; [exact F|]. split; [|destruct (pr_type r); reflexivity].
  unfold types_used, ref_nodes. destruct (pr_type r) as [|ty|w tys|n|ty]; cbn [app] in Fc |- *.
  1: inversion Fc; constructor.
  1, 3, 4: (inversion Fc as [|? d ? ds Hd Fd]; subst; inversion Fd; subst; constructor; [exact Hd|constructor]).
  apply (proj1 (oks_map _ _ _)) in Fc. clear - Fc. induction Fc; cbn; constructor; auto.
Qed.
Lemma has_optional_in ds : has_optional ds = true <-> In ROptional ds.
Proof.
  unfold has_optional. rewrite existsb_exists. split; [intros (x & Hx & E); now destruct x|]. intros H. exists ROptional. auto.
Qed.
Lemma create_bound_inv b t : create_bound b = Ok t -> exists cs, ref_nodes (map (pair RResource) (snd b)) cs /\ t = Node (fst b) (KResource KBound false None) cs.
Proof.
  unfold create_bound. intros H. apply bind_ok in H as (a & Ha & H). apply make_node_ok in Ha as (_ & ->). destruct (insert_all_ok _ _ _ H) as (ds & F & -> & _). cbn. exists ds. split; [|reflexivity].
  apply (proj1 (oks_map _ _ _)) in F. unfold ref_nodes. clear - F. induction F; cbn; constructor; auto.
Qed.
Lemma create_archive_inv a t : create_archive a = Ok t -> exists rs bs, Forall2 (fun r c => create_resource r = Ok c) (pa_resources a) rs /\ Forall2 (fun b c => create_bound b = Ok c) (pa_bound a) bs
  /\ t = Node (pa_name a) KArchive (rs ++ bs).
Proof.
  unfold create_archive. intros H. apply bind_ok in H as (x & Hx & H). apply make_node_ok in Hx as (_ & ->). apply bind_ok in H as (y & Hy & H).
  destruct (insert_all_ok _ _ _ Hy) as (rs & Fr & -> & _). destruct (insert_all_ok _ _ _ H) as (bs & Fb & -> & _). cbn. exists rs, bs. split; [now apply oks_map|]. split; [now apply oks_map|reflexivity].
Qed.

Section Contents.
  Variables (so : list Z -> list Z) (s : pschema) (r1 r2 r3 r4 r5 r6 root : tree).
  Hypothesis (Hso : any_order so) (W : well_named s) (St : build_steps so s r1 r2 r3 r4 r5 r6 root) (Sp : separated s) (NB : no_builtin s).
  Let C : schema_clean s := well_named_clean s W.

  Lemma steps_build : build_ast so s = Ok root.
  Proof.
    unfold build_ast. pose proof St as (A1 & A2 & A3 & A4 & A5 & A6 & A7 & A8 & A9 & A10). rewrite A1. cbn [bind]. rewrite A2. cbn [bind]. rewrite A3. cbn [bind]. rewrite A4. cbn [bind]. rewrite A5. cbn [bind].
    rewrite A6. cbn [bind]. rewrite A7. cbn [bind]. rewrite A8. cbn [bind]. rewrite A9. cbn [bind]. rewrite A10. reflexivity.
  Qed.
  Lemma steps_declared : declared_tree so s = Ok r2.
  Proof. unfold declared_tree. pose proof St as (A1 & A2 & _). now rewrite A1. Qed.

  Definition keptC := kept so s r1 r2 r3 r4 r5 r6 root Hso C St.
  Definition oldC := old_any so s r1 r2 r3 r4 r5 r6 root Hso C St.
  Definition sameC := final_same so s r1 r2 r3 r4 r5 r6 root Hso C St.

  Lemma names_same l v : at_loc r2 l = Some v -> is_ref v = false -> names_at root l = names_at r2 l.
  Proof.
    destruct sameC as (G2 & _ & _ & _ & _ & _ & G7 & _). revert v. induction l as [|i p IH] using rev_ind; intros v Hv Rv.
    - cbn. now rewrite (proj1 (proj2 G7)), (proj1 (proj2 G2)).
    - destruct (parent_at _ _ _ _ Hv) as (x & Hx & Hi). assert (Rx : is_ref x = false) by exact (not_ref_of_child _ _ _ (good_at _ _ _ (proj1 G2) Hx) Hi).
      specialize (IH x Hx Rx). destruct (keptC p x Hx) as (y & Hy & _ & Ny). destruct (keptC _ v Hv) as (z & Hz & _ & Nz).
      destruct (parent_at _ _ _ _ Hz) as (y' & Hy' & Hzi). rewrite Hy in Hy'. injection Hy' as <-.
      destruct (proj1 (names_at_some r2 p) (ex_intro _ x Hx)) as (np & Np). rewrite (names_snoc r2 p i x v np Hx Hi Np). rewrite Np in IH. rewrite (names_snoc root p i y z np Hy Hzi IH). now rewrite (Nz Rv).
  Qed.
  Lemma path_same l v : at_loc r2 l = Some v -> is_ref v = false -> path_at root l = path_at r2 l.
  Proof. intros H R. unfold path_at. now rewrite (names_same l v H R). Qed.

  (** *** From the declarations to the tree with index structures *)
  Definition mv (k : kind) : list kind := if GenBuild.is_multivector k then [KRef RBuiltin] else [].
  Lemma first_two l u : at_loc r1 l = Some u -> t_kind u <> KNamespace -> t_kind u <> KRoot ->
    exists u2, at_loc r2 l = Some u2 /\ t_name u2 = t_name u /\ t_kind u2 = t_kind u /\ map t_kind (t_children u2) = map t_kind (t_children u) ++ mv (t_kind u).
  Proof.
    intros Hu K1 K2. pose proof St as (H1 & H2 & _). destruct (append_builtins_gained _ _ H2 l u Hu K1) as (u2 & extra & Hu2 & N & K & M & F).
    exists u2. split; [exact Hu2|]. split; [exact N|]. split; [exact K|]. rewrite M. f_equal.
    assert (F' : Forall (fun k => k = KRef RBuiltin) extra).
    { rewrite Forall_forall in F |- *. intros k Hk. destruct (F k Hk) as [->| ->]; [|reflexivity]. exfalso.
      assert (In KNamespace (map t_kind (t_children u2))) as Q by (rewrite M; apply in_or_app; now right). apply in_map_iff in Q as (c & Kc & Hc). apply In_nth_error in Hc as (i & Hi).
      assert (Hc : at_loc r2 (l ++ [i]) = Some c) by (rewrite at_loc_app, Hu2; cbn; now rewrite Hi).
      destruct (keptC _ _ Hc) as (c7 & Hc7 & E7 & _). rewrite Kc in E7. apply erase_namespace in E7. destruct (keptC _ _ Hu2) as (u7 & Hu7 & Eu & _).
      destruct (namespace_parent so s r1 r2 r3 r4 r5 r6 root Hso C St Sp NB l i u7 c7 Hu7 Hc7 E7) as [Q|Q]; rewrite Q in Eu; rewrite K in Eu; destruct (t_kind u); try discriminate; congruence. }
    pose proof (build_node_tree_good so s r1 Hso C H1) as G1. pose proof (build_node_tree_shaped false so s r1 Hso C H1) as S1.
    unfold append_builtins in H2. destruct (builtins_fold _ _ _ H2 (iterate_nodup _ _) G1 (shaped_any _ _ S1)) as (_ & _ & E & _). specialize (E l u Hu).
    pose proof (builtins_none _ S1 l) as Z0. rewrite Z0 in E. unfold builtins_at, refs_at in E, Z0. rewrite Hu2, M, ref_kinds_app, filter_app, app_length in E. rewrite Hu in Z0. rewrite Z0, (refs_builtin _ F') in E.
    unfold mv. destruct (in_dec loc_eq_dec l (iterate r1 GenBuild.is_multivector)) as [I|I].
    - apply iterate_spec in I as (x & Hx & Kx). rewrite Hu in Hx. injection Hx as <-. rewrite Kx. destruct extra as [|k [|]]; try discriminate. inversion F'; subst. reflexivity.
    - destruct (GenBuild.is_multivector (t_kind u)) eqn:Km; [exfalso; apply I; apply iterate_spec; eauto|]. destruct extra; [reflexivity|discriminate].
  Qed.

  (** *** The finished tree *)
  Lemma final_node l u : at_loc r1 l = Some u -> t_kind u <> KNamespace -> t_kind u <> KRoot ->
    exists u', at_loc root l = Some u' /\ erase (t_kind u') = erase (t_kind u) /\ (is_ref u = false -> t_name u' = t_name u)
      /\ (t_kind u <> KArchive -> List.length (t_children u') = (List.length (t_children u) + List.length (mv (t_kind u)))%nat)
      /\ (t_kind u = KArchive -> forall i c, (List.length (t_children u) <= i)%nat -> nth_error (t_children u') i = Some c -> t_kind c = KRef RConstValue)
      /\ (GenBuild.is_multivector (t_kind u) = true -> exists c, nth_error (t_children u') (List.length (t_children u)) = Some c /\ t_kind c = KRef RBuiltin).
  Proof.
    intros Hu K1 K2. destruct (first_two l u Hu K1 K2) as (u2 & Hu2 & N2 & E2 & M2). destruct (keptC l u2 Hu2) as (u' & Hu' & E' & N'). exists u'.
    assert (L2 : List.length (t_children u2) = (List.length (t_children u) + List.length (mv (t_kind u)))%nat) by (rewrite <- (map_length t_kind (t_children u2)), M2, app_length, map_length; reflexivity).
    assert (Old : forall i c, nth_error (t_children u') i = Some c -> (exists c2, nth_error (t_children u2) i = Some c2) \/ (t_kind u' = KArchive /\ t_kind c = KRef RConstValue)).
    { intros i c Hc. assert (Hl : at_loc root (l ++ [i]) = Some c) by (rewrite at_loc_app, Hu'; cbn; now rewrite Hc).
      destruct (oldC _ _ Hl) as [(v & Hv & _)|(p & j & a & Ej & Ha & Ka & Kc)].
      - left. rewrite at_loc_app, Hu2 in Hv. cbn in Hv. destruct (nth_error (t_children u2) i); [eauto|discriminate].
      - right. apply app_inj_tail in Ej as (<- & _). rewrite Hu' in Ha. injection Ha as <-. auto. }
    assert (New : forall i c2, nth_error (t_children u2) i = Some c2 -> exists c, nth_error (t_children u') i = Some c /\ erase (t_kind c) = erase (t_kind c2)).
    { intros i c2 Hc2. assert (Hl : at_loc r2 (l ++ [i]) = Some c2) by (rewrite at_loc_app, Hu2; cbn; now rewrite Hc2). destruct (keptC _ _ Hl) as (c & Hc & Ec & _).
      rewrite at_loc_app, Hu' in Hc. cbn in Hc. destruct (nth_error (t_children u') i) as [c0|]; [|discriminate]. injection Hc as ->. eauto. }
    split; [exact Hu'|]. split; [congruence|]. split; [|split; [|split]].
    - intros R. rewrite <- N2. apply N'. unfold is_ref in *. now rewrite E2.
    - intros Na. rewrite <- L2. apply PeanoNat.Nat.le_antisymm; apply len_le.
      + intros i x Hx. destruct (Old i x Hx) as [H|(Q & _)]; [exact H|]. exfalso. apply Na. rewrite Q, E2 in E'. destruct (t_kind u); try discriminate. reflexivity.
      + intros i x Hx. destruct (New i x Hx) as (c & Hc & _). eauto.
    - intros Ka i c L Hc. destruct (Old i c Hc) as [(c2 & Hc2)|(_ & Q)]; [|exact Q]. exfalso. assert (X : nth_error (t_children u2) i <> None) by congruence. apply nth_error_Some in X.
      rewrite L2, Ka in X. cbn in X. lia.
    - intros Km. assert (Hk : nth_error (map t_kind (t_children u2)) (List.length (t_children u)) = Some (KRef RBuiltin)).
      { rewrite M2, nth_error_app2, map_length, PeanoNat.Nat.sub_diag by (rewrite map_length; lia). unfold mv. now rewrite Km. }
      rewrite nth_error_map in Hk. destruct (nth_error (t_children u2) (List.length (t_children u))) as [c2|] eqn:Hc2; [|discriminate]. injection Hk as Hk.
      destruct (New _ _ Hc2) as (c & Hc & Ec). exists c. split; [exact Hc|]. rewrite Hk in Ec. now apply erase_kref.
  Qed.

  (** *** Mentions *)
  Lemma path_marked t d v q : rooted t -> at_loc t d = Some v -> is_ref v = true -> path_at t d = Some q -> has_char "@" q = true.
  Proof.
    intros G Hv R P. assert (exists r, t_kind v = KRef r) as (r & Kr) by (unfold is_ref in R; destruct (t_kind v); try discriminate; eauto).
    destruct (ref_marked t d v r G Hv Kr) as (x & Nx). destruct (names_at_last t d v Hv) as (ns & Hn). unfold path_at in P. rewrite Hn in P. injection P as <-.
    destruct ns as [|n ns]; [unfold dotted; cbn; rewrite Nx; reflexivity|]. rewrite join_snoc by discriminate. rewrite !has_char_app, Nx. cbn. now rewrite !orb_true_r.
  Qed.
  Lemma clean_same d q : has_char "@" q = false -> (path_at root d = Some q <-> path_at r2 d = Some q).
  Proof.
    intros Cq. destruct sameC as (G2 & _ & _ & _ & _ & _ & G7 & _). split; intros P.
    - assert (exists v, at_loc root d = Some v) as (v & Hv).
      { apply names_at_some. unfold path_at in P. destruct (names_at root d); [eauto|discriminate]. }
      destruct (is_ref v) eqn:R; [rewrite (path_marked root d v q G7 Hv R P) in Cq; discriminate|]. destruct (old_node so s r1 r2 r3 r4 r5 r6 root Hso C St d v Hv R) as (v2 & Hv2 & _ & E2).
      rewrite <- (path_same d v2 Hv2); [exact P|]. unfold is_ref in *. destruct (t_kind v2), (t_kind v); try discriminate; reflexivity.
    - assert (exists v, at_loc r2 d = Some v) as (v & Hv).
      { apply names_at_some. unfold path_at in P. destruct (names_at r2 d); [eauto|discriminate]. }
      destruct (is_ref v) eqn:R; [rewrite (path_marked r2 d v q G2 Hv R P) in Cq; discriminate|]. now rewrite (path_same d v Hv R).
  Qed.
  Lemma visible_same l u n : at_loc r2 l = Some u -> (visible root l n <-> visible r2 l n).
  Proof.
    intros Hu. assert (X : forall a b t t2, l = a ++ b -> at_loc r2 a = Some t2 -> at_loc root a = Some t -> (t_kind t = KNamespace <-> t_kind t2 = KNamespace)).
    { intros a b t t2 _ H2 H7. destruct (keptC a t2 H2) as (t' & Ht' & E & _). rewrite H7 in Ht'. injection Ht' as <-. split; intros Q; rewrite Q in E; [symmetry in E|]; now apply erase_namespace in E. }
    assert (P2 : forall a b, l = a ++ b -> exists t2, at_loc r2 a = Some t2) by (intros a b E; rewrite E, at_loc_app in Hu; destruct (at_loc r2 a); [eauto|discriminate]).
    split; intros (m & E & L & F); exists m; (split; [exact E|]); (split; [exact L|]); intros a b t Em Na Nb Ht K.
    - destruct (keptC _ _ Ht) as (t7 & Ht7 & _). apply (F a b t7 Em Na Nb Ht7). apply (X (n ++ a) b t7 t); auto. rewrite E, Em. now rewrite app_assoc.
    - destruct (P2 (n ++ a) b) as (t2 & Ht2); [rewrite E, Em; now rewrite app_assoc|]. apply (F a b t2 Em Na Nb Ht2). apply (X (n ++ a) b t t2); auto. rewrite E, Em. now rewrite app_assoc.
  Qed.
  Lemma declared_same l u n name d : at_loc r2 l = Some u -> visible r2 l n -> has_char "@" name = false -> (declared root n name d <-> declared r2 n name d).
  Proof.
    intros Hu (m & E & L & _) Cn. destruct sameC as (G2 & _ & _ & _ & _ & _ & G7 & _).
    assert (exists v, at_loc r2 n = Some v /\ is_ref v = false) as (v & Hv & Rv).
    { rewrite E in Hu. destruct m as [|i m]; [cbn in L; lia|]. rewrite at_loc_app in Hu. destruct (at_loc r2 n) as [v|] eqn:Hv; [|discriminate]. exists v. split; [reflexivity|]. cbn in Hu.
      destruct (nth_error (t_children v) i) as [c|] eqn:Hc; [|discriminate]. exact (not_ref_of_child _ _ _ (good_at _ _ _ (proj1 G2) Hv) Hc). }
    assert (Cp : forall p, path_at r2 n = Some p -> has_char "@" (p ++ "." ++ name) = false).
    { intros p P. pose proof (path_clean r2 n v p (proj1 G2) Hv Rv P) as Cp. rewrite !has_char_app. unfold clean in Cp. now rewrite Cp, Cn. }
    unfold declared. rewrite (path_same n v Hv Rv). split; intros (p & P & Q); exists p; (split; [exact P|]); (apply clean_same; [exact (Cp p P)|exact Q]).
  Qed.
  Lemma innermost_same l u name d : at_loc r2 l = Some u -> has_char "@" name = false -> innermost r2 l name d -> innermost root l name d.
  Proof.
    intros Hu Cn (n & V & D & F). exists n. split; [now apply (visible_same l u n Hu)|]. split; [now apply (declared_same l u n name d Hu V Cn)|].
    intros n' d' V' L D'. apply (visible_same l u n' Hu) in V'. apply (F n' d' V' L). now apply (declared_same l u n' name d' Hu V' Cn).
  Qed.
  Lemma mention_final l r nm : at_loc r1 l = Some (Node (referencify nm) (KRef r) []) -> has_char "@" nm = false -> mention root l (r, nm).
  Proof.
    intros Hu Cn. destruct (first_two l _ Hu) as (u2 & Hu2 & N2 & K2 & _); try discriminate. cbn in N2, K2.
    destruct (C43_resolution so s r2 root Hso W steps_declared steps_build l u2 r Hu2 K2) as (d & v & P & Hv & Rk & Q & I).
    assert (T : target u2 = nm) by (unfold target; rewrite N2; now apply dereferencify_referencify). rewrite T in Q, I.
    exists d, v. cbn [fst snd]. split; [exact P|]. split; [exact Hv|]. split; [exact Rk|]. split; [intros q; apply clean_same; auto|]. intros q. exact (innermost_same l u2 nm d Hu2 Cn (I q)).
  Qed.
  (** a reference child of an untouched node *)
  Lemma mentions_final l u from ms cs : at_loc r1 l = Some u -> ref_nodes ms cs ->
    (forall i c, nth_error cs i = Some c -> nth_error (t_children u) (from + i) = Some c) -> Forall (fun m => has_char "@" (snd m) = false) ms ->
    in_order (mention root) l from ms.
  Proof.
    intros Hu F Hc Cl i m Hm. destruct (nth_error cs i) as [c|] eqn:Ec.
    2: { exfalso. apply nth_error_None in Ec. assert (X : nth_error ms i <> None) by congruence. apply nth_error_Some in X. apply Forall2_len in F. lia. }
    pose proof (Forall2_nth_ok _ _ _ F i m c Hm Ec) as R. apply make_ref_ok in R as (-> & _). destruct m as [r nm]. apply mention_final.
    - rewrite at_loc_app, Hu. cbn. rewrite (Hc i _ Ec). reflexivity.
    - rewrite Forall_forall in Cl. exact (Cl (r, nm) (nth_error_In _ _ Hm)).
  Qed.

  (** *** Where declarations are *)
  Lemma names_grow l ns : names_at r1 l = Some ns -> names_at r2 l = Some ns.
  Proof using St.
    pose proof St as (_ & H2 & _). unfold append_builtins in H2. intros N. refine (foldM_inv (fun x => names_at x l = Some ns) _ _ _ _ H2 N _). clear. intros m _ a root' Na H.
    unfold append_builtin in H. destruct (at_loc a m) as [[n k cs]|]; [|discriminate]. destruct k as [| | | | | | | |rk opt mx| |]; try discriminate. destruct rk as [| |w| | |]; try discriminate.
    destruct (names_at a (parent_loc (parent_loc m))) as [[|n0 keys]|]; [discriminate| |discriminate]. apply bind_ok in H as ([root1 ns1] & He & H). apply bind_ok in H as (b & Hb & H). apply bind_ok in H as (root2 & H2 & H).
    assert (N1 : names_at root1 l = Some ns).
    { destruct (ensure_namespace_ok _ _ _ _ He) as [(-> & _)|(_ & first & _ & Hi & _)]; [exact Na|exact (insert_at_names _ _ _ _ _ _ Hi Na)]. }
    assert (N2 : names_at root2 l = Some ns).
    { destruct (at_loc root1 ns1) as [t1|]; [|discriminate]. destruct (find_relative t1 (t_name b)); [now injection H2 as <-|exact (insert_at_names _ _ _ _ _ _ H2 N1)]. }
    destruct (path_at root2 ns1); [|discriminate]. apply bind_ok in H as (r & _ & H). exact (insert_at_names _ _ _ _ _ _ H N2).
  Qed.
  Lemma decl_at p d : In p s -> In (Ok d) (creations so p) -> exists l, at_loc r1 l = Some d /\ defined_at root p (t_name d) l.
  Proof.
    intros Hp Hd. pose proof St as (H1 & _). destruct (build_iff so s Sp r1 H1) as (D & M & _ & (_ & I2 & _)).
    assert (De : decl D (ns_keys p) d).
    { clear - M Hp Hd. induction M as [|q [K ds] s' D (E1 & _ & E3) F IH]; [destruct Hp|]. destruct Hp as [->|Hp].
      - exists ds. cbn in *. split; [left; congruence|]. rewrite E3 in Hd. apply in_map_iff in Hd as (d' & [= ->] & Hd). exact Hd.
      - destruct (IH Hp) as (ds' & Hin & H). exists ds'. split; [now right|exact H]. }
    specialize (I2 _ _ [] De). cbn in I2. destruct (getk_at _ _ _ I2) as (l & Fl & Hl). exists l. split; [exact Hl|].
    pose proof (build_node_tree_good so s r1 Hso C H1) as (G1 & T1 & _). destruct (find_keys_loc _ _ _ Fl) as (Nl & _). rewrite T1 in Nl.
    assert (Kd : t_kind d <> KNamespace /\ t_kind d <> KRoot) by (apply (definition_kinds so p d Hso Hd [] d); reflexivity).
    destruct (first_two l d Hl (proj1 Kd) (proj2 Kd)) as (d2 & Hd2 & _ & Kd2 & _).
    assert (Rd : is_ref d2 = false).
    { unfold is_ref. rewrite Kd2. clear - Hd Hso. unfold creations in Hd. rewrite !in_app_iff, !in_map_iff in Hd. destruct Hd as [(x & H & _)|[(x & H & _)|[(x & H & _)|(x & H & _)]]].
      - apply create_constant_inv in H as (v & _ & ->). reflexivity.
      - apply create_structure_inv in H as (v & _ & ->). reflexivity.
      - destruct (create_enumeration_ok so x d Hso H) as (? & ? & _ & -> & _). reflexivity.
      - apply create_archive_inv in H as (? & ? & _ & _ & ->). reflexivity. }
    unfold defined_at. rewrite (path_same l d2 Hd2 Rd). unfold path_at. rewrite (names_grow _ _ Nl). cbn [option_map]. f_equal.
    assert (E : join "." (ns_keys p ++ [t_name d]) = (pn_name p ++ "." ++ t_name d)%string).
    { rewrite join_snoc by apply split_nonempty. f_equal. exact (dotted_split (pn_name p)). }
    destruct (ns_keys p ++ [t_name d])%list as [|k0 ks] eqn:Ek; [now destruct (ns_keys p)|]. rewrite <- E. reflexivity.
  Qed.

  (** *** Fields *)
  Lemma child_at1 l u i c : at_loc r1 l = Some u -> nth_error (t_children u) i = Some c -> at_loc r1 (l ++ [i]) = Some c.
  Proof using. intros H Hc. rewrite at_loc_app, H. cbn. now rewrite Hc. Qed.
  Lemma consecutive_in fs : forall st size x, consecutive st fs size -> In x fs -> exists ty off, snd (fst x) = Some ty /\ snd x = Some off.
  Proof using. induction fs as [|[[n ty] off] fs IH]; intros st size x Co []; destruct Co as (-> & f & -> & Co); [subst x; cbn; eauto|eauto]. Qed.
  Lemma structure_final l n cs : at_loc r1 l = Some (Node n (KStructure None) cs) -> exists size cs', at_loc root l = Some (Node n (KStructure (Some size)) cs')
    /\ List.length cs' = List.length cs /\ forall i c' k ty off, nth_error cs' i = Some c' -> t_kind c' = KField k ty off -> exists t o, ty = Some t /\ off = Some o.
  Proof.
    intros Hl. destruct (final_node l _ Hl) as ([n' k' cs'] & Hl' & E & N & L & _); try discriminate. cbn in E, N, L. specialize (N eq_refl). subst n'. specialize (L ltac:(discriminate)). rewrite PeanoNat.Nat.add_0_r in L.
    assert (exists sz, k' = KStructure sz) as (sz & ->) by (destruct k'; try discriminate; eauto). destruct (final_layout so s root l n sz cs' Hso C steps_build Hl') as (size & -> & Co).
    exists size, cs'. split; [exact Hl'|]. split; [exact L|]. intros i c' k ty off Hc K. destruct (consecutive_in _ _ _ (t_name c', ty, off) Co) as (t & o & E1 & E2); [|cbn in *; eauto].
    unfold fields_of. apply in_flat_map. exists c'. split; [exact (nth_error_In _ _ Hc)|]. rewrite K. now left.
  Qed.
  (** an untyped field becomes one with the type of its enumeration *)
  Lemma enum_final l v rng u k ty off : at_loc r1 l = Some v -> t_kind v = KField rng None None -> at_loc root l = Some u -> t_kind u = KField k (Some ty) off -> enum_checked root l ty.
  Proof.
    intros Hv Kv Hu Ku. destruct (first_two l v Hv) as (v2 & Hv2 & _ & Kv2 & _); [congruence|congruence|]. rewrite Kv in Kv2.
    destruct sameC as (G2 & G3 & K3 & G4 & X4 & S & G7 & R7). pose proof St as (H1 & H2 & H3 & H4 & _ & H5 & H6 & H7 & _).
    destruct (steps_good _ _ _ _ _ _ _ _ _ Hso C St) as (_ & _ & _ & _ & _ & _ & _ & _ & G5 & S5 & _).
    destruct (keep_at _ _ _ _ l v2 (eq_sym (resolve_keep _ _ H3)) Hv2) as (u3 & Hu3 & K3' & _). rewrite Kv2 in K3'. destruct (proj1 X4 _ _ Hu3) as (u4 & Hu4 & _ & K4). rewrite K3' in K4.
    destruct (same_at _ _ _ _ S5 Hu4) as (u5 & Hu5 & _ & _).
    assert (Kp : keep unsized false root = keep unsized false r5) by (rewrite (limits_keep _ _ H7); now apply sizes_keep).
    destruct (keep_at _ _ _ _ l u Kp Hu) as (u5' & Hu5' & E5 & _). rewrite Hu5 in Hu5'. injection Hu5' as <-. rewrite Ku in E5. cbn in E5.
    destruct (update_types_checked r4 r5 G4 H5 l u4 u5 Hu4 Hu5) as [Q|(rng' & off' & ty' & _ & K5 & En)]; [rewrite Q, K4 in E5; discriminate|].
    rewrite K5 in E5. injection E5 as _ ->. exact (enum_checked_same r4 root l ty G4 G7 S En).
  Qed.
  Lemma typed_final l v rng ty u : at_loc r1 l = Some v -> t_kind v = KField rng (Some ty) None -> at_loc root l = Some u -> exists off, t_kind u = KField rng (Some ty) off.
  Proof.
    intros Hv Kv Hu. destruct (first_two l v Hv) as (v2 & Hv2 & _ & Kv2 & _); [congruence|congruence|]. rewrite Kv in Kv2.
    destruct (field_kept so s r1 r2 r3 r4 r5 r6 root Hso C St l v2 rng ty None Hv2 Kv2) as (u' & off & Hu' & K). rewrite Hu in Hu'. injection Hu' as <-. eauto.
  Qed.

  Definition at_free (ns : list string) : Prop := Forall (fun n => has_char "@" n = false) ns.
  Lemma ref_kind_final l r nm : at_loc r1 l = Some (Node nm (KRef r) []) -> exists u, at_loc root l = Some u /\ t_kind u = KRef r.
  Proof.
    intros Hl. destruct (final_node l _ Hl) as (u & Hu & E & _); try discriminate. exists u. split; [exact Hu|]. now apply erase_kref.
  Qed.
  Lemma field_is_final l f t : at_loc r1 l = Some t -> create_field f = Ok t ->
    (forall u k ty off, at_loc root l = Some u -> t_kind u = KField k ty off -> exists a o, ty = Some a /\ off = Some o) ->
    at_free (pf_type f :: map snd (constants_used (pf_decs f))) -> field_is root l f.
  Proof.
    intros Hl Hf Ty Cl. apply Forall_cons_iff in Cl as (Ct & Cl). destruct (create_field_inv _ _ Hf) as (cs & Rc & [(w & Sw & ->)|(Sw & e & He & ->)]).
    - destruct (final_node l _ Hl) as ([n k cs'] & Hu & E & N & L & _); try discriminate. cbn in N, L. specialize (N eq_refl). specialize (L ltac:(discriminate)). subst n.
      destruct (typed_final l _ _ _ _ Hl eq_refl Hu) as (off & K). cbn in K. subst k. destruct (Ty _ _ _ _ Hu eq_refl) as (_ & o & _ & ->).
      eexists _, o, cs'. split; [exact Hu|]. split.
      + apply (mentions_final l _ 0 _ cs Hl Rc); [auto|]. now rewrite Forall_map in Cl.
      + left. exists (name_signed (pf_type f)), w. split; [now apply storage_spec|]. split; [|reflexivity]. rewrite L. apply Forall2_len in Rc. cbn. lia.
    - destruct (final_node l _ Hl) as ([n k cs'] & Hu & E & N & L & _); try discriminate. cbn in N, L. specialize (N eq_refl). specialize (L ltac:(discriminate)). subst n.
      assert (exists k' ty off, k = KField k' ty off) as (k' & ty & off & ->) by (cbn in E; destruct k; try discriminate; eauto).
      destruct (Ty _ _ _ _ Hu eq_refl) as (a & o & -> & ->). pose proof (enum_final l _ _ _ _ _ _ Hl eq_refl Hu eq_refl) as En.
      assert (k' = hd_error (ranges (pf_decs f))) as ->.
      { cbn in E. now injection E. }
      exists a, o, cs'. split; [exact Hu|]. pose proof (Forall2_len _ _ _ Rc) as Lc. split.
      + apply (mentions_final l _ 0 _ cs Hl Rc); [|now rewrite Forall_map in Cl]. intros i c Hc. cbn. rewrite nth_error_app1; [exact Hc|]. apply nth_error_Some. congruence.
      + right. split; [|split].
        * intros I. apply in_map_iff in I as ([n (sg, w)] & E1 & I). cbn in E1. subst n. assert (X : exists w', storage_width (pf_type f) = Some w').
          { clear - I. unfold basic_types in I. cbn in I. repeat (destruct I as [I|I]; [injection I as <- _ _; cbv; eauto|]). destruct I. }
          destruct X as (w' & X). congruence.
        * rewrite L, app_length. cbn. lia.
        * cbn zeta. rewrite Lc. apply make_ref_ok in He as (-> & _).
          assert (He : at_loc r1 (l ++ [List.length cs]) = Some (Node (referencify (pf_type f)) (KRef (REnum (declared_width f))) [])).
          { apply (child_at1 l _ _ _ Hl). cbn. rewrite nth_error_app2, PeanoNat.Nat.sub_diag by lia. reflexivity. }
          split; [exact (mention_final _ _ _ He Ct)|].
          destruct En as (i & r & w & tl & n & b & b' & cs2 & Hr & Kr & Fr & Ht & Mb & Ea & Wd).
          assert (i = List.length cs) as ->.
          { destruct (Compare_dec.lt_eq_lt_dec i (List.length cs)) as [[Lt|Eq]|Gt]; [exfalso|exact Eq|exfalso].
            - destruct (nth_error cs i) as [c|] eqn:Ec; [|apply nth_error_None in Ec; lia]. destruct (nth_error (constants_used (pf_decs f)) i) as [m|] eqn:Em; [|apply nth_error_None in Em; lia].
              pose proof (Forall2_nth_ok _ _ _ Rc i m c Em Ec) as Hm. apply make_ref_ok in Hm as (-> & _).
              assert (Hi : at_loc r1 (l ++ [i]) = Some (Node (referencify (snd m)) (KRef (fst m)) [])) by (apply (child_at1 l _ _ _ Hl); cbn; rewrite nth_error_app1 by lia; exact Ec).
              destruct (ref_kind_final _ _ _ Hi) as (u & Hu2 & Ku). rewrite Hr in Hu2. injection Hu2 as <-. rewrite Kr in Ku. injection Ku as Ku.
              apply nth_error_In in Em. unfold constants_used in Em. apply in_flat_map in Em as (d & _ & Em). destruct d; cbn in Em; destruct Em as [<-|[]] || destruct Em; cbn in Ku; discriminate.
            - rewrite at_loc_app, Hu in Hr. cbn in Hr. destruct (nth_error cs' i) eqn:Ei; [|discriminate]. assert (X : nth_error cs' i <> None) by congruence. apply nth_error_Some in X. rewrite L, app_length in X. cbn in X. lia. }
          destruct (ref_kind_final _ _ _ He) as (u & Hu2 & Ku). rewrite Hr in Hu2. injection Hu2 as <-. rewrite Kr in Ku. injection Ku as ->.
          split; [exists r; split; [exact Hr|now rewrite Ea]|].
          apply make_btype_ok in Mb as (st & Sst & -> & _). exists tl, (Node n (KEnum b) cs2), b, (name_signed (bt_name b)), st.
          split; [exists r; split; [exact Hr|]; split; [exact Kr|]; exact (proj1 (find_path _ _ _ Fr))|]. split; [exact Ht|]. split; [reflexivity|]. split; [now apply storage_spec|]. subst a. split; [reflexivity|]. split; [reflexivity|exact Wd].
  Qed.
  Lemma structure_is_final l st t : at_loc r1 l = Some t -> create_structure st = Ok t ->
    (forall f, In f (ps_fields st) -> at_free (pf_type f :: map snd (constants_used (pf_decs f)))) -> structure_is root l st.
  Proof.
    intros Hl Hs Cl. destruct (create_structure_inv _ _ Hs) as (cs & F & ->). destruct (structure_final l _ _ Hl) as (size & cs' & Hl' & L & Ty).
    exists size, cs'. split; [exact Hl'|]. pose proof (Forall2_len _ _ _ F) as Lf. split; [congruence|]. intros i f Hf. cbn [Nat.add].
    destruct (nth_error cs i) as [c|] eqn:Ec; [|apply nth_error_None in Ec; assert (X : nth_error (ps_fields st) i <> None) by congruence; apply nth_error_Some in X; lia].
    apply (field_is_final _ f c).
    - exact (child_at1 l _ _ _ Hl Ec).
    - exact (Forall2_nth_ok _ _ _ F i f c Hf Ec).
    - intros u k ty off Hu Ku. rewrite at_loc_app, Hl' in Hu. cbn in Hu. destruct (nth_error cs' i) as [c'|] eqn:Ec'; [|discriminate]. injection Hu as ->. exact (Ty i u k ty off Ec' Ku).
    - exact (Cl f (nth_error_In _ _ Hf)).
  Qed.

  (** *** Constants and enumerations *)
  Lemma leaf_final l n k : at_loc r1 l = Some (Node n k []) -> k <> KNamespace -> k <> KRoot -> k <> KArchive -> GenBuild.is_multivector k = false -> is_ref (Node n k []) = false ->
    exists k', at_loc root l = Some (Node n k' []) /\ erase k' = erase k.
  Proof.
    intros Hl K1 K2 K3 Km Kr. destruct (final_node l _ Hl K1 K2) as ([n' k' cs'] & Hu & E & N & L & _). cbn in *. rewrite (N Kr) in Hu. specialize (L K3). unfold mv in L. rewrite Km in L. destruct cs'; [eauto|discriminate].
  Qed.
  Lemma constant_is_final l c t : at_loc r1 l = Some t -> create_constant c = Ok t -> constant_is root l c.
  Proof.
    intros Hl Hc. apply create_constant_inv in Hc as (v & Hv & ->). destruct (leaf_final _ _ _ Hl) as (k & Hu & E); try discriminate; try reflexivity. exists v. split; [exact Hv|].
    destruct k; try discriminate. cbn in E. injection E as -> ->. exact Hu.
  Qed.
  Lemma enumeration_is_final l e t : at_loc r1 l = Some t -> create_enumeration so e = Ok t -> enumeration_is root l e.
  Proof.
    intros Hl He. destruct (create_enumeration_ok so e t Hso He) as (b & vs & Hc & -> & _). destruct (create_enum_ok so _ _ _ _ _ _ Hso Hc) as (Mb & _ & ex & vals & gen & Pa & Nu & _ & _ & -> & _).
    destruct (final_node l _ Hl) as ([n k cs] & Hu & E & N & L & _); try discriminate. cbn [t_name t_kind t_children] in *. specialize (N eq_refl). subst n.
    assert (k = KEnum b) as -> by (destruct k; cbn in E; try discriminate; exact E). apply make_btype_ok in Mb as (st & Sst & -> & _). cbn [bt_name bt_width] in *.
    assert (Ch : forall i ev, nth_error (map (fun nv => EV (fst nv) (snd nv) false) (combine (map fst (pe_values e)) vals) ++ map (fun v => EV (unknown_name v) v true) gen) i = Some ev ->
      at_loc root (l ++ [i]) = Some (Node (ev_name ev) (KEnumValue (ev_value ev) (ev_auto ev)) [])).
    { intros i ev Hi. assert (Hr : at_loc r1 (l ++ [i]) = Some (Node (ev_name ev) (KEnumValue (ev_value ev) (ev_auto ev)) [])).
      { apply (child_at1 l _ _ _ Hl). cbn [t_children]. rewrite nth_error_map, Hi. reflexivity. }
      destruct (leaf_final _ _ _ Hr) as (k & Hk & Ek); try discriminate; try reflexivity. destruct k; try discriminate. cbn in Ek. injection Ek as -> ->. exact Hk. }
    assert (Lc : List.length (combine (map fst (pe_values e)) vals) = List.length (pe_values e)).
    { rewrite combine_length, map_length. destruct Nu as (Ln & _). apply Forall2_len in Pa. rewrite map_length in Pa. lia. }
    eexists _, cs, ex, vals. split; [exact Hu|]. cbn [bt_name bt_width]. split; [reflexivity|]. split; [|split; [|split; [exact Pa|split; [exact Nu|split]]]].
    - intros w ->. reflexivity.
    - intros ->. cbn. exists (name_signed (pe_type e)). now apply storage_spec.
    - intros i nv Hi. cbn [Nat.add]. apply (Ch i (EV (fst nv) (snd nv) false)). rewrite nth_error_app1 by (rewrite map_length; apply nth_error_Some; congruence). now rewrite nth_error_map, Hi.
    - intros i c Li Hi. specialize (L ltac:(discriminate)). cbn in L. rewrite PeanoNat.Nat.add_0_r, map_length in L.
      match type of L with _ = List.length ?xs => destruct (nth_error xs i) as [ev|] eqn:Ev end.
      2: { apply nth_error_None in Ev. assert (X : nth_error cs i <> None) by congruence. apply nth_error_Some in X. lia. }
      pose proof (Ch i ev Ev) as Q. rewrite at_loc_app, Hu in Q. cbn in Q. rewrite Hi in Q. injection Q as ->. cbn. rewrite nth_error_app2, nth_error_map in Ev by (rewrite map_length; lia).
      destruct (nth_error gen _); [|discriminate]. injection Ev as <-. cbn. eauto.
  Qed.

  (** *** Archives *)
  Lemma explicit_is_final l a b c t : at_loc r1 l = Some t -> create_explicit a b c = Ok t -> at_free [a; b; c] -> explicit_is root l (a, b, c).
  Proof.
    intros Hl Hx Cl. destruct (create_explicit_inv _ _ _ _ Hx) as (n & cs & -> & R). destruct (final_node l _ Hl) as ([n' k cs'] & Hu & E & N & L & _); try discriminate. cbn in E, N, L. specialize (N eq_refl). subst n'.
    specialize (L ltac:(discriminate)). assert (k = KExplicit) as -> by (destruct k; try discriminate; reflexivity). unfold explicit_is. exists n, cs'. split; [exact Hu|]. pose proof (Forall2_len _ _ _ R) as Lr. cbn in Lr. split; [lia|].
    apply (mentions_final l _ 0 _ cs Hl R); [auto|]. unfold at_free in Cl. rewrite Forall_forall in Cl. assert (has_char "@" a = false /\ has_char "@" b = false /\ has_char "@" c = false) as (A1 & A2 & A3) by (repeat split; apply Cl; cbn; tauto).
    repeat constructor; cbn [snd]; auto. rewrite !has_char_app, A1, A2. reflexivity.
  Qed.
  Lemma resource_is_final l r t : at_loc r1 l = Some t -> create_resource r = Ok t ->
    (forall a b c, In (RExplicit a b c) (pr_decs r) -> at_free [a; b; c]) -> at_free (rtype_mentions (pr_type r)) -> resource_is root l r.
  Proof.
    intros Hl Hr Cx Ct. destruct (create_resource_inv _ _ Hr) as (es & cs & Fe & Fc & ->). destruct (final_node l _ Hl) as ([n k cs'] & Hu & E & N & L & _ & Bi); try discriminate. cbn [t_name t_kind t_children] in *. specialize (N eq_refl). subst n.
    specialize (L ltac:(discriminate)). pose proof (Forall2_len _ _ _ Fe) as Le. pose proof (Forall2_len _ _ _ Fc) as Lc.
    assert (exists m, k = KResource (resource_kind (pr_type r)) (has_optional (pr_decs r)) m) as (m & ->) by (cbn in E; destruct k; try discriminate; cbn in E; injection E as -> ->; eauto).
    unfold resource_is. cbn zeta. exists (has_optional (pr_decs r)), m, cs'. split; [exact Hu|]. split; [apply has_optional_in|]. rewrite app_length in L, Bi. split; [|split].
    - intros i [[a b] c] Hi. cbn [Nat.add]. destruct (nth_error es i) as [e|] eqn:Ee; [|apply nth_error_None in Ee; assert (X : nth_error (explicit_references (pr_decs r)) i <> None) by congruence; apply nth_error_Some in X; lia].
      apply (explicit_is_final _ a b c e).
      + apply (child_at1 l _ _ _ Hl). cbn. rewrite nth_error_app1; [exact Ee|apply nth_error_Some; congruence].
      + exact (Forall2_nth_ok _ _ _ Fe i _ e Hi Ee).
      + apply (Cx a b c). apply nth_error_In in Hi. unfold explicit_references in Hi. apply in_flat_map in Hi as (d & Hd & Hi). destruct d; cbn in Hi; [destruct Hi as [[= <- <- <-]|[]]; exact Hd|destruct Hi].
    - apply (mentions_final l _ _ _ cs Hl Fc).
      + intros i c Hc. cbn. rewrite Le, nth_error_app2 by lia. replace (List.length es + i - List.length es)%nat with i by lia. exact Hc.
      + clear - Ct. unfold at_free in Ct. destruct (pr_type r); cbn in *; [constructor|inversion Ct; subst; repeat constructor; assumption| |inversion Ct; subst; repeat constructor; assumption|inversion Ct; subst; repeat constructor; assumption].
        rewrite Forall_map. exact Ct.
    - rewrite Le, Lc. destruct (pr_type r) eqn:Et; cbn in L |- *; [lia|lia| |lia|lia].
      split; [lia|]. destruct (Bi eq_refl) as (c & Hc & Kc).
      assert (Hcl : at_loc root (l ++ [(List.length es + List.length cs)%nat]) = Some c) by (rewrite at_loc_app, Hu; cbn; now rewrite Hc).
      destruct sameC as (_ & _ & _ & _ & _ & _ & _ & R7). destruct (R7 _ c Hcl ltac:(unfold is_ref; now rewrite Kc)) as (r' & c' & d & v & Hc' & _ & P & _). rewrite Hcl in Hc'. injection Hc' as <-. exists d, c. split; [exact Hcl|]. split; [exact Kc|]. exact (proj1 (find_path _ _ _ P)).
  Qed.
  Lemma bound_is_final l b t : at_loc r1 l = Some t -> create_bound b = Ok t -> at_free (snd b) -> bound_is root l b.
  Proof.
    intros Hl Hb Cl. destruct (create_bound_inv _ _ Hb) as (cs & R & ->). destruct (final_node l _ Hl) as ([n k cs'] & Hu & E & N & L & _); try discriminate. cbn [t_name t_kind t_children] in *. specialize (N eq_refl). subst n.
    specialize (L ltac:(discriminate)). assert (exists m, k = KResource KBound false m) as (m & ->) by (cbn in E; destruct k; try discriminate; cbn in E; injection E as -> ->; eauto).
    exists m, cs'. split; [exact Hu|]. pose proof (Forall2_len _ _ _ R) as Lr. rewrite map_length in Lr. split; [cbn in L; lia|].
    apply (mentions_final l _ 0 _ cs Hl R); [auto|]. rewrite Forall_map. exact Cl.
  Qed.
  Lemma archive_is_final l a t : at_loc r1 l = Some t -> create_archive a = Ok t ->
    (forall r, In r (pa_resources a) -> (forall x y z, In (RExplicit x y z) (pr_decs r) -> at_free [x; y; z]) /\ at_free (rtype_mentions (pr_type r))) ->
    (forall b, In b (pa_bound a) -> at_free (snd b)) -> archive_is root l a.
  Proof.
    intros Hl Ha Cr Cb. destruct (create_archive_inv _ _ Ha) as (rs & bs & Fr & Fb & ->). destruct (final_node l _ Hl) as ([n k cs] & Hu & E & N & _ & X & _); try discriminate. cbn [t_name t_kind t_children] in *. specialize (N eq_refl). subst n.
    assert (k = KArchive) as -> by (destruct k; try discriminate; reflexivity). exists cs. split; [exact Hu|]. pose proof (Forall2_len _ _ _ Fr) as Lr. pose proof (Forall2_len _ _ _ Fb) as Lb. split; [|split].
    - intros i r Hi. cbn [Nat.add]. destruct (nth_error rs i) as [c|] eqn:Ec; [|apply nth_error_None in Ec; assert (Y : nth_error (pa_resources a) i <> None) by congruence; apply nth_error_Some in Y; lia].
      destruct (Cr r (nth_error_In _ _ Hi)) as (C1 & C2). apply (resource_is_final _ r c); auto.
      + apply (child_at1 l _ _ _ Hl). cbn. rewrite nth_error_app1; [exact Ec|apply nth_error_Some; congruence].
      + exact (Forall2_nth_ok _ _ _ Fr i r c Hi Ec).
    - intros i b Hi. destruct (nth_error bs i) as [c|] eqn:Ec; [|apply nth_error_None in Ec; assert (Y : nth_error (pa_bound a) i <> None) by congruence; apply nth_error_Some in Y; lia].
      apply (bound_is_final _ b c); [|exact (Forall2_nth_ok _ _ _ Fb i b c Hi Ec)|exact (Cb b (nth_error_In _ _ Hi))].
      apply (child_at1 l _ _ _ Hl). cbn. rewrite Lr, nth_error_app2 by lia. replace (List.length rs + i - List.length rs)%nat with i by lia. exact Ec.
    - intros i c Li Hc. apply (X eq_refl i c); [|exact Hc]. rewrite app_length. lia.
  Qed.
End Contents.
