(** The limits computed from explicit references. *)
From Coq Require Import List ZArith Bool String Ascii Lia Permutation.
From Verif Require Import PyBase PyText Spec GenTypes GenTypesFacts GenTree GenTreeFacts GenTraversal
  GenBuild GenBuildFacts GenPassFacts GenAstFacts GenLayoutFacts GenAstSpec GenResolveFacts GenAstThms.
Import ListNotations.
Local Open Scope Z_scope.

(** ** Predicates on all kinds of a tree *)
Definition allk (P : kind -> Prop) (t : tree) : Prop := forall l u, at_loc t l = Some u -> P (t_kind u).
Lemma allk_here P t : allk P t -> P (t_kind t). Proof. intros H. exact (H [] t eq_refl). Qed.
Lemma allk_at P t l u : allk P t -> at_loc t l = Some u -> allk P u.
Proof. intros H Hl m v Hm. apply (H (l ++ m) v). now rewrite at_loc_app, Hl. Qed.
Lemma allk_intro (P : kind -> Prop) n k cs : P k -> (forall c, In c cs -> allk P c) -> allk P (Node n k cs).
Proof.
  intros Hk Hc l u Hl. destruct l as [|i l]; cbn in Hl; [injection Hl as <-; exact Hk|].
  destruct (nth_error cs i) as [c|] eqn:E; [|discriminate]. exact (Hc c (nth_error_In _ _ E) l u Hl).
Qed.
Lemma allk_children P t c : allk P t -> In c (t_children t) -> allk P c.
Proof. intros H Hin. apply In_nth_error in Hin as (i & Hi). apply (allk_at P t [i] c H). cbn. now rewrite Hi. Qed.
Lemma allk_insert P t c t' : insert t c = Ok t' -> allk P t -> allk P c -> allk P t'.
Proof.
  intros H Ht Hc. apply insert_ok in H as (_ & ->). apply allk_intro; [now apply allk_here|]. intros x Hx. apply in_app_or in Hx as [Hx|[<-|[]]]; [|exact Hc].
  now apply (allk_children P t).
Qed.
Lemma allk_modify P f l : forall t u, allk P t -> at_loc t l = Some u -> allk P (f u) -> allk P (modify t l f).
Proof.
  induction l as [|i l IH]; intros t u Ht Hl Hf; cbn in *; [injection Hl as ->; exact Hf|].
  destruct t as [n k cs]. cbn in Hl. destruct (nth_error cs i) as [c|] eqn:Hc; [|discriminate]. apply allk_intro; [exact (allk_here _ _ Ht)|].
  intros x Hx. destruct (upd_in _ _ _ _ _ Hc Hx) as [->|Hin]; [|exact (allk_children P (Node n k cs) x Ht Hin)].
  apply (IH c u); [exact (allk_children P (Node n k cs) c Ht (nth_error_In _ _ Hc))|exact Hl|exact Hf].
Qed.
Lemma allk_insert_at P root l c root' : insert_at root l c = Ok root' -> allk P root -> allk P c -> allk P root'.
Proof.
  intros H G Hc. apply insert_at_inv in H as (t & Ht & _ & ->). apply (allk_modify P _ l root t G Ht). apply allk_intro.
  - exact (allk_here _ _ (allk_at _ _ _ _ G Ht)).
  - intros x Hx. apply in_app_or in Hx as [Hx|[<-|[]]]; [|exact Hc]. exact (allk_children _ _ _ (allk_at _ _ _ _ G Ht) Hx).
Qed.
Lemma allk_insert_all P cs : forall t t', insert_all t cs = Ok t' -> allk P t -> (forall rc c, In rc cs -> rc = Ok c -> allk P c) -> allk P t'.
Proof.
  intros t t' H G Hc. unfold insert_all in H. refine (foldM_inv (allk P) _ _ _ _ H G _).
  intros rc Hin a a' Ga E. apply bind_ok in E as (c & -> & E). exact (allk_insert P a c a' E Ga (Hc (Ok c) c Hin eq_refl)).
Qed.
Lemma allk_leaf (P : kind -> Prop) n k t : make_node n k = Ok t -> P k -> allk P t.
Proof. intros H Hk. apply make_node_ok in H as (_ & ->). apply allk_intro; [exact Hk|intros c []]. Qed.

(** Nothing but the last pass sets a limit *)
Definition unlimited (k : kind) : Prop := match k with KResource _ _ (Some _) => False | _ => True end.
Notation fresh := (allk unlimited).

Lemma ref_fresh r n t : make_ref r n = Ok t -> fresh t.
Proof. intros H. exact (allk_leaf _ _ _ _ H I). Qed.
Lemma refs_fresh r ns : forall rc c, In rc (map (make_ref r) ns) -> rc = Ok c -> fresh c.
Proof. intros rc c Hin E. apply in_map_iff in Hin as (n & <- & _). exact (ref_fresh _ _ _ E). Qed.
Lemma constant_fresh p t : create_constant p = Ok t -> fresh t.
Proof. unfold create_constant. intros H. apply bind_ok in H as (a & _ & H). apply bind_ok in H as (v & _ & H). injection H as <-. apply allk_intro; [exact I|intros c []]. Qed.
Lemma field_fresh p t : create_field p = Ok t -> fresh t.
Proof.
  unfold create_field. intros H. apply bind_ok in H as (a & Ha & H). apply bind_ok in H as (b & Hb & H).
  assert (Fb : fresh b).
  { refine (foldM_inv fresh _ _ _ _ Hb (allk_leaf unlimited _ _ _ Ha I) _). intros d _ x x' Fx E. destruct d; [now injection E as <-| |];
    (apply bind_ok in E as (c & Hc & E); exact (allk_insert _ _ _ _ E Fx (ref_fresh _ _ _ Hc))). }
  destruct (is_basic_type _).
  - apply bind_ok in H as (bt & _ & H). injection H as <-. apply allk_intro; [exact I|]. intros c Hc. exact (allk_children _ _ _ Fb Hc).
  - apply bind_ok in H as (c & Hc & H). exact (allk_insert _ _ _ _ H Fb (ref_fresh _ _ _ Hc)).
Qed.
Lemma structure_fresh p t : create_structure p = Ok t -> fresh t.
Proof.
  unfold create_structure. intros H. apply bind_ok in H as (a & Ha & H). apply (allk_insert_all _ _ _ _ H (allk_leaf unlimited _ _ _ Ha I)).
  intros rc c Hin E. apply in_map_iff in Hin as (f & <- & _). now apply field_fresh in E.
Qed.
Lemma enumeration_fresh so p t : create_enumeration so p = Ok t -> fresh t.
Proof.
  unfold create_enumeration. intros H. apply bind_ok in H as ([b vs] & _ & H). apply bind_ok in H as (a & _ & H). apply bind_ok in H as (cs & Hcs & H).
  injection H as <-. apply allk_intro; [exact I|]. intros c Hc. destruct (mapM_in _ _ _ _ Hcs Hc) as (v & _ & E). exact (allk_leaf _ _ _ _ E I).
Qed.
Lemma explicit_fresh a b c t : create_explicit a b c = Ok t -> fresh t.
Proof.
  unfold create_explicit. intros H. apply bind_ok in H as (x & Hx & H). apply (allk_insert_all _ _ _ _ H (allk_leaf unlimited _ _ _ Hx I)).
  intros rc d [<-|[<-|[<-|[]]]] E; exact (ref_fresh _ _ _ E).
Qed.
Lemma resource_fresh p t : create_resource p = Ok t -> fresh t.
Proof.
  unfold create_resource. intros H. apply bind_ok in H as (a & Ha & H). apply bind_ok in H as (b & Hb & H).
  assert (Fb : fresh b).
  { refine (foldM_inv fresh _ _ _ _ Hb (allk_leaf unlimited _ _ _ Ha I) _). intros d _ x x' Fx E. destruct d; [|now injection E as <-].
    apply bind_ok in E as (c & Hc & E). exact (allk_insert _ _ _ _ E Fx (explicit_fresh _ _ _ _ Hc)). }
  apply (allk_insert_all _ _ _ _ H Fb). intros rc c Hin E. destruct (pr_type p); try (now apply (refs_fresh _ _ rc c Hin E)); cbn in Hin;
    repeat (destruct Hin as [<-|Hin]; [exact (ref_fresh _ _ _ E)|]); contradiction.
Qed.
Lemma bound_fresh b t : create_bound b = Ok t -> fresh t.
Proof.
  unfold create_bound. intros H. apply bind_ok in H as (a & Ha & H). apply (allk_insert_all _ _ _ _ H (allk_leaf unlimited _ _ _ Ha I)). apply refs_fresh.
Qed.
Lemma archive_fresh p t : create_archive p = Ok t -> fresh t.
Proof.
  unfold create_archive. intros H. apply bind_ok in H as (a & Ha & H). apply bind_ok in H as (b & Hb & H).
  apply (allk_insert_all _ _ _ _ H).
  - apply (allk_insert_all _ _ _ _ Hb (allk_leaf unlimited _ _ _ Ha I)). intros rc c Hin E. apply in_map_iff in Hin as (f & <- & _). now apply resource_fresh in E.
  - intros rc c Hin E. apply in_map_iff in Hin as (f & <- & _). now apply bound_fresh in E.
Qed.
Lemma nest_fresh ks : forall cs t, nest ks cs = Ok t -> (forall c, In c cs -> fresh c) -> fresh t.
Proof.
  induction ks as [|k ks IH]; intros cs t H Hc; [discriminate|]. destruct ks as [|k' ks].
  - cbn in H. apply bind_ok in H as (a & _ & H). injection H as <-. apply allk_intro; [exact I|exact Hc].
  - change (nest (k :: k' :: ks) cs) with (t0 <- make_node k KNamespace ;; c <- nest (k' :: ks) cs ;; Ok (Node (t_name t0) KNamespace [c])) in H.
    apply bind_ok in H as (a & _ & H). apply bind_ok in H as (c & H1 & H). injection H as <-. apply allk_intro; [exact I|].
    intros x [<-|[]]. exact (IH _ _ H1 Hc).
Qed.
Lemma definitions_fresh so p ks ds : create_definitions so p = Ok (ks, ds) -> forall d, In d ds -> fresh d.
Proof.
  unfold create_definitions. destruct (match pn_name p with String "." _ => true | _ => false end); [discriminate|]. intros H.
  apply bind_ok in H as (a & _ & H). apply bind_ok in H as (t & Ht & H). injection H as _ <-. intros d Hd.
  refine (allk_children _ t d _ Hd). apply (allk_insert_all _ _ _ _ Ht); [apply allk_intro; [exact I|intros c []]|].
  intros rc c Hin E. repeat (apply in_app_or in Hin as [Hin|Hin]); apply in_map_iff in Hin as (x & <- & _).
  - now apply constant_fresh in E.
  - now apply structure_fresh in E.
  - now apply enumeration_fresh in E.
  - now apply archive_fresh in E.
Qed.
Lemma ensure_namespace_fresh root ks root' l : ensure_namespace root ks = Ok (root', l) -> fresh root -> fresh root'.
Proof.
  intros H F. apply ensure_namespace_ok in H as [(-> & _)|(_ & first & Hn & Hi & _)]; [exact F|]. apply (allk_insert_at _ _ _ _ _ Hi F). apply (nest_fresh _ _ _ Hn). intros c [].
Qed.
Lemma build_node_tree_fresh so s root : build_node_tree so s = Ok root -> fresh root.
Proof.
  unfold build_node_tree. intros H. apply bind_ok in H as (ds & Hds & H). revert H. intros H. refine (foldM_inv fresh _ _ _ _ H _ _).
  - apply allk_intro; [exact I|intros c []].
  - intros [ks cs] Hin a a' Fa E. unfold merge_one in E. apply bind_ok in E as ([r l] & He & E). cbn [fst snd] in *.
    refine (foldM_inv fresh _ _ _ _ E _ _); [exact (ensure_namespace_fresh _ _ _ _ He Fa)|].
    intros c Hc x x' Fx Ex. apply (allk_insert_at _ _ _ _ _ Ex Fx). destruct (mapM_in _ _ _ _ Hds Hin) as (p & _ & Ep). exact (definitions_fresh _ _ _ _ Ep c Hc).
Qed.
Lemma append_builtins_fresh root root' : append_builtins root = Ok root' -> fresh root -> fresh root'.
Proof.
  unfold append_builtins. intros H F. refine (foldM_inv fresh _ _ _ _ H F _). intros l _ a a' Fa E. unfold append_builtin in E.
  destruct (at_loc a l) as [[n k cs]|]; [|discriminate]. destruct k; try discriminate. destruct rk; try discriminate.
  destruct (names_at a (parent_loc (parent_loc l))) as [[|x keys]|]; try discriminate.
  apply bind_ok in E as ([r1 ns] & E1 & E). apply bind_ok in E as (b & Hb & E). apply bind_ok in E as (r2 & E2 & E).
  assert (F1 := ensure_namespace_fresh _ _ _ _ E1 Fa).
  assert (F2 : fresh r2).
  { destruct (at_loc r1 ns) as [nn|]; [|discriminate]. destruct (find_relative nn (t_name b)); [now injection E2 as <-|].
    exact (allk_insert_at _ _ _ _ _ E2 F1 (structure_fresh _ _ Hb)). }
  destruct (path_at r2 ns) as [p|]; [|discriminate]. apply bind_ok in E as (r & Hr & E). exact (allk_insert_at _ _ _ _ _ E F2 (ref_fresh _ _ _ Hr)).
Qed.
Lemma resolve_references_fresh root root' : resolve_references root = Ok root' -> fresh root -> fresh root'.
Proof.
  unfold resolve_references. intros H F. refine (foldM_inv fresh _ _ _ _ H F _). intros l _ a a' Fa E.
  destruct (resolve_one_inv _ _ _ E) as (t & r & a1 & Ht & Kt & C & V). apply validate_inv in V as (-> & _).
  destruct C as [(_ & -> & _)|(_ & s & p & _ & _ & Sn)]; [exact Fa|].
  destruct (set_name_inv _ _ _ _ _ Ht Sn) as [(_ & ->)|(_ & -> & _)]; [exact Fa|]. apply (allk_modify _ _ _ _ _ Fa Ht).
  pose proof (allk_at _ _ _ _ Fa Ht) as Ft. apply allk_intro; [exact (allk_here _ _ Ft)|]. intros c Hc. exact (allk_children _ _ _ Ft Hc).
Qed.
Lemma append_constants_fresh root root' : append_constants root = Ok root' -> fresh root -> fresh root'.
Proof.
  unfold append_constants. intros H F. refine (foldM_inv fresh _ _ _ _ H F _). intros l _ a a' Fa E. refine (foldM_inv fresh _ _ _ _ E Fa _).
  intros p _ x x' Fx Ex. apply bind_ok in Ex as (c & Hc & Ex). exact (allk_insert_at _ _ _ _ _ Ex Fx (ref_fresh _ _ _ Hc)).
Qed.
Lemma set_kind_fresh root l u k : fresh root -> at_loc root l = Some u -> unlimited k -> fresh (modify root l (set_kind k)).
Proof.
  intros F Hl Hk. apply (allk_modify _ _ _ _ _ F Hl). apply allk_intro; [exact Hk|]. intros c Hc. exact (allk_children _ _ _ (allk_at _ _ _ _ F Hl) Hc).
Qed.
Lemma update_field_types_fresh root root' : update_field_types root = Ok root' -> fresh root -> fresh root'.
Proof.
  unfold update_field_types. intros H F. refine (foldM_inv fresh _ _ _ _ H F _). intros l _ a a' Fa E. unfold update_field in E.
  destruct (at_loc a l) as [[n k cs]|] eqn:Hl; [|discriminate]. destruct k; try (injection E as <-; exact Fa). destruct type; [injection E as <-; exact Fa|].
  destruct (List.filter _ cs) as [|r rs]; [discriminate|]. apply bind_ok in E as (tl & _ & E). destruct (at_loc a tl) as [[n' k' cs']|]; [|discriminate].
  destruct k'; try discriminate. destruct (t_kind r); try discriminate. destruct r0; try discriminate. apply bind_ok in E as (b & _ & E).
  destruct (match width with Some x => _ | None => false end); [discriminate|]. injection E as <-. refine (set_kind_fresh _ _ _ _ Fa Hl _). exact I.
Qed.
Lemma layout_fresh cs : forall off cs' size, layout off cs = Ok (cs', size) -> (forall c, In c cs -> fresh c) -> forall c, In c cs' -> fresh c.
Proof.
  induction cs as [|c cs IH]; intros off cs' size H F; cbn in H; [injection H as <- <-; exact F|].
  assert (Fc := F c (or_introl eq_refl)). assert (Ft := fun x Hx => F x (or_intror Hx)).
  destruct (t_kind c) eqn:K; try (apply bind_ok in H as ([t' s'] & H1 & H); injection H as <- <-; intros x [<-|Hx]; [exact Fc|exact (IH _ _ _ H1 Ft x Hx)]).
  destruct type as [ty|]; [|discriminate]. apply bind_ok in H as ([t' s'] & H1 & H). injection H as <- <-. intros x [<-|Hx]; [|exact (IH _ _ _ H1 Ft x Hx)].
  apply allk_intro; [exact I|]. intros y Hy. exact (allk_children _ _ _ Fc Hy).
Qed.
Lemma compute_sizes_fresh root root' : compute_sizes root = Ok root' -> fresh root -> fresh root'.
Proof.
  unfold compute_sizes. intros H F. apply bind_ok in H as (o & _ & H). refine (foldM_inv fresh _ _ _ _ H F _). intros l _ a a' Fa E. unfold size_structure in E.
  destruct (at_loc a l) as [[n k cs]|] eqn:Hl; [|discriminate]. destruct k; try (injection E as <-; exact Fa). apply bind_ok in E as ([cs' size] & H1 & E).
  injection E as <-. apply (allk_modify _ _ _ _ _ Fa Hl). apply allk_intro; [exact I|]. apply (layout_fresh _ _ _ _ H1). intros c Hc.
  exact (allk_children _ (Node n (KStructure size_in_bits) cs) c (allk_at _ _ _ _ Fa Hl) Hc).
Qed.

(** ** The limits *)
Definition unmax (k : kind) : kind := match k with KResource rk o _ => KResource rk o None | k => k end.
Fixpoint bare (t : tree) : tree := match t with Node n k cs => Node n (unmax k) (map bare cs) end.
Lemma at_loc_bare l : forall t, at_loc (bare t) l = option_map bare (at_loc t l).
Proof.
  induction l as [|i l IH]; intros [n k cs]; [reflexivity|]. cbn. rewrite nth_error_map. destruct (nth_error cs i); [apply IH|reflexivity].
Qed.
Lemma bare_eq t : bare t = Node (t_name t) (unmax (t_kind t)) (map bare (t_children t)). Proof. now destruct t. Qed.
Lemma bare_modify f l : forall t u, at_loc t l = Some u -> bare (f u) = bare u -> bare (modify t l f) = bare t.
Proof.
  induction l as [|i l IH]; intros [n k cs] u H E; cbn in *; [injection H as <-; exact E|]. f_equal.
  destruct (nth_error cs i) as [c|] eqn:Hc; [|discriminate]. apply (upd_map bare cs i _ c Hc). exact (IH c u H E).
Qed.
Lemma bare_at a b l u : bare a = bare b -> at_loc a l = Some u -> exists u', at_loc b l = Some u' /\ bare u' = bare u.
Proof.
  intros E H. pose proof (at_loc_bare l a) as Ha. rewrite E, at_loc_bare, H in Ha. destruct (at_loc b l) as [u'|]; [|discriminate].
  exists u'. split; [reflexivity|]. now injection Ha.
Qed.
Lemma bare_node u u' : bare u' = bare u -> t_name u' = t_name u /\ unmax (t_kind u') = unmax (t_kind u) /\ map bare (t_children u') = map bare (t_children u).
Proof. rewrite !bare_eq. intros H. now injection H. Qed.
Lemma skel_bare : forall t, skel false (bare t) = skel false t.
Proof.
  apply tree_ind'. intros n k cs IH. cbn [bare skel]. f_equal; [now destruct k|]. rewrite map_map. apply map_ext_in. intros c Hc. rewrite Forall_forall in IH. now apply IH.
Qed.
Lemma bare_same a b : bare a = bare b -> same_tree a b.
Proof. intros E. unfold same_tree. now rewrite <- (skel_bare a), <- (skel_bare b), E. Qed.
Lemma unmax_other k k' : unmax k = unmax k' -> (forall rk o m, k' <> KResource rk o m) -> k = k'.
Proof. intros E N. destruct k'; try (now destruct k). now destruct (N rk optional max_size). Qed.
Lemma unmax_res k rk o m : unmax k = unmax (KResource rk o m) -> exists m', k = KResource rk o m'.
Proof. destruct k; try discriminate. cbn. intros [= -> ->]. eauto. Qed.

(** the reference at [l] limits the resource at [dl] to [2^w] items *)
Definition limits (root : tree) (l dl : loc) (w : Z) : Prop :=
  exists e f fl n rng ty off cs d, at_loc root l = Some e /\ explicit_field e = Ok f /\ ref_loc root f = Ok fl
    /\ at_loc root fl = Some (Node n (KField rng (Some ty) off) cs) /\ w = ft_width ty
    /\ explicit_destination e = Ok d /\ ref_loc root d = Ok dl.

Lemma only_ok {A} (l : list A) x : only l = Ok x <-> l = [x].
Proof. destruct l as [|a [|b l]]; cbn; split; intros H; try discriminate; congruence. Qed.
Lemma filter_bare (p : kind -> bool) cs cs' : (forall k, p (unmax k) = p k) -> map bare cs' = map bare cs ->
  Forall2 (fun c' c => bare c' = bare c) (filter (fun c => p (t_kind c)) cs') (filter (fun c => p (t_kind c)) cs).
Proof.
  intros Hp. revert cs'. induction cs as [|c cs IH]; intros [|c' cs'] E; try discriminate; [constructor|]. cbn in E. injection E as E1 E2.
  destruct (bare_node c c' E1) as (_ & K & _). cbn [filter]. rewrite <- (Hp (t_kind c')), K, Hp. destruct (p (t_kind c)); [constructor; auto|auto].
Qed.
Lemma only_bare (p : kind -> bool) e e' f : (forall k, p (unmax k) = p k) -> bare e' = bare e -> only (children_like e p) = Ok f ->
  exists f', only (children_like e' p) = Ok f' /\ t_name f' = t_name f.
Proof.
  intros Hp E H. apply only_ok in H. destruct (bare_node _ _ E) as (_ & _ & Ec). pose proof (filter_bare p _ _ Hp Ec) as F. unfold children_like in *. rewrite H in F.
  inversion F as [|f' ? fs ? Hf Hn]; subst. inversion Hn; subst. exists f'. split; [reflexivity|]. now apply bare_node in Hf as (? & _).
Qed.
Lemma ref_loc_bare a b f f' : rooted a -> rooted b -> bare a = bare b -> t_name f' = t_name f -> ref_loc a f = ref_loc b f'.
Proof.
  intros Ga Gb E N. unfold ref_loc, target. rewrite N. now rewrite (skel_find a b _ Ga Gb (bare_same _ _ E)).
Qed.
Lemma limits_bare a b l dl w : rooted a -> rooted b -> bare a = bare b -> limits a l dl w -> limits b l dl w.
Proof.
  intros Ga Gb E (e & f & fl & n & rng & ty & off & cs & d & He & Hf & Hfl & Hk & Hw & Hd & Hdl).
  destruct (bare_at a b l e E He) as (e' & He' & Ee).
  destruct (only_bare (fun k => match k with KRef RField => true | _ => false end) e e' f ltac:(now intros []) Ee Hf) as (f' & Hf' & Nf).
  destruct (only_bare (fun k => match k with KRef RResource => true | _ => false end) e e' d ltac:(now intros []) Ee Hd) as (d' & Hd' & Nd).
  destruct (bare_at a b fl _ E Hk) as (u & Hu & Eu). destruct (bare_node _ _ Eu) as (_ & Ku & _). cbn in Ku.
  apply (unmax_other (t_kind u) (KField rng (Some ty) off)) in Ku; [|discriminate].
  exists e', f', fl, (t_name u), rng, ty, off, (t_children u), d'.
  split; [exact He'|]. split; [exact Hf'|]. split; [now rewrite <- (ref_loc_bare a b f f')|]. split; [rewrite Hu; destruct u; cbn in *; now rewrite Ku|].
  split; [exact Hw|]. split; [exact Hd'|]. now rewrite <- (ref_loc_bare a b d d').
Qed.

Lemma least_ext (S T : Z -> Prop) m : (forall v, S v <-> T v) -> least S m -> least T m.
Proof. intros H. destruct m; cbn; [intros (A & B); split; [now apply H|intros y Hy; apply B; now apply H]|intros A y Hy; apply (A y); now apply H]. Qed.
Lemma least_add (S : Z -> Prop) m x : least S m -> least (fun v => S v \/ v = x) (Some (match m with None => x | Some y => Z.min y x end)).
Proof.
  destruct m as [y|]; cbn.
  - intros (A & B). destruct (Z.le_gt_cases y x).
    + rewrite Z.min_l by lia. split; [auto|]. intros z [Hz| ->]; [auto|lia].
    + rewrite Z.min_r by lia. split; [auto|]. intros z [Hz| ->]; [specialize (B z Hz); lia|lia].
  - intros A. split; [auto|]. intros z [Hz| ->]; [now destruct (A z)|lia].
Qed.

Definition limited (root0 : tree) (done : list loc) (dl : loc) (v : Z) : Prop :=
  exists l w, In l done /\ limits root0 l dl w /\ w <> 64 /\ v = 2 ^ w.

Lemma limits_fun root l dl dl' w w' : limits root l dl w -> limits root l dl' w' -> dl = dl' /\ w = w'.
Proof.
  intros (e & f & fl & n & rng & ty & off & cs & d & He & Hf & Hfl & Hk & Hw & Hd & Hdl) (e' & f' & fl' & n' & rng' & ty' & off' & cs' & d' & He' & Hf' & Hfl' & Hk' & Hw' & Hd' & Hdl').
  rewrite He in He'. injection He' as <-. rewrite Hf in Hf'. injection Hf' as <-. rewrite Hfl in Hfl'. injection Hfl' as <-. rewrite Hk in Hk'. injection Hk' as <- <- <- <- <-.
  rewrite Hd in Hd'. injection Hd' as <-. rewrite Hdl in Hdl'. injection Hdl' as <-. split; congruence.
Qed.

Lemma limit_step root0 done root l root' : rooted root0 -> rooted root -> bare root = bare root0 -> limit_one root l = Ok root' ->
  (forall dl n rk o m cs, at_loc root dl = Some (Node n (KResource rk o m) cs) -> least (limited root0 done dl) m) ->
  rooted root' /\ bare root' = bare root0 /\
  forall dl n rk o m cs, at_loc root' dl = Some (Node n (KResource rk o m) cs) -> least (limited root0 (done ++ [l]) dl) m.
Proof.
  intros G0 G E H Inv. pose proof (proj1 (limit_one_good _ _ _ H G)) as G'. split; [exact G'|].
  destruct (limit_one_inv _ _ _ H G) as (e & f & fl & rng & ty & off & n & cs & He & Hf & Hfl & Hk & C).
  assert (Same : forall dl v, (forall w, limits root0 l dl w -> w = 64) -> (limited root0 done dl v <-> limited root0 (done ++ [l]) dl v)).
  { intros dl v Hw. split; intros (l' & w & Hin & L & W & Ev); exists l', w; (split; [|auto]).
    - apply in_or_app. auto.
    - apply in_app_or in Hin as [Hin|[<-|[]]]; [exact Hin|]. now destruct (W (Hw w L)). }
  destruct C as [(W & ->)|(W & d & dl & rn & rk & opt & mx & rcs & Hd & Hdl & Hr & ->)].
  - split; [exact E|]. intros dl n' rk o m cs' Hl. eapply least_ext; [|exact (Inv _ _ _ _ _ _ Hl)]. intros v. apply Same.
    intros w L. apply (limits_bare root0 root l dl w G0 G (eq_sym E)) in L as (e1 & f1 & fl1 & n1 & rng1 & ty1 & off1 & cs1 & d1 & He1 & Hf1 & Hfl1 & Hk1 & Hw1 & _).
    rewrite He in He1. injection He1 as <-. rewrite Hf in Hf1. injection Hf1 as <-. rewrite Hfl in Hfl1. injection Hfl1 as <-. rewrite Hk in Hk1. injection Hk1 as <- <- <- <- <-. congruence.
  - assert (L : limits root0 l dl (ft_width ty)).
    { apply (limits_bare root root0 l dl _ G G0 E). exists e, f, fl, n, rng, ty, off, cs, d. repeat (split; [assumption|]). split; [reflexivity|]. auto. }
    split.
    { rewrite <- E. apply (bare_modify _ _ _ _ Hr). reflexivity. }
    intros dl' n' rk' o' m' cs' Hl'. destruct (loc_eq_dec dl' dl) as [->|Nd].
    + rewrite (modify_at _ _ _ _ Hr) in Hl'. cbn in Hl'. injection Hl' as <- <- <- <- <-.
      eapply least_ext; [|exact (least_add _ _ (2 ^ ft_width ty) (Inv _ _ _ _ _ _ Hr))]. intros v. split.
      * intros [(l' & w & Hin & Lw & Ww & Ev)| ->]; [exists l', w; split; [apply in_or_app; auto|auto]|]. exists l, (ft_width ty). split; [apply in_or_app; right; now left|auto].
      * intros (l' & w & Hin & Lw & Ww & Ev). apply in_app_or in Hin as [Hin|[<-|[]]]; [left; exists l', w; auto|]. right.
        destruct (limits_fun _ _ _ _ _ _ L Lw) as (_ & <-). exact Ev.
    + assert (Old : exists csx, at_loc root dl' = Some (Node n' (KResource rk' o' m') csx)).
      { destruct (loc_cases dl dl') as [(q & Eq)|[(q & Q1 & Q2)|(O1 & O2)]].
        - subst dl'. destruct q as [|i q]; [rewrite app_nil_r in Nd; congruence|]. rewrite (modify_below _ _ _ _ _ Hr) in Hl'. cbn in Hl'. rewrite at_loc_app, Hr. cbn. eauto.
        - subst dl. destruct (prefix_at _ _ _ _ Hr) as (v & Hv). rewrite (modify_above _ _ _ _ _ Hv) in Hl'. injection Hl' as Hl'.
          destruct (modify_name_kind q (set_kind (KResource rk opt (Some match mx with Some m0 => Z.min m0 (2 ^ ft_width ty) | None => 2 ^ ft_width ty end))) v Q1) as (N1 & K1).
          rewrite Hl' in N1, K1. cbn in N1, K1. exists (t_children v). rewrite Hv. destruct v; cbn in *; congruence.
        - rewrite modify_other in Hl' by assumption. eauto. }
      destruct Old as (csx & Old). eapply least_ext; [|exact (Inv _ _ _ _ _ _ Old)]. intros v. apply Same. intros w Lw.
      destruct (limits_fun _ _ _ _ _ _ L Lw) as (Edl & _). congruence.
Qed.

Lemma compute_max_sizes_limits root root' : rooted root -> fresh root -> compute_max_sizes root = Ok root' ->
  bare root' = bare root /\
  forall dl n rk o m cs, at_loc root' dl = Some (Node n (KResource rk o m) cs) -> least (limited root (iterate root is_explicit) dl) m.
Proof.
  intros G F H. unfold compute_max_sizes in H.
  assert (K : forall ls done r r', foldM limit_one r ls = Ok r' -> rooted r -> bare r = bare root ->
    (forall dl n rk o m cs, at_loc r dl = Some (Node n (KResource rk o m) cs) -> least (limited root done dl) m) ->
    bare r' = bare root /\ forall dl n rk o m cs, at_loc r' dl = Some (Node n (KResource rk o m) cs) -> least (limited root (done ++ ls) dl) m).
  { induction ls as [|l ls IH]; intros done r r' H' Gr Er Inv; cbn in H'.
    - injection H' as <-. rewrite app_nil_r. auto.
    - apply bind_ok in H' as (r1 & H1 & H'). destruct (limit_step _ _ _ _ _ G Gr Er H1 Inv) as (G1 & E1 & I1).
      replace (done ++ l :: ls) with ((done ++ [l]) ++ ls) by (rewrite <- app_assoc; reflexivity). exact (IH _ _ _ H' G1 E1 I1). }
  apply (K _ [] root root' H G eq_refl). intros dl n rk o m cs Hl. pose proof (F _ _ Hl) as U. cbn in U. destruct m; [contradiction|].
  intros y (l & w & [] & _).
Qed.

Lemma compute_max_sizes_ran root root' : rooted root -> compute_max_sizes root = Ok root' ->
  forall l, In l (iterate root is_explicit) -> exists a a', rooted a /\ bare a = bare root /\ limit_one a l = Ok a'.
Proof.
  intros G H. unfold compute_max_sizes in H. revert H. generalize (iterate root is_explicit) as ls.
  assert (K : forall ls r, foldM limit_one r ls = Ok root' -> rooted r -> bare r = bare root ->
    forall l, In l ls -> exists a a', rooted a /\ bare a = bare root /\ limit_one a l = Ok a').
  { induction ls as [|x ls IH]; intros r H Gr Er l Hin; [contradiction|]. cbn in H. apply bind_ok in H as (r1 & H1 & H). destruct Hin as [->|Hin]; [eauto|].
    apply (IH r1 H); [exact (proj1 (limit_one_good _ _ _ H1 Gr))| |exact Hin]. rewrite <- Er.
    destruct (limit_one_inv _ _ _ H1 Gr) as (e & f & fl & rng & ty & off & n & cs & _ & _ & _ & _ & C).
    destruct C as [(_ & ->)|(_ & d & dl & rn & rk & opt & mx & rcs & _ & _ & Hr & ->)]; [reflexivity|]. apply (bare_modify _ _ _ _ Hr). reflexivity. }
  intros ls H. exact (K ls root H G eq_refl).
Qed.

Lemma only_child e p f : only (children_like e p) = Ok f -> exists i, nth_error (t_children e) i = Some f /\ p (t_kind f) = true.
Proof. intros H. apply only_ok in H. assert (Hin : In f (children_like e p)) by (rewrite H; now left). now apply children_like_in in Hin. Qed.
Lemma only_unique e p f i c : only (children_like e p) = Ok f -> nth_error (t_children e) i = Some c -> p (t_kind c) = true -> c = f.
Proof. intros H Hi Hp. apply only_ok in H. assert (Hin : In c (children_like e p)) by (apply children_like_in; eauto). rewrite H in Hin. now destruct Hin as [<-|[]]. Qed.
Lemma ref_loc_find root f fl : ref_loc root f = Ok fl <-> find root (target f) = Some fl.
Proof. unfold ref_loc. destruct (find root (target f)); split; congruence. Qed.

Lemma limits_referenced root l dl w : rooted root -> (exists e, at_loc root l = Some e /\ t_kind e = KExplicit) -> limits root l dl w -> referenced_by root dl w.
Proof.
  intros G (e0 & He0 & Ke0) (e & f & fl & n & rng & ty & off & cs & d & He & Hf & Hfl & Hk & Hw & Hd & Hdl). rewrite He in He0. injection He0 as <-.
  destruct (only_child _ _ _ Hf) as (j & Hj & Kj). destruct (only_child _ _ _ Hd) as (i & Hi & Ki).
  exists l, e, i, j, fl, (Node n (KField rng (Some ty) off) cs), rng, ty, off. split; [exact He|]. split; [exact Ke0|].
  split; [|split; [|split; [exact Hk|split; [reflexivity|exact Hw]]]]; apply (points_to_find _ _ _ _ G).
  - exists d. split; [now rewrite (at_child _ _ _ _ He)|]. split; [destruct (t_kind d); try discriminate; destruct r; try discriminate; reflexivity|]. now apply ref_loc_find.
  - exists f. split; [now rewrite (at_child _ _ _ _ He)|]. split; [destruct (t_kind f); try discriminate; destruct r; try discriminate; reflexivity|]. now apply ref_loc_find.
Qed.
Lemma explicit_bare a b l : bare a = bare b -> (exists e, at_loc a l = Some e /\ t_kind e = KExplicit) -> exists e, at_loc b l = Some e /\ t_kind e = KExplicit.
Proof.
  intros E (e & He & Ke). destruct (bare_at a b l e E He) as (e' & He' & Ee). exists e'. split; [exact He'|]. destruct (bare_node _ _ Ee) as (_ & K & _).
  rewrite Ke in K. now apply (unmax_other _ KExplicit) in K.
Qed.
Lemma is_explicit_eq k : is_explicit k = true <-> k = KExplicit. Proof. destruct k; split; cbn; congruence. Qed.

Lemma max_sizes_spec root root' : rooted root -> fresh root -> compute_max_sizes root = Ok root' ->
  forall dl n rk o m cs, at_loc root' dl = Some (Node n (KResource rk o m) cs) ->
    least (fun v => exists w, referenced_by root' dl w /\ w <> 64 /\ v = 2 ^ w) m.
Proof.
  intros G F H dl n rk o m cs Hl. pose proof (proj1 (compute_max_sizes_good _ _ H G)) as G'. destruct (compute_max_sizes_limits _ _ G F H) as (E & L).
  eapply least_ext; [|exact (L _ _ _ _ _ _ Hl)]. intros v. split.
  - intros (l & w & Hin & Lw & Ww & Ev). exists w. split; [|auto]. apply iterate_spec in Hin as (e & He & Ke). apply is_explicit_eq in Ke.
    apply (limits_referenced root' l dl w G').
    + apply (explicit_bare root root' l (eq_sym E)). eauto.
    + exact (limits_bare root root' l dl w G G' (eq_sym E) Lw).
  - intros (w & (l & e & i & j & fl & f & rng & ty & off & He & Ke & Pi & Pj & Hfl & Kf & Hw) & Ww & Ev). exists l, w.
    destruct (explicit_bare root' root l E (ex_intro _ e (conj He Ke))) as (e0 & He0 & Ke0).
    assert (Hin : In l (iterate root is_explicit)) by (apply iterate_spec; exists e0; split; [exact He0|now apply is_explicit_eq]).
    split; [exact Hin|]. split; [|auto].
    destruct (compute_max_sizes_ran _ _ G H l Hin) as (a & a' & Ga & Ea & Ha).
    apply (limits_bare a root l dl w Ga G Ea).
    assert (Ea' : bare root' = bare a) by congruence.
    destruct (limit_one_inv _ _ _ Ha Ga) as (e1 & f1 & fl1 & rng1 & ty1 & off1 & n1 & cs1 & He1 & Hf1 & Hfl1 & Hk1 & C).
    apply (points_to_find _ _ _ _ G') in Pi as (ti & Hti & Kti & Fti). apply (points_to_find _ _ _ _ G') in Pj as (tj & Htj & Ktj & Ftj).
    rewrite (at_child _ _ _ i He) in Hti. rewrite (at_child _ _ _ j He) in Htj.
    destruct (bare_at a root' l e1 (eq_sym Ea') He1) as (ex & Hex & Eex). rewrite He in Hex. injection Hex as <-.
    destruct (only_bare (fun k => match k with KRef RField => true | _ => false end) e1 e f1 ltac:(now intros []) Eex Hf1) as (f' & Hf' & Nf).
    pose proof (only_unique _ _ _ _ _ Hf' Htj ltac:(now rewrite Ktj)) as <-.
    assert (fl1 = fl).
    { rewrite (ref_loc_bare a root' f1 tj Ga G' (eq_sym Ea') Nf) in Hfl1. apply ref_loc_find in Hfl1. congruence. }
    subst fl1. destruct (bare_at a root' fl _ (eq_sym Ea') Hk1) as (fx & Hfx & Efx). rewrite Hfl in Hfx. injection Hfx as <-.
    destruct (bare_node _ _ Efx) as (_ & Kx & _). cbn in Kx. apply (unmax_other _ (KField rng1 (Some ty1) off1)) in Kx; [|discriminate]. rewrite Kf in Kx. injection Kx as <- <- <-.
    destruct C as [(W64 & _)|(_ & d & dl1 & rn & rk1 & opt1 & mx1 & rcs & Hd & Hdl & _)]; [congruence|].
    destruct (only_bare (fun k => match k with KRef RResource => true | _ => false end) e1 e d ltac:(now intros []) Eex Hd) as (d' & Hd' & Nd).
    pose proof (only_unique _ _ _ _ _ Hd' Hti ltac:(now rewrite Kti)) as <-.
    assert (dl1 = dl).
    { rewrite (ref_loc_bare a root' d ti Ga G' (eq_sym Ea') Nd) in Hdl. apply ref_loc_find in Hdl. congruence. }
    subst dl1. exists e1, f1, fl, n1, rng, ty, off, cs1, d. repeat (split; [assumption|]). auto.
Qed.

Lemma steps_fresh so s r1 r2 r3 r4 r5 r6 root : build_steps so s r1 r2 r3 r4 r5 r6 root -> fresh r6.
Proof.
  intros (H1 & H2 & H3 & H4 & _ & H5 & H6 & _). apply (compute_sizes_fresh _ _ H6), (update_field_types_fresh _ _ H5), (append_constants_fresh _ _ H4),
    (resolve_references_fresh _ _ H3), (append_builtins_fresh _ _ H2), (build_node_tree_fresh _ _ _ H1).
Qed.
