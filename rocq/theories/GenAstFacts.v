(** Facts about the result of [build_ast]. *)
From Coq Require Import List ZArith Bool String Ascii Lia Permutation.
From Verif Require Import PyBase PyText GenTypes GenTypesFacts GenTree GenTreeFacts GraphSpec GenTraversal GenTraversalFacts
  GenBuild GenBuildFacts GenPassFacts.
Import ListNotations.
Local Open Scope Z_scope.

(** ** Constant references of archives *)
Lemma insert_at_new root l c root' l' u' : insert_at root l c = Ok root' -> at_loc root' l' = Some u' ->
  (exists u, at_loc root l' = Some u /\ t_name u' = t_name u /\ t_kind u' = t_kind u)
  \/ (exists t m, at_loc root l = Some t /\ l' = l ++ List.length (t_children t) :: m /\ at_loc c m = Some u').
Proof.
  intros H Hu. destruct (insert_at_inv _ _ _ _ H) as (t & Ht & _ & ->).
  destruct (loc_cases l l') as [[m ->]|[[m [M ->]]|[H1 H2]]].
  - rewrite (modify_below _ l root t m Ht) in Hu. destruct m as [|i m]; cbn in Hu.
    + injection Hu as <-. left. exists t. rewrite app_nil_r. auto.
    + destruct (Compare_dec.lt_eq_lt_dec i (List.length (t_children t))) as [[L|E]|L].
      * rewrite nth_error_app1 in Hu by assumption. left. exists u'. rewrite at_loc_app, Ht. auto.
      * subst i. rewrite nth_error_app2, PeanoNat.Nat.sub_diag in Hu by lia. cbn in Hu. right. exists t, m. auto.
      * exfalso. rewrite (proj2 (nth_error_None _ i)) in Hu; [discriminate|]. rewrite app_length. cbn. lia.
  - rewrite at_loc_app in Ht. destruct (at_loc root l') as [v|] eqn:V; [|discriminate].
    rewrite (modify_above _ m root l' v V) in Hu. injection Hu as <-. left. exists v.
    destruct (modify_name_kind m (fun _ => Node (t_name t) (t_kind t) (t_children t ++ [c])) v M). auto.
  - rewrite modify_other in Hu by assumption. left. exists u'. auto.
Qed.

Definition extends (a b : tree) : Prop :=
  (forall l u, at_loc a l = Some u -> exists u', at_loc b l = Some u' /\ t_name u' = t_name u /\ t_kind u' = t_kind u)
  /\ (forall p tl, find a p = Some tl -> find b p = Some tl).
Lemma extends_refl a : extends a a.
Proof. split; [|auto]. intros l u H. exists u. auto. Qed.
Lemma extends_trans a b c : extends a b -> extends b c -> extends a c.
Proof.
  intros [H1 F1] [H2 F2]. split; [|auto]. intros l u H. destruct (H1 l u H) as (u1 & A1 & N1 & K1).
  destruct (H2 l u1 A1) as (u2 & A2 & N2 & K2). exists u2. split; [exact A2|]. split; congruence.
Qed.
Lemma insert_at_extends root l c root' : insert_at root l c = Ok root' -> rooted root' -> extends root root'.
Proof.
  intros H G. split.
  - intros l' u Hu. eapply insert_at_old; eauto.
  - intros p tl F. eapply insert_at_find; [exact H|apply good_wf; exact (proj1 G)|apply rooted_dot; exact G|exact F].
Qed.

Lemma resolved_extends a b l t t' r : at_loc a l = Some t -> at_loc b l = Some t' -> t_name t' = t_name t -> t_kind t = KRef r ->
  t_kind t' = KRef r -> extends a b -> resolved a l -> resolved b l.
Proof.
  intros Ht Ht' N K K' [E1 E2] (r0 & t0 & tl & u & A & K0 & F & U & X). rewrite Ht in A. injection A as <-.
  rewrite K in K0. injection K0 as <-. destruct (E1 tl u U) as (u' & U' & _ & Ku).
  exists r, t', tl, u'. split; [exact Ht'|]. split; [exact K'|]. split; [|split; [exact U'|congruence]].
  unfold target in *. rewrite N. now apply E2.
Qed.

Lemma insert_ref_resolved root a ref p cl cu root' ta : rooted root -> all_resolved root -> at_loc root a = Some ta -> is_ref ta = false ->
  make_ref RConstValue p = Ok ref -> clean p -> find root p = Some cl -> at_loc root cl = Some cu ->
  expected_kind RConstValue (t_kind cu) = true -> insert_at root a ref = Ok root' ->
  rooted root' /\ all_resolved root' /\ extends root root'.
Proof.
  intros G R Ha Ra Hr C F U X H. destruct (make_ref_ok _ _ _ Hr) as (Er & Gr & Nr).
  assert (G' : rooted root') by exact (rooted_insert_at _ _ _ _ _ G Ha Ra Gr Nr H).
  assert (Ext : extends root root') by (eapply insert_at_extends; eauto).
  split; [exact G'|]. split; [|exact Ext]. intros l' t' Ht' Rt'.
  destruct (insert_at_new _ _ _ _ _ _ H Ht') as [(u & Hu & N & K)|(t0 & m & Ht0 & -> & Hm)].
  - assert (Ru : is_ref u = true) by (unfold is_ref in *; now rewrite <- K).
    assert (exists r, t_kind u = KRef r) as (r & Kr) by (unfold is_ref in Ru; destruct (t_kind u); try discriminate; eauto).
    exact (resolved_extends root root' l' u t' r Hu Ht' N Kr (eq_trans K Kr) Ext (R l' u Hu Ru)).
  - destruct (proj1 Ext _ _ U) as (cu' & U' & _ & Ku). subst ref. destruct m as [|i m]; [|now destruct i].
    cbn in Hm. injection Hm as <-. exists RConstValue, (Node (referencify p) (KRef RConstValue) []), cl, cu'.
    split; [exact Ht'|]. split; [reflexivity|]. split; [|split; [exact U'|congruence]].
    unfold target. cbn [t_name]. rewrite dereferencify_referencify by exact C. now apply (proj2 Ext).
Qed.

Lemma append_constants_good root root' : append_constants root = Ok root' -> rooted root -> all_resolved root ->
  rooted root' /\ all_resolved root' /\ extends root root'.
Proof.
  unfold append_constants. intros H G R. set (cs := filter _ _) in H.
  assert (Hcs : forall p, In p cs -> clean p /\ exists cl cu, find root p = Some cl /\ at_loc root cl = Some cu /\ is_constant (t_kind cu) = true).
  { intros p Hp. unfold cs in Hp. apply filter_In in Hp as [Hp _]. unfold paths_at in Hp. apply in_flat_map in Hp as (l & Hl & Hp).
    destruct (path_at root l) as [q|] eqn:P; [|contradiction]. destruct Hp as [<-|[]]. apply iterate_spec in Hl as (u & Hu & K). split.
    - eapply path_clean; [exact (proj1 G)|exact Hu| |exact P]. unfold is_ref. now destruct (t_kind u).
    - exists l, u. split; [|auto]. apply path_find; [apply good_wf; exact (proj1 G)|apply rooted_dot; exact G|exact P]. }
  clearbody cs.
  refine (foldM_inv (fun x => rooted x /\ all_resolved x /\ extends root x) _ _ _ _ H _ _); [split; [exact G|split; [exact R|apply extends_refl]]|].
  intros a Ha x x' (Gx & Rx & Ex) Hx. apply iterate_spec in Ha as (ta & Hta & Ka).
  refine (foldM_inv (fun x => rooted x /\ all_resolved x /\ extends root x) _ _ _ _ Hx _ _); [auto|].
  intros p Hp y y' (Gy & Ry & Ey) Hy. apply bind_ok in Hy as (c & Hc & Hy). destruct (Hcs p Hp) as (C & cl & cu & F & U & K).
  destruct (proj1 Ey _ _ Hta) as (ta' & Hta' & _ & Kta). destruct (proj1 Ey _ _ U) as (cu' & U' & _ & Kcu).
  destruct (insert_ref_resolved y a c p cl cu' y' ta') as (G' & R' & E'); auto.
  - unfold is_ref. rewrite Kta. now destruct (t_kind ta).
  - now apply (proj2 Ey).
  - rewrite Kcu. now destruct (t_kind cu).
  - split; [exact G'|]. split; [exact R'|]. eapply extends_trans; eauto.
Qed.

(** ** Passes that only write attributes *)
Definition same_tree (a b : tree) : Prop := skel false a = skel false b.

Lemma skel_find a b p : rooted a -> rooted b -> same_tree a b -> find a p = find b p.
Proof. intros Ga Gb S. apply (find_skel false); auto. discriminate. Qed.
Lemma same_at a b l u : same_tree a b -> at_loc a l = Some u ->
  exists u', at_loc b l = Some u' /\ t_name u' = t_name u /\ erase (t_kind u') = erase (t_kind u).
Proof.
  intros S H. destruct (skel_at false _ _ _ _ S H) as (u' & H' & E). exists u'. split; [exact H'|].
  split; [now apply skel_name|now apply (skel_kind_eq false)].
Qed.
Lemma erase_kref k r : erase k = KRef r -> k = KRef r. Proof. now destruct k. Qed.
Lemma same_resolved a b : rooted a -> rooted b -> same_tree a b -> all_resolved a -> all_resolved b.
Proof.
  intros Ga Gb S R l t Ht Rt. destruct (same_at b a l t (eq_sym S) Ht) as (t0 & Ht0 & N & K).
  assert (exists r, t_kind t = KRef r) as (r & Kr) by (unfold is_ref in Rt; destruct (t_kind t); try discriminate; eauto).
  rewrite Kr in K. apply erase_kref in K. destruct (R l t0 Ht0) as (r0 & t1 & tl & u & A & K0 & F & U & X); [unfold is_ref; now rewrite K|].
  rewrite Ht0 in A. injection A as <-. rewrite K in K0. injection K0 as <-.
  destruct (same_at a b tl u S U) as (u' & U' & _ & Ku). exists r, t, tl, u'. split; [exact Ht|]. split; [exact Kr|].
  split; [|split; [exact U'|]].
  - rewrite <- (skel_find a b _ Ga Gb S). unfold target in *. now rewrite <- N.
  - rewrite <- expected_erase, Ku, expected_erase. exact X.
Qed.

(** one attribute update *)
Lemma set_kind_modify root l u k : rooted root -> at_loc root l = Some u -> erase k = erase (t_kind u) ->
  node_ok (t_name u) k (map t_name (t_children u)) ->
  rooted (modify root l (set_kind k)) /\ same_tree root (modify root l (set_kind k)).
Proof.
  intros (G & N & K) Hu E Ok.
  assert (S : same_tree root (modify root l (set_kind k))).
  { symmetry. apply (skel_modify false _ l root u Hu). unfold set_kind. rewrite (skel_eq false u). cbn. now rewrite E. }
  split; [|exact S]. split; [|split].
  - eapply good_modify; [exact G|exact Hu| |reflexivity]. unfold set_kind. apply good_intro; [exact Ok|].
    apply good_children. exact (good_at _ _ _ G Hu).
  - rewrite <- N. symmetry. now apply skel_name.
  - pose proof (skel_kind_eq false _ _ S) as Q. rewrite K in Q. cbn in Q. destruct (t_kind (modify root l (set_kind k))); try discriminate. reflexivity.
Qed.

Lemma update_field_good root l root' : update_field root l = Ok root' -> rooted root -> rooted root' /\ same_tree root root'.
Proof.
  unfold update_field. intros H G. destruct (at_loc root l) as [[n k cs]|] eqn:Hl; [|discriminate].
  destruct k; try (injection H as <-; split; [exact G|reflexivity]). destruct type as [ty|]; [injection H as <-; split; [exact G|reflexivity]|].
  destruct (filter (fun c => is_enum_ref (t_kind c)) cs) as [|r rs] eqn:Fr; [discriminate|]. apply bind_ok in H as (tl & _ & H).
  destruct (at_loc root tl) as [[n2 [| | | | |b| | | | |] cs2]|] eqn:Ht; try discriminate.
  destruct (t_kind r) as [| | | | | | | | | |[| | | | |w| |]] eqn:Kr; try discriminate. apply bind_ok in H as (b' & Hb & H).
  match type of H with (if ?c then _ else _) = _ => destruct c end; [discriminate|]. injection H as <-.
  refine (set_kind_modify root l _ _ G Hl _ _); [reflexivity|].
  destruct (good_here _ (good_at _ _ _ (proj1 G) Hl)) as (ND & F & C). split; [exact ND|]. split; [exact F|]. cbn in *. split; [exact C|].
  destruct (good_here _ (good_at _ _ _ (proj1 G) Ht)) as (_ & _ & (_ & W)). apply make_btype_ok in Hb as (s & _ & -> & _).
  split; [exact W|]. left. cbn. assert (Hr : In r cs) by (eapply proj1, filter_In; rewrite Fr; now left).
  apply In_nth_error in Hr as [i Hi]. destruct (good_here _ (good_child _ _ _ (good_at _ _ _ (proj1 G) Hl) Hi)) as (_ & _ & X).
  rewrite Kr in X. apply X.
Qed.
Lemma same_refl a : same_tree a a. Proof. reflexivity. Qed.
Lemma same_trans a b c : same_tree a b -> same_tree b c -> same_tree a c. Proof. unfold same_tree. congruence. Qed.
Lemma update_field_types_good root root' : update_field_types root = Ok root' -> rooted root -> rooted root' /\ same_tree root root'.
Proof.
  unfold update_field_types. intros H G.
  refine (foldM_inv (fun x => rooted x /\ same_tree root x) _ _ _ _ H _ _); [split; [exact G|apply same_refl]|].
  intros l _ x x' [Gx Sx] Hx. destruct (update_field_good _ _ _ Hx Gx) as [G' S']. split; [exact G'|]. eapply same_trans; eauto.
Qed.

(** ** Structure layout *)
Lemma layout_keeps cs : forall off cs' size, layout off cs = Ok (cs', size) ->
  Forall2 (fun c c' => exists k, c' = Node (t_name c) k (t_children c) /\ erase k = erase (t_kind c)
     /\ (forall n ns, node_ok n (t_kind c) ns -> node_ok n k ns)) cs cs'.
Proof.
  induction cs as [|c cs IH]; intros off cs' size H; cbn in H; [injection H as <- _; constructor|].
  destruct c as [n k ch]. destruct k as [| | |sz|rg [ty|] o| | | | | |]; cbn in H; try discriminate;
    apply bind_ok in H as ([t' s] & Ht & H); injection H as <- _; (constructor; [|eapply IH; eauto]); cbn; eexists; (split; [reflexivity|split; [reflexivity|auto]]).
Qed.
Lemma layout_skel cs off cs' size : layout off cs = Ok (cs', size) -> map (skel false) cs' = map (skel false) cs /\ map t_name cs' = map t_name cs.
Proof.
  intros H. pose proof (layout_keeps _ _ _ _ H) as F. clear H. induction F as [|c c' cs cs' (k & -> & E & _) _ [IH1 IH2]]; [now split|].
  cbn [map]. rewrite IH1, IH2. split; [|reflexivity]. f_equal. rewrite (skel_eq false c). cbn. now rewrite E.
Qed.
Lemma layout_good cs off cs' size : layout off cs = Ok (cs', size) -> Forall good cs -> Forall good cs'.
Proof.
  intros H G. pose proof (layout_keeps _ _ _ _ H) as F. clear H. induction F as [|c c' cs cs' (k & -> & E & K) _ IH]; [constructor|].
  inversion G as [|? ? Gc Gcs]; subst. constructor; [|now apply IH]. apply good_intro; [|now apply good_children]. apply K. now apply good_here.
Qed.
Lemma size_structure_good root l root' : size_structure root l = Ok root' -> rooted root -> rooted root' /\ same_tree root root'.
Proof.
  unfold size_structure. intros H G. destruct (at_loc root l) as [[n k cs]|] eqn:Hl; [|discriminate].
  destruct k; try (injection H as <-; split; [exact G|reflexivity]). apply bind_ok in H as ([cs' size] & Hly & H). injection H as <-.
  destruct (layout_skel _ _ _ _ Hly) as [S1 S2]. destruct G as (G & N & K).
  assert (S : same_tree root (modify root l (fun _ => Node n (KStructure (Some size)) cs'))).
  { symmetry. apply (skel_modify false _ l root _ Hl). cbn. now rewrite S1. }
  split; [|exact S]. split; [|split].
  - eapply good_modify; [exact G|exact Hl| |reflexivity]. pose proof (good_at _ _ _ G Hl) as Gs.
    destruct (good_here _ Gs) as (ND & F & C). cbn in *. apply good_intro; [rewrite S2; split; [exact ND|split; [exact F|exact C]]|].
    eapply layout_good; eauto. now apply good_children in Gs.
  - rewrite <- N. symmetry. now apply skel_name.
  - pose proof (skel_kind_eq false _ _ S) as Q. rewrite K in Q. cbn in Q.
    destruct (t_kind (modify root l (fun _ => Node n (KStructure (Some size)) cs'))); try discriminate. reflexivity.
Qed.
Lemma compute_sizes_good root root' : compute_sizes root = Ok root' -> rooted root -> rooted root' /\ same_tree root root'.
Proof.
  unfold compute_sizes. intros H G. apply bind_ok in H as (order & _ & H).
  refine (foldM_inv (fun x => rooted x /\ same_tree root x) _ _ _ _ H _ _); [split; [exact G|apply same_refl]|].
  intros l _ x x' [Gx Sx] Hx. destruct (size_structure_good _ _ _ Hx Gx) as [G' S']. split; [exact G'|]. eapply same_trans; eauto.
Qed.

(** ** Maximum sizes *)
Lemma limit_one_inv root l root' : limit_one root l = Ok root' -> rooted root ->
  exists e f fl rng ty off n cs, at_loc root l = Some e /\ explicit_field e = Ok f /\ ref_loc root f = Ok fl
    /\ at_loc root fl = Some (Node n (KField rng (Some ty) off) cs)
    /\ ((ft_width ty = 64 /\ root' = root)
        \/ (ft_width ty <> 64 /\ exists d dl rn rk opt mx rcs, explicit_destination e = Ok d /\ ref_loc root d = Ok dl
            /\ at_loc root dl = Some (Node rn (KResource rk opt mx) rcs)
            /\ root' = modify root dl (set_kind (KResource rk opt (Some (match mx with None => 2 ^ ft_width ty | Some m => Z.min m (2 ^ ft_width ty) end)))))).
Proof.
  unfold limit_one. intros H G. destruct (at_loc root l) as [e|] eqn:He; [|discriminate]. apply bind_ok in H as (f & Hf & H).
  apply bind_ok in H as (fl & Hfl & H). destruct (at_loc root fl) as [[n [| | | |rng [ty|] off| | | | | |] cs]|] eqn:Hn; try discriminate.
  exists e, f, fl, rng, ty, off, n, cs. repeat (split; [auto|]). destruct (Z.eqb_spec (ft_width ty) 64) as [E|E].
  - left. injection H as <-. auto.
  - right. split; [exact E|]. apply bind_ok in H as (d & Hd & H). apply bind_ok in H as (dl & Hdl & H).
    destruct (at_loc root dl) as [[rn [| | | | | | | |rk opt mx| |] rcs]|] eqn:Hr; try discriminate. injection H as <-.
    exists d, dl, rn, rk, opt, mx, rcs. repeat (split; [auto|]). f_equal. f_equal. f_equal. f_equal. destruct mx as [m|]; [|reflexivity].
    rewrite Z.gtb_ltb. destruct (Z.ltb_spec (2 ^ ft_width ty) m); lia.
Qed.
Lemma limit_one_good root l root' : limit_one root l = Ok root' -> rooted root -> rooted root' /\ same_tree root root'.
Proof.
  intros H G. destruct (limit_one_inv _ _ _ H G) as (e & f & fl & rng & ty & off & n & cs & _ & _ & _ & _ & [(_ & ->)|(_ & d & dl & rn & rk & opt & mx & rcs & _ & _ & Hr & ->)]).
  - split; [exact G|apply same_refl].
  - refine (set_kind_modify root dl _ _ G Hr _ _); [reflexivity|]. exact (good_here _ (good_at _ _ _ (proj1 G) Hr)).
Qed.
Lemma compute_max_sizes_good root root' : compute_max_sizes root = Ok root' -> rooted root -> rooted root' /\ same_tree root root'.
Proof.
  unfold compute_max_sizes. intros H G.
  refine (foldM_inv (fun x => rooted x /\ same_tree root x) _ _ _ _ H _ _); [split; [exact G|apply same_refl]|].
  intros l _ x x' [Gx Sx] Hx. destruct (limit_one_good _ _ _ Hx Gx) as [G' S']. split; [exact G'|]. eapply same_trans; eauto.
Qed.

(** ** All together *)
Definition build_steps (so : list Z -> list Z) (s : pschema) (r1 r2 r3 r4 r5 r6 root : tree) : Prop :=
  build_node_tree so s = Ok r1 /\ append_builtins r1 = Ok r2 /\ resolve_references r2 = Ok r3 /\ append_constants r3 = Ok r4
  /\ check_ranges r4 = Ok tt /\ update_field_types r4 = Ok r5 /\ compute_sizes r5 = Ok r6 /\ compute_max_sizes r6 = Ok root
  /\ check_const_refs root = Ok tt /\ check_explicits root = Ok tt.
Lemma build_ast_steps so s root : build_ast so s = Ok root -> exists r1 r2 r3 r4 r5 r6, build_steps so s r1 r2 r3 r4 r5 r6 root.
Proof.
  unfold build_ast. intros H.
  apply bind_ok in H as (r1 & H1 & H). apply bind_ok in H as (r2 & H2 & H). apply bind_ok in H as (r3 & H3 & H).
  apply bind_ok in H as (r4 & H4 & H). apply bind_ok in H as ([] & H5 & H). apply bind_ok in H as (r5 & H6 & H).
  apply bind_ok in H as (r6 & H7 & H). apply bind_ok in H as (r7 & H8 & H). apply bind_ok in H as ([] & H9 & H).
  apply bind_ok in H as ([] & H10 & H). injection H as <-. exists r1, r2, r3, r4, r5, r6. unfold build_steps. auto 12.
Qed.

Lemma steps_good so s r1 r2 r3 r4 r5 r6 root : (forall l, Permutation (so l) l) -> schema_clean s -> build_steps so s r1 r2 r3 r4 r5 r6 root ->
  rooted r1 /\ rooted r2 /\ rooted r3 /\ skel true r3 = skel true r2 /\ all_resolved r3 /\ rooted r4 /\ all_resolved r4 /\ extends r3 r4
  /\ rooted r5 /\ same_tree r4 r5 /\ rooted r6 /\ same_tree r5 r6 /\ rooted root /\ same_tree r6 root
  /\ all_resolved r5 /\ all_resolved r6 /\ all_resolved root.
Proof.
  intros Hso C (H1 & H2 & H3 & H4 & _ & H5 & H6 & H7 & _).
  assert (G1 : rooted r1) by (eapply build_node_tree_good; eauto).
  assert (G2 : rooted r2) by (eapply append_builtins_good; eauto).
  destruct (resolve_references_good _ _ H3 G2) as (G3 & S3 & R3).
  destruct (append_constants_good _ _ H4 G3 R3) as (G4 & R4 & E4).
  destruct (update_field_types_good _ _ H5 G4) as (G5 & S5).
  destruct (compute_sizes_good _ _ H6 G5) as (G6 & S6).
  destruct (compute_max_sizes_good _ _ H7 G6) as (G7 & S7).
  assert (R5 : all_resolved r5) by exact (same_resolved _ _ G4 G5 S5 R4).
  assert (R6 : all_resolved r6) by exact (same_resolved _ _ G5 G6 S6 R5).
  assert (R7 : all_resolved root) by exact (same_resolved _ _ G6 G7 S7 R6).
  auto 20.
Qed.
