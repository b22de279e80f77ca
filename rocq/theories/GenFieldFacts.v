(** What later passes do to the fields of structures, and what is known about every node of the finished tree. *)
From Coq Require Import List ZArith Bool String Ascii Lia Permutation.
From Verif Require Import PyBase PyText GenTypes GenTypesFacts GenTree GenTreeFacts GenTraversal
  GenBuild GenBuildFacts GenPassFacts GenAstFacts GenAstSpec GenLayoutFacts GenMergeFacts GenShapeFacts GenEvery GenTidy.
Import ListNotations.
Local Open Scope Z_scope.

(** ** Skeletons that keep more: [g] says what is kept of the kinds *)
Section Keep.
  Variable g : kind -> kind.
  Fixpoint keep (b : bool) (t : tree) : tree :=
    match t with Node n k cs => Node (if b && is_ref_kind k then "@" else n) (g k) (map (keep b) cs) end.
  Lemma keep_eq b t : keep b t = Node (if b && is_ref_kind (t_kind t) then "@" else t_name t) (g (t_kind t)) (map (keep b) (t_children t)).
  Proof. now destruct t. Qed.
  Lemma keep_children b t : t_children (keep b t) = map (keep b) (t_children t). Proof. now destruct t. Qed.
  Lemma at_loc_keep b l : forall t, at_loc (keep b t) l = option_map (keep b) (at_loc t l).
  Proof.
    induction l as [|i l IH]; intros t; cbn; [reflexivity|]. rewrite keep_children, nth_error_map.
    destruct (nth_error (t_children t) i); cbn; [apply IH|reflexivity].
  Qed.
  Lemma keep_modify b f l : forall t u, at_loc t l = Some u -> keep b (f u) = keep b u -> keep b (modify t l f) = keep b t.
  Proof.
    induction l as [|i l IH]; intros t u H E; cbn in *; [now injection H as ->|]. destruct t as [n k cs]; cbn in *.
    destruct (nth_error cs i) as [c|] eqn:Hc; [|discriminate]. f_equal. eapply upd_map; [exact Hc|]. eapply IH; eauto.
  Qed.
  Lemma keep_at b t t' l u : keep b t = keep b t' -> at_loc t l = Some u ->
    exists u', at_loc t' l = Some u' /\ g (t_kind u') = g (t_kind u) /\ (b = false \/ is_ref_kind (t_kind u) = false /\ is_ref_kind (t_kind u') = false -> t_name u' = t_name u) /\ keep b u' = keep b u.
  Proof.
    intros E H. pose proof (at_loc_keep b l t) as H1. pose proof (at_loc_keep b l t') as H2. rewrite E, H2, H in H1. cbn in H1.
    destruct (at_loc t' l) as [u'|]; [|discriminate]. exists u'. cbn in H1. injection H1 as H1. split; [reflexivity|]. split; [|split; [|exact H1]].
    - rewrite (keep_eq b u), (keep_eq b u') in H1. congruence.
    - rewrite (keep_eq b u), (keep_eq b u') in H1. intros [-> |(A & C)]; [cbn in H1; congruence|]. rewrite A, C, andb_false_r in H1. congruence.
  Qed.
End Keep.

(** resolving references changes only their names *)
Lemma resolve_keep root root' : resolve_references root = Ok root' -> keep (fun k => k) true root' = keep (fun k => k) true root.
Proof.
  unfold resolve_references. intros H. refine (foldM_inv (fun x => keep (fun k => k) true x = keep (fun k => k) true root) _ _ _ _ H eq_refl _).
  intros l _ x x' Ex Hx. destruct (resolve_one_inv _ _ _ Hx) as (t & r & root1 & Ht & Kt & C & V). apply validate_inv in V as (-> & _).
  destruct C as [(_ & -> & _)|(_ & s & p & _ & _ & Hs)]; [exact Ex|]. rewrite <- Ex. destruct (set_name_inv _ _ _ _ _ Ht Hs) as [(_ & ->)|(_ & -> & _)]; [reflexivity|].
  apply (keep_modify _ true _ l x t Ht). destruct t as [n k cs]. cbn in *. now subst k.
Qed.

(** laying out structures and limiting resources changes sizes and offsets only *)
Definition unsized (k : kind) : kind :=
  match k with KStructure _ => KStructure None | KField r t _ => KField r t None | KResource rk o _ => KResource rk o None | k => k end.
Lemma layout_unsized cs : forall off cs' size, layout off cs = Ok (cs', size) -> map (keep unsized false) cs' = map (keep unsized false) cs.
Proof.
  induction cs as [|c cs IH]; intros off cs' size H; cbn in H; [now injection H as <- _|].
  destruct c as [n k ch]. destruct k as [| | |sz|rg [ty|] o| | | | | |]; cbn in H; try discriminate;
    apply bind_ok in H as ([t' s] & Ht & H); injection H as <- _; cbn; now rewrite (IH _ _ _ Ht).
Qed.
Lemma sizes_keep root root' : compute_sizes root = Ok root' -> keep unsized false root' = keep unsized false root.
Proof.
  unfold compute_sizes. intros H. apply bind_ok in H as (order & _ & H).
  refine (foldM_inv (fun x => keep unsized false x = keep unsized false root) _ _ _ _ H eq_refl _). intros l _ x x' Ex Hx. rewrite <- Ex.
  unfold size_structure in Hx. destruct (at_loc x l) as [[n k cs]|] eqn:Hl; [|discriminate]. destruct k; try (now injection Hx as <-).
  apply bind_ok in Hx as ([cs' size] & Hly & Hx). injection Hx as <-. apply (keep_modify _ false _ l x _ Hl). cbn. now rewrite (layout_unsized _ _ _ _ Hly).
Qed.
Lemma limits_keep root root' : compute_max_sizes root = Ok root' -> keep unsized false root' = keep unsized false root.
Proof.
  unfold compute_max_sizes. intros H. refine (foldM_inv (fun x => keep unsized false x = keep unsized false root) _ _ _ _ H eq_refl _).
  intros l _ x x' Ex Hx. rewrite <- Ex. unfold limit_one in Hx. destruct (at_loc x l) as [e|]; [|discriminate]. apply bind_ok in Hx as (f & _ & Hx). apply bind_ok in Hx as (fl & _ & Hx).
  destruct (at_loc x fl) as [[n [| | | |rg [ty|] o| | | | | |] cs]|]; try discriminate. destruct (ft_width ty =? 64); [now injection Hx as <-|].
  apply bind_ok in Hx as (d & _ & Hx). apply bind_ok in Hx as (dl & _ & Hx). destruct (at_loc x dl) as [[n' [| | | | | | | |rk op mx| |] cs']|] eqn:Hd; try discriminate.
  injection Hx as <-. apply (keep_modify _ false _ dl x _ Hd). reflexivity.
Qed.

(** ** Types of fields *)
(** The type of a field that names an enumeration *)
Definition enum_typed (root : tree) (l : loc) (ty : ftype) : Prop :=
  exists i r w tl n b b' cs, at_loc root (l ++ [i]) = Some r /\ t_kind r = KRef (REnum w) /\ find root (target r) = Some tl
    /\ at_loc root tl = Some (Node n (KEnum b) cs)
    /\ make_btype (bt_name b) (Some (bt_width b)) = Ok b' /\ ty = FT (t_name r) (bt_width b') (bt_signed b').
Definition retyped (root : tree) (l : loc) (u u' : tree) : Prop :=
  t_name u' = t_name u /\
  (t_kind u' = t_kind u \/ exists rng off ty, t_kind u = KField rng None off /\ t_kind u' = KField rng (Some ty) off /\ enum_typed root l ty).

Lemma set_kind_at root l v k l' u' : at_loc root l = Some v -> at_loc (modify root l (set_kind k)) l' = Some u' ->
  exists u, at_loc root l' = Some u /\ t_name u' = t_name u /\ (l' = l /\ t_kind u' = k \/ t_kind u' = t_kind u).
Proof.
  intros Hv H. destruct (loc_cases l l') as [(m & ->)|[(m & Nm & ->)|(A & B)]].
  - rewrite (modify_below _ l root v m Hv) in H. destruct m as [|i m].
    + injection H as <-. exists v. rewrite app_nil_r. cbn. auto.
    + exists u'. split; [|auto]. rewrite at_loc_app, Hv. exact H.
  - rewrite at_loc_app in Hv. destruct (at_loc root l') as [u|] eqn:Hu; [|discriminate]. rewrite (modify_above _ m root l' u Hu) in H. injection H as <-. exists u.
    destruct m as [|i m]; [congruence|]. destruct u as [n k' cs]. cbn. auto.
  - rewrite (modify_other _ l l' root A B) in H. exists u'. auto.
Qed.

Lemma enum_typed_same a b l ty : rooted a -> rooted b -> same_tree a b -> enum_typed a l ty -> enum_typed b l ty.
Proof.
  intros Ga Gb S (i & r & w & tl & n & e & e' & cs & Hr & Kr & F & T & M & E).
  destruct (same_at a b _ _ S Hr) as (r' & Hr' & Nr & K'). rewrite Kr in K'. apply erase_kref in K'.
  destruct (same_at a b _ _ S T) as ([n' k' cs'] & T' & _ & Kt). cbn in Kt. assert (k' = KEnum e) as -> by (now destruct k').
  exists i, r', w, tl, n', e, e', cs'. rewrite Nr. repeat split; auto. rewrite <- (skel_find a b _ Ga Gb S). unfold target in *. now rewrite Nr.
Qed.

Lemma update_field_step root l root' : update_field root l = Ok root' -> forall l' u', at_loc root' l' = Some u' ->
  exists u, at_loc root l' = Some u /\ retyped root l' u u'.
Proof.
  unfold update_field. intros H l' u' Hu'.
  assert (Same : root' = root -> exists u, at_loc root l' = Some u /\ retyped root l' u u') by (intros ->; exists u'; repeat split; auto).
  destruct (at_loc root l) as [[n k cs]|] eqn:Hl; [|discriminate].
  destruct k; try (apply Same; now injection H). destruct type as [ty|]; [apply Same; now injection H|].
  destruct (filter (fun c => is_enum_ref (t_kind c)) cs) as [|r rs] eqn:Fr; [discriminate|]. apply bind_ok in H as (tl & Ht & H).
  destruct (at_loc root tl) as [[n2 [| | | | |b| | | | |] cs2]|] eqn:Htl; try discriminate.
  destruct (t_kind r) as [| | | | | | | | | |[| | | | |w| |]] eqn:Kr; try discriminate. apply bind_ok in H as (b' & Hb & H).
  match type of H with (if ?c then _ else _) = _ => destruct c end; [discriminate|]. injection H as <-.
  destruct (set_kind_at _ _ _ _ _ _ Hl Hu') as (u & Hu & N & C). exists u. split; [exact Hu|]. split; [exact N|].
  destruct C as [(-> & K)|K]; [|auto]. rewrite Hl in Hu. injection Hu as <-. right. eexists _, _, _. split; [reflexivity|]. split; [exact K|].
  assert (Hr : In r cs) by (eapply proj1, filter_In; rewrite Fr; now left). apply In_nth_error in Hr as (i & Hi).
  exists i, r, w, tl, n2, b, b', cs2. repeat split; auto.
  - rewrite at_loc_app, Hl. cbn. now rewrite Hi.
  - unfold ref_loc in Ht. destruct (find root (target r)); congruence.
Qed.
Lemma fields_retyped root root' : rooted root -> update_field_types root = Ok root' -> forall l u', at_loc root' l = Some u' ->
  exists u, at_loc root l = Some u /\ retyped root l u u'.
Proof.
  intros G H. unfold update_field_types in H.
  refine (proj2 (proj2 (foldM_inv (fun x => rooted x /\ same_tree root x /\ forall l u', at_loc x l = Some u' -> exists u, at_loc root l = Some u /\ retyped root l u u') _ _ _ _ H _ _))).
  - split; [exact G|]. split; [reflexivity|]. intros l u' Hu. exists u'. split; [exact Hu|]. split; auto.
  - intros l _ x x' (Gx & Sx & Ix) Hx. destruct (update_field_good _ _ _ Hx Gx) as (G' & S'). split; [exact G'|]. split; [exact (same_trans _ _ _ Sx S')|].
    intros l' u' Hu'. destruct (update_field_step _ _ _ Hx l' u' Hu') as (u1 & Hu1 & N1 & C1). destruct (Ix l' u1 Hu1) as (u & Hu & N & C). exists u. split; [exact Hu|]. split; [congruence|].
    destruct C1 as [K1|(rng & off & ty & K1 & K1' & En)]; [rewrite K1; exact C|]. destruct C as [K|(rng' & off' & ty' & _ & K' & _)]; [|congruence].
    right. exists rng, off, ty. rewrite <- K. split; [exact K1|]. split; [exact K1'|]. exact (enum_typed_same x root l' ty Gx G (eq_sym Sx) En).
Qed.
