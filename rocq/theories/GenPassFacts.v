(** What the passes of [build_ast] keep: well-formedness, node locations, and resolved references. *)
From Coq Require Import List ZArith Bool String Ascii Lia Permutation.
From Verif Require Import PyBase PyText GenTypes GenTypesFacts GenTree GenTreeFacts GenTraversal GenBuild GenBuildFacts.
Import ListNotations.
Local Open Scope Z_scope.

(** ** Skeletons: the tree without the attributes that passes write; [skel true] also hides the names of references *)
Definition erase (k : kind) : kind :=
  match k with
  | KStructure _ => KStructure None
  | KField r _ _ => KField r None None
  | KResource rk o _ => KResource rk o None
  | k => k
  end.
Fixpoint skel (b : bool) (t : tree) : tree :=
  match t with Node n k cs => Node (if b && is_ref_kind k then "@" else n) (erase k) (map (skel b) cs) end.

Lemma skel_eq b t : skel b t = Node (if b && is_ref_kind (t_kind t) then "@" else t_name t) (erase (t_kind t)) (map (skel b) (t_children t)).
Proof. now destruct t. Qed.
Lemma erase_ref k : is_ref_kind (erase k) = is_ref_kind k. Proof. now destruct k. Qed.
Lemma skel_children b t : t_children (skel b t) = map (skel b) (t_children t). Proof. now destruct t. Qed.
Lemma skel_kind b t : t_kind (skel b t) = erase (t_kind t). Proof. now destruct t. Qed.

Lemma at_loc_skel b l : forall t, at_loc (skel b t) l = option_map (skel b) (at_loc t l).
Proof.
  induction l as [|i l IH]; intros t; cbn; [reflexivity|]. rewrite skel_children, nth_error_map.
  destruct (nth_error (t_children t) i); cbn; [apply IH|reflexivity].
Qed.
Lemma skel_modify b f l : forall t u, at_loc t l = Some u -> skel b (f u) = skel b u -> skel b (modify t l f) = skel b t.
Proof.
  induction l as [|i l IH]; intros t u H E; cbn in *; [now injection H as ->|]. destruct t as [n k cs]; cbn in *.
  destruct (nth_error cs i) as [c|] eqn:Hc; [|discriminate]. f_equal. eapply upd_map; [exact Hc|]. eapply IH; eauto.
Qed.
Lemma skel_at b t t' l u : skel b t = skel b t' -> at_loc t l = Some u -> exists u', at_loc t' l = Some u' /\ skel b u' = skel b u.
Proof.
  intros E H. pose proof (at_loc_skel b l t) as H1. pose proof (at_loc_skel b l t') as H2. rewrite E, H2, H in H1. cbn in H1.
  destruct (at_loc t' l) as [u'|]; [|discriminate]. exists u'. split; [reflexivity|]. now injection H1.
Qed.
Lemma skel_kind_eq b t t' : skel b t = skel b t' -> erase (t_kind t) = erase (t_kind t').
Proof. intros E. rewrite <- (skel_kind b t), <- (skel_kind b t'). now rewrite E. Qed.
Lemma skel_name t t' : skel false t = skel false t' -> t_name t = t_name t'.
Proof. rewrite (skel_eq false t), (skel_eq false t'). cbn. congruence. Qed.
Lemma skel_weaken t t' : skel false t = skel false t' -> skel true t = skel true t'.
Proof.
  revert t'; induction t as [n k cs IH] using tree_ind'. intros [n' k' cs'] E. cbn in *. injection E as -> Ek Ec.
  assert (R : is_ref_kind k = is_ref_kind k') by (rewrite <- (erase_ref k), <- (erase_ref k'); now rewrite Ek).
  rewrite R, Ek. f_equal. revert cs' Ec. induction IH as [|c cs Hc _ IHc]; intros [|c' cs'] Ec; cbn in *; try discriminate; [reflexivity|].
  injection Ec as E1 E2. f_equal; [now apply Hc|now apply IHc].
Qed.
Lemma skel_locs b t : locs (skel b t) = locs t.
Proof.
  induction t as [n k cs IH] using tree_ind'. cbn [skel]. rewrite !locs_eq. f_equal. generalize 0%nat.
  induction IH as [|c cs Hc _ IHc]; intros i; cbn; [reflexivity|]. now rewrite Hc, IHc.
Qed.
Lemma skel_locs_eq b t t' : skel b t = skel b t' -> locs t = locs t'.
Proof. intros E. rewrite <- (skel_locs b t), <- (skel_locs b t'). now rewrite E. Qed.

Lemma find_keys_skel b : forall t t' keys, good t -> good t' -> (b = true -> Forall (fun k => ~ marked k) keys) ->
  skel b t = skel b t' -> find_keys t keys = find_keys t' keys.
Proof.
  intros t t' keys; revert t t'; induction keys as [|k ks IH]; intros t t' G G' C E; cbn; [reflexivity|].
  assert (P : child_pos (t_children t) k = child_pos (t_children t') k).
  { assert (F : Forall good (t_children t)) by now apply good_children. assert (F' : Forall good (t_children t')) by now apply good_children.
    assert (Ec : map (skel b) (t_children t) = map (skel b) (t_children t')) by (rewrite <- !skel_children; now rewrite E).
    revert Ec F F'. generalize (t_children t) (t_children t'). induction l as [|c cs IHc]; intros [|c' cs'] Ec F F'; cbn in *; try discriminate; [reflexivity|].
    injection Ec as E1 E2. inversion F as [|? ? Gc Fc]; inversion F' as [|? ? Gc' Fc']; subst. rewrite (IHc cs' E2 Fc Fc').
    replace (String.eqb (t_name c) k) with (String.eqb (t_name c') k); [reflexivity|].
    rewrite (skel_eq b c), (skel_eq b c') in E1. injection E1 as En Ek _.
    assert (R : is_ref_kind (t_kind c) = is_ref_kind (t_kind c')) by (rewrite <- (erase_ref (t_kind c)), <- (erase_ref (t_kind c')); now rewrite Ek).
    rewrite R in En. destruct b; cbn in En; [|now rewrite En].
    destruct (is_ref_kind (t_kind c')) eqn:R'; [|now rewrite En].
    specialize (C eq_refl). inversion C as [|? ? Ck _]; subst.
    destruct (good_here _ Gc) as (_ & _ & X). destruct (good_here _ Gc') as (_ & _ & X').
    destruct (t_kind c); try discriminate R. destruct (t_kind c'); try discriminate R'. destruct X as [X _], X' as [X' _].
    destruct (String.eqb_spec (t_name c) k) as [Q|Q]; [exfalso; apply Ck; now rewrite <- Q|].
    destruct (String.eqb_spec (t_name c') k) as [Q'|Q']; [exfalso; apply Ck; now rewrite <- Q'|reflexivity]. }
  rewrite P. destruct (child_pos (t_children t') k) as [i|]; [|reflexivity].
  assert (N : nth_error (map (skel b) (t_children t)) i = nth_error (map (skel b) (t_children t')) i) by (rewrite <- !skel_children; now rewrite E).
  rewrite !nth_error_map in N. destruct (nth_error (t_children t) i) as [c|] eqn:Hc, (nth_error (t_children t') i) as [c'|] eqn:Hc';
    cbn in N; try discriminate; [|reflexivity].
  injection N as N. f_equal. apply IH; [exact (good_child _ _ _ G Hc)|exact (good_child _ _ _ G' Hc')| |exact N]. intros B. specialize (C B). now inversion C.
Qed.
Lemma find_skel b t t' p : rooted t -> rooted t' -> (b = true -> clean p) -> skel b t = skel b t' -> find t p = find t' p.
Proof.
  intros (G & N & _) (G' & N' & _) C E. unfold find. rewrite N, N'. destruct (split_on "." p) as [|k ks] eqn:S; [reflexivity|].
  destruct (String.eqb "" k); [|reflexivity]. apply (find_keys_skel b); auto. intros B. specialize (C B).
  pose proof (split_clean p C) as F. rewrite S in F. inversion F as [|? ? _ F']; subst. rewrite Forall_forall in *.
  intros x Hx. apply clean_not_marked. now apply F'.
Qed.
Lemma names_skel l : forall t t', skel false t = skel false t' -> names_at t l = names_at t' l.
Proof.
  induction l as [|i l IH]; intros t t' E; cbn; [now rewrite (skel_name t t' E)|].
  assert (N : nth_error (map (skel false) (t_children t)) i = nth_error (map (skel false) (t_children t')) i) by (rewrite <- !skel_children; now rewrite E).
  rewrite !nth_error_map in N. destruct (nth_error (t_children t) i) as [c|], (nth_error (t_children t') i) as [c'|]; cbn in N; try discriminate; [|reflexivity].
  injection N as N. now rewrite (IH c c' N), (skel_name t t' E).
Qed.

(** ** Names along a path *)
Lemma not_ref_of_child t i c : good t -> nth_error (t_children t) i = Some c -> is_ref t = false.
Proof.
  intros G H. destruct (good_here _ G) as (_ & _ & X). unfold is_ref. destruct (t_kind t); try reflexivity.
  destruct X as [_ X]. destruct (t_children t); [now destruct i|discriminate].
Qed.
Lemma name_clean t : good t -> is_ref t = false -> clean (t_name t).
Proof.
  intros G R. destruct (good_here _ G) as (_ & _ & X). unfold is_ref in R.
  destruct (t_kind t) as [| | |sz|rg [f|] off| | | | | |]; try discriminate; try exact X; apply X.
Qed.
Lemma names_clean t l u ns : good t -> at_loc t l = Some u -> is_ref u = false -> names_at t l = Some ns -> Forall clean ns.
Proof.
  revert t ns; induction l as [|i l IH]; intros t ns G H R Hn; cbn in *.
  - injection H as ->. injection Hn as <-. constructor; [now apply name_clean|constructor].
  - destruct (nth_error (t_children t) i) as [c|] eqn:Hc; [|discriminate]. destruct (names_at c l) as [ms|] eqn:M; [|discriminate].
    injection Hn as <-. constructor.
    + apply name_clean; [exact G|]. exact (not_ref_of_child _ _ _ G Hc).
    + exact (IH c ms (good_child _ _ _ G Hc) H R M).
Qed.
Lemma dotted_clean ns : Forall clean ns -> clean (dotted ns).
Proof.
  induction 1 as [|n ns Hn Hns IH]; [reflexivity|]. destruct ns as [|m ns]; [exact Hn|]. rewrite dotted_cons by discriminate.
  apply clean_app. split; [exact Hn|]. exact IH.
Qed.
Lemma path_clean t l u p : good t -> at_loc t l = Some u -> is_ref u = false -> path_at t l = Some p -> clean p.
Proof.
  intros G H R Hp. unfold path_at in Hp. destruct (names_at t l) as [ns|] eqn:N; [|discriminate]. injection Hp as <-.
  apply dotted_clean. eapply names_clean; eauto.
Qed.

(** ** Insertion keeps every found location *)
Lemma insert_at_names root l c root' l' ns : insert_at root l c = Ok root' -> names_at root l' = Some ns -> names_at root' l' = Some ns.
Proof.
  intros H N. destruct (insert_at_inv _ _ _ _ H) as (t & Ht & _ & ->). clear H.
  revert root l' ns Ht N; induction l as [|i l IH]; intros root l' ns Ht N; cbn in *.
  - injection Ht as ->. destruct l' as [|j l']; cbn in *; [exact N|].
    destruct (nth_error (t_children t) j) as [x|] eqn:Hx; [|discriminate].
    rewrite nth_error_app1 by (apply nth_error_Some; congruence). now rewrite Hx.
  - destruct root as [n k cs]; cbn in *. destruct (nth_error cs i) as [x|] eqn:Hx; [|discriminate].
    destruct l' as [|j l']; cbn in *; [exact N|]. destruct (PeanoNat.Nat.eq_dec i j) as [->|D].
    + rewrite upd_same, Hx. rewrite Hx in N. cbn. destruct (names_at x l') as [ms|] eqn:M; [|discriminate].
      now rewrite (IH x l' ms Ht M).
    + rewrite upd_other by assumption. exact N.
Qed.
Lemma insert_at_find root l c root' p tl : insert_at root l c = Ok root' -> wf root' -> has_char "." (t_name root') = false ->
  find root p = Some tl -> find root' p = Some tl.
Proof.
  intros H W D F. destruct (find_path root tl p F) as [P _]. apply path_find; [exact W|exact D|].
  unfold path_at in *. destruct (names_at root tl) as [ns|] eqn:N; [|discriminate]. now rewrite (insert_at_names _ _ _ _ _ _ H N).
Qed.

(** ** Builtins *)
Lemma ensure_namespace_old root keys root' l l' u : ensure_namespace root keys = Ok (root', l) -> at_loc root l' = Some u ->
  exists u', at_loc root' l' = Some u' /\ t_name u' = t_name u /\ t_kind u' = t_kind u.
Proof.
  intros H Hu. destruct (ensure_namespace_ok _ _ _ _ H) as [(-> & _)|(_ & first & _ & Hi & _)]; [exists u; auto|].
  eapply insert_at_old; eauto.
Qed.
Lemma parent_at root p i u : at_loc root (p ++ [i]) = Some u -> exists v, at_loc root p = Some v /\ nth_error (t_children v) i = Some u.
Proof.
  rewrite at_loc_app. destruct (at_loc root p) as [v|]; [|discriminate]. cbn. intros H. exists v. split; [reflexivity|].
  destruct (nth_error (t_children v) i); [exact H|discriminate].
Qed.
Lemma prefix_not_ref root l u : good root -> is_ref u = false -> at_loc root l = Some u ->
  exists v, at_loc root (parent_loc l) = Some v /\ is_ref v = false.
Proof.
  intros G R H. destruct l as [|i0 l0].
  - exists u. now split.
  - destruct (loc_snoc (i0 :: l0) ltac:(discriminate)) as (p & i & Hl). rewrite Hl in *. unfold parent_loc. rewrite removelast_snoc.
    destruct (parent_at _ _ _ _ H) as (v & Hv & Hc). exists v. split; [exact Hv|]. eapply not_ref_of_child; [exact (good_at _ _ _ G Hv)|exact Hc].
Qed.

Lemma builtin_good w t : builtin_structure w = Ok t -> good t /\ name_ok (t_name t) = true /\ t_name t = index_type_name w.
Proof.
  unfold builtin_structure. intros H. destruct (create_structure_good _ _ H) as (G & N & O).
  - apply (clean_app "IndexType" (py_str w)). split; [reflexivity|apply py_str_clean].
  - cbn. repeat constructor.
  - auto.
Qed.

Lemma append_builtin_good root l root' : append_builtin root l = Ok root' -> rooted root ->
  rooted root' /\ (forall l' u, at_loc root l' = Some u -> exists u', at_loc root' l' = Some u' /\ t_name u' = t_name u /\ t_kind u' = t_kind u).
Proof.
  unfold append_builtin. intros H G. destruct (at_loc root l) as [[n k cs]|] eqn:Hl; [|discriminate].
  destruct k as [| | | | | | | |rk opt mx| |]; try discriminate. destruct rk as [| |w| | |]; try discriminate.
  assert (R0 : is_ref (Node n (KResource (KMultivector w) opt mx) cs) = false) by reflexivity.
  destruct (prefix_not_ref _ _ _ (proj1 G) R0 Hl) as (v1 & Hv1 & R1).
  destruct (prefix_not_ref _ _ _ (proj1 G) R1 Hv1) as (v2 & Hv2 & R2).
  destruct (names_at root (parent_loc (parent_loc l))) as [[|n0 keys]|] eqn:N; [discriminate| |discriminate].
  pose proof (names_clean _ _ _ _ (proj1 G) Hv2 R2 N) as C. inversion C as [|? ? _ Ck]; subst.
  apply bind_ok in H as ([root1 ns] & He & H).
  assert (Ck' : Forall clean (keys ++ ["_builtin"; "multivector"]%string)).
  { apply Forall_app. split; [exact Ck|]. repeat constructor. }
  destruct (ensure_namespace_good _ _ _ _ He G Ck') as (G1 & F1 & t1 & Ht1 & Rt1).
  apply bind_ok in H as (b & Hb & H). destruct (builtin_good _ _ Hb) as (Gb & Nb & _).
  apply bind_ok in H as (root2 & H2 & H). rewrite Ht1 in H2.
  assert (S2 : rooted root2 /\ forall l' u, at_loc root1 l' = Some u -> exists u', at_loc root2 l' = Some u' /\ t_name u' = t_name u /\ t_kind u' = t_kind u).
  { destruct (find_relative t1 (t_name b)).
    - injection H2 as <-. split; [exact G1|]. intros l' u Hu. exists u. auto.
    - split; [exact (rooted_insert_at _ _ _ _ _ G1 Ht1 Rt1 Gb Nb H2)|]. intros l' u Hu. eapply insert_at_old; eauto. }
  destruct S2 as [G2 O2]. destruct (path_at root2 ns) as [p|]; [|discriminate]. apply bind_ok in H as (r & Hr & H).
  apply make_ref_ok in Hr as (_ & Gr & Nr).
  destruct (ensure_namespace_old _ _ _ _ _ _ He Hl) as (u1 & Hu1 & _ & K1). destruct (O2 _ _ Hu1) as (u2 & Hu2 & _ & K2).
  assert (Ru2 : is_ref u2 = false) by (unfold is_ref; now rewrite K2, K1).
  split; [exact (rooted_insert_at _ _ _ _ _ G2 Hu2 Ru2 Gr Nr H)|].
  intros l' u Hu. destruct (ensure_namespace_old _ _ _ _ _ _ He Hu) as (x1 & Hx1 & E1 & K1').
  destruct (O2 _ _ Hx1) as (x2 & Hx2 & E2 & K2'). destruct (insert_at_old _ _ _ _ _ _ H Hx2) as (x3 & Hx3 & E3 & K3').
  exists x3. split; [exact Hx3|]. split; congruence.
Qed.
Lemma append_builtins_good root root' : append_builtins root = Ok root' -> rooted root -> rooted root'.
Proof.
  unfold append_builtins. intros H G. refine (foldM_inv rooted _ _ _ _ H G _). intros l _ a a' Ga Ha.
  now destruct (append_builtin_good _ _ _ Ha Ga).
Qed.

(** ** Resolution *)
Definition resolved (root : tree) (l : loc) : Prop :=
  exists r t tl u, at_loc root l = Some t /\ t_kind t = KRef r /\ find root (target t) = Some tl
                   /\ at_loc root tl = Some u /\ expected_kind r (t_kind u) = true.
Definition all_resolved (root : tree) : Prop := forall l t, at_loc root l = Some t -> is_ref t = true -> resolved root l.

Lemma expected_erase r k : expected_kind r (erase k) = expected_kind r k. Proof. now destruct r, k. Qed.
Lemma is_ref_eq t : is_ref t = is_ref_kind (t_kind t). Proof. reflexivity. Qed.

Lemma resolve_one_inv root l root' : resolve_one root l = Ok root' -> exists t r root1,
  at_loc root l = Some t /\ t_kind t = KRef r
  /\ ((is_qualified t = true /\ root1 = root /\ exists tl, find root (target t) = Some tl)
      \/ (is_qualified t = false /\ exists s p, resolve_unqualified root l (target t) = Ok s /\ path_at root s = Some p
          /\ set_name root l (referencify p) = Ok root1))
  /\ validate_target root1 l r = Ok root'.
Proof.
  unfold resolve_one. intros H. destruct (at_loc root l) as [t|] eqn:Ht; [|discriminate].
  destruct (t_kind t) as [| | | | | | | | | |r] eqn:K; try discriminate. apply bind_ok in H as (root1 & H1 & H).
  exists t, r, root1. split; [reflexivity|]. split; [exact K|]. split; [|exact H]. destruct (is_qualified t).
  - left. split; [reflexivity|]. destruct (find root (target t)) as [tl|]; [|discriminate]. injection H1 as <-. split; [reflexivity|]. now exists tl.
  - right. split; [reflexivity|]. apply bind_ok in H1 as (s & Hs & H1). destruct (path_at root s) as [p|] eqn:P; [|discriminate].
    exists s, p. auto.
Qed.
Lemma validate_inv root l r root' : validate_target root l r = Ok root' -> root' = root /\ exists t tl u,
  at_loc root l = Some t /\ find root (target t) = Some tl /\ at_loc root tl = Some u /\ expected_kind r (t_kind u) = true.
Proof.
  unfold validate_target, ref_loc. intros H. destruct (at_loc root l) as [t|] eqn:Ht; [|discriminate]. apply bind_ok in H as (tl & Hf & H).
  destruct (find root (target t)) as [tl'|] eqn:F; [|discriminate]. injection Hf as ->.
  destruct (at_loc root tl) as [u|] eqn:U; [|discriminate]. destruct (expected_kind r (t_kind u)) eqn:X; [|discriminate].
  injection H as <-. split; [reflexivity|]. exists t, tl, u. auto.
Qed.

Lemma set_name_ref_at root l v root' t r : at_loc root l = Some t -> t_kind t = KRef r -> good root ->
  set_name root l v = Ok root' ->
  at_loc root' l = Some (Node v (KRef r) (t_children t))
  /\ skel true root' = skel true root
  /\ (forall l' u, l' <> l -> at_loc root l' = Some u -> is_ref u = true -> at_loc root' l' = Some u).
Proof.
  intros Ht K G H. destruct (set_name_inv root l v root' t Ht H) as [[E ->]|(E & -> & _)].
  - split; [rewrite Ht; destruct t; cbn in *; congruence|]. split; [reflexivity|]. auto.
  - split; [rewrite (modify_at _ _ _ _ Ht); now rewrite K|]. split.
    + apply (skel_modify true _ l root t Ht). rewrite (skel_eq true t). cbn. now rewrite K.
    + intros l' u D Hu R. destruct (loc_cases l l') as [[m ->]|[[m [M El]]|[H1 H2]]].
      * exfalso. rewrite at_loc_app, Ht in Hu. destruct m as [|i m]; [now rewrite app_nil_r in D|]. cbn in Hu.
        destruct (nth_error (t_children t) i) eqn:X; [|discriminate].
        pose proof (not_ref_of_child _ _ _ (good_at _ _ _ G Ht) X) as Q. unfold is_ref in Q. rewrite K in Q. discriminate.
      * exfalso. subst l. rewrite at_loc_app, Hu in Ht. destruct m as [|i m]; [congruence|]. cbn in Ht.
        destruct (nth_error (t_children u) i) eqn:X; [|discriminate].
        pose proof (not_ref_of_child _ _ _ (good_at _ _ _ G Hu) X) as Q. congruence.
      * rewrite modify_other by assumption. exact Hu.
Qed.
Lemma set_name_root root l v root' : set_name root l v = Ok root' -> l <> [] -> t_name root' = t_name root /\ t_kind root' = t_kind root.
Proof.
  intros H N. destruct (at_loc root l) as [t|] eqn:Ht; [|unfold set_name in H; rewrite Ht in H; discriminate].
  destruct (set_name_inv root l v root' t Ht H) as [[_ ->]|(_ & -> & _)]; [now split|].
  destruct l; [congruence|]. now destruct root.
Qed.

Lemma resolve_one_good root l root' : resolve_one root l = Ok root' -> rooted root ->
  rooted root' /\ skel true root' = skel true root /\ resolved root' l
  /\ (forall l' u, l' <> l -> at_loc root l' = Some u -> is_ref u = true -> at_loc root' l' = Some u).
Proof.
  intros H G. destruct (resolve_one_inv _ _ _ H) as (t & r & root1 & Ht & K & C & V).
  destruct (validate_inv _ _ _ _ V) as (-> & t1 & tl & u & Ht1 & F & U & X).
  assert (Nl : l <> []).
  { intros ->. cbn in Ht. injection Ht as <-. destruct G as (_ & _ & KR). rewrite KR in K. discriminate. }
  destruct C as [(_ & -> & _)|(_ & s & p & _ & P & S)].
  - split; [exact G|]. split; [reflexivity|]. split; [|auto]. rewrite Ht in Ht1. injection Ht1 as <-. exists r, t, tl, u. auto.
  - destruct (set_name_ref_at _ _ _ _ _ _ Ht K (proj1 G) S) as (A & Sk & O). destruct (set_name_root _ _ _ _ S Nl) as [E1 E2].
    assert (G' : rooted root1).
    { split; [|split].
      - eapply (good_rename_ref root l (referencify p)); [exact (proj1 G)|exact Ht|exact K|apply referencify_ok|eexists; reflexivity|exact S].
      - destruct G as (_ & GN & _). congruence.
      - destruct G as (_ & _ & GK). congruence. }
    split; [exact G'|]. split; [exact Sk|]. split; [|exact O].
    rewrite A in Ht1. injection Ht1 as <-. exists r, (Node (referencify p) (KRef r) (t_children t)), tl, u. auto.
Qed.

(** Resolvedness only depends on the skeleton and the reference itself *)
Lemma resolved_skel root root' l t : rooted root -> rooted root' -> skel true root = skel true root' ->
  at_loc root l = Some t -> at_loc root' l = Some t -> resolved root l -> resolved root' l.
Proof.
  intros G G' S Ht Ht' (r & t0 & tl & u & A & K & F & U & X). rewrite Ht in A. injection A as <-.
  destruct (skel_at true _ _ _ _ S U) as (u' & U' & E). exists r, t, tl, u'. split; [exact Ht'|]. split; [exact K|].
  split; [|split; [exact U'|]].
  - rewrite <- F. symmetry. apply (find_skel true); auto. intros _. apply target_no_at.
  - rewrite <- expected_erase, (skel_kind_eq true _ _ E), expected_erase. exact X.
Qed.
Lemma skel_ref root root' l t : skel true root = skel true root' -> at_loc root l = Some t -> is_ref t = true ->
  exists t', at_loc root' l = Some t' /\ is_ref t' = true.
Proof.
  intros S H R. destruct (skel_at true _ _ _ _ S H) as (t' & H' & E). exists t'. split; [exact H'|].
  rewrite is_ref_eq, <- erase_ref, (skel_kind_eq true _ _ E), erase_ref, <- is_ref_eq. exact R.
Qed.

Lemma resolve_fold ls : forall root root', foldM resolve_one root ls = Ok root' -> NoDup ls -> rooted root ->
  (forall l t, at_loc root l = Some t -> is_ref t = true -> resolved root l \/ In l ls) ->
  rooted root' /\ skel true root' = skel true root /\ all_resolved root'.
Proof.
  induction ls as [|l ls IH]; intros root root' H ND G Hall; cbn in H.
  - injection H as <-. split; [exact G|]. split; [reflexivity|]. intros l t Hl R. destruct (Hall l t Hl R) as [X|[]]. exact X.
  - apply bind_ok in H as (root1 & H1 & H). inversion ND as [|? ? Nl ND']; subst.
    destruct (resolve_one_good _ _ _ H1 G) as (G1 & S1 & R1 & O1).
    destruct (IH root1 root' H ND' G1) as (G' & S' & A').
    + intros l' t Hl R. destruct (loc_eq_dec l' l) as [->|D]; [now left|].
      destruct (skel_ref root1 root l' t S1 Hl R) as (t0 & Ht0 & R0). pose proof (O1 l' t0 D Ht0 R0) as Q. rewrite Hl in Q. injection Q as ->.
      destruct (Hall l' t0 Ht0 R0) as [X|[X|X]]; [left|congruence|now right].
      eapply resolved_skel; [exact G|exact G1|symmetry; exact S1|exact Ht0|exact Hl|exact X].
    + split; [exact G'|]. split; [congruence|exact A'].
Qed.
Lemma resolve_references_good root root' : resolve_references root = Ok root' -> rooted root ->
  rooted root' /\ skel true root' = skel true root /\ all_resolved root'.
Proof.
  intros H G. eapply resolve_fold; [exact H|apply iterate_nodup|exact G|]. intros l t Hl R. right. apply iterate_spec. exists t. now split.
Qed.
