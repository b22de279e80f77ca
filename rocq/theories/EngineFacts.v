(** The children of the root of a finished tree are the outermost namespaces of its schema. *)
From Coq Require Import List ZArith Bool String Ascii Lia Permutation.
From Verif Require Import PyBase PyText Structure Builder Writer WriterFacts GenTypes GenTypesFacts GenTree GenTreeFacts GraphSpec GenTraversal GenTraversalFacts
  GenBuild GenBuildFacts GenPassFacts GenAstFacts GenAstSpec GenLayoutFacts GenResolveFacts GenMergeFacts GenShapeFacts GenEvery GenTidy GenFieldFacts GenWords GenFlatdata GenOutFacts GenFinal GenRender
  GenPython GenOutSpec GenModule GenClassNames GenUsable EngineSpec GenEngine.
Import ListNotations.
Local Open Scope string_scope.
Local Open Scope list_scope.

(** The same children at the top, by position, name and kind *)
Definition same_top (a b : tree) : Prop :=
  (forall i u, at_loc a [i] = Some u -> exists v, at_loc b [i] = Some v /\ t_name v = t_name u /\ t_kind v = t_kind u)
  /\ (forall i v, at_loc b [i] = Some v -> exists u, at_loc a [i] = Some u /\ t_name u = t_name v /\ t_kind u = t_kind v).
Lemma same_top_refl a : same_top a a. Proof. split; eauto. Qed.
Lemma same_top_trans a b c : same_top a b -> same_top b c -> same_top a c.
Proof.
  intros (A1 & A2) (B1 & B2). split.
  - intros i u H. destruct (A1 i u H) as (v & Hv & N & K). destruct (B1 i v Hv) as (w & Hw & N' & K'). exists w. repeat split; congruence.
  - intros i u H. destruct (B2 i u H) as (v & Hv & N & K). destruct (A2 i v Hv) as (w & Hw & N' & K'). exists w. repeat split; congruence.
Qed.
Lemma insert_top root l c root' : insert_at root l c = Ok root' -> l <> [] -> same_top root root'.
Proof.
  intros H Ne. split.
  - intros i u Hu. exact (insert_at_old _ _ _ _ _ _ H Hu).
  - intros i v Hv. destruct (insert_at_new _ _ _ _ _ _ H Hv) as [(u & Hu & N & K)|(t & m & _ & E & _)]; [exists u; auto|]. exfalso. destruct l as [|x [|y l]]; [congruence|discriminate E|discriminate E].
Qed.
Lemma ensure_top root keys k root' l : ensure_namespace root (keys ++ k) = Ok (root', l) -> keys <> [] -> (exists m, find_keys root keys = Some m) -> same_top root root' /\ l <> [].
Proof.
  intros H Ne (m & Hm). destruct keys as [|x ks]; [congruence|]. assert (Ln : forall t r, find_keys t ((x :: ks) ++ k)%list = Some r -> r <> []).
  { intros t r E. cbn in E. destruct (child_pos (t_children t) x) as [i|]; [|discriminate]. destruct (nth_error (t_children t) i) as [c|]; [|discriminate]. destruct (find_keys c _) as [m'|]; [|discriminate]. cbn in E. congruence. }
  destruct (ensure_namespace_ok _ _ _ _ H) as [(-> & F & _)|(_ & first & _ & Hi & F)].
  - split; [apply same_top_refl|exact (Ln _ _ F)].
  - split; [|exact (Ln _ _ F)]. apply (insert_top _ _ _ _ Hi). cbn in Hm |- *. destruct (child_pos (t_children root) x) as [i|]; [|discriminate]. destruct (nth_error (t_children root) i) as [c|]; [|discriminate]. destruct (find_last c (ks ++ k)%list). discriminate.
Qed.
Lemma append_builtin_top root l root' : append_builtin root l = Ok root' -> rooted root -> local (shape true) root -> same_top root root'.
Proof.
  intros H G S. unfold append_builtin in H. destruct (at_loc root l) as [u|] eqn:Hl; [|discriminate].
  assert (Ku : GenBuild.is_multivector (t_kind u) = true) by (destruct u as [n [] cs]; try discriminate; destruct rk; try discriminate; reflexivity).
  destruct (resource_parents root l u G S Hl Ku) as (p & i & j & v & a & -> & Hv & Kv & Ha & Ka).
  assert (Pp : parent_loc (parent_loc (p ++ [i; j])%list) = p).
  { unfold parent_loc. replace (p ++ [i; j])%list with ((p ++ [i]) ++ [j])%list by (rewrite <- app_assoc; reflexivity). now rewrite !removelast_last. }
  rewrite Pp in H. clear Pp. destruct u as [n k cs]. cbn [t_kind] in Ku. destruct k as [| | | | | | | |rk o m| |]; try discriminate. destruct rk as [| |w| | |]; try discriminate.
  pose proof (good_wf _ (proj1 G)) as W. destruct (names_at root p) as [nsl|] eqn:Np; [|discriminate]. destruct (names_find root p W nsl Np) as (keys & -> & Fk).
  assert (Nk : keys <> []). { intros ->. cbn in Fk. injection Fk as <-. cbn in Hv. injection Hv as <-. destruct G as (_ & _ & K0). congruence. }
  apply bind_ok in H as ([root1 ns1] & H1 & H). apply bind_ok in H as (b & Hb & H). apply bind_ok in H as (root2 & H2 & H).
  destruct (ensure_top _ _ _ _ _ H1 Nk (ex_intro _ p Fk)) as (T1 & N1).
  assert (T2 : same_top root1 root2). { destruct (at_loc root1 ns1) as [t1|]; [|discriminate]. destruct (find_relative t1 (t_name b)); [injection H2 as <-; apply same_top_refl|exact (insert_top _ _ _ _ H2 N1)]. }
  destruct (path_at root2 ns1); [|discriminate]. apply bind_ok in H as (r & _ & H).
  apply (same_top_trans _ _ _ T1). apply (same_top_trans _ _ _ T2). apply (insert_top _ _ _ _ H). now destruct p.
Qed.
Lemma append_builtins_top so s r1 r2 : any_order so -> schema_clean s -> build_node_tree so s = Ok r1 -> append_builtins r1 = Ok r2 -> same_top r1 r2.
Proof.
  intros Hso C H1 H2. pose proof (build_node_tree_good so s r1 Hso C H1) as G1. pose proof (build_node_tree_shaped false so s r1 Hso C H1) as S1.
  unfold append_builtins in H2. assert (Q : rooted r2 /\ local (shape true) r2 /\ same_top r1 r2); [|tauto].
  refine (foldM_inv (fun x => rooted x /\ local (shape true) x /\ same_top r1 x) _ _ _ _ H2 _ _).
  - split; [exact G1|]. split; [exact (shaped_any _ _ S1)|apply same_top_refl].
  - intros l _ x x' (Gx & Sx & Px) Hx. split; [exact (proj1 (append_builtin_good _ _ _ Hx Gx))|]. split; [exact (proj1 (append_builtin_shaped _ _ _ Hx Gx Sx))|]. exact (same_top_trans _ _ _ Px (append_builtin_top _ _ _ Hx Gx Sx)).
Qed.

Lemma keys_outermost p : exists r, ns_keys p = (outermost p :: r)%list.
Proof. unfold outermost, ns_keys. pose proof (split_nonempty "." (pn_name p)) as Q. destruct (split_on "." (pn_name p)) as [|k r]; [congruence|]. now exists r. Qed.

Lemma build_top so s t : any_order so -> schema_clean s -> separated s -> build_node_tree so s = Ok t ->
  (forall i u, at_loc t [i] = Some u -> t_kind u = KNamespace /\ exists p, In p s /\ outermost p = t_name u)
  /\ (forall p, In p s -> exists i u, at_loc t [i] = Some u /\ t_kind u = KNamespace /\ t_name u = outermost p).
Proof.
  intros Hso C S H. pose proof (build_node_tree_good so s t Hso C H) as G. destruct (build_iff so s S t H) as (D & M & _ & (I1 & I2 & I3 & I4)). pose proof (good_wf _ (proj1 G)) as W.
  assert (MD : forall K ds, In (K, ds) D -> exists p, In p s /\ K = ns_keys p).
  { clear - M. unfold made in M. induction M as [|p x s D (E & _) M IH]; intros K ds Hd; [destruct Hd|]. destruct Hd as [->|Hd]; [exists p; split; [now left|exact E]|]. destruct (IH K ds Hd) as (q & Hq & E'). exists q. split; [now right|exact E']. }
  assert (DM : forall p, In p s -> exists ds, In (ns_keys p, ds) D).
  { clear - M. unfold made in M. induction M as [|p x s D (E & _) M IH]; intros q Hq; [destruct Hq|]. destruct Hq as [<-|Hq]; [exists (snd x); left; destruct x; cbn in *; now subst|]. destruct (IH q Hq) as (ds & Hd). exists ds. now right. }
  assert (Top : forall n u, getk t [n] = Some u -> exists i, at_loc t [i] = Some u).
  { intros n u E. cbn in E. destruct (List.find _ _) as [c|] eqn:Ef; [|discriminate]. injection E as <-. apply List.find_some in Ef as (Hin & _). apply In_nth_error in Hin as (i & Hi). exists i. cbn. now rewrite Hi. }
  split.
  - intros i u Hu. destruct (loc_keys t [i] u W Hu) as (ks & Nk & Fk & Gk). assert (Ek : ks = [t_name u]). { cbn in Hu, Nk. destruct (nth_error (t_children t) i) as [c|]; [|discriminate]. injection Hu as ->. cbn in Nk. injection Nk as <-. reflexivity. }
    subst ks. assert (N : ns D [t_name u]).
    { destruct (I4 _ _ Gk) as [E|[N|(K & d & r & (ds & Hd & _) & E)]]; [discriminate E|exact N|]. exfalso. destruct (MD K ds Hd) as (p & _ & ->). destruct (keys_outermost p) as (r' & Er). rewrite Er in E. cbn in E. injection E as _ E. destruct r'; discriminate E. }
    destruct (I3 [t_name u] ltac:(discriminate) N) as (x & Gx & Kx). rewrite Gk in Gx. injection Gx as <-. split; [exact Kx|]. destruct N as (K & ds & m & Hd & ->). destruct (MD _ ds Hd) as (p & Hp & E). exists p. split; [exact Hp|]. unfold outermost. now rewrite <- E.
  - intros p Hp. destruct (DM p Hp) as (ds & Hd). destruct (keys_outermost p) as (r & Er). assert (N : ns D [outermost p]) by (exists (ns_keys p), ds, r; split; [exact Hd|exact Er]).
    destruct (I3 [outermost p] ltac:(discriminate) N) as (x & Gx & Kx). destruct (Top _ _ Gx) as (i & Hi). exists i, x. split; [exact Hi|]. split; [exact Kx|]. cbn in Gx. destruct (List.find _ _) as [c|] eqn:Ef; [|discriminate]. injection Gx as <-. apply List.find_some in Ef as (_ & Ef). now apply String.eqb_eq.
Qed.
Theorem final_top so s root : any_order so -> schema_clean s -> separated s -> build_ast so s = Ok root ->
  (forall i u, at_loc root [i] = Some u -> t_kind u = KNamespace -> exists p, In p s /\ outermost p = t_name u)
  /\ (forall p, In p s -> exists i u, at_loc root [i] = Some u /\ t_kind u = KNamespace /\ t_name u = outermost p).
Proof.
  intros Hso C Sp H. destruct (build_ast_steps _ _ _ H) as (r1 & r2 & r3 & r4 & r5 & r6 & St). pose proof St as (H1 & H2 & _).
  destruct (build_top so s r1 Hso C Sp H1) as (A & B). destruct (append_builtins_top so s r1 r2 Hso C H1 H2) as (T1 & T2). split.
  - intros i u Hu Ku. destruct (old_node so s r1 r2 r3 r4 r5 r6 root Hso C St [i] u Hu) as (v & Hv & Nv & _); [unfold is_ref; now rewrite Ku|].
    destruct (T2 i v Hv) as (w & Hw & Nw & _). destruct (A i w Hw) as (_ & p & Hp & E). exists p. split; [exact Hp|congruence].
  - intros p Hp. destruct (B p Hp) as (i & u & Hu & Ku & Nu). destruct (T1 i u Hu) as (v & Hv & Nv & Kv). destruct (kept so s r1 r2 r3 r4 r5 r6 root Hso C St [i] v Hv) as (w & Hw & Ew & Nw).
    exists i, w. split; [exact Hw|]. split; [apply erase_namespace; rewrite Ew, Kv, Ku; reflexivity|]. rewrite Nw; [congruence|]. unfold is_ref. now rewrite Kv, Ku.
Qed.

Lemma mentions_contains n : mentions_builtin n = true <-> contains "builtin" n.
Proof.
  unfold mentions_builtin. destruct (find_spec "builtin" n) as [(E & N)|(i & E & (a & b & -> & _) & _)]; rewrite E.
  - split; [discriminate|]. intros (a & b & ->). exfalso. apply (N (String.length a)). now exists a, b.
  - split; [intros _; now exists a, b|intros _]. apply Z.leb_le. lia.
Qed.

Section Root.
  Variables (so : list Z -> list Z) (s : pschema) (root : tree).
  Hypothesis (Hso : any_order so) (C : schema_clean s) (Sp : separated s) (H : build_ast so s = Ok root) (F : finished root).

  Lemma user_child u : In u (filter is_user_namespace (t_children root)) <-> exists i, at_loc root [i] = Some u /\ t_kind u = KNamespace /\ ~ contains "builtin" (t_name u).
  Proof.
    rewrite filter_In. unfold is_user_namespace. rewrite andb_true_iff, negb_true_iff. split.
    - intros (Hin & N & M). apply In_nth_error in Hin as (i & Hi). exists i. cbn. rewrite Hi. split; [reflexivity|]. split; [unfold is_namespace in N; destruct (t_kind u); try discriminate; reflexivity|]. rewrite <- mentions_contains. congruence.
    - intros (i & Hu & K & M). cbn in Hu. destruct (nth_error (t_children root) i) as [c|] eqn:Hi; [|discriminate]. injection Hu as ->. split; [exact (nth_error_In _ _ Hi)|]. unfold is_namespace. rewrite K. split; [reflexivity|]. rewrite <- mentions_contains in M. now destruct (mentions_builtin (t_name u)).
  Qed.
  Lemma user_distinct : NoDup (map t_name (filter is_user_namespace (t_children root))).
  Proof.
    pose proof (GenUsable.sibling_names root F [] root eq_refl) as N. induction (t_children root) as [|c cs IH]; [constructor|]. cbn in N. inversion N as [|? ? N1 N2]; subst. cbn [filter]. destruct (is_user_namespace c); [|exact (IH N2)].
    cbn [map]. constructor; [|exact (IH N2)]. intros X. apply N1. apply in_map_iff in X as (x & E & X). apply filter_In in X as (X & _). apply in_map_iff. eauto.
  Qed.
  Lemma root_found n : only_root s n -> exists u, find_root_namespace root = Ok u /\ t_name u = n.
  Proof.
    intros (Nb & (p & Hp & En) & All). destruct (final_top so s root Hso C Sp H) as (A & B). destruct (B p Hp) as (i & u & Hu & Ku & Nu).
    assert (U : In u (filter is_user_namespace (t_children root))) by (apply user_child; exists i; split; [exact Hu|]; split; [exact Ku|congruence]).
    assert (X : forall w, In w (filter is_user_namespace (t_children root)) -> t_name w = n).
    { intros w Hw. apply user_child in Hw as (j & Hj & Kj & Mj). destruct (A j w Hj Kj) as (q & Hq & E). destruct (All q Hq) as [<-|Cq]; [now symmetry|]. rewrite E in Cq. contradiction. }
    pose proof user_distinct as N. unfold find_root_namespace. destruct (filter is_user_namespace (t_children root)) as [|x [|y r]]; [destruct U|exists x; split; [reflexivity|apply X; now left]|]. exfalso.
    cbn in N. inversion N as [|? ? N1 _]; subst. apply N1. left. rewrite (X x), (X y); [reflexivity|right; now left|now left].
  Qed.
  Lemma root_missing : (forall p, In p s -> contains "builtin" (outermost p)) -> find_root_namespace root = Err RuntimeError.
  Proof.
    intros All. destruct (final_top so s root Hso C Sp H) as (A & _). unfold find_root_namespace. destruct (filter is_user_namespace (t_children root)) as [|x r] eqn:E; [reflexivity|]. exfalso.
    assert (U : In x (filter is_user_namespace (t_children root))) by (rewrite E; now left). apply user_child in U as (j & Hj & Kj & Mj). destruct (A j x Hj Kj) as (q & Hq & Eq). apply Mj. rewrite <- Eq. now apply All.
  Qed.
  Lemma root_ambiguous p q : In p s -> In q s -> outermost p <> outermost q -> ~ contains "builtin" (outermost p) -> ~ contains "builtin" (outermost q) -> find_root_namespace root = Err RuntimeError.
  Proof.
    intros Hp Hq Ne Mp Mq. destruct (final_top so s root Hso C Sp H) as (_ & B). destruct (B p Hp) as (i & u & Hu & Ku & Nu). destruct (B q Hq) as (j & v & Hv & Kv & Nv).
    assert (U : In u (filter is_user_namespace (t_children root))) by (apply user_child; exists i; split; [exact Hu|]; split; [exact Ku|congruence]).
    assert (V : In v (filter is_user_namespace (t_children root))) by (apply user_child; exists j; split; [exact Hv|]; split; [exact Kv|congruence]).
    unfold find_root_namespace. destruct (filter is_user_namespace (t_children root)) as [|x [|y r]]; [reflexivity| |reflexivity]. destruct U as [<-|[]], V as [<-|[]]. congruence.
  Qed.
End Root.
