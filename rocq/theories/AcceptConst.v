(** Adding references to unused constants always succeeds, and changes nothing that was there. *)
From Coq Require Import List ZArith Bool String Ascii Lia.
From Verif Require Import PyBase PyText GenTypes GenTypesFacts GenTree GenTreeFacts GenTraversal GenBuild GenBuildFacts GenPassFacts GenAstFacts
  GenAstSpec GenLayoutFacts GenMergeFacts GenResolveFacts GenShapeFacts GenLimitFacts GenFieldFacts GenTidy GenFinal GenAstThms Props_GenTree AcceptSpec AcceptCreate AcceptResolve AcceptIndex AcceptLocal.
Import ListNotations.
Local Open Scope Z_scope.

Lemma insert_at_child_names root m c root' l u : insert_at root m c = Ok root' -> at_loc root l = Some u ->
  exists u', at_loc root' l = Some u' /\ map t_name (t_children u') = (map t_name (t_children u) ++ (if loc_eq_dec l m then [t_name c] else []))%list.
Proof.
  intros H Hl. destruct (insert_at_inv _ _ _ _ H) as (t & Ht & _ & ->). destruct (loc_eq_dec l m) as [->|N].
  - rewrite Hl in Ht. injection Ht as <-. eexists. split; [exact (modify_at _ _ _ _ Hl)|]. cbn. now rewrite map_app.
  - rewrite app_nil_r. destruct (loc_cases m l) as [(x & ->)|[(x & Nx & ->)|(A & B)]].
    + rewrite (modify_below _ _ _ _ _ Ht). destruct x as [|i x]; [rewrite app_nil_r in N; congruence|]. rewrite at_loc_app, Ht in Hl. cbn in *.
      destruct (nth_error (t_children t) i) as [y|] eqn:Hi; [|discriminate]. rewrite nth_error_app1 by (apply nth_error_Some; congruence). rewrite Hi. eauto.
    + rewrite (modify_above _ x root l u Hl). eexists. split; [reflexivity|]. destruct x as [|i x]; [congruence|]. destruct u as [n k cs]. cbn.
      rewrite at_loc_app, Hl in Ht. cbn in Ht. destruct (nth_error cs i) as [y|] eqn:Hi; [|discriminate]. apply (upd_map t_name cs i _ y Hi).
      destruct x as [|j x]; [cbn in *; injection Ht as ->; reflexivity|]. now apply modify_name_kind.
    + rewrite modify_other by assumption. eauto.
Qed.

Definition kid_names (root : tree) (l : loc) : option (list string) := option_map (fun u => map t_name (t_children u)) (at_loc root l).
Lemma add_refs a ps : forall x ns, kid_names x a = Some ns -> NoDup ps -> Forall clean ps -> (forall p, In p ps -> ~ In (referencify p) ns) ->
  exists x', foldM (fun root p => c <- make_ref RConstValue p ;; insert_at root a c) x ps = Ok x' /\ forall b, b <> a -> kid_names x b <> None -> kid_names x' b = kid_names x b.
Proof.
  induction ps as [|p ps IH]; intros x ns Hx Nd Cl Nw; [eexists; split; [reflexivity|auto]|]. inversion Nd as [|? ? Np Nd']; subst. inversion Cl as [|? ? Cp Cl']; subst.
  unfold kid_names in Hx. destruct (at_loc x a) as [u|] eqn:Hu; [|discriminate]. injection Hx as <-.
  assert (Er : make_ref RConstValue p = Ok (Node (referencify p) (KRef RConstValue) [])) by (unfold make_ref, make_node; now rewrite referencify_ok).
  destruct (proj2 (insert_some x a u (Node (referencify p) (KRef RConstValue) []) Hu) (Nw p (or_introl eq_refl))) as (x1 & H1).
  cbn [foldM]. rewrite Er. cbn [bind]. rewrite H1. cbn [bind].
  destruct (insert_at_child_names _ _ _ _ a u H1 Hu) as (u1 & Hu1 & E1). destruct (loc_eq_dec a a) as [_|]; [|congruence].
  destruct (IH x1 (map t_name (t_children u1))) as (x' & Hx' & O').
  - unfold kid_names. now rewrite Hu1.
  - exact Nd'.
  - exact Cl'.
  - intros q Hq. rewrite E1. intros I. apply in_app_or in I as [I|[I|[]]]; [exact (Nw q (or_intror Hq) I)|]. cbn in I. apply referencify_inj in I; [|exact Cp|rewrite Forall_forall in Cl'; exact (Cl' q Hq)].
    subst q. contradiction.
  - exists x'. split; [exact Hx'|]. intros b Nb Hb. assert (E : kid_names x1 b = kid_names x b).
    { unfold kid_names in *. destruct (at_loc x b) as [v|] eqn:Hv; [|now contradiction Hb]. destruct (insert_at_child_names _ _ _ _ b v H1 Hv) as (v' & Hv' & Ev). rewrite Hv'. cbn. f_equal. rewrite Ev.
      destruct (loc_eq_dec b a); [congruence|]. apply app_nil_r. }
    rewrite <- E. apply O'; [exact Nb|]. now rewrite E.
Qed.

Lemma paths_at_nodup root ls : rooted root -> NoDup ls -> NoDup (paths_at root ls).
Proof.
  intros G. induction ls as [|l ls IH]; intros Nd; [constructor|]. inversion Nd as [|? ? Nl Nd']; subst. unfold paths_at. cbn [flat_map]. fold (paths_at root ls).
  destruct (path_at root l) as [p|] eqn:P; [|now apply IH]. cbn. constructor; [|now apply IH]. intros I. unfold paths_at in I. apply in_flat_map in I as (l' & Hl' & I).
  destruct (path_at root l') as [q|] eqn:Q; [|contradiction]. destruct I as [->|[]]. apply path_find in P; [|exact (good_wf _ (proj1 G))|now apply rooted_dot]. apply path_find in Q; [|exact (good_wf _ (proj1 G))|now apply rooted_dot].
  congruence.
Qed.

Theorem constants_total root : rooted root -> local (shape true) root -> exists root', append_constants root = Ok root'.
Proof.
  intros G Sh. unfold append_constants. set (refd := map target _). set (cs := filter _ _).
  assert (Nd : NoDup cs) by (apply NoDup_filter, paths_at_nodup; [exact G|apply iterate_nodup]).
  assert (Cl : Forall clean cs).
  { apply Forall_forall. intros p Hp. unfold cs in Hp. apply filter_In in Hp as [Hp _]. unfold paths_at in Hp. apply in_flat_map in Hp as (l & Hl & Hp).
    destruct (path_at root l) as [q|] eqn:P; [|contradiction]. destruct Hp as [<-|[]]. apply iterate_spec in Hl as (u & Hu & K).
    eapply path_clean; [exact (proj1 G)|exact Hu| |exact P]. unfold is_ref. now destruct (t_kind u). }
  assert (Nw : forall a u p, at_loc root a = Some u -> t_kind u = KArchive -> In p cs -> ~ In (referencify p) (map t_name (t_children u))).
  { intros a u p Ha Ka Hp I. assert (Cp : clean p) by (rewrite Forall_forall in Cl; exact (Cl p Hp)). apply in_map_iff in I as (c & Nc & Hc). apply In_nth_error in Hc as (i & Hi).
    assert (Hci : at_loc root (a ++ [i])%list = Some c) by (rewrite (at_child _ _ _ _ Ha); exact Hi).
    destruct (marked_ref root _ c G Hci) as (q & Kq); [rewrite Nc; eexists; reflexivity|].
    assert (q = RConstValue) as ->.
    { destruct (Sh a u Ha) as (F & _). rewrite Ka in F. rewrite Forall_map, Forall_forall in F. specialize (F c (nth_error_In _ _ Hi)). rewrite Kq in F. destruct q; try contradiction. reflexivity. }
    unfold cs in Hp. apply filter_In in Hp as (_ & Hp). apply negb_true_iff in Hp. apply not_true_iff_false in Hp. apply Hp. apply existsb_exists. exists p. split; [|apply String.eqb_refl].
    unfold refd. apply in_map_iff. exists c. split.
    - unfold target. rewrite Nc. apply dereferencify_referencify. exact Cp.
    - unfold nodes_at. apply in_flat_map. exists (a ++ [i])%list. split; [apply iterate_spec; exists c; split; [exact Hci|now rewrite Kq]|]. rewrite Hci. now left. }
  assert (I0 : forall ls x, NoDup ls -> (forall a, In a ls -> exists u, at_loc root a = Some u /\ t_kind u = KArchive /\ kid_names x a = Some (map t_name (t_children u))) ->
    exists x', foldM (fun root a => foldM (fun root p => c <- make_ref RConstValue p ;; insert_at root a c) root cs) x ls = Ok x').
  { induction ls as [|a ls IH]; intros x Ndl Ha; [eexists; reflexivity|]. inversion Ndl as [|? ? Nal Ndl']; subst. destruct (Ha a (or_introl eq_refl)) as (u & Hu & Ku & Kn).
    destruct (add_refs a cs x _ Kn Nd Cl (fun p Hp => Nw a u p Hu Ku Hp)) as (x1 & H1 & O1). cbn [foldM]. rewrite H1. cbn [bind]. apply IH; [exact Ndl'|].
    intros b Hb. destruct (Ha b (or_intror Hb)) as (v & Hv & Kv & Knv). exists v. split; [exact Hv|]. split; [exact Kv|]. rewrite O1; [exact Knv|intros ->; contradiction|congruence]. }
  apply I0; [apply iterate_nodup|]. intros a Ha. apply iterate_spec in Ha as (u & Hu & K). exists u. split; [exact Hu|]. split; [destruct (t_kind u); try discriminate; reflexivity|]. unfold kid_names. now rewrite Hu.
Qed.
