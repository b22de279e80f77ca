(** The schema text of a definition or resource consists of its dependencies' declarations, dependencies first, and its own. *)
From Coq Require Import List ZArith Bool String Ascii Lia Permutation.
From Verif Require Import PyBase PyText GenTypes GenTypesFacts GenTree GenTreeFacts GraphSpec GenTraversal GenTraversalFacts
  GenBuild GenBuildFacts GenPassFacts GenAstFacts GenAstSpec GenAstThms GenLayoutFacts GenResolveFacts GenShapeFacts GenFlatdata GenOutFacts GenFinal GenRender
  GenOutSpec EmbedSpec GenAgree.
Import ListNotations.
Local Open Scope Z_scope.

Lemma mapM_split {A B} (f : A -> res B) l m r : mapM f (l ++ m) = Ok r -> exists a b, mapM f l = Ok a /\ mapM f m = Ok b /\ r = a ++ b.
Proof.
  revert r. induction l as [|x l IH]; intros r H; cbn in *; [exists [], r; auto|]. apply bind_ok in H as (y & Hy & H). apply bind_ok in H as (ys & Hm & H). injection H as <-.
  destruct (IH ys Hm) as (a & b & Ha & Hb & ->). exists (y :: a), b. rewrite Hy. cbn. rewrite Ha. auto.
Qed.
Lemma builtin_in root l : is_builtin root l = true <-> In "_builtin"%string (namespaces root l).
Proof. unfold is_builtin. rewrite existsb_exists. split; [intros (x & H & E); apply String.eqb_eq in E; now subst|intros H; eexists; split; [exact H|apply String.eqb_refl]]. Qed.

Section Mentions.
  Variable root : tree.
  Hypothesis F : finished root.
  Local Notation Bu := (f_built _ F).
  Variables (tgt : loc) (u : tree).
  Hypothesis (Hu : at_loc root tgt = Some u) (Ku : has_schema (t_kind u) = true).

  Lemma Ru : is_ref u = false. Proof. exact (schema_not_ref u Ku). Qed.

  Definition own_part (ls : list line) : Prop :=
    if is_supported (t_kind u) then node_block root tgt = Ok ls
    else exists p i a, tgt = p ++ [i] /\ at_loc root p = Some a /\ t_kind a = KArchive /\ (if is_builtin root p then ls = [] else block root p (Node (t_name a) KArchive [u]) = Ok ls).

  (** the copies of the path, outermost last *)
  Lemma order_shape : exists ds, vorder root tgt = Ok (map (pair false) ds ++ map (pair true) (rev (prefixes tgt)))
    /\ NoDup ds /\ (forall d, In d ds <-> depends root tgt d /\ d <> tgt) /\ dependencies_first (kids root) ds.
  Proof.
    destruct (vorder_spec root tgt u Bu Hu Ru) as (order & Eo & Nd & Hin & Df).
    assert (Ht : In (true, tgt) order) by (apply Hin; exists []; now rewrite app_nil_r).
    (* every copy is followed by the copies above it *)
    assert (Up : forall q p pre post, tgt = p ++ q -> order = pre ++ (true, p) :: post -> exists pre', pre = pre' /\ (forall x, In (false, x) order -> In (false, x) pre) /\ (forall r, r <> [] -> tgt = (p ++ r) -> In (true, tgt) pre)).
    { induction q as [|i q IH]; intros p pre post E Eor.
      - rewrite app_nil_r in E. subst p. exists pre. split; [reflexivity|]. split.
        + intros x Hx. apply Hin in Hx. destruct Hx as (d & W). revert x W. induction d as [|d IHd]; intros x W; apply walk_S_inv in W as (y & W & (cs & Hk & Hi)).
          * apply walk_0_inv in W. subst y. apply (Df pre (true, tgt) post Eor). exists (map (pair false) cs). split; [rewrite vkids_here, Hk; reflexivity|now apply in_map].
          * pose proof (IHd y W) as Hy. apply in_split in Hy as (a & b & ->). rewrite <- app_assoc in Eor. cbn in Eor. apply in_or_app. left. apply (Df a (false, y) _ Eor). exists (map (pair false) cs). split; [rewrite vkids_orig, Hk; reflexivity|now apply in_map].
        + intros r Nr Er. exfalso. apply Nr. apply (app_inv_head tgt). now rewrite app_nil_r.
      - assert (Hc : In (true, p ++ [i]) pre) by (apply (Df pre (true, p) post Eor); exists [(true, p ++ [i])]; split; [exact (vkids_above root tgt p i q E)|now left]).
        apply in_split in Hc as (a & b & Ep). assert (E' : tgt = (p ++ [i]) ++ q) by (now rewrite <- app_assoc). rewrite Ep, <- app_assoc in Eor. cbn in Eor. destruct (IH (p ++ [i]) a _ E' Eor) as (a' & <- & X & Y). exists pre. split; [reflexivity|]. rewrite Ep. split.
        + intros x Hx. apply in_or_app. left. auto.
        + intros r Nr Er. destruct q as [|j q].
          * rewrite app_nil_r in E'. rewrite E'. apply in_or_app. right. left. reflexivity.
          * apply in_or_app. left. apply (Y (j :: q)); [discriminate|exact E']. }
    apply in_split in Ht as (pre & post & Eor). destruct (Up [] tgt pre post ltac:(now rewrite app_nil_r) Eor) as (_ & _ & Fpre & _).
    assert (Ppre : forall n, In n pre -> fst n = false).
    { intros [[] p] Hp; [|reflexivity]. exfalso. assert (Hg : vgood root tgt (true, p)) by (apply Hin; rewrite Eor; apply in_or_app; now left). destruct Hg as (q & E). apply in_split in Hp as (a & b & Ep).
      rewrite Ep, <- app_assoc in Eor. cbn in Eor. rewrite Eor in Nd. destruct q as [|i q].
      - rewrite app_nil_r in E. subst p. apply NoDup_remove_2 in Nd. apply Nd. apply in_or_app. right. apply in_or_app. right. now left.
      - destruct (Up (i :: q) p a _ E Eor) as (_ & _ & _ & Y). specialize (Y (i :: q) ltac:(discriminate) E). apply in_split in Y as (a1 & a2 & ->). rewrite <- app_assoc in Nd. cbn in Nd. apply NoDup_remove_2 in Nd. apply Nd.
        apply in_or_app. right. apply in_or_app. right. right. apply in_or_app. right. now left. }
    assert (Ppost : forall n, In n post -> fst n = true).
    { intros [[] p] Hp; [reflexivity|]. exfalso. assert (Hp' : In (false, p) pre) by (apply Fpre; rewrite Eor; apply in_or_app; right; now right). rewrite Eor in Nd. apply in_split in Hp' as (a & b & ->). rewrite <- app_assoc in Nd. cbn in Nd. apply NoDup_remove_2 in Nd. apply Nd.
      apply in_or_app. right. apply in_or_app. right. now right. }
    exists (map snd pre). assert (Epre : pre = map (pair false) (map snd pre)).
    { clear - Ppre. induction pre as [|[b p] pre IH]; cbn; [reflexivity|]. rewrite <- IH; [|intros; apply Ppre; now right]. f_equal. specialize (Ppre (b, p) (or_introl eq_refl)). cbn in Ppre. now subst. }
    assert (Epost : (true, tgt) :: post = map (pair true) (rev (prefixes tgt))).
    { (* both are the copies, longest first *)
      assert (Down : forall q p a b, tgt = p ++ q -> order = a ++ (true, p) :: b -> (forall n, In n b -> fst n = true) -> (forall r s, p = r ++ s -> s <> [] -> In (true, r) b) -> b = map (pair true) (tl (rev (prefixes p)))).
      { clear - Nd Hin Df Up Hu. intros q p. revert q. induction p as [|i p IH] using rev_ind; intros q a b E Eor Pb All.
        - cbn. destruct b as [|[bb p] b]; [reflexivity|]. exfalso. pose proof (Pb _ (or_introl eq_refl)) as Eb. cbn in Eb. subst bb.
          assert (Hg : vgood root tgt (true, p)) by (apply Hin; rewrite Eor; apply in_or_app; right; right; now left). destruct Hg as (q' & E'). destruct p as [|j p].
          + rewrite Eor in Nd. apply NoDup_remove_2 in Nd. apply Nd. apply in_or_app. right. now left.
          + assert (Hk : GraphSpec.edge (vkids root tgt) (true, []) (true, [j])) by (exists [(true, [j])]; split; [exact (vkids_above root tgt [] j (p ++ q') E')|now left]).
            assert (Chain : forall p2 p1, In (true, p1) a -> tgt = p1 ++ p2 ++ q' -> In (true, p1 ++ p2) a).
            { clear - Eor Df. induction p2 as [|k p2 IH2]; intros p1 H1 E1; [now rewrite app_nil_r|]. replace (p1 ++ k :: p2) with ((p1 ++ [k]) ++ p2) by (now rewrite <- app_assoc). apply IH2; [|now rewrite <- app_assoc]. apply in_split in H1 as (a1 & a2 & ->). rewrite <- app_assoc in Eor. cbn in Eor.
              apply in_or_app. left. apply (Df a1 (true, p1) _ Eor). exists [(true, p1 ++ [k])]. split; [exact (vkids_above root tgt p1 k (p2 ++ q') E1)|now left]. }
            pose proof (Chain p [j] (Df a (true, []) _ Eor _ Hk) E') as Hin'. cbn in Hin'. apply in_split in Hin' as (a1 & a2 & ->). rewrite <- app_assoc in Eor. cbn in Eor. rewrite Eor in Nd. apply NoDup_remove_2 in Nd. apply Nd. apply in_or_app. right. apply in_or_app. right. right. now left.
        - assert (Pr : rev (prefixes (p ++ [i])) = (p ++ [i]) :: rev (prefixes p)).
          { clear. assert (X : prefixes (p ++ [i]) = prefixes p ++ [p ++ [i]]); [|now rewrite X, rev_app_distr]. induction p as [|j p IH]; cbn; [reflexivity|]. now rewrite IH, map_app. }
          rewrite Pr. cbn [tl]. pose proof (All p [i] eq_refl ltac:(discriminate)) as Hp. apply in_split in Hp as (b1 & b2 & Eb).
          assert (E1 : tgt = p ++ i :: q) by (now rewrite <- app_assoc in E).
          destruct b1 as [|n b1].
          + cbn in Eb. subst b. assert (Eb2 : b2 = map (pair true) (tl (rev (prefixes p)))).
            { apply (IH (i :: q) (a ++ [(true, p ++ [i])]) b2 E1); [now rewrite <- app_assoc|intros n Hn; apply Pb; now right|]. intros r s Er Ns. assert (Hr : In (true, r) ((true, p) :: b2)) by (apply (All r (s ++ [i])); [now rewrite Er, app_assoc|now destruct s]).
              destruct Hr as [Hr|Hr]; [|exact Hr]. exfalso. injection Hr as ->. apply Ns. apply (app_inv_head r). now rewrite app_nil_r. }
            rewrite Eb2. assert (Hn : exists x r, rev (prefixes p) = x :: r /\ x = p).
            { clear. destruct p as [|j p _] using rev_ind; [cbn; eauto|]. assert (X : prefixes (p ++ [j]) = prefixes p ++ [p ++ [j]]) by (induction p as [|k p IH]; cbn; [reflexivity|]; now rewrite IH, map_app). rewrite X, rev_app_distr. cbn. eauto. }
            destruct Hn as (x & r & -> & ->). reflexivity.
          + (* something between: a copy further up would come before the copy at p *)
            exfalso. pose proof (Pb n ltac:(rewrite Eb; now left)) as Fn. destruct n as [bb r]. cbn in Fn. subst bb.
            assert (Hg : vgood root tgt (true, r)) by (apply Hin; rewrite Eor, Eb; apply in_or_app; right; right; now left). destruct Hg as (s & Es).
            (* r is a prefix of tgt; compare with p *)
            assert (Cmp : (exists w, p = r ++ w) \/ (exists w, w <> [] /\ r = p ++ w)).
            { clear - E1 Es. rewrite E1 in Es. clear E1. revert r s Es. induction p as [|k p IH]; intros r s Es; cbn in *; [destruct r; [left; exists []; reflexivity|right; eexists; split; [|reflexivity]; discriminate]|].
              destruct r as [|k' r]; [left; eexists; reflexivity|]. injection Es as <- Es. destruct (IH r s Es) as [(w & ->)|(w & Nw & ->)]; [left; exists w; reflexivity|right; exists w; split; [exact Nw|reflexivity]]. }
            assert (Chain : forall w r0 a1 b1, order = a1 ++ (true, r0) :: b1 -> (exists q0, tgt = r0 ++ w ++ q0) -> w <> [] -> In (true, r0 ++ w) a1).
            { clear - Df. induction w as [|k w IHw]; intros r0 a1 b1 Eo (q0 & E0) Nw; [congruence|]. assert (Hk : In (true, r0 ++ [k]) a1) by (apply (Df a1 (true, r0) b1 Eo); exists [(true, r0 ++ [k])]; split; [exact (vkids_above root tgt r0 k (w ++ q0) E0)|now left]).
              destruct w as [|k' w]; [exact Hk|]. apply in_split in Hk as (c1 & c2 & ->). rewrite <- app_assoc in Eo. cbn in Eo. replace (r0 ++ k :: k' :: w) with ((r0 ++ [k]) ++ k' :: w) by (now rewrite <- app_assoc). apply in_or_app. left. apply (IHw (r0 ++ [k]) c1 _ Eo); [exists q0; now rewrite <- app_assoc|discriminate]. }
            assert (Er : order = (a ++ [(true, p ++ [i])]) ++ (true, r) :: b1 ++ (true, p) :: b2) by (now rewrite Eor, Eb, <- app_assoc). destruct Cmp as [(w & Ew)|(w & Nw & ->)].
            * destruct w as [|k w].
              -- rewrite app_nil_r in Ew. subst r. rewrite Er in Nd. apply NoDup_remove_2 in Nd. apply Nd. apply in_or_app. right. apply in_or_app. right. now left.
              -- assert (X : In (true, r ++ k :: w) (a ++ [(true, p ++ [i])])) by (apply (Chain (k :: w) r _ _ Er); [exists (i :: q); rewrite E1, Ew; now rewrite <- app_assoc|discriminate]). rewrite <- Ew in X.
                 rewrite Er in Nd. apply in_split in X as (c1 & c2 & Ec). rewrite Ec, <- app_assoc in Nd. cbn in Nd. apply NoDup_remove_2 in Nd. apply Nd. apply in_or_app. right. apply in_or_app. right. right. apply in_or_app. right. now left.
            * assert (X : In (true, p ++ [i]) (a ++ (true, p ++ [i]) :: [])) by (apply in_or_app; right; now left).
              (* r = p ++ w with w starting with i: r is the copy at p ++ [i] or below it, hence before *)
              assert (Ew : exists w', w = i :: w') by (rewrite E1, <- app_assoc in Es; apply app_inv_head in Es; destruct w as [|k w]; [congruence|]; injection Es as <- _; eauto). destruct Ew as (w' & ->). destruct w' as [|k w'].
              -- rewrite Er in Nd. apply NoDup_remove_2 in Nd. apply Nd. apply in_or_app. now left.
              -- assert (Y : In (true, (p ++ [i]) ++ k :: w') a) by (apply (Chain (k :: w') (p ++ [i]) _ _ Eor); [exists s; rewrite Es; now rewrite <- !app_assoc|discriminate]). rewrite <- app_assoc in Y. cbn in Y.
                 rewrite Er in Nd. apply in_split in Y as (c1 & c2 & ->). rewrite <- !app_assoc in Nd. cbn in Nd. apply NoDup_remove_2 in Nd. apply Nd. apply in_or_app. right. apply in_or_app. right. right. now left. }
      rewrite (Down [] tgt pre post ltac:(now rewrite app_nil_r) Eor Ppost).
      - destruct (rev (prefixes tgt)) as [|x r] eqn:Er; [apply (f_equal (@List.length loc)) in Er; rewrite rev_length in Er; destruct tgt; discriminate|]. cbn. f_equal. f_equal.
        clear - Er. destruct tgt as [|j p _] using rev_ind; [cbn in Er; congruence|]. assert (X : prefixes (p ++ [j]) = prefixes p ++ [p ++ [j]]) by (clear; induction p as [|k p IH]; cbn; [reflexivity|]; now rewrite IH, map_app). rewrite X, rev_app_distr in Er. cbn in Er. congruence.
      - intros r s Es Ns. assert (Hr : In (true, r) order) by (apply Hin; exists s; exact Es). rewrite Eor in Hr. apply in_app_or in Hr as [Hr|[Hr|Hr]]; [apply Ppre in Hr; discriminate| |exact Hr]. exfalso. injection Hr as <-. apply Ns. apply (app_inv_head tgt). now rewrite app_nil_r. }
    split; [rewrite Eo, Eor; do 2 f_equal; [exact Epre|exact Epost]|].
    assert (Nm : NoDup (map snd pre)) by (rewrite Eor, Epre in Nd; apply NoDup_app_iff in Nd as (Nd & _); exact (NoDup_map_inv _ _ Nd)).
    split; [exact Nm|]. split.
    - intros d. assert (Hm : In d (map snd pre) <-> In (false, d) order).
      { split; [intros Hd; rewrite Eor, Epre; apply in_or_app; left; now apply in_map|]. intros Hd. apply Fpre in Hd. exact (in_map snd _ _ Hd). }
      rewrite Hm, Hin. cbn. rewrite (depends_reach root F tgt u Hu d). split.
      + intros (k & W). split; [now exists (S k)|]. intros ->. apply (b_acyclic _ Bu tgt); [exact (tgt_reach root tgt u Bu Hu Ru)|now exists k].
      + intros ((k & W) & N). destruct k; [apply walk_0_inv in W; congruence|eauto].
    - intros before n after E c (cs & Hk & Hc). assert (Eb : exists a b, pre = a ++ (false, n) :: b /\ before = map snd a).
      { rewrite Epre, E. rewrite map_app. cbn. eexists. eexists. split; [reflexivity|]. rewrite map_map. symmetry. apply map_id. }
      destruct Eb as (a & b & Ea & ->). rewrite Ea, <- app_assoc in Eor. cbn in Eor. assert (X : In (false, c) a) by (apply (Df a (false, n) _ Eor); exists (map (pair false) cs); split; [rewrite vkids_orig, Hk; reflexivity|now apply in_map]). exact (in_map snd _ _ X).
  Qed.
  Lemma view_block d : vblock root tgt (false, d) = node_block root d.
  Proof. unfold vblock, node_block, view. cbn. now destruct (at_loc root d). Qed.
  Lemma node_block_declared d ls : node_block root d = Ok ls -> (declared root d /\ exists t, at_loc root d = Some t /\ block root d t = Ok ls) \/ (~ declared root d /\ ls = []).
  Proof.
    unfold node_block, declared. destruct (at_loc root d) as [t|] eqn:Ht; [|discriminate]. destruct (is_supported (t_kind t)) eqn:S; cbn.
    - destruct (is_builtin root d) eqn:B; cbn; intros E.
      + right. split; [|now injection E as <-]. intros (t' & _ & _ & N). now apply N, builtin_in.
      + left. split; [exists t; split; [reflexivity|]; split; [exact S|]; intros X; apply builtin_in in X; congruence|eauto].
    - intros E. right. split; [|now injection E as <-]. intros (t' & Et & S' & _). congruence.
  Qed.
  Lemma prefixes_snoc p i : prefixes (p ++ [i]) = prefixes p ++ [p ++ [i]].
  Proof. induction p as [|j p IH]; cbn; [reflexivity|]. now rewrite IH, map_app. Qed.
  Lemma prefix_in l : forall p, In p (prefixes l) -> exists q, l = p ++ q.
  Proof.
    induction l as [|i l IH]; intros p; cbn; [intros [<-|[]]; exists []; reflexivity|]. intros [<-|H]; [exists (i :: l); reflexivity|]. apply in_map_iff in H as (q & <- & H). destruct (IH q H) as (r & ->). now exists r.
  Qed.
  Lemma copies_above p r bs : (forall x, In x (prefixes p) -> exists j q, tgt = x ++ j :: q /\ (q <> [] \/ is_supported (t_kind u) = true)) -> mapM (vblock root tgt) (map (pair true) r) = Ok bs -> (forall x, In x r -> In x (prefixes p)) -> List.concat bs = [].
  Proof.
    intros Hp. revert bs. induction r as [|x r IH]; intros bs H Hr; cbn in H; [now injection H as <-|]. apply bind_ok in H as (b & Hb & H). apply bind_ok in H as (bs' & Hbs & H). injection H as <-. cbn. rewrite (IH bs' Hbs); [|intros; apply Hr; now right]. rewrite app_nil_r.
    destruct (Hp x (Hr x (or_introl eq_refl))) as (j & q & E & O). unfold vblock, view in Hb. cbn [fst snd] in Hb. destruct (at_loc root x) as [t|] eqn:Ht; [|discriminate].
    pose proof Hu as Hu'. rewrite E in Hu'. destruct (above_schema root F x j q u t Hu' Ku Ht) as [(_ & Eq & rk & o & m & Kr)|(Sn & _)].
    - exfalso. destruct O as [O|O]; [auto|]. rewrite Kr in O. discriminate.
    - rewrite E in Hb. rewrite nth_error_app2, PeanoNat.Nat.sub_diag in Hb by lia. cbn [nth_error] in Hb. destruct (nth_error (t_children t) j); [|discriminate]. cbn [t_kind] in Hb. rewrite Sn in Hb. cbn in Hb. now injection Hb as <-.
  Qed.

  Theorem schema_parts : exists ds bs own, schema_lines root tgt = Ok (List.concat bs ++ own) /\ NoDup ds
    /\ (forall d, In d ds <-> depends root tgt d /\ d <> tgt /\ declared root d)
    /\ Forall2 (fun d b => exists t, at_loc root d = Some t /\ block root d t = Ok b) ds bs
    /\ (forall before d after, ds = before ++ d :: after -> forall e, depends root d e -> e <> d -> declared root e -> In e before)
    /\ own_part own.
  Proof.
    destruct order_shape as (ds & Eo & Nd & Hin & Df). unfold schema_lines. rewrite Eo. cbn [bind].
    assert (Nf : is_field (t_kind u) = false) by (destruct (t_kind u); try discriminate; reflexivity).
    assert (T : exists bs, mapM (vblock root tgt) (map (pair false) ds ++ map (pair true) (rev (prefixes tgt))) = Ok bs).
    { destruct (vorder_spec root tgt u Bu Hu Ru) as (order & Eo' & _ & Hg & _). rewrite Eo in Eo'. injection Eo' as Eo'. rewrite Eo'. apply mapM_total. intros n Hn. apply (vblock_total root F tgt u Hu Ru Nf). now apply Hg. }
    destruct T as (all & T). rewrite T. cbn [bind]. destruct (mapM_split _ _ _ _ T) as (bs & cs & T1 & T2 & ->). rewrite concat_app.
    rewrite mapM_map in T1. rewrite (mapM_ext _ (node_block root) _ (fun d _ => view_block d)) in T1. apply mapM_ok in T1.
    assert (Own : own_part (List.concat cs)).
    { unfold own_part. destruct (is_supported (t_kind u)) eqn:Su.
      - destruct tgt as [|i p _] eqn:Et using rev_ind; [exfalso; cbn in Hu; injection Hu as <-; destruct (b_rooted _ Bu) as (_ & _ & K0); rewrite K0 in Su; discriminate|]. rewrite <- Et in *.
        rewrite Et, prefixes_snoc, rev_app_distr in T2. cbn in T2. rewrite <- Et in T2. apply bind_ok in T2 as (b & Hb & T2). apply bind_ok in T2 as (cs' & Hcs & T2). injection T2 as <-. cbn. rewrite (copies_above p (rev (prefixes p)) cs').
        + rewrite app_nil_r. unfold vblock, view in Hb. cbn [fst snd] in Hb. unfold node_block. rewrite Hu in *. rewrite (proj2 (nth_error_None _ _) (PeanoNat.Nat.le_refl _)) in Hb. exact Hb.
        + intros x Hx. apply prefix_in in Hx as (q & ->). rewrite Et. destruct q as [|j q]; [rewrite app_nil_r; exists i, []; split; [reflexivity|now right]|exists j, (q ++ [i]); split; [now rewrite <- app_assoc|now right]].
        + exact Hcs.
        + intros x Hx. now apply in_rev.
      - assert (Kr : exists rk o m, t_kind u = KResource rk o m) by (destruct (t_kind u); try discriminate; eauto). destruct Kr as (rk & o & m & Kr).
        destruct tgt as [|i p _] eqn:Et using rev_ind; [exfalso; cbn in Hu; injection Hu as <-; destruct (b_rooted _ Bu) as (_ & _ & K0); rewrite K0 in Kr; discriminate|]. rewrite <- Et in *.
        pose proof Hu as Hu'. rewrite Et in Hu'. destruct (parent_at _ _ _ _ Hu') as (a & Ha & Hi). destruct (above_schema root F p i [] u a Hu' Ku Ha) as [(Ka & _)|(_ & [O|O])]; [|congruence|rewrite Su in O; discriminate].
        exists p, i, a. split; [exact Et|]. split; [exact Ha|]. split; [exact Ka|].
        rewrite Et, prefixes_snoc, rev_app_distr in T2. cbn in T2. rewrite <- Et in T2. apply bind_ok in T2 as (b & Hb & T2). apply bind_ok in T2 as (cs' & Hcs & T2). injection T2 as <-. cbn.
        assert (Eb : b = []). { unfold vblock, view in Hb. cbn [fst snd] in Hb. rewrite Hu in Hb. rewrite (proj2 (nth_error_None _ _) (PeanoNat.Nat.le_refl _)), Su in Hb. now injection Hb as <-. } subst b. cbn [app].
        destruct p as [|k p0 _] eqn:Ep using rev_ind; [exfalso; cbn in Ha; injection Ha as <-; destruct (b_rooted _ Bu) as (_ & _ & K0); rewrite K0 in Ka; discriminate|]. rewrite <- Ep in *.
        rewrite Ep, prefixes_snoc, rev_app_distr in Hcs. cbn in Hcs. rewrite <- Ep in Hcs. apply bind_ok in Hcs as (b & Hb' & Hcs). apply bind_ok in Hcs as (cs'' & Hcs & E). injection E as <-. cbn. rewrite (copies_above p0 (rev (prefixes p0)) cs'').
        + rewrite app_nil_r. unfold vblock, view in Hb'. cbn [fst snd] in Hb'. rewrite Ha in Hb'. rewrite Et in Hb' at 1. rewrite nth_error_app2, PeanoNat.Nat.sub_diag in Hb' by lia. cbn [nth_error] in Hb'. rewrite Hi in Hb'. cbn [t_kind t_name] in Hb'. rewrite Ka in Hb'. cbn in Hb'.
          destruct (is_builtin root p); cbn in Hb'; [now injection Hb' as <-|exact Hb'].
        + intros x Hx. apply prefix_in in Hx as (q & ->). rewrite Et, Ep. destruct q as [|j q]; [rewrite app_nil_r; exists k, [i]; split; [now rewrite <- app_assoc|left; discriminate]|exists j, (q ++ [k; i]); split; [now rewrite <- !app_assoc|left; now destruct q]].
        + exact Hcs.
        + intros x Hx. now apply in_rev. }
    (* only declarations are written *)
    assert (X : exists es ces, List.concat bs = List.concat ces /\ NoDup es /\ (forall d, In d es <-> In d ds /\ declared root d) /\ Forall2 (fun d b => exists t, at_loc root d = Some t /\ block root d t = Ok b) es ces
      /\ (forall before d after, es = before ++ d :: after -> exists b' a', ds = b' ++ d :: a' /\ forall e, In e b' -> declared root e -> In e before)).
    { clear - T1 Nd Ku Hu F. induction T1 as [|d b ds bs Hd T1 IH]; [exists [], []; split; [reflexivity|]; split; [constructor|]; split; [intros; cbn; tauto|]; split; [constructor|]; intros [|? ?]; discriminate|].
      apply NoDup_cons_iff in Nd as (Nn & Nd). destruct (IH Nd) as (es & ces & E1 & E2 & E3 & E4 & E5). apply node_block_declared in Hd as [(D & t & Ht & Hb)|(D & ->)].
      - exists (d :: es), (b :: ces). split; [cbn; now rewrite E1|]. split; [constructor; [rewrite E3; tauto|exact E2]|]. split; [intros x; cbn; rewrite E3; intuition (subst; auto)|]. split; [constructor; [eauto|exact E4]|].
        intros before x after E. destruct before as [|y before]; cbn in E; injection E as <- E.
        + exists [], ds. split; [reflexivity|intros e []].
        + destruct (E5 before x after E) as (b' & a' & -> & Y). exists (d :: b'), a'. split; [reflexivity|]. intros e [<-|He] De; [now left|right; auto].
      - exists es, ces. split; [cbn; exact E1|]. split; [exact E2|]. split; [intros x; cbn; rewrite E3; intuition (subst; tauto)|]. split; [exact E4|].
        intros before x after E. destruct (E5 before x after E) as (b' & a' & -> & Y). exists (d :: b'), a'. split; [reflexivity|]. intros e [<-|He] De; [contradiction|auto]. }
    destruct X as (es & ces & E1 & E2 & E3 & E4 & E5). exists es, ces, (List.concat cs). rewrite E1. split; [reflexivity|]. split; [exact E2|]. split; [intros d; rewrite E3, Hin; tauto|]. split; [exact E4|]. split; [|exact Own].
    intros before d after E e De Ne Dd. destruct (E5 before d after E) as (b' & a' & Eds & Y). apply Y; [|exact Dd].
    assert (Hd : In d ds) by (rewrite Eds; apply in_or_app; right; now left). assert (Hdt : exists t, at_loc root d = Some t).
    { apply Hin in Hd as (Hd & _). apply (depends_reach root F tgt u Hu) in Hd as (k & W). destruct (reach_node root d (b_resolved _ Bu) (below_reach root tgt u Bu Hu Ru _ _ W)) as (t & Ht). eauto. }
    destruct Hdt as (t & Ht). apply (depends_reach root F d t Ht) in De as (k & W). destruct k as [|k]; [apply walk_0_inv in W; congruence|]. clear Ne Dd. revert e W. induction k as [|k IHk]; intros e W; apply walk_S_inv in W as (y & W & Ed).
    - apply walk_0_inv in W. subst y. exact (Df b' d a' Eds e Ed).
    - pose proof (IHk y W) as Hy. apply in_split in Hy as (c1 & c2 & ->). rewrite <- app_assoc in Eds. cbn in Eds. apply in_or_app. left. exact (Df c1 y _ Eds e Ed).
  Qed.

  (** a declaration's lines contain its heading *)
  Lemma block_heading d t ls : block root d t = Ok ls -> is_supported (t_kind t) = true -> In (heading t) ls.
  Proof.
    intros H K. unfold block in H. apply bind_ok in H as (dl & Hd & H). injection H as <-. apply in_or_app. right. apply in_or_app. left. unfold declaration in Hd. unfold heading. destruct (t_kind t); try discriminate.
    - injection Hd as <-. now left.
    - unfold structure_lines in Hd. apply bind_ok in Hd as (fs & _ & Hd). injection Hd as <-. now left.
    - injection Hd as <-. now left.
    - unfold archive_lines in Hd. apply bind_ok in Hd as (xs & _ & Hd). apply bind_ok in Hd as (rs & _ & Hd). injection Hd as <-. apply in_or_app. right. now left.
  Qed.
End Mentions.
