(** Name resolution, constants and size limits. *)
From Coq Require Import List ZArith Bool String Ascii Lia Permutation.
From Verif Require Import PyBase PyText Spec GenTypes GenTypesFacts GenTree GenTreeFacts GenTraversal
  GenBuild GenBuildFacts GenPassFacts GenAstFacts GenAstSpec.
Import ListNotations.
Local Open Scope Z_scope.

(** ** Lookup *)
Lemma str_app_inj_l (a b c : string) : (a ++ b = a ++ c)%string -> b = c.
Proof. induction a as [|x a IH]; cbn; [auto|]. intros H. injection H as H. now apply IH. Qed.
Lemma dotted_app a b : a <> [] -> b <> [] -> dotted (a ++ b) = (dotted a ++ String "." (dotted b))%string.
Proof.
  induction a as [|x a IH]; [congruence|]. intros _ Hb. destruct a as [|y a].
  - cbn [app]. now rewrite dotted_cons.
  - change ((x :: y :: a) ++ b) with (x :: ((y :: a) ++ b)). rewrite (dotted_cons x ((y :: a) ++ b)) by (now destruct b).
    rewrite (dotted_cons x (y :: a)) by discriminate. rewrite IH by (assumption || discriminate). now rewrite str_app_assoc.
Qed.

Lemma lookup_declared root tgt n d : wf root -> has_char "." (t_name root) = false ->
  (lookup_in root tgt n = Some d <-> declared root n tgt d).
Proof.
  intros W D. unfold lookup_in, declared. destruct (at_loc root n) as [s|] eqn:Hn.
  - assert (exists ns, names_at root n = Some ns) as (ns & N) by (apply names_at_some; now exists s).
    assert (Ds : has_char "." (t_name s) = false).
    { destruct (names_at_last root n s Hn) as (ms & Hm). rewrite N in Hm. injection Hm as ->.
      pose proof (names_dot_free root n _ W D N) as F. apply Forall_app in F as [_ F]. now inversion F. }
    rewrite (find_relative_split s tgt Ds). unfold path_at. rewrite N. cbn [option_map]. fold (dotted ns). split.
    + destruct (find_keys s (split_on "." tgt)) as [rel|] eqn:F; [|discriminate]. cbn. intros E. injection E as <-.
      destruct (find_keys_loc _ _ _ F) as (M & _). exists (dotted ns). split; [reflexivity|].
      rewrite (names_at_app n root rel s Hn ns _ N M). cbn [tl option_map]. f_equal. fold (dotted (ns ++ split_on "." tgt)).
      rewrite dotted_app; [|eapply names_nonempty; eauto|apply split_nonempty]. now rewrite dotted_split.
    + intros (p & E & H). injection E as <-.
      assert (X : exists ms, names_at root d = Some ms) by (destruct (names_at root d); [eauto|discriminate]). destruct X as (ms & M).
      rewrite M in H. cbn in H. injection H as H. fold (dotted ms) in H.
      change ("." ++ tgt)%string with (String "." tgt) in H. rewrite <- (dotted_split tgt) in H.
      rewrite <- dotted_app in H; [|eapply names_nonempty; eauto|apply split_nonempty].
      apply dotted_inj in H; [|eapply names_nonempty; eauto|intros Q; apply app_eq_nil in Q as [Q _]; exact (names_nonempty _ _ _ N Q)|eapply names_dot_free; eauto|
                               apply Forall_app; split; [eapply names_dot_free; eauto|apply split_dot_free]].
      subst ms. destruct (names_find root d W _ M) as (ks & E & Fk). destruct (names_find root n W _ N) as (kn & En & Fn).
      rewrite En in E. cbn in E. injection E as <-.
      assert (App : forall a t lt b, find_keys t a = Some lt -> forall u, at_loc t lt = Some u ->
                find_keys t (a ++ b) = option_map (fun r => lt ++ r) (find_keys u b)).
      { clear. induction a as [|k a IH]; intros t lt b H u Hu; cbn in *.
        - injection H as <-. cbn in Hu. injection Hu as <-. now destruct (find_keys t b).
        - destruct (child_pos (t_children t) k) as [i|]; [|discriminate]. destruct (nth_error (t_children t) i) as [c|] eqn:Hc; [|discriminate].
          destruct (find_keys c a) as [m|] eqn:F; [|discriminate]. injection H as <-. cbn in Hu. rewrite Hc in Hu.
          rewrite (IH c m b F u Hu). now destruct (find_keys u b). }
      rewrite (App kn root n _ Fn s Hn) in Fk. destruct (find_keys s (split_on "." tgt)) as [rel|]; [|discriminate]. cbn in *. exact Fk.
  - split; [discriminate|]. intros (p & E & _). exfalso. unfold path_at in E. destruct (names_at root n) as [ns|] eqn:N; [|discriminate].
    destruct (proj2 (names_at_some root n) (ex_intro _ ns N)) as (u & Hu). congruence.
Qed.

(** ** The scopes that are searched, innermost first *)
Fixpoint all_scopes (root : tree) (rl : list nat) : list loc :=
  match rl with
  | [] => []
  | _ :: up => match at_loc root (rev up) with
               | Some t => if is_namespace t then [rev up] else rev up :: all_scopes root up
               | None => []
               end
  end.
Definition no_namespace (root : tree) (l : loc) : Prop := forall t, at_loc root l = Some t -> is_namespace t = false.

Lemma is_namespace_kind t : is_namespace t = true <-> t_kind t = KNamespace.
Proof. unfold is_namespace. destruct (t_kind t); split; congruence. Qed.

Lemma first_some_app {A B} (f : A -> option B) l1 l2 : first_some f (l1 ++ l2) = match first_some f l1 with Some y => Some y | None => first_some f l2 end.
Proof. induction l1 as [|x l1 IH]; cbn; [reflexivity|]. now destruct (f x). Qed.
Lemma prefix_at root l1 l2 u : at_loc root (l1 ++ l2) = Some u -> exists v, at_loc root l1 = Some v.
Proof. rewrite at_loc_app. destruct (at_loc root l1); [eauto|discriminate]. Qed.

Lemma scopes_all root rl u : at_loc root (rev rl) = Some u -> is_namespace u = false ->
  all_scopes root rl = scopes root rl ++ match first_namespace root rl with Some n => [n] | None => [] end.
Proof.
  revert u; induction rl as [|i up IH]; intros u Hu Nu.
  - cbn in *. injection Hu as ->. now rewrite Nu.
  - assert (E : first_namespace root (i :: up) = first_namespace root up) by (cbn [first_namespace]; rewrite Hu, Nu; reflexivity).
    rewrite E. clear E. cbn [all_scopes scopes]. cbn in Hu. destruct (prefix_at _ _ _ _ Hu) as (v & Hv). rewrite Hv. destruct (is_namespace v) eqn:Nv.
    + destruct up as [|j up]; cbn [first_namespace rev app] in *; rewrite Hv, Nv; reflexivity.
    + cbn [app]. f_equal. now apply (IH v).
Qed.
Lemma resolve_scopes root l tgt p i u : l = p ++ [i] -> at_loc root p = Some u -> is_namespace u = false ->
  resolve_unqualified root l tgt =
    match first_some (lookup_in root tgt) (all_scopes root (rev p)) with
    | Some s => Ok s
    | None => match first_namespace root (rev p) with Some _ => Err (MissingSymbol tgt) | None => Err AssertionError end
    end.
Proof.
  intros -> Hp Np. unfold resolve_unqualified, parent_loc. rewrite removelast_snoc.
  rewrite (scopes_all root (rev p) u) by (rewrite ?rev_involutive; assumption). rewrite first_some_app.
  destruct (first_some (lookup_in root tgt) (scopes root (rev p))); [reflexivity|].
  destruct (first_namespace root (rev p)) as [n|]; cbn; [|reflexivity]. now destruct (lookup_in root tgt n).
Qed.

(** the scopes above [rev rl]: proper prefixes with no namespace strictly in between *)
Definition above_scope (root : tree) (p n : loc) : Prop :=
  exists m, p = n ++ m /\ m <> [] /\ forall a b t, m = a ++ b -> a <> [] -> b <> [] -> at_loc root (n ++ a) = Some t -> is_namespace t = false.
Lemma all_scopes_in root rl u : at_loc root (rev rl) = Some u -> forall n, In n (all_scopes root rl) <-> above_scope root (rev rl) n.
Proof.
  revert u; induction rl as [|i up IH]; intros u Hu n.
  - cbn. split; [tauto|]. intros (m & E & M & _). symmetry in E. apply app_eq_nil in E as [_ ->]. congruence.
  - cbn [rev] in Hu. destruct (prefix_at _ _ _ _ Hu) as (v & Hv). cbn [all_scopes]. rewrite Hv. destruct (is_namespace v) eqn:Nv.
    + cbn [In rev]. split.
      * intros [<-|[]]. exists [i]. split; [reflexivity|]. split; [discriminate|]. intros a b t E Ha Hb.
        destruct a as [|x a]; [congruence|]. destruct b as [|y b]; [congruence|]. destruct a; discriminate.
      * intros (m & E & M & H). destruct (loc_snoc m M) as (m' & j & ->). rewrite app_assoc in E. apply app_inj_tail in E as [E <-].
        destruct m' as [|x m']; [rewrite app_nil_r in E; left; exact E|]. exfalso.
        assert (is_namespace v = false); [|congruence]. apply (H (x :: m') [i] v); try discriminate; [reflexivity|]. now rewrite <- E.
    + cbn [In rev]. rewrite (IH v Hv n). split.
      * intros [<-|(m & E & M & H)].
        -- exists [i]. split; [reflexivity|]. split; [discriminate|]. intros a b t E Ha Hb.
           destruct a as [|x a]; [congruence|]. destruct b as [|y b]; [congruence|]. destruct a; discriminate.
        -- exists (m ++ [i]). split; [now rewrite E, app_assoc|]. split; [now destruct m|]. intros a b t Eab Ha Hb At.
           destruct (loc_snoc b Hb) as (b' & j & ->). rewrite app_assoc in Eab. apply app_inj_tail in Eab as [Eab _].
           destruct b' as [|x b'].
           ++ rewrite app_nil_r in Eab. subst a. rewrite <- E, Hv in At. injection At as <-. exact Nv.
           ++ apply (H a (x :: b') t Eab Ha); [discriminate|exact At].
      * intros (m & E & M & H). destruct (loc_snoc m M) as (m' & j & ->). rewrite app_assoc in E. apply app_inj_tail in E as [E <-].
        destruct m' as [|x m']; [left; now rewrite app_nil_r in E|]. right. exists (x :: m'). split; [exact E|]. split; [discriminate|].
        intros a b t Eab Ha Hb At. apply (H a (b ++ [i]) t); [now rewrite Eab, app_assoc|exact Ha|now destruct b|exact At].
Qed.
Lemma all_scopes_sorted root rl : forall a n b n', all_scopes root rl = a ++ n :: b -> In n' b -> (List.length n' < List.length n)%nat.
Proof.
  induction rl as [|i up IH]; intros a n b n' H Hin; cbn in H; [now destruct a|].
  destruct (at_loc root (rev up)) as [t|]; [|now destruct a]. destruct (is_namespace t).
  - destruct a as [|x [|y a]]; cbn in H; try discriminate. injection H as <- <-. contradiction.
  - destruct a as [|x a]; cbn in H; injection H as <- H; [|eapply IH; eauto]. rewrite H in *. clear - Hin H.
    assert (Len : forall rl n, In n (all_scopes root rl) -> (List.length n < List.length rl)%nat).
    { clear. induction rl as [|i up IH]; intros n; cbn; [tauto|]. destruct (at_loc root (rev up)) as [t|]; [|intros []]. destruct (is_namespace t).
      - intros [<-|[]]. rewrite rev_length. lia.
      - intros [<-|Hn]; [rewrite rev_length; lia|]. specialize (IH n Hn). lia. }
    rewrite rev_length. apply Len. now rewrite H.
Qed.

Lemma visible_above root l p i n : l = p ++ [i] -> no_namespace root p ->
  (visible root l n <-> above_scope root p n).
Proof.
  intros -> Np. split.
  - intros (m & E & L & H). destruct (loc_snoc m) as (m' & j & ->); [intros ->; cbn in L; lia|]. rewrite app_assoc in E. apply app_inj_tail in E as [E <-].
    exists m'. split; [exact E|]. split; [intros ->; rewrite app_length in L; cbn in L; lia|]. intros a b t Eab Ha Hb At.
    destruct (is_namespace t) eqn:N; [|reflexivity]. exfalso. apply (H a (b ++ [i]) t); [now rewrite Eab, app_assoc|exact Ha|now destruct b|exact At|].
    now apply is_namespace_kind.
  - intros (m & E & M & H). exists (m ++ [i]). split; [now rewrite E, app_assoc|]. split; [rewrite app_length; destruct m; [congruence|cbn; lia]|].
    intros a b t Eab Ha Hb At Kt. apply is_namespace_kind in Kt. destruct (loc_snoc b Hb) as (b' & j & ->). rewrite app_assoc in Eab. apply app_inj_tail in Eab as [Eab _].
    destruct b' as [|x b'].
    + rewrite app_nil_r in Eab. subst a. rewrite <- E in At. rewrite (Np t At) in Kt. discriminate.
    + rewrite (H a (x :: b') t Eab Ha ltac:(discriminate) At) in Kt. discriminate.
Qed.

Lemma first_some_spec {A B} (f : A -> option B) l y : first_some f l = Some y <->
  exists a x b, l = a ++ x :: b /\ f x = Some y /\ forall z, In z a -> f z = None.
Proof.
  induction l as [|x l IH]; cbn.
  - split; [discriminate|]. intros ([|? ?] & ? & ? & ? & _); discriminate.
  - destruct (f x) as [z|] eqn:F.
    + split.
      * intros E; injection E as ->. exists [], x, l. split; [reflexivity|]. split; [exact F|intros ? []].
      * intros ([|a0 a] & x' & b & E & Fx & Ha); cbn in E; injection E as <- E; [congruence|]. rewrite (Ha x (or_introl eq_refl)) in F. discriminate.
    + rewrite IH. split.
      * intros (a & x' & b & -> & Fx & Ha). exists (x :: a), x', b. split; [reflexivity|]. split; [exact Fx|]. intros z [<-|Hz]; auto.
      * intros ([|a0 a] & x' & b & E & Fx & Ha); cbn in E; injection E as <- E; [congruence|]. exists a, x', b. split; [exact E|]. split; [exact Fx|].
        intros z Hz. apply Ha. now right.
Qed.
Lemma first_some_none {A B} (f : A -> option B) l : first_some f l = None <-> forall x, In x l -> f x = None.
Proof.
  induction l as [|x l IH]; cbn; [tauto|]. destruct (f x) as [y|] eqn:F.
  - split; [discriminate|]. intros H. rewrite (H x (or_introl eq_refl)) in F. discriminate.
  - rewrite IH. split; [intros H z [<-|Hz]; auto|auto].
Qed.

(** Unqualified names resolve to the innermost declaration *)
Lemma resolve_unqualified_spec root l tgt p i u : wf root -> has_char "." (t_name root) = false ->
  l = p ++ [i] -> at_loc root p = Some u -> is_namespace u = false ->
  (forall d, resolve_unqualified root l tgt = Ok d <-> innermost root l tgt d)
  /\ ((exists n t, visible root l n /\ at_loc root n = Some t /\ t_kind t = KNamespace) ->
      (forall n d, visible root l n -> ~ declared root n tgt d) -> resolve_unqualified root l tgt = Err (MissingSymbol tgt)).
Proof.
  intros W D El Hp Np. rewrite (resolve_scopes root l tgt p i u El Hp Np).
  assert (NN : no_namespace root p) by (intros t Ht; rewrite Hp in Ht; injection Ht as <-; exact Np).
  assert (Vis : forall n, In n (all_scopes root (rev p)) <-> visible root l n).
  { intros n. rewrite (visible_above root l p i n El NN). rewrite <- (rev_involutive p) at 2. apply (all_scopes_in root (rev p) u). now rewrite rev_involutive. }
  split.
  - intros d. split.
    + destruct (first_some (lookup_in root tgt) (all_scopes root (rev p))) as [s|] eqn:F.
      * intros E; injection E as ->. apply first_some_spec in F as (a & n & b & Es & Fn & Ha). exists n. split; [apply Vis; rewrite Es; apply in_or_app; right; now left|].
        split; [now apply lookup_declared|]. intros n' d' V' L' Dc. apply Vis in V'. rewrite Es in V'. apply in_app_or in V' as [V'|[V'|V']].
        -- apply lookup_declared in Dc; [|assumption|assumption]. rewrite (Ha n' V') in Dc. discriminate.
        -- subst n'. lia.
        -- pose proof (all_scopes_sorted root (rev p) a n b n' Es V'). lia.
      * destruct (first_namespace root (rev p)); discriminate.
    + intros (n & V & Dc & H). apply Vis in V. apply lookup_declared in Dc; [|assumption|assumption].
      destruct (in_split _ _ V) as (a & b & Es).
      assert (Ha : forall z, In z a -> lookup_in root tgt z = None).
      { intros z Hz. destruct (lookup_in root tgt z) as [d'|] eqn:Lz; [|reflexivity]. exfalso. apply (H z d').
        - apply Vis. rewrite Es. apply in_or_app. now left.
        - apply in_split in Hz as (a1 & a2 & ->). rewrite <- app_assoc in Es. cbn in Es. eapply (all_scopes_sorted root (rev p) a1 z); [exact Es|].
          apply in_or_app. right. now left.
        - now apply lookup_declared. }
      replace (first_some (lookup_in root tgt) (all_scopes root (rev p))) with (Some d); [reflexivity|]. symmetry. apply first_some_spec.
      exists a, n, b. auto.
  - intros (n & t & V & At & Kt) H.
    replace (first_some (lookup_in root tgt) (all_scopes root (rev p))) with (@None loc).
    + destruct (first_namespace root (rev p)) as [n0|] eqn:Fn; [reflexivity|]. exfalso.
      apply Vis in V. rewrite (scopes_all root (rev p) u) in V by (rewrite ?rev_involutive; assumption). rewrite Fn, app_nil_r in V.
      assert (Sc : forall rl x tx, In x (scopes root rl) -> at_loc root x = Some tx -> is_namespace tx = false).
      { clear. induction rl as [|j up IH]; intros x tx; cbn; [tauto|]. destruct (at_loc root (rev up)) as [v|] eqn:Hv; [|intros []]. destruct (is_namespace v) eqn:Nv; [intros []|].
        intros [<-|Hx] Hxt; [congruence|eapply IH; eauto]. }
      pose proof (Sc _ _ _ V At) as Q. apply is_namespace_kind in Kt. congruence.
    + symmetry. apply first_some_none. intros x Hx. destruct (lookup_in root tgt x) as [d|] eqn:L; [|reflexivity]. exfalso.
      apply (H x d); [now apply Vis|now apply lookup_declared].
Qed.

(** ** The whole resolution pass *)
Lemma node_dot root n s : rooted root -> at_loc root n = Some s -> has_char "." (t_name s) = false.
Proof.
  intros G Hn. destruct (names_at_last root n s Hn) as (ms & Hm).
  pose proof (names_dot_free root n _ (good_wf _ (proj1 G)) (rooted_dot _ G) Hm) as F. apply Forall_app in F as [_ F]. now inversion F.
Qed.
Lemma split_unmarked s : clean s -> Forall (fun k => ~ marked k) (split_on "." s).
Proof. intros H. eapply Forall_impl; [|now apply split_clean]. intros k. apply clean_not_marked. Qed.
Lemma skel_namespace b t t' : skel b t = skel b t' -> is_namespace t = is_namespace t'.
Proof. intros H. apply skel_kind_eq in H. unfold is_namespace. destruct (t_kind t), (t_kind t'); try discriminate H; reflexivity. Qed.
Lemma skel_at_opt b t t' l : skel b t = skel b t' ->
  match at_loc t l, at_loc t' l with Some u, Some u' => skel b u = skel b u' | None, None => True | _, _ => False end.
Proof.
  intros H. destruct (at_loc t l) as [u|] eqn:E.
  - destruct (skel_at b t t' l u H E) as (u' & -> & S). congruence.
  - destruct (at_loc t' l) as [u'|] eqn:E'; [|exact I]. destruct (skel_at b t' t l u' (eq_sym H) E') as (u & E2 & _). congruence.
Qed.
Lemma lookup_skel root root' tgt n : rooted root -> rooted root' -> skel true root = skel true root' -> clean tgt ->
  lookup_in root tgt n = lookup_in root' tgt n.
Proof.
  intros G G' S C. unfold lookup_in. pose proof (skel_at_opt true root root' n S) as O.
  destruct (at_loc root n) as [u|] eqn:E, (at_loc root' n) as [u'|] eqn:E'; try contradiction; [|reflexivity].
  rewrite (find_relative_split u) by exact (node_dot root n u G E). rewrite (find_relative_split u') by exact (node_dot root' n u' G' E').
  rewrite (find_keys_skel true u u'); [reflexivity|exact (good_at _ _ _ (proj1 G) E)|exact (good_at _ _ _ (proj1 G') E')| |exact O].
  intros _. now apply split_unmarked.
Qed.
Lemma scopes_skel root root' rl : skel true root = skel true root' -> scopes root rl = scopes root' rl.
Proof.
  intros S. induction rl as [|i up IH]; [reflexivity|]. cbn [scopes]. pose proof (skel_at_opt true root root' (rev up) S) as O.
  destruct (at_loc root (rev up)) as [u|], (at_loc root' (rev up)) as [u'|]; try contradiction; [|reflexivity].
  rewrite (skel_namespace _ _ _ O), IH. reflexivity.
Qed.
Lemma first_namespace_skel root root' rl : skel true root = skel true root' -> first_namespace root rl = first_namespace root' rl.
Proof.
  intros S. induction rl as [|i up IH]; cbn [first_namespace].
  - pose proof (skel_at_opt true root root' (rev []) S) as O.
    destruct (at_loc root (rev [])) as [u|], (at_loc root' (rev [])) as [u'|]; try contradiction; [|reflexivity].
    now rewrite (skel_namespace _ _ _ O).
  - pose proof (skel_at_opt true root root' (rev (i :: up)) S) as O.
    destruct (at_loc root (rev (i :: up))) as [u|], (at_loc root' (rev (i :: up))) as [u'|]; try contradiction; [|reflexivity].
    now rewrite (skel_namespace _ _ _ O), IH.
Qed.
Lemma first_some_ext {A B} (f g : A -> option B) l : (forall x, f x = g x) -> first_some f l = first_some g l.
Proof. intros H. induction l as [|x l IH]; cbn; [reflexivity|]. now rewrite H, IH. Qed.
Lemma resolve_unqualified_skel root root' l tgt : rooted root -> rooted root' -> skel true root = skel true root' -> clean tgt ->
  resolve_unqualified root l tgt = resolve_unqualified root' l tgt.
Proof.
  intros G G' S C. unfold resolve_unqualified. rewrite (scopes_skel root root') by exact S.
  rewrite (first_some_ext (lookup_in root tgt) (lookup_in root' tgt)) by (intros; now apply lookup_skel).
  destruct (first_some _ _); [reflexivity|]. rewrite (first_namespace_skel root root') by exact S.
  destruct (first_namespace root' _); [|reflexivity]. now rewrite (lookup_skel root root').
Qed.

Lemma lookup_not_ref root tgt n d u : rooted root -> clean tgt -> lookup_in root tgt n = Some d -> at_loc root d = Some u -> is_ref u = false.
Proof.
  intros G C L Hd. unfold lookup_in in L. destruct (at_loc root n) as [s|] eqn:Hn; [|discriminate].
  rewrite (find_relative_split s tgt) in L by exact (node_dot root n s G Hn).
  destruct (find_keys s (split_on "." tgt)) as [rel|] eqn:F; [|discriminate]. cbn in L. injection L as <-.
  rewrite at_loc_app, Hn in Hd.
  assert (Rs : is_ref s = false).
  { destruct (split_on "." tgt) as [|k ks] eqn:Sp; [now destruct (split_nonempty "." tgt)|]. cbn in F.
    destruct (child_pos (t_children s) k) as [i|] eqn:P; [|discriminate]. destruct (child_pos_some _ _ _ P) as (c & Hc & _).
    exact (not_ref_of_child s i c (good_at _ _ _ (proj1 G) Hn) Hc). }
  exact (find_keys_not_ref _ s rel u (good_at _ _ _ (proj1 G) Hn) Rs (split_clean _ C) F Hd).
Qed.
Lemma resolve_unqualified_found root l tgt d : rooted root -> clean tgt -> resolve_unqualified root l tgt = Ok d ->
  exists u p, at_loc root d = Some u /\ is_ref u = false /\ path_at root d = Some p /\ clean p.
Proof.
  intros G C H.
  assert (exists n, lookup_in root tgt n = Some d) as (n & L).
  { unfold resolve_unqualified in H. destruct (first_some (lookup_in root tgt) (scopes root (rev (parent_loc l)))) as [s|] eqn:F.
    - injection H as ->. apply first_some_spec in F as (a & n & b & _ & Fn & _). eauto.
    - destruct (first_namespace root _) as [n|]; [|discriminate]. destruct (lookup_in root tgt n) as [s|] eqn:Ln; [|discriminate]. injection H as ->. eauto. }
  pose proof L as L0. apply (lookup_declared root tgt n d (good_wf _ (proj1 G)) (rooted_dot _ G)) in L0 as (p & _ & Hp).
  assert (exists u, at_loc root d = Some u) as (u & Hu).
  { apply names_at_some. unfold path_at in Hp. destruct (names_at root d) as [ns|]; [eauto|discriminate]. }
  pose proof (lookup_not_ref root tgt n d u G C L Hu) as R. exists u. eexists. split; [exact Hu|]. split; [exact R|]. split; [exact Hp|].
  exact (path_clean root d u _ (proj1 G) Hu R Hp).
Qed.

(** where the reference [t] at [l] should point *)
Definition resolves (root : tree) (l : loc) (t : tree) (tl : loc) : Prop :=
  if is_qualified t then find root (target t) = Some tl else resolve_unqualified root l (target t) = Ok tl.
Lemma resolves_skel root root' l t tl : rooted root -> rooted root' -> skel true root = skel true root' -> resolves root l t tl -> resolves root' l t tl.
Proof.
  intros G G' S. unfold resolves. destruct (is_qualified t).
  - rewrite (find_skel true root root'); [auto|assumption|assumption|intros _; apply target_no_at|assumption].
  - rewrite (resolve_unqualified_skel root root') by (assumption || apply target_no_at). auto.
Qed.
Lemma resolve_one_where root l root' t r : resolve_one root l = Ok root' -> rooted root -> at_loc root l = Some t -> t_kind t = KRef r ->
  exists t' tl, at_loc root' l = Some t' /\ t_kind t' = KRef r /\ find root' (target t') = Some tl /\ resolves root l t tl.
Proof.
  intros H G Ht Kt. destruct (resolve_one_good root l root' H G) as (G' & S & _ & _).
  destruct (resolve_one_inv root l root' H) as (t0 & r0 & root1 & Ht0 & Kt0 & C & V). rewrite Ht in Ht0. injection Ht0 as <-. rewrite Kt in Kt0. injection Kt0 as <-.
  destruct (validate_inv _ _ _ _ V) as (-> & t1 & tl & u & Ht1 & Ft & _). unfold resolves. destruct C as [(Q & -> & tl' & F)|(Q & s & p & Rs & Hp & Sn)]; rewrite Q.
  - exists t, tl'. rewrite Ht in Ht1. injection Ht1 as <-. rewrite Ft in F. injection F as <-. auto.
  - destruct (set_name_ref_at root l (referencify p) root1 t r Ht Kt (proj1 G) Sn) as (H1 & _ & _). eexists. exists s. split; [exact H1|].
    split; [reflexivity|]. split; [|exact Rs]. destruct (resolve_unqualified_found root l (target t) s G (target_no_at t) Rs) as (u' & p' & _ & _ & Hp' & Cp).
    rewrite Hp in Hp'. injection Hp' as <-. unfold target. cbn [t_name]. rewrite dereferencify_referencify by exact Cp.
    rewrite (find_skel true root1 root); [|assumption|assumption|intros _; exact Cp|exact S].
    apply path_find; [apply good_wf, G|now apply rooted_dot|exact Hp].
Qed.
Lemma resolve_fold_where ls : forall root root', foldM resolve_one root ls = Ok root' -> NoDup ls -> rooted root ->
  forall l t r, In l ls -> at_loc root l = Some t -> t_kind t = KRef r ->
  exists t' tl, at_loc root' l = Some t' /\ t_kind t' = KRef r /\ find root' (target t') = Some tl /\ resolves root l t tl.
Proof.
  assert (Keep : forall ls root root', foldM resolve_one root ls = Ok root' -> rooted root -> rooted root' /\ skel true root' = skel true root
     /\ forall l t, ~ In l ls -> at_loc root l = Some t -> is_ref t = true -> at_loc root' l = Some t).
  { clear. induction ls as [|x ls IH]; intros root root' H G; cbn in H.
    - injection H as <-. auto.
    - apply bind_ok in H as (r1 & H1 & H). destruct (resolve_one_good _ _ _ H1 G) as (G1 & S1 & _ & O1). destruct (IH _ _ H G1) as (G2 & S2 & O2).
      split; [exact G2|]. split; [congruence|]. intros l t N Hl R. apply O2; [intros Q; apply N; now right| |exact R]. apply O1; [intros ->; apply N; now left|exact Hl|exact R]. }
  induction ls as [|x ls IH]; intros root root' H ND G l t r Hin Hl Kt; [contradiction|]. cbn in H. apply bind_ok in H as (r1 & H1 & H).
  inversion ND; subst. destruct (resolve_one_good _ _ _ H1 G) as (G1 & S1 & _ & O1). destruct (Keep _ _ _ H G1) as (G2 & S2 & O2). destruct Hin as [->|Hin].
  - destruct (resolve_one_where _ _ _ _ _ H1 G Hl Kt) as (t' & tl & Ht' & Kt' & Ft' & Rt). exists t', tl.
    split; [apply O2; [assumption|exact Ht'|unfold is_ref; now rewrite Kt']|]. split; [exact Kt'|]. split; [|exact Rt].
    rewrite (find_skel true root' r1); [exact Ft'|assumption|assumption|intros _; apply target_no_at|exact S2].
  - assert (Hl1 : at_loc r1 l = Some t) by (apply O1; [intros ->; contradiction|exact Hl|unfold is_ref; now rewrite Kt]).
    destruct (IH _ _ H H4 G1 l t r Hin Hl1 Kt) as (t' & tl & A & B & C & D). exists t', tl. repeat (split; [assumption|]).
    exact (resolves_skel r1 root l t tl G1 G S1 D).
Qed.
Lemma resolve_references_where root root' l t r : resolve_references root = Ok root' -> rooted root -> at_loc root l = Some t -> t_kind t = KRef r ->
  exists t' tl, at_loc root' l = Some t' /\ t_kind t' = KRef r /\ find root' (target t') = Some tl /\ resolves root l t tl.
Proof.
  intros H G Hl Kt. eapply resolve_fold_where; [exact H|apply iterate_nodup|exact G| |exact Hl|exact Kt]. apply iterate_spec. exists t. split; [exact Hl|]. now rewrite Kt.
Qed.

(** What a MissingSymbol error means *)
Definition unresolvable (root : tree) (l : loc) (t : tree) : Prop :=
  if is_qualified t then find root (target t) = None else resolve_unqualified root l (target t) = Err (MissingSymbol (target t)).
Lemma set_name_errs root l v e : set_name root l v = Err e -> e = RuntimeError.
Proof.
  unfold set_name. destruct (at_loc root l) as [t|]; [|congruence]. destruct (String.eqb _ _); [discriminate|].
  destruct l as [|i l]; [discriminate|]. destruct (at_loc root (parent_loc (i :: l))); [|discriminate]. destruct (child_pos _ _); [congruence|discriminate].
Qed.
Lemma validate_errs root l r e : validate_target root l r = Err e -> e = RuntimeError \/ exists n, e = IncorrectReferenceType n.
Proof.
  unfold validate_target, ref_loc. destruct (at_loc root l) as [t|]; [|intros [= <-]; auto]. destruct (find root (target t)) as [tl|]; cbn; [|intros [= <-]; auto].
  destruct (at_loc root tl) as [u|]; [|intros [= <-]; auto]. destruct (expected_kind r (t_kind u)); [discriminate|]. intros [= <-]. eauto.
Qed.
Lemma resolve_one_missing root l n : resolve_one root l = Err (MissingSymbol n) -> exists t r, at_loc root l = Some t /\ t_kind t = KRef r
  /\ target t = n /\ unresolvable root l t.
Proof.
  unfold resolve_one. destruct (at_loc root l) as [t|]; [|discriminate]. destruct (t_kind t) eqn:Kt; try discriminate.
  unfold unresolvable. destruct (is_qualified t) eqn:Q.
  - destruct (find root (target t)) as [tl|] eqn:F; cbn.
    + intros H. apply validate_errs in H as [H|(m & H)]; discriminate.
    + intros [= <-]. exists t, r. rewrite Q. auto.
  - destruct (resolve_unqualified root l (target t)) as [s|e] eqn:Rs; cbn.
    + destruct (path_at root s) as [p|]; cbn; [|discriminate]. destruct (set_name root l (referencify p)) as [r1|e] eqn:Sn; cbn.
      * intros H. apply validate_errs in H as [H|(m & H)]; discriminate.
      * intros [= ->]. apply set_name_errs in Sn. discriminate.
    + intros [= ->]. assert (n = target t).
      { unfold resolve_unqualified in Rs. destruct (first_some _ _); [discriminate|]. destruct (first_namespace _ _); [|discriminate].
        destruct (lookup_in _ _ _); [discriminate|]. injection Rs as <-. reflexivity. }
      subst n. exists t, r. rewrite Q. auto.
Qed.
Lemma resolve_fold_missing ls n : forall root, foldM resolve_one root ls = Err (MissingSymbol n) -> NoDup ls -> rooted root ->
  (forall l, In l ls -> exists t r, at_loc root l = Some t /\ t_kind t = KRef r) ->
  exists l t r, In l ls /\ at_loc root l = Some t /\ t_kind t = KRef r /\ target t = n /\ unresolvable root l t.
Proof.
  induction ls as [|x ls IH]; intros root H ND G Rf; [discriminate|]. cbn in H. inversion ND; subst. destruct (resolve_one root x) as [r1|e] eqn:H1.
  - cbn in H. destruct (resolve_one_good _ _ _ H1 G) as (G1 & S1 & _ & O1).
    assert (Rf1 : forall l, In l ls -> exists t r, at_loc root l = Some t /\ at_loc r1 l = Some t /\ t_kind t = KRef r).
    { intros l Hl. destruct (Rf l (or_intror Hl)) as (t & r & Ht & Kt). exists t, r. split; [exact Ht|]. split; [|exact Kt].
      apply O1; [intros ->; contradiction|exact Ht|unfold is_ref; now rewrite Kt]. }
    destruct (IH r1 H H3 G1) as (l & t & r & Hin & Ht & Kt & E & U).
    { intros l Hl. destruct (Rf1 l Hl) as (t & r & _ & ? & ?). eauto. }
    destruct (Rf1 l Hin) as (t' & r' & Ht' & Ht1 & Kt'). rewrite Ht in Ht1. injection Ht1 as <-.
    exists l, t, r. split; [now right|]. split; [exact Ht'|]. split; [exact Kt|]. split; [exact E|]. unfold unresolvable in *. destruct (is_qualified t).
    + rewrite (find_skel true root r1); [exact U|assumption|assumption|intros _; apply target_no_at|now symmetry].
    + rewrite (resolve_unqualified_skel root r1); [exact U|assumption|assumption|now symmetry|apply target_no_at].
  - cbn in H. injection H as ->. destruct (resolve_one_missing _ _ _ H1) as (t & r & Ht & Kt & E & U). exists x, t, r. split; [now left|]. auto.
Qed.
