(** Trees with the same kinds at the same paths: names mean the same in both, so [names_valid] holds of both or of neither.  For C47. *)
From Coq Require Import List ZArith Bool String Ascii Lia Permutation Relations.
From Verif Require Import PyBase PyText GenTypes GenTypesFacts GenTree GenTreeFacts GenTraversal
  GenBuild GenBuildFacts GenPassFacts GenAstFacts GenAstSpec GenMergeFacts GenFinal AcceptSpec MergeBuiltins.
Import ListNotations.
Local Open Scope Z_scope.

(** the places with the same path *)
Definition same_place (a b : tree) (l l' : loc) : Prop := exists ks, find_keys a ks = Some l /\ find_keys b ks = Some l'.

Lemma alike_sym a b : alike a b -> alike b a.
Proof. intros H ks. symmetry. apply H. Qed.
Lemma same_sym a b l l' : same_place a b l l' -> same_place b a l' l.
Proof. intros (ks & A & B). exists ks. auto. Qed.
Lemma find_keys_length ks : forall t l, find_keys t ks = Some l -> List.length l = List.length ks.
Proof.
  induction ks as [|k ks IH]; intros t l H; cbn in H; [now injection H as <-|]. destruct (child_pos (t_children t) k) as [i|]; [|discriminate].
  destruct (nth_error (t_children t) i) as [c|]; [|discriminate]. destruct (find_keys c ks) as [m|] eqn:F; [|discriminate]. injection H as <-. cbn. now rewrite (IH _ _ F).
Qed.
Lemma getk_name ks : forall t k u, getk t (ks ++ [k])%list = Some u -> t_name u = k.
Proof.
  intros t k u H. rewrite getk_app in H. destruct (getk t ks) as [x|]; [|discriminate]. cbn in H. destruct (List.find (fun c => String.eqb (t_name c) k) (t_children x)) as [c|] eqn:E; [|discriminate].
  injection H as <-. now apply find_in in E.
Qed.
Lemma find_keys_app ks : forall t ms l, find_keys t (ks ++ ms)%list = Some l -> exists a b, find_keys t ks = Some a /\ l = (a ++ b)%list /\ List.length b = List.length ms.
Proof.
  induction ks as [|k ks IH]; intros t ms l H; cbn [app] in H.
  - exists [], l. split; [reflexivity|]. split; [reflexivity|]. exact (find_keys_length _ _ _ H).
  - cbn in *. destruct (child_pos (t_children t) k) as [i|]; [|discriminate]. destruct (nth_error (t_children t) i) as [c|]; [|discriminate].
    destruct (find_keys c (ks ++ ms)) as [m|] eqn:F; [|discriminate]. injection H as <-. destruct (IH _ _ _ F) as (a & b & -> & -> & L). exists (i :: a), b. auto.
Qed.

Lemma firsts_eq {X} (x y x' y' : list X) : (x ++ y = x' ++ y')%list -> List.length x = List.length x' -> x = x'.
Proof. revert x'. induction x as [|u x IH]; intros [|u' x'] E L; try discriminate; [reflexivity|]. cbn in E. injection E as -> E. f_equal. apply IH; [exact E|]. now injection L. Qed.

Section Pair.
  Variables (a b : tree).
  Hypothesis (Ga : rooted a) (Gb : rooted b) (A : alike a b).
  Notation same := (same_place a b).

  Lemma same_kind l l' u u' : same l l' -> at_loc a l = Some u -> at_loc b l' = Some u' -> t_kind u = t_kind u' /\ t_name u = t_name u'.
  Proof using Ga Gb A.
    intros (ks & Fa & Fb) Hu Hu'. assert (Ka : getk a ks = Some u) by (rewrite <- node_at_getk; unfold node_at; now rewrite Fa). assert (Kb : getk b ks = Some u') by (rewrite <- node_at_getk; unfold node_at; now rewrite Fb).
    pose proof (A ks) as E. unfold kindk in E. rewrite Ka, Kb in E. injection E as E. split; [exact E|]. destruct ks as [|k ks _] using rev_ind.
    - cbn in Ka, Kb. injection Ka as <-. injection Kb as <-. rewrite (proj1 (proj2 Ga)), (proj1 (proj2 Gb)). reflexivity.
    - now rewrite (getk_name _ _ _ _ Ka), (getk_name _ _ _ _ Kb).
  Qed.
  Lemma same_exists l' u' : at_loc b l' = Some u' -> exists l u, same l l' /\ at_loc a l = Some u /\ t_kind u = t_kind u' /\ t_name u = t_name u'.
  Proof using Ga Gb A.
    intros H. destruct (loc_keys b l' u' (good_wf _ (proj1 Gb)) H) as (ks & _ & Fb & Kb). pose proof (A ks) as E. unfold kindk in E. rewrite Kb in E. destruct (getk a ks) as [u|] eqn:Ka; [|discriminate].
    destruct (getk_at _ _ _ Ka) as (l & Fa & Hl). assert (S : same l l') by (exists ks; auto). exists l, u. split; [exact S|]. split; [exact Hl|]. exact (same_kind l l' u u' S Hl H).
  Qed.
  Lemma same_fun l l' m' : same l l' -> same l m' -> l' = m'.
  Proof using Ga.
    intros (ks & F & F') (ms & M & M'). assert (E : ks = ms). { destruct (find_keys_loc _ _ _ F) as (N & _). destruct (find_keys_loc _ _ _ M) as (N' & _). rewrite N in N'. now injection N'. } subst. congruence.
  Qed.
  Lemma same_inj l m l' : same l l' -> same m l' -> l = m.
  Proof using Gb.
    intros (ks & F & F') (ms & M & M'). assert (E : ks = ms). { destruct (find_keys_loc _ _ _ F') as (N & _). destruct (find_keys_loc _ _ _ M') as (N' & _). rewrite N in N'. now injection N'. } subst. congruence.
  Qed.
  Lemma same_length l l' : same l l' -> List.length l = List.length l'.
  Proof. intros (ks & F & F'). now rewrite (find_keys_length _ _ _ F), (find_keys_length _ _ _ F'). Qed.
  (** a place above *)
  Lemma same_above l n' m' : same l (n' ++ m')%list -> exists n m, l = (n ++ m)%list /\ List.length m = List.length m' /\ same n n'.
  Proof.
    intros (ks & F & F'). assert (L : List.length ks = (List.length n' + List.length m')%nat) by (rewrite <- (find_keys_length _ _ _ F'), app_length; reflexivity).
    rewrite <- (firstn_skipn (List.length n') ks) in F, F'. destruct (find_keys_app _ _ _ _ F) as (x & y & Fx & -> & Ly). destruct (find_keys_app _ _ _ _ F') as (x' & y' & Fx' & E & Ly').
    rewrite skipn_length in Ly, Ly'. assert (L1 : List.length x' = List.length n') by (rewrite (find_keys_length _ _ _ Fx'), firstn_length; lia).
    assert (E1 : n' = x') by (exact (firsts_eq _ _ _ _ E ltac:(lia))).
    exists x, y. split; [reflexivity|]. split; [lia|]. exists (firstn (List.length n') ks). rewrite E1. rewrite E1 in Fx, Fx'. auto.
  Qed.
  Lemma same_child l' i' u' l : same l l' -> at_loc b (l' ++ [i'])%list = Some u' -> exists i u, same (l ++ [i])%list (l' ++ [i'])%list /\ at_loc a (l ++ [i])%list = Some u /\ t_kind u = t_kind u' /\ t_name u = t_name u'.
  Proof using Ga Gb A.
    intros S H. destruct (same_exists _ _ H) as (x & u & Sx & Hx & E). destruct (same_above _ _ _ Sx) as (n & m & -> & L & Sn). rewrite (same_inj _ _ _ Sn S) in *.
    destruct m as [|i [|]]; try discriminate. exists i, u. auto.
  Qed.
  Lemma same_path l l' : same l l' -> path_at a l = path_at b l'.
  Proof using Ga Gb.
    intros (ks & F & F'). unfold path_at. destruct (find_keys_loc _ _ _ F) as (N & _). destruct (find_keys_loc _ _ _ F') as (N' & _). rewrite N, N', (proj1 (proj2 Ga)), (proj1 (proj2 Gb)). reflexivity.
  Qed.
  Lemma path_exists l' p : path_at b l' = Some p -> exists l, same l l' /\ path_at a l = Some p.
  Proof using Ga Gb A.
    intros H. assert (exists u', at_loc b l' = Some u') as (u' & Hu'). { apply names_at_some. unfold path_at in H. destruct (names_at b l') as [ns|]; [eauto|discriminate]. }
    destruct (same_exists _ _ Hu') as (l & u & S & _). exists l. split; [exact S|]. now rewrite (same_path _ _ S).
  Qed.
  Lemma visible_back l l' n' : same l l' -> visible b l' n' -> exists n, same n n' /\ visible a l n.
  Proof using Ga Gb A.
    intros S (m' & -> & L & V). destruct (same_above _ _ _ S) as (n & m & -> & Lm & Sn). exists n. split; [exact Sn|]. exists m. split; [reflexivity|]. split; [lia|].
    intros x y t -> Nx Ny Ht. (* the corresponding place *)
    assert (E : m' = (firstn (List.length x) m' ++ skipn (List.length x) m')%list) by now rewrite firstn_skipn. rewrite app_length in Lm.
    assert (L1 : List.length (firstn (List.length x) m') = List.length x) by (rewrite firstn_length; lia).
    assert (L2 : List.length (skipn (List.length x) m') = List.length y) by (rewrite skipn_length; lia).
    set (x' := firstn (List.length x) m') in *. set (y' := skipn (List.length x) m') in *. rewrite E, !app_assoc in S.
    destruct (same_above _ _ _ S) as (q & r & Eq & Lr & Sq). assert (q = (n ++ x)%list).
    { assert (Lq : List.length q = List.length (n ++ x)%list). { apply (f_equal (@List.length nat)) in Eq. rewrite !app_length in *. lia. }
      symmetry. apply (firsts_eq _ _ _ _ Eq). now symmetry. }
    subst q. pose proof Sq as (ks & F & F'). destruct (find_keys_loc _ _ _ F') as (_ & t' & Ht'). rewrite (proj1 (same_kind _ _ _ _ Sq Ht Ht')).
    apply (V x' y' t' E); [intros Q; rewrite Q in L1; now destruct x|intros Q; rewrite Q in L2; now destruct y|exact Ht'].
  Qed.
  Lemma declared_back n n' name d' : same n n' -> declared b n' name d' -> exists d, same d d' /\ declared a n name d.
  Proof using Ga Gb A.
    intros S (p & Hp & Hd). destruct (path_exists _ _ Hd) as (d & Sd & Pd). exists d. split; [exact Sd|]. exists p. split; [now rewrite (same_path _ _ S)|exact Pd].
  Qed.
End Pair.

Section Meant.
  Variables (a b : tree).
  Hypothesis (Ga : rooted a) (Gb : rooted b) (A : alike a b).
  Notation same := (same_place a b).

  Lemma meant_back l l' r d' : same l l' -> meant b l' r d' -> exists d, same d d' /\ meant a l r d.
  Proof using Ga Gb A.
    intros S (u' & Hu' & Ku & Q & I). destruct (same_exists a b Ga Gb A _ _ Hu') as (l0 & u & S0 & Hu & Kk & Nn). rewrite (same_inj a b Gb _ _ _ S0 S) in *. clear S0 l0.
    assert (T : target u = target u') by (unfold target; now rewrite Nn). assert (D : qualified (target u') \/ ~ qualified (target u')).
    { destruct (target u') as [|c s]; [right; intros (x & E); discriminate|]. destruct (ascii_dec c "."%char) as [->|N]; [left; now exists s|right; intros (x & E); congruence]. }
    destruct D as [D|D].
    - destruct (path_exists a b Ga Gb A _ _ (Q D)) as (d & Sd & Pd). exists d. split; [exact Sd|]. exists u. split; [exact Hu|]. split; [congruence|]. rewrite T. split; [auto|]. intros N. now destruct N.
    - destruct (I D) as (n' & V & Dc & Mx). destruct (visible_back a b Ga Gb A _ _ _ S V) as (n & Sn & Vn). destruct (declared_back a b Ga Gb A _ _ _ _ Sn Dc) as (d & Sd & Dd). exists d. split; [exact Sd|].
      exists u. split; [exact Hu|]. split; [congruence|]. rewrite T. split; [intros N; now destruct D|]. intros _. exists n. split; [exact Vn|]. split; [exact Dd|]. intros m e Vm Lm De.
      destruct (visible_back b a Gb Ga (alike_sym _ _ A) _ _ _ (same_sym _ _ _ _ S) Vm) as (m' & Sm & Vm'). destruct (declared_back b a Gb Ga (alike_sym _ _ A) _ _ _ _ Sm De) as (e' & _ & De').
      apply (Mx m' e' Vm'); [|exact De']. rewrite <- (same_length _ _ _ _ Sn). rewrite (same_length _ _ _ _ Sm). exact Lm.
  Qed.
End Meant.
Lemma match_meant a b l l' r d : rooted a -> rooted b -> alike a b -> same_place a b l l' -> meant a l r d -> exists e, same_place b a e d /\ meant b l' r e.
Proof.
  intros Ga Gb A S M. exact (meant_back b a Gb Ga (alike_sym _ _ A) _ _ _ _ (same_sym _ _ _ _ S) M).
Qed.
Section Valid.
  Variables (a b : tree).
  Hypothesis (Ga : rooted a) (Gb : rooted b) (A : alike a b).
  Notation same := (same_place a b).
  Notation meant_back := (meant_back a b Ga Gb A).
  Lemma meant_at t l r d : meant t l r d -> exists u, at_loc t l = Some u /\ t_kind u = KRef r.
  Proof. intros (u & H & K & _). eauto. Qed.
  (** a reference among the children of [l'] *)
  Lemma meant_child l l' i' r d' : same l l' -> meant b (l' ++ [i'])%list r d' -> exists i d, same (l ++ [i])%list (l' ++ [i'])%list /\ same d d' /\ meant a (l ++ [i])%list r d.
  Proof using Ga Gb A.
    intros S M. destruct (meant_at _ _ _ _ M) as (u' & Hu' & _). destruct (same_child a b Ga Gb A _ _ _ _ S Hu') as (i & u & Si & _). destruct (meant_back _ _ _ _ Si M) as (d & Sd & Md). exists i, d. auto.
  Qed.
  Lemma place_of l' u' : at_loc b l' = Some u' -> exists l u, same l l' /\ at_loc a l = Some u /\ t_kind u = t_kind u' /\ t_name u = t_name u'.
  Proof using Ga Gb A. exact (same_exists a b Ga Gb A l' u'). Qed.
  Lemma above_place l' i' u' : at_loc b (l' ++ [i'])%list = Some u' -> exists l u, same l l' /\ at_loc b l' = Some u.
  Proof using Ga Gb A. intros H. destruct (parent_at _ _ _ _ H) as (v & Hv & _). destruct (place_of _ _ Hv) as (l & u & S & _). exists l, v. auto. Qed.
  Lemma same_index l l' i i' j' : same (l ++ [i])%list (l' ++ [i'])%list -> same (l ++ [i])%list (l' ++ [j'])%list -> i' = j'.
  Proof using Ga. intros S S'. pose proof (same_fun a b Ga _ _ _ S S') as E. now apply app_inj_tail in E. Qed.

  Lemma holds_back x' y' x : same x x' -> holds b x' y' -> exists y, same y y' /\ holds a x y.
  Proof using Ga Gb A.
    intros S (i' & j' & M). destruct (meant_at _ _ _ _ M) as (u' & Hu' & _). destruct (place_of _ _ Hu') as (p & u & Sp & _).
    destruct (same_above a b _ _ _ Sp) as (n & m & -> & L & Sn). rewrite (same_inj a b Gb _ _ _ Sn S) in *. destruct m as [|i [|j [|]]]; try discriminate.
    destruct (meant_back _ _ _ _ Sp M) as (d & Sd & Md). exists d. split; [exact Sd|]. exists i, j. exact Md.
  Qed.
  Lemma holds_path x' y' : clos_trans _ (holds b) x' y' -> forall x, same x x' -> exists y, same y y' /\ clos_trans _ (holds a) x y.
  Proof using Ga Gb A.
    intros H. induction H as [x' y' H|x' y' z' H1 IH1 H2 IH2]; intros x S.
    - destruct (holds_back _ _ _ S H) as (y & Sy & Hy). exists y. split; [exact Sy|]. now apply t_step.
    - destruct (IH1 x S) as (y & Sy & Hy). destruct (IH2 y Sy) as (z & Sz & Hz). exists z. split; [exact Sz|]. exact (t_trans _ _ _ _ _ Hy Hz).
  Qed.

  Theorem names_valid_alike : names_valid a -> names_valid b.
  Proof using Ga Gb A.
    intros [NK ND N1 N2 N3 NE N4 N5 NX NA]. pose proof (alike_sym _ _ A) as A'. constructor.
    - intros l' u' r Hu' Ku. destruct (place_of _ _ Hu') as (l & u & S & Hu & K & _). destruct (NK l u r Hu ltac:(congruence)) as (d & v & M & Hv & R).
      destruct (same_exists b a Gb Ga A' _ _ Hv) as (d' & v' & Sd & Hv' & Kv & _). exists d', v'.
      destruct (match_meant a b _ _ _ _ Ga Gb A S M) as (e & Se & Me). rewrite (same_inj b a Ga _ _ _ Sd Se) in *. split; [exact Me|]. split; [exact Hv'|]. now rewrite Kv.
    - intros l' i' j' r r' d' M M'. destruct (meant_at _ _ _ _ M) as (u' & Hu' & _). destruct (above_place _ _ _ Hu') as (l & _ & S & _).
      destruct (meant_child _ _ _ _ _ S M) as (i & d & Si & Sd & Mi). destruct (meant_child _ _ _ _ _ S M') as (j & e & Sj & Se & Mj).
      rewrite (same_inj a b Gb _ _ _ Se Sd) in *. pose proof (ND _ _ _ _ _ _ Mi Mj). subst j. exact (same_index _ _ _ _ _ Si Sj).
    - intros l' i' j' f' g' name rng ty off ty' off' Hf Kf Hg Kg. destruct (above_place _ _ _ Hf) as (l & _ & S & _).
      destruct (same_child a b Ga Gb A _ _ _ _ S Hf) as (i & f & _ & Hf0 & K1 & _). destruct (same_child a b Ga Gb A _ _ _ _ S Hg) as (j & g & _ & Hg0 & K2 & Ng). rewrite <- Ng.
      apply (N1 l i j f g name rng ty off ty' off' Hf0); [congruence|exact Hg0|congruence].
    - intros l' f' name ty off i' d' Hf Kf M. destruct (place_of _ _ Hf) as (l & f & S & Hf0 & K1 & _). destruct (meant_child _ _ _ _ _ S M) as (i & d & _ & _ & Mi). exact (N2 l f name ty off i d Hf0 ltac:(congruence) Mi).
    - intros l' x' rk o m i' d' j' f' name ty off Hx Kx Nk M Hf Kf. destruct (place_of _ _ Hx) as (l & x & S & Hx0 & K1 & _). destruct (meant_child _ _ _ _ _ S M) as (i & d & _ & Sd & Mi).
      destruct (same_child a b Ga Gb A _ _ _ _ Sd Hf) as (j & f & _ & Hf0 & K2 & _). exact (N3 l x rk o m i d j f name ty off Hx0 ltac:(congruence) Nk Mi Hf0 ltac:(congruence)).
    - intros l' w d' v' bt M Hv Kv. destruct (meant_at _ _ _ _ M) as (u' & Hu' & _). destruct (place_of _ _ Hu') as (l & _ & S & _). destruct (meant_back _ _ _ _ S M) as (d & Sd & Md).
      destruct (place_of _ _ Hv) as (d0 & v & Sd0 & Hv0 & K & _). rewrite (same_inj a b Gb _ _ _ Sd0 Sd) in *. exact (NE l w d v bt Md Hv0 ltac:(congruence)).
    - intros l' f' rng ty off i' r d' v' c cty Hf Kf R M Hv Kv. destruct (place_of _ _ Hf) as (l & f & S & Hf0 & K1 & _). destruct (meant_child _ _ _ _ _ S M) as (i & d & _ & Sd & Mi).
      destruct (place_of _ _ Hv) as (d0 & v & Sd0 & Hv0 & K & _). rewrite (same_inj a b Gb _ _ _ Sd0 Sd) in *. exact (N4 l f rng ty off i r d v c cty Hf0 ltac:(congruence) R Mi Hv0 ltac:(congruence)).
    - intros l' i' j' d1 d2 M M'. destruct (meant_at _ _ _ _ M) as (u' & Hu' & _). destruct (above_place _ _ _ Hu') as (l & _ & S & _).
      destruct (meant_child _ _ _ _ _ S M) as (i & d & Si & _ & Mi). destruct (meant_child _ _ _ _ _ S M') as (j & e & Sj & _ & Mj). pose proof (N5 _ _ _ _ _ Mi Mj). subst j. exact (same_index _ _ _ _ _ Si Sj).
    - intros l' i' x' j' d' Hx Kx M. destruct (above_place _ _ _ Hx) as (l & _ & S & _). destruct (same_child a b Ga Gb A _ _ _ _ S Hx) as (i & x & Si & Hx0 & K1 & _).
      assert (M2 : meant b ((l' ++ [i']) ++ [j'])%list RStructure d') by (now rewrite <- app_assoc). destruct (meant_child _ _ _ _ _ Si M2) as (j & d & Sj & Sd & Mj). rewrite <- app_assoc in Mj.
      destruct (NX l i x j d Hx0 ltac:(congruence) Mj) as (k & Mk). destruct (meant_at _ _ _ _ Mk) as (y & Hy & _).
      destruct (same_child b a Gb Ga A' _ _ _ _ (same_sym _ _ _ _ S) Hy) as (k' & _ & Sk & _). destruct (match_meant a b _ _ _ _ Ga Gb A (same_sym _ _ _ _ Sk) Mk) as (e & Se & Me).
      rewrite (same_inj b a Ga _ _ _ Se (same_sym _ _ _ _ Sd)) in Me. eauto.
    - intros x' H. assert (exists u', at_loc b x' = Some u') as (u' & Hu').
      { assert (Q : forall x y, clos_trans _ (holds b) x y -> exists u', at_loc b x = Some u').
        { clear. intros x y H. induction H as [x y (i & j & u & Hu & _)|x y z _ IH _ _]; [|exact IH]. rewrite at_loc_app in Hu. destruct (at_loc b x); [eauto|discriminate]. }
        exact (Q _ _ H). }
      destruct (place_of _ _ Hu') as (x & _ & S & _). destruct (holds_path _ _ H x S) as (y & Sy & Hy). rewrite (same_inj a b Gb _ _ _ Sy S) in *. exact (NA x Hy).
  Qed.
End Valid.
