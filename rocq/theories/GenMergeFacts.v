(** Merging of namespace declarations. *)
From Coq Require Import List ZArith Bool String Ascii Lia Permutation.
From Verif Require Import PyBase PyText GenTypes GenTypesFacts GenTree GenTreeFacts GenTraversal
  GenBuild GenBuildFacts GenPassFacts GenAstFacts GenLayoutFacts GenAstSpec.
Import ListNotations.
Local Open Scope Z_scope.

(** ** Following names *)
Fixpoint getk (t : tree) (ks : list string) : option tree :=
  match ks with
  | [] => Some t
  | k :: r => match List.find (fun c => String.eqb (t_name c) k) (t_children t) with Some c => getk c r | None => None end
  end.
Lemma child_find cs k : match child_pos cs k with Some i => nth_error cs i | None => None end = List.find (fun c => String.eqb (t_name c) k) cs.
Proof.
  induction cs as [|c cs IH]; cbn; [reflexivity|]. destruct (String.eqb (t_name c) k); [reflexivity|]. rewrite <- IH. now destruct (child_pos cs k).
Qed.
Lemma node_at_getk t ks : node_at t ks = getk t ks.
Proof.
  unfold node_at. revert t. induction ks as [|k ks IH]; intros t; cbn; [reflexivity|]. rewrite <- child_find. destruct (child_pos (t_children t) k) as [i|]; [|reflexivity].
  destruct (nth_error (t_children t) i) as [c|] eqn:Hc; [|reflexivity]. rewrite <- IH. destruct (find_keys c ks); cbn; [now rewrite Hc|reflexivity].
Qed.
Lemma getk_app a : forall t b, getk t (a ++ b) = match getk t a with Some u => getk u b | None => None end.
Proof. induction a as [|k a IH]; intros t b; cbn; [reflexivity|]. destruct (List.find _ _); [apply IH|reflexivity]. Qed.
Lemma find_in cs k c : List.find (fun c => String.eqb (t_name c) k) cs = Some c -> In c cs /\ t_name c = k.
Proof. intros H. apply find_some in H as (Hin & E). split; [exact Hin|now apply String.eqb_eq]. Qed.
Lemma find_snoc cs d k : ~ In (t_name d) (map t_name cs) -> List.find (fun c => String.eqb (t_name c) k) (cs ++ [d])
  = if String.eqb (t_name d) k then Some d else List.find (fun c => String.eqb (t_name c) k) cs.
Proof.
  induction cs as [|c cs IH]; cbn; [reflexivity|]. intros N. destruct (String.eqb_spec (t_name c) k) as [E0|E].
  - destruct (String.eqb_spec (t_name d) k) as [E|E]; [exfalso; apply N; left; congruence|reflexivity].
  - apply IH. tauto.
Qed.
Lemma find_upd cs i c f k : nth_error cs i = Some c -> t_name (f c) = t_name c -> child_pos cs (t_name c) = Some i ->
  List.find (fun c => String.eqb (t_name c) k) (upd cs i f) = if String.eqb (t_name c) k then Some (f c) else List.find (fun c => String.eqb (t_name c) k) cs.
Proof.
  revert i. induction cs as [|x cs IH]; intros i Hi Hf P; [now destruct i|]. destruct i as [|i]; cbn in *.
  - injection Hi as ->. rewrite Hf. now destruct (String.eqb (t_name c) k).
  - destruct (String.eqb_spec (t_name x) (t_name c)) as [E|E]; [discriminate|].
    destruct (child_pos cs (t_name c)) as [j|] eqn:Pc; [|discriminate]. cbn in P. injection P as ->.
    destruct (String.eqb_spec (t_name x) k) as [E'|E']; [destruct (String.eqb_spec (t_name c) k); [congruence|reflexivity]|]. now apply IH.
Qed.

(** the effect of inserting [c] below the node named by [ks] *)
Fixpoint strip (p l : list string) : option (list string) :=
  match p, l with
  | [], _ => Some l
  | x :: p', y :: l' => if String.eqb x y then strip p' l' else None
  | _ :: _, [] => None
  end.
Lemma strip_spec p : forall l r, strip p l = Some r <-> l = p ++ r.
Proof.
  induction p as [|x p IH]; intros l r; cbn; [split; congruence|]. destruct l as [|y l]; [split; discriminate|].
  destruct (String.eqb_spec x y) as [->|E]; [rewrite IH; split; [intros ->; reflexivity|intros [= ->]; reflexivity]|].
  split; [discriminate|]. intros [= <- _]. congruence.
Qed.

Lemma insert_getk ks : forall t l c t', find_keys t ks = Some l -> insert_at t l c = Ok t' ->
  t_name t' = t_name t /\ t_kind t' = t_kind t /\ getk t (ks ++ [t_name c]) = None /\
  (forall r, getk t' (ks ++ t_name c :: r) = getk c r) /\
  (forall ks', strip (ks ++ [t_name c]) ks' = None ->
     match getk t' ks', getk t ks' with
     | Some x, Some y => t_name x = t_name y /\ t_kind x = t_kind y /\ (strip ks' ks = None -> x = y)
     | None, None => True
     | _, _ => False
     end).
Proof.
  induction ks as [|k ks IH]; intros t l c t' F H; cbn in F.
  - injection F as <-. apply insert_at_inv in H as (u & Hu & N & ->). cbn in Hu. injection Hu as <-. cbn.
    split; [reflexivity|]. split; [reflexivity|]. split; [|split].
    + rewrite <- child_find. apply child_pos_none in N. now rewrite N.
    + intros r. rewrite find_snoc by exact N. now rewrite String.eqb_refl.
    + intros ks' S. destruct ks' as [|k' ks']; cbn; [repeat split; discriminate|]. rewrite find_snoc by exact N.
      cbn in S. destruct (String.eqb (t_name c) k'); [discriminate|]. destruct (List.find _ (t_children t)) as [x|]; [|exact I].
      destruct (getk x ks') as [y|]; [|exact I]. auto.
  - destruct (child_pos (t_children t) k) as [i|] eqn:P; [|discriminate]. destruct (nth_error (t_children t) i) as [x|] eqn:Hx; [|discriminate].
    destruct (find_keys x ks) as [m|] eqn:Fx; [|discriminate]. injection F as <-.
    assert (H' : exists x', insert_at x m c = Ok x' /\ t' = modify t [i] (fun _ => x')).
    { pose proof H as H0. apply insert_at_inv in H0 as (u & Hu & N & ->). cbn in Hu. rewrite Hx in Hu. exists (modify x m (fun _ => Node (t_name u) (t_kind u) (t_children u ++ [c]))).
      split.
      - unfold insert_at. rewrite Hu. unfold insert. apply child_pos_none in N. rewrite N. reflexivity.
      - change (i :: m) with ([i] ++ m). rewrite modify_app. destruct t as [n0 k0 cs0]; cbn in *. f_equal. apply upd_ext. intros z Hz. rewrite Hx in Hz. now injection Hz as ->. }
    destruct H' as (x' & Hi & ->). destruct (IH x m c x' Fx Hi) as (Nx & Kx & Nx0 & In1 & Out).
    destruct (child_pos_some _ _ _ P) as (x0 & Hx0 & Ek). rewrite Hx in Hx0. injection Hx0 as <-. destruct t as [n0 k0 cs0]; cbn [t_name t_kind t_children modify] in *.
    assert (Fu : forall k', List.find (fun c => String.eqb (t_name c) k') (upd cs0 i (fun _ => x')) = if String.eqb k k' then Some x' else List.find (fun c => String.eqb (t_name c) k') cs0).
    { intros k'. rewrite (find_upd cs0 i x (fun _ => x') k' Hx Nx); [now rewrite Ek|now rewrite Ek]. }
    assert (Fk : List.find (fun c => String.eqb (t_name c) k) cs0 = Some x) by (rewrite <- child_find, P; exact Hx).
    split; [reflexivity|]. split; [reflexivity|]. split; [|split].
    + cbn. rewrite Fk. exact Nx0.
    + intros r. cbn. rewrite Fu, String.eqb_refl. apply In1.
    + intros ks' S. destruct ks' as [|k' ks']; cbn; [repeat split; discriminate|]. rewrite Fu. cbn in S. destruct (String.eqb_spec k k') as [<-|E].
      * rewrite Fk. specialize (Out ks' S). destruct (getk x' ks') as [a|], (getk x ks') as [b|]; try exact Out. rewrite String.eqb_refl. exact Out.
      * destruct (List.find (fun c => String.eqb (t_name c) k') cs0) as [z|]; [|exact I]. destruct (getk z ks') as [y|]; [|exact I]. auto.
Qed.

Lemma nest_getk ks : forall t, nest ks [] = Ok t -> exists k rest, ks = k :: rest /\ t_name t = k /\ t_kind t = KNamespace /\
  (forall r, match getk t r with Some x => t_kind x = KNamespace /\ strip r rest <> None | None => strip r rest = None end).
Proof.
  induction ks as [|k ks IH]; intros t H; [discriminate|]. destruct ks as [|k' ks].
  - cbn in H. apply bind_ok in H as (a & Ha & H). injection H as <-. apply make_node_ok in Ha as (_ & ->). exists k, []. cbn. repeat (split; [reflexivity|]).
    intros [|r0 r]; cbn; [split; [reflexivity|discriminate]|reflexivity].
  - change (nest (k :: k' :: ks) []) with (t0 <- make_node k KNamespace ;; c <- nest (k' :: ks) [] ;; Ok (Node (t_name t0) KNamespace [c])) in H.
    apply bind_ok in H as (a & Ha & H). apply make_node_ok in Ha as (_ & ->). apply bind_ok in H as (c & Hc & H). injection H as <-.
    destruct (IH c Hc) as (k1 & rest & E & Nc & Kc & Gc). injection E as <- <-. exists k, (k' :: ks). cbn [t_name t_kind]. repeat (split; [reflexivity|]).
    intros [|r0 r]; cbn; [split; [reflexivity|discriminate]|]. rewrite Nc. rewrite String.eqb_sym. destruct (String.eqb r0 k') eqn:E0; [|reflexivity]. apply Gc.
Qed.

Lemma find_last_spec keys : forall t, find_keys t keys = None ->
  exists pre, keys = pre ++ snd (find_last t keys) /\ find_keys t pre = Some (fst (find_last t keys)) /\
    exists k r, snd (find_last t keys) = k :: r.
Proof.
  induction keys as [|k keys IH]; intros t H; cbn in *; [discriminate|]. destruct (child_pos (t_children t) k) as [i|] eqn:P.
  - destruct (nth_error (t_children t) i) as [c|] eqn:Hc; [|destruct (child_pos_some _ _ _ P) as (? & ? & _); congruence].
    destruct (find_keys c keys) as [m|] eqn:F; [discriminate|]. destruct (IH c F) as (pre & E & Fp & Nn). destruct (find_last c keys) as [l r]. cbn in *.
    exists (k :: pre). split; [now rewrite E at 1|]. split; [cbn; now rewrite P, Hc, Fp|exact Nn].
  - exists []. cbn. repeat split; eauto.
Qed.
Lemma find_keys_getk t ks : (exists l, find_keys t ks = Some l) <-> (exists u, getk t ks = Some u).
Proof.
  rewrite <- node_at_getk. unfold node_at. destruct (find_keys t ks) as [l|] eqn:F.
  - destruct (find_keys_loc _ _ _ F) as (_ & u & Hu). rewrite Hu. split; eauto.
  - split; intros (x & E); discriminate.
Qed.

(** the effect of [_ensure_namespace] *)
Lemma strip_none_app p l m : strip p l = None -> strip p (l ++ m) = None \/ exists q, p = l ++ q.
Proof.
  revert l. induction p as [|x p IH]; intros [|y l] H; cbn in *; try discriminate; [eauto|]. destruct (String.eqb_spec x y) as [->|E]; [|auto].
  destruct (IH l H) as [H'|(q & ->)]; eauto.
Qed.
Lemma strip_self a : strip a a = Some []. Proof. apply strip_spec. now rewrite app_nil_r. Qed.

Lemma ensure_getk root keys root' l : ensure_namespace root keys = Ok (root', l) ->
  t_name root' = t_name root /\ t_kind root' = t_kind root /\ find_keys root' keys = Some l /\
  (forall ks, match getk root' ks with
              | Some x => match getk root ks with
                          | Some y => t_name x = t_name y /\ t_kind x = t_kind y /\ (strip ks keys = None -> x = y)
                          | None => t_kind x = KNamespace /\ strip ks keys <> None
                          end
              | None => getk root ks = None /\ strip ks keys = None
              end).
Proof.
  intros H. apply ensure_namespace_ok in H as [(-> & F & _)|(N & first & Hn & Hi & F)].
  - split; [reflexivity|]. split; [reflexivity|]. split; [exact F|]. intros ks. destruct (getk root ks) eqn:E; [auto|]. split; [reflexivity|].
    destruct (strip ks keys) as [r|] eqn:S; [|reflexivity]. apply strip_spec in S. subst keys. exfalso.
    assert (X : exists u, getk root (ks ++ r) = Some u) by (apply find_keys_getk; eauto). rewrite getk_app, E in X. destruct X as (? & X). discriminate.
  - destruct (find_last_spec keys root N) as (pre & Ek & Fp & k & rr & Er). rewrite Er in *. destruct (nest_getk _ _ Hn) as (k1 & rest & E1 & N1 & K1 & G1). injection E1 as <- <-.
    destruct (insert_getk pre root _ first root' Fp Hi) as (A & B & Cn & Gin & Gout). split; [exact A|]. split; [exact B|]. split; [exact F|]. rewrite N1 in *.
    intros ks. destruct (strip (pre ++ [k]) ks) as [r|] eqn:S.
    + apply strip_spec in S. subst ks. rewrite <- app_assoc. cbn [app]. rewrite Gin.
      assert (Z : getk root (pre ++ k :: r) = None).
      { replace (pre ++ k :: r) with ((pre ++ [k]) ++ r) by (rewrite <- app_assoc; reflexivity). now rewrite getk_app, Cn. }
      rewrite Z. pose proof (G1 r) as G. assert (Es : strip (pre ++ k :: r) keys = strip r rr).
      { rewrite Ek. clear. induction pre as [|x pre IH]; cbn; rewrite String.eqb_refl; [reflexivity|exact IH]. }
      rewrite Es. destruct (getk first r); [exact G|auto].
    + specialize (Gout ks S). destruct (getk root' ks) as [x|] eqn:Ex, (getk root ks) as [y|] eqn:Ey; try contradiction.
      * destruct Gout as (G2 & G3 & G4). split; [exact G2|]. split; [exact G3|]. intros Sk. apply G4.
        destruct (strip ks pre) as [q|] eqn:Sp; [|reflexivity]. apply strip_spec in Sp. subst pre. exfalso. rewrite Ek, <- app_assoc in Sk.
        assert (strip ks (ks ++ q ++ k :: rr) = Some (q ++ k :: rr)) by now apply strip_spec. congruence.
      * split; [reflexivity|]. destruct (strip ks keys) as [q|] eqn:Sk; [|reflexivity]. exfalso. apply strip_spec in Sk. rewrite Ek in Sk.
        (* ks is a prefix of pre ++ k :: rr, not extending pre ++ [k]; so it is a prefix of pre *)
        assert (exists q', pre = ks ++ q') as (q' & Eq).
        { clear - Sk S. revert ks Sk S. induction pre as [|x pre IH]; intros ks Sk S.
          - destruct ks as [|y ks]; [now exists []|]. cbn in Sk. injection Sk as <- _. cbn in S. rewrite String.eqb_refl in S. discriminate.
          - destruct ks as [|y ks]; [now exists (x :: pre)|]. cbn in Sk. injection Sk as <- Sk. cbn in S. rewrite String.eqb_refl in S.
            destruct (IH ks Sk S) as (q' & ->). now exists q'. }
        assert (X : exists u, getk root pre = Some u) by (apply find_keys_getk; eauto). destruct X as (u & X). rewrite Eq, getk_app, Ey in X. discriminate.
Qed.

(** ** Processing a list of declarations *)
Definition decls := list (list string * list tree).
Definition decl (D : decls) (K : list string) (d : tree) : Prop := exists ds, In (K, ds) D /\ In d ds.
Definition ns (D : decls) (ks : list string) : Prop := exists K ds m, In (K, ds) D /\ K = ks ++ m.
Definition sep (D : decls) : Prop := forall K d m K' ds', decl D K d -> In (K', ds') D -> K' <> K ++ t_name d :: m.
Definition paths (D : decls) : list (list string) := flat_map (fun x => map (fun d => fst x ++ [t_name d]) (snd x)) D.
Definition twice {A} (x : A) (l : list A) : Prop := exists a b c, l = a ++ x :: b ++ x :: c.

Definition Inv (root : tree) (D : decls) : Prop :=
  t_kind root = KRoot /\
  (forall K d r, decl D K d -> getk root (K ++ t_name d :: r) = getk d r) /\
  (forall ks, ks <> [] -> ns D ks -> exists t, getk root ks = Some t /\ t_kind t = KNamespace) /\
  (forall ks t, getk root ks = Some t -> ks = [] \/ ns D ks \/ exists K d r, decl D K d /\ ks = K ++ t_name d :: r).

Lemma in_paths D p : In p (paths D) <-> exists K d, decl D K d /\ p = K ++ [t_name d].
Proof.
  unfold paths. rewrite in_flat_map. split.
  - intros ([K ds] & Hin & H). apply in_map_iff in H as (d & <- & Hd). cbn in *. exists K, d. split; [exists ds; auto|reflexivity].
  - intros (K & d & (ds & Hin & Hd) & ->). exists (K, ds). split; [exact Hin|]. cbn. apply in_map_iff. eauto.
Qed.
Lemma paths_app D E : paths (D ++ E) = paths D ++ paths E. Proof. apply flat_map_app. Qed.

Lemma nest_total ks : ks <> [] -> Forall (fun k => name_ok k = true) ks -> exists t, nest ks [] = Ok t.
Proof.
  induction ks as [|k ks IH]; [congruence|]. intros _ F. inversion F; subst. destruct ks as [|k' ks].
  - cbn. unfold make_node. rewrite H1. cbn. eauto.
  - change (nest (k :: k' :: ks) []) with (t0 <- make_node k KNamespace ;; c <- nest (k' :: ks) [] ;; Ok (Node (t_name t0) KNamespace [c])).
    destruct (IH ltac:(discriminate) H2) as (c & ->). unfold make_node. rewrite H1. cbn. eauto.
Qed.
Lemma find_last_max keys : forall t, find_keys t keys = None -> forall pre k r, keys = pre ++ k :: r ->
  find_keys t pre = Some (fst (find_last t keys)) -> snd (find_last t keys) = k :: r -> forall u, getk t pre = Some u -> ~ In k (map t_name (t_children u)).
Proof.
  induction keys as [|k0 keys IH]; intros t N pre k r E F S u G; [now destruct pre|]. cbn in N, F, S.
  destruct (child_pos (t_children t) k0) as [i|] eqn:P.
  - destruct (nth_error (t_children t) i) as [c|] eqn:Hc; [|destruct (child_pos_some _ _ _ P) as (? & ? & _); congruence].
    destruct (find_keys c keys) as [m|] eqn:Fc; [discriminate|]. destruct (find_last c keys) as [l rr] eqn:FL. cbn in F, S. subst rr.
    destruct pre as [|k1 pre]; cbn in F; [discriminate|]. cbn in E. injection E as <- E. rewrite P, Hc in F. destruct (find_keys c pre) as [m|] eqn:Fp; [|discriminate].
    injection F as ->. cbn in G. rewrite <- child_find, P, Hc in G. apply (IH c Fc pre k r E); [rewrite FL; exact Fp|rewrite FL; reflexivity|exact G].
  - cbn in F, S. injection S as <- <-. destruct pre as [|k1 pre]; [|exfalso; assert (L := f_equal (@List.length string) E); cbn in L; rewrite app_length in L; cbn in L; lia].
    cbn in G. injection G as <-. now apply child_pos_none.
Qed.
Lemma getk_at t ks u : getk t ks = Some u -> exists l, find_keys t ks = Some l /\ at_loc t l = Some u.
Proof. rewrite <- node_at_getk. unfold node_at. destruct (find_keys t ks) as [l|]; [eauto|discriminate]. Qed.

Lemma app_cases {A} (a b : list A) x y r s : a ++ x :: r = b ++ y :: s ->
  (a = b /\ x = y /\ r = s) \/ (exists q, b = a ++ x :: q) \/ (exists q, a = b ++ y :: q).
Proof.
  revert b. induction a as [|z a IH]; intros [|w b] H; cbn in H; injection H as -> H.
  - left. auto.
  - right. left. exists b. reflexivity.
  - right. right. exists a. reflexivity.
  - destruct (IH b H) as [(-> & E)|[(q & ->)|(q & ->)]]; [left; auto|right; left; now exists q|right; right; now exists q].
Qed.

Lemma sep_tail D x : sep (D ++ [x]) -> sep D.
Proof.
  intros S K d m K' ds' (ds & Hin & Hd) Hin'. apply (S K d m K' ds'); [|apply in_or_app; now left]. exists ds. split; [apply in_or_app; now left|exact Hd].
Qed.

Lemma ensure_step root D K : Inv root D -> sep D -> (forall K0 d m, decl D K0 d -> K <> K0 ++ t_name d :: m) -> K <> [] ->
  Forall (fun k => name_ok k = true) K -> exists root1 l, ensure_namespace root K = Ok (root1, l) /\ Inv root1 (D ++ [(K, [])]).
Proof.
  intros I S SK NK OK.
  assert (Ex : exists root1 l, ensure_namespace root K = Ok (root1, l)).
  { unfold ensure_namespace. destruct (find_keys root K) as [l|] eqn:F.
    - destruct (find_keys_loc _ _ _ F) as (_ & u & Hu). rewrite Hu. assert (Gk : getk root K = Some u) by (rewrite <- node_at_getk; unfold node_at; now rewrite F).
      destruct I as (_ & _ & I3 & I4). destruct (I4 K u Gk) as [E|[N|(K0 & d & r & Dd & E)]]; [contradiction| |now destruct (SK K0 d r Dd)].
      destruct (I3 K NK N) as (t & Ht & Kt). rewrite Gk in Ht. injection Ht as <-. unfold is_namespace. rewrite Kt. eauto.
    - destruct (find_last_spec K root F) as (pre & E & Fp & k & r & Er). pose proof (find_last_max K root F pre k r) as Mx.
      destruct (find_last root K) as [l rest]. cbn in *. subst rest. destruct (nest_total (k :: r)) as (first & Hn); [discriminate|rewrite E in OK; now apply Forall_app in OK|].
      rewrite Hn. cbn [bind]. destruct (nest_getk _ _ Hn) as (k1 & rest & E1 & N1 & K1 & G1). injection E1 as <- <-.
      destruct (find_keys_loc _ _ _ Fp) as (_ & u & Hu). assert (Gp : getk root pre = Some u) by (rewrite <- node_at_getk; unfold node_at; now rewrite Fp).
      specialize (Mx E Fp eq_refl u Gp). assert (Hi : exists root', insert_at root l first = Ok root').
      { unfold insert_at. rewrite Hu. unfold insert. rewrite N1. apply child_pos_none in Mx. rewrite Mx. cbn. eauto. }
      destruct Hi as (root' & Hi). rewrite Hi. cbn [bind]. destruct (insert_getk pre root l first root' Fp Hi) as (_ & _ & _ & Gin & _). rewrite N1 in Gin.
      assert (X : exists l', find_keys root' K = Some l').
      { apply find_keys_getk. rewrite E, Gin. specialize (G1 r). rewrite strip_self in G1. destruct (getk first r); [eauto|discriminate]. }
      destruct X as (l' & ->). eauto. }
  destruct Ex as (root1 & l & He). exists root1, l. split; [exact He|]. destruct (ensure_getk _ _ _ _ He) as (_ & Kr & Fl & G). destruct I as (I1 & I2 & I3 & I4).
  assert (Dd : forall K0 d, decl (D ++ [(K, [])]) K0 d <-> decl D K0 d).
  { intros K0 d. split; intros (ds & Hin & Hd); [apply in_app_or in Hin as [Hin|[[= <- <-]|[]]]; [exists ds; auto|contradiction]|exists ds; split; [apply in_or_app; auto|auto]]. }
  split; [congruence|]. split; [|split].
  - intros K0 d r H0. apply Dd in H0. rewrite <- (I2 K0 d r H0). specialize (G (K0 ++ t_name d :: r)).
    assert (Sn : strip (K0 ++ t_name d :: r) K = None).
    { destruct (strip (K0 ++ t_name d :: r) K) as [q|] eqn:Q; [|reflexivity]. exfalso. apply strip_spec in Q. rewrite <- app_assoc in Q. exact (SK K0 d _ H0 Q). }
    destruct (getk root1 (K0 ++ t_name d :: r)) as [x|], (getk root (K0 ++ t_name d :: r)) as [y|].
    + destruct G as (_ & _ & G). now rewrite G.
    + destruct G as (_ & G). now destruct G.
    + destruct G as (G & _). discriminate.
    + reflexivity.
  - intros ks Nk (K0 & ds & m & Hin & E). specialize (G ks). apply in_app_or in Hin as [Hin|[[= <- <-]|[]]].
    + destruct (I3 ks Nk) as (t & Ht & Kt); [exists K0, ds, m; auto|]. rewrite Ht in G. destruct (getk root1 ks) as [x|]; [|destruct G; discriminate].
      destruct G as (_ & Kx & _). exists x. split; [reflexivity|congruence].
    + destruct (getk root1 ks) as [x|].
      * exists x. split; [reflexivity|]. destruct (getk root ks) as [y|] eqn:Gy; [|now destruct G].
        destruct G as (_ & Kx & _). rewrite Kx. destruct (I4 ks y Gy) as [E'|[N'|(K1 & d & r & Dd' & E')]]; [contradiction| |].
        -- destruct (I3 ks Nk N') as (t & Ht & Kt). congruence.
        -- exfalso. subst ks. rewrite <- app_assoc in E. exact (SK K1 d _ Dd' E).
      * destruct G as (_ & G). exfalso. assert (strip ks K = Some m) by now apply strip_spec. congruence.
  - intros ks t Gt. specialize (G ks). rewrite Gt in G. destruct (getk root ks) as [y|] eqn:Gy.
    + destruct (I4 ks y Gy) as [E|[(K0 & ds & m & Hin & E)|(K0 & d & r & Hd & E)]]; [auto| |].
      * right. left. exists K0, ds, m. split; [apply in_or_app; auto|exact E].
      * right. right. exists K0, d, r. split; [now apply Dd|exact E].
    + destruct G as (_ & G). right. left. destruct (strip ks K) as [m|] eqn:Sm; [|congruence]. apply strip_spec in Sm. exists K, [], m. split; [apply in_or_app; right; now left|exact Sm].
Qed.

Lemma insert_step root D K done d l : Inv root (D ++ [(K, done)]) -> sep (D ++ [(K, done ++ [d])]) -> find_keys root K = Some l ->
  (exists root', insert_at root l d = Ok root' /\ Inv root' (D ++ [(K, done ++ [d])]) /\ find_keys root' K = Some l /\ ~ In (K ++ [t_name d]) (paths (D ++ [(K, done)])))
  \/ (insert_at root l d = Err (SymbolRedefinition (t_name d)) /\ In (K ++ [t_name d]) (paths (D ++ [(K, done)]))).
Proof.
  intros (I1 & I2 & I3 & I4) S F. destruct (find_keys_loc _ _ _ F) as (_ & u & Hu). assert (Gu : getk root K = Some u) by (rewrite <- node_at_getk; unfold node_at; now rewrite F).
  assert (Dnew : decl (D ++ [(K, done ++ [d])]) K d).
  { exists (done ++ [d]). split; [apply in_or_app; right; now left|apply in_or_app; right; now left]. }
  assert (Dd : forall K0 e, decl (D ++ [(K, done ++ [d])]) K0 e <-> decl (D ++ [(K, done)]) K0 e \/ (K0 = K /\ e = d)).
  { intros K0 e. split.
    - intros (ds & Hin & He). apply in_app_or in Hin as [Hin|[[= <- <-]|[]]]; [left; exists ds; split; [apply in_or_app; auto|exact He]|].
      apply in_app_or in He as [He|[<-|[]]]; [left; exists done; split; [apply in_or_app; right; now left|exact He]|auto].
    - intros [(ds & Hin & He)|(-> & ->)]; [|exact Dnew]. apply in_app_or in Hin as [Hin|[[= <- <-]|[]]]; [exists ds; split; [apply in_or_app; auto|exact He]|].
      exists (done ++ [d]). split; [apply in_or_app; right; now left|apply in_or_app; auto]. }
  assert (Nn : forall ks, ns (D ++ [(K, done ++ [d])]) ks <-> ns (D ++ [(K, done)]) ks).
  { intros ks. split; intros (K0 & ds & m & Hin & E); apply in_app_or in Hin as [Hin|[[= <- <-]|[]]];
      try (exists K0, ds, m; split; [apply in_or_app; auto|exact E]; fail); eexists K, _, m; (split; [apply in_or_app; right; left; reflexivity|exact E]). }
  assert (KIn : forall K0 e, decl (D ++ [(K, done ++ [d])]) K0 e -> exists ds, In (K0, ds) (D ++ [(K, done ++ [d])])) by (intros K0 e (ds & Hin & _); eauto).
  destruct (in_dec string_dec (t_name d) (map t_name (t_children u))) as [Yes|No].
  - right. split.
    + unfold insert_at. rewrite Hu. replace (insert u d) with (@Err tree (SymbolRedefinition (t_name d))); [reflexivity|]. symmetry. apply insert_err. auto.
    + assert (exists x, getk root (K ++ [t_name d]) = Some x) as (x & Gx).
      { rewrite getk_app, Gu. cbn. rewrite <- child_find. destruct (child_pos (t_children u) (t_name d)) as [i|] eqn:P; [|apply child_pos_none in P; contradiction].
        destruct (child_pos_some _ _ _ P) as (c & -> & _). eauto. }
      destruct (I4 _ _ Gx) as [E|[N|(K0 & e & r & He & E)]].
      * destruct K; discriminate.
      * exfalso. apply Nn in N as (K0 & ds & m & Hin & E). rewrite <- app_assoc in E. exact (S K d m K0 ds Dnew Hin E).
      * apply app_cases in E as [(-> & E & _)|[(q & E)|(q & E)]].
        -- apply in_paths. exists K0, e. split; [exact He|congruence].
        -- exfalso. destruct (KIn K0 e ltac:(apply Dd; auto)) as (ds & Hin). exact (S K d q K0 ds Dnew Hin E).
        -- exfalso. apply (S K0 e q K (done ++ [d])); [apply Dd; auto|apply in_or_app; right; now left|exact E].
  - left. assert (Hi : exists root', insert_at root l d = Ok root').
    { unfold insert_at. rewrite Hu. unfold insert. apply child_pos_none in No. rewrite No. cbn. eauto. }
    destruct Hi as (root' & Hi). destruct (insert_getk K root l d root' F Hi) as (_ & Kr & Nd & Gin & Gout). exists root'. split; [exact Hi|].
    assert (Np : ~ In (K ++ [t_name d]) (paths (D ++ [(K, done)]))).
    { intros Hin. apply in_paths in Hin as (K0 & e & He & E). apply app_inj_tail in E as (-> & E). pose proof (I2 K0 e [] He) as Q. rewrite <- E in Q. rewrite Nd in Q. discriminate. }
    split; [|split; [|exact Np]].
    + split; [congruence|]. split; [|split].
      * intros K0 e r He. apply Dd in He as [He|(-> & ->)]; [|apply Gin]. rewrite <- (I2 K0 e r He).
        assert (Sn : strip (K ++ [t_name d]) (K0 ++ t_name e :: r) = None).
        { destruct (strip (K ++ [t_name d]) (K0 ++ t_name e :: r)) as [q|] eqn:Q; [|reflexivity]. exfalso. apply strip_spec in Q. rewrite <- app_assoc in Q. cbn in Q.
          apply app_cases in Q as [(-> & E & _)|[(p & E)|(p & E)]].
          - apply Np. apply in_paths. exists K, e. split; [exact He|congruence].
          - apply (S K0 e p K (done ++ [d])); [apply Dd; auto|apply in_or_app; right; now left|exact E].
          - destruct (KIn K0 e ltac:(apply Dd; auto)) as (ds & Hin). exact (S K d p K0 ds Dnew Hin E). }
        assert (Sk : strip (K0 ++ t_name e :: r) K = None).
        { destruct (strip (K0 ++ t_name e :: r) K) as [q|] eqn:Q; [|reflexivity]. exfalso. apply strip_spec in Q. rewrite <- app_assoc in Q.
          apply (S K0 e (r ++ q) K (done ++ [d])); [apply Dd; auto|apply in_or_app; right; now left|exact Q]. }
        specialize (Gout _ Sn). destruct (getk root' (K0 ++ t_name e :: r)) as [x|], (getk root (K0 ++ t_name e :: r)) as [y|]; try contradiction; [|reflexivity]. destruct Gout as (_ & _ & Gout). now rewrite Gout.
      * intros ks Nk N. apply Nn in N. destruct (I3 ks Nk N) as (t & Ht & Kt).
        assert (Sn : strip (K ++ [t_name d]) ks = None).
        { destruct (strip (K ++ [t_name d]) ks) as [q|] eqn:Q; [|reflexivity]. exfalso. apply strip_spec in Q. apply Nn in N as (K0 & ds & m & Hin & E). subst ks.
          rewrite <- !app_assoc in E. exact (S K d _ K0 ds Dnew Hin E). }
        specialize (Gout _ Sn). rewrite Ht in Gout. destruct (getk root' ks) as [x|]; [|contradiction]. destruct Gout as (_ & Kx & _). exists x. split; [reflexivity|congruence].
      * intros ks t Gt. destruct (strip (K ++ [t_name d]) ks) as [q|] eqn:Q.
        -- apply strip_spec in Q. right. right. exists K, d, q. split; [apply Dd; auto|]. rewrite Q, <- app_assoc. reflexivity.
        -- specialize (Gout _ Q). rewrite Gt in Gout. destruct (getk root ks) as [y|] eqn:Gy; [|contradiction].
           destruct (I4 ks y Gy) as [E|[N|(K0 & e & r & He & E)]]; [auto|right; left; now apply Nn|right; right; exists K0, e, r; split; [apply Dd; auto|exact E]].
    + destruct (find_keys_loc _ _ _ F) as (Nl & _). pose proof (insert_at_names root l d root' l _ Hi Nl) as Nl'.
      assert (X : exists l', find_keys root' K = Some l').
      { apply find_keys_getk. assert (Sn : strip (K ++ [t_name d]) K = None).
        { destruct (strip (K ++ [t_name d]) K) as [q|] eqn:Q; [|reflexivity]. apply strip_spec in Q. exfalso. assert (L := f_equal (@List.length string) Q). rewrite !app_length in L. cbn in L. lia. }
        specialize (Gout K Sn). rewrite Gu in Gout. destruct (getk root' K); [eauto|contradiction]. }
      (* the position is unchanged: names before are unchanged *)
      clear - F Hi. revert root root' l F Hi. induction K as [|k K IH]; intros root root' l F Hi; cbn in *; [congruence|].
      destruct (child_pos (t_children root) k) as [i|] eqn:P; [|discriminate]. destruct (nth_error (t_children root) i) as [c|] eqn:Hc; [|discriminate].
      destruct (find_keys c K) as [m|] eqn:Fc; [|discriminate]. injection F as <-. apply insert_at_inv in Hi as (v & Hv & N & ->). cbn in Hv. rewrite Hc in Hv. destruct root as [n0 k0 cs0]. cbn in *.
      assert (Hi' : insert_at c m d = Ok (modify c m (fun _ => Node (t_name v) (t_kind v) (t_children v ++ [d])))).
      { unfold insert_at. rewrite Hv. unfold insert. apply child_pos_none in N. now rewrite N. }
      pose proof (IH c _ m Fc Hi') as R. destruct (insert_at_root _ _ _ _ Hi') as (Nn & _).
      assert (Q : child_pos (upd cs0 i (fun c0 => modify c0 m (fun _ => Node (t_name v) (t_kind v) (t_children v ++ [d])))) k = Some i).
      { clear - P Hc Nn. revert i P Hc. induction cs0 as [|x cs IHc]; intros i P Hc; [now destruct i|]. destruct i as [|i]; cbn in *.
        - injection Hc as ->. rewrite Nn. destruct (String.eqb (t_name c) k); [reflexivity|]. destruct (child_pos cs k); discriminate.
        - destruct (String.eqb (t_name x) k); [discriminate|]. destruct (child_pos cs k) as [j|] eqn:Pj; [|discriminate]. cbn in P. injection P as ->. now rewrite (IHc i eq_refl Hc). }
      rewrite Q, upd_same, Hc. cbn. now rewrite R.
Qed.

Lemma twice_app_l {A} (x : A) l m : twice x l -> twice x (l ++ m).
Proof. intros (a & b & c & ->). exists a, b, (c ++ m). rewrite <- !app_assoc. cbn. now rewrite <- app_assoc. Qed.
Lemma twice_snoc {A} (x : A) l : In x l -> twice x (l ++ [x]).
Proof. intros H. apply in_split in H as (a & b & ->). exists a, b, []. now rewrite <- app_assoc. Qed.
Lemma twice_nodup {A} (x : A) l : twice x l -> ~ NoDup l.
Proof. intros (a & b & c & ->) ND. apply NoDup_remove_2 in ND. apply ND. apply in_or_app. right. apply in_or_app. right. now left. Qed.

Lemma sep_incl D E : (forall K d, decl E K d -> decl D K d) -> (forall K, (exists ds, In (K, ds) E) -> exists ds, In (K, ds) D) -> sep D -> sep E.
Proof.
  intros Hd Hk S K d m K' ds' H Hin. destruct (Hk K') as (ds & Hin'); [eauto|]. exact (S K d m K' ds (Hd _ _ H) Hin').
Qed.

Lemma insert_fold ds : forall root D K done l, Inv root (D ++ [(K, done)]) -> sep (D ++ [(K, done ++ ds)]) -> find_keys root K = Some l -> NoDup (paths (D ++ [(K, done)])) ->
  (exists root', foldM (fun root c => insert_at root l c) root ds = Ok root' /\ Inv root' (D ++ [(K, done ++ ds)]) /\ NoDup (paths (D ++ [(K, done ++ ds)])))
  \/ (exists n, foldM (fun root c => insert_at root l c) root ds = Err (SymbolRedefinition n) /\ twice (K ++ [n]) (paths (D ++ [(K, done ++ ds)]))).
Proof.
  induction ds as [|d ds IH]; intros root D K done l I S F ND; cbn [foldM].
  - left. exists root. rewrite app_nil_r. auto.
  - assert (E : done ++ d :: ds = (done ++ [d]) ++ ds) by (rewrite <- app_assoc; reflexivity). rewrite E in S |- *.
    assert (S1 : sep (D ++ [(K, done ++ [d])])).
    { apply (sep_incl (D ++ [(K, (done ++ [d]) ++ ds)])); [| |exact S].
      - intros K0 e (es & Hin & He). apply in_app_or in Hin as [Hin|[[= <- <-]|[]]]; [exists es; split; [apply in_or_app; auto|exact He]|].
        eexists. split; [apply in_or_app; right; now left|apply in_or_app; now left].
      - intros K0 (es & Hin). apply in_app_or in Hin as [Hin|[[= <- <-]|[]]]; [exists es; apply in_or_app; auto|]. eexists. apply in_or_app. right. now left. }
    assert (Pd : paths (D ++ [(K, done ++ [d])]) = paths (D ++ [(K, done)]) ++ [K ++ [t_name d]]).
    { rewrite !paths_app. unfold paths at 2 4. cbn. rewrite !app_nil_r, map_app, app_assoc. reflexivity. }
    assert (Pl : paths (D ++ [(K, (done ++ [d]) ++ ds)]) = paths (D ++ [(K, done ++ [d])]) ++ map (fun d => K ++ [t_name d]) ds).
    { rewrite !paths_app. unfold paths at 2 4. cbn. rewrite !app_nil_r, (map_app _ (done ++ [d])), app_assoc. reflexivity. }
    destruct (insert_step root D K done d l I S1 F) as [(root' & Hi & I' & F' & Np)|(Hi & Hp)]; rewrite Hi; cbn [bind].
    + apply (IH root' D K (done ++ [d]) l I'); [exact S|exact F'|]. rewrite Pd. now apply NoDup_snoc.
    + right. exists (t_name d). split; [reflexivity|]. rewrite Pl, Pd. apply twice_app_l. now apply twice_snoc.
Qed.

Definition keys_ok (D : decls) : Prop := Forall (fun x => fst x <> [] /\ Forall (fun k => name_ok k = true) (fst x)) D.
Lemma new_root_inv : Inv new_root [].
Proof.
  split; [reflexivity|]. split; [intros K d r (ds & [] & _)|]. split; [intros ks _ (K & ds & m & [] & _)|].
  intros [|k ks] t H; [auto|discriminate].
Qed.
Lemma inv_ext root D E : (forall K d, decl D K d <-> decl E K d) -> (forall ks, ns D ks <-> ns E ks) -> Inv root D -> Inv root E.
Proof.
  intros Hd Hn (I1 & I2 & I3 & I4). split; [exact I1|]. split; [intros K d r H; apply I2; now apply Hd|]. split; [intros ks Nk H; apply I3; [exact Nk|now apply Hn]|].
  intros ks t G. destruct (I4 ks t G) as [E0|[N|(K & d & r & H & E0)]]; [auto|right; left; now apply Hn|right; right; exists K, d, r; split; [now apply Hd|exact E0]].
Qed.
Lemma merge_fold D2 : forall root D1, Inv root D1 -> NoDup (paths D1) -> sep (D1 ++ D2) -> keys_ok D2 ->
  (exists root', foldM merge_one root D2 = Ok root' /\ Inv root' (D1 ++ D2) /\ NoDup (paths (D1 ++ D2)))
  \/ (exists n K, foldM merge_one root D2 = Err (SymbolRedefinition n) /\ twice (K ++ [n]) (paths (D1 ++ D2))).
Proof.
  induction D2 as [|[K ds] D2 IH]; intros root D1 I ND S OK; cbn [foldM].
  - left. exists root. rewrite app_nil_r. auto.
  - inversion OK as [|x y (NK & OKk) OK2]; subst. cbn in NK, OKk. assert (E : D1 ++ (K, ds) :: D2 = (D1 ++ [(K, ds)]) ++ D2) by (rewrite <- app_assoc; reflexivity). rewrite E in S |- *.
    assert (S1 : sep (D1 ++ [(K, ds)])).
    { apply (sep_incl ((D1 ++ [(K, ds)]) ++ D2)); [| |exact S].
      - intros K0 d (es & Hin & He). exists es. split; [apply in_or_app; auto|exact He].
      - intros K0 (es & Hin). exists es. apply in_or_app. auto. }
    destruct (ensure_step root D1 K I) as (root1 & l & He & I1).
    { exact (sep_tail _ _ S1). }
    { intros K0 d m (es & Hin & Hd). apply (S1 K0 d m K ds); [exists es; split; [apply in_or_app; auto|exact Hd]|apply in_or_app; right; now left]. }
    { exact NK. } { exact OKk. }
    destruct (ensure_getk _ _ _ _ He) as (_ & _ & Fl & _).
    assert (P1 : paths (D1 ++ [(K, [])]) = paths D1) by (rewrite paths_app; unfold paths at 2; cbn; now rewrite app_nil_r).
    unfold merge_one at 1 3. cbn [fst snd]. rewrite He. cbn [bind].
    destruct (insert_fold ds root1 D1 K [] l I1 S1 Fl ltac:(now rewrite P1)) as [(root2 & H2 & I2 & ND2)|(n & H2 & T)]; rewrite H2; cbn [bind app] in *.
    + apply (IH root2 (D1 ++ [(K, ds)]) I2 ND2 S OK2).
    + right. exists n, K. split; [reflexivity|]. rewrite paths_app. now apply twice_app_l.
Qed.

(** Trees with the same declarations are the same, up to the order of definitions *)
Lemma inv_same a b D E : (forall K d, decl D K d <-> decl E K d) -> (forall ks, ns D ks <-> ns E ks) -> Inv a D -> Inv b E -> same_definitions a b.
Proof.
  intros Hd Hn Ia Ib. apply (inv_ext b E D) in Ib; [|intros; symmetry; apply Hd|intros; symmetry; apply Hn]. clear E Hd Hn.
  intros ks. rewrite !node_at_getk. destruct Ia as (A1 & A2 & A3 & A4), Ib as (B1 & B2 & B3 & B4).
  assert (Def : forall K d r, decl D K d -> ks = K ++ t_name d :: r -> getk a ks = getk b ks).
  { intros K d r H ->. now rewrite (A2 K d r H), (B2 K d r H). }
  destruct (getk a ks) as [x|] eqn:Ga.
  - destruct (A4 ks x Ga) as [->|[N|(K & d & r & H & E)]].
    + cbn in *. injection Ga as <-. split; [congruence|]. intros _ Hr. congruence.
    + destruct ks as [|k ks']; [cbn in *; injection Ga as <-; split; [congruence|intros _ Hr; congruence]|].
      destruct (A3 (k :: ks') ltac:(discriminate) N) as (t & Ht & Kt). rewrite Ga in Ht. injection Ht as <-. destruct (B3 (k :: ks') ltac:(discriminate) N) as (t & Ht & Kt'). rewrite Ht.
      split; [congruence|]. intros Hk. congruence.
    + rewrite <- (Def K d r H E). auto.
  - destruct (getk b ks) as [y|] eqn:Gb; [|exact I]. destruct (B4 ks y Gb) as [->|[N|(K & d & r & H & E)]].
    + discriminate.
    + destruct ks as [|k ks']; [discriminate|]. destruct (A3 (k :: ks') ltac:(discriminate) N) as (t & Ht & _). congruence.
    + specialize (Def K d r H E). discriminate.
Qed.

(** ** Declarations of a schema *)
Lemma constant_name p t : create_constant p = Ok t -> t_name t = pc_name p.
Proof. unfold create_constant. intros H. apply bind_ok in H as (a & Ha & H). apply make_node_ok in Ha as (_ & ->). apply bind_ok in H as (v & _ & H). now injection H as <-. Qed.
Lemma insert_name t c t' : insert t c = Ok t' -> t_name t' = t_name t.
Proof. intros H. apply insert_ok in H as (_ & ->). reflexivity. Qed.
Lemma insert_all_name cs t t' : insert_all t cs = Ok t' -> t_name t' = t_name t.
Proof. intros H. destruct (insert_all_ok _ _ _ H) as (ds & _ & -> & _). reflexivity. Qed.
Lemma structure_name p t : create_structure p = Ok t -> t_name t = ps_name p.
Proof. unfold create_structure. intros H. apply bind_ok in H as (a & Ha & H). apply make_node_ok in Ha as (_ & ->). now apply insert_all_name in H. Qed.
Lemma enumeration_name so p t : create_enumeration so p = Ok t -> t_name t = pe_name p.
Proof.
  unfold create_enumeration. intros H. apply bind_ok in H as ([b vs] & _ & H). apply bind_ok in H as (a & Ha & H). apply make_node_ok in Ha as (_ & ->).
  apply bind_ok in H as (cs & _ & H). now injection H as <-.
Qed.
Lemma archive_name p t : create_archive p = Ok t -> t_name t = pa_name p.
Proof.
  unfold create_archive. intros H. apply bind_ok in H as (a & Ha & H). apply make_node_ok in Ha as (_ & ->). apply bind_ok in H as (b & Hb & H).
  apply insert_all_name in H. apply insert_all_name in Hb. cbn in *. congruence.
Qed.

Definition creations (so : list Z -> list Z) (p : pnamespace) : list (res tree) :=
  map create_constant (pn_constants p) ++ map create_structure (pn_structures p) ++ map (create_enumeration so) (pn_enumerations p) ++ map create_archive (pn_archives p).
Lemma creations_names so p ds : Forall2 (fun rc d => rc = Ok d) (creations so p) ds -> map t_name ds = def_names p.
Proof.
  unfold creations, def_names. intros F. apply Forall2_app_inv_l in F as (d1 & r1 & F1 & F & ->). apply Forall2_app_inv_l in F as (d2 & r2 & F2 & F & ->).
  apply Forall2_app_inv_l in F as (d3 & d4 & F3 & F4 & ->). rewrite !map_app.
  assert (G : forall {A} (f : A -> res tree) (nm : A -> string) l ds, (forall x t, f x = Ok t -> t_name t = nm x) -> Forall2 (fun rc d => rc = Ok d) (map f l) ds -> map t_name ds = map nm l).
  { intros A f nm l. induction l as [|x l IH]; intros ds0 Hn F0; cbn in F0; inversion F0; subst; [reflexivity|]. cbn. now rewrite (Hn x y H1), (IH l' Hn H3). }
  rewrite (G _ _ pc_name _ _ constant_name F1), (G _ _ ps_name _ _ structure_name F2), (G _ _ pe_name _ _ (enumeration_name so) F3), (G _ _ pa_name _ _ archive_name F4). reflexivity.
Qed.
Lemma insert_all_iff cs : forall t, (exists t', insert_all t cs = Ok t') <-> exists ds, Forall2 (fun rc d => rc = Ok d) cs ds /\
  NoDup (map t_name ds) /\ (forall d, In d ds -> ~ In (t_name d) (map t_name (t_children t))).
Proof.
  unfold insert_all. induction cs as [|rc cs IH]; intros t; cbn [foldM].
  - split; [intros _; exists []; repeat constructor; intros d []|intros _; eauto].
  - destruct rc as [c|e]; cbn [bind].
    + destruct (in_dec string_dec (t_name c) (map t_name (t_children t))) as [Y|N].
      * replace (insert t c) with (@Err tree (SymbolRedefinition (t_name c))) by (symmetry; apply insert_err; auto). cbn. split; [intros (? & ?); discriminate|].
        intros (ds & F & _ & Hn). inversion F; subst. injection H1 as ->. exfalso. exact (Hn y (or_introl eq_refl) Y).
      * replace (insert t c) with (Ok (Node (t_name t) (t_kind t) (t_children t ++ [c]))) by (symmetry; apply insert_ok; auto). cbn [bind]. rewrite IH. cbn [t_children]. split.
        -- intros (ds & F & ND & Hn). exists (c :: ds). split; [constructor; auto|]. split.
           ++ cbn. constructor; [|exact ND]. intros Hin. apply in_map_iff in Hin as (d & Ed & Hd). apply (Hn d Hd). rewrite Ed, map_app. apply in_or_app. right. now left.
           ++ intros d [<-|Hd]; [exact N|]. intros Q. apply (Hn d Hd). rewrite map_app. apply in_or_app. now left.
        -- intros (ds & F & ND & Hn). inversion F; subst. injection H1 as ->. cbn in ND. inversion ND; subst. exists l'. split; [exact H3|]. split; [assumption|].
           intros d Hd Q. rewrite map_app in Q. apply in_app_or in Q as [Q|[Q|[]]]; [exact (Hn d (or_intror Hd) Q)|]. apply H1. rewrite Q. now apply in_map.
    + split; [intros (? & ?); discriminate|]. intros (ds & F & _). inversion F; subst. discriminate.
Qed.

Definition ns_name_ok (p : pnamespace) : Prop := match pn_name p with String "." _ => False | _ => True end /\ Forall (fun k => name_ok k = true) (ns_keys p).
Lemma nest_iff ks : ks <> [] -> (exists t, nest ks [] = Ok t) <-> Forall (fun k => name_ok k = true) ks.
Proof.
  intros N. split; [|now apply nest_total]. intros (t & H). now destruct (nest_ok _ _ _ H) as (k & r & -> & _ & _ & F).
Qed.
(** When the definitions of one namespace declaration can be created, and what they are *)
Lemma create_definitions_spec so p : 
  (forall K ds, create_definitions so p = Ok (K, ds) <-> K = ns_keys p /\ ns_name_ok p /\ Forall2 (fun rc d => rc = Ok d) (creations so p) ds /\ NoDup (def_names p)).
Proof.
  intros K ds. unfold create_definitions. fold (ns_keys p). fold (creations so p).
  assert (Kn : ns_keys p <> []) by apply split_nonempty. pose proof (nest_iff _ Kn) as Nst. split.
  - intros H. destruct (match pn_name p with String "." _ => true | _ => false end) eqn:Dt; [discriminate|]. apply bind_ok in H as (a & Ha & H). apply bind_ok in H as (t & Ht & H).
    injection H as <- <-. split; [reflexivity|]. split; [split; [|apply Nst; eauto]|].
    + destruct (pn_name p) as [|c s]; [exact I|]. destruct c as [[] [] [] [] [] [] [] []]; try exact I; discriminate.
    + destruct (insert_all_ok _ _ _ Ht) as (es & F & -> & ND). cbn in *. split; [exact F|]. rewrite <- (creations_names _ _ _ F). apply ND. constructor.
  - intros (-> & (Dt & NK) & F & ND). replace (match pn_name p with String "." _ => true | _ => false end) with false.
    2:{ destruct (pn_name p) as [|c s]; [reflexivity|]. destruct c as [[] [] [] [] [] [] [] []]; try reflexivity; contradiction. }
    destruct (proj2 Nst NK) as (a & Ha). rewrite Ha. cbn [bind].
    destruct (proj2 (insert_all_iff (creations so p) (Node "" KNamespace []))) as (t & Ht).
    { exists ds. split; [exact F|]. split; [now rewrite (creations_names _ _ _ F)|]. intros d _ []. }
    rewrite Ht. cbn [bind]. destruct (insert_all_ok _ _ _ Ht) as (es & F' & -> & _). cbn. do 2 f_equal.
    clear - F F'. revert es F'. induction F; intros es F'; inversion F'; subst; [reflexivity|]. f_equal; [congruence|auto].
Qed.

(** ** Schemas *)
Definition made (so : list Z -> list Z) (s : pschema) (D : decls) : Prop :=
  Forall2 (fun p x => fst x = ns_keys p /\ ns_name_ok p /\ creations so p = map Ok (snd x)) s D.
Definition all_paths (s : pschema) : list (list string) := flat_map (fun p => map (fun n => ns_keys p ++ [n]) (def_names p)) s.

Lemma all_ok_map {A} (cs : list (res A)) ds : Forall2 (fun rc d => rc = Ok d) cs ds <-> cs = map Ok ds.
Proof.
  split; [induction 1; cbn; congruence|]. intros ->. induction ds; constructor; auto.
Qed.
Lemma made_paths so s D : made so s D -> paths D = all_paths s.
Proof.
  induction 1 as [|p [K ds] s D (E1 & _ & E3) F IH]; [reflexivity|]. unfold paths, all_paths in *. cbn [flat_map fst snd] in *. rewrite IH. f_equal. subst K.
  rewrite <- (creations_names so p ds) by now apply all_ok_map. now rewrite map_map.
Qed.
Lemma made_in so s D K ds : made so s D -> In (K, ds) D -> exists p, In p s /\ K = ns_keys p /\ map t_name ds = def_names p.
Proof.
  induction 1 as [|p [K0 ds0] s D (E1 & _ & E3) F IH]; [intros []|]. intros [[= -> ->]|Hin].
  - exists p. split; [now left|]. split; [exact E1|]. apply (creations_names so p). now apply all_ok_map.
  - destruct (IH Hin) as (q & Hq & R). exists q. split; [now right|exact R].
Qed.
Lemma made_sep so s D : separated s -> made so s D -> sep D.
Proof.
  intros S M K d m K' ds' (ds & Hin & Hd) Hin'. destruct (made_in _ _ _ _ _ M Hin) as (p & Hp & -> & En). destruct (made_in _ _ _ _ _ M Hin') as (q & Hq & -> & _).
  apply S; auto. rewrite <- En. now apply in_map.
Qed.
Lemma made_keys so s D : made so s D -> keys_ok D.
Proof.
  induction 1 as [|p [K ds] s D (E1 & (_ & E2) & _) F IH]; [constructor|]. constructor; [|exact IH]. cbn in *. subst K. split; [apply split_nonempty|exact E2].
Qed.
Lemma NoDup_app_remove_l {A} (l l' : list A) : NoDup (l ++ l') -> NoDup l'.
Proof. induction l; cbn; [auto|]. intros H. inversion H; auto. Qed.
Lemma NoDup_app_remove_r {A} (l l' : list A) : NoDup (l ++ l') -> NoDup l.
Proof. induction l as [|x l IH]; cbn; [constructor|]. intros H. inversion H; subst. constructor; [|auto]. intros Q. apply H2. apply in_or_app. now left. Qed.
Lemma nodup_flat {A B} (f : A -> list B) l x : NoDup (flat_map f l) -> In x l -> NoDup (f x).
Proof.
  induction l as [|y l IH]; [intros _ []|]. cbn. intros H Hin. destruct Hin as [->|Hin]; [now apply NoDup_app_remove_r in H|]. apply NoDup_app_remove_l in H. auto.
Qed.
Lemma made_mapM so s D : made so s D -> NoDup (paths D) -> mapM (create_definitions so) s = Ok D.
Proof.
  intros M ND. apply mapM_ok. rewrite (made_paths _ _ _ M) in ND. induction M as [|p [K ds] s D (E1 & E2 & E3) F IH]; [constructor|]. constructor.
  - apply create_definitions_spec. cbn in *. split; [exact E1|]. split; [exact E2|]. split; [now apply all_ok_map|].
    assert (N : NoDup (map (fun n => ns_keys p ++ [n]) (def_names p))) by exact (NoDup_app_remove_r _ _ ND). now apply NoDup_map_inv in N.
  - apply IH. exact (NoDup_app_remove_l _ _ ND).
Qed.
Lemma mapM_made so s D : mapM (create_definitions so) s = Ok D -> made so s D.
Proof.
  intros H. apply mapM_ok in H. induction H as [|p [K ds] s D E F IH]; [constructor|]. constructor; [|exact IH]. cbn. apply create_definitions_spec in E as (E1 & E2 & E3 & _).
  split; [exact E1|]. split; [exact E2|]. now apply all_ok_map.
Qed.

(** A schema is accepted by the first pass exactly if its definitions can be created and their paths differ; the tree then has
    those definitions and nothing else. *)
Lemma build_iff so s : separated s -> forall t, build_node_tree so s = Ok t -> exists D, made so s D /\ NoDup (paths D) /\ Inv t D.
Proof.
  intros S t H. unfold build_node_tree in H. apply bind_ok in H as (D & HD & H). apply mapM_made in HD. exists D. split; [exact HD|].
  destruct (merge_fold D new_root [] new_root_inv ltac:(constructor) (made_sep _ _ _ S HD) (made_keys _ _ _ HD)) as [(r & E & I & ND)|(n & K & E & _)].
  - cbn in *. rewrite H in E. injection E as <-. auto.
  - rewrite H in E. discriminate.
Qed.
Lemma build_total so s D : separated s -> made so s D -> NoDup (paths D) -> exists t, build_node_tree so s = Ok t /\ Inv t D.
Proof.
  intros S M ND. unfold build_node_tree. rewrite (made_mapM _ _ _ M ND). cbn [bind].
  destruct (merge_fold D new_root [] new_root_inv ltac:(constructor) (made_sep _ _ _ S M) (made_keys _ _ _ M)) as [(r & E & I & _)|(n & K & E & T)].
  - eauto.
  - exfalso. now apply (twice_nodup _ _ T).
Qed.

(** Duplicates *)
Lemma insert_all_dup ds : forall t, (exists n, insert_all t (map Ok ds) = Err (SymbolRedefinition n) /\ (twice n (map t_name (t_children t) ++ map t_name ds)))
  \/ (exists t', insert_all t (map Ok ds) = Ok t').
Proof.
  unfold insert_all. induction ds as [|d ds IH]; intros t; cbn [map foldM bind]; [right; eauto|].
  destruct (in_dec string_dec (t_name d) (map t_name (t_children t))) as [Y|N].
  - left. exists (t_name d). replace (insert t d) with (@Err tree (SymbolRedefinition (t_name d))) by (symmetry; apply insert_err; auto). cbn. split; [reflexivity|].
    apply in_split in Y as (a & b & ->). exists a, b, (map t_name ds). now rewrite <- app_assoc.
  - replace (insert t d) with (Ok (Node (t_name t) (t_kind t) (t_children t ++ [d]))) by (symmetry; apply insert_ok; auto). cbn [bind].
    destruct (IH (Node (t_name t) (t_kind t) (t_children t ++ [d]))) as [(n & E & T)|E]; [|right; exact E]. left. exists n. split; [exact E|].
    cbn [t_children] in T. rewrite map_app, <- app_assoc in T. exact T.
Qed.
Lemma twice_map {A B} (f : A -> B) x l : twice x l -> twice (f x) (map f l).
Proof. intros (a & b & c & ->). exists (map f a), (map f b), (map f c). rewrite !map_app. cbn. rewrite map_app. reflexivity. Qed.
Lemma twice_app_r {A} (x : A) l m : twice x m -> twice x (l ++ m).
Proof. intros (a & b & c & ->). exists (l ++ a), b, c. now rewrite <- app_assoc. Qed.
Lemma create_dup so p ds : ns_name_ok p -> creations so p = map Ok ds ->
  create_definitions so p = Ok (ns_keys p, ds) \/ exists n, create_definitions so p = Err (SymbolRedefinition n) /\ twice n (def_names p).
Proof.
  intros N M. assert (F := proj2 (all_ok_map _ _) M). destruct (insert_all_dup ds (Node "" KNamespace [])) as [(n & E & T)|(t & E)].
  - right. exists n. cbn [t_children map] in T. cbn [app] in T. rewrite (creations_names _ _ _ F) in T. split; [|exact T]. destruct N as (Dt & NK).
    unfold create_definitions. fold (ns_keys p). fold (creations so p). replace (match pn_name p with String "." _ => true | _ => false end) with false.
    2:{ destruct (pn_name p) as [|c s]; [reflexivity|]. destruct c as [[] [] [] [] [] [] [] []]; try reflexivity; contradiction. }
    destruct (nest_total (ns_keys p) (split_nonempty _ _) NK) as (a & Ha). rewrite Ha. cbn [bind]. rewrite M, E. reflexivity.
  - left. apply create_definitions_spec. split; [reflexivity|]. split; [exact N|]. split; [exact F|].
    destruct (insert_all_ok _ _ _ E) as (es & F' & -> & ND). rewrite <- (creations_names _ _ _ F). assert (es = ds); [|subst; apply ND; constructor].
    apply all_ok_map in F'. clear -F'. revert es F'. induction ds as [|d ds IH]; intros [|e es] F'; try discriminate; [reflexivity|]. injection F' as -> F'. f_equal. auto.
Qed.
Lemma build_dup so s D : separated s -> made so s D ->
  (exists t, build_node_tree so s = Ok t /\ NoDup (all_paths s))
  \/ exists n K, build_node_tree so s = Err (SymbolRedefinition n) /\ twice (K ++ [n]) (all_paths s).
Proof.
  intros S M. assert (C : mapM (create_definitions so) s = Ok D \/ exists n K, mapM (create_definitions so) s = Err (SymbolRedefinition n) /\ twice (K ++ [n]) (all_paths s)).
  { clear S. induction M as [|p [K ds] s D (E1 & E2 & E3) F IH]; [left; reflexivity|]. cbn [fst snd] in *. cbn [mapM].
    destruct (create_dup so p ds E2 E3) as [E|(n & E & T)]; rewrite E; cbn [bind].
    - destruct IH as [IH|(n & K0 & IH & T)]; rewrite IH; cbn [bind]; [left; now rewrite E1|right]. exists n, K0. split; [reflexivity|]. unfold all_paths. cbn. now apply twice_app_r.
    - right. exists n, (ns_keys p). split; [reflexivity|]. unfold all_paths. cbn. apply twice_app_l. now apply (twice_map (fun n => ns_keys p ++ [n])). }
  unfold build_node_tree. destruct C as [C|(n & K & C & T)]; rewrite C; cbn [bind]; [|right; eauto].
  destruct (merge_fold D new_root [] new_root_inv ltac:(constructor) (made_sep _ _ _ S M) (made_keys _ _ _ M)) as [(r & E & I & ND)|(n & K & E & T)]; cbn [app] in *.
  - left. exists r. rewrite <- (made_paths _ _ _ M). auto.
  - right. exists n, K. rewrite <- (made_paths _ _ _ M). auto.
Qed.

(** Two declarations of a namespace *)
Lemma creations_merged so p q : Permutation (creations so (merged p q)) (creations so p ++ creations so q).
Proof.
  unfold creations, merged. cbn. rewrite !map_app.
  set (a := map create_constant (pn_constants p)). set (a' := map create_constant (pn_constants q)).
  set (b := map create_structure (pn_structures p)). set (b' := map create_structure (pn_structures q)).
  set (c := map (create_enumeration so) (pn_enumerations p)). set (c' := map (create_enumeration so) (pn_enumerations q)).
  set (d := map create_archive (pn_archives p)). set (d' := map create_archive (pn_archives q)).
  assert (Sh : forall x x' y y' : list (res tree), Permutation ((x ++ x') ++ (y ++ y')) ((x ++ y) ++ (x' ++ y'))).
  { intros x x' y y'. rewrite <- !app_assoc. apply Permutation_app_head. rewrite !app_assoc. apply Permutation_app_tail. apply Permutation_app_comm. }
  rewrite (Sh c c' d d'), (Sh b b' (c ++ d) (c' ++ d')). apply Sh.
Qed.
Lemma merged_names p q n : In n (def_names (merged p q)) <-> In n (def_names p) \/ In n (def_names q).
Proof. unfold def_names, merged. cbn. rewrite !map_app, !in_app_iff. tauto. Qed.
Lemma merged_keys p q : ns_keys (merged p q) = ns_keys p. Proof. reflexivity. Qed.
Lemma separated_merged a p b q c : pn_name p = pn_name q -> separated (a ++ p :: b ++ q :: c) -> separated (a ++ merged p q :: b ++ c).
Proof.
  intros E S. assert (Kq : ns_keys q = ns_keys p) by (unfold ns_keys; congruence).
  assert (M : forall x, In x (a ++ merged p q :: b ++ c) -> In x (a ++ p :: b ++ q :: c) \/ x = merged p q).
  { intros x. rewrite !in_app_iff. cbn [In]. rewrite !in_app_iff. cbn [In]. intuition. }
  assert (Ip : In p (a ++ p :: b ++ q :: c)) by (rewrite in_app_iff; cbn; tauto).
  assert (Iq : In q (a ++ p :: b ++ q :: c)) by (rewrite in_app_iff; cbn [In]; rewrite in_app_iff; cbn; tauto).
  intros x y n m Hx Hy Hn. assert (Ky : exists y', In y' (a ++ p :: b ++ q :: c) /\ ns_keys y = ns_keys y').
  { destruct (M y Hy) as [H| ->]; [eauto|exists p; auto]. }
  destruct Ky as (y' & Hy' & ->). destruct (M x Hx) as [H| ->]; [now apply S|]. rewrite merged_keys. apply merged_names in Hn as [Hn|Hn]; [now apply S|rewrite <- Kq; now apply S].
Qed.
Lemma made_merged so a p b q c : pn_name p = pn_name q ->
  (forall D, made so (a ++ p :: b ++ q :: c) D -> exists E, made so (a ++ merged p q :: b ++ c) E /\ Permutation (paths D) (paths E)
     /\ (forall K d, decl D K d <-> decl E K d) /\ (forall ks, ns D ks <-> ns E ks)) /\
  (forall E, made so (a ++ merged p q :: b ++ c) E -> exists D, made so (a ++ p :: b ++ q :: c) D).
Proof.
  intros En. assert (Kq : ns_keys q = ns_keys p) by (unfold ns_keys; congruence). assert (Nq : ns_name_ok q <-> ns_name_ok p) by (unfold ns_name_ok; rewrite Kq, En; tauto).
  assert (Np : ns_name_ok (merged p q) <-> ns_name_ok p) by reflexivity. split.
  - intros D H. apply Forall2_app_inv_l in H as (Da & D1 & Fa & H & ->). inversion H as [|? [K dp] ? D2 (Ep & Op & Cp) H2]; subst.
    apply Forall2_app_inv_l in H2 as (Db & D3 & Fb & H2 & ->). inversion H2 as [|? [K' dq] ? Dc (Eq & Oq & Cq) Fc]; subst. cbn [fst snd] in *. rewrite Kq in Eq. subst K K'.
    pose proof (creations_merged so p q) as P. rewrite Cp, Cq, <- map_app in P. apply Permutation_map_inv in P as (dm & Cm & P).
    exists (Da ++ (ns_keys p, dm) :: Db ++ Dc). split; [|split; [|split]].
    + apply Forall2_app; [exact Fa|]. constructor; [split; [reflexivity|split; [now apply Np|exact Cm]]|]. now apply Forall2_app.
    + rewrite !paths_app. apply Permutation_app_head. unfold paths. cbn [flat_map fst snd]. rewrite !flat_map_app. cbn [flat_map fst snd].
      fold (paths Db) (paths Dc). rewrite (Permutation_app_swap_app (paths Db)), app_assoc, <- map_app. apply Permutation_app_tail. now apply Permutation_map.
    + intros K d. unfold decl. split; intros (ds & Hin & Hd).
      * rewrite in_app_iff in Hin. cbn [In] in Hin. rewrite in_app_iff in Hin. cbn [In] in Hin. destruct Hin as [Hin|[[= <- <-]|[Hin|[[= <- <-]|Hin]]]].
        -- exists ds. split; [apply in_or_app; now left|exact Hd].
        -- exists dm. split; [apply in_or_app; right; now left|]. apply (Permutation_in _ P). apply in_or_app. now left.
        -- exists ds. split; [apply in_or_app; right; right; apply in_or_app; now left|exact Hd].
        -- exists dm. split; [apply in_or_app; right; now left|]. apply (Permutation_in _ P). apply in_or_app. now right.
        -- exists ds. split; [apply in_or_app; right; right; apply in_or_app; now right|exact Hd].
      * rewrite in_app_iff in Hin. cbn [In] in Hin. rewrite in_app_iff in Hin. destruct Hin as [Hin|[[= <- <-]|[Hin|Hin]]].
        -- exists ds. split; [apply in_or_app; now left|exact Hd].
        -- apply Permutation_sym in P. apply (Permutation_in _ P) in Hd. apply in_app_or in Hd as [Hd|Hd].
           ++ exists dp. split; [apply in_or_app; right; now left|exact Hd].
           ++ exists dq. split; [apply in_or_app; right; right; apply in_or_app; right; now left|exact Hd].
        -- exists ds. split; [apply in_or_app; right; right; apply in_or_app; now left|exact Hd].
        -- exists ds. split; [apply in_or_app; right; right; apply in_or_app; right; now right|exact Hd].
    + intros ks. unfold ns. split; intros (K & ds & m & Hin & E).
      * rewrite in_app_iff in Hin. cbn [In] in Hin. rewrite in_app_iff in Hin. cbn [In] in Hin. destruct Hin as [Hin|[[= <- <-]|[Hin|[[= <- <-]|Hin]]]].
        -- exists K, ds, m. split; [apply in_or_app; now left|exact E].
        -- exists (ns_keys p), dm, m. split; [apply in_or_app; right; now left|exact E].
        -- exists K, ds, m. split; [apply in_or_app; right; right; apply in_or_app; now left|exact E].
        -- exists (ns_keys p), dm, m. split; [apply in_or_app; right; now left|exact E].
        -- exists K, ds, m. split; [apply in_or_app; right; right; apply in_or_app; now right|exact E].
      * rewrite in_app_iff in Hin. cbn [In] in Hin. rewrite in_app_iff in Hin. destruct Hin as [Hin|[[= <- <-]|[Hin|Hin]]].
        -- exists K, ds, m. split; [apply in_or_app; now left|exact E].
        -- exists (ns_keys p), dp, m. split; [apply in_or_app; right; now left|exact E].
        -- exists K, ds, m. split; [apply in_or_app; right; right; apply in_or_app; now left|exact E].
        -- exists K, ds, m. split; [apply in_or_app; right; right; apply in_or_app; right; now right|exact E].
  - intros E H. apply Forall2_app_inv_l in H as (Da & D1 & Fa & H & ->). inversion H as [|? [K dm] ? D2 (Em & Om & Cm) H2]; subst.
    apply Forall2_app_inv_l in H2 as (Db & Dc & Fb & Fc & ->). cbn [fst snd] in *. pose proof (creations_merged so p q) as P. rewrite Cm in P.
    apply Permutation_sym, Permutation_map_inv in P as (ds & Cd & _). symmetry in Cd. apply map_eq_app in Cd as (dp & dq & -> & Cp & Cq).
    exists (Da ++ (ns_keys p, dp) :: Db ++ (ns_keys p, dq) :: Dc). apply Forall2_app; [exact Fa|]. constructor; [split; [reflexivity|split; [now apply Np|auto]]|].
    apply Forall2_app; [exact Fb|]. constructor; [|exact Fc]. split; [now rewrite Kq|]. split; [now apply Nq, Np|auto].
Qed.

Theorem merge_equivalent so a p b q c : pn_name p = pn_name q -> separated (a ++ p :: b ++ q :: c) ->
  match build_node_tree so (a ++ p :: b ++ q :: c), build_node_tree so (a ++ merged p q :: b ++ c) with
  | Ok t, Ok t' => same_definitions t t'
  | Err _, Err _ => True
  | _, _ => False
  end.
Proof.
  intros E S. pose proof (separated_merged a p b q c E S) as S'. destruct (made_merged so a p b q c E) as (M1 & M2).
  destruct (build_node_tree so (a ++ p :: b ++ q :: c)) as [t|e] eqn:B1.
  - destruct (build_iff so _ S t B1) as (D & MD & ND & I). destruct (M1 D MD) as (D' & MD' & P & Hd & Hn).
    destruct (build_total so _ D' S' MD' (Permutation_NoDup P ND)) as (t' & B2 & I'). rewrite B2. exact (inv_same t t' D D' Hd Hn I I').
  - destruct (build_node_tree so (a ++ merged p q :: b ++ c)) as [t'|e'] eqn:B2; [|exact I].
    destruct (build_iff so _ S' t' B2) as (D' & MD' & ND' & I'). destruct (M2 D' MD') as (D & MD). destruct (M1 D MD) as (D'' & MD'' & P & _).
    rewrite (made_paths _ _ _ MD'') in P. rewrite (made_paths _ _ _ MD') in ND'. destruct (build_total so _ D S MD (Permutation_NoDup (Permutation_sym P) ND')) as (t & B & _). congruence.
Qed.
