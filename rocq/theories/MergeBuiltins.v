(** What [append_builtins] adds, by paths: the same things whatever the order in which the multivectors are visited.  For C47. *)
From Coq Require Import List ZArith Bool String Ascii Lia Permutation.
From Verif Require Import PyBase PyText GenTypes GenTypesFacts GenTree GenTreeFacts GenTraversal
  GenBuild GenBuildFacts GenPassFacts GenAstFacts GenAstSpec GenLayoutFacts GenMergeFacts GenShapeFacts GenEvery GenTidy GenResolveFacts GenFinal AcceptIndex.
Import ListNotations.
Local Open Scope string_scope.
Local Open Scope Z_scope.

Definition kindk (t : tree) (ks : list string) : option kind := option_map t_kind (getk t ks).
Definition alike (a b : tree) : Prop := forall ks, kindk a ks = kindk b ks.

(** what a multivector with path [P] of width [w] in namespace [K] adds *)
Definition added (K P : list string) (w : Z) (ks : list string) (k : kind) : Prop :=
  ((ks = K ++ [B] \/ ks = K ++ [B; MV])%list /\ k = KNamespace)
  \/ (exists b r u, builtin_structure w = Ok b /\ ks = (K ++ B :: MV :: t_name b :: r)%list /\ getk b r = Some u /\ k = t_kind u)
  \/ (ks = (P ++ [referencify (index_path K w)])%list /\ k = KRef RBuiltin).

Lemma open_kindk a b K : (forall k, kindk a K = Some k -> kindk b K = Some k) -> open_at a K -> open_at b K.
Proof.
  intros H [->|(u & Hu & Ku)]; [now left|]. right. specialize (H KNamespace). unfold kindk in H. rewrite Hu in H. cbn in H. rewrite Ku in H. specialize (H eq_refl).
  destruct (getk b K) as [x|]; [|discriminate]. exists x. cbn in H. split; [reflexivity|congruence].
Qed.

Lemma append_builtin_kinds root l root' : append_builtin root l = Ok root' -> rooted root -> shaped root -> tidy root ->
  exists K P w o m, names_at root l = Some ("" :: P) /\ (exists x y, P = K ++ [x; y])%list /\ kindk root P = Some (KResource (KMultivector w) o m)
    /\ forall ks k, kindk root' ks = Some k <-> kindk root ks = Some k \/ added K P w ks k.
Proof.
  intros H G S T. pose proof H as H0. destruct (append_builtin_tidy root l root' H G S T) as (T' & Op' & _). unfold append_builtin in H. destruct (at_loc root l) as [u|] eqn:Hl; [|discriminate].
  assert (Ku : is_multivector (t_kind u) = true) by (destruct u as [n [] cs]; try discriminate; destruct rk; try discriminate; reflexivity).
  destruct (resource_parents root l u G S Hl Ku) as (p & i & j & v & a & -> & Hv & Kv & Ha & Ka).
  assert (Pp : parent_loc (parent_loc (p ++ [i; j])%list) = p).
  { unfold parent_loc. replace (p ++ [i; j])%list with ((p ++ [i]) ++ [j])%list by (rewrite <- app_assoc; reflexivity). now rewrite !removelast_last. }
  rewrite Pp in H. clear Pp. destruct u as [n k cs]. cbn [t_kind] in Ku. destruct k as [| | | | | | | |rk o m| |]; try discriminate. destruct rk as [| |w| | |]; try discriminate.
  pose proof (good_wf _ (proj1 G)) as W. destruct (names_at root p) as [nsl|] eqn:Np; [|discriminate]. destruct (names_find root p W nsl Np) as (keys & -> & Fk).
  assert (Gk : getk root keys = Some v) by (rewrite <- node_at_getk; unfold node_at; rewrite Fk; exact Hv).
  set (P := (keys ++ [t_name a; n])%list).
  assert (Na : nth_error (t_children v) i = Some a). { rewrite at_loc_app, Hv in Ha. cbn in Ha. destruct (nth_error (t_children v) i); congruence. }
  assert (Nu : nth_error (t_children a) j = Some (Node n (KResource (KMultivector w) o m) cs)).
  { replace (p ++ [i; j])%list with ((p ++ [i]) ++ [j])%list in Hl by (rewrite <- app_assoc; reflexivity). rewrite at_loc_app, Ha in Hl. cbn in Hl. destruct (nth_error (t_children a) j); congruence. }
  assert (NP : names_at root (p ++ [i; j])%list = Some (t_name root :: P)).
  { rewrite (names_at_app p root [i; j] v Hv (t_name root :: keys) [t_name v; t_name a; n] Np); [reflexivity|]. cbn. rewrite Na. cbn. rewrite Nu. reflexivity. }
  destruct (names_find root _ W _ NP) as (P' & E & FP). injection E as <-.
  assert (GP : getk root P = Some (Node n (KResource (KMultivector w) o m) cs)) by (rewrite <- node_at_getk; unfold node_at; rewrite FP; exact Hl).
  assert (Hk : forall x y, keys = (x ++ y)%list -> open_at root x) by (intros x y E; apply (td_ns _ T x y v); [now rewrite <- E|exact Kv]).
  assert (Nk : ~ In B keys).
  { intros Q. apply in_split in Q as (x & y & E). apply (no_builtin_above root P _ x (y ++ [t_name a; n])%list T GP eq_refl); [unfold P; rewrite E, <- app_assoc; reflexivity|]. exact (Hk x _ E). }
  apply bind_ok in H as ([root1 ns1] & H1 & H). destruct (ensure_tidy root keys T Hk Nk root1 ns1 H1) as (T1 & Op1 & Old1 & F1).
  assert (Rv : is_ref v = false) by (unfold is_ref; now rewrite Kv).
  pose proof (names_clean _ _ _ _ (proj1 G) Hv Rv Np) as C. inversion C as [|? ? _ Ck]; subst.
  assert (Ck' : Forall clean (keys ++ [B; MV])%list) by (apply Forall_app; split; [exact Ck|repeat constructor]).
  destruct (ensure_namespace_good _ _ _ _ H1 G Ck') as (G1 & _ & t1 & Ht1 & Rt1).
  apply bind_ok in H as (b & Hb & H). destruct (builtin_good _ _ Hb) as (Gb & Nb & _). apply bind_ok in H as (root2 & H2 & H). rewrite Ht1 in H2.
  assert (N1 : names_at root1 (p ++ [i; j])%list = Some (t_name root :: P)).
  { destruct (ensure_namespace_ok _ _ _ _ H1) as [(-> & _)|(_ & first & _ & Hi & _)]; [exact NP|exact (insert_at_names _ _ _ _ _ _ Hi NP)]. }
  assert (Tn : t_name root = "") by apply G.
  destruct (ensure_getk _ _ _ _ H1) as (_ & _ & _ & E1).
  (* after the second step *)
  assert (S2 : rooted root2 /\ names_at root2 (p ++ [i; j])%list = Some (t_name root :: P) /\ names_at root2 ns1 = Some ("" :: keys ++ [B; MV])%list
    /\ (exists z, getk root2 (keys ++ B :: MV :: t_name b :: [])%list = Some z)
    /\ (forall ks k, kindk root1 ks = Some k -> kindk root2 ks = Some k)
    /\ (forall ks k, kindk root2 ks = Some k -> kindk root1 ks = Some k \/ added keys P w ks k)).
  { assert (Nn : names_at root1 ns1 = Some ("" :: keys ++ [B; MV])%list). { destruct (find_keys_loc _ _ _ F1) as (Nn & _). now rewrite (proj1 (proj2 G1)) in Nn. }
    destruct (find_relative t1 (t_name b)) as [d|] eqn:Fr.
    - injection H2 as <-. split; [exact G1|]. split; [exact N1|]. split; [exact Nn|]. split; [|auto].
      rewrite find_relative_split in Fr by exact (node_dot root1 ns1 t1 G1 Ht1). rewrite (builtin_name _ _ Hb) in *. rewrite split_no_char in Fr by (apply index_name_chars; now left).
      destruct (proj1 (find_keys_getk t1 [index_type_name w]) (ex_intro _ d Fr)) as (z & Hz). exists z.
      replace (keys ++ [B; MV; index_type_name w])%list with ((keys ++ [B; MV]) ++ [index_type_name w])%list by (rewrite <- app_assoc; reflexivity). rewrite getk_app.
      assert (Gt : getk root1 (keys ++ [B; MV]) = Some t1) by (rewrite <- node_at_getk; unfold node_at; now rewrite F1). now rewrite Gt.
    - split; [exact (rooted_insert_at _ _ _ _ _ G1 Ht1 Rt1 Gb Nb H2)|]. split; [exact (insert_at_names _ _ _ _ _ _ H2 N1)|]. split; [exact (insert_at_names _ _ _ _ _ _ H2 Nn)|].
      destruct (insert_getk _ root1 ns1 b root2 F1 H2) as (_ & _ & N0 & Gin & Gout).
      assert (Cases : forall ks, (exists r, ks = (keys ++ B :: MV :: t_name b :: r)%list /\ getk root2 ks = getk b r /\ getk root1 ks = None) \/ kindk root2 ks = kindk root1 ks).
      { intros ks. destruct (strip ((keys ++ [B; MV]) ++ [t_name b]) ks) as [r|] eqn:Sr.
        - left. apply strip_spec in Sr. exists r. assert (Ek : ks = ((keys ++ [B; MV]) ++ t_name b :: r)%list) by (rewrite Sr, <- app_assoc; reflexivity).
          split; [rewrite Ek, <- app_assoc; reflexivity|]. split; [rewrite Ek; apply Gin|]. rewrite Sr, getk_app, N0. reflexivity.
        - right. specialize (Gout ks Sr). unfold kindk. destruct (getk root2 ks), (getk root1 ks); try contradiction; [|reflexivity]. cbn. f_equal. tauto. }
      split; [|split].
      + exists b. replace (keys ++ [B; MV; t_name b])%list with ((keys ++ [B; MV]) ++ t_name b :: [])%list by (rewrite <- app_assoc; reflexivity). rewrite Gin. reflexivity.
      + intros ks k Hkk. destruct (Cases ks) as [(r & _ & _ & Q)|Q]; [unfold kindk in Hkk; rewrite Q in Hkk; discriminate|now rewrite Q].
      + intros ks k Hkk. destruct (Cases ks) as [(r & Er & Q & _)|Q]; [|left; now rewrite <- Q]. right. right. left. unfold kindk in Hkk. rewrite Q in Hkk.
        destruct (getk b r) as [z|] eqn:Hz; [|discriminate]. exists b, r, z. cbn in Hkk. injection Hkk as <-. auto. }
  destruct S2 as (G2 & N2 & Nn2 & (z & Hz) & Old2 & Back2). unfold path_at in H. rewrite Nn2 in H. cbn [option_map] in H. apply bind_ok in H as (r & Hr & H).
  destruct (names_find root2 _ (good_wf _ (proj1 G2)) _ N2) as (P2 & E2 & FP2). injection E2 as _ E2. subst P2.
  apply make_node_ok in Hr as (_ & Er).
  destruct (insert_getk P root2 _ r root' FP2 H) as (_ & _ & N0 & Gin & Gout).
  assert (Nr : t_name r = referencify (index_path keys w)).
  { rewrite Er. cbn [t_name]. f_equal. unfold index_path. rewrite (builtin_name _ _ Hb).
    replace ("" :: keys ++ [B; MV; index_type_name w])%list with (("" :: keys ++ [B; MV]) ++ [index_type_name w])%list by (cbn; rewrite <- app_assoc; reflexivity).
    now rewrite join_snoc by discriminate. }
  assert (Kr : t_kind r = KRef RBuiltin /\ t_children r = []) by (rewrite Er; now split).
  assert (Cases : forall ks, (exists q, ks = (P ++ t_name r :: q)%list /\ getk root' ks = getk r q /\ getk root2 ks = None) \/ kindk root' ks = kindk root2 ks).
  { intros ks. destruct (strip (P ++ [t_name r]) ks) as [q|] eqn:Sr.
    - left. apply strip_spec in Sr. exists q. assert (Ek : ks = (P ++ t_name r :: q)%list) by (rewrite Sr, <- app_assoc; reflexivity).
      split; [exact Ek|]. split; [rewrite Ek; apply Gin|]. rewrite Sr, getk_app, N0. reflexivity.
    - right. specialize (Gout ks Sr). unfold kindk. destruct (getk root' ks), (getk root2 ks); try contradiction; [|reflexivity]. cbn. f_equal. tauto. }
  assert (OldA : forall ks k, kindk root2 ks = Some k -> kindk root' ks = Some k).
  { intros ks k Hkk. destruct (Cases ks) as [(q & _ & _ & Q)|Q]; [unfold kindk in Hkk; rewrite Q in Hkk; discriminate|now rewrite Q]. }
  assert (OldR : forall ks k, kindk root ks = Some k -> kindk root1 ks = Some k).
  { intros ks k Hkk. unfold kindk in Hkk. destruct (getk root ks) as [y|] eqn:Hy; [|discriminate]. destruct (Old1 ks y Hy) as (x & Hx & Kx). unfold kindk. rewrite Hx. cbn in *. congruence. }
  assert (OK' : open_at root' keys) by (apply Op'; exact (Hk keys [] (eq_sym (app_nil_r _)))).
  exists keys, P, w, o, m. split; [now rewrite NP, Tn|]. split; [exists (t_name a), n; reflexivity|]. split; [unfold kindk; now rewrite GP|]. intros ks k. split.
  - intros Hkk. destruct (Cases ks) as [(q & Eq & Q & _)|Q].
    + right. right. right. unfold kindk in Hkk. rewrite Q in Hkk. destruct q as [|x q].
      * cbn in Hkk. injection Hkk as <-. rewrite Eq, Nr. split; [reflexivity|apply Kr].
      * cbn in Hkk. rewrite (proj2 Kr) in Hkk. discriminate.
    + rewrite Q in Hkk. destruct (Back2 ks k Hkk) as [Hk1|A]; [|now right]. specialize (E1 ks). unfold kindk in Hk1. destruct (getk root1 ks) as [x|] eqn:Hx; [|discriminate].
      cbn in Hk1. injection Hk1 as <-. destruct (getk root ks) as [y|] eqn:Hy; [left; unfold kindk; rewrite Hy; cbn; f_equal; symmetry; tauto|]. right. left. destruct E1 as (Kx & Sx). split; [|exact Kx].
      destruct (strip ks (keys ++ [B; MV])) as [q|] eqn:Sq; [|congruence]. apply strip_spec in Sq.
      destruct (app_eq_app _ _ _ _ Sq) as (q' & [(Ea & Eb)|(Ea & Eb)]).
      * exfalso. subst keys. rewrite getk_app, Hy in Gk. discriminate.
      * subst ks. destruct q' as [|x1 q']; [exfalso; rewrite app_nil_r in Hy; congruence|]. cbn in Eb. injection Eb as <- Eb. destruct q' as [|x2 q']; [now left|]. cbn in Eb. injection Eb as <- Eb.
        symmetry in Eb. apply app_eq_nil in Eb as (-> & _). now right.
  - intros [Hkk|[(E & ->)|[(b' & q & z' & Hb' & -> & Hq & ->)|(-> & ->)]]].
    + auto.
    + assert (X : exists x, getk root' ks = Some x).
      { destruct (proj1 (find_keys_getk root1 (keys ++ [B; MV])) (ex_intro _ ns1 F1)) as (y & Hy).
        assert (exists y', getk root1 ks = Some y') as (y' & Hy').
        { destruct E as [->| ->]; [|eauto]. replace (keys ++ [B; MV])%list with ((keys ++ [B]) ++ [MV])%list in Hy by (rewrite <- app_assoc; reflexivity). exact (getk_prefix _ _ _ _ Hy). }
        assert (Q : kindk root' ks = Some (t_kind y')) by (apply OldA, Old2; unfold kindk; now rewrite Hy'). unfold kindk in Q. destruct (getk root' ks); [eauto|discriminate]. }
      destruct X as (x & Hx). unfold kindk. rewrite Hx. cbn. f_equal. destruct E as [->| ->].
      * destruct (td_bi _ T' keys [] x OK' Hx) as [(_ & Q)|(w' & b' & q & Q & _)]; [exact Q|discriminate].
      * destruct (td_bi _ T' keys [MV] x OK' Hx) as [(_ & Q)|(w' & b' & q & Q & _)]; [exact Q|discriminate].
    + rewrite Hb in Hb'. injection Hb' as <-.
      assert (X : exists x, getk root' (keys ++ B :: MV :: t_name b :: [])%list = Some x).
      { assert (Q : kindk root' (keys ++ B :: MV :: t_name b :: [])%list = Some (t_kind z)) by (apply OldA; unfold kindk; now rewrite Hz). unfold kindk in Q. destruct (getk root' _); [eauto|discriminate]. }
      destruct X as (x & Hx). destruct (td_bi _ T' keys _ x OK' Hx) as [([Q|Q] & _)|(w' & b' & q' & Q & Hb' & Hq')]; [discriminate|discriminate|].
      injection Q as En Eq. subst q'. cbn in Hq'. injection Hq' as ->. rewrite (builtin_name _ _ Hb), (builtin_name _ _ Hb') in En. unfold index_type_name in En.
      assert (Ew : w = w') by (apply py_str_inj; now injection En). subst w'. rewrite Hb in Hb'. injection Hb' as ->.
      replace (keys ++ B :: MV :: t_name x :: q)%list with ((keys ++ [B; MV; t_name x]) ++ q)%list by (rewrite <- app_assoc; reflexivity).
      unfold kindk. rewrite getk_app. rewrite Hx. now rewrite Hq.
    + unfold kindk. rewrite <- Nr, Gin. cbn. now rewrite (proj1 Kr).
Qed.

Lemma builtins_kinds ls : forall root root', foldM append_builtin root ls = Ok root' -> rooted root -> shaped root -> tidy root ->
  (forall l, In l ls -> exists u, at_loc root l = Some u) ->
  forall ks k, kindk root' ks = Some k <-> kindk root ks = Some k
    \/ exists l K P w o m, In l ls /\ names_at root l = Some ("" :: P) /\ (exists x y, P = K ++ [x; y])%list /\ kindk root P = Some (KResource (KMultivector w) o m) /\ added K P w ks k.
Proof.
  induction ls as [|x ls IH]; intros root root' H G S T M ks k; cbn in H.
  - injection H as <-. split; [now left|]. intros [Q|(l & K & P & w & o & m & [] & _)]. exact Q.
  - apply bind_ok in H as (r1 & H1 & H). destruct (append_builtin_good _ _ _ H1 G) as (G1 & O1). destruct (append_builtin_shaped _ _ _ H1 G S) as (S1 & _ & _).
    destruct (append_builtin_tidy _ _ _ H1 G S T) as (T1 & _ & _). destruct (append_builtin_kinds _ _ _ H1 G S T) as (K0 & P0 & w0 & o0 & m0 & Nx & X0 & Kx & Q1).
    assert (M1 : forall l, In l ls -> exists u, at_loc r1 l = Some u).
    { intros l Hl. destruct (M l (or_intror Hl)) as (u & Hu). destruct (O1 l u Hu) as (u1 & Hu1 & _). eauto. }
    rewrite (IH r1 root' H G1 S1 T1 M1 ks k). rewrite Q1.
    assert (Same : forall l P w o m, In l ls -> (names_at r1 l = Some ("" :: P) /\ kindk r1 P = Some (KResource (KMultivector w) o m) <-> names_at root l = Some ("" :: P) /\ kindk root P = Some (KResource (KMultivector w) o m))).
    { intros l P w o m Hl. destruct (M l (or_intror Hl)) as (u & Hu). destruct (proj1 (names_at_some root l) (ex_intro _ u Hu)) as (ns & Nl).
      assert (Nl1 : names_at r1 l = Some ns).
      { apply (names_kept root r1); [|exact Nl]. intros l' y Hy. destruct (O1 l' y Hy) as (y' & Hy' & E & _). eauto. }
      rewrite Nl, Nl1. apply and_iff_compat_l. rewrite Q1. split; [|auto]. intros [Q|[(_ & Q)|[(b & r & v & Hb & _ & Hv & Q)|(_ & Q)]]]; [exact Q|discriminate| |discriminate].
      destruct (builtin_nodes w0 b Hb r v Hv) as (_ & Mv). rewrite <- Q in Mv. discriminate. }
    split.
    + intros [[Q|A]|(l & K & P & w & o & m & Hl & Nl & X & Kl & A)]; [now left| |].
      * right. exists x, K0, P0, w0, o0, m0. split; [now left|auto].
      * right. destruct (proj1 (Same l P w o m Hl) (conj Nl Kl)) as (Nl' & Kl'). exists l, K, P, w, o, m. split; [now right|auto].
    + intros [Q|(l & K & P & w & o & m & [<-|Hl] & Nl & X & Kl & A)]; [now left; left| |].
      * left. right. rewrite Nx in Nl. injection Nl as <-. rewrite Kx in Kl. injection Kl as <- _ _. destruct X as (a & b & X), X0 as (a0 & b0 & X0). rewrite X0 in X.
        replace K0 with K; [exact A|]. symmetry. replace (K0 ++ [a0; b0])%list with ((K0 ++ [a0]) ++ [b0])%list in X by now rewrite <- app_assoc. replace (K ++ [a; b])%list with ((K ++ [a]) ++ [b])%list in X by now rewrite <- app_assoc.
        apply app_inj_tail in X as (X & _). now apply app_inj_tail in X.
      * right. destruct (proj2 (Same l P w o m Hl) (conj Nl Kl)) as (Nl' & Kl'). exists l, K, P, w, o, m. auto.
Qed.

(** The result of [append_builtins] depends on the kinds of the nodes only *)
Theorem append_builtins_kinds root root' : append_builtins root = Ok root' -> rooted root -> shaped root -> tidy root ->
  forall ks k, kindk root' ks = Some k <-> kindk root ks = Some k
    \/ exists K P w o m, (exists x y, P = K ++ [x; y])%list /\ kindk root P = Some (KResource (KMultivector w) o m) /\ added K P w ks k.
Proof.
  intros H G S T ks k. unfold append_builtins in H. rewrite (builtins_kinds _ _ _ H G S T); [|intros l Hl; apply iterate_spec in Hl as (u & Hu & _); eauto].
  apply or_iff_compat_l. split.
  - intros (l & K & P & w & o & m & _ & _ & X). exists K, P, w, o, m. exact X.
  - intros (K & P & w & o & m & X & Kp & A). unfold kindk in Kp. destruct (getk root P) as [u|] eqn:Gp; [|discriminate]. cbn in Kp. injection Kp as Ku. destruct (getk_at _ _ _ Gp) as (l & Fl & Hl).
    exists l, K, P, w, o, m. split; [apply iterate_spec; exists u; split; [exact Hl|now rewrite Ku]|]. split; [|split; [exact X|split; [unfold kindk; rewrite Gp; cbn; now rewrite Ku|exact A]]].
    destruct (find_keys_loc _ _ _ Fl) as (Nl & _). rewrite Nl. f_equal. f_equal. apply G.
Qed.
Lemma append_builtins_alike a b a' b' : append_builtins a = Ok a' -> append_builtins b = Ok b' -> rooted a -> shaped a -> tidy a -> rooted b -> shaped b -> tidy b -> alike a b -> alike a' b'.
Proof.
  intros Ha Hb Ga Sa Ta Gb Sb Tb A ks.
  assert (X : forall k, kindk a' ks = Some k <-> kindk b' ks = Some k).
  { intros k. rewrite (append_builtins_kinds a a' Ha Ga Sa Ta), (append_builtins_kinds b b' Hb Gb Sb Tb), A. apply or_iff_compat_l. split; intros (K & P & w & o & m & X & Kp & D); exists K, P, w, o, m; rewrite (A P) in *; auto. }
  destruct (kindk a' ks) as [k|] eqn:E; [symmetry; now apply X|]. destruct (kindk b' ks) as [k|] eqn:E'; [|reflexivity]. pose proof (proj2 (X k) eq_refl). discriminate.
Qed.
