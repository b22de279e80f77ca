(** Adding the index structures of multivectors succeeds exactly when the indices have at most 64 bits and are not mentioned as types. *)
From Coq Require Import List ZArith Bool String Ascii Lia.
From Verif Require Import PyBase PyText GenTypes GenTypesFacts GenTree GenTreeFacts GenTraversal GenBuild GenBuildFacts GenPassFacts GenAstFacts
  GenAstSpec GenResolveFacts GenShapeFacts GenMergeFacts GenTidy GenFinal GenWords Props_GenTree DeclSpec DeclFacts ArchiveFacts AcceptSpec AcceptCreate.
Import ListNotations.
Local Open Scope string_scope.
Local Open Scope Z_scope.

Notation index_path' := GenTidy.index_path.

Lemma names_kept a b : (forall l u, at_loc a l = Some u -> exists u', at_loc b l = Some u' /\ t_name u' = t_name u) ->
  forall l ns, names_at a l = Some ns -> names_at b l = Some ns.
Proof.
  intros O l. induction l as [|i l IH] using rev_ind; intros ns H.
  - destruct (O [] a eq_refl) as (u & Hu & N). cbn in Hu. injection Hu as <-. destruct a, b. cbn in *. now rewrite N.
  - destruct (proj2 (names_at_some a (l ++ [i])%list) (ex_intro _ ns H)) as (u & Hu). destruct (parent_at _ _ _ _ Hu) as (v & Hv & Hi).
    destruct (proj1 (names_at_some a l) (ex_intro _ v Hv)) as (ks & Hks). pose proof (names_snoc a l i v u ks Hv Hi Hks) as E. rewrite H in E. injection E as ->.
    destruct (O _ _ Hu) as (u' & Hu' & N). destruct (parent_at _ _ _ _ Hu') as (v' & Hv' & Hi'). rewrite (names_snoc b l i v' u' ks Hv' Hi' (IH ks Hks)). now rewrite N.
Qed.

Lemma ensure_some root K : K <> [] -> Forall (fun k => name_ok k = true) K -> (forall u, getk root K = Some u -> t_kind u = KNamespace) ->
  exists root1 l, ensure_namespace root K = Ok (root1, l).
Proof.
  intros NK OK Op. unfold ensure_namespace. destruct (find_keys root K) as [l|] eqn:F.
  - destruct (find_keys_loc _ _ _ F) as (_ & u & Hu). rewrite Hu. assert (Gk : getk root K = Some u) by (rewrite <- node_at_getk; unfold node_at; now rewrite F).
    unfold is_namespace. rewrite (Op u Gk). eauto.
  - destruct (find_last_spec K root F) as (pre & E & Fp & k & r & Er). pose proof (find_last_max K root F pre k r) as Mx.
    destruct (find_last root K) as [l rest]. cbn in *. subst rest. destruct (nest_total (k :: r)) as (first & Hn); [discriminate|rewrite E in OK; now apply Forall_app in OK|].
    rewrite Hn. cbn [bind]. destruct (nest_getk _ _ Hn) as (k1 & rest & E1 & N1 & K1 & G1). injection E1 as <- <-.
    destruct (find_keys_loc _ _ _ Fp) as (_ & u & Hu). assert (Gp : getk root pre = Some u) by (rewrite <- node_at_getk; unfold node_at; now rewrite Fp).
    specialize (Mx E Fp eq_refl u Gp). assert (Hi : exists root', insert_at root l first = Ok root').
    { unfold insert_at. rewrite Hu. unfold insert. rewrite N1. apply child_pos_none in Mx. rewrite Mx. cbn. eauto. }
    destruct Hi as (root' & Hi). rewrite Hi. cbn [bind]. destruct (insert_getk pre root l first root' Fp Hi) as (_ & _ & _ & Gin & _). rewrite N1 in Gin.
    assert (X : exists l', find_keys root' K = Some l').
    { apply find_keys_getk. rewrite E, Gin. specialize (G1 r). rewrite strip_self in G1. destruct (getk first r); [eauto|discriminate]. }
    destruct X as (l' & ->). eauto.
Qed.
Lemma insert_some root l t c : at_loc root l = Some t -> ((exists root', insert_at root l c = Ok root') <-> ~ In (t_name c) (map t_name (t_children t))).
Proof.
  intros H. unfold insert_at, insert. rewrite H. rewrite <- child_pos_none. destruct (child_pos (t_children t) (t_name c)).
  - split; [intros (? & ?)|]; discriminate.
  - split; [auto|]. intros _. cbn. eauto.
Qed.

Definition index_width (w : Z) : Z := if w =? 0 then 64 else Z.of_N (Z.to_N w).
Lemma builtin_total w : index_width w <= 64 -> exists b, builtin_structure w = Ok b.
Proof.
  unfold index_width, builtin_structure, create_structure. cbn [ps_name ps_fields]. intros H.
  assert (Nm : name_ok (index_type_name w) = true).
  { unfold name_ok. rewrite (index_name_chars "."%char w); [|now left]. reflexivity. }
  unfold make_node. rewrite Nm. cbn [bind]. unfold insert_all. cbn [foldM map]. unfold create_field. cbn [pf_name pf_decs pf_type pf_width].
  unfold make_node. change (name_ok "value") with true. cbn match. cbn [bind].
  destruct (w =? 0) eqn:E.
  - cbn. eexists. reflexivity.
  - cbn [option_map]. unfold make_btype. change (storage_width "u64") with (Some 64). cbn match.
    destruct (Z.of_N (Z.to_N w) >? 64) eqn:L; [apply Z.gtb_lt in L; lia|]. cbn. eexists. reflexivity.
Qed.

Lemma not_prefix_tail {A} (k : list A) a n x y : (k ++ [a; n])%list = (k ++ [x; y])%list -> a = x /\ n = y.
Proof. intros E. apply app_inv_head in E. injection E as -> ->. auto. Qed.

Section One.
  Variables (root : tree) (l : loc) (u : tree) (w : Z) (o : bool) (m : option Z) (keys : list string).
  Hypothesis (G : rooted root) (S : local (shape true) root) (T : tidy root).
  Hypothesis (Hl : at_loc root l = Some u) (Ku : t_kind u = KResource (KMultivector w) o m) (Np : names_at root (parent_loc (parent_loc l)) = Some ("" :: keys)%list).

  Lemma one_place : exists p i j v a, l = (p ++ [i; j])%list /\ at_loc root p = Some v /\ t_kind v = KNamespace /\ getk root keys = Some v
    /\ names_at root l = Some ("" :: keys ++ [t_name a; t_name u])%list /\ find_keys root (keys ++ [t_name a; t_name u])%list = Some l
    /\ getk root (keys ++ [t_name a; t_name u])%list = Some u /\ getk root (keys ++ [t_name a])%list = Some a /\ t_kind a = KArchive.
  Proof using G S Hl Ku Np.
    destruct (resource_parents root l u G S Hl ltac:(now rewrite Ku)) as (p & i & j & v & a & -> & Hv & Kv & Ha & Ka).
    assert (Pp : parent_loc (parent_loc (p ++ [i; j])%list) = p).
    { unfold parent_loc. replace (p ++ [i; j])%list with ((p ++ [i]) ++ [j])%list by (rewrite <- app_assoc; reflexivity). now rewrite !removelast_last. }
    rewrite Pp in Np. pose proof (good_wf _ (proj1 G)) as W. destruct (names_find root p W _ Np) as (ks & E & Fk). rewrite (proj1 (proj2 G)) in E. injection E as <-.
    assert (Gk : getk root keys = Some v) by (rewrite <- node_at_getk; unfold node_at; rewrite Fk; exact Hv).
    destruct (parent_at _ _ _ _ Ha) as (v' & Hv' & Na). rewrite Hv in Hv'. injection Hv' as <-.
    pose proof (names_snoc root p i v a _ Hv Na Np) as NA. assert (Hl' := Hl). replace (p ++ [i; j])%list with ((p ++ [i]) ++ [j])%list in Hl' by (rewrite <- app_assoc; reflexivity).
    destruct (parent_at _ _ _ _ Hl') as (a' & Ha' & Nu). rewrite Ha in Ha'. injection Ha' as <-. pose proof (names_snoc root _ j a u _ Ha Nu NA) as NU.
    replace ((p ++ [i]) ++ [j])%list with (p ++ [i; j])%list in NU by (rewrite <- app_assoc; reflexivity). cbn in NU. rewrite <- app_assoc in NU. cbn in NU.
    destruct (names_find root _ W _ NU) as (P & E & FP). rewrite (proj1 (proj2 G)) in E. injection E as <-.
    cbn in NA. destruct (names_find root _ W _ NA) as (PA & E & FA). rewrite (proj1 (proj2 G)) in E. injection E as <-.
    exists p, i, j, v, a. repeat (split; [first [reflexivity|assumption]|]). split; [|split; [|exact Ka]].
    - rewrite <- node_at_getk. unfold node_at. rewrite FP. exact Hl.
    - rewrite <- node_at_getk. unfold node_at. rewrite FA. exact Ha.
  Qed.

  Notation keys' := (keys ++ [B; MV])%list.
  Lemma one_names v : getk root keys = Some v -> t_kind v = KNamespace -> (forall x y, keys = (x ++ y)%list -> open_at root x) /\ ~ In B keys.
  Proof using G S T Hl Ku Np.
    intros Gk Kv. assert (Hk : forall x y, keys = (x ++ y)%list -> open_at root x) by (intros x y E; apply (td_ns _ T x y v); [now rewrite <- E|exact Kv]).
    split; [exact Hk|]. intros Q. destruct one_place as (p & i & j & v' & a & _ & _ & _ & _ & _ & _ & GP & _). apply in_split in Q as (x & y & E).
    apply (no_builtin_above root _ u x (y ++ [t_name a; t_name u])%list T GP ltac:(now rewrite Ku)); [rewrite E at 1; rewrite <- app_assoc; reflexivity|]. exact (Hk x _ E).
  Qed.

  (** the tree before the reference is added, and what the step amounts to *)
  Lemma one_step : index_width w <= 64 ->
    exists root2, append_builtin root l = insert_at root2 l (Node (referencify (index_path' keys w)) (KRef RBuiltin) []) /\ at_loc root2 l = Some u
      /\ (forall P y, getk root P = Some y -> is_multivector (t_kind y) = true -> getk root2 P = Some y).
  Proof using G S T Hl Ku Np.
    intros Wd. destruct one_place as (p & i & j & v & a & El & Hv & Kv & Gk & NU & FP & GP & GA & Ka). destruct (one_names v Gk Kv) as (Hk & Nk).
    assert (Ck : Forall clean keys /\ Forall (fun k => name_ok k = true) keys).
    { rewrite El in Np. assert (Pp : parent_loc (parent_loc (p ++ [i; j])%list) = p).
      { unfold parent_loc. replace (p ++ [i; j])%list with ((p ++ [i]) ++ [j])%list by (rewrite <- app_assoc; reflexivity). now rewrite !removelast_last. }
      rewrite Pp in Np. split.
      - pose proof (names_clean _ _ _ _ (proj1 G) Hv ltac:(unfold is_ref; now rewrite Kv) Np) as C. now inversion C.
      - clear - Gk G. pose proof (proj1 G) as W. clear G. revert root W v Gk. induction keys as [|k ks IH]; intros t W v Gk; [constructor|]. cbn in Gk. destruct (List.find _ (t_children t)) as [c|] eqn:F; [|discriminate].
        apply find_in in F as (Hin & E). constructor.
        + pose proof (good_here _ W) as (_ & Q & _). rewrite Forall_map, Forall_forall in Q. rewrite <- E. exact (Q c Hin).
        + apply In_nth_error in Hin as (i & Hi). exact (IH c (good_child _ _ _ W Hi) v Gk). }
    destruct Ck as (Ck & Ok').
    assert (Ck' : Forall clean keys') by (apply Forall_app; split; [exact Ck|repeat constructor]).
    destruct (ensure_some root keys') as (root1 & ns1 & H1).
    { now destruct keys. }
    { apply Forall_app. split; [exact Ok'|]. repeat constructor. }
    { intros x Hx. apply (old_builtin root keys T Hk [MV] x); [exact Hx|now right]. }
    destruct (ensure_namespace_good _ _ _ _ H1 G Ck') as (G1 & F1 & t1 & Ht1 & Rt1). destruct (ensure_getk _ _ _ _ H1) as (_ & _ & _ & G1k).
    assert (Nst : forall P y, getk root P = Some y -> is_multivector (t_kind y) = true -> strip P keys' = None).
    { intros P y Hy My. destruct (strip P keys') as [q|] eqn:Q; [|reflexivity]. exfalso. apply strip_spec in Q.
      destruct (ensure_tidy root keys T Hk Nk root1 ns1 H1) as (_ & Op1 & Old1 & _). destruct (Old1 P y Hy) as (x & Hx & Kx). destruct (Op1 P q Q) as [->|(z & Hz & Kz)].
      - cbn in Hy. injection Hy as <-. rewrite (proj2 (proj2 G)) in My. discriminate.
      - rewrite Hx in Hz. injection Hz as <-. rewrite <- Kx, Kz in My. discriminate. }
    assert (K1 : forall P y, getk root P = Some y -> is_multivector (t_kind y) = true -> getk root1 P = Some y).
    { intros P y Hy My. specialize (G1k P). rewrite Hy in G1k. destruct (getk root1 P) as [x|]; [|destruct G1k; discriminate]. destruct G1k as (_ & _ & Q). now rewrite (Q (Nst P y Hy My)). }
    destruct (builtin_total w Wd) as (b & Hb). pose proof (builtin_name w b Hb) as Nb.
    set (step := match find_relative t1 (t_name b) with Some _ => Ok root1 | None => insert_at root1 ns1 b end).
    assert (St : exists root2, step = Ok root2 /\ (forall P y, getk root P = Some y -> is_multivector (t_kind y) = true -> getk root2 P = Some y) /\ (forall lx ns, names_at root1 lx = Some ns -> names_at root2 lx = Some ns) /\ t_name root2 = "" /\ rooted root2).
    { unfold step. destruct (find_relative t1 (t_name b)) eqn:Fr; [exists root1; split; [reflexivity|]; split; [exact K1|]; split; [auto|]; split; [apply G1|exact G1]|].
      rewrite find_relative_split in Fr by exact (node_dot root1 ns1 t1 G1 Ht1). rewrite Nb in Fr. rewrite split_no_char in Fr by (apply index_name_chars; now left).
      assert (Ni : ~ In (t_name b) (map t_name (t_children t1))).
      { rewrite Nb. apply child_pos_none. cbn [find_keys] in Fr. destruct (child_pos (t_children t1) (index_type_name w)) as [k|] eqn:Ek; [|reflexivity]. apply child_pos_some in Ek as (c & Hc & _). rewrite Hc in Fr. discriminate. }
      destruct (proj2 (insert_some root1 ns1 t1 b Ht1) Ni) as (root2 & H2). exists root2. split; [exact H2|]. destruct (insert_getk keys' root1 ns1 b root2 F1 H2) as (_ & _ & N0 & _ & G2). split; [|split; [|split]].
      - intros P y Hy My. pose proof (K1 P y Hy My) as Hy1. assert (Sb : strip (keys' ++ [t_name b]) P = None).
        { destruct (strip (keys' ++ [t_name b]) P) as [q|] eqn:Q; [|reflexivity]. apply strip_spec in Q. rewrite Q, getk_app, N0 in Hy1. discriminate. }
        specialize (G2 P Sb). rewrite Hy1 in G2. destruct (getk root2 P) as [x|]; [|contradiction]. destruct G2 as (_ & _ & Q). now rewrite (Q (Nst P y Hy My)).
      - intros lx ns Hn. exact (insert_at_names _ _ _ _ _ _ H2 Hn).
      - destruct (insert_at_root _ _ _ _ H2) as (E & _). rewrite E. apply G1.
      - destruct (builtin_good _ _ Hb) as (Gb & Nbk & _). exact (rooted_insert_at _ _ _ _ _ G1 Ht1 Rt1 Gb Nbk H2). }
    destruct St as (root2 & H2 & K2 & N2 & T2 & G2). exists root2.
    assert (Nl1 : names_at root1 l = Some ("" :: keys ++ [t_name a; t_name u])%list).
    { apply (names_kept root root1); [|exact NU]. intros l' x Hx. destruct (ensure_namespace_old _ _ _ _ _ _ H1 Hx) as (x' & Hx' & E & _). eauto. }
    assert (Hl2 : at_loc root2 l = Some u).
    { pose proof (N2 _ _ Nl1) as Q. destruct (names_find root2 l (good_wf _ (proj1 G2)) _ Q) as (P & E & F). rewrite T2 in E. injection E as <-.
      pose proof (K2 _ _ GP ltac:(now rewrite Ku)) as Q2. rewrite <- node_at_getk in Q2. unfold node_at in Q2. now rewrite F in Q2. }
    split; [|split; [exact Hl2|exact K2]].
    unfold append_builtin. rewrite Hl. destruct u as [un uk uc]. cbn [t_kind] in Ku. subst uk. rewrite Np, H1. cbn [bind]. rewrite Hb. cbn [bind]. rewrite Ht1. fold step. rewrite H2. cbn [bind].
    assert (Nn : names_at root1 ns1 = Some ("" :: keys')). { destruct (find_keys_loc _ _ _ F1) as (Nn & _). now rewrite (proj1 (proj2 G1)) in Nn. }
    unfold path_at. rewrite (N2 _ _ Nn). cbn [option_map]. rewrite make_ref_eq. cbn [bind]. unfold ref_node. cbn [fst snd]. rewrite Nb. do 3 f_equal. unfold index_path'.
    replace ("" :: keys ++ [B; MV; index_type_name w])%list with (("" :: keys ++ [B; MV]) ++ [index_type_name w])%list by (cbn; rewrite <- app_assoc; reflexivity).
    rewrite join_snoc by discriminate. reflexivity.
  Qed.

  Lemma one_width root' : append_builtin root l = Ok root' -> index_width w <= 64.
  Proof using Hl Ku Np.
    unfold append_builtin. rewrite Hl. destruct u as [un uk uc]. cbn [t_kind] in Ku. subst uk. rewrite Np. intros H. apply bind_ok in H as ((r1, ns1) & _ & H). apply bind_ok in H as (b & Hb & _).
    exact (proj1 (builtin_structure_eq w b Hb)).
  Qed.
  Lemma one_iff : (exists root', append_builtin root l = Ok root') <-> index_width w <= 64 /\ ~ In (referencify (index_path' keys w)) (map t_name (t_children u)).
  Proof using G S T Hl Ku Np.
    split.
    - intros (root' & H). pose proof (one_width root' H) as Wd. split; [exact Wd|]. destruct (one_step Wd) as (root2 & E & Hl2 & _). rewrite E in H.
      exact (proj1 (insert_some root2 l u _ Hl2) (ex_intro _ root' H)).
    - intros (Wd & N). destruct (one_step Wd) as (root2 & E & Hl2 & _). rewrite E. apply (insert_some root2 l u _ Hl2). exact N.
  Qed.
  Lemma one_others root' l' y : append_builtin root l = Ok root' -> at_loc root l' = Some y -> is_multivector (t_kind y) = true -> l' <> l -> at_loc root' l' = Some y.
  Proof using G S T Hl Ku Np.
    intros H Hy My Nl. destruct (one_step (one_width root' H)) as (root2 & E & Hl2 & K2). rewrite E in H.
    destruct (loc_keys root l' y (good_wf _ (proj1 G)) Hy) as (P & NP & FP & GP). pose proof (K2 P y GP My) as GP2.
    destruct one_place as (p & i & j & v & a & El & Hv & Kv & Gk & NU & FPl & GPl & GA & Ka). destruct (one_names v Gk Kv) as (Hk & Nk).
    pose proof (K2 _ _ GPl ltac:(now rewrite Ku)) as GPl2.
    assert (G' : rooted root') by (rewrite <- E in H; exact (proj1 (append_builtin_good _ _ _ H G))).
    assert (N' : names_at root' l' = Some ("" :: P)%list).
    { rewrite <- (proj1 (proj2 G)). apply (names_kept root root'); [|exact NP]. intros lx x Hx. rewrite <- E in H. destruct (proj2 (append_builtin_good _ _ _ H G) lx x Hx) as (x' & Hx' & Ex & _). eauto. }
    destruct (names_find root' l' (good_wf _ (proj1 G')) _ N') as (P' & E' & F'). rewrite (proj1 (proj2 G')) in E'. injection E' as <-.
    apply getk_at in GPl2 as (l2 & F2 & A2).
    assert (l2 = l).
    { clear - F2 A2 El GPl H E G G' NU FPl. pose proof H as H0. apply insert_at_inv in H0 as (t2 & Ht2 & _ & _). destruct (find_keys_loc _ _ _ F2) as (N2 & _).
      pose proof (insert_at_names _ _ _ _ _ _ H N2) as N2'. destruct (insert_at_root _ _ _ _ H) as (Tn & _). rewrite <- Tn, (proj1 (proj2 G')) in N2'.
      destruct (names_find root' l2 (good_wf _ (proj1 G')) _ N2') as (Q & EQ & FQ). rewrite (proj1 (proj2 G')) in EQ. injection EQ as <-.
      assert (NU' : names_at root' l = Some ("" :: keys ++ [t_name a; t_name u])%list).
      { apply (names_kept root root'); [|exact NU]. intros lx x Hx. rewrite <- E in H. destruct (proj2 (append_builtin_good _ _ _ H G) lx x Hx) as (x' & Hx' & Ex & _). eauto. }
      destruct (names_find root' l (good_wf _ (proj1 G')) _ NU') as (Q & EQ & FQ'). rewrite (proj1 (proj2 G')) in EQ. injection EQ as <-. congruence. }
    subst l2. destruct (insert_getk _ root2 l _ root' F2 H) as (_ & _ & N0 & _ & G3). cbn [t_name] in N0, G3.
    assert (Sb : strip ((keys ++ [t_name a; t_name u]) ++ [referencify (index_path' keys w)]) P = None).
    { destruct (strip _ P) as [q|] eqn:Q; [|reflexivity]. apply strip_spec in Q. rewrite Q, getk_app, N0 in GP2. discriminate. }
    specialize (G3 P Sb). rewrite GP2 in G3. destruct (getk root' P) as [x|] eqn:Gx; [|contradiction]. destruct G3 as (_ & _ & Q).
    assert (x = y).
    { apply Q. destruct (strip P (keys ++ [t_name a; t_name u])) as [q|] eqn:Sq; [|reflexivity]. exfalso. apply strip_spec in Sq.
      destruct q as [|x1 q]; [rewrite app_nil_r in Sq; subst P; congruence|]. destruct q as [|x2 q].
      - replace (keys ++ [t_name a; t_name u])%list with ((keys ++ [t_name a]) ++ [t_name u])%list in Sq by (rewrite <- app_assoc; reflexivity). apply app_inj_tail in Sq as (<- & _). rewrite GA in GP. injection GP as <-. rewrite Ka in My. discriminate.
      - assert (Pk : exists r, keys = (P ++ r)%list).
        { clear - Sq. destruct (app_eq_app _ _ _ _ Sq) as (z & [(E1 & E2)|(E1 & E2)]); [eauto|]. destruct z as [|z0 z]; [exists []; rewrite app_nil_r in *; auto|]. exfalso. apply (f_equal (@List.length string)) in E2. rewrite app_length in E2. cbn in E2. lia. }
        destruct Pk as (r & Er). destruct (Hk P r Er) as [->|(z & Hz & Kz)]; [cbn in GP; injection GP as <-; rewrite (proj2 (proj2 G)) in My; discriminate|].
        rewrite GP in Hz. injection Hz as <-. rewrite Kz in My. discriminate. }
    subst x. rewrite <- node_at_getk in Gx. unfold node_at in Gx. now rewrite F' in Gx.
  Qed.
End One.

(** the multivector at [l] can be given its index structure *)
Definition index_fits (root : tree) (l : loc) : Prop := forall u w o m keys, at_loc root l = Some u -> t_kind u = KResource (KMultivector w) o m ->
  names_at root (parent_loc (parent_loc l)) = Some ("" :: keys)%list -> index_width w <= 64 /\ ~ In (referencify (index_path' keys w)) (map t_name (t_children u)).

Lemma place_names root l u : rooted root -> at_loc root l = Some u -> exists keys, names_at root (parent_loc (parent_loc l)) = Some ("" :: keys)%list.
Proof.
  intros G H. assert (P : forall l u, at_loc root l = Some u -> exists v, at_loc root (parent_loc l) = Some v).
  { intros l' x Hx. destruct l' as [|i l'] using rev_ind; [exists root; reflexivity|]. destruct (parent_at _ _ _ _ Hx) as (v & Hv & _). unfold parent_loc. rewrite removelast_last. eauto. }
  destruct (P l u H) as (v & Hv). destruct (P _ v Hv) as (x & Hx). destruct (loc_keys root _ x (good_wf _ (proj1 G)) Hx) as (ks & N & _). rewrite (proj1 (proj2 G)) in N. eauto.
Qed.

Lemma index_fold ls : forall root, NoDup ls -> rooted root -> local (shape true) root -> tidy root -> (forall l, In l ls -> exists u, at_loc root l = Some u /\ is_multivector (t_kind u) = true) ->
  ((exists root', foldM append_builtin root ls = Ok root') <-> forall l, In l ls -> index_fits root l).
Proof.
  induction ls as [|l ls IH]; intros root Nd G S T M; [split; [intros _ l []|eexists; reflexivity]|]. inversion Nd as [|? ? Nin Nd']; subst. cbn [foldM].
  destruct (M l (or_introl eq_refl)) as (u & Hu & Mu). destruct (place_names root l u G Hu) as (keys & Np).
  destruct (t_kind u) as [| | | | | | | |rk o m| |] eqn:Ku; try discriminate. destruct rk as [| |w| | |]; try discriminate.
  pose proof (one_iff root l u w o m keys G S T Hu Ku Np) as I.
  assert (Fl : index_fits root l <-> exists root', append_builtin root l = Ok root').
  { rewrite I. split; [intros F; exact (F u w o m keys Hu Ku Np)|]. intros F u' w' o' m' keys' Hu' Ku' Np'. rewrite Hu in Hu'. injection Hu' as <-. rewrite Np in Np'. injection Np' as <-. rewrite Ku in Ku'. injection Ku' as <- _ _. exact F. }
  assert (Next : forall root', append_builtin root l = Ok root' -> ((exists r', foldM append_builtin root' ls = Ok r') <-> forall l', In l' ls -> index_fits root l')).
  { intros root' H. destruct (append_builtin_good _ _ _ H G) as (G' & O'). destruct (append_builtin_shaped _ _ _ H G S) as (S' & _ & _). destruct (append_builtin_tidy _ _ _ H G S T) as (T' & _ & _).
    assert (Keep : forall l' y, In l' ls -> at_loc root l' = Some y -> is_multivector (t_kind y) = true -> at_loc root' l' = Some y).
    { intros l' y Hin Hy My. apply (one_others root l u w o m keys G S T Hu Ku Np root' l' y H Hy My). intros ->. contradiction. }
    assert (Nm : forall x ns, names_at root x = Some ns -> names_at root' x = Some ns).
    { intros x ns. apply names_kept. intros lx z Hz. destruct (O' lx z Hz) as (z' & Hz' & E & _). eauto. }
    rewrite (IH root' Nd' G' S' T').
    - split; intros F l' Hin u' w' o' m' keys' Hu' Ku' Np'.
      + assert (Mm : is_multivector (t_kind u') = true) by now rewrite Ku'. exact (F l' Hin u' w' o' m' keys' (Keep l' u' Hin Hu' Mm) Ku' (Nm _ _ Np')).
      + destruct (M l' (or_intror Hin)) as (y & Hy & My). rewrite (Keep l' y Hin Hy My) in Hu'. injection Hu' as <-. destruct (place_names root l' y G Hy) as (k0 & N0). rewrite (Nm _ _ N0) in Np'. injection Np' as <-.
        exact (F l' Hin y w' o' m' k0 Hy Ku' N0).
    - intros l' Hin. destruct (M l' (or_intror Hin)) as (y & Hy & My). exists y. split; [exact (Keep l' y Hin Hy My)|exact My]. }
  split.
  - intros (r' & H). apply bind_ok in H as (root' & H1 & H2). intros l' [<-|Hin]; [apply Fl; eauto|]. apply (proj1 (Next root' H1)); eauto.
  - intros F. destruct (proj1 Fl (F l (or_introl eq_refl))) as (root' & H1). rewrite H1. cbn [bind]. apply (Next root' H1). intros l' Hin. apply F. now right.
Qed.
Theorem builtins_iff root : rooted root -> local (shape true) root -> tidy root ->
  ((exists root', append_builtins root = Ok root') <-> forall l u, at_loc root l = Some u -> is_multivector (t_kind u) = true -> index_fits root l).
Proof.
  intros G S T. unfold append_builtins. rewrite (index_fold _ root (iterate_nodup _ _) G S T).
  - split; [intros F l u Hu Mu; apply F; apply iterate_spec; eauto|]. intros F l Hl. apply iterate_spec in Hl as (u & Hu & Mu). exact (F l u Hu Mu).
  - intros l Hl. now apply iterate_spec in Hl.
Qed.

(** ** In terms of the declarations *)
Lemma index_width_le w : index_width (Z.of_N w) <= 64 <-> (w <= 64)%N.
Proof. unfold index_width. rewrite N2Z.id. destruct (Z.eqb_spec (Z.of_N w) 0); lia. Qed.
Lemma dotted_more a b : a <> [] -> b <> [] -> join "." (a ++ b) = (join "." a ++ "." ++ join "." b)%string.
Proof. intros A Bn. exact (dotted_app a b A Bn). Qed.
Lemma index_path_eq p w : index_path' (ns_keys p) (Z.of_N w) = index_path p w.
Proof.
  unfold index_path', index_path. change ("" :: ns_keys p ++ [B; MV; index_type_name (Z.of_N w)])%list with ([""] ++ (ns_keys p ++ [B; MV; index_type_name (Z.of_N w)]))%list.
  rewrite dotted_more; [|discriminate|now destruct (ns_keys p)]. rewrite dotted_more; [|apply split_nonempty|discriminate]. unfold ns_keys. rewrite <- (dotted_split (pn_name p)) at 2. unfold dotted. cbn [join]. reflexivity.
Qed.
Lemma index_clean s p w : identifiers s -> In p s -> has_char "@" (index_path p w) = false.
Proof.
  intros Id Hp. unfold index_path. change ("." ++ ?x)%string with (String "." x). cbn [has_char]. rewrite has_char_app. change ("._builtin.multivector." ++ index_type_name (Z.of_N w))%string with ("._builtin.multivector." ++ index_type_name (Z.of_N w))%string. rewrite has_char_app.
  rewrite (index_name_chars "@"%char (Z.of_N w)); [|right; now left]. rewrite (mentions_clean s p (pn_name p) Id Hp); [reflexivity|]. unfold mentioned, namespace_names. apply in_or_app. left. left. reflexivity.
Qed.
Lemma resource_children r x n : create_resource r = Ok x -> clean_names (resource_mentions r) -> has_char "@" n = false ->
  (In (referencify n) (map t_name (t_children x)) <-> In n (map snd (types_used (pr_type r)))).
Proof.
  intros H C Cn. apply create_resource_inv in H as (es & cs & Fe & Fc & ->). cbn [t_children]. rewrite map_app.
  assert (Nc : map t_name cs = map referencify (map snd (types_used (pr_type r)))).
  { clear - Fc. induction Fc as [|q c qs cs H F IH]; [reflexivity|]. cbn. rewrite IH. f_equal. destruct (make_ref_ok _ _ _ H) as (-> & _). reflexivity. }
  rewrite in_app_iff, Nc. split.
  - intros [Hin|Hin].
    + exfalso. apply in_map_iff in Hin as (e & E & He). destruct (Forall2_in_r _ _ _ _ Fe He) as (y & _ & Hy). pose proof (make_explicit_name y e Hy) as Ne. rewrite Ne in E. destruct y as [[a b] c]. discriminate E.
    + apply in_map_iff in Hin as (m' & E & Hm). apply referencify_inj in E; [now subst| |exact Cn]. unfold clean_names, resource_mentions in C. apply Forall_app in C as (_ & C). rewrite Forall_forall in C. auto.
  - intros Hin. right. now apply in_map.
Qed.

Theorem index_iff so s r1 : any_order so -> identifiers s -> separated s -> no_builtin s -> build_node_tree so s = Ok r1 ->
  ((exists r2, append_builtins r1 = Ok r2) <-> forall p a r, In p s -> In a (pn_archives p) -> In r (pa_resources a) -> index_valid p r).
Proof.
  intros Hso Id Sp NB H1. pose proof (well_named_clean s (identifiers_named s Id)) as C.
  pose proof (build_node_tree_good so s r1 Hso C H1) as G1. pose proof (build_node_tree_shaped false so s r1 Hso C H1) as S1. pose proof (shaped_any _ _ S1) as S1'.
  pose proof (build_tidy so s r1 Hso Sp NB H1) as T1. rewrite (builtins_iff r1 G1 S1' T1). destruct (build_iff so s Sp r1 H1) as (D & M & ND & (I1 & I2 & I3 & I4)). split.
  - intros F p a r Hp Ha Hr w ns Ety.
    assert (Hd : exists ds, In (ns_keys p, ds) D /\ creations so p = map Ok ds).
    { clear - M Hp. unfold made in M. destruct (Forall2_in_l _ _ _ _ M Hp) as ([K ds] & Hin & E1 & _ & E3). cbn in *. subst K. eauto. }
    destruct Hd as (ds & Hds & Ec). assert (Hc : In (create_archive a) (creations so p)) by (unfold creations; rewrite !in_app_iff; right; right; right; now apply in_map).
    rewrite Ec in Hc. apply in_map_iff in Hc as (d & Ed & Hd). symmetry in Ed. assert (Dd : decl D (ns_keys p) d) by (exists ds; auto).
    pose proof (create_archive_inv a d Ed) as (rs & bs & Fr & Fb & Edd). destruct (Forall2_in_l _ _ _ _ Fr Hr) as (x & Hx & Ex).
    assert (Gd : getk d [t_name x] = Some x).
    { assert (Nd : NoDup (map t_name (t_children d))).
      { pose proof (I2 _ d [] Dd) as Q. cbn in Q. apply getk_at in Q as (ld & _ & Hld). exact (proj1 (good_here _ (good_at _ _ _ (proj1 G1) Hld))). }
      rewrite <- node_at_getk. unfold node_at. rewrite Edd in *. cbn [t_children] in *. cbn [find_keys t_children]. assert (Hin : In x (rs ++ bs)%list) by (apply in_or_app; auto). apply In_nth_error in Hin as (k & Hk). rewrite (child_pos_nodup _ _ k x Nd Hk eq_refl), Hk. cbn. now rewrite Hk. }
    pose proof (I2 _ d [t_name x] Dd) as Gx. rewrite Gd in Gx. apply getk_at in Gx as (l & Fl & Hl).
    assert (Kx : t_kind x = KResource (KMultivector (Z.of_N w)) (has_optional (pr_decs r)) None) by (apply create_resource_inv in Ex as (es & cs & _ & _ & ->); cbn; now rewrite Ety).
    destruct (place_names r1 l x G1 Hl) as (keys & Np).
    destruct (one_place r1 l x _ _ _ keys G1 S1' Hl Kx Np) as (p0 & i & j & v & a0 & _ & _ & _ & _ & NU & _).
    destruct (find_keys_loc _ _ _ Fl) as (NU' & _). rewrite (proj1 (proj2 G1)), NU in NU'. injection NU' as NU'.
    replace (keys ++ [t_name a0; t_name x])%list with ((keys ++ [t_name a0]) ++ [t_name x])%list in NU' by (rewrite <- app_assoc; reflexivity).
    replace (ns_keys p ++ [t_name d; t_name x])%list with ((ns_keys p ++ [t_name d]) ++ [t_name x])%list in NU' by (rewrite <- app_assoc; reflexivity).
    apply app_inj_tail in NU' as (NU' & _). apply app_inj_tail in NU' as (-> & _).
    destruct (F l x Hl ltac:(now rewrite Kx) x _ _ _ _ Hl Kx Np) as (A & Bn). split; [now apply index_width_le|]. intros Hin. apply Bn. rewrite index_path_eq.
    apply (resource_children r x _ Ex); [exact (resource_mentions_clean s p a r Id Hp Ha Hr)|exact (index_clean s p w Id Hp)|]. rewrite Ety. cbn. rewrite map_map. cbn. now rewrite map_id.
  - intros F l u Hl Mu u' w o m keys Hl' Ku Np. rewrite Hl in Hl'. injection Hl' as <-.
    destruct (one_place r1 l u w o m keys G1 S1' Hl Ku Np) as (p0 & i & j & v & a0 & _ & _ & Kv & Gk & NU & _ & GP & GA & Ka).
    destruct (I4 _ _ GA) as [E|[N|(K & d & rr & Dd & E)]].
    + now destruct keys.
    + exfalso. destruct (I3 (keys ++ [t_name a0])%list) as (t & Ht & Kt); [now destruct keys|exact N|]. rewrite GA in Ht. injection Ht as <-. congruence.
    + destruct (made_decl _ _ _ _ _ M Dd) as (p & Hp & -> & Hin & _).
      assert (rr = []).
      { destruct rr as [|x rr] using rev_ind; [reflexivity|]. exfalso. clear IHrr. change (t_name d :: rr ++ [x])%list with ((t_name d :: rr) ++ [x])%list in E. rewrite app_assoc in E. apply app_inj_tail in E as (E & _).
        rewrite E, (I2 _ d rr Dd) in Gk. exact (proj1 (definition_kinds so p d Hso Hin rr v Gk) Kv). }
      subst rr. apply app_inj_tail in E as (-> & En). pose proof (I2 _ d [] Dd) as Gd. cbn in Gd. rewrite <- En, GA in Gd. injection Gd as <-.
      pose proof (I2 _ a0 [t_name u] Dd) as Gu. rewrite GP in Gu. symmetry in Gu.
      assert (Ca : exists a, In a (pn_archives p) /\ create_archive a = Ok a0).
      { clear - Hin Ka Hso. unfold creations in Hin. rewrite !in_app_iff, !in_map_iff in Hin. destruct Hin as [(x & Ex & _)|[(x & Ex & _)|[(x & Ex & _)|(x & Ex & Hx)]]].
        - apply create_constant_inv in Ex as (y & _ & ->). discriminate.
        - apply create_structure_inv in Ex as (cs & _ & ->). discriminate.
        - apply (create_enumeration_ok so x a0 Hso) in Ex as (b & vs & _ & -> & _). discriminate.
        - eauto. }
      destruct Ca as (a & Ha & Ea). pose proof (create_archive_inv a a0 Ea) as (rs & bs & Fr & Fb & Edd).
      assert (Hu : In u (rs ++ bs)%list).
      { rewrite Edd in Gu. cbn [getk t_children] in Gu. destruct (List.find _ (rs ++ bs)%list) as [c|] eqn:Fc; [|discriminate]. injection Gu as ->. now apply find_in in Fc. }
      apply in_app_or in Hu as [Hu|Hu].
      * destruct (Forall2_in_r _ _ _ _ Fr Hu) as (r & Hr & Er). pose proof (create_resource_inv r u Er) as (es & cs & _ & _ & Eu). rewrite Eu in Ku. cbn in Ku.
        destruct (pr_type r) as [|ty|w0 ns|n|ty] eqn:Ety; try discriminate. injection Ku as <- _ _. destruct (F p a r Hp Ha Hr w0 ns Ety) as (A & Bn). split; [now apply index_width_le|].
        intros Q. apply Bn. rewrite index_path_eq in Q. apply (resource_children r u _ Er) in Q; [|exact (resource_mentions_clean s p a r Id Hp Ha Hr)|exact (index_clean s p w0 Id Hp)].
        rewrite Ety in Q. cbn in Q. rewrite map_map in Q. cbn in Q. now rewrite map_id in Q.
      * exfalso. destruct (Forall2_in_r _ _ _ _ Fb Hu) as (b & _ & Eb). apply create_bound_inv in Eb as (cs & _ & ->). discriminate.
Qed.
