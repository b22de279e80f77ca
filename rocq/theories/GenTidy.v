(** Namespaces and index structures: where they are in the tree of a schema that does not itself use the name "_builtin". *)
From Coq Require Import List ZArith Bool String Ascii Lia Permutation.
From Verif Require Import PyBase PyText GenTypes GenTypesFacts GenTree GenTreeFacts GenTraversal
  GenBuild GenBuildFacts GenPassFacts GenAstFacts GenAstSpec GenLayoutFacts GenMergeFacts GenShapeFacts GenEvery.
Import ListNotations.
Local Open Scope string_scope.
Local Open Scope Z_scope.

Notation B := "_builtin".
Notation MV := "multivector".

Definition open_at (root : tree) (K : list string) : Prop := K = [] \/ exists u, getk root K = Some u /\ t_kind u = KNamespace.
(** what is found below a namespace "_builtin" *)
Definition below_builtin (rest : list string) (u : tree) : Prop :=
  ((rest = [] \/ rest = [MV]) /\ t_kind u = KNamespace)
  \/ exists w b r, rest = MV :: t_name b :: r /\ builtin_structure w = Ok b /\ getk b r = Some u.
Record tidy (root : tree) : Prop := {
  td_ns : forall a b u, getk root (a ++ b)%list = Some u -> t_kind u = KNamespace -> open_at root a;
  td_bi : forall K rest u, open_at root K -> getk root (K ++ B :: rest)%list = Some u -> below_builtin rest u }.

Lemma getk_prefix root a b u : getk root (a ++ b)%list = Some u -> exists v, getk root a = Some v.
Proof. rewrite getk_app. destruct (getk root a); [eauto|discriminate]. Qed.

Lemma builtin_nodes w b : builtin_structure w = Ok b -> forall r u, getk b r = Some u -> t_kind u <> KNamespace /\ is_multivector (t_kind u) = false.
Proof.
  intros H. apply builtin_structure_eq in H as (_ & ->). intros [|k r] u Hu; cbn [getk] in Hu; [injection Hu as <-; cbn; split; [discriminate|reflexivity]|].
  cbn [t_children List.find t_name] in Hu. destruct (String.eqb "value" k); [|discriminate]. destruct r as [|k' r]; cbn in Hu; [injection Hu as <-; cbn; split; [discriminate|reflexivity]|discriminate].
Qed.
Lemma builtin_name w b : builtin_structure w = Ok b -> t_name b = index_type_name w.
Proof. intros H. now apply builtin_structure_eq in H as (_ & ->). Qed.
Lemma builtin_name_not w b : builtin_structure w = Ok b -> t_name b <> B.
Proof. intros H. rewrite (builtin_name w b H). discriminate. Qed.

Lemma tidy_step root root' P : tidy root ->
  (forall ks, match getk root' ks, getk root ks with
              | Some x, Some y => t_kind x = t_kind y /\ (strip ks P = None -> x = y)
              | None, Some _ => False
              | _, None => True
              end) ->
  (forall a b u, getk root' (a ++ b)%list = Some u -> getk root (a ++ b)%list = None -> t_kind u = KNamespace -> open_at root' a) ->
  (forall K rest u, open_at root' K -> getk root' (K ++ B :: rest)%list = Some u ->
     getk root (K ++ B :: rest)%list = None \/ strip (K ++ B :: rest) P <> None -> below_builtin rest u) ->
  tidy root'.
Proof.
  intros T E N1 N2. assert (Op : forall K, open_at root K -> open_at root' K).
  { intros K [->|(u & Hu & Ku)]; [now left|]. right. specialize (E K). rewrite Hu in E. destruct (getk root' K) as [x|]; [|contradiction]. exists x. split; [reflexivity|]. now rewrite (proj1 E). }
  constructor.
  - intros a b u Hu Ku. pose proof (E (a ++ b)%list) as Eab. rewrite Hu in Eab. destruct (getk root (a ++ b)%list) as [y|] eqn:Hy.
    + apply Op. apply (td_ns _ T a b y Hy). now rewrite <- (proj1 Eab).
    + now apply (N1 a b u).
  - intros K rest u HK Hu. pose proof (E (K ++ B :: rest)%list) as Ek. rewrite Hu in Ek. destruct (getk root (K ++ B :: rest)%list) as [y|] eqn:Hy.
    + destruct (strip (K ++ B :: rest) P) as [q|] eqn:S; [apply (N2 K rest u HK Hu); right; congruence|]. rewrite (proj2 Ek eq_refl) in *. apply (td_bi _ T K rest y); [|exact Hy].
      destruct HK as [->|(v & Hv & Kv)]; [now left|]. right. destruct (getk_prefix _ _ _ _ Hy) as (v' & Hv'). exists v'. split; [exact Hv'|]. specialize (E K). rewrite Hv, Hv' in E. now rewrite <- (proj1 E).
    + apply (N2 K rest u HK Hu). now left.
Qed.

Section Step.
  Variables (root : tree) (keys : list string).
  Hypothesis (T : tidy root) (Hk : forall a b, keys = (a ++ b)%list -> open_at root a) (Nk : ~ In B keys).
  Notation keys' := (keys ++ [B; MV])%list.

  Lemma builtin_split K t : keys' = (K ++ B :: t)%list -> K = keys /\ t = [MV].
  Proof using Nk.
    clear - Nk. revert K. induction keys as [|k ks IH]; intros K E; cbn in E.
    - destruct K as [|x K]; cbn in E; [injection E as <-; auto|]. injection E as <- E. destruct K as [|y K]; cbn in E; [discriminate|]. apply (f_equal (@List.length string)) in E. cbn in E. rewrite app_length in E. cbn in E. lia.
    - destruct K as [|x K]; cbn in E; injection E as -> E; [exfalso; apply Nk; now left|]. destruct (IH ltac:(intros Q; apply Nk; now right) K E) as (-> & ->). auto.
  Qed.
  Lemma builtin_prefix K rest : strip (K ++ B :: rest) keys' <> None -> K = keys /\ (rest = [] \/ rest = [MV]).
  Proof using Nk.
    intros S. destruct (strip (K ++ B :: rest) keys') as [m|] eqn:E; [|congruence]. apply strip_spec in E. rewrite <- app_assoc in E. cbn in E.
    destruct (builtin_split _ _ E) as (-> & E'). split; [reflexivity|]. destruct rest as [|x rest]; [now left|]. injection E' as -> E'. right. now destruct rest.
  Qed.
  Lemma old_builtin rest y : getk root (keys ++ B :: rest)%list = Some y -> rest = [] \/ rest = [MV] -> t_kind y = KNamespace.
  Proof using T Hk.
    intros Hy R. destruct (td_bi _ T keys rest y (Hk keys [] (eq_sym (app_nil_r _))) Hy) as [(_ & K)|(w & b & r & E & _)]; [exact K|]. destruct R as [->| ->]; discriminate.
  Qed.
  Lemma ensure_tidy root' l : ensure_namespace root keys' = Ok (root', l) ->
    tidy root' /\ (forall a m, keys' = (a ++ m)%list -> open_at root' a) /\ (forall ks y, getk root ks = Some y -> exists x, getk root' ks = Some x /\ t_kind x = t_kind y) /\ find_keys root' keys' = Some l.
  Proof using T Hk Nk.
    intros H. destruct (ensure_getk _ _ _ _ H) as (_ & _ & F & G).
    assert (Old : forall ks y, getk root ks = Some y -> exists x, getk root' ks = Some x /\ t_kind x = t_kind y).
    { intros ks y Hy. specialize (G ks). rewrite Hy in G. destruct (getk root' ks) as [x|]; [exists x; tauto|]. destruct G as (G & _). discriminate. }
    assert (Op : forall a m, keys' = (a ++ m)%list -> open_at root' a).
    { intros a m E. pose proof (G a) as Ga. assert (Sa : strip a keys' <> None) by (intros Q; pose proof (proj2 (strip_spec a keys' m) E); congruence).
      destruct (getk root' a) as [x|] eqn:Hx; [|tauto]. destruct (getk root a) as [y|] eqn:Hy; [|right; exists x; tauto].
      assert (C : (exists b, keys = (a ++ b)%list) \/ exists rest, a = (keys ++ B :: rest)%list /\ (rest = [] \/ rest = [MV])).
      { destruct (app_eq_app _ _ _ _ E) as (q & [(E1 & E')|(-> & E')]); [left; eauto|]. destruct q as [|x0 q]; [left; exists []; now rewrite !app_nil_r|]. right.
        cbn in E'; injection E' as <- E'. exists q. split; [reflexivity|]. destruct q as [|x1 q]; [now left|]. cbn in E'; injection E' as <- E'. right. now destruct q. }
      destruct C as [(b & Eb)|(rest & -> & R)].
      - destruct (Hk a b Eb) as [->|(u & Hu & Ku)]; [now left|]. rewrite Hy in Hu. injection Hu as <-. right. exists x. split; [exact Hx|]. rewrite <- Ku. tauto.
      - right. exists x. split; [exact Hx|]. rewrite <- (old_builtin rest y Hy R). tauto. }
    split; [|split; [exact Op|split; [exact Old|exact F]]]. apply (tidy_step root root' keys' T).
    - intros ks. specialize (G ks). destruct (getk root' ks) as [x|], (getk root ks) as [y|]; try tauto. destruct G as (G & _). discriminate.
    - intros a b u Hu Hn _. specialize (G (a ++ b)%list). rewrite Hu, Hn in G. destruct G as (_ & S). destruct (strip (a ++ b) keys') as [m|] eqn:E; [|congruence].
      apply strip_spec in E. rewrite <- app_assoc in E. exact (Op _ _ E).
    - intros K rest u HK Hu C. assert (S : strip (K ++ B :: rest) keys' <> None).
      { destruct C as [Hn|S]; [|exact S]. specialize (G (K ++ B :: rest)%list). rewrite Hu, Hn in G. tauto. }
      destruct (builtin_prefix _ _ S) as (-> & R). left. split; [exact R|]. destruct (strip (keys ++ B :: rest) keys') as [m|] eqn:E; [|congruence]. apply strip_spec in E.
      destruct (Op _ _ E) as [Q|(v & Hv & Kv)]; [now destruct keys|]. congruence.
  Qed.
  Lemma insert_builtin_tidy l w b root' : (forall a m, keys' = (a ++ m)%list -> open_at root a) -> find_keys root keys' = Some l -> builtin_structure w = Ok b ->
    insert_at root l b = Ok root' ->
    tidy root' /\ (forall ks y, getk root ks = Some y -> exists x, getk root' ks = Some x /\ t_kind x = t_kind y).
  Proof using T Hk Nk.
    intros Op F Hb H. destruct (insert_getk keys' root l b root' F H) as (_ & _ & N0 & Gin & G).
    assert (C : forall ks, (exists r, ks = (keys' ++ t_name b :: r)%list /\ getk root' ks = getk b r /\ getk root ks = None) \/ strip (keys' ++ [t_name b]) ks = None).
    { intros ks. destruct (strip (keys' ++ [t_name b]) ks) as [r|] eqn:S; [|now right]. left. apply strip_spec in S. exists r.
      assert (E : ks = (keys' ++ t_name b :: r)%list) by (rewrite S, <- app_assoc; reflexivity). split; [exact E|]. split; [rewrite E; apply Gin|]. rewrite S, getk_app, N0. reflexivity. }
    assert (Old : forall ks y, getk root ks = Some y -> exists x, getk root' ks = Some x /\ t_kind x = t_kind y).
    { intros ks y Hy. destruct (C ks) as [(r & _ & _ & Hn)|S]; [congruence|]. specialize (G ks S). rewrite Hy in G. destruct (getk root' ks) as [x|]; [|contradiction]. exists x. tauto. }
    split; [|exact Old]. apply (tidy_step root root' keys' T).
    - intros ks. destruct (C ks) as [(r & _ & -> & ->)|S]; [now destruct (getk b r)|]. specialize (G ks S). destruct (getk root' ks), (getk root ks); tauto.
    - intros a q u Hu Hn Ku. destruct (C (a ++ q)%list) as [(r & _ & E & _)|S].
      + rewrite E in Hu. destruct (proj1 (builtin_nodes w b Hb r u Hu) Ku).
      + specialize (G _ S). rewrite Hu, Hn in G. contradiction.
    - intros K rest u HK Hu D. destruct (C (K ++ B :: rest)%list) as [(r & E & Eg & _)|S].
      + right. rewrite Eg in Hu. destruct (app_eq_app _ _ _ _ E) as (q & [(E1 & E2)|(E1 & E2)]).
        * exfalso. destruct q as [|x q]; [injection E2 as E2 _; exact (builtin_name_not w b Hb E2)|]. injection E2 as <- E2. subst K.
          destruct HK as [Q|(v & Hv & Kv)]; [now destruct keys|]. rewrite Gin in Hv. exact (proj1 (builtin_nodes w b Hb q v Hv) Kv).
        * destruct q as [|x q]; [exfalso; injection E2 as E2 _; symmetry in E2; exact (builtin_name_not w b Hb E2)|]. injection E2 as <- E2.
          destruct (builtin_split _ _ E1) as (-> & ->). exists w, b, r. rewrite E2. auto.
      + specialize (G _ S). rewrite Hu in G. destruct (getk root (K ++ B :: rest)%list) as [y|] eqn:Hy; [|contradiction]. destruct D as [D|D]; [discriminate|].
        destruct (builtin_prefix _ _ D) as (-> & R). left. split; [exact R|]. rewrite <- (old_builtin rest y Hy R). tauto.
  Qed.
End Step.

(** no resource is below a namespace "_builtin" *)
Lemma no_builtin_above root P u K t : tidy root -> getk root P = Some u -> is_multivector (t_kind u) = true -> P = (K ++ B :: t)%list -> open_at root K -> False.
Proof.
  intros T Hu Ku E O. rewrite E in Hu. destruct (td_bi _ T K t u O Hu) as [(_ & Q)|(w & b & r & _ & Hb & Hr)]; [rewrite Q in Ku; discriminate|].
  destruct (builtin_nodes w b Hb r u Hr) as (_ & Q). congruence.
Qed.

Lemma insert_ref_tidy root P l c root' u : tidy root -> find_keys root P = Some l -> getk root P = Some u -> is_multivector (t_kind u) = true ->
  is_ref c = true -> t_children c = [] -> P <> [] -> insert_at root l c = Ok root' ->
  tidy root' /\ (forall ks y, getk root ks = Some y -> exists x, getk root' ks = Some x /\ t_kind x = t_kind y).
Proof.
  intros T F Hu Ku Rc Lc P0 H. destruct (insert_getk P root l c root' F H) as (_ & _ & N0 & Gin & G).
  assert (Gc : forall r v, getk c r = Some v -> t_kind v <> KNamespace).
  { intros [|k r] v Hv; cbn in Hv; [injection Hv as <-; intros Q; unfold is_ref in Rc; now rewrite Q in Rc|]. rewrite Lc in Hv. discriminate. }
  assert (C : forall ks, (exists r, ks = (P ++ t_name c :: r)%list /\ getk root' ks = getk c r /\ getk root ks = None) \/ strip (P ++ [t_name c]) ks = None).
  { intros ks. destruct (strip (P ++ [t_name c]) ks) as [r|] eqn:S; [|now right]. left. apply strip_spec in S. exists r.
    assert (E : ks = (P ++ t_name c :: r)%list) by (rewrite S, <- app_assoc; reflexivity). split; [exact E|]. split; [rewrite E; apply Gin|]. rewrite S, getk_app, N0. reflexivity. }
  assert (Old : forall ks y, getk root ks = Some y -> exists x, getk root' ks = Some x /\ t_kind x = t_kind y).
  { intros ks y Hy. destruct (C ks) as [(r & _ & _ & Hn)|S]; [congruence|]. specialize (G ks S). rewrite Hy in G. destruct (getk root' ks) as [x|]; [|contradiction]. exists x. tauto. }
  assert (Back : forall K, (exists v, getk root K = Some v) -> open_at root' K -> open_at root K).
  { intros K (v & Hv) [->|(x & Hx & Kx)]; [now left|]. right. exists v. split; [exact Hv|]. destruct (Old K v Hv) as (x' & Hx' & E). congruence. }
  assert (NP : open_at root' P -> False).
  { intros O. destruct (Back P (ex_intro _ u Hu) O) as [Q|(z & Hz & Kz)]; [exact (P0 Q)|]. rewrite Hu in Hz. injection Hz as <-. rewrite Kz in Ku. discriminate. }
  split; [|exact Old]. apply (tidy_step root root' P T).
  - intros ks. destruct (C ks) as [(r & _ & -> & ->)|S]; [now destruct (getk c r)|]. specialize (G ks S). destruct (getk root' ks), (getk root ks); tauto.
  - intros a q v Hv Hn Kv. destruct (C (a ++ q)%list) as [(r & _ & E & _)|S]; [rewrite E in Hv; destruct (Gc r v Hv Kv)|]. specialize (G _ S). rewrite Hv, Hn in G. contradiction.
  - intros K rest v HK Hv D. exfalso. destruct (C (K ++ B :: rest)%list) as [(r & E & Eg & _)|S].
    + destruct (app_eq_app _ _ _ _ E) as (q & [(E1 & E2)|(E1 & E2)]).
      * destruct q as [|x q]; [rewrite app_nil_r in E1; subst K; exact (NP HK)|].
        injection E2 as <- E2. subst K. destruct HK as [Q|(z & Hz & Kz)]; [now destruct P|]. rewrite Gin in Hz. exact (Gc _ _ Hz Kz).
      * destruct q as [|x q]; [rewrite app_nil_r in E1; subst K; exact (NP HK)|injection E2 as <- E2].
        apply (no_builtin_above root P u K q T Hu Ku E1). apply Back; [|exact HK]. rewrite E1 in Hu. exact (getk_prefix _ _ _ _ Hu).
    + specialize (G _ S). rewrite Hv in G. destruct (getk root (K ++ B :: rest)%list) as [y|] eqn:Hy; [|contradiction]. destruct D as [D|D]; [discriminate|].
      destruct (strip (K ++ B :: rest) P) as [m|] eqn:Es; [|congruence]. apply strip_spec in Es. rewrite <- app_assoc in Es. cbn in Es.
      apply (no_builtin_above root P u K (rest ++ m)%list T Hu Ku Es). apply Back; [exact (getk_prefix _ _ _ _ Hy)|exact HK].
Qed.

(** ** The tree of the declarations *)
(** the schema does not use the name "_builtin" for namespaces or definitions *)

Lemma definition_kinds so p d : any_order so -> In (Ok d) (creations so p) -> forall r u, getk d r = Some u -> t_kind u <> KNamespace /\ t_kind u <> KRoot.
Proof.
  intros Hso H. assert (E : every (fun _ k => k <> KNamespace /\ k <> KRoot) d).
  { apply (creations_every _ (fun _ => True)) with (so := so) (p := p); auto; try (intros; split; discriminate). apply namespace_any. }
  intros r u Hu. rewrite <- node_at_getk in Hu. unfold node_at in Hu. destruct (find_keys d r) as [l|]; [|discriminate]. exact (E l u Hu).
Qed.
Lemma Forall2_right {A C} (R : A -> C -> Prop) l m y : Forall2 R l m -> In y m -> exists x, In x l /\ R x y.
Proof. induction 1 as [|a c l m H F IH]; [intros []|]. intros [<-|Hin]; [exists a; split; [now left|exact H]|]. destruct (IH Hin) as (x & Hx & Hr). exists x. split; [now right|exact Hr]. Qed.
Lemma made_decl so s D K d : made so s D -> decl D K d -> exists p, In p s /\ K = ns_keys p /\ In (Ok d) (creations so p) /\ In (t_name d) (def_names p).
Proof.
  intros M (ds & Hin & Hd). destruct (Forall2_right _ _ _ _ M Hin) as (p & Hp & E1 & _ & E3). cbn in E1, E3. exists p. split; [exact Hp|]. split; [exact E1|]. split.
  - rewrite E3. now apply in_map.
  - rewrite <- (creations_names so p ds); [now apply in_map|now apply all_ok_map].
Qed.
Lemma build_tidy so s t : any_order so -> separated s -> no_builtin s -> build_node_tree so s = Ok t -> tidy t.
Proof.
  intros Hso S NB H. destruct (build_iff so s S t H) as (D & M & ND & I). destruct I as (I1 & I2 & I3 & I4).
  assert (Nd : forall K d r u, decl D K d -> getk t (K ++ t_name d :: r)%list = Some u -> t_kind u <> KNamespace).
  { intros K d r u Hd Hu. rewrite (I2 K d r Hd) in Hu. destruct (made_decl _ _ _ _ _ M Hd) as (p & _ & _ & Hin & _). exact (proj1 (definition_kinds so p d Hso Hin r u Hu)). }
  assert (Nn : forall ks, ns D ks -> ~ In B ks).
  { intros ks (K & ds & m & Hin & E) Q. destruct (made_in _ _ _ _ _ M Hin) as (p & Hp & Ek & _). apply (proj1 (NB p Hp)). rewrite <- Ek, E. apply in_or_app. now left. }
  constructor.
  - intros a b u Hu Ku. destruct (I4 _ _ Hu) as [E|[N|(K & d & r & Hd & E)]].
    + apply app_eq_nil in E as (-> & _). now left.
    + destruct a as [|x a]; [now left|]. right. apply I3; [discriminate|]. destruct N as (K & ds & m & Hin & E). exists K, ds, (b ++ m)%list. split; [exact Hin|]. now rewrite app_assoc.
    + rewrite E in Hu. destruct (Nd K d r u Hd Hu Ku).
  - intros K rest u HK Hu. exfalso. destruct (I4 _ _ Hu) as [E|[N|(K' & d & r & Hd & E)]].
    + now destruct K.
    + apply (Nn _ N). apply in_or_app. right. now left.
    + destruct (made_decl _ _ _ _ _ M Hd) as (p & Hp & -> & _ & Hn). destruct (app_eq_app _ _ _ _ E) as (q & [(E1 & E2)|(E1 & E2)]).
      * destruct q as [|x q]; [injection E2 as E2 _; apply (proj2 (NB p Hp)); now rewrite E2 in Hn|]. injection E2 as <- E2.
        destruct HK as [Q|(v & Hv & Kv)]; [rewrite Q in E1; symmetry in E1; apply app_eq_nil in E1 as (_ & E1); discriminate|]. rewrite E1 in Hv. exact (Nd _ _ _ _ Hd Hv Kv).
      * destruct q as [|x q]; [injection E2 as E2 _; apply (proj2 (NB p Hp)); now rewrite <- E2 in Hn|]. injection E2 as <- E2.
        apply (proj1 (NB p Hp)). rewrite E1. apply in_or_app. right. now left.
Qed.

(** ** Index structures *)
Lemma app_assoc_str a b c : ((a ++ b) ++ c)%string = (a ++ (b ++ c))%string.
Proof. induction a as [|x a IH]; cbn; [reflexivity|now rewrite IH]. Qed.
Lemma join_snoc sep l x : l <> [] -> join sep (l ++ [x]) = join sep l ++ sep ++ x.
Proof.
  induction l as [|a l IH]; [congruence|]. intros _. destruct l as [|b l]; [reflexivity|]. change ((a :: b :: l) ++ [x])%list with (a :: (b :: l) ++ [x])%list.
  change (join sep (a :: (b :: l) ++ [x])) with (a ++ sep ++ join sep ((b :: l) ++ [x]))%string. rewrite IH by discriminate. change (join sep (a :: b :: l)) with (a ++ sep ++ join sep (b :: l)).
  now rewrite !app_assoc_str.
Qed.
(** the path of the index structure for [multivector<w, ...>] in the namespace [K] *)
Definition index_path (K : list string) (w : Z) : string := join "." ("" :: K ++ [B; MV; index_type_name w])%list.
Definition index_ref (root : tree) (l : loc) (w : Z) : Prop :=
  exists i v K, at_loc root (l ++ [i])%list = Some v /\ t_kind v = KRef RBuiltin /\ t_name v = referencify (index_path K w) /\ open_at root K.

Lemma resource_parents root l u : rooted root -> shaped root -> at_loc root l = Some u -> is_multivector (t_kind u) = true ->
  exists p i j v a, l = (p ++ [i; j])%list /\ at_loc root p = Some v /\ t_kind v = KNamespace /\ at_loc root (p ++ [i])%list = Some a /\ t_kind a = KArchive.
Proof.
  intros (_ & _ & K0) S Hu Ku. destruct l as [|j l] using rev_ind; [cbn in Hu; injection Hu as <-; rewrite K0 in Ku; discriminate|]. clear IHl.
  destruct (parent_at _ _ _ _ Hu) as (a & Ha & Hj). destruct (S _ _ Ha) as (Fa & _). rewrite Forall_map, Forall_forall in Fa. pose proof (Fa u (nth_error_In _ _ Hj)) as Ea.
  assert (Ka : t_kind a = KArchive). { unfold is_multivector in Ku. destruct (t_kind u); try discriminate. destruct (t_kind a); cbn in Ea; try contradiction; [reflexivity|]. destruct rk0; contradiction. }
  destruct l as [|i p] using rev_ind; [cbn in Ha; injection Ha as <-; congruence|]. clear IHp. destruct (parent_at _ _ _ _ Ha) as (v & Hv & Hi).
  destruct (S _ _ Hv) as (Fv & _). rewrite Forall_map, Forall_forall in Fv. pose proof (Fv a (nth_error_In _ _ Hi)) as Ev. rewrite Ka in Ev.
  exists p, i, j, v, a. split; [now rewrite <- app_assoc|]. split; [exact Hv|]. split; [|auto]. destruct (t_kind v); cbn in Ev; try contradiction; [reflexivity|]. destruct rk; contradiction.
Qed.
Lemma append_builtin_tidy root l root' : append_builtin root l = Ok root' -> rooted root -> shaped root -> tidy root ->
  tidy root' /\ (forall K, open_at root K -> open_at root' K) /\ (exists u w o m, at_loc root l = Some u /\ t_kind u = KResource (KMultivector w) o m /\ index_ref root' l w).
Proof.
  intros H G S T. pose proof H as H0. unfold append_builtin in H. destruct (at_loc root l) as [u|] eqn:Hl; [|discriminate].
  assert (Ku : is_multivector (t_kind u) = true) by (destruct u as [n [] cs]; try discriminate; destruct rk; try discriminate; reflexivity).
  destruct (resource_parents root l u G S Hl Ku) as (p & i & j & v & a & -> & Hv & Kv & Ha & Ka).
  assert (Pp : parent_loc (parent_loc (p ++ [i; j])%list) = p).
  { unfold parent_loc. replace (p ++ [i; j])%list with ((p ++ [i]) ++ [j])%list by (rewrite <- app_assoc; reflexivity). now rewrite !removelast_last. }
  rewrite Pp in H. clear Pp. destruct u as [n k cs]. cbn [t_kind] in Ku. destruct k as [| | | | | | | |rk o m| |]; try discriminate. destruct rk as [| |w| | |]; try discriminate.
  pose proof (good_wf _ (proj1 G)) as W. destruct (names_at root p) as [nsl|] eqn:Np; [|discriminate]. destruct (names_find root p W nsl Np) as (keys & -> & Fk).
  assert (Gk : getk root keys = Some v) by (rewrite <- node_at_getk; unfold node_at; rewrite Fk; exact Hv).
  (* the path of the resource *)
  set (P := (keys ++ [t_name a; n])%list).
  assert (Na : nth_error (t_children v) i = Some a). { rewrite at_loc_app, Hv in Ha. cbn in Ha. destruct (nth_error (t_children v) i); congruence. }
  assert (Nu : nth_error (t_children a) j = Some (Node n (KResource (KMultivector w) o m) cs)).
  { replace (p ++ [i; j])%list with ((p ++ [i]) ++ [j])%list in Hl by (rewrite <- app_assoc; reflexivity). rewrite at_loc_app, Ha in Hl. cbn in Hl. destruct (nth_error (t_children a) j); congruence. }
  assert (NP : names_at root (p ++ [i; j])%list = Some (t_name root :: P)).
  { rewrite (names_at_app p root [i; j] v Hv (t_name root :: keys) [t_name v; t_name a; n] Np); [reflexivity|]. cbn. rewrite Na. cbn. rewrite Nu. reflexivity. }
  destruct (names_find root _ W _ NP) as (P' & E & FP). injection E as <-.
  assert (GP : getk root P = Some (Node n (KResource (KMultivector w) o m) cs)) by (rewrite <- node_at_getk; unfold node_at; rewrite FP; exact Hl).
  assert (Hk : forall x y, keys = (x ++ y)%list -> open_at root x) by (intros x y E; apply (td_ns _ T x y v); [now rewrite <- E|exact Kv]).
  assert (Nk : ~ In B keys).
  { intros Q. apply in_split in Q as (x & y & E). apply (no_builtin_above root P _ x (y ++ [t_name a; n])%list T GP eq_refl); [unfold P; rewrite E, <- app_assoc; reflexivity|]. exact (Hk x _ E). }
  apply bind_ok in H as ([root1 ns1] & H1 & H). destruct (ensure_tidy root keys T Hk Nk root1 ns1 H1) as (T1 & Op1 & Old1 & F1).
  assert (Hk1 : forall x y, keys = (x ++ y)%list -> open_at root1 x) by (intros x y E; apply (Op1 x (y ++ [B; MV])%list); now rewrite app_assoc, <- E).
  assert (R0 : is_ref (Node n (KResource (KMultivector w) o m) cs) = false) by reflexivity. assert (Rv : is_ref v = false) by (unfold is_ref; now rewrite Kv).
  pose proof (names_clean _ _ _ _ (proj1 G) Hv Rv Np) as C. inversion C as [|? ? _ Ck]; subst.
  assert (Ck' : Forall clean (keys ++ [B; MV])%list) by (apply Forall_app; split; [exact Ck|repeat constructor]).
  destruct (ensure_namespace_good _ _ _ _ H1 G Ck') as (G1 & _ & t1 & Ht1 & Rt1).
  apply bind_ok in H as (b & Hb & H). destruct (builtin_good _ _ Hb) as (Gb & Nb & _). apply bind_ok in H as (root2 & H2 & H). rewrite Ht1 in H2.
  assert (N1 : names_at root1 (p ++ [i; j])%list = Some (t_name root :: P)).
  { destruct (ensure_namespace_ok _ _ _ _ H1) as [(-> & _)|(_ & first & _ & Hi & _)]; [exact NP|exact (insert_at_names _ _ _ _ _ _ Hi NP)]. }
  assert (Tn : t_name root = "") by apply G.
  assert (S2 : rooted root2 /\ tidy root2 /\ (forall ks y, getk root1 ks = Some y -> exists x, getk root2 ks = Some x /\ t_kind x = t_kind y)
    /\ names_at root2 (p ++ [i; j])%list = Some (t_name root :: P) /\ names_at root2 ns1 = Some ("" :: keys ++ [B; MV])%list).
  { assert (Nn : names_at root1 ns1 = Some ("" :: keys ++ [B; MV])%list). { destruct (find_keys_loc _ _ _ F1) as (Nn & _). now rewrite (proj1 (proj2 G1)) in Nn. }
    destruct (find_relative t1 (t_name b)) eqn:Fr.
    - injection H2 as <-. split; [exact G1|]. split; [exact T1|]. split; [eauto|]. auto.
    - split; [exact (rooted_insert_at _ _ _ _ _ G1 Ht1 Rt1 Gb Nb H2)|]. destruct (insert_builtin_tidy root1 keys T1 Hk1 Nk ns1 w b root2 Op1 F1 Hb H2) as (T2 & Old2).
      split; [exact T2|]. split; [exact Old2|]. split; apply (insert_at_names _ _ _ _ _ _ H2); assumption. }
  destruct S2 as (G2 & T2 & Old2 & N2 & Nn2). unfold path_at in H. rewrite Nn2 in H. cbn [option_map] in H. apply bind_ok in H as (r & Hr & H).
  destruct (names_find root2 _ (good_wf _ (proj1 G2)) _ N2) as (P2 & E2 & FP2). rewrite (proj1 (proj2 G2)), Tn in E2. injection E2 as <-.
  destruct (Old1 P _ GP) as (x1 & Hx1 & Kx1). destruct (Old2 P x1 Hx1) as (x2 & Hx2 & Kx2).
  destruct (proj1 (make_node_ok _ _ _) Hr) as (_ & Er).
  destruct (insert_ref_tidy root2 P _ r root' x2 T2 FP2 Hx2 ltac:(rewrite Kx2, Kx1; reflexivity) ltac:(now rewrite Er) ltac:(now rewrite Er) ltac:(unfold P; now destruct keys) H) as (T' & Old').
  assert (Op : forall K, open_at root K -> open_at root' K).
  { intros K [->|(y & Hy & Ky)]; [now left|]. right. destruct (Old1 _ _ Hy) as (y1 & Hy1 & K1). destruct (Old2 _ _ Hy1) as (y2 & Hy2 & K2). destruct (Old' _ _ Hy2) as (y3 & Hy3 & K3). exists y3. split; [exact Hy3|congruence]. }
  split; [exact T'|]. split; [exact Op|]. eexists _, w, o, m. split; [reflexivity|]. split; [reflexivity|].
  apply insert_at_inv in H as (t2 & Ht2 & _ & ->). exists (List.length (t_children t2)), r, keys. split; [|split; [now rewrite Er|split; [|apply Op; exact (Hk keys [] (eq_sym (app_nil_r _)))]]].
  - rewrite (modify_below _ _ root2 t2 _ Ht2). cbn. rewrite nth_error_app2 by lia. now rewrite PeanoNat.Nat.sub_diag.
  - rewrite Er. cbn [t_name]. f_equal. unfold index_path. rewrite (builtin_name _ _ Hb).
    replace ("" :: keys ++ [B; MV; index_type_name w])%list with (("" :: keys ++ [B; MV]) ++ [index_type_name w])%list by (cbn; rewrite <- app_assoc; reflexivity).
    now rewrite join_snoc by discriminate.
Qed.

Lemma index_ref_keep root root' l w : (forall K, open_at root K -> open_at root' K) ->
  (forall l u, at_loc root l = Some u -> exists u', at_loc root' l = Some u' /\ t_name u' = t_name u /\ t_kind u' = t_kind u) -> index_ref root l w -> index_ref root' l w.
Proof.
  intros Op O (i & v & K & Hv & Kv & Nv & HK). destruct (O _ _ Hv) as (v' & Hv' & N' & K'). exists i, v', K. split; [exact Hv'|]. split; [congruence|]. split; [congruence|auto].
Qed.
Lemma builtins_tidy_fold ls : forall root root', foldM append_builtin root ls = Ok root' -> rooted root -> shaped root -> tidy root ->
  tidy root' /\ (forall K, open_at root K -> open_at root' K)
  /\ (forall l, In l ls -> exists u w o m, at_loc root l = Some u /\ t_kind u = KResource (KMultivector w) o m /\ index_ref root' l w).
Proof.
  induction ls as [|x ls IH]; intros root root' H G S T; cbn in H.
  - injection H as <-. split; [exact T|]. split; [auto|intros l []].
  - apply bind_ok in H as (r1 & H1 & H). destruct (append_builtin_good _ _ _ H1 G) as (G1 & O1). destruct (append_builtin_shaped _ _ _ H1 G S) as (S1 & _ & M1).
    destruct (append_builtin_tidy _ _ _ H1 G S T) as (T1 & Op1 & (u & w & o & m & Hu & Ku & I1)). destruct (IH r1 root' H G1 S1 T1) as (T' & Op' & I').
    split; [exact T'|]. split; [auto|]. intros l [<-|Hl].
    + exists u, w, o, m. split; [exact Hu|]. split; [exact Ku|]. apply (index_ref_keep r1 root' x w Op'); [|exact I1].
      clear - H G1. assert (Q : rooted root' /\ forall l u, at_loc r1 l = Some u -> exists u', at_loc root' l = Some u' /\ t_name u' = t_name u /\ t_kind u' = t_kind u); [|apply Q].
      refine (foldM_inv (fun x => rooted x /\ forall l u, at_loc r1 l = Some u -> exists u', at_loc x l = Some u' /\ t_name u' = t_name u /\ t_kind u' = t_kind u) _ _ _ _ H _ _).
      * split; [exact G1|]. eauto.
      * intros y _ z z' (Gz & Oz) Hz. destruct (append_builtin_good _ _ _ Hz Gz) as (Gz' & Oz'). split; [exact Gz'|]. intros l u Hu. destruct (Oz _ _ Hu) as (u1 & Hu1 & A & C). destruct (Oz' _ _ Hu1) as (u2 & Hu2 & A' & C'). exists u2. split; [exact Hu2|]. split; congruence.
    + destruct (I' l Hl) as (u' & w' & o' & m' & Hu' & Ku' & I2). destruct (M1 l u' Hu' ltac:(now rewrite Ku')) as (v & Hv & Kv). exists v, w', o', m'. split; [exact Hv|]. split; [congruence|exact I2].
Qed.
Theorem declared_tidy so s r1 r2 : any_order so -> schema_clean s -> separated s -> no_builtin s -> build_node_tree so s = Ok r1 -> append_builtins r1 = Ok r2 ->
  tidy r2 /\ forall l u w o m, at_loc r2 l = Some u -> t_kind u = KResource (KMultivector w) o m -> index_ref r2 l w.
Proof.
  intros Hso C Sp NB H1 H2. pose proof (build_node_tree_good so s r1 Hso C H1) as G1. pose proof (build_node_tree_shaped false so s r1 Hso C H1) as S1.
  pose proof (build_tidy so s r1 Hso Sp NB H1) as T1. unfold append_builtins in H2.
  destruct (builtins_tidy_fold _ _ _ H2 G1 (shaped_any _ _ S1) T1) as (T2 & _ & I2). split; [exact T2|]. intros l u w o m Hu Ku.
  destruct (builtins_fold _ _ _ H2 (iterate_nodup _ _) G1 (shaped_any _ _ S1)) as (_ & _ & _ & M & _). destruct (M l u Hu ltac:(now rewrite Ku)) as (v & Hv & Kv).
  destruct (I2 l) as (u' & w' & o' & m' & Hu' & Ku' & Q); [apply iterate_spec; exists v; split; [exact Hv|now rewrite Kv, Ku]|]. rewrite Hv in Hu'. injection Hu' as <-. rewrite Kv, Ku in Ku'. injection Ku' as -> _ _. exact Q.
Qed.
