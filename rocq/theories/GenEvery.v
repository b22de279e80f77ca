(** Properties that hold at every node of a tree, through the creation of nodes. *)
From Coq Require Import List ZArith Bool String Ascii Lia Permutation.
From Verif Require Import PyBase PyText GenTypes GenTypesFacts GenTree GenTreeFacts GenTraversal
  GenBuild GenBuildFacts GenPassFacts GenAstFacts GenAstSpec GenLayoutFacts GenMergeFacts.
Import ListNotations.
Local Open Scope string_scope.
Local Open Scope Z_scope.

Section Every.
  Variable Q : string -> kind -> Prop.
  Definition every (t : tree) : Prop := forall l u, at_loc t l = Some u -> Q (t_name u) (t_kind u).
  Lemma every_here t : every t -> Q (t_name t) (t_kind t). Proof. intros H. exact (H [] t eq_refl). Qed.
  Lemma every_at t l u : every t -> at_loc t l = Some u -> every u.
  Proof. intros H Hl m v Hm. apply (H (l ++ m)%list v). now rewrite at_loc_app, Hl. Qed.
  Lemma every_intro n k cs : Q n k -> (forall c, In c cs -> every c) -> every (Node n k cs).
  Proof.
    intros Hk Hc l u Hl. destruct l as [|i l]; cbn in Hl; [injection Hl as <-; exact Hk|].
    destruct (nth_error cs i) as [c|] eqn:E; [|discriminate]. exact (Hc c (nth_error_In _ _ E) l u Hl).
  Qed.
  Lemma every_child t c : every t -> In c (t_children t) -> every c.
  Proof. intros H Hin. apply In_nth_error in Hin as (i & Hi). apply (every_at t [i] c H). cbn. now rewrite Hi. Qed.
  Lemma every_modify f l : forall t u, every t -> at_loc t l = Some u -> every (f u) -> every (modify t l f).
  Proof.
    induction l as [|i l IH]; intros t u Ht Hl Hf; cbn in *; [injection Hl as ->; exact Hf|].
    destruct t as [n k cs]. cbn in Hl. destruct (nth_error cs i) as [c|] eqn:Hc; [|discriminate].
    apply every_intro; [exact (every_here _ Ht)|]. intros x Hx. destruct (upd_in _ _ _ _ _ Hc Hx) as [->|Hin]; [|exact (every_child (Node n k cs) x Ht Hin)].
    apply (IH c u); [exact (every_child (Node n k cs) c Ht (nth_error_In _ _ Hc))|exact Hl|exact Hf].
  Qed.
  Lemma every_insert t c t' : insert t c = Ok t' -> every t -> every c -> every t'.
  Proof.
    intros H Ht Hc. apply insert_ok in H as (_ & ->). apply every_intro; [exact (every_here _ Ht)|].
    intros x Hx. apply in_app_or in Hx as [Hx|[<-|[]]]; [exact (every_child _ _ Ht Hx)|exact Hc].
  Qed.
  Lemma every_insert_at root l c root' : insert_at root l c = Ok root' -> every root -> every c -> every root'.
  Proof.
    intros H G Hc. apply insert_at_inv in H as (t & Ht & _ & ->). apply (every_modify _ l root t G Ht).
    apply every_intro; [exact (every_here _ (every_at _ _ _ G Ht))|]. intros x Hx.
    apply in_app_or in Hx as [Hx|[<-|[]]]; [exact (every_child _ _ (every_at _ _ _ G Ht) Hx)|exact Hc].
  Qed.
  Lemma every_leaf n k : Q n k -> every (Node n k []). Proof. intros H. apply every_intro; [exact H|intros c []]. Qed.
  Lemma every_insert_all t cs t' : insert_all t cs = Ok t' -> every t -> (forall rc c, In rc cs -> rc = Ok c -> every c) -> every t'.
  Proof.
    unfold insert_all. intros H G Hc. refine (foldM_inv every _ _ _ _ H G _).
    intros rc Hrc a a' Ga Ha. apply bind_ok in Ha as (c & -> & Ha). exact (every_insert _ _ _ Ha Ga (Hc _ c Hrc eq_refl)).
  Qed.

  (** ** Created nodes.  [W] holds for the strings of the schema. *)
  Variable W : string -> Prop.
  Hypothesis Q_ref : forall r n, W n -> Q (referencify n) (KRef r).
  Lemma ref_every r n t : make_ref r n = Ok t -> W n -> every t.
  Proof. intros H Hn. apply make_node_ok in H as (_ & ->). apply every_leaf. now apply Q_ref. Qed.

  Hypothesis Q_const : forall n ty v, W n -> W ty -> Q n (KConstant ty v).
  Definition const_in (p : pconst) : Prop := W (pc_name p) /\ W (pc_type p).
  Lemma constant_every p t : create_constant p = Ok t -> const_in p -> every t.
  Proof.
    unfold create_constant. intros H (W1 & W2). apply bind_ok in H as (n & Hn & H). apply make_node_ok in Hn as [_ ->].
    apply bind_ok in H as (v & _ & H). injection H as <-. apply every_leaf. now apply Q_const.
  Qed.

  (** the type of a field that is not an enumeration *)
  Definition basic (t : ftype) : Prop := exists w b, make_btype (ft_name t) w = Ok b /\ t = FT (bt_name b) (bt_width b) (bt_signed b).
  Hypothesis Q_field : forall n rng ty, W n -> (forall r, rng = Some r -> W r) -> (forall t, ty = Some t -> W (ft_name t) /\ basic t) -> Q n (KField rng ty None).
  Definition fdec_in (d : fdec) : Prop := match d with FRange n | FConst n | FOptional n => W n end.
  Definition field_in (p : pfield) : Prop := W (pf_name p) /\ Forall fdec_in (pf_decs p) /\ W (pf_type p).
  Lemma range_in ds r : Forall fdec_in ds -> first_range ds = Some r -> W r.
  Proof. induction 1 as [|d ds Hd F IH]; cbn; [discriminate|]. destruct d; auto. intros [= ->]. exact Hd. Qed.
  Lemma field_every p t : create_field p = Ok t -> field_in p -> every t.
  Proof.
    unfold create_field. intros H (W1 & W2 & W3). apply bind_ok in H as (n & Hn & H). apply make_node_ok in Hn as [_ ->].
    apply bind_ok in H as (t1 & H1 & H). assert (Qf : forall ty, (forall t, ty = Some t -> W (ft_name t) /\ basic t) -> Q (pf_name p) (KField (first_range (pf_decs p)) ty None)).
    { intros ty Hty. apply Q_field; auto. intros r. now apply range_in. }
    assert (I : every t1 /\ t_name t1 = pf_name p).
    { refine (foldM_inv (fun x => every x /\ t_name x = pf_name p) _ _ _ _ H1 _ _).
      - split; [|reflexivity]. apply every_leaf. apply Qf. discriminate.
      - intros d Hd a a' (Ia & Na) Ha. assert (Wd : fdec_in d) by (rewrite Forall_forall in W2; auto).
        destruct d as [m|m|m]; [injection Ha as <-; auto| |]; apply bind_ok in Ha as (c & Hc & Ha); destruct (insert_keeps _ _ _ Ha) as [E1 _];
          (split; [|congruence]); apply (every_insert a c); auto; now apply (ref_every _ _ _ Hc). }
    destruct I as (I1 & N1). destruct (is_basic_type (pf_type p)).
    - apply bind_ok in H as (b & Hb & H). injection H as <-. rewrite N1. apply every_intro; [|intros c Hc; exact (every_child _ _ I1 Hc)].
      apply Qf. intros t [= <-]. assert (E := Hb). apply make_btype_ok in E as (sw & _ & -> & _). split; [exact W3|]. exists (option_map Z.of_N (pf_width p)). eexists. split; [exact Hb|reflexivity].
    - apply bind_ok in H as (c & Hc & H). apply (every_insert t1 c); auto. now apply (ref_every _ _ _ Hc).
  Qed.

  Hypothesis Q_struct : forall n, W n -> Q n (KStructure None).
  Definition struct_in (p : pstruct) : Prop := W (ps_name p) /\ Forall field_in (ps_fields p).
  Lemma structure_every p t : create_structure p = Ok t -> struct_in p -> every t.
  Proof.
    unfold create_structure. intros H (W1 & W2). apply bind_ok in H as (n & Hn & H). apply make_node_ok in Hn as [_ ->].
    apply (every_insert_all _ _ _ H); [apply every_leaf; auto|]. intros rc c Hin ->. apply in_map_iff in Hin as (f & Hf & Hin).
    rewrite Forall_forall in W2. exact (field_every f c Hf (W2 f Hin)).
  Qed.

  Hypothesis Q_enum : forall n b, W n -> W (bt_name b) -> Q n (KEnum b).
  Hypothesis Q_value : forall n v, W n -> Q n (KEnumValue v false).
  Hypothesis Q_auto : forall v, Q (unknown_name v) (KEnumValue v true).
  Definition enum_in (p : penum) : Prop := W (pe_name p) /\ W (pe_type p) /\ Forall (fun v => W (fst v)) (pe_values p).
  Lemma enumeration_every so p t : any_order so -> create_enumeration so p = Ok t -> enum_in p -> every t.
  Proof.
    intros Hso H (W1 & W2 & W3). destruct (create_enumeration_ok so p t Hso H) as (b & vs & He & -> & Fv & Hn).
    destruct (create_enum_ok so _ _ _ _ _ _ Hso He) as (Hb & _ & ex & vals & gen & _ & _ & _ & _ & Ec & _).
    apply every_intro.
    - apply Q_enum; [exact W1|]. apply make_btype_ok in Hb as (sw & _ & -> & _). exact W2.
    - intros c Hc. apply in_map_iff in Hc as (v & <- & Hv). apply every_leaf. rewrite Ec in Hv. apply in_app_or in Hv as [Hv|Hv].
      + apply in_map_iff in Hv as ([n x] & <- & Hv). cbn. apply Q_value. rewrite Forall_forall in W3. apply in_combine_l in Hv. apply in_map_iff in Hv as (y & <- & Hy). auto.
      + apply in_map_iff in Hv as (x & <- & _). apply Q_auto.
  Qed.

  Hypothesis Q_explicit : forall a b c, W a -> W b -> W c ->
    Q ("er_" ++ underscored (a ++ "." ++ b) ++ "_" ++ underscored c) KExplicit.
  Hypothesis W_dot : forall a b, W a -> W b -> W (a ++ "." ++ b).
  Hypothesis Q_resource : forall n rk o, W n -> Q n (KResource rk o None).
  Definition rdec_in (d : rdec) : Prop := match d with RExplicit a b c => W a /\ W b /\ W c | ROptional => True end.
  Definition rtype_in (t : rtype) : Prop :=
    match t with TRaw => True | TVector n | TArchive n | TObject n => W n | TMulti _ ns => Forall W ns end.
  Definition resource_in (r : presource) : Prop := W (pr_name r) /\ Forall rdec_in (pr_decs r) /\ rtype_in (pr_type r).
  Lemma explicit_every a b c t : create_explicit a b c = Ok t -> W a -> W b -> W c -> every t.
  Proof.
    unfold create_explicit. intros H W1 W2 W3. apply bind_ok in H as (n & Hn & H). apply make_node_ok in Hn as [_ ->].
    apply (every_insert_all _ _ _ H); [apply every_leaf; now apply Q_explicit|]. intros rc x Hin ->.
    destruct Hin as [Hin|[Hin|[Hin|[]]]]; apply (ref_every _ _ _ Hin); auto.
  Qed.
  Lemma resource_every p t : create_resource p = Ok t -> resource_in p -> every t.
  Proof.
    unfold create_resource. intros H (W1 & W2 & W3). apply bind_ok in H as (n & Hn & H). apply make_node_ok in Hn as [_ ->].
    apply bind_ok in H as (t1 & H1 & H). apply (every_insert_all _ _ _ H).
    - refine (foldM_inv every _ _ _ _ H1 _ _); [apply every_leaf; now apply Q_resource|].
      intros d Hd x x' Ix Hx. rewrite Forall_forall in W2. specialize (W2 d Hd). destruct d as [a b c|]; [|injection Hx as <-; auto].
      apply bind_ok in Hx as (e & He & Hx). apply (every_insert x e); auto. destruct W2 as (A & B & C). exact (explicit_every _ _ _ _ He A B C).
    - intros rc c Hin ->. destruct (pr_type p); cbn in Hin, W3; try contradiction; try (destruct Hin as [Hin|[]]; exact (ref_every _ _ _ Hin W3)).
      apply in_map_iff in Hin as (m & Hm & Hin). rewrite Forall_forall in W3. exact (ref_every _ _ _ Hm (W3 m Hin)).
  Qed.
  Definition bound_in (b : string * list string) : Prop := W (fst b) /\ Forall W (snd b).
  Lemma bound_every b t : create_bound b = Ok t -> bound_in b -> every t.
  Proof.
    unfold create_bound. intros H (W1 & W2). apply bind_ok in H as (n & Hn & H). apply make_node_ok in Hn as [_ ->].
    apply (every_insert_all _ _ _ H); [apply every_leaf; now apply Q_resource|]. intros rc c Hin ->. apply in_map_iff in Hin as (m & Hm & Hin).
    rewrite Forall_forall in W2. exact (ref_every _ _ _ Hm (W2 m Hin)).
  Qed.
  Hypothesis Q_archive : forall n, W n -> Q n KArchive.
  Definition archive_in (a : parchive) : Prop := W (pa_name a) /\ Forall bound_in (pa_bound a) /\ Forall resource_in (pa_resources a).
  Lemma archive_every a t : create_archive a = Ok t -> archive_in a -> every t.
  Proof.
    unfold create_archive. intros H (W1 & W2 & W3). apply bind_ok in H as (n & Hn & H). apply make_node_ok in Hn as [_ ->].
    apply bind_ok in H as (t1 & H1 & H). rewrite Forall_forall in *. apply (every_insert_all _ _ _ H).
    - apply (every_insert_all _ _ _ H1); [apply every_leaf; auto|]. intros rc c Hin ->. apply in_map_iff in Hin as (m & Hm & Hin). exact (resource_every _ _ Hm (W3 m Hin)).
    - intros rc c Hin ->. apply in_map_iff in Hin as (m & Hm & Hin). exact (bound_every _ _ Hm (W2 m Hin)).
  Qed.
  Definition namespace_in (p : pnamespace) : Prop :=
    Forall const_in (pn_constants p) /\ Forall struct_in (pn_structures p) /\ Forall enum_in (pn_enumerations p) /\ Forall archive_in (pn_archives p).
  Theorem creations_every so p d : any_order so -> In (Ok d) (creations so p) -> namespace_in p -> every d.
  Proof.
    intros Hso H (W1 & W2 & W3 & W4). rewrite Forall_forall in *. unfold creations in H. repeat (apply in_app_or in H as [H|H]); apply in_map_iff in H as (x & Hx & Hin).
    - exact (constant_every _ _ Hx (W1 x Hin)).
    - exact (structure_every _ _ Hx (W2 x Hin)).
    - exact (enumeration_every so _ _ Hso Hx (W3 x Hin)).
    - exact (archive_every _ _ Hx (W4 x Hin)).
  Qed.

  (** ** The tree of declarations *)
  Hypothesis Q_namespace : forall n k, Q n k -> Q n KNamespace.
  Lemma every_nest keys : forall t, nest keys [] = Ok t -> (forall k, In k keys -> Q k KNamespace) -> every t.
  Proof.
    induction keys as [|k keys IH]; intros t H Hk; [discriminate|]. destruct keys as [|k' keys].
    - cbn in H. apply bind_ok in H as (x & Hx & H). injection H as <-. apply make_node_ok in Hx as (_ & ->). apply every_leaf. apply Hk. now left.
    - apply bind_ok in H as (x & Hx & H). apply bind_ok in H as (c & Hc & H). injection H as <-. apply make_node_ok in Hx as (_ & ->).
      apply every_intro; [apply Hk; now left|]. intros y [<-|[]]. apply (IH c Hc). intros y Hy. apply Hk. now right.
  Qed.
  Lemma find_last_incl keys : forall t k, In k (snd (find_last t keys)) -> In k keys.
  Proof.
    induction keys as [|a keys IH]; intros t k; cbn; [auto|]. destruct (child_pos (t_children t) a) as [i|]; [|auto].
    destruct (nth_error (t_children t) i) as [c|]; [|auto]. specialize (IH c k). destruct (find_last c keys). cbn in *. auto.
  Qed.
  Lemma ensure_every root keys root' l : ensure_namespace root keys = Ok (root', l) -> every root -> (forall k, In k keys -> Q k KNamespace) -> every root'.
  Proof.
    unfold ensure_namespace. intros H G Hk. destruct (find_keys root keys) as [l0|].
    - destruct (at_loc root l0) as [t|]; [|discriminate]. destruct (is_namespace t); [|discriminate]. now injection H as <- _.
    - assert (Hr := fun k => find_last_incl keys root k). destruct (find_last root keys) as [m rest]. apply bind_ok in H as (first & Hf & H). apply bind_ok in H as (r' & Hi & H).
      destruct (find_keys r' keys); [|discriminate]. injection H as <- _. apply (every_insert_at root m first); auto. apply (every_nest rest); auto. 
  Qed.
  Lemma build_every so s t : any_order so -> build_node_tree so s = Ok t -> Q "" KRoot ->
    (forall p, In p s -> namespace_in p /\ forall k, In k (ns_keys p) -> Q k KNamespace) -> every t.
  Proof.
    intros Hso H QR F. unfold build_node_tree in H. apply bind_ok in H as (D & HD & H). apply mapM_made in HD.
    refine (foldM_inv every _ _ _ _ H (every_leaf _ _ QR) _). intros [K ds] Hin a a' Ga Ha.
    assert (exists p, In p s /\ K = ns_keys p /\ creations so p = map Ok ds) as (p & Hp & EK & EC).
    { clear - HD Hin. induction HD as [|p x s D (E1 & _ & E2) M IH]; [destruct Hin|]. destruct Hin as [->|Hin]; [exists p; cbn in *; auto using in_eq|].
      destruct (IH Hin) as (q & Hq & R). exists q. split; [now right|exact R]. }
    destruct (F p Hp) as (Wp & Wk). unfold merge_one in Ha. apply bind_ok in Ha as ([r l] & He & Ha). cbn in He, Ha.
    refine (foldM_inv every _ _ _ _ Ha _ _); [apply (ensure_every _ _ _ _ He Ga); subst K; exact Wk|].
    intros d Hd x x' Gx Hx. apply (every_insert_at _ _ _ _ Hx Gx). apply (creations_every so p d Hso); auto. rewrite EC. now apply in_map.
  Qed.
  Hypothesis Q_builtin : Q "_builtin" KNamespace /\ Q "multivector" KNamespace.
  Hypothesis W_builtin : W "value" /\ W "range" /\ W "u64".
  Hypothesis W_index : forall w, W (index_type_name w).
  Hypothesis Q_path : forall root l p n, every root -> path_at root l = Some p -> Q n KNamespace -> Q (referencify (p ++ "." ++ n)) (KRef RBuiltin).
  Lemma append_builtins_every root root' : append_builtins root = Ok root' -> every root -> every root'.
  Proof.
    unfold append_builtins. intros H G. refine (foldM_inv every _ _ _ _ H G _). intros l _ a a' Ga Ha. unfold append_builtin in Ha.
    destruct (at_loc a l) as [[n k cs]|] eqn:Hl; [|discriminate]. destruct k; try discriminate. destruct rk; try discriminate.
    destruct (names_at a (parent_loc (parent_loc l))) as [[|n0 keys]|] eqn:Hn; try discriminate.
    apply bind_ok in Ha as ([r ns] & He & Ha). apply bind_ok in Ha as (b & Hb & Ha). apply bind_ok in Ha as (r1 & H1 & Ha).
    assert (Eb : every b).
    { apply (structure_every _ _ Hb). split; [apply W_index|]. repeat constructor; apply W_builtin. }
    assert (Er : every r).
    { apply (ensure_every _ _ _ _ He Ga). intros x Hx. apply in_app_or in Hx as [Hx|[<-|[<-|[]]]]; try apply Q_builtin.
      assert (exists m u, at_loc a m = Some u /\ t_name u = x) as (m & u & Hu & <-); [|exact (Q_namespace _ _ (Ga m u Hu))].
      clear - Hn Hx. revert a n0 keys Hn Hx. generalize (parent_loc (parent_loc l)) as q. induction q as [|i q IH]; intros a n0 keys Hn Hx; cbn in Hn; [injection Hn as _ <-; destruct Hx|].
      destruct (nth_error (t_children a) i) as [c|] eqn:Hc; [|discriminate]. destruct (names_at c q) as [ns|] eqn:Nq; [|discriminate]. injection Hn as _ ->.
      destruct keys as [|k0 keys]; [destruct Hx|]. assert (k0 = t_name c) by (destruct q; cbn in Nq; [congruence|]; destruct (nth_error (t_children c) n); [|discriminate]; destruct (names_at t q); [|discriminate]; now injection Nq).
      destruct Hx as [->|Hx]; [exists [i], c; cbn; rewrite Hc; auto|]. destruct (IH c k0 keys Nq Hx) as (m & u & Hu & E). exists (i :: m), u. cbn. rewrite Hc. auto. }
    assert (E1 : every r1).
    { destruct (at_loc r ns) as [x|]; [|discriminate]. destruct (find_relative x (t_name b)); [now injection H1 as <-|]. now apply (every_insert_at r ns b). }
    destruct (path_at r1 ns) as [p|] eqn:Hp; [|discriminate]. apply bind_ok in Ha as (c & Hc & Ha). apply (every_insert_at r1 l c); auto.
    apply make_node_ok in Hc as (_ & ->). apply every_leaf. apply (Q_path r1 ns); auto. exact (Q_namespace _ _ (every_here _ Eb)).
  Qed.
End Every.

(** The strings of a schema all satisfy [True] *)
Lemma namespace_any p : namespace_in (fun _ => True) p.
Proof.
  assert (F : forall (A : Type) (P : A -> Prop) l, (forall x, P x) -> Forall P l) by (intros A P l H; apply Forall_forall; auto).
  repeat split; apply F; intros x; repeat split; auto; apply F; intros y; repeat split; auto; try (apply F; intros z); try destruct y as [? ? []]; try destruct z; cbn; auto.
Qed.
