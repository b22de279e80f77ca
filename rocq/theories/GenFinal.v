(** What is known about the tree of an accepted schema: where its nodes come from, where namespaces and index structures are,
    and which types fields have. *)
From Coq Require Import List ZArith Bool String Ascii Lia Permutation.
From Verif Require Import PyBase PyText GenTypes GenTypesFacts GenTree GenTreeFacts GenTraversal
  GenBuild GenBuildFacts GenPassFacts GenAstFacts GenAstSpec GenLayoutFacts GenResolveFacts GenMergeFacts GenShapeFacts GenEvery GenTidy GenFieldFacts GenWords
  GenFlatdata GenOutFacts.
Import ListNotations.
Local Open Scope Z_scope.
Notation B := "_builtin"%string.
Notation MV := "multivector"%string.

(** Appending references to constants only adds references below archives *)
Lemma constants_new root root' : append_constants root = Ok root' -> forall l u, at_loc root' l = Some u ->
  (exists v, at_loc root l = Some v /\ t_name v = t_name u /\ t_kind v = t_kind u)
  \/ (exists p i a, l = p ++ [i] /\ at_loc root p = Some a /\ t_kind a = KArchive /\ t_kind u = KRef RConstValue).
Proof.
  intros H. set (Pr := fun x : tree => (forall l u, at_loc root l = Some u -> exists u', at_loc x l = Some u' /\ t_kind u' = t_kind u) /\
    forall l u, at_loc x l = Some u ->
    (exists v, at_loc root l = Some v /\ t_name v = t_name u /\ t_kind v = t_kind u)
    \/ (exists p i a, l = p ++ [i] /\ at_loc root p = Some a /\ t_kind a = KArchive /\ t_kind u = KRef RConstValue)).
  enough (X : Pr root') by exact (proj2 X).
  unfold append_constants in H. set (cs := filter _ _) in H. clearbody cs. refine (foldM_inv Pr _ _ _ _ H _ _); [split; [eauto|intros l u Hu; left; exists u; auto]|].
  intros a Ha x x' Px Hx. refine (foldM_inv Pr _ _ _ _ Hx Px _). intros p _ y y' (P1 & P2) Hy. apply bind_ok in Hy as (c & Hc & Hy). apply make_node_ok in Hc as (_ & ->).
  apply filter_In in Ha as (_ & Ka). destruct (at_loc root a) as [ra|] eqn:Ra; [|discriminate].
  assert (Kr : t_kind ra = KArchive) by (destruct (t_kind ra); try discriminate; reflexivity).
  pose proof (insert_at_inv _ _ _ _ Hy) as (t & Ht & _ & Ey).
  split.
  - intros l u Hu. destruct (P1 l u Hu) as (u1 & Hu1 & E1). destruct (insert_at_old y a _ y' l u1 Hy Hu1) as (u2 & Hu2 & _ & E2). exists u2. split; [exact Hu2|congruence].
  - intros l u Hu. destruct (insert_at_new _ _ _ _ _ _ Hy Hu) as [(u1 & Hu1 & N1 & K1)|(t' & m & Ht' & -> & Hm)].
    + destruct (P2 l u1 Hu1) as [(v & Hv & A & C)|(q & i & v & -> & Hv & A & C)]; [left; exists v; repeat split; congruence|].
      right. exists q, i, v. rewrite K1. auto.
    + destruct m as [|j m]; [|cbn in Hm; now destruct j]. injection Hm as <-. right. exists a, (List.length (t_children t')), ra. repeat split; auto.
Qed.

Lemma erase_namespace k : erase k = KNamespace -> k = KNamespace. Proof. now destruct k. Qed.
Lemma erase_ref k k' : erase k = erase k' -> is_ref_kind k = is_ref_kind k'. Proof. now destruct k, k'. Qed.

(** Names and positions *)
Lemma loc_keys t l u : wf t -> at_loc t l = Some u -> exists ks, names_at t l = Some (t_name t :: ks) /\ find_keys t ks = Some l /\ getk t ks = Some u.
Proof.
  intros W H. destruct (proj1 (names_at_some t l) (ex_intro _ u H)) as (ns & Hn). destruct (names_find t l W ns Hn) as (ks & -> & F).
  exists ks. split; [exact Hn|]. split; [exact F|]. rewrite <- node_at_getk. unfold node_at. now rewrite F.
Qed.
Lemma names_snoc t l i u c ks : at_loc t l = Some u -> nth_error (t_children u) i = Some c -> names_at t l = Some ks -> names_at t (l ++ [i]) = Some (ks ++ [t_name c]).
Proof.
  intros H Hc Hn. rewrite (names_at_app l t [i] u H ks [t_name u; t_name c] Hn); [reflexivity|]. cbn. now rewrite Hc.
Qed.

Lemma find_keys_split t a : forall b d, find_keys t (a ++ b) = Some d -> exists p q, d = p ++ q /\ find_keys t a = Some p /\ List.length q = List.length b.
Proof.
  revert t. induction a as [|k a IH]; intros t b d H; cbn in H.
  - exists [], d. split; [reflexivity|]. split; [reflexivity|]. revert t d H. induction b as [|k b IHb]; intros t d H; cbn in H; [now injection H as <-|].
    destruct (child_pos (t_children t) k); [|discriminate]. destruct (nth_error (t_children t) n) as [c|]; [|discriminate]. destruct (find_keys c b) as [q|] eqn:E; [|discriminate]. injection H as <-. cbn. f_equal. exact (IHb _ _ E).
  - destruct (child_pos (t_children t) k) as [i|] eqn:E1; [|discriminate]. destruct (nth_error (t_children t) i) as [c|] eqn:E2; [|discriminate]. destruct (find_keys c (a ++ b)) as [q|] eqn:E; [|discriminate]. injection H as <-.
    destruct (IH c b q E) as (p & q' & -> & F & L). exists (i :: p), q'. split; [reflexivity|]. split; [|exact L]. cbn. now rewrite E1, E2, F.
Qed.
Lemma namespaces_in t p : forall q u, at_loc t p = Some u -> is_namespace u = true -> q <> [] -> (exists v, at_loc u q = Some v) -> In (t_name u) (namespaces t (p ++ q)).
Proof.
  revert t. induction p as [|i p IH]; intros t q u Hu Ku Nq Hv.
  - cbn in Hu. injection Hu as ->. destruct q as [|j q]; [congruence|]. cbn. rewrite Ku. now left.
  - cbn in Hu. destruct (nth_error (t_children t) i) as [c|] eqn:Hc; [|discriminate]. cbn. rewrite Hc. apply in_or_app. right. exact (IH c q u Hu Ku Nq Hv).
Qed.

Section Final.
  Variables (so : list Z -> list Z) (s : pschema) (r1 r2 r3 r4 r5 r6 root : tree).
  Hypothesis (Hso : any_order so) (C : schema_clean s) (St : build_steps so s r1 r2 r3 r4 r5 r6 root).

  Lemma final_same : rooted r2 /\ rooted r3 /\ skel true r3 = skel true r2 /\ rooted r4 /\ extends r3 r4 /\ same_tree r4 root /\ rooted root /\ all_resolved root.
  Proof.
    destruct (steps_good _ _ _ _ _ _ _ _ _ Hso C St) as (G1 & G2 & G3 & K3 & R3 & G4 & R4 & X4 & G5 & S5 & G6 & S6 & G7 & S7 & R5 & R6 & R7).
    assert (same_tree r4 root) by (unfold same_tree in *; congruence). auto 12.
  Qed.
  (** a node of the finished tree is declared, or is a reference to a constant below an archive *)
  Lemma old_any l u : at_loc root l = Some u ->
    (exists v, at_loc r2 l = Some v /\ erase (t_kind v) = erase (t_kind u) /\ (is_ref u = false -> t_name v = t_name u))
    \/ (exists p i a, l = p ++ [i] /\ at_loc root p = Some a /\ t_kind a = KArchive /\ t_kind u = KRef RConstValue).
  Proof.
    destruct final_same as (G2 & G3 & K3 & G4 & X4 & S & G7 & _). intros Hu. destruct (same_at root r4 l u (eq_sym S) Hu) as (u4 & Hu4 & N4 & E4).
    pose proof St as (_ & _ & _ & H4 & _). destruct (constants_new _ _ H4 l u4 Hu4) as [(v & Hv & Nv & Kv)|(p & i & a & -> & Ha & Ka & Ku)].
    - left. destruct (skel_at true _ _ _ _ K3 Hv) as (w & Hw & Ew). exists w. split; [exact Hw|]. assert (Ek : erase (t_kind w) = erase (t_kind v)) by (now apply (skel_kind_eq true)).
      split; [congruence|]. intros R. assert (Ref : is_ref v = false) by (unfold is_ref in *; rewrite Kv; unfold is_ref in R; destruct (t_kind u), (t_kind u4); try discriminate; try reflexivity).
      assert (Rw : is_ref w = false) by (unfold is_ref in *; destruct (t_kind v), (t_kind w); try discriminate; reflexivity).
      destruct v as [nv kv cv], w as [nw kw cw]. cbn in *. unfold is_ref in Ref, Rw. cbn in Ref, Rw. destruct kv; try discriminate; destruct kw; try discriminate; cbn in Ew; congruence.
    - right. destruct (proj1 X4 _ _ Ha) as (a4 & Ha4 & _ & Ka4). destruct (same_at _ _ _ _ S Ha4) as (a7 & Ha7 & _ & Ka7). exists p, i, a7.
      rewrite Ku in E4. rewrite Ka4, Ka in Ka7. split; [reflexivity|]. split; [exact Ha7|]. split; [destruct (t_kind a7); try discriminate; reflexivity|destruct (t_kind u); try discriminate; symmetry; exact E4].
  Qed.
  Lemma old_node l u : at_loc root l = Some u -> is_ref u = false -> exists v, at_loc r2 l = Some v /\ t_name v = t_name u /\ erase (t_kind v) = erase (t_kind u).
  Proof.
    intros Hu R. destruct (old_any l u Hu) as [(v & Hv & E & N)|(p & i & a & _ & _ & _ & K)]; [exists v; auto|]. unfold is_ref in R. now rewrite K in R.
  Qed.
  Lemma kept l v : at_loc r2 l = Some v -> exists u, at_loc root l = Some u /\ erase (t_kind u) = erase (t_kind v) /\ (is_ref v = false -> t_name u = t_name v).
  Proof.
    destruct final_same as (G2 & G3 & K3 & G4 & X4 & S & G7 & _). intros Hv. destruct (skel_at true _ _ _ _ (eq_sym K3) Hv) as (w & Hw & Ew).
    destruct (proj1 X4 _ _ Hw) as (u4 & Hu4 & N4 & E4). destruct (same_at _ _ _ _ S Hu4) as (u & Hu & N7 & K7). exists u. split; [exact Hu|].
    assert (Ek : erase (t_kind w) = erase (t_kind v)) by (now apply (skel_kind_eq true)). split; [congruence|]. intros R.
    assert (Rw : is_ref w = false) by (unfold is_ref in *; destruct (t_kind v), (t_kind w); try discriminate; reflexivity). rewrite N7, N4.
    destruct v as [nv kv cv], w as [nw kw cw]. cbn in *. unfold is_ref in R, Rw. cbn in R, Rw. destruct kv; try discriminate; destruct kw; try discriminate; cbn in Ew; congruence.
  Qed.

  Hypothesis (Sp : separated s) (NB : no_builtin s).
  Lemma final_tidy2 : tidy r2 /\ forall l u w o m, at_loc r2 l = Some u -> t_kind u = KResource (KMultivector w) o m -> index_ref r2 l w.
  Proof. pose proof St as (H1 & H2 & _). exact (declared_tidy so s r1 r2 Hso C Sp NB H1 H2). Qed.

  (** namespaces are only inside namespaces *)
  Theorem namespace_parent p i u c : at_loc root p = Some u -> at_loc root (p ++ [i]) = Some c -> t_kind c = KNamespace -> t_kind u = KRoot \/ t_kind u = KNamespace.
  Proof.
    destruct final_same as (G2 & G3 & K3 & G4 & X4 & S & G7 & _). intros Hu Hc Kc. destruct (old_node _ _ Hc) as (c2 & Hc2 & _ & Ec); [unfold is_ref; now rewrite Kc|].
    rewrite Kc in Ec. apply erase_namespace in Ec. destruct (parent_at _ _ _ _ Hc2) as (u2 & Hu2 & Hi). destruct (loc_keys r2 p u2 (good_wf _ (proj1 G2)) Hu2) as (a & Na & Fa & Ga).
    assert (Gc : getk r2 (a ++ [t_name c2]) = Some c2).
    { pose proof (names_snoc r2 p i u2 c2 _ Hu2 Hi Na) as Nc. destruct (loc_keys r2 _ c2 (good_wf _ (proj1 G2)) Hc2) as (ks & Nk & _ & Gk). rewrite Nc in Nk. injection Nk as <-. exact Gk. }
    destruct (kept _ _ Hu2) as (u' & Hu' & Eu & _). rewrite Hu in Hu'. injection Hu' as <-.
    destruct (td_ns _ (proj1 final_tidy2) _ _ _ Gc Ec) as [->|(x & Hx & Kx)].
    - cbn in Fa. injection Fa as <-. left. cbn in Hu. injection Hu as <-. apply G7.
    - right. rewrite Ga in Hx. injection Hx as <-. rewrite Kx in Eu. now apply erase_namespace.
  Qed.

  Lemma open_names K : open_at r2 K -> Forall clean ("" :: K)%string /\ dot_free ("" :: K)%string.
  Proof.
    destruct final_same as ((G2 & N2 & K2) & _). intros [->|(u & Hu & Ku)].
    - split; constructor; auto; try constructor; reflexivity.
    - destruct (getk_at _ _ _ Hu) as (l & F & Hl). destruct (find_keys_loc _ _ _ F) as (Nl & _). rewrite N2 in Nl.
      split; [exact (names_clean r2 l u _ G2 Hl ltac:(unfold is_ref; now rewrite Ku) Nl)|]. exact (names_dot_free r2 l _ (good_wf _ G2) ltac:(now rewrite N2) Nl).
  Qed.

  Lemma join_clean sep ks : has_char "@" sep = false -> Forall clean ks -> clean (join sep ks).
  Proof.
    intros Hs F. induction F as [|k ks Hk F IH]; [reflexivity|]. destruct ks as [|k' ks]; [exact Hk|].
    change (join sep (k :: k' :: ks)) with (k ++ sep ++ join sep (k' :: ks))%string. unfold clean in *. now rewrite !has_char_app, Hk, Hs, IH.
  Qed.
  Lemma digits_no c z : Ascii.eqb "-" c = false -> (forall d : ascii, (exists n, digit_val 10 d = Some n) -> Ascii.eqb d c = false) -> has_char c (py_str z) = false.
  Proof.
    intros Hm Hd. unfold py_str. assert (X : forall d, has_char c (DecimalString.NilEmpty.string_of_uint d) = false).
    { assert (Cons : forall a t, has_char c (String a t) = Ascii.eqb a c || has_char c t) by reflexivity.
      induction d; cbn [DecimalString.NilEmpty.string_of_uint]; [reflexivity|..]; rewrite Cons, IHd, orb_false_r; apply Hd; eexists; reflexivity. }
    assert (Y : forall d, has_char c (DecimalString.NilZero.string_of_uint d) = false).
    { intros d. destruct d; try apply X. change (Ascii.eqb "0" c || false = false). rewrite orb_false_r. apply Hd. eexists; reflexivity. }
    destruct (Z.to_int z) as [d|d]; [apply Y|]. change (Ascii.eqb "-" c || has_char c (DecimalString.NilZero.string_of_uint d) = false). now rewrite Hm, Y.
  Qed.
  Lemma digit_not c : In c ["."; "@"]%char -> forall d : ascii, (exists n, digit_val 10 d = Some n) -> Ascii.eqb d c = false.
  Proof.
    intros Hc d (n & H). destruct (Ascii.eqb_spec d c) as [->|]; [|reflexivity]. destruct Hc as [<-|[<-|[]]]; discriminate.
  Qed.
  Lemma index_name_chars c w : In c ["."; "@"]%char -> has_char c (index_type_name w) = false.
  Proof.
    intros Hc. unfold index_type_name. rewrite has_char_app, digits_no; [destruct Hc as [<-|[<-|[]]]; reflexivity|destruct Hc as [<-|[<-|[]]]; reflexivity|now apply digit_not].
  Qed.

  Lemma fields_one n cs size (rng : option string) ty : consecutive 0 (fields_of cs) size -> List.length cs = 1%nat ->
    (forall c, In c cs -> t_name c = n /\ (exists off, t_kind c = KField rng (Some ty) off) /\ t_children c = []) ->
    cs = [Node n (KField rng (Some ty) (Some 0)) []] /\ size = ft_width ty.
  Proof using.
    intros Co L F. destruct cs as [|c [|? ?]]; try discriminate. destruct (F c (or_introl eq_refl)) as (<- & (off & K) & Ch). destruct c as [m k ch]. cbn in *. subst k ch.
    cbn in Co. destruct Co as (-> & f & [= <-] & ->). split; [reflexivity|lia].
  Qed.

  Lemma field_kept l v rng ty off : at_loc r2 l = Some v -> t_kind v = KField rng (Some ty) off -> exists u off', at_loc root l = Some u /\ t_kind u = KField rng (Some ty) off'.
  Proof using Hso C St.
    destruct final_same as (G2 & G3 & K3 & G4 & X4 & S & G7 & R7). intros Hv K. pose proof St as (H1 & H2 & H3 & H4 & _ & H5 & H6 & H7 & _).
    destruct (steps_good _ _ _ _ _ _ _ _ _ Hso C St) as (_ & _ & _ & _ & _ & _ & _ & _ & G5 & S5 & _).
    destruct (keep_at _ _ _ _ l v (eq_sym (resolve_keep _ _ H3)) Hv) as (u3 & Hu3 & K3' & _). destruct (proj1 X4 _ _ Hu3) as (u4 & Hu4 & _ & K4).
    destruct (same_at _ _ _ _ S5 Hu4) as (u5 & Hu5 & _ & _). destruct (fields_retyped r4 r5 G4 H5 l u5 Hu5) as (u4' & Hu4' & _ & Cs). rewrite Hu4 in Hu4'. injection Hu4' as <-.
    assert (K5 : t_kind u5 = KField rng (Some ty) off). { destruct Cs as [->|(a & b & t & Ka & _)]; congruence. }
    assert (Kp : keep unsized false r5 = keep unsized false root) by (rewrite (limits_keep _ _ H7); symmetry; now apply sizes_keep).
    destruct (keep_at _ _ _ _ l u5 Kp Hu5) as (u & Hu & E & _). rewrite K5 in E. exists u. cbn in E. destruct (t_kind u) eqn:Ku; try discriminate. injection E as -> ->. eauto.
  Qed.
  Lemma final_fields l u rng ty off : at_loc root l = Some u -> t_kind u = KField rng (Some ty) off -> basic ty \/ enum_typed root l ty.
  Proof.
    destruct final_same as (G2 & G3 & K3 & G4 & X4 & S & G7 & R7). intros Hu K.
    destruct (steps_good _ _ _ _ _ _ _ _ _ Hso C St) as (_ & _ & _ & _ & _ & _ & _ & _ & G5 & S5 & G6 & S6 & _ & S7 & _).
    pose proof St as (H1 & H2 & H3 & H4 & _ & H5 & H6 & H7 & _).
    assert (K5 : keep unsized false root = keep unsized false r5) by (rewrite (limits_keep _ _ H7); now apply sizes_keep).
    destruct (keep_at _ _ _ _ l u K5 Hu) as (u5 & Hu5 & E5 & _). rewrite K in E5. cbn in E5.
    assert (exists o5, t_kind u5 = KField rng (Some ty) o5) as (o5 & Ku5) by (destruct (t_kind u5); try discriminate; injection E5 as -> ->; eauto).
    destruct (fields_retyped r4 r5 G4 H5 l u5 Hu5) as (u4 & Hu4 & _ & [Ku|(rng' & off' & ty' & _ & Ku & En)]).
    - left. destruct (constants_new _ _ H4 l u4 Hu4) as [(u3 & Hu3 & _ & Ku3)|(p & i & a & _ & _ & _ & Kr)]; [|congruence].
      destruct (keep_at _ _ _ _ l u3 (resolve_keep _ _ H3) Hu3) as (u2 & Hu2 & Ku2 & _).
      pose proof (declared_basic so s r1 r2 Hso H1 H2 l u2 Hu2) as Bn. rewrite Ku2, Ku3, <- Ku, Ku5 in Bn. exact Bn.
    - right. rewrite Ku5 in Ku. injection Ku as _ -> _. exact (enum_typed_same r4 root l ty' G4 G7 S En).
  Qed.

  (** the index structure of a multivector *)
  Definition index_struct (w : Z) (v : tree) : Prop :=
    let wd := if w =? 0 then 64 else Z.of_N (Z.to_N w) in
    wd <= 64 /\ v = Node (index_type_name w) (KStructure (Some wd)) [Node "value" (KField (Some "range"%string) (Some (FT "u64" wd false)) (Some 0)) []].
  Theorem multivector_index l u w o m : at_loc root l = Some u -> t_kind u = KResource (KMultivector w) o m ->
    exists i c d v, at_loc root (l ++ [i]) = Some c /\ t_kind c = KRef RBuiltin /\ find root (target c) = Some d /\ at_loc root d = Some v /\ index_struct w v
      /\ is_builtin root d = true.
  Proof.
    destruct final_same as (G2 & G3 & K3 & G4 & X4 & S & G7 & R7). intros Hu K. destruct (old_node l u Hu) as (u2 & Hu2 & _ & E2); [unfold is_ref; now rewrite K|]. rewrite K in E2. cbn in E2.
    assert (exists m2, t_kind u2 = KResource (KMultivector w) o m2) as (m2 & Ku2) by (destruct (t_kind u2); try discriminate; injection E2 as -> ->; eauto).
    destruct final_tidy2 as (T2 & I2). destruct (I2 l u2 w o m2 Hu2 Ku2) as (i & c2 & Ks & Hc2 & Kc2 & Nc2 & Op).
    destruct (open_names Ks Op) as (Cl & Df).
    assert (Cp : clean (index_path Ks w)).
    { apply join_clean; [reflexivity|]. inversion Cl; subst. constructor; [reflexivity|]. apply Forall_app. split; [assumption|]. repeat constructor. apply (index_name_chars "@" w). right. now left. }
    assert (Tg : target c2 = index_path Ks w) by (unfold target; rewrite Nc2; now apply dereferencify_referencify).
    assert (Ql : is_qualified c2 = true).
    { unfold is_qualified. rewrite Nc2. unfold index_path. destruct (Ks ++ [B; MV; index_type_name w]) as [|k0 kr] eqn:Ek; [now destruct Ks|]. unfold referencify. cbn. reflexivity. }
    pose proof St as (H1 & H2 & H3 & H4 & _). destruct (resolve_references_where r2 r3 (l ++ [i]) c2 RBuiltin H3 G2 Hc2 Kc2) as (c3 & d & Hc3 & Kc3 & F3 & Rs).
    unfold resolves in Rs. rewrite Ql, Tg in Rs.
    (* where it is *)
    assert (Fd : find_keys r2 (Ks ++ [B; MV; index_type_name w]) = Some d).
    { unfold find in Rs. unfold index_path in Rs. fold (dotted ("" :: Ks ++ [B; MV; index_type_name w])%string) in Rs. rewrite split_dotted in Rs; [|discriminate|].
      - destruct (String.eqb (t_name r2) ""); [exact Rs|discriminate].
      - inversion Df; subst. constructor; [reflexivity|]. apply Forall_app. split; [assumption|]. repeat constructor. apply (index_name_chars "." w). now left. }
    destruct (find_keys_loc _ _ _ Fd) as (Nd & v2 & Hv2).
    assert (Gd : getk r2 (Ks ++ [B; MV; index_type_name w]) = Some v2) by (rewrite <- node_at_getk; unfold node_at; now rewrite Fd).
    destruct (td_bi _ T2 Ks [MV; index_type_name w] v2 Op Gd) as [([Q|Q] & _)|(w' & b & r & E & Hb & Hr)]; [discriminate|discriminate|].
    injection E as E Er. subst r. cbn in Hr. injection Hr as ->. rewrite (builtin_name w' v2 Hb) in E.
    assert (Ew : w = w').
    { apply py_str_inj. pose proof (builtin_name w' v2 Hb) as Nb. clear - Gd Nb Hb Fd Nd Hv2 T2 Op.
      destruct (names_at_last r2 d v2 Hv2) as (ns & Nl). rewrite Nd in Nl. injection Nl as Nl. assert (X : index_type_name w = t_name v2).
      { apply (f_equal (fun x => last x ""%string)) in Nl. rewrite last_last in Nl. rewrite <- Nl. change (Ks ++ [B; MV; index_type_name w]) with (Ks ++ [B; MV] ++ [index_type_name w]). rewrite app_assoc.
        change (t_name r2 :: (Ks ++ [B; MV]) ++ [index_type_name w]) with ((t_name r2 :: (Ks ++ [B; MV])) ++ [index_type_name w]). now rewrite last_last. }
      rewrite Nb in X. unfold index_type_name in X. now injection X. }
    subst w'. apply builtin_structure_eq in Hb as (Wd & Ev).
    (* in the finished tree *)
    destruct (kept _ _ Hc2) as (c & Hc & Ec & _). rewrite Kc2 in Ec. apply erase_kref in Ec.
    destruct (proj1 X4 _ _ Hc3) as (c4 & Hc4 & N4 & _). destruct (same_at _ _ _ _ S Hc4) as (c7 & Hc7 & N7 & _). rewrite Hc in Hc7. injection Hc7 as <-.
    assert (Fr : find root (target c) = Some d) by (rewrite <- (skel_find r4 root _ G4 G7 S); unfold target in *; rewrite N7, N4; exact (proj2 X4 _ _ F3)).
    destruct (kept _ _ Hv2) as (v & Hv & Kv & Nv). rewrite Ev in Kv, Nv. cbn in Kv, Nv. specialize (Nv eq_refl).
    assert (exists sz, t_kind v = KStructure sz) as (sz & Ksz) by (destruct (t_kind v); try discriminate; eauto).
    destruct v as [nv kv cv]. cbn in Nv, Ksz. subst nv kv.
    destruct (final_layout so s root d (index_type_name w) sz cv Hso C) as (size & -> & Co); [|exact Hv|].
    { unfold build_ast. pose proof St as (A1 & A2 & A3 & A4 & A5 & A6 & A7 & A8 & A9 & A10). rewrite A1. cbn [bind]. rewrite A2. cbn [bind]. rewrite A3. cbn [bind]. rewrite A4. cbn [bind]. rewrite A5. cbn [bind].
      rewrite A6. cbn [bind]. rewrite A7. cbn [bind]. rewrite A8. cbn [bind]. rewrite A9. cbn [bind]. rewrite A10. reflexivity. }
    assert (Bt : is_builtin root d = true).
    { destruct (find_keys_split r2 (Ks ++ [B]) [MV; index_type_name w] d) as (p & q & -> & Fp & Lq); [rewrite <- app_assoc; exact Fd|].
      destruct (find_keys_loc _ _ _ Fp) as (_ & x & Hx). assert (Gx : getk r2 (Ks ++ B :: []) = Some x) by (rewrite <- node_at_getk; unfold node_at; now rewrite Fp).
      destruct (td_bi _ T2 Ks [] x Op Gx) as [(_ & Kx)|(? & ? & ? & Q & _)]; [|discriminate]. destruct (kept _ _ Hx) as (y & Hy & Ky & Ny). rewrite Kx in Ky. apply erase_namespace in Ky.
      unfold is_builtin. apply existsb_exists. exists (t_name y). split.
      - apply namespaces_in with (u := y); [exact Hy|unfold is_namespace; now rewrite Ky|destruct q; [discriminate|discriminate]|]. rewrite at_loc_app, Hy in Hv. eauto.
      - rewrite Ny by (unfold is_ref; now rewrite Kx). destruct (names_at_last _ _ _ Hx) as (ns & Nl). destruct (find_keys_loc _ _ _ Fp) as (Nx & _). rewrite Nx in Nl. injection Nl as Nl.
        change (t_name r2 :: Ks ++ [B]) with ((t_name r2 :: Ks) ++ [B]) in Nl. apply app_inj_tail in Nl as (_ & <-). apply String.eqb_refl. }
    exists i, c, d. eexists. split; [exact Hc|]. split; [exact Ec|]. split; [exact Fr|]. split; [exact Hv|]. split; [|exact Bt].
    split; [exact Wd|]. set (wd := if w =? 0 then 64 else Z.of_N (Z.to_N w)) in *.
    destruct (fields_one "value" cv size (Some "range"%string) (FT "u64" wd false) Co) as (-> & ->); [| |reflexivity].
    - assert (C0 : exists c0, nth_error cv 0 = Some c0).
      { destruct (kept (d ++ [0%nat]) (Node "value" (KField (Some "range"%string) (Some (FT "u64" wd false)) None) [])) as (c0 & Hc0 & _); [rewrite at_loc_app, Hv2, Ev; reflexivity|].
        rewrite at_loc_app, Hv in Hc0. cbn in Hc0. destruct cv; [discriminate|]. eexists. reflexivity. }
      destruct cv as [|c0 [|c1 cv]]; [destruct C0 as (? & ?); discriminate|reflexivity|]. exfalso.
      assert (H1' : at_loc root (d ++ [1%nat]) = Some c1) by (rewrite at_loc_app, Hv; reflexivity).
      destruct (old_any _ _ H1') as [(x & Hx & _)|(p & j & a & Ej & Ha & Ka & _)]; [rewrite at_loc_app, Hv2, Ev in Hx; discriminate|].
      apply app_inj_tail in Ej as (<- & _). rewrite Hv in Ha. injection Ha as <-. discriminate.
    - intros x Hx. apply In_nth_error in Hx as (j & Hj). assert (Hx : at_loc root (d ++ [j]) = Some x) by (rewrite at_loc_app, Hv; cbn; now rewrite Hj).
      destruct (old_any _ _ Hx) as [(y & Hy & Ey & Ny)|(p & k & a & Ej & Ha & Ka & _)].
      2: { apply app_inj_tail in Ej as (<- & _). rewrite Hv in Ha. injection Ha as <-. discriminate. }
      assert (y = Node "value" (KField (Some "range"%string) (Some (FT "u64" wd false)) None) []) as ->.
      { rewrite at_loc_app, Hv2, Ev in Hy. destruct j as [|[|j]]; cbn in Hy; congruence. }
      destruct (field_kept _ _ _ _ _ Hy eq_refl) as (x' & off & Hx' & Kx'). rewrite Hx in Hx'. injection Hx' as <-. split; [symmetry; apply Ny; unfold is_ref; now rewrite Kx'|]. split; [eauto|].
      destruct (t_children x) as [|z zs] eqn:Cz; [reflexivity|]. exfalso. assert (Hz : at_loc root ((d ++ [j]) ++ [0%nat]) = Some z) by (rewrite at_loc_app, Hx; cbn; now rewrite Cz).
      destruct (old_any _ _ Hz) as [(z2 & Hz2 & _)|(p & k & a & Ej & Ha & Ka & _)]; [rewrite at_loc_app, Hy in Hz2; discriminate|].
      apply app_inj_tail in Ej as (<- & _). rewrite Hx in Ha. injection Ha as <-. congruence.
  Qed.
End Final.

(** ** The facts about a finished tree *)
Record finished (root : tree) : Prop := {
  f_built : built root;
  f_namespace : forall p i u c, at_loc root p = Some u -> at_loc root (p ++ [i]) = Some c -> t_kind c = KNamespace -> t_kind u = KRoot \/ t_kind u = KNamespace;
  f_index : forall l u w o m, at_loc root l = Some u -> t_kind u = KResource (KMultivector w) o m ->
    exists i c d v, at_loc root (l ++ [i]) = Some c /\ t_kind c = KRef RBuiltin /\ find root (target c) = Some d /\ at_loc root d = Some v /\ index_struct w v
      /\ is_builtin root d = true;
  f_fields : forall l u rng ty off, at_loc root l = Some u -> t_kind u = KField rng (Some ty) off -> basic ty \/ enum_typed root l ty }.
Theorem build_ast_finished so s root : any_order so -> schema_clean s -> separated s -> no_builtin s -> build_ast so s = Ok root -> finished root.
Proof.
  intros Hso C Sp NB H. pose proof (build_ast_built so s root Hso C H) as Bu. destruct (build_ast_steps _ _ _ H) as (r1 & r2 & r3 & r4 & r5 & r6 & St). constructor.
  - exact Bu.
  - exact (namespace_parent so s r1 r2 r3 r4 r5 r6 root Hso C St Sp NB).
  - exact (multivector_index so s r1 r2 r3 r4 r5 r6 root Hso C St Sp NB).
  - exact (final_fields so s r1 r2 r3 r4 r5 r6 root Hso C St).
Qed.
