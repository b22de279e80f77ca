(** Invariants of the trees made by [GenBuild]. *)
From Coq Require Import List ZArith Bool String Ascii Lia Permutation DecimalString.
From Verif Require Import PyBase PyText GenTypes GenTypesFacts GenTree GenTreeFacts GenTraversal GenBuild.
Import ListNotations.
Local Open Scope Z_scope.

(** ** Monadic folds *)
Lemma bind_ok {A B} (r : res A) (f : A -> res B) b : bind r f = Ok b -> exists a, r = Ok a /\ f a = Ok b.
Proof. destruct r as [a|e]; cbn; [|discriminate]. intros H. now exists a. Qed.

Lemma foldM_inv {A B} (I : A -> Prop) (f : A -> B -> res A) l : forall a b,
  foldM f a l = Ok b -> I a -> (forall x, In x l -> forall a a', I a -> f a x = Ok a' -> I a') -> I b.
Proof.
  induction l as [|x l IH]; intros a b H Ha Hf; cbn in H; [now injection H as <-|].
  apply bind_ok in H as (a' & H1 & H2). eapply IH; [exact H2| |].
  - eapply Hf; [now left|exact Ha|exact H1].
  - intros y Hy. apply Hf. now right.
Qed.
Lemma foldM_app {A B} (f : A -> B -> res A) l1 l2 a : foldM f a (l1 ++ l2) = (x <- foldM f a l1 ;; foldM f x l2).
Proof. revert a; induction l1 as [|x l1 IH]; intros a; cbn; [reflexivity|]. destruct (f a x); cbn; [apply IH|reflexivity]. Qed.
Lemma mapM_ok {A B} (f : A -> res B) l bs : mapM f l = Ok bs <-> Forall2 (fun a b => f a = Ok b) l bs.
Proof.
  revert bs; induction l as [|x l IH]; intros bs; cbn.
  - split; [intros H; injection H as <-; constructor|intros H; now inversion H].
  - split.
    + intros H. apply bind_ok in H as (b & Hb & H). apply bind_ok in H as (t & Ht & H). injection H as <-.
      constructor; [exact Hb|]. now apply IH.
    + intros H. inversion H as [|? ? ? ? Hb Ht]; subst. rewrite Hb. cbn. apply IH in Ht. now rewrite Ht.
Qed.

(** ** Local invariants *)
Definition clean (s : string) : Prop := has_char "@" s = false.
Definition marked (s : string) : Prop := exists t, s = String "@" t.

(** Field types: a basic type with its own signedness, or an enumeration (named by its reference) *)
Definition ftype_ok (f : ftype) : Prop :=
  0 <= ft_width f <= 64
  /\ (marked (ft_name f)
      \/ (ft_signed f = name_signed (ft_name f) /\ make_btype (ft_name f) (Some (ft_width f)) = Ok (BT (ft_name f) (ft_width f)))).

(** What is true of every node with name [n], kind [k] and child names [ns] *)
Definition node_ok (n : string) (k : kind) (ns : list string) : Prop :=
  NoDup ns /\ Forall (fun m => name_ok m = true) ns /\
  match k with
  | KRef _ => marked n /\ ns = []
  | KConstant ty v => clean n /\ exists b m, make_btype ty None = Ok b /\ bits_required b v = Ok m /\ m <= bt_width b
  | KField _ (Some f) _ => clean n /\ ftype_ok f
  | KEnum b => clean n /\ 0 <= bt_width b <= 64
  | _ => clean n
  end.
Definition good (t : tree) : Prop :=
  forall l u, at_loc t l = Some u -> node_ok (t_name u) (t_kind u) (map t_name (t_children u)).

Lemma good_here t : good t -> node_ok (t_name t) (t_kind t) (map t_name (t_children t)).
Proof. intros G. now apply (G []). Qed.
Lemma good_child t i c : good t -> nth_error (t_children t) i = Some c -> good c.
Proof. intros G H l u E. apply (G (i :: l)). cbn. now rewrite H. Qed.
Lemma good_at t l u : good t -> at_loc t l = Some u -> good u.
Proof. intros G H m v E. apply (G (l ++ m)%list). now rewrite at_loc_app, H. Qed.
Lemma good_intro n k cs : node_ok n k (map t_name cs) -> Forall good cs -> good (Node n k cs).
Proof.
  intros H F l u E. destruct l as [|i l]; cbn in E; [injection E as <-; exact H|].
  destruct (nth_error cs i) as [c|] eqn:Hc; [|discriminate]. rewrite Forall_forall in F.
  eapply (F c); [eapply nth_error_In; eauto|exact E].
Qed.
Lemma good_children t : good t -> Forall good (t_children t).
Proof. intros G. rewrite Forall_forall. intros x Hx. apply In_nth_error in Hx as [i Hi]. eapply good_child; eauto. Qed.
Lemma good_wf t : good t -> wf t.
Proof.
  intros G l u E. destruct (G l u E) as (ND & F & _). split; [exact ND|].
  rewrite Forall_forall in *. intros c Hc. apply F. now apply in_map.
Qed.
Lemma good_leaf n k : match k with KRef _ => marked n
  | KConstant ty v => clean n /\ exists b m, make_btype ty None = Ok b /\ bits_required b v = Ok m /\ m <= bt_width b
  | KField _ (Some f) _ => clean n /\ ftype_ok f
  | KEnum b => clean n /\ 0 <= bt_width b <= 64
  | _ => clean n end -> good (Node n k []).
Proof. intros H. apply good_intro; [|constructor]. cbn. split; [constructor|]. split; [constructor|]. destruct k; auto. Qed.

Lemma good_insert t c t' : good t -> good c -> name_ok (t_name c) = true -> is_ref t = false -> insert t c = Ok t' -> good t'.
Proof.
  intros G Gc Hn R H. apply insert_ok in H as [N ->]. destruct (good_here t G) as (ND & F & K). apply good_intro.
  - rewrite map_app. split; [now apply NoDup_snoc|]. split.
    + apply Forall_app. split; [exact F|]. constructor; [exact Hn|constructor].
    + destruct t as [n k cs]; cbn in *. destruct k; auto. discriminate.
  - apply Forall_app. split; [now apply good_children|]. constructor; [exact Gc|constructor].
Qed.

(** Changing a node while keeping its name *)
Lemma good_modify f l : forall t u, good t -> at_loc t l = Some u -> good (f u) -> t_name (f u) = t_name u -> good (modify t l f).
Proof.
  induction l as [|i l IH]; intros t u G H Gf Hn; cbn in *; [now injection H as ->|].
  destruct t as [n k cs]; cbn in *. destruct (nth_error cs i) as [c|] eqn:Hc; [|discriminate].
  assert (Nm : t_name (modify c l f) = t_name c).
  { destruct l; [cbn in *; now injection H as ->|]. now destruct (modify_name_kind (n0 :: l) f c ltac:(discriminate)). }
  apply good_intro.
  - rewrite (upd_map t_name cs i _ c Hc Nm). apply (good_here _ G).
  - rewrite Forall_forall. intros x Hx. destruct (upd_in _ _ _ _ _ Hc Hx) as [->|Hx'].
    + eapply IH; eauto. eapply good_child; [exact G|exact Hc].
    + apply In_nth_error in Hx' as [j Hj]. eapply good_child; [exact G|exact Hj].
Qed.
Lemma good_insert_at root l c root' t : good root -> at_loc root l = Some t -> is_ref t = false -> good c ->
  name_ok (t_name c) = true -> insert_at root l c = Ok root' -> good root'.
Proof.
  intros G Ht R Gc Hn H. destruct (insert_at_inv _ _ _ _ H) as (t0 & Ht0 & N & ->). rewrite Ht in Ht0. injection Ht0 as <-.
  eapply good_modify; [exact G|exact Ht| |reflexivity]. cbn.
  eapply (good_insert t c); [exact (good_at _ _ _ G Ht)|exact Gc|exact Hn|exact R|]. apply insert_ok. split; [exact N|reflexivity].
Qed.
(** Renaming a reference *)
Lemma good_rename_ref root l v root' t r : good root -> at_loc root l = Some t -> t_kind t = KRef r ->
  name_ok v = true -> marked v -> set_name root l v = Ok root' -> good root'.
Proof.
  intros G Ht K Hv Mv H. destruct (set_name_inv root l v root' t Ht H) as [[_ ->]|(E & -> & N)]; [exact G|].
  assert (Gt' : good (Node v (t_kind t) (t_children t))).
  { destruct (good_here _ (good_at _ _ _ G Ht)) as (ND & F & X). rewrite K in *. destruct X as [_ X].
    apply good_intro; [split; [exact ND|split; [exact F|now split]]|]. apply good_children. exact (good_at _ _ _ G Ht). }
  destruct l as [|i0 l0].
  - cbn in *. injection Ht as ->. exact Gt'.
  - destruct (loc_snoc (i0 :: l0) ltac:(discriminate)) as (p & i & Hl). rewrite Hl in *. clear Hl i0 l0.
    rewrite modify_app. assert (exists u, at_loc root p = Some u) as [u Hu].
    { rewrite at_loc_app in Ht. destruct (at_loc root p) as [u|]; [now exists u|discriminate]. }
    specialize (N p i u eq_refl Hu). eapply good_modify; [exact G|exact Hu| |now destruct u].
    assert (Gu : good u) by exact (good_at _ _ _ G Hu). destruct u as [n k cs]. cbn.
    rewrite at_loc_app, Hu in Ht. cbn in Ht. destruct (nth_error cs i) as [c|] eqn:Hc; [|discriminate]. injection Ht as ->.
    destruct (good_here _ Gu) as (ND & F & X). cbn in ND, F, N, X. apply good_intro.
    + split; [eapply rename_nodup; eauto|]. split.
      * rewrite Forall_forall in *. intros x Hx. apply in_map_iff in Hx as (y & <- & Hy).
        destruct (upd_in _ _ _ _ _ Hc Hy) as [->|Hy']; [exact Hv|apply F; now apply in_map].
      * destruct k; auto. destruct X as [_ X]. destruct cs; [now destruct i|discriminate].
    + rewrite Forall_forall. intros x Hx. destruct (upd_in _ _ _ _ _ Hc Hx) as [->|Hx']; [exact Gt'|].
      apply In_nth_error in Hx' as [j Hj]. eapply good_child; [exact Gu|exact Hj].
Qed.

(** ** Node creation *)
Lemma make_ref_ok r n t : make_ref r n = Ok t -> t = Node (referencify n) (KRef r) [] /\ good t /\ name_ok (t_name t) = true.
Proof.
  unfold make_ref. rewrite make_node_ok. intros [H ->]. split; [reflexivity|]. split; [|exact H].
  apply good_leaf. unfold referencify. eexists; reflexivity.
Qed.

(** One insertion step that keeps name and kind *)
Definition keeps (t t' : tree) : Prop := t_name t' = t_name t /\ t_kind t' = t_kind t.
Lemma keeps_refl t : keeps t t. Proof. now split. Qed.
Lemma insert_keeps t c t' : insert t c = Ok t' -> keeps t t'.
Proof. intros H. apply insert_ok in H as [_ ->]. now split. Qed.
Lemma is_ref_kind_eq t t' : t_kind t' = t_kind t -> is_ref t' = is_ref t.
Proof. unfold is_ref. now intros ->. Qed.

Lemma insert_all_ok cs : forall t t', insert_all t cs = Ok t' ->
  exists ds, Forall2 (fun rc d => rc = Ok d) cs ds /\ t' = Node (t_name t) (t_kind t) (t_children t ++ ds)
             /\ (NoDup (map t_name (t_children t)) -> NoDup (map t_name (t_children t'))).
Proof.
  unfold insert_all. induction cs as [|rc cs IH]; intros t t' H; cbn in H.
  - injection H as <-. exists []. split; [constructor|]. rewrite app_nil_r. split; [now destruct t|auto].
  - apply bind_ok in H as (t1 & H1 & H2). apply bind_ok in H1 as (c & -> & H1).
    destruct (IH t1 t' H2) as (ds & Hd & -> & ND). apply insert_ok in H1 as [N ->]. cbn in *. exists (c :: ds).
    split; [now constructor|]. split; [now rewrite <- app_assoc|]. intros ND0. apply ND. rewrite map_app.
    apply NoDup_snoc; assumption.
Qed.
Lemma insert_all_good t cs t' : insert_all t cs = Ok t' -> good t -> is_ref t = false ->
  (forall rc c, In rc cs -> rc = Ok c -> good c /\ name_ok (t_name c) = true) -> good t' /\ keeps t t'.
Proof.
  unfold insert_all. intros H G R Hc.
  apply (foldM_inv (fun x => good x /\ keeps t x) _ cs t t' H); [split; [exact G|apply keeps_refl]|].
  intros rc Hrc a a' [Ga Ka] Ha. apply bind_ok in Ha as (c & -> & Ha). destruct (Hc _ c Hrc eq_refl) as [Gc Nc].
  split.
  - eapply (good_insert a c); [exact Ga|exact Gc|exact Nc| |exact Ha]. rewrite (is_ref_kind_eq t a); [exact R|apply Ka].
  - destruct (insert_keeps _ _ _ Ha) as [E1 E2]. destruct Ka as [E3 E4]. split; congruence.
Qed.

Lemma basic_width name b w : make_btype name (option_map Z.of_N w) = Ok b -> 0 <= bt_width b <= 64.
Proof.
  unfold make_btype. destruct (storage_width name) as [s|] eqn:S; [|discriminate].
  assert (0 <= s <= 64). { apply storage_spec in S. cbn in S. repeat (destruct S as [S|S]; [injection S as _ _ <-; lia|]). contradiction. }
  destruct w as [w|]; cbn [option_map].
  - destruct (Z.of_N w >? s) eqn:C; [discriminate|]. intros E; injection E as <-. cbn. lia.
  - destruct (s >? s) eqn:C; [discriminate|]. intros E; injection E as <-. cbn. lia.
Qed.

Lemma create_constant_good p t : create_constant p = Ok t -> clean (pc_name p) -> good t /\ t_name t = pc_name p /\ name_ok (t_name t) = true.
Proof.
  unfold create_constant. intros H C. apply bind_ok in H as (n & Hn & H). apply make_node_ok in Hn as [Hn ->].
  apply bind_ok in H as (v & Hv & H). injection H as <-. cbn [t_name]. split; [|split; [reflexivity|exact Hn]].
  apply good_leaf. split; [exact C|]. unfold make_constant in Hv. apply bind_ok in Hv as (v' & _ & Hv).
  apply bind_ok in Hv as (b & Hb & Hv). apply bind_ok in Hv as (m & Hm & Hv).
  destruct (m >? bt_width b) eqn:E; [discriminate|]. injection Hv as ->. exists b, m. repeat split; auto. lia.
Qed.

Lemma create_field_good p t : create_field p = Ok t -> clean (pf_name p) -> good t /\ t_name t = pf_name p /\ name_ok (t_name t) = true.
Proof.
  unfold create_field. intros H C. apply bind_ok in H as (n & Hn & H). apply make_node_ok in Hn as [Hn ->].
  apply bind_ok in H as (t1 & H1 & H).
  assert (I : good t1 /\ t_name t1 = pf_name p /\ t_kind t1 = KField (first_range (pf_decs p)) None None).
  { refine (foldM_inv (fun x => good x /\ t_name x = pf_name p /\ t_kind x = KField (first_range (pf_decs p)) None None) _ _ _ _ H1 _ _).
    - split; [apply good_leaf; exact C|now split].
    - intros d _ a a' (Ga & Na & Ka) Ha. destruct d as [m|m|m].
      + injection Ha as <-. auto.
      + apply bind_ok in Ha as (c & Hc & Ha). apply make_ref_ok in Hc as (_ & Gc & Nc).
        destruct (insert_keeps _ _ _ Ha) as [E1 E2]. split; [|split; congruence].
        eapply (good_insert a c); [exact Ga|exact Gc|exact Nc| |exact Ha]. unfold is_ref. now rewrite Ka.
      + apply bind_ok in Ha as (c & Hc & Ha). apply make_ref_ok in Hc as (_ & Gc & Nc).
        destruct (insert_keeps _ _ _ Ha) as [E1 E2]. split; [|split; congruence].
        eapply (good_insert a c); [exact Ga|exact Gc|exact Nc| |exact Ha]. unfold is_ref. now rewrite Ka. }
  destruct I as (G1 & N1 & K1). destruct (is_basic_type (pf_type p)).
  - apply bind_ok in H as (b & Hb & H). injection H as <-. cbn [t_name]. split; [|split; [exact N1|now rewrite N1]].
    destruct (good_here _ G1) as (ND & F & _). apply good_intro.
    + split; [exact ND|]. split; [exact F|]. cbn. rewrite N1. split; [exact C|]. split; [eapply basic_width; eauto|]. right. cbn. split; [reflexivity|].
      apply make_btype_ok in Hb as (sw & Es & -> & Hle). cbn in *. apply make_btype_ok. exists sw. split; [exact Es|]. split; [reflexivity|exact Hle].
    + now apply good_children.
  - apply bind_ok in H as (c & Hc & H). apply make_ref_ok in Hc as (_ & Gc & Nc).
    destruct (insert_keeps _ _ _ H) as [E1 E2]. split; [|split; [congruence|rewrite E1, N1; exact Hn]].
    eapply (good_insert t1 c); [exact G1|exact Gc|exact Nc| |exact H]. unfold is_ref. now rewrite K1.
Qed.

Lemma create_structure_good p t : create_structure p = Ok t -> clean (ps_name p) -> Forall (fun f => clean (pf_name f)) (ps_fields p) ->
  good t /\ t_name t = ps_name p /\ name_ok (t_name t) = true.
Proof.
  unfold create_structure. intros H C F. apply bind_ok in H as (n & Hn & H). apply make_node_ok in Hn as [Hn ->].
  destruct (insert_all_good _ _ _ H) as [G [E _]].
  - apply good_leaf. exact C.
  - reflexivity.
  - intros rc c Hin ->. apply in_map_iff in Hin as (f & Hf & Hin). rewrite Forall_forall in F.
    destruct (create_field_good f c Hf (F f Hin)) as (Gc & _ & Nc). now split.
  - cbn in E. rewrite E. auto.
Qed.

Lemma py_str_clean z : clean (py_str z).
Proof.
  unfold clean, py_str.
  assert (D : forall d, has_char "@" (NilEmpty.string_of_uint d) = false) by (induction d; cbn; auto).
  destruct (Z.to_int z) as [d|d]; cbn; [destruct d; cbn; auto|destruct d; cbn; auto].
Qed.

Lemma clean_app a b : clean (a ++ b)%string <-> clean a /\ clean b.
Proof. unfold clean. rewrite has_char_app. apply orb_false_iff. Qed.
Lemma replace_clean a b s : b <> "@"%char -> clean s -> clean (replace_char a b s).
Proof.
  unfold clean. intros N. induction s as [|c t IH]; cbn; [auto|]. intros H. apply orb_false_iff in H as [Hc Ht].
  rewrite (IH Ht), orb_false_r. destruct (Ascii.eqb c a); [|exact Hc]. now apply Ascii.eqb_neq.
Qed.
Lemma unknown_clean v : clean (unknown_name v).
Proof.
  unfold unknown_name. apply clean_app. split; [reflexivity|]. destruct (v <? 0)%Z; [apply clean_app; split; [reflexivity|]|]; apply py_str_clean.
Qed.
Lemma split_clean s : clean s -> Forall clean (split_on "." s).
Proof.
  unfold clean. induction s as [|a t IH]; cbn; [repeat constructor|]. intros H. apply orb_false_iff in H as [Ha Ht].
  specialize (IH Ht). destruct (Ascii.eqb a "."); [constructor; [reflexivity|exact IH]|].
  destruct (split_on "." t) as [|w ws]; [repeat constructor; cbn; now rewrite Ha|]. inversion IH; subst.
  constructor; [cbn; now rewrite Ha|assumption].
Qed.
Lemma clean_not_marked s : clean s -> ~ marked s.
Proof. unfold clean. intros H [t ->]. discriminate. Qed.

Lemma enum_children vs cs : Forall2 (fun v c => make_node (ev_name v) (KEnumValue (ev_value v) (ev_auto v)) = Ok c) vs cs ->
  cs = map (fun v => Node (ev_name v) (KEnumValue (ev_value v) (ev_auto v)) []) vs
  /\ Forall (fun v => name_ok (ev_name v) = true) vs.
Proof.
  induction 1 as [|v c vs cs H _ [-> IH]]; [split; [reflexivity|constructor]|]. apply make_node_ok in H as [Hn ->].
  split; [reflexivity|now constructor].
Qed.

Lemma create_enumeration_ok so p t : (forall l, Permutation (so l) l) -> create_enumeration so p = Ok t ->
  exists b vs, create_enum so (pe_name p) (pe_type p) (option_map Z.of_N (pe_width p)) (pe_values p) = Ok (b, vs)
    /\ t = Node (pe_name p) (KEnum b) (map (fun v => Node (ev_name v) (KEnumValue (ev_value v) (ev_auto v)) []) vs)
    /\ Forall (fun v => name_ok (ev_name v) = true) vs /\ name_ok (pe_name p) = true.
Proof.
  unfold create_enumeration. intros Hso H. apply bind_ok in H as ([b vs] & He & H). apply bind_ok in H as (n & Hn & H).
  apply make_node_ok in Hn as [Hn ->]. apply bind_ok in H as (cs & Hcs & H). injection H as <-. apply mapM_ok in Hcs.
  destruct (enum_children _ _ Hcs) as [-> F]. exists b, vs. auto.
Qed.
Lemma create_enumeration_good so p t : (forall l, Permutation (so l) l) -> create_enumeration so p = Ok t ->
  clean (pe_name p) -> Forall (fun v => clean (fst v)) (pe_values p) -> good t /\ t_name t = pe_name p /\ name_ok (t_name t) = true.
Proof.
  intros Hso H C F. destruct (create_enumeration_ok so p t Hso H) as (b & vs & He & -> & Fv & Hn).
  split; [|split; [reflexivity|exact Hn]].
  destruct (create_enum_ok so _ _ _ _ _ _ Hso He) as (Hb & _ & ex & vals & gen & _ & _ & _ & _ & Ec & _ & _ & ND & _).
  assert (Cv : Forall (fun v => clean (ev_name v)) vs).
  { rewrite Ec. apply Forall_app. split.
    - rewrite Forall_forall in *. intros x Hx. apply in_map_iff in Hx as ([n v] & <- & Hx). cbn.
      apply in_combine_l in Hx. apply in_map_iff in Hx as ([n' v'] & <- & Hx). apply (F _ Hx).
    - rewrite Forall_forall. intros x Hx. apply in_map_iff in Hx as (v & <- & _). apply unknown_clean. }
  apply good_intro.
  - rewrite map_map. cbn. split; [exact ND|]. split.
    + rewrite Forall_forall in *. intros x Hx. apply in_map_iff in Hx as (v & <- & Hv). now apply Fv.
    + split; [exact C|]. eapply basic_width; eauto.
  - rewrite Forall_forall in *. intros x Hx. apply in_map_iff in Hx as (v & <- & Hv). apply good_leaf. now apply Cv.
Qed.

Lemma create_explicit_good ty f d t : create_explicit ty f d = Ok t -> clean ty -> clean f -> clean d ->
  good t /\ name_ok (t_name t) = true.
Proof.
  unfold create_explicit. intros H C1 C2 C3. apply bind_ok in H as (n & Hn & H). apply make_node_ok in Hn as [Hn ->].
  destruct (insert_all_good _ _ _ H) as [G [E _]].
  - apply good_leaf. repeat (apply clean_app; split); try reflexivity; apply replace_clean; try discriminate; auto.
    repeat (apply clean_app; split); auto. reflexivity.
  - reflexivity.
  - intros rc c Hin ->. cbn in Hin. destruct Hin as [Hin|[Hin|[Hin|[]]]]; apply make_ref_ok in Hin as (_ & G & N); now split.
  - rewrite E. now split.
Qed.

Definition rdec_clean (d : rdec) : Prop := match d with RExplicit a b c => clean a /\ clean b /\ clean c | ROptional => True end.
Lemma create_resource_good p t : create_resource p = Ok t -> clean (pr_name p) -> Forall rdec_clean (pr_decs p) ->
  good t /\ t_name t = pr_name p /\ name_ok (t_name t) = true.
Proof.
  unfold create_resource. intros H C F. apply bind_ok in H as (n & Hn & H). apply make_node_ok in Hn as [Hn ->].
  apply bind_ok in H as (t1 & H1 & H). set (k := KResource _ _ _) in *.
  assert (I : good t1 /\ t_name t1 = pr_name p /\ t_kind t1 = k).
  { refine (foldM_inv (fun x => good x /\ t_name x = pr_name p /\ t_kind x = k) _ _ _ _ H1 _ _).
    - split; [apply good_leaf; exact C|now split].
    - intros d Hd a a' (Ga & Na & Ka) Ha. destruct d as [x y z|]; [|injection Ha as <-; auto].
      apply bind_ok in Ha as (c & Hc & Ha). rewrite Forall_forall in F. destruct (F _ Hd) as (C1 & C2 & C3).
      destruct (create_explicit_good _ _ _ _ Hc C1 C2 C3) as [Gc Nc]. destruct (insert_keeps _ _ _ Ha) as [E1 E2].
      split; [|split; congruence]. eapply (good_insert a c); [exact Ga|exact Gc|exact Nc| |exact Ha]. unfold is_ref. now rewrite Ka. }
  destruct I as (G1 & N1 & K1).
  destruct (insert_all_good _ _ _ H) as [G [E _]].
  - exact G1.
  - unfold is_ref. now rewrite K1.
  - intros rc c Hin ->.
    assert (exists r m, make_ref r m = Ok c) as (r & m & Hr).
    { destruct (pr_type p); cbn in Hin; try tauto; try (destruct Hin as [Hin|[]]; eauto).
      apply in_map_iff in Hin as (m & Hm & _). eauto. }
    apply make_ref_ok in Hr as (_ & G & N). now split.
  - rewrite E, N1. auto.
Qed.
Lemma create_bound_good b t : create_bound b = Ok t -> clean (fst b) -> good t /\ t_name t = fst b /\ name_ok (t_name t) = true.
Proof.
  unfold create_bound. intros H C. apply bind_ok in H as (n & Hn & H). apply make_node_ok in Hn as [Hn ->].
  destruct (insert_all_good _ _ _ H) as [G [E _]].
  - apply good_leaf. exact C.
  - reflexivity.
  - intros rc c Hin ->. apply in_map_iff in Hin as (m & Hm & _). apply make_ref_ok in Hm as (_ & G & N). now split.
  - rewrite E. auto.
Qed.

Definition resource_clean (r : presource) : Prop := clean (pr_name r) /\ Forall rdec_clean (pr_decs r).
Definition archive_clean (a : parchive) : Prop :=
  clean (pa_name a) /\ Forall (fun b => clean (fst b)) (pa_bound a) /\ Forall resource_clean (pa_resources a).
Lemma create_archive_good p t : create_archive p = Ok t -> archive_clean p -> good t /\ t_name t = pa_name p /\ name_ok (t_name t) = true.
Proof.
  unfold create_archive. intros H (C & Fb & Fr). apply bind_ok in H as (n & Hn & H). apply make_node_ok in Hn as [Hn ->].
  apply bind_ok in H as (t1 & H1 & H). rewrite Forall_forall in *.
  destruct (insert_all_good _ _ _ H1) as [G1 [E1 K1]].
  - apply good_leaf. exact C.
  - reflexivity.
  - intros rc c Hin ->. apply in_map_iff in Hin as (r & Hr & Hin). destruct (Fr r Hin) as [C1 C2].
    destruct (create_resource_good r c Hr C1 C2) as (G & _ & N). now split.
  - destruct (insert_all_good _ _ _ H) as [G [E _]].
    + exact G1.
    + unfold is_ref. now rewrite K1.
    + intros rc c Hin ->. apply in_map_iff in Hin as (r & Hr & Hin).
      destruct (create_bound_good r c Hr (Fb r Hin)) as (G & _ & N). now split.
    + rewrite E, E1. auto.
Qed.

(** ** Schemas whose identifiers contain no '@' (grammar.py:16-17: letters, digits, '_' and '.') *)
Definition namespace_clean (p : pnamespace) : Prop :=
  clean (pn_name p) /\ Forall (fun c => clean (pc_name c)) (pn_constants p)
  /\ Forall (fun s => clean (ps_name s) /\ Forall (fun f => clean (pf_name f)) (ps_fields s)) (pn_structures p)
  /\ Forall (fun e => clean (pe_name e) /\ Forall (fun v => clean (fst v)) (pe_values e)) (pn_enumerations p)
  /\ Forall archive_clean (pn_archives p).
Definition schema_clean (s : pschema) : Prop := Forall namespace_clean s.

Lemma nest_ok keys children t : nest keys children = Ok t ->
  exists k ks, keys = k :: ks /\ t_name t = k /\ t_kind t = KNamespace /\ Forall (fun k => name_ok k = true) keys.
Proof.
  revert t; induction keys as [|k ks IH]; intros t H; [discriminate|]. destruct ks as [|k2 ks].
  - cbn in H. apply bind_ok in H as (n & Hn & H). apply make_node_ok in Hn as [Hn ->]. injection H as <-.
    exists k, []. repeat split. constructor; [exact Hn|constructor].
  - change (nest (k :: k2 :: ks) children) with
      (t0 <- make_node k KNamespace ;; c <- nest (k2 :: ks) children ;; Ok (Node (t_name t0) KNamespace [c])) in H.
    apply bind_ok in H as (n & Hn & H). apply make_node_ok in Hn as [Hn ->]. apply bind_ok in H as (c & Hc & H).
    injection H as <-. exists k, (k2 :: ks). repeat split. constructor; [exact Hn|].
    destruct (IH c Hc) as (_ & _ & _ & _ & _ & F). exact F.
Qed.
Lemma nest_good keys children t : nest keys children = Ok t -> Forall clean keys ->
  NoDup (map t_name children) -> Forall (fun c => name_ok (t_name c) = true) children -> Forall good children ->
  good t /\ name_ok (t_name t) = true.
Proof.
  intros H C ND Fn Fg. revert t H C; induction keys as [|k ks IH]; intros t H C; [discriminate|].
  inversion C as [|? ? Ck Cks]; subst. destruct ks as [|k2 ks].
  - cbn in H. apply bind_ok in H as (n & Hn & H). apply make_node_ok in Hn as [Hn ->]. injection H as <-.
    split; [|exact Hn]. apply good_intro; [|exact Fg]. split; [exact ND|]. split; [|exact Ck].
    rewrite Forall_forall in *. intros x Hx. apply in_map_iff in Hx as (c & <- & Hc). now apply Fn.
  - change (nest (k :: k2 :: ks) children) with
      (t0 <- make_node k KNamespace ;; c <- nest (k2 :: ks) children ;; Ok (Node (t_name t0) KNamespace [c])) in H.
    apply bind_ok in H as (n & Hn & H). apply make_node_ok in Hn as [Hn ->]. apply bind_ok in H as (c & Hc & H).
    injection H as <-. destruct (IH c Hc Cks) as [Gc Nc]. split; [|exact Hn]. apply good_intro; [|constructor; [exact Gc|constructor]].
    split; [repeat constructor; auto|]. split; [repeat constructor; exact Nc|exact Ck].
Qed.

(** The deepest existing node along clean keys is not a reference *)
Lemma find_last_not_ref keys : forall t, good t -> is_ref t = false -> Forall clean keys ->
  exists u, at_loc t (fst (find_last t keys)) = Some u /\ is_ref u = false /\ Forall clean (snd (find_last t keys)).
Proof.
  induction keys as [|k ks IH]; intros t G R C; cbn.
  - exists t. auto.
  - inversion C as [|? ? Ck Cks]; subst. destruct (child_pos (t_children t) k) as [i|] eqn:P; [|exists t; auto].
    destruct (child_pos_some _ _ _ P) as (c & Hc & Hn). rewrite Hc.
    assert (Rc : is_ref c = false).
    { destruct (is_ref c) eqn:E; [|reflexivity]. exfalso. pose proof (good_here _ (good_child _ _ _ G Hc)) as (_ & _ & K).
      unfold is_ref in E. destruct (t_kind c); try discriminate. destruct K as [M _]. rewrite Hn in M.
      eapply clean_not_marked; eauto. }
    destruct (IH c (good_child _ _ _ G Hc) Rc Cks) as (u & Hu & Ru & Cu).
    destruct (find_last c ks) as [l r]; cbn in *. rewrite Hc. exists u. auto.
Qed.

Lemma ensure_namespace_ok root keys root' l : ensure_namespace root keys = Ok (root', l) ->
  (root' = root /\ find_keys root keys = Some l /\ exists t, at_loc root l = Some t /\ is_namespace t = true)
  \/ (find_keys root keys = None /\ exists first, nest (snd (find_last root keys)) [] = Ok first
      /\ insert_at root (fst (find_last root keys)) first = Ok root' /\ find_keys root' keys = Some l).
Proof.
  unfold ensure_namespace. destruct (find_keys root keys) as [l0|] eqn:F.
  - destruct (at_loc root l0) as [t|] eqn:A; [|discriminate]. destruct (is_namespace t) eqn:N; [|discriminate].
    intros H. injection H as <- <-. left. repeat split. exists t. auto.
  - destruct (find_last root keys) as [fl rest]. intros H. apply bind_ok in H as (first & Hf & H).
    apply bind_ok in H as (r' & Hr & H). destruct (find_keys r' keys) as [l'|] eqn:F'; [|discriminate].
    injection H as <- <-. right. split; [reflexivity|]. exists first. auto.
Qed.
Lemma find_keys_not_ref keys : forall t l u, good t -> is_ref t = false -> Forall clean keys -> find_keys t keys = Some l ->
  at_loc t l = Some u -> is_ref u = false.
Proof.
  induction keys as [|k ks IH]; intros t l u G R C H Hu; cbn in H.
  - injection H as <-. cbn in Hu. now injection Hu as <-.
  - inversion C as [|? ? Ck Cks]; subst. destruct (child_pos (t_children t) k) as [i|] eqn:P; [|discriminate].
    destruct (child_pos_some _ _ _ P) as (c & Hc & Hn). rewrite Hc in H.
    destruct (find_keys c ks) as [m|] eqn:F; [|discriminate]. injection H as <-. cbn in Hu. rewrite Hc in Hu.
    refine (IH c m u (good_child _ _ _ G Hc) _ Cks F Hu).
    destruct (is_ref c) eqn:E; [|reflexivity]. exfalso. pose proof (good_here _ (good_child _ _ _ G Hc)) as (_ & _ & K).
    unfold is_ref in E. destruct (t_kind c); try discriminate. destruct K as [M _]. rewrite Hn in M.
    eapply clean_not_marked; eauto.
Qed.
Lemma insert_at_root root l c root' : insert_at root l c = Ok root' -> t_name root' = t_name root /\ t_kind root' = t_kind root.
Proof.
  intros H. destruct (insert_at_inv _ _ _ _ H) as (t & Ht & _ & ->). destruct l; [|now destruct root].
  cbn in *. now injection Ht as ->.
Qed.
Definition rooted (root : tree) : Prop := good root /\ t_name root = ""%string /\ t_kind root = KRoot.
Lemma rooted_ref root : rooted root -> is_ref root = false.
Proof. intros (_ & _ & K). unfold is_ref. now rewrite K. Qed.
Lemma rooted_dot root : rooted root -> has_char "." (t_name root) = false.
Proof. intros (_ & -> & _). reflexivity. Qed.

Lemma rooted_insert_at root l c root' t : rooted root -> at_loc root l = Some t -> is_ref t = false -> good c ->
  name_ok (t_name c) = true -> insert_at root l c = Ok root' -> rooted root'.
Proof.
  intros (G & N & K) Ht R Gc Hn H. destruct (insert_at_root _ _ _ _ H) as [E1 E2]. split; [|split; congruence].
  exact (good_insert_at root l c root' t G Ht R Gc Hn H).
Qed.
Lemma rooted_new : rooted new_root.
Proof. split; [|now split]. apply good_leaf. reflexivity. Qed.

Lemma ensure_namespace_good root keys root' l : ensure_namespace root keys = Ok (root', l) -> rooted root -> Forall clean keys ->
  rooted root' /\ find_keys root' keys = Some l /\ exists t, at_loc root' l = Some t /\ is_ref t = false.
Proof.
  intros H G C. destruct (ensure_namespace_ok _ _ _ _ H) as [(-> & F & t & Ht & N)|(F & first & Hf & Hi & F')].
  - split; [exact G|]. split; [exact F|]. exists t. split; [exact Ht|]. unfold is_namespace, is_ref in *. now destruct (t_kind t).
  - destruct (find_last_not_ref keys root (proj1 G) (rooted_ref _ G) C) as (u & Hu & Ru & Cu).
    destruct (nest_good _ _ _ Hf Cu (NoDup_nil _) (Forall_nil _) (Forall_nil _)) as [G1 N1].
    assert (G' : rooted root') by exact (rooted_insert_at _ _ _ _ _ G Hu Ru G1 N1 Hi).
    split; [exact G'|]. split; [exact F'|].
    destruct (find_keys_loc keys root' l F') as (_ & t & Ht). exists t. split; [exact Ht|].
    eapply find_keys_not_ref; [exact (proj1 G')|apply rooted_ref; exact G'|exact C|exact F'|exact Ht].
Qed.

(** Appending a child at [l] changes no existing location *)
Lemma insert_at_old root l c root' l' u : insert_at root l c = Ok root' -> at_loc root l' = Some u ->
  exists u', at_loc root' l' = Some u' /\ t_name u' = t_name u /\ t_kind u' = t_kind u.
Proof.
  intros H Hu. destruct (insert_at_inv _ _ _ _ H) as (t & Ht & _ & ->).
  destruct (loc_cases l l') as [[m ->]|[[m [M ->]]|[H1 H2]]].
  - rewrite (modify_below _ l root t m Ht). rewrite at_loc_app, Ht in Hu. destruct m as [|i m]; cbn in *.
    + injection Hu as ->. eexists; split; [reflexivity|now split].
    + destruct (nth_error (t_children t) i) as [x|] eqn:Hx; [|discriminate].
      rewrite nth_error_app1 by (apply nth_error_Some; congruence). rewrite Hx. exists u. auto.
  - rewrite (modify_above _ m root l' u Hu). destruct (modify_name_kind m (fun _ => Node (t_name t) (t_kind t) (t_children t ++ [c])%list) u M).
    eexists; split; [reflexivity|auto].
  - rewrite modify_other by assumption. exists u. auto.
Qed.

Lemma create_definitions_ok so p keys ds : (forall l, Permutation (so l) l) -> create_definitions so p = Ok (keys, ds) -> namespace_clean p ->
  keys = split_on "." (pn_name p) /\ Forall clean keys /\ Forall good ds /\ Forall (fun c => name_ok (t_name c) = true) ds
  /\ NoDup (map t_name ds) /\ Forall (fun k => name_ok k = true) keys.
Proof.
  intros Hso H (C & Fc & Fs & Fe & Fa). unfold create_definitions in H. rewrite Forall_forall in Fc, Fs, Fe, Fa.
  destruct (match pn_name p with String "." _ => true | _ => false end); [discriminate|].
  apply bind_ok in H as (n & Hn & H). apply bind_ok in H as (t & Ht & H). injection H as <- <-.
  destruct (insert_all_good _ _ _ Ht) as [G K].
  - apply good_leaf. reflexivity.
  - reflexivity.
  - intros rc c Hin ->. repeat (apply in_app_or in Hin as [Hin|Hin]); apply in_map_iff in Hin as (x & Hx & Hin).
    + destruct (create_constant_good x c Hx (Fc x Hin)) as (G & _ & N). now split.
    + destruct (Fs x Hin) as [C1 C2]. destruct (create_structure_good x c Hx C1 C2) as (G & _ & N). now split.
    + destruct (Fe x Hin) as [C1 C2]. destruct (create_enumeration_good so x c Hso Hx C1 C2) as (G & _ & N). now split.
    + destruct (create_archive_good x c Hx (Fa x Hin)) as (G & _ & N). now split.
  - destruct (good_here _ G) as (ND & Fn & _). split; [reflexivity|]. split; [now apply split_clean|].
    split; [now apply good_children|]. split; [|split; [exact ND|]].
    + rewrite Forall_forall in *. intros x Hx. apply Fn. now apply in_map.
    + now destruct (nest_ok _ _ _ Hn) as (_ & _ & _ & _ & _ & F).
Qed.

Lemma merge_one_good root d root' : merge_one root d = Ok root' -> rooted root -> Forall clean (fst d) -> Forall good (snd d) ->
  Forall (fun c => name_ok (t_name c) = true) (snd d) -> rooted root'.
Proof.
  unfold merge_one. intros H G C Fg Fn. apply bind_ok in H as ([r1 l] & He & H).
  destruct (ensure_namespace_good _ _ _ _ He G C) as (G1 & _ & t & Ht & R).
  assert (I : rooted root' /\ exists u, at_loc root' l = Some u /\ is_ref u = false).
  { refine (foldM_inv (fun x => rooted x /\ exists u, at_loc x l = Some u /\ is_ref u = false) _ _ _ _ H _ _).
    - split; [exact G1|]. now exists t.
    - intros c Hc a a' (Ga & u & Hu & Ru) Ha. rewrite Forall_forall in Fg, Fn. split.
      + exact (rooted_insert_at _ _ _ _ _ Ga Hu Ru (Fg c Hc) (Fn c Hc) Ha).
      + destruct (insert_at_old _ _ _ _ _ _ Ha Hu) as (u' & Hu' & _ & K). exists u'. split; [exact Hu'|].
        rewrite (is_ref_kind_eq u u' K). exact Ru. }
  apply I.
Qed.
Lemma build_node_tree_good so s root : (forall l, Permutation (so l) l) -> schema_clean s -> build_node_tree so s = Ok root -> rooted root.
Proof.
  intros Hso C H. unfold build_node_tree in H. apply bind_ok in H as (ds & Hd & H). apply mapM_ok in Hd.
  refine (foldM_inv rooted _ _ _ _ H rooted_new _). intros d Hin a a' Ga Ha.
  assert (exists p, In p s /\ create_definitions so p = Ok d) as (p & Hp & Hpd).
  { clear - Hd Hin. induction Hd as [|p d' s ds E _ IH]; [contradiction|]. destruct Hin as [->|Hin].
    - exists p. split; [now left|exact E].
    - destruct (IH Hin) as (q & Hq & Eq). exists q. split; [now right|exact Eq]. }
  destruct d as [keys cs]. unfold schema_clean in C. rewrite Forall_forall in C.
  destruct (create_definitions_ok so p keys cs Hso Hpd (C p Hp)) as (_ & Ck & Fg & Fn & _).
  eapply merge_one_good; eauto.
Qed.
