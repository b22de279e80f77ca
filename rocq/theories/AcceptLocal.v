(** Untyped fields of the declared tree name exactly one enumeration, typed ones none; the type of an enumeration is a basic type. *)
From Coq Require Import List ZArith Bool String Ascii Lia.
From Verif Require Import PyBase PyText GenTypes GenTypesFacts GenTree GenTreeFacts GenTraversal GenBuild GenBuildFacts GenPassFacts GenAstFacts
  GenAstSpec GenLayoutFacts GenMergeFacts GenShapeFacts GenLimitFacts.
Import ListNotations.
Local Open Scope Z_scope.

Definition fk (k : kind) (ks : list kind) : Prop :=
  match k with
  | KField _ (Some _) _ => filter is_enum_ref ks = []
  | KField _ None _ => exists w, filter is_enum_ref ks = [KRef (REnum w)]
  | KEnum b => make_btype (bt_name b) (Some (bt_width b)) = Ok b
  | _ => True
  end.
Notation enumed := (local fk).

Lemma fk_snoc k ks c : fk k ks -> is_enum_ref c = false -> fk k (ks ++ [c]).
Proof.
  intros H E. destruct k as [| | |sz|rg [ty|] o|b| | | | |]; cbn in *; auto; rewrite filter_app; cbn; rewrite E, app_nil_r; exact H.
Qed.
Lemma enumed_insert t c t' : insert t c = Ok t' -> enumed t -> enumed c -> is_enum_ref (t_kind c) = false -> enumed t'.
Proof.
  intros H L Lc E. unfold insert in H. destruct (child_pos _ _); [discriminate|]. injection H as <-. apply local_intro.
  - rewrite map_app. cbn. apply fk_snoc; [exact (L [] t eq_refl)|exact E].
  - intros x Hx. apply in_app_or in Hx as [Hx|[<-|[]]]; [exact (local_children _ _ _ L Hx)|exact Lc].
Qed.
Lemma enumed_insert_at root l c root' : insert_at root l c = Ok root' -> enumed root -> enumed c -> is_enum_ref (t_kind c) = false -> enumed root'.
Proof.
  intros H L Lc E. destruct (insert_at_inv _ _ _ _ H) as (t & Ht & _ & _). apply (local_insert_at _ _ _ _ _ t H Ht L Lc). apply fk_snoc; [exact (L _ _ Ht)|exact E].
Qed.
Lemma enumed_insert_all cs : forall t t', insert_all t cs = Ok t' -> enumed t -> (forall rc c, In rc cs -> rc = Ok c -> enumed c /\ is_enum_ref (t_kind c) = false) -> enumed t'.
Proof.
  intros t t' H G Hc. unfold insert_all in H. refine (foldM_inv enumed _ _ _ _ H G _).
  intros rc Hin a a' Ga E. apply bind_ok in E as (c & -> & E). destruct (Hc (Ok c) c Hin eq_refl). exact (enumed_insert a c a' E Ga H0 H1).
Qed.
Lemma enumed_leaf n k t : make_node n k = Ok t -> fk k [] -> enumed t.
Proof. apply local_leaf. Qed.
Lemma ref_enumed r n t : make_ref r n = Ok t -> enumed t /\ t_kind t = KRef r.
Proof. intros H. split; [exact (enumed_leaf _ _ _ H I)|]. apply make_node_ok in H as (_ & ->). reflexivity. Qed.
Lemma refs_enumed r ns : (forall w, r <> REnum w) -> forall rc c, In rc (map (make_ref r) ns) -> rc = Ok c -> enumed c /\ is_enum_ref (t_kind c) = false.
Proof.
  intros N rc c Hin E. apply in_map_iff in Hin as (n & <- & _). destruct (ref_enumed _ _ _ E) as (A & K). split; [exact A|]. rewrite K. destruct r; try reflexivity. now destruct (N width).
Qed.
Lemma constant_enumed p t : create_constant p = Ok t -> enumed t.
Proof. unfold create_constant. intros H. apply bind_ok in H as (a & _ & H). apply bind_ok in H as (v & _ & H). injection H as <-. apply local_intro; [exact I|intros c []]. Qed.
Lemma field_enumed p t : create_field p = Ok t -> enumed t.
Proof.
  unfold create_field. intros H. apply bind_ok in H as (a & Ha & H). apply bind_ok in H as (b & Hb & H). apply make_node_ok in Ha as (_ & ->).
  assert (Fb : t_kind b = KField (first_range (pf_decs p)) None None /\ Forall (fun c => enumed c /\ is_enum_ref (t_kind c) = false) (t_children b)).
  { refine (foldM_inv (fun b => t_kind b = KField (first_range (pf_decs p)) None None /\ Forall (fun c => enumed c /\ is_enum_ref (t_kind c) = false) (t_children b)) _ _ _ _ Hb _ _); [split; [reflexivity|constructor]|].
    intros d _ x x' (Kx & Fx) E. destruct d; [now injection E as <-| |];
    (apply bind_ok in E as (c & Hc & E); unfold insert in E; destruct (child_pos _ _); [discriminate|]; injection E as <-; cbn; split; [exact Kx|];
     apply Forall_app; split; [exact Fx|]; constructor; [|constructor]; destruct (ref_enumed _ _ _ Hc) as (A & K); split; [exact A|now rewrite K]). }
  destruct Fb as (Kb & Fb). assert (Ef : filter is_enum_ref (map t_kind (t_children b)) = []).
  { clear -Fb. induction Fb as [|c cs (_ & E) _ IH]; [reflexivity|]. cbn. now rewrite E. }
  rewrite Forall_forall in Fb. destruct (is_basic_type _).
  - apply bind_ok in H as (bt & _ & H). injection H as <-. apply local_intro; [exact Ef|]. intros c Hc. now apply Fb.
  - apply bind_ok in H as (c & Hc & H). destruct (ref_enumed _ _ _ Hc) as (A & K). unfold insert in H. destruct (child_pos _ _); [discriminate|]. injection H as <-. apply local_intro.
    + rewrite Kb, map_app. cbn. rewrite filter_app, Ef, K. cbn. eauto.
    + intros x Hx. apply in_app_or in Hx as [Hx|[<-|[]]]; [now apply Fb|exact A].
Qed.
Lemma structure_enumed p t : create_structure p = Ok t -> enumed t.
Proof.
  unfold create_structure. intros H. apply bind_ok in H as (a & Ha & H). apply (enumed_insert_all _ _ _ H (enumed_leaf _ _ _ Ha I)).
  intros rc c Hin E. apply in_map_iff in Hin as (f & <- & _). split; [now apply field_enumed in E|]. destruct (field_shaped true _ _ E) as (_ & x & y & z & ->). reflexivity.
Qed.
Lemma enum_again ty w b : make_btype ty w = Ok b -> make_btype (bt_name b) (Some (bt_width b)) = Ok b.
Proof.
  unfold make_btype. destruct (storage_width ty) as [s|] eqn:Es; [|discriminate]. destruct (_ >? s) eqn:G; [discriminate|]. intros [= <-]. cbn. now rewrite Es, G.
Qed.
Lemma enumeration_enumed so p t : create_enumeration so p = Ok t -> enumed t.
Proof.
  unfold create_enumeration. intros H. apply bind_ok in H as ([b vs] & Hc & H). apply bind_ok in H as (a & _ & H). apply bind_ok in H as (cs & Hcs & H).
  injection H as <-. apply local_intro.
  - cbn. unfold create_enum in Hc. apply bind_ok in Hc as (b' & Hb & Hc). apply bind_ok in Hc as ([seen ch] & _ & Hc). destruct (_ <? _) in Hc; [discriminate|].
    apply bind_ok in Hc as (range & _ & Hc). apply bind_ok in Hc as (ch' & _ & Hc). apply bind_ok in Hc as (q & _ & Hc). destruct seen; [discriminate|]. injection Hc as <- _.
    exact (enum_again _ _ _ Hb).
  - intros c Hc0. destruct (mapM_in _ _ _ _ Hcs Hc0) as (v & _ & E). exact (enumed_leaf _ _ _ E I).
Qed.
Lemma explicit_enumed a b c t : create_explicit a b c = Ok t -> enumed t.
Proof.
  unfold create_explicit. intros H. apply bind_ok in H as (x & Hx & H). apply (enumed_insert_all _ _ _ H (enumed_leaf _ _ _ Hx I)).
  intros rc d [<-|[<-|[<-|[]]]] E; destruct (ref_enumed _ _ _ E) as (A & K); (split; [exact A|now rewrite K]).
Qed.
Lemma resource_enumed p t : create_resource p = Ok t -> enumed t.
Proof.
  unfold create_resource. intros H. apply bind_ok in H as (a & Ha & H). apply bind_ok in H as (b & Hb & H).
  assert (Fb : enumed b).
  { refine (foldM_inv enumed _ _ _ _ Hb (enumed_leaf _ _ _ Ha I) _). intros d _ x x' Fx E. destruct d; [|now injection E as <-].
    apply bind_ok in E as (c & Hc & E). apply (enumed_insert _ _ _ E Fx (explicit_enumed _ _ _ _ Hc)). destruct (explicit_shaped true _ _ _ _ Hc) as (_ & ->). reflexivity. }
  apply (enumed_insert_all _ _ _ H Fb). intros rc c Hin E. destruct (pr_type p); try (apply (refs_enumed RStructure types) with (rc := rc); [discriminate|exact Hin|exact E]); cbn in Hin;
    repeat (destruct Hin as [<-|Hin]; [destruct (ref_enumed _ _ _ E) as (A & K); (split; [exact A|now rewrite K])|]); contradiction.
Qed.
Lemma bound_enumed b t : create_bound b = Ok t -> enumed t.
Proof.
  unfold create_bound. intros H. apply bind_ok in H as (a & Ha & H). apply (enumed_insert_all _ _ _ H (enumed_leaf _ _ _ Ha I)). apply refs_enumed. discriminate.
Qed.
Lemma archive_enumed p t : create_archive p = Ok t -> enumed t.
Proof.
  unfold create_archive. intros H. apply bind_ok in H as (a & Ha & H). apply bind_ok in H as (b & Hb & H).
  apply (enumed_insert_all _ _ _ H).
  - apply (enumed_insert_all _ _ _ Hb (enumed_leaf _ _ _ Ha I)). intros rc c Hin E. apply in_map_iff in Hin as (f & <- & _). split; [now apply resource_enumed in E|].
    destruct (resource_shaped true _ _ E) as (_ & x & y & z & ->). reflexivity.
  - intros rc c Hin E. apply in_map_iff in Hin as (f & <- & _). split; [now apply bound_enumed in E|]. destruct (bound_shaped true _ _ E) as (_ & x & y & z & ->). reflexivity.
Qed.
Lemma nest_enumed ks : forall t, nest ks [] = Ok t -> enumed t.
Proof.
  induction ks as [|k ks IH]; intros t H; [discriminate|]. destruct ks as [|k' ks].
  - cbn in H. apply bind_ok in H as (a & _ & H). injection H as <-. apply local_intro; [exact I|intros c []].
  - change (nest (k :: k' :: ks) []) with (t0 <- make_node k KNamespace ;; c <- nest (k' :: ks) [] ;; Ok (Node (t_name t0) KNamespace [c])) in H.
    apply bind_ok in H as (a & _ & H). apply bind_ok in H as (c & H1 & H). injection H as <-. apply local_intro; [exact I|].
    intros x [<-|[]]. exact (IH _ H1).
Qed.
Lemma definitions_enumed so p ks ds : create_definitions so p = Ok (ks, ds) -> forall d, In d ds -> enumed d.
Proof.
  unfold create_definitions. destruct (match pn_name p with String "." _ => true | _ => false end); [discriminate|]. intros H.
  apply bind_ok in H as (a & _ & H). apply bind_ok in H as (t & Ht & H). injection H as _ <-. intros d Hd.
  refine (local_children _ t d _ Hd). apply (enumed_insert_all _ _ _ Ht); [apply local_intro; [exact I|intros c []]|].
  intros rc c Hin E. repeat (apply in_app_or in Hin as [Hin|Hin]); apply in_map_iff in Hin as (x & <- & _).
  - split; [now apply constant_enumed in E|]. destruct (constant_shaped true _ _ E) as (_ & u & v & ->). reflexivity.
  - split; [now apply structure_enumed in E|]. destruct (structure_shaped true _ _ E) as (_ & ->). reflexivity.
  - split; [now apply enumeration_enumed in E|]. destruct (enumeration_shaped true _ _ _ E) as (_ & u & ->). reflexivity.
  - split; [now apply archive_enumed in E|]. destruct (archive_shaped true _ _ E) as (_ & ->). reflexivity.
Qed.
Lemma ensure_namespace_enumed root ks root' l : ensure_namespace root ks = Ok (root', l) -> enumed root -> enumed root'.
Proof.
  intros H F. apply ensure_namespace_ok in H as [(-> & _)|(_ & first & Hn & Hi & _)]; [exact F|]. apply (enumed_insert_at _ _ _ _ Hi F (nest_enumed _ _ Hn)).
  destruct (nest_shaped true _ _ Hn) as (_ & ->). reflexivity.
Qed.
Lemma build_node_tree_enumed so s root : build_node_tree so s = Ok root -> enumed root.
Proof.
  unfold build_node_tree. intros H. apply bind_ok in H as (ds & Hds & H). refine (foldM_inv enumed _ _ _ _ H _ _).
  - apply local_intro; [exact I|intros c []].
  - intros [ks cs] Hin a a' Fa E. unfold merge_one in E. apply bind_ok in E as ([r l] & He & E). cbn [fst snd] in *.
    refine (foldM_inv enumed _ _ _ _ E _ _); [exact (ensure_namespace_enumed _ _ _ _ He Fa)|].
    intros c Hc x x' Fx Ex. destruct (mapM_in _ _ _ _ Hds Hin) as (p & _ & Ep). apply (enumed_insert_at _ _ _ _ Ex Fx (definitions_enumed _ _ _ _ Ep c Hc)).
    pose proof (definitions_shaped true _ _ _ _ Ep) as D. rewrite Forall_forall in D. destruct (D c Hc) as (_ & K). now destruct (t_kind c).
Qed.
Lemma append_builtins_enumed root root' : append_builtins root = Ok root' -> enumed root -> enumed root'.
Proof.
  unfold append_builtins. intros H F. refine (foldM_inv enumed _ _ _ _ H F _). intros l _ a a' Fa E. unfold append_builtin in E.
  destruct (at_loc a l) as [[n k cs]|]; [|discriminate]. destruct k; try discriminate. destruct rk; try discriminate.
  destruct (names_at a (parent_loc (parent_loc l))) as [[|x keys]|]; try discriminate.
  apply bind_ok in E as ([r1 ns] & E1 & E). apply bind_ok in E as (b & Hb & E). apply bind_ok in E as (r2 & E2 & E).
  assert (F1 := ensure_namespace_enumed _ _ _ _ E1 Fa).
  assert (F2 : enumed r2).
  { destruct (at_loc r1 ns) as [nn|]; [|discriminate]. destruct (find_relative nn (t_name b)); [now injection E2 as <-|].
    apply (enumed_insert_at _ _ _ _ E2 F1 (structure_enumed _ _ Hb)). destruct (structure_shaped true _ _ Hb) as (_ & ->). reflexivity. }
  destruct (path_at r2 ns) as [p|]; [|discriminate]. apply bind_ok in E as (r & Hr & E). destruct (ref_enumed _ _ _ Hr) as (A & K).
  apply (enumed_insert_at _ _ _ _ E F2 A). now rewrite K.
Qed.
Theorem declared_enumed so s r : declared_tree so s = Ok r -> enumed r.
Proof. unfold declared_tree. intros H. apply bind_ok in H as (r1 & H1 & H). exact (append_builtins_enumed _ _ H (build_node_tree_enumed _ _ _ H1)). Qed.
