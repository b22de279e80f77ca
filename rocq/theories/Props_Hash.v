(** C103: the order in which Python iterates sets makes no difference to what a schema is taken for. *)
From Coq Require Import List ZArith Bool String Ascii Lia Permutation.
From Verif Require Import PyBase PyText Spec GenSpec GenTypes GenTypesFacts GenTree GenTreeFacts GenBuild GenBuildFacts GenAstSpec Grammar GenAstThms GenMergeFacts AcceptSpec AcceptCreate Props_GenTree HashSpec.
Import ListNotations.
Local Open Scope Z_scope.

Section Agree.
  Variable R : exn -> exn -> Prop.
  Definition agree {A} (a b : res A) : Prop :=
    match a, b with Ok x, Ok y => x = y | Err x, Err y => x = y \/ R x y | _, _ => False end.
  Lemma agree_refl {A} (a : res A) : agree a a.
  Proof. destruct a; cbn; auto. Qed.
  Lemma agree_bind {A B} (a b : res A) (f g : A -> res B) : agree a b -> (forall x, agree (f x) (g x)) -> agree (bind a f) (bind b g).
  Proof. intros H Hf. destruct a, b; cbn in *; try contradiction; [subst; apply Hf|exact H]. Qed.
  Lemma agree_mapM {A B} (f g : A -> res B) l : (forall x, In x l -> agree (f x) (g x)) -> agree (mapM f l) (mapM g l).
  Proof.
    induction l as [|x l IH]; intros H; [apply agree_refl|]. cbn [mapM]. apply agree_bind; [apply H; now left|]. intros y.
    apply agree_bind; [apply IH; intros; apply H; now right|]. intros ys. apply agree_refl.
  Qed.
  Lemma agree_insert_all cs ds : Forall2 agree cs ds -> forall t, agree (insert_all t cs) (insert_all t ds).
  Proof.
    unfold insert_all. induction 1 as [|c d cs ds H F IH]; intros t; [apply agree_refl|]. cbn [foldM]. apply agree_bind; [|exact IH].
    apply agree_bind; [exact H|]. intros x. apply agree_refl.
  Qed.
  Lemma agree_same {A} (l : list (res A)) : Forall2 agree l l.
  Proof. induction l; constructor; [apply agree_refl|assumption]. Qed.
End Agree.

Lemma storage_basic ty w : storage_width ty = Some w -> In (ty, (name_signed ty, w)) basic_types.
Proof.
  intros H. pose proof (proj1 (basic_in ty) (ex_intro _ w H)) as B. apply in_map_iff in B as ([n [sg w']] & E & B). cbn in E. subst n.
  destruct (signed_name _ _ _ B) as (-> & Hw). rewrite H in Hw. now injection Hw as ->.
Qed.

Lemma enumeration_outcome so so' e : any_order so -> any_order so' ->
  agree (fun x y => about e x /\ about e y) (create_enumeration so e) (create_enumeration so' e).
Proof.
  intros Hso Hso'. unfold create_enumeration. apply agree_bind; [|intros; apply agree_refl]. unfold create_enum.
  destruct (make_btype (pe_type e) (option_map Z.of_N (pe_width e))) as [t|x] eqn:Ht; [|now left]. cbn [bind].
  destruct (assign_values (pe_name e) (pe_values e) 0 [] []) as [[seen children]|x] eqn:Ha; [|now left]. cbn [bind].
  destruct (_ <? _); [now left|]. apply agree_bind; [apply agree_refl|]. intros range. apply agree_bind; [apply agree_refl|]. intros cs.
  apply agree_bind; [|intros; apply agree_refl].
  assert (M : forall v, In v seen -> ~ representable (bt_width t) (bt_signed t) v -> misfit e v).
  { intros v Hv Hr. apply make_btype_ok in Ht as (st & Hst & -> & _). apply assign_ok in Ha as (ex & Hp & -> & _).
    exists (name_signed (pe_type e)), st, ex, (values_from 0 ex). split; [now apply storage_basic|]. split; [exact Hp|]. split; [apply values_from_numbered|].
    split; [exact Hv|]. cbn in Hr. destruct (pe_width e); exact Hr. }
  assert (X : forall o, any_order o -> (check_values (pe_name e) t (o seen) = Ok tt <-> Forall (representable (bt_width t) (bt_signed t)) seen)).
  { intros o Ho. rewrite check_values_ok. split; intros F; (eapply Permutation_Forall; [|exact F]); [apply Ho|apply Permutation_sym, Ho]. }
  assert (Y : forall o x, any_order o -> check_values (pe_name e) t (o seen) = Err x -> about e x).
  { intros o x Ho H. apply check_values_err in H as (v & Hv & Hr & H). exists v. split; [apply M; [eapply Permutation_in; [apply Ho|exact Hv]|exact Hr]|].
    destruct H as [(-> & _)|(-> & _)]; auto. }
  destruct (check_values (pe_name e) t (so seen)) as [[]|x] eqn:E.
  - rewrite (proj2 (X so' Hso') (proj1 (X so Hso) E)). apply agree_refl.
  - destruct (check_values (pe_name e) t (so' seen)) as [[]|y] eqn:E'.
    + rewrite (proj2 (X so Hso) (proj1 (X so' Hso') E')) in E. discriminate.
    + cbn. right. split; eauto.
Qed.

Lemma tree_outcome so so' s : any_order so -> any_order so' -> same_outcome s (build_node_tree so s) (build_node_tree so' s).
Proof.
  intros Hso Hso'. set (R := fun x y => exists p e, In p s /\ In e (pn_enumerations p) /\ about e x /\ about e y).
  change (agree R (build_node_tree so s) (build_node_tree so' s)). unfold build_node_tree. apply agree_bind; [|intros; apply agree_refl].
  apply agree_mapM. intros p Hp. unfold create_definitions. destruct (match pn_name p with String "." _ => true | _ => false end); [apply agree_refl|].
  apply agree_bind; [apply agree_refl|]. intros _. apply agree_bind; [|intros; apply agree_refl]. apply agree_insert_all.
  apply Forall2_app; [apply agree_same|]. apply Forall2_app; [apply agree_same|]. apply Forall2_app; [|apply agree_same].
  assert (W : forall es, incl es (pn_enumerations p) -> Forall2 (agree R) (map (create_enumeration so) es) (map (create_enumeration so') es)).
  { induction es as [|e es IH]; intros I; [constructor|]. constructor; [|apply IH; intros x Hx; apply I; now right].
    pose proof (enumeration_outcome so so' e Hso Hso') as H. unfold agree in *.
    destruct (create_enumeration so e), (create_enumeration so' e); try exact H. destruct H as [->|(A & B)]; [now left|]. right. exists p, e. split; [exact Hp|].
    split; [apply I; now left|auto]. }
  apply W, incl_refl.
Qed.

(** C103: whatever the order of sets, a schema is accepted as the same thing or refused for the same reason. *)
Theorem C103_outcome : forall so so' s, any_order so -> any_order so' -> same_outcome s (build_ast so s) (build_ast so' s).
Proof.
  intros so so' s Hso Hso'. unfold build_ast. pose proof (tree_outcome so so' s Hso Hso') as H.
  change (agree (fun x y => exists p e, In p s /\ In e (pn_enumerations p) /\ about e x /\ about e y) (build_node_tree so s) (build_node_tree so' s)) in H.
  apply (agree_bind _ _ _ _ _ H). intros x. apply agree_refl.
Qed.

(** C103: in particular it is accepted with every order or with none, and as the same thing. *)
Theorem C103_accepted : forall so so' s root, any_order so -> any_order so' -> build_ast so s = Ok root -> build_ast so' s = Ok root.
Proof.
  intros so so' s root Hso Hso' H. pose proof (C103_outcome so so' s Hso Hso') as X. rewrite H in X. cbn in X.
  destruct (build_ast so' s); [now subst|contradiction].
Qed.

(** C103: the same from the text of the schema, for all texts. *)
Theorem C103_text : forall so so' text, any_order so -> any_order so' ->
  (forall root, build_text so text = Ok root <-> build_text so' text = Ok root)
  /\ (forall s, parse_schema text = Ok s -> same_outcome s (build_text so text) (build_text so' text)).
Proof.
  intros so so' text Hso Hso'. unfold build_text. split.
  - intros root. destruct (parse_schema text) as [s|]; [|reflexivity]. cbn [bind]. split; now apply C103_accepted.
  - intros s ->. cbn [bind]. now apply C103_outcome.
Qed.

(** ** Instances: a schema with an enumeration, and one with two numbers that do not fit, of which either may be reported *)
Definition backwards (l : list Z) : list Z := rev l.
Lemma backwards_any : any_order backwards.
Proof. intros l. apply Permutation_sym, Permutation_rev. Qed.
Definition good_text : string := "namespace n { enum E : u8 : 2 { A, B = 3 } struct S { x : E; } }".
Definition bad_text : string := "namespace n { enum E : u8 : 2 { A = 9, B = 17 } struct S { x : E; } }".
Example C103_instance : any_order same_order /\ any_order backwards
  /\ (exists root, build_text same_order good_text = Ok root /\ build_text backwards good_text = Ok root)
  /\ build_text same_order bad_text = Err (InvalidEnumValueError "E" 9) /\ build_text backwards bad_text = Err (InvalidEnumValueError "E" 17).
Proof.
  split; [exact same_order_any|]. split; [exact backwards_any|]. split.
  - destruct (build_text same_order good_text) as [root|] eqn:E.
    + exists root. split; [reflexivity|]. exact (proj1 (proj1 (C103_text same_order backwards good_text same_order_any backwards_any) root) E).
    + exfalso. assert (X : is_ok (build_text same_order good_text) = true) by (vm_compute; reflexivity). rewrite E in X. discriminate.
  - split; vm_compute; reflexivity.
Qed.
(** and one value of an enumeration that does not fit *)
Example C103_about : about (PEnum "E" "u8" (Some 2%N) [("A", Some "9"); ("B", Some "17")])%string (InvalidEnumValueError "E" 17).
Proof.
  exists 17. split; [|now left]. exists false, 8, [Some 9; Some 17], [9; 17]. split; [cbn; auto|]. split; [repeat constructor; vm_compute; reflexivity|].
  split; [split; [reflexivity|]; intros [|[|[|i]]] v; cbn; intros H; try discriminate; now injection H as <-|]. split; [cbn; auto|]. cbn. lia.
Qed.

Print Assumptions C103_outcome.
Print Assumptions C103_accepted.
Print Assumptions C103_text.
