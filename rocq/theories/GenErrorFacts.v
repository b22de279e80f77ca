(** Only the resolver reports missing symbols. *)
From Coq Require Import List ZArith Bool String Ascii Lia Permutation.
From Verif Require Import PyBase PyText GenTypes GenTypesFacts GenTree GenTreeFacts GraphSpec GenTraversal GenTraversalFacts
  GenBuild GenBuildFacts.
Import ListNotations.
Local Open Scope Z_scope.

Definition quiet {A} (r : res A) : Prop := forall n, r <> Err (MissingSymbol n).
Lemma quiet_ok {A} (a : A) : quiet (Ok a). Proof. intros n; discriminate. Qed.
Lemma quiet_bind {A B} (r : res A) (f : A -> res B) : quiet r -> (forall a, quiet (f a)) -> quiet (bind r f).
Proof. intros H F. destruct r as [a|e]; cbn; [apply F|]. intros n E. injection E as ->. now apply (H n). Qed.
Lemma quiet_foldM {A B} (f : A -> B -> res A) l : (forall a b, quiet (f a b)) -> forall a, quiet (foldM f a l).
Proof. intros F. induction l as [|x l IH]; intros a; cbn; [apply quiet_ok|]. apply quiet_bind; auto. Qed.
Lemma quiet_mapM {A B} (f : A -> res B) l : (forall a, quiet (f a)) -> quiet (mapM f l).
Proof. intros F. induction l as [|x l IH]; cbn; [apply quiet_ok|]. apply quiet_bind; [apply F|]. intros y. apply quiet_bind; [exact IH|]. intros ys. apply quiet_ok. Qed.
Create HintDb quiet.
Ltac qt :=
  repeat first
    [ assumption
    | solve [auto with quiet nocore]
    | apply quiet_ok
    | match goal with |- quiet (bind _ _) => apply quiet_bind; [|intros ?] end
    | match goal with |- quiet (foldM _ _ _) => apply quiet_foldM; intros ? ? end
    | match goal with |- quiet (mapM _ _) => apply quiet_mapM; intros ? end
    | match goal with |- quiet (match ?x with _ => _ end) => destruct x end
    | match goal with |- quiet (Err _) => intros ? ?; discriminate end ].

Lemma quiet_make_node n k : quiet (make_node n k). Proof. unfold make_node. qt. Qed.
#[export] Hint Resolve quiet_make_node : quiet.
Lemma quiet_insert t c : quiet (insert t c). Proof. unfold insert. qt. Qed.
#[export] Hint Resolve quiet_insert : quiet.
Lemma quiet_insert_at t l c : quiet (insert_at t l c). Proof. unfold insert_at. qt. Qed.
#[export] Hint Resolve quiet_insert_at : quiet.
Lemma quiet_make_ref r n : quiet (make_ref r n). Proof. unfold make_ref. qt. Qed.
#[export] Hint Resolve quiet_make_ref : quiet.
Lemma quiet_insert_all t cs : (forall rc, In rc cs -> quiet rc) -> quiet (insert_all t cs).
Proof.
  unfold insert_all. revert t. induction cs as [|c cs IH]; intros t H; cbn; [apply quiet_ok|]. apply quiet_bind; [|intros a; apply IH; intros; apply H; now right].
  apply quiet_bind; [apply H; now left|intros a; qt].
Qed.
Lemma quiet_insert_map {X} t (f : X -> res tree) xs : (forall x, quiet (f x)) -> quiet (insert_all t (map f xs)).
Proof. intros H. apply quiet_insert_all. intros rc Hin. apply in_map_iff in Hin as (x & <- & _). apply H. Qed.
Lemma quiet_btype n w : quiet (make_btype n w). Proof. unfold make_btype. qt. Qed.
#[export] Hint Resolve quiet_btype : quiet.
Lemma quiet_bits b v : quiet (bits_required b v). Proof. unfold bits_required. qt. Qed.
#[export] Hint Resolve quiet_bits : quiet.
Lemma quiet_int0 s : quiet (py_int0 s). Proof. unfold py_int0. qt. Qed.
#[export] Hint Resolve quiet_int0 : quiet.
Lemma quiet_constant p : quiet (create_constant p). Proof. unfold create_constant, make_constant. qt. Qed.
#[export] Hint Resolve quiet_constant : quiet.
Lemma quiet_field p : quiet (create_field p). Proof. unfold create_field. qt. Qed.
#[export] Hint Resolve quiet_field : quiet.
Lemma quiet_structure p : quiet (create_structure p). Proof. unfold create_structure. qt. apply quiet_insert_map. intros; qt. Qed.
#[export] Hint Resolve quiet_structure : quiet.
Lemma quiet_enum so a b c d : quiet (create_enum so a b c d).
Proof.
  unfold create_enum.
  assert (A : forall vals n cur seen ch, quiet (assign_values n vals cur seen ch)).
  { induction vals as [|[x [y|]] vals IH]; intros; cbn; unfold insert_ev; qt; apply IH. }
  qt. all: unfold value_range, add_missing, check_values, insert_ev; qt.
Qed.
#[export] Hint Resolve quiet_enum : quiet.
Lemma quiet_enumeration so p : quiet (create_enumeration so p). Proof. unfold create_enumeration. qt. Qed.
#[export] Hint Resolve quiet_enumeration : quiet.
Lemma quiet_explicit a b c : quiet (create_explicit a b c).
Proof. unfold create_explicit. qt. apply quiet_insert_all. intros rc [<-|[<-|[<-|[]]]]; qt. Qed.
#[export] Hint Resolve quiet_explicit : quiet.
Lemma quiet_resource p : quiet (create_resource p).
Proof.
  unfold create_resource. qt. apply quiet_insert_all. intros rc H. destruct (pr_type p); cbn in H; repeat (destruct H as [<-|H]; [qt|]); try contradiction.
  apply in_map_iff in H as (x & <- & _). qt.
Qed.
#[export] Hint Resolve quiet_resource : quiet.
Lemma quiet_bound p : quiet (create_bound p). Proof. unfold create_bound. qt. apply quiet_insert_map. intros; qt. Qed.
#[export] Hint Resolve quiet_bound : quiet.
Lemma quiet_archive p : quiet (create_archive p). Proof. unfold create_archive. qt. all: apply quiet_insert_map; intros; qt. Qed.
#[export] Hint Resolve quiet_archive : quiet.
Lemma quiet_nest ks cs : quiet (nest ks cs).
Proof.
  revert cs. induction ks as [|k ks IH]; intros cs; [cbn; qt|]. destruct ks as [|k' ks]; [cbn; qt|].
  change (nest (k :: k' :: ks) cs) with (t0 <- make_node k KNamespace ;; c <- nest (k' :: ks) cs ;; Ok (Node (t_name t0) KNamespace [c])). qt.
Qed.
#[export] Hint Resolve quiet_nest : quiet.
Lemma quiet_ensure r ks : quiet (ensure_namespace r ks). Proof. unfold ensure_namespace. qt. Qed.
#[export] Hint Resolve quiet_ensure : quiet.
Lemma quiet_definitions so p : quiet (create_definitions so p).
Proof.
  unfold create_definitions. qt. apply quiet_insert_all. intros rc H. repeat (apply in_app_or in H as [H|H]); apply in_map_iff in H as (x & <- & _); qt.
Qed.
#[export] Hint Resolve quiet_definitions : quiet.
Lemma quiet_build so s : quiet (build_node_tree so s). Proof. unfold build_node_tree, merge_one. qt. Qed.
#[export] Hint Resolve quiet_build : quiet.
Lemma quiet_builtins r : quiet (append_builtins r).
Proof. unfold append_builtins, append_builtin, builtin_structure. qt. Qed.
#[export] Hint Resolve quiet_builtins : quiet.
Lemma quiet_ref_loc r t : quiet (ref_loc r t). Proof. unfold ref_loc. qt. Qed.
#[export] Hint Resolve quiet_ref_loc : quiet.
Lemma quiet_constants r : quiet (append_constants r). Proof. unfold append_constants. qt. Qed.
Lemma quiet_ranges r : quiet (check_ranges r). Proof. unfold check_ranges, check_range, check_range_ref. qt. Qed.
Lemma quiet_types r : quiet (update_field_types r). Proof. unfold update_field_types, update_field. qt. Qed.
Lemma quiet_kids r l : quiet (kids r l). Proof. unfold kids. qt. Qed.
#[export] Hint Resolve quiet_kids quiet_constants quiet_ranges quiet_types : quiet.
Lemma quiet_limits r : quiet (compute_max_sizes r).
Proof. unfold compute_max_sizes, limit_one, explicit_field, explicit_destination, only. qt. Qed.
Lemma quiet_consts r : quiet (check_const_refs r). Proof. unfold check_const_refs, check_const_refs_at, check_const_ref. qt. Qed.
Lemma quiet_explicits r : quiet (check_explicits r). Proof. unfold check_explicits, check_explicit. qt. Qed.
#[export] Hint Resolve quiet_limits quiet_consts quiet_explicits : quiet.
Lemma quiet_layout cs : forall o, quiet (layout o cs).
Proof. induction cs as [|c cs IH]; intros o; cbn; qt; apply IH. Qed.
#[export] Hint Resolve quiet_layout : quiet.
Lemma quiet_push {N} (dec : forall x y : N, {x = y} + {x <> y}) rcs disc proc : forall stk, quiet (push_kids dec rcs disc proc stk).
Proof. induction rcs as [|c cs IH]; intros stk; cbn; qt. Qed.
Lemma quiet_loop r f : forall st x, dfs_loop loc_eq_dec (kids r) f st = Some x -> quiet x.
Proof.
  induction f as [|f IH]; intros st x E; cbn in E; destruct (d_stack st) as [|[n b] stk].
  { injection E as <-. apply quiet_ok. } { discriminate. } { injection E as <-. apply quiet_ok. }
  destruct (dfs_step loc_eq_dec (kids r) st n b stk) as [s'|e] eqn:Es; [exact (IH _ _ E)|]. injection E as <-.
  assert (Q : quiet (dfs_step loc_eq_dec (kids r) st n b stk)) by (unfold dfs_step; qt; apply quiet_push). rewrite Es in Q. intros m Em. apply (Q m). injection Em as ->. reflexivity.
Qed.
Lemma quiet_order r : quiet (tree_order r).
Proof.
  unfold tree_order, dependency_order. destruct (dfs loc_eq_dec (kids r) (fuel_for r) []) as [x|] eqn:E; cbn; [|qt]. apply quiet_bind; [|intros; qt]. exact (quiet_loop _ _ _ _ E).
Qed.
Lemma quiet_sizes r : quiet (compute_sizes r).
Proof. unfold compute_sizes, size_structure. qt. apply quiet_order. Qed.
#[export] Hint Resolve quiet_sizes : quiet.

(** A missing symbol is reported by the resolver *)
Lemma build_missing so s n : build_ast so s = Err (MissingSymbol n) ->
  exists r1 r2, build_node_tree so s = Ok r1 /\ append_builtins r1 = Ok r2 /\ resolve_references r2 = Err (MissingSymbol n).
Proof.
  unfold build_ast. intros H. pose proof (quiet_build so s) as Q1. destruct (build_node_tree so s) as [r1|e]; [|cbn in H; injection H as ->; now destruct (Q1 n)]. cbn in H.
  pose proof (quiet_builtins r1) as Q2. destruct (append_builtins r1) as [r2|e] eqn:E2; [|cbn in H; injection H as ->; now destruct (Q2 n)]. cbn in H.
  exists r1, r2. split; [reflexivity|]. split; [exact E2|]. destruct (resolve_references r2) as [r3|e]; [|exact H]. exfalso. cbn in H. revert H.
  refine ((_ : quiet _) n). qt.
Qed.
