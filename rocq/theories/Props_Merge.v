(** C47, for whole schemas: how the definitions of a namespace are spread over its declarations makes no difference to which
    declarations are valid, nor to what is defined. *)
From Coq Require Import List ZArith Bool String Ascii Lia Permutation.
From Verif Require Import PyBase PyText Spec GenSpec GenTypes GenTypesFacts GenTree GenTreeFacts GenBuild GenBuildFacts GenAstSpec GenAstThms GenMergeFacts
  Props_GenTree Props_GenOutput DeclSpec Props_Decl GenPassFacts GenAstFacts GenShapeFacts GenTidy GenWords AcceptSpec Props_Accept MergeBuiltins MergeNames.
Import ListNotations.
Local Open Scope list_scope.
Local Open Scope Z_scope.

Lemma def_names_merged p q : Permutation.Permutation (def_names (merged p q)) (def_names p ++ def_names q).
Proof.
  unfold def_names, merged. cbn. rewrite !map_app.
  set (a := map pc_name (pn_constants p)). set (a' := map pc_name (pn_constants q)). set (b := map ps_name (pn_structures p)). set (b' := map ps_name (pn_structures q)).
  set (c := map pe_name (pn_enumerations p)). set (c' := map pe_name (pn_enumerations q)). set (d := map pa_name (pn_archives p)). set (d' := map pa_name (pn_archives q)).
  assert (Sh : forall x x' y y' : list string, Permutation.Permutation ((x ++ x') ++ (y ++ y')) ((x ++ y) ++ (x' ++ y'))).
  { intros x x' y y'. rewrite <- !app_assoc. apply Permutation.Permutation_app_head. rewrite !app_assoc. apply Permutation.Permutation_app_tail. apply Permutation.Permutation_app_comm. }
  rewrite (Sh c c' d d'), (Sh b b' (c ++ d) (c' ++ d')). apply Sh.
Qed.

Section M.
  Variables (a : pschema) (p : pnamespace) (b : pschema) (q : pnamespace) (c : pschema).
  Notation spread := (a ++ p :: b ++ q :: c).
  Notation joined := (a ++ merged p q :: b ++ c).
  Hypothesis E : pn_name p = pn_name q.

  Lemma in_spread x : In x spread <-> In x a \/ x = p \/ In x b \/ x = q \/ In x c.
  Proof. rewrite in_app_iff. cbn [In]. rewrite in_app_iff. cbn [In]. intuition auto. Qed.
  Lemma in_joined x : In x joined <-> In x a \/ x = merged p q \/ In x b \/ In x c.
  Proof. rewrite in_app_iff. cbn [In]. rewrite in_app_iff. intuition auto. Qed.
  Lemma keys_merged : ns_keys (merged p q) = ns_keys p.
  Proof. reflexivity. Qed.
  Lemma keys_q : ns_keys q = ns_keys p.
  Proof. unfold ns_keys. now rewrite E. Qed.
  Lemma def_merged n : In n (def_names (merged p q)) <-> In n (def_names p) \/ In n (def_names q).
  Proof. unfold def_names, merged. cbn. rewrite !map_app, !in_app_iff. tauto. Qed.
  Lemma mentioned_merged n : In n (mentioned (merged p q)) <-> In n (mentioned p) \/ In n (mentioned q).
  Proof. unfold mentioned, namespace_names, merged. cbn [pn_name pn_constants pn_structures pn_enumerations pn_archives In]. rewrite !map_app, !flat_map_app, !in_app_iff. cbn [In]. rewrite !in_app_iff. rewrite <- E. tauto. Qed.

  Lemma separated_joined : separated spread -> separated joined.
  Proof.
    intros S.
    assert (X : forall x n, In x joined -> In n (def_names x) -> exists y, In y spread /\ In n (def_names y) /\ ns_keys y = ns_keys x).
    { intros x n Hx Hn. apply in_joined in Hx as [Hx|[->|[Hx|Hx]]]; [|apply def_merged in Hn as [Hn|Hn]| |]; [exists x|exists p|exists q|exists x|exists x]; (split; [apply in_spread; tauto|split; [exact Hn|]]); try reflexivity. apply keys_q. }
    assert (Y : forall x, In x joined -> exists y, In y spread /\ ns_keys y = ns_keys x).
    { intros x Hx. apply in_joined in Hx as [Hx|[->|[Hx|Hx]]]; [exists x|exists p|exists x|exists x]; (split; [apply in_spread; tauto|reflexivity]). }
    intros x y n m Hx Hy Hn. destruct (X x n Hx Hn) as (x' & Hx' & Hn' & <-). destruct (Y y Hy) as (y' & Hy' & <-). exact (S x' y' n m Hx' Hy' Hn').
  Qed.
  Lemma identifiers_joined : identifiers spread -> identifiers joined.
  Proof.
    intros I x n Hx Hn. apply in_joined in Hx as [Hx|[->|[Hx|Hx]]]; [|apply mentioned_merged in Hn as [Hn|Hn]| |]; [apply (I x)|apply (I p)|apply (I q)|apply (I x)|apply (I x)]; try exact Hn; apply in_spread; tauto.
  Qed.
  Lemma no_builtin_joined : no_builtin spread -> no_builtin joined.
  Proof.
    intros N x Hx. apply in_joined in Hx as [Hx|[->|[Hx|Hx]]]; [apply N; apply in_spread; tauto| |apply N; apply in_spread; tauto|apply N; apply in_spread; tauto].
    destruct (N p ltac:(apply in_spread; tauto)) as (A & B). destruct (N q ltac:(apply in_spread; tauto)) as (_ & D). split; [exact A|]. rewrite def_merged. tauto.
  Qed.
End M.

(** The declarations are valid by themselves in both or in neither *)
Theorem C47_declarations : forall a p b q c, pn_name p = pn_name q -> (declarations_valid (a ++ p :: b ++ q :: c) <-> declarations_valid (a ++ merged p q :: b ++ c)).
Proof.
  intros a p b q c E. unfold declarations_valid.
  assert (N : NoDup (defined_paths (a ++ p :: b ++ q :: c)) <-> NoDup (defined_paths (a ++ merged p q :: b ++ c))).
  { assert (P : Permutation.Permutation (defined_paths (a ++ p :: b ++ q :: c)) (defined_paths (a ++ merged p q :: b ++ c))).
    { unfold defined_paths. rewrite !flat_map_app. cbn [flat_map]. rewrite !flat_map_app. cbn [flat_map]. apply Permutation.Permutation_app_head. rewrite !app_assoc.
      apply Permutation.Permutation_app_tail. rewrite keys_merged, (keys_q p q E).
      transitivity (map (fun n => ns_keys p ++ [n]) (def_names p ++ def_names q) ++ flat_map (fun p0 => map (fun n => ns_keys p0 ++ [n]) (def_names p0)) b).
      - rewrite map_app, <- !app_assoc. apply Permutation.Permutation_app_head, Permutation.Permutation_app_comm.
      - apply Permutation.Permutation_app_tail, Permutation.Permutation_map. symmetry. exact (def_names_merged p q). }
    split; apply Permutation.Permutation_NoDup; [exact P|now apply Permutation.Permutation_sym]. }
  rewrite N. clear N. apply and_iff_compat_l.
  set (V := fun x => (forall k, In k (ns_keys x) -> k <> ""%string) /\ Forall constant_valid (pn_constants x) /\ Forall structure_valid (pn_structures x)
       /\ Forall enumeration_valid (pn_enumerations x) /\ Forall archive_valid (pn_archives x) /\ forall a r, In a (pn_archives x) -> In r (pa_resources a) -> index_valid x r).
  change ((forall x, In x (a ++ p :: b ++ q :: c) -> V x) <-> (forall x, In x (a ++ merged p q :: b ++ c) -> V x)).
  assert (W : V (merged p q) <-> V p /\ V q).
  { unfold V. rewrite keys_merged, (keys_q p q E). cbn [merged pn_constants pn_structures pn_enumerations pn_archives]. rewrite !Forall_app.
    assert (X : (forall a r, In a (pn_archives p ++ pn_archives q) -> In r (pa_resources a) -> index_valid (merged p q) r)
      <-> (forall a r, In a (pn_archives p) -> In r (pa_resources a) -> index_valid p r) /\ (forall a r, In a (pn_archives q) -> In r (pa_resources a) -> index_valid q r)).
    { assert (Q : forall r, (index_valid (merged p q) r <-> index_valid p r) /\ (index_valid (merged p q) r <-> index_valid q r)).
      { intros r. unfold index_valid, index_path. cbn [merged pn_name]. rewrite <- E. tauto. }
      split.
      - intros H. split; intros x r Hx Hr; [apply (proj1 (proj1 (Q r)))|apply (proj1 (proj2 (Q r)))]; apply (H x r); try exact Hr; apply in_app_iff; tauto.
      - intros (H1 & H2) x r Hx Hr. apply in_app_iff in Hx as [Hx|Hx]; [apply (proj2 (proj1 (Q r))); exact (H1 x r Hx Hr)|apply (proj2 (proj2 (Q r))); exact (H2 x r Hx Hr)]. }
    rewrite X. tauto. }
  split; intros H x Hx.
  - apply (in_joined a p b q c) in Hx as [Hx|[->|[Hx|Hx]]]; [|apply W; split|..]; apply H; apply in_spread; tauto.
  - assert (VM : V (merged p q)) by (apply H; apply in_joined; tauto). apply (in_spread a p b q c) in Hx as [Hx|[->|[Hx|[->|Hx]]]]; try (now apply W in VM); apply H; apply in_joined; tauto.
Qed.
Print Assumptions C47_declarations.

(** What is defined: when both are accepted, every definition of every declaration is in both trees, at the same path and with the
    same contents (and nothing else is defined, C69) *)
Theorem C47_contents : forall so a p b q c t t', any_order so -> pn_name p = pn_name q ->
  identifiers (a ++ p :: b ++ q :: c) -> separated (a ++ p :: b ++ q :: c) -> no_builtin (a ++ p :: b ++ q :: c) ->
  build_ast so (a ++ p :: b ++ q :: c) = Ok t -> build_ast so (a ++ merged p q :: b ++ c) = Ok t' ->
  forall x, In x (a ++ p :: b ++ q :: c) ->
    (forall d, In d (pn_constants x) -> exists l l', defined_at t x (pc_name d) l /\ constant_is t l d /\ defined_at t' x (pc_name d) l' /\ constant_is t' l' d)
    /\ (forall d, In d (pn_structures x) -> exists l l', defined_at t x (ps_name d) l /\ structure_is t l d /\ defined_at t' x (ps_name d) l' /\ structure_is t' l' d)
    /\ (forall d, In d (pn_enumerations x) -> exists l l', defined_at t x (pe_name d) l /\ enumeration_is t l d /\ defined_at t' x (pe_name d) l' /\ enumeration_is t' l' d)
    /\ (forall d, In d (pn_archives x) -> exists l l', defined_at t x (pa_name d) l /\ archive_is t l d /\ defined_at t' x (pa_name d) l' /\ archive_is t' l' d).
Proof.
  intros so a p b q c t t' Hso E I S N H H' x Hx.
  pose proof (identifiers_joined a p b q c E I) as I'. pose proof (separated_merged a p b q c E S) as S'. pose proof (no_builtin_joined a p b q c N) as N'.
  assert (Y : exists y, In y (a ++ merged p q :: b ++ c) /\ pn_name y = pn_name x /\ incl (pn_constants x) (pn_constants y) /\ incl (pn_structures x) (pn_structures y)
    /\ incl (pn_enumerations x) (pn_enumerations y) /\ incl (pn_archives x) (pn_archives y)).
  { apply (in_spread a p b q c) in Hx as [Hx|[->|[Hx|[->|Hx]]]];
      [exists x|exists (merged p q)|exists x|exists (merged p q)|exists x]; (split; [apply in_joined; tauto|]); (split; [first [reflexivity|exact E]|]); repeat split; try apply incl_refl;
      intros z Hz; cbn [merged pn_constants pn_structures pn_enumerations pn_archives]; apply in_app_iff; tauto. }
  destruct Y as (y & Hy & En & I1 & I2 & I3 & I4).
  assert (Da : forall n l, defined_at t' y n l -> defined_at t' x n l) by (intros n l; unfold defined_at; now rewrite En).
  repeat split; intros d Hd.
  - destruct (C69_constants so _ t x d Hso I S N H Hx Hd) as (l & A & B). destruct (C69_constants so _ t' y d Hso I' S' N' H' Hy (I1 _ Hd)) as (l' & A' & B'). exists l, l'. auto.
  - destruct (C69_structures so _ t x d Hso I S N H Hx Hd) as (l & A & B). destruct (C69_structures so _ t' y d Hso I' S' N' H' Hy (I2 _ Hd)) as (l' & A' & B'). exists l, l'. auto.
  - destruct (C69_enumerations so _ t x d Hso I S N H Hx Hd) as (l & A & B). destruct (C69_enumerations so _ t' y d Hso I' S' N' H' Hy (I3 _ Hd)) as (l' & A' & B'). exists l, l'. auto.
  - destruct (C69_archives so _ t x d Hso I S N H Hx Hd) as (l & A & B). destruct (C69_archives so _ t' y d Hso I' S' N' H' Hy (I4 _ Hd)) as (l' & A' & B'). exists l, l'. auto.
Qed.
Print Assumptions C47_contents.

(** ** Acceptance *)
Lemma same_alike a b : same_definitions a b -> alike a b.
Proof.
  intros H ks. specialize (H ks). rewrite !node_at_getk in H. unfold kindk. destruct (getk a ks), (getk b ks); try contradiction; [|reflexivity]. cbn. f_equal. tauto.
Qed.
Lemma declared_alike so a p b q c t t' : any_order so -> pn_name p = pn_name q ->
  identifiers (a ++ p :: b ++ q :: c) -> separated (a ++ p :: b ++ q :: c) -> no_builtin (a ++ p :: b ++ q :: c) ->
  declared_tree so (a ++ p :: b ++ q :: c) = Ok t -> declared_tree so (a ++ merged p q :: b ++ c) = Ok t' -> rooted t /\ rooted t' /\ alike t t'.
Proof.
  intros Hso E I S N H H'.
  pose proof (identifiers_joined a p b q c E I) as I'. pose proof (separated_merged a p b q c E S) as S'. pose proof (no_builtin_joined a p b q c N) as N'.
  destruct (declared_facts so _ t Hso I S N H) as (G & _). destruct (declared_facts so _ t' Hso I' S' N' H') as (G' & _). split; [exact G|]. split; [exact G'|].
  unfold declared_tree in H, H'. apply bind_ok in H as (r & H1 & H2). apply bind_ok in H' as (r' & H1' & H2').
  pose proof (well_named_clean _ (identifiers_named _ I)) as C. pose proof (well_named_clean _ (identifiers_named _ I')) as C'.
  pose proof (merge_equivalent so a p b q c E S) as M. rewrite H1, H1' in M.
  apply (append_builtins_alike r r' t t' H2 H2'); [exact (build_node_tree_good so _ r Hso C H1)|exact (shaped_any _ _ (build_node_tree_shaped false so _ r Hso C H1))|exact (build_tidy so _ r Hso S N H1)
    |exact (build_node_tree_good so _ r' Hso C' H1')|exact (shaped_any _ _ (build_node_tree_shaped false so _ r' Hso C' H1'))|exact (build_tidy so _ r' Hso S' N' H1')|exact (same_alike _ _ M)].
Qed.

(** How the definitions of a namespace are spread over its declarations makes no difference to whether the schema is accepted *)
Theorem C47_accepts : forall so a p b q c, any_order so -> pn_name p = pn_name q ->
  identifiers (a ++ p :: b ++ q :: c) -> separated (a ++ p :: b ++ q :: c) -> no_builtin (a ++ p :: b ++ q :: c) ->
  ((exists t, build_ast so (a ++ p :: b ++ q :: c) = Ok t) <-> (exists t, build_ast so (a ++ merged p q :: b ++ c) = Ok t)).
Proof.
  intros so a p b q c Hso E I S N.
  pose proof (identifiers_joined a p b q c E I) as I'. pose proof (separated_merged a p b q c E S) as S'. pose proof (no_builtin_joined a p b q c N) as N'.
  rewrite (C70_accepts so _ Hso I S N), (C70_accepts so _ Hso I' S' N'). rewrite <- (C47_declarations a p b q c E).
  split; intros (D & V); (split; [exact D|]); intros t Ht.
  - destruct (proj2 (C70_declarations so _ Hso I S N) D) as (r & Hr). destruct (declared_alike so a p b q c r t Hso E I S N Hr Ht) as (Gr & Gt & A). exact (names_valid_alike r t Gr Gt A (V r Hr)).
  - destruct (proj2 (C70_declarations so _ Hso I' S' N') (proj1 (C47_declarations a p b q c E) D)) as (r & Hr). destruct (declared_alike so a p b q c t r Hso E I S N Ht Hr) as (Gt & Gr & A).
    exact (names_valid_alike r t Gr Gt (alike_sym _ _ A) (V r Hr)).
Qed.
Print Assumptions C47_accepts.

(** Definitions with the same path: the schema is refused for that reason (given that every definition is fine by itself) *)
Theorem C47_duplicates : forall so s, separated s -> definitions_valid so s -> ~ NoDup (defined_paths s) ->
  exists n ns a b c, build_ast so s = Err (SymbolRedefinition n) /\ defined_paths s = (a ++ (ns ++ [n]) :: b ++ (ns ++ [n]) :: c)%list.
Proof.
  intros so s S V D. destruct (proj2 (C47_duplicates_partial so s S V) D) as (n & ns & a & b & c & H & E). exists n, ns, a, b, c. split; [|exact E]. unfold build_ast. now rewrite H.
Qed.
Print Assumptions C47_duplicates.

(** ** Instance: two declarations of [n] whose definitions refer to each other, with another namespace in between *)
Local Open Scope string_scope.
Definition n_first : pnamespace := PNamespace "n" [PConst "C" "u8" "7"] [PStruct "S" [PField "x" [FConst "C"] "u8" None; PField "e" [] "E" None]] [] [PArchive "A" [] [PResource "m" [] (TMulti 8 ["S"; "T"])]].
Definition n_other : pnamespace := PNamespace "o" [] [PStruct "U" [PField "x" [] "u16" None]] [] [PArchive "A" [] [PResource "v" [] (TVector ".n.T")]].
Definition n_second : pnamespace := PNamespace "n" [] [PStruct "T" [PField "y" [FConst "C"] "u8" None]] [PEnum "E" "u8" (Some 1%N) [("P", None); ("Q", None)]] [PArchive "B" [] [PResource "m" [] (TMulti 8 ["T"]); PResource "a" [] (TArchive "A")]].
Definition n_spread : pschema := [n_first; n_other; n_second].
Definition n_joined : pschema := [merged n_first n_second; n_other].
Lemma n_identifiers : identifiers n_spread.
Proof. intros p n Hp Hn. repeat (destruct Hp as [<-|Hp]; [vm_compute in Hn; repeat (destruct Hn as [<-|Hn]; [reflexivity|]); destruct Hn|]). destruct Hp. Qed.
Lemma n_no_builtin : no_builtin n_spread.
Proof. intros p Hp. repeat (destruct Hp as [<-|Hp]; [split; intros Q; vm_compute in Q; repeat (destruct Q as [Q|Q]; [discriminate|]); destruct Q|]). destruct Hp. Qed.
Lemma n_separated : separated n_spread.
Proof.
  intros p q n m Hp Hq Hn E. assert (L : exists k, ns_keys p = [k] /\ exists k', ns_keys q = [k']).
  { cbn in Hp, Hq. destruct Hp as [<-|[<-|[<-|[]]]], Hq as [<-|[<-|[<-|[]]]]; eexists; (split; [reflexivity|eexists; reflexivity]). }
  destruct L as (k & Lp & k' & Lq). rewrite Lp, Lq in E. discriminate.
Qed.
Example C47_merge_instance : any_order same_order /\ identifiers n_spread /\ separated n_spread /\ no_builtin n_spread /\ pn_name n_first = pn_name n_second
  /\ n_spread = ([] ++ n_first :: [n_other] ++ n_second :: [])%list /\ n_joined = ([] ++ merged n_first n_second :: [n_other] ++ [])%list
  /\ declarations_valid n_spread
  /\ (exists t, build_ast same_order n_spread = Ok t) /\ (exists t, build_ast same_order n_joined = Ok t)
  /\ build_ast same_order n_spread <> build_ast same_order n_joined
  /\ (exists n, build_ast same_order [n_first; n_other; n_first] = Err (SymbolRedefinition n)).
Proof.
  split; [exact same_order_any|]. split; [exact n_identifiers|]. split; [exact n_separated|]. split; [exact n_no_builtin|]. split; [reflexivity|]. split; [reflexivity|]. split; [reflexivity|].
  assert (X : exists t, build_ast same_order n_spread = Ok t) by (eexists; vm_compute; reflexivity).
  split; [exact (proj1 (proj1 (C70_accepts same_order n_spread same_order_any n_identifiers n_separated n_no_builtin) X))|]. split; [exact X|]. split; [eexists; vm_compute; reflexivity|].
  split; [vm_compute; discriminate|]. eexists. vm_compute. reflexivity.
Qed.
