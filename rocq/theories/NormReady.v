(** The definitions of a finished tree are in normal form: names are identifiers, references have absolute paths. *)
From Coq Require Import List ZArith Bool String Ascii Lia.
From Verif Require Import PyBase PyText GenSpec GenTypes GenTypesFacts GenTree GenTreeFacts GenTraversal GenBuild GenBuildFacts GenShapeFacts GenAstFacts GenAstSpec GenAstThms GenWords GenFlatdata GenOutFacts GenFinal GenRender GenMergeFacts
  GenModule SameSpec EmbedSpec GenAgree GenMentions GenSame GenClassNames GenResolveFacts Props_GenTree Props_Embed GrammarSpec GrammarLex GrammarNames DeclSpec DeclFacts Props_Decl NormSpec NormLex NormText NormWritten.
Import ListNotations.
Local Open Scope string_scope.

Definition flat_namespaces (s : pschema) : Prop := forall p, In p s -> has_char "." (pn_name p) = false.
Lemma flat_keys_one s p : flat_namespaces s -> In p s -> ns_keys p = [pn_name p].
Proof. intros Fl Hp. unfold ns_keys. apply split_no_char. now apply Fl. Qed.
Lemma flat_separated s : flat_namespaces s -> separated s.
Proof. intros Fl p q n m Hp Hq _ E. rewrite (flat_keys_one s p Fl Hp), (flat_keys_one s q Fl Hq) in E. discriminate. Qed.
Lemma pathed_named n : pathed n -> has_char "." n = false -> named n.
Proof.
  intros (c & t & -> & A & B) H. cbn [has_char] in H. apply orb_false_iff in H as (Hc & Ht). exists c, t. split; [reflexivity|]. rewrite Hc, orb_false_r in A. split; [exact A|].
  clear - B Ht. induction t as [|d t IH]; [reflexivity|]. cbn in B, Ht |- *. apply andb_true_iff in B as (B1 & B2). apply orb_false_iff in Ht as (Hd & Ht). rewrite IH by assumption. unfold path_char in B1. rewrite Hd, orb_false_r in B1. now rewrite B1.
Qed.
Lemma dots_join ks : ks <> [] -> dots ks = join "." ("" :: ks).
Proof.
  induction ks as [|k ks IH]; [congruence|]. intros _. rewrite dots_cons. destruct ks as [|k' ks]; [cbn; now rewrite str_nil|]. rewrite IH by discriminate.
  change (join "." ("" :: k :: k' :: ks)) with ("." ++ k ++ join "." ("" :: k' :: ks)). reflexivity.
Qed.

Lemma flat_map_nil_all {A B} (f : A -> list B) l : (forall a, In a l -> f a = []) -> flat_map f l = [].
Proof. induction l as [|a l IH]; intros Hf; [reflexivity|]. cbn. rewrite Hf by (now left). rewrite IH; [reflexivity|]. intros x Hx. apply Hf. now right. Qed.
Section Ready.
  Variables (so : list Z -> list Z) (s : pschema) (root : tree).
  Hypothesis (Hso : any_order so) (Wr : forall p, In p s -> written p) (I : identifiers s) (Fl : flat_namespaces s) (NB : no_builtin s) (H : build_ast so s = Ok root) (U : builtins_unused root).
  Let Sp : separated s := flat_separated s Fl.
  Let F : finished root := identifiers_finished so s root Hso I Sp NB H.
  Local Notation Bu := (f_built _ F).

  Definition the_definition (p : pnamespace) (l : loc) (u : tree) : Prop :=
    (exists c, In c (pn_constants p) /\ constant_is root l c) \/ (exists c, In c (pn_structures p) /\ structure_is root l c)
    \/ (exists c, In c (pn_enumerations p) /\ enumeration_is root l c) \/ (exists c, In c (pn_archives p) /\ DeclSpec.archive_is root l c).
  Lemma known l u : at_loc root l = Some u -> defines (t_kind u) = true -> ~ In "_builtin" (namespaces root l) ->
    exists p, In p s /\ namespaces root l = [pn_name p] /\ named (pn_name p) /\ names_at root l = Some ["" ; pn_name p; t_name u] /\ the_definition p l u.
  Proof.
    intros Hl Ku Nb. pose proof (well_named_clean s (identifiers_named s I)) as C. destruct (final_placed so s root Hso C Sp H l u Hl Ku) as (ks & N & p & Hp & X).
    destruct (definition_parent root l u true (b_rooted _ Bu) (b_shape _ Bu) Hl Ku) as (q & i & v & -> & Hv & Kv & Hi).
    assert (Nd : names_at root (q ++ [i])%list = Some ("" :: namespaces root (q ++ [i])%list ++ [t_name u])%list).
    { pose proof (GenClassNames.namespace_names root F q v Hv (or_introl Kv)) as Nv. rewrite (namespaces_snoc root q i v Hv). unfold is_namespace in *. rewrite Kv in *. exact (names_snoc root q i v u _ Hv Hi Nv). }
    rewrite Nd in N. injection N as _ N. rewrite (flat_keys_one s p Fl Hp) in X. exists p. split; [exact Hp|].
    destruct X as [(n & E & Hn)|(w & sz & E & _)].
    - rewrite <- N in E. apply app_inj_tail in E as (E1 & E2). subst n. rewrite E1 in *. split; [reflexivity|]. destruct (Wr p Hp) as (Wp & _). split; [exact (pathed_named _ Wp (Fl p Hp))|]. split; [exact Nd|].
      assert (Q : forall l', defined_at root p (t_name u) l' -> l' = (q ++ [i])%list).
      { intros l' D. apply (names_unique root F l' (q ++ [i])%list ["" ; pn_name p; t_name u]); [|exact Nd]. pose proof (path_names root F l' _ D) as P. rewrite P. f_equal.
        change ("." ++ pn_name p ++ "." ++ t_name u) with (String "." (pn_name p ++ String "." (t_name u))). cbn [split_on]. change (Ascii.eqb "." ".") with true. cbv iota. f_equal. rewrite split_append, (split_no_char "." _ (Fl p Hp)), (split_no_char "." (t_name u)); [reflexivity|].
        exact (node_dot root (q ++ [i])%list u (b_rooted _ Bu) Hl). }
      unfold the_definition. unfold def_names in Hn. rewrite !in_app_iff in Hn. destruct Hn as [Hn|[Hn|[Hn|Hn]]]; apply in_map_iff in Hn as (c & En & Hc).
      + left. exists c. split; [exact Hc|]. destruct (C69_constants so s root p c Hso I Sp NB H Hp Hc) as (l' & D & X). rewrite En in D. now rewrite <- (Q l' D).
      + right; left. exists c. split; [exact Hc|]. destruct (C69_structures so s root p c Hso I Sp NB H Hp Hc) as (l' & D & X). rewrite En in D. now rewrite <- (Q l' D).
      + right; right; left. exists c. split; [exact Hc|]. destruct (C69_enumerations so s root p c Hso I Sp NB H Hp Hc) as (l' & D & X). rewrite En in D. now rewrite <- (Q l' D).
      + right; right; right. exists c. split; [exact Hc|]. destruct (C69_archives so s root p c Hso I Sp NB H Hp Hc) as (l' & D & X). rewrite En in D. now rewrite <- (Q l' D).
    - exfalso. apply Nb. rewrite <- N in E. change [B; MV; index_type_name w] with ([B; MV] ++ [index_type_name w])%list in E. rewrite app_assoc in E. apply app_inj_tail in E as (E1 & _). rewrite E1. right; now left.
  Qed.
  Ltac written p Hp := let W1 := fresh "W1" in let W2 := fresh "W2" in let W3 := fresh "W3" in let W4 := fresh "W4" in destruct (Wr p Hp) as (_ & W1 & W2 & W3 & W4); rewrite Forall_forall in W1, W2, W3, W4.
  Lemma known_name p l u : In p s -> at_loc root l = Some u -> the_definition p l u -> named (t_name u).
  Proof.
    intros Hp Hl D. written p Hp. destruct D as [(c & Hc & v & _ & E)|[(c & Hc & sz & cs & E & _)|[(c & Hc & b & cs & ex & vs & E & _)|(c & Hc & cs & E & _)]]]; rewrite Hl in E; injection E as ->; cbn [t_name].
    - apply (W1 c Hc). - apply (W2 c Hc). - apply (W3 c Hc). - apply (W4 c Hc).
  Qed.
  Lemma child_parent l u : at_loc root l = Some u -> l <> [] -> exists q i v, l = (q ++ [i])%list /\ at_loc root q = Some v /\ nth_error (t_children v) i = Some u /\ edge true (t_kind v) (t_kind u).
  Proof.
    intros Hl Ne. destruct l as [|i q _] using rev_ind; [congruence|]. rewrite at_loc_app in Hl. destruct (at_loc root q) as [v|] eqn:Hv; [|discriminate]. cbn in Hl. destruct (nth_error (t_children v) i) as [c|] eqn:Hi; [|discriminate]. injection Hl as ->.
    exists q, i, v. split; [reflexivity|]. split; [exact Hv|]. split; [exact Hi|]. destruct (child_kind root F q v u Hv (nth_error_In _ _ Hi)) as (j & _ & _ & E). exact E.
  Qed.
  Lemma fields_named q v sz : at_loc root q = Some v -> t_kind v = KStructure sz -> ~ In "_builtin" (namespaces root q) ->
    exists p st, In p s /\ In st (pn_structures p) /\ structure_is root q st /\ forall i u, nth_error (t_children v) i = Some u -> exists f, nth_error (ps_fields st) i = Some f /\ field_is root (q ++ [i])%list f /\ at_loc root (q ++ [i])%list = Some u /\ t_name u = pf_name f.
  Proof.
    intros Hv Kv Nb. destruct (known q v Hv ltac:(now rewrite Kv) Nb) as (p & Hp & _ & _ & _ & D). destruct D as [(c & Hc & x & _ & E)|[(c & Hc & X)|[(c & Hc & b & cs & ex & vs & E & _)|(c & Hc & cs & E & _)]]]; try (rewrite Hv in E; injection E as ->; discriminate).
    exists p, c. split; [exact Hp|]. split; [exact Hc|]. split; [exact X|]. destruct X as (size & cs & E & L & O). intros i u Hi. rewrite Hv in E. injection E as ->. cbn [t_children] in Hi.
    destruct (nth_error (ps_fields c) i) as [f|] eqn:Hf; [|apply nth_error_None in Hf; assert (nth_error cs i <> None) as Q by congruence; apply nth_error_Some in Q; lia].
    exists f. split; [reflexivity|]. pose proof (O i f Hf) as Y. cbn [Nat.add] in Y. split; [exact Y|]. pose proof (at_child root q _ i u Hv Hi) as Hu. split; [exact Hu|]. destruct Y as (ty & off & cs' & E & _). rewrite Hu in E. now injection E as ->.
  Qed.
  Lemma archive_parts q v : at_loc root q = Some v -> t_kind v = KArchive -> ~ In "_builtin" (namespaces root q) ->
    exists p a, In p s /\ In a (pn_archives p) /\ forall i u, nth_error (t_children v) i = Some u ->
      (exists r, In r (pa_resources a) /\ resource_is root (q ++ [i])%list r) \/ (exists b, In b (pa_bound a) /\ bound_is root (q ++ [i])%list b) \/ t_kind u = KRef RConstValue.
  Proof.
    intros Hv Kv Nb. destruct (known q v Hv ltac:(now rewrite Kv) Nb) as (p & Hp & _ & _ & _ & D). destruct D as [(c & Hc & x & _ & E)|[(c & Hc & sz & cs & E & _)|[(c & Hc & b & cs & ex & vs & E & _)|(c & Hc & X)]]]; try (rewrite Hv in E; injection E as ->; discriminate).
    exists p, c. split; [exact Hp|]. split; [exact Hc|]. destruct X as (cs & E & O1 & O2 & O3). intros i u Hi. rewrite Hv in E. injection E as ->. cbn [t_children] in Hi.
    destruct (nth_error (pa_resources c) i) as [r|] eqn:Hr; [left; exists r; split; [exact (nth_error_In _ _ Hr)|exact (O1 i r Hr)]|]. apply nth_error_None in Hr.
    destruct (nth_error (pa_bound c) (i - List.length (pa_resources c))) as [b|] eqn:Hb; [right; left; exists b; split; [exact (nth_error_In _ _ Hb)|]; pose proof (O2 _ b Hb) as Q; now replace (List.length (pa_resources c) + (i - List.length (pa_resources c)))%nat with i in Q by lia|].
    apply nth_error_None in Hb. right; right. apply (O3 i u); [lia|exact Hi].
  Qed.

  (** references *)
  Lemma target_placed l c r : at_loc root l = Some c -> t_kind c = KRef r -> r <> RBuiltin -> NormText.placed (target c) /\
    (r = RField \/ r = RResource -> exists d v, find root (target c) = Some d /\ at_loc root d = Some v /\ named (t_name v) /\ last_name (target c) = t_name v).
  Proof.
    intros Hl Kc Nr. destruct (ref_target root F l c r Hl Kc) as (d & v & p & _ & Fd & Hv & Ex & Hp & Ep). rewrite Ep in Hp.
    assert (Nb : ~ In "_builtin" (namespaces root d)) by (apply (U l r d); [exists c; auto|exact Nr]).
    assert (Done : forall ks, names_at root d = Some ("" :: ks) -> Forall named ks -> ks <> [] -> NormText.placed (target c)).
    { intros ks Nd Fk Ne. exists ks. split; [exact Ne|]. split; [exact Fk|]. unfold path_at in Hp. rewrite Nd in Hp. injection Hp as Hp. rewrite <- Hp. symmetry. now apply dots_join. }
    assert (Def : forall d' v', at_loc root d' = Some v' -> defines (t_kind v') = true -> ~ In "_builtin" (namespaces root d') -> exists n, names_at root d' = Some ["" ; n; t_name v'] /\ named n /\ named (t_name v')).
    { intros d' v' Hv' K' Nb'. destruct (known d' v' Hv' K' Nb') as (q & Hq & _ & Nq & Nm & D). exists (pn_name q). split; [exact Nm|]. split; [exact Nq|]. exact (known_name q d' v' Hq Hv' D). }
    assert (Top : defines (t_kind v) = true -> NormText.placed (target c)).
    { intros K'. destruct (Def d v Hv K' Nb) as (n & Nm & A & B). apply (Done [n; t_name v] Nm); [auto|discriminate]. }
    assert (Part : (exists rng ty off, t_kind v = KField rng ty off) \/ (exists k o m, t_kind v = KResource k o m) -> NormText.placed (target c) /\ named (t_name v)).
    { intros Kv. assert (Ne : d <> []). { intros ->. cbn in Hv. injection Hv as <-. destruct (b_rooted _ Bu) as (_ & _ & K0). destruct Kv as [(a & b & e & Kv)|(a & b & e & Kv)]; congruence. }
      destruct (child_parent d v Hv Ne) as (q & i & w & Ed & Hw & Hi & Eg). rewrite Ed in *.
      assert (Nn : is_namespace w = false). { unfold is_namespace. destruct (t_kind w) eqn:Kw; try reflexivity. destruct Kv as [(a & b & e & Kv)|(a & b & e & Kv)]; rewrite Kv in Eg; destruct Eg. }
      assert (Nb' : ~ In "_builtin" (namespaces root q)). { rewrite (namespaces_snoc root q i w Hw), Nn, app_nil_r in Nb. exact Nb. }
      assert (X : defines (t_kind w) = true /\ named (t_name v)).
      { destruct Kv as [(a & b & e & Kv)|(a & b & e & Kv)]; rewrite Kv in Eg; destruct (t_kind w) as [| | | | | | | | | |] eqn:Kw; try (now destruct Eg); try (now destruct rk; destruct Eg).
        - split; [reflexivity|]. destruct (fields_named q w _ Hw Kw Nb') as (p' & st & Hp' & Hst & _ & Hf). destruct (Hf i v Hi) as (f & Hf' & _ & _ & ->). written p' Hp'. destruct (W2 st Hst) as (_ & _ & Wf). rewrite Forall_forall in Wf. apply (Wf f (nth_error_In _ _ Hf')).
        - split; [reflexivity|]. destruct (archive_parts q w Hw Kw Nb') as (p' & ar & Hp' & Ha & Hf). written p' Hp'. destruct (W4 ar Ha) as (_ & Wb & Wx). rewrite Forall_forall in Wb, Wx.
          destruct (Hf i v Hi) as [(x & Hx & Y)|[(x & Hx & Y)|Y]].
          + destruct Y as (opt & m & cs & E & _). rewrite Hv in E. injection E as ->. apply (Wx x Hx).
          + destruct Y as (m & cs & E & _). rewrite Hv in E. injection E as ->. apply (Wb x Hx).
          + congruence. }
      destruct X as (Kw & Nv). split; [|exact Nv]. destruct (Def q w Hw Kw Nb') as (n & Nm & A & B). apply (Done [n; t_name w; t_name v]); [exact (names_snoc root q i w v _ Hw Hi Nm)|auto|discriminate]. }
    assert (Last : forall ks, names_at root d = Some ks -> ks <> [] -> last_name (target c) = List.last ks "").
    { intros ks Nm Ne. unfold last_name. rewrite (path_names root F d _ Hp) in Nm. now injection Nm as ->. }
    assert (LastP : (exists rng ty off, t_kind v = KField rng ty off) \/ (exists k o m, t_kind v = KResource k o m) -> last_name (target c) = t_name v).
    { intros Kv. assert (Ne : d <> []). { intros ->. cbn in Hv. injection Hv as <-. destruct (b_rooted _ Bu) as (_ & _ & K0). destruct Kv as [(a & b & e & Kv)|(a & b & e & Kv)]; congruence. }
      destruct (child_parent d v Hv Ne) as (q & i & w & -> & Hw & Hi & _). destruct (proj1 (names_at_some root q) (ex_intro _ w Hw)) as (ns & Hn).
      rewrite (Last _ (names_snoc root q i w v ns Hw Hi Hn)); [apply last_last|]. now destruct ns. }
    destruct r; try congruence; cbn in Ex; destruct (t_kind v) eqn:Kv; try discriminate;
      (split; [try (apply Top; reflexivity); apply Part; eauto 6|intros Q; try (destruct Q; discriminate)]); exists d, v; (split; [exact Fd|]); (split; [exact Hv|]); (split; [apply Part|apply LastP]); eauto 6.
  Qed.

  (** constants and enumerations *)
  Lemma basic_width n sg w : In (n, (sg, w)) basic_types -> (0 <= w)%Z.
  Proof. intros Q. repeat (destruct Q as [Q|Q]; [injection Q as _ _ <-; lia|]). destruct Q. Qed.
  Lemma basic_path n : In n (map fst basic_types) -> pathed n.
  Proof. intros Q. repeat (destruct Q as [<-|Q]; [eexists _, _; split; [reflexivity|split; reflexivity]|]). destruct Q. Qed.
  Lemma enum_width l u b : at_loc root l = Some u -> t_kind u = KEnum b -> ~ In "_builtin" (namespaces root l) -> (0 <= bt_width b)%Z.
  Proof.
    intros Hl K Nb. destruct (known l u Hl ltac:(now rewrite K) Nb) as (p & Hp & _ & _ & _ & D). destruct D as [(c & Hc & x & _ & E)|[(c & Hc & sz & cs & E & _)|[(c & Hc & X)|(c & Hc & cs & E & _)]]]; try (rewrite Hl in E; injection E as ->; discriminate).
    destruct X as (b' & cs & ex & vs & E & _ & W1 & W2 & _). rewrite Hl in E. injection E as ->. cbn in K. injection K as ->.
    destruct (pe_width c) as [w|]; [rewrite (W1 w eq_refl); lia|]. destruct (W2 eq_refl) as (sg & Q). exact (basic_width _ _ _ Q).
  Qed.
  Lemma enum_lexical p l u e b : In p s -> In e (pn_enumerations p) -> enumeration_is root l e -> at_loc root l = Some u -> t_kind u = KEnum b -> ~ In "_builtin" (namespaces root l) ->
    g_type (bt_name b) /\ (0 <= bt_width b)%Z /\ declared_values u <> [] /\ forall v, In v (declared_values u) -> named (t_name v).
  Proof.
    intros Hp He X Hl K Nb. pose proof (enum_width l u b Hl K Nb) as Wd. destruct X as (b' & cs & ex & vs & E & Tn & _ & _ & Px & (Ln & _) & O & Aft). rewrite Hl in E. injection E as ->. cbn in K. injection K as ->.
    written p Hp. destruct (W3 e He) as (_ & Gt & Ne & Fv). rewrite Forall_forall in Fv. rewrite Tn. split; [exact Gt|]. split; [exact Wd|].
    assert (Lv : List.length vs = List.length (pe_values e)). { rewrite Ln. apply Forall2_len in Px. now rewrite map_length in Px. }
    assert (V : forall i nv, nth_error (pe_values e) i = Some nv -> exists v, nth_error cs i = Some (Node (fst nv) (KEnumValue v false) [])).
    { intros i nv Hi. destruct (nth_error vs i) as [v|] eqn:Hv; [|apply nth_error_None in Hv; assert (nth_error (pe_values e) i <> None) as Q by congruence; apply nth_error_Some in Q; lia].
      assert (Hc : nth_error (combine (map fst (pe_values e)) vs) i = Some (fst nv, v)).
      { clear - Hi Hv. revert i vs Hi Hv. induction (pe_values e) as [|x xs IH]; intros [|i] [|y ys] Hi Hv; try discriminate; cbn in *; [now injection Hi as ->; injection Hv as ->|auto]. }
      specialize (O i _ Hc). cbn [Nat.add fst snd] in O. rewrite at_loc_app, Hl in O. cbn in O. exists v. destruct (nth_error cs i); [now injection O as ->|discriminate]. }
    split.
    - destruct (pe_values e) as [|nv rest]; [congruence|]. destruct (V 0%nat nv eq_refl) as (v & Hv). intros Q. assert (Hin : In (Node (fst nv) (KEnumValue v false) []) (declared_values (Node (pe_name e) (KEnum b) cs))). { unfold declared_values. apply filter_In. split; [exact (nth_error_In _ _ Hv)|reflexivity]. } rewrite Q in Hin. destruct Hin.
    - intros v Hv. unfold declared_values in Hv. apply filter_In in Hv as (Hin & Kv). cbn [t_children] in Hin. apply In_nth_error in Hin as (i & Hi). destruct (nth_error (pe_values e) i) as [nv|] eqn:Hn.
      + destruct (V i nv Hn) as (x & Hx). rewrite Hx in Hi. injection Hi as <-. cbn [t_name]. apply (Fv nv). exact (nth_error_In _ _ Hn).
      + apply nth_error_None in Hn. destruct (Aft i v Hn Hi) as (x & Kx). rewrite Kx in Kv. discriminate.
  Qed.

  (** fields *)
  Lemma child_ref l t c : at_loc root l = Some t -> (exists rng ty off, t_kind t = KField rng ty off) -> In c (t_children t) -> exists i r, at_loc root (l ++ [i])%list = Some c /\ t_kind c = KRef r /\ r <> RBuiltin.
  Proof.
    intros Ht (rng & ty & off & Kt) Hc. destruct (child_kind root F l t c Ht Hc) as (i & Hi & Hl & Eg). exists i. rewrite Kt in Eg.
    assert (Nn : t_kind c <> KNamespace) by (apply (GenRender.no_namespace root F l t c Ht Hc); rewrite Kt; discriminate).
    destruct (t_kind c) as [| | | | | | | | | |rk] eqn:Kc; cbn in Eg; try contradiction; try congruence. exists rk. split; [exact Hl|]. split; [reflexivity|]. intros ->. destruct Eg.
  Qed.
  Lemma field_lexical l u p st f : at_loc root l = Some u -> In p s -> In st (pn_structures p) -> In f (ps_fields st) -> field_is root l f -> lexical_field u.
  Proof.
    intros Hl Hp Hst Hf X. destruct X as (ty & off & cs & E & O & T). rewrite Hl in E. injection E as ->. written p Hp. destruct (W2 st Hst) as (_ & _ & Wf). rewrite Forall_forall in Wf. destruct (Wf f Hf) as (Nf & Dc). rewrite Forall_forall in Dc.
    eexists _, ty, _. split; [reflexivity|]. split; [exact Nf|]. split.
    { intros r Hr. assert (Q : In r (ranges (pf_decs f))) by (destruct (ranges (pf_decs f)); [discriminate|injection Hr as ->; now left]). unfold ranges in Q. apply in_flat_map in Q as (d & Hd & Q). specialize (Dc d Hd). destruct d; cbn in Q; destruct Q as [<-|[]] || destruct Q. exact Dc. }
    assert (Pl : forall c, In c cs -> NormText.placed (target c)).
    { intros c Hc. destruct (child_ref l _ c Hl ltac:(cbn; eauto) Hc) as (i & r & Hi & Kc & Nr). exact (proj1 (target_placed _ c r Hi Kc Nr)). }
    split; [intros c Hc; now apply placed_pathed, Pl|].
    assert (K : forall i m c, nth_error (constants_used (pf_decs f)) i = Some m -> nth_error cs i = Some c -> t_kind c = KRef (fst m) /\ to_enum (fst m) = false).
    { intros i m c Hm Hc. destruct (O i m Hm) as (d & v & (c' & Hc' & Kc & _) & _). cbn [Nat.add] in Hc'. rewrite at_loc_app, Hl in Hc'. cbn in Hc'. rewrite Hc in Hc'. injection Hc' as <-. split; [exact Kc|].
      apply nth_error_In in Hm. unfold constants_used in Hm. apply in_flat_map in Hm as (x & _ & Hm). destruct x; cbn in Hm; destruct Hm as [<-|[]] || destruct Hm; reflexivity. }
    destruct T as [(sg & w & Q & L & ->)|(Nb & L & (d0 & v0 & _) & (c & Hc & En) & d & e & b & sg & w & (c' & Hc' & Kc & Pd) & He & Ke & Bt & Wd & _)].
    - assert (R : refers to_enum (Node (pf_name f) (KField (hd_error (ranges (pf_decs f))) (Some (FT (pf_type f) match declared_width f with Some w0 => w0 | None => w end sg)) (Some off)) cs) = []).
      { unfold refers. cbn [t_children]. apply flat_map_nil_all. intros c Hc. apply In_nth_error in Hc as (i & Hi). destruct (nth_error (constants_used (pf_decs f)) i) as [m|] eqn:Hm.
        - destruct (K i m c Hm Hi) as (-> & Q0). now rewrite Q0.
        - apply nth_error_None in Hm. assert (Q0 : nth_error cs i <> None) by congruence. apply nth_error_Some in Q0. lia. }
      rewrite R. cbn [ft_name ft_width]. assert (Qn : In (pf_type f) (map fst basic_types)) by (apply in_map_iff; eexists; split; [|exact Q]; reflexivity).
      assert (Fe : field_type (pf_type f) = pf_type f). { clear - Qn. repeat (destruct Qn as [<-|Qn]; [reflexivity|]). destruct Qn. }
      rewrite Fe. split; [reflexivity|]. split; [now apply basic_path|]. unfold declared_width. destruct (pf_width f); cbn; [lia|exact (basic_width _ _ _ Q)].
    - rewrite Hc in Hc'. injection Hc' as <-. destruct (type_target root F _ _ _ Hc Kc) as (Ft & _). rewrite En, Ft.
      assert (Hin : In c cs). { rewrite at_loc_app, Hl in Hc. cbn in Hc. destruct (nth_error cs _) eqn:Q; [|discriminate]. injection Hc as ->. exact (nth_error_In _ _ Q). }
      split; [|split].
      + assert (exists r, refers to_enum (Node (pf_name f) (KField (hd_error (ranges (pf_decs f))) (Some ty) (Some off)) cs) = target c :: r) as (r & ->); [|reflexivity].
        assert (Ec : exists pre, cs = (pre ++ [c])%list /\ List.length pre = List.length (constants_used (pf_decs f))).
        { destruct cs as [|x pre _] using rev_ind; [destruct Hin|]. rewrite app_length in L. cbn in L. assert (Lp : List.length pre = List.length (constants_used (pf_decs f))) by lia. exists pre. split; [|exact Lp].
          rewrite at_loc_app, Hl in Hc. cbn in Hc. rewrite <- Lp, nth_error_app2, PeanoNat.Nat.sub_diag in Hc by lia. cbn in Hc. injection Hc as ->. reflexivity. }
        destruct Ec as (pre & -> & Lp). exists []. unfold refers. cbn [t_children]. rewrite flat_map_app. cbn [flat_map]. rewrite Kc. cbn [to_enum app]. replace (flat_map _ pre) with (@nil string); [reflexivity|]. symmetry. apply flat_map_nil_all. intros x Hx. apply In_nth_error in Hx as (i & Hi).
        destruct (nth_error (constants_used (pf_decs f)) i) as [m|] eqn:Hm.
        * destruct (K i m x Hm) as (-> & Q0); [|now rewrite Q0]. rewrite nth_error_app1; [exact Hi|]. apply nth_error_Some. congruence.
        * apply nth_error_None in Hm. assert (Q0 : nth_error pre i <> None) by congruence. apply nth_error_Some in Q0. lia.
      + now apply placed_pathed, Pl.
      + rewrite Wd. apply (enum_width d e b He Ke). apply (U (l ++ [List.length (constants_used (pf_decs f))])%list (REnum (declared_width f)) d); [exists c; split; [exact Hc|]; split; [exact Kc|exact Pd]|discriminate].
  Qed.

  (** archives *)
  Lemma kind_like t p r : (forall k, p k = match k with KRef q => r q | _ => false end) -> refers r t = map target (children_like t p).
  Proof. apply refers_like. Qed.
  Lemma structure_like t : refers to_structure t = map target (children_like t is_structure_ref). Proof. apply refers_like. intros []; reflexivity. Qed.
  Lemma archive_like t : refers to_archive t = map target (children_like t is_archive_ref). Proof. apply refers_like. intros []; reflexivity. Qed.
  Lemma explicit_lexical l e : at_loc root l = Some e -> t_kind e = KExplicit -> lexical_explicit root e.
  Proof.
    intros Hl K. destruct (explicit_refs root F l e Hl K) as (st & f & d & i & j & k & A1 & B1 & C1 & A2 & A3 & B2 & B3 & C2 & C3).
    destruct (target_placed _ st _ A2 A3 ltac:(discriminate)) as (Ps & _). destruct (target_placed _ f _ B2 B3 ltac:(discriminate)) as (_ & Pf). destruct (Pf ltac:(auto)) as (fd & fv & Ff & Hfv & Nf & Lf). destruct (target_placed _ d _ C2 C3 ltac:(discriminate)) as (Pd & _).
    exists (target st), (t_name fv), (target d). split.
    - unfold explicit_lines. rewrite A1. cbn [bind]. rewrite (ref_path_target root F _ _ _ A2 A3). cbn [bind]. rewrite B1. cbn [bind]. unfold ref_name, ref_loc. rewrite Ff. cbn [bind]. rewrite Hfv. cbn [bind]. rewrite C1. cbn [bind]. rewrite (ref_path_target root F _ _ _ C2 C3). reflexivity.
    - split; [exact Ps|]. split; [exact Nf|]. split; [now apply placed_pathed|]. unfold normal_explicit.
      assert (Q : forall x q g, only (children_like e q) = Ok x -> (forall k, q k = match k with KRef r => g r | _ => false end) -> sole (refers g e) = target x).
      { intros x q g Ho Hq. rewrite (refers_like g q e Hq). destruct (children_like e q) as [|y [|z ys]]; try discriminate. now injection Ho as ->. }
      rewrite (Q st _ to_structure A1) by (intros []; reflexivity). rewrite (Q f _ to_field B1) by (intros []; reflexivity). rewrite (Q d _ to_resource C1) by (intros []; reflexivity). now rewrite Lf.
  Qed.
  Lemma child_some q c p0 t i : at_loc root q = Some t -> at_loc root (q ++ [i])%list = Some c -> p0 (t_kind c) = true -> In c (children_like t p0).
  Proof. intros Ht Hc K. unfold children_like. apply filter_In. split; [|exact K]. rewrite at_loc_app, Ht in Hc. cbn in Hc. destruct (nth_error (t_children t) i) eqn:Q; [|discriminate]. injection Hc as ->. exact (nth_error_In _ _ Q). Qed.
  Lemma resource_lexical l u p a r : at_loc root l = Some u -> In p s -> In a (pn_archives p) -> In r (pa_resources a) -> resource_is root l r -> lexical_resource root u.
  Proof.
    intros Hl Hp Ha Hr X. destruct X as (opt & m & cs & E & _ & Ox & Ot & _). rewrite Hl in E. injection E as ->. written p Hp. destruct (W4 a Ha) as (_ & _ & Wr'). rewrite Forall_forall in Wr'. destruct (Wr' r Hr) as (Nr & Wt).
    eexists _, _, _. split; [reflexivity|]. split; [exact Nr|]. split.
    { intros e He. unfold explicits_in in He. apply filter_In in He as (He & Ke). apply In_nth_error in He as (i & Hi). apply (explicit_lexical (l ++ [i])%list); [exact (at_child root l _ i e Hl Hi)|]. destruct (t_kind e); try discriminate. reflexivity. }
    set (t := Node (pr_name r) (KResource (resource_kind (pr_type r)) opt m) cs) in *.
    assert (Pl : forall c, In c (children_like t is_structure_ref) -> NormText.placed (target c)).
    { intros c Hc. apply children_like_in in Hc as (Hc & Kc). apply In_nth_error in Hc as (i & Hi). destruct (t_kind c) as [| | | | | | | | | |q] eqn:K; try discriminate. destruct q; try discriminate. exact (proj1 (target_placed _ c _ (at_child root l t i c Hl Hi) K ltac:(discriminate))). }
    assert (Pr : forall rk, resource_kind (pr_type r) = rk -> rk = KInstance \/ rk = KVector \/ (exists w, rk = KMultivector w) -> type_params root (referenced_structures t) = Ok (refers to_structure t)).
    { intros rk Ek Hk. rewrite structure_like. apply (params_is root F U l t rk opt m Hl); [unfold t; cbn [t_kind]; now rewrite Ek|exact Hk]. }
    assert (One : forall rk, resource_kind (pr_type r) = rk -> rk = KInstance \/ rk = KVector -> exists p0, refers to_structure t = [p0] /\ NormText.placed p0 /\ type_params root (referenced_structures t) = Ok [p0]).
    { intros rk Ek Hk. pose proof (shape_refs root F l t rk opt m Hl ltac:(unfold t; cbn [t_kind]; now rewrite Ek)) as Sh. assert (Q : exists c, children_like t is_structure_ref = [c]).
      { destruct Hk as [->| ->]; destruct (Sh ltac:(discriminate)) as (c & Ec & _); eauto. }
      destruct Q as (c & Ec). exists (target c). rewrite structure_like, Ec. split; [reflexivity|]. split; [apply Pl; rewrite Ec; now left|]. rewrite (Pr rk Ek ltac:(tauto)), structure_like, Ec. reflexivity. }
    destruct (pr_type r) as [|n|w ns|n|n] eqn:Et; cbn [resource_kind].
    - destruct (type_params_total root F l t (referenced_structures t) Hl (fun c Hc => referenced_refs root F l t c Hl Hc)) as (ps & Q). eauto.
    - exact (One KVector eq_refl ltac:(auto)).
    - split; [lia|]. assert (Ne : children_like t is_structure_ref <> []).
      { destruct ns as [|n ns]; [congruence|]. specialize (Ot 0%nat (RStructure, n) eq_refl) as (d & v & (c & Hc & Kc & _) & _). intros Q. assert (Hin : In c (children_like t is_structure_ref)) by (apply (child_some l c is_structure_ref t _ Hl Hc); now rewrite Kc). rewrite Q in Hin. destruct Hin. }
      split; [rewrite structure_like; intros Q; apply map_eq_nil in Q; contradiction|]. split; [|apply (Pr _ eq_refl); right; right; eexists; reflexivity].
      rewrite structure_like. apply Forall_map, Forall_forall. exact Pl.
    - destruct (archive_target root F l t opt m Hl eq_refl) as (c & i & Ec & Hi & Kc). exists (target c). rewrite archive_like, Ec. split; [reflexivity|]. split; [exact (proj1 (target_placed _ c _ Hi Kc ltac:(discriminate)))|].
      destruct (resource_type_total root F l t Hl eq_refl) as (ty & Ty). rewrite Ty. f_equal. destruct (type_words root F U l t KArchiveRes opt m ty Hl eq_refl Ty) as (c' & i' & Ec' & _ & _ & ->). rewrite Ec in Ec'. now injection Ec' as <-.
    - exact (One KInstance eq_refl ltac:(auto)).
  Qed.
  Lemma bound_lexical l u p a b : at_loc root l = Some u -> In p s -> In a (pn_archives p) -> In b (pa_bound a) -> bound_is root l b -> lexical_bound root u.
  Proof.
    intros Hl Hp Ha Hb X. destruct X as (m & cs & E & L & O). rewrite Hl in E. injection E as ->. written p Hp. destruct (W4 a Ha) as (_ & Wb & _). rewrite Forall_forall in Wb. destruct (Wb b Hb) as (Nb & Ne).
    split; [exact Nb|]. cbn [t_children]. split; [intros ->; cbn in L; destruct (snd b); [congruence|discriminate]|]. intros c Hc. apply In_nth_error in Hc as (i & Hi). pose proof (at_child root l _ i c Hl Hi) as Hci.
    destruct (nth_error (snd b) i) as [n|] eqn:Hn; [|apply nth_error_None in Hn; assert (Q : nth_error cs i <> None) by congruence; apply nth_error_Some in Q; lia].
    destruct (O i (RResource, n)) as (d & v & (c' & Hc' & Kc & _) & _); [now rewrite nth_error_map, Hn|]. cbn [Nat.add fst] in Hc', Kc. rewrite Hci in Hc'. injection Hc' as <-.
    split; [unfold is_ref; now rewrite Kc|]. split; [exact (ref_path_target root F _ c _ Hci Kc)|]. exact (proj1 (target_placed _ c _ Hci Kc ltac:(discriminate))).
  Qed.

  Theorem all_ready l u : at_loc root l = Some u -> is_supported (t_kind u) = true -> ~ In "_builtin" (namespaces root l) ->
    exists p, In p s /\ ready root (l, u) (normal_block (pn_name p) u).
  Proof.
    intros Hl K Nb. assert (Kd : defines (t_kind u) = true) by (destruct (t_kind u); try discriminate; reflexivity). destruct (known l u Hl Kd Nb) as (p & Hp & Ns & Nn & _ & D). exists p. split; [exact Hp|]. exists (pn_name p). cbn [fst snd].
    split; [exact Ns|]. split; [exact Nn|]. split; [|reflexivity]. split; [exact (known_name p l u Hp Hl D)|]. destruct D as [(c & Hc & v & _ & E)|[(c & Hc & X)|[(c & Hc & X)|(c & Hc & X)]]].
    - rewrite Hl in E. injection E as ->. cbn [t_kind]. written p Hp. apply (W1 c Hc).
    - destruct X as (sz & cs & E & L & O). assert (Ku : t_kind u = KStructure (Some sz)) by (rewrite Hl in E; now injection E as ->). rewrite Ku. destruct (fields_named l u _ Hl Ku Nb) as (p' & st & Hp' & Hst & _ & Hf).
      split.
      + rewrite Hl in E. injection E as ->. written p Hp. destruct (W2 c Hc) as (_ & Ne & _). destruct cs as [|x cs]; [cbn in L; destruct (ps_fields c); [congruence|discriminate]|]. unfold fields_in. cbn [t_children filter].
        destruct (Hf 0%nat x eq_refl) as (f & _ & (ty & off & cs' & Ef & _) & Hx & _). rewrite Hx in Ef. injection Ef as ->. discriminate.
      + intros f Hin. unfold fields_in in Hin. apply filter_In in Hin as (Hin & _). apply In_nth_error in Hin as (i & Hi). destruct (Hf i f Hi) as (pf & Hpf & Xf & Hx & _). exact (field_lexical _ f p' st pf Hx Hp' Hst (nth_error_In _ _ Hpf) Xf).
    - assert (exists b, t_kind u = KEnum b) as (b & Ku). { destruct X as (b & cs & ex & vs & E & _). rewrite Hl in E. injection E as ->. eexists; reflexivity. } rewrite Ku. exact (enum_lexical p l u c b Hp Hc X Hl Ku Nb).
    - assert (Ku : t_kind u = KArchive). { destruct X as (cs & E & _). rewrite Hl in E. now injection E as ->. } rewrite Ku. destruct (archive_parts l u Hl Ku Nb) as (p' & a & Hp' & Ha & Hf). split.
      + intros r Hr. unfold resources_in in Hr. apply filter_In in Hr as (Hin & Kr). apply In_nth_error in Hin as (i & Hi). pose proof (at_child root l u i r Hl Hi) as Hz. destruct (Hf i r Hi) as [(x & Hx & Y)|[(x & Hx & Y)|Y]].
        * exact (resource_lexical _ r p' a x Hz Hp' Ha Hx Y).
        * destruct Y as (m & cs & E & _). rewrite Hz in E. injection E as ->. discriminate.
        * rewrite Y in Kr. discriminate.
      + intros r Hr. unfold bounds_in in Hr. apply filter_In in Hr as (Hin & Kr). apply In_nth_error in Hin as (i & Hi). pose proof (at_child root l u i r Hl Hi) as Hz. destruct (Hf i r Hi) as [(x & Hx & Y)|[(x & Hx & Y)|Y]].
        * destruct Y as (opt & m & cs & E & _). rewrite Hz in E. injection E as ->. destruct (pr_type x); discriminate.
        * exact (bound_lexical _ r p' a x Hz Hp' Ha Hx Y).
        * rewrite Y in Kr. discriminate.
  Qed.
End Ready.
