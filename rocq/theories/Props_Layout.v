(** C102: the order of declarations makes no difference to the layout of structures. *)
From Coq Require Import List ZArith Bool String Ascii Lia Permutation.
From Verif Require Import PyBase PyText Spec GenSpec GenTypes GenTypesFacts GenTree GenTreeFacts GenBuild GenBuildFacts GenPassFacts GenAstSpec GenAstThms GenMergeFacts GenFinal
  GenWords Props_GenTree Props_GenOutput GrammarSpec Grammar GrammarNames Props_Grammar DeclSpec Props_Decl AcceptSpec AcceptCreate AcceptCarry Props_Accept MergeBuiltins MergeNames OrderSpec Props_Order Props_Hash Props_OrderText LayoutFacts.
Import ListNotations.
Local Open Scope list_scope.
Local Open Scope Z_scope.

(** The names of the fields, what they hold (bits, and whether signed) and where *)
Definition layout_of (cs : list tree) : list (string * option (Z * bool) * option Z) :=
  map (fun c => match t_kind c with
                | KField _ ty off => (t_name c, option_map (fun ty => (ft_width ty, ft_signed ty)) ty, off)
                | _ => (t_name c, None, None)
                end) cs.

Definition entry (c : tree) : string * option ftype * option Z := match t_kind c with KField _ ty off => (t_name c, ty, off) | _ => (t_name c, None, None) end.
Lemma fields_entries cs : (forall c, In c cs -> exists r ty off, t_kind c = KField r ty off) -> fields_of cs = map entry cs.
Proof.
  induction cs as [|c cs IH]; intros H; [reflexivity|]. cbn [fields_of flat_map map]. fold (fields_of cs). rewrite IH by (intros; apply H; now right).
  destruct (H c (or_introl eq_refl)) as (r & ty & off & E). unfold entry at 2. now rewrite E.
Qed.

Lemma nth_ext {X} (xs ys : list X) : (forall i, nth_error xs i = nth_error ys i) -> xs = ys.
Proof. revert ys. induction xs as [|x xs IH]; intros [|y ys] H; [reflexivity|specialize (H 0%nat); discriminate|specialize (H 0%nat); discriminate|]. pose proof (H 0%nat) as E. cbn in E. injection E as ->. f_equal. apply IH. intros i. exact (H (S i)). Qed.

(** the reference to the type comes after those to the constants *)
Lemma enum_position root l f n k cs : at_loc root l = Some (Node n k cs) -> List.length cs = S (List.length (constants_used (pf_decs f))) -> in_order (mention root) l 0 (constants_used (pf_decs f)) ->
  forall j q x, points_to root (l ++ [j]) (REnum q) x -> j = List.length (constants_used (pf_decs f)).
Proof.
  intros Hl L O j q x (v & Hv & Kv & _). destruct (parent_at _ _ _ _ Hv) as (u & Hu & Hj). rewrite Hl in Hu. injection Hu as <-. cbn in Hj.
  assert (Lj : (j < List.length cs)%nat) by (apply nth_error_Some; congruence). destruct (Nat.eq_dec j (List.length (constants_used (pf_decs f)))) as [E|N]; [exact E|exfalso].
  destruct (nth_error (constants_used (pf_decs f)) j) as [m|] eqn:M; [|apply nth_error_None in M; lia].
  destruct (O j m M) as (d & y & (z & Hz & Kz & _) & _). cbn [plus] in Hz. rewrite Hv in Hz. injection Hz as <-. rewrite Kv in Kz. injection Kz as Kz.
  apply nth_error_In in M. unfold constants_used in M. apply in_flat_map in M as (de & _ & M). destruct de; cbn in M; [destruct M|destruct M as [<-|[]]; discriminate|destruct M as [<-|[]]; discriminate].
Qed.

Lemma basic_same n sg w sg' w' : In (n, (sg, w)) basic_types -> In (n, (sg', w')) basic_types -> sg = sg' /\ w = w'.
Proof. intros H H'. destruct (signed_name _ _ _ H) as (-> & A). destruct (signed_name _ _ _ H') as (-> & B). rewrite A in B. injection B as ->. auto. Qed.

Section Same.
  Variables (so : list Z -> list Z) (s s' : pschema) (a b t t' : tree).
  Hypothesis (Hso : any_order so) (E : same_schema s s') (I : identifiers s) (I' : identifiers s') (Sp : separated s) (NB : no_builtin s)
    (Ha : declared_tree so s = Ok a) (Hb : declared_tree so s' = Ok b) (H : build_ast so s = Ok t) (H' : build_ast so s' = Ok t').

  Lemma structures_same st l l' : path_at t l = path_at t' l' -> structure_is t l st -> structure_is t' l' st ->
    exists size cs cs', at_loc t l = Some (Node (ps_name st) (KStructure (Some size)) cs) /\ at_loc t' l' = Some (Node (ps_name st) (KStructure (Some size)) cs') /\ layout_of cs = layout_of cs'.
  Proof using All.
    intros P (size & cs & Hl & Ln & O) (size' & cs' & Hl' & Ln' & O').
    destruct (same_declared so s s' a b Hso E I I' Sp NB Ha Hb) as (Ga & Gb & A).
    destruct (final_carries so s a t Hso I Sp NB Ha H) as (_ & Gt & Ca). destruct (final_carries so s' b t' Hso I' (same_separated _ _ E Sp) (same_no_builtin _ _ E NB) Hb H') as (_ & Gt' & Cb).
    destruct (struct_carried a t l _ _ Ca Hl eq_refl) as (u & Hu & (sz & Ku) & Nu). destruct (struct_carried b t' l' _ _ Cb Hl' eq_refl) as (u' & Hu' & (sz' & Ku') & Nu').
    assert (S : same_place a b l l'). { apply (place_of a b t t' Ga Gb A Gt Gt' Ca Cb l l' u u' P Hu Hu'); unfold is_ref; [now rewrite Ku|now rewrite Ku']. }
    (* the fields *)
    assert (F : forall i f, nth_error (ps_fields st) i = Some f -> exists c c' r r' ty ty' off off', nth_error cs i = Some c /\ nth_error cs' i = Some c' /\ t_name c = t_name c'
      /\ t_kind c = KField r (Some ty) (Some off) /\ t_kind c' = KField r' (Some ty') (Some off') /\ ft_width ty = ft_width ty' /\ ft_signed ty = ft_signed ty').
    { intros i f Hi. pose proof (O i f Hi) as Of. pose proof (O' i f Hi) as Of'. cbn [plus] in Of, Of'.
      destruct Of as (ty & off & xs & Hf & M & T). destruct Of' as (ty' & off' & xs' & Hf' & M' & T').
      destruct (parent_at _ _ _ _ Hf) as (p & Hp & Hc). rewrite Hl in Hp. injection Hp as <-. destruct (parent_at _ _ _ _ Hf') as (p' & Hp' & Hc'). rewrite Hl' in Hp'. injection Hp' as <-. cbn in Hc, Hc'.
      do 2 eexists. exists (hd_error (ranges (pf_decs f))), (hd_error (ranges (pf_decs f))), ty, ty', off, off'.
      split; [exact Hc|]. split; [exact Hc'|]. split; [reflexivity|]. split; [reflexivity|]. split; [reflexivity|].
      destruct T as [(sg & w & B & _ & ->)|(B & L & T)], T' as [(sg' & w' & B' & _ & ->)|(B' & L' & T')].
      - destruct (basic_same _ _ _ _ _ B B') as (-> & ->). auto.
      - destruct B'. apply in_map_iff. now exists (pf_type f, (sg, w)).
      - destruct B. apply in_map_iff. now exists (pf_type f, (sg', w')).
      - cbn zeta in T, T'. destruct T as (_ & _ & d & e & be & sg & st0 & Pd & He & Ke & Bb & W & Sg & _). destruct T' as (_ & _ & d' & e' & be' & sg' & st0' & Pd' & He' & Ke' & Bb' & W' & Sg' & _).
        destruct (inside_carried a t l i _ u Ca Hf Hu ltac:(congruence)) as (c & Hca). destruct (inside_carried b t' l' i _ u' Cb Hf' Hu' ltac:(congruence)) as (c' & Hcb).
        destruct (cr_down _ _ Ca _ _ Hca) as (x & Hx & Kx & Nx). rewrite Hf in Hx. injection Hx as <-. destruct (cr_down _ _ Cb _ _ Hcb) as (x' & Hx' & Kx' & Nx'). rewrite Hf' in Hx'. injection Hx' as <-.
        cbn in Kx, Kx'. assert (Kc : exists q q0 q1, t_kind c = KField q q0 q1) by (destruct (t_kind c) as [| | |sz0|rg [ty0|] o|b0| | | | |]; cbn in Kx; try discriminate; try (now destruct Kx); eauto).
        assert (Kc' : exists q q0 q1, t_kind c' = KField q q0 q1) by (destruct (t_kind c') as [| | |sz0|rg [ty0|] o|b0| | | | |]; cbn in Kx'; try discriminate; try (now destruct Kx'); eauto).
        destruct Kc as (q & q0 & q1 & Kc). destruct Kc' as (q' & q0' & q1' & Kc').
        assert (Nc : t_name c = pf_name f) by (symmetry; apply Nx; unfold is_ref; now rewrite Kc). assert (Nc' : t_name c' = pf_name f) by (symmetry; apply Nx'; unfold is_ref; now rewrite Kc').
        assert (Sf : same_place a b (l ++ [i]) (l' ++ [i])).
        { destruct S as (ks & Fa & Fb). destruct (find_keys_loc _ _ _ Fa) as (Na & _). destruct (find_keys_loc _ _ _ Fb) as (Nb & _).
          destruct (parent_at _ _ _ _ Hca) as (y & Hy & Hyi). destruct (parent_at _ _ _ _ Hcb) as (y' & Hy' & Hyi').
          pose proof (names_snoc a l i y c _ Hy Hyi Na) as X. pose proof (names_snoc b l' i y' c' _ Hy' Hyi' Nb) as X'. rewrite Nc in X. rewrite Nc' in X'. rewrite (proj1 (proj2 Ga)) in X. rewrite (proj1 (proj2 Gb)) in X'.
          exact (names_place a b _ _ _ Ga Gb X X'). }
        assert (Be : be = be').
        { apply (enum_same a b t t' Ga Gb A Gt Gt' Ca Cb (l ++ [i]) (l' ++ [i]) _ _ _ d d' e e' be be' c c' Sf Hca ltac:(congruence) Hcb ltac:(congruence) Pd Pd'); try assumption.
          exact (enum_position t' (l' ++ [i]) f _ _ _ Hf' L' M'). }
        subst be'. rewrite W, W', Sg, Sg'. split; [reflexivity|]. exact (proj1 (basic_same _ _ _ _ _ Bb Bb')). }
    assert (Fi : forall i, (i < List.length (ps_fields st))%nat -> exists c c' r r' ty ty' off off', nth_error cs i = Some c /\ nth_error cs' i = Some c' /\ t_name c = t_name c'
      /\ t_kind c = KField r (Some ty) (Some off) /\ t_kind c' = KField r' (Some ty') (Some off') /\ ft_width ty = ft_width ty' /\ ft_signed ty = ft_signed ty').
    { intros i Li. destruct (nth_error (ps_fields st) i) as [f|] eqn:Hf; [exact (F i f Hf)|apply nth_error_None in Hf; lia]. }
    assert (Kf : fields_of cs = map entry cs).
    { apply fields_entries. intros c Hc. apply In_nth_error in Hc as (i & Hi). assert (Li : (i < List.length (ps_fields st))%nat) by (rewrite <- Ln; apply nth_error_Some; congruence).
      destruct (Fi i Li) as (c0 & c0' & r & r' & ty & ty' & off & off' & X & _ & _ & K & _). rewrite Hi in X. injection X as <-. eauto. }
    assert (Kf' : fields_of cs' = map entry cs').
    { apply fields_entries. intros c Hc. apply In_nth_error in Hc as (i & Hi). assert (Li : (i < List.length (ps_fields st))%nat) by (rewrite <- Ln'; apply nth_error_Some; congruence).
      destruct (Fi i Li) as (c0 & c0' & r & r' & ty & ty' & off & off' & _ & X & _ & _ & K & _). rewrite Hi in X. injection X as <-. eauto. }
    assert (Wd : map width_of (fields_of cs) = map width_of (fields_of cs')).
    { rewrite Kf, Kf', !map_map. apply nth_ext. intros i. rewrite !nth_error_map. destruct (Nat.lt_ge_cases i (List.length (ps_fields st))) as [Li|Li].
      - destruct (Fi i Li) as (c & c' & r & r' & ty & ty' & off & off' & -> & -> & _ & K & K' & W & _). cbn. f_equal. unfold entry, width_of. rewrite K, K'. exact W.
      - rewrite (proj2 (nth_error_None cs i)) by lia. rewrite (proj2 (nth_error_None cs' i)) by lia. reflexivity. }
    destruct (C36_layout so s t l _ _ _ Hso (identifiers_named _ I) H Hl) as (z & Ez & Tz & _ & Off & _). destruct (C36_layout so s' t' l' _ _ _ Hso (identifiers_named _ I') H' Hl') as (z' & Ez' & Tz' & _ & Off' & _).
    injection Ez as Ez. injection Ez' as Ez'. assert (Es : size = size') by (rewrite Ez, Ez', Tz, Tz', Wd; reflexivity). clear Ez Ez' Tz Tz'. subst size'.
    exists size, cs, cs'. split; [exact Hl|]. split; [exact Hl'|]. unfold layout_of. apply nth_ext. intros i. rewrite !nth_error_map. destruct (Nat.lt_ge_cases i (List.length (ps_fields st))) as [Li|Li].
    - destruct (Fi i Li) as (c & c' & r & r' & ty & ty' & off & off' & Hc & Hc' & N & K & K' & W & Sg). rewrite Hc, Hc'. cbn. f_equal. rewrite K, K', N. cbn. rewrite W, Sg. f_equal.
      destruct (Off i (t_name c) (Some ty) (Some off)) as (_ & _ & _ & Eo). { rewrite Kf, nth_error_map, Hc. cbn. unfold entry. now rewrite K. }
      destruct (Off' i (t_name c') (Some ty') (Some off')) as (_ & _ & _ & Eo'). { rewrite Kf', nth_error_map, Hc'. cbn. unfold entry. now rewrite K'. }
      rewrite Eo, Eo'. do 2 f_equal. rewrite <- !firstn_map. now rewrite Wd.
    - rewrite (proj2 (nth_error_None cs i)) by lia. rewrite (proj2 (nth_error_None cs' i)) by lia. reflexivity.
  Qed.
End Same.

(** C102: a structure has the same size in both, and its fields have the same names, widths, signs and offsets: data written with
    one schema means the same when read with the other. *)
Theorem C102_layout : forall so s s' t t' n st, any_order so -> same_schema s s' -> identifiers s -> identifiers s' -> separated s -> no_builtin s ->
  build_ast so s = Ok t -> build_ast so s' = Ok t' -> In (n, OfStructure st) (definitions s) ->
  exists l l' size cs cs', path_at t l = Some ("." ++ n ++ "." ++ ps_name st)%string /\ path_at t' l' = Some ("." ++ n ++ "." ++ ps_name st)%string
    /\ at_loc t l = Some (Node (ps_name st) (KStructure (Some size)) cs) /\ at_loc t' l' = Some (Node (ps_name st) (KStructure (Some size)) cs') /\ layout_of cs = layout_of cs'.
Proof.
  intros so s s' t t' n st Hso E I I' Sp NB H H' Hd.
  destruct (C102_contents so s s' t t' Hso E I I' Sp NB H H' n _ (or_introl Hd)) as ((l & P & Sl) & (l' & P' & Sl')). cbn in P, P', Sl, Sl'.
  assert (D : exists a, declared_tree so s = Ok a). { unfold build_ast in H. apply bind_ok in H as (r1 & H1 & H). apply bind_ok in H as (r2 & H2 & _). exists r2. unfold declared_tree. now rewrite H1. }
  assert (D' : exists a, declared_tree so s' = Ok a). { unfold build_ast in H'. apply bind_ok in H' as (r1 & H1 & H'). apply bind_ok in H' as (r2 & H2 & _). exists r2. unfold declared_tree. now rewrite H1. }
  destruct D as (a & Ha). destruct D' as (b & Hb).
  destruct (structures_same so s s' a b t t' Hso E I I' Sp NB Ha Hb H H' st l l' ltac:(congruence) Sl Sl') as (size & cs & cs' & X & X' & Y).
  exists l, l', size, cs, cs'. auto.
Qed.
Print Assumptions C102_layout.

(** C102: the same for schema texts, whatever the order of sets. *)
Theorem C102_text_layout : forall so so' text text' s s' t t' n st, any_order so -> any_order so' -> denotes text s -> denotes text' s' -> same_schema s s' -> separated s -> no_builtin s ->
  build_text so text = Ok t -> build_text so' text' = Ok t' -> In (n, OfStructure st) (definitions s) ->
  exists l l' size cs cs', path_at t l = Some ("." ++ n ++ "." ++ ps_name st)%string /\ path_at t' l' = Some ("." ++ n ++ "." ++ ps_name st)%string
    /\ at_loc t l = Some (Node (ps_name st) (KStructure (Some size)) cs) /\ at_loc t' l' = Some (Node (ps_name st) (KStructure (Some size)) cs') /\ layout_of cs = layout_of cs'.
Proof.
  intros so so' text text' s s' t t' n st Hso Hso' D D' E S N H H'.
  pose proof (denotes_identifiers _ _ D) as I. pose proof (denotes_identifiers _ _ D') as I'. apply C68_parse in D. apply C68_parse in D'. unfold build_text in H, H'.
  rewrite D in H. rewrite D' in H'. cbn [bind] in H, H'. apply (C103_accepted so' so s' t' Hso' Hso) in H'. exact (C102_layout so s s' t t' n st Hso E I I' S N H H').
Qed.
Print Assumptions C102_text_layout.

(** The texts of C102_text_instance meet the hypotheses; their structure has an integer and an enumeration. *)
Example C102_layout_instance : exists st, In ("n"%string, OfStructure st) (definitions (schema_of forwards_text)) /\ ps_name st = "S"%string
  /\ exists t l cs, build_text same_order forwards_text = Ok t /\ path_at t l = Some ".n.S"%string /\ at_loc t l = Some (Node "S" (KStructure (Some 10)) cs)
     /\ layout_of cs = [("x"%string, Some (8, false), Some 0); ("e"%string, Some (2, false), Some 8)].
Proof.
  eexists. split; [vm_compute; right; left; reflexivity|]. split; [reflexivity|].
  destruct (build_text same_order forwards_text) as [t|] eqn:E; [|vm_compute in E; discriminate]. exists t.
  assert (X : match build_text same_order forwards_text with Ok t => match find t ".n.S" with Some l => match at_loc t l with Some (Node n k cs) => Some (l, n, k, layout_of cs, path_at t l) | None => None end | None => None end | Err _ => None end
    = Some ([0; 1]%nat, "S"%string, KStructure (Some 10), [("x"%string, Some (8, false), Some 0); ("e"%string, Some (2, false), Some 8)], Some ".n.S"%string)) by (vm_compute; reflexivity).
  rewrite E in X. destruct (find t ".n.S") as [l|]; [|discriminate]. destruct (at_loc t l) as [[n k cs]|] eqn:Hl; [|discriminate]. injection X as El En Ek Ec Ep.
  exists l, cs. rewrite En, Ek in Hl. auto.
Qed.
