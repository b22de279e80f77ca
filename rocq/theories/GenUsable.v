(** Generated archive classes meet the conditions of the library's theorems. *)
From Coq Require Import List ZArith Bool String Ascii Lia.
From Verif Require Import PyBase Spec PyText Structure StructSpec Resources ResourceSpec Builder ArchiveSpec HistorySpec
  GenTypes GenTypesFacts GenTree GenTreeFacts GenTraversal GraphSpec GenBuild GenAstSpec GenBuildFacts GenPassFacts GenResolveFacts GenLayoutFacts GenShapeFacts GenAstThms GenEvery GenTidy GenWords GenFlatdata GenInk
  GenOutSpec GenOutFacts GenFinal GenRender GenModule GenClassNames UsableSpec.
Import ListNotations.
Local Open Scope string_scope.
Local Open Scope Z_scope.

(** ** Texts *)
Lemma ascii_valid s : only_chars text_char s = true -> utf8_valid (ascii_bytes s) = true.
Proof.
  induction s as [|c s IH]; intros H; [reflexivity|]. cbn in H. apply andb_true_iff in H as (Hc & H). specialize (IH H). unfold ascii_bytes in *. cbn [list_ascii_of_string map]. cbn [utf8_valid].
  match goal with |- context [if ?b <? _ then _ else _] => replace (b <? 128) with true; [exact IH|] end. symmetry. apply Z.ltb_lt.
  unfold text_char, ink_char in Hc. apply orb_true_iff in Hc as [Hc|Hc]; [apply orb_true_iff in Hc as [Hc|Hc]|]; [|apply Ascii.eqb_eq in Hc; subst; reflexivity|apply Ascii.eqb_eq in Hc; subst; reflexivity].
  apply andb_true_iff in Hc as (Hc & _). apply andb_true_iff in Hc as (_ & Hc). apply N.leb_le in Hc. unfold nat_of_ascii. lia.
Qed.
Lemma mapM_parts {A B} (f : A -> res B) l ys x : mapM f l = Ok ys -> In x l -> exists y, f x = Ok y /\ In y ys.
Proof.
  revert ys. induction l as [|a l IH]; intros ys H Hx; [destruct Hx|]. cbn in H. apply bind_ok in H as (y & Hy & H). apply bind_ok in H as (zs & Hz & H). injection H as <-.
  destruct Hx as [->|Hx]; [exists y; split; [exact Hy|now left]|]. destruct (IH zs Hz Hx) as (y' & E & Hi). exists y'. split; [exact E|now right].
Qed.
Lemma text_nonempty ls x : In x ls -> text ls <> "".
Proof. destruct ls as [|l ls]; intros [] E; cbn in E; unfold line_text in E; destruct (join " " l); discriminate. Qed.
Lemma bytes_nonempty s : s <> "" -> ascii_bytes s <> [].
Proof. intros H E. destruct s; [congruence|discriminate]. Qed.

Lemma forall2_len {A B} (P : A -> B -> Prop) l m : Forall2 P l m -> List.length l = List.length m.
Proof. induction 1; cbn; congruence. Qed.

Section Usable.
  Variable root : tree.
  Hypothesis F : finished root.
  Let Bu := f_built root F.

  Lemma block_nonempty l t ls : block root l t = Ok ls -> In [""] ls.
  Proof. unfold block. intros H. apply bind_ok in H as (d & _ & H). injection H as <-. apply in_or_app. right. apply in_or_app. right. apply in_or_app. right. now left. Qed.

  (** the text of a node at or below an archive (or structure) outside the generator's own namespace is not empty *)
  Lemma schema_nonempty (p q : loc) u t s : at_loc root (p ++ q)%list = Some u -> is_ref u = false -> at_loc root p = Some t -> is_supported (t_kind t) = true -> is_builtin root p = false ->
    schema_text root (p ++ q)%list = Ok s -> s <> "".
  Proof.
    intros Hu Ru Hp Kp Nb H. unfold schema_text, schema_lines in H. apply bind_ok in H as (ls & H & E). injection E as <-. apply bind_ok in H as (order & Ho & H). apply bind_ok in H as (bs & Hb & H). injection H as <-.
    destruct (vorder_spec root (p ++ q)%list u Bu Hu Ru) as (order' & Eo & _ & Hin & _). rewrite Ho in Eo. injection Eo as <-.
    destruct (mapM_parts _ _ _ (true, p) Hb) as (y & Ey & Hy); [apply Hin; exists q; reflexivity|]. unfold vblock in Ey. destruct (view root (p ++ q)%list (true, p)) as [v|] eqn:Ev; [|discriminate].
    assert (Kv : t_kind v = t_kind t).
    { unfold view in Ev. cbn [fst snd] in Ev. rewrite Hp in Ev. destruct (nth_error (p ++ q)%list (List.length p)); [|now injection Ev as <-]. destruct (nth_error (t_children t) n); [|discriminate]. now injection Ev as <-. }
    cbn [snd] in Ey. rewrite Kv, Kp, Nb in Ey. apply block_nonempty in Ey. apply (text_nonempty _ [""]). apply in_concat. eauto.
  Qed.

  (** ** Structures *)
  Lemma layout_ascending fs cs : layout_is fs cs -> forall start size limit, consecutive start (fields_of cs) size -> size <= limit -> ascending start fs limit.
  Proof.
    induction 1 as [|f c fs cs (rng & ty & K & _ & Wf & _) _ IH]; intros start size limit C L; cbn in C |- *; [lia|]. unfold fields_of in C. cbn in C. rewrite K in C. cbn in C.
    destruct C as (E & f' & Ef & C). injection E as ->. injection Ef as <-. split; [lia|]. rewrite Wf. exact (IH _ size limit C L).
  Qed.
  Lemma layout_names fs cs : layout_is fs cs -> map f_name fs = map t_name cs.
  Proof. induction 1 as [|f c fs cs (rng & ty & _ & N & _) _ IH]; [reflexivity|]. cbn. now rewrite N, IH. Qed.
  Lemma sibling_names l t : at_loc root l = Some t -> NoDup (map t_name (t_children t)).
  Proof. intros H. exact (proj1 (wf_here t (wf_at root l t (wf_root root F) H))). Qed.
  Lemma struct_ok l sd : usable_layouts root -> struct_is root l sd -> sdef_ok sd /\ s_fields sd <> [].
  Proof.
    intros U S. destruct (U l sd S) as (Ne & Wd & U6). split; [|exact Ne]. destruct S as (n & bits & cs & Hl & _ & Sz & La & Ks).
    destruct (b_layout root Bu l n (Some bits) cs Hl) as (size & E & C). injection E as <-.
    assert (Fw : Forall (fun f => 0 <= f_width f <= 64) (s_fields sd)).
    { assert (X : forall c, In c cs -> forall rng ty off, t_kind c = KField rng (Some ty) off -> 0 <= ft_width ty <= 64).
      { intros c Hc rng ty off K. apply In_nth_error in Hc as (j & Hj). assert (At : at_loc root (l ++ [j])%list = Some c) by (rewrite at_loc_app, Hl; cbn; now rewrite Hj).
        pose proof (proj1 (b_rooted _ Bu) _ _ At) as (_ & _ & Q). rewrite K in Q. exact (proj1 (proj2 Q)). }
      clear - La X. induction La as [|f c fs cs (rng & ty & K & _ & Wf & _) _ IH]; constructor; [rewrite Wf; exact (X c (or_introl eq_refl) _ _ _ K)|]. apply IH. intros d Hd. apply X. now right. }
    assert (Nn : 0 <= bits).
    { pose proof (consecutive_total _ _ _ C) as T. assert (Y : forall gs, incl gs (fields_of cs) -> 0 <= total (map width_of gs)); [|specialize (Y _ (incl_refl _)); unfold total, width_of in Y; lia].
      assert (Z : Forall (fun g => 0 <= width_of g) (fields_of cs)).
      { clear - La Fw. revert Fw. induction La as [|f c fs cs (rng & ty & K & _ & Wf & _) _ IH]; intros Fw; [constructor|]. inversion Fw; subst. unfold fields_of. cbn. rewrite K. cbn. constructor; [cbn; lia|]. now apply IH. }
      rewrite Forall_forall in Z. induction gs as [|g gs IH]; intros Hi; [cbn; lia|]. cbn [map]. change (total (width_of g :: map width_of gs)) with (width_of g + total (map width_of gs)).
      pose proof (Z g (Hi g (or_introl eq_refl))). specialize (IH (fun x Hx => Hi x (or_intror Hx))). lia. }
    assert (Sb : bits <= 8 * s_size sd /\ 0 <= s_size sd) by (rewrite Sz; pose proof (Z.div_mod (bits + 7) 8 ltac:(lia)); pose proof (Z.mod_pos_bound (bits + 7) 8 ltac:(lia)); lia).
    split; [lia|]. split; [exact (layout_ascending _ _ La 0 bits _ C (proj1 Sb))|]. split; [|split; [exact U6|split; [|exact Ks]]].
    - clear - Fw Wd. rewrite Forall_forall in *. intros f Hf. destruct (Fw f Hf), (Wd f Hf). split; [lia|assumption].
    - rewrite (layout_names _ _ La). exact (sibling_names l _ Hl).
  Qed.
  Lemma struct_unique l sd sd' : struct_is root l sd -> struct_is root l sd' -> s_name sd = s_name sd' /\ s_fields sd = s_fields sd' /\ s_size sd = s_size sd'.
  Proof.
    intros (n & bits & cs & Hl & N & Sz & La & _) (n' & bits' & cs' & Hl' & N' & Sz' & La' & _). rewrite Hl in Hl'. injection Hl' as <- <- <-. split; [congruence|]. split; [|congruence].
    clear - La La'. revert La'. generalize (s_fields sd'). induction La as [|f c fs cs (rng & ty & K & Nf & Wf & Sf) _ IH]; intros fs' L; inversion L as [|f' ? ? ? (rng' & ty' & K' & Nf' & Wf' & Sf')]; subst; [reflexivity|].
    f_equal; [|now apply IH]. rewrite K in K'. injection K' as _ <- E. destruct f, f'; cbn in *; congruence.
  Qed.
  Lemma index_ok l t w o m it : usable_layouts root -> at_loc root l = Some t -> t_kind t = KResource (KMultivector w) o m -> structs_of root l RBuiltin [it] -> exists w', index_def_ok it w' /\ s_fields it <> [] /\ (forall f, In f (s_fields it) -> f_width f = w').
  Proof.
    intros U Hl K (t' & Ht' & S). rewrite Hl in Ht'. injection Ht' as <-. destruct (f_index root F l t w o m Hl K) as (i & c & d & v & Hc & Kc & Fd & Hd & (Wb & Ev) & _).
    destruct (parent_at _ _ _ _ Hc) as (t' & Ht' & Hi). rewrite Hl in Ht'. injection Ht' as <-.
    match type of S with Forall2 _ ?x _ => assert (Hin : In c x) by (apply filter_In; split; [exact (nth_error_In _ _ Hi)|now rewrite Kc]) end.
    inversion S as [|c' it' cs' l' Hs S' E1 E2]; subst. inversion S'; subst. rewrite <- E1 in Hin. destruct Hin as [->|[]]. destruct Hs as (d' & Pd & Sd).
    assert (d' = d). { apply path_find in Pd; [rewrite Fd in Pd; now injection Pd|exact (wf_root root F)|apply rooted_dot; exact (b_rooted _ Bu)]. } subst d'.
    destruct (U d it Sd) as (_ & Wd & _).
    set (wd := if w =? 0 then 64 else Z.of_N (Z.to_N w)) in *. destruct Sd as (n & bits & cs & Hd' & _ & Sz & La & _). rewrite Hd in Hd'. injection Hd' as _ Eb Ecs. subst bits cs. inversion La as [|f x fs xs (rng & ty & Kf & Nf & Wf & Sf) L0 Ef]; subst. inversion L0; subst. cbn in Kf, Nf. injection Kf as _ <- Eo. cbn in Wf, Sf.
    assert (Efs : f = FSig "value" 0 wd false) by (destruct f; cbn in *; congruence). subst f. rewrite <- Ef in *. exists wd. inversion Wd as [|? ? (W1 & _) _]; subst. cbn in W1. split; [|split].
    - split; [now symmetry|]. split; [lia|exact Sz].
    - discriminate.
    - intros f [<-|[]]. reflexivity.
  Qed.

  (** ** Multivector types *)
  Lemma ref_named l x : at_loc root l = Some x -> is_ref x = true -> t_name x = referencify (target x).
  Proof.
    intros H R. unfold is_ref in R. destruct (t_kind x) as [| | | | | | | | | |r] eqn:K; try discriminate. pose proof (good_here _ (good_at _ _ _ (proj1 (b_rooted _ Bu)) H)) as Q. unfold node_ok in Q. rewrite K in Q. destruct Q as (_ & _ & (s & M) & _).
    pose proof (node_dot root l x (b_rooted _ Bu) H) as D. unfold target, dereferencify, referencify. rewrite M in *. cbn in D. f_equal. symmetry. apply replace_back; [exact D|discriminate].
  Qed.
  Lemma ref_target_eq c d v : path_at root d = Some (target c) -> at_loc root d = Some v -> find root (target c) = Some d.
  Proof. intros P _. apply path_find; [exact (wf_root root F)|apply rooted_dot; exact (b_rooted _ Bu)|exact P]. Qed.
  Lemma types_are l t w o m ts : usable_layouts root -> few_types root -> distinct_classes root -> at_loc root l = Some t -> t_kind t = KResource (KMultivector w) o m ->
    structs_of root l RStructure ts -> types_ok ts.
  Proof.
    intros U Ft (Dc & _) Hl K (t' & Ht' & S). rewrite Hl in Ht'. injection Ht' as <-. split; [|split].
    - match type of S with Forall2 _ ?x _ => assert (Nd : NoDup (map t_name x)) end.
      { pose proof (sibling_names l t Hl) as N. clear - N. induction (t_children t) as [|c cs IH]; [constructor|]. cbn [map] in N. inversion N as [|? ? Hn Nd]; subst. cbn [filter].
        match goal with |- context [if ?b then _ else _] => destruct b end; [|exact (IH Nd)]. cbn [map]. constructor; [|exact (IH Nd)]. intros Hi. apply Hn. apply in_map_iff in Hi as (x & <- & Hx). apply in_map. now apply filter_In in Hx as (Hx & _). }
      match type of S with Forall2 _ ?x _ => assert (Rf : forall c, In c x -> exists i, at_loc root (l ++ [i])%list = Some c /\ is_ref c = true) end.
      { intros c Hc. apply filter_In in Hc as (Hc & Kc). apply In_nth_error in Hc as (i & Hi). exists i. split; [rewrite at_loc_app, Hl; cbn; now rewrite Hi|]. unfold is_ref. now destruct (t_kind c). }
      revert S Nd Rf. match goal with |- Forall2 _ ?x _ -> _ => generalize x end. intros cs S. clear Ft. induction S as [|c sd cs sds (d & Pd & Sd) S IH]; intros Nd Rf; [constructor|]. cbn [map] in *. apply NoDup_cons_iff in Nd as (Hn & Nd').
      constructor; [|apply IH; [exact Nd'|intros x Hx; apply Rf; now right]]. intros Hi. apply in_map_iff in Hi as (sd' & En & Hs').
      assert (X : exists c' d', In c' cs /\ path_at root d' = Some (target c') /\ struct_is root d' sd').
      { clear - S Hs'. induction S as [|c0 s0 cs0 ss0 (d0 & P0 & S0) S IH]; [destruct Hs'|]. destruct Hs' as [->|H]; [exists c0, d0; split; [now left|auto]|]. destruct (IH H) as (c' & d' & Hc & Q). exists c', d'. split; [now right|exact Q]. }
      destruct X as (c' & d' & Hc' & Pd' & Sd'). destruct Sd as (n & b & cc & Hd & Nm & _). destruct Sd' as (n' & b' & cc' & Hd' & Nm' & _).
      assert (d = d') by (apply (Dc d _ d' _ Hd Hd'); [reflexivity|reflexivity|congruence]). subst d'. rewrite Pd in Pd'. injection Pd' as Et. apply Hn.
      destruct (Rf c (or_introl eq_refl)) as (i & Hci & Rc). destruct (Rf c' (or_intror Hc')) as (j & Hcj & Rc').
      assert (Nt : forall x k, at_loc root (l ++ [k])%list = Some x -> is_ref x = true -> t_name x = referencify (target x)).
      { intros x k Hx Rx. exact (ref_named (l ++ [k])%list x Hx Rx). }
      rewrite (Nt c i Hci Rc), Et, <- (Nt c' j Hcj Rc'). now apply in_map.
    - specialize (Ft l t w o m Hl K). apply forall2_len in S. unfold zlen in *. rewrite <- S. rewrite (filter_ext _ (fun c => is_structure_ref (t_kind c))); [exact Ft|]. intros x. destruct (t_kind x); try reflexivity.
    - clear Ft. induction S as [|c sd cs sds (d & Pd & Sd) S IH]; constructor; [exact (proj1 (struct_ok d sd U Sd))|exact IH].
  Qed.

  (** ** Files *)
  Lemma split_dot1 n : has_char "." n = false -> split_on "." n = [n]. Proof. apply split_no_char. Qed.
  Lemma split_dot2 n x : has_char "." n = false -> has_char "." x = false -> split_on "." (n ++ String "." x) = [n; x].
  Proof. intros A B. rewrite split_append, (split_no_char _ _ A), (split_no_char _ _ B). reflexivity. Qed.
  Definition file_keys (n : string) (sig : rsig) : list (list string) :=
    match r_container sig with
    | CMultivector _ _ => [[n]; [n; "schema"]; [n ++ "_index"]; [n ++ "_index"; "schema"]]
    | _ => [[n]; [n; "schema"]]
    end.
  Lemma files_split n sig : has_char "." n = false -> map (split_on ".") (files_of n sig) = file_keys n sig.
  Proof.
    intros H. assert (Hi : has_char "." (n ++ "_index") = false) by (rewrite has_char_app, H; reflexivity). unfold files_of, file_keys, schema_file, index_name.
    destruct (r_container sig); cbn [map]; rewrite ?(split_dot1 n H), ?(split_dot2 n "schema" H eq_refl), ?(split_dot1 _ Hi), ?(split_dot2 _ "schema" Hi eq_refl); reflexivity.
  Qed.
  (** resources named apart, also from the indices of multivectors *)
  Definition multi (sig : rsig) : bool := match r_container sig with CMultivector _ _ => true | _ => false end.
  Lemma in_file_keys n sig k : In k (file_keys n sig) <-> k = [n] \/ k = [n; "schema"] \/ (multi sig = true /\ (k = [n ++ "_index"] \/ k = [n ++ "_index"; "schema"])).
  Proof. unfold file_keys, multi. destruct (r_container sig); cbn; intuition (try discriminate; auto). Qed.
  Lemma app_self n x : x <> "" -> n ++ x <> n.
  Proof. intros Hx E. apply (f_equal String.length) in E. rewrite append_length in E. destruct x; [congruence|]. cbn in E. lia. Qed.
  Lemma keys_nodup rs : NoDup (map fst rs) -> (forall n sig n' sig', In (n, sig) rs -> In (n', sig') rs -> multi sig = true -> n' <> n ++ "_index") ->
    NoDup (flat_map (fun r => file_keys (fst r) (snd r)) rs).
  Proof.
    induction rs as [|[n sig] rs IH]; intros Nd Ni; [constructor|]. cbn [map fst] in Nd. apply NoDup_cons_iff in Nd as (Hn & Nd). cbn [flat_map fst snd].
    assert (Ns : n ++ "_index" <> n) by (apply app_self; discriminate).
    apply NoDup_app_iff. split; [|split].
    - unfold file_keys. destruct (r_container sig); repeat constructor; cbn; intuition congruence.
    - apply IH; [exact Nd|]. intros a b a' b' Ha Ha'. apply (Ni a b a' b'); now right.
    - intros k Hk Hk'. apply in_file_keys in Hk. apply in_flat_map in Hk' as ([n' sig'] & Hin & Hk'). cbn [fst snd] in Hk'. apply in_file_keys in Hk'.
      assert (Nn : n <> n') by (intros ->; apply Hn; apply in_map_iff; exists (n', sig'); auto).
      assert (A : multi sig = true -> n' <> n ++ "_index") by (apply (Ni n sig n' sig'); [now left|now right]).
      assert (A' : multi sig' = true -> n <> n' ++ "_index") by (apply (Ni n' sig' n sig); [now right|now left]).
      assert (I : n ++ "_index" <> n' ++ "_index") by (intros E; apply app_inv_tail_string in E; auto).
      destruct Hk as [Hk|[Hk|(M & [Hk|Hk])]]; destruct Hk' as [Hk'|[Hk'|(M' & [Hk'|Hk'])]]; subst; injection Hk'; intros; subst; try congruence; try (now apply A); try (now apply A'); try discriminate.
  Qed.

  (** ** Archives *)
  Lemma resources_in l t : at_loc root l = Some t -> forall i cs rs, resources_are root l i cs rs -> cs = skipn i (t_children t) ->
    forall n sig, In (n, sig) rs -> exists j r rk o m s, child_at root l j r /\ In r (t_children t) /\ t_name r = n /\ t_kind r = KResource rk o m /\ rk <> KBound
      /\ container_is root (l ++ [j])%list rk (r_container sig) /\ schema_text root (l ++ [j])%list = Ok s /\ r_schema sig = ascii_bytes s /\ r_optional sig = o.
  Proof.
    intros Ht i cs rs R. revert Ht. assert (Sk : forall (A : Type) (xs : list A) i x ys, x :: ys = skipn i xs -> nth_error xs i = Some x /\ ys = skipn (S i) xs).
    { clear. induction xs as [|y xs IH]; intros [|i] x ys E; cbn in *; try discriminate; [injection E as -> ->; auto|exact (IH i x ys E)]. }
    induction R as [l i|l i u ts rs K R IH|l i u ts rs rk o m c s K Nb Ci St R IH]; intros Ht Ec n sig Hi; [destruct Hi| |].
    - exact (IH Ht (proj2 (Sk _ _ _ _ _ Ec)) n sig Hi).
    - destruct (Sk _ _ _ _ _ Ec) as (Nu & Ec'). destruct Hi as [E|Hi]; [|exact (IH Ht Ec' n sig Hi)]. injection E as <- <-. exists i, u, rk, o, m, s. split.
      + unfold child_at. rewrite at_loc_app, Ht. cbn. now rewrite Nu.
      + split; [exact (nth_error_In _ _ Nu)|]. auto 10.
  Qed.
  Lemma resources_names l i cs rs : resources_are root l i cs rs -> map fst rs = map t_name (filter (fun c => is_supported_resource (t_kind c)) cs).
  Proof.
    intros Rs. induction Rs as [l i|l i u ts rs K R IH|l i u ts rs rk o m c s K Nb Ci St R IH]; [reflexivity| |]; cbn [filter map].
    - replace (is_supported_resource (t_kind u)) with false; [exact IH|]. destruct (t_kind u) eqn:Ku; try reflexivity. now rewrite (K _ _ _ eq_refl).
    - rewrite K. destruct rk; try (cbn; now rewrite IH); congruence.
  Qed.
  Lemma nodup_filter {A} (f : A -> string) (p : A -> bool) l : NoDup (map f l) -> NoDup (map f (filter p l)).
  Proof.
    induction l as [|x l IH]; intros H; [constructor|]. cbn [map] in H. apply NoDup_cons_iff in H as (Hn & H). cbn [filter]. destruct (p x); [|auto]. cbn [map]. constructor; [|auto].
    intros Hi. apply Hn. apply in_map_iff in Hi as (y & <- & Hy). apply in_map. now apply filter_In in Hy as (Hy & _).
  Qed.

  Section Conditions.
    Hypothesis (U : usable_layouts root) (Ft : few_types root) (Dc : distinct_classes root) (Ni : no_index_clash root) (W : every word_node root).
    Hypothesis Out : forall l t, at_loc root l = Some t -> t_kind t = KArchive -> is_builtin root l = false.

    Lemma name_dot l t : at_loc root l = Some t -> has_char "." (t_name t) = false.
    Proof. intros H. exact (node_dot root l t (b_rooted _ Bu) H). Qed.

    Lemma archive_generated l a : archive_is root l a -> generated a.
    Proof.
      intros A. destruct A as [l t s rs Ht Kt Es Rs]. split; [now left|]. unfold distinct_files, a_resources. cbn [flat_map fst snd].
      pose proof (name_dot l t Ht) as Dt. apply (NoDup_map_inv (split_on ".")). rewrite map_app.
      assert (E : map (split_on ".") (flat_map (fun ns => files_of (fst ns) (snd ns)) rs) = flat_map (fun ns => file_keys (fst ns) (snd ns)) rs).
      { assert (D : forall n sig, In (n, sig) rs -> has_char "." n = false).
        { intros n sig Hi. destruct (resources_in l t Ht O _ rs Rs eq_refl n sig Hi) as (j & r & rk & o & m & s' & Hc & _ & <- & _). exact (name_dot _ r Hc). }
        clear - D F. induction rs as [|[n sig] rs IH]; [reflexivity|]. cbn [flat_map fst snd]. rewrite map_app, IH by (intros; apply (D n0 sig0); now right). f_equal. apply files_split. apply (D n sig). now left. }
      rewrite E. apply NoDup_app_iff.
      assert (E0 : map (split_on ".") (files_of (t_name t ++ ".archive") (RSig CRawData (ascii_bytes s) false)) = [[t_name t; "archive"]; [t_name t; "archive"; "schema"]]).
      { unfold files_of, schema_file. cbn [r_container map]. rewrite app_assoc_str. change (".archive" ++ ".schema") with (String "." ("archive" ++ String "." "schema")). change ".archive" with (String "." "archive").
        rewrite !split_append, (split_no_char _ _ Dt). reflexivity. }
      rewrite E0. split; [repeat constructor; cbn; intuition congruence|]. split.
      - apply keys_nodup.
        + rewrite (resources_names l O _ rs Rs). apply nodup_filter. exact (sibling_names l t Ht).
        + intros n sig n' sig' Hi Hi' M. destruct (resources_in l t Ht O _ rs Rs eq_refl n sig Hi) as (j & r & rk & o & m & s1 & Hc & Ic & <- & Kr & _ & Ci & _).
          destruct (resources_in l t Ht O _ rs Rs eq_refl n' sig' Hi') as (j' & r' & rk' & o' & m' & s2 & Hc' & Ic' & <- & Kr' & _).
          unfold multi in M. inversion Ci; subst; match goal with E : _ = r_container sig |- _ => rewrite <- E in M end; try discriminate. exact (Ni l t r r' _ _ _ _ _ _ Ht Kt Ic Ic' Kr Kr').
      - intros x Hx Hx'. apply in_flat_map in Hx' as ([n sig] & _ & Hx'). cbn [fst snd] in Hx'. apply in_file_keys in Hx'.
        destruct Hx as [<-|[<-|[]]]; destruct Hx' as [H|[H|(_ & [H|H])]]; injection H; intros; discriminate.
    Qed.
    Lemma archive_schemas l a : archive_is root l a -> schemas_ok a.
    Proof.
      intros A. destruct A as [l t s rs Ht Kt Es Rs]. pose proof (Out l t Ht Kt) as Nb. assert (Rt : is_ref t = false) by (unfold is_ref; now rewrite Kt).
      assert (Sp : is_supported (t_kind t) = true) by (now rewrite Kt).
      intros n sig [E|Hi].
      - injection E as <- <-. cbn [r_schema]. split; [|apply ascii_valid; exact (schema_chars root l s W Es)]. apply bytes_nonempty. refine (schema_nonempty l [] t t s _ Rt Ht Sp Nb _); now rewrite app_nil_r.
      - destruct (resources_in l t Ht O _ rs Rs eq_refl n sig Hi) as (j & r & rk & o & m & s1 & Hc & _ & _ & Kr & _ & _ & E1 & -> & _).
        split; [|apply ascii_valid; exact (schema_chars root _ s1 W E1)]. apply bytes_nonempty. refine (schema_nonempty l [j] r t s1 Hc _ Ht Sp Nb E1). unfold is_ref. now rewrite Kr.
    Qed.
    Lemma container_sizes l rk c sch o : container_is root l rk c -> sig_sized (RSig c sch o).
    Proof.
      assert (X : forall q sds, structs_of root l q sds -> Forall (fun d => 0 <= s_size d) sds).
      { intros q sds (t & _ & S). induction S as [|x sd xs sds (d & _ & Sd) S IH]; constructor; [exact (proj1 (proj1 (struct_ok d sd U Sd)))|exact IH]. }
      unfold sig_sized. cbn [r_container]. intros C. destruct C as [l sd S|l sd S|l w it ts Si S|l|l i d a P A]; try exact I.
      - specialize (X _ _ S). now inversion X.
      - specialize (X _ _ S). now inversion X.
      - split; [|exact (X _ _ S)]. specialize (X _ _ Si). now inversion X.
    Qed.
    Lemma archive_sizes l a : archive_is root l a -> sizes_ok a.
    Proof.
      intros A. destruct A as [l t s rs Ht Kt Es Rs]. intros n sig [E|Hi]; [injection E as <- <-; exact I|].
      destruct (resources_in l t Ht O _ rs Rs eq_refl n sig Hi) as (j & r & rk & o & m & s1 & _ & _ & _ & _ & _ & Ci & _). destruct sig as [c b o']. exact (container_sizes _ rk c b o' Ci).
    Qed.
    Lemma struct_single l q sd : structs_of root l q [sd] -> sdef_ok sd /\ s_fields sd <> [].
    Proof. intros (t & _ & S). inversion S as [|x ? xs ? (d & _ & Sd) _ Ex]; subst. exact (struct_ok d sd U Sd). Qed.
    Lemma archive_storable l a n sig v : archive_is root l a -> n <> archive_file a -> In (n, sig) (a_resources a) -> storable sig v -> acceptable sig v.
    Proof.
      intros A Na Hi St. destruct A as [l t s rs Ht Kt Es Rs]. destruct Hi as [E|Hi]; [injection E as E _; exfalso; apply Na; now symmetry|].
      destruct (resources_in l t Ht O _ rs Rs eq_refl n sig Hi) as (j & r & rk & o & m & s1 & Hc & _ & _ & Kr & _ & Ci & _). unfold storable in St. unfold acceptable.
      remember (r_container sig) as c eqn:Ec. unfold child_at in Hc. revert Hc Ci. generalize (l ++ [j])%list. intros lj Hc Ci. destruct Ci as [l0 sd S|l0 sd S|l0 w it ts Si S|l0|l0 i d a P A]; destruct v; try contradiction.
      - destruct St as (St & V). split; [exact (proj1 (struct_single _ _ _ S))|auto].
      - destruct St as (St & V). destruct (struct_single _ _ _ S). auto.
      - destruct St as (Sz & outss & V & Lim). split; [exact (types_are _ r w o m ts U Ft Dc Hc Kr S)|]. split; [exact Sz|]. destruct (index_ok _ r w o m it U Hc Kr Si) as (w' & Io & Ne & Ew).
        exists w', outss. split; [exact Io|]. split; [exact V|]. destruct (s_fields it) as [|f fs]; [congruence|]. rewrite <- (Ew f (or_introl eq_refl)). apply Lim. now left.
      - exact St.
    Qed.
  End Conditions.
End Usable.
