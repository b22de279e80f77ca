(** The characters of the schema text: every word of every line is printable and without blanks, quotes, backslashes, backticks and '#'. *)
From Coq Require Import List ZArith Bool String Ascii Lia.
From Verif Require Import PyBase PyText GenTypes GenTree GenTreeFacts GenTraversal GenBuild GenBuildFacts GenAstSpec GenEvery GenWords GenFlatdata.
Import ListNotations.
Local Open Scope string_scope.
Local Open Scope Z_scope.

Definition ink_char (c : ascii) : bool := let n := N_of_ascii c in ((33 <=? n) && (n <=? 126) && negb ((n =? 34) || (n =? 35) || (n =? 39) || (n =? 92) || (n =? 96)))%N.
Definition ink (s : string) : Prop := only_chars ink_char s = true.
Lemma word_char_ink c : word_char c = true -> ink_char c = true.
Proof.
  unfold word_char, plain_char, ink_char. intros H. apply orb_true_iff in H as [H|H]; [|apply Ascii.eqb_eq in H; subst; reflexivity]. apply orb_true_iff in H as [H|H]; [|apply Ascii.eqb_eq in H; subst; reflexivity].
  repeat (apply orb_true_iff in H as [H|H]); try (apply andb_true_iff in H as (A & B); apply N.leb_le in A, B; repeat (apply andb_true_iff; split); try (apply N.leb_le; lia); apply negb_true_iff; repeat (apply orb_false_iff; split); apply N.eqb_neq; lia); apply N.eqb_eq in H; rewrite H; reflexivity.
Qed.
Lemma word_ink s : word s -> ink s. Proof. apply only_chars_imp. exact word_char_ink. Qed.
Lemma ink_app a b : ink (a ++ b) <-> ink a /\ ink b. Proof. unfold ink. now rewrite only_chars_app, andb_true_iff. Qed.
Lemma ink_py_str z : ink (py_str z). Proof. apply word_ink, word_py_str. Qed.

Definition inked (ls : list line) : Prop := Forall (Forall ink) ls.
Lemma inked_app a b : inked a -> inked b -> inked (a ++ b)%list. Proof. intros A B. apply Forall_app. auto. Qed.
Lemma inked_concat ls : (forall l, In l ls -> inked l) -> inked (List.concat ls).
Proof. intros H. induction ls as [|l ls IH]; [constructor|]. apply inked_app; [apply H; now left|]. apply IH. intros x Hx. apply H. now right. Qed.
Lemma mapM_inked {A} (f : A -> res (list line)) l ys : mapM f l = Ok ys -> (forall x y, In x l -> f x = Ok y -> inked y) -> inked (List.concat ys).
Proof.
  intros M H. apply inked_concat. revert ys M. induction l as [|x l IH]; intros ys M y Hy; cbn in M; [injection M as <-; destruct Hy|].
  apply bind_ok in M as (y0 & E & M). apply bind_ok in M as (zs & Ez & M). injection M as <-. destruct Hy as [<-|Hy]; [exact (H x y0 (or_introl eq_refl) E)|].
  exact (IH (fun a b Ha => H a b (or_intror Ha)) zs Ez y Hy).
Qed.
Lemma indented_ink w : Forall ink w -> Forall ink (indented w).
Proof. intros H. unfold indented. repeat (constructor; [reflexivity|]). exact H. Qed.
Lemma comma_ink l : Forall ink l -> Forall ink (comma l).
Proof.
  induction l as [|x l IH]; intros H; [repeat constructor|]. inversion H as [|? ? Hx Hl]; subst. destruct l as [|y l]; [exact H|]. cbn [comma]. constructor; [apply ink_app; split; [exact Hx|reflexivity]|exact (IH Hl)].
Qed.
Lemma ending_ink l s : Forall ink l -> ink s -> Forall ink (ending l s).
Proof.
  intros H Hs. induction l as [|x l IH]; [now repeat constructor|]. inversion H as [|? ? Hx Hl]; subst. destruct l as [|y l]; cbn [ending].
  - constructor; [|constructor]. apply ink_app. auto.
  - constructor; [exact Hx|exact (IH Hl)].
Qed.
Lemma replace_ats_chars p s : p "."%char = true -> only_chars p s = true -> only_chars p (replace_ats s) = true.
Proof.
  intros Hp. assert (X : forall n s, (String.length s <= n)%nat -> only_chars p s = true -> only_chars p (replace_ats s) = true).
  { induction n as [|n IH]; intros u Hn H; [destruct u; [reflexivity|cbn in Hn; lia]|]. destruct u as [|c u]; [reflexivity|]. cbn in Hn, H. apply andb_true_iff in H as (Hc & Hu).
    assert (D : only_chars p (String c (replace_ats u)) = true) by (cbn; rewrite Hc; apply IH; [lia|exact Hu]).
    assert (E : replace_ats (String c u) = String c (replace_ats u) \/ exists v, u = String "@" v /\ replace_ats (String c u) = String "." (replace_ats v)).
    { destruct u as [|d v]; [left; destruct c as [[] [] [] [] [] [] [] []]; reflexivity|].
      destruct (Ascii.ascii_dec c "@") as [->|Nc]; [destruct (Ascii.ascii_dec d "@") as [->|Nd]; [right; exists v; split; reflexivity|]|]; left.
      - destruct d as [[] [] [] [] [] [] [] []]; try reflexivity. congruence.
      - destruct c as [[] [] [] [] [] [] [] []]; try reflexivity. congruence. }
    destruct E as [->|(v & -> & ->)]; [exact D|]. cbn. rewrite Hp. cbn in Hu. apply andb_true_iff in Hu as (_ & Hu). apply IH; [cbn in Hn; lia|exact Hu]. }
  exact (X _ s (le_n _)).
Qed.
Lemma field_type_word s : word s -> word (field_type s).
Proof. intros H. unfold field_type. apply only_chars_replace; [reflexivity|]. apply replace_ats_chars; [reflexivity|exact H]. Qed.
Lemma target_word t : word (t_name t) -> word (target t).
Proof. intros H. unfold target. destruct (t_name t) as [|c s]; [reflexivity|]. cbn. apply only_chars_replace; [reflexivity|]. unfold word in H. cbn in H. now apply andb_true_iff in H as (_ & H). Qed.

Section Ink.
  Variable root : tree.
  Hypothesis W : every word_node root.
  Definition words (t : tree) : Prop := every word_node t.

  Lemma ref_path_word r p : ref_path root r = Ok p -> word p.
  Proof.
    unfold ref_path. intros H. apply bind_ok in H as (l & _ & H). destruct (path_at root l) as [q|] eqn:E; [|discriminate]. injection H as <-. exact (path_word root l q W E).
  Qed.
  Lemma ref_name_word r p : ref_name root r = Ok p -> word p.
  Proof.
    unfold ref_name. intros H. apply bind_ok in H as (l & _ & H). destruct (at_loc root l) as [q|] eqn:E; [|discriminate]. injection H as <-. exact (proj1 (W l q E)).
  Qed.
  Lemma namespaces_words t : forall l, words t -> Forall word (namespaces t l).
  Proof.
    intros l. revert t. induction l as [|i l IH]; intros t Ht; cbn; [constructor|]. apply Forall_app. split.
    - destruct (is_namespace t); [|constructor]. constructor; [exact (proj1 (every_here _ _ Ht))|constructor].
    - destruct (nth_error (t_children t) i) as [c|] eqn:E; [|constructor]. apply IH. exact (every_child _ _ _ Ht (nth_error_In _ _ E)).
  Qed.
  Lemma like_words t p c : words t -> In c (children_like t p) -> words c.
  Proof. intros Ht Hc. unfold children_like in Hc. apply filter_In in Hc as (Hc & _). exact (every_child _ _ _ Ht Hc). Qed.
  Lemma filter_words t p c : words t -> In c (filter p (t_children t)) -> words c.
  Proof. intros Ht Hc. apply filter_In in Hc as (Hc & _). exact (every_child _ _ _ Ht Hc). Qed.

  Lemma name_word t : words t -> word (t_name t). Proof. intros H. exact (proj1 (every_here _ _ H)). Qed.
  Lemma kind_word t : words t -> word_kind (t_kind t). Proof. intros H. exact (proj2 (every_here _ _ H)). Qed.

  Lemma one_line l : Forall ink l -> inked [l]. Proof. intros H. constructor; [exact H|constructor]. Qed.
  Lemma enum_inked n b cs : word n -> word (bt_name b) -> (forall c, In c cs -> words c) -> inked (enum_lines n b cs).
  Proof.
    intros Hn Hb Hc. unfold enum_lines. apply inked_app; [|apply inked_app].
    - constructor; [|apply one_line; repeat constructor]. repeat constructor; try (now apply word_ink). apply ink_py_str.
    - induction cs as [|c cs IH]; [constructor|]. cbn [flat_map]. apply inked_app; [|apply IH; intros x Hx; apply Hc; now right].
      pose proof (Hc c (or_introl eq_refl)) as Wc. unfold value_lines. destruct (t_kind c); try constructor. destruct auto_generated; constructor; [|constructor].
      apply indented_ink. repeat constructor; [apply word_ink; now apply name_word|]. apply ink_app. split; [apply ink_py_str|reflexivity].
    - apply one_line. repeat constructor.
  Qed.
  Lemma field_inked f ls : words f -> field_lines f = Ok ls -> inked ls.
  Proof.
    intros Wf H. pose proof (kind_word f Wf) as Kw. unfold field_lines in H. destruct (t_kind f) as [| | | |rng [ty|] off| | | | | |]; try discriminate. injection H as <-. destruct Kw as (Kr & Kt).
    apply inked_app; [|apply inked_app; [|apply inked_app]].
    - destruct rng as [[|c r]|]; try constructor; [|constructor]. apply indented_ink. constructor; [reflexivity|]. constructor; [exact (word_ink _ (Kr _ eq_refl))|]. repeat constructor.
    - apply Forall_forall. intros x Hx. apply in_map_iff in Hx as (c & <- & Hc). apply indented_ink. constructor; [reflexivity|]. constructor; [|repeat constructor]. apply word_ink, target_word, name_word. exact (like_words f _ c Wf Hc).
    - destruct (children_like f is_invalid_ref) as [|c cs] eqn:E; [constructor|]. apply one_line, indented_ink. constructor; [reflexivity|]. constructor; [|repeat constructor]. apply word_ink, target_word, name_word. apply (like_words f is_invalid_ref c Wf). rewrite E. now left.
    - apply one_line, indented_ink. constructor; [apply word_ink; now apply name_word|]. constructor; [reflexivity|]. constructor; [apply word_ink, field_type_word; exact (Kt ty eq_refl)|]. constructor; [reflexivity|].
      constructor; [|constructor]. apply ink_app. split; [apply ink_py_str|reflexivity].
  Qed.
  Lemma structure_inked n cs ls : word n -> (forall c, In c cs -> words c) -> structure_lines n cs = Ok ls -> inked ls.
  Proof.
    intros Hn Hc H. unfold structure_lines in H. apply bind_ok in H as (fs & M & H). injection H as <-. apply (inked_app [["struct"; n]; ["{"]]); [|apply inked_app].
    - constructor; [|apply one_line; repeat constructor]. constructor; [reflexivity|]. constructor; [now apply word_ink|constructor].
    - apply (mapM_inked _ _ _ M). intros x y Hx Hy. apply filter_In in Hx as (Hx & _). exact (field_inked x y (Hc x Hx) Hy).
    - apply one_line. repeat constructor.
  Qed.
  Lemma type_params_ink refs : forall ps, type_params root refs = Ok ps -> Forall ink ps.
  Proof.
    induction refs as [|r refs IH]; intros ps H; cbn in H; [injection H as <-; constructor|]. apply bind_ok in H as (l & _ & H). apply bind_ok in H as (p & Hp & H). apply bind_ok in H as (qs & Hq & H). injection H as <-.
    specialize (IH qs Hq). destruct (is_builtin root l); [exact IH|]. constructor; [|exact IH]. exact (word_ink _ (ref_path_word r p Hp)).
  Qed.
  Lemma resource_type_ink r ty : resource_type root r = Ok ty -> Forall ink ty.
  Proof.
    unfold resource_type. intros H. apply bind_ok in H as (ps & Hp & H). apply type_params_ink in Hp. destruct (t_kind r); try discriminate. match type of H with match ?k with _ => _ end = _ => destruct k end; try discriminate.
    - injection H as <-. now apply comma_ink.
    - injection H as <-. constructor; [reflexivity|]. apply Forall_app. split; [now apply comma_ink|repeat constructor].
    - injection H as <-. constructor; [reflexivity|]. constructor; [apply ink_app; split; [apply ink_py_str|reflexivity]|]. apply Forall_app. split; [now apply comma_ink|repeat constructor].
    - injection H as <-. repeat constructor.
    - apply bind_ok in H as (a & _ & H). apply bind_ok in H as (p & Hq & H). injection H as <-. constructor; [reflexivity|]. constructor; [exact (word_ink _ (ref_path_word a p Hq))|constructor].
  Qed.
  Lemma explicit_inked e ls : explicit_lines root e = Ok ls -> inked ls.
  Proof.
    unfold explicit_lines. intros H. apply bind_ok in H as (s & _ & H). apply bind_ok in H as (sp & Hs & H). apply bind_ok in H as (f & _ & H). apply bind_ok in H as (fp & Hf & H). apply bind_ok in H as (d & _ & H). apply bind_ok in H as (dp & Hd & H). injection H as <-.
    apply one_line, indented_ink. constructor; [reflexivity|]. constructor; [|constructor; [exact (word_ink _ (ref_path_word d dp Hd))|repeat constructor]].
    apply ink_app. split; [exact (word_ink _ (ref_path_word s sp Hs))|]. apply (ink_app "."). split; [reflexivity|]. apply ink_app. split; [exact (word_ink _ (ref_name_word f fp Hf))|reflexivity].
  Qed.
  Lemma resource_inked r ls : words r -> resource_lines root r = Ok ls -> inked ls.
  Proof.
    intros Wr H. unfold resource_lines in H. apply bind_ok in H as (es & He & H). apply bind_ok in H as (ty & Ht & H). injection H as <-. apply inked_app; [|apply inked_app].
    - apply (mapM_inked _ _ _ He). intros x y _ Hy. exact (explicit_inked x y Hy).
    - destruct (t_kind r); try constructor. destruct optional; constructor; [|constructor]. apply indented_ink. repeat constructor.
    - apply one_line, indented_ink. constructor; [apply word_ink; now apply name_word|]. constructor; [reflexivity|]. apply ending_ink; [exact (resource_type_ink r ty Ht)|reflexivity].
  Qed.
  Lemma bound_inked b ls : words b -> bound_lines root b = Ok ls -> inked ls.
  Proof.
    intros Wb H. unfold bound_lines in H. apply bind_ok in H as (ps & Hp & H). injection H as <-. apply one_line. constructor; [reflexivity|]. constructor; [apply word_ink; now apply name_word|]. constructor; [reflexivity|].
    apply Forall_app. split; [|repeat constructor]. apply comma_ink. revert ps Hp. induction (t_children b) as [|c cs IH]; intros ps Hp; cbn in Hp; [injection Hp as <-; constructor|].
    apply bind_ok in Hp as (q & Hq & Hp). apply bind_ok in Hp as (qs & Hqs & Hp). injection Hp as <-. constructor; [|exact (IH qs Hqs)]. destruct (is_ref c); [|discriminate]. exact (word_ink _ (ref_path_word c q Hq)).
  Qed.
  Lemma archive_inked n cs ls : word n -> (forall c, In c cs -> words c) -> archive_lines root n cs = Ok ls -> inked ls.
  Proof.
    intros Hn Hc H. unfold archive_lines in H. apply bind_ok in H as (bs & Hb & H). apply bind_ok in H as (rs & Hr & H). injection H as <-. apply inked_app; [|apply (inked_app [["archive"; n]; ["{"]]); [|apply inked_app]].
    - apply (mapM_inked _ _ _ Hb). intros x y Hx Hy. apply filter_In in Hx as (Hx & _). exact (bound_inked x y (Hc x Hx) Hy).
    - constructor; [|apply one_line; repeat constructor]. constructor; [reflexivity|]. constructor; [now apply word_ink|constructor].
    - apply (mapM_inked _ _ _ Hr). intros x y Hx Hy. apply filter_In in Hx as (Hx & _). exact (resource_inked x y (Hc x Hx) Hy).
    - apply one_line. repeat constructor.
  Qed.
  Lemma declaration_inked t ls : words t -> declaration root t = Ok ls -> inked ls.
  Proof.
    intros Wt H. pose proof (name_word t Wt) as Hn. pose proof (kind_word t Wt) as Hk. unfold declaration in H.
    assert (Hc : forall c, In c (t_children t) -> words c) by (intros c Hc; exact (every_child _ _ _ Wt Hc)). destruct (t_kind t); try discriminate.
    - injection H as <-. apply one_line. constructor; [reflexivity|]. constructor; [exact (word_ink _ Hk)|]. constructor; [exact (word_ink _ Hn)|]. constructor; [reflexivity|]. constructor; [|constructor]. apply ink_app. split; [apply ink_py_str|reflexivity].
    - exact (structure_inked _ _ _ Hn Hc H).
    - injection H as <-. exact (enum_inked _ _ _ Hn Hk Hc).
    - exact (archive_inked _ _ _ Hn Hc H).
  Qed.
  Lemma block_inked l t ls : words t -> block root l t = Ok ls -> inked ls.
  Proof.
    intros Wt H. unfold block in H. apply bind_ok in H as (d & Hd & H). injection H as <-. apply inked_app; [|apply inked_app; [exact (declaration_inked t d Wt Hd)|apply inked_app; [|apply one_line; repeat constructor]]].
    - apply Forall_forall. intros x Hx. apply in_map_iff in Hx as (n & <- & Hn). pose proof (namespaces_words root l W) as Nw. rewrite Forall_forall in Nw. constructor; [reflexivity|]. constructor; [exact (word_ink _ (Nw n Hn))|repeat constructor].
    - apply Forall_forall. intros x Hx. apply in_map_iff in Hx as (n & <- & _). repeat constructor.
  Qed.
  Lemma view_words tgt n t : view root tgt n = Some t -> words t.
  Proof.
    unfold view. destruct n as [b l]. cbn [fst snd]. destruct (at_loc root l) as [u|] eqn:E; [|discriminate]. pose proof (every_at _ _ _ _ W E) as Wu. destruct b; [|now intros [= <-]].
    destruct (nth_error tgt (List.length l)) as [i|]; [|now intros [= <-]]. destruct (nth_error (t_children u) i) as [c|] eqn:Ec; [|discriminate]. intros [= <-]. apply every_intro; [exact (every_here _ _ Wu)|].
    intros x [<-|[]]. exact (every_child _ _ _ Wu (nth_error_In _ _ Ec)).
  Qed.
  Theorem schema_inked tgt ls : schema_lines root tgt = Ok ls -> inked ls.
  Proof.
    unfold schema_lines. intros H. apply bind_ok in H as (order & _ & H). apply bind_ok in H as (bs & M & H). injection H as <-. apply (mapM_inked _ _ _ M). intros n y _ Hy. unfold vblock in Hy.
    destruct (view root tgt n) as [t|] eqn:E; [|discriminate]. destruct (is_supported (t_kind t) && negb (is_builtin root (snd n))); [|injection Hy as <-; constructor].
    exact (block_inked _ t y (view_words tgt n t E) Hy).
  Qed.
End Ink.

(** The characters of the text *)
Definition text_char (c : ascii) : bool := ink_char c || Ascii.eqb c " " || Ascii.eqb c (ascii_of_nat 10).
Lemma text_chars ls : inked ls -> only_chars text_char (text ls) = true.
Proof.
  induction 1 as [|l ls Hl _ IH]; [reflexivity|]. cbn [text]. rewrite only_chars_app, IH, andb_true_r. unfold line_text. rewrite only_chars_app, andb_true_iff. split; [|reflexivity].
  apply only_chars_join; [reflexivity|]. intros x Hx. rewrite Forall_forall in Hl. apply (only_chars_imp ink_char); [|exact (Hl x Hx)]. intros c Hc. unfold text_char. now rewrite Hc.
Qed.
Theorem schema_chars root tgt s : every word_node root -> schema_text root tgt = Ok s -> only_chars text_char s = true.
Proof. intros W H. unfold schema_text in H. apply bind_ok in H as (ls & H & E). injection E as <-. apply text_chars. exact (schema_inked root W tgt ls H). Qed.
