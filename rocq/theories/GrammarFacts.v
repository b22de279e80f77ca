(** The parser accepts exactly the texts of [GrammarSpec], nonterminal by nonterminal: [sound] and [complete]. *)
From Coq Require Import List ZArith Bool String Ascii Lia.
From Verif Require Import PyBase PyText GenBuild GenAstSpec GrammarSpec Grammar GrammarLex.
Import ListNotations.
Local Open Scope string_scope.

Definition sound {A} (p : parser A) (g : A -> list lexeme -> Prop) : Prop :=
  forall s a r, p s = Got a r -> exists xs, g a xs /\ reads xs s r.
Definition complete {A} (p : parser A) (g : A -> list lexeme -> Prop) (C : string -> Prop) : Prop :=
  forall a xs s r, g a xs -> reads xs s r -> C r -> p s = Got a r.
Definition any (s : string) : Prop := True.

Lemma reads_cons x xs s m r : reads [x] s m -> reads xs m r -> reads (x :: xs) s r.
Proof. intros H K. apply (reads_app [x]). eauto. Qed.
Lemma reads_join xs ys s m r : reads xs s m -> reads ys m r -> reads (xs ++ ys) s r.
Proof. intros H K. apply reads_app. eauto. Qed.
Ltac chain := repeat first [eassumption | eapply reads_cons; [eassumption|] | eapply reads_join; [eassumption|]]; try reflexivity.

(** ** Repetition *)
Lemma repeat_sound {A} (p : parser A) g : sound p g -> forall n, sound (repeat n p) (sequence g).
Proof.
  intros Sp. induction n as [|n IH]; intros s l r H; cbn in H.
  - injection H as <- <-. exists []. split; [exists []; split; [constructor|reflexivity]|reflexivity].
  - destruct (p s) as [a m| |] eqn:E; [|injection H as <- <-; exists []; split; [exists []; split; [constructor|reflexivity]|reflexivity]|discriminate].
    destruct (repeat n p m) as [t r'| |] eqn:F; try discriminate. injection H as <- <-. destruct (Sp _ _ _ E) as (xs & G & R). destruct (IH _ _ _ F) as (ys & (yss & G' & ->) & R').
    exists (xs ++ List.concat yss)%list. split; [|chain]. exists (xs :: yss). split; [now constructor|reflexivity].
Qed.
Lemma many_sound {A} (p : parser A) g : sound p g -> sound (many p) (sequence g).
Proof. intros Sp s l r. exact (repeat_sound p g Sp _ s l r). Qed.
Lemma some_sound {A} (p : parser A) g : sound p g -> forall s l r, some p s = Got l r -> exists xs, l <> [] /\ sequence g l xs /\ reads xs s r.
Proof.
  intros Sp s l r H. apply seq_got in H as (a & m & Ha & H). apply seq_got in H as (t & m' & Ht & H). apply give_got in H as (-> & ->).
  destruct (Sp _ _ _ Ha) as (xs & G & R). destruct (many_sound p g Sp _ _ _ Ht) as (ys & (yss & G' & ->) & R'). exists (xs ++ List.concat yss)%list. split; [discriminate|]. split; [|chain].
  exists (xs :: yss). split; [now constructor|reflexivity].
Qed.
Lemma repeat_complete {A} (p : parser A) g (C : string -> Prop) : complete p g C ->
  (forall a xs s r, g a xs -> reads xs s r -> C s /\ xs <> []) ->
  forall l xss, Forall2 g l xss -> forall n s r, reads (List.concat xss) s r -> C r -> p r = Soft -> (String.length s < n)%nat ->
    repeat n p s = Got l r.
Proof.
  intros Cp Hs. induction 1 as [|a xs l xss G F IH]; intros n s r R Cr Soft_ L; destruct n as [|n]; try lia; cbn [repeat].
  - cbn in R. subst s. now rewrite Soft_.
  - cbn [List.concat] in R. apply reads_app in R as (m & R1 & R2). destruct (Hs _ _ _ _ G R1) as (Cs & Nn).
    assert (Cm : C m). { destruct F as [|b ys l xss G' F]; [cbn in R2; now subst m|]. cbn [List.concat] in R2. apply reads_app in R2 as (m' & R2 & _). exact (proj1 (Hs _ _ _ _ G' R2)). }
    rewrite (Cp _ _ _ _ G R1 Cm). rewrite (IH n m r R2 Cr Soft_); [reflexivity|]. pose proof (reads_length _ _ _ R1). destruct xs; [congruence|]. cbn in H. lia.
Qed.
Lemma many_complete {A} (p : parser A) g (C : string -> Prop) : complete p g C ->
  (forall a xs s r, g a xs -> reads xs s r -> C s /\ xs <> []) ->
  forall l xs s r, sequence g l xs -> reads xs s r -> C r -> p r = Soft -> many p s = Got l r.
Proof. intros Cp Hs l xs s r (xss & F & ->) R Cr So. eapply repeat_complete; eauto. Qed.
Lemma some_complete {A} (p : parser A) g (C : string -> Prop) : complete p g C ->
  (forall a xs s r, g a xs -> reads xs s r -> C s /\ xs <> []) ->
  forall l xs s r, l <> [] -> sequence g l xs -> reads xs s r -> C r -> p r = Soft -> some p s = Got l r.
Proof.
  intros Cp Hs l xs s r Nl (xss & F & ->) R Cr So. destruct F as [|a ys l xss G F]; [congruence|]. cbn [List.concat] in R. apply reads_app in R as (m & R1 & R2).
  assert (Cm : C m). { destruct F as [|b zs l xss G' F]; [cbn in R2; now subst m|]. cbn [List.concat] in R2. apply reads_app in R2 as (m' & R2 & _). exact (proj1 (Hs _ _ _ _ G' R2)). }
  unfold some. rewrite (seq_step _ _ _ _ _ (Cp _ _ _ _ G R1 Cm)). erewrite seq_step; [reflexivity|]. apply (many_complete p g C Cp Hs _ (List.concat xss)); auto. now exists xss.
Qed.

(** ** What comes next *)
Lemma peek_sign c xs s r : reads (Sign c :: xs) s r -> peek s = Some c.
Proof. intros H. destruct (reads_peek _ _ _ _ H) as (d & t & E & P). cbn in E. injection E as <- _. exact P. Qed.
Lemma peek_key c k xs s r : reads (Key (String c k) :: xs) s r -> peek s = Some c.
Proof. intros H. destruct (reads_peek _ _ _ _ H) as (d & t & E & P). cbn in E. injection E as <- _. exact P. Qed.
Lemma peek_ident n xs s r : reads (Ident n :: xs) s r -> exists c, peek s = Some c /\ is_letter c = true.
Proof.
  intros H. destruct (reads_peek _ _ _ _ H) as (d & t & E & P). exists d. split; [exact P|]. destruct (reads_skip _ _ _ _ H) as (_ & _ & (c & u & -> & A & _) & _).
  cbn in E. now injection E as -> _.
Qed.
Lemma peek_qual n xs s r : reads (Qual n :: xs) s r -> exists c, peek s = Some c /\ is_letter c || Ascii.eqb c "." = true.
Proof.
  intros H. destruct (reads_peek _ _ _ _ H) as (d & t & E & P). exists d. split; [exact P|]. destruct (reads_skip _ _ _ _ H) as (_ & _ & (c & u & -> & A & _) & _).
  cbn in E. now injection E as -> _.
Qed.
Definition silent (x : lexeme) : Prop := match x with Comment _ => False | _ => True end.
Lemma no_comment x xs s r : silent x -> reads (x :: xs) s r -> peek s <> Some "/"%char.
Proof.
  intros S H. destruct (reads_peek _ _ _ _ H) as (d & t & E & P). rewrite P. intros [= ->]. destruct (reads_skip _ _ _ _ H) as (_ & _ & W & _).
  destruct x as [k|n|n|d|v|c|u]; cbn [lexeme_text well_spelled silent] in *; subst.
  - destruct W as (c & u & [= <- <-] & A & _). discriminate.
  - destruct W as (c & u & [= <- <-] & A & _). discriminate.
  - destruct W as (c & u & [= <- <-] & A & _). discriminate.
  - destruct W as (c & u & [= <- <-] & A & _). discriminate.
  - destruct W as [[(c & u & [= <- <-] & A & _)|(u & X & _)]|[(h & X & _)|(u & X & _)]]; discriminate.
  - injection E as ->. discriminate.
  - destruct S.
Qed.
Lemma comment_none x xs s r : silent x -> reads (x :: xs) s r -> comment s = Soft.
Proof. intros S H. apply comment_soft. exact (no_comment _ _ _ _ S H). Qed.
Lemma doc_reads c x xs s r : doc c -> silent x -> reads (c ++ x :: xs) s r -> exists o m, opt comment s = Got o m /\ reads (x :: xs) m r.
Proof.
  intros [->|(t & ->)] S H; cbn [app] in H.
  - exists None, s. split; [|exact H]. apply opt_none. exact (comment_none _ _ _ _ S H).
  - destruct (comment_reads _ _ _ _ H) as (m & E & R). exists (Some tt), m. split; [now apply opt_some|exact R].
Qed.
Lemma doc_got s o r : opt comment s = Got o r -> exists c, doc c /\ reads c s r.
Proof.
  intros H. apply opt_got in H. destruct o as [u|].
  - apply comment_got in H as (t & R). exists [Comment t]. split; [right; eauto|exact R].
  - destruct H as (-> & _). exists []. split; [now left|reflexivity].
Qed.

(** ** Tactics *)
Ltac inv1 :=
  match goal with
  | H : seq _ _ _ = Got _ _ |- _ => apply seq_got in H as (? & ? & ? & H)
  | H : hard _ _ = Got _ _ |- _ => apply (proj1 (hard_got _ _ _ _)) in H
  | H : give _ _ = Got _ _ |- _ => apply give_got in H as (? & ?); subst
  | H : opt comment _ = Got _ _ |- _ => apply doc_got in H as (? & ? & ?)
  | H : sym _ _ = Got _ _ |- _ => apply sym_got in H; [|reflexivity]
  | H : keyword _ _ = Got _ _ |- _ => apply keyword_got in H as (? & H); [subst|eexists _, _; split; [reflexivity|now split]]
  | H : identifier _ = Got _ _ |- _ => apply identifier_got in H
  | H : qualified_identifier _ = Got _ _ |- _ => apply qualified_got in H
  | H : basic_type _ = Got _ _ |- _ => apply basic_type_got in H as (? & H)
  | H : signed_literal _ = Got _ _ |- _ => apply literal_got in H
  end.
Ltac inv := repeat inv1.
(** read the first lexeme of [H] *)
Ltac eat H :=
  let m := fresh "m" in let E := fresh "E" in
  match type of H with
  | reads (Key _ :: _) _ _ => apply keyword_reads in H as (m & E & H)
  | reads (Ident _ :: _) _ _ => apply identifier_reads in H as (m & E & H)
  | reads (Qual _ :: _) _ _ => apply qualified_reads in H as (m & E & H)
  | reads (Sign _ :: _) _ _ => apply sym_reads in H as (m & E & H)
  | reads (Lit _ :: _) _ _ => apply literal_reads in H as (m & E & H)
  end; rewrite (seq_step _ _ _ _ _ E).
Ltac done H := cbn in H; subst; reflexivity.

Ltac other H := eapply keyword_other; [|exact H]; intros; reflexivity.

(** ** Widths *)
Definition width_part : parser (option N) := opt (_ <~ sym ":" ;; bit_width).
Lemma width_sound : sound width_part g_width.
Proof.
  intros s w r H. apply opt_got in H. destruct w as [n|].
  - inv. apply bit_width_got in H as (d & N & R). exists [Sign ":"; Num d]. split; [exists d; auto|]. chain.
  - destruct H as (-> & _). now exists [].
Qed.
Lemma width_complete c w ws xs s r : c <> ":"%char -> g_width w ws -> reads (ws ++ Sign c :: xs) s r ->
  exists m, width_part s = Got w m /\ reads (Sign c :: xs) m r.
Proof.
  intros Nc G H. destruct w as [n|]; cbn in G.
  - destruct G as (d & Nd & ->). cbn [app] in H. destruct (sym_reads _ _ _ _ H) as (m & E & H'). destruct (num_reads _ _ _ _ _ Nd H') as (m' & E' & H''). exists m'. split; [|exact H''].
    apply opt_some. now rewrite (seq_step _ _ _ _ _ E).
  - subst ws. exists s. split; [|exact H]. apply opt_none. apply seq_soft. apply sym_soft. rewrite (peek_sign _ _ _ _ H). congruence.
Qed.

(** ** Comma separated lists *)
Lemma comma_sound {A} (p : parser A) g : sound p g -> sound (delimited p) (comma_list g).
Proof.
  intros Sp s l r H. apply seq_got in H as (a & m & Ha & H). apply seq_got in H as (t & m' & Ht & H). apply give_got in H as (-> & ->).
  destruct (Sp _ _ _ Ha) as (xs & G & R).
  destruct (many_sound (_ <~ sym "," ;; p) (fun a zs => exists as_, g a as_ /\ zs = Sign "," :: as_)) with (s := m) (a := t) (r := m') as (ys & G' & R'); [|exact Ht|].
  - intros s' b r' Hb. inv. destruct (Sp _ _ _ Hb) as (zs & Gz & Rz). exists (Sign "," :: zs). split; [eauto|]. chain.
  - exists (xs ++ ys)%list. split; [|chain]. exists a, t, xs, ys. auto.
Qed.
Lemma comma_complete {A} (p : parser A) g (C : string -> Prop) : complete p g C -> (forall s, peek s = Some ","%char -> C s) ->
  forall l xs s r, comma_list g l xs -> reads xs s r -> C r ->
    (peek r <> Some ","%char \/ exists m, sym "," r = Got tt m /\ p m = Soft) -> delimited p s = Got l r.
Proof.
  intros Cp Hc l xs s r (a & t & ys & ts & -> & G & (tss & F & ->) & ->) R Cr N. apply reads_app in R as (m & R1 & R2).
  set (g' := fun a zs => exists as_, g a as_ /\ zs = Sign "," :: as_) in *.
  assert (Cp' : complete (_ <~ sym "," ;; p) g' C).
  { intros b zs s' r' (as_ & Gb & ->) Rb Cb. destruct (sym_reads _ _ _ _ Rb) as (m' & E & R'). rewrite (seq_step _ _ _ _ _ E). exact (Cp _ _ _ _ Gb R' Cb). }
  assert (Hs' : forall b zs s' r', g' b zs -> reads zs s' r' -> C s' /\ zs <> []).
  { intros b zs s' r' (as_ & Gb & ->) Rb. split; [|discriminate]. apply Hc. exact (peek_sign _ _ _ _ Rb). }
  assert (Cm : C m). { destruct F as [|b zs l tss G' F]; [cbn in R2; now subst m|]. cbn [List.concat] in R2. apply reads_app in R2 as (m' & R2 & _). exact (proj1 (Hs' _ _ _ _ G' R2)). }
  unfold delimited. rewrite (seq_step _ _ _ _ _ (Cp _ _ _ _ G R1 Cm)). erewrite seq_step; [reflexivity|].
  apply (many_complete _ g' C Cp' Hs' _ (List.concat tss)); [now exists tss|exact R2|exact Cr|].
  destruct N as [N|(m' & E & N)]; [apply seq_soft; now apply sym_soft|]. now rewrite (seq_step _ _ _ _ _ E).
Qed.

(** ** Constants *)
Lemma constant_sound : forall s p r, constant s = Got p r -> exists c xs, doc c /\ g_constant p xs /\ reads (c ++ xs) s r.
Proof.
  intros s p r H. unfold constant in H. inv. eexists _, _. split; [eassumption|]. split; [split; [eassumption|reflexivity]|]. cbn [pc_type pc_name pc_value]. chain.
Qed.
Lemma constant_complete c p xs s r : doc c -> g_constant p xs -> reads (c ++ xs) s r -> constant s = Got p r.
Proof.
  intros D (T & ->) H. apply doc_reads in H as (o & m & Eo & H); [|exact D|exact I]. unfold constant. rewrite (seq_step _ _ _ _ _ Eo). eat H.
  destruct (basic_type_reads _ _ _ _ T H) as (m1 & E1 & H1). rewrite (seq_step _ _ _ _ _ E1). eat H1. eat H1. eat H1. eat H1. cbn in H1. subst. unfold give. now destruct p.
Qed.

(** ** Enumerations *)
Lemma value_sound : sound enum_value g_value.
Proof.
  intros s v r H. unfold enum_value in H. inv. match goal with H : opt (seq _ _) _ = Got ?o _ |- _ => rename H into Ho; apply opt_got in Ho; destruct o as [u|] end.
  - inv. eexists. split; [eexists; split; [eassumption|reflexivity]|]. cbn [fst snd]. chain.
  - destruct Ho as (-> & _). eexists. split; [eexists; split; [eassumption|reflexivity]|]. cbn [fst snd]. chain.
Qed.
Lemma value_complete : complete enum_value g_value (fun r => peek r <> Some "="%char).
Proof.
  intros [n v] xs s r (c & D & ->) H N. cbn [fst snd] in H. apply doc_reads in H as (o & m & Eo & H); [|exact D|exact I]. unfold enum_value. rewrite (seq_step _ _ _ _ _ Eo). eat H.
  destruct v as [v|].
  - destruct (sym_reads _ _ _ _ H) as (m1 & E1 & H1). destruct (literal_reads _ _ _ _ H1) as (m2 & E2 & H2). cbn in H2. subst m2.
    erewrite seq_step; [reflexivity|]. apply opt_some. now rewrite (seq_step _ _ _ _ _ E1).
  - cbn in H. subst. erewrite seq_step; [reflexivity|]. apply opt_none. apply seq_soft. now apply sym_soft.
Qed.
Lemma enum_sound : forall s p r, enum s = Got p r -> exists c xs, doc c /\ g_enum p xs /\ reads (c ++ xs) s r.
Proof.
  intros s p r H. unfold enum in H. inv. match goal with H : opt (_ <~ sym ":" ;; _) _ = _ |- _ => apply width_sound in H as (w & Gw & Rw) end.
  match goal with H : delimited enum_value _ = _ |- _ => apply (comma_sound _ _ value_sound) in H as (vs & Gv & Rv) end.
  match goal with H : opt (sym ",") ?a = Got ?o ?b |- _ => assert (X : exists e, (e = [] \/ e = [Sign ","]) /\ reads e a b) by
    (apply opt_got in H; destruct o; [inv; eexists; split; [right; reflexivity|eassumption]|destruct H as (-> & _); exists []; split; [now left|reflexivity]]) end.
  destruct X as (e & Ge & Re). eexists _, _. split; [eassumption|]. split; [exists w, vs, e; split; [eassumption|]; split; [eassumption|]; split; [eassumption|]; split; [eassumption|reflexivity]|].
  cbn [pe_name pe_type app]. chain.
Qed.
Lemma enum_complete c p xs s r : doc c -> g_enum p xs -> reads (c ++ xs) s r -> enum s = Got p r.
Proof.
  intros D (w & vs & e & T & Gw & Gv & Ge & ->) H. cbn [app] in H. apply doc_reads in H as (o & m & Eo & H); [|exact D|exact I]. unfold enum. rewrite (seq_step _ _ _ _ _ Eo). do 3 eat H.
  destruct (basic_type_reads _ _ _ _ T H) as (m3 & E3 & H3). rewrite (seq_step _ _ _ _ _ E3). apply (width_complete "{" (pe_width p)) in H3 as (m4 & E4 & H4); [|discriminate|exact Gw].
  unfold width_part in E4. rewrite (seq_step _ _ _ _ _ E4). eat H4. apply reads_app in H4 as (m6 & R6 & H4).
  assert (K : delimited enum_value m5 = Got (pe_values p) m6 /\ exists o m7, opt (sym ",") m6 = Got o m7 /\ reads [Sign "}"] m7 r).
  { destruct Ge as [->| ->]; cbn [app] in H4.
    - pose proof (peek_sign _ _ _ _ H4) as P. split.
      + apply (comma_complete _ g_value _ value_complete) with (xs := vs); [intros z -> ; discriminate|exact Gv|exact R6|rewrite P; discriminate|left; rewrite P; discriminate].
      + exists None, m6. split; [|exact H4]. apply opt_none. apply sym_soft. rewrite P. discriminate.
    - pose proof (peek_sign _ _ _ _ H4) as P. destruct (sym_reads _ _ _ _ H4) as (m7 & E7 & H7). pose proof (peek_sign _ _ _ _ H7) as P7. split.
      + apply (comma_complete _ g_value _ value_complete) with (xs := vs); [intros z -> ; discriminate|exact Gv|exact R6|rewrite P; discriminate|right]. exists m7. split; [exact E7|].
        unfold enum_value. erewrite seq_step; [|apply opt_none; apply (comment_none (Sign "}") [] m7 r); [exact I|exact H7]]. apply seq_soft. apply word_soft. rewrite P7. now intros ? [= <-].
      + exists (Some tt), m7. split; [|exact H7]. now apply opt_some. }
  destruct K as (E6 & o' & m7 & E7 & H7). rewrite (seq_step _ _ _ _ _ E6), (seq_step _ _ _ _ _ E7). eat H7. cbn in H7. subst. unfold give. now destruct p.
Qed.

(** ** Structures *)
Lemma many_none {A} (p : parser A) s : p s = Soft -> many p s = Got [] s.
Proof. intros H. unfold many. cbn. now rewrite H. Qed.
Lemma decoration_sound : sound field_decoration g_decoration.
Proof.
  intros s d r H. unfold field_decoration in H. apply alt_got in H as [H|(_ & H)]; [|apply alt_got in H as [H|(_ & H)]].
  - unfold range in H. inv. eexists. split; [eexists; split; [eassumption|reflexivity]|]. chain.
  - unfold const_ref in H. inv. eexists. split; [reflexivity|]. chain.
  - unfold invalid_value in H. inv. eexists. split; [reflexivity|]. chain.
Qed.
Lemma range_soft x xs s r : silent x -> reads (x :: xs) s r -> keyword "@range" s = Soft -> range s = Soft.
Proof. intros S H K. unfold range. erewrite seq_step; [|apply opt_none; exact (comment_none _ _ _ _ S H)]. now apply seq_soft. Qed.
Lemma decoration_complete : complete field_decoration g_decoration any.
Proof.
  intros d xs s r G H _. unfold field_decoration. destruct d as [n|n|n]; cbn [g_decoration] in G.
  - destruct G as (c & D & ->). apply alt_left. apply doc_reads in H as (o & m & Eo & H); [|exact D|exact I]. unfold range. rewrite (seq_step _ _ _ _ _ Eo). eat H. apply hard_got.
    do 3 eat H. done H.
  - subst xs. rewrite alt_right by (apply (range_soft (Key "@const") _ _ _ I H); other H). apply alt_left. unfold const_ref. eat H. apply hard_got. do 3 eat H. done H.
  - subst xs. rewrite alt_right by (apply (range_soft (Key "@optional") _ _ _ I H); other H).
    rewrite alt_right by (apply seq_soft; other H). unfold invalid_value. eat H. apply hard_got. do 3 eat H. done H.
Qed.
Lemma at_soft (s : string) k : peek s <> Some "@"%char -> keyword (String "@" k) s = Soft. Proof. apply keyword_soft. Qed.
Lemma decoration_soft x xs s r : silent x -> peek s <> Some "@"%char -> reads (x :: xs) s r -> field_decoration s = Soft.
Proof.
  intros S P H. unfold field_decoration. rewrite alt_right by (apply (range_soft _ _ _ _ S H); now apply at_soft). rewrite alt_right by (apply seq_soft; now apply at_soft).
  apply seq_soft. now apply at_soft.
Qed.
Lemma letter_not c d : is_letter c = true -> is_letter d = false -> c <> d. Proof. congruence. Qed.
Lemma ident_not n xs s r d : is_letter d = false -> reads (Ident n :: xs) s r -> peek s <> Some d.
Proof. intros D H. destruct (peek_ident _ _ _ _ H) as (c & -> & L). intros [= ->]. congruence. Qed.
Lemma decoration_start d xs : g_decoration d xs -> xs <> [].
Proof. destruct d; cbn; [intros (c & _ & ->) E; now apply app_eq_nil in E as (_ & E)|intros ->; discriminate|intros ->; discriminate]. Qed.
(** the comment of a leading @range may be taken for the field's *)
Lemma field_split c l ds : doc c -> sequence g_decoration l ds -> exists c' ds', (c ++ ds = c' ++ ds')%list /\ sequence g_decoration l ds'
  /\ ((exists t, c' = [Comment t]) \/ c' = [] /\ forall n xs, exists x ys, (ds' ++ Ident n :: xs = x :: ys)%list /\ silent x).
Proof.
  intros [->|(t & ->)] Sq.
  - destruct Sq as (dss & F & ->). destruct F as [|d xs l dss G F].
    + exists [], []. split; [reflexivity|]. split; [exists []; now split|]. right. split; [reflexivity|]. intros n xs. exists (Ident n), xs. now split.
    + destruct d as [n|n|n]; cbn [g_decoration] in G.
      * destruct G as (c & [->|(t & ->)] & ->).
        -- eexists [], _. split; [reflexivity|]. split; [eexists (_ :: dss); split; [constructor; [exists []; split; [now left|reflexivity]|exact F]|reflexivity]|]. right. split; [reflexivity|].
           intros m xs. eexists _, _. split; [reflexivity|exact I].
        -- eexists [Comment t], _. split; [reflexivity|]. split; [eexists (([] ++ _)%list :: dss); split; [constructor; [exists []; split; [now left|reflexivity]|exact F]|reflexivity]|]. left. eauto.
      * subst xs. eexists [], _. split; [reflexivity|]. split; [eexists (_ :: dss); split; [constructor; [reflexivity|exact F]|reflexivity]|]. right. split; [reflexivity|].
        intros m xs. eexists _, _. split; [reflexivity|exact I].
      * subst xs. eexists [], _. split; [reflexivity|]. split; [eexists (_ :: dss); split; [constructor; [reflexivity|exact F]|reflexivity]|]. right. split; [reflexivity|].
        intros m xs. eexists _, _. split; [reflexivity|exact I].
  - exists [Comment t], ds. split; [reflexivity|]. split; [exact Sq|]. left. eauto.
Qed.
Lemma field_sound : sound field g_field.
Proof.
  intros s p r H. unfold field in H. inv. match goal with H : opt (_ <~ sym ":" ;; _) _ = _ |- _ => apply width_sound in H as (w & Gw & Rw) end.
  match goal with H : many field_decoration _ = _ |- _ => apply (many_sound _ _ decoration_sound) in H as (ds & Gd & Rd) end.
  eexists. split; [eexists _, ds, w; split; [eassumption|]; split; [eassumption|]; split; [eassumption|reflexivity]|]. cbn [pf_name pf_type app]. chain.
Qed.
Lemma field_complete : complete field g_field any.
Proof.
  intros p xs s r (c0 & ds0 & w & D0 & Gd0 & Gw & ->) H _. destruct (field_split _ _ _ D0 Gd0) as (c & ds & E0 & Gd & K). rewrite app_assoc, E0, <- app_assoc in H. clear c0 ds0 D0 Gd0 E0.
  unfold field. cbn [app] in H.
  assert (X : exists o m, opt comment s = Got o m /\ reads (ds ++ Ident (pf_name p) :: Sign ":" :: Qual (pf_type p) :: w ++ [Sign ";"]) m r).
  { destruct K as [(t & ->)|(-> & K)].
    - destruct (comment_reads _ _ _ _ H) as (m & E & R). exists (Some tt), m. split; [now apply opt_some|exact R].
    - exists None, s. split; [|exact H]. apply opt_none. destruct (K (pf_name p) (Sign ":" :: Qual (pf_type p) :: w ++ [Sign ";"])%list) as (x & ys & E & S). cbn [app] in H. rewrite E in H.
      exact (comment_none _ _ _ _ S H). }
  clear H K. destruct X as (o & m & Eo & H). rewrite (seq_step _ _ _ _ _ Eo). apply reads_app in H as (m1 & R1 & H).
  rewrite (seq_step _ _ m (pf_decs p) m1).
  2:{ apply (many_complete _ _ any decoration_complete) with (xs := ds); [intros a xs s' r' G _; split; [exact I|exact (decoration_start _ _ G)]|exact Gd|exact R1|exact I|].
      eapply (decoration_soft (Ident (pf_name p))); [exact I| |exact H]. (eapply ident_not; [|exact H]; reflexivity). }
  eat H. apply hard_got. do 2 eat H. apply (width_complete ";" (pf_width p)) in H as (m5 & E5 & H5); [|discriminate|exact Gw]. unfold width_part in E5. rewrite (seq_step _ _ _ _ _ E5). eat H5.
  cbn in H5. subst. unfold give. now destruct p.
Qed.
Lemma field_soft xs s r : reads (Sign "}" :: xs) s r -> field s = Soft.
Proof.
  intros H. pose proof (peek_sign _ _ _ _ H) as P. unfold field. erewrite seq_step; [|apply opt_none; exact (comment_none (Sign "}") _ _ _ I H)].
  erewrite seq_step; [|apply many_none; eapply (decoration_soft (Sign "}")); [exact I|rewrite P; discriminate|exact H]]. apply seq_soft. apply word_soft. rewrite P. now intros ? [= <-].
Qed.
Lemma field_start p xs : g_field p xs -> xs <> [].
Proof. intros (c & ds & w & _ & _ & _ & ->) E. apply app_eq_nil in E as (_ & E). apply app_eq_nil in E as (_ & E). discriminate. Qed.
Lemma struct_sound : forall s p r, struct s = Got p r -> exists c xs, doc c /\ g_struct p xs /\ reads (c ++ xs) s r.
Proof.
  intros s p r H. unfold struct in H. inv. match goal with H : some field _ = _ |- _ => apply (some_sound _ _ field_sound) in H as (fs & Nn & Gf & Rf) end.
  eexists _, _. split; [eassumption|]. split; [exists fs; split; [eassumption|]; split; [eassumption|reflexivity]|]. cbn [ps_name app]. chain.
Qed.
Lemma struct_complete c p xs s r : doc c -> g_struct p xs -> reads (c ++ xs) s r -> struct s = Got p r.
Proof.
  intros D (fs & Nn & Gf & ->) H. cbn [app] in H. apply doc_reads in H as (o & m & Eo & H); [|exact D|exact I]. unfold struct. rewrite (seq_step _ _ _ _ _ Eo). eat H. apply hard_got. do 2 eat H.
  apply reads_app in H as (m4 & R4 & H). erewrite seq_step.
  2:{ apply (some_complete _ _ any field_complete) with (xs := fs); [intros a xs s' r' G _; split; [exact I|exact (field_start _ _ G)]|exact Nn|exact Gf|exact R4|exact I|exact (field_soft _ _ _ H)]. }
  eat H. cbn in H. subst. unfold give. now destruct p.
Qed.

(** ** Resources *)
Lemma app_split a : forall b c d : string, a ++ b = c ++ d -> (exists u, a = c ++ u /\ d = u ++ b) \/ exists u, c = a ++ u /\ b = u ++ d.
Proof.
  induction a as [|x a IH]; intros b c d E; [right; now exists c|]. destruct c as [|y c]; [left; exists (String x a); now split|].
  cbn in E. injection E as -> E. destruct (IH _ _ _ E) as [(u & -> & ->)|(u & -> & ->)]; [left|right]; exists u; now split.
Qed.
Lemma keyword_qual k n xs s r w m : only_chars name_char k = true -> reads (Qual n :: xs) s r -> keyword k s = Got w m ->
  n = k /\ reads xs m r \/ exists u, n = k ++ "." ++ u.
Proof.
  intros Ok H K. destruct (reads_skip _ _ _ _ H) as (s' & E & (c & t & En & A & B) & F & R). unfold keyword, blanks in K. rewrite E in K. cbn [lexeme_text] in K. cbn [ends_before] in F.
  destruct (strip k (n ++ s')) as [z|] eqn:Sk; [|discriminate]. destruct (starts key_char z) eqn:N; [discriminate|]. injection K as _ ->. apply strip_some in Sk.
  apply app_split in Sk as [(u & -> & ->)|(u & -> & ->)].
  - destruct u as [|d u]; [left; rewrite str_nil; now split|]. right. exists u. f_equal. cbn [append] in *. f_equal. cbn [starts] in N.
    assert (P : path_char d = true).
    { destruct k as [|a k]; cbn in En; injection En as <- <-.
      - unfold path_char, name_char. destruct (is_letter d); [reflexivity|]. cbn in A. rewrite A. now rewrite orb_true_r.
      - rewrite only_app in B. apply andb_true_iff in B as (_ & B). cbn in B. now apply andb_true_iff in B as (B & _). }
    rewrite key_is in N. unfold path_char in P. apply orb_false_iff in N as (N & _). rewrite N in P. cbn in P. now apply Ascii.eqb_eq in P.
  - destruct u as [|d u]; [left; rewrite str_nil; now split|]. exfalso. rewrite only_app in Ok. apply andb_true_iff in Ok as (_ & Ok). cbn in Ok. apply andb_true_iff in Ok as (Ok & _).
    cbn in F. unfold path_char in F. now rewrite Ok in F.
Qed.
Lemma type_complete t ts xs s r : g_resource_type t ts -> reads (ts ++ Sign ";" :: xs) s r -> exists m, resource_type s = Got t m /\ reads (Sign ";" :: xs) m r.
Proof.
  intros G H. unfold resource_type. destruct t as [|n|w ns|n|n]; cbn [g_resource_type] in G.
  - subst ts. cbn [app] in H. destruct (keyword_reads _ _ _ _ H) as (m & E & R). exists m. split; [|exact R]. apply alt_left. unfold raw_data. now rewrite (seq_step _ _ _ _ _ E).
  - subst ts. cbn [app] in H. rewrite alt_right by (apply seq_soft; other H). apply keyword_reads in H as (m & E & H). apply sym_reads in H as (m1 & E1 & H). apply qualified_reads in H as (m2 & E2 & H). apply sym_reads in H as (m3 & E3 & H).
    exists m3. split; [|exact H]. apply alt_left. unfold vector. rewrite (seq_step _ _ _ _ _ E). apply hard_got. now rewrite (seq_step _ _ _ _ _ E1), (seq_step _ _ _ _ _ E2), (seq_step _ _ _ _ _ E3).
  - destruct G as (d & ys & Nd & Gy & ->). cbn [app] in H. rewrite <- app_assoc in H. cbn [app] in H. rewrite !alt_right by (apply seq_soft; other H).
    apply keyword_reads in H as (m & E & H). apply sym_reads in H as (m1 & E1 & H). destruct (num_reads _ _ _ _ _ Nd H) as (m2 & E2 & H2). apply sym_reads in H2 as (m3 & E3 & H3). apply reads_app in H3 as (m4 & R4 & H4).
    pose proof (peek_sign _ _ _ _ H4) as P4. apply sym_reads in H4 as (m5 & E5 & H5). exists m5. split; [|exact H5]. apply alt_left. unfold multivector.
    rewrite (seq_step _ _ _ _ _ E). apply hard_got. rewrite (seq_step _ _ _ _ _ E1), (seq_step _ _ _ _ _ E2), (seq_step _ _ _ _ _ E3). erewrite seq_step.
    2:{ apply (comma_complete _ g_name any) with (xs := ys); [|intros; exact I|exact Gy|exact R4|exact I|left; rewrite P4; discriminate].
        intros a zs s' r' -> Ra _. destruct (qualified_reads _ _ _ _ Ra) as (m' & E' & R'). cbn in R'. now subst m'. }
    now rewrite (seq_step _ _ _ _ _ E5).
  - destruct G as (c & D & ->). rewrite <- app_assoc in H. cbn [app] in H.
    assert (S3 : forall k, In k ["raw_data"; "vector"; "multivector"] -> keyword k s = Soft).
    { intros k Hk. destruct D as [->|(t & ->)]; cbn [app] in H.
      - apply (keyword_other k "archive" _ _ _) with (2 := H). cbn [In] in Hk. repeat (destruct Hk as [<-|Hk]; [reflexivity|]). destruct Hk.
      - destruct (reads_peek _ _ _ _ H) as (d & u & E & P). destruct (reads_skip _ _ _ _ H) as (_ & _ & W & _). assert (d = "/"%char) as ->.
        { cbn [lexeme_text] in E. subst t. destruct W as [(b & X & _)|(b & X & _)]; cbn in X; now injection X as -> _. }
        cbn [In] in Hk. repeat (destruct Hk as [<-|Hk]; [apply keyword_soft; rewrite P; discriminate|]). destruct Hk. }
    rewrite !alt_right by (apply seq_soft; apply S3; cbn; tauto). apply doc_reads in H as (o & m & Eo & H); [|exact D|exact I]. apply keyword_reads in H as (m1 & E1 & H). apply qualified_reads in H as (m2 & E2 & H). exists m2. split; [|exact H]. apply alt_left. unfold archive_resource.
    now rewrite (seq_step _ _ _ _ _ Eo), (seq_step _ _ _ _ _ E1), (seq_step _ _ _ _ _ E2).
  - destruct G as (N1 & N2 & N3 & N4 & ->). cbn [app] in H.
    assert (S3 : forall k, only_chars name_char k = true -> ~ like k n -> keyword k s = Soft).
    { intros k Ok Nk. destruct (keyword k s) as [w m| |] eqn:E; [|reflexivity|].
      - exfalso. apply Nk. destruct (keyword_qual _ _ _ _ _ _ _ Ok H E) as [(-> & _)|(u & ->)]; [now left|right; eauto].
      - exfalso. clear - E. unfold keyword, blanks in E. destruct (strip k (skip s)); [destruct (starts key_char s0)|]; discriminate. }
    rewrite !alt_right by (apply seq_soft; apply S3; [reflexivity|assumption]). rewrite alt_right.
    + apply qualified_reads in H as (m & E & H). exists m. split; [|exact H]. unfold single_object. now rewrite (seq_step _ _ _ _ _ E).
    + unfold archive_resource. erewrite seq_step; [|apply opt_none; exact (comment_none (Qual n) _ _ _ I H)]. destruct (keyword "archive" s) as [w m| |] eqn:E; [|now apply seq_soft|].
      * destruct (keyword_qual "archive" n _ _ _ _ _ eq_refl H E) as [(-> & R)|(u & ->)]; [|destruct (N4 u); reflexivity]. rewrite (seq_step _ _ _ _ _ E). apply seq_soft. apply word_soft.
        rewrite (peek_sign _ _ _ _ R). now intros ? [= <-].
      * exfalso. clear - E. unfold keyword, blanks in E. destruct (strip "archive" (skip s)); [destruct (starts key_char s0)|]; discriminate.
Qed.
Lemma keyword_here k n u s : skip s = k ++ u -> no_next key_char u -> n = k -> keyword n s = Got k u.
Proof. intros E N ->. unfold keyword, blanks. rewrite E, strip_app. apply starts_no in N. now rewrite N. Qed.
Lemma hard_soft {A} (p : parser A) s : hard p s <> Soft. Proof. unfold hard. destruct (p s); discriminate. Qed.
Lemma type_sound t s m r u : resource_type s = Got t m -> sym ";" m = Got u r -> exists ts, g_resource_type t ts /\ reads ts s m.
Proof.
  intros H Hs. unfold resource_type in H. apply alt_got in H as [H|(S1 & H)]; [|apply alt_got in H as [H|(S2 & H)]; [|apply alt_got in H as [H|(S3 & H)]; [|apply alt_got in H as [H|(S4 & H)]]]].
  - unfold raw_data in H. inv. eexists. split; [reflexivity|]. chain.
  - unfold vector in H. inv. eexists. split; [reflexivity|]. chain.
  - unfold multivector in H. inv. match goal with H : bit_width _ = _ |- _ => apply bit_width_got in H as (d & Nd & Rd) end.
    match goal with H : delimited _ _ = _ |- _ => apply (comma_sound _ g_name) in H as (ys & Gy & Ry); [|intros ? ? ? X; apply qualified_got in X; eexists; split; [reflexivity|exact X]] end.
    eexists. split; [eexists _, _; split; [eassumption|]; split; [eassumption|reflexivity]|]. cbn [app]. chain.
  - unfold archive_resource in H. inv. eexists. split; [eexists; split; [eassumption|reflexivity]|]. chain.
  - unfold single_object in H. apply seq_got in H as (n & m' & H & G). apply give_got in G as (-> & ->). pose proof (qualified_got _ _ _ H) as R. exists [Qual n]. split; [|exact R].
    destruct (reads_skip _ _ _ _ R) as (z & E & W & _ & Ez). cbn in Ez. subst z. cbn [lexeme_text] in E.
    assert (Nm : no_next key_char m').
    { apply sym_got in Hs; [|reflexivity]. destruct Hs as (b & z & -> & B & _). destruct b as [|c b]; [reflexivity|]. cbn in B. apply andb_true_iff in B as (B & _).
      clear - B. revert B. destruct c as [[] [] [] [] [] [] [] []]; vm_compute; congruence. }
    assert (Nk : forall k, like k n -> keyword k s <> Soft).
    { intros k [->|(v & ->)] X; [rewrite (keyword_here k k m' s E Nm eq_refl) in X; discriminate|]. rewrite str_assoc in E.
      rewrite (keyword_here k k _ s E) in X; [discriminate|reflexivity|reflexivity]. }
    assert (Sk : forall k (q : string -> parser rtype), seq (keyword k) q s = Soft -> (forall a z, q a z <> Soft) -> keyword k s = Soft).
    { intros k q X Y. unfold seq in X. destruct (keyword k s) eqn:Ek; [destruct (Y _ _ X)|reflexivity|discriminate]. }
    split; [intros L; apply (Nk _ L); refine (Sk _ _ S1 _); discriminate|]. split; [intros L; apply (Nk _ L); refine (Sk _ _ S2 _); intros; apply hard_soft|].
    split; [intros L; apply (Nk _ L); refine (Sk _ _ S3 _); intros; apply hard_soft|]. split; [|reflexivity].
    intros v ->. cbn [append] in E. unfold archive_resource in S4. erewrite seq_step in S4 by (apply opt_none; exact (comment_none (Qual _) _ _ _ I R)).
    erewrite seq_step in S4 by (apply (keyword_here "archive" "archive" ("." ++ v ++ m')); [exact E|reflexivity|reflexivity]).
    unfold seq in S4. unfold qualified_identifier, word, blanks in S4. cbn [append] in S4. rewrite skip_here in S4 by reflexivity. cbn [append word_here] in S4. change (qual_start ".") with true in S4. cbv iota in S4.
    destruct (span qual_char (v ++ m')); discriminate.
Qed.
Lemma piece_sound : sound prefix_piece g_piece.
Proof.
  intros s a r H. unfold prefix_piece in H. apply seq_got in H as (d & m & Hd & H). apply seq_got in H as (n & m1 & Hn & H). apply seq_got in H as (x & m2 & Hf & H). apply give_got in H as (-> & ->).
  apply identifier_got in Hn. assert (m2 = m1) as -> by (clear - Hf; unfold not_followed_by in Hf; destruct (sym "," m1); congruence). apply opt_got in Hd. destruct d as [z|].
  - apply sym_got in Hd; [|reflexivity]. exists [Sign "."; Ident n]. split; [right; eauto|]. chain.
  - destruct Hd as (-> & _). exists [Ident n]. split; [now left|exact Hn].
Qed.
Lemma piece_complete : complete prefix_piece g_piece (fun r => peek r <> Some ","%char).
Proof.
  intros a xs s r G H N. assert (Nf : forall z, peek z <> Some ","%char -> not_followed_by "," z = Got tt z) by (intros z Nz; unfold not_followed_by; now rewrite (sym_soft _ _ Nz)).
  unfold prefix_piece. destruct G as [->|(n & -> & ->)].
  - erewrite seq_step; [|apply opt_none; apply sym_soft; (eapply ident_not; [|exact H]; reflexivity)]. eat H. cbn in H. subst. now rewrite (seq_step _ _ _ _ _ (Nf _ N)).
  - destruct (sym_reads _ _ _ _ H) as (m & E & R). erewrite seq_step; [|apply opt_some; exact E]. eat R. cbn in R. subst. now rewrite (seq_step _ _ _ _ _ (Nf _ N)).
Qed.
Lemma piece_start a xs s r : g_piece a xs -> reads xs s r -> peek s <> Some ","%char /\ xs <> [].
Proof.
  intros [->|(n & -> & ->)] H.
  - split; [(eapply ident_not; [|exact H]; reflexivity)|discriminate].
  - rewrite (peek_sign _ _ _ _ H). split; discriminate.
Qed.
Lemma piece_soft f xs s r : reads (Sign "." :: Ident f :: Sign "," :: xs) s r -> prefix_piece s = Soft.
Proof.
  intros H. unfold prefix_piece. destruct (sym_reads _ _ _ _ H) as (m & E & R). erewrite seq_step; [|apply opt_some; exact E]. eat R. apply seq_soft. unfold not_followed_by.
  destruct (sym_reads _ _ _ _ R) as (m2 & E2 & _). now rewrite E2.
Qed.
Lemma resource_decoration_sound : sound resource_decoration g_resource_decoration.
Proof.
  intros s d r H. unfold resource_decoration in H. apply alt_got in H as [H|(_ & H)].
  - unfold explicit_reference in H. inv. match goal with H : explicit_field_reference_prefix _ = _ |- _ => unfold explicit_field_reference_prefix in H; apply seq_got in H as (ps & q & H & G); apply give_got in G as (-> & ->); apply (some_sound _ _ piece_sound) in H as (ys & Np & Gp & Rp) end.
    eexists. split; [exists ps, ys; split; [exact Np|]; split; [reflexivity|]; split; [exact Gp|reflexivity]|]. cbn [app]. chain.
  - unfold optional_decoration in H. inv. eexists. split; [reflexivity|]. chain.
Qed.
Lemma resource_decoration_complete : complete resource_decoration g_resource_decoration any.
Proof.
  intros d xs s r G H _. unfold resource_decoration. destruct d as [a f t|]; cbn [g_resource_decoration] in G.
  - destruct G as (ps & ys & Np & -> & Gp & ->). apply alt_left. unfold explicit_reference. cbn [app] in H. eat H. apply hard_got. eat H. apply reads_app in H as (m2 & R2 & H).
    erewrite seq_step.
    2:{ unfold explicit_field_reference_prefix. erewrite seq_step; [reflexivity|].
        apply (some_complete _ _ _ piece_complete) with (xs := ys); [exact piece_start|exact Np|exact Gp|exact R2|rewrite (peek_sign _ _ _ _ H); discriminate|exact (piece_soft _ _ _ _ H)]. }
    do 5 eat H. done H.
  - subst xs. rewrite alt_right by (apply seq_soft; other H). unfold optional_decoration. eat H. done H.
Qed.
Lemma resource_decoration_soft s : peek s <> Some "@"%char -> resource_decoration s = Soft.
Proof. intros P. unfold resource_decoration. rewrite alt_right by (apply seq_soft; now apply at_soft). apply seq_soft. now apply at_soft. Qed.
Lemma resource_decoration_start d xs : g_resource_decoration d xs -> exists k ys, xs = (Key k :: ys)%list.
Proof. destruct d; cbn [g_resource_decoration]; [intros (ps & ys & _ & _ & _ & ->); cbn [app]; eauto|intros ->; eauto]. Qed.
Lemma resource_sound : sound resource g_resource.
Proof.
  intros s p r H. unfold resource in H. inv. match goal with H : many resource_decoration _ = _ |- _ => apply (many_sound _ _ resource_decoration_sound) in H as (ds & Gd & Rd) end.
  match goal with H : resource_type _ = Got _ ?m, K : reads [Sign ";"] ?m _ |- _ => pose proof (sym_reads _ _ _ _ K) as (z & Ez & _); destruct (type_sound _ _ _ _ _ H Ez) as (ts & Gt & Rt) end.
  eexists. split; [eexists _, ds, ts; split; [eassumption|]; split; [eassumption|]; split; [eassumption|reflexivity]|]. cbn [pr_name app]. chain.
Qed.
Lemma resource_complete : complete resource g_resource any.
Proof.
  intros p xs s r (c & ds & ts & D & Gd & Gt & ->) H _. unfold resource.
  assert (X : exists x ys, (ds ++ [Ident (pr_name p); Sign ":"] ++ ts ++ [Sign ";"] = x :: ys)%list /\ silent x).
  { destruct Gd as (dss & F & ->). destruct F as [|d zs l dss G F]; [eexists _, _; split; [reflexivity|exact I]|]. destruct (resource_decoration_start _ _ G) as (k & ys & ->). eexists _, _. split; [reflexivity|exact I]. }
  destruct X as (x & ys & E & S). rewrite E in H. apply doc_reads in H as (o & m & Eo & H); [|exact D|exact S]. rewrite <- E in H. rewrite (seq_step _ _ _ _ _ Eo). clear x ys E S.
  cbn [app] in H. apply reads_app in H as (m1 & R1 & H). erewrite seq_step.
  2:{ apply (many_complete _ _ any resource_decoration_complete) with (xs := ds); [|exact Gd|exact R1|exact I|].
      - intros a xs s' r' G _. split; [exact I|]. destruct (resource_decoration_start _ _ G) as (k & ys & ->). discriminate.
      - apply resource_decoration_soft. (eapply ident_not; [|exact H]; reflexivity). }
  do 2 eat H. apply hard_got. destruct (type_complete _ _ _ _ _ Gt H) as (m4 & E4 & H4). rewrite (seq_step _ _ _ _ _ E4). eat H4. cbn in H4. subst. unfold give. now destruct p.
Qed.
Lemma resource_soft xs s r : reads (Sign "}" :: xs) s r -> resource s = Soft.
Proof.
  intros H. pose proof (peek_sign _ _ _ _ H) as P. unfold resource. erewrite seq_step; [|apply opt_none; exact (comment_none (Sign "}") _ _ _ I H)].
  erewrite seq_step; [|apply many_none; apply resource_decoration_soft; rewrite P; discriminate]. apply seq_soft. apply word_soft. rewrite P. now intros ? [= <-].
Qed.
Lemma resource_start p xs : g_resource p xs -> xs <> [].
Proof. intros (c & ds & w & _ & _ & _ & ->) E. apply app_eq_nil in E as (_ & E). apply app_eq_nil in E as (_ & E). discriminate. Qed.

(** ** Archives *)
Lemma names_sound : sound (delimited qualified_identifier) (comma_list g_name).
Proof. apply comma_sound. intros s n r H. apply qualified_got in H. eexists. split; [reflexivity|exact H]. Qed.
Lemma bound_sound : sound bound_implicitly g_bound.
Proof.
  intros s b r H. unfold bound_implicitly in H. inv. match goal with H : delimited _ _ = _ |- _ => apply names_sound in H as (ys & Gy & Ry) end.
  eexists. split; [exists ys; split; [eassumption|reflexivity]|]. cbn [fst snd app]. chain.
Qed.
Lemma bound_complete : complete bound_implicitly g_bound any.
Proof.
  intros [n rs] xs s r (ys & Gy & ->) H _. cbn [fst snd app] in *. unfold bound_implicitly. eat H. apply hard_got. do 3 eat H. apply reads_app in H as (m4 & R4 & H). pose proof (peek_sign _ _ _ _ H) as P.
  erewrite seq_step.
  2:{ apply (comma_complete _ g_name any) with (xs := ys); [|intros; exact I|exact Gy|exact R4|exact I|left; rewrite P; discriminate].
      intros a zs s' r' -> Ra _. destruct (qualified_reads _ _ _ _ Ra) as (m' & E' & R'). cbn in R'. now subst m'. }
  eat H. done H.
Qed.
Lemma bound_start b xs : g_bound b xs -> exists ys, xs = (Key "@bound_implicitly" :: ys)%list.
Proof. intros (rs & _ & ->). cbn [app]. eauto. Qed.
Lemma archive_sound : forall s p r, archive s = Got p r -> exists c xs, doc c /\ g_archive p xs /\ reads (c ++ xs) s r.
Proof.
  intros s p r H. unfold archive in H. inv. match goal with H : many bound_implicitly _ = _ |- _ => apply (many_sound _ _ bound_sound) in H as (bs & Gb & Rb) end.
  match goal with H : many resource _ = _ |- _ => apply (many_sound _ _ resource_sound) in H as (rs & Gr & Rr) end.
  eexists _, _. split; [eassumption|]. split; [exists bs, rs; split; [eassumption|]; split; [eassumption|reflexivity]|]. cbn [pa_name app]. chain.
Qed.
Lemma archive_head p xs : g_archive p xs -> exists k ys, xs = (Key k :: ys)%list /\ (k = "archive" \/ k = "@bound_implicitly").
Proof.
  intros (bs & rs & (bss & F & ->) & _ & ->). destruct F as [|b zs l bss G F]; [cbn [List.concat app]; eauto|]. destruct (bound_start _ _ G) as (ys & ->). cbn [List.concat app]. eauto.
Qed.
Lemma archive_complete c p xs s r : doc c -> g_archive p xs -> reads (c ++ xs) s r -> archive s = Got p r.
Proof.
  intros D G H. destruct (archive_head _ _ G) as (k & ys & E & _). rewrite E in H. apply doc_reads in H as (o & m & Eo & H); [|exact D|exact I]. rewrite <- E in H. clear k ys E.
  destruct G as (bs & rs & Gb & Gr & ->). unfold archive. rewrite (seq_step _ _ _ _ _ Eo). cbn [app] in H. apply reads_app in H as (m1 & R1 & H). erewrite seq_step.
  2:{ apply (many_complete _ _ any bound_complete) with (xs := bs); [|exact Gb|exact R1|exact I|].
      - intros a xs s' r' G _. split; [exact I|]. destruct (bound_start _ _ G) as (ys & ->). discriminate.
      - apply seq_soft. apply at_soft. rewrite (peek_key _ _ _ _ _ H). discriminate. }
  eat H. apply hard_got. do 2 eat H. apply reads_app in H as (m5 & R5 & H). erewrite seq_step.
  2:{ apply (many_complete _ _ any resource_complete) with (xs := rs); [|exact Gr|exact R5|exact I|exact (resource_soft _ _ _ H)].
      intros a xs s' r' G _. split; [exact I|exact (resource_start _ _ G)]. }
  eat H. cbn in H. subst. unfold give. now destruct p.
Qed.
