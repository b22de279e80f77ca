(** Every name in a schema that was parsed is made of letters, digits, '_' and '.'. *)
From Coq Require Import List ZArith Bool String Ascii Lia.
From Verif Require Import PyBase PyText GenBuild GenAstSpec GrammarSpec Grammar GrammarLex GrammarFacts GrammarThms.
Import ListNotations.
Local Open Scope string_scope.

Definition plain (n : string) : Prop := only_chars plain_char n = true.
Definition spelled_well (xs : list lexeme) : Prop := Forall well_spelled xs.
Lemma reads_well xs : forall s r, reads xs s r -> spelled_well xs.
Proof. induction xs as [|x xs IH]; intros s r H; [constructor|]. destruct H as (b & s' & _ & _ & W & _ & H). constructor; [exact W|exact (IH _ _ H)]. Qed.
Lemma only_more p q n : (forall c, p c = true -> q c = true) -> only_chars p n = true -> only_chars q n = true.
Proof. intros H. induction n as [|c n IH]; [reflexivity|]. cbn. intros X. apply andb_true_iff in X as (A & B). now rewrite (H _ A), IH. Qed.
Lemma path_plain : forall c, path_char c = true -> plain_char c = true. Proof. all_ascii. Qed.
Lemma name_path c : name_char c = true -> path_char c = true. Proof. unfold path_char. now intros ->. Qed.
Lemma letter_path c : is_letter c = true -> path_char c = true. Proof. unfold path_char, name_char. now intros ->. Qed.
Lemma ident_plain n : well_spelled (Ident n) -> plain n.
Proof.
  intros (c & t & -> & A & B). apply (only_more path_char); [exact path_plain|]. cbn. rewrite (letter_path c A). apply (only_more name_char); [exact name_path|exact B].
Qed.
Lemma qual_plain n : well_spelled (Qual n) -> plain n.
Proof.
  intros (c & t & -> & A & B). apply (only_more path_char); [exact path_plain|]. cbn. rewrite B, andb_true_r. unfold path_char, name_char. destruct (is_letter c); [reflexivity|]. cbn in A. rewrite A. apply orb_true_r.
Qed.
Lemma type_plain t : g_type t -> plain t.
Proof. intros H. unfold g_type in H. cbn [In] in H. repeat (destruct H as [<-|H]; [reflexivity|]). destruct H. Qed.
Lemma concat_plain ps : Forall plain ps -> plain (String.concat "" ps).
Proof.
  unfold plain. intros F. assert (K : forall l, Forall plain l -> only_chars plain_char (String.concat "" l) = true).
  { induction 1 as [|x l X F' IH]; [reflexivity|]. destruct l as [|y l]; [exact X|]. change (String.concat "" (x :: y :: l)) with (x ++ "" ++ String.concat "" (y :: l)). rewrite only_app. unfold plain in X. now rewrite X. }
  exact (K _ F).
Qed.
Lemma well_app xs ys : spelled_well (xs ++ ys) <-> spelled_well xs /\ spelled_well ys. Proof. apply Forall_app. Qed.
Lemma well_cons x xs : spelled_well (x :: xs) <-> well_spelled x /\ spelled_well xs.
Proof. split; [intros H; now inversion H|intros (A & B); now constructor]. Qed.
Lemma sequence_all {A} (g : A -> list lexeme -> Prop) (P : A -> Prop) : (forall a xs, g a xs -> spelled_well xs -> P a) ->
  forall l xs, sequence g l xs -> spelled_well xs -> Forall P l.
Proof.
  intros H l xs (xss & F & ->). induction F as [|a ys l xss G F IH]; intros W; [constructor|]. cbn [List.concat] in W. apply well_app in W as (W1 & W2). constructor; [exact (H _ _ G W1)|exact (IH W2)].
Qed.
Lemma comma_all {A} (g : A -> list lexeme -> Prop) (P : A -> Prop) : (forall a xs, g a xs -> spelled_well xs -> P a) ->
  forall l xs, comma_list g l xs -> spelled_well xs -> Forall P l.
Proof.
  intros H l xs (a & t & ys & ts & -> & G & Sq & ->) W. apply well_app in W as (W1 & W2). constructor; [exact (H _ _ G W1)|].
  refine (sequence_all _ P _ _ _ Sq W2). intros b zs (as_ & Gb & ->) Wz. apply well_cons in Wz as (_ & Wz). exact (H _ _ Gb Wz).
Qed.
Ltac wells := repeat match goal with
  | H : spelled_well (_ :: _) |- _ => apply well_cons in H as (? & H)
  | H : spelled_well (_ ++ _) |- _ => apply well_app in H as (? & H)
  | H : spelled_well (([_] ++ _)%list) |- _ => apply well_app in H as (? & H)
  end.

Definition plain_field (f : pfield) : Prop := plain (pf_name f) /\ plain (pf_type f) /\ Forall (fun d => Forall plain (fdec_mentions d)) (pf_decs f).
Lemma field_plain p xs : g_field p xs -> spelled_well xs -> plain_field p.
Proof.
  intros (c & ds & w & _ & Sq & _ & ->) W. cbn [app] in W. wells. split; [now apply ident_plain|]. split; [now apply qual_plain|].
  refine (sequence_all g_decoration _ _ _ _ Sq H0). intros d zs G Wz. destruct d as [n|n|n]; cbn [g_decoration fdec_mentions] in *.
  - destruct G as (c' & _ & ->). wells. repeat constructor. now apply ident_plain.
  - subst zs. wells. repeat constructor. now apply qual_plain.
  - subst zs. wells. repeat constructor. now apply qual_plain.
Qed.
Definition plain_resource (p : presource) : Prop := Forall plain (resource_names p) /\ Forall plain (rtype_mentions (pr_type p)).
Lemma resource_plain p xs : g_resource p xs -> spelled_well xs -> plain_resource p.
Proof.
  intros (c & ds & ts & _ & Sq & Gt & ->) W. cbn [app] in W. wells. split.
  - unfold resource_names. constructor; [now apply ident_plain|].
    assert (F : Forall (fun d => Forall plain (match d with RExplicit a b c => [a; b; c] | ROptional => [] end)) (pr_decs p)).
    { refine (sequence_all g_resource_decoration _ _ _ _ Sq H0). intros d zs G Wz. destruct d as [a f t|]; cbn [g_resource_decoration] in G; [|constructor].
      destruct G as (ps & ys & _ & -> & Sp & ->). cbn [app] in Wz. wells. constructor; [|repeat constructor; [now apply ident_plain|now apply qual_plain]].
      apply concat_plain. refine (sequence_all g_piece _ _ _ _ Sp _); [|eassumption]. intros q us [->|(n & -> & ->)] Wu; wells; [now apply ident_plain|]. unfold plain. cbn. now apply ident_plain. }
    clear - F. induction F as [|d l X F IH]; [constructor|]. cbn [flat_map]. apply Forall_app. now split.
  - destruct (pr_type p) as [|n|w ns|n|n]; cbn [g_resource_type rtype_mentions] in *; [constructor|subst ts; wells; repeat constructor; now apply qual_plain| | |].
    + destruct Gt as (d & ys & _ & Gy & ->). cbn [app] in *. wells. refine (comma_all g_name _ _ _ _ Gy _); [|eassumption]. intros a zs -> Wz. wells. now apply qual_plain.
    + destruct Gt as (c' & _ & ->). wells. repeat constructor. now apply qual_plain.
    + destruct Gt as (_ & _ & _ & _ & ->). wells. repeat constructor. now apply qual_plain.
Qed.
Definition plain_definition (d : definition) : Prop :=
  match d with
  | DConstant p => plain (pc_name p) /\ plain (pc_type p)
  | DStruct p => plain (ps_name p) /\ Forall plain_field (ps_fields p)
  | DEnum p => plain (pe_name p) /\ plain (pe_type p) /\ Forall (fun v => plain (fst v)) (pe_values p)
  | DArchive p => plain (pa_name p) /\ Forall (fun b => plain (fst b) /\ Forall plain (snd b)) (pa_bound p) /\ Forall plain_resource (pa_resources p)
  end.
Lemma definition_plain d xs : g_definition d xs -> spelled_well xs -> plain_definition d.
Proof.
  destruct d as [p|p|p|p]; cbn [g_definition plain_definition]; intros G W.
  - destruct G as (T & ->). wells. split; [now apply ident_plain|now apply type_plain].
  - destruct G as (fs & _ & Sq & ->). cbn [app] in W. wells. split; [now apply ident_plain|]. exact (sequence_all g_field _ field_plain _ _ Sq H2).
  - destruct G as (w & vs & e & T & _ & Gv & _ & ->). cbn [app] in W. wells. split; [now apply ident_plain|]. split; [now apply type_plain|].
    refine (comma_all g_value _ _ _ _ Gv _); [|eassumption]. intros v zs (c & _ & ->) Wz. wells. now apply ident_plain.
  - destruct G as (bs & rs & Sb & Sr & ->). cbn [app] in W. wells. split; [now apply ident_plain|]. split; [|refine (sequence_all g_resource _ resource_plain _ _ Sr _); eassumption].
    refine (sequence_all g_bound _ _ _ _ Sb _); [|eassumption]. intros [n ns] zs (us & Gu & ->) Wz. cbn [fst snd app] in *. wells. split; [now apply ident_plain|].
    refine (comma_all g_name _ _ _ _ Gu _); [|eassumption]. intros a ys -> Wy. wells. now apply qual_plain.
Qed.
Lemma body_plain ds : forall xs, g_body ds xs -> spelled_well xs -> Forall plain_definition ds.
Proof.
  induction ds as [|d ds IH]; intros xs G W; [constructor|]. cbn [g_body] in G. destruct G as (cs & ys & zs & _ & Gd & Gz & ->). wells. constructor; [exact (definition_plain _ _ Gd H0)|exact (IH _ Gz W)].
Qed.
Lemma flat_plain {A} (f : A -> list string) (P : A -> Prop) l : (forall a, P a -> Forall plain (f a)) -> Forall P l -> Forall plain (flat_map f l).
Proof. intros H. induction 1 as [|a l X F IH]; [constructor|]. cbn [flat_map]. apply Forall_app. split; [now apply H|exact IH]. Qed.
Lemma map_plain {A} (f : A -> string) (P : A -> Prop) l : (forall a, P a -> plain (f a)) -> Forall P l -> Forall plain (map f l).
Proof. intros H. induction 1 as [|a l X F IH]; constructor; auto. Qed.
Lemma select {A} (f : definition -> list A) (P : A -> Prop) ds : (forall d a, plain_definition d -> In a (f d) -> P a) -> Forall plain_definition ds -> Forall P (flat_map f ds).
Proof. intros H F. apply Forall_forall. intros a Ha. apply in_flat_map in Ha as (d & Hd & Ha). rewrite Forall_forall in F. exact (H d a (F d Hd) Ha). Qed.
Lemma namespace_plain p xs : g_namespace p xs -> spelled_well xs -> Forall plain (mentioned p).
Proof.
  intros (ds & body & c & G & _ & Ep & ->) W. cbn [app] in W. wells. pose proof (body_plain _ _ G H2) as F.
  assert (Fc : Forall (fun p => plain (pc_name p) /\ plain (pc_type p)) (constants_of ds)) by (refine (select _ _ _ _ F); intros [q|q|q|q] a Pd Ha; cbn in Ha; try contradiction; destruct Ha as [<-|[]]; exact Pd).
  assert (Fs : Forall (fun p => plain (ps_name p) /\ Forall plain_field (ps_fields p)) (structs_of ds)) by (refine (select _ _ _ _ F); intros [q|q|q|q] a Pd Ha; cbn in Ha; try contradiction; destruct Ha as [<-|[]]; exact Pd).
  assert (Fe : Forall (fun p => plain (pe_name p) /\ plain (pe_type p) /\ Forall (fun v => plain (fst v)) (pe_values p)) (enums_of ds)) by (refine (select _ _ _ _ F); intros [q|q|q|q] a Pd Ha; cbn in Ha; try contradiction; destruct Ha as [<-|[]]; exact Pd).
  assert (Fa : Forall (fun p => plain (pa_name p) /\ Forall (fun b => plain (fst b) /\ Forall plain (snd b)) (pa_bound p) /\ Forall plain_resource (pa_resources p)) (archives_of ds)) by (refine (select _ _ _ _ F); intros [q|q|q|q] a Pd Ha; cbn in Ha; try contradiction; destruct Ha as [<-|[]]; exact Pd).
  rewrite Ep. clear Ep. unfold mentioned, namespace_names. cbn [pn_name pn_constants pn_structures pn_enumerations pn_archives app]. constructor; [now apply qual_plain|]. rewrite !Forall_app. repeat split.
  - refine (map_plain _ _ _ _ Fc). tauto.
  - refine (flat_plain _ _ _ _ Fs). intros a (A & B). constructor; [exact A|]. refine (map_plain _ _ _ _ B). now intros f (X & _).
  - refine (flat_plain _ _ _ _ Fe). intros a (A & _ & B). constructor; [exact A|]. refine (map_plain _ _ _ _ B). auto.
  - refine (flat_plain _ _ _ _ Fa). intros a (A & B & D). constructor; [exact A|]. apply Forall_app. split; [refine (map_plain _ _ _ _ B); tauto|]. refine (flat_plain _ _ _ _ D). now intros q (X & _).
  - refine (map_plain _ _ _ _ Fc). tauto.
  - refine (flat_plain _ _ _ _ Fs). intros a (_ & B). refine (flat_plain _ _ _ _ B). intros f (_ & X & Y). constructor; [exact X|]. refine (flat_plain _ _ _ _ Y). auto.
  - refine (map_plain _ _ _ _ Fe). tauto.
  - refine (flat_plain _ _ _ _ Fa). intros a (_ & B & D). apply Forall_app. split; [refine (flat_plain _ _ _ _ B); tauto|]. refine (flat_plain _ _ _ _ D). now intros q (_ & X).
Qed.
Theorem denotes_identifiers text s : denotes text s -> identifiers s.
Proof.
  intros [(_ & ->)|(xs & (cs & ns & _ & _ & Sq & ->) & (r & R & _))] p n Hp Hn; [destruct Hp|].
  apply reads_well in R. wells. pose proof (sequence_all g_namespace _ namespace_plain _ _ Sq R) as F. rewrite Forall_forall in F. specialize (F p Hp). rewrite Forall_forall in F. exact (F n Hn).
Qed.
