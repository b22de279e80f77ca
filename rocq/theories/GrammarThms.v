(** The parser accepts exactly the texts of [GrammarSpec]: namespaces and schemas. *)
From Coq Require Import List ZArith Bool String Ascii Lia.
From Verif Require Import PyBase PyText GenBuild GenAstSpec GrammarSpec Grammar GrammarLex GrammarFacts.
Import ListNotations.
Local Open Scope string_scope.

(** ** Entries of a namespace *)
Definition entry_of (d : definition) : entry :=
  match d with DConstant p => EConst p | DStruct p => EStruct p | DEnum p => EEnum p | DArchive p => EArchive p end.
Definition defs (es : list entry) : list definition :=
  flat_map (fun e => match e with EConst p => [DConstant p] | EStruct p => [DStruct p] | EEnum p => [DEnum p] | EArchive p => [DArchive p] | EComment => [] end) es.
Lemma defs_namespace n es : namespace_of n es = PNamespace n (constants_of (defs es)) (structs_of (defs es)) (enums_of (defs es)) (archives_of (defs es)).
Proof.
  unfold namespace_of. f_equal; induction es as [|e es IH]; try reflexivity; cbn; rewrite IH; destruct e; reflexivity.
Qed.
Definition g_entry (e : entry) (xs : list lexeme) : Prop :=
  match e with
  | EComment => exists t, xs = [Comment t]
  | EConst p => exists c ys, doc c /\ g_constant p ys /\ xs = (c ++ ys)%list
  | EStruct p => exists c ys, doc c /\ g_struct p ys /\ xs = (c ++ ys)%list
  | EEnum p => exists c ys, doc c /\ g_enum p ys /\ xs = (c ++ ys)%list
  | EArchive p => exists c ys, doc c /\ g_archive p ys /\ xs = (c ++ ys)%list
  end.
Lemma entry_sound : sound flatdata_entry g_entry.
Proof.
  intros s e r H. unfold flatdata_entry in H.
  apply alt_got in H as [H|(_ & H)]; [|apply alt_got in H as [H|(_ & H)]; [|apply alt_got in H as [H|(_ & H)]; [|apply alt_got in H as [H|(_ & H)]]]];
    apply seq_got in H as (p & m & H & G); apply give_got in G as (-> & ->).
  - destruct (enum_sound _ _ _ H) as (c & ys & D & G & R). eexists. split; [exists c, ys; eauto|exact R].
  - destruct (struct_sound _ _ _ H) as (c & ys & D & G & R). eexists. split; [exists c, ys; eauto|exact R].
  - destruct (archive_sound _ _ _ H) as (c & ys & D & G & R). eexists. split; [exists c, ys; eauto|exact R].
  - destruct (constant_sound _ _ _ H) as (c & ys & D & G & R). eexists. split; [exists c, ys; eauto|exact R].
  - destruct (comment_got _ _ _ H) as (t & R). exists [Comment t]. split; [exists t; reflexivity|exact R].
Qed.
Lemma doc_comments c : doc c -> comments c.
Proof. intros [->|(t & ->)]; repeat constructor. eauto. Qed.
Lemma body_comments cs : comments cs -> forall ds xs, g_body ds xs -> g_body ds (cs ++ xs).
Proof.
  intros C ds xs G. destruct ds as [|d ds]; cbn in *; [unfold comments in *; apply Forall_app; now split|].
  destruct G as (c & ys & zs & Cc & Gd & Gz & ->). exists (cs ++ c)%list, ys, zs. split; [unfold comments in *; apply Forall_app; now split|]. rewrite app_assoc. auto.
Qed.
Lemma entries_body es xss : Forall2 g_entry es xss -> g_body (defs es) (List.concat xss).
Proof.
  induction 1 as [|e xs es xss G F IH]; [constructor|]. cbn [List.concat]. destruct e as [p|p|p|p|]; cbn [g_entry] in G; cbn [defs flat_map app].
  1-4: destruct G as (c & ys & D & G & ->); exists c, ys, (List.concat xss); split; [now apply doc_comments|]; split; [exact G|]; split; [exact IH|now rewrite app_assoc].
  destruct G as (t & ->). apply (body_comments [Comment t]); [repeat constructor; eauto|exact IH].
Qed.

(** the heads of definitions *)
Lemma alternatives (m : string) : forall s o, opt comment s = Got o m ->
  (keyword "enum" m = Soft -> enum s = Soft) /\ (keyword "struct" m = Soft -> struct s = Soft)
  /\ (bound_implicitly m = Soft -> keyword "archive" m = Soft -> archive s = Soft) /\ (keyword "const" m = Soft -> constant s = Soft).
Proof.
  intros s o E. split; [|split; [|split]].
  - intros K. unfold enum. rewrite (seq_step _ _ _ _ _ E). now apply seq_soft.
  - intros K. unfold struct. rewrite (seq_step _ _ _ _ _ E). now apply seq_soft.
  - intros B K. unfold archive. rewrite (seq_step _ _ _ _ _ E). erewrite seq_step by (now apply many_none). now apply seq_soft.
  - intros K. unfold constant. rewrite (seq_step _ _ _ _ _ E). now apply seq_soft.
Qed.
Lemma definition_head d xs : g_definition d xs -> exists k ys, xs = (Key k :: ys)%list /\
  match d with DConstant _ => k = "const" | DStruct _ => k = "struct" | DEnum _ => k = "enum" | DArchive _ => k = "archive" \/ k = "@bound_implicitly" end.
Proof.
  destruct d as [p|p|p|p]; cbn [g_definition]; intros G.
  - destruct G as (_ & ->). eauto.
  - destruct G as (fs & _ & _ & ->). cbn [app]. eauto.
  - destruct G as (w & vs & e & _ & _ & _ & _ & ->). cbn [app]. eauto.
  - exact (archive_head _ _ G).
Qed.
Lemma entry_complete c d xs s r : doc c -> g_definition d xs -> reads (c ++ xs) s r -> flatdata_entry s = Got (entry_of d) r.
Proof.
  intros D G H. pose proof H as H0. destruct (definition_head _ _ G) as (k & ys & E & Hk). rewrite E in H. apply doc_reads in H as (o & m & Eo & H); [|exact D|exact I].
  destruct (alternatives m s o Eo) as (A1 & A2 & A3 & A4).
  assert (O : forall k', (forall z, strip k' (k ++ z) = None) -> keyword k' m = Soft) by (intros k' N; exact (keyword_other _ _ _ _ _ N H)).
  unfold flatdata_entry. destruct d as [p|p|p|p]; cbn [g_definition entry_of] in *; [subst k|subst k|subst k|].
  - do 2 (rewrite alt_right by (apply seq_soft; auto)). rewrite alt_right by (apply seq_soft; apply A3; [apply seq_soft; apply O; reflexivity|apply O; reflexivity]).
    apply alt_left. unfold as_entry. now rewrite (seq_step _ _ _ _ _ (constant_complete _ _ _ _ _ D G H0)).
  - rewrite alt_right by (apply seq_soft; auto). apply alt_left. unfold as_entry. now rewrite (seq_step _ _ _ _ _ (struct_complete _ _ _ _ _ D G H0)).
  - apply alt_left. unfold as_entry. now rewrite (seq_step _ _ _ _ _ (enum_complete _ _ _ _ _ D G H0)).
  - do 2 (rewrite alt_right by (apply seq_soft; first [apply A1|apply A2]; apply O; intros z; destruct Hk as [->| ->]; reflexivity)).
    apply alt_left. unfold as_entry. now rewrite (seq_step _ _ _ _ _ (archive_complete _ _ _ _ _ D G H0)).
Qed.
Lemma no_heads m : peek m = Some "/"%char \/ peek m = Some "}"%char -> keyword "enum" m = Soft /\ keyword "struct" m = Soft /\ bound_implicitly m = Soft /\ keyword "archive" m = Soft /\ keyword "const" m = Soft.
Proof.
  intros P. assert (K : forall c k, c <> "/"%char -> c <> "}"%char -> keyword (String c k) m = Soft) by (intros c k N1 N2; apply keyword_soft; destruct P as [-> | ->]; congruence).
  repeat split; try (apply K; discriminate). apply seq_soft. apply K; discriminate.
Qed.
Lemma entry_comment t s m : reads [Comment t] s m -> peek m = Some "/"%char \/ peek m = Some "}"%char -> flatdata_entry s = Got EComment m.
Proof.
  intros H P. destruct (comment_reads _ _ _ _ H) as (z & E & R). cbn in R. subst z. destruct (no_heads m P) as (K1 & K2 & K3 & K4 & K5).
  destruct (alternatives m s (Some tt) (opt_some _ _ _ _ E)) as (A1 & A2 & A3 & A4). unfold flatdata_entry. rewrite !alt_right by (apply seq_soft; auto).
  unfold as_entry. now rewrite (seq_step _ _ _ _ _ E).
Qed.
Lemma entry_soft s : peek s = Some "}"%char -> flatdata_entry s = Soft.
Proof.
  intros P. destruct (no_heads s (or_intror P)) as (K1 & K2 & K3 & K4 & K5). assert (Ec : comment s = Soft) by (apply comment_soft; rewrite P; discriminate).
  destruct (alternatives s s None (opt_none _ _ Ec)) as (A1 & A2 & A3 & A4). unfold flatdata_entry. rewrite !alt_right by (apply seq_soft; auto). now apply seq_soft.
Qed.
Lemma peek_comment t xs s r : reads (Comment t :: xs) s r -> peek s = Some "/"%char.
Proof.
  intros H. destruct (reads_peek _ _ _ _ H) as (d & u & E & P). rewrite P. destruct (reads_skip _ _ _ _ H) as (_ & _ & W & _). cbn [lexeme_text] in E. subst t.
  destruct W as [(b & X & _)|(b & X & _)]; cbn in X; now injection X as -> _.
Qed.
Lemma body_complete ds : forall xs, g_body ds xs -> forall n s r, reads xs s r -> peek r = Some "}"%char -> (String.length s < n)%nat ->
  exists es, repeat n flatdata_entry s = Got es r /\ defs es = ds.
Proof.
  induction ds as [|d ds IH]; intros xs G; cbn [g_body] in G.
  - induction G as [|x xs (t & ->) G IHc]; intros n s r H P L; destruct n as [|n]; try lia; cbn [repeat].
    + cbn in H. subst s. rewrite (entry_soft _ P). now exists [].
    + apply (reads_app [Comment t]) in H as (m & R & H). rewrite (entry_comment t s m R).
      * destruct (IHc n m r H P) as (es & E & D); [pose proof (reads_length _ _ _ R) as X; cbn in X; lia|]. rewrite E. exists (EComment :: es). now split.
      * destruct G as [|y ys (t' & ->) G]; [cbn in H; subst m; now right|]. left. exact (peek_comment _ _ _ _ H).
  - destruct G as (cs & ys & zs & C & Gd & Gz & ->).
    assert (One : forall c, doc c -> forall n s r, reads (c ++ ys ++ zs) s r -> peek r = Some "}"%char -> (String.length s < n)%nat -> exists es, repeat n flatdata_entry s = Got es r /\ defs es = d :: ds).
    { intros c D n s r H P L. destruct n as [|n]; [lia|]. cbn [repeat]. rewrite app_assoc in H. apply reads_app in H as (m & R & H). rewrite (entry_complete c d ys s m D Gd R).
      destruct (IH zs Gz n m r H P) as (es & E & De).
      - pose proof (reads_length _ _ _ R) as X. destruct (definition_head _ _ Gd) as (k & us & -> & _). rewrite app_length in X. cbn in X. lia.
      - rewrite E. exists (entry_of d :: es). split; [reflexivity|]. cbn. rewrite <- De. now destruct d. }
    induction C as [|x cs (t & ->) C IHc]; intros n s r H P L; [apply (One [] (or_introl eq_refl)); assumption|].
    destruct C as [|y cs (t' & ->) C]; [apply (One [Comment t] (or_intror (ex_intro _ t eq_refl))); assumption|].
    destruct n as [|n]; [lia|]. cbn [repeat]. apply (reads_app [Comment t]) in H as (m & R & H). rewrite (entry_comment t s m R) by (left; exact (peek_comment _ _ _ _ H)).
    destruct (IHc n m r H P) as (es & E & De); [pose proof (reads_length _ _ _ R) as X; cbn in X; lia|]. rewrite E. exists (EComment :: es). now split.
Qed.

(** ** Namespaces *)
Lemma namespace_sound : sound namespace g_namespace.
Proof.
  intros s p r H. unfold namespace in H. inv. match goal with H : many flatdata_entry _ = Got ?es _ |- _ => rename es into es0; apply (many_sound _ _ entry_sound) in H as (ys & (yss & F & ->) & Ry) end.
  eexists. split; [exists (defs es0); eexists _, _; split; [exact (entries_body _ _ F)|]; split; [eassumption|]; split; [rewrite defs_namespace; reflexivity|reflexivity]|].
  rewrite defs_namespace. cbn [pn_name app]. chain.
Qed.
Lemma namespace_complete : complete namespace g_namespace (fun r => peek r <> Some "/"%char).
Proof.
  intros p xs s r (ds & body & c & G & D & Ep & ->) H N. cbn [app] in H. unfold namespace. do 3 eat H. apply reads_app in H as (m3 & R3 & H). pose proof (peek_sign _ _ _ _ H) as P.
  destruct (body_complete _ _ G (S (String.length m1)) m1 m3 R3 P (Nat.lt_succ_diag_r _)) as (es & E3 & De).
  rewrite (seq_step (many flatdata_entry) _ m1 es m3 E3). eat H. assert (X : exists o, opt comment m2 = Got o r).
  { destruct D as [->|(t & ->)].
    - cbn in H. subst m2. exists None. apply opt_none. now apply comment_soft.
    - destruct (comment_reads _ _ _ _ H) as (z & Ez & Hz). cbn in Hz. subst z. exists (Some tt). now apply opt_some. }
  destruct X as (o & Eo). rewrite (seq_step _ _ _ _ _ Eo). unfold give. rewrite defs_namespace, De, <- Ep. reflexivity.
Qed.
Lemma namespace_head p xs : g_namespace p xs -> exists ys, xs = (Key "namespace" :: ys)%list.
Proof. intros (ds & body & c & _ & _ & _ & ->). cbn [app]. eauto. Qed.

(** ** Schemas *)
Lemma peek_end r : only_chars is_blank r = true -> peek r = None. Proof. intros H. unfold peek. now rewrite (skip_all r H). Qed.
Lemma schema_sound s p r : flatdata_grammar s = Got p r -> exists xs, g_schema p xs /\ reads xs s r.
Proof.
  intros H. unfold flatdata_grammar in H. apply seq_got in H as (l & m & Hc & H).
  apply (many_sound _ (fun _ xs => exists t, xs = [Comment t])) in Hc as (cs & (css & F & ->) & Rc); [|intros z u q X; destruct (comment_got _ _ _ X) as (t & R); eauto].
  apply (some_sound _ _ namespace_sound) in H as (ys & Nn & Gn & Rn). exists (List.concat css ++ ys)%list. split; [|chain]. exists (List.concat css), ys. split; [exact Nn|]. split; [|auto].
  clear - F. induction F as [|u xs l css (t & ->) F IH]; [constructor|]. cbn [List.concat app]. constructor; [eauto|exact IH].
Qed.
Lemma schema_complete p xs s r : g_schema p xs -> reads xs s r -> only_chars is_blank r = true -> flatdata_grammar s = Got p r.
Proof.
  intros (cs & ns & Nn & C & Gn & ->) H B. apply reads_app in H as (m & Rc & Rn). unfold flatdata_grammar.
  assert (Pm : peek m = Some "n"%char).
  { destruct Gn as (nss & F & ->). destruct F as [|q ys l nss G F]; [congruence|]. destruct (namespace_head _ _ G) as (zs & ->). cbn [List.concat app] in Rn. exact (peek_key _ _ _ _ _ Rn). }
  assert (Ec : many comment s = Got (map (fun _ => tt) cs) m).
  { apply (many_complete comment (fun _ xs => exists t, xs = [Comment t]) any) with (xs := cs); [| |exists (map (fun x => [x]) cs)|exact Rc|exact I|apply comment_soft; rewrite Pm; discriminate].
    - intros [] ys z q (t & ->) R _. destruct (comment_reads _ _ _ _ R) as (z' & E & R'). cbn in R'. now subst z'.
    - intros u ys z q (t & ->) _. split; [exact I|discriminate].
    - split; [|clear; induction cs as [|x cs IH]; [reflexivity|cbn; now rewrite <- IH]]. clear - C. induction C as [|x cs (t & ->) C IH]; constructor; eauto. }
  rewrite (seq_step _ _ _ _ _ Ec). apply (some_complete _ _ _ namespace_complete) with (xs := ns); [|exact Nn|exact Gn|exact Rn|rewrite (peek_end r B); discriminate|].
  - intros q ys z q' G R. destruct (namespace_head _ _ G) as (zs & ->). split; [rewrite (peek_key _ _ _ _ _ R); discriminate|discriminate].
  - apply seq_soft. apply keyword_soft. rewrite (peek_end r B). discriminate.
Qed.
Theorem parse_denotes text s : parse_schema text = Ok s <-> denotes text s.
Proof.
  unfold parse_schema, denotes. destruct (String.eqb_spec text "") as [->|N].
  - split.
    + intros [= <-]. left. now split.
    + intros [(_ & ->)|(xs & (cs & ns & Nn & _ & (nss & F & ->) & ->) & (r & R & _))]; [reflexivity|]. exfalso. destruct F as [|q ys l nss G F]; [congruence|].
      destruct (namespace_head _ _ G) as (zs & ->). apply reads_length in R. rewrite app_length in R. cbn in R. lia.
  - split.
    + destruct (flatdata_grammar text) as [p r| |] eqn:E; try discriminate. destruct (String.eqb_spec (skip r) "") as [X|]; [|discriminate]. intros [= <-]. right.
      destruct (schema_sound _ _ _ E) as (xs & G & R). exists xs. split; [exact G|]. exists r. split; [exact R|]. now apply skip_end.
    + intros [(-> & _)|(xs & G & (r & R & B))]; [congruence|]. rewrite (schema_complete _ _ _ _ G R B), (skip_all _ B). reflexivity.
Qed.
Theorem parse_error text e : parse_schema text = Err e -> e = ParsingError.
Proof.
  unfold parse_schema. destruct (String.eqb text ""); [discriminate|]. destruct (flatdata_grammar text) as [p r| |]; [destruct (String.eqb (skip r) "")| |]; congruence.
Qed.
