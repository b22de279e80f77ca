(** C88: the schemas inside the generated code. *)
From Coq Require Import List ZArith Bool String Ascii Lia.
From Verif Require Import PyBase PyText GenTypes GenTree GenTreeFacts GenBuild GenBuildFacts GenAstSpec GenEvery GenWords GenFlatdata GenInk Grammar GrammarSpec GrammarNames Props_Grammar Props_GenTree GenLiterals LiteralSpec.
Import ListNotations.
Local Open Scope string_scope.

(** *** Escaping *)
Lemma replace_with_app c by_ a b : replace_with c by_ (a ++ b) = replace_with c by_ a ++ replace_with c by_ b.
Proof. induction a as [|x a IH]; [reflexivity|]. cbn [append replace_with]. destruct (Ascii.eqb x c); rewrite IH; [now rewrite str_app_assoc|reflexivity]. Qed.
Definition enc1 (a : ascii) : string :=
  if Ascii.eqb a backslash then String backslash (one backslash) else if Ascii.eqb a quote then String backslash (one quote) else one a.
Lemma escape_cons a s : escape (String a s) = enc1 a ++ escape s.
Proof.
  unfold escape, enc1. cbn [replace_with]. destruct (Ascii.eqb_spec a backslash) as [->|Na].
  - rewrite replace_with_app. reflexivity.
  - cbn [replace_with]. destruct (Ascii.eqb_spec a quote) as [->|Nq]; reflexivity.
Qed.
Fixpoint enc (s : string) : string := match s with "" => "" | String a s => (if Ascii.eqb a nl then cpp_join else enc1 a) ++ enc s end.
Lemma split_on_cons c s : exists w ws, split_on c s = w :: ws.
Proof. destruct s as [|a s]; cbn [split_on]; [eauto|]. destruct (Ascii.eqb a c); [eauto|]. destruct (split_on c s); eauto. Qed.
Lemma join_cons sep x y l : join sep (x :: y :: l) = x ++ sep ++ join sep (y :: l).
Proof. reflexivity. Qed.
Lemma join_escape s : join cpp_join (map escape (split_on nl s)) = enc s.
Proof.
  induction s as [|a s IH]; [reflexivity|]. cbn [split_on enc]. destruct (split_on_cons nl s) as (w & ws & E). rewrite E in IH |- *. destruct (Ascii.eqb a nl).
  - change (map escape ("" :: w :: ws)) with ("" :: escape w :: map escape ws). rewrite join_cons. cbn [map] in IH. rewrite IH. reflexivity.
  - cbn [map] in IH |- *. rewrite escape_cons. destruct ws as [|w' ws].
    + cbn [map join String.concat] in IH |- *. now rewrite IH.
    + cbn [map] in IH |- *. rewrite join_cons in IH |- *. rewrite str_app_assoc, IH. reflexivity.
Qed.
Lemma cpp_literal_enc s rest : cpp_literal s ++ rest = String quote (enc s ++ String quote rest).
Proof. unfold cpp_literal. rewrite join_escape. unfold one. cbn [append]. rewrite str_app_assoc. reflexivity. Qed.

Lemma splice_cons a s : a <> backslash -> splice (String a s) = String a (splice s).
Proof. intros H. cbn [splice]. destruct s as [|b s]; [reflexivity|]. destruct (Ascii.eqb_spec a backslash); [contradiction|reflexivity]. Qed.
Lemma splice_two b s : b <> nl -> b <> backslash -> splice (String backslash (String b s)) = String backslash (String b (splice s)).
Proof.
  intros H1 H2. change (splice (String backslash (String b s))) with (if Ascii.eqb backslash backslash && Ascii.eqb b nl then splice s else String backslash (splice (String b s))).
  destruct (Ascii.eqb_spec b nl); [contradiction|]. rewrite andb_false_r, splice_cons by assumption. reflexivity.
Qed.
Lemma enc1_plain a : a <> backslash -> a <> quote -> enc1 a = one a.
Proof. intros H1 H2. unfold enc1. destruct (Ascii.eqb_spec a backslash); [contradiction|]. destruct (Ascii.eqb_spec a quote); [contradiction|reflexivity]. Qed.
(** what follows [\\]: anything *)
Lemma splice_enc : forall s t, splice (enc s ++ String quote t) = enc s ++ String quote (splice t).
Proof.
  assert (Q : forall t, splice (String quote t) = String quote (splice t)) by (intros t; now apply splice_cons).
  assert (Hb : forall s t, exists c u, enc s ++ String quote t = String c u /\ c <> nl).
  { intros [|a s] t; [exists quote, t; split; [reflexivity|discriminate]|]. cbn [enc]. destruct (Ascii.eqb_spec a nl) as [->|Hn].
    - eexists. eexists. split; [reflexivity|discriminate].
    - unfold enc1. destruct (Ascii.eqb a backslash); [eexists; eexists; split; [reflexivity|discriminate]|].
      destruct (Ascii.eqb a quote); [eexists; eexists; split; [reflexivity|discriminate]|]. eexists. eexists. split; [reflexivity|assumption]. }
  induction s as [|a s IH]; intros t; [apply Q|]. cbn [enc]. rewrite !str_app_assoc. destruct (Ascii.eqb_spec a nl) as [->|Hn].
  - unfold cpp_join, one. cbn [append]. rewrite splice_two by discriminate. rewrite !(splice_cons) by discriminate. now rewrite IH.
  - destruct (Ascii.eqb_spec a backslash) as [->|Hs].
    + change (enc1 backslash) with (String backslash (one backslash)). unfold one. cbn [append]. destruct (Hb s t) as (c & u & E & Hc). rewrite <- IH. rewrite E.
      change (splice (String backslash (String backslash (String c u)))) with (String backslash (if Ascii.eqb backslash backslash && Ascii.eqb c nl then splice u else String backslash (splice (String c u)))).
      destruct (Ascii.eqb_spec c nl); [contradiction|]. reflexivity.
    + destruct (Ascii.eqb_spec a quote) as [->|Hq].
      * change (enc1 quote) with (String backslash (one quote)). unfold one. cbn [append]. rewrite splice_two by discriminate. now rewrite IH.
      * rewrite enc1_plain by assumption. unfold one. cbn [append]. rewrite splice_cons by assumption. now rewrite IH.
Qed.
Lemma cpp_strings_enc : forall s t, cpp_strings true (enc s ++ String quote t) = match cpp_strings false t with Some (v, rest) => Some (s ++ v, rest) | None => None end.
Proof.
  induction s as [|a s IH]; intros t.
  - cbn [enc append]. change (cpp_strings true (String quote t)) with (cpp_strings false t). destruct (cpp_strings false t) as [[v rest]|]; reflexivity.
  - cbn [enc]. rewrite !str_app_assoc. destruct (Ascii.eqb_spec a nl) as [->|Hn].
    + unfold cpp_join, one. cbn [append].
      match goal with |- cpp_strings true (String backslash (String "n" (String quote (String nl ?x)))) = _ => change (put nl (cpp_strings false (String nl x)) = match cpp_strings false t with Some (v, rest) => Some (String nl (s ++ v), rest) | None => None end) end.
      match goal with |- put nl (cpp_strings false (String nl (String " " (String " " (String " " (String " " (String quote ?x))))))) = _ => change (put nl (cpp_strings true x) = match cpp_strings false t with Some (v, rest) => Some (String nl (s ++ v), rest) | None => None end) end.
      rewrite IH. destruct (cpp_strings false t) as [[v rest]|]; reflexivity.
    + destruct (Ascii.eqb_spec a backslash) as [->|Hs]; [|destruct (Ascii.eqb_spec a quote) as [->|Hq]].
      * change (enc1 backslash) with (String backslash (one backslash)). unfold one. cbn [append].
        change (cpp_strings true (String backslash (String backslash ?x))) with (put backslash (cpp_strings true x)). rewrite IH. destruct (cpp_strings false t) as [[v rest]|]; reflexivity.
      * change (enc1 quote) with (String backslash (one quote)). unfold one. cbn [append].
        change (cpp_strings true (String backslash (String quote ?x))) with (put quote (cpp_strings true x)). rewrite IH. destruct (cpp_strings false t) as [[v rest]|]; reflexivity.
      * rewrite enc1_plain by assumption. unfold one. cbn [append cpp_strings]. destruct (Ascii.eqb_spec a quote); [contradiction|]. destruct (Ascii.eqb_spec a nl); [contradiction|].
        destruct (Ascii.eqb_spec a backslash); [contradiction|]. rewrite IH. destruct (cpp_strings false t) as [[v rest]|]; reflexivity.
Qed.

(** C++ reads the literal of an archive or resource as its schema, whatever the text is. *)
Theorem C88_cpp : forall s rest, cpp_reads (cpp_literal s ++ String ";" rest) = Some (s, String ";" (splice rest)).
Proof.
  intros s rest. rewrite cpp_literal_enc. unfold cpp_reads. rewrite splice_cons by discriminate. rewrite splice_enc.
  change (cpp_strings false (String quote ?x)) with (cpp_strings true x). rewrite cpp_strings_enc. rewrite splice_cons by discriminate.
  cbn [cpp_strings blank]. change (blank ";") with false. change (Ascii.eqb ";" quote) with false. cbv iota.
  f_equal. f_equal. clear. induction s as [|a s IH]; [reflexivity|]. cbn [append]. now rewrite IH.
Qed.

(** *** Literals up to a delimiter *)
Lemma mentions_app c a b : mentions c (a ++ b) = mentions c a || mentions c b.
Proof. induction a as [|x a IH]; [reflexivity|]. cbn [append mentions]. now rewrite IH, orb_assoc. Qed.
Lemma after_prefix_app p s : after_prefix p (p ++ s) = Some s.
Proof. induction p as [|a p IH]; [now destruct s|]. cbn [append after_prefix]. now rewrite Ascii.eqb_refl. Qed.
Lemma after_prefix_inv : forall p s r, after_prefix p s = Some r -> s = p ++ r.
Proof.
  induction p as [|a p IH]; intros s r H; [cbn in H; destruct s; injection H as <-; reflexivity|]. destruct s as [|b s]; [discriminate|]. cbn [after_prefix] in H.
  destruct (Ascii.eqb_spec a b) as [->|]; [|discriminate]. cbn [append]. f_equal. now apply IH.
Qed.
Lemma cut_at q : forall a b x y, mentions q a = false -> mentions q b = false -> a ++ String q x = b ++ String q y -> a = b.
Proof.
  induction a as [|c a IH]; intros [|d b] x y Ha Hb E; [reflexivity| | |]; cbn [append] in E; injection E as E1 E2.
  - cbn in Hb. rewrite <- E1, Ascii.eqb_refl in Hb. discriminate.
  - cbn in Ha. rewrite E1, Ascii.eqb_refl in Ha. discriminate.
  - cbn in Ha, Hb. apply orb_false_iff in Ha as [_ Ha], Hb as [_ Hb]. subst d. f_equal. exact (IH b x y Ha Hb E2).
Qed.
Lemma until_stop p q s rest : mentions q p = false -> mentions q s = false -> until (p ++ one q) (s ++ (p ++ one q) ++ rest) = Some (s, rest).
Proof.
  intros Hp. induction s as [|c s IH]; intros Hs.
  - cbn [append]. destruct ((p ++ one q) ++ rest) eqn:E; cbn [until]; rewrite <- E, after_prefix_app; reflexivity.
  - cbn [append until]. destruct (after_prefix (p ++ one q) (String c (s ++ (p ++ one q) ++ rest))) as [r|] eqn:E.
    + exfalso. apply after_prefix_inv in E. unfold one in E. rewrite !str_app_assoc in E. cbn [append] in E.
      assert (E' : (String c s ++ p) ++ String q rest = p ++ String q r) by (rewrite str_app_assoc; exact E).
      apply cut_at in E'; [|rewrite mentions_app, Hs, Hp; reflexivity|assumption]. apply (f_equal String.length) in E'. clear - E'. cbn [append String.length] in E'.
      assert (L : String.length (s ++ p) = (String.length s + String.length p)%nat) by (clear; induction s as [|a s IH]; [reflexivity|]; cbn [append String.length]; now rewrite IH). lia.
    + cbn [mentions] in Hs. apply orb_false_iff in Hs as [_ Hs]. rewrite (IH Hs). reflexivity.
Qed.
Lemma delimited_stop start p q s rest : mentions q p = false -> mentions q s = false -> delimited start (p ++ one q) (start ++ s ++ (p ++ one q) ++ rest) = Some (s, rest).
Proof. intros Hp Hs. unfold delimited. rewrite after_prefix_app. now apply until_stop. Qed.
Lemma join_crlf_app a b : mentions cr a = false -> join_crlf (a ++ b) = a ++ join_crlf b.
Proof.
  induction a as [|c a IH]; intros H; [reflexivity|]. cbn [mentions] in H. apply orb_false_iff in H as [Hc H]. cbn [append]. rewrite <- (IH H). cbn [join_crlf].
  destruct (a ++ b) as [|d u]; [reflexivity|]. rewrite Hc. reflexivity.
Qed.
Lemma newlines_app a b : mentions cr a = false -> newlines (a ++ b) = a ++ newlines b.
Proof. induction a as [|c a IH]; intros H; [reflexivity|]. cbn [mentions] in H. apply orb_false_iff in H as [Hc H]. cbn [append newlines]. rewrite Hc. now rewrite (IH H). Qed.
Lemma without_none c s : mentions c s = false -> without c s = s.
Proof. induction s as [|a s IH]; intros H; [reflexivity|]. cbn [mentions] in H. apply orb_false_iff in H as [Hc H]. cbn [without]. rewrite Hc. now rewrite (IH H). Qed.

(** A text without '#' and carriage returns is read back by Rust, one without '`' and carriage returns by Go, one without a quote as a raw literal by C++. *)
Theorem C88_raw : forall s rest,
  (mentions "#" s = false -> mentions cr s = false -> rust_reads (rust_literal s ++ rest) = Some (s, join_crlf rest)) /\
  (mentions tick s = false -> mentions cr s = false -> go_reads (go_literal s ++ rest) = Some (s, rest)) /\
  (mentions quote s = false -> cpp_raw_reads (cpp_struct_literal s ++ rest) = Some (s, rest)).
Proof.
  intros s rest. split; [|split].
  - intros Hh Hc. unfold rust_reads, rust_literal. rewrite !str_app_assoc.
    assert (E : join_crlf (rust_open ++ s ++ rust_close ++ rest) = rust_open ++ s ++ rust_close ++ join_crlf rest).
    { rewrite join_crlf_app by reflexivity. f_equal. rewrite join_crlf_app by assumption. f_equal. now rewrite join_crlf_app by reflexivity. }
    rewrite E. change rust_close with (one quote ++ one "#"). rewrite delimited_stop by (reflexivity || assumption). now rewrite Hc.
  - intros Ht Hc. unfold go_reads, go_literal. rewrite !str_app_assoc. pose proof (delimited_stop (one tick) "" tick s rest eq_refl Ht) as D. cbn [append] in D. unfold one in *. rewrite D. now rewrite without_none.
  - intros Hq. unfold cpp_raw_reads, cpp_struct_literal. rewrite !str_app_assoc. change cpp_raw_close with (")schema" ++ one quote). apply delimited_stop; [reflexivity|assumption].
Qed.

Lemma not_three c s : c <> quote -> after_prefix three (String c s) = None.
Proof. intros H. cbn [three after_prefix]. destruct (Ascii.eqb_spec quote c); [congruence|reflexivity]. Qed.
Lemma py_body_cons c t : after_prefix three (String c t) = None -> c <> backslash -> py_body (String c t) = put c (py_body t).
Proof. intros H Hc. cbn [py_body]. rewrite H. destruct (Ascii.eqb_spec c backslash); [contradiction|reflexivity]. Qed.
Lemma py_body_escape s rest : py_body (escape s ++ three ++ rest) = Some (s, rest).
Proof.
  induction s as [|a s IH]; [reflexivity|]. rewrite escape_cons, str_app_assoc.
  destruct (Ascii.eqb_spec a backslash) as [->|Hs]; [|destruct (Ascii.eqb_spec a quote) as [->|Hq]].
  - change (enc1 backslash) with (String backslash (one backslash)). unfold one. cbn [append].
    change (py_body (String backslash (String backslash ?x))) with (put backslash (py_body x)). now rewrite IH.
  - change (enc1 quote) with (String backslash (one quote)). unfold one. cbn [append].
    change (py_body (String backslash (String quote ?x))) with (put quote (py_body x)). now rewrite IH.
  - rewrite enc1_plain by assumption. unfold one. cbn [append]. rewrite py_body_cons by (try apply not_three; assumption). now rewrite IH.
Qed.
Lemma py_body_plain s rest : mentions quote s = false -> mentions backslash s = false -> py_body (s ++ three ++ rest) = Some (s, rest).
Proof.
  induction s as [|a s IH]; intros Hq Hs; [reflexivity|]. cbn [mentions] in Hq, Hs. apply orb_false_iff in Hq as [Hq Hq'], Hs as [Hs Hs']. apply Ascii.eqb_neq in Hq, Hs. cbn [append].
  rewrite py_body_cons by (try apply not_three; assumption). now rewrite (IH Hq' Hs').
Qed.
Lemma mentions_escape c s : c <> backslash -> c <> quote -> mentions c (escape s) = mentions c s.
Proof.
  intros H1 H2. induction s as [|a s IH]; [reflexivity|]. rewrite escape_cons, mentions_app, IH. cbn [mentions]. f_equal.
  unfold enc1. destruct (Ascii.eqb_spec a backslash) as [->|]; [|destruct (Ascii.eqb_spec a quote) as [->|]]; cbn [mentions one].
  - destruct (Ascii.eqb_spec backslash c); [congruence|reflexivity].
  - destruct (Ascii.eqb_spec backslash c); [congruence|]. destruct (Ascii.eqb_spec quote c); [congruence|reflexivity].
  - now rewrite orb_false_r.
Qed.
(** Python reads an escaped text (schemas of archives and resources, comments) back, whatever it is, but for carriage returns. *)
Theorem C88_python : forall s rest, mentions cr s = false -> py_reads (py_literal s ++ rest) = Some (s, newlines rest).
Proof.
  intros s rest Hc. unfold py_reads, py_literal. rewrite !str_app_assoc. rewrite newlines_app by reflexivity. rewrite after_prefix_app.
  rewrite newlines_app by (rewrite mentions_escape by discriminate; assumption). rewrite newlines_app by reflexivity. apply py_body_escape.
Qed.

(** *** Schemas *)
Lemma text_mentions s c : only_chars text_char s = true -> text_char c = false -> mentions c s = false.
Proof.
  induction s as [|a s IH]; intros H Hc; [reflexivity|]. cbn in H. apply andb_true_iff in H as [Ha H]. cbn [mentions]. rewrite (IH H Hc), orb_false_r.
  destruct (Ascii.eqb_spec a c); [congruence|reflexivity].
Qed.

(** Every literal in the code generated from a schema is read as the text the generator put into it: all languages compare and store the same schemas. *)
Theorem C88_schemas : forall so text root tgt s rest, any_order so -> build_text so text = Ok root -> schema_text root tgt = Ok s ->
  cpp_reads (cpp_literal s ++ String ";" rest) = Some (s, String ";" (splice rest)) /\
  cpp_raw_reads (cpp_struct_literal s ++ rest) = Some (s, rest) /\
  rust_reads (rust_literal s ++ rest) = Some (s, join_crlf rest) /\
  go_reads (go_literal s ++ rest) = Some (s, rest) /\
  py_reads (py_literal s ++ rest) = Some (s, newlines rest) /\
  py_reads (py_struct_literal s ++ rest) = Some (s, newlines rest).
Proof.
  intros so text root tgt s rest Hso B Hs. unfold build_text in B. apply bind_ok in B as (sch & P & B). apply C68_parse in P. pose proof (denotes_identifiers _ _ P) as I.
  pose proof (final_words so sch root Hso (well_named_clean sch (identifiers_named sch I)) (identifiers_words sch I) B) as W.
  pose proof (schema_chars root tgt s W Hs) as T. pose proof (fun c => text_mentions s c T) as M.
  destruct (C88_raw s rest) as (R1 & R2 & R3).
  split; [apply C88_cpp|]. split; [apply R3; now apply M|]. split; [apply R1; now apply M|]. split; [apply R2; now apply M|]. split; [apply C88_python; now apply M|].
  unfold py_reads, py_struct_literal. rewrite !str_app_assoc. rewrite newlines_app by reflexivity. rewrite after_prefix_app.
  rewrite newlines_app by (now apply M). rewrite newlines_app by reflexivity. apply py_body_plain; now apply M.
Qed.
Print Assumptions C88_schemas.

(** The raw literals depend on the characters of schemas: with other texts Go, Rust, C++ (structures) and Python (structures) would read something else. *)
Theorem C88_others : go_reads (go_literal "a`b" ++ ";") = Some ("a", "b`;") /\ rust_reads (rust_literal ("a" ++ rust_close ++ "b") ++ ";") = Some ("a", "b" ++ rust_close ++ ";") /\
  cpp_raw_reads (cpp_struct_literal ("a" ++ cpp_raw_close) ++ ";") = Some ("a", cpp_raw_close ++ ";") /\
  py_reads (py_struct_literal (String backslash "n") ++ ";") = Some (one nl, ";").
Proof. repeat split. Qed.

(** An accepted schema: the literal of its archive in C++ (two namespaces deep), read back. *)
Example C88_instance : exists root s, build_text (fun l => l) "namespace n { struct S { x : u8 : 3; } archive A { v : vector< S >; } }" = Ok root /\ schema_text root [0; 1]%nat = Ok s /\
  cpp_reads (cpp_literal s ++ ";") = Some (s, ";") /\ go_reads (go_literal s ++ ";") = Some (s, ";") /\ py_reads (py_literal s ++ ";") = Some (s, ";") /\
  rust_reads (rust_literal s ++ ";") = Some (s, ";") /\ (0 < String.length s)%nat.
Proof. eexists. eexists. split; [vm_compute; reflexivity|]. split; [vm_compute; reflexivity|]. vm_compute. repeat split; repeat constructor. Qed.
