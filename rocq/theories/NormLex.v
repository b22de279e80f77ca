(** How lines of words are read: for C49. *)
From Coq Require Import List ZArith Bool String Ascii Lia Decimal DecimalString DecimalPos.
From Verif Require Import PyBase PyText GenTypes GenTree GenBuild GenAstSpec GenFlatdata GrammarSpec GrammarLex.
Import ListNotations.
Local Open Scope string_scope.

(** ** Numbers *)
Lemma digits_acc d : forall acc, digits_val 10 (Zpos acc) (NilEmpty.string_of_uint d) = Some (Zpos (Pos.of_uint_acc d acc)).
Proof.
  assert (X : forall c k d' a b, digit_val 10 c = Some k -> (Zpos a * 10 + k = Zpos b)%Z -> digits_val 10 (Zpos b) d' = digits_val 10 (Zpos a) (String c d')) by (intros c k d' a b E <-; cbn [digits_val]; now rewrite E).
  induction d; intros acc; cbn [NilEmpty.string_of_uint Pos.of_uint_acc]; [reflexivity|..]; rewrite <- IHd; symmetry; (eapply X; [reflexivity|]). all: match goal with |- context [(Z.of_N ?n - 48)%Z] => let k := eval vm_compute in (Z.of_N n - 48)%Z in change (Z.of_N n - 48)%Z with k end; lia.
Qed.
Lemma digits_zero d : digits_val 10 0 (NilEmpty.string_of_uint d) = Some (Z.of_N (Pos.of_uint d)).
Proof.
  induction d; cbn [NilEmpty.string_of_uint digits_val Pos.of_uint]; [reflexivity|exact IHd|..]; match goal with |- context [digit_val 10 ?c] => change (digit_val 10 c) with (Some (Z.of_N (N_of_ascii c) - 48)%Z) end; cbn [Z.of_N]; rewrite <- digits_acc; reflexivity.
Qed.
Lemma to_uint_nonnil p : Pos.to_uint p <> Nil.
Proof. intros E. pose proof (Unsigned.of_to p) as H. rewrite E in H. discriminate. Qed.
Lemma nilzero d : d <> Nil -> NilZero.string_of_uint d = NilEmpty.string_of_uint d.
Proof. now destruct d. Qed.
Lemma py_str_pos p : py_str (Zpos p) = NilEmpty.string_of_uint (Pos.to_uint p).
Proof. unfold py_str. cbn. apply nilzero, to_uint_nonnil. Qed.
Lemma py_str_neg p : py_str (Zneg p) = String "-" (NilEmpty.string_of_uint (Pos.to_uint p)).
Proof. unfold py_str. cbn. f_equal. apply nilzero, to_uint_nonnil. Qed.
Lemma py_str_number z : (0 <= z)%Z -> number (py_str z) (Z.to_N z).
Proof.
  unfold number. destruct z as [|p|p]; [reflexivity| |lia]. intros _. rewrite py_str_pos, digits_zero, Unsigned.of_to. reflexivity.
Qed.
Lemma uint_digits d : only_chars is_digit (NilEmpty.string_of_uint d) = true.
Proof. induction d; cbn [NilEmpty.string_of_uint only_chars]; [reflexivity|..]; rewrite IHd; reflexivity. Qed.
Lemma uint_decimal d : d <> Nil -> decimal (NilEmpty.string_of_uint d).
Proof. intros H. destruct d; [congruence|..]; cbn [NilEmpty.string_of_uint]; eexists _, _; (split; [reflexivity|]); split; try reflexivity; apply uint_digits. Qed.
Lemma py_str_decimal z : (0 <= z)%Z -> decimal (py_str z).
Proof. destruct z as [|p|p]; [intros _; exists "0"%char, ""; auto| |lia]. intros _. rewrite py_str_pos. apply uint_decimal, to_uint_nonnil. Qed.
Lemma py_str_literal z : unsigned (py_str z) decimal.
Proof.
  destruct z as [|p|p]; [left; now apply py_str_decimal|left; now apply py_str_decimal|right]. rewrite py_str_neg. eexists. split; [reflexivity|]. apply uint_decimal, to_uint_nonnil.
Qed.

(** [int(str(z), 0)] is [z] *)
Lemma digits_lead d n : d <> Nil -> Pos.of_uint d = n -> Pos.to_uint (match n with Npos p => p | N0 => xH end) = d -> n <> N0 -> int0_body (NilEmpty.string_of_uint d) = Some (Z.of_N n).
Proof.
  intros Nd E Back Nz. destruct d; try congruence; cbn [NilEmpty.string_of_uint]; unfold int0_body; cycle 1.
  all: try match goal with |- _ = Some (Z.of_N ?n) => rewrite <- E; match type of E with Pos.of_uint ?d = _ => exact (digits_zero d) end end.
  exfalso. clear E. destruct n as [|p]; [congruence|]. pose proof (Unsigned.to_of (Pos.to_uint p)) as T. rewrite Unsigned.of_to, Back in T. cbn in T. unfold unorm in T. cbn [nzhead] in T.
  pose proof (DecimalFacts.nzhead_nonzero d) as Q. destruct (nzhead d) eqn:Z; rewrite T in Back; try discriminate; [|now eapply Q].
  pose proof (Unsigned.of_to p) as U. rewrite T in U. discriminate.
Qed.
Lemma py_int0_str z : py_int0 (py_str z) = Ok z.
Proof.
  assert (P : forall p, int0_body (NilEmpty.string_of_uint (Pos.to_uint p)) = Some (Zpos p)).
  { intros p. apply (digits_lead _ (Npos p)); [apply to_uint_nonnil|apply Unsigned.of_to|reflexivity|discriminate]. }
  destruct z as [|p|p]; [reflexivity| |].
  - rewrite py_str_pos. unfold py_int0. assert (X : forall t, NilEmpty.string_of_uint (Pos.to_uint p) <> String "-" t) by (destruct (Pos.to_uint p); discriminate).
    destruct (NilEmpty.string_of_uint (Pos.to_uint p)) as [|c t] eqn:E; [rewrite <- E, P; reflexivity|].
    assert (c <> "-"%char) by (intros ->; now apply (X t)). assert (Y : match String c t with String "-" u => option_map Z.opp (int0_body u) | _ => int0_body (String c t) end = int0_body (String c t)).
    { destruct c as [[] [] [] [] [] [] [] []]; try reflexivity. congruence. }
    rewrite Y, <- E, P. reflexivity.
  - rewrite py_str_neg. unfold py_int0. rewrite P. reflexivity.
Qed.

(** ** Words *)
(** [lex xs s r]: the text [s] is the lexemes [xs], then blanks, then [r] *)
Definition lex (xs : list lexeme) (s r : string) : Prop := exists b, reads xs s (b ++ r) /\ only_chars is_blank b = true.
Lemma reads_blanks ys b m r : only_chars is_blank b = true -> reads ys m r -> exists b', reads ys (b ++ m) (b' ++ r) /\ only_chars is_blank b' = true.
Proof.
  intros B R. destruct ys as [|y ys]; [cbn in R; subst m; exists b; split; [reflexivity|exact B]|]. exists "". split; [|reflexivity].
  destruct R as (c & s' & -> & C & R). exists (b ++ c), s'. split; [now rewrite str_assoc|]. split; [rewrite only_app, B, C; reflexivity|exact R].
Qed.
Lemma lex_app xs ys s m r : lex xs s m -> lex ys m r -> lex (xs ++ ys) s r.
Proof.
  intros (b & R1 & B1) (c & R2 & B2). destruct (reads_blanks ys b m _ B1 R2) as (d & R3 & B3). exists (d ++ c). split; [|rewrite only_app, B3, B2; reflexivity].
  apply reads_app. exists (b ++ m). split; [exact R1|]. now rewrite str_assoc.
Qed.
Definition wordly (xs : list lexeme) (w : string) : Prop := forall c r, is_blank c = true -> lex xs (w ++ String c r) r.
Definition closes (x : lexeme) (w : string) : Prop := forall c r, is_blank c = true -> ends_before x (w ++ String c r).
Lemma wordly_nil : wordly [] "".
Proof. intros c r B. exists (String c ""). split; [reflexivity|]. cbn. now rewrite B. Qed.
Lemma wordly_cons x xs w : well_spelled x -> closes x w -> wordly xs w -> wordly (x :: xs) (lexeme_text x ++ w).
Proof.
  intros Ws C W c r B. destruct (W c r B) as (b & R & Bb). exists b. split; [|exact Bb]. exists "", (w ++ String c r). split; [cbn; now rewrite str_assoc|]. split; [reflexivity|]. split; [exact Ws|]. split; [exact (C c r B)|exact R].
Qed.
Lemma blank_class p : (forall c, p c = true -> is_blank c = false) -> forall c r, is_blank c = true -> no_next p (String c r).
Proof. intros H c r B. cbn. destruct (p c) eqn:E; [apply H in E; congruence|reflexivity]. Qed.
Lemma not_x c r : is_blank c = true -> forall d t, String c r = String "x" (String d t) -> is_hex d = false.
Proof. intros B d t [= -> _]. discriminate. Qed.
Lemma key_class : forall c, name_char c || Ascii.eqb c "$" = true -> is_blank c = false. Proof. all_ascii. Qed.
Lemma name_class : forall c, name_char c = true -> is_blank c = false. Proof. all_ascii. Qed.
Lemma path_class : forall c, path_char c = true -> is_blank c = false. Proof. all_ascii. Qed.
Lemma hex_class : forall c, is_hex c = true -> is_blank c = false. Proof. all_ascii. Qed.
Definition no_comment_lexeme (x : lexeme) : Prop := match x with Comment _ => False | _ => True end.
Lemma closes_blank x : no_comment_lexeme x -> closes x "".
Proof.
  intros N c r B. cbn [append]. destruct x; cbn [ends_before]; try contradiction; auto.
  - now apply (blank_class _ key_class). - now apply (blank_class _ name_class). - now apply (blank_class _ path_class). - now apply (blank_class _ digit_blank).
  - split; [intros _; now apply (blank_class _ digit_blank)|]. split; [intros _; now apply not_x|intros _; now apply (blank_class _ hex_class)].
Qed.
(** a sign other than a dot ends every word *)
Definition stopper (c : ascii) : bool := existsb (Ascii.eqb c) ["{"; "}"; "("; ")"; "<"; ">"; ":"; ";"; ","; "="]%char.
Lemma stop_key : forall c, stopper c = true -> name_char c || Ascii.eqb c "$" = false. Proof. all_ascii. Qed.
Lemma stop_name : forall c, stopper c = true -> name_char c = false. Proof. all_ascii. Qed.
Lemma stop_path : forall c, stopper c = true -> path_char c = false. Proof. all_ascii. Qed.
Lemma stop_digit : forall c, stopper c = true -> is_digit c = false. Proof. all_ascii. Qed.
Lemma stop_hex : forall c, stopper c = true -> is_hex c = false. Proof. all_ascii. Qed.
Lemma stop_sign : forall c, stopper c = true -> well_spelled (Sign c). Proof. cbn [well_spelled]. all_ascii. Qed.
Lemma closes_sign x c w : no_comment_lexeme x -> stopper c = true -> closes x (String c w).
Proof.
  intros N S d r _. cbn [append]. destruct x; cbn [ends_before no_next]; try contradiction; auto using stop_key, stop_name, stop_path, stop_digit.
  split; [auto using stop_digit|]. split; [intros _ e t [= -> _]; discriminate|auto using stop_hex].
Qed.
Lemma closes_dot n w : closes (Ident n) (String "." w). Proof. intros d r _. reflexivity. Qed.
Lemma closes_any c w : closes (Sign c) w. Proof. intros d r _. exact I. Qed.
Lemma wordly_one x : no_comment_lexeme x -> well_spelled x -> wordly [x] (lexeme_text x).
Proof. intros N W. rewrite <- (str_nil (lexeme_text x)). apply wordly_cons; [exact W|now apply closes_blank|apply wordly_nil]. Qed.
Lemma wordly_sign x c : no_comment_lexeme x -> well_spelled x -> stopper c = true -> wordly [x; Sign c] (lexeme_text x ++ String c "").
Proof.
  intros N W S. apply wordly_cons; [exact W|now apply closes_sign|]. apply (wordly_one (Sign c)); [exact I|]. now apply stop_sign.
Qed.

(** ** Lines *)
Lemma line_reads xss ws : Forall2 wordly xss ws -> ws <> [] -> forall r, lex (List.concat xss) (line_text ws ++ r) r.
Proof.
  intros F N r. unfold line_text. rewrite str_assoc. induction F as [|xs w xss ws W F IH]; [congruence|]. cbn [List.concat]. destruct F as [|ys v yss vs V F].
  - cbn. rewrite app_nil_r. apply W. reflexivity.
  - change (join " " (w :: v :: vs)) with (w ++ " " ++ join " " (v :: vs)). rewrite !str_assoc. apply (lex_app _ _ _ (join " " (v :: vs) ++ newline ++ r)); [|apply IH; discriminate].
    apply (W " "%char). reflexivity.
Qed.
Definition writes (ls : list line) (xs : list lexeme) : Prop := forall r, lex xs (text ls ++ r) r.
Lemma writes_nil : writes [] []. Proof. intros r. exists "". split; reflexivity. Qed.
Lemma writes_line xss ws : Forall2 wordly xss ws -> ws <> [] -> writes [ws] (List.concat xss).
Proof. intros F N r. cbn [text]. rewrite str_assoc. exact (line_reads xss ws F N _). Qed.
Lemma text_app a : forall b, text (a ++ b) = text a ++ text b.
Proof. induction a as [|w a IH]; intros b; [reflexivity|]. change (text ((w :: a) ++ b)) with (line_text w ++ text (a ++ b)). rewrite IH. cbn [text]. now rewrite str_assoc. Qed.
Lemma writes_app a b xs ys : writes a xs -> writes b ys -> writes (a ++ b) (xs ++ ys).
Proof. intros A B r. rewrite text_app, str_assoc. exact (lex_app _ _ _ _ _ (A _) (B _)). Qed.
Lemma writes_concat lss xss : Forall2 writes lss xss -> writes (List.concat lss) (List.concat xss).
Proof. induction 1; cbn [List.concat]; [apply writes_nil|now apply writes_app]. Qed.
Lemma writes_indented xss ws xs : Forall2 wordly xss ws -> xs = List.concat xss -> writes [indented ws] xs.
Proof.
  intros F ->. pose proof wordly_nil as W. apply (writes_line ([] :: [] :: [] :: [] :: xss)); [|discriminate]. now repeat constructor.
Qed.
