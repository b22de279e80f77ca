(** The tokens of the grammar: reading one lexeme, and when that fails. *)
From Coq Require Import List ZArith Bool String Ascii Lia.
From Verif Require Import PyBase PyText GenBuild GenAstSpec GrammarSpec Grammar.
Import ListNotations.
Local Open Scope string_scope.

Lemma str_assoc a : forall b c, (a ++ b) ++ c = a ++ b ++ c.
Proof. induction a as [|x a IH]; intros b c; [reflexivity|]. cbn. now rewrite IH. Qed.
Lemma str_nil a : a ++ "" = a. Proof. induction a as [|x a IH]; [reflexivity|]. cbn. now rewrite IH. Qed.
Lemma str_length a : forall b, String.length (a ++ b) = (String.length a + String.length b)%nat.
Proof. induction a as [|x a IH]; intros b; [reflexivity|]. cbn. now rewrite IH. Qed.
Lemma only_app p a : forall b, only_chars p (a ++ b) = only_chars p a && only_chars p b.
Proof. induction a as [|x a IH]; intros b; [reflexivity|]. cbn. now rewrite IH, andb_assoc. Qed.

(** ** The two sets of character classes are the same *)
Lemma blank_is c : blank c = is_blank c. Proof. destruct c as [[] [] [] [] [] [] [] []]; reflexivity. Qed.
Lemma id_start_is c : id_start c = is_letter c. Proof. reflexivity. Qed.
Lemma id_char_is c : id_char c = name_char c. Proof. reflexivity. Qed.
Lemma qual_start_is c : qual_start c = (is_letter c || Ascii.eqb c "."). Proof. reflexivity. Qed.
Lemma qual_char_is c : qual_char c = path_char c. Proof. reflexivity. Qed.
Lemma digit_is c : digit c = is_digit c. Proof. reflexivity. Qed.
Lemma hex_is c : hexdigit c = is_hex c. Proof. reflexivity. Qed.
Lemma key_is c : key_char c = (name_char c || Ascii.eqb c "$"). Proof. reflexivity. Qed.

Arguments is_blank : simpl never. Arguments blank : simpl never. Arguments is_letter : simpl never. Arguments is_digit : simpl never.
Arguments is_hex : simpl never. Arguments name_char : simpl never. Arguments path_char : simpl never. Arguments id_start : simpl never.
Arguments id_char : simpl never. Arguments qual_start : simpl never. Arguments qual_char : simpl never. Arguments digit : simpl never.
Arguments hexdigit : simpl never. Arguments key_char : simpl never.

(** ** Blanks *)
Lemma skip_blanks b : forall s, only_chars is_blank b = true -> skip (b ++ s) = skip s.
Proof. induction b as [|c b IH]; intros s H; [reflexivity|]. cbn in *. apply andb_true_iff in H as (H & H'). rewrite blank_is, H. now apply IH. Qed.
Lemma skip_here c s : is_blank c = false -> skip (String c s) = String c s.
Proof. intros H. cbn. now rewrite blank_is, H. Qed.
Lemma skip_split s : exists b, s = b ++ skip s /\ only_chars is_blank b = true.
Proof.
  induction s as [|c s (b & E & B)]; [now exists ""|]. cbn. rewrite blank_is. destruct (is_blank c) eqn:Hc; [|now exists ""].
  exists (String c b). cbn. rewrite <- E, Hc. now split.
Qed.
Lemma skip_all s : only_chars is_blank s = true -> skip s = "".
Proof. intros H. rewrite <- (str_nil s), (skip_blanks s "" H). reflexivity. Qed.
Lemma skip_end s : skip s = "" -> only_chars is_blank s = true.
Proof. destruct (skip_split s) as (b & E & B). intros H. rewrite H, str_nil in E. now subst. Qed.
Lemma skip_head s c t : skip s = String c t -> is_blank c = false.
Proof. induction s as [|d s IH]; [discriminate|]. cbn. rewrite blank_is. destruct (is_blank d) eqn:Hd; [exact IH|]. now intros [= -> _]. Qed.

Definition peek (s : string) : option ascii := match skip s with String c _ => Some c | EmptyString => None end.

(** ** Prefixes *)
Lemma strip_app k : forall s, strip k (k ++ s) = Some s.
Proof. induction k as [|c k IH]; intros s; [reflexivity|]. cbn. rewrite Ascii.eqb_refl. apply IH. Qed.
Lemma strip_some k : forall s r, strip k s = Some r -> s = k ++ r.
Proof.
  induction k as [|c k IH]; intros s r H; cbn in *; [now injection H as ->|]. destruct s as [|d s]; [discriminate|].
  destruct (Ascii.eqb_spec c d) as [->|]; [|discriminate]. f_equal. now apply IH.
Qed.
Lemma span_app p a : forall s, only_chars p a = true -> no_next p s -> span p (a ++ s) = (a, s).
Proof.
  induction a as [|c a IH]; intros s H N; cbn in *.
  - destruct s as [|d s]; [reflexivity|]. cbn in *. now rewrite N.
  - apply andb_true_iff in H as (H & H'). rewrite H, (IH s H' N). reflexivity.
Qed.
Lemma span_some p : forall s a r, span p s = (a, r) -> s = a ++ r /\ only_chars p a = true /\ no_next p r.
Proof.
  induction s as [|c s IH]; intros a r H; cbn in *; [injection H as <- <-; now cbn|]. destruct (p c) eqn:Pc.
  - destruct (span p s) as [x y] eqn:E. injection H as <- <-. destruct (IH x y eq_refl) as (-> & O & N). cbn. now rewrite Pc.
  - injection H as <- <-. cbn. auto.
Qed.
Lemma starts_no p s : starts p s = false <-> no_next p s.
Proof. destruct s; cbn; [tauto|reflexivity]. Qed.

(** ** Lexemes are not empty and do not start with a blank *)
Lemma class_blank (p : ascii -> bool) c : (forall c, p c = true -> is_blank c = false) -> p c = true -> is_blank c = false.
Proof. auto. Qed.
Ltac all_ascii := let c := fresh in intros c; destruct c as [[] [] [] [] [] [] [] []]; vm_compute; try discriminate; reflexivity.
Lemma letter_blank : forall c, is_letter c = true -> is_blank c = false. Proof. all_ascii. Qed.
Lemma keyhead_blank : forall c, is_letter c || Ascii.eqb c "@" = true -> is_blank c = false. Proof. all_ascii. Qed.
Lemma qualhead_blank : forall c, is_letter c || Ascii.eqb c "." = true -> is_blank c = false. Proof. all_ascii. Qed.
Lemma digit_blank : forall c, is_digit c = true -> is_blank c = false. Proof. all_ascii. Qed.
Lemma sign_blank : forall c, existsb (Ascii.eqb c) ["{"; "}"; "("; ")"; "<"; ">"; ":"; ";"; ","; "="; "."]%char = true -> is_blank c = false. Proof. all_ascii. Qed.
Lemma lexeme_head x : well_spelled x -> exists c t, lexeme_text x = String c t /\ is_blank c = false.
Proof.
  assert (Dh : forall v, decimal v -> exists c t, v = String c t /\ is_blank c = false).
  { intros v (c & t & -> & A & _). exists c, t. split; [reflexivity|]. now apply digit_blank. }
  assert (Xh : forall v, hexadecimal v -> exists c t, v = String c t /\ is_blank c = false).
  { intros v (h & -> & _). exists "0"%char, ("x" ++ h). now split. }
  destruct x as [k|n|n|d|v|c|t]; cbn [well_spelled lexeme_text].
  - intros (c & t & -> & A & _). exists c, t. split; [reflexivity|]. now apply keyhead_blank.
  - intros (c & t & -> & A & _). exists c, t. split; [reflexivity|]. now apply letter_blank.
  - intros (c & t & -> & A & _). exists c, t. split; [reflexivity|]. now apply qualhead_blank.
  - apply Dh.
  - intros [[H|(u & -> & _)]|[H|(u & -> & _)]]; [now apply Dh|exists "-"%char, u; now split|now apply Xh|exists "-"%char, u; now split].
  - intros H. exists c, "". split; [reflexivity|]. now apply sign_blank.
  - intros [(b & -> & _)|(b & -> & _)]; eexists _, _; (split; [reflexivity|reflexivity]).
Qed.

(** ** Reading *)
Lemma reads_app xs : forall ys s r, reads (xs ++ ys) s r <-> exists m, reads xs s m /\ reads ys m r.
Proof.
  induction xs as [|x xs IH]; intros ys s r; cbn [app reads].
  - split; [intros H; now exists s|intros (m & -> & H); exact H].
  - split.
    + intros (b & s' & E & B & W & F & H). apply IH in H as (m & H1 & H2). exists m. split; [|exact H2]. exists b, s'. tauto.
    + intros (m & (b & s' & E & B & W & F & H1) & H2). exists b, s'. repeat split; auto. apply IH. eauto.
Qed.
Lemma reads_length xs : forall s r, reads xs s r -> (String.length r + List.length xs <= String.length s)%nat.
Proof.
  induction xs as [|x xs IH]; intros s r H; cbn [reads List.length] in *; [subst; lia|].
  destruct H as (b & s' & -> & B & W & F & H). specialize (IH _ _ H). destruct (lexeme_head x W) as (c & t & E & _). rewrite !str_length, E. cbn. lia.
Qed.
(** what a parser sees *)
Lemma reads_skip x xs s r : reads (x :: xs) s r -> exists s', skip s = lexeme_text x ++ s' /\ well_spelled x /\ ends_before x s' /\ reads xs s' r.
Proof.
  intros (b & s' & -> & B & W & F & H). exists s'. split; [|tauto]. rewrite skip_blanks by exact B. destruct (lexeme_head x W) as (c & t & E & N).
  rewrite E. cbn [append]. now rewrite skip_here.
Qed.
Lemma skip_reads x s s' : skip s = lexeme_text x ++ s' -> well_spelled x -> ends_before x s' -> reads [x] s s'.
Proof. intros E W F. destruct (skip_split s) as (b & Eb & B). exists b, s'. rewrite Eb, E. cbn. tauto. Qed.
Lemma reads_peek x xs s r : reads (x :: xs) s r -> exists c t, lexeme_text x = String c t /\ peek s = Some c.
Proof. intros H. destruct (reads_skip _ _ _ _ H) as (s' & E & W & _). destruct (lexeme_head x W) as (c & t & Ex & _). exists c, t. split; [exact Ex|]. unfold peek. now rewrite E, Ex. Qed.

(** ** Words *)
Lemma word_here_got start body c t s : start c = true -> only_chars body t = true -> no_next body s ->
  word_here start body (String c t ++ s) = Got (String c t) s.
Proof. intros A B N. cbn. now rewrite A, (span_app _ _ _ B N). Qed.
Lemma word_here_inv start body s w r : word_here start body s = Got w r ->
  s = w ++ r /\ (exists c t, w = String c t /\ start c = true /\ only_chars body t = true) /\ no_next body r.
Proof.
  unfold word_here. destruct s as [|c s]; [discriminate|]. destruct (start c) eqn:A; [|discriminate]. destruct (span body s) as [a b] eqn:E.
  intros [= <- <-]. destruct (span_some _ _ _ _ E) as (-> & O & N). split; [reflexivity|]. split; [|exact N]. now exists c, a.
Qed.
Lemma word_here_no start body s : starts start s = false <-> word_here start body s = Soft.
Proof. destruct s as [|c s]; cbn; [tauto|]. destruct (start c); [|tauto]. destruct (span body s). split; discriminate. Qed.
Lemma word_soft start body s : (forall c, peek s = Some c -> start c = false) -> word start body s = Soft.
Proof. intros H. unfold word, blanks, peek in *. apply word_here_no. destruct (skip s) as [|c t]; [reflexivity|]. now apply H. Qed.

Section Token.
  Context (x : string -> lexeme) (start body : ascii -> bool).
  Hypothesis Hx : forall w, lexeme_text (x w) = w.
  Hypothesis Hw : forall w, well_spelled (x w) <-> begins start body w.
  Hypothesis He : forall w s, ends_before (x w) s <-> no_next body s.
  Lemma word_reads w xs s r : reads (x w :: xs) s r -> exists s', word start body s = Got w s' /\ reads xs s' r.
  Proof.
    intros H. destruct (reads_skip _ _ _ _ H) as (s' & E & W & F & R). exists s'. split; [|exact R]. unfold word, blanks. rewrite E, Hx.
    apply Hw in W as (c & t & -> & A & B). apply He in F. now apply word_here_got.
  Qed.
  Lemma word_got s w r : word start body s = Got w r -> reads [x w] s r.
  Proof.
    intros H. unfold word, blanks in H. destruct (word_here_inv _ _ _ _ _ H) as (E & B & N). apply skip_reads; [now rewrite Hx|now apply Hw|now apply He].
  Qed.
End Token.
Lemma identifier_reads n xs s r : reads (Ident n :: xs) s r -> exists s', identifier s = Got n s' /\ reads xs s' r.
Proof. apply (word_reads Ident); [reflexivity|intros; reflexivity|intros; reflexivity]. Qed.
Lemma identifier_got s n r : identifier s = Got n r -> reads [Ident n] s r.
Proof. apply (word_got Ident); [reflexivity|intros; reflexivity|intros; reflexivity]. Qed.
Lemma qualified_reads n xs s r : reads (Qual n :: xs) s r -> exists s', qualified_identifier s = Got n s' /\ reads xs s' r.
Proof. apply (word_reads Qual); [reflexivity|intros; reflexivity|intros; reflexivity]. Qed.
Lemma qualified_got s n r : qualified_identifier s = Got n r -> reads [Qual n] s r.
Proof. apply (word_got Qual); [reflexivity|intros; reflexivity|intros; reflexivity]. Qed.

(** ** Sequencing *)
Lemma seq_got {A B} (p : parser A) (q : A -> parser B) s b r : seq p q s = Got b r -> exists a m, p s = Got a m /\ q a m = Got b r.
Proof. unfold seq. destruct (p s) as [a m| |]; try discriminate. eauto. Qed.
Lemma seq_step {A B} (p : parser A) (q : A -> parser B) s a m : p s = Got a m -> seq p q s = q a m.
Proof. unfold seq. now intros ->. Qed.
Lemma seq_soft {A B} (p : parser A) (q : A -> parser B) s : p s = Soft -> seq p q s = Soft.
Proof. unfold seq. now intros ->. Qed.
Lemma hard_got {A} (p : parser A) s a r : hard p s = Got a r <-> p s = Got a r.
Proof. unfold hard. destruct (p s); split; congruence. Qed.
Lemma opt_got {A} (p : parser A) s o r : opt p s = Got o r -> match o with Some a => p s = Got a r | None => r = s /\ p s = Soft end.
Proof. unfold opt. destruct (p s) as [a m| |]; try discriminate; intros [= <- <-]; auto. Qed.
Lemma opt_some {A} (p : parser A) s a r : p s = Got a r -> opt p s = Got (Some a) r. Proof. unfold opt. now intros ->. Qed.
Lemma opt_none {A} (p : parser A) s : p s = Soft -> opt p s = Got None s. Proof. unfold opt. now intros ->. Qed.
Lemma alt_got {A} (p q : parser A) s a r : alt p q s = Got a r -> p s = Got a r \/ p s = Soft /\ q s = Got a r.
Proof. unfold alt. destruct (p s); auto; discriminate. Qed.
Lemma alt_left {A} (p q : parser A) s a r : p s = Got a r -> alt p q s = Got a r. Proof. unfold alt. now intros ->. Qed.
Lemma alt_right {A} (p q : parser A) s : p s = Soft -> alt p q s = q s. Proof. unfold alt. now intros ->. Qed.
Lemma give_got {A} (a b : A) s r : give a s = Got b r -> b = a /\ r = s. Proof. unfold give. intros [= -> ->]. auto. Qed.

(** ** Punctuation and keywords *)
Lemma sym_reads c xs s r : reads (Sign c :: xs) s r -> exists s', sym c s = Got tt s' /\ reads xs s' r.
Proof. intros H. destruct (reads_skip _ _ _ _ H) as (s' & E & _ & _ & R). exists s'. split; [|exact R]. unfold sym, blanks. rewrite E. cbn. now rewrite Ascii.eqb_refl. Qed.
Lemma sym_got c s u r : well_spelled (Sign c) -> sym c s = Got u r -> reads [Sign c] s r.
Proof.
  unfold sym, blanks. intros W. destruct (skip s) as [|a t] eqn:E; [discriminate|]. destruct (Ascii.eqb_spec a c) as [->|]; [|discriminate]. intros [= _ <-].
  apply skip_reads; [exact E|exact W|exact I].
Qed.
Lemma sym_soft c s : peek s <> Some c -> sym c s = Soft.
Proof. unfold sym, blanks, peek. destruct (skip s) as [|a t]; [reflexivity|]. intros H. destruct (Ascii.eqb_spec a c) as [->|]; [congruence|reflexivity]. Qed.
Lemma keyword_reads k xs s r : reads (Key k :: xs) s r -> exists s', keyword k s = Got k s' /\ reads xs s' r.
Proof.
  intros H. destruct (reads_skip _ _ _ _ H) as (s' & E & _ & F & R). exists s'. split; [|exact R]. unfold keyword, blanks. rewrite E. cbn [lexeme_text]. rewrite strip_app.
  cbn in F. apply starts_no in F. change (starts key_char s' = false) in F. now rewrite F.
Qed.
Lemma keyword_got k s w r : well_spelled (Key k) -> keyword k s = Got w r -> w = k /\ reads [Key k] s r.
Proof.
  intros W. unfold keyword, blanks. destruct (strip k (skip s)) as [t|] eqn:E; [|discriminate]. destruct (starts key_char t) eqn:N; [discriminate|]. intros [= <- <-].
  split; [reflexivity|]. apply skip_reads; [exact (strip_some _ _ _ E)|exact W|]. now apply starts_no in N.
Qed.
Lemma keyword_soft c k s : peek s <> Some c -> keyword (String c k) s = Soft.
Proof. unfold keyword, blanks, peek. destruct (skip s) as [|a t]; [reflexivity|]. intros H. cbn [strip]. destruct (Ascii.eqb_spec c a) as [->|]; [congruence|reflexivity]. Qed.
Lemma keyword_other k k' xs s r : (forall z, strip k (k' ++ z) = None) -> reads (Key k' :: xs) s r -> keyword k s = Soft.
Proof. intros N H. destruct (reads_skip _ _ _ _ H) as (s' & E & _). unfold keyword, blanks. rewrite E. cbn [lexeme_text]. now rewrite N. Qed.

Lemma basic_type_reads t xs s r : g_type t -> reads (Key t :: xs) s r -> exists s', basic_type s = Got t s' /\ reads xs s' r.
Proof.
  intros T H. destruct (keyword_reads _ _ _ _ H) as (s' & K & R). exists s'. split; [|exact R]. unfold basic_type, BASIC_TYPES.
  assert (O : forall k, (forall z, strip k (t ++ z) = None) -> keyword k s = Soft) by (intros k N; exact (keyword_other _ _ _ _ _ N H)).
  unfold g_type in T. cbn [In] in T. repeat (destruct T as [<-|T]; [cbn [one_of]; repeat (first [rewrite (alt_left _ _ _ _ _ K)|rewrite alt_right by (apply O; reflexivity)]); reflexivity|]). destruct T.
Qed.
Lemma basic_type_got s t r : basic_type s = Got t r -> g_type t /\ reads [Key t] s r.
Proof.
  unfold basic_type, BASIC_TYPES, g_type. cbn [one_of In]. intros H.
  repeat match goal with
  | H : alt _ _ _ = Got _ _ |- _ => apply alt_got in H as [H|(_ & H)]
  | H : keyword _ _ = Got _ _ |- _ => apply keyword_got in H as (-> & R); [split; [tauto|exact R]|eexists _, _; split; [reflexivity|now split]]
  end. discriminate.
Qed.

(** ** Widths *)
Lemma digit_value c : is_digit c = true -> exists d, digit_val 10 c = Some d /\ (0 <= d < 10)%Z.
Proof. destruct c as [[] [] [] [] [] [] [] []]; try (vm_compute; discriminate); intros _; eexists; (split; [vm_compute; reflexivity|lia]). Qed.
Lemma digits_value w : forall acc, (0 <= acc)%Z -> only_chars is_digit w = true -> exists v, digits_val 10 acc w = Some v /\ (0 <= v)%Z.
Proof.
  induction w as [|c w IH]; intros acc A H; cbn in *; [eauto|]. apply andb_true_iff in H as (H & H'). destruct (digit_value c H) as (d & -> & D). apply IH; [lia|exact H'].
Qed.
Lemma num_reads d n xs s r : number d n -> reads (Num d :: xs) s r -> exists s', bit_width s = Got n s' /\ reads xs s' r.
Proof.
  intros N H. assert (X : exists s', word digit digit s = Got d s' /\ reads xs s' r) by (revert H; apply (word_reads Num); [reflexivity|intros; reflexivity|intros; reflexivity]).
  destruct X as (s' & E & R). exists s'. split; [|exact R]. unfold bit_width. rewrite (seq_step _ _ _ _ _ E). unfold number in N. rewrite N. unfold give. now rewrite N2Z.id.
Qed.
Lemma bit_width_got s n r : bit_width s = Got n r -> exists d, number d n /\ reads [Num d] s r.
Proof.
  intros H. apply seq_got in H as (d & m & H & G). apply give_got in G as (-> & ->). exists d. assert (R : reads [Num d] s m) by (revert H; apply (word_got Num); [reflexivity|intros; reflexivity|intros; reflexivity]).
  split; [|exact R]. destruct R as (b & s' & _ & _ & (c & t & -> & A & B) & _). destruct (digits_value (String c t) 0 ltac:(lia)) as (v & E & V); [cbn; now rewrite A|].
  unfold number. rewrite E. now rewrite Z2N.id.
Qed.
Lemma bit_width_soft s : (forall c, peek s = Some c -> is_digit c = false) -> bit_width s = Soft.
Proof. intros H. apply seq_soft. now apply word_soft. Qed.

(** ** Values *)
Lemma dec_hex v : decimal v -> hexadecimal v -> False.
Proof. intros (c & t & -> & A & B) (h & E & _). cbn in E. injection E as -> ->. cbn in B. discriminate. Qed.
Lemma dec_minus v u : decimal v -> v = "-" ++ u -> False.
Proof. intros (c & t & -> & A & B) E. cbn in E. injection E as -> _. discriminate. Qed.
Lemma hex_minus v u : hexadecimal v -> v = "-" ++ u -> False.
Proof. intros (h & -> & _) E. discriminate. Qed.
Lemma strip_minus s : strip "-" s <> None -> starts is_digit s = false.
Proof. destruct s as [|c s]; [reflexivity|]. cbn [strip starts]. destruct (Ascii.eqb_spec "-"%char c) as [<-|]; [reflexivity|congruence]. Qed.
Lemma unsigned_dec u s : decimal u -> no_next is_digit s -> (u = "0" -> forall c t, s = String "x" (String c t) -> is_hex c = false) ->
  unsigned_literal (u ++ s) = Got u s.
Proof.
  intros (c & t & -> & A & B) N Z. assert (W : word_here digit digit (String c t ++ s) = Got (String c t) s) by now apply word_here_got.
  unfold unsigned_literal. destruct (strip "0x" (String c t ++ s)) as [q|] eqn:E; [|exact W]. apply strip_some in E.
  destruct (word_here hexdigit hexdigit q) as [a m| |] eqn:H; try exact W. exfalso. destruct t as [|d t].
  - cbn in E. injection E as -> ->. apply word_here_inv in H as (-> & (c & t & -> & Hc & _) & _). specialize (Z eq_refl c (t ++ m) eq_refl). rewrite hex_is in Hc. congruence.
  - cbn in E. injection E as -> -> E. cbn in B. discriminate.
Qed.
Lemma unsigned_hex u s : hexadecimal u -> no_next is_hex s -> unsigned_literal (u ++ s) = Got u s.
Proof.
  intros (h & -> & (c & t & -> & A & B)) N. unfold unsigned_literal. rewrite str_assoc, strip_app. now rewrite (word_here_got hexdigit hexdigit c t s A B N).
Qed.
Lemma unsigned_inv s v r : unsigned_literal s = Got v r -> s = v ++ r /\
  (decimal v /\ no_next is_digit r /\ (v = "0" -> forall c t, r = String "x" (String c t) -> is_hex c = false) \/ hexadecimal v /\ no_next is_hex r).
Proof.
  unfold unsigned_literal. intros H.
  assert (D : word_here digit digit s = Got v r -> (v = "0" -> forall c t, r = String "x" (String c t) -> is_hex c = false) ->
    s = v ++ r /\ (decimal v /\ no_next is_digit r /\ (v = "0" -> forall c t, r = String "x" (String c t) -> is_hex c = false) \/ hexadecimal v /\ no_next is_hex r)).
  { intros W Z. apply word_here_inv in W as (E & W & N). split; [exact E|]. left. split; [exact W|]. split; [exact N|exact Z]. }
  destruct (strip "0x" s) as [q|] eqn:E.
  - apply strip_some in E. destruct (word_here hexdigit hexdigit q) as [a m| |] eqn:Hq.
    + injection H as <- <-. apply word_here_inv in Hq as (-> & W & N). split; [rewrite E; symmetry; exact (str_assoc "0x" a m)|]. right. split; [exists a; split; [reflexivity|exact W]|exact N].
    + apply (D H). intros -> c t ->. apply word_here_inv in H as (E' & _). rewrite E in E'. cbn in E'. injection E' as ->.
      apply word_here_no in Hq. exact Hq.
    + exfalso. clear - Hq. unfold word_here in Hq. destruct q as [|c q]; [discriminate|]. destruct (hexdigit c); [|discriminate]. now destruct (span hexdigit q).
  - apply (D H). intros -> c t ->. apply word_here_inv in H as (-> & _). discriminate.
Qed.
Lemma literal_reads v xs s r : reads (Lit v :: xs) s r -> exists s', signed_literal s = Got v s' /\ reads xs s' r.
Proof.
  intros H. destruct (reads_skip _ _ _ _ H) as (s' & E & W & F & R). exists s'. split; [|exact R]. clear H R. unfold signed_literal, blanks. rewrite E. cbn [lexeme_text].
  destruct F as (F1 & F2 & F3).
  assert (M : forall u z, decimal u \/ hexadecimal u -> strip "-" (u ++ z) = None).
  { intros u z [(c & t & -> & A & _)|(h & -> & _)]; [|reflexivity]. cbn [append strip]. destruct (Ascii.eqb_spec "-"%char c) as [<-|]; [discriminate|reflexivity]. }
  destruct W as [[D|(u & -> & D)]|[D|(u & -> & D)]].
  - rewrite M by tauto. apply unsigned_dec; [exact D|apply F1; now left|]. intros ->. apply F2. now left.
  - replace (("-" ++ u) ++ s') with ("-" ++ u ++ s') by reflexivity. rewrite strip_app. rewrite (unsigned_dec u s'); [reflexivity|exact D|apply F1; right; eauto|]. intros ->. apply F2. now right.
  - rewrite M by tauto. apply unsigned_hex; [exact D|]. apply F3. now left.
  - replace (("-" ++ u) ++ s') with ("-" ++ u ++ s') by reflexivity. rewrite strip_app. rewrite (unsigned_hex u s'); [reflexivity|exact D|]. apply F3. right. eauto.
Qed.
Lemma literal_got s v r : signed_literal s = Got v r -> reads [Lit v] s r.
Proof.
  unfold signed_literal, blanks. intros H. destruct (strip "-" (skip s)) as [q|] eqn:E.
  - apply strip_some in E. destruct (unsigned_literal q) as [a m| |] eqn:U; try discriminate. injection H as <- <-. destruct (unsigned_inv _ _ _ U) as (-> & K).
    apply skip_reads; [rewrite E; reflexivity| |].
    + cbn [well_spelled]. destruct K as [(D & _)|(D & _)]; [left|right]; right; exists a; (split; [reflexivity|exact D]).
    + assert (Mi : forall p : string -> Prop, (forall w u, p w -> w = "-" ++ u -> False) -> unsigned ("-" ++ a) p -> p a).
      { intros p Hp [X|(u & X & Y)]; [destruct (Hp _ _ X eq_refl)|]. injection X as ->. exact Y. }
      split; [|split].
      * intros U1. apply (Mi decimal dec_minus) in U1. destruct K as [(_ & N & _)|(D & _)]; [exact N|destruct (dec_hex _ U1 D)].
      * intros [X|X]; [discriminate|]. injection X as ->. destruct K as [(_ & _ & Z)|(D & _)]; [now apply Z|]. destruct D as (h & X & _). discriminate.
      * intros U1. apply (Mi hexadecimal hex_minus) in U1. destruct K as [(D & _)|(_ & N)]; [destruct (dec_hex _ D U1)|exact N].
  - destruct (unsigned_inv _ _ _ H) as (E' & K). apply skip_reads; [exact E'| |].
    + destruct K as [(D & _)|(D & _)]; [left|right]; now left.
    + assert (Mi : forall p : string -> Prop, unsigned v p -> p v).
      { intros p [X|(u & X & _)]; [exact X|]. subst v. destruct K as [(D & _)|(D & _)]; [destruct (dec_minus _ _ D eq_refl)|destruct (hex_minus _ _ D eq_refl)]. }
      split; [|split].
      * intros U1. apply Mi in U1. destruct K as [(_ & N & _)|(D & _)]; [exact N|destruct (dec_hex _ U1 D)].
      * intros [X|X].
        -- destruct K as [(_ & _ & Z)|(D & _)]; [now apply Z|]. subst v. destruct D as (h & X & _). discriminate.
        -- subst v. destruct K as [(D & _)|(D & _)]; [destruct (dec_minus _ _ D eq_refl)|destruct (hex_minus _ _ D eq_refl)].
      * intros U1. apply Mi in U1. destruct K as [(D & _)|(_ & N)]; [destruct (dec_hex _ D U1)|exact N].
Qed.

(** ** Comments *)
Lemma block_rest_app b : forall s, (forall x y, b ++ "*" <> x ++ "*/" ++ y) -> block_rest (b ++ "*/" ++ s) = Some s.
Proof.
  induction b as [|c b IH]; intros s N; [reflexivity|]. assert (N' : forall x y, b ++ "*" <> x ++ "*/" ++ y) by (intros x y E; apply (N (String c x) y); cbn; now rewrite E).
  specialize (IH s N'). cbn [append]. cbn [append] in IH. destruct (Ascii.eqb_spec c "*") as [->|Nc].
  - destruct b as [|d b]; [exact IH|]. destruct (Ascii.eqb_spec d "/") as [->|Nd]; [exfalso; now apply (N "" (b ++ "*"))|].
    cbn [append] in *. rewrite <- IH. clear - Nd. destruct d as [[] [] [] [] [] [] [] []]; try reflexivity. congruence.
  - rewrite <- IH. clear - Nc. destruct c as [[] [] [] [] [] [] [] []]; try reflexivity. congruence.
Qed.
Lemma block_rest_inv s : forall r, block_rest s = Some r -> exists b, s = b ++ "*/" ++ r /\ forall x y, b ++ "*" <> x ++ "*/" ++ y.
Proof.
  induction s as [|c s IH]; intros r H; [discriminate|].
  assert (K : c = "*"%char /\ (exists t, s = String "/" t) \/ block_rest (String c s) = block_rest s /\ ~ (c = "*"%char /\ exists t, s = String "/" t)).
  { clear. destruct (Ascii.eqb_spec c "*") as [->|Nc].
    - destruct s as [|d s]; [right; split; [reflexivity|intros (_ & t & ?); discriminate]|]. destruct (Ascii.eqb_spec d "/") as [->|Nd]; [left; eauto|].
      right. split; [|intros (_ & t & [= ? ?]); congruence]. destruct d as [[] [] [] [] [] [] [] []]; try reflexivity. congruence.
    - right. split; [|tauto]. destruct c as [[] [] [] [] [] [] [] []]; try reflexivity. congruence. }
  destruct K as [(-> & t & ->)|(E & N)].
  - cbn in H. injection H as ->. exists "". split; [reflexivity|]. intros x y X. destruct x as [|a [|b x]]; discriminate.
  - rewrite E in H. destruct (IH r H) as (b & -> & Nb). exists (String c b). split; [reflexivity|]. intros x y X. destruct x as [|a x].
    + cbn in X. injection X as -> X. apply N. split; [reflexivity|]. destruct b as [|d b]; [discriminate|]. cbn in *. injection X as -> X. eauto.
    + cbn in X. injection X as -> X. exact (Nb x y X).
Qed.
Definition escaped (b : string) : Prop := forall x y, b = x ++ line_feed ++ y -> exists x', x = x' ++ "\".
Definition stops (b s : string) : Prop := s = "" \/ exists s', s = line_feed ++ s' /\ ~ exists t', b = t' ++ "\".
Lemma snoc_cons c b t : (exists t', String c b = t' ++ String t "") -> b = "" /\ c = t \/ exists t', b = t' ++ String t "".
Proof. intros ([|a t'] & E); cbn in E; injection E as -> E; [now left|right; eauto]. Qed.
Lemma line_rest_app n : forall b s, (String.length b <= n)%nat -> escaped b -> stops b s -> line_rest (b ++ s) = s.
Proof.
  induction n as [|n IH]; intros b s L Es St.
  - destruct b; [|cbn in L; lia]. destruct St as [->|(s' & -> & _)]; reflexivity.
  - destruct b as [|c b]; [destruct St as [->|(s' & -> & _)]; reflexivity|]. cbn [append line_rest].
    destruct (Ascii.eqb_spec c newline_char) as [->|Nc]; [exfalso; destruct (Es "" b eq_refl) as ([|? ?] & ?); discriminate|].
    assert (Sb : forall d, (exists t', b = t' ++ d) -> exists t', String c b = t' ++ d) by (intros d (t' & ->); now exists (String c t')).
    destruct b as [|d b].
    + cbn [append]. destruct St as [->|(s' & -> & Ne)]; [reflexivity|]. cbn [line_feed append]. destruct (Ascii.eqb_spec c "\") as [->|Nb].
      * exfalso. apply Ne. now exists "".
      * cbn [andb]. reflexivity.
    + cbn [append]. destruct (Ascii.eqb_spec c "\" ) as [->|Nb]; cbn [andb].
      * destruct (Ascii.eqb_spec d newline_char) as [->|Nd].
        -- apply IH; [cbn in L; lia| |].
           ++ intros x y ->. destruct (Es (String "\" (String newline_char x)) y eq_refl) as (x' & E). destruct x as [|a x]; [|].
              ** exfalso. destruct x' as [|? [|? [|? ?]]]; discriminate.
              ** destruct x' as [|? [|? x']]; cbn in E; try discriminate. injection E as _ _ E. eauto.
           ++ destruct St as [->|(s' & -> & Ne)]; [now left|right]. exists s'. split; [reflexivity|]. intros (t' & ->). apply Ne. exists (String "\" (String newline_char t')). reflexivity.
        -- apply (IH (String d b)); [cbn in *; lia| |].
           ++ intros x y E. destruct (Es (String "\" x) y) as (x' & E'); [cbn; now rewrite E|]. destruct x as [|a x]; [cbn in E; injection E as -> _; now destruct Nd|].
              destruct x' as [|? x']; cbn in E'; [discriminate|]. injection E' as _ E'. eauto.
           ++ destruct St as [->|(s' & -> & Ne)]; [now left|right]. exists s'. split; [reflexivity|]. intros X. apply Ne. apply Sb. exact X.
      * apply (IH (String d b)); [cbn in *; lia| |].
        ++ intros x y E. destruct (Es (String c x) y) as (x' & E'); [cbn; now rewrite E|]. destruct x as [|a x]; [destruct x' as [|? [|? ?]]; cbn in E'; congruence|].
           destruct x' as [|? x']; cbn in E'; [discriminate|]. injection E' as _ E'. eauto.
        ++ destruct St as [->|(s' & -> & Ne)]; [now left|right]. exists s'. split; [reflexivity|]. intros X. apply Ne. apply Sb. exact X.
Qed.
Lemma line_rest_inv n : forall s, (String.length s <= n)%nat -> exists b, s = b ++ line_rest s /\ escaped b /\ stops b (line_rest s).
Proof.
  assert (E0 : escaped "") by (intros [|? ?] y E; discriminate).
  induction n as [|n IH]; intros s L.
  - destruct s; [|cbn in L; lia]. exists "". split; [reflexivity|]. split; [exact E0|now left].
  - destruct s as [|c s]; [exists ""; split; [reflexivity|]; split; [exact E0|now left]|]. cbn [line_rest].
    destruct (Ascii.eqb_spec c newline_char) as [->|Nc].
    { exists "". split; [reflexivity|]. split; [exact E0|]. right. exists s. split; [reflexivity|]. intros ([|? ?] & ?); discriminate. }
    destruct s as [|d s].
    { exists (String c ""). split; [reflexivity|]. split; [|now left]. intros x y E. destruct x as [|a [|b x]]; cbn in E; [|discriminate|discriminate]. injection E as E _. now destruct Nc. }
    destruct (Ascii.eqb_spec c "\") as [->|Nb]; cbn [andb].
    + destruct (Ascii.eqb_spec d newline_char) as [->|Nd].
      * destruct (IH s) as (b & E & Es & St); [cbn in L; lia|]. exists (String "\" (String newline_char b)). split; [cbn; now rewrite <- E|]. split.
        -- intros x y X. destruct x as [|a [|a' x]]; cbn in X; [discriminate|injection X as <- _; now exists ""|]. injection X as <- <- X.
           destruct (Es x y X) as (x' & ->). now exists (String "\" (String newline_char x')).
        -- destruct St as [St|(s' & St & Ne)]; [now left|right]. exists s'. split; [exact St|]. intros (t' & X). destruct t' as [|? [|? t']]; cbn in X; try discriminate. injection X as _ _ X. apply Ne. eauto.
      * destruct (IH (String d s)) as (b & E & Es & St); [cbn in *; lia|]. exists (String "\" b). split; [cbn [append]; now rewrite <- E|]. split.
        -- intros x y X. destruct x as [|a x]; cbn in X; [discriminate|]. injection X as <- X. destruct (Es x y X) as (x' & ->). now exists (String "\" x').
        -- destruct b as [|d' b]; cbn [append] in E.
           ++ destruct St as [St|(s' & St & _)]; [now left|]. exfalso. rewrite <- E in St. injection St as St _. now destruct Nd.
           ++ destruct St as [St|(s' & St & Ne)]; [now left|right]. exists s'. split; [exact St|]. intros X. apply snoc_cons in X as [(X & _)|X]; [discriminate|]. now apply Ne.
    + destruct (IH (String d s)) as (b & E & Es & St); [cbn in *; lia|]. exists (String c b). split; [cbn [append]; now rewrite <- E|]. split.
      * intros x y X. destruct x as [|a x]; cbn in X; [injection X as X _; now destruct Nc|]. injection X as <- X. destruct (Es x y X) as (x' & ->). now exists (String c x').
      * destruct St as [St|(s' & St & Ne)]; [now left|right]. exists s'. split; [exact St|]. intros X. apply snoc_cons in X as [(_ & X)|X]; [congruence|]. now apply Ne.
Qed.
Lemma snoc_slashes b : (exists t', "//" ++ b = t' ++ "\") <-> (exists t', b = t' ++ "\").
Proof.
  split.
  - intros ([|? [|? t']] & E); cbn in E; try discriminate. injection E as _ _ E. eauto.
  - intros (t' & ->). now exists ("//" ++ t').
Qed.
Lemma comment_reads t xs s r : reads (Comment t :: xs) s r -> exists s', comment s = Got tt s' /\ reads xs s' r.
Proof.
  intros H. destruct (reads_skip _ _ _ _ H) as (s' & E & W & F & R). exists s'. split; [|exact R]. clear H R. unfold comment, blanks. rewrite E. cbn [lexeme_text].
  destruct W as [(b & -> & N)|(b & -> & N)].
  - rewrite !str_assoc. change ("/*" ++ b ++ "*/" ++ s') with (String "/" (String "*" (b ++ "*/" ++ s'))). cbv iota beta. rewrite (block_rest_app b s' N). reflexivity.
  - cbn in F. cbn [append]. f_equal. apply (line_rest_app (String.length b)); [lia|exact N|]. destruct F as [->|(z & -> & X)]; [exists b; split; [reflexivity|exact N]|now left|right].
    exists z. split; [reflexivity|]. intros Y. apply X. now apply (snoc_slashes b).
Qed.
Lemma comment_got s u r : comment s = Got u r -> exists t, reads [Comment t] s r.
Proof.
  unfold comment, blanks. intros H. destruct (skip s) as [|c q] eqn:E; [discriminate|].
  destruct (Ascii.eqb_spec c "/") as [->|Nc]; [|exfalso; clear - H Nc; destruct c as [[] [] [] [] [] [] [] []]; try discriminate; congruence].
  destruct q as [|d q]; [discriminate|]. destruct (Ascii.eqb_spec d "*") as [->|N1].
  - destruct (block_rest q) as [z|] eqn:B; [|discriminate]. injection H as _ ->. destruct (block_rest_inv q r B) as (b & -> & N). exists ("/*" ++ b ++ "*/").
    apply skip_reads; [rewrite E; cbn [lexeme_text]; cbn [append]; now rewrite str_assoc|left; exists b; now split|]. intros (z & X & _). discriminate.
  - destruct (Ascii.eqb_spec d "/") as [->|N2]; [|exfalso; clear - H N1 N2; destruct d as [[] [] [] [] [] [] [] []]; try discriminate; congruence].
    injection H as _ <-. destruct (line_rest_inv (String.length q) q (le_n _)) as (b & Eq & Es & St). exists ("//" ++ b). apply skip_reads.
    + rewrite E. cbn [lexeme_text append]. now rewrite <- Eq.
    + right. now exists b.
    + intros _. destruct St as [X|(z & X & Y)]; [now left|right]. exists z. split; [exact X|]. intros Q. apply Y. now apply (snoc_slashes b).
Qed.
Lemma comment_soft s : peek s <> Some "/"%char -> comment s = Soft.
Proof.
  unfold comment, blanks, peek. destruct (skip s) as [|c t]; [reflexivity|]. intros H. destruct c as [[] [] [] [] [] [] [] []]; try reflexivity. destruct H. reflexivity.
Qed.
