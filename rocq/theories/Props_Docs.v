(** C89: the comments of a schema stay comments. *)
From Coq Require Import List ZArith Bool String Ascii Lia.
From Verif Require Import PyBase PyText GenTreeFacts GenAstSpec GenWords GrammarSpec GenLiterals LiteralSpec GenDocs DocSpec Props_Literals.
Import ListNotations.
Local Open Scope string_scope.

Definition plain_line (l : string) : Prop := mentions nl l = false.
Lemma split_plain l : plain_line l -> split_on nl l = [l].
Proof.
  induction l as [|c l IH]; intros H; [reflexivity|]. unfold plain_line in H. cbn [mentions] in H. apply orb_false_iff in H as [H1 H2]. cbn [split_on]. rewrite H1, (IH H2). reflexivity.
Qed.
Lemma split_first l s : plain_line l -> split_on nl (l ++ String nl s) = l :: split_on nl s.
Proof.
  induction l as [|c l IH]; intros H; [reflexivity|]. unfold plain_line in H. cbn [mentions] in H. apply orb_false_iff in H as [H1 H2]. cbn [append split_on]. rewrite H1, (IH H2). reflexivity.
Qed.
Lemma split_join : forall ls, ls <> [] -> Forall plain_line ls -> split_on nl (join (one nl) ls) = ls.
Proof.
  induction ls as [|l ls IH]; intros Hn H; [congruence|]. inversion H as [|? ? Hl Hls]; subst. destruct ls as [|l' ls].
  - cbn [join String.concat]. now apply split_plain.
  - rewrite join_cons. unfold one. cbn [append]. rewrite split_first by assumption. f_equal. apply IH; [discriminate|assumption].
Qed.
(** the lines of a joined text *)
Lemma in_joined ls l : Forall plain_line ls -> In l (split_on nl (join (one nl) ls)) -> l = "" \/ In l ls.
Proof. intros H Hl. destruct ls as [|x ls]; [cbn in Hl; destruct Hl as [<-|[]]; now left|]. rewrite split_join in Hl by (discriminate || assumption). now right. Qed.
Lemma split_lines_plain s : Forall plain_line (split_on nl s).
Proof.
  induction s as [|c s IH]; cbn [split_on]; [repeat constructor|]. destruct (Ascii.eqb c nl) eqn:E; [constructor; [reflexivity|assumption]|].
  destruct (split_on nl s) as [|w ws]; [constructor; [unfold plain_line; cbn [mentions]; now rewrite E|constructor]|]. inversion IH; subst. constructor; [|assumption]. unfold plain_line in *. cbn [mentions]. now rewrite E.
Qed.

(** *** Splitting at all line ends *)
Definition no_end (s : string) : Prop := only_chars (fun c => negb (line_end c)) s = true.
Lemma no_end_app a b : no_end (a ++ b) <-> no_end a /\ no_end b.
Proof. unfold no_end. now rewrite only_chars_app, andb_true_iff. Qed.
Lemma split_lines_no_end : forall n s cur open, (String.length s <= n)%nat -> no_end cur -> Forall no_end (split_lines s cur open).
Proof.
  induction n as [|n IH]; intros s cur open Hn Hc.
  - destruct s; [|cbn in Hn; lia]. cbn. destruct open; repeat constructor; assumption.
  - destruct s as [|c t]; [cbn; destruct open; repeat constructor; assumption|]. cbn [String.length] in Hn. cbn [split_lines]. destruct (line_end c) eqn:E.
    + constructor; [assumption|]. destruct t as [|d u]; [constructor|]. cbn [String.length] in Hn. destruct (Ascii.eqb c cr && Ascii.eqb d nl); apply IH; try reflexivity; cbn [String.length]; lia.
    + apply IH; [lia|]. apply no_end_app. split; [assumption|]. unfold no_end, one. cbn [only_chars]. now rewrite E.
Qed.
Lemma splitlines_no_end s : Forall no_end (splitlines s).
Proof. apply (split_lines_no_end (String.length s)); [lia|reflexivity]. Qed.
Lemma no_end_mentions c s : line_end c = true -> no_end s -> mentions c s = false.
Proof.
  intros Hc. induction s as [|a s IH]; intros H; [reflexivity|]. unfold no_end in H. cbn [only_chars] in H. apply andb_true_iff in H as [Ha H]. cbn [mentions]. rewrite (IH H), orb_false_r.
  destruct (Ascii.eqb_spec a c) as [->|]; [rewrite Hc in Ha; discriminate|reflexivity].
Qed.
Lemma remove_first_no_end p s : no_end s -> no_end (remove_first p s).
Proof.
  induction s as [|c s IH]; intros H; cbn [remove_first].
  - destruct (after_prefix p "") as [r|] eqn:E; [|reflexivity]. apply after_prefix_inv in E. rewrite E in H. now apply no_end_app in H.
  - destruct (after_prefix p (String c s)) as [r|] eqn:E; [apply after_prefix_inv in E; rewrite E in H; now apply no_end_app in H|]. unfold no_end in *. cbn [only_chars] in H |- *. apply andb_true_iff in H as [A B].
    rewrite A. now rewrite (IH B).
Qed.

Lemma indent_comments m code : comments_or_empty m code -> comments_or_empty m (indent code).
Proof.
  intros H. unfold comments_or_empty in *. unfold indent. pose proof (split_lines_plain code) as P. destruct (split_on nl code) as [|x ls] eqn:E; [intros l [<-|[]]; now left|].
  intros l Hl. inversion P as [|? ? Px Pl]; subst. apply in_joined in Hl.
  - destruct Hl as [->|[<-|Hl]]; [now left|apply H; now left|]. apply in_map_iff in Hl as (y & <- & Hy). destruct (H y (or_intror Hy)) as [->|(b & r & Hb & ->)]; [now left|].
    right. destruct (nonempty (b ++ m ++ r)); [|now exists b, r]. exists ("        " ++ b), r. split; [rewrite only_chars_app; now rewrite Hb|now rewrite str_app_assoc].
  - constructor; [assumption|]. apply Forall_forall. intros y Hy. apply in_map_iff in Hy as (z & <- & Hz). rewrite Forall_forall in Pl. specialize (Pl z Hz). unfold plain_line in *.
    destruct (nonempty z); [|assumption]. rewrite mentions_app, Pl. reflexivity.
Qed.

(** Go: every line of the code made from a comment is a comment (or empty), whatever the comment is. *)
Theorem C89_go : forall doc, comments_or_empty "//" (go_doc doc) /\ comments_or_empty "//" (indent (go_doc doc)).
Proof.
  intros doc. assert (H : comments_or_empty "//" (go_doc doc)); [|split; [assumption|now apply indent_comments]].
  unfold comments_or_empty, go_doc. intros l Hl. pose proof (splitlines_no_end doc) as P. rewrite Forall_forall in P. apply in_joined in Hl.
  - destruct Hl as [->|Hl]; [now left|]. apply in_map_iff in Hl as (x & <- & _). right. exists "", (" " ++ x). split; reflexivity.
  - apply Forall_forall. intros x Hx. apply in_map_iff in Hx as (y & <- & Hy). apply filter_In in Hy as [Hy _]. unfold plain_line. rewrite mentions_app. rewrite (no_end_mentions nl y eq_refl (P y Hy)). reflexivity.
Qed.
(** Python: likewise; carriage returns, which also end lines, do not occur. *)
Theorem C89_python : forall doc, comments_or_empty "#" (py_doc doc) /\ comments_or_empty "#" (indent (py_doc doc)) /\ mentions cr (py_doc doc) = false.
Proof.
  intros doc. pose proof (splitlines_no_end doc) as P. rewrite Forall_forall in P.
  assert (N : forall y, In y (map (fun line => "# " ++ remove_first "//" (remove_first " *" (remove_first "*/" (remove_first "/**" line)))) (splitlines doc)) -> no_end y).
  { intros y Hy. apply in_map_iff in Hy as (z & <- & Hz). apply no_end_app. split; [reflexivity|]. repeat apply remove_first_no_end. exact (P z Hz). }
  assert (H : comments_or_empty "#" (py_doc doc)).
  { unfold comments_or_empty, py_doc. intros l Hl. apply in_joined in Hl.
    - destruct Hl as [->|Hl]; [now left|]. apply in_map_iff in Hl as (x & <- & _). right. exists "". eexists. split; [reflexivity|]. reflexivity.
    - apply Forall_forall. intros x Hx. apply no_end_mentions; [reflexivity|now apply N]. }
  split; [assumption|]. split; [now apply indent_comments|]. unfold py_doc. revert N. generalize (map (fun line => "# " ++ remove_first "//" (remove_first " *" (remove_first "*/" (remove_first "/**" line)))) (splitlines doc)).
  induction l as [|x l IH]; intros N; [reflexivity|]. destruct l as [|y l]; [apply no_end_mentions; [reflexivity|apply N; now left]|].
  rewrite join_cons, !mentions_app. rewrite (no_end_mentions cr x eq_refl (N x (or_introl eq_refl))). rewrite IH; [reflexivity|]. intros z Hz. apply N. now right.
Qed.
(** ... and the same comment as the documentation of a class or resource is the text of the comment (C88_python, for all texts). *)

(** *** Rust *)
Lemma drop_while_app p s : exists a, s = a ++ drop_while p s /\ only_chars p a = true.
Proof.
  induction s as [|c s (a & E & Ha)]; [exists ""; now split|]. cbn [drop_while]. destruct (p c) eqn:Ec; [|exists ""; now split]. exists (String c a). cbn [append only_chars]. rewrite Ec, Ha. split; [|reflexivity]. now f_equal.
Qed.
Lemma drop_while_first p s c t : drop_while p s = String c t -> p c = false.
Proof. induction s as [|d s IH]; cbn; [discriminate|]. destruct (p d) eqn:E; [assumption|]. now intros [= -> _]. Qed.
Lemma rstrip_cons c t : is_space c = false -> rstrip (String c t) = String c (rstrip t).
Proof. intros H. cbn [rstrip]. rewrite H. destruct (rstrip t); reflexivity. Qed.
Lemma rstrip_app s : exists b, s = rstrip s ++ b.
Proof.
  induction s as [|c s (b & E)]; [now exists ""|]. cbn [rstrip]. destruct (rstrip s) as [|d u].
  - destruct (is_space c); [exists (String c s); reflexivity|]. exists s. reflexivity.
  - exists b. cbn [append] in *. now f_equal.
Qed.
Lemma mentions_sub c a s b : s = (a ++ b)%string -> mentions c s = false -> mentions c a = false /\ mentions c b = false.
Proof. intros -> H. rewrite mentions_app in H. now apply orb_false_iff in H. Qed.
Lemma strip_plain s : plain_line s -> plain_line (strip s).
Proof.
  intros H. unfold strip. destruct (drop_while_app is_space s) as (a & E & _). destruct (mentions_sub nl _ _ _ E H) as [_ H2]. destruct (rstrip_app (drop_while is_space s)) as (b & E'). exact (proj1 (mentions_sub nl _ _ _ E' H2)).
Qed.
Lemma doc_text_app s : exists b, s = doc_text s ++ b.
Proof.
  induction s as [|c s (b & E)]; [now exists ""|]. cbn [doc_text]. destruct (doc_closing (String c s)); [exists (String c s); reflexivity|]. exists b. cbn [append]. now f_equal.
Qed.
Lemma skip_space_app s : exists a, s = a ++ skip_space s.
Proof. destruct s as [|c s]; [now exists ""|]. cbn [skip_space]. destruct (is_space c); [exists (one c)|exists ""]; reflexivity. Qed.
Lemma doc_opening_app s r : doc_opening s = Some r -> exists a, s = a ++ r.
Proof.
  unfold doc_opening. destruct (after_prefix "/**" s) as [x|] eqn:E1.
  { intros [= <-]. apply after_prefix_inv in E1. destruct (skip_space_app x) as (a & Ea). exists ("/**" ++ a). rewrite str_app_assoc, <- Ea. exact E1. }
  destruct (after_prefix "/*" s) as [x|] eqn:E2.
  { intros [= <-]. apply after_prefix_inv in E2. destruct (skip_space_app x) as (a & Ea). exists ("/*" ++ a). rewrite str_app_assoc, <- Ea. exact E2. }
  destruct (after_prefix "*/" s) as [x|] eqn:E3; [intros [= <-]; apply after_prefix_inv in E3; now exists "*/"|].
  destruct (after_prefix "*" s) as [x|] eqn:E4; [|discriminate]. intros [= <-]. apply after_prefix_inv in E4. destruct (skip_space_app x) as (a & Ea). exists ("*" ++ a). rewrite str_app_assoc, <- Ea. exact E4.
Qed.
Lemma doc_opening_iff s : doc_opening s <> None <-> begins_with "*" s \/ begins_with "/*" s.
Proof.
  unfold doc_opening. split.
  - destruct (after_prefix "/**" s) as [x|] eqn:E1; [apply after_prefix_inv in E1; intros _; right; exists ("*" ++ x); exact E1|].
    destruct (after_prefix "/*" s) as [x|] eqn:E2; [apply after_prefix_inv in E2; intros _; right; now exists x|].
    destruct (after_prefix "*/" s) as [x|] eqn:E3; [apply after_prefix_inv in E3; intros _; left; exists ("/" ++ x); exact E3|].
    destruct (after_prefix "*" s) as [x|] eqn:E4; [apply after_prefix_inv in E4; intros _; left; now exists x|]. congruence.
  - intros [(r & ->)|(r & ->)].
    + destruct (after_prefix "/**" _); [discriminate|]. destruct (after_prefix "/*" _); [discriminate|]. destruct (after_prefix "*/" _); [discriminate|]. rewrite after_prefix_app. discriminate.
    + destruct (after_prefix "/**" _); [discriminate|]. rewrite after_prefix_app. discriminate.
Qed.
(** a line that the expression matches becomes a comment, any other is only stripped *)
Lemma rust_line_cases l :
  ((exists blanks r, only_chars (among [9; 32]) blanks = true /\ (l = blanks ++ "*" ++ r \/ l = blanks ++ "/*" ++ r)) /\ begins_with "///" (rust_line l)) \/
  ((forall blanks r, only_chars (among [9; 32]) blanks = true -> l <> blanks ++ "*" ++ r /\ l <> blanks ++ "/*" ++ r) /\ rust_line l = strip l).
Proof.
  unfold rust_line. destruct (doc_opening (drop_while (among [9; 32]) l)) as [r|] eqn:E.
  - left. split.
    + assert (N : doc_opening (drop_while (among [9; 32]) l) <> None) by congruence. apply doc_opening_iff in N. destruct (drop_while_app (among [9; 32]) l) as (b & Eb & Hb).
      exists b. destruct N as [(x & Ex)|(x & Ex)]; exists x; (split; [assumption|]); rewrite <- Ex; auto.
    + unfold strip. exists (rstrip (" " ++ doc_text r)). cbn [append drop_while]. change (is_space "/") with false. cbv iota. now rewrite !rstrip_cons by reflexivity.
  - right. split; [|reflexivity]. intros b x Hb.
    assert (D : forall u, u = "*" ++ x \/ u = "/*" ++ x -> drop_while (among [9; 32]) (b ++ u) = u).
    { intros u Hu. clear E. induction b as [|c b IH]; [destruct Hu as [->| ->]; reflexivity|]. cbn [only_chars] in Hb. apply andb_true_iff in Hb as [Hc Hb]. cbn [append drop_while]. rewrite Hc. exact (IH Hb). }
    split; intros ->; (rewrite D in E by auto); [apply (proj2 (doc_opening_iff ("*" ++ x))) in E; [assumption|left; now exists x]|apply (proj2 (doc_opening_iff ("/*" ++ x))) in E; [assumption|right; now exists x]].
Qed.
Lemma rust_line_plain l : plain_line l -> plain_line (rust_line l).
Proof.
  intros H. unfold rust_line. apply strip_plain. destruct (doc_opening _) as [r|] eqn:E; [|assumption]. destruct (drop_while_app (among [9; 32]) l) as (a & Ea & _). destruct (mentions_sub nl _ _ _ Ea H) as [_ H1].
  destruct (doc_opening_app _ _ E) as (a' & Ea'). destruct (mentions_sub nl _ _ _ Ea' H1) as [_ H2]. destruct (doc_text_app r) as (b & Eb). destruct (mentions_sub nl _ _ _ Eb H2) as [H3 _].
  unfold plain_line. rewrite mentions_app, H3. reflexivity.
Qed.
Lemma strip_first s : strip s = "" \/ exists c t, strip s = String c t /\ is_space c = false.
Proof.
  unfold strip. destruct (drop_while is_space s) as [|c t] eqn:E; [now left|]. apply drop_while_first in E. right. exists c, (rstrip t). split; [now apply rstrip_cons|assumption].
Qed.
Lemma begins_comment m r s : m <> "" -> s = m ++ r -> comment_line m s. Proof. intros _ ->. exists "", r. split; reflexivity. Qed.

(** Rust: the code made from a comment is a comment exactly if every line of the comment is blank or starts with a star or a comment mark. *)
Theorem C89_rust_partial : forall doc, comments_or_empty "//" (rust_doc doc) <-> forall l, In l (split_on nl doc) -> recognised l.
Proof.
  intros doc. set (lines := map rust_line (split_on nl doc)).
  set (kept := if String.eqb (last lines "") "///" then removelast lines else lines).
  set (final := if String.eqb (hd "" lines) "///" then tl kept else kept).
  assert (Ed : rust_doc doc = join (one nl) final) by reflexivity.
  assert (Hsub : forall x, In x final -> In x lines).
  { assert (Hk : forall x, In x kept -> In x lines).
    { unfold kept. intros x. destruct (String.eqb (last lines "") "///"); [|auto]. clear. intros H. destruct lines as [|y l]; [destruct H|]. rewrite (app_removelast_last "" (l := y :: l)) by discriminate. apply in_or_app. now left. }
    unfold final. intros x H. apply Hk. destruct (String.eqb (hd "" lines) "///"); [|assumption]. destruct kept; [destruct H|now right]. }
  assert (Hsup : forall x, In x lines -> In x final \/ x = "///").
  { intros x Hx. assert (Hk : In x kept \/ x = "///").
    { unfold kept. destruct (String.eqb_spec (last lines "") "///") as [E|]; [|now left]. destruct lines as [|y l]; [destruct Hx|]. rewrite (app_removelast_last "" (l := y :: l)) in Hx by discriminate. apply in_app_or in Hx as [Hx|[<-|[]]]; auto. }
    destruct Hk as [Hk|]; [|now right]. unfold final. destruct (String.eqb_spec (hd "" lines) "///") as [E|]; [|now left]. destruct kept as [|y l] eqn:Ek; [destruct Hk|]. destruct Hk as [<-|Hk]; [|now left].
    right. rewrite <- E. unfold kept in Ek. destruct (String.eqb (last lines "") "///"); [|rewrite Ek; reflexivity]. destruct lines as [|z [|w l']]; [discriminate|discriminate|]. cbn [removelast] in Ek. injection Ek as <- _. reflexivity. }
  assert (Pl : Forall plain_line final).
  { apply Forall_forall. intros x Hx. apply Hsub in Hx. unfold lines in Hx. apply in_map_iff in Hx as (y & <- & Hy). apply rust_line_plain. pose proof (split_lines_plain doc) as P. rewrite Forall_forall in P. now apply P. }
  rewrite Ed. split.
  - intros H l Hl. assert (Hx : In (rust_line l) lines) by (unfold lines; now apply in_map). destruct (rust_line_cases l) as [(C & _)|(_ & E)]; [now left|]. right.
    rewrite E in Hx. apply Hsup in Hx as [Hx|Hx]; [|right; exists "/"; exact Hx].
    assert (Hs : In (strip l) (split_on nl (join (one nl) final))) by (rewrite split_join; [assumption|destruct final; [destruct Hx|discriminate]|assumption]).
    destruct (H _ Hs) as [E0|(b & r & Hb & Er)]; [now left|]. right. destruct b as [|c b]; [now exists r|]. exfalso. destruct (strip_first l) as [E0|(c' & t & E0 & Hc)]; rewrite E0 in Er; [discriminate|].
    cbn [append] in Er. injection Er as -> _. cbn in Hb. apply andb_true_iff in Hb as [Hb _]. apply Ascii.eqb_eq in Hb. subst c. discriminate.
  - intros H l Hl. apply in_joined in Hl; [|assumption]. destruct Hl as [->|Hl]; [now left|]. apply Hsub in Hl. unfold lines in Hl. apply in_map_iff in Hl as (y & <- & Hy).
    destruct (rust_line_cases y) as [(_ & (r & E))|(N & E)].
    + right. rewrite E. exists "", ("/" ++ r). split; reflexivity.
    + rewrite E. destruct (H y Hy) as [(b & r & Hb & Hr)|[E0|(r & E0)]]; [|now left|right; rewrite E0; exists "", r; split; reflexivity].
      exfalso. destruct (N b r Hb) as [N1 N2]. destruct Hr; contradiction.
Qed.
(** A comment that becomes code *)
Theorem C89_rust_refuted : exists doc, block_comment doc /\ ~ comments_or_empty "//" (rust_doc doc) /\ rust_doc doc = "pub fn f() {}".
Proof.
  exists ("/*" ++ one nl ++ "pub fn f() {}" ++ one nl ++ "*/"). assert (E : rust_doc ("/*" ++ one nl ++ "pub fn f() {}" ++ one nl ++ "*/") = "pub fn f() {}") by (vm_compute; reflexivity).
  split; [|split; [|exact E]].
  - exists (one nl ++ "pub fn f() {}" ++ one nl). split; [reflexivity|]. intros x y H. apply (f_equal (mentions "/")) in H. rewrite !mentions_app in H. cbn in H. rewrite !orb_true_r in H. discriminate.
  - rewrite E. intros H. destruct (H "pub fn f() {}" (or_introl eq_refl)) as [H0|(b & r & Hb & H0)]; [discriminate|]. destruct b as [|c b]; [discriminate|]. cbn [append] in H0. injection H0 as <- _. discriminate.
Qed.

(** *** C++ *)
Lemma splice_app a s : unspliced a -> (forall x, a <> x ++ one backslash) -> splice (a ++ s) = a ++ splice s.
Proof.
  induction a as [|c a IH]; intros H He; [reflexivity|]. assert (Ha : unspliced a) by (intros x y E; apply (H (String c x) y); cbn [append]; now rewrite E).
  assert (Hea : forall x, a <> x ++ one backslash) by (intros x E; apply (He (String c x)); cbn [append]; now rewrite E).
  destruct (Ascii.ascii_dec c backslash) as [->|Hc]; [|cbn [append]; rewrite splice_cons by assumption; now rewrite IH].
  destruct a as [|d a]; [exfalso; exact (He "" eq_refl)|]. assert (Hd : d <> nl) by (intros ->; exact (H "" a eq_refl)).
  specialize (IH Ha Hea). cbn [append] in IH |- *. change (splice (String backslash (String d (a ++ s)))) with (if Ascii.eqb backslash backslash && Ascii.eqb d nl then splice (a ++ s) else String backslash (splice (String d (a ++ s)))).
  destruct (Ascii.eqb_spec d nl); [contradiction|]. rewrite andb_false_r. now rewrite IH.
Qed.
Lemma until_block b rest : (forall x y, b ++ "*" <> x ++ "*/" ++ y) -> until "*/" (b ++ "*/" ++ rest) = Some (b, rest).
Proof.
  induction b as [|c b IH]; intros H; [reflexivity|]. assert (Hb : forall x y, b ++ "*" <> x ++ "*/" ++ y) by (intros x y E; apply (H (String c x) y); cbn [append] in *; now rewrite E).
  cbn [append until]. destruct (after_prefix "*/" (String c (b ++ String "*" (String "/" rest)))) as [r|] eqn:E.
  - exfalso. apply after_prefix_inv in E. cbn [append] in E. injection E as -> E. destruct b as [|d b]; [discriminate|]. cbn [append] in E. injection E as -> E. exact (H "" (b ++ "*") eq_refl).
  - cbn [append] in IH. now rewrite (IH Hb).
Qed.
Lemma splice_line : forall n b s, (String.length b <= n)%nat -> (forall x y, b = x ++ String nl y -> exists x', x = x' ++ one backslash) -> (forall x, b <> x ++ one backslash) ->
  exists b', mentions nl b' = false /\ splice (b ++ String nl s) = b' ++ String nl (splice s).
Proof.
  assert (L : forall x c, exists d y, x ++ one c = String d y) by (intros [|d x] c; do 2 eexists; reflexivity).
  induction n as [|n IH]; intros b s Hn Hb He; [destruct b; [|cbn in Hn; lia]|destruct b as [|c b]].
  - exists "". split; [reflexivity|]. cbn [append]. now rewrite splice_cons by discriminate.
  - exists "". split; [reflexivity|]. cbn [append]. now rewrite splice_cons by discriminate.
  - cbn [String.length] in Hn. assert (Heb : forall x, b <> x ++ one backslash) by (intros x E; apply (He (String c x)); cbn [append]; now rewrite E).
    assert (Hcn : c <> nl) by (intros ->; destruct (Hb "" b eq_refl) as (x' & E); destruct (L x' backslash) as (d & y & E'); rewrite E' in E; discriminate).
    destruct (Ascii.ascii_dec c backslash) as [->|Hc].
    + destruct b as [|d b]; [exfalso; exact (He "" eq_refl)|]. destruct (Ascii.ascii_dec d nl) as [->|Hd].
      * destruct (IH b s) as (b' & H1 & H2).
        -- cbn [String.length] in Hn. lia.
        -- intros x y E. destruct (Hb (String backslash (String nl x)) y) as (x' & E'); [cbn [append]; now rewrite E|]. destruct x' as [|a1 [|a2 x']]; cbn [append one] in E'; [discriminate|discriminate|]. injection E' as _ _ E'. now exists x'.
        -- intros x E. apply (Heb (String nl x)). cbn [append]. now rewrite E.
        -- exists b'. split; [assumption|]. exact H2.
      * destruct (IH (String d b) s) as (b' & H1 & H2); [lia| |assumption|].
        -- intros x y E. destruct (Hb (String backslash x) y) as (x' & E'); [cbn [append]; now rewrite E|]. destruct x' as [|a1 x']; cbn [append one] in E'; [|injection E' as _ E'; now exists x'].
           injection E' as ->. cbn [append] in E. injection E as E _. contradiction.
        -- exists (String backslash b'). split; [cbn [mentions]; exact H1|]. cbn [append] in H2 |- *.
           change (splice (String backslash (String d (b ++ String nl s)))) with (if Ascii.eqb backslash backslash && Ascii.eqb d nl then splice (b ++ String nl s) else String backslash (splice (String d (b ++ String nl s)))).
           destruct (Ascii.eqb_spec d nl); [contradiction|]. cbn [andb]. rewrite andb_false_r. now rewrite H2.
    + destruct (IH b s) as (b' & H1 & H2); [lia| |assumption|].
      * intros x y E. destruct (Hb (String c x) y) as (x' & E'); [cbn [append]; now rewrite E|]. destruct x' as [|a1 x']; cbn [append one] in E'; [injection E' as E' _; contradiction|]. injection E' as _ E'. now exists x'.
      * exists (String c b'). split; [cbn [mentions]; rewrite H1; destruct (Ascii.eqb_spec c nl); [contradiction|reflexivity]|]. cbn [append]. rewrite splice_cons by assumption. now rewrite H2.
Qed.
Lemma rest_of_line_app b s : mentions nl b = false -> rest_of_line (b ++ String nl s) = String nl s.
Proof. induction b as [|c b IH]; intros H; [reflexivity|]. cbn [mentions] in H. apply orb_false_iff in H as [H1 H2]. cbn [append rest_of_line]. rewrite H1. exact (IH H2). Qed.

(** C++: a comment of the schema is a comment of the code, to its end. *)
Theorem C89_cpp_partial : forall doc rest, (block_comment doc /\ unspliced doc) \/ (line_comment doc /\ (forall x, doc <> x ++ one backslash)) ->
  cpp_after_comment (cpp_doc doc ++ String nl rest) = Some (String nl (splice rest)).
Proof.
  intros doc rest [((b & -> & Hb) & Hu)|((b & -> & Hb) & He)]; unfold cpp_after_comment, cpp_doc; cbv zeta.
  - rewrite splice_app; [|assumption|].
    2:{ intros x E. rewrite <- str_app_assoc in E. assert (X : forall u v, (u ++ "/")%string <> (v ++ one backslash)%string).
        { clear. induction u as [|a u IH]; intros [|b v] E; cbn [append one] in E; try discriminate; injection E as E1 E2.
          - destruct v; discriminate. - destruct u; discriminate. - exact (IH v E2). }
        apply (X (("/*" ++ b) ++ "*") x). rewrite <- E. rewrite !str_app_assoc. reflexivity. }
    rewrite splice_cons by discriminate. rewrite !str_app_assoc. rewrite after_prefix_app. rewrite until_block by assumption. reflexivity.
  - rewrite str_app_assoc. cbn [append]. rewrite !splice_cons by discriminate.
    destruct (splice_line (String.length b) b rest (le_n _)) as (b' & H1 & H2).
    + intros x y E. apply (Hb x y). exact E.
    + intros x E. apply (He ("//" ++ x)). rewrite E. reflexivity.
    + rewrite H2. change (after_prefix "/*" (String "/" (String "/" ?x))) with (@None string). change (after_prefix "//" (String "/" (String "/" ?x))) with (after_prefix "" x).
      assert (E0 : forall x, after_prefix "" x = Some x) by (intros []; reflexivity). rewrite E0. rewrite rest_of_line_app by assumption. reflexivity.
Qed.
(** A block comment in which joining lines makes an earlier end: the rest becomes code. *)
Theorem C89_cpp_refuted : exists doc, block_comment doc /\ forall rest, cpp_after_comment (cpp_doc doc ++ String nl rest) = Some (" int x; */" ++ String nl (splice rest)).
Proof.
  exists ("/* *" ++ String backslash (one nl) ++ "/ int x; */"). split.
  - exists (" *" ++ String backslash (one nl) ++ "/ int x; "). split; [reflexivity|]. intros x y H. apply (f_equal (fun s => until "*/" s)) in H.
    change (until "*/" ((" *" ++ String backslash (one nl) ++ "/ int x; ") ++ "*")) with (@None (string * string)) in H.
    assert (X : forall x y, until "*/" (x ++ "*/" ++ y) <> None).
    { clear. induction x as [|c x IH]; intros y; [discriminate|]. cbn [append until]. destruct (after_prefix "*/" _); [discriminate|]. specialize (IH y). cbn [append] in IH. destruct (until "*/" _) as [[? ?]|]; [discriminate|congruence]. }
    symmetry in H. exact (X x y H).
  - intros rest. unfold cpp_after_comment, cpp_doc. rewrite !str_app_assoc. unfold one. cbn [append].
    do 4 (rewrite splice_cons by discriminate).
    change (splice (String backslash (String nl ?x))) with (splice x). rewrite !splice_cons by discriminate. reflexivity.
Qed.

(** The usual form of a comment, in the four languages *)
Example C89_instance : let doc := "/**" ++ one nl ++ " * A point" ++ one nl ++ " * on a map." ++ one nl ++ " */" in
  block_comment doc /\ unspliced doc /\ (forall l, In l (split_on nl doc) -> recognised l) /\
  rust_doc doc = "/// A point" ++ one nl ++ "/// on a map." /\
  go_doc doc = "// /**" ++ one nl ++ "//  * A point" ++ one nl ++ "//  * on a map." ++ one nl ++ "//  */" /\
  py_doc doc = "# " ++ one nl ++ "#  A point" ++ one nl ++ "#  on a map." ++ one nl ++ "#  ".
Proof.
  cbv zeta. split; [|split; [|split]].
  - exists ("*" ++ one nl ++ " * A point" ++ one nl ++ " * on a map." ++ one nl ++ " "). split; [reflexivity|]. intros x y H. apply (f_equal (mentions "/")) in H. rewrite !mentions_app in H. cbn in H. rewrite !orb_true_r in H. discriminate.
  - intros x y H. apply (f_equal (mentions backslash)) in H. rewrite !mentions_app in H. cbn in H. rewrite !orb_true_r in H. discriminate.
  - intros l Hl. vm_compute in Hl. destruct Hl as [<-|[<-|[<-|[<-|[]]]]]; left.
    + exists "". eexists. split; [reflexivity|]. right. reflexivity.
    + exists " ". eexists. split; [reflexivity|]. left. reflexivity.
    + exists " ". eexists. split; [reflexivity|]. left. reflexivity.
    + exists " ". eexists. split; [reflexivity|]. left. reflexivity.
  - vm_compute. repeat split.
Qed.
Print Assumptions C89_rust_partial.
Print Assumptions C89_cpp_partial.
