(** C87: the description of a mismatch in C++. *)
From Coq Require Import List ZArith Bool Lia.
From Verif Require Import PyBase Codecs CppStore CppDiff DiffSpec.
Import ListNotations.
Local Open Scope nat_scope.

Lemma eq_line_spec a b : eq_line a b = true <-> a = b.
Proof. unfold eq_line. destruct (list_eq_dec Z.eq_dec a b); split; congruence. Qed.

(** *** Lines *)
Lemma lines_from_line : forall l pre mem inside, is_line l -> l <> [] ->
  lines_from (l ++ mem) pre inside = lines_from mem (pre ++ l) true.
Proof.
  induction l as [|c l IH]; intros pre mem inside Hl Hn; [congruence|]. inversion Hl as [|? ? [H0 H10] Hl']; subst. cbn [app lines_from].
  replace (c =? 0)%Z with false by lia. replace (c =? 10)%Z with false by lia. destruct l as [|c' l].
  - reflexivity.
  - rewrite IH by (auto; discriminate). now rewrite <- app_assoc.
Qed.
Theorem C87_lines : forall ls text rest, text_of ls text -> to_lines (text ++ 0%Z :: rest) = Some ls.
Proof.
  intros ls text rest H. unfold to_lines. induction H as [|l Hl Hn|l ls text Hl Ht IH].
  - reflexivity.
  - rewrite lines_from_line by assumption. reflexivity.
  - destruct l as [|c l].
    + cbn [app lines_from]. cbn. now rewrite IH.
    + rewrite <- app_assoc. rewrite lines_from_line by (auto; discriminate). cbn [app lines_from]. cbn. now rewrite IH.
Qed.

(** *** The table *)
Lemma fill_row_cons left diag up prev line x expected :
  fill_row left (diag :: up :: prev) line (x :: expected) =
  let m := Nat.min (left + 1) (up + 1) in let m := if eq_line x line then Nat.min m diag else m in m :: fill_row m (up :: prev) line expected.
Proof. reflexivity. Qed.
Lemma fill_row_length line : forall expected left prev, List.length prev = S (List.length expected) ->
  List.length (fill_row left prev line expected) = List.length expected.
Proof.
  induction expected as [|x expected IH]; intros left prev Hp; [now destruct prev|].
  destruct prev as [|diag [|up prev]]; cbn [List.length] in Hp; try lia. rewrite fill_row_cons. cbv zeta. cbn [List.length]. f_equal. apply IH. cbn [List.length]. lia.
Qed.
Lemma fill_row_nth line : forall expected left prev e, List.length prev = S (List.length expected) -> e < List.length expected ->
  nth e (fill_row left prev line expected) 0 =
    let m := Nat.min (nth e (left :: fill_row left prev line expected) 0 + 1) (nth (S e) prev 0 + 1) in
    if eq_line (nth e expected []) line then Nat.min m (nth e prev 0) else m.
Proof.
  induction expected as [|x expected IH]; intros left prev e Hp He; [cbn in He; lia|].
  destruct prev as [|diag [|up prev]]; cbn [List.length] in Hp; try lia. destruct e as [|e].
  - reflexivity.
  - rewrite fill_row_cons. cbv zeta. set (m := if eq_line x line then _ else _). change (nth (S e) (m :: ?l) 0) with (nth e l 0). cbn [List.length] in *.
    rewrite IH by (cbn [List.length]; lia). reflexivity.
Qed.
Lemma rows_nth expected : forall found k prev j, j < List.length found ->
  nth (S j) (prev :: fill_rows k prev expected found) [] =
  S (k + j) :: fill_row (S (k + j)) (nth j (prev :: fill_rows k prev expected found) []) (nth j found []) expected.
Proof.
  induction found as [|line found IH]; intros k prev j Hj; [cbn in Hj; lia|]. cbn [fill_rows]. destruct j as [|j].
  - cbn [nth]. now rewrite Nat.add_0_r.
  - specialize (IH (S k) (S k :: fill_row (S k) prev line expected) j ltac:(cbn in Hj; lia)).
    change (nth (S (S j)) (prev :: ?t) []) with (nth (S j) t []).
    change (nth (S j) (prev :: ?t) []) with (nth j t []). rewrite IH. replace (S (S k + j)) with (S (k + S j)) by lia. reflexivity.
Qed.

Section TABLE.
Variables expected found : list cline.
Let T := distances expected found.
Let E := List.length expected.
Let N := List.length found.

Lemma row_length f : f <= N -> List.length (nth f T []) = S E.
Proof.
  unfold T, distances. induction f as [|f IH]; intros Hf.
  - cbn [nth]. now rewrite seq_length.
  - rewrite rows_nth by (unfold N in Hf; lia). cbn [List.length]. rewrite fill_row_length; [reflexivity|]. apply IH. lia.
Qed.
Lemma entry_left e : e <= E -> entry T e 0 = e.
Proof. intros He. unfold entry, T, distances. cbn [nth]. rewrite seq_nth by (fold E; lia). reflexivity. Qed.
Lemma entry_top f : f <= N -> entry T 0 f = f.
Proof.
  intros Hf. destruct f as [|f]; [now apply entry_left; lia|]. unfold entry, T, distances. rewrite rows_nth by (fold N; lia). cbn [nth]. lia.
Qed.
Lemma entry_step e f : e < E -> f < N ->
  entry T (S e) (S f) = let m := Nat.min (entry T e (S f) + 1) (entry T (S e) f + 1) in
                        if eq_line (nth e expected []) (nth f found []) then Nat.min m (entry T e f) else m.
Proof.
  intros He Hf. unfold entry. unfold T, distances in *. rewrite rows_nth by (fold N; lia). 
  pose proof (row_length f ltac:(lia)) as L. unfold T, distances in L. fold E in L |- *.
  set (R := nth f (seq 0 (S E) :: fill_rows 0 (seq 0 (S E)) expected found) []) in *.
  change (nth (S e) (?a :: ?b) 0) with (nth e b 0) at 1. rewrite fill_row_nth; [reflexivity|exact L|]. fold E. lia.
Qed.

Lemma entry_drop e f : e < E -> f <= N -> entry T (S e) f <= entry T e f + 1.
Proof. intros He Hf. destruct f as [|f]; [rewrite !entry_left by lia; lia|]. rewrite entry_step by lia. cbv zeta. destruct (eq_line _ _); lia. Qed.
Lemma entry_add e f : e <= E -> f < N -> entry T e (S f) <= entry T e f + 1.
Proof. intros He Hf. destruct e as [|e]; [rewrite !entry_top by lia; lia|]. rewrite entry_step by lia. cbv zeta. destruct (eq_line _ _); lia. Qed.
Lemma entry_keep e f : e < E -> f < N -> nth e expected [] = nth f found [] -> entry T (S e) (S f) <= entry T e f.
Proof. intros He Hf H. rewrite entry_step by lia. cbv zeta. rewrite (proj2 (eq_line_spec _ _) H). lia. Qed.

Lemma firstn_snoc {A} (l : list A) n pre x : firstn n l = (pre ++ [x])%list -> n <= List.length l -> exists m, n = S m /\ firstn m l = pre /\ forall d, nth m l d = x.
Proof.
  intros H Hn. assert (L : n = S (List.length pre)).
  { apply (f_equal (@List.length A)) in H. rewrite firstn_length, app_length in H. cbn in H. lia. }
  exists (List.length pre). split; [assumption|]. subst n. split.
  - apply (f_equal (firstn (List.length pre))) in H. rewrite firstn_firstn, Nat.min_l in H by lia. rewrite H.
    rewrite firstn_app, Nat.sub_diag, firstn_all, firstn_O, app_nil_r. reflexivity.
  - intros d. assert (Hx : nth (List.length pre) (firstn (S (List.length pre)) l) d = x) by (rewrite H, app_nth2, Nat.sub_diag by lia; reflexivity).
    rewrite <- Hx. clear - Hn. revert l Hn. induction (List.length pre) as [|k IH]; intros [|y l] Hn; cbn in *; try lia; [reflexivity|]. apply IH. lia.
Qed.

(** No script is cheaper than the table says. *)
Lemma entry_least : forall s e f, e <= E -> f <= N -> before s = firstn e expected -> after s = firstn f found -> entry T e f <= cost s.
Proof.
  induction s as [|[m l] s IH] using rev_ind; intros e f He Hf Hb Ha.
  - assert (e = 0). { apply (f_equal (@List.length cline)) in Hb. rewrite firstn_length in Hb. cbn in Hb. fold E in Hb. lia. }
    assert (f = 0). { apply (f_equal (@List.length cline)) in Ha. rewrite firstn_length in Ha. cbn in Ha. fold N in Ha. lia. }
    subst. rewrite entry_left by lia. cbn. lia.
  - unfold before, after, cost in *. rewrite flat_map_app in Hb, Ha. rewrite filter_app, app_length. destruct m; cbn [flat_map fst snd app filter changed List.length] in *.
    + symmetry in Hb, Ha. destruct (firstn_snoc _ _ _ _ Hb He) as (e' & -> & Hb' & Ne). destruct (firstn_snoc _ _ _ _ Ha Hf) as (f' & -> & Ha' & Nf).
      specialize (IH e' f' ltac:(lia) ltac:(lia) (eq_sym Hb') (eq_sym Ha')). pose proof (entry_keep e' f' ltac:(lia) ltac:(lia)) as K.
      rewrite Ne, Nf in K. specialize (K eq_refl). lia.
    + rewrite app_nil_r in Ha. symmetry in Hb. destruct (firstn_snoc _ _ _ _ Hb He) as (e' & -> & Hb' & Ne).
      specialize (IH e' f ltac:(lia) ltac:(lia) (eq_sym Hb') Ha). pose proof (entry_drop e' f ltac:(lia) ltac:(lia)). lia.
    + rewrite app_nil_r in Hb. symmetry in Ha. destruct (firstn_snoc _ _ _ _ Ha Hf) as (f' & -> & Ha' & Nf).
      specialize (IH e f' ltac:(lia) ltac:(lia) Hb (eq_sym Ha')). pose proof (entry_add e f' ltac:(lia) ltac:(lia)). lia.
Qed.

Lemma nth_error_firstn {A} (l : list A) n d : n < List.length l -> nth_error l n = Some (nth n l d) /\ firstn (S n) l = (firstn n l ++ [nth n l d])%list.
Proof.
  revert l. induction n as [|n IH]; intros [|x l] H; cbn [List.length] in H; try lia; [split; reflexivity|].
  destruct (IH l ltac:(lia)) as [A1 A2]. cbn [nth_error nth]. split; [assumption|]. change (firstn (S (S n)) (x :: l)) with (x :: firstn (S n) l). rewrite A2. reflexivity.
Qed.

Lemma backtrack_facts : forall fuel e f, e <= E -> f <= N -> e + f < fuel -> exists d, backtrack fuel T expected found e f = Some d /\
  before (rev d) = firstn e expected /\ after (rev d) = firstn f found /\ cost (rev d) = entry T e f.
Proof.
  assert (Hcost : forall d s, cost (s ++ [d]) = cost s + if changed d then 1 else 0).
  { intros d s. unfold cost. rewrite filter_app, app_length. cbn. destruct (changed d); reflexivity. }
  assert (Hbefore : forall d s, before (s ++ [d]) = before s ++ match fst d with Add => [] | _ => [snd d] end).
  { intros d s. unfold before. rewrite flat_map_app. cbn. now rewrite app_nil_r. }
  assert (Hafter : forall d s, after (s ++ [d]) = after s ++ match fst d with Drop => [] | _ => [snd d] end).
  { intros d s. unfold after. rewrite flat_map_app. cbn. now rewrite app_nil_r. }
  induction fuel as [|fuel IH]; intros e f He Hf Hfuel; [lia|]. cbn [backtrack].
  destruct ((f =? 0) && (e =? 0)) eqn:E0.
  { apply andb_true_iff in E0 as [F0 F1]. apply Nat.eqb_eq in F0, F1. subst. exists []. split; [reflexivity|]. split; [reflexivity|]. split; [reflexivity|]. rewrite entry_left by lia. reflexivity. }
  (* what [next] is *)
  match goal with |- context [let (ne, nf) := ?x in _] => set (next := x) end.
  assert (Hnext : (0 < e /\ next = (e - 1, f) /\ entry T (e - 1) f + 1 = entry T e f) \/ (0 < f /\ next = (e, f - 1) /\ entry T e (f - 1) + 1 = entry T e f) \/
                  (0 < e /\ 0 < f /\ next = (e - 1, f - 1) /\ entry T (e - 1) (f - 1) = entry T e f /\ nth (e - 1) expected [] = nth (f - 1) found [])).
  { unfold next, check. clear next. destruct e as [|e], f as [|f]; [cbn in E0; discriminate| | |].
    - cbn [Nat.eqb negb andb]. rewrite Nat.sub_succ, Nat.sub_0_r in *. rewrite !entry_top by lia.
      replace (f + 1 =? S f) with true by (symmetry; apply Nat.eqb_eq; lia). right. left. split; [lia|]. split; [reflexivity|]. lia.
    - cbn [Nat.eqb negb andb]. rewrite Nat.sub_succ, Nat.sub_0_r in *. rewrite !entry_left by lia.
      replace (e + 1 =? S e) with true by (symmetry; apply Nat.eqb_eq; lia). left. split; [lia|]. split; [reflexivity|]. lia.
    - cbn [Nat.eqb negb andb]. rewrite !Nat.sub_succ, !Nat.sub_0_r in *. pose proof (entry_step e f ltac:(lia) ltac:(lia)) as R. cbv zeta in R.
      set (a := entry T e (S f)) in *. set (b := entry T (S e) f) in *. set (c := entry T e f) in *. set (x := entry T (S e) (S f)) in *.
      destruct (eq_line (nth e expected []) (nth f found [])) eqn:El.
      + destruct (Nat.eqb_spec (c + 0) x) as [H0|H0]; [right; right; apply eq_line_spec in El; repeat split; auto; lia|].
        destruct (Nat.eqb_spec (a + 1) x) as [H1|H1]; [left; repeat split; lia|].
        destruct (Nat.eqb_spec (b + 1) x) as [H2|H2]; [right; left; repeat split; lia|]. lia.
      + destruct (Nat.eqb_spec (a + 1) x) as [H1|H1]; [left; repeat split; lia|].
        destruct (Nat.eqb_spec (b + 1) x) as [H2|H2]; [right; left; repeat split; lia|]. lia. }
  destruct Hnext as [(H0 & -> & Hc)|[(H0 & -> & Hc)|(H0 & H0' & -> & Hc & Hl)]].
  - replace ((e - 1 =? e) && (f =? f)) with false by (symmetry; apply andb_false_intro1; apply Nat.eqb_neq; lia).
    rewrite Nat.eqb_refl. destruct (nth_error_firstn expected (e - 1) [] ltac:(fold E; lia)) as [A1 A2]. replace (S (e - 1)) with e in A2 by lia. rewrite A1. cbn [obind].
    destruct (IH (e - 1) f ltac:(lia) Hf ltac:(lia)) as (d & Ed & B1 & B2 & B3). rewrite Ed. cbn [obind]. eexists. split; [reflexivity|]. cbn [rev].
    rewrite Hbefore, Hafter, Hcost. cbn [fst snd changed]. rewrite B1, B2, A2, app_nil_r. repeat split. lia.
  - replace ((e =? e) && (f - 1 =? f)) with false by (symmetry; apply andb_false_intro2; apply Nat.eqb_neq; lia).
    replace (f - 1 =? f) with false by (symmetry; apply Nat.eqb_neq; lia). rewrite Nat.eqb_refl.
    destruct (nth_error_firstn found (f - 1) [] ltac:(fold N; lia)) as [A1 A2]. replace (S (f - 1)) with f in A2 by lia. rewrite A1. cbn [obind].
    destruct (IH e (f - 1) ltac:(lia) ltac:(lia) ltac:(lia)) as (d & Ed & B1 & B2 & B3). rewrite Ed. cbn [obind]. eexists. split; [reflexivity|]. cbn [rev].
    rewrite Hbefore, Hafter, Hcost. cbn [fst snd changed]. rewrite B1, B2, A2, app_nil_r. repeat split. lia.
  - replace ((e - 1 =? e) && (f - 1 =? f)) with false by (symmetry; apply andb_false_intro1; apply Nat.eqb_neq; lia).
    replace (f - 1 =? f) with false by (symmetry; apply Nat.eqb_neq; lia). replace (e - 1 =? e) with false by (symmetry; apply Nat.eqb_neq; lia).
    destruct (nth_error_firstn expected (e - 1) [] ltac:(fold E; lia)) as [A1 A2]. destruct (nth_error_firstn found (f - 1) [] ltac:(fold N; lia)) as [A3 A4].
    replace (S (e - 1)) with e in A2 by lia. replace (S (f - 1)) with f in A4 by lia. rewrite A1. cbn [obind].
    destruct (IH (e - 1) (f - 1) ltac:(lia) ltac:(lia) ltac:(lia)) as (d & Ed & B1 & B2 & B3). rewrite Ed. cbn [obind]. eexists. split; [reflexivity|]. cbn [rev].
    rewrite Hbefore, Hafter, Hcost. cbn [fst snd changed]. rewrite B1, B2, A2, A4, Hl. repeat split. lia.
Qed.
End TABLE.

(** The difference of two texts turns one into the other with the fewest changed lines. *)
Theorem C87_diff : forall expected found, exists d, line_diff expected found = Some d /\
  before (rev d) = expected /\ after (rev d) = found /\
  forall s, before s = expected -> after s = found -> cost (rev d) <= cost s.
Proof.
  intros expected found. unfold line_diff.
  destruct (backtrack_facts expected found (S (List.length expected + List.length found)) (List.length expected) (List.length found)) as (d & Ed & B1 & B2 & B3); try lia.
  exists d. split; [assumption|]. rewrite firstn_all in B1, B2. split; [assumption|]. split; [assumption|].
  intros s Hb Ha. rewrite B3. apply entry_least; try lia; now rewrite firstn_all.
Qed.

(** *** The excerpt *)
Definition touched (s : script) (k : nat) : Prop := exists c d, nth_error s c = Some d /\ changed d = true /\ c <= k /\ k <= c + 3.
Lemma mask_back_length : forall s n, List.length (mask_back n s) = List.length s.
Proof. induction s as [|d s IH]; intros n; cbn [mask_back List.length]; [reflexivity|]. now rewrite IH. Qed.
Lemma mask_back_nth : forall s n k, (n <= 3)%Z -> k < List.length s -> (nth k (mask_back n s) false = true <-> (Z.of_nat k <= n)%Z \/ touched s k).
Proof.
  induction s as [|d s IH]; intros n k Hn Hk; cbn [List.length] in Hk; [lia|]. cbn [mask_back].
  assert (Hcons : touched (d :: s) k <-> (changed d = true /\ k <= 3) \/ exists k', k = S k' /\ touched s k').
  { split.
    - intros ([|c] & d' & H1 & H2 & H3 & H4); [left; cbn in H1; injection H1 as <-; split; [assumption|lia]|].
      right. destruct k as [|k]; [lia|]. exists k. split; [reflexivity|]. exists c, d'. split; [assumption|]. split; [assumption|]. lia.
    - intros [[H1 H2]|(k' & -> & c & d' & H1 & H2 & H3)]; [exists 0, d|exists (S c), d']; (split; [|split; [assumption|lia]]); [reflexivity|assumption]. }
  rewrite Hcons. destruct k as [|k]; cbn [nth].
  - destruct (changed d).
    + cbn. split; auto. intros _. right. left. split; [reflexivity|lia].
    + rewrite Z.leb_le. split; [left; cbn; lia|]. intros [H|[[H _]|(k' & H & _)]]; [cbn in H; lia|discriminate|discriminate].
  - rewrite IH by (destruct (changed d); unfold context_lines; lia). destruct (changed d); unfold context_lines.
    + split.
      * intros [H|H]; [right; left; split; [reflexivity|lia]|]. right. right. now exists k.
      * intros [H|[[_ H]|(k' & [= <-] & H)]]; [left; lia|left; lia|now right].
    + split.
      * intros [H|H]; [left; lia|]. right. right. now exists k.
      * intros [H|[[H _]|(k' & [= <-] & H)]]; [left; lia|discriminate|now right].
Qed.
Lemma mask_forward_length : forall s n m, List.length m = List.length s -> List.length (mask_forward n s m) = List.length s.
Proof. induction s as [|d s IH]; intros n [|b m] H; cbn [List.length] in H; try discriminate; [reflexivity|]. cbn [mask_forward List.length]. rewrite IH; lia. Qed.
Lemma mask_forward_nth : forall s n m k, List.length m = List.length s -> nth k (mask_forward n s m) false = nth k m false || nth k (mask_back n s) false.
Proof.
  induction s as [|d s IH]; intros n [|b m] k H; cbn [List.length] in H; try discriminate; [now destruct k|]. cbn [mask_forward mask_back]. destruct k as [|k]; cbn [nth]; [reflexivity|].
  apply IH. lia.
Qed.
Lemma nth_removelast {A} (l : list A) d k : S k < List.length l -> nth k (removelast l) d = nth k l d.
Proof.
  revert k. induction l as [|x l IH]; intros k H; cbn [List.length] in H; [lia|]. destruct l as [|y l]; [cbn in H; lia|].
  change (removelast (x :: y :: l)) with (x :: removelast (y :: l)). destruct k as [|k]; [reflexivity|]. change (nth k (removelast (y :: l)) d = nth k (y :: l) d). apply IH. cbn [List.length] in *. lia.
Qed.
Lemma removelast_length {A} (l : list A) : List.length (removelast l) = List.length l - 1.
Proof. induction l as [|x [|y l] IH]; [reflexivity|reflexivity|]. change (removelast (x :: y :: l)) with (x :: removelast (y :: l)). cbn [List.length] in *. lia. Qed.
Lemma rev_combine {A C} : forall (a : list A) (b : list C), List.length a = List.length b -> rev (combine a b) = combine (rev a) (rev b).
Proof.
  induction a as [|x a IH]; intros [|y b] H; cbn [List.length] in H; try discriminate; [reflexivity|]. cbn [combine rev]. rewrite IH by lia.
  assert (L : List.length (rev a) = List.length (rev b)) by (rewrite !rev_length; lia). clear - L. revert L. generalize (rev a) (rev b). induction l as [|u l IH]; intros [|v m] L; cbn [List.length] in L; try discriminate; [reflexivity|].
  cbn [combine app]. f_equal. apply IH. lia.
Qed.
Lemma print_excerpt : forall l b, excerpt b l (print_from b l).
Proof. induction l as [|[d [|]] l IH]; intros b; cbn [print_from]; [constructor|constructor; apply IH|]. destruct b; constructor; apply IH. Qed.

(** What is printed, unless the number of lines is a positive multiple of 64: the changed lines with the lines around them *)
Theorem C87_context_partial : forall d, (List.length d = 0 \/ List.length d mod 64 <> 0) ->
  exists mask out, create_context d = Value out /\ excerpt false (combine (rev d) mask) out /\ List.length mask = List.length d /\
    forall p, p < List.length d -> (nth p mask false = true <-> near (rev d) p).
Proof.
  intros d Hd. unfold create_context. replace ((0 <? List.length d) && (List.length d mod 64 =? 0)) with false.
  2: { symmetry. apply andb_false_iff. destruct Hd as [H|H]; [left; rewrite H; reflexivity|right; now apply Nat.eqb_neq]. }
  cbv zeta. set (back := rev (mask_back (-1) (rev d))). set (mask := mask_forward (-1) d (false :: removelast back)).
  assert (Lb : List.length back = List.length d) by (unfold back; now rewrite rev_length, mask_back_length, rev_length).
  destruct (Nat.eq_dec (List.length d) 0) as [E0|E0].
  { exists [], []. apply length_zero_iff_nil in E0. subst mask back. rewrite E0. split; [reflexivity|]. split; [constructor|]. split; [reflexivity|]. cbn. intros. lia. }
  assert (Lm : List.length (false :: removelast back) = List.length d) by (cbn [List.length]; rewrite removelast_length; lia).
  assert (LM : List.length mask = List.length d) by (unfold mask; now apply mask_forward_length).
  exists (rev mask), (print_from false (rev (combine d mask))). split; [reflexivity|]. split; [rewrite rev_combine by lia; apply print_excerpt|]. split; [now rewrite rev_length|].
  intros p Hp. rewrite rev_nth by lia. rewrite LM. unfold mask. rewrite mask_forward_nth by assumption. rewrite orb_true_iff, mask_back_nth by lia.
  assert (Hrev : forall c x, nth_error (rev d) c = Some x <-> c < List.length d /\ nth_error d (List.length d - S c) = Some x).
  { intros c x. destruct (Nat.lt_ge_cases c (List.length d)) as [Hc|Hc].
    - rewrite (nth_error_nth' (rev d) x) by (rewrite rev_length; lia). rewrite rev_nth by lia. rewrite (nth_error_nth' d x) by lia. tauto.
    - split; [|lia]. intros H. assert (Hn : nth_error (rev d) c <> None) by congruence. apply nth_error_Some in Hn. rewrite rev_length in Hn. lia. }
  assert (Hback : nth (List.length d - S p) (false :: removelast back) false = true <-> S p < List.length d /\ exists c x, nth_error (rev d) c = Some x /\ changed x = true /\ c <= p + 1 /\ p <= c + 2).
  { destruct (List.length d - S p) as [|k] eqn:Ek.
    - cbn [nth]. split; [discriminate|]. intros [H _]. lia.
    - change (nth (S k) (false :: ?l) false) with (nth k l false). rewrite nth_removelast by lia. unfold back.
      rewrite rev_nth by (rewrite mask_back_length, rev_length; lia). rewrite mask_back_length, rev_length. replace (List.length d - S k) with (S p) by lia.
      rewrite mask_back_nth by (rewrite ?rev_length; lia). split.
      + intros [H|(c & x & H1 & H2 & H3 & H4)]; [lia|]. split; [lia|]. exists c, x. repeat split; auto; lia.
      + intros [H (c & x & H1 & H2 & H3 & H4)]. right. exists c, x. repeat split; auto; lia. }
  rewrite Hback. split.
  - intros [[H (c & x & H1 & H2 & H3 & H4)]|[H|(c & x & H1 & H2 & H3 & H4)]]; [|lia|].
    + exists c, x. split; [assumption|]. split; [assumption|]. right. rewrite rev_length. lia.
    + assert (Hc : c < List.length d) by (apply nth_error_Some; congruence).
      exists (List.length d - S c), x. split; [apply Hrev; split; [lia|]; now replace (List.length d - S (List.length d - S c)) with c by lia|].
      split; [assumption|]. destruct (Nat.eq_dec p (List.length d - S c)); [now left|]. right. rewrite rev_length. lia.
  - intros (c & x & H1 & H2 & H3). rewrite rev_length in H3. pose proof (proj1 (Hrev c x) H1) as [Hc H1'].
    destruct (Nat.le_gt_cases p c) as [Hpc|Hpc].
    + right. right. exists (List.length d - S c), x. split; [assumption|]. split; [assumption|]. lia.
    + left. split; [lia|]. exists c, x. split; [assumption|]. split; [assumption|]. lia.
Qed.

Lemma lines_end : forall mem line inside, ~ In 0%Z mem -> lines_from mem line inside = None.
Proof.
  induction mem as [|c mem IH]; intros line inside H; [reflexivity|]. cbn [lines_from]. assert (c <> 0%Z /\ ~ In 0%Z mem) as [H0 Hm] by (split; intros X; apply H; [left; congruence|now right]).
  replace (c =? 0)%Z with false by lia. destruct (c =? 10)%Z; [now rewrite IH by assumption|]. now apply IH.
Qed.

(** The description of a mismatch: a shortest way from the expected to the found schema, its changed lines with the lines around them *)
Theorem C87_description_partial : forall e f expected found rest rest', text_of e expected -> text_of f found ->
  exists s, before s = e /\ after s = f /\ (forall t, before t = e -> after t = f -> cost s <= cost t) /\
    ((List.length s = 0 \/ List.length s mod 64 <> 0) ->
     exists mask out, compute_diff (expected ++ 0%Z :: rest) (Some (found ++ 0%Z :: rest')%list) = Value out /\
       excerpt false (combine s mask) out /\ List.length mask = List.length s /\ forall p, p < List.length s -> (nth p mask false = true <-> near s p)) /\
    (0 < List.length s -> List.length s mod 64 = 0 -> compute_diff (expected ++ 0%Z :: rest) (Some (found ++ 0%Z :: rest')%list) = Undefined).
Proof.
  intros e f expected found rest rest' He Hf. destruct (C87_diff e f) as (d & Ed & Hb & Ha & Hmin). exists (rev d). split; [assumption|]. split; [assumption|]. split; [assumption|].
  unfold compute_diff. rewrite (C87_lines _ _ _ He), (C87_lines _ _ _ Hf), Ed. rewrite rev_length. split.
  - intros Hd. destruct (C87_context_partial d Hd) as (mask & out & H1 & H2 & H3 & H4). now exists mask, out.
  - intros H0 H64. unfold create_context. replace ((0 <? List.length d) && (List.length d mod 64 =? 0)) with true; [reflexivity|].
    symmetry. apply andb_true_iff. split; [now apply Nat.ltb_lt|now apply Nat.eqb_eq].
Qed.

Lemma excerpt_none : forall l b out, excerpt b l out -> (forall x, In x l -> snd x = false) -> b = false -> out = [].
Proof.
  induction 1; intros Hl Hb; [reflexivity| |discriminate|].
  - specialize (Hl (d, true) (or_introl eq_refl)). discriminate.
  - apply IHexcerpt; [|reflexivity]. intros x Hx. apply Hl. now right.
Qed.
Lemma cost_keep : forall s, cost s = 0 -> before s = after s /\ List.length s = List.length (before s) /\ forall d, In d s -> changed d = false.
Proof.
  induction s as [|[m l] s IH]; intros H; [repeat split; intros ? []|]. destruct m; cbn in H; try discriminate. destruct (IH H) as (H1 & H2 & H3).
  split; [cbn; f_equal; exact H1|]. split; [cbn; f_equal; exact H2|]. intros d [<-|Hd]; [reflexivity|now apply H3].
Qed.
(** Nothing is printed when the schema was not found at all, or when it is the expected one; a schema without an end is read past. *)
Theorem C87_nothing : (forall expected, compute_diff expected None = Value []) /\
  (forall e expected rest rest', text_of e expected -> (List.length e = 0 \/ List.length e mod 64 <> 0) ->
     compute_diff (expected ++ 0%Z :: rest) (Some (expected ++ 0%Z :: rest')%list) = Value []) /\
  (forall expected found, ~ In 0%Z found -> compute_diff expected (Some found) = Undefined).
Proof.
  split; [reflexivity|]. split.
  - intros e expected rest rest' He Hlen. destruct (C87_description_partial e e expected expected rest rest' He He) as (s & Hb & Ha & Hmin & Hout & _).
    pose (t := map (fun l : cline => (Keep, l)) e). assert (Ht : before t = e /\ after t = e /\ cost t = 0).
    { unfold t. clear. induction e as [|l e (H1 & H2 & H3)]; [repeat split|]. split; [cbn; f_equal; exact H1|]. split; [cbn; f_equal; exact H2|exact H3]. }
    destruct Ht as (T1 & T2 & T3). specialize (Hmin t T1 T2). destruct (cost_keep s ltac:(lia)) as (_ & L & Hk). rewrite Hb in L. rewrite <- L in Hlen.
    destruct (Hout Hlen) as (mask & out & Eo & Hx & Lm & Hm). rewrite Eo. f_equal. apply (excerpt_none _ _ _ Hx); [|reflexivity]. intros x Hi.
    apply In_nth_error in Hi as (p & Hp). assert (Lp : p < List.length s).
    { assert (nth_error (combine s mask) p <> None) by congruence. apply nth_error_Some in H. rewrite combine_length in H. lia. }
    destruct x as [y b]. destruct b; [|reflexivity]. exfalso.
    assert (Hb' : nth p mask false = true).
    { pose proof (combine_nth s mask p (Keep, []) false ltac:(lia)) as N. rewrite (nth_error_nth _ _ _ Hp) in N. injection N as _ N. congruence. }
    apply Hm in Hb' as (c & d & Hc & Hd & _); [|assumption]. rewrite (Hk d) in Hd; [discriminate|]. now apply nth_error_In in Hc.
  - intros expected found H. unfold compute_diff, to_lines. rewrite (lines_end found) by assumption. now destruct (lines_from expected [] false).
Qed.

(** Two schemas of 63 and 64 lines: the description writes behind the end of a vector. *)
Theorem C87_refuted : exists e f expected found, text_of e expected /\ text_of f found /\ List.length e = 63 /\ List.length f = 64 /\
  compute_diff (expected ++ [0%Z]) (Some (found ++ [0%Z])%list) = Undefined.
Proof.
  assert (Ht : forall n, text_of (repeat [120%Z] n) (concat (repeat [120%Z; 10%Z] n))).
  { induction n as [|n IH]; [constructor|]. cbn [repeat concat]. change (text_of ([120%Z] :: repeat [120%Z] n) ([120%Z] ++ 10%Z :: concat (repeat [120%Z; 10%Z] n))).
    constructor; [|assumption]. constructor; [lia|constructor]. }
  exists (repeat [120%Z] 63), (repeat [120%Z] 64), (concat (repeat [120%Z; 10%Z] 63)), (concat (repeat [120%Z; 10%Z] 64)).
  split; [apply Ht|]. split; [apply Ht|]. split; [apply repeat_length|]. split; [apply repeat_length|]. vm_compute. reflexivity.
Qed.

(** Eight lines, the second one replaced *)
Example C87_instance :
  let a := [97%Z] in let b := [98%Z] in let c := [99%Z] in let d := [100%Z] in
  compute_diff [97; 10; 98; 10; 99; 10; 100; 10; 101; 10; 102; 10; 103; 10; 97; 10; 0]%Z
    (Some [97; 10; 120; 10; 99; 10; 100; 10; 101; 10; 102; 10; 103; 10; 97; 10; 0]%Z) =
  Value (concat (map shown [(Keep, a); (Add, [120%Z]); (Drop, b); (Keep, c); (Keep, d)]) ++ [46; 46; 46; 10]%Z).
Proof. vm_compute. reflexivity. Qed.
Print Assumptions C87_description_partial.
Print Assumptions C87_nothing.
