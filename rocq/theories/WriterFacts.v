(** Proofs about the archive-name heuristics. *)
From Coq Require Import List ZArith Bool String Ascii Lia.
From Verif Require Import PyBase DataAccess Structure Resources Builder Archive Writer TarFacts.
Import ListNotations.
Local Open Scope string_scope.
Local Open Scope Z_scope.

(** [p] occurs in [s] at position [i]. *)
Definition occurs_at (p s : string) (i : nat) : Prop := exists a b, s = a ++ p ++ b /\ String.length a = i.

Lemma find_spec p : forall s, (py_find p s = -1 /\ forall i, ~ occurs_at p s i) \/
  (exists i, py_find p s = Z.of_nat i /\ occurs_at p s i /\ forall j, (j < i)%nat -> ~ occurs_at p s j).
Proof.
  induction s as [|c t IH]; cbn [py_find]; destruct (starts_with p _) eqn:E.
  - right. exists 0%nat. split; [reflexivity|]. split; [|lia]. apply prefix_inv in E. destruct E as (m & E). exists "", m. auto.
  - left. split; [reflexivity|]. intros i (a & b & H & _). destruct a; [|discriminate]. cbn [append] in H.
    rewrite H, prefix_app in E. discriminate.
  - right. exists 0%nat. split; [reflexivity|]. split; [|lia]. apply prefix_inv in E. destruct E as (m & E). exists "", m. auto.
  - assert (N0 : ~ occurs_at p (String c t) 0).
    { intros (a & b & H & L). destruct a; [|discriminate]. cbn [append] in H. rewrite H, prefix_app in E. discriminate. }
    assert (S : forall i, occurs_at p (String c t) (S i) <-> occurs_at p t i).
    { intros i. split.
      - intros (a & b & H & L). destruct a as [|d a]; [discriminate|]. cbn [append] in H. inversion H; subst d t.
        exists a, b. split; [reflexivity|]. cbn in L. lia.
      - intros (a & b & -> & L). exists (String c a), b. split; [reflexivity|]. cbn. lia. }
    destruct IH as [[-> H]|(i & -> & H & Hm)].
    + left. split; [reflexivity|]. intros [|i]; [assumption|]. rewrite S. apply H.
    + right. exists (Datatypes.S i). split; [destruct (Z.ltb_spec (Z.of_nat i) 0); lia|]. split; [now apply S|].
      intros [|j] Hj; [assumption|]. rewrite S. apply Hm. lia.
Qed.

Lemma drop_split s a p b : s = a ++ p ++ b -> drop (String.length a + String.length p) s = b.
Proof. intros ->. rewrite <- app_assoc_s, <- length_app_s. apply drop_app. Qed.
Lemma occurs_le p s i : occurs_at p s i -> (i + String.length p <= String.length s)%nat.
Proof. intros (a & b & -> & <-). rewrite !length_app_s. lia. Qed.
Lemma split_len a b x y : a ++ x = b ++ y -> String.length a = String.length b -> a = b /\ x = y.
Proof.
  revert b. induction a as [|c a IH]; intros [|d b] H L; try discriminate; [auto|]. cbn [append] in H. inversion H; subst.
  destruct (IH b) as [-> ->]; auto.
Qed.

Lemma split_le a b x y : a ++ x = b ++ y -> (String.length a <= String.length b)%nat -> exists m, b = a ++ m /\ x = m ++ y.
Proof.
  revert b. induction a as [|c a IH]; intros b H L; [exists b; auto|]. destruct b as [|d b]; [cbn in L; lia|].
  cbn [append] in H. inversion H; subst. destruct (IH b) as (m & -> & ->); [assumption|cbn in L; lia|]. exists m. auto.
Qed.

(** "archive" cannot overlap itself. *)
Lemma no_overlap s i j : occurs_at "archive" s i -> occurs_at "archive" s j -> (i < j)%nat -> (i + 7 <= j)%nat.
Proof.
  intros (a & b & E1 & L1) (c & d & E2 & L2) Hlt. subst s.
  destruct (split_le a c _ _ E2) as (m & -> & E3); [lia|]. rewrite length_app_s in L2.
  destruct m as [|m0 m]; [cbn in L2; lia|]. cbn [append] in E3.
  do 6 (destruct m as [|? m]; [cbn [append] in E3; inversion E3; subst; discriminate|cbn [append] in E3]).
  cbn [String.length] in L2. lia.
Qed.

Lemma name_several s i j : occurs_at "archive" s i -> occurs_at "archive" s j -> i <> j -> get_archive_name s = Err RuntimeError.
Proof.
  intros Hi Hj Hne. unfold get_archive_name. destruct (String.eqb s "") eqn:Es.
  { reflexivity. }
  destruct (find_spec "archive" s) as [[_ H]|(k & -> & Hk & Hmin)]; [now apply H in Hi|].
  assert (Hx : exists x, occurs_at "archive" s x /\ (k < x)%nat).
  { assert (~ (i < k)%nat) by (intros X; now apply (Hmin i X)). assert (~ (j < k)%nat) by (intros X; now apply (Hmin j X)).
    destruct (Nat.eq_dec i k); [exists j|exists i]; split; auto; lia. }
  destruct Hx as (x & Hx & Hlt). pose proof (no_overlap s k x Hk Hx Hlt) as Hov.
  destruct Hk as (a & b & E1 & L1). destruct Hx as (c & d & E2 & L2).
  assert (D : drop (Z.to_nat (Z.of_nat k + 7)) s = b).
  { replace (Z.to_nat (Z.of_nat k + 7)) with (String.length a + String.length "archive")%nat by (cbn [String.length]; lia).
    now apply drop_split. }
  rewrite D. assert (Hb : exists m, occurs_at "archive" b m).
  { rewrite E1 in E2. rewrite <- app_assoc_s in E2.
    destruct (split_le (a ++ "archive") c _ _ E2) as (m & -> & ->); [rewrite length_app_s; cbn [String.length]; lia|].
    exists (String.length m). exists m, d. auto. }
  destruct Hb as (m & Hm). destruct (find_spec "archive" b) as [[_ H]|(y & -> & _)]; [now apply H in Hm|].
  destruct (Z.leb_spec 0 (Z.of_nat y)); [reflexivity|lia].
Qed.

Definition all_space (s : string) : Prop := Forall (fun c => is_space c = true) (list_ascii_of_string s).
(** Begins and ends with characters that are not white space. *)
Definition trimmed (s : string) : Prop :=
  match s with "" => False | String c t => is_space c = false end /\
  exists u c, s = u ++ String c "" /\ is_space c = false.

Lemma lstrip_space w s : all_space w -> lstrip (w ++ s) = lstrip s.
Proof.
  induction w as [|c w IH]; intros H; [reflexivity|]. inversion H as [|? ? H1 H2]; subst. cbn [append lstrip]. rewrite H1. now apply IH.
Qed.
Lemma rstrip_space w : all_space w -> rstrip w = "".
Proof.
  induction w as [|c w IH]; intros H; [reflexivity|]. inversion H as [|? ? H1 H2]; subst. cbn [rstrip]. rewrite IH by assumption. now rewrite H1.
Qed.
Lemma rstrip_keep u c w : is_space c = false -> all_space w -> rstrip (u ++ String c w) = u ++ String c "".
Proof.
  intros Hc Hw. induction u as [|d u IH]; cbn [append rstrip].
  - rewrite rstrip_space by assumption. now rewrite Hc.
  - rewrite IH. destruct u; reflexivity.
Qed.
Lemma strip_trimmed w1 n w2 : all_space w1 -> all_space w2 -> trimmed n -> strip (w1 ++ n ++ w2) = n.
Proof.
  intros H1 H2 [T1 (u & c & E & Hc)]. unfold strip. rewrite lstrip_space by assumption.
  destruct n as [|d n]; [destruct T1|]. cbn [append lstrip]. rewrite T1. change (String d (n ++ w2)) with ((String d n) ++ w2).
  rewrite E, app_assoc_s. cbn [append]. now apply rstrip_keep.
Qed.

Lemma substring_mid a : forall b c, String.substring (String.length a) (String.length b) (a ++ b ++ c) = b.
Proof.
  induction a as [|x a IH]; intros b c; cbn [String.length append]; [|apply IH].
  induction b as [|y b IHb]; cbn [String.length append].
  - destruct c; reflexivity.
  - cbn [substring]. now rewrite IHb.
Qed.

Lemma name_single pre w1 n w2 post : let s := pre ++ "archive" ++ w1 ++ n ++ w2 ++ "{" ++ post in
  (forall i, occurs_at "archive" s i -> i = String.length pre) ->
  all_space w1 -> all_space w2 -> trimmed n -> (forall i, ~ occurs_at "{" (w1 ++ n ++ w2) i) ->
  get_archive_name s = Ok n.
Proof.
  intros s Huniq H1 H2 Ht Hb. unfold get_archive_name.
  assert (Es : String.eqb s "" = false) by (unfold s; destruct pre; reflexivity). rewrite Es.
  assert (O : occurs_at "archive" s (String.length pre)) by (exists pre, (w1 ++ n ++ w2 ++ "{" ++ post); auto).
  destruct (find_spec "archive" s) as [[_ H]|(k & -> & Hk & Hmin)]; [now apply H in O|]. apply Huniq in Hk as Ek. subst k.
  set (rest := drop _ s).
  assert (D : rest = w1 ++ n ++ w2 ++ "{" ++ post).
  { unfold rest. replace (Z.to_nat (Z.of_nat (String.length pre) + 7)) with (String.length pre + String.length "archive")%nat by (cbn [String.length]; lia).
    now apply drop_split. }
  assert (N : forall i, ~ occurs_at "archive" rest i).
  { intros i (a & b & E & L). rewrite E in D. assert (X : occurs_at "archive" s (String.length (pre ++ "archive" ++ a))).
    { exists (pre ++ "archive" ++ a), b. split; [|reflexivity]. unfold s. rewrite <- D. now rewrite !app_assoc_s. }
    apply Huniq in X. rewrite !length_app_s in X. cbn [String.length] in X. lia. }
  destruct (find_spec "archive" rest) as [[-> _]|(y & _ & Hy & _)]; [|now apply N in Hy]. cbn [Z.leb Z.compare].
  f_equal. assert (F : py_find "{" rest = Z.of_nat (String.length (w1 ++ n ++ w2))).
  { destruct (find_spec "{" rest) as [[_ H]|(y & -> & Hy & Hm)].
    - exfalso. apply (H (String.length (w1 ++ n ++ w2))). exists (w1 ++ n ++ w2), post. split; [|reflexivity]. rewrite D. now rewrite !app_assoc_s.
    - f_equal. assert (~ (String.length (w1 ++ n ++ w2) < y)%nat).
      { intros X. apply (Hm _ X). exists (w1 ++ n ++ w2), post. split; [|reflexivity]. rewrite D. now rewrite !app_assoc_s. }
      destruct (Nat.eq_dec y (String.length (w1 ++ n ++ w2))); [assumption|exfalso].
      destruct Hy as (a & b & E & L). rewrite D in E. replace (w1 ++ n ++ w2 ++ "{" ++ post) with ((w1 ++ n ++ w2) ++ "{" ++ post) in E by now rewrite !app_assoc_s.
      symmetry in E. destruct (split_le a _ _ _ E) as (m & E2 & E3); [lia|].
      destruct m as [|mc m].
      + rewrite app_nil_s in E2. rewrite E2 in n0. lia.
      + cbn [append] in E3. inversion E3; subst mc. apply (Hb (String.length a)). exists a, m. split; [|reflexivity]. rewrite E2. reflexivity. }
  rewrite F. unfold py_substr.
  replace (Z.to_nat (Z.of_nat (String.length pre) + 7)) with (String.length (pre ++ "archive")) by (rewrite length_app_s; cbn [String.length]; lia).
  replace (Z.to_nat (Z.of_nat (String.length pre) + 7 + Z.of_nat (String.length (w1 ++ n ++ w2)) - (Z.of_nat (String.length pre) + 7)))
    with (String.length (w1 ++ n ++ w2)) by lia.
  unfold s. replace (pre ++ "archive" ++ w1 ++ n ++ w2 ++ "{" ++ post) with ((pre ++ "archive") ++ (w1 ++ n ++ w2) ++ "{" ++ post)
    by now rewrite !app_assoc_s.
  rewrite substring_mid. now apply strip_trimmed.
Qed.
