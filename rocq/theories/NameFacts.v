(** Facts about names. *)
From Coq Require Import List ZArith Bool String Ascii Lia Permutation.
From Verif Require GenTreeFacts.
From Verif Require Import PyBase PyText GenTree GenNames NameSpec.
Import ListNotations.
Local Open Scope string_scope.

(** ** Characters *)
Lemma all_chars (p : ascii -> bool) : forallb (fun n => p (ascii_of_nat n)) (seq 0 256) = true -> forall c, p c = true.
Proof.
  intros H c. rewrite forallb_forall in H. specialize (H (nat_of_ascii c)). rewrite ascii_nat_embedding in H. apply H. apply in_seq. pose proof (nat_ascii_bounded c). lia.
Qed.
Lemma small_lower c : small (lower_char c) = small c.
Proof. apply Ascii.eqb_eq. revert c. apply all_chars. vm_compute. reflexivity. Qed.
Lemma small_upper c : small (upper_char c) = small c.
Proof. apply Ascii.eqb_eq. revert c. apply all_chars. vm_compute. reflexivity. Qed.
Lemma under_lower c : Ascii.eqb (lower_char c) "_" = Ascii.eqb c "_".
Proof. apply eqb_prop. revert c. apply all_chars. vm_compute. reflexivity. Qed.
Lemma under_upper c : Ascii.eqb (upper_char c) "_" = Ascii.eqb c "_".
Proof. apply eqb_prop. revert c. apply all_chars. vm_compute. reflexivity. Qed.
Definition ok_char (c : ascii) : bool := letter c || digit c || Ascii.eqb c "_".
Lemma ok_lower c : ok_char (lower_char c) = ok_char c.
Proof. apply eqb_prop. revert c. apply all_chars. vm_compute. reflexivity. Qed.
Lemma ok_upper c : ok_char (upper_char c) = ok_char c.
Proof. apply eqb_prop. revert c. apply all_chars. vm_compute. reflexivity. Qed.
Lemma digit_lower c : digit (lower_char c) = digit c.
Proof. apply eqb_prop. revert c. apply all_chars. vm_compute. reflexivity. Qed.
Lemma digit_upper c : digit (upper_char c) = digit c.
Proof. apply eqb_prop. revert c. apply all_chars. vm_compute. reflexivity. Qed.
Lemma letter_under c : letter c = true -> Ascii.eqb c "_" = false.
Proof. intros H. pose proof (all_chars (fun c => negb (letter c) || negb (Ascii.eqb c "_"))) as X. specialize (X ltac:(vm_compute; reflexivity) c). cbn beta in X. rewrite H in X. now destruct (Ascii.eqb c "_"). Qed.
Lemma letter_digit c : letter c = true -> digit c = false.
Proof. intros H. pose proof (all_chars (fun c => negb (letter c) || negb (digit c))) as X. specialize (X ltac:(vm_compute; reflexivity) c). cbn beta in X. rewrite H in X. now destruct (digit c). Qed.
Lemma upper_letter c : letter c = true -> is_upper (upper_char c) = true.
Proof. intros H. pose proof (all_chars (fun c => negb (letter c) || is_upper (upper_char c))) as X. specialize (X ltac:(vm_compute; reflexivity) c). cbn beta in X. now rewrite H in X. Qed.
Lemma upper_not_lower c : is_lower (upper_char c) = false.
Proof. apply negb_true_iff. revert c. apply (all_chars (fun c => negb (is_lower (upper_char c)))). vm_compute. reflexivity. Qed.

(** ** Flat names *)
Lemma flat_app a b : flat (a ++ b) = flat a ++ flat b.
Proof. induction a as [|c a IH]; cbn; [reflexivity|]. destruct (Ascii.eqb c "_"); cbn; now rewrite IH. Qed.
Lemma flat_lower s : flat (lower s) = flat s.
Proof. induction s as [|c s IH]; [reflexivity|]. cbn [lower flat]. now rewrite under_lower, small_lower, IH. Qed.
Lemma flat_upper s : flat (upper s) = flat s.
Proof. induction s as [|c s IH]; [reflexivity|]. cbn [upper flat]. now rewrite under_upper, small_upper, IH. Qed.
Lemma flat_title s : forall b, flat (title b s) = flat s.
Proof. induction s as [|c s IH]; intros b; [reflexivity|]. cbn [title flat]. destruct b; [rewrite under_lower, small_lower|rewrite under_upper, small_upper]; now rewrite IH. Qed.
Lemma concat_cons x l : String.concat "" (x :: l) = x ++ String.concat "" l.
Proof. destruct l; cbn; [|reflexivity]. symmetry. induction x as [|c x IH]; cbn; [reflexivity|now rewrite IH]. Qed.
Lemma flat_cut s : flat s = join "" (map flat (split_on "_" s)).
Proof.
  unfold join. induction s as [|c s IH]; [reflexivity|]. cbn [flat split_on]. destruct (Ascii.eqb c "_") eqn:C.
  - cbn [map flat]. now rewrite concat_cons, IH.
  - destruct (split_on "_" s) as [|w ws] eqn:E; [now destruct (GenTreeFacts.split_nonempty _ _ E)|]. cbn [map flat] in *. rewrite C, IH, !concat_cons. reflexivity.
Qed.
Lemma flat_concat l : flat (String.concat "" l) = String.concat "" (map flat l).
Proof. induction l as [|x l IH]; [reflexivity|]. cbn [map]. now rewrite !concat_cons, flat_app, IH. Qed.
Lemma flat_camel s : flat (camel s) = flat s.
Proof. unfold camel, join. rewrite flat_concat, map_map, flat_cut. unfold join. f_equal. apply map_ext. intros a. apply flat_title. Qed.
Lemma flat_underscores s : forall p, flat (underscores p s) = flat s.
Proof.
  induction s as [|c s IH]; intros p; [reflexivity|]. cbn [underscores].
  assert (F : flat (if word_starts s then String c (String "_" (underscores Capital s)) else String c (underscores Free s)) = flat (String c s)).
  { destruct (word_starts s); cbn [flat]; cbn [Ascii.eqb Bool.eqb]; rewrite ?IH; reflexivity. }
  destruct p; [exact F|cbn [flat]; now rewrite IH|]. destruct (is_lower c); [cbn [flat]; now rewrite IH|exact F].
Qed.
Lemma flat_snake s : flat (snake s) = flat s.
Proof. unfold snake. now rewrite flat_lower, flat_underscores. Qed.
Lemma flat_distinct f (l : list string) : (forall s, flat (f s) = flat s) -> apart l -> NoDup (map f l).
Proof. intros F A. apply (NoDup_map_inv flat). rewrite map_map. erewrite map_ext; [exact A|]. exact F. Qed.
Lemma apart_distinct l : apart l -> NoDup l.
Proof. apply NoDup_map_inv. Qed.

(** ** Identifiers *)
Lemma every_app p a b : every p (a ++ b) = every p a && every p b.
Proof. induction a as [|c a IH]; cbn; [reflexivity|]. now rewrite IH, andb_assoc. Qed.
Lemma every_concat p l : every p (String.concat "" l) = forallb (every p) l.
Proof. induction l as [|x l IH]; [reflexivity|]. cbn [forallb]. now rewrite concat_cons, every_app, IH. Qed.
Lemma every_cut s : every ok_char s = true -> forallb (every ok_char) (split_on "_" s) = true.
Proof.
  induction s as [|c s IH]; [reflexivity|]. cbn [every split_on]. intros H. apply andb_true_iff in H as (A & B). specialize (IH B). destruct (Ascii.eqb c "_"); [exact IH|].
  destruct (split_on "_" s) as [|w ws]; cbn [forallb every] in *; [now rewrite A|]. now rewrite A.
Qed.
Lemma every_title s : forall b, every ok_char (title b s) = every ok_char s.
Proof. induction s as [|c s IH]; intros b; [reflexivity|]. cbn [title every]. destruct b; [rewrite ok_lower|rewrite ok_upper]; now rewrite IH. Qed.
Lemma every_lower s : every ok_char (lower s) = every ok_char s.
Proof. induction s as [|c s IH]; [reflexivity|]. cbn [lower every]. now rewrite ok_lower, IH. Qed.
Lemma every_upper s : every ok_char (upper s) = every ok_char s.
Proof. induction s as [|c s IH]; [reflexivity|]. cbn [upper every]. now rewrite ok_upper, IH. Qed.
Lemma every_underscores s : forall p, every ok_char (underscores p s) = every ok_char s.
Proof.
  induction s as [|c s IH]; intros p; [reflexivity|]. cbn [underscores].
  assert (F : every ok_char (if word_starts s then String c (String "_" (underscores Capital s)) else String c (underscores Free s)) = every ok_char (String c s)).
  { destruct (word_starts s); cbn [every]; rewrite ?IH; reflexivity. }
  destruct p; [exact F|cbn [every]; now rewrite IH|]. destruct (is_lower c); [cbn [every]; now rewrite IH|exact F].
Qed.
Lemma every_camel s : every ok_char s = true -> every ok_char (camel s) = true.
Proof.
  intros H. unfold camel, join. rewrite every_concat. apply forallb_forall. intros x Hx. apply in_map_iff in Hx as (w & <- & Hw). rewrite every_title.
  pose proof (every_cut s H) as X. rewrite forallb_forall in X. now apply X.
Qed.
(** A camel name starts with a capital *)
Lemma camel_first s : plain s -> exists c t, camel s = String c t /\ is_upper c = true.
Proof.
  destruct s as [|c s]; [intros []|]. cbn [plain]. intros L. unfold camel, join. cbn [split_on]. rewrite (letter_under c L).
  destruct (split_on "_" s) as [|w ws]; cbn [map title]; rewrite concat_cons; cbn [append]; eexists; eexists; (split; [reflexivity|now apply upper_letter]).
Qed.
Lemma upper_digit c : is_upper c = true -> digit c = false.
Proof. intros H. pose proof (all_chars (fun c => negb (is_upper c) || negb (digit c))) as X. specialize (X ltac:(vm_compute; reflexivity) c). cbn beta in X. rewrite H in X. now destruct (digit c). Qed.
Lemma camel_identifier s : identifier s -> plain s -> identifier (camel s).
Proof.
  intros (_ & E) P. destruct (camel_first s P) as (c & t & Ec & U). pose proof (every_camel s E) as X. rewrite Ec in *. split; [now apply upper_digit|exact X].
Qed.
Lemma upper_identifier s : identifier s -> identifier (upper s).
Proof. intros (A & B). split; [destruct s as [|c s]; [exact A|]; cbn [upper]; now rewrite digit_upper|]. change (every ok_char (upper s) = true). now rewrite every_upper. Qed.
Lemma lower_identifier s : identifier s -> identifier (lower s).
Proof. intros (A & B). split; [destruct s as [|c s]; [exact A|]; cbn [lower]; now rewrite digit_lower|]. change (every ok_char (lower s) = true). now rewrite every_lower. Qed.
Lemma underscores_identifier p s : identifier s -> identifier (underscores p s).
Proof.
  intros (A & B). split; [|change (every ok_char (underscores p s) = true); now rewrite every_underscores].
  destruct s as [|c s]; [exact A|]. cbn [underscores]. destruct p; [destruct (word_starts s)| |destruct (is_lower c); [|destruct (word_starts s)]]; exact A.
Qed.
Lemma snake_identifier s : identifier s -> identifier (snake s).
Proof. intros H. unfold snake. now apply lower_identifier, underscores_identifier. Qed.
Lemma append_identifier a b : identifier a -> every ok_char b = true -> identifier (a ++ b).
Proof. intros (A & B) E. split; [destruct a; [destruct A|exact A]|]. change (every ok_char (a ++ b) = true). rewrite every_app, E. now rewrite andb_true_r. Qed.
Lemma prefix_identifier a b : identifier a -> identifier b -> identifier (a ++ b).
Proof. intros A (_ & B). now apply append_identifier. Qed.
