(** UTF-8, as defined by RFC 3629, and its relation to the model of [bytes.decode('utf-8')] ([Resources.utf8_valid]). *)
From Coq Require Import List ZArith Bool Lia.
From Verif Require Import PyBase Resources.
Import ListNotations.
Local Open Scope Z_scope.

(** Unicode scalar values: code points that are not surrogates *)
Definition scalar (c : Z) : Prop := 0 <= c < 0xD800 \/ 0xDFFF < c <= 0x10FFFF.
(** RFC 3629 section 3 *)
Definition utf8 (c : Z) : list Z :=
  if c <=? 0x7F then [c]
  else if c <=? 0x7FF then [0xC0 + c / 64; 0x80 + c mod 64]
  else if c <=? 0xFFFF then [0xE0 + c / 4096; 0x80 + c / 64 mod 64; 0x80 + c mod 64]
  else [0xF0 + c / 262144; 0x80 + c / 4096 mod 64; 0x80 + c / 64 mod 64; 0x80 + c mod 64].
Definition utf8_text (cs : list Z) : list Z := flat_map utf8 cs.

Ltac bools := repeat match goal with
  | H : andb _ _ = true |- _ => apply andb_true_iff in H as [? ?]
  | H : (_ <=? _) = true |- _ => apply Z.leb_le in H
  | H : (_ <=? _) = false |- _ => apply Z.leb_gt in H
  | H : (_ <? _) = true |- _ => apply Z.ltb_lt in H
  | H : (_ <? _) = false |- _ => apply Z.ltb_ge in H
  | H : (_ =? _) = true |- _ => apply Z.eqb_eq in H
  | H : (_ =? _) = false |- _ => apply Z.eqb_neq in H
  end.
Lemma dm a b : 0 <= b < 64 -> (64 * a + b) / 64 = a /\ (64 * a + b) mod 64 = b.
Proof. intros H. split; [symmetry; apply (Z.div_unique _ 64 a b); lia|symmetry; apply (Z.mod_unique _ 64 a b); lia]. Qed.

Lemma valid_decodes l : Forall (fun b => 0 <= b) l -> utf8_valid l = true -> exists cs, Forall scalar cs /\ l = utf8_text cs.
Proof.
  remember (List.length l) as n eqn:E. assert (L : (List.length l <= n)%nat) by lia. clear E. revert l L.
  induction n as [|n IH]; intros l L F H; [destruct l; [|cbn in L; lia]; exists []; split; [constructor|reflexivity]|].
  destruct l as [|b t]; [exists []; split; [constructor|reflexivity]|]. inversion F as [|? ? Hb Ft]; subst. cbn in L. cbn [utf8_valid] in H.
  assert (K : forall c bs t', scalar c -> utf8 c = bs -> b :: t = bs ++ t' -> (List.length t' <= n)%nat -> Forall (fun b => 0 <= b) t' -> utf8_valid t' = true ->
    exists cs, Forall scalar cs /\ b :: t = utf8_text cs).
  { intros c bs t' Sc U Eb Lt Ft' V. destruct (IH t' Lt Ft' V) as (cs & Fc & ->). exists (c :: cs). split; [now constructor|]. cbn. now rewrite U, Eb. }
  destruct (b <? 0x80) eqn:B1; bools.
  - apply (K b [b] t); [left; lia|unfold utf8|reflexivity|lia|exact Ft|exact H]. destruct (b <=? 0x7F) eqn:Q; bools; [reflexivity|lia].
  - destruct ((0xC2 <=? b) && (b <=? 0xDF)) eqn:B2.
    { destruct t as [|c1 t']; [discriminate|]. apply andb_true_iff in H as [C1 V]. unfold cont in C1. bools. inversion Ft as [|? ? _ Ft']; subst.
      destruct (dm (b - 0xC0) (c1 - 0x80) ltac:(lia)) as (D1 & D2). set (c := 64 * (b - 0xC0) + (c1 - 0x80)) in *.
      apply (K c [b; c1] t'); [left; unfold c; lia| |reflexivity|cbn in L; lia|exact Ft'|exact V].
      unfold utf8. destruct (c <=? 0x7F) eqn:Q1; [apply Z.leb_le in Q1; unfold c in Q1; lia|]. destruct (c <=? 0x7FF) eqn:Q2; [|apply Z.leb_gt in Q2; unfold c in Q2; lia].
      rewrite D1, D2. repeat f_equal; lia. }
    destruct ((0xE0 <=? b) && (b <=? 0xEF)) eqn:B3.
    { destruct t as [|c1 [|c2 t']]; try discriminate. apply andb_true_iff in H as [H V]. apply andb_true_iff in H as [H Hi]. apply andb_true_iff in H as [H Lo].
      apply andb_true_iff in H as [C1 C2]. unfold cont in C1, C2. inversion Ft as [|? ? _ Ft1]; subst. inversion Ft1 as [|? ? _ Ft']; subst.
      assert (Lo' : b = 0xE0 -> 0xA0 <= c1) by (intros ->; cbn in Lo; now apply Z.leb_le in Lo).
      assert (Hi' : b = 0xED -> c1 <= 0x9F) by (intros ->; cbn in Hi; now apply Z.leb_le in Hi). clear Lo Hi. apply andb_false_iff in B2. bools.
      destruct (dm (64 * (b - 0xE0) + (c1 - 0x80)) (c2 - 0x80) ltac:(lia)) as (D1 & D2). destruct (dm (b - 0xE0) (c1 - 0x80) ltac:(lia)) as (D3 & D4).
      set (c := 64 * (64 * (b - 0xE0) + (c1 - 0x80)) + (c2 - 0x80)) in *.
      assert (Dq : c / 4096 = b - 0xE0). { replace 4096 with (64 * 64) by lia. rewrite <- Z.div_div by lia. now rewrite D1. }
      assert (Sc : scalar c). { unfold scalar, c. destruct (Z.eq_dec b 0xED); [left; lia|]. destruct (Z.le_gt_cases b 0xEC); [left; lia|right; lia]. }
      apply (K c [b; c1; c2] t'); [exact Sc| |reflexivity|cbn in L; lia|exact Ft'|exact V].
      unfold utf8. destruct (c <=? 0x7F) eqn:Q1; [apply Z.leb_le in Q1; unfold c in Q1; lia|]. destruct (c <=? 0x7FF) eqn:Q2; [apply Z.leb_le in Q2; unfold c in Q2; lia|].
      destruct (c <=? 0xFFFF) eqn:Q3; [|apply Z.leb_gt in Q3; unfold c in Q3; lia]. rewrite Dq, D2, D1, D4. repeat f_equal; lia. }
    destruct ((0xF0 <=? b) && (b <=? 0xF4)) eqn:B4; [|discriminate].
    destruct t as [|c1 [|c2 [|c3 t']]]; try discriminate. apply andb_true_iff in H as [H V]. apply andb_true_iff in H as [H Hi]. apply andb_true_iff in H as [H Lo].
    apply andb_true_iff in H as [H C3]. apply andb_true_iff in H as [C1 C2]. unfold cont in C1, C2, C3. inversion Ft as [|? ? _ Ft1]; subst. inversion Ft1 as [|? ? _ Ft2]; subst. inversion Ft2 as [|? ? _ Ft']; subst.
    assert (Lo' : b = 0xF0 -> 0x90 <= c1) by (intros ->; cbn in Lo; now apply Z.leb_le in Lo).
    assert (Hi' : b = 0xF4 -> c1 <= 0x8F) by (intros ->; cbn in Hi; now apply Z.leb_le in Hi). clear Lo Hi B2 B3. bools.
    destruct (dm (64 * (64 * (b - 0xF0) + (c1 - 0x80)) + (c2 - 0x80)) (c3 - 0x80) ltac:(lia)) as (D1 & D2).
    destruct (dm (64 * (b - 0xF0) + (c1 - 0x80)) (c2 - 0x80) ltac:(lia)) as (D3 & D4). destruct (dm (b - 0xF0) (c1 - 0x80) ltac:(lia)) as (D5 & D6).
    set (c := 64 * (64 * (64 * (b - 0xF0) + (c1 - 0x80)) + (c2 - 0x80)) + (c3 - 0x80)) in *.
    assert (Dq : c / 4096 = 64 * (b - 0xF0) + (c1 - 0x80)). { replace 4096 with (64 * 64) by lia. rewrite <- Z.div_div by lia. now rewrite D1. }
    assert (Dr : c / 262144 = b - 0xF0). { replace 262144 with (4096 * 64) by lia. rewrite <- Z.div_div by lia. now rewrite Dq. }
    assert (Sc : scalar c) by (unfold scalar, c; right; lia).
    apply (K c [b; c1; c2; c3] t'); [exact Sc| |reflexivity|cbn in L; lia|exact Ft'|exact V].
    unfold utf8. destruct (c <=? 0x7F) eqn:Q1; [apply Z.leb_le in Q1; unfold c in Q1; lia|]. destruct (c <=? 0x7FF) eqn:Q2; [apply Z.leb_le in Q2; unfold c in Q2; lia|].
    destruct (c <=? 0xFFFF) eqn:Q3; [apply Z.leb_le in Q3; unfold c in Q3; lia|]. rewrite Dq, Dr, D2, D1, D4, D6. repeat f_equal; lia.
Qed.

Lemma band a b : a = true -> b = true -> a && b = true. Proof. intros -> ->. reflexivity. Qed.
Ltac tt := repeat apply band; repeat match goal with |- context [if ?x =? ?y then _ else _] => destruct (Z.eqb_spec x y) end; first [reflexivity|apply Z.leb_le; lia|idtac].
Ltac div64 c := pose proof (Z.div_mod c 64 ltac:(lia)); pose proof (Z.mod_pos_bound c 64 ltac:(lia)).
Lemma utf8_head c t : scalar c -> utf8_valid (utf8 c ++ t) = utf8_valid t.
Proof.
  intros Sc. unfold utf8. destruct (c <=? 0x7F) eqn:Q1; bools.
  - cbn [app utf8_valid]. destruct (c <? 0x80) eqn:Q; [reflexivity|bools; lia].
  - div64 c. destruct (c <=? 0x7FF) eqn:Q2; bools.
    + cbn [app utf8_valid]. destruct (0xC0 + c / 64 <? 0x80) eqn:Q; bools; [lia|].
      replace ((0xC2 <=? 0xC0 + c / 64) && (0xC0 + c / 64 <=? 0xDF)) with true by (symmetry; tt).
      replace (cont (128 + c mod 64)) with true by (symmetry; unfold cont; tt). reflexivity.
    + div64 (c / 64). assert (E4 : c / 4096 = c / 64 / 64) by (rewrite Z.div_div by lia; reflexivity).
      destruct (c <=? 0xFFFF) eqn:Q3; bools.
      * cbn [app utf8_valid]. destruct (0xE0 + c / 4096 <? 0x80) eqn:Q; bools; [lia|].
        replace ((0xC2 <=? 0xE0 + c / 4096) && (0xE0 + c / 4096 <=? 0xDF)) with false by (symmetry; apply andb_false_iff; right; apply Z.leb_gt; lia).
        replace ((0xE0 <=? 0xE0 + c / 4096) && (0xE0 + c / 4096 <=? 0xEF)) with true by (symmetry; tt).
        replace (cont (128 + c mod 64)) with true by (symmetry; unfold cont; tt). replace (cont (128 + c / 64 mod 64)) with true by (symmetry; unfold cont; tt).
        replace (if 0xE0 + c / 4096 =? 0xE0 then 0xA0 <=? 128 + c / 64 mod 64 else true) with true by (symmetry; tt).
        replace (if 0xE0 + c / 4096 =? 0xED then 128 + c / 64 mod 64 <=? 0x9F else true) with true; [reflexivity|]. symmetry. unfold scalar in Sc. tt.
      * unfold scalar in Sc. div64 (c / 64 / 64). assert (E5 : c / 262144 = c / 64 / 64 / 64) by (rewrite !Z.div_div by lia; reflexivity).
        cbn [app utf8_valid]. destruct (0xF0 + c / 262144 <? 0x80) eqn:Q; bools; [lia|].
        replace ((0xC2 <=? 0xF0 + c / 262144) && (0xF0 + c / 262144 <=? 0xDF)) with false by (symmetry; apply andb_false_iff; right; apply Z.leb_gt; lia).
        replace ((0xE0 <=? 0xF0 + c / 262144) && (0xF0 + c / 262144 <=? 0xEF)) with false by (symmetry; apply andb_false_iff; right; apply Z.leb_gt; lia).
        replace ((0xF0 <=? 0xF0 + c / 262144) && (0xF0 + c / 262144 <=? 0xF4)) with true by (symmetry; tt).
        rewrite E4, E5.
        replace (cont (128 + c mod 64)) with true by (symmetry; unfold cont; tt). replace (cont (128 + c / 64 mod 64)) with true by (symmetry; unfold cont; tt).
        replace (cont (128 + c / 64 / 64 mod 64)) with true by (symmetry; unfold cont; tt).
        replace (if 0xF0 + c / 64 / 64 / 64 =? 0xF0 then 0x90 <=? 128 + c / 64 / 64 mod 64 else true) with true by (symmetry; tt).
        replace (if 0xF0 + c / 64 / 64 / 64 =? 0xF4 then 128 + c / 64 / 64 mod 64 <=? 0x8F else true) with true; [reflexivity|]. symmetry. tt.
Qed.
Lemma encodes_valid cs : Forall scalar cs -> utf8_valid (utf8_text cs) = true.
Proof. induction 1 as [|c cs Sc F IH]; [reflexivity|]. cbn [utf8_text flat_map]. now rewrite (utf8_head c (flat_map utf8 cs) Sc). Qed.
Lemma cons_eq {A} (x y : A) l m : x :: l = y :: m -> x = y /\ l = m. Proof. intros [= -> ->]. auto. Qed.
Lemma utf8_prefix c d t t' : scalar c -> scalar d -> utf8 c ++ t = utf8 d ++ t' -> c = d /\ t = t'.
Proof.
  intros Sc Sd. unfold scalar in *. unfold utf8.
  div64 c. div64 (c / 64). div64 (c / 64 / 64). div64 d. div64 (d / 64). div64 (d / 64 / 64).
  replace (c / 4096) with (c / 64 / 64) by (rewrite Z.div_div by lia; reflexivity). replace (d / 4096) with (d / 64 / 64) by (rewrite Z.div_div by lia; reflexivity).
  replace (c / 262144) with (c / 64 / 64 / 64) by (rewrite !Z.div_div by lia; reflexivity). replace (d / 262144) with (d / 64 / 64 / 64) by (rewrite !Z.div_div by lia; reflexivity).
  assert (0 <= c / 64 / 64 / 64) by (repeat apply Z.div_pos; lia). assert (0 <= d / 64 / 64 / 64) by (repeat apply Z.div_pos; lia).
  generalize dependent (c mod 64). generalize dependent (c / 64 mod 64). generalize dependent (c / 64 / 64 mod 64). generalize dependent (c / 64 / 64 / 64).
  generalize dependent (c / 64 / 64). generalize dependent (c / 64).
  generalize dependent (d mod 64). generalize dependent (d / 64 mod 64). generalize dependent (d / 64 / 64 mod 64). generalize dependent (d / 64 / 64 / 64).
  generalize dependent (d / 64 / 64). generalize dependent (d / 64). intros.
  match goal with H : @eq (list Z) _ _ |- _ => revert H end. destruct (c <=? 0x7F) eqn:Q1; [|destruct (c <=? 0x7FF) eqn:Q2; [|destruct (c <=? 0xFFFF) eqn:Q3]];
  (destruct (d <=? 0x7F) eqn:R1; [|destruct (d <=? 0x7FF) eqn:R2; [|destruct (d <=? 0xFFFF) eqn:R3]]); bools; cbn [app]; intros E; repeat (match type of E with _ :: _ = _ :: _ => let A := fresh in apply cons_eq in E as [A E] end); (split; [lia|first [assumption|exfalso; lia]]).
Qed.
Lemma utf8_nonempty c : utf8 c <> [].
Proof. unfold utf8. destruct (c <=? 0x7F); [|destruct (c <=? 0x7FF); [|destruct (c <=? 0xFFFF)]]; discriminate. Qed.
Lemma utf8_text_inj cs ds : Forall scalar cs -> Forall scalar ds -> utf8_text cs = utf8_text ds -> cs = ds.
Proof.
  intros F. revert ds. induction F as [|c cs Sc F IH]; intros ds G E; inversion G as [|d ds' Sd G']; subst; cbn in E.
  - reflexivity.
  - symmetry in E. apply app_eq_nil in E as [E _]. now destruct (utf8_nonempty d).
  - apply app_eq_nil in E as [E _]. now destruct (utf8_nonempty c).
  - destruct (utf8_prefix c d _ _ Sc Sd E) as (-> & E'). f_equal. now apply IH.
Qed.
