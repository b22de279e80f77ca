(** C93: the numbers in generated code are the constants and enumerators of the schema. *)
From Coq Require Import List ZArith Bool String Ascii Lia Permutation Decimal DecimalString DecimalPos.
From Verif Require Import PyBase PyText Spec GenSpec GenTypes GenTypesFacts NormLex GenNumbers NumberSpec Props_GenTypes.
Import ListNotations.
Local Open Scope string_scope.
Local Open Scope Z_scope.

(** ** The digits of a number *)
Lemma digit_same c : digit_val 10 c = digit c.
Proof. destruct c as [[] [] [] [] [] [] [] []]; reflexivity. Qed.
Lemma digits_same s : forall acc, digits_val 10 acc s = digits 10 acc s.
Proof.
  induction s as [|c t IH]; intros acc; [reflexivity|]. cbn [digits_val digits]. rewrite digit_same. destruct (digit c) as [d|] eqn:E; [|reflexivity].
  assert (d < 10). { unfold digit in E. destruct ((48 <=? Z.of_N (N_of_ascii c)) && (Z.of_N (N_of_ascii c) <=? 57)) eqn:X; [|discriminate]. injection E as <-. apply andb_true_iff in X as (_ & X). apply Z.leb_le in X. lia. }
  destruct (Z.ltb_spec d 10); [apply IH|lia].
Qed.
Lemma digits_read p : digits 10 0 (py_str (Zpos p)) = Some (Zpos p).
Proof. rewrite py_str_pos, <- digits_same, digits_zero, Unsigned.of_to. reflexivity. Qed.
Lemma digits_first p : exists c t d, py_str (Zpos p) = String c t /\ digit c = Some (Zpos d).
Proof.
  pose proof (digits_read p) as R. pose proof (py_int0_str (Zpos p)) as I. destruct (py_str (Zpos p)) as [|c t] eqn:E; [discriminate R|]. exists c, t. cbn [digits] in R.
  destruct (digit c) as [[|d|d]|] eqn:Ed; [exfalso| |exfalso|discriminate R].
  - assert (c = "0"%char) by (destruct c as [[] [] [] [] [] [] [] []]; try discriminate Ed; reflexivity). subst c.
    unfold py_int0, int0_body in I. destruct t as [|x u]; [discriminate I|].
    assert (Hx : x <> "x"%char) by (intros ->; cbn in R; discriminate R).
    assert (Y : (match String "0" (String x u) with String "-" t => option_map Z.opp (int0_body t) | _ => int0_body (String "0" (String x u)) end) =
                match digits_val 10 0 (String x u) with Some v => if v =? 0 then Some 0 else None | None => None end).
    { cbv beta iota. unfold int0_body. destruct x as [[] [] [] [] [] [] [] []]; try reflexivity. congruence. }
    unfold int0_body in Y. rewrite Y in I. destruct (digits_val 10 0 (String x u)) as [v|]; [|discriminate I]. destruct (v =? 0); discriminate I.
  - eauto.
  - unfold digit in Ed. destruct ((48 <=? Z.of_N (N_of_ascii c)) && (Z.of_N (N_of_ascii c) <=? 57)) eqn:X; [|discriminate]. apply andb_true_iff in X as (X & _). apply Z.leb_le in X. injection Ed as Ed. lia.
Qed.
Lemma not_minus c t (f : string -> option Z) : digit c <> None -> negated f (String c t) = f (String c t).
Proof. intros H. unfold negated. destruct c as [[] [] [] [] [] [] [] []]; try reflexivity. now destruct H. Qed.

(** ** Underscores *)
Lemma is_digit_eq c : is_digit c = match digit c with Some _ => true | None => false end.
Proof. unfold is_digit. now rewrite digit_same. Qed.
Lemma separate_drop s : has_char "_" s = false -> drop "_" (separate s) = s.
Proof.
  induction s as [|c t IH]; intros H; [reflexivity|]. cbn [has_char] in H. apply orb_false_iff in H as (Hc & H). cbn [separate].
  destruct (is_digit c && threes t); cbn [drop]; rewrite Hc; rewrite IH by exact H; reflexivity.
Qed.
Lemma digits_no_underscore s : forall acc, digits 10 acc s <> None -> has_char "_" s = false.
Proof.
  induction s as [|c t IH]; intros acc H; [reflexivity|]. cbn [digits] in H. cbn [has_char]. apply orb_false_iff. destruct (digit c) as [d|] eqn:E; [|congruence]. split.
  - destruct c as [[] [] [] [] [] [] [] []]; try reflexivity. discriminate E.
  - destruct (d <? 10); [exact (IH _ H)|congruence].
Qed.
Lemma separate_head c t : exists u, separate (String c t) = String c u.
Proof. cbn [separate]. destruct (is_digit c && threes t); eauto. Qed.
Lemma separate_digit c t : digit c <> None -> exists u, separate (String c t) = String c u /\ digit c <> None.
Proof. intros H. destruct (separate_head c t) as (u & E). eauto. Qed.

Lemma rust_pos p : rust_unsigned (rust_number (Zpos p)) = Some (Zpos p) /\ negated rust_unsigned (rust_number (Zpos p)) = Some (Zpos p).
Proof.
  unfold rust_number. destruct (digits_first p) as (c & t & d & E & Ed). pose proof (digits_read p) as R. rewrite E in *. destruct (separate_head c t) as (u & Eu).
  assert (X : rust_unsigned (separate (String c t)) = Some (Zpos p)).
  { rewrite Eu. unfold rust_unsigned. rewrite Ed, <- Eu, separate_drop; [exact R|]. apply (digits_no_underscore _ 0). congruence. }
  split; [exact X|]. rewrite <- X, Eu. apply not_minus. congruence.
Qed.
Lemma py_minus p : py_str (Zneg p) = String "-" (py_str (Zpos p)).
Proof. now rewrite py_str_neg, py_str_pos. Qed.
Lemma rust_any v : negated rust_unsigned (rust_number v) = Some v.
Proof.
  destruct v as [|p|p]; [reflexivity|apply rust_pos|]. unfold rust_number. rewrite py_minus. change (separate (String "-" (py_str (Zpos p)))) with (String "-" (rust_number (Zpos p))).
  cbn [negated]. now rewrite (proj1 (rust_pos p)).
Qed.
Lemma go_any v : negated go_unsigned (plain_number v) = Some v.
Proof.
  assert (P : forall p, go_unsigned (py_str (Zpos p)) = Some (Zpos p) /\ negated go_unsigned (py_str (Zpos p)) = Some (Zpos p)).
  { intros p. destruct (digits_first p) as (c & t & d & E & Ed). pose proof (digits_read p) as R. rewrite E in *.
    assert (X : go_unsigned (String c t) = Some (Zpos p)) by (unfold go_unsigned; rewrite Ed; exact R). split; [exact X|]. rewrite <- X. apply not_minus. congruence. }
  unfold plain_number. destruct v as [|p|p]; [reflexivity|apply P|]. rewrite py_minus. cbn [negated]. now rewrite (proj1 (P p)).
Qed.
Lemma cpp_any v : negated cpp_unsigned (plain_number v) = if Z.abs v <? 2 ^ 63 then Some v else None.
Proof.
  assert (P : forall p, let r := if Zpos p <? 2 ^ 63 then Some (Zpos p) else None in cpp_unsigned (py_str (Zpos p)) = r /\ negated cpp_unsigned (py_str (Zpos p)) = r).
  { intros p r. destruct (digits_first p) as (c & t & d & E & Ed). pose proof (digits_read p) as R. rewrite E in *.
    assert (X : cpp_unsigned (String c t) = r) by (unfold cpp_unsigned; rewrite Ed, R; reflexivity). split; [exact X|]. rewrite <- X. apply not_minus. congruence. }
  unfold plain_number. destruct v as [|p|p]; [reflexivity|apply P|]. rewrite py_minus. cbn [negated]. rewrite (proj1 (P p)). cbn [Z.abs]. now destruct (Zpos p <? 2 ^ 63).
Qed.

(** ** Values of types *)
Lemma in_type_spec ty signed s v : In (ty, (signed, s)) basic_types -> in_type ty v = true <-> representable s signed v.
Proof.
  intros H. unfold representable. cbn in H.
  repeat (destruct H as [H|H]; [injection H as <- <- <-; unfold in_type; cbn; rewrite ?orb_false_r, ?andb_true_iff, ?Z.leb_le, ?Z.ltb_lt; lia|]). destruct H.
Qed.
Lemma constant_in name ty lit v : make_constant name ty lit = Ok v -> in_type ty v = true.
Proof.
  unfold make_constant. intros H. destruct (py_int0 lit) as [z|]; [|discriminate]. cbn [bind] in H. destruct (make_btype ty None) as [t|] eqn:Et; [|discriminate]. cbn [bind] in H.
  apply make_btype_ok in Et as (s & Hs & -> & _). destruct (C37_bits_required (BT ty s) z) as [(_ & _ & E)|(_ & b & E & _ & Hb & Hm)]; rewrite E in H; cbn [bind] in H; [discriminate|].
  cbn [bt_width] in H. destruct (Z.gtb_spec b s); [discriminate|]. injection H as <-.
  pose proof (proj1 (storage_spec ty s) Hs) as Hi. apply (in_type_spec ty _ s z Hi). change (name_signed ty) with (bt_signed (BT ty s)) in *.
  destruct (bits_required_ok (BT ty s) z) as (b' & E' & _ & W).
  { destruct (bt_signed (BT ty s)) eqn:Sg; [now left|right]. unfold bits_required in E. rewrite Sg in E. destruct (z >=? 0) eqn:Q; [apply Z.geb_le in Q; lia|discriminate]. }
  apply W. congruence.
Qed.
Lemma enumerator_in so name ty w vals t cs e : (forall l, Permutation (so l) l) -> create_enum so name ty w vals = Ok (t, cs) -> In e cs -> in_type ty (ev_value e) = true.
Proof.
  intros Hso H Hi. destruct (create_enum_ok so name ty w vals t cs Hso H) as (Et & _ & ex & vs & gen & _ & _ & _ & Fr & -> & _ & Hg & _).
  apply make_btype_ok in Et as (s & Hs & Ht & Hw). pose proof (proj1 (storage_spec ty s) Hs) as Hb. apply (in_type_spec ty _ s (ev_value e) Hb).
  assert (Hr : representable (bt_width t) (bt_signed t) (ev_value e)).
  { apply in_app_iff in Hi as [Hi|Hi]; apply in_map_iff in Hi as (x & <- & Hx); cbn [ev_value].
    - rewrite Forall_forall in Fr. apply Fr. destruct x as (n, v). exact (in_combine_r _ _ _ _ Hx).
    - now apply Hg. }
  assert (Es : bt_signed t = name_signed ty) by (rewrite Ht; reflexivity). rewrite Es in Hr.
  unfold representable in *. destruct (name_signed ty).
  - pose proof (Z.pow_le_mono_r 2 (bt_width t - 1) (s - 1) ltac:(lia) ltac:(lia)). lia.
  - pose proof (Z.pow_le_mono_r 2 (bt_width t) s ltac:(lia) ltac:(lia)). lia.
Qed.
Lemma typed_in ty v : in_type ty v = true -> typed ty (Some v) = Some v.
Proof. intros H. unfold typed. now rewrite H. Qed.
Lemma bool_byte v : in_type "bool" v = true -> in_type "u8" v = true.
Proof.
  intros H. apply (in_type_spec "bool" false 1) in H; [|now left]. apply (in_type_spec "u8" false 8); [right; now left|]. unfold representable in *. change (2 ^ 1) with 2 in H. change (2 ^ 8) with 256. lia.
Qed.

(** ** Rust *)
(** Every constant and every enumerator (those of the schema and those the generator adds) whose type is not bool is written as a
    literal that Rust reads as exactly its value, within its type, with the digits in groups of three. *)
Lemma digits_cons c t acc : digits 10 acc (String c t) <> None <-> digit c <> None /\ all_digits t.
Proof.
  unfold all_digits. cbn [digits].
  assert (I : forall t a b, digits 10 a t <> None -> digits 10 b t <> None).
  { clear. induction t as [|c t IH]; intros a b H; [discriminate|]. cbn [digits] in *. destruct (digit c) as [d|]; [|congruence]. destruct (d <? 10); [exact (IH _ _ H)|congruence]. }
  destruct (digit c) as [d|] eqn:E; [|split; [congruence|intros (X & _); congruence]].
  assert (d < 10). { unfold digit in E. destruct ((48 <=? Z.of_N (N_of_ascii c)) && (Z.of_N (N_of_ascii c) <=? 57)) eqn:X; [|discriminate]. injection E as <-. apply andb_true_iff in X as (_ & X). apply Z.leb_le in X. lia. }
  destruct (Z.ltb_spec d 10); [|lia]. split; [intros X; split; [discriminate|exact (I _ _ _ X)]|intros (_ & X); exact (I _ _ _ X)].
Qed.
Lemma all_cons c t : all_digits (String c t) <-> digit c <> None /\ all_digits t.
Proof. apply digits_cons. Qed.
Lemma threes_length s : all_digits s -> threes s = true <-> (0 < String.length s)%nat /\ (String.length s mod 3 = 0)%nat.
Proof.
  assert (G : forall n s, (String.length s < n)%nat -> all_digits s -> threes s = true <-> (0 < String.length s)%nat /\ (String.length s mod 3 = 0)%nat); [|exact (G (S (String.length s)) s (Nat.lt_succ_diag_r _))].
  induction n as [|n IH]; intros u Hn Hu; [lia|]. destruct u as [|a [|b [|c t]]]; [cbn; split; [discriminate|lia]|cbn; split; [discriminate|lia]|cbn; split; [discriminate|lia]|].
  apply all_cons in Hu as (Ha & Hu). apply all_cons in Hu as (Hb & Hu). apply all_cons in Hu as (Hc & Ht). cbn [String.length] in *.
  assert (Dg : forall x, digit x <> None -> is_digit x = true) by (intros x Hx; rewrite is_digit_eq; destruct (digit x); congruence).
  cbn [threes]. rewrite (Dg a Ha), (Dg b Hb), (Dg c Hc). cbn [andb].
  assert (M : (S (S (S (String.length t))) mod 3 = String.length t mod 3)%nat) by (change (S (S (S (String.length t)))) with (3 + String.length t)%nat; rewrite Nat.add_mod by lia; rewrite Nat.mod_same, Nat.add_0_l, Nat.mod_mod by lia; reflexivity).
  rewrite M. destruct t as [|d t]; [cbn; split; auto with arith|]. pose proof Ht as Hd. apply all_cons in Hd as (Hd & _). rewrite (Dg d Hd). cbn [negb orb].
  rewrite (IH (String d t) ltac:(lia) Ht). cbn [String.length]. split; intros (_ & X); (split; [lia|exact X]).
Qed.
Lemma separate_grouped s : s <> "" -> all_digits s -> exists first rest, separate s = String.concat "_" (first :: rest) /\ all_digits first
  /\ String.length first = S ((String.length s - 1) mod 3) /\ Forall (fun g => all_digits g /\ String.length g = 3%nat) rest.
Proof.
  induction s as [|c t IH]; intros Hn Hs; [congruence|]. apply all_cons in Hs as (Hc & Ht). assert (Dc : is_digit c = true) by (rewrite is_digit_eq; destruct (digit c); congruence).
  cbn [separate String.length]. rewrite Dc. cbn [andb]. replace (S (String.length t) - 1)%nat with (String.length t) by lia.
  destruct t as [|d t].
  { exists (String c ""), []. cbn. split; [reflexivity|]. split; [apply all_cons; split; [exact Hc|discriminate]|]. split; [reflexivity|constructor]. }
  destruct (IH ltac:(discriminate) Ht) as (first & rest & E & Hf & Hl & Hr). pose proof (threes_length (String d t) Ht) as Tl. cbn [String.length] in Hl, Tl. replace (S (String.length t) - 1)%nat with (String.length t) in Hl by lia.
  cbn [String.length]. destruct (threes (String d t)) eqn:Et.
  - pose proof (proj1 Tl eq_refl) as (_ & M). exists (String c ""), (first :: rest). split; [cbn [String.concat append] in *; now rewrite E|]. split; [apply all_cons; split; [exact Hc|discriminate]|].
    split; [rewrite M; reflexivity|]. constructor; [|exact Hr]. split; [exact Hf|]. rewrite Hl. assert (Q : (S (String.length t) mod 3 = 0)%nat) by exact M. clear - Q.
    pose proof (Nat.mod_upper_bound (String.length t) 3 ltac:(lia)). replace (S (String.length t)) with (String.length t + 1)%nat in Q by lia. rewrite Nat.add_mod in Q by lia.
    destruct (String.length t mod 3)%nat as [|[|[|k]]]; cbn in Q; lia.
  - assert (M : (S (String.length t) mod 3 <> 0)%nat) by (intros X; assert (false = true) by (apply Tl; split; [lia|exact X]); discriminate).
    exists (String c first), rest. split; [|split; [apply all_cons; split; assumption|split; [|exact Hr]]].
    + rewrite E. destruct rest; reflexivity.
    + cbn [String.length]. rewrite Hl. f_equal. clear - M. pose proof (Nat.mod_upper_bound (String.length t) 3 ltac:(lia)). replace (S (String.length t)) with (String.length t + 1)%nat in * by lia. rewrite Nat.add_mod in * by lia.
      destruct (String.length t mod 3)%nat as [|[|[|k]]]; cbn in *; lia.
Qed.
Lemma number_grouped v : 0 <= v -> grouped (rust_number v).
Proof.
  intros Hv. assert (X : py_str v <> "" /\ all_digits (py_str v)).
  { destruct v as [|p|p]; [split; discriminate| |lia]. pose proof (digits_read p) as R. destruct (digits_first p) as (c & t & d & E & _). split; [rewrite E; discriminate|]. unfold all_digits. rewrite R. discriminate. }
  destruct X as (Hn & Ha). destruct (separate_grouped _ Hn Ha) as (first & rest & E & Hf & Hl & Hr). exists first, rest. split; [exact E|]. split; [exact Hf|]. split; [|exact Hr].
  rewrite Hl. pose proof (Nat.mod_upper_bound (String.length (py_str v) - 1) 3 ltac:(lia)). lia.
Qed.
Theorem C93_rust_constant_partial : forall name ty lit v, make_constant name ty lit = Ok v -> ty <> "bool" ->
  rust_reads_number ty (rust_number v) = Some v.
Proof.
  intros name ty lit v H Nb. unfold rust_reads_number. rewrite (proj2 (String.eqb_neq ty "bool") Nb), rust_any. apply typed_in. exact (constant_in name ty lit v H).
Qed.
Print Assumptions C93_rust_constant_partial.
Theorem C93_rust_enumerator_partial : forall set_order name ty w vals t cs e, (forall l, Permutation (set_order l) l) ->
  create_enum set_order name ty w vals = Ok (t, cs) -> In e cs -> ty <> "bool" ->
  rust_reads_number ty (rust_number (ev_value e)) = Some (ev_value e).
Proof.
  intros so name ty w vals t cs e Hso H He Nb. unfold rust_reads_number. rewrite (proj2 (String.eqb_neq ty "bool") Nb), rust_any. apply typed_in. exact (enumerator_in so name ty w vals t cs e Hso H He).
Qed.
Theorem C93_rust_groups : forall v, grouped (rust_number (Z.abs v)) /\ rust_number v = (if v <? 0 then "-" else "") ++ rust_number (Z.abs v).
Proof.
  intros v. split; [apply number_grouped; lia|]. destruct v as [|p|p]; [reflexivity|reflexivity|]. cbn [Z.abs Z.ltb Z.compare]. unfold rust_number. rewrite py_minus. reflexivity.
Qed.
(** Constants and enumerations of type bool are accepted, and do not compile in Rust. *)
Theorem C93_bool_refuted : make_constant "C" "bool" "1" = Ok 1 /\ rust_reads_number "bool" (rust_number 1) = None
  /\ (exists cs, create_enum (fun l => l) "E" "bool" None [("A", None); ("B", None)] = Ok (BT "bool" 1, cs))
  /\ forall v, rust_reads_number "bool" (rust_number v) = None.
Proof. split; [reflexivity|]. split; [reflexivity|]. split; [eexists; vm_compute; reflexivity|reflexivity]. Qed.

(** ** C++ *)
(** C++ reads every constant and enumerator below 2^63 in size as its value; the others, and only these, as no number: the program
    is ill-formed. *)
Theorem C93_cpp_constant_partial : forall name ty lit v, make_constant name ty lit = Ok v ->
  cpp_reads_number ty (plain_number v) = if Z.abs v <? 2 ^ 63 then Some v else None.
Proof.
  intros name ty lit v H. unfold cpp_reads_number. rewrite cpp_any. destruct (Z.abs v <? 2 ^ 63); [|reflexivity]. apply typed_in. exact (constant_in name ty lit v H).
Qed.
Print Assumptions C93_cpp_constant_partial.
Theorem C93_cpp_enumerator_partial : forall set_order name ty w vals t cs e, (forall l, Permutation (set_order l) l) ->
  create_enum set_order name ty w vals = Ok (t, cs) -> In e cs ->
  cpp_reads_number ty (plain_number (ev_value e)) = if Z.abs (ev_value e) <? 2 ^ 63 then Some (ev_value e) else None.
Proof.
  intros so name ty w vals t cs e Hso H He. unfold cpp_reads_number. rewrite cpp_any. destruct (Z.abs (ev_value e) <? 2 ^ 63); [|reflexivity]. apply typed_in. exact (enumerator_in so name ty w vals t cs e Hso H He).
Qed.
Theorem C93_cpp_refuted : (make_constant "C" "u64" "0xffffffffffffffff" = Ok (2 ^ 64 - 1) /\ cpp_reads_number "u64" (plain_number (2 ^ 64 - 1)) = None)
  /\ (make_constant "C" "i64" "-0x8000000000000000" = Ok (- 2 ^ 63) /\ cpp_reads_number "i64" (plain_number (- 2 ^ 63)) = None).
Proof. split; (split; [vm_compute; reflexivity|vm_compute; reflexivity]). Qed.

(** ** Go and flatdata *)
Theorem C93_go_constant : forall name ty lit v, make_constant name ty lit = Ok v -> go_reads_number ty (plain_number v) = Some v.
Proof.
  intros name ty lit v H. unfold go_reads_number. rewrite go_any. apply typed_in. pose proof (constant_in name ty lit v H) as X. destruct (String.eqb_spec ty "bool") as [->|]; [now apply bool_byte|exact X].
Qed.
Print Assumptions C93_go_constant.
(** In a generated flatdata schema the constant is accepted again, with the same value. *)
Theorem C93_schema_constant : forall name ty lit v, make_constant name ty lit = Ok v -> make_constant name ty (plain_number v) = Ok v.
Proof.
  intros name ty lit v H. unfold make_constant, plain_number in *. rewrite py_int0_str. destruct (py_int0 lit) as [z|]; [|discriminate H]. cbn [bind] in *. destruct (make_btype ty None) as [b|]; [|discriminate H]. cbn [bind] in *.
  destruct (bits_required b z) as [r|] eqn:E; [|discriminate H]. cbn [bind] in H. destruct (r >? bt_width b) eqn:W; [discriminate H|]. injection H as <-. rewrite E. cbn [bind]. now rewrite W.
Qed.

Theorem C93_instance : make_constant "C" "i32" "-0x7fffffff" = Ok (-2147483647) /\ rust_number (-2147483647) = "-2_147_483_647"
  /\ plain_number (-2147483647) = "-2147483647" /\ rust_number 999 = "999" /\ rust_number 1000 = "1_000"
  /\ exists cs, create_enum (fun l => l) "E" "i8" (Some 2) [("A", Some "-2"); ("B", None)] = Ok (BT "i8" 2, cs) /\ map ev_value cs = [-2; -1; 0; 1].
Proof. repeat (split; [vm_compute; reflexivity|]). eexists. split; vm_compute; reflexivity. Qed.
