(** Facts about the members and operators of generated structures. *)
From Coq Require Import List ZArith Bool Lia.
From Verif Require Import PyBase Spec BitFacts Structure StructSpec StructFacts Codecs CodecSpec CodecFacts CodecThms
  CppStore GenStructs StructOpsSpec.
Import ListNotations.
Local Open Scope Z_scope.

Lemma schema_value_ext a b off n s : 1 <= n -> (forall i, off <= i < off + n -> bit_at a i = bit_at b i) ->
  schema_value a off n s = schema_value b off n s.
Proof.
  intros Hn H. unfold schema_value. rewrite (H off) by lia. destruct (n =? 1); [reflexivity|].
  unfold field_value. rewrite (uint_at_ext a b (Z.to_nat n) off); [reflexivity|]. intros i Hi. apply H. lia.
Qed.

Lemma uint_at_range a off n : 0 <= uint_at a off n < 2 ^ Z.of_nat n.
Proof.
  revert off. induction n as [|n IH]; intros off; [cbn; lia|].
  cbn [uint_at]. specialize (IH (off + 1)). rewrite Nat2Z.inj_succ, Z.pow_succ_r by lia.
  destruct (bit_at a off); lia.
Qed.

Lemma schema_value_bits a b off n s : 1 <= n -> (n = 1 -> s = false) ->
  schema_value a off n s = schema_value b off n s -> forall i, off <= i < off + n -> bit_at a i = bit_at b i.
Proof.
  intros Hn H1 E i Hi. unfold schema_value in E. destruct (n =? 1) eqn:E1.
  - assert (i = off) by lia. subst i. destruct (bit_at a off), (bit_at b off); congruence || discriminate.
  - unfold field_value in E. cbv zeta in E.
    pose proof (uint_at_range a off (Z.to_nat n)) as Ra. pose proof (uint_at_range b off (Z.to_nat n)) as Rb.
    rewrite Z2Nat.id in Ra, Rb by lia.
    assert (Eu : uint_at a off (Z.to_nat n) = uint_at b off (Z.to_nat n)).
    { destruct s; [|exact E]. unfold twos_complement in E.
      assert (2 ^ n = 2 * 2 ^ (n - 1)) by (rewrite <- Z.pow_succ_r by lia; f_equal; lia).
      destruct (uint_at a off (Z.to_nat n) <? 2 ^ (n - 1)) eqn:?, (uint_at b off (Z.to_nat n) <? 2 ^ (n - 1)) eqn:?; lia. }
    pose proof (uint_at_testbit a (Z.to_nat n) off (i - off) ltac:(lia)) as Ta.
    pose proof (uint_at_testbit b (Z.to_nat n) off (i - off) ltac:(lia)) as Tb.
    replace (i - off <? Z.of_nat (Z.to_nat n)) with true in Ta, Tb by lia. cbn [andb] in Ta, Tb.
    replace (off + (i - off)) with i in Ta, Tb by lia. congruence.
Qed.

Lemma schema_value_representable a off n s : 1 <= n <= 64 -> (n = 1 -> s = false) ->
  representable n s (schema_value a off n s).
Proof.
  intros Hn H1. unfold schema_value. destruct (n =? 1) eqn:E1.
  - assert (n = 1) by lia. subst n. rewrite (H1 eq_refl). cbn. destruct (bit_at a off); lia.
  - unfold field_value, representable. cbv zeta.
    pose proof (uint_at_range a off (Z.to_nat n)) as Ra. rewrite Z2Nat.id in Ra by lia.
    destruct s; [|lia]. unfold twos_complement.
    assert (2 ^ n = 2 * 2 ^ (n - 1)) by (rewrite <- Z.pow_succ_r by lia; f_equal; lia).
    destruct (uint_at a off (Z.to_nat n) <? 2 ^ (n - 1)) eqn:?; lia.
Qed.

Lemma layout_field size gs g : layout size gs -> In g gs ->
  field_ok (gf_sig g) /\ type_holds (gf_bits g) (f_signed (gf_sig g)) (f_width (gf_sig g)) /\
  (forall vs, gf_variants g = Some vs ->
       forall v, representable (f_width (gf_sig g)) (f_signed (gf_sig g)) v -> In v vs) /\
  (forall i, gf_invalid g = Some i -> representable (f_width (gf_sig g)) (f_signed (gf_sig g)) i) /\
  0 <= f_off (gf_sig g) /\ f_off (gf_sig g) + f_width (gf_sig g) <= 8 * size.
Proof.
  intros (H0 & Ha & Hf) Hin. pose proof Hf as Hf'. rewrite Forall_forall in Hf. destruct (Hf g Hin) as (A & B & C & D).
  assert (Fo : Forall field_ok (map gf_sig gs)).
  { apply Forall_forall. intros f Hfi. apply in_map_iff in Hfi. destruct Hfi as (h & <- & Hh). now apply Hf. }
  destruct (ascending_in 0 (map gf_sig gs) (8 * size) (gf_sig g) Fo Ha (in_map gf_sig gs g Hin)) as [L R].
  repeat (split; [assumption|]). assumption.
Qed.

Lemma existsb_Zeqb v vs : In v vs -> existsb (Z.eqb v) vs = true.
Proof. intros H. apply existsb_exists. exists v. split; [assumption|apply Z.eqb_refl]. Qed.

Lemma rs_get_member size gs g data : layout size gs -> rust_fields gs -> In g gs ->
  is_bytes data -> size <= zlen data -> rs_get g data = Value (member g data).
Proof.
  intros L R Hin Hb Hl. destruct (layout_field size gs g L Hin) as ([Hw H1] & Ht & Hv & Hi & H0 & Hhi).
  unfold rs_get, member, stored. rewrite rust_read_value; auto.
  - unfold rs_transmute.
    pose proof (schema_value_representable data (f_off (gf_sig g)) _ _ Hw H1) as Hr.
    destruct (gf_variants g) as [vs|] eqn:Ev.
    + rewrite (existsb_Zeqb _ vs (Hv vs eq_refl _ Hr)). now destruct (gf_invalid g).
    + now destruct (gf_invalid g).
  - unfold in_bounds. lia.
  - unfold rust_fields in R. rewrite Forall_forall in R. exact (R g Hin).
Qed.

Lemma ascending_apart fs : forall start limit f g, Forall field_ok fs -> ascending start fs limit -> In f fs -> In g fs ->
  f = g \/ f_off f + f_width f <= f_off g \/ f_off g + f_width g <= f_off f.
Proof.
  induction fs as [|h t IH]; intros start limit f g Hok Ha Hf Hg; [destruct Hf|].
  inversion Hok as [|? ? Hh Ht]; subst. cbn [ascending] in Ha. destruct Ha as [A1 A2].
  destruct Hf as [<-|Hf], Hg as [<-|Hg]; [now left| | |].
  - destruct (ascending_in _ _ _ g Ht A2 Hg). lia.
  - destruct (ascending_in _ _ _ f Ht A2 Hf). lia.
  - exact (IH _ _ f g Ht A2 Hf Hg).
Qed.

Lemma layout_sigs size gs : layout size gs -> Forall field_ok (map gf_sig gs) /\ ascending 0 (map gf_sig gs) (8 * size).
Proof.
  intros (H0 & Ha & Hf). split; [|assumption]. apply Forall_forall. intros f Hfi. apply in_map_iff in Hfi.
  destruct Hfi as (h & <- & Hh). rewrite Forall_forall in Hf. now apply Hf.
Qed.

Lemma layout_apart size gs g h : layout size gs -> In g gs -> In h gs ->
  gf_sig g = gf_sig h \/ f_off (gf_sig g) + f_width (gf_sig g) <= f_off (gf_sig h) \/
  f_off (gf_sig h) + f_width (gf_sig h) <= f_off (gf_sig g).
Proof.
  intros L Hg Hh. destruct (layout_sigs size gs L) as [F A]. eapply ascending_apart; eauto using in_map.
Qed.

(** The integer a setter stores. *)
Definition given (g : gfield) (v : option Z) : option Z := match v with Some x => Some x | None => gf_invalid g end.

Lemma rs_set_stores size gs g data v : layout size gs -> rust_fields gs -> In g gs ->
  is_bytes data -> size <= zlen data -> assignable g v ->
  exists x d, given g v = Some x /\ rs_set g data v = Value d /\
    representable (f_width (gf_sig g)) (f_signed (gf_sig g)) x /\
    stores data (f_off (gf_sig g)) (f_width (gf_sig g)) x d /\ stored g d = x /\ is_bytes d /\ zlen d = zlen data.
Proof.
  intros L R Hin Hb Hl Hv. destruct (layout_field size gs g L Hin) as ([Hw H1] & Ht & _ & Hi & H0 & Hhi).
  assert (exists x, given g v = Some x /\ representable (f_width (gf_sig g)) (f_signed (gf_sig g)) x) as (x & Gx & Rx).
  { destruct v as [x|]; cbn in *; [eauto|]. destruct (gf_invalid g) as [i|]; [eauto|congruence]. }
  destruct (rust_write_stores (f_signed (gf_sig g)) data (f_off (gf_sig g)) (f_width (gf_sig g)) x) as (d & E & S); auto.
  { unfold in_bounds. lia. }
  { unfold rust_fields in R. rewrite Forall_forall in R. exact (R g Hin). }
  exists x, d. split; [assumption|]. unfold rs_set. fold (given g v). rewrite Gx, E. split; [reflexivity|].
  split; [assumption|]. split; [assumption|]. split; [eapply stores_value; eauto|].
  destruct S as (S1 & S2 & _). split; [assumption|]. unfold zlen. now rewrite S1.
Qed.

Lemma stored_other g h data d x : 0 <= f_off (gf_sig h) -> field_ok (gf_sig h) ->
  stores data (f_off (gf_sig g)) (f_width (gf_sig g)) x d ->
  f_off (gf_sig g) + f_width (gf_sig g) <= f_off (gf_sig h) \/ f_off (gf_sig h) + f_width (gf_sig h) <= f_off (gf_sig g) ->
  stored h d = stored h data.
Proof.
  intros H0 [Hw _] (_ & _ & S) Ha. unfold stored. apply schema_value_ext; [lia|]. intros i Hi. rewrite S by lia.
  replace ((f_off (gf_sig g) <=? i) && (i <? f_off (gf_sig g) + f_width (gf_sig g))) with false by lia. reflexivity.
Qed.

Lemma member_eq_stored g a b : member g a = member g b -> stored g a = stored g b.
Proof.
  unfold member. destruct (gf_invalid g) as [i|]; [|congruence].
  destruct (stored g a =? i) eqn:Ea, (stored g b =? i) eqn:Eb; try discriminate; [lia|congruence].
Qed.

Lemma stored_eq_member g a b : stored g a = stored g b -> member g a = member g b.
Proof. intros H. unfold member. now rewrite H. Qed.

Lemma opt_eqb_eq x y : opt_eqb x y = true <-> x = y.
Proof.
  destruct x, y; cbn; try (split; [discriminate|congruence]); [|now split].
  rewrite Z.eqb_eq. split; congruence.
Qed.

Lemma rs_eq_members size gs a b : layout size gs -> rust_fields gs -> is_bytes a -> is_bytes b ->
  size <= zlen a -> size <= zlen b ->
  exists r, rs_eq gs a b = Value r /\ (r = true <-> forall g, In g gs -> member g a = member g b).
Proof.
  intros L R Ha Hb La Lb.
  assert (G : forall l, incl l gs -> exists r, rs_eq l a b = Value r /\ (r = true <-> forall g, In g l -> member g a = member g b)).
  { induction l as [|g t IH]; intros Hi.
    - exists true. split; [reflexivity|]. split; [intros _ g []|reflexivity].
    - destruct IH as (r & E & Hr). { intros x Hx. apply Hi. now right. }
      cbn [rs_eq]. rewrite !(rs_get_member size gs g) by (auto; apply Hi; now left).
      destruct (opt_eqb (member g a) (member g b)) eqn:Eo.
      + exists r. split; [assumption|]. rewrite Hr. apply opt_eqb_eq in Eo. split.
        * intros H h [<-|Hh]; auto.
        * intros H h Hh. apply H. now right.
      + exists false. split; [reflexivity|]. split; [discriminate|]. intros H.
        rewrite (proj2 (opt_eqb_eq _ _) (H g (or_introl eq_refl))) in Eo. discriminate. }
  apply G. apply incl_refl.
Qed.

(** Copying the fields of [other] one after the other. *)
Lemma rs_fill_steps size gs other : layout size gs -> rust_fields gs -> is_bytes other -> size <= zlen other ->
  forall l self, incl l gs -> is_bytes self -> size <= zlen self ->
  exists d, rs_fill l self other = Value d /\ is_bytes d /\ zlen d = zlen self /\
    (forall i, 0 <= i -> bit_at d i = (if existsb (fun g => in_field (gf_sig g) i) l then bit_at other i else bit_at self i)).
Proof.
  intros L R Ho Lo. induction l as [|g t IH]; intros self Hi Hs Ls.
  - exists self. repeat split; auto.
  - cbn [rs_fill]. assert (Hg : In g gs) by (apply Hi; now left).
    rewrite (rs_get_member size gs g) by auto.
    destruct (layout_field size gs g L Hg) as (Hf & Ht & Hv & Hiv & H0 & Hhi).
    assert (Has : assignable g (member g other)).
    { unfold member. pose proof (schema_value_representable other (f_off (gf_sig g)) _ _ (proj1 Hf) (proj2 Hf)) as Hr.
      fold (stored g other) in Hr. destruct (gf_invalid g) eqn:Eg; [|exact Hr].
      destruct (stored g other =? z) eqn:Ez; cbn; [congruence|exact Hr]. }
    destruct (rs_set_stores size gs g self (member g other) L R Hg Hs Ls Has) as (x & d & Gx & E & Rx & S & Sx & Bd & Ld).
    rewrite E. destruct (IH d) as (d2 & E2 & B2 & L2 & Bits); [intros y Hy; apply Hi; now right|assumption|lia|].
    exists d2. split; [assumption|]. split; [assumption|]. split; [lia|].
    intros i Hii. rewrite Bits by assumption. cbn [existsb].
    assert (Ex : x = stored g other).
    { unfold given, member in Gx. destruct (gf_invalid g) as [iv|]; [|congruence].
      destruct (stored g other =? iv) eqn:Ez; cbn in Gx; [|congruence]. injection Gx as <-. lia. }
    destruct (existsb (fun g0 => in_field (gf_sig g0) i) t); [now rewrite orb_true_r|]. rewrite orb_false_r.
    destruct (in_field (gf_sig g) i) eqn:Ef.
    + unfold in_field in Ef. apply (schema_value_bits d other (f_off (gf_sig g)) (f_width (gf_sig g)) (f_signed (gf_sig g))).
      * destruct Hf as [? _]. lia.
      * apply Hf.
      * fold (stored g d). fold (stored g other). congruence.
      * lia.
    + destruct S as (_ & _ & S). rewrite S by assumption. fold (in_field (gf_sig g) i). now rewrite Ef.
Qed.

Lemma bit_at_beyond data i : 8 * zlen data <= i -> bit_at data i = false.
Proof.
  intros H. unfold bit_at. pose proof (zlen_nonneg data). rewrite nth_overflow; [apply Z.bits_0|]. unfold zlen in *. lia.
Qed.

Lemma unused_false gs i : existsb (fun g => in_field (gf_sig g) i) gs = false <-> unused gs i.
Proof.
  unfold unused. split.
  - intros H g Hg. destruct (in_field (gf_sig g) i) eqn:E.
    + assert (existsb (fun g => in_field (gf_sig g) i) gs = true) by (apply existsb_exists; eauto). congruence.
    + unfold in_field in E. lia.
  - intros H. destruct (existsb (fun g => in_field (gf_sig g) i) gs) eqn:E; [|reflexivity].
    apply existsb_exists in E. destruct E as (g & Hg & E). specialize (H g Hg). unfold in_field in E. lia.
Qed.

(** Equal members and equal unused bits are equal bytes. *)
Lemma members_bytes size gs a b : layout size gs -> struct_bytes size a -> struct_bytes size b ->
  (forall g, In g gs -> member g a = member g b) ->
  (forall i, 0 <= i < 8 * size -> unused gs i -> bit_at a i = bit_at b i) -> a = b.
Proof.
  intros L [Ba La] [Bb Lb] Hm Hu. apply bytes_ext; auto; [unfold zlen in *; lia|].
  intros i Hi. destruct (Z.ltb_spec i (8 * size)).
  - destruct (existsb (fun g => in_field (gf_sig g) i) gs) eqn:E.
    + apply existsb_exists in E. destruct E as (g & Hg & E). unfold in_field in E.
      destruct (layout_field size gs g L Hg) as (Hf & _). specialize (Hm g Hg). apply member_eq_stored in Hm.
      eapply schema_value_bits; [|apply Hf|exact Hm|lia]. destruct Hf as [? _]. lia.
    + apply unused_false in E. apply Hu; [lia|assumption].
  - rewrite !bit_at_beyond by lia. reflexivity.
Qed.

Lemma built_bits size gs d : layout size gs -> rust_fields gs -> built size gs d ->
  struct_bytes size d /\ forall i, 0 <= i -> unused gs i -> bit_at d i = false.
Proof.
  intros L R H. induction H as [|g v d d' Hd IH Hg Ha E].
  - unfold rs_new, struct_bytes. split; [split|].
    + apply is_bytes_zeros.
    + unfold zlen, zeros. rewrite repeat_length. destruct L. lia.
    + intros i Hi _. unfold bit_at, zeros.
      replace (nth (Z.to_nat (i / 8)) (repeat 0 (Z.to_nat size)) 0) with 0; [apply Z.bits_0|].
      symmetry. apply nth_repeat.
  - destruct IH as [[B1 L1] U].
    destruct (rs_set_stores size gs g d v L R Hg B1 ltac:(lia) Ha) as (x & d2 & _ & E2 & _ & S & _ & B2 & L2).
    rewrite E in E2. injection E2 as <-. split; [split; [assumption|lia]|].
    intros i Hi Hu. destruct S as (_ & _ & S). rewrite S by assumption. specialize (Hu g Hg) as Hug.
    replace ((f_off (gf_sig g) <=? i) && (i <? f_off (gf_sig g) + f_width (gf_sig g))) with false by lia. now apply U.
Qed.

Lemma cpp_eq_from_bytes n : forall i a b, (i + n <= List.length a)%nat -> (i + n <= List.length b)%nat ->
  exists r, cpp_eq_from n i a b = Value r /\ (r = true <-> firstn n (skipn i a) = firstn n (skipn i b)).
Proof.
  induction n as [|n IH]; intros i a b La Lb; [exists true; now split|].
  cbn [cpp_eq_from].
  destruct (nth_error a i) as [x|] eqn:Ea; [|apply nth_error_None in Ea; lia].
  destruct (nth_error b i) as [y|] eqn:Eb; [|apply nth_error_None in Eb; lia].
  assert (Sk : forall (l : list Z) z, nth_error l i = Some z -> skipn i l = z :: skipn (S i) l).
  { clear. induction i as [|i IH]; intros [|h l] z H; try discriminate; cbn in *; [congruence|]. now apply IH. }
  rewrite (Sk a x Ea), (Sk b y Eb). cbn [firstn].
  destruct (x =? y) eqn:E; cbn [negb].
  - destruct (IH (S i) a b ltac:(lia) ltac:(lia)) as (r & Er & Hr). exists r. split; [assumption|]. rewrite Hr.
    apply Z.eqb_eq in E. subst y. split; congruence.
  - exists false. split; [reflexivity|]. split; [discriminate|]. intros H. injection H as H _. subst y.
    rewrite Z.eqb_refl in E. discriminate.
Qed.

Lemma cpp_less_values size gs a b : layout size gs -> is_bytes a -> is_bytes b -> size + 8 <= zlen a -> size + 8 <= zlen b ->
  exists r, cpp_less gs a b = Value r /\ (r = true <-> forall g, In g gs -> stored g a < stored g b).
Proof.
  intros L Ha Hb La Lb.
  assert (G : forall l, incl l gs -> exists r, cpp_less l a b = Value r /\ (r = true <-> forall g, In g l -> stored g a < stored g b)).
  { induction l as [|g t IH]; intros Hi.
    - exists true. split; [reflexivity|]. split; [intros _ g []|reflexivity].
    - destruct IH as (r & E & Hr). { intros x Hx. apply Hi. now right. }
      destruct (layout_field size gs g L) as ([Hw H1] & Ht & _ & _ & H0 & Hhi); [apply Hi; now left|].
      cbn [cpp_less]. rewrite !cpp_read_value by (auto; unfold padded, in_bounds; lia).
      fold (stored g a). fold (stored g b). destruct (stored g a <? stored g b) eqn:El.
      + exists r. split; [assumption|]. rewrite Hr. split.
        * intros H h [<-|Hh]; [lia|auto].
        * intros H h Hh. apply H. now right.
      + exists false. split; [reflexivity|]. split; [discriminate|]. intros H. specialize (H g (or_introl eq_refl)). lia. }
  apply G. apply incl_refl.
Qed.
