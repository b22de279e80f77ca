(** Agreement of the other bindings' codecs with the Python one, field by field and record by record. *)
From Coq Require Import List ZArith Bool Lia String.
From Coq Require Import ZifyBool ZifyNat.
From Verif Require Import PyBase Spec DataAccess Structure StructSpec BitFacts DataAccessFacts DataAccessThms
  StructFacts SliceFacts Codecs CodecSpec CodecFacts.
Import ListNotations.
Local Open Scope Z_scope.
Ltac Zify.zify_post_hook ::= Z.div_mod_to_equations.

(** Buffers of bytes with the same length and bits are equal. *)
Lemma bytes_ext a b : is_bytes a -> is_bytes b -> List.length a = List.length b ->
  (forall i, 0 <= i -> bit_at a i = bit_at b i) -> a = b.
Proof.
  intros Ha Hb Hl H. apply le_inj; auto. apply Z.bits_inj'. intros i Hi.
  rewrite !le_testbit by assumption. now apply H.
Qed.

Lemma bit_at_skipn data p i : 0 <= p -> 0 <= i -> bit_at (skipn (Z.to_nat p) data) i = bit_at data (8 * p + i).
Proof.
  intros Hp Hi. unfold bit_at. rewrite nth_skipn. replace ((8 * p + i) mod 8) with (i mod 8) by lia.
  do 2 f_equal. lia.
Qed.

Lemma schema_value_skipn data p off n s : 0 <= p -> 0 <= off -> 1 <= n ->
  schema_value (skipn (Z.to_nat p) data) off n s = schema_value data (p * 8 + off) n s.
Proof.
  intros Hp Ho Hn. unfold schema_value. rewrite bit_at_skipn by assumption.
  replace (8 * p + off) with (p * 8 + off) by lia. destruct (n =? 1); [reflexivity|].
  unfold field_value.
  assert (E : uint_at (skipn (Z.to_nat p) data) off (Z.to_nat n) = uint_at data (p * 8 + off) (Z.to_nat n)).
  { apply uint_at_shift. intros k Hk. rewrite bit_at_skipn by lia. f_equal. lia. }
  now rewrite E.
Qed.

(** A value Python reads is the schema's value whenever it is one the field can hold. *)
Lemma py_read_schema data off n s v : is_bytes data -> in_bounds (zlen data) off n -> 1 <= n <= 64 ->
  read_value data off n s = Ok v -> (n = 64 -> s = false -> v < 2 ^ 64) -> v = schema_value data off n s.
Proof.
  intros Hd Hb Hn Hv Hr. rewrite read_value_total in Hv by assumption. injection Hv as Hv. subst v.
  unfold schema_value, read_result in *. destruct (n =? 1) eqn:E1; [reflexivity|].
  destruct ((n =? 64) && negb s) eqn:E2; [|reflexivity].
  assert (n = 64) by lia. subst n. destruct s; [discriminate|]. specialize (Hr eq_refl eq_refl).
  unfold field_value. destruct Hb as (Ho & _ & _).
  destruct (off mod 8 =? 0) eqn:E3; [reflexivity|].
  set (m := Z.to_nat (72 - off mod 8)) in *.
  apply Z.bits_inj'. intros i Hi. pose proof (uint_at_bound data m off) as Hub.
  destruct (i <? 64) eqn:E4.
  - rewrite !uint_at_testbit by assumption. replace (i <? Z.of_nat m) with true by lia.
    replace (i <? Z.of_nat (Z.to_nat 64)) with true by lia. reflexivity.
  - rewrite (bits_above _ 64 i) by lia. symmetry.
    apply bits_above with 64; try lia. apply uint_pos_bound. lia.
Qed.

Lemma py_read_ok data off n s : is_bytes data -> in_bounds (zlen data) off n -> 1 <= n <= 64 ->
  (n = 64 -> s = false -> off mod 8 = 0) ->
  read_value data off n s = Ok (schema_value data off n s).
Proof.
  intros Hd Hb Hn H64. rewrite read_value_total by assumption. f_equal.
  unfold schema_value, read_result. destruct (n =? 1) eqn:E1; [reflexivity|].
  destruct ((n =? 64) && negb s) eqn:E2; [|reflexivity].
  assert (n = 64) by lia. subst n. destruct s; [discriminate|].
  rewrite H64 by reflexivity. reflexivity.
Qed.

(** The value a buffer holds after storing a representable one. *)
Lemma stores_value data off n s t data' : 0 <= off -> 1 <= n <= 64 -> (n = 1 -> s = false) ->
  representable n s t -> stores data off n t data' -> schema_value data' off n s = t.
Proof.
  intros Ho Hn H1 Hr (Hl & Hb & Hbits). unfold schema_value. destruct (n =? 1) eqn:E1.
  - assert (n = 1) by lia. subst n. rewrite (H1 eq_refl) in Hr. cbn in Hr.
    rewrite Hbits by assumption. replace ((off <=? off) && (off <? off + 1)) with true by lia.
    replace (off - off) with 0 by lia. assert (t = 0 \/ t = 1) as [-> | ->] by lia; reflexivity.
  - assert (Hu : uint_at data' off (Z.to_nat n) = t mod 2 ^ n).
    { apply vbit_uint; [lia|]. intros k Hk. rewrite Hbits by lia.
      replace ((off <=? off + k) && (off + k <? off + n)) with true by lia. unfold vbit.
      replace (0 <=? k) with true by lia. replace (k <? n) with true by lia. cbn [andb]. f_equal. lia. }
    unfold field_value. rewrite Hu. unfold representable in Hr. destruct s.
    + apply twos_complement_mod; [lia|assumption].
    + now apply Z.mod_small.
Qed.

(** ** Records *)

(** One store after the other, in the order given. *)
Fixpoint store_all (w : fsig -> Z -> list Z -> option (list Z)) (fvs : list (fsig * Z)) (buf : list Z)
  : option (list Z) :=
  match fvs with
  | [] => Some buf
  | (f, v) :: t => b <== w f v buf ;; store_all w t b
  end.

Definition in_field (f : fsig) (i : Z) : bool := (f_off f <=? i) && (i <? f_off f + f_width f).

Lemma fbit_in f v i : fbit i (f, v) = in_field f i && Z.testbit v (i - f_off f).
Proof.
  unfold fbit, in_field, vbit. cbn [fst snd].
  replace (0 <=? i - f_off f) with (f_off f <=? i) by lia.
  replace (i - f_off f <? f_width f) with (i <? f_off f + f_width f) by lia. reflexivity.
Qed.

(** Storing fields that do not overlap, in any order, leaves each field's bits and nothing else. *)
Lemma store_all_bits w fvs : forall buf (P : list Z -> Prop),
  ForallOrdPairs (fun x y => forall i, in_field (fst x) i && in_field (fst y) i = false) fvs ->
  is_bytes buf -> P buf ->
  (forall f v b, In (f, v) fvs -> is_bytes b -> P b ->
     exists b', w f v b = Some b' /\ stores b (f_off f) (f_width f) v b' /\ P b') ->
  exists buf', store_all w fvs buf = Some buf' /\ List.length buf' = List.length buf /\ is_bytes buf' /\
    forall i, 0 <= i -> bit_at buf' i = if existsb (fun fv => in_field (fst fv) i) fvs
                                        then existsb (fbit i) fvs else bit_at buf i.
Proof.
  induction fvs as [|[f v] t IH]; intros buf P Hd Hb HP Hw.
  - exists buf. repeat split; auto.
  - cbn [store_all]. destruct (Hw f v buf ltac:(now left) Hb HP) as (b1 & E1 & (L1 & B1 & S1) & P1).
    rewrite E1. cbn [obind]. inversion Hd as [|? ? Hf Ht]; subst.
    destruct (IH b1 P Ht B1 P1) as (b2 & E2 & L2 & B2 & S2).
    { intros f' v' b Hin. apply Hw. now right. }
    exists b2. split; [assumption|]. split; [lia|]. split; [assumption|].
    intros i Hi. rewrite S2 by assumption. cbn [existsb fst]. rewrite fbit_in.
    rewrite S1 by assumption. fold (in_field f i).
    destruct (existsb (fun fv => in_field (fst fv) i) t) eqn:E.
    + rewrite orb_true_r.
      assert (Hnf : in_field f i = false).
      { apply existsb_exists in E. destruct E as ([g u] & Hg & Eg). cbn in Eg.
        rewrite Forall_forall in Hf. specialize (Hf (g, u) Hg i). cbn [fst] in Hf. rewrite Eg, andb_true_r in Hf.
        exact Hf. }
      rewrite Hnf. reflexivity.
    + rewrite orb_false_r. destruct (in_field f i); cbn [andb orb]; [|reflexivity].
      assert (En : existsb (fbit i) t = false).
      { clear - E. induction t as [|[g u] t IH]; [reflexivity|]. cbn [existsb fst] in *.
        apply orb_false_iff in E. destruct E as [E1 E2]. rewrite fbit_in, E1. cbn. now apply IH. }
      rewrite En. now rewrite orb_false_r.
Qed.

Lemma ascending_disjoint fs : forall start limit vals, Forall field_ok fs -> ascending start fs limit ->
  ForallOrdPairs (fun x y : fsig * Z => forall i, in_field (fst x) i && in_field (fst y) i = false) (combine fs vals).
Proof.
  induction fs as [|f t IH]; intros start limit [|v vals] Hok Ha; cbn [combine]; try constructor.
  - inversion Hok as [|? ? Hf Ht]; subst. cbn [ascending] in Ha. destruct Ha as [A1 A2].
    apply Forall_forall. intros [g u] Hg i. cbn [fst].
    assert (Hgt : In g t) by (eapply in_combine_l; eauto).
    destruct (ascending_in _ _ _ g Ht A2 Hgt) as [B1 B2]. unfold in_field. lia.
  - inversion Hok; subst. cbn [ascending] in Ha. destruct Ha. eapply IH; eauto.
Qed.

Lemma ForallOrdPairs_perm {A} (R : A -> A -> Prop) l l' : (forall x y, R x y -> R y x) ->
  Permutation.Permutation l l' -> ForallOrdPairs R l -> ForallOrdPairs R l'.
Proof.
  intros Hs Hp. induction Hp as [|x l l' Hp IH|x y l|l1 l2 l3 H1 IH1 H2 IH2]; intros H; auto.
  - inversion H as [|? ? F O]; subst. constructor; auto.
    rewrite Forall_forall in *. intros z Hz. apply F. eapply Permutation.Permutation_in; [|exact Hz].
    now apply Permutation.Permutation_sym.
  - inversion H as [|? ? F O]; subst. inversion O as [|? ? F2 O2]; subst. inversion F; subst.
    constructor; [constructor; auto|]. constructor; auto.
Qed.

Lemma existsb_perm {A} (p : A -> bool) l l' : Permutation.Permutation l l' -> existsb p l = existsb p l'.
Proof.
  induction 1; cbn; auto; try congruence. now rewrite !orb_assoc, (orb_comm (p y)).
Qed.

(** Storing the values of a record into a zeroed buffer, field by field in any order, produces the bytes
    the Python builder produces. *)
Lemma store_all_record w sd rec vals fvs tail :
  sdef_ok sd -> record_values rec sd vals ->
  Permutation.Permutation fvs (combine (s_fields sd) vals) ->
  (forall f v b, In (f, v) fvs -> is_bytes b -> List.length b = (Z.to_nat (s_size sd) + tail)%nat ->
     exists b', w f v b = Some b' /\ stores b (f_off f) (f_width f) v b') ->
  exists bytes, pack_record sd rec = Ok bytes /\
    store_all w fvs (zeros (Z.to_nat (s_size sd) + tail)) = Some (bytes ++ zeros tail).
Proof.
  intros Hsd Hrv Hp Hw. pose proof Hsd as (Hs & Ha & Hok & _).
  destruct (pack_record_ok sd rec vals Hsd Hrv) as (bytes & Hpk & Hlen & Hby & Hbits & _).
  exists bytes. split; [assumption|].
  destruct (store_all_bits w fvs (zeros (Z.to_nat (s_size sd) + tail))
              (fun b => List.length b = (Z.to_nat (s_size sd) + tail)%nat)) as (b & E & L & B & H).
  - eapply ForallOrdPairs_perm; [|apply Permutation.Permutation_sym; exact Hp|].
    + intros x y Hxy i. rewrite andb_comm. apply Hxy.
    + eapply ascending_disjoint; eauto.
  - apply is_bytes_zeros.
  - apply repeat_length.
  - intros f v b Hin Hb Hl. destruct (Hw f v b Hin Hb Hl) as (b' & E & S). exists b'.
    split; [assumption|]. split; [assumption|]. destruct S as (Sl & _). lia.
  - rewrite E. f_equal. apply bytes_ext; auto.
    + rewrite is_bytes_app. split; [assumption|apply is_bytes_zeros].
    + rewrite L. unfold zeros. rewrite app_length, !repeat_length. unfold zlen in Hlen. lia.
    + intros i Hi. rewrite H by assumption. rewrite zeros_bit.
      assert (Er : bit_at (bytes ++ zeros tail) i = bit_at bytes i).
      { destruct (Z.lt_ge_cases i (8 * zlen bytes)) as [Hlt|Hge].
        - apply bit_at_app_l. lia.
        - replace i with (8 * zlen bytes + (i - 8 * zlen bytes)) at 1 by lia.
          rewrite bit_at_app_r by lia. rewrite zeros_bit. unfold bit_at.
          rewrite nth_overflow by (unfold zlen in *; lia). now rewrite Z.bits_0. }
      rewrite Er, Hbits by assumption. rewrite <- (existsb_perm _ _ _ Hp).
      destruct (existsb (fun fv => in_field (fst fv) i) fvs) eqn:E2; [reflexivity|].
      symmetry. clear - E2. induction fvs as [|[g u] t IH]; [reflexivity|]. cbn [existsb fst] in *.
      apply orb_false_iff in E2. destruct E2 as [E1 E2]. rewrite fbit_in, E1. cbn. now apply IH.
Qed.

(** Where Python reads the values of a record, so does any reader that reads the schema's value. *)
Lemma record_schema_values sd rec vals bytes post :
  sdef_ok sd -> record_values rec sd vals -> pack_record sd rec = Ok bytes -> is_bytes post ->
  Forall2 (fun f v => schema_value (bytes ++ post) (f_off f) (f_width f) (f_signed f) = v)
          (s_fields sd) vals.
Proof.
  intros Hsd Hrv Hpk Hpost. pose proof Hsd as (Hs & Ha & Hok & _).
  destruct (pack_record_ok sd rec vals Hsd Hrv) as (bytes' & Hpk' & Hlen & Hby & _ & Hread).
  rewrite Hpk in Hpk'. injection Hpk' as <-.
  specialize (Hread [] post ltac:(constructor) Hpost). cbn [app] in Hread.
  destruct Hrv as [Hv _].
  eapply Forall2_combine_in; [exact Hread|]. cbv beta. intros f v Hin Hg.
  assert (Hfin : In f (s_fields sd)) by (eapply in_combine_l; eauto).
  destruct (ascending_in _ _ _ f Hok Ha Hfin) as [Hlo Hhi].
  rewrite Forall_forall in Hok. destruct (Hok f Hfin) as [Hw H1].
  assert (Hrep : representable (f_width f) (f_signed f) v).
  { eapply (Forall2_in_combine _ _ _ _ _ Hv Hin). }
  symmetry. apply py_read_schema.
  - rewrite is_bytes_app. auto.
  - unfold in_bounds. rewrite zlen_app. pose proof (zlen_nonneg post). lia.
  - lia.
  - exact Hg.
  - intros Ew Es. rewrite Ew, Es in Hrep. apply Hrep.
Qed.

Lemma skipn_add {A} (l : list A) n : forall m, skipn n (skipn m l) = skipn (m + n) l.
Proof.
  intros m. revert l. induction m as [|m IH]; intros l; [reflexivity|].
  destruct l as [|x t]; [now rewrite !skipn_nil|]. cbn. apply IH.
Qed.
