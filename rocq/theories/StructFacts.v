(** Proofs about records and structure views. *)
From Coq Require Import List ZArith Bool String Lia.
From Coq Require Import ZifyBool ZifyNat.
From Verif Require Import PyBase Spec DataAccess BitFacts DataAccessFacts DataAccessThms Structure StructSpec.
Import ListNotations.
Local Open Scope Z_scope.
Ltac Zify.zify_post_hook ::= Z.div_mod_to_equations.

Definition fbit (i : Z) (fv : fsig * Z) : bool :=
  vbit (snd fv) (f_width (fst fv)) (i - f_off (fst fv)).

Lemma ascending_le start fs limit : Forall field_ok fs -> ascending start fs limit -> start <= limit.
Proof.
  revert start. induction fs as [|f t IH]; intros start Hok Ha; cbn [ascending] in Ha; [assumption|].
  inversion Hok as [|? ? Hf Ht]; subst. destruct Ha as [H1 H2]. destruct Hf as [Hw _].
  specialize (IH _ Ht H2). lia.
Qed.

Lemma ascending_in start fs limit f : Forall field_ok fs -> ascending start fs limit -> In f fs ->
  start <= f_off f /\ f_off f + f_width f <= limit.
Proof.
  revert start. induction fs as [|g t IH]; intros start Hok Ha Hin; [destruct Hin|].
  inversion Hok as [|? ? Hf Ht]; subst. cbn [ascending] in Ha. destruct Ha as [H1 H2].
  destruct Hin as [->|Hin].
  - split; [assumption|]. eapply ascending_le; eauto.
  - destruct (IH _ Ht H2 Hin). destruct Hf as [Hw _]. lia.
Qed.

Lemma pack_fields_bits base rec fs : forall vals buf start limit,
  is_bytes buf -> 0 <= base -> 0 <= start -> ascending start fs limit -> base + limit <= 8 * zlen buf ->
  Forall field_ok fs -> Forall2 (has_value rec) fs vals ->
  (forall i, start + base <= i -> bit_at buf i = false) ->
  exists buf', foldM (write_field base rec) buf fs = Ok buf' /\ List.length buf' = List.length buf /\
    is_bytes buf' /\
    forall i, 0 <= i -> bit_at buf' i = bit_at buf i || existsb (fbit (i - base)) (combine fs vals).
Proof.
  induction fs as [|f t IH]; intros vals buf start limit Hb Hbase Hst Ha Hlim Hok Hv Hz.
  - exists buf. repeat split; auto. intros i Hi. cbn. now rewrite orb_false_r.
  - inversion Hv as [|? v ? vals' Hf Hvt]; subst. inversion Hok as [|? ? Hfok Htok]; subst.
    cbn [ascending] in Ha. destruct Ha as [Ha1 Ha2].
    pose proof (ascending_le _ _ _ Htok Ha2) as Hle.
    destruct Hf as [Hdg Hrep]. destruct Hfok as [Hw H1].
    cbn [foldM]. unfold write_field at 1. rewrite Hdg. cbn [write_pyval].
    assert (Hv1 : f_width f = 1 -> v = 0 \/ v = 1).
    { intros E. rewrite (H1 E), E in Hrep. cbn in Hrep. lia. }
    destruct (write_zero_tail buf (f_off f + base) (f_width f) (f_signed f) v)
      as (b1 & He & Hl & Hby & Hbit); auto.
    { unfold in_bounds. lia. }
    { intros i Hi. apply Hz. lia. }
    rewrite He. cbn [bind].
    destruct (IH vals' b1 (f_off f + f_width f) limit) as (b2 & He2 & Hl2 & Hby2 & Hbit2); auto; try lia.
    { unfold zlen in *. lia. }
    { intros i Hi. rewrite Hbit by lia. replace (i <? f_off f + base) with false by lia.
      unfold vbit. replace (i - (f_off f + base) <? f_width f) with false by lia.
      now rewrite andb_false_r. }
    exists b2. repeat split; auto; [congruence|].
    intros i Hi. rewrite Hbit2 by assumption. cbn [combine existsb].
    rewrite orb_assoc. f_equal. rewrite Hbit by assumption.
    unfold fbit at 1. cbn [fst snd].
    destruct (i <? f_off f + base) eqn:E.
    + unfold vbit. replace (0 <=? i - base - f_off f) with false by lia. cbn [andb].
      now rewrite orb_false_r.
    + rewrite (Hz i) by lia. cbn [orb]. f_equal. lia.
Qed.

Lemma zeros_bit n i : bit_at (zeros n) i = false.
Proof.
  unfold bit_at, zeros.
  assert (E : forall k, nth k (repeat 0 n) 0 = 0).
  { clear. induction n as [|m IH]; intros [|k]; cbn; auto. }
  rewrite E. apply Z.bits_0.
Qed.

Lemma zlen_zeros n : 0 <= n -> zlen (zeros (Z.to_nat n)) = n.
Proof. intros. unfold zeros. rewrite zlen_repeat. lia. Qed.

(** Bits of a concatenation. *)
Lemma bit_at_app_r pre l i : 0 <= i -> bit_at (pre ++ l) (8 * zlen pre + i) = bit_at l i.
Proof.
  intros Hi. unfold bit_at.
  replace ((8 * zlen pre + i) mod 8) with (i mod 8) by lia.
  rewrite app_nth2 by (unfold zlen in *; lia).
  do 2 f_equal. unfold zlen in *. lia.
Qed.

Lemma bit_at_app_l l post i : 0 <= i < 8 * zlen l -> bit_at (l ++ post) i = bit_at l i.
Proof.
  intros Hi. unfold bit_at. rewrite app_nth1 by (unfold zlen in *; lia). reflexivity.
Qed.

(** On the bits of one field only that field contributes. *)
Lemma existsb_other_fields fs : forall start limit vals i,
  Forall field_ok fs -> ascending start fs limit -> i < start ->
  existsb (fbit i) (combine fs vals) = false.
Proof.
  induction fs as [|f t IH]; intros start limit vals i Hok Ha Hi; [reflexivity|].
  destruct vals as [|v vals]; [reflexivity|]. inversion Hok as [|? ? Hf Ht]; subst.
  cbn [ascending] in Ha. destruct Ha as [H1 H2]. destruct Hf as [Hw _]. cbn [combine existsb].
  rewrite (IH (f_off f + f_width f) limit) by (auto; lia).
  unfold fbit, vbit. cbn [fst snd]. replace (0 <=? i - f_off f) with false by lia. reflexivity.
Qed.

Lemma existsb_field fs : forall start limit vals f v,
  Forall field_ok fs -> ascending start fs limit -> In (f, v) (combine fs vals) ->
  forall k, 0 <= k < f_width f ->
  existsb (fbit (f_off f + k)) (combine fs vals) = vbit v (f_width f) k.
Proof.
  induction fs as [|g t IH]; intros start limit vals f v Hok Ha Hin k Hk; [destruct Hin|].
  destruct vals as [|w vals]; [destruct Hin|]. inversion Hok as [|? ? Hg Ht]; subst.
  cbn [ascending] in Ha. destruct Ha as [H1 H2]. cbn [combine existsb] in *.
  destruct Hin as [E|Hin].
  - inversion E; subst g w. rewrite (existsb_other_fields t (f_off f + f_width f) limit) by (auto; lia).
    rewrite orb_false_r. unfold fbit. cbn [fst snd]. f_equal. lia.
  - rewrite (IH (f_off g + f_width g) limit vals f v) by auto.
    assert (Hf : In f t) by (eapply in_combine_l; eauto).
    destruct (ascending_in _ _ _ f Ht H2 Hf) as [Hlo _].
    unfold fbit, vbit at 1. cbn [fst snd]. replace (f_off f + k - f_off g <? f_width g) with false by lia.
    now rewrite andb_false_r.
Qed.

Lemma existsb_gap fs i : (forall f, In f fs -> i < f_off f \/ f_off f + f_width f <= i) ->
  forall vals, existsb (fbit i) (combine fs vals) = false.
Proof.
  induction fs as [|f t IH]; intros H vals; [reflexivity|]. destruct vals as [|v vals]; [reflexivity|].
  cbn [combine existsb]. rewrite IH by (intros g Hg; apply H; now right). rewrite orb_false_r.
  unfold fbit, vbit. cbn [fst snd]. destruct (H f (or_introl eq_refl)).
  - replace (0 <=? i - f_off f) with false by lia. reflexivity.
  - replace (i - f_off f <? f_width f) with false by lia. now rewrite andb_false_r.
Qed.

Lemma mapM_Forall2 {A B} (f : A -> res B) l r : Forall2 (fun x y => f x = Ok y) l r -> mapM f l = Ok r.
Proof. induction 1 as [|x y l r H _ IH]; cbn [mapM]; [reflexivity|]. now rewrite H, IH. Qed.

Lemma Forall2_in_combine {A B} (R : A -> B -> Prop) l r x y :
  Forall2 R l r -> In (x, y) (combine l r) -> R x y.
Proof.
  induction 1 as [|a b l r H _ IH]; cbn [combine]; [intros []|].
  intros [E|Hin]; [inversion E; subst; assumption|auto].
Qed.

Lemma Forall2_combine_in {A B} (R S : A -> B -> Prop) l r :
  Forall2 R l r -> (forall x y, In (x, y) (combine l r) -> R x y -> S x y) -> Forall2 S l r.
Proof.
  induction 1 as [|a b l r H _ IH]; intros HS; constructor.
  - apply HS; [now left|assumption].
  - apply IH. intros x y Hin. apply HS. now right.
Qed.

(** A byte string laid out as [fs] with values [vals] at bit offset [base], embedded anywhere, reads
    back the values. *)
Lemma fields_read_back fs limit vals bytes pre post base sd :
  Forall field_ok fs -> ascending 0 fs limit -> u64_ok fs -> base mod 8 = 0 -> 0 <= base ->
  base + limit <= 8 * zlen bytes ->
  is_bytes pre -> is_bytes bytes -> is_bytes post ->
  s_fields sd = fs ->
  Forall2 (fun f v => representable (f_width f) (f_signed f) v) fs vals ->
  (forall i, base <= i < 8 * zlen bytes -> bit_at bytes i = existsb (fbit (i - base)) (combine fs vals)) ->
  Forall2 (fun f v => get_value (SView sd (pre ++ bytes ++ post) (zlen pre + base / 8)) f = Ok v) fs vals.
Proof.
  intros Hok Ha Hu Hbm Hb Hlim Hpre Hbytes Hpost Hsd Hrep Hbits.
  eapply Forall2_combine_in; [exact Hrep|]. cbv beta. intros f v Hin Hr.
  assert (Hfin : In f fs) by (eapply in_combine_l; eauto).
  destruct (ascending_in _ _ _ f Hok Ha Hfin) as [Hlo Hhi].
  rewrite Forall_forall in Hok. destruct (Hok f Hfin) as [Hw H1].
  unfold get_value. cbn [v_mem v_pos].
  assert (Hoff : (zlen pre + base / 8) * 8 + f_off f = 8 * zlen pre + (base + f_off f)) by lia.
  rewrite Hoff. clear Hoff.
  assert (Hall : is_bytes (pre ++ bytes ++ post)) by (rewrite !is_bytes_app; auto).
  pose proof (zlen_nonneg pre). pose proof (zlen_nonneg post).
  apply read_back; auto.
  - unfold in_bounds. rewrite !zlen_app. lia.
  - intros E. rewrite (H1 E), E in Hr. cbn in Hr. lia.
  - intros k Hk. rewrite <- Z.add_assoc, bit_at_app_r by lia.
    rewrite bit_at_app_l by lia. rewrite Hbits by lia.
    replace (base + f_off f + k - base) with (f_off f + k) by lia.
    eapply existsb_field with (start := 0) (limit := limit); eauto. now apply Forall_forall.
  - intros E64 Es Hne i Hi.
    assert (Hne' : f_off f mod 8 <> 0) by lia.
    set (j := i - 8 * zlen pre).
    assert (Hj : base + f_off f + 64 <= j < base + 8 * ((f_off f + 64 + 7) / 8)) by (unfold j; lia).
    replace i with (8 * zlen pre + j) by (unfold j; lia).
    rewrite bit_at_app_r by lia.
    rewrite bit_at_app_l by lia.
    rewrite Hbits by lia.
    apply existsb_gap. intros g Hg.
    destruct (Z.lt_ge_cases (f_off g) (f_off f + 64)) as [Hlt|Hge].
    + right.
      assert (Hg_le : f_off g + f_width g <= f_off f + 64).
      { clear - Hok Ha Hfin Hg Hlt E64.
        assert (Hok' : Forall field_ok fs) by (now apply Forall_forall).
        revert Ha Hok' Hfin Hg. generalize 0 as st. clear Hok.
        induction fs as [|x t IH]; intros st Ha Hok' Hf Hg; [destruct Hf|].
        inversion Hok' as [|? ? Hx Ht]; subst. cbn [ascending] in Ha. destruct Ha as [A1 A2].
        destruct Hf as [->|Hf]; destruct Hg as [->|Hg].
        - lia.
        - destruct (ascending_in _ _ _ g Ht A2 Hg). lia.
        - destruct (ascending_in _ _ _ f Ht A2 Hf). lia.
        - eapply IH; eauto. }
      lia.
    + left. pose proof (Hu f Hfin E64 Es Hne' g Hg Hge). lia.
Qed.

Lemma has_value_rep rec fs vals : Forall2 (has_value rec) fs vals ->
  Forall2 (fun f v => representable (f_width f) (f_signed f) v) fs vals.
Proof. induction 1 as [|f v fs vals [_ H] _ IH]; constructor; auto. Qed.

(** A packed record: size, byte-ness, and all values read back wherever it is embedded. *)
Lemma pack_record_ok sd rec vals : sdef_ok sd -> record_values rec sd vals ->
  exists bytes, pack_record sd rec = Ok bytes /\ zlen bytes = s_size sd /\ is_bytes bytes /\
    (forall i, 0 <= i -> bit_at bytes i = existsb (fbit i) (combine (s_fields sd) vals)) /\
    forall pre post, is_bytes pre -> is_bytes post ->
      Forall2 (fun f v => get_value (SView sd (pre ++ bytes ++ post) (zlen pre)) f = Ok v) (s_fields sd) vals.
Proof.
  intros (Hs & Ha & Hok & Hu & Hnd & Hk) [Hv _].
  destruct (pack_fields_bits 0 rec (s_fields sd) vals (zeros (Z.to_nat (s_size sd))) 0 (8 * s_size sd))
    as (b & He & Hl & Hby & Hbit); auto; try lia.
  - apply is_bytes_zeros.
  - rewrite zlen_zeros by lia. lia.
  - intros i _. apply zeros_bit.
  - assert (Hzl : zlen b = s_size sd).
    { rewrite <- (zlen_zeros (s_size sd)) by lia. unfold zlen. lia. }
    assert (Hbits : forall i, 0 <= i -> bit_at b i = existsb (fbit i) (combine (s_fields sd) vals)).
    { intros i Hi. rewrite Hbit by assumption. rewrite zeros_bit. cbn [orb]. now rewrite Z.sub_0_r. }
    exists b. split; [exact He|]. split; [exact Hzl|]. split; [assumption|]. split; [exact Hbits|].
    intros pre post Hpre Hpost.
    replace (zlen pre) with (zlen pre + 0 / 8) by (change (0 / 8) with 0; lia).
    eapply fields_read_back with (limit := 8 * s_size sd); eauto; try lia.
    + eapply has_value_rep; eauto.
    + intros i Hi. rewrite Z.sub_0_r. apply Hbits. lia.
Qed.

Lemma pack_element_ok ti sd rec vals : 0 <= ti < 256 -> sdef_ok sd -> record_values rec sd vals ->
  exists bytes, pack_element ti sd rec = Ok (ti :: bytes) /\ zlen bytes = s_size sd /\ is_bytes bytes /\
    forall pre post, is_bytes pre -> is_bytes post ->
      Forall2 (fun f v => get_value (SView sd (pre ++ (ti :: bytes) ++ post) (zlen pre + 1)) f = Ok v)
              (s_fields sd) vals.
Proof.
  intros Hti (Hs & Ha & Hok & Hu & Hnd & Hk) [Hv _].
  unfold pack_element. cbv zeta.
  assert (HT : py_to_bytes ti 1 false = Ok [ti]).
  { unfold py_to_bytes. change (1 <? 0) with false. cbv iota.
    change (2 ^ (8 * 1)) with 256. replace ((0 <=? ti) && (ti <? 256)) with true by lia.
    change (Z.to_nat 1) with 1%nat. cbn [to_le]. now rewrite Z.mod_small by lia. }
  rewrite HT. cbn [bind]. rewrite py_get_in by (cbn; lia). cbn [bind nth Z.to_nat].
  assert (Hzl : zlen (zeros (Z.to_nat (s_size sd + 1))) = s_size sd + 1) by (apply zlen_zeros; lia).
  rewrite py_set_in by (try (unfold is_byte; lia); lia). cbn [bind].
  replace (Z.to_nat (s_size sd + 1)) with (S (Z.to_nat (s_size sd))) by lia.
  unfold zeros. cbn [repeat list_set Z.to_nat]. fold (zeros (Z.to_nat (s_size sd))).
  set (buf := ti :: zeros (Z.to_nat (s_size sd))).
  assert (Hbuf : is_bytes buf) by (constructor; [unfold is_byte; lia|apply is_bytes_zeros]).
  assert (Hbufl : zlen buf = 1 + s_size sd) by (unfold buf; rewrite zlen_cons, zlen_zeros; lia).
  assert (Hbufz : forall i, 8 <= i -> bit_at buf i = false).
  { intros i Hi. unfold buf. change (ti :: zeros (Z.to_nat (s_size sd))) with ([ti] ++ zeros (Z.to_nat (s_size sd))).
    assert (Z1 : zlen [ti] = 1) by reflexivity.
    replace i with (8 * zlen [ti] + (i - 8)) by lia. rewrite bit_at_app_r by lia. apply zeros_bit. }
  destruct (pack_fields_bits 8 rec (s_fields sd) vals buf 0 (8 * s_size sd))
    as (b & He & Hl & Hby & Hbit); auto; try lia.
  rewrite He.
  destruct b as [|b0 bytes]; [unfold zlen in *; cbn in *; lia|].
  assert (Hb0 : b0 = ti).
  { inversion Hby as [|? ? Hb0 _]; subst.
    apply Z.bits_inj'. intros k Hk0. destruct (Z.lt_ge_cases k 8) as [Hlt|Hge].
    - specialize (Hbit k Hk0).
      assert (E1 : bit_at (b0 :: bytes) k = Z.testbit b0 k).
      { unfold bit_at. replace (Z.to_nat (k / 8)) with 0%nat by lia. cbn [nth]. f_equal. lia. }
      assert (E2 : bit_at buf k = Z.testbit ti k).
      { unfold bit_at, buf. replace (Z.to_nat (k / 8)) with 0%nat by lia. cbn [nth]. f_equal. lia. }
      rewrite E1, E2 in Hbit.
      rewrite (existsb_other_fields _ 0 (8 * s_size sd)) in Hbit by (auto; lia).
      now rewrite orb_false_r in Hbit.
    - rewrite (byte_testbit_high b0), (byte_testbit_high ti) by (unfold is_byte in *; lia). reflexivity. }
  subst b0. exists bytes. split; [reflexivity|].
  assert (Hzb : zlen bytes = s_size sd) by (unfold zlen in *; cbn [List.length] in *; lia).
  split; [exact Hzb|]. split; [now inversion Hby|].
  intros pre post Hpre Hpost.
  replace (zlen pre + 1) with (zlen pre + 8 / 8) by (change (8 / 8) with 1; lia).
  eapply fields_read_back with (limit := 8 * s_size sd); eauto; try lia.
  - rewrite zlen_cons. lia.
  - eapply has_value_rep; eauto.
  - intros i Hi. rewrite Hbit by lia. rewrite Hbufz by lia. reflexivity.
Qed.

(** ** views *)
Lemma as_list_ok v vals : Forall2 (fun f x => get_value v f = Ok x) (s_fields (v_def v)) vals ->
  as_list v = Ok vals.
Proof. apply mapM_Forall2. Qed.

Lemma as_dict_ok v vals : Forall2 (fun f x => get_value v f = Ok x) (s_fields (v_def v)) vals ->
  as_dict v = Ok (combine (map f_name (s_fields (v_def v))) vals).
Proof.
  unfold as_dict. intros H. induction H as [|f x l r H _ IH]; cbn [mapM map combine]; [reflexivity|].
  rewrite H. cbn [bind]. rewrite IH. reflexivity.
Qed.

Lemma find_field_in fs f : NoDup (map f_name fs) -> In f fs -> find_field fs (f_name f) = Some f.
Proof.
  induction fs as [|g t IH]; intros Hnd Hin; [destruct Hin|]. cbn [find_field map] in *.
  inversion Hnd as [|? ? Hn Hnd']; subst. destruct Hin as [->|Hin].
  - now rewrite String.eqb_refl.
  - destruct (String.eqb (f_name g) (f_name f)) eqn:E; [|auto].
    apply String.eqb_eq in E. exfalso. apply Hn. rewrite E. now apply in_map.
Qed.

Lemma find_field_none fs name : ~ In name (map f_name fs) -> find_field fs name = None.
Proof.
  induction fs as [|g t IH]; intros H; [reflexivity|]. cbn [find_field map In] in *.
  destruct (String.eqb (f_name g) name) eqn:E; [|apply IH; tauto].
  apply String.eqb_eq in E. tauto.
Qed.

Lemma getattr_ok v vals : NoDup (map f_name (s_fields (v_def v))) ->
  Forall2 (fun f x => get_value v f = Ok x) (s_fields (v_def v)) vals ->
  forall name x, In (name, x) (combine (map f_name (s_fields (v_def v))) vals) -> getattr v name = Ok x.
Proof.
  intros Hnd H name x Hin. unfold getattr.
  assert (G : exists f, In (f, x) (combine (s_fields (v_def v)) vals) /\ f_name f = name).
  { clear H Hnd. revert vals Hin. induction (s_fields (v_def v)) as [|f t IH]; intros vals Hin; [destruct Hin|].
    destruct vals as [|y vals]; [destruct Hin|]. cbn [map combine In] in *.
    destruct Hin as [E|Hin]; [inversion E; subst; exists f; auto|].
    destruct (IH vals Hin) as (g & G1 & G2). exists g. auto. }
  destruct G as (f & Hf & <-). rewrite find_field_in; [|assumption|eapply in_combine_l; eauto].
  exact (Forall2_in_combine _ _ _ _ _ H Hf).
Qed.

(** ** validation *)
Lemma mapM_all_ok {A B} (f : A -> res B) l y : (forall x, In x l -> f x = Ok y) -> mapM f l = Ok (map (fun _ => y) l).
Proof.
  induction l as [|x t IH]; intros H; cbn [mapM map]; [reflexivity|].
  rewrite H by (now left). cbn [bind]. rewrite IH by (intros z Hz; apply H; now right). reflexivity.
Qed.

Lemma existsb_eqb_in k l : existsb (String.eqb k) l = true <-> In k l.
Proof.
  rewrite existsb_exists. split.
  - intros (x & Hx & E). apply String.eqb_eq in E. now subst.
  - intros H. exists k. split; [assumption|apply String.eqb_refl].
Qed.

Lemma dict_mem_in {A} (d : list (string * A)) k : dict_mem d k = true <-> In k (map fst d).
Proof.
  unfold dict_mem. induction d as [|[k' x] t IH]; cbn [dict_get map fst In].
  - split; [discriminate|intros []].
  - destruct (String.eqb k' k) eqn:E.
    + apply String.eqb_eq in E. split; [left; assumption|reflexivity].
    + apply String.eqb_neq in E. rewrite IH. split; [auto|]. intros [H|H]; [contradiction|assumption].
Qed.

Lemma mapM_unit_spec {A} (p : A -> bool) (e : A -> exn) l :
  (forallb p l = true -> mapM (fun x => if p x then Ok tt else Err (e x)) l = Ok (map (fun _ => tt) l)) /\
  (forallb p l = false -> exists x, In x l /\ p x = false /\
     mapM (fun x => if p x then Ok tt else Err (e x)) l = Err (e x)).
Proof.
  induction l as [|x t [IH1 IH2]]; split; cbn [forallb mapM map]; try discriminate; [reflexivity| |].
  - intros H. apply andb_true_iff in H. destruct H as [Hx Ht]. rewrite Hx. cbn [bind]. now rewrite IH1.
  - destruct (p x) eqn:Hx; cbn [andb bind].
    + intros Ht. destruct (IH2 Ht) as (y & H1 & H2 & H3). exists y.
      split; [now right|]. split; [assumption|]. now rewrite H3.
    + intros _. exists x. split; [now left|]. split; [assumption|reflexivity].
Qed.

(** The three possible outcomes of validation. *)
Lemma validate_fields_cases name rec sd :
  (validate_fields name rec sd = Ok tt /\ forall k, In k (s_keys sd) <-> In k (map fst rec)) \/
  (exists k, validate_fields name rec sd = Err (MissingFieldError k name) /\ In k (s_keys sd) /\ ~ In k (map fst rec)) \/
  (exists k, validate_fields name rec sd = Err (UnknownFieldError k name) /\ ~ In k (s_keys sd) /\ In k (map fst rec) /\
     forall k', In k' (s_keys sd) -> In k' (map fst rec)).
Proof.
  unfold validate_fields.
  pose (p1 := dict_mem rec). pose (p2 := fun kv : string * pyval => existsb (String.eqb (fst kv)) (s_keys sd)).
  destruct (mapM_unit_spec p1 (fun key => MissingFieldError key name) (s_keys sd)) as [A1 A2].
  destruct (mapM_unit_spec p2 (fun kv => UnknownFieldError (fst kv) name) rec) as [B1 B2].
  destruct (forallb p1 (s_keys sd)) eqn:E1.
  - assert (Hall : forall k', In k' (s_keys sd) -> In k' (map fst rec)).
    { rewrite forallb_forall in E1. intros k Hk. apply dict_mem_in. now apply E1. }
    unfold p1 in A1. rewrite A1 by reflexivity. cbn [bind].
    destruct (forallb p2 rec) eqn:E2.
    + left. unfold p2 in B1. rewrite B1 by reflexivity. split; [reflexivity|].
      intros k. split; [apply Hall|]. intros Hin. apply in_map_iff in Hin. destruct Hin as (kv & <- & Hin).
      rewrite forallb_forall in E2. apply existsb_eqb_in. exact (E2 kv Hin).
    + right; right. destruct (B2 eq_refl) as (kv & H1 & H2 & H3). exists (fst kv).
      unfold p2 in H3. rewrite H3. cbn [bind]. split; [reflexivity|]. split.
      * unfold p2 in H2. intros Hc. apply existsb_eqb_in in Hc. congruence.
      * split; [now apply in_map|assumption].
  - right; left. destruct (A2 eq_refl) as (k & H1 & H2 & H3). exists k.
    unfold p1 in H3. rewrite H3. cbn [bind]. split; [reflexivity|]. split; [assumption|].
    intros Hc. apply dict_mem_in in Hc. unfold p1 in H2. congruence.
Qed.

Lemma dict_get_in {A} (d : list (string * A)) k x : dict_get d k = Some x -> In k (map fst d).
Proof. intros H. apply dict_mem_in. unfold dict_mem. now rewrite H. Qed.

Lemma validate_ok name rec sd vals : sdef_ok sd -> record_values rec sd vals ->
  validate_fields name rec sd = Ok tt.
Proof.
  intros (Hs & Ha & Hok & Hu & Hnd & Hk) [Hv Hkeys].
  destruct (validate_fields_cases name rec sd) as [[H _]|[(k & _ & H1 & H2)|(k & _ & H1 & H2 & _)]];
    [assumption| |].
  - exfalso. apply H2. apply Hk in H1. apply in_map_iff in H1. destruct H1 as (f & <- & Hf).
    clear - Hv Hf. induction Hv as [|g v fs vs [Hg _] _ IH]; [destruct Hf|].
    destruct Hf as [->|Hf]; [eapply dict_get_in; eauto|auto].
  - exfalso. apply H1. now apply Hkeys.
Qed.

(** ** C06: sequences of writes *)
Lemma write_fields_bits fvs : forall buf start limit,
  is_bytes buf -> 0 <= start -> ascending start (map fst fvs) limit -> limit <= 8 * zlen buf ->
  Forall (fun fv => field_ok (fst fv) /\ representable (f_width (fst fv)) (f_signed (fst fv)) (snd fv)) fvs ->
  (forall i, start <= i -> bit_at buf i = false) ->
  exists buf', write_fields buf fvs = Ok buf' /\ List.length buf' = List.length buf /\ is_bytes buf' /\
    forall i, 0 <= i -> bit_at buf' i = bit_at buf i || existsb (fbit i) fvs.
Proof.
  induction fvs as [|[f v] t IH]; intros buf start limit Hb Hst Ha Hlim Hok Hz.
  - exists buf. repeat split; auto. intros i Hi. cbn. now rewrite orb_false_r.
  - inversion Hok as [|? ? [[Hw H1] Hrep] Htok]; subst. cbn [fst snd map] in *.
    cbn [ascending] in Ha. destruct Ha as [Ha1 Ha2].
    assert (Htok' : Forall field_ok (map fst t)).
    { apply Forall_map. eapply Forall_impl; [|exact Htok]. cbv beta. tauto. }
    pose proof (ascending_le _ _ _ Htok' Ha2) as Hle.
    unfold write_fields. cbn [foldM fst snd].
    assert (Hv1 : f_width f = 1 -> v = 0 \/ v = 1).
    { intros E. rewrite (H1 E), E in Hrep. cbn in Hrep. lia. }
    destruct (write_zero_tail buf (f_off f) (f_width f) (f_signed f) v)
      as (b1 & He & Hl & Hby & Hbit); auto.
    { unfold in_bounds. lia. }
    { intros i Hi. apply Hz. lia. }
    rewrite He. cbn [bind].
    destruct (IH b1 (f_off f + f_width f) limit) as (b2 & He2 & Hl2 & Hby2 & Hbit2); auto; try lia.
    { unfold zlen in *. lia. }
    { intros i Hi. rewrite Hbit by lia. replace (i <? f_off f) with false by lia.
      unfold vbit. replace (i - f_off f <? f_width f) with false by lia. now rewrite andb_false_r. }
    exists b2. repeat split; auto; [congruence|].
    intros i Hi. rewrite Hbit2 by assumption. cbn [existsb].
    rewrite orb_assoc. f_equal. rewrite Hbit by assumption.
    unfold fbit at 1. cbn [fst snd].
    destruct (i <? f_off f) eqn:E.
    + unfold vbit. replace (0 <=? i - f_off f) with false by lia. cbn [andb]. now rewrite orb_false_r.
    + rewrite (Hz i) by lia. reflexivity.
Qed.

Lemma combine_split_map {A B} (l : list (A * B)) : combine (map fst l) (map snd l) = l.
Proof. induction l as [|[a b] t IH]; cbn; congruence. Qed.

Lemma Forall_fst_ok fvs :
  Forall (fun fv => field_ok (fst fv) /\ representable (f_width (fst fv)) (f_signed (fst fv)) (snd fv)) fvs ->
  Forall field_ok (map fst fvs).
Proof. intros H. apply Forall_map. eapply Forall_impl; [|exact H]. cbv beta. tauto. Qed.

Lemma ascending_writes n fvs :
  ascending 0 (map fst fvs) (8 * Z.of_nat n) ->
  Forall (fun fv => field_ok (fst fv) /\ representable (f_width (fst fv)) (f_signed (fst fv)) (snd fv)) fvs ->
  exists bytes, write_fields (zeros n) fvs = Ok bytes /\ List.length bytes = n /\ is_bytes bytes /\
    (forall f v, In (f, v) fvs -> uint_at bytes (f_off f) (Z.to_nat (f_width f)) = v mod 2 ^ f_width f) /\
    (forall i, 0 <= i -> in_gap (map fst fvs) i -> bit_at bytes i = false) /\
    (u64_ok (map fst fvs) -> forall f v, In (f, v) fvs ->
       read_value bytes (f_off f) (f_width f) (f_signed f) = Ok v).
Proof.
  intros Ha Hok.
  assert (Hlen : zlen (zeros n) = Z.of_nat n).
  { pose proof (zlen_zeros (Z.of_nat n)) as H. rewrite Nat2Z.id in H. apply H. lia. }
  destruct (write_fields_bits fvs (zeros n) 0 (8 * Z.of_nat n)) as (b & He & Hl & Hby & Hbit); auto; try lia.
  { apply is_bytes_zeros. }
  { intros i _. apply zeros_bit. }
  pose proof (Forall_fst_ok _ Hok) as Hfok.
  assert (Hb : forall i, 0 <= i -> bit_at b i = existsb (fbit i) fvs).
  { intros i Hi. rewrite Hbit by assumption. now rewrite zeros_bit. }
  assert (Hl' : zlen b = Z.of_nat n) by (unfold zlen in *; lia).
  exists b. split; [exact He|]. split; [unfold zeros in Hl; now rewrite repeat_length in Hl|].
  split; [assumption|]. split; [|split].
  - intros f v Hin. assert (Hf : In f (map fst fvs)) by (apply in_map_iff; exists (f, v); auto).
    destruct (ascending_in _ _ _ f Hfok Ha Hf) as [Hlo Hhi].
    rewrite Forall_forall in Hfok. destruct (Hfok f Hf) as [Hw _].
    apply vbit_uint; [lia|]. intros k Hk. rewrite Hb by lia.
    rewrite <- (combine_split_map fvs).
    eapply existsb_field with (start := 0) (limit := 8 * Z.of_nat n); eauto.
    + now apply Forall_forall.
    + now rewrite combine_split_map.
  - intros i Hi Hgap. rewrite Hb by assumption. rewrite <- (combine_split_map fvs). now apply existsb_gap.
  - intros Hu f v Hin.
    assert (G := fields_read_back (map fst fvs) (8 * Z.of_nat n) (map snd fvs) b [] [] 0
                   (SDef ""%string (Z.of_nat n) (map fst fvs) [])).
    assert (G' : Forall2 (fun f v => get_value (SView (SDef ""%string (Z.of_nat n) (map fst fvs) [])
                     ([] ++ b ++ []) (zlen (@nil Z) + 0 / 8)) f = Ok v) (map fst fvs) (map snd fvs)).
    { apply G; auto; try lia; try constructor.
      - clear - Hok. induction Hok as [|[f v] t [_ H] _ IH]; cbn; constructor; auto.
      - intros i Hi. rewrite Hb by lia. rewrite Z.sub_0_r. now rewrite combine_split_map. }
    rewrite <- (combine_split_map fvs) in Hin.
    pose proof (Forall2_in_combine _ _ _ _ _ G' Hin) as R. cbv beta in R.
    unfold get_value in R. cbn [v_mem v_pos] in R. rewrite app_nil_r in R. cbn [app] in R.
    change (zlen (@nil Z) + 0 / 8) with 0 in R. cbn [Z.mul Z.add] in R. exact R.
Qed.

(** A later write leaves the bits of all earlier fields as they were. *)
Lemma ascending_app fs1 : forall fs2 start limit, ascending start (fs1 ++ fs2) limit ->
  Forall field_ok (fs1 ++ fs2) -> ascending start fs1 limit.
Proof.
  induction fs1 as [|f t IH]; intros fs2 start limit Ha Hok; cbn [app ascending] in *.
  - eapply ascending_le; eauto.
  - destruct Ha as [A1 A2]. split; [assumption|]. inversion Hok; subst. eapply IH; eauto.
Qed.

Lemma foldM_app {A S} (f : S -> A -> res S) l1 : forall s l2,
  foldM f s (l1 ++ l2) = (s' <- foldM f s l1 ;; foldM f s' l2).
Proof. induction l1 as [|x t IH]; intros s l2; cbn [app foldM bind]; [reflexivity|].
  destruct (f s x); cbn [bind]; auto. Qed.

Lemma ascending_writes_prefix n fvs1 fvs2 :
  ascending 0 (map fst (fvs1 ++ fvs2)) (8 * Z.of_nat n) ->
  Forall (fun fv => field_ok (fst fv) /\ representable (f_width (fst fv)) (f_signed (fst fv)) (snd fv)) (fvs1 ++ fvs2) ->
  exists b1 b2, write_fields (zeros n) fvs1 = Ok b1 /\ write_fields b1 fvs2 = Ok b2 /\
    (forall f v, In (f, v) fvs1 -> forall i, f_off f <= i < f_off f + f_width f -> bit_at b2 i = bit_at b1 i).
Proof.
  intros Ha Hok. pose proof (Forall_fst_ok _ Hok) as Hfok.
  destruct (ascending_writes n (fvs1 ++ fvs2) Ha Hok) as (b2 & He & _ & _ & Hu2 & _ & _).
  unfold write_fields in He. rewrite foldM_app in He.
  assert (Ha1 : ascending 0 (map fst fvs1) (8 * Z.of_nat n)).
  { rewrite map_app in *. eapply ascending_app; eauto. }
  assert (Hok1 : Forall (fun fv => field_ok (fst fv) /\ representable (f_width (fst fv)) (f_signed (fst fv)) (snd fv)) fvs1).
  { apply Forall_app in Hok. tauto. }
  destruct (ascending_writes n fvs1 Ha1 Hok1) as (b1 & He1 & _ & _ & Hu1 & _ & _).
  exists b1, b2. unfold write_fields in He1 |- *. rewrite He1 in He. cbn [bind] in He.
  split; [exact He1|]. split; [exact He|].
  intros f v Hin i Hi.
  pose proof (Hu1 f v Hin) as U1. pose proof (Hu2 f v (in_or_app _ _ _ (or_introl Hin))) as U2.
  assert (E : uint_at b2 (f_off f) (Z.to_nat (f_width f)) = uint_at b1 (f_off f) (Z.to_nat (f_width f))) by congruence.
  assert (T := f_equal (fun x => Z.testbit x (i - f_off f)) E). cbv beta in T.
  rewrite !uint_at_testbit in T by lia.
  replace (i - f_off f <? Z.of_nat (Z.to_nat (f_width f))) with true in T by lia.
  cbn [andb] in T. replace (f_off f + (i - f_off f)) with i in T by lia. exact T.
Qed.

(** ** C09 *)
Lemma uint_at_shift a b : forall n oa ob, (forall k, 0 <= k < Z.of_nat n -> bit_at a (oa + k) = bit_at b (ob + k)) ->
  uint_at a oa n = uint_at b ob n.
Proof.
  induction n as [|n IH]; intros oa ob H; cbn [uint_at]; [reflexivity|].
  pose proof (H 0) as H0. rewrite !Z.add_0_r in H0. rewrite H0 by lia.
  rewrite (IH (oa + 1) (ob + 1)); [reflexivity|].
  intros k Hk. rewrite <- !Z.add_assoc. apply H. lia.
Qed.

Lemma view_local sd a b pa pb :
  is_bytes a -> is_bytes b -> 0 <= pa -> 0 <= pb -> pa + s_size sd <= zlen a -> pb + s_size sd <= zlen b ->
  ascending 0 (s_fields sd) (8 * s_size sd) -> Forall field_ok (s_fields sd) -> u64_aligned (s_fields sd) ->
  (forall k, 0 <= k < s_size sd -> nth (Z.to_nat (pa + k)) a 0 = nth (Z.to_nat (pb + k)) b 0) ->
  forall f, In f (s_fields sd) -> get_value (SView sd a pa) f = get_value (SView sd b pb) f.
Proof.
  intros Ba Bb Ha Hb La Lb Hasc Hok Hu Heq f Hf.
  destruct (ascending_in _ _ _ f Hok Hasc Hf) as [Hlo Hhi].
  rewrite Forall_forall in Hok. destruct (Hok f Hf) as [Hw _].
  assert (Hbits : forall k, 0 <= k < f_width f ->
            bit_at a (pa * 8 + f_off f + k) = bit_at b (pb * 8 + f_off f + k)).
  { intros k Hk. unfold bit_at.
    replace ((pa * 8 + f_off f + k) / 8) with (pa + (f_off f + k) / 8) by lia.
    replace ((pb * 8 + f_off f + k) / 8) with (pb + (f_off f + k) / 8) by lia.
    rewrite Heq by lia. f_equal. lia. }
  unfold get_value. cbn [v_mem v_pos].
  rewrite !read_value_total by (auto; unfold in_bounds; lia). f_equal. unfold read_result.
  destruct (f_width f =? 1) eqn:E1.
  - specialize (Hbits 0). rewrite !Z.add_0_r in Hbits. rewrite Hbits by lia. reflexivity.
  - pose proof (Hu f Hf) as Hu'. destruct ((f_width f =? 64) && negb (f_signed f)) eqn:E2.
    + assert (f_width f = 64) by lia. assert (f_signed f = false) by (destruct (f_signed f); cbn in *; lia).
      assert (Hm : f_off f mod 8 = 0) by (apply Hu'; assumption).
      replace ((pa * 8 + f_off f) mod 8) with 0 by lia. replace ((pb * 8 + f_off f) mod 8) with 0 by lia.
      cbn [Z.eqb]. apply uint_at_shift. intros k Hk. apply Hbits. lia.
    + unfold field_value. rewrite (uint_at_shift a b _ _ (pb * 8 + f_off f)); [reflexivity|].
      intros k Hk. apply Hbits. lia.
Qed.

Lemma mapM_ext_in {A B} (f g : A -> res B) l : (forall x, In x l -> f x = g x) -> mapM f l = mapM g l.
Proof.
  induction l as [|x t IH]; intros H; cbn [mapM]; [reflexivity|].
  rewrite H by (now left). destruct (g x); cbn [bind]; [|reflexivity].
  rewrite IH; [reflexivity|]. intros y Hy. apply H. now right.
Qed.

Lemma find_field_some fs name f : find_field fs name = Some f -> In f fs /\ f_name f = name.
Proof.
  induction fs as [|g t IH]; cbn [find_field]; [discriminate|].
  destruct (String.eqb (f_name g) name) eqn:E.
  - intros H; inversion H; subst. apply String.eqb_eq in E. split; [now left|assumption].
  - intros H. destruct (IH H). split; [now right|assumption].
Qed.

(** ** C23 *)
From Coq Require Import Permutation.

Lemma mapM_perm {A B} (f : A -> res B) l l' : Permutation l l' ->
  forall r, mapM f l = Ok r -> exists r', mapM f l' = Ok r' /\ Permutation (combine l r) (combine l' r').
Proof.
  induction 1 as [|x l l' H IH|x y l|l l' l'' H1 IH1 H2 IH2]; intros r Hr; cbn [mapM] in *.
  - inversion Hr; subst. exists []. split; [reflexivity|constructor].
  - destruct (f x) as [y|e] eqn:E; cbn [bind] in *; [|discriminate].
    destruct (mapM f l) as [ys|e] eqn:E2; cbn [bind] in *; [|discriminate]. inversion Hr; subst.
    destruct (IH ys eq_refl) as (r' & Hr' & HP). rewrite Hr'. cbn [bind]. exists (y :: r'). split; [reflexivity|].
    cbn [combine]. now constructor.
  - destruct (f y) as [vy|e] eqn:Ey; cbn [bind] in *; [|discriminate].
    destruct (f x) as [vx|e] eqn:Ex; cbn [bind] in *; [|discriminate].
    destruct (mapM f l) as [ys|e] eqn:E2; cbn [bind] in *; [|discriminate]. inversion Hr; subst.
    exists (vx :: vy :: ys). split; [reflexivity|]. cbn [combine]. constructor.
  - destruct (IH1 r Hr) as (r1 & Hr1 & P1). destruct (IH2 r1 Hr1) as (r2 & Hr2 & P2).
    exists r2. split; [assumption|]. etransitivity; eauto.
Qed.

Lemma struct_iter_perm v vals : NoDup (map f_name (s_fields (v_def v))) ->
  Permutation (s_keys (v_def v)) (map f_name (s_fields (v_def v))) -> as_list v = Ok vals ->
  exists vals', struct_iter v = Ok vals' /\
    Permutation (combine (s_keys (v_def v)) vals') (combine (map f_name (s_fields (v_def v))) vals).
Proof.
  intros Hnd HP Hl.
  assert (H : mapM (getattr v) (map f_name (s_fields (v_def v))) = Ok vals).
  { rewrite <- Hl. unfold as_list.
    assert (G : forall fs, (forall f, In f fs -> getattr v (f_name f) = get_value v f) ->
              mapM (getattr v) (map f_name fs) = mapM (get_value v) fs).
    { induction fs as [|f t IH]; intros HG; cbn [map mapM]; [reflexivity|].
      rewrite HG by (now left). rewrite IH; [reflexivity|]. intros g Hg. apply HG. now right. }
    apply G. intros f Hf. unfold getattr. now rewrite find_field_in. }
  destruct (mapM_perm _ _ _ (Permutation_sym HP) vals H) as (r' & H1 & H2).
  exists r'. split; [exact H1|]. now apply Permutation_sym.
Qed.
