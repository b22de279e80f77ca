(** Facts about basic types, constants and enumerations of the generator. *)
From Coq Require Import List ZArith Bool String Ascii Lia Permutation DecimalString DecimalZ Decimal.
From Verif Require Import PyBase Spec PyText GenTypes GenSpec.
Import ListNotations.
Local Open Scope Z_scope.

Lemma Forall2_length {A B} (R : A -> B -> Prop) l1 l2 : Forall2 R l1 l2 -> List.length l1 = List.length l2.
Proof. induction 1; cbn; congruence. Qed.
Lemma map_fst_combine {A B} (l1 : list A) : forall (l2 : list B), List.length l1 = List.length l2 ->
  map (fun x => fst x) (combine l1 l2) = l1.
Proof. induction l1 as [|x l IH]; intros [|y vs] H; cbn in *; try discriminate; [reflexivity|]. f_equal. apply IH. now injection H. Qed.
Lemma bit_length_le v w : 0 <= v -> 0 <= w -> (bit_length v <= w <-> v < 2 ^ w).
Proof.
  intros Hv Hw. unfold bit_length. destruct (Z.eqb_spec v 0) as [->|Hne].
  - split; [intros _; apply Z.pow_pos_nonneg; lia|lia].
  - rewrite Z.abs_eq by lia. pose proof (Z.log2_spec v ltac:(lia)) as [H1 H2].
    split; intros H.
    + assert (2 ^ Z.succ (Z.log2 v) <= 2 ^ w) by (apply Z.pow_le_mono_r; lia). lia.
    + apply Z.log2_lt_pow2 in H; lia.
Qed.
Lemma bit_length_nonneg v : 0 <= bit_length v.
Proof. unfold bit_length; destruct (v =? 0); [lia|]. pose proof (Z.log2_nonneg (Z.abs v)); lia. Qed.

Lemma bits_required_ok t v : (bt_signed t = true \/ 0 <= v) ->
  exists b, bits_required t v = Ok b /\ 0 <= b /\ forall w, b <= w <-> representable w (bt_signed t) v.
Proof.
  intros H. unfold bits_required, representable. destruct (bt_signed t) eqn:Es.
  - rewrite Z.geb_leb. destruct (Z.leb_spec 0 v).
    + exists (bit_length v + 1). split; [reflexivity|]. pose proof (bit_length_nonneg v). split; [lia|]. intros w.
      destruct (Z.ltb_spec w 1).
      * rewrite (Z.pow_neg_r 2 (w - 1)) by lia. lia.
      * pose proof (bit_length_le v (w - 1) H0 ltac:(lia)). pose proof (Z.pow_pos_nonneg 2 (w - 1)). lia.
    + exists (bit_length (- v - 1) + 1). split; [reflexivity|]. pose proof (bit_length_nonneg (- v - 1)). split; [lia|]. intros w.
      destruct (Z.ltb_spec w 1).
      * rewrite (Z.pow_neg_r 2 (w - 1)) by lia. lia.
      * pose proof (bit_length_le (- v - 1) (w - 1) ltac:(lia) ltac:(lia)). lia.
  - destruct H as [H|H]; [discriminate|]. rewrite Z.geb_leb. destruct (Z.leb_spec 0 v); [|lia].
    exists (bit_length v). split; [reflexivity|]. pose proof (bit_length_nonneg v). split; [lia|]. intros w.
    destruct (Z.ltb_spec w 0).
    + rewrite (Z.pow_neg_r 2 w) by lia. lia.
    + pose proof (bit_length_le v w H ltac:(lia)). lia.
Qed.
Lemma bits_required_neg t v : bt_signed t = false -> v < 0 -> bits_required t v = Err (InvalidSignError v).
Proof. intros E H. unfold bits_required. rewrite E, Z.geb_leb. destruct (Z.leb_spec 0 v); [lia|reflexivity]. Qed.

Lemma in_zrange a b v : In v (zrange a b) <-> a <= v < b.
Proof.
  unfold zrange. rewrite in_map_iff. split.
  - intros (i & <- & Hi). apply in_seq in Hi. lia.
  - intros H. exists (Z.to_nat (v - a)). split; [lia|]. apply in_seq. lia.
Qed.
Lemma zrange_nodup a b : NoDup (zrange a b).
Proof. apply FinFun.Injective_map_NoDup; [intros x y; lia|apply seq_NoDup]. Qed.
Lemma zrange_len a b : a <= b -> zlen (zrange a b) = b - a.
Proof. intros. unfold zlen, zrange. rewrite map_length, seq_length. lia. Qed.

Lemma value_range_ok t r : value_range t = Ok r ->
  NoDup r /\ (forall v, In v r <-> representable (bt_width t) (bt_signed t) v) /\ zlen r = 2 ^ bt_width t.
Proof.
  unfold value_range, representable. destruct (bt_signed t).
  - destruct (Z.ltb_spec (bt_width t) 1) as [|Hw]; [discriminate|]. intros [= <-].
    split; [apply zrange_nodup|]. split; [intros v; apply in_zrange|].
    pose proof (Z.pow_pos_nonneg 2 (bt_width t - 1)). rewrite zrange_len by lia.
    replace (bt_width t) with (Z.succ (bt_width t - 1)) at 3 by lia. rewrite Z.pow_succ_r by lia. lia.
  - destruct (Z.ltb_spec (bt_width t) 0) as [|Hw]; [discriminate|]. intros [= <-].
    split; [apply zrange_nodup|]. split; [intros v; apply in_zrange|].
    pose proof (Z.pow_pos_nonneg 2 (bt_width t)). rewrite zrange_len; lia.
Qed.

(** str(int) is injective *)
Lemma to_int_not_nil z : Z.to_int z <> Pos Nil /\ Z.to_int z <> Neg Nil.
Proof.
  destruct z as [|p|p]; cbn; split; try discriminate; intros H; injection H as H;
    exact (DecimalPos.Unsigned.to_uint_nonnil p H).
Qed.
Lemma py_str_inj a b : py_str a = py_str b -> a = b.
Proof.
  unfold py_str. intros H. apply (f_equal NilZero.int_of_string) in H.
  rewrite !NilZero.isi in H by apply to_int_not_nil. injection H as H.
  apply (f_equal Z.of_int) in H. now rewrite !DecimalZ.of_to in H.
Qed.

(** the text of a non-negative number starts with a digit *)
Lemma string_of_uint_digit d c s : NilEmpty.string_of_uint d = String c s -> exists n, digit_val 10 c = Some n.
Proof. destruct d; cbn; intros [= <- <-]; eexists; reflexivity. Qed.
Lemma py_str_digit z c s : 0 <= z -> py_str z = String c s -> exists n, digit_val 10 c = Some n.
Proof.
  intros Hz. unfold py_str. destruct z as [|p|p]; [|cbn|lia].
  - cbn. intros [= <- <-]. now exists 0.
  - unfold NilZero.string_of_uint. destruct (Pos.to_uint p) eqn:E; cbn; intros [= <- <-]; eexists; reflexivity.
Qed.

Lemma unknown_name_inj a b : unknown_name a = unknown_name b -> a = b.
Proof.
  unfold unknown_name. intros H. cbn [append] in H. repeat (injection H; clear H; intros H).
  destruct (Z.ltb_spec a 0), (Z.ltb_spec b 0).
  - cbn [append] in H. repeat (injection H; clear H; intros H). apply py_str_inj in H. lia.
  - cbn [append] in H. symmetry in H. apply py_str_digit in H; [|lia]. destruct H as [n H]. discriminate.
  - cbn [append] in H. apply py_str_digit in H; [|lia]. destruct H as [n H]. discriminate.
  - now apply py_str_inj in H.
Qed.

Lemma zmem_spec x l : zmem x l = true <-> In x l.
Proof.
  unfold zmem. rewrite existsb_exists. split; [intros (y & H & E); apply Z.eqb_eq in E; now subst|intros H; exists x; split; [exact H|apply Z.eqb_refl]].
Qed.
Lemma zmem_false x l : zmem x l = false <-> ~ In x l.
Proof. rewrite <- zmem_spec. destruct (zmem x l); split; congruence. Qed.

Lemma insert_ev_ok cs v cs' : insert_ev cs v = Ok cs' -> cs' = cs ++ [v] /\ ~ In (ev_name v) (map ev_name cs).
Proof.
  unfold insert_ev. destruct (existsb _ cs) eqn:E; [discriminate|]. intros [= <-]. split; [reflexivity|].
  intros H. apply in_map_iff in H. destruct H as (c & Hc & Hin).
  rewrite <- not_true_iff_false in E. apply E. apply existsb_exists. exists c. split; [exact Hin|]. now apply String.eqb_eq.
Qed.
Lemma insert_ev_fresh cs v : ~ In (ev_name v) (map ev_name cs) -> insert_ev cs v = Ok (cs ++ [v]).
Proof.
  unfold insert_ev. intros H. destruct (existsb _ cs) eqn:E; [|reflexivity]. exfalso. apply H.
  apply existsb_exists in E. destruct E as (c & Hin & E). apply String.eqb_eq in E. rewrite <- E. now apply in_map.
Qed.

Lemma NoDup_app_iff {A} (l1 l2 : list A) : NoDup (l1 ++ l2) <-> NoDup l1 /\ NoDup l2 /\ forall x, In x l1 -> ~ In x l2.
Proof.
  induction l1 as [|x l1 IH]; cbn; [firstorder constructor|]. rewrite !NoDup_cons_iff, IH, in_app_iff. firstorder congruence.
Qed.

(** values given to the enumerators, starting at [cur] *)
Fixpoint values_from (cur : Z) (explicit : list (option Z)) : list Z :=
  match explicit with
  | [] => []
  | e :: t => let v := match e with Some x => x | None => cur end in v :: values_from (v + 1) t
  end.

Lemma values_from_numbered ex : numbered ex (values_from 0 ex).
Proof.
  assert (G : forall ex cur, List.length (values_from cur ex) = List.length ex /\
    forall i v, nth_error (values_from cur ex) i = Some v ->
    match nth_error ex i with
    | Some (Some x) => v = x
    | _ => match i with O => v = cur | S j => exists p, nth_error (values_from cur ex) j = Some p /\ v = p + 1 end
    end).
  { clear. induction ex as [|e ex IH]; intros cur; cbn [values_from].
    - split; [reflexivity|]. intros [|i] v; discriminate.
    - destruct (IH ((match e with Some x => x | None => cur end) + 1)) as [H1 H2]. split; [cbn; now rewrite H1|].
      intros [|i] v; cbn [nth_error].
      + intros [= <-]. destruct e; reflexivity.
      + intros H. specialize (H2 i v H). destruct (nth_error ex i) as [[x|]|]; [exact H2| |].
        * destruct i as [|i]; [subst; eexists; split; reflexivity|exact H2].
        * destruct i as [|i]; [subst; eexists; split; reflexivity|exact H2]. }
  exact (G ex 0).
Qed.
Lemma nth_error_ext {A} (a : list A) : forall b, (forall i, nth_error a i = nth_error b i) -> a = b.
Proof.
  induction a as [|x a IH]; intros [|y b] H; [reflexivity|specialize (H 0%nat); discriminate|specialize (H 0%nat); discriminate|].
  f_equal; [specialize (H 0%nat); now injection H|]. apply IH. intros i. exact (H (S i)).
Qed.
Lemma numbered_unique ex a b : numbered ex a -> numbered ex b -> a = b.
Proof.
  intros [La Ha] [Lb Hb]. apply nth_error_ext. intros i. induction i as [i IH] using lt_wf_ind.
  destruct (nth_error a i) as [x|] eqn:Ea; destruct (nth_error b i) as [y|] eqn:Eb.
  - specialize (Ha i x Ea). specialize (Hb i y Eb). destruct (nth_error ex i) as [[e|]|]; [congruence| |].
    all: destruct i as [|i]; [congruence|]; destruct Ha as (p & E1 & ->), Hb as (q & E2 & ->);
      rewrite (IH i (Nat.lt_succ_diag_r i)) in E1; congruence.
  - apply nth_error_None in Eb. assert (i < List.length a)%nat by (apply nth_error_Some; congruence). lia.
  - apply nth_error_None in Ea. assert (i < List.length b)%nat by (apply nth_error_Some; congruence). lia.
  - reflexivity.
Qed.

(** the literals parse to [ex] *)
Definition parsed (lit : option string) (e : option Z) : Prop :=
  match lit, e with
  | None, None => True
  | Some l, Some x => py_int0 l = Ok x
  | _, _ => False
  end.

Lemma assign_ok ename vals : forall cur seen cs seen' cs', assign_values ename vals cur seen cs = Ok (seen', cs') ->
  exists ex, Forall2 parsed (map snd vals) ex /\
    seen' = seen ++ values_from cur ex /\
    cs' = cs ++ map (fun nv => EV (fst nv) (snd nv) false) (combine (map fst vals) (values_from cur ex)) /\
    (NoDup seen -> NoDup seen') /\ (NoDup (map ev_name cs) -> NoDup (map ev_name cs')).
Proof.
  induction vals as [|(name, lit) vals IH]; cbn [assign_values]; intros cur seen cs seen' cs' H.
  - injection H as <- <-. exists []. cbn. rewrite !app_nil_r. repeat split; auto.
  - assert (exists e, parsed lit e /\ match lit with Some l => py_int0 l | None => Ok cur end
                        = Ok (match e with Some x => x | None => cur end)) as (e & Hp & He).
    { destruct lit as [l|]; [|exists None; now split].
      destruct (py_int0 l) as [x|er] eqn:E; [|discriminate]. exists (Some x). now split. }
    rewrite He in H. cbn [bind] in H. set (v := match e with Some x => x | None => cur end) in *.
    destruct (zmem v seen) eqn:Em; [discriminate|]. apply zmem_false in Em.
    destruct (insert_ev cs (EV name v false)) as [cs1|er] eqn:Ei; [|discriminate]. cbn [bind] in H.
    apply insert_ev_ok in Ei. destruct Ei as [-> Hn].
    destruct (IH _ _ _ _ _ H) as (ex & Hf & -> & -> & Hs & Hc).
    exists (e :: ex). split; [constructor; assumption|]. cbn [values_from]. fold v.
    split; [now rewrite <- app_assoc|]. split; [cbn; now rewrite <- app_assoc|]. split.
    + intros Hnd. apply Hs. apply NoDup_app_iff. split; [exact Hnd|]. split; [repeat constructor; auto|].
      intros x Hx [<-|[]]. contradiction.
    + intros Hnd. apply Hc. rewrite map_app. apply NoDup_app_iff. split; [exact Hnd|]. split; [repeat constructor; auto|].
      intros x Hx [<-|[]]. contradiction.
Qed.

Lemma assign_complete ename vals : forall cur seen cs ex, Forall2 parsed (map snd vals) ex ->
  NoDup seen -> NoDup (map ev_name cs ++ map fst vals) ->
  (NoDup (seen ++ values_from cur ex) ->
     assign_values ename vals cur seen cs =
       Ok (seen ++ values_from cur ex,
           cs ++ map (fun nv => EV (fst nv) (snd nv) false) (combine (map fst vals) (values_from cur ex)))) /\
  (~ NoDup (seen ++ values_from cur ex) ->
     exists l1 v l2, seen ++ values_from cur ex = l1 ++ v :: l2 /\ In v l1 /\
       assign_values ename vals cur seen cs = Err (DuplicateEnumValueError ename v)).
Proof.
  induction vals as [|(name, lit) vals IH]; cbn [assign_values map]; intros cur seen cs ex Hf Hs Hn.
  - inversion Hf; subst. cbn. rewrite !app_nil_r. tauto.
  - inversion Hf as [|l1 e l2 ex' Hp Hf']; subst. cbn [values_from snd fst] in *.
    set (v := match e with Some x => x | None => cur end).
    assert (He : match lit with Some l => py_int0 l | None => Ok cur end = Ok v).
    { unfold v. destruct lit as [l|], e as [x|]; cbn in Hp; try contradiction; auto. }
    rewrite He. cbn [bind]. destruct (zmem v seen) eqn:Em.
    + apply zmem_spec in Em. split.
      * intros Hnd. exfalso. apply NoDup_app_iff in Hnd. destruct Hnd as (_ & _ & Hnd). apply (Hnd v Em). now left.
      * intros _. exists seen, v, (values_from (v + 1) ex'). auto.
    + apply zmem_false in Em. rewrite insert_ev_fresh.
      2:{ cbn. apply NoDup_app_iff in Hn. destruct Hn as (_ & _ & Hn). intros Hin. apply (Hn name Hin). now left. }
      cbn [bind].
      destruct (IH (v + 1) (seen ++ [v]) (cs ++ [EV name v false]) ex' Hf') as [H1 H2].
      * apply NoDup_app_iff. split; [exact Hs|]. split; [repeat constructor; auto|]. intros x Hx [<-|[]]. contradiction.
      * rewrite map_app, <- app_assoc. exact Hn.
      * rewrite <- !app_assoc in H1, H2. cbn [app] in H1, H2. split; [intros Hnd; rewrite (H1 Hnd), <- (app_assoc cs); reflexivity|exact H2].
Qed.

Lemma add_missing_ok seen range : forall cs cs', add_missing seen cs range = Ok cs' ->
  cs' = cs ++ map (fun v => EV (unknown_name v) v true) (filter (fun v => negb (zmem v seen)) range) /\
  (NoDup (map ev_name cs) -> NoDup (map ev_name cs')).
Proof.
  unfold add_missing. induction range as [|v range IH]; cbn [foldM]; intros cs cs' H.
  - injection H as <-. cbn. now rewrite app_nil_r.
  - cbn [filter]. destruct (zmem v seen) eqn:E; cbn [bind negb] in *; [now apply IH|].
    destruct (insert_ev cs (EV (unknown_name v) v true)) as [cs1|er] eqn:Ei; [|discriminate]. cbn [bind] in H.
    apply insert_ev_ok in Ei. destruct Ei as [-> Hn]. destruct (IH _ _ H) as [-> Hnd]. split; [cbn; now rewrite <- app_assoc|].
    intros Hc. apply Hnd. rewrite map_app. apply NoDup_app_iff. split; [exact Hc|]. split; [repeat constructor; auto|].
    intros x Hx [<-|[]]. contradiction.
Qed.
Lemma add_missing_complete seen range : NoDup range -> forall cs,
  (forall v, In v range -> ~ In (unknown_name v) (map ev_name cs)) ->
  exists cs', add_missing seen cs range = Ok cs'.
Proof.
  unfold add_missing. induction range as [|v range IH]; cbn [foldM]; intros Hnd cs H; [now eexists|].
  inversion Hnd as [|? ? Hv Hnd']; subst.
  destruct (zmem v seen); cbn [bind].
  - apply IH; [exact Hnd'|]. intros x Hx. apply H. now right.
  - rewrite insert_ev_fresh by (apply H; now left). cbn [bind]. apply IH; [exact Hnd'|].
    intros x Hx. rewrite map_app, in_app_iff. intros [Hin|[E|[]]]; [apply (H x); [now right|exact Hin]|].
    cbn in E. apply unknown_name_inj in E. subst. contradiction.
Qed.

Lemma check_values_ok ename t order : check_values ename t order = Ok tt <->
  Forall (representable (bt_width t) (bt_signed t)) order.
Proof.
  unfold check_values. induction order as [|v order IH]; cbn [foldM]; [split; auto|].
  destruct (bt_signed t) eqn:Es.
  - destruct (bits_required_ok t v (or_introl Es)) as (b & -> & _ & Hb). cbn [bind]. rewrite Es in Hb. rewrite Z.gtb_ltb.
    destruct (Z.ltb_spec (bt_width t) b).
    + split; [discriminate|]. intros H'. inversion H' as [|? ? Hv]; subst. apply Hb in Hv. lia.
    + rewrite IH. split; [intros; constructor; [apply Hb; lia|assumption]|intros H'; now inversion H'].
  - destruct (Z.leb_spec 0 v).
    + destruct (bits_required_ok t v (or_intror H)) as (b & -> & _ & Hb). cbn [bind]. rewrite Es in Hb. rewrite Z.gtb_ltb.
      destruct (Z.ltb_spec (bt_width t) b).
      * split; [discriminate|]. intros H'. inversion H' as [|? ? Hv]; subst. apply Hb in Hv. lia.
      * rewrite IH. split; [intros; constructor; [apply Hb; lia|assumption]|intros H'; now inversion H'].
    + rewrite bits_required_neg by assumption. cbn [bind]. split; [discriminate|]. intros H'. inversion H' as [|? ? Hv]; subst.
      unfold representable in Hv. lia.
Qed.
Lemma check_values_err ename t order e : check_values ename t order = Err e ->
  exists v, In v order /\ ~ representable (bt_width t) (bt_signed t) v /\
    ((e = InvalidEnumValueError ename v /\ (bt_signed t = true \/ 0 <= v)) \/
     (e = InvalidSignError v /\ bt_signed t = false /\ v < 0)).
Proof.
  unfold check_values. induction order as [|v order IH]; cbn [foldM]; [discriminate|].
  destruct (bt_signed t) eqn:Es; [|destruct (Z.leb_spec 0 v)].
  1: destruct (bits_required_ok t v (or_introl Es)) as (b & -> & _ & Hb).
  2: destruct (bits_required_ok t v (or_intror H)) as (b & -> & _ & Hb).
  1, 2: cbn [bind]; rewrite Es in Hb; rewrite Z.gtb_ltb; destruct (Z.ltb_spec (bt_width t) b);
    [intros [= <-]; exists v; split; [now left|]; split; [rewrite <- Hb; lia|left; auto]
    |intros HE; destruct (IH HE) as (v' & ? & ? & ?); exists v'; split; [now right|auto]].
  rewrite bits_required_neg by assumption. cbn [bind]. intros [= <-]. exists v. split; [now left|].
  split; [unfold representable; lia|right; auto].
Qed.

Lemma parsed_fun l e1 e2 : parsed l e1 -> parsed l e2 -> e1 = e2.
Proof. destruct l, e1, e2; cbn; try contradiction; congruence. Qed.
Lemma parsed_fun_l ls : forall a b, Forall2 parsed ls a -> Forall2 parsed ls b -> a = b.
Proof.
  induction ls as [|l ls IH]; intros a b Ha Hb; inversion Ha; inversion Hb; subst; [reflexivity|].
  f_equal; [eapply parsed_fun; eauto|now apply IH].
Qed.

Lemma make_btype_ok name w t : make_btype name w = Ok t <->
  exists s, storage_width name = Some s /\ t = BT name (match w with Some x => x | None => s end) /\ bt_width t <= s.
Proof.
  unfold make_btype. destruct (storage_width name) as [s|]; [|split; [discriminate|intros (s & [=] & _)]].
  rewrite Z.gtb_ltb. destruct (Z.ltb_spec s (match w with Some x => x | None => s end)).
  - split; [discriminate|]. intros (s' & [= <-] & -> & Hle). cbn in Hle. lia.
  - split; [intros [= <-]; exists s; auto|]. intros (s' & [= <-] & -> & _). reflexivity.
Qed.

Lemma storage_spec name s : storage_width name = Some s <-> In (name, (name_signed name, s)) basic_types.
Proof.
  split.
  - unfold storage_width. intros H.
    repeat match type of H with
    | context [match ?x with _ => _ end] => destruct x; try discriminate H
    end; injection H as <-; cbn; tauto.
  - cbn. intros H. repeat (destruct H as [[= <- ? <-]|H]; [reflexivity|]). destruct H.
Qed.

(** What a created enumeration looks like. *)
Lemma create_enum_ok so name ty w vals t cs : (forall l, Permutation (so l) l) ->
  create_enum so name ty w vals = Ok (t, cs) ->
  make_btype ty w = Ok t /\ vals <> [] /\
  exists ex vs gen,
    Forall2 parsed (map snd vals) ex /\ numbered ex vs /\ NoDup vs /\
    Forall (representable (bt_width t) (bt_signed t)) vs /\
    cs = map (fun nv => EV (fst nv) (snd nv) false) (combine (map fst vals) vs) ++
         map (fun v => EV (unknown_name v) v true) gen /\
    NoDup gen /\ (forall v, In v gen <-> representable (bt_width t) (bt_signed t) v /\ ~ In v vs) /\
    NoDup (map ev_name cs) /\ zlen gen + zlen vs = 2 ^ bt_width t /\ zlen gen <= zlen vals + 256.
Proof.
  intros Hso H. unfold create_enum in H.
  destruct (make_btype ty w) as [t0|] eqn:Et; [|discriminate]. cbn [bind] in H.
  destruct (assign_values name vals 0 [] []) as [(seen, cs0)|] eqn:Ea; [|discriminate]. cbn [bind] in H.
  destruct (Z.ltb_spec (zlen vals * 2 + 256) (2 ^ bt_width t0)) as [|Hsp]; [discriminate|].
  destruct (value_range t0) as [r|] eqn:Er; [|discriminate]. cbn [bind] in H.
  destruct (add_missing seen cs0 r) as [cs1|] eqn:Em; [|discriminate]. cbn [bind] in H.
  destruct (check_values name t0 (so seen)) as [[]|] eqn:Ec; [|discriminate]. cbn [bind] in H.
  destruct (assign_ok _ _ _ _ _ _ _ Ea) as (ex & Hp & Hseen & Hcs0 & Hnd1 & Hnd2).
  rewrite app_nil_l in Hseen. rewrite app_nil_l in Hcs0.
  destruct seen as [|s0 seen0] eqn:Eseen; [discriminate|]. rewrite <- Eseen in *. injection H as <- <-.
  destruct (add_missing_ok _ _ _ _ Em) as [Hcs1 Hnd3].
  destruct (value_range_ok _ _ Er) as (Hr1 & Hr2 & Hr3).
  apply check_values_ok in Ec.
  assert (Hrep : Forall (representable (bt_width t0) (bt_signed t0)) seen).
  { eapply Permutation_Forall; [apply Hso|exact Ec]. }
  split; [reflexivity|]. split.
  { intros ->. inversion Hp; subst ex. rewrite Hseen in Eseen. discriminate. }
  exists ex, seen, (filter (fun v => negb (zmem v seen)) r).
  assert (Hgen : forall v, In v (filter (fun v => negb (zmem v seen)) r) <->
                           representable (bt_width t0) (bt_signed t0) v /\ ~ In v seen).
  { intros v. rewrite filter_In, Hr2, negb_true_iff, zmem_false. reflexivity. }
  split; [exact Hp|]. split; [rewrite Hseen; apply values_from_numbered|].
  assert (Hnds : NoDup seen) by (apply Hnd1; constructor).
  split; [exact Hnds|]. split; [exact Hrep|].
  split; [rewrite Hcs1, Hcs0, Hseen; reflexivity|].
  assert (Hndg : NoDup (filter (fun v => negb (zmem v seen)) r)) by now apply NoDup_filter.
  split; [exact Hndg|]. split; [exact Hgen|].
  split; [apply Hnd3, Hnd2; constructor|].
  assert (Hlen : zlen (filter (fun v => negb (zmem v seen)) r) + zlen seen = 2 ^ bt_width t0).
  { rewrite <- Hr3. unfold zlen. rewrite <- Nat2Z.inj_add, <- app_length. f_equal. apply Permutation_length.
    apply NoDup_Permutation; [|exact Hr1|].
    - apply NoDup_app_iff. split; [exact Hndg|]. split; [exact Hnds|]. intros x Hx. now apply Hgen in Hx.
    - intros x. rewrite in_app_iff, Hgen, Hr2. split; [intros [[]|Hx]; [assumption|]|].
      + rewrite Forall_forall in Hrep. now apply Hrep.
      + intros Hx. destruct (in_dec Z.eq_dec x seen); auto. }
  split; [exact Hlen|].
  assert (zlen seen = zlen vals).
  { destruct (values_from_numbered ex) as [Hl _].
    apply Forall2_length in Hp. rewrite map_length in Hp. unfold zlen. rewrite Hp, <- Hl, <- Hseen. reflexivity. }
  lia.
Qed.

(** The outcome for every well-formed declaration. *)
Lemma create_enum_decision so name ty w vals t ex vs : (forall l, Permutation (so l) l) ->
  make_btype ty w = Ok t -> (bt_signed t = true -> 1 <= bt_width t) -> 0 <= bt_width t ->
  vals <> [] -> NoDup (map fst vals) -> (forall v, ~ In (unknown_name v) (map fst vals)) ->
  Forall2 parsed (map snd vals) ex -> numbered ex vs ->
  (~ NoDup vs -> exists l1 v l2, vs = l1 ++ v :: l2 /\ In v l1 /\
     create_enum so name ty w vals = Err (DuplicateEnumValueError name v)) /\
  (NoDup vs -> 2 * zlen vals + 256 < 2 ^ bt_width t ->
     create_enum so name ty w vals = Err (SparseEnumError name (bt_width t))) /\
  (NoDup vs -> 2 ^ bt_width t <= 2 * zlen vals + 256 ->
     ~ Forall (representable (bt_width t) (bt_signed t)) vs ->
     exists v e, In v vs /\ ~ representable (bt_width t) (bt_signed t) v /\
       create_enum so name ty w vals = Err e /\
       e = (if bt_signed t || (0 <=? v) then InvalidEnumValueError name v else InvalidSignError v)) /\
  (NoDup vs -> 2 ^ bt_width t <= 2 * zlen vals + 256 ->
     Forall (representable (bt_width t) (bt_signed t)) vs ->
     exists cs, create_enum so name ty w vals = Ok (t, cs)).
Proof.
  intros Hso Ht Hsw Hw Hne Hnames Hunk Hp Hnum.
  assert (vs = values_from 0 ex) as -> by (eapply numbered_unique; [exact Hnum|apply values_from_numbered]).
  destruct (assign_complete name vals 0 [] [] ex Hp ltac:(constructor) Hnames) as [A1 A2]. rewrite !app_nil_l in A1. rewrite !app_nil_l in A2.
  unfold create_enum. rewrite Ht. cbn [bind].
  split; [intros Hnd; destruct (A2 Hnd) as (l1 & v & l2 & E & Hin & ->); exists l1, v, l2; auto|].
  assert (Hr : exists r, value_range t = Ok r).
  { unfold value_range. destruct (bt_signed t).
    - destruct (Z.ltb_spec (bt_width t) 1); [specialize (Hsw eq_refl); lia|now eexists].
    - destruct (Z.ltb_spec (bt_width t) 0); [lia|now eexists]. }
  destruct Hr as [r Hr]. destruct (value_range_ok _ _ Hr) as (Hr1 & _ & _).
  set (vs := values_from 0 ex) in *.
  assert (Hmap : map ev_name (map (fun nv : string * Z => EV (fst nv) (snd nv) false) (combine (map fst vals) vs)) = map fst vals).
  { rewrite map_map. cbn. destruct Hnum as [Hl _]. apply Forall2_length in Hp. rewrite map_length in Hp.
    assert (Hl' : List.length (map fst vals) = List.length vs) by (rewrite map_length; congruence).
    now apply map_fst_combine. }
  assert (Hmiss : exists cs, add_missing vs (map (fun nv => EV (fst nv) (snd nv) false) (combine (map fst vals) vs)) r = Ok cs).
  { apply add_missing_complete; [exact Hr1|]. intros v _. rewrite Hmap. apply Hunk. }
  destruct Hmiss as [cs Hmiss].
  split.
  - intros Hnd Hsp. rewrite (A1 Hnd). cbn [bind]. destruct (Z.ltb_spec (zlen vals * 2 + 256) (2 ^ bt_width t)); [reflexivity|lia].
  - split; intros Hnd Hsp Hrep; rewrite (A1 Hnd); cbn [bind];
      (destruct (Z.ltb_spec (zlen vals * 2 + 256) (2 ^ bt_width t)); [lia|]); rewrite Hr; cbn [bind]; rewrite Hmiss; cbn [bind].
    + destruct (check_values name t (so vs)) as [[]|e] eqn:Ec.
      * exfalso. apply Hrep. apply check_values_ok in Ec. eapply Permutation_Forall; [apply Hso|exact Ec].
      * cbn [bind]. apply check_values_err in Ec. destruct Ec as (v & Hin & Hv & He). exists v, e.
        split; [eapply Permutation_in; [apply Hso|exact Hin]|]. split; [exact Hv|]. split; [reflexivity|].
        destruct He as [[-> [->|Hv0]]|(-> & -> & Hv0)]; [reflexivity| |].
        -- destruct (Z.leb_spec 0 v); [now rewrite orb_true_r|lia].
        -- destruct (Z.leb_spec 0 v); [lia|reflexivity].
    + assert (check_values name t (so vs) = Ok tt) as ->.
      { apply check_values_ok. eapply Permutation_Forall; [apply Permutation_sym, Hso|exact Hrep]. }
      cbn [bind]. destruct vs as [|v0 vs0] eqn:Ev.
      * exfalso. destruct Hnum as [Hl _]. apply Forall2_length in Hp. rewrite map_length in Hp. destruct vals; [contradiction|].
        cbn in Hp. cbn in Hl. congruence.
      * eexists; reflexivity.
Qed.

Lemma make_constant_ok name ty lit v : make_constant name ty lit = Ok v <->
  exists s, storage_width ty = Some s /\ py_int0 lit = Ok v /\ representable s (name_signed ty) v.
Proof.
  unfold make_constant. destruct (py_int0 lit) as [x|] eqn:E; cbn [bind]; [|split; [discriminate|intros (s & _ & [=] & _)]].
  unfold make_btype. destruct (storage_width ty) as [s|] eqn:Es; cbn [bind]; [|split; [discriminate|intros (s & [=] & _)]].
  rewrite Z.gtb_ltb, Z.ltb_irrefl. cbn [bind bt_width].
  destruct (bt_signed (BT ty s)) eqn:Eb; [|destruct (Z.leb_spec 0 x)].
  1: destruct (bits_required_ok (BT ty s) x (or_introl Eb)) as (b & -> & _ & Hb).
  2: destruct (bits_required_ok (BT ty s) x (or_intror H)) as (b & -> & _ & Hb).
  1, 2: cbn [bind]; rewrite Z.gtb_ltb; specialize (Hb s); change (bt_signed (BT ty s)) with (name_signed ty) in Hb;
    destruct (Z.ltb_spec s b); [split; [discriminate|]; intros (s' & [= <-] & [= <-] & Hr); apply Hb in Hr; lia|];
    split; [intros [= <-]; exists s; split; [reflexivity|]; split; [reflexivity|]; apply Hb; lia|intros (s' & _ & [= <-] & _); reflexivity].
  rewrite bits_required_neg by assumption. cbn [bind]. split; [discriminate|]. intros (s' & [= <-] & [= <-] & Hr).
  change (bt_signed (BT ty s)) with (name_signed ty) in Eb. unfold representable in Hr. rewrite Eb in Hr. lia.
Qed.
