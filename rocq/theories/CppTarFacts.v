(** Facts about the C++ tar reader. *)
From Coq Require Import List ZArith Bool Lia.
From Coq Require Import ZifyBool ZifyNat.
From Verif Require Import PyBase BitFacts SliceFacts CodecThms CppTar CppTarSpec.
Import ListNotations.
Local Open Scope Z_scope.
Ltac Zify.zify_post_hook ::= Z.div_mod_to_equations.

(** ** Slices *)

Lemma sub_bytes_at l a n : 0 <= a -> 0 <= n -> bytes_at l a n = sub l (Z.to_nat a) (Z.to_nat n).
Proof. reflexivity. Qed.

Lemma sub_sub l o m a n : (a + n <= m)%nat -> sub (sub l o m) a n = sub l (o + a) n.
Proof.
  intros H. unfold sub. rewrite skipn_firstn_comm, firstn_firstn, skipn_add.
  f_equal. lia.
Qed.

Lemma sub_length l a n : (a + n <= List.length l)%nat -> List.length (sub l a n) = n.
Proof. intros H. unfold sub. rewrite firstn_length, skipn_length. lia. Qed.

Lemma sub_bytes l a n : is_bytes l -> is_bytes (sub l a n).
Proof. intros H. unfold sub. now apply is_bytes_firstn, is_bytes_skipn. Qed.

Lemma sub_nth l a n j : (a + n <= List.length l)%nat -> (j < n)%nat -> nth j (sub l a n) 0 = nth (a + j) l 0.
Proof. intros Hl Hj. unfold sub. rewrite nth_firstn by assumption. apply nth_skipn. Qed.

(** ** Numbers *)

Lemma value_of_ge b ds : 1 <= b -> Forall (fun d => 0 <= d) ds -> forall acc, 0 <= acc -> acc <= value_of b acc ds.
Proof.
  intros Hb. induction 1 as [|d t Hd Ht IH]; intros acc Ha; cbn; [lia|].
  specialize (IH (b * acc + d) ltac:(nia)). nia.
Qed.

Lemma decode_octal_ok ds : forall value rest, 0 <= value -> Forall (fun d => 0 <= d < 8) ds ->
  (rest = [] \/ exists r, rest = 0 :: r) -> value_of 8 value ds < 2 ^ 64 ->
  decode_octal value (map (fun d => d + 48) ds ++ rest) = Some (value_of 8 value ds).
Proof.
  induction ds as [|d t IH]; intros value rest Hv Hd Hr Hm; cbn [map app decode_octal value_of] in *.
  - destruct Hr as [-> | (r & ->)]; reflexivity.
  - inversion Hd as [|? ? Hd0 Ht]; subst. replace (d + 48 =? 0) with false by lia.
    assert (Hge : 8 * value + d <= value_of 8 (8 * value + d) t).
    { apply value_of_ge; [lia| |lia]. eapply Forall_impl; [|exact Ht]. cbn. lia. }
    assert (max_value / 8 <? value = false) as -> by (unfold max_value; lia).
    assert ((d + 48 <? 48) || (55 <? d + 48) = false) as -> by lia.
    replace (value * 8 + (d + 48 - 48)) with (8 * value + d) by lia. apply IH; auto. lia.
Qed.

Lemma decode_octal_inv l : forall value n, is_bytes l -> decode_octal value l = Some n ->
  exists ds rest, l = map (fun d => d + 48) ds ++ rest /\ Forall (fun d => 0 <= d < 8) ds /\
    (rest = [] \/ exists r, rest = 0 :: r) /\ n = value_of 8 value ds.
Proof.
  induction l as [|c t IH]; intros value n Hb H; cbn [decode_octal] in H.
  - injection H as <-. exists [], []. repeat split; auto.
  - inversion Hb as [|? ? Hc Ht]; subst. destruct (c =? 0) eqn:E0.
    + injection H as <-. exists [], (c :: t). repeat split; auto. right. exists t. f_equal. lia.
    + destruct (max_value / 8 <? value); [discriminate|].
      destruct ((c <? 48) || (55 <? c)) eqn:E1; [discriminate|].
      destruct (IH _ _ Ht H) as (ds & rest & -> & Hd & Hr & ->).
      exists (c - 48 :: ds), rest. cbn [map app value_of].
      replace (c - 48 + 48) with c by lia. repeat split; auto.
      * constructor; [lia|assumption].
      * f_equal. lia.
Qed.

Lemma decode_binary_ok l : forall value, 0 <= value -> is_bytes l -> value_of 256 value l < 2 ^ 64 ->
  decode_binary value l = Some (value_of 256 value l).
Proof.
  induction l as [|b t IH]; intros value Hv Hb Hm; cbn [decode_binary value_of] in *; [reflexivity|].
  inversion Hb as [|? ? Hb0 Ht]; subst. unfold is_byte in Hb0.
  assert (Hge : 256 * value + b <= value_of 256 (256 * value + b) t).
  { apply value_of_ge; [lia| |lia]. eapply Forall_impl; [|exact Ht]. unfold is_byte. cbn. lia. }
  assert (max_value / 256 <? value = false) as -> by (unfold max_value; lia).
  replace (value * 256 + b) with (256 * value + b) by lia. apply IH; auto. lia.
Qed.

Lemma decode_binary_inv l : forall value n, decode_binary value l = Some n -> n = value_of 256 value l.
Proof.
  induction l as [|b t IH]; intros value n H; cbn [decode_binary value_of] in *; [now injection H as <-|].
  destruct (max_value / 256 <? value); [discriminate|]. rewrite (IH _ _ H). f_equal. lia.
Qed.

Lemma top_bit b : is_byte b -> (Z.land b 128 =? 0) = (b <? 128) /\ Z.land b 127 = b mod 128.
Proof.
  intros Hb. unfold is_byte in Hb. change 127 with (Z.ones 7). rewrite Z.land_ones by lia.
  split; [|reflexivity].
  assert (E : forall n, (n < 256)%nat -> (Z.land (Z.of_nat n) 128 =? 0) = (Z.of_nat n <? 128)).
  { intros n Hn. do 256 (destruct n as [|n]; [reflexivity|]). lia. }
  specialize (E (Z.to_nat b) ltac:(lia)). now rewrite Z2Nat.id in E by lia.
Qed.

Lemma decode_ok f n : is_bytes f -> f <> [] -> numeric_field f n -> n < 2 ^ 64 ->
  decode_numeric_field f = Some n.
Proof.
  intros Hb Hne [Ho | Hx] Hn.
  - destruct Ho as (ds & rest & -> & Hd & Hr & ->). unfold decode_numeric_field.
    destruct (map (fun d => d + 48) ds ++ rest) as [|b t] eqn:E; [congruence|].
    assert (Hlt : b < 128).
    { destruct ds as [|d ds]; cbn in E.
      - destruct Hr as [-> | (r & ->)]; [discriminate|]. injection E as <- <-. lia.
      - injection E as <- <-. inversion Hd; subst. lia. }
    inversion Hb as [|? ? Hb0 _]; subst. destruct (top_bit b Hb0) as [-> _].
    replace (b <? 128) with true by lia. cbn [negb]. rewrite <- E. apply decode_octal_ok; auto. lia.
  - destruct Hx as (hi & t & -> & Hhi & ->).
    pose proof (Forall_inv Hb) as Hb0. pose proof (Forall_inv_tail Hb) as Ht.
    destruct (top_bit _ Hb0) as [T1 T2]. set (b := 128 + hi) in *.
    unfold decode_numeric_field. rewrite T1, T2.
    assert (b <? 128 = false) as -> by (unfold b; lia). cbn [negb].
    assert (b mod 128 = hi) as -> by (unfold b; lia). cbn [value_of] in *.
    assert (E0 : 256 * 0 + hi = hi) by lia. rewrite E0 in *. apply decode_binary_ok; auto. lia.
Qed.

Lemma decode_inv f n : is_bytes f -> decode_numeric_field f = Some n -> numeric_field f n.
Proof.
  intros Hb H. unfold decode_numeric_field in H. destruct f as [|b t] eqn:E; [discriminate|].
  inversion Hb as [|? ? Hb0 Ht]; subst. destruct (top_bit _ Hb0) as [E1 E2]. rewrite E1, E2 in H.
  unfold is_byte in Hb0. destruct (b <? 128) eqn:Eb; cbn [negb] in H.
  - left. destruct (decode_octal_inv _ _ _ Hb H) as (ds & rest & Ef & Hd & Hr & ->).
    exists ds, rest. auto.
  - right. exists (b - 128), t. split; [f_equal; lia|]. split; [lia|].
    rewrite (decode_binary_inv _ _ _ H). cbn [value_of]. f_equal. lia.
Qed.

(** ** Checksums *)

Lemma fold_left_add l : forall a, fold_left Z.add l a = a + fold_right Z.add 0 l.
Proof. induction l as [|x t IH]; intros a; cbn; [lia|]. rewrite IH. lia. Qed.

Lemma fold_right_app_add a b : fold_right Z.add 0 (a ++ b) = fold_right Z.add 0 a + fold_right Z.add 0 b.
Proof. induction a as [|x t IH]; cbn; [lia|]. rewrite IH. lia. Qed.

Lemma fold_bound l : is_bytes l -> 0 <= fold_right Z.add 0 l <= 255 * zlen l.
Proof.
  induction 1 as [|x t Hx Ht IH]; cbn [fold_right]; [cbn; lia|]. rewrite zlen_cons. unfold is_byte in Hx. lia.
Qed.

Lemma checksum_bound h : is_bytes h -> List.length h = 512%nat -> 0 <= checksum h < 2 ^ 32.
Proof.
  intros Hb Hl. unfold checksum.
  pose proof (fold_bound (bytes_at h 0 148) ltac:(now apply sub_bytes)).
  pose proof (fold_bound (bytes_at h 156 356) ltac:(now apply sub_bytes)).
  assert (zlen (bytes_at h 0 148) = 148).
  { unfold zlen. rewrite sub_bytes_at by lia. rewrite sub_length by lia. lia. }
  assert (zlen (bytes_at h 156 356) = 356).
  { unfold zlen. rewrite sub_bytes_at by lia. rewrite sub_length by lia. lia. }
  lia.
Qed.

Lemma verify_sum h : is_bytes h -> List.length h = 512%nat ->
  fold_left Z.add (firstn 148 h ++ repeat 32 8 ++ skipn 156 h) 0 mod 2 ^ 32 = checksum h.
Proof.
  intros Hb Hl. pose proof (checksum_bound h Hb Hl) as Hc.
  rewrite fold_left_add, !fold_right_app_add.
  assert (E : fold_right Z.add 0 (bytes_at h 0 148) = fold_right Z.add 0 (firstn 148 h)) by reflexivity.
  assert (E2 : bytes_at h 156 356 = skipn 156 h).
  { unfold bytes_at. apply firstn_all2. rewrite skipn_length. lia. }
  unfold checksum in *. rewrite E, E2 in *. cbn [repeat fold_right].
  rewrite Z.mod_small; lia.
Qed.

Lemma verify_ok h : is_bytes h -> List.length h = 512%nat ->
  (checksum_ok h -> verify_checksum h = Some true) /\
  (~ checksum_ok h -> verify_checksum h <> Some true).
Proof.
  intros Hb Hl. pose proof (checksum_bound h Hb Hl) as Hc. unfold verify_checksum, checksum_ok. cbv zeta.
  rewrite verify_sum by assumption.
  assert (Hf : is_bytes (sub h 148 8)) by now apply sub_bytes.
  assert (Hn : sub h 148 8 <> []).
  { intros E. pose proof (sub_length h 148 8 ltac:(lia)) as L. rewrite E in L. discriminate. }
  change (bytes_at h 148 8) with (sub h 148 8). split.
  - intros Hk. rewrite (decode_ok _ _ Hf Hn Hk) by lia. f_equal. lia.
  - intros Hk. destruct (decode_numeric_field (sub h 148 8)) as [v|] eqn:E; [|discriminate].
    intros H. injection H as H. apply Hk. assert (v = checksum h) by lia. subst v.
    now apply decode_inv.
Qed.

(** ** Names *)

Lemma cstr_text f t : text_field f t -> cstr f = t.
Proof.
  intros [Hn Hf]. assert (E : forall r, cstr (t ++ 0 :: r) = t /\ cstr t = t).
  { clear Hf. intros r. induction t as [|c t IH]; [split; reflexivity|]. cbn in Hn.
    assert (Hc : c <> 0) by (intros ->; apply Hn; now left).
    destruct IH as [I1 I2]; [intros H; apply Hn; now right|].
    cbn. replace (c =? 0) with false by lia. split; congruence. }
  destruct Hf as [-> | (r & ->)]; [apply (E [])|apply E].
Qed.

Lemma text_exists f : exists t, text_field f t.
Proof.
  induction f as [|c f (t & Hn & Hf)].
  - exists []. split; [intros []|now left].
  - destruct (Z.eq_dec c 0) as [->|Hc].
    + exists []. split; [intros []|]. right. exists f. reflexivity.
    + exists (c :: t). split; [intros [H|H]; [congruence|contradiction]|].
      destruct Hf as [-> | (r & ->)]; [now left|right]. exists r. reflexivity.
Qed.

(** ** The loop *)

Lemma blocks_padding s : 0 <= s -> s + padding s = blocks s.
Proof. intros H. unfold padding, blocks, block_size. lia. Qed.

Lemma numeric_nonneg f n : is_bytes f -> numeric_field f n -> 0 <= n.
Proof.
  intros Hb [Ho|Hx].
  - destruct Ho as (ds & rest & _ & Hd & _ & ->). apply value_of_ge; [lia| |lia].
    eapply Forall_impl; [|exact Hd]. cbn. lia.
  - destruct Hx as (hi & t & -> & Hhi & ->). apply value_of_ge; [lia| |lia].
    inversion Hb as [|? ? _ Ht]; subst. constructor; [lia|]. eapply Forall_impl; [|exact Ht].
    unfold is_byte. cbn. lia.
Qed.

(** What the reader sees of a well-formed header. *)
Lemma header_facts data off flag size : is_bytes data -> header_at data off flag size ->
  let h := sub data (Z.to_nat off) 512 in
  forallb (fun b => b =? 0) h = false /\ verify_checksum h = Some true /\ nth 156 h 0 = flag /\ 0 <= size /\
  (size < 2 ^ 64 -> decode_numeric_field (sub h 124 12) = Some size).
Proof.
  intros Hb (Ho & Hl & (b & Hin & Hnz) & Hck & Hfl & Hsz). cbv zeta.
  assert (Hll : (Z.to_nat off + 512 <= List.length data)%nat) by (unfold zlen in Hl; lia).
  set (h := sub data (Z.to_nat off) 512).
  assert (Lh : List.length h = 512%nat) by (unfold h; now apply sub_length).
  assert (Bh : is_bytes h) by (unfold h; now apply sub_bytes).
  assert (Esz : sub h 124 12 = bytes_at data (off + 124) 12).
  { unfold h. rewrite sub_sub by lia. rewrite sub_bytes_at by lia. f_equal; lia. }
  assert (Bs : is_bytes (sub h 124 12)) by now apply sub_bytes.
  repeat split.
  - apply not_true_is_false. intros E. rewrite forallb_forall in E. specialize (E b Hin). lia.
  - now apply verify_ok.
  - assert (E1 : sub data (Z.to_nat (off + 156)) 1 = [flag]) by exact Hfl.
    pose proof (sub_nth data (Z.to_nat (off + 156)) 1 0) as E2. rewrite E1 in E2. cbn [nth] in E2.
    unfold h. rewrite sub_nth by lia. rewrite E2 by (unfold zlen in Hl; lia). f_equal. lia.
  - eapply numeric_nonneg; [|exact Hsz]. rewrite <- Esz. assumption.
  - intros Hs. rewrite Esz in *. apply decode_ok; auto.
    intros E. pose proof (sub_length h 124 12 ltac:(lia)) as L. rewrite Esz, E in L. discriminate.
Qed.

Definition pending_name (p : option (list Z)) : list Z := match p with Some n => n | None => [] end.

Lemma walk_loop data ms off pending off' pending' :
  is_bytes data -> zlen data < 2 ^ 63 -> walk true data off pending ms off' pending' -> 0 <= off ->
  (pending <> Some []) ->
  0 <= off' /\ pending' <> Some [] /\
  exists k, forall fuel acc,
    tar_loop (k + fuel) data off (pending_name pending) acc
    = tar_loop fuel data off' (pending_name pending') (rev (files ms) ++ acc).
Proof.
  intros Hb Hz Hw. induction Hw as [off pending|off pending flag size own name ms off' pending' Hf Hh Hn Hs Hnm Hfit Hw IH
    |off pending own name ms off' pending' Hh Hn Hs Hnm Hw IH
    |off pending size name ms off' pending' Hh Ht Hne Hfit Hw IH]; intros Ho Hp.
  - split; [assumption|]. split; [assumption|]. exists 0%nat. intros fuel acc. reflexivity.
  - destruct (header_facts data off flag size Hb Hh) as (F1 & F2 & F3 & F4 & F5). cbv zeta in *.
    pose proof Hh as (_ & Hhl & _). assert (Hbl : 0 <= blocks size) by (unfold blocks; lia).
    destruct IH as (I1 & I2 & k & I3); [lia|discriminate|]. split; [assumption|]. split; [assumption|].
    exists (S k). intros fuel acc. cbn [Nat.add tar_loop].
    replace (off <? zlen data) with true by lia. cbn [negb]. rewrite F1, F2, F3.
    replace ((flag =? 48) || (flag =? 0)) with true by lia.
    assert (size < 2 ^ 64) by (unfold blocks in *; lia). rewrite F5 by assumption.
    rewrite blocks_padding by assumption. unfold block_size at 1.
    rewrite (Z.mod_small (off + 512 + blocks size)) by lia.
    match goal with |- tar_loop _ _ _ _ (?e :: acc) = _ => assert (Ee : e = Entry name (off + 512) size) end.
    { unfold block_size. f_equal. subst name. destruct pending as [n|]; cbn [pending_name].
      - destruct n as [|c n]; [congruence|reflexivity].
      - destruct Hn as [[_ Hn]|[Hpx _]]; [|exfalso; now apply Hs].
        rewrite sub_sub by lia. rewrite Nat.add_0_r.
        change (sub data (Z.to_nat off) 100) with (bytes_at data off 100). now apply cstr_text. }
    rewrite Ee. change (@nil Z) with (pending_name None) at 1. rewrite I3. cbn [files flat_map app rev].
    rewrite <- app_assoc. reflexivity.
  - destruct (header_facts data off 53 0 Hb Hh) as (F1 & F2 & F3 & F4 & F5). cbv zeta in *.
    pose proof Hh as (_ & Hhl & _).
    destruct IH as (I1 & I2 & k & I3); [lia|discriminate|]. split; [assumption|]. split; [assumption|].
    exists (S k). intros fuel acc. cbn [Nat.add tar_loop].
    replace (off <? zlen data) with true by lia. cbn [negb]. rewrite F1, F2, F3.
    replace ((53 =? 48) || (53 =? 0)) with false by reflexivity.
    replace (53 =? 53) with true by reflexivity.
    rewrite (Hs eq_refl). cbn [files flat_map app]. apply I3.
  - destruct (header_facts data off 76 size Hb Hh) as (F1 & F2 & F3 & F4 & F5). cbv zeta in *.
    pose proof Hh as (_ & Hhl & _). assert (Hbl : size <= blocks size) by (unfold blocks; lia).
    destruct IH as (I1 & I2 & k & I3); [lia|congruence|]. split; [assumption|]. split; [assumption|].
    exists (S k). intros fuel acc. cbn [Nat.add tar_loop].
    replace (off <? zlen data) with true by lia. cbn [negb]. rewrite F1, F2, F3.
    replace ((76 =? 48) || (76 =? 0)) with false by reflexivity.
    replace (76 =? 53) with false by reflexivity. replace (76 =? 76) with true by reflexivity.
    rewrite F5 by lia. unfold block_size at 1.
    replace (zlen data - (off + 512) <? size) with false by lia.
    rewrite blocks_padding by assumption. unfold block_size at 1.
    rewrite (Z.mod_small (off + 512 + blocks size)) by lia.
    unfold block_size. change (sub data (Z.to_nat (off + 512)) (Z.to_nat size)) with (bytes_at data (off + 512) size).
    rewrite (cstr_text _ _ Ht). apply (I3 fuel acc).
Qed.

Lemma read_tar_ok data ms : tar_members true data ms ->
  exists k, forall fuel, (k <= fuel)%nat -> read_tar fuel data = Returns (files ms).
Proof.
  intros (Hb & Hm & Hz & off & Hw & He).
  destruct (walk_loop data ms 0 None off None Hb Hz Hw ltac:(lia) ltac:(discriminate)) as (Ho & _ & k & Hk).
  exists (k + 1)%nat. intros fuel Hf. unfold read_tar, block_size. replace (zlen data mod 512 =? 0) with true by lia.
  cbn [negb]. replace fuel with (k + S (fuel - k - 1))%nat by lia.
  change (@nil Z) with (pending_name None). rewrite Hk. cbn [tar_loop]. rewrite app_nil_r, rev_involutive.
  destruct He as [-> | [Hl Hz0]].
  - replace (zlen data <? zlen data) with false by lia. reflexivity.
  - replace (off <? zlen data) with true by lia. cbn [negb].
    change (sub data (Z.to_nat off) 512) with (bytes_at data off 512). rewrite Hz0. reflexivity.
Qed.

(** A header with a wrong checksum after any well-formed part. *)
Lemma read_tar_bad_checksum data ms off pending :
  is_bytes data -> zlen data < 2 ^ 63 -> walk true data 0 None ms off pending ->
  off + 512 <= zlen data -> bytes_at data off 512 <> repeat 0 512 -> ~ checksum_ok (bytes_at data off 512) ->
  exists k, forall fuel, (k <= fuel)%nat -> read_tar fuel data = Throws.
Proof.
  intros Hb Hz Hw Hl Hnz Hck.
  destruct (walk_loop data ms 0 None off pending Hb Hz Hw ltac:(lia) ltac:(discriminate)) as (Ho & _ & k & Hk).
  exists (k + 1)%nat. intros fuel Hf. unfold read_tar.
  destruct (negb (zlen data mod block_size =? 0)); [reflexivity|].
  replace fuel with (k + S (fuel - k - 1))%nat by lia.
  change (@nil Z) with (pending_name None). rewrite Hk. cbn [tar_loop].
  replace (off <? zlen data) with true by lia. cbn [negb].
  change (bytes_at data off 512) with (sub data (Z.to_nat off) 512) in *.
  set (h := sub data (Z.to_nat off) 512) in *.
  assert (Lh : List.length h = 512%nat) by (unfold h; apply sub_length; unfold zlen in Hl; lia).
  assert (Bh : is_bytes h) by (unfold h; now apply sub_bytes).
  destruct (forallb (fun b => b =? 0) h) eqn:E.
  - exfalso. apply Hnz. clear - E Lh. rewrite <- Lh. clear Lh. induction h as [|b t IH]; [reflexivity|].
    cbn in *. apply andb_true_iff in E. destruct E as [E1 E2]. rewrite <- (IH E2). f_equal. lia.
  - destruct (verify_ok h Bh Lh) as [_ Hv]. specialize (Hv Hck).
    destruct (verify_checksum h) as [[|]|]; [congruence|reflexivity|reflexivity].
Qed.

(** Termination. *)
Lemma tar_loop_ends data : is_bytes data -> zlen data < 2 ^ 63 -> zlen data mod 512 = 0 ->
  (forall p n, 0 <= p -> p mod 512 = 0 -> p + 512 <= zlen data ->
     numeric_field (bytes_at data (p + 124) 12) n -> n < 2 ^ 63 - 1024) ->
  forall fuel off long acc, 0 <= off -> off mod 512 = 0 -> (zlen data - off + 512) / 512 <= Z.of_nat fuel ->
  (0 < fuel)%nat ->
  tar_loop fuel data off long acc <> Runs.
Proof.
  intros Hb Hz Hm Hs. induction fuel as [|fuel IH]; intros off long acc Ho Hom Hf Hp; [lia|].
  cbn [tar_loop]. destruct (off <? zlen data) eqn:E; cbn [negb]; [|discriminate].
  assert (Hl : off + 512 <= zlen data) by lia.
  set (h := sub data (Z.to_nat off) 512).
  assert (Esz : sub h 124 12 = bytes_at data (off + 124) 12).
  { unfold h. rewrite sub_sub by lia. rewrite sub_bytes_at by lia. f_equal; lia. }
  assert (Hdec : forall n, decode_numeric_field (sub h 124 12) = Some n -> 0 <= n < 2 ^ 63 - 1024).
  { intros n Hn. assert (Hnf : numeric_field (sub h 124 12) n) by (apply decode_inv; [apply sub_bytes; now apply sub_bytes|assumption]).
    split; [eapply numeric_nonneg; [|exact Hnf]; now apply sub_bytes, sub_bytes|].
    rewrite Esz in Hnf. apply (Hs off n); auto. }
  assert (Hnext : forall n, 0 <= n < 2 ^ 63 - 1024 ->
            let o := (off + block_size + (n + padding n)) mod 2 ^ 64 in
            0 <= o /\ o mod 512 = 0 /\ off + 512 <= o).
  { intros n Hn. rewrite blocks_padding by lia. unfold block_size, blocks.
    rewrite Z.mod_small by lia. lia. }
  destruct (forallb (fun b => b =? 0) h); [discriminate|].
  destruct (verify_checksum h) as [[|]|]; try discriminate.
  destruct ((nth 156 h 0 =? 48) || (nth 156 h 0 =? 0)).
  - destruct (decode_numeric_field (sub h 124 12)) as [n|] eqn:En; [|discriminate].
    destruct (Hnext n (Hdec n eq_refl)) as (A & B & C). cbv zeta in *. apply IH; auto; lia.
  - destruct (nth 156 h 0 =? 53).
    + apply IH; unfold block_size; lia.
    + destruct (nth 156 h 0 =? 76); [|discriminate].
      destruct (decode_numeric_field (sub h 124 12)) as [n|] eqn:En; [|discriminate].
      destruct (zlen data - (off + block_size) <? n); [discriminate|].
      destruct (Hnext n (Hdec n eq_refl)) as (A & B & C). cbv zeta in *. apply IH; auto; lia.
Qed.

Lemma read_tar_other_type data ms off pending flag size :
  is_bytes data -> zlen data < 2 ^ 63 -> walk true data 0 None ms off pending ->
  header_at data off flag size -> flag <> 48 -> flag <> 0 -> flag <> 53 -> flag <> 76 ->
  exists k, forall fuel, (k <= fuel)%nat -> read_tar fuel data = Throws.
Proof.
  intros Hb Hz Hw Hh N1 N2 N3 N4.
  destruct (walk_loop data ms 0 None off pending Hb Hz Hw ltac:(lia) ltac:(discriminate)) as (Ho & _ & k & Hk).
  destruct (header_facts data off flag size Hb Hh) as (F1 & F2 & F3 & _). cbv zeta in *.
  destruct Hh as (_ & Hhl & _).
  exists (k + 1)%nat. intros fuel Hf. unfold read_tar.
  destruct (negb (zlen data mod block_size =? 0)); [reflexivity|].
  replace fuel with (k + S (fuel - k - 1))%nat by lia.
  change (@nil Z) with (pending_name None). rewrite Hk. cbn [tar_loop].
  replace (off <? zlen data) with true by lia. cbn [negb]. rewrite F1, F2, F3.
  replace ((flag =? 48) || (flag =? 0)) with false by lia.
  replace (flag =? 53) with false by lia. replace (flag =? 76) with false by lia. reflexivity.
Qed.

Lemma text_of_cstr f t : cstr f = t -> text_field f t.
Proof.
  intros <-. induction f as [|c f [IH1 IH2]]; cbn [cstr].
  - split; [intros []|now left].
  - destruct (c =? 0) eqn:E.
    + split; [intros []|]. right. exists f. cbn. f_equal. lia.
    + split; [intros [H|H]; [lia|auto]|]. destruct IH2 as [IH2|[r IH2]].
      * left. now rewrite IH2 at 1.
      * right. exists r. cbn. now rewrite IH2 at 1.
Qed.

(** ** The storage *)

Lemma strip_dot_eq name : strip_dot name =
  match name with a :: b :: t => if (a =? 46) && (b =? 47) then t else name | _ => name end.
Proof.
  destruct name as [|a [|b t]]; [reflexivity|unfold strip_dot; destruct (a =? 46); repeat
    (match goal with |- context [match ?x with _ => _ end] => destruct x end; try reflexivity)|].
  destruct (Z.eq_dec a 46) as [->|Na]; [destruct (Z.eq_dec b 47) as [->|Nb]|]; [reflexivity| |].
  - replace ((46 =? 46) && (b =? 47)) with false by lia. unfold strip_dot.
    repeat (match goal with |- context [match ?x with _ => _ end] => destruct x end; try reflexivity).
    congruence.
  - replace ((a =? 46) && (b =? 47)) with false by lia. unfold strip_dot.
    repeat (match goal with |- context [match ?x with _ => _ end] => destruct x end; try reflexivity).
    congruence.
Qed.

Lemma strip_dot_path name path : path_of name path <-> strip_dot name = path.
Proof.
  rewrite strip_dot_eq. unfold path_of. split.
  - intros [->|[-> H]]; [reflexivity|]. destruct path as [|a [|b t]]; try reflexivity.
    destruct ((a =? 46) && (b =? 47)) eqn:E; [|reflexivity].
    exfalso. apply (H t). f_equal; [lia|f_equal; lia].
  - intros <-. destruct name as [|a [|b t]]; try (right; split; [reflexivity|intros p E; discriminate]).
    destruct ((a =? 46) && (b =? 47)) eqn:E.
    + left. f_equal; [lia|f_equal; lia].
    + right. split; [reflexivity|]. intros p Ep. injection Ep as -> -> _. discriminate.
Qed.

Definition content (data : list Z) (e : entry) : list Z :=
  sub data (Z.to_nat (e_offset e)) (Z.to_nat (Z.min (e_size e) (zlen data - e_offset e))).
Definition pairs (data : list Z) (es : list entry) := map (fun e => (strip_dot (e_name e), content data e)) es.

Lemma find_app m1 m2 k : find_file (m1 ++ m2) k = match find_file m1 k with Some v => Some v | None => find_file m2 k end.
Proof. induction m1 as [|[k' v] t IH]; [reflexivity|]. cbn. destruct (list_eq_dec Z.eq_dec k' k); [reflexivity|apply IH]. Qed.

Lemma emplace_find m k v p : find_file (emplace m k v) p =
  match find_file m p with Some x => Some x | None => find_file [(k, v)] p end.
Proof.
  unfold emplace. destruct (existsb _ m) eqn:E; [|apply find_app].
  destruct (find_file m p) eqn:Ef; [reflexivity|]. cbn. destruct (list_eq_dec Z.eq_dec k p) as [->|]; [|reflexivity].
  exfalso. induction m as [|[k' v'] t IH]; [discriminate|]. cbn [existsb find_file fst] in *.
  destruct (list_eq_dec Z.eq_dec k' p) as [->|Nk]; [discriminate|]. exact (IH E Ef).
Qed.

Lemma tar_files_find data es : forall m p,
  find_file (fold_left (fun m e => emplace m (strip_dot (e_name e)) (content data e)) es m) p
  = find_file (m ++ pairs data es) p.
Proof.
  induction es as [|e t IH]; intros m p; cbn [fold_left pairs map]; [now rewrite app_nil_r|].
  rewrite IH, !find_app, emplace_find.
  destruct (find_file m p); [reflexivity|].
  change ((strip_dot (e_name e), content data e) :: map (fun e => (strip_dot (e_name e), content data e)) t)
    with ([(strip_dot (e_name e), content data e)] ++ pairs data t). now rewrite find_app.
Qed.

Lemma find_none data es p : (forall e, In e es -> strip_dot (e_name e) <> p) -> find_file (pairs data es) p = None.
Proof.
  induction es as [|e t IH]; intros H; [reflexivity|]. cbn.
  destruct (list_eq_dec Z.eq_dec (strip_dot (e_name e)) p) as [E|_]; [exfalso; apply (H e); cbn; auto|].
  apply IH. intros e' He. apply H. now right.
Qed.

Lemma walk_fits simple data off pending ms off' pending' : is_bytes data -> walk simple data off pending ms off' pending' ->
  forall n o s, In (File n o s) ms -> 0 <= s /\ 0 <= o /\ o + s <= zlen data.
Proof.
  intros Hb Hw. induction Hw; intros n o s Hin.
  - destruct Hin.
  - destruct Hin as [E|Hin]; [|now apply (IHHw n)]. injection E as <- <- <-.
    destruct (header_facts data off flag size Hb H0) as (_ & _ & _ & F & _). destruct H0 as (F1 & F2 & _).
    unfold blocks in *. lia.
  - destruct Hin as [E|Hin]; [discriminate|now apply (IHHw n)].
  - now apply (IHHw n).
Qed.

Lemma file_entry ms e : In e (files ms) <-> In (File (e_name e) (e_offset e) (e_size e)) ms.
Proof.
  unfold files. rewrite in_flat_map. split.
  - intros ([n o s|n] & Hm & He); cbn in He; [|destruct He]. destruct He as [<-|[]]. exact Hm.
  - intros H. exists (File (e_name e) (e_offset e) (e_size e)). split; [assumption|]. left. now destruct e.
Qed.

Lemma tar_read_absent data ms path : tar_members true data ms ->
  (forall offset size, ~ file_at ms path offset size) ->
  exists k, forall fuel, (k <= fuel)%nat -> tar_read fuel data path = Some None.
Proof.
  intros Ht Hn. destruct (read_tar_ok data ms Ht) as [k Hk]. exists k. intros fuel Hf.
  unfold tar_read. rewrite (Hk fuel Hf). f_equal. unfold tar_files.
  change (find_file (fold_left (fun m e => emplace m (strip_dot (e_name e)) (content data e)) (files ms) []) path = None).
  rewrite tar_files_find. apply find_none. intros e He E. apply file_entry in He.
  apply (Hn (e_offset e) (e_size e)). exists (e_name e). split; [assumption|]. now apply strip_dot_path.
Qed.

Lemma distinct_head e ms : distinct_paths (e :: ms) -> distinct_paths ms.
Proof.
  intros H p a b n1 o1 s1 n2 o2 s2 H1 H2 P1 P2.
  assert (S a = S b) by (eapply H; cbn; eauto). congruence.
Qed.

Lemma find_entry data ms name o s path : distinct_paths ms -> In (File name o s) ms -> path_of name path ->
  find_file (pairs data (files ms)) path = Some (content data (Entry name o s)).
Proof.
  induction ms as [|m t IH]; intros Hd Hin Hp; [destruct Hin|].
  destruct Hin as [->|Hin].
  - cbn [files flat_map app pairs map find_file e_name]. apply strip_dot_path in Hp.
    destruct (list_eq_dec Z.eq_dec (strip_dot name) path); [reflexivity|congruence].
  - destruct m as [n' o' s'|n'].
    + cbn [files flat_map app pairs map find_file e_name].
      destruct (list_eq_dec Z.eq_dec (strip_dot n') path) as [E|_].
      * exfalso. apply strip_dot_path in E. apply In_nth_error in Hin. destruct Hin as [i Hi].
        assert (0%nat = S i) by (eapply Hd; cbn; eauto). discriminate.
      * apply (IH (distinct_head _ _ Hd) Hin Hp).
    + apply (IH (distinct_head _ _ Hd) Hin Hp).
Qed.

Lemma tar_read_file data ms path offset size : tar_members true data ms -> distinct_paths ms ->
  file_at ms path offset size ->
  exists k, forall fuel, (k <= fuel)%nat -> tar_read fuel data path = Some (Some (bytes_at data offset size)).
Proof.
  intros Ht Hd (name & Hin & Hp). destruct (read_tar_ok data ms Ht) as [k Hk]. exists k. intros fuel Hf.
  unfold tar_read. rewrite (Hk fuel Hf). f_equal. unfold tar_files.
  change (find_file (fold_left (fun m e => emplace m (strip_dot (e_name e)) (content data e)) (files ms) []) path
          = Some (bytes_at data offset size)).
  rewrite tar_files_find. cbn [app]. rewrite (find_entry data ms name offset size path Hd Hin Hp).
  unfold content, sub, bytes_at. cbn [e_offset e_size].
  destruct Ht as (Hb & _ & _ & off & Hw & _).
  destruct (walk_fits _ _ _ _ _ _ _ Hb Hw _ _ _ Hin) as (A & B & C). rewrite Z.min_l by lia. reflexivity.
Qed.

Lemma storage_path_gen dirs : forall s key, Forall (fun d => d <> []) dirs -> s <> [] ->
  storage_path s dirs key = s ++ 47 :: slashes (dirs ++ [key]).
Proof.
  induction dirs as [|d t IH]; intros s key Hd Hs; cbn [storage_path].
  - destruct s; [congruence|reflexivity].
  - inversion Hd; subst. destruct s as [|c s]; [congruence|].
    rewrite IH; auto; [|discriminate]. rewrite <- app_assoc. cbn [app]. do 2 f_equal.
    destruct t; reflexivity.
Qed.

Lemma storage_path_slashes dirs key : Forall (fun d => d <> []) dirs ->
  storage_path [] dirs key = slashes (dirs ++ [key]).
Proof.
  intros Hd. destruct dirs as [|d t]; [reflexivity|]. inversion Hd; subst. cbn [storage_path].
  rewrite storage_path_gen by auto. destruct t; reflexivity.
Qed.
