(** Property theorems C55, C56, C58, C59, C60, second part: these properties are refuted as stated (Props_DataAccess.v,
    Props_Structure.v, Props_Resources.v).  Here is exactly what the library does instead, for all inputs. *)
From Coq Require Import List ZArith Bool Lia.
From Verif Require Import PyBase Spec DataAccess BitFacts DataAccessFacts DataAccessThms
  Resources SliceSpec Builder Archive ArchiveSpec ResourceSpec ResourceFacts SliceFacts RawFacts.
Import ListNotations.
Local Open Scope Z_scope.

(** ** C55 *)
Lemma le_extend l m a n : le (firstn n (skipn a (l ++ zeros m))) = le (firstn n (skipn a l)).
Proof.
  rewrite skipn_app. destruct (le_lt_dec (length (skipn a l)) n) as [H|H].
  - rewrite firstn_app, le_app. rewrite (firstn_all2 (skipn a l)) by lia.
    replace (le (firstn (n - length (skipn a l)) (skipn (a - length l) (zeros m)))) with 0; [lia|].
    symmetry. unfold zeros. rewrite <- (firstn_skipn (a - length l) (repeat 0 m)) at 1.
    assert (Z0 : forall k (l : list Z), Forall (fun x => x = 0) l -> le (firstn k l) = 0).
    { induction k as [|k IH]; intros [|x t] F; cbn [firstn le]; try reflexivity. inversion F; subst. rewrite IH by assumption. lia. }
    assert (Zs : forall k (l : list Z), Forall (fun x => x = 0) l -> Forall (fun x => x = 0) (skipn k l)).
    { induction k as [|k IH]; intros [|x t] F; cbn [skipn]; auto. inversion F; auto. }
    rewrite firstn_skipn. apply Z0, Zs. apply Forall_forall. intros x Hx. now apply repeat_spec in Hx.
  - rewrite firstn_app. replace (n - length (skipn a l))%nat with 0%nat by lia. cbn [firstn]. now rewrite app_nil_r.
Qed.

(** A field that does not lie inside the data: the read raises IndexError if the field is a single bit or needs one byte more
    than its width alone would (it crosses into an extra byte); otherwise the missing bytes silently read as zeros. *)
Theorem C55_past_end_partial : forall data off n signed,
  is_bytes data -> 0 <= off -> 1 <= n <= 64 -> 8 * zlen data < off + n ->
  (n = 1 \/ 8 * ((n + 7) / 8) < off mod 8 + n -> read_value data off n signed = Err IndexError) /\
  (n <> 1 -> off mod 8 + n <= 8 * ((n + 7) / 8) -> forall m, read_value data off n signed = read_value (data ++ zeros m) off n signed).
Proof.
  intros data off n s Hd Ho Hn Hp. split.
  - intros H. unfold read_value. destruct (n =? 1) eqn:E1.
    + rewrite py_get_out by lia. reflexivity.
    + destruct H as [H|H]; [lia|]. replace ((n + 7) / 8 * 8 - off mod 8 <? n) with true by lia.
      rewrite py_get_out by lia. reflexivity.
  - intros H1 H2 m. unfold read_value. replace (n =? 1) with false by lia.
    replace ((n + 7) / 8 * 8 - off mod 8 <? n) with false by lia.
    cbn [bind]. rewrite !py_slice_gen by lia. now rewrite le_extend.
Qed.
Print Assumptions C55_past_end_partial.
(** Hence a field that lies entirely behind the data reads as zero instead of raising, unless it crosses a byte as above. *)
Theorem C55_behind_partial : forall data off n signed,
  is_bytes data -> 8 * zlen data <= 8 * (off / 8) -> 2 <= n <= 64 -> off mod 8 + n <= 8 * ((n + 7) / 8) ->
  read_value data off n signed = Ok 0.
Proof.
  intros data off n s Hd Ho Hn H. pose proof (zlen_nonneg data).
  destruct (C55_past_end_partial data off n s Hd) as [_ P]; try lia.
  rewrite (P ltac:(lia) H (Z.to_nat (off / 8 + 9 - zlen data))).
  assert (Hz : zlen (data ++ zeros (Z.to_nat (off / 8 + 9 - zlen data))) = off / 8 + 9).
  { rewrite zlen_app. unfold zlen at 2, zeros. rewrite repeat_length. lia. }
  unfold read_value. replace (n =? 1) with false by lia. replace ((n + 7) / 8 * 8 - off mod 8 <? n) with false by lia. cbn [bind].
  rewrite py_slice_gen by lia. rewrite le_extend.
  rewrite skipn_all2 by (unfold zlen in Ho; lia). rewrite firstn_nil. cbn [le]. rewrite Z.shiftr_0_l.
  destruct (n <? 64) eqn:E.
  - rewrite py_shl_ok by lia. cbn [bind]. rewrite Z.land_0_l. destruct s; cbn [negb]; [|reflexivity].
    rewrite sign_bits_get by lia. cbn [bind]. now rewrite !Z.land_0_l.
  - cbn [bind]. destruct s; cbn [negb]; [|reflexivity]. rewrite sign_bits_get by lia. cbn [bind]. now rewrite !Z.land_0_l.
Qed.
Print Assumptions C55_behind_partial.
Example C55_instance : let d := [1; 2; 3] in
  8 * zlen d < 16 + 16 /\ read_value d 16 16 false = Ok 3 /\ read_value d 20 16 false = Err IndexError /\
  read_value d 24 1 false = Err IndexError /\ read_value d 800 12 true = Ok 0.
Proof. cbv zeta. split; [cbn; lia|]. repeat (split; [vm_compute; reflexivity|]). vm_compute. reflexivity. Qed.

(** ** C56 *)
(** A zero-width field on a byte boundary reads as 0 and writing it changes nothing, except at the very start of the data, where
    the first byte is cleared. *)
Theorem C56_aligned_partial : forall data off signed v,
  is_bytes data -> 0 <= off < 8 * zlen data -> off mod 8 = 0 ->
  read_value data off 0 signed = Ok 0 /\
  write_value data off 0 signed v = Ok (if off =? 0 then 0 :: skipn 1 data else data).
Proof.
  intros data off s v Hd Ho Hm. split.
  - unfold read_value. change (0 =? 1) with false. cbv iota zeta. change ((0 + 7) / 8) with 0. rewrite Hm.
    change (0 * 8 - 0 <? 0) with false. cbv iota. cbn [bind]. rewrite Z.add_0_r.
    rewrite py_slice_gen by lia. rewrite Z.sub_diag. cbn [Z.to_nat firstn le]. change (Z.shiftr 0 0) with 0.
    change (0 <? 64) with true. cbv iota. change (py_shl 1 0) with (Ok 1). cbn [bind]. destruct s; reflexivity.
  - unfold write_value. change (0 <=? 64) with true. cbn [negb]. cbv zeta. change (0 =? 1) with false. cbv iota.
    change ((0 + 7) / 8) with 0. change (py_shl 1 0) with (Ok 1). cbn [bind]. rewrite Hm.
    change (Z.shiftl (1 - 1) 0) with 0. rewrite Z.land_0_r.
    assert (Htb : py_to_bytes 0 (0 + 1) s = Ok [0]) by (destruct s; reflexivity).
    rewrite Htb. cbn [bind].
    rewrite py_get_in by lia. cbn [bind].
    unfold py_shl. replace (off <? 0) with false by lia. cbn [bind].
    change (py_get [0] 0) with (Ok 0). cbn [bind].
    rewrite py_set_in by (try lia; unfold is_byte; lia). cbn [bind].
    set (d1 := list_set data (Z.to_nat (off / 8)) 0).
    assert (Hd1 : zlen d1 = zlen data) by (unfold d1, zlen; now rewrite list_set_length).
    assert (Hg : py_get d1 (off / 8) = Ok 0).
    { rewrite py_get_in by lia. unfold d1. rewrite list_set_nth by (unfold zlen in *; lia). now rewrite Nat.eqb_refl. }
    rewrite Hg. cbn [bind].
    assert (Hbyte : is_byte (nth (Z.to_nat (off / 8)) data 0)) by (apply is_bytes_nth; assumption).
    rewrite py_set_in; [|lia|].
    2:{ change (Z.lor 0 ?x) with x. now apply land_byte. }
    cbn [bind]. change (Z.to_nat (0 - 1)) with 0%nat. cbn [copy_bytes bind].
    change (0 * 8 - 0 <? 0) with false. cbv iota. f_equal. change (Z.lor 0 ?x) with x. unfold d1.
    assert (LL : forall (l : list Z) k x y, list_set (list_set l k x) k y = list_set l k y).
    { induction l as [|h l IH]; intros [|k] x y; cbn [list_set]; try reflexivity. now rewrite IH. }
    rewrite LL. destruct (off =? 0) eqn:E0.
    + assert (off = 0) by lia. subst off. change (0 / 8) with 0. cbn [Z.to_nat]. destruct data as [|x t]; [cbn in Ho; lia|].
      cbn [list_set nth skipn]. change (Z.shiftl 1 0 - 1) with 0. now rewrite Z.land_0_r.
    + assert (Hv : Z.land (nth (Z.to_nat (off / 8)) data 0) (Z.shiftl 1 off - 1) = nth (Z.to_nat (off / 8)) data 0).
      { rewrite Z.shiftl_1_l. replace (2 ^ off - 1) with (Z.ones off) by (rewrite Z.ones_equiv; lia).
        rewrite Z.land_ones by lia. apply Z.mod_small. unfold is_byte in Hbyte.
        assert (2 ^ 8 <= 2 ^ off) by (apply Z.pow_le_mono_r; lia). change (2 ^ 8) with 256 in *. lia. }
      rewrite Hv. clear. revert data. induction (Z.to_nat (off / 8)) as [|k IH]; intros [|x t]; cbn [list_set nth]; try reflexivity. now rewrite IH.
Qed.
Print Assumptions C56_aligned_partial.
Example C56_aligned_instance : is_bytes [7; 9] /\ 8 mod 8 = 0 /\ read_value [7; 9] 8 0 true = Ok 0 /\
  write_value [7; 9] 8 0 false 5 = Ok [7; 9] /\ write_value [7; 9] 0 0 false 5 = Ok [0; 9].
Proof. split; [repeat constructor; unfold is_byte; lia|]. repeat (split; [vm_compute; reflexivity|]). vm_compute. reflexivity. Qed.

(** ** C58 *)
Lemma framed_slice_down b i j k : k < 0 -> 0 <= i < zlen b -> 0 <= j ->
  list_slice (framed b) (PySlice (Some (i + 8)) (Some (j + 8)) (Some k)) = list_slice b (PySlice (Some i) (Some j) (Some k)).
Proof.
  intros Hk Hi Hj. unfold list_slice. cbn [sl_start sl_stop sl_step bound]. cbv zeta. replace (0 <? k) with false by lia.
  unfold clamp, from_end. rewrite framed_len. replace (i + 8 <? 0) with false by lia. replace (j + 8 <? 0) with false by lia.
  replace (i <? 0) with false by lia. replace (j <? 0) with false by lia.
  replace (Z.max (-1) (Z.min (zlen b + 16 - 1) (i + 8))) with (i + 8) by lia.
  replace (Z.max (-1) (Z.min (zlen b - 1) i)) with i by lia.
  f_equal. f_equal. destruct (Z.le_gt_cases i j) as [H|H].
  - replace (Z.to_nat (i + 8 - _)) with 0%nat by lia. replace (Z.to_nat (i - _)) with 0%nat by lia. reflexivity.
  - replace (Z.max (-1) (Z.min (zlen b + 16 - 1) (j + 8))) with (j + 8) by lia.
    replace (Z.max (-1) (Z.min (zlen b - 1) j)) with j by lia. replace (i + 8 - (j + 8)) with (i - j) by lia.
    replace (j + 8 + 1) with (j + 1 + 8) by lia. apply framed_skip; lia.
Qed.
(** Slices with an explicit start inside the data and an explicit stop, both counted from the front, are the slices of the
    payload, for every step; an omitted start always raises; an omitted stop adds the eight bytes of padding. *)
Theorem C58_slices_partial : forall b, is_bytes b -> zlen b < 2 ^ 64 ->
  (forall i j st, 0 <= i -> 0 <= j <= zlen b -> match st with None => True | Some k => 0 < k \/ (k < 0 /\ i < zlen b) end ->
     rawdata_slice (RawData (framed b)) (PySlice (Some i) (Some j) st) = Ok (list_slice b (PySlice (Some i) (Some j) st))) /\
  (forall stop st, rawdata_slice (RawData (framed b)) (PySlice None stop st) = Err TypeError) /\
  (forall i, 0 <= i <= zlen b ->
     rawdata_slice (RawData (framed b)) (PySlice (Some i) None None) = Ok (list_slice b (PySlice (Some i) None None) ++ zeros 8)).
Proof.
  intros b Hb Hl. split; [|split].
  - intros i j st Hi Hj Hst. destruct (match st with None => true | Some k => 0 <? k end) eqn:Ep.
    + rewrite raw_slice_spec by (try assumption; destruct st; try exact I; lia). f_equal.
      unfold list_slice. cbn [sl_start sl_stop sl_step bound]. cbv zeta.
      replace (0 <? match st with Some k => k | None => 1 end) with true by (destruct st; [symmetry; assumption|reflexivity]).
      f_equal. unfold clamp, from_end. replace (i <? 0) with false by lia. replace (j <? 0) with false by lia.
      replace (Z.max 0 (Z.min (zlen b) j)) with j by lia.
      destruct (Z.le_gt_cases i (zlen b)) as [H|H]; [now replace (Z.max 0 (Z.min (zlen b) i)) with i by lia|].
      replace (Z.to_nat (j - i)) with 0%nat by lia. now replace (Z.to_nat (j - _)) with 0%nat by lia.
    + destruct st as [k|]; [|discriminate]. assert (k <= 0) by lia. destruct Hst as [Hst|[Hk Hi2]]; [lia|].
      unfold rawdata_slice. cbn [sl_start sl_stop sl_step rd_mem option_map]. rewrite py_getslice_spec. cbn [sl_step].
      replace (k =? 0) with false by lia. f_equal. change SIZE_OFFSET_IN_BYTES with 8. apply framed_slice_down; lia.
  - reflexivity.
  - intros i Hi. unfold rawdata_slice. cbn [sl_start sl_stop sl_step rd_mem option_map]. rewrite py_getslice_spec. cbn [sl_step].
    change (1 =? 0) with false. cbv iota. f_equal. unfold list_slice. cbn [sl_start sl_stop sl_step bound]. cbv zeta.
    change (0 <? 1) with true. cbv iota. change (Z.to_nat 1) with 1%nat. rewrite !every_1.
    change SIZE_OFFSET_IN_BYTES with 8. unfold clamp, from_end. rewrite framed_len. replace (i + 8 <? 0) with false by lia. replace (i <? 0) with false by lia.
    replace (Z.max 0 (Z.min (zlen b + 16) (i + 8))) with (i + 8) by lia. replace (Z.max 0 (Z.min (zlen b) i)) with i by lia.
    rewrite (firstn_all2 (n := Z.to_nat (zlen b - i))) by (rewrite skipn_length; unfold zlen; lia).
    rewrite firstn_all2.
    2:{ rewrite skipn_length. pose proof (framed_len b) as F. unfold zlen in *. lia. }
    unfold framed. rewrite skipn_app. replace (Z.to_nat (i + 8)) with (8 + Z.to_nat i)%nat by lia.
    rewrite skipn_all2 by (rewrite to_le_length; lia). rewrite to_le_length. cbn [app].
    replace (8 + Z.to_nat i - 8)%nat with (Z.to_nat i) by lia. rewrite skipn_app.
    replace (Z.to_nat i - length b)%nat with 0%nat by (unfold zlen in Hi; lia). reflexivity.
Qed.
Print Assumptions C58_slices_partial.
Example C58_instance : rawdata_slice (RawData (framed [1; 2; 3; 4])) (PySlice (Some 3) (Some 0) (Some (-2))) = Ok [4; 2] /\
  list_slice [1; 2; 3; 4] (PySlice (Some 3) (Some 0) (Some (-2))) = [4; 2] /\
  rawdata_slice (RawData (framed [1; 2])) (PySlice (Some 1) None None) = Ok ([2] ++ zeros 8).
Proof. repeat (split; [vm_compute; reflexivity|]). vm_compute. reflexivity. Qed.

(** ** C59 *)
(** Without a separator at or behind position [i], only the byte at [i] is decoded, however long the text is; from the end of
    the data on a NUL (of the padding) is returned. *)
Theorem C59_unterminated_partial : forall b i c, is_bytes b -> zlen b < 2 ^ 64 -> 0 <= i -> ~ In c (skipn (Z.to_nat i) b) ->
  (i < zlen b -> sub_str (RawData (framed b)) i [c] = if nth (Z.to_nat i) b 0 <? 128 then Ok [nth (Z.to_nat i) b 0] else Err UnicodeDecodeError) /\
  (zlen b <= i < zlen b + 8 -> sub_str (RawData (framed b)) i [c] = Ok [0]).
Proof.
  intros b i c Hb Hl Hi Hc.
  assert (Hn : find (fun k => eqb_list (rawdata_sub (RawData (framed b)) k (k + zlen [c])) [c]) (zrange i (zlen b)) = None).
  { apply find_zrange_none. intros j Hj. destruct (nth_split_z b j 0 ltac:(lia)) as (pre & post & E & El).
    rewrite <- El. change (zlen [c]) with (zlen [nth (Z.to_nat j) b 0]). rewrite (raw_sub_in b pre [nth (Z.to_nat j) b 0] post) by exact E.
    cbn [eqb_list]. rewrite andb_true_r. apply Z.eqb_neq. intros X. apply Hc. rewrite <- X.
    replace (nth (Z.to_nat j) b 0) with (nth (Z.to_nat j - Z.to_nat i)%nat (skipn (Z.to_nat i) b) 0).
    - apply nth_In. rewrite skipn_length. unfold zlen in Hj. lia.
    - rewrite nth_skipn. f_equal. lia. }
  unfold sub_str. rewrite raw_len by (try assumption; now apply Z.ltb_lt). cbn [bind]. rewrite Hn. split.
  - intros H. rewrite raw_get_spec by lia. unfold decode. cbn [utf8_valid].
    assert (B : is_byte (nth (Z.to_nat i) b 0)) by (apply is_bytes_nth; assumption).
    destruct (nth (Z.to_nat i) b 0 <? 128); [reflexivity|].
    destruct ((194 <=? _) && _); [reflexivity|]. destruct ((224 <=? _) && _); [reflexivity|]. now destruct ((240 <=? _) && _).
  - intros H. assert (E : b ++ zeros 8 = (b ++ zeros (Z.to_nat (i - zlen b))) ++ 0 :: zeros (7 - Z.to_nat (i - zlen b))).
    { rewrite <- app_assoc. f_equal. unfold zeros. change (0 :: repeat 0 ?k) with (repeat 0 (S k)). rewrite <- repeat_app. f_equal. lia. }
    pose proof (raw_get_in b _ 0 _ E) as G. rewrite zlen_app in G. unfold zlen at 2 in G. unfold zeros at 1 in G. rewrite repeat_length in G.
    replace (zlen b + Z.of_nat (Z.to_nat (i - zlen b))) with i in G by lia. rewrite G. reflexivity.
Qed.
Print Assumptions C59_unterminated_partial.
Example C59_instance : let b := [104; 101; 0; 97; 98; 99] in ~ In 0 (skipn 3 b) /\ is_bytes b /\
  sub_str (RawData (framed b)) 3 [0] = Ok [97] /\ sub_str (RawData (framed [195; 164])) 0 [0] = Err UnicodeDecodeError /\
  sub_str (RawData (framed b)) 6 [0] = Ok [0].
Proof.
  cbv zeta. split; [cbn; lia|]. split; [repeat constructor; unfold is_byte; lia|]. repeat (split; [vm_compute; reflexivity|]). vm_compute. reflexivity.
Qed.

(** ** C60 *)
Lemma array_loop_all r sep n N : n <= 0 -> forall is got index, 0 <= got -> got + zlen is < N ->
  sub_str_array_loop r sep n got index is = sub_str_array_loop r sep N got index is.
Proof.
  intros Hn. induction is as [|i t IH]; intros got index Hg HN; [reflexivity|]. cbn [sub_str_array_loop].
  rewrite zlen_cons in HN. pose proof (zlen_nonneg t). destruct (eqb_list _ _).
  - destruct (decode _); cbn [bind]; [|reflexivity]. replace (got + 1 =? n) with false by lia. replace (got + 1 =? N) with false by lia.
    rewrite IH by lia. reflexivity.
  - apply IH; lia.
Qed.
(** For every requested number (also zero and negative ones, which mean: all) and every separator of one byte, the strings are
    the terminated ones in order. *)
Theorem C60_any_number_partial : forall b pre c strs rest n,
  is_bytes b -> zlen b < 2 ^ 64 -> b = pre ++ joined c strs ++ rest -> (forall s, In s strs -> ~ In c s) -> ~ In c rest ->
  Forall (fun s => utf8_valid s = true) strs ->
  sub_str_array (RawData (framed b)) (zlen pre) n [c] = Ok (if 1 <=? n then firstn (Z.to_nat n) strs else strs).
Proof.
  intros b pre c strs rest n Hb Hl E Hc Hr Hu.
  pose proof (zlen_nonneg pre). pose proof (zlen_nonneg (joined c strs ++ rest)).
  assert (G : forall m, 1 <= m -> sub_str_array (RawData (framed b)) (zlen pre) m [c] = Ok (firstn (Z.to_nat m) strs)).
  { intros m Hm. rewrite sub_str_array_spec; [|assumption|now apply Z.ltb_lt|rewrite E, zlen_app; lia|assumption].
    replace (skipn (Z.to_nat (zlen pre)) b) with (joined c strs ++ rest)
      by (rewrite E; unfold zlen; rewrite Nat2Z.id; symmetry; apply skipn_app_exact).
    rewrite pieces_joined by assumption. rewrite (pieces_none c rest Hr), app_nil_r.
    apply mapM_decode_ok. now apply Forall_firstn. }
  destruct (1 <=? n) eqn:En; [apply G; lia|].
  set (N := zlen (zrange (zlen pre) (zlen b)) + zlen strs + 1).
  pose proof (zlen_nonneg (zrange (zlen pre) (zlen b))). pose proof (zlen_nonneg strs).
  assert (GN := G N ltac:(lia)). unfold sub_str_array in *. rewrite raw_len in * by (try assumption; now apply Z.ltb_lt). cbn [bind] in *.
  rewrite (array_loop_all _ _ n N) by lia. rewrite GN. f_equal. apply firstn_all2. unfold zlen in *. lia.
Qed.
Print Assumptions C60_any_number_partial.
Example C60_instance : let b := joined 10 [[97]; []; [98; 99]] ++ [100] in is_bytes b /\ ~ In 10 [100] /\
  sub_str_array (RawData (framed b)) 0 (-3) [10] = Ok [[97]; []; [98; 99]] /\ sub_str_array (RawData (framed b)) 0 2 [10] = Ok [[97]; []].
Proof. cbv zeta. split; [repeat constructor; unfold is_byte; lia|]. split; [cbn; lia|]. split; vm_compute; reflexivity. Qed.
