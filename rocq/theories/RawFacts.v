(** Proofs about raw data, strings in raw data, and instances. *)
From Coq Require Import List ZArith Bool String Lia.
From Coq Require Import ZifyBool ZifyNat.
From Verif Require Import PyBase Spec DataAccess BitFacts DataAccessFacts DataAccessThms Structure StructSpec StructFacts
  Resources SliceSpec Builder Archive ArchiveSpec ResourceSpec BuilderFacts ResourceFacts SliceFacts.
Import ListNotations.
Local Open Scope list_scope.
Local Open Scope Z_scope.
Ltac Zify.zify_post_hook ::= Z.div_mod_to_equations.

Lemma firstn_app_exact {A} (a b : list A) : firstn (List.length a) (a ++ b) = a.
Proof. rewrite firstn_app, firstn_all, Nat.sub_diag, firstn_O, app_nil_r. reflexivity. Qed.
Lemma skipn_app_exact {A} (a b : list A) : skipn (List.length a) (a ++ b) = b.
Proof. rewrite skipn_app, skipn_all, Nat.sub_diag. reflexivity. Qed.

Lemma py_slice_mid {A} (a m p : list A) : py_slice (a ++ m ++ p) (zlen a) (zlen a + zlen m) = m.
Proof.
  unfold py_slice, py_clip. rewrite !zlen_app.
  pose proof (zlen_nonneg a). pose proof (zlen_nonneg m). pose proof (zlen_nonneg p).
  replace (zlen a <? 0) with false by lia. replace (zlen a + zlen m <? 0) with false by lia.
  replace (Z.max 0 (Z.min (zlen a + (zlen m + zlen p)) (zlen a))) with (zlen a) by lia.
  replace (Z.max 0 (Z.min (zlen a + (zlen m + zlen p)) (zlen a + zlen m))) with (zlen a + zlen m) by lia.
  replace (Z.to_nat (zlen a + zlen m - zlen a)) with (List.length m) by (unfold zlen in *; lia).
  replace (Z.to_nat (zlen a)) with (List.length a) by (unfold zlen in *; lia).
  rewrite skipn_app_exact. apply firstn_app_exact.
Qed.

Lemma raw_sub b pre mid post : b ++ zeros 8 = pre ++ mid ++ post ->
  rawdata_sub (RawData (framed b)) (zlen pre) (zlen pre + zlen mid) = mid.
Proof.
  intros E. unfold rawdata_sub. cbn [rd_mem]. unfold framed. rewrite E. change SIZE_OFFSET_IN_BYTES with 8.
  replace (zlen pre + 8) with (zlen (to_le 8 (zlen b) ++ pre)) by (rewrite zlen_app, zlen_to_le; lia).
  replace (zlen pre + zlen mid + 8) with (zlen (to_le 8 (zlen b) ++ pre) + zlen mid) by (rewrite zlen_app, zlen_to_le; lia).
  rewrite app_assoc. apply py_slice_mid.
Qed.

Lemma raw_sub_in b pre mid post : b = pre ++ mid ++ post ->
  rawdata_sub (RawData (framed b)) (zlen pre) (zlen pre + zlen mid) = mid.
Proof. intros ->. apply (raw_sub _ pre mid (post ++ zeros 8)). now rewrite <- !app_assoc. Qed.

Lemma raw_get_in b pre x post : b ++ zeros 8 = pre ++ x :: post ->
  rawdata_get (RawData (framed b)) (zlen pre) = [x].
Proof.
  intros E. unfold rawdata_get. rewrite <- (raw_sub b pre [x] post) by exact E.
  unfold rawdata_sub. f_equal. unfold zlen; cbn [List.length]. lia.
Qed.

Lemma raw_open b : rawdata_open (framed b) = Ok (RawData (framed b)).
Proof. unfold rawdata_open. now rewrite check_base_framed. Qed.

Lemma raw_len b : is_bytes b -> fits64 b = true -> rawdata_len (RawData (framed b)) = Ok (zlen b).
Proof. intros. unfold rawdata_len. cbn [rd_mem]. now apply header_read. Qed.

Lemma nth_split_z {A} (l : list A) i d : 0 <= i < zlen l -> exists pre post, l = pre ++ nth (Z.to_nat i) l d :: post /\ zlen pre = i.
Proof.
  intros H. unfold zlen in H. destruct (nth_split l d (n := Z.to_nat i)) as (pre & post & E & L); [lia|].
  exists pre, post. split; [exact E|]. unfold zlen. lia.
Qed.

Lemma raw_get_spec b i : 0 <= i < zlen b -> rawdata_get (RawData (framed b)) i = [nth (Z.to_nat i) b 0].
Proof.
  intros H. destruct (nth_split_z b i 0 H) as (pre & post & E & L). rewrite <- L at 1.
  apply (raw_get_in b pre _ (post ++ zeros 8)). rewrite E at 1. rewrite <- app_assoc. reflexivity.
Qed.

Lemma framed_skip b a k : 0 <= a -> 0 <= k <= zlen b - a ->
  firstn (Z.to_nat k) (skipn (Z.to_nat (a + 8)) (framed b)) = firstn (Z.to_nat k) (skipn (Z.to_nat a) b).
Proof.
  intros Ha Hk. unfold framed. replace (Z.to_nat (a + 8)) with (8 + Z.to_nat a)%nat by lia.
  rewrite (skipn_app (8 + Z.to_nat a) (to_le 8 (zlen b))). rewrite (skipn_all2 (to_le 8 (zlen b))) by (rewrite to_le_length; lia).
  rewrite to_le_length. cbn [app]. replace (8 + Z.to_nat a - 8)%nat with (Z.to_nat a) by lia.
  rewrite skipn_app, firstn_app. unfold zlen in *. rewrite skipn_length.
  replace (Z.to_nat k - (Datatypes.length b - Z.to_nat a))%nat with 0%nat by lia. cbn [firstn]. now rewrite app_nil_r.
Qed.

Lemma raw_slice_spec b i j st : 0 <= i -> 0 <= j <= zlen b ->
  match st with None => True | Some k => 0 < k end ->
  rawdata_slice (RawData (framed b)) (PySlice (Some i) (Some j) st)
    = Ok (every (Z.to_nat (match st with None => 1 | Some k => k end)) (firstn (Z.to_nat (j - i)) (skipn (Z.to_nat i) b))).
Proof.
  intros Hi Hj Hst. unfold rawdata_slice. cbn [sl_start sl_stop sl_step rd_mem option_map]. rewrite py_getslice_spec.
  cbn [sl_step]. replace (match st with Some k => k | None => 1 end =? 0) with false by (destruct st; lia).
  f_equal. unfold list_slice. cbn [sl_start sl_stop sl_step bound]. cbv zeta.
  replace (0 <? match st with Some k => k | None => 1 end) with true by (destruct st; lia). cbv iota.
  change SIZE_OFFSET_IN_BYTES with 8. unfold clamp, from_end. rewrite framed_len.
  replace (i + 8 <? 0) with false by lia. replace (j + 8 <? 0) with false by lia.
  replace (Z.max 0 (Z.min (zlen b + 16) (j + 8))) with (j + 8) by lia. f_equal.
  destruct (Z.le_gt_cases i j) as [Hij|Hij].
  - replace (Z.max 0 (Z.min (zlen b + 16) (i + 8))) with (i + 8) by lia.
    replace (j + 8 - (i + 8)) with (j - i) by lia. apply framed_skip; lia.
  - replace (Z.to_nat (j + 8 - Z.max 0 (Z.min (zlen b + 16) (i + 8)))) with 0%nat by lia.
    replace (Z.to_nat (j - i)) with 0%nat by lia. reflexivity.
Qed.

(** ** strings *)
Lemma zrange_nil a b : b <= a -> zrange a b = [].
Proof. intros H. unfold zrange. replace (Z.to_nat (b - a)) with 0%nat by lia. reflexivity. Qed.
Lemma zrange_cons a b : a < b -> zrange a b = a :: zrange (a + 1) b.
Proof.
  intros H. unfold zrange. replace (Z.to_nat (b - a)) with (S (Z.to_nat (b - (a + 1)))) by lia.
  cbn [seq map]. f_equal; [lia|]. rewrite <- seq_shift, map_map. apply map_ext. intros k. lia.
Qed.

Lemma eqb_list_eq a b : eqb_list a b = true <-> a = b.
Proof.
  revert b. induction a as [|x a IH]; intros [|y b]; cbn [eqb_list]; split; try discriminate; try reflexivity.
  - intros H. apply andb_prop in H. destruct H as [H1 H2]. apply IH in H2. apply Z.eqb_eq in H1. congruence.
  - intros H. inversion H; subst. rewrite Z.eqb_refl. cbn. now apply IH.
Qed.
Lemma eqb_list_refl a : eqb_list a a = true. Proof. now apply eqb_list_eq. Qed.

Lemma find_zrange f a n k : a <= k < n -> (forall j, a <= j < k -> f j = false) -> f k = true ->
  find f (zrange a n) = Some k.
Proof.
  intros Hk Hf Ht. remember (Z.to_nat (k - a)) as m eqn:Em. revert a Hk Hf Em.
  induction m as [|m IH]; intros a Hk Hf Em.
  - assert (a = k) by lia. subst a. rewrite zrange_cons by lia. cbn [find]. now rewrite Ht.
  - rewrite zrange_cons by lia. cbn [find]. rewrite Hf by lia. apply IH; [lia| |lia]. intros j Hj. apply Hf. lia.
Qed.

Lemma find_zrange_none f a n : (forall j, a <= j < n -> f j = false) -> find f (zrange a n) = None.
Proof.
  intros Hf. remember (Z.to_nat (n - a)) as m eqn:Em. revert a Hf Em.
  induction m as [|m IH]; intros a Hf Em.
  - now rewrite zrange_nil by lia.
  - rewrite zrange_cons by lia. cbn [find]. rewrite Hf by lia. apply IH; [|lia]. intros j Hj. apply Hf. lia.
Qed.

Lemma sub_str_found b pre s sep post : is_bytes b -> fits64 b = true -> sep <> [] ->
  b = pre ++ s ++ sep ++ post ->
  (forall s' post', s ++ sep ++ post = s' ++ sep ++ post' -> (List.length s <= List.length s')%nat) ->
  sub_str (RawData (framed b)) (zlen pre) sep = decode s.
Proof.
  intros Hb Hf Hsep E Hfirst. unfold sub_str. rewrite raw_len by assumption. cbn [bind].
  assert (Hl : zlen b = zlen pre + zlen s + zlen sep + zlen post) by (rewrite E, !zlen_app; lia).
  pose proof (zlen_nonneg pre) as H0. pose proof (zlen_nonneg s) as H1. pose proof (zlen_nonneg post) as H2.
  assert (H3 : 0 < zlen sep) by (destruct sep; [congruence|rewrite zlen_cons; pose proof (zlen_nonneg sep); lia]).
  rewrite (find_zrange _ _ _ (zlen pre + zlen s)).
  - rewrite (raw_sub_in b pre s (sep ++ post)) by exact E. reflexivity.
  - lia.
  - intros j Hj. apply not_true_iff_false. intros Ht. apply eqb_list_eq in Ht.
    set (k := Z.to_nat (j - zlen pre)) in *.
    set (rest := s ++ sep ++ post) in *.
    assert (Lr : zlen rest = zlen s + zlen sep + zlen post) by (unfold rest; rewrite !zlen_app; lia).
    assert (Es : rest = firstn k rest ++ firstn (List.length sep) (skipn k rest) ++ skipn (List.length sep) (skipn k rest)).
    { now rewrite firstn_skipn, firstn_skipn. }
    assert (Lk : zlen (firstn k rest) = j - zlen pre) by (rewrite zlen_firstn; unfold zlen in *; lia).
    assert (Lm : zlen (firstn (List.length sep) (skipn k rest)) = zlen sep).
    { rewrite zlen_firstn; [reflexivity|]. rewrite skipn_length. unfold zlen in *. lia. }
    assert (Em : b = (pre ++ firstn k rest) ++ firstn (List.length sep) (skipn k rest) ++ skipn (List.length sep) (skipn k rest)).
    { rewrite E. rewrite <- app_assoc. now rewrite <- Es. }
    pose proof (raw_sub_in b _ _ _ Em) as R. rewrite zlen_app, Lk, Lm in R.
    replace (zlen pre + (j - zlen pre)) with j in R by lia. rewrite R in Ht.
    rewrite Ht in Es. specialize (Hfirst _ _ Es). rewrite firstn_length in Hfirst. unfold zlen in *. lia.
  - apply eqb_list_eq. replace (zlen pre + zlen s) with (zlen (pre ++ s)) by apply zlen_app.
    apply (raw_sub_in b (pre ++ s) sep post). now rewrite <- app_assoc.
Qed.

Lemma app_uniq_sep (c : Z) s s' r r' : s ++ c :: r = s' ++ c :: r' -> ~ In c s -> (List.length s <= List.length s')%nat.
Proof.
  revert s'. induction s as [|x s IH]; intros s' E H; cbn [List.length]; [lia|].
  destruct s' as [|y s']; cbn [app] in E.
  - inversion E; subst. exfalso. apply H. now left.
  - inversion E; subst. cbn [List.length]. apply le_n_S. eapply IH; [eassumption|]. intros Hn. apply H. now right.
Qed.

(** ** sub_str_array *)
Lemma array_loop b c n : is_bytes b -> forall rest pre cur got, b = pre ++ cur ++ rest -> 0 <= got < n ->
  sub_str_array_loop (RawData (framed b)) [c] n got (zlen pre) (zrange (zlen pre + zlen cur) (zlen b))
    = mapM decode (firstn (Z.to_nat (n - got)) (pieces c cur rest)).
Proof.
  intros Hb. induction rest as [|x rest IH]; intros pre cur got E Hn.
  - rewrite zrange_nil by (rewrite E, !zlen_app; cbn; lia). cbn [sub_str_array_loop pieces]. now rewrite firstn_nil.
  - assert (Hl : zlen b = zlen pre + zlen cur + 1 + zlen rest) by (rewrite E, !zlen_app, zlen_cons; lia).
    pose proof (zlen_nonneg rest). rewrite zrange_cons by lia. cbn [sub_str_array_loop pieces].
    replace (zlen pre + zlen cur + zlen [c]) with (zlen (pre ++ cur) + zlen [x]) by (rewrite zlen_app; cbn; lia).
    replace (zlen pre + zlen cur) with (zlen (pre ++ cur)) by apply zlen_app.
    rewrite (raw_sub_in b (pre ++ cur) [x] rest) by (rewrite E, <- app_assoc; reflexivity).
    cbn [eqb_list]. rewrite andb_true_r. destruct (x =? c) eqn:Ex.
    + replace (Z.to_nat (n - got)) with (S (Z.to_nat (n - (got + 1)))) by lia. cbn [firstn mapM].
      rewrite zlen_app. rewrite (raw_sub_in b pre cur (x :: rest)) by exact E.
      destruct (decode cur) as [s|e]; cbn [bind]; [|reflexivity].
      destruct (got + 1 =? n) eqn:Eg.
      * replace (Z.to_nat (n - (got + 1))) with 0%nat by lia. reflexivity.
      * assert (E' : b = ((pre ++ cur) ++ [x]) ++ [] ++ rest) by (rewrite E, <- !app_assoc; reflexivity).
        specialize (IH ((pre ++ cur) ++ [x]) [] (got + 1) E' ltac:(lia)).
        rewrite !zlen_app in IH. change (zlen [x]) with 1 in IH. change (zlen (@nil Z)) with 0 in IH. rewrite Z.add_0_r in IH.
        rewrite IH. reflexivity.
    + specialize (IH pre (cur ++ [x]) got). rewrite zlen_app in IH. change (zlen [x]) with 1 in IH.
      rewrite zlen_app. rewrite <- IH; [f_equal; f_equal; lia| |assumption].
      rewrite E, <- !app_assoc. reflexivity.
Qed.

Lemma sub_str_array_spec b i n c : is_bytes b -> fits64 b = true -> 0 <= i <= zlen b -> 1 <= n ->
  sub_str_array (RawData (framed b)) i n [c] = mapM decode (firstn (Z.to_nat n) (pieces c [] (skipn (Z.to_nat i) b))).
Proof.
  intros Hb Hf Hi Hn. unfold sub_str_array. rewrite raw_len by assumption. cbn [bind].
  pose proof (array_loop b c n Hb (skipn (Z.to_nat i) b) (firstn (Z.to_nat i) b) [] 0) as L.
  rewrite zlen_firstn in L by (unfold zlen in Hi; lia). change (zlen (@nil Z)) with 0 in L. rewrite Z.add_0_r, Z2Nat.id in L by lia.
  rewrite L; [now rewrite Z.sub_0_r|symmetry; apply firstn_skipn|lia].
Qed.

Lemma pieces_app c s : ~ In c s -> forall cur rest, pieces c cur (s ++ c :: rest) = (cur ++ s) :: pieces c [] rest.
Proof.
  induction s as [|x s IH]; intros H cur rest; cbn [app pieces].
  - now rewrite Z.eqb_refl, app_nil_r.
  - replace (x =? c) with false by (symmetry; apply Z.eqb_neq; intros ->; apply H; now left).
    rewrite IH by (intros Hn; apply H; now right). now rewrite <- app_assoc.
Qed.

Lemma pieces_joined c strs rest : (forall s, In s strs -> ~ In c s) ->
  pieces c [] (joined c strs ++ rest) = strs ++ pieces c [] rest.
Proof.
  unfold joined. induction strs as [|s t IH]; intros H; cbn [map List.concat app]; [reflexivity|].
  rewrite <- !app_assoc. cbn [app]. rewrite pieces_app by (apply H; now left). cbn [app]. f_equal.
  apply IH. intros u Hu. apply H. now right.
Qed.

Lemma pieces_none c rest : ~ In c rest -> forall cur, pieces c cur rest = [].
Proof.
  induction rest as [|x t IH]; intros H cur; cbn [pieces]; [reflexivity|].
  replace (x =? c) with false by (symmetry; apply Z.eqb_neq; intros ->; apply H; now left).
  apply IH. intros Hn. apply H. now right.
Qed.

(** ** sub_str_list *)
Lemma list_string b c s pre post : is_bytes b -> b = pre ++ s ++ c :: post -> ~ In c s ->
  (s = [] -> hd_error (post ++ zeros 8) <> Some c) ->
  forall todo cur, s = cur ++ todo ->
  sub_str_list_loop (RawData (framed b)) [c] [c; c] (zlen pre) (zrange (zlen pre + zlen cur) (zlen b))
    = (x <- decode s ;; rest <- sub_str_list_loop (RawData (framed b)) [c] [c; c] (zlen pre + zlen s + 1)
                                  (zrange (zlen pre + zlen s + 1) (zlen b)) ;; Ok (x :: rest)).
Proof.
  intros Hb E Hc Hpair. induction todo as [|x todo IH]; intros cur Es.
  - rewrite app_nil_r in Es. subst cur.
    assert (Hl : zlen b = zlen pre + zlen s + 1 + zlen post) by (rewrite E, !zlen_app, zlen_cons; lia).
    pose proof (zlen_nonneg post). rewrite zrange_cons by lia. cbn [sub_str_list_loop].
    assert (E1 : eqb_list (rawdata_sub (RawData (framed b)) (zlen pre + zlen s) (zlen pre + zlen s + zlen [c])) [c] = true).
    { apply eqb_list_eq. replace (zlen pre + zlen s) with (zlen (pre ++ s)) by apply zlen_app.
      apply (raw_sub_in b (pre ++ s) [c] post). rewrite E, <- app_assoc. reflexivity. }
    assert (E2 : (zlen pre =? zlen pre + zlen s) &&
                 eqb_list (rawdata_sub (RawData (framed b)) (zlen pre + zlen s) (zlen pre + zlen s + zlen [c; c])) [c; c] = false).
    { destruct s as [|y s'].
      - rewrite Z.add_0_r, Z.eqb_refl. cbn [andb]. specialize (Hpair eq_refl).
        destruct (post ++ zeros 8) as [|d rest] eqn:Ep; [destruct post; discriminate|].
        change (zlen [c; c]) with (zlen [c; d]).
        rewrite (raw_sub b pre [c; d] rest) by (rewrite E; cbn [app]; rewrite <- app_assoc; cbn [app]; now rewrite Ep).
        cbn [eqb_list]. rewrite Z.eqb_refl, andb_true_r. cbn [andb]. apply Z.eqb_neq. intros ->. apply Hpair. reflexivity.
      - rewrite zlen_cons. pose proof (zlen_nonneg s'). replace (zlen pre =? zlen pre + (1 + zlen s')) with false by lia. reflexivity. }
    rewrite E2, E1. rewrite (raw_sub_in b pre s (c :: post)) by exact E. reflexivity.
  - assert (Hl : zlen b = zlen pre + zlen cur + 1 + zlen todo + 1 + zlen post).
    { rewrite E, Es, !zlen_app, !zlen_cons. lia. }
    pose proof (zlen_nonneg post). pose proof (zlen_nonneg todo). rewrite zrange_cons by lia. cbn [sub_str_list_loop].
    assert (Hx : x <> c) by (intros ->; apply Hc; rewrite Es; apply in_or_app; right; now left).
    assert (Eb : b = (pre ++ cur) ++ x :: todo ++ c :: post) by (rewrite E, Es, <- !app_assoc; reflexivity).
    assert (E1 : eqb_list (rawdata_sub (RawData (framed b)) (zlen pre + zlen cur) (zlen pre + zlen cur + zlen [c])) [c] = false).
    { replace (zlen pre + zlen cur) with (zlen (pre ++ cur)) by apply zlen_app. change (zlen [c]) with (zlen [x]).
      rewrite (raw_sub_in b (pre ++ cur) [x] (todo ++ c :: post)) by exact Eb. cbn [eqb_list]. lia. }
    assert (E2 : eqb_list (rawdata_sub (RawData (framed b)) (zlen pre + zlen cur) (zlen pre + zlen cur + zlen [c; c])) [c; c] = false).
    { replace (zlen pre + zlen cur) with (zlen (pre ++ cur)) by apply zlen_app.
      destruct (todo ++ c :: post) as [|d r] eqn:Ed; [destruct todo; discriminate|].
      change (zlen [c; c]) with (zlen [x; d]).
      rewrite (raw_sub_in b (pre ++ cur) [x; d] r) by exact Eb. cbn [eqb_list]. replace (x =? c) with false by lia. reflexivity. }
    rewrite E1, E2, andb_false_r. rewrite <- (IH (cur ++ [x])) by (rewrite Es, <- app_assoc; reflexivity).
    f_equal. f_equal. rewrite zlen_app. change (zlen [x]) with 1. lia.
Qed.

Lemma hd_error_joined c strs rest : (forall s, In s strs -> ~ In c s) ->
  (match strs with u :: _ => u <> [] | [] => False end) -> hd_error (joined c strs ++ rest) <> Some c.
Proof.
  intros H Hu. destruct strs as [|u t]; [contradiction|]. unfold joined. cbn [map List.concat].
  destruct u as [|x u]; [congruence|]. cbn [app hd_error]. intros E. inversion E; subst.
  apply (H (c :: u)); now left.
Qed.

Lemma list_loop b c : is_bytes b -> forall strs pre post, b = pre ++ joined c strs ++ post -> (forall s, In s strs -> ~ In c s) ->
  separated strs -> (post = [] \/ exists post', post = c :: c :: post') ->
  sub_str_list_loop (RawData (framed b)) [c] [c; c] (zlen pre) (zrange (zlen pre) (zlen b)) = mapM decode strs.
Proof.
  intros Hb. induction strs as [|s t IH]; intros pre post E Hc Hsep Hpost.
  - cbn [mapM]. destruct Hpost as [->|(post' & ->)].
    + rewrite zrange_nil; [reflexivity|]. rewrite E, !zlen_app. cbn. lia.
    + assert (Hl : zlen b = zlen pre + 2 + zlen post') by (rewrite E, !zlen_app, !zlen_cons; change (zlen (joined c [])) with 0; lia).
      pose proof (zlen_nonneg post'). rewrite zrange_cons by lia. cbn [sub_str_list_loop].
      rewrite Z.eqb_refl. rewrite (raw_sub_in b pre [c; c] post') by exact E. rewrite eqb_list_refl. reflexivity.
  - destruct Hsep as [Hs Ht].
    assert (Ej : b = pre ++ s ++ c :: (joined c t ++ post)).
    { rewrite E. unfold joined. cbn [map List.concat]. rewrite <- !app_assoc. reflexivity. }
    pose proof (list_string b c s pre (joined c t ++ post) Hb Ej (Hc s (or_introl eq_refl))) as L.
    specialize (L) as L. rewrite <- (Z.add_0_r (zlen pre)) at 2. change 0 with (zlen (@nil Z)).
    rewrite (L ltac:(intros ->; rewrite <- app_assoc; apply hd_error_joined; [intros u Hu; apply Hc; now right|apply Hs; reflexivity]) s [] eq_refl).
    specialize (IH (pre ++ s ++ [c]) post). rewrite !zlen_app in IH. change (zlen [c]) with 1 in IH. rewrite Z.add_assoc in IH.
    rewrite IH; [reflexivity| | |assumption|assumption].
    + rewrite Ej, <- !app_assoc. reflexivity.
    + intros u Hu. apply Hc. now right.
Qed.

Lemma sub_str_list_spec b c strs pre post : is_bytes b -> fits64 b = true ->
  b = pre ++ joined c strs ++ post -> (forall s, In s strs -> ~ In c s) -> separated strs ->
  (post = [] \/ exists post', post = c :: c :: post') ->
  sub_str_list (RawData (framed b)) (zlen pre) [c] [c; c] = mapM decode strs.
Proof.
  intros Hb Hf E Hc Hsep Hpost. unfold sub_str_list. rewrite raw_len by assumption. cbn [bind].
  eapply list_loop; eauto.
Qed.

Lemma mapM_decode_ok strs : Forall (fun s => utf8_valid s = true) strs -> mapM decode strs = Ok strs.
Proof. induction 1 as [|s t H _ IH]; cbn [mapM]; [reflexivity|]. unfold decode at 1. rewrite H. cbn [bind]. rewrite IH. reflexivity. Qed.

(** ** instance *)
Lemma instance_open_framed p sd : instance_open (framed p) sd = Ok (Instance (framed p) sd).
Proof. unfold instance_open. now rewrite check_base_framed. Qed.
