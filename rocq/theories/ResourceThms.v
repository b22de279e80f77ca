(** Theorems about resources behind Props_Resources. *)
From Coq Require Import List ZArith Bool String Lia.
From Coq Require Import ZifyBool ZifyNat.
From Verif Require Import PyBase Spec DataAccess BitFacts DataAccessFacts DataAccessThms Structure StructSpec StructFacts
  Resources SliceSpec Builder Archive ArchiveSpec ResourceSpec BuilderFacts ResourceFacts SliceFacts MultiFacts RawFacts.
Import ListNotations.
Local Open Scope string_scope.
Local Open Scope list_scope.
Local Open Scope Z_scope.
Ltac Zify.zify_post_hook ::= Z.div_mod_to_equations.

(** *** C10 *)
Lemma set_success_files a n v s s' : (forall m sig, dict_get (a_resources a) m = Some sig -> sig_sized sig) ->
  builder_set a n v s = (s', Ok tt) ->
  exists sig p ix, dict_get (a_resources a) n = Some sig /\ ~ In n (b_written s) /\ valid_set n sig v p ix /\
    forall d0 f, dict_get (files_after d0 s') f =
      match dict_get (set_files n sig p ix) f with Some c => Some c | None => dict_get (files_after d0 s) f end.
Proof.
  intros Hsz H. destruct (builder_set_inv a n v s s' Hsz H) as (sig & p & ix & Ha & Hw & Hv).
  exists sig, p, ix. split; [assumption|]. split; [assumption|]. split; [assumption|].
  destruct (set_files_after a n sig v s p ix Ha Hw (Hsz _ _ Ha) Hv) as (s1 & E & F).
  rewrite E in H. inversion H; subst. exact F.
Qed.

Lemma framing a n v s s' : (forall m sig, dict_get (a_resources a) m = Some sig -> sig_sized sig) ->
  builder_set a n v s = (s', Ok tt) -> forall d0,
  exists payload, zlen payload < 2 ^ 64 /\
    dict_get (files_after d0 s') n = Some (to_le 8 (zlen payload) ++ payload ++ zeros 8).
Proof.
  intros Hsz H d0. destruct (set_success_files a n v s s' Hsz H) as (sig & p & ix & _ & _ & (_ & _ & Hf & _) & F).
  exists p. split; [unfold fits64 in Hf; lia|]. rewrite F, set_files_self. reflexivity.
Qed.

(** *** vectors *)
Lemma sdef_size_pos sd : sdef_ok sd -> s_fields sd <> [] -> 0 < s_size sd.
Proof.
  intros (Hs & Ha & Hok & _) Hne. destruct (s_fields sd) as [|f t] eqn:E; [congruence|].
  pose proof (ascending_in 0 (f :: t) _ f Hok Ha (or_introl eq_refl)). inversion Hok as [|? ? [Hw _] _]; subst. lia.
Qed.

Lemma mapM_nth {A B} (f : A -> res B) l r d e i : mapM f l = Ok r -> (i < List.length l)%nat -> f (nth i l d) = Ok (nth i r e).
Proof.
  revert r i. induction l as [|x t IH]; intros r i H Hi; cbn [List.length] in Hi; [lia|].
  cbn [mapM] in H. destruct (f x) as [y|] eqn:Ex; [|discriminate]. cbn [bind] in H.
  destruct (mapM f t) as [ys|] eqn:Et; [|discriminate]. cbn [bind] in H. inversion H; subst.
  destruct i as [|i]; cbn [nth]; [assumption|]. apply IH; [reflexivity|lia].
Qed.

Lemma vector_roundtrip a n sd schema opt rs valss s :
  dict_get (a_resources a) n = Some (RSig (CVector sd) schema opt) -> ~ In n (b_written s) ->
  sdef_ok sd -> s_fields sd <> [] -> Forall2 (fun r vals => record_values r sd vals) rs valss ->
  s_size sd * zlen rs < 2 ^ 64 ->
  exists s', builder_set a n (SRecords rs) s = (s', Ok tt) /\
  forall d0, exists bytes v, dict_get (files_after d0 s') n = Some bytes /\ is_bytes bytes /\ vector_open bytes sd = Ok v /\
    vector_len v = zlen rs /\ mapM as_list (vector_iter v) = Ok valss /\
    (forall i, - zlen rs <= i < zlen rs -> exists e, vector_get v i = Ok e /\
       as_list e = Ok (nth (Z.to_nat (if i <? 0 then i + zlen rs else i)) valss [])).
Proof.
  intros Ha Hw Hsd Hne Hrs Hlen. pose proof (sdef_size_pos sd Hsd Hne) as Hs0.
  destruct (valid_vector n sd schema opt rs valss Hsd Hrs Hlen) as (bs & Hv & Hb & Hl & Hn & Hr).
  destruct (set_files_after a n _ (SRecords rs) s (List.concat bs) None Ha Hw) as (s' & E & F); [cbn; lia|exact Hv|].
  exists s'. split; [exact E|]. intros d0.
  destruct Hv as (_ & _ & Hf & _).
  exists (framed (List.concat bs)), (Vector (framed (List.concat bs)) sd (zlen bs)).
  assert (Hz : zlen bs = zlen rs) by (unfold zlen; lia).
  split; [rewrite F, set_files_self; reflexivity|]. split; [apply framed_bytes; now apply is_bytes_concat|].
  split; [now apply vector_open_concat|]. split; [exact Hz|]. split; [now apply vector_iter_values|].
  intros i Hi. eexists. split.
  - rewrite vector_get_spec by (cbn; lia). unfold vector_len. cbn [vec_size vec_mem vec_def]. rewrite Hz.
    replace ((- zlen rs <=? i) && (i <? zlen rs)) with true by lia. reflexivity.
  - set (j := if i <? 0 then i + zlen rs else i). assert (Hj : 0 <= j < zlen rs) by (unfold j; destruct (i <? 0) eqn:?; lia).
    replace j with (Z.of_nat (Z.to_nat j)) at 1 by lia. eapply vector_elements; eauto. unfold zlen in *. lia.
Qed.

Lemma header_total mem : is_bytes mem -> 16 <= zlen mem -> read_value mem 0 64 false = Ok (uint_at mem 0 64).
Proof.
  intros Hb Hl. rewrite read_value_exact; [reflexivity|assumption|unfold in_bounds; lia|lia|reflexivity].
Qed.

Lemma vector_open_exact mem sd : is_bytes mem -> 0 < s_size sd ->
  vector_open mem sd =
    if zlen mem <? 16 then Err CorruptResourceError
    else if uint_at mem 0 64 mod s_size sd =? 0 then Ok (Vector mem sd (uint_at mem 0 64 / s_size sd))
    else Err AssertionError.
Proof.
  intros Hb Hs. unfold vector_open, check_base. change (SIZE_OFFSET_IN_BYTES + SIZE_PADDING_IN_BYTES) with 16.
  destruct (zlen mem <? 16) eqn:E; cbn [bind]; [reflexivity|].
  unfold SIZE_OFFSET_IN_BITS. rewrite header_total by (assumption || lia). cbn [bind].
  unfold py_divmod. replace (s_size sd =? 0) with false by lia. reflexivity.
Qed.

Lemma vector_open_len mem sd v : is_bytes mem -> 0 < s_size sd -> vector_open mem sd = Ok v ->
  0 <= vector_len v /\ vec_mem v = mem /\ vec_def v = sd.
Proof.
  intros Hb Hs H. rewrite vector_open_exact in H by assumption.
  pose proof (uint_at_bound mem 64 0) as Hu. set (u := uint_at mem 0 64) in *. clearbody u.
  destruct (zlen mem <? 16); [discriminate|]. destruct (_ =? 0); [|discriminate].
  assert (E : v = Vector mem sd (u / s_size sd)) by congruence. subst v.
  unfold vector_len. cbn [vec_size vec_mem vec_def]. split; [|auto]. apply Z.div_pos; lia.
Qed.

Lemma vector_indexing mem sd v : is_bytes mem -> 0 < s_size sd -> vector_open mem sd = Ok v ->
  forall i, 
  (- vector_len v <= i < vector_len v ->
     vector_get v i = Ok (SView sd mem (8 + s_size sd * (if i <? 0 then i + vector_len v else i)))) /\
  (~ (- vector_len v <= i < vector_len v) -> vector_get v i = Err IndexError).
Proof.
  intros Hb Hs H i. destruct (vector_open_len mem sd v Hb Hs H) as (Hl & Hm & Hd).
  rewrite vector_get_spec by assumption. rewrite Hm, Hd. split; intros Hi.
  - replace ((- vector_len v <=? i) && (i <? vector_len v)) with true by lia. reflexivity.
  - replace ((- vector_len v <=? i) && (i <? vector_len v)) with false by lia. reflexivity.
Qed.

(** *** to_numpy *)
Lemma numpy_fold (rows : list (list Z)) : forall (items : list sview) (st done : list (option (list Z))) k,
  mapM as_list items = Ok rows -> List.length done = k -> 
  foldM (fun (st : list (option (list Z))) (it : Z * sview) =>
           row <- as_list (snd it) ;;
           if zlen st <=? fst it then Err IndexError
           else Ok (list_set st (Z.to_nat (fst it)) (Some row)))
        (done ++ st) (combine (map Z.of_nat (seq k (List.length items))) items)
  = if zlen st <? zlen rows then Err IndexError else Ok (done ++ map Some rows ++ skipn (List.length rows) st).
Proof.
  induction rows as [|row rows IH]; intros items st done k Hm Hk.
  - destruct items as [|it items]; [|cbn [mapM] in Hm; destruct (as_list it); [|discriminate]; cbn [bind] in Hm;
      destruct (mapM as_list items); discriminate].
    cbn. replace (zlen st <? 0) with false by (pose proof (zlen_nonneg st); lia). reflexivity.
  - destruct items as [|it items]; [discriminate|]. cbn [mapM] in Hm.
    destruct (as_list it) as [r0|] eqn:Er; [|discriminate]. cbn [bind] in Hm.
    destruct (mapM as_list items) as [rs|] eqn:Ers; [|discriminate]. cbn [bind] in Hm. inversion Hm; subst r0 rs.
    cbn [List.length seq map combine foldM fst snd]. rewrite Er. cbn [bind]. rewrite zlen_cons.
    pose proof (zlen_nonneg rows). destruct st as [|x st].
    + rewrite app_nil_r. replace (zlen done <=? Z.of_nat k) with true by (unfold zlen; lia).
      change (zlen (@nil (option (list Z)))) with 0. replace (0 <? 1 + zlen rows) with true by lia. reflexivity.
    + replace (zlen (done ++ x :: st) <=? Z.of_nat k) with false by (rewrite zlen_app, zlen_cons; pose proof (zlen_nonneg st); unfold zlen in *; lia).
      rewrite Nat2Z.id.
      assert (E : list_set (done ++ x :: st) k (Some row) = (done ++ [Some row]) ++ st).
      { subst k. clear. induction done as [|d done IH]; cbn [app List.length list_set]; [reflexivity|]. now rewrite IH. }
      rewrite E. cbn [bind]. rewrite (IH items st (done ++ [Some row]) (S k) Ers) by (rewrite app_length; cbn; lia).
      rewrite zlen_cons. replace (1 + zlen st <? 1 + zlen rows) with (zlen st <? zlen rows) by lia.
      destruct (zlen st <? zlen rows); [reflexivity|]. rewrite <- app_assoc. reflexivity.
Qed.

Lemma mapM_len {A B} (f : A -> res B) l r : mapM f l = Ok r -> List.length r = List.length l.
Proof.
  revert r. induction l as [|x t IH]; intros r H; cbn [mapM] in H; [now inversion H|].
  destruct (f x); [|discriminate]. cbn [bind] in H. destruct (mapM f t) eqn:E; [|discriminate]. cbn [bind] in H.
  inversion H; subst. cbn. f_equal. now apply IH.
Qed.

Lemma skipn_repeat {A} (x : A) k m : skipn k (repeat x m) = repeat x (m - k).
Proof. revert m. induction k as [|k IH]; intros [|m]; cbn; auto. Qed.

Lemma slice_to_numpy_spec v s limit rows : 0 <= vector_len v -> 
  match sl_step s with Some 0 => False | _ => True end ->
  mapM as_list (list_slice (vector_iter v) s) = Ok rows ->
  slice_to_numpy v s limit =
    match limit with
    | None | Some 0 => Ok (map Some rows)
    | Some l => if l <? 0 then Err ValueError
                else if l <? zlen rows then Err IndexError
                else Ok (map Some rows ++ repeat None (Z.to_nat (l - zlen rows)))
    end.
Proof.
  intros Hl Hst Hr. pose proof (vector_slice_spec v s Hl) as Hs. unfold slice_to_numpy.
  replace (match sl_step s with Some k => k | None => 1 end =? 0) with false in Hs
    by (destruct (sl_step s) as [[]|]; [contradiction|reflexivity..]).
  rewrite Hs. unfold vector_slice in Hs.
  destruct (slice_indices s (vector_len v)) as [[[a b] c]|] eqn:Ei; [|discriminate]. cbn [bind] in *.
  pose proof (mapM_len _ _ _ Hs) as L1. pose proof (mapM_len _ _ _ Hr) as L2.
  assert (Hn : zlen (py_range a b c) = zlen rows) by (unfold zlen; lia). rewrite Hn.
  pose proof (zlen_nonneg rows) as Hr0.
  assert (NF : forall l, 0 <= l -> foldM (fun (st : list (option (list Z))) (it : Z * sview) =>
           row <- as_list (snd it) ;;
           if zlen st <=? fst it then Err IndexError
           else Ok (list_set st (Z.to_nat (fst it)) (Some row))) (repeat None (Z.to_nat l))
           (combine (map Z.of_nat (seq 0 (List.length (list_slice (vector_iter v) s)))) (list_slice (vector_iter v) s)) =
     if l <? zlen rows then Err IndexError else Ok (map Some rows ++ repeat None (Z.to_nat (l - zlen rows)))).
  { intros l Hl0. pose proof (numpy_fold rows (list_slice (vector_iter v) s) (repeat None (Z.to_nat l)) [] 0%nat Hr eq_refl) as NF.
    cbn [app] in NF. rewrite NF. rewrite zlen_repeat, skipn_repeat. rewrite Z2Nat.id by assumption.
    replace (Z.to_nat l - Datatypes.length rows)%nat with (Z.to_nat (l - zlen rows)) by (unfold zlen; lia). reflexivity. }
  assert (NA : Ok (map Some rows) = (if zlen rows <? zlen rows then Err IndexError
     else Ok (map Some rows ++ repeat None (Z.to_nat (zlen rows - zlen rows))))).
  { rewrite Z.ltb_irrefl, Z.sub_diag. cbn. now rewrite app_nil_r. }
  destruct limit as [l|].
  - destruct (l =? 0) eqn:E0.
    + replace l with 0 by lia. replace (zlen rows <? 0) with false by lia. cbn [bind]. rewrite NF by assumption. now rewrite <- NA.
    + destruct l as [|l|l]; [lia| |].
      * change (Z.pos l <? 0) with false. cbn [bind]. apply NF. lia.
      * reflexivity.
  - replace (zlen rows <? 0) with false by lia. cbn [bind]. rewrite NF by assumption. now rewrite <- NA.
Qed.

(** *** multivectors *)
Lemma multi_iter_ok m (P : list (Z * list Z) -> list (Z * sview) -> Prop) outss :
  multivector_len m = zlen outss ->
  (forall i, (i < List.length outss)%nat -> exists els, multivector_get m (Z.of_nat i) = Ok els /\ P (nth i outss []) els) ->
  exists elss, multivector_iter m = Ok elss /\ Forall2 P outss elss /\
    forall i, 0 <= i < zlen outss -> multivector_get m i = Ok (nth (Z.to_nat i) elss []).
Proof.
  intros Hl H. unfold multivector_iter. rewrite Hl.
  replace (Z.to_nat (zlen outss)) with (List.length outss) by (unfold zlen; lia).
  assert (G : exists elss, Forall2 P outss elss /\ (forall i, (i < List.length outss)%nat -> multivector_get m (Z.of_nat i) = Ok (nth i elss []))).
  { clear Hl. assert (Gk : forall os k, (forall i, (i < List.length os)%nat -> exists els, multivector_get m (Z.of_nat (k + i)) = Ok els /\ P (nth i os []) els) ->
      exists elss, Forall2 P os elss /\ (forall i, (i < List.length os)%nat -> multivector_get m (Z.of_nat (k + i)) = Ok (nth i elss []))).
    { clear. induction os as [|o os IH]; intros k Hk.
      - exists []. split; [constructor|]. cbn. intros; lia.
      - destruct (Hk 0%nat) as (e & He & Hp); [cbn; lia|]. cbn [nth] in Hp.
        destruct (IH (S k)) as (es & Hes & Hg).
        { intros i Hi. destruct (Hk (S i)) as (e' & He' & Hp'); [cbn; lia|]. exists e'. replace (S k + i)%nat with (k + S i)%nat by lia. auto. }
        exists (e :: es). split; [constructor; assumption|]. intros [|i] Hi; cbn [nth]; [assumption|].
        replace (k + S i)%nat with (S k + i)%nat by lia. apply Hg. cbn in Hi. lia. }
    destruct (Gk outss 0%nat) as (elss & F & G); [exact H|]. exists elss. auto. }
  destruct G as (elss & F & G). exists elss. split; [|split; [exact F|]].
  - pose proof (Forall2_len _ _ _ F) as L. rewrite <- (map_nth_seq elss []). rewrite L in *.
    clear - G. assert (Hin : forall k, In k (seq 0 (List.length elss)) -> (k < List.length elss)%nat) by (intros k Hk; apply in_seq in Hk; lia).
    revert Hin. generalize (seq 0 (List.length elss)) as ks. induction ks as [|k t IH]; intros Hin; cbn [map mapM]; [reflexivity|].
    rewrite G by (apply Hin; now left). cbn [bind]. rewrite IH by (intros k' Hk'; apply Hin; now right). reflexivity.
  - intros i Hi. replace i with (Z.of_nat (Z.to_nat i)) at 1 by lia. apply G. unfold zlen in Hi. lia.
Qed.

Lemma set_files_index n sig p ix : dict_get (set_files n sig p (Some ix)) (index_name n) = Some (framed ix).
Proof. unfold set_files. cbn [dict_get]. rewrite schema_index_neq, index_neq, String.eqb_refl. reflexivity. Qed.

Lemma multi_roundtrip a n it w ts schema opt bs outss s :
  dict_get (a_resources a) n = Some (RSig (CMultivector it ts) schema opt) -> ~ In n (b_written s) ->
  index_def_ok it w -> types_ok ts -> Forall2 (Forall2 (element_is ts)) bs outss ->
  buckets_size ts outss < 2 ^ w -> s_size it * (zlen bs + 1) < 2 ^ 64 ->
  exists s', builder_set a n (SBuckets bs) s = (s', Ok tt) /\
  forall d0, exists data index m, dict_get (files_after d0 s') n = Some data /\
    dict_get (files_after d0 s') (index_name n) = Some index /\
    multivector_open index data it ts = Ok m /\ multivector_len m = zlen bs /\
    exists elss, Forall2 (Forall2 (reads_as ts)) outss elss /\ multivector_iter m = Ok elss /\
      (forall i, 0 <= i < zlen bs -> multivector_get m i = Ok (nth (Z.to_nat i) elss [])) /\
      (forall sl, multivector_slice m sl = if match sl_step sl with None => 1 | Some k => k end =? 0
                                           then Err ValueError else Ok (list_slice elss sl)).
Proof.
  intros Ha Hw Hit Hts Hbs Hsz Hix.
  destruct (multi_ok n it w ts schema opt bs outss Hit Hts Hbs Hsz Hix) as (p & ix & m & Hv & _ & _ & _ & Ho & Hl & _ & Hg).
  destruct (index_size it w Hit) as [Hs0 _].
  destruct (set_files_after a n _ (SBuckets bs) s p (Some ix) Ha Hw) as (s' & E & F); [|exact Hv|].
  { cbn. split; [lia|]. destruct Hts as (_ & _ & Hok). eapply Forall_impl; [|exact Hok]. intros sd. apply sdef_ok_size. }
  exists s'. split; [exact E|]. intros d0. exists (framed p), (framed ix), m.
  split; [rewrite F, set_files_self; reflexivity|]. split; [rewrite F, set_files_index; reflexivity|].
  split; [exact Ho|]. split; [exact Hl|].
  pose proof (Forall2_len _ _ _ Hbs) as HL. assert (Hz : zlen outss = zlen bs) by (unfold zlen; lia).
  destruct (multi_iter_ok m (Forall2 (reads_as ts)) outss) as (elss & Hi & HF & Hget); [lia|rewrite <- HL; exact Hg|].
  exists elss. split; [exact HF|]. split; [exact Hi|]. rewrite Hz in Hget. split; [exact Hget|].
  intros sl. unfold multivector_slice. rewrite Hl.
  pose proof (Forall2_len _ _ _ HF) as HL2. assert (Hz2 : zlen elss = zlen bs) by (unfold zlen; lia). rewrite <- Hz2.
  apply (slice_generic [] elss (multivector_get m) sl). rewrite Hz2. exact Hget.
Qed.

(** *** C16: what a successful set says about the index *)
Lemma to_bytes_inv v size b : py_to_bytes v size false = Ok b -> 0 <= v < 2 ^ (8 * size).
Proof.
  unfold py_to_bytes. destruct (size <? 0); [discriminate|].
  destruct ((0 <=? v) && (v <? 2 ^ (8 * size))) eqn:E; [|discriminate]. intros _. lia.
Qed.

Lemma mapM_in {A B} (f : A -> res B) l r x : mapM f l = Ok r -> In x l -> exists y, f x = Ok y.
Proof.
  revert r. induction l as [|z t IH]; intros r H Hx; [destruct Hx|]. cbn [mapM] in H.
  destruct (f z) as [y|] eqn:E; [|discriminate]. cbn [bind] in H. destruct (mapM f t) as [ys|]; [|discriminate].
  destruct Hx as [->|Hx]; [eauto|]. eapply IH; eauto.
Qed.

Lemma index_overflow_rejected a n it ts schema opt bs outss s s' :
  (forall m sig, dict_get (a_resources a) m = Some sig -> sig_sized sig) ->
  dict_get (a_resources a) n = Some (RSig (CMultivector it ts) schema opt) ->
  types_ok ts -> Forall2 (Forall2 (element_is ts)) bs outss ->
  builder_set a n (SBuckets bs) s = (s', Ok tt) -> buckets_size ts outss < 2 ^ (8 * s_size it).
Proof.
  intros Hsz Ha Hts Hbs H. destruct (builder_set_inv a n _ s s' Hsz H) as (sig & p & ix & Ha' & _ & (_ & Hp & _)).
  rewrite Ha in Ha'. inversion Ha'; subst sig. unfold payload_of in Hp. cbn [r_container] in Hp.
  destruct (buckets_ok n ts bs outss Hts Hbs) as (_ & bufs & Hm & _ & _ & Hz & _). rewrite Hm in Hp. cbn [bind] in Hp.
  destruct (s_size it =? 0); [discriminate|].
  destruct (mapM _ (bucket_points 0 (map zlen bufs))) as [idx|] eqn:E; [|discriminate].
  pose proof (bucket_points_length 0 (map zlen bufs)) as L. rewrite map_length in L.
  pose proof (bucket_points_nth bufs 0 (List.length bufs) (le_n _)) as N. rewrite firstn_all, Hz in N.
  destruct (mapM_in _ _ _ (nth (List.length bufs) (bucket_points 0 (map zlen bufs)) 0) E) as (y & Hy).
  { apply nth_In. lia. }
  apply to_bytes_inv in Hy. lia.
Qed.

(** *** C17 *)
Lemma bucket_offset_neg m i : - vector_len (mv_index m) <= i < 0 -> 0 <= vector_len (mv_index m) ->
  bucket_offset m i = bucket_offset m (i + vector_len (mv_index m)).
Proof.
  intros Hi Hl. unfold bucket_offset. rewrite !vector_get_spec by assumption.
  set (L := vector_len (mv_index m)) in *.
  replace ((- L <=? i) && (i <? L)) with true by lia. replace (i <? 0) with true by lia.
  replace ((- L <=? i + L) && (i + L <? L)) with true by lia. replace (i + L <? 0) with false by lia. reflexivity.
Qed.

Lemma multi_negative m i : 1 <= vector_len (mv_index m) -> - (multivector_len m + 1) <= i <= -2 ->
  multivector_get m i = multivector_get m (i + (multivector_len m + 1)).
Proof.
  intros Hl Hi. assert (HL : multivector_len m + 1 = vector_len (mv_index m)) by (unfold multivector_len; lia). rewrite HL in *.
  unfold multivector_get. rewrite (bucket_offset_neg m i) by lia. rewrite (bucket_offset_neg m (i + 1)) by lia.
  replace (i + 1 + vector_len (mv_index m)) with (i + vector_len (mv_index m) + 1) by lia. reflexivity.
Qed.

Lemma multi_out_of_range m i : 0 <= vector_len (mv_index m) -> i < - vector_len (mv_index m) \/ vector_len (mv_index m) <= i ->
  multivector_get m i = Err IndexError.
Proof.
  intros Hl Hi. unfold multivector_get, bucket_offset. rewrite (vector_get_spec _ i) by assumption.
  replace ((- vector_len (mv_index m) <=? i) && (i <? vector_len (mv_index m))) with false by lia. reflexivity.
Qed.

Lemma multi_at_len m o : 1 <= vector_len (mv_index m) -> bucket_offset m (multivector_len m) = Ok o ->
  multivector_get m (multivector_len m) = Err IndexError.
Proof.
  intros Hl Ho. unfold multivector_get. rewrite Ho. cbn [bind]. unfold bucket_offset. rewrite vector_get_spec by lia.
  unfold multivector_len. replace (Z.max 0 (vector_len (mv_index m) - 1) + 1 <? vector_len (mv_index m)) with false by lia.
  rewrite andb_false_r. reflexivity.
Qed.

(** *** instances and raw data through the builder *)
Lemma instance_roundtrip a n sd schema opt rec vals s :
  dict_get (a_resources a) n = Some (RSig (CInstance sd) schema opt) -> ~ In n (b_written s) ->
  sdef_ok sd -> record_values rec sd vals -> s_size sd < 2 ^ 64 ->
  exists s', builder_set a n (SRecord rec) s = (s', Ok tt) /\
  forall d0, exists bytes x, dict_get (files_after d0 s') n = Some bytes /\ instance_open bytes sd = Ok x /\
    (forall i, i = 0 \/ i = -1 -> exists e, instance_get x i = Ok e /\ as_list e = Ok vals) /\
    (forall name v, In (name, v) (combine (map f_name (s_fields sd)) vals) -> instance_getattr x name = Ok v) /\
    (forall i, i <> 0 -> i <> -1 -> instance_get x i = Err IndexError).
Proof.
  intros Ha Hw Hsd Hrec Hlt.
  destruct (pack_record_ok sd rec vals Hsd Hrec) as (b & He & Hz & Hby & _ & Hread).
  pose proof (sdef_ok_size sd Hsd) as Hs0.
  assert (Hv : valid_set n (RSig (CInstance sd) schema opt) (SRecord rec) b None).
  { unfold valid_set, validate_value, payload_of. cbn [r_container]. rewrite He. cbn [bind].
    split; [eapply validate_ok; eauto|]. split; [reflexivity|]. split; [unfold fits64; lia|reflexivity]. }
  destruct (set_files_after a n _ (SRecord rec) s b None Ha Hw) as (s' & E & F); [exact Hs0|exact Hv|].
  exists s'. split; [exact E|]. intros d0. exists (framed b), (Instance (framed b) sd).
  split; [rewrite F, set_files_self; reflexivity|]. split; [apply instance_open_framed|].
  assert (Hr : Forall2 (fun f v => get_value (SView sd (framed b) 8) f = Ok v) (s_fields sd) vals).
  { specialize (Hread (to_le 8 (zlen b)) (zeros 8) (to_le_bytes _ _) (is_bytes_zeros 8)). rewrite zlen_to_le in Hread. exact Hread. }
  assert (Hpos : item_offset sd 0 = 8) by (unfold item_offset; change SIZE_OFFSET_IN_BYTES with 8; lia).
  split; [|split].
  - intros i Hi. exists (SView sd (framed b) 8). split.
    + unfold instance_get. cbn [in_mem in_def]. unfold get_item. rewrite <- Hpos.
      destruct Hi as [->| ->]; reflexivity.
    + apply as_list_ok. exact Hr.
  - intros name v Hin. unfold instance_getattr. cbn [in_mem in_def]. rewrite Hpos.
    eapply getattr_ok; [|exact Hr|exact Hin]. cbn [v_def]. now destruct Hsd as (_ & _ & _ & _ & Hnd & _).
  - intros i H0 H1. unfold instance_get. destruct (i <? 0) eqn:E0.
    + replace (i + 1 <? 0) with true by lia. now rewrite orb_true_r.
    + replace (1 <=? i) with true by lia. reflexivity.
Qed.

Lemma raw_roundtrip a n schema opt b s :
  dict_get (a_resources a) n = Some (RSig CRawData schema opt) -> ~ In n (b_written s) ->
  is_bytes b -> zlen b < 2 ^ 64 ->
  exists s', builder_set a n (SBytes b) s = (s', Ok tt) /\
  forall d0, dict_get (files_after d0 s') n = Some (framed b) /\ rawdata_open (framed b) = Ok (RawData (framed b)).
Proof.
  intros Ha Hw Hb Hl.
  assert (Hf : fits64 b = true) by (unfold fits64; lia).
  destruct (set_files_after a n _ (SBytes b) s b None Ha Hw) as (s' & E & F); [exact I| |].
  { unfold valid_set, validate_value, payload_of. cbn [r_container]. auto. }
  exists s'. split; [exact E|]. intros d0. split; [rewrite F, set_files_self; reflexivity|apply raw_open].
Qed.
