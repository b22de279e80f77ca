(** Proofs about opening archives. *)
From Coq Require Import List ZArith Bool String Lia Permutation.
From Coq Require Import ZifyBool ZifyNat.
From Verif Require Import PyBase Spec DataAccess BitFacts DataAccessFacts DataAccessThms Structure StructSpec StructFacts
  Resources Builder Archive ArchiveSpec OpenSpec BuilderFacts ResourceSpec ResourceFacts MultiFacts RawFacts ResourceThms.
Import ListNotations.
Local Open Scope string_scope.
Local Open Scope list_scope.
Local Open Scope Z_scope.

(** ** open_archive as a map *)
Lemma open_archive_eq a st :
  open_archive a st = sequence_sorted (map (fun ns => (fst ns, open_resource (fst ns) (snd ns) st)) (a_resources a)).
Proof.
  destruct a as [nm sch rs]. cbn [open_archive a_resources]. f_equal.
  induction rs as [|[n sig] t IH]; [reflexivity|]. cbn [map fst snd]. now rewrite IH.
Qed.

Lemma insert_by_perm {A} (x : string * A) l : Permutation (insert_by x l) (x :: l).
Proof.
  induction l as [|y t IH]; cbn [insert_by]; [reflexivity|]. destruct (String.leb _ _); [reflexivity|].
  rewrite IH. apply perm_swap.
Qed.
Lemma sort_by_perm {A} (l : list (string * A)) : Permutation (sort_by l) l.
Proof.
  induction l as [|x t IH]; cbn [sort_by]; [reflexivity|]. rewrite insert_by_perm. now constructor.
Qed.

Lemma mapM_ok_iff {A B} (f : A -> res B) l r : mapM f l = Ok r <-> Forall2 (fun x y => f x = Ok y) l r.
Proof.
  split.
  - revert r. induction l as [|x t IH]; intros r H; cbn [mapM] in H.
    + inversion H; constructor.
    + destruct (f x) eqn:E; [|discriminate]. cbn [bind] in H. destruct (mapM f t) eqn:Et; [|discriminate].
      cbn [bind] in H. inversion H; subst. constructor; auto.
  - induction 1 as [|x y l r H _ IH]; cbn [mapM]; [reflexivity|]. now rewrite H, IH.
Qed.
Lemma mapM_all {A B} (f : A -> res B) l : (forall x, In x l -> exists y, f x = Ok y) -> exists r, mapM f l = Ok r.
Proof.
  induction l as [|x t IH]; intros H; cbn [mapM]; [eauto|].
  destruct (H x (or_introl eq_refl)) as (y & ->). destruct IH as (r & ->); [intros; apply H; now right|]. cbn. eauto.
Qed.
Lemma mapM_err {A B} (f : A -> res B) l e : mapM f l = Err e -> exists x, In x l /\ f x = Err e.
Proof.
  induction l as [|x t IH]; intros H; cbn [mapM] in H; [discriminate|].
  destruct (f x) eqn:E.
  - cbn [bind] in H. destruct (mapM f t); [discriminate|]. cbn [bind] in H. inversion H; subst.
    destruct IH as (z & Hz & Ez); [reflexivity|]. exists z. split; [now right|assumption].
  - cbn [bind] in H. inversion H; subst. exists x. split; [now left|assumption].
Qed.
Lemma Forall2_in_l {A B} (R : A -> B -> Prop) l r x : Forall2 R l r -> In x l -> exists y, In y r /\ R x y.
Proof.
  induction 1 as [|a b l r H _ IH]; intros Hx; [destruct Hx|]. destruct Hx as [->|Hx].
  - exists b. split; [now left|assumption].
  - destruct (IH Hx) as (y & Hy & Ry). exists y. split; [now right|assumption].
Qed.
Lemma Forall2_in_r {A B} (R : A -> B -> Prop) l r y : Forall2 R l r -> In y r -> exists x, In x l /\ R x y.
Proof.
  induction 1 as [|a b l r H _ IH]; intros Hx; [destruct Hx|]. destruct Hx as [->|Hx].
  - exists a. split; [now left|assumption].
  - destruct (IH Hx) as (x & Hy & Ry). exists x. split; [now right|assumption].
Qed.

Lemma open_archive_in a st rs : open_archive a st = Ok rs ->
  (forall n sig, In (n, sig) (a_resources a) -> exists o, open_resource n sig st = Ok o /\ In (n, o) rs) /\
  (forall n o, In (n, o) rs -> exists sig, In (n, sig) (a_resources a) /\ open_resource n sig st = Ok o) /\
  Permutation (map fst rs) (map fst (a_resources a)).
Proof.
  rewrite open_archive_eq. unfold sequence_sorted. intros H. apply mapM_ok_iff in H.
  set (l := map (fun ns => (fst ns, open_resource (fst ns) (snd ns) st)) (a_resources a)) in *.
  pose proof (sort_by_perm l) as P. split; [|split].
  - intros n sig Hin. assert (Hl : In (n, open_resource n sig st) (sort_by l)).
    { apply (Permutation_in _ (Permutation_sym P)). unfold l. apply (in_map (fun ns => (fst ns, open_resource (fst ns) (snd ns) st)) _ _ Hin). }
    destruct (Forall2_in_l _ _ _ _ H Hl) as (y & Hy & E). cbn [fst snd] in E.
    destruct (open_resource n sig st) as [o|e]; [|discriminate]. cbn [bind] in E. inversion E; subst. eauto.
  - intros n o Hin. destruct (Forall2_in_r _ _ _ _ H Hin) as ([n' r] & Hx & E). cbn [fst snd] in E.
    destruct r as [o'|]; [|discriminate]. cbn [bind] in E. inversion E; subst.
    apply (Permutation_in _ P) in Hx. unfold l in Hx. apply in_map_iff in Hx. destruct Hx as ([m sig] & Em & Hm).
    cbn [fst snd] in Em. inversion Em; subst. eauto.
  - assert (E : map fst rs = map fst (sort_by l)).
    { clear P. induction H as [|[x r] y l' r' Hxy _ IH]; [reflexivity|]. cbn [map fst]. rewrite IH. f_equal.
      cbn [fst snd] in Hxy. destruct r; [|discriminate]. cbn [bind] in Hxy. now inversion Hxy. }
    rewrite E, (Permutation_map fst P). unfold l. rewrite map_map. cbn [fst]. reflexivity.
Qed.

Lemma open_archive_all a st :
  (forall n sig, In (n, sig) (a_resources a) -> exists o, open_resource n sig st = Ok o) ->
  exists rs, open_archive a st = Ok rs.
Proof.
  intros H. rewrite open_archive_eq. unfold sequence_sorted. apply mapM_all. intros [n r] Hin.
  apply (Permutation_in _ (sort_by_perm _)) in Hin. apply in_map_iff in Hin. destruct Hin as ([m sig] & E & Hm).
  cbn [fst snd] in E. inversion E; subst. destruct (H _ _ Hm) as (o & Ho). cbn [snd fst]. rewrite Ho. cbn. eauto.
Qed.

Lemma open_archive_err a st e : open_archive a st = Err e ->
  exists n sig, In (n, sig) (a_resources a) /\ open_resource n sig st = Err e.
Proof.
  rewrite open_archive_eq. intros H. apply mapM_err in H. destruct H as ([n r] & Hin & E).
  apply (Permutation_in _ (sort_by_perm _)) in Hin. apply in_map_iff in Hin. destruct Hin as ([m sig] & E' & Hm).
  cbn [fst snd] in *. inversion E'; subst. exists n, sig. split; [assumption|].
  destruct (open_resource n sig st); [discriminate|]. cbn [bind] in E. congruence.
Qed.

Lemma dict_get_in {A} (l : list (string * A)) k x : dict_get l k = Some x -> In (k, x) l.
Proof.
  induction l as [|[j y] t IH]; cbn [dict_get]; [discriminate|].
  destruct (String.eqb j k) eqn:E; intros H.
  - apply String.eqb_eq in E. inversion H; subst. now left.
  - right. auto.
Qed.
Lemma dict_get_nodup {A} (l : list (string * A)) k x : NoDup (map fst l) -> In (k, x) l -> dict_get l k = Some x.
Proof.
  induction l as [|[j y] t IH]; cbn [dict_get map fst]; [intros _ []|]. intros Hn Hin. inversion Hn as [|? ? Hj Ht]; subst.
  destruct (String.eqb j k) eqn:E.
  - apply String.eqb_eq in E. subst j. destruct Hin as [Hin|Hin]; [congruence|].
    exfalso. apply Hj. now apply (in_map fst) in Hin.
  - destruct Hin as [Hin|Hin]; [inversion Hin; subst; now rewrite String.eqb_refl in E|auto].
Qed.
Lemma dict_get_none {A} (l : list (string * A)) k : dict_get l k = None <-> ~ In k (map fst l).
Proof.
  split.
  - intros H Hin. apply in_map_iff in Hin. destruct Hin as ([j x] & E & Hin). cbn in E. subst j.
    induction l as [|[j y] t IH]; cbn [dict_get] in H; [destruct Hin|]. destruct (String.eqb j k) eqn:E; [discriminate|].
    destruct Hin as [Hin|Hin]; [inversion Hin; subst; now rewrite String.eqb_refl in E|auto].
  - intros H. destruct (dict_get l k) eqn:E; [|reflexivity]. apply dict_get_in in E. apply (in_map fst) in E. contradiction.
Qed.

Lemma open_archive_get a st rs n sig : NoDup (map fst (a_resources a)) -> open_archive a st = Ok rs ->
  In (n, sig) (a_resources a) -> exists o, dict_get rs n = Some o /\ open_resource n sig st = Ok o.
Proof.
  intros Hn H Hin. destruct (open_archive_in a st rs H) as (H1 & _ & P). destruct (H1 _ _ Hin) as (o & Ho & Hr).
  exists o. split; [|assumption]. apply dict_get_nodup; [|assumption]. apply (Permutation_NoDup (Permutation_sym P) Hn).
Qed.

(** ** lookups *)
Lemma lookup_opt st k : st_lookup st k true = match st_lookup st k false with
  | Err (MissingResourceError _) => Ok GotNone | r => r end.
Proof.
  destruct st as [es|f d s]; cbn [st_lookup].
  - unfold dir_get. destruct (dict_get es k) as [[[|b t]|x]|]; reflexivity.
  - unfold tar_get. destruct (dict_get f _); [reflexivity|]. destruct (existsb _ _); reflexivity.
Qed.
Lemma lookup_false_none st k : st_lookup st k false <> Ok GotNone.
Proof.
  destruct st as [es|f d s]; cbn [st_lookup].
  - unfold dir_get. destruct (dict_get es k) as [[[|b t]|x]|]; discriminate.
  - unfold tar_get. destruct (dict_get f _); [discriminate|]. destruct (existsb _ _); discriminate.
Qed.
Lemma lookup_missing st k n : st_lookup st k false = Err (MissingResourceError n) -> n = k.
Proof.
  destruct st as [es|f d s]; cbn [st_lookup].
  - unfold dir_get. destruct (dict_get es k) as [[[|b t]|x]|]; try discriminate. congruence.
  - unfold tar_get. destruct (dict_get f _); [discriminate|]. destruct (existsb _ _); [discriminate|congruence].
Qed.
Lemma absent_opt st k : absent st k -> st_lookup st k true = Ok GotNone.
Proof. unfold absent. intros H. now rewrite lookup_opt, H. Qed.
Lemma present_any st k g opt : st_lookup st k false = Ok g -> st_lookup st k opt = Ok g.
Proof. intros H. destruct opt; [|assumption]. rewrite lookup_opt, H. reflexivity. Qed.
Lemma file_any st k m opt : file_is st k m -> st_lookup st k opt = Ok (GotMem m).
Proof. apply present_any. Qed.
Lemma any_present st k opt g : st_lookup st k opt = Ok g -> g <> GotNone -> st_lookup st k false = Ok g.
Proof.
  destruct opt; [|auto]. rewrite lookup_opt. destruct (st_lookup st k false) as [g'|[]]; try discriminate; congruence.
Qed.

(** ** schema check *)
Lemma decode_same m s : decode m = Ok s -> s = m.
Proof. unfold decode. destruct (utf8_valid m); congruence. Qed.

Lemma check_schema_ok n sch m : check_schema n sch m = Ok tt -> m = sch.
Proof.
  unfold check_schema. destruct (decode m) as [s|] eqn:E; [|discriminate]. cbn [bind].
  destruct (eqb_list s sch) eqn:Eq; [|discriminate]. intros _. apply decode_same in E. subst s. now apply eqb_list_eq.
Qed.

Lemma open_leaf n c sch opt st : is_archive c = false -> open_resource n (RSig c sch opt) st =
  (ok <- schema_validated st n (RSig c sch opt) ;;
   if ok : bool then o <- open_container st n c opt ;; keep_truthy o else Ok None).
Proof. destruct c; try discriminate; reflexivity. Qed.

Lemma leaf_schema n c sch opt st o m : is_archive c = false -> open_resource n (RSig c sch opt) st = Ok o ->
  file_is st (schema_file n) m -> m <> [] -> m = sch.
Proof.
  intros Hc H Hm Hne. rewrite open_leaf in H by assumption. unfold schema_validated in H.
  cbn [r_optional r_schema] in H. rewrite (file_any _ _ _ opt Hm : st_lookup st (n ++ ".schema") opt = _) in H. cbn [bind] in H.
  destruct m as [|b t]; [congruence|]. destruct (check_schema n sch (b :: t)) as [[]|] eqn:E; [|discriminate].
  now apply check_schema_ok in E.
Qed.

Lemma leaf_mismatch n c sch opt st m : is_archive c = false ->
  file_is st (schema_file n) m -> m <> [] -> m <> sch ->
  open_resource n (RSig c sch opt) st = Err (if utf8_valid m then SchemaMismatchError n else UnicodeDecodeError).
Proof.
  intros Hc Hm Hne Hd. rewrite open_leaf by assumption. unfold schema_validated.
  cbn [r_optional r_schema]. rewrite (file_any _ _ _ opt Hm : st_lookup st (n ++ ".schema") opt = _). cbn [bind].
  destruct m as [|b t]; [congruence|]. unfold check_schema, decode. destruct (utf8_valid (b :: t)); [|reflexivity].
  cbn [bind]. destruct (eqb_list (b :: t) sch) eqn:E; [apply eqb_list_eq in E; congruence|reflexivity].
Qed.

(** ** everything reached opens *)
Lemma archive_nested n a' sch opt st o : open_resource n (RSig (CArchive a') sch opt) st = Ok o ->
  forall st', st_lookup st n opt = Ok (GotStorage st') -> exists rs, open_archive a' st' = Ok rs.
Proof.
  cbn [open_resource open_any]. intros H st' Hl. rewrite Hl in H. cbn [bind] in H.
  destruct (open_archive a' st') as [rs|]; [eauto|discriminate].
Qed.

Lemma reached_opens a st rs : open_archive a st = Ok rs -> forall a' st', reaches a st a' st' -> exists rs', open_archive a' st' = Ok rs'.
Proof.
  intros H a' st' R. induction R as [|a1 st1 n a2 sch opt st2 R IH Hin Hl]; [eauto|].
  destruct IH as (rs1 & H1). destruct (open_archive_in _ _ _ H1) as (F & _). destruct (F _ _ Hin) as (o & Ho & _).
  eapply archive_nested; eauto.
Qed.

Lemma reached_resource a st rs a' st' n sig : open_archive a st = Ok rs -> reaches a st a' st' ->
  In (n, sig) (a_resources a') -> exists o, open_resource n sig st' = Ok o.
Proof.
  intros H R Hin. destruct (reached_opens _ _ _ H _ _ R) as (rs' & H'). destruct (open_archive_in _ _ _ H') as (F & _).
  destruct (F _ _ Hin) as (o & Ho & _). eauto.
Qed.

(** ** missing resources *)
Lemma leaf_required n c sch st o : is_archive c = false -> open_resource n (RSig c sch false) st = Ok o ->
  Forall (present st) (read_files n c).
Proof.
  intros Hc H. rewrite open_leaf in H by assumption. unfold schema_validated in H. cbn [r_optional r_schema] in H.
  destruct (st_lookup st (n ++ ".schema") false) as [g|] eqn:E; [|discriminate]. cbn [bind] in H.
  assert (P : present st (schema_file n)) by (exists g; exact E).
  destruct g as [|[|b t]|]; try discriminate. destruct (check_schema n sch (b :: t)); [|discriminate]. cbn [bind] in H.
  constructor; [exact P|]. unfold data_files.
  destruct c as [sd|sd|it ts| |x]; cbn [open_container] in H; try discriminate;
    try (destruct (st_lookup st n false) as [g|] eqn:En; [|discriminate]; constructor; [exists g; exact En|constructor]).
  destruct (st_lookup st (n ++ "_index") false) as [gi|] eqn:Ei; [|discriminate]. cbn [bind] in H.
  destruct (st_lookup st n false) as [gd|] eqn:Ed; [|discriminate].
  constructor; [exists gi; exact Ei|]. constructor; [exists gd; exact Ed|constructor].
Qed.

Lemma leaf_missing_schema n c sch st : is_archive c = false -> absent st (schema_file n) ->
  open_resource n (RSig c sch false) st = Err (MissingResourceError (schema_file n)).
Proof.
  intros Hc H. rewrite open_leaf by assumption. unfold schema_validated. cbn [r_optional].
  unfold absent in H. unfold schema_file in H. rewrite H. reflexivity.
Qed.

Lemma leaf_schema_good n c sch opt st : is_archive c = false -> file_is st (schema_file n) sch -> sch <> [] ->
  utf8_valid sch = true -> open_resource n (RSig c sch opt) st = (o <- open_container st n c opt ;; keep_truthy o).
Proof.
  intros Hc Hf Hne Hu. rewrite open_leaf by assumption. unfold schema_validated. cbn [r_optional r_schema].
  rewrite (file_any _ _ _ opt Hf : st_lookup st (n ++ ".schema") opt = _). cbn [bind].
  destruct sch as [|b t]; [congruence|]. unfold check_schema, decode. rewrite Hu. cbn [bind].
  replace (eqb_list (b :: t) (b :: t)) with true by (symmetry; now apply eqb_list_eq). reflexivity.
Qed.

Lemma leaf_missing_data n c sch st : is_archive c = false -> file_is st (schema_file n) sch -> sch <> [] -> utf8_valid sch = true ->
  absent st n -> (forall it ts, c = CMultivector it ts -> present st (index_name n)) ->
  open_resource n (RSig c sch false) st = Err (MissingResourceError n).
Proof.
  intros Hc Hf Hne Hu Ha Hi. rewrite leaf_schema_good by assumption. unfold absent in Ha.
  destruct c as [sd|sd|it ts| |x]; cbn [open_container]; try discriminate; try (rewrite Ha; reflexivity).
  destruct (Hi _ _ eq_refl) as (g & Hg). unfold index_name in Hg. rewrite Hg. cbn [bind]. rewrite Ha. reflexivity.
Qed.
Lemma leaf_missing_index n it ts sch st : file_is st (schema_file n) sch -> sch <> [] -> utf8_valid sch = true ->
  absent st (index_name n) ->
  open_resource n (RSig (CMultivector it ts) sch false) st = Err (MissingResourceError (index_name n)).
Proof.
  intros Hf Hne Hu Ha. rewrite leaf_schema_good by (assumption || reflexivity). cbn [open_container].
  unfold absent, index_name in *. rewrite Ha. reflexivity.
Qed.
Lemma archive_missing n a' sch st : absent st n -> open_resource n (RSig (CArchive a') sch false) st = Err (MissingResourceError n).
Proof. unfold absent. intros H. cbn [open_resource open_any]. rewrite H. reflexivity. Qed.

Lemma optional_absent n c sch st : absent st (if is_archive c then n else schema_file n) ->
  open_resource n (RSig c sch true) st = Ok None.
Proof.
  intros H. destruct c as [sd|sd|it ts| |x]; cbn [is_archive] in H; apply absent_opt in H;
    cbn [open_resource open_any]; unfold schema_validated; cbn [r_optional]; unfold schema_file in H; rewrite H; reflexivity.
Qed.

(** An optional resource whose schema is there but whose data is not *)
Lemma optional_no_data n c sch st : is_archive c = false -> file_is st (schema_file n) sch -> sch <> [] -> utf8_valid sch = true ->
  absent st n -> (forall it ts, c = CMultivector it ts -> absent st (index_name n)) ->
  open_resource n (RSig c sch true) st = Err TypeError.
Proof.
  intros Hc Hf Hne Hu Ha Hi. rewrite leaf_schema_good by assumption. apply absent_opt in Ha.
  destruct c as [sd|sd|it ts| |x]; cbn [open_container]; try discriminate; try (rewrite Ha; reflexivity).
  specialize (Hi _ _ eq_refl). apply absent_opt in Hi. unfold index_name in Hi. rewrite Hi. cbn [bind]. rewrite Ha. reflexivity.
Qed.

(** ** agreement *)
Scheme agree_ind2 := Minimality for agree Sort Prop
  with agree_on_ind2 := Minimality for agree_on Sort Prop.

Lemma open_container_agree n c opt s1 s2 : is_archive c = false ->
  (forall k, In k (data_files n c) -> same_leaf (st_lookup s1 k opt) (st_lookup s2 k opt)) ->
  open_container s1 n c opt = open_container s2 n c opt.
Proof.
  intros Hc H.
  assert (One : forall k, In k (data_files n c) ->
     (g <- st_lookup s1 k opt ;; need_mem g) = (g <- st_lookup s2 k opt ;; need_mem g)).
  { intros k Hk. specialize (H k Hk). unfold same_leaf in H.
    destruct (st_lookup s1 k opt) as [[|m|x]|e]; try (rewrite <- H; reflexivity).
    destruct (st_lookup s2 k opt) as [[|m|y]|e]; try discriminate; reflexivity. }
  assert (K : forall X (k : list Z -> res X) r1 r2, (g <- r1 ;; need_mem g) = (g <- r2 ;; need_mem g) ->
            (g <- r1 ;; m <- need_mem g ;; k m) = (g <- r2 ;; m <- need_mem g ;; k m)).
  { intros X k r1 r2 E. destruct r1 as [g1|e1], r2 as [g2|e2]; cbn [bind] in *; try congruence.
    all: first [rewrite E|rewrite <- E]; reflexivity. }
  destruct c as [sd|sd|it ts| |x]; cbn [open_container]; try discriminate;
    try (apply K; apply One; now left).
  pose proof (H (index_name n) (or_introl eq_refl)) as Hi. pose proof (H n (or_intror (or_introl eq_refl))) as Hd.
  unfold index_name, same_leaf in Hi, Hd.
  destruct (st_lookup s1 (n ++ "_index") opt) as [[|mi|x]|e]; try (rewrite <- Hi; reflexivity);
    try (rewrite <- Hi; cbn [bind need_mem];
         destruct (st_lookup s1 n opt) as [[|md|y]|e']; try (rewrite <- Hd; reflexivity);
         destruct (st_lookup s2 n opt) as [[|md|y2]|e']; try discriminate; reflexivity).
  destruct (st_lookup s2 (n ++ "_index") opt) as [[|mi|y]|e]; try discriminate. cbn [bind need_mem].
  destruct (st_lookup s1 n opt) as [[|md|y1]|e']; try (rewrite <- Hd; reflexivity);
         destruct (st_lookup s2 n opt) as [[|md|y2]|e']; try discriminate; reflexivity.
Qed.

Lemma leaf_agree n sig s1 s2 : is_archive (r_container sig) = false ->
  (forall k, In k (read_files n (r_container sig)) ->
     same_leaf (st_lookup s1 k (r_optional sig)) (st_lookup s2 k (r_optional sig))) ->
  open_resource n sig s1 = open_resource n sig s2.
Proof.
  destruct sig as [c sch opt]. intros Hc H. cbn [r_container r_optional] in *.
  rewrite !open_leaf by assumption. unfold schema_validated. cbn [r_optional r_schema].
  pose proof (H (schema_file n) (or_introl eq_refl)) as Hs. unfold schema_file, same_leaf in Hs.
  rewrite (open_container_agree n c opt s1 s2 Hc) by (intros k Hk; apply H; now right).
  destruct (st_lookup s1 (n ++ ".schema") opt) as [[|m|x]|e]; try (rewrite <- Hs; reflexivity).
  destruct (st_lookup s2 (n ++ ".schema") opt) as [[|m|y]|e]; try discriminate; reflexivity.
Qed.

Lemma agree_open a s1 s2 : agree a s1 s2 -> open_archive a s1 = open_archive a s2.
Proof.
  apply (agree_ind2 (fun a s1 s2 => open_archive a s1 = open_archive a s2)
                    (fun n sig s1 s2 => open_resource n sig s1 = open_resource n sig s2)).
  - clear. intros a s1 s2 _ H. rewrite !open_archive_eq. f_equal. apply map_ext_in. intros [n sig] Hin. cbn [fst snd].
    f_equal. now apply H.
  - clear. intros n sig s1 s2 Hc H. now apply leaf_agree.
  - clear. intros n [c sch opt] s1 s2 a' Hc H. cbn [r_container r_optional] in *. subst c.
    cbn [open_resource open_any]. rewrite <- H.
    reflexivity.
  - clear. intros n [c sch opt] s1 s2 a' t1 t2 Hc H1 H2 _ IH. cbn [r_container r_optional] in *. subst c.
    cbn [open_resource open_any]. rewrite H1, H2. cbn [bind]. rewrite IH. reflexivity.
Qed.

(** ** directories as storages *)
Lemma storage_lookup d k opt : st_lookup (storage_of_fs d) k opt =
  match dict_get d k with
  | None => if opt then Ok GotNone else Err (MissingResourceError k)
  | Some [] => Err ValueError
  | Some m => Ok (GotMem m)
  end.
Proof.
  unfold storage_of_fs. cbn [st_lookup]. unfold dir_get.
  assert (E : forall d, dict_get (map (fun kx => (fst kx, NFile (snd kx))) d) k = option_map NFile (dict_get d k)).
  { induction d0 as [|[j y] t IH]; cbn [map dict_get fst snd]; [reflexivity|]. destruct (String.eqb j k); [reflexivity|exact IH]. }
  rewrite E. destruct (dict_get d k) as [[|b t]|]; reflexivity.
Qed.

Lemma open_local n sig d1 d2 : is_archive (r_container sig) = false ->
  (forall f, In f (files_of n sig) -> dict_get d1 f = dict_get d2 f) ->
  open_resource n sig (storage_of_fs d1) = open_resource n sig (storage_of_fs d2).
Proof.
  intros Hc H. apply leaf_agree; [assumption|]. intros k Hk.
  assert (E : dict_get d1 k = dict_get d2 k).
  { apply H. unfold files_of. unfold read_files, data_files in Hk.
    destruct (r_container sig); cbn in Hk |- *; tauto. }
  rewrite !storage_lookup, E. unfold same_leaf. destruct (dict_get d2 k) as [[|b t]|]; destruct (r_optional sig); reflexivity.
Qed.

Lemma dict_get_app {A} (l1 l2 : list (string * A)) k :
  dict_get (l1 ++ l2) k = match dict_get l1 k with Some x => Some x | None => dict_get l2 k end.
Proof. induction l1 as [|[j y] t IH]; cbn [app dict_get]; [reflexivity|]. destruct (String.eqb j k); auto. Qed.
