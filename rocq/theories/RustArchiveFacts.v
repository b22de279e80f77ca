(** Opening archives in Rust. *)
From Coq Require Import List ZArith Bool Lia String.
From Coq Require Import ZifyBool ZifyNat.
From Verif Require Import PyBase Spec DataAccess Structure StructSpec BitFacts DataAccessFacts DataAccessThms StructFacts
  SliceFacts Resources Builder Archive ArchiveSpec ResourceFacts BuilderFacts ArchiveFacts Codecs CodecSpec CodecFacts CodecThms
  Streams StoreSpec StoreFacts CppStore CppFacts CppViews CppMulti RustStore RustSpec RustFacts RustVectors RustMulti Props_Rust
  CppArchive CppArchiveFacts RustArchive RustArchiveSpec GenTreeFacts.
Import ListNotations.
Local Open Scope string_scope.
Local Open Scope Z_scope.

Definition all_current (st : store) : Prop := forall n, current st n.
Definition fsane (F : string -> option (list Z)) : Prop := forall n f, F n = Some f -> is_bytes f /\ zlen f < 2 ^ 64.

(** ** Slices of a resource *)
Lemma read_parts checks F name schema d : fsane F -> reads_as checks F name schema (ROk d) ->
  exists f data pad, rstored F name schema f data /\ d = Desc (skipn 8 f) (zlen data) /\ skipn 8 f = (data ++ pad)%list.
Proof.
  intros Hf H. inversion H as [f data A B C D| | | | | |]; subst. destruct (Hf _ _ A) as [_ L].
  assert (Ld : zlen data < 2 ^ 64).
  { destruct B as (pad & Lp & E). rewrite E, !zlen_app, zlen_to_le in L. unfold zlen in *. lia. }
  destruct (holds_header f data B Ld) as (_ & _ & pad & _ & E). exists f, data, pad. split; [split; [assumption|split; assumption]|]. split; [reflexivity|exact E].
Qed.
Lemma stored_reads checks F name schema f data : rstored F name schema f data -> reads_as checks F name schema (ROk (Desc (skipn 8 f) (zlen data))).
Proof. intros (A & B & C). now apply ReadsOk. Qed.

Lemma consists_slice t d rs rest : (0 < e_size t)%nat -> consists t d rs rest -> rfrom_bytes t d = ROk (records_view t rs rest).
Proof.
  intros Ht (-> & Hr & Ho). rewrite rfrom_bytes_records by assumption. destruct rs; [|reflexivity]. destruct (e_overlap t); [|reflexivity].
  exfalso. now apply Ho.
Qed.
Lemma slice_cases t (data pad : list Z) : (0 < e_size t)%nat ->
  (exists rs rest, consists t (Desc (data ++ pad) (zlen data)) rs rest /\ rfrom_bytes t (Desc (data ++ pad) (zlen data)) = ROk (records_view t rs rest)) \/
  ((forall rs rest, ~ consists t (Desc (data ++ pad) (zlen data)) rs rest) /\ rfrom_bytes t (Desc (data ++ pad) (zlen data)) = RErr ESize).
Proof.
  intros Ht. destruct (C79_open t data pad Ht) as [H1 H2].
  destruct (rfrom_bytes t (Desc (data ++ pad) (zlen data))) as [v|e|] eqn:E.
  - left. unfold rfrom_bytes in E. cbn [d_mem d_size] in E. destruct (zlen data mod Z.of_nat (e_size t) =? 0) eqn:Em; cbn [negb] in E; [|discriminate].
    destruct (chunks (e_size t) (Z.to_nat (zlen data / Z.of_nat (e_size t))) data) as (rs & Ers & L & Fr).
    { unfold zlen in *. assert (Hm : Z.of_nat (List.length data) mod Z.of_nat (e_size t) = 0) by lia.
      pose proof (Z_div_mod_eq_full (Z.of_nat (List.length data)) (Z.of_nat (e_size t))) as D. pose proof (Z.div_pos (Z.of_nat (List.length data)) (Z.of_nat (e_size t))). nia. }
    assert (Hn : e_overlap t = true -> rs <> []).
    { intros Eo ->. cbn in Ers. subst data. rewrite Eo in E. change (zlen (@nil Z)) with 0 in E. replace (0 <? Z.of_nat (e_size t)) with true in E by lia. discriminate. }
    exists rs, pad. split; [split; [now rewrite <- Ers|split; assumption]|]. destruct (H1 rs Ers Fr Hn) as [E' _]. congruence.
  - right. assert (Hno : ~ exists rs, data = List.concat rs /\ Forall (fun x => List.length x = e_size t) rs /\ (e_overlap t = true -> rs <> [])).
    { intros (rs & A & B & C). destruct (H1 rs A B C) as [E' _]. congruence. }
    split; [|specialize (H2 Hno); congruence]. intros rs rest (Ed & Fr & Hn). assert (Em : (data ++ pad)%list = (List.concat rs ++ rest)%list) by congruence.
    assert (El : zlen data = zlen (List.concat rs)) by congruence. apply Hno. exists rs. split; [|split; assumption].
    apply (f_equal (firstn (List.length data))) in Em. rewrite firstn_app, Nat.sub_diag, firstn_O, app_nil_r, firstn_all in Em.
    assert (En : List.length data = List.length (List.concat rs)) by (unfold zlen in El; lia). rewrite En in Em.
    now rewrite firstn_app, Nat.sub_diag, firstn_O, app_nil_r, firstn_all in Em.
  - unfold rfrom_bytes in E. destruct (negb _); [discriminate|]. destruct (e_overlap t); [|discriminate]. destruct (_ <? _); discriminate.
Qed.

Lemma index_size w : 1 <= w <= 64 -> (0 < e_size (index_type w))%nat.
Proof. intros H. cbn [e_size index_type]. pose proof (Z.div_le_lower_bound (w + 7) 8 1 ltac:(lia) ltac:(lia)). lia. Qed.

(** ** One resource *)
Lemma rvalue_facts checks p k st name schema : p_null_empty p = false -> sound st -> all_current st -> fsane (file_of st) ->
  utf8_valid schema = true -> rsane_kind k ->
  let st' := fst (rread_value checks p k st name schema) in
  value_as checks (file_of st) name schema k (snd (rread_value checks p k st name schema)) /\
  sound st' /\ all_current st' /\ same_files (file_of st') (file_of st).
Proof.
  intros Hp Hs Hc Hf Hu Hk.
  assert (One : forall st, sound st -> all_current st -> fsane (file_of st) -> forall name schema, utf8_valid schema = true ->
            let r := rust_read_resource checks p st name schema in
            reads_as checks (file_of st) name schema (snd r) /\ sound (fst r) /\ all_current (fst r) /\ same_files (file_of (fst r)) (file_of st)).
  { clear - Hp. intros st Hs Hc Hf name schema Hu. destruct (rread_facts checks p st name schema Hp Hs (Hc _) (Hc _) Hu (Hf name)) as (R & T & G & C).
    split; [exact R|]. split; [exact (proj1 T)|]. split; [intros n; apply C, Hc|exact G]. }
  destruct k as [size|t|w ts|]; unfold rread_value.
  - destruct (One st Hs Hc Hf name schema Hu) as (R & S1 & C1 & F1). destruct (rust_read_resource checks p st name schema) as [st1 r]. cbn [fst snd] in *.
    split; [|auto]. destruct r as [d|e|]; cbn [rand_then]; [|apply ValueError; [discriminate|exact R]|apply ValuePanic; [discriminate|exact R]].
    unfold rinstance. destruct (d_size d <? Z.of_nat size) eqn:E; [eapply ValueShort; [exact R|lia]|eapply ValueInst; [exact R|lia]].
  - destruct (One st Hs Hc Hf name schema Hu) as (R & S1 & C1 & F1). destruct (rust_read_resource checks p st name schema) as [st1 r]. cbn [fst snd] in *.
    split; [|auto]. destruct r as [d|e|]; cbn [rand_then]; [|apply ValueError; [discriminate|exact R]|apply ValuePanic; [discriminate|exact R]].
    destruct (read_parts _ _ _ _ _ Hf R) as (f & data & pad & _ & Ed & Es). rewrite Es in Ed. subst d.
    destruct (slice_cases t data pad Hk) as [(rs & rest & Hr & ->)|[Hr ->]]; cbn [rmap]; [eapply ValueVec; eassumption|eapply ValueOdd; eassumption].
  - fold (index_name name). fold (index_schema schema).
    destruct (One st Hs Hc Hf (index_name name) (index_schema schema) (index_schema_utf8 _ Hu)) as (Ri & S1 & C1 & F1).
    destruct (rust_read_resource checks p st (index_name name) (index_schema schema)) as [st1 i]. cbn [fst snd] in *.
    assert (Hf1 : fsane (file_of st1)) by (intros n f; rewrite F1; apply Hf).
    assert (Ext : forall n s r, reads_as checks (file_of st1) n s r -> reads_as checks (file_of st) n s r).
    { intros n s r H. destruct H; [eapply ReadsOk|eapply ReadsMissing|eapply ReadsNoSchema|eapply ReadsSize|eapply ReadsOverflow|eapply ReadsNoText|eapply ReadsOther];
        rewrite <- ?F1; eassumption. }
    assert (Np : i <> RPanic -> ~ reads_as checks (file_of st) (index_name name) (index_schema schema) RPanic).
    { intros N H. apply N. eapply C78_unique; [|intros f; apply Hf|exact Ri|exact H]. now apply index_schema_utf8. }
    assert (Miss : forall n s, reads_as checks (file_of st) n s (RErr EMissing) -> file_of st n = None) by (intros n s H; inversion H; assumption).
    destruct (One st1 S1 C1 Hf1 name schema Hu) as (Rd & S2 & C2 & F2). apply Ext in Rd.
    destruct (rust_read_resource checks p st1 name schema) as [st2 d]. cbn [fst snd] in *.
    assert (F20 : same_files (file_of st2) (file_of st)) by (intros n; now rewrite F2, F1).
    destruct i as [i|ei|]; [| |cbn [fst snd]; split; [apply ValueMultiPanic; now left|auto]]; cbn [fst snd]; (split; [|auto]); cbn [rmulti_result].
    + destruct d as [d|ed|]; [| |apply ValueMultiPanic; now right].
      * destruct (read_parts _ _ _ _ _ Hf Ri) as (f & data & pad & _ & Ed & Es). rewrite Es in Ed. subst i.
        destruct (slice_cases (index_type w) data pad (index_size w Hk)) as [(rs & rest & Hr & ->)|[Hr ->]]; cbn [rmap];
          [eapply ValueMulti; eassumption|eapply ValueMultiOdd; eassumption].
      * destruct ed; try (apply ValueMultiData; [apply Np; discriminate|exact Rd|discriminate]).
        eapply ValueMultiNoData; [exact Ri|eapply Miss; exact Rd].
    + destruct d as [d|ed|]; [| |destruct ei; apply ValueMultiPanic; now right].
      * destruct ei; try (apply ValueMultiIndex; [exact Ri|discriminate|right; now exists d]). eapply ValueMultiNoIndex; [eapply Miss; exact Ri|exact Rd].
      * destruct ei, ed; cbn; try (apply ValueMultiData; [apply Np; discriminate|exact Rd|discriminate]);
          try (apply ValueMultiIndex; [exact Ri|discriminate|left; eapply Miss; exact Rd]).
        apply ValueMultiMissing; eapply Miss; eassumption.
  - destruct (One st Hs Hc Hf name schema Hu) as (R & S1 & C1 & F1). destruct (rust_read_resource checks p st name schema) as [st1 r]. cbn [fst snd] in *.
    split; [|auto]. destruct r as [d|e|]; cbn [rmap]; [now apply ValueRaw|apply ValueError; [discriminate|exact R]|apply ValuePanic; [discriminate|exact R]].
Qed.

Lemma rcheck_facts {A} o (size : A -> Z) max x : checked_as o size max x (rcheck o size max x).
Proof.
  destruct x as [x|e|]; unfold rcheck.
  - destruct max as [m|]; [|apply CheckedOk; discriminate]. destruct (m <? size x) eqn:E; [eapply CheckedBig; [reflexivity|lia]|].
    apply CheckedOk. intros m' Em. injection Em as <-. lia.
  - destruct e; try (apply CheckedError; discriminate). destruct o; [now apply CheckedNone|now apply CheckedMissing].
  - apply CheckedPanic.
Qed.

(** ** Archives *)
Definition sub_of (P : rarch -> Prop) (m : rmember) : Prop := match m with RRes _ => True | RSub _ _ a => P a end.
Fixpoint rarch_ind' (P : rarch -> Prop) (H : forall name schema ms, Forall (sub_of P) ms -> P (RArch name schema ms)) (a : rarch) : P a :=
  match a with
  | RArch name schema ms =>
      H name schema ms ((fix go (l : list rmember) : Forall (sub_of P) l :=
                           match l with
                           | [] => Forall_nil _
                           | m :: t => Forall_cons m (match m return sub_of P m with RRes _ => I | RSub _ _ a => rarch_ind' P H a end) (go t)
                           end) ms)
  end.

(** the inner loop of [ropen] *)
Definition load_member (checks : bool) (p : policy) (path : string) (m : rmember) (st : store) : store * rresult (option rcontent) :=
  match m with
  | RRes r => let (st, v) := rread_value checks p (c_kind r) st (path ++ c_name r) (c_schema r) in
              (st, rmap (option_map RCValue) (rcheck (c_optional r) rvalue_size (c_max r) v))
  | RSub n optional sub => let (st, v) := ropen checks p sub st (path ++ n ++ "/") in
                           (st, rmap (option_map RCArchive) (rcheck optional (fun _ => 0) None v))
  end.
Fixpoint load_all (checks : bool) (p : policy) (path : string) (ms : list rmember) (st : store) : store * rresult (list (string * option rcontent)) :=
  match ms with
  | [] => (st, ROk [])
  | m :: ms =>
      let (st, v) := load_member checks p path m st in
      match v with
      | ROk v => let (st, r) := load_all checks p path ms st in (st, rmap (cons (member_name m, v)) r)
      | RErr e => (st, RErr e)
      | RPanic => (st, RPanic)
      end
  end.
Lemma ropen_eq checks p name schema ms st path :
  ropen checks p (RArch name schema ms) st path =
  let (st, sig) := rust_read_resource checks p st (path ++ signature_name name) schema in
  match sig with
  | RErr e => (st, RErr e)
  | RPanic => (st, RPanic)
  | ROk _ => let (st, r) := load_all checks p path ms st in (st, rmap ROpened r)
  end.
Proof.
  cbn [ropen]. destruct (rust_read_resource checks p st (path ++ signature_name name) schema) as [st1 [d|e|]]; [|reflexivity|reflexivity].
  match goal with |- (let (st, r) := ?X ms st1 in _) = _ => assert (E : forall ms st, X ms st = load_all checks p path ms st) end.
  { clear. induction ms as [|m ms IH]; intros st; cbn [load_all]; [reflexivity|]. unfold load_member.
    destruct (match m with RRes _ => _ | RSub _ _ _ => _ end) as [st1 [v|e|]]; [|reflexivity|reflexivity]. now rewrite IH. }
  now rewrite E.
Qed.

Scheme opens_ind := Minimality for opens_as Sort Prop
  with members_ind := Minimality for members_as Sort Prop
  with member_ind := Minimality for member_as Sort Prop.
Combined Scheme opening_ind from opens_ind, members_ind, member_ind.

Lemma reads_ext checks F G name schema r : same_files F G -> reads_as checks F name schema r -> reads_as checks G name schema r.
Proof.
  intros E H. destruct H; [eapply ReadsOk|eapply ReadsMissing|eapply ReadsNoSchema|eapply ReadsSize|eapply ReadsOverflow|eapply ReadsNoText|eapply ReadsOther];
    rewrite <- ?E; eassumption.
Qed.
Lemma value_ext checks F G name schema k r : same_files F G -> value_as checks F name schema k r -> value_as checks G name schema k r.
Proof.
  intros E H. assert (E' : same_files G F) by (intros n; symmetry; apply E).
  assert (X : forall n s r, reads_as checks F n s r -> reads_as checks G n s r) by (intros; now apply (reads_ext checks F G)).
  assert (Y : forall n s r, reads_as checks G n s r -> reads_as checks F n s r) by (intros; now apply (reads_ext checks G F)).
  destruct H; eauto using @value_as.
  - apply ValueMultiMissing; rewrite <- E; assumption.
  - eapply ValueMultiNoData; [eauto|rewrite <- E; assumption].
  - eapply ValueMultiNoIndex; [rewrite <- E; assumption|eauto].
  - eapply ValueMultiData; [|eauto|assumption]. intros H2. apply H. auto.
  - eapply ValueMultiIndex; [eauto|assumption|]. destruct H1 as [H1|[d H1]]; [left; rewrite <- E; assumption|right; eauto].
  - apply ValueMultiPanic. destruct H; [left|right]; auto.
Qed.
Lemma opens_as_ext checks F G : same_files F G ->
  (forall path a r, opens_as checks F path a r -> opens_as checks G path a r) /\
  (forall path ms r, members_as checks F path ms r -> members_as checks G path ms r) /\
  (forall path m r, member_as checks F path m r -> member_as checks G path m r).
Proof.
  intros E. apply opening_ind; intros; try (econstructor; (eassumption || (eapply reads_ext; eassumption) || (eapply value_ext; eassumption))).
Qed.

Theorem ropen_as checks p : p_null_empty p = false -> forall a st path, sound st -> all_current st -> fsane (file_of st) -> rsane a ->
  let st' := fst (ropen checks p a st path) in
  opens_as checks (file_of st) path a (snd (ropen checks p a st path)) /\
  sound st' /\ all_current st' /\ same_files (file_of st') (file_of st).
Proof.
  intros Hp. induction a as [name schema ms IH] using rarch_ind'. intros st path Hs Hc Hf Ha. rewrite ropen_eq.
  inversion Ha as [? ? ? Hu Hr Hsub]; subst. unfold signature_name.
  destruct (rread_facts checks p st (path ++ name ++ ".archive") schema Hp Hs (Hc _) (Hc _) Hu (Hf _)) as (R & T & G & C).
  destruct (rust_read_resource checks p st (path ++ name ++ ".archive") schema) as [st1 sig]. cbn [fst snd] in *.
  assert (C1 : all_current st1) by (intros n; apply C, Hc). pose proof (proj1 T) as S1.
  destruct sig as [d|e|]; cbn [fst snd]; [|split; [now apply OpensError|auto]|split; [now apply OpensPanic|auto]].
  assert (L : forall ms st1, Forall (sub_of (fun a => forall st path, sound st -> all_current st -> fsane (file_of st) -> rsane a ->
                 let st' := fst (ropen checks p a st path) in
                 opens_as checks (file_of st) path a (snd (ropen checks p a st path)) /\
                 sound st' /\ all_current st' /\ same_files (file_of st') (file_of st))) ms ->
              (forall r, In (RRes r) ms -> utf8_valid (c_schema r) = true /\ rsane_kind (c_kind r)) ->
              (forall n o a, In (RSub n o a) ms -> rsane a) ->
              sound st1 -> all_current st1 -> same_files (file_of st1) (file_of st) ->
              let st' := fst (load_all checks p path ms st1) in
              members_as checks (file_of st) path ms (snd (load_all checks p path ms st1)) /\
              sound st' /\ all_current st' /\ same_files (file_of st') (file_of st)).
  { clear - Hp Hf. induction ms as [|m ms IHm]; intros st1 IH Hr Hsub S1 C1 G; cbn [load_all].
    - cbn [fst snd]. split; [apply MembersNil|auto].
    - inversion IH as [|? ? Hm Hms]; subst.
      assert (Hf1 : fsane (file_of st1)) by (intros n f; rewrite G; apply Hf).
      assert (One : let r := load_member checks p path m st1 in
                member_as checks (file_of st) path m (snd r) /\ sound (fst r) /\ all_current (fst r) /\ same_files (file_of (fst r)) (file_of st)).
      { unfold load_member. destruct m as [r|n o a].
        - destruct (Hr r (or_introl eq_refl)) as [Hu Hk].
          destruct (rvalue_facts checks p (c_kind r) st1 (path ++ c_name r) (c_schema r) Hp S1 C1 Hf1 Hu Hk) as (V & S2 & C2 & G2).
          destruct (rread_value checks p (c_kind r) st1 (path ++ c_name r) (c_schema r)) as [st2 v]. cbn [fst snd] in *.
          split; [|split; [assumption|split; [assumption|intros x; now rewrite G2, G]]]. eapply MemberRes; [eapply value_ext; [exact G|exact V]|apply rcheck_facts].
        - cbn [sub_of] in Hm. destruct (Hm st1 (path ++ n ++ "/") S1 C1 Hf1 (Hsub n o a (or_introl eq_refl))) as (V & S2 & C2 & G2).
          destruct (ropen checks p a st1 (path ++ n ++ "/")) as [st2 v]. cbn [fst snd] in *.
          split; [|split; [assumption|split; [assumption|intros x; now rewrite G2, G]]].
          eapply MemberSub; [eapply (proj1 (opens_as_ext checks _ _ G)); exact V|apply rcheck_facts]. }
      destruct One as (V & S2 & C2 & G2). destruct (load_member checks p path m st1) as [st2 v]. cbn [fst snd] in *.
      destruct v as [v|e|]; cbn [fst snd]; [|split; [now apply MembersError|auto]|split; [now apply MembersPanic|auto]].
      destruct (IHm st2 Hms (fun r H => Hr r (or_intror H)) (fun n o a H => Hsub n o a (or_intror H)) S2 C2 G2) as (W & S3 & C3 & G3).
      destruct (load_all checks p path ms st2) as [st3 r]. cbn [fst snd] in *. split; [|auto].
      destruct r as [l|e|]; cbn [rmap]; [eapply MembersCons; eassumption|eapply MembersLater; eassumption|eapply MembersLaterPanic; eassumption]. }
  destruct (L ms st1 IH Hr Hsub S1 C1 G) as (V & S2 & C2 & G2). destruct (load_all checks p path ms st1) as [st2 r]. cbn [fst snd] in *. split; [|auto].
  destruct r as [l|e|]; cbn [rmap]; [eapply OpensOk; eassumption|eapply OpensMember; eassumption|eapply OpensMemberPanic; eassumption].
Qed.

(** ** There is only one result *)
Lemma consists_unique t d rs rest rs' rest' : (0 < e_size t)%nat -> consists t d rs rest -> consists t d rs' rest' -> records_view t rs rest = records_view t rs' rest'.
Proof. intros Ht A B. apply consists_slice in A; [|assumption]. apply consists_slice in B; [|assumption]. congruence. Qed.
Lemma value_unique checks F name schema k r1 r2 : fsane F -> utf8_valid schema = true -> rsane_kind k ->
  value_as checks F name schema k r1 -> value_as checks F name schema k r2 -> r1 = r2.
Proof.
  intros Hf Hu Hk H1 H2.
  assert (U1 : forall a b, reads_as checks F name schema a -> reads_as checks F name schema b -> a = b).
  { intros a b. apply C78_unique; [assumption|intros f; apply Hf]. }
  assert (U2 : forall a b, reads_as checks F (index_name name) (index_schema schema) a -> reads_as checks F (index_name name) (index_schema schema) b -> a = b).
  { intros a b. apply C78_unique; [now apply index_schema_utf8|intros f; apply Hf]. }
  assert (M1 : F name = None -> reads_as checks F name schema (RErr EMissing)) by (intros; now apply ReadsMissing).
  assert (M2 : F (index_name name) = None -> reads_as checks F (index_name name) (index_schema schema) (RErr EMissing)) by (intros; now apply ReadsMissing).
  destruct k as [size|t|w ts|]; inversion H1; inversion H2; subst;
    try (exfalso; match goal with H : forall w ts, KMulti _ _ <> KMulti w ts |- _ => eapply H; reflexivity end);
    repeat match goal with
    | H : F name = None |- _ => specialize (M1 H); clear H
    | H : F (index_name name) = None |- _ => specialize (M2 H); clear H
    | H : F name = None \/ _ |- _ => destruct H as [H|[? H]]
    | H : reads_as _ _ _ _ RPanic \/ reads_as _ _ _ _ RPanic |- _ => destruct H
    end;
    repeat match goal with
    | A : reads_as ?c ?F ?n ?s ?a, B : reads_as ?c ?F ?n ?s ?b |- _ =>
        let E := fresh "E" in assert (E : a = b) by (first [apply U1; assumption|apply U2; assumption]); clear B; subst; (discriminate E || (try (injection E; clear E; intros; subst)))
    end;
    try reflexivity; try congruence; try lia; try contradiction;
    try (exfalso; match goal with H : forall rs rest, ~ _ |- _ => eapply H; eassumption end).
  - match goal with A : consists t ?d ?rs ?rest, B : consists t ?d ?rs' ?rest' |- _ => now rewrite (consists_unique t d rs rest rs' rest' Hk A B) end.
  - match goal with A : consists _ ?d ?rs ?rest, B : consists _ ?d ?rs' ?rest' |- _ => now rewrite (consists_unique _ d rs rest rs' rest' (index_size w Hk) A B) end.
Qed.
Lemma checked_unique {A} o (size : A -> Z) max x y1 y2 : checked_as o size max x y1 -> checked_as o size max x y2 -> y1 = y2.
Proof.
  intros H1 H2. inversion H1; subst; inversion H2; subst; try reflexivity; try congruence;
    match goal with H : forall m, Some _ = Some m -> _ |- _ => specialize (H _ eq_refl); lia end.
Qed.
Lemma opens_unique checks F : fsane F ->
  (forall path a r1, opens_as checks F path a r1 -> rsane a -> forall r2, opens_as checks F path a r2 -> r1 = r2) /\
  (forall path ms r1, members_as checks F path ms r1 ->
     (forall r, In (RRes r) ms -> utf8_valid (c_schema r) = true /\ rsane_kind (c_kind r)) -> (forall n o a, In (RSub n o a) ms -> rsane a) ->
     forall r2, members_as checks F path ms r2 -> r1 = r2) /\
  (forall path m r1, member_as checks F path m r1 ->
     (forall r, m = RRes r -> utf8_valid (c_schema r) = true /\ rsane_kind (c_kind r)) -> (forall n o a, m = RSub n o a -> rsane a) ->
     forall r2, member_as checks F path m r2 -> r1 = r2).
Proof.
  intros Hf. assert (U : forall n s a b, utf8_valid s = true -> reads_as checks F n s a -> reads_as checks F n s b -> a = b).
  { intros n s a b Hs. apply C78_unique; [assumption|intros f; apply Hf]. }
  apply opening_ind.
  - intros path name schema ms e R Ha r2 H. inversion Ha as [? ? ? Hu Hr Hsub]; subst. inversion H; subst;
      match goal with B : reads_as _ _ _ _ _ |- _ => pose proof (U _ _ _ _ Hu R B); congruence end.
  - intros path name schema ms R Ha r2 H. inversion Ha as [? ? ? Hu Hr Hsub]; subst. inversion H; subst;
      match goal with B : reads_as _ _ _ _ _ |- _ => pose proof (U _ _ _ _ Hu R B); congruence end.
  - intros path name schema ms d l R M IH Ha r2 H. inversion Ha as [? ? ? Hu Hr Hsub]; subst. inversion H; subst;
      match goal with B : reads_as _ _ _ _ _ |- _ => pose proof (U _ _ _ _ Hu R B); try congruence end;
      match goal with B : members_as _ _ _ _ ?x |- _ => pose proof (IH Hr Hsub _ B); congruence end.
  - intros path name schema ms d e R M IH Ha r2 H. inversion Ha as [? ? ? Hu Hr Hsub]; subst. inversion H; subst;
      match goal with B : reads_as _ _ _ _ _ |- _ => pose proof (U _ _ _ _ Hu R B); try congruence end;
      match goal with B : members_as _ _ _ _ ?x |- _ => pose proof (IH Hr Hsub _ B); congruence end.
  - intros path name schema ms d R M IH Ha r2 H. inversion Ha as [? ? ? Hu Hr Hsub]; subst. inversion H; subst;
      match goal with B : reads_as _ _ _ _ _ |- _ => pose proof (U _ _ _ _ Hu R B); try congruence end;
      match goal with B : members_as _ _ _ _ ?x |- _ => pose proof (IH Hr Hsub _ B); congruence end.
  - intros path _ _ r2 H. inversion H. reflexivity.
  - intros path m ms e M IH Hr Hs r2 H.
    specialize (IH (fun r E => Hr r (or_introl E)) (fun n o a E => Hs n o a (or_introl E))). inversion H; subst;
      match goal with B : member_as _ _ _ _ ?x |- _ => pose proof (IH _ B); congruence end.
  - intros path m ms M IH Hr Hs r2 H.
    specialize (IH (fun r E => Hr r (or_introl E)) (fun n o a E => Hs n o a (or_introl E))). inversion H; subst;
      match goal with B : member_as _ _ _ _ ?x |- _ => pose proof (IH _ B); congruence end.
  - intros path m ms v l M IH L IHl Hr Hs r2 H.
    specialize (IH (fun r E => Hr r (or_introl E)) (fun n o a E => Hs n o a (or_introl E))).
    specialize (IHl (fun r E => Hr r (or_intror E)) (fun n o a E => Hs n o a (or_intror E))). inversion H; subst;
      match goal with B : member_as _ _ _ _ ?x |- _ => pose proof (IH _ B) end; try congruence;
      match goal with B : members_as _ _ _ _ ?x |- _ => pose proof (IHl _ B); congruence end.
  - intros path m ms v l M IH L IHl Hr Hs r2 H.
    specialize (IH (fun r E => Hr r (or_introl E)) (fun n o a E => Hs n o a (or_introl E))).
    specialize (IHl (fun r E => Hr r (or_intror E)) (fun n o a E => Hs n o a (or_intror E))). inversion H; subst;
      match goal with B : member_as _ _ _ _ ?x |- _ => pose proof (IH _ B) end; try congruence;
      match goal with B : members_as _ _ _ _ ?x |- _ => pose proof (IHl _ B); congruence end.
  - intros path m ms v M IH L IHl Hr Hs r2 H.
    specialize (IH (fun r E => Hr r (or_introl E)) (fun n o a E => Hs n o a (or_introl E))).
    specialize (IHl (fun r E => Hr r (or_intror E)) (fun n o a E => Hs n o a (or_intror E))). inversion H; subst;
      match goal with B : member_as _ _ _ _ ?x |- _ => pose proof (IH _ B) end; try congruence;
      match goal with B : members_as _ _ _ _ ?x |- _ => pose proof (IHl _ B); congruence end.
  - intros path r x y V C Hr _ r2 H. inversion H; subst. destruct (Hr r eq_refl) as [Hu Hk].
    match goal with B : value_as _ _ _ _ _ ?x' |- _ => pose proof (value_unique _ _ _ _ _ _ _ Hf Hu Hk V B); subst end.
    match goal with B : checked_as _ _ _ _ ?y' |- _ => now rewrite (checked_unique _ _ _ _ _ _ C B) end.
  - intros path n o a x y V IH C _ Hs r2 H. inversion H; subst. specialize (IH (Hs n o a eq_refl)).
    match goal with B : opens_as _ _ _ _ ?x' |- _ => pose proof (IH _ B); subst end.
    match goal with B : checked_as _ _ _ _ ?y' |- _ => now rewrite (checked_unique _ _ _ _ _ _ C B) end.
Qed.

(** ** Success *)
Lemma value_ok checks F name schema k v : fsane F -> rsane_kind k -> (value_as checks F name schema k (ROk v) <-> rshows F name schema k v).
Proof.
  intros Hf Hk. split.
  - intros H. destruct k as [size|t|w ts|]; inversion H; subst; cbn [rshows];
      repeat match goal with R : reads_as _ _ _ _ (ROk _) |- _ => let f := fresh "f" in let data := fresh "data" in let St := fresh "St" in
               destruct (read_parts _ _ _ _ _ Hf R) as (f & data & ? & St & -> & _); clear R; exists f, data end;
      cbn [d_size d_mem] in *; eauto 8.
  - destruct k as [size|t|w ts|]; cbn [rshows].
    + intros (f & data & St & L & ->). change (skipn 8 f) with (d_mem (Desc (skipn 8 f) (zlen data))) at 1. eapply ValueInst; [apply stored_reads; exact St|exact L].
    + intros (f & data & rs & rest & St & C & ->). eapply ValueVec; [apply stored_reads; exact St|exact C].
    + intros (f & data & fi & di & rs & rest & St & Sti & C & ->). eapply ValueMulti; [apply stored_reads; exact Sti|apply stored_reads; exact St|exact C].
    + intros (f & data & St & ->). eapply ValueRaw. apply stored_reads. exact St.
Qed.
Lemma missing_reads checks F name schema : reads_as checks F name schema (RErr EMissing) <-> F name = None.
Proof. split; [intros H; inversion H; assumption|apply ReadsMissing]. Qed.
Lemma value_missing checks F name schema k : (value_as checks F name schema k (RErr EMissing) <-> rabsent F name k).
Proof.
  unfold rabsent. split.
  - intros H. inversion H as [? ? Hk R| | | | | | | | | | | | | |]; subst; try congruence; try (now (split; [assumption|assumption])).
    apply missing_reads in R. split; [assumption|]. destruct k; auto. exfalso. eapply Hk. reflexivity.
  - intros [A B]. destruct k; try (apply ValueError; [discriminate|now apply ReadsMissing]). now apply ValueMultiMissing.
Qed.
Lemma members_never_missing checks F : forall path ms, ~ members_as checks F path ms (RErr EMissing).
Proof.
  intros path. assert (M : forall m, ~ member_as checks F path m (RErr EMissing)).
  { intros m H. inversion H; subst; match goal with C : checked_as _ _ _ _ ?y |- _ => inversion C; subst; cbn in *; congruence end. }
  induction ms as [|m ms IH]; intros H; inversion H; subst; [eapply M; eassumption|auto].
Qed.
Lemma opens_missing checks F path name schema ms : (opens_as checks F path (RArch name schema ms) (RErr EMissing) <-> F (path ++ name ++ ".archive") = None).
Proof.
  split.
  - intros H. inversion H; subst; [eapply missing_reads; eassumption|]. exfalso. eapply members_never_missing; eassumption.
  - intros H. apply OpensError. now apply ReadsMissing.
Qed.
Lemma opens_complete checks F : fsane F -> forall a, rsane a -> forall path x, (opens_as checks F path a (ROk x) <-> complete F path a x).
Proof.
  intros Hf. induction a as [name schema ms IH] using rarch_ind'. intros Ha path x. inversion Ha as [? ? ? Hu Hr Hsub]; subst.
  assert (One : forall m, In m ms -> forall c, (exists v, member_as checks F path m (ROk v) /\ c = (member_name m, v)) <-> complete_member F path m c).
  { intros m Hm c. rewrite Forall_forall in IH. specialize (IH m Hm). destruct m as [r|n o a]; cbn [sub_of member_name] in *.
    - destruct (Hr r Hm) as [_ Hk]. split.
      + intros (v & H & ->). inversion H as [? ? y z V C E1 E2 E3|]; subst. inversion C as [Eo|Eo|e Ee|  |w Lw|w m Em Lm]; subst; cbn [rmap option_map] in E3; try discriminate.
        * injection E3 as <-. apply CompleteNone; [assumption|]. now apply (value_missing checks F _ (c_schema r)).
        * injection E3 as <-. apply CompleteRes; [now apply (value_ok checks)|assumption].
      + intros H. inversion H; subst.
        * exists (Some (RCValue v)). split; [|reflexivity]. change (ROk (Some (RCValue v))) with (rmap (option_map RCValue) (ROk (Some v))).
          eapply MemberRes; [apply value_ok; eassumption|]. now apply CheckedOk.
        * exists None. split; [|reflexivity]. change (ROk (@None rcontent)) with (rmap (option_map RCValue) (ROk None)).
          eapply MemberRes; [apply value_missing; eassumption|]. now apply CheckedNone.
    - specialize (IH (Hsub n o a Hm)). split.
      + intros (v & H & ->). inversion H as [|? ? ? ? y z V C E1 E2 E3]; subst. inversion C as [Eo|Eo|e Ee|  |w Lw|w m Em Lm]; subst; cbn [rmap option_map] in E3; try discriminate.
        * injection E3 as <-. destruct a as [name' schema' ms']. apply CompleteNoSub. apply opens_missing in V. now rewrite !str_app_assoc in V.
        * injection E3 as <-. apply CompleteSub. now apply IH.
      + intros H. inversion H; subst.
        * exists (Some (RCArchive x0)). split; [|reflexivity]. change (ROk (Some (RCArchive x0))) with (rmap (option_map RCArchive) (ROk (Some x0))).
          eapply MemberSub; [apply IH; eassumption|]. apply CheckedOk. discriminate.
        * exists None. split; [|reflexivity]. change (ROk (@None rcontent)) with (rmap (option_map RCArchive) (ROk (@None rarchive))).
          eapply MemberSub; [apply opens_missing|now apply CheckedNone]. rewrite !str_app_assoc; assumption. }
  assert (All : forall l, members_as checks F path ms (ROk l) <-> Forall2 (complete_member F path) ms l).
  { clear IH Ha Hr Hsub. induction ms as [|m ms IHm]; intros l.
    - split; intros H; inversion H; subst; constructor.
    - split; intros H; inversion H; subst.
      + constructor; [apply One; [now left|eauto]|]. apply IHm; [|assumption]. intros m' Hm'. apply One. now right.
      + destruct (proj2 (One m (or_introl eq_refl) y) ltac:(assumption)) as (v & Hv & ->). apply MembersCons; [assumption|]. apply IHm; [|assumption].
        intros m' Hm'. apply One. now right. }
  split; intros H.
  - inversion H as [| |? ? ? ? d l R M| |]; subst. constructor; [|now apply All]. destruct (read_parts _ _ _ _ _ Hf R) as (f & data & pad & St & _). eauto.
  - inversion H as [? ? ? ? l (f & data & St) M]; subst. eapply OpensOk; [apply stored_reads; exact St|now apply All].
Qed.
