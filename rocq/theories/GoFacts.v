(** Opening Go archives: facts. *)
From Coq Require Import List ZArith Bool String Lia.
From Verif Require Import PyBase Spec DataAccess Structure Resources Builder Archive ArchiveSpec CodecSpec Streams StoreSpec CppStore RustStore RustSpec
  CppArchive RustArchive CppArchiveSpec RustArchiveSpec RustArchiveFacts GoArchive GoSpec.
Import ListNotations.
Local Open Scope string_scope.
Local Open Scope Z_scope.

Lemma go_descriptor_facts F n :
  (go_descriptor F n = GErr GNoAccess /\ F n = None) \/
  (exists e, e <> GNoAccess /\ go_descriptor F n = GErr e /\ gfaulty F n e) \/
  (exists f s, go_descriptor F n = GOk (f, s) /\ greadable F n f s).
Proof.
  unfold go_descriptor. destruct (F n) as [f|] eqn:Ef; [right|now left].
  destruct (zlen f <? 8 + 8) eqn:El.
  { left. exists GInvalid. split; [discriminate|]. split; [reflexivity|]. eapply FaultySize; eauto. lia. }
  destruct (F (n ++ ".schema")) as [s|] eqn:Es.
  - destruct (zlen s =? 0) eqn:E0.
    + left. exists GEmptySchema. split; [discriminate|]. split; [reflexivity|]. assert (s = []) as -> by (destruct s; [reflexivity|unfold zlen in E0; cbn in E0; lia]).
      eapply FaultyEmpty; eauto. lia.
    + right. exists f, s. split; [reflexivity|]. split; [assumption|]. split; [lia|]. split; [assumption|]. intros ->. discriminate.
  - left. exists GNoSchema. split; [discriminate|]. split; [reflexivity|]. eapply FaultyNoSchema; eauto. lia.
Qed.
Lemma gfaulty_none F n e : F n = None -> ~ gfaulty F n e.
Proof. intros H Hf. destruct Hf; congruence. Qed.
Lemma gfaulty_readable F n f s e : greadable F n f s -> ~ gfaulty F n e.
Proof. intros (H & H16 & Hs & Hne) Hf. destruct Hf; try congruence. assert (f0 = f) by congruence. subst. lia. Qed.
Lemma gfaulty_unique F n e e' : gfaulty F n e -> gfaulty F n e' -> e = e'.
Proof. intros H H'. destruct H, H'; try reflexivity; try congruence; assert (f0 = f) by congruence; subst; lia. Qed.
Lemma gfaulty_access F n e : gfaulty F n e -> e <> GNoAccess.
Proof. intros H. destruct H; discriminate. Qed.
Lemma greadable_unique F n f s f' s' : greadable F n f s -> greadable F n f' s' -> f = f' /\ s = s'.
Proof. intros (A & _ & B & _) (A' & _ & B' & _). split; congruence. Qed.

Definition is_multi (k : ckind) : bool := match k with KMulti _ _ => true | _ => false end.

Lemma go_load_facts F path r :
  (exists e, e <> GNoAccess /\ go_load F path r = GErr e /\ gres_fails F (path ++ c_name r) r e) \/
  (exists v, go_load F path r = GOk v /\ gres_shows F (path ++ c_name r) r v /\ forall e, ~ gres_fails F (path ++ c_name r) r e).
Proof.
  unfold go_load. set (n := (path ++ c_name r)%string).
  assert (Hi : forall open, (is_multi (c_kind r) = false /\ go_index_of F n (c_kind r) open = GOk (None, open)) \/
     (is_multi (c_kind r) = true /\
      ((F (n ++ "_index") = None /\ go_index_of F n (c_kind r) open = GOk (None, false)) \/
       (exists e, e <> GNoAccess /\ gfaulty F (n ++ "_index") e /\ go_index_of F n (c_kind r) open = GErr e) \/
       (exists f s, greadable F (n ++ "_index") f s /\ go_index_of F n (c_kind r) open = GOk (Some f, open))))).
  { intros open. destruct (c_kind r) as [sz|t|w ts|]; try (left; split; reflexivity). right. split; [reflexivity|].
    unfold go_index_of. destruct (go_descriptor_facts F (n ++ "_index")) as [[E H]|[(e & He & E & H)|(f & s & E & H)]]; rewrite E.
    - left. auto.
    - right. left. exists e. destruct e; try congruence; auto.
    - right. right. eauto. }
  assert (Hm : is_multi (c_kind r) = true -> exists w ts, c_kind r = KMulti w ts).
  { destruct (c_kind r); try discriminate. eauto. }
  assert (Hn : is_multi (c_kind r) = false -> forall w ts, c_kind r <> KMulti w ts).
  { intros H w ts E. rewrite E in H. discriminate. }
  destruct (go_descriptor_facts F n) as [[E H]|[(e & He & E & H)|(f & s & E & H)]]; rewrite E.
  - (* no data *)
    destruct (Hi false) as [[Hk Ei]|[Hk [[Hx Ei]|[(e & He & Hx & Ei)|(f & s & Hx & Ei)]]]]; rewrite Ei.
    + right. eexists. split; [reflexivity|]. split.
      * unfold gres_shows. cbn. split; [congruence|]. split; [reflexivity|].
        destruct (c_kind r); try discriminate Hk; (split; [reflexivity|split; [discriminate|congruence]]).
      * intros e Hf. inversion Hf as [? F1|w ts ? F1 F2 F3|f s F1 F2 F3]; subst; [now apply (gfaulty_none _ _ _ H F1)|now apply (Hn Hk w ts)|].
        destruct F1 as [F1 _]. congruence.
    + right. eexists. split; [reflexivity|]. destruct (Hm Hk) as (w & ts & Ek). split.
      * unfold gres_shows. rewrite Ek. cbn. split; [congruence|]. split; [reflexivity|]. split; [congruence|]. split; [discriminate|]. now intros [A _].
      * intros e Hf. inversion Hf as [? F1|w' ts' ? F1 F2 F3|f s F1 F2 F3]; subst; [now apply (gfaulty_none _ _ _ H F1)|now apply (gfaulty_none _ _ _ Hx F3)|].
        destruct F1 as [F1 _]. congruence.
    + left. exists e. split; [assumption|]. split; [reflexivity|]. destruct (Hm Hk) as (w & ts & Ek). eapply FailsIndex; eauto. intros e'. now apply gfaulty_none.
    + right. eexists. split; [reflexivity|]. destruct (Hm Hk) as (w & ts & Ek). split.
      * unfold gres_shows. rewrite Ek. cbn. split; [congruence|]. split; [reflexivity|]. split; [symmetry; apply Hx|]. split; [discriminate|]. now intros [A _].
      * intros e Hf. inversion Hf as [? F1|w' ts' ? F1 F2 F3|f' s' F1 F2 F3]; subst; [now apply (gfaulty_none _ _ _ H F1)|now apply (gfaulty_readable _ _ _ _ _ Hx F3)|].
        destruct F1 as [F1 _]. congruence.
  - left. exists e. split; [assumption|]. destruct e; try congruence; (split; [reflexivity|now apply FailsData]).
  - (* data *)
    destruct (Hi true) as [[Hk Ei]|[Hk [[Hx Ei]|[(e & He & Hx & Ei)|(fi & si & Hx & Ei)]]]]; rewrite Ei.
    + cbn [andb negb]. destruct (list_eq_dec Z.eq_dec (c_schema r) s) as [Es|Es]; cbn [negb].
      * right. eexists. split; [reflexivity|]. split.
        -- unfold gres_shows. cbn. split; [symmetry; apply H|]. split; [reflexivity|].
           destruct (c_kind r); try discriminate Hk; (split; [reflexivity|split; [destruct H; congruence|reflexivity]]).
        -- intros e Hf. inversion Hf as [? F1|w ts ? F1 F2 F3|f' s' F1 F2 F3]; subst; [now apply (gfaulty_readable _ _ _ _ _ H F1)|now apply (Hn Hk w ts)|].
           apply F2. symmetry. rewrite (proj2 (greadable_unique _ _ _ _ _ _ F1 H)). congruence.
      * left. exists GMismatch. split; [discriminate|]. split; [reflexivity|]. eapply FailsSchema; eauto. intros w ts Ek. now apply Hn in Ek.
    + cbn [andb]. right. eexists. split; [reflexivity|]. destruct (Hm Hk) as (w & ts & Ek). split.
      * unfold gres_shows. rewrite Ek. cbn. split; [symmetry; apply H|]. split; [reflexivity|]. split; [congruence|]. split; [discriminate|]. now intros [_ A].
      * intros e Hf. inversion Hf as [? F1|w' ts' ? F1 F2 F3|f' s' F1 F2 F3]; subst; [now apply (gfaulty_readable _ _ _ _ _ H F1)|now apply (gfaulty_none _ _ _ Hx F3)|].
        destruct (F3 w ts Ek) as (a & b & (A & _)). congruence.
    + left. exists e. split; [assumption|]. split; [reflexivity|]. destruct (Hm Hk) as (w & ts & Ek). eapply FailsIndex; eauto. intros e'. eapply gfaulty_readable; eauto.
    + cbn [andb]. destruct (Hm Hk) as (w & ts & Ek). destruct (list_eq_dec Z.eq_dec (c_schema r) s) as [Es|Es]; cbn [negb].
      * right. eexists. split; [reflexivity|]. split.
        -- unfold gres_shows. rewrite Ek. cbn. split; [symmetry; apply H|]. split; [reflexivity|]. split; [symmetry; apply Hx|].
           split; [|reflexivity]. intros _. destruct H, Hx. split; congruence.
        -- intros e Hf. inversion Hf as [? F1|w' ts' ? F1 F2 F3|f' s' F1 F2 F3]; subst;
             [now apply (gfaulty_readable _ _ _ _ _ H F1)|now apply (gfaulty_readable _ _ _ _ _ Hx F3)|].
           apply F2. symmetry. rewrite (proj2 (greadable_unique _ _ _ _ _ _ F1 H)). congruence.
      * left. exists GMismatch. split; [discriminate|]. split; [reflexivity|]. eapply FailsSchema; eauto.
Qed.

(** the inner loop of [go_open] *)
Definition go_member (F : string -> option (list Z)) (path : string) (m : rmember) : gresult (string * gcontent) :=
  match m with
  | RRes r => match go_load F path r with GOk v => GOk (c_name r, GCRes v) | GErr e => GErr e end
  | RSub n optional sub =>
      match go_open F sub (path ++ go_lower n ++ "/") with
      | GOk l => GOk (n, GCSub optional true l)
      | GErr GNoAccess => GOk (n, GCSub optional false [])
      | GErr e => GErr e
      end
  end.
Fixpoint go_members (F : string -> option (list Z)) (path : string) (ms : list rmember) : gresult (list (string * gcontent)) :=
  match ms with
  | [] => GOk []
  | m :: ms => match go_member F path m with
               | GErr e => GErr e
               | GOk v => match go_members F path ms with GOk l => GOk (v :: l) | GErr e => GErr e end
               end
  end.
Lemma go_open_eq F name schema ms path : go_open F (RArch name schema ms) path = go_members F path ms.
Proof. cbn [go_open]. induction ms as [|m ms IH]; [reflexivity|]. cbn [go_members]. rewrite <- IH. reflexivity. Qed.

Lemma gopens_cons F path name schema m ms : gopens F path (RArch name schema [m]) -> gopens F path (RArch name schema ms) -> gopens F path (RArch name schema (m :: ms)).
Proof.
  intros H H'. inversion H as [? ? ? ? A B]; inversion H' as [? ? ? ? A' B']; subst. constructor.
  - intros r e [->|Hi]; [apply A; now left|now apply A'].
  - intros n o a [->|Hi]; [eapply B; now left|eapply B'; eassumption].
Qed.

Lemma go_open_facts F : forall a path,
  (exists e, e <> GNoAccess /\ go_open F a path = GErr e /\ gfails F path a e) \/
  (exists l, go_open F a path = GOk l /\ gshows F path a l /\ gopens F path a).
Proof.
  induction a as [name schema ms IH] using rarch_ind'. intros path. rewrite go_open_eq.
  assert (M : forall m, sub_of (fun a => forall path,
      (exists e, e <> GNoAccess /\ go_open F a path = GErr e /\ gfails F path a e) \/
      (exists l, go_open F a path = GOk l /\ gshows F path a l /\ gopens F path a)) m ->
    (exists e, e <> GNoAccess /\ go_member F path m = GErr e /\ forall before after, gopens F path (RArch name schema before) ->
        gfails F path (RArch name schema (before ++ m :: after)) e) \/
    (exists v, go_member F path m = GOk v /\ gshows_member F path m v /\ gopens F path (RArch name schema [m]))).
  { intros [r|n o a] Hm; cbn [go_member].
    - destruct (go_load_facts F path r) as [(e & He & E & H)|(v & E & H & Hno)]; rewrite E.
      + left. exists e. split; [assumption|]. split; [reflexivity|]. intros. now apply GFailsRes.
      + right. eexists. split; [reflexivity|]. split; [now constructor|]. constructor.
        * intros r' e [Er|[]]. injection Er as ->. apply Hno.
        * intros n o a [Er|[]]. discriminate.
    - cbn [sub_of] in Hm. destruct (Hm (path ++ go_lower n ++ "/")%string) as [(e & He & E & H)|(l & E & H & Ho)]; rewrite E.
      + left. exists e. destruct e; try congruence; (split; [assumption|split; [reflexivity|intros; now apply GFailsSub]]).
      + right. eexists. split; [reflexivity|]. split; [now constructor|]. constructor.
        * intros r' e [Er|[]]. discriminate.
        * intros n' o' a' [Er|[]]. injection Er as -> -> ->. assumption. }
  assert (L : forall ms, Forall (sub_of (fun a => forall path,
      (exists e, e <> GNoAccess /\ go_open F a path = GErr e /\ gfails F path a e) \/
      (exists l, go_open F a path = GOk l /\ gshows F path a l /\ gopens F path a))) ms ->
    (exists e, e <> GNoAccess /\ go_members F path ms = GErr e /\ forall before, gopens F path (RArch name schema before) ->
        gfails F path (RArch name schema (before ++ ms)) e) \/
    (exists l, go_members F path ms = GOk l /\ Forall2 (gshows_member F path) ms l /\ gopens F path (RArch name schema ms))).
  { clear IH ms. induction ms as [|m ms IH]; intros Hs.
    - right. exists []. split; [reflexivity|]. split; [constructor|]. constructor; intros; contradiction.
    - inversion Hs as [|? ? Hm Hms]; subst. cbn [go_members]. destruct (M m Hm) as [(e & He & E & H)|(v & E & H & Ho)]; rewrite E.
      + left. exists e. split; [assumption|]. split; [reflexivity|]. intros before Hb. now apply H.
      + destruct (IH Hms) as [(e & He & E' & H')|(l & E' & H' & Ho')]; rewrite E'.
        * left. exists e. split; [assumption|]. split; [reflexivity|]. intros before Hb.
          replace (before ++ m :: ms)%list with ((before ++ [m]) ++ ms)%list by now rewrite <- app_assoc.
          apply H'. clear - Hb Ho. inversion Hb as [? ? ? ? A B]; inversion Ho as [? ? ? ? A' B']; subst. constructor.
          -- intros r e Hi. apply in_app_or in Hi. destruct Hi; auto.
          -- intros n o a Hi. apply in_app_or in Hi. destruct Hi; eauto.
        * right. exists (v :: l). split; [reflexivity|]. split; [now constructor|]. now apply gopens_cons. }
  destruct (L ms IH) as [(e & He & E & H)|(l & E & H & Ho)]; rewrite E.
  - left. exists e. split; [assumption|]. split; [reflexivity|]. apply (H []). constructor; intros; contradiction.
  - right. exists l. split; [reflexivity|]. split; [now constructor|assumption].
Qed.

(** nothing that fails opens *)
Lemma gfails_not F : forall path a e, gfails F path a e -> ~ gopens F path a.
Proof.
  intros path a e H. induction H as [path name schema b r c e Hb Hr|path name schema b n o a c e Hb Hr IH]; intros Ho; inversion Ho as [? ? ? ? A B]; subst.
  - eapply A; [|exact Hr]. apply in_or_app. right. now left.
  - apply IH. eapply B. apply in_or_app. right. now left.
Qed.
Lemma gfails_unique F path a e : gfails F path a e -> go_open F a path = GErr e.
Proof.
  intros H. induction H as [path name schema b r c e Hb Hr|path name schema b n o a c e Hb Hr IH]; rewrite go_open_eq.
  - assert (Hg : exists l, go_members F path b = GOk l).
    { destruct (go_open_facts F (RArch name schema b) path) as [(e' & _ & _ & Hf)|(l & E & _)]; [now apply gfails_not in Hf|]. rewrite go_open_eq in E. eauto. }
    destruct Hg as [l Hl].
    assert (Hm : go_load F path r = GErr e).
    { destruct (go_load_facts F path r) as [(e' & _ & E & H')|(v & _ & _ & Hno)]; [|now apply Hno in Hr]. rewrite E. f_equal.
      clear - Hr H'. inversion Hr as [? F1|w ts ? F1 F2 F3|f s F1 F2 F3]; inversion H' as [? G1|w' ts' ? G1 G2 G3|f' s' G1 G2 G3]; subst; try reflexivity;
        try (eapply gfaulty_unique; eassumption); try (now apply F1 in G1); try (now apply G1 in F1);
        try (eapply gfaulty_readable in G1; [|eassumption]; contradiction); try (eapply gfaulty_readable in F1; [|eassumption]; contradiction).
      - destruct (G3 _ _ F2) as (a & b & Hab). now apply (gfaulty_readable _ _ _ _ _ Hab) in F3.
      - destruct (F3 _ _ G2) as (a & b & Hab). now apply (gfaulty_readable _ _ _ _ _ Hab) in G3. }
    revert l Hl. clear - Hm. induction b as [|x b IH]; intros l Hl; cbn [app go_members] in *.
    + cbn [go_member]. now rewrite Hm.
    + destruct (go_member F path x) as [v|e']; [|discriminate]. destruct (go_members F path b) as [l'|e'] eqn:E; [|discriminate].
      now rewrite (IH l' eq_refl).
  - assert (Hg : exists l, go_members F path b = GOk l).
    { destruct (go_open_facts F (RArch name schema b) path) as [(e' & _ & _ & Hf)|(l & E & _)]; [now apply gfails_not in Hf|]. rewrite go_open_eq in E. eauto. }
    destruct Hg as [l Hl].
    assert (He : e <> GNoAccess).
    { destruct (go_open_facts F a (path ++ go_lower n ++ "/")) as [(e' & He & E & _)|(l' & E & _)]; congruence. }
    revert l Hl. clear - IH He. induction b as [|x b IHb]; intros l Hl; cbn [app go_members] in *.
    + cbn [go_member]. rewrite IH. destruct e; congruence.
    + destruct (go_member F path x) as [v|e']; [|discriminate]. destruct (go_members F path b) as [l'|e'] eqn:E; [|discriminate].
      now rewrite (IHb l' eq_refl).
Qed.
