(** Building archives in Rust. *)
From Coq Require Import List ZArith Bool Lia String.
From Coq Require Import ZifyBool ZifyNat.
From Verif Require Import PyBase Spec DataAccess Structure StructSpec BitFacts DataAccessFacts DataAccessThms StructFacts
  SliceFacts Resources Builder Archive ArchiveSpec ResourceFacts BuilderFacts ArchiveFacts Codecs CodecSpec CodecFacts CodecThms
  Streams StoreSpec StoreFacts CppStore CppFacts CppViews CppMulti CppArchive CppArchiveSpec CppArchiveFacts CppSessionSpec CppSessionFacts
  RustStore RustSpec RustFacts RustVectors RustMulti Props_Rust RustArchive RustArchiveSpec RustArchiveFacts RustSessionSpec.
Import ListNotations.
Local Open Scope string_scope.
Local Open Scope Z_scope.

Lemma ritem_names it : map fst (ritem_files it) = item_names it.
Proof. unfold ritem_files, item_names, item_files. destruct (it_content it); reflexivity. Qed.
Lemma writes_current l st st' : writes l st st' -> Forall (unread st) l -> all_current st -> all_current st'.
Proof.
  intros (_ & Hb & Hr & _) Hu Hc n d Hd. rewrite Hr in Hd. rewrite Hb; [now apply Hc|]. intros Hin. rewrite Forall_forall in Hu.
  specialize (Hu n Hin). unfold unread in Hu. congruence.
Qed.

(** ** Nothing is flushed, or more than a block *)
Lemma rev_grow_big limit t st v f st' v' : 0 <= limit -> big limit (h_size (rv_handle v)) -> 0 <= h_size (rv_handle v) -> rev_grow limit t st v f = Some (st', v') ->
  big limit (h_size (rv_handle v')) /\ 0 <= h_size (rv_handle v').
Proof.
  intros H8 Hb H0. unfold rev_grow. destruct (ras_bytes t (rvec_view t (rv_data v))) as [d|] eqn:Ed; cbn [obind]; [|discriminate].
  destruct (limit <? zlen d) eqn:El.
  - unfold rev_flush. rewrite Ed. cbn [obind rhandle_write fst snd]. destruct (rvec_grow _ _ _); cbn [obind]; [|discriminate]. intros E.
    assert (E' : rv_handle v' = Handle (h_stream (rv_handle v)) (h_size (rv_handle v) + zlen d) (h_name (rv_handle v)) (h_schema (rv_handle v))) by (inversion E; reflexivity).
    rewrite E'. cbn [h_size]. unfold big. lia.
  - cbn [obind fst snd]. destruct (rvec_grow _ _ _); cbn [obind]; [|discriminate]. intros E.
    assert (E' : rv_handle v' = rv_handle v) by (inversion E; reflexivity). rewrite E'. auto.
Qed.
Lemma rm_grow_big limit w st m st' m' : 0 <= limit -> big limit (h_size (rm_handle m)) -> 0 <= h_size (rm_handle m) -> rm_grow limit w st m = Some (st', m') ->
  big limit (h_size (rm_handle m')) /\ 0 <= h_size (rm_handle m').
Proof.
  intros H8 Hb H0. unfold rm_grow, rm_add_to_index. destruct (limit <? zlen (rm_data m)) eqn:El.
  - unfold rm_flush. cbn [rhandle_write fst snd rm_data rm_index rm_handle rm_flushed]. destruct (rev_grow _ _ _ _ _) as [[s2 v2]|]; cbn [obind fst snd]; [|discriminate]. intros E.
    assert (E' : rm_handle m' = Handle (h_stream (rm_handle m)) (h_size (rm_handle m) + zlen (rm_data m)) (h_name (rm_handle m)) (h_schema (rm_handle m))) by (inversion E; reflexivity).
    rewrite E'. cbn [h_size]. unfold big. lia.
  - destruct (rev_grow _ _ _ _ _) as [[s2 v2]|]; cbn [obind fst snd]; [|discriminate]. intros E.
    assert (E' : rm_handle m' = rm_handle m) by (inversion E; reflexivity). rewrite E'. auto.
Qed.
Lemma rm_add_handle m ti size f m' : rm_add m ti size f = Some m' -> rm_handle m' = rm_handle m.
Proof.
  unfold rm_add. destruct (_ <? _)%nat; [discriminate|]. destruct (f _); cbn [obind]; [|discriminate]. intros E.
  assert (E' : m' = RMVector (rm_data m') (rm_index m) (rm_handle m) (rm_flushed m)) by (inversion E; reflexivity). rewrite E'. reflexivity.
Qed.

(** ** The invariant *)
Definition rholding (limit : Z) (s : rsession) (it : item) : Prop :=
  let st := rs_store s in
  if it_open it then
    Forall (unread st) (item_names it) /\ utf8_valid (it_schema it) = true /\ file_of st (schema_file (it_file it)) = Some (it_schema it) /\
    match it_content it with
    | Bytes _ => False
    | Records t rs => (0 < e_size t)%nat /\ (e_overlap t = true -> Z.of_nat (e_size t) <= limit) /\
        exists v, dict_get (rs_writers s) (it_file it) = Some (RWVec t v) /\
        rev_at st t v (it_file it) (it_schema it) rs /\ big limit (h_size (rv_handle v)) /\ 0 <= h_size (rv_handle v)
    | Buckets w bss => 1 <= w <= 64 /\ is_bytes (payload (it_content it)) /\
        file_of st (schema_file (index_name (it_file it))) = Some (index_schema (it_schema it)) /\
        exists m, dict_get (rs_writers s) (it_file it) = Some (RWMulti w m) /\
        rm_at st m w (it_file it) (it_schema it) (payload (it_content it)) (starts 0 (map bucket bss)) /\
        big limit (h_size (rm_handle m)) /\ 0 <= h_size (rm_handle m)
    end
  else (forall n f, In (n, f) (ritem_files it) -> file_of st n = Some f) /\ is_bytes (rpayload (it_content it)) /\
       zlen (rpayload (it_content it)) + 16 < 2 ^ 64 /\
       match it_content it with
       | Buckets w bss => 1 <= w <= 64 /\ zlen (index_payload w bss) + 16 < 2 ^ 64
       | Records t rs => Forall (fun x => List.length x = e_size t) rs
       | Bytes _ => True
       end.
Record rinvariant (limit : Z) (bs : list (string * rarch)) (its : list item) (s : rsession) : Prop := {
  ri_sound : sound (rs_store s);
  ri_current : all_current (rs_store s);
  ri_builders : rs_builders s = bs;
  ri_others : forall n, ~ In n (all_names its) -> file_of (rs_store s) n = None /\ unread (rs_store s) n;
  ri_apart : NoDup (all_names its);
  ri_items : Forall (rholding limit s) its
}.

Lemma rm_frame st st' m w name schema pl points : rm_at st m w name schema pl points ->
  (forall n j s, In n [name; index_name name] -> holds_stream st n j s -> holds_stream st' n j s) -> rm_at st' m w name schema pl points.
Proof.
  intros (fl & A & B & D & E) H. exists fl. split; [exact A|]. split; [exact B|]. split.
  - eapply handle_frame; [exact D|]. intros j s. apply H. cbn. auto.
  - eapply rev_frame; [exact E|]. intros j s. apply H. cbn. auto.
Qed.
Lemma rholding_frame limit s s' l it :
  touches l (rs_store s) (rs_store s') -> (forall n, In n (item_names it) -> ~ In n l) ->
  dict_get (rs_writers s') (it_file it) = dict_get (rs_writers s) (it_file it) -> rholding limit s it -> rholding limit s' it.
Proof.
  intros (_ & Hb & Hr & Hk) Hl Hw. unfold rholding. destruct (it_open it).
  - intros (U & Hne & Fs & Hc). split; [|split; [exact Hne|split]].
    + rewrite Forall_forall in *. intros n Hn. unfold unread. rewrite Hr by auto. apply U. exact Hn.
    + rewrite Hb; [exact Fs|]. apply Hl. unfold item_names, item_files. cbn. auto.
    + destruct (it_content it) as [d|t rs|w bss] eqn:Ec; [exact Hc| |].
      * destruct Hc as (Ht & Ho & v & Hv & He & Hg). split; [exact Ht|]. split; [exact Ho|]. exists v. split; [congruence|]. split; [|exact Hg].
        eapply rev_frame; [exact He|]. intros j x. apply Hk. apply Hl. unfold item_names, item_files. cbn. auto.
      * destruct Hc as (Hw64 & Hby & Fi & m & Hm & He & Hg). split; [exact Hw64|]. split; [exact Hby|]. split.
        -- rewrite Hb; [exact Fi|]. apply Hl. unfold item_names, item_files. rewrite Ec. cbn. auto.
        -- exists m. split; [congruence|]. split; [|exact Hg]. eapply rm_frame; [exact He|]. intros n j x Hn. apply Hk. apply Hl.
           unfold item_names, item_files. rewrite Ec. cbn in *. intuition.
  - intros (Hf & Hrest). split; [|exact Hrest]. intros n f Hin. rewrite Hb; [apply Hf; exact Hin|]. apply Hl. rewrite <- ritem_names.
    change n with (fst (n, f)). apply in_map. exact Hin.
Qed.

Lemma rinvariant_change limit bs its1 it it' its2 s s' :
  rinvariant limit bs (its1 ++ it :: its2) s -> item_names it' = item_names it ->
  touches (item_names it) (rs_store s) (rs_store s') -> all_current (rs_store s') -> rs_builders s' = bs ->
  (forall n, n <> it_file it -> dict_get (rs_writers s') n = dict_get (rs_writers s) n) ->
  rholding limit s' it' -> rinvariant limit bs (its1 ++ it' :: its2) s'.
Proof.
  intros [I1 I2 I3 I5 I6 I7] Hn Ht Hc Hb Hw Hh.
  assert (Na : all_names (its1 ++ it' :: its2) = all_names (its1 ++ it :: its2)) by (unfold all_names; rewrite !map_app; cbn [map]; now rewrite Hn).
  assert (Hin : In (it_file it) (item_names it)) by (unfold item_names, item_files; cbn; auto).
  constructor; try assumption.
  - apply Ht.
  - intros n Hnn. rewrite Na in Hnn. destruct Ht as (_ & Hbut & Hr & _).
    assert (Hno : ~ In n (item_names it)) by (intro H; apply Hnn; apply (in_all _ it); [apply in_or_app; right; left; reflexivity|exact H]).
    destruct (I5 n Hnn) as [F U]. split; [rewrite Hbut by exact Hno; exact F|]. unfold unread. rewrite Hr by exact Hno. exact U.
  - rewrite Na. exact I6.
  - pose proof (split_fresh _ _ _ I6) as Hfr. apply Forall_app in I7 as [G1 G2]. inversion G2 as [|? ? G3 G4]; subst.
    assert (Hone : forall o, In o (its1 ++ its2) -> rholding limit s o -> rholding limit s' o).
    { intros o Ho Hold. apply (rholding_frame limit s s' (item_names it)); [exact Ht| | |exact Hold].
      - intros n Hn1 Hn2. exact (Hfr o n Ho Hn2 Hn1).
      - apply Hw. intro E. apply (Hfr o (it_file it) Ho Hin). rewrite <- E. unfold item_names, item_files. cbn. auto. }
    apply Forall_app. split; [|constructor; [exact Hh|]].
    + rewrite Forall_forall in *. intros o Ho. apply Hone; [apply in_or_app; auto|apply G1; exact Ho].
    + rewrite Forall_forall in *. intros o Ho. apply Hone; [apply in_or_app; auto|apply G4; exact Ho].
Qed.
Lemma rinvariant_new limit bs bs' its it s s' :
  rinvariant limit bs its s -> fresh its it ->
  touches (item_names it) (rs_store s) (rs_store s') -> all_current (rs_store s') -> rs_builders s' = bs' ->
  (forall n, n <> it_file it -> dict_get (rs_writers s') n = dict_get (rs_writers s) n) ->
  rholding limit s' it -> rinvariant limit bs' (its ++ [it]) s'.
Proof.
  intros [I1 I2 I3 I5 I6 I7] Hfr Ht Hc Hb Hw Hh.
  assert (N1 : all_names [it] = item_names it) by (unfold all_names; cbn [map List.concat]; apply app_nil_r).
  assert (Hin : In (it_file it) (item_names it)) by (unfold item_names, item_files; cbn; auto).
  constructor; try assumption.
  - apply Ht.
  - intros n Hnn. rewrite all_app, N1 in Hnn. destruct Ht as (_ & Hbut & Hr & _).
    assert (Hno : ~ In n (item_names it)) by (intro H; apply Hnn; apply in_or_app; auto).
    assert (Hna : ~ In n (all_names its)) by (intro H; apply Hnn; apply in_or_app; auto).
    destruct (I5 n Hna) as [F U]. split; [rewrite Hbut by exact Hno; exact F|]. unfold unread. rewrite Hr by exact Hno. exact U.
  - rewrite all_app, N1. pose proof (names_nodup it) as Hnd. clear -I6 Hfr Hnd.
    assert (Hdis : forall n, In n (all_names its) -> ~ In n (item_names it)).
    { intros n Hn Hn2. apply all_in in Hn as (o & Ho & Hno). exact (Hfr o n Ho Hn2 Hno). }
    revert I6 Hdis. generalize (all_names its) as l. induction l as [|x l IH]; intros H1 H2; cbn; [exact Hnd|].
    inversion H1; subst. constructor; [|apply IH; [assumption|intros n Hn; apply H2; right; exact Hn]].
    intro H. apply in_app_or in H as [H|H]; [contradiction|]. apply (H2 x); [left; reflexivity|exact H].
  - apply Forall_app. split; [|constructor; [exact Hh|constructor]]. rewrite Forall_forall in *. intros o Ho.
    apply (rholding_frame limit s s' (item_names it)); [exact Ht| | |apply I7; exact Ho].
    + intros n Hn1 Hn2. exact (Hfr o n Ho Hn2 Hn1).
    + apply Hw. intro E. apply (Hfr o (it_file it) Ho Hin). rewrite <- E. unfold item_names, item_files. cbn. auto.
Qed.
Lemma rfresh_new limit p bs its s it : rinvariant limit bs its s -> fresh its it ->
  Forall (unread (rs_store s)) (item_names it) /\ Forall (startable p (rs_store s)) (item_names it) /\ Forall (fun n => file_of (rs_store s) n = None) (item_names it).
Proof.
  intros I Hf. assert (H : forall n, In n (item_names it) -> file_of (rs_store s) n = None /\ unread (rs_store s) n).
  { intros n Hn. apply (ri_others _ _ _ _ I). intro Ha. apply all_in in Ha as (o & Ho & Hno). exact (Hf o n Ho Hn Hno). }
  split; [|split]; apply Forall_forall; intros n Hn; [apply H; exact Hn|right; apply H; exact Hn|apply H; exact Hn].
Qed.
Lemma rheld limit bs its1 it its2 s : rinvariant limit bs (its1 ++ it :: its2) s -> rholding limit s it.
Proof. intro I. pose proof (ri_items _ _ _ _ I) as H. apply Forall_app in H as [_ H]. inversion H; assumption. Qed.

Lemma rholding_bytes limit s file schema data : file_of (rs_store s) file = Some (framed data) ->
  file_of (rs_store s) (schema_file file) = Some schema -> is_bytes data -> zlen data + 16 < 2 ^ 64 ->
  rholding limit s (Item file schema (Bytes data) false).
Proof.
  intros F1 F2 Hb Hl. unfold rholding. cbn [it_open it_content rpayload payload]. split; [|split; [exact Hb|split; [exact Hl|exact I]]].
  intros n f [E|[E|[]]]; cbn [it_file it_schema it_content rpayload payload] in E; apply pair_equal_spec in E as [<- <-]; assumption.
Qed.

Lemma rstart_vector limit p bs its s path name schema t : 0 <= limit -> rinvariant limit bs its s -> utf8_valid schema = true ->
  (0 < e_size t)%nat -> (e_overlap t = true -> Z.of_nat (e_size t) <= limit) ->
  fresh its (Item (path ++ name) schema (Records t []) true) ->
  let r := rev_create p t (rs_store s) (path ++ name) schema in
  rinvariant limit bs (its ++ [Item (path ++ name) schema (Records t []) true])
    (RSession (fst r) (rs_builders s) (put (rs_writers s) (path ++ name) (RWVec t (snd r)))).
Proof.
  intros Hp I Hne Ht Ho Hf r. destruct (rfresh_new limit p _ _ _ _ I Hf) as (Hu & Hst & _).
  inversion Hst as [|? ? S1 Hst2]; subst. inversion Hst2 as [|? ? S2 _]; subst.
  destruct (rev_create_facts p t (rs_store s) (path ++ name) schema S1 S2 (ri_sound _ _ _ _ I)) as (W & F & He).
  fold r in W, F, He. apply (rinvariant_new limit bs bs its _ s); cbn [rs_store rs_builders rs_writers]; try exact I; try exact Hf; try apply I.
  - apply writes_touches. exact W.
  - exact (writes_current _ _ _ W Hu (ri_current _ _ _ _ I)).
  - intros n Hn. apply put_other. exact Hn.
  - unfold rholding. cbn [it_open it_schema it_file it_content rs_store rs_writers]. split; [|split; [exact Hne|split; [exact F|]]].
    + rewrite Forall_forall in *. intros n Hn. apply (writes_unread _ _ _ _ W). apply Hu. exact Hn.
    + split; [exact Ht|]. split; [exact Ho|]. exists (snd r). split; [apply put_same|]. split; [exact He|].
      destruct He as (fl & pe & E & _ & _ & _ & _ & Hz & _). symmetry in E. apply app_eq_nil in E as [-> ->]. rewrite Hz. unfold big. change (zlen (@List.concat Z [])) with 0. lia.
Qed.
Lemma rstart_multi limit p bs its s path name schema w : 8 <= limit -> 1 <= w <= 64 -> rinvariant limit bs its s -> utf8_valid schema = true ->
  fresh its (Item (path ++ name) schema (Buckets w []) true) ->
  let r := rm_create p w (rs_store s) (path ++ name) schema in
  rinvariant limit bs (its ++ [Item (path ++ name) schema (Buckets w []) true])
    (RSession (fst r) (rs_builders s) (put (rs_writers s) (path ++ name) (RWMulti w (snd r)))).
Proof.
  intros H8 Hw I Hne Hf r. destruct (rfresh_new limit p _ _ _ _ I Hf) as (Hu & Hst & _).
  destruct (rm_create_facts p (rs_store s) w (path ++ name) schema Hst (ri_sound _ _ _ _ I)) as (W & F & Fi & He).
  fold r in W, F, Fi, He.
  apply (rinvariant_new limit bs bs its _ s); cbn [rs_store rs_builders rs_writers]; try exact I; try exact Hf; try apply I.
  - apply writes_touches. exact W.
  - exact (writes_current _ _ _ W Hu (ri_current _ _ _ _ I)).
  - intros n Hn. apply put_other. exact Hn.
  - unfold rholding. cbn [it_open it_schema it_file it_content payload rs_store rs_writers]. split; [|split; [exact Hne|split; [exact F|]]].
    + rewrite Forall_forall in *. intros n Hn. apply (writes_unread _ _ _ _ W). apply Hu. exact Hn.
    + split; [exact Hw|]. split; [constructor|]. split; [exact Fi|]. exists (snd r). split; [apply put_same|]. split; [exact He|].
      destruct He as (fl & E & _ & [Hz _] & _). cbn [map List.concat] in E. symmetry in E. apply app_eq_nil in E as [-> _]. rewrite Hz. unfold big. change (zlen (@nil Z)) with 0. lia.
Qed.

Lemma rstep_grow checks limit p bs its1 its2 s file schema t rs f new : 8 <= limit ->
  rinvariant limit bs (its1 ++ Item file schema (Records t rs) true :: its2) s -> sets (e_size t) f (zeros (e_size t)) new ->
  exists s', rstep checks limit p s (BGrow file f) = Some (s', ROk tt) /\
    rinvariant limit bs (its1 ++ Item file schema (Records t (rs ++ [new])) true :: its2) s'.
Proof.
  intros H8 I Hm. pose proof (ri_sound _ _ _ _ I) as Hs. pose proof (rheld _ _ _ _ _ _ I) as (U & Hne & F & Ht & Ho & v & Ev & He & Hg & H0).
  cbn [it_schema it_file it_content payload] in *. assert (L0 : 0 <= limit) by lia.
  destruct (rev_grow_facts limit t _ v _ _ _ f new Ht Ho L0 Hs He Hm) as (st' & v' & E & W & He').
  pose proof (rev_grow_big _ _ _ _ _ _ _ L0 Hg H0 E) as Hg'.
  cbn [rstep]. rewrite Ev, E. cbn [obind fst snd]. eexists. split; [reflexivity|].
  assert (Wi : writes (item_names (Item file schema (Records t rs) true)) (rs_store s) st').
  { eapply writes_incl; [|exact W]. intros x [<-|[]]. left. reflexivity. }
  eapply (rinvariant_change limit bs its1 _ _ its2 s); cbn [rs_store rs_builders rs_writers]; try exact I; try apply I.
  - reflexivity.
  - apply writes_touches. exact Wi.
  - exact (writes_current _ _ _ Wi U (ri_current _ _ _ _ I)).
  - intros n Hn. apply put_other. exact Hn.
  - unfold rholding. cbn [it_open it_schema it_file it_content rs_store rs_writers].
    split; [|split; [exact Hne|split; [|split; [exact Ht|split; [exact Ho|]]]]].
    + rewrite Forall_forall in *. intros n Hn. apply (writes_unread _ _ _ _ W). apply U. exact Hn.
    + destruct W as (_ & Hbut & _). rewrite Hbut; [exact F|]. intros [E'|[]]. symmetry in E'. revert E'. apply schema_name_ne.
    + exists v'. split; [apply put_same|]. split; [exact He'|exact Hg'].
Qed.

Lemma rstep_bucket checks limit p bs its1 its2 s file schema w bss : 8 <= limit ->
  rinvariant limit bs (its1 ++ Item file schema (Buckets w bss) true :: its2) s -> zlen (payload (Buckets w bss)) < 2 ^ w ->
  exists s', rstep checks limit p s (BBucket file) = Some (s', ROk tt) /\
    rinvariant limit bs (its1 ++ Item file schema (Buckets w (bss ++ [[]])) true :: its2) s'.
Proof.
  intros H8 I Hl. pose proof (ri_sound _ _ _ _ I) as Hs. pose proof (rheld _ _ _ _ _ _ I) as (U & Hne & F & Hw & Hby & Fi & m & Em & He & Hg & H0).
  cbn [it_schema it_file it_content payload] in *. assert (L0 : 0 <= limit) by lia.
  destruct (rm_grow_facts limit _ m w _ _ _ _ Hs Hw H8 He Hl) as (st' & m' & E & W & He').
  pose proof (rm_grow_big _ _ _ _ _ _ L0 Hg H0 E) as Hg'.
  cbn [rstep]. rewrite Em, E. cbn [obind fst snd]. eexists. split; [reflexivity|].
  assert (Wi : writes (item_names (Item file schema (Buckets w bss) true)) (rs_store s) st').
  { eapply writes_incl; [|exact W]. unfold item_names, item_files. cbn [it_file it_content map fst]. intros x [<-|[<-|[]]]; cbn; auto. }
  destruct (names_distinct file) as (D1 & D2 & D3 & D4 & D5 & D6).
  eapply (rinvariant_change limit bs its1 _ _ its2 s); cbn [rs_store rs_builders rs_writers]; try exact I; try apply I.
  - reflexivity.
  - apply writes_touches. exact Wi.
  - exact (writes_current _ _ _ Wi U (ri_current _ _ _ _ I)).
  - intros n Hn. apply put_other. exact Hn.
  - unfold rholding. cbn [it_open it_schema it_file it_content payload rs_store rs_writers].
    assert (Hc : List.concat (map bucket (bss ++ [[]])) = List.concat (map bucket bss)).
    { rewrite map_app, concat_app. cbn. apply app_nil_r. }
    destruct W as (W1 & Hbut & W3 & W4).
    split; [|split; [exact Hne|split; [|split; [exact Hw|split]]]].
    + rewrite Forall_forall in *. intros n Hn. apply (writes_unread _ _ _ _ Wi). apply U. exact Hn.
    + rewrite Hbut; [exact F|]. cbn; intuition congruence.
    + rewrite Hc. exact Hby.
    + split; [rewrite Hbut; [exact Fi|]; cbn; intuition congruence|].
      exists m'. split; [apply put_same|]. split; [|exact Hg']. rewrite Hc, map_app, starts_app. cbn [map starts]. rewrite Z.add_0_l. exact He'.
Qed.

Lemma rstep_add checks limit p bs its1 its2 s file schema w bss es ti size f e :
  rinvariant limit bs (its1 ++ Item file schema (Buckets w (bss ++ [es])) true :: its2) s -> radds (ti, size, f) e ->
  exists s', rstep checks limit p s (BAdd file ti size f) = Some (s', ROk tt) /\
    rinvariant limit bs (its1 ++ Item file schema (Buckets w (bss ++ [(es ++ [e])%list])) true :: its2) s'.
Proof.
  intros I Ha. pose proof (ri_sound _ _ _ _ I) as Hs. pose proof (rheld _ _ _ _ _ _ I) as (U & Hne & F & Hw & Hby & Fi & m & Em & He & Hg & H0).
  cbn [it_schema it_file it_content payload] in *.
  destruct (rm_add_facts _ m w _ _ _ _ ti size f e He Ha) as (m' & E & He').
  pose proof (rm_add_handle _ _ _ _ _ E) as Eh.
  cbn [rstep]. rewrite Em, E. cbn [obind]. eexists. split; [reflexivity|].
  eapply (rinvariant_change limit bs its1 _ _ its2 s); cbn [rs_store rs_builders rs_writers]; try exact I; try apply I.
  - reflexivity.
  - apply writes_touches. apply writes_refl. exact Hs.
  - intros n Hn. apply put_other. exact Hn.
  - unfold rholding. cbn [it_open it_schema it_file it_content payload rs_store rs_writers].
    assert (Hc : List.concat (map bucket (bss ++ [(es ++ [e])%list])) = (List.concat (map bucket (bss ++ [es])) ++ element e)%list).
    { rewrite !map_app, !concat_app. cbn [map List.concat]. rewrite !app_nil_r, bucket_app, <- app_assoc. f_equal. f_equal.
      unfold bucket. cbn [map List.concat]. apply app_nil_r. }
    split; [exact U|split; [exact Hne|split; [exact F|split; [exact Hw|split]]]].
    + rewrite Hc. apply bytes_app; [exact Hby|]. destruct Ha as (Et & Hr & (_ & _ & Hb & _)). unfold element. constructor; [rewrite <- Et; exact Hr|exact Hb].
    + split; [exact Fi|].
      exists m'. split; [apply put_same|]. split; [|rewrite Eh; auto]. rewrite Hc.
      replace (starts 0 (map bucket (bss ++ [(es ++ [e])%list]))) with (starts 0 (map bucket (bss ++ [es]))) by (rewrite !map_app, !starts_app; reflexivity).
      exact He'.
Qed.

Lemma rstep_close checks limit p bs its1 its2 s file schema c : p_null_empty p = false -> 8 <= limit ->
  rinvariant limit bs (its1 ++ Item file schema c true :: its2) s -> zlen (rpayload c) + 16 < 2 ^ 64 ->
  (forall w bss, c = Buckets w bss -> zlen (payload c) < 2 ^ w /\ (zlen bss + 1) * ((w + 7) / 8) + 16 < 2 ^ 64) ->
  exists s', rstep checks limit p s (BClose file) = Some (s', ROk tt) /\
    rinvariant limit bs (its1 ++ Item file schema c false :: its2) s'.
Proof.
  intros Hp H8 I Hl Hmu. pose proof (ri_sound _ _ _ _ I) as Hs. pose proof (ri_current _ _ _ _ I) as Hc.
  pose proof (rheld _ _ _ _ _ _ I) as (U & Hne & F & H). cbn [it_schema it_file it_content] in *.
  destruct c as [d|t rs|w bss]; [destruct H| |].
  - destruct H as (Ht & Ho & v & Ev & He & Hg). cbn [rpayload] in *.
    assert (U1 : unread (rs_store s) file) by (rewrite Forall_forall in U; apply U; left; reflexivity).
    assert (U2 : unread (rs_store s) (schema_file file)) by (rewrite Forall_forall in U; apply U; right; left; reflexivity).
    destruct (rev_close_facts checks p t _ v _ _ _ Ht Hp Hs He F U1 U2 Hl Hne) as (st' & E & T & F1 & F2 & K1 & K2).
    cbn [rstep]. rewrite Ev, E. cbn [obind fst snd rmap]. eexists. split; [reflexivity|].
    eapply (rinvariant_change limit bs its1 _ _ its2 s); cbn [rs_store rs_builders rs_writers]; try exact I; try apply I.
    + reflexivity.
    + exact T.
    + intros n. destruct (string_dec n file) as [->|N]; [exact K2|apply K1; [exact N|apply Hc]].
    + intros n Hn. apply without_other. exact Hn.
    + assert (Hr : Forall (fun x => List.length x = e_size t /\ is_bytes x) rs).
      { destruct He as (fl & pe & -> & [_ B] & _ & _ & A & _). apply Forall_app; auto. }
      unfold rholding. cbn [it_open it_content rpayload rs_store]. split; [|split; [|split; [exact Hl|eapply Forall_impl; [|exact Hr]; intros x Hx; apply Hx]]].
      * intros n f [E'|[E'|[]]]; cbn [it_file it_schema it_content rpayload] in E'; apply pair_equal_spec in E' as [<- <-]; assumption.
      * eapply rec_bytes. apply stored_ok. exact Hr.
  - destruct H as (Hw & Hby & Fi & m & Em & He & Hg). destruct (Hmu w bss eq_refl) as [Hlw Hli]. cbn [rpayload] in *.
    assert (Hz : zlen (starts 0 (map bucket bss)) = zlen bss) by (rewrite starts_zlen; unfold zlen; now rewrite map_length).
    assert (Hpts : (starts 0 (map bucket bss) ++ [zlen (payload (Buckets w bss))])%list = bucket_points 0 (map zlen (map bucket bss))).
    { rewrite points_starts. f_equal. }
    assert (Hib : Z.of_nat (index_bytes w) = (w + 7) / 8) by (unfold index_bytes; rewrite Z2Nat.id; [reflexivity|]; apply Z.div_pos; lia).
    assert (Hli' : (zlen (starts 0 (map bucket bss)) + 1) * Z.of_nat (index_bytes w) + 16 < 2 ^ 64) by (rewrite Hz, Hib; exact Hli).
    destruct (rm_close_facts checks limit p w _ m _ _ _ _ Hp Hs Hw H8 He Hlw F Fi U Hby Hl Hli' Hne) as (st' & E & T & F1 & F2 & F3 & F4 & K).
    rewrite Hpts in F3. cbn [rstep]. rewrite Em, E. cbn [obind fst snd rmap]. eexists. split; [reflexivity|].
    eapply (rinvariant_change limit bs its1 _ _ its2 s); cbn [rs_store rs_builders rs_writers]; try exact I; try apply I.
    + reflexivity.
    + exact T.
    + intros n. apply K. apply Hc.
    + intros n Hn. apply without_other. exact Hn.
    + unfold rholding. cbn [it_open it_content rs_store rpayload]. split; [|split; [exact Hby|split; [exact Hl|]]].
      * intros n f [E'|[E'|[E'|[E'|[]]]]]; cbn [it_file it_schema it_content rpayload] in E'; apply pair_equal_spec in E' as [<- <-]; assumption.
      * split; [exact Hw|].
        unfold index_payload. rewrite points_zlen, <- Hpts, zlen_app. unfold zlen at 2. cbn [List.length]. exact Hli'.
Qed.

Lemma rstep_set checks limit p bs its s path name data a r :
  rinvariant limit bs its s -> dict_get bs path = Some a -> rfind_resource a name = Some r -> settable (c_kind r) data ->
  is_bytes data -> zlen data + 16 < 2 ^ 64 -> fresh its (Item (path ++ name) (c_schema r) (Bytes data) false) ->
  exists s', rstep checks limit p s (BSet path name data) = Some (s', ROk tt) /\
    rinvariant limit bs (its ++ [Item (path ++ name) (c_schema r) (Bytes data) false]) s'.
Proof.
  intros I Ha Hr Hk Hby Hl Hf. destruct (rfresh_new limit p _ _ _ _ I Hf) as (Hu & Hst & _).
  inversion Hst as [|? ? S1 Hst2]; subst. inversion Hst2 as [|? ? S2 _]; subst.
  assert (Hlt : zlen data < 2 ^ 64) by lia.
  destruct (rwrite_facts p _ (path ++ name) (c_schema r) data S1 S2 (ri_sound _ _ _ _ I) Hlt) as (W & F1 & F2).
  cbn [rstep]. rewrite (ri_builders _ _ _ _ I), Ha. cbn [obind]. rewrite Hr. cbn [obind].
  eexists. split; [destruct (c_kind r); try reflexivity; destruct Hk|].
  apply (rinvariant_new limit bs bs its _ s); cbn [rs_store rs_builders rs_writers]; try exact I; try exact Hf; try apply I.
  - apply writes_touches. exact W.
  - exact (writes_current _ _ _ W Hu (ri_current _ _ _ _ I)).
  - reflexivity.
  - intros n _. reflexivity.
  - apply rholding_bytes; assumption.
Qed.

Lemma rnot_exists limit bs its s name : rinvariant limit bs its s -> ~ In name (all_names its) -> rust_exists (rs_store s) name = false.
Proof.
  intros I Hn. destruct (ri_others _ _ _ _ I name Hn) as [F U]. unfold rust_exists. rewrite (file_none _ _ (ri_sound _ _ _ _ I) F).
  unfold unread in U. now rewrite U.
Qed.
Lemma rnew limit p bs its s path a : rinvariant limit bs its s -> fresh its (rsignature path a) ->
  exists st', rbuilder_new p a (rs_store s) path = (st', ROk tt) /\
    touches (item_names (rsignature path a)) (rs_store s) st' /\ all_current st' /\
    file_of st' (it_file (rsignature path a)) = Some (framed []) /\ file_of st' (schema_file (it_file (rsignature path a))) = Some (it_schema (rsignature path a)).
Proof.
  intros I Hf. destruct a as [n schema ms]. cbn [rsignature it_file it_schema rbuilder_new] in *.
  destruct (rfresh_new limit p _ _ _ _ I Hf) as (Hu & Hst & _). inversion Hst as [|? ? S1 Hst2]; subst. inversion Hst2 as [|? ? S2 _]; subst.
  rewrite (rnot_exists limit bs its s _ I).
  - eexists. split; [reflexivity|]. assert (Hlt : zlen (@nil Z) < 2 ^ 64) by (unfold zlen; cbn; lia).
    destruct (rwrite_facts p _ (path ++ signature_name n) schema [] S1 S2 (ri_sound _ _ _ _ I) Hlt) as (W & F1 & F2).
    split; [apply writes_touches; exact W|]. split; [exact (writes_current _ _ _ W Hu (ri_current _ _ _ _ I))|]. split; assumption.
  - intro Ha. apply all_in in Ha as (it & Hit & Hn). apply (Hf it _ Hit) in Hn; [exact Hn|]. left. reflexivity.
Qed.
Lemma rsignature_item path a : rsignature path a = Item (it_file (rsignature path a)) (it_schema (rsignature path a)) (Bytes []) false.
Proof. destruct a. reflexivity. Qed.
Lemma put_fresh {A} (d : list (string * A)) k x : dict_get d k = None -> put d k x = (d ++ [(k, x)])%list.
Proof. induction d as [|[k' y] d IH]; cbn; [reflexivity|]. destruct (String.eqb k' k); [discriminate|]. intros H. now rewrite IH. Qed.

Lemma rstep_sub checks limit p bs its s path name a sub : rinvariant limit bs its s ->
  dict_get bs path = Some a -> rfind_sub a name = Some sub -> dict_get bs (path ++ name ++ "/") = None ->
  fresh its (rsignature (path ++ name ++ "/") sub) ->
  exists s', rstep checks limit p s (BSub path name) = Some (s', ROk tt) /\
    rinvariant limit (bs ++ [((path ++ name ++ "/")%string, sub)]) (its ++ [rsignature (path ++ name ++ "/") sub]) s'.
Proof.
  intros I Ha Hsub Hno Hf. destruct (rnew limit p bs its s _ sub I Hf) as (st' & E & T & Hc & F1 & F2).
  cbn [rstep]. rewrite (ri_builders _ _ _ _ I), Ha. cbn [obind]. rewrite Hsub. cbn [obind]. rewrite E.
  eexists. split; [reflexivity|].
  apply (rinvariant_new limit bs _ its _ s); cbn [rs_store rs_builders rs_writers]; try exact I; try exact Hf; try exact Hc; try exact T.
  - apply put_fresh. exact Hno.
  - reflexivity.
  - rewrite rsignature_item. apply rholding_bytes; try assumption; [constructor|unfold zlen; cbn; lia].
Qed.

Lemma rstep_invariant checks limit p bs its s op bs' its' : p_null_empty p = false -> 8 <= limit ->
  rinvariant limit bs its s -> rdoes limit (bs, its) op (bs', its') ->
  exists s', rstep checks limit p s op = Some (s', ROk tt) /\ rinvariant limit bs' its' s'.
Proof.
  intros Hp H8 I Hd. assert (L0 : 0 <= limit) by lia. inversion Hd; subst; clear Hd.
  - eapply rstep_sub; eassumption.
  - eapply rstep_set; eassumption.
  - cbn [rstep]. rewrite (ri_builders _ _ _ _ I).
    match goal with H : dict_get bs' _ = Some _ |- _ => rewrite H end. cbn [obind].
    match goal with H : rfind_resource _ _ = Some _ |- _ => rewrite H end. cbn [obind]. match goal with H : c_kind _ = _ |- _ => rewrite H end.
    match goal with H : utf8_valid _ = true, G : fresh _ _, T : (0 < _)%nat, X : _ -> _ <= limit |- _ => pose proof (rstart_vector limit p _ _ _ _ _ _ _ L0 I H T X G) as R end. cbn zeta in R.
    rewrite (ri_builders _ _ _ _ I) in R.
    destruct (rev_create p t (rs_store s) (path ++ name) (c_schema r)) as [st' v]. eexists. split; [reflexivity|exact R].
  - cbn [rstep]. rewrite (ri_builders _ _ _ _ I).
    match goal with H : dict_get bs' _ = Some _ |- _ => rewrite H end. cbn [obind].
    match goal with H : rfind_resource _ _ = Some _ |- _ => rewrite H end. cbn [obind]. match goal with H : c_kind _ = _ |- _ => rewrite H end.
    match goal with H : utf8_valid _ = true, G : fresh _ _, W : _ <= w <= _ |- _ => pose proof (rstart_multi limit p _ _ _ _ _ _ _ H8 W I H G) as R end. cbn zeta in R.
    rewrite (ri_builders _ _ _ _ I) in R.
    destruct (rm_create p w (rs_store s) (path ++ name) (c_schema r)) as [st' v]. eexists. split; [reflexivity|exact R].
  - eapply rstep_grow; eassumption.
  - eapply rstep_bucket; eassumption.
  - eapply rstep_add; eassumption.
  - eapply rstep_close; eassumption.
Qed.
Lemma rsteps_invariant checks limit p ops : forall bs its s bs' its', p_null_empty p = false -> 8 <= limit ->
  rinvariant limit bs its s -> rdoes_all limit (bs, its) ops (bs', its') ->
  exists s', rsteps checks limit p s ops = Some (s', ROk tt) /\ rinvariant limit bs' its' s'.
Proof.
  induction ops as [|op ops IH]; intros bs its s bs' its' Hp H8 I Hd; inversion Hd; subst.
  - exists s. split; [reflexivity|exact I].
  - destruct y as [b1 i1]. destruct (rstep_invariant checks limit p bs its s op b1 i1 Hp H8 I) as (s1 & E1 & I1); [assumption|].
    destruct (IH b1 i1 s1 bs' its' Hp H8 I1) as (s2 & E2 & I2); [assumption|]. exists s2. split; [|exact I2]. cbn [rsteps]. rewrite E1. cbn [obind fst snd]. exact E2.
Qed.
Lemma rbegin_invariant limit p a : exists s, rbegin p a empty_store = (s, ROk tt) /\ rinvariant limit [("", a)] [rsignature "" a] s.
Proof.
  assert (I0 : rinvariant limit [("", a)] [] (RSession empty_store [("", a)] [])).
  { constructor; cbn [rs_store rs_builders]; try reflexivity.
    - repeat split; constructor.
    - intros k d H. discriminate.
    - intros n _. split; reflexivity.
    - constructor.
    - constructor. }
  assert (Hf : fresh [] (rsignature "" a)) by (intros it n []).
  destruct (rnew limit p _ [] _ "" a I0 Hf) as (st' & E & T & Hc & F1 & F2). cbn [rs_store] in *.
  unfold rbegin. rewrite E. eexists. split; [reflexivity|]. change [rsignature "" a] with ([] ++ [rsignature "" a])%list.
  apply (rinvariant_new limit _ [("", a)] [] _ _ _ I0); cbn [rs_store rs_builders rs_writers]; try reflexivity; try exact Hf; try exact T; try exact Hc.
  rewrite rsignature_item. apply rholding_bytes; try assumption; [constructor|unfold zlen; cbn; lia].
Qed.
