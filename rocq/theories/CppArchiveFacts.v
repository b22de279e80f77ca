(** Opening archives in C++. *)
From Coq Require Import List ZArith Bool Lia String.
From Coq Require Import ZifyBool ZifyNat.
From Verif Require Import PyBase Spec DataAccess Structure StructSpec BitFacts DataAccessFacts DataAccessThms StructFacts
  SliceFacts Resources Builder Archive ArchiveSpec ResourceFacts BuilderFacts ArchiveFacts Codecs CodecSpec CodecFacts CodecThms
  Streams StoreSpec StoreFacts CppStore CppFacts CppArchive CppArchiveSpec.
Import ListNotations.
Local Open Scope string_scope.
Local Open Scope Z_scope.

(** What is remembered is what is in the files. *)
Definition coherent (p : policy) (st : store) : Prop :=
  forall n d, dict_get (st_cache st) n = Some d -> file_of st n = Some d /\ p_null_empty p && (zlen d =? 0) = false.
Definition sane (st : store) : Prop := forall n f, file_of st n = Some f -> is_bytes f /\ zlen f < 2 ^ 64.
Definition seen (p : policy) (F : string -> option (list Z)) (n : string) : option (list Z) :=
  match F n with Some d => if p_null_empty p && (zlen d =? 0) then None else Some d | None => None end.

Lemma dict_get_app {A} (l : list (string * A)) k x n :
  dict_get (l ++ [(k, x)]) n = match dict_get l n with Some y => Some y | None => if String.eqb k n then Some x else None end.
Proof. induction l as [|[k' y] t IH]; cbn; [reflexivity|]. destruct (String.eqb k' n); auto. Qed.

Lemma read_coherent p st n : sound st -> coherent p st ->
  let st' := fst (read_resource p st n) in
  snd (read_resource p st n) = seen p (file_of st) n /\ sound st' /\ coherent p st' /\ forall m, file_of st' m = file_of st m.
Proof.
  intros Hs Hc. destruct (read_store p st n Hs) as (S1 & F1 & _ & _ & C1). split; [|split; [assumption|split; [|assumption]]].
  - destruct (dict_get (st_cache st) n) as [d|] eqn:E; [|now apply read_value].
    destruct (Hc n d E) as [Hf He]. unfold read_resource. rewrite E. cbn [snd]. unfold seen. now rewrite Hf, He.
  - unfold read_resource in *. intros m d. destruct (dict_get (st_cache st) n) as [d0|] eqn:E; [exact (Hc m d)|].
    destruct (dict_get (st_names st) n) as [i|] eqn:Ei; [|exact (Hc m d)].
    destruct (nth_error (st_heap st) i) as [s|] eqn:En.
    2: { exfalso. destruct Hs as (_ & _ & Hb). apply dict_get_in in Ei. rewrite Forall_forall in Hb. specialize (Hb _ Ei). cbn in Hb.
         apply nth_error_None in En. lia. }
    destruct (p_null_empty p && (zlen (os_bytes s) =? 0)) eqn:Ez; cbn [fst]; [exact (Hc m d)|]. cbn [st_cache]. rewrite dict_get_app.
    change (file_of (Store (st_heap st) (st_names st) (st_cache st ++ [(n, os_bytes s)])) m) with (file_of st m).
    destruct (dict_get (st_cache st) m) as [y|] eqn:Em.
    + intros H. injection H as <-. now apply Hc.
    + destruct (String.eqb_spec n m) as [->|]; [|discriminate]. intros H. injection H as <-. split; [|assumption].
      unfold file_of. rewrite Ei, En. reflexivity.
Qed.

(** The result of reading as a function of the files *)
Definition checked (p : policy) (F : string -> option (list Z)) (name : string) (expected : list Z) : option desc :=
  match seen p F name, seen p F (schema_file name) with
  | Some data, Some schema =>
      if zlen data <? 8 + 8 then None else
      match cpp_read 64 false data 0 64 with
      | Some size => if negb ((size + 8 + 8) mod 2 ^ 64 =? zlen data) then None else
                     if negb (eqb_list schema expected) then None else Some (Desc (skipn 8 data) size)
      | None => None
      end
  | _, _ => None
  end.
Lemma cpp_read_coherent p st name schema : sound st -> coherent p st ->
  let st' := fst (cpp_read_resource p st name schema) in
  snd (cpp_read_resource p st name schema) = checked p (file_of st) name schema /\ sound st' /\ coherent p st' /\
  forall m, file_of st' m = file_of st m.
Proof.
  intros Hs Hc. unfold cpp_read_resource. destruct (read_coherent p st name Hs Hc) as (V1 & S1 & C1 & F1).
  destruct (read_resource p st name) as [st1 r1]. cbn [fst snd] in *.
  destruct (read_coherent p st1 (schema_file name) S1 C1) as (V2 & S2 & C2 & F2). unfold schema_file in *.
  destruct (read_resource p st1 (name ++ ".schema")) as [st2 r2]. cbn [fst snd] in *. split; [|split; [assumption|split; [assumption|]]].
  - unfold checked, schema_file. rewrite V1. assert (E : r2 = seen p (file_of st) (name ++ ".schema")) by (rewrite V2; unfold seen; now rewrite F1).
    rewrite E. destruct (seen p (file_of st) name); [|reflexivity]. cbn [obind]. destruct (seen p (file_of st) (name ++ ".schema")); [|reflexivity].
    cbn [obind]. destruct (zlen l <? 8 + 8); [reflexivity|]. destruct (cpp_read 64 false l 0 64); reflexivity.
  - intros m. rewrite F2. apply F1.
Qed.

Definition forget (st : store) : store := Store (st_heap st) (st_names st) [].
Lemma checked_spec p st name schema : sound st -> sane st ->
  forall d, checked p (file_of st) name schema = Some d <->
    exists f data, stored (file_of st) (p_null_empty p) name schema f data /\ d = Desc (skipn 8 f) (zlen data).
Proof.
  intros Hs Hf d. assert (Hc : coherent p (forget st)) by (intros n x; cbn; discriminate).
  assert (Hs' : sound (forget st)) by exact Hs.
  destruct (cpp_read_coherent p (forget st) name schema Hs' Hc) as (V & _).
  change (file_of (forget st)) with (file_of st) in V. rewrite <- V.
  rewrite (cpp_read_facts p (forget st) name schema Hs' eq_refl eq_refl (fun f E => Hf name f E) d).
  change (file_of (forget st)) with (file_of st). unfold stored. split.
  - intros (f & data & A & B & C & D & E). exists f, data. auto 6.
  - intros (f & data & (A & B & C & D) & E). exists f, data. auto 6.
Qed.
Lemma checked_none p st name schema : sound st -> sane st ->
  (checked p (file_of st) name schema <> None <-> exists f data, stored (file_of st) (p_null_empty p) name schema f data).
Proof.
  intros Hs Hf. split.
  - destruct (checked p (file_of st) name schema) as [d|] eqn:E; [|congruence]. intros _.
    apply (checked_spec p st name schema Hs Hf) in E. destruct E as (f & data & H & _). eauto.
  - intros (f & data & H) E. assert (E' : checked p (file_of st) name schema = Some (Desc (skipn 8 f) (zlen data)))
      by (apply checked_spec; eauto). congruence.
Qed.
Lemma stored_size p st name schema f data f' data' : sane st ->
  stored (file_of st) p name schema f data -> stored (file_of st) p name schema f' data' -> f = f' /\ zlen data = zlen data'.
Proof.
  intros Hf (A & B & _) (A' & B' & _). assert (f = f') by congruence. subst f'. split; [reflexivity|].
  destruct (Hf name f A) as [_ Hl].
  assert (Hd : forall d, holds_resource f d -> zlen d < 2 ^ 64) by (intros d (pad & _ & ->); unfold zlen in *; rewrite !app_length in Hl; lia).
  destruct (holds_header f data B (Hd _ B)) as (_ & E & _). destruct (holds_header f data' B' (Hd _ B')) as (_ & E' & _). lia.
Qed.

(** ** One resource *)
Definition value_of (p : policy) (F : string -> option (list Z)) (k : ckind) (name : string) (schema : list Z) : option cvalue :=
  match k with
  | KInst _ => option_map (fun d => VInst (d_mem d)) (checked p F name schema)
  | KVec t => option_map (fun d => VVec (av_create t (d_mem d) (d_size d))) (checked p F name schema)
  | KMulti w _ => match checked p F (index_name name) (index_schema schema), checked p F name schema with
                  | Some i, Some d => Some (VMulti (MAView (av_create (index_type w) (d_mem i) (d_size i)) (d_mem d)))
                  | _, _ => None
                  end
  | KRaw => option_map VRaw (checked p F name schema)
  end.
Definition same_files (F G : string -> option (list Z)) : Prop := forall n, F n = G n.
Lemma checked_ext p F G name schema : same_files F G -> checked p F name schema = checked p G name schema.
Proof. intros H. unfold checked, seen. now rewrite !H. Qed.
Lemma value_of_ext p F G k name schema : same_files F G -> value_of p F k name schema = value_of p G k name schema.
Proof. intros H. unfold value_of. rewrite !(checked_ext p F G) by assumption. reflexivity. Qed.

Lemma read_value_coherent p k st name schema : sound st -> coherent p st ->
  let st' := fst (cpp_read_value p k st name schema) in
  snd (cpp_read_value p k st name schema) = value_of p (file_of st) k name schema /\ sound st' /\ coherent p st' /\
  same_files (file_of st') (file_of st).
Proof.
  intros Hs Hc. destruct (cpp_read_coherent p st name schema Hs Hc) as (V & S & C & F).
  destruct k as [n|t|w ts|]; unfold cpp_read_value, value_of.
  - destruct (cpp_read_resource p st name schema) as [st1 d]. cbn [fst snd] in *. rewrite <- V. split; [now destruct d|]. split; [assumption|]. split; [assumption|exact F].
  - destruct (cpp_read_resource p st name schema) as [st1 d]. cbn [fst snd] in *. rewrite <- V. split; [now destruct d|]. split; [assumption|]. split; [assumption|exact F].
  - clear V S C F. unfold cpp_read_multi. fold (index_name name). fold (index_schema schema).
    destruct (cpp_read_coherent p st (index_name name) (index_schema schema) Hs Hc) as (V1 & S1 & C1 & F1).
    destruct (cpp_read_resource p st (index_name name) (index_schema schema)) as [st1 i]. cbn [fst snd] in *.
    destruct (cpp_read_coherent p st1 name schema S1 C1) as (V2 & S2 & C2 & F2).
    destruct (cpp_read_resource p st1 name schema) as [st2 d]. cbn [fst snd] in *.
    rewrite <- V1. rewrite (checked_ext p _ (file_of st)) in V2 by exact F1. rewrite <- V2.
    split; [now destruct i, d|]. split; [assumption|]. split; [assumption|]. intros n. now rewrite F2, F1.
  - destruct (cpp_read_resource p st name schema) as [st1 d]. cbn [fst snd] in *. rewrite <- V. split; [now destruct d|]. split; [assumption|]. split; [assumption|exact F].
Qed.

Lemma value_spec p st k name schema : sound st -> sane st ->
  forall v, value_of p (file_of st) k name schema = Some v <-> shows_value (file_of st) (p_null_empty p) name schema k v.
Proof.
  intros Hs Hf v. assert (Hb : forall A (g : desc -> A) x, option_map g (checked p (file_of st) name schema) = Some x <->
            exists f data, stored (file_of st) (p_null_empty p) name schema f data /\ x = g (Desc (skipn 8 f) (zlen data))).
  { intros A g x. split.
    - destruct (checked p (file_of st) name schema) as [d|] eqn:E; [|discriminate]. cbn. intros H. injection H as <-.
      apply checked_spec in E; auto. destruct E as (f & data & H & ->). eauto.
    - intros (f & data & H & ->). assert (E : checked p (file_of st) name schema = Some (Desc (skipn 8 f) (zlen data))) by (apply checked_spec; eauto).
      now rewrite E. }
  destruct k as [n|t|w ts|]; unfold value_of, shows_value; [apply Hb|apply Hb| |apply Hb].
  split.
  - destruct (checked p (file_of st) (index_name name) (index_schema schema)) as [i|] eqn:Ei; [|discriminate].
    destruct (checked p (file_of st) name schema) as [d|] eqn:Ed; [|discriminate]. intros H. injection H as <-.
    apply checked_spec in Ei; auto. apply checked_spec in Ed; auto. destruct Ei as (fi & di & Hi & ->). destruct Ed as (f & data & Hd & ->).
    exists f, data, fi, di. auto.
  - intros (f & data & fi & di & Hd & Hi & ->).
    assert (Ei : checked p (file_of st) (index_name name) (index_schema schema) = Some (Desc (skipn 8 fi) (zlen di))) by (apply checked_spec; eauto).
    assert (Ed : checked p (file_of st) name schema = Some (Desc (skipn 8 f) (zlen data))) by (apply checked_spec; eauto).
    now rewrite Ei, Ed.
Qed.

(** ** Members *)
Definition member_ok (p : policy) (F : string -> option (list Z)) (path : string) (r : cres) : bool :=
  let v := value_of p F (c_kind r) (path ++ c_name r) (c_schema r) in
  (c_optional r || match v with Some _ => true | None => false end) &&
  match c_max r, v with Some m, Some v => value_size v <=? m | _, _ => true end.

Lemma load_members_facts p path rs : forall st open, sound st -> coherent p st ->
  exists st' members, load_members p path rs st open = (st', members, open && forallb (member_ok p (file_of st) path) rs) /\
    members = map (fun r => (c_name r, value_of p (file_of st) (c_kind r) (path ++ c_name r) (c_schema r))) rs /\
    sound st' /\ coherent p st' /\ same_files (file_of st') (file_of st).
Proof.
  induction rs as [|r rs IH]; intros st open Hs Hc; cbn [load_members].
  - exists st, []. rewrite andb_true_r. split; [reflexivity|]. split; [reflexivity|]. split; [assumption|]. split; [assumption|]. intros n. reflexivity.
  - unfold load_one. destruct (read_value_coherent p (c_kind r) st (path ++ c_name r) (c_schema r) Hs Hc) as (V & S1 & C1 & F1).
    destruct (cpp_read_value p (c_kind r) st (path ++ c_name r) (c_schema r)) as [st1 v]. cbn [fst snd] in *.
    set (o := match c_max r with None => _ | Some m => _ end).
    assert (Eo : o = open && member_ok p (file_of st) path r).
    { unfold o, member_ok. rewrite <- V. clear. destruct (c_max r), v, (c_optional r), open; cbn; rewrite ?andb_true_r, ?andb_false_r; auto. }
    destruct (IH st1 o S1 C1) as (st2 & ms & E & Em & S2 & C2 & F2). rewrite E.
    exists st2, ((c_name r, v) :: ms). split; [|split; [|split; [assumption|split; [assumption|intros n; now rewrite F2, F1]]]].
    + f_equal. rewrite Eo. cbn [forallb]. rewrite andb_assoc. f_equal. clear -F1. induction rs as [|x rs IH]; [reflexivity|]. cbn [forallb]. rewrite IH. f_equal.
      unfold member_ok. now rewrite (value_of_ext p _ _ _ _ _ F1).
    + cbn [map]. rewrite V, Em. f_equal. apply map_ext. intros x. f_equal. now apply value_of_ext.
Qed.

(** ** Archives *)
Fixpoint carch_ind' (P : carch -> Prop) (H : forall name schema rs subs, Forall (fun s => P (snd (snd s))) subs -> P (CArch name schema rs subs)) (a : carch) : P a :=
  match a with
  | CArch name schema rs subs =>
      H name schema rs subs ((fix go (l : list (string * (bool * carch))) : Forall (fun s => P (snd (snd s))) l :=
                                match l with [] => Forall_nil _ | s :: t => Forall_cons s (carch_ind' P H (snd (snd s))) (go t) end) subs)
  end.

(** the inner loop of [cpp_open] *)
Fixpoint load_archives (p : policy) (dirs : list string) (path : string) (subs : list (string * (bool * carch))) (st : store) (open : bool)
  : store * list (string * option carchive) * bool :=
  match subs with
  | [] => (st, [], open)
  | (n, (optional, sub)) :: subs =>
      let (st, v) := if has_directory dirs (path ++ n ++ "/")
                     then let (st, r) := cpp_open p dirs sub st (path ++ n ++ "/") in (st, if is_open r then Some r else None)
                     else (st, None) in
      let open := match v with Some _ => open | None => if optional then open else false end in
      let '(st, vs, open) := load_archives p dirs path subs st open in (st, (n, v) :: vs, open)
  end.
Lemma cpp_open_eq p dirs name schema rs subs st path :
  cpp_open p dirs (CArch name schema rs subs) st path =
  let (st, sig) := cpp_read_resource p st (path ++ signature_name name) schema in
  let signed := match sig with Some _ => true | None => false end in
  let '(st, members, open) := load_members p path rs st true in
  let '(st, archives, open) := load_archives p dirs path subs st open in
  (st, COpened signed (open && signed) members archives).
Proof.
  cbn [cpp_open]. destruct (cpp_read_resource p st (path ++ signature_name name) schema) as [st1 sig].
  destruct (load_members p path rs st1 true) as [[st2 members] open].
  assert (E : forall subs st open, (fix go (subs : list (string * (bool * carch))) (st : store) (open : bool) : store * list (string * option carchive) * bool :=
           match subs with
           | [] => (st, [], open)
           | (n, (optional, sub)) :: subs =>
               let (st, v) := if has_directory dirs (path ++ n ++ "/")
                              then let (st, r) := cpp_open p dirs sub st (path ++ n ++ "/") in (st, if is_open r then Some r else None)
                              else (st, None) in
               let open := match v with Some _ => open | None => if optional then open else false end in
               let '(st, vs, open) := go subs st open in (st, (n, v) :: vs, open)
           end) subs st open = load_archives p dirs path subs st open).
  { clear. induction subs as [|[n [o a]] subs IH]; intros st open; cbn [load_archives]; [reflexivity|].
    destruct (if has_directory dirs (path ++ n ++ "/") then _ else _) as [st1 v]. now rewrite IH. }
  now rewrite E.
Qed.

Lemma has_directory_spec dirs path : has_directory dirs path = true <-> In path dirs.
Proof.
  unfold has_directory. rewrite existsb_exists. split.
  - intros (x & Hx & E). apply String.eqb_eq in E. now subst.
  - intros H. exists path. split; [assumption|]. apply String.eqb_refl.
Qed.

Lemma shows_value_ext F G b name schema k v : same_files F G -> shows_value F b name schema k v -> shows_value G b name schema k v.
Proof.
  intros H. unfold shows_value, stored. destruct k; rewrite ?H; auto.
Qed.
Lemma opens_ext F G dirs b : same_files F G -> forall a path, opens F dirs b path a -> opens G dirs b path a.
Proof.
  intros HFG. assert (HGF : same_files G F) by (intros n; now rewrite HFG).
  induction a as [name schema rs subs IH] using carch_ind'. intros path H. inversion H as [? ? ? ? ? H1 H2 H3 H4]; subst. constructor.
  - destruct H1 as (f & data & H1). exists f, data. unfold stored in *. now rewrite <- !HFG.
  - intros r Hr Ho. destruct (H2 r Hr Ho) as [v Hv]. exists v. now apply (shows_value_ext F G).
  - intros r v m Hr Hv. apply H3; auto. now apply (shows_value_ext G F).
  - intros n a Hin. destruct (H4 n a Hin) as [Hd Ha]. split; [assumption|]. rewrite Forall_forall in IH. apply (IH _ Hin). exact Ha.
Qed.
Lemma shows_ext F G dirs b : same_files F G -> forall a path x, shows F dirs b path a x -> shows G dirs b path a x.
Proof.
  intros HFG. assert (HGF : same_files G F) by (intros n; now rewrite HFG).
  induction a as [name schema rs subs IH] using carch_ind'. intros path x H. inversion H as [? ? ? ? ? signed open ms ars H1 H2 H3 H4 H5 H6]; subst. constructor.
  - rewrite H1. split; intros (f & data & Hs); exists f, data; unfold stored in *; [now rewrite <- !HFG|now rewrite !HFG].
  - rewrite H2. split; apply opens_ext; assumption.
  - clear - H3 HFG HGF. induction H3 as [|r m rs ms [E H] _ IH]; constructor; auto. split; [assumption|]. intros v. rewrite H.
    split; apply shows_value_ext; assumption.
  - assumption.
  - intros i n o a y Hs Ha. destruct (H5 i n o a y Hs Ha) as (A & B & C). split; [assumption|]. split; [now apply (opens_ext F G)|].
    rewrite Forall_forall in IH. apply (IH (n, (o, a))); [now apply nth_error_In in Hs|assumption].
  - intros i n o a Hs Ha [A B]. apply (H6 i n o a Hs Ha). split; [assumption|]. now apply (opens_ext G F).
Qed.

Lemma sane_ext st st' : same_files (file_of st') (file_of st) -> sane st -> sane st'.
Proof. intros H Hs n f. rewrite H. apply Hs. Qed.

Lemma member_ok_spec p st path r : sound st -> sane st ->
  (member_ok p (file_of st) path r = true <->
   (c_optional r = false -> exists v, shows_value (file_of st) (p_null_empty p) (path ++ c_name r) (c_schema r) (c_kind r) v) /\
   (forall v m, shows_value (file_of st) (p_null_empty p) (path ++ c_name r) (c_schema r) (c_kind r) v -> c_max r = Some m -> value_size v <= m)).
Proof.
  intros Hs Hf. pose proof (value_spec p st (c_kind r) (path ++ c_name r) (c_schema r) Hs Hf) as Hv. unfold member_ok.
  destruct (value_of p (file_of st) (c_kind r) (path ++ c_name r) (c_schema r)) as [v|].
  - rewrite orb_true_r. cbn [andb]. split.
    + intros H. split; [intros _; exists v; now apply Hv|]. intros v' m Hv' Em. apply Hv in Hv'. injection Hv' as <-. rewrite Em in H. lia.
    + intros [_ H]. destruct (c_max r) as [m|]; [|reflexivity]. specialize (H v m (proj1 (Hv v) eq_refl) eq_refl). lia.
  - rewrite orb_false_r. assert (Hn : forall v, ~ shows_value (file_of st) (p_null_empty p) (path ++ c_name r) (c_schema r) (c_kind r) v)
      by (intros v Hx; apply Hv in Hx; discriminate).
    destruct (c_optional r); cbn [andb].
    + split; [intros _; split; [discriminate|intros v m Hx; now apply Hn in Hx]|]. intros _. now destruct (c_max r).
    + split; [discriminate|]. intros [H _]. destruct (H eq_refl) as [v Hx]. now apply Hn in Hx.
Qed.

Theorem cpp_open_shows p dirs : forall a st path, sound st -> coherent p st -> sane st ->
  let st' := fst (cpp_open p dirs a st path) in
  shows (file_of st) dirs (p_null_empty p) path a (snd (cpp_open p dirs a st path)) /\
  sound st' /\ coherent p st' /\ same_files (file_of st') (file_of st).
Proof.
  induction a as [name schema rs subs IH] using carch_ind'. intros st path Hs Hc Hf. rewrite cpp_open_eq.
  destruct (cpp_read_coherent p st (path ++ signature_name name) schema Hs Hc) as (V1 & S1 & C1 & F1).
  destruct (cpp_read_resource p st (path ++ signature_name name) schema) as [st1 sig]. cbn [fst snd] in *.
  destruct (load_members_facts p path rs st1 true S1 C1) as (st2 & members & E2 & Em & S2 & C2 & F2). rewrite E2. cbn [andb].
  set (ok := forallb (member_ok p (file_of st1) path) rs).
  assert (Hok : ok = true <-> (forall r, In r rs -> member_ok p (file_of st) path r = true)).
  { unfold ok. rewrite forallb_forall. split; intros H r Hr; specialize (H r Hr); revert H; unfold member_ok; now rewrite (value_of_ext p _ _ _ _ _ F1). }
  assert (F20 : same_files (file_of st2) (file_of st)) by (intros n; now rewrite F2, F1).
  assert (Hsubs : forall subs st2 open, Forall (fun s => forall st path, sound st -> coherent p st -> sane st ->
             let st' := fst (cpp_open p dirs (snd (snd s)) st path) in
             shows (file_of st) dirs (p_null_empty p) path (snd (snd s)) (snd (cpp_open p dirs (snd (snd s)) st path)) /\
             sound st' /\ coherent p st' /\ same_files (file_of st') (file_of st)) subs ->
           sound st2 -> coherent p st2 -> same_files (file_of st2) (file_of st) ->
           exists st3 archives ok', load_archives p dirs path subs st2 open = (st3, archives, open && ok') /\
             (ok' = true <-> forall n a, In (n, (false, a)) subs -> In (path ++ n ++ "/") dirs /\ opens (file_of st) dirs (p_null_empty p) (path ++ n ++ "/") a) /\
             Forall2 (fun s m => fst m = fst s) subs archives /\
             (forall i n o a x, nth_error subs i = Some (n, (o, a)) -> nth_error archives i = Some (n, Some x) ->
               In (path ++ n ++ "/") dirs /\ opens (file_of st) dirs (p_null_empty p) (path ++ n ++ "/") a /\ shows (file_of st) dirs (p_null_empty p) (path ++ n ++ "/") a x) /\
             (forall i n o a, nth_error subs i = Some (n, (o, a)) -> nth_error archives i = Some (n, None) ->
               ~ (In (path ++ n ++ "/") dirs /\ opens (file_of st) dirs (p_null_empty p) (path ++ n ++ "/") a)) /\
             sound st3 /\ coherent p st3 /\ same_files (file_of st3) (file_of st)).
  { clear - Hf. induction subs as [|[n [o a]] subs IH]; intros st2 open Hi S2 C2 F2; cbn [load_archives].
    - exists st2, [], true. rewrite andb_true_r. split; [reflexivity|]. split; [split; [intros _ n a []|reflexivity]|]. split; [constructor|].
      split; [intros [|i]; discriminate|]. split; [intros [|i]; discriminate|]. auto.
    - inversion Hi as [|? ? Ha Hrest]; subst. cbn [fst snd] in Ha.
      assert (Hone : exists st3 v, (if has_directory dirs (path ++ n ++ "/")
                     then let (st, r) := cpp_open p dirs a st2 (path ++ n ++ "/") in (st, if is_open r then Some r else None)
                     else (st2, None)) = (st3, v) /\ sound st3 /\ coherent p st3 /\ same_files (file_of st3) (file_of st) /\
                match v with
                | Some x => In (path ++ n ++ "/") dirs /\ opens (file_of st) dirs (p_null_empty p) (path ++ n ++ "/") a /\ shows (file_of st) dirs (p_null_empty p) (path ++ n ++ "/") a x
                | None => ~ (In (path ++ n ++ "/") dirs /\ opens (file_of st) dirs (p_null_empty p) (path ++ n ++ "/") a)
                end).
      { destruct (has_directory dirs (path ++ n ++ "/")) eqn:Ed.
        - apply has_directory_spec in Ed. destruct (Ha st2 (path ++ n ++ "/") S2 C2 (sane_ext _ _ F2 Hf)) as (Hsh & S3 & C3 & F3).
          destruct (cpp_open p dirs a st2 (path ++ n ++ "/")) as [st3 r]. cbn [fst snd] in *.
          exists st3, (if is_open r then Some r else None). split; [reflexivity|]. split; [assumption|]. split; [assumption|].
          split; [intros m; now rewrite F3, F2|].
          apply (shows_ext _ (file_of st) dirs (p_null_empty p) F2) in Hsh.
          destruct r as [sg op ms ars]. cbn [is_open]. destruct op.
          + split; [assumption|]. split; [|assumption]. inversion Hsh as [? ? ? ? ? ? ? ? ? ? Hop]; subst. now apply Hop.
          + intros [_ Ho]. inversion Hsh as [? ? ? ? ? ? ? ? ? ? Hop]; subst. apply Hop in Ho. discriminate.
        - exists st2, None. split; [reflexivity|]. split; [assumption|]. split; [assumption|]. split; [assumption|]. intros [Hd _].
          apply has_directory_spec in Hd. congruence. }
      destruct Hone as (st3 & v & Ev & S3 & C3 & F3 & Hv). rewrite Ev.
      set (open' := match v with Some _ => open | None => if o then open else false end).
      destruct (IH st3 open' Hrest S3 C3 F3) as (st4 & ars & ok' & E4 & Hok & Hn & Hx & Hy & S4 & C4 & F4). rewrite E4.
      exists st4, ((n, v) :: ars), ((match v with Some _ => true | None => o end) && ok'). split; [|split; [|split; [|split; [|split; [|auto]]]]].
      + f_equal. unfold open'. destruct v, o, open; reflexivity.
      + rewrite andb_true_iff, Hok. split.
        * intros [H1 H2] n' a' [E|Hin]; [|now apply H2]. injection E as -> -> ->. destruct v as [x|]; [tauto|discriminate].
        * intros H. split; [|intros n' a' Hin; apply H; now right]. destruct v as [x|]; [reflexivity|]. destruct o; [reflexivity|].
          elim Hv. apply H. now left.
      + constructor; [reflexivity|assumption].
      + intros [|i] n' o' a' x; cbn [nth_error]; [|apply Hx]. intros E1 E2. injection E1 as -> -> ->. injection E2 as ->. exact Hv.
      + intros [|i] n' o' a'; cbn [nth_error]; [|apply Hy]. intros E1 E2. injection E1 as -> -> ->. injection E2 as ->. exact Hv. }
  destruct (Hsubs subs st2 ok IH S2 C2 F20) as (st3 & archives & ok' & E3 & Hok' & Hn & Hx & Hy & S3 & C3 & F3). rewrite E3. cbn [fst snd].
  split; [|auto].
  assert (Hsig : (match sig with Some _ => true | None => false end) = true <-> exists f data, stored (file_of st) (p_null_empty p) (path ++ name ++ ".archive") schema f data).
  { pose proof (checked_none p st (path ++ signature_name name) schema Hs Hf) as Hcn. rewrite <- V1 in Hcn. unfold signature_name in *.
    rewrite <- Hcn. destruct sig; split; congruence. }
  constructor; [assumption| | |assumption|assumption|assumption].
  - rewrite !andb_true_iff, Hok, Hok', Hsig. split.
    + intros [[H1 H2] H3]. constructor; auto.
      * intros r Hr Ho. now apply (proj1 (member_ok_spec p st path r Hs Hf) (H1 r Hr)).
      * intros r v m Hr. now apply (proj1 (member_ok_spec p st path r Hs Hf) (H1 r Hr)).
    + intros H. inversion H as [? ? ? ? ? H1 H2 H3 H4]; subst. split; [|assumption]. split; [|assumption].
      intros r Hr. apply (member_ok_spec p st path r Hs Hf). split; [now apply H2|]. intros v m. now apply H3.
  - rewrite Em. clear - Hs Hf F1. induction rs as [|r rs IH]; cbn [map]; constructor; [|assumption]. cbn [fst snd]. split; [reflexivity|].
    intros v. rewrite (value_of_ext p _ _ _ _ _ F1). now apply value_spec.
Qed.
