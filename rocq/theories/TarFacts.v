(** Proofs about the tar storage. *)
From Coq Require Import List ZArith Bool String Ascii Lia Permutation.
From Verif Require Import PyBase DataAccess Structure Resources Builder Archive ArchiveSpec OpenSpec TarSpec BuilderFacts
  ArchiveFacts.
Import ListNotations.
Local Open Scope string_scope.
Local Open Scope list_scope.

(** ** strings *)
Lemma app_nil_s s : (s ++ "")%string = s.
Proof. induction s as [|c t IH]; cbn; [reflexivity|]. now rewrite IH. Qed.
Lemma app_assoc_s a b c : ((a ++ b) ++ c)%string = (a ++ (b ++ c))%string.
Proof. induction a as [|x t IH]; cbn; [reflexivity|]. now rewrite IH. Qed.
Lemma app_inj_l a b c : (a ++ b)%string = (a ++ c)%string -> b = c.
Proof. induction a as [|x t IH]; cbn; [auto|]. intros H. inversion H. auto. Qed.
Lemma slash_app a b : has_slash (a ++ b) = has_slash a || has_slash b.
Proof. induction a as [|x t IH]; cbn [append has_slash]; [reflexivity|]. rewrite IH. now rewrite orb_assoc. Qed.

Lemma split_slash a b x y : has_slash a = false -> has_slash b = false ->
  (a ++ "/" ++ x)%string = (b ++ "/" ++ y)%string -> a = b /\ x = y.
Proof.
  revert b. induction a as [|c a IH]; intros b Ha Hb H; destruct b as [|d b]; cbn [append] in H.
  - inversion H; auto.
  - inversion H; subst. cbn [has_slash] in Hb. rewrite Ascii.eqb_refl in Hb. discriminate.
  - inversion H; subst. cbn [has_slash] in Ha. rewrite Ascii.eqb_refl in Ha. discriminate.
  - inversion H; subst. cbn [has_slash] in Ha, Hb. apply orb_false_iff in Ha, Hb.
    destruct (IH b) as [-> ->]; tauto.
Qed.

Lemma join_cons c t : t <> [] -> join (c :: t) = (c ++ "/" ++ join t)%string.
Proof. destruct t; [congruence|reflexivity]. Qed.
Lemma join_snoc cs k : cs <> [] -> join (cs ++ [k]) = (join cs ++ "/" ++ k)%string.
Proof.
  induction cs as [|c t IH]; [congruence|]. intros _. destruct t as [|d t]; [reflexivity|].
  change ((c :: d :: t) ++ [k]) with (c :: (d :: t) ++ [k]).
  rewrite !join_cons by (try discriminate; destruct t; discriminate). rewrite IH by discriminate.
  now rewrite !app_assoc_s.
Qed.
Lemma join_ne cs : cs <> [] -> Forall good cs -> join cs <> "".
Proof.
  intros H G. destruct cs as [|c t]; [congruence|]. inversion G as [|? ? (G1 & _) _]; subst.
  destruct t; cbn [join]; [assumption|]. destruct c; [congruence|discriminate].
Qed.
Lemma join_inj : forall cs ds, Forall good cs -> Forall good ds -> cs <> [] -> ds <> [] -> join cs = join ds -> cs = ds.
Proof.
  induction cs as [|c t IH]; intros ds Hc Hd Nc Nd H; [congruence|]. destruct ds as [|d u]; [congruence|].
  inversion Hc as [|? ? (C1 & C2 & C3) Hc']; subst. inversion Hd as [|? ? (D1 & D2 & D3) Hd']; subst.
  destruct t as [|c2 t]; destruct u as [|d2 u].
  - cbn in H. now subst.
  - rewrite (join_cons d) in H by discriminate. cbn [join] in H. rewrite H, !slash_app in C2. cbn in C2.
    rewrite orb_true_r in C2. discriminate.
  - rewrite (join_cons c) in H by discriminate. cbn [join] in H. rewrite <- H, !slash_app in D2. cbn in D2.
    rewrite orb_true_r in D2. discriminate.
  - rewrite !join_cons in H by discriminate. apply split_slash in H; [|assumption|assumption]. destruct H as [-> H].
    f_equal. apply IH; try assumption; try discriminate.
Qed.

(** ** "./" *)
Lemma drop2 n : drop 2 ("./" ++ n) = n.
Proof.
  unfold drop. cbn [append String.length]. replace (S (S (String.length n)) - 2)%nat with (String.length n) by lia.
  cbn [substring]. induction n as [|c t IH]; [reflexivity|]. cbn [String.length substring]. now rewrite IH.
Qed.
Lemma prefix_dot n : starts_with "./" ("./" ++ n) = true.
Proof. unfold starts_with. cbn. destruct n; reflexivity. Qed.
Lemma starts_inv n : starts_with "./" n = true -> exists m, n = ("./" ++ m)%string.
Proof.
  unfold starts_with. destruct n as [|c n]; [discriminate|]. cbn [String.prefix].
  destruct (ascii_dec "." c) as [<-|]; [|discriminate]. destruct n as [|d n]; cbn [String.prefix]; [discriminate|].
  destruct (ascii_dec "/" d) as [<-|]; [|discriminate]. intros _. exists n. reflexivity.
Qed.
Lemma strip_plain cs : cs <> [] -> Forall good cs -> strip_dot (join cs) = join cs.
Proof.
  intros Hne G. unfold strip_dot. destruct (starts_with "./" (join cs)) eqn:E; [|reflexivity]. exfalso.
  apply starts_inv in E. destruct E as (m & E). destruct cs as [|c t]; [congruence|].
  inversion G as [|? ? (G1 & G2 & G3) _]; subst. destruct t as [|d t].
  - cbn [join] in E. rewrite E in G2. cbn in G2. discriminate.
  - rewrite join_cons in E by discriminate. change ("./" ++ m)%string with ("." ++ "/" ++ m)%string in E.
    apply split_slash in E; [|assumption|reflexivity]. tauto.
Qed.
Lemma strip_dotted n : strip_dot ("./" ++ n) = n.
Proof. unfold strip_dot. now rewrite prefix_dot, drop2. Qed.
Lemma join_not_dot cs : cs <> [] -> Forall good cs -> join cs <> ".".
Proof.
  intros Hne G E. destruct cs as [|c t]; [congruence|]. inversion G as [|? ? (G1 & G2 & G3) _]; subst.
  destruct t as [|d t]; [cbn in E; tauto|]. rewrite join_cons in E by discriminate.
  assert (X : has_slash (c ++ "/" ++ join (d :: t)) = true) by (rewrite !slash_app; cbn; now rewrite orb_true_r).
  rewrite E in X. discriminate.
Qed.

(** ** reading the members *)
Lemma dict_put_get {A} (d : list (string * A)) k x k' : dict_get (dict_put d k x) k' = if String.eqb k k' then Some x else dict_get d k'.
Proof.
  induction d as [|[j y] t IH]; cbn [dict_put dict_get]; [reflexivity|].
  destruct (String.eqb j k) eqn:E; cbn [dict_get].
  - apply String.eqb_eq in E. subst j. destruct (String.eqb k k'); reflexivity.
  - destruct (String.eqb j k') eqn:E2; [|exact IH]. apply String.eqb_eq in E2. subst j. now rewrite String.eqb_sym, E.
Qed.
Lemma dict_put_keys {A} (d : list (string * A)) k x : NoDup (map fst d) -> NoDup (map fst (dict_put d k x)).
Proof.
  induction d as [|[j y] t IH]; cbn [dict_put map fst]; intros H; [repeat constructor; intros []|].
  inversion H as [|? ? H1 H2]; subst. destruct (String.eqb j k) eqn:E; cbn [map fst]; [now constructor|].
  constructor; [|auto]. intros Hin. apply H1. clear -Hin E. induction t as [|[i z] t IH]; cbn [dict_put map fst] in *.
  - destruct Hin as [->|[]]. rewrite String.eqb_refl in E. discriminate.
  - destruct (String.eqb i k); cbn [map fst] in *; [assumption|]. destruct Hin as [->|Hin]; [now left|right; auto].
Qed.

Definition no_sparse (t : tarfile) : Prop := forall n, ~ In (n, TSparse) t.

Lemma entries_ok t : forall f0 d0, no_sparse t -> NoDup (map fst f0) -> NoDup d0 -> exists f d, tar_entries t f0 d0 = Ok (f, d) /\
  NoDup (map fst f) /\ NoDup d /\
  (forall p m, dict_get f p = Some m -> dict_get f0 p = Some m \/ exists n, In (n, TReg m) t /\ strip_dot n = p) /\
  (forall p, (dict_get f0 p <> None \/ exists n m, In (n, TReg m) t /\ strip_dot n = p) -> dict_get f p <> None) /\
  (forall p, In p d <-> In p d0 \/ exists n, In (n, TDir) t /\ strip_dot n = p /\ p <> ".").
Proof.
  induction t as [|[n0 k] t IH]; intros f0 d0 Hs Hf Hd; cbn [tar_entries].
  - exists f0, d0. split; [reflexivity|]. split; [assumption|]. split; [assumption|]. split; [auto|]. split.
    + intros p [H|(n & m & [] & _)]. assumption.
    + intros p. split; [auto|]. intros [H|(n & [] & _)]. assumption.
  - assert (Hs' : no_sparse t) by (intros n Hin; apply (Hs n); now right).
    destruct k as [m| | |].
    + destruct (IH (dict_put f0 (strip_dot n0) m) d0 Hs' (dict_put_keys _ _ _ Hf) Hd) as (f & d & E & N1 & N2 & H1 & H2 & H3).
      exists f, d. split; [exact E|]. split; [exact N1|]. split; [exact N2|]. split; [|split].
      * intros p m' Hp. destruct (H1 p m' Hp) as [H|(n & Hin & Hn)].
        -- rewrite dict_put_get in H. destruct (String.eqb (strip_dot n0) p) eqn:Es; [|now left].
           apply String.eqb_eq in Es. inversion H; subst m'. right. exists n0. split; [now left|assumption].
        -- right. exists n. split; [now right|assumption].
      * intros p Hp. apply H2. rewrite dict_put_get. destruct (String.eqb (strip_dot n0) p) eqn:Es; [left; discriminate|].
        destruct Hp as [Hp|(n & m' & [Hin|Hin] & Hn)]; [now left| |right; eauto].
        inversion Hin; subst. rewrite String.eqb_refl in Es. discriminate.
      * intros p. rewrite H3. split; (intros [H|(n & Hin & Hn)]; [now left|right; exists n]); (split; [|assumption]).
        -- now right. -- destruct Hin as [Hin|Hin]; [discriminate|assumption].
    + set (n := strip_dot n0) in *.
      assert (Main : forall d1, NoDup d1 -> (forall p, In p d1 <-> In p d0 \/ (p = n /\ p <> ".")) ->
        exists f d, tar_entries t f0 d1 = Ok (f, d) /\ NoDup (map fst f) /\ NoDup d /\
          (forall p m, dict_get f p = Some m -> dict_get f0 p = Some m \/ exists n, In (n, TReg m) ((n0, TDir) :: t) /\ strip_dot n = p) /\
          (forall p, (dict_get f0 p <> None \/ exists n m, In (n, TReg m) ((n0, TDir) :: t) /\ strip_dot n = p) -> dict_get f p <> None) /\
          (forall p, In p d <-> In p d0 \/ exists n, In (n, TDir) ((n0, TDir) :: t) /\ strip_dot n = p /\ p <> ".")).
      { intros d1 Hd1 Hiff. destruct (IH f0 d1 Hs' Hf Hd1) as (f & d & E & N1 & N2 & H1 & H2 & H3).
        exists f, d. split; [exact E|]. split; [exact N1|]. split; [exact N2|]. split; [|split].
        - intros p m Hp. destruct (H1 p m Hp) as [H|(n' & Hin & Hn)]; [now left|right; exists n'; split; [now right|assumption]].
        - intros p Hp. apply H2. destruct Hp as [Hp|(n' & m & [Hin|Hin] & Hn)]; [now left|discriminate|right; eauto].
        - intros p. rewrite H3, Hiff. split.
          + intros [[H|(-> & H)]|(n' & Hin & Hn)]; [now left| |]; right.
            * exists n0. split; [now left|]. split; [reflexivity|assumption].
            * exists n'. split; [now right|assumption].
          + intros [H|(n' & [Hin|Hin] & Hn & Hd')]; [left; now left| |].
            * inversion Hin; subst n'. left. right. split; [symmetry; exact Hn|assumption].
            * right. exists n'. auto. }
      destruct (String.eqb n "." || existsb (String.eqb n) d0) eqn:Eb.
      * apply Main; [assumption|]. intros p. split; [auto|]. intros [H|(-> & H)]; [assumption|].
        apply orb_true_iff in Eb. destruct Eb as [Eb|Eb]; [apply String.eqb_eq in Eb; contradiction|].
        apply existsb_exists in Eb. destruct Eb as (x & Hx & Ex). apply String.eqb_eq in Ex. now subst.
      * apply orb_false_iff in Eb. destruct Eb as [Eb1 Eb2]. apply Main.
        -- apply NoDup_app_remove_r with (l' := []) || idtac.
           apply (Permutation_NoDup (l := n :: d0)); [apply Permutation_cons_append|]. constructor; [|assumption].
           intros Hin. assert (X : existsb (String.eqb n) d0 = true); [|congruence].
           apply existsb_exists. exists n. split; [assumption|apply String.eqb_refl].
        -- intros p. rewrite in_app_iff. cbn [In]. apply String.eqb_neq in Eb1. split.
           ++ intros [H|[<-|[]]]; [now left|right; auto].
           ++ intros [H|(-> & _)]; auto.
    + exfalso. apply (Hs n0). now left.
    + destruct (IH f0 d0 Hs' Hf Hd) as (f & d & E & N1 & N2 & H1 & H2 & H3).
      exists f, d. split; [exact E|]. split; [exact N1|]. split; [exact N2|]. split; [|split].
      * intros p m Hp. destruct (H1 p m Hp) as [H|(n & Hin & Hn)]; [now left|right; exists n; split; [now right|assumption]].
      * intros p Hp. apply H2. destruct Hp as [Hp|(n & m & [Hin|Hin] & Hn)]; [now left|discriminate|right; eauto].
      * intros p. rewrite H3. split; (intros [H|(n & Hin & Hn)]; [now left|right; exists n]); (split; [|assumption]).
        -- now right. -- destruct Hin as [Hin|Hin]; [discriminate|assumption].
Qed.

(** The index of a tar of a tree. *)
Record indexes (es : list (string * fsnode)) (f : list (string * list Z)) (d : list string) : Prop := {
  ix_nf : NoDup (map fst f);
  ix_nd : NoDup d;
  ix_file : forall p m, dict_get f p = Some m <-> exists cs, cs <> [] /\ p = join cs /\ lookup_path es cs = Some (NFile m);
  ix_dir : forall p, In p d <-> exists cs es', cs <> [] /\ p = join cs /\ lookup_path es cs = Some (NDir es') }.

Lemma strip_member cs n : cs <> [] -> Forall good cs -> n = join cs \/ n = ("./" ++ join cs)%string -> strip_dot n = join cs.
Proof. intros Hne G [->| ->]; [now apply strip_plain|apply strip_dotted]. Qed.

Lemma tar_indexes t es : tree_ok es -> packs t es -> exists f d, tar_entries t [] [] = Ok (f, d) /\ indexes es f d.
Proof.
  intros [Hg _] [Hp1 Hp2].
  destruct (entries_ok t [] []) as (f & d & E & N1 & N2 & H1 & H2 & H3).
  - intros n Hin. destruct (Hp1 _ _ Hin) as [[_ H]|(cs & x & _ & _ & _ & H)]; [discriminate|]. destruct x; discriminate.
  - constructor.
  - constructor.
  - exists f, d. split; [exact E|]. constructor; [assumption|assumption| |].
    + assert (Fwd : forall p m, dict_get f p = Some m -> exists cs, cs <> [] /\ p = join cs /\ lookup_path es cs = Some (NFile m)).
      { intros p m Hp. destruct (H1 p m Hp) as [H|(n & Hin & Hn)]; [discriminate|].
        destruct (Hp1 _ _ Hin) as [[_ H]|(cs & x & Hne & Hl & Hnm & Hk)]; [discriminate|].
        exists cs. split; [assumption|]. pose proof (Hg _ _ Hl) as G. rewrite (strip_member cs n Hne G Hnm) in Hn.
        split; [now symmetry|]. destruct x; inversion Hk; now subst. }
      intros p m. split; [apply Fwd|].
      intros (cs & Hne & -> & Hl). pose proof (Hg _ _ Hl) as G.
      destruct (dict_get f (join cs)) as [m'|] eqn:Ef.
      * destruct (Fwd _ _ Ef) as (ds & Dne & Dj & Dl). pose proof (Hg _ _ Dl) as G'.
        assert (cs = ds) by (apply join_inj; assumption). subst ds. congruence.
      * exfalso. apply (H2 (join cs)); [|assumption]. right.
        destruct (Hp2 cs _ Hne Hl) as [Hin|Hin]; cbn [kind_of] in Hin; eexists; exists m; (split; [exact Hin|]); eapply strip_member; eauto.
    + intros p. rewrite H3. split.
      * intros [[]|(n & Hin & Hn & Hd)]. destruct (Hp1 _ _ Hin) as [[-> _]|(cs & x & Hne & Hl & Hnm & Hk)].
        { exfalso. apply Hd. subst p. reflexivity. }
        destruct x as [m|es']; [discriminate|]. exists cs, es'. split; [assumption|]. pose proof (Hg _ _ Hl) as G.
        rewrite (strip_member cs n Hne G Hnm) in Hn. auto.
      * intros (cs & es' & Hne & -> & Hl). right. pose proof (Hg _ _ Hl) as G.
        destruct (Hp2 cs _ Hne Hl) as [Hin|Hin]; cbn [kind_of] in Hin; eexists; (split; [exact Hin|]); (split; [eapply strip_member; eauto|now apply join_not_dot]).
Qed.

(** ** lookups through paths *)
Lemma lookup_nil es : lookup_path es [] = Some (NDir es).
Proof. reflexivity. Qed.
Lemma lookup_snoc cs : forall es es' k, lookup_path es cs = Some (NDir es') -> lookup_path es (cs ++ [k]) = dict_get es' k.
Proof.
  induction cs as [|c t IH]; intros es es' k H; cbn [lookup_path app] in *.
  - inversion H; subst. destruct (dict_get es' k); reflexivity.
  - destruct (dict_get es c) as [x|]; [|discriminate]. destruct t as [|d t]; cbn [app].
    + inversion H; subst. cbn [lookup_path]. destruct (dict_get es' k); reflexivity.
    + destruct x as [m|es2]; [discriminate|]. apply IH. exact H.
Qed.
Lemma lookup_prefix cs : forall es k x, cs <> [] -> lookup_path es (cs ++ [k]) = Some x -> exists es', lookup_path es cs = Some (NDir es').
Proof.
  induction cs as [|c t IH]; intros es k x Hne H; [congruence|]. cbn [lookup_path app] in *.
  destruct (dict_get es c) as [y|]; [|discriminate]. destruct t as [|d t]; cbn [app] in H.
  - destruct y as [m|es2]; [discriminate|]. eauto.
  - destruct y as [m|es2]; [discriminate|]. eapply IH; [discriminate|exact H].
Qed.

Lemma tar_path_join cs k : Forall good cs -> tar_path (join cs) k = join (cs ++ [k]).
Proof.
  intros G. destruct cs as [|c t]; [reflexivity|]. rewrite join_snoc by discriminate.
  unfold tar_path. pose proof (join_ne (c :: t) ltac:(discriminate) G). destruct (join (c :: t)); [congruence|reflexivity].
Qed.

Lemma tar_get_spec es f d cs es' k opt : tree_ok es -> indexes es f d -> lookup_path es cs = Some (NDir es') -> good k ->
  tar_get f d (join cs) k opt =
  match dict_get es' k with
  | None => if opt then Ok GotNone else Err (MissingResourceError k)
  | Some (NFile m) => Ok (GotMem m)
  | Some (NDir _) => Ok (GotStorage (StTar f d (join (cs ++ [k]))))
  end.
Proof.
  intros [Hg _] [_ _ Hf Hd] Hl Hk. pose proof (Hg _ _ Hl) as G. unfold tar_get. rewrite tar_path_join by assumption.
  assert (G' : Forall good (cs ++ [k])) by (apply Forall_app; split; [assumption|constructor; [assumption|constructor]]).
  assert (Ne : cs ++ [k] <> []) by (destruct cs; discriminate).
  pose proof (lookup_snoc cs es es' k Hl) as L.
  destruct (dict_get f (join (cs ++ [k]))) as [m|] eqn:Ef.
  - apply Hf in Ef. destruct Ef as (ds & Dne & Dj & Dl).
    assert (cs ++ [k] = ds) by (apply join_inj; eauto). subst ds. rewrite L in Dl. now rewrite Dl.
  - destruct (existsb (String.eqb (join (cs ++ [k]))) d) eqn:Ed.
    + apply existsb_exists in Ed. destruct Ed as (p & Hp & Ep). apply String.eqb_eq in Ep. subst p.
      apply Hd in Hp. destruct Hp as (ds & es2 & Dne & Dj & Dl).
      assert (cs ++ [k] = ds) by (apply join_inj; eauto). subst ds. rewrite L in Dl. now rewrite Dl.
    + rewrite <- L. destruct (lookup_path es (cs ++ [k])) as [[m|es2]|] eqn:El; [| |reflexivity]; exfalso.
      * assert (X : dict_get f (join (cs ++ [k])) = Some m) by (apply Hf; eauto). congruence.
      * assert (X : In (join (cs ++ [k])) d) by (apply Hd; eauto).
        assert (Y : existsb (String.eqb (join (cs ++ [k]))) d = true).
        { apply existsb_exists. exists (join (cs ++ [k])). split; [assumption|apply String.eqb_refl]. }
        congruence.
Qed.

(** ** ls *)
Lemma prefix_inv p : forall s, starts_with p s = true -> exists m, s = (p ++ m)%string.
Proof.
  unfold starts_with. induction p as [|c p IH]; intros s H; [exists s; reflexivity|].
  destruct s as [|d s]; [discriminate|]. cbn [String.prefix] in H. destruct (ascii_dec c d) as [<-|]; [|discriminate].
  destruct (IH s H) as (m & ->). exists m. reflexivity.
Qed.
Lemma prefix_app p m : starts_with p (p ++ m) = true.
Proof.
  unfold starts_with. induction p as [|c p IH]; cbn [append String.prefix]; [now destruct m|].
  destruct (ascii_dec c c); [exact IH|congruence].
Qed.
Lemma substring_all s : String.substring 0 (String.length s) s = s.
Proof. induction s as [|c t IH]; [reflexivity|]. cbn [String.length substring]. now rewrite IH. Qed.
Lemma length_app_s a b : String.length (a ++ b) = (String.length a + String.length b)%nat.
Proof. induction a as [|c t IH]; cbn [append String.length]; [reflexivity|]. rewrite IH. reflexivity. Qed.
Lemma drop_app p m : drop (String.length p) (p ++ m) = m.
Proof.
  unfold drop. rewrite length_app_s. replace (String.length p + String.length m - String.length p)%nat with (String.length m) by lia.
  induction p as [|c p IH]; cbn [append String.length]; [apply substring_all|]. cbn [substring]. exact IH.
Qed.

Definition pre (cs : list string) : string := tar_path (join cs) "".
Lemma pre_join cs k : Forall good cs -> join (cs ++ [k]) = (pre cs ++ k)%string.
Proof.
  intros G. unfold pre. destruct cs as [|c t]; [reflexivity|]. rewrite tar_path_join by assumption.
  rewrite !join_snoc by discriminate. rewrite !app_assoc_s. reflexivity.
Qed.
Definition closed_pre (p : string) : Prop := p = "" \/ exists q, p = (q ++ "/")%string.
Lemma pre_closed cs : Forall good cs -> closed_pre (pre cs).
Proof.
  intros G. unfold pre. destruct cs as [|c t]; [now left|]. right. rewrite tar_path_join, join_snoc by (assumption || discriminate).
  exists (join (c :: t)). rewrite app_nil_s. reflexivity.
Qed.
Lemma last_slash_go : forall p q k m, has_slash k = false -> has_slash m = false ->
  (p ++ "/" ++ k)%string = (q ++ "/" ++ m)%string -> p = q /\ k = m.
Proof.
  induction p as [|c p IH]; intros q k m Hk Hm H; destruct q as [|d q]; cbn [append] in H.
  - inversion H; auto.
  - inversion H; subst. rewrite !slash_app in Hk. cbn in Hk. rewrite orb_true_r in Hk. discriminate.
  - inversion H; subst. rewrite !slash_app in Hm. cbn in Hm. rewrite orb_true_r in Hm. discriminate.
  - inversion H; subst. destruct (IH q k m) as [-> ->]; auto.
Qed.
Lemma last_slash p q k m : closed_pre p -> closed_pre q -> has_slash k = false -> has_slash m = false ->
  (p ++ k)%string = (q ++ m)%string -> p = q /\ k = m.
Proof.
  intros [->|(p' & ->)] [->|(q' & ->)] Hk Hm H.
  - cbn in H. auto.
  - cbn [append] in H. subst k. rewrite app_assoc_s, !slash_app in Hk. cbn in Hk. rewrite orb_true_r in Hk. discriminate.
  - cbn [append] in H. subst m. rewrite app_assoc_s, !slash_app in Hm. cbn in Hm. rewrite orb_true_r in Hm. discriminate.
  - rewrite !app_assoc_s in H. apply last_slash_go in H; [|assumption|assumption]. destruct H as [-> ->]. auto.
Qed.
Lemma pre_inj cs ds : Forall good cs -> Forall good ds -> pre cs = pre ds -> cs = ds.
Proof.
  intros G1 G2 H. assert (X : forall k, join (cs ++ [k]) = join (ds ++ [k])) by (intros k; rewrite !pre_join by assumption; now rewrite H).
  assert (Gk : good "x") by (split; [discriminate|split; [reflexivity|discriminate]]).
  assert (Y : cs ++ ["x"] = ds ++ ["x"]).
  { apply join_inj; try (destruct cs, ds; discriminate); try apply X; apply Forall_app; split; auto. }
  now apply app_inj_tail in Y.
Qed.

Lemma ls_sel cs ds : Forall good cs -> Forall good ds -> ds <> [] ->
  (starts_with (pre cs) (join ds) && negb (has_slash (drop (String.length (pre cs)) (join ds))) = true <->
   exists k, ds = cs ++ [k]).
Proof.
  intros G1 G2 Hne. split.
  - intros H. apply andb_true_iff in H. destruct H as [H1 H2]. apply prefix_inv in H1. destruct H1 as (m & E).
    rewrite E, drop_app in H2. apply negb_true_iff in H2.
    destruct (exists_last Hne) as (ds' & k & ->). apply Forall_app in G2. destruct G2 as [G2 Gk].
    inversion Gk as [|? ? (_ & Gk' & _) _]; subst. rewrite pre_join in E by assumption.
    apply last_slash in E; try assumption; try now apply pre_closed. destruct E as [E _].
    apply pre_inj in E; [|assumption|assumption]. subst. eauto.
  - intros (k & ->). rewrite pre_join by assumption. rewrite prefix_app, drop_app.
    apply Forall_app in G2. destruct G2 as [_ Gk]. inversion Gk as [|? ? (_ & Gk' & _) _]; subst. now rewrite Gk'.
Qed.

Lemma nodup_map_in {A B} (g : A -> B) l : NoDup l -> (forall x y, In x l -> In y l -> g x = g y -> x = y) -> NoDup (map g l).
Proof.
  induction 1 as [|x l Hx Hl IH]; intros H; cbn [map]; constructor.
  - intros Hin. apply in_map_iff in Hin. destruct Hin as (y & E & Hy). apply H in E; [|now right|now left]. now subst.
  - apply IH. intros a b Ha Hb. apply H; now right.
Qed.

Lemma dict_in_keys {A} (l : list (string * A)) k : In k (map fst l) <-> exists x, dict_get l k = Some x.
Proof.
  destruct (dict_get l k) as [x|] eqn:E.
  - split; [eauto|]. intros _. apply dict_get_in in E. apply in_map_iff. now exists (k, x).
  - apply dict_get_none in E. split; [contradiction|]. intros (x & Hx). discriminate.
Qed.

Lemma tar_ls_spec es f d cs es' : tree_ok es -> indexes es f d -> lookup_path es cs = Some (NDir es') ->
  Permutation (tar_ls f d (join cs)) (map fst es').
Proof.
  intros [Hg Hn] [Nf Nd Hf Hd] Hl. pose proof (Hg _ _ Hl) as G.
  unfold tar_ls. fold (pre cs). rewrite <- map_app, <- filter_app.
  set (sel := fun n => _). set (all := d ++ map fst f).
  assert (All : forall p, In p all <-> exists ds x, ds <> [] /\ p = join ds /\ lookup_path es ds = Some x).
  { intros p. unfold all. rewrite in_app_iff, Hd, dict_in_keys. split.
    - intros [(ds & e2 & ? & ? & ?)|(m & Hm)]; [exists ds; eauto|]. apply Hf in Hm. destruct Hm as (ds & ? & ? & ?). exists ds; eauto.
    - intros (ds & x & Hne & -> & Hx). destruct x as [m|e2]; [right; exists m; apply Hf; eauto|left; eauto]. }
  assert (Nall : NoDup all).
  { unfold all. clear All. induction d as [|p d' IH] in Nd, Hd |- *; [exact Nf|]. cbn [app].
    inversion Nd as [|? ? Np Nd']; subst. constructor.
    - rewrite in_app_iff. intros [Hin|Hin]; [contradiction|]. apply dict_in_keys in Hin. destruct Hin as (m & Hm).
      apply Hf in Hm. destruct Hm as (ds & Dne & Dj & Dl). destruct (proj1 (Hd p) (or_introl eq_refl)) as (ds2 & e2 & Ene & Ej & El).
      assert (ds = ds2) by (apply join_inj; eauto; congruence). subst ds2. congruence.
    - assert (Hsub : forall q, In q d' -> exists cs0 es'0, cs0 <> [] /\ q = join cs0 /\ lookup_path es cs0 = Some (NDir es'0))
        by (intros q Hq; apply Hd; now right).
      clear Hd IH Nd Np. induction d' as [|p' d' IH]; [exact Nf|]. cbn [app]. inversion Nd' as [|? ? Np Nd2]; subst. constructor.
      + rewrite in_app_iff. intros [Hin|Hin]; [contradiction|]. apply dict_in_keys in Hin. destruct Hin as (m & Hm).
        apply Hf in Hm. destruct Hm as (ds & Dne & Dj & Dl). destruct (Hsub p' (or_introl eq_refl)) as (ds2 & e2 & Ene & Ej & El).
        assert (ds = ds2) by (apply join_inj; eauto; congruence). subst ds2. congruence.
      + apply IH; [assumption|]. intros q Hq. apply Hsub. now right. }
  apply NoDup_Permutation.
  - apply nodup_map_in; [now apply NoDup_filter|]. intros x y Hx Hy E. apply filter_In in Hx, Hy. unfold sel in Hx, Hy.
    destruct Hx as [_ Hx], Hy as [_ Hy]. apply andb_true_iff in Hx, Hy. destruct Hx as [Hx _], Hy as [Hy _].
    apply prefix_inv in Hx, Hy. destruct Hx as (a & ->), Hy as (b & ->). rewrite !drop_app in E. now subst.
  - eapply Hn; eassumption.
  - intros k. rewrite in_map_iff, dict_in_keys. split.
    + intros (p & E & Hp). apply filter_In in Hp. destruct Hp as [Hp Hs]. apply All in Hp. destruct Hp as (ds & x & Dne & -> & Dl).
      apply ls_sel in Hs; [|assumption|eauto|assumption]. destruct Hs as (k' & ->).
      rewrite pre_join, drop_app in E by assumption. subst k'. exists x. now rewrite <- (lookup_snoc cs es es' k Hl).
    + intros (x & Hx). rewrite <- (lookup_snoc cs es es' k Hl) in Hx. exists (join (cs ++ [k])). split.
      * now rewrite pre_join, drop_app by assumption.
      * apply filter_In. split; [apply All; exists (cs ++ [k]), x; split; [destruct cs; discriminate|auto]|].
        apply ls_sel; [assumption|eauto|destruct cs; discriminate|eauto].
Qed.

(** ** opening from a tar *)
Lemma good_app n s : good n -> s <> "" -> has_slash s = false -> good (n ++ s).
Proof.
  intros (H1 & H2 & H3) Hs Hl. split; [|split].
  - destruct n; [congruence|discriminate].
  - rewrite slash_app, H2, Hl. reflexivity.
  - destruct n as [|c n]; [congruence|]. cbn [append]. intros E. inversion E as [[E1 E2]]. destruct n; [|discriminate].
    cbn in E2. congruence.
Qed.
Lemma good_schema n : good n -> good (schema_file n).
Proof. intros H. apply good_app; [assumption|discriminate|reflexivity]. Qed.
Lemma good_index n : good n -> good (index_name n).
Proof. intros H. apply good_app; [assumption|discriminate|reflexivity]. Qed.
Lemma good_read n c k : good n -> In k (read_files n c) -> good k.
Proof.
  intros H Hin. unfold read_files, data_files in Hin. destruct Hin as [<-|Hin]; [now apply good_schema|].
  destruct c; cbn [In] in Hin; intuition (subst; auto using good_index).
Qed.

Section AdefInd.
  Variable P : adef -> Prop.
  Hypothesis step : forall a, (forall n a' sch opt, In (n, RSig (CArchive a') sch opt) (a_resources a) -> P a') -> P a.
  Fixpoint adef_ind' (a : adef) : P a.
  Proof.
    apply step. destruct a as [nm sch rs]. cbn [a_resources]. intros n a' sch' opt. induction rs as [|[n0 [c s o]] t IH].
    - intros [].
    - intros [H|H]; [|exact (IH H)]. destruct c as [|sd|it ts| |x]; try discriminate.
      pose proof (adef_ind' x) as Px. inversion H; subst. exact Px.
  Defined.
End AdefInd.

Lemma nested_trans a a1 a2 : nested a a1 -> nested a1 a2 -> nested a a2.
Proof. intros H1 H2. induction H2; [assumption|]. econstructor; eassumption. Qed.
Lemma names_sub a n a' sch opt : names_ok a -> In (n, RSig (CArchive a') sch opt) (a_resources a) -> names_ok a'.
Proof.
  intros H Hin b m sig Hb Hm. apply (H b m sig); [|assumption]. apply (nested_trans a a'); [|assumption].
  econstructor; [constructor|exact Hin].
Qed.

Lemma tar_agree es f d : tree_ok es -> no_empty_files es -> indexes es f d ->
  forall a cs es', names_ok a -> lookup_path es cs = Some (NDir es') -> agree a (StDir es') (StTar f d (join cs)).
Proof.
  intros Ht He Hi a. induction a as [a IH] using adef_ind'. intros cs es' Hn Hl.
  assert (L : forall k opt, good k -> match dict_get es' k with
     | None => st_lookup (StDir es') k opt = st_lookup (StTar f d (join cs)) k opt
     | Some (NFile m) => st_lookup (StDir es') k opt = Ok (GotMem m) /\ st_lookup (StTar f d (join cs)) k opt = Ok (GotMem m)
     | Some (NDir e2) => st_lookup (StDir es') k opt = Ok (GotStorage (StDir e2)) /\
                         st_lookup (StTar f d (join cs)) k opt = Ok (GotStorage (StTar f d (join (cs ++ [k])))) end).
  { intros k opt Hk. cbn [st_lookup]. rewrite (tar_get_spec es f d cs es' k opt Ht Hi Hl Hk). unfold dir_get.
    pose proof (lookup_snoc cs es es' k Hl) as S. destruct (dict_get es' k) as [[m|e2]|] eqn:E; [|split; reflexivity|reflexivity].
    pose proof (He _ _ S). destruct m; [congruence|]. split; reflexivity. }
  constructor. intros n [c sch opt] Hin. pose proof (Hn a n _ (nested_self a) Hin) as Gn.
  destruct (is_archive c) eqn:Ec.
  - destruct c as [| | | |a']; try discriminate. specialize (L n opt Gn). pose proof (lookup_snoc cs es es' n Hl) as S.
    destruct (dict_get es' n) as [[m|e2]|] eqn:E.
    + eapply agree_same; [reflexivity|]. cbn [r_optional]. destruct L as [-> ->]. reflexivity.
    + destruct L as [L1 L2]. eapply agree_sub; [reflexivity|exact L1|exact L2|].
      eapply IH; [exact Hin|eapply names_sub; eassumption|exact S].
    + eapply agree_same; [reflexivity|]. exact L.
  - constructor; [assumption|]. cbn [r_container r_optional]. intros k Hk. specialize (L k opt (good_read n c k Gn Hk)).
    destruct (dict_get es' k) as [[m|e2]|] eqn:E.
    + destruct L as [-> ->]. reflexivity.
    + destruct L as [-> ->]. exact I.
    + rewrite L. unfold same_leaf. destruct (st_lookup (StTar f d (join cs)) k opt) as [[]|]; auto.
Qed.

(** Non-emptiness matters only in directories. *)
Lemma tar_open es f d cs es' a : tree_ok es -> no_empty_files es -> indexes es f d -> names_ok a ->
  lookup_path es cs = Some (NDir es') -> open_archive a (StDir es') = open_archive a (StTar f d (join cs)).
Proof. intros. apply agree_open. eapply tar_agree; eassumption. Qed.
