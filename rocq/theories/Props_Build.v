(** C101: the build helper of the Rust crate. *)
From Coq Require Import List Bool String Ascii Lia.
From Verif Require Import RustBuild BuildSpec.
Import ListNotations.
Local Open Scope string_scope.

(** ** Names *)
Fixpoint dotless (s : string) : bool := match s with "" => true | String c t => negb (Ascii.eqb c ".") && dotless t end.
Lemma rsplit_none s : rsplit s = None <-> dotless s = true.
Proof.
  induction s as [|c s IH]; [split; reflexivity|]. cbn. destruct (rsplit s) as [[a b]|].
  - split; [discriminate|]. intros H. apply andb_true_iff in H as (_ & H). apply IH in H. discriminate.
  - rewrite (proj1 IH eq_refl), andb_true_r. destruct (Ascii.eqb c "."); split; (discriminate || reflexivity).
Qed.
Lemma rsplit_some a b : dotless b = true -> rsplit (a ++ "." ++ b) = Some (a, b).
Proof. intros D. induction a as [|c a IH]; [cbn; now rewrite (proj2 (rsplit_none b) D)|]. cbn in IH |- *. now rewrite IH. Qed.
Lemma rsplit_eq s : forall a b, rsplit s = Some (a, b) -> s = a ++ "." ++ b /\ dotless b = true.
Proof.
  induction s as [|c s IH]; intros a b H; [discriminate|]. cbn in H. destruct (rsplit s) as [[x y]|] eqn:E.
  - injection H as <- <-. destruct (IH x y eq_refl) as (-> & D). auto.
  - destruct (Ascii.eqb_spec c "."); [|discriminate]. injection H as <- <-. subst. split; [reflexivity|now apply rsplit_none].
Qed.
Lemma extension_flatdata n : extension n = Some "flatdata" <-> exists a, a <> "" /\ n = a ++ ".flatdata".
Proof.
  unfold extension. split.
  - destruct (rsplit n) as [[[|c a] b]|] eqn:E; try discriminate. intros [= ->]. apply rsplit_eq in E as (-> & _). exists (String c a). split; [discriminate|reflexivity].
  - intros (a & Na & ->). change ".flatdata" with ("." ++ "flatdata"). rewrite rsplit_some by reflexivity. destruct a; [congruence|reflexivity].
Qed.
Lemma stem_flatdata a : a <> "" -> stem (a ++ ".flatdata") = a.
Proof. intros Na. unfold stem. change ".flatdata" with ("." ++ "flatdata"). rewrite rsplit_some by reflexivity. destruct a; [congruence|reflexivity]. Qed.
Lemma append_inj_l a b x y : dotless x = true -> dotless y = true -> a ++ "." ++ x = b ++ "." ++ y -> a = b /\ x = y.
Proof. intros X Y E. pose proof (rsplit_some a x X) as A. rewrite E, (rsplit_some b y Y) in A. injection A as -> ->. auto. Qed.
Lemma is_flatdata {A} n (x y : A) : match extension n with Some "flatdata" => x | _ => y end = if (match extension n with Some e => String.eqb e "flatdata" | None => false end) then x else y.
Proof.
  destruct (extension n) as [e|]; [|reflexivity]. destruct (String.eqb_spec e "flatdata") as [->|N]; [reflexivity|].
  repeat match goal with |- context [match ?s with "" => _ | String _ _ => _ end] => destruct s as [|[[] [] [] [] [] [] [] []] ?]; try reflexivity end. congruence.
Qed.

(** ** Paths *)
Lemma snoc_last up (n : string) : file_name (up ++ [n])%list = n.
Proof. apply last_last. Qed.
Lemma with_rs up a : a <> "" -> with_extension (up ++ [(a ++ ".flatdata")%string])%list "rs" = (up ++ [(a ++ ".rs")%string])%list.
Proof.
  intros Na. unfold with_extension. destruct (up ++ [(a ++ ".flatdata")%string])%list eqn:E; [now destruct up|]. rewrite <- E, snoc_last, removelast_last, stem_flatdata by exact Na. reflexivity.
Qed.
Definition schema_ext (p : path) : bool := match extension (file_name p) with Some e => String.eqb e "flatdata" | None => false end.
Lemma schema_ext_named p : schema_ext p = true <-> schema_named p.
Proof.
  unfold schema_ext, schema_named. split.
  - destruct (extension (file_name p)) as [e|] eqn:E; [|discriminate]. intros X. apply String.eqb_eq in X. subst e. apply extension_flatdata in E as (a & Na & E). destruct p as [|x p _] using rev_ind; [cbn in E; destruct a; discriminate|].
    rewrite snoc_last in E. subst x. eauto.
  - intros (up & a & Na & ->). rewrite snoc_last. now rewrite (proj2 (extension_flatdata _) (ex_intro _ a (conj Na eq_refl))).
Qed.
Lemma run_cons gen src out e es f : run gen src out (e :: es) f =
  if schema_ext e then
    match create_dirs f [] (removelast (target f src out e)) with
    | None => (f, Some e)
    | Some f1 => let (f2, ok) := app gen f1 e (target f src out e) in if ok then run gen src out es f2 else (f2, Some e)
    end
  else run gen src out es f.
Proof. cbn [run]. unfold schema_ext. now rewrite is_flatdata. Qed.
Lemma skipn_app_l {A} (l m : list A) : skipn (List.length l) (l ++ m)%list = m.
Proof. induction l; [reflexivity|assumption]. Qed.
Lemma target_mirrored f src out e rel : e = (src ++ rel)%list -> schema_named e -> f e <> None -> tree_like f -> src <> [] ->
  mirrored f src out e (target f src out e) \/ (e = src /\ f src = Some Dir).
Proof.
  intros -> (up & a & Na & E) He T Ns. unfold target, is_dir. destruct (f src) as [[text|]|] eqn:Es.
  - assert (rel = []) as ->. { destruct rel as [|x rel]; [reflexivity|]. pose proof (T src (x :: rel) ltac:(discriminate) He Ns). congruence. }
    rewrite app_nil_r in *. left. exists [], a. split; [exact Na|]. rewrite E, snoc_last. cbn [app]. split; [now apply with_rs|]. right. rewrite <- E, Es. split; [discriminate|]. repeat split. exists up. exact E.
  - rewrite skipn_app_l. destruct rel as [|x rel _] using rev_ind; [right; now rewrite app_nil_r|]. left. rewrite app_assoc in E. apply app_inj_tail in E as (E & ->). exists rel, a. split; [exact Na|]. split; [|left; auto].
    rewrite app_assoc, with_rs by exact Na. now rewrite <- app_assoc.
  - exfalso. destruct rel as [|x rel]; [now rewrite app_nil_r, Es in He|]. pose proof (T src (x :: rel) ltac:(discriminate) He Ns). congruence.
Qed.
Lemma mirrored_named f src out p q : mirrored f src out p q -> schema_named p.
Proof.
  intros (dirs & a & Na & _ & [(_ & ->)|(_ & _ & -> & up & ->)]); [|exists up, a; auto]. exists (src ++ dirs)%list, a. split; [exact Na|]. now rewrite <- app_assoc.
Qed.
Lemma mirrored_out f src out p q : mirrored f src out p q -> schema_named q -> False.
Proof.
  intros (dirs & a & Na & -> & _) (up & b & Nb & E). rewrite app_assoc in E. apply app_inj_tail in E as (_ & E). change (a ++ "." ++ "rs" = b ++ "." ++ "flatdata") in E. apply append_inj_l in E as (_ & E); [discriminate|reflexivity|reflexivity].
Qed.
(** Different schemas have different outputs *)
Lemma mirrored_inj f src out p p' q : mirrored f src out p q -> mirrored f src out p' q -> p = p'.
Proof.
  intros (dirs & a & _ & -> & H) (dirs' & a' & _ & E & H'). rewrite !app_assoc in E. apply app_inj_tail in E as (E & Ea). apply app_inv_head in E. subst dirs'. change (a ++ "." ++ "rs" = a' ++ "." ++ "rs") in Ea.
  apply append_inj_l in Ea as (<- & _); [|reflexivity|reflexivity]. destruct H as [(H1 & ->)|(H1 & -> & -> & _)]; destruct H' as [(H1' & ->)|(H1' & _ & -> & _)]; congruence.
Qed.
Lemma mirrored_target f src out p q : mirrored f src out p q -> target f src out p = q.
Proof.
  intros (dirs & a & Na & -> & [(H & ->)|(H & -> & -> & up & E)]); unfold target, is_dir.
  - rewrite H, skipn_app_l, app_assoc, with_rs by exact Na. now rewrite <- app_assoc.
  - assert (match f src with Some Dir => true | _ => false end = false) as -> by (destruct (f src) as [[]|]; congruence). rewrite E, snoc_last. now apply with_rs.
Qed.

(** ** Directories *)
Lemma put_same f p e : put f p e p = Some e.
Proof. unfold put. now destruct (path_eq_dec p p). Qed.
Lemma put_other f p e q : p <> q -> put f p e q = f q.
Proof. unfold put. now destruct (path_eq_dec p q). Qed.
Lemma create_dirs_changes rest : forall f base f', create_dirs f base rest = Some f' -> forall x, f' x = f x \/ (f x = None /\ f' x = Some Dir /\ exists r s, x = (base ++ r)%list /\ rest = (r ++ s)%list).
Proof.
  induction rest as [|c rest IH]; intros f base f' H x; cbn in H; [injection H as <-; auto|]. destruct (f (base ++ [c])%list) as [[t|]|] eqn:E; [discriminate| |].
  - destruct (IH _ _ _ H x) as [X|(X & Y & r & s & -> & ->)]; [auto|]. right. split; [exact X|]. split; [exact Y|]. exists (c :: r), s. split; [now rewrite <- app_assoc|reflexivity].
  - destruct (IH _ _ _ H x) as [X|(X & Y & r & s & -> & ->)].
    + destruct (path_eq_dec (base ++ [c])%list x) as [<-|N]; [|left; rewrite X; now apply put_other]. right. split; [exact E|]. rewrite X, put_same. split; [reflexivity|]. exists [c], rest. auto.
    + unfold put in X. destruct (path_eq_dec (base ++ [c])%list ((base ++ [c]) ++ r)%list); [discriminate|]. right. split; [exact X|]. split; [exact Y|]. exists (c :: r), s. split; [now rewrite <- app_assoc|reflexivity].
Qed.
Lemma create_dirs_fails rest : forall f base, create_dirs f base rest = None -> exists r s t, rest = (r ++ s)%list /\ r <> [] /\ f (base ++ r)%list = Some (File t).
Proof.
  induction rest as [|c rest IH]; intros f base H; cbn in H; [discriminate|]. destruct (f (base ++ [c])%list) as [[t|]|] eqn:E.
  - exists [c], rest, t. split; [reflexivity|]. split; [discriminate|exact E].
  - destruct (IH _ _ H) as (r & s & t & -> & Nr & X). exists (c :: r), s, t. split; [reflexivity|]. split; [discriminate|]. now rewrite <- app_assoc in X.
  - destruct (IH _ _ H) as (r & s & t & -> & Nr & X). exists (c :: r), s, t. split; [reflexivity|]. split; [discriminate|]. rewrite <- app_assoc in X. unfold put in X. destruct (path_eq_dec (base ++ [c])%list (base ++ [c] ++ r)%list); [discriminate|exact X].
Qed.

(** ** One schema *)
Section Build.
  Variables (gen : string -> option string) (src out : path).
  Definition from_schema (f : fs) (p x : path) (text : string) : Prop := mirrored f src out p x /\ exists c, f p = Some (File c) /\ gen c = Some text.
  Definition entries_of (f : fs) (es : list path) : Prop := forall e, In e es -> exists rel, e = (src ++ rel)%list /\ (rel <> [] -> f src = Some Dir).
  Lemma target_cases f e rel : e = (src ++ rel)%list -> (rel <> [] -> f src = Some Dir) -> schema_named e -> mirrored f src out e (target f src out e) \/ (e = src /\ f src = Some Dir).
  Proof.
    intros E Hr (up & a & Na & Ea). destruct rel as [|y rel].
    - rewrite app_nil_r in E. subst e. unfold target, is_dir. destruct (f src) as [[t|]|] eqn:Es; [left|now right|left]; exists [], a; (split; [exact Na|]); rewrite Ea, snoc_last; cbn [app]; (split; [now apply with_rs|]); right; rewrite <- Ea, Es; (split; [discriminate|]); repeat split; exists up; exact Ea.
    - specialize (Hr ltac:(discriminate)). destruct (exists_last (l := y :: rel) ltac:(discriminate)) as (rel' & z & Ez). rewrite Ez in E. subst e. rewrite app_assoc in Ea. apply app_inj_tail in Ea as (Ea & ->). left. exists rel', a. split; [exact Na|]. split; [|left; auto].
      unfold target, is_dir. rewrite Hr, skipn_app_l, app_assoc, with_rs by exact Na. now rewrite <- app_assoc.
  Qed.
  Lemma above_out f p q : mirrored f src out p q -> above out q.
  Proof. intros (dirs & a & _ & -> & _). exists (dirs ++ [(a ++ ".rs")%string])%list. split; [now destruct dirs|reflexivity]. Qed.
  Lemma removed_above x y z : z <> [] -> removelast z = (x ++ y)%list -> above x z.
  Proof. intros N E. exists (y ++ [last z ""])%list. split; [now destruct y|]. rewrite (app_removelast_last "" N) at 1. now rewrite E, <- app_assoc. Qed.

  Definition changed (f f' : fs) (es : list path) (x : path) : Prop :=
    f' x = f x \/ (exists p text, In p es /\ from_schema f p x text /\ f' x = Some (File text) /\ f x <> Some Dir)
    \/ (f x = None /\ f' x = Some Dir /\ (above x out \/ exists p q, In p es /\ mirrored f src out p q /\ above x q)).
  Lemma step_changes f e rel f1 f2 ok : e = (src ++ rel)%list -> (rel <> [] -> f src = Some Dir) -> schema_named e -> create_dirs f [] (removelast (target f src out e)) = Some f1 -> app gen f1 e (target f src out e) = (f2, ok) ->
    (forall x, changed f f2 [e] x) /\ (ok = true -> exists text, from_schema f e (target f src out e) text /\ f2 (target f src out e) = Some (File text)).
  Proof.
    intros Ee Hr Ne Ec Ea. pose proof (create_dirs_changes _ _ _ _ Ec) as Ch. cbn [app] in Ch.
    destruct (target_cases f e rel Ee Hr Ne) as [M|(E & D)].
    - set (q := target f src out e) in *. assert (Nq : q <> []) by (destruct M as (dirs & a & _ & -> & _); destruct out, dirs; discriminate).
      assert (Base : forall x, changed f f1 [e] x).
      { intros x. destruct (Ch x) as [X|(X & Y & r & s & -> & E)]; [now left|]. right; right. split; [exact X|]. split; [exact Y|]. right. exists e, q. split; [now left|]. split; [exact M|]. exact (removed_above r s q Nq E). }
      unfold app in Ea. destruct (f1 e) as [[c|]|] eqn:Fe; [|injection Ea as <- <-; split; [exact Base|discriminate]|injection Ea as <- <-; split; [exact Base|discriminate]].
      assert (Fe0 : f e = Some (File c)) by (destruct (Ch e) as [X|(_ & Y & _)]; congruence).
      destruct (gen c) as [text|] eqn:G; [|injection Ea as <- <-; split; [exact Base|discriminate]].
      assert (Fs : from_schema f e q text) by (split; [exact M|]; exists c; auto).
      assert (X : f1 q = Some Dir \/ (f1 q <> Some Dir /\ f2 = put f1 q (File text) /\ ok = true)). { destruct (f1 q) as [[t|]|]; [right|now left|right]; injection Ea as <- <-; (split; [discriminate|auto]). }
      destruct X as [X|(X & -> & ->)]; [rewrite X in Ea; injection Ea as <- <-; split; [exact Base|discriminate]|]. split.
      + intros x. destruct (path_eq_dec q x) as [<-|N]; [|specialize (Base x); unfold changed in *; rewrite put_other by exact N; exact Base]. right; left. exists e, text. split; [now left|]. split; [exact Fs|]. split; [apply put_same|].
        intros Fq. destruct (Ch q) as [Y|(Y & _)]; congruence.
      + intros _. exists text. split; [exact Fs|apply put_same].
    - clear Ee. subst e. assert (Fe : f1 src = Some Dir) by (destruct (Ch src) as [X|(X & _)]; congruence). unfold app in Ea. rewrite Fe in Ea. injection Ea as <- <-. split; [|discriminate].
      intros x. destruct (Ch x) as [X|(X & Y & r & s & -> & E)]; [now left|]. right; right. split; [exact X|]. split; [exact Y|]. left.
      assert (Et : target f src out src = with_extension out "rs"). { unfold target, is_dir. rewrite D. replace (skipn (List.length src) src) with (@nil string) by (rewrite <- (app_nil_r src) at 2; now rewrite skipn_app_l). now rewrite app_nil_r. }
      rewrite Et in E, Ec. clear Et Ch. unfold with_extension in E, Ec. destruct out as [|o os] eqn:Eo; [cbn in Ec; injection Ec as <-; congruence|]. rewrite <- Eo in *. rewrite removelast_last in E. apply (removed_above r s out); [congruence|exact E].
  Qed.

  (** ** What a step leaves alone *)
  Lemma changed_dir f f' es x : changed f f' es x -> f x = Some Dir -> f' x = Some Dir.
  Proof. intros [E|[(_ & _ & _ & _ & _ & N)|(E & _)]] D; congruence. Qed.
  Lemma changed_file f f' es x t : changed f f' es x -> f x = Some (File t) -> exists t', f' x = Some (File t').
  Proof. intros [E|[(_ & t' & _ & _ & E & _)|(E & _)]] D; [rewrite E; eauto|eauto|congruence]. Qed.
  Lemma changed_src f f' es : changed f f' es src -> f src <> None -> (f' src = Some Dir <-> f src = Some Dir).
  Proof.
    intros C N. split; [|now apply (changed_dir f f' es)]. intros D. destruct (f src) as [[t|]|] eqn:E; [|reflexivity|congruence]. destruct (changed_file f f' es src t C E) as (t' & E'). congruence.
  Qed.
  Lemma changed_mirrored f f' es p q : changed f f' es src -> f src <> None -> (mirrored f' src out p q <-> mirrored f src out p q).
  Proof.
    intros C N. pose proof (changed_src f f' es C N) as S. split; intros (dirs & a & Na & E & [(D & Ep)|(D & R)]); exists dirs, a; (split; [exact Na|]); (split; [exact E|]); [left|right|left|right]; (split; [tauto|assumption]).
  Qed.
  Lemma changed_schema f f' es p c : changed f f' es p -> schema_named p -> (f' p = Some (File c) <-> f p = Some (File c)).
  Proof.
    intros [E|[(r & t & _ & (M & _) & _)|(E & E' & _)]] Np; [now rewrite E|destruct (mirrored_out _ _ _ _ _ M Np)|]. split; congruence.
  Qed.
  Lemma changed_entries f f' es0 es : changed f f' es0 src -> f src <> None -> entries_of f es -> entries_of f' es.
  Proof. intros C N H e He. destruct (H e He) as (rel & E & D). exists rel. split; [exact E|]. intros X. apply (changed_src f f' es0 C N). auto. Qed.
  Lemma changed_still f f' es : changed f f' es src -> f src <> None -> f' src <> None.
  Proof. intros C N. destruct (f src) as [[t|]|] eqn:E; [|now rewrite (changed_dir _ _ _ _ C E)|congruence]. destruct (changed_file _ _ _ _ _ C E) as (t' & ->). discriminate. Qed.
  Lemma changed_from f f' es p x text : (forall y, changed f f' es y) -> f src <> None -> (from_schema f' p x text <-> from_schema f p x text).
  Proof.
    intros C N. unfold from_schema. rewrite (changed_mirrored f f' es p x (C src) N). split; intros (M & c & E & G); (split; [exact M|]); exists c; (split; [|exact G]); apply (changed_schema f f' es p c (C p) (mirrored_named _ _ _ _ _ M)); exact E.
  Qed.
  Lemma changed_trans f f1 f2 es es' x : (forall y, changed f f1 es y) -> f src <> None -> changed f1 f2 es' x -> changed f f2 (es ++ es')%list x.
  Proof.
    intros C N C2. destruct C2 as [E|[(p & t & Hp & Fs & E & Nd)|(E & E' & H)]].
    - destruct (C x) as [E1|[(p & t & Hp & R & E1 & Nd)|(E1 & E2 & H)]].
      + left. congruence.
      + right; left. exists p, t. split; [apply in_or_app; now left|]. split; [exact R|]. split; [congruence|exact Nd].
      + right; right. split; [exact E1|]. split; [congruence|]. destruct H as [H|(p & q & Hp & R)]; [now left|right]. exists p, q. split; [apply in_or_app; now left|exact R].
    - right; left. exists p, t. split; [apply in_or_app; now right|]. split; [now apply (changed_from f f1 es)|]. split; [exact E|]. intros D. apply Nd. now apply (changed_dir f f1 es).
    - right; right. assert (f x = None) as En. { destruct (f x) as [[t|]|] eqn:Fx; [|rewrite (changed_dir _ _ _ _ (C x) Fx) in E; discriminate|reflexivity]. destruct (changed_file _ _ _ _ _ (C x) Fx) as (t' & X). congruence. }
      split; [exact En|]. split; [exact E'|]. destruct H as [H|(p & q & Hp & M & A)]; [now left|right]. exists p, q. split; [apply in_or_app; now right|]. split; [now apply (changed_mirrored f f1 es)|exact A].
  Qed.
  Lemma changed_more f f' es es' x : incl es es' -> changed f f' es x -> changed f f' es' x.
  Proof. intros I [E|[(p & t & Hp & R)|(E & E' & H)]]; [now left|right; left; exists p, t; split; [now apply I|exact R]|]. right; right. split; [exact E|]. split; [exact E'|]. destruct H as [H|(p & q & Hp & R)]; [now left|right]. exists p, q. split; [now apply I|exact R]. Qed.

  Lemma run_changes es : forall f f' r, f src <> None -> entries_of f es -> run gen src out es f = (f', r) -> forall x, changed f f' es x.
  Proof.
    induction es as [|e es IH]; intros f f' r Ns En H x; [injection H as <- _; now left|]. rewrite run_cons in H. assert (En' : entries_of f es) by (intros y Hy; apply En; now right).
    destruct (schema_ext e) eqn:Se; [|apply (changed_more f f' es); [intros y Hy; now right|now apply (IH f f' r)]]. apply schema_ext_named in Se. destruct (create_dirs f [] (removelast (target f src out e))) as [f1|] eqn:Ec; [|injection H as <- _; now left].
    destruct (app gen f1 e (target f src out e)) as [f2 ok] eqn:Ea. destruct (En e (or_introl eq_refl)) as (rel & Ee & Hr). destruct (step_changes f e rel f1 f2 ok Ee Hr Se Ec Ea) as (C & _).
    destruct ok; [|injection H as <- _; apply (changed_more f f2 [e]); [intros y [<-|[]]; now left|exact (C x)]].
    apply (changed_trans f f2 f' [e] es x C Ns). exact (IH f2 f' r (changed_still _ _ _ (C src) Ns) (changed_entries _ _ _ _ (C src) Ns En') H x).
  Qed.
End Build.
Lemma walk_entries f src es : walk f src es -> tree_like f -> src <> [] -> entries_of src f es.
Proof. intros W T Ns e He. apply W in He as ((rel & ->) & N). exists rel. split; [reflexivity|]. intros Nr. exact (T src rel Nr N Ns). Qed.
Lemma generate_run gen src out es f r : generate gen src out es f = r -> f src <> None -> run gen src out es f = r.
Proof. unfold generate. destruct (f src); congruence. Qed.

(** C101: when the helper reports success, every schema below the folder (or the schema itself) was accepted, and its mirrored place holds
    what the generator makes of it. *)
Theorem C101_generates : forall gen src out es f f', src <> [] -> tree_like f -> walk f src es -> generate gen src out es f = (f', None) ->
  forall p, schema_named p -> (exists rel, p = (src ++ rel)%list) -> f p <> None -> exists text code q, f p = Some (File text) /\ gen text = Some code /\ mirrored f src out p q /\ f' q = Some (File code).
Proof.
  intros gen src out es f f' Ns T W H p Np Hr Hp. assert (Fs : f src <> None) by (unfold generate in H; destruct (f src); [discriminate|injection H as <-; congruence]).
  apply generate_run in H; [|exact Fs]. pose proof (walk_entries f src es W T Ns) as En. assert (Hin : In p es) by (apply W; auto). clear W T Hr Hp. revert f f' H Fs En Hin.
  induction es as [|e es IH]; intros f f' H Fs En Hin; [destruct Hin|]. rewrite run_cons in H. assert (En' : entries_of src f es) by (intros y Hy; apply En; now right).
  destruct (schema_ext e) eqn:Se; [|destruct Hin as [->|Hin]; [apply schema_ext_named in Np; congruence|exact (IH f f' H Fs En' Hin)]]. apply schema_ext_named in Se.
  destruct (create_dirs f [] (removelast (target f src out e))) as [f1|] eqn:Ec; [|discriminate]. destruct (app gen f1 e (target f src out e)) as [f2 ok] eqn:Ea. destruct ok; [|discriminate].
  destruct (En e (or_introl eq_refl)) as (rel & Ee & Hr). destruct (step_changes gen src out f e rel f1 f2 true Ee Hr Se Ec Ea) as (C & Ok2). destruct (Ok2 eq_refl) as (code & (M & text & Ft & G) & F2).
  pose proof (changed_still gen src out _ _ _ (C src) Fs) as Fs2. pose proof (changed_entries gen src out _ _ _ _ (C src) Fs En') as En2. destruct Hin as [->|Hin].
  - exists text, code, (target f src out p). split; [exact Ft|]. split; [exact G|]. split; [exact M|].
    destruct (run_changes gen src out es f2 f' None Fs2 En2 H (target f src out p)) as [E|[(p' & code' & _ & (M' & c & Fc & G') & E & _)|(E & _)]]; [congruence| |congruence].
    apply (changed_mirrored gen src out f f2 [p] p' _ (C src) Fs) in M'. rewrite <- (mirrored_inj _ _ _ _ _ _ M M') in *. apply (changed_schema gen src out f f2 [p] p c (C p) Np) in Fc. congruence.
  - destruct (IH f2 f' H Fs2 En2 Hin) as (t & cd & q & A & B & M' & X). exists t, cd, q. split; [now apply (changed_schema gen src out f f2 [e] p t (C p) Np)|]. split; [exact B|]. split; [|exact X]. now apply (changed_mirrored gen src out f f2 [e] p q (C src) Fs).
Qed.
(** C101: whatever happens, only these files are written, with what is generated, and only directories above them made. *)
Theorem C101_only : forall gen src out es f f' r, src <> [] -> tree_like f -> walk f src es -> generate gen src out es f = (f', r) -> forall x, f' x <> f x ->
  (exists p text code, mirrored f src out p x /\ f p = Some (File text) /\ gen text = Some code /\ f' x = Some (File code))
  \/ (f x = None /\ f' x = Some Dir /\ (above x out \/ exists p q, f p <> None /\ mirrored f src out p q /\ above x q)).
Proof.
  intros gen src out es f f' r Ns T W H x Nx. assert (Fs : f src <> None) by (intros E; unfold generate in H; rewrite E in H; injection H as <- _; congruence).
  apply generate_run in H; [|exact Fs]. destruct (run_changes gen src out es f f' r Fs (walk_entries f src es W T Ns) H x) as [E|[(p & code & _ & (M & text & Ft & G) & E & _)|(E & E' & A)]]; [congruence| |].
  - left. exists p, text, code. auto.
  - right. split; [exact E|]. split; [exact E'|]. destruct A as [A|(p & q & Hp & M & A)]; [now left|right]. exists p, q. split; [apply W in Hp; tauto|auto].
Qed.
(** C101: schemas stay as they are, and no two schemas are generated into the same file. *)
Theorem C101_schemas : forall gen src out es f f' r, src <> [] -> tree_like f -> walk f src es -> generate gen src out es f = (f', r) ->
  (forall p, schema_named p -> f p <> None -> f' p = f p) /\ (forall p p' q, mirrored f src out p q -> mirrored f src out p' q -> p = p').
Proof.
  intros gen src out es f f' r Ns T W H. split; [|exact (mirrored_inj f src out)]. intros p Np Fp. assert (Fs : f src <> None \/ f src = None) by (destruct (f src); [left; discriminate|now right]).
  destruct Fs as [Fs|E]; [|unfold generate in H; rewrite E in H; now injection H as <- _]. apply generate_run in H; [|exact Fs].
  destruct (run_changes gen src out es f f' r Fs (walk_entries f src es W T Ns) H p) as [E|[(p' & code & _ & (M & _) & _)|(E & _)]]; [exact E| |congruence]. destruct (mirrored_out _ _ _ _ _ M Np).
Qed.
(** C101: an error is about something that is called like a schema: it is not a file, or the generator does not accept it, or there is
    a directory in the place of its output, or a file in the place of a directory above it. *)
Theorem C101_failure : forall gen src out es f f' p, src <> [] -> tree_like f -> walk f src es -> NoDup es -> f src <> None -> generate gen src out es f = (f', Some p) ->
  schema_named p /\ (exists rel, p = (src ++ rel)%list)
  /\ ((forall text, f p <> Some (File text)) \/ (exists text, f p = Some (File text) /\ gen text = None)
      \/ exists q, mirrored f src out p q /\ (f' q = Some Dir \/ exists x text, above x q /\ f' x = Some (File text)))
  /\ forall q code, mirrored f src out p q -> f q = Some (File code) -> f' q = Some (File code).
Proof.
  intros gen src out es f f' p Ns T W Nd Fs H. apply generate_run in H; [|exact Fs]. pose proof (walk_entries f src es W T Ns) as En. clear W T. revert f f' H Fs En Nd.
  induction es as [|e es IH]; intros f f' H Fs En Nd; [discriminate|]. rewrite run_cons in H. assert (En' : entries_of src f es) by (intros y Hy; apply En; now right). inversion Nd as [|? ? Ne Nd']; subst.
  destruct (schema_ext e) eqn:Se; [|exact (IH f f' H Fs En' Nd')]. apply schema_ext_named in Se. destruct (En e (or_introl eq_refl)) as (rel & Ee & Hr).
  destruct (create_dirs f [] (removelast (target f src out e))) as [f1|] eqn:Ec.
  - destruct (app gen f1 e (target f src out e)) as [f2 ok] eqn:Ea. destruct (step_changes gen src out f e rel f1 f2 ok Ee Hr Se Ec Ea) as (C & _). destruct ok.
    + pose proof (changed_still gen src out _ _ _ (C src) Fs) as Fs2. pose proof (changed_entries gen src out _ _ _ _ (C src) Fs En') as En2. destruct (IH f2 f' H Fs2 En2 Nd') as (Np & Rp & Why & Kept). split; [exact Np|]. split; [exact Rp|].
      assert (Hp : In p es).
      { clear - H. revert f2 H. induction es as [|y es IHe]; intros f2 H; [discriminate|]. rewrite run_cons in H. destruct (schema_ext y); [|right; exact (IHe f2 H)]. destruct (create_dirs f2 [] (removelast (target f2 src out y))) as [g1|]; [|injection H as _ ->; now left].
        destruct (app gen g1 y (target f2 src out y)) as [g2 [|]]; [right; exact (IHe g2 H)|injection H as _ ->; now left]. }
      split.
      * destruct Why as [Nf|[(text & Ft & G)|(q & M & X)]].
        -- left. intros text Ft. apply (Nf text). now apply (changed_schema gen src out f f2 [e] p text (C p) Np).
        -- right; left. exists text. split; [now apply (changed_schema gen src out f f2 [e] p text (C p) Np)|exact G].
        -- right; right. exists q. split; [now apply (changed_mirrored gen src out f f2 [e] p q (C src) Fs)|exact X].
      * intros q code M Fq. assert (M2 : mirrored f2 src out p q) by now apply (changed_mirrored gen src out f f2 [e] p q (C src) Fs). apply (Kept q code M2).
        destruct (C q) as [E|[(p' & code' & [<-|[]] & (M' & _) & _)|(E & _)]]; [congruence| |congruence]. destruct Ne. now rewrite <- (mirrored_inj _ _ _ _ _ _ M M').
    + injection H as <- <-. split; [exact Se|]. split; [eauto|]. pose proof (create_dirs_changes _ _ _ _ Ec) as Ch. split.
      * unfold app in Ea. destruct (f1 e) as [[text|]|] eqn:Fe.
        -- assert (Ft : f e = Some (File text)) by (destruct (Ch e) as [X|(_ & X & _)]; congruence). destruct (gen text) as [code|] eqn:G; [|right; left; eauto]. destruct (f1 (target f src out e)) as [[t|]|] eqn:Fq; try discriminate. injection Ea as <-. right; right.
           destruct (target_cases src out f e rel Ee Hr Se) as [M|(-> & D)]; [exists (target f src out e); auto|congruence].
        -- left. intros text Ft. destruct (Ch e) as [X|(X & _)]; congruence.
        -- left. intros text Ft. destruct (Ch e) as [X|(X & _)]; congruence.
      * intros q code M Fq. pose proof (mirrored_target _ _ _ _ _ M) as Eq. unfold app in Ea. assert (F1 : f1 q = Some (File code)) by (destruct (Ch q) as [X|(X & _)]; congruence).
        destruct (f1 e) as [[text|]|]; try (injection Ea as <-; exact F1). destruct (gen text); [|injection Ea as <-; exact F1]. rewrite Eq, F1 in Ea. discriminate.
  - injection H as <- <-. split; [exact Se|]. split; [eauto|]. split; [|auto]. destruct (target_cases src out f e rel Ee Hr Se) as [M|(-> & D)]; [|left; congruence].
    right; right. exists (target f src out e). split; [exact M|]. right. destruct (create_dirs_fails _ _ _ Ec) as (r & s & t & E & _ & Ft). exists r, t. split; [|exact Ft]. apply (removed_above r s); [|exact E].
    destruct M as (dirs & a & _ & -> & _). destruct out, dirs; discriminate.
Qed.
(** C101: it succeeds if everything called like a schema is a file that the generator accepts, nothing is in the way of the outputs, and no
    output is in the way of another. *)
Theorem C101_succeeds : forall gen src out es f, src <> [] -> tree_like f -> walk f src es -> f src <> None ->
  (forall p, In p es -> schema_named p -> exists text, f p = Some (File text) /\ gen text <> None) ->
  (forall p q, In p es -> mirrored f src out p q -> f q <> Some Dir /\ forall x text, above x q -> f x <> Some (File text)) ->
  (forall p q p' q', In p es -> mirrored f src out p q -> In p' es -> mirrored f src out p' q' -> ~ above q q') ->
  exists f', generate gen src out es f = (f', None).
Proof.
  intros gen src out es f Ns T W Fs Acc Free Apart. unfold generate. destruct (f src) as [x|] eqn:Ex; [|congruence]. assert (Fs' : f src <> None) by congruence. clear Ex x Fs. pose proof (walk_entries f src es W T Ns) as En. clear W T. revert f Fs' En Acc Free Apart.
  induction es as [|e es IH]; intros f Fs En Acc Free Apart; [eexists; reflexivity|]. rewrite run_cons. assert (En' : entries_of src f es) by (intros y Hy; apply En; now right).
  destruct (schema_ext e) eqn:Se; [|apply (IH f Fs En'); intros; eauto using in_cons; eapply Apart; eauto using in_cons]. apply schema_ext_named in Se. destruct (En e (or_introl eq_refl)) as (rel & Ee & Hr). destruct (Acc e (or_introl eq_refl) Se) as (text & Ft & G).
  destruct (target_cases src out f e rel Ee Hr Se) as [M|(-> & D)]; [|congruence]. destruct (Free e _ (or_introl eq_refl) M) as (Fq & Fa). set (q := target f src out e) in *. assert (Nq : q <> []) by (destruct M as (dirs & a & _ & -> & _); destruct out, dirs; discriminate).
  destruct (create_dirs f [] (removelast q)) as [f1|] eqn:Ec; [|exfalso; destruct (create_dirs_fails _ _ _ Ec) as (r & s & t & E & _ & X); exact (Fa r t (removed_above r s q Nq E) X)].
  pose proof (create_dirs_changes _ _ _ _ Ec) as Ch. cbn [List.app] in Ch. assert (F1q : f1 q <> Some Dir).
  { destruct (Ch q) as [X|(_ & _ & r & s & -> & E)]; [congruence|]. destruct (removed_above r s r Nq E) as (z & Nz & Ez). apply (f_equal (@List.length string)) in Ez. rewrite app_length in Ez. destruct z; [congruence|cbn in Ez; lia]. }
  destruct (app gen f1 e q) as [f2 ok] eqn:Ea. assert (ok = true) as ->.
  { unfold app in Ea. assert (f1 e = Some (File text)) as X by (destruct (Ch e) as [X|(X & _)]; congruence). rewrite X in Ea. destruct (gen text); [|congruence]. destruct (f1 q) as [[]|]; congruence. }
  destruct (step_changes gen src out f e rel f1 f2 true Ee Hr Se Ec Ea) as (C & _).
  apply (IH f2); [exact (changed_still gen src out _ _ _ (C src) Fs)|exact (changed_entries gen src out _ _ _ _ (C src) Fs En')| | |].
  - intros p Hp Np. destruct (Acc p (or_intror Hp) Np) as (t & A & B). exists t. split; [now apply (changed_schema gen src out f f2 [e] p t (C p) Np)|exact B].
  - intros p q' Hp M'. apply (changed_mirrored gen src out f f2 [e] p q' (C src) Fs) in M'. destruct (Free p q' (or_intror Hp) M') as (A & B). split.
    + intros D. destruct (C q') as [E|[(_ & c & _ & _ & E & _)|(_ & _ & [X|(p2 & q2 & [<-|[]] & M2 & X)])]]; [congruence|congruence| |].
      * destruct (above_out src out _ _ _ M') as (z & Nz & E). destruct X as (y & Ny & X). rewrite X, <- app_assoc in E. apply (f_equal (@List.length string)) in E. rewrite !app_length in E. destruct z; [congruence|cbn in E; lia].
      * exact (Apart p q' e q2 (or_intror Hp) M' (or_introl eq_refl) M2 X).
    + intros x t Ab X. destruct (C x) as [E|[(p2 & c & [<-|[]] & (M2 & _) & _)|(_ & E & _)]]; [apply (B x t Ab); congruence| |congruence]. exact (Apart e x p q' (or_introl eq_refl) M2 (or_intror Hp) M' Ab).
  - intros p q1 p' q2 Hp M1 Hp' M2. apply (changed_mirrored gen src out f f2 [e] _ _ (C src) Fs) in M1. apply (changed_mirrored gen src out f f2 [e] _ _ (C src) Fs) in M2. exact (Apart p q1 p' q2 (or_intror Hp) M1 (or_intror Hp') M2).
Qed.

(** ** Outputs have their folders *)
Lemma put_tree f base c e : tree_like f -> (base = [] \/ f base = Some Dir) -> (e = Dir \/ f (base ++ [c])%list <> Some Dir) -> tree_like (put f (base ++ [c])%list e).
Proof.
  intros T B N x r Nr H Nx. destruct (path_eq_dec (base ++ [c])%list (x ++ r)%list) as [E|Ne].
  - destruct r as [|z r _] using rev_ind; [congruence|]. rewrite app_assoc in E. apply app_inj_tail in E as (E & _). rewrite put_other by (rewrite E, <- app_assoc; intros X; rewrite <- (app_nil_r x) in X at 2; apply app_inv_head in X; now destruct r).
    destruct B as [->|B]; [destruct x; [congruence|discriminate]|]. destruct r as [|y r]; [rewrite app_nil_r in E; congruence|]. apply (T x (y :: r)); [discriminate|congruence|exact Nx].
  - rewrite put_other in H by exact Ne. pose proof (T x r Nr H Nx) as D. unfold put. destruct (path_eq_dec (base ++ [c])%list x) as [Ex|]; [|exact D]. destruct N as [->|N]; [reflexivity|congruence].
Qed.
Lemma create_dirs_tree rest : forall f base f', tree_like f -> (base = [] \/ f base = Some Dir) -> create_dirs f base rest = Some f' -> tree_like f' /\ ((base ++ rest)%list = [] \/ f' (base ++ rest)%list = Some Dir).
Proof.
  induction rest as [|c rest IH]; intros f base f' T B H; cbn in H; [injection H as <-; rewrite app_nil_r; auto|]. replace (base ++ c :: rest)%list with ((base ++ [c]) ++ rest)%list by (now rewrite <- app_assoc).
  destruct (f (base ++ [c])%list) as [[t|]|] eqn:E; [discriminate| |].
  - apply (IH f (base ++ [c])%list f' T); [now right|exact H].
  - apply (IH _ (base ++ [c])%list f' (put_tree f base c Dir T B (or_introl eq_refl))); [right; apply put_same|exact H].
Qed.
(** C101: everything that is written is in a directory; and a folder that is not there is an error. *)
Theorem C101_folders : forall gen src out es f f' r, tree_like f -> out <> [] -> generate gen src out es f = (f', r) -> tree_like f' /\ (f src = None -> r = Some src /\ f' = f).
Proof.
  intros gen src out es f f' r T No H. unfold generate in H. destruct (f src) as [e0|] eqn:Es; [|injection H as <- <-; auto]. split; [|discriminate]. clear Es e0. revert f T H.
  induction es as [|e es IH]; intros f T H; [now injection H as <- _|]. rewrite run_cons in H. destruct (schema_ext e); [|exact (IH f T H)]. destruct (create_dirs f [] (removelast (target f src out e))) as [f1|] eqn:Ec; [|now injection H as <- _].
  destruct (create_dirs_tree _ f [] f1 T (or_introl eq_refl) Ec) as (T1 & P). cbn [List.app] in P. assert (exists up n, target f src out e = (up ++ [n])%list) as (up & n & Et).
  { assert (Y : forall p x, with_extension p x <> [] -> exists up n, with_extension p x = (up ++ [n])%list) by (intros p x; unfold with_extension; destruct p; [congruence|eauto]). unfold target. destruct (is_dir f src); apply Y; unfold with_extension; destruct out; try congruence; cbn [List.app]; intros X; apply app_eq_nil in X as (_ & X); discriminate. }
  rewrite Et in *. rewrite removelast_last in P. assert (T2 : forall code, f1 (up ++ [n])%list <> Some Dir -> tree_like (put f1 (up ++ [n])%list (File code))) by (intros code X; apply put_tree; auto).
  unfold app in H. destruct (f1 e) as [[text|]|]; try (injection H as <- _; exact T1). destruct (gen text) as [code|]; [|injection H as <- _; exact T1].
  destruct (f1 (up ++ [n])%list) as [[t|]|] eqn:F1; [|injection H as <- _; exact T1|]; (eapply IH; [|exact H]; apply T2; rewrite ?F1; discriminate).
Qed.

(** ** Instances *)
Fixpoint lookup (l : list (path * entry)) (p : path) : option entry := match l with [] => None | (q, e) :: r => if path_eq_dec q p then Some e else lookup r p end.
Fixpoint fronts (p : path) : list path := match p with [] => [] | c :: r => [c] :: map (cons c) (fronts r) end.
Lemma fronts_spec p : forall r, p <> [] -> In p (fronts (p ++ r)%list).
Proof.
  induction p as [|c p IH]; intros r N; [congruence|]. cbn. destruct p as [|d p]; [now left|]. right. apply in_map. apply (IH r). discriminate.
Qed.
Definition tree_check (l : list (path * entry)) : bool :=
  forallb (fun x => forallb (fun p => if path_eq_dec p (fst x) then true else match lookup l p with Some Dir => true | _ => false end) (fronts (fst x))) l.
Lemma lookup_in l p : lookup l p <> None -> exists e, In (p, e) l.
Proof. induction l as [|(q, e) l IH]; cbn; [congruence|]. destruct (path_eq_dec q p) as [->|]; [eauto|]. intros H. destruct (IH H) as (x & Hx). eauto. Qed.
Lemma tree_checked l : tree_check l = true -> tree_like (lookup l).
Proof.
  unfold tree_check. rewrite forallb_forall. intros H p r Nr Hp Np. apply lookup_in in Hp as (e & Hin). specialize (H _ Hin). cbn [fst] in H. rewrite forallb_forall in H. specialize (H p (fronts_spec p r Np)).
  destruct (path_eq_dec p (p ++ r)%list) as [E|_]; [exfalso; apply Nr; apply (app_inv_head p); now rewrite app_nil_r|]. destruct (lookup l p) as [[]|]; congruence.
Qed.
Definition under (src : path) (l : list (path * entry)) : list path := map fst (filter (fun x => if path_eq_dec (firstn (List.length src) (fst x)) src then true else false) l).
Lemma under_walk src l : walk (lookup l) src (under src l).
Proof.
  intros p. unfold under. rewrite in_map_iff. split.
  - intros ((q & e) & <- & Hin). apply filter_In in Hin as (Hin & Hq). cbn [fst] in *. destruct (path_eq_dec (firstn (List.length src) q) src) as [E|]; [|discriminate]. split; [exists (skipn (List.length src) q); rewrite <- E at 1; now rewrite firstn_skipn|].
    clear - Hin. induction l as [|(x, y) l IH]; [destruct Hin|]. cbn. destruct (path_eq_dec x q); [discriminate|]. destruct Hin as [[= -> ->]|Hin]; [congruence|auto].
  - intros ((rel & ->) & N). apply lookup_in in N as (e & Hin). exists ((src ++ rel)%list, e). split; [reflexivity|]. apply filter_In. split; [exact Hin|]. cbn [fst].
    rewrite firstn_app, PeanoNat.Nat.sub_diag, firstn_all, app_nil_r. now destruct (path_eq_dec src src).
Qed.

(** A generator that accepts texts that do not start with '!' *)
Definition toy (text : string) : option string := match text with String "!" _ => None | _ => Some ("mod " ++ text) end.
Definition project : list (path * entry) :=
  [(["s"], Dir); (["s"; "a.flatdata"], File "A"); (["s"; "d.x"], Dir); (["s"; "d.x"; "b.c.flatdata"], File "B"); (["s"; "d.x"; "notes.txt"], File "N"); (["s"; ".flatdata"], File "!");
   (["o"], Dir); (["o"; "a.rs"], File "old"); (["o"; "x"], File "kept")].
Definition out_fs (x : fs * option path) : list (option entry) := map (fst x) [["o"; "a.rs"]; ["o"; "d.x"]; ["o"; "d.x"; "b.c.rs"]; ["o"; "x"]; ["o"; "d.x"; "notes.rs"]; ["s"; "a.flatdata"]].
Theorem C101_instance : tree_like (lookup project) /\ walk (lookup project) ["s"] (under ["s"] project) /\ NoDup (under ["s"] project)
  /\ snd (generate toy ["s"] ["o"] (under ["s"] project) (lookup project)) = None
  /\ out_fs (generate toy ["s"] ["o"] (under ["s"] project) (lookup project)) = [Some (File "mod A"); Some Dir; Some (File "mod B"); Some (File "kept"); None; Some (File "A")]
  /\ mirrored (lookup project) ["s"] ["o"] ["s"; "d.x"; "b.c.flatdata"] ["o"; "d.x"; "b.c.rs"]
  /\ snd (generate toy ["s"; "a.flatdata"] ["o"; "new"] [["s"; "a.flatdata"]] (lookup project)) = None
  /\ fst (generate toy ["s"; "a.flatdata"] ["o"; "new"] [["s"; "a.flatdata"]] (lookup project)) ["o"; "new"; "a.rs"] = Some (File "mod A").
Proof.
  split; [apply tree_checked; reflexivity|]. split; [apply under_walk|]. split; [|split; [reflexivity|split; [reflexivity|split; [|split; reflexivity]]]].
  - repeat (constructor; [cbn; intros H; repeat (destruct H as [H|H]; [discriminate H|]); exact H|]). constructor.
  - exists ["d.x"], "b.c". split; [discriminate|]. split; [reflexivity|]. left. split; reflexivity.
Qed.
(** C101, what is wrong: a folder called like a schema makes the helper fail, even though every schema is accepted; so does a folder
    called like the output of a schema next to it. *)
Definition odd_folder : list (path * entry) := [(["s"], Dir); (["s"; "v.flatdata"], Dir); (["s"; "v.flatdata"; "a.flatdata"], File "A")].
Definition odd_names : list (path * entry) := [(["s"], Dir); (["s"; "a.flatdata"], File "A"); (["s"; "a.rs"], Dir); (["s"; "a.rs"; "b.flatdata"], File "B")].
Theorem C101_refuted :
  (tree_like (lookup odd_folder) /\ walk (lookup odd_folder) ["s"] (under ["s"] odd_folder) /\ (forall p text, lookup odd_folder p = Some (File text) -> toy text <> None)
    /\ snd (generate toy ["s"] ["o"] (under ["s"] odd_folder) (lookup odd_folder)) = Some ["s"; "v.flatdata"])
  /\ (tree_like (lookup odd_names) /\ walk (lookup odd_names) ["s"] (under ["s"] odd_names) /\ (forall p text, lookup odd_names p = Some (File text) -> toy text <> None)
    /\ snd (generate toy ["s"] ["o"] (under ["s"] odd_names) (lookup odd_names)) = Some ["s"; "a.rs"; "b.flatdata"]).
Proof.
  split; (split; [apply tree_checked; reflexivity|split; [apply under_walk|split; [|reflexivity]]]); intros p text H.
  - assert (N : lookup odd_folder p <> None) by congruence. apply lookup_in in N as (e & [[= <- <-]|[[= <- <-]|[[= <- <-]|[]]]]); cbn in H; try discriminate; injection H as <-; discriminate.
  - assert (N : lookup odd_names p <> None) by congruence. apply lookup_in in N as (e & [[= <- <-]|[[= <- <-]|[[= <- <-]|[[= <- <-]|[]]]]]); cbn in H; try discriminate; injection H as <-; discriminate.
Qed.
Print Assumptions C101_generates.
Print Assumptions C101_only.
Print Assumptions C101_schemas.
Print Assumptions C101_failure.
Print Assumptions C101_succeeds.
Print Assumptions C101_folders.
Print Assumptions C101_instance.
Print Assumptions C101_refuted.
