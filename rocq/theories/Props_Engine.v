(** C96: the inspector, connected with the generator: the engine finds the archive of a schema's only outermost namespace, and the
    archive that is opened shows what was written. *)
From Coq Require Import List ZArith Bool String Ascii Lia Permutation.
From Verif Require Import PyBase Spec PyText DataAccess Structure StructSpec Resources ResourceSpec Builder Archive ArchiveSpec OpenSpec HistorySpec Writer WriterFacts
  BuilderFacts ArchiveFacts HistoryFacts CrashFacts EndToEnd Props_Builder GenTypes GenTree GenTreeFacts GenTraversal GraphSpec GenBuild GenAstSpec GenBuildFacts GenPassFacts GenAstFacts
  GenLayoutFacts GenShapeFacts GenAstThms GenEvery GenFlatdata GenPython GenOutSpec GenOutFacts GenFinal GenModule GenClassNames GenWords UsableSpec GenUsable Props_Archive Props_GenTree Props_GenOutput
  GenTidy GenRender GenMentions GenDecode GenSame EmbedSpec Props_Embed SameSpec EvolveFacts Props_Same NestedSpec Props_Nested Props_NestedGen
  GrammarSpec Grammar GrammarNames Props_Grammar NormSpec NormText NormReady NormWritten Props_Norm EngineSpec GenEngine EngineFacts.
Import ListNotations.
Local Open Scope string_scope.
Local Open Scope Z_scope.

Lemma bytes_text_ascii text : bytes_text (ascii_bytes text) = text.
Proof.
  unfold bytes_text, ascii_bytes. induction text as [|c t IH]; [reflexivity|]. cbn [list_ascii_of_string map string_of_list_ascii].
  cbn [list_ascii_of_string map string_of_list_ascii] in IH. rewrite Nat2Z.id, ascii_nat_embedding. f_equal. exact IH.
Qed.
Lemma engine_root so ko text s root name : denotes text s -> build_ast so s = Ok root -> engine so ko (ascii_bytes text) name = module_archive ko root name.
Proof. intros D B. apply C68_parse in D. unfold engine, build_text. rewrite bytes_text_ascii, D. cbn [bind]. rewrite B. reflexivity. Qed.

Lemma archive_named so s root l t : any_order so -> (forall p, In p s -> written p) -> identifiers s -> separated s -> no_builtin s -> build_ast so s = Ok root ->
  at_loc root l = Some t -> t_kind t = KArchive -> named (t_name t).
Proof.
  intros Hso Wr I Sp Nb H Hl K. pose proof (well_named_clean s (identifiers_named s I)) as C. pose proof (identifiers_finished so s root Hso I Sp Nb H) as F.
  destruct (final_placed so s root Hso C Sp H l t Hl ltac:(now rewrite K)) as (ks & N & p & Hp & X).
  destruct (GenClassNames.definition_names root F l t Hl ltac:(now rewrite K)) as (N' & _). rewrite N' in N. injection N as _ N.
  destruct X as [(n & E & Hn)|(w & sz & _ & E)]; [|rewrite K in E; discriminate E]. rewrite <- N in E. apply app_inj_tail in E as (_ & ->).
  destruct (Wr p Hp) as (_ & W1 & W2 & W3 & W4). rewrite Forall_forall in W1, W2, W3, W4.
  unfold def_names in Hn. rewrite !in_app_iff in Hn. destruct Hn as [Hn|[Hn|[Hn|Hn]]]; apply in_map_iff in Hn as (c & <- & Hc); [apply (W1 c Hc)|apply (W2 c Hc)|apply (W3 c Hc)|apply (W4 c Hc)].
Qed.
Lemma named_nonempty n : named n -> n <> "".
Proof. intros (c & t & -> & _). discriminate. Qed.

(** ** What the engine finds *)
(** The archives of the only outermost namespace whose name does not contain "builtin" are found by their names, whatever else the
    schema declares.  Partial: for schemas whose generated classes have distinct names, as C63. *)
Theorem C96_finds_partial : forall so ko text s root n l t,
  any_order so -> same_members ko -> denotes text s -> separated s -> no_builtin s -> plain_namespaces s -> build_ast so s = Ok root ->
  distinct_classes root -> plain_resources root -> only_root s n ->
  at_loc root l = Some t -> t_kind t = KArchive -> namespaces root l = [n] ->
  exists a, engine so ko (ascii_bytes text) (t_name t) = Ok a /\ archive_is root l a.
Proof.
  intros so ko text s root n l t Hso Hko D Sp Nb Pn H Dc Pr On Hl K Ns. pose proof (identifiers_named s (denotes_identifiers _ _ D)) as W. pose proof (well_named_clean s W) as C.
  pose proof (build_ast_finished so s root Hso C Sp Nb H) as F. destruct (C63_module_partial so ko s root Hso Hko W Sp Nb H Pn Dc Pr) as (g & Eg & _ & Da & _). destruct (Da l t Hl K) as (a & E & _ & A).
  exists a. split; [|exact A]. rewrite (engine_root so ko text s root (t_name t) D H). destruct (root_found so s root Hso C Sp H F n On) as (u & Eu & Nu). unfold module_archive. rewrite Eu. cbn [bind]. rewrite Eg. cbn [bind].
  unfold py_class in E. rewrite Hl, Ns in E. change (join "_" [n]) with n in E. rewrite Nu. destruct (t_name t) as [|c r] eqn:Et; [|now rewrite E].
  exfalso. apply (named_nonempty (t_name t)); [|exact Et]. exact (archive_named so s root l t Hso (denotes_written _ _ D) (denotes_identifiers _ _ D) Sp Nb H Hl K).
Qed.
Print Assumptions C96_finds_partial.

(** Nothing else is found: what the engine returns is the archive whose class is called like the namespace and the name. *)
Theorem C96_only_partial : forall so ko text s root n name a,
  any_order so -> same_members ko -> denotes text s -> separated s -> no_builtin s -> plain_namespaces s -> build_ast so s = Ok root ->
  distinct_classes root -> plain_resources root -> only_root s n ->
  engine so ko (ascii_bytes text) name = Ok a ->
  exists l t, at_loc root l = Some t /\ t_kind t = KArchive /\ archive_is root l a /\ py_class root l = n ++ "_" ++ name.
Proof.
  intros so ko text s root n name a Hso Hko D Sp Nb Pn H Dc Pr On E. pose proof (identifiers_named s (denotes_identifiers _ _ D)) as W. pose proof (well_named_clean s W) as C.
  pose proof (build_ast_finished so s root Hso C Sp Nb H) as F. destruct (C63_module_partial so ko s root Hso Hko W Sp Nb H Pn Dc Pr) as (g & Eg & Ds & Da & Dn).
  rewrite (engine_root so ko text s root name D H) in E. destruct (root_found so s root Hso C Sp H F n On) as (u & Eu & Nu). unfold module_archive in E. rewrite Eu in E. cbn [bind] in E. rewrite Eg in E. cbn [bind] in E. rewrite Nu in E.
  assert (Q : dict_get g (n ++ "_" ++ name) = Some (ClsArchive a)). { destruct name as [|c r]; [discriminate E|]. destruct (dict_get g _) as [[sd st|a'|a']|]; try discriminate E. now injection E as ->. }
  destruct (Dn _ _ (dict_get_in _ _ _ Q)) as (l & t & Hl & Kd & X). exists l, t. split; [exact Hl|]. destruct X as [X|(Ka & X)].
  - destruct (t_kind t) eqn:Kt; try discriminate Kd.
    + destruct (Ds l t _ Hl Kt) as (sd & st & E' & _). rewrite <- X, Q in E'. discriminate E'.
    + split; [reflexivity|]. destruct (Da l t Hl Kt) as (a' & E' & _ & A). rewrite <- X, Q in E'. injection E' as <-. split; [exact A|now symmetry].
  - exfalso. destruct (Da l t Hl Ka) as (a' & _ & E' & _). rewrite <- X, Q in E'. discriminate E'.
Qed.
Print Assumptions C96_only_partial.

(** Schemas with two such namespaces, or with none, are refused whatever archive is asked for. *)
Theorem C96_ambiguous : forall so ko text s root name p q, any_order so -> denotes text s -> separated s -> build_ast so s = Ok root ->
  In p s -> In q s -> outermost p <> outermost q -> ~ contains "builtin" (outermost p) -> ~ contains "builtin" (outermost q) ->
  engine so ko (ascii_bytes text) name = Err RuntimeError.
Proof.
  intros so ko text s root name p q Hso D Sp H Hp Hq Ne Mp Mq. pose proof (well_named_clean s (identifiers_named s (denotes_identifiers _ _ D))) as C.
  rewrite (engine_root so ko text s root name D H). unfold module_archive. now rewrite (root_ambiguous so s root Hso C Sp H p q Hp Hq Ne Mp Mq).
Qed.
Theorem C96_no_root : forall so ko text s root name, any_order so -> denotes text s -> separated s -> build_ast so s = Ok root ->
  (forall p, In p s -> contains "builtin" (outermost p)) -> engine so ko (ascii_bytes text) name = Err RuntimeError.
Proof.
  intros so ko text s root name Hso D Sp H All. pose proof (well_named_clean s (identifiers_named s (denotes_identifiers _ _ D))) as C.
  rewrite (engine_root so ko text s root name D H). unfold module_archive. now rewrite (root_missing so s root Hso C Sp H All).
Qed.
Print Assumptions C96_ambiguous.
Print Assumptions C96_no_root.

(** ** The directory *)
Definition keys_of (d : fs) : list string := map fst d.
Lemma put_keys d n x k : In k (keys_of (fs_put d n x)) -> k = n \/ In k (keys_of d).
Proof. induction d as [|(m, y) d IH]; cbn; [intuition|]. destruct (String.eqb m n) eqn:E; cbn; [apply String.eqb_eq in E; subst; intuition|intuition]. Qed.
Lemma put_nodup d n x : NoDup (keys_of d) -> NoDup (keys_of (fs_put d n x)).
Proof.
  induction d as [|(m, y) d IH]; cbn; intros N; [repeat constructor; intros []|]. inversion N as [|? ? N1 N2]; subst. destruct (String.eqb m n) eqn:E; cbn.
  - apply String.eqb_eq in E. subst m. now constructor.
  - constructor; [|exact (IH N2)]. intros X. apply put_keys in X as [->|X]; [|contradiction]. rewrite String.eqb_refl in E. discriminate.
Qed.
Lemma ops_nodup ops : forall d, NoDup (keys_of d) -> NoDup (keys_of (apply_ops d ops)).
Proof. induction ops as [|o ops IH]; intros d N; [exact N|]. apply IH. destruct o; apply put_nodup; exact N. Qed.
Lemma in_keys {A} (d : list (string * A)) k : In k (map fst d) -> dict_get d k <> None.
Proof. induction d as [|(m, y) d IH]; cbn; [intros []|]. destruct (String.eqb m k) eqn:E; [discriminate|]. intros [->|H]; [rewrite String.eqb_refl in E; discriminate|auto]. Qed.

Lemma nodup_both {A} (l l' : list A) : NoDup l -> NoDup l' -> (forall x, In x l -> ~ In x l') -> NoDup (l ++ l')%list.
Proof.
  induction l as [|x l IH]; intros N N' D; [exact N'|]. inversion N as [|? ? N1 N2]; subst. cbn. constructor; [|apply IH; [exact N2|exact N'|intros y Hy; apply D; now right]].
  rewrite in_app_iff. intros [X|X]; [contradiction|]. apply (D x); [now left|exact X].
Qed.
(** Which engine is called with what, and what is opened *)
Lemma inspect_directory eng es n want text :
  In (n ++ ".archive") (map fst es) -> NoDup (map fst es) ->
  (want = Some n \/ want = None /\ forall k, In (k ++ ".archive") (map fst es) -> k = n) ->
  dict_get es ((n ++ ".archive") ++ ".schema") = Some (NFile text) -> text <> [] -> utf8_valid text = true ->
  inspect eng (StDir es) want = (a <- eng text n ;; open_archive a (StDir es)).
Proof.
  intros Hin Hnd Hw Hs Hne Hu. destruct (eng text n) as [a|e] eqn:E.
  - exact (C61_directory_partial eng es n want text a Hin Hnd Hw Hs Hne Hu E).
  - set (one := ADef "" [] []). pose proof (C61_directory_partial (fun _ _ => Ok one) es n want text one Hin Hnd Hw Hs Hne Hu eq_refl) as X. unfold inspect in *.
    destruct (select_signature (StDir es) want) as [sg|x] eqn:Es.
    + cbn [bind] in *. assert (sg = n ++ ".archive").
      { unfold select_signature in Es. destruct Hw as [->|(-> & U)].
        - destruct (signatures (StDir es)) as [|s1 [|s2 r]]; [discriminate| |]; destruct (existsb _ _); (discriminate || now injection Es as <-).
        - destruct (signatures (StDir es)) as [|s1 [|s2 r]] eqn:Eg; [discriminate| |discriminate]. injection Es as ->. assert (Hg : In sg (signatures (StDir es))) by (rewrite Eg; now left). apply filter_In in Hg as (H1 & H2). apply ends_with_spec in H2 as (k & ->). f_equal. now apply U. }
      subst sg. rewrite signature_name_spec in *. unfold read_schema, st_lookup, dir_get in *. rewrite Hs in *. destruct text as [|b tx]; [congruence|]. cbn [bind] in *. unfold decode in *. rewrite Hu in *. cbn [bind] in *. now rewrite E.
    + exfalso. unfold select_signature in Es. assert (Hf : In (n ++ ".archive") (signatures (StDir es))) by (apply filter_In; split; [exact Hin|apply ends_with_spec; eauto]).
      assert (Ex : existsb (String.eqb (n ++ ".archive")) (signatures (StDir es)) = true) by (apply existsb_exists; eexists; split; [exact Hf|apply String.eqb_refl]).
      destruct Hw as [->|(-> & U)].
      * destruct (signatures (StDir es)) as [|s1 [|s2 r]]; [destruct Hf| |]; rewrite Ex in Es; discriminate Es.
      * assert (N : NoDup (signatures (StDir es))) by now apply NoDup_filter. assert (All : forall y, In y (signatures (StDir es)) -> y = n ++ ".archive") by (intros y Hy; apply filter_In in Hy as (H1 & H2); apply ends_with_spec in H2 as (k & ->); f_equal; now apply U).
        destruct (signatures (StDir es)) as [|s1 [|s2 r]]; [destruct Hf|discriminate|]. inversion N as [|? ? N1 _]; subst. apply N1. left. now rewrite (All s1), (All s2) by (cbn; auto).
Qed.

  Lemma subdirs_nodup a subs : NoDup (map fst subs) -> NoDup (map fst (subdirs a subs)).
  Proof.
    assert (Inc : forall l k, In k (map fst (subdirs a l)) -> In k (map fst l)).
    { intros l k Hk. apply in_keys in Hk. destruct (in_dec string_dec k (map fst l)) as [X|X]; [exact X|]. rewrite subdirs_none in Hk by exact X. congruence. }
    induction subs as [|(m, c) t IH]; intros N; [constructor|]. cbn [map fst] in N. inversion N as [|? ? N1 N2]; subst. unfold subdirs. cbn [flat_map fst snd]. fold (subdirs a t). 
    destruct (dict_get (a_resources a) m) as [[[] sch o]|]; try exact (IH N2). cbn [app map fst]. constructor; [|exact (IH N2)]. intros X. apply N1. now apply Inc.
  Qed.
Section Written.
  Variables (a : adef) (before : fs) (sets : list (string * setval)) (subs : list (string * contents)).
  Hypothesis Hf : fits a (Contents before sets subs).
  Variable rest : list (string * rsig).
  Hypothesis (Q1 : has_char "." (a_name a) = false) (R1 : a_resources a = (archive_file a, RSig CRawData (a_schema a) false) :: rest) (V1 : forall n sig, In (n, sig) rest -> has_char "." n = false).
  Hypothesis (B0 : forall n, dict_get before (n ++ ".archive") = None) (B1 : NoDup (map fst before)).
  Let D := files_after before (build a (sets_of sets)).
  Let E := directory a (Contents before sets subs).

  Let Sa : split_on "." (archive_file a) = [a_name a; "archive"].
  Proof. unfold archive_file. change ".archive" with (String "." "archive"). apply split_dot2; [exact Q1|reflexivity]. Qed.
  Let Ss : split_on "." (schema_file (archive_file a)) = [a_name a; "archive"; "schema"].
  Proof. unfold schema_file, archive_file. rewrite app_assoc_str. change (".archive" ++ ".schema") with (String "." ("archive" ++ String "." "schema")). rewrite !split_append, (split_no_char _ _ Q1). reflexivity. Qed.
  Lemma set_names n v : In (n, v) sets -> exists sig, In (n, sig) rest.
  Proof.
    destruct (dir_parts a before sets subs Hf) as (_ & _ & _ & _ & _ & _ & Acc & _). intros Hi. destruct (Acc n v Hi) as (Ne & sig & Hs & _). rewrite R1 in Hs. destruct Hs as [X|Hs]; [injection X as X _; congruence|]. eauto.
  Qed.
  Lemma expected_split f c : dict_get (expected_files a sets) f = Some c -> exists n sig, In (n, sig) rest /\ In (split_on "." f) (file_keys n sig).
  Proof.
    intros H. apply expected_inv in H as (n & v & sig & p & ix & Hi & Ha & Hp & Hc). pose proof (set_get_file a n v sig p ix f c Ha Hp Hc) as Hff.
    destruct (set_names n v Hi) as (sig' & Hs). exists n, sig. apply dict_get_in in Ha. rewrite R1 in Ha. destruct Ha as [X|Ha].
    - exfalso. injection X as X _. destruct (dir_parts a before sets subs Hf) as (_ & _ & _ & _ & _ & _ & Acc & _). destruct (Acc n v Hi) as (Ne & _). congruence.
    - split; [exact Ha|]. rewrite <- (files_split n sig (V1 _ _ Ha)). now apply in_map.
  Qed.
  Lemma sub_names k : In k (map fst (subdirs a subs)) -> exists sig, In (k, sig) rest /\ OpenSpec.is_archive (r_container sig) = true /\ ~ In k (map fst sets).
  Proof.
    destruct (dir_parts a before sets subs Hf) as (G & _ & _ & _ & _ & _ & Acc & Hsub & _). intros Hk. destruct (in_dec string_dec k (map fst subs)) as [Hi|Hn]; [|apply in_keys in Hk; rewrite subdirs_none in Hk by exact Hn; congruence].
    apply in_map_iff in Hi as ((m, c) & Em & Hi). cbn in Em. subst m. destruct (Hsub k c Hi) as (a' & sch & opt & Hr & _). exists (RSig (CArchive a') sch opt).
    assert (Hr' : In (k, RSig (CArchive a') sch opt) rest) by (rewrite R1 in Hr; destruct Hr as [X|Hr]; [discriminate X|exact Hr]). split; [exact Hr'|]. split; [reflexivity|].
    intros Hs. apply in_map_iff in Hs as ((m, v) & Em & Hs). cbn in Em. subst m. destruct (Acc k v Hs) as (_ & sig & Hsig & Ha). pose proof (res_get a k _ (proj2 G) Hr) as X1. pose proof (res_get a k _ (proj2 G) Hsig) as X2. rewrite X1 in X2. injection X2 as <-. exact Ha.
  Qed.
  Lemma signature_listed : In (a_name a ++ ".archive") (map fst E).
  Proof.
    assert (X : dict_get E (archive_file a) <> None).
    { unfold E. rewrite (dir_entry a before sets subs). rewrite (dir_files a before sets subs Hf). destruct (dict_get (expected_files a sets) (archive_file a)); [discriminate|].
      destruct (String.eqb (schema_file (archive_file a)) (archive_file a)); [discriminate|]. rewrite String.eqb_refl. discriminate. }
    destruct (dict_get E (archive_file a)) as [x|] eqn:Ex; [|congruence]. apply dict_get_in in Ex. apply (in_map fst) in Ex. exact Ex.
  Qed.
  Lemma signature_only k : In (k ++ ".archive") (map fst E) -> k = a_name a.
  Proof.
    intros Hk. apply in_keys in Hk. unfold E in Hk. rewrite (dir_entry a before sets subs), (dir_files a before sets subs Hf) in Hk.
    assert (Sk : split_on "." (k ++ ".archive") = (split_on "." k ++ ["archive"])%list) by (change ".archive" with (String "." "archive"); rewrite split_append; reflexivity).
    pose proof (split_nonempty "." k) as Nk.
    destruct (dict_get (expected_files a sets) (k ++ ".archive")) as [c|] eqn:Ex.
    - exfalso. destruct (expected_split _ c Ex) as (n & sig & _ & Hi). rewrite Sk in Hi. apply in_file_keys in Hi. destruct (split_on "." k) as [|x xs]; [congruence|].
      destruct Hi as [H|[H|(_ & [H|H])]]; injection H as H1 H2; destruct xs as [|y [|z xs]]; discriminate H2.
    - destruct (String.eqb (schema_file (archive_file a)) (k ++ ".archive")) eqn:E1.
      + exfalso. apply String.eqb_eq in E1. apply (f_equal (split_on ".")) in E1. rewrite Ss, Sk in E1. apply (f_equal (@rev string)) in E1. rewrite rev_app_distr in E1. discriminate E1.
      + destruct (String.eqb (archive_file a) (k ++ ".archive")) eqn:E2.
        * apply String.eqb_eq in E2. unfold archive_file in E2. rewrite <- (signature_name_spec k), <- (signature_name_spec (a_name a)). now rewrite E2.
        * rewrite B0 in Hk. exfalso. destruct (dict_get (subdirs a subs) (k ++ ".archive")) as [x|] eqn:E3; [|congruence]. apply dict_get_in in E3. apply (in_map fst) in E3. cbn [fst] in E3. destruct (sub_names _ E3) as (sig & Hs & _). pose proof (split_dot1 _ (V1 _ _ Hs)) as X.
          rewrite Sk in X. destruct (split_on "." k) as [|x0 [|y xs]]; [congruence|discriminate X|discriminate X].
  Qed.
  Lemma schema_stored : dict_get E ((a_name a ++ ".archive") ++ ".schema") = Some (NFile (a_schema a)).
  Proof.
    change ((a_name a ++ ".archive") ++ ".schema") with (schema_file (archive_file a)). unfold E. rewrite (dir_entry a before sets subs), (dir_files a before sets subs Hf).
    destruct (dict_get (expected_files a sets) (schema_file (archive_file a))) as [c|] eqn:Ex; [|now rewrite String.eqb_refl].
    exfalso. destruct (expected_split _ c Ex) as (n & sig & _ & Hi). rewrite Ss in Hi. apply in_file_keys in Hi. destruct Hi as [H|[H|(_ & [H|H])]]; discriminate H.
  Qed.
  Lemma directory_nodup : NoDup (map fst E).
  Proof.
    unfold E. rewrite directory_eq, map_app, map_map. cbn [fst]. destruct (dir_parts a before sets subs Hf) as (G & _ & _ & _ & _ & Ns & _ & Hsub & _).
    assert (N1 : NoDup (map fst (files_after before (build a (sets_of sets))))) by (apply ops_nodup; exact B1). pose proof (subdirs_nodup a subs Ns) as N2.
    apply nodup_both; [exact N1|exact N2|]. intros k H1 H2. apply in_keys in H1. destruct (sub_names k H2) as (sig & Hs & Ka & Hn).
    assert (Ne : k <> archive_file a) by (intros ->; pose proof (split_dot1 _ (V1 _ _ Hs)) as X; rewrite Sa in X; discriminate X).
    apply H1. apply (dir_nothing a before sets subs Hf k sig k); [rewrite R1; now right|exact Ne|exact Hn|]. exact (proj1 (files_of_self _ _)).
  Qed.
End Written.

(** ** The schema that is stored *)
Lemma block_names n t : pn_name (normal_block n t) = n /\ forall k, In k (def_names (normal_block n t)) -> k = t_name t.
Proof.
  unfold normal_block. destruct (t_kind t) eqn:K; (split; [reflexivity|]); unfold def_names; cbn [pn_constants pn_structures pn_enumerations pn_archives map app In]; try (intros k []; fail); intros k [<-|[]];
    unfold normal_constant, normal_structure, normal_enum, normal_archive; rewrite ?K; reflexivity.
Qed.
Lemma stored_schema so input s root l a : any_order so -> denotes input s -> flat_namespaces s -> no_builtin s -> build_ast so s = Ok root -> builtins_unused root ->
  GenOutSpec.archive_is root l a ->
  exists out s', a_schema a = ascii_bytes out /\ denotes out s' /\ flat_namespaces s' /\ no_builtin s' /\ (plain_namespaces s -> plain_namespaces s').
Proof.
  intros Hso D Fl NB H U A. pose proof (denotes_identifiers _ _ D) as I. pose proof (flat_separated s Fl) as Sp.
  destruct A as [l t out rs Ht Kt Es Rs]. assert (Nl : ~ In "_builtin" (namespaces root l)).
  { intros X. pose proof (archive_outside so s root Hso (identifiers_named s I) Sp NB H l t Ht Kt) as Y. unfold is_builtin in Y. assert (Z : existsb (String.eqb "_builtin") (namespaces root l) = true) by (apply existsb_exists; exists "_builtin"; split; [exact X|reflexivity]). congruence. }
  destruct (C49_parses_partial so input s root l t Hso D Fl NB H U Ht ltac:(now rewrite Kt) Nl) as (out' & ds & ps & own & Eo & Pa & _ & Hin & Fp & No). rewrite Es in Eo. injection Eo as <-.
  exists out, (ps ++ [own])%list. split; [reflexivity|]. split; [exact (proj1 (C68_parse _ _) Pa)|].
  assert (X : forall q, In q (ps ++ [own])%list -> exists p, In p s /\ pn_name q = pn_name p /\ forall k, In k (def_names q) -> In k (def_names p)).
  { assert (One : forall d q, normal_of root d q -> (exists u, at_loc root d = Some u /\ is_supported (t_kind u) = true /\ ~ In "_builtin" (namespaces root d)) ->
      exists p, In p s /\ pn_name q = pn_name p /\ forall k, In k (def_names q) -> In k (def_names p)).
    { intros d q (u & Hu & Y) (u' & Hu' & Su & Nb). rewrite Hu in Hu'. injection Hu' as <-. destruct Y as [(_ & ->)|(Y & _)]; [|congruence].
      assert (Ku : defines (t_kind u) = true) by (destruct (t_kind u); try discriminate; reflexivity).
      destruct (known so s root Hso (denotes_written _ _ D) I Fl NB H d u Hu Ku Nb) as (p & Hp & Ns & _ & _ & Df). exists p. split; [exact Hp|]. rewrite Ns. destruct (block_names (join "." [pn_name p]) u) as (B1 & B2). split; [exact B1|].
      intros k Hk. rewrite (B2 k Hk). unfold def_names. rewrite !in_app_iff.
      destruct Df as [(c & Hc & v & _ & E)|[(c & Hc & sz & cs & E & _)|[(c & Hc & b & cs & ex & vs & E & _)|(c & Hc & cs & E & _)]]]; rewrite Hu in E; injection E as ->; cbn [t_name];
        [left|right; left|right; right; left|right; right; right]; now apply in_map. }
    intros q Hq. apply in_app_iff in Hq as [Hq|[<-|[]]].
    - assert (Hd : forall ds ps, Forall2 (normal_of root) ds ps -> In q ps -> exists d, In d ds /\ normal_of root d q) by (clear; intros ds ps F; induction F as [|d p ds ps N F IH]; intros Hq; [destruct Hq|destruct Hq as [Hq|Hq]; [subst; exists d; split; [now left|exact N]|]; destruct (IH Hq) as (d' & Hd & N'); exists d'; split; [now right|exact N']]).
      destruct (Hd ds ps Fp Hq) as (d & Hd' & N). apply Hin in Hd' as (_ & _ & De). exact (One d q N De).
    - apply (One l own No). exists t. split; [exact Ht|]. split; [now rewrite Kt|exact Nl]. }
  split; [|split].
  - intros q Hq. destruct (X q Hq) as (p & Hp & -> & _). now apply Fl.
  - intros q Hq. destruct (X q Hq) as (p & Hp & En & Hk). destruct (NB p Hp) as (N1 & N2). split; [unfold ns_keys in *; now rewrite En|]. intros Y. apply N2. now apply Hk.
  - intros Pn q Hq. destruct (X q Hq) as (p & Hp & -> & _). now apply Pn.
Qed.

(** ** What the inspector shows *)
(** What was written into a new directory with the classes generated from a schema, at any depth, is what the inspector shows, if
    it shows anything: the only archive of the directory or the one that was asked for.
    Partial: under the conditions of [C65_nested_partial] on the schema that was compiled, for schemas without dotted namespaces
    (the inspector cannot read others, see [C96_refuted]); and for stored schemas that satisfy the conditions of C63. *)
Theorem C96_shows_partial : forall so1 input s1 root1 l1 a1,
  any_order so1 -> denotes input s1 -> flat_namespaces s1 -> no_builtin s1 -> plain_namespaces s1 -> build_ast so1 s1 = Ok root1 -> builtins_unused root1 ->
  distinct_classes root1 -> usable_layouts root1 -> few_types root1 -> no_index_clash root1 -> GenOutSpec.archive_is root1 l1 a1 ->
  forall so2 ko2, any_order so2 -> same_members ko2 ->
  (forall root2, build_text so2 (bytes_text (a_schema a1)) = Ok root2 -> builtins_unused root2 /\ distinct_classes root2 /\ plain_resources root2) ->
  forall before sets subs want, fillable a1 (Contents before sets subs) -> NoDup (map fst before) -> (forall n, dict_get before (n ++ ".archive") = None) ->
  want = None \/ want = Some (a_name a1) ->
  forall rs, inspect (engine so2 ko2) (StDir (directory a1 (Contents before sets subs))) want = Ok rs ->
  exists a2, engine so2 ko2 (a_schema a1) (a_name a1) = Ok a2 /\ same_archive a1 a2 /\ shows a2 (Contents before sets subs) rs.
Proof.
  intros so1 input s1 root1 l1 a1 O1 D1 Fl NB Pn B1 U1 Dc Us Ft Ni A1 so2 ko2 O2 Hko Good before sets subs want Fi Nd0 E0 Hw rs Op.
  pose proof (denotes_identifiers _ _ D1) as I1. pose proof (flat_separated s1 Fl) as Sp1. pose proof (identifiers_finished so1 s1 root1 O1 I1 Sp1 NB B1) as F1.
  pose proof (final_words so1 s1 root1 O1 (well_named_clean s1 (identifiers_named s1 I1)) (identifiers_words s1 I1) B1) as W1. pose proof (archive_outside so1 s1 root1 O1 (identifiers_named s1 I1) Sp1 NB B1) as X1.
  pose proof (fillable_fits root1 F1 W1 X1 Us Ft Dc Ni _ l1 a1 A1 Fi) as Hf.
  destruct (stored_schema so1 input s1 root1 l1 a1 O1 D1 Fl NB B1 U1 A1) as (out & s2 & Eo & D2 & Fl2 & NB2 & Pn2).
  assert (Dots : exists rest, has_char "." (a_name a1) = false /\ a_resources a1 = (archive_file a1, RSig CRawData (a_schema a1) false) :: rest /\ forall n sig, In (n, sig) rest -> has_char "." n = false).
  { clear - F1 A1. destruct A1 as [l t s rs Ht Kt Es Rs]. exists rs. split; [exact (name_dot root1 F1 l t Ht)|]. split; [reflexivity|].
    intros n sig Hi. destruct (GenUsable.resources_in root1 l t Ht O _ rs Rs eq_refl n sig Hi) as (j & r & rk & o & m & s' & Hc & _ & <- & _). exact (name_dot root1 F1 _ r Hc). }
  destruct Dots as (rest & Q1 & R1 & V1). destruct (dir_parts a1 before sets subs Hf) as (_ & _ & S1 & _). destruct (S1 (archive_file a1) (RSig CRawData (a_schema a1) false)) as (Ne & Uv); [rewrite R1; now left|]. cbn [r_schema] in Ne, Uv.
  assert (Hw' : want = Some (a_name a1) \/ want = None /\ forall k, In (k ++ ".archive") (map fst (directory a1 (Contents before sets subs))) -> k = a_name a1).
  { destruct Hw as [->| ->]; [right|now left]. split; [reflexivity|]. intros k. exact (signature_only a1 before sets subs Hf rest Q1 R1 V1 E0 k). }
  rewrite (inspect_directory (engine so2 ko2) _ (a_name a1) want (a_schema a1) (signature_listed a1 before sets subs Hf) (directory_nodup a1 before sets subs Hf rest Q1 R1 V1 Nd0) Hw' (schema_stored a1 before sets subs Hf rest Q1 R1 V1) Ne Uv) in Op.
  destruct (engine so2 ko2 (a_schema a1) (a_name a1)) as [a2|e] eqn:Ee; [|discriminate Op]. cbn [bind] in Op. exists a2. split; [reflexivity|].
  unfold engine in Ee. destruct (build_text so2 (bytes_text (a_schema a1))) as [root2|e] eqn:Bt; [|discriminate Ee]. cbn [bind] in Ee. destruct (Good root2 eq_refl) as (U2 & Dc2 & Pr2).
  assert (B2 : build_ast so2 s2 = Ok root2). { unfold build_text in Bt. rewrite Eo, bytes_text_ascii in Bt. pose proof (proj2 (C68_parse out s2) D2) as Ps. rewrite Ps in Bt. exact Bt. }
  pose proof (denotes_identifiers _ _ D2) as I2. pose proof (flat_separated s2 Fl2) as Sp2.
  unfold module_archive in Ee. destruct (find_root_namespace root2) as [u|]; [|discriminate Ee]. cbn [bind] in Ee. destruct (generate_python ko2 root2) as [g|] eqn:Eg; [|discriminate Ee]. cbn [bind] in Ee.
  assert (A2 : exists l2, GenOutSpec.archive_is root2 l2 a2).
  { destruct (a_name a1) as [|c r]; [discriminate Ee|]. destruct (dict_get g (t_name u ++ "_" ++ String c r)) as [[sd st|a'|a']|] eqn:G; try discriminate Ee. injection Ee as ->.
    exact (Props_Same.module_archive so2 ko2 s2 root2 g _ a2 O2 Hko (identifiers_named s2 I2) Sp2 NB2 B2 (Pn2 Pn) Dc2 Pr2 Eg G). }
  destruct A2 as (l2 & A2).
  apply (C65_nested_partial so1 s1 root1 so2 s2 root2 l1 a1 l2 a2 O1 I1 Sp1 NB B1 U1 Dc Us Ft Ni O2 I2 Sp2 NB2 B2 U2 A1 A2 before sets subs Fi (E0 (a_name a2)) rs Op).
Qed.
Print Assumptions C96_shows_partial.
