(** Which declarations the generator creates nodes for: exactly the valid ones ([AcceptSpec]). *)
From Coq Require Import List ZArith Bool String Ascii Permutation Lia.
From Verif Require Import PyBase PyText Spec GenSpec GenTypes GenTypesFacts GenTree GenTreeFacts GenTraversal GenBuild GenBuildFacts GenMergeFacts GenAstSpec DeclSpec DeclFacts BuilderFacts AcceptSpec Props_GenTree.
Import ListNotations.
Local Open Scope Z_scope.

Lemma proper_ok n : proper_name n <-> name_ok n = true.
Proof.
  unfold proper_name, name_ok. rewrite andb_true_iff, !negb_true_iff. destruct (String.eqb_spec n ""); intuition congruence.
Qed.
Lemma make_node_iff n k : (exists t, make_node n k = Ok t) <-> proper_name n.
Proof. rewrite proper_ok. unfold make_node. destruct (name_ok n); split; intros H; eauto; try discriminate. destruct H as (t & H). discriminate. Qed.
Lemma make_node_proper n k : proper_name n -> make_node n k = Ok (Node n k []).
Proof. intros H. apply proper_ok in H. unfold make_node. now rewrite H. Qed.

(** references *)
Definition ref_node (m : refkind * string) : tree := Node (referencify (snd m)) (KRef (fst m)) [].
Lemma make_ref_eq r n : make_ref r n = Ok (ref_node (r, n)).
Proof. unfold make_ref, make_node. now rewrite referencify_ok. Qed.
Lemma referencify_inj a b : has_char "@" a = false -> has_char "@" b = false -> referencify a = referencify b -> a = b.
Proof. intros A B E. rewrite <- (dereferencify_referencify a A), <- (dereferencify_referencify b B). now rewrite E. Qed.
Lemma NoDup_referencify ns : Forall (fun n => has_char "@" n = false) ns -> (NoDup (map referencify ns) <-> NoDup ns).
Proof.
  intros F. split; [apply NoDup_map_inv|]. induction 1 as [|x l Hx N IH]; [constructor|]. inversion F; subst. cbn. constructor; [|now apply IH].
  rewrite in_map_iff. intros (y & E & Hy). rewrite Forall_forall in H2. apply referencify_inj in E; [now subst|now apply H2|assumption].
Qed.

Lemma insert_oks ds t : insert_all t (map Ok ds) = Ok (Node (t_name t) (t_kind t) (t_children t ++ ds)) <-> NoDup (map t_name ds) /\ (forall d, In d ds -> ~ In (t_name d) (map t_name (t_children t))).
Proof.
  assert (U : forall es, Forall2 (fun rc (d : tree) => rc = Ok d) (map Ok ds) es -> es = ds).
  { intros es F. apply (proj1 (oks_map _ _ _)) in F. clear t. induction F; [reflexivity|]. now injection H as <-; f_equal. }
  assert (R : Forall2 (fun rc (d : tree) => rc = Ok d) (map Ok ds) ds) by (apply oks_map; clear; induction ds; constructor; auto).
  split.
  - intros H. destruct (proj1 (insert_all_iff (map Ok ds) t)) as (es & F & N & X); [eauto|]. rewrite (U es F) in *. auto.
  - intros (N & X). destruct (proj2 (insert_all_iff (map Ok ds) t)) as (t' & H); [exists ds; auto|]. destruct (insert_all_ok _ _ _ H) as (es & F & -> & _). now rewrite (U es F) in H.
Qed.
Lemma insert_oks_some ds t : (exists t', insert_all t (map Ok ds) = Ok t') <-> NoDup (map t_name ds) /\ (forall d, In d ds -> ~ In (t_name d) (map t_name (t_children t))).
Proof.
  split; [|intros H; eexists; apply insert_oks; exact H]. intros (t' & H). apply insert_oks. destruct (insert_all_ok _ _ _ H) as (es & F & -> & _). apply (proj1 (oks_map _ _ _)) in F.
  assert (E : es = ds) by (clear - F; induction F; [reflexivity|]; now injection H as <-; f_equal). now rewrite E in H.
Qed.
Lemma insert_all_map {A} (f : A -> res tree) l ds t : Forall2 (fun x d => f x = Ok d) l ds -> insert_all t (map f l) = insert_all t (map Ok ds).
Proof. intros F. f_equal. induction F; cbn; [reflexivity|]. congruence. Qed.
Lemma insert_all_app cs ds t : insert_all t (cs ++ ds) = (t' <- insert_all t cs ;; insert_all t' ds).
Proof. unfold insert_all. revert t. induction cs as [|c cs IH]; intros t; cbn; [reflexivity|]. destruct (c' <- c ;; insert t c') as [t1|]; cbn; [apply IH|reflexivity]. Qed.

Lemma field_fold ds : forall t, foldM (fun t d => match d with FConst n => c <- make_ref RConstValue n ;; insert t c | FOptional n => c <- make_ref RInvalidValue n ;; insert t c | FRange _ => Ok t end) t ds
  = insert_all t (map Ok (map ref_node (constants_used ds))).
Proof.
  unfold insert_all. induction ds as [|d ds IH]; intros t; [reflexivity|]. cbn [foldM]. unfold constants_used in *. cbn [flat_map]. destruct d as [n|n|n]; cbn [app map foldM].
  - cbn [bind]. apply IH.
  - rewrite make_ref_eq. cbn [bind]. destruct (insert t _) as [t1|]; cbn [bind]; [apply IH|reflexivity].
  - rewrite make_ref_eq. cbn [bind]. destruct (insert t _) as [t1|]; cbn [bind]; [apply IH|reflexivity].
Qed.
Lemma names_refs ms : map t_name (map ref_node ms) = map referencify (map snd ms).
Proof. rewrite !map_map. reflexivity. Qed.
Lemma refs_apart k ms : NoDup (map t_name (map ref_node ms)) /\ (forall d, In d (map ref_node ms) -> ~ In (t_name d) (map t_name (t_children (Node k KRoot [])))) <-> NoDup (map referencify (map snd ms)).
Proof. rewrite names_refs. split; [now intros (N & _)|]. intros N. split; [exact N|]. intros d _ []. Qed.

Lemma create_constant_iff c : (exists t, create_constant c = Ok t) <-> constant_valid c.
Proof.
  unfold create_constant, constant_valid. split.
  - intros (t & H). apply bind_ok in H as (a & Ha & H). apply bind_ok in H as (v & Hv & _). split; [apply (make_node_iff _ (KConstant (pc_type c) 0)); eauto|].
    apply make_constant_ok in Hv as (s & Ss & Pv & R). exists (name_signed (pc_type c)), s, v. split; [now apply storage_spec|]. auto.
  - intros (N & sg & w & v & B & P & R). rewrite (make_node_proper _ _ N). cbn [bind]. assert (S : sg = name_signed (pc_type c)).
    { clear - B. cbn in B. repeat (destruct B as [[= <- <- <-]|B]; [reflexivity|]). destruct B. } subst sg. apply storage_spec in B.
    assert (make_constant (pc_name c) (pc_type c) (pc_value c) = Ok v) as -> by (apply make_constant_ok; eauto). cbn. eauto.
Qed.
Lemma basic_in ty : (exists w, storage_width ty = Some w) <-> In ty (map fst basic_types).
Proof.
  split; [intros (w & H); apply storage_spec in H; apply in_map_iff; eexists; split; [|exact H]; reflexivity|]. intros H. apply in_map_iff in H as ((n & sg & w) & <- & H). cbn [fst].
  assert (S : sg = name_signed n) by (clear - H; cbn in H; repeat (destruct H as [[= <- <- <-]|H]; [reflexivity|]); destruct H). subst. exists w. now apply storage_spec.
Qed.
Lemma signed_name ty sg w : In (ty, (sg, w)) basic_types -> sg = name_signed ty /\ storage_width ty = Some w.
Proof.
  intros H. assert (S : sg = name_signed ty) by (clear - H; cbn in H; repeat (destruct H as [[= <- <- <-]|H]; [reflexivity|]); destruct H). subst. split; [reflexivity|now apply storage_spec].
Qed.

Definition clean_names (ns : list string) : Prop := Forall (fun n => has_char "@" n = false) ns.
Lemma create_field_iff f : clean_names (field_names f) -> ((exists t, create_field f = Ok t) <-> field_valid f).
Proof.
  intros Cl. unfold field_names, field_valid in *. unfold create_field, is_basic_type. set (ms := constants_used (pf_decs f)) in *.
  pose proof (basic_in (pf_type f)) as Bi. destruct (in_dec string_dec (pf_type f) (map fst basic_types)) as [B|B].
  - rewrite app_nil_r in *. apply Bi in B as (w & Sw). unfold field_names. destruct (in_dec string_dec (pf_type f) (map fst basic_types)) as [_|X]; [|destruct X; apply Bi; eauto]. fold ms. rewrite app_nil_r. split.
    + intros (t & H). apply bind_ok in H as (a & Ha & H). split; [apply (make_node_iff _ (KField (first_range (pf_decs f)) None None)); eauto|]. apply make_node_ok in Ha as (_ & ->). rewrite field_fold in H. apply bind_ok in H as (b & Hb & H).
      split; [apply NoDup_referencify; [exact Cl|]; apply (refs_apart "" ms); apply (insert_oks_some (map ref_node ms) (Node (pf_name f) (KField (first_range (pf_decs f)) None None) [])); eauto|].
      intros sg st w' Hb' Dw. apply signed_name in Hb' as (_ & St). rewrite Sw in St. injection St as <-. rewrite Sw in H. apply bind_ok in H as (bt & Hbt & _). apply make_btype_ok in Hbt as (s & Ss & -> & L). rewrite Sw in Ss. injection Ss as <-.
      unfold declared_width in Dw. rewrite Dw in L. exact L.
    + intros (N & Nd & Wd). rewrite (make_node_proper _ _ N). cbn [bind]. rewrite field_fold. fold ms. apply NoDup_referencify in Nd; [|exact Cl]. apply (refs_apart "" ms) in Nd.
      apply (insert_oks_some (map ref_node ms) (Node (pf_name f) (KField (first_range (pf_decs f)) None None) [])) in Nd as (t & Ht). rewrite Ht. cbn [bind]. rewrite Sw.
      assert (exists b, make_btype (pf_type f) (option_map Z.of_N (pf_width f)) = Ok b) as (b & ->); [|cbn; eauto]. eexists. apply make_btype_ok. exists w. split; [exact Sw|]. split; [reflexivity|]. cbn [bt_width].
      destruct (pf_width f) as [x|] eqn:Px; cbn [option_map]; [|lia]. apply (Wd (name_signed (pf_type f)) w); [now apply storage_spec|]. unfold declared_width. now rewrite Px.
  - assert (Sw : storage_width (pf_type f) = None) by (destruct (storage_width (pf_type f)) eqn:E; [destruct B; apply Bi; eauto|reflexivity]).
    unfold field_names. destruct (in_dec string_dec (pf_type f) (map fst basic_types)) as [X|_]; [contradiction|]. fold ms. rewrite Sw.
    set (e := (REnum (option_map Z.of_N (pf_width f)), pf_type f)). assert (Em : (map snd ms ++ [pf_type f])%list = map snd (ms ++ [e])) by (rewrite map_app; reflexivity). rewrite Em in *.
    assert (Ef : forall t, (t <- insert_all t (map Ok (map ref_node ms));; c <- make_ref (fst e) (snd e);; insert t c) = insert_all t (map Ok (map ref_node (ms ++ [e])))).
    { intros t. rewrite !map_app, insert_all_app. destruct (insert_all t (map Ok (map ref_node ms))) as [t1|]; [|reflexivity]. cbn [bind]. rewrite make_ref_eq. unfold insert_all. cbn. now destruct (insert t1 _). }
    split.
    + intros (t & H). apply bind_ok in H as (a & Ha & H). split; [apply (make_node_iff _ (KField (first_range (pf_decs f)) None None)); eauto|]. apply make_node_ok in Ha as (_ & ->). rewrite field_fold in H. fold ms in H. change (REnum _) with (fst e) in H. change (make_ref (fst e) (pf_type f)) with (make_ref (fst e) (snd e)) in H. rewrite Ef in H.
      split; [apply NoDup_referencify; [exact Cl|]; apply (refs_apart "" (ms ++ [e])); apply (insert_oks_some (map ref_node (ms ++ [e])) (Node (pf_name f) (KField (first_range (pf_decs f)) None None) [])); eauto|].
      intros sg st w' Hb' _. apply signed_name in Hb' as (_ & St). congruence.
    + intros (N & Nd & _). rewrite (make_node_proper _ _ N). cbn [bind]. rewrite field_fold. fold ms. change (REnum _) with (fst e). change (make_ref (fst e) (pf_type f)) with (make_ref (fst e) (snd e)). rewrite Ef.
      apply NoDup_referencify in Nd; [|exact Cl]. apply (refs_apart "" (ms ++ [e])) in Nd. now apply (insert_oks_some (map ref_node (ms ++ [e])) (Node (pf_name f) (KField (first_range (pf_decs f)) None None) [])) in Nd.
Qed.

(** lists of declarations *)
Lemma create_list {A} (f : A -> res tree) (nm : A -> string) l n k cs0 : (forall x t, f x = Ok t -> t_name t = nm x) ->
  ((exists t, insert_all (Node n k cs0) (map f l) = Ok t) <-> (forall x, In x l -> exists t, f x = Ok t) /\ NoDup (map nm l) /\ (forall x, In x l -> ~ In (nm x) (map t_name cs0))).
Proof.
  intros Hn. assert (Nm : forall ds, Forall2 (fun x d => f x = Ok d) l ds -> map t_name ds = map nm l) by (intros ds F; induction F; cbn; [reflexivity|]; rewrite IHF; f_equal; auto). split.
  - intros H. apply insert_all_iff in H as (ds & F & N & X). apply (proj1 (oks_map _ _ _)) in F. pose proof (Nm ds F) as E. cbn [t_children] in X. split; [|split].
    + clear - F. induction F; intros z Hz; [destruct Hz|destruct Hz as [<-|Hz]; eauto].
    + now rewrite <- E.
    + intros x Hx. assert (Q : In (nm x) (map t_name ds)) by (rewrite E; now apply in_map). apply in_map_iff in Q as (d & <- & Hd). now apply X.
  - intros (H & N & X). assert (exists ds, Forall2 (fun x d => f x = Ok d) l ds) as (ds & F).
    { clear - H. induction l as [|x l IH]; [exists []; constructor|]. destruct (H x (or_introl eq_refl)) as (t & Ht). destruct IH as (ds & F); [intros; apply H; now right|]. exists (t :: ds). now constructor. }
    apply insert_all_iff. exists ds. split; [now apply oks_map|]. rewrite (Nm ds F). split; [exact N|]. intros d Hd. cbn [t_children]. apply (in_map t_name) in Hd. rewrite (Nm ds F) in Hd. apply in_map_iff in Hd as (x & <- & Hx). now apply X.
Qed.
Lemma field_name f t : create_field f = Ok t -> t_name t = pf_name f.
Proof. intros H. destruct (create_field_inv _ _ H) as (cs & _ & [(w & _ & ->)|(_ & e & _ & ->)]); reflexivity. Qed.
Lemma create_structure_iff st : (forall f, In f (ps_fields st) -> clean_names (field_names f)) -> ((exists t, create_structure st = Ok t) <-> structure_valid st).
Proof.
  intros Cl. unfold create_structure, structure_valid. rewrite Forall_forall. split.
  - intros (t & H). apply bind_ok in H as (a & Ha & H). split; [apply (make_node_iff _ (KStructure None)); eauto|]. apply make_node_ok in Ha as (_ & ->).
    destruct (proj1 (create_list create_field pf_name (ps_fields st) _ _ _ field_name) (ex_intro _ t H)) as (A & B & _). split; [exact B|]. intros f Hf. apply create_field_iff; auto.
  - intros (N & B & A). rewrite (make_node_proper _ _ N). cbn [bind]. apply (create_list create_field pf_name (ps_fields st) _ _ _ field_name). split; [|split; [exact B|intros x _ []]]. intros f Hf. apply create_field_iff; auto.
Qed.

(** explicit references, resources *)
Lemma has_dot_app a b : has_char "." (a ++ b)%string = has_char "." a || has_char "." b.
Proof. induction a as [|c a IH]; cbn; [reflexivity|]. now rewrite IH, orb_assoc. Qed.
Lemma explicit_proper x : proper_name (explicit_name x).
Proof.
  destruct x as [[a b] c]. unfold explicit_name, proper_name. split; [discriminate|]. unfold underscored. change ("er_" ++ ?y)%string with (String "e" (String "r" (String "_" y))). cbn [has_char].
  assert (U : forall s, has_char "." (replace_char "." "_" s) = false). { induction s as [|ch s IH]; cbn; [reflexivity|]. destruct (Ascii.eqb ch ".") eqn:E; cbn; [exact IH|now rewrite E]. }
  rewrite has_dot_app. cbn [has_char append]. rewrite !U. reflexivity.
Qed.
Lemma create_explicit_iff x : let '(a, b, c) := x in clean_names [c; (a ++ "." ++ b)%string; a] -> ((exists t, create_explicit a b c = Ok t) <-> explicit_valid x).
Proof.
  destruct x as [[a b] c]. intros Cl. unfold create_explicit, explicit_valid. fold (explicit_name (a, b, c)). rewrite (make_node_proper _ _ (explicit_proper (a, b, c))). cbn [bind]. rewrite !make_ref_eq.
  change [Ok (ref_node (RResource, c)); Ok (ref_node (RField, (a ++ "." ++ b)%string)); Ok (ref_node (RStructure, a))] with (map Ok (map ref_node [(RResource, c); (RField, (a ++ "." ++ b)%string); (RStructure, a)])).
  rewrite insert_oks_some. cbn [t_children]. rewrite names_refs. assert (Nd : NoDup (map snd [(RResource, c); (RField, (a ++ "." ++ b)%string); (RStructure, a)]) <-> c <> (a ++ "." ++ b)%string /\ c <> a).
  { cbn [map snd]. rewrite !NoDup_cons_iff. cbn [In]. assert (Q : (a ++ "." ++ b)%string <> a). { intros E. apply (f_equal String.length) in E. rewrite append_length in E. cbn in E. lia. }
    split; [intros (X & _); intuition congruence|]. intros (X & Y). repeat split; try tauto; [intuition congruence|intuition congruence|constructor]. }
  rewrite (NoDup_referencify _ Cl), Nd. split; [tauto|]. intros H. split; [exact H|]. intros d _ [].
Qed.
Definition make_explicit (x : string * string * string) : res tree := create_explicit (fst (fst x)) (snd (fst x)) (snd x).
Lemma explicit_fold ds : forall t, foldM (fun t d => match d with RExplicit ty f dest => c <- create_explicit ty f dest ;; insert t c | ROptional => Ok t end) t ds
  = insert_all t (map make_explicit (explicit_references ds)).
Proof.
  unfold insert_all, make_explicit. induction ds as [|d ds IH]; intros t; [reflexivity|]. cbn [foldM]. unfold explicit_references in *. cbn [flat_map]. destruct d as [a b c|]; cbn [app map foldM fst snd].
  - destruct (create_explicit a b c) as [x|]; cbn [bind]; [|reflexivity]. destruct (insert t x) as [t1|]; cbn [bind]; [apply IH|reflexivity].
  - cbn [bind]. apply IH.
Qed.
Lemma make_explicit_name x t : make_explicit x = Ok t -> t_name t = explicit_name x.
Proof.
  destruct x as [[a b] c]. unfold make_explicit, create_explicit. cbn [fst snd]. intros H. apply bind_ok in H as (n & Hn & H). apply make_node_ok in Hn as (_ & ->). apply insert_all_name in H. exact H.
Qed.
Definition resource_mentions (r : presource) : list string :=
  (flat_map (fun x => let '(a, b, c) := x in [c; (a ++ "." ++ b)%string; a]) (explicit_references (pr_decs r)) ++ map snd (types_used (pr_type r)))%list.
Lemma types_made ty : match ty with TRaw => [] | TVector n | TObject n => [make_ref RStructure n] | TMulti _ ns => map (make_ref RStructure) ns | TArchive n => [make_ref RArchive n] end
  = map Ok (map ref_node (types_used ty)).
Proof. destruct ty; cbn; rewrite ?make_ref_eq; try reflexivity. induction types as [|n ns IH]; [reflexivity|]. cbn. now rewrite make_ref_eq, IH. Qed.
Lemma create_resource_iff r : clean_names (resource_mentions r) -> ((exists t, create_resource r = Ok t) <-> resource_valid r).
Proof.
  intros Cl. unfold resource_mentions, clean_names in Cl. apply Forall_app in Cl as (Cx & Ct). unfold create_resource, resource_valid. set (rk := match pr_type r with TRaw => KRawData | _ => _ end). rewrite types_made. set (xs := explicit_references (pr_decs r)) in *. set (ts := types_used (pr_type r)) in *.
  assert (Fx : forall x, In x xs -> ((exists t, make_explicit x = Ok t) <-> explicit_valid x)).
  { intros x Hx. pose proof (create_explicit_iff x) as Q. destruct x as [[a b] c]. apply Q. apply Forall_forall. intros n Hn. rewrite Forall_forall in Cx. apply Cx. apply in_flat_map. exists (a, b, c). auto. }
  assert (Ap : forall ds d, Forall2 (fun x d => make_explicit x = Ok d) xs ds -> In d (map ref_node ts) -> ~ In (t_name d) (map t_name ds)).
  { intros ds d F Hd Hin. apply in_map_iff in Hd as (m & <- & _). assert (E : map t_name ds = map explicit_name xs) by (clear - F; induction F as [|x0 y0 l0 m0 H0 F IHF]; [reflexivity|]; cbn [map]; rewrite IHF; f_equal; now apply make_explicit_name).
    rewrite E in Hin. apply in_map_iff in Hin as (((a & b) & c) & Q & _). unfold explicit_name, ref_node, referencify in Q. cbn [t_name] in Q. discriminate. }
  split.
  - intros (t & H). apply bind_ok in H as (a & Ha & H). split; [apply (make_node_iff _ (KResource rk (has_optional (pr_decs r)) None)); eauto|]. apply make_node_ok in Ha as (_ & ->). rewrite explicit_fold in H. fold xs in H. apply bind_ok in H as (b & Hb & H).
    destruct (proj1 (create_list make_explicit explicit_name xs _ _ _ make_explicit_name) (ex_intro _ b Hb)) as (A & B & _). split; [apply Forall_forall; intros x Hx; apply Fx; auto|]. split; [exact B|].
    destruct (proj1 (insert_oks_some (map ref_node ts) b) (ex_intro _ t H)) as (N & _). rewrite names_refs in N. exact (proj1 (NoDup_referencify _ Ct) N).
  - intros (N & A & B & C). rewrite (make_node_proper _ _ N). cbn [bind]. rewrite explicit_fold. fold xs. rewrite Forall_forall in A.
    destruct (proj2 (create_list make_explicit explicit_name xs (pr_name r) (KResource rk (has_optional (pr_decs r)) None) [] make_explicit_name)) as (b & Hb); [split; [intros x Hx; apply Fx; auto|split; [exact B|intros x _ []]]|].
    rewrite Hb. cbn [bind]. apply insert_oks_some. rewrite names_refs. split; [exact (proj2 (NoDup_referencify _ Ct) C)|]. destruct (insert_all_ok _ _ _ Hb) as (ds & F & -> & _). cbn [t_children app]. apply (proj1 (oks_map _ _ _)) in F. intros d Hd. exact (Ap ds d F Hd).
Qed.
Lemma create_bound_iff b : clean_names (snd b) -> ((exists t, create_bound b = Ok t) <-> bound_valid b).
Proof.
  intros Cl. unfold create_bound, bound_valid. assert (E : map (make_ref RResource) (snd b) = map Ok (map ref_node (map (pair RResource) (snd b)))). { rewrite !map_map. apply map_ext. intros n. apply make_ref_eq. }
  rewrite E. assert (S : map snd (map (pair RResource) (snd b)) = snd b) by (rewrite map_map; apply map_id). split.
  - intros (t & H). apply bind_ok in H as (a & Ha & H). split; [apply (make_node_iff _ (KResource KBound false None)); eauto|]. destruct (proj1 (insert_oks_some _ _) (ex_intro _ t H)) as (N & _). rewrite names_refs, S in N. exact (proj1 (NoDup_referencify _ Cl) N).
  - intros (N & D). rewrite (make_node_proper _ _ N). cbn [bind]. apply insert_oks_some. rewrite names_refs, S. split; [exact (proj2 (NoDup_referencify _ Cl) D)|]. intros d _ [].
Qed.
Lemma resource_name r t : create_resource r = Ok t -> t_name t = pr_name r.
Proof. intros H. destruct (create_resource_inv _ _ H) as (es & cs & _ & _ & ->). reflexivity. Qed.
Lemma bound_name b t : create_bound b = Ok t -> t_name t = fst b.
Proof. intros H. destruct (create_bound_inv _ _ H) as (cs & _ & ->). reflexivity. Qed.
Lemma create_archive_iff a : (forall r, In r (pa_resources a) -> clean_names (resource_mentions r)) -> (forall b, In b (pa_bound a) -> clean_names (snd b)) ->
  ((exists t, create_archive a = Ok t) <-> archive_valid a).
Proof.
  intros Cr Cb. unfold create_archive, archive_valid. rewrite !Forall_forall.
  assert (Nm : forall ds, Forall2 (fun r d => create_resource r = Ok d) (pa_resources a) ds -> map t_name ds = map pr_name (pa_resources a)) by (intros ds F; clear - F; induction F; cbn; [reflexivity|]; rewrite IHF; f_equal; now apply resource_name).
  split.
  - intros (t & H). apply bind_ok in H as (x & Hx & H). split; [apply (make_node_iff _ KArchive); eauto|]. apply make_node_ok in Hx as (_ & ->). apply bind_ok in H as (y & Hy & H).
    destruct (proj1 (create_list create_resource pr_name _ _ _ _ resource_name) (ex_intro _ y Hy)) as (A & B & _). destruct (insert_all_ok _ _ _ Hy) as (ds & F & -> & _). apply (proj1 (oks_map _ _ _)) in F. cbn [t_name t_kind t_children app] in H.
    destruct (proj1 (create_list create_bound fst _ _ _ _ bound_name) (ex_intro _ t H)) as (A' & B' & D). rewrite (Nm ds F) in D. split; [|split].
    + apply NoDup_app_iff. split; [exact B|]. split; [exact B'|]. intros n Hn Hn'. apply in_map_iff in Hn' as (b & <- & Hb). exact (D b Hb Hn).
    + intros r Hr. apply create_resource_iff; auto.
    + intros b Hb. apply create_bound_iff; auto.
  - intros (N & Nd & A & B). apply NoDup_app_iff in Nd as (N1 & N2 & D). rewrite (make_node_proper _ _ N). cbn [bind].
    destruct (proj2 (create_list create_resource pr_name (pa_resources a) (pa_name a) KArchive [] resource_name)) as (y & Hy); [split; [intros r Hr; apply create_resource_iff; auto|split; [exact N1|intros x _ []]]|].
    rewrite Hy. cbn [bind]. destruct (insert_all_ok _ _ _ Hy) as (ds & F & -> & _). apply (proj1 (oks_map _ _ _)) in F. cbn [t_name t_kind t_children app].
    apply (create_list create_bound fst _ _ _ _ bound_name). split; [intros b Hb; apply create_bound_iff; auto|]. split; [exact N2|]. intros b Hb. rewrite (Nm ds F). intros Hn. exact (D _ Hn (in_map fst _ _ Hb)).
Qed.

(** enumerations *)
Lemma digits_dot z : has_char "." (py_str z) = false.
Proof.
  unfold py_str. assert (X : forall d, has_char "." (DecimalString.NilEmpty.string_of_uint d) = false) by (induction d; cbn [DecimalString.NilEmpty.string_of_uint has_char]; [reflexivity|..]; rewrite IHd; reflexivity).
  assert (Y : forall d, has_char "." (DecimalString.NilZero.string_of_uint d) = false) by (intros d; destruct d; try apply X; reflexivity).
  destruct (Z.to_int z) as [d|d]; [apply Y|]. change (false || has_char "." (DecimalString.NilZero.string_of_uint d) = false). apply Y.
Qed.
Lemma unknown_proper v : proper_name (unknown_name v).
Proof.
  unfold unknown_name, proper_name. split; [discriminate|]. rewrite has_dot_app. destruct (Z.ltb_spec v 0); [rewrite has_dot_app|]; rewrite digits_dot; reflexivity.
Qed.
Lemma add_missing_some seen range : NoDup range -> forall cs,
  (forall v, In v range -> ~ In v seen -> ~ In (unknown_name v) (map ev_name cs)) -> exists cs', add_missing seen cs range = Ok cs'.
Proof.
  unfold add_missing. induction range as [|v range IH]; cbn [foldM]; intros Hnd cs H; [now eexists|]. inversion Hnd as [|? ? Hv Hnd']; subst.
  destruct (zmem v seen) eqn:E; cbn [bind].
  - apply IH; [exact Hnd'|]. intros x Hx. apply H. now right.
  - apply zmem_false in E. rewrite insert_ev_fresh by (apply H; [now left|exact E]). cbn [bind]. apply IH; [exact Hnd'|].
    intros x Hx Hs. rewrite map_app, in_app_iff. intros [Hin|[Q|[]]]; [apply (H x); [now right|exact Hs|exact Hin]|]. cbn in Q. apply unknown_name_inj in Q. subst. contradiction.
Qed.
Lemma create_enumeration_iff so e : (forall l, Permutation (so l) l) -> ((exists t, create_enumeration so e = Ok t) <-> enumeration_valid e).
Proof.
  intros Hso. unfold enumeration_valid. split.
  - intros (t & H). destruct (create_enumeration_ok so e t Hso H) as (b & cs & Hc & -> & Fv & Hn). destruct (create_enum_ok so _ _ _ _ _ _ Hso Hc) as (Mb & Ne & ex & vs & gen & P & N & ND & R & Ecs & NDg & G & NDn & Lg & Ls).
    assert (L : List.length (map fst (pe_values e)) = List.length vs) by (destruct N as [Hl _]; apply Forall2_length in P; rewrite map_length in *; congruence).
    assert (En : map ev_name cs = (map fst (pe_values e) ++ map unknown_name gen)%list) by (rewrite Ecs, map_app, !map_map; cbn [ev_name]; now rewrite (map_fst_combine _ _ L)).
    rewrite En in NDn. apply NoDup_app_iff in NDn as (N1 & _ & N3). split; [now apply proper_ok|]. split.
    { apply Forall_forall. intros x Hx. apply proper_ok. assert (Q : In (fst x) (map ev_name cs)) by (rewrite En; apply in_app_iff; left; now apply in_map). apply in_map_iff in Q as (y & <- & Hy). rewrite Forall_forall in Fv. now apply Fv. }
    split; [exact Ne|]. split; [exact N1|]. apply make_btype_ok in Mb as (s & Ss & Eb & Lw). exists (name_signed (pe_type e)), s, (bt_width b), ex, vs.
    assert (Sg : bt_signed b = name_signed (pe_type e)) by (rewrite Eb; reflexivity). rewrite Sg in *.
    split; [now apply storage_spec|]. split; [rewrite Eb; now destruct (pe_width e)|]. split; [exact Lw|]. split; [exact P|]. split; [exact N|]. split; [exact ND|]. split; [exact R|]. split.
    { assert (Ez : zlen vs = zlen (pe_values e)) by (unfold zlen; rewrite <- L, map_length; reflexivity). lia. }
    intros v Rv Hv Hin. apply (N3 _ Hin). apply in_map. apply G. auto.
  - intros (Nn & Fn & Ne & N1 & sg & s & w & ex & vs & B & Ew & Lw & P & N & ND & R & Sp & U). apply signed_name in B as (-> & Ss). set (b := BT (pe_type e) w).
    assert (Mb : make_btype (pe_type e) (option_map Z.of_N (pe_width e)) = Ok b). { apply make_btype_ok. exists s. split; [exact Ss|]. split; [|exact Lw]. unfold b. rewrite Ew. now destruct (pe_width e). }
    assert (W0 : 0 <= w). { rewrite Ew. destruct (pe_width e); [lia|]. unfold storage_width in Ss. repeat match type of Ss with context [match ?x with _ => _ end] => destruct x; try discriminate Ss end; injection Ss as <-; lia. }
    assert (vs = values_from 0 ex) as Ev by (eapply numbered_unique; [exact N|apply values_from_numbered]).
    assert (Ne' : vs <> []). { intros E. destruct N as [Hl _]. rewrite E in Hl. apply Forall2_length in P. rewrite map_length in P. destruct (pe_values e); [now apply Ne|]. cbn in P, Hl. rewrite <- P in Hl. discriminate Hl. }
    assert (W1 : bt_signed b = true -> 1 <= w). { intros S. change (name_signed (pe_type e) = true) in S. destruct vs as [|v vs']; [now destruct Ne'|]. inversion R as [|? ? Rv _]; subst x l. rewrite S in Rv. unfold representable in Rv. destruct (Z.eq_dec w 0) as [->|]; [|lia]. cbn in Rv. lia. }
    destruct (assign_complete (pe_name e) (pe_values e) 0 [] [] ex P ltac:(constructor) N1) as (A & _). rewrite !app_nil_l in A. rewrite <- Ev in A. specialize (A ND).
    assert (Hr : exists r, value_range b = Ok r). { unfold value_range. cbn [bt_width b]. destruct (bt_signed b) eqn:S; [destruct (Z.ltb_spec w 1); [specialize (W1 eq_refl); lia|now eexists]|destruct (Z.ltb_spec w 0); [lia|now eexists]]. }
    destruct Hr as (r & Hr). destruct (value_range_ok _ _ Hr) as (Hr1 & Hr2 & _). assert (L : List.length (map fst (pe_values e)) = List.length vs) by (destruct N as [Hl _]; apply Forall2_length in P; rewrite map_length in *; congruence).
    destruct (add_missing_some vs r Hr1 (map (fun nv => EV (fst nv) (snd nv) false) (combine (map fst (pe_values e)) vs))) as (cs & Hcs).
    { intros v Hv Hs. rewrite map_map. cbn [ev_name]. rewrite (map_fst_combine _ _ L). apply U; [|exact Hs]. now apply Hr2 in Hv. }
    unfold create_enumeration. assert (Hc : create_enum so (pe_name e) (pe_type e) (option_map Z.of_N (pe_width e)) (pe_values e) = Ok (b, cs)).
    { unfold create_enum. rewrite Mb. cbn [bind]. rewrite A. cbn [bind]. destruct (Z.ltb_spec (zlen (pe_values e) * 2 + 256) (2 ^ bt_width b)) as [X|_]; [cbn [bt_width b] in X; lia|]. rewrite Hr. cbn [bind]. rewrite Hcs. cbn [bind].
      assert (check_values (pe_name e) b (so vs) = Ok tt) as -> by (apply check_values_ok; eapply Permutation_Forall; [apply Permutation_sym, Hso|exact R]). cbn [bind]. now destruct vs. }
    rewrite Hc. cbn [bind]. rewrite (make_node_proper _ _ Nn). cbn [bind t_name].
    assert (Fc : Forall (fun v => proper_name (ev_name v)) cs).
    { destruct (add_missing_ok _ _ _ _ Hcs) as (-> & _). apply Forall_app. split; apply Forall_forall; intros x Hx; apply in_map_iff in Hx as (y & <- & Hy); cbn [ev_name]; [|apply unknown_proper].
      destruct y as [n z]. apply in_combine_l in Hy. cbn [fst]. apply in_map_iff in Hy as (q & <- & Hq). rewrite Forall_forall in Fn. now apply Fn. }
    assert (mapM (fun v => make_node (ev_name v) (KEnumValue (ev_value v) (ev_auto v))) cs = Ok (map (fun v => Node (ev_name v) (KEnumValue (ev_value v) (ev_auto v)) []) cs)) as ->; [|eexists; reflexivity].
    apply mapM_ok. clear - Fc. induction Fc; cbn; constructor; [now apply make_node_proper|assumption].
Qed.

(** ** Whole schemas: the tree of definitions *)
Lemma mentions_clean s p n : identifiers s -> In p s -> In n (mentioned p) -> has_char "@" n = false.
Proof. intros I Hp Hn. apply plain_clean. exact (I p n Hp Hn). Qed.
Lemma dot_clean a b : has_char "@" a = false -> has_char "@" b = false -> has_char "@" (a ++ "." ++ b)%string = false.
Proof. intros A B. change ("." ++ b)%string with (String "." b). rewrite has_char_app, A. cbn. exact B. Qed.
Lemma field_mentions_clean s p st f : identifiers s -> In p s -> In st (pn_structures p) -> In f (ps_fields st) -> clean_names (field_names f).
Proof.
  intros I Hp Hs Hf. assert (M : forall n, In n (pf_type f :: flat_map fdec_mentions (pf_decs f)) -> has_char "@" n = false).
  { intros n Hn. apply (mentions_clean s p n I Hp). unfold mentioned. rewrite !in_app_iff. do 2 right. left. apply in_flat_map. exists st. split; [exact Hs|]. apply in_flat_map. eauto. }
  apply Forall_forall. intros n Hn. unfold field_names in Hn. apply in_app_iff in Hn as [Hn|Hn].
  - apply M. right. unfold constants_used in Hn. apply in_map_iff in Hn as (m & <- & Hm). apply in_flat_map in Hm as (d & Hd & Hm). apply in_flat_map. exists d. split; [exact Hd|]. destruct d; cbn in *; first [destruct Hm as [<-|[]]; now left | now destruct Hm].
  - destruct (in_dec _ _ _) in Hn; [destruct Hn|]. destruct Hn as [<-|[]]. apply M. now left.
Qed.
Lemma resource_mentions_clean s p a r : identifiers s -> In p s -> In a (pn_archives p) -> In r (pa_resources a) -> clean_names (resource_mentions r).
Proof.
  intros I Hp Ha Hr. apply Forall_forall. intros n Hn. unfold resource_mentions in Hn. apply in_app_iff in Hn as [Hn|Hn].
  - apply in_flat_map in Hn as (((x & y) & z) & Hx & Hn). assert (M : forall m, In m [x; y; z] -> has_char "@" m = false).
    { intros m Hm. apply (mentions_clean s p m I Hp). unfold mentioned, GenAstSpec.namespace_names. rewrite in_app_iff. left. right. rewrite !in_app_iff. do 3 right. apply in_flat_map. exists a. split; [exact Ha|]. right. apply in_app_iff. right. apply in_flat_map. exists r. split; [exact Hr|].
      right. apply in_flat_map. unfold explicit_references in Hx. apply in_flat_map in Hx as (d & Hd & Hx). exists d. split; [exact Hd|]. destruct d; cbn in Hx; [|destruct Hx]. destruct Hx as [[= -> -> ->]|[]]. exact Hm. }
    destruct Hn as [<-|[<-|[<-|[]]]]; [apply M; cbn; auto|apply dot_clean; apply M; cbn; auto|apply M; cbn; auto].
  - apply (mentions_clean s p n I Hp). unfold mentioned. rewrite !in_app_iff. do 4 right. apply in_flat_map. exists a. split; [exact Ha|]. apply in_app_iff. right. apply in_flat_map. exists r. split; [exact Hr|].
    destruct (pr_type r); cbn in *; try tauto. rewrite map_map in Hn. apply in_map_iff in Hn as (? & <- & Hn). exact Hn.
Qed.
Lemma bound_mentions_clean s p a b : identifiers s -> In p s -> In a (pn_archives p) -> In b (pa_bound a) -> clean_names (snd b).
Proof.
  intros I Hp Ha Hb. apply Forall_forall. intros n Hn. apply (mentions_clean s p n I Hp). unfold mentioned. rewrite !in_app_iff. do 4 right. apply in_flat_map. exists a. split; [exact Ha|]. apply in_app_iff. left. apply in_flat_map. eauto.
Qed.
Definition parts_valid (s : pschema) : Prop := forall p, In p s -> (forall k, In k (ns_keys p) -> k <> ""%string)
  /\ Forall constant_valid (pn_constants p) /\ Forall structure_valid (pn_structures p) /\ Forall enumeration_valid (pn_enumerations p) /\ Forall archive_valid (pn_archives p).
Lemma definitions_iff so s : any_order so -> identifiers s -> (definitions_valid so s <-> parts_valid s).
Proof.
  intros Hso I. unfold definitions_valid, parts_valid. split; intros H p Hp; destruct (H p Hp) as (K & A & B & C & D); rewrite ?Forall_forall in *; repeat (split; [solve [exact K | intros x Hx; apply create_constant_iff; auto | intros x Hx; apply (create_enumeration_iff so); auto
    | intros x Hx; apply create_structure_iff; [intros f Hf; exact (field_mentions_clean s p x f I Hp Hx Hf)|auto]]|]).
  all: intros x Hx; apply create_archive_iff; [intros r Hr; exact (resource_mentions_clean s p x r I Hp Hx Hr)|intros b Hb; exact (bound_mentions_clean s p x b I Hp Hx Hb)|auto].
Qed.
Lemma made_valid so s D : made so s D -> definitions_valid so s.
Proof.
  intros M p Hp. unfold made in M. assert (exists x, fst x = ns_keys p /\ ns_name_ok p /\ creations so p = map Ok (snd x)) as (x & _ & (_ & Nk) & E).
  { clear - M Hp. induction M as [|q x s D H M IH]; [destruct Hp|]. destruct Hp as [->|Hp]; eauto. }
  rewrite Forall_forall in Nk. split; [intros k Hk ->; specialize (Nk _ Hk); discriminate|].
  assert (All : forall rc, In rc (creations so p) -> exists t, rc = Ok t) by (intros rc Hrc; rewrite E in Hrc; apply in_map_iff in Hrc as (t & <- & _); eauto).
  unfold creations in All. repeat split; intros c Hc; apply All; rewrite !in_app_iff, !in_map_iff; eauto 8.
Qed.
Lemma build_accepts so s : any_order so -> identifiers s -> separated s -> ((exists t, build_node_tree so s = Ok t) <-> NoDup (defined_paths s) /\ parts_valid s).
Proof.
  intros Hso I S. rewrite <- (definitions_iff so s Hso I). split.
  - intros (t & H). destruct (build_iff so s S t H) as (D & M & ND & _). split; [|exact (made_valid _ _ _ M)]. rewrite (made_paths _ _ _ M) in ND. exact ND.
  - intros (ND & V). destruct (definitions_made so s V) as (D & M). destruct (build_total so s D S M) as (t & H & _); [rewrite (made_paths _ _ _ M); exact ND|eauto].
Qed.
