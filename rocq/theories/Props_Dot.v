(** C100: the diagrams of flatdata-generator (dot). *)
From Verif Require Import Props_Grammar.
From Coq Require Import List ZArith Bool String Ascii Lia Permutation.
From Verif Require Import PyBase PyText GenTypes GenTypesFacts GenTree GenTreeFacts GraphSpec GenTraversal GenTraversalFacts
  GenBuild GenBuildFacts GenPassFacts GenAstFacts GenAstSpec GenLayoutFacts GenResolveFacts GenMergeFacts GenShapeFacts GenEvery GenFieldFacts GenWords GenFlatdata GenOutFacts GenFinal GenRender
  GenModule GenSame GenClassNames GenPaths GrammarSpec Grammar GrammarLex GrammarNames NormSpec NormLex NormText NormWritten NormReady Props_GenTree Props_Embed Props_Paths GenDot DotSpec DotFacts DotFields DotLabels.
Import ListNotations.
Local Open Scope string_scope.

(** C100: there is a cluster for every namespace, every archive and every resource that no other resource binds, and for nothing else; and
    nodes for these resources: one for each of their structures, with a port for each of its fields, or one without ports. *)
Theorem C100_drawing : forall so s root, generated so s root -> plainly_bound root ->
  exists ss es, diagram root = Ok (ss, es)
  /\ (forall c, In c (flat_map clusters ss) <-> exists l u id, at_loc root l = Some u /\ called root l id /\ c = "cluster_" ++ id
        /\ (t_kind u = KNamespace \/ t_kind u = KArchive \/ exists rk, resource_at root l rk /\ ~ hidden root l))
  /\ (forall id ports, In (id, ports) (flat_map nodes ss) <-> exists l rk, resource_at root l rk /\ ~ hidden root l /\ node_of root l id ports).
Proof.
  intros so s root G PB. destruct (generated_finished so s root G) as (F & _). destruct (drawing root F PB) as (ss & E & C & N). destruct (arrowing root F PB) as (es & Ea & _).
  exists ss, es. split; [unfold diagram; rewrite E; cbn [bind]; rewrite Ea; reflexivity|]. split; [exact C|exact N].
Qed.
(** C100: there is an arrow for every explicit reference, between everything that stands for its resource and everything that stands for
    the resource it refers to, and there are no others. *)
Theorem C100_arrows : forall so s root ss es, generated so s root -> plainly_bound root -> diagram root = Ok (ss, es) ->
  (forall a, In a es -> exists l s f d o h, refers root l s f d /\ stands_for root l o /\ stands_for root d h /\ arrow_between root o s f h a)
  /\ (forall l s f d o h, refers root l s f d -> stands_for root l o -> stands_for root d h -> exists a, In a es /\ arrow_between root o s f h a).
Proof.
  intros so s root ss es G PB E. destruct (generated_finished so s root G) as (F & _). destruct (arrowing root F PB) as (es' & Ea & X). unfold diagram in E. apply bind_ok in E as (ss' & _ & E). rewrite Ea in E. cbn [bind] in E. injection E as _ <-. exact X.
Qed.
(** C100: every arrow starts at a port of a node, and ends at a node and a cluster, that are in the diagram. *)
Theorem C100_connected : forall so s root ss es, generated so s root -> single_fields s -> plainly_bound root -> diagram root = Ok (ss, es) -> forall a, In a es -> connected ss a.
Proof.
  intros so s root ss es G Si PB E a Ha. destruct (C100_arrows so s root ss es G PB E) as (So & _). destruct (C100_drawing so s root G PB) as (ss' & es' & E' & C & N). rewrite E in E'. injection E' as <- <-.
  destruct (So a Ha) as (l & st & f & d & o & h & Rf & Sl & Sd & Ab). destruct (generated_finished so s root G) as (F & _). pose proof G as (Hso & I & Sp & NB & H).
  destruct (visible_arrow root F PB (fields_own so s root Hso I Sp NB Si H) l st f d o h a Rf Sl Sd Ab) as ((ports & (m & rk & X) & Hp) & (tp & m' & rk' & X') & (m2 & u & id & X2)). split; [|split].
  - exists ports. split; [apply N; exists m, rk; exact X|exact Hp].
  - exists tp. apply N. exists m', rk'. exact X'.
  - apply C. exists m2, u, id. exact X2.
Qed.

(** ** The grammar: explicit references name their field by one word *)
Definition single_resource (r : presource) : Prop := Forall (fun d => match d with RExplicit st f _ => st <> "" /\ has_char "." f = false | ROptional => True end) (pr_decs r).
Lemma named_single n : named n -> has_char "." n = false.
Proof.
  intros (c & t & -> & A & B). cbn [has_char]. apply orb_false_iff. split; [destruct (Ascii.eqb_spec "." c) as [<-|]; [discriminate|destruct (Ascii.eqb_spec c "."); [subst; discriminate|reflexivity]]|].
  clear A. induction t as [|d t IH]; [reflexivity|]. cbn in B |- *. apply andb_true_iff in B as (B1 & B2). rewrite (IH B2), orb_false_r. destruct (Ascii.eqb_spec d "."); [subst; discriminate|reflexivity].
Qed.
Lemma piece_nonempty ps ys : ps <> [] -> sequence g_piece ps ys -> spelled_well ys -> String.concat "" ps <> "".
Proof.
  intros Ne (xss & Fo & ->) W. destruct Fo as [|p xs ps xss G _]; [congruence|]. cbn [List.concat] in W.
  assert (p <> "") as Np. { destruct G as [->|(n & -> & ->)]; [|discriminate]. wells. intros ->. match goal with X : well_spelled (Ident "") |- _ => destruct X as (c & t & Q & _); discriminate end. }
  destruct p as [|c p]; [congruence|]. destruct ps as [|q ps]; cbn; discriminate.
Qed.
Lemma resource_single p xs : g_resource p xs -> spelled_well xs -> single_resource p.
Proof.
  intros (c & ds & ts & _ & Sq & _ & ->) W. wells. refine (sequence_all g_resource_decoration _ _ _ _ Sq _); [|eassumption].
  intros d zs G Wz. destruct d as [st f t|]; [|exact Logic.I]. destruct G as (ps & ys & Ne & -> & Sp & ->). cbn [app] in *. wells. split; [apply (piece_nonempty ps ys Ne Sp); assumption|]. apply named_single. assumption.
Qed.
Definition single_definition (d : definition) : Prop := match d with DArchive p => Forall single_resource (pa_resources p) | _ => True end.
Lemma definition_single d xs : g_definition d xs -> spelled_well xs -> single_definition d.
Proof.
  destruct d as [p|p|p|p]; cbn [g_definition single_definition]; intros G W; try exact Logic.I. destruct G as (bs & rs & Sb & Sr & ->). cbn [app] in W. wells. refine (sequence_all g_resource _ resource_single _ _ Sr _). assumption.
Qed.
Lemma body_single ds : forall xs, g_body ds xs -> spelled_well xs -> Forall single_definition ds.
Proof.
  induction ds as [|d ds IH]; intros xs G W; [constructor|]. cbn [g_body] in G. destruct G as (cs & ys & zs & _ & Gd & Gz & ->). wells. constructor; [exact (definition_single _ _ Gd ltac:(assumption))|exact (IH _ Gz ltac:(assumption))].
Qed.
Lemma namespace_single p xs : g_namespace p xs -> spelled_well xs -> Forall (fun a => Forall single_resource (pa_resources a)) (pn_archives p).
Proof.
  intros (ds & body & c & G & _ & Ep & ->) W. cbn [app] in W. wells. rewrite Ep. cbn [pn_archives]. pose proof (body_single ds body G ltac:(assumption)) as F. apply Forall_forall. intros a Ha. apply in_flat_map in Ha as (d & Hd & Ha).
  rewrite Forall_forall in F. specialize (F d Hd). destruct d as [q|q|q|q]; try contradiction. destruct Ha as [<-|[]]. exact F.
Qed.
(** C100: the schemas that texts declare do so *)
Theorem C100_single_fields : forall text s, denotes text s -> single_fields s.
Proof.
  intros text s [(_ & ->)|(xs & (cs & ns & _ & _ & Sq & ->) & (r & R & _))] p a x st f dest Hp; [destruct Hp|]. intros Ha Hx Hd.
  apply reads_well in R. wells. pose proof (sequence_all g_namespace _ namespace_single _ _ Sq ltac:(assumption)) as Fo. rewrite Forall_forall in Fo. specialize (Fo p Hp). rewrite Forall_forall in Fo. specialize (Fo a Ha). rewrite Forall_forall in Fo. specialize (Fo x Hx).
  unfold single_resource in Fo. rewrite Forall_forall in Fo. exact (Fo _ Hd).
Qed.

(** ** No two nodes have the same identifier *)
Lemma underscores_app a b : underscores (a ++ b) = underscores a ++ underscores b.
Proof. induction a as [|c a IH]; [reflexivity|]. cbn. now rewrite IH. Qed.
Lemma leading_app a : forall st b, leading_only st a = true -> leading_only false b = true -> leading_only st (a ++ b) = true.
Proof.
  induction a as [|c a IH]; intros st b A B0; cbn in *; [destruct st; [discriminate|exact B0]|]. apply andb_true_iff in A as (A1 & A2). rewrite A1. exact (IH _ b A2 B0).
Qed.
Lemma underscores_inj a : forall st b, leading_only st a = true -> leading_only st b = true -> underscores a = underscores b -> a = b.
Proof.
  induction a as [|c a IH]; intros st b A B0 E; destruct b as [|d b]; try discriminate; [reflexivity|]. cbn in *. apply andb_true_iff in A as (A1 & A2), B0 as (B1 & B2). injection E as E1 E2.
  assert (c = d) as ->. { destruct (Ascii.eqb_spec c "."), (Ascii.eqb_spec d "."); subst; try reflexivity; try exact E1; cbn in *; destruct st; discriminate. }
  f_equal. exact (IH _ b A2 B2 E2).
Qed.
Lemma string_app_eq a : forall b c d, a ++ c = b ++ d -> (exists x, b = a ++ x /\ c = x ++ d) \/ exists x, a = b ++ x /\ d = x ++ c.
Proof.
  induction a as [|k a IH]; intros b c d E; [left; exists b; split; [reflexivity|exact E]|]. destruct b as [|k' b]; [right; exists (String k a); split; [reflexivity|symmetry; exact E]|]. cbn in E. injection E as -> E.
  destruct (IH b c d E) as [(x & -> & ->)|(x & -> & ->)]; [left|right]; exists x; auto.
Qed.
Lemma len_app a b : String.length (a ++ b) = (String.length a + String.length b)%nat.
Proof. induction a as [|c a IH]; [reflexivity|]. cbn. now rewrite IH. Qed.
Lemma resource_not_below so s root l q rk rk' : generated so s root -> resource_at root l rk -> resource_at root (l ++ q)%list rk' -> q = [].
Proof.
  intros G (t & o & m & Ht & Kt) (t' & o' & m' & Ht' & Kt'). destruct (generated_finished so s root G) as (F & _). pose proof G as (Hso & I & Sp & NB & H). pose proof (f_built _ F) as Bu.
  destruct (resource_parent root F _ t' rk' o' m' Ht' Kt') as (p & i & a & E & _ & Ha & Ka & _). destruct q as [|j q _] using rev_ind; [reflexivity|]. exfalso. rewrite app_assoc in E. apply app_inj_tail in E as (<- & _).
  destruct q as [|k q _] using rev_ind; [rewrite app_nil_r, Ht in Ha; injection Ha as <-; congruence|]. rewrite app_assoc in Ha. destruct (definition_parent root _ a true (b_rooted _ Bu) (b_shape _ Bu) Ha ltac:(now rewrite Ka)) as (p' & j' & x & E & Hx & Kx & _).
  apply app_inj_tail in E as (<- & _). pose proof (namespaces_up so s root Hso I Sp NB H l q t x Ht Hx ltac:(now rewrite Kx)) as O. now rewrite Kt in O.
Qed.
Lemma path_dot so s root d p i : generated so s root -> path_at root (d ++ [i])%list = Some p -> exists r, p = String "." r.
Proof.
  intros G P. destruct (generated_finished so s root G) as (F & _). pose proof (f_built _ F) as Bu. pose proof (path_names root F _ p P) as N. destruct (proj2 (names_at_some root _) (ex_intro _ _ N)) as (u & Hu). destruct (parent_at _ _ _ _ Hu) as (v & Hv & Hi).
  destruct (proj1 (names_at_some root d) (ex_intro _ v Hv)) as (ns & Nd). pose proof (names_snoc root d i v u ns Hv Hi Nd) as N2. rewrite N in N2. injection N2 as N2. destruct (names_find root d (good_wf _ (proj1 (b_rooted _ Bu))) _ Nd) as (ks & -> & _). rewrite (proj1 (proj2 (b_rooted _ Bu))) in N2.
  destruct p as [|c p]; [cbn in N2; destruct ks; discriminate|]. cbn [split_on] in N2. destruct (Ascii.eqb_spec c ".") as [->|Nc]; [eauto|]. destruct (split_on "." p) as [|w ws]; discriminate.
Qed.
Lemma path_same so s root l l' p : generated so s root -> path_at root l = Some p -> path_at root l' = Some p -> l = l'.
Proof. intros G P P'. destruct (generated_finished so s root G) as (F & _). exact (names_unique root F l l' _ (path_names root F _ _ P) (path_names root F _ _ P')). Qed.
Lemma resource_path_prefix so s root l l' rk rk' p x : generated so s root -> resource_at root l rk -> resource_at root l' rk' -> path_at root l = Some p -> path_at root l' = Some (p ++ String "." x) -> False.
Proof.
  intros G R R' P P'. pose proof G as (Hso & I & Sp & NB & H). pose proof R as (t & o & m & Ht & Kt). destruct (declared_below so s root Hso I Sp NB H l x l' t Ht) as (q & ->); [exists p; split; [exact P|exact P']|].
  rewrite (resource_not_below so s root l q rk rk' G R R'), app_nil_r, P in P'. injection P' as P'. clear - P'. apply (f_equal String.length) in P'. rewrite len_app in P'. cbn in P'. lia.
Qed.
(** C100: if names have no underscores but leading ones, a node's identifier is that of one resource and one of its structures only. *)
Theorem C100_distinct : forall so s root l l' rk rk' id ports ports', generated so s root -> resource_at root l rk -> resource_at root l' rk' ->
  plainly_named root l -> plainly_named root l' -> (forall d, shows root l d \/ shows root l' d -> plainly_named root d) ->
  node_of root l id ports -> node_of root l' id ports' -> l = l' /\ ports = ports'.
Proof.
  intros so s root l l' rk rk' id ports ports' G R R' (p & P & Lp) (p' & P' & Lp') Ld N N'. destruct (generated_finished so s root G) as (F & _).
  assert (Dot : forall m d, shows root m d -> forall q, path_at root d = Some q -> exists r, q = String "." r).
  { intros m d S0 q Q. destruct (shown_struct root F m d S0) as (v & sz & Hv & Kv). destruct d as [|i d _] using rev_ind; [|exact (path_dot so s root d q i G Q)]. cbn in Hv. injection Hv as <-. pose proof (b_rooted _ (f_built _ F)) as (_ & _ & K0). congruence. }
  assert (One : forall a b k, path_at root a = Some k -> called root a b -> b = underscores k). { intros a b k K (k' & K' & ->). congruence. }
  destruct N as [(d & S0 & (a & b & Ca & Cb & E) & Po)|(Nd & C & ->)]; destruct N' as [(d' & S0' & (a' & b' & Ca' & Cb' & E') & Po')|(Nd' & C' & ->)].
  - destruct (Ld d (or_introl S0)) as (k & K & Lk). destruct (Ld d' (or_intror S0')) as (k' & K' & Lk'). rewrite (One _ _ _ P Ca), (One _ _ _ K Cb) in E. rewrite (One _ _ _ P' Ca'), (One _ _ _ K' Cb') in E'. rewrite E, <- !underscores_app in E'.
    apply (underscores_inj _ false) in E'; [|now apply leading_app|now apply leading_app]. destruct (Dot l d S0 k K) as (r & ->). destruct (Dot l' d' S0' k' K') as (r' & ->).
    assert (l = l') as <-.
    { destruct (string_app_eq _ _ _ _ E') as [([|c x] & -> & Ex)|([|c x] & -> & Ex)]; cbn in Ex.
      - rewrite str_nil in P'. exact (path_same so s root l l' p G P P').
      - injection Ex as <- _. destruct (resource_path_prefix so s root l l' rk rk' p x G R R' P P').
      - rewrite str_nil in P. exact (path_same so s root l l' p' G P P').
      - injection Ex as <- _. destruct (resource_path_prefix so s root l' l rk' rk p' x G R' R P' P). }
    split; [reflexivity|]. rewrite P in P'. injection P' as <-. destruct (string_app_eq _ _ _ _ E') as [(x & Ex & Ey)|(x & Ex & Ey)].
    + assert (x = "") as ->. { clear - Ex. apply (f_equal String.length) in Ex. rewrite len_app in Ex. destruct x; [reflexivity|cbn in Ex; lia]. }
      cbn in Ey. rewrite Ey in K. assert (d = d') as <- by exact (path_same so s root d d' _ G K K'). exact (ports_fun root l d _ _ Po Po').
    + assert (x = "") as ->. { clear - Ex. apply (f_equal String.length) in Ex. rewrite len_app in Ex. destruct x; [reflexivity|cbn in Ex; lia]. }
      cbn in Ey. rewrite Ey in K'. assert (d = d') as <- by exact (path_same so s root d d' _ G K K'). exact (ports_fun root l d _ _ Po Po').
  - exfalso. destruct (Ld d (or_introl S0)) as (k & K & Lk). rewrite (One _ _ _ P Ca), (One _ _ _ K Cb), <- underscores_app in E. rewrite (One _ _ _ P' C') in E. apply (underscores_inj _ false) in E; [|assumption|now apply leading_app]. subst p'.
    destruct (Dot l d S0 k K) as (r & ->). exact (resource_path_prefix so s root l l' rk rk' p r G R R' P P').
  - exfalso. destruct (Ld d' (or_intror S0')) as (k & K & Lk). rewrite (One _ _ _ P' Ca'), (One _ _ _ K Cb'), <- underscores_app in E'. rewrite (One _ _ _ P C) in E'. apply (underscores_inj _ false) in E'; [|assumption|now apply leading_app]. subst p.
    destruct (Dot l' d' S0' k K) as (r & ->). exact (resource_path_prefix so s root l' l rk' rk p' r G R' R P' P).
  - rewrite (One _ _ _ P C) in C'. rewrite <- (One _ _ _ P C) in C'. pose proof (One _ _ _ P C) as E. rewrite (One _ _ _ P' C') in E. apply (underscores_inj _ false) in E; [|assumption|assumption]. subst p'. split; [exact (path_same so s root l l' p G P P')|reflexivity].
Qed.

(** ** Instances *)
Definition declares (text : string) : pschema := match parse_schema text with Ok s => s | Err _ => [] end.
Definition tree_of (text : string) : tree := match build_text same_order text with Ok t => t | Err _ => new_root end.
Definition simple_check (text : string) : bool :=
  (match build_text same_order text with Ok _ => true | Err _ => false end)
  && forallb (fun p => negb (has_char "." (pn_name p)) && forallb (fun k => negb (String.eqb k "_builtin")) (ns_keys p ++ def_names p)) (declares text).
Lemma simple_generated text : simple_check text = true -> generated same_order (declares text) (tree_of text) /\ single_fields (declares text) /\ build_text same_order text = Ok (tree_of text).
Proof.
  unfold simple_check, declares, tree_of. intros C. apply andb_true_iff in C as (C1 & C2). unfold build_text in *. destruct (parse_schema text) as [s|e] eqn:E; cbn [bind] in *; [|discriminate]. destruct (build_ast same_order s) as [t|e] eqn:Eb; [|discriminate].
  apply C68_parse in E. rewrite forallb_forall in C2. assert (X : forall p, In p s -> has_char "." (pn_name p) = false /\ forall k, In k (ns_keys p ++ def_names p)%list -> k <> "_builtin").
  { intros p Hp. specialize (C2 p Hp). apply andb_true_iff in C2 as (A & D). apply negb_true_iff in A. split; [exact A|]. rewrite forallb_forall in D. intros k Hk. specialize (D k Hk). apply negb_true_iff, String.eqb_neq in D. exact D. }
  split; [split; [exact same_order_any|]; split; [exact (denotes_identifiers _ _ E)|]; split; [apply flat_separated; intros p Hp; exact (proj1 (X p Hp))|]; split; [|exact Eb]|split; [exact (C100_single_fields _ _ E)|reflexivity]].
  intros p Hp. destruct (X p Hp) as (_ & K). split; intros Hin; apply (K "_builtin"); try reflexivity; apply in_or_app; auto.
Qed.
Definition plain_check (root : tree) : bool :=
  forallb (fun b => match at_loc root b with
                    | Some t => negb (is_bound (t_kind t)) || forallb (fun c => match find root (target c) with Some l => match at_loc root l with Some v => negb (is_bound (t_kind v)) | None => true end | None => true end) (t_children t)
                    | None => true
                    end) (locs root).
Lemma plainly_checked root : rooted root -> plain_check root = true -> plainly_bound root.
Proof.
  intros Ro C b i l rk (t & o & m & Ht & Kt) Pt (v & o' & m' & Hv & Kv) ->. unfold plain_check in C. rewrite forallb_forall in C. specialize (C b ltac:(apply locs_spec; eauto)). rewrite Ht, Kt in C. cbn in C. rewrite forallb_forall in C.
  apply (GenAstThms.points_to_find _ _ _ _ Ro) in Pt as (c & Hc & _ & Fc). destruct (parent_at _ _ _ _ Hc) as (t' & Ht' & Hi). rewrite Ht in Ht'. injection Ht' as <-. specialize (C c (nth_error_In _ _ Hi)). rewrite Fc, Hv, Kv in C. discriminate.
Qed.

(** Three resources of which [b] binds two, with references between and from them *)
Definition sample : string := "namespace n { struct S { x : u8 : 8; y : u32 : 20; } struct T { z : u16 : 16; }
  @bound_implicitly( b : r, m ) archive A { @explicit_reference( S.y, q ) r : vector<S>; q : vector<T>; @explicit_reference( T.z, r ) m : multivector<8, T, S>; d : raw_data; } }".
Theorem C100_instance : generated same_order (declares sample) (tree_of sample) /\ single_fields (declares sample) /\ plainly_bound (tree_of sample)
  /\ (exists ss es, diagram (tree_of sample) = Ok (ss, es)
      /\ flat_map clusters ss = ["cluster__n"; "cluster__n_A"; "cluster__n_A_q"; "cluster__n_A_d"; "cluster__n_A_b"; "cluster__n__builtin"; "cluster__n__builtin_multivector"]
      /\ es = [Arrow "_n_A_b_n_S" "port__n_A_b_n_S_y" "_n_A_q_n_T" "cluster__n_A_q"; Arrow "_n_A_b_n_T" "port__n_A_b_n_T_z" "_n_A_b_n_S" "cluster__n_A_b"]
      /\ In ("_n_A_b_n_S", ["port__n_A_b_n_S_x"; "port__n_A_b_n_S_y"]) (flat_map nodes ss))
  /\ (forall l, In l [[0; 2; 1]; [0; 2; 4]; [0; 0]; [0; 1]; [0; 3; 0; 0]]%nat -> plainly_named (tree_of sample) l)
  /\ (exists rk, resource_at (tree_of sample) [0; 2; 1]%nat rk) /\ exists ports, node_of (tree_of sample) [0; 2; 3]%nat "_n_A_d" ports.
Proof.
  destruct (simple_generated sample ltac:(vm_compute; reflexivity)) as (G & Si & _). split; [exact G|]. split; [exact Si|]. destruct (generated_finished _ _ _ G) as (F & _).
  assert (PB : plainly_bound (tree_of sample)) by (apply plainly_checked; [apply (b_rooted _ (f_built _ F))|vm_compute; reflexivity]). split; [exact PB|]. split; [|split; [|split]].
  - destruct (diagram (tree_of sample)) as [[ss es]|e] eqn:E; [|vm_compute in E; discriminate]. exists ss, es. split; [reflexivity|]. vm_compute in E. injection E as <- <-. repeat split; try reflexivity. do 2 right; left. reflexivity.
  - intros l Hl. repeat (destruct Hl as [<-|Hl]; [eexists; split; vm_compute; reflexivity|]). destruct Hl.
  - eexists. do 3 eexists. split; vm_compute; reflexivity.
  - exists []. right. destruct (at_loc (tree_of sample) [0; 2; 3]%nat) as [t|] eqn:Et; [|vm_compute in Et; discriminate].
    assert (R : resource_at (tree_of sample) [0; 2; 3]%nat KRawData) by (vm_compute in Et; injection Et as <-; do 3 eexists; split; vm_compute; reflexivity).
    split; [|split; [eexists; split; vm_compute; reflexivity|reflexivity]]. intros d S0. apply (own_structures (tree_of sample) F _ t KRawData Et R ltac:(discriminate)) in S0 as (c & Hc & _). vm_compute in Et. injection Et as <-. exact Hc.
Qed.

(** ** What the diagrams get wrong.  [nested]: a resource bound by a resource that is bound; its arrow starts nowhere.  [itself]: a
    resource bound by itself is missing, and with a reference to it no diagram is made.  [clash]: two archives with names that
    have underscores give two clusters and two nodes the same identifier. *)
Definition nested : string := "namespace n { struct S { x : u8 : 8; } @bound_implicitly( b : r ) @bound_implicitly( c : b ) archive A { @explicit_reference( S.x, q ) r : vector<S>; q : vector<S>; } }".
Definition itself : string := "namespace n { struct S { x : u8 : 8; } @bound_implicitly( b : b ) archive A { r : raw_data; } }".
Definition itself_referred : string := "namespace n { struct S { x : u8 : 8; } @bound_implicitly( b : b ) archive A { @explicit_reference( S.x, b ) r : vector<S>; } }".
Definition clash : string := "namespace n { archive A { b_c : raw_data; } archive A_b { c : raw_data; } }".
Theorem C100_refuted :
  (generated same_order (declares nested) (tree_of nested) /\ exists ss es, diagram (tree_of nested) = Ok (ss, es) /\ exists a, In a es /\ ~ connected ss a)
  /\ (generated same_order (declares itself) (tree_of itself) /\ exists ss es, diagram (tree_of itself) = Ok (ss, es) /\ resource_at (tree_of itself) [0; 1; 1]%nat KBound
      /\ called (tree_of itself) [0; 1; 1]%nat "_n_A_b" /\ ~ In "cluster__n_A_b" (flat_map clusters ss))
  /\ (generated same_order (declares itself_referred) (tree_of itself_referred) /\ diagram (tree_of itself_referred) = Err RuntimeError)
  /\ (generated same_order (declares clash) (tree_of clash) /\ exists l l' rk rk', l <> l' /\ resource_at (tree_of clash) l rk /\ resource_at (tree_of clash) l' rk' /\ called (tree_of clash) l "_n_A_b_c" /\ called (tree_of clash) l' "_n_A_b_c").
Proof.
  split; [|split; [|split]].
  - destruct (simple_generated nested ltac:(vm_compute; reflexivity)) as (G & _). split; [exact G|]. destruct (diagram (tree_of nested)) as [[ss es]|e] eqn:E; [|vm_compute in E; discriminate]. exists ss, es. split; [reflexivity|]. vm_compute in E. injection E as <- <-.
    eexists. split; [left; reflexivity|]. intros ((ports & Hin & _) & _). vm_compute in Hin. repeat (destruct Hin as [Hin|Hin]; [discriminate Hin|]). destruct Hin.
  - destruct (simple_generated itself ltac:(vm_compute; reflexivity)) as (G & _). split; [exact G|]. destruct (diagram (tree_of itself)) as [[ss es]|e] eqn:E; [|vm_compute in E; discriminate]. exists ss, es. split; [reflexivity|].
    split; [do 3 eexists; split; vm_compute; reflexivity|]. split; [eexists; split; vm_compute; reflexivity|]. vm_compute in E. injection E as <- <-. intros Hin. vm_compute in Hin. repeat (destruct Hin as [Hin|Hin]; [discriminate Hin|]). destruct Hin.
  - destruct (simple_generated itself_referred ltac:(vm_compute; reflexivity)) as (G & _). split; [exact G|]. vm_compute. reflexivity.
  - destruct (simple_generated clash ltac:(vm_compute; reflexivity)) as (G & _). split; [exact G|]. exists [0; 0; 0]%nat, [0; 1; 0]%nat. do 2 eexists. split; [discriminate|].
    split; [do 3 eexists; split; vm_compute; reflexivity|]. split; [do 3 eexists; split; vm_compute; reflexivity|]. split; eexists; split; vm_compute; reflexivity.
Qed.

(** ** What is written on the parts *)
(** C100: a cluster is titled with the name of what it encloses, and notes the kind of a resource and whether it is optional; a node is
    titled with the name of its structure and lists its fields in order, each with its name, its type and its width. *)
Theorem C100_labels : forall so s root ss es, generated so s root -> plainly_bound root -> diagram root = Ok (ss, es) ->
  (forall id title notes, In (id, title, notes) (flat_map cluster_labels ss) -> exists l u i, at_loc root l = Some u /\ called root l i /\ id = "cluster_" ++ i /\ title = t_name u /\ notes_of (t_kind u) notes)
  /\ (forall id title rows, In (id, title, rows) (flat_map tables ss) -> exists l d s is, shows root l d /\ called_in root l d id /\ at_loc root d = Some s /\ title = t_name s
        /\ field_positions root d is /\ Forall2 (row_shown root l d) is rows).
Proof.
  intros so s root ss es G PB E. destruct (generated_finished so s root G) as (F & _). unfold diagram in E. apply bind_ok in E as (ss' & Ed & E). apply bind_ok in E as (es' & _ & E). injection E as <- _.
  destruct (draw_labelled root F PB root [] ss' eq_refl Ed) as (T & C). split; [intros id title notes Hin; exact (C _ Hin)|intros id title rows Hin; exact (T _ Hin)].
Qed.
(** An enumeration of the same namespace, one of another one, and one of another one that starts like the structure's: its name is cut *)
Definition labelled_sample : string := "namespace n { enum E : u8 : 3 { V, } struct S { x : i16 : 9; e : E : 3; o : .other.E : 5; c : .nm.E : 4; } archive A { @optional r : vector<S>; } }
  namespace other { enum E : u8 : 5 { V, } } namespace nm { enum E : u8 : 4 { V, } }".
Theorem C100_labels_instance : generated same_order (declares labelled_sample) (tree_of labelled_sample) /\ plainly_bound (tree_of labelled_sample)
  /\ exists ss es, diagram (tree_of labelled_sample) = Ok (ss, es)
      /\ In ("cluster__n_A_r", "r", ["Vector"; "optional"]) (flat_map cluster_labels ss)
      /\ exists r1 r2 r3 r4, flat_map tables ss = [("_n_A_r_n_S", "S", [r1; r2; r3; r4])]
          /\ (r_name r1, r_type r1, r_width r1) = ("x", "i16", 9%Z) /\ (r_name r2, r_type r2, r_width r2) = ("e", "E", 3%Z)
          /\ (r_name r3, r_type r3, r_width r3) = ("o", "other.E", 5%Z).
Proof.
  destruct (simple_generated labelled_sample ltac:(vm_compute; reflexivity)) as (G & _). split; [exact G|]. destruct (generated_finished _ _ _ G) as (F & _).
  split; [apply plainly_checked; [apply (b_rooted _ (f_built _ F))|vm_compute; reflexivity]|].
  destruct (diagram (tree_of labelled_sample)) as [[ss es]|e] eqn:E; [|vm_compute in E; discriminate]. exists ss, es. split; [reflexivity|]. vm_compute in E. injection E as <- <-. split; [do 2 right; now left|].
  do 4 eexists. split; [vm_compute; reflexivity|]. repeat split.
Qed.
(** C100, what is wrong: the type of the field [c] of that structure, the enumeration E of the namespace nm, is shown as m.E. *)
Theorem C100_labels_refuted : generated same_order (declares labelled_sample) (tree_of labelled_sample)
  /\ exists ss es, diagram (tree_of labelled_sample) = Ok (ss, es)
      /\ exists id title rows r, In (id, title, rows) (flat_map tables ss) /\ In r rows /\ r_name r = "c" /\ r_type r = "m.E"
      /\ exists l d w e, at_loc (tree_of labelled_sample) l <> None /\ points_to (tree_of labelled_sample) (l ++ [d])%list (REnum w) e /\ path_at (tree_of labelled_sample) e = Some ".nm.E"
          /\ path_at (tree_of labelled_sample) l = Some ".n.S.c".
Proof.
  destruct (simple_generated labelled_sample ltac:(vm_compute; reflexivity)) as (G & _). split; [exact G|].
  destruct (diagram (tree_of labelled_sample)) as [[ss es]|e] eqn:E; [|vm_compute in E; discriminate]. exists ss, es. split; [reflexivity|]. vm_compute in E. injection E as <- <-.
  do 4 eexists. split; [left; reflexivity|]. split; [do 3 right; left; reflexivity|]. split; [reflexivity|]. split; [reflexivity|].
  destruct (generated_finished _ _ _ G) as (F & _). exists [0; 0; 3]%nat, 0%nat. destruct (at_loc (tree_of labelled_sample) [0; 0; 3; 0]%nat) as [c|] eqn:Hc; [|vm_compute in Hc; discriminate].
  assert (exists w, t_kind c = KRef (REnum w)) as (w & Kc) by (vm_compute in Hc; injection Hc as <-; eexists; reflexivity).
  destruct (ref_points (tree_of labelled_sample) F [0; 0; 3; 0]%nat c (REnum w) Hc Kc) as (e & v & Er & Pt & _). exists w, e. split; [vm_compute; discriminate|]. split; [exact Pt|].
  split; [|vm_compute; reflexivity]. vm_compute in Hc. injection Hc as <-. vm_compute in Er. injection Er as <-. vm_compute. reflexivity.
Qed.
Print Assumptions C100_labels.
Print Assumptions C100_labels_instance.
Print Assumptions C100_labels_refuted.
Print Assumptions C100_drawing.
Print Assumptions C100_arrows.
Print Assumptions C100_connected.
Print Assumptions C100_single_fields.
Print Assumptions C100_distinct.
Print Assumptions C100_instance.
Print Assumptions C100_refuted.
