(** Property C49: schema texts in normal form.  Here: the text the generator embeds for a definition or resource, and the text it
    renders for a whole schema, are again schema texts, and what they declare is what the tree contains. *)
From Coq Require Import List ZArith Bool String Ascii Lia.
From Verif Require Import PyBase PyText GenSpec GenTypes GenTypesFacts GenTree GenTreeFacts GraphSpec GenTraversal GenBuild GenBuildFacts GenShapeFacts GenAstFacts GenAstSpec GenAstThms GenWords GenFlatdata GenOutSpec GenOutFacts GenFinal GenRender
  GenModule SameSpec EmbedSpec GenAgree GenMentions GenSame GenClassNames GenResolveFacts Props_GenTree Props_GenOutput Props_Embed Props_Same GrammarSpec Grammar GrammarLex GrammarThms GrammarNames DeclSpec DeclFacts Props_Decl Props_Grammar NormSpec NormLex NormText NormWritten NormReady.
Import ListNotations.
Local Open Scope string_scope.

(** The declaration, alone in a block of its namespace, of the definition at [l]; for a resource: of its archive with only that resource *)
Definition normal_of (root : tree) (l : loc) (p : pnamespace) : Prop :=
  exists t, at_loc root l = Some t /\
    ((is_supported (t_kind t) = true /\ p = normal_block (join "." (namespaces root l)) t)
     \/ (is_supported (t_kind t) = false /\ exists q i a, l = (q ++ [i])%list /\ at_loc root q = Some a /\ t_kind a = KArchive /\ p = normal_block (join "." (namespaces root q)) (Node (t_name a) KArchive [t]))).

Lemma ready_normal root l u p : ready root (l, u) p -> p = normal_block (join "." (namespaces root l)) u.
Proof. intros (n & Ns & _ & _ & ->). cbn [fst snd] in *. rewrite Ns. reflexivity. Qed.
Lemma mapM_blocks root ds bs : Forall2 (fun d b => exists t, at_loc root d = Some t /\ block root d t = Ok b) ds bs ->
  forall P : loc -> tree -> Prop, (forall d t, In d ds -> at_loc root d = Some t -> P d t) ->
  exists xs, map fst xs = ds /\ Forall (fun x => at_loc root (fst x) = Some (snd x) /\ P (fst x) (snd x)) xs /\ mapM (fun x => block root (fst x) (snd x)) xs = Ok bs.
Proof.
  induction 1 as [|d b ds bs (t & Ht & Hb) Fb IH]; intros P HP; [exists []; split; [reflexivity|]; split; [constructor|reflexivity]|].
  destruct (IH P) as (xs & E & A & M); [intros; apply HP; auto with datatypes|]. exists ((d, t) :: xs). split; [cbn; now rewrite E|]. split; [constructor; [cbn; split; [exact Ht|apply HP; [now left|exact Ht]]|exact A]|].
  cbn [mapM fst snd]. rewrite Hb. cbn [bind]. now rewrite M.
Qed.
Lemma mapM_snoc {A B} (f : A -> res B) l : forall ys x y, mapM f l = Ok ys -> f x = Ok y -> mapM f (l ++ [x])%list = Ok (ys ++ [y])%list.
Proof.
  induction l as [|a l IH]; intros ys x y H Hx; cbn in H |- *; [injection H as <-; now rewrite Hx|]. destruct (f a) as [b|]; [|discriminate]. cbn in *. destruct (mapM f l) as [bs|]; [|discriminate]. injection H as <-. cbn. now rewrite (IH bs x y eq_refl Hx).
Qed.
Lemma ready_all root xs : Forall (fun x : loc * tree => exists p, ready root x p) xs -> exists ps, Forall2 (ready root) xs ps.
Proof. induction 1 as [|x xs (p & R) F (ps & IH)]; [exists []; constructor|exists (p :: ps); now constructor]. Qed.

Theorem C49_parses_partial : forall so input s root l t, any_order so -> denotes input s -> flat_namespaces s -> no_builtin s -> build_ast so s = Ok root -> builtins_unused root ->
  at_loc root l = Some t -> has_schema (t_kind t) = true -> ~ In "_builtin" (namespaces root l) ->
  exists out ds ps own, schema_text root l = Ok out /\ parse_schema out = Ok (ps ++ [own])%list
    /\ NoDup ds /\ (forall d, In d ds <-> depends root l d /\ d <> l /\ EmbedSpec.declared root d)
    /\ Forall2 (normal_of root) ds ps /\ normal_of root l own.
Proof.
  intros so input s root l t Hso D Fl NB H U Hl K Nb. pose proof (denotes_written _ _ D) as Wr. pose proof (denotes_identifiers _ _ D) as I. pose proof (flat_separated s Fl) as Sp.
  pose proof (identifiers_finished so s root Hso I Sp NB H) as F.
  destruct (C50_mentions_partial so s root l t Hso I Sp NB H Hl K) as (ds & bs & own & E & Nd & Hin & Fb & _ & O1 & O2).
  assert (Fb' : Forall2 (fun d b => exists u, at_loc root d = Some u /\ block root d u = Ok b) ds bs) by (clear - Fb; induction Fb as [|d b ds bs (u & A & _ & B) Fb IH]; constructor; eauto).
  destruct (mapM_blocks root ds bs Fb' (fun d u => exists p, ready root (d, u) p)) as (xs & Ex & Fx & M).
  { intros d u Hd Hu. apply Hin in Hd as (_ & _ & u' & Hu' & Su & Nd'). rewrite Hu in Hu'. injection Hu' as <-. destruct (all_ready so s root Hso Wr I Fl NB H U d u Hu Su Nd') as (p & _ & R). eauto. }
  assert (X : exists x own', (exists p, ready root x p) /\ block root (fst x) (snd x) = Ok own /\ (forall p, ready root x p -> normal_of root l p) /\ own' = own).
  { destruct (is_supported (t_kind t)) eqn:Su.
    - destruct (O1 eq_refl Nb) as (_ & Hb). destruct (all_ready so s root Hso Wr I Fl NB H U l t Hl Su Nb) as (p & _ & R). exists (l, t), own. split; [eauto|]. split; [exact Hb|]. split; [|reflexivity]. intros q Rq. exists t. split; [exact Hl|]. left. split; [exact Su|exact (ready_normal _ _ _ _ Rq)].
    - destruct (O2 eq_refl) as (q & i & a & -> & Ha & Ka & Hb). assert (Hi : nth_error (t_children a) i = Some t). { rewrite at_loc_app, Ha in Hl. cbn in Hl. destruct (nth_error (t_children a) i); [exact Hl|discriminate]. }
      assert (Nq : ~ In "_builtin" (namespaces root q)). { rewrite (namespaces_snoc root q i a Ha) in Nb. unfold is_namespace in Nb. rewrite Ka, app_nil_r in Nb. exact Nb. } destruct (Hb Nq) as (_ & Hb').
      destruct (all_ready so s root Hso Wr I Fl NB H U q a Ha ltac:(now rewrite Ka) Nq) as (p & _ & (n & Ns & Nn & (Na & L) & _)). cbn [fst snd] in *. rewrite Ka in L. destruct L as (L1 & L2).
      exists (q, Node (t_name a) KArchive [t]), own. split; [|split; [exact Hb'|]].
      + eexists. exists n. cbn [fst snd]. split; [exact Ns|]. split; [exact Nn|]. split; [|reflexivity]. split; [exact Na|]. cbn [t_kind]. split.
        * intros r Hr. apply L1. unfold resources_in in *. apply filter_In in Hr as (Hr & Kr). apply filter_In. split; [|exact Kr]. destruct Hr as [<-|[]]. exact (nth_error_In _ _ Hi).
        * intros r Hr. apply L2. unfold bounds_in in *. apply filter_In in Hr as (Hr & Kr). apply filter_In. split; [|exact Kr]. destruct Hr as [<-|[]]. exact (nth_error_In _ _ Hi).
      + split; [|reflexivity]. intros p' Rp. exists t. split; [exact Hl|]. right. split; [exact Su|]. exists q, i, a. split; [reflexivity|]. split; [exact Ha|]. split; [exact Ka|exact (ready_normal _ _ _ _ Rp)]. }
  destruct X as (x & _ & (po & Ro) & Hb & No & _).
  destruct (ready_all root xs) as (ps & Rp). { clear - Fx. induction Fx as [|y ys (_ & p & R) Fy IH]; constructor; [exists p; now destruct y|exact IH]. }
  exists (text (List.concat bs ++ own)%list), ds, ps, po. split; [exact E|]. split.
  - apply parse_denotes. replace (List.concat bs ++ own)%list with (List.concat (bs ++ [own])%list) by (rewrite concat_app; cbn; now rewrite app_nil_r).
    apply (blocks_text root (xs ++ [x])%list (ps ++ [po])%list); [now destruct xs|apply Forall2_app; [exact Rp|constructor; [exact Ro|constructor]]|now apply mapM_snoc].
  - split; [exact Nd|]. split; [exact Hin|]. split; [|exact (No po Ro)]. rewrite <- Ex. clear - Fx Rp Hin Ex. assert (Hd : forall d, In d (map fst xs) -> EmbedSpec.declared root d) by (intros d Hd; rewrite Ex in Hd; now apply Hin in Hd).
    clear Ex Hin. revert ps Rp. induction Fx as [|[d u] ys (Hu & _) Fy IH]; intros ps Rp; inversion Rp as [|? p ? ps' R Rp']; subst; [constructor|]. cbn [map fst snd] in *. constructor; [|apply IH; [intros; apply Hd; now right|exact Rp']].
    destruct (Hd d (or_introl eq_refl)) as (u' & Hu' & Su & _). rewrite Hu in Hu'. injection Hu' as <-. exists u. split; [exact Hu|]. left. split; [exact Su|exact (ready_normal _ _ _ _ R)].
Qed.

(** The whole schema, rendered in normal form *)
Lemma block_total root (F : finished root) l t : at_loc root l = Some t -> is_supported (t_kind t) = true -> exists ls, block root l t = Ok ls.
Proof.
  intros Hl K. unfold block. assert (exists d, declaration root t = Ok d) as (d & ->); [|cbn; eauto]. unfold declaration. destruct (t_kind t) eqn:Kt; try discriminate; eauto.
  - apply (structure_lines_total root F l t Hl). eauto.
  - exact (archive_lines_total root F l t _ Hl (fun c Hc => Hc)).
Qed.
Lemma declared_dec root l : {EmbedSpec.declared root l} + {~ EmbedSpec.declared root l}.
Proof.
  destruct (at_loc root l) as [t|] eqn:E; [|right; intros (t & Ht & _); congruence]. destruct (is_supported (t_kind t)) eqn:S; [|right; intros (t' & Ht & S' & _); congruence].
  destruct (is_builtin root l) eqn:B; [right; intros (t' & Ht & S' & N); now apply N, builtin_in|left]. exists t. split; [exact E|]. split; [exact S|]. intros N. apply builtin_in in N. congruence.
Defined.
Lemma rendered root (F : finished root) order : (forall l, In l order -> exists t, at_loc root l = Some t) ->
  exists bs, mapM (node_block root) order = Ok bs /\ exists cs, List.concat bs = List.concat cs /\ Forall2 (fun d b => exists t, at_loc root d = Some t /\ block root d t = Ok b) (filter (fun l => if declared_dec root l then true else false) order) cs.
Proof.
  induction order as [|l order IH]; intros Hn; [exists []; split; [reflexivity|]; exists []; split; [reflexivity|constructor]|]. destruct IH as (bs & M & cs & E & Fb); [intros; apply Hn; now right|]. cbn [mapM filter]. unfold node_block at 1.
  destruct (Hn l (or_introl eq_refl)) as (t & Ht). rewrite Ht. destruct (declared_dec root l) as [(t' & Ht' & S & N)|N].
  - rewrite Ht in Ht'. injection Ht' as <-. destruct (block_total root F l t Ht S) as (b & Hb). rewrite S. destruct (is_builtin root l) eqn:B; [destruct N; now apply builtin_in|]. cbn [andb negb]. rewrite Hb. cbn [bind]. rewrite M. cbn [bind]. exists (b :: bs). split; [reflexivity|].
    exists (b :: cs). split; [cbn; now rewrite E|]. constructor; [eauto|exact Fb].
  - assert (is_supported (t_kind t) && negb (is_builtin root l) = false) as ->.
    { destruct (is_supported (t_kind t)) eqn:S; [|reflexivity]. destruct (is_builtin root l) eqn:B; [reflexivity|]. destruct N. exists t. split; [exact Ht|]. split; [exact S|]. intros X. apply builtin_in in X. congruence. }
    cbn [bind]. rewrite M. cbn [bind]. exists ([] :: bs). split; [reflexivity|]. exists cs. split; [exact E|exact Fb].
Qed.
Theorem C49_whole_partial : forall so input s root, any_order so -> denotes input s -> flat_namespaces s -> no_builtin s -> build_ast so s = Ok root -> builtins_unused root ->
  exists ls ds ps, render_lines root = Ok ls /\ parse_schema (text ls) = Ok ps
    /\ NoDup ds /\ (forall d, In d ds <-> EmbedSpec.declared root d) /\ Forall2 (normal_of root) ds ps.
Proof.
  intros so input s root Hso D Fl NB H U. pose proof (denotes_written _ _ D) as Wr. pose proof (denotes_identifiers _ _ D) as I. pose proof (flat_separated s Fl) as Sp.
  pose proof (identifiers_finished so s root Hso I Sp NB H) as F. destruct (C42_schema so s root Hso (identifiers_named s I) H) as (order & Eo & Nd & All & Nodes & _).
  destruct (rendered root F order Nodes) as (bs & M & cs & Ec & Fb). set (ds := filter _ order) in Fb.
  assert (Hin : forall d, In d ds <-> EmbedSpec.declared root d).
  { intros d. unfold ds. rewrite filter_In. split; [intros (_ & Q); destruct (declared_dec root d); [assumption|discriminate]|]. intros Q. split; [|destruct (declared_dec root d); [reflexivity|contradiction]].
    destruct Q as (t & Ht & S & _). apply (All d t Ht). unfold is_ref. now destruct (t_kind t). }
  destruct (mapM_blocks root ds cs Fb (fun d u => exists p, ready root (d, u) p)) as (xs & Ex & Fx & Mx).
  { intros d u Hd Hu. apply Hin in Hd as (u' & Hu' & Su & Nd'). rewrite Hu in Hu'. injection Hu' as <-. destruct (all_ready so s root Hso Wr I Fl NB H U d u Hu Su Nd') as (p & _ & R). eauto. }
  destruct (ready_all root xs) as (ps & Rp). { clear - Fx. induction Fx as [|y ys (_ & p & R) Fy IH]; constructor; [exists p; now destruct y|exact IH]. }
  exists (List.concat bs), ds, ps. split; [unfold render_lines; rewrite Eo; cbn [bind]; rewrite M; reflexivity|]. split; [|split; [now apply NoDup_filter|split; [exact Hin|]]].
  - apply parse_denotes. rewrite Ec. destruct xs as [|x xs].
    + cbn in Mx. injection Mx as <-. inversion Rp. left. split; reflexivity.
    + apply (blocks_text root (x :: xs) ps); [discriminate|exact Rp|exact Mx].
  - rewrite <- Ex. assert (Hd : forall d, In d (map fst xs) -> EmbedSpec.declared root d) by (intros d Hd; apply Hin; now rewrite <- Ex).
    clear - Fx Rp Hd. revert ps Rp. induction Fx as [|[d u] ys (Hu & _) Fy IH]; intros ps Rp; inversion Rp as [|? p ? ps' R Rp']; subst; [constructor|]. cbn [map fst snd] in *. constructor; [|apply IH; [intros; apply Hd; now right|exact Rp']].
    destruct (Hd d (or_introl eq_refl)) as (u' & Hu' & Su & _). rewrite Hu in Hu'. injection Hu' as <-. exists u. split; [exact Hu|]. left. split; [exact Su|exact (ready_normal _ _ _ _ R)].
Qed.

(** What the generator embeds for the node at [path] of a schema text, and the whole schema rendered *)
Definition node_text (so : list Z -> list Z) (input path : string) : res string :=
  root <- build_text so input ;; match find root path with Some l => schema_text root l | None => Err RuntimeError end.
Definition whole_text (so : list Z -> list Z) (input : string) : res string := root <- build_text so input ;; ls <- render_lines root ;; Ok (text ls).

(** A schema meeting the hypotheses: constants, an enumeration, a multivector, a sub-archive, an explicit reference *)
Definition norm_input : string :=
  "namespace n { const u8 C = 1; const u16 N = 0x10; enum E : u8 : 2 { P, Q = 3 } struct S { e : E; @const( C ) f : u8; @range( r ) i : u32 : 7; @optional( .n.N ) g : u16; } struct T { x : i8; } struct R { z : E : 2; }"
  ++ " archive B { t : .m.U; } archive A { @explicit_reference( S.i, ts ) v : vector< S >; ts : multivector< 40, T, R >; b : archive B; raw : raw_data; } } namespace m { struct U { y : bool; } }".
Definition norm_schema : pschema := match parse_schema norm_input with Ok s => s | Err _ => [] end.
Definition norm_root : tree := match build_ast same_order norm_schema with Ok t => t | Err _ => Node "" KRoot [] end.
Lemma norm_flat : flat_namespaces norm_schema. Proof. intros p Hp. vm_compute in Hp. destruct Hp as [<-|[<-|[]]]; reflexivity. Qed.
Lemma norm_denotes : denotes norm_input norm_schema. Proof. apply parse_denotes. vm_compute. reflexivity. Qed.
Lemma norm_no_builtin : no_builtin norm_schema. Proof. intros p Hp. vm_compute in Hp. destruct Hp as [<-|[<-|[]]]; split; intros X; vm_compute in X; intuition discriminate. Qed.
Lemma norm_built : build_ast same_order norm_schema = Ok norm_root. Proof. vm_compute. reflexivity. Qed.
Lemma norm_unused : builtins_unused norm_root. Proof. apply unused_checked. vm_compute. reflexivity. Qed.
Definition has_location root path := match find root path with Some l => match at_loc root l with Some t => has_schema (t_kind t) && negb (is_builtin root l) | None => false end | None => false end.
Definition count_blocks (x : res string) : res nat := out <- x ;; ps <- parse_schema out ;; Ok (List.length ps).
Theorem C49_instance :
  (any_order same_order /\ denotes norm_input norm_schema /\ flat_namespaces norm_schema /\ no_builtin norm_schema /\ build_ast same_order norm_schema = Ok norm_root /\ builtins_unused norm_root)
  /\ Forall (fun path => has_location norm_root path = true) [".n.A"; ".n.A.v"; ".n.A.ts"; ".n.B"; ".n.S"; ".m.U"]
  /\ map (fun path => count_blocks (node_text same_order norm_input path)) [".n.A"; ".n.A.v"; ".n.A.ts"; ".n.B"; ".n.S"; ".m.U"] = map Ok [9; 5; 4; 2; 4; 1]%nat
  /\ count_blocks (whole_text same_order norm_input) = Ok 9%nat.
Proof.
  split; [exact (conj same_order_any (conj norm_denotes (conj norm_flat (conj norm_no_builtin (conj norm_built norm_unused)))))|].
  split; [repeat (apply Forall_cons; [vm_compute; reflexivity|]); apply Forall_nil|]. split; vm_compute; reflexivity.
Qed.

(** The full property is false of this generator: schemas it accepts whose embedded (or whole rendered) text it rejects, or renders differently *)
Definition twice (path input : string) : res string := t <- node_text same_order input path ;; node_text same_order t path.
Definition twice_whole (input : string) : res string := t <- whole_text same_order input ;; whole_text same_order t.
Definition i_nested := "namespace a.b { struct S { x : u8; } archive A { v : vector< S >; } }".
Definition i_lonely := "namespace n { struct S { f : u8; } archive A { @explicit_reference( S.f, w ) v : vector< S >; w : vector< S >; } }".
Definition i_spelled := "namespace n { struct S { f : u8; } archive A { @explicit_reference( S.f, v ) @explicit_reference( .n.S.f, v ) v : vector< S >; } }".
Definition i_optional := "namespace n { const u8 C = 1; const u8 D = 2; struct S { @optional( D ) @const( C ) f : u8; } archive A { v : vector< S >; } }".
Definition i_constants := "namespace a { const u8 X = 1; } namespace b { const u8 Y = 2; struct S { f : u8; } archive A { v : vector< S >; } }".
Definition i_whole := "namespace a { struct A { x : .b.E; } } namespace b { enum E : u8 { P = 0 } struct B { y : u8; } }".
Definition rejected (x : res string) : bool := match x with Ok _ => false | Err _ => true end.
Definition differs (x y : res string) : bool := match x, y with Ok a, Ok b => negb (a =? b)%string | _, _ => false end.
Theorem C49_refuted :
  (* dotted namespaces: nested blocks, which the grammar does not know *)
  (rejected (node_text same_order i_nested ".a.b.A") = false /\ rejected (twice ".a.b.A" i_nested) = true)
  (* the text of a resource that mentions another resource *)
  /\ (rejected (node_text same_order i_lonely ".n.A.v") = false /\ twice ".n.A.v" i_lonely = Err (MissingSymbol ".n.A.w"))
  (* two spellings of one explicit reference *)
  /\ (rejected (node_text same_order i_spelled ".n.A") = false /\ twice ".n.A" i_spelled = Err (SymbolRedefinition "er__n_S_f__n_A_v"))
  (* accepted, rendered differently: [@optional] before [@const]; unused constants of two namespaces; whole schemas of two namespaces *)
  /\ differs (node_text same_order i_optional ".n.A") (twice ".n.A" i_optional) = true
  /\ differs (node_text same_order i_constants ".b.A") (twice ".b.A" i_constants) = true
  /\ differs (whole_text same_order i_whole) (twice_whole i_whole) = true.
Proof. repeat split; vm_compute; reflexivity. Qed.
