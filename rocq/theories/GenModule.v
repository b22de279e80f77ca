(** Importing the Python module generated for a finished tree: it succeeds, and every definition's class is as declared. *)
From Coq Require Import List ZArith Bool String Ascii Lia Permutation.
From Verif Require Import PyBase PyText Structure Builder GenTypes GenTypesFacts GenTree GenTreeFacts GraphSpec GenTraversal GenTraversalFacts
  GenBuild GenBuildFacts GenPassFacts GenAstFacts GenAstSpec GenLayoutFacts GenResolveFacts GenMergeFacts GenShapeFacts GenEvery GenFieldFacts GenWords GenFlatdata GenOutFacts GenFinal GenRender
  GenPython GenOutSpec.
Import ListNotations.
Local Open Scope string_scope.
Local Open Scope Z_scope.

Lemma mapM_each {A B} (f : A -> res B) l ys x : mapM f l = Ok ys -> In x l -> exists y, f x = Ok y.
Proof.
  revert ys. induction l as [|a l IH]; intros ys H Hx; [destruct Hx|]. cbn in H. apply bind_ok in H as (y & Hy & H). apply bind_ok in H as (zs & Hz & _). destruct Hx as [<-|Hx]; eauto.
Qed.
(** ** Names inside a class body *)
Definition under (s : string) : bool := match s with String c _ => Ascii.eqb c "_" | EmptyString => false end.
Lemma under_iff s : under s = true <-> starts_with_underscore s.
Proof. unfold starts_with_underscore. destruct s as [|c s]; cbn; [split; [discriminate|intros (t & H); discriminate]|]. rewrite Ascii.eqb_eq. split; [intros ->; eauto|intros (t & H); now injection H]. Qed.
Lemma mangle_plain cls n : under n = false -> mangle cls n = n.
Proof. intros H. unfold mangle. destruct (starts_with_dunder n) eqn:E; [|reflexivity]. destruct n as [|c n]; [discriminate|]. cbn in H. assert (c <> "_"%char) by (now apply Ascii.eqb_neq). cbn in E. destruct c as [[] [] [] [] [] [] [] []]; discriminate. Qed.
Lemma mangle_under cls n : under n = true -> under (mangle cls n) = true.
Proof. intros H. unfold mangle. destruct (starts_with_dunder n && _); [|exact H]. destruct (lstrip_underscores cls); [exact H|reflexivity]. Qed.
Lemma upper_char_under c : c <> "_"%char -> upper_char c <> "_"%char.
Proof. intros H. destruct c as [[] [] [] [] [] [] [] []]; cbn; try discriminate; contradiction. Qed.
Lemma upper_app a b : upper (a ++ b) = upper a ++ upper b.
Proof. induction a as [|c a IH]; cbn; [reflexivity|now rewrite IH]. Qed.
Lemma attr_not_mangled cls n suffix : n <> "" -> under n = false -> mangle cls ("_" ++ upper n ++ suffix) = "_" ++ upper n ++ suffix.
Proof.
  intros Hn Hu. unfold mangle. destruct n as [|c n]; [contradiction|]. cbn in Hu. assert (Hc : c <> "_"%char) by (now apply Ascii.eqb_neq).
  apply upper_char_under in Hc. change ("_" ++ upper (String c n) ++ suffix) with (String "_" (String (upper_char c) (upper n ++ suffix))).
  assert (E : starts_with_dunder (String "_" (String (upper_char c) (upper n ++ suffix))) = false); [|now rewrite E].
  cbn. destruct (upper_char c) as [[] [] [] [] [] [] [] []]; try reflexivity. contradiction.
Qed.
Lemma append_length a : forall b, String.length (a ++ b) = (String.length a + String.length b)%nat.
Proof. induction a as [|c a IH]; intros b; cbn; [reflexivity|now rewrite IH]. Qed.
Lemma app_inv_tail_string a b c : a ++ c = b ++ c -> a = b.
Proof.
  intros H. revert b H. induction a as [|x a IH]; intros [|y b] H; [reflexivity| | |].
  - apply (f_equal String.length) in H. cbn in H. rewrite append_length in H. lia.
  - apply (f_equal String.length) in H. cbn in H. rewrite append_length in H. lia.
  - cbn in H. injection H as -> H. now rewrite (IH _ H).
Qed.
Fixpoint last_char (d : ascii) (s : string) : ascii := match s with EmptyString => d | String c t => last_char c t end.
Lemma last_char_app d a c t : last_char d (a ++ String c t) = last_char c t.
Proof. revert d. induction a as [|x a IH]; intros d; cbn; [reflexivity|apply IH]. Qed.
Lemma schema_attr_inj a b : schema_attr a = schema_attr b -> upper a = upper b.
Proof. unfold schema_attr. intros H. cbn in H. injection H as H. change (String "_" "SCHEMA") with "_SCHEMA" in H. exact (app_inv_tail_string _ _ _ H). Qed.
Lemma schema_attr_doc a b : schema_attr a <> doc_attr b.
Proof. intros H. apply (f_equal (last_char " ")) in H. unfold schema_attr, doc_attr in H. cbn [append last_char] in H. rewrite !last_char_app in H. discriminate. Qed.
Lemma schema_attr_name a : schema_attr a <> "_NAME".
Proof. intros H. apply (f_equal (last_char " ")) in H. unfold schema_attr in H. cbn [append last_char] in H. rewrite !last_char_app in H. discriminate. Qed.
Lemma schema_attr_schema a : a <> "" -> schema_attr a <> "_SCHEMA".
Proof. intros Ha H. apply (f_equal String.length) in H. unfold schema_attr in H. cbn in H. rewrite append_length in H. destruct a; [contradiction|]. cbn in H. lia. Qed.

Lemma dict_get_unique {A} (l : list (string * A)) k v : In (k, v) l -> (forall v', In (k, v') l -> v' = v) -> dict_get l k = Some v.
Proof.
  induction l as [|[k' v'] l IH]; intros Hi Hu; [destruct Hi|]. cbn. destruct (String.eqb_spec k' k) as [->|N].
  - f_equal. apply Hu. now left.
  - apply IH; [destruct Hi as [E|Hi]; [injection E; congruence|exact Hi]|]. intros x Hx. apply Hu. now right.
Qed.
Lemma dict_mem_false {A} (d : list (string * A)) k : (forall x, In x d -> fst x <> k) -> dict_mem d k = false.
Proof.
  intros H. unfold dict_mem. induction d as [|[k' v] d IH]; cbn; [reflexivity|]. destruct (String.eqb_spec k' k) as [->|N]; [destruct (H (k, v) (or_introl eq_refl) eq_refl)|].
  apply IH. intros x Hx. apply H. now right.
Qed.
Lemma forall2_map_r {A B} (f : A -> B) (P : A -> B -> Prop) l : (forall x, In x l -> P x (f x)) -> Forall2 P l (map f l).
Proof. induction l as [|x l IH]; intros H; cbn; constructor; [apply H; now left|apply IH; intros y Hy; apply H; now right]. Qed.

Section Module.
  Variables (ko : list string -> list string) (root : tree).
  Hypothesis Hko : forall ks k, In k (ko ks) <-> In k ks.
  Hypothesis F : finished root.
  Hypothesis (Pc : plain_classes root) (Dc : distinct_classes root) (Pr : plain_resources root).
  Local Notation Bu := (f_built _ F).

  Lemma wf_root : wf root. Proof. apply good_wf. exact (proj1 (b_rooted _ Bu)). Qed.
  Lemma name_nonempty l i c : at_loc root (l ++ [i])%list = Some c -> t_name c <> "".
  Proof.
    intros H. destruct (parent_at _ _ _ _ H) as (v & Hv & Hc). destruct (wf_root l v Hv) as (_ & Fo). rewrite Forall_forall in Fo. specialize (Fo c (nth_error_In _ _ Hc)).
    unfold name_ok in Fo. apply andb_true_iff in Fo as (_ & Fo). intros E. rewrite E in Fo. discriminate.
  Qed.
  Lemma class_py l t : at_loc root l = Some t -> class_name root l t = py_class root l.
  Proof. intros H. unfold class_name, py_class. now rewrite H. Qed.

  (** ** Structures *)
  Lemma struct_children l t sz c : at_loc root l = Some t -> t_kind t = KStructure sz -> In c (t_children t) -> is_field (t_kind c) = true.
  Proof.
    intros H K Hc. destruct (child_kind root F l t c H Hc) as (i & _ & _ & E). pose proof (no_namespace root F l t c H Hc) as NN. rewrite K in *. cbn in E.
    destruct (t_kind c); try contradiction; [exfalso; now apply NN|reflexivity].
  Qed.
  Lemma fields_layout cs : forall start size, (forall c, In c cs -> is_field (t_kind c) = true) -> consecutive start (fields_of cs) size ->
    exists fs, mapM field_sig cs = Ok fs /\ layout_is fs cs.
  Proof.
    induction cs as [|c cs IH]; intros start size Hf Co; cbn; [exists []; split; [reflexivity|constructor]|].
    pose proof (Hf c (or_introl eq_refl)) as Kc. unfold fields_of in Co. cbn in Co. fold (fields_of cs) in Co. unfold field_sig at 1. destruct (t_kind c) as [| | | |rng ty off| | | | | |] eqn:K; try discriminate.
    cbn in Co. destruct Co as (-> & ft & -> & Co). destruct (IH _ _ (fun x Hx => Hf x (or_intror Hx)) Co) as (fs & -> & L). cbn. eexists. split; [reflexivity|]. constructor; [|exact L]. exists rng, ft. rewrite K. cbn. auto.
  Qed.
  Lemma structure_total l t sz : at_loc root l = Some t -> t_kind t = KStructure sz -> exists sd, structure_def ko root l t = Ok sd /\ struct_is root l sd.
  Proof.
    intros H K. destruct t as [n k cs]. cbn in K. subst k. destruct (b_layout _ Bu l n sz cs H) as (size & -> & Co). 
    assert (Fc' : forall c, In c cs -> is_field (t_kind c) = true) by (intros c; exact (struct_children l (Node n (KStructure (Some size)) cs) (Some size) c H eq_refl)).
    destruct (fields_layout cs 0 size Fc' Co) as (fs & E & L). unfold structure_def. cbn [t_kind t_children].
    replace (filter (fun c => is_field (t_kind c)) cs) with cs; [|symmetry; clear - Fc'; induction cs as [|c cs IH]; cbn; [reflexivity|]; rewrite (Fc' c (or_introl eq_refl)); f_equal; apply IH; intros x Hx; apply Fc'; now right].
    rewrite E. cbn. eexists. split; [reflexivity|]. exists n, size, cs. cbn. split; [exact H|]. split; [now apply class_py|]. split; [reflexivity|]. split; [exact L|]. intros x. apply Hko.
  Qed.

  (** ** The module's globals after some definitions *)
  Definition done (g : globals) (before : list loc) : Prop :=
    forall l t, In l before -> at_loc root l = Some t ->
      match t_kind t with
      | KStructure _ => exists sd s, dict_get g (py_class root l) = Some (ClsStruct sd s) /\ struct_is root l sd /\ schema_text root l = Ok s
      | KArchive => exists a, dict_get g (py_class root l) = Some (ClsArchive a) /\ dict_get g (py_class root l ++ "Builder") = Some (ClsBuilder a) /\ archive_is root l a
      | _ => True
      end.

  Definition names_of (e : cexpr) : list string :=
    match e with EInstance n | EVector n | EArchive n => [n] | EMulti ns => ns | ERaw => [] end.
  Definition under_all (locals : list (string * string)) : Prop := forall x, In x locals -> under (fst x) = true.
  Lemma lookup_plain g cls locals n : under_all locals -> under n = false -> lookup_class g cls locals n = match dict_get g n with Some c => Ok c | None => Err NameError end.
  Proof.
    intros U N. unfold lookup_class. rewrite mangle_plain by exact N. rewrite dict_mem_false; [reflexivity|]. intros x Hx E. rewrite <- E, (U x Hx) in N. discriminate.
  Qed.
  Lemma eval_ext g g' cls cls' locals locals' e : under_all locals -> under_all locals' -> (forall n, In n (names_of e) -> under n = false /\ dict_get g n = dict_get g' n) ->
    eval_container g cls locals e = eval_container g' cls' locals' e.
  Proof.
    intros U U' H. destruct e as [n|n|ns| |n]; cbn in *; try reflexivity; try (destruct (H n (or_introl eq_refl)) as (A & B); now rewrite !lookup_plain, B by assumption).
    rewrite (mapM_ext (fun n => c <- lookup_class g cls locals n ;; as_struct c) (fun n => c <- lookup_class g' cls' locals' n ;; as_struct c)); [reflexivity|].
    intros n Hn. destruct (H n Hn) as (A & B). now rewrite !lookup_plain, B by assumption.
  Qed.

  (** ** Resources *)
  Section Resource.
    Variables (before : list loc) (l : loc) (r : tree) (rk : reskind) (o : bool) (m : option Z).
    Hypothesis (Hr : at_loc root l = Some r) (Kr : t_kind r = KResource rk o m) (Nb : rk <> KBound).
    Hypothesis Ready : forall i c q, at_loc root (l ++ [i])%list = Some c -> t_kind c = KRef q -> is_type_ref q = true -> forall d, find root (target c) = Some d -> In d before.

    Lemma class_of_ref i c q : at_loc root (l ++ [i])%list = Some c -> t_kind c = KRef q -> (q = RStructure \/ q = RBuiltin \/ q = RArchive) ->
      exists d v, ref_class root c = Ok (py_class root d) /\ In d before /\ at_loc root d = Some v /\ under (py_class root d) = false /\ path_at root d = Some (target c)
        /\ (if match q with RArchive => true | _ => false end then t_kind v = KArchive else exists sz, t_kind v = KStructure sz).
    Proof.
      intros Hc Kc Hq. destruct (ref_target root F _ _ _ Hc Kc) as (d & v & p & Rl & Fd & Hv & Ex & Pd & ->). exists d, v. unfold ref_class. rewrite Rl. cbn [bind]. rewrite <- (class_py d v Hv), Hv, (class_py d v Hv).
      assert (Kv : if match q with RArchive => true | _ => false end then t_kind v = KArchive else exists sz, t_kind v = KStructure sz).
      { destruct Hq as [->|[->| ->]]; cbn in *; destruct (t_kind v); try discriminate; eauto. }
      split; [reflexivity|]. split; [apply (Ready i c q Hc Kc); [destruct Hq as [->|[->| ->]]; reflexivity|exact Fd]|]. split; [reflexivity|]. split; [|now split].
      destruct (under (py_class root d)) eqn:U; [|reflexivity]. apply under_iff in U. exfalso. apply (Pc d v Hv); [|exact U]. destruct Hq as [->|[->| ->]]; cbn in Kv; [destruct Kv as (sz & ->)|destruct Kv as (sz & ->)|rewrite Kv]; reflexivity.
    Qed.

    Lemma structs_run (refs : list tree) q : (q = RStructure \/ q = RBuiltin) -> (forall c, In c refs -> exists i, at_loc root (l ++ [i])%list = Some c /\ t_kind c = KRef q) ->
      exists ns, mapM (ref_class root) refs = Ok ns /\ (forall n, In n ns -> under n = false /\ exists d v, In d before /\ at_loc root d = Some v /\ is_definition (t_kind v) = true /\ n = py_class root d)
        /\ forall g, done g before -> exists sds, Forall2 (fun c sd => exists d, path_at root d = Some (target c) /\ struct_is root d sd) refs sds
             /\ forall cls locals, under_all locals -> mapM (fun n => c <- lookup_class g cls locals n ;; as_struct c) ns = Ok sds.
    Proof.
      intros Hq. induction refs as [|c refs IH]; intros R; [exists []; split; [reflexivity|]; split; [intros n []|]; intros g D; exists []; split; [constructor|reflexivity]|].
      destruct IH as (ns & E & Hn & Run); [intros x Hx; apply R; now right|]. destruct (R c (or_introl eq_refl)) as (i & Hc & Kc).
      destruct (class_of_ref i c q Hc Kc) as (d & v & E1 & Hd & Hv & U & Pd & Kv); [tauto|]. exists (py_class root d :: ns). cbn. rewrite E1, E. cbn. split; [reflexivity|].
      assert (Ks : exists sz, t_kind v = KStructure sz) by (destruct Hq as [->| ->]; exact Kv). destruct Ks as (sz & Ks). split.
      - intros n [<-|Hi]; [|now apply Hn]. split; [exact U|]. exists d, v. rewrite Ks. auto.
      - intros g D. destruct (Run g D) as (sds & F2 & Ev). pose proof (D d v Hd Hv) as Dd. rewrite Ks in Dd. destruct Dd as (sd & s & G & Si & _). exists (sd :: sds). split; [constructor; [exists d; now split|exact F2]|].
        intros cls locals Ul. cbn. rewrite lookup_plain, G by assumption. cbn. rewrite (Ev cls locals Ul). reflexivity.
    Qed.

    Lemma like_in p q : (forall k, p k = true -> k = KRef q) -> forall c, In c (children_like r p) -> exists i, at_loc root (l ++ [i])%list = Some c /\ t_kind c = KRef q.
    Proof. intros Hp c Hc. apply children_like_in in Hc as (Hc & Pk). destruct (child_kind root F l r c Hr Hc) as (i & _ & Hi & _). exists i. split; [exact Hi|now apply Hp]. Qed.
    Lemma like_kinds q p : (forall k, p k = true <-> k = KRef q) -> map t_kind (children_like r p) = map KRef (filter (fun x => p (KRef x)) (ref_kinds (map t_kind (t_children r)))).
    Proof. intros Hp. apply ref_count. intros k Hk. apply Hp in Hk. now subst. Qed.

    Definition good_container (e : cexpr) : Prop :=
      container_expr root r = Ok e
      /\ (forall n, In n (names_of e) -> under n = false /\ exists d v, In d before /\ at_loc root d = Some v /\ is_definition (t_kind v) = true /\ n = py_class root d)
      /\ forall g, done g before -> exists ct, container_is root l rk ct /\ forall cls locals, under_all locals -> eval_container g cls locals e = Ok ct.

    Lemma shape_refs : match rk with
      | KInstance | KVector => exists c, children_like r is_structure_ref = [c] /\ children_like r is_builtin_ref = []
      | KMultivector _ => exists c, children_like r is_builtin_ref = [c]
      | _ => True
      end.
    Proof.
      destruct (b_shape _ Bu l r Hr) as (_ & Sh). rewrite Kr in Sh.
      assert (A : forall k, is_structure_ref k = true <-> k = KRef RStructure) by (intros k; destruct k as [| | | | | | | | | |[]]; cbn; split; congruence).
      assert (B : forall k, is_builtin_ref k = true <-> k = KRef RBuiltin) by (intros k; destruct k as [| | | | | | | | | |[]]; cbn; split; congruence).
      pose proof (like_kinds _ _ A) as EA. pose proof (like_kinds _ _ B) as EB. destruct rk; try exact I.
      - rewrite Sh in EA, EB. cbn in EA, EB. destruct (children_like r is_structure_ref) as [|c [|? ?]]; try discriminate. destruct (children_like r is_builtin_ref); [eauto|discriminate].
      - rewrite Sh in EA, EB. cbn in EA, EB. destruct (children_like r is_structure_ref) as [|c [|? ?]]; try discriminate. destruct (children_like r is_builtin_ref); [eauto|discriminate].
      - destruct (b_multi _ Bu l r Hr) as (n & E); [now rewrite Kr|]. unfold refs_at in E. rewrite Hr in E. rewrite E in EB.
        rewrite filter_app in EB. replace (filter (fun x => is_builtin_ref (KRef x)) (repeat RStructure n)) with (@nil refkind) in EB by (clear; induction n; cbn; auto). cbn in EB.
        destruct (children_like r is_builtin_ref) as [|c [|? ?]]; try discriminate. eauto.
    Qed.

    Lemma no_explicits : rk = KArchiveRes -> exists c cs, t_children r = c :: cs /\ t_kind c = KRef RArchive.
    Proof.
      intros Ek. subst rk. destruct (archive_target root F l r o m Hr Kr) as (c & i & E & _ & Kc).
      destruct (t_children r) as [|c0 cs] eqn:Ec; [unfold children_like in E; rewrite Ec in E; discriminate|]. exists c0, cs. split; [reflexivity|].
      destruct (child_kind root F l r c0 Hr) as (j & _ & Hj & Ed); [rewrite Ec; now left|]. rewrite Kr in Ed. pose proof (no_namespace root F l r c0 Hr) as NN. rewrite Kr, Ec in NN. specialize (NN (or_introl eq_refl)).
      destruct (t_kind c0) as [| | | | | | | | | |q] eqn:K0; cbn in Ed; try contradiction; [exfalso; apply NN; congruence| |now destruct q].
      (* an explicit reference: it has a structure which its resource must refer to *)
      exfalso. destruct (explicit_refs root F _ c0 Hj K0) as (s & f & d & i1 & i2 & i3 & A1 & _ & _ & A2 & A3 & _).
      pose proof (b_explicit _ Bu) as Ce. unfold check_explicits in Ce. apply bind_ok in Ce as (us & Ce & _).
      assert (Hin : In (l ++ [j])%list (iterate root is_explicit)) by (unfold iterate; apply filter_In; split; [apply locs_spec; eauto|rewrite Hj, K0; reflexivity]).
      destruct (mapM_each _ _ _ _ Ce Hin) as (y & Cy). unfold check_explicit in Cy. rewrite Hj in Cy.
      unfold parent_loc in Cy. rewrite removelast_last, Hr in Cy. apply bind_ok in Cy as (zs & Cy & _).
      assert (Hs : In s (children_like c0 is_structure_ref)).
      { unfold explicit_structure in A1. destruct (children_like c0 is_structure_ref) as [|s' [|? ?]]; try discriminate. injection A1 as ->. now left. }
      destruct (mapM_each _ _ _ _ Cy Hs) as (z & Cz). replace (children_like r is_structure_ref) with (@nil tree) in Cz; [discriminate|].
      assert (A : forall k, is_structure_ref k = true <-> k = KRef RStructure) by (intros k'; destruct k' as [| | | | | | | | | |[]]; cbn; split; congruence).
      pose proof (like_kinds _ _ A) as EA. destruct (b_shape _ Bu l r Hr) as (_ & Sh). rewrite Kr in Sh. rewrite Sh in EA. cbn in EA. destruct (children_like r is_structure_ref); [reflexivity|discriminate].
    Qed.

    Lemma container_total : exists e, good_container e.
    Proof.
      pose proof shape_refs as Sh. pose proof no_explicits as NE. assert (Qs : forall k, is_structure_ref k = true -> k = KRef RStructure) by (intros k; destruct k as [| | | | | | | | | |[]]; cbn; congruence).
      assert (Qb : forall k, is_builtin_ref k = true -> k = KRef RBuiltin) by (intros k; destruct k as [| | | | | | | | | |[]]; cbn; congruence).
      destruct (structs_run _ RStructure (or_introl eq_refl) (like_in _ _ Qs)) as (ns & En & Hn & Run).
      destruct (structs_run _ RBuiltin (or_intror eq_refl) (like_in _ _ Qb)) as (bs & Eb & Hb & Runb).
      assert (So : forall sds, Forall2 (fun c sd => exists d, path_at root d = Some (target c) /\ struct_is root d sd) (children_like r is_structure_ref) sds -> structs_of root l RStructure sds).
      { intros sds F2. exists r. split; [exact Hr|]. exact F2. }
      assert (Bo : forall sds, Forall2 (fun c sd => exists d, path_at root d = Some (target c) /\ struct_is root d sd) (children_like r is_builtin_ref) sds -> structs_of root l RBuiltin sds).
      { intros sds F2. exists r. split; [exact Hr|]. exact F2. }
      unfold good_container, container_expr. rewrite Kr. destruct rk; [| | | | |contradiction].
      - destruct Sh as (c & Es & Ebs). unfold referenced_structures. rewrite Ebs, Es in *. cbn [app]. cbn in En. destruct (ref_class root c) as [n|] eqn:Rc; [|discriminate]. cbn in En. injection En as <-.
        exists (EInstance n). split; [reflexivity|]. split; [exact Hn|]. intros g D. destruct (Run g D) as (sds & F2 & Ev). inversion F2 as [|? sd ? ? Hsd F2']; subst. inversion F2'; subst.
        exists (CInstance sd). split; [constructor; now apply So|]. intros cls locals U. cbn. specialize (Ev cls locals U). cbn in Ev. destruct (lookup_class g cls locals n) as [k|]; [|discriminate]. cbn in *.
        destruct (as_struct k); [|discriminate]. cbn in *. now injection Ev as ->.
      - destruct Sh as (c & Es & Ebs). unfold referenced_structures. rewrite Ebs, Es in *. cbn [app]. cbn in En. destruct (ref_class root c) as [n|] eqn:Rc; [|discriminate]. cbn in En. injection En as <-.
        exists (EVector n). split; [reflexivity|]. split; [exact Hn|]. intros g D. destruct (Run g D) as (sds & F2 & Ev). inversion F2 as [|? sd ? ? Hsd F2']; subst. inversion F2'; subst.
        exists (CVector sd). split; [constructor; now apply So|]. intros cls locals U. cbn. specialize (Ev cls locals U). cbn in Ev. destruct (lookup_class g cls locals n) as [k|]; [|discriminate]. cbn in *.
        destruct (as_struct k); [|discriminate]. cbn in *. now injection Ev as ->.
      - destruct Sh as (c & Ebs). unfold referenced_structures. rewrite Ebs in *. cbn in Eb. destruct (ref_class root c) as [b|] eqn:Rc; [|discriminate]. cbn in Eb. injection Eb as <-.
        exists (EMulti (b :: ns)). cbn. rewrite Rc, En. cbn. split; [reflexivity|]. split; [intros n [<-|Hi]; [apply Hb; now left|now apply Hn]|].
        intros g D. destruct (Run g D) as (sds & F2 & Ev). destruct (Runb g D) as (its & F2b & Evb). inversion F2b as [|? it ? ? Hit F2']; subst. inversion F2'; subst.
        exists (CMultivector it sds). split; [constructor; [now apply Bo|now apply So]|]. intros cls locals U. specialize (Ev cls locals U). specialize (Evb cls locals U). cbn in Evb.
        destruct (lookup_class g cls locals b) as [k|]; [|discriminate]. cbn in *. destruct (as_struct k); [|discriminate]. cbn in *. injection Evb as ->. now rewrite Ev.
      - exists ERaw. split; [reflexivity|]. split; [intros n []|]. intros g D. exists CRawData. split; [constructor|reflexivity].
      - destruct (NE eq_refl) as (c & cs & Ec & Kc). rewrite Ec. unfold is_ref. rewrite Kc. cbn [is_ref_kind]. assert (Hc : at_loc root (l ++ [0%nat])%list = Some c) by (apply (at_child root l r 0 c Hr); now rewrite Ec).
        destruct (class_of_ref 0 c RArchive Hc Kc) as (d & v & Rc & Hd & Hv & U & Pd & Kv); [tauto|]. rewrite Rc. cbn in Kv |- *. exists (EArchive (py_class root d)). split; [reflexivity|].
        split; [intros n [<-|[]]; split; [exact U|exists d, v; rewrite Kv; auto]|]. intros g D. pose proof (D d v Hd Hv) as Dd. rewrite Kv in Dd. destruct Dd as (a & G & _ & Ai).
        exists (CArchive a). split; [apply is_subarchive with (i := 0%nat) (d := d); [exists c; auto|exact Ai]|]. intros cls locals Ul. cbn. rewrite lookup_plain, G by assumption. reflexivity.
    Qed.
  End Resource.

  (** ** Archives *)
  Lemma locals_under cls name schema attrs : under_all (body_locals cls name schema attrs).
  Proof.
    intros x Hx. unfold body_locals in Hx. destruct Hx as [<-|Hx]; [reflexivity|]. apply in_rev in Hx. destruct Hx as [<-|Hx]; [reflexivity|].
    apply in_flat_map in Hx as (a & _ & [<-|[<-|[]]]); apply mangle_under; reflexivity.
  Qed.
  Lemma locals_schema cls name schema attrs n s : In (n, s) attrs -> (forall n' s', In (n', s') attrs -> n' <> "" /\ under n' = false /\ (upper n' = upper n -> s' = s)) ->
    dict_get (body_locals cls name schema attrs) (mangle cls (schema_attr n)) = Some s.
  Proof.
    intros Hin Ha. destruct (Ha n s Hin) as (Nn & Un & _). unfold schema_attr. rewrite attr_not_mangled by assumption. fold (schema_attr n). apply dict_get_unique.
    - right. apply in_rev. rewrite rev_involutive. right. apply in_flat_map. exists (n, s). split; [exact Hin|]. left. cbn [fst snd]. unfold schema_attr. now rewrite attr_not_mangled.
    - intros v Hv. destruct Hv as [E|Hv]; [apply (f_equal fst) in E; cbn [fst] in E; destruct (schema_attr_name n (eq_sym E))|]. apply in_rev in Hv. destruct Hv as [E|Hv]; [apply (f_equal fst) in E; cbn [fst] in E; destruct (schema_attr_schema n Nn (eq_sym E))|].
      apply in_flat_map in Hv as ((n' & s') & Hi & Hv). destruct (Ha n' s' Hi) as (Nn' & Un' & Es). cbn [fst snd] in Hv. destruct Hv as [E|[E|[]]]; pose proof (f_equal snd E) as Ev; apply (f_equal fst) in E; cbn [fst snd] in E, Ev; subst v.
      + unfold schema_attr at 1 in E. rewrite attr_not_mangled in E by assumption. fold (schema_attr n') in E. apply Es. exact (schema_attr_inj _ _ E).
      + unfold doc_attr in E. rewrite attr_not_mangled in E by assumption. fold (doc_attr n') in E. destruct (schema_attr_doc n n' (eq_sym E)).
  Qed.

  Section Archive.
    Variables (before : list loc) (l : loc) (t : tree).
    Hypothesis (Ht : at_loc root l = Some t) (Kt : t_kind t = KArchive).
    Hypothesis Ready : forall i r j c q, at_loc root (l ++ [i])%list = Some r -> is_supported_resource (t_kind r) = true -> at_loc root ((l ++ [i]) ++ [j])%list = Some c ->
      t_kind c = KRef q -> is_type_ref q = true -> forall d, find root (target c) = Some d -> In d before.
    Hypothesis Hl : ~ In l before.

    Lemma resources_loc li r : In (li, r) (resources_at l t) -> exists i, li = (l ++ [i])%list /\ nth_error (t_children t) i = Some r /\ at_loc root (l ++ [i])%list = Some r /\ is_supported_resource (t_kind r) = true.
    Proof.
      unfold resources_at. rewrite in_map_iff. intros ((i & c) & E & Hi). cbn in E. injection E as <- <-. apply filter_In in Hi as (Hi & K). apply enum_from_in in Hi as (j & -> & Hj).
      cbn in K. exists j. split; [reflexivity|]. split; [exact Hj|]. split; [exact (at_child root l t j c Ht Hj)|exact K].
    Qed.
    Lemma supported_kind k : is_supported_resource k = true -> exists rk o m, k = KResource rk o m /\ rk <> KBound.
    Proof. destruct k as [| | | | | | | |rk o m| |]; try discriminate. intros H. exists rk, o, m. split; [reflexivity|]. now destruct rk. Qed.
    Lemma schema_here i r : at_loc root (l ++ [i])%list = Some r -> is_supported_resource (t_kind r) = true -> exists s, schema_text root (l ++ [i])%list = Ok s.
    Proof. intros Hr K. apply (schema_total root F _ r Hr); unfold is_ref; destruct (supported_kind _ K) as (rk & o & m & -> & _); reflexivity. Qed.

    (** one pass over the resources *)
    Lemma resources_run g cls locals (ev : string * cexpr * bool -> res (string * rsig)) :
      ev = eval_resource g cls locals -> done g before -> under_all locals ->
      (forall i r s, at_loc root (l ++ [i])%list = Some r -> is_supported_resource (t_kind r) = true -> schema_text root (l ++ [i])%list = Ok s -> dict_get locals (mangle cls (schema_attr (t_name r))) = Some s) ->
      forall cs b, (forall j c, nth_error cs j = Some c -> at_loc root (l ++ [(b + j)%nat])%list = Some c) ->
      exists es out, mapM (fun lr => e <- container_expr root (snd lr) ;; Ok (t_name (snd lr), e, is_optional (snd lr)))
                          (map (fun ic => (l ++ [fst ic], snd ic)%list) (filter (fun ic => is_supported_resource (t_kind (snd ic))) (enum_from b cs))) = Ok es
        /\ mapM ev es = Ok out /\ resources_are root l b cs out
        /\ Forall (fun e => forall n, In n (names_of (snd (fst e))) -> under n = false /\ exists d v, In d before /\ at_loc root d = Some v /\ is_definition (t_kind v) = true /\ n = py_class root d) es.
    Proof.
      intros -> D U Hs. induction cs as [|c cs IH]; intros b Hc; cbn; [exists [], []; split; [reflexivity|]; split; [reflexivity|]; split; constructor|].
      destruct (IH (S b)) as (es & out & E1 & E2 & Ra & Fn).
      { intros j x Hj. replace (S b + j)%nat with (b + S j)%nat by lia. now apply Hc. }
      pose proof (Hc 0%nat c eq_refl) as Hb. rewrite PeanoNat.Nat.add_0_r in Hb. destruct (is_supported_resource (t_kind c)) eqn:K.
      - destruct (supported_kind _ K) as (rk & o & m & Kc & Nb). destruct (container_total before (l ++ [b])%list c rk o m Hb Kc Nb) as (e & Ec & En & Ev).
        { intros i x q Hx Kx Tq d Fd. exact (Ready b c i x q Hb K Hx Kx Tq d Fd). }
        destruct (Ev g D) as (ct & Ic & Ev'). destruct (schema_here b c Hb K) as (s & Es). exists ((t_name c, e, o) :: es), ((t_name c, RSig ct (text_bytes s) o) :: out).
        cbn [map filter fst snd]. cbn [mapM fst snd]. rewrite Ec. cbn [bind]. rewrite E1. cbn [bind]. unfold is_optional at 1. rewrite Kc. split; [reflexivity|]. split.
        + unfold eval_resource at 1. rewrite (Ev' cls locals U). cbn [bind]. rewrite (Hs b c s Hb K Es). rewrite E2. reflexivity.
        + split; [exact (resources_one root l b c cs out rk o m ct s Kc Nb Ic Es Ra)|constructor; [exact En|exact Fn]].
      - exists es, out. split; [exact E1|]. split; [exact E2|]. split; [|exact Fn]. constructor; [|exact Ra]. intros rk o m Kc. rewrite Kc in K. now destruct rk.
    Qed.

    Lemma archive_run g : done g before ->
      exists ss g' a, archive_stmts root l t = Ok ss /\ foldM exec g ss = Ok g' /\ archive_is root l a
        /\ g' = (py_class root l ++ "Builder", ClsBuilder a) :: (py_class root l, ClsArchive a) :: g.
    Proof.
      intros D. unfold archive_stmts. destruct (schema_total root F l t Ht) as (s & Es); try (unfold is_ref; now rewrite Kt). rewrite Es. cbn [bind].
      destruct (mapM_total (fun lr => s <- schema_text root (fst lr) ;; Ok (t_name (snd lr), s)) (resources_at l t)) as (rs & Er).
      { intros (li & r) Hi. destruct (resources_loc li r Hi) as (i & -> & _ & Hr & K). cbn. destruct (schema_here i r Hr K) as (x & ->). cbn. eauto. }
      rewrite Er. cbn [bind]. destruct (Pr l t Ht Kt) as (Pu & Pi).
      assert (Attrs : forall n s', In (n, s') rs -> exists i r, nth_error (t_children t) i = Some r /\ at_loc root (l ++ [i])%list = Some r /\ is_supported_resource (t_kind r) = true /\ n = t_name r /\ schema_text root (l ++ [i])%list = Ok s').
      { intros n s' Hi. destruct (mapM_in _ _ _ _ Er Hi) as ((li & r) & Hr & E). cbn in E. destruct (resources_loc li r Hr) as (i & -> & A & B & K). apply bind_ok in E as (x & Ex & E). injection E as <- <-. exists i, r. auto. }
      assert (Loc : forall cls name schema i r s', at_loc root (l ++ [i])%list = Some r -> is_supported_resource (t_kind r) = true -> schema_text root (l ++ [i])%list = Ok s' ->
                dict_get (body_locals cls name schema rs) (mangle cls (schema_attr (t_name r))) = Some s').
      { intros cls name schema i r s' Hr K Ex. destruct (parent_at _ _ _ _ Hr) as (t' & Ht' & Hi). rewrite Ht in Ht'. injection Ht' as <-. apply locals_schema.
        - assert (In ((l ++ [i])%list, r) (resources_at l t)).
          { unfold resources_at. apply in_map_iff. exists (i, r). split; [reflexivity|]. apply filter_In. split; [apply enum_from_in; exists i; auto|exact K]. }
          destruct (mapM_each _ _ _ _ Er H) as (y & Ey). cbn in Ey. rewrite Ex in Ey. cbn in Ey. injection Ey as <-.
          clear - Er H Ex. revert rs Er H. induction (resources_at l t) as [|x xs IH]; intros rs Er H; [destruct H|]. cbn in Er. apply bind_ok in Er as (y & Ey & Er). apply bind_ok in Er as (ys & Eys & Er). injection Er as <-.
          destruct H as [->|H]; [left; cbn in Ey; rewrite Ex in Ey; cbn in Ey; now injection Ey|right; now apply IH].
        - intros n' x Hin. destruct (Attrs n' x Hin) as (j & r' & Hj & Hr' & K' & -> & Ex'). destruct (supported_kind _ K) as (rk & o & m & Kr & _). destruct (supported_kind _ K') as (rk' & o' & m' & Kr' & _).
          split; [exact (name_nonempty _ _ _ Hr')|]. split.
          + destruct (under (t_name r')) eqn:Uu; [|reflexivity]. apply under_iff in Uu. destruct (Pu r' rk' o' m' (nth_error_In _ _ Hj) Kr' Uu).
          + intros Eu. pose proof (Pi r' r _ _ _ _ _ _ (nth_error_In _ _ Hj) (nth_error_In _ _ Hi) Kr' Kr Eu) as En.
            assert (j = i); [|congruence]. destruct (wf_root l t Ht) as (Nd & _). apply (proj1 (NoDup_nth_error (map t_name (t_children t))) Nd); [rewrite map_length; apply nth_error_Some; congruence|].
            rewrite !nth_error_map, Hj, Hi. cbn. now rewrite En. }
      destruct (resources_run g (py_class root l) (body_locals (py_class root l) (t_name t) s rs) _ eq_refl D (locals_under _ _ _ _) (fun i r x => Loc _ _ _ i r x) (t_children t) 0) as (es & out & E1 & E2 & Ra & Fn).
      { intros j c Hj. exact (at_child root l t j c Ht Hj). }
      match goal with |- context [mapM ?f (resources_at l t)] => assert (E1' : mapM f (resources_at l t) = Ok es) by exact E1 end. rewrite E1'. cbn [bind]. rewrite (class_py l t Ht). eexists. eexists. exists (ADef (t_name t) (ascii_bytes s) ((t_name t ++ ".archive", RSig CRawData (ascii_bytes s) false) :: out)).
      split; [reflexivity|]. cbn [foldM exec]. rewrite E2. cbn [bind].
      assert (E2' : forall g', (forall n, In n (map fst g) \/ True -> n <> py_class root l -> dict_get g' n = dict_get g n) ->
          mapM (eval_resource g' (py_class root l ++ "Builder") (body_locals (py_class root l ++ "Builder") (t_name t) s rs)) es = Ok out).
      { intros g' Hg. rewrite <- E2. apply mapM_ext. intros ((n & e) & o) He. unfold eval_resource.
        rewrite (eval_ext g' g (py_class root l ++ "Builder") (py_class root l) _ (body_locals (py_class root l) (t_name t) s rs) e (locals_under _ _ _ _) (locals_under _ _ _ _)).
        - assert (Hn : In n (map t_name (map snd (resources_at l t)))).
          { clear - E1 He. unfold resources_at. revert es E1 He. generalize (map (fun ic => (l ++ [fst ic], snd ic)%list) (filter (fun ic => is_supported_resource (t_kind (snd ic))) (enum_from 0 (t_children t)))). intros xs.
            induction xs as [|x xs IH]; intros es E1 He; cbn in E1; [injection E1 as <-; destruct He|]. apply bind_ok in E1 as (y & Ey & E1). apply bind_ok in E1 as (ys & Eys & E1). injection E1 as <-. apply bind_ok in Ey as (z & _ & Ey). injection Ey as <-.
            destruct He as [He|He]; [left; now injection He|right; exact (IH ys Eys He)]. }
          apply in_map_iff in Hn as (r & <- & Hn). apply in_map_iff in Hn as ((li & r') & E & Hn). cbn in E. subst r'. destruct (resources_loc li r Hn) as (i & -> & _ & Hr & K). destruct (schema_here i r Hr K) as (x & Ex).
          now rewrite !(Loc _ _ _ i r x Hr K Ex).
        - intros n' Hn'. rewrite Forall_forall in Fn. destruct (Fn _ He n' Hn') as (U & d & v & Hd & Hv & Kv & ->). split; [exact U|]. apply Hg; [now right|].
          intros E. apply Hl. rewrite <- (proj1 Dc d v l t Hv Ht Kv); [exact Hd|now rewrite Kt|exact E]. }
      rewrite E2'.
      - cbn [bind]. split; [reflexivity|]. split; [|reflexivity]. exact (archive_is_intro root l t s out Ht Kt Es Ra).
      - intros n _ Nn. cbn. destruct (String.eqb_spec (py_class root l) n); [congruence|reflexivity].
    Qed.
  End Archive.

  (** ** The whole module *)
  Lemma kids_ref l t i c q d : at_loc root l = Some t -> nth_error (t_children t) i = Some c -> t_kind c = KRef q -> is_type_ref q = true -> find root (target c) = Some d -> GraphSpec.edge (kids root) l d.
  Proof.
    intros Ht Hi Kc Tq Fd. destruct (kids_total root l t (b_resolved _ Bu) Ht) as (cs & Hk). exists cs. split; [exact Hk|]. unfold kids in Hk. rewrite Ht in Hk. apply bind_ok in Hk as (ys & Hm & E). injection E as <-.
    apply in_or_app. right. assert (Hc : In c (filter (fun c => match t_kind c with KRef r => is_type_ref r | _ => false end) (t_children t))) by (apply filter_In; split; [exact (nth_error_In _ _ Hi)|now rewrite Kc]).
    clear - Hm Hc Fd. revert ys Hm. induction (filter (fun c => match t_kind c with KRef r => is_type_ref r | _ => false end) (t_children t)) as [|x xs IH]; intros ys Hm; [destruct Hc|].
    cbn in Hm. apply bind_ok in Hm as (y & Hy & Hm). apply bind_ok in Hm as (zs & Hz & E). injection E as <-. destruct Hc as [->|Hc]; [left; unfold ref_loc in Hy; rewrite Fd in Hy; now injection Hy|right; exact (IH Hc zs Hz)].
  Qed.

  Definition only_classes (g : globals) : Prop :=
    forall n c, In (n, c) g -> exists l t, at_loc root l = Some t /\ ((is_definition (t_kind t) = true /\ n = py_class root l) \/ (t_kind t = KArchive /\ n = py_class root l ++ "Builder")).

  Lemma done_step g before l t new : done g before -> ~ In l before -> at_loc root l = Some t -> is_definition (t_kind t) = true ->
    (forall n c, In (n, c) new -> n = py_class root l \/ (t_kind t = KArchive /\ n = py_class root l ++ "Builder")) ->
    forall d v, In d before -> at_loc root d = Some v ->
      match t_kind v with
      | KStructure _ => exists sd s, dict_get (new ++ g)%list (py_class root d) = Some (ClsStruct sd s) /\ struct_is root d sd /\ schema_text root d = Ok s
      | KArchive => exists a, dict_get (new ++ g)%list (py_class root d) = Some (ClsArchive a) /\ dict_get (new ++ g)%list (py_class root d ++ "Builder") = Some (ClsBuilder a) /\ archive_is root d a
      | _ => True
      end.
  Proof.
    intros D Nl Ht Kt Hn d v Hd Hv. specialize (D d v Hd Hv).
    assert (Sk : forall n, (forall c, ~ In (n, c) new) -> dict_get (new ++ g)%list n = dict_get g n).
    { clear. intros n. induction new as [|[k c] new IH]; intros H; [reflexivity|]. cbn. destruct (String.eqb_spec k n) as [->|]; [destruct (H c (or_introl eq_refl))|]. apply IH. intros x Hx. apply (H x). now right. }
    assert (C1 : is_definition (t_kind v) = true -> forall c, ~ In (py_class root d, c) new).
    { intros Kv c Hc. destruct (Hn _ _ Hc) as [E|(Ka & E)]; [apply Nl; now rewrite <- (proj1 Dc d v l t Hv Ht Kv Kt E)|]. exact (proj2 Dc l t d v Ht Hv Ka Kv (eq_sym E)). }
    assert (C2 : t_kind v = KArchive -> forall c, ~ In (py_class root d ++ "Builder", c) new).
    { intros Kv c Hc. destruct (Hn _ _ Hc) as [E|(Ka & E)]; [exact (proj2 Dc d v l t Hv Ht Kv Kt E)|]. apply app_inv_tail_string in E. apply Nl. rewrite <- (proj1 Dc d v l t Hv Ht); [exact Hd|now rewrite Kv|exact Kt|exact E]. }
    destruct (t_kind v) eqn:Kv; try exact I.
    - destruct D as (sd & s & G & A & B). exists sd, s. rewrite Sk by (apply C1; reflexivity). auto.
    - destruct D as (a & G & A & B). exists a. rewrite (Sk (py_class root d)) by (apply C1; reflexivity). rewrite (Sk (py_class root d ++ "Builder")) by (now apply C2). auto.
  Qed.

  Lemma module_run order : NoDup order -> (forall x, In x order -> exists u, at_loc root x = Some u) -> dependencies_first (kids root) order ->
    forall after before g, order = (before ++ after)%list -> done g before -> only_classes g ->
    exists ss g', mapM (node_stmts ko root) after = Ok ss /\ foldM exec g (List.concat ss) = Ok g' /\ done g' order /\ only_classes g'.
  Proof.
    intros Nd Ho Df. induction after as [|l after IH]; intros before g E D O.
    { rewrite app_nil_r in E. subst before. exists [], g. cbn. auto. }
    assert (Nl : ~ In l before) by (rewrite E in Nd; apply NoDup_remove_2 in Nd; intros H; apply Nd; apply in_or_app; now left).
    destruct (Ho l) as (t & Ht); [rewrite E; apply in_or_app; right; now left|].
    assert (X : exists ss g1, node_stmts ko root l = Ok ss /\ foldM exec g ss = Ok g1 /\ done g1 (before ++ [l]) /\ only_classes g1).
    { unfold node_stmts. rewrite Ht. destruct (is_definition (t_kind t)) eqn:Kd.
      - destruct (t_kind t) as [| | |sz| | | | | | |] eqn:Kt; try discriminate.
        + destruct (structure_total l t sz Ht Kt) as (sd & Es & Si). destruct (schema_total root F l t Ht) as (s & Et); try (unfold is_ref; now rewrite Kt). rewrite Es, Et. cbn [bind].
          eexists. eexists. split; [reflexivity|]. split; [reflexivity|]. rewrite (class_py l t Ht). split.
          * intros d v Hd Hv. apply in_app_or in Hd as [Hd|[<-|[]]].
            -- refine (done_step g before l t [(py_class root l, ClsStruct sd s)] D Nl Ht _ _ d v Hd Hv); [now rewrite Kt|]. intros n c [Ec|[]]. left. now injection Ec.
            -- rewrite Ht in Hv. injection Hv as <-. rewrite Kt. exists sd, s. cbn. rewrite String.eqb_refl. auto.
          * intros n c [Ec|Hi]; [|exact (O n c Hi)]. injection Ec as <- _. exists l, t. split; [exact Ht|]. left. now rewrite Kt.
        + destruct (archive_run before l t Ht Kt) with (g := g) as (ss & g1 & a & Es & Er & Ai & Eg).
          * intros i r j c q Hr K Hc Kc Tq d Fd. destruct (parent_at _ _ _ _ Hr) as (t' & Ht' & Hi). rewrite Ht in Ht'. injection Ht' as <-. destruct (parent_at _ _ _ _ Hc) as (r' & Hr' & Hj). rewrite Hr in Hr'. injection Hr' as <-.
            assert (Hb : In (l ++ [i])%list before) by (apply (Df before l after E); apply (kids_child root l t i r (b_resolved _ Bu) Ht Hi); unfold is_ref; destruct (supported_kind _ K) as (? & ? & ? & -> & _); reflexivity).
            apply in_split in Hb as (b1 & a1 & Eb). rewrite Eb. apply in_or_app. left. apply (Df b1 (l ++ [i])%list (a1 ++ l :: after)%list); [rewrite E, Eb, <- app_assoc; reflexivity|].
            exact (kids_ref _ r j c q d Hr Hj Kc Tq Fd).
          * exact Nl.
          * exact D.
          * exists ss, g1. split; [exact Es|]. split; [exact Er|]. subst g1. split.
            -- intros d v Hd Hv. apply in_app_or in Hd as [Hd|[<-|[]]].
               ++ refine (done_step g before l t [(py_class root l ++ "Builder", ClsBuilder a); (py_class root l, ClsArchive a)] D Nl Ht _ _ d v Hd Hv); [now rewrite Kt|].
                  intros n c [Ec|[Ec|[]]]; [right|left]; [split; [exact Kt|]|]; now injection Ec.
               ++ rewrite Ht in Hv. injection Hv as <-. rewrite Kt. exists a. cbn. rewrite !String.eqb_refl. split; [|now split]. destruct (String.eqb_spec (py_class root l ++ "Builder") (py_class root l)) as [E0|]; [|reflexivity].
                  exfalso. refine (proj2 Dc l t l t Ht Ht Kt _ E0). now rewrite Kt.
            -- intros n c [Ec|[Ec|Hi]]; [| |exact (O n c Hi)]; apply (f_equal fst) in Ec; cbn [fst] in Ec; subst n; exists l, t; (split; [exact Ht|]); [right|left]; rewrite ?Kt; auto.
      - exists [], g. split; [destruct (t_kind t); try reflexivity; discriminate|]. split; [reflexivity|]. split; [|exact O].
        intros d v Hd Hv. apply in_app_or in Hd as [Hd|[<-|[]]]; [exact (D d v Hd Hv)|]. rewrite Ht in Hv. injection Hv as <-. destruct (t_kind t); try exact I; discriminate. }
    destruct X as (ss & g1 & E1 & E2 & D1 & O1). destruct (IH (before ++ [l])%list g1) as (ss' & g' & E3 & E4 & D' & O').
    - rewrite E, <- app_assoc. reflexivity.
    - exact D1.
    - exact O1.
    - exists (ss :: ss'), g'. cbn [mapM List.concat]. rewrite E1, E3. cbn [bind]. split; [reflexivity|]. rewrite foldM_app, E2. cbn [bind]. auto.
  Qed.

  Theorem module_imports : exists g, generate_python ko root = Ok g
    /\ (forall l t, at_loc root l = Some t -> match t_kind t with
        | KStructure _ => exists sd s, dict_get g (py_class root l) = Some (ClsStruct sd s) /\ struct_is root l sd /\ schema_text root l = Ok s
        | KArchive => exists a, dict_get g (py_class root l) = Some (ClsArchive a) /\ dict_get g (py_class root l ++ "Builder") = Some (ClsBuilder a) /\ archive_is root l a
        | _ => True
        end)
    /\ only_classes g.
  Proof.
    destruct (built_order root Bu) as (order & Eo & Nd & Ho & Df). unfold generate_python, python_module. rewrite Eo. cbn [bind].
    destruct (module_run order Nd) with (after := order) (before := @nil loc) (g := @nil (string * pyclass)) as (ss & g & E1 & E2 & D & O).
    - intros x Hx. apply Ho in Hx. exact (reach_node root x (b_resolved _ Bu) Hx).
    - exact Df.
    - reflexivity.
    - intros l t [].
    - intros n c [].
    - rewrite E1. cbn [bind]. unfold run_module. rewrite E2. exists g. split; [reflexivity|]. split; [|exact O]. intros l t Hl. destruct (is_ref t) eqn:R; [unfold is_ref in R; destruct (t_kind t); try exact I; discriminate|].
      apply (D l t); [|exact Hl]. apply Ho. exact (tree_reach root l t (proj1 (b_rooted _ Bu)) (b_resolved _ Bu) Hl R).
  Qed.
End Module.
