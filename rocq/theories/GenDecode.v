(** Reading a schema text back: the lines, the declarations and what they say are determined by the text. *)
From Coq Require Import List ZArith Bool String Ascii Lia Permutation.
From Verif Require Import PyBase PyText GenTypes GenTypesFacts GenTree GenTreeFacts GenBuild GenBuildFacts GenAstSpec GenWords GenFlatdata GenInk GenOutSpec GenModule.
Import ListNotations.
Local Open Scope string_scope.
Local Open Scope Z_scope.

(** ** Text and lines *)
Lemma ink_cut a : forall b c d s t, ink a -> ink b -> ink_char c = false -> ink_char d = false -> a ++ String c s = b ++ String d t -> a = b /\ c = d /\ s = t.
Proof.
  induction a as [|x a IH]; intros [|y b] c d s t Ha Hb Hc Hd E; cbn in E.
  - injection E as -> ->. auto.
  - injection E as -> _. unfold ink in Hb. cbn in Hb. rewrite Hc in Hb. discriminate.
  - injection E as -> _. unfold ink in Ha. cbn in Ha. rewrite Hd in Ha. discriminate.
  - injection E as -> E. unfold ink in Ha, Hb. cbn in Ha, Hb. apply andb_true_iff in Ha as (_ & Ha), Hb as (_ & Hb). destruct (IH b c d s t Ha Hb Hc Hd E) as (-> & -> & ->). auto.
Qed.
Lemma app_str_assoc a b c : (a ++ b) ++ c = a ++ (b ++ c).
Proof. induction a as [|x a IH]; cbn; [reflexivity|]. now rewrite IH. Qed.
Lemma line_inj (w : line) : forall (v : line) s t, w <> [] -> v <> [] -> Forall ink w -> Forall ink v ->
  join " " w ++ newline ++ s = join " " v ++ newline ++ t -> w = v /\ s = t.
Proof.
  induction w as [|x w IH]; intros v s t Nw Nv Hw Hv E; [congruence|]. destruct v as [|y v]; [congruence|]. inversion Hw as [|? ? Hx Hw']; subst. inversion Hv as [|? ? Hy Hv']; subst.
  destruct w as [|x' w], v as [|y' v].
  - change (x ++ String (ascii_of_nat 10) s = y ++ String (ascii_of_nat 10) t) in E. apply ink_cut in E as (-> & _ & ->); auto.
  - change (join " " (y :: y' :: v)) with (y ++ " " ++ join " " (y' :: v)) in E. rewrite !app_str_assoc in E. change (x ++ String (ascii_of_nat 10) s = y ++ String " " (join " " (y' :: v) ++ newline ++ t)) in E. apply ink_cut in E as (_ & E & _); auto. discriminate.
  - change (join " " (x :: x' :: w)) with (x ++ " " ++ join " " (x' :: w)) in E. rewrite !app_str_assoc in E. change (x ++ String " " (join " " (x' :: w) ++ newline ++ s) = y ++ String (ascii_of_nat 10) t) in E. apply ink_cut in E as (_ & E & _); auto. discriminate.
  - change (join " " (y :: y' :: v)) with (y ++ " " ++ join " " (y' :: v)) in E. change (join " " (x :: x' :: w)) with (x ++ " " ++ join " " (x' :: w)) in E. rewrite !app_str_assoc in E.
    change (x ++ String " " (join " " (x' :: w) ++ newline ++ s) = y ++ String " " (join " " (y' :: v) ++ newline ++ t)) in E. apply ink_cut in E as (-> & _ & E); auto.
    destruct (IH (y' :: v) s t ltac:(discriminate) ltac:(discriminate) Hw' Hv' E) as (-> & ->). auto.
Qed.
Definition full (ls : list line) : Prop := Forall (fun w => w <> []) ls.
Lemma text_inj ls : forall ms, inked ls -> inked ms -> full ls -> full ms -> text ls = text ms -> ls = ms.
Proof.
  induction ls as [|w ls IH]; intros [|v ms] I1 I2 F1 F2 E; [reflexivity| | |].
  - exfalso. cbn [text] in E. unfold line_text in E. apply (f_equal String.length) in E. rewrite !append_length in E. cbn in E. lia.
  - exfalso. cbn [text] in E. unfold line_text in E. apply (f_equal String.length) in E. rewrite !append_length in E. cbn in E. lia.
  - inversion I1; inversion I2; inversion F1; inversion F2; subst. cbn [text] in E. unfold line_text in E. rewrite !app_str_assoc in E. apply line_inj in E as (-> & E); auto. f_equal. now apply IH.
Qed.

(** ** Segments: lists whose last element only passes a test *)
Section Segments.
  Context {A : Type} (p : A -> bool).
  Definition segment (l : list A) : Prop := exists pre x, l = (pre ++ [x])%list /\ p x = true /\ Forall (fun y => p y = false) pre.
  Lemma segment_cut a : forall b x y s t, Forall (fun z => p z = false) a -> Forall (fun z => p z = false) b -> p x = true -> p y = true ->
    (a ++ x :: s = b ++ y :: t -> a = b /\ x = y /\ s = t)%list.
  Proof.
    induction a as [|u a IH]; intros [|v b] x y s t Ha Hb Hx Hy E; cbn in E.
    - injection E as -> ->. auto.
    - injection E as -> _. inversion Hb; subst. congruence.
    - injection E as -> _. inversion Ha; subst. congruence.
    - injection E as -> E. inversion Ha; inversion Hb; subst. destruct (IH b x y s t) as (-> & -> & ->); auto.
  Qed.
  Lemma segments_inj ls : forall ms, Forall segment ls -> Forall segment ms -> List.concat ls = List.concat ms -> ls = ms.
  Proof.
    induction ls as [|l ls IH]; intros [|m ms] Hl Hm E; [reflexivity| | |]; cbn in E.
    - inversion Hm as [|? ? (pre & x & -> & _) _]; subst. destruct pre; discriminate.
    - inversion Hl as [|? ? (pre & x & -> & _) _]; subst. destruct pre; discriminate.
    - inversion Hl as [|? ? (pre & x & -> & Px & Fp) Hl']; subst. inversion Hm as [|? ? (pre' & y & -> & Py & Fp') Hm']; subst. rewrite <- !app_assoc in E. cbn in E. apply segment_cut in E as (-> & -> & E); auto. f_equal. now apply IH.
  Qed.
End Segments.

(** ** Words *)
Lemma comma_inj l : forall m, l <> [] -> m <> [] -> comma l = comma m -> l = m.
Proof.
  induction l as [|x l IH]; intros m Nl Nm E; [congruence|]. destruct m as [|y m]; [congruence|]. destruct l as [|x' l], m as [|y' m].
  - cbn in E. congruence.
  - exfalso. cbn [comma] in E. injection E as _ E. destruct m; discriminate.
  - exfalso. cbn [comma] in E. injection E as _ E. destruct l; discriminate.
  - cbn [comma] in E. fold (comma (x' :: l)) in E. fold (comma (y' :: m)) in E.
    assert (E1 : x ++ "," = y ++ ",") by exact (f_equal (hd "") E). assert (E2 : comma (x' :: l) = comma (y' :: m)) by exact (f_equal (@tl string) E). apply app_inv_tail_string in E1. subst. f_equal. apply IH; [discriminate|discriminate|exact E2].
Qed.
Lemma comma_nonempty l : comma l <> []. Proof. destruct l as [|x [|y l]]; discriminate. Qed.
Lemma ending_inj l s : forall m, l <> [] -> m <> [] -> ending l s = ending m s -> l = m.
Proof.
  induction l as [|x l IH]; intros m Nl Nm E; [congruence|]. destruct m as [|y m]; [congruence|]. destruct l as [|x' l], m as [|y' m].
  - cbn in E. assert (E1 : x ++ s = y ++ s) by exact (f_equal (hd "") E). apply app_inv_tail_string in E1. now subst.
  - exfalso. cbn [ending] in E. apply (f_equal (@List.length string)) in E. destruct m; cbn in E; discriminate.
  - exfalso. cbn [ending] in E. apply (f_equal (@List.length string)) in E. destruct l; cbn in E; discriminate.
  - cbn [ending] in E. fold (ending (x' :: l) s) in E. fold (ending (y' :: m) s) in E. assert (E1 : x = y) by exact (f_equal (hd "") E). assert (E2 : ending (x' :: l) s = ending (y' :: m) s) by exact (f_equal (@tl string) E).
    subst. f_equal. apply IH; [discriminate|discriminate|exact E2].
Qed.

(** ** Declarations *)
Definition blank (l : line) : bool := match l with [EmptyString] => true | _ => false end.
Definition shown (ls : list line) : Prop := Forall (fun l => blank l = false /\ l <> []) ls.
Lemma shown_app a b : shown a -> shown b -> shown (a ++ b). Proof. intros. now apply Forall_app. Qed.
Lemma shown_concat ls : (forall l, In l ls -> shown l) -> shown (List.concat ls).
Proof. induction ls as [|l ls IH]; intros H; cbn; [constructor|]. apply shown_app; [apply H; now left|apply IH; intros; apply H; now right]. Qed.
Lemma shown_indented w : blank (indented w) = false /\ indented w <> []. Proof. unfold indented. destruct w; split; (reflexivity || discriminate). Qed.
Lemma mapM_in {A B} (f : A -> res B) l : forall ys y, mapM f l = Ok ys -> In y ys -> exists x, In x l /\ f x = Ok y.
Proof.
  induction l as [|x l IH]; intros ys y H Hy; cbn in H; [injection H as <-; destruct Hy|]. apply bind_ok in H as (z & Hz & H). apply bind_ok in H as (zs & Hzs & H). injection H as <-. destruct Hy as [<-|Hy]; [exists x; split; [now left|exact Hz]|].
  destruct (IH zs y Hzs Hy) as (x' & Hx & E). exists x'. split; [now right|exact E].
Qed.
Lemma field_shape f ls : field_lines f = Ok ls -> exists rng ty off pre, t_kind f = KField rng (Some ty) off
  /\ ls = (pre ++ [indented [t_name f; ":"; field_type (ft_name ty); ":"; (py_str (ft_width ty) ++ ";")%string]])%list /\ Forall (fun l => exists a b c, l = indented [a; b; c]) pre.
Proof.
  unfold field_lines. destruct (t_kind f) as [| | | |rng [ty|] off| | | | | |] eqn:K; try discriminate. intros H. injection H as <-. exists rng, ty, off. eexists. split; [reflexivity|]. split.
  - rewrite !app_assoc. reflexivity.
  - apply Forall_app. split; [apply Forall_app; split|].
    + destruct rng as [[|c r]|]; cbn; repeat constructor. eauto.
    + apply Forall_forall. intros x Hx. apply in_map_iff in Hx as (c & <- & _). eauto.
    + destruct (children_like f is_invalid_ref); repeat constructor. eauto.
Qed.
Definition field_end (l : line) : bool := Nat.eqb (List.length l) 9.
Lemma field_segment f ls : field_lines f = Ok ls -> segment field_end ls.
Proof.
  intros H. apply field_shape in H as (rng & ty & off & pre & _ & -> & Fp). exists pre. eexists. split; [reflexivity|]. split; [reflexivity|]. eapply Forall_impl; [|exact Fp]. intros l (a & b & c & ->). reflexivity.
Qed.
Lemma field_same f g ls : field_lines f = Ok ls -> field_lines g = Ok ls -> exists r1 ty1 o1 r2 ty2 o2, t_kind f = KField r1 (Some ty1) o1 /\ t_kind g = KField r2 (Some ty2) o2
  /\ t_name f = t_name g /\ field_type (ft_name ty1) = field_type (ft_name ty2) /\ ft_width ty1 = ft_width ty2.
Proof.
  intros H1 H2. apply field_shape in H1 as (r1 & ty1 & o1 & p1 & K1 & -> & _). apply field_shape in H2 as (r2 & ty2 & o2 & p2 & K2 & E & _). exists r1, ty1, o1, r2, ty2, o2. split; [exact K1|]. split; [exact K2|].
  apply app_inj_tail in E as (_ & E). unfold indented in E. assert (E1 : t_name f = t_name g) by exact (f_equal (fun l => nth 4 l "") E). assert (E2 : field_type (ft_name ty1) = field_type (ft_name ty2)) by exact (f_equal (fun l => nth 6 l "") E).
  assert (E3 : py_str (ft_width ty1) ++ ";" = py_str (ft_width ty2) ++ ";") by exact (f_equal (fun l => nth 8 l "") E). split; [exact E1|]. split; [exact E2|]. apply app_inv_tail_string in E3. now apply py_str_inj.
Qed.
Lemma structure_shape n cs ls : structure_lines n cs = Ok ls -> exists fs, mapM field_lines (filter (fun c => is_field (t_kind c)) cs) = Ok fs /\ ls = ([["struct"; n]; ["{"]] ++ List.concat fs ++ [["}"]])%list.
Proof. unfold structure_lines. intros H. apply bind_ok in H as (fs & Hf & H). injection H as <-. eauto. Qed.
Lemma structure_shown n cs ls : structure_lines n cs = Ok ls -> shown ls.
Proof.
  intros H. apply structure_shape in H as (fs & M & ->). apply shown_app; [repeat constructor; discriminate|]. apply shown_app; [|repeat constructor; discriminate]. apply shown_concat. intros l Hl. destruct (mapM_in _ _ _ _ M Hl) as (f & _ & Hf).
  apply field_shape in Hf as (rng & ty & off & pre & _ & -> & Fp). apply shown_app; [|constructor; [apply shown_indented|constructor]]. eapply Forall_impl; [|exact Fp]. intros x (a & b & c & ->). apply shown_indented.
Qed.
Lemma structure_same n1 n2 cs1 cs2 ls : structure_lines n1 cs1 = Ok ls -> structure_lines n2 cs2 = Ok ls ->
  n1 = n2 /\ exists fs, mapM field_lines (filter (fun c => is_field (t_kind c)) cs1) = Ok fs /\ mapM field_lines (filter (fun c => is_field (t_kind c)) cs2) = Ok fs.
Proof.
  intros H1 H2. apply structure_shape in H1 as (f1 & M1 & ->). apply structure_shape in H2 as (f2 & M2 & E).
  assert (E1 : n1 = n2) by exact (f_equal (fun l => nth 1 (nth 0 l []) "") E). split; [exact E1|]. assert (E2 : (List.concat f1 ++ [["}"]] = List.concat f2 ++ [["}"]])%list) by exact (f_equal (@skipn line 2) E). apply app_inj_tail in E2 as (E2 & _).
  assert (f1 = f2); [|subst; eauto]. apply (segments_inj field_end); [| |exact E2].
  - apply Forall_forall. intros l Hl. destruct (mapM_in _ _ _ _ M1 Hl) as (f & _ & Hf). exact (field_segment f l Hf).
  - apply Forall_forall. intros l Hl. destruct (mapM_in _ _ _ _ M2 Hl) as (f & _ & Hf). exact (field_segment f l Hf).
Qed.

(** resources *)
Lemma explicit_shape root e ls : explicit_lines root e = Ok ls -> exists a f b, ls = [indented ["@explicit_reference("; a ++ "." ++ f ++ ","; b; ")"]].
Proof. unfold explicit_lines. intros H. apply bind_ok in H as (s & _ & H). apply bind_ok in H as (sp & _ & H). apply bind_ok in H as (f & _ & H). apply bind_ok in H as (fp & _ & H). apply bind_ok in H as (d & _ & H). apply bind_ok in H as (dp & _ & H). injection H as <-. exists sp, fp, dp. reflexivity. Qed.
Definition opt_lines (t : tree) : list line := match t_kind t with KResource _ true _ => [indented ["@optional"]] | _ => [] end.
Lemma resource_shape root r ls : resource_lines root r = Ok ls -> exists es ty, Forall (fun l => exists a f b, l = indented ["@explicit_reference("; a ++ "." ++ f ++ ","; b; ")"]) es /\ resource_type root r = Ok ty
  /\ ls = (es ++ opt_lines r ++ [indented (t_name r :: ":" :: ending ty ";")])%list.
Proof.
  unfold resource_lines. intros H. apply bind_ok in H as (es & M & H). apply bind_ok in H as (ty & Ht & H). injection H as <-. exists (List.concat es), ty. split; [|split; [exact Ht|reflexivity]].
  apply Forall_forall. intros l Hl. apply in_concat in Hl as (x & Hx & Hl). destruct (mapM_in _ _ _ _ M Hx) as (e & _ & He). apply explicit_shape in He as (a & f & b & ->). destruct Hl as [<-|[]]. exists a, f, b. reflexivity.
Qed.
Definition resource_end (l : line) : bool := match nth_error l 5 with Some w => String.eqb w ":" | None => false end.
Lemma not_colon a f : String.eqb (a ++ "." ++ f ++ ",") ":" = false.
Proof. apply String.eqb_neq. intros E. apply (f_equal String.length) in E. rewrite !append_length in E. cbn in E. lia. Qed.
Lemma resource_segment root r ls : resource_lines root r = Ok ls -> segment resource_end ls.
Proof.
  intros H. apply resource_shape in H as (es & ty & Fe & _ & ->). exists (es ++ opt_lines r)%list. eexists. rewrite <- app_assoc. split; [reflexivity|]. split; [reflexivity|]. apply Forall_app. split.
  - eapply Forall_impl; [|exact Fe]. intros l (a & f & b & ->). unfold resource_end, indented. cbn [nth_error]. apply not_colon.
  - unfold opt_lines. destruct (t_kind r); try constructor. destruct optional; repeat constructor.
Qed.
Lemma resource_type_full root r ty : resource_type root r = Ok ty -> ty <> [].
Proof.
  unfold resource_type. intros H. apply bind_ok in H as (ps & _ & H). destruct (t_kind r); try discriminate. match type of H with match ?k with _ => _ end = _ => destruct k end; try discriminate; try (injection H as <-; discriminate).
  - injection H as <-. apply comma_nonempty.
  - apply bind_ok in H as (a & _ & H). apply bind_ok in H as (p & _ & H). injection H as <-. discriminate.
Qed.
Lemma resource_type_kind root r ty : resource_type root r = Ok ty -> exists rk o m, t_kind r = KResource rk o m /\ rk <> KBound.
Proof.
  unfold resource_type. intros H. apply bind_ok in H as (ps & _ & H). destruct (t_kind r); try discriminate. match type of H with match ?k with _ => _ end = _ => destruct k end; try discriminate; eexists; eexists; eexists; split; try reflexivity; discriminate.
Qed.
Lemma resource_same root1 root2 r1 r2 ls : resource_lines root1 r1 = Ok ls -> resource_lines root2 r2 = Ok ls ->
  t_name r1 = t_name r2 /\ exists ty k1 k2 o m1 m2, resource_type root1 r1 = Ok ty /\ resource_type root2 r2 = Ok ty /\ t_kind r1 = KResource k1 o m1 /\ t_kind r2 = KResource k2 o m2.
Proof.
  intros H1 H2. apply resource_shape in H1 as (e1 & ty1 & F1 & T1 & ->). apply resource_shape in H2 as (e2 & ty2 & F2 & T2 & E). rewrite !app_assoc in E. apply app_inj_tail in E as (E0 & E). unfold indented in E.
  assert (E1 : t_name r1 = t_name r2) by exact (f_equal (fun l => nth 4 l "") E). split; [exact E1|]. assert (E2 : ending ty1 ";" = ending ty2 ";") by exact (f_equal (@skipn string 6) E).
  apply ending_inj in E2; [|exact (resource_type_full root1 r1 ty1 T1)|exact (resource_type_full root2 r2 ty2 T2)]. subst ty2. destruct (resource_type_kind _ _ _ T1) as (k1 & o1 & m1 & K1 & _). destruct (resource_type_kind _ _ _ T2) as (k2 & o2 & m2 & K2 & _).
  assert (o1 = o2); [|subst o2; exists ty1, k1, k2, o1, m1, m2; auto]. unfold opt_lines in E0. rewrite K1, K2 in E0.
  assert (X : forall es : list line, Forall (fun l => exists a f b, l = indented ["@explicit_reference("; a ++ "." ++ f ++ ","; b; ")"]) es -> ~ In (indented ["@optional"]) es).
  { intros es Fe Hin. rewrite Forall_forall in Fe. destruct (Fe _ Hin) as (a & f & b & Q). apply (f_equal (@List.length string)) in Q. discriminate. }
  destruct o1, o2; try reflexivity; exfalso.
  - rewrite app_nil_r in E0. apply (X e2 F2). rewrite <- E0. apply in_or_app. right. now left.
  - rewrite app_nil_r in E0. apply (X e1 F1). rewrite E0. apply in_or_app. right. now left.
Qed.

(** archives *)
Lemma archive_shape root n cs ls : archive_lines root n cs = Ok ls -> exists bs rs, Forall (fun l => exists w, l = "@bound_implicitly(" :: w) bs
  /\ mapM (resource_lines root) (filter (fun c => is_supported_resource (t_kind c)) cs) = Ok rs /\ ls = (bs ++ [["archive"; n]; ["{"]] ++ List.concat rs ++ [["}"]])%list.
Proof.
  unfold archive_lines. intros H. apply bind_ok in H as (bs & M & H). apply bind_ok in H as (rs & Hr & H). injection H as <-. exists (List.concat bs), rs. split; [|split; [exact Hr|reflexivity]].
  apply Forall_forall. intros l Hl. apply in_concat in Hl as (x & Hx & Hl). destruct (mapM_in _ _ _ _ M Hx) as (b & _ & Hb). unfold bound_lines in Hb. apply bind_ok in Hb as (ps & _ & Hb). injection Hb as <-. destruct Hl as [<-|[]]. eauto.
Qed.
Lemma archive_shown root n cs ls : archive_lines root n cs = Ok ls -> shown ls.
Proof.
  intros H. apply archive_shape in H as (bs & rs & Fb & M & ->). apply shown_app; [|apply shown_app; [repeat constructor; discriminate|apply shown_app; [|repeat constructor; discriminate]]].
  - eapply Forall_impl; [|exact Fb]. intros l (w & ->). split; [reflexivity|discriminate].
  - apply shown_concat. intros l Hl. destruct (mapM_in _ _ _ _ M Hl) as (r & _ & Hr). apply resource_shape in Hr as (es & ty & Fe & _ & ->). apply shown_app; [|apply shown_app; [|constructor; [apply shown_indented|constructor]]].
    + eapply Forall_impl; [|exact Fe]. intros x (a & f & b & ->). apply shown_indented.
    + unfold opt_lines. destruct (t_kind r); try constructor. destruct optional; constructor; [apply shown_indented|constructor].
Qed.
Definition archive_line (l : line) : bool := match l with w :: _ => String.eqb w "archive" | [] => false end.
Lemma archive_same root1 root2 n1 n2 cs1 cs2 ls : archive_lines root1 n1 cs1 = Ok ls -> archive_lines root2 n2 cs2 = Ok ls ->
  n1 = n2 /\ exists rs, mapM (resource_lines root1) (filter (fun c => is_supported_resource (t_kind c)) cs1) = Ok rs
                        /\ mapM (resource_lines root2) (filter (fun c => is_supported_resource (t_kind c)) cs2) = Ok rs.
Proof.
  intros H1 H2. apply archive_shape in H1 as (b1 & r1 & F1 & M1 & ->). apply archive_shape in H2 as (b2 & r2 & F2 & M2 & E).
  assert (X : forall bs : list line, Forall (fun l => exists w, l = "@bound_implicitly(" :: w) bs -> Forall (fun l => archive_line l = false) bs) by (intros bs Fb; eapply Forall_impl; [|exact Fb]; intros l (w & ->); reflexivity).
  apply (segment_cut archive_line) in E as (_ & E1 & E2); [|now apply X|now apply X|reflexivity|reflexivity]. split; [exact (f_equal (fun l => nth 1 l "") E1)|].
  assert (E3 : (List.concat r1 ++ [["}"]] = List.concat r2 ++ [["}"]])%list) by exact (f_equal (@skipn line 1) E2). apply app_inj_tail in E3 as (E3 & _).
  assert (r1 = r2); [|subst; eauto]. apply (segments_inj resource_end); [| |exact E3].
  - apply Forall_forall. intros l Hl. destruct (mapM_in _ _ _ _ M1 Hl) as (f & _ & Hf). exact (resource_segment root1 f l Hf).
  - apply Forall_forall. intros l Hl. destruct (mapM_in _ _ _ _ M2 Hl) as (f & _ & Hf). exact (resource_segment root2 f l Hf).
Qed.

Lemma enum_shown n b cs : shown (enum_lines n b cs).
Proof.
  unfold enum_lines. apply shown_app; [repeat constructor; discriminate|]. apply shown_app; [|repeat constructor; discriminate]. induction cs as [|c cs IH]; cbn [flat_map]; [constructor|]. apply shown_app; [|exact IH].
  unfold value_lines. destruct (t_kind c); try constructor. destruct auto_generated; constructor; [apply shown_indented|constructor].
Qed.
Lemma declaration_shown root t ls : declaration root t = Ok ls -> shown ls.
Proof.
  unfold declaration. destruct (t_kind t); try discriminate; intros H.
  - injection H as <-. repeat constructor; discriminate.
  - exact (structure_shown _ _ _ H).
  - injection H as <-. apply enum_shown.
  - exact (archive_shown _ _ _ _ H).
Qed.
(** how a declaration starts *)
Definition first_word (ls : list line) : string := hd "" (hd [] ls).
Lemma declaration_first root t ls : declaration root t = Ok ls -> ls <> [] /\
  match t_kind t with
  | KConstant _ _ => first_word ls = "const" | KStructure _ => first_word ls = "struct" | KEnum _ => first_word ls = "enum"
  | KArchive => first_word ls = "archive" \/ first_word ls = "@bound_implicitly("
  | _ => False
  end.
Proof.
  unfold declaration. destruct (t_kind t); try discriminate; intros H.
  - injection H as <-. split; [discriminate|reflexivity].
  - apply structure_shape in H as (fs & _ & ->). split; [discriminate|reflexivity].
  - injection H as <-. split; [discriminate|reflexivity].
  - apply archive_shape in H as (bs & rs & Fb & _ & ->). destruct bs as [|b bs]; [split; [discriminate|now left]|]. inversion Fb as [|? ? (w & ->) _]; subst. split; [discriminate|now right].
Qed.
Theorem declaration_same root1 root2 t1 t2 ls : declaration root1 t1 = Ok ls -> declaration root2 t2 = Ok ls ->
  t_name t1 = t_name t2 /\
  match t_kind t1, t_kind t2 with
  | KConstant _ _, KConstant _ _ => True
  | KStructure _, KStructure _ => exists fs, mapM field_lines (filter (fun c => is_field (t_kind c)) (t_children t1)) = Ok fs /\ mapM field_lines (filter (fun c => is_field (t_kind c)) (t_children t2)) = Ok fs
  | KEnum b1, KEnum b2 => b1 = b2
  | KArchive, KArchive => exists rs, mapM (resource_lines root1) (filter (fun c => is_supported_resource (t_kind c)) (t_children t1)) = Ok rs
                                     /\ mapM (resource_lines root2) (filter (fun c => is_supported_resource (t_kind c)) (t_children t2)) = Ok rs
  | _, _ => False
  end.
Proof.
  intros H1 H2. destruct (declaration_first _ _ _ H1) as (_ & W1). destruct (declaration_first _ _ _ H2) as (_ & W2). unfold declaration in H1, H2.
  destruct (t_kind t1) eqn:K1; try contradiction; destruct (t_kind t2) eqn:K2; try contradiction; try (exfalso; try destruct W1 as [W1|W1]; try destruct W2 as [W2|W2]; rewrite W1 in W2; discriminate).
  - injection H1 as <-. injection H2 as E. split; [|exact I]. now symmetry.
  - exact (structure_same _ _ _ _ _ H1 H2).
  - injection H1 as <-. injection H2 as E1 E2 E3 _. apply py_str_inj in E3. split; [now symmetry|]. destruct type, type0. cbn in *. congruence.
  - exact (archive_same _ _ _ _ _ _ _ H1 H2).
Qed.

(** blocks *)
Lemma block_shape root d t b : block root d t = Ok b -> exists dl, declaration root t = Ok dl
  /\ b = ((map (fun n => ["namespace"; n; "{"]) (namespaces root d) ++ dl ++ map (fun _ => ["}"]) (namespaces root d)) ++ [[""]])%list.
Proof. unfold block. intros H. apply bind_ok in H as (dl & Hd & H). injection H as <-. exists dl. split; [exact Hd|]. now rewrite <- !app_assoc. Qed.
Lemma block_segment root d t b : block root d t = Ok b -> segment blank b.
Proof.
  intros H. apply block_shape in H as (dl & Hd & ->). eexists. eexists. split; [reflexivity|]. split; [reflexivity|]. apply Forall_app. split; [|apply Forall_app; split].
  - apply Forall_forall. intros x Hx. apply in_map_iff in Hx as (n & <- & _). reflexivity.
  - eapply Forall_impl; [|exact (declaration_shown _ _ _ Hd)]. intros l (E & _). exact E.
  - apply Forall_forall. intros x Hx. apply in_map_iff in Hx as (n & <- & _). reflexivity.
Qed.
Lemma block_full root d t b : block root d t = Ok b -> full b.
Proof.
  intros H. apply block_shape in H as (dl & Hd & ->). apply Forall_app. split; [|repeat constructor; discriminate]. apply Forall_app. split; [|apply Forall_app; split].
  - apply Forall_forall. intros x Hx. apply in_map_iff in Hx as (n & <- & _). discriminate.
  - eapply Forall_impl; [|exact (declaration_shown _ _ _ Hd)]. intros l (_ & E). exact E.
  - apply Forall_forall. intros x Hx. apply in_map_iff in Hx as (n & <- & _). discriminate.
Qed.
Lemma namespaces_cut a : forall b (s t : list line), first_word s <> "namespace" -> first_word t <> "namespace" ->
  (map (fun n => ["namespace"; n; "{"]) a ++ s = map (fun n => ["namespace"; n; "{"]) b ++ t -> a = b /\ s = t)%list.
Proof.
  induction a as [|x a IH]; intros [|y b] s t Hs Ht E; cbn [map app] in E.
  - auto.
  - exfalso. apply Hs. now rewrite E.
  - exfalso. apply Ht. now rewrite <- E.
  - assert (E1 : x = y) by exact (f_equal (fun l => nth 1 (nth 0 l []) "") E). assert (E2 := f_equal (@tl line) E). cbn [tl] in E2. destruct (IH b s t Hs Ht E2) as (-> & ->). now rewrite E1.
Qed.
Theorem block_same root1 root2 d1 d2 t1 t2 b : block root1 d1 t1 = Ok b -> block root2 d2 t2 = Ok b ->
  namespaces root1 d1 = namespaces root2 d2 /\ exists dl, declaration root1 t1 = Ok dl /\ declaration root2 t2 = Ok dl.
Proof.
  intros H1 H2. apply block_shape in H1 as (l1 & D1 & ->). apply block_shape in H2 as (l2 & D2 & E). apply app_inj_tail in E as (E & _).
  destruct (declaration_first _ _ _ D1) as (N1 & W1). destruct (declaration_first _ _ _ D2) as (N2 & W2).
  assert (X : forall (t : tree) ls (r : list line), ls <> [] -> match t_kind t with
    | KConstant _ _ => first_word ls = "const" | KStructure _ => first_word ls = "struct" | KEnum _ => first_word ls = "enum"
    | KArchive => first_word ls = "archive" \/ first_word ls = "@bound_implicitly("
    | _ => False
    end -> first_word (ls ++ r) <> "namespace").
  { intros t ls r Nl H. replace (first_word (ls ++ r)) with (first_word ls) by (destruct ls; [congruence|reflexivity]). destruct (t_kind t); try contradiction; try destruct H as [H|H]; rewrite H; discriminate. }
  apply namespaces_cut in E as (En & E); [|exact (X t1 l1 _ N1 W1)|exact (X t2 l2 _ N2 W2)]. split; [exact En|]. rewrite En in E. apply app_inv_tail in E. subst. eauto.
Qed.
