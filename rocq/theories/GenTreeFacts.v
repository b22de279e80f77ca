(** Facts about the syntax-tree primitives of [GenTree]. *)
From Coq Require Import List ZArith Bool String Ascii Lia FinFun.
From Verif Require Import PyBase PyText GenTypes GenTree.
Import ListNotations.

(** ** Text *)
Lemma split_nonempty c s : split_on c s <> [].
Proof. destruct s as [|a t]; cbn; [discriminate|]. destruct (Ascii.eqb a c); [discriminate|]. destruct (split_on c t); discriminate. Qed.

Lemma has_char_app c s1 s2 : has_char c (s1 ++ s2)%string = has_char c s1 || has_char c s2.
Proof. induction s1 as [|a t IH]; cbn; [reflexivity|]. now rewrite IH, orb_assoc. Qed.

Lemma str_app_assoc (a b c : string) : ((a ++ b) ++ c = a ++ b ++ c)%string.
Proof. induction a as [|x t IH]; cbn; [reflexivity|now rewrite IH]. Qed.
Lemma str_app_nil (a : string) : (a ++ "" = a)%string.
Proof. induction a as [|x t IH]; cbn; [reflexivity|now rewrite IH]. Qed.

Lemma split_no_char c s : has_char c s = false -> split_on c s = [s].
Proof.
  induction s as [|a t IH]; cbn; [reflexivity|]. intros H. apply orb_false_iff in H as [Ha Ht].
  now rewrite Ha, (IH Ht).
Qed.
Lemma split_app c s t : has_char c s = false -> split_on c (s ++ String c t)%string = s :: split_on c t.
Proof.
  induction s as [|a s IH]; cbn; [now rewrite Ascii.eqb_refl|].
  intros H. apply orb_false_iff in H as [Ha Hs]. now rewrite Ha, (IH Hs).
Qed.

Definition dotted (ks : list string) : string := join "." ks.
Lemma dotted_cons k ks : ks <> [] -> dotted (k :: ks) = (k ++ String "." (dotted ks))%string.
Proof. destruct ks; [congruence|]. reflexivity. Qed.

Definition dot_free (ks : list string) : Prop := Forall (fun k => has_char "." k = false) ks.

Lemma split_dotted ks : ks <> [] -> dot_free ks -> split_on "." (dotted ks) = ks.
Proof.
  induction ks as [|k ks IH]; [congruence|]. intros _ H. inversion H; subst. destruct ks as [|k2 ks].
  - cbn. now apply split_no_char.
  - rewrite dotted_cons by discriminate. rewrite split_app by assumption. f_equal. now apply IH.
Qed.
Lemma dotted_split s : dotted (split_on "." s) = s.
Proof.
  induction s as [|a t IH]; [reflexivity|]. cbn [split_on]. destruct (Ascii.eqb_spec a ".") as [->|E].
  - rewrite dotted_cons by apply split_nonempty. now rewrite IH.
  - destruct (split_on "." t) as [|w ws] eqn:S; [now destruct (split_nonempty "." t)|].
    destruct ws; cbn in *; now rewrite <- IH.
Qed.
Lemma split_dot_free s : dot_free (split_on "." s).
Proof.
  induction s as [|a t IH]; cbn; [repeat constructor|].
  destruct (Ascii.eqb a ".") eqn:E; [constructor; [reflexivity|exact IH]|].
  destruct (split_on "." t) as [|w ws]; [repeat constructor; cbn; now rewrite E|].
  inversion IH; subst. constructor; [cbn; now rewrite E|assumption].
Qed.
Lemma dotted_inj a b : a <> [] -> b <> [] -> dot_free a -> dot_free b -> dotted a = dotted b -> a = b.
Proof. intros Ha Hb Fa Fb H. rewrite <- (split_dotted a), <- (split_dotted b) by assumption. now rewrite H. Qed.

(** ** References *)
Lemma replace_back a b s : has_char b s = false -> a <> b -> replace_char b a (replace_char a b s) = s.
Proof.
  intros H N. induction s as [|c t IH]; cbn in *; [reflexivity|].
  apply orb_false_iff in H as [Hc Ht]. rewrite (IH Ht). destruct (Ascii.eqb_spec c a) as [->|E].
  - now rewrite Ascii.eqb_refl.
  - now rewrite Hc.
Qed.
Lemma dereferencify_referencify p : has_char "@" p = false -> dereferencify (referencify p) = p.
Proof. intros H. cbn. apply replace_back; [exact H|discriminate]. Qed.
Lemma replace_char_none a b s : has_char a (replace_char a b s) = if Ascii.eqb b a then has_char a s else false.
Proof.
  induction s as [|c t IH]; cbn; [now destruct (Ascii.eqb b a)|].
  rewrite IH. destruct (Ascii.eqb c a) eqn:E; cbn; destruct (Ascii.eqb b a) eqn:F; try reflexivity; rewrite ?E; reflexivity.
Qed.
Lemma replace_char_id a b s : has_char a s = false -> replace_char a b s = s.
Proof.
  induction s as [|c t IH]; cbn; [reflexivity|]. intros H. apply orb_false_iff in H as [Hc Ht].
  now rewrite Hc, (IH Ht).
Qed.
Lemma referencify_ok p : name_ok (referencify p) = true.
Proof.
  unfold name_ok, referencify. cbn. rewrite replace_char_none. reflexivity.
Qed.
Lemma target_no_at t : has_char "@" (target t) = false.
Proof. unfold target, dereferencify. destruct (t_name t); [reflexivity|]. now rewrite replace_char_none. Qed.

(** ** Lists of children *)
Lemma child_pos_some cs n i : child_pos cs n = Some i -> exists c, nth_error cs i = Some c /\ t_name c = n.
Proof.
  revert i; induction cs as [|c cs IH]; cbn; [discriminate|]. intros i.
  destruct (String.eqb_spec (t_name c) n) as [E|E].
  - intros H; injection H as <-. exists c. now split.
  - destruct (child_pos cs n) as [j|]; [|discriminate]. intros H; injection H as <-. now apply IH.
Qed.
Lemma child_pos_none cs n : child_pos cs n = None <-> ~ In n (map t_name cs).
Proof.
  induction cs as [|c cs IH]; cbn; [tauto|]. destruct (String.eqb_spec (t_name c) n) as [E|E].
  - split; [discriminate|]. intros H; exfalso; apply H; now left.
  - destruct (child_pos cs n) as [j|]; cbn.
    + split; [discriminate|]. intros H. exfalso. destruct IH as [_ IH].
      assert (Some j = None) by (apply IH; tauto). discriminate.
    + split; [|reflexivity]. intros _ [H|H]; [contradiction|]. now apply IH.
Qed.
Lemma child_pos_nodup cs n i c : NoDup (map t_name cs) -> nth_error cs i = Some c -> t_name c = n -> child_pos cs n = Some i.
Proof.
  revert i; induction cs as [|x cs IH]; intros i ND Hn E; [now destruct i|]. cbn. inversion ND; subst.
  destruct i as [|i]; cbn in Hn.
  - injection Hn as ->. now rewrite String.eqb_refl.
  - destruct (String.eqb_spec (t_name x) (t_name c)) as [E|E].
    + exfalso. apply H1. rewrite E. apply in_map. eapply nth_error_In; eauto.
    + now rewrite (IH i H2 Hn eq_refl).
Qed.
Lemma child_pos_app cs ds n : child_pos (cs ++ ds) n =
  match child_pos cs n with Some i => Some i | None => option_map (fun j => (List.length cs + j)%nat) (child_pos ds n) end.
Proof.
  induction cs as [|c cs IH]; cbn; [now destruct (child_pos ds n)|].
  destruct (String.eqb (t_name c) n); [reflexivity|]. rewrite IH. destruct (child_pos cs n); [reflexivity|].
  now destruct (child_pos ds n).
Qed.

Lemma upd_length {A} (l : list A) i f : List.length (upd l i f) = List.length l.
Proof. revert i; induction l; intros [|i]; cbn; auto. Qed.
Lemma upd_same {A} (l : list A) i f : nth_error (upd l i f) i = option_map f (nth_error l i).
Proof. revert i; induction l; intros [|i]; cbn; auto. Qed.
Lemma upd_other {A} (l : list A) i j f : i <> j -> nth_error (upd l i f) j = nth_error l j.
Proof. revert i j; induction l; intros [|i] [|j] H; cbn; auto; congruence. Qed.
Lemma upd_map {A B} (g : A -> B) (l : list A) i f x : nth_error l i = Some x -> g (f x) = g x -> map g (upd l i f) = map g l.
Proof.
  revert i; induction l as [|a l IH]; intros [|i] H E; cbn in *; try discriminate.
  - injection H as ->. now rewrite E.
  - f_equal. eauto.
Qed.
Lemma upd_none {A} (l : list A) i f : nth_error l i = None -> upd l i f = l.
Proof. revert i; induction l; intros [|i] H; cbn in *; auto; try discriminate. f_equal; auto. Qed.
Lemma upd_ext {A} (l : list A) i f g : (forall x, nth_error l i = Some x -> f x = g x) -> upd l i f = upd l i g.
Proof. revert i; induction l; intros [|i] H; cbn in *; auto; f_equal; auto. Qed.

(** ** Locations *)
Lemma at_loc_app l : forall t m, at_loc t (l ++ m) = match at_loc t l with Some u => at_loc u m | None => None end.
Proof. induction l as [|i l IH]; intros t m; cbn; [reflexivity|]. destruct (nth_error (t_children t) i); auto. Qed.

Lemma modify_below f l : forall t u m, at_loc t l = Some u -> at_loc (modify t l f) (l ++ m) = at_loc (f u) m.
Proof.
  induction l as [|i l IH]; intros t u m H; cbn in *; [now injection H as ->|].
  destruct t as [n k cs]; cbn in *. rewrite upd_same. destruct (nth_error cs i) as [c|]; [|discriminate]. cbn. now apply IH.
Qed.
Lemma modify_at f l t u : at_loc t l = Some u -> at_loc (modify t l f) l = Some (f u).
Proof. intros H. rewrite <- (app_nil_r l) at 2. now rewrite (modify_below f l t u [] H). Qed.

(** [l'] does not lie at or below [l] *)
Definition off_path (l l' : loc) : Prop := forall m, l' <> l ++ m.
(** [l'] lies strictly above [l] *)
Definition above (l l' : loc) : Prop := exists m, m <> [] /\ l = l' ++ m.

Lemma modify_above f m : forall t l' u, at_loc t l' = Some u ->
  at_loc (modify t (l' ++ m) f) l' = Some (modify u m f).
Proof.
  intros t l'; revert t; induction l' as [|i l IH]; intros t u H; cbn in *; [now injection H as ->|].
  destruct t as [n k cs]; cbn in *. rewrite upd_same. destruct (nth_error cs i) as [c|]; [|discriminate]. cbn. now apply IH.
Qed.
Lemma modify_other f : forall l l' t, off_path l l' -> (forall m, l <> l' ++ m) -> at_loc (modify t l f) l' = at_loc t l'.
Proof.
  induction l as [|i l IH]; intros l' t H1 H2.
  - exfalso. apply (H1 l'). reflexivity.
  - destruct l' as [|j l']; [exfalso; apply (H2 (i :: l)); reflexivity|].
    destruct t as [n k cs]; cbn. destruct (PeanoNat.Nat.eq_dec i j) as [->|N].
    + rewrite upd_same. destruct (nth_error cs j) as [c|]; [|reflexivity]. cbn. apply IH.
      * intros m E. apply (H1 m). now rewrite E.
      * intros m E. apply (H2 m). now rewrite E.
    + now rewrite upd_other.
Qed.
Lemma loc_cases (l l' : loc) : (exists m, l' = l ++ m) \/ above l l' \/ (off_path l l' /\ forall m, l <> l' ++ m).
Proof.
  revert l'; induction l as [|i l IH]; intros l'.
  - left; now exists l'.
  - destruct l' as [|j l'].
    + right; left. exists (i :: l). split; [discriminate|reflexivity].
    + destruct (PeanoNat.Nat.eq_dec i j) as [->|N].
      * destruct (IH l') as [[m ->]|[[m [M ->]]|[H1 H2]]].
        -- left; now exists m.
        -- right; left. exists m. now split.
        -- right; right. split; intros m E; injection E as E; [now apply (H1 m)|now apply (H2 m)].
      * right; right. split; intros m E; injection E; congruence.
Qed.

Lemma modify_name_kind m f u : m <> [] -> t_name (modify u m f) = t_name u /\ t_kind (modify u m f) = t_kind u.
Proof. destruct m; [congruence|]. intros _. now destruct u. Qed.

(** Name and kind at a location, when the change keeps the name of the changed node *)
Lemma modify_keeps f l t u l' :
  at_loc t l = Some u -> t_name (f u) = t_name u ->
  off_path l l' -> option_map t_name (at_loc (modify t l f) l') = option_map t_name (at_loc t l')
                   /\ option_map t_kind (at_loc (modify t l f) l') = option_map t_kind (at_loc t l').
Proof.
  intros Hu Hn Off. destruct (loc_cases l l') as [[m E]|[[m [M ->]]|[H1 H2]]].
  - exfalso. now apply (Off m).
  - rewrite at_loc_app in Hu. destruct (at_loc t l') as [v|] eqn:V; [|discriminate].
    rewrite (modify_above f m t l' v V). cbn. destruct (modify_name_kind m f v M) as [-> ->]. now split.
  - now rewrite modify_other.
Qed.

(** ** Well-formed trees: sibling names are distinct, non-empty and free of '.' *)
Definition wf_node (t : tree) : Prop :=
  NoDup (map t_name (t_children t)) /\ Forall (fun c => name_ok (t_name c) = true) (t_children t).
Definition wf (t : tree) : Prop := forall l u, at_loc t l = Some u -> wf_node u.

Lemma wf_child t i c : wf t -> nth_error (t_children t) i = Some c -> wf c.
Proof. intros W H l u E. apply (W (i :: l)). cbn. now rewrite H. Qed.
Lemma wf_at t l u : wf t -> at_loc t l = Some u -> wf u.
Proof. intros W H m v E. apply (W (l ++ m)). now rewrite at_loc_app, H. Qed.
Lemma wf_here t : wf t -> wf_node t. Proof. intros W. now apply (W []). Qed.
Lemma wf_intro n k cs : wf_node (Node n k cs) -> Forall wf cs -> wf (Node n k cs).
Proof.
  intros H F l u E. destruct l as [|i l]; cbn in E; [injection E as <-; exact H|].
  destruct (nth_error cs i) as [c|] eqn:Hc; [|discriminate]. rewrite Forall_forall in F.
  eapply (F c); [eapply nth_error_In; eauto|exact E].
Qed.

Lemma name_ok_dot n : name_ok n = true -> has_char "." n = false.
Proof. unfold name_ok. intros H. apply andb_true_iff in H as [H _]. now apply negb_true_iff. Qed.

(** Following names and following positions agree *)
Lemma names_find t l : wf t -> forall ns, names_at t l = Some ns -> exists ks, ns = t_name t :: ks /\ find_keys t ks = Some l.
Proof.
  revert t; induction l as [|i l IH]; intros t W ns H; cbn in H.
  - injection H as <-. exists []. now split.
  - destruct (nth_error (t_children t) i) as [c|] eqn:Hc; [|discriminate].
    destruct (names_at c l) as [ms|] eqn:Hm; [|discriminate]. injection H as <-.
    destruct (IH c (wf_child t i c W Hc) ms Hm) as (ks & -> & Hk).
    exists (t_name c :: ks). split; [reflexivity|]. cbn.
    rewrite (child_pos_nodup (t_children t) (t_name c) i c (proj1 (wf_here t W)) Hc eq_refl), Hc, Hk. reflexivity.
Qed.
Lemma find_keys_loc ks : forall t l, find_keys t ks = Some l ->
  names_at t l = Some (t_name t :: ks) /\ exists u, at_loc t l = Some u.
Proof.
  induction ks as [|k ks IH]; intros t l H; cbn in H.
  - injection H as <-. cbn. split; [reflexivity|]. now exists t.
  - destruct (child_pos (t_children t) k) as [i|] eqn:P; [|discriminate].
    destruct (child_pos_some _ _ _ P) as (c & Hc & Hn). rewrite Hc in H.
    destruct (find_keys c ks) as [m|] eqn:F; [|discriminate]. injection H as <-.
    destruct (IH c m F) as (N & u & U). cbn. rewrite Hc, N, Hn. split; [reflexivity|]. now exists u.
Qed.
Lemma names_at_some t l : (exists u, at_loc t l = Some u) <-> (exists ns, names_at t l = Some ns).
Proof.
  revert t; induction l as [|i l IH]; intros t; cbn.
  - split; eexists; reflexivity.
  - destruct (nth_error (t_children t) i) as [c|]; [|split; intros [? ?]; discriminate].
    destruct (IH c) as [H1 H2]. split.
    + intros H. destruct (H1 H) as [ns ->]. eexists; reflexivity.
    + intros [ns H]. apply H2. destruct (names_at c l) as [ms|]; [now exists ms|discriminate].
Qed.
Lemma names_at_last t l u : at_loc t l = Some u -> exists ns, names_at t l = Some (ns ++ [t_name u]).
Proof.
  revert t; induction l as [|i l IH]; intros t H; cbn in *.
  - injection H as ->. now exists [].
  - destruct (nth_error (t_children t) i) as [c|]; [|discriminate]. destruct (IH c H) as [ns ->].
    now exists (t_name t :: ns).
Qed.
Lemma names_at_app l : forall t m u, at_loc t l = Some u -> forall ns ms, names_at t l = Some ns -> names_at u m = Some ms ->
  names_at t (l ++ m) = Some (ns ++ tl ms).
Proof.
  induction l as [|i l IH]; intros t m u H ns ms Hn Hm; cbn in *.
  - injection H as ->. injection Hn as <-. rewrite Hm. destruct m; cbn in Hm.
    + now injection Hm as <-.
    + destruct (nth_error (t_children u) n); [|discriminate]. destruct (names_at t m); [|discriminate]. now injection Hm as <-.
  - destruct (nth_error (t_children t) i) as [c|]; [|discriminate].
    destruct (names_at c l) as [cs|] eqn:E; [|discriminate]. injection Hn as <-.
    rewrite (IH c m u H cs ms E Hm). reflexivity.
Qed.
Lemma names_dot_free t l ns : wf t -> has_char "." (t_name t) = false -> names_at t l = Some ns -> dot_free ns.
Proof.
  revert t ns; induction l as [|i l IH]; intros t ns W H Hn; cbn in Hn.
  - injection Hn as <-. now repeat constructor.
  - destruct (nth_error (t_children t) i) as [c|] eqn:Hc; [|discriminate].
    destruct (names_at c l) as [ms|] eqn:E; [|discriminate]. injection Hn as <-.
    constructor; [exact H|]. eapply IH; [eapply wf_child; eauto| |eauto].
    apply name_ok_dot. pose proof (proj2 (wf_here t W)) as F. rewrite Forall_forall in F. apply F. eapply nth_error_In; eauto.
Qed.
Lemma names_nonempty t l ns : names_at t l = Some ns -> ns <> [].
Proof. destruct l; cbn; [intros H; injection H as <-; discriminate|]. destruct nth_error; [|discriminate]. destruct names_at; [|discriminate]. intros H; injection H as <-; discriminate. Qed.

(** [find] of a node's path gives the node, and nothing else has that path *)
Lemma path_find t l p : wf t -> has_char "." (t_name t) = false -> path_at t l = Some p -> find t p = Some l.
Proof.
  intros W H Hp. unfold path_at in Hp. destruct (names_at t l) as [ns|] eqn:N; [|discriminate]. injection Hp as <-.
  unfold find. fold (dotted ns). rewrite split_dotted; [|eapply names_nonempty; eauto|eapply names_dot_free; eauto].
  destruct (names_find t l W ns N) as (ks & -> & F). now rewrite String.eqb_refl.
Qed.
Lemma find_path t l p : find t p = Some l -> path_at t l = Some p /\ exists u, at_loc t l = Some u.
Proof.
  unfold find. intros H. destruct (split_on "." p) as [|k ks] eqn:S; [discriminate|].
  destruct (String.eqb_spec (t_name t) k) as [E|E]; [|discriminate].
  destruct (find_keys_loc ks t l H) as (N & U). split; [|exact U].
  unfold path_at. rewrite N. cbn [option_map]. f_equal. rewrite E. fold (dotted (k :: ks)). rewrite <- S. apply dotted_split.
Qed.

Lemma find_dotted t ks : has_char "." (t_name t) = false -> dot_free ks -> find t (dotted (t_name t :: ks)) = find_keys t ks.
Proof.
  intros H F. unfold find. rewrite split_dotted; [|discriminate|now constructor]. now rewrite String.eqb_refl.
Qed.
Lemma find_relative_split t p : has_char "." (t_name t) = false -> find_relative t p = find_keys t (split_on "." p).
Proof.
  intros H. unfold find_relative, find. change ("." ++ p)%string with (String "." p). rewrite (split_app "." (t_name t) p H), String.eqb_refl. reflexivity.
Qed.

(** ** Preservation *)
Lemma make_node_ok n k t : make_node n k = Ok t <-> name_ok n = true /\ t = Node n k [].
Proof.
  unfold make_node. destruct (name_ok n); split.
  - intros H; injection H as <-; now split. - intros [_ ->]; reflexivity.
  - discriminate. - intros [H _]; discriminate.
Qed.
Lemma wf_leaf n k : wf (Node n k []).
Proof. apply wf_intro; [split; constructor|constructor]. Qed.

Lemma insert_ok t c t' : insert t c = Ok t' <->
  ~ In (t_name c) (map t_name (t_children t)) /\ t' = Node (t_name t) (t_kind t) (t_children t ++ [c]).
Proof.
  unfold insert. destruct (child_pos (t_children t) (t_name c)) as [i|] eqn:P.
  - split; [discriminate|]. intros [H _]. apply child_pos_none in H. congruence.
  - apply child_pos_none in P. split; [intros H; injection H as <-; now split|intros [_ ->]; reflexivity].
Qed.
Lemma insert_err t c e : insert t c = Err e <-> In (t_name c) (map t_name (t_children t)) /\ e = SymbolRedefinition (t_name c).
Proof.
  unfold insert. destruct (child_pos (t_children t) (t_name c)) as [i|] eqn:P.
  - destruct (child_pos_some _ _ _ P) as (x & Hx & Hn). split.
    + intros H; injection H as <-. split; [|reflexivity]. rewrite <- Hn. apply in_map. eapply nth_error_In; eauto.
    + intros [_ ->]; reflexivity.
  - apply child_pos_none in P. split; [discriminate|]. intros [H _]. contradiction.
Qed.

Lemma NoDup_snoc {A} (l : list A) x : NoDup l -> ~ In x l -> NoDup (l ++ [x]).
Proof.
  induction l as [|a l IH]; intros ND N; cbn; [repeat constructor; auto|]. inversion ND; subst. constructor.
  - intros H. apply in_app_or in H as [H|[H|[]]]; [contradiction|]. subst. apply N. now left.
  - apply IH; [assumption|]. intros H; apply N; now right.
Qed.

Lemma wf_insert t c t' : wf t -> wf c -> name_ok (t_name c) = true -> insert t c = Ok t' -> wf t'.
Proof.
  intros W Wc Hn H. apply insert_ok in H as [N ->]. destruct (wf_here t W) as [ND F]. apply wf_intro.
  - split; cbn [t_children].
    + rewrite map_app. apply NoDup_snoc; assumption.
    + apply Forall_app. split; [exact F|]. now repeat constructor.
  - apply Forall_app. split; [|constructor; [exact Wc|constructor]]. rewrite Forall_forall. intros x Hx.
    apply In_nth_error in Hx as [i Hi]. eapply wf_child; [exact W|exact Hi].
Qed.

(** Changing a node while keeping its name keeps the tree well-formed *)
Lemma wf_modify f l : forall t u, wf t -> at_loc t l = Some u -> wf (f u) -> t_name (f u) = t_name u -> wf (modify t l f).
Proof.
  induction l as [|i l IH]; intros t u W H Wf Hn; cbn in *; [now injection H as ->|].
  destruct t as [n k cs]; cbn in *. destruct (nth_error cs i) as [c|] eqn:Hc; [|discriminate].
  assert (Nm : t_name (modify c l f) = t_name c).
  { destruct l; [cbn in *; now injection H as ->|]. now destruct (modify_name_kind (n0 :: l) f c ltac:(discriminate)). }
  destruct (wf_here _ W) as [ND F]; cbn in ND, F. apply wf_intro.
  - split; cbn [t_children].
    + now rewrite (upd_map t_name cs i _ c Hc Nm).
    + rewrite Forall_forall in *. intros x Hx. apply In_nth_error in Hx as [j Hj].
      destruct (PeanoNat.Nat.eq_dec i j) as [->|Ne].
      * rewrite upd_same, Hc in Hj. injection Hj as <-. rewrite Nm. apply F. eapply nth_error_In; eauto.
      * rewrite upd_other in Hj by assumption. apply F. eapply nth_error_In; eauto.
  - rewrite Forall_forall in *. intros x Hx. apply In_nth_error in Hx as [j Hj].
    destruct (PeanoNat.Nat.eq_dec i j) as [->|Ne].
    + rewrite upd_same, Hc in Hj. injection Hj as <-. eapply IH; eauto. eapply wf_child; [exact W|exact Hc].
    + rewrite upd_other in Hj by assumption. eapply wf_child; [exact W|exact Hj].
Qed.

Lemma insert_at_inv root l c root' : insert_at root l c = Ok root' ->
  exists t, at_loc root l = Some t /\ ~ In (t_name c) (map t_name (t_children t))
            /\ root' = modify root l (fun _ => Node (t_name t) (t_kind t) (t_children t ++ [c])).
Proof.
  unfold insert_at. destruct (at_loc root l) as [t|]; [|discriminate]. intros H.
  destruct (insert t c) as [t'|] eqn:I; cbn in H; [|discriminate]. injection H as <-.
  apply insert_ok in I as [N ->]. exists t. now split.
Qed.
Lemma wf_insert_at root l c root' : wf root -> wf c -> name_ok (t_name c) = true -> insert_at root l c = Ok root' -> wf root'.
Proof.
  intros W Wc Hn H. destruct (insert_at_inv _ _ _ _ H) as (t & Ht & N & ->).
  eapply wf_modify; [exact W|exact Ht| |reflexivity]. cbn.
  eapply (wf_insert t c); [exact (wf_at _ _ _ W Ht)|exact Wc|exact Hn|]. apply insert_ok. split; [exact N|reflexivity].
Qed.

(** Replacing the name of one child by a fresh one *)
Lemma upd_in {A} (l : list A) i f x y : nth_error l i = Some x -> In y (upd l i f) -> y = f x \/ In y l.
Proof.
  revert i; induction l as [|a l IH]; intros [|i] H Hy; cbn in *; try discriminate.
  - injection H as ->. destruct Hy; auto.
  - destruct Hy as [->|Hy]; auto. destruct (IH i H Hy); auto.
Qed.
Lemma rename_nodup cs i c v : NoDup (map t_name cs) -> nth_error cs i = Some c -> ~ In v (map t_name cs) ->
  NoDup (map t_name (upd cs i (fun t => Node v (t_kind t) (t_children t)))).
Proof.
  revert i; induction cs as [|x cs IH]; intros [|i] ND H N; cbn in *; try discriminate.
  - inversion ND; subst. constructor; [tauto|assumption].
  - inversion ND as [|? ? Hx ND']; subst. constructor.
    + intros Hin. apply Hx. apply in_map_iff in Hin as (y & Ey & Hy). destruct (upd_in _ _ _ _ _ H Hy) as [->|Hy'].
      * cbn in Ey. exfalso. apply N. now left.
      * rewrite <- Ey. now apply in_map.
    + apply IH; [assumption|assumption|tauto].
Qed.

Lemma removelast_snoc {A} (l : list A) x : removelast (l ++ [x]) = l.
Proof. rewrite removelast_app by discriminate. cbn. apply app_nil_r. Qed.
Lemma loc_snoc (l : loc) : l <> [] -> exists p i, l = p ++ [i].
Proof. intros H. destruct (exists_last H) as (p & i & ->). now exists p, i. Qed.

Lemma modify_app p m : forall t f, modify t (p ++ m) f = modify t p (fun u => modify u m f).
Proof.
  induction p as [|i p IH]; intros t f; cbn; [reflexivity|]. destruct t as [n k cs]. f_equal.
  apply upd_ext. intros x _. apply IH.
Qed.

Lemma set_name_inv root l v root' t : at_loc root l = Some t -> set_name root l v = Ok root' ->
  (t_name t = v /\ root' = root)
  \/ (t_name t <> v /\ root' = modify root l (fun t => Node v (t_kind t) (t_children t))
      /\ forall p i u, l = p ++ [i] -> at_loc root p = Some u -> ~ In v (map t_name (t_children u))).
Proof.
  intros Ht H. unfold set_name in H. rewrite Ht in H. destruct (String.eqb_spec (t_name t) v) as [E|E].
  - left. injection H as <-. now split.
  - right. split; [exact E|]. destruct l as [|i0 l0].
    + injection H as <-. split; [reflexivity|]. intros p i u Hp. now destruct p.
    + destruct (loc_snoc (i0 :: l0) ltac:(discriminate)) as (p & i & Hl). rewrite Hl in *.
      unfold parent_loc in H. rewrite removelast_snoc in H.
      assert (exists u, at_loc root p = Some u) as [u Hu].
      { rewrite at_loc_app in Ht. destruct (at_loc root p) as [u|]; [now exists u|discriminate]. }
      rewrite Hu in H. destruct (child_pos (t_children u) v) eqn:P; [destruct p; discriminate|].
      assert (H' : root' = modify root (p ++ [i]) (fun t => Node v (t_kind t) (t_children t))) by (destruct p; now injection H as <-).
      split; [exact H'|]. intros p' i' u' Hp Hu'. apply app_inj_tail in Hp as [<- <-].
      rewrite Hu in Hu'. injection Hu' as <-. now apply child_pos_none.
Qed.
Lemma wf_set_name root l v root' : wf root -> name_ok v = true -> set_name root l v = Ok root' -> wf root'.
Proof.
  intros W Hv H. destruct (at_loc root l) as [t|] eqn:Ht; [|unfold set_name in H; rewrite Ht in H; discriminate].
  destruct (set_name_inv root l v root' t Ht H) as [[_ ->]|(E & -> & N)]; [exact W|].
  destruct l as [|i0 l0].
  - cbn in *. injection Ht as ->. destruct t as [n k cs]. cbn. apply wf_intro.
    + apply (wf_here _ W).
    + rewrite Forall_forall. intros x Hx. apply In_nth_error in Hx as [j Hj]. eapply wf_child; [exact W|exact Hj].
  - destruct (loc_snoc (i0 :: l0) ltac:(discriminate)) as (p & i & Hl). rewrite Hl in *. clear Hl i0 l0.
    rewrite modify_app. assert (exists u, at_loc root p = Some u) as [u Hu].
    { rewrite at_loc_app in Ht. destruct (at_loc root p) as [u|]; [now exists u|discriminate]. }
    specialize (N p i u eq_refl Hu). eapply wf_modify; [exact W|exact Hu| |now destruct u].
    assert (Wu : wf u) by exact (wf_at _ _ _ W Hu). destruct u as [n k cs]. cbn.
    rewrite at_loc_app, Hu in Ht. cbn in Ht. destruct (nth_error cs i) as [c|] eqn:Hc; [|discriminate]. injection Ht as ->.
    destruct (wf_here _ Wu) as [ND F]. cbn in ND, F, N. apply wf_intro.
    + split; cbn [t_children]; [eapply rename_nodup; eauto|]. rewrite Forall_forall in *. intros x Hx.
      destruct (upd_in _ _ _ _ _ Hc Hx) as [->|Hx']; [exact Hv|now apply F].
    + rewrite Forall_forall. intros x Hx. destruct (upd_in _ _ _ _ _ Hc Hx) as [->|Hx'].
      * pose proof (wf_child _ _ _ Wu Hc) as Wt. apply wf_intro; [apply (wf_here _ Wt)|].
        rewrite Forall_forall. intros y Hy. apply In_nth_error in Hy as [j Hj]. eapply wf_child; [exact Wt|exact Hj].
      * apply In_nth_error in Hx' as [j Hj]. eapply wf_child; [exact Wu|exact Hj].
Qed.

(** ** Pre-order enumeration *)
Fixpoint tree_ind' (P : tree -> Prop) (H : forall n k cs, Forall P cs -> P (Node n k cs)) (t : tree) : P t :=
  match t with
  | Node n k cs => H n k cs ((fix go (l : list tree) : Forall P l :=
      match l with [] => Forall_nil P | x :: r => Forall_cons x (tree_ind' P H x) (go r) end) cs)
  end.

Definition locs_list : nat -> list tree -> list loc :=
  fix go (i : nat) (cs : list tree) : list loc :=
    match cs with [] => [] | c :: r => map (cons i) (locs c) ++ go (S i) r end.
Lemma locs_eq n k cs : locs (Node n k cs) = [] :: locs_list 0 cs.
Proof. reflexivity. Qed.
Lemma locs_list_in cs : forall b i l, In (i :: l) (locs_list b cs) <->
  exists j c, i = (b + j)%nat /\ nth_error cs j = Some c /\ In l (locs c).
Proof.
  induction cs as [|c cs IH]; intros b i l; cbn.
  - split; [tauto|]. intros ([|j] & c & _ & H & _); discriminate.
  - rewrite in_app_iff, IH, in_map_iff. split.
    + intros [(m & E & Hm)|(j & c' & -> & Hj & Hl)].
      * injection E as -> ->. exists 0%nat, c. rewrite PeanoNat.Nat.add_0_r. now repeat split.
      * exists (S j), c'. split; [lia|]. now split.
    + intros ([|j] & c' & -> & Hj & Hl); cbn in Hj.
      * injection Hj as ->. left. exists l. rewrite PeanoNat.Nat.add_0_r. now split.
      * right. exists j, c'. split; [lia|]. now split.
Qed.
Lemma locs_list_nil cs b : ~ In [] (locs_list b cs).
Proof.
  revert b; induction cs as [|c cs IH]; intros b; cbn; [tauto|]. rewrite in_app_iff. intros [H|H]; [|now apply (IH (S b))].
  apply in_map_iff in H as (m & E & _). discriminate.
Qed.
Lemma locs_spec t : forall l, In l (locs t) <-> exists u, at_loc t l = Some u.
Proof.
  induction t as [n k cs IH] using tree_ind'. intros l. rewrite locs_eq. destruct l as [|i l]; cbn [In at_loc t_children].
  - split; [intros _; eexists; reflexivity|now left].
  - rewrite locs_list_in. split.
    + intros [E|(j & c & -> & Hj & Hl)]; [discriminate|]. cbn. rewrite Hj. rewrite Forall_forall in IH.
      apply IH; [eapply nth_error_In; eauto|exact Hl].
    + intros [u Hu]. destruct (nth_error cs i) as [c|] eqn:Hc; [|discriminate]. right. exists i, c.
      repeat split; [assumption|]. rewrite Forall_forall in IH. apply IH; [eapply nth_error_In; eauto|]. now exists u.
Qed.
Lemma locs_list_nodup cs : Forall (fun t => NoDup (locs t)) cs -> forall b, NoDup (locs_list b cs).
Proof.
  induction cs as [|c cs IH]; intros F b; cbn; [constructor|]. inversion F; subst.
  assert (ND1 : NoDup (map (cons b) (locs c))).
  { apply Injective_map_NoDup; [|assumption]. intros x y E. now injection E. }
  assert (D : forall x, In x (map (cons b) (locs c)) -> ~ In x (locs_list (S b) cs)).
  { intros x Hx Hy. apply in_map_iff in Hx as (m & <- & _). apply locs_list_in in Hy as (j & c' & E & _). lia. }
  specialize (IH H2 (S b)). revert ND1 D IH. generalize (map (cons b) (locs c)) as l1. generalize (locs_list (S b) cs) as l2.
  intros l2 l1 N1 D N2. induction l1 as [|a l1 IHl]; cbn; [assumption|]. inversion N1; subst. constructor.
  - rewrite in_app_iff. intros [H|H]; [contradiction|]. apply (D a); [now left|assumption].
  - apply IHl; [assumption|]. intros x Hx. apply D. now right.
Qed.
Lemma locs_nodup t : NoDup (locs t).
Proof.
  induction t as [n k cs IH] using tree_ind'. rewrite locs_eq. constructor; [apply locs_list_nil|]. now apply locs_list_nodup.
Qed.
Lemma iterate_spec t p l : In l (iterate t p) <-> exists u, at_loc t l = Some u /\ p (t_kind u) = true.
Proof.
  unfold iterate. rewrite filter_In, locs_spec. split.
  - intros [_ H]. destruct (at_loc t l) as [u|]; [|discriminate]. now exists u.
  - intros (u & -> & H). split; [now exists u|exact H].
Qed.
Lemma iterate_nodup t p : NoDup (iterate t p).
Proof. apply NoDup_filter, locs_nodup. Qed.
