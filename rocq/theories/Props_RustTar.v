(** C99: the Rust tar storage. *)
From Coq Require Import List ZArith Bool Lia String Ascii.
From Verif Require Import PyBase DataAccess Structure Resources Builder Archive ArchiveSpec OpenSpec TarSpec BuilderFacts ArchiveFacts TarFacts TarPack
  PyText GenTreeFacts Streams StoreSpec CppStore RustStore RustSpec CppArchive CppArchiveFacts RustArchive RustArchiveSpec RustArchiveFacts Props_RustArchive Props_Builder TarSpec RustTar RustTarSpec.
Import ListNotations.
Local Open Scope string_scope.
Local Open Scope Z_scope.

(** ** Paths *)
Lemma slash_char s : has_char "/" s = has_slash s.
Proof. induction s as [|c t IH]; cbn [has_char has_slash]; [reflexivity|]. now rewrite IH. Qed.
Definition plain_part (c : string) : bool := negb (String.eqb c "" || String.eqb c ".").
Lemma good_plain c : good c -> plain_part c = true.
Proof. intros (A & _ & B). unfold plain_part. apply String.eqb_neq in A, B. now rewrite A, B. Qed.
Lemma good_filter cs : Forall good cs -> filter plain_part cs = cs.
Proof. induction 1 as [|c t H _ IH]; cbn [filter]; [reflexivity|]. now rewrite (good_plain c H), IH. Qed.
Lemma slash_string (a b : string) : (a ++ "/" ++ b)%string = (a ++ String "/" b)%string. Proof. reflexivity. Qed.
Lemma split_good cs : Forall good cs -> cs <> [] -> split_on "/" (TarSpec.join cs) = cs.
Proof.
  induction cs as [|c t IH]; intros G N; [congruence|]. inversion G as [|? ? (G1 & G2 & G3) Gt]; subst. destruct t as [|d t].
  - cbn [TarSpec.join]. apply split_no_char. now rewrite slash_char.
  - rewrite join_cons by discriminate. rewrite slash_string, split_app by now rewrite slash_char. rewrite IH by (assumption || discriminate). reflexivity.
Qed.
Lemma split_trail s : split_on "/" (s ++ "/") = (split_on "/" s ++ [""])%list.
Proof.
  induction s as [|a t IH]; [reflexivity|]. cbn [append split_on]. destruct (Ascii.eqb a "/"); [now rewrite IH|]. rewrite IH.
  destruct (split_on "/" t) as [|w ws] eqn:E; [exfalso; exact (split_nonempty _ _ E)|reflexivity].
Qed.
Lemma components_split s : components s = (match split_on "/" s with "" :: _ :: _ => ["/"] | "." :: _ => ["."] | _ => [] end ++ filter plain_part (split_on "/" s))%list.
Proof.
  unfold components. fold plain_part. destruct (split_on "/" s) as [|c [|d t]]; [reflexivity| |].
  - destruct c as [|[[] [] [] [] [] [] [] []] [|x c]]; reflexivity.
  - destruct c as [|[[] [] [] [] [] [] [] []] [|x c]]; reflexivity.
Qed.
Lemma good_head cs (A : Type) (a b c : A) : Forall good cs -> match cs with "" :: _ :: _ => a | "." :: _ => b | _ => c end = c.
Proof.
  intros G. destruct cs as [|x t]; [reflexivity|]. inversion G as [|? ? (G1 & _ & G3) _]; subst. destruct x as [|[[] [] [] [] [] [] [] []] [|y x]]; try reflexivity; congruence.
Qed.
Lemma good_trail cs : Forall good cs -> cs <> [] -> match (cs ++ [""])%list with "" :: _ :: _ => ["/"] | "." :: _ => ["."] | _ => [] end = [] :> list string.
Proof.
  intros G N. destruct cs as [|x t]; [congruence|]. inversion G as [|? ? (G1 & _ & G3) _]; subst. cbn [app]. destruct x as [|[[] [] [] [] [] [] [] []] [|y x]]; try reflexivity; congruence.
Qed.
(** [a/b], [a/b/] and [./a/b], [./a/b/] *)
Lemma components_path cs : Forall good cs -> cs <> [] -> components (TarSpec.join cs) = cs.
Proof. intros G N. rewrite components_split, (split_good cs G N), (good_head cs _ ["/"] ["."] [] G), (good_filter cs G). reflexivity. Qed.
Lemma components_path_slash cs : Forall good cs -> cs <> [] -> components (TarSpec.join cs ++ "/") = cs.
Proof.
  intros G N. rewrite components_split, split_trail, (split_good cs G N), (good_trail cs G N). rewrite filter_app, (good_filter cs G). cbn. now rewrite app_nil_r.
Qed.
Lemma components_dotted s : components ("./" ++ s) = "." :: filter plain_part (split_on "/" s).
Proof. rewrite components_split. reflexivity. Qed.

Lemma key_path cs m : Forall good cs -> cs <> [] ->
  (tm_path m = TarSpec.join cs \/ tm_path m = TarSpec.join cs ++ "/" \/ tm_path m = "./" ++ TarSpec.join cs \/ tm_path m = ("./" ++ TarSpec.join cs) ++ "/") -> member_key m = cs.
Proof.
  intros G N H. assert (X : components (tm_path m) = cs \/ components (tm_path m) = "." :: cs).
  { destruct H as [-> |[-> |[-> | ->]]]; [left; now apply components_path|left; now apply components_path_slash|right|right].
    - now rewrite components_dotted, (split_good cs G N), (good_filter cs G).
    - change (("./" ++ TarSpec.join cs) ++ "/") with ("./" ++ (TarSpec.join cs ++ "/")). rewrite components_dotted, split_trail, (split_good cs G N), filter_app, (good_filter cs G). cbn. now rewrite app_nil_r. }
  unfold member_key. destruct X as [-> | ->]; [|reflexivity].
  destruct cs as [|x t]; [reflexivity|]. inversion G as [|? ? (G1 & _ & G3) _]; subst. destruct x as [|[[] [] [] [] [] [] [] []] [|y x]]; try reflexivity; congruence.
Qed.
Lemma key_dot m : tm_path m = "." \/ tm_path m = "./" -> member_key m = []. Proof. unfold member_key. intros [-> | ->]; reflexivity. Qed.

Lemma good_no_slash_head k : good k -> match k with String "/" _ => False | _ => True end.
Proof. intros (G1 & G2 & _). destruct k as [|[[] [] [] [] [] [] [] []] k]; try exact I. cbn in G2. discriminate. Qed.
Lemma path_join_good a k : good k -> path_join a k = if String.eqb a "" || ends_in_slash a then a ++ k else a ++ "/" ++ k.
Proof. intros G. pose proof (good_no_slash_head k G) as N. unfold path_join. destruct k as [|[[] [] [] [] [] [] [] []] k]; try reflexivity. destruct N. Qed.
Lemma ends_app a b : b <> "" -> ends_in_slash (a ++ b) = ends_in_slash b.
Proof.
  intros N. unfold ends_in_slash. assert (E : list_ascii_of_string (a ++ b) = (list_ascii_of_string a ++ list_ascii_of_string b)%list).
  { induction a as [|c a IH]; cbn; [reflexivity|now rewrite IH]. }
  rewrite E, rev_app_distr. destruct (rev (list_ascii_of_string b)) as [|c l] eqn:R; [|reflexivity].
  exfalso. destruct b as [|c b]; [congruence|]. cbn in R. destruct (rev (list_ascii_of_string b)); discriminate.
Qed.
Lemma ends_has_slash s : ends_in_slash s = true -> has_slash s = true.
Proof.
  unfold ends_in_slash. induction s as [|c s IH]; cbn [list_ascii_of_string rev has_slash]; [discriminate|]. intros H.
  destruct (rev (list_ascii_of_string s)) as [|x l] eqn:R; cbn [app] in H; [now rewrite H|]. rewrite (IH H). apply orb_true_r.
Qed.
Lemma path_join_path path k : Forall good path -> good k -> path_join (TarSpec.join path) k = TarSpec.join (path ++ [k]).
Proof.
  intros G Gk. rewrite (path_join_good _ k Gk). destruct path as [|c t]; [reflexivity|].
  assert (Ne : c :: t <> []) by discriminate. pose proof (join_ne _ Ne G) as J. apply String.eqb_neq in J. rewrite J. cbn [orb].
  rewrite join_snoc by discriminate. destruct (ends_in_slash (TarSpec.join (c :: t))) eqn:E; [|reflexivity]. exfalso.
  clear J Ne. revert c G E. induction t as [|d t IH]; intros c G E.
  - cbn [TarSpec.join] in E. apply ends_has_slash in E. inversion G as [|? ? (_ & G2 & _) _]; subst. congruence.
  - rewrite join_cons in E by discriminate. inversion G as [|? ? _ Gt]; subst.
    assert (J : TarSpec.join (d :: t) <> "") by (apply join_ne; [discriminate|exact Gt]).
    assert (J1 : "/" ++ TarSpec.join (d :: t) <> "") by discriminate.
    rewrite ends_app in E by exact J1. rewrite ends_app in E by exact J. exact (IH d Gt E).
Qed.
(** The prefix after [subdir] of each directory on the way *)
Lemma subdirs path : Forall good path -> forall done, Forall good done -> fold_left rtar_subdir path (TarSpec.join done) = TarSpec.join (done ++ path).
Proof.
  induction path as [|k t IH]; intros G done Gd; [now rewrite app_nil_r|]. inversion G as [|? ? Gk Gt]; subst. cbn [fold_left]. unfold rtar_subdir at 2.
  rewrite (path_join_path done k Gd Gk), (IH Gt) by (apply Forall_app; split; [exact Gd|now constructor]). now rewrite <- app_assoc.
Qed.

(** ** The map of ranges *)
Lemma same_path_spec a b : same_path a b = true <-> a = b. Proof. unfold same_path. destruct (list_eq_dec string_dec a b); split; congruence. Qed.
Lemma same_path_refl a : same_path a a = true. Proof. now apply same_path_spec. Qed.
Lemma put_get f : forall k r j, range_get (range_put f k r) j = if same_path k j then Some r else range_get f j.
Proof.
  induction f as [|[i q] t IH]; intros k r j; cbn [range_put range_get]; [reflexivity|]. destruct (same_path i k) eqn:E; cbn [range_get].
  - apply same_path_spec in E. subst i. destruct (same_path k j); reflexivity.
  - rewrite IH. destruct (same_path i j) eqn:F; [|reflexivity]. apply same_path_spec in F. subst i. destruct (same_path k j) eqn:K; [|reflexivity].
    apply same_path_spec in K. subst k. rewrite same_path_refl in E. discriminate.
Qed.
Lemma put_keys f k r : NoDup (map fst f) -> NoDup (map fst (range_put f k r)).
Proof.
  induction f as [|[i q] t IH]; cbn [range_put map fst]; intros H; [repeat constructor; intros []|]. inversion H as [|? ? H1 H2]; subst.
  destruct (same_path i k) eqn:E; cbn [map fst]; [now constructor|]. constructor; [|auto]. intros X. apply H1. clear -X E.
  induction t as [|[j z] t IH]; cbn [range_put map fst] in *; [destruct X as [->|[]]; rewrite same_path_refl in E; discriminate|].
  destruct (same_path j k); cbn [map fst] in *; [assumption|]. destruct X as [->|X]; [now left|right; auto].
Qed.
Lemma get_in f k r : range_get f k = Some r -> In (k, r) f.
Proof. induction f as [|[j q] t IH]; cbn [range_get]; [discriminate|]. destruct (same_path j k) eqn:E; [apply same_path_spec in E; intros [= ->]; subst; now left|right; auto]. Qed.
Lemma in_get f k r : NoDup (map fst f) -> In (k, r) f -> range_get f k = Some r.
Proof.
  induction f as [|[j q] t IH]; intros N H; [destruct H|]. inversion N as [|? ? N1 N2]; subst. cbn [range_get]. destruct H as [H|H]; [inversion H; subst; now rewrite same_path_refl|].
  destruct (same_path j k) eqn:E; [|auto]. apply same_path_spec in E. subst j. exfalso. apply N1. apply (in_map fst) in H. exact H.
Qed.

Definition whole (m : tmember) : Prop := tm_header_size m = tm_size m.
Definition range_of (m : tmember) : Z * Z := (tm_offset m, tm_size m).
Lemma ranges_step m ms f : whole m -> rtar_ranges (m :: ms) f = rtar_ranges ms (range_put f (member_key m) (range_of m)).
Proof. unfold whole. intros H. cbn [rtar_ranges]. rewrite H, Z.eqb_refl. reflexivity. Qed.
Lemma ranges_spec ms : forall f0, Forall whole ms -> NoDup (map fst f0) ->
  exists f, rtar_ranges ms f0 = ROk f /\ NoDup (map fst f) /\
    forall k, (exists m, In m ms /\ member_key m = k /\ range_get f k = Some (range_of m)) \/ ((forall m, In m ms -> member_key m <> k) /\ range_get f k = range_get f0 k).
Proof.
  induction ms as [|m ms IH]; intros f0 W N.
  - exists f0. split; [reflexivity|]. split; [exact N|]. intros k. right. split; [intros m []|reflexivity].
  - inversion W as [|? ? W1 W2]; subst. rewrite (ranges_step m ms f0 W1). destruct (IH (range_put f0 (member_key m) (range_of m)) W2 (put_keys _ _ _ N)) as (f & E & Nf & K).
    exists f. split; [exact E|]. split; [exact Nf|]. intros k. destruct (K k) as [(m' & Hm & Ek & Eg)|(Hn & Eg)].
    + left. exists m'. split; [now right|]. now split.
    + rewrite put_get in Eg. destruct (same_path (member_key m) k) eqn:S.
      * left. exists m. apply same_path_spec in S. split; [now left|]. now split.
      * right. split; [|exact Eg]. intros m' [<-|H]; [|now apply Hn]. intros X. subst k. rewrite same_path_refl in S. discriminate.
Qed.
(** A tar with a member whose size is not the one in its header (sparse members) is refused, and no other is *)
Theorem C99_sparse : forall ms, (exists m, In m ms /\ tm_header_size m <> tm_size m) <-> rtar_new ms = RErr EIo.
Proof.
  intros ms. unfold rtar_new. generalize (@nil (list string * (Z * Z))). induction ms as [|m ms IH]; intros f; [split; [intros (m & [] & _)|discriminate]|].
  cbn [rtar_ranges]. destruct (tm_header_size m =? tm_size m) eqn:E; cbn [negb].
  - rewrite <- IH. apply Z.eqb_eq in E. split; intros (x & Hx & Nx); exists x; (split; [|exact Nx]); [destruct Hx as [<-|Hx]; [congruence|exact Hx]|now right].
  - apply Z.eqb_neq in E. split; [reflexivity|]. intros _. exists m. split; [now left|exact E].
Qed.

(** ** Trees *)
Lemma forall2_l {A B} (R : A -> B -> Prop) l1 l2 : Forall2 R l1 l2 -> forall a, In a l1 -> exists b, In b l2 /\ R a b.
Proof. induction 1 as [|x y l1 l2 H _ IH]; intros a []; [subst; exists y; split; [now left|assumption]|]. destruct (IH a H0) as (b & I' & R'). exists b. split; [now right|assumption]. Qed.
Lemma forall2_r {A B} (R : A -> B -> Prop) l1 l2 : Forall2 R l1 l2 -> forall b, In b l2 -> exists a, In a l1 /\ R a b.
Proof. induction 1 as [|x y l1 l2 H _ IH]; intros a []; [subst; exists x; split; [now left|assumption]|]. destruct (IH a H0) as (b & I' & R'). exists b. split; [now right|assumption]. Qed.
Section TREE.
  Variables (t : tarfile) (es : list (string * fsnode)) (tar : list Z) (ms : list tmember).
  Hypothesis (Ht : tree_ok es) (Hp : packs t es) (Hr : Forall2 (reported tar) ms t).

  Lemma rep_in m : In m ms -> exists n k, In (n, k) t /\ reported tar m (n, k).
  Proof. intros H. destruct (forall2_l _ _ _ Hr m H) as ([n k] & I' & R'). now exists n, k. Qed.
  Lemma in_rep nk : In nk t -> exists m, In m ms /\ reported tar m nk.
  Proof. exact (forall2_r _ _ _ Hr nk). Qed.
  Lemma all_whole : Forall whole ms.
  Proof. apply Forall_forall. intros m H. destruct (rep_in m H) as (n & k & _ & (_ & W & _)). exact W. Qed.
  (** Every member is the root or a node of the tree *)
  Lemma member_node m : In m ms -> member_key m = [] \/ (member_key m <> [] /\ Forall good (member_key m) /\ exists x, lookup_path es (member_key m) = Some x /\ rtar_slice tar (range_of m) = tree_resource es (member_key m)).
  Proof.
    intros H. destruct (rep_in m H) as (n & k & I' & (P & _ & Ho & Hs & Hb & D)). destruct Hp as (P1 & _). destruct (P1 n k I') as [(-> & ->)|(cs & x & Ne & L & Hn & ->)].
    - left. apply key_dot. destruct P as [P|[_ P]]; [now left|right; exact P].
    - right. pose proof (proj1 Ht cs x L) as G. assert (K : member_key m = cs).
      { apply key_path; [exact G|exact Ne|]. destruct P as [P|[_ P]], Hn as [-> | ->]; rewrite P; auto. }
      rewrite K. split; [exact Ne|]. split; [exact G|]. exists x. split; [exact L|]. unfold rtar_slice, range_of. cbn [fst snd]. apply Z.leb_le in Hb. rewrite Hb. unfold tree_resource. rewrite L.
      destruct x as [d|es']; cbn [kind_of] in D; [now rewrite D|]. rewrite D. reflexivity.
  Qed.
  Lemma node_member cs x : cs <> [] -> lookup_path es cs = Some x -> exists m, In m ms /\ member_key m = cs.
  Proof.
    intros Ne L. pose proof (proj1 Ht cs x L) as G. destruct Hp as (_ & P2). destruct (P2 cs x Ne L) as [H|H]; destruct (in_rep _ H) as (m & Im & (P & _)); exists m; (split; [exact Im|]); apply key_path; try assumption; destruct P as [P|[_ P]]; rewrite P; auto.
  Qed.
  Lemma tree_ranges : exists f, rtar_new ms = ROk f /\ NoDup (map fst f) /\ (forall k r, In (k, r) f -> k = [] \/ (k <> [] /\ Forall good k /\ rtar_slice tar r = tree_resource es k /\ tree_resource es k <> None)) /\
    forall cs, cs <> [] -> match range_get f cs with Some r => rtar_slice tar r = tree_resource es cs /\ tree_resource es cs <> None | None => tree_resource es cs = None end.
  Proof.
    destruct (ranges_spec ms [] all_whole (NoDup_nil _)) as (f & E & N & K). exists f. split; [exact E|]. split; [exact N|].
    assert (X : forall cs, match range_get f cs with Some r => cs = [] \/ (Forall good cs /\ rtar_slice tar r = tree_resource es cs /\ tree_resource es cs <> None) | None => cs <> [] -> tree_resource es cs = None end).
    { intros cs. destruct (K cs) as [(m & Im & Ek & Eg)|(Nm & Eg)]; rewrite Eg.
      - subst cs. destruct (member_node m Im) as [Q|(Q & G & x & L & S)]; [now left|right]. split; [exact G|]. split; [exact S|]. unfold tree_resource. rewrite L. destruct x; discriminate.
      - cbn [range_get]. intros Ne. unfold tree_resource. destruct (lookup_path es cs) as [x|] eqn:L; [|reflexivity]. exfalso. destruct (node_member cs x Ne L) as (m & Im & Em). exact (Nm m Im Em). }
    split.
    - intros k r H. apply (in_get f k r N) in H. specialize (X k). rewrite H in X. destruct k; [now left|]. right. destruct X as [X|(A & B & C)]; [discriminate|]. repeat split; try assumption. discriminate.
    - intros cs Ne. specialize (X cs). destruct (range_get f cs); [destruct X as [X|(_ & B & C)]; [congruence|now split]|auto].
  Qed.
End TREE.

(** A tar of a directory tree (members in any order, with or without "./" in front, directories with or without "/" at the end): for
    every directory, reached by [subdir], reading a resource gives the bytes of the file of that name, nothing for a directory, and
    "not found" otherwise; what exists is what can be read. *)
Theorem C99_read : forall t es tar ms, tree_ok es -> packs t es -> Forall2 (reported tar) ms t ->
  exists f, rtar_new ms = ROk f /\
  forall path es' k, lookup_path es path = Some (NDir es') -> good k ->
    let sub := fold_left rtar_subdir path "" in
    rtar_read tar f sub k = as_read (match dict_get es' k with Some (NFile d) => Some d | Some (NDir _) => Some [] | None => None end)
    /\ rtar_exists f sub k = match dict_get es' k with Some _ => true | None => false end.
Proof.
  intros t es tar ms Ht Hp Hr. destruct (tree_ranges t es tar ms Ht Hp Hr) as (f & E & N & _ & X). exists f. split; [exact E|]. intros path es' k L Gk. cbv zeta.
  pose proof (proj1 Ht path _ L) as G. rewrite (subdirs path G [] (Forall_nil _) : fold_left rtar_subdir path "" = TarSpec.join path).
  unfold rtar_read, rtar_exists. rewrite (path_join_path path k G Gk). assert (Gs : Forall good (path ++ [k])) by (apply Forall_app; split; [exact G|now constructor]).
  assert (Ne : (path ++ [k])%list <> []) by (destruct path; discriminate). rewrite (components_path _ Gs Ne). specialize (X (path ++ [k])%list Ne). unfold tree_resource in X.
  rewrite (lookup_snoc path es es' k L) in X. destruct (range_get f (path ++ [k])) as [r|].
  - destruct X as (-> & X). destruct (dict_get es' k) as [[d|e]|]; [now split|now split|congruence].
  - destruct (dict_get es' k) as [[d|e]|]; [discriminate|discriminate|now split].
Qed.
Print Assumptions C99_read.
(** ... the same bytes as Python reads from the tar (C33) *)
Theorem C99_python : forall t es tar ms, tree_ok es -> packs t es -> Forall2 (reported tar) ms t ->
  exists f pf pd, rtar_new ms = ROk f /\ tar_create t "" = Ok (StTar pf pd "") /\
  forall path es' k d opt, lookup_path es path = Some (NDir es') -> good k ->
    st_lookup (StTar pf pd (TarSpec.join path)) k opt = Ok (GotMem d) -> rtar_read tar f (fold_left rtar_subdir path "") k = ROk d.
Proof.
  intros t es tar ms Ht Hp Hr. destruct (C99_read t es tar ms Ht Hp Hr) as (f & E & R). destruct (C33_tar_equals_directory t es Ht Hp) as (pf & pd & Ep & P).
  exists f, pf, pd. split; [exact E|]. split; [exact Ep|]. intros path es' k d opt L Gk Hg. destruct (R path es' k L Gk) as (-> & _). destruct (P path es' L) as (_ & Q). specialize (Q k opt Gk).
  destruct (dict_get es' k) as [[m|e]|] eqn:D.
  - destruct Q as (Q & _). rewrite Q in Hg. injection Hg as ->. reflexivity.
  - destruct Q as (Q & _). rewrite Q in Hg. discriminate.
  - rewrite Q in Hg. cbn [st_lookup] in Hg. unfold dir_get in Hg. rewrite D in Hg. destruct opt; discriminate.
Qed.
Print Assumptions C99_python.

(** ** Archives *)
Lemma numbered_get (l : list (string * list Z)) n : forall s, 
  match dict_get (combine (map fst l) (seq s (List.length l))) n with Some i => (s <= i)%nat /\ nth_error (map (fun e => OStream (snd e) 0) l) (i - s) = option_map (fun d => OStream d 0) (dict_get l n) /\ dict_get l n <> None | None => dict_get l n = None end.
Proof.
  induction l as [|[k d] l IH]; intros s; [reflexivity|]. cbn [map fst snd List.length seq combine dict_get]. destruct (String.eqb k n) eqn:E.
  - rewrite Nat.sub_diag. repeat split; [lia|discriminate].
  - specialize (IH (S s)). destruct (dict_get (combine (map fst l) (seq (S s) (List.length l))) n) as [i|]; [|exact IH]. destruct IH as (A & B & C). split; [lia|]. split; [|exact C].
    replace (i - s)%nat with (S (i - S s)) by lia. exact B.
Qed.
Lemma store_file files n : file_of (store_with files) n = dict_get files n.
Proof.
  unfold file_of, store_with. cbn [st_names st_heap]. pose proof (numbered_get files n 0) as X. destruct (dict_get (combine _ _) n) as [i|]; [|now rewrite X].
  destruct X as (_ & X & Y). rewrite Nat.sub_0_r in X. rewrite X. destruct (dict_get files n); [reflexivity|congruence].
Qed.
Lemma combine_fst {A B} (a : list A) : forall b : list B, List.length a = List.length b -> map fst (combine a b) = a.
Proof. induction a as [|x a IH]; intros [|y b] H; try discriminate; [reflexivity|]. cbn [combine map fst]. f_equal. apply IH. cbn in H. congruence. Qed.
Lemma combine_snd {A B} (a : list A) : forall b : list B, List.length a = List.length b -> map snd (combine a b) = b.
Proof. induction a as [|x a IH]; intros [|y b] H; try discriminate; [reflexivity|]. cbn [combine map snd]. f_equal. apply IH. cbn in H. congruence. Qed.
Lemma store_sound files : NoDup (map fst files) -> sound (store_with files).
Proof.
  intros N. unfold sound, store_with. cbn [st_names st_heap]. assert (L : List.length (map fst files) = List.length (seq 0 (List.length files))) by (now rewrite map_length, seq_length).
  rewrite (combine_fst _ _ L), (combine_snd _ _ L). split; [exact N|]. split; [apply seq_NoDup|]. apply Forall_forall. intros [k i] H. apply in_combine_r in H. apply in_seq in H. cbn [snd]. rewrite map_length. lia.
Qed.
Lemma path_text_join k : path_text k = TarSpec.join k.
Proof. unfold path_text. induction k as [|c [|d k] IH]; [reflexivity|reflexivity|]. rewrite join_cons by discriminate. rewrite <- IH. reflexivity. Qed.
Lemma join_split s : TarSpec.join (split_on "/" s) = s.
Proof.
  induction s as [|a s IH]; [reflexivity|]. cbn [split_on]. destruct (Ascii.eqb_spec a "/") as [->|N].
  - rewrite join_cons by apply split_nonempty. now rewrite IH.
  - destruct (split_on "/" s) as [|w ws] eqn:E; [exfalso; exact (split_nonempty _ _ E)|]. destruct ws as [|v ws]; [cbn [TarSpec.join] in *; now rewrite IH|].
    rewrite join_cons in * by discriminate. rewrite <- IH. reflexivity.
Qed.
(** The files of a tree, by path *)
Definition tree_files (es : list (string * fsnode)) (n : string) : option (list Z) := tree_resource es (split_on "/" n).
Definition readable (es : list (string * fsnode)) : Prop := forall cs d, lookup_path es cs = Some (NFile d) -> is_bytes d /\ zlen d < 2 ^ 64.

Lemma in_dict {A} (d : list (string * A)) k : dict_get d k = None -> ~ In k (map fst d).
Proof. induction d as [|[j x] t IH]; cbn [dict_get map fst]; [intros _ []|]. destruct (String.eqb_spec j k); [discriminate|]. intros H [E|E]; [congruence|exact (IH H E)]. Qed.
Lemma tar_files t es tar ms f : tree_ok es -> packs t es -> Forall2 (reported tar) ms t -> rtar_new ms = ROk f ->
  NoDup (map fst (rtar_files tar f)) /\ forall n, dict_get (rtar_files tar f) n = tree_files es n.
Proof.
  intros Ht Hp Hr E. destruct (tree_ranges t es tar ms Ht Hp Hr) as (f' & E' & N & I' & X). rewrite E in E'. injection E' as <-. unfold rtar_files.
  set (g := filter _ f). assert (Sub : forall e, In e g -> In e f /\ fst e <> []). { intros e H. apply filter_In in H as (A & B). split; [exact A|]. destruct (fst e); [discriminate|discriminate]. }
  assert (Ng : NoDup (map fst g)). { unfold g. clear - N. induction f as [|e f IH]; [constructor|]. cbn [map] in N. inversion N as [|? ? N1 N2]; subst. cbn [filter]. destruct (match fst e with [] => false | _ => true end); [|now apply IH].
    cbn [map]. constructor; [|now apply IH]. intros H. apply N1. apply in_map_iff in H as (x & <- & Hx). apply filter_In in Hx as (Hx & _). now apply in_map. }
  assert (Good : forall e, In e g -> fst e <> [] /\ Forall good (fst e) /\ rtar_slice tar (snd e) = tree_resource es (fst e) /\ tree_resource es (fst e) <> None).
  { intros [k r] H. destruct (Sub _ H) as (A & B). cbn [fst snd] in *. destruct (I' k r A) as [C|C]; [congruence|exact C]. }
  split.
  - rewrite map_map. cbn [fst]. clear - Ng Good. induction g as [|e g IH]; [constructor|]. cbn [map] in *. inversion Ng as [|? ? N1 N2]; subst.
    constructor; [|apply IH; [exact N2|intros x Hx; apply Good; now right]]. intros H. apply in_map_iff in H as (x & Ex & Hx). apply N1. rewrite !path_text_join in Ex.
    destruct (Good e (or_introl eq_refl)) as (A1 & B1 & _). destruct (Good x (or_intror Hx)) as (A2 & B2 & _). apply (join_inj _ _ B2 B1 A2 A1) in Ex. rewrite <- Ex. now apply in_map.
  - intros n. destruct (dict_get (map _ g) n) as [d|] eqn:D.
    + apply dict_get_in in D. apply in_map_iff in D as (e & Ee & He). destruct (Good e He) as (A & B & C & C'). assert (En : n = path_text (fst e)) by congruence. assert (Ed : d = match rtar_slice tar (snd e) with Some x => x | None => [] end) by congruence.
      rewrite C in Ed. subst n d. unfold tree_files. rewrite path_text_join, (split_good _ B A). destruct (tree_resource es (fst e)); [reflexivity|congruence].
    + apply in_dict in D. symmetry. destruct (tree_files es n) as [d|] eqn:T; [|reflexivity]. exfalso. apply D. unfold tree_files in T.
      specialize (X (split_on "/" n) (split_nonempty _ _)). destruct (range_get f (split_on "/" n)) as [r|] eqn:G; [|congruence]. apply get_in in G.
      apply in_map_iff. exists (path_text (split_on "/" n), match rtar_slice tar r with Some x => x | None => [] end). split; [cbn [fst]; now rewrite path_text_join, join_split|].
      apply in_map_iff. exists (split_on "/" n, r). split; [reflexivity|]. apply filter_In. split; [exact G|]. cbn [fst]. destruct (split_on "/" n) eqn:S; [exfalso; exact (split_nonempty _ _ S)|reflexivity].
Qed.

(** The store that stands for the tar gives the answers of [rtar_read] in every directory, whether it exists or not *)
Theorem C99_store : forall t es tar ms f, tree_ok es -> packs t es -> Forall2 (reported tar) ms t -> rtar_new ms = ROk f ->
  forall path k, Forall good path -> good k ->
    as_read (file_of (rtar_store tar f) (String.concat "/" (path ++ [k]))) = rtar_read tar f (fold_left rtar_subdir path "") k.
Proof.
  intros t es tar ms f Ht Hp Hr E path k G Gk. destruct (tar_files t es tar ms f Ht Hp Hr E) as (_ & D). unfold rtar_store. rewrite store_file, D. unfold tree_files.
  assert (Gs : Forall good (path ++ [k])) by (apply Forall_app; split; [exact G|now constructor]). assert (Ne : (path ++ [k])%list <> []) by (destruct path; discriminate).
  fold (path_text (path ++ [k])). rewrite path_text_join, (split_good _ Gs Ne). rewrite (subdirs path G [] (Forall_nil _) : fold_left rtar_subdir path "" = TarSpec.join path).
  unfold rtar_read. rewrite (path_join_path path k G Gk), (components_path _ Gs Ne). destruct (tree_ranges t es tar ms Ht Hp Hr) as (f' & E' & _ & _ & X). rewrite E in E'. injection E' as <-.
  specialize (X _ Ne). destruct (range_get f (path ++ [k])) as [r|]; [destruct X as (-> & X); destruct (tree_resource es (path ++ [k])); [reflexivity|congruence]|now rewrite X].
Qed.
(** Archives opened from the tar: what the files of the tree call for (as C82 for directories), complete archives and no others *)
Theorem C99_open : forall checks t es tar ms f a, tree_ok es -> packs t es -> Forall2 (reported tar) ms t -> rtar_new ms = ROk f -> readable es -> rsane a ->
  opens_as checks (tree_files es) "" a (rtar_open checks a tar f)
  /\ forall x, rtar_open checks a tar f = ROk x <-> complete (tree_files es) "" a x.
Proof.
  intros checks t es tar ms f a Ht Hp Hr E Rd Ha. destruct (tar_files t es tar ms f Ht Hp Hr E) as (N & D).
  assert (So : sound (rtar_store tar f)) by (apply store_sound; exact N).
  assert (Fo : forall n, file_of (rtar_store tar f) n = tree_files es n) by (intros n; unfold rtar_store; now rewrite store_file).
  assert (Fs : fsane (tree_files es)). { intros n d. unfold tree_files, tree_resource. destruct (lookup_path es (split_on "/" n)) as [[m|e]|] eqn:L; [|intros [= <-]; split; [constructor|vm_compute; reflexivity]|discriminate]. intros [= <-]. exact (Rd _ _ L). }
  assert (Sa : sane (rtar_store tar f)) by (intros n d H; rewrite Fo in H; exact (Fs n d H)).
  assert (Cu : forall n, current (rtar_store tar f) n) by (intros n d H; discriminate).
  destruct (C82_open checks rust_file_storage a (rtar_store tar f) "" eq_refl So Cu Sa Ha) as (O & _). apply (proj1 (opens_as_ext checks _ _ Fo)) in O.
  split; [exact O|]. intros x. rewrite <- (opens_complete checks (tree_files es) Fs a Ha "" x). split; [intros <-; exact O|]. intros O'. exact (C82_unique checks _ "" a _ _ Fs Ha O O').
Qed.
Print Assumptions C99_open.

(** Of several members with the same path the last counts (for any other files; in C++ it is the first, C67_twice_refuted) *)
Theorem C99_last_wins : forall ms m ms' tar f, rtar_new (ms ++ m :: ms')%list = ROk f -> 0 <= tm_offset m -> 0 <= tm_size m -> tm_offset m + tm_size m <= zlen tar ->
  (forall x, In x ms' -> member_key x <> member_key m) -> forall path k, Forall good path -> good k -> member_key m = (path ++ [k])%list ->
  rtar_read tar f (fold_left rtar_subdir path "") k = ROk (firstn (Z.to_nat (tm_size m)) (skipn (Z.to_nat (tm_offset m)) tar)).
Proof.
  intros ms m ms' tar f E Ho Hs Hb Later path k G Gk K. assert (Gs : Forall good (path ++ [k])) by (apply Forall_app; split; [exact G|now constructor]). assert (Ne : (path ++ [k])%list <> []) by (destruct path; discriminate).
  assert (W : Forall whole (ms ++ m :: ms')). { apply Forall_forall. intros x Hx. unfold whole. destruct (Z.eq_dec (tm_header_size x) (tm_size x)) as [|Nx]; [assumption|exfalso].
    assert (Bad : rtar_new (ms ++ m :: ms')%list = RErr EIo) by (apply C99_sparse; now exists x). rewrite E in Bad. discriminate. }
  assert (S : forall l1 l2 g, rtar_ranges (l1 ++ l2)%list g = match rtar_ranges l1 g with ROk g' => rtar_ranges l2 g' | RErr e => RErr e | RPanic => RPanic end).
  { induction l1 as [|x l1 IH]; intros l2 g; [reflexivity|]. cbn [app rtar_ranges]. destruct (negb _); [reflexivity|apply IH]. }
  apply Forall_app in W as (W1 & W2). inversion W2 as [|? ? Wm W3]; subst. unfold rtar_new in E. rewrite S in E.
  destruct (ranges_spec ms [] W1 (NoDup_nil _)) as (g & Eg & Ng & _). rewrite Eg, (ranges_step m ms' g Wm) in E.
  destruct (ranges_spec ms' (range_put g (member_key m) (range_of m)) W3 (put_keys _ _ _ Ng)) as (f' & Ef & _ & X). rewrite E in Ef. injection Ef as <-.
  rewrite (subdirs path G [] (Forall_nil _) : fold_left rtar_subdir path "" = TarSpec.join path). unfold rtar_read. rewrite (path_join_path path k G Gk), (components_path _ Gs Ne).
  destruct (X (path ++ [k])%list) as [(x & Hx & Ex & _)|(_ & ->)]; [exfalso; apply (Later x Hx); congruence|]. rewrite put_get, K, same_path_refl. unfold rtar_slice, range_of. cbn [fst snd]. apply Z.leb_le in Hb. now rewrite Hb.
Qed.
Print Assumptions C99_last_wins.
(** Nothing can be written *)
Theorem C99_read_only : forall name, rtar_create_output_stream name = RErr EIo. Proof. reflexivity. Qed.

(** *** A case: an archive with a vector in a directory, stored with "./" and a root entry *)
Definition ex_tree : list (string * fsnode) :=
  [("s", NDir [("A.archive", NFile (framed [])); ("A.archive.schema", NFile [65]); ("v", NFile (framed [1; 2; 3; 4])); ("v.schema", NFile [86])]); ("empty", NDir []); ("O.archive", NFile (framed [])); ("O.archive.schema", NFile [79])].
Definition ex_tar : list Z := (zeros 32 ++ framed [] ++ [65] ++ framed [1; 2; 3; 4] ++ [86; 79] ++ zeros 31)%list.
Definition ex_list : tarfile :=
  [(".", TDir); ("./s/v", TReg (framed [1; 2; 3; 4])); ("./s", TDir); ("./s/A.archive", TReg (framed [])); ("s/A.archive.schema", TReg [65]); ("./s/v.schema", TReg [86]); ("./empty", TDir); ("O.archive", TReg (framed [])); ("./O.archive.schema", TReg [79])].
Definition ex_members : list tmember :=
  [TMember "./" 32 0 0; TMember "./s/v" 49 20 20; TMember "./s/" 0 0 0; TMember "./s/A.archive" 32 16 16; TMember "s/A.archive.schema" 48 1 1; TMember "./s/v.schema" 69 1 1; TMember "./empty/" 70 0 0; TMember "O.archive" 32 16 16; TMember "./O.archive.schema" 70 1 1].
Definition ex_archive : rarch := RArch "O" [79] [RSub "s" true (RArch "A" [65] [RRes (CRes "v" [86] (KVec (EType 2 false)) false None)])].
Definition ex_inner : rarch := RArch "A" [65] [RRes (CRes "v" [86] (KVec (EType 2 false)) false None)].
Lemma ex_tree_ok : tree_ok ex_tree.
Proof.
  assert (G : forall k, String.eqb k "" = false -> has_slash k = false -> String.eqb k "." = false -> good k).
  { intros k H1 H2 H3. apply String.eqb_neq in H1, H3. now split. }
  apply tree_ok_intro; [repeat (constructor; [cbn; intuition discriminate|]); constructor|].
  intros k x H. destruct H as [H|[H|[H|[H|[]]]]]; inversion H; subst; (split; [apply G; reflexivity|]); intros es' E; inversion E; subst es'.
  - apply tree_ok_intro; [repeat (constructor; [cbn; intuition discriminate|]); constructor|].
    intros k x Hx. destruct Hx as [Hx|[Hx|[Hx|[Hx|[]]]]]; inversion Hx; subst; (split; [apply G; reflexivity|discriminate]).
  - apply tree_ok_intro; [constructor|]. intros k x [].
Qed.
Lemma ex_packs : packs ex_list ex_tree.
Proof.
  split.
  - intros n k H. cbn [In ex_list] in H. repeat (destruct H as [H|H]; [inversion H; subst; clear H|]); [..|destruct H].
    + left. now split.
    + right. exists ["s"; "v"], (NFile (framed [1; 2; 3; 4])). repeat split; [discriminate|now right].
    + right. eexists ["s"], _. repeat split; [discriminate|now right].
    + right. eexists ["s"; "A.archive"], _. repeat split; [discriminate|now right].
    + right. eexists ["s"; "A.archive.schema"], _. repeat split; [discriminate|now left].
    + right. eexists ["s"; "v.schema"], _. repeat split; [discriminate|now right].
    + right. eexists ["empty"], _. repeat split; [discriminate|now right].
    + right. eexists ["O.archive"], _. repeat split; [discriminate|now left].
    + right. eexists ["O.archive.schema"], _. repeat split; [discriminate|now right].
  - intros cs x Ne L. destruct cs as [|c cs]; [congruence|]. cbn [lookup_path ex_tree dict_get] in L.
    repeat match type of L with context [String.eqb ?a c] => destruct (String.eqb_spec a c) as [<-|] end; try discriminate;
      (destruct cs as [|d cs]; [inversion L; subst; cbn; tauto|]); try discriminate.
    cbn [lookup_path dict_get] in L. repeat match type of L with context [String.eqb ?a d] => destruct (String.eqb_spec a d) as [<-|] end; try discriminate;
      (destruct cs as [|e cs]; [inversion L; subst; cbn; tauto|discriminate]).
Qed.
Theorem C99_instance : tree_ok ex_tree /\ packs ex_list ex_tree /\ Forall2 (reported ex_tar) ex_members ex_list /\ readable ex_tree /\ rsane ex_archive
  /\ exists f, rtar_new ex_members = ROk f
    /\ rtar_read ex_tar f "s" "v.schema" = ROk [86] /\ rtar_read ex_tar f "s/" "v.schema" = ROk [86] /\ rtar_read ex_tar f "./s" "v.schema" = RErr EMissing /\ rtar_read ex_tar f "" "v" = RErr EMissing /\ rtar_read ex_tar f "" "empty" = ROk []
    /\ rtar_open true ex_archive ex_tar f = ROk (ROpened [("s", Some (RCArchive (ROpened [("v", Some (RCValue (RVVec (AView ([1; 2; 3; 4] ++ zeros 8) 2))))])))])
    /\ rtar_open true ex_inner ex_tar f = RErr EMissing.
Proof.
  split; [exact ex_tree_ok|]. split; [exact ex_packs|]. split.
  { unfold ex_members, ex_list. repeat (apply Forall2_cons; [split; [first [left; reflexivity|right; split; reflexivity]|vm_compute; repeat split; discriminate]|]). apply Forall2_nil. }
  split.
  { assert (B : forall l, forallb (fun b => (0 <=? b) && (b <? 256)) l = true -> zlen l < 2 ^ 64 -> is_bytes l /\ zlen l < 2 ^ 64).
    { intros l H K. split; [|exact K]. apply Forall_forall. intros b Hb. rewrite forallb_forall in H. specialize (H b Hb). apply andb_true_iff in H as (H1 & H2). apply Z.leb_le in H1. apply Z.ltb_lt in H2. unfold is_byte. lia. }
    intros cs d L. destruct cs as [|c cs]; [discriminate|]. cbn [lookup_path ex_tree dict_get] in L.
    repeat match type of L with context [String.eqb ?a c] => destruct (String.eqb_spec a c) as [<-|] end; try discriminate;
      (destruct cs as [|e cs]; [inversion L; subst; apply B; vm_compute; reflexivity|]); try discriminate.
    cbn [lookup_path dict_get] in L. repeat match type of L with context [String.eqb ?a e] => destruct (String.eqb_spec a e) as [<-|] end; try discriminate;
      (destruct cs as [|g cs]; [inversion L; subst; apply B; vm_compute; reflexivity|discriminate]). }
  split.
  { constructor; [reflexivity|intros r [E|[]]; discriminate|]. intros n o a [E|[]]. injection E as <- <- <-. constructor; [reflexivity| |intros ? ? ? [E|[]]; discriminate].
    intros r [E|[]]. injection E as <-. split; [reflexivity|]. cbn. lia. }
  eexists. split; [vm_compute; reflexivity|]. vm_compute. repeat split.
Qed.
