(** C94: names in generated Rust and C++ code. *)
From Coq Require Import List ZArith Bool String Ascii Lia Permutation.
From Verif Require GenSpec.
From Verif Require Import PyBase PyText GenTypes GenTypesFacts NormLex GenTree GenBuild GenNames NameSpec NameFacts.
Import ListNotations.
Local Open Scope string_scope.

(** ** Lists of names *)
Lemma distinct_app {A} (a b : list A) : NoDup a -> NoDup b -> (forall x, In x a -> In x b -> False) -> NoDup (a ++ b).
Proof. intros Ha Hb D. induction Ha as [|x a N Ha IH]; cbn; [exact Hb|]. constructor; [rewrite in_app_iff; intros [X|X]; [tauto|apply (D x); [now left|exact X]]|]. apply IH. intros y Hy. apply D. now right. Qed.
Lemma distinct_left {A} (a b : list A) : NoDup (a ++ b) -> NoDup a.
Proof. induction a as [|x a IH]; [constructor|]. cbn. intros H. inversion H as [|? ? N H']; subst. constructor; [|now apply IH]. intros X. apply N, in_app_iff. now left. Qed.
Lemma distinct_right {A} (a b : list A) : NoDup (a ++ b) -> NoDup b.
Proof. induction a as [|x a IH]; [auto|]. cbn. intros H. inversion H; auto. Qed.
Lemma distinct_both {A} (a b : list A) x : NoDup (a ++ b) -> In x a -> In x b -> False.
Proof. induction a as [|y a IH]; cbn; [tauto|]. intros H [->|Hx] Hy; inversion H as [|? ? N H']; subst; [apply N, in_app_iff; now right|auto]. Qed.
Lemma distinct_map {A B} (f : A -> B) l : (forall a b, In a l -> In b l -> f a = f b -> a = b) -> NoDup l -> NoDup (map f l).
Proof.
  intros I N. induction N as [|x l Nx N IH]; [constructor|]. cbn. constructor; [|apply IH; intros a b Ha Hb; apply I; now right].
  intros H. apply in_map_iff in H as (y & E & Hy). apply Nx. rewrite (I x y); auto; [now left|now right].
Qed.
Lemma app_same_prefix p a b : p ++ a = p ++ b -> a = b.
Proof. induction p as [|c p IH]; cbn; [auto|]. intros [= H]. auto. Qed.
Lemma app_nil_s s : s ++ "" = s. Proof. induction s as [|c s IH]; cbn; [reflexivity|now rewrite IH]. Qed.
Lemma app_assoc_s a b c : (a ++ b) ++ c = a ++ (b ++ c). Proof. induction a as [|x a IH]; cbn; [reflexivity|now rewrite IH]. Qed.
Lemma length_app a b : String.length (a ++ b) = (String.length a + String.length b)%nat.
Proof. induction a as [|x a IH]; cbn; [reflexivity|now rewrite IH]. Qed.
Lemma app_same_suffix p a : forall b, a ++ p = b ++ p -> a = b.
Proof.
  induction a as [|x a IH]; intros [|y b] H; [reflexivity| | |].
  - apply (f_equal String.length) in H. cbn [append String.length] in H. rewrite length_app in H. cbn in H. lia.
  - apply (f_equal String.length) in H. cbn [append String.length] in H. rewrite length_app in H. cbn in H. lia.
  - cbn [append] in H. injection H as -> H. f_equal. auto.
Qed.
(** Decide a question about the members of a fixed list *)
Lemma members (p : string -> bool) l : forallb p l = true -> forall n, In n l -> p n = true.
Proof. intros H. now apply forallb_forall. Qed.
Definition prefixed (p n : string) : bool := String.prefix p n.
Lemma prefixed_app p n : prefixed p (p ++ n) = true.
Proof. unfold prefixed. induction p as [|c p IH]; cbn; [now destruct n|]. destruct (ascii_dec c c); [exact IH|contradiction]. Qed.
Lemma prefixed_starts p : forall n, prefixed p n = true -> starts p n.
Proof.
  unfold prefixed. induction p as [|c p IH]; intros n H; [now exists n|]. destruct n as [|d n]; [discriminate|]. cbn in H. destruct (ascii_dec c d); [subst|discriminate]. destruct (IH n H) as (t & ->). now exists t.
Qed.
Fixpoint suffixed (p n : string) : bool := String.eqb n p || match n with "" => false | String _ t => suffixed p t end.
Lemma suffixed_app p n : suffixed p (n ++ p) = true.
Proof. induction n as [|c n IH]; cbn [append]; [destruct p; cbn [suffixed]; now rewrite String.eqb_refl|]. cbn [suffixed]. rewrite IH. apply orb_true_r. Qed.
Lemma not_prefixed p l n : forallb (fun k => negb (prefixed p k)) l = true -> ~ In (p ++ n) l.
Proof. intros H Hn. pose proof (members _ _ H _ Hn) as X. cbn beta in X. now rewrite prefixed_app in X. Qed.
Lemma not_suffixed p l n : forallb (fun k => negb (suffixed p k)) l = true -> ~ In (n ++ p) l.
Proof. intros H Hn. pose proof (members _ _ H _ Hn) as X. cbn beta in X. now rewrite suffixed_app in X. Qed.
Definition capital (n : string) : bool := match n with String c _ => is_upper c | "" => false end.
Lemma camel_capital s b : plain s -> capital (camel s ++ b) = true.
Proof. intros P. destruct (camel_first s P) as (c & t & -> & U). exact U. Qed.

(** ** Rust *)
Lemma escaped_spec n : escape n = n /\ ~ In n rust_escaped \/ escape n = n ++ "_" /\ In n rust_escaped.
Proof.
  unfold escape. destruct (existsb (String.eqb n) rust_escaped) eqn:E.
  - right. split; [reflexivity|]. apply existsb_exists in E as (k & Hk & Q). apply String.eqb_eq in Q. now subst.
  - left. split; [reflexivity|]. intros H. assert (X : existsb (String.eqb n) rust_escaped = true) by (apply existsb_exists; exists n; split; [exact H|apply String.eqb_refl]). congruence.
Qed.
Definition own_methods := ["new_unchecked"; "fill_from"; "new"; "from_bytes"; "from_bytes_mut"; "from_bytes_slice"; "from_bytes_slice_mut"; "as_bytes"].
Lemma own_distinct (b : bool) : NoDup (["new_unchecked"; "fill_from"] ++ (if b then [] else ["new"; "from_bytes"; "from_bytes_mut"; "from_bytes_slice"; "from_bytes_slice_mut"; "as_bytes"]))%list.
Proof. destruct b; repeat (constructor; [cbn; intuition discriminate|]); constructor. Qed.
Lemma escape_identifier n : identifier n -> identifier (escape n).
Proof. intros H. destruct (escaped_spec n) as [(-> & _)|(-> & _)]; [exact H|]. now apply append_identifier. Qed.
(** Structures: the methods of a generated structure can be declared together if members and ranges have different names, none of them
    is taken, looks like a setter, or is another one with an underscore. *)
Theorem C94_rust_struct_partial : forall t,
  NoDup (field_names t ++ range_names t)%list ->
  (forall n, In n (field_names t ++ range_names t)%list -> identifier n /\ ~ In n rust_struct_taken /\ ~ starts "set_" n /\ ~ In (n ++ "_") (field_names t ++ range_names t)%list) ->
  usable rust_keywords (rust_methods t).
Proof.
  intros t N H. set (ms := (field_names t ++ range_names t)%list) in *.
  assert (Own : forall x, In x (["new_unchecked"; "fill_from"] ++ (if has_range t then [] else ["new"; "from_bytes"; "from_bytes_mut"; "from_bytes_slice"; "from_bytes_slice_mut"; "as_bytes"]))%list -> In x own_methods).
  { intros x. destruct (has_range t); cbn; tauto. }
  assert (Esc : forall n, In n ms -> ~ In (escape n) own_methods).
  { intros n Hn X. destruct (escaped_spec n) as [(E & _)|(E & _)]; rewrite E in X.
    - destruct (H n Hn) as (_ & T & _). apply T. revert X. unfold own_methods, rust_struct_taken. cbn. tauto.
    - revert X. apply not_suffixed. reflexivity. }
  assert (Set_ : forall a b, In b ms -> "set_" ++ a <> escape b).
  { intros a b Hb E. destruct (escaped_spec b) as [(Q & _)|(Q & I)]; rewrite Q in E.
    - destruct (H b Hb) as (_ & _ & S & _). apply S. exists a. now symmetry.
    - pose proof (members (fun k => negb (prefixed "set_" (k ++ "_"))) rust_escaped ltac:(vm_compute; reflexivity) b I) as X. cbn beta in X. rewrite <- E, prefixed_app in X. discriminate. }
  assert (Inj : forall a b, In a ms -> In b ms -> escape a = escape b -> a = b).
  { intros a b Ha Hb E. destruct (H a Ha) as (_ & _ & _ & Ua). destruct (H b Hb) as (_ & _ & _ & Ub). destruct (escaped_spec a) as [(Qa & _)|(Qa & _)], (escaped_spec b) as [(Qb & _)|(Qb & _)]; rewrite Qa, Qb in E.
    - exact E.
    - subst a. now destruct Ub.
    - rewrite E in Ua. now destruct Ua.
    - now apply app_same_suffix in E. }
  assert (Fm : forall n, In n (field_names t) -> In n ms) by (intros n Hn; apply in_app_iff; now left).
  split.
  - unfold rust_methods. fold ms. rewrite !app_assoc. rewrite <- app_assoc. apply distinct_app; [apply own_distinct| |].
    + apply distinct_app.
      * now apply distinct_map.
      * apply distinct_map; [|now apply distinct_left in N]. intros a b Ha Hb E. apply app_same_prefix in E. apply Inj; auto.
      * intros x Hx Hy. apply in_map_iff in Hx as (b & <- & Hb). apply in_map_iff in Hy as (a & E & Ha). now apply (Set_ (escape a) b Hb).
    + intros x Hx Hy. apply Own in Hx. apply in_app_iff in Hy as [Hy|Hy]; apply in_map_iff in Hy as (b & <- & Hb).
      * now apply (Esc b Hb).
      * revert Hx. apply not_prefixed. reflexivity.
  - intros n Hn. unfold rust_methods in Hn. fold ms in Hn. rewrite app_assoc in Hn. apply in_app_iff in Hn as [Hn|Hn]; [|apply in_app_iff in Hn as [Hn|Hn]].
    + apply Own in Hn. split.
      * pose proof (members (fun k => match k with String c _ => negb (digit c) | "" => false end && every ok_char k) own_methods ltac:(vm_compute; reflexivity) n Hn) as X. cbn beta in X.
        apply andb_true_iff in X as (X & Y). split; [|exact Y]. destruct n; [discriminate|]. now apply negb_true_iff in X.
      * pose proof (members (fun k => negb (existsb (String.eqb k) rust_keywords)) own_methods ltac:(vm_compute; reflexivity) n Hn) as X. cbn beta in X. intros K.
        assert (existsb (String.eqb n) rust_keywords = true) by (apply existsb_exists; exists n; split; [exact K|apply String.eqb_refl]). now rewrite H0 in X.
    + apply in_map_iff in Hn as (m & <- & Hm). destruct (H m Hm) as (I & T & _ & _). split; [now apply escape_identifier|]. intros K. destruct (escaped_spec m) as [(Q & Ne)|(Q & Is)]; rewrite Q in K.
      * pose proof (members (fun k => existsb (String.eqb k) (rust_escaped ++ rust_struct_taken)) rust_keywords ltac:(vm_compute; reflexivity) m K) as X. cbn beta in X.
        apply existsb_exists in X as (k & Hk & E). apply String.eqb_eq in E. subst k. apply in_app_iff in Hk as [Hk|Hk]; auto.
      * pose proof (members (fun k => negb (existsb (String.eqb (k ++ "_")) rust_keywords)) rust_escaped ltac:(vm_compute; reflexivity) m Is) as X. cbn beta in X.
        assert (E : existsb (String.eqb (m ++ "_")) rust_keywords = true) by (apply existsb_exists; exists (m ++ "_"); split; [exact K|apply String.eqb_refl]). now rewrite E in X.
    + apply in_map_iff in Hn as (m & <- & Hm). destruct (H m (Fm m Hm)) as (I & _). split; [apply prefix_identifier; [split; reflexivity|now apply escape_identifier]|]. apply not_prefixed. reflexivity.
Qed.
Print Assumptions C94_rust_struct_partial.

Definition okb (kw : list string) (k : string) : bool :=
  match k with String c _ => negb (digit c) | "" => false end && every ok_char k && negb (existsb (String.eqb k) kw).
Lemma in_existsb n l : existsb (String.eqb n) l = false -> ~ In n l.
Proof. intros E H. assert (X : existsb (String.eqb n) l = true) by (apply existsb_exists; exists n; split; [exact H|apply String.eqb_refl]). congruence. Qed.
Lemma fixed_ok kw l : forallb (okb kw) l = true -> forall n, In n l -> identifier n /\ ~ In n kw.
Proof.
  intros H n Hn. pose proof (members _ _ H n Hn) as X. unfold okb in X. apply andb_true_iff in X as (X & Z). apply andb_true_iff in X as (X & Y). split; [split; [|exact Y]|].
  - destruct n; [discriminate|]. now apply negb_true_iff in X.
  - apply in_existsb. now apply negb_true_iff in Z.
Qed.
Lemma capital_rust n : capital n = true -> In n rust_keywords -> n = "Self".
Proof. intros C H. pose proof (members (fun k => negb (capital k) || String.eqb k "Self") rust_keywords ltac:(vm_compute; reflexivity) n H) as X. cbn beta in X. rewrite C in X. now apply String.eqb_eq in X. Qed.
Lemma capital_cpp n : capital n = true -> ~ In n cpp_keywords.
Proof. intros C H. pose proof (members (fun k => negb (capital k)) cpp_keywords ltac:(vm_compute; reflexivity) n H) as X. cbn beta in X. now rewrite C in X. Qed.
Lemma camel_rust n : identifier n -> plain n -> flat n <> "self" -> identifier (camel n) /\ ~ In (camel n) rust_keywords.
Proof.
  intros I P F. split; [now apply camel_identifier|]. intros K. apply capital_rust in K; [|rewrite <- (app_nil_s (camel n)); now apply camel_capital]. apply F. now rewrite <- flat_camel, K.
Qed.

(** Enumerations: all variants, also the ones the generator adds, have different names if the enumerators differ in more than case and
    underscores, start with a letter, and none is called like an added one. *)
Lemma uint_flat d : flat (DecimalString.NilEmpty.string_of_uint d) = DecimalString.NilEmpty.string_of_uint d.
Proof. induction d; cbn [DecimalString.NilEmpty.string_of_uint]; [reflexivity|..]; cbn [flat Ascii.eqb Bool.eqb]; now rewrite IHd. Qed.
Lemma uint_ok d : every ok_char (DecimalString.NilEmpty.string_of_uint d) = true.
Proof. induction d; cbn [DecimalString.NilEmpty.string_of_uint]; [reflexivity|..]; cbn [every]; now rewrite IHd. Qed.
Lemma number_flat v : (0 <= v)%Z -> flat (py_str v) = py_str v /\ every ok_char (py_str v) = true /\ forall t, py_str v <> "minus" ++ t.
Proof.
  intros H. destruct v as [|p|p]; [repeat split; discriminate| |lia]. rewrite py_str_pos. split; [apply uint_flat|]. split; [apply uint_ok|]. intros t. destruct (Pos.to_uint p); discriminate.
Qed.
Lemma number_inj a b : py_str a = py_str b -> a = b.
Proof. intros H. pose proof (py_int0_str a) as X. rewrite H, py_int0_str in X. now injection X. Qed.
Lemma unknown_flat v : flat (unknown_name v) = "unknownvalue" ++ (if (v <? 0)%Z then "minus" ++ py_str (- v) else py_str v).
Proof.
  unfold unknown_name. rewrite flat_app. change (flat "UNKNOWN_VALUE_") with "unknownvalue". f_equal. destruct (Z.ltb_spec v 0) as [L|L].
  - rewrite flat_app. change (flat "MINUS_") with "minus". f_equal. apply number_flat. lia.
  - apply number_flat. lia.
Qed.
Lemma unknown_flat_inj a b : flat (unknown_name a) = flat (unknown_name b) -> a = b.
Proof.
  rewrite !unknown_flat. intros H. apply app_same_prefix in H. destruct (Z.ltb_spec a 0) as [La|La], (Z.ltb_spec b 0) as [Lb|Lb].
  - apply app_same_prefix, number_inj in H. lia.
  - symmetry in H. now apply number_flat in H.
  - now apply number_flat in H.
  - now apply number_inj.
Qed.
Lemma unknown_identifier v : identifier (unknown_name v) /\ plain (unknown_name v).
Proof.
  split; [|reflexivity]. unfold unknown_name. apply append_identifier; [split; reflexivity|]. destruct (Z.ltb_spec v 0) as [L|L]; [rewrite every_app; cbn [every]|]; apply number_flat; lia.
Qed.
Theorem C94_rust_enum_partial : forall set_order name ty w vals t cs, (forall l, Permutation (set_order l) l) -> create_enum set_order name ty w vals = Ok (t, cs) ->
  apart (map fst vals) -> (forall n, In n (map fst vals) -> identifier n /\ plain n /\ flat n <> "self" /\ ~ starts "unknownvalue" (flat n)) ->
  usable rust_keywords (rust_variants (map ev_name cs)).
Proof.
  intros so name ty w vals t cs Hso H A P. destruct (create_enum_ok so name ty w vals t cs Hso H) as (_ & _ & ex & vs & gen & F & Nu & _ & _ & E & Ng & _).
  assert (L : List.length vs = List.length (map fst vals)).
  { rewrite map_length. apply Forall2_length in F. rewrite map_length in F. rewrite F. clear - Nu. unfold GenSpec.numbered in Nu. destruct Nu as (L & _). exact L. }
  assert (En : map ev_name cs = (map fst vals ++ map unknown_name gen)%list).
  { rewrite E, map_app, !map_map. cbn [ev_name]. f_equal. clear - L. revert vs L. induction (map fst vals) as [|n ns IH]; intros [|v vs] L; try discriminate; [reflexivity|]. cbn. f_equal. apply IH. now injection L. }
  unfold rust_variants. rewrite En. split.
  - apply flat_distinct; [apply flat_camel|]. unfold apart. rewrite map_app. apply distinct_app; [exact A| |].
    + rewrite map_map. apply distinct_map; [intros a b _ _; apply unknown_flat_inj|exact Ng].
    + intros x Hx Hy. apply in_map_iff in Hx as (n & <- & Hn). rewrite map_map in Hy. apply in_map_iff in Hy as (v & Q & _). destruct (P n Hn) as (_ & _ & _ & S). apply S. rewrite <- Q, unknown_flat. now eexists.
  - intros n Hn. apply in_map_iff in Hn as (m & <- & Hm). apply in_app_iff in Hm as [Hm|Hm].
    + destruct (P m Hm) as (I & Pl & S & _). now apply camel_rust.
    + apply in_map_iff in Hm as (v & <- & _). destruct (unknown_identifier v) as (I & Pl). apply camel_rust; auto. rewrite unknown_flat. discriminate.
Qed.
Print Assumptions C94_rust_enum_partial.

(** Constants *)
Lemma upper_small s : every (fun c => negb (is_lower c)) (upper s) = true.
Proof. induction s as [|c s IH]; [reflexivity|]. cbn [upper every]. now rewrite upper_not_lower, IH. Qed.
Lemma upper_rust s : In (upper s) rust_keywords -> upper s = "_".
Proof. intros H. pose proof (members (fun k => negb (every (fun c => negb (is_lower c)) k) || String.eqb k "_") rust_keywords ltac:(vm_compute; reflexivity) _ H) as X. cbn beta in X. rewrite upper_small in X. now apply String.eqb_eq in X. Qed.
Lemma plain_flat n : plain n -> flat n <> "".
Proof. destruct n as [|c n]; [intros []|]. cbn [plain flat]. intros L. rewrite (letter_under c L). discriminate. Qed.
Lemma upper_free n f : plain n -> (forall s, flat (f s) = flat s) -> ~ In (upper (f n)) rust_keywords.
Proof. intros P F K. apply upper_rust in K. apply (plain_flat n P). rewrite <- F, <- flat_upper, K. reflexivity. Qed.
Theorem C94_rust_constants_partial : forall ns, apart (names_like ns is_constant) -> (forall n, In n (names_like ns is_constant) -> identifier n /\ plain n) ->
  usable rust_keywords (rust_constants ns).
Proof.
  intros ns A P. unfold rust_constants. split.
  - apply flat_distinct; [|exact A]. intros s. now rewrite flat_upper, flat_snake.
  - intros n Hn. apply in_map_iff in Hn as (m & <- & Hm). destruct (P m Hm) as (I & Pl). split; [now apply upper_identifier, snake_identifier|]. apply upper_free; [exact Pl|apply flat_snake].
Qed.
(** A constant written in capitals keeps its name. *)
Definition shouted (s : string) : Prop := every (fun c => negb (is_lower c)) s = true.
Lemma shouted_underscores s : shouted s -> underscores Free s = s.
Proof.
  unfold shouted. induction s as [|c s IH]; [reflexivity|]. cbn [every]. intros H. apply andb_true_iff in H as (A & B). cbn [underscores].
  assert (W : word_starts s = false). { destruct s as [|a [|b u]]; [reflexivity..|]. cbn [every] in B. apply andb_true_iff in B as (_ & B). apply andb_true_iff in B as (B & _). apply negb_true_iff in B. cbn [word_starts]. rewrite B. apply andb_false_r. }
  rewrite W, IH; [reflexivity|exact B].
Qed.
Lemma upper_lower_char c : is_lower c = false -> upper_char (lower_char c) = c.
Proof. intros H. pose proof (all_chars (fun c => is_lower c || Ascii.eqb (upper_char (lower_char c)) c)) as X. specialize (X ltac:(vm_compute; reflexivity) c). cbn beta in X. rewrite H in X. now apply Ascii.eqb_eq. Qed.
Lemma upper_lower s : shouted s -> upper (lower s) = s.
Proof. unfold shouted. induction s as [|c s IH]; [reflexivity|]. cbn [every]. intros H. apply andb_true_iff in H as (A & B). apply negb_true_iff in A. cbn [lower upper]. rewrite upper_lower_char, IH; auto. Qed.
Theorem C94_capitals_kept : forall n, shouted n -> upper (snake n) = n.
Proof. intros n H. unfold snake. rewrite shouted_underscores by exact H. now apply upper_lower. Qed.

(** Types and modules of a module *)
Definition type_bases (ns : tree) : list string := (names_like ns is_module ++ names_like ns is_structure ++ names_like ns is_enum ++ names_like ns is_archive ++ multi_names ns ++ ["schema"])%list.
Lemma map_flat_camel l : map flat (map camel l) = map flat l.
Proof. rewrite map_map. apply map_ext. apply flat_camel. Qed.
Theorem C94_rust_types_partial : forall ns, apart (type_bases ns) ->
  (forall n, In n (type_bases ns) -> ~ ends "builder" (flat n) /\ ~ ends "ref" (flat n) /\ identifier n /\ ~ In n rust_keywords) ->
  (forall n, In n (multi_names ns) -> plain n /\ flat n <> "self") ->
  usable rust_keywords (rust_types ns).
Proof.
  intros ns A H M. unfold rust_types.
  set (m := multi_names ns) in *. set (ar := names_like ns is_archive) in *.
  assert (Sub : forall n, In n (ar ++ m)%list -> In n (type_bases ns)).
  { intros n Hn. unfold type_bases. fold m ar. rewrite !in_app_iff in *. tauto. }
  split.
  - apply (NoDup_map_inv flat). rewrite !app_assoc, <- (app_assoc _ (map _ (ar ++ map camel m))). rewrite map_app.
    assert (E : map flat (((((names_like ns is_module ++ names_like ns is_structure) ++ names_like ns is_enum) ++ ar) ++ map camel m) ++ ["schema"])%list = map flat (type_bases ns)).
    { unfold type_bases. fold m ar. rewrite !map_app, map_flat_camel, !app_assoc. reflexivity. }
    rewrite E. apply distinct_app; [exact A| |].
    + rewrite map_app, !map_map. apply distinct_app.
      * assert (Q : map (fun x => flat (x ++ "Builder")) (ar ++ map camel m)%list = map (fun x => x ++ "builder") (map flat (ar ++ m)%list)).
        { rewrite !map_app, !map_map. f_equal; apply map_ext; intros x; rewrite flat_app, ?flat_camel; reflexivity. }
        rewrite Q. apply distinct_map; [intros a b _ _; apply app_same_suffix|]. unfold apart, type_bases in A. fold m ar in A.
        rewrite !map_app in A. do 3 apply distinct_right in A. rewrite app_assoc in A. apply distinct_left in A. now rewrite map_app.
      * assert (Q : map (fun x => flat (camel x ++ "Ref")) m = map (fun x => x ++ "ref") (map flat m)).
        { rewrite map_map. apply map_ext. intros x. now rewrite flat_app, flat_camel. }
        rewrite Q. apply distinct_map; [intros a b _ _; apply app_same_suffix|]. unfold apart, type_bases in A. fold m ar in A. rewrite !map_app in A. do 4 apply distinct_right in A. now apply distinct_left in A.
      * intros x Hx Hy. apply in_map_iff in Hx as (a & <- & _). apply in_map_iff in Hy as (b & Q & _). rewrite !flat_app in Q. change (flat "Ref") with "ref" in Q. change (flat "Builder") with "builder" in Q.
        assert (R : suffixed "f" (flat a ++ "builder") = true) by (rewrite <- Q; change ("ref") with ("re" ++ "f"); rewrite <- app_assoc_s; apply suffixed_app).
        clear - R. induction (flat a) as [|c s IH]; [discriminate R|]. cbn [append suffixed] in R. apply orb_true_iff in R as [R|R]; [|exact (IH R)]. apply String.eqb_eq in R. injection R as _ R. destruct s; discriminate R.
    + intros x Hx Hy. apply in_map_iff in Hx as (n & <- & Hn). destruct (H n Hn) as (Hb & Hr & _). rewrite map_app in Hy. apply in_app_iff in Hy as [Hy|Hy]; rewrite map_map in Hy; apply in_map_iff in Hy as (a & Q & _); rewrite flat_app in Q.
      * apply Hb. exists (flat a). rewrite <- Q. reflexivity.
      * apply Hr. exists (flat (camel a)). rewrite <- Q. reflexivity.
  - assert (Cm : forall n, In n m -> identifier (camel n) /\ ~ In (camel n) rust_keywords /\ plain n).
    { intros n Hn. destruct (M n Hn) as (P & S). destruct (H n (Sub n ltac:(apply in_app_iff; now right))) as (_ & _ & I & _). destruct (camel_rust n I P S). auto. }
    assert (B : forall n, In n (ar ++ map camel m)%list -> identifier n).
    { intros n Hn. apply in_app_iff in Hn as [Hn|Hn]; [apply (H n), Sub, in_app_iff; now left|]. apply in_map_iff in Hn as (k & <- & Hk). apply (Cm k Hk). }
    intros n Hn. rewrite !in_app_iff in Hn.
    assert (Hb : In n (type_bases ns) \/ In n (map camel m) \/ In n (map (fun n => n ++ "Builder") (ar ++ map camel m)%list) \/ In n (map (fun n => camel n ++ "Ref") m)).
    { unfold type_bases. fold m ar. rewrite !in_app_iff. tauto. }
    clear Hn. destruct Hb as [Hn|[Hn|[Hn|Hn]]].
    + destruct (H n Hn) as (_ & _ & I & K). auto.
    + apply in_map_iff in Hn as (k & <- & Hk). destruct (Cm k Hk) as (I & K & _). auto.
    + apply in_map_iff in Hn as (k & <- & Hk). split; [now apply append_identifier; [apply B|]|]. apply not_suffixed. reflexivity.
    + apply in_map_iff in Hn as (k & <- & Hk). destruct (Cm k Hk) as (I & _ & P). split; [now apply append_identifier|]. apply not_suffixed. reflexivity.
Qed.
Print Assumptions C94_rust_types_partial.

(** Archives and builders *)
Lemma names_sub a (p q : kind -> bool) : (forall k, q k = true -> p k = true) -> incl (names_like a q) (names_like a p) /\ (NoDup (names_like a p) -> NoDup (names_like a q)).
Proof.
  intros H. unfold names_like, children_like. assert (I : forall l : list tree, incl (map t_name (filter (fun c => q (t_kind c)) l)) (map t_name (filter (fun c => p (t_kind c)) l))).
  { intros l n Hn. apply in_map_iff in Hn as (c & <- & Hc). apply filter_In in Hc as (Hc & Q). apply in_map, filter_In. auto. }
  split; [apply I|]. induction (t_children a) as [|c l IH]; cbn; [auto|]. destruct (q (t_kind c)) eqn:Q.
  - rewrite (H _ Q). cbn. intros N. inversion N as [|? ? Nc N']; subst. constructor; [intros X; apply Nc; now apply I|auto].
  - destruct (p (t_kind c)); [|auto]. cbn. intros N. inversion N; subst. auto.
Qed.
Lemma set_supported k : can_set k = true -> is_supported k = true.
Proof. destruct k as [| | | | | | | |[]| |]; cbn; congruence. Qed.
Lemma start_supported k : can_start k = true -> is_supported k = true.
Proof. destruct k as [| | | | | | | |[]| |]; cbn; congruence. Qed.
Lemma sub_supported k : is_sub k = true -> is_supported k = true.
Proof. destruct k as [| | | | | | | |[]| |]; cbn; congruence. Qed.
Lemma upper_one s : upper s = "_" -> s = "_".
Proof. destruct s as [|c [|d s]]; try discriminate. cbn [upper]. intros [= H]. f_equal. apply Ascii.eqb_eq. rewrite <- under_upper. now apply Ascii.eqb_eq. Qed.
Theorem C94_rust_archive_partial : forall a, apart (resource_names a) ->
  (forall n, In n (resource_names a) -> identifier n /\ ~ In n rust_keywords /\ ~ In n rust_archive_taken /\ ~ starts "set_" n /\ ~ starts "start_" n) ->
  usable rust_keywords (rust_archive_fields a) /\ usable rust_keywords (rust_archive_methods a) /\ usable rust_keywords (rust_open_variables a)
  /\ usable rust_keywords (rust_builder_methods a) /\ usable rust_keywords (rust_schema_constants a).
Proof.
  intros a A H. pose proof (apart_distinct _ A) as N.
  assert (Own : forall l, incl l rust_archive_taken -> NoDup l -> forallb (okb rust_keywords) l = true -> usable rust_keywords (l ++ resource_names a)%list).
  { intros l I D O. split.
    - apply distinct_app; auto. intros x Hx Hy. destruct (H x Hy) as (_ & _ & T & _). apply T. now apply I.
    - intros n Hn. apply in_app_iff in Hn as [Hn|Hn]; [now apply (fixed_ok _ _ O)|]. destruct (H n Hn) as (Id & K & _). auto. }
  split; [|split; [|split; [|split]]].
  - change (rust_archive_fields a) with (["_storage"] ++ resource_names a)%list. apply Own; [intros x; cbn; tauto|repeat constructor; cbn; intuition discriminate|reflexivity].
  - apply Own; [intros x; cbn; tauto|repeat constructor; cbn; intuition discriminate|reflexivity].
  - apply Own; [intros x; cbn; tauto|repeat constructor; cbn; intuition discriminate|reflexivity].
  - unfold rust_builder_methods. destruct (names_sub a _ _ set_supported) as (I1 & D1). destruct (names_sub a _ _ start_supported) as (I2 & D2). destruct (names_sub a _ _ sub_supported) as (I3 & D3).
    change (names_like a is_supported) with (resource_names a) in *. specialize (D1 N). specialize (D2 N). specialize (D3 N). split.
    + constructor.
      * rewrite !in_app_iff. intros [X|[X|X]]; [apply in_map_iff in X as (n & Q & _); discriminate|apply in_map_iff in X as (n & Q & _); discriminate|]. destruct (H _ (I3 _ X)) as (_ & _ & T & _). apply T. cbn. tauto.
      * apply distinct_app; [apply distinct_map; [intros x y _ _; apply app_same_prefix|exact D1]|apply distinct_app; [apply distinct_map; [intros x y _ _; apply app_same_prefix|exact D2]|exact D3|]|].
        -- intros x Hx Hy. apply in_map_iff in Hx as (n & <- & _). destruct (H _ (I3 _ Hy)) as (_ & _ & _ & _ & S). apply S. now eexists.
        -- intros x Hx Hy. apply in_map_iff in Hx as (n & <- & _). apply in_app_iff in Hy as [Hy|Hy]; [apply in_map_iff in Hy as (k & Q & _); discriminate|]. destruct (H _ (I3 _ Hy)) as (_ & _ & _ & S & _). apply S. now eexists.
    + intros n [<-|Hn]; [now apply (fixed_ok rust_keywords ["new"] ltac:(reflexivity)); left|]. rewrite !in_app_iff in Hn. destruct Hn as [Hn|[Hn|Hn]].
      * apply in_map_iff in Hn as (k & <- & Hk). destruct (H _ (I1 _ Hk)) as (Id & _). split; [apply prefix_identifier; [split; reflexivity|exact Id]|]. apply not_prefixed. reflexivity.
      * apply in_map_iff in Hn as (k & <- & Hk). destruct (H _ (I2 _ Hk)) as (Id & _). split; [apply prefix_identifier; [split; reflexivity|exact Id]|]. apply not_prefixed. reflexivity.
      * destruct (H _ (I3 _ Hn)) as (Id & K & _). auto.
  - split; [apply flat_distinct; [apply flat_upper|exact A]|]. intros n Hn. apply in_map_iff in Hn as (k & <- & Hk). destruct (H _ Hk) as (Id & K & _). split; [now apply upper_identifier|].
    intros X. apply upper_rust, upper_one in X. apply K. rewrite X. cbn. tauto.
Qed.
Print Assumptions C94_rust_archive_partial.
Lemma lower_upper s : every (fun c => negb (is_upper c)) (lower s) = true.
Proof.
  induction s as [|c s IH]; [reflexivity|]. cbn [lower every]. rewrite IH, andb_true_r. revert c. apply (all_chars (fun c => negb (is_upper (lower_char c)))). vm_compute. reflexivity.
Qed.
Theorem C94_rust_modules_partial : forall ns, apart (names_like ns is_archive) -> (forall n, In n (names_like ns is_archive) -> identifier n /\ plain n /\ ~ In (flat n) rust_keywords) ->
  usable rust_keywords (rust_schema_modules ns).
Proof.
  intros ns A H. split; [apply flat_distinct; [apply flat_snake|exact A]|]. intros n Hn. apply in_map_iff in Hn as (k & <- & Hk). destruct (H k Hk) as (I & P & K). split; [now apply snake_identifier|]. intros X.
  pose proof (members (fun w => negb (every (fun c => negb (is_upper c)) w) || String.eqb w "_" || String.eqb (flat w) w) rust_keywords ltac:(vm_compute; reflexivity) _ X) as Y. cbn beta in Y.
  unfold snake at 1 in Y. rewrite lower_upper in Y. cbn [negb orb] in Y. apply orb_true_iff in Y as [Y|Y]; apply String.eqb_eq in Y.
  - apply (plain_flat k P). now rewrite <- flat_snake, Y.
  - apply K. now rewrite <- flat_snake, Y.
Qed.

(** ** C++ *)
Lemma suffixed_short p q : (String.length q < String.length p)%nat -> suffixed p q = false.
Proof.
  induction q as [|c q IH]; intros L; cbn [suffixed].
  - destruct p; [cbn in L; lia|reflexivity].
  - rewrite IH by (cbn in L; lia). destruct (String.eqb_spec (String c q) p) as [<-|]; [lia|reflexivity].
Qed.
Lemma suffixed_trim p q a : (String.length p <= String.length q)%nat -> suffixed p (a ++ q) = suffixed p q.
Proof.
  intros L. induction a as [|c a IH]; [reflexivity|]. cbn [append suffixed]. rewrite IH. destruct (String.eqb_spec (String c (a ++ q)) p) as [E|]; [|reflexivity].
  apply (f_equal String.length) in E. cbn [String.length] in E. rewrite length_app in E. lia.
Qed.
Lemma not_both p q a b : (String.length p <= String.length q)%nat -> suffixed p q = false -> a ++ p <> b ++ q.
Proof. intros L H E. pose proof (suffixed_app p a) as X. rewrite E, suffixed_trim in X by exact L. congruence. Qed.
Lemma typedef_flat n s : flat (typedef n s) = flat n ++ flat s ++ "type".
Proof. unfold typedef. rewrite !flat_app, flat_camel. reflexivity. Qed.
Lemma typedef_ok n s : identifier n -> plain n -> every ok_char s = true -> identifier (typedef n s) /\ ~ In (typedef n s) cpp_keywords.
Proof.
  intros I P E. unfold typedef. split; [apply append_identifier; [now apply camel_identifier|rewrite every_app, E; reflexivity]|]. apply capital_cpp. now apply camel_capital.
Qed.
Lemma typedef_capital n s : plain n -> capital (typedef n s) = true.
Proof. apply camel_capital. Qed.
Lemma not_capital l x : forallb (fun k => negb (capital k)) l = true -> capital x = true -> ~ In x l.
Proof. intros H C X. pose proof (members _ _ H _ X) as Y. cbn beta in Y. now rewrite C in Y. Qed.
(** Structures *)
Theorem C94_cpp_struct_partial : forall t,
  let ms := (field_names t ++ range_names t)%list in
  apart ms -> identifier (t_name t) ->
  (forall n, In n ms -> identifier n /\ plain n /\ ~ In n cpp_keywords /\ ~ In n cpp_struct_taken /\ ~ In (flat n) ["stream"; "mutator"; "accessor"] /\ n <> t_name t ++ "Template") ->
  (forall n m, In n ms -> In m ms -> flat m <> flat n ++ "type") ->
  usable cpp_keywords (cpp_members t).
Proof.
  intros t ms A It H Ty. pose proof (apart_distinct _ A) as N. unfold cpp_members. fold ms.
  set (own := ["Member"; "StreamType"; "MutatorType"; "AccessorType"; "data"; "schema"; "name"; "size_in_bytes"; "to_string"; "describe"; "IS_OVERLAPPING_WITH_NEXT"; "_data"]).
  assert (Fx : forall x, In x ["Member"; t_name t ++ "Template"; "StreamType"; "MutatorType"; "AccessorType"; "data"; "schema"; "name"; "size_in_bytes"; "to_string"; "describe"; "IS_OVERLAPPING_WITH_NEXT"; "_data"] -> In x own \/ x = t_name t ++ "Template").
  { intros x. cbn [In]. unfold own. cbn [In]. intuition (subst; auto). }
  assert (Tp : forall l x, x = t_name t ++ "Template" -> forallb (fun k => negb (suffixed "Template" k)) l = true -> ~ In x l) by (intros l x -> Hl; now apply not_suffixed).
  split.
  - apply distinct_app; [|apply distinct_app; [exact N| |]|].
    + apply NoDup_cons_iff. split; [|apply NoDup_cons_iff; split].
      * intros [X|X]; [|cbn in X; intuition discriminate]. apply (Tp ["Member"] "Member"); [now symmetry|reflexivity|now left].
      * apply Tp; reflexivity.
      * repeat (constructor; [cbn; intuition discriminate|]); constructor.
    + apply (NoDup_map_inv flat). rewrite map_map. assert (Q : map (fun x => flat (typedef x "")) ms = map (fun x => x ++ "type") (map flat ms)) by (rewrite map_map; apply map_ext; intros x; apply typedef_flat).
      rewrite Q. apply distinct_map; [intros a b _ _; apply app_same_suffix|exact A].
    + intros x Hx Hy. apply in_map_iff in Hy as (n & <- & Hn). apply (Ty n _ Hn Hx). apply typedef_flat.
    + intros x Hx Hy. apply in_app_iff in Hy as [Hy|Hy].
      * destruct (H x Hy) as (_ & _ & _ & T & _ & Nt). destruct (Fx x Hx) as [X|X]; [apply T; exact X|contradiction].
      * apply in_map_iff in Hy as (n & <- & Hn). destruct (H n Hn) as (_ & P & _ & _ & S & _). destruct (Fx _ Hx) as [X|X].
        -- pose proof (members (fun k => negb (suffixed "Type" k) || existsb (String.eqb (flat k)) ["streamtype"; "mutatortype"; "accessortype"]) own ltac:(vm_compute; reflexivity) _ X) as Y. cbn beta in Y.
           unfold typedef at 1 in Y. cbn [append] in Y. rewrite suffixed_app in Y. cbn [negb orb] in Y. rewrite typedef_flat in Y. apply existsb_exists in Y as (k & Hk & Q). apply String.eqb_eq in Q. cbn [flat append] in Q. apply S.
           destruct Hk as [<-|[<-|[<-|[]]]]; [change "streamtype" with ("stream" ++ "type") in Q|change "mutatortype" with ("mutator" ++ "type") in Q|change "accessortype" with ("accessor" ++ "type") in Q]; apply app_same_suffix in Q; rewrite Q; cbn; tauto.
        -- unfold typedef in X. cbn [append] in X. revert X. apply not_both; [cbn; lia|reflexivity].
  - intros n Hn. apply in_app_iff in Hn as [Hn|Hn]; [|apply in_app_iff in Hn as [Hn|Hn]].
    + destruct (Fx n Hn) as [X| ->]; [now apply (fixed_ok cpp_keywords own ltac:(vm_compute; reflexivity))|]. split; [now apply append_identifier|]. apply not_suffixed. reflexivity.
    + destruct (H n Hn) as (I & _ & K & _). auto.
    + apply in_map_iff in Hn as (m & <- & Hm). destruct (H m Hm) as (I & P & _). now apply typedef_ok.
Qed.
Print Assumptions C94_cpp_struct_partial.

(** Archives and builders *)
Lemma own_low l x : forallb (fun k => negb (capital k)) l = true -> In x l -> capital x = true -> False.
Proof. intros H X C. exact (not_capital l x H C X). Qed.
Lemma simple_supported k : is_simple k = true -> is_supported k = true.
Proof. unfold is_simple. intros H. apply orb_true_iff in H as [H|H]; [now apply set_supported|now apply start_supported]. Qed.
Lemma typedefs_distinct l s : apart l -> NoDup (map (fun n => typedef n s) l).
Proof.
  intros A. apply (NoDup_map_inv flat). rewrite map_map. assert (Q : map (fun x => flat (typedef x s)) l = map (fun x => x ++ flat s ++ "type") (map flat l)) by (rewrite map_map; apply map_ext; intros x; apply typedef_flat).
  rewrite Q. apply distinct_map; [intros a b _ _; apply app_same_suffix|exact A].
Qed.
Theorem C94_cpp_archive_partial : forall a, apart (resource_names a) ->
  (forall n, In n (resource_names a) -> identifier n /\ plain n /\ ~ In n cpp_keywords /\ ~ In n cpp_archive_taken /\ ~ starts "m_" n /\ ~ starts "set_" n /\ ~ starts "start_" n) ->
  (forall n m, In n (resource_names a) -> In m (resource_names a) -> flat m <> flat n ++ "type" /\ flat m <> flat n ++ "reader" /\ flat m <> flat n ++ "readertype") ->
  identifier (t_name a) -> ~ In (t_name a) cpp_keywords -> ~ In (t_name a) cpp_archive_taken ->
  (forall s, In s [""; "Builder"] -> ~ In (t_name a ++ s) (resource_names a) /\ ~ starts "m_" (t_name a ++ s) /\ ~ starts "set_" (t_name a ++ s) /\ ~ starts "start_" (t_name a ++ s)) ->
  (forall n, In n (resource_names a) -> flat (t_name a) <> flat n ++ "type") ->
  usable cpp_keywords (cpp_archive_members a) /\ usable cpp_keywords (cpp_builder_members a).
Proof.
  intros a A H Ty Ia Ka Ta Sa Ya. pose proof (apart_distinct _ A) as N.
  destruct (Sa "" ltac:(now left)) as (Sa1 & Sa2 & _). rewrite app_nil_s in Sa1, Sa2. destruct (Sa "Builder" ltac:(right; now left)) as (Sb1 & Sb2 & Sb3 & Sb4).
  assert (Pl : forall n, In n (resource_names a) -> plain n) by (intros n Hn; now apply H).
  assert (Low : forall n l, plain n -> forall s, forallb (fun k => negb (capital k)) l = true -> ~ In (typedef n s) l) by (intros n l P s Hl; apply not_capital; [exact Hl|now apply typedef_capital]).
  assert (Pre : forall n s p m, plain n -> capital p = false -> p <> "" -> typedef n s <> p ++ m).
  { intros n s p m P C E X. pose proof (typedef_capital n s P) as Y. rewrite X in Y. destruct p; [contradiction|]. cbn in *. congruence. }
  split.
  - unfold cpp_archive_members. set (rs := resource_names a) in *. split.
    + constructor.
      * rewrite !in_app_iff. intros [X|[X|[X|X]]].
        -- pose proof (members (fun k => existsb (String.eqb k) cpp_archive_taken || prefixed "m_" k) cpp_archive_own ltac:(vm_compute; reflexivity) _ X) as Y. cbn beta in Y. apply orb_true_iff in Y as [Y|Y].
           ++ apply existsb_exists in Y as (k & Hk & Q). apply String.eqb_eq in Q. now subst.
           ++ apply Sa2. now apply prefixed_starts.
        -- contradiction.
        -- apply in_map_iff in X as (n & Q & Hn). apply (Ya n Hn). rewrite <- Q. apply typedef_flat.
        -- apply in_map_iff in X as (n & Q & Hn). apply Sa2. exists n. now symmetry.
      * apply distinct_app; [repeat (constructor; [cbn; intuition discriminate|]); constructor|apply distinct_app; [exact N|apply distinct_app|]|].
        -- now apply typedefs_distinct.
        -- apply distinct_map; [intros x y _ _; apply app_same_prefix|exact N].
        -- intros x Hx Hy. apply in_map_iff in Hx as (n & <- & Hn). apply in_map_iff in Hy as (m & Q & _). symmetry in Q. revert Q. apply Pre; [now apply Pl|reflexivity|discriminate].
        -- intros x Hx Hy. apply in_app_iff in Hy as [Hy|Hy]; apply in_map_iff in Hy as (n & <- & Hn).
           ++ destruct (Ty n _ Hn Hx) as (X & _). apply X. apply typedef_flat.
           ++ destruct (H _ Hx) as (_ & _ & _ & _ & M & _). apply M. now exists n.
        -- intros x Hx Hy. rewrite !in_app_iff in Hy. destruct Hy as [Hy|[Hy|Hy]].
           ++ destruct (H x Hy) as (_ & _ & _ & T & M & _). pose proof (members (fun k => existsb (String.eqb k) cpp_archive_taken || prefixed "m_" k) cpp_archive_own ltac:(vm_compute; reflexivity) _ Hx) as Y. cbn beta in Y. apply orb_true_iff in Y as [Y|Y].
              ** apply existsb_exists in Y as (k & Hk & Q). apply String.eqb_eq in Q. now subst.
              ** apply M. now apply prefixed_starts.
           ++ apply in_map_iff in Hy as (n & <- & Hn). revert Hx. apply Low; [now apply Pl|reflexivity].
           ++ apply in_map_iff in Hy as (n & <- & Hn). destruct (H n Hn) as (_ & _ & _ & T & _).
              assert (Y : In n ["storage"; "signature"; "is_open"]) by (cbn in Hx; repeat (destruct Hx as [Hx|Hx]; [try discriminate Hx; injection Hx as Hx; rewrite <- Hx; cbn; tauto|]); destruct Hx).
              apply T. cbn in Y. cbn. tauto.
    + intros n [<-|Hn]; [auto|]. rewrite !in_app_iff in Hn. destruct Hn as [Hn|[Hn|[Hn|Hn]]].
      * now apply (fixed_ok cpp_keywords cpp_archive_own ltac:(vm_compute; reflexivity)).
      * destruct (H n Hn) as (I & _ & K & _). auto.
      * apply in_map_iff in Hn as (m & <- & Hm). destruct (H m Hm) as (I & P & _). now apply typedef_ok.
      * apply in_map_iff in Hn as (m & <- & Hm). destruct (H m Hm) as (I & _). split; [apply prefix_identifier; [split; reflexivity|exact I]|]. apply not_prefixed. reflexivity.
  - unfold cpp_builder_members. destruct (names_sub a _ _ set_supported) as (I1 & D1). destruct (names_sub a _ _ start_supported) as (I2 & D2). destruct (names_sub a _ _ sub_supported) as (I3 & D3). destruct (names_sub a _ _ simple_supported) as (I4 & D4).
    change (names_like a is_supported) with (resource_names a) in *. specialize (D1 N). specialize (D2 N). specialize (D3 N). specialize (D4 N).
    assert (Ap : apart (names_like a is_simple ++ names_like a is_sub)%list /\ apart (names_like a is_simple)).
    { assert (X : forall (l : list tree) n, In n (map t_name (filter (fun c => is_simple (t_kind c)) l ++ filter (fun c => is_sub (t_kind c)) l)) -> In n (map t_name (filter (fun c => is_supported (t_kind c)) l))).
      { intros l n Hn. apply in_map_iff in Hn as (c & <- & Hc). apply in_map, filter_In. apply in_app_iff in Hc as [Hc|Hc]; apply filter_In in Hc as (Hc & Q); (split; [exact Hc|]); [now apply simple_supported|now apply sub_supported]. }
      assert (Y : forall l : list tree, NoDup (map (fun c => flat (t_name c)) (filter (fun c => is_supported (t_kind c)) l)) -> NoDup (map (fun c => flat (t_name c)) (filter (fun c => is_simple (t_kind c)) l ++ filter (fun c => is_sub (t_kind c)) l))).
      { intros l. induction l as [|c l IH]; [auto|]. cbn [filter].
        assert (Z : forall x, In x (map (fun c => flat (t_name c)) (filter (fun c => is_simple (t_kind c)) l ++ filter (fun c => is_sub (t_kind c)) l)) -> In x (map (fun c => flat (t_name c)) (filter (fun c => is_supported (t_kind c)) l))).
        { intros x Hx. apply in_map_iff in Hx as (d & <- & Hd). apply (in_map (fun c => flat (t_name c))), filter_In. apply in_app_iff in Hd as [Hd|Hd]; apply filter_In in Hd as (Hd & Q); (split; [exact Hd|]); [now apply simple_supported|now apply sub_supported]. }
        destruct (is_simple (t_kind c)) eqn:S.
        - rewrite (simple_supported _ S). assert (U : is_sub (t_kind c) = false) by (destruct (t_kind c) as [| | | | | | | |[]| |]; try reflexivity; discriminate S). rewrite U. cbn [map app]. intros W. inversion W as [|? ? Nw W']; subst. constructor; [intros Q; apply Nw; now apply Z|auto].
        - destruct (is_sub (t_kind c)) eqn:U.
          + rewrite (sub_supported _ U). cbn [map]. intros W. inversion W as [|? ? Nw W']; subst. apply (Permutation_NoDup (l := map (fun c => flat (t_name c)) (c :: filter (fun c => is_simple (t_kind c)) l ++ filter (fun c => is_sub (t_kind c)) l))).
            * apply Permutation_map. apply Permutation_middle.
            * cbn [map]. constructor; [intros Q; apply Nw; now apply Z|auto].
          + destruct (is_supported (t_kind c)); [|exact IH]. cbn [map]. intros W. inversion W; subst. auto. }
      unfold apart, resource_names, supported, names_like, children_like in *. rewrite map_map in A. specialize (Y _ A). rewrite <- map_app, map_map. split; [exact Y|]. rewrite map_map. rewrite map_app in Y. now apply distinct_left in Y. }
    destruct Ap as (Ap1 & Ap2). set (si := names_like a is_simple) in *. set (su := names_like a is_sub) in *. set (se := names_like a can_set) in *. set (sp := names_like a can_start) in *.
    assert (Iss : incl (si ++ su)%list (resource_names a)) by (intros x Hx; apply in_app_iff in Hx as [Hx|Hx]; auto).
    assert (Nsub : forall p x n, In p ["set_"; "start_"; "m_"] -> In x su -> x <> p ++ n).
    { intros p x n Hp Hx E. destruct (H x (I3 x Hx)) as (_ & _ & _ & _ & S1 & S2 & S3). destruct Hp as [<-|[<-|[<-|[]]]]; [apply S2|apply S3|apply S1]; now exists n. }
    split.
    + constructor.
      * rewrite !in_app_iff. intros [X|[X|[X|[X|[X|[X|X]]]]]].
        -- revert X. apply not_suffixed. reflexivity.
        -- apply in_map_iff in X as (n & Q & Hn). symmetry in Q. unfold typedef in Q. cbn [append] in Q. symmetry in Q. revert Q. apply not_both; [cbn; lia|reflexivity].
        -- apply in_map_iff in X as (n & Q & Hn). unfold typedef in Q. rewrite <- app_assoc_s in Q. revert Q. apply not_both; [cbn; lia|reflexivity].
        -- apply in_map_iff in X as (n & Q & Hn). apply Sb3. exists n. now symmetry.
        -- apply in_map_iff in X as (n & Q & Hn). apply Sb4. exists n. now symmetry.
        -- apply Sb1. now apply I3.
        -- apply in_map_iff in X as (n & Q & Hn). apply Sb2. exists n. now symmetry.
      * apply distinct_app; [repeat (constructor; [cbn; intuition discriminate|]); constructor|apply distinct_app; [now apply typedefs_distinct|apply distinct_app; [now apply typedefs_distinct|apply distinct_app;
          [apply distinct_map; [intros x y _ _; apply app_same_prefix|exact D1]|apply distinct_app; [apply distinct_map; [intros x y _ _; apply app_same_prefix|exact D2]|apply distinct_app; [exact D3|apply distinct_map; [intros x y _ _; apply app_same_prefix|exact D3]|]|]|]|]|]|].
        -- intros x Hx Hy. apply in_map_iff in Hy as (n & <- & Hn). now apply (Nsub "m_" _ n ltac:(cbn; tauto) Hx).
        -- intros x Hx Hy. apply in_map_iff in Hx as (n & <- & Hn). apply in_app_iff in Hy as [Hy|Hy]; [now apply (Nsub "start_" _ n ltac:(cbn; tauto) Hy)|]. apply in_map_iff in Hy as (m & Q & _). discriminate Q.
        -- intros x Hx Hy. apply in_map_iff in Hx as (n & <- & Hn). rewrite !in_app_iff in Hy. destruct Hy as [Hy|[Hy|Hy]]; [apply in_map_iff in Hy as (m & Q & _); discriminate Q|now apply (Nsub "set_" _ n ltac:(cbn; tauto) Hy)|apply in_map_iff in Hy as (m & Q & _); discriminate Q].
        -- intros x Hx Hy. apply in_map_iff in Hx as (n & <- & Hn). pose proof (Pl n (I4 n Hn)) as P. rewrite !in_app_iff in Hy. destruct Hy as [Hy|[Hy|[Hy|Hy]]].
           ++ apply in_map_iff in Hy as (m & Q & _). symmetry in Q. revert Q. now apply Pre.
           ++ apply in_map_iff in Hy as (m & Q & _). symmetry in Q. revert Q. now apply Pre.
           ++ destruct (Ty n _ (I4 n Hn) (I3 _ Hy)) as (_ & _ & X). apply X. apply typedef_flat.
           ++ apply in_map_iff in Hy as (m & Q & _). symmetry in Q. revert Q. now apply Pre.
        -- intros x Hx Hy. apply in_map_iff in Hx as (n & <- & Hn). pose proof (Pl n (Iss n Hn)) as P. rewrite !in_app_iff in Hy. destruct Hy as [Hy|[Hy|[Hy|[Hy|Hy]]]].
           ++ apply in_map_iff in Hy as (m & Q & Hm). apply (f_equal flat) in Q. rewrite !typedef_flat in Q. cbn [flat append] in Q. change (flat "Reader") with "reader" in Q. rewrite <- app_assoc_s in Q. apply app_same_suffix in Q.
              destruct (Ty m n (I4 m Hm) (Iss n Hn)) as (_ & X & _). apply X. now symmetry.
           ++ apply in_map_iff in Hy as (m & Q & _). symmetry in Q. revert Q. now apply Pre.
           ++ apply in_map_iff in Hy as (m & Q & _). symmetry in Q. revert Q. now apply Pre.
           ++ destruct (Ty n _ (Iss n Hn) (I3 _ Hy)) as (X & _). apply X. apply typedef_flat.
           ++ apply in_map_iff in Hy as (m & Q & _). symmetry in Q. revert Q. now apply Pre.
        -- intros x Hx Hy. rewrite !in_app_iff in Hy. destruct Hy as [Hy|[Hy|[Hy|[Hy|[Hy|Hy]]]]].
           ++ apply in_map_iff in Hy as (n & <- & Hn). revert Hx. apply Low; [apply Pl; now apply Iss|reflexivity].
           ++ apply in_map_iff in Hy as (n & <- & Hn). revert Hx. apply Low; [apply Pl; now apply I4|reflexivity].
           ++ apply in_map_iff in Hy as (n & <- & Hn). revert Hx. apply not_prefixed. reflexivity.
           ++ apply in_map_iff in Hy as (n & <- & Hn). revert Hx. apply not_prefixed. reflexivity.
           ++ destruct (H x (I3 x Hy)) as (_ & _ & _ & T & M & _). pose proof (members (fun k => existsb (String.eqb k) cpp_archive_taken || prefixed "m_" k) cpp_builder_own ltac:(vm_compute; reflexivity) _ Hx) as Y. cbn beta in Y. apply orb_true_iff in Y as [Y|Y].
              ** apply existsb_exists in Y as (k & Hk & Q). apply String.eqb_eq in Q. now subst.
              ** apply M. now apply prefixed_starts.
           ++ apply in_map_iff in Hy as (n & <- & Hn). destruct (H n (I3 n Hn)) as (_ & _ & _ & T & _).
              assert (Y : In n ["storage"; "created"]) by (cbn in Hx; repeat (destruct Hx as [Hx|Hx]; [try discriminate Hx; injection Hx as Hx; rewrite <- Hx; cbn; tauto|]); destruct Hx).
              apply T. cbn in Y. cbn. tauto.
    + assert (Pi : forall p m, In m (resource_names a) -> identifier p -> forallb (fun k => negb (prefixed p k)) cpp_keywords = true -> identifier (p ++ m) /\ ~ In (p ++ m) cpp_keywords).
      { intros p m Hm Ip Kp. split; [apply prefix_identifier; [exact Ip|now apply H]|]. now apply not_prefixed. }
      intros n [<-|Hn]; [split; [now apply append_identifier|apply not_suffixed; reflexivity]|]. rewrite !in_app_iff in Hn. destruct Hn as [Hn|[Hn|[Hn|[Hn|[Hn|[Hn|Hn]]]]]].
      * now apply (fixed_ok cpp_keywords cpp_builder_own ltac:(vm_compute; reflexivity)).
      * apply in_map_iff in Hn as (m & <- & Hm). destruct (H m (Iss m Hm)) as (I & P & _). now apply typedef_ok.
      * apply in_map_iff in Hn as (m & <- & Hm). destruct (H m (I4 m Hm)) as (I & P & _). now apply typedef_ok.
      * apply in_map_iff in Hn as (m & <- & Hm). apply Pi; [now apply I1|split; reflexivity|reflexivity].
      * apply in_map_iff in Hn as (m & <- & Hm). apply Pi; [now apply I2|split; reflexivity|reflexivity].
      * destruct (H n (I3 n Hn)) as (I & _ & K & _). auto.
      * apply in_map_iff in Hn as (m & <- & Hm). apply Pi; [now apply I3|split; reflexivity|reflexivity].
Qed.
Print Assumptions C94_cpp_archive_partial.

(** Namespaces *)
Definition definitions (ns : tree) : list string := (names_like ns is_module ++ names_like ns is_constant ++ names_like ns is_enum ++ names_like ns is_structure ++ names_like ns is_archive)%list.
Theorem C94_cpp_namespace_partial : forall ns, NoDup (definitions ns) ->
  (forall n, In n (definitions ns) -> identifier n /\ ~ In n cpp_keywords /\ ~ In n ["to_string"; "internal"] /\ ~ ends "Template" n /\ ~ ends "Mutator" n /\ ~ ends "Builder" n) ->
  usable cpp_keywords (cpp_names ns).
Proof.
  intros ns N H. unfold cpp_names. set (st := names_like ns is_structure) in *. set (ar := names_like ns is_archive) in *.
  assert (Is : forall n, In n st -> In n (definitions ns)) by (intros n Hn; unfold definitions; fold st ar; rewrite !in_app_iff; tauto).
  assert (Ia : forall n, In n ar -> In n (definitions ns)) by (intros n Hn; unfold definitions; fold st ar; rewrite !in_app_iff; tauto).
  assert (Ns : NoDup st) by (unfold definitions in N; fold st ar in N; do 3 apply distinct_right in N; now apply distinct_left in N).
  assert (Na : NoDup ar) by (unfold definitions in N; fold st ar in N; do 4 apply distinct_right in N; exact N).
  set (ds := (map (fun n => n ++ "Template")%string st ++ map (fun n => n ++ "Mutator")%string st ++ map (fun n => n ++ "Builder")%string ar)%list).
  assert (E : (["to_string"; "internal"] ++ names_like ns is_module ++ names_like ns is_constant ++ names_like ns is_enum ++ st ++ ar ++ ds)%list = (["to_string"; "internal"] ++ definitions ns ++ ds)%list).
  { unfold definitions. fold st ar. now rewrite <- !app_assoc. }
  rewrite E. clear E.
  assert (Ds : forall x, In x ds -> exists n s, x = n ++ s /\ In s ["Template"; "Mutator"; "Builder"] /\ In n (definitions ns)).
  { intros x Hx. unfold ds in Hx. rewrite !in_app_iff in Hx. destruct Hx as [Hx|[Hx|Hx]]; apply in_map_iff in Hx as (n & <- & Hn); eexists _, _; (split; [reflexivity|]); split; auto; cbn; tauto. }
  split.
  - apply distinct_app; [repeat (constructor; [cbn; intuition discriminate|]); constructor|apply distinct_app; [exact N| |]|].
    + unfold ds. apply distinct_app; [apply distinct_map; [intros x y _ _; apply app_same_suffix|exact Ns]|apply distinct_app; [apply distinct_map; [intros x y _ _; apply app_same_suffix|exact Ns]|apply distinct_map; [intros x y _ _; apply app_same_suffix|exact Na]|]|].
      * intros x Hx Hy. apply in_map_iff in Hx as (n & <- & _). apply in_map_iff in Hy as (m & Q & _). symmetry in Q. revert Q. apply not_both; [cbn; lia|reflexivity].
      * intros x Hx Hy. apply in_map_iff in Hx as (n & <- & _). apply in_app_iff in Hy as [Hy|Hy]; apply in_map_iff in Hy as (m & Q & _); revert Q; apply not_both; (cbn; lia) || reflexivity.
    + intros x Hx Hy. destruct (Ds x Hy) as (n & s & -> & Hs & _). destruct (H _ Hx) as (_ & _ & _ & T & M & B). destruct Hs as [<-|[<-|[<-|[]]]]; [apply T|apply M|apply B]; now exists n.
    + intros x Hx Hy. apply in_app_iff in Hy as [Hy|Hy]; [destruct (H x Hy) as (_ & _ & X & _); now apply X|]. destruct (Ds x Hy) as (n & s & -> & Hs & _). destruct Hs as [<-|[<-|[<-|[]]]]; revert Hx; apply not_suffixed; reflexivity.
  - intros x Hx. rewrite !in_app_iff in Hx. destruct Hx as [Hx|[Hx|Hx]].
    + now apply (fixed_ok cpp_keywords ["to_string"; "internal"] ltac:(vm_compute; reflexivity)).
    + destruct (H x Hx) as (I & K & _). auto.
    + destruct (Ds x Hx) as (n & s & -> & Hs & Hn). destruct (H n Hn) as (I & _). destruct Hs as [<-|[<-|[<-|[]]]]; (split; [now apply append_identifier|apply not_suffixed; reflexivity]).
Qed.
Print Assumptions C94_cpp_namespace_partial.

(** The schemas in C++ *)
Lemma split_double a : forall b r s, ~ doubled a -> ~ doubled b -> ~ ends "_" a -> ~ ends "_" b -> plain r -> plain s -> a ++ "__" ++ r = b ++ "__" ++ s -> a = b /\ r = s.
Proof.
  assert (Z : forall b r s, ~ doubled b -> ~ ends "_" b -> "__" ++ r = b ++ "__" ++ s -> b = "").
  { intros b r s D L E. destruct b as [|c [|d b]]; [reflexivity| |].
    - cbn in E. injection E as <- _. destruct L. now exists "".
    - cbn in E. injection E as <- <- _. destruct D. now exists "", b. }
  induction a as [|c a IH]; intros b r s Da Db La Lb Pr Ps E.
  - pose proof (Z b r s Db Lb E) as ->. split; [reflexivity|]. cbn in E. now injection E.
  - destruct b as [|d b]; [symmetry in E; discriminate (Z _ s r Da La E)|]. cbn [append] in E. injection E as -> E.
    assert (Sd : forall x, ~ doubled (String d x) -> ~ doubled x) by (intros x X (u & v & ->); apply X; now exists (String d u), v).
    assert (Se : forall x, ~ ends "_" (String d x) -> ~ ends "_" x) by (intros x X (u & ->); apply X; now exists (String d u)).
    destruct (IH b r s (Sd _ Da) (Sd _ Db) (Se _ La) (Se _ Lb) Pr Ps E) as (-> & ->). auto.
Qed.
Theorem C94_cpp_schemas_partial : forall ns, NoDup (names_like ns is_structure ++ names_like ns is_archive)%list -> (forall a, In a (children_like ns is_archive) -> NoDup (resource_names a)) ->
  (forall n, In n (names_like ns is_structure ++ names_like ns is_archive)%list -> identifier n /\ ~ doubled n /\ ~ ends "_" n) ->
  (forall a n, In a (children_like ns is_archive) -> In n (resource_names a) -> identifier n /\ plain n) ->
  usable cpp_keywords (cpp_internal ns).
Proof.
  intros ns N Nr H R. unfold cpp_internal. set (bs := (names_like ns is_structure ++ names_like ns is_archive)%list) in *.
  assert (Ia : forall a, In a (children_like ns is_archive) -> In (t_name a) bs) by (intros a Ha; apply in_app_iff; right; now apply in_map).
  split.
  - apply distinct_app; [apply distinct_map; [intros x y _ _; apply app_same_suffix|exact N]| |].
    + assert (Nn : NoDup (map t_name (children_like ns is_archive))) by (now apply distinct_right in N).
      induction (children_like ns is_archive) as [|a l IH]; [constructor|]. cbn [flat_map map] in *. inversion Nn as [|? ? Na Nn']; subst. apply distinct_app.
      * apply distinct_map; [|apply Nr; now left]. intros x y _ _ E. apply app_same_prefix, app_same_prefix, app_same_suffix in E. exact E.
      * apply IH; auto; [intros b Hb; apply Nr; now right|intros b n Hb; apply (R b n); now right|intros b Hb; apply Ia; now right].
      * intros x Hx Hy. apply in_map_iff in Hx as (n & <- & Hn). apply in_flat_map in Hy as (b & Hb & Hy). apply in_map_iff in Hy as (m & Q & Hm).
        assert (Q' : t_name b ++ "__" ++ m = t_name a ++ "__" ++ n) by (apply (app_same_suffix "__schema__"); rewrite !app_assoc_s; exact Q).
        destruct (H _ (Ia b ltac:(now right))) as (_ & D1 & L1). destruct (H _ (Ia a ltac:(now left))) as (_ & D2 & L2). destruct (R b m ltac:(now right) Hm) as (_ & P1). destruct (R a n ltac:(now left) Hn) as (_ & P2).
        destruct (split_double _ _ _ _ D1 D2 L1 L2 P1 P2 Q') as (X & _). apply Na. rewrite <- X. now apply in_map.
    + intros x Hx Hy. apply in_map_iff in Hx as (n & <- & Hn). apply in_flat_map in Hy as (b & Hb & Hy). apply in_map_iff in Hy as (m & Q & Hm). destruct (H n Hn) as (_ & D & _). apply D. exists (t_name b), m.
      apply (app_same_suffix "__schema__"). rewrite !app_assoc_s. now symmetry.
  - intros x Hx. apply in_app_iff in Hx as [Hx|Hx].
    + apply in_map_iff in Hx as (n & <- & Hn). destruct (H n Hn) as (I & _). split; [now apply append_identifier|apply not_suffixed; reflexivity].
    + apply in_flat_map in Hx as (b & Hb & Hy). apply in_map_iff in Hy as (m & <- & Hm). destruct (H _ (Ia b Hb)) as (I & _). destruct (R b m Hb Hm) as ((_ & Im) & _). split.
      * apply append_identifier; [exact I|]. rewrite !every_app. fold ok_char in Im. change (every ok_char m = true) in Im. rewrite Im. reflexivity.
      * rewrite <- !app_assoc_s. apply not_suffixed. reflexivity.
Qed.
Print Assumptions C94_cpp_schemas_partial.

(** ** Schemas the generator accepts whose code does not compile *)
Fixpoint distinctb (l : list string) : bool := match l with [] => true | x :: l => negb (existsb (String.eqb x) l) && distinctb l end.
Definition usableb (kw l : list string) : bool := distinctb l && forallb (okb kw) l.
Lemma existsb_in x l : existsb (String.eqb x) l = true <-> In x l.
Proof. rewrite existsb_exists. split; [intros (y & Hy & E); apply String.eqb_eq in E; now subst|intros H; exists x; split; [exact H|apply String.eqb_refl]]. Qed.
Lemma distinctb_spec l : distinctb l = true <-> NoDup l.
Proof.
  induction l as [|x l IH]; cbn; [split; [constructor|reflexivity]|]. rewrite andb_true_iff, negb_true_iff, IH. split.
  - intros (A & B). constructor; [|exact B]. now apply in_existsb.
  - intros H. inversion H as [|? ? A B]; subst. split; [|exact B]. destruct (existsb (String.eqb x) l) eqn:E; [|reflexivity]. apply existsb_in in E. contradiction.
Qed.
Lemma usableb_spec kw l : usableb kw l = true <-> usable kw l.
Proof.
  unfold usableb, usable. rewrite andb_true_iff, distinctb_spec. split.
  - intros (A & B). split; [exact A|]. now apply fixed_ok.
  - intros (A & B). split; [exact A|]. apply forallb_forall. intros n Hn. destruct (B n Hn) as ((I & E) & K). unfold okb. change (every ok_char n = true) in E. rewrite E.
    assert (X : existsb (String.eqb n) kw = false) by (destruct (existsb (String.eqb n) kw) eqn:Q; [apply existsb_in in Q; contradiction|reflexivity]). rewrite X. destruct n as [|c n]; [destruct I|]. now rewrite I.
Qed.
From Verif Require Import Grammar Props_GenTree.
Definition scope (text : string) (l : loc) (names : tree -> list string) (kw : list string) : option bool :=
  match build_text same_order text with Ok root => match at_loc root l with Some t => Some (usableb kw (names t)) | None => None end | Err _ => None end.
(** The schema is accepted, and the names of this scope cannot be declared together *)
Definition clashes (text : string) (l : loc) (names : tree -> list string) (kw : list string) : Prop :=
  exists root t, build_text same_order text = Ok root /\ at_loc root l = Some t /\ ~ usable kw (names t).
Definition compiles (text : string) (l : loc) (names : tree -> list string) (kw : list string) : Prop :=
  exists root t, build_text same_order text = Ok root /\ at_loc root l = Some t /\ usable kw (names t).
Lemma scope_spec text l names kw b : scope text l names kw = Some b -> if b then compiles text l names kw else clashes text l names kw.
Proof.
  unfold scope. destruct (build_text same_order text) as [root|] eqn:R; [|discriminate]. destruct (at_loc root l) as [t|] eqn:T; [|discriminate]. intros [= E].
  destruct b; exists root, t; (split; [exact R|]); (split; [exact T|]); [now apply usableb_spec|]. intros U. apply usableb_spec in U. congruence.
Qed.
Definition st (body : string) : string := "namespace n { struct S { " ++ body ++ " } }".
Definition ar (body : string) : string := "namespace n { struct S { x : u8 : 8; } archive A { " ++ body ++ " } }".
Definition variants (t : tree) : list string := rust_variants (map t_name (t_children t)).
Definition enumerators (t : tree) : list string := cpp_enumerators (map t_name (t_children t)).
Theorem C94_rust_refuted :
  (forall b, In b ["new : u8 : 8;"; "set_a : u8 : 8; a : u8 : 8;"; "type : u8 : 8; type_ : u8 : 8;"; "async : u8 : 8;"; "fill_from : u8 : 8;"; "_ : u8 : 8;"] -> clashes (st b) [0;0]%nat rust_methods rust_keywords)
  /\ clashes (st "@range(r) a : u8 : 8; @range(r) b : u8 : 8;") [0;0]%nat rust_methods rust_keywords
  /\ (forall b, In b ["A_B, A__B"; "FOO, foo"; "_1, B"; "SELF, B"] -> clashes ("namespace n { enum E : u8 : 1 { " ++ b ++ " } }") [0;0]%nat variants rust_keywords)
  /\ (forall b, In b ["const u8 AbCdEf = 1; const u8 AbCdef = 2;"; "const u8 a = 1; const u8 A = 1;"] -> clashes ("namespace n { " ++ b ++ " }") [0]%nat rust_constants rust_keywords)
  /\ (forall b, In b ["archive A { } struct ABuilder { x : u8 : 8; }"; "struct S { x : u8 : 8; } archive A { m : multivector<32, S>; } archive B { m : multivector<32, S>; }"; "struct S { x : u8 : 8; } archive A { s : multivector<32, S>; }"; "struct schema { x : u8 : 8; }"; "struct loop { x : u8 : 8; }"] -> clashes ("namespace n { " ++ b ++ " }") [0]%nat rust_types rust_keywords)
  /\ clashes "namespace n { archive Match { } }" [0]%nat rust_schema_modules rust_keywords
  /\ clashes (ar "type : vector<S>;") [0;1]%nat rust_archive_methods rust_keywords
  /\ clashes (ar "open : vector<S>;") [0;1]%nat rust_archive_methods rust_keywords
  /\ clashes (ar "storage : vector<S>;") [0;1]%nat rust_open_variables rust_keywords
  /\ clashes (ar "r : vector<S>; R : raw_data;") [0;1]%nat rust_schema_constants rust_keywords.
Proof.
  assert (F : forall (f : string -> string) (names : tree -> list string) (l : loc) (kw bs : list string), forallb (fun b => match scope (f b) l names kw with Some false => true | _ => false end) bs = true -> forall b, In b bs -> clashes (f b) l names kw).
  { intros f names l kw bs H b Hb. rewrite forallb_forall in H. specialize (H b Hb). cbn beta in H. destruct (scope (f b) l names kw) as [[]|] eqn:E; try discriminate. exact (scope_spec _ _ _ _ _ E). }
  repeat apply conj; try (match goal with |- forall b, In b _ -> clashes (@?f b) _ _ _ => apply (F f) end; vm_compute; reflexivity).
  all: match goal with |- clashes ?a ?b ?c ?d => apply (scope_spec a b c d false) end; vm_compute; reflexivity.
Qed.
Theorem C94_cpp_refuted :
  (forall b, In b ["name : u8 : 8;"; "data : u8 : 8;"; "class : u8 : 8;"; "stream : u8 : 8;"; "ab : u8 : 8; aB : u8 : 8;"; "a : u8 : 8; AType : u8 : 8;"] -> clashes (st b) [0;0]%nat cpp_members cpp_keywords)
  /\ clashes "namespace n { enum E : u8 : 1 { and, B } }" [0;0]%nat enumerators cpp_keywords
  /\ (forall b, In b ["name : vector<S>;"; "open : vector<S>;"; "a_b : vector<S>; a__b : raw_data;"; "a : vector<S>; m_a : raw_data;"; "delete : vector<S>;"] -> clashes (ar b) [0;1]%nat cpp_archive_members cpp_keywords)
  /\ (forall b, In b ["a : vector<S>; a_reader : raw_data;"; "set_a : archive B; a : vector<S>;"] -> clashes ("namespace n { archive B { } struct S { x : u8 : 8; } archive A { " ++ b ++ " } }") [0;2]%nat cpp_builder_members cpp_keywords)
  /\ (forall b, In b ["archive A { } struct ABuilder { x : u8 : 8; }"; "struct A { x : u8 : 8; } struct AMutator { x : u8 : 8; }"; "struct to_string { x : u8 : 8; }"] -> clashes ("namespace n { " ++ b ++ " }") [0]%nat cpp_names cpp_keywords)
  /\ clashes "namespace n { struct A__r { x : u8 : 8; } archive A { r : raw_data; } }" [0]%nat cpp_internal cpp_keywords.
Proof.
  assert (F : forall (f : string -> string) (names : tree -> list string) (l : loc) (kw bs : list string), forallb (fun b => match scope (f b) l names kw with Some false => true | _ => false end) bs = true -> forall b, In b bs -> clashes (f b) l names kw).
  { intros f names l kw bs H b Hb. rewrite forallb_forall in H. specialize (H b Hb). cbn beta in H. destruct (scope (f b) l names kw) as [[]|] eqn:E; try discriminate. exact (scope_spec _ _ _ _ _ E). }
  repeat apply conj; try (match goal with |- forall b, In b _ -> clashes (@?f b) _ _ _ => apply (F f) end; vm_compute; reflexivity).
  all: match goal with |- clashes ?a ?b ?c ?d => apply (scope_spec a b c d false) end; vm_compute; reflexivity.
Qed.

(** ** A schema that meets the conditions *)
Definition demo_text : string :=
  "namespace n { const u16 MAX_SIZE = 300; enum Color : u8 : 2 { RED, DARK_BLUE, LIGHT_GREEN } struct Point { @range(edges) first_edge : u32 : 32; type : u8 : 3; color : Color : 2; }"
  ++ " struct Edge { length : u32 : 20; } archive Sub { payload : raw_data; } archive Graph { points : vector<Point>; all_edges : vector<Edge>; attributes : multivector<33, Edge>; text : raw_data; sub_graph : archive Sub; } }".
Definition demo_root : tree := match build_text same_order demo_text with Ok t => t | Err _ => new_root end.
Definition part (l : loc) : tree := match at_loc demo_root l with Some t => t | None => demo_root end.
Lemma starts_b p n : NameSpec.starts p n -> prefixed p n = true.
Proof. intros (t & ->). apply prefixed_app. Qed.
Lemma ends_b p n : NameSpec.ends p n -> suffixed p n = true.
Proof. intros (t & ->). apply suffixed_app. Qed.
Fixpoint doubledb (s : string) : bool := match s with "" => false | String c t => prefixed "__" s || doubledb t end.
Lemma doubled_b n : NameSpec.doubled n -> doubledb n = true.
Proof. intros (a & b & ->). induction a as [|c a IH]; [cbn [append doubledb]; change (String "_" (String "_" b)) with ("__" ++ b)%string; now rewrite prefixed_app|]. change (prefixed "__" (String c (a ++ ("__" ++ b))) || doubledb (a ++ ("__" ++ b)) = true). rewrite IH. apply orb_true_r. Qed.
Ltac refute := let H := fresh in intros H;
  lazymatch type of H with
  | NameSpec.starts _ _ => apply starts_b in H; vm_compute in H; discriminate H
  | NameSpec.ends _ _ => apply ends_b in H; vm_compute in H; discriminate H
  | NameSpec.doubled _ => apply doubled_b in H; vm_compute in H; discriminate H
  | In _ _ => vm_compute in H; repeat (destruct H as [H|H]; [discriminate H|]); exact H
  | _ => vm_compute in H; discriminate H
  end.
Ltac nodup := apply distinctb_spec; vm_compute; reflexivity.
Ltac each_one := let n := fresh in let H := fresh in intros n H; vm_compute in H; repeat (destruct H as [H|H]; [subst n|]); [..|destruct H]; clear.
Ltac each_two := let n := fresh in let m := fresh in let H := fresh in let K := fresh in intros n m H K; vm_compute in H; vm_compute in K;
  repeat (destruct H as [H|H]; [subst n|]); [..|destruct H]; (repeat (destruct K as [K|K]; [subst m|]); [..|destruct K]); clear.
Ltac settle := lazymatch goal with |- _ /\ _ => split; settle | |- ~ _ => refute | |- _ <> _ => refute | |- _ => vm_compute; repeat split; reflexivity end.
Theorem C94_instance :
  (exists root, build_text same_order demo_text = Ok root /\ demo_root = root)
  /\ map (fun l => t_name (part l)) [[0]; [0;0]; [0;1]; [0;2]; [0;3]; [0;4]; [0;5]]%nat = ["n"; "MAX_SIZE"; "Point"; "Edge"; "Color"; "Sub"; "Graph"]
  /\ usable rust_keywords (rust_methods (part [0;1]%nat)) /\ usable rust_keywords (rust_constants (part [0]%nat)) /\ usable rust_keywords (rust_types (part [0]%nat))
  /\ usable rust_keywords (rust_variants (map t_name (t_children (part [0;3]%nat)))) /\ usable rust_keywords (rust_archive_methods (part [0;5]%nat)) /\ usable rust_keywords (rust_schema_modules (part [0]%nat))
  /\ usable cpp_keywords (cpp_members (part [0;1]%nat)) /\ usable cpp_keywords (cpp_archive_members (part [0;5]%nat)) /\ usable cpp_keywords (cpp_builder_members (part [0;5]%nat))
  /\ usable cpp_keywords (cpp_names (part [0]%nat)) /\ usable cpp_keywords (cpp_internal (part [0]%nat))
  /\ cpp_members (part [0;1]%nat) = ["Member"; "PointTemplate"; "StreamType"; "MutatorType"; "AccessorType"; "data"; "schema"; "name"; "size_in_bytes"; "to_string"; "describe"; "IS_OVERLAPPING_WITH_NEXT"; "_data";
       "first_edge"; "type"; "color"; "edges"; "FirstEdgeType"; "TypeType"; "ColorType"; "EdgesType"]
  /\ rust_builder_methods (part [0;5]%nat) = ["new"; "set_points"; "set_all_edges"; "set_text"; "start_points"; "start_all_edges"; "start_attributes"; "sub_graph"]
  /\ rust_constants (part [0]%nat) = ["MAX_SIZE"].
Proof.
  split; [eexists; split; [vm_compute; reflexivity|vm_compute; reflexivity]|].
  split; [vm_compute; reflexivity|].
  split; [apply C94_rust_struct_partial; [nodup|each_one; settle]|].
  split; [apply C94_rust_constants_partial; [nodup|each_one; settle]|].
  split; [apply C94_rust_types_partial; [nodup|each_one; settle|each_one; settle]|].
  split; [apply usableb_spec; vm_compute; reflexivity|].
  split; [apply C94_rust_archive_partial; [nodup|each_one; settle]|].
  split; [apply C94_rust_modules_partial; [nodup|each_one; settle]|].
  split; [apply C94_cpp_struct_partial; [nodup|settle|each_one; settle|each_two; settle]|].
  match goal with |- ?x /\ ?y /\ ?z => cut ((x /\ y) /\ z); [intros ((X & Y) & Z); exact (conj X (conj Y Z))|] end.
  split; [|split; [|split]].
  { apply C94_cpp_archive_partial; [nodup|each_one; settle|each_two; settle|settle|settle|settle|each_one; settle|each_one; settle]. }
  { apply C94_cpp_namespace_partial; [nodup|each_one; settle]. }
  { apply C94_cpp_schemas_partial; [nodup| |each_one; settle|].
    - intros a Ha. apply distinctb_spec. revert a Ha. apply forallb_forall. vm_compute. reflexivity.
    - intros a n Ha Hn. revert n Hn. pose proof (in_map resource_names _ _ Ha) as Hr. revert Hr. generalize (resource_names a). intros l Hl. clear a Ha.
      assert (Er : map resource_names (children_like (part [0]%nat) is_archive) = [["payload"]; ["points"; "all_edges"; "attributes"; "text"; "sub_graph"]]) by (vm_compute; reflexivity).
      rewrite Er in Hl. clear Er. destruct Hl as [<-|[<-|[]]]; each_one; settle. }
  repeat split; vm_compute; reflexivity.
Qed.
Print Assumptions C94_instance.
