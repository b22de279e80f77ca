(** C97: C++ iterators over arrays of structures behave like positions in the array, except for the distance to a later iterator.
    C98: copying and hashing structures in C++. *)
From Coq Require Import List ZArith Bool Lia.
From Verif Require Import PyBase Spec DataAccess BitFacts StructFacts ResourceFacts Codecs CodecSpec CodecThms CppStore CppFacts GenStructs StructOpsFacts Props_Codecs Props_StructOps IterSpec CppIter.
Import ListNotations.
Local Open Scope Z_scope.
Ltac Zify.zify_post_hook ::= Z.div_mod_to_equations.

Lemma wrap_id x : 0 <= x < 2 ^ 64 -> to_size_t x = x. Proof. intros H. unfold to_size_t. now apply Z.mod_small. Qed.
Lemma wrap_inner_plus p s o : to_size_t (p + to_size_t (s * to_size_t o)) = to_size_t (p + s * o).
Proof. unfold to_size_t. rewrite (Z.mul_mod_idemp_r s o) by lia. now rewrite Z.add_mod_idemp_r by lia. Qed.
Lemma wrap_inner_minus p s o : to_size_t (p - to_size_t (s * to_size_t o)) = to_size_t (p - s * o).
Proof. unfold to_size_t. rewrite (Z.mul_mod_idemp_r s o) by lia. now rewrite Zminus_mod_idemp_r. Qed.
Lemma place_in base size n i : array base size n -> 0 <= i <= n -> 0 <= place base size i < 2 ^ 64.
Proof. intros (Hs & Hb & Hn & Hl & _) Hi. unfold place. nia. Qed.

(** ** C97 *)
Theorem C97_moves : forall base size n i k, array base size n -> 0 <= i <= n -> 0 <= i + k <= n ->
  it_plus size (place base size i) k = place base size (i + k)
  /\ it_minus size (place base size i) (- k) = place base size (i + k)
  /\ it_index size (place base size i) k = it_deref (place base size (i + k))
  /\ (k = 1 -> it_next size (place base size i) = place base size (i + 1) /\ it_next_post size (place base size i) = (place base size (i + 1), place base size i))
  /\ (k = -1 -> it_prev size (place base size i) = place base size (i - 1) /\ it_prev_post size (place base size i) = (place base size (i - 1), place base size i)).
Proof.
  intros base size n i k A Hi Hk. pose proof (place_in base size n (i + k) A Hk) as P. unfold it_plus, it_minus, it_index, it_deref, it_next_post, it_prev_post, it_next, it_prev.
  rewrite !wrap_inner_plus, wrap_inner_minus. assert (E : place base size i + size * k = place base size (i + k)) by (unfold place; ring). assert (E' : place base size i - size * - k = place base size (i + k)) by (unfold place; ring).
  rewrite E, E', (wrap_id _ P). split; [reflexivity|]. split; [reflexivity|]. split; [reflexivity|]. split; intros ->.
  - assert (X : place base size i + size = place base size (i + 1)) by (unfold place; ring). rewrite X, (wrap_id _ P). now split.
  - assert (X : place base size i - size = place base size (i - 1)) by (unfold place; ring). replace (i + -1) with (i - 1) in P by ring. rewrite X, (wrap_id _ P). now split.
Qed.
Print Assumptions C97_moves.

Theorem C97_compares : forall base size n i j, array base size n -> 0 <= i <= n -> 0 <= j <= n ->
  let p := place base size i in let q := place base size j in
  (it_eq p q = true <-> i = j) /\ (it_ne p q = true <-> i <> j) /\ (it_lt p q = true <-> i < j) /\ (it_le p q = true <-> i <= j)
  /\ (it_gt p q = true <-> i > j) /\ (it_ge p q = true <-> i >= j).
Proof.
  intros base size n i j (Hs & _) Hi Hj. cbv zeta. unfold it_eq, it_ne, it_lt, it_le, it_gt, it_ge, place.
  rewrite negb_true_iff, Z.eqb_neq, Z.eqb_eq, !Z.ltb_lt, !Z.leb_le. repeat split; intros; nia.
Qed.
Print Assumptions C97_compares.

Lemma distance_value base size n i j : array base size n -> 0 <= j <= i -> i <= n -> to_size_t (place base size i - place base size j) / size = i - j.
Proof.
  intros (Hs & Hb & Hn & Hl & Hm) Hj Hi. replace (place base size i - place base size j) with ((i - j) * size) by (unfold place; ring).
  rewrite wrap_id by nia. apply Z.div_mul. lia.
Qed.
(** The distance to an earlier iterator (as [std::distance(first, last)] asks for) *)
Theorem C97_distance_partial : forall base size n i j, array base size n -> 0 <= j <= i -> i <= n -> it_distance size (place base size i) (place base size j) = i - j.
Proof.
  intros base size n i j A Hj Hi. unfold it_distance. rewrite (distance_value base size n i j A Hj Hi). destruct A as (Hs & Hb & Hn & Hl & Hm). unfold cast.
  assert (0 <= i - j < 2 ^ 63) by nia. replace (64 - 1) with 63 by reflexivity. rewrite Z.mod_small by lia. ring.
Qed.
(** The distance to a later iterator is that many elements short of the whole memory: right for structures of one byte, wrong for all
    others *)
Theorem C97_distance_behind : forall base size n i j, array base size n -> 0 <= i < j -> j <= n ->
  it_distance size (place base size i) (place base size j) = cast 64 true (2 ^ 64 / size - (j - i))
  /\ (it_distance size (place base size i) (place base size j) = i - j <-> size = 1).
Proof.
  intros base size n i j (Hs & Hb & Hn & Hl & Hm) Hi Hj.
  assert (E : it_distance size (place base size i) (place base size j) = cast 64 true (2 ^ 64 / size - (j - i))).
  { unfold it_distance. f_equal. replace (place base size i - place base size j) with (- (j - i) * size) by (unfold place; ring). unfold to_size_t.
    assert (X : (- (j - i) * size) mod 2 ^ 64 = 2 ^ 64 + - (j - i) * size). { symmetry. apply (Z.mod_unique_pos _ _ (-1)); nia. }
    rewrite X, Z.div_add by lia. ring. }
  split; [exact E|]. rewrite E. assert (D : 0 < j - i < 2 ^ 63) by nia. split.
  - intros Q. destruct (Z.eq_dec size 1) as [|N]; [assumption|exfalso]. assert (L : 2 ^ 64 / size <= 2 ^ 63). { apply Z.div_le_upper_bound; nia. }
    assert (G : j - i <= 2 ^ 64 / size) by (apply Z.div_le_lower_bound; nia). unfold cast in Q. replace (64 - 1) with 63 in Q by reflexivity.
    rewrite Z.mod_small in Q by lia. lia.
  - intros ->. rewrite Z.div_1_r. unfold cast. replace (64 - 1) with 63 by reflexivity.
    assert (X : (2 ^ 64 - (j - i) + 2 ^ 63) mod 2 ^ 64 = - (j - i) + 2 ^ 63). { symmetry. apply (Z.mod_unique_pos _ _ 1); lia. } rewrite X. ring.
Qed.
Print Assumptions C97_distance_behind.
(** From the first to the second of two structures of two bytes: 2^63 - 1 *)
Theorem C97_distance_refuted : array 4096 2 2 /\ it_distance 2 (place 4096 2 0) (place 4096 2 1) = 2 ^ 63 - 1.
Proof. split; [unfold array; lia|vm_compute; reflexivity]. Qed.

(** Loops over [begin()], [end()] visit every structure once, in order, in both directions *)
Lemma end_place base size n : array base size n -> it_end size base n = place base size n.
Proof. intros A. unfold it_end, to_size_t. rewrite Z.add_mod_idemp_r by lia. fold (to_size_t (base + n * size)). apply wrap_id. destruct A as (Hs & Hb & Hn & Hl & _). assert (0 <= n * size) by (apply Z.mul_nonneg_nonneg; lia). split; [unfold place; lia|exact Hl]. Qed.
Lemma begin_place base size : it_begin base = place base size 0. Proof. unfold it_begin, place. ring. Qed.
Lemma visits_step size fuel first last : it_visits size (S fuel) first last = if it_ne first last then option_map (cons first) (it_visits size fuel (it_next size first) last) else Some [].
Proof. reflexivity. Qed.
Lemma back_step size fuel first last : it_visits_back size (S fuel) first last = if it_ne last first then option_map (cons (it_prev size last)) (it_visits_back size fuel first (it_prev size last)) else Some [].
Proof. reflexivity. Qed.
Lemma visits base size n : array base size n -> forall k i, 0 <= i -> i + Z.of_nat k = n -> it_visits size (S k) (place base size i) (place base size n) = Some (places base size i k).
Proof.
  intros A. induction k as [|k IH]; intros i Hi E.
  - assert (i = n) by lia. subst i. cbn [it_visits]. unfold it_ne. now rewrite Z.eqb_refl.
  - rewrite visits_step. destruct (C97_compares base size n i n A ltac:(lia) ltac:(lia)) as (_ & X & _). cbv zeta in X. rewrite (proj2 X) by lia.
    destruct (C97_moves base size n i 1 A ltac:(lia) ltac:(lia)) as (_ & _ & _ & Y & _). rewrite (proj1 (Y eq_refl)), IH by lia. reflexivity.
Qed.
Lemma places_snoc base size k : forall i, places base size i (S k) = (places base size i k ++ [place base size (i + Z.of_nat k)])%list.
Proof. induction k as [|k IH]; intros i; [cbn; now rewrite Z.add_0_r|]. cbn [places] in IH |- *. rewrite (IH (i + 1)). cbn [app]. do 4 f_equal. lia. Qed.
Lemma visits_back base size n : array base size n -> forall k, Z.of_nat k <= n -> it_visits_back size (S k) (place base size 0) (place base size (Z.of_nat k)) = Some (rev (places base size 0 k)).
Proof.
  intros A. induction k as [|k IH]; intros Hk; [cbn [it_visits_back]; unfold it_ne; now rewrite Z.eqb_refl|].
  rewrite back_step. destruct (C97_compares base size n (Z.of_nat (S k)) 0 A ltac:(lia) ltac:(lia)) as (_ & X & _). cbv zeta in X. rewrite (proj2 X) by lia.
  destruct (C97_moves base size n (Z.of_nat (S k)) (-1) A ltac:(lia) ltac:(lia)) as (_ & _ & _ & _ & Y). rewrite (proj1 (Y eq_refl)). replace (Z.of_nat (S k) - 1) with (Z.of_nat k) by lia.
  rewrite IH by lia. cbn [option_map]. rewrite (places_snoc base size k 0), rev_app_distr. reflexivity.
Qed.
Theorem C97_loops : forall base size n, array base size n ->
  it_visits size (S (Z.to_nat n)) (it_begin base) (it_end size base n) = Some (places base size 0 (Z.to_nat n))
  /\ it_visits_back size (S (Z.to_nat n)) (it_begin base) (it_end size base n) = Some (rev (places base size 0 (Z.to_nat n))).
Proof.
  intros base size n A. rewrite (end_place base size n A), (begin_place base size). pose proof A as (_ & _ & Hn & _). split; [apply visits; [exact A|lia|lia]|].
  pose proof (visits_back base size n A (Z.to_nat n) ltac:(lia)) as X. rewrite Z2Nat.id in X by lia. exact X.
Qed.
Print Assumptions C97_loops.

(** Binary searches of the standard library on a sorted array find the border *)
Lemma bound_found base size n before b : array base size n -> 0 <= b <= n -> (forall i, 0 <= i < n -> before (place base size i) = (i <? b)) ->
  forall fuel i c, 0 <= i -> 0 <= c -> i + c <= n -> i <= b <= i + c -> c < Z.of_nat fuel -> it_bound size fuel before (place base size i) c = Some (place base size b).
Proof.
  intros A Hb Hs. induction fuel as [|fuel IH]; intros i c Hi Hc Hn Hbi Hf; [lia|]. cbn [it_bound]. destruct (0 <? c) eqn:E.
  - apply Z.ltb_lt in E. assert (St : 0 <= c / 2 < c) by lia. destruct (C97_moves base size n i (c / 2) A ltac:(lia) ltac:(lia)) as (-> & _).
    unfold it_deref. rewrite Hs by lia. destruct (i + c / 2 <? b) eqn:L.
    + apply Z.ltb_lt in L. destruct (C97_moves base size n (i + c / 2) 1 A ltac:(lia) ltac:(lia)) as (_ & _ & _ & Y & _). rewrite (proj1 (Y eq_refl)). apply IH; lia.
    + apply Z.ltb_ge in L. apply IH; lia.
  - apply Z.ltb_ge in E. assert (i = b) by lia. now subst.
Qed.
Theorem C97_lower_bound : forall base size n before b, array base size n -> 0 <= b <= n ->
  (forall i, 0 <= i < n -> before (place base size i) = (i <? b)) ->
  it_lower_bound size (S (Z.to_nat n)) before (it_begin base) (it_end size base n) = Some (place base size b).
Proof.
  intros base size n before b A Hb Hs. unfold it_lower_bound. rewrite (end_place base size n A), (begin_place base size). pose proof A as (_ & _ & Hn & _).
  rewrite (C97_distance_partial base size n n 0 A) by lia. rewrite Z.sub_0_r. apply (bound_found base size n before b A Hb Hs); lia.
Qed.
Print Assumptions C97_lower_bound.
Theorem C97_instance : array 4096 3 4 /\ it_visits 3 5 (it_begin 4096) (it_end 3 4096 4) = Some [4096; 4099; 4102; 4105]
  /\ it_lower_bound 3 5 (fun p => p <? 4102) (it_begin 4096) (it_end 3 4096 4) = Some 4102 /\ it_distance 3 (place 4096 3 0) (place 4096 3 4) = 2 ^ 64 / 3 - 4.
Proof. split; [unfold array; lia|]. vm_compute. repeat split. Qed.

(** ** C98 *)
Lemma copy_bits size d s d' i : copy_struct size d s = Some d' -> 0 <= i < 8 * Z.of_nat size -> bit_at d' i = bit_at s i.
Proof.
  unfold copy_struct. destruct (Nat.leb size (length d) && Nat.leb size (length s))%bool eqn:E; [|discriminate]. intros [= <-] Hi. apply andb_true_iff in E as (E1 & E2). apply Nat.leb_le in E1, E2.
  assert (L : length (firstn size s) = size) by (rewrite firstn_length; lia).
  rewrite bit_at_app_l by (unfold zlen; rewrite L; lia). rewrite <- (firstn_skipn size s) at 2. symmetry. apply bit_at_app_l. unfold zlen. rewrite L. lia.
Qed.
(** Copying a structure changes its bytes and no others; the copy is equal, and every field of the structure reads as in the source. *)
Theorem C98_copy : forall size destination source, (size <= length destination)%nat -> (size <= length source)%nat ->
  exists d, copy_struct size destination source = Some d /\ length d = length destination
    /\ firstn size d = firstn size source /\ skipn size d = skipn size destination
    /\ cpp_eq (Z.of_nat size) d source = Value true
    /\ (is_bytes destination -> is_bytes source -> forall wT sT off n, 0 <= off -> off + n <= 8 * Z.of_nat size -> 1 <= n <= 64 -> type_holds wT sT n ->
          padded destination off n -> padded source off n -> cpp_read wT sT d off n = cpp_read wT sT source off n /\ cpp_read wT sT d off n = Some (schema_value source off n sT)).
Proof.
  intros size d0 s Hd Hs. assert (E : copy_struct size d0 s = Some (firstn size s ++ skipn size d0)%list).
  { unfold copy_struct. apply Nat.leb_le in Hd, Hs. now rewrite Hd, Hs. }
  assert (L : length (firstn size s) = size) by (rewrite firstn_length; lia). eexists. split; [exact E|].
  assert (Le : length (firstn size s ++ skipn size d0) = length d0) by (rewrite app_length, L, skipn_length; lia).
  assert (F : firstn size (firstn size s ++ skipn size d0) = firstn size s) by (rewrite firstn_app, L, Nat.sub_diag, firstn_O, app_nil_r, firstn_firstn, Nat.min_id; reflexivity).
  split; [exact Le|]. split; [exact F|]. split; [rewrite skipn_app, L, Nat.sub_diag, skipn_O, skipn_all2 by lia; reflexivity|]. split.
  - destruct (C90_cpp_eq (Z.of_nat size) (firstn size s ++ skipn size d0) s ltac:(lia)) as (r & Er & Hr); [unfold zlen; rewrite Le; lia|unfold zlen; lia|]. rewrite Er. f_equal. apply Hr. rewrite Nat2Z.id. exact F.
  - intros Bd Bs wT sT off n Ho Hn Hw Ht Pd Ps. assert (B : is_bytes (firstn size s ++ skipn size d0)) by (apply is_bytes_app; split; [now apply is_bytes_firstn|now apply is_bytes_skipn]).
    assert (P : padded (firstn size s ++ skipn size d0) off n) by (unfold padded, zlen in *; rewrite Le; exact Pd).
    rewrite (C51_reader wT sT _ off n B P Hw Ht), (C51_reader wT sT s off n Bs Ps Hw Ht).
    assert (X : schema_value (firstn size s ++ skipn size d0) off n sT = schema_value s off n sT) by (apply schema_value_ext; [lia|intros i Hi; apply (copy_bits size d0 s _ i E); lia]). now rewrite X.
Qed.
Print Assumptions C98_copy.

(** Structures that are equal ([==]) have the same hash, for every [hash_combine]: they can be keys of unordered containers *)
Lemma hash_same combine n : forall i h a b, cpp_eq_from n i a b = Value true -> exists x, hash_from combine h n i a = Some x /\ hash_from combine h n i b = Some x.
Proof.
  induction n as [|n IH]; intros i h a b E; [exists h; now split|]. cbn [cpp_eq_from hash_from] in *. destruct (nth_error a i) as [x|]; [|discriminate]. destruct (nth_error b i) as [y|]; [|discriminate].
  destruct (x =? y) eqn:Q; [|discriminate]. apply Z.eqb_eq in Q. subst y. exact (IH (S i) (combine h x) a b E).
Qed.
Theorem C98_hash : forall combine size a b, cpp_eq (Z.of_nat size) a b = Value true ->
  exists h, hash_struct combine size a = Some h /\ hash_struct combine size b = Some h.
Proof. intros combine size a b E. unfold cpp_eq in E. rewrite Nat2Z.id in E. exact (hash_same combine size 0 0 a b E). Qed.
Print Assumptions C98_hash.
(** ... but structures with equal members may have different hashes: bits of no member count (here the upper five of a byte) *)
Theorem C98_hash_refuted : cpp_read 8 false ([1] ++ zeros 8) 0 3 = cpp_read 8 false ([9] ++ zeros 8) 0 3
  /\ hash_struct (fun h b => h * 256 + b) 1 [1] <> hash_struct (fun h b => h * 256 + b) 1 [9].
Proof. split; [vm_compute; reflexivity|vm_compute; discriminate]. Qed.
Lemma schema_value_nil off n s : 1 <= n -> schema_value [] off n s = 0.
Proof.
  intros Hn. assert (B : forall i, bit_at [] i = false) by (intros i; unfold bit_at; destruct (Z.to_nat (i / 8)); cbn; apply Z.testbit_0_l).
  assert (U : forall k o, uint_at [] o k = 0) by (induction k as [|k IH]; intros o; cbn [uint_at]; [reflexivity|rewrite B, IH; reflexivity]).
  unfold schema_value, field_value. rewrite B. destruct (n =? 1); [reflexivity|]. rewrite U. assert (0 < 2 ^ (n - 1)) by (apply Z.pow_pos_nonneg; lia). destruct s; [|reflexivity]. unfold twos_complement. destruct (Z.ltb_spec 0 (2 ^ (n - 1))); [reflexivity|lia].
Qed.
(** A new [Struct] reads as zero everywhere *)
Theorem C98_new : forall size wT sT off n, 0 <= off -> off + n <= 8 * Z.of_nat size -> 1 <= n <= 64 -> type_holds wT sT n ->
  padded (struct_new size) off n /\ cpp_read wT sT (struct_new size) off n = Some 0.
Proof.
  intros size wT sT off n Ho Hn Hw Ht. assert (P : padded (struct_new size) off n). { unfold padded, in_bounds, struct_new. rewrite zlen_zeros_nat. unfold PADDING_SIZE. lia. }
  split; [exact P|]. rewrite (C51_reader wT sT _ off n); [|apply is_bytes_zeros|exact P|exact Hw|exact Ht]. f_equal.
  rewrite (schema_value_ext (struct_new size) [] off n sT); [|lia|intros i Hi; unfold struct_new; rewrite zeros_bit; symmetry; apply bit_at_beyond; unfold zlen; cbn; lia].
  rewrite (schema_value_nil off n sT); [reflexivity|lia].
Qed.
