(** C51, C52, C53, C66: the other language bindings' bit-field codecs against the Python one. *)
From Coq Require Import List ZArith Bool Lia String Permutation.
From Coq Require Import ZifyBool ZifyNat.
From Verif Require Import PyBase Spec DataAccess Structure StructSpec BitFacts DataAccessFacts DataAccessThms
  StructFacts SliceFacts Codecs CodecSpec CodecFacts CodecThms.
Import ListNotations.
Local Open Scope Z_scope.
Ltac Zify.zify_post_hook ::= Z.div_mod_to_equations.

(** ** C51: C++ *)

(** The C++ reader returns the schema's value of every field of every buffer. *)
Theorem C51_reader : forall wT sT data off n,
  is_bytes data -> padded data off n -> 1 <= n <= 64 -> type_holds wT sT n ->
  cpp_read wT sT data off n = Some (schema_value data off n sT).
Proof. exact cpp_read_value. Qed.

(** C++ and Python read the same value from every field of a structure at byte [pos] of any buffer; an
    unsigned 64-bit field has to start on a byte boundary (Python's reader returns up to 7 foreign bits
    otherwise, see C51_refuted). *)
Theorem C51_readers_agree_partial : forall wT sT data pos off n,
  is_bytes data -> 0 <= pos -> padded data (pos * 8 + off) n -> 0 <= off -> 1 <= n <= 64 -> type_holds wT sT n ->
  (n = 64 -> sT = false -> off mod 8 = 0) ->
  exists v, read_value data (pos * 8 + off) n sT = Ok v /\
            cpp_read wT sT (skipn (Z.to_nat pos) data) off n = Some v.
Proof.
  intros wT sT data pos off n Hd Hp (H0 & H1 & Hl) Ho Hn Ht H64.
  exists (schema_value data (pos * 8 + off) n sT). split.
  - apply py_read_ok; auto; [unfold in_bounds; lia|]. intros E Es. specialize (H64 E Es). lia.
  - rewrite cpp_read_value; auto.
    + f_equal. apply schema_value_skipn; lia.
    + now apply is_bytes_skipn.
    + unfold padded, in_bounds. assert (zlen (skipn (Z.to_nat pos) data) = zlen data - pos).
      { unfold zlen in *. rewrite skipn_length. lia. } lia.
Qed.

(** Every record the Python builder packs reads back in C++ with the values that were put in. *)
Theorem C51_python_record : forall wT sd rec vals post,
  sdef_ok sd -> record_values rec sd vals -> is_bytes post -> 8 <= zlen post ->
  (forall f, In f (s_fields sd) -> type_holds (wT f) (f_signed f) (f_width f)) ->
  exists bytes, pack_record sd rec = Ok bytes /\
    Forall2 (fun f v => cpp_read (wT f) (f_signed f) (bytes ++ post) (f_off f) (f_width f) = Some v)
            (s_fields sd) vals.
Proof.
  intros wT sd rec vals post Hsd Hrv Hpost Hpl Ht.
  destruct (pack_record_ok sd rec vals Hsd Hrv) as (bytes & Hpk & Hlen & Hby & _ & _).
  exists bytes. split; [assumption|].
  pose proof (record_schema_values sd rec vals bytes post Hsd Hrv Hpk Hpost) as Hsv.
  eapply Forall2_combine_in; [exact Hsv|]. cbv beta. intros f v Hin <-.
  assert (Hfin : In f (s_fields sd)) by (eapply in_combine_l; eauto).
  destruct Hsd as (Hs & Ha & Hok & _).
  destruct (ascending_in _ _ _ f Hok Ha Hfin) as [Hlo Hhi].
  rewrite Forall_forall in Hok. destruct (Hok f Hfin) as [Hw H1].
  apply cpp_read_value; auto; [rewrite is_bytes_app; auto|].
  unfold padded, in_bounds. rewrite zlen_app. lia.
Qed.

(** Assigning a representable value in C++ changes exactly the field's bits, to that value; C++ reads it
    back, and so does Python (with the exception of C51_readers_agree_partial).  A negative value of an
    enumeration is excluded: see C51_enum_refuted. *)
Theorem C51_writer_partial : forall wT sT is_enum data off n t,
  is_bytes data -> padded data off n -> 1 <= n <= 64 -> type_holds wT sT n -> representable n sT t ->
  (n = 1 -> sT = false) -> (is_enum = false \/ 0 <= t) ->
  exists data', cpp_write sT is_enum data off n t = Some data' /\ stores data off n t data' /\
    cpp_read wT sT data' off n = Some t /\
    ((n = 64 -> sT = false -> off mod 8 = 0) -> read_value data' off n sT = Ok t).
Proof.
  intros wT sT is_enum data off n t Hd Hp Hn Ht Hr H1 He.
  destruct (cpp_write_stores sT is_enum data off n t Hd Hp Hn Hr He) as (d & E & S).
  exists d. split; [assumption|]. split; [assumption|].
  pose proof S as (Sl & Sb & _). pose proof Hp as (Ho & Hn0 & Hl).
  assert (Lz : zlen d = zlen data) by (unfold zlen; lia).
  pose proof (stores_value data off n sT t d Ho Hn H1 Hr S) as Hv. split.
  - rewrite cpp_read_value; auto; [now rewrite Hv|]. unfold padded in *. now rewrite Lz.
  - intros H64. rewrite py_read_ok; auto; [now rewrite Hv|]. unfold in_bounds in *. lia.
Qed.

(** Filling in the fields of a zeroed C++ structure, in any order, gives the bytes the Python builder
    writes for the same record (followed by the untouched padding). *)
Theorem C51_same_bytes_partial : forall is_enum sd rec vals fvs,
  sdef_ok sd -> record_values rec sd vals -> Permutation fvs (combine (s_fields sd) vals) ->
  (forall f v, In (f, v) fvs -> is_enum f = false \/ 0 <= v) ->
  exists bytes, pack_record sd rec = Ok bytes /\
    store_all (fun f v b => cpp_write (f_signed f) (is_enum f) b (f_off f) (f_width f) v) fvs
              (zeros (Z.to_nat (s_size sd) + 8)) = Some (bytes ++ zeros 8).
Proof.
  intros is_enum sd rec vals fvs Hsd Hrv Hp He.
  apply store_all_record with (1 := Hsd) (2 := Hrv) (3 := Hp).
  intros f v b Hin Hb Hl.
  assert (Hin' : In (f, v) (combine (s_fields sd) vals)) by (eapply Permutation_in; eauto).
  assert (Hfin : In f (s_fields sd)) by (eapply in_combine_l; eauto).
  pose proof Hsd as (Hs & Ha & Hok & _). destruct (ascending_in _ _ _ f Hok Ha Hfin) as [Hlo Hhi].
  rewrite Forall_forall in Hok. destruct (Hok f Hfin) as [Hw H1]. destruct Hrv as [Hv _].
  destruct (Forall2_in_combine _ _ _ _ _ Hv Hin') as [_ Hrep].
  apply cpp_write_stores; auto. unfold padded, in_bounds, zlen. lia.
Qed.

(** An unsigned 64-bit field off a byte boundary whose last byte it shares: Python also returns the
    neighbour's bits, C++ does not. *)
Theorem C51_refuted : exists data,
  is_bytes data /\ padded data 4 64 /\
  read_value data 4 64 false <> Ok 0 /\ cpp_read 64 false data 4 64 = Some 0.
Proof.
  exists ([0; 0; 0; 0; 0; 0; 0; 0; 16; 0; 0; 0; 0; 0; 0; 0; 0]).
  split; [repeat constructor; unfold is_byte; lia|].
  split; [unfold padded, in_bounds; cbn; lia|].
  split; [|vm_compute; reflexivity]. vm_compute. intros H. discriminate H.
Qed.

(** Assigning a negative enumeration value in C++ ([std::is_signed] does not see through enumerations)
    overwrites the neighbouring fields: here a 4-bit field at bit 0 destroys the field at bits 4-7. *)
Theorem C51_enum_refuted : exists data data',
  is_bytes data /\ padded data 0 4 /\ representable 4 true (-1) /\
  cpp_write true true data 0 4 (-1) = Some data' /\
  cpp_read 8 false data 4 4 = Some 5 /\ cpp_read 8 false data' 4 4 = Some 15.
Proof.
  exists ([80; 0; 0; 0; 0; 0; 0; 0; 0]), ([255; 0; 0; 0; 0; 0; 0; 0; 0]).
  split; [repeat constructor; unfold is_byte; lia|].
  split; [unfold padded, in_bounds; cbn; lia|]. split; [cbn; lia|].
  repeat split; vm_compute; reflexivity.
Qed.

(** ** C52: Rust *)

Theorem C52_reader_partial : forall wT sT data off n,
  is_bytes data -> in_bounds (zlen data) off n -> 1 <= n <= 64 -> type_holds wT sT n ->
  (off mod 8 + n <= 64 \/ off < 8) ->
  rust_read wT sT data off n = Some (schema_value data off n sT).
Proof. exact rust_read_value. Qed.

Theorem C52_readers_agree_partial : forall wT sT data pos off n,
  is_bytes data -> 0 <= pos -> in_bounds (zlen data) (pos * 8 + off) n -> 0 <= off -> 1 <= n <= 64 ->
  type_holds wT sT n -> off mod 8 + n <= 64 ->
  exists v, read_value data (pos * 8 + off) n sT = Ok v /\
            rust_read wT sT (skipn (Z.to_nat pos) data) off n = Some v.
Proof.
  intros wT sT data pos off n Hd Hp (H0 & H1 & Hl) Ho Hn Ht H64.
  exists (schema_value data (pos * 8 + off) n sT). split.
  - apply py_read_ok; auto; [unfold in_bounds; lia|]. intros E Es. lia.
  - rewrite rust_read_value; auto.
    + f_equal. apply schema_value_skipn; lia.
    + now apply is_bytes_skipn.
    + unfold in_bounds. assert (zlen (skipn (Z.to_nat pos) data) = zlen data - pos).
      { unfold zlen in *. rewrite skipn_length. lia. } lia.
    + now left.
Qed.

Theorem C52_python_record_partial : forall wT sd rec vals post,
  sdef_ok sd -> record_values rec sd vals -> is_bytes post ->
  (forall f, In f (s_fields sd) -> type_holds (wT f) (f_signed f) (f_width f)) ->
  (forall f, In f (s_fields sd) -> f_off f mod 8 + f_width f <= 64 \/ f_off f < 8) ->
  exists bytes, pack_record sd rec = Ok bytes /\
    Forall2 (fun f v => rust_read (wT f) (f_signed f) (bytes ++ post) (f_off f) (f_width f) = Some v)
            (s_fields sd) vals.
Proof.
  intros wT sd rec vals post Hsd Hrv Hpost Ht Hr.
  destruct (pack_record_ok sd rec vals Hsd Hrv) as (bytes & Hpk & Hlen & Hby & _ & _).
  exists bytes. split; [assumption|].
  pose proof (record_schema_values sd rec vals bytes post Hsd Hrv Hpk Hpost) as Hsv.
  eapply Forall2_combine_in; [exact Hsv|]. cbv beta. intros f v Hin <-.
  assert (Hfin : In f (s_fields sd)) by (eapply in_combine_l; eauto).
  destruct Hsd as (Hs & Ha & Hok & _).
  destruct (ascending_in _ _ _ f Hok Ha Hfin) as [Hlo Hhi].
  rewrite Forall_forall in Hok. destruct (Hok f Hfin) as [Hw H1].
  apply rust_read_value; auto; [rewrite is_bytes_app; auto| |exact (Hr f Hfin)].
  unfold in_bounds. rewrite zlen_app. pose proof (zlen_nonneg post). lia.
Qed.

Theorem C52_writer_partial : forall wT sT data off n t,
  is_bytes data -> in_bounds (zlen data) off n -> 1 <= n <= 64 -> type_holds wT sT n -> representable n sT t ->
  (n = 1 -> sT = false) -> (off mod 8 + n <= 64 \/ off < 8) ->
  exists data', rust_write sT data off n t = Some data' /\ stores data off n t data' /\
    rust_read wT sT data' off n = Some t /\
    ((n = 64 -> sT = false -> off mod 8 = 0) -> read_value data' off n sT = Ok t).
Proof.
  intros wT sT data off n t Hd Hp Hn Ht Hr H1 He.
  destruct (rust_write_stores sT data off n t Hd Hp Hn Hr He) as (d & E & S).
  exists d. split; [assumption|]. split; [assumption|].
  pose proof S as (Sl & Sb & _). pose proof Hp as (Ho & Hn0 & Hl).
  assert (Lz : zlen d = zlen data) by (unfold zlen; lia).
  pose proof (stores_value data off n sT t d Ho Hn H1 Hr S) as Hv. split.
  - rewrite rust_read_value; auto; [now rewrite Hv|]. now rewrite Lz.
  - intros H64. rewrite py_read_ok; auto; [now rewrite Hv|]. now rewrite Lz.
Qed.

(** Setting the fields of a new Rust structure ([data: \[0; SIZE\]]), in any order, gives exactly the bytes
    the Python builder writes for the same record. *)
Theorem C52_same_bytes_partial : forall sd rec vals fvs,
  sdef_ok sd -> record_values rec sd vals -> Permutation fvs (combine (s_fields sd) vals) ->
  (forall f, In f (s_fields sd) -> f_off f mod 8 + f_width f <= 64 \/ f_off f < 8) ->
  exists bytes, pack_record sd rec = Ok bytes /\
    store_all (fun f v b => rust_write (f_signed f) b (f_off f) (f_width f) v) fvs
              (zeros (Z.to_nat (s_size sd))) = Some bytes.
Proof.
  intros sd rec vals fvs Hsd Hrv Hp Hr.
  destruct (store_all_record (fun f v b => rust_write (f_signed f) b (f_off f) (f_width f) v)
              sd rec vals fvs 0 Hsd Hrv Hp) as (bytes & E1 & E2).
  - intros f v b Hin Hb Hl.
    assert (Hin' : In (f, v) (combine (s_fields sd) vals)) by (eapply Permutation_in; eauto).
    assert (Hfin : In f (s_fields sd)) by (eapply in_combine_l; eauto).
    pose proof Hsd as (Hs & Ha & Hok & _). destruct (ascending_in _ _ _ f Hok Ha Hfin) as [Hlo Hhi].
    rewrite Forall_forall in Hok. destruct (Hok f Hfin) as [Hw H1]. destruct Hrv as [Hv _].
    destruct (Forall2_in_combine _ _ _ _ _ Hv Hin') as [_ Hrep].
    apply rust_write_stores; auto; [|exact (Hr f Hfin)]. unfold in_bounds, zlen. lia.
  - exists bytes. split; [assumption|]. rewrite Nat.add_0_r in E2. rewrite E2. unfold zeros. cbn [repeat].
    now rewrite app_nil_r.
Qed.

(** A 64-bit field that starts in the middle of a byte other than the first: reading takes its last bits
    from the wrong byte, outside the structure; writing puts them into the wrong byte. *)
Definition wide_at_12 : sdef :=
  SDef "S" 10 [FSig "a" 0 8 false; FSig "b" 8 4 false; FSig "v" 12 64 true; FSig "c" 76 4 false]
          ["a"; "b"; "v"; "c"]%string.
Definition wide_record : record := [("a", PInt 1); ("b", PInt 2); ("v", PInt (-2)); ("c", PInt 3)]%string.
Definition wide_bytes : list Z := [1; 226; 255; 255; 255; 255; 255; 255; 255; 63].

Lemma wide_ok : sdef_ok wide_at_12 /\ record_values wide_record wide_at_12 [1; 2; -2; 3].
Proof.
  split.
  - split; [cbn; lia|]. split; [cbn; lia|]. split; [repeat constructor; cbn; try lia; discriminate|].
    split. { intros f Hf E Es. exfalso. cbn in Hf.
             destruct Hf as [<-|[<-|[<-|[<-|[]]]]]; cbn in E; try lia; discriminate Es. }
    split. { repeat constructor; cbn; intuition discriminate. }
    intros k. cbn. tauto.
  - split.
    + repeat (constructor; [split; [reflexivity|unfold representable; cbn; lia]|]). constructor.
    + intros k. cbn. tauto.
Qed.

Theorem C52_refuted :
  sdef_ok wide_at_12 /\ record_values wide_record wide_at_12 [1; 2; -2; 3] /\
  pack_record wide_at_12 wide_record = Ok wide_bytes /\
  rust_read 64 true wide_bytes 12 64 = None /\
  rust_read 64 true (wide_bytes ++ zeros 8) 12 64 = Some (2 ^ 60 - 2) /\
  store_all (fun f v b => rust_write (f_signed f) b (f_off f) (f_width f) v)
            (combine (s_fields wide_at_12) [1; 2; -2; 3]) (zeros 10) <> Some wide_bytes.
Proof.
  split; [apply wide_ok|]. split; [apply wide_ok|]. split; [vm_compute; reflexivity|].
  split; [vm_compute; reflexivity|]. split; [vm_compute; reflexivity|].
  vm_compute. intros H. discriminate H.
Qed.

(** C++ handles the same record. *)
Example C51_instance :
  sdef_ok wide_at_12 /\ record_values wide_record wide_at_12 [1; 2; -2; 3] /\
  (forall f, In f (s_fields wide_at_12) -> type_holds 64 (f_signed f) (f_width f)) /\
  padded (wide_bytes ++ zeros 8) 12 64 /\ is_bytes (wide_bytes ++ zeros 8) /\
  cpp_read 64 true (wide_bytes ++ zeros 8) 12 64 = Some (-2) /\
  cpp_write true false (wide_bytes ++ zeros 8) 12 64 5
    = Some ([1; 0x52; 0; 0; 0; 0; 0; 0; 0; 0x30] ++ zeros 8).
Proof.
  split; [apply wide_ok|]. split; [apply wide_ok|].
  split. { intros f Hf. cbn in Hf. unfold type_holds. destruct Hf as [<-|[<-|[<-|[<-|[]]]]]; cbn; lia. }
  split; [unfold padded, in_bounds; cbn; lia|].
  split; [repeat constructor; unfold is_byte; lia|].
  split; vm_compute; reflexivity.
Qed.

Definition demo_fields : list fsig :=
  [FSig "a" 0 3 false; FSig "flag" 3 1 false; FSig "b" 4 17 true; FSig "c" 24 33 false].
Definition demo : sdef := SDef "S" 8 demo_fields ["c"; "a"; "flag"; "b"]%string.
Definition demo_record : record :=
  [("b", PInt (-65536)); ("a", PInt 5); ("c", PInt 8589934591); ("flag", PInt 1)]%string.

Lemma demo_ok : sdef_ok demo /\ record_values demo_record demo [5; 1; -65536; 8589934591].
Proof.
  split.
  - split; [cbn; lia|]. split; [cbn; lia|]. split; [repeat constructor; cbn; try lia; discriminate|].
    split. { intros f Hf E. exfalso. cbn in Hf. destruct Hf as [<-|[<-|[<-|[<-|[]]]]]; cbn in E; lia. }
    split. { repeat constructor; cbn; intuition discriminate. }
    intros k. cbn. tauto.
  - split.
    + repeat (constructor; [split; [reflexivity|unfold representable; cbn; lia]|]). constructor.
    + intros k. cbn. tauto.
Qed.

Example C52_instance :
  sdef_ok demo /\ record_values demo_record demo [5; 1; -65536; 8589934591] /\
  (forall f, In f (s_fields demo) -> f_off f mod 8 + f_width f <= 64 \/ f_off f < 8) /\
  (forall f, In f (s_fields demo) -> type_holds 64 (f_signed f) (f_width f)) /\
  rust_read 32 true [0x0d; 0; 0x10; 0xff; 0xff; 0xff; 0xff; 0x01] 4 17 = Some (-65536) /\
  rust_write true [0x0d; 0; 0x10; 0xff; 0xff; 0xff; 0xff; 0x01] 4 17 (-1)
    = Some [0xfd; 0xff; 0x1f; 0xff; 0xff; 0xff; 0xff; 0x01].
Proof.
  split; [apply demo_ok|]. split; [apply demo_ok|].
  split. { intros f Hf. cbn in Hf. destruct Hf as [<-|[<-|[<-|[<-|[]]]]]; vm_compute; auto; left; discriminate. }
  split. { intros f Hf. cbn in Hf. unfold type_holds. destruct Hf as [<-|[<-|[<-|[<-|[]]]]]; cbn; lia. }
  split; vm_compute; reflexivity.
Qed.

(** ** C53: Go *)

(** The Go getter returns the schema's value of every field of every buffer in which at least one bit
    follows the field, except for signed fields of one bit and signed fields that lie inside one byte
    without starting at its first bit. *)
Theorem C53_reader_partial : forall wT sT data pos off n,
  is_bytes data -> 0 <= pos -> 0 <= off -> 1 <= n <= 64 -> pos * 8 + off + n < 8 * zlen data ->
  type_holds wT sT n -> (sT = true -> 2 <= n /\ (off mod 8 = 0 \/ 8 < off mod 8 + n)) ->
  go_get wT sT data pos off n = Some (schema_value data (pos * 8 + off) n sT).
Proof.
  intros wT sT data pos off n Hd Hp Ho Hn Hl [Hw Hs] Hok. unfold go_get.
  rewrite go_read_value; auto; try lia.
  - cbn [obind]. f_equal.
    assert (Ec : forall x, cast wT sT (cast 64 true x) = cast wT sT x).
    { intros x. assert (Hq : exists q, cast 64 true x = x + q * 2 ^ 64).
      { exists (- ((x + 2 ^ (64 - 1)) / 2 ^ 64)). cbn [cast].
        rewrite (Z.mod_eq (x + 2 ^ (64 - 1)) (2 ^ 64)) by lia. lia. }
      destruct Hq as [q ->].
      assert (E64 : 2 ^ 64 = 2 ^ (64 - wT) * 2 ^ wT) by (rewrite <- Z.pow_add_r by lia; f_equal; lia).
      rewrite E64, Z.mul_assoc. set (q' := q * 2 ^ (64 - wT)).
      rewrite <- (cast_mod wT sT (x + q' * 2 ^ wT)) by lia. rewrite Z_mod_plus_full. apply cast_mod. lia. }
    rewrite Ec. pose proof (uint_pos_bound data (pos * 8 + off) n ltac:(lia)) as Hu.
    unfold schema_value, field_value. destruct sT.
    + replace (n =? 1) with false by (destruct (Hok eq_refl); lia).
      apply cast_extend with n; [lia|]. apply twos_range; [lia|assumption].
    + rewrite (cast_extend_u wT n) by (auto; lia). destruct (n =? 1) eqn:E1; [|reflexivity].
      assert (n = 1) by lia. subst n. change (Z.to_nat 1) with 1%nat. cbn [uint_at].
      destruct (bit_at data (pos * 8 + off)); reflexivity.
  - intros E. destruct (Hok E) as [H2 H3]. lia.
Qed.

(** Go and Python agree wherever both read the schema's value. *)
Theorem C53_readers_agree_partial : forall wT sT data pos off n,
  is_bytes data -> 0 <= pos -> 0 <= off -> 1 <= n <= 64 -> pos * 8 + off + n < 8 * zlen data ->
  type_holds wT sT n -> (sT = true -> 2 <= n /\ (off mod 8 = 0 \/ 8 < off mod 8 + n)) ->
  (n = 64 -> sT = false -> off mod 8 = 0) ->
  exists v, read_value data (pos * 8 + off) n sT = Ok v /\ go_get wT sT data pos off n = Some v.
Proof.
  intros wT sT data pos off n Hd Hp Ho Hn Hl Ht Hok H64.
  exists (schema_value data (pos * 8 + off) n sT). split.
  - apply py_read_ok; auto; [unfold in_bounds; lia|]. intros E Es. specialize (H64 E Es). lia.
  - now apply C53_reader_partial.
Qed.

Theorem C53_python_record_partial : forall wT sd rec vals post,
  sdef_ok sd -> record_values rec sd vals -> is_bytes post -> 1 <= zlen post ->
  (forall f, In f (s_fields sd) -> type_holds (wT f) (f_signed f) (f_width f)) ->
  (forall f, In f (s_fields sd) -> f_signed f = true ->
             f_off f mod 8 = 0 \/ 8 < f_off f mod 8 + f_width f) ->
  exists bytes, pack_record sd rec = Ok bytes /\
    Forall2 (fun f v => go_get (wT f) (f_signed f) (bytes ++ post) 0 (f_off f) (f_width f) = Some v)
            (s_fields sd) vals.
Proof.
  intros wT sd rec vals post Hsd Hrv Hpost Hpl Ht Hg.
  destruct (pack_record_ok sd rec vals Hsd Hrv) as (bytes & Hpk & Hlen & Hby & _ & _).
  exists bytes. split; [assumption|].
  pose proof (record_schema_values sd rec vals bytes post Hsd Hrv Hpk Hpost) as Hsv.
  eapply Forall2_combine_in; [exact Hsv|]. cbv beta. intros f v Hin <-.
  assert (Hfin : In f (s_fields sd)) by (eapply in_combine_l; eauto).
  destruct Hsd as (Hs & Ha & Hok & _).
  destruct (ascending_in _ _ _ f Hok Ha Hfin) as [Hlo Hhi].
  rewrite Forall_forall in Hok. destruct (Hok f Hfin) as [Hw H1].
  rewrite C53_reader_partial; auto.
  - rewrite is_bytes_app. auto.
  - lia.
  - rewrite zlen_app. lia.
  - intros Es. split; [|now apply Hg].
    destruct (Z.eq_dec (f_width f) 1) as [E1|]; [|lia]. rewrite (H1 E1) in Es. discriminate.
Qed.

(** A signed field inside a byte: Go returns 7 for the -1 Python wrote (and C++ and Rust read). *)
Theorem C53_refuted : exists sd rec bytes,
  sdef_ok sd /\ record_values rec sd [2; -1] /\ pack_record sd rec = Ok bytes /\
  getattr (SView sd (bytes ++ zeros 8) 0) "s" = Ok (-1) /\
  cpp_read 8 true (bytes ++ zeros 8) 2 3 = Some (-1) /\ rust_read 8 true bytes 2 3 = Some (-1) /\
  go_get 8 true (bytes ++ zeros 8) 0 2 3 = Some 7.
Proof.
  exists (SDef "S" 1 [FSig "a" 0 2 false; FSig "s" 2 3 true] ["a"; "s"]%string),
    [("a", PInt 2); ("s", PInt (-1))]%string, [0x1e].
  split.
  { split; [cbn; lia|]. split; [cbn; lia|]. split; [repeat constructor; cbn; try lia; discriminate|].
    split. { intros f Hf E. exfalso. cbn in Hf. destruct Hf as [<-|[<-|[]]]; cbn in E; lia. }
    split. { repeat constructor; cbn; intuition discriminate. }
    intros k. cbn. tauto. }
  split.
  { split.
    + repeat (constructor; [split; [reflexivity|unfold representable; cbn; lia]|]). constructor.
    + intros k. cbn. tauto. }
  repeat split; vm_compute; reflexivity.
Qed.

(** A field that ends with the last byte of the data: Go looks at the byte after it and panics. *)
Theorem C53_last_byte_refuted :
  read_value [1; 2] 0 16 false = Ok 513 /\ go_get 16 false [1; 2] 0 0 16 = None.
Proof. split; vm_compute; reflexivity. Qed.

Example C53_instance :
  sdef_ok demo /\ record_values demo_record demo [5; 1; -65536; 8589934591] /\
  (forall f, In f (s_fields demo) -> f_signed f = true -> f_off f mod 8 = 0 \/ 8 < f_off f mod 8 + f_width f) /\
  go_get 32 true ([0x0d; 0; 0x10; 0xff; 0xff; 0xff; 0xff; 0x01] ++ zeros 8) 0 4 17 = Some (-65536) /\
  go_get 64 false (repeat 255 9) 0 0 64 = Some (2 ^ 64 - 1).
Proof.
  split; [apply demo_ok|]. split; [apply demo_ok|].
  split. { intros f Hf. cbn in Hf. destruct Hf as [<-|[<-|[<-|[<-|[]]]]]; cbn; intros E; try discriminate E; right; lia. }
  split; vm_compute; reflexivity.
Qed.

(** ** C66: C++ ranges and optional values *)

(** A range member of a record gives the field's value in this record and in the record after it. *)
Theorem C66_range : forall wT sT data pos size off n,
  is_bytes data -> 0 <= pos -> 0 <= size -> 0 <= off -> padded data ((pos + size) * 8 + off) n ->
  1 <= n <= 64 -> type_holds wT sT n ->
  cpp_read_range wT sT (skipn (Z.to_nat pos) data) off n size
  = Some (schema_value data (pos * 8 + off) n sT, schema_value data ((pos + size) * 8 + off) n sT).
Proof.
  intros wT sT data pos size off n Hd Hp Hs Ho (H0 & H1 & Hl) Hn Ht. unfold cpp_read_range.
  assert (Hlen : forall p, 0 <= p <= pos + size -> zlen (skipn (Z.to_nat p) data) = zlen data - p).
  { intros p Hpp. unfold zlen in *. rewrite skipn_length. lia. }
  rewrite cpp_read_value; auto; [|now apply is_bytes_skipn|unfold padded, in_bounds; rewrite Hlen; lia].
  cbn [obind].
  assert (Esk : skipn (Z.to_nat size) (skipn (Z.to_nat pos) data) = skipn (Z.to_nat (pos + size)) data).
  { rewrite skipn_add. f_equal. lia. }
  rewrite Esk.
  rewrite cpp_read_value; auto; [|now apply is_bytes_skipn|unfold padded, in_bounds; rewrite Hlen; lia].
  cbn [obind]. rewrite !schema_value_skipn by lia. reflexivity.
Qed.

(** An optional member is empty exactly when the field holds the invalid value. *)
Theorem C66_optional : forall wT sT invalid data off n,
  is_bytes data -> padded data off n -> 1 <= n <= 64 -> type_holds wT sT n ->
  exists r, cpp_read_tagged wT sT invalid data off n = Some r /\
    (r = None <-> schema_value data off n sT = invalid) /\
    (forall v, r = Some v <-> schema_value data off n sT = v /\ v <> invalid).
Proof.
  intros wT sT invalid data off n Hd Hp Hn Ht. unfold cpp_read_tagged.
  rewrite cpp_read_value by assumption. cbn [obind]. eexists. split; [reflexivity|].
  destruct (schema_value data off n sT =? invalid) eqn:E.
  - split; [split; [lia|reflexivity]|]. intros v. split; [discriminate|lia].
  - split; [split; [discriminate|lia]|]. intros v. split.
    + intros H. injection H as <-. lia.
    + intros [-> _]. reflexivity.
Qed.

Example C66_instance :
  padded ([1; 2; 3; 4; 5; 6] ++ zeros 8) ((2 + 2) * 8 + 4) 12 /\
  is_bytes ([1; 2; 3; 4; 5; 6] ++ zeros 8) /\
  cpp_read_range 16 false (skipn 2 ([1; 2; 3; 4; 5; 6] ++ zeros 8)) 4 12 2 = Some (0x40, 0x60) /\
  cpp_read_tagged 16 false 0x40 ([3; 4] ++ zeros 8) 4 12 = Some None.
Proof.
  split; [unfold padded, in_bounds; cbn; lia|].
  split; [repeat constructor; unfold is_byte; lia|]. split; vm_compute; reflexivity.
Qed.
Print Assumptions C51_python_record.
Print Assumptions C52_same_bytes_partial.
Print Assumptions C53_reader_partial.
Print Assumptions C66_range.
