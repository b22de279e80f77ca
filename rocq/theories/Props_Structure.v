(** Property theorems C06, C08, C09, C23, C56: structures (structure.py and the packing loops of
    archive_builder.py).  Vocabulary: [Spec] and [StructSpec]. *)
From Coq Require Import List ZArith Bool String Lia Permutation.
From Verif Require Import PyBase Spec DataAccess BitFacts DataAccessFacts DataAccessThms Structure StructSpec StructFacts.
Import ListNotations.
Local Open Scope Z_scope.

(** C06: ascending writes into a zeroed buffer store every field exactly and leave the gaps zero. *)
Theorem C06_ascending_writes : forall n fvs,
  ascending 0 (map fst fvs) (8 * Z.of_nat n) ->
  Forall (fun fv => field_ok (fst fv) /\ representable (f_width (fst fv)) (f_signed (fst fv)) (snd fv)) fvs ->
  exists bytes, write_fields (zeros n) fvs = Ok bytes /\ List.length bytes = n /\ is_bytes bytes /\
    (forall f v, In (f, v) fvs -> uint_at bytes (f_off f) (Z.to_nat (f_width f)) = v mod 2 ^ f_width f) /\
    (forall i, 0 <= i -> in_gap (map fst fvs) i -> bit_at bytes i = false) /\
    (u64_ok (map fst fvs) -> forall f v, In (f, v) fvs ->
       read_value bytes (f_off f) (f_width f) (f_signed f) = Ok v).
Proof. exact ascending_writes. Qed.
Print Assumptions C06_ascending_writes.

(** ... and every later write leaves the bits of all earlier fields as they were. *)
Theorem C06_later_writes_preserve : forall n fvs1 fvs2,
  ascending 0 (map fst (fvs1 ++ fvs2)) (8 * Z.of_nat n) ->
  Forall (fun fv => field_ok (fst fv) /\ representable (f_width (fst fv)) (f_signed (fst fv)) (snd fv)) (fvs1 ++ fvs2) ->
  exists b1 b2, write_fields (zeros n) fvs1 = Ok b1 /\ write_fields b1 fvs2 = Ok b2 /\
    (forall f v, In (f, v) fvs1 -> forall i, f_off f <= i < f_off f + f_width f -> bit_at b2 i = bit_at b1 i).
Proof. exact ascending_writes_prefix. Qed.
Print Assumptions C06_later_writes_preserve.

Definition demo_fields : list fsig :=
  [FSig "a" 0 3 false; FSig "flag" 3 1 false; FSig "b" 4 17 true; FSig "c" 24 33 false].
Definition demo : sdef := SDef "S" 8 demo_fields ["c"; "a"; "flag"; "b"]%string.

Example C06_instance :
  ascending 0 (map fst (combine demo_fields [5; 1; -65536; 2 ^ 33 - 1])) (8 * Z.of_nat 8) /\
  Forall (fun fv => field_ok (fst fv) /\ representable (f_width (fst fv)) (f_signed (fst fv)) (snd fv))
         (combine demo_fields [5; 1; -65536; 2 ^ 33 - 1]) /\
  u64_ok (map fst (combine demo_fields [5; 1; -65536; 2 ^ 33 - 1])) /\
  write_fields (zeros 8) (combine demo_fields [5; 1; -65536; 2 ^ 33 - 1])
    = Ok [0x0d; 0; 0x10; 0xff; 0xff; 0xff; 0xff; 0x01].
Proof.
  split; [cbn; lia|]. split; [|split; [|vm_compute; reflexivity]].
  - repeat constructor; cbn; try lia; discriminate.
  - intros f Hf E. exfalso. cbn in Hf. destruct Hf as [<-|[<-|[<-|[<-|[]]]]]; cbn in E; lia.
Qed.

(** C08: record -> bytes -> structure view gives the values back, wherever the bytes are placed. *)
Theorem C08_pack_unpack : forall sd rec vals, sdef_ok sd -> record_values rec sd vals ->
  exists bytes, pack_record sd rec = Ok bytes /\ zlen bytes = s_size sd /\ is_bytes bytes /\
    forall pre post, is_bytes pre -> is_bytes post ->
      let names := map f_name (s_fields sd) in
      let view := SView sd (pre ++ bytes ++ post) (zlen pre) in
      as_list view = Ok vals /\ as_dict view = Ok (combine names vals) /\
      (forall name x, In (name, x) (combine names vals) -> getattr view name = Ok x) /\
      (forall name, ~ In name names -> getattr view name = Err AttributeError).
Proof.
  intros sd rec vals Hsd Hrec. destruct (pack_record_ok sd rec vals Hsd Hrec) as (bytes & He & Hl & Hb & _ & Hr).
  exists bytes. split; [exact He|]. split; [exact Hl|]. split; [exact Hb|].
  intros pre post Hpre Hpost names view. pose proof (Hr pre post Hpre Hpost) as HR.
  split; [now apply as_list_ok|]. split; [now apply as_dict_ok|]. split.
  - destruct Hsd as (_ & _ & _ & _ & Hnd & _). exact (getattr_ok view vals Hnd HR).
  - intros name Hn. unfold getattr. cbn [v_def view]. now rewrite find_field_none.
Qed.
Print Assumptions C08_pack_unpack.

Example C08_instance :
  let rec := [("b", PInt (-65536)); ("a", PInt 5); ("c", PInt 8589934591); ("flag", PInt 1)]%string in
  sdef_ok demo /\ record_values rec demo [5; 1; -65536; 8589934591] /\
  pack_record demo rec = Ok [0x0d; 0; 0x10; 0xff; 0xff; 0xff; 0xff; 0x01].
Proof.
  cbv zeta. split; [|split; [|vm_compute; reflexivity]].
  - split; [cbn; lia|]. split; [cbn; lia|]. split; [repeat constructor; cbn; try lia; discriminate|].
    split. { intros f Hf E. exfalso. cbn in Hf. destruct Hf as [<-|[<-|[<-|[<-|[]]]]]; cbn in E; lia. }
    split. { repeat constructor; cbn; intuition discriminate. }
    intros k. cbn. tauto.
  - split.
    + repeat (constructor; [split; [reflexivity|unfold representable; cbn; lia]|]). constructor.
    + intros k. cbn. tauto.
Qed.

(** Without [u64_ok] the round trip is FALSE, for a layout the generator produces
    (struct { a : u8 : 1; b : u64; c : u8 : 7; }). *)
Theorem C08_unaligned_u64_refuted : exists sd rec vals bytes,
  0 <= s_size sd /\ ascending 0 (s_fields sd) (8 * s_size sd) /\ Forall field_ok (s_fields sd) /\
  NoDup (map f_name (s_fields sd)) /\ record_values rec sd vals /\
  pack_record sd rec = Ok bytes /\ as_list (SView sd bytes 0) <> Ok vals.
Proof.
  exists (SDef "S" 9 [FSig "a" 0 1 false; FSig "b" 1 64 false; FSig "c" 65 7 false] ["a"; "b"; "c"]%string),
    [("a", PInt 0); ("b", PInt 1); ("c", PInt 1)]%string, [0; 1; 1], [2; 0; 0; 0; 0; 0; 0; 0; 2].
  split; [cbn; lia|]. split; [cbn; lia|]. split; [repeat constructor; cbn; try lia; discriminate|].
  split; [repeat constructor; cbn; intuition discriminate|].
  split. { split; [|intros k; cbn; tauto].
    repeat (constructor; [split; [reflexivity|unfold representable; cbn; lia]|]). constructor. }
  split; [vm_compute; reflexivity|]. vm_compute. discriminate.
Qed.
Print Assumptions C08_unaligned_u64_refuted.

(** C09: a view depends only on its own bytes: the same bytes at any place of any resource read the same. *)
Theorem C09_view_local : forall sd a b pa pb,
  is_bytes a -> is_bytes b -> 0 <= pa -> 0 <= pb -> pa + s_size sd <= zlen a -> pb + s_size sd <= zlen b ->
  ascending 0 (s_fields sd) (8 * s_size sd) -> Forall field_ok (s_fields sd) -> u64_aligned (s_fields sd) ->
  (forall k, 0 <= k < s_size sd -> nth (Z.to_nat (pa + k)) a 0 = nth (Z.to_nat (pb + k)) b 0) ->
  as_list (SView sd a pa) = as_list (SView sd b pb) /\
  as_dict (SView sd a pa) = as_dict (SView sd b pb) /\
  struct_iter (SView sd a pa) = struct_iter (SView sd b pb) /\
  forall name, getattr (SView sd a pa) name = getattr (SView sd b pb) name.
Proof.
  intros sd a b pa pb Ba Bb Ha Hb La Lb Hasc Hok Hu Heq.
  pose proof (view_local sd a b pa pb Ba Bb Ha Hb La Lb Hasc Hok Hu Heq) as L.
  assert (G : forall name, getattr (SView sd a pa) name = getattr (SView sd b pb) name).
  { intros name. unfold getattr. cbn [v_def]. destruct (find_field (s_fields sd) name) as [f|] eqn:E; [|reflexivity].
    apply L. now destruct (find_field_some _ _ _ E). }
  split; [apply mapM_ext_in; exact L|]. split; [|split; [|exact G]].
  - apply mapM_ext_in. intros f Hf. now rewrite L.
  - apply mapM_ext_in. intros x _. apply G.
Qed.
Print Assumptions C09_view_local.

Example C09_instance : let x := [0x0d; 0; 0x10; 0xff; 0xff; 0xff; 0xff; 0x01] in
  let a := [9] ++ x in let b := x ++ [255] in
  is_bytes a /\ is_bytes b /\ u64_aligned (s_fields demo) /\
  (forall k, 0 <= k < s_size demo -> nth (Z.to_nat (1 + k)) a 0 = nth (Z.to_nat (0 + k)) b 0) /\
  as_list (SView demo a 1) = Ok [5; 1; -65536; 8589934591].
Proof.
  cbv zeta. split; [repeat constructor; unfold is_byte; lia|]. split; [repeat constructor; unfold is_byte; lia|].
  split. { intros f Hf E. exfalso. cbn in Hf. destruct Hf as [<-|[<-|[<-|[<-|[]]]]]; cbn in E; lia. }
  split; [|vm_compute; reflexivity]. intros k Hk. cbn in Hk.
  assert (k = 0 \/ k = 1 \/ k = 2 \/ k = 3 \/ k = 4 \/ k = 5 \/ k = 6 \/ k = 7) as Hc by lia.
  destruct Hc as [->|[->|[->|[->|[->|[->|[->| ->]]]]]]]; reflexivity.
Qed.

(** The unaligned u64 exception is real: the value depends on bytes after the structure's field. *)
Theorem C09_unaligned_u64_refuted : exists sd a b,
  is_bytes a /\ is_bytes b /\ s_size sd <= zlen a /\ zlen a = zlen b /\
  ascending 0 (s_fields sd) (8 * s_size sd) /\ Forall field_ok (s_fields sd) /\
  (exists f, In f (s_fields sd) /\
    (forall i, f_off f <= i < f_off f + f_width f -> bit_at a i = bit_at b i) /\
    getattr (SView sd a 0) (f_name f) <> getattr (SView sd b 0) (f_name f)).
Proof.
  exists (SDef "S" 9 [FSig "a" 0 1 false; FSig "b" 1 64 false; FSig "c" 65 7 false] ["a"; "b"; "c"]%string),
    (zeros 9), (zeros 8 ++ [2]).
  split; [apply is_bytes_zeros|].
  split; [apply is_bytes_app; split; [apply is_bytes_zeros|repeat constructor; unfold is_byte; lia]|].
  split; [cbn; lia|]. split; [reflexivity|]. split; [cbn; lia|].
  split; [repeat constructor; cbn; try lia; discriminate|].
  exists (FSig "b" 1 64 false). split; [cbn; auto|]. split; [|vm_compute; discriminate].
  cbn [f_off f_width]. intros i Hi.
  rewrite zeros_bit. symmetry.
  destruct (Z.lt_ge_cases i 64) as [Hlt|Hge].
  - rewrite bit_at_app_l by (change (zlen (zeros 8)) with 8; lia). apply zeros_bit.
  - replace i with 64 by lia. reflexivity.
Qed.
Print Assumptions C09_unaligned_u64_refuted.

(** C23: iteration in declaration order.  FALSE of the code: it iterates a set of names, so for any
    structure some legal set order permutes the values. *)
Theorem C23_iteration_order_refuted : exists sd mem vals,
  Permutation (s_keys sd) (map f_name (s_fields sd)) /\ sdef_ok sd /\
  as_list (SView sd mem 0) = Ok vals /\ struct_iter (SView sd mem 0) <> Ok vals.
Proof.
  exists (SDef "S" 2 [FSig "x" 0 8 false; FSig "y" 8 8 false] ["y"; "x"]%string), [1; 2], [1; 2].
  split; [apply perm_swap|]. split.
  { split; [cbn; lia|]. split; [cbn; lia|]. split; [repeat constructor; cbn; try lia; discriminate|].
    split. { intros f Hf E. exfalso. cbn in Hf. destruct Hf as [<-|[<-|[]]]; cbn in E; lia. }
    split. { repeat constructor; cbn; intuition discriminate. } intros k. cbn. tauto. }
  split; [vm_compute; reflexivity|]. vm_compute. discriminate.
Qed.
Print Assumptions C23_iteration_order_refuted.

(** What holds: iteration yields each field's value exactly once, in the order of the name set. *)
Theorem C23_iteration_order_partial : forall v vals,
  NoDup (map f_name (s_fields (v_def v))) ->
  Permutation (s_keys (v_def v)) (map f_name (s_fields (v_def v))) -> as_list v = Ok vals ->
  exists vals', struct_iter v = Ok vals' /\
    Permutation (combine (s_keys (v_def v)) vals') (combine (map f_name (s_fields (v_def v))) vals).
Proof. exact struct_iter_perm. Qed.
Print Assumptions C23_iteration_order_partial.

Example C23_instance :
  Permutation (s_keys demo) (map f_name (s_fields demo)) /\
  as_list (SView demo [0x0d; 0; 0x10; 0xff; 0xff; 0xff; 0xff; 0x01] 0) = Ok [5; 1; -65536; 8589934591] /\
  struct_iter (SView demo [0x0d; 0; 0x10; 0xff; 0xff; 0xff; 0xff; 0x01] 0) = Ok [8589934591; 5; 1; -65536].
Proof.
  split; [|split; vm_compute; reflexivity].
  apply NoDup_Permutation; [repeat constructor; cbn; intuition discriminate ..|].
  intros k. cbn. tauto.
Qed.

(** C56: zero-width fields (accepted by the generator: "u8 : 0") are harmless.  FALSE of the code: off a
    byte boundary both writing and reading one always raises, on every buffer. *)
Theorem C56_zero_width_refuted : forall data off signed v,
  is_bytes data -> 0 <= off -> off < 8 * zlen data -> off mod 8 <> 0 ->
  write_value data off 0 signed v = Err IndexError /\ read_value data off 0 signed = Err ValueError.
Proof. exact zero_width_raises. Qed.
Print Assumptions C56_zero_width_refuted.

Example C56_instance : is_bytes [0xff; 0xff] /\ 3 mod 8 <> 0 /\ write_value [0xff; 0xff] 3 0 false 0 = Err IndexError /\ read_value [0xff; 0xff] 3 0 false = Err ValueError.
Proof. split; [repeat constructor; unfold is_byte; lia|]. split; [discriminate|]. split; vm_compute; reflexivity. Qed.
