(** Property theorems C37-C40, C42: basic types, enumerations and graph traversal of the generator.
    Vocabulary: [Spec.representable], [GenSpec], [GraphSpec]. *)
From Coq Require Import List ZArith Bool String Ascii Lia Permutation.
From Verif Require Import PyBase Spec PyText GenTypes GenSpec GenTypesFacts GraphSpec GenTraversal GenTraversalFacts.
Import ListNotations.
Local Open Scope Z_scope.

(** C37: bits_required is the least sufficient width; value_range lists exactly the representable
    values; membership in the range is the same as bits_required <= width. *)
Theorem C37_bits_required : forall t v,
  (bt_signed t = false /\ v < 0 /\ bits_required t v = Err (InvalidSignError v)) \/
  ((bt_signed t = true \/ 0 <= v) /\ exists b, bits_required t v = Ok b /\ 0 <= b /\
     representable b (bt_signed t) v /\ forall w, representable w (bt_signed t) v -> b <= w).
Proof.
  intros t v. destruct (bt_signed t) eqn:Es; [right|destruct (Z.leb_spec 0 v); [right|left]].
  - split; [auto|]. destruct (bits_required_ok t v (or_introl Es)) as (b & E & Hb & H). rewrite Es in H. exists b.
    split; [exact E|]. split; [exact Hb|]. split; [apply H; lia|intros w Hw; now apply H].
  - split; [auto|]. destruct (bits_required_ok t v (or_intror H)) as (b & E & Hb & H'). rewrite Es in H'. exists b.
    split; [exact E|]. split; [exact Hb|]. split; [apply H'; lia|intros w Hw; now apply H'].
  - split; [reflexivity|]. split; [exact H|]. now apply bits_required_neg.
Qed.
Print Assumptions C37_bits_required.

Theorem C37_value_range : forall t, 0 <= bt_width t -> (bt_signed t = true -> 1 <= bt_width t) ->
  exists r, value_range t = Ok r /\ NoDup r /\ zlen r = 2 ^ bt_width t /\
    (forall v, In v r <-> representable (bt_width t) (bt_signed t) v) /\
    (forall v, In v r <-> exists b, bits_required t v = Ok b /\ b <= bt_width t).
Proof.
  intros t Hw Hs.
  assert (exists r, value_range t = Ok r) as [r Hr].
  { unfold value_range. destruct (bt_signed t).
    - destruct (Z.ltb_spec (bt_width t) 1); [specialize (Hs eq_refl); lia|now eexists].
    - destruct (Z.ltb_spec (bt_width t) 0); [lia|now eexists]. }
  destruct (value_range_ok t r Hr) as (H1 & H2 & H3).
  exists r. split; [exact Hr|]. split; [exact H1|]. split; [exact H3|]. split; [exact H2|].
  intros v. rewrite H2. destruct (C37_bits_required t v) as [(Es & Hv & E)|(Hc & b & E & Hb & Hr1 & Hr2)].
  - unfold representable. rewrite E, Es. split; [lia|]. intros (b & [=] & _).
  - split; [intros H; exists b; split; [exact E|now apply Hr2]|]. rewrite E. intros (b' & [= <-] & Hle).
    destruct (bits_required_ok t v Hc) as (b2 & E2 & _ & H). rewrite E in E2. injection E2 as <-. now apply H.
Qed.
Print Assumptions C37_value_range.

Example C37_instance :
  bits_required (BT "i16" 16) (-32768) = Ok 16 /\ bits_required (BT "i16" 16) 32768 = Ok 17 /\
  bits_required (BT "u8" 3) 7 = Ok 3 /\ bits_required (BT "u8" 3) 8 = Ok 4 /\
  value_range (BT "i8" 2) = Ok [-2; -1; 0; 1] /\ bits_required (BT "u8" 8) (-1) = Err (InvalidSignError (-1)).
Proof. repeat split; reflexivity. Qed.

(** C38: which type names exist, what they mean, and when a width is rejected. *)
Theorem C38_basic_type : forall name signed s, In (name, (signed, s)) basic_types ->
  (forall w, make_btype name (Some w) = if w <=? s then Ok (BT name w) else Err (InvalidWidthError w name)) /\
  make_btype name None = Ok (BT name s) /\ (forall w, bt_signed (BT name w) = signed).
Proof.
  intros name signed s H.
  assert (Hsig : name_signed name = signed) by (cbn in H; repeat (destruct H as [[= <- <- <-]|H]; [reflexivity|]); destruct H).
  rewrite <- Hsig in H. apply storage_spec in H. unfold make_btype. rewrite H. split; [|split].
  - intros w. rewrite Z.gtb_ltb, Z.ltb_antisym. now destruct (w <=? s).
  - now rewrite Z.gtb_ltb, Z.ltb_irrefl.
  - intros w. exact Hsig.
Qed.
Print Assumptions C38_basic_type.

Theorem C38_other_names : forall name, ~ In name (map fst basic_types) ->
  is_basic_type name = false /\ forall w, make_btype name w = Err AssertionError.
Proof.
  intros name H. unfold is_basic_type, make_btype. destruct (storage_width name) as [s|] eqn:E; [|auto].
  exfalso. apply H. apply storage_spec in E. apply in_map_iff. now exists (name, (name_signed name, s)).
Qed.
Print Assumptions C38_other_names.

Example C38_instance : make_btype "u32" (Some 33) = Err (InvalidWidthError 33 "u32") /\
  make_btype "i64" (Some 64) = Ok (BT "i64" 64) /\ make_btype "bool" (Some 2) = Err (InvalidWidthError 2 "bool") /\
  make_btype "Foo" None = Err AssertionError.
Proof. repeat split; reflexivity. Qed.

(** C39: what a successfully created enumeration contains. *)
Theorem C39_enumeration : forall set_order name ty w vals t cs, (forall l, Permutation (set_order l) l) ->
  create_enum set_order name ty w vals = Ok (t, cs) ->
  exists explicit values generated,
    Forall2 parsed (map snd vals) explicit /\ numbered explicit values /\ NoDup values /\
    Forall (representable (bt_width t) (bt_signed t)) values /\
    cs = map (fun nv => EV (fst nv) (snd nv) false) (combine (map fst vals) values) ++ generated /\
    Forall (fun g => ev_auto g = true) generated /\ NoDup (map ev_name cs).
Proof.
  intros so name ty w vals t cs Hso H.
  destruct (create_enum_ok so name ty w vals t cs Hso H) as (_ & _ & ex & vs & gen & H1 & H2 & H3 & H4 & H5 & _ & _ & H6 & _).
  exists ex, vs, (map (fun v => EV (unknown_name v) v true) gen). repeat (split; [assumption|]). split; [|exact H6].
  apply Forall_forall. intros g Hg. apply in_map_iff in Hg. now destruct Hg as (v & <- & _).
Qed.
Print Assumptions C39_enumeration.

(** ... and the outcome for every declaration with distinct names and literals that parse. *)
Theorem C39_decision : forall set_order name ty w vals t explicit values, (forall l, Permutation (set_order l) l) ->
  make_btype ty w = Ok t -> (bt_signed t = true -> 1 <= bt_width t) -> 0 <= bt_width t ->
  vals <> [] -> NoDup (map fst vals) -> (forall v, ~ In (unknown_name v) (map fst vals)) ->
  Forall2 parsed (map snd vals) explicit -> numbered explicit values ->
  (~ NoDup values -> exists l1 v l2, values = l1 ++ v :: l2 /\ In v l1 /\
     create_enum set_order name ty w vals = Err (DuplicateEnumValueError name v)) /\
  (NoDup values -> 2 * zlen vals + 256 < 2 ^ bt_width t ->
     create_enum set_order name ty w vals = Err (SparseEnumError name (bt_width t))) /\
  (NoDup values -> 2 ^ bt_width t <= 2 * zlen vals + 256 ->
     ~ Forall (representable (bt_width t) (bt_signed t)) values ->
     exists v e, In v values /\ ~ representable (bt_width t) (bt_signed t) v /\
       create_enum set_order name ty w vals = Err e /\
       e = (if bt_signed t || (0 <=? v) then InvalidEnumValueError name v else InvalidSignError v)) /\
  (NoDup values -> 2 ^ bt_width t <= 2 * zlen vals + 256 ->
     Forall (representable (bt_width t) (bt_signed t)) values ->
     exists cs, create_enum set_order name ty w vals = Ok (t, cs)).
Proof. exact create_enum_decision. Qed.
Print Assumptions C39_decision.

(** Every list of declarations has exactly one numbering. *)
Theorem C39_numbering_exists : forall explicit, exists values, numbered explicit values /\
  forall other, numbered explicit other -> other = values.
Proof.
  intros ex. exists (values_from 0 ex). split; [apply values_from_numbered|].
  intros o Ho. eapply numbered_unique; [exact Ho|apply values_from_numbered].
Qed.
Print Assumptions C39_numbering_exists.

(** Repeated names raise SymbolRedefinition. *)
Definition demo_vals : list (string * option string) :=
  [("A", None); ("B", Some "5"%string); ("C", None); ("D", Some "-0x2"%string)]%string.
Definition show (r : res (btype * list enumval)) : res (list (string * Z)) :=
  '(_, cs) <- r ;; Ok (map (fun c => (ev_name c, ev_value c)) cs).
Example C39_instance :
  show (create_enum (@rev Z) "E" "i8" (Some 4) demo_vals) =
    Ok ([("A", 0); ("B", 5); ("C", 6); ("D", -2);
         ("UNKNOWN_VALUE_MINUS_8", -8); ("UNKNOWN_VALUE_MINUS_7", -7); ("UNKNOWN_VALUE_MINUS_6", -6);
         ("UNKNOWN_VALUE_MINUS_5", -5); ("UNKNOWN_VALUE_MINUS_4", -4); ("UNKNOWN_VALUE_MINUS_3", -3);
         ("UNKNOWN_VALUE_MINUS_1", -1); ("UNKNOWN_VALUE_1", 1); ("UNKNOWN_VALUE_2", 2); ("UNKNOWN_VALUE_3", 3);
         ("UNKNOWN_VALUE_4", 4); ("UNKNOWN_VALUE_7", 7)]%string) /\
  create_enum (@rev Z) "E" "i8" (Some 3) demo_vals = Err (InvalidEnumValueError "E" 6) /\
  create_enum (fun l => l) "E" "u8" (Some 3) demo_vals = Err (InvalidSignError (-2)) /\
  create_enum (fun l => l) "E" "u16" None demo_vals = Err (SparseEnumError "E" 16) /\
  create_enum (fun l => l) "E" "u8" None [("A", Some "1"); ("B", Some "0"); ("C", None)]%string
    = Err (DuplicateEnumValueError "E" 1) /\
  create_enum (fun l => l) "E" "u8" (Some 1) [("A", None); ("A", None)]%string = Err (SymbolRedefinition "A").
Proof. repeat split; vm_compute; reflexivity. Qed.

(** C40: every representable value has exactly one enumerator. *)
Theorem C40_total : forall set_order name ty w vals t cs, (forall l, Permutation (set_order l) l) ->
  create_enum set_order name ty w vals = Ok (t, cs) ->
  NoDup (map ev_value cs) /\
  (forall v, In v (map ev_value cs) <-> representable (bt_width t) (bt_signed t) v) /\
  NoDup (map ev_name cs) /\
  map ev_name (filter (fun c => negb (ev_auto c)) cs) = map fst vals /\
  (forall c, In c cs -> ev_auto c = true -> ev_name c = unknown_name (ev_value c)) /\
  zlen (filter ev_auto cs) <= 256 + zlen vals.
Proof.
  intros so name ty w vals t cs Hso H.
  destruct (create_enum_ok so name ty w vals t cs Hso H)
    as (_ & _ & ex & vs & gen & H1 & H2 & H3 & H4 & H5 & H6 & H7 & H8 & H9 & H10).
  assert (Hl : List.length (map fst vals) = List.length vs).
  { destruct H2 as [Hl _]. apply Forall2_length in H1. rewrite !map_length in *. congruence. }
  assert (Hv : map ev_value cs = vs ++ gen).
  { rewrite H5, map_app, !map_map. cbn. rewrite map_id. f_equal. clear -Hl. revert vs Hl.
    induction (map fst vals) as [|x l IH]; intros [|y vs] Hl; try discriminate; [reflexivity|]. cbn. f_equal. apply IH. now injection Hl. }
  rewrite Hv. split; [|split; [|split; [exact H8|split; [|split]]]].
  - apply NoDup_app_iff. split; [exact H3|]. split; [exact H6|]. intros x Hx Hg. apply H7 in Hg. tauto.
  - intros v. rewrite in_app_iff, H7. split; [intros [Hi|[Hi _]]; [|exact Hi]|].
    + rewrite Forall_forall in H4. now apply H4.
    + intros Hr. destruct (in_dec Z.eq_dec v vs); auto.
  - rewrite H5, filter_app, map_app.
    assert (forall l, filter (fun c => negb (ev_auto c)) (map (fun v => EV (unknown_name v) v true) l) = []) as ->.
    { induction l; [reflexivity|]. cbn. assumption. }
    rewrite app_nil_r.
    assert (forall l : list (string * Z), filter (fun c => negb (ev_auto c)) (map (fun nv => EV (fst nv) (snd nv) false) l)
            = map (fun nv => EV (fst nv) (snd nv) false) l) as ->.
    { induction l as [|a l IH]; [reflexivity|]. cbn. now rewrite IH. }
    rewrite map_map. cbn. now apply map_fst_combine.
  - intros c Hc Ha. rewrite H5 in Hc. apply in_app_or in Hc. destruct Hc as [Hc|Hc]; apply in_map_iff in Hc;
      destruct Hc as (x & <- & _); [discriminate|reflexivity].
  - rewrite H5, filter_app.
    assert (forall l : list (string * Z), filter ev_auto (map (fun nv => EV (fst nv) (snd nv) false) l) = []) as ->.
    { induction l as [|a l IH]; [reflexivity|]. cbn. now rewrite IH. }
    assert (forall l, filter ev_auto (map (fun v => EV (unknown_name v) v true) l) = map (fun v => EV (unknown_name v) v true) l) as ->.
    { induction l as [|a l IH]; [reflexivity|]. cbn [map filter ev_auto]. now rewrite IH. }
    cbn [app]. unfold zlen in *. rewrite map_length. lia.
Qed.
Print Assumptions C40_total.

(** C40: sparse declarations are rejected, exactly when more than 256 + len values would be generated. *)
Theorem C40_sparse : forall set_order name ty w vals t explicit values, (forall l, Permutation (set_order l) l) ->
  make_btype ty w = Ok t -> (bt_signed t = true -> 1 <= bt_width t) -> 0 <= bt_width t ->
  vals <> [] -> NoDup (map fst vals) -> (forall v, ~ In (unknown_name v) (map fst vals)) ->
  Forall2 parsed (map snd vals) explicit -> numbered explicit values -> NoDup values ->
  Forall (representable (bt_width t) (bt_signed t)) values ->
  (2 ^ bt_width t - zlen values > 256 + zlen vals <->
   create_enum set_order name ty w vals = Err (SparseEnumError name (bt_width t))).
Proof.
  intros so name ty w vals t ex vs Hso Ht Hs Hw Hne Hn Hu Hp Hnum Hnd Hrep.
  destruct (C39_decision so name ty w vals t ex vs Hso Ht Hs Hw Hne Hn Hu Hp Hnum) as (_ & D1 & _ & D2).
  assert (zlen vs = zlen vals).
  { destruct Hnum as [Hl _]. apply Forall2_length in Hp. rewrite map_length in Hp. unfold zlen. congruence. }
  split; intros H'.
  - apply D1; [exact Hnd|lia].
  - destruct (Z.leb_spec (2 ^ bt_width t) (2 * zlen vals + 256)); [|lia].
    destruct (D2 Hnd H0 Hrep) as [cs E]. congruence.
Qed.
Print Assumptions C40_sparse.

(** A declared enumerator may not take a generated name. *)
Example C40_instance :
  create_enum (fun l => l) "E" "u8" (Some 1) [("UNKNOWN_VALUE_1", None)]%string
    = Err (SymbolRedefinition "UNKNOWN_VALUE_1") /\
  show (create_enum (fun l => l) "E" "u8" (Some 2) [("X", Some "2"%string)]%string) =
    Ok [("X", 2); ("UNKNOWN_VALUE_0", 0); ("UNKNOWN_VALUE_1", 1); ("UNKNOWN_VALUE_3", 3)]%string /\
  create_enum (fun l => l) "E" "u16" (Some 9) [("X", None)]%string = Err (SparseEnumError "E" 9) /\
  is_ok (create_enum (fun l => l) "E" "u16" (Some 8) [("X", None)]%string) = true.
Proof. repeat split; vm_compute; reflexivity. Qed.

(** C42: the traversals terminate on every finite graph, visit exactly the reachable nodes once,
    dependencies first; and they raise CircularReferencing exactly if a cycle can be reached. *)
Theorem C42_dependency_order : forall (N : Type) (eq_dec : forall x y : N, {x = y} + {x <> y})
    (kids : N -> res (list N)) (root : N) (univ : list N), finite_from kids root univ ->
  exists enough_fuel, forall fuel, (enough_fuel <= fuel)%nat ->
    ((forall x, reachable kids root x -> ~ on_cycle kids x) ->
      exists order, dependency_order eq_dec kids fuel root = Some (Ok order) /\
        NoDup order /\ (forall x, In x order <-> reachable kids root x) /\ dependencies_first kids order) /\
    ((exists x, reachable kids root x /\ on_cycle kids x) ->
      dependency_order eq_dec kids fuel root = Some (Err CircularReferencing)).
Proof.
  intros N eq_dec kids root univ Hfin. exists (enough kids univ). intros fuel Hf.
  destruct (dfs_total eq_dec kids root univ fuel Hfin Hf)
    as [(pre & order & _ & E & H1 & _ & H2 & _ & H3 & H4)|(_ & E & x & H1 & H2)].
  - split; [intros _; exists order; auto|]. intros (x & Hx & Hc). exfalso. now apply (H4 x).
  - split; [intros H; exfalso; now apply (H x)|]. intros _. exact E.
Qed.
Print Assumptions C42_dependency_order.

Theorem C42_preorder : forall (N : Type) (eq_dec : forall x y : N, {x = y} + {x <> y})
    (kids : N -> res (list N)) (root : N) (univ : list N), finite_from kids root univ ->
  (forall x, reachable kids root x -> ~ on_cycle kids x) ->
  exists enough_fuel, forall fuel, (enough_fuel <= fuel)%nat ->
    exists order, dfs_iterate eq_dec kids fuel root = Some (Ok order) /\
      NoDup order /\ (forall x, In x order <-> reachable kids root x).
Proof.
  intros N eq_dec kids root univ Hfin Hac. exists (enough kids univ). intros fuel Hf.
  destruct (dfs_total eq_dec kids root univ fuel Hfin Hf)
    as [(pre & order & E & _ & _ & H1 & _ & H2 & _)|(_ & E & x & H1 & H2)].
  - exists pre; auto.
  - exfalso. now apply (Hac x).
Qed.
Print Assumptions C42_preorder.

(** Instance: a diamond 0 -> 1, 2, 2; 1 -> 3, 2; 2 -> 3 and a cycle reached late. *)
Definition diamond (n : nat) : res (list nat) :=
  match n with 0%nat => Ok [1; 2; 2]%nat | 1%nat => Ok [3; 2]%nat | 2%nat => Ok [3]%nat | _ => Ok [] end.
Definition looped (n : nat) : res (list nat) :=
  match n with 3%nat => Ok [0]%nat | _ => diamond n end.
Example C42_instance :
  dependency_order PeanoNat.Nat.eq_dec diamond 20 0%nat = Some (Ok [3; 2; 1; 0]%nat) /\
  dfs_iterate PeanoNat.Nat.eq_dec diamond 20 0%nat = Some (Ok [0; 1; 3; 2]%nat) /\
  dependency_order PeanoNat.Nat.eq_dec looped 20 0%nat = Some (Err CircularReferencing) /\
  finite_from diamond 0%nat [0; 1; 2; 3]%nat.
Proof.
  split; [vm_compute; reflexivity|]. split; [vm_compute; reflexivity|]. split; [vm_compute; reflexivity|].
  intros x H. split.
  - assert (G : forall d r y, walk diamond d r y -> In r [0; 1; 2; 3]%nat -> In y [0; 1; 2; 3]%nat).
    { clear. intros d r y Hw Hr. induction Hw as [y|d r y z Hw IH He]; [exact Hr|].
      destruct He as (cs & E & Hin). specialize (IH Hr). clear Hw Hr.
      destruct IH as [IH|[IH|[IH|[IH|[]]]]]; subst y; cbn in E; inversion E; subst cs; cbn in Hin |- *; tauto. }
    destruct H as [d Hw]. apply (G d 0%nat x Hw). cbn; auto.
  - destruct x as [|[|[|[|x]]]]; eexists; reflexivity.
Qed.
