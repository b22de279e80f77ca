(** C90: members, comparison and copying of generated structures; C91: enumeration members in Rust. *)
From Coq Require Import List ZArith Bool String Lia Permutation.
From Verif Require Import PyBase Spec BitFacts Structure StructSpec StructFacts Codecs CodecSpec CodecFacts CodecThms
  CppStore GenTypes Props_GenTypes GenStructs StructOpsSpec StructOpsFacts.
Import ListNotations.
Local Open Scope Z_scope.

(** Every getter of the Rust structure gives the stored value ([None] for the invalid value of an optional
    member), whatever the bytes are. *)
Theorem C90_get_partial : forall size gs g data,
  layout size gs -> rust_fields gs -> In g gs -> is_bytes data -> size <= zlen data ->
  rs_get g data = Value (member g data).
Proof. exact rs_get_member. Qed.

(** A setter changes its own member to the given value and nothing else: every other member, and every bit
    outside the fields, is as before. *)
Theorem C90_set_partial : forall size gs g data v,
  layout size gs -> rust_fields gs -> In g gs -> struct_bytes size data -> assignable g v ->
  exists d, rs_set g data v = Value d /\ struct_bytes size d /\
    member g d = (match v with
                  | Some x => match gf_invalid g with Some i => if x =? i then None else Some x | None => Some x end
                  | None => None
                  end) /\
    (forall h, In h gs -> gf_sig h <> gf_sig g -> member h d = member h data) /\
    (forall i, 0 <= i -> unused gs i -> bit_at d i = bit_at data i).
Proof.
  intros size gs g data v L R Hg [Hb Hl] Ha.
  destruct (rs_set_stores size gs g data v L R Hg Hb ltac:(lia) Ha) as (x & d & Gx & E & Rx & S & Sx & Bd & Ld).
  exists d. split; [assumption|]. split; [split; [assumption|lia]|]. split; [|split].
  - unfold member. rewrite Sx. unfold given in Gx. destruct v as [y|].
    + injection Gx as <-. now destruct (gf_invalid g).
    + rewrite Gx. now rewrite Z.eqb_refl.
  - intros h Hh Hne. apply stored_eq_member. destruct (layout_field size gs h L Hh) as (Hf & _ & _ & _ & H0 & _).
    eapply stored_other; eauto. destruct (layout_apart size gs g h L Hg Hh) as [E'|E']; [congruence|exact E'].
  - intros i Hi Hu. destruct S as (_ & _ & S). rewrite S by assumption. specialize (Hu g Hg).
    replace ((f_off (gf_sig g) <=? i) && (i <? f_off (gf_sig g) + f_width (gf_sig g))) with false by lia. reflexivity.
Qed.

(** Rust's [==]: true exactly when all members are equal; so it is an equivalence. *)
Theorem C90_rust_eq_partial : forall size gs a b,
  layout size gs -> rust_fields gs -> is_bytes a -> is_bytes b -> size <= zlen a -> size <= zlen b ->
  exists r, rs_eq gs a b = Value r /\ (r = true <-> forall g, In g gs -> member g a = member g b).
Proof. exact rs_eq_members. Qed.

(** [fill_from] copies every member and touches no other bit; the result compares equal to its source. *)
Theorem C90_fill_partial : forall size gs self other,
  layout size gs -> rust_fields gs -> struct_bytes size self -> struct_bytes size other ->
  exists d, rs_fill gs self other = Value d /\ struct_bytes size d /\
    (forall g, In g gs -> member g d = member g other) /\
    (forall i, 0 <= i -> unused gs i -> bit_at d i = bit_at self i) /\
    rs_eq gs d other = Value true.
Proof.
  intros size gs self other L R [Bs Ls] [Bo Lo].
  destruct (rs_fill_steps size gs other L R Bo ltac:(lia) gs self (incl_refl _) Bs ltac:(lia)) as (d & E & Bd & Ld & Bits).
  assert (Hm : forall g, In g gs -> member g d = member g other).
  { intros g Hg. apply stored_eq_member. destruct (layout_field size gs g L Hg) as ([Hw _] & _ & _ & _ & H0 & _).
    apply schema_value_ext; [lia|]. intros i Hi. rewrite Bits by lia.
    replace (existsb (fun g0 => in_field (gf_sig g0) i) gs) with true; [reflexivity|].
    symmetry. apply existsb_exists. exists g. split; [assumption|]. unfold in_field. lia. }
  exists d. split; [assumption|]. split; [split; [assumption|lia]|]. split; [assumption|]. split.
  - intros i Hi Hu. rewrite Bits by assumption. now rewrite (proj2 (unused_false gs i) Hu).
  - destruct (rs_eq_members size gs d other L R Bd Bo ltac:(lia) ltac:(lia)) as (r & Er & Hr).
    rewrite Er. f_equal. now apply Hr.
Qed.

(** C++'s [==] compares all bytes of the structure ... *)
Theorem C90_cpp_eq : forall size a b, 0 <= size -> size <= zlen a -> size <= zlen b ->
  exists r, cpp_eq size a b = Value r /\ (r = true <-> firstn (Z.to_nat size) a = firstn (Z.to_nat size) b).
Proof.
  intros size a b H0 Ha Hb. unfold cpp_eq. unfold zlen in *.
  destruct (cpp_eq_from_bytes (Z.to_nat size) 0 a b ltac:(lia) ltac:(lia)) as (r & E & Hr). eauto.
Qed.

(** ... so it implies Rust's, and the two agree on structures with the same bits outside the fields, in
    particular on everything built from new structures with setters. *)
Theorem C90_agree_partial : forall size gs a b,
  layout size gs -> rust_fields gs -> struct_bytes size a -> struct_bytes size b ->
  (cpp_eq size a b = Value true -> rs_eq gs a b = Value true) /\
  ((forall i, 0 <= i < 8 * size -> unused gs i -> bit_at a i = bit_at b i) -> rs_eq gs a b = cpp_eq size a b).
Proof.
  intros size gs a b L R Sa Sb. pose proof Sa as [Ba La]. pose proof Sb as [Bb Lb].
  destruct (C90_cpp_eq size a b ltac:(destruct L; assumption) ltac:(lia) ltac:(lia)) as (c & Ec & Hc).
  destruct (rs_eq_members size gs a b L R Ba Bb ltac:(lia) ltac:(lia)) as (r & Er & Hr).
  assert (Ff : forall l : list Z, zlen l = size -> firstn (Z.to_nat size) l = l).
  { intros l Hl. apply firstn_all2. unfold zlen in Hl. lia. }
  rewrite (Ff a La), (Ff b Lb) in Hc. rewrite Ec, Er. split.
  - intros E. injection E as ->. f_equal. apply Hr. intros g _. now rewrite (proj1 Hc eq_refl).
  - intros Hu. f_equal. destruct r, c; try reflexivity.
    + exfalso. assert (a = b) as E. { apply (members_bytes size gs); auto. now apply Hr. }
      apply Hc in E. discriminate.
    + exfalso. assert (false = true) as E; [|discriminate]. apply Hr. intros g _. now rewrite (proj1 Hc eq_refl).
Qed.

Theorem C90_built_partial : forall size gs a b,
  layout size gs -> rust_fields gs -> built size gs a -> built size gs b ->
  rs_eq gs a b = cpp_eq size a b /\ (rs_eq gs a b = Value true <-> a = b).
Proof.
  intros size gs a b L R Ha Hb.
  destruct (built_bits size gs a L R Ha) as [Sa Ua]. destruct (built_bits size gs b L R Hb) as [Sb Ub].
  destruct (C90_agree_partial size gs a b L R Sa Sb) as [_ H].
  assert (E : rs_eq gs a b = cpp_eq size a b).
  { apply H. intros i Hi Hu. rewrite Ua, Ub by (auto; lia). reflexivity. }
  split; [assumption|]. rewrite E. pose proof Sa as [Ba La]. pose proof Sb as [Bb Lb].
  destruct (C90_cpp_eq size a b ltac:(destruct L; assumption) ltac:(lia) ltac:(lia)) as (c & Ec & Hc).
  rewrite !firstn_all2 in Hc by (unfold zlen in *; lia). rewrite Ec. split.
  - intros E'. injection E' as ->. now apply Hc.
  - intros E'. f_equal. now apply Hc.
Qed.

(** C++'s [<] (the data followed by the 8 bytes of padding): all members are smaller.  With at least one member
    it is irreflexive, asymmetric and transitive ... *)
Theorem C90_less : forall size gs a b, layout size gs ->
  is_bytes a -> is_bytes b -> size + 8 <= zlen a -> size + 8 <= zlen b ->
  exists r, cpp_less gs a b = Value r /\ (r = true <-> forall g, In g gs -> stored g a < stored g b).
Proof. exact cpp_less_values. Qed.

Theorem C90_less_order : forall size gs a b c, layout size gs -> gs <> [] ->
  is_bytes a -> is_bytes b -> is_bytes c -> size + 8 <= zlen a -> size + 8 <= zlen b -> size + 8 <= zlen c ->
  cpp_less gs a a = Value false /\
  (cpp_less gs a b = Value true -> cpp_less gs b a = Value false) /\
  (cpp_less gs a b = Value true -> cpp_less gs b c = Value true -> cpp_less gs a c = Value true).
Proof.
  intros size gs a b c L Hne Ba Bb Bc La Lb Lc. destruct gs as [|g t]; [congruence|]. set (gs := g :: t) in *.
  assert (Hg : In g gs) by now left.
  pose proof (cpp_less_values size gs a a L Ba Ba La La) as (raa & Eaa & Haa).
  pose proof (cpp_less_values size gs a b L Ba Bb La Lb) as (rab & Eab & Hab).
  pose proof (cpp_less_values size gs b a L Bb Ba Lb La) as (rba & Eba & Hba).
  pose proof (cpp_less_values size gs b c L Bb Bc Lb Lc) as (rbc & Ebc & Hbc).
  pose proof (cpp_less_values size gs a c L Ba Bc La Lc) as (rac & Eac & Hac).
  rewrite Eaa, Eab, Eba, Ebc, Eac. split; [|split].
  - f_equal. destruct raa; [|reflexivity]. pose proof (proj1 Haa eq_refl g Hg). lia.
  - intros E. injection E as ->. f_equal. destruct rba; [|reflexivity].
    pose proof (proj1 Hab eq_refl g Hg). pose proof (proj1 Hba eq_refl g Hg). lia.
  - intros E1 E2. injection E1 as ->. injection E2 as ->. f_equal. apply Hac. intros h Hh.
    pose proof (proj1 Hab eq_refl h Hh). pose proof (proj1 Hbc eq_refl h Hh). lia.
Qed.

(** ... but no strict weak order: being incomparable is not transitive, so that it cannot be used to sort. *)
Definition two_bytes : list gfield :=
  [GF (FSig "x" 0 8 false) 8 None None; GF (FSig "y" 8 8 false) 8 None None].
Theorem C90_less_refuted :
  let pad l := (l ++ zeros 8)%list in
  layout 2 two_bytes /\
  (cpp_less two_bytes (pad [0; 1]) (pad [5; 0]) = Value false /\ cpp_less two_bytes (pad [5; 0]) (pad [0; 1]) = Value false) /\
  (cpp_less two_bytes (pad [5; 0]) (pad [1; 5]) = Value false /\ cpp_less two_bytes (pad [1; 5]) (pad [5; 0]) = Value false) /\
  cpp_less two_bytes (pad [0; 1]) (pad [1; 5]) = Value true.
Proof.
  cbv zeta. split; [|repeat split; vm_compute; reflexivity].
  split; [lia|]. split; [cbn; lia|].
  repeat constructor; cbn; try lia; try discriminate.
Qed.

(** Rust ignores the bits outside the fields, C++ does not. *)
Definition nibble : list gfield := [GF (FSig "x" 0 4 false) 8 None (Some 15)].
Theorem C90_equal_refuted :
  layout 1 nibble /\ rust_fields nibble /\ struct_bytes 1 [0x31] /\ struct_bytes 1 [0x21] /\
  rs_eq nibble [0x31] [0x21] = Value true /\ cpp_eq 1 [0x31] [0x21] = Value false.
Proof.
  split; [|split; [|split; [|split; [|split; vm_compute; reflexivity]]]].
  - split; [lia|]. split; [cbn; lia|]. apply Forall_cons; [|constructor]. cbn [gf_sig gf_bits gf_variants gf_invalid f_off f_width f_signed].
    unfold field_ok, type_holds, representable. cbn. split; [lia|]. split; [split; [lia|discriminate]|].
    split; [discriminate|]. intros i [= <-]. lia.
  - repeat constructor. cbn. lia.
  - split; [|reflexivity]. repeat constructor; cbn; lia.
  - split; [|reflexivity]. repeat constructor; cbn; lia.
Qed.

(** [from_bytes_slice] gives the structure at the start of a slice that is long enough, and panics for any other:
    the error it is declared to return never comes. *)
Theorem C90_slice : forall size data, 0 <= size ->
  (size <= zlen data -> exists d, rs_from_slice size data = Value (inl d) /\ zlen d = size /\
     exists rest, data = (d ++ rest)%list) /\
  (zlen data < size -> rs_from_slice size data = Throws).
Proof.
  intros size data H0. unfold rs_from_slice. split; intros H.
  - replace (zlen data <? size) with false by lia. eexists. split; [reflexivity|]. split.
    + unfold zlen in *. rewrite firstn_length. lia.
    + exists (skipn (Z.to_nat size) data). symmetry. apply firstn_skipn.
  - replace (zlen data <? size) with true by lia. replace (zlen data =? size) with false by lia. reflexivity.
Qed.

(** A range member of element [k] of a vector of structures is the field of element [k] and of element
    [k + 1]. *)
Theorem C90_range_partial : forall size gs g data k,
  layout size gs -> In g gs -> is_bytes data -> 0 <= k -> (k + 2) * size <= zlen data ->
  f_off (gf_sig g) mod 8 + f_width (gf_sig g) <= 64 ->
  rs_range g size (skipn (Z.to_nat (k * size)) data) =
    Value (stored g (skipn (Z.to_nat (k * size)) data), stored g (skipn (Z.to_nat ((k + 1) * size)) data)).
Proof.
  intros size gs g data k L Hg Hb Hk Hl Hr. pose proof L as (Hs & _ & _).
  destruct (layout_field size gs g L Hg) as ([Hw H1] & Ht & _ & _ & H0 & Hhi).
  assert (Hlen : zlen (skipn (Z.to_nat (k * size)) data) = zlen data - k * size).
  { unfold zlen in *. rewrite skipn_length. lia. }
  unfold rs_range. cbv zeta.
  rewrite rust_read_value; auto; [|now apply is_bytes_skipn|unfold in_bounds; lia|now left].
  rewrite rust_read_value; auto; [|now apply is_bytes_skipn|unfold in_bounds; lia|].
  2:{ left. rewrite Z.mod_add by lia. assumption. }
  do 2 f_equal. unfold stored.
  rewrite !schema_value_skipn by lia. f_equal. lia.
Qed.

(** Everything at once for a structure with an optional member, an enumeration and an unused byte. *)
Definition demo : list gfield :=
  [GF (FSig "a" 0 4 true) 8 None (Some (-1)); GF (FSig "e" 4 2 false) 8 (Some [0; 1; 2; 3]) None;
   GF (FSig "b" 6 17 false) 32 None None].
Example C90_instance :
  layout 4 demo /\ rust_fields demo /\ struct_bytes 4 [0x1f; 2; 0; 0x80] /\ struct_bytes 4 [0x2c; 1; 0; 0x7] /\
  assignable (GF (FSig "a" 0 4 true) 8 None (Some (-1))) None /\
  unused demo 31 /\ built 4 demo (rs_new 4) /\
  map (fun g => rs_get g [0x1f; 2; 0; 0x80]) demo = [Value None; Value (Some 1); Value (Some 8)] /\
  rs_set (GF (FSig "a" 0 4 true) 8 None (Some (-1))) [0x2c; 1; 0; 0x7] None = Value [0x2f; 1; 0; 0x7] /\
  rs_fill demo [0x1f; 2; 0; 0x80] [0x2c; 1; 0; 0x7] = Value [0x2c; 1; 0; 0x80] /\
  rs_eq demo [0x1f; 2; 0; 0x80] [0x2c; 1; 0; 0x7] = Value false /\
  rs_eq demo [0x2c; 1; 0; 0x80] [0x2c; 1; 0; 0x7] = Value true /\
  rs_range (GF (FSig "b" 6 17 false) 32 None None) 4 [0x1f; 2; 0; 0x80; 0x2c; 1; 0; 0x7] = Value (8, 4).
Proof.
  split.
  { split; [lia|]. split; [cbn; lia|]. unfold field_ok, type_holds, representable.
    repeat (apply Forall_cons; [cbn|]); [| | |constructor].
    - split; [lia|]. split; [lia|]. split; [discriminate|]. intros i [= <-]. lia.
    - split; [lia|]. split; [split; [lia|discriminate]|]. split; [|discriminate].
      intros vs [= <-] v Hv. assert (v = 0 \/ v = 1 \/ v = 2 \/ v = 3) by lia. cbn. intuition lia.
    - split; [lia|]. split; [split; [lia|discriminate]|]. split; discriminate. }
  split; [repeat constructor; cbn; lia|].
  split; [split; [repeat constructor; cbn; lia|reflexivity]|].
  split; [split; [repeat constructor; cbn; lia|reflexivity]|].
  split; [cbn; congruence|].
  split. { intros g Hg. cbn in Hg. destruct Hg as [<-|[<-|[<-|[]]]]; cbn; lia. }
  split; [constructor|]. repeat split; vm_compute; reflexivity.
Qed.

(** C91: for an enumeration the generator accepts, reading a member of that type from any bytes gives one of the
    declared or generated variants: no undefined behaviour. *)
Theorem C91_enumeration_partial : forall set_order name ty w vals t cs fname off bits data,
  (forall l, Permutation (set_order l) l) -> create_enum set_order name ty w vals = Ok (t, cs) ->
  1 <= bt_width t <= 64 -> (bt_width t = 1 -> bt_signed t = false) ->
  type_holds bits (bt_signed t) (bt_width t) ->
  is_bytes data -> in_bounds (zlen data) off (bt_width t) -> off mod 8 + bt_width t <= 64 \/ off < 8 ->
  exists c, In c cs /\
    rs_get (GF (FSig fname off (bt_width t) (bt_signed t)) bits (Some (map ev_value cs)) None) data = Value (Some (ev_value c)) /\
    ev_value c = schema_value data off (bt_width t) (bt_signed t) /\
    (forall c', In c' cs -> ev_value c' = ev_value c -> c' = c).
Proof.
  intros so name ty w vals t cs fname off bits data Hso H Hw H1 Ht Hb Hin Hr.
  destruct (C40_total so name ty w vals t cs Hso H) as (Nd & Hv & _).
  pose proof (proj2 (Hv _) (schema_value_representable data off _ _ Hw H1)) as Hi.
  pose proof Hi as Hi'. apply in_map_iff in Hi'. destruct Hi' as (c & Ec & Hc). exists c. split; [assumption|].
  split; [|split; [assumption|]].
  - unfold rs_get. cbn [gf_sig gf_bits gf_variants gf_invalid f_off f_width f_signed].
    rewrite rust_read_value by auto. unfold rs_transmute. rewrite (existsb_Zeqb _ _ Hi). now rewrite Ec.
  - intros c' Hc' E. clear -Nd Hc Hc' E. induction cs as [|x l IH]; [destruct Hc|]. cbn in Nd.
    inversion Nd as [|? ? N1 N2]; subst. destruct Hc as [->|Hc], Hc' as [->|Hc']; auto.
    + exfalso. apply N1. rewrite <- E. now apply in_map.
    + exfalso. apply N1. rewrite E. now apply in_map.
Qed.

(** A signed enumeration of one bit is accepted with the values 0 and -1, but the member is read as 0 or 1: for a
    set bit that is no variant. *)
Theorem C91_refuted :
  exists t cs, create_enum (fun l => l) "E" "i8" (Some 1) [("NO", Some "0"); ("YES", Some "-1")]%string = Ok (t, cs) /\
    bt_width t = 1 /\ map ev_value cs = [0; -1] /\
    rs_get (GF (FSig "e" 0 1 (bt_signed t)) 8 (Some (map ev_value cs)) None) [1] = Undefined.
Proof. do 2 eexists. repeat split; vm_compute; reflexivity. Qed.

Example C91_instance :
  exists t cs, create_enum (fun l => l) "E" "i8" (Some 3) [("A", None); ("B", Some "-3")]%string = Ok (t, cs) /\
    1 <= bt_width t <= 64 /\ (bt_width t = 1 -> bt_signed t = false) /\ type_holds 8 (bt_signed t) (bt_width t) /\
    is_bytes [0xa0; 0x02] /\ in_bounds (zlen [0xa0; 0x02]) 6 (bt_width t) /\
    rs_get (GF (FSig "e" 6 (bt_width t) (bt_signed t)) 8 (Some (map ev_value cs)) None) [0xa0; 0x02] = Value (Some 2).
Proof.
  do 2 eexists. split; [vm_compute; reflexivity|]. cbn. split; [lia|]. split; [discriminate|].
  split; [split; [lia|reflexivity || lia]|]. split; [repeat constructor; cbn; lia|].
  split; [unfold in_bounds; cbn; lia|]. vm_compute. reflexivity.
Qed.

Print Assumptions C90_set_partial. Print Assumptions C90_fill_partial. Print Assumptions C90_agree_partial.
Print Assumptions C90_built_partial. Print Assumptions C90_less_order. Print Assumptions C90_range_partial.
Print Assumptions C91_enumeration_partial. Print Assumptions C91_refuted.
