(** Facts about C++ array views and vectors in memory. *)
From Coq Require Import List ZArith Bool Lia String.
From Coq Require Import ZifyBool ZifyNat.
From Verif Require Import PyBase Spec DataAccess Structure StructSpec BitFacts DataAccessFacts DataAccessThms StructFacts
  SliceFacts Resources Builder Archive ArchiveSpec ResourceFacts BuilderFacts ArchiveFacts Codecs CodecSpec CodecFacts CodecThms
  Streams StoreSpec StoreFacts CppStore CppFacts.
Import ListNotations.
Local Open Scope string_scope.
Local Open Scope Z_scope.
Ltac Zify.zify_post_hook ::= Z.div_mod_to_equations.

Lemma zeros_len n : List.length (zeros n) = n.
Proof. apply repeat_length. Qed.
Lemma iterate_nth t : forall n mem i, (i < n)%nat -> nth_error (av_iterate t mem n) i = Some (skipn (e_size t * i) mem).
Proof.
  induction n as [|n IH]; intros mem i Hi; [lia|]. destruct i as [|i]; cbn [av_iterate nth_error].
  - now rewrite Nat.mul_0_r, skipn_O.
  - rewrite IH by lia. rewrite skipn_add. do 2 f_equal. lia.
Qed.
Lemma iterate_length t : forall n mem, List.length (av_iterate t mem n) = n.
Proof. induction n as [|n IH]; intros mem; cbn; [reflexivity|]. now rewrite IH. Qed.
Lemma iterate_firstn t : forall n m mem, (m <= n)%nat -> firstn m (av_iterate t mem n) = av_iterate t mem m.
Proof.
  induction n as [|n IH]; intros [|m] mem H; cbn [av_iterate firstn]; try reflexivity; [lia|]. rewrite IH by lia. reflexivity.
Qed.
Lemma iterate_skipn t : forall k n mem, (k <= n)%nat -> skipn k (av_iterate t mem n) = av_iterate t (skipn (k * e_size t) mem) (n - k).
Proof.
  induction k as [|k IH]; intros n mem H.
  - now rewrite Nat.sub_0_r.
  - destruct n as [|n]; [lia|]. cbn [av_iterate skipn]. rewrite IH by lia. rewrite skipn_add. reflexivity.
Qed.
Lemma concat_length {A} (rs : list (list A)) size : Forall (fun r => List.length r = size) rs -> List.length (List.concat rs) = (List.length rs * size)%nat.
Proof. induction 1; cbn; [reflexivity|]. rewrite app_length. lia. Qed.
Lemma concat_skip {A} (rs : list (list A)) size rest : Forall (fun r => List.length r = size) rs -> forall i, (i <= List.length rs)%nat ->
  skipn (size * i) (List.concat rs ++ rest) = (List.concat (skipn i rs) ++ rest)%list.
Proof.
  induction 1 as [|r rs Hr Hrs IH]; intros i Hi.
  - cbn in Hi. replace i with 0%nat by lia. now rewrite Nat.mul_0_r, !skipn_O.
  - destruct i as [|i]; [now rewrite Nat.mul_0_r, !skipn_O|]. cbn [List.concat skipn]. rewrite <- IH by (cbn in Hi; lia).
    rewrite <- app_assoc. replace (size * S i)%nat with (List.length r + size * i)%nat by lia.
    rewrite skipn_app. rewrite skipn_all2 by lia. cbn [app]. f_equal. lia.
Qed.

(** The view of a sequence of records. *)
Lemma view_size t (rs : list (list Z)) rest : Forall (fun r => List.length r = e_size t) rs -> (0 < e_size t)%nat ->
  av_size (av_create t (List.concat rs ++ rest) (zlen (List.concat rs))) =
  Z.of_nat (List.length rs - (if e_overlap t then 1 else 0)).
Proof.
  intros H Hs. unfold av_create. cbn [av_size].
  assert (E : zlen (List.concat rs) / Z.of_nat (e_size t) = Z.of_nat (List.length rs)).
  { unfold zlen. rewrite (concat_length rs (e_size t) H). rewrite Nat2Z.inj_mul. apply Z.div_mul. lia. }
  rewrite E. destruct (e_overlap t); cbn [andb]; [|lia]. destruct (Z.of_nat (List.length rs) =? 0) eqn:Ez; cbn [negb]; lia.
Qed.
Lemma view_elements t (rs : list (list Z)) rest : Forall (fun r => List.length r = e_size t) rs -> (0 < e_size t)%nat ->
  let v := av_create t (List.concat rs ++ rest) (zlen (List.concat rs)) in
  let n := (List.length rs - (if e_overlap t then 1 else 0))%nat in
  List.length (av_elements t v) = n /\
  forall i, (i < n)%nat -> nth_error (av_elements t v) i = Some (List.concat (skipn i rs) ++ rest)%list /\ av_at t v i = (List.concat (skipn i rs) ++ rest)%list.
Proof.
  intros H Hs v n. unfold av_elements, v. rewrite view_size by assumption. rewrite Nat2Z.id. split; [apply iterate_length|].
  intros i Hi. unfold av_at, av_create. cbn [av_mem]. rewrite iterate_nth by exact Hi. rewrite concat_skip; [auto|assumption|unfold n in Hi; lia].
Qed.

(** ** Vectors in memory *)
Inductive vop : Type := VGrow (f : filler) | VSet (i : nat) (f : filler) | VPop | VResize (n : nat).
Definition vec_op (t : etype) (v : cvector) (op : vop) : option cvector :=
  match op with
  | VGrow f => vec_grow t v f
  | VSet i f => vec_set t v i f
  | VPop => Some (vec_pop t v)
  | VResize n => Some (vec_resize t v n)
  end.
Fixpoint vec_ops (t : etype) (v : cvector) (ops : list vop) : option cvector :=
  match ops with
  | [] => Some v
  | op :: ops => v <== vec_op t v op ;; vec_ops t v ops
  end.

(** The operation turns the records [rs] into [rs'].  Without [shrink] records are only added, and new ones are zero until
    something is assigned; with [shrink], records may also be removed, and a new one must be assigned completely. *)
Inductive vdoes (size : nat) (shrink : bool) : vop -> list (list Z) -> list (list Z) -> Prop :=
| DGrowZero f r rs : shrink = false -> fills size f (zeros size) r -> vdoes size shrink (VGrow f) rs (rs ++ [r])
| DGrow f r rs : (forall old, List.length old = size -> is_bytes old -> fills size f old r) -> vdoes size shrink (VGrow f) rs (rs ++ [r])
| DSet i f old new rs : nth_error rs i = Some old -> fills size f old new -> vdoes size shrink (VSet i f) rs (set_at rs i new)
| DPop rs r : shrink = true -> vdoes size shrink VPop (rs ++ [r]) rs
| DShorten n rs : shrink = true -> (n <= List.length rs)%nat -> vdoes size shrink (VResize n) rs (firstn n rs)
| DExtend n rs : shrink = false -> (List.length rs <= n)%nat ->
    vdoes size shrink (VResize n) rs (rs ++ repeat (zeros size) (n - List.length rs)).
Inductive vdo_all (size : nat) (shrink : bool) : list vop -> list (list Z) -> list (list Z) -> Prop :=
| DNil rs : vdo_all size shrink [] rs rs
| DCons op ops a b c : vdoes size shrink op a b -> vdo_all size shrink ops b c -> vdo_all size shrink (op :: ops) a c.

(** The vector holds these records, followed by 8 bytes of padding, which are zero unless [shrink]. *)
Definition vholds (size : nat) (shrink : bool) (v : cvector) (rs : list (list Z)) : Prop :=
  Forall (fun r => List.length r = size /\ is_bytes r) rs /\
  exists pad, v = (List.concat rs ++ pad)%list /\ List.length pad = 8%nat /\ is_bytes pad /\ (shrink = false -> pad = zeros 8).

Lemma resize_longer d n : (List.length d <= n)%nat -> resize d n = (d ++ zeros (n - List.length d))%list.
Proof. intros H. unfold resize. now rewrite firstn_all2. Qed.
Lemma resize_shorter d n : (n <= List.length d)%nat -> resize d n = firstn n d.
Proof. intros H. unfold resize. replace (n - List.length d)%nat with 0%nat by lia. apply app_nil_r. Qed.
Lemma split_rs {A} (rs : list (list A)) i old : nth_error rs i = Some old ->
  List.concat rs = (List.concat (firstn i rs) ++ old ++ List.concat (skipn (S i) rs))%list /\
  forall new, List.concat (set_at rs i new) = (List.concat (firstn i rs) ++ new ++ List.concat (skipn (S i) rs))%list.
Proof.
  revert i. induction rs as [|r rs IH]; intros [|i] H; cbn in H; try discriminate.
  - injection H as ->. split; [reflexivity|intros new; reflexivity].
  - destruct (IH i H) as [A1 A2]. cbn [firstn skipn List.concat set_at]. split; [rewrite A1 at 1; now rewrite app_assoc|].
    intros new. rewrite A2. now rewrite app_assoc.
Qed.
Lemma rec_lengths size (rs : list (list Z)) : Forall (fun r => List.length r = size /\ is_bytes r) rs -> Forall (fun r => List.length r = size) rs.
Proof. intros H. eapply Forall_impl; [|exact H]. intros r [L _]. exact L. Qed.
Lemma rec_bytes size (rs : list (list Z)) : Forall (fun r => List.length r = size /\ is_bytes r) rs -> is_bytes (List.concat rs).
Proof. induction 1 as [|r rs [_ B] _ IH]; cbn; [constructor|]. now rewrite is_bytes_app. Qed.
Lemma set_at_forall {A} (P : A -> Prop) l : forall i x, Forall P l -> P x -> Forall P (set_at l i x).
Proof. induction l; intros [|i] x H Hx; cbn; auto; inversion H; constructor; auto. Qed.

Lemma vec_size_holds t shrink v rs : (0 < e_size t)%nat -> vholds (e_size t) shrink v rs -> vec_size t v = Z.of_nat (List.length rs).
Proof.
  intros Hs (Hr & pad & -> & Lp & _). unfold vec_size, zlen. rewrite app_length, (concat_length rs _ (rec_lengths _ _ Hr)), Lp.
  unfold PADDING_SIZE. replace (Z.of_nat (List.length rs * e_size t + 8) - Z.of_nat 8) with (Z.of_nat (List.length rs) * Z.of_nat (e_size t)) by lia.
  apply Z.div_mul. lia.
Qed.

Lemma vec_op_holds t shrink v rs op rs' : (0 < e_size t)%nat -> vholds (e_size t) shrink v rs -> vdoes (e_size t) shrink op rs rs' ->
  exists v', vec_op t v op = Some v' /\ vholds (e_size t) shrink v' rs'.
Proof.
  intros Hs Hv Hd. pose proof (vec_size_holds t shrink v rs Hs Hv) as Hn. destruct Hv as (Hr & pad & -> & Lp & Bp & Zp).
  set (size := e_size t) in *.
  assert (Lc : List.length (List.concat rs) = (List.length rs * size)%nat) by (apply concat_length; now apply rec_lengths).
  assert (Hgrow : forall f r, (forall old, old = firstn size (pad ++ zeros size) -> fills size f old r) ->
            exists v', vec_grow t (List.concat rs ++ pad)%list f = Some v' /\ vholds size shrink v' (rs ++ [r])).
  { intros f r Hf. unfold vec_grow. fold size. rewrite resize_longer by lia.
    replace (List.length (List.concat rs ++ pad)%list + size - List.length (List.concat rs ++ pad)%list)%nat with size by lia.
    assert (Hn' : vec_size t ((List.concat rs ++ pad) ++ zeros size)%list = Z.of_nat (List.length rs) + 1).
    { unfold vec_size, zlen. fold size. rewrite !app_length, Lc, Lp, zeros_len. unfold PADDING_SIZE.
      replace (Z.of_nat (List.length rs * size + 8 + size) - Z.of_nat 8) with ((Z.of_nat (List.length rs) + 1) * Z.of_nat size) by lia.
      apply Z.div_mul. lia. }
    rewrite Hn'. replace (size * Z.to_nat (Z.of_nat (List.length rs) + 1 - 1))%nat with (List.length (List.concat rs)) by (rewrite Lc; lia).
    rewrite <- app_assoc. rewrite <- (firstn_skipn size (pad ++ zeros size)).
    assert (Bz : is_bytes (pad ++ zeros size)) by (rewrite is_bytes_app; split; [assumption|apply is_bytes_zeros]).
    assert (Lz : List.length (skipn size (pad ++ zeros size)) = 8%nat) by (rewrite skipn_length, app_length, zeros_len; lia).
    specialize (Hf _ eq_refl).
    rewrite (fill_at_end f size _ _ r _ Hf); [|now apply is_bytes_skipn|unfold zlen; lia].
    eexists. split; [reflexivity|]. destruct Hf as (_ & Lr & Br & _). split; [apply Forall_app; split; [assumption|]; constructor; [auto|constructor]|].
    exists (skipn size (pad ++ zeros size)). split; [rewrite concat_app; cbn [List.concat]; now rewrite app_nil_r, <- app_assoc|].
    split; [assumption|]. split; [now apply is_bytes_skipn|]. intros E. rewrite (Zp E), zeros_swap.
    rewrite skipn_app, zeros_len, Nat.sub_diag, skipn_O, skipn_all2 by (rewrite zeros_len; lia). reflexivity. }
  destruct Hd as [f r rs E Hf|f r rs Hf|i f old new rs E Hf|rs r E|n rs E Hl|n rs E Hl]; cbn [vec_op].
  - apply Hgrow. intros old ->. rewrite (Zp E), zeros_swap. rewrite firstn_app, zeros_len, Nat.sub_diag, firstn_O, app_nil_r, firstn_all2 by (rewrite zeros_len; lia). assumption.
  - apply Hgrow. intros old ->. apply Hf.
    + rewrite firstn_length, app_length, zeros_len. lia.
    + apply is_bytes_firstn. rewrite is_bytes_app. split; [assumption|apply is_bytes_zeros].
  - destruct (split_rs rs i old E) as [A1 A2]. unfold vec_set. fold size.
    assert (Hi : (i < List.length rs)%nat) by (apply nth_error_Some; congruence).
    assert (Lf : List.length (List.concat (firstn i rs)) = (size * i)%nat).
    { rewrite (concat_length _ size); [rewrite firstn_length; lia|]. apply Forall_firstn. now apply rec_lengths. }
    rewrite A1, <- Lf, <- !app_assoc.
    assert (Bs : is_bytes (List.concat (skipn (S i) rs))).
    { apply (rec_bytes size). apply Forall_skipn. assumption. }
    rewrite (fill_at_end f size _ old new _ Hf).
    + eexists. split; [reflexivity|]. destruct Hf as (_ & Ln & Bn & _). split; [apply set_at_forall; auto|].
      exists pad. rewrite A2, <- !app_assoc. auto.
    + rewrite is_bytes_app. auto.
    + rewrite zlen_app. pose proof (zlen_nonneg (List.concat (skipn (S i) rs))). unfold zlen in *. lia.
  - eexists. split; [reflexivity|]. apply Forall_app in Hr. destruct Hr as [Hr1 Hr2]. inversion Hr2 as [|? ? [Lr Br] _]; subst.
    split; [assumption|]. unfold vec_pop. fold size. rewrite resize_shorter by lia.
    rewrite concat_app. cbn [List.concat]. rewrite app_nil_r, <- app_assoc.
    exists (firstn 8 (r ++ pad)). split; [|split; [rewrite firstn_length, app_length; lia|split]].
    + rewrite firstn_app. rewrite !app_length, Lr, Lp. replace (List.length (List.concat rs) + (size + 8) - size - List.length (List.concat rs))%nat with 8%nat by lia.
      rewrite firstn_all2 by lia. reflexivity.
    + apply is_bytes_firstn. rewrite is_bytes_app. auto.
    + congruence.
  - eexists. split; [reflexivity|].
    split; [now apply Forall_firstn|]. unfold vec_resize. fold size. unfold PADDING_SIZE.
    rewrite resize_shorter by (rewrite app_length; nia).
    exists (firstn 8 (List.concat (skipn n rs) ++ pad)). rewrite <- (firstn_skipn n rs) at 1. rewrite concat_app, <- app_assoc.
    assert (Lf : List.length (List.concat (firstn n rs)) = (n * size)%nat).
    { rewrite (concat_length _ size); [now rewrite firstn_length, Nat.min_l by lia|]. apply Forall_firstn. now apply rec_lengths. }
    split; [|split; [rewrite firstn_length, app_length; lia|split]].
    + rewrite firstn_app, Lf. replace (n * size + 8 - n * size)%nat with 8%nat by lia. rewrite firstn_all2 by lia. reflexivity.
    + apply is_bytes_firstn. rewrite is_bytes_app. split; [|assumption]. apply (rec_bytes size). now apply Forall_skipn.
    + congruence.
  - eexists. split; [reflexivity|].
    assert (Lz : Forall (fun r => List.length r = size /\ is_bytes r) (repeat (zeros size) (n - List.length rs))).
    { apply Forall_forall. intros x Hx. apply repeat_spec in Hx. subst x. split; [apply zeros_len|apply is_bytes_zeros]. }
    split; [apply Forall_app; auto|]. unfold vec_resize. fold size. unfold PADDING_SIZE.
    rewrite resize_longer by (rewrite app_length; nia). exists (zeros 8). rewrite (Zp E). rewrite concat_app, <- !app_assoc.
    split; [|split; [apply zeros_len|split; [apply is_bytes_zeros|auto]]].
    f_equal. rewrite app_length, Lc. change (List.length (zeros 8)) with 8%nat.
    replace (n * size + 8 - (List.length rs * size + 8))%nat with ((n - List.length rs) * size)%nat by nia.
    assert (Cz : forall k, List.concat (repeat (zeros size) k) = zeros (k * size)).
    { induction k as [|k IHk]; cbn; [reflexivity|]. now rewrite IHk, zeros_app. }
    rewrite Cz. apply zeros_swap.
Qed.
Lemma vec_ops_holds t shrink : (0 < e_size t)%nat -> forall ops v rs rs', vholds (e_size t) shrink v rs -> vdo_all (e_size t) shrink ops rs rs' ->
  exists v', vec_ops t v ops = Some v' /\ vholds (e_size t) shrink v' rs'.
Proof.
  intros Hs. induction ops as [|op ops IH]; intros v rs rs' Hv Hd; inversion Hd as [|? ? ? b ? H Hn]; subst; cbn [vec_ops]; [eauto|].
  destruct (vec_op_holds t shrink v _ op _ Hs Hv H) as (v1 & E1 & H1).
  rewrite E1. cbn [obind]. eauto.
Qed.
