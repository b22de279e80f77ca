(** C54, C67: the C++ tar reader and the tar storage on top of it. *)
From Coq Require Import List ZArith Bool Lia.
From Coq Require Import ZifyBool ZifyNat.
From Verif Require Import PyBase CppTar CppTarSpec CppTarFacts.
Import ListNotations.
Local Open Scope Z_scope.
Ltac Zify.zify_post_hook ::= Z.div_mod_to_equations.

(** ** C54 *)

(** Every well-formed tar file, except for the cases refuted below: the regular files, in order, with
    their name, the position of their data and their size. *)
Theorem C54_files_partial : forall data ms, tar_members true data ms ->
  exists k, forall fuel, (k <= fuel)%nat -> read_tar fuel data = Returns (files ms).
Proof. exact read_tar_ok. Qed.

(** A header with a wrong checksum is rejected wherever the archive has been well-formed before it. *)
Theorem C54_bad_checksum : forall data ms off pending,
  is_bytes data -> zlen data < 2 ^ 63 -> walk true data 0 None ms off pending ->
  off + 512 <= zlen data -> bytes_at data off 512 <> repeat 0 512 -> ~ checksum_ok (bytes_at data off 512) ->
  exists k, forall fuel, (k <= fuel)%nat -> read_tar fuel data = Throws.
Proof. exact read_tar_bad_checksum. Qed.

(** So is a member of any other type than regular file, directory or GNU long name. *)
Theorem C54_other_types : forall data ms off pending flag size,
  is_bytes data -> zlen data < 2 ^ 63 -> walk true data 0 None ms off pending ->
  header_at data off flag size -> flag <> 48 -> flag <> 0 -> flag <> 53 -> flag <> 76 ->
  exists k, forall fuel, (k <= fuel)%nat -> read_tar fuel data = Throws.
Proof. exact read_tar_other_type. Qed.

(** And a file that is not a whole number of blocks. *)
Theorem C54_bad_length : forall data fuel, zlen data mod 512 <> 0 -> read_tar fuel data = Throws.
Proof.
  intros data fuel H. unfold read_tar, block_size. replace (zlen data mod 512 =? 0) with false by lia. reflexivity.
Qed.

(** The reader ends on every file, one round per block at most, if no size field is absurdly large
    (C54_diverges_refuted shows what happens otherwise). *)
Theorem C54_terminates_partial : forall data fuel, is_bytes data -> zlen data < 2 ^ 63 ->
  (forall p n, 0 <= p -> p mod 512 = 0 -> p + 512 <= zlen data ->
     numeric_field (bytes_at data (p + 124) 12) n -> n < 2 ^ 63 - 1024) ->
  zlen data / 512 + 1 <= Z.of_nat fuel ->
  read_tar fuel data <> Runs.
Proof.
  intros data fuel Hb Hz Hs Hf. unfold read_tar, block_size.
  destruct (zlen data mod 512 =? 0) eqn:E; cbn [negb]; [|discriminate].
  assert (0 <= zlen data) by (unfold zlen; lia).
  apply tar_loop_ends; auto; lia.
Qed.

(** *** Concrete archives *)

Definition octal_digits (n : nat) (v : Z) : list Z :=
  map (fun i => 48 + (v / 8 ^ (Z.of_nat (n - 1 - i))) mod 8) (seq 0 n).
Definition pad_to (n : nat) (l : list Z) : list Z := l ++ repeat 0 (n - List.length l).
(** A header block: name, type, size field, magic and prefix, everything else zero, right checksum. *)
Definition header (name : list Z) (flag : Z) (size magic prefix : list Z) : list Z :=
  let body ck := pad_to 100 name ++ repeat 0 24 ++ size ++ repeat 0 12 ++ ck ++ [flag] ++ repeat 0 100
                 ++ pad_to 88 magic ++ pad_to 167 prefix in
  body (octal_digits 6 (fold_right Z.add 0 (body (repeat 32 8))) ++ [0; 32]).
Definition size_field (n : Z) : list Z := octal_digits 11 n ++ [0].

Lemma header_at_check data off flag size : is_bytes data -> 0 <= off -> off + 512 <= zlen data ->
  existsb (fun b => negb (b =? 0)) (bytes_at data off 512) = true ->
  decode_numeric_field (bytes_at (bytes_at data off 512) 148 8) = Some (checksum (bytes_at data off 512)) ->
  bytes_at data (off + 156) 1 = [flag] ->
  decode_numeric_field (bytes_at data (off + 124) 12) = Some size ->
  header_at data off flag size.
Proof.
  intros Hb Ho Hl Hx Hc Hf Hs. assert (Hsub : forall a n, is_bytes (bytes_at data a n)) by (intros; now apply sub_bytes).
  repeat split; auto.
  - apply existsb_exists in Hx. destruct Hx as (b & Hi & He). exists b. split; [assumption|]. lia.
  - apply decode_inv; [|assumption]. now apply sub_bytes, Hsub.
  - now apply decode_inv.
Qed.

Lemma bytes_check l : forallb (fun b => (0 <=? b) && (b <? 256)) l = true -> is_bytes l.
Proof. intros H. rewrite forallb_forall in H. apply Forall_forall. intros x Hx. specialize (H x Hx). unfold is_byte. lia. Qed.

(** Directory "d", long name "./d/long" for the file after it (5 bytes), then file "f" (1 byte). *)
Definition example : list Z :=
  header [100; 47] 53 (size_field 0) [] [] ++
  header [46; 47] 76 (size_field 9) [] [] ++ pad_to 512 [46; 47; 100; 47; 108; 111; 110; 103; 0] ++
  header [100; 47] 48 (size_field 5) [] [] ++ pad_to 512 [1; 2; 3; 4; 5] ++
  header [102] 0 (size_field 1) [] [] ++ pad_to 512 [7] ++ repeat 0 1024.
Definition example_members : list member :=
  [Directory [100; 47]; File [46; 47; 100; 47; 108; 111; 110; 103] 2048 5; File [102] 3072 1].

Lemma example_ok : tar_members true example example_members.
Proof.
  assert (Hb : is_bytes example) by (apply bytes_check; vm_compute; reflexivity).
  assert (Lz : zlen example = 4608) by (vm_compute; reflexivity).
  assert (Hnp : forall off, bytes_at example (off + 257) 6 <> [117; 115; 116; 97; 114; 0] -> ~ has_prefix example off).
  { intros off Hx [Hp _]. exact (Hx Hp). }
  split; [assumption|]. split; [rewrite Lz; reflexivity|]. split; [rewrite Lz; reflexivity|].
  exists 3584. split; [|right; rewrite Lz; split; [lia|vm_compute; reflexivity]].
  eapply walk_dir with (own := [100; 47]); [| | reflexivity | reflexivity |].
  { apply header_at_check; auto; try (rewrite Lz; lia); try lia; vm_compute; reflexivity. }
  { left. split; [apply Hnp; vm_compute; discriminate|]. apply text_of_cstr. vm_compute. reflexivity. }
  eapply walk_long with (size := 9) (name := [46; 47; 100; 47; 108; 111; 110; 103]).
  { apply header_at_check; auto; try (rewrite Lz; lia); try lia; vm_compute; reflexivity. }
  { apply text_of_cstr. vm_compute. reflexivity. }
  { discriminate. } { rewrite Lz. vm_compute. discriminate. }
  eapply walk_file with (own := [100; 47]) (flag := 48); [now left| | |discriminate|reflexivity| |].
  { apply header_at_check; auto; try (rewrite Lz; vm_compute; discriminate); try (vm_compute; discriminate); vm_compute; reflexivity. }
  { left. split; [apply Hnp; vm_compute; discriminate|]. apply text_of_cstr. vm_compute. reflexivity. }
  { rewrite Lz. vm_compute. discriminate. }
  eapply walk_file with (own := [102]) (flag := 0); [now right| | | |reflexivity| |].
  { apply header_at_check; auto; try (rewrite Lz; vm_compute; discriminate); try (vm_compute; discriminate); vm_compute; reflexivity. }
  { left. split; [apply Hnp; vm_compute; discriminate|]. apply text_of_cstr. vm_compute. reflexivity. }
  { intros _ _. apply Hnp; vm_compute; discriminate. }
  { rewrite Lz. vm_compute. discriminate. }
  apply walk_nil.
Qed.

Theorem C54_instance : exists k, forall fuel, (k <= fuel)%nat ->
  read_tar fuel example =
  Returns [Entry [46; 47; 100; 47; 108; 111; 110; 103] 2048 5; Entry [102] 3072 1].
Proof. exact (C54_files_partial example example_members example_ok). Qed.

(** A POSIX header with a prefix field: the reader drops the prefix. *)
Definition with_prefix : list Z :=
  header [102] 48 (size_field 0) [117; 115; 116; 97; 114; 0; 48; 48] [112] ++ repeat 0 1024.

Theorem C54_prefix_refuted : exists data ms, tar_members false data ms /\
  files ms = [Entry [112; 47; 102] 512 0] /\
  forall fuel, (2 <= fuel)%nat -> read_tar fuel data = Returns [Entry [102] 512 0].
Proof.
  exists with_prefix, [File [112; 47; 102] 512 0].
  assert (Hb : is_bytes with_prefix) by (apply bytes_check; vm_compute; reflexivity).
  assert (Lz : zlen with_prefix = 1536) by (vm_compute; reflexivity).
  split; [|split; [reflexivity|]].
  - split; [assumption|]. split; [rewrite Lz; reflexivity|]. split; [rewrite Lz; reflexivity|].
    exists 512. split; [|right; rewrite Lz; split; [lia|vm_compute; reflexivity]].
    change (File [112; 47; 102] 512 0) with (File [112; 47; 102] (0 + 512) 0).
    eapply walk_file with (own := [112; 47; 102]) (flag := 48); [now left| | |discriminate|reflexivity| |].
    { apply header_at_check; auto; try (rewrite Lz; lia); try lia; vm_compute; reflexivity. }
    { right. split.
      - split; [vm_compute; reflexivity|]. exists 112. split; [vm_compute; reflexivity|discriminate].
      - exists [112], [102]. split; [|split; [|reflexivity]]; apply text_of_cstr; vm_compute; reflexivity. }
    { rewrite Lz. vm_compute. discriminate. }
    apply walk_nil.
  - intros fuel Hf. destruct fuel as [|[|fuel]]; [lia|lia|]. vm_compute. reflexivity.
Qed.

(** A GNU long name that belongs to a directory is given to the next regular file instead. *)
Definition long_directory : list Z :=
  header [46] 76 (size_field 4) [] [] ++ pad_to 512 [100; 100; 47; 0] ++
  header [100; 47] 53 (size_field 0) [] [] ++
  header [102] 48 (size_field 0) [] [] ++ repeat 0 1024.

Theorem C54_long_directory_refuted : exists data ms, tar_members false data ms /\
  ms = [Directory [100; 100; 47]; File [102] 2048 0] /\
  forall fuel, (4 <= fuel)%nat -> read_tar fuel data = Returns [Entry [100; 100; 47] 2048 0].
Proof.
  exists long_directory, [Directory [100; 100; 47]; File [102] 2048 0].
  assert (Hb : is_bytes long_directory) by (apply bytes_check; vm_compute; reflexivity).
  assert (Lz : zlen long_directory = 3072) by (vm_compute; reflexivity).
  assert (Hnp : forall off, bytes_at long_directory (off + 257) 6 <> [117; 115; 116; 97; 114; 0] -> ~ has_prefix long_directory off).
  { intros off Hx [Hp _]. exact (Hx Hp). }
  split; [|split; [reflexivity|]].
  - split; [assumption|]. split; [rewrite Lz; reflexivity|]. split; [rewrite Lz; reflexivity|].
    exists 2048. split; [|right; rewrite Lz; split; [lia|vm_compute; reflexivity]].
    eapply walk_long with (size := 4) (name := [100; 100; 47]).
    { apply header_at_check; auto; try (rewrite Lz; lia); try lia; vm_compute; reflexivity. }
    { apply text_of_cstr. vm_compute. reflexivity. }
    { discriminate. } { rewrite Lz. vm_compute. discriminate. }
    eapply walk_dir with (own := [100; 47]); [| | discriminate | reflexivity |].
    { apply header_at_check; auto; try (rewrite Lz; vm_compute; discriminate); try (vm_compute; discriminate); vm_compute; reflexivity. }
    { left. split; [apply Hnp; vm_compute; discriminate|]. apply text_of_cstr. vm_compute. reflexivity. }
    eapply walk_file with (own := [102]) (flag := 48); [now left| | |discriminate|reflexivity| |].
    { apply header_at_check; auto; try (rewrite Lz; vm_compute; discriminate); try (vm_compute; discriminate); vm_compute; reflexivity. }
    { left. split; [apply Hnp; vm_compute; discriminate|]. apply text_of_cstr. vm_compute. reflexivity. }
    { rewrite Lz. vm_compute. discriminate. }
    apply walk_nil.
  - intros fuel Hf. do 4 (destruct fuel as [|fuel]; [lia|]). vm_compute. reflexivity.
Qed.

(** Size fields whose digits end in a space, which POSIX allows, are rejected. *)
Definition with_space : list Z := header [102] 48 (octal_digits 11 0 ++ [32]) [] [] ++ repeat 0 1024.

Theorem C54_space_refuted :
  octal_field_posix (bytes_at with_space 124 12) 0 /\ checksum_ok (bytes_at with_space 0 512) /\
  forall fuel, (1 <= fuel)%nat -> read_tar fuel with_space = Throws.
Proof.
  split; [|split].
  - exists (repeat 0 11), 32, []. split; [vm_compute; reflexivity|]. split; [|split; [now right|reflexivity]].
    repeat constructor; lia.
  - apply decode_inv; [apply bytes_check|]; vm_compute; reflexivity.
  - intros fuel Hf. destruct fuel as [|fuel]; [lia|]. vm_compute. reflexivity.
Qed.

(** One header whose (base-256) size is 2^64 - 512 sends the reader back to the first block for ever. *)
Definition looping : list Z :=
  header [102] 48 [128; 0; 0; 0; 255; 255; 255; 255; 255; 255; 254; 0] [] [].

Theorem C54_diverges_refuted : zlen looping = 512 /\ header_at looping 0 48 (2 ^ 64 - 512) /\
  forall fuel, read_tar fuel looping = Runs.
Proof.
  assert (Hb : is_bytes looping) by (apply bytes_check; vm_compute; reflexivity).
  assert (Lz : zlen looping = 512) by (vm_compute; reflexivity).
  split; [assumption|]. split.
  - apply header_at_check; auto; try (rewrite Lz; lia); try lia; vm_compute; reflexivity.
  - assert (E : forall fuel acc, tar_loop fuel looping 0 [] acc = Runs).
    { induction fuel as [|fuel IH]; intros acc; [reflexivity|].
      assert (Es : tar_loop (S fuel) looping 0 [] acc = tar_loop fuel looping 0 [] (Entry [102] 512 (2 ^ 64 - 512) :: acc)).
      { cbn [tar_loop]. change (Z.to_nat 0) with 0%nat. set (h := sub looping 0 512).
        assert (E1 : (0 <? zlen looping) = true) by (rewrite Lz; reflexivity). rewrite E1. cbn [negb].
        assert (E2 : forallb (fun b => b =? 0) h = false) by (vm_compute; reflexivity). rewrite E2.
        assert (E3 : verify_checksum h = Some true) by (vm_compute; reflexivity). rewrite E3.
        assert (E4 : nth 156 h 0 = 48) by (vm_compute; reflexivity). rewrite E4.
        assert (E5 : decode_numeric_field (sub h 124 12) = Some (2 ^ 64 - 512)) by (vm_compute; reflexivity).
        rewrite E5. replace ((48 =? 48) || (48 =? 0)) with true by reflexivity.
        assert (E6 : cstr (sub h 0 100) = [102]) by (vm_compute; reflexivity). rewrite E6. reflexivity. }
      rewrite Es. apply IH. }
    intros fuel. unfold read_tar. rewrite Lz. apply E.
Qed.

(** ** C67 *)

(** Reading a path gives exactly the file's bytes; reading any other path gives nothing. *)
Theorem C67_read : forall data ms path offset size, tar_members true data ms -> distinct_paths ms ->
  file_at ms path offset size ->
  exists k, forall fuel, (k <= fuel)%nat -> tar_read fuel data path = Some (Some (bytes_at data offset size)).
Proof. exact tar_read_file. Qed.

Theorem C67_absent : forall data ms path, tar_members true data ms ->
  (forall offset size, ~ file_at ms path offset size) ->
  exists k, forall fuel, (k <= fuel)%nat -> tar_read fuel data path = Some None.
Proof. exact tar_read_absent. Qed.

(** Going through directories and then reading a key reads the path with slashes between the names. *)
Theorem C67_directory : forall dirs key, Forall (fun d => d <> []) dirs ->
  storage_path [] dirs key = slashes (dirs ++ [key]).
Proof. exact storage_path_slashes. Qed.

Theorem C67_instance : distinct_paths example_members /\
  (exists k, forall fuel, (k <= fuel)%nat ->
     tar_read fuel example (storage_path [] [[100]] [108; 111; 110; 103]) = Some (Some [1; 2; 3; 4; 5])) /\
  (exists k, forall fuel, (k <= fuel)%nat -> tar_read fuel example [103] = Some None).
Proof.
  assert (Hd : distinct_paths example_members).
  { intros p a b n1 o1 s1 n2 o2 s2 H1 H2 P1 P2.
    destruct a as [|[|[|a]]], b as [|[|[|b]]]; cbn in H1, H2; try discriminate; try reflexivity;
      try (destruct a; discriminate); try (destruct b; discriminate);
      injection H1 as <- <- <-; injection H2 as <- <- <-;
      destruct P1 as [P1|[P1 _]], P2 as [P2|[P2 _]]; congruence. }
  split; [assumption|]. split.
  - rewrite C67_directory by (constructor; [discriminate|constructor]).
    destruct (C67_read example example_members [100; 47; 108; 111; 110; 103] 2048 5 example_ok Hd) as [k Hk].
    { exists [46; 47; 100; 47; 108; 111; 110; 103]. split; [cbn; auto|now left]. }
    exists k. intros fuel Hf. cbn [slashes app]. rewrite (Hk fuel Hf). vm_compute. reflexivity.
  - apply (C67_absent example example_members [103] example_ok).
    intros o s (n & [H|[H|[H|[]]]] & Hp); try discriminate; injection H as <- <- <-;
      destruct Hp as [Hp|[Hp _]]; discriminate.
Qed.

(** When a path occurs twice (as after "tar --append") the first one is read; tar's rule, and the Python
    reader's, is that the last one counts. *)
Definition twice : list Z :=
  header [102] 48 (size_field 1) [] [] ++ pad_to 512 [1] ++
  header [102] 48 (size_field 1) [] [] ++ pad_to 512 [2] ++ repeat 0 1024.

Theorem C67_twice_refuted : tar_members true twice [File [102] 512 1; File [102] 1536 1] /\
  bytes_at twice 1536 1 = [2] /\
  forall fuel, (3 <= fuel)%nat -> tar_read fuel twice [102] = Some (Some [1]).
Proof.
  assert (Hb : is_bytes twice) by (apply bytes_check; vm_compute; reflexivity).
  assert (Lz : zlen twice = 3072) by (vm_compute; reflexivity).
  assert (Hnp : forall off, bytes_at twice (off + 257) 6 <> [117; 115; 116; 97; 114; 0] -> ~ has_prefix twice off).
  { intros off Hx [Hp _]. exact (Hx Hp). }
  split; [|split; [vm_compute; reflexivity|]].
  - split; [assumption|]. split; [rewrite Lz; reflexivity|]. split; [rewrite Lz; reflexivity|].
    exists 2048. split; [|right; rewrite Lz; split; [lia|vm_compute; reflexivity]].
    eapply walk_file with (own := [102]) (flag := 48) (off := 0); [now left| | | |reflexivity| |].
    { apply header_at_check; auto; try (rewrite Lz; lia); try lia; vm_compute; reflexivity. }
    { left. split; [apply Hnp; vm_compute; discriminate|]. apply text_of_cstr. vm_compute. reflexivity. }
    { intros _ _. apply Hnp; vm_compute; discriminate. }
    { rewrite Lz. vm_compute. discriminate. }
    eapply walk_file with (own := [102]) (flag := 48); [now left| | | |reflexivity| |].
    { apply header_at_check; auto; try (rewrite Lz; vm_compute; discriminate); try (vm_compute; discriminate); vm_compute; reflexivity. }
    { left. split; [apply Hnp; vm_compute; discriminate|]. apply text_of_cstr. vm_compute. reflexivity. }
    { intros _ _. apply Hnp; vm_compute; discriminate. }
    { rewrite Lz. vm_compute. discriminate. }
    apply walk_nil.
  - intros fuel Hf. do 3 (destruct fuel as [|fuel]; [lia|]). vm_compute. reflexivity.
Qed.
