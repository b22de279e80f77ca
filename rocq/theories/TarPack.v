(** Every well-formed tree can be packed: a tar writer producing the members the hypotheses of C33 / C34 ask for. *)
From Coq Require Import List ZArith Bool String Ascii Lia Permutation.
From Verif Require Import PyBase DataAccess Structure Resources Builder Archive ArchiveSpec OpenSpec TarSpec BuilderFacts
  ArchiveFacts TarFacts.
Import ListNotations.
Local Open Scope string_scope.
Local Open Scope list_scope.

Section FsInd.
  Variable P : list (string * fsnode) -> Prop.
  Hypothesis step : forall es, (forall k es', In (k, NDir es') es -> P es') -> P es.
  Definition Q (x : fsnode) : Prop := match x with NFile _ => True | NDir es => P es end.
  Fixpoint node_ind (x : fsnode) : Q x :=
    match x with
    | NFile _ => I
    | NDir es => step es (fun k es' Hin =>
        (fix go (l : list (string * fsnode)) : In (k, NDir es') l -> P es' :=
           match l with
           | [] => fun H => match H with end
           | (k0, y) :: t => fun H =>
               match H with
               | or_introl E => eq_ind y Q (node_ind y) (NDir es') (f_equal snd E)
               | or_intror H' => go t H'
               end
           end) es Hin)
    end.
  Lemma tree_ind : forall es, P es.
  Proof. intros es. exact (node_ind (NDir es)). Qed.
End FsInd.

Lemma tree_ok_intro es : NoDup (map fst es) ->
  (forall k x, In (k, x) es -> good k /\ forall es', x = NDir es' -> tree_ok es') -> tree_ok es.
Proof.
  intros Hn H. split.
  - intros [|c t] x Hl; [constructor|]. cbn [lookup_path] in Hl. destruct (dict_get es c) as [y|] eqn:E; [|discriminate].
    apply dict_get_in in E. destruct (H _ _ E) as [Hg Hs]. constructor; [assumption|]. destruct t as [|d t]; [constructor|].
    destruct y as [m|es']; [discriminate|]. destruct (Hs es' eq_refl) as [A _]. eapply A; exact Hl.
  - intros [|c t] es' Hl; [inversion Hl; now subst|]. cbn [lookup_path] in Hl. destruct (dict_get es c) as [y|] eqn:E; [|discriminate].
    apply dict_get_in in E. destruct (H _ _ E) as [Hg Hs]. destruct t as [|d t].
    + inversion Hl; subst y. destruct (Hs es' eq_refl) as [_ B]. now apply (B [] es').
    + destruct y as [m|es2]; [discriminate|]. destruct (Hs es2 eq_refl) as [_ B]. eapply B; exact Hl.
Qed.
Lemma tree_ok_elim es : tree_ok es -> NoDup (map fst es) /\ forall k x, In (k, x) es -> good k /\ forall es', x = NDir es' -> tree_ok es'.
Proof.
  intros [A B]. assert (N : NoDup (map fst es)) by now apply (B [] es). split; [assumption|]. intros k x Hin.
  pose proof (dict_get_nodup es k x N Hin) as E. split.
  - assert (F : Forall good [k]) by (apply (A [k] x); cbn [lookup_path]; now rewrite E). now inversion F.
  - intros es' ->. split.
    + intros cs y Hy. destruct cs as [|c t]; [constructor|].
      assert (F : Forall good (k :: c :: t)). { apply (A (k :: c :: t) y). cbn [lookup_path] in *. now rewrite E. }
      now inversion F.
    + intros cs e2 Hy. destruct cs as [|c t].
      * inversion Hy; subst. apply (B [k] e2). cbn [lookup_path]. now rewrite E.
      * apply (B (k :: c :: t) e2). cbn [lookup_path] in *. now rewrite E.
Qed.

Fixpoint members (path : list string) (x : fsnode) : tarfile :=
  (join path, kind_of x) ::
  match x with
  | NFile _ => []
  | NDir es => (fix go (es : list (string * fsnode)) : tarfile :=
                  match es with [] => [] | (k, y) :: t => members (path ++ [k]) y ++ go t end) es
  end.
Definition pack_list (path : list string) (es : list (string * fsnode)) : tarfile :=
  flat_map (fun ky => members (path ++ [fst ky]) (snd ky)) es.
Definition pack (es : list (string * fsnode)) : tarfile := pack_list [] es.

Lemma members_dir path es : members path (NDir es) = (join path, TDir) :: pack_list path es.
Proof.
  cbn [members kind_of]. f_equal. induction es as [|[k y] t IH]; [reflexivity|]. cbn [pack_list flat_map fst snd]. f_equal. exact IH.
Qed.

Lemma pack_list_spec es : tree_ok es -> forall path n k,
  In (n, k) (pack_list path es) <-> exists cs x, cs <> [] /\ lookup_path es cs = Some x /\ n = join (path ++ cs) /\ k = kind_of x.
Proof.
  induction es as [es IH] using tree_ind. intros Ht path n k. apply tree_ok_elim in Ht. destruct Ht as [N H].
  unfold pack_list. rewrite in_flat_map. split.
  - intros ([c y] & Hin & Hm). cbn [fst snd] in Hm. pose proof (dict_get_nodup es c y N Hin) as E.
    destruct y as [m|es'].
    + destruct Hm as [Hm|[]]. inversion Hm; subst. exists [c], (NFile m). split; [discriminate|]. cbn [lookup_path]. rewrite E. auto.
    + rewrite members_dir in Hm. destruct Hm as [Hm|Hm].
      * inversion Hm; subst. exists [c], (NDir es'). split; [discriminate|]. cbn [lookup_path]. rewrite E. auto.
      * apply (IH c es' Hin) in Hm; [|now apply (H c (NDir es') Hin)]. destruct Hm as (cs & x & Hne & Hl & -> & ->).
        exists (c :: cs), x. split; [discriminate|]. split.
        -- cbn [lookup_path]. rewrite E. destruct cs; [congruence|assumption].
        -- rewrite <- app_assoc. auto.
  - intros (cs & x & Hne & Hl & -> & ->). destruct cs as [|c t]; [congruence|]. cbn [lookup_path] in Hl.
    destruct (dict_get es c) as [y|] eqn:E; [|discriminate]. apply dict_get_in in E. exists (c, y). split; [assumption|]. cbn [fst snd].
    destruct t as [|d t].
    + inversion Hl; subst. destruct x as [m|es']; [now left|]. rewrite members_dir. now left.
    + destruct y as [m|es']; [discriminate|]. rewrite members_dir. right. apply (IH c es' E); [now apply (H c (NDir es') E)|].
      exists (d :: t), x. split; [discriminate|]. split; [assumption|]. now rewrite <- app_assoc.
Qed.

Lemma pack_packs es : tree_ok es -> packs (pack es) es.
Proof.
  intros Ht. split.
  - intros n k Hin. right. apply (pack_list_spec es Ht []) in Hin. destruct Hin as (cs & x & ? & ? & -> & ->). cbn [app].
    exists cs, x. auto.
  - intros cs x Hne Hl. left. apply (pack_list_spec es Ht []). exists cs, x. auto.
Qed.

Definition dotted (t : tarfile) : tarfile := (".", TDir) :: map (fun nk => (("./" ++ fst nk)%string, snd nk)) t.
Lemma dotted_packs es : tree_ok es -> packs (dotted (pack es)) es.
Proof.
  intros Ht. split.
  - intros n k [Hin|Hin]; [left; now inversion Hin|]. right. apply in_map_iff in Hin. destruct Hin as ([n' k'] & E & Hin).
    cbn [fst snd] in E. inversion E; subst. apply (pack_list_spec es Ht []) in Hin. destruct Hin as (cs & x & ? & ? & -> & ->).
    exists cs, x. auto.
  - intros cs x Hne Hl. right. right. apply in_map_iff. exists (join cs, kind_of x). split; [reflexivity|].
    apply (pack_list_spec es Ht []). exists cs, x. auto.
Qed.
