(** Facts about the depth-first and breadth-first traversals. *)
From Coq Require Import List ZArith Bool Lia.
From Verif Require Import PyBase GraphSpec GenTraversal.
Import ListNotations.

Section Facts.
  Context {N : Type} (eq_dec : forall x y : N, {x = y} + {x <> y}).
  Variable kids : N -> res (list N).
  Variable root : N.
  Notation edge := (edge kids).
  Notation reachable := (reachable kids).
  Notation mem := (mem eq_dec).

  Lemma mem_spec x l : mem x l = true <-> In x l.
  Proof. unfold GenTraversal.mem; destruct (in_dec eq_dec x l); split; auto; discriminate. Qed.
  Lemma mem_false x l : mem x l = false <-> ~ In x l.
  Proof. unfold GenTraversal.mem; destruct (in_dec eq_dec x l); split; auto; [discriminate|contradiction]. Qed.

  Definition opens (stk : list (N * bool)) : list N := map fst (filter snd stk).
  Lemma in_opens x stk : In x (opens stk) <-> In (x, true) stk.
  Proof.
    unfold opens; rewrite in_map_iff; split.
    - intros ((y, b) & <- & H); apply filter_In in H; destruct H as [H1 H2]; cbn in *; now subst.
    - intros H; exists (x, true); split; [reflexivity|]; apply filter_In; auto.
  Qed.

  (** the parent of a stack entry is the nearest open node beneath it *)
  Definition parent_ok (c : N) (stk : list (N * bool)) : Prop :=
    match opens stk with [] => c = root | p :: _ => edge p c end.
  Fixpoint chain (stk : list (N * bool)) : Prop :=
    match stk with
    | [] => True
    | (c, b) :: s => parent_ok c s /\ ~ In c (opens s) /\ chain s
    end.

  Record inv (s : dstate) : Prop := {
    i_chain : chain (d_stack s);
    i_disc : forall x, In x (d_disc s) <-> In x (opens (d_stack s)) \/ In x (d_proc s);
    i_disj : forall x, In x (opens (d_stack s)) -> ~ In x (d_proc s);
    i_late : d_late s = d_proc s;
    i_early : d_early s = d_disc s;
    i_nodup : NoDup (d_proc s);
    i_nodup_disc : NoDup (d_disc s);
    i_ndo : NoDup (opens (d_stack s));
    i_reach : forall x, In x (d_proc s) -> reachable root x;
    i_cover : forall s1 n s2, d_stack s = s1 ++ (n, true) :: s2 -> forall c, edge n c ->
              In c (d_proc s) \/ In c (map fst s1);
    i_topo : dependencies_first kids (rev (d_proc s));
    i_root : In root (d_proc s) \/ In root (map fst (d_stack s))
  }.

  Lemma opens_reach stk : chain stk -> forall c, In c (map fst stk) -> reachable root c.
  Proof.
    induction stk as [|(x, b) stk IH]; cbn; intros H c Hc; [contradiction|].
    destruct H as (Hp & _ & Hs). destruct Hc as [<-|Hc]; [|eauto].
    unfold parent_ok in Hp. destruct (opens stk) as [|p o] eqn:E; [subst; apply reach_refl|].
    apply reach_edge with p; [|exact Hp]. apply IH; [exact Hs|].
    assert (In p (opens stk)) by (rewrite E; now left). apply in_opens in H.
    apply in_map_iff; exists (p, true); auto.
  Qed.

  (** the open nodes form a path from the root: any of them reaches the topmost *)
  Lemma opens_path stk : chain stk -> forall p o, opens stk = p :: o ->
    forall x, In x (p :: o) -> reachable x p.
  Proof.
    induction stk as [|(c, b) stk IH]; cbn; intros H p o E x Hx; [discriminate|].
    destruct H as (Hp & _ & Hs). destruct b; cbn in E; [|eauto].
    injection E as -> E. destruct Hx as [<-|Hx]; [apply reach_refl|].
    unfold parent_ok in Hp. unfold opens in Hp. rewrite E in Hp.
    destruct o as [|q o]; [contradiction|].
    apply reach_edge with q; [|exact Hp]. eapply IH; eauto.
  Qed.

  Lemma push_ok cs disc proc : forall stk stk', push_kids eq_dec cs disc proc stk = Ok stk' ->
    exists new, stk' = map (fun c => (c, false)) new ++ stk /\
      (forall c, In c new -> In c cs /\ ~ In c disc /\ ~ In c proc) /\
      (forall c, In c cs -> In c proc \/ In c new) /\ length new <= length cs.
  Proof.
    induction cs as [|c cs IH]; cbn; intros stk stk' H.
    - injection H as <-. exists []. repeat split; auto; contradiction.
    - destruct (mem c disc) eqn:Ed; cbn in H.
      + destruct (mem c proc) eqn:Ep; cbn in H; [|discriminate].
        destruct (IH _ _ H) as (new & -> & H1 & H2 & H3). exists new. repeat split; auto; try (apply H1; auto).
        * right; now apply H1. * intros x [<-|Hx]; [left; now apply mem_spec|auto].
      + destruct (mem c proc) eqn:Ep; cbn in H.
        * destruct (IH _ _ H) as (new & -> & H1 & H2 & H3). exists new. repeat split; auto; try (apply H1; auto).
          -- right; now apply H1. -- intros x [<-|Hx]; [left; now apply mem_spec|auto].
        * destruct (IH _ _ H) as (new & -> & H1 & H2 & H3). exists (new ++ [c]).
          split; [now rewrite map_app, <- app_assoc|]. split; [|split].
          -- intros x Hx; apply in_app_or in Hx. destruct Hx as [Hx|[<-|[]]].
             ++ destruct (H1 x Hx) as (? & ? & ?); repeat split; auto.
             ++ repeat split; auto; now apply mem_false.
          -- intros x [<-|Hx]; [right; apply in_or_app; right; now left|].
             destruct (H2 x Hx); [now left|right; apply in_or_app; now left].
          -- rewrite app_length; cbn; lia.
  Qed.
  Lemma push_err cs disc proc e : forall stk, push_kids eq_dec cs disc proc stk = Err e ->
    e = CircularReferencing /\ exists c, In c cs /\ In c disc /\ ~ In c proc.
  Proof.
    induction cs as [|c cs IH]; cbn; intros stk H; [discriminate|].
    destruct (mem c disc) eqn:Ed; cbn in H; destruct (mem c proc) eqn:Ep; cbn in H.
    2:{ injection H as <-. split; [reflexivity|]. exists c; repeat split; [now left|now apply mem_spec|now apply mem_false]. }
    all: destruct (IH _ H) as (? & c' & ? & ? & ?); split; auto; exists c'; auto.
  Qed.

  Lemma chain_new new stk : (forall c, In c new -> parent_ok c stk) ->
    (forall c, In c new -> ~ In c (opens stk)) -> chain stk ->
    chain (map (fun c => (c, false)) new ++ stk).
  Proof.
    assert (Ho : forall new, opens (map (fun c => (c, false)) new ++ stk) = opens stk).
    { clear. induction new as [|c t IH]; [reflexivity|exact IH]. }
    induction new as [|c new IH]; cbn; intros H1 H2 H3; [exact H3|].
    split; [unfold parent_ok; rewrite Ho; apply (H1 c); now left|].
    split; [rewrite Ho; apply H2; now left|]. apply IH; auto.
  Qed.
  Lemma opens_new new stk : opens (map (fun c => (c, false)) new ++ stk) = opens stk.
  Proof. induction new as [|c t IH]; [reflexivity|exact IH]. Qed.

  Lemma app_false_split new (stk : list (N * bool)) s1 n s2 :
    map (fun c => (c, false)) new ++ stk = s1 ++ (n, true) :: s2 ->
    exists s1', s1 = map (fun c => (c, false)) new ++ s1' /\ stk = s1' ++ (n, true) :: s2.
  Proof.
    revert s1; induction new as [|c new IH]; cbn; intros s1 H; [exists s1; auto|].
    destruct s1 as [|a s1]; [discriminate|]. injection H as -> H.
    destruct (IH _ H) as (s1' & -> & ->). exists s1'; auto.
  Qed.

  Lemma topo_snoc l n : dependencies_first kids l -> (forall c, edge n c -> In c l) ->
    dependencies_first kids (l ++ [n]).
  Proof.
    intros Ht Hn before m after E c Hc. destruct after as [|a after] using rev_ind.
    - apply app_inj_tail in E. destruct E as [-> ->]. now apply Hn.
    - clear IHafter. rewrite app_comm_cons, app_assoc in E. apply app_inj_tail in E. destruct E as [E _].
      eapply Ht; eauto.
  Qed.

  Definition measure (univ : list N) (s : dstate) : nat :=
    length (d_stack s) +
    list_sum (map (fun x => if mem x (d_disc s) then 0
                            else S (match kids x with Ok cs => length cs | Err _ => 0 end)) univ).

  Lemma sum_drop (f g : N -> nat) n univ : (forall x, g x <= f x) -> In n univ ->
    list_sum (map g univ) + (f n - g n) <= list_sum (map f univ).
  Proof.
    unfold list_sum; intros Hle; induction univ as [|x univ IH]; cbn; [contradiction|]. intros [->|H].
    - fold (list_sum (map g univ)) (list_sum (map f univ)). assert (list_sum (map g univ) <= list_sum (map f univ)).
      { unfold list_sum; clear -Hle. induction univ as [|y u IH]; cbn; [lia|specialize (Hle y); lia]. }
      specialize (Hle n); lia.
    - specialize (IH H). specialize (Hle x). lia.
  Qed.

  (** one iteration: keeps the invariant and decreases the measure, or finds a cycle *)
  Lemma step_inv univ s n b stk : finite_from kids root univ -> inv s -> d_stack s = (n, b) :: stk ->
    (exists s', dfs_step eq_dec kids s n b stk = Ok s' /\ inv s' /\ measure univ s' < measure univ s) \/
    (dfs_step eq_dec kids s n b stk = Err CircularReferencing /\
     exists x, reachable root x /\ on_cycle kids x).
  Proof.
    intros Hfin I E. pose proof (i_chain s I) as Hc. rewrite E in Hc. cbn in Hc. destruct Hc as (Hpar & Hno & Hch).
    assert (Hr : reachable root n).
    { apply (opens_reach (d_stack s)); [apply I|]. rewrite E; now left. }
    destruct (Hfin n Hr) as [Hu [cs Hcs]].
    unfold dfs_step. destruct b.
    - (* late *)
      left; eexists; split; [reflexivity|]. split.
      + assert (Hnp : ~ In n (d_proc s)) by (apply (i_disj s I); rewrite E; cbn; now left).
        constructor; cbn [d_stack d_disc d_proc d_early d_late].
        * exact Hch.
        * intros x. rewrite (i_disc s I), E. cbn. tauto.
        * intros x Hx [<-|Hp]; [contradiction|].
          apply (i_disj s I x); [rewrite E; cbn; now right|exact Hp].
        * now rewrite (i_late s I).
        * apply I.
        * constructor; [exact Hnp|apply I].
        * apply I.
        * pose proof (i_ndo s I) as H; rewrite E in H; cbn in H; now inversion H.
        * intros x [<-|Hx]; [exact Hr|now apply I].
        * intros s1 m s2 E2 c Hc. 
          destruct (i_cover s I ((n, true) :: s1) m s2 (eq_trans E (f_equal (cons (n, true)) E2)) c Hc) as [H|[<-|H]]; cbn; auto.
        * cbn [rev]. apply topo_snoc; [apply I|]. intros c Hc.
          destruct (i_cover s I [] n stk E c Hc) as [H|[]]. now apply -> in_rev.
        * destruct (i_root s I) as [H|H]; [left; cbn; auto|]. rewrite E in H. cbn in H |- *. destruct H; auto.
      + unfold measure; cbn. rewrite E; cbn. lia.
    - destruct (mem n (d_proc s)) eqn:Ep.
      + (* stale entry *)
        apply mem_spec in Ep.
        left; eexists; split; [reflexivity|]. split.
        * constructor; cbn [d_stack d_disc d_proc d_early d_late]; try (apply I); auto.
          -- intros x. rewrite (i_disc s I), E. reflexivity.
          -- intros x Hx. apply (i_disj s I). now rewrite E.
          -- pose proof (i_ndo s I) as H; now rewrite E in H.
          -- intros s1 m s2 E2 c Hc.
             destruct (i_cover s I ((n, false) :: s1) m s2 (eq_trans E (f_equal (cons (n, false)) E2)) c Hc) as [H|[<-|H]]; auto.
          -- destruct (i_root s I) as [H|H]; [left; cbn; auto|]. rewrite E in H. cbn in H. destruct H; [left; now subst|auto].
        * unfold measure; cbn. rewrite E; cbn. lia.
      + (* open *)
        apply mem_false in Ep.
        assert (Hnd : ~ In n (d_disc s)).
        { rewrite (i_disc s I), E. cbn. tauto. }
        rewrite Hcs. cbn [bind].
        destruct (push_kids eq_dec (rev cs) (n :: d_disc s) (d_proc s) ((n, true) :: stk)) as [stk'|e] eqn:Epush; cbn [bind].
        * left; eexists; split; [reflexivity|].
          destruct (push_ok _ _ _ _ _ Epush) as (new & -> & H1 & H2 & H3).
          split.
          -- constructor; cbn [d_stack d_disc d_proc d_early d_late].
             ++ apply chain_new.
                ** intros c Hc. unfold parent_ok. cbn. exists cs. split; [exact Hcs|]. apply H1 in Hc. now apply in_rev.
                ** intros c Hc. apply H1 in Hc. destruct Hc as (_ & Hd & _). cbn in Hd |- *.
                   intros [->|Ho]; [tauto|]. apply Hd. right. apply (i_disc s I). left. rewrite E. exact Ho.
                ** cbn; auto.
             ++ intros x. rewrite opens_new. cbn. rewrite (i_disc s I), E. cbn. tauto.
             ++ intros x. rewrite opens_new. cbn. intros [<-|Hx]; [exact Ep|]. apply (i_disj s I). now rewrite E.
             ++ apply I.
             ++ now rewrite (i_early s I).
             ++ apply I.
             ++ constructor; [exact Hnd|apply I].
             ++ rewrite opens_new. cbn. constructor; [exact Hno|]. pose proof (i_ndo s I) as H; now rewrite E in H.
             ++ apply I.
             ++ intros s1 m s2 E2 c Hc. apply app_false_split in E2. destruct E2 as (s1' & -> & E2).
                destruct s1' as [|a s1']; cbn in E2.
                ** injection E2 as -> ->. destruct Hc as (cs' & Hk & Hin). rewrite Hcs in Hk. injection Hk as <-.
                   destruct (H2 c) as [H|H]; [now apply -> in_rev|now left|]. right. rewrite app_nil_r, map_map. cbn. now rewrite map_id.
                ** injection E2 as <- E2.
                   destruct (i_cover s I ((n, false) :: s1') m s2 (eq_trans E (f_equal (cons (n, false)) E2)) c Hc) as [H|H]; [now left|].
                   right. rewrite map_app. apply in_or_app. right. exact H.
             ++ apply I.
             ++ destruct (i_root s I) as [H|H]; [left; cbn; auto|]. right. rewrite E in H. rewrite map_app. apply in_or_app. right. exact H.
          -- unfold measure; cbn [d_stack d_disc]. rewrite E. rewrite app_length, map_length. cbn [length].
             rewrite rev_length in H3.
             pose proof (sum_drop (fun x => if mem x (d_disc s) then 0 else S (match kids x with Ok cs => length cs | Err _ => 0 end))
                                  (fun x => if mem x (n :: d_disc s) then 0 else S (match kids x with Ok cs => length cs | Err _ => 0 end))
                                  n univ) as Hs.
             cbv beta in Hs.
             assert (Hm1 : mem n (n :: d_disc s) = true) by (apply mem_spec; now left).
             assert (Hm2 : mem n (d_disc s) = false) by now apply mem_false.
             rewrite Hm1, Hm2, Hcs in Hs.
             assert (Hs' : forall x : N, (if mem x (n :: d_disc s) then 0 else S (match kids x with Ok cs => length cs | Err _ => 0 end))
                                    <= (if mem x (d_disc s) then 0 else S (match kids x with Ok cs => length cs | Err _ => 0 end))).
             { intros x. destruct (mem x (d_disc s)) eqn:Ex.
               - assert (mem x (n :: d_disc s) = true) as -> by (apply mem_spec; right; now apply mem_spec). lia.
               - destruct (mem x (n :: d_disc s)); lia. }
             specialize (Hs Hs' Hu). lia.
        * right. destruct (push_err _ _ _ _ _ Epush) as (-> & c & Hc & Hd & Hp). split; [reflexivity|].
          exists n. split; [exact Hr|].
          assert (He : edge n c) by (exists cs; split; [exact Hcs|now apply in_rev]).
          assert (Hcn : reachable c n).
          { destruct Hd as [<-|Hd]; [apply reach_refl|].
            apply (i_disc s I) in Hd. destruct Hd as [Ho|Hp2]; [|contradiction].
            rewrite E in Ho. cbn in Ho. unfold parent_ok in Hpar.
            destruct (opens stk) as [|p o] eqn:Eo.
            - unfold opens in *; rewrite Eo in Ho; destruct Ho.
            - apply reach_edge with p; [|exact Hpar].
              eapply (opens_path stk Hch p o Eo). unfold opens in *; rewrite Eo in Ho; exact Ho. }
          destruct Hcn as [d Hd']. exists d. change (S d) with (1 + d). eapply walk_trans; [apply walk_edge; exact He|exact Hd'].
  Qed.

  Lemma loop_ok univ : finite_from kids root univ -> forall fuel s, inv s -> measure univ s <= fuel ->
    (exists s', dfs_loop eq_dec kids fuel s = Some (Ok s') /\ inv s' /\ d_stack s' = []) \/
    (dfs_loop eq_dec kids fuel s = Some (Err CircularReferencing) /\ exists x, reachable root x /\ on_cycle kids x).
  Proof.
    intros Hfin; induction fuel as [|k IH]; intros s I Hm; cbn [dfs_loop].
    - unfold measure in Hm. destruct (d_stack s) as [|p t] eqn:E; [|cbn in Hm; lia].
      left; eexists; split; [reflexivity|]; auto.
    - destruct (d_stack s) as [|(n, b) t] eqn:E; [left; eexists; split; [reflexivity|]; auto|].
      destruct (step_inv univ s n b t Hfin I E) as [(s' & Hs & I' & Hlt)|(Hs & Hcyc)]; rewrite Hs.
      + apply IH; [exact I'|lia].
      + right; auto.
  Qed.

  Lemma inv_init : inv (DState [(root, false)] [] [] [] []).
  Proof.
    constructor; cbn; try reflexivity; try tauto.
    - constructor. - constructor. - constructor.
    - intros s1 m s2 H. destruct s1 as [|a [|b s1]]; cbn in H; try discriminate.
    - intros [|a b] n c H; discriminate.
  Qed.

  (** a reachable node of a list closed under successors and containing the root is in the list *)
  Lemma topo_closed order : dependencies_first kids order -> In root order ->
    forall x, reachable root x -> In x order.
  Proof.
    intros Ht Hroot x [d Hw]. induction Hw as [|d r y z Hw IH He]; [exact Hroot|].
    apply in_split in IH; [|exact Hroot]. destruct IH as (b & a & ->). apply in_or_app. left. eapply Ht; eauto.
  Qed.

  Lemma topo_before order : dependencies_first kids order -> NoDup order ->
    forall d x y, walk kids (S d) x y -> forall b a, order = b ++ x :: a -> In y b.
  Proof.
    intros Ht Hnd d x y Hw. remember (S d) as m. revert d Heqm.
    induction Hw as [x|m x y z Hw IH He]; intros d' Em b a E; [discriminate|].
    injection Em as ->. destruct d' as [|d'].
    - inversion Hw; subst. eapply Ht; eauto.
    - specialize (IH d' eq_refl b a E). apply in_split in IH. destruct IH as (b1 & b2 & ->).
      rewrite <- app_assoc in E. cbn in E.
      apply in_or_app. left. eapply Ht; eauto.
  Qed.

  Lemma topo_acyclic order : dependencies_first kids order -> NoDup order -> In root order ->
    forall x, reachable root x -> ~ on_cycle kids x.
  Proof.
    intros Ht Hnd Hroot x Hr [d Hw].
    assert (Hin : In x order) by now apply topo_closed.
    apply in_split in Hin. destruct Hin as (b & a & E).
    pose proof (topo_before order Ht Hnd d x x Hw b a E) as Hb.
    rewrite E in Hnd. apply NoDup_remove_2 in Hnd. apply Hnd. apply in_or_app; auto.
  Qed.

  Definition enough (univ : list N) : nat :=
    S (list_sum (map (fun x => S (match kids x with Ok cs => length cs | Err _ => 0 end)) univ)).

  Theorem dfs_total univ fuel : finite_from kids root univ -> enough univ <= fuel ->
    (exists pre order, dfs_iterate eq_dec kids fuel root = Some (Ok pre) /\
       dependency_order eq_dec kids fuel root = Some (Ok order) /\
       NoDup order /\ NoDup pre /\ (forall x, In x order <-> reachable root x) /\
       (forall x, In x pre <-> reachable root x) /\ dependencies_first kids order /\
       (forall x, reachable root x -> ~ on_cycle kids x)) \/
    (dfs_iterate eq_dec kids fuel root = Some (Err CircularReferencing) /\
     dependency_order eq_dec kids fuel root = Some (Err CircularReferencing) /\
     exists x, reachable root x /\ on_cycle kids x).
  Proof.
    intros Hfin Hf. unfold dfs_iterate, dependency_order, dfs.
    destruct (loop_ok univ Hfin fuel _ inv_init) as [(s' & E & I & Es)|(E & Hcyc)].
    - unfold measure; cbn. unfold enough in Hf. lia.
    - left. rewrite E; cbn. eexists _, _. split; [reflexivity|]. split; [reflexivity|].
      rewrite (i_late _ I), (i_early _ I).
      assert (Hroot : In root (rev (d_proc s'))).
      { apply -> in_rev. destruct (i_root _ I) as [H|H]; [exact H|]. rewrite Es in H; destruct H. }
      assert (Hnd : NoDup (rev (d_proc s'))) by (apply NoDup_rev; apply I).
      assert (Hreach : forall x, In x (rev (d_proc s')) <-> reachable root x).
      { intros x; split; [intros H; apply (i_reach _ I); now apply in_rev|]. apply topo_closed; [apply I|exact Hroot]. }
      split; [exact Hnd|]. split; [apply NoDup_rev; apply I|]. split; [exact Hreach|]. split; [|split].
      + intros x. rewrite <- in_rev, (i_disc _ I), Es. cbn. rewrite <- Hreach, <- in_rev. tauto.
      + apply I.
      + apply (topo_acyclic (rev (d_proc s'))); auto; apply I.
    - right. rewrite E; cbn. auto.
  Qed.
End Facts.
