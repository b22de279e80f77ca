(** C102 and C103 for schema texts: neither the order in which two texts declare the same things nor the order in which the interpreter
    iterates sets makes a difference. *)
From Coq Require Import List ZArith Bool String Ascii Lia Permutation.
From Verif Require Import PyBase PyText Spec GenSpec GenTypes GenTree GenBuild GenBuildFacts GenAstSpec GrammarSpec Grammar GrammarNames Props_Grammar GenMergeFacts Props_GenTree AcceptSpec
  OrderSpec Props_Order Props_Hash GenEngine Props_Norm.
Import ListNotations.
Local Open Scope Z_scope.

(** C102: two texts that declare the same things are both accepted or both refused, whatever the order of sets *)
Theorem C102_text : forall so so' text text' s s', any_order so -> any_order so' -> denotes text s -> denotes text' s' -> same_schema s s' -> separated s -> no_builtin s ->
  ((exists t, build_text so text = Ok t) <-> (exists t, build_text so' text' = Ok t)).
Proof.
  intros so so' text text' s s' Hso Hso' D D' E S N.
  pose proof (C102_accepts so s s' Hso E (denotes_identifiers _ _ D) (denotes_identifiers _ _ D') S N) as X.
  apply C68_parse in D. apply C68_parse in D'. unfold build_text. rewrite D, D'. cbn [bind]. rewrite X.
  split; intros (t & Ht); exists t; eapply C103_accepted; try exact Ht; assumption.
Qed.

(** C102: and what is accepted contains the definitions of both texts, at the same paths *)
Theorem C102_text_contents : forall so so' text text' s s' t t', any_order so -> any_order so' -> denotes text s -> denotes text' s' -> same_schema s s' -> separated s -> no_builtin s ->
  build_text so text = Ok t -> build_text so' text' = Ok t' -> forall n d, In (n, d) (definitions s) \/ In (n, d) (definitions s') -> contains t n d /\ contains t' n d.
Proof.
  intros so so' text text' s s' t t' Hso Hso' D D' E S N H H'.
  pose proof (denotes_identifiers _ _ D) as I. pose proof (denotes_identifiers _ _ D') as I'. apply C68_parse in D. apply C68_parse in D'. unfold build_text in H, H'.
  rewrite D in H. rewrite D' in H'. cbn [bind] in H, H'. apply (C103_accepted so' so s' t' Hso' Hso) in H'. exact (C102_contents so s s' t t' Hso E I I' S N H H').
Qed.

(** C103: what is embedded into generated code, the normalised schema and the class the inspector makes are the same with every order *)
Theorem C103_outputs : forall so so', any_order so -> any_order so' ->
  (forall text path x, node_text so text path = Ok x <-> node_text so' text path = Ok x)
  /\ (forall text x, whole_text so text = Ok x <-> whole_text so' text = Ok x)
  /\ (forall ko bytes name x, engine so ko bytes name = Ok x <-> engine so' ko bytes name = Ok x).
Proof.
  assert (X : forall so so' text A (f : tree -> res A) x, any_order so -> any_order so' -> bind (build_text so text) f = Ok x -> bind (build_text so' text) f = Ok x).
  { intros so so' text A f x Hso Hso' H. apply bind_ok in H as (root & Hr & H). apply (proj1 (C103_text so so' text Hso Hso')) in Hr. rewrite Hr. exact H. }
  intros so so' Hso Hso'. unfold node_text, whole_text, engine. repeat split; intros H; eapply X; try exact H; assumption.
Qed.

(** ** Instance: the same things declared backwards, in more namespace declarations *)
Definition forwards_text : string := "namespace n { const u8 C = 1; struct S { x : u8; e : E; } enum E : u8 : 2 { A } archive R { v : vector< S >; } }".
Definition scattered_text : string := "namespace n { archive R { v : vector< S >; } enum E : u8 : 2 { A } } namespace n { struct S { x : u8; e : E; } const u8 C = 1; }".
Definition schema_of (text : string) : pschema := match parse_schema text with Ok s => s | Err _ => [] end.
Example C102_text_instance : denotes forwards_text (schema_of forwards_text) /\ denotes scattered_text (schema_of scattered_text)
  /\ same_schema (schema_of forwards_text) (schema_of scattered_text) /\ schema_of forwards_text <> schema_of scattered_text
  /\ separated (schema_of forwards_text) /\ no_builtin (schema_of forwards_text)
  /\ is_ok (build_text same_order forwards_text) = true /\ is_ok (build_text backwards scattered_text) = true.
Proof.
  split; [apply C68_parse; vm_compute; reflexivity|]. split; [apply C68_parse; vm_compute; reflexivity|]. split.
  { split.
    - vm_compute definitions. apply NoDup_Permutation.
      + repeat (constructor; [cbn; intuition discriminate|]). constructor.
      + repeat (constructor; [cbn; intuition discriminate|]). constructor.
      + intros x. cbn. tauto.
    - intros n. vm_compute. tauto. }
  split; [vm_compute; discriminate|]. split.
  { intros p q n m Hp Hq Hn E. vm_compute in Hp, Hq. destruct Hp as [<-|[]], Hq as [<-|[]]. vm_compute in E. discriminate. }
  split; [intros p Hp; repeat (destruct Hp as [<-|Hp]; [split; intros Q; vm_compute in Q; repeat (destruct Q as [Q|Q]; [discriminate|]); destruct Q|]); destruct Hp|].
  split; vm_compute; reflexivity.
Qed.

Print Assumptions C102_text.
Print Assumptions C102_text_contents.
Print Assumptions C103_outputs.
