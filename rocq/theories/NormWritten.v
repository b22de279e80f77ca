(** What the grammar demands of the names and lists in a schema that was written as text (for C49). *)
From Coq Require Import List ZArith Bool String Ascii Lia.
From Verif Require Import PyBase PyText GenBuild GenAstSpec GrammarSpec Grammar GrammarLex GrammarFacts GrammarThms GrammarNames NormSpec NormLex NormText.
Import ListNotations.
Local Open Scope string_scope.

Definition written_field (f : pfield) : Prop := named (pf_name f) /\ Forall (fun d => match d with FRange n => named n | _ => True end) (pf_decs f).
Definition written_resource (r : presource) : Prop := named (pr_name r) /\ match pr_type r with TMulti _ ns => ns <> [] | _ => True end.
Definition written_constant (c : pconst) : Prop := named (pc_name c) /\ g_type (pc_type c).
Definition written_struct (c : pstruct) : Prop := named (ps_name c) /\ ps_fields c <> [] /\ Forall written_field (ps_fields c).
Definition written_enum (c : penum) : Prop := named (pe_name c) /\ g_type (pe_type c) /\ pe_values c <> [] /\ Forall (fun v => named (fst v)) (pe_values c).
Definition written_archive (c : parchive) : Prop := named (pa_name c) /\ Forall (fun b => named (fst b) /\ snd b <> []) (pa_bound c) /\ Forall written_resource (pa_resources c).
Definition written (p : pnamespace) : Prop := pathed (pn_name p) /\ Forall written_constant (pn_constants p) /\ Forall written_struct (pn_structures p) /\ Forall written_enum (pn_enumerations p) /\ Forall written_archive (pn_archives p).

Lemma field_written p xs : g_field p xs -> spelled_well xs -> written_field p.
Proof.
  intros (c & ds & w & _ & Sq & _ & ->) W. cbn [app] in W. wells. split; [assumption|].
  refine (sequence_all g_decoration _ _ _ _ Sq H0). intros d zs G Wz. destruct d as [n|n|n]; cbn [g_decoration] in *; auto. destruct G as (c' & _ & ->). wells. assumption.
Qed.
Lemma resource_written p xs : g_resource p xs -> spelled_well xs -> written_resource p.
Proof.
  intros (c & ds & ts & _ & Sq & Gt & ->) W. cbn [app] in W. wells. split; [assumption|]. destruct (pr_type p) as [|n|w ns|n|n]; auto. destruct Gt as (d & ys & _ & (y & t & ? & ? & -> & _) & _). discriminate.
Qed.
Definition written_definition (d : definition) : Prop :=
  match d with DConstant p => written_constant p | DStruct p => written_struct p | DEnum p => written_enum p | DArchive p => written_archive p end.
Lemma definition_written d xs : g_definition d xs -> spelled_well xs -> written_definition d.
Proof.
  destruct d as [p|p|p|p]; cbn [g_definition written_definition]; intros G W.
  - destruct G as (T & ->). wells. split; assumption.
  - destruct G as (fs & Ne & Sq & ->). cbn [app] in W. wells. split; [assumption|]. split; [exact Ne|]. exact (sequence_all g_field _ field_written _ _ Sq H2).
  - destruct G as (w & vs & e & T & _ & Gv & _ & ->). cbn [app] in W. wells. split; [assumption|]. split; [exact T|]. split; [destruct Gv as (y & t & ? & ? & -> & _); discriminate|].
    refine (comma_all g_value _ _ _ _ Gv _); [|eassumption]. intros v zs (c & _ & ->) Wz. wells. assumption.
  - destruct G as (bs & rs & Sb & Sr & ->). cbn [app] in W. wells. split; [assumption|]. split; [|refine (sequence_all g_resource _ resource_written _ _ Sr _); eassumption].
    refine (sequence_all g_bound _ _ _ _ Sb _); [|eassumption]. intros [n ns] zs (us & Gu & ->) Wz. cbn [fst snd app] in *. wells. split; [assumption|]. destruct Gu as (y & t & ? & ? & -> & _). discriminate.
Qed.
Lemma body_written ds : forall xs, g_body ds xs -> spelled_well xs -> Forall written_definition ds.
Proof.
  induction ds as [|d ds IH]; intros xs G W; [constructor|]. cbn [g_body] in G. destruct G as (cs & ys & zs & _ & Gd & Gz & ->). wells. constructor; [exact (definition_written _ _ Gd H0)|exact (IH _ Gz W)].
Qed.
Lemma select_written {A} (f : definition -> list A) (P : A -> Prop) ds : (forall d a, written_definition d -> In a (f d) -> P a) -> Forall written_definition ds -> Forall P (flat_map f ds).
Proof. intros H F. apply Forall_forall. intros a Ha. apply in_flat_map in Ha as (d & Hd & Ha). rewrite Forall_forall in F. exact (H d a (F d Hd) Ha). Qed.
Lemma namespace_written p xs : g_namespace p xs -> spelled_well xs -> written p.
Proof.
  intros (ds & body & c & G & _ & Ep & ->) W. cbn [app] in W. wells. pose proof (body_written _ _ G H2) as F. unfold written. split; [assumption|]. rewrite Ep. cbn [pn_constants pn_structures pn_enumerations pn_archives].
  split; [|split; [|split]]; (refine (select_written _ _ _ _ F); intros [q|q|q|q] a Pd Ha; cbn in Ha; try contradiction; destruct Ha as [<-|[]]; exact Pd).
Qed.
Theorem denotes_written text s : denotes text s -> forall p, In p s -> written p.
Proof.
  intros [(_ & ->)|(xs & (cs & ns & _ & _ & Sq & ->) & (r & R & _))] p Hp; [destruct Hp|].
  apply reads_well in R. wells. pose proof (sequence_all g_namespace _ namespace_written _ _ Sq R) as F. rewrite Forall_forall in F. exact (F p Hp).
Qed.
