(** The lines of a declaration in normal form are the words of the declaration (for C49). *)
From Coq Require Import List ZArith Bool String Ascii Lia.
From Verif Require Import PyBase PyText GenTypes GenTree GenBuild GenAstSpec GenFlatdata GrammarSpec GrammarLex NormSpec NormLex.
Import ListNotations.
Local Open Scope string_scope.

Definition named (n : string) : Prop := well_spelled (Ident n).
Definition pathed (n : string) : Prop := well_spelled (Qual n).
Ltac spell := first [exact I | (eexists; eexists; split; [reflexivity|]; split; reflexivity) | assumption | reflexivity].
Lemma key_word k : well_spelled (Key k) -> wordly [Key k] k. Proof. intros H. now apply (wordly_one (Key k)). Qed.
Lemma key_sign k c : well_spelled (Key k) -> stopper c = true -> wordly [Key k; Sign c] (k ++ String c ""). Proof. intros H S. now apply (wordly_sign (Key k) c). Qed.
Lemma ident_word n : named n -> wordly [Ident n] n. Proof. intros H. now apply (wordly_one (Ident n)). Qed.
Lemma qual_word n : pathed n -> wordly [Qual n] n. Proof. intros H. now apply (wordly_one (Qual n)). Qed.
Lemma qual_sign n c : pathed n -> stopper c = true -> wordly [Qual n; Sign c] (n ++ String c ""). Proof. intros H S. now apply (wordly_sign (Qual n) c). Qed.
Lemma num_sign z c : (0 <= z)%Z -> stopper c = true -> wordly [Num (py_str z); Sign c] (py_str z ++ String c ""). Proof. intros H S. apply (wordly_sign (Num (py_str z)) c); [exact I|now apply py_str_decimal|exact S]. Qed.
Lemma num_word z : (0 <= z)%Z -> wordly [Num (py_str z)] (py_str z). Proof. intros H. apply (wordly_one (Num (py_str z))); [exact I|now apply py_str_decimal]. Qed.
Lemma lit_sign z c : stopper c = true -> wordly [Lit (py_str z); Sign c] (py_str z ++ String c ""). Proof. intros S. apply (wordly_sign (Lit (py_str z)) c); [exact I|left; apply py_str_literal|exact S]. Qed.
Lemma sign_word c : stopper c = true -> wordly [Sign c] (String c ""). Proof. intros S. apply (wordly_one (Sign c)); [exact I|now apply stop_sign]. Qed.
Lemma signs_word c d : stopper c = true -> stopper d = true -> wordly [Sign c; Sign d] (String c (String d "")). Proof. intros S T. apply (wordly_sign (Sign c) d); [exact I|now apply stop_sign|exact T]. Qed.
Ltac words := repeat (first [apply Forall2_cons | apply Forall2_nil]);
  match goal with
  | |- wordly [Sign ?c] _ => now apply (sign_word c)
  | |- wordly [Sign ?c; Sign ?d] _ => now apply (signs_word c d)
  | |- wordly [Key ?k] _ => apply (key_word k); spell
  | |- wordly [Key ?k; Sign ?c] _ => apply (key_sign k c); spell
  | |- wordly [Ident ?k] _ => apply (ident_word k); spell
  | |- wordly [Qual ?k] _ => apply (qual_word k); spell
  | |- wordly [Qual ?k; Sign ?c] _ => apply (qual_sign k c); spell
  | |- wordly [Num (py_str ?k); Sign ?c] _ => apply (num_sign k c); spell
  | |- wordly [Num (py_str ?k)] _ => apply (num_word k); spell
  | |- wordly [Lit (py_str ?k); Sign ?c] _ => apply (lit_sign k c); spell
  | |- wordly [] "" => apply wordly_nil
  | |- _ => idtac
  end.

(** ** References by kind *)
Lemma refers_like p q t : (forall k, q k = match k with KRef r => p r | _ => false end) -> refers p t = map target (children_like t q).
Proof.
  intros H. unfold refers, children_like. induction (t_children t) as [|c cs IH]; [reflexivity|]. cbn [flat_map filter]. rewrite IH, H. destruct (t_kind c); try reflexivity. now destruct (p r).
Qed.
Lemma like_children t q c : In c (children_like t q) -> In c (t_children t). Proof. unfold children_like. rewrite filter_In. tauto. Qed.

(** ** Sequences *)
Lemma sequence_nil {A} (g : A -> list lexeme -> Prop) : sequence g [] []. Proof. exists []. split; [constructor|reflexivity]. Qed.
Lemma sequence_one {A} (g : A -> list lexeme -> Prop) x xs : g x xs -> sequence g [x] xs.
Proof. intros H. exists [xs]. split; [now repeat constructor|]. cbn. now rewrite app_nil_r. Qed.
Lemma sequence_app {A} (g : A -> list lexeme -> Prop) l m xs ys : sequence g l xs -> sequence g m ys -> sequence g (l ++ m) (xs ++ ys).
Proof. intros (a & Fa & ->) (b & Fb & ->). exists (a ++ b)%list. split; [now apply Forall2_app|]. symmetry. apply concat_app. Qed.
(** each item gives lines, which are the words of its declaration *)
Lemma sequence_lines {A B} (g : B -> list lexeme -> Prop) (f : A -> res (list line)) (h : A -> B) l lss : mapM f l = Ok lss ->
  (forall a ls, In a l -> f a = Ok ls -> exists xs, writes ls xs /\ g (h a) xs) -> exists xs, writes (List.concat lss) xs /\ sequence g (map h l) xs.
Proof.
  revert lss. induction l as [|a l IH]; intros lss H Hf; cbn in H.
  - injection H as <-. exists []. split; [apply writes_nil|apply sequence_nil].
  - destruct (f a) as [ls|] eqn:E; [|discriminate]. cbn in H. destruct (mapM f l) as [rest|] eqn:Er; [|discriminate]. injection H as <-.
    destruct (Hf a ls (or_introl eq_refl) E) as (xs & W & G). destruct (IH rest eq_refl (fun b lb Hb => Hf b lb (or_intror Hb))) as (ys & V & (yss & Fy & ->)).
    exists (xs ++ List.concat yss)%list. split; [now apply writes_app|]. exists (xs :: yss). split; [now constructor|reflexivity].
Qed.
Lemma sequence_map {A B} (g : B -> list lexeme -> Prop) (f : A -> list line) (h : A -> B) l :
  (forall a, In a l -> exists xs, writes (f a) xs /\ g (h a) xs) -> exists xs, writes (flat_map f l) xs /\ sequence g (map h l) xs.
Proof.
  intros H. induction l as [|a l IH]; [exists []; split; [apply writes_nil|apply sequence_nil]|]. destruct (H a (or_introl eq_refl)) as (xs & W & G). destruct IH as (ys & V & (yss & Fy & ->)); [auto with datatypes|].
  exists (xs ++ List.concat yss)%list. split; [now apply writes_app|]. exists (xs :: yss). split; [now constructor|reflexivity].
Qed.
Lemma comma_words ps : ps <> [] -> Forall pathed ps -> exists xss, Forall2 wordly xss (comma ps) /\ comma_list g_name ps (List.concat xss).
Proof.
  intros N F. induction F as [|p ps P F IH]; [congruence|]. destruct ps as [|q ps].
  - exists [[Qual p]]. split; [words|]. exists p, [], [Qual p], []. split; [reflexivity|]. split; [reflexivity|]. split; [apply sequence_nil|reflexivity].
  - destruct IH as (xss & Fx & (y & t & ys & ts & [= <- <-] & G & Sq & E)); [discriminate|]. exists ([Qual p; Sign ","] :: xss). split; [constructor; [now apply qual_sign|exact Fx]|].
    exists p, (q :: ps), [Qual p], (Sign "," :: ys ++ ts)%list. split; [reflexivity|]. split; [reflexivity|]. split; [|cbn [List.concat]; now rewrite E].
    destruct Sq as (zss & Fz & ->). exists ((Sign "," :: ys) :: zss). split; [constructor; [now exists ys|exact Fz]|reflexivity].
Qed.
Lemma writes_words ws xss xs : Forall2 wordly xss ws -> ws <> [] -> xs = List.concat xss -> writes [ws] xs.
Proof. intros F N ->. now apply writes_line. Qed.

(** ** Constants *)
Lemma type_key ty : g_type ty -> well_spelled (Key ty).
Proof. intros T. unfold g_type in T. cbn [In] in T. repeat (destruct T as [<-|T]; [spell|]). destruct T. Qed.
Lemma constant_text t ty v : t_kind t = KConstant ty v -> named (t_name t) -> g_type ty ->
  exists xs, writes (constant_lines (t_name t) ty v) xs /\ g_constant (normal_constant t) xs.
Proof.
  intros K N T. pose proof (type_key ty T) as Tk. unfold normal_constant. rewrite K. eexists. split; [|split; [exact T|reflexivity]]. cbn [pc_type pc_name pc_value]. unfold constant_lines.
  apply (writes_words _ [[Key "const"]; [Key ty]; [Ident (t_name t)]; [Sign "="]; [Lit (py_str v); Sign ";"]]); [|discriminate|reflexivity]. words.
Qed.
(** ** Enumerations *)
Definition declared_values (t : tree) : list tree := filter (fun v => match t_kind v with KEnumValue _ false => true | _ => false end) (t_children t).
Definition normal_value (v : tree) : string * option string := (t_name v, match t_kind v with KEnumValue x _ => Some (py_str x) | _ => None end).
Lemma values_declared t : normal_values t = map normal_value (declared_values t).
Proof.
  unfold normal_values, declared_values. induction (t_children t) as [|v vs IH]; [reflexivity|]. cbn [flat_map filter]. rewrite IH. destruct (t_kind v) as [| | | | | |x []| | | |] eqn:K; try reflexivity. cbn [app map]. unfold normal_value at 2. now rewrite K.
Qed.
Definition is_declared_value (v : tree) : bool := match t_kind v with KEnumValue _ false => true | _ => false end.
Lemma value_lines_declared cs : flat_map value_lines cs = flat_map value_lines (filter is_declared_value cs).
Proof.
  induction cs as [|v cs IH]; [reflexivity|]. cbn [flat_map filter]. rewrite IH. destruct (is_declared_value v) eqn:D; [reflexivity|].
  replace (value_lines v) with (@nil line); [reflexivity|]. unfold value_lines, is_declared_value in *. destruct (t_kind v) as [| | | | | |x []| | | |]; reflexivity || discriminate.
Qed.
(** values, each with a comma: separated by commas, and one behind the last *)
Lemma values_text vs : vs <> [] -> (forall v, In v vs -> (exists x, t_kind v = KEnumValue x false) /\ named (t_name v)) ->
  exists xs, writes (flat_map value_lines vs) (xs ++ [Sign ","])%list /\ comma_list g_value (map normal_value vs) xs.
Proof.
  intros N H. induction vs as [|v vs IH]; [congruence|]. destruct (H v (or_introl eq_refl)) as ((x & K) & Nv).
  assert (W : writes (value_lines v) [Ident (t_name v); Sign "="; Lit (py_str x); Sign ","]).
  { unfold value_lines. rewrite K. apply (writes_indented [[Ident (t_name v)]; [Sign "="]; [Lit (py_str x); Sign ","]]); [words|reflexivity]. }
  assert (G : g_value (normal_value v) [Ident (t_name v); Sign "="; Lit (py_str x)]). { exists []. split; [now left|]. unfold normal_value. rewrite K. reflexivity. }
  destruct vs as [|v2 vs].
  - exists [Ident (t_name v); Sign "="; Lit (py_str x)]. split; [cbn [flat_map]; rewrite app_nil_r; exact W|]. exists (normal_value v), [], [Ident (t_name v); Sign "="; Lit (py_str x)], []. split; [reflexivity|]. split; [exact G|]. split; [apply sequence_nil|now rewrite app_nil_r].
  - destruct IH as (ys & Wy & (y & t & zs & ts & E & Gy & (zss & Fz & ->) & ->)); [discriminate|auto with datatypes|]. injection E as <- <-.
    exists ([Ident (t_name v); Sign "="; Lit (py_str x)] ++ (Sign "," :: zs) ++ List.concat zss)%list. split.
    + change (flat_map value_lines (v :: v2 :: vs)) with (value_lines v ++ flat_map value_lines (v2 :: vs))%list. apply (writes_app _ _ _ _ W Wy).
    + exists (normal_value v), (map normal_value (v2 :: vs)), [Ident (t_name v); Sign "="; Lit (py_str x)], ((Sign "," :: zs) ++ List.concat zss)%list. split; [reflexivity|]. split; [exact G|]. split; [|reflexivity].
      exists ((Sign "," :: zs) :: zss). split; [constructor; [now exists zs|exact Fz]|reflexivity].
Qed.
Lemma enum_text t b : t_kind t = KEnum b -> named (t_name t) -> g_type (bt_name b) -> (0 <= bt_width b)%Z -> declared_values t <> [] ->
  (forall v, In v (declared_values t) -> named (t_name v)) -> exists xs, writes (enum_lines (t_name t) b (t_children t)) xs /\ g_enum (normal_enum t) xs.
Proof.
  intros K N T Wd Ne Nv. pose proof (type_key _ T) as Tk. unfold normal_enum. rewrite K. destruct (values_text (declared_values t) Ne) as (vs & Wv & Cv).
  { intros v Hv. pose proof (Nv v Hv) as Nm. apply filter_In in Hv as (Hv & Kv). split; [|exact Nm]. destruct (t_kind v) as [| | | | | |x []| | | |]; try discriminate. eauto. }
  exists ([Key "enum"; Ident (t_name t); Sign ":"; Key (bt_name b)] ++ [Sign ":"; Num (py_str (bt_width b))] ++ [Sign "{"] ++ vs ++ [Sign ","] ++ [Sign "}"])%list. split.
  - unfold enum_lines. rewrite value_lines_declared. change (filter is_declared_value (t_children t)) with (declared_values t).
    assert (W1 : writes [["enum"; t_name t; ":"; bt_name b; ":"; py_str (bt_width b)]] [Key "enum"; Ident (t_name t); Sign ":"; Key (bt_name b); Sign ":"; Num (py_str (bt_width b))]).
    { apply (writes_words _ [[Key "enum"]; [Ident (t_name t)]; [Sign ":"]; [Key (bt_name b)]; [Sign ":"]; [Num (py_str (bt_width b))]]); [|discriminate|reflexivity]. words. }
    assert (W2 : writes [["{"]] [Sign "{"]) by (apply (writes_words _ [[Sign "{"]]); [words|discriminate|reflexivity]).
    assert (W3 : writes [["}"]] [Sign "}"]) by (apply (writes_words _ [[Sign "}"]]); [words|discriminate|reflexivity]).
    pose proof (writes_app _ _ _ _ (writes_app _ _ _ _ W1 W2) (writes_app _ _ _ _ Wv W3)) as W. cbn [app] in W. cbn [app]. rewrite <- app_assoc in W. exact W.
  - exists [Sign ":"; Num (py_str (bt_width b))], vs, [Sign ","]. cbn [pe_type pe_width pe_values pe_name]. split; [exact T|]. split; [|split; [rewrite values_declared; exact Cv|split; [now right|reflexivity]]].
    exists (py_str (bt_width b)). split; [|reflexivity]. now apply py_str_number.
Qed.

(** ** Structures *)
Lemma const_like f : refers to_constant f = map target (children_like f is_const_value_ref). Proof. apply refers_like. intros []; reflexivity. Qed.
Lemma invalid_like f : refers to_invalid f = map target (children_like f is_invalid_ref). Proof. apply refers_like. intros []; reflexivity. Qed.
Lemma flat_map_one {A B} (f : A -> B) l : flat_map (fun a => [f a]) l = map f l. Proof. induction l as [|a l IH]; [reflexivity|]. cbn. now rewrite IH. Qed.
Definition lexical_field (f : tree) : Prop :=
  exists rng ty off, t_kind f = KField rng (Some ty) off /\ named (t_name f) /\ (forall r, rng = Some r -> named r)
    /\ (forall c, In c (t_children f) -> pathed (target c)) /\ field_type (ft_name ty) = match refers to_enum f with e :: _ => e | [] => ft_name ty end
    /\ pathed (field_type (ft_name ty)) /\ (0 <= ft_width ty)%Z.
Lemma field_text f ls : lexical_field f -> field_lines f = Ok ls -> exists xs, writes ls xs /\ g_field (normal_field f) xs.
Proof.
  intros (rng & ty & off & K & N & R & P & Ty & Pt & Wd) H. unfold field_lines in H. rewrite K in H. injection H as <-. unfold normal_field. rewrite K.
  assert (W0 : exists xs, writes (range_lines rng) xs /\ sequence g_decoration (match rng with Some r => [FRange r] | None => [] end) xs).
  { destruct rng as [r|]; [|exists []; split; [apply writes_nil|apply sequence_nil]]. specialize (R r eq_refl). exists [Key "@range"; Sign "("; Ident r; Sign ")"]. split.
    - assert (E : range_lines (Some r) = [indented ["@range("; r; ")"]]) by (destruct r; [destruct R as (? & ? & ? & _); discriminate|reflexivity]). rewrite E.
      apply (writes_indented [[Key "@range"; Sign "("]; [Ident r]; [Sign ")"]]); [words|reflexivity].
    - apply sequence_one. exists []. split; [now left|reflexivity]. }
  destruct W0 as (x0 & W0 & S0).
  destruct (sequence_map g_decoration (fun c => [indented ["@const("; target c; ")"]]) (fun c => FConst (target c)) (children_like f is_const_value_ref)) as (x1 & W1 & S1).
  { intros c Hc. exists [Key "@const"; Sign "("; Qual (target c); Sign ")"]. split; [|reflexivity]. apply like_children, P in Hc. apply (writes_indented [[Key "@const"; Sign "("]; [Qual (target c)]; [Sign ")"]]); [words|reflexivity]. }
  assert (W2 : exists xs, writes (match children_like f is_invalid_ref with c :: _ => [indented ["@optional("; target c; ")"]] | [] => [] end) xs
     /\ sequence g_decoration (match refers to_invalid f with c :: _ => [FOptional c] | [] => [] end) xs).
  { rewrite invalid_like. destruct (children_like f is_invalid_ref) as [|c cs] eqn:E; [exists []; split; [apply writes_nil|apply sequence_nil]|]. cbn [map]. exists [Key "@optional"; Sign "("; Qual (target c); Sign ")"]. split; [|apply sequence_one; reflexivity].
    assert (Pc : pathed (target c)) by (apply P, (like_children f is_invalid_ref); rewrite E; now left). apply (writes_indented [[Key "@optional"; Sign "("]; [Qual (target c)]; [Sign ")"]]); [words|reflexivity]. }
  destruct W2 as (x2 & W2 & S2).
  assert (W3 : writes [indented [t_name f; ":"; field_type (ft_name ty); ":"; py_str (ft_width ty) ++ ";"]] [Ident (t_name f); Sign ":"; Qual (field_type (ft_name ty)); Sign ":"; Num (py_str (ft_width ty)); Sign ";"]).
  { apply (writes_indented [[Ident (t_name f)]; [Sign ":"]; [Qual (field_type (ft_name ty))]; [Sign ":"]; [Num (py_str (ft_width ty)); Sign ";"]]); [words|reflexivity]. }
  exists ((x0 ++ x1 ++ x2) ++ [Ident (t_name f); Sign ":"; Qual (field_type (ft_name ty))] ++ [Sign ":"; Num (py_str (ft_width ty))] ++ [Sign ";"])%list. split.
  - rewrite <- !app_assoc. cbn [app]. apply writes_app; [exact W0|]. apply writes_app; [|apply writes_app; [exact W2|exact W3]]. rewrite flat_map_one in W1. exact W1.
  - exists [], (x0 ++ x1 ++ x2)%list, [Sign ":"; Num (py_str (ft_width ty))]. split; [now left|]. cbn [pf_decs pf_width pf_name pf_type]. split.
    + apply sequence_app; [exact S0|]. apply sequence_app; [|exact S2]. rewrite const_like, map_map. exact S1.
    + split; [exists (py_str (ft_width ty)); split; [now apply py_str_number|reflexivity]|]. rewrite <- Ty. reflexivity.
Qed.
Lemma structure_text t sz ls : t_kind t = KStructure sz -> named (t_name t) -> fields_in t <> [] -> (forall f, In f (fields_in t) -> lexical_field f) ->
  structure_lines (t_name t) (t_children t) = Ok ls -> exists xs, writes ls xs /\ g_struct (normal_structure t) xs.
Proof.
  intros K N Ne Lf H. unfold structure_lines in H. destruct (mapM field_lines _) as [fs|] eqn:E; [|discriminate]. injection H as <-.
  change (filter (fun c => is_field (t_kind c)) (t_children t)) with (fields_in t) in E.
  destruct (sequence_lines g_field field_lines normal_field (fields_in t) fs E) as (xs & W & Sq); [intros f ls Hf; apply field_text; now apply Lf|].
  exists ([Key "struct"; Ident (t_name t); Sign "{"] ++ xs ++ [Sign "}"])%list. split.
  - assert (W1 : writes [["struct"; t_name t]] [Key "struct"; Ident (t_name t)]) by (apply (writes_words _ [[Key "struct"]; [Ident (t_name t)]]); [words|discriminate|reflexivity]).
    assert (W2 : writes [["{"]] [Sign "{"]) by (apply (writes_words _ [[Sign "{"]]); [words|discriminate|reflexivity]).
    assert (W3 : writes [["}"]] [Sign "}"]) by (apply (writes_words _ [[Sign "}"]]); [words|discriminate|reflexivity]).
    exact (writes_app _ _ _ _ (writes_app _ _ _ _ W1 W2) (writes_app _ _ _ _ W W3)).
  - exists xs. split; [|split; [exact Sq|reflexivity]]. cbn. intros Q. apply Ne. now apply map_eq_nil in Q.
Qed.

(** ** Archives *)
(** a path: names behind dots *)
Definition dots (ks : list string) : string := String.concat "" (map (fun k => "." ++ k) ks).
Definition placed (p : string) : Prop := exists ks, ks <> [] /\ Forall named ks /\ p = dots ks.
Definition dot_words (ks : list string) : list lexeme := flat_map (fun k => [Sign "."; Ident k]) ks.
Lemma concat_cons k ks : String.concat "" (k :: ks) = k ++ String.concat "" ks.
Proof. destruct ks as [|j ks]; [cbn; now rewrite str_nil|reflexivity]. Qed.
Lemma dots_cons k ks : dots (k :: ks) = "." ++ k ++ dots ks. Proof. unfold dots. cbn [map]. rewrite concat_cons. now rewrite str_assoc. Qed.
Lemma named_chars n : named n -> only_chars path_char n = true.
Proof.
  intros (c & t & -> & A & B). cbn. assert (X : path_char c = true) by (unfold path_char, name_char; now rewrite A). rewrite X. clear - B. induction t as [|d t IH]; [reflexivity|]. cbn in *. apply andb_true_iff in B as (B1 & B2). rewrite IH by exact B2. unfold path_char. now rewrite B1.
Qed.
Lemma placed_pathed p : placed p -> pathed p /\ exists t, p = String "." t.
Proof.
  intros (ks & Ne & F & ->). destruct ks as [|k ks]; [congruence|]. rewrite dots_cons. split; [|eexists; reflexivity]. exists "."%char. eexists. split; [reflexivity|]. split; [reflexivity|].
  inversion F as [|? ? Nk F']; subst. rewrite only_app, (named_chars k Nk). cbn [andb]. clear - F'. induction F' as [|k ks Nk F IH]; [reflexivity|]. rewrite dots_cons. cbn [append only_chars]. change (path_char "."%char) with true. rewrite only_app, (named_chars k Nk), IH. reflexivity.
Qed.
Lemma closes_dots n w : closes (Ident n) (String "." w). Proof. intros d r _. reflexivity. Qed.
Lemma dots_wordly ks rest w : Forall named ks -> (exists v, w = String "." v) -> wordly rest w -> wordly (dot_words ks ++ rest) (dots ks ++ w).
Proof.
  intros F D W. assert (X : forall ks, Forall named ks -> exists v, dots ks ++ w = String "." v) by (intros [|k l] _; [exact D|rewrite dots_cons; eexists; reflexivity]).
  induction F as [|k ks N F IH]; [exact W|]. rewrite dots_cons. change (dot_words (k :: ks)) with (Sign "." :: Ident k :: dot_words ks). cbn [app].
  rewrite !str_assoc. apply (wordly_cons (Sign ".") _ (k ++ dots ks ++ w)); [reflexivity|apply closes_any|]. apply (wordly_cons (Ident k)); [exact N| |exact IH]. destruct (X ks F) as (v & ->). apply closes_dots.
Qed.
Lemma pieces ks : Forall named ks -> sequence g_piece (map (fun k => "." ++ k) ks) (dot_words ks).
Proof. intros F. exists (map (fun k => [Sign "."; Ident k]) ks). split; [|now rewrite <- flat_map_concat_map]. induction F as [|k ks N F IH]; constructor; [right; exists k; auto|exact IH]. Qed.

Section Archives.
  Variable root : tree.
  Definition lexical_explicit (e : tree) : Prop :=
    exists sp f dp, explicit_lines root e = Ok [indented ["@explicit_reference("; sp ++ "." ++ f ++ ","; dp; ")"]]
      /\ placed sp /\ named f /\ pathed dp /\ normal_explicit e = RExplicit sp f dp.
  Lemma explicit_text e ls : lexical_explicit e -> explicit_lines root e = Ok ls -> exists xs, writes ls xs /\ g_resource_decoration (normal_explicit e) xs.
  Proof.
    intros (sp & f & dp & E & (ks & Ne & F & ->) & Nf & Pd & ->) H. rewrite E in H. injection H as <-.
    exists ([Key "@explicit_reference"; Sign "("] ++ dot_words ks ++ [Sign "."; Ident f; Sign ","; Qual dp; Sign ")"])%list. split.
    - apply (writes_indented [[Key "@explicit_reference"; Sign "("]; dot_words ks ++ [Sign "."; Ident f; Sign ","]; [Qual dp]; [Sign ")"]]%list).
      + apply Forall2_cons; [now words|]. apply Forall2_cons; [|words]. apply dots_wordly; [exact F|eexists; reflexivity|]. apply (wordly_cons (Sign ".") _ (f ++ ",")); [reflexivity|apply closes_any|]. apply (wordly_sign (Ident f) ","); [exact I|exact Nf|reflexivity].
      + cbn [List.concat]. rewrite app_nil_r, <- !app_assoc. reflexivity.
    - exists (map (fun k => "." ++ k) ks), (dot_words ks). split; [intros Q; now apply map_eq_nil in Q|]. split; [reflexivity|]. split; [now apply pieces|reflexivity].
  Qed.

  Definition lexical_resource (r : tree) : Prop :=
    exists k opt m, t_kind r = KResource k opt m /\ named (t_name r) /\ (forall e, In e (explicits_in r) -> lexical_explicit e)
      /\ match k with
         | KBound => False
         | KVector | KInstance => exists p, refers to_structure r = [p] /\ placed p /\ type_params root (referenced_structures r) = Ok [p]
         | KMultivector w => (0 <= w)%Z /\ refers to_structure r <> [] /\ Forall placed (refers to_structure r) /\ type_params root (referenced_structures r) = Ok (refers to_structure r)
         | KArchiveRes => exists p, refers to_archive r = [p] /\ placed p /\ resource_type root r = Ok ["archive"; p]
         | KRawData => exists ps, type_params root (referenced_structures r) = Ok ps
         end.
  Lemma forall2_ending xss ws ys y w : Forall2 wordly xss ws -> wordly ys (w ++ ";") -> y = (List.concat xss ++ ys)%list ->
    exists zss, Forall2 wordly zss (ending (ws ++ [w])%list ";") /\ y = List.concat zss.
  Proof.
    intros F W ->. induction F as [|xs v xss ws V F IH].
    - exists [ys]. split; [now repeat (first [apply Forall2_cons | apply Forall2_nil])|]. cbn. now rewrite app_nil_r.
    - destruct IH as (zss & Fz & E). exists (xs :: zss). split.
      + cbn [app ending]. destruct (ws ++ [w])%list eqn:Q; [now destruct ws|]. constructor; [exact V|exact Fz].
      + cbn [List.concat]. rewrite <- app_assoc, E. reflexivity.
  Qed.
  Lemma type_text r k opt m ty : lexical_resource r -> t_kind r = KResource k opt m -> resource_type root r = Ok ty ->
    exists xss ts, Forall2 wordly xss (ending ty ";") /\ List.concat xss = (ts ++ [Sign ";"])%list /\ g_resource_type (normal_type r k) ts.
  Proof.
    intros (k' & opt' & m' & K & _ & _ & C) K' H. rewrite K in K'. injection K' as <- <- <-. unfold normal_type. destruct k'; cbn [resource_type] in *.
    - destruct C as (p & E & P & T). apply placed_pathed in P as (P & (t & Et)). unfold resource_type in H. rewrite T in H. cbn [bind] in H. rewrite K in H. injection H as <-. rewrite E. cbn [sole hd comma ending].
      exists [[Qual p; Sign ";"]], [Qual p]. split; [words|]. split; [reflexivity|].
      rewrite Et. split; [intros [|(u & ?)]; discriminate|]. split; [intros [|(u & ?)]; discriminate|]. split; [intros [|(u & ?)]; discriminate|]. split; [discriminate|reflexivity].
    - destruct C as (p & E & P & T). apply placed_pathed in P as (P & _). unfold resource_type in H. rewrite T in H. cbn [bind] in H. rewrite K in H. injection H as <-. rewrite E. cbn [sole hd comma app ending].
      exists [[Key "vector"; Sign "<"]; [Qual p]; [Sign ">"; Sign ";"]], [Key "vector"; Sign "<"; Qual p; Sign ">"]. split; [words|]. split; reflexivity.
    - destruct C as (Wd & Ne & P & T). unfold resource_type in H. rewrite T in H. cbn [bind] in H. rewrite K in H. injection H as <-.
      destruct (comma_words (refers to_structure r) Ne) as (xss & Fx & Cx); [eapply Forall_impl; [|exact P]; intros a Ha; now apply placed_pathed|].
      destruct (forall2_ending ([Key "multivector"; Sign "<"] :: [Num (py_str width); Sign ","] :: xss) ("multivector<" :: (py_str width ++ ",") :: comma (refers to_structure r)) [Sign ">"; Sign ";"]
        ([Key "multivector"; Sign "<"; Num (py_str width); Sign ","] ++ List.concat xss ++ [Sign ">"; Sign ";"])%list ">") as (zss & Fz & E).
      { apply Forall2_cons; [now words|]. apply Forall2_cons; [|exact Fx]. now apply num_sign. }
      { now apply (signs_word ">" ";"). }
      { reflexivity. }
      exists zss, ([Key "multivector"; Sign "<"; Num (py_str width); Sign ","] ++ List.concat xss ++ [Sign ">"])%list. split; [exact Fz|]. split; [rewrite <- E; cbn [app]; now rewrite <- app_assoc|].
      exists (py_str width), (List.concat xss). split; [now apply py_str_number|]. split; [exact Cx|reflexivity].
    - destruct C as (ps & T). unfold resource_type in H. rewrite T in H. cbn [bind] in H. rewrite K in H. injection H as <-. exists [[Key "raw_data"; Sign ";"]], [Key "raw_data"]. split; [|split; reflexivity]. cbn [ending]. words.
    - destruct C as (p & E & P & T). apply placed_pathed in P as (P & _). rewrite T in H. injection H as <-. rewrite E. cbn [sole hd ending].
      exists [[Key "archive"]; [Qual p; Sign ";"]], [Key "archive"; Qual p]. split; [words|]. split; [reflexivity|]. exists []. split; [now left|reflexivity].
    - destruct C.
  Qed.
  Lemma resource_text r ls : lexical_resource r -> resource_lines root r = Ok ls -> exists xs, writes ls xs /\ g_resource (normal_resource r) xs.
  Proof.
    intros L H. pose proof L as (k & opt & m & K & N & Ex & _). unfold resource_lines in H. destruct (mapM (explicit_lines root) _) as [es|] eqn:E; [|discriminate]. cbn [bind] in H.
    destruct (resource_type root r) as [ty|] eqn:T; [|discriminate]. injection H as <-. unfold normal_resource. rewrite K.
    change (children_like r is_explicit) with (explicits_in r) in E.
    destruct (sequence_lines g_resource_decoration (explicit_lines root) normal_explicit _ es E) as (x0 & W0 & S0); [intros e ls He; apply explicit_text; now apply Ex|].
    assert (W1 : exists xs, writes (if opt then [indented ["@optional"]] else []) xs /\ sequence g_resource_decoration (if opt then [ROptional] else []) xs).
    { destruct opt; [|exists []; split; [apply writes_nil|apply sequence_nil]]. exists [Key "@optional"]. split; [|apply sequence_one; reflexivity]. apply (writes_indented [[Key "@optional"]]); [words|reflexivity]. }
    destruct W1 as (x1 & W1 & S1). destruct (type_text r k opt m ty L K T) as (xss & ts & Fx & Cx & Gt).
    exists ((x0 ++ x1) ++ [Ident (t_name r); Sign ":"] ++ ts ++ [Sign ";"])%list. split.
    - rewrite <- app_assoc. apply writes_app; [exact W0|]. apply writes_app; [destruct opt; exact W1|]. apply (writes_indented ([Ident (t_name r)] :: [Sign ":"] :: xss)); [|cbn [List.concat app]; now rewrite Cx].
      apply Forall2_cons; [now apply ident_word|]. apply Forall2_cons; [now apply sign_word|exact Fx].
    - exists [], (x0 ++ x1)%list, ts. cbn [pr_decs pr_type pr_name]. split; [now left|]. split; [now apply sequence_app|]. split; [exact Gt|reflexivity].
  Qed.

  Definition lexical_bound (b : tree) : Prop :=
    named (t_name b) /\ t_children b <> [] /\ forall c, In c (t_children b) -> is_ref c = true /\ ref_path root c = Ok (target c) /\ placed (target c).
  Lemma bound_text b ls : lexical_bound b -> bound_lines root b = Ok ls -> exists xs, writes ls xs /\ g_bound (normal_bound b) xs.
  Proof.
    intros (N & Ne & Hc) H. unfold bound_lines in H. assert (E : mapM (fun c => if is_ref c then ref_path root c else Err AttributeError) (t_children b) = Ok (map target (t_children b))).
    { clear N Ne H. induction (t_children b) as [|c cs IH]; [reflexivity|]. cbn [mapM map]. destruct (Hc c (or_introl eq_refl)) as (-> & -> & _). cbn [bind]. rewrite IH by auto with datatypes. reflexivity. }
    rewrite E in H. injection H as <-. destruct (comma_words (map target (t_children b))) as (xss & Fx & Cx).
    - intros Q. apply map_eq_nil in Q. contradiction.
    - rewrite Forall_forall. intros p Hp. apply in_map_iff in Hp as (c & <- & Hin). now apply placed_pathed, Hc.
    - exists ([Key "@bound_implicitly"; Sign "("; Ident (t_name b); Sign ":"] ++ List.concat xss ++ [Sign ")"])%list. split.
      + apply (writes_words _ ([Key "@bound_implicitly"; Sign "("] :: [Ident (t_name b)] :: [Sign ":"] :: xss ++ [[Sign ")"]])%list); [|discriminate|].
        * apply Forall2_cons; [now words|]. apply Forall2_cons; [now apply ident_word|]. apply Forall2_cons; [now apply sign_word|]. apply Forall2_app; [exact Fx|]. words.
        * cbn [List.concat app]. rewrite concat_app. reflexivity.
      + exists (List.concat xss). split; [exact Cx|reflexivity].
  Qed.
  Lemma archive_text t ls : t_kind t = KArchive -> named (t_name t) -> (forall r, In r (resources_in t) -> lexical_resource r) -> (forall b, In b (bounds_in t) -> lexical_bound b) ->
    archive_lines root (t_name t) (t_children t) = Ok ls -> exists xs, writes ls xs /\ g_archive (normal_archive t) xs.
  Proof.
    intros K N Hr Hb H. unfold archive_lines in H. destruct (mapM (bound_lines root) _) as [bs|] eqn:E1; [|discriminate]. cbn [bind] in H. destruct (mapM (resource_lines root) _) as [rs|] eqn:E2; [|discriminate]. injection H as <-.
    change (filter (fun c => is_bound (t_kind c)) (t_children t)) with (bounds_in t) in E1. change (filter (fun c => is_supported_resource (t_kind c)) (t_children t)) with (resources_in t) in E2.
    destruct (sequence_lines g_bound (bound_lines root) normal_bound _ bs E1) as (x0 & W0 & S0); [intros b ls Hin; apply bound_text; now apply Hb|].
    destruct (sequence_lines g_resource (resource_lines root) normal_resource _ rs E2) as (x1 & W1 & S1); [intros b ls Hin; apply resource_text; now apply Hr|].
    exists (x0 ++ [Key "archive"; Ident (t_name t); Sign "{"] ++ x1 ++ [Sign "}"])%list. split; [|exists x0, x1; auto].
    assert (V1 : writes [["archive"; t_name t]] [Key "archive"; Ident (t_name t)]) by (apply (writes_words _ [[Key "archive"]; [Ident (t_name t)]]); [words|discriminate|reflexivity]).
    assert (V2 : writes [["{"]] [Sign "{"]) by (apply (writes_words _ [[Sign "{"]]); [words|discriminate|reflexivity]).
    assert (V3 : writes [["}"]] [Sign "}"]) by (apply (writes_words _ [[Sign "}"]]); [words|discriminate|reflexivity]).
    apply writes_app; [exact W0|]. exact (writes_app _ _ _ _ (writes_app _ _ _ _ V1 V2) (writes_app _ _ _ _ W1 V3)).
  Qed.

  (** ** Blocks *)
  Definition lexical (t : tree) : Prop :=
    named (t_name t) /\
    match t_kind t with
    | KConstant ty _ => g_type ty
    | KEnum b => g_type (bt_name b) /\ (0 <= bt_width b)%Z /\ declared_values t <> [] /\ forall v, In v (declared_values t) -> named (t_name v)
    | KStructure _ => fields_in t <> [] /\ forall f, In f (fields_in t) -> lexical_field f
    | KArchive => (forall r, In r (resources_in t) -> lexical_resource r) /\ (forall b, In b (bounds_in t) -> lexical_bound b)
    | _ => False
    end.
  Theorem block_text l t n ls : namespaces root l = [n] -> named n -> lexical t -> block root l t = Ok ls -> exists xs, writes ls xs /\ g_namespace (normal_block n t) xs.
  Proof.
    intros Ns Nn (N & L) H. unfold block in H. destruct (declaration root t) as [d|] eqn:E; [|discriminate]. injection H as <-. rewrite Ns. cbn [map app].
    assert (X : exists xs, writes d xs /\ exists ds, g_body ds xs /\ normal_block n t = PNamespace n (constants_of ds) (structs_of ds) (enums_of ds) (archives_of ds)).
    { assert (One : forall x xs, g_definition x xs -> g_body [x] xs). { intros x xs G. exists [], xs, []. split; [constructor|]. split; [exact G|]. split; [constructor|]. cbn. now rewrite app_nil_r. }
      unfold declaration in E. unfold normal_block. destruct (t_kind t) eqn:K; try contradiction.
      - injection E as <-. destruct (constant_text t _ _ K N L) as (xs & W & G). exists xs. split; [exact W|]. exists [DConstant (normal_constant t)]. split; [now apply One|reflexivity].
      - destruct L as (L1 & L2). destruct (structure_text t _ d K N L1 L2 E) as (xs & W & G). exists xs. split; [exact W|]. exists [DStruct (normal_structure t)]. split; [now apply One|reflexivity].
      - injection E as <-. destruct L as (L1 & L2 & L3 & L4). destruct (enum_text t _ K N L1 L2 L3 L4) as (xs & W & G). exists xs. split; [exact W|]. exists [DEnum (normal_enum t)]. split; [now apply One|reflexivity].
      - destruct L as (L1 & L2). destruct (archive_text t d K N L1 L2 E) as (xs & W & G). exists xs. split; [exact W|]. exists [DArchive (normal_archive t)]. split; [now apply One|reflexivity]. }
    destruct X as (xs & W & ds & G & Eb). exists ([Key "namespace"; Qual n; Sign "{"] ++ xs ++ [Sign "}"])%list. split.
    - assert (Pn : pathed n). { destruct Nn as (c & t' & -> & A & B). exists c, t'. split; [reflexivity|]. split; [now rewrite A|]. clear - B. induction t' as [|e t' IH]; [reflexivity|]. cbn in *. apply andb_true_iff in B as (B1 & B2). rewrite IH by exact B2. unfold path_char. now rewrite B1. }
      assert (V1 : writes [["namespace"; n; "{"]] [Key "namespace"; Qual n; Sign "{"]) by (apply (writes_words _ [[Key "namespace"]; [Qual n]; [Sign "{"]]); [words|discriminate|reflexivity]).
      assert (V2 : writes [["}"]; [""]] [Sign "}"]).
      { change [["}"]; [""]] with ([["}"]] ++ [[""]])%list. change [Sign "}"] with ([Sign "}"] ++ [])%list. apply writes_app; [apply (writes_words _ [[Sign "}"]]); [words|discriminate|reflexivity]|]. apply (writes_words _ [[]]); [words|discriminate|reflexivity]. }
      exact (writes_app _ _ _ _ V1 (writes_app _ _ _ _ W V2)).
    - exists ds, xs, []. split; [exact G|]. split; [now left|]. rewrite Eb. split; [reflexivity|]. cbn [pn_name]. rewrite app_nil_r. reflexivity.
  Qed.
End Archives.
Definition ready (root : tree) (x : loc * tree) (p : pnamespace) : Prop :=
  exists n, namespaces root (fst x) = [n] /\ named n /\ lexical root (snd x) /\ p = normal_block n (snd x).
Theorem blocks_text root xs ps bs : xs <> [] -> Forall2 (ready root) xs ps -> mapM (fun x => block root (fst x) (snd x)) xs = Ok bs -> denotes (text (List.concat bs)) ps.
Proof.
  intros Ne F H. right. assert (X : exists ys, writes (List.concat bs) ys /\ sequence g_namespace ps ys).
  { clear Ne. revert bs H. induction F as [|x p xs ps (n & Ns & Nn & L & ->) F IH]; intros bs H; cbn [mapM] in H.
    - injection H as <-. exists []. split; [apply writes_nil|apply sequence_nil].
    - destruct (block root (fst x) (snd x)) as [b|] eqn:E; [|discriminate]. cbn [bind] in H. destruct (mapM _ xs) as [rest|]; [|discriminate]. injection H as <-.
      destruct (block_text root _ _ n b Ns Nn L E) as (zs & W & G). destruct (IH rest eq_refl) as (ys & V & (yss & Fy & ->)). exists (zs ++ List.concat yss)%list. split; [now apply writes_app|].
      exists (zs :: yss). split; [now constructor|reflexivity]. }
  destruct X as (ys & W & Sq). exists ys. split.
  - exists [], ys. split; [destruct F; [congruence|discriminate]|]. split; [constructor|]. auto.
  - destruct (W "") as (b & R & B). rewrite str_nil in R. exists (b ++ ""). split; [exact R|]. rewrite str_nil. exact B.
Qed.
