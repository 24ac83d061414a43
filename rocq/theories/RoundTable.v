(** Reading rendered CREATE TABLE statements. *)
From Verif Require Export RoundDefs DiffMore.

Local Opaque max_turns.

(** ** Definitions *)

(** A text and what it is read as. *)
Definition wdef : Type := string * (def -> Prop).
Definition rdef_text (d : wdef) : string := fst d.
Definition same_def (d : wdef) (p : def) : Prop := snd d p.
Definition rdef_ok (d : wdef) : Prop :=
  def_text (fst d) /\ forall e, ending_ok e -> calm_end e -> exists p, best_child definition_classes (fst d ++ ending_raw e) None = Ok (Some (p, ending_left e)) /\ snd d p.
Lemma rdef_read d e : rdef_ok d -> ending_ok e -> calm_end e ->
  exists p, best_child definition_classes (rdef_text d ++ ending_raw e) None = Ok (Some (p, ending_left e)) /\ same_def d p.
Proof. intros [_ R]. apply R. Qed.
Definition def_ok (d : wdef) : Prop := def_text (fst d).
Lemma rdef_def d : def_ok d -> def_text (rdef_text d).
Proof. intros D. exact D. Qed.
Lemma rdef_shape d : rdef_ok d -> def_ok d.
Proof. intros [D _]. exact D. Qed.
Lemma rdef_shapes ds : Forall rdef_ok ds -> Forall def_ok ds.
Proof. apply Forall_impl, rdef_shape. Qed.
Lemma def_some d : def_text d -> d <> "".
Proof. apply dt_some. Qed.

Definition body (ds : list wdef) : string := join ", " (map rdef_text ds).
Definition closing (gap : bool) (r : string) : string := ending_raw (EClose gap r).
Lemma body_trim ds gap r : ds <> [] -> Forall def_ok ds -> neat r = true -> trim (body ds ++ closing gap r) = true /\ body ds ++ closing gap r <> "".
Proof.
  intros N F R. assert (C : neat (closing gap r) = true) by (apply raw_neat; exact R).
  unfold body. induction F as [|d ds D F IH]; [contradiction|]. pose proof (rdef_def d D) as T. pose proof (def_some _ T) as T'.
  split; [|intros Z; destruct ds; cbn [map] in Z; [cbn [join] in Z|rewrite join_cons in Z by discriminate]; rewrite ?sapp_assoc in Z; apply sapp_eq_nil in Z as [Z _]; contradiction].
  destruct ds as [|d' ds].
  - cbn [map join]. apply trim_cat; [apply T|exact T'|exact C].
  - destruct (IH ltac:(discriminate)) as [IH1 IH2]. cbn [map]. rewrite join_cons by discriminate. rewrite !sapp_assoc.
    apply trim_cat; [apply T|exact T'|]. apply (neat_app "," (String " " _)); [reflexivity|discriminate|]. apply neat_space; [exact IH1|exact IH2].
Qed.
Lemma kids_defs ds gap r : ds <> [] -> Forall rdef_ok ds -> neat r = true -> forall n ms, exists ps,
  kids (List.length ds + n) definition_classes (body ds ++ closing gap r) ms = kids n definition_classes (")" ++ r) (ms +++ ps)
  /\ Forall2 same_def ds ps.
Proof.
  intros N F R. induction F as [|d ds D F IH]; [contradiction|]. intros n ms. destruct ds as [|d' ds].
  - destruct (rdef_read d (EClose gap r) D R (calm_close gap r)) as (p & B & Sd). exists [p]. split; [|repeat constructor; exact Sd].
    assert (Z : is_empty (rdef_text d ++ closing gap r) = false).
    { pose proof (def_some _ (rdef_def d (rdef_shape d D))) as T. destruct (rdef_text d); [contradiction|reflexivity]. }
    unfold body. cbn [map join List.length Nat.add]. cbn [kids]. rewrite Z. unfold closing. rewrite B. cbn [bind]. reflexivity.
  - destruct (body_trim (d' :: ds) gap r ltac:(discriminate) (rdef_shapes _ F) R) as [T1 T2].
    destruct (rdef_read d (EComma (body (d' :: ds) ++ closing gap r)) D) as (p & B & Sd); [split; assumption|apply calm_comma|].
    destruct (IH ltac:(discriminate) n (ms +++ [p])) as (ps & K & P). exists (p :: ps). split; [|constructor; assumption].
    assert (Z : is_empty (body (d :: d' :: ds) ++ closing gap r) = false).
    { pose proof (body_trim (d :: d' :: ds) gap r ltac:(discriminate) (rdef_shapes _ (Forall_cons _ D F)) R) as [_ T]. destruct (body (d :: d' :: ds) ++ closing gap r); [contradiction|reflexivity]. }
    change (List.length (d :: d' :: ds) + n) with (S (List.length (d' :: ds) + n)). cbn [kids]. rewrite Z.
    replace (body (d :: d' :: ds) ++ closing gap r) with (rdef_text d ++ ending_raw (EComma (body (d' :: ds) ++ closing gap r))).
    + rewrite B. cbn [bind ending_left]. rewrite K, <- app_assoc. reflexivity.
    + cbn [ending_raw ending_text]. unfold body at 2. cbn [map]. rewrite (join_cons _ (rdef_text d)) by discriminate. rewrite !sapp_assoc. reflexivity.
Qed.
Lemma no_more_defs r : neat r = true -> best_child definition_classes (")" ++ r) None = Ok None.
Proof.
  intros R. assert (T : trim (")" ++ r) = true) by (apply trim_app; [reflexivity|discriminate|exact R]).
  assert (G : forall l, Forall (fun c : pclass def => exists x, c (")" ++ r) = Ok (None, x)) l -> best_child l (")" ++ r) None = Ok None).
  { induction 1 as [|c l [x Q] _ IH]; [reflexivity|]. cbn [best_child]. rewrite Q. cbn [bind]. exact IH. }
  apply G. unfold definition_classes, primary_class, key_class, unique_class, foreign_class, bare_class, character_class, numeric_class, decimal_class,
    enum_class, plain_class, text_class, datetime_class.
  repeat (constructor; [eexists; rewrite child_trim by exact T; reflexivity|]). constructor.
Qed.
Lemma kids_close ds gap r n : ds <> [] -> Forall rdef_ok ds -> neat r = true -> List.length ds < n -> exists ps,
  kids n definition_classes (body ds ++ closing gap r) [] = Ok (Some (ps, ")" ++ r)) /\ Forall2 same_def ds ps.
Proof.
  intros N F R L. destruct (kids_defs ds gap r N F R (S (n - S (List.length ds))) []) as (ps & K & P). exists ps. split; [|exact P].
  replace (List.length ds + S (n - S (List.length ds))) with n in K by lia. rewrite K. cbn [kids]. rewrite no_more_defs by exact R. cbn [bind List.app is_empty String.append].
  destruct ps; [inversion P; subst; contradiction|reflexivity].
Qed.

(** ** Options *)

Definition option_text (o : toption) : string := o_name o ++ "=" ++ o_value o.
Definition options_text (l : list toption) : string := join " " (map option_text l).
Lemma words_trim ws : ws <> [] -> Forall (fun w => w <> "" /\ sforall option_name_char w = true) ws -> trim (join " " ws) = true /\ join " " ws <> "".
Proof.
  intros N F. induction F as [|w ws [W1 W2] F IH]; [contradiction|].
  assert (W : sforall not_space w = true).
  { apply (sforall_imp option_name_char); [|exact W2]. intros c. unfold option_name_char, not_space. rewrite !negb_true_iff, !orb_false_iff. tauto. }
  destruct ws as [|x ws].
  - cbn [join]. split; [|exact W1]. rewrite <- (sapp_nil_r w). apply trim_app; auto.
  - rewrite join_cons by discriminate. destruct (IH ltac:(discriminate)) as [A B]. split; [|intros Z; apply sapp_eq_nil in Z as [Z _]; contradiction].
    apply trim_app; [exact W|exact W1|]. apply (neat_space (join " " (x :: ws))); assumption.
Qed.
Lemma words_chars (p : ascii -> bool) ws : p " "%char = true -> (forall c, option_name_char c = true -> p c = true) ->
  Forall (fun w => w <> "" /\ sforall option_name_char w = true) ws -> sforall p (join " " ws) = true.
Proof.
  intros S P F. induction F as [|w ws [_ W] F IH]; [reflexivity|]. apply (sforall_imp _ _ _ P) in W. destruct ws; [exact W|].
  rewrite join_cons by discriminate. rewrite !sforall_app, W. cbn [sforall]. rewrite S. exact IH.
Qed.
Lemma option_name o : plain_option o -> trim (o_name o) = true /\ o_name o <> "" /\ sforall not_equals (o_name o) = true /\ sforall solid (o_name o) = true.
Proof.
  intros R. destruct (po_words o R) as (ws & N & F & ->). destruct (words_trim ws N F) as [A B]. repeat split; auto.
  - apply words_chars; [reflexivity| |exact F]. intros c. unfold option_name_char, not_equals, is_char. rewrite !negb_true_iff, !orb_false_iff. tauto.
  - apply words_chars; [reflexivity| |exact F]. intros c. unfold option_name_char, solid. rewrite !negb_true_iff, !orb_false_iff. tauto.
Qed.
Lemma option_value o : plain_option o -> sforall not_space (o_value o) = true /\ o_value o <> "" /\ sforall value_char (o_value o) = true /\ sforall solid (o_value o) = true.
Proof.
  intros R. destruct (po_value o R) as (N & F & _). split; [|split; [exact N|split]].
  - apply (sforall_imp option_value_char); [|exact F]. intros c. unfold option_value_char, not_space. rewrite !negb_true_iff, !orb_false_iff. tauto.
  - apply (sforall_imp option_value_char); [|exact F]. intros c. unfold option_value_char, value_char, is_char. rewrite !negb_true_iff, !orb_false_iff. tauto.
  - apply (sforall_imp option_value_char); [|exact F]. intros c. unfold option_value_char, solid. rewrite !negb_true_iff, !orb_false_iff. tauto.
Qed.
Lemma option_def o z : plain_option o -> neat z = true -> trim (option_text o ++ z) = true.
Proof.
  intros R Z. destruct (option_name o R) as (A & B & _), (option_value o R) as (C & D & _). unfold option_text. rewrite !sapp_assoc.
  apply trim_cat; [exact A|exact B|]. apply (neat_app "="); [reflexivity|discriminate|]. apply neat_app'; assumption.
Qed.
Lemma span_upto_all p a c r : sforall p a = true -> p c = false -> forall n, String.length a <= n -> span_upto n p (a ++ String c r) = (a, String c r).
Proof.
  intros A C. induction a as [|d a IH]; intros n L.
  - destruct n; [reflexivity|]. cbn [String.append span_upto]. rewrite C. reflexivity.
  - destruct n as [|n]; [simpl in L; lia|]. cbn [sforall] in A. apply andb_true_iff in A as [A1 A2]. cbn [String.append span_upto].
    rewrite A1, (IH A2); [reflexivity|simpl in L; lia].
Qed.
Lemma option_read o z : plain_option o -> neat z = true -> starts (fun c => negb (value_char c)) z = true ->
  option_class (option_text o ++ z) = Ok (Some (DefOption o), strip z).
Proof.
  intros R Z V. pose proof (option_def o z R Z) as T. destruct (option_name o R) as (A & B & C & _), (option_value o R) as (D & E & F & _).
  destruct (po_name o R) as (L & _).
  unfold option_class. rewrite child_trim by exact T. unfold option_rules, option_text, lit. rewrite !sapp_assoc.
  assert (T1 : trim ("=" ++ o_value o ++ z) = true) by (apply trim_app; [reflexivity|discriminate|]; apply neat_app'; assumption).
  assert (T2 : trim (o_value o ++ z) = true) by (apply trim_app; assumption).
  rewrite (step_re "name" _ false _ _ (VText (o_name o)) ("=" ++ o_value o ++ z)); [| |rewrite trim_strip by exact T1; discriminate].
  2:{ unfold re_match. cbn [String.append]. rewrite span_upto_all; [|exact C|reflexivity|exact L]. destruct (o_name o); [contradiction|reflexivity]. }
  rewrite trim_strip by exact T1.
  rewrite (step_lit "=" "=" false _ _ (o_value o ++ z)); [|reflexivity|rewrite trim_strip by exact T2; intros X; apply sapp_eq_nil in X; tauto].
  rewrite trim_strip by exact T2. cbn [run_rules run_rule]. rewrite (plus_word value_char (o_value o) z F E V). cbn [bind rule_name].
  assert (P : forall v : pvals leaf, vtext "name" v = o_name o -> vtext "value" v = o_value o -> DefOption (option_process v) = DefOption o).
  { intros v X Y. unfold option_process. rewrite X, Y, (trim_strip _ A). rewrite (trim_strip (o_value o)); [destruct o; reflexivity|].
    rewrite <- (sapp_nil_r (o_value o)). apply trim_app; auto. }
  destruct (is_empty (strip z)) eqn:Q; cbn [forallb]; [apply is_empty_iff in Q; rewrite Q|]; rewrite <- (P (dset "value" (VText (o_value o)) (dset "=" (VText "=") (dset "name" (VText (o_name o)) [])))) by reflexivity; reflexivity.
Qed.
Lemma options_trim l z : l <> [] -> Forall plain_option l -> neat z = true -> trim (options_text l ++ z) = true /\ options_text l ++ z <> "".
Proof.
  intros N F Z. unfold options_text. induction F as [|o l O F IH]; [contradiction|].
  assert (No : option_text o <> "").
  { unfold option_text. intros X. apply sapp_eq_nil in X as [X _]. pose proof (option_name o O) as (_ & Y & _). contradiction. }
  split; [|intros X; destruct l; cbn [map] in X; [cbn [join] in X|rewrite join_cons in X by discriminate]; rewrite ?sapp_assoc in X; apply sapp_eq_nil in X as [X _]; contradiction].
  destruct l as [|o' l].
  - cbn [map join]. apply option_def; assumption.
  - destruct (IH ltac:(discriminate)) as [A B]. cbn [map]. rewrite join_cons by discriminate. rewrite !sapp_assoc. apply option_def; [exact O|].
    apply (neat_space (join " " (map option_text (o' :: l)) ++ z)); assumption.
Qed.
Lemma kids_options l z : l <> [] -> Forall plain_option l -> trim z = true -> z <> "" -> starts (fun c => negb (value_char c)) z = true -> forall n ms,
  kids (List.length l + n) [option_class] (options_text l ++ z) ms = kids n [option_class] z (ms +++ map DefOption l).
Proof.
  intros N F Z Zn V. pose proof (trim_neat _ Z) as Zt. induction F as [|o l O F IH]; [contradiction|]. intros n ms.
  assert (E : is_empty (options_text (o :: l) ++ z) = false).
  { pose proof (options_trim (o :: l) z ltac:(discriminate) (Forall_cons _ O F) Zt) as [_ T]. destruct (options_text (o :: l) ++ z); [contradiction|reflexivity]. }
  change (List.length (o :: l) + n) with (S (List.length l + n)). cbn [kids]. rewrite E. cbn [best_child]. destruct l as [|o' l].
  - unfold options_text. cbn [map join]. rewrite option_read by assumption. cbn [bind]. rewrite trim_strip by exact Z. reflexivity.
  - destruct (options_trim (o' :: l) z ltac:(discriminate) F Zt) as [A B].
    replace (options_text (o :: o' :: l) ++ z) with (option_text o ++ String " " (options_text (o' :: l) ++ z)).
    + rewrite option_read; [|exact O|apply neat_space; assumption|reflexivity]. cbn [bind]. rewrite strip_space by exact A.
      rewrite IH by discriminate. rewrite <- app_assoc. reflexivity.
    + unfold options_text. cbn [map]. rewrite (join_cons _ (option_text o)) by discriminate. rewrite !sapp_assoc. reflexivity.
Qed.
(** The end of the statement. *)
Definition stop (semi : bool) : string := if semi then ";" else "".
(** What follows the options, what is left of it, and whether there is a semicolon.  Text after the semicolon must not
    look like another option. *)
Inductive table_end : string -> string -> bool -> Prop :=
| tend_none : table_end "" "" false
| tend_semi r x : neat r = true -> option_class (String ";" r) = Ok (None, x) -> table_end (String ";" r) (strip r) true.
Lemma stop_end semi : table_end (stop semi) "" semi.
Proof. destruct semi; [apply (tend_semi "" ""); reflexivity|constructor]. Qed.
Lemma table_end_neat z r semi : table_end z r semi -> neat z = true.
Proof. destruct 1 as [|r x R _]; [reflexivity|]. apply (neat_cat ";"); [reflexivity|exact R]. Qed.
Lemma option_last o : plain_option o -> option_class (option_text o) = Ok (Some (DefOption o), "").
Proof. intros R. rewrite <- (sapp_nil_r (option_text o)). rewrite option_read; auto. Qed.
Lemma kids_last l : l <> [] -> Forall plain_option l -> forall n ms,
  kids (List.length l + n) [option_class] (options_text l) ms = Ok (Some (ms +++ map DefOption l, "")).
Proof.
  intros N F. induction F as [|o l O F IH]; [contradiction|]. intros n ms.
  assert (E : is_empty (options_text (o :: l)) = false).
  { pose proof (options_trim (o :: l) "" ltac:(discriminate) (Forall_cons _ O F) eq_refl) as [_ T]. rewrite sapp_nil_r in T. destruct (options_text (o :: l)); [contradiction|reflexivity]. }
  change (List.length (o :: l) + n) with (S (List.length l + n)). cbn [kids]. rewrite E. cbn [best_child]. destruct l as [|o' l].
  - unfold options_text. cbn [map join]. rewrite option_last by exact O. cbn [bind]. destruct n; reflexivity.
  - destruct (options_trim (o' :: l) "" ltac:(discriminate) F eq_refl) as [A B]. rewrite sapp_nil_r in A, B.
    replace (options_text (o :: o' :: l)) with (option_text o ++ String " " (options_text (o' :: l))).
    + rewrite option_read; [|exact O|apply neat_space; assumption|reflexivity]. cbn [bind]. rewrite strip_space by exact A.
      rewrite IH by discriminate. rewrite <- app_assoc. reflexivity.
    + unfold options_text. cbn [map]. rewrite (join_cons _ (option_text o)) by discriminate. reflexivity.
Qed.
Lemma kids_semicolon z r semi l n : table_end z r semi -> l <> [] -> Forall plain_option l -> List.length l < n ->
  kids n [option_class] (options_text l ++ z) [] = Ok (Some (map DefOption l, z)).
Proof.
  intros E N F L. replace n with (List.length l + S (n - S (List.length l))) by lia. destruct E as [|r x R X].
  - rewrite sapp_nil_r. rewrite kids_last by assumption. reflexivity.
  - assert (T : trim (String ";" r) = true) by (apply (trim_app ";"); [reflexivity|discriminate|exact R]).
    rewrite kids_options; try assumption; try reflexivity; [|discriminate].
    cbn [kids is_empty best_child]. rewrite X. cbn [bind List.app].
    destruct l; [contradiction|reflexivity].
Qed.

(** ** The statement *)

(** What follows the closing parenthesis. *)
Definition after_defs (l : list toption) (z : string) : string := (if list_is_nil l then "" else " " ++ options_text l) ++ z.
Definition flat (gap gap' : bool) (h : string) (ds : list wdef) (l : list toption) (z : string) : string :=
  h ++ " (" ++ (if gap then " " else "") ++ body ds ++ closing gap' (after_defs l z).
Definition stored_options (l : list toption) (v : pvals def) : pvals def :=
  if list_is_nil l then v else dset "table_options" (VKids (map DefOption l)) v.
Definition stored_stop (semi : bool) (v : pvals def) : pvals def := if semi then dset "closing_semicolon" (VText ";") v else v.

Lemma after_strip l z r semi : table_end z r semi -> Forall plain_option l -> neat (after_defs l z) = true /\ strip (after_defs l z) = options_text l ++ z.
Proof.
  intros E F. pose proof (table_end_neat _ _ _ E) as Z. unfold after_defs. destruct l as [|o l].
  - cbn [list_is_nil String.append options_text map join]. split; [exact Z|]. destruct E as [|r x R X]; [reflexivity|]. apply trim_strip, (trim_app ";"); [reflexivity|discriminate|exact R].
  - cbn [list_is_nil]. rewrite sapp_assoc. destruct (options_trim (o :: l) z ltac:(discriminate) F Z) as [A B].
    split; [apply (neat_space (options_text (o :: l) ++ z)); assumption|apply (strip_space (options_text (o :: l) ++ z)), A].
Qed.

Lemma step_kids {C} n (classes : list (pclass C)) o rs s l t (v : pvals C) : kids max_turns classes s [] = Ok (Some (l, t)) -> t <> "" ->
  run_rules (RKids n classes o :: rs) s v = run_rules rs t (dset n (VKids l) v).
Proof. intros K T. cbn [run_rules run_rule]. rewrite K. cbn [bind]. destruct t; [contradiction|reflexivity]. Qed.
Lemma skip_kids {C} n (classes : list (pclass C)) rs s (v : pvals C) : kids max_turns classes s [] = Ok None ->
  run_rules (RKids n classes true :: rs) s v = run_rules rs s v.
Proof. intros K. cbn [run_rules run_rule]. rewrite K. reflexivity. Qed.

Lemma turns_enough k : (N.of_nat k < 1000)%N -> k < max_turns.
Proof.
  intros H. assert (E : N.of_nat max_turns = 1000%N) by (apply (N2Nat.id 1000)). lia.
Qed.
Lemma semicolon_none r x : option_class (String ";" r) = Ok (None, x) -> kids max_turns [option_class] (String ";" r) [] = Ok None.
Proof.
  intros X. pose proof (turns_enough 0 ltac:(reflexivity)) as L. destruct max_turns as [|m]; [lia|]. cbn [kids is_empty best_child]. rewrite X. reflexivity.
Qed.

(** ** The words before the definitions *)

Lemma match_later a l b s : match_lit l s = None -> match_lit (String a l) (String b s) = None.
Proof. intros H. cbn [match_lit]. destruct (Ascii.eqb (to_lower a) (to_lower b)); [exact H|reflexivity]. Qed.
Lemma if_none n r : sforall not_space n = true -> match_lit "IF NOT EXISTS" (n ++ String " " (String "(" r)) = None.
Proof.
  intros H. destruct n as [|a [|b [|c n]]]; cbn [sforall] in H; rewrite ?andb_true_iff in H; cbn [String.append].
  - reflexivity.
  - apply match_later. reflexivity.
  - do 2 apply match_later. reflexivity.
  - destruct H as (_ & _ & C & _). do 2 apply match_later. apply match_lit_char. clear - C.
    destruct c as [[|] [|] [|] [|] [|] [|] [|] [|]]; vm_compute in C |- *; congruence.
Qed.
Definition head_vals (ine : bool) (tick : bool) (n : string) : pvals def :=
  ("CREATE TABLE", VText "CREATE TABLE") :: (if ine then [("if_not_exists", VText "IF NOT EXISTS")] else []) +++ [("name", VText (name_text tick n))].
Lemma name_dropped' tick n : clean_name n -> sforall not_space (name_text tick n) = true /\ name_text tick n <> "" /\ sforall solid (name_text tick n) = true.
Proof. intros C. apply (name_dropped tick n C). Qed.
(** The head as a text: nothing in it is taken for a comment or a prefix length. *)
Lemma head_text n h : create_head n h -> trim h = true /\ h <> "" /\ sforall solid h = true
  /\ (forall r, starts no_dash r = true -> no_dd false r = true -> no_dd false (h ++ r) = true).
Proof.
  intros [k j tick K J C]. destruct (name_dropped tick n C) as [(A & B & D) E].
  destruct (spelled_free "CREATE TABLE" k K) as (K1 & K2 & K3 & K4); [reflexivity|discriminate|reflexivity|reflexivity|].
  assert (Q : neat j = true /\ sforall no_dash j = true /\ sforall solid j = true).
  { destruct J as [->|(q & Sq & ->)]; [repeat split|]. destruct (spelled_free "IF NOT EXISTS" q Sq) as (Q1 & Q2 & Q3 & Q4); [reflexivity|discriminate|reflexivity|reflexivity|].
    split; [apply neat_space; assumption|]. cbn [String.append sforall]. rewrite Q3, Q4. split; reflexivity. }
  destruct Q as (J1 & J2 & J3). split; [|split; [|split]].
  - apply trim_cat; [exact K1|exact K2|]. apply neat_cat; [exact J1|]. apply neat_space; [|exact B]. rewrite <- (sapp_nil_r (name_text tick n)). apply trim_app; auto.
  - intros Z. apply sapp_eq_nil in Z as [Z _]. contradiction.
  - rewrite !sforall_app, K4, J3, D. reflexivity.
  - intros r R1 R2. rewrite !sapp_assoc. apply free_dd; [exact K3|]. apply free_dd; [exact J2|]. apply (free_dd " "); [reflexivity|]. apply E; assumption.
Qed.
Lemma head_run n h rs r : create_head n h -> trim ("(" ++ r) = true -> exists ine tick,
  run_rules (lit "CREATE TABLE" :: RLit "if_not_exists" "IF NOT EXISTS" true :: RRe "name" (plus not_space) false :: rs) (h ++ " (" ++ r) []
  = run_rules rs ("(" ++ r) (head_vals ine tick n).
Proof.
  intros [k j tick K J C] T. destruct (name_dropped' tick n C) as (A & B & _).
  assert (T1 : trim (name_text tick n ++ " (" ++ r) = true) by (apply trim_app; [exact A|exact B|apply (neat_space ("(" ++ r)); [exact T|discriminate]]).
  assert (N1 : name_text tick n ++ " (" ++ r <> "") by (intros Z; apply sapp_eq_nil in Z as [Z _]; contradiction).
  assert (Nm : forall v, run_rules (RRe "name" (plus not_space) false :: rs) (name_text tick n ++ " (" ++ r) v = run_rules rs ("(" ++ r) (dset "name" (VText (name_text tick n)) v)).
  { intros v. rewrite (step_re "name" _ false _ _ (VText (name_text tick n)) (String " " ("(" ++ r))); [|apply plus_word; [exact A|exact B|reflexivity]|rewrite strip_space by exact T; discriminate].
    rewrite strip_space by exact T. reflexivity. }
  unfold lit. destruct J as [->|(q & Sq & ->)].
  - exists false, tick. rewrite !sapp_assoc. cbn [String.append].
    rewrite (step_lit "CREATE TABLE" "CREATE TABLE" false _ _ (String " " (name_text tick n ++ " (" ++ r))); [|apply match_lit_app; symmetry; exact K|rewrite strip_space by exact T1; exact N1].
    rewrite strip_space by exact T1. rewrite skip_lit by apply if_none, A. rewrite Nm. reflexivity.
  - exists true, tick. rewrite !sapp_assoc. cbn [String.append].
    assert (T2 : trim (q ++ String " " (name_text tick n ++ String " " (String "(" r))) = true).
    { apply (spelled_trim "IF NOT EXISTS"); [exact Sq|reflexivity|discriminate|]. apply neat_space; assumption. }
    assert (N2 : q ++ String " " (name_text tick n ++ String " " (String "(" r)) <> "").
    { intros Z. apply sapp_eq_nil in Z as [_ Z]. discriminate. }
    rewrite (step_lit "CREATE TABLE" "CREATE TABLE" false _ _ (String " " (q ++ String " " (name_text tick n ++ String " " (String "(" r))))); [|apply match_lit_app; symmetry; exact K|rewrite strip_space by exact T2; exact N2].
    rewrite strip_space by exact T2.
    rewrite (step_lit "if_not_exists" "IF NOT EXISTS" true _ _ (String " " (name_text tick n ++ String " " (String "(" r)))); [|apply match_lit_app; symmetry; exact Sq|rewrite strip_space by exact T1; exact N1].
    rewrite strip_space by exact T1. rewrite Nm. reflexivity.
Qed.
Definition create_vals (ine tick : bool) (n : string) (ps : list def) (l : list toption) (semi : bool) : pvals def :=
  stored_stop semi (stored_options l (head_vals ine tick n +++ [("(", VText "("); ("definitions", VKids ps); (")", VText ")")])).

Lemma flat_kids gap gap' n h ds l z r semi ps : table_end z r semi -> create_head n h -> ds <> [] -> Forall def_ok ds -> Forall plain_option l ->
  (N.of_nat (List.length l) < 1000)%N -> kids max_turns definition_classes (body ds ++ closing gap' (after_defs l z)) [] = Ok (Some (ps, ")" ++ after_defs l z)) -> exists ine tick,
  run_rules create_rules (flat gap gap' h ds l z) [] = Ok (Some (create_vals ine tick n ps l semi), r).
Proof.
  intros He Hh N F O Ll K. destruct (after_strip l z r semi He O) as [An As].
  destruct (body_trim ds gap' (after_defs l z) N F An) as [B1 B2].
  set (bd := body ds ++ closing gap' (after_defs l z)) in *.
  assert (G1 : neat ((if gap then " " else "") ++ bd) = true) by (destruct gap; [apply (neat_space bd); assumption|apply trim_neat, B1]).
  assert (G2 : strip ((if gap then " " else "") ++ bd) = bd) by (destruct gap; [apply (strip_space bd), B1|apply trim_strip, B1]).
  assert (S1 : trim ("(" ++ (if gap then " " else "") ++ bd) = true) by (apply trim_app; [reflexivity|discriminate|exact G1]).
  unfold create_rules, flat. fold bd.
  match goal with |- context [run_rules (lit "CREATE TABLE" :: RLit "if_not_exists" "IF NOT EXISTS" true :: RRe "name" (plus not_space) false :: ?rs)] => destruct (head_run n h rs _ Hh S1) as (ine & tick & ->) end.
  exists ine, tick. unfold create_vals. set (v0 := head_vals ine tick n). unfold lit.
  rewrite (step_lit "(" "(" false _ _ ((if gap then " " else "") ++ bd)); [|reflexivity|rewrite G2; exact B2].
  rewrite G2. rewrite (step_kids _ _ _ _ _ _ _ _ K) by discriminate. unfold v0.
  assert (Last : forall v : pvals def, run_rules [RLit "closing_semicolon" ";" true] z v = Ok (Some (stored_stop semi v), r)).
  { intros v. destruct He as [|q x R X]; [reflexivity|]. cbn [run_rules run_rule]. assert (M : match_lit ";" (String ";" q) = Some q) by (destruct q; reflexivity). rewrite M.
    cbn [bind rule_name stored_stop forallb]. destruct (is_empty (strip q)) eqn:Q; [apply is_empty_iff in Q; rewrite Q|]; reflexivity. }
  destruct l as [|o l].
  - destruct He as [|q x R X].
    + destruct ine; reflexivity.
    + rewrite (step_lit ")" ")" false _ _ (after_defs [] (String ";" q))); [|reflexivity|rewrite As; discriminate].
      rewrite As. cbn [stored_options list_is_nil]. change (options_text [] ++ String ";" q) with (String ";" q). rewrite skip_kids by apply (semicolon_none q x X). rewrite Last. destruct ine; reflexivity.
  - pose proof (table_end_neat _ _ _ He) as Z. assert (X : options_text (o :: l) ++ z <> "").
    { apply options_trim; [discriminate|exact O|exact Z]. }
    rewrite (step_lit ")" ")" false _ _ (after_defs (o :: l) z)); [|reflexivity|rewrite As; exact X].
    rewrite As. pose proof (kids_semicolon z r semi (o :: l) max_turns He ltac:(discriminate) O (turns_enough _ Ll)) as K2. destruct He as [|q x R Y].
    + cbn [run_rules run_rule]. rewrite K2. destruct ine; reflexivity.
    + rewrite (step_kids _ _ _ _ _ (map DefOption (o :: l)) (String ";" q)); [|exact K2|discriminate]. rewrite Last. destruct ine; reflexivity.
Qed.
Lemma flat_run gap gap' n h ds l z r semi : table_end z r semi -> create_head n h -> ds <> [] -> Forall rdef_ok ds -> Forall plain_option l ->
  (N.of_nat (List.length ds) < 1000)%N -> (N.of_nat (List.length l) < 1000)%N -> exists ps ine tick,
  run_rules create_rules (flat gap gap' h ds l z) [] = Ok (Some (create_vals ine tick n ps l semi), r) /\ Forall2 same_def ds ps.
Proof.
  intros He Hh N F O Ld Ll. destruct (after_strip l z r semi He O) as [An _].
  destruct (kids_close ds gap' (after_defs l z) max_turns N F An (turns_enough _ Ld)) as (ps & K & P).
  destruct (flat_kids gap gap' n h ds l z r semi ps He Hh N (rdef_shapes _ F) O Ll K) as (ine & tick & R). exists ps, ine, tick. auto.
Qed.
