(** Definitions followed by words that the tool does not know. *)
From Verif Require Export SpecTrail RoundInline.

Local Opaque max_turns max_statements.

(** ** Two words read as a column *)

Lemma unknown_type b : ~ In (upper b) known_types -> normalize_type b = b /\ upper b <> "BOOLEAN" /\ upper b <> "BOOL" /\ dget (upper b) type_map = None.
Proof.
  intros H.
  assert (N : forall t, In t known_types -> upper b <> t) by (intros t I E; apply H; rewrite E; exact I).
  split; [|split; [|split]].
  - unfold normalize_type. destruct (String.eqb (lower b) "integer") eqn:E; [|reflexivity]. apply String.eqb_eq in E.
    exfalso. apply (N "INTEGER"); [cbn; tauto|]. apply (upper_caseless b "INTEGER"). exact E.
  - apply N. cbn; tauto.
  - apply N. cbn; tauto.
  - apply dget_none. intros I. apply H. exact I.
Qed.
Section Stray.
  Local Notation run_rules := (@run_rules leaf).
  Variables (a b : string) (l : list item) (e : ending) (n : bool).
  Hypothesis Ha : name_ok false a.
  Hypothesis Hca : prefix "CONSTRAINT" (upper a) = false.
  Hypothesis Hb : b <> "" /\ sforall is_word b = true.
  Hypothesis Hu : ~ In (upper b) known_types.
  Hypothesis Hl : nullness n l.
  Hypothesis He : ending_ok e.
  Notation v0 := ([("name", VText a); ("type", VText b)] : pvals leaf).
  Notation L := (String.length (ending_left e)).

  Lemma stray_name : (a <> "" /\ sforall name_char a = true) /\ strip_char bquote a = a.
  Proof. exact (name_facts false a (proj1 Ha)). Qed.
  Lemma stray_items : items_ok l.
  Proof. apply (nullness_items n), Hl. Qed.

  Theorem stray_bare : exists p, best_child definition_classes (a ++ " " ++ b ++ items_text l ++ ending_raw e) None = Ok (Some (DefCol p, ending_left e))
    /\ p_name p = a /\ upper (p_type p) = upper b.
  Proof.
    destruct stray_name as [Hn Hs]. pose proof stray_items as Hi. destruct (unknown_type b Hu) as (Nt & N1 & N2 & _).
    pose proof (definition_text false a b NoLength l e) as Ht. unfold column_definition in Ht. cbn [name_text length_text] in Ht. rewrite !sapp_assoc in Ht.
    change (a ++ " " ++ b ++ "" ++ items_text l ++ ending_raw e) with (a ++ " " ++ b ++ items_text l ++ ending_raw e) in Ht. rewrite Ht.
    assert (T : trim (col_text a b NoLength l e) = true) by (apply col_trim; first [assumption|exact I]).
    assert (R : forall os, run_rules (rname :: rtype :: map orule os +++ [rcomma]) (col_text a b NoLength l e) [] = Ok (Some (comma_vals e (snd (sim os l v0)) (fst (sim os l v0))), left_of e (snd (sim os l v0)))).
    { intros os. apply (bare_none a b l e Hn Hb Hi He os). }
    assert (S0 : snd (sim plain_os l v0) = []) by (clear -Hl; destruct Hl; reflexivity).
    exists (plain_process (comma_vals e [] (fst (sim plain_os l v0)))). split.
    - apply (best_pick ([primary_class; key_class; unique_class; foreign_class; bare_class] +++ [character_class; numeric_class; decimal_class; enum_class])
               plain_class [text_class; datetime_class]).
      + apply Forall_app. split; [apply (name_other false); [exact Ha|exact Hb|apply more_starts; reflexivity|right; exact Hca|apply (rest_neat NoLength); first [assumption|exact I]]|].
        repeat (constructor; [eapply class_tied_none; [exact T|apply paren_none; assumption]|]). constructor.
      + apply class_run; [exact T|]. etransitivity; [apply (R plain_os)|]. rewrite S0. reflexivity.
      + assert (Lt : forall os, L <= String.length (left_of e (snd (sim os l v0)))) by (intros os; apply left_tied, sim_ok, Hi).
        constructor; [eapply class_tied; [exact T|apply (R text_os)|apply Lt]|]. constructor; [eapply class_tied; [exact T|apply (R datetime_os)|apply Lt]|constructor].
    - assert (Vn : vtext "name" (comma_vals e [] (fst (sim plain_os l v0))) = a) by (clear -Hl; destruct Hl, e; reflexivity).
      assert (Vt : vtext "type" (comma_vals e [] (fst (sim plain_os l v0))) = b) by (clear -Hl; destruct Hl, e; reflexivity).
      unfold plain_process, extract_name. rewrite Vn, Vt. cbn [p_name p_type]. rewrite Nt. split; [exact Hs|].
      apply String.eqb_neq in N1, N2. rewrite N1, N2. reflexivity.
  Qed.

  (** With a name between parentheses. *)
  Variables (g : bool) (x : ident).
  Hypothesis Hx : ident_ok x.
  Definition arg_inner : string := ident_text x ++ String ")" (more l e).
  Definition arg_open : string := String "(" arg_inner.
  Definition arg_rest : string := gap_text g ++ arg_open.
  Definition arg_all : string := a ++ String " " (b ++ arg_rest).
  Lemma arg_inner_trim : trim arg_inner = true.
  Proof. apply trim_app; [apply ident_not_space, Hx|apply ident_name, Hx|]. apply trim_neat, close_trim; [apply stray_items|exact He]. Qed.
  Lemma arg_inner_some : arg_inner <> "".
  Proof. intros Z. apply sapp_eq_nil in Z as [Z _]. apply (proj2 (ident_name x Hx)), Z. Qed.
  Lemma arg_open_trim : trim arg_open = true.
  Proof. apply (trim_app "("); [reflexivity|discriminate|]. apply trim_neat, arg_inner_trim. Qed.
  Lemma arg_rest_neat : neat arg_rest = true.
  Proof. unfold arg_rest. destruct g; cbn [gap_text String.append]; [apply neat_space; [apply arg_open_trim|discriminate]|apply trim_neat, arg_open_trim]. Qed.
  Lemma arg_body_trim : trim (b ++ arg_rest) = true.
  Proof. destruct Hb as [N W]. apply trim_app; [apply (sforall_imp _ _ _ word_not_space), W|exact N|apply arg_rest_neat]. Qed.
  Lemma arg_all_trim : trim arg_all = true.
  Proof.
    destruct stray_name as [[N W] _]. apply trim_app; [apply (sforall_imp _ _ _ name_not_space), W|exact N|]. apply neat_space; [apply arg_body_trim|].
    destruct Hb as [Nb _]. destruct b; [contradiction|discriminate].
  Qed.
  Lemma arg_head rs : run_rules (rname :: rtype :: rs) arg_all [] = run_rules rs arg_open v0.
  Proof.
    destruct stray_name as [Hn _]. unfold arg_all. apply (words_head a (String " " (b ++ arg_rest)) Hn eq_refl) with (r2 := arg_rest).
    - rewrite strip_space by apply arg_body_trim. destruct Hb as [Nb _]. destruct b; [contradiction|discriminate].
    - exact Hb.
    - apply strip_space, arg_body_trim.
    - unfold arg_rest. destruct g; reflexivity.
    - unfold arg_rest. destruct g; cbn [gap_text String.append]; [apply strip_space, arg_open_trim|apply trim_strip, arg_open_trim].
    - discriminate.
  Qed.
  Lemma arg_paren rs (v : pvals leaf) : run_rules (lit "(" :: rs) arg_open v = run_rules rs arg_inner (dset "(" (VText "(") v).
  Proof.
    unfold lit, arg_open. rewrite (step_lit "(" "(" false _ _ arg_inner); [|reflexivity|rewrite trim_strip by apply arg_inner_trim; apply arg_inner_some].
    rewrite trim_strip by apply arg_inner_trim. reflexivity.
  Qed.
  Lemma arg_listed : exists vs, vs <> [] /\ delimited squote "," ")" arg_inner = Ok (Some (vs, String ")" (more l e))).
  Proof.
    pose (ok := fun c => negb (Ascii.eqb c squote || Ascii.eqb c ")" || (Ascii.eqb c "," || Ascii.eqb c " "))).
    assert (G : forall y, sforall ok y = true -> forall has cur vals l', has = true \/ y <> "" -> exists v,
      delim squote "," ")" has false cur vals l' (y ++ String ")" (more l e)) = (false, vals +++ [v], String ")" (more l e))).
    { induction y as [|c y IH]; intros X has cur vals l' Hv.
      - destruct Hv as [->|Hv]; [|contradiction]. exists cur. reflexivity.
      - cbn [sforall] in X. apply andb_true_iff in X as [X1 X2]. unfold ok in X1. apply negb_true_iff, orb_false_iff in X1 as [X1 X3]. apply orb_false_iff in X1 as [Xq Xc].
        cbn [String.append delim]. rewrite Xq, X3.
        assert (M : match_lit ")" (String c (y ++ String ")" (more l e))) = None).
        { cbn [match_lit]. replace (Ascii.eqb (to_lower ")") (to_lower c)) with false; [reflexivity|].
          clear - Xc. destruct c as [[|] [|] [|] [|] [|] [|] [|] [|]]; vm_compute in Xc |- *; congruence. }
        rewrite M. apply (IH X2). left. reflexivity. }
    destruct (G (ident_text x)) with (has := false) (cur := "") (vals := @nil string) (l' := "") as [v E].
    - assert (P : forall c, name_ok_char c = true -> ok c = true) by (intros c; clear; destruct c as [[|] [|] [|] [|] [|] [|] [|] [|]]; vm_compute; congruence).
      pose proof (sforall_imp _ _ _ P (ident_chars x Hx)) as H. destruct x as [[|] m]; unfold ident_text, name_text; cbn [fst snd] in *; [|exact H].
      unfold ticked. cbn [sforall]. rewrite sforall_app. cbn [sforall]. rewrite H. reflexivity.
    - right. apply ident_name, Hx.
    - exists [v]. split; [discriminate|]. unfold delimited, arg_inner. rewrite E. reflexivity.
  Qed.
  Theorem stray_arg : exists p, best_child definition_classes arg_all None = Ok (Some (DefCol p, ending_left e))
    /\ p_name p = a /\ upper (p_type p) = upper b.
  Proof.
    destruct stray_name as [Hn Hs]. pose proof stray_items as Hi. pose proof arg_all_trim as T. destruct arg_listed as (vs & Nv & Dv).
    pose (v1 := dset "enum_values" (VList vs) (dset "(" (VText "(") v0) : pvals leaf).
    pose (v2 := dset ")" (VText ")") v1).
    assert (S0 : snd (sim enum_os l v2) = []) by (clear -Hl; destruct Hl; reflexivity).
    assert (R : run_rules enum_rules arg_all [] = Ok (Some (comma_vals e [] (fst (sim enum_os l v2))), ending_left e)).
    { change enum_rules with (rname :: rtype :: lit "(" :: RDel "enum_values" "," squote false :: lit ")" :: map orule enum_os +++ [@rcomma leaf]).
      rewrite arg_head, arg_paren. unfold lit at 1.
      rewrite (step_del "enum_values" "," squote false ")" ")" false _ _ vs (String ")" (more l e))); [|exact Dv|discriminate].
      change (RLit ")" ")" false) with (@lit leaf ")"). rewrite close_items by assumption. fold v1 v2. rewrite S0. reflexivity. }
    assert (Dg : starts (fun c => negb (is_digit c)) arg_inner = true).
    { unfold arg_inner. destruct x as [[|] m]; unfold ident_text, name_text; cbn [fst snd]; [rewrite ticked_append; reflexivity|].
      destruct Hx as [[Nm _] Hx2]. destruct (Hx2 eq_refl) as [_ D]. cbn [snd] in *. destruct m as [|c m]; [contradiction|]. cbn [String.append starts]. rewrite D. reflexivity. }
    assert (NC : forall rules (process : pvals leaf -> pcol) rs, rules = rname :: rtype :: lit "(" :: rlength :: rs -> beaten L arg_all (child_of rules process DefCol)).
    { intros rules process rs ->. eapply class_tied_none; [exact T|]. rewrite arg_head, arg_paren. apply fail_re.
      pose proof arg_inner_some as Ns. destruct arg_inner as [|d y]; [contradiction|]. cbn [starts] in Dg. apply negb_true_iff in Dg. apply plus_none, Dg. }
    assert (OC : forall rules (process : pvals leaf -> pcol) os, rules = rname :: rtype :: map orule os +++ [rcomma] -> tied L arg_all (child_of rules process DefCol)).
    { intros rules process os ->. eapply class_tied; [exact T|rewrite arg_head; apply run_open|].
      unfold arg_inner. cbn [String.length]. rewrite slength_app. cbn [String.length]. pose proof (more_length l e). pose proof (ending_left_length e). lia. }
    exists (enum_process (comma_vals e [] (fst (sim enum_os l v2)))). split.
    - apply (best_pick ([primary_class; key_class; unique_class; foreign_class; bare_class] +++ [character_class; numeric_class; decimal_class]) enum_class
        [plain_class; text_class; datetime_class]).
      + apply Forall_app. split; [apply (name_other false); [exact Ha|exact Hb|unfold arg_rest; destruct g; reflexivity|right; exact Hca|apply arg_rest_neat]|]. repeat (constructor; [eapply NC; reflexivity|]). constructor.
      + apply class_run; [exact T|exact R].
      + constructor; [apply (OC plain_rules plain_process plain_os eq_refl)|]. constructor; [apply (OC text_rules text_process text_os eq_refl)|].
        constructor; [apply (OC datetime_rules datetime_process datetime_os eq_refl)|constructor].
    - assert (Vn : vtext "name" (comma_vals e [] (fst (sim enum_os l v2))) = a) by (clear -Hl; destruct Hl, e; reflexivity).
      assert (Vt : vtext "type" (comma_vals e [] (fst (sim enum_os l v2))) = b) by (clear -Hl; destruct Hl, e; reflexivity).
      unfold enum_process, extract_name. rewrite Vn, Vt. destruct (sense _ _ _) as [d w]. cbn [p_name p_type]. split; [exact Hs|reflexivity].
  Qed.
End Stray.

(** ** The words one after the other *)

Lemma stray_read x e : stray_ok x -> ending_ok e -> exists p, best_child definition_classes (stray_text x ++ ending_raw e) None = Ok (Some (DefCol p, ending_left e))
  /\ p_name p = s_word x /\ upper (p_type p) = upper (s_next x).
Proof.
  intros [[Hw Hc] Ht Hu Hg [n Hn]] He. destruct x as [a b [[g i]|] l]; cbn [s_word s_next s_arg s_null] in *.
  - destruct (stray_arg a b l e n Hw Hc Ht Hu Hn He g i (Hg g i eq_refl)) as (p & B & R). exists p. split; [|exact R]. rewrite <- B. f_equal.
    unfold stray_text, arg_all, arg_rest, arg_open, arg_inner, more, arg_text. cbn [s_word s_next s_arg s_null]. rewrite spaced_text. repeat (cbn [String.append]; rewrite ?sapp_assoc). reflexivity.
  - destruct (stray_bare a b l e n Hw Hc Ht Hu Hn He) as (p & B & R). exists p. split; [|exact R]. rewrite <- B. f_equal.
    unfold stray_text, arg_text. cbn [s_word s_next s_arg s_null]. repeat (cbn [String.append]; rewrite ?sapp_assoc). reflexivity.
Qed.
Lemma stray_split x : exists y, stray_text x = s_word x ++ String " " y.
Proof. unfold stray_text. eexists. cbn [String.append]. reflexivity. Qed.
Lemma items_spaced l r : items_text l ++ r = spaced l r.
Proof. rewrite spaced_text. reflexivity. Qed.
Lemma arg_neat o r : (forall g i, o = Some (g, i) -> ident_ok i) -> neat r = true -> neat (arg_text o ++ r) = true.
Proof.
  intros H R. destruct o as [[g i]|]; [|exact R]. specialize (H g i eq_refl). cbn [arg_text]. rewrite !sapp_assoc.
  assert (T : trim ("(" ++ ident_text i ++ ")" ++ r) = true).
  { apply trim_app; [reflexivity|discriminate|]. apply trim_neat, trim_app; [apply ident_not_space, H|apply ident_name, H|]. apply (neat_app ")"); [reflexivity|discriminate|exact R]. }
  destruct g; cbn [gap_text]; [apply neat_space; [exact T|discriminate]|apply trim_neat, T].
Qed.
Lemma stray_trim x r : stray_ok x -> neat r = true -> trim (stray_text x ++ r) = true /\ stray_text x ++ r <> "".
Proof.
  intros O R. destruct (stray_name (s_word x) (proj1 (so_word x O))) as [[N W] _]. split; [|unfold stray_text; rewrite sapp_assoc; intros Z; apply sapp_eq_nil in Z as [Z _]; contradiction].
  unfold stray_text. rewrite !sapp_assoc. apply trim_app; [apply (sforall_imp _ _ _ name_not_space), W|exact N|]. destruct (so_type x O) as [Nt Wt].
  assert (T : trim (s_next x ++ arg_text (s_arg x) ++ items_text (s_null x) ++ r) = true).
  { apply trim_app; [apply (sforall_imp _ _ _ word_not_space), Wt|exact Nt|]. apply arg_neat; [apply O|]. rewrite items_spaced. destruct (so_null x O) as [b Hb]. apply spaced_neat; [apply (nullness_items b), Hb|exact R]. }
  apply (neat_space (s_next x ++ arg_text (s_arg x) ++ items_text (s_null x) ++ r)); [exact T|]. intros Z. apply sapp_eq_nil in Z as [Z _]. contradiction.
Qed.
Definition trail (l : list stray) : string := join " " (map stray_text l).
Lemma trail_cons x y l r : trail (x :: y :: l) ++ r = stray_text x ++ " " ++ trail (y :: l) ++ r.
Proof. unfold trail. cbn [map]. rewrite join_cons by discriminate. rewrite !sapp_assoc. reflexivity. Qed.
Lemma trail_one x r : trail [x] ++ r = stray_text x ++ r.
Proof. reflexivity. Qed.
Lemma trail_trim l r : l <> [] -> Forall stray_ok l -> neat r = true -> trim (trail l ++ r) = true /\ trail l ++ r <> "".
Proof.
  intros N F R. induction F as [|x l X F IH]; [contradiction|]. destruct l as [|y l]; [rewrite trail_one; apply stray_trim; assumption|].
  rewrite trail_cons. apply stray_trim; [exact X|]. destruct (IH ltac:(discriminate)) as [T Z]. apply (neat_space (trail (y :: l) ++ r)); assumption.
Qed.
Lemma trail_words x l r : exists y, trail (x :: l) ++ r = s_word x ++ String " " y.
Proof.
  destruct (stray_split x) as [y E]. destruct l as [|z l]; [rewrite trail_one|rewrite trail_cons]; rewrite E, sapp_assoc; cbn [String.append]; eauto.
Qed.
Lemma word_start K x : stray_ok x -> K = "," \/ K = "(" -> forall y, match_lit K (s_word x ++ y) = None.
Proof.
  intros O HK y. destruct (proj1 (so_word x O)) as [(N & P & _) _]. destruct (s_word x) as [|c w]; [contradiction|]. cbn [sforall] in P. apply andb_true_iff in P as [P _]. cbn [String.append].
  clear -P HK. destruct HK as [->| ->]; cbn [match_lit]; destruct c as [[|] [|] [|] [|] [|] [|] [|] [|]]; try reflexivity; vm_compute in P; discriminate.
Qed.
(** No definition goes on with them. *)
Lemma trail_ending x l e : stray_ok x -> Forall stray_ok l -> no_attribute x -> ending_ok e ->
  exists a z, trail (x :: l) ++ ending_raw e = String a z /\ ending_ok (EWords a z) /\ calm_end (EWords a z).
Proof.
  intros X F Fr He. destruct (trail_trim (x :: l) (ending_raw e) ltac:(discriminate) (Forall_cons _ X F) (raw_neat _ He)) as [T N].
  destruct (trail_words x l (ending_raw e)) as [y E].
  assert (A : forall K, In K attribute_words -> match_lit K (trail (x :: l) ++ ending_raw e) = None).
  { intros K I. rewrite E. apply not_keyword; [|apply Fr, I]. clear -I. cbn in I. repeat (destruct I as [<-|I]; [reflexivity|]). contradiction. }
  assert (B : match_lit "PRIMARY KEY" (trail (x :: l) ++ ending_raw e) = None).
  { rewrite E. destruct (so_word x X) as [[W1 W2] _]. destruct (W2 eq_refl) as [W3 _]. apply (keyword_two "PRIMARY" _ _ "KEY"); [cbn; tauto|apply (sforall_imp _ _ _ name_ok_name), W1|].
    intros U. apply W3. rewrite U. cbn; tauto. }
  assert (C : forall K, K = "," \/ K = "(" -> match_lit K (trail (x :: l) ++ ending_raw e) = None) by (intros K HK; rewrite E; apply word_start; assumption).
  destruct (trail (x :: l) ++ ending_raw e) as [|a z]; [contradiction|]. exists a, z. split; [reflexivity|]. split.
  - split; [exact T|]. intros K I. cbn in I.
    destruct I as [<-|[<-|[<-|[<-|[<-|[<-|[<-|[<-|[<-|[<-|[]]]]]]]]]]].
    + apply A; cbn; tauto.
    + apply A; cbn; tauto.
    + apply (match_none_app "NOT" " NULL"), A; cbn; tauto.
    + exact B.
    + apply (match_none_app "DEFAULT" " "), A; cbn; tauto.
    + apply (match_none_app "AUTO" "_INCREMENT"), A; cbn; tauto.
    + apply (match_none_app "CHARACTER" " SET "), A; cbn; tauto.
    + apply (match_none_app "COLLATE" " "), A; cbn; tauto.
    + apply C; auto.
    + apply C; auto.
  - intros K I. cbn [ending_text]. cbn in I. destruct I as [<-|[<-|[]]].
    + apply (match_none_app "ON" " DELETE "), A; cbn; tauto.
    + apply (match_none_app "ON" " UPDATE "), A; cbn; tauto.
Qed.

(** ** They are read as columns *)

Definition odd_column (x : stray) (d : def) : Prop := exists p, d = DefCol p /\ p_name p = s_word x /\ upper (p_type p) = upper (s_next x).
Lemma trail_read x l e : stray_ok x -> Forall stray_ok l -> Forall no_attribute l -> ending_ok e ->
  exists qs, Forall2 odd_column (x :: l) qs
    /\ forall n ms, kids (List.length (x :: l) + n) definition_classes (trail (x :: l) ++ ending_raw e) ms = kids n definition_classes (ending_left e) (ms +++ qs).
Proof.
  intros X F Fr He. revert x X. induction F as [|y l Y F IH]; intros x X.
  - destruct (stray_read x e X He) as (p & B & P1 & P2). exists [DefCol p]. split; [constructor; [exists p; auto|constructor]|].
    intros n ms. rewrite trail_one. cbn [List.length Nat.add kids].
    replace (is_empty (stray_text x ++ ending_raw e)) with false by (destruct (stray_trim x (ending_raw e) X (raw_neat _ He)) as [_ N]; destruct (stray_text x ++ ending_raw e); [contradiction|reflexivity]).
    rewrite B. reflexivity.
  - inversion Fr as [|? ? Fy Fl]; subst. destruct (IH Fl y Y) as (qs & Q & K).
    destruct (trail_ending y l e Y F Fy He) as (a & z & E & Ez & _).
    destruct (stray_read x (EWords a z) X Ez) as (p & B & P1 & P2). exists (DefCol p :: qs). split; [constructor; [exists p; auto|exact Q]|].
    intros n ms. rewrite trail_cons, E. cbn [ending_raw] in B.
    change (List.length (x :: y :: l) + n) with (S (List.length (y :: l) + n)). cbn [kids].
    replace (is_empty (stray_text x ++ " " ++ String a z)) with false by (destruct (stray_split x) as [w ->]; destruct (stray_name (s_word x) (proj1 (so_word x X))) as [[N _] _]; destruct (s_word x); [contradiction|reflexivity]).
    rewrite B. cbn [bind ending_left]. rewrite <- E, K, <- app_assoc. reflexivity.
Qed.

(** ** The text of a definition with such words *)

Lemma null_free b l : nullness b l -> sforall no_dash (items_text l) = true /\ sforall solid (items_text l) = true.
Proof.
  intros [|k S|k S]; cbn [items_text item_text]; [split; reflexivity|..]; rewrite ?sapp_nil_r.
  - destruct (spelled_free "NULL" k S) as (_ & _ & A & B); try reflexivity; [discriminate|]. split; cbn [sforall String.append]; assumption.
  - destruct (spelled_free "NOT NULL" k S) as (_ & _ & A & B); try reflexivity; [discriminate|]. split; cbn [sforall String.append]; assumption.
Qed.
Lemma word_free w : sforall is_word w = true -> sforall no_dash w = true /\ sforall solid w = true.
Proof. intros W. split; apply (sforall_imp is_word); try exact W; intros c; clear; destruct c as [[|] [|] [|] [|] [|] [|] [|] [|]]; vm_compute; congruence. Qed.
Lemma stray_dd x r : stray_ok x -> starts no_dash r = true -> no_dd false r = true -> no_dd false (stray_text x ++ r) = true.
Proof.
  intros O S R. destruct (so_null x O) as [b Hn]. destruct (null_free b _ Hn) as [D _]. destruct (word_free _ (proj2 (so_type x O))) as [W _].
  unfold stray_text. rewrite !sapp_assoc. destruct (name_dropped false (s_word x) (proj1 (proj1 (so_word x O)))) as [_ G]. cbn [name_text] in G. apply G; [reflexivity|].
  apply (free_dd " "); [reflexivity|]. apply free_dd; [exact W|].
  assert (Rn : no_dd false (items_text (s_null x) ++ r) = true) by (apply free_dd; assumption).
  pose proof (so_arg x O) as Hg. destruct (s_arg x) as [[g i]|]; [|exact Rn]. specialize (Hg g i eq_refl). cbn [arg_text]. rewrite !sapp_assoc.
  apply free_dd; [destruct g; reflexivity|]. apply (free_dd "("); [reflexivity|]. apply ident_dd; [exact Hg|reflexivity|]. apply (free_dd ")"); [reflexivity|exact Rn].
Qed.
Lemma stray_drop x r : stray_ok x -> no_drop r -> no_drop (stray_text x ++ r).
Proof.
  intros O R. destruct (so_null x O) as [b Hn]. destruct (null_free b _ Hn) as [_ D]. destruct (word_free _ (proj2 (so_type x O))) as [_ W].
  unfold stray_text. rewrite !sapp_assoc. destruct (name_dropped false (s_word x) (proj1 (proj1 (so_word x O)))) as [(_ & _ & G) _]. cbn [name_text] in G. apply no_drop_app; [exact G|].
  apply (no_drop_app " "); [reflexivity|]. apply no_drop_app; [exact W|].
  assert (Rn : no_drop (items_text (s_null x) ++ r)) by (apply no_drop_app; assumption).
  pose proof (so_arg x O) as Hg. destruct (s_arg x) as [[g i]|]; [|exact Rn]. specialize (Hg g i eq_refl). cbn [arg_text]. rewrite !sapp_assoc.
  apply no_drop_app; [destruct g; reflexivity|]. cbn [String.append]. apply (idents_drop false [i] _ ltac:(discriminate) (Forall_cons _ Hg (Forall_nil _)) Rn "("%char ""); reflexivity.
Qed.
Lemma trail_dd l r : Forall stray_ok l -> starts no_dash r = true -> no_dd false r = true -> no_dd false (trail l ++ r) = true.
Proof.
  intros F S R. induction F as [|x l X F IH]; [exact R|]. destruct l as [|y l]; [apply stray_dd; assumption|].
  rewrite trail_cons. apply stray_dd; [exact X|reflexivity|]. apply (free_dd " "); [reflexivity|exact IH].
Qed.
Lemma trail_drop l r : Forall stray_ok l -> no_drop r -> no_drop (trail l ++ r).
Proof.
  intros F R. induction F as [|x l X F IH]; [exact R|]. destruct l as [|y l]; [apply stray_drop; assumption|].
  rewrite trail_cons. apply stray_drop; [exact X|]. apply (no_drop_app " "); [reflexivity|exact IH].
Qed.
Lemma trailed_def s l : def_text s -> l <> [] -> Forall stray_ok l -> def_text (s ++ " " ++ trail l).
Proof.
  intros T N F. destruct (trail_trim l "" N F eq_refl) as [Tt Tn]. rewrite sapp_nil_r in Tt, Tn. constructor.
  - apply trim_cat; [apply T|apply T|]. apply (neat_space (trail l)); assumption.
  - intros r R1 R2. rewrite !sapp_assoc. apply T; [reflexivity|]. apply (free_dd " "); [reflexivity|]. apply trail_dd; assumption.
  - intros r R. rewrite !sapp_assoc. apply T. apply (no_drop_app " "); [reflexivity|]. apply trail_drop; assumption.
  - intros w r W. rewrite !sapp_assoc. apply T, W.
  - intros Z. apply sapp_eq_nil in Z as [_ Z]. discriminate.
Qed.

(** ** Reading it *)

Notation meant_by p := (piece_means m_name said_column said_index said_fk (piece_of p)).
Lemma dash_free s : sforall no_dash s = true -> dashless s.
Proof. intros H a b ->. rewrite !sforall_app in H. apply andb_true_iff in H as [_ H]. discriminate. Qed.
Lemma on_delete_ok u v : spelled "ON" u -> spelled "DELETE" v -> stray_ok (mkStray u v None []).
Proof.
  intros U V. destruct (spelled_free "ON" u U) as (_ & Un & Ud & _); try reflexivity; [discriminate|].
  constructor; cbn [s_word s_next s_arg s_null].
  - split; [split|].
    + split; [exact Un|]. split; [rewrite (caseless name_ok_char u "ON"); [reflexivity|letters|exact U]|apply dash_free, Ud].
    + intros _. rewrite (upper_caseless u "ON" U). split; [cbn; intuition discriminate|reflexivity].
    + rewrite (upper_caseless u "ON" U). reflexivity.
  - apply (spelled_word "DELETE"); [exact V|discriminate|reflexivity].
  - rewrite (upper_caseless v "DELETE" V). cbn. intuition discriminate.
  - discriminate.
  - exists true. constructor.
Qed.
Lemma updated_written k s : fk_updated k s -> fk_written k s.
Proof. intros [k1 k2 k3 tn tc tt tf g a1 a S1 S2 S3 N C T F D U A]. apply written_fk; auto. apply action_said; assumption. Qed.
Lemma updated_read k s e : fk_updated k s -> ending_ok e -> match_lit "ON UPDATE " (ending_text e) = None ->
  exists d, best_child definition_classes (s ++ ending_raw e) None = Ok (Some (d, ending_left e)) /\ meant_by (PartFk k) d.
Proof.
  intros [k1 k2 k3 tn tc tt tf g a1 a S1 S2 S3 N C T F D U A] He Hu. exists (DefFk false (mkConstraint (k_name k) (k_column k) (k_ftable k) (k_fcolumn k) (k_on_delete k) (k_on_update k) [] [])). split; [|repeat split].
  - assert (Fe : fk_end e (" " ++ a)) by (split; [exact Hu|discriminate]).
    pose proof (fk_read k1 k2 k3 (tn, k_name k) (tc, k_column k) (tt, k_ftable k) (tf, k_fcolumn k) g (k_on_delete k) (k_on_update k) a1 (" " ++ a) e S1 S2 S3 N C T F D (action_said "ON UPDATE" _ a U A) He Fe) as Q.
    cbn [snd] in Q. rewrite <- Q.
    f_equal. unfold fk_text, fk_named, fk0, fk1, fk2, fk3, fk4, fk5, fk6, ident_text. cbn [fst snd]. repeat (cbn [String.append]; rewrite ?sapp_assoc). reflexivity.
Qed.

Lemma not_null_ok u v : spelled "NOT" u -> spelled "NULL" v -> stray_ok (mkStray u v None []).
Proof.
  intros U V. destruct (spelled_free "NOT" u U) as (_ & Un & Ud & _); try reflexivity; [discriminate|].
  constructor; cbn [s_word s_next s_arg s_null].
  - split; [split|].
    + split; [exact Un|]. split; [rewrite (caseless name_ok_char u "NOT"); [reflexivity|letters|exact U]|apply dash_free, Ud].
    + intros _. rewrite (upper_caseless u "NOT" U). split; [cbn; intuition discriminate|reflexivity].
    + rewrite (upper_caseless u "NOT" U). reflexivity.
  - apply (spelled_word "NULL"); [exact V|discriminate|reflexivity].
  - rewrite (upper_caseless v "NULL" V). cbn. intuition discriminate.
  - discriminate.
  - exists true. constructor.
Qed.
Lemma trail_after u v l e : Forall stray_ok l -> Forall no_attribute l -> ending_ok e ->
  exists e', ending_ok e' /\ trail (mkStray u v None [] :: l) ++ ending_raw e = (u ++ " " ++ v) ++ ending_raw e'.
Proof.
  intros F Fr He. destruct l as [|y l].
  - exists e. split; [exact He|]. rewrite trail_one. unfold stray_text. cbn [s_word s_next s_arg s_null arg_text items_text]. rewrite !sapp_nil_r. reflexivity.
  - inversion F as [|? ? Y Fl]; subst. inversion Fr as [|? ? Fy Ffl]; subst. destruct (trail_ending y l e Y Fl Fy He) as (a & z & E & Ez & _).
    exists (EWords a z). split; [exact Ez|]. rewrite trail_cons, E. unfold stray_text. cbn [s_word s_next s_arg s_null arg_text items_text ending_raw]. rewrite !sapp_nil_r. reflexivity.
Qed.

(** ** NOT NULL after AUTO_INCREMENT *)

Section Turned.
  Variables (tick : bool) (n w : string) (lu : list item) (k : string).
  Hypothesis Hn : name_ok tick n.
  Hypothesis Hw : w <> "" /\ sforall is_word w = true.
  Hypothesis Hf : upper w <> "FOREIGN".
  Hypothesis Hu : lu = [] \/ exists y, lu = [IUnsigned y] /\ spelled "UNSIGNED" y.
  Hypothesis Hk : spelled "AUTO_INCREMENT" k.
  Notation nm := (name_text tick n).
  Notation v0 := ([("name", VText nm); ("type", VText w)] : pvals leaf).
  Notation items := (lu +++ [IAuto k]).
  Notation col := (plain_process (fst (sim plain_os items v0))).
  Lemma auto_items : items_ok items.
  Proof. destruct Hu as [-> | (y & -> & Y)]; repeat constructor; assumption. Qed.
  (** [l] is empty or NOT NULL. *)
  Lemma auto_reads l e : l = [] \/ (exists q, l = [INotNull q] /\ spelled "NOT NULL" q) -> ending_ok e -> (l = [] -> forall z, e <> EComma z) ->
    best_child definition_classes (column_definition tick n w NoLength (items +++ l) ++ ending_raw e) None = Ok (Some (DefCol col, left_of e l)).
  Proof.
    intros Hl He Hc. rewrite definition_text.
    assert (Hi : items_ok (items +++ l)) by (apply Forall_app; split; [apply auto_items|]; destruct Hl as [-> | (q & -> & Q)]; repeat constructor; assumption).
    assert (Hnm : nm <> "" /\ sforall name_char nm = true) by (apply (name_facts tick n (proj1 Hn))).
    assert (T : trim (col_text nm w NoLength (items +++ l) e) = true) by (apply col_trim; first [assumption|exact I]).
    assert (R : forall os, run_rules (rname :: rtype :: map orule os +++ [rcomma]) (col_text nm w NoLength (items +++ l) e) [] = Ok (Some (comma_vals e (snd (sim os (items +++ l) v0)) (fst (sim os (items +++ l) v0))), left_of e (snd (sim os (items +++ l) v0)))).
    { intros os. apply (bare_none nm w (items +++ l) e Hnm Hw Hi He os). }
    assert (S0 : sim plain_os (items +++ l) v0 = (fst (sim plain_os items v0), l)) by (clear -Hl Hu; destruct Hu as [-> | (y & -> & Y)], Hl as [-> | (q & -> & Q)]; reflexivity).
    assert (C0 : forall v, comma_vals e l v = v :> pvals leaf) by (intros v; clear -Hc; destruct l, e as [z| |]; try reflexivity; destruct (Hc eq_refl z eq_refl)).
    assert (Lt : forall os, os = text_os \/ os = datetime_os -> String.length (left_of e l) <= String.length (left_of e (snd (sim os (items +++ l) v0)))).
    { intros os Ho. assert (E : snd (sim os (items +++ l) v0) = items +++ l) by (clear -Hl Hu Ho; destruct Hu as [-> | (y & -> & Y)], Hl as [-> | (q & -> & Q)], Ho as [-> | ->]; reflexivity).
      rewrite E. clear -Hl Hu. pose proof (ending_left_length e). destruct Hu as [-> | (y & -> & Y)], Hl as [-> | (q & -> & Q)]; cbn [List.app left_of stream more spaced item_text]; rewrite ?slength_app; cbn [String.length]; rewrite ?slength_app; cbn [String.length]; rewrite ?slength_app; try lia; pose proof (more_length [] e) as M; unfold more in M; cbn [spaced] in M; lia. }
    apply (best_pick ([primary_class; key_class; unique_class; foreign_class; bare_class] +++ [character_class; numeric_class; decimal_class; enum_class])
               plain_class [text_class; datetime_class]).
    - apply Forall_app. split; [apply (name_other tick); [exact Hn|exact Hw|apply more_starts; reflexivity|left; exact Hf|apply (rest_neat NoLength); first [assumption|exact I]]|].
      repeat (constructor; [eapply class_tied_none; [exact T|apply paren_none; assumption]|]). constructor.
    - apply class_run; [exact T|]. etransitivity; [apply (R plain_os)|]. rewrite S0. cbn [fst snd]. rewrite C0. reflexivity.
    - constructor; [eapply class_tied; [exact T|apply (R text_os)|apply Lt; auto]|]. constructor; [eapply class_tied; [exact T|apply (R datetime_os)|apply Lt; auto]|constructor].
  Qed.
  (** The same with a length. *)
  Variable d : string.
  Hypothesis Hd : digits d.
  Notation sized := (numeric_process (fst (sim numeric_os items (one_vals nm w d)))).
  Lemma sized_reads l e : l = [] \/ (exists q, l = [INotNull q] /\ spelled "NOT NULL" q) -> ending_ok e -> (l = [] -> forall z, e <> EComma z) ->
    best_child definition_classes (column_definition tick n w (OneNumber d) (items +++ l) ++ ending_raw e) None = Ok (Some (DefCol sized, left_of e l)).
  Proof.
    intros Hl He Hc. rewrite definition_text.
    assert (Hi : items_ok (items +++ l)) by (apply Forall_app; split; [apply auto_items|]; destruct Hl as [-> | (q & -> & Q)]; repeat constructor; assumption).
    assert (Hnm : nm <> "" /\ sforall name_char nm = true) by (apply (name_facts tick n (proj1 Hn))).
    assert (T : trim (col_text nm w (OneNumber d) (items +++ l) e) = true) by (apply col_trim; assumption).
    assert (S0 : sim numeric_os (items +++ l) (one_vals nm w d) = (fst (sim numeric_os items (one_vals nm w d)), l)) by (clear -Hl Hu; destruct Hu as [-> | (y & -> & Y)], Hl as [-> | (q & -> & Q)]; reflexivity).
    assert (C0 : forall v, comma_vals e l v = v :> pvals leaf) by (intros v; clear -Hc; destruct l, e as [z| |]; try reflexivity; destruct (Hc eq_refl z eq_refl)).
    assert (Lm : String.length (left_of e l) < String.length (left_of e (items +++ l))).
    { clear -Hl Hu Hi. destruct Hl as [-> | (q & -> & Q)].
      - cbn [left_of]. apply left_beaten; [exact Hi|]. destruct Hu as [-> | (y & -> & Y)]; discriminate.
      - destruct Hu as [-> | (y & -> & Y)]; cbn [List.app left_of stream item_text]; unfold more; cbn [spaced item_text String.append]; repeat (rewrite ?slength_app; cbn [String.length]); lia. }
    assert (Lt : forall os (v : pvals leaf), os = character_os \/ os = enum_os -> snd (sim os (items +++ l) v) = items +++ l).
    { intros os v Ho. clear -Hl Hu Ho. destruct Hu as [-> | (y & -> & Y)], Hl as [-> | (q & -> & Q)], Ho as [-> | ->]; reflexivity. }
    assert (Lb : String.length (left_of e l) <= String.length (length_text (OneNumber d) ++ more (items +++ l) e)).
    { clear -Lm. rewrite slength_app. assert (G : String.length (left_of e (items +++ l)) <= String.length (more (items +++ l) e)); [|lia].
      pose proof (ending_left_length e). destruct (items +++ l) as [|i is] eqn:E; [destruct lu; discriminate E|]. cbn [left_of stream]. unfold more. cbn [spaced String.length]. lia. }
    apply (best_pick ([primary_class; key_class; unique_class; foreign_class; bare_class] +++ [character_class]) numeric_class
             [decimal_class; enum_class; plain_class; text_class; datetime_class]).
    - apply Forall_app. split; [apply (name_other tick); [exact Hn|exact Hw|reflexivity|left; exact Hf|apply (rest_neat (OneNumber d)); assumption]|].
      constructor; [|constructor]. pose proof (one_one nm w (items +++ l) e Hnm Hw Hi He d character_os Hd) as R.
      eapply class_tied; [exact T|exact R|]. rewrite Lt by auto. exact Lm.
    - apply class_run; [exact T|]. etransitivity; [apply (one_one nm w (items +++ l) e Hnm Hw Hi He d numeric_os Hd)|]. rewrite S0. cbn [fst snd]. rewrite C0. reflexivity.
    - constructor; [|constructor; [|constructor; [|constructor; [|constructor; [|constructor]]]]].
      + edestruct (dec_one nm w (items +++ l) e Hnm Hw Hi He d) as [r R]; [exact Hd|]. apply beaten_tied. eapply class_tied_none; [exact T|exact R].
      + destruct (enum_run nm w (items +++ l) e Hnm Hw Hi He enum_rules enum_os (OneNumber d) Hd ltac:(discriminate) eq_refl) as (v & _ & R).
        eapply class_tied; [exact T|exact R|]. rewrite Lt by auto. lia.
      + eapply class_tied; [exact T|apply (bare_length nm w (items +++ l) e Hnm Hw Hi He (OneNumber d) plain_os Hd); discriminate|exact Lb].
      + eapply class_tied; [exact T|apply (bare_length nm w (items +++ l) e Hnm Hw Hi He (OneNumber d) text_os Hd); discriminate|exact Lb].
      + eapply class_tied; [exact T|apply (bare_length nm w (items +++ l) e Hnm Hw Hi He (OneNumber d) datetime_os Hd); discriminate|exact Lb].
  Qed.
End Turned.

Lemma pairs_length {A B} (R : A -> B -> Prop) l l' : Forall2 R l l' -> List.length l = List.length l'.
Proof. induction 1; cbn [List.length]; congruence. Qed.
(** What is read: the definition and a column for each pair of words. *)
Definition long_read (x : wdef) (c : nat) (P : list def -> Prop) : Prop :=
  def_ok x /\ forall e, ending_ok e -> exists qs, List.length qs = c /\ P qs
    /\ forall n ms, kids (c + n) definition_classes (rdef_text x ++ ending_raw e) ms = kids n definition_classes (ending_left e) (ms +++ qs).
Theorem trailed_read p l s : trailed p l s ->
  long_read (s, fun _ => True) (S (List.length l)) (fun qs => exists d ds, qs = d :: ds /\ meant_by p d /\ Forall2 odd_column l ds).
Proof.
  assert (G : forall s0 x l', part_written p s0 -> stray_ok x -> Forall stray_ok l' -> Forall no_attribute l' ->
    (forall e, ending_ok e -> exists d a z, trail (x :: l') ++ ending_raw e = String a z /\ best_child definition_classes (s0 ++ " " ++ String a z) None = Ok (Some (d, String a z)) /\ meant_by p d) ->
    long_read (s0 ++ " " ++ trail (x :: l'), fun _ => True) (S (List.length (x :: l'))) (fun qs => exists d ds, qs = d :: ds /\ meant_by p d /\ Forall2 odd_column (x :: l') ds)).
  { intros s0 x l' W X F Fr H. pose proof (part_ok p s0 W) as [Dt _]. cbn [fst] in Dt. split; [apply trailed_def; [exact Dt|discriminate|constructor; assumption]|].
    intros e He. destruct (H e He) as (d & a & z & E & B & M). destruct (trail_read x l' e X F Fr He) as (qs & Q & K). exists (d :: qs).
    split; [cbn [List.length]; f_equal; symmetry; apply (pairs_length _ _ _ Q)|]. split; [exists d, qs; auto|].
    intros n ms. cbn [rdef_text fst]. rewrite !sapp_assoc, E. change (S (List.length (x :: l')) + n) with (S (List.length (x :: l') + n)). cbn [kids].
    replace (is_empty (s0 ++ " " ++ String a z)) with false by (pose proof (dt_some _ Dt) as Ns; destruct s0; [contradiction|reflexivity]).
    rewrite B. cbn [bind]. rewrite <- E, K, <- app_assoc. reflexivity. }
  intros [s0 x l' W F Fr|k s0 u v l' -> W U V F Fr|m tick w f lu k s0 u v l' -> Es W Hsz Hn Hw Hf Hu Hk U V F Fr].
  - inversion F as [|? ? X Fl]; subst. inversion Fr as [|? ? Fx Ffl]; subst. apply G; auto. intros e He.
    destruct (trail_ending x l' e X Fl Fx He) as (a & z & E & Ez & Ec). destruct (proj2 (part_ok p s0 W) (EWords a z) Ez Ec) as (d & B & M). exists d, a, z. auto.
  - pose proof (on_delete_ok u v U V) as X. apply G; auto; [constructor; apply updated_written, W|]. intros e He.
    destruct (trail_trim (mkStray u v None [] :: l') (ending_raw e) ltac:(discriminate) (Forall_cons _ X F) (raw_neat _ He)) as [T N].
    destruct (trail_words (mkStray u v None []) l' (ending_raw e)) as [y E]. cbn [s_word] in E.
    assert (M : forall K, diverge K "ON" = true -> match_lit K (trail (mkStray u v None [] :: l') ++ ending_raw e) = None) by (intros K D; rewrite E; apply (spelled_none K "ON"); assumption).
    assert (Mu : match_lit "ON UPDATE " (trail (mkStray u v None [] :: l') ++ ending_raw e) = None).
    { assert (Ev : exists y', trail (mkStray u v None [] :: l') ++ ending_raw e = (u ++ " " ++ v) ++ y').
      { destruct l' as [|x' l'']; [rewrite trail_one|rewrite trail_cons]; unfold stray_text; cbn [s_word s_next s_arg s_null arg_text items_text]; eexists; repeat (cbn [String.append]; rewrite ?sapp_assoc); reflexivity. }
      destruct Ev as [y' ->]. apply (spelled_none "ON UPDATE " "ON DELETE"); [|reflexivity]. clear -U V. unfold spelled in *.
      assert (G : forall a b, lower (a ++ b) = lower a ++ lower b) by (unfold lower; induction a as [|d a IH]; intros b; [reflexivity|]; cbn [String.append smap]; rewrite IH; reflexivity).
      rewrite !G, U, V. reflexivity. }
    destruct (trail (mkStray u v None [] :: l') ++ ending_raw e) as [|a z]; [contradiction|].
    assert (Ez : ending_ok (EWords a z)).
    { split; [exact T|]. intros K I. cbn in I. repeat (destruct I as [<-|I]; [apply M; reflexivity|]). contradiction. }
    destruct (updated_read k s0 (EWords a z) W Ez Mu) as (d & B & Md). exists d, a, z. auto.
  - pose proof (not_null_ok u v U V) as X. apply G; auto. intros e He.
    destruct (trail_after u v l' e F Fr He) as (e' & He' & E). rewrite E.
    assert (Q : spelled "NOT NULL" (u ++ " " ++ v)).
    { clear -U V. unfold spelled in *.
      assert (G : forall a b, lower (a ++ b) = lower a ++ lower b) by (unfold lower; induction a as [|d a IH]; intros b; [reflexivity|]; cbn [String.append smap]; rewrite IH; reflexivity).
      rewrite !G, U, V. reflexivity. }
    assert (Ex : ending_ok (EWords "x" "") /\ forall K, In K ["ON DELETE "; "ON UPDATE "] -> match_lit K (ending_text (EWords "x" "")) = None).
    { split; [split; [reflexivity|]|]; intros K I; cbn in I; repeat (destruct I as [<-|I]; [reflexivity|]); contradiction. }
    destruct (proj2 (part_ok _ s0 W) (EWords "x" "") (proj1 Ex) (proj2 Ex)) as (d & B & M). cbn [fst snd rdef_text] in B.
    assert (Ar : exists c, forall l e, l = [] \/ (exists q, l = [INotNull q] /\ spelled "NOT NULL" q) -> ending_ok e -> (l = [] -> forall z, e <> EComma z) ->
      best_child definition_classes (column_definition tick (m_name m) w f ((lu +++ [IAuto k]) +++ l) ++ ending_raw e) None = Ok (Some (DefCol c, left_of e l))).
    { destruct Hsz as [-> | (dg & -> & Dg)]; eexists; [apply auto_reads|apply sized_reads]; assumption. }
    destruct Ar as [cl Ar].
    pose proof (Ar [] (EWords "x" "") (or_introl eq_refl) (proj1 Ex) ltac:(discriminate)) as B0.
    rewrite app_nil_r, <- Es in B0. rewrite B0 in B. injection B as B.
    pose proof (Ar [INotNull (u ++ " " ++ v)] e' (or_intror (ex_intro _ _ (conj eq_refl Q))) He' ltac:(discriminate)) as B1.
    cbn [left_of stream item_text] in B1. unfold more in B1. cbn [spaced] in B1.
    assert (Et : column_definition tick (m_name m) w f ((lu +++ [IAuto k]) +++ [INotNull (u ++ " " ++ v)]) ++ ending_raw e' = s0 ++ " " ++ (u ++ " " ++ v) ++ ending_raw e').
    { assert (Ia : forall l1 l2, items_text (l1 +++ l2) = items_text l1 ++ items_text l2).
      { clear. induction l1 as [|i l1 IH]; intros l2; [reflexivity|]. cbn [List.app items_text]. rewrite IH. repeat (cbn [String.append]; rewrite ?sapp_assoc). reflexivity. }
      rewrite Es. unfold column_definition. rewrite (Ia (lu +++ [IAuto k])). cbn [items_text item_text]. rewrite sapp_nil_r. repeat (cbn [String.append]; rewrite ?sapp_assoc). reflexivity. }
    rewrite Et in B1. destruct ((u ++ " " ++ v) ++ ending_raw e') as [|a z] eqn:Ea.
    { apply sapp_eq_nil in Ea as [Ea _]. apply sapp_eq_nil in Ea as [_ Ea]. discriminate. }
    exists d, a, z. split; [reflexivity|]. split; [rewrite <- B; exact B1|exact M].
Qed.

(** Among other definitions. *)
Lemma kids_long ds x c P ds' gap r n : Forall rdef_ok ds -> long_read x c P -> Forall rdef_ok ds' -> neat r = true -> List.length ds + c + List.length ds' < n -> 0 < c ->
  exists ps qs ps', kids n definition_classes (body (ds +++ x :: ds') ++ closing gap r) [] = Ok (Some (ps +++ qs +++ ps', ")" ++ r))
    /\ Forall2 same_def ds ps /\ P qs /\ Forall2 same_def ds' ps'.
Proof.
  intros F [Dx Hx] F' R L Lc. rewrite body_leading. set (r0 := body (x :: ds') ++ closing gap r).
  assert (T0 : trim r0 = true /\ r0 <> "") by (apply body_trim; [discriminate|constructor; [exact Dx|apply rdef_shapes, F']|exact R]).
  destruct T0 as [T0 N0].
  set (m := n - List.length ds - c). 
  destruct (kids_before ds r0 F T0 N0 (c + m) []) as (ps & K & Ps).
  replace (List.length ds + (c + m)) with n in K by (unfold m; lia). rewrite K. clear K. cbn [List.app].
  assert (L' : List.length ds' < m) by (unfold m; lia). clearbody m.
  assert (E : exists e, ending_ok e /\ r0 = rdef_text x ++ ending_raw e /\ ending_left e = (if list_is_nil ds' then ")" ++ r else body ds' ++ closing gap r)).
  { destruct ds' as [|d' ds''].
    - exists (EClose gap r). split; [exact R|]. split; reflexivity.
    - exists (EComma (body (d' :: ds'') ++ closing gap r)). split; [apply body_trim; [discriminate|apply rdef_shapes, F'|exact R]|]. split; [|reflexivity].
      unfold r0. cbn [ending_raw ending_text]. unfold body at 1. cbn [map]. rewrite join_cons by discriminate. rewrite !sapp_assoc. reflexivity. }
  destruct E as (e & He & E0 & El). destruct (Hx e He) as (qs & Lq & Pq & Kq).
  assert (Nq : qs <> []) by (intros ->; cbn in Lq; lia).
  rewrite E0, Kq, El. destruct ds' as [|d' ds''].
  - exists ps, qs, []. split; [|repeat split; auto]. cbn [list_is_nil]. destruct m as [|m]; [lia|]. cbn [kids]. rewrite no_more_defs by exact R. cbn [bind is_empty String.append].
    rewrite app_nil_r. destruct ps; [destruct qs; [contradiction|reflexivity]|reflexivity].
  - cbn [list_is_nil]. destruct (kids_defs (d' :: ds'') gap r ltac:(discriminate) F' R (S (m - S (List.length (d' :: ds'')))) (ps +++ qs)) as (ps' & K & P').
    exists ps, qs, ps'. split; [|repeat split; auto]. replace (List.length (d' :: ds'') + S (m - S (List.length (d' :: ds'')))) with m in K by lia. rewrite K. cbn [kids].
    rewrite no_more_defs by exact R. cbn [bind is_empty String.append]. rewrite <- app_assoc. destruct ps; [destruct qs; [contradiction|reflexivity]|reflexivity].
Qed.
