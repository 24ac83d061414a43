(** Reading a rendered column. *)
From Verif Require Export RoundItems RenderFacts.

(** ** Choosing among the classes *)

Definition tied {C} (n : nat) (s : string) (c : pclass C) : Prop :=
  exists m r, c s = Ok (m, r) /\ (m = None \/ n <= String.length r).
Definition beaten {C} (n : nat) (s : string) (c : pclass C) : Prop := tied (S n) s c.
Lemma beaten_tied {C} n s (c : pclass C) : beaten n s c -> tied n s c.
Proof. intros (m & r & E & H). exists m, r. split; [exact E|]. destruct H; [auto|right; lia]. Qed.

Lemma best_keep {C} (post : list (pclass C)) s d r : Forall (tied (String.length r) s) post ->
  best_child post s (Some (d, r)) = Ok (Some (d, r)).
Proof.
  induction 1 as [|c post (m & r' & E & H) _ IH]; [reflexivity|]. cbn [best_child]. rewrite E. cbn [bind].
  destruct m as [m|]; [|exact IH]. destruct H as [H|H]; [discriminate|].
  replace (Nat.ltb (String.length r') (String.length r)) with false; [exact IH|]. symmetry. apply Nat.ltb_ge. exact H.
Qed.
Lemma best_pick {C} pre (w : pclass C) post s d r : Forall (beaten (String.length r) s) pre -> w s = Ok (Some d, r) ->
  Forall (tied (String.length r) s) post -> best_child (pre +++ w :: post) s None = Ok (Some (d, r)).
Proof.
  intros Hp Hw Hq.
  assert (G : forall b, (forall m r', b = Some (m, r') -> String.length r < String.length r') -> best_child (pre +++ w :: post) s b = Ok (Some (d, r))).
  { induction Hp as [|c pre (m & r' & E & H) _ IH]; intros b B.
    - cbn [List.app best_child]. rewrite Hw. cbn [bind]. destruct b as [[m r']|]; [|apply best_keep, Hq].
      specialize (B m r' eq_refl). apply Nat.ltb_lt in B. rewrite B. apply best_keep, Hq.
    - cbn [List.app best_child]. rewrite E. cbn [bind]. destruct m as [m|]; [|apply IH, B]. apply IH.
      destruct H as [H|H]; [discriminate|]. intros m0 r0 E0. destruct b as [[mb rb]|]; [|injection E0 as <- <-; lia].
      destruct (Nat.ltb (String.length r') (String.length rb)); injection E0 as <- <-; [lia|]. apply (B mb rb eq_refl). }
  apply G. discriminate.
Qed.

Lemma child_trim {A} rules (process : pvals leaf -> A) wrap s : trim s = true ->
  child_of rules process wrap s
  = let* r := run_rules rules s [] in
    match r with (None, rest) => Ok (None, rest) | (Some v, rest) => Ok (Some (wrap (process v)), rest) end.
Proof. intros T. unfold child_of, parse_with. rewrite (trim_normalize _ T). reflexivity. Qed.

(** ** Names *)

Lemma name_ok_plain c : name_ok_char c = true -> plain_char c = true.
Proof. unfold name_ok_char. rewrite andb_true_iff. tauto. Qed.
Lemma name_ok_name c : name_ok_char c = true -> name_char c = true.
Proof. intros H. apply name_ok_plain, plain_arg in H. unfold arg_char in H. apply andb_true_iff in H. tauto. Qed.
Lemma name_ok_bquote s : sforall name_ok_char s = true -> has_char bquote s = false.
Proof.
  intros H. apply has_char_forall. apply (sforall_imp name_ok_char); [|exact H]. intros c. unfold name_ok_char.
  rewrite andb_true_iff, !negb_true_iff, Ascii.eqb_sym. tauto.
Qed.
Lemma strip_wrap q s : has_char q s = false -> strip_char q (String q (s ++ String q "")) = s.
Proof.
  intros H. unfold strip_char, strip_by. destruct s as [|c s].
  - cbn [String.append rstrip_by lstrip_by]. rewrite Ascii.eqb_refl. reflexivity.
  - assert (R : rstrip_by (Ascii.eqb q) (String q (String c s ++ String q "")) = String q (String c s)).
    { change (String q (String c s ++ String q "")) with (String q "" ++ (String c s ++ String q "")).
      assert (Z : rstrip_by (Ascii.eqb q) (String c s ++ String q "") = String c s).
      { clear - H. revert H. generalize (String c s) as x. induction x as [|d x IH]; intros H.
        - cbn [String.append rstrip_by]. rewrite Ascii.eqb_refl. reflexivity.
        - unfold has_char in H. cbn [sexists] in H. apply orb_false_iff in H as [H1 H2]. cbn [String.append rstrip_by].
          rewrite (IH H2). destruct x; [|reflexivity]. cbn [is_empty]. rewrite H1. reflexivity. }
      rewrite rstrip_app; rewrite Z; [reflexivity|discriminate]. }
    rewrite R. cbn [lstrip_by]. rewrite Ascii.eqb_refl. unfold has_char in H. cbn [sexists] in H. apply orb_false_iff in H as [H1 _].
    rewrite H1. reflexivity.
Qed.
Lemma ticked_name s : sforall name_ok_char s = true -> sforall name_char (ticked s) = true.
Proof. intros H. unfold ticked. cbn [sforall]. rewrite sforall_app, (sforall_imp _ _ _ name_ok_name H). reflexivity. Qed.
Lemma strip_ticked s : sforall name_ok_char s = true -> strip_char bquote (ticked s) = s.
Proof. intros H. apply strip_wrap, name_ok_bquote, H. Qed.
Lemma name_not_space c : name_char c = true -> not_space c = true.
Proof. unfold name_char, not_space. rewrite !negb_true_iff, !orb_false_iff. tauto. Qed.
Lemma word_not_space c : is_word c = true -> not_space c = true.
Proof. destruct c as [[|] [|] [|] [|] [|] [|] [|] [|]]; vm_compute; congruence. Qed.

(** ** The text of a column *)

Section Column.
  Variable nm ty : string.
  Variable f : length_form.
  Variable items : list item.
  Variable e : ending.
  Hypothesis Hname : nm <> "" /\ sforall name_char nm = true.
  Hypothesis Hty : ty <> "" /\ sforall is_word ty = true.
  Hypothesis Hf : length_ok f.
  Hypothesis Hitems : items_ok items.
  Hypothesis He : ending_ok e.
  Notation E := (ending_text e).

  Definition col_text : string := nm ++ String " " (ty ++ length_text f ++ more items e).
  Notation v0 := [("name", VText nm); ("type", VText ty)].


  Lemma digits_not_space n : digits n -> sforall not_space n = true /\ n <> "".
  Proof. intros [N D]. split; [|exact N]. apply (sforall_imp _ _ _ plain_not_space), (sforall_imp _ _ _ digit_plain), D. Qed.
  Lemma length_not_space : sforall not_space (length_text f) = true.
  Proof.
    destruct f as [|n|n m]; cbn [length_text length_ok] in *; [reflexivity| |].
    - cbn [String.append sforall]. rewrite sforall_app. destruct (digits_not_space n Hf) as [-> _]. reflexivity.
    - destruct Hf as [A B]. cbn [String.append sforall]. rewrite !sforall_app. cbn [sforall String.append]. rewrite !sforall_app.
      destruct (digits_not_space n A) as [-> _], (digits_not_space m B) as [-> _]. reflexivity.
  Qed.
  Lemma rest_neat : neat (length_text f ++ more items e) = true.
  Proof. apply neat_app'; [apply length_not_space|]. apply more_neat; [exact Hitems|exact He]. Qed.
  Lemma body_trim : trim (ty ++ length_text f ++ more items e) = true.
  Proof.
    destruct Hty as [N W]. apply trim_app; [|exact N|apply rest_neat]. apply (sforall_imp _ _ _ word_not_space), W.
  Qed.
  Lemma col_trim : trim col_text = true.
  Proof.
    unfold col_text. apply trim_app; [|apply Hname|].
    - apply (sforall_imp _ _ _ name_not_space), Hname.
    - apply neat_space; [apply body_trim|]. destruct Hty as [N _]. destruct ty; [contradiction|discriminate].
  Qed.

  (** What the classes see after the type. *)
  Definition after_type : string :=
    match f with NoLength => stream items e | _ => length_text f ++ more items e end.
  Lemma strip_rest : strip (length_text f ++ more items e) = after_type.
  Proof.
    pose proof rest_neat as R. unfold after_type. destruct f as [|n|n m]; cbn [length_text] in *.
    - apply strip_more; [exact Hitems|exact He].
    - apply trim_strip. unfold trim. rewrite R. reflexivity.
    - apply trim_strip. unfold trim. rewrite R. reflexivity.
  Qed.
  Lemma after_type_some : after_type <> "".
  Proof.
    unfold after_type. destruct f; try discriminate. apply stream_trim; [exact Hitems|exact He].
  Qed.

  Lemma head rs : run_rules (rname :: rtype :: rs) col_text [] = run_rules rs after_type (v0 : pvals leaf).
  Proof.
    unfold rname, rtype, col_text. destruct Hty as [N W].
    rewrite (step_re "name" _ false _ _ (VText nm) (String " " (ty ++ length_text f ++ more items e))).
    - rewrite strip_space by apply body_trim.
      rewrite (step_re "type" _ false _ _ (VText ty) (length_text f ++ more items e)).
      + rewrite strip_rest. reflexivity.
      + apply plus_word; [exact W|exact N|]. destruct f; try reflexivity. cbn [length_text String.append].
        apply more_starts; reflexivity.
      + rewrite strip_rest. apply after_type_some.
    - apply plus_word; [apply Hname|apply Hname|reflexivity].
    - rewrite strip_space by apply body_trim. destruct ty; [contradiction|discriminate].
  Qed.

  (** The comma at the end. *)
  Definition comma_vals (l : list item) (v : pvals leaf) : pvals leaf :=
    match l, e with [], EComma _ => dset "ending_comma" (VText ",") v | _, _ => v end.
  Definition left_of (l : list item) : string := match l with [] => ending_left e | _ => stream l e end.
  Lemma finish l v : items_ok l -> run_rules [rcomma] (stream l e) v = Ok (Some (comma_vals l v), left_of l).
  Proof.
    intros L. unfold rcomma. destruct l as [|i l].
    - cbn [stream comma_vals left_of]. destruct e as [n|g r|a z]; cbn [ending_text ending_left ending_ok] in *.
      + destruct He as [T N]. rewrite (step_lit "ending_comma" "," true [] (", " ++ n) (String " " n)); [|reflexivity|].
        * rewrite strip_space by exact T. reflexivity.
        * rewrite strip_space by exact T. exact N.
      + rewrite skip_lit by reflexivity. reflexivity.
      + rewrite skip_lit by (apply He; clear; cbn; tauto). reflexivity.
    - rewrite skip_lit; [reflexivity|]. cbn [stream]. apply diverge_none, item_diverge; [apply (Forall_inv L)|destruct i; reflexivity].
  Qed.
  Lemma left_tied l : items_ok l -> String.length (ending_left e) <= String.length (left_of l).
  Proof.
    intros L. destruct l as [|i l]; [cbn; lia|]. cbn [left_of]. pose proof (stream_length (i :: l) e L ltac:(discriminate)).
    pose proof (ending_left_length e). lia.
  Qed.
  Lemma left_beaten l : items_ok l -> l <> [] -> String.length (ending_left e) < String.length (left_of l).
  Proof.
    intros L N. destruct l as [|i l]; [contradiction|]. cbn [left_of]. pose proof (stream_length (i :: l) e L ltac:(discriminate)).
    pose proof (ending_left_length e). lia.
  Qed.
  Lemma sim_ok {C} os : forall l (v : pvals C), items_ok l -> items_ok (snd (sim os l v)).
  Proof.
    induction os as [|o os IH]; intros l v L; [exact L|]. cbn [sim]. destruct l as [|i l]; [constructor|].
    pose proof (proj1 (Forall_cons_iff _ _ _) L) as [I L']. destruct (hit o i); [apply IH, L'|apply IH, L].
  Qed.
  Lemma run_items os (v : pvals leaf) :
    run_rules (map orule os +++ [rcomma]) (stream items e) v
    = Ok (Some (comma_vals (snd (sim os items v)) (fst (sim os items v))), left_of (snd (sim os items v))).
  Proof.
    rewrite (run_sim e He os [rcomma] items v Hitems). apply finish. apply sim_ok, Hitems.
  Qed.

  Lemma run_open os r (v : pvals leaf) : run_rules (map orule os +++ [rcomma]) (String "(" r) v = Ok (Some v, String "(" r).
  Proof. induction os as [|o os IH]; [reflexivity|]. rewrite <- IH. destruct o; reflexivity. Qed.
End Column.

Section Lengths.
  Local Notation run_rules := (@run_rules leaf).
  Variable nm ty : string.
  Variable items : list item.
  Variable e : ending.
  Hypothesis Hname : nm <> "" /\ sforall name_char nm = true.
  Hypothesis Hty : ty <> "" /\ sforall is_word ty = true.
  Hypothesis Hitems : items_ok items.
  Hypothesis He : ending_ok e.
  Notation E := (ending_text e).
  Notation text f := (col_text nm ty f items e).
  Notation v0 := [("name", VText nm); ("type", VText ty)].
  Notation result s := (Ok (Some (comma_vals e (snd s) (fst s)), left_of e (snd s))).

  (** Classes without a length. *)
  Lemma bare_none os : run_rules (rname :: rtype :: map orule os +++ [rcomma]) (text NoLength) [] = result (sim os items (v0 : pvals leaf)).
  Proof.
    rewrite (head nm ty NoLength items e Hname Hty I Hitems He). unfold after_type. apply run_items; assumption.
  Qed.
  Lemma bare_length f os : length_ok f -> f <> NoLength ->
    run_rules (rname :: rtype :: map orule os +++ [rcomma]) (text f) [] = Ok (Some (v0 : pvals leaf), length_text f ++ more items e).
  Proof.
    intros F N. rewrite (head nm ty f items e Hname Hty F Hitems He). unfold after_type. destruct f as [|n|n m]; [contradiction| |].
    - apply (run_open os (n ++ ")" ++ more items e) v0) || (cbn [length_text String.append]; rewrite run_open; reflexivity).
    - cbn [length_text String.append]. rewrite run_open. reflexivity.
  Qed.

  (** Classes with a length. *)
  Lemma paren_none rs : run_rules (rname :: rtype :: lit "(" :: rs) (text NoLength) [] = Ok (None, stream items e).
  Proof.
    rewrite (head nm ty NoLength items e Hname Hty I Hitems He). unfold after_type, lit. apply fail_lit.
    destruct items as [|i l]; [destruct e; [reflexivity|reflexivity|apply He; clear; cbn; tauto]|]. cbn [stream]. apply diverge_none, item_diverge; [apply (Forall_inv Hitems)|destruct i; reflexivity].
  Qed.
  Lemma word_more p l : p " "%char = false -> p ","%char = false -> p ")"%char = false -> starts (fun c => negb (p c)) (more l e) = true.
  Proof.
    intros A B C. apply more_starts; rewrite ?A, ?B, ?C; reflexivity.
  Qed.

  Lemma open_number rs n c r : digits n -> is_digit c = false -> trim (n ++ String c r) = true -> trim (String c r) = true ->
    run_rules (lit "(" :: rlength :: rs) ("(" ++ n ++ String c r) (v0 : pvals leaf)
    = run_rules rs (String c r) (v0 +++ [("(", VText "("); ("length", VText n)]).
  Proof.
    intros [N D] C T T'. unfold lit, rlength.
    rewrite (step_lit "(" "(" false _ ("(" ++ n ++ String c r) (n ++ String c r)); [|reflexivity|rewrite trim_strip by exact T; destruct n; [contradiction|discriminate]].
    rewrite trim_strip by exact T.
    rewrite (step_re "length" _ false _ _ (VText n) (String c r)); [rewrite trim_strip by exact T'; reflexivity| |rewrite trim_strip by exact T'; discriminate].
    apply plus_word; [exact D|exact N|]. cbn [starts]. rewrite C. reflexivity.
  Qed.
  Lemma close_trim : trim (String ")" (more items e)) = true.
  Proof.
    apply (trim_app ")"); [reflexivity|discriminate|]. apply more_neat; [exact Hitems|exact He].
  Qed.
  Lemma close_items os (v : pvals leaf) :
    run_rules (lit ")" :: map orule os +++ [rcomma]) (String ")" (more items e)) v
    = result (sim os items (dset ")" (VText ")") v)).
  Proof.
    unfold lit. rewrite (step_lit ")" ")" false _ _ (more items e)); [|reflexivity|].
    - rewrite strip_more by assumption. apply run_items; assumption.
    - rewrite strip_more by assumption.
      apply stream_trim; [exact Hitems|exact He].
  Qed.

  Definition one_vals n : pvals leaf := v0 +++ [("(", VText "("); ("length", VText n); (")", VText ")")].
  Lemma number_trim n r : digits n -> trim r = true -> trim (n ++ r) = true.
  Proof.
    intros H T. destruct (digits_not_space n H) as [A B]. apply trim_app; [exact A|exact B|]. apply trim_neat, T.
  Qed.
  Lemma one_one n os : digits n ->
    run_rules (rname :: rtype :: lit "(" :: rlength :: lit ")" :: map orule os +++ [rcomma]) (text (OneNumber n)) []
    = result (sim os items (one_vals n)).
  Proof.
    intros D. rewrite (head nm ty (OneNumber n) items e Hname Hty D Hitems He). unfold after_type. cbn [length_text].
    rewrite !sapp_assoc. rewrite (open_number _ n ")" (more items e)); [|exact D|reflexivity| |apply close_trim].
    - apply close_items.
    - apply number_trim; [exact D|apply close_trim].
  Qed.
  Lemma comma_trim m : digits m -> trim (String "," (m ++ String ")" (more items e))) = true.
  Proof.
    intros D. apply (trim_app ","); [reflexivity|discriminate|]. apply trim_neat, number_trim; [exact D|apply close_trim].
  Qed.
  Lemma one_two n m rs : digits n -> digits m -> exists r,
    run_rules (rname :: rtype :: lit "(" :: rlength :: lit ")" :: rs) (text (TwoNumbers n m)) [] = Ok (None, r).
  Proof.
    intros D M. rewrite (head nm ty (TwoNumbers n m) items e Hname Hty (conj D M) Hitems He). unfold after_type. cbn [length_text].
    rewrite !sapp_assoc.
    change ("(" ++ n ++ "," ++ m ++ ")" ++ more items e) with ("(" ++ n ++ String "," (m ++ ")" ++ more items e)).
    rewrite (open_number _ n "," (m ++ ")" ++ more items e)); [|exact D|reflexivity| |apply comma_trim, M].
    - eexists. reflexivity.
    - apply number_trim; [exact D|apply comma_trim, M].
  Qed.

  Definition two_vals n m : pvals leaf :=
    v0 +++ [("(", VText "("); ("length", VText n); ("separating_comma", VText ","); ("decimals", VText m); (")", VText ")")].
  Lemma dec_one n rs : digits n -> exists r,
    run_rules (rname :: rtype :: lit "(" :: rlength :: RLit "separating_comma" "," false :: rs) (text (OneNumber n)) [] = Ok (None, r).
  Proof.
    intros D. rewrite (head nm ty (OneNumber n) items e Hname Hty D Hitems He). unfold after_type. cbn [length_text].
    rewrite !sapp_assoc. rewrite (open_number _ n ")" (more items e)); [|exact D|reflexivity| |apply close_trim].
    - eexists. reflexivity.
    - apply number_trim; [exact D|apply close_trim].
  Qed.
  Lemma dec_two n m os : digits n -> digits m ->
    run_rules (rname :: rtype :: lit "(" :: rlength :: RLit "separating_comma" "," false :: RRe "decimals" (plus is_digit) false :: lit ")"
                 :: map orule os +++ [rcomma]) (text (TwoNumbers n m)) []
    = result (sim os items (two_vals n m)).
  Proof.
    intros D M. rewrite (head nm ty (TwoNumbers n m) items e Hname Hty (conj D M) Hitems He). unfold after_type. cbn [length_text].
    rewrite !sapp_assoc.
    change ("(" ++ n ++ "," ++ m ++ ")" ++ more items e) with ("(" ++ n ++ String "," (m ++ ")" ++ more items e)).
    rewrite (open_number _ n "," (m ++ ")" ++ more items e)); [|exact D|reflexivity| |apply comma_trim, M].
    2:{ apply number_trim; [exact D|apply comma_trim, M]. }
    pose proof (number_trim m _ M close_trim) as T.
    rewrite (step_lit "separating_comma" "," false _ _ (m ++ ")" ++ more items e)); [|reflexivity|].
    2:{ change (")" ++ more items e) with (String ")" (more items e)). rewrite trim_strip by exact T. destruct M as [M _], m; [contradiction|discriminate]. }
    change (")" ++ more items e) with (String ")" (more items e)). rewrite trim_strip by exact T.
    rewrite (step_re "decimals" _ false _ _ (VText m) (String ")" (more items e))).
    - rewrite trim_strip by apply close_trim. rewrite close_items. reflexivity.
    - destruct M as [M1 M2]. apply plus_word; [exact M2|exact M1|reflexivity].
    - rewrite trim_strip by apply close_trim. discriminate.
  Qed.

  (** The class for ENUM and SET reads the numbers as values. *)
  Lemma scan_number n : sforall is_digit n = true -> forall has cur vals l s, exists l',
    delim squote "," ")" has false cur vals l (n ++ s) = delim squote "," ")" (has || truthy n) false (cur ++ n) vals l' s.
  Proof.
    induction n as [|c n IH]; intros D has cur vals l s.
    - exists l. rewrite sapp_nil_r, orb_false_r. reflexivity.
    - cbn [sforall] in D. apply andb_true_iff in D as [C D]. cbn [String.append delim].
      assert (Z : Ascii.eqb c squote = false /\ match_lit ")" (String c (n ++ s)) = None /\ Ascii.eqb c "," = false /\ Ascii.eqb c " " = false).
      { cbn [match_lit]. clear - C. destruct c as [[|] [|] [|] [|] [|] [|] [|] [|]]; try discriminate C; repeat split. }
      destruct Z as (-> & -> & -> & ->). cbn [orb]. destruct (IH D true (cur ++ String c "") vals (String c (n ++ s)) s) as [l' E].
      exists l'. rewrite E, sapp_assoc. cbn [String.append orb]. rewrite orb_true_r. reflexivity.
  Qed.
  Lemma delimited_one n r : digits n -> delimited squote "," ")" (n ++ String ")" r) = Ok (Some ([n], String ")" r)).
  Proof.
    intros [N D]. unfold delimited. destruct (scan_number n D false "" [] "" (String ")" r)) as [l E]. rewrite E.
    rewrite (proj2 (truthy_iff n) N). reflexivity.
  Qed.
  Lemma delimited_two n m r : digits n -> digits m -> delimited squote "," ")" (n ++ "," ++ m ++ String ")" r) = Ok (Some ([n; m], String ")" r)).
  Proof.
    intros [N D] [M D']. unfold delimited. destruct (scan_number n D false "" [] "" ("," ++ m ++ String ")" r)) as [l E]. rewrite E.
    rewrite (proj2 (truthy_iff n) N). cbn [orb String.append delim].
    change (match_lit ")" (String "," (m ++ String ")" r))) with (@None string). cbn [Ascii.eqb].
    change (Ascii.eqb "," squote) with false. change (Ascii.eqb "," "," || Ascii.eqb "," " ") with true. cbn iota.
    destruct (scan_number m D' false "" ([] +++ [n]) (String "," (m ++ String ")" r)) (String ")" r)) as [l' E']. rewrite E'.
    rewrite (proj2 (truthy_iff m) M). reflexivity.
  Qed.
  Lemma enum_run rs os f : length_ok f -> f <> NoLength ->
    rs = rname :: rtype :: lit "(" :: RDel "enum_values" "," squote false :: lit ")" :: map orule os +++ [rcomma] ->
    exists v, vtext "name" v = nm /\ run_rules rs (text f) [] = result (sim os items v).
  Proof.
    intros F N ->. rewrite (head nm ty f items e Hname Hty F Hitems He). unfold after_type.
    assert (G : forall x vs, x <> "" -> trim (x ++ String ")" (more items e)) = true ->
      delimited squote "," ")" (x ++ String ")" (more items e)) = Ok (Some (vs, String ")" (more items e))) ->
      exists v, vtext "name" v = nm /\ run_rules (lit "(" :: RDel "enum_values" "," squote false :: lit ")" :: map orule os +++ [rcomma])
        ("(" ++ x ++ String ")" (more items e)) (v0 : pvals leaf) = result (sim os items v)).
    { intros x vs X T D. unfold lit.
      rewrite (step_lit "(" "(" false _ _ (x ++ String ")" (more items e))); [|reflexivity|rewrite trim_strip by exact T; destruct x; [contradiction|discriminate]].
      rewrite trim_strip by exact T. rewrite (step_del "enum_values" "," squote false ")" ")" false _ _ vs (String ")" (more items e))); [|exact D|discriminate].
      pose proof (close_items os (dset "enum_values" (VList vs) (dset "(" (VText "(") v0))) as Q. unfold lit in Q. rewrite Q. eexists. split; [|reflexivity]. reflexivity. }
    destruct f as [|n|n m]; [contradiction| |]; cbn [length_text length_ok] in *; rewrite !sapp_assoc.
    - apply (G n [n]); [apply F|apply number_trim; [exact F|apply close_trim]|apply delimited_one, F].
    - destruct F as [A B]. specialize (G (n ++ "," ++ m) [n; m]). rewrite !sapp_assoc in G. apply G.
      + destruct A as [A _], n; [contradiction|discriminate].
      + apply number_trim; [exact A|]. apply comma_trim, B.
      + apply delimited_two; assumption.
  Qed.
  Lemma enum_tied rs os f : length_ok f -> f <> NoLength ->
    rs = rname :: rtype :: lit "(" :: RDel "enum_values" "," squote false :: lit ")" :: map orule os +++ [rcomma] ->
    exists v l, run_rules rs (text f) [] = Ok (Some v, left_of e l) /\ items_ok l.
  Proof.
    intros F N E. destruct (enum_run rs os f F N E) as (v & _ & R). eexists _, _. split; [exact R|]. apply sim_ok, Hitems.
  Qed.
End Lengths.
