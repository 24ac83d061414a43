(** Reading ENUM and SET columns. *)
From Verif Require Export SpecEnum RoundInsert RoundColumn.
From Verif Require Import SpecNote.

Local Opaque max_turns max_statements.

(** ** The list of values *)

Section Scan.
  Notation scan := (delim squote "," ")").
  Let Q1 : squote <> ","%char := ltac:(discriminate).
  Let Q2 : squote <> " "%char := ltac:(discriminate).
  Let Q3 : squote <> ")"%char := ltac:(discriminate).

  Lemma scan_value v : value_ok v -> forall vals l r, exists cur l',
    scan false false "" vals l (quote v ++ r) = scan false false cur (vals +++ [v]) l' r.
  Proof.
    intros [V _] vals l r. unfold quote. cbn [String.append]. rewrite scan_open, sapp_assoc. cbn [String.append].
    destruct (delim_inside squote "," ")" true v "" vals (String squote (v ++ String squote r)) r V) as [l' E].
    rewrite E. eexists _, l'. reflexivity.
  Qed.
  Lemma scan_values sp l : Forall value_ok l -> l <> [] -> forall vals last r,
    scan false false "" vals last (values_text sp l ++ String ")" r) = (false, vals +++ l, String ")" r).
  Proof.
    unfold values_text. induction 1 as [|v l O F IH]; intros N vals last r; [contradiction|].
    destruct l as [|y l].
    - cbn [map join]. destruct (scan_value v O vals last (String ")" r)) as (cur & l' & E). rewrite E, scan_close by assumption. reflexivity.
    - cbn [map]. rewrite join_cons by discriminate. rewrite !sapp_assoc. set (rest := join (sep_text sp) (quote y :: map quote l) ++ String ")" r).
      destruct (scan_value v O vals last (sep_text sp ++ rest)) as (cur & l' & E). rewrite E.
      assert (C : exists l2, scan false false cur (vals +++ [v]) l' (sep_text sp ++ rest) = scan false false "" (vals +++ [v]) l2 rest).
      { destruct sp; unfold sep_text; cbn [String.append].
        - rewrite scan_comma, scan_space by assumption. eexists. reflexivity.
        - rewrite scan_comma by assumption. eexists. reflexivity. }
      destruct C as [l2 ->]. unfold rest. specialize (IH ltac:(discriminate) (vals +++ [v]) l2 r). cbn [map] in IH. rewrite IH, <- app_assoc. reflexivity.
  Qed.
  Lemma delimited_values sp l r : Forall value_ok l -> l <> [] ->
    delimited squote "," ")" (values_text sp l ++ String ")" r) = Ok (Some (l, String ")" r)).
  Proof. intros F N. unfold delimited. rewrite scan_values by assumption. destruct l; [contradiction|reflexivity]. Qed.
End Scan.

Lemma values_trim sp l r : Forall value_ok l -> l <> [] -> neat r = true -> trim (values_text sp l ++ r) = true.
Proof.
  unfold values_text. intros F N R. induction F as [|v l [_ V] F IH]; [contradiction|]. destruct l as [|y l].
  - cbn [map join]. unfold quote. cbn [String.append]. rewrite sapp_assoc. apply trim_quoted; [reflexivity|exact V|exact R].
  - cbn [map]. rewrite join_cons by discriminate. rewrite !sapp_assoc. specialize (IH ltac:(discriminate)). cbn [map] in IH.
    set (rest := join (sep_text sp) (quote y :: map quote l) ++ r) in *. unfold quote at 1. cbn [String.append]. rewrite sapp_assoc.
    apply trim_quoted; [reflexivity|exact V|]. cbn [String.append]. destruct sp; cbn [sep_text String.append].
    + apply (neat_cat ","%string (String " " rest)); [reflexivity|]. apply neat_space; [exact IH|]. intros Z. rewrite Z in IH. revert Z. unfold rest. cbn [join quote]. destruct (map quote l); discriminate.
    + apply (neat_cat ","%string rest); [reflexivity|]. apply trim_neat, IH.
Qed.
Lemma values_start sp l r : l <> [] -> exists z, values_text sp l ++ r = String squote z.
Proof.
  destruct l as [|v l]; [contradiction|]. intros _. unfold values_text. cbn [map]. destruct l as [|y l]; [eexists; reflexivity|].
  cbn [map]. rewrite join_cons by discriminate. eexists. reflexivity.
Qed.

(** ** The definition *)

Section Enum.
  Local Notation run_rules := (@run_rules leaf).
  Variables (tick : bool) (name w : string) (sp : bool) (vs : list string) (items : list item) (e : ending).
  Notation nm := (name_text tick name).
  Hypothesis Hok : name_ok tick name.
  Hypothesis Hname : nm <> "" /\ sforall name_char nm = true.
  Hypothesis Hw : w <> "" /\ sforall is_word w = true.
  Hypothesis Hfk : upper w <> "FOREIGN".
  Hypothesis Hvs : Forall value_ok vs.
  Hypothesis Hsome : vs <> [].
  Hypothesis Hitems : items_ok items.
  Hypothesis He : ending_ok e.
  Notation L := (String.length (ending_left e)).
  Notation v0 := [("name", VText nm); ("type", VText w)].
  Definition enum_open : string := "(" ++ values_text sp vs ++ String ")" (more items e).
  Definition enum_text : string := nm ++ String " " (w ++ enum_open).

  Lemma inner_trim : trim (values_text sp vs ++ String ")" (more items e)) = true.
  Proof. apply values_trim; [exact Hvs|exact Hsome|]. apply trim_neat, close_trim; assumption. Qed.
  Lemma open_trim : trim enum_open = true.
  Proof. apply (trim_app "("); [reflexivity|discriminate|]. apply trim_neat, inner_trim. Qed.
  Lemma enum_body_trim : trim (w ++ enum_open) = true.
  Proof. destruct Hw as [N W]. apply trim_app; [apply (sforall_imp _ _ _ word_not_space), W|exact N|apply trim_neat, open_trim]. Qed.
  Lemma enum_text_trim : trim enum_text = true.
  Proof.
    unfold enum_text. apply trim_app; [|apply Hname|].
    - apply (sforall_imp _ _ _ name_not_space), Hname.
    - apply neat_space; [apply enum_body_trim|]. destruct Hw as [N _]. destruct w; [contradiction|discriminate].
  Qed.
  Lemma enum_head rs : run_rules (rname :: rtype :: rs) enum_text [] = run_rules rs enum_open (v0 : pvals leaf).
  Proof.
    unfold rname, rtype, enum_text. destruct Hw as [N W].
    rewrite (step_re "name" _ false _ _ (VText nm) (String " " (w ++ enum_open))).
    - rewrite strip_space by apply enum_body_trim.
      rewrite (step_re "type" _ false _ _ (VText w) enum_open).
      + rewrite (trim_strip _ open_trim). reflexivity.
      + apply plus_word; [exact W|exact N|reflexivity].
      + rewrite (trim_strip _ open_trim). discriminate.
    - apply plus_word; [apply Hname|apply Hname|reflexivity].
    - rewrite strip_space by apply enum_body_trim. destruct w; [contradiction|discriminate].
  Qed.
  Lemma enum_paren rs : run_rules (lit "(" :: rs) enum_open (v0 : pvals leaf)
    = run_rules rs (values_text sp vs ++ String ")" (more items e)) (v0 +++ [("(", VText "(")]).
  Proof.
    unfold lit, enum_open. rewrite (step_lit "(" "(" false _ _ (values_text sp vs ++ String ")" (more items e))); [|reflexivity|].
    - rewrite (trim_strip _ inner_trim). reflexivity.
    - rewrite (trim_strip _ inner_trim). destruct (values_start sp vs (String ")" (more items e)) Hsome) as [z ->]. discriminate.
  Qed.
  (** The classes with a number. *)
  Lemma number_beaten rules (process : pvals leaf -> pcol) rs k : rules = rname :: rtype :: lit "(" :: rlength :: rs ->
    beaten k enum_text (child_of rules process DefCol).
  Proof.
    intros ->. destruct (values_start sp vs (String ")" (more items e)) Hsome) as [z Ez]. eapply class_tied_none; [apply enum_text_trim|].
    rewrite enum_head, enum_paren, Ez. apply fail_re. reflexivity.
  Qed.
  (** The classes without a length. *)
  Lemma bare_enum_tied rules (process : pvals leaf -> pcol) os : rules = rname :: rtype :: map orule os +++ [rcomma] ->
    tied L enum_text (child_of rules process DefCol).
  Proof.
    intros ->. eapply class_tied; [apply enum_text_trim|rewrite enum_head; apply run_open|].
    unfold enum_open. cbn [String.append String.length]. rewrite slength_app. cbn [String.length]. pose proof (more_length items e). pose proof (ending_left_length e). lia.
  Qed.
  Definition enum_vals : pvals leaf := v0 +++ [("(", VText "("); ("enum_values", VList vs); (")", VText ")")].
  Lemma enum_run : run_rules enum_rules enum_text []
    = Ok (Some (comma_vals e (snd (sim enum_os items enum_vals)) (fst (sim enum_os items enum_vals))), left_of e (snd (sim enum_os items enum_vals))).
  Proof.
    change enum_rules with (rname :: rtype :: lit "(" :: RDel "enum_values" "," squote false :: lit ")" :: map orule enum_os +++ [@rcomma leaf]).
    rewrite enum_head, enum_paren.
    unfold lit at 1. rewrite (step_del "enum_values" "," squote false ")" ")" false _ _ vs (String ")" (more items e))); [|apply delimited_values; assumption|discriminate].
    change (RLit ")" ")" false) with (@lit leaf ")"). rewrite close_items by assumption. reflexivity.
  Qed.
  Lemma enum_others k : Forall (beaten k enum_text) [primary_class; key_class; unique_class; foreign_class; bare_class].
  Proof. unfold enum_text. apply name_other; [exact Hok|exact Hw|reflexivity|left; exact Hfk|apply trim_neat, open_trim]. Qed.
  Lemma enum_best : snd (sim enum_os items enum_vals) = [] ->
    best_child definition_classes enum_text None = Ok (Some (DefCol (enum_process (comma_vals e [] (fst (sim enum_os items enum_vals)))), ending_left e)).
  Proof.
    intros W. apply (best_pick ([primary_class; key_class; unique_class; foreign_class; bare_class] +++ [character_class; numeric_class; decimal_class]) enum_class
      [plain_class; text_class; datetime_class]).
    - apply Forall_app. split; [apply enum_others|].
      repeat (constructor; [eapply number_beaten; reflexivity|]). constructor.
    - apply class_run; [apply enum_text_trim|]. rewrite enum_run, W. reflexivity.
    - constructor; [apply (bare_enum_tied plain_rules plain_process plain_os eq_refl)|].
      constructor; [apply (bare_enum_tied text_rules text_process text_os eq_refl)|].
      constructor; [apply (bare_enum_tied datetime_rules datetime_process datetime_os eq_refl)|constructor].
  Qed.
End Enum.

Lemma unquote_argument (mk : string -> string -> item) K x l : (forall k s, raw_shown [mk k s] = Some s) -> argument mk K x l ->
  option_map upper (unquote (raw_shown l)) = if is_empty (upper x) then None else Some (upper x).
Proof.
  intros M A. pose proof (unquote_shown mk K x l M A) as E. pose proof (unquote_some mk K x l M A) as N.
  destruct A as [|k s _ (S & _)|k s _ S _]; [reflexivity| |].
  - destruct (unquote (raw_shown [mk k s])) as [y|]; cbn [or_empty] in E; [|congruence]. subst y. cbn [option_map]. destruct s; [contradiction|reflexivity].
  - destruct (unquote (raw_shown [mk k (quote s)])) as [y|]; cbn [or_empty] in E; [|congruence]. subst y. cbn [option_map]. destruct s; [contradiction|reflexivity].
Qed.

Theorem enum_remarked_read m s l e : enum_remarked m s l -> ending_ok e ->
  exists p c, best_child definition_classes (s ++ ending_raw e) None = Ok (Some (DefCol p, ending_left e))
    /\ as_definition p = Ok c /\ enum_means c m /\ c_perrors c = [] /\ c_pwarnings c = l.
Proof.
  intros [tick w sp ln ld lcs lco cs co Hn Ht Hw Hs Hv Fn D Hcs Ecs Hco Eco] He.
  destruct (name_facts tick _ (proj1 Hn)) as [Hname Hstrip].
  assert (Ww : w <> "" /\ sforall is_word w = true).
  { destruct Ht as [Et|Et]; rewrite Et in Hw; (split; [apply (lower_nonempty _ _ Hw); discriminate|]); erewrite (caseless is_word w); try exact Hw; try reflexivity; letters. }
  assert (Wf : upper w <> "FOREIGN") by (rewrite (upper_caseless _ _ Hw); destruct Ht as [Et|Et]; rewrite Et; discriminate).
  assert (Hitems : items_ok (ln +++ ld +++ lcs +++ lco)).
  { pose proof (arranged_items false false _ false _ _ _ [] _ _ [] _ _ (flag_no _ _) Fn D (flag_no _ _) Hcs Hco) as H. exact H. }
  replace ((name_text tick (e_name m) ++ " " ++ w ++ "(" ++ values_text sp (e_values m) ++ ")" ++ items_text (ln +++ ld +++ lcs +++ lco)) ++ ending_raw e)
    with (enum_text tick (e_name m) w sp (e_values m) (ln +++ ld +++ lcs +++ lco) e).
  2:{ unfold enum_text, enum_open, more. rewrite spaced_text. repeat (cbn [String.append]; rewrite ?sapp_assoc). reflexivity. }
  set (items := ln +++ ld +++ lcs +++ lco) in *. set (v := enum_vals tick (e_name m) w (e_values m)).
  assert (W : snd (sim enum_os items v) = []
    /\ let u := comma_vals e [] (fst (sim enum_os items v)) in
       vtext "name" u = name_text tick (e_name m) /\ vtext "type" u = w /\ vlist "enum_values" u = e_values m /\ dmem "NOT NULL" u = negb (e_null m)
       /\ vopt "default" u = raw_default ld /\ vopt "character_set" u = raw_shown lcs /\ vopt "collate" u = raw_shown lco).
  { unfold items, v. clear - Fn D Hcs Hco. apply defaults_form in D. apply argument_form in Hcs, Hco.
    destruct Fn, D, Hcs, Hco; (split; [reflexivity|destruct e; repeat split]). }
  destruct W as [W (U1 & U2 & U3 & U4 & U5 & U6 & U7)].
  rewrite (enum_best tick (e_name m) w sp (e_values m) items e Hn Hname Ww Wf Hv Hs Hitems He W). fold v.
  set (u := comma_vals e [] (fst (sim enum_os items v))) in *. exists (enum_process u).
  assert (Uw : upper w = e_type m) by (rewrite (upper_caseless _ _ Hw); destruct Ht as [Et|Et]; rewrite Et; reflexivity).
  assert (Mp : dget (upper w) type_map = Some KEnum) by (rewrite Uw; destruct Ht as [Et|Et]; rewrite Et; reflexivity).
  unfold enum_process, as_definition, extract_name, extract_null. rewrite U1, U2, U3, U4, U5, U6, U7, Hstrip.
  pose proof (sense_form (@no_warning) (fun s => [should_quote (e_name m) s]) _ _ D) as Sd.
  pose proof (sense_remark (@no_warning) (fun s => [should_quote (e_name m) s]) _ _ D) as Sw. destruct (sense _ _ (raw_default ld)) as [d ws]. cbn [fst] in Sd. cbn [snd] in Sw. subst d ws.
  cbn [p_type]. rewrite Mp. eexists. split; [reflexivity|]. split; [reflexivity|]. split; [|split; [reflexivity|apply remark_same; reflexivity]].
  split; cbn [c_name c_kind c_length c_null c_default p_name p_length p_null p_default p_charset p_collate p_unsigned p_auto tru_ob c_unsigned c_autoinc]; try reflexivity.
  - unfold c_type. cbn [c_rawtype]. rewrite <- Uw. apply upper_twice.
  - apply negb_involutive.
  - unfold c_charset. cbn [c_rawcharset]. rewrite Ecs. apply (unquote_argument ICharset "CHARACTER SET"); [reflexivity|exact Hcs].
  - unfold c_collate. cbn [c_rawcollate]. rewrite Eco. apply (unquote_argument ICollate "COLLATE"); [reflexivity|exact Hco].
Qed.

Theorem enum_read m s e : enum_written m s -> ending_ok e ->
  exists p c, best_child definition_classes (s ++ ending_raw e) None = Ok (Some (DefCol p, ending_left e))
    /\ as_definition p = Ok c /\ enum_means c m /\ c_perrors c = [].
Proof.
  intros W He. assert (Q : exists l, enum_remarked m s l) by (destruct W; eexists; eapply enum_remarked_as; eassumption).
  destruct Q as [l R]. destruct (enum_remarked_read m s l e R He) as (p & c & H). exists p, c. tauto.
Qed.

(** ** Comparing *)

(** Undoing [repr]. *)
Definition hex_value (c : ascii) : N := if N.ltb (code c) 58 then code c - 48 else code c - 87.
Fixpoint unrepr (s : string) : string :=
  match s with
  | EmptyString => ""
  | String c s' =>
      if Ascii.eqb c "\" then
        match s' with
        | String d s2 =>
            if Ascii.eqb d "n" then String (ascii_of_N 10) (unrepr s2)
            else if Ascii.eqb d "r" then String (ascii_of_N 13) (unrepr s2)
            else if Ascii.eqb d "t" then String (ascii_of_N 9) (unrepr s2)
            else if Ascii.eqb d "x" then
              match s2 with
              | String h (String l s3) => String (ascii_of_N (hex_value h * 16 + hex_value l)) (unrepr s3)
              | _ => ""
              end
            else String d (unrepr s2)
        | EmptyString => ""
        end
      else String c (unrepr s')
  end.
Lemma unrepr_body q s : q <> "n"%char -> q <> "r"%char -> q <> "t"%char -> q <> "x"%char -> unrepr (repr_body q s) = s.
Proof.
  intros N R T X. induction s as [|c s IH]; [reflexivity|]. cbn [repr_body]. destruct (Ascii.eqb_spec c q) as [->|Nq].
  - cbn [orb unrepr]. change (Ascii.eqb "\" "\") with true. cbv iota. apply Ascii.eqb_neq in N, R, T, X. rewrite N, R, T, X, IH. reflexivity.
  - cbn [orb]. clear - IH. destruct c as [[|] [|] [|] [|] [|] [|] [|] [|]];
      lazy -[unrepr repr_body]; cbn [unrepr]; lazy -[unrepr repr_body]; rewrite IH; reflexivity.
Qed.
Lemma repr_body_free s : has_char squote s = false -> has_char squote (repr_body squote s) = false.
Proof.
  unfold has_char. induction s as [|c s IH]; [reflexivity|]. cbn [sexists repr_body]. rewrite orb_false_iff. intros [C S]. rewrite Ascii.eqb_sym, C. specialize (IH S). cbn [orb].
  revert IH. generalize (repr_body squote s) as r. clear - C. intros r R.
  destruct c as [[|] [|] [|] [|] [|] [|] [|] [|]]; try discriminate C; (transitivity (sexists (Ascii.eqb squote) r); [reflexivity|exact R]).
Qed.
Lemma quoted_inj a b x y : has_char squote a = false -> has_char squote b = false -> a ++ String squote x = b ++ String squote y -> a = b /\ x = y.
Proof.
  unfold has_char. revert b. induction a as [|c a IH]; intros [|d b] A B E; cbn [String.append sexists] in *.
  - injection E as ->. auto.
  - injection E as <- _. rewrite Ascii.eqb_refl in B. discriminate.
  - injection E as -> _. rewrite Ascii.eqb_refl in A. discriminate.
  - injection E as -> E. apply orb_false_iff in A as [_ A]. apply orb_false_iff in B as [_ B]. destruct (IH b A B E) as [-> ->]. auto.
Qed.
Lemma repr_quoted s : has_char squote s = false -> py_repr s = quote (repr_body squote s).
Proof. intros H. unfold py_repr. rewrite H. reflexivity. Qed.
Lemma repr_list_inj l m x y : Forall value_ok l -> Forall value_ok m -> l <> [] -> m <> [] ->
  repr_list l ++ x = repr_list m ++ y -> l = m /\ x = y.
Proof.
  unfold repr_list. rewrite !sapp_assoc. intros Fl Fm Nl Nm E. apply (sapp_inj_l "[") in E. revert l Fl Nl m Fm Nm E.
  assert (R : forall v, value_ok v -> py_repr v = quote (repr_body squote v)) by (intros v [V _]; apply repr_quoted, V).
  assert (J : forall v w p q, value_ok v -> value_ok w -> py_repr v ++ p = py_repr w ++ q -> v = w /\ p = q).
  { intros v w p q V W E. rewrite (R v V), (R w W) in E. unfold quote in E. cbn [String.append] in E. injection E as E. rewrite !sapp_assoc in E.
    apply quoted_inj in E as [E ->]; [|apply repr_body_free, V|apply repr_body_free, W].
    split; [|reflexivity]. rewrite <- (unrepr_body squote v), E by discriminate. apply unrepr_body; discriminate. }
  assert (C : forall v r, exists z, (v :: r : list string) <> [] /\ join ", " (map py_repr (v :: r)) = py_repr v ++ z
              /\ (r = [] /\ z = "" \/ r <> [] /\ z = ", " ++ join ", " (map py_repr r))).
  { intros v [|u r]; [exists ""; repeat split; [discriminate|symmetry; apply sapp_nil_r|left; auto]|].
    exists (", " ++ join ", " (map py_repr (u :: r))). split; [discriminate|]. split; [reflexivity|]. right. split; [discriminate|reflexivity]. }
  induction l as [|v l IH]; intros Fl Nl [|w m] Fm Nm E; try contradiction. inversion Fl as [|? ? Vv Fl']; subst. inversion Fm as [|? ? Vw Fm']; subst.
  destruct (C v l) as (z & _ & Ez & Z), (C w m) as (z' & _ & Ez' & Z'). rewrite Ez, Ez', !sapp_assoc in E. apply J in E as [-> E]; [|assumption..].
  destruct Z as [[-> ->]|[Nl' ->]], Z' as [[-> ->]|[Nm' ->]]; rewrite ?sapp_assoc in E.
  - cbn [String.append] in E. injection E as E. auto.
  - discriminate E.
  - discriminate E.
  - apply (sapp_inj_l ", ") in E. destruct (IH Fl' Nl' m Fm' Nm' E) as [-> ->]. auto.
Qed.
Lemma enum_str c m : enum_means c m -> exists z,
  column_str c = "`" ++ e_name m ++ "` " ++ e_type m ++ "(" ++ repr_list (e_values m) ++ ")" ++ z.
Proof.
  intros M. unfold column_str. rewrite (en_kind _ _ M). cbn [is_string_kind]. unfold column_str_base, type_string.
  rewrite (en_list _ _ M), (en_values _ _ M), (en_name _ _ M), (en_type _ _ M). cbn [length_shown length_str List.app].
  match goal with |- context [join " " (?a :: ?b :: ?r)] => destruct r eqn:Er end.
  - eexists. cbn [join]. repeat (cbn [String.append]; rewrite ?sapp_assoc). reflexivity.
  - rewrite join_cons by discriminate. rewrite join_cons by discriminate. eexists. repeat (cbn [String.append]; rewrite ?sapp_assoc). reflexivity.
Qed.
Lemma enum_same c c' m : enum_means c m -> enum_means c' m -> column_str c = column_str c'.
Proof.
  intros M M'. unfold column_str, column_str_base, type_string.
  rewrite (en_kind _ _ M), (en_kind _ _ M'), (en_list _ _ M), (en_list _ _ M'), (en_values _ _ M), (en_values _ _ M'), (en_name _ _ M), (en_name _ _ M'),
    (en_type _ _ M), (en_type _ _ M'), (en_unsigned _ _ M), (en_unsigned _ _ M'), (en_auto _ _ M), (en_auto _ _ M'), (en_null _ _ M), (en_null _ _ M'),
    (en_default _ _ M), (en_default _ _ M'), (en_charset _ _ M), (en_charset _ _ M'), (en_collate _ _ M), (en_collate _ _ M'). reflexivity.
Qed.
Lemma list_eqb_neq l : forall m, l <> m -> list_eqb String.eqb l m = false.
Proof.
  induction l as [|a l IH]; intros [|b m] N; try reflexivity; [contradiction|]. cbn [list_eqb]. destruct (String.eqb_spec a b) as [->|]; [|reflexivity].
  cbn [andb]. apply IH. congruence.
Qed.
Lemma enum_written_values m s : enum_written m s -> e_values m <> [] /\ Forall value_ok (e_values m) /\ (e_type m = "ENUM" \/ e_type m = "SET") /\ e_name m <> "".
Proof. intros [tick w sp ln ld lcs lco cs co Hn Ht Hw Hs Hv _ _ _ _ _ _]. repeat split; auto. apply Hn. Qed.
Lemma enum_other {FO : FloatOracle} c c' m m' s s' : enum_written m s -> enum_written m' s' -> enum_means c m -> enum_means c' m' ->
  e_name m = e_name m' -> e_values m <> e_values m' -> column_changed c c' = Ok true.
Proof.
  intros W W' M M' En Ne. destruct (enum_written_values _ _ W) as (Nn & V & T & _), (enum_written_values _ _ W') as (Nn' & V' & T' & _).
  unfold column_changed. destruct (String.eqb_spec (column_str c) (column_str c')) as [E|_].
  - exfalso. apply Ne. destruct (enum_str c m M) as [z Ez], (enum_str c' m' M') as [z' Ez']. rewrite Ez, Ez', En in E.
    apply (sapp_inj_l "`") in E. apply sapp_inj_l in E. apply (sapp_inj_l "` ") in E.
    assert (Et : e_type m = e_type m') by (destruct T as [T|T], T' as [T'|T']; rewrite T, T' in *; [reflexivity|discriminate E|discriminate E|reflexivity]).
    rewrite Et in E. apply sapp_inj_l in E. apply (sapp_inj_l "(") in E. apply repr_list_inj in E; [apply E|assumption..].
  - unfold really_same. rewrite (en_kind _ _ M). unfold same_common. rewrite (en_name _ _ M), (en_name _ _ M'), En, String.eqb_refl, (en_values _ _ M), (en_values _ _ M').
    cbn [negb length_eqb andb]. rewrite list_eqb_neq by exact Ne. reflexivity.
Qed.

(** ** Errors *)

Lemma enum_errors {FO : FloatOracle} c m : enum_means c m -> e_values m <> [] -> e_type m = "ENUM" \/ e_type m = "SET" -> e_name m <> "" ->
  column_errors c = match e_default m with
                    | Some (String _ _) => Raise (TypeError "argument of type 'NoneType' is not iterable")
                    | _ => Ok ["Column " ++ e_name m ++ " of type " ++ e_type m ++ " cannot have a length";
                               "column '" ++ e_name m ++ "' of type '" ++ e_type m ++ "' must have a list of values"]
                    end.
Proof.
  intros M V T N. unfold column_errors, column_checked, column_checks. rewrite (en_kind _ _ M). unfold base_checks, string_checks, enum_checks, enum_default_check.
  rewrite (en_name _ _ M), (en_type _ _ M), (en_values _ _ M), (en_list _ _ M), (en_auto _ _ M), (en_unsigned _ _ M), (en_default _ _ M).
  destruct (e_values m) as [|v vs]; [contradiction|]. destruct (e_name m) as [|n ns]; [contradiction|].
  assert (Q : forall o, (if tru_os (c_charset c) || tru_os (c_collate c) then Errs o else Errs []) = Errs (if tru_os (c_charset c) || tru_os (c_collate c) then o else [])) by (intros; destruct (_ || _); reflexivity).
  rewrite Q. destruct T as [-> | ->]; destruct (c_has_default c), (tru_os (c_charset c) || tru_os (c_collate c)), (e_default m) as [[|d ds]|]; reflexivity.
Qed.
