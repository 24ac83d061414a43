(** INSERT statements are read as the rows they contain. *)
From Verif Require Export RoundRead.

Local Opaque max_turns max_statements.

(** ** White space inside quotes *)

Lemma collapse_length s : forall w, String.length (collapse_ws_from w s) <= String.length s.
Proof.
  induction s as [|c s IH]; intros w; [apply Nat.le_refl|]. cbn [collapse_ws_from]. destruct (is_space c); [|specialize (IH false); cbn [String.length]; lia].
  destruct w; [specialize (IH true); cbn [String.length]; lia|]. specialize (IH true). cbn [String.length]. lia.
Qed.
Lemma neat_calm s q r : is_space q = false -> neat r = true -> forall w, collapse_ws_from w s = s -> neat_from w (s ++ String q r) = true.
Proof.
  intros Q R. induction s as [|c s IH]; intros w E.
  - cbn [String.append neat_from]. rewrite Q. exact R.
  - cbn [collapse_ws_from String.append neat_from] in *. destruct (is_space c).
    + destruct w.
      * pose proof (collapse_length s true) as L. rewrite E in L. cbn [String.length] in L. lia.
      * injection E as E1 E2. subst c. cbn [negb andb Ascii.eqb Bool.eqb]. apply IH, E2.
    + injection E as E. apply IH, E.
Qed.
Lemma neat_quoted q s r : is_space q = false -> collapse_ws s = s -> neat r = true -> neat (String q (s ++ String q r)) = true.
Proof. intros Q E R. unfold neat. cbn [neat_from]. rewrite Q. apply neat_calm; assumption. Qed.
Lemma trim_quoted q s r : is_space q = false -> collapse_ws s = s -> neat r = true -> trim (String q (s ++ String q r)) = true.
Proof. intros Q E R. unfold trim. rewrite neat_quoted by assumption. cbn [starts]. unfold not_space. rewrite Q. reflexivity. Qed.

(** ** Values as they are written *)

(** What the scanner puts into its list. *)
Definition lit_raw (v : literal) : string := match v with LitNull => "NULL" | LitWord w => w | LitText s => replace1 backslash "\\" s end.

Lemma replace1_none c n s : has_char c s = false -> replace1 c n s = s.
Proof.
  unfold has_char. induction s as [|d s IH]; [reflexivity|]. cbn [sexists replace1]. rewrite orb_false_iff. intros [E H]. rewrite Ascii.eqb_sym in E. rewrite E, IH by exact H. reflexivity.
Qed.
Lemma halved s : replace2 backslash backslash "\" (replace1 backslash "\\" s) = s.
Proof.
  induction s as [|c s IH]; [reflexivity|]. cbn [replace1]. destruct (Ascii.eqb_spec c backslash) as [->|N].
  - change ("\\" ++ replace1 backslash "\\" s) with (String backslash (String backslash (replace1 backslash "\\" s))). cbn [replace2]. rewrite Ascii.eqb_refl. cbn [andb String.append]. rewrite IH. reflexivity.
  - apply Ascii.eqb_neq in N. cbn [replace2]. destruct (replace1 backslash "\\" s) as [|d r] eqn:E.
    + destruct s as [|e s]; [reflexivity|]. cbn [replace1] in E. destruct (Ascii.eqb e backslash); discriminate.
    + rewrite N. cbn [andb]. rewrite IH. reflexivity.
Qed.
Lemma replace2_other a b n s : has_char b s = false -> replace2 a b n s = s.
Proof.
  unfold has_char. induction s as [|c s IH]; [reflexivity|]. cbn [sexists]. rewrite orb_false_iff. intros [E H]. cbn [replace2]. destruct s as [|d s]; [reflexivity|].
  assert (D : Ascii.eqb d b = false) by (cbn [sexists] in H; apply orb_false_iff in H as [H _]; rewrite Ascii.eqb_sym; exact H).
  rewrite D, andb_false_r, IH by exact H. reflexivity.
Qed.
Lemma doubled_char q s : q <> backslash -> has_char q (replace1 backslash "\\" s) = has_char q s.
Proof.
  intros Q. unfold has_char. induction s as [|c s IH]; [reflexivity|]. cbn [replace1 sexists]. destruct (Ascii.eqb_spec c backslash) as [->|N].
  - change ("\\" ++ replace1 backslash "\\" s) with (String backslash (String backslash (replace1 backslash "\\" s))). cbn [sexists]. rewrite IH.
    destruct (Ascii.eqb_spec q backslash); [contradiction|reflexivity].
  - cbn [sexists]. rewrite IH. reflexivity.
Qed.
Lemma doubled_calm s : forall w, collapse_ws_from w s = s -> collapse_ws_from w (replace1 backslash "\\" s) = replace1 backslash "\\" s.
Proof.
  induction s as [|c s IH]; intros w E; [reflexivity|]. cbn [replace1 collapse_ws_from] in *. destruct (Ascii.eqb_spec c backslash) as [->|N].
  - change (is_space backslash) with false in E. cbv iota in E. injection E as E.
    change ("\\" ++ replace1 backslash "\\" s) with (String backslash (String backslash (replace1 backslash "\\" s))). cbn [collapse_ws_from]. change (is_space backslash) with false. cbv iota.
    rewrite (IH false E). reflexivity.
  - cbn [collapse_ws_from]. destruct (is_space c).
    + destruct w; [exfalso; pose proof (collapse_length s true) as L; rewrite E in L; cbn [String.length] in L; lia|]. injection E as E1 E2. subst c. rewrite (IH true E2). reflexivity.
    + injection E as E. rewrite (IH false E). reflexivity.
Qed.
Lemma doubled_null s : s <> "NULL" -> replace1 backslash "\\" s <> "NULL".
Proof.
  intros N E. apply N. rewrite <- (halved s), E. reflexivity.
Qed.
Lemma lit_read v : literal_ok v -> read_value (lit_raw v) = lit_value v.
Proof.
  destruct v as [|w|s]; cbn [literal_ok lit_raw lit_value]; intros O; [reflexivity| |]; unfold read_value.
  - destruct O as (_ & N & W). apply String.eqb_neq in N. rewrite N.
    assert (B : has_char backslash w = false).
    { apply has_char_forall. apply (sforall_imp word_value_char); [|exact W]. intros c. clear. destruct c as [[|] [|] [|] [|] [|] [|] [|] [|]]; vm_compute; congruence. }
    rewrite (replace2_other backslash backslash) by exact B. rewrite replace2_other; [reflexivity|].
    apply has_char_forall. apply (sforall_imp word_value_char); [|exact W]. intros c. clear. destruct c as [[|] [|] [|] [|] [|] [|] [|] [|]]; vm_compute; congruence.
  - destruct O as (Q & _). destruct (String.eqb s "NULL") eqn:N; [apply String.eqb_eq in N; subst s; reflexivity|].
    apply String.eqb_neq, doubled_null, String.eqb_neq in N. rewrite N, halved, replace2_other by exact Q. reflexivity.
Qed.

(** ** Scanning a list of values *)

Section Scan.
  Notation scan := (delim squote "," ")").
  Let Q1 : squote <> ","%char := ltac:(discriminate).
  Let Q2 : squote <> " "%char := ltac:(discriminate).
  Let Q3 : squote <> ")"%char := ltac:(discriminate).

  Lemma scan_word w : sforall word_value_char w = true -> forall has cur vals l r, exists l',
    scan has false cur vals l (w ++ r) = scan (has || truthy w) false (cur ++ w) vals l' r.
  Proof.
    induction w as [|c w IH]; intros W has cur vals l r; [exists l; rewrite orb_false_r, sapp_nil_r; reflexivity|].
    cbn [sforall] in W. apply andb_true_iff in W as [C W]. unfold word_value_char in C. apply negb_true_iff in C. rewrite !orb_false_iff in C. destruct C as [[[[C1 C2] C3] C4] C5].
    cbn [String.append delim]. rewrite C4. cbn [match_lit]. 
    assert (L : Ascii.eqb (to_lower ")") (to_lower c) = false).
    { clear - C3. destruct c as [[|] [|] [|] [|] [|] [|] [|] [|]]; vm_compute in C3 |- *; congruence. }
    rewrite L. cbv iota. rewrite C2. assert (S : Ascii.eqb c " " = false) by (clear - C1; destruct c as [[|] [|] [|] [|] [|] [|] [|] [|]]; vm_compute in C1 |- *; congruence).
    rewrite S. cbn [orb]. destruct (IH W true (cur ++ String c "") vals (String c (w ++ r)) r) as [l' E]. exists l'. rewrite E, sapp_assoc. cbn [orb String.append]. rewrite orb_true_r. reflexivity.
  Qed.
  Lemma scan_lit v : literal_ok v -> forall vals l r, exists has cur vals' l',
    scan false false "" vals l (lit_text v ++ r) = scan has false cur vals' l' r /\ (if has then vals' +++ [cur] else vals') = vals +++ [lit_raw v].
  Proof.
    assert (Word : forall w, w <> "" -> sforall word_value_char w = true -> forall vals l r, exists has cur vals' l',
      scan false false "" vals l (w ++ r) = scan has false cur vals' l' r /\ (if has then vals' +++ [cur] else vals') = vals +++ [w]).
    { intros w N W vals l r. destruct (scan_word w W false "" vals l r) as [l' E]. exists true, w, vals, l'. split; [|reflexivity]. rewrite E.
      apply truthy_iff in N. rewrite N. reflexivity. }
    destruct v as [|w|s]; cbn [literal_ok lit_text lit_raw]; intros O vals l r.
    - apply (Word "NULL"); [discriminate|reflexivity].
    - apply Word; apply O.
    - cbn [String.append]. rewrite scan_open, sapp_assoc. cbn [String.append].
      destruct (delim_inside squote "," ")" true (replace1 backslash "\\" s) "" vals (String squote (replace1 backslash "\\" s ++ String squote r)) r) as [l' E].
      { rewrite doubled_char by discriminate. apply O. }
      rewrite E. exists false. eexists _, _, l'. split; reflexivity.
  Qed.
  (** Values separated by commas, with or without a space. *)
  Lemma scan_lits sp l : Forall literal_ok l -> l <> [] -> forall vals last r,
    scan false false "" vals last (join (sep_text sp) (map lit_text l) ++ String ")" r) = (false, vals +++ map lit_raw l, String ")" r).
  Proof.
    induction 1 as [|v l O F IH]; intros N vals last r; [contradiction|].
    destruct l as [|y l].
    - cbn [map join]. destruct (scan_lit v O vals last (String ")" r)) as (has & cur & vals' & l' & E & V). rewrite E, scan_close, V by assumption. reflexivity.
    - cbn [map]. rewrite join_cons by discriminate. rewrite !sapp_assoc. set (rest := join (sep_text sp) (lit_text y :: map lit_text l) ++ String ")" r).
      destruct (scan_lit v O vals last (sep_text sp ++ rest)) as (has & cur & vals' & l' & E & V). rewrite E.
      assert (C : exists l2, scan has false cur vals' l' (sep_text sp ++ rest) = scan false false "" (vals +++ [lit_raw v]) l2 rest).
      { destruct sp; unfold sep_text; cbn [String.append].
        - rewrite scan_comma, scan_space, V by assumption. eexists. reflexivity.
        - rewrite scan_comma, V by assumption. eexists. reflexivity. }
      destruct C as [l2 ->]. unfold rest. specialize (IH ltac:(discriminate) (vals +++ [lit_raw v]) l2 r). cbn [map] in IH. rewrite IH, <- app_assoc. reflexivity.
  Qed.
  Lemma delimited_lits sp l r : Forall literal_ok l -> l <> [] ->
    delimited squote "," ")" (join (sep_text sp) (map lit_text l) ++ String ")" r) = Ok (Some (map lit_raw l, String ")" r)).
  Proof. intros F N. unfold delimited. rewrite scan_lits by assumption. destruct l; [contradiction|reflexivity]. Qed.
End Scan.

Lemma lit_neat v r : literal_ok v -> neat r = true -> trim (lit_text v ++ r) = true /\ lit_text v <> "".
Proof.
  destruct v as [|w|s]; cbn [literal_ok lit_text]; intros O R.
  - split; [apply (trim_app "NULL"); [reflexivity|discriminate|exact R]|discriminate].
  - destruct O as (N & _ & W). split; [|exact N]. apply trim_app; auto. apply (sforall_imp word_value_char); [|exact W]. intros c. clear. destruct c as [[|] [|] [|] [|] [|] [|] [|] [|]]; vm_compute; congruence.
  - split; [|discriminate]. cbn [String.append]. rewrite sapp_assoc. apply (trim_quoted squote); [reflexivity| |exact R]. apply doubled_calm, O.
Qed.
Lemma append_some a b : a <> "" -> a ++ b <> "".
Proof. destruct a; [contradiction|discriminate]. Qed.
Lemma lits_neat sp l r : Forall literal_ok l -> l <> [] -> neat r = true -> trim (join (sep_text sp) (map lit_text l) ++ r) = true /\ join (sep_text sp) (map lit_text l) <> "".
Proof.
  intros F N R. induction F as [|v l O F IH]; [contradiction|]. destruct l as [|y l]; [apply lit_neat; assumption|].
  cbn [map] in *. rewrite join_cons by discriminate. rewrite !sapp_assoc. destruct (IH ltac:(discriminate)) as [T J].
  split.
  - apply lit_neat; [exact O|]. destruct sp; unfold sep_text; cbn [String.append].
    + apply (neat_cat "," (String " " _)); [reflexivity|]. apply neat_space; [exact T|]. apply append_some, J.
    + apply (neat_cat ","); [reflexivity|apply trim_neat, T].
  - destruct (lit_neat v "" O eq_refl) as [_ Z]. destruct (lit_text v); [contradiction|discriminate].
Qed.

(** ** The statement *)

(** What may follow the groups, and what is left after it. *)
Inductive insert_end : string -> string -> Prop :=
| end_none : insert_end "" ""
| end_semi r : neat r = true -> insert_end (String ";" r) (strip r).
Lemma end_neat e r : insert_end e r -> neat e = true.
Proof. destruct 1 as [|r H]; [reflexivity|]. apply (neat_cat ";"); [reflexivity|exact H]. Qed.

Lemma sep_neat sp r : trim r = true -> r <> "" -> neat (sep_text sp ++ r) = true.
Proof.
  intros T N. destruct sp; unfold sep_text; [|apply (neat_cat ","); [reflexivity|apply trim_neat, T]].
  cbn [String.append]. apply (neat_cat "," (String " " _)); [reflexivity|]. apply neat_space; assumption.
Qed.
Lemma group_neat sp g r : Forall literal_ok g -> g <> [] -> neat r = true -> trim (group_text sp g ++ r) = true.
Proof.
  intros F N R. unfold group_text. rewrite !sapp_assoc. apply (trim_cat "("); [reflexivity|discriminate|]. apply trim_neat, lits_neat; auto.
Qed.
Lemma groups_neat sp gp n gs r : Forall (group_ok n) gs -> gs <> [] -> neat r = true -> trim (join (sep_text gp) (map (group_text sp) gs) ++ r) = true.
Proof.
  intros F N R. induction F as [|g gs (F1 & F2 & F3) F IH]; [contradiction|]. destruct gs as [|y gs]; [apply group_neat; assumption|].
  cbn [map] in *. rewrite join_cons by discriminate. rewrite !sapp_assoc. apply group_neat; auto. apply sep_neat; [apply IH; discriminate|].
  apply append_some. destruct gs; [discriminate|]. cbn [map]. rewrite join_cons by discriminate. discriminate.
Qed.

(** One group, at the end of the statement or before another one. *)
Lemma values_last sp g e r : insert_end e r -> Forall literal_ok g -> g <> [] ->
  values_class (group_text sp g ++ e) = Ok (Some (map lit_value g, false), e).
Proof.
  intros End F N. unfold values_class, parse_with. pose proof (end_neat _ _ End) as E.
  rewrite trim_normalize by (apply group_neat; assumption). unfold values_rules, group_text. rewrite !sapp_assoc.
  destruct (lits_neat sp g (")" ++ e) F N (neat_cat ")" e eq_refl E)) as [T J].
  unfold lit. rewrite (step_lit _ _ _ _ _ (join (sep_text sp) (map lit_text g) ++ ")" ++ e)); [|reflexivity|rewrite trim_strip by exact T; apply append_some, J].
  rewrite trim_strip by exact T. rewrite (step_del _ _ _ _ _ _ _ _ _ (map lit_raw g) (String ")" e)); [|apply delimited_lits; assumption|discriminate].
  assert (V : map read_value (map lit_raw g) = map lit_value g).
  { rewrite map_map. apply map_ext_in. intros v I. apply lit_read. rewrite Forall_forall in F. apply F, I. }
  destruct End as [|r H].
  - rewrite (end_lit _ _ _ _ _ ""); [|reflexivity|reflexivity|reflexivity]. cbn [bind]. rewrite <- V. reflexivity.
  - assert (Z : strip (String ";" r) = String ";" r) by (apply trim_strip; unfold trim; rewrite E; reflexivity).
    rewrite (step_lit _ _ _ _ _ (String ";" r)); [|reflexivity|rewrite Z; discriminate]. rewrite Z. unfold rcomma. rewrite skip_lit by reflexivity. cbn [run_rules bind].
    rewrite <- V. reflexivity.
Qed.
Lemma values_next sp gp g r : Forall literal_ok g -> g <> [] -> trim r = true -> r <> "" ->
  values_class (group_text sp g ++ sep_text gp ++ r) = Ok (Some (map lit_value g, true), r).
Proof.
  intros F N R Rn. unfold values_class, parse_with.
  assert (E : neat (sep_text gp ++ r) = true) by (apply sep_neat; assumption).
  rewrite trim_normalize by (apply group_neat; assumption). unfold values_rules, group_text. rewrite !sapp_assoc.
  destruct (lits_neat sp g (")" ++ sep_text gp ++ r) F N (neat_cat ")" _ eq_refl E)) as [T J].
  unfold lit. rewrite (step_lit _ _ _ _ _ (join (sep_text sp) (map lit_text g) ++ ")" ++ sep_text gp ++ r)); [|reflexivity|rewrite trim_strip by exact T; apply append_some, J].
  rewrite trim_strip by exact T. rewrite (step_del _ _ _ _ _ _ _ _ _ (map lit_raw g) (String ")" (sep_text gp ++ r))); [|apply delimited_lits; assumption|discriminate].
  assert (V : map read_value (map lit_raw g) = map lit_value g).
  { rewrite map_map. apply map_ext_in. intros v I. apply lit_read. rewrite Forall_forall in F. apply F, I. }
  assert (Z : strip (sep_text gp ++ r) = sep_text gp ++ r).
  { apply trim_strip. unfold trim. rewrite E. destruct gp; reflexivity. }
  rewrite (step_lit _ _ _ _ _ (sep_text gp ++ r)); [|reflexivity|rewrite Z; destruct gp; discriminate]. rewrite Z. unfold rcomma.
  assert (M : exists x, match_lit "," (sep_text gp ++ r) = Some x /\ strip x = r).
  { destruct gp; [exists (String " " r)|exists r]; (split; [reflexivity|]); [apply strip_space, R|apply trim_strip, R]. }
  destruct M as (x & M & X). rewrite (step_lit _ _ _ _ _ x); [|exact M|rewrite X; exact Rn]. rewrite X. cbn [run_rules bind]. rewrite <- V. reflexivity.
Qed.

(** The groups are read one after the other. *)
Definition group_rows (gs : list (list literal)) : list (list rval * bool) :=
  match rev gs with
  | [] => []
  | g :: l => rev (map (fun g => (map lit_value g, true)) l) +++ [(map lit_value g, false)]
  end.
Lemma group_rows_cons g y gs : group_rows (g :: y :: gs) = (map lit_value g, true) :: group_rows (y :: gs).
Proof.
  unfold group_rows. cbn [rev]. destruct (rev gs +++ [y]) as [|x l] eqn:E; [destruct (rev gs); discriminate|]. cbn [List.app]. rewrite map_app, rev_app_distr. reflexivity.
Qed.
Lemma values_none r : neat r = true -> values_class (String ";" r) = Ok (None, String ";" r).
Proof.
  intros H. unfold values_class, parse_with. rewrite trim_normalize; [reflexivity|]. unfold trim.
  rewrite (end_neat _ _ (end_semi r H)). reflexivity.
Qed.
Lemma groups_kids sp gp k e left gs : insert_end e left -> Forall (group_ok k) gs -> gs <> [] -> forall n ms, List.length gs < n ->
  kids n [values_class] (join (sep_text gp) (map (group_text sp) gs) ++ e) ms = Ok (Some (ms +++ group_rows gs, e)).
Proof.
  intros End F N. induction F as [|g gs (F1 & F2 & F3) F IH]; [contradiction|]. intros n ms L. destruct n as [|n]; [cbn [List.length] in L; lia|]. destruct gs as [|y gs].
  - cbn [map join kids]. assert (Em : is_empty (group_text sp g ++ e) = false) by reflexivity. rewrite Em. cbn [best_child].
    rewrite (values_last sp g e left) by assumption. cbn [bind best_child]. destruct n as [|n]; [cbn [List.length] in L; lia|]. destruct End as [|r H]; [reflexivity|].
    cbn [kids is_empty best_child]. rewrite (values_none r H). cbn [bind best_child].
    destruct (ms +++ [(map lit_value g, false)]) eqn:E; [destruct ms; discriminate|]. rewrite <- E. reflexivity.
  - cbn [map]. rewrite join_cons by discriminate. cbn [map] in IH. rewrite !sapp_assoc. cbn [kids].
    set (rest := join (sep_text gp) (group_text sp y :: map (group_text sp) gs) ++ e) in *.
    assert (Em : is_empty (group_text sp g ++ sep_text gp ++ rest) = false) by reflexivity. rewrite Em. cbn [best_child].
    assert (T : trim rest = true).
    { apply (groups_neat sp gp k (y :: gs)); [exact F|discriminate|exact (end_neat _ _ End)]. }
    assert (Rn : rest <> "").
    { unfold rest. apply append_some. destruct gs; [discriminate|]. cbn [map]. rewrite join_cons by discriminate. discriminate. }
    rewrite values_next by assumption. cbn [bind best_child]. rewrite IH; [|discriminate|cbn [List.length] in *; lia]. rewrite group_rows_cons, <- app_assoc. reflexivity.
Qed.
Lemma groups_taken k gs : Forall (group_ok k) gs -> k <> 0 -> take_groups k (group_rows gs) true = (map (map lit_value) gs, [], []).
Proof.
  intros F K. induction F as [|g gs (F1 & F2 & F3) F IH]; [reflexivity|]. destruct gs as [|y gs].
  - cbn [group_rows rev List.app map take_groups]. rewrite map_length, F3, Nat.eqb_refl, andb_false_r. reflexivity.
  - rewrite group_rows_cons. cbn [take_groups]. rewrite map_length, F3, Nat.eqb_refl, andb_false_r, IH. reflexivity.
Qed.

Definition gap_number (sp : bool) : nat := if sp then 1 else 0.
Lemma join_sep sp x l : join (sep_text sp) (x :: l) = join "," (x :: map (fun y => spaces (gap_number sp) ++ y) l).
Proof.
  revert x. induction l as [|y l IH]; intros x; [reflexivity|]. rewrite join_cons by discriminate. rewrite IH. cbn [map]. rewrite (join_cons "," x) by discriminate.
  destruct sp; [|reflexivity]. unfold sep_text. cbn [gap_number spaces String.append].
  destruct l as [|z l]; [reflexivity|]. cbn [map]. rewrite !(join_cons ",") by discriminate. reflexivity.
Qed.
Lemma columns_delimited sp cols r : cols <> [] -> Forall column_name_ok cols ->
  delimited bquote "," ")" (join (sep_text sp) (map ticked cols) ++ String ")" r) = Ok (Some (cols, String ")" r)).
Proof.
  intros N F. destruct cols as [|c cols]; [contradiction|]. cbn [map]. rewrite join_sep.
  pose proof (delimited_items bquote ltac:(discriminate) ltac:(discriminate) ltac:(discriminate) ((0, c, 0) :: map (fun x => (gap_number sp, x, 0)) cols) r ltac:(discriminate)) as Q.
  cbn [map] in Q. rewrite !map_map in *. cbn [quoted_item item_value fst snd spaces String.append] in Q. unfold ticked. cbn [String.append].
  erewrite (map_ext (fun x => spaces (gap_number sp) ++ _)); [rewrite Q|reflexivity].
  - rewrite map_id. reflexivity.
  - intros x [<-|I]; [inversion F as [|? ? [H _] _]; exact H|]. apply in_map_iff in I as (y & <- & I). rewrite Forall_forall in F. apply (F y). right. exact I.
Qed.
Lemma columns_neat sp cols r : Forall column_name_ok cols -> cols <> [] -> neat r = true -> trim (join (sep_text sp) (map ticked cols) ++ r) = true /\ join (sep_text sp) (map ticked cols) <> "".
Proof.
  intros F N R. induction F as [|v l O F IH]; [contradiction|].
  assert (G : forall x, neat x = true -> trim (ticked v ++ x) = true).
  { intros x X. rewrite ticked_append. apply trim_quoted; [reflexivity|apply O|exact X]. }
  destruct l as [|y l]; [split; [apply G, R|discriminate]|]. cbn [map] in *. rewrite join_cons by discriminate. rewrite !sapp_assoc. destruct (IH ltac:(discriminate)) as [T J].
  split; [|discriminate]. apply G, sep_neat; [exact T|apply append_some, J].
Qed.

Section Insert.
  Variables (n : string) (cols : list string) (sp gp : bool) (gs : list (list literal)) (e left : string).
  Hypothesis Hn : table_name_ok n.
  Hypothesis Hc : cols <> [].
  Hypothesis Fc : Forall column_name_ok cols.
  Hypothesis Hg : gs <> [].
  Hypothesis Fg : Forall (group_ok (List.length cols)) gs.
  Hypothesis Lg : (N.of_nat (List.length gs) < 1000)%N.
  Hypothesis He : insert_end e left.
  Let tail : string := join (sep_text gp) (map (group_text sp) gs) ++ e.

  Lemma tail_trim : trim tail = true.
  Proof. apply (groups_neat sp gp (List.length cols)); auto. exact (end_neat _ _ He). Qed.
  Lemma tail_some : tail <> "".
  Proof. apply append_some. destruct gs as [|g [|y l]]; [contradiction|discriminate|]. cbn [map]. rewrite join_cons by discriminate. discriminate. Qed.
  Lemma values_neat : neat (") VALUES " ++ tail) = true.
  Proof. apply (neat_cat ") VALUES" (String " " tail)); [reflexivity|]. apply neat_space; [apply tail_trim|apply tail_some]. Qed.
  Lemma text_trim : trim (insert_text n cols sp gp gs e) = true.
  Proof.
    unfold insert_text. apply (trim_cat "INSERT INTO" (String " " _)); [reflexivity|discriminate|]. apply neat_space.
    2: discriminate.
    rewrite ticked_append. apply trim_quoted; [reflexivity| |].
    - destruct Hn as [_ H]. apply neat_collapse. change (neat n = true). rewrite <- (sapp_nil_r n). apply neat_app'; [|reflexivity].
      refine (sforall_imp _ _ _ _ H). intros c. clear. destruct c as [[|] [|] [|] [|] [|] [|] [|] [|]]; vm_compute; congruence.
    - apply (neat_space ("(" ++ _)); [|discriminate]. apply (trim_cat "("); [reflexivity|discriminate|]. apply trim_neat. apply columns_neat; auto. apply values_neat.
  Qed.

  Theorem insert_reads s : normalize s = insert_text n cols sp gp gs e ->
    insert_parse s = Ok (Some (mkRows n (map (map lit_value) gs) cols (List.length cols) [] []), left).
  Proof.
    intros E. unfold insert_parse, parse_with. rewrite E. clear E s. unfold insert_text. fold tail.
    destruct (columns_neat sp cols (") VALUES " ++ tail) Fc Hc values_neat) as [CT CN].
    assert (NS : sforall not_space (ticked n) = true) by (apply ticked_not_space, Hn).
    assert (T1 : trim ("(" ++ join (sep_text sp) (map ticked cols) ++ ") VALUES " ++ tail) = true).
    { apply (trim_cat "("); [reflexivity|discriminate|apply trim_neat, CT]. }
    assert (T0 : trim (ticked n ++ " (" ++ join (sep_text sp) (map ticked cols) ++ ") VALUES " ++ tail) = true).
    { apply trim_app; [exact NS|discriminate|]. apply (neat_space ("(" ++ _)); [exact T1|discriminate]. }
    unfold insert_rules, lit.
    rewrite (step_lit _ _ _ _ _ (String " " (ticked n ++ " (" ++ join (sep_text sp) (map ticked cols) ++ ") VALUES " ++ tail))); [|reflexivity|rewrite strip_space by exact T0; discriminate].
    rewrite strip_space by exact T0.
    assert (P : @re_match (list rval * bool) (plus table_char) (ticked n ++ " (" ++ join (sep_text sp) (map ticked cols) ++ ") VALUES " ++ tail)
      = Some (VText (ticked n), " (" ++ join (sep_text sp) (map ticked cols) ++ ") VALUES " ++ tail)).
    { apply plus_word; [|discriminate|reflexivity]. unfold ticked. cbn [sforall]. rewrite sforall_app. change (table_char bquote) with true.
      rewrite (sforall_imp name_ok_char table_char); [reflexivity| |apply Hn]. intros c. clear. destruct c as [[|] [|] [|] [|] [|] [|] [|] [|]]; vm_compute; congruence. }
    pose proof (strip_space _ T1) as U1. change (String " " ("(" ++ join (sep_text sp) (map ticked cols) ++ ") VALUES " ++ tail)) with (" (" ++ join (sep_text sp) (map ticked cols) ++ ") VALUES " ++ tail) in U1.
    rewrite (step_re _ _ _ _ _ _ _ _ P); [|rewrite U1; discriminate].
    rewrite U1.
    rewrite (step_lit _ _ _ _ _ (join (sep_text sp) (map ticked cols) ++ ") VALUES " ++ tail)); [|reflexivity|rewrite trim_strip by exact CT; apply append_some, CN].
    rewrite trim_strip by exact CT.
    rewrite (step_del _ _ _ _ _ _ _ _ _ cols (String ")" (" VALUES " ++ tail))); [|apply columns_delimited; assumption|discriminate].
    assert (T2 : trim ("VALUES " ++ tail) = true).
    { apply (trim_cat "VALUES" (String " " tail)); [reflexivity|discriminate|]. apply neat_space; [apply tail_trim|apply tail_some]. }
    pose proof (strip_space _ T2) as U2. change (String " " ("VALUES " ++ tail)) with (" VALUES " ++ tail) in U2.
    rewrite (step_lit _ _ _ _ _ (" VALUES " ++ tail)); [|reflexivity|rewrite U2; discriminate].
    rewrite U2.
    rewrite (step_lit _ _ _ _ _ (String " " tail)); [|reflexivity|rewrite strip_space by apply tail_trim; apply tail_some].
    rewrite strip_space by apply tail_trim.
    cbn [run_rules run_rule]. unfold tail. rewrite (groups_kids sp gp (List.length cols) e left gs He Fg Hg _ _ (turns_enough _ Lg)).
    cbn [bind List.app rule_opt rule_name].
    set (v := dset "inserts" _ _).
    assert (K : vkids "inserts" v = group_rows gs) by reflexivity.
    assert (A : vtext "table" v = ticked n) by reflexivity. assert (B : vlist "columns" v = cols) by reflexivity.
    assert (P' : forall w, vkids "inserts" w = group_rows gs -> vtext "table" w = ticked n -> vlist "columns" w = cols ->
      insert_process w = mkRows n (map (map lit_value) gs) cols (List.length cols) [] []).
    { intros w W1 W2 W3. unfold insert_process. rewrite W1, W2, W3. rewrite (groups_taken (List.length cols)); [|exact Fg|destruct cols; [contradiction|discriminate]].
      rewrite strip_ticked by apply Hn. reflexivity. }
    destruct He as [|r H]; cbn [is_empty forallb rule_opt andb bind].
    - rewrite P'; [reflexivity|exact K|exact A|exact B].
    - change (match_lit ";" (String ";" r)) with (Some r). cbn [bind]. destruct (is_empty (strip r)) eqn:Es; cbn [bind forallb]; rewrite P'; reflexivity.
  Qed.
End Insert.

(** ** From the statement to the source *)

Lemma rstrip_tail p c a b : rstrip_by p a = rstrip_by p b -> rstrip_by p (String c a) = rstrip_by p (String c b).
Proof. intros E. cbn [rstrip_by]. rewrite E. reflexivity. Qed.
Lemma lstrip_collapse s : forall w, lstrip_by is_space (collapse_ws_from w s) = collapse_ws_from false (lstrip_by is_space s).
Proof.
  induction s as [|c s IH]; intros w; [reflexivity|]. cbn [collapse_ws_from lstrip_by]. destruct (is_space c) eqn:E.
  - destruct w; [apply IH|]. cbn [lstrip_by]. apply IH.
  - cbn [lstrip_by collapse_ws_from]. rewrite E. reflexivity.
Qed.
Lemma rstrip_collapse s : forall w, rstrip_by is_space (collapse_ws_from w s) = rstrip_by is_space (collapse_ws_from w (rstrip_by is_space s)).
Proof.
  induction s as [|c s IH]; intros w; [reflexivity|]. cbn [rstrip_by]. destruct (rstrip_by is_space s) as [|d r] eqn:R.
  - cbn [collapse_ws_from]. destruct (is_space c) eqn:E.
    + destruct w; [exact (IH true)|]. cbn [rstrip_by]. rewrite (IH true). reflexivity.
    + cbn [collapse_ws_from]. rewrite E. apply rstrip_tail, IH.
  - cbn [collapse_ws_from]. destruct (is_space c) eqn:E.
    + destruct w; [exact (IH true)|]. apply rstrip_tail, (IH true).
    + apply rstrip_tail, (IH false).
Qed.
Lemma rstrip_lstrip p s : rstrip_by p (lstrip_by p s) = lstrip_by p (rstrip_by p s).
Proof.
  induction s as [|c s IH]; [reflexivity|]. cbn [lstrip_by rstrip_by]. destruct (p c) eqn:P.
  - rewrite IH. destruct (rstrip_by p s) as [|d r]; [reflexivity|]. cbn [lstrip_by]. rewrite P. reflexivity.
  - cbn [rstrip_by]. destruct (rstrip_by p s) as [|d r]; rewrite ?P; cbn [lstrip_by]; rewrite P; reflexivity.
Qed.
Lemma normalize_strip s : normalize (strip s) = normalize s.
Proof.
  unfold normalize, strip, strip_by, collapse_ws. rewrite <- (lstrip_collapse _ false), rstrip_lstrip, lstrip_idem, <- rstrip_collapse. reflexivity.
Qed.
Lemma rstrip_prefix p s : exists z, s = rstrip_by p s ++ z.
Proof.
  induction s as [|c s [z E]]; [exists ""; reflexivity|]. cbn [rstrip_by]. destruct (rstrip_by p s) as [|d r].
  - destruct (p c); [exists (String c s); reflexivity|]. exists s. reflexivity.
  - exists z. cbn [String.append] in *. f_equal. exact E.
Qed.
Lemma collapse_prefix w : forall m x, sforall not_space w = true -> collapse_ws m = w ++ x -> exists y, m = w ++ y.
Proof.
  induction w as [|a w IH]; intros m x W E; [exists m; reflexivity|]. cbn [sforall] in W. apply andb_true_iff in W as [A W].
  destruct m as [|c m]; [discriminate|]. unfold collapse_ws in E. cbn [collapse_ws_from String.append] in E. destruct (is_space c) eqn:C.
  - injection E as <- E. discriminate.
  - injection E as <- E. destruct (IH m x W E) as [y ->]. exists y. reflexivity.
Qed.
(** The first word of a text is the first word of its normal form. *)
Lemma normal_prefix w s x : w <> "" -> sforall not_space w = true -> normalize s = w ++ x -> exists y, strip s = w ++ y.
Proof.
  intros N W E. rewrite <- normalize_strip in E. unfold normalize in E. change (lstrip_by is_space (rstrip_by is_space (collapse_ws (strip s))) = w ++ x) in E. rewrite <- rstrip_lstrip in E. unfold collapse_ws in E. rewrite lstrip_collapse in E.
  replace (lstrip_by is_space (strip s)) with (strip s) in E by (unfold strip, strip_by; rewrite lstrip_idem; reflexivity).
  destruct (rstrip_prefix is_space (collapse_ws_from false (strip s))) as [z Z]. rewrite E in Z. rewrite sapp_assoc in Z.
  exact (collapse_prefix w _ _ W Z).
Qed.
Lemma insert_source file n cols sp gp gs e : table_name_ok n -> cols <> [] -> Forall column_name_ok cols ->
  gs <> [] -> Forall (group_ok (List.length cols)) gs -> (N.of_nat (List.length gs) < 1000)%N -> e = "" \/ e = ";" ->
  forall s, normalize s = insert_text n cols sp gp gs e ->
  read_sql file s = (mkReader [] [(n, [mkRows n (map (map lit_value) gs) cols (List.length cols) [] []])] [] true, Ok "").
Proof.
  intros Hn Hc Fc Hg Fg Lg He s E.
  assert (End : insert_end e "") by (destruct He as [->| ->]; [constructor|exact (end_semi "" eq_refl)]).
  assert (P : forall s', normalize s' = insert_text n cols sp gp gs e ->
    insert_parse s' = Ok (Some (mkRows n (map (map lit_value) gs) cols (List.length cols) [] []), "")).
  { apply insert_reads; assumption. }
  pose proof E as E0. unfold insert_text in E0. apply (normal_prefix "INSERT" s (" INTO " ++ _)) in E0 as [y Y]; [|discriminate|reflexivity].
  unfold read_sql. pose proof statements_enough as L. destruct max_statements as [|[|m]]; [lia|lia|]. clear L.
  cbn [read_loop]. destruct (is_empty s) eqn:Q; [apply is_empty_iff in Q; subst s; discriminate|].
  assert (H1 : statement_of (strip s) = SInsert) by (rewrite Y; reflexivity).
  assert (H2 : is_empty (strip s) = false) by (rewrite Y; reflexivity).
  rewrite H1, H2, P by (rewrite normalize_strip; exact E). reflexivity.
Qed.
