(** C31, exactly: which default texts a statement carries to the server unchanged. *)
From Coq Require Import ZArith NArith Lia.
From Verif Require Import PropsExact PropsSql ExactSql NumFacts SqlFacts SqlStmt SpecSql.

(** The column with another default. *)
Definition with_default (c : column) (d : cdefault) : column :=
  mkColumn (c_kind c) (c_name c) (c_rawtype c) (c_length c) (c_null c) (c_has_default c) d (c_unsigned c)
    (c_rawcharset c) (c_rawcollate c) (c_autoinc c) (c_enum_values c) (c_perrors c) (c_pwarnings c).

(** What precedes the default: name, type, UNSIGNED, NOT NULL; and what follows it. *)
Definition head_tokens (c : column) : list tok :=
  [TName (c_name c)] +++ type_tokens c
  +++ (if tru_ob (c_unsigned c) then [TWord "UNSIGNED"] else [])
  +++ (if c_null c then [] else [TWord "NOT"; TWord "NULL"]).
Definition tail_tokens (c : column) : list tok :=
  (if tru_ob (c_autoinc c) then [TWord "AUTO_INCREMENT"] else [])
  +++ (if is_string_kind (c_kind c)
       then labelled [TWord "CHARACTER"; TWord "SET"] (c_charset c) +++ labelled [TWord "COLLATE"] (c_collate c)
       else []).

(** The same on the text. *)
Definition head_parts (c : column) : list string :=
  ["`" ++ c_name c ++ "`"; type_string c]
  +++ (if tru_ob (c_unsigned c) then ["UNSIGNED"] else []) +++ (if c_null c then [] else ["NOT NULL"]).
Definition after_label (w : string) (o : option string) : string :=
  match o with Some s => if truthy s then w ++ "'" ++ s ++ "'" else "" | None => "" end.
Definition tail_text (c : column) : string :=
  (if tru_ob (c_autoinc c) then " AUTO_INCREMENT" else "")
  ++ (if is_string_kind (c_kind c) then after_label " CHARACTER SET " (c_charset c) ++ after_label " COLLATE " (c_collate c) else "").

Lemma join_spaces a b : a <> [] -> b <> [] -> join " " (a +++ b) = join " " a ++ " " ++ join " " b.
Proof.
  intros A B. induction a as [|x a IH]; [contradiction|]. destruct a as [|y a].
  - cbn [app]. rewrite join_cons by exact B. reflexivity.
  - change ((x :: y :: a) +++ b) with (x :: (y :: a) +++ b). rewrite !join_cons by discriminate. rewrite IH by discriminate.
    rewrite !sapp_assoc. reflexivity.
Qed.

Lemma column_text c x : default_parts (c_default c) = [x] ->
  column_str c = join " " (head_parts c) ++ " " ++ x ++ tail_text c.
Proof.
  intros E. assert (B : column_str_base c = join " " (head_parts c) ++ " " ++ x ++ (if tru_ob (c_autoinc c) then " AUTO_INCREMENT" else "")).
  { unfold column_str_base. rewrite E. unfold head_parts.
    match goal with |- join " " (?a +++ ?b +++ ?d +++ ?e +++ ?f) = _ =>
      replace (a +++ b +++ d +++ e +++ f) with ((a +++ b +++ d) +++ (e +++ f)) by (rewrite <- !app_assoc; reflexivity) end.
    rewrite join_spaces by discriminate. do 2 f_equal. destruct (tru_ob (c_autoinc c)); simpl; [reflexivity|rewrite sapp_nil_r; reflexivity]. }
  unfold column_str, tail_text. rewrite B. destruct (is_string_kind (c_kind c)).
  - rewrite !sapp_assoc. unfold after_label.
    destruct (c_charset c) as [s|], (c_collate c) as [s'|]; simpl; try (destruct (truthy s)); try (destruct (truthy s')); reflexivity.
  - rewrite sapp_nil_r. reflexivity.
Qed.

Lemma head_soft c : good_column (with_default c DNone) = true -> soft (join " " (head_parts c)) (head_tokens c).
Proof.
  intros G. set (c0 := mkColumn (c_kind c) (c_name c) (c_rawtype c) (c_length c) (c_null c) (c_has_default c) DNone (c_unsigned c)
    (c_rawcharset c) (c_rawcollate c) None (c_enum_values c) (c_perrors c) (c_pwarnings c)).
  pose proof (soft_column_base c0 G) as B. unfold column_str_base in B. cbn in B. unfold head_parts, head_tokens.
  rewrite !app_nil_r in B. exact B.
Qed.

Lemma tail_breaks c : breaks (tail_text c) = true.
Proof.
  unfold tail_text, after_label. destruct (tru_ob (c_autoinc c)); [reflexivity|]. destruct (is_string_kind (c_kind c)); [|reflexivity].
  destruct (c_charset c) as [s|], (c_collate c) as [s'|]; simpl; try (destruct (truthy s)); try (destruct (truthy s')); reflexivity.
Qed.

Lemma tail_lex c : good_column (with_default c DNone) = true -> lex LStart (tail_text c) = Some (tail_tokens c).
Proof.
  intros G. set (c1 := with_default c (DStr "x")). assert (G1 : good_column c1 = true).
  { unfold good_column in *. cbn in *. exact G. }
  pose proof (soft_end _ _ (soft_column c1 G1)) as T. unfold tokens in T. rewrite (column_text c1 "DEFAULT 'x'" eq_refl) in T.
  rewrite (head_soft c1 G1) in T by reflexivity.
  change (lex LStart (" " ++ "DEFAULT 'x'" ++ tail_text c1)) with (pre [TWord "DEFAULT"] (lex (LTextEnd squote "x") (tail_text c1))) in T.
  rewrite ltext_breaks in T by apply tail_breaks.
  replace (column_tokens c1) with (head_tokens c1 +++ ([TWord "DEFAULT"] +++ ([TText "x"] +++ tail_tokens c1))) in T.
  - apply pre_inj, pre_inj, pre_inj in T. exact T.
  - unfold column_tokens, head_tokens, tail_tokens. rewrite <- !app_assoc. reflexivity.
Qed.

(** A literal that runs over its end stops at the next quote, which is always behind a space. *)
Lemma ltext_open : forall w a, good_text w = true -> lex (LText squote a) w = None.
Proof.
  unfold good_text, has_char. induction w as [|c w IH]; intros a G; [reflexivity|]. cbn [sexists] in G.
  apply negb_true_iff, orb_false_iff in G as [G1 G2]. apply orb_false_iff in G1 as [Q1 G1], G2 as [B1 G2]. cbn [lex].
  rewrite (Ascii.eqb_sym c squote), Q1, (Ascii.eqb_sym c backslash), B1. apply IH. rewrite G1, G2. reflexivity.
Qed.
Lemma next_label w x r a u l : good_text w = true -> truthy x = true -> good_text x = true ->
  lex (LText squote a) ((w ++ " ") ++ String squote (x ++ r)) = Some (TText u :: l) -> exists v, u = v ++ " ".
Proof.
  intros W T X E. rewrite ltext_plain in E.
  - destruct x as [|c x]; [discriminate|]. cbn [append lex] in E. assert (Q : Ascii.eqb c squote = false).
    { unfold good_text, has_char in X. cbn [sexists] in X. apply negb_true_iff, orb_false_iff in X as [X _].
      apply orb_false_iff in X as [X _]. rewrite Ascii.eqb_sym. exact X. }
    rewrite Q in E. match type of E with pre _ ?o = _ => destruct o; [|discriminate] end. injection E as <- _.
    exists (a ++ w). rewrite sapp_assoc. reflexivity.
  - unfold good_text in *. rewrite !has_char_app. apply negb_true_iff, orb_false_iff in W as [-> ->]. reflexivity.
Qed.
Lemma tail_leak c a u l : good_column (with_default c DNone) = true ->
  lex (LText squote a) (tail_text c) = Some (TText u :: l) -> exists v, u = v ++ " ".
Proof.
  unfold good_column. rewrite !andb_true_iff. intros [[_ G5] G6] E. cbn in G5, G6.
  change (good_otext (c_charset c) = true) in G5. change (good_otext (c_collate c) = true) in G6. unfold tail_text in E.
  set (A := if tru_ob (c_autoinc c) then " AUTO_INCREMENT" else "") in E.
  assert (GA : good_text A = true) by (unfold A; destruct (tru_ob (c_autoinc c)); reflexivity).
  assert (GB : forall w, good_text w = true -> good_text (A ++ w) = true).
  { intros w W. unfold good_text in *. rewrite !has_char_app. apply negb_true_iff, orb_false_iff in W as [-> ->].
    apply negb_true_iff, orb_false_iff in GA as [-> ->]. reflexivity. }
  destruct (is_string_kind (c_kind c)); [|rewrite ltext_open in E; [discriminate|apply GB; reflexivity]].
  destruct (c_charset c) as [s|] eqn:C; cbn [after_label good_otext] in E, G5.
  { destruct (truthy s) eqn:Ts.
    - refine (next_label (A ++ " CHARACTER SET") s _ a u l _ Ts G5 _); [apply GB; reflexivity|]. rewrite <- E.
      rewrite !sapp_assoc. reflexivity.
    - destruct (c_collate c) as [s'|] eqn:D; cbn [after_label good_otext] in E, G6; [destruct (truthy s') eqn:Ts'|].
      + refine (next_label (A ++ " COLLATE") s' _ a u l _ Ts' G6 _); [apply GB; reflexivity|]. rewrite <- E.
        rewrite !sapp_assoc. reflexivity.
      + rewrite ltext_open in E; [discriminate|apply GB; reflexivity].
      + rewrite ltext_open in E; [discriminate|apply GB; reflexivity]. }
  destruct (c_collate c) as [s'|] eqn:D; cbn [after_label good_otext] in E, G6; [destruct (truthy s') eqn:Ts'|].
  - refine (next_label (A ++ " COLLATE") s' _ a u l _ Ts' G6 _); [apply GB; reflexivity|]. rewrite <- E.
    rewrite !sapp_assoc. reflexivity.
  - rewrite ltext_open in E; [discriminate|apply GB; reflexivity].
  - rewrite ltext_open in E; [discriminate|apply GB; reflexivity].
Qed.

Section Over.
  Context (r : string) (Br : breaks r = true).
  Context (Leak : forall a u l, lex (LText squote a) r = Some (TText u :: l) -> exists v, u = v ++ " ").
  Definition ends (s : string) : Prop := exists s' q, s = s' ++ String q "" /\ (q = squote \/ q = backslash).
  Lemma ends_cons c s : ends s -> ends (String c s).
  Proof. intros (s' & q & -> & Q). exists (String c s'), q. auto. Qed.

  Lemma tail_shorter : forall s a u l, lex (LText squote a) (s ++ String squote r) = Some (TText u :: l) ->
    (String.length u + (if verbatimb s then 0 else 1) <= String.length a + String.length s)%nat
    \/ (exists v, u = v ++ " ") /\ ends s.
  Proof.
    refine (string_ind2 _ _). intros n IH s L a u l E. destruct s as [|c s].
    - cbn [append lex] in E. rewrite Ascii.eqb_refl, ltext_breaks in E by exact Br.
      destruct (lex LStart r); [|discriminate]. injection E as <- _. left. simpl. lia.
    - cbn [verbatimb]. cbn [append lex] in E. cbn [String.length] in L. destruct (Ascii.eqb_spec c squote) as [->|Nq].
      + destruct s as [|d s]; cbn [append lex] in E.
        * rewrite Ascii.eqb_refl in E. right. split; [eapply Leak, E|]. exists "", squote. auto.
        * destruct (Ascii.eqb d squote).
          -- apply IH in E as [E|[E1 E2]]; [left|right; split; [exact E1|apply ends_cons, ends_cons, E2]|simpl in L; lia].
             unfold snoc in E. rewrite slength_app in E. simpl in E |- *. destruct (verbatimb s); lia.
          -- match type of E with pre _ ?x = _ => destruct x; [|discriminate] end. injection E as <- _. left. simpl. lia.
      + destruct (Ascii.eqb_spec c backslash) as [->|Nb].
        * destruct s as [|d s]; cbn [append lex] in E.
          -- right. split; [eapply Leak, E|]. exists "", backslash. auto.
          -- apply IH in E as [E|[E1 E2]]; [left|right; split; [exact E1|apply ends_cons, ends_cons, E2]|simpl in L; lia].
             rewrite slength_app in E. cbn [String.length]. unfold unescape in E.
             destruct (Ascii.eqb_spec d "%") as [->|N1]; [cbn in E |- *; destruct (verbatimb s); lia|].
             destruct (Ascii.eqb_spec d "_") as [->|N2]; [cbn in E |- *; destruct (verbatimb s); lia|].
             cbn [orb andb]. repeat match type of E with context [Ascii.eqb d ?x] => destruct (Ascii.eqb d x) end; simpl in E; destruct (verbatimb s); lia.
        * apply IH in E as [E|[E1 E2]]; [left|right; split; [exact E1|apply ends_cons, E2]|lia].
          unfold snoc in E. rewrite slength_app in E. simpl in E |- *. destruct (verbatimb s); lia.
  Qed.
End Over.

Lemma ltext_head : forall s q a l,
  (lex (LText q a) s = Some l -> exists u l', l = TText u :: l')
  /\ (lex (LEscape q a) s = Some l -> exists u l', l = TText u :: l')
  /\ (lex (LTextEnd q a) s = Some l -> exists u l', l = TText u :: l').
Proof.
  induction s as [|c s IH]; intros q a l.
  - repeat split; cbn; intros E; try discriminate. injection E as <-. eauto.
  - cbn [lex]. split; [|split].
    + destruct (Ascii.eqb c q); [apply IH|]. destruct (Ascii.eqb c backslash); apply IH.
    + apply IH.
    + destruct (Ascii.eqb c q); [apply IH|]. intros E. match type of E with pre _ ?x = _ => destruct x; [|discriminate] end.
      injection E as <-. cbn. eauto.
Qed.

Lemma number_length t : isdigit t = true -> (String.length (str_of_N (valN t 0)) <= String.length t)%nat.
Proof.
  induction t as [|c t IH]; intros D; [discriminate|]. destruct (canonical (String c t)) eqn:C; [rewrite canonical_str by exact C; lia|].
  unfold canonical in C. rewrite D in C. destruct t as [|d t]; [discriminate|]. cbn [andb] in C. apply negb_false_iff, Ascii.eqb_eq in C. subst c.
  change (valN (String "0" (String d t)) 0) with (valN (String d t) 0).
  assert (D' : isdigit (String d t) = true).
  { unfold isdigit in *. cbn [truthy sforall] in *. apply andb_true_iff in D as [_ D]. apply andb_true_iff in D as [_ D]. exact D. }
  specialize (IH D'). cbn [String.length] in *. lia.
Qed.

Lemma last_two s x y a b : s = a ++ String x "" -> s = b ++ String y "" -> x = y.
Proof.
  intros -> E. revert b E. induction a as [|c a IH]; intros [|d b] E; cbn in E.
  - congruence.
  - destruct b; discriminate.
  - destruct a; discriminate.
  - injection E as _ E. eauto.
Qed.

Lemma default_text_of c s : c_default c = DStr s -> isdigit s = false ->
  column_str c = join " " (head_parts c) ++ " DEFAULT '" ++ s ++ String squote (tail_text c).
Proof.
  intros D I. destruct (is_empty s) eqn:Em.
  - apply is_empty_iff in Em. subst s. rewrite (column_text c "DEFAULT ''"); [reflexivity|]. rewrite D. reflexivity.
  - rewrite (column_text c ("DEFAULT '" ++ s ++ "'")); [|rewrite D; cbn; rewrite Em, I; reflexivity].
    rewrite !sapp_assoc. reflexivity.
Qed.
Lemma digits_text_of c s : c_default c = DStr s -> isdigit s = true ->
  column_str c = join " " (head_parts c) ++ " DEFAULT " ++ s ++ tail_text c.
Proof.
  intros D I. assert (Em : is_empty s = false) by (destruct s; [discriminate|reflexivity]).
  rewrite (column_text c ("DEFAULT " ++ s)); [|rewrite D; cbn; rewrite Em, I; reflexivity]. rewrite !sapp_assoc. reflexivity.
Qed.

(** The statement carries the text [s] to the server, in the place of the default and with everything
    around it intact, exactly if [s] is a number without leading zeros, or not made of digits only and
    without quotes and backslashes other than those before % and _.  For every column whose other
    parts are harmless. *)
Theorem C31_exact : forall c s, good_column (with_default c DNone) = true -> c_default c = DStr s ->
  ((exists literal, tokens (column_str c) = Some (head_tokens c +++ [TWord "DEFAULT"] +++ literal +++ tail_tokens c)
      /\ literal_value literal = Some s)
   <-> if isdigit s then forall r, s = String "0" r -> r = "" else verbatim s).
Proof.
  intros c s G D. destruct (isdigit s) eqn:I.
  - unfold tokens. rewrite (digits_text_of c s D I), (head_soft c G) by reflexivity.
    change (lex LStart (" DEFAULT " ++ s ++ tail_text c)) with (pre [TWord "DEFAULT"] (lex LStart (s ++ tail_text c))).
    assert (W : soft s [TWord s]).
    { pose proof I as I'. unfold isdigit in I'. apply andb_true_iff in I' as [D1 D2]. apply soft_word; [exact D1| |].
      + eapply sforall_imp; [|exact D2]. intros x Hx. apply digit_word, Hx.
      + apply negb_true_iff. rewrite <- sforall_not. eapply sforall_imp; [|exact D2].
        intros x Hx. rewrite (proj2 (digit_word x Hx)). reflexivity. }
    rewrite W by apply tail_breaks. rewrite (tail_lex c G). split.
    + intros (lit & E & V). cbn [pre option_map] in E. injection E as E. apply app_inv_head in E. cbn [app] in E.
      injection E as E. change (TWord s :: tail_tokens c) with ([TWord s] +++ tail_tokens c) in E. apply app_inv_tail in E. subst lit.
      cbn [literal_value] in V. intros r ->. rewrite py_int_digits in V by exact I. cbn [option_map] in V. injection V as V.
      rewrite str_of_Z_N in V. destruct r as [|d r]; [reflexivity|exfalso].
      assert (D' : isdigit (String d r) = true).
      { unfold isdigit in *. cbn [truthy sforall] in *. apply andb_true_iff in I as [_ I]. apply andb_true_iff in I as [_ I]. exact I. }
      pose proof (number_length _ D') as Hd. change (valN (String "0" (String d r)) 0) with (valN (String d r) 0) in V.
      rewrite V in Hd. cbn [String.length] in Hd. lia.
    + intros Z. exists [TWord s]. split; [reflexivity|]. cbn [literal_value]. apply canonical_py_int. unfold canonical. rewrite I.
      destruct s as [|d [|e x]]; auto. apply negb_true_iff. destruct (Ascii.eqb_spec d "0") as [->|]; [|reflexivity].
      specialize (Z _ eq_refl). discriminate.
  - unfold tokens. rewrite (default_text_of c s D I), (head_soft c G) by reflexivity. rewrite <- verbatim_iff.
    change (lex LStart (" DEFAULT '" ++ s ++ String squote (tail_text c))) with (pre [TWord "DEFAULT"] (lex (LText squote "") (s ++ String squote (tail_text c)))).
    split.
    + intros (lit & E & V). apply pre_inj, pre_inj in E.
      assert (X : lit = [TText s]).
      { assert (Hd : exists u l, lit +++ tail_tokens c = TText u :: l).
        { destruct (proj1 (ltext_head _ _ _ _) E) as (u & l & X). eauto. }
        destruct Hd as (u & l & Hd). destruct lit as [|t lit]; [discriminate V|]. injection Hd as -> _.
        destruct lit; cbn in V; [congruence|discriminate]. }
      subst lit. cbn [app] in E. apply tail_shorter in E; [|apply tail_breaks|intros; eapply tail_leak; eassumption].
      destruct E as [E|[(v & E) (s' & q & E' & Q)]].
      * cbn in E. destruct (verbatimb s); [reflexivity|lia].
      * exfalso. pose proof (last_two s " " q v s' E E') as X. destruct Q; subst q; discriminate.
    + intros V. exists [TText s]. split; [|reflexivity]. rewrite ltext_verbatim by exact V. cbn [append].
      rewrite ltext_breaks by apply tail_breaks. rewrite (tail_lex c G). reflexivity.
Qed.

(** A text, a number, a text with an escaped percent sign; next to columns of every other shape. *)
Example ex_C31_exact :
  let c d := mkColumn KString "a" "varchar" (LStr "9") false true d None (Some "utf8") (Some "utf8_bin") None None [] [] in
  good_column (with_default (c (DStr "it's")) DNone) = true
  /\ verbatim "5\% (x)" /\ ~ verbatim "it's" /\ isdigit "it's" = false /\ isdigit "007" = true.
Proof. cbv zeta. rewrite <- !verbatim_iff. repeat split; try reflexivity. discriminate. Qed.

Print Assumptions C31_exact.
