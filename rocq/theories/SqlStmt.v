(** Every rendered operation reads as the statement it stands for. *)
From Verif Require Export SqlFacts.

Lemma join_quoted q sep l : l <> [] -> q ++ join (q ++ sep ++ q) l ++ q = join sep (map (fun x => q ++ x ++ q) l).
Proof.
  induction l as [|a [|b l] IH]; intros N; [contradiction|reflexivity|].
  change (join (q ++ sep ++ q) (a :: b :: l)) with (a ++ (q ++ sep ++ q) ++ join (q ++ sep ++ q) (b :: l)).
  change (join sep (map (fun x => q ++ x ++ q) (a :: b :: l)))
    with ((q ++ a ++ q) ++ sep ++ join sep (map (fun x => q ++ x ++ q) (b :: l))).
  rewrite <- IH by discriminate. rewrite !sapp_assoc. reflexivity.
Qed.

Lemma space_soft a ts : soft a ts -> soft (" " ++ a) ts.
Proof. intros H r B. apply (H r B). Qed.
Lemma space_hard a ts : hard a ts -> hard (" " ++ a) ts.
Proof. intros H r. apply (H r). Qed.
Lemma hard_parens s ts : soft s ts -> hard ("(" ++ s ++ ")") (parens ts).
Proof.
  intros S. unfold parens. change (TPunct "(" :: ts +++ [TPunct ")"]) with ([TPunct "("] +++ ts +++ [TPunct ")"]).
  apply hard_app; [lit|]. apply soft_hard_app; [exact S|reflexivity|lit].
Qed.
Lemma hard_names l : l <> [] -> forallb good_name l = true -> hard ("(`" ++ join "`,`" l ++ "`)") (names l).
Proof.
  intros N G. replace ("(`" ++ join "`,`" l ++ "`)") with ("(" ++ join "," (map bq l) ++ ")").
  - apply hard_parens. apply soft_commas; [lit|reflexivity|]. apply Forall2_map. intros a Ha. apply soft_name.
    rewrite forallb_forall in G. apply G, Ha.
  - change (map bq l) with (map (fun x => "`" ++ x ++ "`") l). rewrite <- (join_quoted "`" "," l N). rewrite !sapp_assoc. reflexivity.
Qed.

Lemma Forall2_opt {A B} (R : A -> B -> Prop) (b : bool) x y : R x y ->
  Forall2 R (if b then [x] else []) (if b then [y] else []).
Proof. destruct b; auto. Qed.

Lemma plain_str_of_Z z : plain (str_of_Z z) = true.
Proof.
  assert (D : forall f n acc, plain acc = true -> plain (digits_of_pos_fuel f n acc) = true).
  { induction f as [|f IH]; intros n acc P; simpl; [exact P|].
    assert (P' : plain (String (digit_char (n mod 10)) acc) = true).
    { unfold plain in *. cbn [sforall]. rewrite P, andb_true_r. assert (n mod 10 < 10)%N by (apply N.mod_lt; discriminate).
      remember (n mod 10)%N as d eqn:Ed. clear Ed. unfold digit_char.
      destruct d as [|p]; [reflexivity|]. do 4 (destruct p; try reflexivity; try lia). }
    destruct (N.ltb n 10); [exact P'|]. apply IH, P'. }
  assert (E : plain "" = true) by reflexivity.
  unfold str_of_Z, str_of_N. destruct z as [|p|p]; [reflexivity|apply D, E|].
  specialize (D (S (N.to_nat (N.size (N.pos p)))) (N.pos p) "" E). unfold plain in *. cbn [append sforall]. rewrite D. reflexivity.
Qed.

Lemma soft_type c : plain (c_type c) = true ->
  match c_enum_values c with Some (v :: vs) => forallb good_text (v :: vs) | _ => good_length (c_length c) end = true ->
  soft (type_string c) (type_tokens c).
Proof.
  intros P G. unfold type_string, type_tokens.
  assert (L : good_length (c_length c) = true ->
    soft (if length_shown (c_length c) then c_type c ++ "(" ++ length_str (c_length c) ++ ")" else c_type c)
      (if length_shown (c_length c) then free (c_type c) +++ parens (free (length_str (c_length c))) else free (c_type c))).
  { intros H. destruct (length_shown (c_length c)); [|apply soft_free, P].
    apply soft_soft_app; [apply soft_free, P|reflexivity|]. apply hard_soft, hard_parens, soft_free.
    destruct (c_length c); simpl in *; auto; [apply plain_str_of_Z|discriminate]. }
  destruct (c_enum_values c) as [[|v vs]|]; auto.
  replace (c_type c ++ "('" ++ join "', '" (v :: vs) ++ "')")
    with (c_type c ++ "(" ++ join ", " (map (fun x => "'" ++ x ++ "'") (v :: vs)) ++ ")").
  - apply soft_soft_app; [apply soft_free, P|reflexivity|]. apply hard_soft, hard_parens. apply soft_commas; [lit|reflexivity|].
    apply Forall2_map. intros x Hx. apply soft_text. rewrite forallb_forall in G. apply G, Hx.
  - rewrite <- (join_quoted "'" ", " (v :: vs)) by discriminate. rewrite !sapp_assoc. reflexivity.
Qed.

Lemma digit_word c : is_digit c = true -> sql_word c = true /\ sql_space c = false.
Proof.
  intros D. unfold sql_word, is_word. rewrite D. split; [rewrite !orb_true_r; reflexivity|].
  unfold is_digit, in_range, sql_space in *. apply andb_true_iff in D as [D1 D2]. apply N.leb_le in D1, D2.
  rewrite orb_false_iff. split; [unfold in_range; apply andb_false_iff; right; apply N.leb_gt; lia|].
  destruct (Ascii.eqb_spec c " "); [subst; cbv in D1; exfalso; apply D1; reflexivity|reflexivity].
Qed.
Lemma soft_default d : good_default d = true ->
  Forall2 soft (default_parts d) (match d with DNone => [] | _ => [default_tokens d] end).
Proof.
  destruct d as [|s|z]; simpl; intros G; [constructor| |].
  - destruct s as [|c s]; [constructor; [|constructor]; intros r B; change (lex LStart ("DEFAULT ''" ++ r)) with (pre [TWord "DEFAULT"] (lex (LTextEnd squote "") r));
      rewrite ltext_breaks by exact B; rewrite <- pre_app; reflexivity|].
    change (is_empty (String c s)) with false. cbn iota. destruct (isdigit (String c s)) eqn:D; (constructor; [|constructor]).
    + apply (hard_soft_app "DEFAULT " _ [TWord "DEFAULT"]); [lit|].
      unfold isdigit in D. apply andb_true_iff in D as [D1 D2]. apply soft_word; [exact D1| |].
      * eapply sforall_imp; [|exact D2]. intros x Hx. apply digit_word, Hx.
      * apply negb_true_iff. rewrite <- sforall_not. eapply sforall_imp; [|exact D2].
        intros x Hx. rewrite (proj2 (digit_word x Hx)). reflexivity.
    + change ("DEFAULT '" ++ String c s ++ "'") with ("DEFAULT " ++ ("'" ++ String c s ++ "'")).
      apply (hard_soft_app "DEFAULT " _ [TWord "DEFAULT"]); [lit|]. apply soft_text, G.
  - constructor; [|constructor]. apply (hard_soft_app "DEFAULT " _ [TWord "DEFAULT"]); [lit|]. apply soft_free, plain_str_of_Z.
Qed.

Lemma soft_column_base c : good_column c = true ->
  soft (column_str_base c)
    ([TName (c_name c)] +++ type_tokens c
     +++ (if tru_ob (c_unsigned c) then [TWord "UNSIGNED"] else [])
     +++ (if c_null c then [] else [TWord "NOT"; TWord "NULL"])
     +++ default_tokens (c_default c)
     +++ (if tru_ob (c_autoinc c) then [TWord "AUTO_INCREMENT"] else [])).
Proof.
  unfold good_column. rewrite !andb_true_iff. intros [[[[[G1 G2] G3] G4] G5] G6]. unfold column_str_base.
  match goal with |- soft _ ?x => replace x with (concat ([[TName (c_name c)]; type_tokens c]
    +++ (if tru_ob (c_unsigned c) then [[TWord "UNSIGNED"]] else [])
    +++ (if c_null c then [] else [[TWord "NOT"; TWord "NULL"]])
    +++ match c_default c with DNone => [] | _ => [default_tokens (c_default c)] end
    +++ (if tru_ob (c_autoinc c) then [[TWord "AUTO_INCREMENT"]] else []))) end.
  - apply soft_spaces. apply Forall2_app; [|apply Forall2_app; [|apply Forall2_app; [|apply Forall2_app]]].
    + constructor; [apply (soft_name _ G1)|]. constructor; [apply soft_type; assumption|constructor].
    + apply Forall2_opt. apply soft_word; reflexivity.
    + destruct (c_null c); constructor; [|constructor]. apply (hard_soft_app "NOT " "NULL" [TWord "NOT"] [TWord "NULL"]); [lit|apply soft_word; reflexivity].
    + apply soft_default, G4.
    + apply Forall2_opt. apply soft_word; reflexivity.
  - rewrite !concat_app. cbn [concat]. rewrite !app_nil_r. rewrite <- !app_assoc. repeat f_equal;
      repeat match goal with |- context [match ?x with _ => _ end] => destruct x end;
      cbn [concat]; rewrite ?app_nil_r; reflexivity.
Qed.

Lemma soft_labelled pre0 ws o : hard (pre0 ++ " ") ws -> opens pre0 = true -> good_otext o = true -> forall s ts, soft s ts ->
  soft (s ++ match o with Some x => if truthy x then pre0 ++ " '" ++ x ++ "'" else "" | None => "" end) (ts +++ labelled ws o).
Proof.
  intros H O G s ts S. destruct o as [x|]; unfold labelled; [|rewrite sapp_nil_r, app_nil_r; exact S].
  destruct (truthy x) eqn:T; [|rewrite sapp_nil_r, app_nil_r; exact S].
  change (" '" ++ x ++ "'") with (" " ++ ("'" ++ x ++ "'")). rewrite <- (sapp_assoc pre0).
  apply soft_soft_app; [exact S|destruct pre0; [discriminate|exact O]|].
  apply hard_soft_app; [exact H|]. apply soft_text, G.
Qed.

Lemma soft_column c : good_column c = true -> soft (column_str c) (column_tokens c).
Proof.
  intros G. pose proof (soft_column_base c G) as B. unfold good_column in G. rewrite !andb_true_iff in G.
  destruct G as [[[[[G1 G2] G3] G4] G5] G6]. unfold column_str, column_tokens.
  destruct (is_string_kind (c_kind c)).
  - pose proof (soft_labelled " CHARACTER SET" [TWord "CHARACTER"; TWord "SET"] (c_charset c) ltac:(lit) eq_refl G5 _ _ B) as L1.
    pose proof (soft_labelled " COLLATE" [TWord "COLLATE"] (c_collate c) ltac:(lit) eq_refl G6 _ _ L1) as L2.
    rewrite !sapp_assoc in L2. rewrite <- !app_assoc in L2. exact L2.
  - rewrite app_nil_r. exact B.
Qed.

Lemma soft_index i : good_index i = true -> soft (index_str i) (index_tokens i).
Proof.
  unfold good_index. rewrite !andb_true_iff. intros [[G1 G2] G3]. unfold index_str, index_tokens.
  match goal with |- soft _ ?x => replace x with (concat ((match ix_type i with IPrimary => [[TWord "PRIMARY"]] | IUnique => [[TWord "UNIQUE"]] | IIndex => [] end)
    +++ [[TWord "KEY"]] +++ (if truthy (ix_rawname i) then [[TName (ix_name i)]] else []) +++ [names (ix_columns i)])) end.
  - apply soft_spaces. apply Forall2_app; [|apply Forall2_app; [|apply Forall2_app]].
    + destruct (ix_type i); repeat constructor; apply soft_word; reflexivity.
    + repeat constructor; apply soft_word; reflexivity.
    + apply Forall2_opt. apply (soft_name _ G1).
    + repeat constructor. apply hard_soft. apply hard_names; [|exact G2]. destruct (ix_columns i); [discriminate|discriminate].
  - rewrite !concat_app. cbn [concat]. rewrite !app_nil_r. destruct (ix_type i), (truthy (ix_rawname i)); reflexivity.
Qed.

Lemma soft_constraint k : good_constraint k = true -> soft (constraint_str k) (constraint_tokens k).
Proof.
  unfold good_constraint. rewrite !andb_true_iff. intros [[[[[G1 G2] G3] G4] G5] G6]. unfold constraint_str, constraint_tokens.
  match goal with |- soft _ ?x => replace x with (concat [[TWord "CONSTRAINT"]; [TName (k_name k)]; [TWord "FOREIGN"; TWord "KEY"];
    names [k_column k]; [TWord "REFERENCES"]; [TName (k_ftable k)]; names [k_fcolumn k];
    [TWord "ON"; TWord "DELETE"] +++ free (k_on_delete k); [TWord "ON"; TWord "UPDATE"] +++ free (k_on_update k)]) end.
  - apply soft_spaces. constructor; [apply soft_word; reflexivity|]. constructor; [apply (soft_name _ G1)|].
    constructor; [apply (hard_soft_app "FOREIGN " "KEY" [TWord "FOREIGN"] [TWord "KEY"]); [lit|apply soft_word; reflexivity]|].
    constructor; [apply hard_soft, (hard_names [k_column k]); [discriminate|simpl; rewrite G2; reflexivity]|].
    constructor; [apply soft_word; reflexivity|]. constructor; [apply (soft_name _ G3)|].
    constructor; [apply hard_soft, (hard_names [k_fcolumn k]); [discriminate|simpl; rewrite G4; reflexivity]|].
    constructor; [apply (hard_soft_app "ON DELETE " _ [TWord "ON"; TWord "DELETE"]); [lit|apply soft_free, G5]|].
    constructor; [apply (hard_soft_app "ON UPDATE " _ [TWord "ON"; TWord "UPDATE"]); [lit|apply soft_free, G6]|]. constructor.
  - cbn [concat]. rewrite app_nil_r. rewrite <- !app_assoc. reflexivity.
Qed.

Lemma soft_clause o : good_clause o = true -> (forall c, o <> RemoveColumn c) -> soft (aop_str o) (clause_tokens o).
Proof.
  destruct o as [c p|c|c|i|i|i|k|k|k]; cbn [good_clause aop_str clause_tokens]; intros G NR.
  - apply andb_true_iff in G as [G1 G2]. apply (hard_soft_app "ADD " _ [TWord "ADD"]); [lit|].
    destruct p as [| |a].
    + rewrite sapp_nil_r, app_nil_r. apply soft_column, G1.
    + apply soft_soft_app; [apply soft_column, G1|reflexivity|].
      intros r B. change (lex LStart (" FIRST" ++ r)) with (lex (LWord "FIRST") r). apply lword_breaks, B.
    + apply soft_soft_app; [apply soft_column, G1|reflexivity|]. apply (hard_soft_app " AFTER " _ [TWord "AFTER"]); [lit|apply soft_name, G2].
  - apply (hard_soft_app "CHANGE " _ [TWord "CHANGE"]); [lit|]. apply (soft_soft_app (bq (c_name c)) _ [TName (c_name c)]).
    + apply soft_name. unfold good_column in G. rewrite !andb_true_iff in G. tauto.
    + reflexivity.
    + apply (hard_soft_app " " _ []); [lit|apply soft_column, G].
  - exfalso. apply (NR c). reflexivity.
  - apply (hard_soft_app "ADD " _ [TWord "ADD"]); [lit|apply soft_index, G].
  - apply (hard_soft_app "DROP KEY " _ [TWord "DROP"; TWord "KEY"]); [lit|].
    apply (soft_soft_app (bq (ix_name i)) _ [TName (ix_name i)]).
    + apply soft_name. unfold good_index in G. rewrite !andb_true_iff in G. tauto.
    + reflexivity.
    + apply (hard_soft_app ", ADD " _ [TPunct ","; TWord "ADD"]); [lit|apply soft_index, G].
  - destruct (is_primary i).
    + apply (hard_soft_app "DROP PRIMARY " "KEY" [TWord "DROP"; TWord "PRIMARY"] [TWord "KEY"]); [lit|apply soft_word; reflexivity].
    + apply (hard_soft_app "DROP KEY " _ [TWord "DROP"; TWord "KEY"]); [lit|].
      apply soft_name. unfold good_index in G. rewrite !andb_true_iff in G. tauto.
  - apply (hard_soft_app "ADD " _ [TWord "ADD"]); [lit|apply soft_constraint, G].
  - assert (N : good_name (k_name k) = true) by (unfold good_constraint in G; rewrite !andb_true_iff in G; tauto).
    apply (hard_soft_app "DROP FOREIGN KEY " _ [TWord "DROP"; TWord "FOREIGN"; TWord "KEY"]); [lit|].
    apply (soft_soft_app (bq (k_name k)) _ [TName (k_name k)]); [apply soft_name, N|reflexivity|].
    apply (hard_soft_app ", ADD " _ [TPunct ","; TWord "ADD"]); [lit|apply soft_constraint, G].
  - assert (N : good_name (k_name k) = true) by (unfold good_constraint in G; rewrite !andb_true_iff in G; tauto).
    apply (hard_soft_app "DROP FOREIGN KEY " _ [TWord "DROP"; TWord "FOREIGN"; TWord "KEY"]); [lit|]. apply soft_name, N.
Qed.

Lemma soft_options l : forallb good_option l = true -> forall s ts, soft s ts ->
  soft (s ++ (if list_is_nil (map (fun o => o_name o ++ "=" ++ o_value o) l) then "" else " " ++ join " " (map (fun o => o_name o ++ "=" ++ o_value o) l)))
    (ts +++ concat (map (fun o => free (o_name o) +++ [TPunct "="] +++ free (o_value o)) l)).
Proof.
  intros G s ts S. destruct l as [|o l]; [simpl; rewrite sapp_nil_r, app_nil_r; exact S|].
  change (list_is_nil (map _ (o :: l))) with false. cbn iota. apply soft_soft_app; [exact S|reflexivity|].
  apply space_soft, soft_spaces. apply Forall2_map. intros a Ha. rewrite forallb_forall in G.
  apply G in Ha. unfold good_option in Ha. apply andb_true_iff in Ha as [H1 H2].
  apply soft_soft_app; [apply soft_free, H1|reflexivity|]. apply (hard_soft_app "=" _ [TPunct "="]); [lit|apply soft_free, H2].
Qed.

Lemma soft_where id : good_text id = true -> hard (" WHERE id='" ++ id ++ "';") (where_id id).
Proof.
  intros G. change (" WHERE id='" ++ id ++ "';") with (" WHERE id=" ++ ("'" ++ id ++ "';")).
  replace ("'" ++ id ++ "';") with (("'" ++ id ++ "'") ++ ";") by (rewrite !sapp_assoc; reflexivity).
  unfold where_id. apply (hard_app " WHERE id=" _ [TWord "WHERE"; TWord "id"; TPunct "="] [TText id; TPunct ";"]); [lit|].
  apply (soft_hard_app _ ";" [TText id] [TPunct ";"]); [apply soft_text, G|reflexivity|lit].
Qed.

Lemma map_commas_pairs {A} (f : A -> string) (g : A -> list tok) sep l :
  hard sep [TPunct ","] -> opens sep = true -> (forall a, In a l -> soft (f a) (g a)) -> soft (join sep (map f l)) (commas (map g l)).
Proof. intros H O F. apply soft_commas; auto. apply Forall2_map, F. Qed.

Lemma create_body_soft t : good_op (OCreate t) = true ->
  soft (join ("," ++ nl) (create_body "" t))
   (commas (map column_tokens (dvals (t_columns t)) +++ map index_tokens (dvals (t_indexes t))
            +++ map constraint_tokens (dvals (t_constraints t)))).
Proof.
  simpl. rewrite !andb_true_iff, !forallb_forall. intros [[[[G1 G2] G3] G4] G5]. apply soft_commas; [lit|reflexivity|].
  unfold create_body. repeat apply Forall2_app; apply Forall2_map; intros a Ha.
  - apply soft_column. auto.
  - apply soft_index. auto.
  - apply soft_constraint. auto.
Qed.

Lemma op_reads o : good_op o = true -> quoted o = true -> tokens (op_str o) = Some (op_tokens o).
Proof.
  intros G Q. apply soft_end, hard_soft. destruct o as [t|a|n| | |t d|t d|t id]; try lit.
  - pose proof (create_body_soft t G) as B. simpl in G. rewrite !andb_true_iff in G. destruct G as [[[[G1 G2] G3] G4] G5].
    unfold op_str, create_str, op_tokens. cbn iota.
    apply (hard_app "CREATE TABLE " _ [TWord "CREATE"; TWord "TABLE"]); [lit|].
    apply (soft_hard_app _ _ [TName (t_name t)]); [apply soft_name, G1|reflexivity|].
    pose proof (hard_soft _ _ (hard_parens _ _ B)) as P.
    pose proof (soft_options (t_options t) G5 _ _ P) as O.
    pose proof (soft_hard_app _ ";" _ [TPunct ";"] O eq_refl ltac:(lit)) as H.
    pose proof (space_hard _ _ H) as H'.
    rewrite !sapp_assoc in H'. rewrite <- !app_assoc in H'. exact H'.
  - simpl in G, Q. apply andb_true_iff in G as [G1 G2]. unfold op_str, alter_str, op_tokens.
    apply (hard_app "ALTER TABLE " _ [TWord "ALTER"; TWord "TABLE"]); [lit|].
    apply (soft_hard_app _ _ [TName (al_table a)]); [apply soft_name, G1|reflexivity|].
    apply space_hard. apply soft_hard_app; [|reflexivity|lit].
    apply map_commas_pairs; [lit|reflexivity|]. rewrite forallb_forall in G2, Q. intros x Hx. apply soft_clause; [auto|].
    intros c ->. apply Q in Hx. discriminate.
  - discriminate.
  - simpl in G. apply andb_true_iff in G as [G1 G2]. unfold op_str, insert_str, op_tokens.
    apply (hard_app "INSERT INTO " _ [TWord "INSERT"; TWord "INTO"]); [lit|].
    apply (soft_hard_app _ _ [TName t]); [apply soft_name, G1|reflexivity|].
    assert (N : hard ("(" ++ join ", " (map bq (dkeys d)) ++ ")") (names (dkeys d))).
    { apply hard_parens. apply map_commas_pairs; [lit|reflexivity|]. intros x Hx. apply soft_name.
      rewrite forallb_forall in G2. apply G2, Hx. }
    assert (V : hard ("(" ++ join ", " (map insert_value (dvals d)) ++ ")") (parens (commas (map value_tokens (dvals d))))).
    { apply hard_parens. apply map_commas_pairs; [lit|reflexivity|]. intros x Hx. apply soft_insert_value. }
    pose proof (hard_app _ _ _ _ N (hard_app " VALUES " _ [TWord "VALUES"] _ ltac:(lit)
      (hard_app _ ";" _ [TPunct ";"] V ltac:(lit)))) as H.
    pose proof (space_hard _ _ H) as H'.
    rewrite !sapp_assoc in H'. exact H'.
  - simpl in G. rewrite !andb_true_iff in G. destruct G as [[[G1 G2] G3] G4]. unfold op_str, update_str, op_tokens.
    apply (hard_app "UPDATE " _ [TWord "UPDATE"]); [lit|].
    apply (soft_hard_app _ _ [TName t]); [apply soft_name, G1|reflexivity|].
    apply (hard_app " SET " _ [TWord "SET"]); [lit|].
    apply soft_hard_app; [|reflexivity|].
    + apply map_commas_pairs; [lit|reflexivity|]. intros [c v] Hx. unfold update_set in Hx. apply filter_In in Hx as [Hx _]. simpl.
      rewrite forallb_forall in G2, G3. specialize (G3 _ Hx). simpl in G3. apply negb_true_iff in G3.
      assert (Gc : good_name c = true) by (apply G2; eapply in_dkeys; eauto).
      apply (soft_soft_app (bq c) _ [TName c]); [apply soft_name, Gc|reflexivity|].
      apply (hard_soft_app "=" _ [TPunct "="]); [lit|]. apply soft_update_value, G3.
    + unfold row_id_text. apply soft_where. destruct (dget "id" d); [exact G4|discriminate].
  - simpl in G. apply andb_true_iff in G as [G1 G2]. unfold op_str, delete_str, op_tokens.
    apply (hard_app "DELETE FROM " _ [TWord "DELETE"; TWord "FROM"]); [lit|].
    apply (soft_hard_app _ _ [TName t]); [apply soft_name, G1|reflexivity|]. apply soft_where, G2.
Qed.
