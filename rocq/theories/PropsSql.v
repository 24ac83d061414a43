(** C27-C31: the text of statements, as a MySQL server reads it. *)
From Verif Require Import SqlStmt NumFacts Samples.

(** ** C27 *)

Theorem C27_insert_values : forall t d,
  exists head body, op_str (ORowInsert t d) = head ++ " VALUES " ++ body
    /\ tokens body = Some (parens (commas (map value_tokens (dvals d))) +++ [TPunct ";"]).
Proof.
  intros t d. exists ("INSERT INTO " ++ bq t ++ " (" ++ join ", " (map bq (dkeys d)) ++ ")"),
    ("(" ++ join ", " (map insert_value (dvals d)) ++ ");").
  split; [unfold op_str, insert_str; rewrite !sapp_assoc; reflexivity|].
  apply soft_end, hard_soft.
  assert (V : hard ("(" ++ join ", " (map insert_value (dvals d)) ++ ")") (parens (commas (map value_tokens (dvals d))))).
  { apply hard_parens. apply map_commas_pairs; [lit|reflexivity|]. intros x Hx. apply soft_insert_value. }
  pose proof (hard_app _ ";" _ [TPunct ";"] V ltac:(lit)) as H. rewrite !sapp_assoc in H. exact H.
Qed.
Theorem C27_insert_statement : forall t d,
  has_char bquote t = false -> (forall c, In c (dkeys d) -> has_char bquote c = false) ->
  tokens (op_str (ORowInsert t d))
  = Some ([TWord "INSERT"; TWord "INTO"; TName t] +++ parens (commas (map (fun c => [TName c]) (dkeys d)))
          +++ [TWord "VALUES"] +++ parens (commas (map value_tokens (dvals d))) +++ [TPunct ";"]).
Proof.
  intros t d Ht Hd. rewrite op_reads; [reflexivity| |reflexivity]. cbn [good_op]. unfold good_name. rewrite Ht. simpl.
  apply forallb_forall. intros c Hc. rewrite (Hd c Hc). reflexivity.
Qed.
Example ex_C27 : tokens (op_str (ORowInsert "t" [("id", RInt 1); ("a", RStr "it's \ 'x"); ("b", RNone)]))
  = Some ([TWord "INSERT"; TWord "INTO"; TName "t"; TPunct "("; TName "id"; TPunct ","; TName "a"; TPunct ","; TName "b"; TPunct ")";
           TWord "VALUES"; TPunct "("; TText "1"; TPunct ","; TText "it's \ 'x"; TPunct ","; TWord "NULL"; TPunct ")"; TPunct ";"]).
Proof. reflexivity. Qed.
Print Assumptions C27_insert_values.
Print Assumptions C27_insert_statement.

(** ** C28 *)

(** Full statement: for all values.  Proved for values without a single quote. *)
Theorem C28_update_values_partial : forall t d v,
  has_char bquote t = false -> (forall c, In c (dkeys d) -> has_char bquote c = false) ->
  (forall c x, In (c, x) d -> has_char squote (rval_str x) = false) ->
  dget "id" d = Some v -> has_char backslash (rval_str v) = false ->
  tokens (op_str (ORowUpdate t d))
  = Some ([TWord "UPDATE"; TName t; TWord "SET"]
          +++ commas (map (fun p => [TName (fst p); TPunct "="] +++ value_tokens (snd p))
                (filter (fun p => negb (String.eqb (fst p) "id")) d))
          +++ [TWord "WHERE"; TWord "id"; TPunct "="; TText (rval_str v); TPunct ";"]).
Proof.
  intros t d v Ht Hd Hv Hi Hb. rewrite op_reads; [cbn [op_tokens]; rewrite Hi; reflexivity| |reflexivity].
  cbn [good_op]. unfold good_name, good_text. rewrite Ht, Hi. simpl. rewrite !andb_true_iff, !forallb_forall.
  split; [split|].
  - intros c Hc. rewrite (Hd c Hc). reflexivity.
  - intros [c x] Hc. simpl. rewrite (Hv c x Hc). reflexivity.
  - rewrite (Hv "id" v (dget_in _ _ _ Hi)), Hb. reflexivity.
Qed.

(** A value with a quote never reads back: the value of the literal is shorter. *)
Lemma quoted_shorter n : forall s a u l, (String.length s < n)%nat ->
  lex (LText squote a) (replace1 backslash "\\" s ++ "'") = Some (TText u :: l) ->
  (String.length u + (if has_char squote s then 1 else 0) <= String.length a + String.length s)%nat.
Proof.
  unfold has_char. induction n as [|n IH]; intros s a u l L E; [lia|].
  destruct s as [|c s]; [simpl in E; injection E as <- _; simpl; lia|].
  cbn [replace1] in E. cbn [sexists]. simpl in L. destruct (Ascii.eqb_spec c backslash) as [->|Nb].
  - change (lex (LText squote a) (("\\" ++ replace1 backslash "\\" s) ++ "'"))
      with (lex (LText squote (a ++ "\")) (replace1 backslash "\\" s ++ "'")) in E.
    apply IH in E; [|lia]. rewrite slength_app in E. simpl in E |- *. lia.
  - destruct (Ascii.eqb_spec squote c) as [<-|Nq].
    + change (lex (LText squote a) (String squote (replace1 backslash "\\" s) ++ "'"))
        with (lex (LTextEnd squote a) (replace1 backslash "\\" s ++ "'")) in E.
      destruct s as [|d s]; [discriminate|]. cbn [replace1] in E. destruct (Ascii.eqb_spec d backslash) as [->|Nd].
      * cbn [append lex] in E. change (Ascii.eqb "\" squote) with false in E. cbn iota in E.
        destruct (lex _ _) in E; [|discriminate]. injection E as <- _. simpl. lia.
      * cbn [append lex] in E. destruct (Ascii.eqb_spec d squote) as [->|Nq].
        -- apply IH in E; [|simpl in L; lia]. unfold snoc in E. rewrite slength_app in E. simpl in E |- *.
           destruct (sexists _ s) in E; lia.
        -- match type of E with pre _ ?x = _ => destruct x; [|discriminate] end. injection E as <- _. simpl. lia.
    + cbn [append lex] in E. destruct (Ascii.eqb_spec c squote); [congruence|].
      destruct (Ascii.eqb_spec c backslash); [contradiction|]. apply IH in E; [|lia].
      unfold snoc in E. rewrite slength_app in E. simpl in E |- *. lia.
Qed.
Theorem C28_quotes_change_the_value : forall t c v id, has_char squote (rval_str v) = true -> c <> "id" ->
  exists literal, op_str (ORowUpdate t [("id", id); (c, v)])
      = "UPDATE `" ++ t ++ "` SET `" ++ c ++ "`=" ++ literal ++ " WHERE id='" ++ rval_str id ++ "';"
    /\ tokens literal <> Some [TText (rval_str v)].
Proof.
  intros t c v id H N. exists (update_value v). split.
  - unfold op_str, update_str, update_set, row_id_text, bq. simpl.
    destruct (String.eqb_spec c "id"); [contradiction|]. simpl. rewrite !sapp_assoc. reflexivity.
  - intros E. assert (U : update_value v = "'" ++ replace1 backslash "\\" (rval_str v) ++ "'")
      by (destruct v; [discriminate E|reflexivity..]).
    rewrite U in E. change (lex (LText squote "") (replace1 backslash "\\" (rval_str v) ++ "'") = Some [TText (rval_str v)]) in E.
    apply (quoted_shorter (S (String.length (rval_str v)))) in E; [|lia]. rewrite H in E. simpl in E. lia.
Qed.
Theorem C28_refuted : exists t d c v, In (c, v) d /\ c <> "id"
  /\ forall l, tokens (op_str (ORowUpdate t d)) = Some l -> ~ In (TText (rval_str v)) l.
Proof.
  exists "t", [("id", RStr "1"); ("name", RStr "a', name='b")], "name", (RStr "a', name='b").
  split; [right; left; reflexivity|]. split; [discriminate|]. intros l E. vm_compute in E. injection E as <-.
  simpl. intros H. repeat (destruct H as [H|H]; [discriminate H|]). exact H.
Qed.
Example ex_C28 : tokens (op_str (ORowUpdate "t" [("id", RStr "1"); ("a", RStr "back\slash"); ("b", RNone)]))
  = Some [TWord "UPDATE"; TName "t"; TWord "SET"; TName "a"; TPunct "="; TText "back\slash"; TPunct ",";
          TName "b"; TPunct "="; TWord "NULL"; TWord "WHERE"; TWord "id"; TPunct "="; TText "1"; TPunct ";"].
Proof. reflexivity. Qed.
Print Assumptions C28_update_values_partial.
Print Assumptions C28_quotes_change_the_value.
Print Assumptions C28_refuted.

(** ** C29 *)

(** Full statement: for all ids.  Proved for ids without quotes and backslashes. *)
Theorem C29_where_partial : forall t d id v,
  has_char bquote t = false -> has_char squote id = false -> has_char backslash id = false ->
  (exists head, tokens (op_str (ORowDelete t id)) = Some (head +++ [TWord "WHERE"; TWord "id"; TPunct "="; TText id; TPunct ";"]))
  /\ (dget "id" d = Some v -> rval_str v = id ->
      (forall c, In c (dkeys d) -> has_char bquote c = false) ->
      (forall c x, In (c, x) d -> has_char squote (rval_str x) = false) ->
      exists head, tokens (op_str (ORowUpdate t d)) = Some (head +++ [TWord "WHERE"; TWord "id"; TPunct "="; TText id; TPunct ";"])).
Proof.
  intros t d id v Ht Hq Hb. split.
  - exists [TWord "DELETE"; TWord "FROM"; TName t]. rewrite op_reads; [reflexivity| |reflexivity].
    cbn [good_op]. unfold good_name, good_text. rewrite Ht, Hq, Hb. reflexivity.
  - intros Hi <- Hd Hv. rewrite (C28_update_values_partial t d v Ht Hd Hv Hi Hb). eexists. rewrite app_assoc. reflexivity.
Qed.

(** A DELETE for one id that selects every row, a DELETE for one id that selects another, and
    one that is no statement. *)
Theorem C29_refuted :
  (exists id, tokens (op_str (ORowDelete "t" id))
    = Some [TWord "DELETE"; TWord "FROM"; TName "t"; TWord "WHERE"; TWord "id"; TPunct "="; TText "";
            TWord "OR"; TText ""; TPunct "="; TText ""; TPunct ";"])
  /\ (exists id other, other <> id /\ tokens (op_str (ORowDelete "t" id))
    = Some [TWord "DELETE"; TWord "FROM"; TName "t"; TWord "WHERE"; TWord "id"; TPunct "="; TText other; TPunct ";"])
  /\ (exists id, tokens (op_str (ORowDelete "t" id)) = None).
Proof.
  split; [exists "' OR ''='"; reflexivity|]. split; [exists "a\c", "ac"; split; [discriminate|reflexivity]|].
  exists "it's". reflexivity.
Qed.
Example ex_C29 : tokens (op_str (ORowDelete "my table" "a-7"))
  = Some [TWord "DELETE"; TWord "FROM"; TName "my table"; TWord "WHERE"; TWord "id"; TPunct "="; TText "a-7"; TPunct ";"].
Proof. reflexivity. Qed.
Print Assumptions C29_where_partial.
Print Assumptions C29_refuted.

(** ** C30 *)

(** Full statement: for every operation.  Proved for every operation other than DROP TABLE and
    DROP of a column, with names that contain no back-quote: the statement reads exactly as
    [op_tokens] says, where every name is a back-quoted identifier. *)
Theorem C30_statements_partial : forall o, good_op o = true -> quoted o = true -> tokens (op_str o) = Some (op_tokens o).
Proof. exact op_reads. Qed.

(** The other two: the bare text of the name is read. *)
Theorem C30_drops_unquoted : forall n t c,
  plain n = true ->
  tokens (op_str (ODropTable n)) = Some ([TWord "DROP"; TWord "TABLE"] +++ free n +++ [TPunct ";"])
  /\ (c_name c = n -> has_char bquote t = false ->
      tokens (op_str (OAlter (mkAlter t [RemoveColumn c])))
      = Some ([TWord "ALTER"; TWord "TABLE"; TName t; TWord "DROP"] +++ free n +++ [TPunct ";"])).
Proof.
  intros n t c P. pose proof (soft_free n P) as F. split.
  - apply soft_end, hard_soft. apply (hard_app "DROP TABLE " _ [TWord "DROP"; TWord "TABLE"]); [lit|].
    apply soft_hard_app; [exact F|reflexivity|lit].
  - intros <- H. apply soft_end, hard_soft. unfold op_str, alter_str. simpl al_table. simpl al_ops. cbn [map join aop_str].
    rewrite !sapp_assoc. apply (hard_app "ALTER TABLE " _ [TWord "ALTER"; TWord "TABLE"]); [lit|].
    apply (soft_hard_app _ _ [TName t]); [apply soft_name; unfold good_name; rewrite H; reflexivity|reflexivity|].
    change (" " ++ "DROP " ++ c_name c ++ ";") with (" DROP " ++ (c_name c ++ ";")).
    apply (hard_app " DROP " _ [TWord "DROP"]); [lit|].
    apply soft_hard_app; [exact F|reflexivity|lit].
Qed.
(** Dropping the column [primary key] drops the primary key; dropping [a b] is no valid clause; a
    name with a back-quote ends early. *)
Theorem C30_refuted :
  (exists o c, o = OAlter (mkAlter "t" [RemoveColumn c]) /\ c_name c = "PRIMARY KEY" /\ good_op o = true
     /\ exists o', op_str o = op_str o' /\ o' = OAlter (mkAlter "t" [RemoveKey (primary_key ["id"])]))
  /\ (exists o n, o = ODropTable n /\ good_op o = true /\ exists l, tokens (op_str o) = Some l /\ ~ In (TName n) l)
  /\ (exists o, quoted o = true /\ tokens (op_str o) = None).
Proof.
  split; [|split].
  - do 2 eexists. split; [reflexivity|]. split; [exact (eq_refl : c_name (varchar_col "PRIMARY KEY" "5") = _)|].
    split; [reflexivity|]. eexists. split; [|reflexivity]. reflexivity.
  - exists (ODropTable "order"), "order". split; [reflexivity|]. split; [reflexivity|]. eexists. split; [reflexivity|].
    simpl. intros H. repeat (destruct H as [H|H]; [discriminate H|]). exact H.
  - exists (ORowDelete "a`b" "1"). split; reflexivity.
Qed.
Definition ex_C30_table : table :=
  tbl "order" [id_col; varchar_col "group by" "20"; int_col "p"] [primary_key ["id"]; key "the key" ["p"; "group by"]]
      [fk "fk p" "p" "select" "id"].
Example ex_C30 : good_op (OCreate ex_C30_table) = true
  /\ good_op (OAlter (mkAlter "order" [AddColumn (int_col "from") (PAfter "where"); RemoveKey (key "k" ["a"])])) = true.
Proof. split; reflexivity. Qed.
Print Assumptions C30_statements_partial.
Print Assumptions C30_drops_unquoted.
Print Assumptions C30_refuted.

(** ** C31 *)

(** The text of the default value. *)
Definition default_text (d : cdefault) : option string :=
  match d with DNone => None | DStr s => Some s | DInt z => Some (str_of_Z z) end.

Lemma free_number z : literal_value (free (str_of_Z z)) = Some (str_of_Z z).
Proof.
  assert (W : forall n, tokens (str_of_N n) = Some [TWord (str_of_N n)] /\ py_int (str_of_N n) = Some (Z.of_N n)).
  { intros n. split.
    - apply soft_end. pose proof (str_of_N_digits n) as D. unfold isdigit in D. apply andb_true_iff in D as [D1 D2].
      apply soft_word; [exact D1| |].
      + eapply sforall_imp; [|exact D2]. intros x Hx. apply digit_word, Hx.
      + apply negb_true_iff. rewrite <- sforall_not. eapply sforall_imp; [|exact D2].
        intros x Hx. rewrite (proj2 (digit_word x Hx)). reflexivity.
    - rewrite py_int_digits by apply str_of_N_digits. rewrite str_of_N_val. reflexivity. }
  destruct z as [|p|p]; unfold str_of_Z; [reflexivity| |].
  - destruct (W (N.pos p)) as [T I]. unfold free. rewrite T. cbn [literal_value]. rewrite I. reflexivity.
  - destruct (W (N.pos p)) as [T I]. unfold free, tokens in *.
    change (lex LStart (String "-" (str_of_N (N.pos p)))) with (pre [TPunct "-"] (lex LStart (str_of_N (N.pos p)))).
    rewrite T. cbn [pre option_map app literal_value]. rewrite I. reflexivity.
Qed.

(** Full statement: for all columns.  Proved for columns whose name and texts contain no quotes or
    backslashes, unless the default is a number written with leading zeros. *)
Theorem C31_default_partial : forall c s,
  good_column c = true -> default_text (c_default c) = Some s ->
  (forall r, s = String "0" r -> isdigit s = true -> r = "") ->
  exists before literal after,
    tokens (column_str c) = Some (before +++ [TWord "DEFAULT"] +++ literal +++ after)
    /\ literal_value literal = Some s
    /\ (c_default c = DStr s -> isdigit s = false -> literal = [TText s]).
Proof.
  intros c s G D Z. rewrite (soft_end _ _ (soft_column c G)). unfold column_tokens.
  assert (T : exists lit, default_tokens (c_default c) = TWord "DEFAULT" :: lit /\ literal_value lit = Some s
     /\ (c_default c = DStr s -> isdigit s = false -> lit = [TText s])).
  { destruct (c_default c) as [|x|z]; simpl in D; [discriminate| |]; injection D as <-.
    - simpl. eexists. split; [reflexivity|]. destruct (isdigit x) eqn:I; [|split; [reflexivity|auto]]. split; [|discriminate].
      cbn [literal_value]. apply canonical_py_int. unfold canonical. rewrite I. destruct x as [|d [|e x]]; auto.
      apply negb_true_iff. destruct (Ascii.eqb_spec d "0") as [->|]; [|reflexivity]. specialize (Z _ eq_refl eq_refl). discriminate.
    - simpl. eexists. split; [reflexivity|]. split; [apply free_number|discriminate]. }
  destruct T as (lit & -> & L & Q). eexists ([TName (c_name c)] +++ type_tokens c
     +++ (if tru_ob (c_unsigned c) then [TWord "UNSIGNED"] else [])
     +++ (if c_null c then [] else [TWord "NOT"; TWord "NULL"])), lit, _.
  split; [|split; [exact L|exact Q]]. rewrite <- !app_assoc. reflexivity.
Qed.
(** A default with a quote, a default with a backslash, a text default of digits. *)
Theorem C31_refuted :
  (exists c, tokens (column_str c) = None)
  /\ (exists c s before after x, c_default c = DStr s
        /\ tokens (column_str c) = Some (before +++ [TWord "DEFAULT"; TText x] +++ after) /\ x <> s)
  /\ (exists c s before after x, c_default c = DStr s /\ c_kind c = KString
        /\ tokens (column_str c) = Some (before +++ [TWord "DEFAULT"; TWord x] +++ after)
        /\ literal_value [TWord x] <> Some s).
Proof.
  split; [|split].
  - exists (col0 KString "a" "VARCHAR" (LStr "9") true (DStr "it's") None None). reflexivity.
  - exists (col0 KString "a" "VARCHAR" (LStr "9") true (DStr "a\n") None None), "a\n",
      [TName "a"; TWord "VARCHAR"; TPunct "("; TWord "9"; TPunct ")"], [], ("a" ++ nl).
    split; [reflexivity|]. split; [reflexivity|discriminate].
  - exists (col0 KString "a" "VARCHAR" (LStr "9") true (DStr "007") None None), "007",
      [TName "a"; TWord "VARCHAR"; TPunct "("; TWord "9"; TPunct ")"], [], "007".
    split; [reflexivity|]. split; [reflexivity|]. split; [reflexivity|discriminate].
Qed.
Example ex_C31 : good_column (col0 KString "a" "VARCHAR" (LStr "9") false (DStr "a (b), c") None None) = true
  /\ good_column (col0 KNumeric "a" "INT" (LStr "9") false (DInt (-12)) None None) = true.
Proof. split; reflexivity. Qed.
Print Assumptions C31_default_partial.
Print Assumptions C31_refuted.
