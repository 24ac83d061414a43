(** Reading INSERT statements: the properties C56 and C70 and the INSERT part of C57. *)
From Verif Require Import RoundInsert PropsParse PropsRound SqlStmt.

Local Opaque max_turns max_statements.

(** ** C56 *)

(** Values without single quotes. *)
Definition quote_free (v : rval) : Prop := match v with RNone => True | _ => has_char squote (rval_str v) = false end.
(** What such a value comes back as: its text with each run of white space as one space; NULL for
    the text NULL. *)
Definition read_as (v : rval) : rval :=
  match v with
  | RNone => RNone
  | _ => if String.eqb (collapse_ws (rval_str v)) "NULL" then RNone else RStr (collapse_ws (rval_str v))
  end.
(** What a value should come back as: NULL, or its text. *)
Definition as_read (v : rval) : rval := match v with RNone => RNone | _ => RStr (rval_str v) end.
(** Values that survive: no single quote, only single spaces as white space, and not the text NULL. *)
Definition plain_value (v : rval) : Prop :=
  match v with RNone => True | _ => rval_str v <> "NULL" /\ has_char squote (rval_str v) = false /\ collapse_ws (rval_str v) = rval_str v end.

Lemma collapse_solid c b : is_space c = false -> forall a w, collapse_ws_from w (a ++ String c b) = collapse_ws_from w a ++ String c (collapse_ws_from false b).
Proof.
  intros C. induction a as [|x a IH]; intros w; cbn [String.append collapse_ws_from]; [rewrite C; reflexivity|].
  destruct (is_space x); [destruct w|]; rewrite IH; reflexivity.
Qed.
Lemma collapse_doubled s : forall w, collapse_ws_from w (replace1 backslash "\\" s) = replace1 backslash "\\" (collapse_ws_from w s).
Proof.
  induction s as [|c s IH]; intros w; [reflexivity|]. cbn [replace1 collapse_ws_from]. destruct (Ascii.eqb_spec c backslash) as [->|N].
  - change (is_space backslash) with false. cbv iota. cbn [String.append collapse_ws_from replace1]. change (is_space "\") with false. cbv iota. rewrite IH. reflexivity.
  - cbn [collapse_ws_from]. apply Ascii.eqb_neq in N. destruct (is_space c); [destruct w|]; cbn [replace1]; rewrite ?IH, ?N; reflexivity.
Qed.
Lemma collapse_quotes s : forall w, has_char squote s = false -> has_char squote (collapse_ws_from w s) = false.
Proof.
  unfold has_char. induction s as [|c s IH]; intros w H; [reflexivity|]. cbn [sexists collapse_ws_from] in *. apply orb_false_iff in H as [H1 H2].
  destruct (is_space c); [destruct w; [exact (IH true H2)|exact (IH true H2)]|]. cbn [sexists]. rewrite H1. exact (IH false H2).
Qed.
Lemma collapse_twice s : forall w, collapse_ws_from w (collapse_ws_from w s) = collapse_ws_from w s.
Proof.
  induction s as [|c s IH]; intros w; [reflexivity|]. cbn [collapse_ws_from]. destruct (is_space c) eqn:C; [destruct w; [apply IH|]|]; cbn [collapse_ws_from].
  - change (is_space " ") with true. cbv iota. rewrite IH. reflexivity.
  - rewrite C, IH. reflexivity.
Qed.

Definition literal_of (v : rval) : literal := match v with RNone => LitNull | _ => LitText (collapse_ws (rval_str v)) end.
Lemma literal_fine v : quote_free v -> literal_ok (literal_of v) /\ lit_value (literal_of v) = read_as v.
Proof. intros P. destruct v; (split; [|reflexivity]); try exact I; (split; [apply collapse_quotes, P|apply collapse_twice]). Qed.
Lemma value_collapsed v : quote_free v -> forall w r, collapse_ws_from w (insert_value v ++ r) = lit_text (literal_of v) ++ collapse_ws_from false r.
Proof.
  intros P w r.
  assert (T : forall s, has_char squote s = false ->
    collapse_ws_from w (("'" ++ escape_insert s ++ "'") ++ r) = lit_text (LitText (collapse_ws s)) ++ collapse_ws_from false r).
  { intros s Q. unfold escape_insert. rewrite (replace1_none squote) by (rewrite doubled_char by discriminate; exact Q).
    rewrite !sapp_assoc. cbn [String.append collapse_ws_from lit_text]. change (is_space "'") with false. cbv iota.
    rewrite collapse_solid, collapse_doubled, sapp_assoc by reflexivity. reflexivity. }
  destruct v; try (apply T, P). reflexivity.
Qed.
Lemma joined_collapsed {A} (f g : A -> string) l : (forall x, In x l -> forall w r, collapse_ws_from w (f x ++ r) = g x ++ collapse_ws_from false r) -> l <> [] ->
  forall w r, collapse_ws_from w (join ", " (map f l) ++ r) = join ", " (map g l) ++ collapse_ws_from false r.
Proof.
  induction l as [|x l IH]; intros H N w r; [contradiction|]. destruct l as [|y l]; [apply H; left; reflexivity|].
  change (map f (x :: y :: l)) with (f x :: map f (y :: l)). change (map g (x :: y :: l)) with (g x :: map g (y :: l)).
  rewrite !join_cons by discriminate. rewrite !sapp_assoc, H by (left; reflexivity). f_equal.
  change (collapse_ws_from false (", " ++ join ", " (map f (y :: l)) ++ r)) with (", " ++ collapse_ws_from true (join ", " (map f (y :: l)) ++ r)).
  rewrite IH; [reflexivity| |discriminate]. intros z Z. apply H. right. exact Z.
Qed.
Lemma name_collapsed c : collapse_ws c = c -> forall w r, collapse_ws_from w (ticked c ++ r) = ticked c ++ collapse_ws_from false r.
Proof.
  intros E w r. rewrite !ticked_append. cbn [collapse_ws_from]. change (is_space bquote) with false. cbv iota. f_equal.
  rewrite collapse_solid by reflexivity. unfold collapse_ws in E. rewrite E. reflexivity.
Qed.
Lemma table_collapsed n : table_name_ok n -> collapse_ws n = n.
Proof.
  intros [_ H]. unfold collapse_ws. generalize false. revert H. induction n as [|c n IH]; intros H w; [reflexivity|]. cbn [sforall collapse_ws_from] in *.
  apply andb_true_iff in H as [C H]. assert (is_space c = false) as ->; [|rewrite IH by exact H; reflexivity].
  revert C. clear. destruct c as [[|] [|] [|] [|] [|] [|] [|] [|]]; vm_compute; congruence.
Qed.
Lemma insert_collapsed n data : table_name_ok n -> data <> [] -> Forall column_name_ok (dkeys data) -> Forall quote_free (dvals data) ->
  collapse_ws (insert_str n data) = insert_text n (dkeys data) true true [map literal_of (dvals data)] ";".
Proof.
  intros Hn Hd Hk Hv. unfold insert_str, insert_text, group_text, collapse_ws. cbn [map join]. rewrite Forall_forall in Hk, Hv.
  assert (Nk : dkeys data <> []) by (destruct data; [contradiction|discriminate]).
  assert (Nv : dvals data <> []) by (destruct data; [contradiction|discriminate]).
  transitivity ("INSERT INTO " ++ collapse_ws_from true (ticked n ++ " (" ++ join ", " (map ticked (dkeys data)) ++ ") VALUES (" ++ join ", " (map insert_value (dvals data)) ++ ");")); [reflexivity|].
  rewrite name_collapsed by (apply table_collapsed, Hn). do 2 f_equal.
  transitivity (" (" ++ collapse_ws_from false (join ", " (map ticked (dkeys data)) ++ ") VALUES (" ++ join ", " (map insert_value (dvals data)) ++ ");")); [reflexivity|].
  rewrite (joined_collapsed ticked ticked); [|intros c C; apply name_collapsed, Hk, C|exact Nk]. do 2 f_equal.
  transitivity (") VALUES (" ++ collapse_ws_from false (join ", " (map insert_value (dvals data)) ++ ");")); [reflexivity|].
  rewrite (joined_collapsed insert_value (fun v => lit_text (literal_of v))); [|intros v V; apply value_collapsed, Hv, V|exact Nv].
  rewrite map_map, !sapp_assoc. reflexivity.
Qed.

(** What is read from the statement rendered for a row without single quotes. *)
Theorem C56_what_is_read : forall file n data,
  table_name_ok n -> data <> [] -> Forall column_name_ok (dkeys data) -> Forall quote_free (dvals data) ->
  read_sql file (op_str (ORowInsert n data))
  = (mkReader [] [(n, [mkRows n [map read_as (dvals data)] (dkeys data) (List.length data) [] []])] [] true, Ok "").
Proof.
  intros file n data Hn Hd Hk Hv. cbn [op_str]. pose proof (insert_collapsed n data Hn Hd Hk Hv) as En.
  assert (Lk : List.length (dkeys data) = List.length data) by (unfold dkeys; apply map_length).
  assert (Lv : List.length (dvals data) = List.length data) by (unfold dvals; apply map_length).
  assert (V : map (map lit_value) [map literal_of (dvals data)] = [map read_as (dvals data)]).
  { cbn [map]. rewrite map_map. f_equal. apply map_ext_in. intros v I. rewrite Forall_forall in Hv. apply literal_fine, Hv, I. }
  rewrite <- V, <- Lk.
  assert (G : Forall (group_ok (List.length (dkeys data))) [map literal_of (dvals data)]).
  { apply Forall_cons; [|apply Forall_nil]. split; [|split].
    - apply Forall_map. apply Forall_forall. intros v I. rewrite Forall_forall in Hv. apply literal_fine, Hv, I.
    - destruct data; [contradiction|discriminate].
    - rewrite map_length, Lk, Lv. reflexivity. }
  assert (Hc : dkeys data <> []) by (destruct data; [contradiction|discriminate]).
  assert (Hg : [map literal_of (dvals data)] <> []) by discriminate.
  apply (insert_source file n (dkeys data) true true _ ";" Hn Hc Hk Hg G eq_refl (or_intror eq_refl)).
  unfold normalize. rewrite En. apply trim_strip. exact (text_trim n (dkeys data) true true _ ";" "" Hn Hc Hk Hg G eq_refl (end_semi "" eq_refl)).
Qed.

Lemma plain_read v : quote_free v -> (read_as v = as_read v <-> plain_value v).
Proof.
  assert (T : forall s, has_char squote s = false ->
    ((if String.eqb (collapse_ws s) "NULL" then RNone else RStr (collapse_ws s)) = RStr s <-> s <> "NULL" /\ has_char squote s = false /\ collapse_ws s = s)).
  { intros s Q. split.
    - destruct (String.eqb _ _) eqn:E; [discriminate|]. apply String.eqb_neq in E. intros [= C]. split; [congruence|]. split; [exact Q|exact C].
    - intros (N & _ & ->). apply String.eqb_neq in N. rewrite N. reflexivity. }
  intros Q. destruct v; try (apply T, Q). split; [intros _; exact I|reflexivity].
Qed.

(** Full statement: for all rows.  False, see [C56_refuted] and the theorems after it.  Proved: for
    values without single quotes, runs of white space and the text NULL. *)
Theorem C56_insert_read_back_partial : forall file n data,
  table_name_ok n -> data <> [] -> Forall column_name_ok (dkeys data) -> Forall plain_value (dvals data) ->
  read_sql file (op_str (ORowInsert n data))
  = (mkReader [] [(n, [mkRows n [map as_read (dvals data)] (dkeys data) (List.length data) [] []])] [] true, Ok "").
Proof.
  intros file n data Hn Hd Hk Hv.
  assert (Q : Forall quote_free (dvals data)).
  { eapply Forall_impl; [|exact Hv]. intros [] P; try exact I; apply P. }
  rewrite C56_what_is_read by assumption.
  assert (E : map read_as (dvals data) = map as_read (dvals data)); [|rewrite E; reflexivity].
  apply map_ext_in. intros v V. rewrite Forall_forall in Hv, Q. apply plain_read; auto.
Qed.
(** Among the rows without single quotes, exactly these come back. *)
Theorem C56_exact : forall file n data,
  table_name_ok n -> data <> [] -> Forall column_name_ok (dkeys data) -> Forall quote_free (dvals data) ->
  (read_sql file (op_str (ORowInsert n data))
   = (mkReader [] [(n, [mkRows n [map as_read (dvals data)] (dkeys data) (List.length data) [] []])] [] true, Ok "")
   <-> Forall plain_value (dvals data)).
Proof.
  intros file n data Hn Hd Hk Hv. split; [|intros P; apply C56_insert_read_back_partial; assumption].
  rewrite C56_what_is_read by assumption. intros E. injection E as E. revert Hv E. clear.
  induction (dvals data) as [|v l IH]; intros Q E; [apply Forall_nil|]. inversion Q; subst. cbn [map] in E. injection E as E1 E2.
  apply Forall_cons; [apply plain_read; assumption|auto].
Qed.
Definition note_row : row :=
  [("id", RInt 7); ("name", RStr "C:\dir -- a, b (c)"); ("rate", ROther "Decimal" "1.5" "1.50"); ("due", RNone); ("empty", RStr "")].
Example ex_C56 : table_name_ok "my_table" /\ note_row <> [] /\ Forall column_name_ok (dkeys note_row) /\ Forall plain_value (dvals note_row).
Proof.
  split; [split; [discriminate|reflexivity]|]. split; [discriminate|]. split; cbn [dkeys dvals note_row map fst snd]; repeat (apply Forall_cons || apply Forall_nil); try exact I; repeat split; try reflexivity; discriminate.
Qed.
Definition odd_row : row := [("id", RInt 7); ("name", RStr ("a  b" ++ String newline " c")); ("word", RStr "NULL"); ("due", RNone)].
Example ex_C56_what_is_read : table_name_ok "my_table" /\ odd_row <> [] /\ Forall column_name_ok (dkeys odd_row) /\ Forall quote_free (dvals odd_row)
  /\ map read_as (dvals odd_row) = [RStr "7"; RStr "a b c"; RNone; RNone] /\ ~ Forall plain_value (dvals odd_row).
Proof.
  split; [split; [discriminate|reflexivity]|]. split; [discriminate|].
  split; [cbn [dkeys odd_row map fst]; repeat (apply Forall_cons || apply Forall_nil); split; reflexivity|].
  split; [cbn [dvals odd_row map snd]; repeat (apply Forall_cons || apply Forall_nil); try exact I; reflexivity|].
  split; [reflexivity|]. intros F. apply Forall_inv_tail, Forall_inv in F. destruct F as (_ & _ & F). discriminate.
Qed.
(** A quote in a value: the statement is refused and the rest of the source is not read. *)
Theorem C56_refuted : exists e, snd (read_sql "" (op_str (ORowInsert "t" [("id", RInt 1); ("name", RStr "it's")]))) = Raise (SyntaxError e).
Proof. eexists. vm_compute. reflexivity. Qed.
(** Runs of white space, and the text NULL: another row is read. *)
Theorem C56_refuted_spaces : exists r,
  read_sql "" (op_str (ORowInsert "t" [("id", RInt 1); ("name", RStr "a  b")])) = (r, Ok "")
  /\ map r_raw (concat (dvals (rd_rows r))) = [[[RStr "1"; RStr "a b"]]].
Proof. eexists. split; vm_compute; reflexivity. Qed.
Theorem C56_refuted_null : exists r,
  read_sql "" (op_str (ORowInsert "t" [("id", RInt 1); ("name", RStr "NULL")])) = (r, Ok "")
  /\ map r_raw (concat (dvals (rd_rows r))) = [[[RStr "1"; RNone]]].
Proof. eexists. split; vm_compute; reflexivity. Qed.

(** ** C57 *)

(** Full statement: for all numbers of groups.  False from 1000 on, see [C57_refuted].  Proved: up
    to 999 groups are all read, in order and with their exact values. *)
Theorem C57_insert_read_partial : forall file n cols sp gp gs e, table_name_ok n -> cols <> [] -> Forall column_name_ok cols ->
  gs <> [] -> Forall (group_ok (List.length cols)) gs -> (N.of_nat (List.length gs) < 1000)%N -> e = "" \/ e = ";" ->
  forall s, normalize s = insert_text n cols sp gp gs e ->
  read_sql file s = (mkReader [] [(n, [mkRows n (map (map lit_value) gs) cols (List.length cols) [] []])] [] true, Ok "").
Proof. exact insert_source. Qed.
Definition two_groups : list (list literal) := [[LitWord "1"; LitText "a \ (b), c;"; LitNull]; [LitWord "-2.5"; LitText ""; LitText "x"]].
Example ex_C57_insert : table_name_ok "t" /\ Forall column_name_ok ["id"; "a name"; "c,d"] /\ Forall (group_ok 3) two_groups
  /\ normalize ("INSERT INTO `t` (`id`,`a name`,`c,d`)" ++ String newline "  VALUES" ++ String newline "  (1,'a \\ (b), c;',NULL)," ++ String newline "  (-2.5,'','x');")
     = insert_text "t" ["id"; "a name"; "c,d"] false true two_groups ";".
Proof.
  split; [split; [discriminate|reflexivity]|]. split; [|split; [|vm_compute; reflexivity]]; repeat (apply Forall_cons || apply Forall_nil);
    split; try reflexivity; try (split; [discriminate|reflexivity]); repeat (apply Forall_cons || apply Forall_nil); try exact I; repeat split; try reflexivity; discriminate.
Qed.

(** ** C70 *)

(** The statement as MySQL's lexer sees it; every value is one token. *)
Definition insert_toks (n : string) (cols : list string) (gs : list (list tok)) (semi : bool) : list tok :=
  [TWord "INSERT"; TWord "INTO"; TName n] +++ names cols +++ [TWord "VALUES"]
  +++ commas (map (fun g => parens (commas (map (fun t => [t]) g))) gs) +++ (if semi then [TPunct ";"] else []).
(** The value of a token: the keyword NULL in any letter case, a string literal, or a number. *)
Definition tok_value (t : tok) : rval :=
  match t with
  | TText s => RStr s
  | TWord w => if String.eqb (upper w) "NULL" then RNone else RStr w
  | TName s => RStr s
  | TPunct c => RStr (String c "")
  end.

Definition one_token (v : literal) : Prop :=
  match v with LitWord w => sforall sql_word w = true /\ upper w <> "NULL" | LitText s => s <> "NULL" | LitNull => True end.
Definition lit_tok (v : literal) : tok :=
  match v with LitNull => TWord "NULL" | LitWord w => TWord w | LitText s => TText s end.
Lemma soft_lit v : literal_ok v -> one_token v -> soft (lit_text v) [lit_tok v] /\ tok_value (lit_tok v) = lit_value v.
Proof.
  destruct v as [|w|s]; cbn [literal_ok one_token lit_text lit_tok lit_value tok_value].
  - intros _ _. split; [|reflexivity]. apply soft_word; reflexivity.
  - intros (N & _ & W) [A U]. split; [apply soft_word; [destruct w; [contradiction|reflexivity]|exact A|]|].
    + clear - W. induction w as [|c w IH]; [reflexivity|]. cbn [sforall sexists] in *. apply andb_true_iff in W as [C W]. rewrite IH by exact W. rewrite orb_false_r.
      revert C. clear. destruct c as [[|] [|] [|] [|] [|] [|] [|] [|]]; vm_compute; congruence.
    + apply String.eqb_neq in U. rewrite U. reflexivity.
  - intros (Q & _) N. split; [|apply String.eqb_neq in N; rewrite N; reflexivity]. pose proof (soft_insert_value (RStr s)) as H. unfold insert_value, escape_insert in H. cbn [rval_str value_tokens] in H.
    rewrite (replace1_none squote) in H by (rewrite doubled_char by discriminate; exact Q). exact H.
Qed.
(** Full statement: for all texts whose tokens are such a statement.  False, see [C70_refuted] and
    the theorems after it.  Proved: for the spelling [insert_text] (upper case keywords, backslashes
    doubled, a comma with or without a space) and values without single quotes, runs of white space
    and the text NULL. *)
Theorem C70_insert_means_partial : forall file n cols sp gp gs (semi : bool), table_name_ok n -> cols <> [] -> Forall column_name_ok cols ->
  gs <> [] -> Forall (group_ok (List.length cols)) gs -> Forall (Forall one_token) gs -> (N.of_nat (List.length gs) < 1000)%N ->
  let s := insert_text n cols sp gp gs (if semi then ";" else "") in
  let toks := map (map lit_tok) gs in
  tokens s = Some (insert_toks n cols toks semi)
  /\ read_sql file s = (mkReader [] [(n, [mkRows n (map (map tok_value) toks) cols (List.length cols) [] []])] [] true, Ok "").
Proof.
  intros file n cols sp gp gs semi Hn Hc Fc Hg Fg Ft Lg s toks.
  assert (Each : forall g v, In g gs -> In v g -> soft (lit_text v) [lit_tok v] /\ tok_value (lit_tok v) = lit_value v).
  { intros g v I J. rewrite Forall_forall in Fg, Ft. destruct (Fg g I) as [F _]. pose proof (Ft g I) as T. rewrite Forall_forall in F, T. apply soft_lit; auto. }
  assert (He : insert_end (if semi then ";" else "") "") by (destruct semi; [exact (end_semi "" eq_refl)|constructor]).
  assert (Hs : hard (sep_text sp) [TPunct ","] /\ opens (sep_text sp) = true) by (destruct sp; split; try reflexivity; lit).
  assert (Hp : hard (sep_text gp) [TPunct ","] /\ opens (sep_text gp) = true) by (destruct gp; split; try reflexivity; lit).
  split.
  - apply soft_end. unfold s, insert_text, insert_toks.
    apply (hard_soft_app "INSERT INTO " _ [TWord "INSERT"; TWord "INTO"]); [lit|].
    apply (soft_soft_app (ticked n) _ [TName n]); [|reflexivity|].
    { apply (soft_name n). unfold good_name. rewrite name_ok_bquote by apply Hn. reflexivity. }
    assert (N : hard ("(" ++ join (sep_text sp) (map ticked cols) ++ ")") (names cols)).
    { apply hard_parens. apply map_commas_pairs; [apply Hs|apply Hs|]. intros x Hx. apply (soft_name x).
      rewrite Forall_forall in Fc. unfold good_name. destruct (Fc x Hx) as [-> _]. reflexivity. }
    assert (V : soft (join (sep_text gp) (map (group_text sp) gs)) (commas (map (fun g => parens (commas (map (fun t => [t]) g))) toks))).
    { unfold toks. rewrite map_map. apply map_commas_pairs; [apply Hp|apply Hp|]. intros g I. apply hard_soft, hard_parens. rewrite map_map.
      apply map_commas_pairs; [apply Hs|apply Hs|]. intros v J. apply (Each g v I J). }
    assert (W : soft (join (sep_text gp) (map (group_text sp) gs) ++ (if semi then ";" else "")) (commas (map (fun g => parens (commas (map (fun t => [t]) g))) toks) +++ (if semi then [TPunct ";"] else []))).
    { destruct semi; [apply soft_soft_app; [exact V|reflexivity|intros r _; reflexivity]|]. rewrite sapp_nil_r, app_nil_r. exact V. }
    assert (Hv : hard " VALUES " [TWord "VALUES"]) by (lit).
    pose proof (hard_soft_app _ _ _ _ N (hard_soft_app " VALUES " _ [TWord "VALUES"] _ Hv W)) as H.
    pose proof (space_soft _ _ H) as H'. rewrite !sapp_assoc in H'. exact H'.
  - assert (V : map (map tok_value) toks = map (map lit_value) gs).
    { unfold toks. rewrite map_map. apply map_ext_in. intros g I. rewrite map_map. apply map_ext_in. intros v J. apply (Each g v I J). }
    rewrite V. apply (insert_source file n cols sp gp gs (if semi then ";" else "")); auto; [destruct semi; auto|].
    apply trim_normalize. apply (text_trim n cols sp gp gs _ ""); auto.
Qed.
Example ex_C70 : Forall (group_ok 3) [[LitWord "1"; LitText "a \ (b), c;"; LitNull]; [LitWord "20"; LitText ""; LitText "x"]]
  /\ Forall (Forall one_token) [[LitWord "1"; LitText "a \ (b), c;"; LitNull]; [LitWord "20"; LitText ""; LitText "x"]].
Proof.
  split; repeat (apply Forall_cons || apply Forall_nil); try exact I; repeat split; repeat (apply Forall_cons || apply Forall_nil); try exact I; repeat split; try reflexivity; discriminate.
Qed.

(** The values of the only statement read. *)
Definition values_read (s : string) : option (list (list rval)) :=
  match read_sql "" s with
  | (r, Ok _) => match concat (dvals (rd_rows r)) with [w] => match r_perrors w with [] => Some (r_raw w) | _ => None end | _ => None end
  | _ => None
  end.
(** The keyword null in lower case is read as a text. *)
Theorem C70_refuted : exists s g, tokens s = Some (insert_toks "t" ["id"; "n"] [g] true)
  /\ exists v, values_read s = Some v /\ v <> [map tok_value g].
Proof.
  exists "INSERT INTO `t` (`id`,`n`) VALUES (1,null);", [TWord "1"; TWord "null"].
  split; [vm_compute; reflexivity|]. exists [[RStr "1"; RStr "null"]]. split; [vm_compute; reflexivity|discriminate].
Qed.
(** An escaped line break is read as a backslash and a letter. *)
Theorem C70_refuted_escape : exists s g, tokens s = Some (insert_toks "t" ["id"; "n"] [g] true)
  /\ exists v, values_read s = Some v /\ v <> [map tok_value g].
Proof.
  exists "INSERT INTO `t` (`id`,`n`) VALUES (1,'a\nb');", [TWord "1"; TText ("a" ++ String newline "b")].
  split; [vm_compute; reflexivity|]. exists [[RStr "1"; RStr "a\nb"]]. split; [vm_compute; reflexivity|]. intros E. injection E as E. discriminate.
Qed.
(** A line break inside a text is read as a space. *)
Theorem C70_refuted_lines : exists s g, tokens s = Some (insert_toks "t" ["id"; "n"] [g] true)
  /\ exists v, values_read s = Some v /\ v <> [map tok_value g].
Proof.
  exists ("INSERT INTO `t` (`id`,`n`) VALUES (1,'a" ++ String newline "b');"), [TWord "1"; TText ("a" ++ String newline "b")].
  split; [vm_compute; reflexivity|]. exists [[RStr "1"; RStr "a b"]]. split; [vm_compute; reflexivity|]. intros E. injection E as E. discriminate.
Qed.
(** A doubled quote loses the whole statement: no row is read, and an error is recorded. *)
Theorem C70_refuted_quotes : exists s g, tokens s = Some (insert_toks "t" ["id"; "n"] [g] true)
  /\ values_read s = None.
Proof.
  exists "INSERT INTO `t` (`id`,`n`) VALUES (1,'it''s');", [TWord "1"; TText "it's"]. split; vm_compute; reflexivity.
Qed.

Print Assumptions C56_insert_read_back_partial.
Print Assumptions C56_what_is_read.
Print Assumptions C56_exact.
Print Assumptions C56_refuted.
Print Assumptions C56_refuted_spaces.
Print Assumptions C56_refuted_null.
Print Assumptions C57_insert_read_partial.
Print Assumptions C70_insert_means_partial.
Print Assumptions C70_refuted.
Print Assumptions C70_refuted_escape.
Print Assumptions C70_refuted_lines.
Print Assumptions C70_refuted_quotes.
