(** Reading SQL: the properties C36, C38, C39, C41, C48-C51, C57, C58. *)
From Verif Require Import ReadMore.

(** Computation of a witness: [found e] gives the value of [e] as the witness. *)
Ltac found e := let x := eval vm_compute in e in match x with Ok ?b => exists b end.
Ltac found_some e := let x := eval vm_compute in e in match x with Ok (Some ?b, _) => exists b end.
Ltac by_vm := match goal with |- _ = ?b => vm_cast_no_check (eq_refl b) end.

(** ** C36 *)
Section Enum.
  Context {FO : FloatOracle}.
  (** No ENUM or SET column that is read from SQL is ever accepted. *)
  Theorem C36_never_accepted : forall s t rest n c,
    create_parse s = Ok (Some t, rest) -> In (n, c) (t_columns t) -> c_kind c = KEnum ->
    column_errors c <> Ok [].
  Proof. intros s t rest n c P I K. apply enum_unlisted; [exact K|]. eapply create_parse_listless; eauto. Qed.
End Enum.
Definition enum_sql : string :=
  "CREATE TABLE `t` (`id` INT(10) NOT NULL, `state` ENUM('new','paid') NOT NULL DEFAULT 'new', PRIMARY KEY (`id`));".
(** The table cannot even be asked: the question raises TypeError. *)
Theorem C36_refuted : forall FO : FloatOracle,
  exists b, file_database [("", enum_sql)] = Ok b
            /\ snd (db_errors b) = Raise (TypeError "argument of type 'NoneType' is not iterable").
Proof. intros FO. found (file_database [("", enum_sql)]). split; by_vm. Qed.

(** ** C38 *)
Section Twice.
  Context {FO : FloatOracle}.
  (** Storing a table, whether or not one of its name is there, reports nothing. *)
  Theorem C38_second_definition_silent : forall b t b',
    put_file_table b t = Ok b' -> d_global_errors b' = d_global_errors b.
  Proof. exact put_file_table_silent. Qed.
End Twice.
Definition users_1 : string := "CREATE TABLE `users` (`id` INT(10) NOT NULL, PRIMARY KEY (`id`));".
Definition users_2 : string := "CREATE TABLE `users` (`id` BIGINT(20) NOT NULL, `a` INT(10), PRIMARY KEY (`id`));".
Theorem C38_refuted : forall FO : FloatOracle,
  exists b, file_database [("a.sql", users_1); ("b.sql", users_2)] = Ok b /\ snd (db_errors b) = Ok [].
Proof. intros FO. found (file_database [("a.sql", users_1); ("b.sql", users_2)]). split; by_vm. Qed.
(** Worse, what is wrong with tables read after the second definition is not reported either: the
    question for errors while reading filled the caches. *)
Definition bad_sql : string := "CREATE TABLE `bad` (`note` TEXT DEFAULT 'x');".
Theorem C38_refuted_stale : forall FO : FloatOracle,
  exists b, file_database [("a.sql", users_1); ("b.sql", users_2); ("c.sql", bad_sql)] = Ok b
            /\ snd (db_errors b) = Ok []
            /\ exists t, dget "bad" (db_tables b) = Some t /\ exists m l, table_errors t = Ok (m :: l).
Proof.
  intros FO. found (file_database [("a.sql", users_1); ("b.sql", users_2); ("c.sql", bad_sql)]).
  split; [by_vm|]. split; [by_vm|]. eexists. split; [cbn; reflexivity|]. eexists. eexists. vm_compute. reflexivity.
Qed.

(** ** C39 *)
Section Unreadable.
  Context {FO : FloatOracle}.
  (** Full statement: for every CREATE TABLE that is not turned into a table.  False for those whose
      processing raises, see [C39_refuted].  Proved here: when the text does not match at all (one
      source, within the first ten thousand statements), a table without a name is stored, and its
      message is among the errors. *)
  Theorem C39_unmatched_reported_partial : forall k file data u rest b,
    (N.of_nat k < 10000)%N -> text_after k data = Some u -> statement_of (strip u) = SCreate ->
    create_parse (strip u) = Ok (None, rest) -> file_database [(file, data)] = Ok b ->
    exists t, In ("", t) (db_tables b) /\ t_name t = "" /\
      forall l b' errs, table_errors t = Ok l -> db_errors b = (b', Ok errs) -> In "Table missing name" errs.
  Proof. exact unmatched_reported. Qed.
End Unreadable.
Example ex_C39 {FO : FloatOracle} :
  let data := users_1 ++ " CREATE TABLE `t` `id` INT(10);" in
  (exists u rest, text_after 1 data = Some u /\ statement_of (strip u) = SCreate /\ create_parse (strip u) = Ok (None, rest))
  /\ exists b l, file_database [("", data)] = Ok b /\ snd (db_errors b) = Ok l /\ In "Table missing name" l.
Proof.
  intros data. split.
  - exists "CREATE TABLE `t` `id` INT(10);". eexists. repeat split; vm_compute; reflexivity.
  - found (file_database [("", data)]). eexists. split; [by_vm|]. split; [vm_compute; reflexivity|]. simpl. auto.
Qed.
(** MySQL accepts this statement: an index may have the name of the column of the primary key. *)
Definition lost_sql : string := "CREATE TABLE `t` (`id` INT(10) NOT NULL, KEY `id` (`id`), PRIMARY KEY (`id`));".
Definition live_sql : string := "CREATE TABLE `t` (
  `id` int(10) NOT NULL,
  PRIMARY KEY (`id`)
) ENGINE=InnoDB DEFAULT CHARSET=utf8".
Theorem C39_refuted : forall FO : FloatOracle,
  exists b live ops, file_database [("t.sql", lost_sql)] = Ok b /\ snd (db_errors b) = Ok []
    /\ live_database [live_sql] = Ok live
    /\ snd (build_commands false b (Ok (db_tables live)) (fun _ => Ok [])) = Ok ops
    /\ In "DROP TABLE t;" (map op_str ops).
Proof.
  intros FO. found (file_database [("t.sql", lost_sql)]). found (live_database [live_sql]).
  eexists. split; [by_vm|]. split; [by_vm|]. split; [by_vm|]. split; [vm_compute; reflexivity|]. vm_compute. auto.
Qed.
(** The same for a type the tool does not know. *)
Definition point_sql : string := "CREATE TABLE `t` (`id` INT(10) NOT NULL, `p` POINT, PRIMARY KEY (`id`));".
Theorem C39_refuted_type : forall FO : FloatOracle,
  exists b, file_database [("t.sql", point_sql)] = Ok b
    /\ d_tables b = [] /\ snd (db_errors b) = Ok [].
Proof. intros FO. found (file_database [("t.sql", point_sql)]). split; [by_vm|]. split; by_vm. Qed.

(** ** C41 *)
Section Unknown.
  Context {FO : FloatOracle}.
  (** Sources with rows for a table that none of them defines never give a database at all. *)
  Theorem C41_never_reported : forall srcs b d n w ws,
    foldM read_source srcs empty_database = Ok b -> d_rows b = Some d -> In (n, w :: ws) d ->
    dget n (d_tables b) = None -> exists e, file_database srcs = Raise e.
  Proof.
    intros srcs b d n w ws F D I G. unfold file_database. rewrite F. cbn [bind]. eapply combine_unknown; eauto.
  Qed.
End Unknown.
Theorem C41_refuted : forall FO : FloatOracle,
  file_database [("", "INSERT INTO `nowhere` (`id`) VALUES ('1');")] = Raise (KeyError "nowhere").
Proof. intros FO. by_vm. Qed.
Definition nowhere_sql : string := "INSERT INTO `nowhere` (`id`) VALUES ('1');".
Example ex_C41 {FO : FloatOracle} : exists b d w,
  foldM read_source [("", nowhere_sql)] empty_database = Ok b
  /\ d_rows b = Some d /\ In ("nowhere", [w]) d /\ dget "nowhere" (d_tables b) = None.
Proof.
  found (foldM read_source [("", nowhere_sql)] empty_database). eexists. eexists.
  split; [by_vm|]. split; [reflexivity|]. split; [left; reflexivity|reflexivity].
Qed.

(** ** C48 *)
(** Full statement: with the last claim for the statement loop without exceptions.  False, see
    [C48_refuted].  Proved: every definition parser returns a suffix and consumes something when it
    matches, the same for the statements; the limit on repetitions is never the reason of a
    difference when it is at least the length of the text; the statement loop stops within as many
    turns as the text has characters unless it comes to a text it cannot pass. *)
Theorem C48_definitions_consume_partial : forall c s m rest,
  In c definition_classes -> c s = Ok (m, rest) ->
  (exists p, normalize s = p ++ rest) /\ (m <> None -> String.length rest < String.length (normalize s)).
Proof.
  intros c s m rest I. exact (proj1 (Forall_forall _ _) definition_classes_steady c I s m rest).
Qed.
Theorem C48_statements_consume_partial : forall s,
  (forall t rest, create_parse s = Ok (Some t, rest) -> String.length rest < String.length s)
  /\ (forall w rest, insert_parse s = Ok (Some w, rest) -> String.length rest < String.length s).
Proof. intros s. split; [intros t rest; apply consumed_create|intros w rest; apply consumed_insert]. Qed.
Theorem C48_repetition_limit_partial : forall n m s found,
  String.length s <= n -> String.length s <= m ->
  kids n definition_classes (normalize s) found = kids m definition_classes (normalize s) found
  /\ kids n [values_class] (normalize s) [] = kids m [values_class] (normalize s) [].
Proof.
  intros n m s found N M. pose proof (normalize_le s) as L.
  split; apply kids_limit; auto using definition_classes_steady, values_class_steady, neat_normalize; lia.
Qed.
Theorem C48_loop_progress_partial : forall n file r data r' e,
  String.length data <= n -> read_loop n file r data = (r', Raise e) ->
  exists u, reaches data u /\ (stuck u \/ u = "" \/ create_parse u = Raise e \/ insert_parse u = Raise e).
Proof. exact loop_progress. Qed.
(** A statement that starts with CREATE but is no CREATE TABLE is read again and again. *)
Theorem C48_refuted : forall n file r, exists r',
  read_loop n file r "CREATE VIEW v" = (r', Raise (ValueError "Exceeded max parse depth")).
Proof.
  induction n as [|n IH]; intros file r; [eexists; reflexivity|]. cbn [read_loop].
  replace (is_empty "CREATE VIEW v") with false by reflexivity.
  replace (strip "CREATE VIEW v") with "CREATE VIEW v" by reflexivity.
  replace (statement_of "CREATE VIEW v") with SCreate by reflexivity.
  replace (is_empty "CREATE VIEW v") with false by reflexivity.
  replace (create_parse "CREATE VIEW v") with (@Ok (option table * string) (None, "CREATE VIEW v")) by (vm_compute; reflexivity).
  apply IH.
Qed.

(** ** C49 *)
Lemma lower_strip s : lower (strip s) = strip (lower s).
Proof.
  assert (Sp : forall c, is_space (to_lower c) = is_space c).
  { intros [[] [] [] [] [] [] [] []]; reflexivity. }
  assert (R : forall s, lower (rstrip_by is_space s) = rstrip_by is_space (lower s)).
  { unfold lower. induction s0 as [|c s0 IH]; simpl; [reflexivity|]. rewrite <- IH.
    destruct (rstrip_by is_space s0); simpl; [rewrite Sp; destruct (is_space c); reflexivity|reflexivity]. }
  assert (L : forall s, lower (lstrip_by is_space s) = lstrip_by is_space (lower s)).
  { unfold lower. induction s0 as [|c s0 IH]; simpl; [reflexivity|]. rewrite Sp. destruct (is_space c); [exact IH|reflexivity]. }
  unfold strip, strip_by. rewrite L, R. reflexivity.
Qed.
Section Keywords.
  Context {C : Type}.
  (** Changing the letter case of the keyword changes nothing at all. *)
  Theorem C49_keyword_case : forall name lit opt (next : list (rule C)) k k' s,
    lower k = lower k' -> String.length k <= String.length lit ->
    run_rule (RLit name lit opt) next (k ++ s) = run_rule (RLit name lit opt) next (k' ++ s).
  Proof.
    intros name lit opt next k k' s E L. cbn [run_rule]. rewrite (match_lit_keyword lit k k' s E L). reflexivity.
  Qed.
  (** Changing the case of the whole text changes neither whether the rule matches nor what it
      stores, and the rest only in case. *)
  Theorem C49_text_case : forall name lit opt (next : list (rule C)) s t, lower s = lower t ->
    match run_rule (RLit name lit opt) next s, run_rule (RLit name lit opt) next t with
    | Ok (Some (v, a)), Ok (Some (w, b)) => v = w /\ lower a = lower b
    | Ok None, Ok None => True
    | _, _ => False
    end.
  Proof.
    intros name lit opt next s t E. cbn [run_rule]. pose proof (match_lit_case lit s t E) as M.
    destruct (match_lit lit s), (match_lit lit t); try exact M. split; [reflexivity|]. rewrite !lower_strip, M. reflexivity.
  Qed.
End Keywords.
Example ex_C49 : run_rule (C := leaf) (RLit "n" "NOT NULL" true) [] ("nOt NuLl" ++ " x") = Ok (Some (VText "NOT NULL", "x"))
  /\ lower "nOt NuLl" = lower "NOT NULL".
Proof. split; reflexivity. Qed.

(** ** C50 *)
(** A value between quotes with any number of spaces around it. *)
Theorem C50_quoted_list : forall C name (q : ascii) opt n o (next : list (rule C)) (l : list (nat * string * nat)) rest,
  q <> ","%char -> q <> " "%char -> q <> ")"%char -> l <> [] ->
  (forall a v b, In (a, v, b) l -> has_char q v = false) ->
  run_rule (RDel name "," q opt) (RLit n ")" o :: next)
    (join "," (map (fun x => let '(a, v, b) := x in spaces a ++ String q (v ++ String q (spaces b))) l) ++ String ")" rest)
  = Ok (Some (VList (map (fun x => snd (fst x)) l), String ")" rest)).
Proof.
  intros C name q opt n o next l rest Q1 Q2 Q3 N H. cbn [run_rule].
  change (lower ")") with ")".
  pose proof (delimited_items q Q1 Q2 Q3 l rest N) as E. unfold quoted_item in E. rewrite E; [reflexivity|].
  intros [[a v] b] I. exact (H a v b I).
Qed.
Example ex_C50 :
  run_rule (C := leaf) (RDel "values" "," squote false) [lit ")"] "'a, (b) NULL' , '', '; --x') AND MORE"
  = Ok (Some (VList ["a, (b) NULL"; ""; "; --x"], ") AND MORE")).
Proof. reflexivity. Qed.

(** ** C51 *)
(** Full statement: comments anywhere between statements.  False, see [C51_refuted].  Proved: any
    number of closed comments at the beginning of the text before the first statement. *)
Theorem C51_leading_comments_partial : forall cs n file r s, Forall comment cs -> strip s <> "" ->
  read_loop (List.length cs + n) file r (sconcat cs ++ s) = read_loop n file r s.
Proof. intros cs n file r s F N. exact (proj1 (loop_comments cs n file r s F N)). Qed.
Theorem C51_source_partial : forall cs n file s r t, Forall comment cs -> strip s <> "" ->
  read_loop n file new_reader s = (r, Ok t) -> (N.of_nat (List.length cs + n) <= 10000)%N ->
  read_sql file (sconcat cs ++ s) = (r, Ok t).
Proof.
  intros cs n file s r t F N E L. rewrite read_sql_eq.
  apply (loop_more (List.length cs + n)); [unfold max_statements; lia|]. rewrite (proj1 (loop_comments cs n file _ s F N)). exact E.
Qed.
Lemma sindex_none sub s : sindex sub s = None -> ~ contains sub s.
Proof.
  intros H (a & b & ->). induction a as [|c a IH].
  - assert (P : String.prefix sub (sub ++ b) = true) by (apply prefix_iff; eauto).
    change ("" ++ sub ++ b) with (sub ++ b) in H. destruct (sub ++ b); cbn [sindex] in H; rewrite P in H; discriminate.
  - apply IH. change (String c a ++ sub ++ b) with (String c (a ++ sub ++ b)) in H. cbn [sindex] in H.
    destruct (String.prefix sub (String c (a ++ sub ++ b))); [discriminate|]. destruct (sindex sub (a ++ sub ++ b)); [discriminate|reflexivity].
Qed.
Example ex_C51 : Forall comment ["-- first
"; " /* second * / ** */"; "
# third -- /*
"].
Proof.
  repeat apply Forall_cons; [apply (comment_dashes "" " first"); reflexivity| |apply (comment_hash "
" " third -- /*"); reflexivity|apply Forall_nil].
  apply (comment_block " " " second * / ** "); [reflexivity|]. apply sindex_none. reflexivity.
Qed.
(** A comment after an INSERT swallows everything up to the end of the file. *)
Definition note_sql : string := "INSERT INTO `t` (`id`) VALUES ('1');
-- note
CREATE TABLE `t` (`id` INT(10) NOT NULL, PRIMARY KEY (`id`));".
Definition plain_sql : string := "INSERT INTO `t` (`id`) VALUES ('1');
CREATE TABLE `t` (`id` INT(10) NOT NULL, PRIMARY KEY (`id`));".
Theorem C51_refuted :
  rd_tables (fst (read_sql "" note_sql)) = [] /\ dkeys (rd_tables (fst (read_sql "" plain_sql))) = ["t"]
  /\ comment "
-- note
".
Proof.
  split; [vm_compute; reflexivity|]. split; [vm_compute; reflexivity|].
  apply (comment_dashes "
" " note"); reflexivity.
Qed.

(** ** C57 *)
(** Full statement: for all numbers of definitions and groups.  False from 1000 on, see
    [C57_refuted].  Proved: below that number the limit makes no difference. *)
Theorem C57_below_the_limit_partial : forall C (classes : list (pclass C)) n s l rest,
  kids n classes s [] = Ok (Some (l, rest)) -> List.length l < max_turns ->
  kids max_turns classes s [] = Ok (Some (l, rest)).
Proof. intros C classes n s l rest K L. apply (kids_enough classes n); [exact K|]. rewrite Nat.add_0_r. exact L. Qed.
Example ex_C57 : forall k, k <> 0 -> (N.of_nat k < 1000)%N -> exists w,
  insert_parse ("INSERT INTO `t` (`a`) VALUES " ++ groups k ++ ";") = Ok (Some w, "")
  /\ r_raw w = repeat [RStr "x"] k.
Proof.
  intros k K L. eexists. split; [exact (small_insert_read k K L)|]. clear.
  assert (G : forall k, take_groups 1 (repeat ([RStr "x"], true) k) true = (repeat [RStr "x"] k, [], [])).
  { induction k0 as [|k0 IH]; [reflexivity|]. simpl. rewrite IH. reflexivity. }
  unfold insert_process. match goal with |- context [take_groups ?n ?l ?b] => change n with 1; change l with (repeat ([RStr "x"], true) k) end.
  rewrite G. reflexivity.
Qed.
Theorem C57_refuted : forall k, (1000 <= N.of_nat k)%N ->
  insert_parse ("INSERT INTO `t` (`a`) VALUES " ++ groups k ++ ";") = Raise (ValueError "Max depth reached").
Proof. exact big_insert_raises. Qed.

(** ** C58 *)
(** Full statement: without the conditions on names.  False, see [C58_refuted].  Proved: if the
    definitions give distinct names to indexes and to foreign keys, and an index named like the
    column of an unnamed foreign key contains this column, then each unnamed foreign key is stored
    under its generated name and its column is covered. *)
Theorem C58_unnamed_keys_partial : forall v t, create_process v = Ok t ->
  let defs := vkids "definitions" v in
  let tname := strip_char bquote (vtext "name" v) in
  NoDup (index_names defs) -> ~ In "" (index_names defs) -> NoDup (fk_names tname defs) ->
  (forall k i, In (DefFk true k) defs -> In (DefIndex i) defs -> ix_name i = k_column k -> In (k_column k) (ix_columns i)) ->
  (forall k, In (DefFk true k) defs -> k_column k <> "") ->
  forall k, In (DefFk true k) defs ->
  In (stake 64 (tname ++ "_" ++ k_column k ++ "_" ++ k_ftable k ++ "_fk")) (dkeys (t_constraints t))
  /\ exists n i, In (n, i) (t_indexes t) /\ In (k_column k) (ix_columns i).
Proof.
  intros v t E defs tname H1 H2 H3 H4 H5 k K. unfold create_process in E. apply bind_ok in E as (t1 & E1 & E).
  assert (X : In (bare_name tname k) (dkeys (t_constraints t1)) /\ covered t1 (k_column k)).
  { refine (bare_indexed defs tname H1 H2 H3 _ _ _ t1 _ _ _ E1 k _); try reflexivity.
    - intros k0 i A B. apply in_def_bare in A. apply in_def_indexes in B. eauto.
    - intros k0 A. apply in_def_bare in A. eauto.
    - apply in_def_bare. exact K. }
  destruct (dmem _ _); injection E as <-; exact X.
Qed.
Definition bare_sql : string :=
  "CREATE TABLE `t` (`id` INT(10), `a` INT(10), `b` INT(10), PRIMARY KEY (`id`), KEY `ba` (`b`, `a`), FOREIGN KEY (`a`) REFERENCES `u` (`id`), FOREIGN KEY (`b`) REFERENCES `u` (`id`));".
Example ex_C58 : exists v t,
  run_rules create_rules (normalize (drop_lengths (drop_dashes bare_sql))) [] = Ok (Some v, "") /\ create_process v = Ok t
  /\ index_names (vkids "definitions" v) = ["id"; "ba"]
  /\ fk_names "t" (vkids "definitions" v) = ["t_a_u_fk"; "t_b_u_fk"]
  /\ dkeys (t_indexes t) = ["id"; "ba"] /\ dkeys (t_constraints t) = ["t_a_u_fk"; "t_b_u_fk"].
Proof.
  found_some (run_rules create_rules (normalize (drop_lengths (drop_dashes bare_sql))) []).
  match goal with |- context [create_process ?v] => found (create_process v) end.
  repeat split; by_vm.
Qed.
(** An index with the name of the column that stands before each unnamed foreign key on it is taken
    for an index on it. *)
Lemma uncovered_step all col d t t' : In d all ->
  (forall i, In (DefIndex i) all -> ~ In col (ix_columns i)) ->
  (forall p, In (DefCol p) all -> p_primary p = true -> p_name p <> col) ->
  (forall k, d = DefFk true k -> k_column k = col -> dmem col (t_indexes t) = true) ->
  process_def all t d = Ok t' -> ~ covered t col ->
  ~ covered t' col /\ (forall n, dmem n (t_indexes t) = true -> dmem n (t_indexes t') = true)
  /\ (forall i, d = DefIndex i -> ix_name i = col -> ix_columns i <> [] -> dmem col (t_indexes t') = true).
Proof.
  intros Din Ni Np Hk P N.
  assert (Ext : forall i n, t_indexes t' = t_indexes t +++ [(n, i)] -> ~ In col (ix_columns i) ->
    ~ covered t' col /\ forall m, dmem m (t_indexes t) = true -> dmem m (t_indexes t') = true).
  { intros i n E Q. split.
    - intros (m & j & I & C). rewrite E in I. apply in_app_or in I as [I|[I|[]]]; [apply N; exists m, j; auto|injection I as <- <-; contradiction].
    - intros m H. apply dmem_iff in H. apply dmem_iff. rewrite E. unfold dkeys. rewrite map_app. apply in_or_app. auto. }
  assert (Same : t_indexes t' = t_indexes t -> ~ covered t' col /\ forall m, dmem m (t_indexes t) = true -> dmem m (t_indexes t') = true).
  { intros E. unfold covered. rewrite E. auto. }
  destruct d as [p|i|b k|o]; simpl in P.
  - assert (Z : ~ covered t' col /\ forall m, dmem m (t_indexes t) = true -> dmem m (t_indexes t') = true).
    2:{ destruct Z. split; [assumption|]. split; [assumption|discriminate]. }
    match type of P with (if ?c then _ else _) = _ => destruct c end; [injection P as <-; apply Same; reflexivity|].
    apply bind_ok in P as (c & _ & P). apply bind_ok in P as (t1 & P1 & P). apply add_column_ok in P1 as (A1 & _ & _).
    destruct (p_primary p) eqn:Pp; [|injection P as <-; apply Same, A1].
    apply add_index_ok in P as (B1 & _ & _). rewrite A1 in B1. eapply Ext; [exact B1|]. intros [X|[]]. exact (Np p Din Pp X).
  - destruct (dmem (ix_rawname i) (t_indexes t)) eqn:D.
    + injection P as <-. destruct (Same eq_refl) as [Z1 Z2]. split; [exact Z1|]. split; [exact Z2|]. intros i' [= <-] En Ne.
      cbn [t_indexes add_global_error]. unfold ix_name in En. destruct (truthy (ix_rawname i)); [rewrite <- En; exact D|]. exfalso.
      destruct (ix_columns i) as [|c l] eqn:Ec; [auto|]. apply (Ni i Din). rewrite Ec. auto with datatypes. left. exact En.
    + apply add_index_ok in P as (B1 & _ & _). destruct (Ext _ _ B1 (Ni i Din)) as [Z1 Z2]. split; [exact Z1|]. split; [exact Z2|].
      intros i' [= <-] En _. apply dmem_iff. rewrite B1. unfold dkeys. rewrite map_app. apply in_or_app. right. left. exact En.
  - assert (Z : ~ covered t' col /\ forall m, dmem m (t_indexes t) = true -> dmem m (t_indexes t') = true).
    2:{ destruct Z. split; [assumption|]. split; [assumption|discriminate]. }
    match type of P with (if ?c then _ else _) = _ => destruct c end; [injection P as <-; apply Same; reflexivity|].
    apply bind_ok in P as (t1 & P1 & P). apply add_constraint_ok in P1 as (A1 & _ & _).
    match type of P with (if ?c then _ else _) = _ => destruct c eqn:C end; [|injection P as <-; apply Same, A1].
    apply add_index_ok in P as (B1 & _ & _). rewrite A1 in B1. eapply Ext; [exact B1|]. intros [X|[]].
    apply andb_true_iff in C as [C _]. apply andb_true_iff in C as [-> C].
    rewrite A1 in C. simpl in X, C. rewrite X in C. rewrite (Hk k eq_refl X) in C. discriminate.
  - discriminate.
Qed.
Lemma uncovered_fold all col : forall post t t',
  (forall i, In (DefIndex i) all -> ~ In col (ix_columns i)) ->
  (forall p, In (DefCol p) all -> p_primary p = true -> p_name p <> col) ->
  (forall d, In d post -> In d all) ->
  (dmem col (t_indexes t) = true
   \/ exists pre i rest, post = pre +++ DefIndex i :: rest /\ ix_name i = col /\ ix_columns i <> []
        /\ forall k, In (DefFk true k) pre -> k_column k <> col) ->
  foldM (process_def all) post t = Ok t' -> ~ covered t col -> ~ covered t' col.
Proof.
  induction post as [|d post IH]; intros t t' Ni Np Sub St F N; simpl in F; [injection F as <-; exact N|].
  apply bind_ok in F as (t1 & F1 & F).
  destruct (uncovered_step all col d t t1 (Sub d (or_introl eq_refl)) Ni Np) as (Z1 & Z2 & Z3); auto.
  { intros k -> Ek. destruct St as [St|(pre & i & rest & E & _ & _ & Nk)]; [exact St|].
    destruct pre as [|d0 pre]; [discriminate|]. injection E as <- E. exfalso. exact (Nk k (or_introl eq_refl) Ek). }
  apply (IH t1 t' Ni Np); auto; [intros; apply Sub; right; assumption|].
  destruct St as [St|(pre & i & rest & E & En & Ne & Nk)]; [left; auto|].
  destruct pre as [|d0 pre]; simpl in E; injection E as -> E; [left; eapply Z3; eauto|].
  right. exists pre, i, rest. split; [exact E|]. split; [exact En|]. split; [exact Ne|]. intros k K. apply Nk. right. exact K.
Qed.
(** The condition on names is needed, whatever the table: if an index named like a column stands
    before each unnamed foreign key on this column, and neither an index nor the PRIMARY KEY of a
    column line contains the column, then no index of the table read contains it. *)
Theorem C58_uncovered : forall v t, create_process v = Ok t ->
  forall pre i post col, vkids "definitions" v = pre +++ DefIndex i :: post ->
  ix_name i = col -> ix_columns i <> [] ->
  (forall k, In (DefFk true k) pre -> k_column k <> col) ->
  (forall j, In (DefIndex j) (vkids "definitions" v) -> ~ In col (ix_columns j)) ->
  (forall p, In (DefCol p) (vkids "definitions" v) -> p_primary p = true -> p_name p <> col) ->
  forall n j, In (n, j) (t_indexes t) -> ~ In col (ix_columns j).
Proof.
  intros v t E pre i post col Ed En Ne Nk Ni Np n j I C. unfold create_process in E. apply bind_ok in E as (t1 & E1 & E).
  assert (X : ~ covered t1 col).
  { refine (uncovered_fold _ col _ _ t1 Ni Np (fun d H => H) _ E1 _); [|intros (m & x & [] & _)].
    right. exists pre, i, post. auto. }
  apply X. exists n, j. split; [|exact C]. destruct (dmem _ _); injection E as <-; exact I.
Qed.
(** An index that has the name of the column, but is on another column. *)
Definition cover_sql : string :=
  "CREATE TABLE `t` (`id` INT(10) NOT NULL, `a` INT(10), `b` INT(10), PRIMARY KEY (`id`), KEY `a` (`b`), FOREIGN KEY (`a`) REFERENCES `u` (`id`));".
Example ex_C58_uncovered : exists v t pre i post,
  run_rules create_rules (normalize (drop_lengths (drop_dashes cover_sql))) [] = Ok (Some v, "") /\ create_process v = Ok t
  /\ vkids "definitions" v = pre +++ DefIndex i :: post /\ ix_name i = "a" /\ ix_columns i = ["b"]
  /\ (exists k, In (DefFk true k) post /\ k_column k = "a")
  /\ (forall k, In (DefFk true k) pre -> k_column k <> "a")
  /\ (forall j, In (DefIndex j) (vkids "definitions" v) -> ~ In "a" (ix_columns j))
  /\ (forall p, In (DefCol p) (vkids "definitions" v) -> p_primary p = true -> p_name p <> "a").
Proof.
  found_some (run_rules create_rules (normalize (drop_lengths (drop_dashes cover_sql))) []).
  match goal with |- context [create_process ?v] => found (create_process v) end.
  match goal with |- context [vkids "definitions" ?v] =>
    let l := eval vm_compute in (vkids "definitions" v) in
    match l with [?a; ?b; ?c; ?d; DefIndex ?i; ?e] => exists [a; b; c; d], i, [e] end end.
  split; [by_vm|]. split; [by_vm|]. split; [by_vm|]. split; [reflexivity|]. split; [reflexivity|].
  split; [eexists; split; [left; reflexivity|reflexivity]|].
  split; [intros k H; simpl in H; intuition discriminate|].
  split; [intros j H; vm_compute in H|intros p H Q; vm_compute in H].
  - repeat destruct H as [H|H]; try discriminate; try (injection H as <-; simpl; intuition discriminate). contradiction.
  - repeat destruct H as [H|H]; try discriminate; try (injection H as <-; simpl; discriminate). contradiction.
Qed.
Theorem C58_refuted : exists t k, create_parse cover_sql = Ok (Some t, "") /\ dvals (t_constraints t) = [k] /\ k_column k = "a"
  /\ forall n i, In (n, i) (t_indexes t) -> ~ In "a" (ix_columns i).
Proof.
  found_some (create_parse cover_sql). eexists. split; [by_vm|]. split; [reflexivity|]. split; [reflexivity|].
  intros n i H. simpl in H. destruct H as [[= <- <-]|[[= <- <-]|[]]]; simpl; intuition discriminate.
Qed.

Print Assumptions C36_never_accepted.
Print Assumptions C36_refuted.
Print Assumptions C38_second_definition_silent.
Print Assumptions C38_refuted.
Print Assumptions C38_refuted_stale.
Print Assumptions C39_unmatched_reported_partial.
Print Assumptions C39_refuted.
Print Assumptions C39_refuted_type.
Print Assumptions C41_never_reported.
Print Assumptions C41_refuted.
Print Assumptions C48_definitions_consume_partial.
Print Assumptions C48_statements_consume_partial.
Print Assumptions C48_repetition_limit_partial.
Print Assumptions C48_loop_progress_partial.
Print Assumptions C48_refuted.
Print Assumptions C49_keyword_case.
Print Assumptions C49_text_case.
Print Assumptions C50_quoted_list.
Print Assumptions C51_leading_comments_partial.
Print Assumptions C51_source_partial.
Print Assumptions C51_refuted.
Print Assumptions C57_below_the_limit_partial.
Print Assumptions C57_refuted.
Print Assumptions C58_unnamed_keys_partial.
Print Assumptions C58_uncovered.
Print Assumptions C58_refuted.
