(** C117: INSERT statements without a list of columns. *)
From Verif Require Import CliFacts Samples OtherFacts PropsParse PropsRound PropsCli PropsMany PropsRemark PropsOther PropsCreate.

Local Opaque max_statements max_turns.

(** The text [s] is an INSERT INTO the table [n], a word, without a list of columns: [u] is what follows the
    name, such as VALUES and the values, SET or SELECT; white space counts as in MySQL. *)
Record insert_all (n u s : string) : Prop := {
  ia_name : n <> "" /\ sforall table_char n = true;
  ia_rest : other_statement u;
  ia_open : String.prefix "(" u = false;
  ia_text : normalize s = "INSERT INTO " ++ n ++ " " ++ u
}.

Lemma neat_rest a b : forall w, neat_from w (a ++ b) = true -> exists w', neat_from w' b = true.
Proof.
  induction a as [|c a IH]; intros w H; [eauto|]. cbn [String.append neat_from] in H. destruct (is_space c); [apply andb_true_iff in H as [_ H]|]; eauto.
Qed.
Lemma trim_rest n u s : insert_all n u s -> trim u = true /\ trim (n ++ " " ++ u) = true.
Proof.
  intros [[Nn Nc] O P E]. pose proof (normal_trim s) as T. rewrite E in T. unfold trim in T. apply andb_true_iff in T as [T _].
  assert (Hu : u <> "") by apply O.
  assert (S : starts not_space u = true).
  { unfold neat in T. replace ("INSERT INTO " ++ n ++ " " ++ u) with (("INSERT INTO " ++ n) ++ String " " u) in T by (rewrite sapp_assoc; reflexivity).
    destruct (neat_rest _ _ _ T) as [w W]. cbn [neat_from] in W. change (is_space " ") with true in W. cbv iota in W. apply andb_true_iff in W as [_ W].
    destruct u as [|c u]; [contradiction|]. cbn [neat_from starts] in *. unfold not_space. destruct (is_space c); [discriminate|reflexivity]. }
  assert (G : forall a x, neat (a ++ x) = true -> starts not_space x = true -> x <> "" -> trim x = true).
  { intros a x H Sx Nx. unfold trim. rewrite Sx, andb_true_r. destruct (neat_rest a x false H) as [w W]. destruct x as [|c x]; [contradiction|].
    unfold neat. cbn [neat_from starts] in *. unfold not_space in Sx. destruct (is_space c); [discriminate|exact W]. }
  split.
  - apply (G ("INSERT INTO " ++ n ++ " ")); [rewrite !sapp_assoc; exact T|exact S|exact Hu].
  - apply (G "INSERT INTO "); [exact T| |destruct n; [contradiction|discriminate]]. destruct n as [|c n]; [contradiction|]. cbn [sforall String.append starts] in *.
    apply andb_true_iff in Nc as [C _]. unfold table_char in C. unfold not_space. destruct (is_space c); [discriminate|reflexivity].
Qed.
Lemma all_parse n u s : insert_all n u s -> insert_parse s = Ok (None, u).
Proof.
  intros H. destruct (trim_rest n u s H) as [Tu Tn]. destruct H as [[Nn Nc] O P E]. unfold insert_parse, parse_with. rewrite E. unfold insert_rules, lit.
  assert (Nu : n ++ " " ++ u <> "") by (destruct n; [contradiction|discriminate]).
  rewrite (step_lit _ _ _ _ _ (String " " (n ++ " " ++ u))); [|reflexivity|rewrite strip_space by exact Tn; exact Nu]. rewrite strip_space by exact Tn.
  assert (R : @re_match (list rval * bool) (plus table_char) (n ++ " " ++ u) = Some (VText n, " " ++ u)) by (apply plus_word; [exact Nc|exact Nn|reflexivity]).
  assert (Su : strip (" " ++ u) = u) by (apply (strip_space u), Tu).
  rewrite (step_re _ _ _ _ _ _ _ _ R) by (rewrite Su; apply O). rewrite Su.
  rewrite fail_lit; [reflexivity|]. destruct u as [|c u]; [reflexivity|]. cbn [match_lit]. destruct (Ascii.eqb_spec (to_lower "(") (to_lower c)) as [Q|]; [|reflexivity].
  exfalso. assert (c = "("%char) by (revert Q; clear; destruct c as [[|] [|] [|] [|] [|] [|] [|] [|]]; vm_compute; congruence). subst c.
  assert (Z : String.prefix "(" (String "(" u) = true) by (apply prefix_iff; exists u; reflexivity). congruence.
Qed.
(** No row is read, and the text after the name is reported together with the name of the file. *)
Lemma all_read file n u s : insert_all n u s -> read_sql file s = (mkReader [] [("", [no_rows])] [complaint file u] false, Ok u).
Proof.
  intros H. destruct (trim_rest n u s H) as [Tu Tn]. pose proof (all_parse n u s H) as P. destruct H as [[Nn Nc] O Pr E].
  assert (Ps : insert_parse (strip s) = Ok (None, u)) by (unfold insert_parse, parse_with in *; rewrite normalize_strip; exact P).
  pose proof E as E0. apply (normal_prefix "INSERT" s (" INTO " ++ n ++ " " ++ u)) in E0 as [y Y]; [|discriminate|reflexivity].
  unfold read_sql. pose proof statements_enough as L. destruct max_statements as [|[|k]]; [lia|lia|]. clear L.
  cbn [read_loop]. destruct (is_empty s) eqn:Q; [apply is_empty_iff in Q; subst s; discriminate|].
  assert (H1 : statement_of (strip s) = SInsert) by (rewrite Y; reflexivity).
  assert (H2 : is_empty (strip s) = false) by (rewrite Y; reflexivity).
  rewrite H1, H2, Ps. cbn [read_loop]. rewrite (trim_strip u Tu), (other_none u O). destruct O as [N _ _ _ _ _]. destruct u as [|c u]; [contradiction|]. cbn [is_empty].
  rewrite notice_eq. reflexivity.
Qed.

Local Opaque read_sql.

Section List.
  Context {FO : FloatOracle}.

  (** For any files: if the reading of one of them ends at text that is not known, check fails, and plan and
      apply send nothing. *)
  Theorem C113_nothing_sent : forall w config srcs src, reads_from w config srcs -> In src srcs -> complaints src <> [] ->
    exit_status (run_check w config) = 1 /\ run_deeds (run_plan w false config) = [] /\ forall q, ~ In (Query q) (run_deeds (run_apply w false config)).
  Proof.
    intros w config srcs src R I C. pose proof (reads_load w config srcs R) as L.
    destruct (run_end (run_check w config)) as [[|]|e|m] eqn:En.
    - exfalso. unfold run_check in En. rewrite L in En. destruct (file_database srcs) as [b|] eqn:Fd; [|discriminate]. destruct (db_errors b) as [b1 [errs|]] eqn:Ee; [|discriminate].
      destruct (db_warnings b1) as [b2 [ws|]]; [|discriminate]. cbn [run_end] in En. injection En as En. destruct (C113_errors_exact srcs b b1 errs Fd Ee) as [more M].
      assert (Z : errs <> []).
      { intros ->. symmetry in M. apply app_eq_nil in M as [M _]. apply C. apply in_split in I as (l1 & l2 & ->). rewrite map_app, concat_app in M. apply app_eq_nil in M as [_ M].
        cbn [map concat] in M. apply app_eq_nil in M as [M _]. exact M. }
      destruct errs; [contradiction|discriminate].
    - destruct (C80_refused_status w FO config En) as (errs & _ & _ & P2 & _ & _ & P4 & _). unfold exit_status. rewrite En. auto.
    - split; [unfold exit_status; rewrite En; reflexivity|].
      assert (B : exists err r, build w false config = ([], err, r) /\ match r with Ok l => l = [] | Raise _ => True end).
      { unfold build. unfold run_check in En. rewrite L in *. destruct (file_database srcs) as [b|] eqn:Fd; [|do 2 eexists; split; [reflexivity|exact Logic.I]]. destruct (db_errors b) as [b1 [errs|]] eqn:Ee; [|do 2 eexists; split; [reflexivity|exact Logic.I]].
        destruct (C113_errors_exact srcs b b1 errs Fd Ee) as [more M].
        assert (Z : errs <> []).
        { intros ->. symmetry in M. apply app_eq_nil in M as [M _]. apply C. apply in_split in I as (l1 & l2 & ->). rewrite map_app, concat_app in M. apply app_eq_nil in M as [_ M].
          cbn [map concat] in M. apply app_eq_nil in M as [M _]. exact M. }
        destruct errs as [|x errs]; [contradiction|]. do 2 eexists; split; reflexivity. }
      destruct B as (err & r & B & Hr). unfold run_plan, run_apply. rewrite B. destruct r as [ops|e']; [|split; [reflexivity|intros q []]].
      subst ops. split; [reflexivity|]. intros q. cbn [map get_driver]. destruct (driver_credentials _ _ _ _) as [c|e']; [|intros []].
      destruct (w_connect w c); [intros []|]. intros [H|[H|[]]]; discriminate.
    - exfalso. unfold run_check in En. repeat match type of En with context [match ?x with _ => _ end] => destruct x; try discriminate end.
  Qed.
End List.

Section Nameless.
  Context {FO : FloatOracle}.

  (** Rows for the table [n] have been collected. *)
  Definition has_rows (n : string) (b : database) : Prop := exists d, d_rows b = Some d /\ dget n d <> None.
  Lemma push_has n w b : has_rows n b -> has_rows n (push_rows b w).
  Proof.
    intros (d & D & I). unfold has_rows, push_rows. cbn [d_rows]. rewrite D. eexists. split; [reflexivity|]. unfold dpush. rewrite dget_dset. destruct (keqb n (r_table w)); [discriminate|exact I].
  Qed.
  Lemma pushes_has n ws : forall b, has_rows n b -> has_rows n (fold_left push_rows ws b).
  Proof. induction ws as [|w ws IH]; intros b H; [exact H|]. apply IH, push_has, H. Qed.
  Lemma pushes_some ws : forall b, d_rows b <> None -> d_rows (fold_left push_rows ws b) <> None.
  Proof. induction ws as [|w ws IH]; intros b H; [exact H|]. apply IH. cbn [push_rows d_rows]. destruct (d_rows b); [discriminate|exact H]. Qed.
  Lemma put_all_rows l b b1 : foldM put_file_table l b = Ok b1 -> d_rows b1 = d_rows b.
  Proof. intros E. refine (foldM_inv (fun z => d_rows z = d_rows b) put_file_table _ _ _ _ eq_refl E). intros z t z' _ Z E'. rewrite (put_file_rows _ _ _ E'). exact Z. Qed.
  Lemma source_has n src b b' : has_rows n b -> read_source b src = Ok b' -> has_rows n b'.
  Proof.
    intros H. unfold read_source. destruct (read_sql (fst src) (snd src)) as [r x]. destruct (caught x); [discriminate|]. intros E. apply bind_ok in E as (b1 & E1 & E2). injection E2 as <-.
    apply pushes_has. destruct H as (d & D & I). exists d. cbn [add_errors d_rows]. rewrite (put_all_rows _ _ _ E1). auto.
  Qed.
  Lemma source_some src b b' : d_rows b <> None -> read_source b src = Ok b' -> d_rows b' <> None.
  Proof.
    intros H. unfold read_source. destruct (read_sql (fst src) (snd src)) as [r x]. destruct (caught x); [discriminate|]. intros E. apply bind_ok in E as (b1 & E1 & E2). injection E2 as <-.
    apply pushes_some. cbn [add_errors d_rows]. rewrite (put_all_rows _ _ _ E1). exact H.
  Qed.
  Lemma foldM_parts {A S} (f : S -> A -> res S) l1 : forall l2 s r, foldM f (l1 +++ l2) s = Ok r -> exists m, foldM f l1 s = Ok m /\ foldM f l2 m = Ok r.
  Proof. induction l1 as [|a l1 IH]; intros l2 s r E; [cbn; eauto|]. cbn [List.app foldM] in *. apply bind_ok in E as (s1 & E1 & E2). rewrite E1. apply (IH _ _ _ E2). Qed.
  Lemma combined_table n b1 b : rows_full b1 -> has_rows n b1 -> Reader.combine b1 = Ok b -> dget n (d_tables b) <> None.
  Proof.
    intros F (d & D & I) E. unfold Reader.combine in E. rewrite D in E. destruct (dget n d) as [l|] eqn:G; [|contradiction]. apply dget_in, in_split in G as (d1 & d2 & ->). apply foldM_parts in E as (b2 & E1 & E2).
    cbn [foldM] in E2. apply bind_ok in E2 as (b3 & E2 & E3).
    assert (P : dget n (d_tables b3) <> None).
    { unfold combine_one in E2. destruct (dget n (d_tables b2)) as [o|].
      - apply bind_ok in E2 as (o' & _ & [= <-]). cbn [set_tables d_tables]. rewrite dget_dset, keqb_refl. discriminate.
      - destruct l; [|discriminate]. exfalso. apply (F _ n [] D); [|reflexivity]. apply in_or_app. right. left. reflexivity. }
    refine (foldM_inv (fun z => dget n (d_tables z) <> None) combine_one _ _ _ _ P E3).
    intros z [m ws] z' _ Z E. unfold combine_one in E. destruct (dget m (d_tables z)) as [o|] eqn:M.
    - apply bind_ok in E as (o' & _ & [= <-]). cbn [set_tables d_tables]. rewrite dget_dset. destruct (keqb n m); [discriminate|exact Z].
    - destruct ws; [|discriminate]. injection E as <-. exact Z.
  Qed.
  (** For any files: a database is made only if some table has no name. *)
  Lemma all_table srcs srcs' file n u s b : insert_all n u s -> file_database (srcs +++ (file, s) :: srcs') = Ok b -> dget "" (d_tables b) <> None.
  Proof.
    intros A. unfold file_database. intros E. apply bind_ok in E as (b1 & E1 & E2).
    assert (F0 : rows_full empty_database) by (intros d m l [= <-] []).
    destruct (sources_told _ empty_database b1 F0 E1) as [F _].
    apply (combined_table "" b1 b F); [|exact E2]. apply foldM_parts in E1 as (b0 & E0 & E1). cbn [foldM] in E1. apply bind_ok in E1 as (b3 & E3 & E4).
    refine (foldM_inv (fun z => has_rows "" z) read_source _ _ _ _ _ E4); [intros z src z' _ Z E; exact (source_has "" src z z' Z E)|].
    assert (S0 : d_rows b0 <> None) by (refine (foldM_inv (fun z => d_rows z <> None) read_source _ _ _ _ _ E0); [intros z src z' _ Z E; exact (source_some src z z' Z E)|discriminate]).
    unfold read_source in E3. cbn [fst snd] in E3. rewrite (all_read file n u s A) in E3. cbn [caught] in E3. apply bind_ok in E3 as (b4 & E3 & E5). injection E3 as <-. injection E5 as <-.
    cbn. unfold has_rows. cbn [push_rows d_rows add_errors]. destruct (d_rows b0) as [d|]; [|contradiction]. eexists. split; [reflexivity|]. unfold dpush. rewrite dget_dset. discriminate.
  Qed.

  (** Full statement: an INSERT without a list of columns, which MySQL accepts, gives rows to the table that it
      names, or is reported.  False, see [C117_refuted].  Proved, whatever else is in this and in the other files
      (before and after): no row of it is used, for [check] fails, and [plan] and [apply] send nothing. *)
  Theorem C117_refused_partial : forall w config srcs srcs' file n u s, reads_from w config (srcs +++ (file, s) :: srcs') -> insert_all n u s ->
    exit_status (run_check w config) = 1 /\ run_deeds (run_plan w false config) = [] /\ forall q, ~ In (Query q) (run_deeds (run_apply w false config)).
  Proof.
    intros w config srcs srcs' file n u s R A. apply (C113_nothing_sent w config _ (file, s) R); [apply in_or_app; right; left; reflexivity|].
    unfold complaints. cbn [fst snd]. rewrite (all_read file n u s A). destruct A as [_ [N _ _ _ _ _] _ _]. cbn [snd]. destruct u; [contradiction|discriminate].
  Qed.
  (** No table that is read from the sources is without a name. *)
  Definition all_named (srcs : list source) : Prop :=
    forall src t, In src srcs -> In t (dvals (Reader.rd_tables (fst (read_sql (fst src) (snd src))))) -> t_name t <> "".
  Lemma named_none srcs b : all_named srcs -> file_database srcs = Ok b -> dget "" (d_tables b) = None.
  Proof.
    intros H. unfold file_database. intros E. apply bind_ok in E as (b1 & E1 & E2).
    assert (N : dget "" (d_tables b1) = None).
    { refine (foldM_inv (fun z => dget "" (d_tables z) = None) read_source _ _ _ _ _ E1); [|reflexivity]. clear - H. intros z src z' I Z E. specialize (H src).
      unfold read_source in E. destruct (read_sql (fst src) (snd src)) as [r x]. destruct (caught x); [discriminate|]. apply bind_ok in E as (b2 & E2 & [= <-]).
      match goal with |- context [fold_left push_rows ?l ?b] => destruct (ReadMore.push_all l b) as (-> & _) end. cbn [add_errors d_tables].
      refine (foldM_inv (fun y => dget "" (d_tables y) = None) put_file_table _ _ _ _ Z E2). intros y t y' It Y E. pose proof (H t I It) as Nt. clear - Nt Y E.
      unfold put_file_table in E. apply bind_ok in E as (y1 & E1 & [= <-]). cbn [set_tables d_tables]. rewrite dget_dset.
      assert (Q : keqb "" (t_name t) = false) by (apply keqb_false; congruence). rewrite Q.
      destruct (dmem _ _); [|congruence]. destruct (db_errors y) as [y2 [l|e]] eqn:Ey; [|discriminate]. injection E1 as <-.
      pose proof (errors_bares y) as Eb. rewrite Ey in Eb. cbn [fst] in Eb. apply (f_equal (dget "")) in Eb. unfold db_tables in Eb. rewrite !dget_bares, Y in Eb. destruct (dget "" (d_tables y2)); [discriminate|reflexivity]. }
    unfold Reader.combine in E2. refine (foldM_inv (fun z => dget "" (d_tables z) = None) combine_one _ _ _ _ N E2).
    intros z [m ws] z' _ Z E. unfold combine_one in E. destruct (dget m (d_tables z)) as [o|] eqn:M.
    - apply bind_ok in E as (o' & _ & [= <-]). cbn [set_tables d_tables]. rewrite dget_dset. destruct (keqb "" m) eqn:Q; [apply keqb_true in Q; congruence|exact Z].
    - destruct ws; [injection E as <-; exact Z|discriminate].
  Qed.
  (** How it fails: all commands end with an exception, unless some file has a table without a name. *)
  Theorem C117_exception : forall w config srcs srcs' file n u s, reads_from w config (srcs +++ (file, s) :: srcs') -> insert_all n u s ->
    all_named (srcs +++ (file, s) :: srcs') ->
    exists e, forall force, run_end (run_check w config) = Uncaught e /\ run_end (run_plan w force config) = Uncaught e /\ run_end (run_apply w force config) = Uncaught e
      /\ run_deeds (run_plan w force config) = [] /\ run_deeds (run_apply w force config) = [].
  Proof.
    intros w config srcs srcs' file n u s R A H. pose proof (reads_load w config _ R) as L.
    destruct (file_database (srcs +++ (file, s) :: srcs')) as [b|e] eqn:Fd; [exfalso; apply (all_table _ _ _ _ _ _ _ A Fd), (named_none _ _ H Fd)|].
    exists e. intros force. unfold run_check, run_plan, run_apply, build. rewrite L. auto.
  Qed.
  (** Alone in a file, after which there is no table at all: *)
  Theorem C117_alone : forall file n u s, insert_all n u s -> file_database [(file, s)] = Raise (KeyError "").
  Proof.
    intros file n u s A. unfold file_database, foldM, read_source. cbn [fst snd]. rewrite (all_read file n u s A). reflexivity.
  Qed.
End Nameless.

(** ** Instances *)

Definition users_all : string := "INSERT INTO users
VALUES (1, 'Jane'), (2, 'John');".
Lemma users_all_is : insert_all "users" "VALUES (1, 'Jane'), (2, 'John');" users_all.
Proof. constructor; [split; [discriminate|reflexivity]|constructor; try reflexivity; discriminate|reflexivity|reflexivity]. Qed.
Example ex_insert_set : insert_all "users" "SET id = 1, name = 'Jane'" " INSERT  INTO users SET id = 1, name = 'Jane' ".
Proof. constructor; [split; [discriminate|reflexivity]|constructor; try reflexivity; discriminate|reflexivity|reflexivity]. Qed.
Definition list_shop : world := site_world "/srv/app/sql" ["a.sql"; "b.sql"] [("/srv/app/sql/a.sql", users_plain); ("/srv/app/sql/b.sql", users_all)] [].
Example ex_C117 : reads_from list_shop "mygrate.conf" [("/srv/app/sql/a.sql", users_plain); ("/srv/app/sql/b.sql", users_all)].
Proof. exists "/srv/app/sql". split; vm_compute; reflexivity. Qed.
Example ex_C117_named : all_named [("/srv/app/sql/a.sql", users_plain); ("/srv/app/sql/b.sql", users_all)].
Proof. intros src t [<-|[<-|[]]]; vm_compute; [intros [<-|[]]; discriminate|intros []]. Qed.
(** The table exists and the rows have a value for each column; check prints nothing and ends with an exception. *)
Theorem C117_refuted : forall FO : FloatOracle, exists w config file file' s n u, reads_from w config [(file, users_plain); (file', s)] /\ insert_all n u s
  /\ run_check w config = mkRun [] [] [] (Uncaught (KeyError "")).
Proof.
  intros FO. exists list_shop, "mygrate.conf", "/srv/app/sql/a.sql", "/srv/app/sql/b.sql", users_all, "users". eexists. split; [exact ex_C117|]. split; [exact users_all_is|]. by_vm.
Qed.
Print Assumptions C113_nothing_sent.
Print Assumptions C117_refused_partial.
Print Assumptions C117_exception.
Print Assumptions C117_alone.
Print Assumptions C117_refuted.
