(** C113: statements that the tool does not know. *)
From Verif Require Import CliFacts Samples SpecOrder SpecLive SpecMany SpecWrite SpecStored StoredFacts OtherFacts PropsParse PropsRound PropsWrite PropsLive PropsCli PropsMany PropsCreate PropsSeen PropsMeaning PropsDefs PropsTrail PropsTold PropsWarn PropsCut.

Local Opaque read_sql max_statements max_turns.

Section Other.
  Context {FO : FloatOracle}.

  Lemma errors_first b b1 errors : db_errors b = (b1, Ok errors) -> exists more, errors = d_global_errors b +++ more.
  Proof.
    intros E. pose proof (db_errors_global _ _ _ E) as G. unfold db_errors in E. destruct (find_schema_errors b) as [x [l|]]; [|discriminate]. destruct (find_parsing_errors x) as [y [m|]]; [|discriminate].
    injection E as <- <-. rewrite G. eauto.
  Qed.
  (** For any files: the errors begin with a complaint for each source whose reading ends at a statement
      that is not known, with the text from there on and the name of the file, in the order of the sources. *)
  Theorem C113_errors_exact : forall srcs b b1 errors, file_database srcs = Ok b -> db_errors b = (b1, Ok errors) ->
    exists more, errors = concat (map complaints srcs) +++ more.
  Proof. intros srcs b b1 errs E Ee. destruct (errors_first _ _ _ Ee) as [more H]. exists more. rewrite (database_told srcs b E) in H. exact H. Qed.

  (** For any files: unless [check] ends with an exception, it prints each of these complaints and fails, and [plan]
      and [apply] print the same, and nothing is sent. *)
  Theorem C113_told : forall w config srcs src m, reads_from w config srcs -> In src srcs -> In m (complaints src) ->
    (forall e, run_end (run_check w config) <> Uncaught e) ->
    exists errors, In m errors
      /\ In ("Errors found in *.sql files:" ++ String.concat "" (map (fun m => String newline m) errors)) (run_out (run_check w config))
      /\ exit_status (run_check w config) = 1
      /\ run_err (run_plan w false config) = "Errors found in *.sql files" :: errors /\ run_deeds (run_plan w false config) = []
      /\ run_err (run_apply w false config) = "Errors found in *.sql files" :: errors /\ forall q, ~ In (Query q) (run_deeds (run_apply w false config)).
  Proof.
    intros w config srcs src m R Is Im X. pose proof (reads_load w config _ R) as L.
    destruct (file_database srcs) as [b|e] eqn:Fd; [|exfalso; unfold run_check in X; rewrite L in X; apply (X e eq_refl)].
    destruct (db_errors b) as [b1 [errors|e]] eqn:Ee; [|exfalso; unfold run_check in X; rewrite L, Ee in X; apply (X e eq_refl)].
    destruct (C113_errors_exact _ _ _ _ Fd Ee) as [more H].
    assert (I : In m errors).
    { rewrite H. apply in_or_app. left. apply in_concat. exists (complaints src). split; [apply in_map, Is|exact Im]. }
    assert (Ck : In ("Errors found in *.sql files:" ++ String.concat "" (map (fun m => String newline m) errors)) (run_out (run_check w config)) /\ run_end (run_check w config) = Exited false).
    { unfold run_check in *. rewrite L, Ee in *. destruct (db_warnings b1) as [b2 [ws|e]]; [|exfalso; apply (X e eq_refl)]. destruct errors as [|x errors]; [destruct I|].
      cbn [list_is_nil andb run_out run_end]. split; [|reflexivity]. apply in_or_app. right. left. rewrite join_block. reflexivity. }
    destruct Ck as [Ck En]. exists errors. split; [exact I|]. split; [exact Ck|]. split; [unfold exit_status; rewrite En; reflexivity|].
    destruct (C80_refused_status w FO config En) as (errs & _ & P1 & P2 & _ & P3 & P4 & _).
    assert (Q : errs = errors).
    { assert (B : build w false config = ([], "Errors found in *.sql files" :: errors, Ok [])) by (unfold build; rewrite L, Ee; destruct errors; [destruct I|reflexivity]).
      unfold run_plan in P1. rewrite B in P1. cbn [run_err] in P1. injection P1 as ->. reflexivity. }
    subst errs. auto.
  Qed.
  (** Full statement: if a file holds text that is not understood, [check] names it and ends with a status
      other than 0.  False, see [C113_refuted].  Proved for text that begins with a statement that the tool
      does not know, such as ALTER or DROP, after any number of statements that C75 allows: whatever the other
      sources are, unless [check] ends with an exception, it prints the text together with the name of the file
      and fails; and [plan] and [apply] print the same, and nothing is sent. *)
  Theorem C113_reported_partial : forall w config srcs srcs' file s l r, reads_from w config (srcs +++ (file, s) :: srcs') -> other_after l r s ->
    (forall e, run_end (run_check w config) <> Uncaught e) ->
    exists errors, In (complaint file r) errors
      /\ In ("Errors found in *.sql files:" ++ String.concat "" (map (fun m => String newline m) errors)) (run_out (run_check w config))
      /\ exit_status (run_check w config) = 1
      /\ run_err (run_plan w false config) = "Errors found in *.sql files" :: errors /\ run_deeds (run_plan w false config) = []
      /\ run_err (run_apply w false config) = "Errors found in *.sql files" :: errors /\ forall q, ~ In (Query q) (run_deeds (run_apply w false config)).
  Proof.
    intros w config srcs srcs' file s l r R O X. apply (C113_told w config _ (file, s) _ R); [apply in_or_app; right; left; reflexivity| |exact X].
    rewrite (other_complaint l r file s O). left. reflexivity.
  Qed.
End Other.

(** ** Instances *)

Definition alter_text : string := "ALTER TABLE `users` ADD `mail` TEXT;".
Definition alter_file : string := users_plain ++ " " ++ insert_text "users" ["id"; "name"] true true users_rows ";" ++ " " ++ alter_text.
Lemma alter_after : other_after source_a alter_text alter_file.
Proof.
  split; [constructor; try reflexivity; discriminate|]. split; [cbn; lia|]. eexists. split; [|apply laid_same].
  apply begun_more; [constructor; [exact users_written|reflexivity]| |intros T _; reflexivity].
  apply begun_last; [rows_written true true| |intros T E; discriminate].
  constructor; [discriminate|vm_compute; reflexivity|apply no_comment_like; reflexivity|apply no_length_like; reflexivity].
Qed.
Definition alter_shop : world := site_world "/srv/app/sql" ["all.sql"] [("/srv/app/sql/all.sql", alter_file)] [].
Example ex_C113 : reads_from alter_shop "mygrate.conf" [("/srv/app/sql/all.sql", alter_file)] /\ other_after source_a alter_text alter_file
  /\ (forall e, run_end (run_check alter_shop "mygrate.conf") <> Uncaught e)
  /\ run_out (run_check alter_shop "mygrate.conf")
     = ["Errors found in *.sql files:" ++ nl ++ "Unrecognized MySQL command: ALTER TABLE `users` ADD `mail` TEXT; in file /srv/app/sql/all.sql"].
Proof.
  split; [exists "/srv/app/sql"; split; vm_compute; reflexivity|]. split; [exact alter_after|]. split; [intros e; vm_compute; discriminate|]. by_vm.
Qed.
Example ex_C113_exact : exists b b1 errors, file_database [("a.sql", alter_file); ("b.sql", " drop table users;")] = Ok b /\ db_errors b = (b1, Ok errors)
  /\ errors = ["Unrecognized MySQL command: ALTER TABLE `users` ADD `mail` TEXT; in file a.sql"; "Unrecognized MySQL command: drop table users; in file b.sql"].
Proof. eexists _, _, _. split; [vm_compute; reflexivity|]. split; vm_compute; reflexivity. Qed.
(** Full statement: if a file holds text that is not understood, [check] names it.  False: for a CREATE TABLE statement
    without its last parenthesis, neither the file nor the table is named. *)
Theorem C113_refuted : forall FO : FloatOracle, exists w config file s, reads_from w config [(file, s)]
  /\ s = "CREATE TABLE `users` (`id` INT(10) NOT NULL, PRIMARY KEY (`id`)"
  /\ run_check w config = mkRun [] ["Errors found in *.sql files:" ++ nl ++ "Table missing name" ++ nl ++ "Table '' does not have any columns"] [] (Exited false).
Proof.
  intros FO. set (s := "CREATE TABLE `users` (`id` INT(10) NOT NULL, PRIMARY KEY (`id`)").
  exists (site_world "/srv/app/sql" ["all.sql"] [("/srv/app/sql/all.sql", s)] []), "mygrate.conf", "/srv/app/sql/all.sql", s.
  split; [exists "/srv/app/sql"; split; vm_compute; reflexivity|]. split; [reflexivity|]. by_vm.
Qed.
(** Other statements that begin with CREATE are not known either: the file is named by the line that a ValueError leaves,
    but not the text; what follows is lost. *)
Theorem C113_refuted_create : forall FO : FloatOracle, exists w config file s, reads_from w config [(file, s)] /\ s = "CREATE DATABASE shop;"
  /\ run_check w config = mkRun [] ["Error in file " ++ file ++ ": Exceeded max parse depth";
       "Errors found in *.sql files:" ++ nl ++ "Table missing name" ++ nl ++ "Table '' does not have any columns"] [] (Exited false).
Proof.
  intros FO. set (s := "CREATE DATABASE shop;").
  exists (site_world "/srv/app/sql" ["all.sql"] [("/srv/app/sql/all.sql", s)] []), "mygrate.conf", "/srv/app/sql/all.sql", s.
  split; [exists "/srv/app/sql"; split; vm_compute; reflexivity|]. split; [reflexivity|]. by_vm.
Qed.
Print Assumptions C113_errors_exact.
Print Assumptions C113_told.
Print Assumptions C113_reported_partial.
Print Assumptions C113_refuted.
Print Assumptions C113_refuted_create.
