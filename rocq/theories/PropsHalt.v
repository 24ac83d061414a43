(** C118: definitions in a CREATE TABLE statement that the tool does not know. *)
From Verif Require Import CliFacts Samples SpecOrder SpecLive SpecMany SpecWrite SpecStored StoredFacts HaltFacts PropsParse PropsRound PropsWrite PropsLive PropsCli PropsMany PropsCreate PropsTrail PropsOther PropsList.

Local Opaque read_sql max_statements max_turns.

Lemma stop_complaint n before d s' file : stopped_source n before d s' -> unknown_definition d -> other_statement d -> (N.of_nat (List.length before) < 1000)%N ->
  complaints (file, s') = [complaint file d].
Proof. intros H L O B. unfold complaints. cbn [fst snd]. rewrite (stop_read n before d s' file H L O B). destruct O as [N _ _ _ _ _]. cbn [snd]. destruct d; [contradiction|reflexivity]. Qed.

Section Stop.
  Context {FO : FloatOracle}.

  (** Full statement: if a CREATE TABLE statement has a definition that the tool does not know, [check] names the
      definition and the file and fails, and [plan] and [apply] send nothing.  False, see [C118_refuted].  Proved for
      definitions that begin with a word and an opening parenthesis, such as KEY (a), INDEX (a), CHECK (a > 0) and
      FULLTEXT (a), and for constraints whose name has
      back-quotes other than foreign keys, such as CONSTRAINT `u` UNIQUE (a), after any number of definitions that are known, in any layout and with any text after it;
      whatever the other sources are. *)
  Theorem C118_refused_partial : forall w config srcs srcs' file n before d s', reads_from w config (srcs +++ (file, s') :: srcs') ->
    stopped_source n before d s' -> unknown_definition d -> other_statement d -> (N.of_nat (List.length before) < 1000)%N ->
    exit_status (run_check w config) = 1 /\ run_deeds (run_plan w false config) = [] /\ forall q, ~ In (Query q) (run_deeds (run_apply w false config)).
  Proof.
    intros w config srcs srcs' file n before d s' R H L O B. apply (C113_nothing_sent w config _ (file, s') R); [apply in_or_app; right; left; reflexivity|].
    rewrite (stop_complaint n before d s' file H L O B). discriminate.
  Qed.
  (** Unless an exception ends [check], the text from the definition on and the file are named. *)
  Theorem C118_reported_partial : forall w config srcs srcs' file n before d s', reads_from w config (srcs +++ (file, s') :: srcs') ->
    stopped_source n before d s' -> unknown_definition d -> other_statement d -> (N.of_nat (List.length before) < 1000)%N ->
    (forall e, run_end (run_check w config) <> Uncaught e) ->
    exists errors, In (complaint file d) errors
      /\ In ("Errors found in *.sql files:" ++ String.concat "" (map (fun m => String newline m) errors)) (run_out (run_check w config))
      /\ run_err (run_plan w false config) = "Errors found in *.sql files" :: errors
      /\ run_err (run_apply w false config) = "Errors found in *.sql files" :: errors.
  Proof.
    intros w config srcs srcs' file n before d s' R H L O B X. destruct (C113_told w config _ (file, s') (complaint file d) R) as (errors & E1 & E2 & _ & E3 & _ & E4 & _).
    - apply in_or_app. right. left. reflexivity.
    - rewrite (stop_complaint n before d s' file H L O B). left. reflexivity.
    - exact X.
    - exists errors. auto.
  Qed.
End Stop.
(** Keys without a name, which the tool itself renders (C53), are never read back: whatever the name of the table, the
    definitions before, the columns of the key and what follows. *)
Theorem C53_nameless_lost : forall n before cols rest s' file,
  stopped_source n before (index_str (mkIndex "" cols IIndex []) ++ rest) s' -> (N.of_nat (List.length before) < 1000)%N ->
  read_sql file s' = (mkReader [("", no_table)] [] [complaint file (index_str (mkIndex "" cols IIndex []) ++ rest)] false, Ok (index_str (mkIndex "" cols IIndex []) ++ rest)).
Proof.
  intros n before cols rest s' file H B. apply (stop_read n before _ s' file H); [left|constructor; try reflexivity; discriminate|exact B].
  exists "KEY", true. eexists. split; [constructor; [split; [discriminate|reflexivity]|left; reflexivity]|].
  unfold index_str. cbn [ix_type ix_rawname ix_columns truthy is_empty negb List.app join gap_text]. repeat (cbn [String.append]; rewrite ?sapp_assoc). reflexivity.
Qed.

(** ** Instances *)

Definition bare_key : string := "KEY (id), CHECK (id > 0));".
Definition mice_sql : string := "create table mice ( id int not null, KEY (id), CHECK (id > 0));".
Definition mice_file : string := "create table mice (
  -- the number of the mouse
  id int not null,
  KEY (id), CHECK (id > 0));".
Lemma mice_stopped : stopped_source "mice" [PartColumn id_col] bare_key mice_file.
Proof.
  exists mice_sql. split; [apply (stopped_as "mice" [PartColumn id_col] bare_key "create table mice" true ["id int not null"]); [apply (cats_head "mice"), clean_nameb; reflexivity|constructor; [constructor; exact id_col_written|constructor]]|].
  split; [constructor; [discriminate|vm_compute; reflexivity|apply no_comment_like; reflexivity|apply no_length_like; reflexivity]|].
  assert (S : layout (nl ++ "  ")) by (apply layout_spaces; [discriminate|reflexivity]).
  laid "create table mice " "("%char ((nl ++ "  ") ++ ("--" ++ " the number of the mouse" ++ nl) ++ "  ").
  { apply layout_more; [exact S|]. apply layout_more; [constructor; reflexivity|apply layout_spaces; [discriminate|reflexivity]]. }
  laid "id int not null" ","%char (nl ++ "  "); [exact S|]. apply relaid_same.
Qed.
Example ex_C53_nameless : stopped_source "mice" [PartColumn id_col] (index_str (mkIndex "" ["id"; "size"] IIndex []) ++ ");") "create table mice (id int not null, KEY (`id`,`size`));".
Proof.
  eexists. split; [apply (stopped_as "mice" [PartColumn id_col] _ "create table mice" false ["id int not null"]); [apply (cats_head "mice"), clean_nameb; reflexivity|constructor; [constructor; exact id_col_written|constructor]]|].
  split; [constructor; [discriminate|vm_compute; reflexivity|apply no_comment_like; reflexivity|apply no_length_like; reflexivity]|]. apply relaid_same.
Qed.
Example ex_list_word : Forall list_word ["KEY"; "index"; "CHECK"; "Fulltext"; "SPATIAL"; "PRIMARY"; "FOREIGN"].
Proof.
  repeat (apply Forall_cons || apply Forall_nil); (constructor; [split; [discriminate|reflexivity]|]);
    first [left; reflexivity|right; left; reflexivity|right; right; intros k Hk; cbn in Hk; decompose [or] Hk; subst; first [reflexivity|contradiction]].
Qed.
Definition mice_shop : world := site_world "/srv/app/sql" ["mice.sql"] [("/srv/app/sql/mice.sql", mice_file)] [].
Example ex_C118 : reads_from mice_shop "mygrate.conf" [("/srv/app/sql/mice.sql", mice_file)] /\ unknown_definition bare_key /\ other_statement bare_key
  /\ (forall e, run_end (run_check mice_shop "mygrate.conf") <> Uncaught e)
  /\ run_out (run_check mice_shop "mygrate.conf")
     = ["Errors found in *.sql files:" ++ nl ++ "Unrecognized MySQL command: KEY (id), CHECK (id > 0)); in file /srv/app/sql/mice.sql" ++ nl ++ "Table missing name" ++ nl ++ "Table '' does not have any columns"].
Proof.
  split; [exists "/srv/app/sql"; split; vm_compute; reflexivity|]. split; [left; exists "KEY", true; eexists; split; [constructor; [split; [discriminate|reflexivity]|left; reflexivity]|reflexivity]|].
  split; [constructor; try reflexivity; discriminate|]. split; [intros e; vm_compute; discriminate|]. by_vm.
Qed.
Definition ticked_key : string := "constraint `one` unique (id));".
Example ex_C118_ticked : stopped_source "mice" [PartColumn id_col] ticked_key "create table mice (id int not null,  constraint `one` unique (id));"
  /\ unknown_definition ticked_key /\ other_statement ticked_key.
Proof.
  split; [|split; [|constructor; try reflexivity; discriminate]].
  - exists "create table mice (id int not null, constraint `one` unique (id));".
    split; [apply (stopped_as "mice" [PartColumn id_col] ticked_key "create table mice" false ["id int not null"]); [apply (cats_head "mice"), clean_nameb; reflexivity|constructor; [constructor; exact id_col_written|constructor]]|].
    split; [constructor; [discriminate|vm_compute; reflexivity|apply no_comment_like; reflexivity|apply no_length_like; reflexivity]|].
    laid "create table mice (id int not null" ","%char "  "; [apply layout_spaces; [discriminate|reflexivity]|]. apply relaid_same.
  - right. exists "constraint", "one", "unique (id));". split; [reflexivity|]. split; [discriminate|]. split; [reflexivity|]. split; [reflexivity|].
    intros [|c a] b E L; [discriminate L|]. cbn [String.append] in E. injection E as <- _. discriminate L.
Qed.
(** A unique key that is named as a constraint: no error is found, nothing of the file counts, and the table of the
    server is dropped. *)
Definition mail_sql : string := "CREATE TABLE users (id INT(10) NOT NULL, mail VARCHAR(100) NOT NULL, PRIMARY KEY (id), CONSTRAINT one_mail UNIQUE (mail));".
Theorem C118_refuted : forall FO : FloatOracle, exists b live ops,
  file_database [("users.sql", mail_sql)] = Ok b /\ snd (db_errors b) = Ok [] /\ d_tables b = []
  /\ live_database [simple_live "users"] = Ok live
  /\ snd (build_commands false b (Ok (db_tables live)) (fun _ => Ok [])) = Ok ops
  /\ map op_str ops = ["SET FOREIGN_KEY_CHECKS=0;"; "DROP TABLE users;"; "SET FOREIGN_KEY_CHECKS=1;"].
Proof.
  intros FO. found (file_database [("users.sql", mail_sql)]). found (live_database [simple_live "users"]).
  eexists. split; [by_vm|]. split; [by_vm|]. split; [by_vm|]. split; [by_vm|]. split; [vm_compute; reflexivity|]. vm_compute. auto.
Qed.
Print Assumptions C118_refused_partial.
Print Assumptions C118_reported_partial.
Print Assumptions C53_nameless_lost.
Print Assumptions C118_refuted.
