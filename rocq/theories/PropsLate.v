(** C118: definitions of which the tool reads the first two words as a column, such as FULLTEXT KEY k (a),
    SPATIAL INDEX k (a) and CONSTRAINT c CHECK (a > 0). *)
From Verif Require Import CliFacts Samples SpecOrder SpecLive SpecMany SpecWrite SpecStored StoredFacts LateFacts PropsParse PropsRound PropsWrite PropsLive PropsCli PropsMany PropsCreate PropsTrail PropsOther PropsList PropsHalt.

Local Opaque read_sql max_statements max_turns.

Lemma late_complaint n before l d s' file : stopped_source n before (l ++ " " ++ d) s' -> two_words l -> named_list d -> other_statement d -> (N.of_nat (List.length before) < 999)%N ->
  complaints (file, s') = [complaint file d].
Proof. intros H L Hd O B. unfold complaints. cbn [fst snd]. rewrite (late_read n before l d s' file H L Hd O B). destruct O as [N _ _ _ _ _]. cbn [snd]. destruct d; [contradiction|reflexivity]. Qed.

Section Late.
  Context {FO : FloatOracle}.

  (** Full statement: see [C118_refused_partial].  Proved here for two words that are read as a column, such as FULLTEXT KEY or
      CONSTRAINT and a name, and then a name or a word and an opening parenthesis; after any number of definitions
      that are known, in any layout and with any text after it, whatever the other sources are. *)
  Theorem C118_late_refused_partial : forall w config srcs srcs' file n before l d s', reads_from w config (srcs +++ (file, s') :: srcs') ->
    stopped_source n before (l ++ " " ++ d) s' -> two_words l -> named_list d -> other_statement d -> (N.of_nat (List.length before) < 999)%N ->
    exit_status (run_check w config) = 1 /\ run_deeds (run_plan w false config) = [] /\ forall q, ~ In (Query q) (run_deeds (run_apply w false config)).
  Proof.
    intros w config srcs srcs' file n before l d s' R H L Hd O B. apply (C113_nothing_sent w config _ (file, s') R); [apply in_or_app; right; left; reflexivity|].
    rewrite (late_complaint n before l d s' file H L Hd O B). discriminate.
  Qed.
  (** The complaint begins with the third word, so that FULLTEXT KEY or CONSTRAINT c is not in it. *)
  Theorem C118_late_reported_partial : forall w config srcs srcs' file n before l d s', reads_from w config (srcs +++ (file, s') :: srcs') ->
    stopped_source n before (l ++ " " ++ d) s' -> two_words l -> named_list d -> other_statement d -> (N.of_nat (List.length before) < 999)%N ->
    (forall e, run_end (run_check w config) <> Uncaught e) ->
    exists errors, In (complaint file d) errors
      /\ In ("Errors found in *.sql files:" ++ String.concat "" (map (fun m => String newline m) errors)) (run_out (run_check w config))
      /\ run_err (run_plan w false config) = "Errors found in *.sql files" :: errors
      /\ run_err (run_apply w false config) = "Errors found in *.sql files" :: errors.
  Proof.
    intros w config srcs srcs' file n before l d s' R H L Hd O B X. destruct (C113_told w config _ (file, s') (complaint file d) R) as (errors & E1 & E2 & _ & E3 & _ & E4 & _).
    - apply in_or_app. right. left. reflexivity.
    - rewrite (late_complaint n before l d s' file H L Hd O B). left. reflexivity.
    - exact X.
    - exists errors. auto.
  Qed.
End Late.

(** ** Instances *)

Example ex_two_words : Forall two_words ["FULLTEXT KEY"; "fulltext index"; "SPATIAL KEY"; "CONSTRAINT positive"; "Constraint one"].
Proof.
  assert (G : forall a b, sforall is_word a = true -> clean_name a -> ~ In (upper a) key_words -> prefix "UNIQUE" (upper a) = false -> prefix "CONSTRAINT" (upper a) = false ->
    b <> "" -> sforall is_word b = true -> ~ In (upper b) known_types -> two_words (a ++ " " ++ b)).
  { intros a b H1 H2 H3 H4 H5 H6 H7 H8. apply words_other; try assumption. split; auto. }
  repeat (apply Forall_cons || apply Forall_nil).
  - apply (G "FULLTEXT" "KEY"); try reflexivity; try discriminate; [apply clean_nameb; reflexivity|cbn; intuition discriminate|cbn; intuition discriminate].
  - apply (G "fulltext" "index"); try reflexivity; try discriminate; [apply clean_nameb; reflexivity|cbn; intuition discriminate|cbn; intuition discriminate].
  - apply (G "SPATIAL" "KEY"); try reflexivity; try discriminate; [apply clean_nameb; reflexivity|cbn; intuition discriminate|cbn; intuition discriminate].
  - apply (words_constraint "CONSTRAINT" "positive"); [reflexivity|discriminate|reflexivity].
  - apply (words_constraint "Constraint" "one"); [reflexivity|discriminate|reflexivity].
Qed.
Example ex_named_list : Forall named_list ["words (name));"; "`words` (`name`));"; "CHECK (id > 0) );"].
Proof.
  assert (L : forall w, w <> "" -> sforall is_word w = true -> (forall k, In k ["key"; "index"; "unique"; "constraint"] -> String.prefix k (lower w) = false) -> list_word w) by (intros w H1 H2 H3; constructor; auto).
  repeat (apply Forall_cons || apply Forall_nil).
  - apply (bare_list "words" true "name));").
    + apply L; [discriminate|reflexivity|]. intros k I. cbn in I. repeat (destruct I as [<-|I]; [reflexivity|]). contradiction.
    + intros K I. cbn in I. repeat (destruct I as [<-|I]; [reflexivity|]). contradiction.
  - apply (ticked_list "words" true "`name`));"); [discriminate|reflexivity].
  - apply (bare_list "CHECK" true "id > 0) );").
    + apply L; [discriminate|reflexivity|]. intros k I. cbn in I. repeat (destruct I as [<-|I]; [reflexivity|]). contradiction.
    + intros K I. cbn in I. repeat (destruct I as [<-|I]; [reflexivity|]). contradiction.
Qed.
Definition full_key : string := "`words` (`name`));".
Definition full_file : string := "create table mice (id int not null,  FULLTEXT KEY `words` (`name`));".
Definition full_shop : world := site_world "/srv/app/sql" ["mice.sql"] [("/srv/app/sql/mice.sql", full_file)] [].
Example ex_C118_late : reads_from full_shop "mygrate.conf" [("/srv/app/sql/mice.sql", full_file)]
  /\ stopped_source "mice" [PartColumn id_col] ("FULLTEXT KEY" ++ " " ++ full_key) full_file /\ two_words "FULLTEXT KEY" /\ named_list full_key /\ other_statement full_key
  /\ (forall e, run_end (run_check full_shop "mygrate.conf") <> Uncaught e)
  /\ run_out (run_check full_shop "mygrate.conf")
     = ["Errors found in *.sql files:" ++ nl ++ "Unrecognized MySQL command: `words` (`name`)); in file /srv/app/sql/mice.sql" ++ nl ++ "Table missing name" ++ nl ++ "Table '' does not have any columns"].
Proof.
  split; [exists "/srv/app/sql"; split; vm_compute; reflexivity|]. split.
  { exists "create table mice (id int not null, FULLTEXT KEY `words` (`name`));".
    split; [apply (stopped_as "mice" [PartColumn id_col] ("FULLTEXT KEY" ++ " " ++ full_key) "create table mice" false ["id int not null"]); [apply (cats_head "mice"), clean_nameb; reflexivity|constructor; [constructor; exact id_col_written|constructor]]|].
    split; [constructor; [discriminate|vm_compute; reflexivity|apply no_comment_like; reflexivity|apply no_length_like; reflexivity]|].
    laid "create table mice (id int not null" ","%char "  "; [apply layout_spaces; [discriminate|reflexivity]|]. apply relaid_same. }
  split; [pose proof ex_two_words as F; inversion F; assumption|]. split; [apply (ticked_list "words" true "`name`));"); [discriminate|reflexivity]|].
  split; [constructor; try reflexivity; discriminate|]. split; [intros e; vm_compute; discriminate|]. by_vm.
Qed.
Print Assumptions C118_late_refused_partial.
Print Assumptions C118_late_reported_partial.
