(** C118 and C100: the same after other statements of the same file. *)
From Verif Require Import CliFacts Samples SpecOrder SpecLive SpecMany SpecWrite SpecStored StoredFacts HoldFacts PropsParse PropsRound PropsWrite PropsLive PropsCli PropsMany PropsCreate PropsTrail PropsOther PropsList PropsHalt PropsLate PropsOdd.
From Coq Require Import Lia.

Local Opaque read_sql max_statements max_turns.

Section Hold.
  Context {FO : FloatOracle}.

  (** Full statement: see [C118_refused_partial] and [C100_refused_partial].  Proved here for files in which any statements that
      are known, up to 9998 of them and in any layout of C75, come before the statement with the definition or the word
      that is not known; with any text after it, whatever the other sources are. *)
  Theorem C118_after_refused_partial : forall w config srcs srcs' file l d s', reads_from w config (srcs +++ (file, s') :: srcs') -> held_after l d s' ->
    exit_status (run_check w config) = 1 /\ run_deeds (run_plan w false config) = [] /\ forall q, ~ In (Query q) (run_deeds (run_apply w false config)).
  Proof.
    intros w config srcs srcs' file l d s' R H. apply (C113_nothing_sent w config _ (file, s') R); [apply in_or_app; right; left; reflexivity|].
    rewrite (held_complaint l d s' file H). discriminate.
  Qed.
  Theorem C118_after_reported_partial : forall w config srcs srcs' file l d s', reads_from w config (srcs +++ (file, s') :: srcs') -> held_after l d s' ->
    (forall e, run_end (run_check w config) <> Uncaught e) ->
    exists errors, In (complaint file d) errors
      /\ In ("Errors found in *.sql files:" ++ String.concat "" (map (fun m => String newline m) errors)) (run_out (run_check w config))
      /\ run_err (run_plan w false config) = "Errors found in *.sql files" :: errors
      /\ run_err (run_apply w false config) = "Errors found in *.sql files" :: errors.
  Proof.
    intros w config srcs srcs' file l d s' R H X. destruct (C113_told w config _ (file, s') (complaint file d) R) as (errors & E1 & E2 & _ & E3 & _ & E4 & _).
    - apply in_or_app. right. left. reflexivity.
    - rewrite (held_complaint l d s' file H). left. reflexivity.
    - exact X.
    - exists errors. auto.
  Qed.
End Hold.

(** ** Instances *)

Definition held_text : string := "create table mice (id int not null COMMENT 'the number', KEY k (id));".
Definition held_file : string := users_plain ++ " " ++ insert_text "users" ["id"; "name"] true true users_rows ";" ++ " " ++ held_text.
Lemma users_held : held_after source_a remark_text held_file.
Proof.
  split; [constructor; try reflexivity; discriminate|]. split; [discriminate|]. split; [cbn; lia|]. exists held_text. eexists. split; [|split; [|apply laid_same]].
  - destruct ex_C100_reported as (_ & _ & L & O & _). apply (unfinished_odd remark_text "mice" [] (PartColumn id_col) [] "id int not null"); [|exact L|exact O|cbn; lia].
    apply (stopped_as "mice" [] ("id int not null" ++ " " ++ remark_text) "create table mice" false []); [apply (cats_head "mice"), clean_nameb; reflexivity|constructor].
  - apply begun_more; [constructor; [exact users_written|reflexivity]| |intros T _; reflexivity].
    apply begun_last; [rows_written true true| |intros T E; discriminate].
    constructor; [discriminate|vm_compute; reflexivity|apply no_comment_like; reflexivity|apply no_length_like; reflexivity].
Qed.
Definition held_shop : world := site_world "/srv/app/sql" ["all.sql"] [("/srv/app/sql/all.sql", held_file)] [].
Example ex_C118_after : reads_from held_shop "mygrate.conf" [("/srv/app/sql/all.sql", held_file)] /\ held_after source_a remark_text held_file
  /\ (forall e, run_end (run_check held_shop "mygrate.conf") <> Uncaught e)
  /\ run_out (run_check held_shop "mygrate.conf")
     = ["Errors found in *.sql files:" ++ nl ++ "Unrecognized MySQL command: COMMENT 'the number', KEY k (id)); in file /srv/app/sql/all.sql" ++ nl ++ "Table missing name" ++ nl ++ "Table '' does not have any columns"].
Proof.
  split; [exists "/srv/app/sql"; split; vm_compute; reflexivity|]. split; [exact users_held|]. split; [intros e; vm_compute; discriminate|]. by_vm.
Qed.
Print Assumptions C118_after_refused_partial.
Print Assumptions C118_after_reported_partial.
