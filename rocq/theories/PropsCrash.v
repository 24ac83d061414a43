(** C104: which files make a command end with an exception. *)
From Verif Require Import CliFacts CheckFacts FileFacts CrashFacts SpecCrash Samples PropsParse PropsCli PropsFiles PropsOrder PropsCheck PropsTold.

Local Opaque max_statements max_turns.

(** ** Every text *)

(** How reading a text may end other than by returning.  A ValueError is caught by the caller and printed;
    the others are not. *)
Theorem C104_reading : forall file s e, snd (read_sql file s) = Raise e ->
  (exists m, e = ValueError m)
  \/ e = IndexError "string index out of range" /\ white s
  \/ (exists m, e = SyntaxError ("Opening quote without closing quote at " ++ m)) /\ has_quote s.
Proof.
  intros file s e H. destruct (is_empty (strip s)) eqn:B.
  - apply is_empty_iff in B. destruct s as [|c s]; [exfalso|].
    + revert H. rewrite read_sql_eq. assert (L : 0 < max_statements) by (apply (lt_statements 0); lia). destruct max_statements; [lia|]. discriminate.
    + assert (X : blank (String c s)) by (split; [exact B|discriminate]). rewrite (blank_loop file _ X) in H. injection H as <-. right. left. split; [reflexivity|apply white_blank, X].
  - rewrite read_sql_eq in H. destruct (loop_mild _ _ _ _ _ (fun X => ltac:(rewrite (proj1 X) in B; discriminate B)) H) as [M|M]; [left; exact M|right; right; exact M].
Qed.
(** A text of nothing but white space is always such a text. *)
Theorem C104_white : forall file s, white s -> read_sql file s = (new_reader, Raise (IndexError "string index out of range")).
Proof. intros file s W. apply blank_loop, white_blank, W. Qed.

Local Opaque read_sql.

(** ** The sources of a run *)

Section Crash.
  Context {FO : FloatOracle}.

  Lemma not_readable src x : snd (read_sql (fst src) (snd src)) = Raise x -> ~ readable src ->
    (white (snd src) /\ x = IndexError "string index out of range")
    \/ (unclosed src /\ has_quote (snd src) /\ exists m, x = SyntaxError ("Opening quote without closing quote at " ++ m)).
  Proof.
    intros X R. destruct (C104_reading _ _ _ X) as [(m & ->)|[(-> & W)|((m & ->) & Q)]].
    - exfalso. apply R. unfold readable. rewrite X. reflexivity.
    - left. auto.
    - right. split; [eexists; exact X|]. split; [exact Q|eauto].
  Qed.
  Lemma readable_not src : readable src -> ~ white (snd src) /\ ~ unclosed src.
  Proof.
    unfold readable. intros R. split.
    - intros W. rewrite (C104_white _ _ W) in R. discriminate R.
    - intros (m & X). rewrite X in R. discriminate R.
  Qed.

  (** Which exceptions there are while the files are read, for files that do not define a table twice. *)
  Theorem C104_kinds : forall srcs e, ForallOrdPairs apart_tables srcs -> file_database srcs = Raise e ->
    (e = IndexError "string index out of range" /\ exists src, In src srcs /\ white (snd src))
    \/ ((exists m, e = SyntaxError ("Opening quote without closing quote at " ++ m)) /\ exists src, In src srcs /\ unclosed src /\ has_quote (snd src))
    \/ exists n, e = KeyError n /\ homeless srcs n.
  Proof.
    intros srcs e A E. destruct (files_cases srcs A) as [(b & Eb & _)|[(src & x & I & X & R & Ex)|(n & H & En)]].
    - congruence.
    - assert (x = e) as -> by congruence. destruct (not_readable _ _ X R) as [(W & ->)|(U & Q & M)]; [left; eauto|right; left; eauto].
    - right. right. exists n. split; [congruence|exact H].
  Qed.
  Theorem C104_files_exact : forall srcs, ForallOrdPairs apart_tables srcs -> ((exists e, file_database srcs = Raise e) <-> unloadable srcs).
  Proof.
    intros srcs A. split.
    - intros (e & E). destruct (C104_kinds srcs e A E) as [(_ & H)|[(_ & src & I & U & _)|(n & _ & H)]]; [left; exact H|right; left; eauto|right; right; eauto].
    - intros U. destruct (files_cases srcs A) as [(b & _ & _ & F & H)|[(src & x & _ & _ & _ & E)|(n & _ & E)]]; [exfalso|eauto|eauto].
      rewrite Forall_forall in F. destruct U as [(src & I & W)|[(src & I & W)|(n & W)]]; [apply (proj1 (readable_not _ (F _ I)) W)|apply (proj2 (readable_not _ (F _ I)) W)|exact (H n W)].
  Qed.

  Lemma stops_columns t t' : t_columns t = t_columns t' -> stops t -> stops t'.
  Proof. unfold stops. intros ->. auto. Qed.
  Lemma loaded_stops srcs b : ForallOrdPairs apart_tables srcs -> file_database srcs = Ok b ->
    ((exists n t, In (n, t) (db_tables b) /\ stops t) <-> unchecked srcs).
  Proof.
    intros A E. destruct (files_cases srcs A) as [(b' & Eb & O & _)|[(src & x & _ & _ & _ & Ex)|(n & _ & Ex)]]; [|congruence|congruence].
    assert (b' = b) as -> by congruence. clear Eb. unfold unchecked. split.
    - intros (n & t & I & S). unfold db_tables, plain_tables in I. apply in_map_iff in I as ([m o] & [= -> <-] & I).
      assert (J : In (n, (t_name (Database.to_table o), t_columns (Database.to_table o))) (outline (d_tables b))) by (unfold outline; apply in_map_iff; exists (n, o); auto).
      rewrite O in J. apply in_map_iff in J as ([m t] & [= -> _ Ec] & J). apply in_src_tables in J as (src & K & J). exists src, n, t. split; [exact K|]. split; [exact J|].
      exact (stops_columns _ _ (eq_sym Ec) S).
    - intros (src & n & t & K & J & S).
      assert (I : In (n, (t_name t, t_columns t)) (outline (d_tables b))) by (rewrite O; apply in_map_iff; exists (n, t); split; [reflexivity|]; apply in_src_tables; eauto).
      unfold outline in I. apply in_map_iff in I as ([m o] & [= -> _ Ec] & I). exists n, (Database.to_table o). split; [unfold db_tables, plain_tables; apply in_map_iff; exists (n, o); auto|].
      exact (stops_columns _ _ (eq_sym Ec) S).
  Qed.

  (** ** Commands *)

  (** Exactly when check ends with an exception. *)
  Theorem C104_check_exact : forall w config srcs, reads_from w config srcs -> ForallOrdPairs apart_tables srcs ->
    ((exists e, run_end (run_check w config) = Uncaught e) <-> unloadable srcs \/ unchecked srcs).
  Proof.
    intros w config srcs R A. pose proof (reads_load _ _ _ R) as L. destruct (file_database srcs) as [b|e] eqn:E.
    - destruct R as (s & Rs & P). destruct (C94_check_status w config s srcs b Rs P A E) as (rows & _ & _ & Q). rewrite Q, (loaded_stops srcs b A E). split; [auto|].
      intros [U|U]; [|exact U]. apply (C104_files_exact srcs A) in U as (e & U). congruence.
    - unfold run_check. rewrite L. cbn [run_end]. split; [intros _; left; apply (C104_files_exact srcs A); eauto|eauto].
  Qed.
  (** Then plan and apply end with the same exception, whatever the options, before anything is asked of the server. *)
  Theorem C104_all_commands : forall w config srcs force, reads_from w config srcs -> ForallOrdPairs apart_tables srcs ->
    unloadable srcs \/ unchecked srcs ->
    exists e told, run_check w config = mkRun [] told [] (Uncaught e)
      /\ run_end (run_plan w force config) = Uncaught e /\ run_deeds (run_plan w force config) = [] /\ run_err (run_plan w force config) = []
      /\ run_end (run_apply w force config) = Uncaught e /\ run_deeds (run_apply w force config) = [] /\ run_err (run_apply w force config) = [].
  Proof.
    intros w config srcs force R A U. pose proof (reads_load _ _ _ R) as L. destruct (file_database srcs) as [b|e] eqn:E.
    - assert (X : exists e, snd (db_errors b) = Raise e).
      { apply (C37_files_exact srcs b A E), (loaded_stops srcs b A E). destruct U as [U|U]; [|exact U]. apply (C104_files_exact srcs A) in U as (e & U). congruence. }
      destruct X as (e & X). exists e, (file_notices w config). unfold run_check, run_plan, run_apply, build. rewrite L. destruct (db_errors b) as [b1 r]. cbn [snd] in X. subst r.
      repeat split; reflexivity.
    - exists e, (file_notices w config). unfold run_check, run_plan, run_apply, build. rewrite L. repeat split; reflexivity.
  Qed.
  (** One file of white space is enough, whatever the other files are. *)
  Theorem C104_white_file : forall w config srcs file s force, reads_from w config srcs -> In (file, s) srcs -> white s ->
    (exists e, run_end (run_check w config) = Uncaught e) /\ (exists e, run_end (run_plan w force config) = Uncaught e)
    /\ (exists e, run_end (run_apply w force config) = Uncaught e) /\ run_deeds (run_plan w force config) = [] /\ run_deeds (run_apply w force config) = [].
  Proof.
    intros w config srcs file s force R I W. pose proof (reads_load _ _ _ R) as L.
    assert (X : exists e, file_database srcs = Raise e).
    { unfold file_database. destruct (foldM_raises (fun _ => True) read_source srcs empty_database (file, s)) as (e & E); auto; [|exists e; rewrite E; reflexivity].
      intros b _. unfold read_source. cbn [fst snd]. rewrite (C104_white file s W). cbn [caught]. eauto. }
    destruct X as (e & X). rewrite X in L. unfold run_check, run_plan, run_apply, build. rewrite L. cbn [run_end run_deeds]. repeat split; eauto.
  Qed.
  (** Full statement: no command ends with an exception because of what is in the files.  Proved for check and for
      files that are not white space only, hold no quote, give rows only to tables that are defined, define no
      table twice and define no table whose columns cannot be checked. *)
  Theorem C104_no_crash_partial : forall w config srcs, reads_from w config srcs -> ForallOrdPairs apart_tables srcs ->
    (forall file s, In (file, s) srcs -> ~ white s /\ ~ has_quote s) ->
    (forall src n, In src srcs -> inserts_into src n -> exists src', In src' srcs /\ defines src' n) ->
    (forall src n t, In src srcs -> In (n, t) (rd_tables (reader_of src)) -> ~ stops t) ->
    exists b, run_end (run_check w config) = Exited b.
  Proof.
    intros w config srcs R A T H S. assert (N : ~ exists e, run_end (run_check w config) = Uncaught e).
    { rewrite (C104_check_exact w config srcs R A). intros [[(src & I & W)|[(src & I & m & W)|(n & (src & I & J) & K)]]|(src & n & t & I & J & W)].
      - destruct src as [file s]. exact (proj1 (T file s I) W).
      - destruct src as [file s]. cbn [fst snd] in W. destruct (C104_reading _ _ _ W) as [(x & [=])|[([=] & _)|(_ & Q)]]. exact (proj2 (T file s I) Q).
      - destruct (H src n I J) as (src' & I' & D). exact (K src' I' D).
      - exact (S src n t I J W). }
    revert N. unfold run_check. destruct (load_files w config) as [b|e]; cbn [run_end]; [|intros N; exfalso; eauto].
    destruct (db_errors b) as [b1 [errs|e]]; cbn [run_end]; [|intros N; exfalso; eauto]. destruct (db_warnings b1) as [b2 [ws|e]]; cbn [run_end]; [|intros N; exfalso; eauto]. eauto.
  Qed.
End Crash.

(** ** Examples *)

Definition plain_users : string := "CREATE TABLE users (id INT(10) NOT NULL, name VARCHAR(20), PRIMARY KEY (id));".
Definition plain_rows : string := "INSERT INTO users (id, name) VALUES (1, anna), (2, bert);".
(** MySQL reads this as the name it's. *)
Definition escaped_rows : string := "INSERT INTO users (id, name) VALUES (1, 'it\'s');".
Definition crash_site (texts : list (string * string)) : world :=
  site_world "/srv/app/sql" (map fst texts) (map (fun p => ("/srv/app/sql/" ++ fst p, snd p)) texts) [("SHOW TABLES", listing [])].
Definition crash_srcs (texts : list (string * string)) : list source := map (fun p => ("/srv/app/sql/" ++ fst p, snd p)) texts.
Definition plain_texts : list (string * string) := [("users.sql", plain_users); ("users_rows.sql", plain_rows)].

Lemma apart_two s s' : dkeys (rd_tables (reader_of s')) = [] -> ForallOrdPairs apart_tables [s; s'].
Proof. intros E. constructor; [|repeat constructor]. constructor; [|constructor]. intros n _ D. unfold defines in D. rewrite E in D. exact D. Qed.

Example ex_C104 {FO : FloatOracle} : let srcs := crash_srcs plain_texts in
  reads_from (crash_site plain_texts) "mygrate.conf" srcs /\ ForallOrdPairs apart_tables srcs
  /\ (forall file s, In (file, s) srcs -> ~ white s /\ ~ has_quote s)
  /\ (forall src n, In src srcs -> inserts_into src n -> exists src', In src' srcs /\ defines src' n)
  /\ (forall src n t, In src srcs -> In (n, t) (rd_tables (reader_of src)) -> ~ stops t)
  /\ run_check (crash_site plain_texts) "mygrate.conf" = mkRun [] ["No problems found"] [] (Exited true).
Proof.
  intros srcs. assert (R : reads_from (crash_site plain_texts) "mygrate.conf" srcs) by (exists "/srv/app/sql"; split; vm_compute; reflexivity).
  assert (A : ForallOrdPairs apart_tables srcs) by (apply apart_two; by_vm).
  assert (C : run_check (crash_site plain_texts) "mygrate.conf" = mkRun [] ["No problems found"] [] (Exited true)) by by_vm.
  split; [exact R|]. split; [exact A|]. split; [|split; [|split; [|exact C]]].
  - intros file s [[= <- <-]|[[= <- <-]|[]]]; (split; [intros [_ W]|intros [W|W]]); vm_compute in W; discriminate W.
  - intros src n Is I. exists ("/srv/app/sql/users.sql", plain_users). split; [left; reflexivity|].
    assert (D : dkeys (rd_tables (reader_of ("/srv/app/sql/users.sql", plain_users))) = ["users"]) by by_vm. unfold defines. rewrite D.
    assert (J : forall s, In s srcs -> forall m, inserts_into s m -> In m ["users"]).
    { assert (X1 : dkeys (rd_rows (reader_of ("/srv/app/sql/users.sql", plain_users))) = []) by by_vm.
      assert (X2 : dkeys (rd_rows (reader_of ("/srv/app/sql/users_rows.sql", plain_rows))) = ["users"]) by by_vm.
      intros s [<-|[<-|[]]] m; unfold inserts_into; cbn [fst snd String.append]; [rewrite X1; intros []|rewrite X2; auto]. }
    exact (J src Is n I).
  - intros src n t I J S. assert (X : exists e, run_end (run_check (crash_site plain_texts) "mygrate.conf") = Uncaught e).
    { apply (C104_check_exact _ _ _ R A). right. exists src, n, t. auto. }
    rewrite C in X. destruct X as (e & [=]).
Qed.

(** A third file with nothing but a line break, or an apostrophe written as MySQL allows it, and there is no
    answer at all. *)
Theorem C104_refuted : forall FO : FloatOracle, exists w config srcs file,
  reads_from w config srcs /\ ForallOrdPairs apart_tables srcs /\ In (file, String newline "") srcs /\ white (String newline "")
  /\ run_check w config = mkRun [] [] [] (Uncaught (IndexError "string index out of range"))
  /\ forall force, run_apply w force config = mkRun [] [] [] (Uncaught (IndexError "string index out of range")).
Proof.
  intros FO. set (texts := [("users.sql", plain_users); ("zeta.sql", String newline "")]). exists (crash_site texts), "mygrate.conf", (crash_srcs texts), "/srv/app/sql/zeta.sql".
  split; [exists "/srv/app/sql"; split; vm_compute; reflexivity|]. split; [apply apart_two; by_vm|]. split; [right; left; reflexivity|]. split; [split; [discriminate|reflexivity]|].
  split; [by_vm|]. intros []; by_vm.
Qed.
Theorem C104_refuted_quote : forall FO : FloatOracle, exists w config srcs file m,
  reads_from w config srcs /\ ForallOrdPairs apart_tables srcs /\ In (file, escaped_rows) srcs /\ unclosed (file, escaped_rows)
  /\ run_check w config = mkRun [] [] [] (Uncaught (SyntaxError m))
  /\ forall force, run_apply w force config = mkRun [] [] [] (Uncaught (SyntaxError m)).
Proof.
  intros FO. set (texts := [("users.sql", plain_users); ("zeta.sql", escaped_rows)]). exists (crash_site texts), "mygrate.conf", (crash_srcs texts), "/srv/app/sql/zeta.sql", "Opening quote without closing quote at 1, 'it\'s');".
  split; [exists "/srv/app/sql"; split; vm_compute; reflexivity|]. split; [apply apart_two; by_vm|]. split; [right; left; reflexivity|]. split; [exists "Opening quote without closing quote at 1, 'it\'s');"; by_vm|].
  split; [by_vm|]. intros []; by_vm.
Qed.

Print Assumptions C104_reading.
Print Assumptions C104_white.
Print Assumptions C104_kinds.
Print Assumptions C104_files_exact.
Print Assumptions C104_check_exact.
Print Assumptions C104_all_commands.
Print Assumptions C104_white_file.
Print Assumptions C104_no_crash_partial.
Print Assumptions C104_refuted.
Print Assumptions C104_refuted_quote.
