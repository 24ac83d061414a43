(** C96: the warnings, and what the check command prints. *)
From Verif Require Import WarnFacts PropsCli PropsFiles PropsOrder Samples PropsParse PropsCheck.

(** The text of one [print]: a title and a line for each message; nothing without messages. *)
Definition printed_block (title : string) (l : list string) : list string :=
  match l with [] => [] | _ => [title ++ String.concat "" (map (fun m => String newline m) l)] end.
Definition check_prints (errors warnings : list string) : list string :=
  match errors, warnings with
  | [], [] => ["No problems found"]
  | _, _ => printed_block "Errors found in *.sql files:" errors +++ printed_block "Warnings found in *.sql files:" warnings
  end.

Section Props.
  Context {FO : FloatOracle}.

  (** Exactly which warnings there are once the errors are known. *)
  Theorem C96_warnings_exact : forall srcs b b1 errors, ForallOrdPairs apart_tables srcs ->
    file_database srcs = Ok b -> db_errors b = (b1, Ok errors) ->
    exists rows warnings, d_rows b = Some rows /\ snd (db_warnings b1) = Ok warnings /\ all_warnings (db_tables b) rows [] warnings.
  Proof.
    intros srcs b b1 errs A E Ee. destruct (file_good srcs b (apart_once _ A) E) as (U & N & T & D & ED & L).
    pose proof (unasked_new b U) as EB. rewrite ED, (file_gw srcs b E) in EB.
    rewrite EB in Ee. destruct (warnings_exact (db_tables b) D (d_global_errors b) [] b1 errs) as (ws & Ew & H);
      [intros n t I; apply tidy_kept, (T n t I)|exact L|exact Ee|]. eauto.
  Qed.

  Lemma concat_cons x y l : String.concat new_line (x :: y :: l) = x ++ String newline (String.concat new_line (y :: l)).
  Proof. reflexivity. Qed.
  Lemma join_block title l : join new_line (title :: l) = title ++ String.concat "" (map (fun m => String newline m) l).
  Proof.
    revert title; induction l as [|m l IH]; intros title; [cbn; symmetry; apply sapp_nil_r|].
    change (join new_line (title :: m :: l)) with (title ++ new_line ++ join new_line (m :: l)). rewrite IH.
    f_equal. cbn [map]. destruct l as [|m' l]; [cbn; rewrite sapp_nil_r; reflexivity|].
    cbn [map String.concat]. reflexivity.
  Qed.

  (** What the check command prints: a line for each source that is not read to its end (see C101), and
      then the errors, those warnings, or that there are none. *)
  Theorem C96_check_output : forall w config s srcs b b1 errors,
    sql_files (w_loads w) (w_file w) (w_cwd w) (Some config) = Ok (CStr s) -> process w s = Ok srcs ->
    ForallOrdPairs apart_tables srcs -> file_database srcs = Ok b -> db_errors b = (b1, Ok errors) ->
    exists rows warnings, d_rows b = Some rows /\ all_warnings (db_tables b) rows [] warnings
      /\ run_check w config = mkRun [] (concat (map source_notice srcs) +++ check_prints errors warnings) [] (Exited (match errors with [] => true | _ => false end)).
  Proof.
    intros w config s srcs b b1 errs S P A E Ee. destruct (C96_warnings_exact srcs b b1 errs A E Ee) as (rows & ws & Er & Ew & H).
    exists rows, ws. split; [exact Er|]. split; [exact H|].
    assert (Nf : file_notices w config = concat (map source_notice srcs)).
    { rewrite (reads_notices w config srcs) by (exists s; split; assumption). unfold file_database in E.
      destruct (foldM read_source srcs empty_database) as [b0|] eqn:Fo; [|discriminate]. apply (notices_all srcs empty_database b0 Fo). }
    unfold run_check, load_files. rewrite Nf, S. cbn [bind]. rewrite P. cbn [bind]. rewrite E, Ee.
    destruct (db_warnings b1) as [b2 r]. cbn [snd] in Ew. subst r. unfold check_prints, printed_block.
    destruct errs as [|e errs], ws as [|x ws]; cbn [list_is_nil andb List.app]; rewrite ?join_block; reflexivity.
  Qed.

  (** Every column without a default is warned about.  Full statement: in every table; false, see
      [C96_refuted]. *)
  Theorem C96_every_column_partial : forall srcs b b1 errors n t m c, ForallOrdPairs apart_tables srcs ->
    file_database srcs = Ok b -> db_errors b = (b1, Ok errors) ->
    In (n, t) (db_tables b) -> In (m, c) (t_columns t) -> dateless t -> lacks_default t c ->
    exists warnings, snd (db_warnings b1) = Ok warnings /\ In (lacks_default_text t c) warnings.
  Proof.
    intros srcs b b1 errs n t m c A E Ee It Ic D Lk. destruct (C96_warnings_exact srcs b b1 errs A E Ee) as (rows & ws & Er & Ew & rd & cl & F1 & F2 & ->).
    eexists. split; [exact Ew|]. rewrite !in_app_iff. right. right. right. apply in_concat.
    destruct (Forall2_in_l _ _ _ _ F2 (in_dvals _ _ _ It)) as (l & Il & W). exists l. split; [exact Il|].
    destruct W as [[_ W]|(bf & d & (_ & Kd & af & Ed) & _)].
    - apply in_dvals in Ic. clear -W Ic Lk. induction W as [|a l r Ha W IH|a l r Ha W IH]; [contradiction| |]; destruct Ic as [->|Ic].
      + left. reflexivity.
      + right. apply IH, Ic.
      + contradiction.
      + apply IH, Ic.
    - exfalso. assert (I : In d (dvals (t_columns t))) by (rewrite Ed; apply in_app_iff; right; left; reflexivity).
      apply dvals_in in I as (k & I). exact (D k d I Kd).
  Qed.
End Props.

(** A table with three columns to warn about and a default without quotes. *)
Definition loose_file : source := ("loose.sql",
  "CREATE TABLE `loose` (`id` INT(10) UNSIGNED NOT NULL, `a` INT(10) NOT NULL, `b` VARCHAR(20) NOT NULL DEFAULT x, `c` TEXT NOT NULL, `d` INT(10), PRIMARY KEY (`id`));").
Definition loose_world : world := site_world "/srv/app/sql" ["loose.sql"] [("/srv/app/sql/loose.sql", snd loose_file)] [].
Example ex_C96 : exists srcs b b1 n t m c,
  sql_files (w_loads loose_world) (w_file loose_world) (w_cwd loose_world) (Some "mygrate.conf") = Ok (CStr "/srv/app/sql")
  /\ process loose_world "/srv/app/sql" = Ok srcs /\ ForallOrdPairs apart_tables srcs /\ file_database srcs = Ok b
  /\ db_errors b = (b1, Ok []) /\ In (n, t) (db_tables b) /\ In (m, c) (t_columns t) /\ dateless t /\ lacks_default t c
  /\ run_out (run_check loose_world "mygrate.conf")
     = printed_block "Warnings found in *.sql files:"
         ["Default value of ""x"" should have quotes for field b in table 'loose'";
          "Column a does not allow null values and has no default: you should set a default to avoid warnings in table 'loose'";
          "Column c does not allow null values and has no default: you should set a default to avoid warnings in table 'loose'"].
Proof.
  found (process loose_world "/srv/app/sql"). found (file_database [loose_file]). eexists. exists "loose". eexists. exists "a". eexists.
  split; [by_vm|]. split; [by_vm|]. split; [repeat constructor|]. split; [by_vm|]. split; [vm_compute; reflexivity|].
  split; [left; reflexivity|]. split; [right; left; reflexivity|]. split.
  - intros n c I. cbn in I. repeat (destruct I as [[= <- <-]|I]; [discriminate|]). contradiction.
  - split; [|by_vm]. repeat split; try discriminate. intros n i I P. cbn in I. destruct I as [[= <- <-]|[]]. cbn. intros [[=]|[]].
Qed.

(** A DATE column: neither it nor the column after it is warned about. *)
Definition dated_file : source := ("dated.sql",
  "CREATE TABLE `dated` (`id` INT(10) UNSIGNED NOT NULL, `on` DATE NOT NULL, `a` INT(10) NOT NULL, PRIMARY KEY (`id`));").
Definition dated_world : world := site_world "/srv/app/sql" ["dated.sql"] [("/srv/app/sql/dated.sql", snd dated_file)] [].
Theorem C96_refuted : forall FO : FloatOracle, exists w config s srcs b n t m c,
  sql_files (w_loads w) (w_file w) (w_cwd w) (Some config) = Ok (CStr s) /\ process w s = Ok srcs
  /\ ForallOrdPairs apart_tables srcs /\ file_database srcs = Ok b
  /\ In (n, t) (db_tables b) /\ In (m, c) (t_columns t) /\ lacks_default t c
  /\ run_out (run_check w config) = ["No problems found"].
Proof.
  intros FO. exists dated_world, "mygrate.conf", "/srv/app/sql". found (process dated_world "/srv/app/sql"). found (file_database [dated_file]). exists "dated". eexists. exists "a". eexists.
  split; [by_vm|]. split; [by_vm|]. split; [repeat constructor|]. split; [by_vm|].
  split; [left; reflexivity|]. split; [right; right; left; reflexivity|]. split; [|by_vm].
  repeat split; try discriminate. intros n i I P. cbn in I. destruct I as [[= <- <-]|[]]. cbn. intros [[=]|[]].
Qed.

Print Assumptions C96_warnings_exact.
Print Assumptions C96_check_output.
Print Assumptions C96_every_column_partial.
Print Assumptions C96_refuted.
