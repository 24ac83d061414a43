(** C101, C102: what is printed about sources that cannot be read. *)
From Verif Require Import CliFacts Samples SpecLive SpecMany SpecWrite SpecStored StoredFacts RoundRows PropsParse PropsRound PropsWrite PropsLive PropsCli PropsMany PropsCreate PropsSeen PropsMeaning PropsDefs PropsTrail.

Local Opaque read_sql max_statements max_turns.

(** ** C101 *)

Section Told.
  Context {FO : FloatOracle}.

  Lemma notices_of w config srcs b : reads_from w config srcs -> file_database srcs = Ok b -> file_notices w config = concat (map source_notice srcs).
  Proof.
    intros R E. rewrite (reads_notices w config srcs R). unfold file_database in E. destruct (foldM read_source srcs empty_database) as [b0|] eqn:F; [|discriminate].
    apply (notices_all srcs empty_database b0 F).
  Qed.

  (** What [plan] prints, exactly: a line for each source that is not read to its end, a line for each table
      of the server whose definition is not understood (unless the plan was refused before the server was
      asked), and then the statements, which are those that [apply] sends (C79). *)
  Theorem C101_output_exact : forall w force config srcs c names text rows,
    reads_from w config srcs -> driver_credentials (w_loads w) (w_file w) (w_cwd w) (Some config) = Ok c ->
    serves w c names text rows -> NoDup names -> run_end (run_plan w force config) = Exited true ->
    exists statements, run_out (run_plan w force config)
      = concat (map source_notice srcs) +++ match run_err (run_plan w force config) with [] => concat (map (fun n => table_notice (text n)) names) | _ => [] end
        +++ [join new_line statements].
  Proof.
    intros w force config srcs c names text rows R C Sv N Ex. unfold run_plan in *. destruct (build w force config) as [[tr err] r] eqn:B.
    destruct r as [ops|e]; [|discriminate Ex]. clear Ex. cbn [run_out run_err]. exists (map op_str ops). rewrite (app_assoc (concat _)). f_equal.
    unfold build in B. pose proof (reads_load w config srcs R) as L. unfold build_notices. destruct (load_files w config) as [files|] eqn:Lf; [|discriminate].
    rewrite (notices_of w config srcs files R) by congruence. f_equal.
    destruct (db_errors files) as [b1 [errs|]]; [|discriminate]. destruct (negb (list_is_nil errs) && negb force); [injection B as _ <- _; reflexivity|].
    assert (E : err = []).
    { destruct (load_live w config _) as [tr0 [l|]]; [|discriminate]. destruct (mygration false b1 (Some l)) as [b2 [st|]]; [|discriminate]. injection B as _ <- _. reflexivity. }
    subst err. rewrite (live_told w c names text rows Sv config C N).
    destruct (live_all w c names text rows Sv config (dvals (db_tables b1)) C N) as (qs & _ & El). rewrite El in B.
    destruct (live_database (map text names)) as [live|e] eqn:Ld; [|discriminate B]. rewrite (table_notices_all _ _ _ Ld), map_map. reflexivity.
  Qed.

  (** Full statement: what [plan] prints is the statements and nothing else.  False, see [C101_refuted];
      proved for the sources of C75 and the servers of C72. *)
  Theorem C101_only_statements_partial : forall w force config srcs ls c quiet Ts text rows,
    reads_from w config srcs -> Forall2 (fun src l => source_holds l (snd src)) srcs ls ->
    driver_credentials (w_loads w) (w_file w) (w_cwd w) (Some config) = Ok c ->
    serves w c (map tm_name Ts) text rows -> (forall T, In T Ts -> text (tm_name T) = show_create quiet T) -> Forall plain_table Ts -> NoDup (map tm_name Ts) ->
    run_end (run_plan w force config) = Exited true ->
    exists statements, run_out (run_plan w force config) = [join new_line statements].
  Proof.
    intros w force config srcs ls c quiet Ts text rows R F C Sv Tx P N Ex.
    assert (Tm : map text (map tm_name Ts) = map (show_create quiet) Ts) by (rewrite map_map; apply map_ext_in; exact Tx).
    pose proof (nothing_told w c _ text rows Sv force config srcs R (held_out srcs ls F) C N ltac:(rewrite Tm; apply shown_out, P)) as Nt.
    unfold run_plan in *. destruct (build w force config) as [[tr err] [ops|e]]; [|discriminate Ex]. rewrite Nt. exists (map op_str ops). reflexivity.
  Qed.
End Told.

(** ** C102 *)

(** The same run, but for one line that is printed. *)
Definition one_line_more (line : string) (r r' : run) : Prop :=
  run_deeds r = run_deeds r' /\ run_err r = run_err r' /\ run_end r = run_end r'
  /\ exists l1 l2, run_out r' = l1 +++ l2 /\ run_out r = l1 +++ line :: l2.

Lemma add_line line d l1 l2 x e n : one_line_more line (mkRun d ((l1 +++ line :: l2) +++ x) e n) (mkRun d ((l1 +++ l2) +++ x) e n).
Proof. repeat split. exists l1, (l2 +++ x). cbn [run_out]. rewrite <- !app_assoc. split; reflexivity. Qed.
Lemma add_line_0 line d l1 l2 e n : one_line_more line (mkRun d (l1 +++ line :: l2) e n) (mkRun d (l1 +++ l2) e n).
Proof. repeat split. exists l1, l2. split; reflexivity. Qed.

(** Full statement: if a file cannot be read, [check] fails and nothing is planned.  It is false whenever
    nothing at all is read of the file: then everything goes as if the file were not there, with the same
    statements and the same exit status, for [check], [plan] and [apply]; only one line more is printed, on
    the standard output (with the name of the file, or the text itself if it was not read from a file).
    [w'] is the world [w] without the file. *)
Theorem C102_one_line : forall w w' (FO : FloatOracle) config srcs file s srcs' m b,
  w_server w' = w_server w -> w_connect w' = w_connect w ->
  driver_credentials (w_loads w') (w_file w') (w_cwd w') (Some config) = driver_credentials (w_loads w) (w_file w) (w_cwd w) (Some config) ->
  reads_from w config (srcs +++ (file, s) :: srcs') -> reads_from w' config (srcs +++ srcs') -> file_database (srcs +++ srcs') = Ok b ->
  read_sql file s = (new_reader, Raise (ValueError m)) ->
  let line := "Error in file " ++ match file with EmptyString => s | _ => file end ++ ": " ++ m in
  one_line_more line (run_check w config) (run_check w' config)
  /\ forall force, one_line_more line (run_plan w force config) (run_plan w' force config) /\ one_line_more line (run_apply w force config) (run_apply w' force config).
Proof.
  intros w w' FO config srcs file s srcs' m b Sv Cn Cr R R' E Q line.
  pose proof (nothing_read srcs file srcs' s m Q) as Eq. pose proof (reads_load _ _ _ R) as L. pose proof (reads_load _ _ _ R') as L'. rewrite Eq, E in L. rewrite E in L'.
  assert (Tw' : file_notices w' config = concat (map source_notice srcs) +++ concat (map source_notice srcs')).
  { rewrite (notices_of w' config _ b R' E), map_app, concat_app. reflexivity. }
  assert (Tw : file_notices w config = concat (map source_notice srcs) +++ line :: concat (map source_notice srcs')).
  { rewrite (notices_of w config _ b R) by (rewrite Eq; exact E). rewrite map_app, concat_app. cbn [map concat]. f_equal.
    unfold source_notice at 1. cbn [fst snd]. rewrite Q. cbn [snd]. destruct file as [|a f]; reflexivity. }
  set (l1 := concat (map source_notice srcs)) in *. set (l2 := concat (map source_notice srcs')) in *. split.
  - unfold run_check. rewrite L, L', Tw, Tw'. destruct (db_errors b) as [b1 [errs|e]]; [|apply add_line_0]. destruct (db_warnings b1) as [b2 [ws|e]]; [|apply add_line_0]. apply add_line.
  - intros force.
    assert (B : build w' force config = build w force config).
    { unfold build. rewrite L, L'. destruct (db_errors b) as [b1 [errs|e]]; [|reflexivity]. destruct (negb _ && negb force); [reflexivity|].
      rewrite (same_live w w' config Sv Cn Cr (dvals (db_tables b1)) (dvals (db_tables b1)) eq_refl). reflexivity. }
    assert (T : exists l3, build_notices w' force config = l1 +++ (l2 +++ l3) /\ build_notices w force config = l1 +++ line :: (l2 +++ l3)).
    { unfold build_notices. rewrite L, L', Tw, Tw', (same_told w w' config Sv Cn Cr). eexists. rewrite <- !app_assoc. split; reflexivity. }
    destruct T as (l3 & T' & T). unfold run_plan, run_apply. rewrite B, T, T'. destruct (build w force config) as [[tr err] [ops|e]]; [|split; apply add_line_0].
    split; [apply add_line|]. rewrite (same_driver w w' config Cn Cr). destruct (get_driver w config tr) as [tr1 [e|]]; [apply add_line_0|].
    rewrite (same_statements w w' Sv). destruct (send_statements w tr1 _) as [tr2 [e|]]; [apply add_line_0|apply add_line].
Qed.

(** ** Instances *)

(** The files of C100, and a server that has their tables. *)
Definition zoo_reads : dict string answer := ("SHOW TABLES", listing ["cats"; "users"]) :: map (fun n => definition n (simple_live n)) ["cats"; "users"].
Definition users_sql : string := "CREATE TABLE `users` (`id` INT(10) NOT NULL, `name` VARCHAR(20), PRIMARY KEY (`id`));".
Definition zoo : world := site_world "/srv/app/sql" ["cats.sql"; "users.sql"] [("/srv/app/sql/cats.sql", cats_sql); ("/srv/app/sql/users.sql", users_sql)] zoo_reads.
Definition zoo_without : world := site_world "/srv/app/sql" ["users.sql"] [("/srv/app/sql/cats.sql", cats_sql); ("/srv/app/sql/users.sql", users_sql)] zoo_reads.
Definition cats_line : string := "Error in file /srv/app/sql/cats.sql: Found an unknown column type, 'BTREE' that does not have a corresponding column class".
Definition zoo_plan : list string :=
  ["SET FOREIGN_KEY_CHECKS=0;"; "ALTER TABLE `users` ADD `name` VARCHAR(20) AFTER `id`;"; "DROP TABLE cats;"; "SET FOREIGN_KEY_CHECKS=1;"].
Theorem C101_refuted : forall FO : FloatOracle, exists w config line statements,
  run_end (run_check w config) = Exited true /\ run_end (run_plan w false config) = Exited true /\ run_err (run_plan w false config) = []
  /\ run_out (run_plan w false config) = [line; join new_line statements] /\ statements = zoo_plan
  /\ line = "Error in file /srv/app/sql/cats.sql: Found an unknown column type, 'BTREE' that does not have a corresponding column class".
Proof.
  intros FO. exists zoo, "mygrate.conf", cats_line, zoo_plan. split; [by_vm|]. split; [by_vm|]. split; [by_vm|]. split; [by_vm|]. split; reflexivity.
Qed.
(** Even a table that the server reports may be one that the tool does not understand. *)
Definition btree_live : string := "CREATE TABLE `cats` (
  `id` int(10) NOT NULL,
  KEY `ids` (`id`) USING BTREE
) ENGINE=InnoDB DEFAULT CHARSET=utf8".
Definition barn : world := site_world "/srv/app/sql" ["users.sql"] [("/srv/app/sql/users.sql", users_sql)]
  [("SHOW TABLES", listing ["users"; "cats"]); definition "users" users_sql; definition "cats" btree_live].
Example ex_C101 : reads_from barn "mygrate.conf" [("/srv/app/sql/users.sql", users_sql)]
  /\ driver_credentials (w_loads barn) (w_file barn) (w_cwd barn) (Some "mygrate.conf") = Ok site_creds
  /\ serves barn site_creds ["users"; "cats"] (fun n => if String.eqb n "users" then users_sql else btree_live) (fun _ => Ok [])
  /\ run_end (run_plan barn false "mygrate.conf") = Exited true
  /\ run_out (run_plan barn false "mygrate.conf") = table_notice btree_live +++ [""] /\ table_notice btree_live <> [].
Proof.
  split; [exists "/srv/app/sql"; split; vm_compute; reflexivity|]. split; [vm_compute; reflexivity|]. split; [|split; [by_vm|split; [by_vm|vm_compute; discriminate]]].
  constructor; [reflexivity| | |].
  - intros qs _. eexists. split; reflexivity.
  - intros qs n _ [<-|[<-|[]]]; eexists _, _, _; repeat split.
  - intros qs n _. reflexivity.
Qed.
(** The hypotheses of [C101_only_statements_partial] are met by the files and the server of C85. *)

Example ex_C102 : w_server zoo_without = w_server zoo /\ w_connect zoo_without = w_connect zoo
  /\ driver_credentials (w_loads zoo_without) (w_file zoo_without) (w_cwd zoo_without) (Some "mygrate.conf") = driver_credentials (w_loads zoo) (w_file zoo) (w_cwd zoo) (Some "mygrate.conf")
  /\ reads_from zoo "mygrate.conf" ([] +++ ("/srv/app/sql/cats.sql", cats_sql) :: [("/srv/app/sql/users.sql", users_sql)])
  /\ reads_from zoo_without "mygrate.conf" ([] +++ [("/srv/app/sql/users.sql", users_sql)])
  /\ (exists b, file_database ([] +++ [("/srv/app/sql/users.sql", users_sql)]) = Ok b /\ dkeys (d_tables b) = ["users"])
  /\ exists m, read_sql "/srv/app/sql/cats.sql" cats_sql = (new_reader, Raise (ValueError m)).
Proof.
  split; [reflexivity|]. split; [reflexivity|]. split; [vm_compute; reflexivity|]. split; [exists "/srv/app/sql"; split; vm_compute; reflexivity|].
  split; [exists "/srv/app/sql"; split; vm_compute; reflexivity|]. split; [eexists; split; vm_compute; reflexivity|]. eexists. vm_compute. reflexivity.
Qed.
(** [check] prints the line and then that there are no problems. *)
Theorem C102_refuted : forall FO : FloatOracle, exists w config srcs file s m,
  reads_from w config srcs /\ In (file, s) srcs /\ read_sql file s = (new_reader, Raise (ValueError m))
  /\ run_check w config = mkRun [] ["Error in file " ++ file ++ ": " ++ m; "No problems found"] [] (Exited true) /\ exit_status (run_check w config) = 0.
Proof.
  intros FO. exists zoo, "mygrate.conf", [("/srv/app/sql/cats.sql", cats_sql); ("/srv/app/sql/users.sql", users_sql)], "/srv/app/sql/cats.sql", cats_sql. eexists.
  split; [exists "/srv/app/sql"; split; vm_compute; reflexivity|]. split; [left; reflexivity|]. split; [vm_compute; reflexivity|]. split; vm_compute; reflexivity.
Qed.

Print Assumptions C101_output_exact.
Print Assumptions C101_only_statements_partial.
Print Assumptions C101_refuted.
Print Assumptions C102_one_line.
Print Assumptions C102_refuted.
