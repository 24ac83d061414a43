(** C78-C81: the command line. *)
From Verif Require Import CliFacts Samples.

Ltac by_vm := match goal with |- _ = ?b => vm_cast_no_check (eq_refl b) end.

(** ** What a plan sends *)

(** The statements that read: the list of tables, their definitions, the rows of tables. *)
Definition reading_statements (names tracked : list string) : list string :=
  "SHOW TABLES" :: map (fun n => "SHOW CREATE TABLE " ++ n) names +++ map (fun n => "SELECT * FROM " ++ n) tracked.
(** [qs] are the first of them. *)
Definition begins_with (qs all : list string) : Prop := exists rest, all = qs +++ rest.

Lemma begins_more q qs all : begins_with qs all -> begins_with (q :: qs) (q :: all).
Proof. intros (r & ->). exists r. reflexivity. Qed.
Lemma begins_all all more : begins_with all (all +++ more).
Proof. exists more. reflexivity. Qed.

Section World.
  Context (w : world) {FO : FloatOracle}.

  Lemma show_creates_sent names : forall tr defs, exists qs,
    fst (show_creates w tr names defs) = tr +++ map Query qs /\ begins_with qs (map (fun n => "SHOW CREATE TABLE " ++ n) names)
    /\ (forall d, snd (show_creates w tr names defs) = Ok d -> qs = map (fun n => "SHOW CREATE TABLE " ++ n) names).
  Proof.
    induction names as [|n names IH]; intros tr defs.
    - exists []. cbn [show_creates fst map]. rewrite app_nil_r. split; [reflexivity|]. split; [exists []; reflexivity|reflexivity].
    - cbn [show_creates send]. set (q := "SHOW CREATE TABLE " ++ n). destruct (w_server w tr q) as [e|[|r l]]; [| |destruct (dget "Create Table" r) as [v|]].
      4:{ exists [q]. cbn [fst snd map]. split; [reflexivity|]. split; [exists (map (fun n => "SHOW CREATE TABLE " ++ n) names); reflexivity|discriminate]. }
      3:{ destruct (IH (tr +++ [Query q]) (dset n (rval_str v) defs)) as (qs & A & B & C). exists (q :: qs). rewrite A, <- app_assoc. split; [reflexivity|]. split; [apply begins_more, B|].
          intros d H. rewrite (C d H). reflexivity. }
      all: exists [q]; cbn [fst snd map]; (split; [reflexivity|]); (split; [exists (map (fun n => "SHOW CREATE TABLE " ++ n) names); reflexivity|discriminate]).
  Qed.
  Lemma load_rows_sent files : forall tr live, exists qs tracked,
    fst (load_rows w tr files live) = tr +++ map Query qs /\ qs = map (fun n => "SELECT * FROM " ++ n) tracked
    /\ incl tracked (map t_name (filter t_tracking files)).
  Proof.
    induction files as [|f files IH]; intros tr live.
    - exists [], []. cbn [load_rows fst map filter]. rewrite app_nil_r. split; [reflexivity|]. split; [reflexivity|intros x []].
    - cbn [load_rows]. destruct (t_tracking f) eqn:T; cbn [negb filter]; rewrite T.
      + assert (Wk : forall tr live, exists qs tracked, fst (load_rows w tr files live) = tr +++ map Query qs /\ qs = map (fun n => "SELECT * FROM " ++ n) tracked
                  /\ incl tracked (map t_name (f :: filter t_tracking files))).
        { intros tr0 live0. destruct (IH tr0 live0) as (qs & tracked & A & B & C). exists qs, tracked. split; [exact A|]. split; [exact B|]. intros x I. right. apply C, I. }
        destruct (dget (t_name f) live) as [t|]; [|apply Wk].
        unfold driver_rows, send. set (q := "SELECT * FROM " ++ t_name f). destruct (w_server w tr q) as [e|l].
        { exists [q], [t_name f]. split; [reflexivity|]. split; [reflexivity|]. intros x [<-|[]]. left. reflexivity. }
        destruct (read_raw_rows t l) as [t' [e|]].
        { exists [q], [t_name f]. split; [reflexivity|]. split; [reflexivity|]. intros x [<-|[]]. left. reflexivity. }
        destruct (Wk (tr +++ [Query q]) (dset (t_name f) t' live)) as (qs & tracked & A & B & C). exists (q :: qs), (t_name f :: tracked).
        rewrite A, <- app_assoc. split; [reflexivity|]. split; [rewrite B; reflexivity|]. intros x [<-|I]; [left; reflexivity|apply C, I].
      + destruct (IH tr live) as (qs & tracked & A & B & C). exists qs, tracked. auto.
  Qed.
  (** The names that the server lists when it is asked first. *)
  Definition listed (c : dict string cval) : list string :=
    match w_server w [Connect c] "SHOW TABLES" with Answer l => map rval_str (concat (map dvals l)) | Failed _ => [] end.
  Lemma load_live_sent config files : fst (load_live w config files) = []
    \/ exists c qs tracked, driver_credentials (w_loads w) (w_file w) (w_cwd w) (Some config) = Ok c /\ fst (load_live w config files) = Connect c :: map Query qs
       /\ begins_with qs (reading_statements (listed c) tracked) /\ incl tracked (map t_name (filter t_tracking files)).
  Proof.
    unfold load_live, get_driver. destruct (driver_credentials _ _ _ _) as [c|e] eqn:Ec; [|left; reflexivity]. destruct (w_connect w c) as [e|]; [left; reflexivity|right].
    exists c. cbn [app]. unfold driver_tables, send, listed. destruct (w_server w [Connect c] "SHOW TABLES") as [e|l].
    { exists ["SHOW TABLES"], []. split; [reflexivity|]. split; [reflexivity|]. split; [eexists; reflexivity|intros x []]. }
    set (names := map rval_str (concat (map dvals l))).
    destruct (show_creates_sent names ([Connect c] +++ [Query "SHOW TABLES"]) []) as (qs & A & B & C).
    destruct (show_creates w _ names []) as [tr [defs|e]] eqn:E; cbn [fst snd] in A, C.
    - specialize (C defs eq_refl). destruct (live_database (dvals defs)) as [live|e].
      + destruct (load_rows_sent files tr (db_tables live)) as (qs2 & tracked & A2 & B2 & C2). exists ("SHOW TABLES" :: qs +++ qs2), tracked.
        split; [reflexivity|]. rewrite A2, A. cbn [map app]. rewrite map_app. split; [reflexivity|]. split; [|exact C2].
        exists []. unfold reading_statements. rewrite C, B2, app_nil_r. reflexivity.
      + exists ("SHOW TABLES" :: qs), []. cbn [fst]. split; [reflexivity|]. rewrite A. split; [reflexivity|]. split; [|intros x []].
        unfold reading_statements. rewrite C. apply begins_more. apply begins_all.
    - exists ("SHOW TABLES" :: qs), []. cbn [fst]. split; [reflexivity|]. rewrite A. split; [reflexivity|]. split; [|intros x []].
      unfold reading_statements. apply begins_more. destruct B as (rest & ->). exists (rest +++ []). rewrite app_assoc. reflexivity.
  Qed.

  Lemma build_sent force config : fst (fst (build w force config)) = []
    \/ exists c qs files tracked, driver_credentials (w_loads w) (w_file w) (w_cwd w) (Some config) = Ok c /\ fst (fst (build w force config)) = Connect c :: map Query qs
       /\ load_files w config = Ok files
       /\ begins_with qs (reading_statements (listed c) tracked) /\ incl tracked (map t_name (filter t_tracking (dvals (db_tables files)))).
  Proof.
    unfold build. destruct (load_files w config) as [files|e]; [|left; reflexivity]. pose proof (errors_bares files) as Bs. destruct (db_errors files) as [b1 [errs|e]]; cbn [fst] in Bs; [|left; reflexivity].
    destruct (negb _ && negb force); [left; reflexivity|].
    assert (T : map t_name (filter t_tracking (dvals (db_tables b1))) = map t_name (filter t_tracking (dvals (db_tables files)))).
    { assert (H : forall ts, map t_name (filter t_tracking (dvals ts)) = map t_name (filter t_tracking (dvals (bares ts)))).
      { intros ts. unfold dvals, bares. rewrite map_map. cbn [snd]. induction ts as [|[n t] ts IH]; [reflexivity|]. cbn [map filter snd]. change (t_tracking (bare t)) with (t_tracking t). destruct (t_tracking t); cbn [map]; rewrite IH; reflexivity. }
      rewrite H, Bs, <- H. reflexivity. }
    assert (L : forall (x : list deed) y z, fst (fst (x, y : list string, z : res (list op))) = x) by reflexivity.
    destruct (load_live_sent config (dvals (db_tables b1))) as [E|(c & qs & tracked & A & B & C & D)].
    - left. destruct (load_live w config _) as [tr [l|e]]; cbn [fst] in E; [|exact E]. destruct (mygration false b1 (Some l)) as [b2 [st|e]]; exact E.
    - right. exists c, qs, files, tracked. split; [exact A|]. split; [|split; [reflexivity|split; [exact C|rewrite <- T; exact D]]].
      destruct (load_live w config _) as [tr [l|e]]; cbn [fst] in B; [|exact B]. destruct (mygration false b1 (Some l)) as [b2 [st|e]]; exact B.
  Qed.
End World.

(** ** A sample *)

Definition nl1 : string := String newline "".
(** The directory [dir] with the files [names], whose texts are [texts]; a server that answers
    [reads] and accepts everything else. *)
Definition answers (reads : dict string answer) (tr : list deed) (q : string) : answer :=
  match dget q reads with Some a => a | None => Answer [] end.
Definition site_file (dir : string) (texts : dict string string) (p : string) : option string :=
  if String.eqb p "/srv/app/mygrate.conf"
  then Some ("files_directory='" ++ dir ++ "'" ++ nl1 ++ "env_file='.env'" ++ nl1 ++ "hostname_key='H'" ++ nl1 ++ "username_key='U'" ++ nl1
             ++ "password_key='P'" ++ nl1 ++ "database_key='D'")
  else if String.eqb p "/srv/app/.env" then Some ("H='localhost'" ++ nl1 ++ "U='root'" ++ nl1 ++ "P='secret'" ++ nl1 ++ "D='shop'")
  else dget p texts.
Definition site_world (dir : string) (names : list string) (texts : dict string string) (reads : dict string answer) : world :=
  mkWorld "/srv/app" (fun _ => None) (site_file dir texts) (String.eqb dir) (fun d => if String.eqb d dir then names else [])
    (fun _ => None) (answers reads).
Definition site_creds : dict string cval :=
  [("host", CStr "localhost"); ("database", CStr "shop"); ("user", CStr "root"); ("password", CStr "secret")].
Definition listing (names : list string) : answer := Answer (map (fun n => [("Tables_in_shop", RStr n)]) names).
Definition definition (n s : string) : string * answer :=
  ("SHOW CREATE TABLE " ++ n, Answer [[("Table", RStr n); ("Create Table", RStr s)]]).
Definition roles_text (cols : string) : string :=
  "CREATE TABLE `roles` (`id` INT(10) UNSIGNED NOT NULL AUTO_INCREMENT, " ++ cols ++ "PRIMARY KEY (`id`));".
(** One tracked table, to which a column is added. *)
Definition roles_sql : string :=
  roles_text "`name` VARCHAR(255) DEFAULT NULL, " ++ nl1 ++ "INSERT INTO roles (id, name) VALUES ('1', 'admin');".
Definition shop : world :=
  site_world "/srv/app/sql" ["roles.sql"; "notes.txt"] [("/srv/app/sql/roles.sql", roles_sql)]
    [("SHOW TABLES", listing ["roles"; "old"]); definition "roles" (roles_text ""); definition "old" "CREATE TABLE `old` (`id` INT(10))";
     ("SELECT * FROM roles", Answer [[("id", RStr "1")]])].
Definition shop_plan : list string :=
  ["SET FOREIGN_KEY_CHECKS=0;"; "ALTER TABLE `roles` ADD `name` VARCHAR(255) AFTER `id`;"; "DROP TABLE old;"; "SET FOREIGN_KEY_CHECKS=1;"].

(** ** C78 *)

(** [plan] reads and does nothing else: whatever the files, the options and the answers of the server
    are, it connects at most once and sends the statements that read, in this order, up to the first
    one that fails, and commits nothing.  The names of the tables are those that the server listed and
    those of the files.  [check] does not even connect. *)
Theorem C78_plan_reads_only : forall w (FO : FloatOracle) force config,
  run_deeds (run_plan w force config) = []
  \/ exists c qs files tracked,
       run_deeds (run_plan w force config) = Connect c :: map Query qs
       /\ load_files w config = Ok files
       /\ begins_with qs (reading_statements (listed w c) tracked)
       /\ incl tracked (map t_name (filter t_tracking (dvals (db_tables files)))).
Proof.
  intros w FO force config. assert (E : run_deeds (run_plan w force config) = fst (fst (build w force config))).
  { unfold run_plan. destruct (build w force config) as [[tr err] [ops|e]]; reflexivity. }
  rewrite E. destruct (build_sent w force config) as [H|(c & qs & files & tracked & _ & A & B & C & D)]; [left; exact H|right]. exists c, qs, files, tracked. auto.
Qed.
Theorem C78_check_offline : forall w (FO : FloatOracle) config, run_deeds (run_check w config) = [].
Proof.
  intros w FO config. unfold run_check. destruct (load_files w config) as [files|e]; [|reflexivity]. destruct (db_errors files) as [b1 [errs|e]]; [|reflexivity].
  destruct (db_warnings b1) as [b2 [ws|e]]; reflexivity.
Qed.

Definition shop_reads : list deed :=
  Connect site_creds :: map Query (reading_statements ["roles"; "old"] ["roles"]).
Example ex_C78 : run_plan shop false "mygrate.conf" = mkRun shop_reads [join new_line shop_plan] [] (Exited true)
  /\ listed shop site_creds = ["roles"; "old"].
Proof. split; [by_vm|reflexivity]. Qed.
Print Assumptions C78_plan_reads_only.
Print Assumptions C78_check_offline.

(** ** C79 *)

(** The answers to [qs], sent one after the other after [tr]: all of them succeed. *)
Fixpoint all_succeed (w : world) (tr : list deed) (qs : list string) : Prop :=
  match qs with
  | [] => True
  | q :: qs' => (exists l, w_server w tr q = Answer l) /\ all_succeed w (tr +++ [Query q]) qs'
  end.
Lemma send_statements_spec w l : forall tr,
  (all_succeed w tr l /\ send_statements w tr l = (tr +++ map Query l +++ [Commit], None))
  \/ exists l1 q l2 e, l = l1 +++ q :: l2 /\ all_succeed w tr l1 /\ w_server w (tr +++ map Query l1) q = Failed e
       /\ send_statements w tr l = (tr +++ map Query l1 +++ [Query q], Some e).
Proof.
  induction l as [|s l IH]; intros tr.
  - left. split; [exact Logic.I|reflexivity].
  - cbn [send_statements send]. destruct (w_server w tr s) as [e|a] eqn:E.
    + right. exists [], s, l, e. cbn [map app]. rewrite app_nil_r. split; [reflexivity|]. split; [exact Logic.I|]. split; [exact E|reflexivity].
    + destruct (IH (tr +++ [Query s])) as [[A B]|(l1 & q & l2 & e & A & B & C & D)].
      * left. split; [split; [exists a; exact E|exact A]|]. rewrite B, <- app_assoc. reflexivity.
      * right. exists (s :: l1), q, l2, e. split; [rewrite A; reflexivity|]. split; [split; [exists a; exact E|exact B]|]. rewrite <- !app_assoc in C, D. split; [exact C|exact D].
Qed.

(** [apply] does what [plan] shows: if [plan] fails, [apply] does the same; otherwise [plan] prints
    some statements, and [apply] does what [plan] does and then sends these statements in their order.
    If one fails, the rest is not sent and nothing is committed; if all succeed, there is one commit
    at the end.  (If the plan was refused because of errors, [apply] still connects and commits.)  Both
    print first what the reading of the files and of the live tables gave rise to ([build_notices], see C101). *)
Theorem C79_apply_follows_plan : forall w (FO : FloatOracle) force config,
  let p := run_plan w force config in
  let a := run_apply w force config in
  let told := build_notices w force config in
  run_err a = run_err p /\
  ((exists e, run_end p = Uncaught e /\ run_out p = told /\ a = p)
   \/ exists texts, run_end p = Exited true /\ run_out p = told +++ [join new_line texts]
      /\ ((run_deeds p = [] /\ texts = []
           /\ ((exists e, a = mkRun [] told (run_err p) (Uncaught e))
               \/ exists c, run_deeds a = [Connect c; Commit] /\ run_out a = told +++ ["No changes required"] /\ run_end a = Exited true))
          \/ (run_deeds p <> []
              /\ ((all_succeed w (run_deeds p) texts /\ run_deeds a = run_deeds p +++ map Query texts +++ [Commit]
                   /\ run_out a = told +++ match texts with [] => ["No changes required"] | _ => ["Applied:"; join new_line texts] end
                   /\ run_end a = Exited true)
                  \/ exists l1 q l2 e, texts = l1 +++ q :: l2 /\ all_succeed w (run_deeds p) l1 /\ w_server w (run_deeds p +++ map Query l1) q = Failed e
                       /\ run_deeds a = run_deeds p +++ map Query l1 +++ [Query q] /\ run_out a = told /\ run_end a = Uncaught e)))).
Proof.
  intros w FO force config. cbn zeta. unfold run_plan, run_apply. destruct (build w force config) as [[tr err] r] eqn:B.
  destruct r as [ops|e]; [|split; [reflexivity|left; exists e; repeat split; reflexivity]]. cbn [run_err run_end run_out run_deeds].
  set (texts := map op_str ops).
  assert (Em : tr = [] -> ops = []).
  { intros ->. unfold build in B. destruct (load_files w config) as [files|]; [|discriminate]. destruct (db_errors files) as [b1 [errs|]]; [|discriminate].
    destruct (negb _ && negb force); [injection B as _ <-; reflexivity|]. exfalso.
    unfold load_live, get_driver in B. destruct (driver_credentials _ _ _ _) as [c|]; [|discriminate]. destruct (w_connect w c) as [|]; [discriminate|]. cbn [app] in B.
    unfold driver_tables, send in B. destruct (w_server w [Connect c] "SHOW TABLES") as [|l]; [discriminate|].
    destruct (show_creates_sent w (map rval_str (concat (map dvals l))) ([Connect c] +++ [Query "SHOW TABLES"]) []) as (qs & A & _).
    destruct (show_creates w _ _ _) as [tr [defs|]]; cbn [fst] in A; subst tr; [|discriminate]. destruct (live_database (dvals defs)) as [live|]; [|discriminate].
    destruct (load_rows_sent w (dvals (db_tables b1)) (([Connect c] +++ [Query "SHOW TABLES"]) +++ map Query qs) (db_tables live)) as (qs2 & tracked & A2 & _).
    destruct (load_rows w _ _ _) as [tr [lv|]]; cbn [fst] in A2; subst tr; [|discriminate]. destruct (mygration false b1 (Some lv)) as [b2 [st|]]; discriminate. }
  destruct tr as [|d0 tr].
  - specialize (Em eq_refl). subst texts ops. cbn [map]. unfold get_driver. destruct (driver_credentials _ _ _ _) as [c|e].
    + destruct (w_connect w c) as [e|].
      * split; [reflexivity|]. right. exists []. split; [reflexivity|]. split; [reflexivity|]. left. split; [reflexivity|]. split; [reflexivity|]. left. exists e. reflexivity.
      * split; [reflexivity|]. right. exists []. split; [reflexivity|]. split; [reflexivity|]. left. split; [reflexivity|]. split; [reflexivity|]. right. exists c. repeat split; reflexivity.
    + split; [reflexivity|]. right. exists []. split; [reflexivity|]. split; [reflexivity|]. left. split; [reflexivity|]. split; [reflexivity|]. left. exists e. reflexivity.
  - cbn [get_driver]. destruct (send_statements_spec w texts (d0 :: tr)) as [[A S]|(l1 & q & l2 & e & A & A1 & A2 & S)]; rewrite S.
    + split; [reflexivity|]. right. exists texts. split; [reflexivity|]. split; [reflexivity|]. right. split; [discriminate|]. left. split; [exact A|]. split; [reflexivity|]. split; [destruct texts; reflexivity|reflexivity].
    + split; [reflexivity|]. right. exists texts. split; [reflexivity|]. split; [reflexivity|]. right. split; [discriminate|]. right. exists l1, q, l2, e.
      split; [exact A|]. split; [exact A1|]. split; [exact A2|]. split; [reflexivity|]. split; reflexivity.
Qed.

(** The same plan applied to a server that refuses its third statement, and to one that does not. *)
Definition refusing (q : string) (w : world) : world :=
  mkWorld (w_cwd w) (w_loads w) (w_file w) (w_isdir w) (w_names w) (w_connect w)
    (fun tr s => if String.eqb s q then Failed (DriverError "refused") else w_server w tr s).
Example ex_C79 :
  run_deeds (run_apply shop false "mygrate.conf") = shop_reads +++ map Query shop_plan +++ [Commit]
  /\ run_out (run_apply shop false "mygrate.conf") = ["Applied:"; join new_line shop_plan]
  /\ run_apply (refusing "DROP TABLE old;" shop) false "mygrate.conf"
     = mkRun (shop_reads +++ map Query (firstn 3 shop_plan)) [] [] (Uncaught (DriverError "refused")).
Proof. split; [by_vm|]. split; by_vm. Qed.
Print Assumptions C79_apply_follows_plan.

(** ** C80 *)

(** Full statement: the exit status of every command tells whether the files are in order.  [check]
    does tell: *)
Theorem C80_check_status : forall w (FO : FloatOracle) config,
  exit_status (run_check w config) = 0 ->
  run_end (run_check w config) = Exited true
  /\ forall force, run_err (run_plan w force config) = [] /\ run_err (run_apply w force config) = [].
Proof.
  intros w FO config. unfold exit_status. destruct (run_end (run_check w config)) as [[|]|e|m] eqn:E; try discriminate. intros _. split; [reflexivity|]. intros force.
  assert (B : snd (fst (build w force config)) = []).
  { unfold run_check in E. unfold build. destruct (load_files w config) as [files|]; [|reflexivity]. destruct (db_errors files) as [b1 [errs|]]; [|reflexivity].
    destruct (db_warnings b1) as [b2 [ws|]]; [|discriminate]. cbn [run_end] in E. destruct errs as [|x errs]; [|discriminate]. cbn [list_is_nil negb andb].
    destruct (load_live w config _) as [tr [l|]]; [|reflexivity]. destruct (mygration false b1 (Some l)) as [b3 [st|]]; reflexivity. }
  unfold run_plan, run_apply. destruct (build w force config) as [[tr err] r]. cbn [fst snd] in B. subst err. split.
  - destruct r; reflexivity.
  - destruct r as [ops|]; [|reflexivity]. destruct (get_driver w config tr) as [tr1 [e|]]; [reflexivity|]. destruct (send_statements w tr1 _) as [tr2 [e|]]; reflexivity.
Qed.
(** [plan] and [apply] do not: whenever [check] finds errors, they report them and end with status 0
    (unless [apply] cannot connect), having changed nothing: *)
Theorem C80_refused_status : forall w (FO : FloatOracle) config,
  run_end (run_check w config) = Exited false ->
  exists errs, errs <> [] /\ run_err (run_plan w false config) = "Errors found in *.sql files" :: errs
  /\ run_deeds (run_plan w false config) = [] /\ exit_status (run_plan w false config) = 0
  /\ run_err (run_apply w false config) = "Errors found in *.sql files" :: errs
  /\ (forall q, ~ In (Query q) (run_deeds (run_apply w false config)))
  /\ (forall c, driver_credentials (w_loads w) (w_file w) (w_cwd w) (Some config) = Ok c -> w_connect w c = None -> exit_status (run_apply w false config) = 0).
Proof.
  intros w FO config E.
  assert (B : exists errs, errs <> [] /\ build w false config = ([], "Errors found in *.sql files" :: errs, Ok [])).
  { unfold run_check in E. unfold build. destruct (load_files w config) as [files|]; [|discriminate]. destruct (db_errors files) as [b1 [errs|]]; [|discriminate].
    destruct (db_warnings b1) as [b2 [ws|]]; [|discriminate]. cbn [run_end] in E. destruct errs as [|x errs]; [discriminate|]. exists (x :: errs). split; [discriminate|reflexivity]. }
  destruct B as (errs & N & B). exists errs. split; [exact N|]. unfold run_plan, run_apply. rewrite B. cbn [map get_driver].
  split; [reflexivity|]. split; [reflexivity|]. split; [reflexivity|].
  destruct (driver_credentials _ _ _ _) as [c|e].
  - destruct (w_connect w c) as [e|] eqn:Ec.
    + split; [reflexivity|]. split; [intros q []|]. intros c' [= <-] H. rewrite Ec in H. discriminate.
    + split; [reflexivity|]. split; [|intros; reflexivity]. intros q [H|[H|[]]]; discriminate.
  - split; [reflexivity|]. split; [intros q []|]. intros c' [=].
Qed.

(** A foreign key to a table that does not exist. *)
Definition orphan_sql : string :=
  "CREATE TABLE `a` (`id` INT(10), `b_id` INT(10), KEY `b` (`b_id`), CONSTRAINT `a_b` FOREIGN KEY (`b_id`) REFERENCES `b` (`id`));".
Definition orphan : world := site_world "/srv/app/sql" ["a.sql"] [("/srv/app/sql/a.sql", orphan_sql)] [("SHOW TABLES", listing [])].
Example ex_C80 : exit_status (run_check shop "mygrate.conf") = 0 /\ run_end (run_check orphan "mygrate.conf") = Exited false
  /\ driver_credentials (w_loads orphan) (w_file orphan) (w_cwd orphan) (Some "mygrate.conf") = Ok site_creds
  /\ exit_status (run_apply orphan false "mygrate.conf") = 0.
Proof. split; [by_vm|]. split; [by_vm|]. split; by_vm. Qed.
(** The second sentence of C80 is false: both commands refuse, and end with status 0. *)
Theorem C80_refuted : forall FO : FloatOracle, exists w config e,
  exit_status (run_check w config) <> 0
  /\ run_err (run_plan w false config) = ["Errors found in *.sql files"; e] /\ exit_status (run_plan w false config) = 0
  /\ run_err (run_apply w false config) = ["Errors found in *.sql files"; e] /\ exit_status (run_apply w false config) = 0.
Proof.
  intros FO. exists orphan, "mygrate.conf". eexists. split; [vm_compute; discriminate|]. split; [vm_compute; reflexivity|]. repeat (split; [by_vm|]). by_vm.
Qed.
Print Assumptions C80_check_status.
Print Assumptions C80_refuted.
Print Assumptions C80_refused_status.

(** ** C81 *)

(** Full statement: the commands that the command line offers exist.  False: three of them fail
    before they do anything, in every world; so does the command that is run by default, and any
    command with [-v]. *)
Theorem C81_refuted : forall w (FO : FloatOracle) command config force version,
  (version = true \/ command = None \/ In command [Some "version"; Some "import"; Some "plan_export"]) ->
  exists m, main w command config force version = mkRun [] [] [] (ImportFailed m) /\ exit_status (main w command config force version) = 1.
Proof.
  intros w FO command config force version H. unfold main.
  destruct version; [eexists; split; reflexivity|]. destruct H as [H|[->|H]]; [discriminate|eexists; split; reflexivity|].
  destruct H as [<-|[<-|[<-|[]]]]; eexists; split; reflexivity.
Qed.
(** The others are the commands above. *)
Theorem C81_commands_partial : forall w (FO : FloatOracle) command config force,
  In command ["plan"; "apply"; "check"] ->
  main w (Some command) config force false
  = let c := match config with Some f => f | None => "mygrate.conf" end in
    if String.eqb command "plan" then run_plan w force c else if String.eqb command "apply" then run_apply w force c else run_check w c.
Proof. intros w FO command config force [<-|[<-|[<-|[]]]]; reflexivity. Qed.
Example ex_C81 : run_end (main shop None None false false) = ImportFailed "cannot import name 'base' from 'mygrations.core.commands.base'"
  /\ run_out (main shop (Some "check") None false false) = ["No problems found"].
Proof. split; by_vm. Qed.
Print Assumptions C81_refuted.
Print Assumptions C81_commands_partial.

(** ** The sources of a run *)

(** The configuration names a path, and the sources there are [srcs] (see C82). *)
Definition reads_from (w : world) (config : string) (srcs : list source) : Prop :=
  exists s, sql_files (w_loads w) (w_file w) (w_cwd w) (Some config) = Ok (CStr s) /\ process w s = Ok srcs.

Local Opaque read_sql max_statements max_turns.
Section Notices.
  Context {FO : FloatOracle}.

  Lemma reads_load w config srcs : reads_from w config srcs -> load_files w config = file_database srcs.
  Proof. intros (s & S & P). unfold load_files. rewrite S. cbn [bind]. rewrite P. reflexivity. Qed.
  Lemma reads_notices w config srcs : reads_from w config srcs -> file_notices w config = source_notices empty_database srcs.
  Proof. intros (s & S & P). unfold file_notices. rewrite S, P. reflexivity. Qed.
  Definition read_out (src : source) : Prop := exists r x, read_sql (fst src) (snd src) = (r, Ok x).
  Lemma read_out_told src : read_out src -> source_notice src = [].
  Proof. intros (r & x & E). unfold source_notice. rewrite E. reflexivity. Qed.
  Lemma no_notices srcs : forall b, Forall read_out srcs -> source_notices b srcs = [].
  Proof.
    induction srcs as [|src srcs IH]; intros b F; [reflexivity|]. inversion F as [|? ? Q F']; subst. cbn [source_notices]. rewrite (read_out_told src Q).
    cbn [List.app]. destruct (read_source b src); [apply IH, F'|reflexivity].
  Qed.
  Lemma no_table_notices defs : forall b, Forall (fun s => read_out ("", s)) defs -> table_notices b defs = [].
  Proof.
    induction defs as [|s defs IH]; intros b F; [reflexivity|]. inversion F as [|? ? (r & x & E) F']; subst. cbn [table_notices]. unfold table_notice. cbn [fst snd] in E. rewrite E.
    cbn [List.app snd]. destruct (read_live b s); [apply IH, F'|reflexivity].
  Qed.
  (** If no exception is let through, all sources are read, and each has its line. *)
  Lemma notices_all srcs : forall b b', foldM read_source srcs b = Ok b' -> source_notices b srcs = concat (map source_notice srcs).
  Proof.
    induction srcs as [|src srcs IH]; intros b b' E; [reflexivity|]. cbn [foldM] in E. cbn [source_notices map concat].
    destruct (read_source b src) as [b1|e]; [|discriminate]. cbn [bind] in E. rewrite (IH _ _ E). reflexivity.
  Qed.
  Lemma table_notices_all defs : forall b b', foldM read_live defs b = Ok b' -> table_notices b defs = concat (map table_notice defs).
  Proof.
    induction defs as [|s defs IH]; intros b b' E; [reflexivity|]. cbn [foldM] in E. cbn [table_notices map concat].
    destruct (read_live b s) as [b1|e]; [|discriminate]. cbn [bind] in E. rewrite (IH _ _ E). reflexivity.
  Qed.
End Notices.
