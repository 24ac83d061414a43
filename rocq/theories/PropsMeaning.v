(** C95: the plan depends on what the files mean, not on how they are written. *)
From Verif Require Import MeaningFacts PropsMany PropsSeen PropsAgain SpecRows PropsRows Samples RoundRows PropsParse PropsRound PropsWrite PropsCreate PropsCommand PropsLive PropsCli.

(** Two lists of statements say the same: the same tables, and for every table the same rows.  INSERT
    statements may come anywhere, and be merged or divided. *)
Definition say_the_same (l l' : list stmt) : Prop :=
  tables_in l = tables_in l' /\ forall n, rows_in n l = rows_in n l'.

Section Norm.
  Context {FO : FloatOracle}.
  Lemma sources_norm srcs srcs' ls ls' :
    Forall2 (fun src l => source_holds l (snd src)) srcs ls -> consistent (concat ls) ->
    Forall2 (fun src l => source_holds l (snd src)) srcs' ls' -> consistent (concat ls') -> say_the_same (concat ls) (concat ls') ->
    exists b b', file_database srcs = Ok b /\ file_database srcs' = Ok b' /\ ntabs (db_tables b) = ntabs (db_tables b').
  Proof.
    intros F Co F' Co' [St Sr]. destruct (sources_database srcs ls F Co) as (ts & d & A & B). destruct (sources_database srcs' ls' F' Co') as (ts' & d' & A' & B').
    eexists. eexists. split; [exact B|]. split; [exact B'|].
    assert (E : forall ts d, db_tables (files_with ts d) = map (fun t => (t_name t, t)) ts) by (intros; apply entry_tables).
    rewrite !E. unfold ntabs. rewrite !map_map. cbn [fst snd]. rewrite <- St in A'. clear -A A' Sr. revert ts' A'.
    induction A as [|T t Ts ts R F IH]; intros ts' A'; inversion A' as [|? t' ? us R' F']; subst; [reflexivity|].
    cbn [map]. rewrite (IH us F'). f_equal. rewrite !with_new_name, (ts_name _ _ (rd_says _ _ _ R)), (ts_name _ _ (rd_says _ _ _ R')), Sr. f_equal.
    apply with_new_norm, (read_norm t t' T true true R R').
  Qed.
End Norm.

(** ** C95 *)

(** Full statement: files that mean the same lead to the same plan.  For the files of C75; which of the
    files are accepted by [check] may differ, see [C95_refuted]. *)
Theorem C95_same_plan_partial : forall (FO : FloatOracle) srcs srcs' ls ls',
  Forall2 (fun src l => source_holds l (snd src)) srcs ls -> consistent (concat ls) ->
  Forall2 (fun src l => source_holds l (snd src)) srcs' ls' -> consistent (concat ls') -> say_the_same (concat ls) (concat ls') ->
  exists b b', file_database srcs = Ok b /\ file_database srcs' = Ok b'
  /\ forall from, (forall disable, rmap (map op_str) (plan_tables disable (db_tables b) from) = rmap (map op_str) (plan_tables disable (db_tables b') from))
     /\ plan_rows (db_tables b) from = plan_rows (db_tables b') from.
Proof.
  intros FO srcs srcs' ls ls' F Co F' Co' S. destruct (sources_norm srcs srcs' ls ls' F Co F' Co' S) as (b & b' & E & E' & N). exists b, b'. split; [exact E|]. split; [exact E'|]. intros from. split.
  - intros d. rewrite <- (plan_norm_texts d (db_tables b)), N. apply plan_norm_texts.
  - rewrite <- rows_norm, N. apply rows_norm.
Qed.

(** The same for whole runs: if [check] is content with both, [plan] prints the same and [apply] does
    the same, to the letter, in two worlds that differ in the files only. *)
Section Runs.
  Context {FO : FloatOracle}.
  Variables (w w' : world) (config : string).
  Hypothesis (Sv : w_server w' = w_server w) (Cn : w_connect w' = w_connect w)
    (Cr : driver_credentials (w_loads w') (w_file w') (w_cwd w') (Some config) = driver_credentials (w_loads w) (w_file w) (w_cwd w) (Some config)).

  Lemma same_driver tr : get_driver w' config tr = get_driver w config tr.
  Proof. unfold get_driver. rewrite Cr, Cn. reflexivity. Qed.
  Lemma same_send tr s : send w' tr s = send w tr s.
  Proof. unfold send. rewrite Sv. reflexivity. Qed.
  Lemma same_shows names : forall tr defs, show_creates w' tr names defs = show_creates w tr names defs.
  Proof.
    induction names as [|n names IH]; intros tr defs; [reflexivity|]. cbn [show_creates]. rewrite same_send. destruct (send w tr _) as [tr' [e|[|r l]]]; try reflexivity.
    destruct (dget _ r); [apply IH|reflexivity].
  Qed.
  Lemma same_tables tr : driver_tables w' tr = driver_tables w tr.
  Proof. unfold driver_tables. rewrite same_send. destruct (send w tr _) as [tr' [e|l]]; [reflexivity|apply same_shows]. Qed.
  Lemma same_rows : forall files files' tr live, map (fun t => (t_name t, t_tracking t)) files' = map (fun t => (t_name t, t_tracking t)) files ->
    load_rows w' tr files' live = load_rows w tr files live.
  Proof.
    induction files as [|f files IH]; intros [|f' files'] tr live E; try discriminate; [reflexivity|]. cbn [map] in E. injection E as E1 E2 E. cbn [load_rows]. rewrite E1, E2.
    destruct (negb _); [apply IH, E|]. destruct (dget (t_name f) live) as [t|]; [|apply IH, E]. unfold driver_rows. rewrite same_send.
    destruct (send w tr _) as [tr' [e|l]]; [reflexivity|]. destruct (read_raw_rows t l) as [t' [e|]]; [reflexivity|apply IH, E].
  Qed.
  Lemma same_live files files' : map (fun t => (t_name t, t_tracking t)) files' = map (fun t => (t_name t, t_tracking t)) files -> load_live w' config files' = load_live w config files.
  Proof.
    intros E. unfold load_live. rewrite same_driver. destruct (get_driver w config []) as [tr [e|]]; [reflexivity|]. rewrite same_tables. destruct (driver_tables w tr) as [tr' [defs|e]]; [|reflexivity].
    destruct (live_database _); [|reflexivity]. apply same_rows, E.
  Qed.
  Lemma same_told : live_notices w' config = live_notices w config.
  Proof.
    unfold live_notices. rewrite same_driver. destruct (get_driver w config []) as [tr [e|]]; [reflexivity|]. rewrite same_tables. reflexivity.
  Qed.
  Lemma same_statements l : forall tr, send_statements w' tr l = send_statements w tr l.
  Proof. induction l as [|s l IH]; intros tr; [reflexivity|]. cbn [send_statements]. rewrite same_send. destruct (send w tr s) as [tr' [e|l']]; [reflexivity|apply IH]. Qed.

  Lemma bracket_texts l l' : map op_str l = map op_str l' -> map op_str (bracket l) = map op_str (bracket l').
  Proof. intros E. unfold bracket. destruct l as [|o l], l' as [|o' l']; try discriminate; [reflexivity|]. cbn [list_is_nil]. rewrite (map_cons op_str ODisable ((o :: l) +++ _)), (map_cons op_str ODisable ((o' :: l') +++ _)), !(map_app op_str), E. reflexivity. Qed.
  Lemma norm_names ts : map (fun t => (t_name t, t_tracking t)) (dvals (ntabs ts)) = map (fun t => (t_name t, t_tracking t)) (dvals ts).
  Proof. unfold ntabs, dvals. rewrite !map_map. reflexivity. Qed.
  Lemma bare_names ts : map (fun t => (t_name t, t_tracking t)) (dvals (bares ts)) = map (fun t => (t_name t, t_tracking t)) (dvals ts).
  Proof. unfold bares, dvals. rewrite !map_map. reflexivity. Qed.
  Lemma ntab_bares ts : ntabs (bares ts) = ntabs ts.
  Proof. unfold ntabs, bares. rewrite map_map. reflexivity. Qed.

  Lemma same_build force b b' : load_files w config = Ok b -> load_files w' config = Ok b' -> snd (db_errors b) = Ok [] -> snd (db_errors b') = Ok [] ->
    ntabs (db_tables b) = ntabs (db_tables b') ->
    fst (build w' force config) = fst (build w force config) /\ rmap (map op_str) (snd (build w' force config)) = rmap (map op_str) (snd (build w force config)).
  Proof.
    intros L L' E E' N. unfold build. rewrite L, L'. pose proof (errors_bares b) as B. pose proof (errors_bares b') as B'.
    destruct (db_errors b) as [b1 r] eqn:D. destruct (db_errors b') as [b1' r'] eqn:D'. cbn [fst snd] in *. subst r r'. cbn [list_is_nil negb andb].
    assert (Nb : ntabs (db_tables b1) = ntabs (db_tables b1')) by (rewrite <- ntab_bares, B, ntab_bares, N, <- ntab_bares, <- B', ntab_bares; reflexivity).
    rewrite (same_live (dvals (db_tables b1)) (dvals (db_tables b1'))) by (rewrite <- norm_names, <- Nb, norm_names; reflexivity).
    destruct (load_live w config (dvals (db_tables b1))) as [tr [lv|e]]; [|split; reflexivity].
    unfold mygration. rewrite (db_errors_again _ _ _ D), (db_errors_again _ _ _ D').
    pose proof (plan_norm_texts false (db_tables b1) (Some lv)) as P. pose proof (plan_norm_texts false (db_tables b1') (Some lv)) as P'. rewrite Nb in P. rewrite P' in P.
    pose proof (rows_norm (db_tables b1) (Some lv)) as R. rewrite Nb, rows_norm in R. rewrite R.
    destruct (plan_tables false (db_tables b1) (Some lv)) as [p|e], (plan_tables false (db_tables b1') (Some lv)) as [p'|e']; cbn [rmap] in P |- *; try discriminate; [|injection P as ->; split; reflexivity].
    split; [reflexivity|]. cbn [snd]. destruct (plan_rows (db_tables b1) (Some lv)) as [rs|e]; [|reflexivity]. cbn [bind rmap]. f_equal. apply bracket_texts. rewrite !map_app. injection P as ->. reflexivity.
  Qed.
  Lemma same_runs force b b' : load_files w config = Ok b -> load_files w' config = Ok b' -> snd (db_errors b) = Ok [] -> snd (db_errors b') = Ok [] ->
    ntabs (db_tables b) = ntabs (db_tables b') -> file_notices w' config = file_notices w config -> run_plan w' force config = run_plan w force config /\ run_apply w' force config = run_apply w force config.
  Proof.
    intros L L' E E' N Nf. destruct (same_build force b b' L L' E E' N) as [B1 B2]. unfold run_plan, run_apply.
    assert (Nb : build_notices w' force config = build_notices w force config).
    { unfold build_notices. rewrite Nf, L, L', same_told. destruct (db_errors b) as [b1 r]. destruct (db_errors b') as [b1' r']. cbn [snd] in E, E'. subst r r'. reflexivity. }
    rewrite Nb.
    destruct (build w force config) as [[tr err] r]. destruct (build w' force config) as [[tr' err'] r']. cbn [fst snd] in *. injection B1 as -> ->.
    destruct r as [ops|e], r' as [ops'|e']; cbn [rmap] in B2; try discriminate; [|injection B2 as ->; split; reflexivity]. injection B2 as B2. rewrite B2. split; [reflexivity|].
    rewrite same_driver. destruct (get_driver w config tr) as [tr1 [e|]]; [reflexivity|]. rewrite same_statements. reflexivity.
  Qed.
End Runs.

Theorem C95_same_run_partial : forall w w' (FO : FloatOracle) force config srcs srcs' ls ls',
  w_server w' = w_server w -> w_connect w' = w_connect w ->
  driver_credentials (w_loads w') (w_file w') (w_cwd w') (Some config) = driver_credentials (w_loads w) (w_file w) (w_cwd w) (Some config) ->
  reads_from w config srcs -> reads_from w' config srcs' ->
  Forall2 (fun src l => source_holds l (snd src)) srcs ls -> consistent (concat ls) ->
  Forall2 (fun src l => source_holds l (snd src)) srcs' ls' -> consistent (concat ls') -> say_the_same (concat ls) (concat ls') ->
  exit_status (run_check w config) = 0 -> exit_status (run_check w' config) = 0 ->
  run_plan w' force config = run_plan w force config /\ run_apply w' force config = run_apply w force config.
Proof.
  intros w w' FO force config srcs srcs' ls ls' Sv Cn Cr Rf Rf' F Co F' Co' S Ck Ck'. pose proof (reads_load _ _ _ Rf) as L. pose proof (reads_load _ _ _ Rf') as L'.
  destruct (sources_norm srcs srcs' ls ls' F Co F' Co' S) as (b & b' & E & E' & N). rewrite E in L. rewrite E' in L'.
  apply (same_runs w w' config Sv Cn Cr force b b' L L' (check_passes w FO config b L Ck) (check_passes w' FO config b' L' Ck') N).
  rewrite (reads_notices _ _ _ Rf), (reads_notices _ _ _ Rf'), !no_notices by (eapply held_out; eassumption). reflexivity.
Qed.

(** The files of C75 (PropsMany), and the same in one file, written in other words. *)
Definition logs_other : string := "create table logs" ++ " (" ++ " " ++ join ("," ++ " ") ["PRIMARY KEY(`id`)"; "`id` integer UNSIGNED NOT NULL AUTO_INCREMENT"] ++ " " ++ ")" ++ options_written [] ++ ";".
Lemma logs_otherwise : create_written logs_meaning true logs_other.
Proof.
  apply (create_as logs_meaning true "create table logs" " " " " " "
           [PartKey (primary_key ["id"]); PartColumn (mkMeaning "id" KNumeric "INT" NoLength true false None true "" "")]
           ["PRIMARY KEY(`id`)"; "`id` integer UNSIGNED NOT NULL AUTO_INCREMENT"]); try reflexivity; try discriminate.
  - constructor; try (cbn; lia); repeat constructor; cbn; intuition discriminate.
  - apply (head_as "logs" "create table" "" false); [reflexivity|left; reflexivity|apply clean_nameb; reflexivity].
  - repeat (apply Forall2_cons || apply Forall2_nil).
    + apply part_key. apply (written_key (primary_key ["id"]) "PRIMARY KEY" false false [(true, "id")]); [reflexivity|discriminate| |].
      * apply Forall_cons; [|apply Forall_nil]. split; [apply clean_nameb; reflexivity|discriminate].
      * constructor; reflexivity.
    + apply part_column. apply (integer_written true "id" "integer" NoLength true false true None [IUnsigned "UNSIGNED"; INotNull "NOT NULL"; IAuto "AUTO_INCREMENT"]).
      * split; [apply clean_nameb; reflexivity|discriminate].
      * left. reflexivity.
      * left. reflexivity.
      * exists false, [IUnsigned "UNSIGNED"], [INotNull "NOT NULL"], [], [IAuto "AUTO_INCREMENT"]. repeat split; constructor; reflexivity.
      * discriminate.
  - constructor.
Qed.
Definition source_c : list stmt :=
  [StTable (users_meaning NoLength); StTable logs_meaning; StRows "users" ["id"; "name"] [[LitWord "1"; LitText "Ann, B."]]; StRows "logs" ["id"] [[LitWord "7"]];
   StRows "users" ["id"; "name"] [[LitWord "2"; LitText "x (y)"]]; StRows "users" ["id"; "name"; "about"] more_rows].
Definition text_c : string :=
  users_plain ++ " " ++ logs_other ++ " " ++ insert_text "users" ["id"; "name"] true true [[LitWord "1"; LitText "Ann, B."]] ";" ++ " "
  ++ insert_text "logs" ["id"] false false [[LitWord "7"]] ";" ++ " " ++ insert_text "users" ["id"; "name"] false false [[LitWord "2"; LitText "x (y)"]] ";" ++ " "
  ++ insert_text "users" ["id"; "name"; "about"] true false more_rows ";".
Lemma source_c_holds : source_holds source_c text_c.
Proof.
  split; [cbn; lia|]. exists text_c. split; [|apply laid_same].
  apply statements_more; [constructor; [exact users_written|reflexivity]| |intros T _; reflexivity].
  apply statements_more; [constructor; [exact logs_otherwise|reflexivity]| |intros T _; reflexivity].
  apply statements_more; [rows_written true true| |discriminate]. apply statements_more; [rows_written false false| |discriminate].
  apply statements_more; [rows_written false false| |discriminate]. apply statements_one. rows_written true false.
Qed.
Definition other_shop : world :=
  site_world "/srv/app/sql" ["everything.sql"] [("/srv/app/sql/everything.sql", text_c)]
    [("SHOW TABLES", listing ["users"; "gone"]); definition "users" (before_text "users"); definition "gone" (before_text "gone"); ("SELECT * FROM users", Answer (before_rows "users"))].
Example ex_C95 : let ls := [source_a; source_b] in let ls' := [source_c] in
  w_server other_shop = w_server before_shop /\ w_connect other_shop = w_connect before_shop
  /\ driver_credentials (w_loads other_shop) (w_file other_shop) (w_cwd other_shop) (Some "mygrate.conf") = driver_credentials (w_loads before_shop) (w_file before_shop) (w_cwd before_shop) (Some "mygrate.conf")
  /\ reads_from before_shop "mygrate.conf" file_srcs
  /\ reads_from other_shop "mygrate.conf" [("/srv/app/sql/everything.sql", text_c)]
  /\ Forall2 (fun src l => source_holds l (snd src)) file_srcs ls /\ consistent (concat ls)
  /\ Forall2 (fun src l => source_holds l (snd src)) [("/srv/app/sql/everything.sql", text_c)] ls' /\ consistent (concat ls') /\ say_the_same (concat ls) (concat ls')
  /\ exit_status (run_check before_shop "mygrate.conf") = 0 /\ exit_status (run_check other_shop "mygrate.conf") = 0
  /\ run_out (run_plan other_shop false "mygrate.conf") = [join nl first_plan].
Proof.
  intros ls ls'. destruct ex_C75 as (H & Co & _).
  assert (Sa : say_the_same (concat ls) (concat ls')).
  { split; [reflexivity|]. intros n. cbn [ls ls' source_a source_b source_c concat List.app rows_in map]. destruct (String.eqb_spec "users" n) as [E|E], (String.eqb_spec "logs" n) as [E'|E']; try reflexivity. congruence. }
  split; [reflexivity|]. split; [reflexivity|]. split; [reflexivity|]. split; [exists "/srv/app/sql"; split; vm_compute; reflexivity|]. split; [exists "/srv/app/sql"; split; vm_compute; reflexivity|].
  split; [repeat (apply Forall2_cons || apply Forall2_nil); [apply source_a_holds|apply source_b_holds]|]. split; [exact Co|].
  split; [repeat (apply Forall2_cons || apply Forall2_nil); apply source_c_holds|]. split; [|split; [exact Sa|]].
  - constructor.
    + repeat constructor; cbn; intuition discriminate.
    + intros n cols gs I. cbn in I. repeat destruct I as [I|I]; try contradiction; try discriminate; injection I as <- <- <-; (split; [cbn; tauto|split; [repeat constructor; cbn; intuition discriminate|cbn; tauto]]).
    + intros n. rewrite <- (proj2 Sa n). apply Co.
  - split; [vm_compute; reflexivity|]. split; [vm_compute; reflexivity|]. vm_compute. reflexivity.
Qed.

(** [check] may accept one text and refuse another that means the same: MySQL gives every column that
    may be NULL the default NULL. *)
Definition notes_meaning : tmeaning :=
  mkTMeaning "notes" [mkMeaning "id" KNumeric "INT" (OneNumber "10") false false None false "" ""; mkMeaning "body" KString "TEXT" NoLength false true None false "" ""] [primary_key ["id"]] [] [].
Definition notes_text (rest : string) : string := "CREATE TABLE `notes` (`id` INT(10) NOT NULL, `body` TEXT" ++ rest ++ ", PRIMARY KEY (`id`));".
Lemma notes_hold rest ld : rest = items_text ld -> defaults None ld -> collapse_ws (notes_text rest) = notes_text rest -> source_holds [StTable notes_meaning] (notes_text rest).
Proof.
  intros E D W. split; [cbn; lia|]. exists (notes_text rest). split; [|apply laid_same]. apply statements_one. constructor; [|exact W].
  assert (X : notes_text rest = "CREATE TABLE `notes`" ++ " (" ++ "" ++ join ("," ++ " ") ["`id` INT(10) NOT NULL"; "`body` TEXT" ++ rest; "PRIMARY KEY (`id`)"] ++ "" ++ ")" ++ options_written [] ++ ";").
  { unfold notes_text. cbn [join map]. rewrite !sapp_assoc. reflexivity. }
  rewrite X. apply (create_as notes_meaning true "CREATE TABLE `notes`" "" " " ""
           [PartColumn (mkMeaning "id" KNumeric "INT" (OneNumber "10") false false None false "" ""); PartColumn (mkMeaning "body" KString "TEXT" NoLength false true None false "" ""); PartKey (primary_key ["id"])]
           ["`id` INT(10) NOT NULL"; "`body` TEXT" ++ rest; "PRIMARY KEY (`id`)"]); try reflexivity; try discriminate.
  - constructor; try (cbn; lia); repeat constructor; cbn; intuition discriminate.
  - apply (head_as "notes" "CREATE TABLE" "" true); [reflexivity|left; reflexivity|apply clean_nameb; reflexivity].
  - repeat (apply Forall2_cons || apply Forall2_nil).
    + apply part_column. apply (integer_written true "id" "INT" (OneNumber "10") false false false None [INotNull "NOT NULL"]).
      * split; [apply clean_nameb; reflexivity|discriminate].
      * right. reflexivity.
      * right. exists "10". split; [reflexivity|split; [discriminate|reflexivity]].
      * exists false, [], [INotNull "NOT NULL"], [], []. repeat split; constructor; reflexivity.
      * discriminate.
    + apply part_column. subst rest.
      replace (items_text ld) with (items_text (arranged false [] [] ld [] [] [])) by (cbn [arranged List.app]; rewrite !app_nil_r; reflexivity).
      apply (written_as (mkMeaning "body" KString "TEXT" NoLength false true None false "" "") true "TEXT" NoLength false [] [] ld [] [] [] None "" "");
        try reflexivity; try exact D; try (constructor; reflexivity); try exact Logic.I.
      * split; [apply clean_nameb; reflexivity|discriminate].
      * cbn. tauto.
      * intros [H|H]; exfalso; apply H; reflexivity.
      * intros _ _ k s H. rewrite H in D. inversion D.
    + apply part_key. apply (written_key (primary_key ["id"]) "PRIMARY KEY" true false [(true, "id")]); [reflexivity|discriminate| |].
      * apply Forall_cons; [|apply Forall_nil]. split; [apply clean_nameb; reflexivity|discriminate].
      * constructor; reflexivity.
  - constructor.
Qed.
Theorem C95_refuted : forall FO : FloatOracle, exists l s s' b b', source_holds l s /\ source_holds l s' /\ consistent l
  /\ file_database [("notes.sql", s)] = Ok b /\ file_database [("notes.sql", s')] = Ok b'
  /\ snd (db_errors b) = Ok [] /\ snd (db_errors b') = Ok ["Column 'body' of type 'TEXT' cannot have a default in table 'notes'"].
Proof.
  intros FO. exists [StTable notes_meaning], (notes_text ""), (notes_text " DEFAULT NULL").
  found (file_database [("notes.sql", notes_text "")]). found (file_database [("notes.sql", notes_text " DEFAULT NULL")]).
  split; [apply (notes_hold "" []); [reflexivity|constructor|reflexivity]|].
  split; [apply (notes_hold " DEFAULT NULL" [IDefault "DEFAULT" "NULL"]); [reflexivity|constructor; reflexivity|reflexivity]|].
  split; [constructor; [repeat constructor; cbn; intuition discriminate|intros n cols gs [I|[]]; discriminate|intros n; split; constructor]|].
  split; [by_vm|]. split; [by_vm|]. split; vm_compute; reflexivity.
Qed.
Print Assumptions C95_same_plan_partial.
Print Assumptions C95_same_run_partial.
Print Assumptions C95_refuted.
