(** C103: which tables are dropped, and files that end in text that cannot be read. *)
From Verif Require Import CliFacts Samples SpecLive SpecMany SpecWrite SpecStored StoredFacts RoundRows RoundCut PropsParse PropsRound PropsWrite PropsLive PropsCli PropsMany PropsCreate PropsSeen PropsMeaning PropsDefs PropsTrail PropsTold.

Local Opaque read_sql max_statements max_turns.

Section Cut.
  Context {FO : FloatOracle}.

  Lemma mapM_forall {A B} (f : A -> res B) (P : B -> Prop) l l' : (forall x y, f x = Ok y -> P y) -> mapM f l = Ok l' -> Forall P l'.
  Proof.
    intros H. revert l'. induction l as [|x l IH]; intros l' E; cbn [mapM] in E; [injection E as <-; constructor|].
    destruct (f x) as [y|] eqn:F; [|discriminate]. cbn [bind] in E. destruct (mapM f l) as [ys|]; [|discriminate]. cbn [bind] in E. injection E as <-. constructor; [apply (H x), F|apply IH; reflexivity].
  Qed.
  Definition no_drop_op (o : op) : Prop := forall n, o <> ODropTable n.
  Lemma alters_keep l : Forall no_drop_op (map OAlter l).
  Proof. apply Forall_map, Forall_forall. intros a _ n. discriminate. Qed.
  Lemma strip_keep from to a : Forall no_drop_op (strip_opt from to a).
  Proof. destruct a as [a|]; [|constructor]. cbn [strip_opt]. destruct (alter_bool _); [constructor; [intros n; discriminate|constructor]|constructor]. Qed.
  Lemma forall_concat {A} (P : A -> Prop) ls : Forall (Forall P) ls -> Forall P (concat ls).
  Proof. induction 1; cbn [concat]; [constructor|]. apply Forall_app; split; assumption. Qed.
  Lemma drops_of_plan disable to from ops n : plan_tables disable to (Some from) = Ok ops -> In (ODropTable n) ops <-> In n (dkeys from) /\ ~ In n (dkeys to).
  Proof.
    intros E. unfold plan_tables, differences in E. cbv zeta beta in E.
    destruct (mapM _ _) as [cr|] eqn:M1 in E; [|discriminate]. cbn [bind] in E. destruct (mapM _ _) as [up|] eqn:M2 in E; [|discriminate]. cbn [bind] in E. injection E as <-.
    assert (K1 : Forall no_drop_op cr).
    { apply (mapM_forall _ _ _ _) with (2 := M1). intros x y. cbn beta. destruct (dgetE x to) as [t|]; [|discriminate]. cbn [bind]. intros E. injection E as <-. intros m. discriminate. }
    assert (K2 : Forall (fun u => Forall no_drop_op (fst u) /\ Forall no_drop_op (snd u)) up).
    { apply (mapM_forall _ _ _ _) with (2 := M2). intros x y. unfold update_table. destruct (dgetE x to) as [t|]; [|discriminate]. cbn [bind]. destruct (dgetE x from) as [f|]; [|discriminate]. cbn [bind].
      destruct (diff_split f t) as [sp|]; [|discriminate]. cbn [bind]. intros E. injection E as <-. cbn [fst snd]. split; [apply Forall_app; split; [apply strip_keep|apply alters_keep]|apply strip_keep]. }
    assert (K3 : Forall no_drop_op (concat (map fst up))) by (apply forall_concat, Forall_map; eapply Forall_impl; [|exact K2]; intros u H; apply H).
    assert (K4 : Forall no_drop_op (concat (map snd up))) by (apply forall_concat, Forall_map; eapply Forall_impl; [|exact K2]; intros u H; apply H).
    assert (G : forall l, Forall no_drop_op l -> ~ In (ODropTable n) l) by (intros l F I; rewrite Forall_forall in F; apply (F _ I n); reflexivity).
    assert (B1 : ~ In (ODropTable n) (if disable then [ODisable] else [])) by (destruct disable; intros H; [destruct H as [H|[]]; discriminate H|destruct H]).
    assert (B2 : ~ In (ODropTable n) (if disable then [OEnable] else [])) by (destruct disable; intros H; [destruct H as [H|[]]; discriminate H|destruct H]).
    rewrite !in_app_iff. pose proof (G _ K1). pose proof (G _ K3). pose proof (G _ K4). pose proof (G _ (alters_keep (drop_fk_ops from to))). pose proof (G _ (alters_keep (add_fk_ops from to))).
    transitivity (In (ODropTable n) (map ODropTable (filter (fun k => negb (dmem k to)) (dkeys from)))); [tauto|].
    rewrite in_map_iff. split.
    - intros (m & Q & I). injection Q as ->. apply filter_In in I as [I N]. split; [exact I|]. apply negb_true_iff, dmem_false in N. exact N.
    - intros [I N]. exists n. split; [reflexivity|]. apply filter_In. split; [exact I|]. apply negb_true_iff, dmem_false, N.
  Qed.
  Lemma rows_keep to from ops : plan_rows to from = Ok ops -> Forall no_drop_op ops.
  Proof.
    unfold plan_rows. destruct (mapM _ _) as [ls|] eqn:M; [|discriminate]. cbn [rmap]. intros E. injection E as <-. apply forall_concat. apply (mapM_forall _ _ _ _) with (2 := M).
    intros x y. cbn beta. destruct (dgetE x to) as [t|]; [|discriminate]. cbn [bind]. unfold to_rows. destruct (t_rows t) as [tr|]; [|discriminate].
    destruct (match match from with Some f => dget x f | None => None end with Some f => _ | None => _ end) as [fr|]; [|discriminate]. cbv zeta.
    destruct (mapM _ fr) as [up|] eqn:Mu; [|discriminate]. cbn [bind]. intros E. injection E as <-.
    apply Forall_app; split; [apply Forall_map, Forall_forall; intros p _ n; discriminate|]. apply Forall_app; split; [apply Forall_map, Forall_forall; intros p _ n; discriminate|].
    apply forall_concat. apply (mapM_forall _ _ _ _) with (2 := Mu). intros p z. cbn beta. destruct (dget (fst p) tr) as [r|]; [|intros E; injection E as <-; constructor].
    destruct (row_differs r (snd p)); [|intros E; injection E as <-; constructor]. unfold row_update_op. destruct (dmem "id" r); [|discriminate]. cbn [rmap]. intros E. injection E as <-.
    constructor; [intros n; discriminate|constructor].
  Qed.
  Lemma bares_keys ts : dkeys (bares ts) = dkeys ts.
  Proof. unfold dkeys, bares. rewrite map_map. reflexivity. Qed.
  Lemma tracked_keys sel files : forall live live', read_tracked sel files live = Ok live' -> dkeys live' = dkeys live.
  Proof.
    induction files as [|f files IH]; intros live live' E; cbn [read_tracked] in E; [injection E as <-; reflexivity|].
    destruct (negb (t_tracking f)); [apply IH, E|]. destruct (dget (t_name f) live) as [t|] eqn:D; [|apply IH, E]. destruct (sel (t_name f)) as [l|]; [|discriminate]. cbn [bind] in E.
    destruct (read_raw_rows t l) as [t' [e|]]; [discriminate|]. rewrite (IH _ _ E). apply dkeys_dset_present, dmem_iff. eapply in_dkeys, dget_in, D.
  Qed.

  (** Which tables are dropped, exactly: those that the server shows and that are not among the tables that
      were read from the files. *)
  Lemma drops_of_build force files live sel ops n : snd (db_errors files) = Ok [] -> snd (build_commands force files (Ok live) sel) = Ok ops ->
    In (ODropTable n) ops <-> In n (dkeys live) /\ ~ In n (dkeys (db_tables files)).
  Proof.
    intros E B. unfold build_commands in B. pose proof (errors_bares files) as Eb. destruct (db_errors files) as [b1 r] eqn:D. cbn [fst snd] in *. subst r. cbn [list_is_nil negb andb bind] in B.
    destruct (read_tracked sel (dvals (db_tables b1)) live) as [l|] eqn:R; [|discriminate]. unfold mygration in B. rewrite (db_errors_again _ _ _ D) in B.
    destruct (plan_tables false (db_tables b1) (Some l)) as [st|] eqn:P; [|discriminate]. cbn [rmap snd] in B. destruct (plan_rows (db_tables b1) (Some l)) as [rw|] eqn:Q; [|discriminate]. cbn [bind] in B. injection B as <-.
    rewrite <- (tracked_keys _ _ _ _ R), <- (bares_keys (db_tables files)), <- Eb, bares_keys, <- (drops_of_plan _ _ _ _ n P).
    pose proof (rows_keep _ _ _ Q) as K. assert (G : ~ In (ODropTable n) rw) by (intros I; rewrite Forall_forall in K; apply (K _ I n); reflexivity).
    transitivity (In (ODropTable n) (st +++ rw)); [|rewrite in_app_iff; tauto]. unfold bracket. destruct (st +++ rw) as [|o os]; [reflexivity|].
    cbn [list_is_nil]. generalize (o :: os). intros l'.
    cbn [In]. rewrite in_app_iff. cbn [In]. split; [intros [H|[H|[H|[]]]]; try discriminate H; exact H|auto].
  Qed.
  Theorem C103_dropped_exact : forall w force config c files names text rows live,
    load_files w config = Ok files -> exit_status (run_check w config) = 0 ->
    driver_credentials (w_loads w) (w_file w) (w_cwd w) (Some config) = Ok c -> serves w c names text rows -> NoDup names ->
    live_database (map text names) = Ok live -> run_end (run_plan w force config) = Exited true ->
    exists ops, run_out (run_plan w force config) = build_notices w force config +++ [join new_line (map op_str ops)]
      /\ forall n, In (ODropTable n) ops <-> In n (dkeys (db_tables live)) /\ ~ In n (dkeys (db_tables files)).
  Proof.
    intros w force config c files names text rows live L Ck C Sv N Lv Ex. pose proof (check_passes w FO config files L Ck) as Er.
    pose proof (C84_plan_seen w FO force config c names text rows files L C Sv N) as H. rewrite Lv in H. cbn [rmap] in H.
    destruct (snd (build_commands force files (Ok (db_tables live)) rows)) as [ops|e] eqn:B; [|destruct H as [_ H]; rewrite H in Ex; discriminate].
    exists ops. split; [apply H|]. intros n. apply (drops_of_build force files _ rows ops n Er B).
  Qed.

  (** ** Files that end in text that is not read *)

  (** What the files say: all statements of the sources that are read to their end, and the statements before
      the first one that is not understood of the others. *)
  Definition says (src : source) (l : list stmt) : Prop := source_holds l (snd src) \/ cut_after l (snd src).
  Lemma says_yields srcs ls : Forall2 says srcs ls -> Forall2 yields srcs ls.
  Proof. induction 1 as [|[file s] l srcs ls H F IH]; constructor; [|exact IH]. destruct H as [H|H]; [apply source_yields|apply cut_yields]; exact H. Qed.
  (** A file counts up to the first statement that is not understood, exactly, whatever follows. *)
  Theorem C103_cut : forall srcs ls, Forall2 says srcs ls -> consistent (concat ls) ->
    exists b ts, file_database srcs = Ok b /\ d_global_errors b = [] /\ d_global_warnings b = []
      /\ db_tables b = map (fun t => (t_name t, t)) ts /\ Forall2 (read_whole (concat ls)) (tables_in (concat ls)) ts.
  Proof.
    intros srcs ls F Co. destruct (yields_database srcs ls (says_yields _ _ F) Co) as (ts & d & A & B). eexists. eexists. split; [exact B|]. split; [reflexivity|]. split; [reflexivity|].
    split; [apply entry_tables|apply whole_tables, A].
  Qed.
  Lemma shown_names quiet Ts : Forall plain_table Ts -> NoDup (map tm_name Ts) -> exists live, live_database (map (show_create quiet) Ts) = Ok live /\ dkeys (db_tables live) = map tm_name Ts.
  Proof.
    intros P N. destruct (read_sources _ _ _ (shown_sources quiet Ts P)) as (ts & A & B). pose proof (read_names _ _ _ B) as E.
    exists (live_of ts). split; [apply (read_server sole); [intros s t H; exact H|exact A|rewrite E; exact N]|].
    change (db_tables (live_of ts)) with (db_tables (files_of ts)). rewrite (entry_tables : forall ts, db_tables (files_of ts) = _). unfold dkeys. rewrite map_map. exact E.
  Qed.
  (** Full statement: a table is dropped only if no file defines it.  False, see [C103_refuted]; proved with the
      statements before the first one that is not understood in place of all statements of a file, for the
      sources of C75, cut off or not, and the servers of C72. *)
  Theorem C103_dropped_partial : forall w force config c srcs ls quiet Ts text rows,
    reads_from w config srcs -> Forall2 says srcs ls -> consistent (concat ls) -> exit_status (run_check w config) = 0 ->
    driver_credentials (w_loads w) (w_file w) (w_cwd w) (Some config) = Ok c ->
    serves w c (map tm_name Ts) text rows -> (forall T, In T Ts -> text (tm_name T) = show_create quiet T) -> Forall plain_table Ts -> NoDup (map tm_name Ts) ->
    run_end (run_plan w force config) = Exited true ->
    exists ops, run_out (run_plan w force config) = concat (map source_notice srcs) +++ [join new_line (map op_str ops)]
      /\ forall n, In (ODropTable n) ops <-> In n (map tm_name Ts) /\ ~ In n (map tm_name (tables_in (concat ls))).
  Proof.
    intros w force config c srcs ls quiet Ts text rows R F Co Ck C Sv Tx P N Ex.
    destruct (C103_cut srcs ls F Co) as (b & ts & E & _ & _ & D & W). pose proof (reads_load w config srcs R) as L. rewrite E in L.
    assert (Tm : map text (map tm_name Ts) = map (show_create quiet) Ts) by (rewrite map_map; apply map_ext_in; exact Tx).
    destruct (shown_names quiet Ts P N) as (live & Lv & Kl). rewrite <- Tm in Lv.
    destruct (C103_dropped_exact w force config c b _ text rows live L Ck C Sv N Lv Ex) as (ops & O & H). exists ops. split.
    - rewrite O. f_equal. unfold build_notices. rewrite L. rewrite (notices_of w config srcs b R E). pose proof (check_passes w FO config b L Ck) as Er.
      destruct (db_errors b) as [b1 r]. cbn [snd] in Er. subst r. cbn [list_is_nil negb andb]. rewrite (live_told w c _ text rows Sv config C N), (table_notices_all _ _ _ Lv), Tm.
      assert (Z : concat (map table_notice (map (show_create quiet) Ts)) = []); [|rewrite Z, app_nil_r; reflexivity].
      pose proof (shown_out quiet Ts P) as So. clear -So. induction So as [|s ss (r & x & Q) So IH]; [reflexivity|]. cbn [map concat]. rewrite IH, app_nil_r. unfold table_notice. cbn [fst snd] in Q. rewrite Q. reflexivity.
    - intros n. rewrite H, Kl, D. unfold dkeys. rewrite map_map. change (In n (map tm_name Ts) /\ ~ In n (map t_name ts) <-> In n (map tm_name Ts) /\ ~ In n (map tm_name (tables_in (concat ls)))).
      rewrite (read_whole_names _ _ _ W). reflexivity.
  Qed.
End Cut.

(** ** Instances *)

(** Two statements of C75, then a table with an index that the tool does not understand, then a third table
    that is written well: [cats] and [logs] are lost. *)
Definition lost_text : string := cats_sql ++ " " ++ logs_plain.
Definition cut_text : string := users_plain ++ " " ++ insert_text "users" ["id"; "name"] true true users_rows ";" ++ " " ++ lost_text.
Definition cut_stmts : list stmt := [StTable (users_meaning NoLength); StRows "users" ["id"; "name"] users_rows].
Lemma cut_text_after : cut_after cut_stmts cut_text.
Proof.
  split; [cbn; lia|]. exists lost_text, cut_text. split; [|split; [|apply laid_same]].
  - exists "x.sql". eexists. vm_compute. reflexivity.
  - apply begun_more; [constructor; [exact users_written|reflexivity]| |intros T _; reflexivity].
    apply begun_last; [rows_written true true| |intros T E; discriminate].
    constructor; [discriminate|vm_compute; reflexivity|apply no_comment_like; reflexivity|apply no_length_like; reflexivity].
Qed.
Definition cut_server : dict string answer :=
  [("SHOW TABLES", listing ["users"; "logs"]);
   definition "users" (show_create (fun _ => (true, true)) (users_meaning NoLength)); definition "logs" (show_create (fun _ => (true, true)) logs_meaning);
   ("SELECT * FROM users", Answer (sync_rows "users")); ("SELECT * FROM logs", Answer (sync_rows "logs"))].
Definition cut_shop : world := site_world "/srv/app/sql" ["all.sql"] [("/srv/app/sql/all.sql", cut_text)] cut_server.
Example ex_C103 : let Ts := [users_meaning NoLength; logs_meaning] in
  reads_from cut_shop "mygrate.conf" [("/srv/app/sql/all.sql", cut_text)]
  /\ Forall2 says [("/srv/app/sql/all.sql", cut_text)] [cut_stmts] /\ consistent (concat [cut_stmts])
  /\ exit_status (run_check cut_shop "mygrate.conf") = 0
  /\ driver_credentials (w_loads cut_shop) (w_file cut_shop) (w_cwd cut_shop) (Some "mygrate.conf") = Ok site_creds
  /\ serves cut_shop site_creds (map tm_name Ts) sync_text (fun n => Ok (sync_rows n))
  /\ (forall T, In T Ts -> sync_text (tm_name T) = show_create (fun _ => (true, true)) T) /\ Forall plain_table Ts /\ NoDup (map tm_name Ts)
  /\ run_end (run_plan cut_shop false "mygrate.conf") = Exited true.
Proof.
  intros Ts. split; [exists "/srv/app/sql"; split; vm_compute; reflexivity|]. split; [constructor; [right; exact cut_text_after|constructor]|]. split; [constructor|].
  - repeat constructor; cbn; intuition discriminate.
  - intros n cols gs I. cbn in I. repeat destruct I as [I|I]; try contradiction; try discriminate; injection I as <- <- <-; (split; [cbn; tauto|split; [repeat constructor; cbn; intuition discriminate|cbn; tauto]]).
  - intros n. cbn [cut_stmts concat List.app rows_in map]. destruct (String.eqb "users" n) eqn:Eu; split; cbn; repeat constructor; cbn; intuition discriminate.
  - split; [vm_compute; reflexivity|]. split; [vm_compute; reflexivity|]. split; [|split; [intros T [<-|[<-|[]]]; reflexivity|]].
    + constructor; [reflexivity| | |].
      * intros qs _. eexists. split; reflexivity.
      * intros qs n _ [<-|[<-|[]]]; eexists _, _, _; repeat split.
      * intros qs n _. unfold sync_rows. destruct (String.eqb_spec n "users") as [->|N]; [reflexivity|]. destruct (String.eqb_spec n "logs") as [->|N']; [reflexivity|].
        cbn [w_server cut_shop site_world]. unfold answers. replace (dget ("SELECT * FROM " ++ n) _) with (@None answer); [reflexivity|]. cbn.
        destruct (String.eqb_spec n "users"); [contradiction|]. destruct (String.eqb_spec n "logs"); [contradiction|reflexivity].
    + destruct ex_C75_nothing_to_do as (_ & P & N & _). split; [exact P|]. split; [exact N|]. by_vm.
Qed.
(** Full statement: a table is dropped only if no file defines it.  False: the file defines [logs] by a statement
    that is read when it is alone, [check] is content, and [logs] is dropped with its rows. *)
Theorem C103_refuted : forall FO : FloatOracle, exists w config file s before text t line,
  reads_from w config [(file, s)] /\ s = before ++ text /\ read_sql "" text = (mkReader [("logs", t)] [] [] true, Ok "")
  /\ exit_status (run_check w config) = 0 /\ run_err (run_plan w false config) = []
  /\ run_out (run_plan w false config) = [line; join new_line ["SET FOREIGN_KEY_CHECKS=0;"; "DROP TABLE logs;"; "DELETE FROM `users` WHERE id='3';"; "SET FOREIGN_KEY_CHECKS=1;"]].
Proof.
  intros FO. exists cut_shop, "mygrate.conf", "/srv/app/sql/all.sql", cut_text, (users_plain ++ " " ++ insert_text "users" ["id"; "name"] true true users_rows ";" ++ " " ++ cats_sql ++ " "), logs_plain.
  eexists. exists "Error in file /srv/app/sql/all.sql: Found an unknown column type, 'BTREE' that does not have a corresponding column class".
  split; [exists "/srv/app/sql"; split; vm_compute; reflexivity|]. split; [reflexivity|]. split; [vm_compute; reflexivity|]. split; [by_vm|]. split; by_vm.
Qed.

Print Assumptions C103_dropped_exact.
Print Assumptions C103_cut.
Print Assumptions C103_dropped_partial.
Print Assumptions C103_refuted.
