(** Comments between statements: C51 for whole files, and C114. *)
From Verif Require Import CliFacts Samples SpecLive SpecMany SpecWrite SpecStored StoredFacts RoundRows RemarkFacts PropsParse PropsRound PropsWrite PropsLive PropsCli PropsMany PropsCreate PropsSeen PropsMeaning PropsDefs PropsTrail PropsTold PropsInsert PropsCut.

Local Opaque read_sql max_statements max_turns.

(** ** C51 *)

(** After an INSERT statement, a comment to the end of the line hides everything up to the end of the file:
    whatever [m] is, however many lines and statements it has, nothing of it is read and nothing is reported. *)
Lemma normal_trim s : trim (normalize s) = true.
Proof.
  unfold trim. rewrite neat_normalize. cbn [andb]. unfold normalize, strip, strip_by.
  generalize (rstrip_by is_space (collapse_ws s)). clear. induction s as [|c s IH]; [reflexivity|]. cbn [lstrip_by]. destruct (is_space c) eqn:S; [exact IH|]. cbn [starts]. unfold not_space. rewrite S. reflexivity.
Qed.
Lemma rstrip_solid c x : is_space c = false -> rstrip_by is_space (String c x) = String c (rstrip_by is_space x).
Proof. intros C. cbn [rstrip_by]. destruct (rstrip_by is_space x); [rewrite C|]; reflexivity. Qed.
Lemma normal_sign sign m : sign = "#" \/ sign = "--" -> exists m', normalize (sign ++ m) = sign ++ m'.
Proof.
  intros [->| ->]; exists (rstrip_by is_space (collapse_ws m)); unfold normalize, strip, strip_by, collapse_ws; cbn [String.append collapse_ws_from].
  - change (is_space "#") with false. cbv iota. rewrite rstrip_solid by reflexivity. reflexivity.
  - change (is_space "-") with false. cbv iota. rewrite !rstrip_solid by reflexivity. reflexivity.
Qed.
Lemma normal_line_after a sign m : trim a = true -> a <> "" -> sign = "#" \/ sign = "--" ->
  normalize (a ++ String newline (sign ++ m)) = a ++ String " " (normalize (sign ++ m)).
Proof.
  intros T N Sg. destruct (normal_sign sign m Sg) as [m' Em].
  assert (Ec : normalize (sign ++ m) = rstrip_by is_space (collapse_ws (sign ++ m))).
  { unfold normalize, strip, strip_by in *. apply lstrip_id. destruct Sg as [->| ->]; cbn [String.append] in *; unfold collapse_ws; cbn [collapse_ws_from].
    - change (is_space "#") with false. cbv iota. rewrite rstrip_solid by reflexivity. reflexivity.
    - change (is_space "-") with false. cbv iota. rewrite rstrip_solid by reflexivity. reflexivity. }
  assert (C : collapse_ws (a ++ String newline (sign ++ m)) = a ++ String " " (collapse_ws (sign ++ m))).
  { unfold collapse_ws. rewrite collapse_app by (try (apply trim_neat, T); reflexivity). f_equal. destruct Sg as [->| ->]; reflexivity. }
  unfold normalize at 1. unfold strip, strip_by. rewrite C.
  assert (Rs : rstrip_by is_space (String " " (collapse_ws (sign ++ m))) = String " " (normalize (sign ++ m))).
  { rewrite Ec. cbn [rstrip_by]. rewrite <- Ec, Em. destruct Sg as [->| ->]; reflexivity. }
  rewrite rstrip_app by (rewrite Rs; discriminate). rewrite Rs. apply lstrip_id. unfold trim in T. apply andb_true_iff in T as [_ T].
  destruct a as [|c a]; [contradiction|exact T].
Qed.
Theorem C51_insert_hides : forall file n cols sp gp gs sign m, table_name_ok n -> cols <> [] -> Forall column_name_ok cols ->
  gs <> [] -> Forall (group_ok (List.length cols)) gs -> (N.of_nat (List.length gs) < 1000)%N -> sign = "#" \/ sign = "--" ->
  read_sql file (insert_text n cols sp gp gs ";" ++ String newline (sign ++ m))
  = (mkReader [] [(n, [mkRows n (map (map lit_value) gs) cols (List.length cols) [] []])] [] true, Ok "").
Proof.
  intros file n cols sp gp gs sign m Hn Hc Fc Hg Fg Lg Sg. set (s := _ ++ String newline _). set (u := normalize (sign ++ m)).
  assert (Tu : trim u = true) by apply normal_trim. destruct (normal_sign sign m Sg) as [m' Em]. fold u in Em.
  assert (Nu : u <> "") by (rewrite Em; destruct Sg as [->| ->]; discriminate).
  assert (Sp : neat (String " " u) = true) by (apply neat_space; assumption).
  pose proof (end_semi (String " " u) Sp) as End. rewrite (strip_space u Tu) in End.
  assert (Ta : trim (insert_text n cols sp gp gs ";") = true) by (exact (text_trim n cols sp gp gs ";" "" Hn Hc Fc Hg Fg Lg (end_semi "" eq_refl))).
  assert (E : normalize s = insert_text n cols sp gp gs (String ";" (String " " u))).
  { unfold s. rewrite normal_line_after by (assumption || discriminate). fold u. unfold insert_text. rewrite !sapp_assoc. reflexivity. }
  assert (P : forall s', normalize s' = insert_text n cols sp gp gs (String ";" (String " " u)) ->
    insert_parse s' = Ok (Some (mkRows n (map (map lit_value) gs) cols (List.length cols) [] []), u)).
  { apply insert_reads; assumption. }
  pose proof E as E0. unfold insert_text in E0. apply (normal_prefix "INSERT" s (" INTO " ++ _)) in E0 as [y Y]; [|discriminate|reflexivity].
  assert (Hide : forall k q, read_loop (Datatypes.S k) file q u = (done q, Ok "")).
  { intros k q. rewrite Em in *. apply (line_hides sign m' Sg Tu). rewrite <- Em. apply normal_line. }
  Local Transparent read_sql.
  unfold read_sql. pose proof statements_enough as L. destruct max_statements as [|[|k]]; [lia|lia|]. clear L.
  Local Opaque read_sql.
  cbn [read_loop] in *. destruct (is_empty s) eqn:Q; [apply is_empty_iff in Q; unfold s, insert_text in Q; discriminate|].
  assert (H1 : statement_of (strip s) = SInsert) by (rewrite Y; reflexivity).
  assert (H2 : is_empty (strip s) = false) by (rewrite Y; reflexivity).
  rewrite H1, H2, P by (rewrite normalize_strip; exact E). rewrite Hide. reflexivity.
Qed.
Example ex_C51_insert_hides : let m := " the old rows" ++ String newline "INSERT INTO `users` (`id`, `name`) VALUES (3, 'c');" in
  table_name_ok "users" /\ Forall column_name_ok ["id"; "name"] /\ Forall (group_ok 2) users_rows
  /\ map (fun g => List.length g) (map r_raw (concat (dvals (rd_rows (fst (read_sql "" (insert_text "users" ["id"; "name"] true true users_rows ";" ++ String newline ("#" ++ m))))))))
     = [2].
Proof.
  intros m. split; [split; [discriminate|reflexivity]|]. split; [repeat constructor|]. split; [|vm_compute; reflexivity].
  repeat (apply Forall_cons || apply Forall_nil); (split; [repeat (apply Forall_cons || apply Forall_nil); repeat split; try reflexivity; discriminate|split; [discriminate|reflexivity]]).
Qed.

Section Remark.
  Context {FO : FloatOracle}.

  (** What sources with comments say. *)
  Definition says_so (src : source) (l : list stmt) : Prop := source_holds l (snd src) \/ holds_remarked l (snd src).
  Lemma says_so_yields srcs ls : Forall2 says_so srcs ls -> Forall2 yields srcs ls.
  Proof. induction 1 as [|[file s] l srcs ls H F IH]; constructor; [|exact IH]. destruct H as [H|H]; [apply source_yields|apply holds_yields]; exact H. Qed.
  (** Full statement: comments anywhere between statements.  False, see [C51_refuted] and [C51_insert_hides].
      Proved: sources that begin with a statement may have closed block comments between all statements and
      after the last one, and comments with two hyphens if they begin with CREATE TABLE; and exactly the
      statements before the first comment with a number sign count. *)
  Theorem C51_between_partial : forall srcs ls, Forall2 says_so srcs ls -> consistent (concat ls) ->
    exists b ts, file_database srcs = Ok b /\ d_global_errors b = [] /\ d_global_warnings b = []
      /\ db_tables b = map (fun t => (t_name t, t)) ts /\ Forall2 (read_whole (concat ls)) (tables_in (concat ls)) ts.
  Proof.
    intros srcs ls F Co. destruct (yields_database srcs ls (says_so_yields _ _ F) Co) as (ts & d & A & B). eexists. eexists. split; [exact B|]. split; [reflexivity|]. split; [reflexivity|].
    split; [apply entry_tables|apply whole_tables, A].
  Qed.

  (** ** C114 *)

  (** Full statement: a table that a file defines outside of a comment is not dropped.  False, see
      [C114_refuted].  Proved with the statements that count in place of all statements: for the sources of
      [C51_between_partial] and the servers of C72, exactly the tables without a statement that counts are
      dropped. *)
  Theorem C114_dropped_partial : forall w force config c srcs ls quiet Ts text rows,
    reads_from w config srcs -> Forall2 says_so srcs ls -> consistent (concat ls) -> exit_status (run_check w config) = 0 ->
    driver_credentials (w_loads w) (w_file w) (w_cwd w) (Some config) = Ok c ->
    serves w c (map tm_name Ts) text rows -> (forall T, In T Ts -> text (tm_name T) = show_create quiet T) -> Forall plain_table Ts -> NoDup (map tm_name Ts) ->
    run_end (run_plan w force config) = Exited true ->
    exists ops, run_out (run_plan w force config) = concat (map source_notice srcs) +++ [join new_line (map op_str ops)]
      /\ forall n, In (ODropTable n) ops <-> In n (map tm_name Ts) /\ ~ In n (map tm_name (tables_in (concat ls))).
  Proof.
    intros w force config c srcs ls quiet Ts text rows R F Co Ck C Sv Tx P N Ex.
    destruct (C51_between_partial srcs ls F Co) as (b & ts & E & _ & _ & D & W). pose proof (reads_load w config srcs R) as L. rewrite E in L.
    assert (Tm : map text (map tm_name Ts) = map (show_create quiet) Ts) by (rewrite map_map; apply map_ext_in; exact Tx).
    destruct (shown_names quiet Ts P N) as (live & Lv & Kl). rewrite <- Tm in Lv.
    destruct (C103_dropped_exact w force config c b _ text rows live L Ck C Sv N Lv Ex) as (ops & O & H). exists ops. split.
    - rewrite O. f_equal. unfold build_notices. rewrite L. rewrite (notices_of w config srcs b R E). pose proof (check_passes w FO config b L Ck) as Er.
      destruct (db_errors b) as [b1 r]. cbn [snd] in Er. subst r. cbn [list_is_nil negb andb]. rewrite (live_told w c _ text rows Sv config C N), (table_notices_all _ _ _ Lv), Tm.
      assert (Z : concat (map table_notice (map (show_create quiet) Ts)) = []); [|rewrite Z, app_nil_r; reflexivity].
      pose proof (shown_out quiet Ts P) as So. clear -So. induction So as [|s ss (r & x & Q) So IH]; [reflexivity|]. cbn [map concat]. rewrite IH, app_nil_r. unfold table_notice. cbn [fst snd] in Q. rewrite Q. reflexivity.
    - intros n. rewrite H, Kl, D. unfold dkeys. rewrite map_map. change (In n (map tm_name Ts) /\ ~ In n (map t_name ts) <-> In n (map tm_name Ts) /\ ~ In n (map tm_name (tables_in (concat ls)))).
      rewrite (read_whole_names _ _ _ W). reflexivity.
  Qed.
End Remark.

(** ** Instances *)

(** A block comment, and then a comment with a number sign on a line of its own before the last table. *)
Definition first_part : string := users_plain ++ " /* the first rows */ " ++ insert_text "users" ["id"; "name"] true true users_rows "".
Definition hashed_text : string := first_part ++ ";" ++ String newline "# the log" ++ String newline logs_plain.
Lemma hashed_holds : holds_remarked cut_stmts hashed_text.
Proof.
  exists (StTable (users_meaning NoLength)), users_plain, [StRows "users" ["id"; "name"] users_rows], 3.
  exists ("/*" ++ " the first rows " ++ "*/ " ++ insert_text "users" ["id"; "name"] true true users_rows ";" ++ " " ++ "#" ++ " the log " ++ logs_plain). split; [reflexivity|].
  split; [constructor; [exact users_written|reflexivity]|]. split; [|split; [|split; [|]]].
  - apply (remarked_block " the first rows ").
    + intros x y E. apply (sindex_none "*/" ("*" ++ " the first rows " ++ "*") eq_refl). exists x, y. exact E.
    + constructor; [discriminate|vm_compute; reflexivity|apply no_comment_like; reflexivity|apply no_length_like; reflexivity].
    + apply remarked_more; [rows_written true true| |intros T E; discriminate]. apply (remarked_hash (" the log " ++ logs_plain)).
      constructor; [discriminate|vm_compute; reflexivity|apply no_comment_like; reflexivity|apply no_length_like; reflexivity].
  - intros T _. reflexivity.
  - cbn. lia.
  - match goal with |- laid_out _ _ ?s _ => replace s with (first_part ++ String ";" (String " " ("# the lo" ++ String "g" (String " " logs_plain)))) by (vm_compute; reflexivity) end.
    replace hashed_text with (first_part ++ String ";" (String newline "" ++ "# the lo" ++ String "g" (String newline "" ++ logs_plain))) by (vm_compute; reflexivity).
    assert (Ly : layout (String newline "")) by (apply layout_space; reflexivity).
    apply laid_gap; try reflexivity; try discriminate; [exact Ly|]. apply laid_gap; try reflexivity; try discriminate; [exact Ly|apply laid_same].
Qed.
Definition hashed_shop : world := site_world "/srv/app/sql" ["all.sql"] [("/srv/app/sql/all.sql", hashed_text)] cut_server.
Example ex_C114 : let Ts := [users_meaning NoLength; logs_meaning] in
  reads_from hashed_shop "mygrate.conf" [("/srv/app/sql/all.sql", hashed_text)]
  /\ Forall2 says_so [("/srv/app/sql/all.sql", hashed_text)] [cut_stmts] /\ consistent (concat [cut_stmts])
  /\ exit_status (run_check hashed_shop "mygrate.conf") = 0
  /\ driver_credentials (w_loads hashed_shop) (w_file hashed_shop) (w_cwd hashed_shop) (Some "mygrate.conf") = Ok site_creds
  /\ serves hashed_shop site_creds (map tm_name Ts) sync_text (fun n => Ok (sync_rows n))
  /\ (forall T, In T Ts -> sync_text (tm_name T) = show_create (fun _ => (true, true)) T) /\ Forall plain_table Ts /\ NoDup (map tm_name Ts)
  /\ run_end (run_plan hashed_shop false "mygrate.conf") = Exited true.
Proof.
  intros Ts. destruct ex_C103 as (_ & _ & Co & _ & _ & Sv & Tx & P & N & _).
  split; [exists "/srv/app/sql"; split; vm_compute; reflexivity|]. split; [constructor; [right; exact hashed_holds|constructor]|]. split; [exact Co|].
  split; [vm_compute; reflexivity|]. split; [vm_compute; reflexivity|]. split; [destruct Sv as [S1 S2 S3 S4]; constructor; [exact S1|exact S2|exact S3|exact S4]|]. split; [exact Tx|]. split; [exact P|]. split; [exact N|]. by_vm.
Qed.
(** Full statement: a table that a file defines outside of a comment is not dropped.  False: the comment with a number
    sign ends at the end of its line for MySQL, and the table after it is dropped; nothing is reported. *)
Theorem C114_refuted : forall FO : FloatOracle, exists w config file s before text t,
  reads_from w config [(file, s)] /\ s = before ++ String newline "# the log" ++ String newline text /\ read_sql "" text = (mkReader [("logs", t)] [] [] true, Ok "")
  /\ exit_status (run_check w config) = 0 /\ run_err (run_plan w false config) = []
  /\ run_out (run_plan w false config) = [join new_line ["SET FOREIGN_KEY_CHECKS=0;"; "DROP TABLE logs;"; "DELETE FROM `users` WHERE id='3';"; "SET FOREIGN_KEY_CHECKS=1;"]].
Proof.
  intros FO. exists hashed_shop, "mygrate.conf", "/srv/app/sql/all.sql", hashed_text, (first_part ++ ";"), logs_plain. eexists.
  split; [exists "/srv/app/sql"; split; vm_compute; reflexivity|]. split; [vm_compute; reflexivity|]. split; [vm_compute; reflexivity|]. split; [by_vm|]. split; by_vm.
Qed.

Print Assumptions C51_insert_hides.
Print Assumptions C51_between_partial.
Print Assumptions C114_dropped_partial.
Print Assumptions C114_refuted.
