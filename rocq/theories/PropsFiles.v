(** C82-C83: which files are read. *)
From Verif Require Import CliFacts PropsCli.

(** ** Names *)

(** [n] is a name for the SQL files of a directory: it ends with .sql and is not hidden. *)
Definition sql_name (n : string) : Prop := (exists stem, n = stem ++ ".sql") /\ hidden n = false.

Lemma lit_tail t : forall s, sforall (fun c => negb (Ascii.eqb c "*" || Ascii.eqb c "?" || Ascii.eqb c "[")) t = true ->
  matches (pattern_of (String.length t) t) s = true <-> s = t.
Proof.
  induction t as [|c t IH]; intros s H.
  - cbn. apply is_empty_iff.
  - cbn [sforall] in H. apply andb_true_iff in H as [Hc H]. cbn [String.length pattern_of].
    apply negb_true_iff in Hc. apply orb_false_iff in Hc as [Hc H3]. apply orb_false_iff in Hc as [H1 H2]. rewrite H1, H2, H3.
    cbn [matches item_matches]. destruct s as [|d s]; [split; discriminate|]. rewrite andb_true_iff, Ascii.eqb_eq, IH by exact H.
    split; [intros [-> ->]; reflexivity|intros [= -> ->]; auto].
Qed.
Lemma any_tail p : forall s, matches (PAny :: p) s = true <-> exists a b, s = a ++ b /\ matches p b = true.
Proof.
  induction s as [|c s IH].
  - cbn [matches]. rewrite orb_false_r. split; [intros H; exists "", ""; auto|]. intros (a & b & E & H). symmetry in E. apply sapp_eq_nil in E as [_ ->]. exact H.
  - change (matches (PAny :: p) (String c s)) with (matches p (String c s) || matches (PAny :: p) s). rewrite orb_true_iff, IH. split.
    + intros [H|(a & b & -> & H)]; [exists "", (String c s); auto|exists (String c a), b; auto].
    + intros (a & b & E & H). destruct a as [|d a]; [left; cbn in E; subst b; exact H|right]. injection E as <- ->. eauto.
Qed.
Lemma fnmatch_sql n : fnmatch "*.sql" n = true <-> exists stem, n = stem ++ ".sql".
Proof.
  unfold fnmatch. change (pattern_of (String.length "*.sql") "*.sql") with (PAny :: pattern_of (String.length ".sql") ".sql").
  rewrite any_tail. split.
  - intros (a & b & -> & H). apply (lit_tail ".sql") in H; [|reflexivity]. subst b. eauto.
  - intros (a & ->). exists a, ".sql". split; reflexivity.
Qed.

(** ** Paths *)

Lemma join_split c s : join (String c "") (split_char c s) = s.
Proof.
  induction s as [|d s IH]; [reflexivity|]. cbn [split_char]. destruct (Ascii.eqb_spec c d) as [->|N].
  - rewrite join_cons. { rewrite IH. reflexivity. } destruct s as [|e s]; [discriminate|]. cbn [split_char]. destruct (Ascii.eqb d e); [discriminate|]. destruct (split_char d s); discriminate.
  - destruct (split_char c s) as [|x l] eqn:E.
    + cbn in IH. subst s. discriminate.
    + destruct l as [|y l]; [cbn in *; rewrite IH; reflexivity|]. rewrite join_cons in * by discriminate. cbn [String.append]. rewrite <- IH. reflexivity.
Qed.
Lemma split_some c s : split_char c s <> [].
Proof. induction s as [|d s IH]; [discriminate|]. cbn [split_char]. destruct (Ascii.eqb c d); [discriminate|]. destruct (split_char c s); [contradiction|discriminate]. Qed.
Lemma split_none c s : has_char c s = false -> split_char c s = [s].
Proof. unfold has_char. induction s as [|d s IH]; [reflexivity|]. cbn [sexists split_char]. rewrite orb_false_iff. intros [E1 E]. rewrite E1, (IH E). reflexivity. Qed.
Lemma split_last c s f : has_char c f = false -> split_char c (s ++ String c f) = split_char c s +++ [f].
Proof.
  intros F. induction s as [|d s IH].
  - cbn [String.append split_char]. rewrite Ascii.eqb_refl, (split_none c f F). reflexivity.
  - cbn [String.append split_char]. rewrite IH. destruct (Ascii.eqb c d); [reflexivity|]. destruct (split_char c s) as [|x l] eqn:E; [exfalso; exact (split_some c s E)|reflexivity].
Qed.
(** A path that does not end with a slash. *)
Definition closed_path (s : string) : Prop := exists c, end_char s = Some c /\ c <> slash.
Fixpoint slashes (k : nat) : string := match k with O => "" | S k' => String slash (slashes k') end.
Lemma end_app s c : end_char (s ++ String c "") = Some c.
Proof. induction s as [|d s IH]; [reflexivity|]. cbn [String.append end_char]. rewrite IH. destruct (s ++ String c ""); [discriminate|reflexivity]. Qed.
Lemma end_some s c : end_char s = Some c -> exists a, s = a ++ String c "".
Proof.
  induction s as [|d s IH]; [discriminate|]. cbn [end_char]. destruct s as [|e s].
  - intros [= ->]. exists "". reflexivity.
  - intros H. destruct (IH H) as (a & E). exists (String d a). rewrite E. reflexivity.
Qed.
Lemma rstrip_slashes s k : closed_path s -> rstrip_by (Ascii.eqb slash) (s ++ slashes k) = s.
Proof.
  intros (c & E & N). apply end_some in E as (a & ->). induction a as [|d a IH].
  - cbn [String.append rstrip_by]. replace (rstrip_by (Ascii.eqb slash) (slashes k)) with "".
    + destruct (Ascii.eqb_spec slash c); [congruence|reflexivity].
    + induction k as [|k IH]; [reflexivity|]. cbn [slashes rstrip_by]. rewrite <- IH, Ascii.eqb_refl. reflexivity.
  - cbn [String.append rstrip_by]. rewrite IH. destruct (a ++ String c "") eqn:Z; [|reflexivity]. destruct a; discriminate.
Qed.
Lemma slashes_more k : slashes k ++ "/" = slashes (S k).
Proof. induction k as [|k IH]; [reflexivity|]. cbn [slashes String.append]. rewrite IH. reflexivity. Qed.
Lemma not_slashes s k : closed_path s -> sforall (Ascii.eqb slash) (s ++ slashes k) = false.
Proof.
  intros (c & E & N). apply end_some in E as (a & ->). rewrite !sforall_app. cbn [sforall]. destruct (Ascii.eqb_spec slash c); [congruence|].
  rewrite andb_false_r. reflexivity.
Qed.
(** The part of a path before its file name, and the file name. *)
Lemma dirname_file s k f : closed_path s -> has_char slash f = false -> dirname (s ++ slashes (S k) ++ f) = s.
Proof.
  intros C F. unfold dirname.
  assert (E : s ++ slashes (S k) ++ f = (s ++ slashes k) ++ String slash f) by (rewrite <- slashes_more, !sapp_assoc; reflexivity).
  rewrite E, split_last by exact F. destruct (split_char slash (s ++ slashes k) +++ [f]) as [|x [|y l]] eqn:Z.
  - apply app_eq_nil in Z as [_ Z]. discriminate.
  - destruct (split_char slash (s ++ slashes k)) as [|z m] eqn:Z2; [exfalso; exact (split_some _ _ Z2)|]. injection Z as _ Z. apply app_eq_nil in Z as [_ Z]. discriminate.
  - rewrite <- Z, removelast_last. rewrite (join_split slash). rewrite sapp_assoc, slashes_more, not_slashes, rstrip_slashes by exact C. reflexivity.
Qed.
Lemma basename_file s k f : has_char slash f = false -> basename (s ++ slashes (S k) ++ f) = f.
Proof.
  intros F. unfold basename.
  replace (s ++ slashes (S k) ++ f) with ((s ++ slashes k) ++ String slash f) by (rewrite <- slashes_more, !sapp_assoc; reflexivity).
  rewrite split_last by exact F. apply last_last.
Qed.

(** ** C82 *)

(** The files of a directory are those of its entries that have such a name, each of them once, in the
    order in which the directory lists them, and nothing else, whatever their number; it does not
    matter how many slashes the path of the directory ends with.
    Full statement: for all directories.  False, see [C82_refuted]; proved for paths without star,
    question mark and bracket. *)
Lemma glob_sql w s k : closed_path s -> has_magic s = false ->
  glob w (s ++ slashes (S k) ++ "*.sql") = map (fun n => s ++ "/" ++ n) (filter (fun n => fnmatch "*.sql" n && negb (hidden n)) (w_names w s)).
Proof.
  intros C M. unfold glob. cbn [iglob]. rewrite (dirname_file s k "*.sql" C eq_refl), (basename_file s k "*.sql" eq_refl).
  assert (X : has_magic (s ++ slashes (S k) ++ "*.sql") = true).
  { unfold has_magic. rewrite !sexists_app. replace (sexists _ "*.sql") with true by reflexivity. rewrite !orb_true_r. reflexivity. }
  rewrite X, M. cbn [negb map concat]. rewrite app_nil_r. change (has_magic "*.sql") with true. cbn iota. unfold glob1.
  assert (P : forall n, path_join s n = s ++ "/" ++ n).
  { intros n. unfold path_join. destruct C as (c & E & N). rewrite E. destruct (Ascii.eqb_spec c slash); [contradiction|reflexivity]. }
  rewrite (map_ext _ _ P). f_equal. change (hidden "*.sql") with false. generalize (w_names w s). intros l. induction l as [|n l IH]; [reflexivity|].
  cbn [filter negb orb] in *. destruct (hidden n); cbn [negb filter].
  - rewrite IH, andb_false_r. reflexivity.
  - rewrite andb_true_r, IH. reflexivity.
Qed.
(** What is read from a path: the name, which messages mention, and the text.  What is no file (an entry
    that was removed meanwhile, a directory called [x.sql]) is read as SQL itself, without a name. *)
Definition source_at (w : world) (path : string) : string * string :=
  match w_file w path with Some text => (path, text) | None => ("", path) end.
Theorem C82_directory_files_partial : forall w s k, closed_path s -> has_magic s = false -> w_isdir w (s ++ slashes k) = true ->
  exists f, (forall n, f n = true <-> sql_name n)
  /\ process w (s ++ slashes k) = Ok (map (fun n => source_at w (s ++ "/" ++ n)) (filter f (w_names w s))).
Proof.
  intros w s k C M D. exists (fun n => fnmatch "*.sql" n && negb (hidden n)). split.
  - intros n. rewrite andb_true_iff, negb_true_iff, fnmatch_sql. reflexivity.
  - unfold process. rewrite D. destruct k as [|k].
    + cbn [slashes]. rewrite sapp_nil_r. destruct (C) as (c & E & N). rewrite E. destruct (Ascii.eqb_spec c slash); [contradiction|].
      rewrite sapp_assoc. change ("/" ++ "*.sql") with (slashes 1 ++ "*.sql"). rewrite glob_sql by assumption. rewrite map_map. reflexivity.
    + assert (E : end_char (s ++ slashes (S k)) = Some slash).
      { rewrite <- slashes_more, <- sapp_assoc. apply end_app. }
      rewrite E, Ascii.eqb_refl, sapp_assoc, glob_sql by assumption. rewrite map_map. reflexivity.
Qed.

(** A bracket in the path: the files are not found, nothing is reported, and the plan is to drop the
    tables that they define. *)
Theorem C82_refuted : forall FO : FloatOracle, exists w,
  process w "/srv/[app]" = Ok []
  /\ (exists n, In n (w_names w "/srv/[app]") /\ sql_name n) /\ w_isdir w "/srv/[app]" = true
  /\ run_out (run_plan w false "mygrate.conf") = [join new_line ["SET FOREIGN_KEY_CHECKS=0;"; "DROP TABLE roles;"; "SET FOREIGN_KEY_CHECKS=1;"]]
  /\ run_out (run_check w "mygrate.conf") = ["No problems found"].
Proof.
  intros FO. exists (site_world "/srv/[app]" ["roles.sql"] [("/srv/[app]/roles.sql", roles_text "")] [("SHOW TABLES", listing ["roles"]); definition "roles" (roles_text "")]).
  split; [vm_compute; reflexivity|]. split; [exists "roles.sql"; split; [left; reflexivity|split; [exists "roles"; reflexivity|reflexivity]]|]. split; [reflexivity|].
  split; vm_compute; reflexivity.
Qed.
Example ex_C82 : closed_path "/srv/app/sql" /\ has_magic "/srv/app/sql" = false /\ w_isdir shop ("/srv/app/sql" ++ slashes 0) = true
  /\ process shop "/srv/app/sql" = Ok [("/srv/app/sql/roles.sql", roles_sql)] /\ sql_name "roles.sql" /\ ~ sql_name "notes.txt" /\ ~ sql_name ".old.sql".
Proof.
  split; [exists "l"%char; split; [reflexivity|discriminate]|]. split; [reflexivity|]. split; [reflexivity|]. split; [vm_compute; reflexivity|].
  split; [split; [exists "roles"; reflexivity|reflexivity]|]. split; [|intros [_ H]; discriminate].
  intros [H _]. apply fnmatch_sql in H. discriminate H.
Qed.
Print Assumptions C82_directory_files_partial.
Print Assumptions C82_refuted.

(** ** C83 *)

(** The whole plan that drops the tables [names]. *)
Definition drop_all (names : list string) : list string :=
  match names with [] => [] | _ => "SET FOREIGN_KEY_CHECKS=0;" :: map (fun n => "DROP TABLE " ++ n ++ ";") names +++ ["SET FOREIGN_KEY_CHECKS=1;"] end.
Lemma concat_empty {A B} (l : list A) : concat (map (fun _ => @nil B) l) = [].
Proof. induction l as [|x l IH]; [reflexivity|exact IH]. Qed.
Lemma plan_nothing {FO : FloatOracle} from : plan_tables false [] (Some from) = Ok (map ODropTable (dkeys from)).
Proof.
  assert (K : forall tn s, cycled_of_table from [] tn s = []).
  { intros tn s. unfold cycled_of_table. induction (t_constraints s) as [|[n k] l IH]; [reflexivity|]. cbn [map concat fst snd]. rewrite IH.
    assert (C : forall a b, changing_column from [] a b = false) by (intros a b; unfold changing_column; destruct (dget a from); reflexivity).
    unfold cycle_of. rewrite !C. reflexivity. }
  assert (D : drop_fk_ops from [] = []).
  { unfold drop_fk_ops. rewrite (map_ext _ (fun _ => [])) by (intros [n t]; cbn [fst snd]; rewrite K; reflexivity). apply concat_empty. }
  assert (A : add_fk_ops from [] = []).
  { unfold add_fk_ops. rewrite (map_ext _ (fun _ => [])) by (intros [n t]; cbn [fst snd]; rewrite K; reflexivity). apply concat_empty. }
  assert (F1 : forall l : list string, filter (fun k => dmem k (@nil (string * table))) l = []) by (induction l as [|x l IH]; [reflexivity|exact IH]).
  assert (F2 : forall l : list string, filter (fun k => negb (dmem k (@nil (string * table)))) l = l) by (induction l as [|x l IH]; [reflexivity|cbn [filter dmem existsb negb]; f_equal; exact IH]).
  unfold plan_tables, differences. rewrite D, A, F1, F2. cbn [dkeys map filter mapM bind concat app fst snd]. rewrite app_nil_r. reflexivity.
Qed.

(** Full statement: a plan for no files at all, or for a directory that is not there, leaves the
    database alone.  The first is false: if no file is found, nothing is reported and the plan is to
    drop every table of the server. *)
Theorem C83_refuted_empty : forall w (FO : FloatOracle) force config tr live, reads_from w config [] ->
  load_live w config [] = (tr, Ok live) ->
  run_plan w force config = mkRun tr (live_notices w config +++ [join new_line (drop_all (dkeys live))]) [] (Exited true)
  /\ run_check w config = mkRun [] ["No problems found"] [] (Exited true).
Proof.
  intros w FO force config tr live Rf V. pose proof (reads_load w config [] Rf) as L. pose proof (reads_notices w config [] Rf) as Nf. cbn [source_notices] in Nf. split.
  - assert (Nn : build_notices w force config = live_notices w config).
    { unfold build_notices. rewrite Nf, L. change (file_database []) with (Ok empty_database). remember (db_errors empty_database) as x eqn:E. vm_compute in E. subst x. reflexivity. }
    unfold run_plan, build. rewrite Nn, L. change (file_database []) with (Ok empty_database). cbn [db_errors].
    remember (db_errors empty_database) as x eqn:E. vm_compute in E. subst x. cbn [list_is_nil negb andb db_tables d_tables dvals map plain_tables].
    rewrite V. unfold mygration. remember (db_errors _) as x eqn:E in |- *. vm_compute in E. subst x. cbn [db_tables d_tables map].
    change (plain_tables []) with (@nil (string * table)). rewrite plan_nothing. cbn [rmap].
    match goal with |- context [plan_rows ?x (Some live)] => change (plan_rows x (Some live)) with (@Ok (list op) []) end. cbn [bind]. rewrite app_nil_r. unfold bracket, drop_all.
    destruct (dkeys live) as [|n l]; [reflexivity|]. cbn [map list_is_nil app]. rewrite map_app, map_map. reflexivity.
  - unfold run_check. rewrite Nf, L. vm_compute. reflexivity.
Qed.

Lemma strip_path c p : Ascii.eqb c "*" = false -> exists q, strip (String slash (String c p)) = String slash q /\ String.prefix "*" q = false.
Proof.
  intros N. unfold strip, strip_by. cbn [lstrip_by rstrip_by]. change (is_space slash) with false. cbn iota. 
  destruct (rstrip_by is_space p) as [|d r]; [destruct (is_space c); [exists ""; split; reflexivity|]|].
  all: eexists; split; [reflexivity|]; cbn [String.prefix]; destruct (ascii_dec "*" c) as [<-|]; [discriminate N|reflexivity].
Qed.
(** The second holds for absolute paths: the path itself is read as a source, and refused.  (A path is
    absolute if it starts with a slash; what starts a comment is excluded.)  Even with [-f], nothing is planned. *)
Theorem C83_missing_directory : forall w (FO : FloatOracle) config c p, let s := String slash (String c p) in
  sql_files (w_loads w) (w_file w) (w_cwd w) (Some config) = Ok (CStr s) -> c <> "*"%char -> w_isdir w s = false -> w_file w s = None ->
  let complaint := "Unrecognized MySQL command: " ++ strip s in
  run_plan w false config = mkRun [] [""] ["Errors found in *.sql files"; complaint] (Exited true)
  /\ run_check w config = mkRun [] [join new_line ["Errors found in *.sql files:"; complaint]] [] (Exited false)
  /\ (forall q, ~ In (Query q) (run_deeds (run_apply w false config)))
  /\ (forall tr live, load_live w config [] = (tr, Ok live) -> run_plan w true config = mkRun tr (live_notices w config +++ [""]) [] (Exited true)).
Proof.
  intros w FO config c p s F N D M complaint.
  assert (Rf : reads_from w config [("", s)]) by (exists s; split; [exact F|unfold process, source_named; rewrite D, M; reflexivity]).
  assert (Rs : read_sql "" s = (mkReader [] [] [complaint] false, Ok (strip s))).
  { unfold read_sql. assert (X : exists k, max_statements = S k) by (unfold max_statements; destruct (N.to_nat 10000) eqn:Z; [lia|eauto]). destruct X as (k & ->).
    destruct (strip_path c p) as (q & Q1 & Q2); [apply Ascii.eqb_neq; exact N|]. fold s in Q1.
    cbn [read_loop]. assert (Ns : is_empty s = false) by reflexivity. rewrite Ns. unfold complaint. rewrite Q1. cbn [is_empty].
    assert (T : statement_of (String slash q) = SOther).
    { unfold statement_of. replace (String.prefix "/*" (String slash q)) with false by (symmetry; exact Q2). reflexivity. }
    rewrite T. cbn [rd_tables rd_rows rd_errors rd_matched new_reader app filename_notice truthy].
    rewrite sapp_nil_r. reflexivity. }
  assert (L : load_files w config = Ok (add_errors empty_database [complaint])).
  { rewrite (reads_load w config _ Rf). unfold file_database. cbn [foldM]. unfold read_source. cbn [fst snd]. rewrite Rs. reflexivity. }
  assert (Nf : file_notices w config = []).
  { rewrite (reads_notices w config _ Rf). apply no_notices. constructor; [|constructor]. exists (mkReader [] [] [complaint] false), (strip s). exact Rs. }
  assert (B : forall E, exists b1, db_errors (add_errors empty_database [E]) = (b1, Ok [E]) /\ db_errors b1 = (b1, Ok [E]) /\ db_warnings b1 = (fst (db_warnings b1), Ok []) /\ d_tables b1 = []).
  { intros E. eexists. split; [vm_compute; reflexivity|]. split; [vm_compute; reflexivity|]. split; [vm_compute; reflexivity|reflexivity]. }
  destruct (B complaint) as (b1 & B1 & B2 & B3 & B4). clear B.
  assert (P : build w false config = ([], ["Errors found in *.sql files"; complaint], Ok [])) by (unfold build; rewrite L, B1; reflexivity).
  assert (Nb : forall force, build_notices w force config = if force then live_notices w config else []).
  { intros force. unfold build_notices. rewrite Nf, L, B1. destruct force; reflexivity. }
  split; [unfold run_plan; rewrite P, Nb; reflexivity|]. split; [unfold run_check; rewrite L, B1, B3, Nf; reflexivity|]. split.
  - intros q. unfold run_apply. rewrite P. cbn [map get_driver]. destruct (driver_credentials _ _ _ _) as [cr|]; [destruct (w_connect w cr) as [|]|]; [intros []| |intros []].
    intros [H|[H|[]]]; discriminate.
  - intros tr live V. unfold run_plan, build. rewrite Nb, L, B1. cbn [negb andb]. rewrite andb_false_r. unfold db_tables. rewrite B4. cbn [plain_tables map dvals].
    rewrite V. unfold mygration. rewrite B2. cbn [app]. unfold db_tables. rewrite B4. reflexivity.
Qed.
Definition empty_shop : world := site_world "/srv/app/sql" ["roles.txt"] [] [("SHOW TABLES", listing ["roles"]); definition "roles" (roles_text "")].
Definition missing_shop : world :=
  mkWorld "/srv/app" (fun _ => None) (site_file "/srv/app/sq" []) (String.eqb "/srv/app/sql") (fun _ => []) (fun _ => None) (w_server empty_shop).
Example ex_C83 : reads_from empty_shop "mygrate.conf" []
  /\ (exists tr live, load_live empty_shop "mygrate.conf" [] = (tr, Ok live) /\ dkeys live = ["roles"])
  /\ sql_files (w_loads missing_shop) (w_file missing_shop) (w_cwd missing_shop) (Some "mygrate.conf") = Ok (CStr "/srv/app/sq")
  /\ w_isdir missing_shop "/srv/app/sq" = false /\ w_file missing_shop "/srv/app/sq" = None.
Proof.
  split; [exists "/srv/app/sql"; split; vm_compute; reflexivity|]. split; [eexists _, _; split; vm_compute; reflexivity|]. split; [vm_compute; reflexivity|]. split; reflexivity.
Qed.
Print Assumptions C83_refuted_empty.
Print Assumptions C83_missing_directory.
