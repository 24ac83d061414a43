(** C37, C93, C94 for the files of a run: when [check] ends with an exception, when with status 0. *)
From Verif Require Import CheckFacts PropsCli PropsFiles PropsOrder Samples PropsParse.
From Coq Require Import Permutation.

Section Props.
  Context {FO : FloatOracle}.

  (** ** C35 *)
  (** Exactly which tables' errors reach the list: those of the tables without a column of the date class
      (DATE, DATETIME, TIMESTAMP, TIME, YEAR).  The list is made of what was recorded before, what the
      parsers complained of, the errors of the foreign keys, of the tables, and of the rows. *)
  Theorem C35_exact : forall ts rows ge gw b errs, (forall n t, In (n, t) ts -> kept t) ->
    db_errors (new_database ts rows ge gw) = (b, Ok errs) ->
    exists parsing fks lists rest, errs = ge +++ parsing +++ fks +++ concat lists +++ rest
      /\ snd (database_schema_errors (fresh_all ts)) = Ok fks
      /\ Forall2 (fun p l => ((exists cn c, In (cn, c) (t_columns (snd p)) /\ c_kind c = KDate) -> l = [])
           /\ ((forall cn c, In (cn, c) (t_columns (snd p)) -> c_kind c <> KDate) -> table_errors (snd p) = Ok l)) ts lists.
  Proof. exact errors_made_of. Qed.

  (** ** C37 *)
  (** Exactly when asking for the errors raises, for INSERTs with column lists. *)
  Theorem C37_exact : forall ts rows ge gw,
    (forall n t, In (n, t) ts -> kept t) -> (forall n ws r, In (n, ws) rows -> In r ws -> SpecAccept.listed r) ->
    ((exists e, snd (db_errors (new_database ts (Some rows) ge gw)) = Raise e) <-> exists n t, In (n, t) ts /\ stops t).
  Proof. intros ts rows ge gw K L. apply (answers_new ts rows ge gw K L). Qed.
  (** The same for files, where every INSERT has a column list; and once the errors are known, asking
      for the warnings does not raise. *)
  Theorem C37_files_exact : forall srcs b, ForallOrdPairs apart_tables srcs -> file_database srcs = Ok b ->
    ((exists e, snd (db_errors b) = Raise e) <-> exists n t, In (n, t) (db_tables b) /\ stops t)
    /\ ((exists e, snd (check_command b) = Raise e) <-> exists n t, In (n, t) (db_tables b) /\ stops t).
  Proof.
    intros srcs b A E. destruct (file_good srcs b (apart_once _ A) E) as (U & N & T & D & ED & L).
    destruct (answers_of b D U ED) as [Q W]; [intros n t I; apply tidy_kept, (T n t I)|exact L|].
    split; [exact Q|]. rewrite <- Q. unfold check_command.
    destruct (db_errors b) as [b1 [errs|e]] eqn:Ee; cbn [snd]; [|split; intros _; exists e; reflexivity].
    destruct (W b1 errs eq_refl) as (ws & Ew). destruct (db_warnings b1) as [b2 r]. cbn [snd] in Ew. subst r. split; intros (e & [=]).
  Qed.

  (** ** C94 *)
  (** The status of the check command. *)
  Theorem C94_check_status : forall w config s srcs b,
    sql_files (w_loads w) (w_file w) (w_cwd w) (Some config) = Ok (CStr s) -> process w s = Ok srcs ->
    ForallOrdPairs apart_tables srcs -> file_database srcs = Ok b ->
    exists rows, d_rows b = Some rows
      /\ (exit_status (run_check w config) = 0 <-> accepted (db_tables b) rows (d_global_errors b))
      /\ ((exists e, run_end (run_check w config) = Uncaught e) <-> exists n t, In (n, t) (db_tables b) /\ stops t).
  Proof.
    intros w config s srcs b S P A E. destruct (C94_files_exact srcs b A E) as (rows & Er & Q & _). exists rows. split; [exact Er|].
    destruct (C37_files_exact srcs b A E) as [X Y]. rewrite <- Q, <- X.
    destruct (file_good srcs b (apart_once _ A) E) as (U & N & T & D & ED & L).
    destruct (answers_of b D U ED) as [_ W]; [intros n t I; apply tidy_kept, (T n t I)|exact L|].
    unfold exit_status, run_check, load_files. rewrite S. cbn [bind]. rewrite P. cbn [bind]. rewrite E.
    destruct (db_errors b) as [b1 [errs|e]] eqn:Ee; cbn [snd run_end].
    - destruct (W b1 errs eq_refl) as (ws & Ew). destruct (db_warnings b1) as [b2 r]. cbn [snd] in Ew. subst r. cbn [run_end].
      destruct errs as [|x errs]; cbn [list_is_nil]; split; split; try reflexivity; try discriminate; intros (e & [=]).
    - split; [split; discriminate|]. split; intros _; eauto.
  Qed.

  (** ** C93 *)
  (** The order in which a directory is listed does not change the status of check.  Full statement: for
      any files; false, see [C93_refuted]. *)
  Theorem C93_check_order_partial : forall w w' config s k srcs,
    w_cwd w' = w_cwd w -> w_loads w' = w_loads w -> w_file w' = w_file w -> w_isdir w' = w_isdir w ->
    (forall d, Permutation (w_names w d) (w_names w' d)) ->
    sql_files (w_loads w) (w_file w) (w_cwd w) (Some config) = Ok (CStr (s ++ slashes k)) ->
    closed_path s -> has_magic s = false -> w_isdir w (s ++ slashes k) = true ->
    process w (s ++ slashes k) = Ok srcs -> ForallOrdPairs apart srcs ->
    exit_status (run_check w config) = exit_status (run_check w' config).
  Proof.
    intros w w' config s k srcs E1 E2 E3 E4 Pn S C M D P A.
    destruct (C82_directory_files_partial w s k C M D) as (f & Hf & P1).
    assert (D' : w_isdir w' (s ++ slashes k) = true) by (rewrite E4; exact D).
    destruct (C82_directory_files_partial w' s k C M D') as (f' & Hf' & P2).
    assert (Ef : forall n, f' n = f n).
    { intros n. destruct (f n) eqn:F.
      - apply Hf', Hf, F.
      - destruct (f' n) eqn:F'; [|reflexivity]. apply Hf', Hf in F'. congruence. }
    assert (Es : srcs = map (fun n => source_at w (s ++ "/" ++ n)) (filter f (w_names w s))) by congruence.
    set (srcs' := map (fun n => source_at w' (s ++ "/" ++ n)) (filter f' (w_names w' s))) in *.
    assert (Ps : Permutation srcs srcs').
    { rewrite Es. unfold srcs'. rewrite (map_ext (fun n => source_at w' (s ++ "/" ++ n)) (fun n => source_at w (s ++ "/" ++ n))) by (intros n; unfold source_at; rewrite E3; reflexivity).
      rewrite (filter_ext _ _ Ef). apply Permutation_map. specialize (Pn s). clear -Pn. induction Pn as [|x l l' P IH|x y l|l1 l2 l3 P1 I1 P2 I2]; cbn [filter].
      - constructor.
      - destruct (f x); [constructor; exact IH|exact IH].
      - destruct (f x), (f y); [constructor|apply Permutation_refl..].
      - eapply Permutation_trans; eauto. }
    assert (S' : sql_files (w_loads w') (w_file w') (w_cwd w') (Some config) = Ok (CStr (s ++ slashes k))) by (rewrite E1, E2, E3; exact S).
    assert (T : forall l, ForallOrdPairs apart l -> ForallOrdPairs apart_tables l).
    { induction 1 as [|a l F H IH]; constructor; [|exact IH]. eapply Forall_impl; [|exact F]. intros x [Y _]. exact Y. }
    clearbody srcs'. clear Es P1.
    destruct (file_database srcs) as [b|e] eqn:F.
    - destruct (files_order srcs srcs' b (apart_parted _ A) Ps F) as (b' & F' & _).
      assert (Q := C93_files_accepted_order_partial srcs srcs' b b' A Ps F F').
      assert (W : forall w s config srcs b, sql_files (w_loads w) (w_file w) (w_cwd w) (Some config) = Ok (CStr s) -> process w s = Ok srcs -> NoDup (dkeys (src_tables srcs)) ->
        file_database srcs = Ok b -> (exit_status (run_check w config) = 0 <-> snd (db_errors b) = Ok [])).
      { clear. intros w s config srcs b S P A E. destruct (file_good srcs b A E) as (U & N & T & D & ED & L).
        destruct (answers_of b D U ED) as [_ W]; [intros n t I; apply tidy_kept, (T n t I)|exact L|].
        unfold exit_status, run_check, load_files. rewrite S. cbn [bind]. rewrite P. cbn [bind]. rewrite E.
        destruct (db_errors b) as [b1 [errs|e]] eqn:Ee; cbn [snd run_end]; [|split; discriminate].
        destruct (W b1 errs eq_refl) as (ws & Ew). destruct (db_warnings b1) as [b2 r]. cbn [snd] in Ew. subst r. cbn [run_end].
        destruct errs as [|x errs]; cbn [list_is_nil]; split; try reflexivity; discriminate. }
      pose proof (W w _ config srcs b S P (proj1 (apart_parted _ A)) F) as W1.
      pose proof (W w' _ config srcs' b' S' P2 (proj1 (parted_perm _ _ Ps (apart_parted _ A))) F') as W2.
      assert (Z : forall r, exit_status r = 0 \/ exit_status r = 1) by (intros r; unfold exit_status; destruct (run_end r) as [[|]| |]; auto).
      destruct (Z (run_check w config)) as [Z1|Z1], (Z (run_check w' config)) as [Z2|Z2]; rewrite Z1, Z2 in *; try reflexivity.
      + exfalso. assert (1 = 0) by (apply W2, Q, W1; reflexivity). discriminate.
      + exfalso. assert (1 = 0) by (apply W1, Q, W2; reflexivity). discriminate.
    - assert (F' : exists e', file_database srcs' = Raise e').
      { destruct (file_database srcs') as [b'|e'] eqn:F'; [|eauto]. exfalso.
        destruct (proj1 (files_iff srcs' b' (parted_perm _ _ Ps (apart_parted _ A))) F') as (_ & _ & _).
        destruct (files_order srcs' srcs b' (parted_perm _ _ Ps (apart_parted _ A)) (Permutation_sym Ps) F') as (b & F2 & _). congruence. }
      destruct F' as (e' & F'). unfold exit_status, run_check, load_files. rewrite S, S'. cbn [bind]. rewrite P, P2. cbn [bind]. rewrite F, F'. reflexivity.
  Qed.
End Props.

(** Two tables with errors, one of them with a DATE column: only the other's are heard. *)
Example ex_C35_exact : (forall n t, In (n, t) (db [two_autos; dated]) -> kept t)
  /\ (exists b, db_errors (new_database (db [two_autos; dated]) (Some []) ["told before"] []) =
       (b, Ok (["told before"] +++ concat [["Table 't' has more than one AUTO_INCREMENT column";
         "Table 't' has index 'id' that references non-existent column 'missing'"]; []])))
  /\ In ("born", date_col "born") (t_columns dated) /\ c_kind (date_col "born") = KDate.
Proof.
  split; [intros n t [[= <- <-]|[[= <- <-]|[]]]; apply keptb_ok; reflexivity|].
  split; [eexists; vm_compute; reflexivity|]. split; [right; left; reflexivity|reflexivity].
Qed.

(** A BIT column without a default. *)
Definition flags_file : source := ("flags.sql", "CREATE TABLE `flags` (`id` INT(10) UNSIGNED NOT NULL, `on` BIT(1), PRIMARY KEY (`id`));").
Example ex_C37_files : ForallOrdPairs apart_tables [flags_file] /\ exists b e, file_database [flags_file] = Ok b
  /\ snd (db_errors b) = Raise e /\ exists n t, In (n, t) (db_tables b) /\ stops t.
Proof.
  assert (A : ForallOrdPairs apart_tables [flags_file]) by (repeat constructor).
  split; [exact A|]. found (file_database [flags_file]). eexists. split; [by_vm|]. split; [vm_compute; reflexivity|].
  apply (proj1 (C37_files_exact [flags_file] _ A ltac:(by_vm))). eexists. vm_compute. reflexivity.
Qed.

(** The same files, listed in either order. *)
Definition shop_files (names : list string) : world :=
  site_world "/srv/app/sql" names (map (fun s => ("/srv/app/sql/" ++ fst s, snd s)) some_files) [].
Example ex_C93_check : exists names srcs, closed_path "/srv/app/sql" /\ has_magic "/srv/app/sql" = false
  /\ sql_files (w_loads (shop_files names)) (w_file (shop_files names)) (w_cwd (shop_files names)) (Some "mygrate.conf") = Ok (CStr ("/srv/app/sql" ++ slashes 0))
  /\ w_isdir (shop_files names) ("/srv/app/sql" ++ slashes 0) = true
  /\ (forall d, Permutation (w_names (shop_files names) d) (w_names (shop_files (rev names)) d))
  /\ process (shop_files names) ("/srv/app/sql" ++ slashes 0) = Ok srcs /\ ForallOrdPairs apart srcs /\ List.length srcs = 3
  /\ exit_status (run_check (shop_files names) "mygrate.conf") = 0.
Proof.
  exists (map fst some_files). eexists. split; [exists "l"%char; split; [reflexivity|discriminate]|]. split; [reflexivity|]. split; [by_vm|]. split; [reflexivity|].
  split. { intros d. unfold shop_files, site_world, w_names. destruct (String.eqb d "/srv/app/sql"); [apply Permutation_rev|constructor]. }
  split; [vm_compute; reflexivity|]. split; [|split; [reflexivity|by_vm]].
  assert (A : forall s s' t t' r r', dkeys (rd_tables (reader_of s)) = t -> dkeys (rd_rows (reader_of s)) = r ->
    dkeys (rd_tables (reader_of s')) = t' -> dkeys (rd_rows (reader_of s')) = r' ->
    (forall n, In n t -> ~ In n t') -> (forall n, In n r -> ~ In n r') -> apart s s').
  { intros s s' t t' r r' <- <- <- <- H1 H2. split; assumption. }
  repeat constructor; (eapply A; [vm_compute; reflexivity..| |]); cbn [In]; intros n H1 H2; intuition congruence.
Qed.

Print Assumptions C37_exact.
Print Assumptions C37_files_exact.
Print Assumptions C94_check_status.
Print Assumptions C93_check_order_partial.
Print Assumptions C35_exact.
