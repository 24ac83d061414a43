(** C109: new keys meet the rows that are there. *)
From Verif Require Import SpecUnique UniqueFacts PropsRows PropsUnique Database Commands Reader Cli PropsCommand PropsLive PropsCli PropsTold Samples.

(** [o] adds the unique key [cols] to the table [n] that exists already. *)
Definition adds_unique (n : string) (cols : list string) (o : op) : Prop :=
  exists a ix, o = OAlter a /\ al_table a = n /\ In (AddKey ix) (al_ops a) /\ ix_type ix = IUnique /\ ix_columns ix = cols.

Section Float.
  Context {FO : FloatOracle}.

  Lemma build_shape w force config tr err ops : build w force config = (tr, err, Ok ops) ->
    exists sops rops, ops = bracket (sops +++ rops) /\ (forall o, In o sops -> structural o) /\ (forall o, In o rops -> row_op o).
  Proof.
    unfold build. destruct (load_files w config) as [files|]; [|discriminate]. destruct (db_errors files) as [b1 [errs|]]; [|discriminate].
    destruct (negb (list_is_nil errs) && negb force).
    { intros [= _ _ <-]. exists [], []. split; [reflexivity|]. split; intros o []. }
    destruct (load_live w config _) as [tr0 [l|]]; [|discriminate]. destruct (mygration false b1 (Some l)) as [b2 [st|]] eqn:M; [|discriminate].
    destruct (plan_rows (db_tables b2) (Some l)) as [rops|] eqn:R; [|discriminate]. cbn [bind]. intros [= _ _ <-].
    exists (match st with Some o => o | None => [] end), rops. split; [reflexivity|]. split; [|exact (plan_rows_ops _ _ _ R)].
    unfold mygration in M. destruct (db_errors b1) as [b3 [[|e es]|]]; [|injection M as _ <-; intros o []|discriminate].
    injection M as <- M. unfold rmap in M. destruct (plan_tables false (db_tables b3) (Some l)) as [sops|] eqn:S; [|discriminate].
    injection M as <-. exact (plan_tables_ops _ _ _ S).
  Qed.

  Lemma split_shape sops rops done o rest : bracket (sops +++ rops) = done +++ o :: rest ->
    (forall o, In o sops -> structural o) -> (forall o, In o rops -> row_op o) -> structural o ->
    forall has dflt s, exec_rows has dflt done s = Some s.
  Proof.
    intros E Hs Hr Ho has dflt s. unfold bracket in E. destruct (list_is_nil (sops +++ rops)); [destruct done; discriminate|].
    destruct done as [|d done]; [reflexivity|]. injection E as <- E. change (exec_rows has dflt done s = Some s).
    apply (structural_exec has dflt done). intros x Hx. clear - E Hs Hr Ho Hx.
    revert done E Hx. induction sops as [|a l IH]; intros done E Hx.
    - exfalso. simpl in E. assert (I : In o (rops +++ [OEnable])) by (rewrite E; apply in_elt).
      apply in_app_iff in I as [I|[<-|[]]]; [|destruct Ho]. specialize (Hr o I). destruct o; try destruct Hr; destruct Ho.
    - destruct done as [|d done]; [destruct Hx|]. injection E as <- E. destruct Hx as [<-|Hx]; [apply Hs; left; reflexivity|].
      apply (IH (fun o H => Hs o (or_intror H)) done E Hx).
  Qed.

  (** ** C109 *)

  (** In every plan the statements that change tables come before all statements about rows, so they
      meet the rows as they are before the run. *)
  Theorem C109_structure_first : forall w force config, run_end (run_plan w force config) = Exited true ->
    exists notices ops, run_out (run_plan w force config) = notices +++ [join new_line (map op_str ops)]
    /\ forall done o rest, ops = done +++ o :: rest -> structural o ->
       forall has dflt s, exec_rows has dflt done s = Some s.
  Proof.
    intros w force config Ex. unfold run_plan in *. destruct (build w force config) as [[tr err] [ops|e]] eqn:B; [|discriminate Ex].
    destruct (build_shape _ _ _ _ _ _ B) as (sops & rops & Eo & Hs & Hr). eexists _, ops. split; [reflexivity|].
    intros done o rest Es So. rewrite Eo in Es. exact (split_shape _ _ _ _ _ Es Hs Hr So).
  Qed.

  (** Exactly when a server can add a unique key of the files: if the rows it has before the run obey it. *)
  Theorem C109_exact : forall w force config, run_end (run_plan w force config) = Exited true ->
    exists notices ops, run_out (run_plan w force config) = notices +++ [join new_line (map op_str ops)]
    /\ forall n cols done o rest, ops = done +++ o :: rest -> adds_unique n cols o ->
       forall has dflt s, (exists s1, exec_rows has dflt done s = Some s1 /\ obeys cols (s1 n)) <-> obeys cols (s n).
  Proof.
    intros w force config Ex. destruct (C109_structure_first w force config Ex) as (ns & ops & Out & H). exists ns, ops. split; [exact Out|].
    intros n cols done o rest Eo (a & ix & -> & _) has dflt s. rewrite (H done _ rest Eo Logic.I has dflt s). split.
    - intros (s1 & [= <-] & O). exact O.
    - intros O. exists s. auto.
  Qed.
End Float.
Print Assumptions C109_structure_first.
Print Assumptions C109_exact.

(** *** A server with two rows of the same name, and files that make the name unique and rename one *)
Definition hr_sql : string := "CREATE TABLE `roles` (
  `id` int(10) NOT NULL,
  `name` varchar(50) NOT NULL,
  PRIMARY KEY (`id`),
  UNIQUE KEY `name_idx` (`name`)
);
INSERT INTO `roles` (`id`, `name`) VALUES ('1', 'admin'), ('2', 'user');".
Definition hr_live : string := "CREATE TABLE `roles` (
  `id` int(10) NOT NULL,
  `name` varchar(50) NOT NULL,
  PRIMARY KEY (`id`)
) ENGINE=InnoDB DEFAULT CHARSET=utf8".
Definition hr_rows : list row := [[("id", RStr "1"); ("name", RStr "admin")]; [("id", RStr "2"); ("name", RStr "admin")]].
Definition hr : world := site_world "/srv/app/sql" ["roles.sql"] [("/srv/app/sql/roles.sql", hr_sql)]
  [("SHOW TABLES", listing ["roles"]); definition "roles" hr_live; ("SELECT * FROM roles", Answer hr_rows)].
Definition hr_held : rserver := served (db [named_table (rows_named [("1", "admin"); ("2", "admin")])]).
Definition hr_ops : list op :=
  [ODisable; OAlter (mkAlter "roles" [AddKey (unique_key "name_idx" ["name"])]);
   ORowUpdate "roles" [("id", RStr "2"); ("name", RStr "user")]; OEnable].

Example ex_C109 : run_end (run_plan hr false "mygrate.conf") = Exited true
  /\ run_out (run_plan hr false "mygrate.conf") = [join new_line (map op_str hr_ops)].
Proof. split; by_vm. Qed.

(** The statement is false: the rows of the files obey the new key, the rows the server has do not, and the
    statement that adds the key comes before the UPDATE that would settle it. *)
Theorem C109_refuted : forall FO : FloatOracle, exists w config ops done o rest s s',
  run_end (run_check w config) = Exited true /\ run_end (run_plan w false config) = Exited true
  /\ run_out (run_plan w false config) = [join new_line (map op_str ops)]
  /\ ops = done +++ o :: rest /\ adds_unique "roles" ["name"] o
  /\ names_are [("1", "admin"); ("2", "admin")] (s "roles")
  /\ exec_rows all_cols (fun _ _ => None) ops s = Some s'
  /\ names_are [("1", "admin"); ("2", "user")] (s' "roles") /\ obeys ["name"] (s' "roles")
  /\ exec_rows all_cols (fun _ _ => None) done s = Some s /\ ~ obeys ["name"] (s "roles").
Proof.
  intros FO. set (s' := put_row hr_held "roles" "2" (Some (written [("name", RStr "user")] (fun c => match dget c [("id", RStr "2"); ("name", RStr "admin")] with Some v => sql_of v | None => None end)))).
  assert (B : names_are [("1", "admin"); ("2", "admin")] (hr_held "roles")).
  { intros i. unfold hr_held, served. change (dget "roles" _) with (Some (named_table (rows_named [("1", "admin"); ("2", "admin")]))). cbn [t_rows named_table].
    rewrite rows_named_get. destruct (dget i _) as [v|]; [|reflexivity]. cbn. eexists. split; reflexivity. }
  assert (A : names_are [("1", "admin"); ("2", "user")] (s' "roles")).
  { intros i. unfold s', put_row. rewrite String.eqb_refl. cbn [andb]. specialize (B i). cbn [dget keqb] in B |- *.
    destruct (String.eqb i "2") eqn:E2; [apply String.eqb_eq in E2; subst i; eexists; split; reflexivity|].
    destruct (keqb i "1"); [exact B|]. change (keqb i "2") with (String.eqb i "2") in *. rewrite E2 in *. exact B. }
  exists hr, "mygrate.conf", hr_ops, [ODisable]. eexists _, _, hr_held, s'.
  split; [by_vm|]. split; [by_vm|]. split; [by_vm|]. split; [reflexivity|].
  split; [eexists _, _; split; [reflexivity|]; split; [reflexivity|]; split; [left; reflexivity|]; split; reflexivity|].
  split; [exact B|]. split; [reflexivity|]. split; [exact A|]. split; [apply (names_obey [("1", "admin"); ("2", "user")]); [apply nodupb_ok; reflexivity|exact A]|].
  split; [reflexivity|]. intros O. pose proof (B "1") as B1. pose proof (B "2") as B2. cbn in B1, B2.
  destruct B1 as (a & Ea & Va). destruct B2 as (b & Eb & Vb). apply (O "1" "2" a b); auto; [discriminate|].
  intros c [<-|[]]. split; congruence.
Qed.
Print Assumptions C109_refuted.
