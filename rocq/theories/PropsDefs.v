(** C97: which definitions of a CREATE TABLE count. *)
From Verif Require Import Facts ReadFacts ReadMore SpecDefs DefFacts SpecServer Samples PropsParse.

Local Opaque max_turns max_statements.

Lemma yields_in {A} (R : list def -> def -> A -> Prop) : forall before defs L, yields R before defs L ->
  forall a, In a L -> exists l d l', defs = l +++ d :: l' /\ R (before +++ l) d a.
Proof.
  intros before defs L Y. induction Y as [before|before d l L N Y IH|before d l x L N Y IH]; intros a I.
  - destruct I.
  - destruct (IH a I) as (l1 & d1 & l1' & -> & H). exists (d :: l1), d1, l1'. split; [reflexivity|]. rewrite <- app_assoc in H. exact H.
  - destruct I as [<-|I].
    + exists [], d, l. split; [reflexivity|]. rewrite app_nil_r. exact N.
    + destruct (IH a I) as (l1 & d1 & l1' & -> & H). exists (d :: l1), d1, l1'. split; [reflexivity|]. rewrite <- app_assoc in H. exact H.
Qed.
Lemma yields_all {A} (R : list def -> def -> A -> Prop) : forall before defs L, yields R before defs L ->
  forall l d l' a, defs = l +++ d :: l' -> R (before +++ l) d a -> exists b, In b L /\ R (before +++ l) d b.
Proof.
  intros before defs L Y. induction Y as [before|before d l L N Y IH|before d l x L N Y IH]; intros l1 d1 l1' a E H.
  - destruct l1; discriminate.
  - destruct l1 as [|y l1]; injection E as -> E; [rewrite app_nil_r in H; destruct (N a H)|].
    destruct (IH l1 d1 l1' a E) as (b & I & Hb); [rewrite <- app_assoc; exact H|]. rewrite <- app_assoc in Hb. exists b. auto.
  - destruct l1 as [|y l1]; injection E as -> E.
    + rewrite app_nil_r. exists x. split; [left; reflexivity|exact N].
    + destruct (IH l1 d1 l1' a E) as (b & I & Hb); [rewrite <- app_assoc; exact H|]. rewrite <- app_assoc in Hb. exists b. split; [right; exact I|exact Hb].
Qed.

(** The name and the definitions that the parser finds in the text. *)
Definition named_in (v : pvals def) : string := strip_char bquote (vtext "name" v).
Definition defs_in (v : pvals def) : list def := vkids "definitions" v.
(** The message about a missing semicolon. *)
Definition end_message (v : pvals def) : list string :=
  if dmem "closing_semicolon" v then [] else ["Missing ending semicolon for table " ++ named_in v].
(** No index would have the empty name. *)
Definition no_empty_key (v : pvals def) : Prop := ~ key_named (named_in v) (defs_in v) (defs_in v) "".

(** Exactly which of the definitions count, what is noted about the others, and when the statement
    cannot be read. *)
Theorem C97_exact : forall v, no_empty_key v ->
  let fails_at := fun l d => fails (named_in v) (defs_in v) l d in
  (exists t, create_process v = Ok t /\ made (named_in v) (defs_in v) t
     /\ (exists M, yields (gives_message (named_in v) (defs_in v)) [] (defs_in v) M /\ t_global_errors t = M +++ end_message v)
     /\ forall l d l', defs_in v = l +++ d :: l' -> ~ fails_at l d)
  \/ (exists m, create_process v = Raise (ValueError m)) /\ exists l d l', defs_in v = l +++ d :: l' /\ fails_at l d.
Proof.
  intros v N fails_at. unfold create_process. fold (named_in v). fold (defs_in v). set (t0 := mkTable _ _ _ _ _ _ _ _ _ _ _ _).
  assert (A : after (named_in v) (defs_in v) [] t0).
  { constructor; cbn.
    - reflexivity.
    - reflexivity.
    - intros n. split; [tauto|]. intros (q & [] & _).
    - intros n. split; [tauto|]. intros (b & q & [] & _).
    - intros n. split; [tauto|]. intros [(i & [] & _)|[(l & p & l' & E & _)|(l & p & l' & E & _)]]; destruct l; discriminate.
    - tauto.
    - exists []. split; [constructor|reflexivity].
    - exists []. split; [constructor|reflexivity].
    - exists []. split; [constructor|reflexivity].
    - exists []. split; [constructor|reflexivity]. }
  destruct (loop (named_in v) (defs_in v) N (defs_in v) [] t0 eq_refl A) as [(t & -> & [An _ _ _ _ _ AC AK AF AM] & H)|[(m & ->) H]]; cbn [bind].
  - left. eexists. split; [reflexivity|]. unfold end_message. destruct AM as (M & Y & EM).
    destruct (dmem "closing_semicolon" v); (split; [constructor; assumption|]; split; [exists M; split; [exact Y|]|exact H]).
    + rewrite app_nil_r. exact EM.
    + cbn [add_global_error t_global_errors]. rewrite EM. reflexivity.
  - right. split; [eauto|exact H].
Qed.

(** Nothing is lost without a note at the table (which nobody sees, [C40_table_messages_ignored]). *)
Theorem C97_no_note_partial : forall v t, no_empty_key v -> create_process v = Ok t -> t_global_errors t = [] ->
  (forall p, In (DefCol p) (defs_in v) -> exists c, column_meant p c /\ In (p_name p, c) (t_columns t))
  /\ (forall i, In (DefIndex i) (defs_in v) -> In (ix_name i, i) (t_indexes t))
  /\ (forall bare k, In (DefFk bare k) (defs_in v) ->
        In (k_name (fk_called (named_in v) bare k), fk_called (named_in v) bare k) (t_constraints t)).
Proof.
  intros v t N E G. destruct (C97_exact v N) as [(t' & E' & [An (C & YC & EC) (K & YK & EK) (F & YF & EF)] & (M & YM & EM) & H)|[(m & E') _]]; [|congruence].
  rewrite E in E'. injection E' as <-. rewrite G in EM. symmetry in EM. apply app_eq_nil in EM as [-> _].
  assert (Q : forall l d l' m, defs_in v = l +++ d :: l' -> ~ gives_message (named_in v) (defs_in v) l d m).
  { intros l d l' m E1 X. destruct (yields_all _ _ _ _ YM l d l' m E1 X) as (b & [] & _). }
  split; [|split].
  - intros p I. apply in_split in I as (l & l' & E1). assert (Nc : ~ column_named l (p_name p)) by (intros X; eapply Q; [exact E1|apply gives_two_columns, X]).
    destruct (as_definition p) as [c|e] eqn:Ed.
    + apply meant_eq in Ed. exists c. split; [exact Ed|]. destruct (yields_all _ _ _ _ YC l (DefCol p) l' c E1) as (b & I & X); [constructor; assumption|].
      inversion X; subst. apply meant_eq in Ed. match goal with H : column_meant _ b |- _ => apply meant_eq in H; rewrite Ed in H; injection H as <- end.
      rewrite EC. apply in_map_iff. exists c. split; [|exact I]. f_equal. apply meant_eq in Ed as (kind & _ & ->). reflexivity.
    + exfalso. apply (H l (DefCol p) l' E1). apply fails_type; [exact Nc|]. intros c M1. apply meant_eq in M1. congruence.
  - intros i I. apply in_split in I as (l & l' & E1). destruct (yields_all _ _ _ _ YK l (DefIndex i) l' i E1) as (b & I & X).
    + constructor. intros X. eapply Q; [exact E1|apply gives_two_keys, X].
    + inversion X; subst. rewrite EK. apply in_map_iff. eauto.
  - intros bare k I. apply in_split in I as (l & l' & E1). destruct (yields_all _ _ _ _ YF l (DefFk bare k) l' (fk_called (named_in v) bare k) E1) as (b & I & X).
    + constructor. intros X. eapply Q; [exact E1|apply gives_two_fks, X].
    + inversion X; subst. rewrite EF. apply in_map_iff. eauto.
Qed.

(** To MySQL the primary key has no name.  Here it goes under the name of its first column: a key that
    is named like this column and comes after the primary key is never read... *)
Theorem C97_key_after_primary_lost : forall v t l pk l1 i l2, no_empty_key v -> create_process v = Ok t ->
  defs_in v = l +++ DefIndex pk :: l1 +++ DefIndex i :: l2 ->
  ix_rawname pk = "" -> ix_rawname i <> "" -> hd_error (ix_columns pk) = Some (ix_rawname i) ->
  ~ In i (dvals (t_indexes t)).
Proof.
  intros v t l pk l1 i l2 N E D Rp Ri Hp I. destruct (C97_exact v N) as [(t' & E' & [An _ (K & YK & EK) _] & _ & H)|[(m & E') _]]; [|congruence].
  rewrite E in E'. injection E' as <-. rewrite EK in I. unfold dvals in I. rewrite map_map in I. cbn [snd] in I. rewrite map_id in I.
  assert (Ei : ix_name i = ix_rawname i) by (unfold ix_name; destruct (ix_rawname i); [congruence|reflexivity]).
  assert (Ep : ix_name pk = ix_rawname i) by (unfold ix_name; rewrite Rp; cbn; destruct (ix_columns pk); [discriminate|injection Hp as ->; reflexivity]).
  destruct (yields_in _ _ _ _ YK i I) as (a & d & a' & Ed & X). cbn [app] in X. inversion X; subst.
  - (* declared at another place *)
    assert (Q : (exists m, a = l +++ DefIndex pk :: m) \/ (DefIndex i = DefIndex pk) \/ exists m, l = a +++ DefIndex i :: m).
    { rewrite D in Ed. clear - Ed. revert a Ed. induction l as [|x l IH]; intros [|y a] Ed; cbn [app] in *.
      - injection Ed as E1 E2. rewrite E1. auto.
      - injection Ed as <- Ed. left. exists a. reflexivity.
      - injection Ed as -> Ed. right. right. exists l. reflexivity.
      - injection Ed as -> Ed. destruct (IH a Ed) as [(m & ->)|[Q|(m & ->)]]; [left; exists m; reflexivity|auto|right; right; exists m; reflexivity]. }
    destruct Q as [(m & ->)|[[= ->]|(m & ->)]].
    + match goal with H : ~ key_named _ _ _ _ |- _ => apply H end. left. exists pk. split; [apply in_app_iff; right; left; reflexivity|congruence].
    + congruence.
    + apply (H _ (DefIndex pk) _ D). apply fails_key; [exact Rp|]. left. exists i. split; [apply in_app_iff; right; left; reflexivity|congruence].
  - cbn [ix_rawname] in Ri. congruence.
  - match goal with H : ~ in_some_key _ _ |- _ => apply H end. exists (mkIndex (k_column k) [k_column k] IIndex []). split; [|left; reflexivity].
    rewrite D. apply in_app_iff. right. right. apply in_app_iff. right. left. reflexivity.
Qed.

(** ... and if it comes before the primary key, the whole statement is not read. *)
Theorem C97_key_before_primary_raises : forall v l i l1 pk l2, no_empty_key v ->
  defs_in v = l +++ DefIndex i :: l1 +++ DefIndex pk :: l2 ->
  ix_rawname pk = "" -> ix_rawname i <> "" -> hd_error (ix_columns pk) = Some (ix_rawname i) ->
  exists m, create_process v = Raise (ValueError m).
Proof.
  intros v l i l1 pk l2 N D Rp Ri Hp. destruct (C97_exact v N) as [(t & _ & _ & _ & H)|[(m & E) _]]; [|eauto]. exfalso.
  apply (H (l +++ DefIndex i :: l1) (DefIndex pk) l2); [rewrite D, <- app_assoc; reflexivity|]. apply fails_key; [exact Rp|].
  left. exists i. split; [apply in_app_iff; right; left; reflexivity|].
  unfold ix_name. rewrite Rp. destruct (ix_columns pk); [discriminate|injection Hp as ->]. cbn. destruct (ix_rawname i); [congruence|reflexivity].
Qed.

(** A file whose first statement cannot be read is ignored as a whole; all that is left of it is a line on
    the standard output (see C102). *)
Lemma unread_sql file s m : statement_of (strip s) = SCreate -> create_parse (strip s) = Raise (ValueError m) -> read_sql file s = (new_reader, Raise (ValueError m)).
Proof.
  intros S0 P. assert (Ne : is_empty (strip s) = false) by (destruct (strip s); [discriminate S0|reflexivity]).
  assert (Ne' : is_empty s = false) by (destruct s; [discriminate Ne|reflexivity]).
  unfold read_sql. change max_statements with (Datatypes.S (pred max_statements)). cbn [read_loop]. rewrite Ne', Ne, S0, P. reflexivity.
Qed.
Lemma nothing_read {FO : FloatOracle} before file after s m : read_sql file s = (new_reader, Raise (ValueError m)) ->
  file_database (before +++ (file, s) :: after) = file_database (before +++ after).
Proof.
  intros Q.
  assert (S : forall b, read_source b (file, s) = Ok b).
  { intros b. unfold read_source. cbn [fst snd]. rewrite Q. cbn [caught rd_tables rd_rows rd_errors new_reader dvals map foldM bind concat fold_left].
    unfold add_errors. rewrite app_nil_r. destruct b; reflexivity. }
  unfold file_database. f_equal. generalize empty_database. induction before as [|x before IH]; intros b; cbn [List.app foldM].
  - rewrite S. reflexivity.
  - destruct (read_source b x); [cbn [bind]; apply IH|reflexivity].
Qed.
Lemma unread_ignored : forall {FO : FloatOracle} before file after s m, statement_of (strip s) = SCreate -> create_parse (strip s) = Raise (ValueError m) ->
  file_database (before +++ (file, s) :: after) = file_database (before +++ after).
Proof. intros FO before file after s m S0 P. apply (nothing_read before file after s m), unread_sql; assumption. Qed.
Theorem C97_file_ignored : forall {FO : FloatOracle} before file after s v rest, statement_of (strip s) = SCreate ->
  run_rules create_rules (normalize (drop_lengths (drop_dashes (strip s)))) [] = Ok (Some v, rest) ->
  no_empty_key v -> (exists l d l', defs_in v = l +++ d :: l' /\ fails (named_in v) (defs_in v) l d) ->
  (exists m, read_sql file s = (new_reader, Raise (ValueError m)))
  /\ file_database (before +++ (file, s) :: after) = file_database (before +++ after).
Proof.
  intros FO before file after s v rest S0 R N (l & d & l' & D & F).
  destruct (C97_exact v N) as [(t & _ & _ & _ & H)|[(m & E) _]]; [destruct (H l d l' D F)|].
  assert (Q : read_sql file s = (new_reader, Raise (ValueError m))) by (apply (unread_sql file s m S0); unfold create_parse, parse_with; rewrite R; cbn [bind]; rewrite E; reflexivity).
  split; [eauto|]. apply (nothing_read before file after s m Q).
Qed.

Print Assumptions C97_exact.
Print Assumptions C97_no_note_partial.
Print Assumptions C97_key_after_primary_lost.
Print Assumptions C97_key_before_primary_raises.
Print Assumptions C97_file_ignored.

(** ** Instances *)

Definition namedb (d : def) : bool :=
  match d with
  | DefCol p => negb (is_empty (p_name p))
  | DefIndex i => negb (is_empty (ix_name i))
  | DefFk _ k => negb (is_empty (k_column k))
  | DefOption _ => true
  end.
Lemma namedb_ok v : forallb namedb (defs_in v) = true -> no_empty_key v.
Proof.
  intros H. rewrite forallb_forall in H. intros [(i & I & E)|[(l & p & l' & D & _ & _ & E)|(l & k & l' & D & _ & _ & E)]].
  - specialize (H _ I). cbn [namedb] in H. rewrite E in H. discriminate.
  - specialize (H (DefCol p)). cbn [namedb] in H. rewrite E, D in H. discriminate H. apply in_app_iff. right. left. reflexivity.
  - specialize (H (DefFk true k)). cbn [namedb] in H. rewrite E, D in H. discriminate H. apply in_app_iff. right. left. reflexivity.
Qed.

(** A table of pairs with a key named like the first column of the primary key, as MySQL allows. *)
Definition pair_columns : string := "CREATE TABLE `grants` (`user_id` INT(10) NOT NULL, `role_id` INT(10) NOT NULL, ".
Definition key_last_sql : string := pair_columns ++ "PRIMARY KEY (`user_id`,`role_id`), KEY `user_id` (`user_id`));".
Definition key_first_sql : string := pair_columns ++ "KEY `user_id` (`user_id`), PRIMARY KEY (`user_id`,`role_id`));".
Definition grants_primary : index := mkIndex "" ["user_id"; "role_id"] IPrimary [].
Definition grants_key : index := mkIndex "user_id" ["user_id"] IIndex [].
Definition values_in (s : string) : pvals def :=
  match run_rules create_rules (normalize (drop_lengths (drop_dashes (strip s)))) [] with Ok (Some v, _) => v | _ => [] end.

Example ex_C97_lost : run_rules create_rules (normalize (drop_lengths (drop_dashes (strip key_last_sql)))) [] = Ok (Some (values_in key_last_sql), "")
  /\ no_empty_key (values_in key_last_sql)
  /\ (exists t, create_process (values_in key_last_sql) = Ok t /\ t_global_errors t = ["Table 'grants' has two indexes named 'user_id'"])
  /\ (exists l, defs_in (values_in key_last_sql) = l +++ DefIndex grants_primary :: [] +++ DefIndex grants_key :: [])
  /\ ix_rawname grants_primary = "" /\ ix_rawname grants_key <> "" /\ hd_error (ix_columns grants_primary) = Some (ix_rawname grants_key).
Proof.
  split; [by_vm|]. split; [apply namedb_ok; by_vm|]. split.
  - found (create_process (values_in key_last_sql)). split; by_vm.
  - split; [|repeat split; discriminate]. exists (firstn 2 (defs_in (values_in key_last_sql))). by_vm.
Qed.
Example ex_C97_raises : run_rules create_rules (normalize (drop_lengths (drop_dashes (strip key_first_sql)))) [] = Ok (Some (values_in key_first_sql), "")
  /\ statement_of (strip key_first_sql) = SCreate /\ no_empty_key (values_in key_first_sql)
  /\ (exists l, defs_in (values_in key_first_sql) = l +++ DefIndex grants_key :: [] +++ DefIndex grants_primary :: [])
  /\ exists l d l', defs_in (values_in key_first_sql) = l +++ d :: l' /\ fails (named_in (values_in key_first_sql)) (defs_in (values_in key_first_sql)) l d.
Proof.
  split; [by_vm|]. split; [by_vm|]. split; [apply namedb_ok; by_vm|].
  assert (E : defs_in (values_in key_first_sql) = firstn 2 (defs_in (values_in key_first_sql)) +++ DefIndex grants_key :: [] +++ DefIndex grants_primary :: []) by by_vm.
  split; [eexists; exact E|]. exists (firstn 2 (defs_in (values_in key_first_sql)) +++ [DefIndex grants_key]), (DefIndex grants_primary), [].
  split; [rewrite <- app_assoc; exact E|]. apply fails_key; [reflexivity|]. left. exists grants_key. split; [apply in_app_iff; right; left; reflexivity|reflexivity].
Qed.
(** Nothing repeated: an unnamed foreign key, a column declared the primary key. *)
Definition inline_sql : string :=
  "CREATE TABLE `t` (`id` INT NOT NULL PRIMARY KEY, `a` INT(10), UNIQUE KEY `b` (`id`), FOREIGN KEY (`a`) REFERENCES `u` (`id`));".
Example ex_C97_no_note : no_empty_key (values_in inline_sql)
  /\ List.length (defs_in (values_in inline_sql)) = 4
  /\ exists t, create_process (values_in inline_sql) = Ok t /\ t_global_errors t = []
     /\ dkeys (t_columns t) = ["id"; "a"] /\ dkeys (t_indexes t) = ["id"; "b"; "a"] /\ dkeys (t_constraints t) = ["t_a_u_fk"].
Proof.
  split; [apply namedb_ok; by_vm|]. split; [by_vm|]. found (create_process (values_in inline_sql)). repeat split; by_vm.
Qed.

(** Both files are valid SQL with different keys.  [check] has nothing to say about the first, but the
    key is nowhere; it has nothing to say about the second either, and there is no table left: against
    a server that has it the tool plans to drop it. *)
Definition grants_live : string := "CREATE TABLE `grants` (
  `user_id` int(10) NOT NULL,
  `role_id` int(10) NOT NULL,
  PRIMARY KEY (`user_id`,`role_id`),
  KEY `user_id` (`user_id`)
) ENGINE=InnoDB DEFAULT CHARSET=utf8".
Theorem C97_refuted : forall FO : FloatOracle,
  NoDup (map id_of_key [grants_primary; grants_key])
  /\ (exists b t, file_database [("grants.sql", key_last_sql)] = Ok b /\ snd (db_errors b) = Ok [] /\ db_tables b = [("grants", t)]
        /\ dvals (t_indexes t) = [grants_primary])
  /\ (exists b live ops, file_database [("grants.sql", key_first_sql)] = Ok b /\ snd (db_errors b) = Ok [] /\ d_tables b = []
        /\ live_database [grants_live] = Ok live
        /\ snd (build_commands false b (Ok (db_tables live)) (fun _ => Ok [])) = Ok ops /\ In "DROP TABLE grants;" (map op_str ops)).
Proof.
  intros FO. split; [repeat constructor; cbn; intuition discriminate|]. split.
  - found (file_database [("grants.sql", key_last_sql)]). eexists. split; [by_vm|]. split; [by_vm|]. split; [vm_compute; reflexivity|reflexivity].
  - found (file_database [("grants.sql", key_first_sql)]). found (live_database [grants_live]).
    eexists. split; [by_vm|]. split; [by_vm|]. split; [by_vm|]. split; [by_vm|]. split; [vm_compute; reflexivity|]. vm_compute. auto.
Qed.
Print Assumptions C97_refuted.
