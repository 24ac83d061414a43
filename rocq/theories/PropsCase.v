(** C99: the letter case of names.  MySQL takes column, key and foreign key names that differ in
    letter case only for the same; mygrations compares them as they are spelled. *)
From Verif Require Import Commands Reader SpecCase CaseFacts LocalFacts Samples PropsPlan PropsLocal PropsParse PropsValid.

Lemma same_agree l : one_spelling l -> forall a b, In a l -> In b l -> same_word a b = String.eqb a b.
Proof.
  intros O a b Ia Ib. unfold same_word. destruct (String.eqb_spec (lower a) (lower b)) as [E|E], (String.eqb_spec a b) as [Q|Q]; try reflexivity.
  - destruct (Q (O a b Ia Ib E)).
  - subst b. destruct (E eq_refl).
Qed.

Section Props.
  Context {FO : FloatOracle}.

  (** Full statement: without [spelled_alike].  False, see [C99_refuted]. *)
  Theorem C99_same_run_partial : forall from to disable ops pre post,
    wf_tables from -> wf_tables to -> spelled_alike from to -> plan_tables disable to (Some from) = Ok ops -> ops = pre +++ post ->
    loose_all same_word pre (server_of from) = exec_all pre (server_of from).
  Proof.
    intros from to disable ops pre post Wf Wt A E Q. apply plan_iff in E as [_ E]; auto. rewrite Q in E.
    apply (plan_agree from to Wf Wt same_word) with (disable := disable) (post := post); [| | |symmetry; exact E]; intros n a b Ia Ib; destruct (A n) as (H1 & H2 & H3).
    - apply (same_agree _ H1 a b Ia Ib).
    - apply (same_agree _ H2 a b Ia Ib).
    - apply (same_agree _ H3 a b Ia Ib).
  Qed.
  (** So such a server executes the plan and ends with what the files say (as C10). *)
  Theorem C99_reaches_target_partial : forall from to disable ops,
    plannable from to -> spelled_alike from to -> plan_tables disable to (Some from) = Ok ops ->
    exists s, loose_all same_word ops (server_of from) = Some s /\ reaches from to s.
  Proof.
    intros from to disable ops P A E. destruct (C10_plan_reaches_target_partial from to disable ops P E) as (s & X & R & _).
    exists s. split; [|exact R]. rewrite (C99_same_run_partial from to disable ops ops [] (pl_from _ _ P) (pl_to _ _ P) A E); [exact X|]. symmetry. apply app_nil_r.
  Qed.

  (** A column that the files spell otherwise than the server is dropped, with all it holds, and a
      new one made, in one and the same statement. *)
  Theorem C99_respelled : forall (D : Type) (fresh : string -> string -> D) from to disable ops m n s t c c' x x',
    wf_tables from -> wf_tables to -> plan_tables disable to (Some from) = Ok ops -> stored_for (server_of from) m ->
    In (n, s) from -> In (n, t) to -> In x (dvals (t_columns s)) -> In x' (dvals (t_columns t)) -> c_name x = c -> c_name x' = c' ->
    lower c = lower c' -> ~ column_of to n c -> ~ column_of from n c' ->
    (exists a p, In (OAlter a) ops /\ al_table a = n /\ In (RemoveColumn x) (al_ops a) /\ In (AddColumn x' p) (al_ops a))
    /\ m n c <> None /\ data_after fresh ops m n c = None /\ data_after fresh ops m n c' = Some (fresh n c').
  Proof.
    intros D fresh from to disable ops m n s t c c' x x' Wf Wt E S Is It Ix Ix' Nc Nc' L N1 N2.
    destruct (C90_data_kept D fresh from to disable ops m Wf Wt E S) as (_ & H2 & H3).
    pose proof (proj2 (wf_named _ Wf n s Is)) as Ws. pose proof (proj2 (wf_named _ Wt n t It)) as Wt'.
    apply dvals_in in Ix as (k & Ix). apply dvals_in in Ix' as (k' & Ix'). pose proof (wf_cols_named _ Ws k x Ix) as Qk. pose proof (wf_cols_named _ Wt' k' x' Ix') as Qk'.
    rewrite Nc in Qk. rewrite Nc' in Qk'. subst k k'.
    assert (C' : column_of to n c') by (exists t; split; [exact It|eapply in_dkeys; eauto]).
    split; [|split; [|split; [apply H3, N1|apply H2; assumption]]].
    - apply plan_iff in E as [_ ->]; auto.
      assert (R : In (RemoveColumn x) (kitchen_list s t)).
      { unfold kitchen_list. rewrite !in_app_iff. right. right. left. apply in_map_iff. exists (c, x). split; [reflexivity|]. apply filter_In. split; [exact Ix|]. cbn [fst].
        rewrite negb_true_iff. destruct (dmem c (t_columns t)) eqn:Q; [|reflexivity]. destruct N1. exists t. split; [exact It|]. rewrite dmem_dget in Q.
        destruct (dget c (t_columns t)) eqn:G; [|discriminate]. apply dget_in in G. eapply in_dkeys; eauto. }
      assert (A : In (AddColumn x' (pos_of (map fst (t_columns t)) c')) (kitchen_list s t)).
      { unfold kitchen_list, add_col_ops. rewrite !in_app_iff. left. apply in_map_iff. exists (c', x'). split; [reflexivity|]. apply filter_In. split; [exact Ix'|]. cbn [fst].
        rewrite negb_true_iff. destruct (dmem c' (t_columns s)) eqn:Q; [|reflexivity]. destruct N2. exists s. split; [exact Is|]. rewrite dmem_dget in Q.
        destruct (dget c' (t_columns s)) eqn:G; [|discriminate]. apply dget_in in G. eapply in_dkeys; eauto. }
      exists (mkAlter n (kitchen_list s t)), (pos_of (map fst (t_columns t)) c'). split; [|split; [reflexivity|split; assumption]].
      unfold plan_list, body_list. rewrite !in_app_iff. right. left. right. right. left. unfold updates_list. apply in_concat.
      exists (removed_of from to (n, s) +++ kitchen_of to (n, s)). split; [apply in_map_iff; exists (n, s); split; [reflexivity|apply in_common]|].
      + split; [exact Is|]. exists t. apply (dget_iff _ _ _ (wf_names _ Wt)), It.
      + apply in_app_iff. right. unfold kitchen_of, tgt_of. cbn [fst snd]. rewrite (proj2 (dget_iff _ _ _ (wf_names _ Wt)) It). apply alter1_in. split; [reflexivity|].
        intros Z. rewrite Z in R. destruct R.
    - apply (S n c). exists (stable_of s). unfold server_of. rewrite (proj2 (dget_iff _ _ _ (wf_names _ Wf)) Is). split; [reflexivity|]. cbn [st_cols stable_of].
      apply in_map_iff. exists x. split; [exact Nc|]. eapply in_dvals; eauto.
  Qed.
End Props.
Print Assumptions C99_same_run_partial.
Print Assumptions C99_reaches_target_partial.
Print Assumptions C99_respelled.

(** ** Instances *)
Definition spellingb (l : list string) : bool := forallb (fun a => forallb (fun b => negb (same_word a b) || String.eqb a b) l) l.
Definition alikeb (from to : tables) : bool :=
  forallb (fun n => spellingb (column_names from n +++ column_names to n) && spellingb (index_names from n +++ index_names to n) && spellingb (fk_names from n +++ fk_names to n))
    (dkeys from +++ dkeys to).
Lemma spellingb_ok l : spellingb l = true -> one_spelling l.
Proof.
  intros H a b Ia Ib E. unfold spellingb in H. rewrite forallb_forall in H. specialize (H a Ia). rewrite forallb_forall in H. specialize (H b Ib).
  unfold same_word in H. rewrite E, String.eqb_refl in H. apply String.eqb_eq, H.
Qed.
Lemma names_none {V} (f : table -> dict string V) name d n : ~ In n (dkeys d) -> names_at f name d n = [].
Proof. intros N. unfold names_at. apply dget_none in N. rewrite N. reflexivity. Qed.
Lemma alikeb_ok from to : alikeb from to = true -> spelled_alike from to.
Proof.
  intros H n. destruct (in_dec string_dec n (dkeys from +++ dkeys to)) as [I|N].
  - unfold alikeb in H. rewrite forallb_forall in H. specialize (H n I). rewrite !andb_true_iff in H. destruct H as [[H1 H2] H3]. auto using spellingb_ok.
  - rewrite in_app_iff in N. unfold column_names, index_names, fk_names. rewrite !(names_none _ _ from), !(names_none _ _ to) by tauto. repeat split; intros a b [].
Qed.

(** The plan of PropsPlan.v: tables made, altered and dropped, foreign keys dropped and added again. *)
Example ex_C99_same : plannable live_db file_db /\ spelled_alike live_db file_db /\ plan_tables false file_db (Some live_db) = Ok live_plan
  /\ 4 < List.length live_plan.
Proof. split; [exact ex_plannable|]. split; [apply alikeb_ok; vm_compute; reflexivity|]. split; [apply ex_plan|]. vm_compute. lia. Qed.

Definition person (name : string) : string :=
  "CREATE TABLE `people` (`id` INT(10) NOT NULL AUTO_INCREMENT, `" ++ name ++ "` VARCHAR(80) NOT NULL DEFAULT '', PRIMARY KEY (`id`));".
Definition person_t (name : string) : table := tbl "people" [id_col; varchar_col name "80"] [primary_key ["id"]] [].
Example ex_C99_respelled : exists ops s t x x',
  wf_tables (db [person_t "name"]) /\ wf_tables (db [person_t "Name"]) /\ plan_tables false (db [person_t "Name"]) (Some (db [person_t "name"])) = Ok ops
  /\ stored_for (server_of (db [person_t "name"])) (filled before_v (db [person_t "name"]))
  /\ In ("people", s) (db [person_t "name"]) /\ In ("people", t) (db [person_t "Name"]) /\ In x (dvals (t_columns s)) /\ In x' (dvals (t_columns t))
  /\ c_name x = "name" /\ c_name x' = "Name" /\ lower "name" = lower "Name"
  /\ ~ column_of (db [person_t "Name"]) "people" "name" /\ ~ column_of (db [person_t "name"]) "people" "Name".
Proof.
  found (plan_tables false (db [person_t "Name"]) (Some (db [person_t "name"]))). exists (person_t "name"), (person_t "Name"), (varchar_col "name" "80"), (varchar_col "Name" "80").
  assert (W : wf_tables (db [person_t "name"])) by (apply wf_tablesb_ok; reflexivity).
  split; [exact W|]. split; [apply wf_tablesb_ok; reflexivity|]. split; [by_vm|]. split; [apply filled_stored, W|].
  split; [left; reflexivity|]. split; [left; reflexivity|]. split; [cbn; tauto|]. split; [cbn; tauto|]. repeat (split; [reflexivity|]).
  split; intros (u & [[= <-]|[]] & I); cbn in I; intuition discriminate.
Qed.

(** [check] accepts a file that has two columns MySQL cannot tell apart, and a file that spells a
    column otherwise than the server: then the plan drops the column although it is the same for the
    server. *)
Definition twins : string := "CREATE TABLE `t` (`id` INT(10) NOT NULL AUTO_INCREMENT, `a` INT(10) NOT NULL, `A` INT(10) NOT NULL, PRIMARY KEY (`id`));".
Theorem C99_refuted : forall FO : FloatOracle,
  (exists b ops, file_database [("t.sql", twins)] = Ok b /\ snd (db_errors b) = Ok [] /\ plan_tables false (db_tables b) (Some []) = Ok ops
     /\ wf_tables (db_tables b) /\ loose_all same_word ops (server_of []) = None /\ exec_all ops (server_of []) <> None)
  /\ exists b live ops, file_database [("people.sql", person "Name")] = Ok b /\ snd (db_errors b) = Ok []
     /\ rmap db_tables (live_database [person "name"]) = Ok live /\ plan_tables false (db_tables b) (Some live) = Ok ops
     /\ map op_str ops = ["ALTER TABLE `people` ADD `Name` VARCHAR(80) NOT NULL DEFAULT '' AFTER `id`, DROP name;"].
Proof.
  intros FO. split.
  - found (file_database [("t.sql", twins)]). match goal with |- context [snd (db_errors ?b)] => found (plan_tables false (db_tables b) (Some [])) end.
    split; [by_vm|]. split; [vm_compute; reflexivity|]. split; [by_vm|]. split; [apply wf_tablesb_ok; vm_compute; reflexivity|]. split; [vm_compute; reflexivity|].
    intros H. vm_compute in H. discriminate.
  - found (file_database [("people.sql", person "Name")]). found (rmap db_tables (live_database [person "name"])).
    match goal with |- context [plan_tables false (db_tables ?b) (Some ?l)] => found (plan_tables false (db_tables b) (Some l)) end.
    split; [by_vm|]. split; [vm_compute; reflexivity|]. split; [by_vm|]. split; [by_vm|]. vm_compute. reflexivity.
Qed.
Print Assumptions C99_refuted.
