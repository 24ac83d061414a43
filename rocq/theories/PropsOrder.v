(** C93, C94: the order of the files, and what is accepted. *)
From Verif Require Import FileFacts Samples PropsParse.
From Coq Require Import Permutation.

Section Props.
  Context {FO : FloatOracle}.

  (** ** C93 *)
  (** Full statement: for any files.  False when two of them define the same table or insert into the
      same table, see [C93_refuted] and [C93_refuted_rows]. *)
  Theorem C93_file_order_partial : forall srcs srcs' b from,
    ForallOrdPairs apart srcs -> Permutation srcs srcs' -> file_database srcs = Ok b ->
    wf_tables (db_tables b) -> wf_tables from ->
    exists b', file_database srcs' = Ok b' /\ Permutation (db_tables b) (db_tables b')
      /\ (forall disable ops, plan_tables disable (db_tables b) (Some from) = Ok ops ->
            exists ops', plan_tables disable (db_tables b') (Some from) = Ok ops' /\ Permutation ops ops'
              /\ (forall n, filter (concerns n) ops = filter (concerns n) ops')
              /\ (forall s, exec_all ops (server_of from) = Some s ->
                    exists s', exec_all ops' (server_of from) = Some s' /\ forall n, s n = s' n))
      /\ (forall ops, plan_rows (db_tables b) (Some from) = Ok ops ->
            exists ops', plan_rows (db_tables b') (Some from) = Ok ops' /\ Permutation ops ops'
              /\ forall n, filter (concerns n) ops = filter (concerns n) ops').
  Proof.
    intros srcs srcs' b from A P E Wt Wf. destruct (files_order srcs srcs' b (apart_parted _ A) P E) as (b' & E' & Pt & _).
    exists b'. split; [exact E'|]. split; [exact Pt|]. split.
    - intros disable ops. exact (plan_order from (db_tables b) from (db_tables b') Wf Wt (Permutation_refl _) Pt disable ops).
    - intros ops. exact (rows_order from (db_tables b) from (db_tables b') Wf Wt (Permutation_refl _) Pt ops).
  Qed.
  (** The same for being accepted: it does not depend on the order either. *)
  Theorem C93_accepted_order_partial : forall srcs srcs' b b' rows,
    ForallOrdPairs apart srcs -> Permutation srcs srcs' -> file_database srcs = Ok b -> file_database srcs' = Ok b' ->
    NoDup (dkeys (db_tables b)) -> (forall n t, In (n, t) (db_tables b) -> kept t) ->
    d_rows b = Some rows -> (forall n ws r, In (n, ws) rows -> In r ws -> listed r) ->
    (snd (db_errors b) = Ok [] <-> snd (db_errors b') = Ok []).
  Proof.
    intros srcs srcs' b b' rows A P E E2 N K Er X. destruct (files_order srcs srcs' b (apart_parted _ A) P E) as (b2 & E' & Pt & Pe & U & U' & D & D' & ED & ED' & ND & PD).
    rewrite E2 in E'. injection E' as <-. rewrite Er in ED. injection ED as <-.
    rewrite (unasked_new b U), (unasked_new b' U'), Er, ED'. split.
    - apply quiet_order; assumption.
    - apply quiet_order; try (apply Permutation_sym; assumption).
      + refine (Permutation_NoDup _ N). apply Permutation_map, Pt.
      + intros n t I. apply (K n t). apply (Permutation_in _ (Permutation_sym Pt)), I.
      + intros n ws r I. apply (X n ws r). apply (Permutation_in _ (Permutation_sym PD)), I.
  Qed.
  (** For files nothing else is needed: what they contain is read into good order.  The answer of
      [check] too does not depend on the order of the files. *)
  Theorem C93_files_order_partial : forall srcs srcs' b from,
    ForallOrdPairs apart srcs -> Permutation srcs srcs' -> file_database srcs = Ok b ->
    (forall n t, In (n, t) (db_tables b) -> List.length (filter is_primary (dvals (t_indexes t))) <= 1) -> wf_tables from ->
    exists b', file_database srcs' = Ok b' /\ Permutation (db_tables b) (db_tables b')
      /\ (forall disable ops, plan_tables disable (db_tables b) (Some from) = Ok ops ->
            exists ops', plan_tables disable (db_tables b') (Some from) = Ok ops' /\ Permutation ops ops'
              /\ (forall n, filter (concerns n) ops = filter (concerns n) ops')
              /\ (forall s, exec_all ops (server_of from) = Some s ->
                    exists s', exec_all ops' (server_of from) = Some s' /\ forall n, s n = s' n))
      /\ (forall ops, plan_rows (db_tables b) (Some from) = Ok ops ->
            exists ops', plan_rows (db_tables b') (Some from) = Ok ops' /\ Permutation ops ops'
              /\ forall n, filter (concerns n) ops = filter (concerns n) ops').
  Proof.
    intros srcs srcs' b from A P E O Wf. apply (C93_file_order_partial srcs srcs' b from A P E); [|exact Wf].
    destruct (file_good srcs b (proj1 (apart_parted _ A)) E) as (_ & N & T & _). split; [exact N|].
    intros n t I. destruct (T n t I) as [T1 T2]. split; [exact T1|]. apply tidy_wf; [exact T2|apply (O n t I)].
  Qed.
  Theorem C93_files_accepted_order_partial : forall srcs srcs' b b',
    ForallOrdPairs apart srcs -> Permutation srcs srcs' -> file_database srcs = Ok b -> file_database srcs' = Ok b' ->
    (snd (db_errors b) = Ok [] <-> snd (db_errors b') = Ok []).
  Proof.
    intros srcs srcs' b b' A P E E'. destruct (file_good srcs b (proj1 (apart_parted _ A)) E) as (_ & N & T & D & ED & L).
    apply (C93_accepted_order_partial srcs srcs' b b' D A P E E' N); [|exact ED|exact L]. intros n t I. apply tidy_kept, (T n t I).
  Qed.

  (** ** C94 *)
  (** Exactly what is accepted. *)
  Theorem C94_accepted_exact : forall ts rows ge gw,
    NoDup (dkeys ts) -> (forall n t, In (n, t) ts -> kept t /\ NoDup (dkeys (t_columns t)) /\ NoDup (dkeys (t_indexes t))) ->
    (forall n ws r, In (n, ws) rows -> In r ws -> listed r) ->
    (snd (db_errors (new_database ts (Some rows) ge gw)) = Ok [] <-> accepted ts rows ge).
  Proof. exact accepted_iff. Qed.
  (** Full statement: without the condition on DATE and TIME columns.  False, see [C94_refuted]. *)
  Theorem C94_faultless_partial : forall ts rows ge gw,
    NoDup (dkeys ts) -> (forall n t, In (n, t) ts -> kept t /\ NoDup (dkeys (t_columns t)) /\ NoDup (dkeys (t_indexes t))) ->
    (forall n ws r, In (n, ws) rows -> In r ws -> listed r) ->
    (forall n t m c, In (n, t) ts -> In (m, c) (t_columns t) -> c_kind c <> KDate) ->
    (snd (db_errors (new_database ts (Some rows) ge gw)) = Ok [] <-> faultless ts rows ge).
  Proof.
    intros ts rows ge gw N W X D. rewrite (accepted_iff ts rows ge gw N W X). split.
    - intros [A1 A2 A3 A4 A5]. constructor; auto. intros n t I. destruct (A2 n t I) as [H|(before & d & after & E & Ed & _)]; [exact H|]. exfalso.
      assert (J : In d (dvals (t_columns t))) by (rewrite E; apply in_app_iff; right; left; reflexivity).
      apply dvals_in in J as (m & J). apply (D n t m d I J Ed).
    - intros [A1 A2 A3 A4 A5]. constructor; auto. intros n t I. left. apply (A2 n t I).
  Qed.
  (** What is faultless is accepted, with or without such columns. *)
  Theorem C94_faultless_accepted : forall ts rows ge gw,
    NoDup (dkeys ts) -> (forall n t, In (n, t) ts -> kept t /\ NoDup (dkeys (t_columns t)) /\ NoDup (dkeys (t_indexes t))) ->
    (forall n ws r, In (n, ws) rows -> In r ws -> listed r) ->
    faultless ts rows ge -> snd (db_errors (new_database ts (Some rows) ge gw)) = Ok [].
  Proof. intros ts rows ge gw N W X [A1 A2 A3 A4 A5]. apply (accepted_iff ts rows ge gw N W X). constructor; auto. intros n t I. left. apply (A2 n t I). Qed.
  (** The same for files: no condition but that no table is defined twice.  [check] answers that all
      is well exactly for these. *)
  Theorem C94_files_exact : forall srcs b, ForallOrdPairs apart_tables srcs -> file_database srcs = Ok b ->
    exists rows, d_rows b = Some rows
      /\ (snd (db_errors b) = Ok [] <-> accepted (db_tables b) rows (d_global_errors b))
      /\ (forall report good, snd (check_command b) = Ok (report, good) ->
            (good = true <-> accepted (db_tables b) rows (d_global_errors b)) /\ (good = true <-> report = [])).
  Proof.
    intros srcs b A E. destruct (file_good srcs b (apart_once _ A) E) as (U & N & T & D & ED & L). exists D. split; [exact ED|].
    assert (Q : snd (db_errors b) = Ok [] <-> accepted (db_tables b) D (d_global_errors b)).
    { rewrite (unasked_new b U) at 1. rewrite ED. apply C94_accepted_exact; [exact N| |exact L].
      intros n t I. destruct (T n t I) as [_ T2]. split; [apply tidy_kept, T2|]. split; [apply (td_cols _ T2)|apply (td_keys _ T2)]. }
    split; [exact Q|]. intros report good H. rewrite <- Q. unfold check_command in H. destruct (db_errors b) as [b1 [errs|e]]; [|discriminate].
    destruct (db_warnings b1) as [b2 [w|e]]; [|discriminate]. injection H as <- <-. cbn [snd].
    destruct errs as [|x errs]; cbn [list_is_nil]; split; split; try reflexivity; discriminate.
  Qed.
  (** Files without DATE and TIME columns are accepted exactly when they are faultless. *)
  Theorem C94_files_faultless_partial : forall srcs b, ForallOrdPairs apart_tables srcs -> file_database srcs = Ok b ->
    (forall n t m c, In (n, t) (db_tables b) -> In (m, c) (t_columns t) -> c_kind c <> KDate) ->
    exists rows, d_rows b = Some rows /\ (snd (db_errors b) = Ok [] <-> faultless (db_tables b) rows (d_global_errors b)).
  Proof.
    intros srcs b A E K. destruct (file_good srcs b (apart_once _ A) E) as (U & N & T & D & ED & L). exists D. split; [exact ED|].
    rewrite (unasked_new b U) at 1. rewrite ED. apply C94_faultless_partial; [exact N| |exact L|exact K].
    intros n t I. destruct (T n t I) as [_ T2]. split; [apply tidy_kept, T2|]. split; [apply (td_cols _ T2)|apply (td_keys _ T2)].
  Qed.
End Props.

(** ** Instances *)

Definition roles_file : source := ("roles.sql", "CREATE TABLE `roles` (`id` INT(10) UNSIGNED NOT NULL, `name` VARCHAR(30), PRIMARY KEY (`id`));").
Definition users_file : source :=
  ("users.sql", "CREATE TABLE `users` (`id` INT(10) UNSIGNED NOT NULL, `role_id` INT(10) UNSIGNED, PRIMARY KEY (`id`), KEY `r` (`role_id`), CONSTRAINT `r_fk` FOREIGN KEY (`role_id`) REFERENCES `roles` (`id`));").
Definition data_file : source := ("data.sql", "INSERT INTO `roles` (`id`, `name`) VALUES (1, 'admin'), (2, 'guest'); INSERT INTO `users` (`id`, `role_id`) VALUES (7, 1);").
Definition some_files : list source := [data_file; users_file; roles_file].

Lemma some_apart : ForallOrdPairs apart some_files.
Proof.
  assert (D : dkeys (rd_tables (reader_of data_file)) = [] /\ dkeys (rd_rows (reader_of data_file)) = ["roles"; "users"]) by (split; by_vm).
  assert (U : dkeys (rd_tables (reader_of users_file)) = ["users"] /\ dkeys (rd_rows (reader_of users_file)) = []) by (split; by_vm).
  assert (R : dkeys (rd_tables (reader_of roles_file)) = ["roles"] /\ dkeys (rd_rows (reader_of roles_file)) = []) by (split; by_vm).
  assert (A : forall s s' t t' r r', dkeys (rd_tables (reader_of s)) = t /\ dkeys (rd_rows (reader_of s)) = r ->
    dkeys (rd_tables (reader_of s')) = t' /\ dkeys (rd_rows (reader_of s')) = r' ->
    (forall n, In n t -> ~ In n t') -> (forall n, In n r -> ~ In n r') -> apart s s').
  { intros s s' t t' r r' [<- <-] [<- <-] H1 H2. split; assumption. }
  unfold some_files. repeat constructor; eapply A; try eassumption; cbn [In]; intros n H1 H2; intuition congruence.
Qed.

Example ex_C93 : ForallOrdPairs apart some_files /\ Permutation some_files (rev some_files) /\ wf_tables []
  /\ exists b b' rows, file_database some_files = Ok b /\ file_database (rev some_files) = Ok b'
     /\ wf_tables (db_tables b) /\ (forall n t, In (n, t) (db_tables b) -> kept t)
     /\ d_rows b = Some rows /\ (forall n ws r, In (n, ws) rows -> In r ws -> listed r)
     /\ snd (db_errors b) = Ok [] /\ db_tables b <> db_tables b' /\ exists ops, plan_tables false (db_tables b) (Some []) = Ok ops /\ List.length ops = 2
     /\ exists rops, plan_rows (db_tables b) (Some []) = Ok rops /\ List.length rops = 3.
Proof.
  split; [exact some_apart|]. split; [apply Permutation_rev|]. split; [split; [constructor|intros ? ? []]|].
  found (file_database some_files). found (file_database (rev some_files)). eexists. split; [by_vm|]. split; [by_vm|].
  split; [apply wf_tablesb_ok; by_vm|]. split.
  { intros n t H. apply keptb_ok. revert n t H. match goal with |- forall n t, In (n, t) ?l -> _ => assert (X : forallb (fun p => keptb (snd p)) l = true) by by_vm end.
    rewrite forallb_forall in X. intros n t H. apply (X (n, t) H). }
  split; [reflexivity|]. split.
  { intros n ws r [[= <- <-]|[[= <- <-]|[]]] [<-|[]]; left; discriminate. }
  split; [by_vm|]. split; [intros E; vm_compute in E; discriminate|].
  eexists. split; [vm_compute; reflexivity|]. split; [reflexivity|]. eexists. split; [vm_compute; reflexivity|reflexivity].
Qed.

(** Two files define the same table: the one read last counts, and nothing is reported. *)
Definition other_roles : source := ("roles_old.sql", "CREATE TABLE `roles` (`id` INT(10) UNSIGNED NOT NULL, PRIMARY KEY (`id`));").
Theorem C93_refuted : forall FO : FloatOracle, exists b b' p p', file_database [roles_file; other_roles] = Ok b /\ file_database [other_roles; roles_file] = Ok b'
  /\ snd (db_errors b) = Ok [] /\ snd (db_errors b') = Ok []
  /\ plan_tables false (db_tables b) (Some []) = Ok p /\ plan_tables false (db_tables b') (Some []) = Ok p'
  /\ map op_str p = ["CREATE TABLE `roles` (`id` INT(10) UNSIGNED NOT NULL," ++ nl ++ "PRIMARY KEY (`id`));"]
  /\ map op_str p' = ["CREATE TABLE `roles` (`id` INT(10) UNSIGNED NOT NULL," ++ nl ++ "`name` VARCHAR(30)," ++ nl ++ "PRIMARY KEY (`id`));"].
Proof.
  intros FO. found (file_database [roles_file; other_roles]). found (file_database [other_roles; roles_file]). do 2 eexists.
  split; [by_vm|]. split; [by_vm|]. split; [by_vm|]. split; [by_vm|]. split; [lazy; reflexivity|]. split; [lazy; reflexivity|]. split; vm_compute; reflexivity.
Qed.
(** Two files insert a row with the same id: the first counts. *)
Definition rows_1 : source := ("a.sql", "INSERT INTO `roles` (`id`, `name`) VALUES (1, 'admin');").
Definition rows_2 : source := ("b.sql", "INSERT INTO `roles` (`id`, `name`) VALUES (1, 'guest');").
Theorem C93_refuted_rows : forall FO : FloatOracle, exists b b' p p', file_database [roles_file; rows_1; rows_2] = Ok b /\ file_database [roles_file; rows_2; rows_1] = Ok b'
  /\ snd (db_errors b) = Ok [] /\ snd (db_errors b') = Ok []
  /\ plan_rows (db_tables b) (Some []) = Ok p /\ plan_rows (db_tables b') (Some []) = Ok p'
  /\ map op_str p = ["INSERT INTO `roles` (`id`, `name`) VALUES ('1', 'admin');"]
  /\ map op_str p' = ["INSERT INTO `roles` (`id`, `name`) VALUES ('1', 'guest');"].
Proof.
  intros FO. found (file_database [roles_file; rows_1; rows_2]). found (file_database [roles_file; rows_2; rows_1]). do 2 eexists.
  split; [by_vm|]. split; [by_vm|]. split; [by_vm|]. split; [by_vm|]. split; [lazy; reflexivity|]. split; [lazy; reflexivity|]. split; vm_compute; reflexivity.
Qed.

(** C94: the same files have no fault; and a table with a DATE column that is accepted with all its faults. *)
Example ex_C94 : exists b rows, file_database some_files = Ok b /\ d_rows b = Some rows /\ NoDup (dkeys (db_tables b))
  /\ (forall n t, In (n, t) (db_tables b) -> kept t /\ NoDup (dkeys (t_columns t)) /\ NoDup (dkeys (t_indexes t)))
  /\ (forall n ws r, In (n, ws) rows -> In r ws -> listed r)
  /\ (forall n t m c, In (n, t) (db_tables b) -> In (m, c) (t_columns t) -> c_kind c <> KDate)
  /\ faultless (db_tables b) rows [] /\ rows <> [].
Proof.
  destruct ex_C93 as (_ & _ & _ & b & b' & rows & E & _ & W & K & Er & X & Q & _). exists b, rows. split; [exact E|]. split; [exact Er|]. split; [apply W|].
  assert (W' : forall n t, In (n, t) (db_tables b) -> kept t /\ NoDup (dkeys (t_columns t)) /\ NoDup (dkeys (t_indexes t))).
  { intros n t I. split; [apply (K n t I)|]. destruct (proj2 (wf_named _ W n t I)) as [A _ B _ _ _ _]. auto. }
  assert (D : forall n t m c, In (n, t) (db_tables b) -> In (m, c) (t_columns t) -> c_kind c <> KDate).
  { assert (Y : match file_database some_files with Ok x => forallb (fun p => forallb (fun q => match c_kind (snd q) with KDate => false | _ => true end) (t_columns (snd p))) (db_tables x) | Raise _ => false end = true) by by_vm.
    rewrite E in Y. rewrite forallb_forall in Y. intros n t m c I J Ek. specialize (Y _ I). cbn [snd] in Y. rewrite forallb_forall in Y. specialize (Y _ J). cbn [snd] in Y. rewrite Ek in Y. discriminate. }
  split; [exact W'|]. split; [exact X|]. split; [exact D|]. split.
  - assert (Z : match file_database some_files with Ok x => (d_global_errors x, d_global_warnings x, d_schema x, d_parsing x, d_swarn x, d_pwarn x) | Raise _ => ([], [], None, None, None, None) end = ([], [], None, None, None, None)) by by_vm.
    rewrite E in Z. injection Z as Z1 Z2 Z3 Z4 Z5 Z6.
    destruct (files_order some_files some_files b (apart_parted _ some_apart) (Permutation_refl _) E) as (_ & _ & _ & _ & U & _).
    rewrite (unasked_new b U), Er, Z1 in Q. apply (C94_faultless_partial _ _ _ _ (wf_names _ W) W' X D) in Q. exact Q.
  - intros ->. assert (Z : match file_database some_files with Ok x => match d_rows x with Some [] => true | _ => false end | Raise _ => true end = false) by by_vm.
    rewrite E, Er in Z. discriminate.
Qed.

Example ex_C94_files : ForallOrdPairs apart_tables some_files /\ exists b, file_database some_files = Ok b
  /\ (forall n t, In (n, t) (db_tables b) -> List.length (filter is_primary (dvals (t_indexes t))) <= 1)
  /\ snd (check_command b) = Ok ([], true).
Proof.
  split.
  - assert (X : forall l, ForallOrdPairs apart l -> ForallOrdPairs apart_tables l).
    { induction 1 as [|a l F H IH]; constructor; [|exact IH]. eapply Forall_impl; [|exact F]. intros s [Y _]. exact Y. }
    apply X, some_apart.
  - destruct ex_C93 as (_ & _ & _ & b & _ & _ & E & _ & W & _). exists b. split; [exact E|]. split.
    + intros n t I. destruct (proj2 (wf_named _ W n t I)). assumption.
    + assert (Z : match file_database some_files with Ok x => snd (check_command x) | Raise e => Raise e end = Ok ([], true)) by by_vm.
      rewrite E in Z. exact Z.
Qed.

(** Two primary keys, an index and a foreign key on columns that do not exist; but the first column is a DATE. *)
Definition broken : table :=
  mkTable "broken" [("born", date_col "born"); ("name", bad_name)]
    [("a", mkIndex "a" ["nothing"] IPrimary []); ("b", mkIndex "b" ["born"] IPrimary [])] [] [] None None None false [] [] false.
Theorem C94_refuted : forall FO : FloatOracle, exists ts, NoDup (dkeys ts)
  /\ (forall n t, In (n, t) ts -> kept t /\ NoDup (dkeys (t_columns t)) /\ NoDup (dkeys (t_indexes t)))
  /\ snd (db_errors (new_database ts (Some []) [] [])) = Ok [] /\ ~ faultless ts [] [].
Proof.
  intros FO. exists [("broken", broken)]. split; [repeat constructor; cbn; tauto|]. split.
  - intros n t [[= <- <-]|[]]. split; [apply keptb_ok; reflexivity|]. split; repeat constructor; cbn; intuition congruence.
  - split; [reflexivity|]. intros [_ F _ _ _]. destruct (F "broken" broken (or_introl eq_refl)) as [S _].
    pose proof (so_one_primary _ S "a" _ "b" _ (or_introl eq_refl) (or_intror (or_introl eq_refl)) eq_refl eq_refl). discriminate.
Qed.

Print Assumptions C93_file_order_partial.
Print Assumptions C93_accepted_order_partial.
Print Assumptions C93_files_order_partial.
Print Assumptions C93_files_accepted_order_partial.
Print Assumptions C93_refuted.
Print Assumptions C93_refuted_rows.
Print Assumptions C94_accepted_exact.
Print Assumptions C94_faultless_partial.
Print Assumptions C94_faultless_accepted.
Print Assumptions C94_files_exact.
Print Assumptions C94_files_faultless_partial.
Print Assumptions C94_refuted.
