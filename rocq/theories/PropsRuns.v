(** C85, C86: a database that is never in sync for the tool. *)
From Verif Require Import RowFacts SpecRows SpecLive PropsRows Samples RoundRows StoredFacts DiffMore PlanMore PropsPlan AgainFacts PropsCommand PropsLive PropsRound PropsWrite PropsCreate PropsMany CliFacts PropsCli PropsSeen.
From Verif Require Import PropsAgain.
From Coq Require Import Permutation.

(** The files give a display width, a server of MySQL 8 does not show it; a foreign key uses the column. *)
Definition members (w : length_form) : tmeaning :=
  mkTMeaning "members" [mkMeaning "id" KNumeric "INT" w false false None true "" ""; mkMeaning "boss" KNumeric "INT" w false true None false "" ""]
    [primary_key ["id"]; key "boss" ["boss"]] [mkConstraint "boss_fk" "boss" "members" "id" "CASCADE" "RESTRICT" [] []] [].
Definition members_text : string := show_create quiet0 (members (OneNumber "10")) ++ ";".
Definition members_report (n : string) : string := show_create quiet0 (members NoLength).
Definition members_shop : world :=
  site_world "/srv/app/sql" ["members.sql"] [("/srv/app/sql/members.sql", members_text)]
    [("SHOW TABLES", listing ["members"]); definition "members" (members_report "members")].
Definition members_plan : list string :=
  ["SET FOREIGN_KEY_CHECKS=0;"; "ALTER TABLE `members` DROP FOREIGN KEY `boss_fk`;";
   "ALTER TABLE `members` ADD CONSTRAINT `boss_fk` FOREIGN KEY (`boss`) REFERENCES `members` (`id`) ON DELETE CASCADE ON UPDATE RESTRICT;";
   "SET FOREIGN_KEY_CHECKS=1;"].

Lemma members_run (FO : FloatOracle) : reads_from members_shop "mygrate.conf" [("/srv/app/sql/members.sql", members_text)]
  /\ exit_status (run_check members_shop "mygrate.conf") = 0
  /\ run_out (run_plan members_shop false "mygrate.conf") = [join new_line members_plan].
Proof. split; [exists "/srv/app/sql"; split|split]; vm_compute; reflexivity. Qed.

Lemma members_plain w : w = NoLength \/ w = OneNumber "10" -> plain_table (members w).
Proof.
  intros W. constructor; [constructor; try (cbn; lia); repeat constructor; cbn; intuition discriminate|apply clean_nameb; reflexivity| | | |constructor].
  - plain_all; destruct W as [->| ->]; plain_mcol.
  - plain_all; (constructor; [split; [discriminate|plain_all; apply clean_nameb; reflexivity]|]); first [reflexivity|apply clean_nameb; reflexivity].
  - plain_all. constructor; [repeat split; try discriminate; try reflexivity; apply undashed; reflexivity|cbn; tauto].
Qed.
Lemma members_reported {FO : FloatOracle} : reported_table (members (OneNumber "10")) (members NoLength).
Proof.
  constructor; [reflexivity| |split; intros x I; exists x; repeat split; exact I|split; intros x I; exists x; repeat split; exact I].
  repeat (apply Forall2_cons || apply Forall2_nil); (apply reported_as; try reflexivity; try (left; reflexivity); [right; cbn; tauto|left; split; reflexivity]).
Qed.
Lemma members_serves : serves members_shop site_creds ["members"] members_report (fun _ => Ok []).
Proof.
  constructor; [reflexivity| | |].
  - intros qs _. eexists. split; reflexivity.
  - intros qs n _ [<-|[]]. eexists _, _, _. repeat split.
  - intros qs n _. reflexivity.
Qed.

(** All hypotheses of [C85_in_sync_partial] but [settled_fks]: check is content, and the server shows
    what MySQL 8 makes of the file.  Still a foreign key is dropped and added. *)
Theorem C85_refuted : forall FO : FloatOracle, exists w config c srcs Ts Ts' text,
  reads_from w config srcs /\ Forall2 (fun src T => source_of T true (snd src)) srcs Ts
  /\ exit_status (run_check w config) = 0
  /\ driver_credentials (w_loads w) (w_file w) (w_cwd w) (Some config) = Ok c
  /\ serves w c (map tm_name Ts') text (fun _ => Ok []) /\ (forall T, In T Ts' -> text (tm_name T) = show_create quiet0 T)
  /\ Forall plain_table Ts' /\ matched reported_table Ts Ts'
  /\ run_out (run_plan w false config) = [join new_line members_plan].
Proof.
  intros FO. destruct (members_run FO) as (L & Ck & O). exists members_shop, "mygrate.conf", site_creds. do 4 eexists.
  split; [exact L|]. split.
  { repeat (apply Forall2_cons || apply Forall2_nil). eexists. split; [apply (show_create_semi quiet0), members_plain; right; reflexivity|apply relaid_same]. }
  split; [exact Ck|]. split; [vm_compute; reflexivity|]. split; [apply (members_serves : serves _ _ (map tm_name [members NoLength]) _ _)|].
  split; [intros T [<-|[]]; reflexivity|]. split; [apply Forall_cons; [apply members_plain; left; reflexivity|apply Forall_nil]|]. split; [|exact O].
  split; intros T [<-|[]]; eexists; (split; [left; reflexivity|apply members_reported]).
Qed.

Definition members_live : database := Eval vm_compute in match live_database [members_report "members"] with Ok b => b | Raise _ => empty_database end.
Definition members_ops : list op := Eval vm_compute in match file_database [("/srv/app/sql/members.sql", members_text)] with
  | Ok b => match snd (build_commands false b (Ok (db_tables members_live)) (fun n => Ok [])) with Ok l => l | Raise _ => [] end
  | Raise _ => []
  end.
Definition members_held : stable := Eval vm_compute in match exec_all members_ops (server_of (db_tables members_live)) with Some s => match s "members" with Some st => st | None => nothing_held end | None => nothing_held end.
Definition members_between : stable := Eval vm_compute in match exec_all (firstn 2 members_ops) (server_of (db_tables members_live)) with Some s => match s "members" with Some st => st | None => nothing_held end | None => nothing_held end.
Definition members_after : server := supd (supd (server_of (db_tables members_live)) "members" (Some members_between)) "members" (Some members_held).

(** The statements run and leave the server as it was: every run prints them again. *)
Theorem C86_refuted : forall FO : FloatOracle, exists w config c srcs Ts text live ops s1,
  reads_from w config srcs /\ exit_status (run_check w config) = 0
  /\ driver_credentials (w_loads w) (w_file w) (w_cwd w) (Some config) = Ok c
  /\ serves w c (map tm_name Ts) text (fun _ => Ok []) /\ (forall T, In T Ts -> text (tm_name T) = show_create quiet0 T)
  /\ Forall plain_table Ts /\ live_database (map (show_create quiet0) Ts) = Ok live
  /\ run_out (run_plan w false config) = [join new_line (map op_str ops)]
  /\ exec_all ops (server_of (db_tables live)) = Some s1
  /\ shows (server_of (db_tables live)) s1 Ts /\ ops <> [].
Proof.
  intros FO. destruct (members_run FO) as (L & Ck & O). exists members_shop, "mygrate.conf", site_creds. eexists. exists [members NoLength]. eexists.
  exists members_live, members_ops, members_after.
  split; [exact L|]. split; [exact Ck|]. split; [vm_compute; reflexivity|]. split; [exact members_serves|].
  split; [intros T [<-|[]]; reflexivity|]. split; [apply Forall_cons; [apply members_plain; left; reflexivity|apply Forall_nil]|].
  split; [vm_compute; reflexivity|]. split; [exact O|]. split; [reflexivity|]. split; [|discriminate].
  split.
  - intros n Hn. left. destruct (String.eqb_spec n "members") as [->|N]; [reflexivity|]. exfalso. apply Hn. unfold members_after, supd.
    rewrite (proj2 (String.eqb_neq n "members") N). unfold server_of. replace (dget n _) with (@None table); [reflexivity|]. cbn. rewrite (proj2 (String.eqb_neq n "members") N). reflexivity.
  - intros T [<-|[]]. exists members_held. split; [reflexivity|]. constructor.
    + repeat (apply Forall2_cons || apply Forall2_nil); apply shown_exactly; (constructor; try reflexivity; apply has_none; reflexivity).
    + exists (List.combine (st_keys members_held) (tm_keys (members NoLength))). split; [apply Permutation_refl|]. split; [apply Permutation_refl|]. intros a b [[= <- <-]|[[= <- <-]|[]]]; repeat split.
    + exists (List.combine (st_fks members_held) (tm_fks (members NoLength))). split; [apply Permutation_refl|]. split; [apply Permutation_refl|]. intros a b [[= <- <-]|[]]; repeat split.
Qed.

Print Assumptions C85_refuted.
Print Assumptions C86_refuted.
