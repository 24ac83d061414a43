(** C98: a column that is declared the primary key where it is defined. *)
From Verif Require Import Facts ReadFacts SpecInline RoundInline PropsDefs InlineFacts SpecServer Samples PropsParse PropsRound PropsWrite PropsCreate StoredFacts.
From Coq Require Import Lia.

Local Opaque max_turns max_statements.

(** It is read for a column without a length, AUTO_INCREMENT, character set and collation: as the
    column, not null, and a primary key on it, whatever stands before and after it and in any layout.
    Not covered: TINYINT with a length. *)
Theorem C98_read_partial : forall n before m after opts semi s', inline_source n before m after opts semi s' -> easy m ->
  sound_table (inline_meaning n before m after opts) ->
  exists t, create_parse s' = Ok (Some t, "") /\ table_says t (inline_meaning n before m after opts)
    /\ t_global_errors t = (if semi then [] else ["Missing ending semicolon for table " ++ n])
    /\ forall file, read_sql file s' = (mkReader [(n, t)] [] [] true, Ok "").
Proof.
  intros n before m after opts semi s' (s & W & R) Ez So. destruct (inline_shape _ _ _ _ _ _ _ W) as (h & w0 & w1 & w2 & x & k & ss & ss' & Sh).
  assert (Lo : (N.of_nat (List.length opts) < 1000)%N) by apply So.
  destruct (inline_reads n before m after opts semi s h w0 w1 w2 x k ss ss' Sh Lo Ez So) as (t & P & Ts & Er).
  destruct (inline_quiet n before m after opts semi s h w0 w1 w2 x k ss ss' Sh) as [D Np].
  assert (P' : create_parse s' = Ok (Some t, "")) by (rewrite <- P; apply relaid_parse; assumption).
  exists t. split; [exact P'|]. split; [exact Ts|]. split; [exact Er|]. intros file. change n with (tm_name (inline_meaning n before m after opts)). rewrite <- (ts_name _ _ Ts).
  destruct (inline_ends n before m after opts semi s h w0 w1 w2 x k ss ss' Sh) as [B (y & c & -> & C)].
  apply read_statement; [apply (relaid_literal "create" eq_refl _ _ R B)|destruct (relaid_last y c s' C R) as [y' ->]; eauto|exact P'].
Qed.

(** With any of these the file is not read, whatever else it says: nothing of it counts, and [check] finds
    no error in it.  (What is printed about it is the subject of C102.) *)
Theorem C98_hidden : forall n before m after opts semi s', inline_source n before m after opts semi s' -> hard m ->
  (N.of_nat (List.length before + List.length after) < 998)%N -> (N.of_nat (List.length opts) < 1000)%N ->
  (forall c, In c (columns_in before +++ [m]) -> lower (m_name c) <> "primary") ->
  (exists msg, forall file, read_sql file s' = (new_reader, Raise (ValueError msg)))
  /\ forall {FO : FloatOracle} files file files', file_database (files +++ (file, s') :: files') = file_database (files +++ files').
Proof.
  intros n before m after opts semi s' (s & W & R) Hd L Lo Np. destruct (inline_shape _ _ _ _ _ _ _ W) as (h & w0 & w1 & w2 & x & k & ss & ss' & Sh).
  destruct (inline_fails n before m after opts semi s h w0 w1 w2 x k ss ss' Sh Lo Hd L Np) as (msg & P).
  destruct (inline_quiet n before m after opts semi s h w0 w1 w2 x k ss ss' Sh) as [D Nd].
  assert (P' : create_parse s' = Raise (ValueError msg)) by (rewrite <- P; apply relaid_parse; assumption).
  destruct (inline_ends n before m after opts semi s h w0 w1 w2 x k ss ss' Sh) as [B (y & c & Es & C)]. subst s.
  apply (relaid_literal "create" eq_refl _ _ R) in B. destruct (relaid_last y c s' C R) as [y' E]. destruct (begins_create s' B) as (d & q & Eq & Sd & St).
  assert (S0 : strip s' = s').
  { destruct y' as [|e y']; cbn [String.append] in E; [rewrite E; unfold strip, strip_by; cbn; rewrite C; cbn; rewrite C; reflexivity|].
    rewrite E in *. injection Eq as -> _. apply strip_ends; assumption. }
  assert (Q : forall file, read_sql file s' = (new_reader, Raise (ValueError msg))) by (intros file; apply unread_sql; rewrite S0; assumption).
  split; [eauto|]. intros FO files file files'. apply (nothing_read files file files' s' msg (Q file)).
Qed.
Print Assumptions C98_read_partial.
Print Assumptions C98_hidden.

(** ** Instances *)

Definition code_column : meaning := mkMeaning "code" KNumeric "INT" NoLength true true None false "" "".
Definition id_column : meaning := mkMeaning "id" KNumeric "INT" NoLength false false None true "" "".
Definition name_column : meaning := mkMeaning "name" KString "VARCHAR" (OneNumber "20") false true None false "" "".
Definition codes_sql : string := "create table codes (code int unsigned primary key, name VARCHAR(20));".
Definition logs_sql : string := "create table logs (name VARCHAR(20), id int not null auto_increment primary key);".
Lemma name_written : part_written (PartColumn name_column) "name VARCHAR(20)".
Proof.
  constructor. apply (written_as name_column false "VARCHAR" (OneNumber "20") false [] [] [] [] [] [] None "" "");
    try reflexivity; try (constructor; first [reflexivity|apply clean_textb; reflexivity|intros X; discriminate X]); try exact Logic.I; [apply named_column, bare_nameb; reflexivity|cbn; tauto|repeat split].
Qed.
Lemma code_written : written code_column "code int unsigned".
Proof.
  apply (written_as code_column false "int" NoLength false [IUnsigned "unsigned"] [] [] [] [] [] None "" "");
    first [reflexivity|exact Logic.I|apply named_column, bare_nameb; reflexivity|cbn; tauto|constructor; reflexivity|constructor|intros [X|X]; exfalso; apply X; reflexivity|discriminate].
Qed.
Lemma id_written : written id_column "id int not null auto_increment".
Proof.
  apply (written_as id_column false "int" NoLength false [] [INotNull "not null"] [] [IAuto "auto_increment"] [] [] None "" "");
    first [reflexivity|exact Logic.I|apply named_column, bare_nameb; reflexivity|cbn; tauto|constructor; reflexivity|constructor|intros [X|X]; exfalso; apply X; reflexivity|discriminate].
Qed.
Lemma codes_head n : clean_name n -> create_head n ("create table " ++ n).
Proof. intros N. apply (head_as n "create table" "" false); [reflexivity|left; reflexivity|exact N]. Qed.
Example ex_C98_read : inline_source "codes" [] code_column [PartColumn name_column] [] true codes_sql /\ easy code_column
  /\ sound_table (inline_meaning "codes" [] code_column [PartColumn name_column] []).
Proof.
  split; [|split; [repeat split|constructor; try (cbn; lia); repeat constructor; cbn; intuition discriminate]].
  exists codes_sql. split; [|apply relaid_same].
  apply (inline_as "codes" [] code_column [PartColumn name_column] [] true "create table codes" "" " " "" [] "code int unsigned" "primary key" ["name VARCHAR(20)"]);
    try reflexivity; try discriminate; [apply (codes_head "codes"), clean_nameb; reflexivity|constructor|apply code_written|constructor; [apply name_written|constructor]|constructor].
Qed.
Example ex_C98_hidden : inline_source "logs" [PartColumn name_column] id_column [] [] true logs_sql /\ hard id_column
  /\ forall c, In c (columns_in [PartColumn name_column] +++ [id_column]) -> lower (m_name c) <> "primary".
Proof.
  split; [|split; [left; reflexivity|intros c I; cbn in I; intuition subst; discriminate]].
  exists logs_sql. split; [|apply relaid_same].
  apply (inline_as "logs" [PartColumn name_column] id_column [] [] true "create table logs" "" " " "" ["name VARCHAR(20)"] "id int not null auto_increment" "primary key" []);
    try reflexivity; try discriminate; [apply (codes_head "logs"), clean_nameb; reflexivity|constructor; [apply name_written|constructor]|apply id_written|constructor|constructor].
Qed.

(** The usual way to declare a key that counts up, and a name as the key: [check] accepts the files, but
    no table is left of them, and against a server that has the tables the tool plans to drop them. *)
Definition tags_sql : string := "CREATE TABLE `tags` (`tag` VARCHAR(20) NOT NULL PRIMARY KEY);".
Definition logs_live : string := "CREATE TABLE `logs` (
  `name` varchar(20) DEFAULT NULL,
  `id` int(11) NOT NULL AUTO_INCREMENT,
  PRIMARY KEY (`id`)
) ENGINE=InnoDB DEFAULT CHARSET=utf8".
Definition tags_live : string := "CREATE TABLE `tags` (
  `tag` varchar(20) NOT NULL,
  PRIMARY KEY (`tag`)
) ENGINE=InnoDB DEFAULT CHARSET=utf8".
Theorem C98_refuted : forall FO : FloatOracle, exists b live ops,
  file_database [("logs.sql", logs_sql); ("tags.sql", tags_sql)] = Ok b /\ snd (db_errors b) = Ok [] /\ d_tables b = []
  /\ live_database [logs_live; tags_live] = Ok live
  /\ snd (build_commands false b (Ok (db_tables live)) (fun _ => Ok [])) = Ok ops /\ map op_str ops = ["SET FOREIGN_KEY_CHECKS=0;"; "DROP TABLE logs;"; "DROP TABLE tags;"; "SET FOREIGN_KEY_CHECKS=1;"].
Proof.
  intros FO. found (file_database [("logs.sql", logs_sql); ("tags.sql", tags_sql)]). found (live_database [logs_live; tags_live]).
  eexists. split; [by_vm|]. split; [by_vm|]. split; [by_vm|]. split; [by_vm|]. split; [vm_compute; reflexivity|]. vm_compute. auto.
Qed.
Print Assumptions C98_refuted.
