(** C124: foreign keys of more than one column. *)
From Verif Require Import Samples StoredFacts RoundTrail PropsParse PropsRound PropsWrite PropsTrail.

(** Full statement: a foreign key of more than one column is read as such, or [check] reports it.  False: [check] is content, and
    the table that the server has is dropped.  The text is read as three columns, CONSTRAINT of the type lines, FOREIGN of the
    type KEY and REFERENCES of the type shops; without CONSTRAINT lines as the last two. *)
Definition pair_shops : string := "CREATE TABLE shops (id INT NOT NULL, part INT NOT NULL, PRIMARY KEY (id, part));".
Definition pair_lines (named : string) : string :=
  "CREATE TABLE shop_lines (id INT NOT NULL, part INT NOT NULL, PRIMARY KEY (id), " ++ named ++ "FOREIGN KEY (id, part) REFERENCES shops (id, part));".
Definition pair_live : list string :=
  ["CREATE TABLE `shops` (
  `id` int NOT NULL,
  `part` int NOT NULL,
  PRIMARY KEY (`id`,`part`)
) ENGINE=InnoDB DEFAULT CHARSET=utf8"; "CREATE TABLE `shop_lines` (
  `id` int NOT NULL,
  `part` int NOT NULL,
  PRIMARY KEY (`id`)
) ENGINE=InnoDB DEFAULT CHARSET=utf8"].
Theorem C124_refuted : forall FO : FloatOracle, forall named, named = "" \/ named = "CONSTRAINT lines " -> exists b live ops,
  file_database [("lines.sql", pair_lines named); ("shops.sql", pair_shops)] = Ok b /\ snd (db_errors b) = Ok [] /\ map fst (d_tables b) = ["shops"]
  /\ live_database pair_live = Ok live
  /\ snd (build_commands false b (Ok (db_tables live)) (fun _ => Ok [])) = Ok ops
  /\ map op_str ops = ["SET FOREIGN_KEY_CHECKS=0;"; "DROP TABLE shop_lines;"; "SET FOREIGN_KEY_CHECKS=1;"].
Proof.
  intros FO named [-> | ->].
  - found (file_database [("lines.sql", pair_lines ""); ("shops.sql", pair_shops)]). found (live_database pair_live).
    eexists. split; [by_vm|]. split; [by_vm|]. split; [by_vm|]. split; [by_vm|]. split; [vm_compute; reflexivity|]. vm_compute. auto.
  - found (file_database [("lines.sql", pair_lines "CONSTRAINT lines "); ("shops.sql", pair_shops)]). found (live_database pair_live).
    eexists. split; [by_vm|]. split; [by_vm|]. split; [by_vm|]. split; [by_vm|]. split; [vm_compute; reflexivity|]. vm_compute. auto.
Qed.
Print Assumptions C124_refuted.
(** With back-quotes around the name it is reported. *)
Example ex_C124_quoted : forall FO : FloatOracle, exists b es,
  file_database [("lines.sql", pair_lines "CONSTRAINT `lines` "); ("shops.sql", pair_shops)] = Ok b /\ snd (db_errors b) = Ok es
  /\ In "Unrecognized MySQL command: CONSTRAINT `lines` FOREIGN KEY (id, part) REFERENCES shops (id, part)); in file lines.sql" es.
Proof.
  intros FO. found (file_database [("lines.sql", pair_lines "CONSTRAINT `lines` "); ("shops.sql", pair_shops)]). eexists.
  split; [by_vm|]. split; [vm_compute; reflexivity|]. left. reflexivity.
Qed.
