(** The tests of /repo/mygrations under formats/mysql/file_reader, tests/integration
    on the model (see Suite.v): each [Example] is one test method, statement by statement.
    Checks on literals, NOT PROOFS OF PROPERTIES. *)
From Verif Require Import Suite.

(** formats/mysql/file_reader/database_test.py line 5 *)
Example database_test_test_simple :
  let v_strings := (PList [(PStr "
            CREATE TABLE `logs` (
                `id` int(10) unsigned NOT NULL AUTO_INCREMENT,
                `message` TEXT NOT NULL,
                `traceback` text,
                PRIMARY KEY (`id`)
            ) ENGINE=InnoDB DEFAULT CHARSET=utf8;
        "); (PStr "
            CREATE TABLE `more_logs` (
                `id` int(10) unsigned NOT NULL AUTO_INCREMENT,
                `more_messages` TEXT NOT NULL,
                `traceback` text,
                PRIMARY KEY (`id`)
            ) ENGINE=InnoDB DEFAULT CHARSET=utf8;
        ")]) in
  let v_database := (p_new "FileDatabase" [v_strings] (PDict [])) in
  let k1 := is_true (p_in (PStr "logs") (p_attr "tables" v_database)) in
  let k2 := is_true (p_in (PStr "more_logs") (p_attr "tables" v_database)) in
  failing [k1; k2] = [].
Proof. vm_compute. reflexivity. Qed.

(** formats/mysql/file_reader/database_test.py line 30 *)
Example database_test_test_with_rows :
  let v_strings := (PList [(PStr "
            CREATE TABLE `logs` (
                `id` int(10) unsigned NOT NULL AUTO_INCREMENT,
                `message` TEXT NOT NULL,
                `traceback` text,
                PRIMARY KEY (`id`)
            ) ENGINE=InnoDB DEFAULT CHARSET=utf8;
        "); (PStr "
            INSERT INTO logs (id,message,traceback) VALUES (1,'hi','sup'),(2,'what','kay');
        ")]) in
  let v_database := (p_new "FileDatabase" [v_strings] (PDict [])) in
  let k1 := is_true (p_in (PStr "logs") (p_attr "tables" v_database)) in
  let v_rows := (p_attr "rows" (p_index (p_attr "tables" v_database) (PStr "logs"))) in
  let k2 := p_eq (PStr "hi") (p_index (p_index v_rows (PStr "1")) (PStr "message")) in
  let k3 := p_eq (PStr "sup") (p_index (p_index v_rows (PStr "1")) (PStr "traceback")) in
  let k4 := p_eq (PStr "what") (p_index (p_index v_rows (PStr "2")) (PStr "message")) in
  let k5 := p_eq (PStr "kay") (p_index (p_index v_rows (PStr "2")) (PStr "traceback")) in
  failing [k1; k2; k3; k4; k5] = [].
Proof. vm_compute. reflexivity. Qed.

(** formats/mysql/file_reader/database_test.py line 55 *)
Example database_test_test_keeps_errors :
  let v_strings := (PList [(PStr "
            CREATE TABLE `logs` (
                `id` int(10) unsigned NOT NULL AUTO_INCREMENT,
                `message` TEXT DEFAULT '',
                `traceback` text,
                PRIMARY KEY (`id`)
            ) ENGINE=InnoDB DEFAULT CHARSET=utf8;
        ")]) in
  let v_database := (p_new "FileDatabase" [v_strings] (PDict [])) in
  let k1 := p_eq (PNum (1)%Z) (p_len (p_attr "errors" v_database)) in
  let k2 := is_true (p_in (PStr "Column 'message' of type 'TEXT' cannot have a default in table 'logs'") (p_index (p_attr "errors" v_database) (PNum (0)%Z))) in
  failing [k1; k2] = [].
Proof. vm_compute. reflexivity. Qed.

(** formats/mysql/file_reader/database_test.py line 72 *)
Example database_test_test_check_mismatched_default_value_and_column :
  let v_database := (p_new "FileDatabase" [(PStr "
CREATE TABLE `test_table` (
  `id` INT(10) UNSIGNED NOT NULL AUTO_INCREMENT,
  `numeric_column` TINYINT(1) UNSIGNED NOT NULL DEFAULT '',
  PRIMARY KEY (`id`)
);
        ")] (PDict [])) in
  let k1 := is_true (p_in (PStr "test_table") (p_attr "tables" v_database)) in
  let k2 := p_eq (PNum (1)%Z) (p_len (p_attr "errors" v_database)) in
  let k3 := p_eq (PStr "Column 'numeric_column' of type 'TINYINT' cannot have a string value as a default in table 'test_table'") (p_index (p_attr "errors" v_database) (PNum (0)%Z)) in
  failing [k1; k2; k3] = [].
Proof. vm_compute. reflexivity. Qed.

(** formats/mysql/file_reader/database_test.py line 90 *)
Example database_test_test_duplicate_foreign_key_name :
  let v_database := (p_new "FileDatabase" [(PStr "
CREATE TABLE `roles` (
  `id` INT(10) UNSIGNED NOT NULL AUTO_INCREMENT,
  `people_id` INT(10) UNSIGNED NOT NULL,
  `name` varchar(255) NOT NULL DEFAULT '',
  PRIMARY KEY (`id`),
  KEY `role_people_id` (`people_id`),
  CONSTRAINT `people_role_id_fk` FOREIGN KEY (`people_id`) REFERENCES `people` (`id`) ON DELETE CASCADE ON UPDATE CASCADE,
) ENGINE=InnoDB DEFAULT CHARSET=utf8 COLLATE=utf8_general_ci;

CREATE TABLE `people` (
  `id` INT(10) UNSIGNED NOT NULL AUTO_INCREMENT,
  `role_id` INT(10) UNSIGNED NOT NULL,
  `name` varchar(255) NOT NULL DEFAULT '',
  PRIMARY KEY (`id`),
  KEY `people_role_id` (`role_id`),
  CONSTRAINT `people_role_id_fk` FOREIGN KEY (`role_id`) REFERENCES `roles` (`id`) ON DELETE CASCADE ON UPDATE CASCADE,
) ENGINE=InnoDB DEFAULT CHARSET=utf8 COLLATE=utf8_general_ci;
        ")] (PDict [])) in
  let k1 := is_true (p_in (PStr "roles") (p_attr "tables" v_database)) in
  let k2 := is_true (p_in (PStr "people") (p_attr "tables" v_database)) in
  let k3 := p_eq (PNum (1)%Z) (p_len (p_attr "errors" v_database)) in
  let k4 := p_eq (PStr "Duplicate foreign key: foreign key named 'people_role_id_fk' exists in tables 'roles' and 'people'") (p_index (p_attr "errors" v_database) (PNum (0)%Z)) in
  failing [k1; k2; k3; k4] = [].
Proof. vm_compute. reflexivity. Qed.

(** formats/mysql/file_reader/database_test.py line 120 *)
Example database_test_test_foreign_key_non_column :
  let v_database := (p_new "FileDatabase" [(PStr "
CREATE TABLE `roles` (
  `id` INT(10) UNSIGNED NOT NULL AUTO_INCREMENT,
  `name` varchar(255) NOT NULL DEFAULT '',
  PRIMARY KEY (`id`)
) ENGINE=InnoDB DEFAULT CHARSET=utf8 COLLATE=utf8_general_ci;

CREATE TABLE `people` (
  `id` INT(10) UNSIGNED NOT NULL AUTO_INCREMENT,
  `role_id` INT(10) UNSIGNED NOT NULL,
  `name` varchar(255) NOT NULL DEFAULT '',
  PRIMARY KEY (`id`),
  KEY `people_role_id` (`role_id`),
  CONSTRAINT `people_role_id_fk` FOREIGN KEY (`roles_id`) REFERENCES `roles` (`id`) ON DELETE CASCADE ON UPDATE CASCADE,
) ENGINE=InnoDB DEFAULT CHARSET=utf8 COLLATE=utf8_general_ci;
        ")] (PDict [])) in
  let k1 := is_true (p_in (PStr "roles") (p_attr "tables" v_database)) in
  let k2 := is_true (p_in (PStr "people") (p_attr "tables" v_database)) in
  let k3 := p_eq (PNum (1)%Z) (p_len (p_attr "errors" v_database)) in
  let k4 := p_eq (PStr "Constraint error for foreign key `people_role_id_fk`: sets constraint on column `people`.`roles_id`, but this column does not exist") (p_index (p_attr "errors" v_database) (PNum (0)%Z)) in
  failing [k1; k2; k3; k4] = [].
Proof. vm_compute. reflexivity. Qed.

(** formats/mysql/file_reader/database_test.py line 147 *)
Example database_test_test_missing_key_column :
  let v_database := (p_new "FileDatabase" [(PStr "
CREATE TABLE `roles` (
  `id` INT(10) UNSIGNED NOT NULL AUTO_INCREMENT,
  `name` VARCHAR(255) NOT NULL DEFAULT '',
  PRIMARY KEY (`id`),
  KEY `account_id_key` (`account_id`)
);
        ")] (PDict [])) in
  let k1 := is_true (p_in (PStr "roles") (p_attr "tables" v_database)) in
  let k2 := p_eq (PNum (1)%Z) (p_len (p_attr "errors" v_database)) in
  let k3 := p_eq (PStr "Table 'roles' has index 'account_id_key' that references non-existent column 'account_id'") (p_index (p_attr "errors" v_database) (PNum (0)%Z)) in
  failing [k1; k2; k3] = [].
Proof. vm_compute. reflexivity. Qed.

(** formats/mysql/file_reader/database_test.py line 166 *)
Example database_test_test_mismatched_column :
  let v_database := (p_new "FileDatabase" [(PStr "
CREATE TABLE `roles` (
    `id` INT(10) UNSIGNED NOT NULL AUTO_INCREMENT,
    `name` VARCHAR(255) NOT NULL DEFAULT '',
    PRIMARY KEY (`id`)
);
INSERT INTO `roles` (`id`,`name`,`description`) VALUES (1,'asdf','more');
        ")] (PDict [])) in
  let k1 := p_eq (PNum (1)%Z) (p_len (p_attr "errors" v_database)) in
  let k2 := p_eq (PStr "Insert error: insert command attempts to set column 'description' for table 'roles' but the column does not exist in the table.") (p_index (p_attr "errors" v_database) (PNum (0)%Z)) in
  failing [k1; k2] = [].
Proof. vm_compute. reflexivity. Qed.

(** tests/integration/add_conflicting_fks_test.py line 7 *)
Example add_conflicting_fks_test_test_add_conflicting_separates_fks :
  let v_table1 := (PStr "CREATE TABLE `tasks` (`id` INT(10) UNSIGNED NOT NULL AUTO_INCREMENT,
`account_id` INT(10) UNSIGNED NOT NULL,
`repeating_task_id` INT(10) UNSIGNED NOT NULL,
`name` VARCHAR(255) NOT NULL DEFAULT '',
PRIMARY KEY (`id`),
KEY `account_id_tasks` (`account_id`),
KEY `repeating_task_id_tasks` (`repeating_task_id`),
CONSTRAINT `account_id_tasks_fk` FOREIGN KEY (`account_id`) REFERENCES `accounts` (`id`) ON DELETE CASCADE ON UPDATE CASCADE,
CONSTRAINT `repeating_task_id_tasks_fk` FOREIGN KEY (`repeating_task_id`) REFERENCES `repeating_tasks` (`id`) ON DELETE CASCADE ON UPDATE CASCADE) ENGINE=InnoDB DEFAULT CHARSET=utf8;") in
  let v_table2 := (PStr "CREATE TABLE `repeating_tasks` (`id` INT(10) UNSIGNED NOT NULL AUTO_INCREMENT,
`account_id` INT(10) UNSIGNED NOT NULL,
`task_id` INT(10) UNSIGNED NOT NULL,
`name` VARCHAR(255) NOT NULL DEFAULT '',
PRIMARY KEY (`id`),
KEY `account_id_rts` (`account_id`),
KEY `task_id_rts` (`task_id`),
CONSTRAINT `account_id_tasks_fk` FOREIGN KEY (`account_id`) REFERENCES `accounts` (`id`) ON DELETE CASCADE ON UPDATE CASCADE,
CONSTRAINT `task_id_rts` FOREIGN KEY (`task_id`) REFERENCES `tasks` (`id`) ON DELETE CASCADE ON UPDATE CASCADE) ENGINE=InnoDB DEFAULT CHARSET=utf8;") in
  let v_table3 := (PStr "CREATE TABLE `accounts` (`id` INT(10) UNSIGNED NOT NULL AUTO_INCREMENT,
`name` VARCHAR(255) NOT NULL DEFAULT '',
PRIMARY KEY (`id`)) ENGINE=InnoDB DEFAULT CHARSET=utf8;") in
  let v_tables := (PList [v_table1; v_table2; v_table3]) in
  let v_db := (p_new "FileDatabase" [v_tables] (PDict [])) in
  let v_mygrate := (p_new "Mygration" [v_db] (PDict [])) in
  let k1 := p_eq (PList [(PStr "Duplicate foreign key: foreign key named 'account_id_tasks_fk' exists in tables 'tasks' and 'repeating_tasks'")]) (p_attr "errors" v_mygrate) in
  let k2 := p_eq PNone (p_attr "operations" v_mygrate) in
  failing [k1; k2] = [].
Proof. vm_compute. reflexivity. Qed.

(** tests/integration/add_only_test.py line 6 *)
Example add_only_test_test_add_one_only :
  let v_table1 := (PStr "CREATE TABLE `zlogs` (`id` INT(10) UNSIGNED NOT NULL AUTO_INCREMENT,
`message` TEXT NOT NULL,
`traceback` TEXT,
PRIMARY KEY (`id`)) ENGINE=InnoDB DEFAULT CHARSET=utf8;") in
  let v_table2 := (PStr "CREATE TABLE `people` (`id` INT(10) UNSIGNED NOT NULL AUTO_INCREMENT,
`first_name` VARCHAR(255) NOT NULL DEFAULT '',
`last_name` VARCHAR(255) NOT NULL DEFAULT '',
PRIMARY KEY (`id`)) ENGINE=InnoDB DEFAULT CHARSET=utf8;") in
  let v_tables := (PList [v_table1; v_table2]) in
  let v_mygrate := (p_new "Mygration" [(p_new "FileDatabase" [v_tables] (PDict []))] (PDict [])) in
  let k1 := p_eq (PList []) (p_attr "errors" v_mygrate) in
  let v_ops := (p_comp (fun x_2 => (p_str x_2)) (fun x_2 => PBool true) (p_attr "operations" v_mygrate)) in
  let k3 := is_true (p_in v_table1 v_ops) in
  let k4 := is_true (p_in v_table2 v_ops) in
  failing [k1; k3; k4] = [].
Proof. vm_compute. reflexivity. Qed.

(** tests/integration/backslashes_test.py line 9 *)
Example backslashes_test_test_diffs_with_quotes :
  let v_tables := (p_dict [((PStr "logs"), (PStr "
                CREATE TABLE `logs` (
                    `id` int(10) unsigned NOT NULL AUTO_INCREMENT,
                    `message` TEXT NOT NULL,
                    `traceback` text,
                    PRIMARY KEY (`id`)
                ) ENGINE=InnoDB DEFAULT CHARSET=utf8;"))]) in
  let v_rows := (p_dict [((PStr "logs"), (PList [(p_dict [((PStr "id"), (PNum (1)%Z)); ((PStr "message"), (PStr "test\sup")); ((PStr "traceback"), (PStr "never"))]); (p_dict [((PStr "id"), (PNum (2)%Z)); ((PStr "message"), (PStr "sup\test")); ((PStr "traceback"), (PStr "forever"))])]))]) in
  let v_db_db := (p_new "LiveDatabase" [(p_new "PyMySQL" [] (p_merge [(PDict [("connection", (p_new "DbStructure" [v_tables; v_rows] (PDict [])))])]))] (PDict [])) in
  let v_db_db := p_mut "read_rows" v_db_db [(PStr "logs")] in
  let v_table1 := (PStr "CREATE TABLE `logs` (
            `id` int(10) unsigned NOT NULL AUTO_INCREMENT,
            `message` TEXT NOT NULL,
            `traceback` text,
            PRIMARY KEY (`id`)
        ) ENGINE=InnoDB DEFAULT CHARSET=utf8;

        INSERT INTO logs (id,message,traceback) VALUES (1,'test\sup', 'never');
        INSERT INTO logs (id,message,traceback) VALUES (2,'bob\test', 'forever');
        ") in
  let v_files_db := (p_new "FileDatabase" [(PList [v_table1])] (PDict [])) in
  let v_mygrate := (p_new "RowMygration" [v_files_db; v_db_db] (PDict [])) in
  let v_ops := (p_comp (fun x_1 => (p_str x_1)) (fun x_1 => PBool true) v_mygrate) in
  let k2 := p_eq (PNum (1)%Z) (p_len v_ops) in
  let k3 := p_eq (PStr "UPDATE `logs` SET `message`='bob\\test', `traceback`='forever' WHERE id='2';") (p_index v_ops (PNum (0)%Z)) in
  failing [k2; k3] = [].
Proof. vm_compute. reflexivity. Qed.

(** tests/integration/database_unfulfilled_fks_test.py line 6 *)
Example database_unfulfilled_fks_test_test_can_fulfill :
  let v_strings := (PList [(PStr "
            CREATE TABLE `logs` (
                `id` int(10) unsigned NOT NULL AUTO_INCREMENT,
                `message` TEXT NOT NULL,
                `traceback` text,
                PRIMARY KEY (`id`)
            ) ENGINE=InnoDB DEFAULT CHARSET=utf8;
        "); (PStr "
            CREATE TABLE `types` (
                `id` int(10) unsigned NOT NULL AUTO_INCREMENT,
                `name` VARCHAR(255),
                PRIMARY KEY (`id`)
            ) ENGINE=InnoDB DEFAULT CHARSET=utf8;
        ")]) in
  let v_db := (p_new "FileDatabase" [v_strings] (PDict [])) in
  let v_new_table := (p_new "CreateParser" [] (PDict [])) in
  let v_new_table := p_parse v_new_table (PStr "CREATE TABLE `log_changes` (
            `id` INT(10) UNSIGNED NOT NULL AUTO_INCREMENT,
            `log_id` INT(10) UNSIGNED NOT NULL,
            `type_id` INT(10) UNSIGNED NOT NULL,
            `change` VARCHAR(255),
            PRIMARY KEY (id),
            KEY `log_changes_log_id` (`log_id`),
            KEY `log_changes_type_id` (`type_id`),
            CONSTRAINT `log_changes_log_id_fk` FOREIGN KEY (`log_id`) REFERENCES `logs` (`id`) ON DELETE CASCADE ON UPDATE CASCADE,
            CONSTRAINT `log_changes_type_id_fk` FOREIGN KEY (`type_id`) REFERENCES `types` (`id`) ON DELETE CASCADE ON UPDATE CASCADE
            );
        ") in
  let k1 := p_eq (PNum (0)%Z) (p_len (p_method "unfulfilled_fks" v_db [v_new_table])) in
  failing [k1] = [].
Proof. vm_compute. reflexivity. Qed.

(** tests/integration/database_unfulfilled_fks_test.py line 45 *)
Example database_unfulfilled_fks_test_test_can_not_fulfill :
  let v_strings := (PList [(PStr "
            CREATE TABLE `logs` (
                `id` int(10) unsigned NOT NULL AUTO_INCREMENT,
                `message` TEXT NOT NULL,
                `traceback` text,
                PRIMARY KEY (`id`)
            ) ENGINE=InnoDB DEFAULT CHARSET=utf8;
        ")]) in
  let v_db := (p_new "FileDatabase" [v_strings] (PDict [])) in
  let v_new_table := (p_new "CreateParser" [] (PDict [])) in
  let v_new_table := p_parse v_new_table (PStr "CREATE TABLE `log_changes` (
            `id` INT(10) UNSIGNED NOT NULL AUTO_INCREMENT,
            `log_id` INT(10) UNSIGNED NOT NULL,
            `type_id` INT(10) UNSIGNED NOT NULL,
            `change` VARCHAR(255),
            PRIMARY KEY (id),
            KEY `log_changes_log_id` (`log_id`),
            KEY `log_changes_type_id` (`type_id`),
            CONSTRAINT `log_changes_log_id_fk` FOREIGN KEY (`log_id`) REFERENCES `logs` (`id`) ON DELETE CASCADE ON UPDATE CASCADE,
            CONSTRAINT `log_changes_type_id_fk` FOREIGN KEY (`type_id`) REFERENCES `types` (`id`) ON DELETE CASCADE ON UPDATE CASCADE
            );
        ") in
  let v_errors_1215 := (p_method "unfulfilled_fks" v_db [v_new_table]) in
  let k1 := p_eq (PNum (1)%Z) (p_len v_errors_1215) in
  let k2 := is_true (p_in (PStr "log_changes_type_id_fk") v_errors_1215) in
  let k3 := p_eq (PStr "CONSTRAINT `log_changes_type_id_fk` FOREIGN KEY (`type_id`) REFERENCES `types` (`id`) ON DELETE CASCADE ON UPDATE CASCADE") (p_str (p_index (p_index v_errors_1215 (PStr "log_changes_type_id_fk")) (PStr "foreign_key"))) in
  let k4 := p_eq (PStr "Constraint error for foreign key `log_changes_type_id_fk`: `log_changes`.`type_id` references `types`.`id`, but table `types` does not exist") (p_index (p_index v_errors_1215 (PStr "log_changes_type_id_fk")) (PStr "error")) in
  failing [k1; k2; k3; k4] = [].
Proof. vm_compute. reflexivity. Qed.

(** tests/integration/database_unfulfilled_fks_test.py line 88 *)
Example database_unfulfilled_fks_test_test_missing_column :
  let v_strings := (PList [(PStr "
            CREATE TABLE `logs` (
                `id` int(10) unsigned NOT NULL AUTO_INCREMENT,
                `message` TEXT NOT NULL,
                `traceback` text,
                PRIMARY KEY (`id`)
            ) ENGINE=InnoDB DEFAULT CHARSET=utf8;
        ")]) in
  let v_db := (p_new "FileDatabase" [v_strings] (PDict [])) in
  let v_new_table := (p_new "CreateParser" [] (PDict [])) in
  let v_new_table := p_parse v_new_table (PStr "CREATE TABLE `log_changes` (
            `id` INT(10) UNSIGNED NOT NULL AUTO_INCREMENT,
            `log_id` INT(10) UNSIGNED NOT NULL,
            `type_id` INT(10) UNSIGNED NOT NULL,
            `change` VARCHAR(255),
            PRIMARY KEY (id),
            KEY `log_changes_log_id` (`log_id`),
            KEY `log_changes_type_id` (`type_id`),
            CONSTRAINT `log_changes_log_id_fk` FOREIGN KEY (`log_id`) REFERENCES `logs` (`id`) ON DELETE CASCADE ON UPDATE CASCADE,
            CONSTRAINT `log_changes_type_id_fk` FOREIGN KEY (`type_id`) REFERENCES `logs` (`bob`) ON DELETE CASCADE ON UPDATE CASCADE
            );
        ") in
  let v_errors_1215 := (p_method "unfulfilled_fks" v_db [v_new_table]) in
  let k1 := p_eq (PNum (1)%Z) (p_len v_errors_1215) in
  let k2 := is_true (p_in (PStr "log_changes_type_id_fk") v_errors_1215) in
  let k3 := p_eq (PStr "CONSTRAINT `log_changes_type_id_fk` FOREIGN KEY (`type_id`) REFERENCES `logs` (`bob`) ON DELETE CASCADE ON UPDATE CASCADE") (p_str (p_index (p_index v_errors_1215 (PStr "log_changes_type_id_fk")) (PStr "foreign_key"))) in
  let k4 := p_eq (PStr "Constraint error for foreign key `log_changes_type_id_fk`: `log_changes`.`type_id` references `logs`.`bob`, but column `logs`.`bob` does not exist") (p_index (p_index v_errors_1215 (PStr "log_changes_type_id_fk")) (PStr "error")) in
  failing [k1; k2; k3; k4] = [].
Proof. vm_compute. reflexivity. Qed.

(** tests/integration/database_unfulfilled_fks_test.py line 131 *)
Example database_unfulfilled_fks_test_test_1215_wrong_type :
  let v_strings := (PList [(PStr "
            CREATE TABLE `logs` (
                `id` int(10) unsigned NOT NULL AUTO_INCREMENT,
                `message` TEXT NOT NULL,
                `traceback` text,
                PRIMARY KEY (`id`)
            ) ENGINE=InnoDB DEFAULT CHARSET=utf8;
        ")]) in
  let v_db := (p_new "FileDatabase" [v_strings] (PDict [])) in
  let v_new_table := (p_new "CreateParser" [] (PDict [])) in
  let v_new_table := p_parse v_new_table (PStr "CREATE TABLE `log_changes` (
            `id` INT(10) UNSIGNED NOT NULL AUTO_INCREMENT,
            `log_id` BIGINT(10) UNSIGNED NOT NULL,
            `change` VARCHAR(255),
            PRIMARY KEY (id),
            KEY `log_changes_log_id` (`log_id`),
            CONSTRAINT `log_changes_log_id_fk` FOREIGN KEY (`log_id`) REFERENCES `logs` (`id`) ON DELETE CASCADE ON UPDATE CASCADE,
            );
        ") in
  let v_errors_1215 := (p_method "unfulfilled_fks" v_db [v_new_table]) in
  let k1 := p_eq (PNum (1)%Z) (p_len v_errors_1215) in
  let k2 := is_true (p_in (PStr "log_changes_log_id_fk") v_errors_1215) in
  let k3 := p_eq (PStr "CONSTRAINT `log_changes_log_id_fk` FOREIGN KEY (`log_id`) REFERENCES `logs` (`id`) ON DELETE CASCADE ON UPDATE CASCADE") (p_str (p_index (p_index v_errors_1215 (PStr "log_changes_log_id_fk")) (PStr "foreign_key"))) in
  let k4 := p_eq (PStr "Constraint error for foreign key `log_changes_log_id_fk`: column type mismatch. `log_changes`.`log_id` is 'BIGINT' but `logs`.`id` is 'INT'") (p_index (p_index v_errors_1215 (PStr "log_changes_log_id_fk")) (PStr "error")) in
  failing [k1; k2; k3; k4] = [].
Proof. vm_compute. reflexivity. Qed.

(** tests/integration/database_unfulfilled_fks_test.py line 170 *)
Example database_unfulfilled_fks_test_test_1215_wrong_length :
  let v_strings := (PList [(PStr "
            CREATE TABLE `logs` (
                `id` int(10) unsigned NOT NULL AUTO_INCREMENT,
                `message` TEXT NOT NULL,
                `traceback` text,
                PRIMARY KEY (`id`)
            ) ENGINE=InnoDB DEFAULT CHARSET=utf8;
        ")]) in
  let v_db := (p_new "FileDatabase" [v_strings] (PDict [])) in
  let v_new_table := (p_new "CreateParser" [] (PDict [])) in
  let v_new_table := p_parse v_new_table (PStr "CREATE TABLE `log_changes` (
            `id` INT(10) UNSIGNED NOT NULL AUTO_INCREMENT,
            `log_id` INT(11) UNSIGNED NOT NULL,
            `change` VARCHAR(255),
            PRIMARY KEY (id),
            KEY `log_changes_log_id` (`log_id`),
            CONSTRAINT `log_changes_log_id_fk` FOREIGN KEY (`log_id`) REFERENCES `logs` (`id`) ON DELETE CASCADE ON UPDATE CASCADE,
            );
        ") in
  let v_errors_1215 := (p_method "unfulfilled_fks" v_db [v_new_table]) in
  let k1 := p_eq (PNum (1)%Z) (p_len v_errors_1215) in
  let k2 := is_true (p_in (PStr "log_changes_log_id_fk") v_errors_1215) in
  let k3 := p_eq (PStr "CONSTRAINT `log_changes_log_id_fk` FOREIGN KEY (`log_id`) REFERENCES `logs` (`id`) ON DELETE CASCADE ON UPDATE CASCADE") (p_str (p_index (p_index v_errors_1215 (PStr "log_changes_log_id_fk")) (PStr "foreign_key"))) in
  let k4 := p_eq (PStr "Constraint error for foreign key `log_changes_log_id_fk`: length mismatch. `log_changes`.`log_id` is '11' but `logs`.`id` is '10'") (p_index (p_index v_errors_1215 (PStr "log_changes_log_id_fk")) (PStr "error")) in
  failing [k1; k2; k3; k4] = [].
Proof. vm_compute. reflexivity. Qed.

(** tests/integration/database_unfulfilled_fks_test.py line 209 *)
Example database_unfulfilled_fks_test_test_1215_wrong_unsigned :
  let v_strings := (PList [(PStr "
            CREATE TABLE `logs` (
                `id` int(10) unsigned NOT NULL AUTO_INCREMENT,
                `message` TEXT NOT NULL,
                `traceback` text,
                PRIMARY KEY (`id`)
            ) ENGINE=InnoDB DEFAULT CHARSET=utf8;
        ")]) in
  let v_db := (p_new "FileDatabase" [v_strings] (PDict [])) in
  let v_new_table := (p_new "CreateParser" [] (PDict [])) in
  let v_new_table := p_parse v_new_table (PStr "CREATE TABLE `log_changes` (
            `id` INT(10) NOT NULL AUTO_INCREMENT,
            `log_id` INT(10) NOT NULL,
            `change` VARCHAR(255),
            PRIMARY KEY (id),
            KEY `log_changes_log_id` (`log_id`),
            CONSTRAINT `log_changes_log_id_fk` FOREIGN KEY (`log_id`) REFERENCES `logs` (`id`) ON DELETE CASCADE ON UPDATE CASCADE,
            );
        ") in
  let v_errors_1215 := (p_method "unfulfilled_fks" v_db [v_new_table]) in
  let k1 := p_eq (PNum (1)%Z) (p_len v_errors_1215) in
  let k2 := is_true (p_in (PStr "log_changes_log_id_fk") v_errors_1215) in
  let k3 := p_eq (PStr "CONSTRAINT `log_changes_log_id_fk` FOREIGN KEY (`log_id`) REFERENCES `logs` (`id`) ON DELETE CASCADE ON UPDATE CASCADE") (p_str (p_index (p_index v_errors_1215 (PStr "log_changes_log_id_fk")) (PStr "foreign_key"))) in
  let k4 := p_eq (PStr "Constraint error for foreign key `log_changes_log_id_fk`: unsigned mistmatch. `logs`.`id` is unsigned but `log_changes`.`log_id` is not") (p_index (p_index v_errors_1215 (PStr "log_changes_log_id_fk")) (PStr "error")) in
  failing [k1; k2; k3; k4] = [].
Proof. vm_compute. reflexivity. Qed.

(** tests/integration/database_unfulfilled_fks_test.py line 248 *)
Example database_unfulfilled_fks_test_test_1215_wrong_unsigned_reversed :
  let v_strings := (PList [(PStr "
            CREATE TABLE `logs` (
                `id` int(10) NOT NULL AUTO_INCREMENT,
                `message` TEXT NOT NULL,
                `traceback` text,
                PRIMARY KEY (`id`)
            ) ENGINE=InnoDB DEFAULT CHARSET=utf8;
        ")]) in
  let v_db := (p_new "FileDatabase" [v_strings] (PDict [])) in
  let v_new_table := (p_new "CreateParser" [] (PDict [])) in
  let v_new_table := p_parse v_new_table (PStr "CREATE TABLE `log_changes` (
            `id` INT(10) UNSIGNED NOT NULL AUTO_INCREMENT,
            `log_id` INT(10) UNSIGNED NOT NULL,
            `change` VARCHAR(255),
            PRIMARY KEY (id),
            KEY `log_changes_log_id` (`log_id`),
            CONSTRAINT `log_changes_log_id_fk` FOREIGN KEY (`log_id`) REFERENCES `logs` (`id`) ON DELETE CASCADE ON UPDATE CASCADE,
            );
        ") in
  let v_errors_1215 := (p_method "unfulfilled_fks" v_db [v_new_table]) in
  let k1 := p_eq (PNum (1)%Z) (p_len v_errors_1215) in
  let k2 := is_true (p_in (PStr "log_changes_log_id_fk") v_errors_1215) in
  let k3 := p_eq (PStr "CONSTRAINT `log_changes_log_id_fk` FOREIGN KEY (`log_id`) REFERENCES `logs` (`id`) ON DELETE CASCADE ON UPDATE CASCADE") (p_str (p_index (p_index v_errors_1215 (PStr "log_changes_log_id_fk")) (PStr "foreign_key"))) in
  let k4 := p_eq (PStr "Constraint error for foreign key `log_changes_log_id_fk`: unsigned mistmatch. `log_changes`.`log_id` is unsigned but `logs`.`id` is not") (p_index (p_index v_errors_1215 (PStr "log_changes_log_id_fk")) (PStr "error")) in
  failing [k1; k2; k3; k4] = [].
Proof. vm_compute. reflexivity. Qed.

(** tests/integration/database_unfulfilled_fks_test.py line 287 *)
Example database_unfulfilled_fks_test_test_1215_on_delete_set_null_not_nullable :
  let v_strings := (PList [(PStr "
            CREATE TABLE `logs` (
                `id` int(10) UNSIGNED NOT NULL AUTO_INCREMENT,
                `message` TEXT NOT NULL,
                `traceback` text,
                PRIMARY KEY (`id`)
            ) ENGINE=InnoDB DEFAULT CHARSET=utf8;
        ")]) in
  let v_db := (p_new "FileDatabase" [v_strings] (PDict [])) in
  let v_new_table := (p_new "CreateParser" [] (PDict [])) in
  let v_new_table := p_parse v_new_table (PStr "CREATE TABLE `log_changes` (
            `id` INT(10) UNSIGNED NOT NULL AUTO_INCREMENT,
            `log_id` INT(10) UNSIGNED NOT NULL,
            `change` VARCHAR(255),
            PRIMARY KEY (id),
            KEY `log_changes_log_id` (`log_id`),
            CONSTRAINT `log_changes_log_id_fk` FOREIGN KEY (`log_id`) REFERENCES `logs` (`id`) ON DELETE SET NULL ON UPDATE CASCADE,
            );
        ") in
  let v_errors_1215 := (p_method "unfulfilled_fks" v_db [v_new_table]) in
  let k1 := p_eq (PNum (1)%Z) (p_len v_errors_1215) in
  let k2 := is_true (p_in (PStr "log_changes_log_id_fk") v_errors_1215) in
  let k3 := p_eq (PStr "CONSTRAINT `log_changes_log_id_fk` FOREIGN KEY (`log_id`) REFERENCES `logs` (`id`) ON DELETE SET NULL ON UPDATE CASCADE") (p_str (p_index (p_index v_errors_1215 (PStr "log_changes_log_id_fk")) (PStr "foreign_key"))) in
  let k4 := p_eq (PStr "Constraint error for foreign key `log_changes_log_id_fk`: invalid SET NULL. `log_changes`.`log_id` is not allowed to be null but the foreign key attempts to set the value to null ON DELETE") (p_index (p_index v_errors_1215 (PStr "log_changes_log_id_fk")) (PStr "error")) in
  failing [k1; k2; k3; k4] = [].
Proof. vm_compute. reflexivity. Qed.

(** tests/integration/database_unfulfilled_fks_test.py line 326 *)
Example database_unfulfilled_fks_test_test_1215_on_update_set_null_not_nullable :
  let v_strings := (PList [(PStr "
            CREATE TABLE `logs` (
                `id` int(10) UNSIGNED NOT NULL AUTO_INCREMENT,
                `message` TEXT NOT NULL,
                `traceback` text,
                PRIMARY KEY (`id`)
            ) ENGINE=InnoDB DEFAULT CHARSET=utf8;
        ")]) in
  let v_db := (p_new "FileDatabase" [v_strings] (PDict [])) in
  let v_new_table := (p_new "CreateParser" [] (PDict [])) in
  let v_new_table := p_parse v_new_table (PStr "CREATE TABLE `log_changes` (
            `id` INT(10) UNSIGNED NOT NULL AUTO_INCREMENT,
            `log_id` INT(10) UNSIGNED NOT NULL,
            `change` VARCHAR(255),
            PRIMARY KEY (id),
            KEY `log_changes_log_id` (`log_id`),
            CONSTRAINT `log_changes_log_id_fk` FOREIGN KEY (`log_id`) REFERENCES `logs` (`id`) ON DELETE CASCADE ON UPDATE SET NULL,
            );
        ") in
  let v_errors_1215 := (p_method "unfulfilled_fks" v_db [v_new_table]) in
  let k1 := p_eq (PNum (1)%Z) (p_len v_errors_1215) in
  let k2 := is_true (p_in (PStr "log_changes_log_id_fk") v_errors_1215) in
  let k3 := p_eq (PStr "CONSTRAINT `log_changes_log_id_fk` FOREIGN KEY (`log_id`) REFERENCES `logs` (`id`) ON DELETE CASCADE ON UPDATE SET NULL") (p_str (p_index (p_index v_errors_1215 (PStr "log_changes_log_id_fk")) (PStr "foreign_key"))) in
  let k4 := p_eq (PStr "Constraint error for foreign key `log_changes_log_id_fk`: invalid SET NULL. `log_changes`.`log_id` is not allowed to be null but the foreign key attempts to set the value to null ON UPDATE") (p_index (p_index v_errors_1215 (PStr "log_changes_log_id_fk")) (PStr "error")) in
  failing [k1; k2; k3; k4] = [].
Proof. vm_compute. reflexivity. Qed.

(** tests/integration/database_unfulfilled_fks_test.py line 365 *)
Example database_unfulfilled_fks_test_test_1215_on_update_on_delete_set_null_not_nullable :
  let v_strings := (PList [(PStr "
            CREATE TABLE `logs` (
                `id` int(10) UNSIGNED NOT NULL AUTO_INCREMENT,
                `message` TEXT NOT NULL,
                `traceback` text,
                PRIMARY KEY (`id`)
            ) ENGINE=InnoDB DEFAULT CHARSET=utf8;
        ")]) in
  let v_db := (p_new "FileDatabase" [v_strings] (PDict [])) in
  let v_new_table := (p_new "CreateParser" [] (PDict [])) in
  let v_new_table := p_parse v_new_table (PStr "CREATE TABLE `log_changes` (
            `id` INT(10) UNSIGNED NOT NULL AUTO_INCREMENT,
            `log_id` INT(10) UNSIGNED NOT NULL,
            `change` VARCHAR(255),
            PRIMARY KEY (id),
            KEY `log_changes_log_id` (`log_id`),
            CONSTRAINT `log_changes_log_id_fk` FOREIGN KEY (`log_id`) REFERENCES `logs` (`id`) ON DELETE SET NULL ON UPDATE SET NULL,
            );
        ") in
  let v_errors_1215 := (p_method "unfulfilled_fks" v_db [v_new_table]) in
  let k1 := p_eq (PNum (1)%Z) (p_len v_errors_1215) in
  let k2 := is_true (p_in (PStr "log_changes_log_id_fk") v_errors_1215) in
  let k3 := p_eq (PStr "CONSTRAINT `log_changes_log_id_fk` FOREIGN KEY (`log_id`) REFERENCES `logs` (`id`) ON DELETE SET NULL ON UPDATE SET NULL") (p_str (p_index (p_index v_errors_1215 (PStr "log_changes_log_id_fk")) (PStr "foreign_key"))) in
  let k4 := p_eq (PStr "Constraint error for foreign key `log_changes_log_id_fk`: invalid SET NULL. `log_changes`.`log_id` is not allowed to be null but the foreign key attempts to set the value to null ON DELETE and ON UPDATE") (p_index (p_index v_errors_1215 (PStr "log_changes_log_id_fk")) (PStr "error")) in
  failing [k1; k2; k3; k4] = [].
Proof. vm_compute. reflexivity. Qed.

(** tests/integration/database_unfulfilled_fks_test.py line 404 *)
Example database_unfulfilled_fks_test_test_missing_index :
  let v_strings := (PList [(PStr "
            CREATE TABLE `logs` (
                `id` int(10) unsigned NOT NULL AUTO_INCREMENT,
                `message` TEXT NOT NULL,
                `traceback` text
            ) ENGINE=InnoDB DEFAULT CHARSET=utf8;
        "); (PStr "
            CREATE TABLE `types` (
                `id` int(10) unsigned NOT NULL AUTO_INCREMENT,
                `name` VARCHAR(255),
                PRIMARY KEY (`id`)
            ) ENGINE=InnoDB DEFAULT CHARSET=utf8;
        ")]) in
  let v_db := (p_new "FileDatabase" [v_strings] (PDict [])) in
  let v_new_table := (p_new "CreateParser" [] (PDict [])) in
  let v_new_table := p_parse v_new_table (PStr "CREATE TABLE `log_changes` (
            `id` INT(10) UNSIGNED NOT NULL AUTO_INCREMENT,
            `log_id` INT(10) UNSIGNED NOT NULL,
            `type_id` INT(10) UNSIGNED NOT NULL,
            `change` VARCHAR(255),
            PRIMARY KEY (id),
            KEY `log_changes_log_id` (`log_id`),
            KEY `log_changes_type_id` (`type_id`),
            CONSTRAINT `log_changes_log_id_fk` FOREIGN KEY (`log_id`) REFERENCES `logs` (`id`) ON DELETE CASCADE ON UPDATE CASCADE,
            CONSTRAINT `log_changes_type_id_fk` FOREIGN KEY (`type_id`) REFERENCES `types` (`id`) ON DELETE CASCADE ON UPDATE CASCADE
            );
        ") in
  let v_errors_1215 := (p_method "unfulfilled_fks" v_db [v_new_table]) in
  let k1 := p_eq (PNum (1)%Z) (p_len v_errors_1215) in
  let k2 := is_true (p_in (PStr "log_changes_log_id_fk") v_errors_1215) in
  let k3 := p_eq (PStr "CONSTRAINT `log_changes_log_id_fk` FOREIGN KEY (`log_id`) REFERENCES `logs` (`id`) ON DELETE CASCADE ON UPDATE CASCADE") (p_str (p_index (p_index v_errors_1215 (PStr "log_changes_log_id_fk")) (PStr "foreign_key"))) in
  let k4 := p_eq (PStr "Constraint error for foreign key `log_changes_log_id_fk`: missing index. `log_changes`.`log_id` references `logs`.`id` but `logs`.`id` does not have an index and therefore cannot be used in a foreign key constraint") (p_index (p_index v_errors_1215 (PStr "log_changes_log_id_fk")) (PStr "error")) in
  failing [k1; k2; k3; k4] = [].
Proof. vm_compute. reflexivity. Qed.

(** tests/integration/fk_column_type_change_test.py line 34 *)
Example fk_column_type_change_test_test_signed_to_unsigned_drops_and_readds_fk :
  let v_db_from := (p_new "FileDatabase" [(PList [(PStr "CREATE TABLE `businesses` (`id` INT(10) NOT NULL AUTO_INCREMENT,
`name` VARCHAR(255) NOT NULL DEFAULT '',
PRIMARY KEY (`id`)
) ENGINE=InnoDB DEFAULT CHARSET=utf8;"); (PStr "CREATE TABLE `company_domains` (`id` INT(10) NOT NULL AUTO_INCREMENT,
`business_id` INT(10) NOT NULL,
`domain` VARCHAR(255) NOT NULL DEFAULT '',
PRIMARY KEY (`id`),
KEY `business_id_idx` (`business_id`),
CONSTRAINT `company_domains_business_id_fk` FOREIGN KEY (`business_id`) REFERENCES `businesses` (`id`) ON DELETE CASCADE ON UPDATE CASCADE
) ENGINE=InnoDB DEFAULT CHARSET=utf8;")])] (PDict [])) in
  let v_db_to := (p_new "FileDatabase" [(PList [(PStr "CREATE TABLE `businesses` (`id` INT(10) UNSIGNED NOT NULL AUTO_INCREMENT,
`name` VARCHAR(255) NOT NULL DEFAULT '',
PRIMARY KEY (`id`)
) ENGINE=InnoDB DEFAULT CHARSET=utf8;"); (PStr "CREATE TABLE `company_domains` (`id` INT(10) UNSIGNED NOT NULL AUTO_INCREMENT,
`business_id` INT(10) UNSIGNED NOT NULL,
`domain` VARCHAR(255) NOT NULL DEFAULT '',
PRIMARY KEY (`id`),
KEY `business_id_idx` (`business_id`),
CONSTRAINT `company_domains_business_id_fk` FOREIGN KEY (`business_id`) REFERENCES `businesses` (`id`) ON DELETE CASCADE ON UPDATE CASCADE
) ENGINE=InnoDB DEFAULT CHARSET=utf8;")])] (PDict [])) in
  let v_mygrate := (p_new "Mygration" [v_db_to; v_db_from] (PDict [])) in
  let v_ops := (p_comp (fun x_1 => (p_str x_1)) (fun x_1 => PBool true) (p_attr "operations" v_mygrate)) in
  let k2 := p_eq (PStr "SET FOREIGN_KEY_CHECKS=0;") (p_index v_ops (PNum (0)%Z)) in
  let k3 := is_true (p_in (PStr "DROP FOREIGN KEY `company_domains_business_id_fk`") (p_index v_ops (PNum (1)%Z))) in
  let k5 := is_true (p_any (fun x => x) (p_comp (fun x_4 => (p_in (PStr "CHANGE") x_4)) (fun x_4 => PBool true) v_ops)) in
  let k6 := is_true (p_in (PStr "ADD CONSTRAINT `company_domains_business_id_fk` FOREIGN KEY (`business_id`) REFERENCES `businesses` (`id`) ON DELETE CASCADE ON UPDATE CASCADE") (p_index v_ops (PNum (-2)%Z))) in
  let k7 := p_eq (PStr "SET FOREIGN_KEY_CHECKS=1;") (p_index v_ops (PNum (-1)%Z)) in
  failing [k2; k3; k5; k6; k7] = [].
Proof. vm_compute. reflexivity. Qed.

(** tests/integration/fk_column_type_change_test.py line 51 *)
Example fk_column_type_change_test_test_no_fk_cycle_when_types_match :
  let v_db_from := (p_new "FileDatabase" [(PList [(PStr "CREATE TABLE `businesses` (`id` INT(10) UNSIGNED NOT NULL AUTO_INCREMENT,
`name` VARCHAR(255) NOT NULL DEFAULT '',
PRIMARY KEY (`id`)
) ENGINE=InnoDB DEFAULT CHARSET=utf8;"); (PStr "CREATE TABLE `company_domains` (`id` INT(10) UNSIGNED NOT NULL AUTO_INCREMENT,
`business_id` INT(10) UNSIGNED NOT NULL,
`domain` VARCHAR(255) NOT NULL DEFAULT '',
PRIMARY KEY (`id`),
KEY `business_id_idx` (`business_id`),
CONSTRAINT `company_domains_business_id_fk` FOREIGN KEY (`business_id`) REFERENCES `businesses` (`id`) ON DELETE CASCADE ON UPDATE CASCADE
) ENGINE=InnoDB DEFAULT CHARSET=utf8;")])] (PDict [])) in
  let v_db_to := (p_new "FileDatabase" [(PList [(PStr "CREATE TABLE `businesses` (`id` INT(10) UNSIGNED NOT NULL AUTO_INCREMENT,
`name` VARCHAR(255) NOT NULL DEFAULT '',
PRIMARY KEY (`id`)
) ENGINE=InnoDB DEFAULT CHARSET=utf8;"); (PStr "CREATE TABLE `company_domains` (`id` INT(10) UNSIGNED NOT NULL AUTO_INCREMENT,
`business_id` INT(10) UNSIGNED NOT NULL,
`domain` VARCHAR(255) NOT NULL DEFAULT '',
PRIMARY KEY (`id`),
KEY `business_id_idx` (`business_id`),
CONSTRAINT `company_domains_business_id_fk` FOREIGN KEY (`business_id`) REFERENCES `businesses` (`id`) ON DELETE CASCADE ON UPDATE CASCADE
) ENGINE=InnoDB DEFAULT CHARSET=utf8;")])] (PDict [])) in
  let v_mygrate := (p_new "Mygration" [v_db_to; v_db_from] (PDict [])) in
  let v_ops := (p_comp (fun x_1 => (p_str x_1)) (fun x_1 => PBool true) (p_attr "operations" v_mygrate)) in
  let v_all_ops_str := (p_method "join" (PStr " ") [v_ops]) in
  let k2 := is_false (p_in (PStr "DROP FOREIGN KEY") v_all_ops_str) in
  let k3 := is_false (p_in (PStr "ADD CONSTRAINT") v_all_ops_str) in
  failing [k2; k3] = [].
Proof. vm_compute. reflexivity. Qed.

(** tests/integration/fk_column_type_change_test.py line 63 *)
Example fk_column_type_change_test_test_parent_type_change_cycles_child_fk :
  let v_parent_signed := (PStr "CREATE TABLE `businesses` (`id` INT(10) NOT NULL AUTO_INCREMENT,
`name` VARCHAR(255) NOT NULL DEFAULT '',
PRIMARY KEY (`id`)
) ENGINE=InnoDB DEFAULT CHARSET=utf8;") in
  let v_parent_unsigned := (PStr "CREATE TABLE `businesses` (`id` INT(10) UNSIGNED NOT NULL AUTO_INCREMENT,
`name` VARCHAR(255) NOT NULL DEFAULT '',
PRIMARY KEY (`id`)
) ENGINE=InnoDB DEFAULT CHARSET=utf8;") in
  let v_child_unsigned := (PStr "CREATE TABLE `company_domains` (`id` INT(10) UNSIGNED NOT NULL AUTO_INCREMENT,
`business_id` INT(10) UNSIGNED NOT NULL,
`domain` VARCHAR(255) NOT NULL DEFAULT '',
PRIMARY KEY (`id`),
KEY `business_id_idx` (`business_id`),
CONSTRAINT `company_domains_business_id_fk` FOREIGN KEY (`business_id`) REFERENCES `businesses` (`id`) ON DELETE CASCADE ON UPDATE CASCADE
) ENGINE=InnoDB DEFAULT CHARSET=utf8;") in
  let v_db_from := (p_new "FileDatabase" [(PList [v_parent_signed; v_child_unsigned])] (PDict [])) in
  let v_db_to := (p_new "FileDatabase" [(PList [v_parent_unsigned; v_child_unsigned])] (PDict [])) in
  let v_mygrate := (p_new "Mygration" [v_db_to; v_db_from] (PDict [])) in
  let v_ops := (p_comp (fun x_1 => (p_str x_1)) (fun x_1 => PBool true) (p_attr "operations" v_mygrate)) in
  let k2 := p_eq (PStr "SET FOREIGN_KEY_CHECKS=0;") (p_index v_ops (PNum (0)%Z)) in
  let k3 := is_true (p_in (PStr "DROP FOREIGN KEY `company_domains_business_id_fk`") (p_index v_ops (PNum (1)%Z))) in
  let k5 := is_true (p_any (fun x => x) (p_comp (fun x_4 => (p_or (p_in (PStr "CHANGE") x_4) (p_in (PStr "MODIFY") x_4))) (fun x_4 => PBool true) v_ops)) in
  let k6 := is_true (p_in (PStr "ADD CONSTRAINT `company_domains_business_id_fk` FOREIGN KEY (`business_id`) REFERENCES `businesses` (`id`) ON DELETE CASCADE ON UPDATE CASCADE") (p_index v_ops (PNum (-2)%Z))) in
  let k7 := p_eq (PStr "SET FOREIGN_KEY_CHECKS=1;") (p_index v_ops (PNum (-1)%Z)) in
  failing [k2; k3; k5; k6; k7] = [].
Proof. vm_compute. reflexivity. Qed.

(** tests/integration/fk_column_type_change_test.py line 98 *)
Example fk_column_type_change_test_test_fk_definition_change_with_type_change_no_duplicates :
  let v_parent_signed := (PStr "CREATE TABLE `businesses` (`id` INT(10) NOT NULL AUTO_INCREMENT,
`name` VARCHAR(255) NOT NULL DEFAULT '',
PRIMARY KEY (`id`)
) ENGINE=InnoDB DEFAULT CHARSET=utf8;") in
  let v_parent_unsigned := (PStr "CREATE TABLE `businesses` (`id` INT(10) UNSIGNED NOT NULL AUTO_INCREMENT,
`name` VARCHAR(255) NOT NULL DEFAULT '',
PRIMARY KEY (`id`)
) ENGINE=InnoDB DEFAULT CHARSET=utf8;") in
  let v_child_signed_cascade := (PStr "CREATE TABLE `company_domains` (`id` INT(10) NOT NULL AUTO_INCREMENT,
`business_id` INT(10) NOT NULL,
`domain` VARCHAR(255) NOT NULL DEFAULT '',
PRIMARY KEY (`id`),
KEY `business_id_idx` (`business_id`),
CONSTRAINT `company_domains_business_id_fk` FOREIGN KEY (`business_id`) REFERENCES `businesses` (`id`) ON DELETE CASCADE ON UPDATE CASCADE
) ENGINE=InnoDB DEFAULT CHARSET=utf8;") in
  let v_child_unsigned_restrict := (PStr "CREATE TABLE `company_domains` (`id` INT(10) UNSIGNED NOT NULL AUTO_INCREMENT,
`business_id` INT(10) UNSIGNED NOT NULL,
`domain` VARCHAR(255) NOT NULL DEFAULT '',
PRIMARY KEY (`id`),
KEY `business_id_idx` (`business_id`),
CONSTRAINT `company_domains_business_id_fk` FOREIGN KEY (`business_id`) REFERENCES `businesses` (`id`) ON DELETE RESTRICT ON UPDATE CASCADE
) ENGINE=InnoDB DEFAULT CHARSET=utf8;") in
  let v_db_from := (p_new "FileDatabase" [(PList [v_parent_signed; v_child_signed_cascade])] (PDict [])) in
  let v_db_to := (p_new "FileDatabase" [(PList [v_parent_unsigned; v_child_unsigned_restrict])] (PDict [])) in
  let v_mygrate := (p_new "Mygration" [v_db_to; v_db_from] (PDict [])) in
  let v_ops := (p_comp (fun x_1 => (p_str x_1)) (fun x_1 => PBool true) (p_attr "operations" v_mygrate)) in
  let v_drop_fk_count := (p_sum (p_comp (fun x_2 => (PNum (1)%Z)) (fun x_2 => (p_in (PStr "DROP FOREIGN KEY `company_domains_business_id_fk`") x_2)) v_ops)) in
  let v_add_fk_count := (p_sum (p_comp (fun x_3 => (PNum (1)%Z)) (fun x_3 => (p_in (PStr "ADD CONSTRAINT `company_domains_business_id_fk`") x_3)) v_ops)) in
  let k4 := p_eq (PNum (1)%Z) v_drop_fk_count in
  let k5 := p_eq (PNum (1)%Z) v_add_fk_count in
  let k6 := is_true (p_in (PStr "ON DELETE RESTRICT") (p_index v_ops (PNum (-2)%Z))) in
  failing [k4; k5; k6] = [].
Proof. vm_compute. reflexivity. Qed.

(** tests/integration/fk_column_type_change_test.py line 139 *)
Example fk_column_type_change_test_test_multiple_fks_on_same_parent :
  let v_parent_signed := (PStr "CREATE TABLE `businesses` (`id` INT(10) NOT NULL AUTO_INCREMENT,
`name` VARCHAR(255) NOT NULL DEFAULT '',
PRIMARY KEY (`id`)
) ENGINE=InnoDB DEFAULT CHARSET=utf8;") in
  let v_parent_unsigned := (PStr "CREATE TABLE `businesses` (`id` INT(10) UNSIGNED NOT NULL AUTO_INCREMENT,
`name` VARCHAR(255) NOT NULL DEFAULT '',
PRIMARY KEY (`id`)
) ENGINE=InnoDB DEFAULT CHARSET=utf8;") in
  let v_child1 := (PStr "CREATE TABLE `company_domains` (`id` INT(10) UNSIGNED NOT NULL AUTO_INCREMENT,
`business_id` INT(10) UNSIGNED NOT NULL,
`domain` VARCHAR(255) NOT NULL DEFAULT '',
PRIMARY KEY (`id`),
KEY `business_id_idx` (`business_id`),
CONSTRAINT `bd_business_id_fk` FOREIGN KEY (`business_id`) REFERENCES `businesses` (`id`) ON DELETE CASCADE ON UPDATE CASCADE
) ENGINE=InnoDB DEFAULT CHARSET=utf8;") in
  let v_child2 := (PStr "CREATE TABLE `company_users` (`id` INT(10) UNSIGNED NOT NULL AUTO_INCREMENT,
`business_id` INT(10) UNSIGNED NOT NULL,
`user_name` VARCHAR(255) NOT NULL DEFAULT '',
PRIMARY KEY (`id`),
KEY `bu_business_id_idx` (`business_id`),
CONSTRAINT `bu_business_id_fk` FOREIGN KEY (`business_id`) REFERENCES `businesses` (`id`) ON DELETE CASCADE ON UPDATE CASCADE
) ENGINE=InnoDB DEFAULT CHARSET=utf8;") in
  let v_db_from := (p_new "FileDatabase" [(PList [v_parent_signed; v_child1; v_child2])] (PDict [])) in
  let v_db_to := (p_new "FileDatabase" [(PList [v_parent_unsigned; v_child1; v_child2])] (PDict [])) in
  let v_mygrate := (p_new "Mygration" [v_db_to; v_db_from] (PDict [])) in
  let v_ops := (p_comp (fun x_1 => (p_str x_1)) (fun x_1 => PBool true) (p_attr "operations" v_mygrate)) in
  let v_all_ops_str := (p_method "join" (PStr " ") [v_ops]) in
  let k2 := is_true (p_in (PStr "DROP FOREIGN KEY `bd_business_id_fk`") v_all_ops_str) in
  let k3 := is_true (p_in (PStr "DROP FOREIGN KEY `bu_business_id_fk`") v_all_ops_str) in
  let k4 := is_true (p_in (PStr "ADD CONSTRAINT `bd_business_id_fk`") v_all_ops_str) in
  let k5 := is_true (p_in (PStr "ADD CONSTRAINT `bu_business_id_fk`") v_all_ops_str) in
  failing [k2; k3; k4; k5] = [].
Proof. vm_compute. reflexivity. Qed.

(** tests/integration/fk_column_type_change_test.py line 179 *)
Example fk_column_type_change_test_test_unrelated_column_change_no_fk_cycle :
  let v_parent := (PStr "CREATE TABLE `businesses` (`id` INT(10) UNSIGNED NOT NULL AUTO_INCREMENT,
`name` VARCHAR(255) NOT NULL DEFAULT '',
PRIMARY KEY (`id`)
) ENGINE=InnoDB DEFAULT CHARSET=utf8;") in
  let v_child_before := (PStr "CREATE TABLE `company_domains` (`id` INT(10) UNSIGNED NOT NULL AUTO_INCREMENT,
`business_id` INT(10) UNSIGNED NOT NULL,
`domain` VARCHAR(255) NOT NULL DEFAULT '',
PRIMARY KEY (`id`),
KEY `business_id_idx` (`business_id`),
CONSTRAINT `company_domains_business_id_fk` FOREIGN KEY (`business_id`) REFERENCES `businesses` (`id`) ON DELETE CASCADE ON UPDATE CASCADE
) ENGINE=InnoDB DEFAULT CHARSET=utf8;") in
  let v_child_after := (PStr "CREATE TABLE `company_domains` (`id` INT(10) UNSIGNED NOT NULL AUTO_INCREMENT,
`business_id` INT(10) UNSIGNED NOT NULL,
`domain` VARCHAR(512) NOT NULL DEFAULT '',
PRIMARY KEY (`id`),
KEY `business_id_idx` (`business_id`),
CONSTRAINT `company_domains_business_id_fk` FOREIGN KEY (`business_id`) REFERENCES `businesses` (`id`) ON DELETE CASCADE ON UPDATE CASCADE
) ENGINE=InnoDB DEFAULT CHARSET=utf8;") in
  let v_db_from := (p_new "FileDatabase" [(PList [v_parent; v_child_before])] (PDict [])) in
  let v_db_to := (p_new "FileDatabase" [(PList [v_parent; v_child_after])] (PDict [])) in
  let v_mygrate := (p_new "Mygration" [v_db_to; v_db_from] (PDict [])) in
  let v_ops := (p_comp (fun x_1 => (p_str x_1)) (fun x_1 => PBool true) (p_attr "operations" v_mygrate)) in
  let v_all_ops_str := (p_method "join" (PStr " ") [v_ops]) in
  let k2 := is_false (p_in (PStr "DROP FOREIGN KEY") v_all_ops_str) in
  let k3 := is_false (p_in (PStr "ADD CONSTRAINT") v_all_ops_str) in
  let k5 := is_true (p_any (fun x => x) (p_comp (fun x_4 => (p_in (PStr "CHANGE") x_4)) (fun x_4 => PBool true) v_ops)) in
  failing [k2; k3; k5] = [].
Proof. vm_compute. reflexivity. Qed.

(** tests/integration/fk_column_type_change_test.py line 213 *)
Example fk_column_type_change_test_test_cross_table_fk_additions_deferred_after_all_column_changes :
  let v_parent_signed := (PStr "CREATE TABLE `businesses` (`id` INT(10) NOT NULL AUTO_INCREMENT,
`name` VARCHAR(255) NOT NULL DEFAULT '',
PRIMARY KEY (`id`)
) ENGINE=InnoDB DEFAULT CHARSET=utf8;") in
  let v_parent_unsigned := (PStr "CREATE TABLE `businesses` (`id` INT(10) UNSIGNED NOT NULL AUTO_INCREMENT,
`name` VARCHAR(255) NOT NULL DEFAULT '',
PRIMARY KEY (`id`)
) ENGINE=InnoDB DEFAULT CHARSET=utf8;") in
  let v_child_signed_no_fk := (PStr "CREATE TABLE `company_domains` (`id` INT(10) NOT NULL AUTO_INCREMENT,
`business_id` INT(10) NOT NULL,
`domain` VARCHAR(255) NOT NULL DEFAULT '',
PRIMARY KEY (`id`),
KEY `business_id_idx` (`business_id`)
) ENGINE=InnoDB DEFAULT CHARSET=utf8;") in
  let v_child_unsigned_with_fk := (PStr "CREATE TABLE `company_domains` (`id` INT(10) UNSIGNED NOT NULL AUTO_INCREMENT,
`business_id` INT(10) UNSIGNED NOT NULL,
`domain` VARCHAR(255) NOT NULL DEFAULT '',
PRIMARY KEY (`id`),
KEY `business_id_idx` (`business_id`),
CONSTRAINT `company_domains_business_id_fk` FOREIGN KEY (`business_id`) REFERENCES `businesses` (`id`) ON DELETE CASCADE ON UPDATE CASCADE
) ENGINE=InnoDB DEFAULT CHARSET=utf8;") in
  let v_db_from := (p_new "FileDatabase" [(PList [v_parent_signed; v_child_signed_no_fk])] (PDict [])) in
  let v_db_to := (p_new "FileDatabase" [(PList [v_parent_unsigned; v_child_unsigned_with_fk])] (PDict [])) in
  let v_mygrate := (p_new "Mygration" [v_db_to; v_db_from] (PDict [])) in
  let v_ops := (p_comp (fun x_1 => (p_str x_1)) (fun x_1 => PBool true) (p_attr "operations" v_mygrate)) in
  let v_change_ops := (p_comp (fun x_2 => (p_index x_2 (PNum 0%Z))) (fun x_2 => (p_in (PStr "CHANGE") (p_index x_2 (PNum 1%Z)))) (p_enumerate v_ops)) in
  let v_add_fk_ops := (p_comp (fun x_3 => (p_index x_3 (PNum 0%Z))) (fun x_3 => (p_in (PStr "ADD CONSTRAINT") (p_index x_3 (PNum 1%Z)))) (p_enumerate v_ops)) in
  let k4 := is_true v_change_ops in
  let k5 := is_true v_add_fk_ops in
  let v_last_change := (p_max v_change_ops) in
  let v_first_add_fk := (p_min v_add_fk_ops) in
  let k6 := is_true (p_lt v_last_change v_first_add_fk) in
  failing [k4; k5; k6] = [].
Proof. vm_compute. reflexivity. Qed.

(** tests/integration/fk_column_type_change_test.py line 266 *)
Example fk_column_type_change_test_test_cross_table_existing_fk_with_type_change_deferred :
  let v_parent_signed := (PStr "CREATE TABLE `businesses` (`id` INT(10) NOT NULL AUTO_INCREMENT,
`name` VARCHAR(255) NOT NULL DEFAULT '',
PRIMARY KEY (`id`)
) ENGINE=InnoDB DEFAULT CHARSET=utf8;") in
  let v_parent_unsigned := (PStr "CREATE TABLE `businesses` (`id` INT(10) UNSIGNED NOT NULL AUTO_INCREMENT,
`name` VARCHAR(255) NOT NULL DEFAULT '',
PRIMARY KEY (`id`)
) ENGINE=InnoDB DEFAULT CHARSET=utf8;") in
  let v_child_signed := (PStr "CREATE TABLE `company_domains` (`id` INT(10) NOT NULL AUTO_INCREMENT,
`business_id` INT(10) NOT NULL,
`domain` VARCHAR(255) NOT NULL DEFAULT '',
PRIMARY KEY (`id`),
KEY `business_id_idx` (`business_id`),
CONSTRAINT `company_domains_business_id_fk` FOREIGN KEY (`business_id`) REFERENCES `businesses` (`id`) ON DELETE CASCADE ON UPDATE CASCADE
) ENGINE=InnoDB DEFAULT CHARSET=utf8;") in
  let v_child_unsigned := (PStr "CREATE TABLE `company_domains` (`id` INT(10) UNSIGNED NOT NULL AUTO_INCREMENT,
`business_id` INT(10) UNSIGNED NOT NULL,
`domain` VARCHAR(255) NOT NULL DEFAULT '',
PRIMARY KEY (`id`),
KEY `business_id_idx` (`business_id`),
CONSTRAINT `company_domains_business_id_fk` FOREIGN KEY (`business_id`) REFERENCES `businesses` (`id`) ON DELETE CASCADE ON UPDATE CASCADE
) ENGINE=InnoDB DEFAULT CHARSET=utf8;") in
  let v_db_from := (p_new "FileDatabase" [(PList [v_parent_signed; v_child_signed])] (PDict [])) in
  let v_db_to := (p_new "FileDatabase" [(PList [v_parent_unsigned; v_child_unsigned])] (PDict [])) in
  let v_mygrate := (p_new "Mygration" [v_db_to; v_db_from] (PDict [])) in
  let v_ops := (p_comp (fun x_1 => (p_str x_1)) (fun x_1 => PBool true) (p_attr "operations" v_mygrate)) in
  let v_drop_fk_indices := (p_comp (fun x_2 => (p_index x_2 (PNum 0%Z))) (fun x_2 => (p_in (PStr "DROP FOREIGN KEY") (p_index x_2 (PNum 1%Z)))) (p_enumerate v_ops)) in
  let v_change_indices := (p_comp (fun x_3 => (p_index x_3 (PNum 0%Z))) (fun x_3 => (p_in (PStr "CHANGE") (p_index x_3 (PNum 1%Z)))) (p_enumerate v_ops)) in
  let v_add_fk_indices := (p_comp (fun x_4 => (p_index x_4 (PNum 0%Z))) (fun x_4 => (p_in (PStr "ADD CONSTRAINT") (p_index x_4 (PNum 1%Z)))) (p_enumerate v_ops)) in
  let k5 := is_true v_drop_fk_indices in
  let k6 := is_true v_change_indices in
  let k7 := is_true v_add_fk_indices in
  let k8 := is_true (p_lt (p_max v_drop_fk_indices) (p_min v_change_indices)) in
  let k9 := is_true (p_lt (p_max v_change_indices) (p_min v_add_fk_indices)) in
  failing [k5; k6; k7; k8; k9] = [].
Proof. vm_compute. reflexivity. Qed.

(** tests/integration/fk_column_type_change_test.py line 323 *)
Example fk_column_type_change_test_test_fk_name_mismatch_cycles_correctly :
  let v_parent_signed := (PStr "CREATE TABLE `businesses` (`id` INT(10) NOT NULL AUTO_INCREMENT,
`name` VARCHAR(255) NOT NULL DEFAULT '',
PRIMARY KEY (`id`)
) ENGINE=InnoDB DEFAULT CHARSET=utf8;") in
  let v_parent_unsigned := (PStr "CREATE TABLE `businesses` (`id` INT(10) UNSIGNED NOT NULL AUTO_INCREMENT,
`name` VARCHAR(255) NOT NULL DEFAULT '',
PRIMARY KEY (`id`)
) ENGINE=InnoDB DEFAULT CHARSET=utf8;") in
  let v_child_signed_ibfk := (PStr "CREATE TABLE `child_records` (`id` INT(10) NOT NULL AUTO_INCREMENT,
`business_id` INT(10) NOT NULL DEFAULT 0,
PRIMARY KEY (`id`),
KEY `idx_business_id` (`business_id`),
CONSTRAINT `child_records_ibfk_1` FOREIGN KEY (`business_id`) REFERENCES `businesses` (`id`) ON DELETE CASCADE
) ENGINE=InnoDB DEFAULT CHARSET=utf8;") in
  let v_child_unsigned_named := (PStr "CREATE TABLE `child_records` (`id` INT(10) UNSIGNED NOT NULL AUTO_INCREMENT,
`business_id` INT(10) UNSIGNED NOT NULL DEFAULT 0,
PRIMARY KEY (`id`),
KEY `idx_business_id` (`business_id`),
CONSTRAINT `business_id_businesses_fk` FOREIGN KEY (`business_id`) REFERENCES `businesses` (`id`) ON DELETE CASCADE
) ENGINE=InnoDB DEFAULT CHARSET=utf8;") in
  let v_db_from := (p_new "FileDatabase" [(PList [v_parent_signed; v_child_signed_ibfk])] (PDict [])) in
  let v_db_to := (p_new "FileDatabase" [(PList [v_parent_unsigned; v_child_unsigned_named])] (PDict [])) in
  let v_mygrate := (p_new "Mygration" [v_db_to; v_db_from] (PDict [])) in
  let v_ops := (p_comp (fun x_1 => (p_str x_1)) (fun x_1 => PBool true) (p_attr "operations" v_mygrate)) in
  let v_all_ops_str := (p_method "join" (PStr " ") [v_ops]) in
  let k2 := is_true (p_in (PStr "DROP FOREIGN KEY `child_records_ibfk_1`") v_all_ops_str) in
  let k3 := is_true (p_in (PStr "ADD CONSTRAINT `business_id_businesses_fk`") v_all_ops_str) in
  failing [k2; k3] = [].
Proof. vm_compute. reflexivity. Qed.

(** tests/integration/fk_column_type_change_test.py line 364 *)
Example fk_column_type_change_test_test_duplicate_source_fks_produce_single_add :
  let v_parent_signed := (PStr "CREATE TABLE `businesses` (`id` INT(10) NOT NULL AUTO_INCREMENT,
`name` VARCHAR(255) NOT NULL DEFAULT '',
PRIMARY KEY (`id`)
) ENGINE=InnoDB DEFAULT CHARSET=utf8;") in
  let v_parent_unsigned := (PStr "CREATE TABLE `businesses` (`id` INT(10) UNSIGNED NOT NULL AUTO_INCREMENT,
`name` VARCHAR(255) NOT NULL DEFAULT '',
PRIMARY KEY (`id`)
) ENGINE=InnoDB DEFAULT CHARSET=utf8;") in
  let v_child_with_3_duplicate_ibfks := (PStr "CREATE TABLE `child_records` (`id` INT(10) NOT NULL AUTO_INCREMENT,
`business_id` INT(10) NOT NULL DEFAULT 0,
PRIMARY KEY (`id`),
KEY `idx_business_id` (`business_id`),
CONSTRAINT `child_records_ibfk_1` FOREIGN KEY (`business_id`) REFERENCES `businesses` (`id`) ON DELETE CASCADE,
CONSTRAINT `child_records_ibfk_2` FOREIGN KEY (`business_id`) REFERENCES `businesses` (`id`) ON DELETE CASCADE,
CONSTRAINT `child_records_ibfk_3` FOREIGN KEY (`business_id`) REFERENCES `businesses` (`id`) ON DELETE CASCADE
) ENGINE=InnoDB DEFAULT CHARSET=utf8;") in
  let v_child_target := (PStr "CREATE TABLE `child_records` (`id` INT(10) UNSIGNED NOT NULL AUTO_INCREMENT,
`business_id` INT(10) UNSIGNED NOT NULL DEFAULT 0,
PRIMARY KEY (`id`),
KEY `idx_business_id` (`business_id`),
CONSTRAINT `business_id_businesses_fk` FOREIGN KEY (`business_id`) REFERENCES `businesses` (`id`) ON DELETE CASCADE
) ENGINE=InnoDB DEFAULT CHARSET=utf8;") in
  let v_db_from := (p_new "FileDatabase" [(PList [v_parent_signed; v_child_with_3_duplicate_ibfks])] (PDict [])) in
  let v_db_to := (p_new "FileDatabase" [(PList [v_parent_unsigned; v_child_target])] (PDict [])) in
  let v_mygrate := (p_new "Mygration" [v_db_to; v_db_from] (PDict [])) in
  let v_ops := (p_comp (fun x_1 => (p_str x_1)) (fun x_1 => PBool true) (p_attr "operations" v_mygrate)) in
  let v_all_ops_str := (p_method "join" (PStr " ") [v_ops]) in
  let k2 := is_true (p_in (PStr "DROP FOREIGN KEY `child_records_ibfk_1`") v_all_ops_str) in
  let k3 := is_true (p_in (PStr "DROP FOREIGN KEY `child_records_ibfk_2`") v_all_ops_str) in
  let k4 := is_true (p_in (PStr "DROP FOREIGN KEY `child_records_ibfk_3`") v_all_ops_str) in
  let v_add_count := (p_sum (p_comp (fun x_5 => (PNum (1)%Z)) (fun x_5 => (p_in (PStr "ADD CONSTRAINT `business_id_businesses_fk`") x_5)) v_ops)) in
  let k6 := p_eq (PNum (1)%Z) v_add_count in
  failing [k2; k3; k4; k6] = [].
Proof. vm_compute. reflexivity. Qed.

(** tests/integration/fk_column_type_change_test.py line 411 *)
Example fk_column_type_change_test_test_fk_name_mismatch_no_duplicate_ops :
  let v_parent_signed := (PStr "CREATE TABLE `businesses` (`id` INT(10) NOT NULL AUTO_INCREMENT,
`name` VARCHAR(255) NOT NULL DEFAULT '',
PRIMARY KEY (`id`)
) ENGINE=InnoDB DEFAULT CHARSET=utf8;") in
  let v_parent_unsigned := (PStr "CREATE TABLE `businesses` (`id` INT(10) UNSIGNED NOT NULL AUTO_INCREMENT,
`name` VARCHAR(255) NOT NULL DEFAULT '',
PRIMARY KEY (`id`)
) ENGINE=InnoDB DEFAULT CHARSET=utf8;") in
  let v_child_signed_ibfk := (PStr "CREATE TABLE `child_records` (`id` INT(10) NOT NULL AUTO_INCREMENT,
`business_id` INT(10) NOT NULL DEFAULT 0,
PRIMARY KEY (`id`),
KEY `idx_business_id` (`business_id`),
CONSTRAINT `child_records_ibfk_1` FOREIGN KEY (`business_id`) REFERENCES `businesses` (`id`) ON DELETE CASCADE
) ENGINE=InnoDB DEFAULT CHARSET=utf8;") in
  let v_child_unsigned_named := (PStr "CREATE TABLE `child_records` (`id` INT(10) UNSIGNED NOT NULL AUTO_INCREMENT,
`business_id` INT(10) UNSIGNED NOT NULL DEFAULT 0,
PRIMARY KEY (`id`),
KEY `idx_business_id` (`business_id`),
CONSTRAINT `business_id_businesses_fk` FOREIGN KEY (`business_id`) REFERENCES `businesses` (`id`) ON DELETE CASCADE
) ENGINE=InnoDB DEFAULT CHARSET=utf8;") in
  let v_db_from := (p_new "FileDatabase" [(PList [v_parent_signed; v_child_signed_ibfk])] (PDict [])) in
  let v_db_to := (p_new "FileDatabase" [(PList [v_parent_unsigned; v_child_unsigned_named])] (PDict [])) in
  let v_mygrate := (p_new "Mygration" [v_db_to; v_db_from] (PDict [])) in
  let v_ops := (p_comp (fun x_1 => (p_str x_1)) (fun x_1 => PBool true) (p_attr "operations" v_mygrate)) in
  let v_drop_old_count := (p_sum (p_comp (fun x_2 => (PNum (1)%Z)) (fun x_2 => (p_in (PStr "DROP FOREIGN KEY `child_records_ibfk_1`") x_2)) v_ops)) in
  let v_add_new_count := (p_sum (p_comp (fun x_3 => (PNum (1)%Z)) (fun x_3 => (p_in (PStr "ADD CONSTRAINT `business_id_businesses_fk`") x_3)) v_ops)) in
  let k4 := p_eq (PNum (1)%Z) v_drop_old_count in
  let k5 := p_eq (PNum (1)%Z) v_add_new_count in
  failing [k4; k5] = [].
Proof. vm_compute. reflexivity. Qed.

(** tests/integration/fk_column_type_change_test.py line 454 *)
Example fk_column_type_change_test_test_fk_name_mismatch_parent_only_change :
  let v_parent_signed := (PStr "CREATE TABLE `businesses` (`id` INT(10) NOT NULL AUTO_INCREMENT,
`name` VARCHAR(255) NOT NULL DEFAULT '',
PRIMARY KEY (`id`)
) ENGINE=InnoDB DEFAULT CHARSET=utf8;") in
  let v_parent_unsigned := (PStr "CREATE TABLE `businesses` (`id` INT(10) UNSIGNED NOT NULL AUTO_INCREMENT,
`name` VARCHAR(255) NOT NULL DEFAULT '',
PRIMARY KEY (`id`)
) ENGINE=InnoDB DEFAULT CHARSET=utf8;") in
  let v_child_unsigned_ibfk := (PStr "CREATE TABLE `child_records` (`id` INT(10) UNSIGNED NOT NULL AUTO_INCREMENT,
`business_id` INT(10) UNSIGNED NOT NULL DEFAULT 0,
PRIMARY KEY (`id`),
KEY `idx_business_id` (`business_id`),
CONSTRAINT `child_records_ibfk_1` FOREIGN KEY (`business_id`) REFERENCES `businesses` (`id`) ON DELETE CASCADE
) ENGINE=InnoDB DEFAULT CHARSET=utf8;") in
  let v_child_unsigned_named := (PStr "CREATE TABLE `child_records` (`id` INT(10) UNSIGNED NOT NULL AUTO_INCREMENT,
`business_id` INT(10) UNSIGNED NOT NULL DEFAULT 0,
PRIMARY KEY (`id`),
KEY `idx_business_id` (`business_id`),
CONSTRAINT `business_id_businesses_fk` FOREIGN KEY (`business_id`) REFERENCES `businesses` (`id`) ON DELETE CASCADE
) ENGINE=InnoDB DEFAULT CHARSET=utf8;") in
  let v_db_from := (p_new "FileDatabase" [(PList [v_parent_signed; v_child_unsigned_ibfk])] (PDict [])) in
  let v_db_to := (p_new "FileDatabase" [(PList [v_parent_unsigned; v_child_unsigned_named])] (PDict [])) in
  let v_mygrate := (p_new "Mygration" [v_db_to; v_db_from] (PDict [])) in
  let v_ops := (p_comp (fun x_1 => (p_str x_1)) (fun x_1 => PBool true) (p_attr "operations" v_mygrate)) in
  let v_all_ops_str := (p_method "join" (PStr " ") [v_ops]) in
  let k2 := is_true (p_in (PStr "DROP FOREIGN KEY `child_records_ibfk_1`") v_all_ops_str) in
  let k3 := is_true (p_in (PStr "ADD CONSTRAINT `business_id_businesses_fk`") v_all_ops_str) in
  failing [k2; k3] = [].
Proof. vm_compute. reflexivity. Qed.

(** tests/integration/fk_column_type_change_test.py line 495 *)
Example fk_column_type_change_test_test_table_being_dropped_with_fk_to_changing_column :
  let v_parent_signed := (PStr "CREATE TABLE `businesses` (`id` INT(10) NOT NULL AUTO_INCREMENT,
`name` VARCHAR(255) NOT NULL DEFAULT '',
PRIMARY KEY (`id`)
) ENGINE=InnoDB DEFAULT CHARSET=utf8;") in
  let v_parent_unsigned := (PStr "CREATE TABLE `businesses` (`id` INT(10) UNSIGNED NOT NULL AUTO_INCREMENT,
`name` VARCHAR(255) NOT NULL DEFAULT '',
PRIMARY KEY (`id`)
) ENGINE=InnoDB DEFAULT CHARSET=utf8;") in
  let v_child_to_drop := (PStr "CREATE TABLE `old_child` (`id` INT(10) NOT NULL AUTO_INCREMENT,
`business_id` INT(10) NOT NULL,
PRIMARY KEY (`id`),
KEY `business_id_idx` (`business_id`),
CONSTRAINT `old_child_ibfk_1` FOREIGN KEY (`business_id`) REFERENCES `businesses` (`id`) ON DELETE CASCADE
) ENGINE=InnoDB DEFAULT CHARSET=utf8;") in
  let v_db_from := (p_new "FileDatabase" [(PList [v_parent_signed; v_child_to_drop])] (PDict [])) in
  let v_db_to := (p_new "FileDatabase" [(PList [v_parent_unsigned])] (PDict [])) in
  let v_mygrate := (p_new "Mygration" [v_db_to; v_db_from] (PDict [])) in
  let v_ops := (p_comp (fun x_1 => (p_str x_1)) (fun x_1 => PBool true) (p_attr "operations" v_mygrate)) in
  let v_all_ops_str := (p_method "join" (PStr " ") [v_ops]) in
  let k2 := is_true (p_in (PStr "DROP FOREIGN KEY `old_child_ibfk_1`") v_all_ops_str) in
  let k3 := is_false (p_in (PStr "ADD CONSTRAINT `old_child_ibfk_1`") v_all_ops_str) in
  let v_drop_fk_indices := (p_comp (fun x_4 => (p_index x_4 (PNum 0%Z))) (fun x_4 => (p_in (PStr "DROP FOREIGN KEY `old_child_ibfk_1`") (p_index x_4 (PNum 1%Z)))) (p_enumerate v_ops)) in
  let v_change_indices := (p_comp (fun x_5 => (p_index x_5 (PNum 0%Z))) (fun x_5 => (p_in (PStr "CHANGE") (p_index x_5 (PNum 1%Z)))) (p_enumerate v_ops)) in
  let v_drop_table_indices := (p_comp (fun x_6 => (p_index x_6 (PNum 0%Z))) (fun x_6 => (p_in (PStr "DROP TABLE") (p_index x_6 (PNum 1%Z)))) (p_enumerate v_ops)) in
  let k7 := is_true v_drop_fk_indices in
  let k8 := is_true v_change_indices in
  let k9 := is_true v_drop_table_indices in
  let k10 := is_true (p_lt (p_max v_drop_fk_indices) (p_min v_change_indices)) in
  failing [k2; k3; k7; k8; k9; k10] = [].
Proof. vm_compute. reflexivity. Qed.

(** tests/integration/fk_column_type_change_test.py line 537 *)
Example fk_column_type_change_test_test_table_being_dropped_multiple_fks_to_changing_columns :
  let v_parent1_signed := (PStr "CREATE TABLE `businesses` (`id` INT(10) NOT NULL AUTO_INCREMENT,
`name` VARCHAR(255) NOT NULL DEFAULT '',
PRIMARY KEY (`id`)
) ENGINE=InnoDB DEFAULT CHARSET=utf8;") in
  let v_parent1_unsigned := (PStr "CREATE TABLE `businesses` (`id` INT(10) UNSIGNED NOT NULL AUTO_INCREMENT,
`name` VARCHAR(255) NOT NULL DEFAULT '',
PRIMARY KEY (`id`)
) ENGINE=InnoDB DEFAULT CHARSET=utf8;") in
  let v_parent2_signed := (PStr "CREATE TABLE `services` (`id` INT(10) NOT NULL AUTO_INCREMENT,
`label` VARCHAR(255) NOT NULL DEFAULT '',
PRIMARY KEY (`id`)
) ENGINE=InnoDB DEFAULT CHARSET=utf8;") in
  let v_parent2_unsigned := (PStr "CREATE TABLE `services` (`id` INT(10) UNSIGNED NOT NULL AUTO_INCREMENT,
`label` VARCHAR(255) NOT NULL DEFAULT '',
PRIMARY KEY (`id`)
) ENGINE=InnoDB DEFAULT CHARSET=utf8;") in
  let v_child_to_drop := (PStr "CREATE TABLE `old_junction` (`id` INT(10) NOT NULL AUTO_INCREMENT,
`business_id` INT(10) NOT NULL,
`service_id` INT(10) NOT NULL,
PRIMARY KEY (`id`),
KEY `biz_idx` (`business_id`),
KEY `svc_idx` (`service_id`),
CONSTRAINT `old_junction_ibfk_1` FOREIGN KEY (`business_id`) REFERENCES `businesses` (`id`) ON DELETE CASCADE,
CONSTRAINT `old_junction_ibfk_2` FOREIGN KEY (`service_id`) REFERENCES `services` (`id`) ON DELETE CASCADE
) ENGINE=InnoDB DEFAULT CHARSET=utf8;") in
  let v_db_from := (p_new "FileDatabase" [(PList [v_parent1_signed; v_parent2_signed; v_child_to_drop])] (PDict [])) in
  let v_db_to := (p_new "FileDatabase" [(PList [v_parent1_unsigned; v_parent2_unsigned])] (PDict [])) in
  let v_mygrate := (p_new "Mygration" [v_db_to; v_db_from] (PDict [])) in
  let v_ops := (p_comp (fun x_1 => (p_str x_1)) (fun x_1 => PBool true) (p_attr "operations" v_mygrate)) in
  let v_all_ops_str := (p_method "join" (PStr " ") [v_ops]) in
  let k2 := is_true (p_in (PStr "DROP FOREIGN KEY `old_junction_ibfk_1`") v_all_ops_str) in
  let k3 := is_true (p_in (PStr "DROP FOREIGN KEY `old_junction_ibfk_2`") v_all_ops_str) in
  let k4 := is_false (p_in (PStr "ADD CONSTRAINT `old_junction_ibfk_1`") v_all_ops_str) in
  let k5 := is_false (p_in (PStr "ADD CONSTRAINT `old_junction_ibfk_2`") v_all_ops_str) in
  failing [k2; k3; k4; k5] = [].
Proof. vm_compute. reflexivity. Qed.

(** tests/integration/mygrate_nulls_test.py line 8 *)
Example mygrate_nulls_test_test_diff_with_null :
  let v_tables := (p_dict [((PStr "logs"), (PStr "
                CREATE TABLE `logs` (
                    `id` int(10) unsigned NOT NULL AUTO_INCREMENT,
                    `message` TEXT NOT NULL,
                    `traceback` text,
                    PRIMARY KEY (`id`)
                ) ENGINE=InnoDB DEFAULT CHARSET=utf8;"))]) in
  let v_rows := (p_dict [((PStr "logs"), (PList [(p_dict [((PStr "id"), (PNum (1)%Z)); ((PStr "message"), (PStr "from null to value")); ((PStr "traceback"), PNone)]); (p_dict [((PStr "id"), (PNum (2)%Z)); ((PStr "message"), (PStr "from value to null")); ((PStr "traceback"), (PStr "forever"))]); (p_dict [((PStr "id"), (PNum (3)%Z)); ((PStr "message"), (PStr "from null to null")); ((PStr "traceback"), PNone)])]))]) in
  let v_db_db := (p_new "LiveDatabase" [(p_new "PyMySQL" [] (p_merge [(PDict [("connection", (p_new "DbStructure" [v_tables; v_rows] (PDict [])))])]))] (PDict [])) in
  let v_db_db := p_mut "read_rows" v_db_db [(PStr "logs")] in
  let v_table1 := (PStr "CREATE TABLE `logs` (
            `id` int(10) unsigned NOT NULL AUTO_INCREMENT,
            `message` TEXT NOT NULL,
            `traceback` text,
            PRIMARY KEY (`id`)
        ) ENGINE=InnoDB DEFAULT CHARSET=utf8;

        INSERT INTO logs (id,message,traceback) VALUES (1,'from null to value', 'HEY');
        INSERT INTO logs (id,message,traceback) VALUES (2,'from value to null', NULL);
        INSERT INTO logs (id,message,traceback) VALUES (3,'from null to null', NULL);
        INSERT INTO logs (id,message,traceback) VALUES (4,'Insert Null',NULL);
        ") in
  let v_files_db := (p_new "FileDatabase" [(PList [v_table1])] (PDict [])) in
  let v_mygrate := (p_new "RowMygration" [v_files_db; v_db_db] (PDict [])) in
  let v_ops := (p_comp (fun x_1 => (p_str x_1)) (fun x_1 => PBool true) v_mygrate) in
  let k2 := p_eq (PNum (3)%Z) (p_len v_ops) in
  let k3 := is_true (p_in (PStr "INSERT INTO `logs` (`id`, `message`, `traceback`) VALUES ('4', 'Insert Null', NULL);") v_ops) in
  let k4 := is_true (p_in (PStr "UPDATE `logs` SET `message`='from null to value', `traceback`='HEY' WHERE id='1';") v_ops) in
  let k5 := is_true (p_in (PStr "UPDATE `logs` SET `message`='from value to null', `traceback`=NULL WHERE id='2';") v_ops) in
  failing [k2; k3; k4; k5] = [].
Proof. vm_compute. reflexivity. Qed.

(** tests/integration/mygrate_rows_different_types_test.py line 21 *)
Example mygrate_rows_different_types_test_test_modify_rows :
  let ret_1 := (p_dict [((PStr "logs"), (PStr "
                CREATE TABLE `logs` (
                    `id` int(10) unsigned NOT NULL AUTO_INCREMENT,
                    `account_id` int(10) unsigned not null,
                    `message` TEXT NOT NULL,
                    PRIMARY KEY (`id`)
                ) ENGINE=InnoDB DEFAULT CHARSET=utf8;"))]) in
  let v_tables := ret_1 in
  let v_rows := (p_dict [((PStr "logs"), (PList [(p_dict [((PStr "id"), (PNum (1)%Z)); ((PStr "account_id"), (PNum (1)%Z)); ((PStr "message"), (PStr "hey"))]); (p_dict [((PStr "id"), (PNum (2)%Z)); ((PStr "account_id"), (PNum (1)%Z)); ((PStr "message"), (PStr "sup"))])]))]) in
  let v_database := (p_new "LiveDatabase" [(p_new "PyMySQL" [] (p_merge [(PDict [("connection", (p_new "DbStructure" [v_tables; v_rows] (PDict [])))])]))] (PDict [])) in
  let v_database := p_mut "read_rows" v_database [(PStr "logs")] in
  let v_rows_from := (p_dict [((PStr "logs"), (PList [(p_dict [((PStr "id"), (PNum (1)%Z)); ((PStr "account_id"), (PStr "1")); ((PStr "message"), (PStr "hey"))]); (p_dict [((PStr "id"), (PNum (2)%Z)); ((PStr "account_id"), (PStr "1")); ((PStr "message"), (PStr "sup"))])]))]) in
  let v_database_from := (p_new "LiveDatabase" [(p_new "PyMySQL" [] (p_merge [(PDict [("connection", (p_new "DbStructure" [v_tables; v_rows_from] (PDict [])))])]))] (PDict [])) in
  let v_database_from := p_mut "read_rows" v_database_from [(PStr "logs")] in
  let v_operations := (p_comp (fun x_2 => (p_str x_2)) (fun x_2 => PBool true) (p_attr "operations" (p_new "RowMygration" [v_database; v_database_from] (PDict [])))) in
  let k3 := p_eq (PNum (0)%Z) (p_len v_operations) in
  failing [k3] = [].
Proof. vm_compute. reflexivity. Qed.

(** tests/integration/mygrate_rows_simple_test.py line 29 *)
Example mygrate_rows_simple_test_test_add_rows :
  let ret_1 := (p_dict [((PStr "logs"), (PStr "
                CREATE TABLE `logs` (
                    `id` int(10) unsigned NOT NULL AUTO_INCREMENT,
                    `message` TEXT NOT NULL,
                    `traceback` text,
                    PRIMARY KEY (`id`)
                ) ENGINE=InnoDB DEFAULT CHARSET=utf8;")); ((PStr "more_logs"), (PStr "
                CREATE TABLE `more_logs` (
                    `id` int(10) unsigned NOT NULL AUTO_INCREMENT,
                    `more_messages` TEXT NOT NULL,
                    `traceback` text,
                    PRIMARY KEY (`id`)
                ) ENGINE=InnoDB DEFAULT CHARSET=utf8;"))]) in
  let v_tables := ret_1 in
  let v_rows := (p_dict [((PStr "logs"), (PList [(p_dict [((PStr "id"), (PNum (1)%Z)); ((PStr "message"), (PStr "hey")); ((PStr "traceback"), (PStr "never"))]); (p_dict [((PStr "id"), (PNum (2)%Z)); ((PStr "message"), (PStr "sup")); ((PStr "traceback"), (PStr "forever"))])]))]) in
  let v_database := (p_new "LiveDatabase" [(p_new "PyMySQL" [] (p_merge [(PDict [("connection", (p_new "DbStructure" [v_tables; v_rows] (PDict [])))])]))] (PDict [])) in
  let v_database := p_mut "read_rows" v_database [(PStr "logs")] in
  let v_operations := (p_comp (fun x_2 => (p_str x_2)) (fun x_2 => PBool true) (p_attr "operations" (p_new "RowMygration" [v_database] (PDict [])))) in
  let k3 := p_eq (PNum (2)%Z) (p_len v_operations) in
  let k4 := p_eq (PStr "INSERT INTO `logs` (`id`, `message`, `traceback`) VALUES ('1', 'hey', 'never');") (p_index v_operations (PNum (0)%Z)) in
  let k5 := p_eq (PStr "INSERT INTO `logs` (`id`, `message`, `traceback`) VALUES ('2', 'sup', 'forever');") (p_index v_operations (PNum (1)%Z)) in
  failing [k3; k4; k5] = [].
Proof. vm_compute. reflexivity. Qed.

(** tests/integration/mygrate_rows_simple_test.py line 57 *)
Example mygrate_rows_simple_test_test_modify_rows :
  let ret_1 := (p_dict [((PStr "logs"), (PStr "
                CREATE TABLE `logs` (
                    `id` int(10) unsigned NOT NULL AUTO_INCREMENT,
                    `message` TEXT NOT NULL,
                    `traceback` text,
                    PRIMARY KEY (`id`)
                ) ENGINE=InnoDB DEFAULT CHARSET=utf8;")); ((PStr "more_logs"), (PStr "
                CREATE TABLE `more_logs` (
                    `id` int(10) unsigned NOT NULL AUTO_INCREMENT,
                    `more_messages` TEXT NOT NULL,
                    `traceback` text,
                    PRIMARY KEY (`id`)
                ) ENGINE=InnoDB DEFAULT CHARSET=utf8;"))]) in
  let v_tables := ret_1 in
  let v_rows := (p_dict [((PStr "logs"), (PList [(p_dict [((PStr "id"), (PNum (1)%Z)); ((PStr "message"), (PStr "hey")); ((PStr "traceback"), (PStr "never"))]); (p_dict [((PStr "id"), (PNum (2)%Z)); ((PStr "message"), (PStr "sup")); ((PStr "traceback"), (PStr "forever"))])]))]) in
  let v_database := (p_new "LiveDatabase" [(p_new "PyMySQL" [] (p_merge [(PDict [("connection", (p_new "DbStructure" [v_tables; v_rows] (PDict [])))])]))] (PDict [])) in
  let v_database := p_mut "read_rows" v_database [(PStr "logs")] in
  let v_rows_from := (p_dict [((PStr "logs"), (PList [(p_dict [((PStr "id"), (PNum (1)%Z)); ((PStr "message"), (PStr "hey")); ((PStr "traceback"), (PStr "bah"))]); (p_dict [((PStr "id"), (PNum (2)%Z)); ((PStr "message"), (PStr "sup")); ((PStr "traceback"), (PStr "forever"))])]))]) in
  let v_database_from := (p_new "LiveDatabase" [(p_new "PyMySQL" [] (p_merge [(PDict [("connection", (p_new "DbStructure" [v_tables; v_rows_from] (PDict [])))])]))] (PDict [])) in
  let v_database_from := p_mut "read_rows" v_database_from [(PStr "logs")] in
  let v_operations := (p_comp (fun x_2 => (p_str x_2)) (fun x_2 => PBool true) (p_attr "operations" (p_new "RowMygration" [v_database; v_database_from] (PDict [])))) in
  let k3 := p_eq (PNum (1)%Z) (p_len v_operations) in
  let k4 := p_eq (PStr "UPDATE `logs` SET `message`='hey', `traceback`='never' WHERE id='1';") (p_index v_operations (PNum (0)%Z)) in
  failing [k3; k4] = [].
Proof. vm_compute. reflexivity. Qed.

(** tests/integration/mygrate_rows_simple_test.py line 94 *)
Example mygrate_rows_simple_test_test_delete_rows :
  let ret_1 := (p_dict [((PStr "logs"), (PStr "
                CREATE TABLE `logs` (
                    `id` int(10) unsigned NOT NULL AUTO_INCREMENT,
                    `message` TEXT NOT NULL,
                    `traceback` text,
                    PRIMARY KEY (`id`)
                ) ENGINE=InnoDB DEFAULT CHARSET=utf8;")); ((PStr "more_logs"), (PStr "
                CREATE TABLE `more_logs` (
                    `id` int(10) unsigned NOT NULL AUTO_INCREMENT,
                    `more_messages` TEXT NOT NULL,
                    `traceback` text,
                    PRIMARY KEY (`id`)
                ) ENGINE=InnoDB DEFAULT CHARSET=utf8;"))]) in
  let v_tables := ret_1 in
  let v_rows := (p_dict [((PStr "logs"), (PList [(p_dict [((PStr "id"), (PNum (2)%Z)); ((PStr "message"), (PStr "sup")); ((PStr "traceback"), (PStr "forever"))])]))]) in
  let v_database := (p_new "LiveDatabase" [(p_new "PyMySQL" [] (p_merge [(PDict [("connection", (p_new "DbStructure" [v_tables; v_rows] (PDict [])))])]))] (PDict [])) in
  let v_database := p_mut "read_rows" v_database [(PStr "logs")] in
  let v_rows_from := (p_dict [((PStr "logs"), (PList [(p_dict [((PStr "id"), (PNum (1)%Z)); ((PStr "message"), (PStr "hey")); ((PStr "traceback"), (PStr "never"))]); (p_dict [((PStr "id"), (PNum (2)%Z)); ((PStr "message"), (PStr "sup")); ((PStr "traceback"), (PStr "forever"))])]))]) in
  let v_database_from := (p_new "LiveDatabase" [(p_new "PyMySQL" [] (p_merge [(PDict [("connection", (p_new "DbStructure" [v_tables; v_rows_from] (PDict [])))])]))] (PDict [])) in
  let v_database_from := p_mut "read_rows" v_database_from [(PStr "logs")] in
  let v_operations := (p_comp (fun x_2 => (p_str x_2)) (fun x_2 => PBool true) (p_attr "operations" (p_new "RowMygration" [v_database; v_database_from] (PDict [])))) in
  let k3 := p_eq (PNum (1)%Z) (p_len v_operations) in
  let k4 := p_eq (PStr "DELETE FROM `logs` WHERE id='1';") (p_index v_operations (PNum (0)%Z)) in
  failing [k3; k4] = [].
Proof. vm_compute. reflexivity. Qed.

(** tests/integration/mygrate_rows_simple_test.py line 121 *)
Example mygrate_rows_simple_test_test_all :
  let ret_1 := (p_dict [((PStr "logs"), (PStr "
                CREATE TABLE `logs` (
                    `id` int(10) unsigned NOT NULL AUTO_INCREMENT,
                    `message` TEXT NOT NULL,
                    `traceback` text,
                    PRIMARY KEY (`id`)
                ) ENGINE=InnoDB DEFAULT CHARSET=utf8;")); ((PStr "more_logs"), (PStr "
                CREATE TABLE `more_logs` (
                    `id` int(10) unsigned NOT NULL AUTO_INCREMENT,
                    `more_messages` TEXT NOT NULL,
                    `traceback` text,
                    PRIMARY KEY (`id`)
                ) ENGINE=InnoDB DEFAULT CHARSET=utf8;"))]) in
  let v_tables := ret_1 in
  let v_rows := (p_dict [((PStr "logs"), (PList [(p_dict [((PStr "id"), (PNum (2)%Z)); ((PStr "message"), (PStr "sup")); ((PStr "traceback"), (PStr "whatever"))]); (p_dict [((PStr "id"), (PNum (3)%Z)); ((PStr "message"), (PStr "okay")); ((PStr "traceback"), (PStr "always"))])]))]) in
  let v_database := (p_new "LiveDatabase" [(p_new "PyMySQL" [] (p_merge [(PDict [("connection", (p_new "DbStructure" [v_tables; v_rows] (PDict [])))])]))] (PDict [])) in
  let v_database := p_mut "read_rows" v_database [(PStr "logs")] in
  let v_rows_from := (p_dict [((PStr "logs"), (PList [(p_dict [((PStr "id"), (PNum (1)%Z)); ((PStr "message"), (PStr "hey")); ((PStr "traceback"), (PStr "never"))]); (p_dict [((PStr "id"), (PNum (2)%Z)); ((PStr "message"), (PStr "sup")); ((PStr "traceback"), (PStr "forever"))])]))]) in
  let v_database_from := (p_new "LiveDatabase" [(p_new "PyMySQL" [] (p_merge [(PDict [("connection", (p_new "DbStructure" [v_tables; v_rows_from] (PDict [])))])]))] (PDict [])) in
  let v_database_from := p_mut "read_rows" v_database_from [(PStr "logs")] in
  let v_operations := (p_comp (fun x_2 => (p_str x_2)) (fun x_2 => PBool true) (p_attr "operations" (p_new "RowMygration" [v_database; v_database_from] (PDict [])))) in
  let k3 := p_eq (PNum (3)%Z) (p_len v_operations) in
  let k4 := is_true (p_in (PStr "INSERT INTO `logs` (`id`, `message`, `traceback`) VALUES ('3', 'okay', 'always');") v_operations) in
  let k5 := is_true (p_in (PStr "DELETE FROM `logs` WHERE id='1';") v_operations) in
  let k6 := is_true (p_in (PStr "UPDATE `logs` SET `message`='sup', `traceback`='whatever' WHERE id='2';") v_operations) in
  failing [k3; k4; k5; k6] = [].
Proof. vm_compute. reflexivity. Qed.

(** tests/integration/regression_test.py line 7 *)
Example regression_test_test_payment_request_types :
  let v_parser := (p_new "Reader" [] (PDict [])) in
  let v_parser := p_parse v_parser (PStr "CREATE TABLE `payment_request_types` (
  `id` INT(10) UNSIGNED NOT NULL AUTO_INCREMENT,
  `name` VARCHAR(255) COLLATE utf8_unicode_ci NOT NULL DEFAULT '',
  `slug` VARCHAR(255) COLLATE utf8_unicode_ci NOT NULL DEFAULT '',
  `order_by` INT(11) NOT NULL DEFAULT 0,
  PRIMARY KEY (`id`),
  KEY `order_by_payment_request_types` (`order_by`)
) ENGINE=InnoDB DEFAULT CHARSET=utf8 COLLATE=utf8_unicode_ci;

INSERT INTO payment_request_types (id,name,slug,order_by) VALUES (1,'Standard','standard',1),(2,'Special Circumstances','emergency',2);") in
  let v_returned := (p_returned v_parser) in
  let k1 := is_true (p_attr "matched" v_parser) in
  let k2 := p_eq (PStr "") v_returned in
  let k3 := p_eq (PList []) (p_attr "schema_errors" v_parser) in
  let k4 := p_eq (PList []) (p_attr "parsing_errors" v_parser) in
  failing [k1; k2; k3; k4] = [].
Proof. vm_compute. reflexivity. Qed.

(** tests/integration/regression_test.py line 33 *)
Example regression_test_test_employee_contract_list :
  let v_db := (p_new "FileDatabase" [(PStr "CREATE TABLE `employee_contract_list` (
 `id` int(10) NOT NULL AUTO_INCREMENT,
 `account_id` int(10) unsigned NOT NULL,
 `name` varchar(255) NOT NULL,
 `display` varchar(255) NOT NULL,
 `table_name` varchar(255) NOT NULL,
 `employee_field_name` varchar(255) NOT NULL,
 `link` varchar(255) NOT NULL,
 PRIMARY KEY (`id`),
 KEY `employee_contact_list_account_id_ref_accounts_id` (`account_id`),
 CONSTRAINT `employee_contact_list_account_id_ref_accounts_id` FOREIGN KEY (`account_id`) REFERENCES `accounts` (`id`) ON DELETE CASCADE ON UPDATE CASCADE
) ENGINE=InnoDB DEFAULT CHARSET=utf8;

INSERT INTO `employee_contract_list` (`id`, `account_id`, `name`, `display`, `table_name`, `employee_field_name`, `link`) VALUES
(1, 1, 'main_contract', 'Employee Contract', 'employee_main_contracts', 'main_contract_id', 'hr/contracts/sign_main_contract'),
(2, 1, 'nda', 'Non-Disclosure Agreement ', 'employee_ndas', 'nda_id', 'hr/contracts/sign_nda'),
(3, 1, 'non_compete', 'Employee No Compete Agreement', 'employee_no_competes', 'no_compete_id', 'hr/contracts/complete_non_compete'),
(4, 1, 'dd_auth', 'Direct Deposit Authorization', 'employee_dd_auths', 'dd_auth_id', 'hr/contracts/complete_dd_auth'),
(5, 1, 'property_agreement', 'Company Property Return/Receipt', 'employee_property_agrees', 'property_receipt_id', 'hr/contracts/property_agreement'),
(6, 1, 'background_ck_agreement', 'Background Check Agreement', 'employee_background_ck_releases', 'background_ck_id', 'hr/contracts/background_ck_agreement'),
(7, 1, 'employee_handbook', 'Employee Handbook Receipt', 'employee_handbook_receipts', 'handbook_receipt_id', 'hr/contracts/sign_employee_handbook'),
(8, 1, 'cell_phone_policy', 'Company Cell Phone Policy', 'employee_cell_policy_receipts', 'cell_policy_receipt_id', 'hr/contracts/sign_cell_phone_policy'),
(9, 1, 'fed_w4', 'Federal W-4', 'employee_fed_w4s', 'fed_w4_id', 'hr/tax_forms/complete_fed_w4'),
(10, 1, 'ga_w4', 'Georgia W-4', 'employee_ga_w4s', 'ga_w4_id', 'hr/tax_forms/complete_ga_w4'),
(11, 1, 'al_a4', 'Alabama A-4', 'employee_al_a4s', 'al_w4_id', 'hr/tax_forms/complete_al_a4'),
(12, 1, 'fed_i9', 'Federal I-9', 'employee_fed_i9s', 'fed_i9_id', 'hr/tax_forms/complete_fed_i9');")] (PDict [])) in
  let k1 := p_eq (PList [(PStr "Constraint error for foreign key `employee_contact_list_account_id_ref_accounts_id`: `employee_contract_list`.`account_id` references `accounts`.`id`, but table `accounts` does not exist")]) (p_attr "errors" v_db) in
  failing [k1] = [].
Proof. vm_compute. reflexivity. Qed.

(** tests/integration/simple_modify_test.py line 25 *)
Example simple_modify_test_test_simple_add_and_modify :
  let v_table1 := (PStr "CREATE TABLE `tasks` (`id` INT(10) UNSIGNED NOT NULL AUTO_INCREMENT,
            `account_id` INT(10) UNSIGNED NOT NULL,
            `repeating_task_id` INT(10) UNSIGNED NOT NULL,
            `name` VARCHAR(255) NOT NULL DEFAULT '',
            `subject` TEXT,
            PRIMARY KEY (`id`),
            KEY `account_id_tasks` (`account_id`),
            KEY `repeating_task_id_tasks` (`repeating_task_id`),
            CONSTRAINT `account_id_tasks_fk` FOREIGN KEY (`account_id`) REFERENCES `accounts` (`id`) ON DELETE CASCADE ON UPDATE CASCADE,
            ) ENGINE=InnoDB DEFAULT CHARSET=utf8;") in
  let v_table3 := (PStr "CREATE TABLE `histories` (`id` INT(10) UNSIGNED NOT NULL AUTO_INCREMENT,
`name` VARCHAR(255) NOT NULL DEFAULT '',
PRIMARY KEY (`id`)) ENGINE=InnoDB DEFAULT CHARSET=utf8;") in
  let v_db2 := (p_new "FileDatabase" [(PList [v_table1; (PStr "CREATE TABLE `accounts` (`id` INT(10) UNSIGNED NOT NULL AUTO_INCREMENT,
            `name` VARCHAR(255) NOT NULL DEFAULT '',
            PRIMARY KEY (`id`)
            ) ENGINE=InnoDB DEFAULT CHARSET=utf8;"); v_table3])] (PDict [])) in
  let v_table1 := (PStr "CREATE TABLE `tasks` (`id` INT(10) UNSIGNED NOT NULL AUTO_INCREMENT,
            `account_id` INT(10) UNSIGNED NOT NULL,
            `repeating_task_id` INT(10) UNSIGNED NOT NULL,
            `name` VARCHAR(255) NOT NULL DEFAULT '',
            PRIMARY KEY (`id`),
            KEY `account_id_tasks` (`account_id`),
            KEY `repeating_task_id_tasks` (`repeating_task_id`),
            CONSTRAINT `account_id_tasks_fk` FOREIGN KEY (`account_id`) REFERENCES `accounts` (`id`) ON DELETE CASCADE ON UPDATE CASCADE,
            ) ENGINE=InnoDB DEFAULT CHARSET=utf8;") in
  let ret_1 := (p_new "FileDatabase" [(PList [v_table1; (PStr "CREATE TABLE `accounts` (`id` INT(10) UNSIGNED NOT NULL AUTO_INCREMENT,
            `name` VARCHAR(255) NOT NULL DEFAULT '',
            PRIMARY KEY (`id`)
            ) ENGINE=InnoDB DEFAULT CHARSET=utf8;")])] (PDict [])) in
  let v_db1 := ret_1 in
  let v_mygrate := (p_new "Mygration" [v_db2; v_db1] (PDict [])) in
  let v_ops := (p_comp (fun x_2 => (p_str x_2)) (fun x_2 => PBool true) (p_attr "operations" v_mygrate)) in
  let k3 := p_eq (PStr "SET FOREIGN_KEY_CHECKS=0;") (p_index v_ops (PNum (0)%Z)) in
  let k4 := p_eq v_table3 (p_index v_ops (PNum (1)%Z)) in
  let k5 := p_eq (PStr "ALTER TABLE `tasks` ADD `subject` TEXT AFTER `name`;") (p_index v_ops (PNum (2)%Z)) in
  let k6 := p_eq (PStr "SET FOREIGN_KEY_CHECKS=1;") (p_index v_ops (PNum (3)%Z)) in
  failing [k3; k4; k5; k6] = [].
Proof. vm_compute. reflexivity. Qed.

(** tests/integration/simple_modify_test.py line 52 *)
Example simple_modify_test_test_add_column_and_mutually_dependent_fk :
  let v_table1 := (PStr "CREATE TABLE `tasks` (`id` INT(10) UNSIGNED NOT NULL AUTO_INCREMENT,
`account_id` INT(10) UNSIGNED NOT NULL,
`repeating_task_id` INT(10) UNSIGNED NOT NULL,
`name` VARCHAR(255) NOT NULL DEFAULT '',
`subject` TEXT,
PRIMARY KEY (`id`),
KEY `account_id_tasks` (`account_id`),
KEY `repeating_task_id_tasks` (`repeating_task_id`),
CONSTRAINT `account_id_tasks_fk` FOREIGN KEY (`account_id`) REFERENCES `accounts` (`id`) ON DELETE CASCADE ON UPDATE CASCADE,
CONSTRAINT `repeating_task_id_tasks_fk` FOREIGN KEY (`repeating_task_id`) REFERENCES `repeating_tasks` (`id`) ON DELETE CASCADE ON UPDATE CASCADE) ENGINE=InnoDB DEFAULT CHARSET=utf8;") in
  let v_table2 := (PStr "CREATE TABLE `repeating_tasks` (`id` INT(10) UNSIGNED NOT NULL AUTO_INCREMENT,
`account_id` INT(10) UNSIGNED NOT NULL,
`task_id` INT(10) UNSIGNED NOT NULL,
`name` VARCHAR(255) NOT NULL DEFAULT '',
PRIMARY KEY (`id`),
KEY `account_id_rts` (`account_id`),
KEY `task_id_rts` (`task_id`),
CONSTRAINT `account_id_repeating_tasks_fk` FOREIGN KEY (`account_id`) REFERENCES `accounts` (`id`) ON DELETE CASCADE ON UPDATE CASCADE,
CONSTRAINT `task_id_rts` FOREIGN KEY (`task_id`) REFERENCES `tasks` (`id`) ON DELETE CASCADE ON UPDATE CASCADE) ENGINE=InnoDB DEFAULT CHARSET=utf8;") in
  let v_db2 := (p_new "FileDatabase" [(PList [v_table1; v_table2; (PStr "CREATE TABLE `accounts` (`id` INT(10) UNSIGNED NOT NULL AUTO_INCREMENT,
            `name` VARCHAR(255) NOT NULL DEFAULT '',
            PRIMARY KEY (`id`)
            ) ENGINE=InnoDB DEFAULT CHARSET=utf8;")])] (PDict [])) in
  let v_table1 := (PStr "CREATE TABLE `tasks` (`id` INT(10) UNSIGNED NOT NULL AUTO_INCREMENT,
            `account_id` INT(10) UNSIGNED NOT NULL,
            `repeating_task_id` INT(10) UNSIGNED NOT NULL,
            `name` VARCHAR(255) NOT NULL DEFAULT '',
            PRIMARY KEY (`id`),
            KEY `account_id_tasks` (`account_id`),
            KEY `repeating_task_id_tasks` (`repeating_task_id`),
            CONSTRAINT `account_id_tasks_fk` FOREIGN KEY (`account_id`) REFERENCES `accounts` (`id`) ON DELETE CASCADE ON UPDATE CASCADE,
            ) ENGINE=InnoDB DEFAULT CHARSET=utf8;") in
  let ret_1 := (p_new "FileDatabase" [(PList [v_table1; (PStr "CREATE TABLE `accounts` (`id` INT(10) UNSIGNED NOT NULL AUTO_INCREMENT,
            `name` VARCHAR(255) NOT NULL DEFAULT '',
            PRIMARY KEY (`id`)
            ) ENGINE=InnoDB DEFAULT CHARSET=utf8;")])] (PDict [])) in
  let v_mygrate := (p_new "Mygration" [v_db2; ret_1] (PDict [])) in
  let v_ops := (p_comp (fun x_2 => (p_str x_2)) (fun x_2 => PBool true) (p_attr "operations" v_mygrate)) in
  let k3 := p_eq (PStr "SET FOREIGN_KEY_CHECKS=0;") (p_index v_ops (PNum (0)%Z)) in
  let k4 := p_eq v_table2 (p_index v_ops (PNum (1)%Z)) in
  let k5 := p_eq (PStr "ALTER TABLE `tasks` ADD `subject` TEXT AFTER `name`;") (p_index v_ops (PNum (2)%Z)) in
  let k6 := p_eq (PStr "ALTER TABLE `tasks` ADD CONSTRAINT `repeating_task_id_tasks_fk` FOREIGN KEY (`repeating_task_id`) REFERENCES `repeating_tasks` (`id`) ON DELETE CASCADE ON UPDATE CASCADE;") (p_index v_ops (PNum (3)%Z)) in
  let k7 := p_eq (PStr "SET FOREIGN_KEY_CHECKS=1;") (p_index v_ops (PNum (4)%Z)) in
  failing [k3; k4; k5; k6; k7] = [].
Proof. vm_compute. reflexivity. Qed.

(** tests/integration/simple_modify_test.py line 88 *)
Example simple_modify_test_test_all_key_adjustments :
  let v_table1 := (PStr "CREATE TABLE `tasks` (`id` INT(10) UNSIGNED NOT NULL AUTO_INCREMENT,
            `account_id` INT(10) UNSIGNED NOT NULL,
            `repeating_task_id` INT(10) UNSIGNED NOT NULL,
            `name` VARCHAR(255) NOT NULL DEFAULT '',
            PRIMARY KEY (`id`),
            KEY `account_id_tasks` (`account_id`,`name`),
            KEY `cool_key` (`name`),
            CONSTRAINT `account_id_tasks_fk` FOREIGN KEY (`account_id`) REFERENCES `accounts` (`id`) ON DELETE CASCADE ON UPDATE CASCADE,
            ) ENGINE=InnoDB DEFAULT CHARSET=utf8;") in
  let v_db2 := (p_new "FileDatabase" [(PList [v_table1; (PStr "CREATE TABLE `accounts` (`id` INT(10) UNSIGNED NOT NULL AUTO_INCREMENT,
            `name` VARCHAR(255) NOT NULL DEFAULT '',
            PRIMARY KEY (`id`)
            ) ENGINE=InnoDB DEFAULT CHARSET=utf8;")])] (PDict [])) in
  let v_table1 := (PStr "CREATE TABLE `tasks` (`id` INT(10) UNSIGNED NOT NULL AUTO_INCREMENT,
            `account_id` INT(10) UNSIGNED NOT NULL,
            `repeating_task_id` INT(10) UNSIGNED NOT NULL,
            `name` VARCHAR(255) NOT NULL DEFAULT '',
            PRIMARY KEY (`id`),
            KEY `account_id_tasks` (`account_id`),
            KEY `repeating_task_id_tasks` (`repeating_task_id`),
            CONSTRAINT `account_id_tasks_fk` FOREIGN KEY (`account_id`) REFERENCES `accounts` (`id`) ON DELETE CASCADE ON UPDATE CASCADE,
            ) ENGINE=InnoDB DEFAULT CHARSET=utf8;") in
  let ret_1 := (p_new "FileDatabase" [(PList [v_table1; (PStr "CREATE TABLE `accounts` (`id` INT(10) UNSIGNED NOT NULL AUTO_INCREMENT,
            `name` VARCHAR(255) NOT NULL DEFAULT '',
            PRIMARY KEY (`id`)
            ) ENGINE=InnoDB DEFAULT CHARSET=utf8;")])] (PDict [])) in
  let v_db1 := ret_1 in
  let v_mygrate := (p_new "Mygration" [v_db2; v_db1] (PDict [])) in
  let v_ops := (p_comp (fun x_2 => (p_str x_2)) (fun x_2 => PBool true) (p_attr "operations" v_mygrate)) in
  let k3 := p_eq (PStr "SET FOREIGN_KEY_CHECKS=0;") (p_index v_ops (PNum (0)%Z)) in
  let k4 := p_eq (PStr "ALTER TABLE `tasks` ADD KEY `cool_key` (`name`), DROP KEY `repeating_task_id_tasks`, DROP KEY `account_id_tasks`, ADD KEY `account_id_tasks` (`account_id`,`name`);") (p_index v_ops (PNum (1)%Z)) in
  let k5 := p_eq (PStr "SET FOREIGN_KEY_CHECKS=1;") (p_index v_ops (PNum (2)%Z)) in
  failing [k3; k4; k5] = [].
Proof. vm_compute. reflexivity. Qed.

(** tests/integration/simple_modify_test.py line 113 *)
Example simple_modify_test_test_all_column_adjustments :
  let v_table1 := (PStr "CREATE TABLE `tasks` (`id` INT(10) UNSIGNED NOT NULL AUTO_INCREMENT,
            `account_id` INT(10) UNSIGNED NOT NULL,
            `name` CHAR(16) DEFAULT NULL,
            `subject` TEXT,
            PRIMARY KEY (`id`),
            KEY `account_id_tasks` (`account_id`),
            CONSTRAINT `account_id_tasks_fk` FOREIGN KEY (`account_id`) REFERENCES `accounts` (`id`) ON DELETE CASCADE ON UPDATE CASCADE
            ) ENGINE=InnoDB DEFAULT CHARSET=utf8;") in
  let v_db2 := (p_new "FileDatabase" [(PList [v_table1; (PStr "CREATE TABLE `accounts` (`id` INT(10) UNSIGNED NOT NULL AUTO_INCREMENT,
            `name` VARCHAR(255) NOT NULL DEFAULT '',
            PRIMARY KEY (`id`)
            ) ENGINE=InnoDB DEFAULT CHARSET=utf8;")])] (PDict [])) in
  let v_table1 := (PStr "CREATE TABLE `tasks` (`id` INT(10) UNSIGNED NOT NULL AUTO_INCREMENT,
            `account_id` INT(10) UNSIGNED NOT NULL,
            `repeating_task_id` INT(10) UNSIGNED NOT NULL,
            `name` VARCHAR(255) NOT NULL DEFAULT '',
            PRIMARY KEY (`id`),
            KEY `account_id_tasks` (`account_id`),
            KEY `repeating_task_id_tasks` (`repeating_task_id`),
            CONSTRAINT `account_id_tasks_fk` FOREIGN KEY (`account_id`) REFERENCES `accounts` (`id`) ON DELETE CASCADE ON UPDATE CASCADE,
            ) ENGINE=InnoDB DEFAULT CHARSET=utf8;") in
  let ret_1 := (p_new "FileDatabase" [(PList [v_table1; (PStr "CREATE TABLE `accounts` (`id` INT(10) UNSIGNED NOT NULL AUTO_INCREMENT,
            `name` VARCHAR(255) NOT NULL DEFAULT '',
            PRIMARY KEY (`id`)
            ) ENGINE=InnoDB DEFAULT CHARSET=utf8;")])] (PDict [])) in
  let v_db1 := ret_1 in
  let v_mygrate := (p_new "Mygration" [v_db2; v_db1] (PDict [])) in
  let v_ops := (p_comp (fun x_2 => (p_str x_2)) (fun x_2 => PBool true) (p_attr "operations" v_mygrate)) in
  let k3 := p_eq (PStr "SET FOREIGN_KEY_CHECKS=0;") (p_index v_ops (PNum (0)%Z)) in
  let k4 := p_eq (PStr "ALTER TABLE `tasks` ADD `subject` TEXT AFTER `name`, CHANGE `name` `name` CHAR(16), DROP repeating_task_id, DROP KEY `repeating_task_id_tasks`;") (p_index v_ops (PNum (1)%Z)) in
  let k5 := p_eq (PStr "SET FOREIGN_KEY_CHECKS=1;") (p_index v_ops (PNum (2)%Z)) in
  failing [k3; k4; k5] = [].
Proof. vm_compute. reflexivity. Qed.

(** tests/integration/simple_modify_test.py line 137 *)
Example simple_modify_test_test_all_constraint_adjustments :
  let v_table1 := (PStr "CREATE TABLE `tasks` (`id` INT(10) UNSIGNED NOT NULL AUTO_INCREMENT,
            `account_id` INT(10) UNSIGNED NOT NULL,
            `task_id` INT(10) UNSIGNED NOT NULL,
            `repeating_task_id` INT(10) UNSIGNED NOT NULL,
            `name` VARCHAR(255) NOT NULL DEFAULT '',
            PRIMARY KEY (`id`),
            KEY `account_id_tasks` (`account_id`),
            KEY `repeating_task_id_tasks` (`repeating_task_id`),
            KEY `task_id` (`task_id`),
            CONSTRAINT `account_id_tasks_fk` FOREIGN KEY (`account_id`) REFERENCES `accounts` (`id`) ON DELETE CASCADE ON UPDATE CASCADE,
            CONSTRAINT `task_id_fk` FOREIGN KEY (`task_id`) REFERENCES `tasks` (`id`) ON DELETE CASCADE ON UPDATE CASCADE
            ) ENGINE=InnoDB DEFAULT CHARSET=utf8;") in
  let v_db1 := (p_new "FileDatabase" [(PList [v_table1; (PStr "CREATE TABLE `accounts` (`id` INT(10) UNSIGNED NOT NULL AUTO_INCREMENT,
            `name` VARCHAR(255) NOT NULL DEFAULT '',
            PRIMARY KEY (`id`)
            ) ENGINE=InnoDB DEFAULT CHARSET=utf8;")])] (PDict [])) in
  let v_table1 := (PStr "CREATE TABLE `tasks` (`id` INT(10) UNSIGNED NOT NULL AUTO_INCREMENT,
            `account_id` INT(10) UNSIGNED NOT NULL,
            `task_id` INT(10) UNSIGNED NOT NULL,
            `repeating_task_id` INT(10) UNSIGNED NOT NULL,
            `name` VARCHAR(255) NOT NULL DEFAULT '',
            PRIMARY KEY (`id`),
            KEY `account_id_tasks` (`account_id`),
            KEY `repeating_task_id_tasks` (`repeating_task_id`),
            KEY `task_id` (`task_id`),
            CONSTRAINT `account_id_tasks_fk` FOREIGN KEY (`account_id`) REFERENCES `accounts` (`id`) ON DELETE RESTRICT ON UPDATE CASCADE,
            CONSTRAINT `task_id_2_fk` FOREIGN KEY (`task_id`) REFERENCES `tasks` (`id`) ON DELETE CASCADE ON UPDATE CASCADE
            ) ENGINE=InnoDB DEFAULT CHARSET=utf8;") in
  let v_db2 := (p_new "FileDatabase" [(PList [v_table1; (PStr "CREATE TABLE `accounts` (`id` INT(10) UNSIGNED NOT NULL AUTO_INCREMENT,
            `name` VARCHAR(255) NOT NULL DEFAULT '',
            PRIMARY KEY (`id`)
            ) ENGINE=InnoDB DEFAULT CHARSET=utf8;")])] (PDict [])) in
  let v_mygrate := (p_new "Mygration" [v_db2; v_db1] (PDict [])) in
  let v_ops := (p_comp (fun x_1 => (p_str x_1)) (fun x_1 => PBool true) (p_attr "operations" v_mygrate)) in
  let k2 := p_eq (PStr "SET FOREIGN_KEY_CHECKS=0;") (p_index v_ops (PNum (0)%Z)) in
  let k3 := p_eq (PStr "ALTER TABLE `tasks` DROP FOREIGN KEY `task_id_fk`, DROP FOREIGN KEY `account_id_tasks_fk`;") (p_index v_ops (PNum (1)%Z)) in
  let k4 := p_eq (PStr "ALTER TABLE `tasks` ADD CONSTRAINT `task_id_2_fk` FOREIGN KEY (`task_id`) REFERENCES `tasks` (`id`) ON DELETE CASCADE ON UPDATE CASCADE, ADD CONSTRAINT `account_id_tasks_fk` FOREIGN KEY (`account_id`) REFERENCES `accounts` (`id`) ON DELETE RESTRICT ON UPDATE CASCADE;") (p_index v_ops (PNum (2)%Z)) in
  let k5 := p_eq (PStr "SET FOREIGN_KEY_CHECKS=1;") (p_index v_ops (PNum (3)%Z)) in
  failing [k2; k3; k4; k5] = [].
Proof. vm_compute. reflexivity. Qed.

(** tests/integration/simple_modify_test.py line 185 *)
Example simple_modify_test_test_no_operations_on_1215 :
  let v_table1 := (PStr "CREATE TABLE `tasks` (`id` INT(10) UNSIGNED NOT NULL AUTO_INCREMENT,
            `account_id` INT(10) NOT NULL,
            `repeating_task_id` INT(10) UNSIGNED NOT NULL,
            `name` VARCHAR(255) NOT NULL DEFAULT '',
            PRIMARY KEY (`id`),
            KEY `account_id_tasks` (`account_id`),
            KEY `repeating_task_id_tasks` (`repeating_task_id`),
            CONSTRAINT `account_id_tasks_fk` FOREIGN KEY (`account_id`) REFERENCES `accounts` (`id`) ON DELETE CASCADE ON UPDATE CASCADE,
            ) ENGINE=InnoDB DEFAULT CHARSET=utf8;") in
  let v_db := (p_new "FileDatabase" [(PList [v_table1; (PStr "CREATE TABLE `accounts` (`id` INT(10) UNSIGNED NOT NULL AUTO_INCREMENT,
            `name` VARCHAR(255) NOT NULL DEFAULT '',
            PRIMARY KEY (`id`)
            ) ENGINE=InnoDB DEFAULT CHARSET=utf8;")])] (PDict [])) in
  let v_mygrate := (p_new "Mygration" [v_db] (PDict [])) in
  let k1 := p_eq (PList [(PStr "Constraint error for foreign key `account_id_tasks_fk`: unsigned mistmatch. `accounts`.`id` is unsigned but `tasks`.`account_id` is not")]) (p_attr "errors" v_mygrate) in
  let k2 := p_eq PNone (p_attr "operations" v_mygrate) in
  failing [k1; k2] = [].
Proof. vm_compute. reflexivity. Qed.

(** tests/integration/table_constraint_regressions_test.py line 5 *)
Example table_constraint_regressions_test_test_foreign_key_without_index :
  let v_db := (p_new "FileDatabase" [(PList [(PStr "CREATE TABLE `vendors` (`id` INT(10) UNSIGNED NOT NULL AUTO_INCREMENT, PRIMARY KEY (`id`));"); (PStr "CREATE TABLE `payment_requests_external` (
  `id` INT(10) UNSIGNED NOT NULL AUTO_INCREMENT,
  `account_id` int(10) UNSIGNED NOT NULL,
  `vendor_id` int(10) UNSIGNED DEFAULT NULL,
  `vendor_name` VARCHAR(255) NOT NULL DEFAULT '',
  `vendor_city` VARCHAR(255) NOT NULL DEFAULT '',
  `vendor_state` VARCHAR(255) NOT NULL DEFAULT '',
  `vendor_zip` VARCHAR(255) NOT NULL DEFAULT '',
  `vendor_list_id` VARCHAR(255) NOT NULL DEFAULT '',
  `edit_sequence` VARCHAR(255) NOT NULL DEFAULT '',
  `memo` VARCHAR(255) NOT NULL DEFAULT '',
  `request_date` INT(10) UNSIGNED NOT NULL DEFAULT 0,
  `guid` VARCHAR(255) NOT NULL DEFAULT '',
  `po_number` VARCHAR(255) NOT NULL DEFAULT '',
  `description` VARCHAR(255) NOT NULL DEFAULT '',
  `property_address1` VARCHAR(255) NOT NULL DEFAULT '',
  `property_address2` VARCHAR(255) NOT NULL DEFAULT '',
  `property_city` VARCHAR(255) NOT NULL DEFAULT '',
  `property_state` VARCHAR(255) NOT NULL DEFAULT '',
  `property_zip` VARCHAR(255) NOT NULL DEFAULT '',
  `customer_name` VARCHAR(255) NOT NULL DEFAULT '',
  `customer_list_id` VARCHAR(255) NOT NULL DEFAULT '',
  `contractor_completion_date` INT(10) UNSIGNED NOT NULL,
  `po_amount` DECIMAL(20,2) NOT NULL,
  `line_items` text,
  created INT(10) UNSIGNED NOT NULL DEFAULT 0,
  updated INT(10) UNSIGNED NOT NULL DEFAULT 0,
  PRIMARY KEY (`id`),
  KEY `account_id_pr_external` (`account_id`),
  CONSTRAINT `vendor_id_pr_external_fk` FOREIGN KEY (`vendor_id`) REFERENCES `vendors` (`id`) ON DELETE SET NULL ON UPDATE CASCADE
) ENGINE=InnoDB DEFAULT CHARSET=utf8 COLLATE=utf8_unicode_ci;")])] (PDict [])) in
  let k1 := p_eq (PNum (1)%Z) (p_len (p_attr "errors" v_db)) in
  let k2 := p_eq (PStr "Constraint error for foreign key `vendor_id_pr_external_fk`: missing index. `payment_requests_external`.`vendor_id` does not have an index and therefore cannot be used in a foreign key constraint") (p_index (p_attr "errors" v_db) (PNum (0)%Z)) in
  failing [k1; k2] = [].
Proof. vm_compute. reflexivity. Qed.

(** tests/integration/table_decimal_false_positives_test.py line 5 *)
Example table_decimal_false_positives_test_test_decimal_false_positives :
  let v_from_table := (p_new "CreateParser" [] (PDict [])) in
  let v_from_table := p_parse v_from_table (PStr "CREATE TABLE `decimal_false_positive` (
  `id` int(10) unsigned NOT NULL AUTO_INCREMENT,
  `price` decimal(20,2) NOT NULL DEFAULT '0.00',
  PRIMARY KEY (`id`),
) ENGINE=InnoDB;
        ") in
  let v_to_table := (p_new "CreateParser" [] (PDict [])) in
  let v_to_table := p_parse v_to_table (PStr "CREATE TABLE `decimal_false_positive` (
  `id` int(10) unsigned NOT NULL AUTO_INCREMENT,
  `price` decimal(20,2) NOT NULL DEFAULT 0,
  PRIMARY KEY (`id`),
) ENGINE=InnoDB;
        ") in
  let k1 := p_eq (PNum (0)%Z) (p_len (p_method "to" v_from_table [v_to_table])) in
  failing [k1] = [].
Proof. vm_compute. reflexivity. Qed.

(** tests/integration/table_decimal_false_positives_test.py line 35 *)
Example table_decimal_false_positives_test_test_decimal_false_positives_just_because :
  let v_from_table := (p_new "CreateParser" [] (PDict [])) in
  let v_from_table := p_parse v_from_table (PStr "CREATE TABLE `decimal_false_positive` (
  `id` int(10) unsigned NOT NULL AUTO_INCREMENT,
  `price` decimal(20,2) NOT NULL DEFAULT '1.007',
  PRIMARY KEY (`id`),
) ENGINE=InnoDB;
        ") in
  let v_to_table := (p_new "CreateParser" [] (PDict [])) in
  let v_to_table := p_parse v_to_table (PStr "CREATE TABLE `decimal_false_positive` (
  `id` int(10) unsigned NOT NULL AUTO_INCREMENT,
  `price` decimal(20,2) NOT NULL DEFAULT '1.008',
  PRIMARY KEY (`id`),
) ENGINE=InnoDB;
        ") in
  let k1 := p_eq (PNum (0)%Z) (p_len (p_method "to" v_from_table [v_to_table])) in
  failing [k1] = [].
Proof. vm_compute. reflexivity. Qed.

(** tests/integration/table_decimal_false_positives_test.py line 59 *)
Example table_decimal_false_positives_test_test_decimal_real_positives :
  let v_from_table := (p_new "CreateParser" [] (PDict [])) in
  let v_from_table := p_parse v_from_table (PStr "CREATE TABLE `decimal_false_positive` (
  `id` int(10) unsigned NOT NULL AUTO_INCREMENT,
  `price` decimal(20,2) NOT NULL DEFAULT '1.00',
  PRIMARY KEY (`id`),
) ENGINE=InnoDB;
        ") in
  let v_to_table := (p_new "CreateParser" [] (PDict [])) in
  let v_to_table := p_parse v_to_table (PStr "CREATE TABLE `decimal_false_positive` (
  `id` int(10) unsigned NOT NULL AUTO_INCREMENT,
  `price` decimal(20,2) NOT NULL DEFAULT '1.01',
  PRIMARY KEY (`id`),
) ENGINE=InnoDB;
        ") in
  let k1 := p_eq (PNum (1)%Z) (p_len (p_method "to" v_from_table [v_to_table])) in
  failing [k1] = [].
Proof. vm_compute. reflexivity. Qed.

(** tests/integration/table_decimal_false_positives_test.py line 82 *)
Example table_decimal_false_positives_test_test_float_false_positives :
  let v_from_table := (p_new "CreateParser" [] (PDict [])) in
  let v_from_table := p_parse v_from_table (PStr "CREATE TABLE `decimal_false_positive` (
  `id` int(10) unsigned NOT NULL AUTO_INCREMENT,
  `price` float NOT NULL DEFAULT '0.00',
  PRIMARY KEY (`id`),
) ENGINE=InnoDB;
        ") in
  let v_to_table := (p_new "CreateParser" [] (PDict [])) in
  let v_to_table := p_parse v_to_table (PStr "CREATE TABLE `decimal_false_positive` (
  `id` int(10) unsigned NOT NULL AUTO_INCREMENT,
  `price` float NOT NULL DEFAULT 0,
  PRIMARY KEY (`id`),
) ENGINE=InnoDB;
        ") in
  let k1 := p_eq (PNum (0)%Z) (p_len (p_method "to" v_from_table [v_to_table])) in
  failing [k1] = [].
Proof. vm_compute. reflexivity. Qed.

(** tests/integration/table_difference_columns_test.py line 5 *)
Example table_difference_columns_test_test_drop_columns :
  let v_a := (p_new "CreateParser" [] (PDict [])) in
  let v_a := p_parse v_a (PStr "CREATE TABLE `tasks` (
            `id` int(10) unsigned NOT NULL AUTO_INCREMENT,
            `account_id` int(10) DEFAULT NULL,
            `task` varchar(255) DEFAULT NULL
            );
        ") in
  let v_b := (p_new "CreateParser" [] (PDict [])) in
  let v_b := p_parse v_b (PStr "CREATE TABLE `tasks` (
            `id` int(10) unsigned NOT NULL AUTO_INCREMENT,
            `account_id` int(10) DEFAULT NULL,
            `membership_id` int(10) unsigned not null,
            `task` varchar(255) DEFAULT NULL,
            `subject` text
            );
        ") in
  let v_operations := (p_method "to" v_b [v_a]) in
  let k1 := p_eq (PNum (1)%Z) (p_len v_operations) in
  let k2 := p_eq (PStr "ALTER TABLE `tasks` DROP membership_id, DROP subject;") (p_str (p_index v_operations (PNum (0)%Z))) in
  failing [k1; k2] = [].
Proof. vm_compute. reflexivity. Qed.

(** tests/integration/table_difference_columns_test.py line 34 *)
Example table_difference_columns_test_test_add_columns :
  let v_a := (p_new "CreateParser" [] (PDict [])) in
  let v_a := p_parse v_a (PStr "CREATE TABLE `tasks` (
            `id` int(10) unsigned NOT NULL AUTO_INCREMENT,
            `account_id` int(10) DEFAULT NULL,
            `task` varchar(255) DEFAULT NULL
            );
        ") in
  let v_b := (p_new "CreateParser" [] (PDict [])) in
  let v_b := p_parse v_b (PStr "CREATE TABLE `tasks` (
            `id` int(10) unsigned NOT NULL AUTO_INCREMENT,
            `account_id` int(10) DEFAULT NULL,
            `membership_id` int(10) unsigned not null,
            `task` varchar(255) DEFAULT NULL,
            `subject` text
            );
        ") in
  let v_operations := (p_method "to" v_a [v_b]) in
  let k1 := p_eq (PNum (1)%Z) (p_len v_operations) in
  let k2 := p_eq (PStr "ALTER TABLE `tasks` ADD `membership_id` INT(10) UNSIGNED NOT NULL AFTER `account_id`, ADD `subject` TEXT AFTER `task`;") (p_str (p_index v_operations (PNum (0)%Z))) in
  failing [k1; k2] = [].
Proof. vm_compute. reflexivity. Qed.

(** tests/integration/table_difference_columns_test.py line 66 *)
Example table_difference_columns_test_test_add_remove_change_columns :
  let v_a := (p_new "CreateParser" [] (PDict [])) in
  let v_a := p_parse v_a (PStr "CREATE TABLE `tasks` (
            `id` int(10) unsigned NOT NULL AUTO_INCREMENT,
            `account_id` int(10) DEFAULT NULL,
            `task` varchar(255) DEFAULT NULL
            );
        ") in
  let v_b := (p_new "CreateParser" [] (PDict [])) in
  let v_b := p_parse v_b (PStr "CREATE TABLE `tasks` (
            `id` int(10) unsigned NOT NULL AUTO_INCREMENT,
            `account_id` int(10) NOT NULL DEFAULT 0,
            `membership_id` int(10) unsigned not null,
            `subject` text
            );
        ") in
  let v_operations := (p_method "to" v_a [v_b]) in
  let k1 := p_eq (PNum (1)%Z) (p_len v_operations) in
  let k2 := p_eq (PStr "ALTER TABLE `tasks` ADD `membership_id` INT(10) UNSIGNED NOT NULL AFTER `account_id`, ADD `subject` TEXT AFTER `membership_id`, CHANGE `account_id` `account_id` INT(10) NOT NULL DEFAULT 0, DROP task;") (p_str (p_index v_operations (PNum (0)%Z))) in
  failing [k1; k2] = [].
Proof. vm_compute. reflexivity. Qed.

(** tests/integration/table_difference_columns_test.py line 97 *)
Example table_difference_columns_test_test_split :
  let v_a := (p_new "CreateParser" [] (PDict [])) in
  let v_a := p_parse v_a (PStr "CREATE TABLE `tasks` (
            `id` int(10) unsigned NOT NULL AUTO_INCREMENT,
            `account_id` int(10) DEFAULT NULL,
            `task` varchar(255) DEFAULT NULL
            );
        ") in
  let v_b := (p_new "CreateParser" [] (PDict [])) in
  let v_b := p_parse v_b (PStr "CREATE TABLE `tasks` (
            `id` int(10) unsigned NOT NULL AUTO_INCREMENT,
            `account_id` int(10) NOT NULL DEFAULT 0,
            `membership_id` int(10) unsigned not null,
            `subject` text,
            CONSTRAINT `tasks_account_id_ref_accounts_id` FOREIGN KEY (`account_id`) REFERENCES `accounts` (`id`) ON DELETE CASCADE ON UPDATE CASCADE
            );
        ") in
  let v_operations := (p_method "to" v_a [v_b; (PBool true)]) in
  let k1 := p_eq (PNum (2)%Z) (p_len v_operations) in
  let k2 := p_eq (PStr "ALTER TABLE `tasks` ADD CONSTRAINT `tasks_account_id_ref_accounts_id` FOREIGN KEY (`account_id`) REFERENCES `accounts` (`id`) ON DELETE CASCADE ON UPDATE CASCADE;") (p_str (p_index v_operations (PStr "fks"))) in
  let k3 := p_eq (PStr "ALTER TABLE `tasks` ADD `membership_id` INT(10) UNSIGNED NOT NULL AFTER `account_id`, ADD `subject` TEXT AFTER `membership_id`, CHANGE `account_id` `account_id` INT(10) NOT NULL DEFAULT 0, DROP task;") (p_str (p_index v_operations (PStr "kitchen_sink"))) in
  failing [k1; k2; k3] = [].
Proof. vm_compute. reflexivity. Qed.

(** tests/integration/table_difference_keys_test.py line 34 *)
Example table_difference_keys_test_test_drop_keys :
  let v_a := (p_new "CreateParser" [] (PDict [])) in
  let v_a := p_parse v_a (PStr "CREATE TABLE `tasks` (
            `id` int(10) unsigned NOT NULL AUTO_INCREMENT,
            `account_id` int(10) DEFAULT NULL,
            `task` varchar(255) DEFAULT NULL,
            PRIMARY KEY (id)
            );
        ") in
  let v_b := (p_new "CreateParser" [] (PDict [])) in
  let v_b := p_parse v_b (PStr "CREATE TABLE `tasks` (
            `id` int(10) unsigned NOT NULL AUTO_INCREMENT,
            `account_id` int(10) DEFAULT NULL,
            `task` varchar(255) DEFAULT NULL,
            PRIMARY KEY (id),
            KEY tasks_account_id (account_id),
            KEY task (task,account_id)
            );
        ") in
  let ret_1 := (PList [v_a; v_b]) in
  let t_2 := ret_1 in
  let v_a := (p_index t_2 (PNum 0%Z)) in
  let v_b := (p_index t_2 (PNum 1%Z)) in
  let v_operations := (p_method "to" v_b [v_a]) in
  let k3 := p_eq (PNum (1)%Z) (p_len v_operations) in
  let k4 := p_eq (PStr "ALTER TABLE `tasks` DROP KEY `tasks_account_id`, DROP KEY `task`;") (p_str (p_index v_operations (PNum (0)%Z))) in
  failing [k3; k4] = [].
Proof. vm_compute. reflexivity. Qed.

(** tests/integration/table_difference_keys_test.py line 42 *)
Example table_difference_keys_test_test_add_keys :
  let v_a := (p_new "CreateParser" [] (PDict [])) in
  let v_a := p_parse v_a (PStr "CREATE TABLE `tasks` (
            `id` int(10) unsigned NOT NULL AUTO_INCREMENT,
            `account_id` int(10) DEFAULT NULL,
            `task` varchar(255) DEFAULT NULL,
            PRIMARY KEY (id)
            );
        ") in
  let v_b := (p_new "CreateParser" [] (PDict [])) in
  let v_b := p_parse v_b (PStr "CREATE TABLE `tasks` (
            `id` int(10) unsigned NOT NULL AUTO_INCREMENT,
            `account_id` int(10) DEFAULT NULL,
            `task` varchar(255) DEFAULT NULL,
            PRIMARY KEY (id),
            KEY tasks_account_id (account_id),
            KEY task (task,account_id)
            );
        ") in
  let ret_1 := (PList [v_a; v_b]) in
  let t_2 := ret_1 in
  let v_a := (p_index t_2 (PNum 0%Z)) in
  let v_b := (p_index t_2 (PNum 1%Z)) in
  let v_operations := (p_method "to" v_a [v_b]) in
  let k3 := p_eq (PNum (1)%Z) (p_len v_operations) in
  let k4 := p_eq (PStr "ALTER TABLE `tasks` ADD KEY `tasks_account_id` (`account_id`), ADD KEY `task` (`task`,`account_id`);") (p_str (p_index v_operations (PNum (0)%Z))) in
  failing [k3; k4] = [].
Proof. vm_compute. reflexivity. Qed.

(** tests/integration/table_difference_keys_test.py line 53 *)
Example table_difference_keys_test_test_change_keys :
  let v_a := (p_new "CreateParser" [] (PDict [])) in
  let v_a := p_parse v_a (PStr "CREATE TABLE `tasks` (
            `id` int(10) unsigned NOT NULL AUTO_INCREMENT,
            `account_id` int(10) DEFAULT NULL,
            `task` varchar(255) DEFAULT NULL,
            PRIMARY KEY (id),
            KEY tasks_account_id (account_id)
            );
        ") in
  let v_b := (p_new "CreateParser" [] (PDict [])) in
  let v_b := p_parse v_b (PStr "CREATE TABLE `tasks` (
            `id` int(10) unsigned NOT NULL AUTO_INCREMENT,
            `account_id` int(10) DEFAULT NULL,
            `task` varchar(255) DEFAULT NULL,
            PRIMARY KEY (id),
            KEY tasks_account_id (account_id,id,task)
            );
        ") in
  let v_operations := (p_method "to" v_a [v_b]) in
  let k1 := p_eq (PNum (1)%Z) (p_len v_operations) in
  let k2 := p_eq (PStr "ALTER TABLE `tasks` DROP KEY `tasks_account_id`, ADD KEY `tasks_account_id` (`account_id`,`id`,`task`);") (p_str (p_index v_operations (PNum (0)%Z))) in
  failing [k1; k2] = [].
Proof. vm_compute. reflexivity. Qed.

(** tests/integration/table_difference_keys_test.py line 86 *)
Example table_difference_keys_test_test_add_remove_change :
  let v_a := (p_new "CreateParser" [] (PDict [])) in
  let v_a := p_parse v_a (PStr "CREATE TABLE `tasks` (
            `id` int(10) unsigned NOT NULL AUTO_INCREMENT,
            `account_id` int(10) DEFAULT NULL,
            `task` varchar(255) DEFAULT NULL,
            PRIMARY KEY (id),
            KEY unchanged (task),
            KEY tasks_task (task),
            KEY tasks_account_id (account_id)
            );
        ") in
  let v_b := (p_new "CreateParser" [] (PDict [])) in
  let v_b := p_parse v_b (PStr "CREATE TABLE `tasks` (
            `id` int(10) unsigned NOT NULL AUTO_INCREMENT,
            `account_id` int(10) DEFAULT NULL,
            `task` varchar(255) DEFAULT NULL,
            PRIMARY KEY (id),
            KEY unchanged (task),
            KEY task_id (task,id),
            KEY tasks_account_id (account_id,id,task)
            );
        ") in
  let v_operations := (p_method "to" v_a [v_b]) in
  let k1 := p_eq (PNum (1)%Z) (p_len v_operations) in
  let k2 := p_eq (PStr "ALTER TABLE `tasks` ADD KEY `task_id` (`task`,`id`), DROP KEY `tasks_task`, DROP KEY `tasks_account_id`, ADD KEY `tasks_account_id` (`account_id`,`id`,`task`);") (p_str (p_index v_operations (PNum (0)%Z))) in
  failing [k1; k2] = [].
Proof. vm_compute. reflexivity. Qed.

(** tests/integration/table_difference_keys_test.py line 123 *)
Example table_difference_keys_test_test_unique_keys :
  let v_a := (p_new "CreateParser" [] (PDict [])) in
  let v_a := p_parse v_a (PStr "CREATE TABLE `tasks` (
            `id` int(10) unsigned NOT NULL AUTO_INCREMENT,
            `account_id` int(10) DEFAULT NULL,
            `task` varchar(255) DEFAULT NULL,
            PRIMARY KEY (id),
            UNIQUE KEY unchanged (account_id),
            UNIQUE KEY uniq_account_id (account_id),
            unique key uniq_task (task)
            );
        ") in
  let v_b := (p_new "CreateParser" [] (PDict [])) in
  let v_b := p_parse v_b (PStr "CREATE TABLE `tasks` (
            `id` int(10) unsigned NOT NULL AUTO_INCREMENT,
            `account_id` int(10) DEFAULT NULL,
            `task` varchar(255) DEFAULT NULL,
            PRIMARY KEY (id),
            UNIQUE KEY unchanged (account_id),
            UNIQUE KEY uniq_account_id (account_id,id),
            unique key added (task)
            );
        ") in
  let v_operations := (p_method "to" v_a [v_b]) in
  let k1 := p_eq (PNum (1)%Z) (p_len v_operations) in
  let k2 := p_eq (PStr "ALTER TABLE `tasks` ADD UNIQUE KEY `added` (`task`), DROP KEY `uniq_task`, DROP KEY `uniq_account_id`, ADD UNIQUE KEY `uniq_account_id` (`account_id`,`id`);") (p_str (p_index v_operations (PNum (0)%Z))) in
  failing [k1; k2] = [].
Proof. vm_compute. reflexivity. Qed.

(** tests/integration/table_difference_keys_test.py line 159 *)
Example table_difference_keys_test_test_primary_key :
  let v_a := (p_new "CreateParser" [] (PDict [])) in
  let v_a := p_parse v_a (PStr "CREATE TABLE `tasks` (
            `id` int(10) unsigned NOT NULL AUTO_INCREMENT,
            `account_id` int(10) DEFAULT NULL,
            `task` varchar(255) DEFAULT NULL
            );
        ") in
  let v_b := (p_new "CreateParser" [] (PDict [])) in
  let v_b := p_parse v_b (PStr "CREATE TABLE `tasks` (
            `id` int(10) unsigned NOT NULL AUTO_INCREMENT,
            `account_id` int(10) DEFAULT NULL,
            `task` varchar(255) DEFAULT NULL,
            PRIMARY KEY (id)
            );
        ") in
  let v_operations := (p_method "to" v_a [v_b]) in
  let k1 := p_eq (PNum (1)%Z) (p_len v_operations) in
  let k2 := p_eq (PStr "ALTER TABLE `tasks` ADD PRIMARY KEY (`id`);") (p_str (p_index v_operations (PNum (0)%Z))) in
  let v_operations := (p_method "to" v_b [v_a]) in
  let k3 := p_eq (PNum (1)%Z) (p_len v_operations) in
  let k4 := p_eq (PStr "ALTER TABLE `tasks` DROP PRIMARY KEY;") (p_str (p_index v_operations (PNum (0)%Z))) in
  failing [k1; k2; k3; k4] = [].
Proof. vm_compute. reflexivity. Qed.

(** tests/integration/table_difference_keys_test.py line 189 *)
Example table_difference_keys_test_test_fk_auto_index_name_mismatch_suppressed :
  let v_db := (p_new "CreateParser" [] (PDict [])) in
  let v_db := p_parse v_db (PStr "CREATE TABLE `orders` (
            `id` int(10) unsigned NOT NULL AUTO_INCREMENT,
            `user_id` int(10) unsigned DEFAULT NULL,
            PRIMARY KEY (`id`),
            KEY `orders_user_id_users_fk` (`user_id`),
            CONSTRAINT `orders_user_id_users_fk` FOREIGN KEY (`user_id`) REFERENCES `users` (`id`)
            ) ENGINE=InnoDB;
        ") in
  let v_sql_file := (p_new "CreateParser" [] (PDict [])) in
  let v_sql_file := p_parse v_sql_file (PStr "CREATE TABLE `orders` (
            `id` int(10) unsigned NOT NULL AUTO_INCREMENT,
            `user_id` int(10) unsigned DEFAULT NULL,
            PRIMARY KEY (`id`),
            KEY `user_id` (`user_id`),
            CONSTRAINT `orders_user_id_users_fk` FOREIGN KEY (`user_id`) REFERENCES `users` (`id`)
            ) ENGINE=InnoDB;
        ") in
  let v_operations := (p_method "to" v_db [v_sql_file]) in
  let k1 := p_eq (PNum (0)%Z) (p_len v_operations) in
  failing [k1] = [].
Proof. vm_compute. reflexivity. Qed.

(** tests/integration/table_difference_keys_test.py line 220 *)
Example table_difference_keys_test_test_non_fk_index_rename_not_suppressed :
  let v_a := (p_new "CreateParser" [] (PDict [])) in
  let v_a := p_parse v_a (PStr "CREATE TABLE `orders` (
            `id` int(10) unsigned NOT NULL AUTO_INCREMENT,
            `user_id` int(10) unsigned DEFAULT NULL,
            PRIMARY KEY (`id`),
            KEY `old_name` (`user_id`)
            ) ENGINE=InnoDB;
        ") in
  let v_b := (p_new "CreateParser" [] (PDict [])) in
  let v_b := p_parse v_b (PStr "CREATE TABLE `orders` (
            `id` int(10) unsigned NOT NULL AUTO_INCREMENT,
            `user_id` int(10) unsigned DEFAULT NULL,
            PRIMARY KEY (`id`),
            KEY `new_name` (`user_id`)
            ) ENGINE=InnoDB;
        ") in
  let v_operations := (p_method "to" v_a [v_b]) in
  let k1 := p_eq (PNum (1)%Z) (p_len v_operations) in
  let k2 := is_true (p_in (PStr "ADD KEY") (p_str (p_index v_operations (PNum (0)%Z)))) in
  let k3 := is_true (p_in (PStr "DROP KEY") (p_str (p_index v_operations (PNum (0)%Z)))) in
  failing [k1; k2; k3] = [].
Proof. vm_compute. reflexivity. Qed.

(** tests/integration/table_difference_keys_test.py line 251 *)
Example table_difference_keys_test_test_unnamed_unique_key_matches_named_unique_key :
  let v_db := (p_new "CreateParser" [] (PDict [])) in
  let v_db := p_parse v_db (PStr "CREATE TABLE `members` (
            `id` int(10) unsigned NOT NULL AUTO_INCREMENT,
            `group_id` int(10) unsigned DEFAULT NULL,
            `user_id` int(10) unsigned DEFAULT NULL,
            PRIMARY KEY (`id`),
            UNIQUE KEY `group_id` (`group_id`,`user_id`)
            ) ENGINE=InnoDB;
        ") in
  let v_sql_file := (p_new "CreateParser" [] (PDict [])) in
  let v_sql_file := p_parse v_sql_file (PStr "CREATE TABLE `members` (
            `id` int(10) unsigned NOT NULL AUTO_INCREMENT,
            `group_id` int(10) unsigned DEFAULT NULL,
            `user_id` int(10) unsigned DEFAULT NULL,
            PRIMARY KEY (`id`),
            UNIQUE(`group_id`,`user_id`)
            ) ENGINE=InnoDB;
        ") in
  let v_operations := (p_method "to" v_db [v_sql_file]) in
  let k1 := p_eq (PNum (0)%Z) (p_len v_operations) in
  failing [k1] = [].
Proof. vm_compute. reflexivity. Qed.

(** tests/integration/table_operations_column_test.py line 26 *)
Example table_operations_column_test_test_add_column_before :
  let v_table := (p_new "CreateParser" [] (PDict [])) in
  let v_table := p_parse v_table (PStr "CREATE TABLE `tasks` (
            `id` int(10) unsigned NOT NULL AUTO_INCREMENT,
            `account_id` int(10) DEFAULT NULL,
            `task` varchar(255) DEFAULT NULL,
            `subject` varchar(255) NOT NULL DEFAULT '',
            PRIMARY KEY (id),
            KEY `tasks_account_id` (`account_id`),
            CONSTRAINT `tasks_account_id_fk` FOREIGN KEY (`account_id`) REFERENCES `accounts` (`id`) ON DELETE CASCADE ON UPDATE CASCADE
        );
        ") in
  let ret_1 := v_table in
  let v_table := ret_1 in
  let ret_2 := (p_new "Column" [] (p_merge [(p_dict [((PStr "name"), (PStr "description")); ((PStr "column_type"), (PStr "TEXT")); ((PStr "length"), (PStr ""))])])) in
  let v_table := p_mut "add_column" v_table [ret_2; (PStr "task")] in
  let k3 := is_true (p_in (PStr "description") (p_attr "columns" v_table)) in
  let k4 := p_eq (PStr "task") (p_method "column_before" v_table [(PStr "description")]) in
  failing [k3; k4] = [].
Proof. vm_compute. reflexivity. Qed.

(** tests/integration/table_operations_column_test.py line 33 *)
Example table_operations_column_test_test_add_column_first :
  let v_table := (p_new "CreateParser" [] (PDict [])) in
  let v_table := p_parse v_table (PStr "CREATE TABLE `tasks` (
            `id` int(10) unsigned NOT NULL AUTO_INCREMENT,
            `account_id` int(10) DEFAULT NULL,
            `task` varchar(255) DEFAULT NULL,
            `subject` varchar(255) NOT NULL DEFAULT '',
            PRIMARY KEY (id),
            KEY `tasks_account_id` (`account_id`),
            CONSTRAINT `tasks_account_id_fk` FOREIGN KEY (`account_id`) REFERENCES `accounts` (`id`) ON DELETE CASCADE ON UPDATE CASCADE
        );
        ") in
  let ret_1 := v_table in
  let v_table := ret_1 in
  let ret_2 := (p_new "Column" [] (p_merge [(p_dict [((PStr "name"), (PStr "description")); ((PStr "column_type"), (PStr "TEXT")); ((PStr "length"), (PStr ""))])])) in
  let v_table := p_mut "add_column" v_table [ret_2; (PBool true)] in
  let k3 := is_true (p_in (PStr "description") (p_attr "columns" v_table)) in
  let k4 := is_true (p_method "column_before" v_table [(PStr "description")]) in
  failing [k3; k4] = [].
Proof. vm_compute. reflexivity. Qed.

(** tests/integration/table_operations_column_test.py line 40 *)
Example table_operations_column_test_test_add_column_last :
  let v_table := (p_new "CreateParser" [] (PDict [])) in
  let v_table := p_parse v_table (PStr "CREATE TABLE `tasks` (
            `id` int(10) unsigned NOT NULL AUTO_INCREMENT,
            `account_id` int(10) DEFAULT NULL,
            `task` varchar(255) DEFAULT NULL,
            `subject` varchar(255) NOT NULL DEFAULT '',
            PRIMARY KEY (id),
            KEY `tasks_account_id` (`account_id`),
            CONSTRAINT `tasks_account_id_fk` FOREIGN KEY (`account_id`) REFERENCES `accounts` (`id`) ON DELETE CASCADE ON UPDATE CASCADE
        );
        ") in
  let ret_1 := v_table in
  let v_table := ret_1 in
  let ret_2 := (p_new "Column" [] (p_merge [(p_dict [((PStr "name"), (PStr "description")); ((PStr "column_type"), (PStr "TEXT")); ((PStr "length"), (PStr ""))])])) in
  let v_table := p_mut "add_column" v_table [ret_2; (PBool false)] in
  let k3 := is_true (p_in (PStr "description") (p_attr "columns" v_table)) in
  let k4 := p_eq (PStr "subject") (p_method "column_before" v_table [(PStr "description")]) in
  failing [k3; k4] = [].
Proof. vm_compute. reflexivity. Qed.

(** tests/integration/table_operations_column_test.py line 47 *)
Example table_operations_column_test_test_add_column_after_non_existent :
  let v_table := (p_new "CreateParser" [] (PDict [])) in
  let v_table := p_parse v_table (PStr "CREATE TABLE `tasks` (
            `id` int(10) unsigned NOT NULL AUTO_INCREMENT,
            `account_id` int(10) DEFAULT NULL,
            `task` varchar(255) DEFAULT NULL,
            `subject` varchar(255) NOT NULL DEFAULT '',
            PRIMARY KEY (id),
            KEY `tasks_account_id` (`account_id`),
            CONSTRAINT `tasks_account_id_fk` FOREIGN KEY (`account_id`) REFERENCES `accounts` (`id`) ON DELETE CASCADE ON UPDATE CASCADE
        );
        ") in
  let ret_1 := v_table in
  let v_table := ret_1 in
  let ret_2 := (p_new "Column" [] (p_merge [(p_dict [((PStr "name"), (PStr "description")); ((PStr "column_type"), (PStr "TEXT")); ((PStr "length"), (PStr ""))])])) in
  let k3 := p_raised "ValueError" (p_mut "add_column" v_table [ret_2; (PStr "asdfef")]) in
  failing [k3] = [].
Proof. vm_compute. reflexivity. Qed.

(** tests/integration/table_operations_column_test.py line 52 *)
Example table_operations_column_test_test_cannot_add_duplicate_column :
  let v_table := (p_new "CreateParser" [] (PDict [])) in
  let v_table := p_parse v_table (PStr "CREATE TABLE `tasks` (
            `id` int(10) unsigned NOT NULL AUTO_INCREMENT,
            `account_id` int(10) DEFAULT NULL,
            `task` varchar(255) DEFAULT NULL,
            `subject` varchar(255) NOT NULL DEFAULT '',
            PRIMARY KEY (id),
            KEY `tasks_account_id` (`account_id`),
            CONSTRAINT `tasks_account_id_fk` FOREIGN KEY (`account_id`) REFERENCES `accounts` (`id`) ON DELETE CASCADE ON UPDATE CASCADE
        );
        ") in
  let ret_1 := v_table in
  let v_table := ret_1 in
  let ret_2 := (p_new "Column" [] (p_merge [(p_dict [((PStr "name"), (PStr "description")); ((PStr "column_type"), (PStr "TEXT")); ((PStr "length"), (PStr ""))])])) in
  let v_table := p_mut "add_column" v_table [ret_2] in
  let ret_3 := (p_new "Column" [] (p_merge [(p_dict [((PStr "name"), (PStr "description")); ((PStr "column_type"), (PStr "TEXT")); ((PStr "length"), (PStr ""))])])) in
  let k4 := p_raised "ValueError" (p_mut "add_column" v_table [ret_3]) in
  failing [k4] = [].
Proof. vm_compute. reflexivity. Qed.

(** tests/integration/table_operations_column_test.py line 58 *)
Example table_operations_column_test_test_remove_column :
  let v_table := (p_new "CreateParser" [] (PDict [])) in
  let v_table := p_parse v_table (PStr "CREATE TABLE `tasks` (
            `id` int(10) unsigned NOT NULL AUTO_INCREMENT,
            `account_id` int(10) DEFAULT NULL,
            `task` varchar(255) DEFAULT NULL,
            `subject` varchar(255) NOT NULL DEFAULT '',
            PRIMARY KEY (id),
            KEY `tasks_account_id` (`account_id`),
            CONSTRAINT `tasks_account_id_fk` FOREIGN KEY (`account_id`) REFERENCES `accounts` (`id`) ON DELETE CASCADE ON UPDATE CASCADE
        );
        ") in
  let ret_1 := v_table in
  let v_table := ret_1 in
  let v_table := p_mut "remove_column" v_table [(PStr "task")] in
  let k2 := is_false (p_in (PStr "task") (p_attr "columns" v_table)) in
  failing [k2] = [].
Proof. vm_compute. reflexivity. Qed.

(** tests/integration/table_operations_column_test.py line 63 *)
Example table_operations_column_test_test_change_column :
  let v_table := (p_new "CreateParser" [] (PDict [])) in
  let v_table := p_parse v_table (PStr "CREATE TABLE `tasks` (
            `id` int(10) unsigned NOT NULL AUTO_INCREMENT,
            `account_id` int(10) DEFAULT NULL,
            `task` varchar(255) DEFAULT NULL,
            `subject` varchar(255) NOT NULL DEFAULT '',
            PRIMARY KEY (id),
            KEY `tasks_account_id` (`account_id`),
            CONSTRAINT `tasks_account_id_fk` FOREIGN KEY (`account_id`) REFERENCES `accounts` (`id`) ON DELETE CASCADE ON UPDATE CASCADE
        );
        ") in
  let ret_1 := v_table in
  let v_table := ret_1 in
  let v_new_subject := (p_new "Column" [] (p_merge [(p_dict [((PStr "name"), (PStr "subject")); ((PStr "column_type"), (PStr "TEXT")); ((PStr "length"), (PStr ""))])])) in
  let v_table := p_mut "change_column" v_table [v_new_subject] in
  let k2 := p_eq (PStr "`subject` TEXT") (p_str (p_index (p_attr "columns" v_table) (PStr "subject"))) in
  failing [k2] = [].
Proof. vm_compute. reflexivity. Qed.

(** tests/integration/table_operations_column_test.py line 70 *)
Example table_operations_column_test_test_change_column_no_rename :
  let v_table := (p_new "CreateParser" [] (PDict [])) in
  let v_table := p_parse v_table (PStr "CREATE TABLE `tasks` (
            `id` int(10) unsigned NOT NULL AUTO_INCREMENT,
            `account_id` int(10) DEFAULT NULL,
            `task` varchar(255) DEFAULT NULL,
            `subject` varchar(255) NOT NULL DEFAULT '',
            PRIMARY KEY (id),
            KEY `tasks_account_id` (`account_id`),
            CONSTRAINT `tasks_account_id_fk` FOREIGN KEY (`account_id`) REFERENCES `accounts` (`id`) ON DELETE CASCADE ON UPDATE CASCADE
        );
        ") in
  let ret_1 := v_table in
  let v_table := ret_1 in
  let ret_2 := (p_new "Column" [] (p_merge [(p_dict [((PStr "name"), (PStr "description")); ((PStr "column_type"), (PStr "TEXT")); ((PStr "length"), (PStr ""))])])) in
  let k3 := p_raised "ValueError" (p_mut "change_column" v_table [ret_2]) in
  failing [k3] = [].
Proof. vm_compute. reflexivity. Qed.

(** tests/integration/table_operations_constraints_test.py line 37 *)
Example table_operations_constraints_test_test_add_constraint :
  let v_table := (p_new "CreateParser" [] (PDict [])) in
  let v_table := p_parse v_table (PStr "CREATE TABLE `tasks` (
            `id` int(10) unsigned NOT NULL AUTO_INCREMENT,
            `account_id` int(10) DEFAULT NULL,
            `status_id` int(10) unsigned not null,
            `task` varchar(255) DEFAULT NULL,
            `subject` varchar(255) NOT NULL DEFAULT '',
            PRIMARY KEY (id),
            KEY `tasks_account_id` (`account_id`),
            KEY `tasks_status_id` (`status_id`),
            CONSTRAINT `tasks_account_id_fk` FOREIGN KEY (`account_id`) REFERENCES `accounts` (`id`) ON DELETE CASCADE ON UPDATE CASCADE
        );
        ") in
  let ret_1 := v_table in
  let v_table := ret_1 in
  let ret_2 := (p_new "Constraint" [] (p_merge [(p_dict [((PStr "name"), (PStr "status_id_fk")); ((PStr "column_name"), (PStr "status_id")); ((PStr "foreign_table_name"), (PStr "task_statuses")); ((PStr "foreign_column_name"), (PStr "id")); ((PStr "on_delete"), (PStr "RESTRICT")); ((PStr "on_update"), (PStr "CASCADE"))])])) in
  let v_table := p_mut "add_constraint" v_table [ret_2] in
  let k3 := is_true (p_in (PStr "status_id_fk") (p_attr "constraints" v_table)) in
  failing [k3] = [].
Proof. vm_compute. reflexivity. Qed.

(** tests/integration/table_operations_constraints_test.py line 42 *)
Example table_operations_constraints_test_test_cannot_add_duplicate_constraint :
  let v_table := (p_new "CreateParser" [] (PDict [])) in
  let v_table := p_parse v_table (PStr "CREATE TABLE `tasks` (
            `id` int(10) unsigned NOT NULL AUTO_INCREMENT,
            `account_id` int(10) DEFAULT NULL,
            `status_id` int(10) unsigned not null,
            `task` varchar(255) DEFAULT NULL,
            `subject` varchar(255) NOT NULL DEFAULT '',
            PRIMARY KEY (id),
            KEY `tasks_account_id` (`account_id`),
            KEY `tasks_status_id` (`status_id`),
            CONSTRAINT `tasks_account_id_fk` FOREIGN KEY (`account_id`) REFERENCES `accounts` (`id`) ON DELETE CASCADE ON UPDATE CASCADE
        );
        ") in
  let ret_1 := v_table in
  let v_table := ret_1 in
  let ret_2 := (p_new "Constraint" [] (p_merge [(p_dict [((PStr "name"), (PStr "status_id_fk")); ((PStr "column_name"), (PStr "status_id")); ((PStr "foreign_table_name"), (PStr "task_statuses")); ((PStr "foreign_column_name"), (PStr "id")); ((PStr "on_delete"), (PStr "RESTRICT")); ((PStr "on_update"), (PStr "CASCADE"))])])) in
  let v_table := p_mut "add_constraint" v_table [ret_2] in
  let ret_3 := (p_new "Constraint" [] (p_merge [(p_dict [((PStr "name"), (PStr "status_id_fk")); ((PStr "column_name"), (PStr "status_id")); ((PStr "foreign_table_name"), (PStr "task_statuses")); ((PStr "foreign_column_name"), (PStr "id")); ((PStr "on_delete"), (PStr "RESTRICT")); ((PStr "on_update"), (PStr "CASCADE"))])])) in
  let k4 := p_raised "ValueError" (p_mut "add_constraint" v_table [ret_3]) in
  failing [k4] = [].
Proof. vm_compute. reflexivity. Qed.

(** tests/integration/table_operations_constraints_test.py line 48 *)
Example table_operations_constraints_test_test_remove_constraint :
  let v_table := (p_new "CreateParser" [] (PDict [])) in
  let v_table := p_parse v_table (PStr "CREATE TABLE `tasks` (
            `id` int(10) unsigned NOT NULL AUTO_INCREMENT,
            `account_id` int(10) DEFAULT NULL,
            `status_id` int(10) unsigned not null,
            `task` varchar(255) DEFAULT NULL,
            `subject` varchar(255) NOT NULL DEFAULT '',
            PRIMARY KEY (id),
            KEY `tasks_account_id` (`account_id`),
            KEY `tasks_status_id` (`status_id`),
            CONSTRAINT `tasks_account_id_fk` FOREIGN KEY (`account_id`) REFERENCES `accounts` (`id`) ON DELETE CASCADE ON UPDATE CASCADE
        );
        ") in
  let ret_1 := v_table in
  let v_table := ret_1 in
  let v_table := p_mut "remove_constraint" v_table [(PStr "tasks_account_id_fk")] in
  let k2 := is_false (p_in (PStr "tasks_account_id_fk") (p_attr "constraints" v_table)) in
  failing [k2] = [].
Proof. vm_compute. reflexivity. Qed.

(** tests/integration/table_operations_constraints_test.py line 53 *)
Example table_operations_constraints_test_test_cannot_remove_missing_constraint :
  let v_table := (p_new "CreateParser" [] (PDict [])) in
  let v_table := p_parse v_table (PStr "CREATE TABLE `tasks` (
            `id` int(10) unsigned NOT NULL AUTO_INCREMENT,
            `account_id` int(10) DEFAULT NULL,
            `status_id` int(10) unsigned not null,
            `task` varchar(255) DEFAULT NULL,
            `subject` varchar(255) NOT NULL DEFAULT '',
            PRIMARY KEY (id),
            KEY `tasks_account_id` (`account_id`),
            KEY `tasks_status_id` (`status_id`),
            CONSTRAINT `tasks_account_id_fk` FOREIGN KEY (`account_id`) REFERENCES `accounts` (`id`) ON DELETE CASCADE ON UPDATE CASCADE
        );
        ") in
  let ret_1 := v_table in
  let v_table := ret_1 in
  let k2 := p_raised "ValueError" (p_mut "remove_constraint" v_table [(PStr "asdf")]) in
  failing [k2] = [].
Proof. vm_compute. reflexivity. Qed.

(** tests/integration/table_operations_constraints_test.py line 58 *)
Example table_operations_constraints_test_test_change_constraint :
  let v_table := (p_new "CreateParser" [] (PDict [])) in
  let v_table := p_parse v_table (PStr "CREATE TABLE `tasks` (
            `id` int(10) unsigned NOT NULL AUTO_INCREMENT,
            `account_id` int(10) DEFAULT NULL,
            `status_id` int(10) unsigned not null,
            `task` varchar(255) DEFAULT NULL,
            `subject` varchar(255) NOT NULL DEFAULT '',
            PRIMARY KEY (id),
            KEY `tasks_account_id` (`account_id`),
            KEY `tasks_status_id` (`status_id`),
            CONSTRAINT `tasks_account_id_fk` FOREIGN KEY (`account_id`) REFERENCES `accounts` (`id`) ON DELETE CASCADE ON UPDATE CASCADE
        );
        ") in
  let ret_1 := v_table in
  let v_table := ret_1 in
  let v_table := p_mut "change_constraint" v_table [(p_new "Constraint" [] (p_merge [(p_dict [((PStr "name"), (PStr "tasks_account_id_fk")); ((PStr "column_name"), (PStr "account_id")); ((PStr "foreign_table_name"), (PStr "task_accounts")); ((PStr "foreign_column_name"), (PStr "id")); ((PStr "on_delete"), (PStr "RESTRICT")); ((PStr "on_update"), (PStr "SET NULL"))])]))] in
  let k2 := p_eq (PStr "CONSTRAINT `tasks_account_id_fk` FOREIGN KEY (`account_id`) REFERENCES `task_accounts` (`id`) ON DELETE RESTRICT ON UPDATE SET NULL") (p_str (p_index (p_attr "constraints" v_table) (PStr "tasks_account_id_fk"))) in
  failing [k2] = [].
Proof. vm_compute. reflexivity. Qed.

(** tests/integration/table_operations_constraints_test.py line 78 *)
Example table_operations_constraints_test_test_cannot_change_missing_constraint :
  let v_table := (p_new "CreateParser" [] (PDict [])) in
  let v_table := p_parse v_table (PStr "CREATE TABLE `tasks` (
            `id` int(10) unsigned NOT NULL AUTO_INCREMENT,
            `account_id` int(10) DEFAULT NULL,
            `status_id` int(10) unsigned not null,
            `task` varchar(255) DEFAULT NULL,
            `subject` varchar(255) NOT NULL DEFAULT '',
            PRIMARY KEY (id),
            KEY `tasks_account_id` (`account_id`),
            KEY `tasks_status_id` (`status_id`),
            CONSTRAINT `tasks_account_id_fk` FOREIGN KEY (`account_id`) REFERENCES `accounts` (`id`) ON DELETE CASCADE ON UPDATE CASCADE
        );
        ") in
  let ret_1 := v_table in
  let v_table := ret_1 in
  let ret_2 := (p_new "Constraint" [] (p_merge [(p_dict [((PStr "name"), (PStr "status_id_fk")); ((PStr "column_name"), (PStr "status_id")); ((PStr "foreign_table_name"), (PStr "task_statuses")); ((PStr "foreign_column_name"), (PStr "id")); ((PStr "on_delete"), (PStr "RESTRICT")); ((PStr "on_update"), (PStr "CASCADE"))])])) in
  let k3 := p_raised "ValueError" (p_mut "change_constraint" v_table [ret_2]) in
  failing [k3] = [].
Proof. vm_compute. reflexivity. Qed.

(** tests/integration/table_operations_key_test.py line 23 *)
Example table_operations_key_test_test_add_index :
  let v_table := (p_new "CreateParser" [] (PDict [])) in
  let v_table := p_parse v_table (PStr "CREATE TABLE `tasks` (
            `id` int(10) unsigned NOT NULL AUTO_INCREMENT,
            `account_id` int(10) DEFAULT NULL,
            `task` varchar(255) DEFAULT NULL,
            `subject` varchar(255) NOT NULL DEFAULT '',
            PRIMARY KEY (id),
            KEY `tasks_account_id` (`account_id`),
            CONSTRAINT `tasks_account_id_fk` FOREIGN KEY (`account_id`) REFERENCES `accounts` (`id`) ON DELETE CASCADE ON UPDATE CASCADE
        );
        ") in
  let ret_1 := v_table in
  let v_table := ret_1 in
  let r_2 := p_method "column_is_indexed" v_table [(PStr "account_id")] in
  let v_table := p_ask_indexed v_table (PStr "account_id") in
  let k3 := is_true r_2 in
  let v_table := p_mut "add_index" v_table [(p_new "Index" [(PStr "task_tasks"); (PList [(PStr "task"); (PStr "subject")])] (PDict []))] in
  let k4 := is_true (p_in (PStr "task_tasks") (p_attr "indexes" v_table)) in
  let r_5 := p_method "column_is_indexed" v_table [(PStr "task")] in
  let v_table := p_ask_indexed v_table (PStr "task") in
  let k6 := is_true r_5 in
  failing [k3; k4; k6] = [].
Proof. vm_compute. reflexivity. Qed.

(** tests/integration/table_operations_key_test.py line 31 *)
Example table_operations_key_test_test_cannot_add_duplicate_key :
  let v_table := (p_new "CreateParser" [] (PDict [])) in
  let v_table := p_parse v_table (PStr "CREATE TABLE `tasks` (
            `id` int(10) unsigned NOT NULL AUTO_INCREMENT,
            `account_id` int(10) DEFAULT NULL,
            `task` varchar(255) DEFAULT NULL,
            `subject` varchar(255) NOT NULL DEFAULT '',
            PRIMARY KEY (id),
            KEY `tasks_account_id` (`account_id`),
            CONSTRAINT `tasks_account_id_fk` FOREIGN KEY (`account_id`) REFERENCES `accounts` (`id`) ON DELETE CASCADE ON UPDATE CASCADE
        );
        ") in
  let ret_1 := v_table in
  let v_table := ret_1 in
  let k2 := p_raised "ValueError" (p_mut "add_index" v_table [(p_new "Index" [(PStr "tasks_account_id"); (PList [(PStr "task"); (PStr "subject")])] (PDict []))]) in
  failing [k2] = [].
Proof. vm_compute. reflexivity. Qed.

(** tests/integration/table_operations_key_test.py line 36 *)
Example table_operations_key_test_test_remove_index :
  let v_table := (p_new "CreateParser" [] (PDict [])) in
  let v_table := p_parse v_table (PStr "CREATE TABLE `tasks` (
            `id` int(10) unsigned NOT NULL AUTO_INCREMENT,
            `account_id` int(10) DEFAULT NULL,
            `task` varchar(255) DEFAULT NULL,
            `subject` varchar(255) NOT NULL DEFAULT '',
            PRIMARY KEY (id),
            KEY `tasks_account_id` (`account_id`),
            CONSTRAINT `tasks_account_id_fk` FOREIGN KEY (`account_id`) REFERENCES `accounts` (`id`) ON DELETE CASCADE ON UPDATE CASCADE
        );
        ") in
  let ret_1 := v_table in
  let v_table := ret_1 in
  let r_2 := p_method "column_is_indexed" v_table [(PStr "account_id")] in
  let v_table := p_ask_indexed v_table (PStr "account_id") in
  let k3 := is_true r_2 in
  let v_table := p_mut "remove_index" v_table [(PStr "tasks_account_id")] in
  let k4 := is_false (p_in (PStr "tasks_account_id") (p_attr "indexes" v_table)) in
  let r_5 := p_method "column_is_indexed" v_table [(PStr "account_id")] in
  let v_table := p_ask_indexed v_table (PStr "account_id") in
  let k6 := is_false r_5 in
  failing [k3; k4; k6] = [].
Proof. vm_compute. reflexivity. Qed.

(** tests/integration/table_operations_key_test.py line 44 *)
Example table_operations_key_test_test_cannot_remove_missing_key :
  let v_table := (p_new "CreateParser" [] (PDict [])) in
  let v_table := p_parse v_table (PStr "CREATE TABLE `tasks` (
            `id` int(10) unsigned NOT NULL AUTO_INCREMENT,
            `account_id` int(10) DEFAULT NULL,
            `task` varchar(255) DEFAULT NULL,
            `subject` varchar(255) NOT NULL DEFAULT '',
            PRIMARY KEY (id),
            KEY `tasks_account_id` (`account_id`),
            CONSTRAINT `tasks_account_id_fk` FOREIGN KEY (`account_id`) REFERENCES `accounts` (`id`) ON DELETE CASCADE ON UPDATE CASCADE
        );
        ") in
  let ret_1 := v_table in
  let v_table := ret_1 in
  let k2 := p_raised "ValueError" (p_mut "remove_index" v_table [(PStr "asdf")]) in
  failing [k2] = [].
Proof. vm_compute. reflexivity. Qed.

(** tests/integration/table_operations_key_test.py line 49 *)
Example table_operations_key_test_test_change_index :
  let v_table := (p_new "CreateParser" [] (PDict [])) in
  let v_table := p_parse v_table (PStr "CREATE TABLE `tasks` (
            `id` int(10) unsigned NOT NULL AUTO_INCREMENT,
            `account_id` int(10) DEFAULT NULL,
            `task` varchar(255) DEFAULT NULL,
            `subject` varchar(255) NOT NULL DEFAULT '',
            PRIMARY KEY (id),
            KEY `tasks_account_id` (`account_id`),
            CONSTRAINT `tasks_account_id_fk` FOREIGN KEY (`account_id`) REFERENCES `accounts` (`id`) ON DELETE CASCADE ON UPDATE CASCADE
        );
        ") in
  let ret_1 := v_table in
  let v_table := ret_1 in
  let r_2 := p_method "column_is_indexed" v_table [(PStr "account_id")] in
  let v_table := p_ask_indexed v_table (PStr "account_id") in
  let k3 := is_true r_2 in
  let v_table := p_mut "change_index" v_table [(p_new "Index" [(PStr "tasks_account_id"); (PList [(PStr "account_id"); (PStr "task")])] (PDict []))] in
  let k4 := p_eq (PStr "KEY `tasks_account_id` (`account_id`,`task`)") (p_str (p_index (p_attr "indexes" v_table) (PStr "tasks_account_id"))) in
  let r_5 := p_method "column_is_indexed" v_table [(PStr "account_id")] in
  let v_table := p_ask_indexed v_table (PStr "account_id") in
  let k6 := is_true r_5 in
  failing [k3; k4; k6] = [].
Proof. vm_compute. reflexivity. Qed.

(** tests/integration/table_operations_key_test.py line 57 *)
Example table_operations_key_test_test_cannot_change_missing_key :
  let v_table := (p_new "CreateParser" [] (PDict [])) in
  let v_table := p_parse v_table (PStr "CREATE TABLE `tasks` (
            `id` int(10) unsigned NOT NULL AUTO_INCREMENT,
            `account_id` int(10) DEFAULT NULL,
            `task` varchar(255) DEFAULT NULL,
            `subject` varchar(255) NOT NULL DEFAULT '',
            PRIMARY KEY (id),
            KEY `tasks_account_id` (`account_id`),
            CONSTRAINT `tasks_account_id_fk` FOREIGN KEY (`account_id`) REFERENCES `accounts` (`id`) ON DELETE CASCADE ON UPDATE CASCADE
        );
        ") in
  let ret_1 := v_table in
  let v_table := ret_1 in
  let k2 := p_raised "ValueError" (p_mut "change_index" v_table [(p_new "Index" [(PStr "asdf"); (PList [(PStr "account_id"); (PStr "task")])] (PDict []))]) in
  failing [k2] = [].
Proof. vm_compute. reflexivity. Qed.

(** tests/integration/table_return_create_test.py line 5 *)
Example table_return_create_test_test_simple_create :
  let v_a := (p_new "CreateParser" [] (PDict [])) in
  let v_a := p_parse v_a (PStr "CREATE TABLE `tasks` (
            `id` int(10) unsigned NOT NULL AUTO_INCREMENT,
            `account_id` int(10) DEFAULT NULL,
            `task` varchar(255) DEFAULT NULL,
            PRIMARY KEY (id)
            );
        ") in
  let k1 := p_eq (p_method "replace" (p_str v_a) [(PStr "
"); (PStr " ")]) (PStr "CREATE TABLE `tasks` (`id` INT(10) UNSIGNED NOT NULL AUTO_INCREMENT, `account_id` INT(10), `task` VARCHAR(255), PRIMARY KEY (`id`));") in
  failing [k1] = [].
Proof. vm_compute. reflexivity. Qed.

(** tests/integration/table_return_create_test.py line 22 *)
Example table_return_create_test_test_with_constraints :
  let v_a := (p_new "CreateParser" [] (PDict [])) in
  let v_a := p_parse v_a (PStr "CREATE TABLE `tasks` (
            `id` int(10) unsigned NOT NULL AUTO_INCREMENT,
            `account_id` int(10) DEFAULT NULL,
            PRIMARY KEY (id),
            CONSTRAINT `tasks_fk` FOREIGN KEY (`account_id`) REFERENCES `accounts` (`id`) ON DELETE CASCADE
            );
        ") in
  let k1 := p_eq (p_method "replace" (p_str v_a) [(PStr "
"); (PStr " ")]) (PStr "CREATE TABLE `tasks` (`id` INT(10) UNSIGNED NOT NULL AUTO_INCREMENT, `account_id` INT(10), PRIMARY KEY (`id`), CONSTRAINT `tasks_fk` FOREIGN KEY (`account_id`) REFERENCES `accounts` (`id`) ON DELETE CASCADE ON UPDATE RESTRICT);") in
  failing [k1] = [].
Proof. vm_compute. reflexivity. Qed.

(** tests/integration/table_return_create_test.py line 39 *)
Example table_return_create_test_test_with_options :
  let v_a := (p_new "CreateParser" [] (PDict [])) in
  let v_a := p_parse v_a (PStr "CREATE TABLE `tasks` (
            `id` int(10) unsigned NOT NULL AUTO_INCREMENT,
            `account_id` int(10) DEFAULT NULL,
            `task` varchar(255) DEFAULT NULL,
            PRIMARY KEY (id)
            ) ENGINE=InnoDB DEFAULT CHARSET=utf8;
        ") in
  let k1 := p_eq (p_method "replace" (p_str v_a) [(PStr "
"); (PStr " ")]) (PStr "CREATE TABLE `tasks` (`id` INT(10) UNSIGNED NOT NULL AUTO_INCREMENT, `account_id` INT(10), `task` VARCHAR(255), PRIMARY KEY (`id`)) ENGINE=InnoDB DEFAULT CHARSET=utf8;") in
  failing [k1] = [].
Proof. vm_compute. reflexivity. Qed.

(** tests/integration/table_text_false_positives_test.py line 5 *)
Example table_text_false_positives_test_test_row_false_positives :
  let v_from_table := (p_new "CreateParser" [] (PDict [])) in
  let v_from_table := p_parse v_from_table (PStr "CREATE TABLE `collate_false_positive` (
  `id` int(10) unsigned NOT NULL AUTO_INCREMENT,
  `msg` text COLLATE utf8_unicode_ci NOT NULL,
  PRIMARY KEY (`id`),
) ENGINE=InnoDB DEFAULT CHARSET=utf8 COLLATE=utf8_unicode_ci;
        ") in
  let v_to_table := (p_new "CreateParser" [] (PDict [])) in
  let v_to_table := p_parse v_to_table (PStr "CREATE TABLE `collate_false_positive` (
  `id` int(10) unsigned NOT NULL AUTO_INCREMENT,
  `msg` text NOT NULL,
  PRIMARY KEY (`id`),
) ENGINE=InnoDB DEFAULT CHARSET=utf8 COLLATE=utf8_unicode_ci;
        ") in
  let k1 := p_eq (PNum (0)%Z) (p_len (p_method "to" v_from_table [v_to_table])) in
  failing [k1] = [].
Proof. vm_compute. reflexivity. Qed.

(** tests/integration/table_text_false_positives_test.py line 55 *)
Example table_text_false_positives_test_test_false_positive_didnt_break_real_positives :
  let v_from_table := (p_new "CreateParser" [] (PDict [])) in
  let v_from_table := p_parse v_from_table (PStr "CREATE TABLE `collate_false_positive` (
  `id` int(10) unsigned NOT NULL AUTO_INCREMENT,
  `msg` text COLLATE utf8_unicode_ci NOT NULL,
  PRIMARY KEY (`id`),
) ENGINE=InnoDB DEFAULT CHARSET=utf8 COLLATE=utf8_unicode_ci;
        ") in
  let v_to_table := (p_new "CreateParser" [] (PDict [])) in
  let v_to_table := p_parse v_to_table (PStr "CREATE TABLE `collate_false_positive` (
  `id` int(10) unsigned NOT NULL AUTO_INCREMENT,
  `msg` text COLLATE latin2_general_ci NOT NULL,
  PRIMARY KEY (`id`),
) ENGINE=InnoDB DEFAULT CHARSET=utf8 COLLATE=utf8_unicode_ci;
        ") in
  let v_ops := (p_comp (fun x_1 => (p_str x_1)) (fun x_1 => PBool true) (p_method "to" v_from_table [v_to_table])) in
  let k2 := p_eq (PStr "ALTER TABLE `collate_false_positive` CHANGE `msg` `msg` TEXT NOT NULL COLLATE 'LATIN2_GENERAL_CI';") (p_index v_ops (PNum (0)%Z)) in
  failing [k2] = [].
Proof. vm_compute. reflexivity. Qed.
