(** The tests of /repo/mygrations under formats/mysql/file_reader, formats/mysql/file_reader/parsers
    on the model (see Suite.v): each [Example] is one test method, statement by statement.
    Checks on literals, NOT PROOFS OF PROPERTIES. *)
From Verif Require Import Suite.

(** formats/mysql/file_reader/parsers/constraint_foreign_test.py line 5 *)
Example constraint_foreign_test_test_simple :
  let v_parser := (p_new "ConstraintForeign" [] (PDict [])) in
  let v_parser := p_parse v_parser (PStr "CONSTRAINT `accounts_status_id_ref_account_statuses_id` FOREIGN KEY (`status_id`) REFERENCES `account_statuses` (`id`) ON DELETE CASCADE ON UPDATE SET NULL") in
  let v_returned := (p_returned v_parser) in
  let k1 := is_true (p_attr "matched" v_parser) in
  let k2 := p_eq (PStr "") v_returned in
  let k3 := p_eq (PStr "accounts_status_id_ref_account_statuses_id") (p_attr "name" v_parser) in
  let k4 := p_eq (PStr "status_id") (p_attr "column_name" v_parser) in
  let k5 := p_eq (PStr "account_statuses") (p_attr "foreign_table_name" v_parser) in
  let k6 := p_eq (PStr "id") (p_attr "foreign_column_name" v_parser) in
  let k7 := p_eq (PStr "CASCADE") (p_attr "on_delete" v_parser) in
  let k8 := p_eq (PStr "SET NULL") (p_attr "on_update" v_parser) in
  let k9 := is_false (p_attr "has_comma" v_parser) in
  let k10 := p_eq (PStr "CONSTRAINT `accounts_status_id_ref_account_statuses_id` FOREIGN KEY (`status_id`) REFERENCES `account_statuses` (`id`) ON DELETE CASCADE ON UPDATE SET NULL") (p_str v_parser) in
  failing [k1; k2; k3; k4; k5; k6; k7; k8; k9; k10] = [].
Proof. vm_compute. reflexivity. Qed.

(** formats/mysql/file_reader/parsers/constraint_foreign_test.py line 32 *)
Example constraint_foreign_test_test_all_deletes :
  let v_parser := (p_new "ConstraintForeign" [] (PDict [])) in
  let v_parser := p_parse v_parser (PStr "CONSTRAINT blah FOREIGN KEY (check) REFERENCES tbl (id) ON DELETE CASCADE ON UPDATE SET NULL") in
  let k1 := p_eq (PStr "CASCADE") (p_attr "on_delete" v_parser) in
  let k2 := p_eq (PStr "CONSTRAINT `blah` FOREIGN KEY (`check`) REFERENCES `tbl` (`id`) ON DELETE CASCADE ON UPDATE SET NULL") (p_str v_parser) in
  let v_parser := (p_new "ConstraintForeign" [] (PDict [])) in
  let v_parser := p_parse v_parser (PStr "CONSTRAINT blah FOREIGN KEY (check) REFERENCES tbl (id) ON DELETE NO ACTION ON UPDATE SET NULL") in
  let k3 := p_eq (PStr "NO ACTION") (p_attr "on_delete" v_parser) in
  let k4 := p_eq (PStr "CONSTRAINT `blah` FOREIGN KEY (`check`) REFERENCES `tbl` (`id`) ON DELETE NO ACTION ON UPDATE SET NULL") (p_str v_parser) in
  let v_parser := (p_new "ConstraintForeign" [] (PDict [])) in
  let v_parser := p_parse v_parser (PStr "CONSTRAINT blah FOREIGN KEY (check) REFERENCES tbl (id) ON DELETE RESTRICT ON UPDATE SET NULL") in
  let k5 := p_eq (PStr "RESTRICT") (p_attr "on_delete" v_parser) in
  let k6 := p_eq (PStr "CONSTRAINT `blah` FOREIGN KEY (`check`) REFERENCES `tbl` (`id`) ON DELETE RESTRICT ON UPDATE SET NULL") (p_str v_parser) in
  let v_parser := (p_new "ConstraintForeign" [] (PDict [])) in
  let v_parser := p_parse v_parser (PStr "CONSTRAINT blah FOREIGN KEY (check) REFERENCES tbl (id) ON DELETE set default ON UPDATE SET NULL") in
  let k7 := p_eq (PStr "SET DEFAULT") (p_attr "on_delete" v_parser) in
  let k8 := p_eq (PStr "CONSTRAINT `blah` FOREIGN KEY (`check`) REFERENCES `tbl` (`id`) ON DELETE SET DEFAULT ON UPDATE SET NULL") (p_str v_parser) in
  let v_parser := (p_new "ConstraintForeign" [] (PDict [])) in
  let v_parser := p_parse v_parser (PStr "CONSTRAINT blah FOREIGN KEY (check) REFERENCES tbl (id) ON DELETE set null ON UPDATE SET NULL") in
  let k9 := p_eq (PStr "SET NULL") (p_attr "on_delete" v_parser) in
  let k10 := p_eq (PStr "CONSTRAINT `blah` FOREIGN KEY (`check`) REFERENCES `tbl` (`id`) ON DELETE SET NULL ON UPDATE SET NULL") (p_str v_parser) in
  let v_parser := (p_new "ConstraintForeign" [] (PDict [])) in
  let v_parser := p_parse v_parser (PStr "CONSTRAINT blah FOREIGN KEY (check) REFERENCES tbl (id) ON UPDATE SET NULL") in
  let k11 := p_eq (PStr "RESTRICT") (p_attr "on_delete" v_parser) in
  let k12 := p_eq (PStr "CONSTRAINT `blah` FOREIGN KEY (`check`) REFERENCES `tbl` (`id`) ON DELETE RESTRICT ON UPDATE SET NULL") (p_str v_parser) in
  failing [k1; k2; k3; k4; k5; k6; k7; k8; k9; k10; k11; k12] = [].
Proof. vm_compute. reflexivity. Qed.

(** formats/mysql/file_reader/parsers/constraint_foreign_test.py line 88 *)
Example constraint_foreign_test_test_all_updates :
  let v_parser := (p_new "ConstraintForeign" [] (PDict [])) in
  let v_parser := p_parse v_parser (PStr "CONSTRAINT blah FOREIGN KEY (check) REFERENCES tbl (id) ON DELETE CASCADE ON UPDATE SET NULL") in
  let k1 := p_eq (PStr "SET NULL") (p_attr "on_update" v_parser) in
  let k2 := p_eq (PStr "CONSTRAINT `blah` FOREIGN KEY (`check`) REFERENCES `tbl` (`id`) ON DELETE CASCADE ON UPDATE SET NULL") (p_str v_parser) in
  let v_parser := (p_new "ConstraintForeign" [] (PDict [])) in
  let v_parser := p_parse v_parser (PStr "CONSTRAINT blah FOREIGN KEY (check) REFERENCES tbl (id) ON DELETE NO ACTION ON UPDATE SET DEFAULT") in
  let k3 := p_eq (PStr "SET DEFAULT") (p_attr "on_update" v_parser) in
  let k4 := p_eq (PStr "CONSTRAINT `blah` FOREIGN KEY (`check`) REFERENCES `tbl` (`id`) ON DELETE NO ACTION ON UPDATE SET DEFAULT") (p_str v_parser) in
  let v_parser := (p_new "ConstraintForeign" [] (PDict [])) in
  let v_parser := p_parse v_parser (PStr "CONSTRAINT blah FOREIGN KEY (check) REFERENCES tbl (id) ON DELETE RESTRICT ON UPDATE CASCADE") in
  let k5 := p_eq (PStr "CASCADE") (p_attr "on_update" v_parser) in
  let k6 := p_eq (PStr "CONSTRAINT `blah` FOREIGN KEY (`check`) REFERENCES `tbl` (`id`) ON DELETE RESTRICT ON UPDATE CASCADE") (p_str v_parser) in
  let v_parser := (p_new "ConstraintForeign" [] (PDict [])) in
  let v_parser := p_parse v_parser (PStr "CONSTRAINT blah FOREIGN KEY (check) REFERENCES tbl (id) ON DELETE set default ON UPDATE no action") in
  let k7 := p_eq (PStr "NO ACTION") (p_attr "on_update" v_parser) in
  let k8 := p_eq (PStr "CONSTRAINT `blah` FOREIGN KEY (`check`) REFERENCES `tbl` (`id`) ON DELETE SET DEFAULT ON UPDATE NO ACTION") (p_str v_parser) in
  let v_parser := (p_new "ConstraintForeign" [] (PDict [])) in
  let v_parser := p_parse v_parser (PStr "CONSTRAINT blah FOREIGN KEY (check) REFERENCES tbl (id) ON DELETE set null ON UPDATE RESTRICT") in
  let k9 := p_eq (PStr "RESTRICT") (p_attr "on_update" v_parser) in
  let k10 := p_eq (PStr "CONSTRAINT `blah` FOREIGN KEY (`check`) REFERENCES `tbl` (`id`) ON DELETE SET NULL ON UPDATE RESTRICT") (p_str v_parser) in
  let v_parser := (p_new "ConstraintForeign" [] (PDict [])) in
  let v_parser := p_parse v_parser (PStr "CONSTRAINT blah FOREIGN KEY (check) REFERENCES tbl (id) ON DELETE SET NULL") in
  let k11 := p_eq (PStr "RESTRICT") (p_attr "on_update" v_parser) in
  let k12 := p_eq (PStr "CONSTRAINT `blah` FOREIGN KEY (`check`) REFERENCES `tbl` (`id`) ON DELETE SET NULL ON UPDATE RESTRICT") (p_str v_parser) in
  failing [k1; k2; k3; k4; k5; k6; k7; k8; k9; k10; k11; k12] = [].
Proof. vm_compute. reflexivity. Qed.

(** formats/mysql/file_reader/parsers/constraint_foreign_test.py line 148 *)
Example constraint_foreign_test_test_action_optional :
  let v_parser := (p_new "ConstraintForeign" [] (PDict [])) in
  let v_parser := p_parse v_parser (PStr "CONSTRAINT blah FOREIGN KEY (check) REFERENCES tbl (id)") in
  let v_remaining := (p_returned v_parser) in
  let k1 := is_true (p_attr "matched" v_parser) in
  let k2 := p_eq (PStr "") v_remaining in
  let k3 := p_eq (PStr "RESTRICT") (p_attr "on_update" v_parser) in
  let k4 := p_eq (PStr "RESTRICT") (p_attr "on_delete" v_parser) in
  let k5 := p_eq (PStr "CONSTRAINT `blah` FOREIGN KEY (`check`) REFERENCES `tbl` (`id`) ON DELETE RESTRICT ON UPDATE RESTRICT") (p_str v_parser) in
  failing [k1; k2; k3; k4; k5] = [].
Proof. vm_compute. reflexivity. Qed.

(** formats/mysql/file_reader/parsers/constraint_foreign_test.py line 163 *)
Example constraint_foreign_test_test_leftovers :
  let v_parser := (p_new "ConstraintForeign" [] (PDict [])) in
  let v_parser := p_parse v_parser (PStr "CONSTRAINT blah FOREIGN KEY (check) REFERENCES tbl (id), sup") in
  let v_remaining := (p_returned v_parser) in
  let k1 := is_true (p_attr "matched" v_parser) in
  let k2 := p_eq (PStr "sup") v_remaining in
  let k3 := is_true (p_attr "has_comma" v_parser) in
  let k4 := p_eq (PStr "CONSTRAINT `blah` FOREIGN KEY (`check`) REFERENCES `tbl` (`id`) ON DELETE RESTRICT ON UPDATE RESTRICT") (p_str v_parser) in
  let v_parser := (p_new "ConstraintForeign" [] (PDict [])) in
  let v_parser := p_parse v_parser (PStr "CONSTRAINT blah FOREIGN KEY (check) REFERENCES tbl (id) sup") in
  let v_remaining := (p_returned v_parser) in
  let k5 := p_eq (PStr "CONSTRAINT `blah` FOREIGN KEY (`check`) REFERENCES `tbl` (`id`) ON DELETE RESTRICT ON UPDATE RESTRICT") (p_str v_parser) in
  let k6 := is_true (p_attr "matched" v_parser) in
  let k7 := p_eq (PStr "sup") v_remaining in
  let k8 := is_false (p_attr "has_comma" v_parser) in
  failing [k1; k2; k3; k4; k5; k6; k7; k8] = [].
Proof. vm_compute. reflexivity. Qed.

(** formats/mysql/file_reader/parsers/index_key_test.py line 5 *)
Example index_key_test_test_simple :
  let v_parser := (p_new "IndexKey" [] (PDict [])) in
  let v_parser := p_parse v_parser (PStr "KEY `users_email` (`email`),") in
  let v_returned := (p_returned v_parser) in
  let k1 := is_true (p_attr "matched" v_parser) in
  let k2 := p_eq (PStr "") v_returned in
  let k3 := p_eq (PStr "users_email") (p_attr "name" v_parser) in
  let k4 := p_eq (PList [(PStr "email")]) (p_attr "columns" v_parser) in
  let k5 := is_true (p_attr "has_comma" v_parser) in
  let k6 := p_eq (PStr "KEY `users_email` (`email`)") (p_str v_parser) in
  failing [k1; k2; k3; k4; k5; k6] = [].
Proof. vm_compute. reflexivity. Qed.

(** formats/mysql/file_reader/parsers/index_key_test.py line 23 *)
Example index_key_test_test_optional_comma :
  let v_parser := (p_new "IndexKey" [] (PDict [])) in
  let v_parser := p_parse v_parser (PStr "KEY `users_email` (`email`)") in
  let v_returned := (p_returned v_parser) in
  let k1 := is_true (p_attr "matched" v_parser) in
  let k2 := is_false (p_attr "has_comma" v_parser) in
  let k3 := p_eq (PStr "KEY `users_email` (`email`)") (p_str v_parser) in
  failing [k1; k2; k3] = [].
Proof. vm_compute. reflexivity. Qed.

(** formats/mysql/file_reader/parsers/index_key_test.py line 34 *)
Example index_key_test_test_optional_quotes :
  let v_parser := (p_new "IndexKey" [] (PDict [])) in
  let v_parser := p_parse v_parser (PStr "KEY users_email (`email`)") in
  let v_returned := (p_returned v_parser) in
  let k1 := is_true (p_attr "matched" v_parser) in
  let k2 := p_eq (PStr "users_email") (p_attr "name" v_parser) in
  let k3 := p_eq (PStr "KEY `users_email` (`email`)") (p_str v_parser) in
  failing [k1; k2; k3] = [].
Proof. vm_compute. reflexivity. Qed.

(** formats/mysql/file_reader/parsers/index_key_test.py line 45 *)
Example index_key_test_test_multiple_columns :
  let v_parser := (p_new "IndexKey" [] (PDict [])) in
  let v_parser := p_parse v_parser (PStr "KEY `users_email` (`email`,`username`,`password`),") in
  let v_returned := (p_returned v_parser) in
  let k1 := is_true (p_attr "matched" v_parser) in
  let k2 := p_eq (PStr "") v_returned in
  let k3 := p_eq (PStr "users_email") (p_attr "name" v_parser) in
  let k4 := p_eq (PList [(PStr "email"); (PStr "username"); (PStr "password")]) (p_attr "columns" v_parser) in
  let k5 := is_true (p_attr "has_comma" v_parser) in
  let k6 := p_eq (PStr "KEY `users_email` (`email`,`username`,`password`)") (p_str v_parser) in
  failing [k1; k2; k3; k4; k5; k6] = [].
Proof. vm_compute. reflexivity. Qed.

(** formats/mysql/file_reader/parsers/index_primary_test.py line 5 *)
Example index_primary_test_test_simple :
  let v_parser := (p_new "IndexPrimary" [] (PDict [])) in
  let v_parser := p_parse v_parser (PStr "PRIMARY KEY (`id`),") in
  let v_returned := (p_returned v_parser) in
  let k1 := is_true (p_attr "matched" v_parser) in
  let k2 := p_eq (PStr "") v_returned in
  let k3 := p_eq (PList [(PStr "id")]) (p_attr "columns" v_parser) in
  let k4 := p_eq (p_attr "index_type" v_parser) (PStr "PRIMARY") in
  let k5 := is_true (p_attr "has_comma" v_parser) in
  let k6 := p_eq (PStr "PRIMARY KEY (`id`)") (p_str v_parser) in
  failing [k1; k2; k3; k4; k5; k6] = [].
Proof. vm_compute. reflexivity. Qed.

(** formats/mysql/file_reader/parsers/index_primary_test.py line 23 *)
Example index_primary_test_test_optional_comma :
  let v_parser := (p_new "IndexPrimary" [] (PDict [])) in
  let v_parser := p_parse v_parser (PStr "PRIMARY KEY (`id`)") in
  let v_returned := (p_returned v_parser) in
  let k1 := p_eq (PList [(PStr "id")]) (p_attr "columns" v_parser) in
  let k2 := is_true (p_attr "matched" v_parser) in
  let k3 := is_false (p_attr "has_comma" v_parser) in
  let k4 := p_eq (PStr "PRIMARY KEY (`id`)") (p_str v_parser) in
  failing [k1; k2; k3; k4] = [].
Proof. vm_compute. reflexivity. Qed.

(** formats/mysql/file_reader/parsers/index_primary_test.py line 35 *)
Example index_primary_test_test_optional_quotes :
  let v_parser := (p_new "IndexPrimary" [] (PDict [])) in
  let v_parser := p_parse v_parser (PStr "PRIMARY KEY (sup)") in
  let v_returned := (p_returned v_parser) in
  let k1 := is_true (p_attr "matched" v_parser) in
  let k2 := p_eq (PList [(PStr "sup")]) (p_attr "columns" v_parser) in
  let k3 := p_eq (PStr "PRIMARY KEY (`sup`)") (p_str v_parser) in
  failing [k1; k2; k3] = [].
Proof. vm_compute. reflexivity. Qed.

(** formats/mysql/file_reader/parsers/index_unique_test.py line 5 *)
Example index_unique_test_test_simple :
  let v_parser := (p_new "IndexUnique" [] (PDict [])) in
  let v_parser := p_parse v_parser (PStr "UNIQUE KEY `users_email` (`email`),") in
  let v_returned := (p_returned v_parser) in
  let k1 := is_true (p_attr "matched" v_parser) in
  let k2 := p_eq (PStr "") v_returned in
  let k3 := p_eq (PStr "users_email") (p_attr "name" v_parser) in
  let k4 := p_eq (PList [(PStr "email")]) (p_attr "columns" v_parser) in
  let k5 := p_eq (p_attr "index_type" v_parser) (PStr "UNIQUE") in
  let k6 := is_true (p_attr "has_comma" v_parser) in
  let k7 := p_eq (PStr "UNIQUE KEY `users_email` (`email`)") (p_str v_parser) in
  failing [k1; k2; k3; k4; k5; k6; k7] = [].
Proof. vm_compute. reflexivity. Qed.

(** formats/mysql/file_reader/parsers/index_unique_test.py line 24 *)
Example index_unique_test_test_optional_comma :
  let v_parser := (p_new "IndexUnique" [] (PDict [])) in
  let v_parser := p_parse v_parser (PStr "UNIQUE KEY `users_email` (`email`)") in
  let v_returned := (p_returned v_parser) in
  let k1 := is_true (p_attr "matched" v_parser) in
  let k2 := is_false (p_attr "has_comma" v_parser) in
  let k3 := p_eq (PStr "UNIQUE KEY `users_email` (`email`)") (p_str v_parser) in
  failing [k1; k2; k3] = [].
Proof. vm_compute. reflexivity. Qed.

(** formats/mysql/file_reader/parsers/index_unique_test.py line 35 *)
Example index_unique_test_test_optional_quotes :
  let v_parser := (p_new "IndexUnique" [] (PDict [])) in
  let v_parser := p_parse v_parser (PStr "UNIQUE KEY users_email (`email`)") in
  let v_returned := (p_returned v_parser) in
  let k1 := is_true (p_attr "matched" v_parser) in
  let k2 := p_eq (PStr "users_email") (p_attr "name" v_parser) in
  let k3 := p_eq (PStr "UNIQUE KEY `users_email` (`email`)") (p_str v_parser) in
  failing [k1; k2; k3] = [].
Proof. vm_compute. reflexivity. Qed.

(** formats/mysql/file_reader/parsers/index_unique_test.py line 46 *)
Example index_unique_test_test_multiple_columns :
  let v_parser := (p_new "IndexUnique" [] (PDict [])) in
  let v_parser := p_parse v_parser (PStr "UNIQUE KEY `users_email` (`email`,`username`,`password`),") in
  let v_returned := (p_returned v_parser) in
  let k1 := is_true (p_attr "matched" v_parser) in
  let k2 := p_eq (PStr "") v_returned in
  let k3 := p_eq (PStr "users_email") (p_attr "name" v_parser) in
  let k4 := p_eq (PList [(PStr "email"); (PStr "username"); (PStr "password")]) (p_attr "columns" v_parser) in
  let k5 := p_eq (p_attr "index_type" v_parser) (PStr "UNIQUE") in
  let k6 := is_true (p_attr "has_comma" v_parser) in
  let k7 := p_eq (PStr "UNIQUE KEY `users_email` (`email`,`username`,`password`)") (p_str v_parser) in
  failing [k1; k2; k3; k4; k5; k6; k7] = [].
Proof. vm_compute. reflexivity. Qed.

(** formats/mysql/file_reader/parsers/insert_values_test.py line 5 *)
Example insert_values_test_test_simple :
  let v_parser := (p_new "InsertValues" [] (PDict [])) in
  let v_parser := p_parse v_parser (PStr "(      'name', 'bob', 'okay', 1),") in
  let v_returned := (p_returned v_parser) in
  let k1 := is_true (p_attr "matched" v_parser) in
  let k2 := p_eq (PStr "") v_returned in
  let k3 := p_eq (PList [(PStr "name"); (PStr "bob"); (PStr "okay"); (PStr "1")]) (p_attr "values" v_parser) in
  let k4 := is_true (p_attr "has_comma" v_parser) in
  failing [k1; k2; k3; k4] = [].
Proof. vm_compute. reflexivity. Qed.

(** formats/mysql/file_reader/parsers/insert_values_test.py line 21 *)
Example insert_values_test_test_optional_comma :
  let v_parser := (p_new "InsertValues" [] (PDict [])) in
  let v_parser := p_parse v_parser (PStr "('name', 'bob', 'okay', 1)") in
  let v_returned := (p_returned v_parser) in
  let k1 := is_true (p_attr "matched" v_parser) in
  let k2 := p_eq (PStr "") v_returned in
  let k3 := p_eq (PList [(PStr "name"); (PStr "bob"); (PStr "okay"); (PStr "1")]) (p_attr "values" v_parser) in
  let k4 := is_false (p_attr "has_comma" v_parser) in
  failing [k1; k2; k3; k4] = [].
Proof. vm_compute. reflexivity. Qed.

(** formats/mysql/file_reader/parsers/insert_values_test.py line 37 *)
Example insert_values_test_test_return :
  let v_parser := (p_new "InsertValues" [] (PDict [])) in
  let v_parser := p_parse v_parser (PStr "('name','bob','okay',1), ('name','bob')") in
  let v_returned := (p_returned v_parser) in
  let k1 := is_true (p_attr "matched" v_parser) in
  let k2 := p_eq (PStr "('name','bob')") v_returned in
  let k3 := p_eq (PList [(PStr "name"); (PStr "bob"); (PStr "okay"); (PStr "1")]) (p_attr "values" v_parser) in
  let k4 := is_true (p_attr "has_comma" v_parser) in
  failing [k1; k2; k3; k4] = [].
Proof. vm_compute. reflexivity. Qed.

(** formats/mysql/file_reader/parsers/table_options_test.py line 5 *)
Example table_options_test_test_simple :
  let v_parser := (p_new "TableOption" [] (PDict [])) in
  let v_parser := p_parse v_parser (PStr "ENGINE=InnoDB") in
  let v_returned := (p_returned v_parser) in
  let k1 := is_true (p_attr "matched" v_parser) in
  let k2 := p_eq (PStr "") v_returned in
  let k3 := p_eq (PStr "ENGINE") (p_attr "name" v_parser) in
  let k4 := p_eq (PStr "InnoDB") (p_attr "value" v_parser) in
  failing [k1; k2; k3; k4] = [].
Proof. vm_compute. reflexivity. Qed.

(** formats/mysql/file_reader/parsers/table_options_test.py line 21 *)
Example table_options_test_test_ignore_semicolon :
  let v_parser := (p_new "TableOption" [] (PDict [])) in
  let v_parser := p_parse v_parser (PStr "COLLATE=utf8_general_ci;") in
  let v_returned := (p_returned v_parser) in
  let k1 := is_true (p_attr "matched" v_parser) in
  let k2 := p_eq (PStr ";") v_returned in
  let k3 := p_eq (PStr "COLLATE") (p_attr "name" v_parser) in
  let k4 := p_eq (PStr "utf8_general_ci") (p_attr "value" v_parser) in
  failing [k1; k2; k3; k4] = [].
Proof. vm_compute. reflexivity. Qed.

(** formats/mysql/file_reader/parsers/table_options_test.py line 53 *)
Example table_options_test_test_ignore_spaces :
  let v_parser := (p_new "TableOption" [] (PDict [])) in
  let v_parser := p_parse v_parser (PStr "DEFAULT CHARSET=utf8") in
  let v_returned := (p_returned v_parser) in
  let k1 := is_true (p_attr "matched" v_parser) in
  let k2 := p_eq (PStr "") v_returned in
  let k3 := p_eq (PStr "DEFAULT CHARSET") (p_attr "name" v_parser) in
  let k4 := p_eq (PStr "utf8") (p_attr "value" v_parser) in
  failing [k1; k2; k3; k4] = [].
Proof. vm_compute. reflexivity. Qed.

(** formats/mysql/file_reader/parsers/type_character_test.py line 5 *)
Example type_character_test_test_simple :
  let v_parser := (p_new "TypeCharacter" [] (PDict [])) in
  let v_parser := p_parse v_parser (PStr "name varchar(255) not null default 'sup',") in
  let v_returned := (p_returned v_parser) in
  let k1 := is_true (p_attr "matched" v_parser) in
  let k2 := p_eq (PStr "") v_returned in
  let k3 := p_eq (PStr "name") (p_attr "_name" v_parser) in
  let k4 := p_eq (PStr "varchar") (p_attr "_column_type" v_parser) in
  let k5 := p_eq (PStr "255") (p_attr "_length" v_parser) in
  let k6 := is_false (p_attr "_null" v_parser) in
  let k7 := p_eq (PStr "sup") (p_attr "_default" v_parser) in
  let k8 := is_true (p_attr "has_comma" v_parser) in
  let k9 := is_true (PBool (p_eq (p_attr "_character_set" v_parser) PNone)) in
  let k10 := is_true (PBool (p_eq (p_attr "_collate" v_parser) PNone)) in
  failing [k1; k2; k3; k4; k5; k6; k7; k8; k9; k10] = [].
Proof. vm_compute. reflexivity. Qed.

(** formats/mysql/file_reader/parsers/type_character_test.py line 23 *)
Example type_character_test_test_character_set :
  let v_parser := (p_new "TypeCharacter" [] (PDict [])) in
  let v_parser := p_parse v_parser (PStr "name varchar(255) not null default 'sup' character set 'blah' collate 'boo',") in
  let v_returned := (p_returned v_parser) in
  let k1 := is_true (p_attr "matched" v_parser) in
  let k2 := p_eq (PStr "") v_returned in
  let k3 := p_eq (PStr "name") (p_attr "_name" v_parser) in
  let k4 := p_eq (PStr "varchar") (p_attr "_column_type" v_parser) in
  let k5 := p_eq (PStr "255") (p_attr "_length" v_parser) in
  let k6 := is_false (p_attr "_null" v_parser) in
  let k7 := p_eq (PStr "sup") (p_attr "_default" v_parser) in
  let k8 := is_true (p_attr "has_comma" v_parser) in
  let k9 := p_eq (PStr "blah") (p_attr "_character_set" v_parser) in
  let k10 := p_eq (PStr "boo") (p_attr "_collate" v_parser) in
  failing [k1; k2; k3; k4; k5; k6; k7; k8; k9; k10] = [].
Proof. vm_compute. reflexivity. Qed.

(** formats/mysql/file_reader/parsers/type_character_test.py line 41 *)
Example type_character_test_test_optional_default :
  let v_parser := (p_new "TypeCharacter" [] (PDict [])) in
  let v_parser := p_parse v_parser (PStr "name varchar(255)") in
  let v_returned := (p_returned v_parser) in
  let k1 := is_true (p_attr "matched" v_parser) in
  let k2 := p_eq (PStr "") v_returned in
  let k3 := p_eq (PStr "name") (p_attr "_name" v_parser) in
  let k4 := p_eq (PStr "varchar") (p_attr "_column_type" v_parser) in
  let k5 := p_eq (PStr "255") (p_attr "_length" v_parser) in
  let k6 := is_true (p_attr "_null" v_parser) in
  let k7 := p_eq PNone (p_attr "_default" v_parser) in
  let k8 := is_false (p_attr "has_comma" v_parser) in
  let k9 := is_true (PBool (p_eq (p_attr "_character_set" v_parser) PNone)) in
  let k10 := is_true (PBool (p_eq (p_attr "_collate" v_parser) PNone)) in
  failing [k1; k2; k3; k4; k5; k6; k7; k8; k9; k10] = [].
Proof. vm_compute. reflexivity. Qed.

(** formats/mysql/file_reader/parsers/type_character_test.py line 59 *)
Example type_character_test_test_empty_default :
  let v_parser := (p_new "TypeCharacter" [] (PDict [])) in
  let v_parser := p_parse v_parser (PStr "name varchar(255) default ''") in
  let v_returned := (p_returned v_parser) in
  let k1 := is_true (p_attr "matched" v_parser) in
  let k2 := p_eq (PStr "") v_returned in
  let k3 := p_eq (PStr "") (p_attr "_default" v_parser) in
  failing [k1; k2; k3] = [].
Proof. vm_compute. reflexivity. Qed.

(** formats/mysql/file_reader/parsers/type_character_test.py line 70 *)
Example type_character_test_test_strip_backticks :
  let v_parser := (p_new "TypeCharacter" [] (PDict [])) in
  let v_parser := p_parse v_parser (PStr "`name` varchar(255)") in
  let v_returned := (p_returned v_parser) in
  let k1 := is_true (p_attr "matched" v_parser) in
  let k2 := p_eq (PStr "") v_returned in
  let k3 := p_eq (PStr "name") (p_attr "_name" v_parser) in
  failing [k1; k2; k3] = [].
Proof. vm_compute. reflexivity. Qed.

(** formats/mysql/file_reader/parsers/type_datetime_test.py line 5 *)
Example type_datetime_test_test_simple :
  let v_parser := (p_new "TypeDateTime" [] (PDict [])) in
  let v_parser := p_parse v_parser (PStr "name datetime not null default 'YY-MM-DD HH-MM-SS',") in
  let v_returned := (p_returned v_parser) in
  let k1 := is_true (p_attr "matched" v_parser) in
  let k2 := p_eq (PStr "") v_returned in
  let k3 := p_eq (PStr "name") (p_attr "_name" v_parser) in
  let k4 := p_eq (PStr "datetime") (p_attr "_column_type" v_parser) in
  let k5 := is_false (p_attr "_null" v_parser) in
  let k6 := p_eq (PStr "YY-MM-DD HH-MM-SS") (p_attr "_default" v_parser) in
  let k7 := is_true (p_attr "has_comma" v_parser) in
  let k8 := is_true (PBool (p_eq (p_attr "_character_set" v_parser) PNone)) in
  let k9 := is_true (PBool (p_eq (p_attr "_collate" v_parser) PNone)) in
  failing [k1; k2; k3; k4; k5; k6; k7; k8; k9] = [].
Proof. vm_compute. reflexivity. Qed.

(** formats/mysql/file_reader/parsers/type_decimal_test.py line 5 *)
Example type_decimal_test_test_simple :
  let v_parser := (p_new "TypeDecimal" [] (PDict [])) in
  let v_parser := p_parse v_parser (PStr "latitude float(10,7) not null default 0,") in
  let v_returned := (p_returned v_parser) in
  let k1 := is_true (p_attr "matched" v_parser) in
  let k2 := p_eq (PStr "") v_returned in
  let k3 := p_eq (PStr "latitude") (p_attr "_name" v_parser) in
  let k4 := p_eq (PStr "float") (p_attr "_column_type" v_parser) in
  let k5 := p_eq (PStr "10,7") (p_attr "_length" v_parser) in
  let k6 := is_false (p_attr "_unsigned" v_parser) in
  let k7 := is_false (p_attr "_null" v_parser) in
  let k8 := p_eq (PStr "0") (p_attr "_default" v_parser) in
  let k9 := is_true (p_attr "has_comma" v_parser) in
  let k10 := p_eq (PNum (0)%Z) (p_len (p_attr "_parsing_errors" v_parser)) in
  let k11 := p_eq (PNum (0)%Z) (p_len (p_attr "_parsing_warnings" v_parser)) in
  failing [k1; k2; k3; k4; k5; k6; k7; k8; k9; k10; k11] = [].
Proof. vm_compute. reflexivity. Qed.

(** formats/mysql/file_reader/parsers/type_decimal_test.py line 24 *)
Example type_decimal_test_test_optional_default :
  let v_parser := (p_new "TypeDecimal" [] (PDict [])) in
  let v_parser := p_parse v_parser (PStr "latitude float(10,7) UNSIGNED") in
  let v_returned := (p_returned v_parser) in
  let k1 := is_true (p_attr "matched" v_parser) in
  let k2 := p_eq (PStr "") v_returned in
  let k3 := p_eq (PStr "latitude") (p_attr "_name" v_parser) in
  let k4 := p_eq (PStr "float") (p_attr "_column_type" v_parser) in
  let k5 := is_true (p_attr "_unsigned" v_parser) in
  let k6 := p_eq (PStr "10,7") (p_attr "_length" v_parser) in
  let k7 := is_true (p_attr "_null" v_parser) in
  let k8 := p_eq PNone (p_attr "_default" v_parser) in
  let k9 := is_false (p_attr "has_comma" v_parser) in
  let k10 := p_eq (PNum (0)%Z) (p_len (p_attr "_parsing_errors" v_parser)) in
  let k11 := p_eq (PNum (0)%Z) (p_len (p_attr "_parsing_warnings" v_parser)) in
  failing [k1; k2; k3; k4; k5; k6; k7; k8; k9; k10; k11] = [].
Proof. vm_compute. reflexivity. Qed.

(** formats/mysql/file_reader/parsers/type_decimal_test.py line 43 *)
Example type_decimal_test_test_strip_backticks :
  let v_parser := (p_new "TypeDecimal" [] (PDict [])) in
  let v_parser := p_parse v_parser (PStr "`latitude` float(10,7)") in
  let v_returned := (p_returned v_parser) in
  let k1 := is_true (p_attr "matched" v_parser) in
  let k2 := p_eq (PStr "") v_returned in
  let k3 := p_eq (PStr "latitude") (p_attr "_name" v_parser) in
  failing [k1; k2; k3] = [].
Proof. vm_compute. reflexivity. Qed.

(** formats/mysql/file_reader/parsers/type_decimal_test.py line 54 *)
Example type_decimal_test_test_warning_for_string_default :
  let v_parser := (p_new "TypeDecimal" [] (PDict [])) in
  let v_parser := p_parse v_parser (PStr "latitude float(10,7) default '0'") in
  let v_returned := (p_returned v_parser) in
  let k1 := is_true (p_attr "matched" v_parser) in
  let k2 := p_eq (PStr "") v_returned in
  let k3 := is_true (p_in (PStr "has a numeric type but its default value is a string") (p_index (p_attr "_parsing_warnings" v_parser) (PNum (0)%Z))) in
  failing [k1; k2; k3] = [].
Proof. vm_compute. reflexivity. Qed.

(** formats/mysql/file_reader/parsers/type_enum_test.py line 5 *)
Example type_enum_test_test_simple :
  let v_parser := (p_new "TypeEnum" [] (PDict [])) in
  let v_parser := p_parse v_parser (PStr "options enum('bob','joe','ray') not null default 'bob',") in
  let v_returned := (p_returned v_parser) in
  let k1 := is_true (p_attr "matched" v_parser) in
  let k2 := p_eq (PStr "") v_returned in
  let k3 := p_eq (PStr "options") (p_attr "_name" v_parser) in
  let k4 := p_eq (PStr "enum") (p_attr "_column_type" v_parser) in
  let k5 := p_eq (PList [(PStr "bob"); (PStr "joe"); (PStr "ray")]) (p_attr "_enum_values" v_parser) in
  let k6 := is_false (p_attr "_null" v_parser) in
  let k7 := p_eq (PStr "bob") (p_attr "_default" v_parser) in
  let k8 := is_true (p_attr "has_comma" v_parser) in
  let k9 := p_eq (PNum (0)%Z) (p_len (p_attr "_parsing_errors" v_parser)) in
  let k10 := p_eq (PNum (0)%Z) (p_len (p_attr "_parsing_warnings" v_parser)) in
  failing [k1; k2; k3; k4; k5; k6; k7; k8; k9; k10] = [].
Proof. vm_compute. reflexivity. Qed.

(** formats/mysql/file_reader/parsers/type_enum_test.py line 23 *)
Example type_enum_test_test_optional_default :
  let v_parser := (p_new "TypeEnum" [] (PDict [])) in
  let v_parser := p_parse v_parser (PStr "options enum('bob','joe','ray')") in
  let v_returned := (p_returned v_parser) in
  let k1 := is_true (p_attr "matched" v_parser) in
  let k2 := p_eq (PStr "") v_returned in
  let k3 := p_eq (PStr "options") (p_attr "_name" v_parser) in
  let k4 := p_eq (PStr "enum") (p_attr "_column_type" v_parser) in
  let k5 := p_eq (PList [(PStr "bob"); (PStr "joe"); (PStr "ray")]) (p_attr "_enum_values" v_parser) in
  let k6 := is_true (p_attr "_null" v_parser) in
  let k7 := p_eq PNone (p_attr "_default" v_parser) in
  let k8 := is_false (p_attr "has_comma" v_parser) in
  let k9 := p_eq (PNum (0)%Z) (p_len (p_attr "_parsing_errors" v_parser)) in
  let k10 := p_eq (PNum (0)%Z) (p_len (p_attr "_parsing_warnings" v_parser)) in
  failing [k1; k2; k3; k4; k5; k6; k7; k8; k9; k10] = [].
Proof. vm_compute. reflexivity. Qed.

(** formats/mysql/file_reader/parsers/type_enum_test.py line 41 *)
Example type_enum_test_test_strip_backticks :
  let v_parser := (p_new "TypeEnum" [] (PDict [])) in
  let v_parser := p_parse v_parser (PStr "`options` enum('bob','joe','ray')") in
  let v_returned := (p_returned v_parser) in
  let k1 := is_true (p_attr "matched" v_parser) in
  let k2 := p_eq (PStr "") v_returned in
  let k3 := p_eq (PStr "options") (p_attr "_name" v_parser) in
  failing [k1; k2; k3] = [].
Proof. vm_compute. reflexivity. Qed.

(** formats/mysql/file_reader/parsers/type_enum_test.py line 51 *)
Example type_enum_test_test_warning_for_no_quote_default :
  let v_parser := (p_new "TypeEnum" [] (PDict [])) in
  let v_parser := p_parse v_parser (PStr "options enum('bob','joe','ray') default bob") in
  let v_returned := (p_returned v_parser) in
  let k1 := is_true (p_attr "matched" v_parser) in
  let k2 := p_eq (PStr "") v_returned in
  let k3 := is_true (p_in (PStr "should have quotes") (p_index (p_attr "_parsing_warnings" v_parser) (PNum (0)%Z))) in
  failing [k1; k2; k3] = [].
Proof. vm_compute. reflexivity. Qed.

(** formats/mysql/file_reader/parsers/type_numeric_test.py line 7 *)
Example type_numeric_test_test_simple :
  let v_parser := (p_new "TypeNumeric" [] (PDict [])) in
  let v_parser := p_parse v_parser (PStr "created int(10) not null default 0,") in
  let v_returned := (p_returned v_parser) in
  let k1 := is_true (p_attr "matched" v_parser) in
  let k2 := p_eq (PStr "") v_returned in
  let k3 := p_eq (PStr "created") (p_attr "_name" v_parser) in
  let k4 := p_eq (PStr "int") (p_attr "_column_type" v_parser) in
  let k5 := p_eq (PStr "10") (p_attr "_length" v_parser) in
  let k6 := is_false (p_attr "_unsigned" v_parser) in
  let k7 := is_false (p_attr "_null" v_parser) in
  let k8 := is_false (p_attr "_auto_increment" v_parser) in
  let k9 := p_eq (PStr "0") (p_attr "_default" v_parser) in
  let k10 := is_true (p_attr "has_comma" v_parser) in
  let k11 := p_eq (PNum (0)%Z) (p_len (p_attr "_parsing_errors" v_parser)) in
  let k12 := p_eq (PNum (0)%Z) (p_len (p_attr "_parsing_warnings" v_parser)) in
  failing [k1; k2; k3; k4; k5; k6; k7; k8; k9; k10; k11; k12] = [].
Proof. vm_compute. reflexivity. Qed.

(** formats/mysql/file_reader/parsers/type_numeric_test.py line 27 *)
Example type_numeric_test_test_auto_increment :
  let v_parser := (p_new "TypeNumeric" [] (PDict [])) in
  let v_parser := p_parse v_parser (PStr "created int(10) not null auto_increment,") in
  let v_returned := (p_returned v_parser) in
  let k1 := is_true (p_attr "matched" v_parser) in
  let k2 := p_eq (PStr "") v_returned in
  let k3 := p_eq (PStr "created") (p_attr "_name" v_parser) in
  let k4 := p_eq (PStr "int") (p_attr "_column_type" v_parser) in
  let k5 := p_eq (PStr "10") (p_attr "_length" v_parser) in
  let k6 := is_true (p_attr "_auto_increment" v_parser) in
  let k7 := is_false (p_attr "_unsigned" v_parser) in
  let k8 := is_false (p_attr "_null" v_parser) in
  let k9 := p_eq PNone (p_attr "_default" v_parser) in
  let k10 := is_true (p_attr "has_comma" v_parser) in
  let k11 := p_eq (PNum (0)%Z) (p_len (p_attr "_parsing_errors" v_parser)) in
  let k12 := p_eq (PNum (0)%Z) (p_len (p_attr "_parsing_warnings" v_parser)) in
  failing [k1; k2; k3; k4; k5; k6; k7; k8; k9; k10; k11; k12] = [].
Proof. vm_compute. reflexivity. Qed.

(** formats/mysql/file_reader/parsers/type_numeric_test.py line 47 *)
Example type_numeric_test_test_optional_default :
  let v_parser := (p_new "TypeNumeric" [] (PDict [])) in
  let v_parser := p_parse v_parser (PStr "created int(10) UNSIGNED") in
  let v_returned := (p_returned v_parser) in
  let k1 := is_true (p_attr "matched" v_parser) in
  let k2 := p_eq (PStr "") v_returned in
  let k3 := p_eq (PStr "created") (p_attr "_name" v_parser) in
  let k4 := p_eq (PStr "int") (p_attr "_column_type" v_parser) in
  let k5 := is_true (p_attr "_unsigned" v_parser) in
  let k6 := p_eq (PStr "10") (p_attr "_length" v_parser) in
  let k7 := is_true (p_attr "_null" v_parser) in
  let k8 := p_eq PNone (p_attr "_default" v_parser) in
  let k9 := is_false (p_attr "has_comma" v_parser) in
  let k10 := p_eq (PNum (0)%Z) (p_len (p_attr "_parsing_errors" v_parser)) in
  let k11 := p_eq (PNum (0)%Z) (p_len (p_attr "_parsing_warnings" v_parser)) in
  failing [k1; k2; k3; k4; k5; k6; k7; k8; k9; k10; k11] = [].
Proof. vm_compute. reflexivity. Qed.

(** formats/mysql/file_reader/parsers/type_numeric_test.py line 66 *)
Example type_numeric_test_test_strip_backticks :
  let v_parser := (p_new "TypeNumeric" [] (PDict [])) in
  let v_parser := p_parse v_parser (PStr "`created` int(10) UNSIGNED") in
  let v_returned := (p_returned v_parser) in
  let k1 := is_true (p_attr "matched" v_parser) in
  let k2 := p_eq (PStr "") v_returned in
  let k3 := p_eq (PStr "created") (p_attr "_name" v_parser) in
  failing [k1; k2; k3] = [].
Proof. vm_compute. reflexivity. Qed.

(** formats/mysql/file_reader/parsers/type_numeric_test.py line 76 *)
Example type_numeric_test_test_integer_normalized_to_int :
  let v_parser := (p_new "TypeNumeric" [] (PDict [])) in
  let v_parser := p_parse v_parser (PStr "count integer(10) NOT NULL DEFAULT 0,") in
  let v_returned := (p_returned v_parser) in
  let k1 := is_true (p_attr "matched" v_parser) in
  let k2 := p_eq (PStr "") v_returned in
  let k3 := p_eq (PStr "count") (p_attr "_name" v_parser) in
  let k4 := p_eq (PStr "int") (p_attr "_column_type" v_parser) in
  let k5 := p_eq (PStr "10") (p_attr "_length" v_parser) in
  failing [k1; k2; k3; k4; k5] = [].
Proof. vm_compute. reflexivity. Qed.

(** formats/mysql/file_reader/parsers/type_numeric_test.py line 86 *)
Example type_numeric_test_test_integer_uppercase_normalized_to_int :
  let v_parser := (p_new "TypeNumeric" [] (PDict [])) in
  let v_parser := p_parse v_parser (PStr "count INTEGER(1),") in
  let v_returned := (p_returned v_parser) in
  let k1 := is_true (p_attr "matched" v_parser) in
  let k2 := p_eq (PStr "") v_returned in
  let k3 := p_eq (PStr "int") (p_attr "_column_type" v_parser) in
  let k4 := p_eq (PStr "1") (p_attr "_length" v_parser) in
  failing [k1; k2; k3; k4] = [].
Proof. vm_compute. reflexivity. Qed.

(** formats/mysql/file_reader/parsers/type_plain_test.py line 7 *)
Example type_plain_test_test_simple :
  let v_parser := (p_new "TypePlain" [] (PDict [])) in
  let v_parser := p_parse v_parser (PStr "created date NOT NULL DEFAULT 'bob',") in
  let v_returned := (p_returned v_parser) in
  let k1 := is_true (p_attr "matched" v_parser) in
  let k2 := p_eq (PStr "") v_returned in
  let k3 := p_eq (PStr "created") (p_attr "_name" v_parser) in
  let k4 := p_eq (PStr "date") (p_attr "_column_type" v_parser) in
  let k5 := is_false (p_attr "_null" v_parser) in
  let k6 := p_eq (PStr "bob") (p_attr "_default" v_parser) in
  let k7 := is_true (p_attr "has_comma" v_parser) in
  let k8 := p_eq (PNum (0)%Z) (p_len (p_attr "_parsing_errors" v_parser)) in
  let k9 := p_eq (PNum (0)%Z) (p_len (p_attr "_parsing_warnings" v_parser)) in
  failing [k1; k2; k3; k4; k5; k6; k7; k8; k9] = [].
Proof. vm_compute. reflexivity. Qed.

(** formats/mysql/file_reader/parsers/type_plain_test.py line 24 *)
Example type_plain_test_test_optional_default :
  let v_parser := (p_new "TypePlain" [] (PDict [])) in
  let v_parser := p_parse v_parser (PStr "created date") in
  let v_returned := (p_returned v_parser) in
  let k1 := is_true (p_attr "matched" v_parser) in
  let k2 := p_eq (PStr "") v_returned in
  let k3 := p_eq (PStr "created") (p_attr "_name" v_parser) in
  let k4 := p_eq (PStr "date") (p_attr "_column_type" v_parser) in
  let k5 := is_true (p_attr "_null" v_parser) in
  let k6 := p_eq PNone (p_attr "_default" v_parser) in
  let k7 := is_false (p_attr "has_comma" v_parser) in
  let k8 := p_eq (PNum (0)%Z) (p_len (p_attr "_parsing_errors" v_parser)) in
  let k9 := p_eq (PNum (0)%Z) (p_len (p_attr "_parsing_warnings" v_parser)) in
  failing [k1; k2; k3; k4; k5; k6; k7; k8; k9] = [].
Proof. vm_compute. reflexivity. Qed.

(** formats/mysql/file_reader/parsers/type_plain_test.py line 41 *)
Example type_plain_test_test_primary_key_before_default :
  let v_parser := (p_new "TypePlain" [] (PDict [])) in
  let v_parser := p_parse v_parser (PStr "id INT UNSIGNED NOT NULL PRIMARY KEY DEFAULT 0,") in
  let v_returned := (p_returned v_parser) in
  let k1 := is_true (p_attr "matched" v_parser) in
  let k2 := p_eq (PStr "") v_returned in
  let k3 := p_eq (PStr "id") (p_attr "_name" v_parser) in
  let k4 := p_eq (PStr "INT") (p_attr "_column_type" v_parser) in
  let k5 := is_true (p_attr "_unsigned" v_parser) in
  let k6 := is_false (p_attr "_null" v_parser) in
  let k7 := is_true (p_attr "_is_primary_key" v_parser) in
  let k8 := p_eq (PStr "0") (p_attr "_default" v_parser) in
  let k9 := is_true (p_attr "has_comma" v_parser) in
  failing [k1; k2; k3; k4; k5; k6; k7; k8; k9] = [].
Proof. vm_compute. reflexivity. Qed.

(** formats/mysql/file_reader/parsers/type_plain_test.py line 55 *)
Example type_plain_test_test_primary_key_after_default :
  let v_parser := (p_new "TypePlain" [] (PDict [])) in
  let v_parser := p_parse v_parser (PStr "id INT UNSIGNED NOT NULL DEFAULT 0 PRIMARY KEY,") in
  let v_returned := (p_returned v_parser) in
  let k1 := is_true (p_attr "matched" v_parser) in
  let k2 := p_eq (PStr "") v_returned in
  let k3 := p_eq (PStr "id") (p_attr "_name" v_parser) in
  let k4 := p_eq (PStr "INT") (p_attr "_column_type" v_parser) in
  let k5 := is_true (p_attr "_unsigned" v_parser) in
  let k6 := is_false (p_attr "_null" v_parser) in
  let k7 := is_true (p_attr "_is_primary_key" v_parser) in
  let k8 := p_eq (PStr "0") (p_attr "_default" v_parser) in
  let k9 := is_true (p_attr "has_comma" v_parser) in
  failing [k1; k2; k3; k4; k5; k6; k7; k8; k9] = [].
Proof. vm_compute. reflexivity. Qed.

(** formats/mysql/file_reader/parsers/type_plain_test.py line 69 *)
Example type_plain_test_test_boolean_type :
  let v_parser := (p_new "TypePlain" [] (PDict [])) in
  let v_parser := p_parse v_parser (PStr "is_active BOOLEAN,") in
  let v_returned := (p_returned v_parser) in
  let k1 := is_true (p_attr "matched" v_parser) in
  let k2 := p_eq (PStr "") v_returned in
  let k3 := p_eq (PStr "is_active") (p_attr "_name" v_parser) in
  let k4 := p_eq (PStr "TINYINT") (p_attr "_column_type" v_parser) in
  let k5 := p_eq (PStr "1") (p_attr "_length" v_parser) in
  let k6 := is_true (p_attr "has_comma" v_parser) in
  failing [k1; k2; k3; k4; k5; k6] = [].
Proof. vm_compute. reflexivity. Qed.

(** formats/mysql/file_reader/parsers/type_plain_test.py line 80 *)
Example type_plain_test_test_boolean_with_default_true :
  let v_parser := (p_new "TypePlain" [] (PDict [])) in
  let v_parser := p_parse v_parser (PStr "is_active BOOLEAN DEFAULT TRUE,") in
  let v_returned := (p_returned v_parser) in
  let k1 := is_true (p_attr "matched" v_parser) in
  let k2 := p_eq (PStr "") v_returned in
  let k3 := p_eq (PStr "TINYINT") (p_attr "_column_type" v_parser) in
  let k4 := p_eq (PStr "1") (p_attr "_length" v_parser) in
  let k5 := p_eq (PStr "1") (p_attr "_default" v_parser) in
  failing [k1; k2; k3; k4; k5] = [].
Proof. vm_compute. reflexivity. Qed.

(** formats/mysql/file_reader/parsers/type_plain_test.py line 90 *)
Example type_plain_test_test_boolean_with_default_false :
  let v_parser := (p_new "TypePlain" [] (PDict [])) in
  let v_parser := p_parse v_parser (PStr "is_active BOOLEAN DEFAULT FALSE,") in
  let v_returned := (p_returned v_parser) in
  let k1 := is_true (p_attr "matched" v_parser) in
  let k2 := p_eq (PStr "") v_returned in
  let k3 := p_eq (PStr "TINYINT") (p_attr "_column_type" v_parser) in
  let k4 := p_eq (PStr "1") (p_attr "_length" v_parser) in
  let k5 := p_eq (PStr "0") (p_attr "_default" v_parser) in
  failing [k1; k2; k3; k4; k5] = [].
Proof. vm_compute. reflexivity. Qed.

(** formats/mysql/file_reader/parsers/type_plain_test.py line 100 *)
Example type_plain_test_test_primary_key_implies_not_null :
  let v_parser := (p_new "TypePlain" [] (PDict [])) in
  let v_parser := p_parse v_parser (PStr "id INT UNSIGNED PRIMARY KEY AUTO_INCREMENT,") in
  let v_returned := (p_returned v_parser) in
  let k1 := is_true (p_attr "matched" v_parser) in
  let k2 := p_eq (PStr "") v_returned in
  let k3 := p_eq (PStr "id") (p_attr "_name" v_parser) in
  let k4 := p_eq (PStr "INT") (p_attr "_column_type" v_parser) in
  let k5 := is_true (p_attr "_unsigned" v_parser) in
  let k6 := is_false (p_attr "_null" v_parser) in
  let k7 := is_true (p_attr "_is_primary_key" v_parser) in
  let k8 := is_true (p_attr "_auto_increment" v_parser) in
  failing [k1; k2; k3; k4; k5; k6; k7; k8] = [].
Proof. vm_compute. reflexivity. Qed.

(** formats/mysql/file_reader/parsers/type_plain_test.py line 113 *)
Example type_plain_test_test_primary_key_without_not_null_without_auto_increment :
  let v_parser := (p_new "TypePlain" [] (PDict [])) in
  let v_parser := p_parse v_parser (PStr "id INT UNSIGNED PRIMARY KEY,") in
  let v_returned := (p_returned v_parser) in
  let k1 := is_true (p_attr "matched" v_parser) in
  let k2 := p_eq (PStr "") v_returned in
  let k3 := is_false (p_attr "_null" v_parser) in
  let k4 := is_true (p_attr "_is_primary_key" v_parser) in
  let k5 := is_false (p_attr "_auto_increment" v_parser) in
  failing [k1; k2; k3; k4; k5] = [].
Proof. vm_compute. reflexivity. Qed.

(** formats/mysql/file_reader/parsers/type_plain_test.py line 123 *)
Example type_plain_test_test_strip_backticks :
  let v_parser := (p_new "TypePlain" [] (PDict [])) in
  let v_parser := p_parse v_parser (PStr "`created` date") in
  let v_returned := (p_returned v_parser) in
  let k1 := is_true (p_attr "matched" v_parser) in
  let k2 := p_eq (PStr "") v_returned in
  let k3 := p_eq (PStr "created") (p_attr "_name" v_parser) in
  failing [k1; k2; k3] = [].
Proof. vm_compute. reflexivity. Qed.

(** formats/mysql/file_reader/parsers/type_plain_test.py line 133 *)
Example type_plain_test_test_integer_normalized_to_int :
  let v_parser := (p_new "TypePlain" [] (PDict [])) in
  let v_parser := p_parse v_parser (PStr "access_level INTEGER,") in
  let v_returned := (p_returned v_parser) in
  let k1 := is_true (p_attr "matched" v_parser) in
  let k2 := p_eq (PStr "") v_returned in
  let k3 := p_eq (PStr "access_level") (p_attr "_name" v_parser) in
  let k4 := p_eq (PStr "int") (p_attr "_column_type" v_parser) in
  failing [k1; k2; k3; k4] = [].
Proof. vm_compute. reflexivity. Qed.

(** formats/mysql/file_reader/parsers/type_plain_test.py line 142 *)
Example type_plain_test_test_integer_with_default_normalized_to_int :
  let v_parser := (p_new "TypePlain" [] (PDict [])) in
  let v_parser := p_parse v_parser (PStr "gitlab_access_level INTEGER NOT NULL DEFAULT 0,") in
  let v_returned := (p_returned v_parser) in
  let k1 := is_true (p_attr "matched" v_parser) in
  let k2 := p_eq (PStr "") v_returned in
  let k3 := p_eq (PStr "int") (p_attr "_column_type" v_parser) in
  let k4 := is_false (p_attr "_null" v_parser) in
  let k5 := p_eq (PStr "0") (p_attr "_default" v_parser) in
  failing [k1; k2; k3; k4; k5] = [].
Proof. vm_compute. reflexivity. Qed.

(** formats/mysql/file_reader/parsers/type_text_test.py line 7 *)
Example type_text_test_test_simple :
  let v_parser := (p_new "TypeText" [] (PDict [])) in
  let v_parser := p_parse v_parser (PStr "name text not null,") in
  let v_returned := (p_returned v_parser) in
  let k1 := is_true (p_attr "matched" v_parser) in
  let k2 := p_eq (PStr "") v_returned in
  let k3 := p_eq (PStr "name") (p_attr "_name" v_parser) in
  let k4 := p_eq (PStr "text") (p_attr "_column_type" v_parser) in
  let k5 := is_false (p_attr "_null" v_parser) in
  let k6 := is_true (p_attr "has_comma" v_parser) in
  let k7 := p_eq PNone (p_attr "_character_set" v_parser) in
  let k8 := p_eq PNone (p_attr "_collate" v_parser) in
  let k9 := p_eq (PNum (0)%Z) (p_len (p_attr "_parsing_errors" v_parser)) in
  let k10 := p_eq (PNum (0)%Z) (p_len (p_attr "_parsing_warnings" v_parser)) in
  failing [k1; k2; k3; k4; k5; k6; k7; k8; k9; k10] = [].
Proof. vm_compute. reflexivity. Qed.

(** formats/mysql/file_reader/parsers/type_text_test.py line 25 *)
Example type_text_test_test_character_set :
  let v_parser := (p_new "TypeText" [] (PDict [])) in
  let v_parser := p_parse v_parser (PStr "name text character set 'blah' collate 'boo',") in
  let v_returned := (p_returned v_parser) in
  let k1 := is_true (p_attr "matched" v_parser) in
  let k2 := p_eq (PStr "") v_returned in
  let k3 := p_eq (PStr "name") (p_attr "_name" v_parser) in
  let k4 := p_eq (PStr "text") (p_attr "_column_type" v_parser) in
  let k5 := is_true (p_attr "_null" v_parser) in
  let k6 := is_true (p_attr "has_comma" v_parser) in
  let k7 := p_eq (PStr "blah") (p_attr "_character_set" v_parser) in
  let k8 := p_eq (PStr "boo") (p_attr "_collate" v_parser) in
  let k9 := p_eq (PNum (0)%Z) (p_len (p_attr "_parsing_errors" v_parser)) in
  let k10 := p_eq (PNum (0)%Z) (p_len (p_attr "_parsing_warnings" v_parser)) in
  failing [k1; k2; k3; k4; k5; k6; k7; k8; k9; k10] = [].
Proof. vm_compute. reflexivity. Qed.

(** formats/mysql/file_reader/parsers/type_text_test.py line 43 *)
Example type_text_test_test_strip_backticks :
  let v_parser := (p_new "TypeText" [] (PDict [])) in
  let v_parser := p_parse v_parser (PStr "`name` text not null") in
  let v_returned := (p_returned v_parser) in
  let k1 := is_true (p_attr "matched" v_parser) in
  let k2 := p_eq (PStr "") v_returned in
  let k3 := p_eq (PStr "name") (p_attr "_name" v_parser) in
  failing [k1; k2; k3] = [].
Proof. vm_compute. reflexivity. Qed.

(** formats/mysql/file_reader/insert_parser_test.py line 5 *)
Example insert_parser_test_test_simple :
  let v_parser := (p_new "InsertParser" [] (PDict [])) in
  let v_parser := p_parse v_parser (PStr "INSERT INTO test_table (`col1`,`col2`) VALUES ('val','val2');") in
  let v_returned := (p_returned v_parser) in
  let k1 := is_true (p_attr "matched" v_parser) in
  let k2 := p_eq (PStr "") v_returned in
  let k3 := p_eq (PStr "test_table") (p_attr "table" v_parser) in
  let k4 := p_eq (PList [(PStr "col1"); (PStr "col2")]) (p_attr "columns" v_parser) in
  let k5 := p_eq (PList [(PList [(PStr "val"); (PStr "val2")])]) (p_attr "raw_rows" v_parser) in
  let k6 := is_true (p_attr "has_semicolon" v_parser) in
  let k7 := p_eq (PList []) (p_attr "parsing_errors" v_parser) in
  failing [k1; k2; k3; k4; k5; k6; k7] = [].
Proof. vm_compute. reflexivity. Qed.

(** formats/mysql/file_reader/insert_parser_test.py line 23 *)
Example insert_parser_test_test_multiple_values :
  let v_parser := (p_new "InsertParser" [] (PDict [])) in
  let v_parser := p_parse v_parser (PStr "INSERT INTO test_table (`col1`,`col2`) VALUES ('val','val2'),('val3','val4')") in
  let v_returned := (p_returned v_parser) in
  let k1 := is_true (p_attr "matched" v_parser) in
  let k2 := p_eq (PStr "") v_returned in
  let k3 := p_eq (PStr "test_table") (p_attr "table" v_parser) in
  let k4 := p_eq (PList [(PStr "col1"); (PStr "col2")]) (p_attr "columns" v_parser) in
  let k5 := p_eq (PList [(PList [(PStr "val"); (PStr "val2")]); (PList [(PStr "val3"); (PStr "val4")])]) (p_attr "raw_rows" v_parser) in
  let k6 := is_false (p_attr "has_semicolon" v_parser) in
  let k7 := p_eq (PList []) (p_attr "parsing_errors" v_parser) in
  failing [k1; k2; k3; k4; k5; k6; k7] = [].
Proof. vm_compute. reflexivity. Qed.

(** formats/mysql/file_reader/insert_parser_test.py line 41 *)
Example insert_parser_test_test_missing_comma :
  let v_parser := (p_new "InsertParser" [] (PDict [])) in
  let v_parser := p_parse v_parser (PStr "INSERT INTO test_table (`col1`,`col2`) VALUES ('val','val2')('val3','val4')") in
  let v_returned := (p_returned v_parser) in
  let k1 := is_true (p_attr "matched" v_parser) in
  let k2 := p_eq (PStr "") v_returned in
  let k3 := p_eq (PStr "test_table") (p_attr "table" v_parser) in
  let k4 := p_eq (PList [(PStr "col1"); (PStr "col2")]) (p_attr "columns" v_parser) in
  let k5 := p_eq (PList [(PList [(PStr "val"); (PStr "val2")]); (PList [(PStr "val3"); (PStr "val4")])]) (p_attr "raw_rows" v_parser) in
  let k6 := is_false (p_attr "has_semicolon" v_parser) in
  let k7 := p_eq (PNum (1)%Z) (p_len (p_attr "parsing_warnings" v_parser)) in
  failing [k1; k2; k3; k4; k5; k6; k7] = [].
Proof. vm_compute. reflexivity. Qed.

(** formats/mysql/file_reader/create_parser_test.py line 7 *)
Example create_parser_test_test_complicated_table_parses :
  let v_parser := (p_new "CreateParser" [] (PDict [])) in
  let v_parser := p_parse v_parser (PStr "CREATE TABLE `tasks` (
            `id` int(10) unsigned NOT NULL AUTO_INCREMENT,
            `account_id` int(10) DEFAULT NULL,
            `membership_id` int(10) DEFAULT NULL,
            `status_id` int(10) DEFAULT NULL,
            `priority_id` int(10) unsigned DEFAULT NULL,
            `task_type_id` int(10) unsigned DEFAULT NULL,
            `task_team_id` int(10) unsigned DEFAULT NULL,
            `repeating_tasks_id` int(10) unsigned DEFAULT NULL,
            `subject` varchar(255) DEFAULT NULL,
            `task` varchar(255) DEFAULT NULL,
            `due_date` int(10) DEFAULT NULL,
            `original_due_date` int(10) DEFAULT NULL,
            `assigned_to_id` int(10) unsigned DEFAULT NULL,
            `delegated_to_id` int(10) DEFAULT NULL,
            `trust` tinyint(1) NOT NULL DEFAULT 0,
            `description` text,
            `multiple_task_id` int(10) DEFAULT NULL,
            `completed_dt` int(10) DEFAULT NULL,
            `duration` int(10) NOT NULL DEFAULT 0,
            `number_comments` int(10) NOT NULL DEFAULT 0,
            `number_uploads` int(10) NOT NULL DEFAULT '0',
            `created` int(10) DEFAULT NULL,
            `updated` int(10) DEFAULT NULL,
            PRIMARY KEY (`id`),
            KEY `task_status_id` (`status_id`),
            KEY `task_priority_id` (`priority_id`),
            KEY `tasks_membership_id` (`membership_id`),
            KEY `task_type_id` (`task_type_id`),
            KEY `task_assigned_to_id` (`assigned_to_id`),
            CONSTRAINT `tasks_assigned_to_id_ref_memberships_user_id` FOREIGN KEY (`assigned_to_id`) REFERENCES `memberships` (`id`) ON DELETE SET NULL,
            CONSTRAINT `tasks_priority_id_ref_task_priorities_id` FOREIGN KEY (`priority_id`) REFERENCES `task_priorities` (`id`) ON UPDATE CASCADE,
            CONSTRAINT `tasks_type_id_ref_task_types_id` FOREIGN KEY (`task_type_id`) REFERENCES `task_types` (`id`) ON UPDATE CASCADE
            ) ENGINE=InnoDB DEFAULT CHARSET=utf8;
        ") in
  let v_returned := (p_returned v_parser) in
  let k1 := is_true (p_attr "matched" v_parser) in
  let k2 := p_eq (PStr "tasks") (p_attr "name" v_parser) in
  let k3 := p_eq (PStr "") v_returned in
  let k4 := p_eq (PNum (23)%Z) (p_len (p_attr "columns" v_parser)) in
  let k5 := p_eq (PNum (6)%Z) (p_len (p_attr "indexes" v_parser)) in
  let k6 := p_eq (PNum (3)%Z) (p_len (p_attr "constraints" v_parser)) in
  let k7 := p_eq (PNum (2)%Z) (p_len (p_attr "options" v_parser)) in
  let k8 := is_true (p_attr "semicolon" v_parser) in
  let k9 := p_eq (PNum (0)%Z) (p_len (p_attr "schema_errors" v_parser)) in
  let k10 := p_eq (PList [(PStr "id")]) (p_attr "columns" (p_attr "primary" v_parser)) in
  failing [k1; k2; k3; k4; k5; k6; k7; k8; k9; k10] = [].
Proof. vm_compute. reflexivity. Qed.

(** formats/mysql/file_reader/create_parser_test.py line 63 *)
Example create_parser_test_test_keeps_errors :
  let v_parser := (p_new "CreateParser" [] (PDict [])) in
  let v_parser := p_parse v_parser (PStr "CREATE TABLE `tasks` (
            `id` int(10) unsigned NOT NULL AUTO_INCREMENT,
            `subject` varchar DEFAULT NULL,
            `task` text DEFAULT NULL
            ) ENGINE=InnoDB DEFAULT CHARSET=utf8;
        ") in
  let v_returned := (p_returned v_parser) in
  let k1 := is_true (p_attr "matched" v_parser) in
  let k2 := p_eq (PNum (2)%Z) (p_len (p_attr "schema_errors" v_parser)) in
  let k3 := p_eq (PStr "Column 'task' of type 'TEXT' cannot have a default in table 'tasks'") (p_index (p_attr "schema_errors" v_parser) (PNum (0)%Z)) in
  let k4 := p_eq (PStr "Table 'tasks' has an AUTO_INCREMENT column but is missing the PRIMARY index") (p_index (p_attr "schema_errors" v_parser) (PNum (1)%Z)) in
  failing [k1; k2; k3; k4] = [].
Proof. vm_compute. reflexivity. Qed.

(** formats/mysql/file_reader/create_parser_test.py line 90 *)
Example create_parser_test_test_if_not_exists_parses :
  let v_parser := (p_new "CreateParser" [] (PDict [])) in
  let v_parser := p_parse v_parser (PStr "CREATE TABLE IF NOT EXISTS `tasks` (
            `id` int(10) unsigned NOT NULL AUTO_INCREMENT,
            `account_id` int(10) DEFAULT NULL,
            `membership_id` int(10) DEFAULT NULL,
            `status_id` int(10) DEFAULT NULL,
            `priority_id` int(10) unsigned DEFAULT NULL,
            `task_type_id` int(10) unsigned DEFAULT NULL,
            `task_team_id` int(10) unsigned DEFAULT NULL,
            `repeating_tasks_id` int(10) unsigned DEFAULT NULL,
            `subject` varchar(255) DEFAULT NULL,
            `task` varchar(255) DEFAULT NULL,
            `due_date` int(10) DEFAULT NULL,
            `original_due_date` int(10) DEFAULT NULL,
            `assigned_to_id` int(10) unsigned DEFAULT NULL,
            `delegated_to_id` int(10) DEFAULT NULL,
            `trust` tinyint(1) NOT NULL DEFAULT 0,
            `description` text,
            `multiple_task_id` int(10) DEFAULT NULL,
            `completed_dt` int(10) DEFAULT NULL,
            `duration` int(10) NOT NULL DEFAULT 0,
            `number_comments` int(10) NOT NULL DEFAULT 0,
            `number_uploads` int(10) NOT NULL DEFAULT '0',
            `created` int(10) DEFAULT NULL,
            `updated` int(10) DEFAULT NULL,
            PRIMARY KEY (`id`),
            KEY `task_status_id` (`status_id`),
            KEY `task_priority_id` (`priority_id`),
            KEY `tasks_membership_id` (`membership_id`),
            KEY `task_type_id` (`task_type_id`),
            KEY `task_assigned_to_id` (`assigned_to_id`),
            CONSTRAINT `tasks_assigned_to_id_ref_memberships_user_id` FOREIGN KEY (`assigned_to_id`) REFERENCES `memberships` (`id`) ON DELETE SET NULL,
            CONSTRAINT `tasks_priority_id_ref_task_priorities_id` FOREIGN KEY (`priority_id`) REFERENCES `task_priorities` (`id`) ON UPDATE CASCADE,
            CONSTRAINT `tasks_type_id_ref_task_types_id` FOREIGN KEY (`task_type_id`) REFERENCES `task_types` (`id`) ON UPDATE CASCADE
            ) ENGINE=InnoDB DEFAULT CHARSET=utf8;
        ") in
  let v_returned := (p_returned v_parser) in
  let k1 := is_true (p_attr "matched" v_parser) in
  let k2 := p_eq (PStr "tasks") (p_attr "name" v_parser) in
  let k3 := p_eq (PStr "") v_returned in
  let k4 := p_eq (PNum (23)%Z) (p_len (p_attr "columns" v_parser)) in
  let k5 := p_eq (PNum (6)%Z) (p_len (p_attr "indexes" v_parser)) in
  let k6 := p_eq (PNum (3)%Z) (p_len (p_attr "constraints" v_parser)) in
  let k7 := p_eq (PNum (2)%Z) (p_len (p_attr "options" v_parser)) in
  let k8 := is_true (p_attr "semicolon" v_parser) in
  let k9 := p_eq (PNum (0)%Z) (p_len (p_attr "schema_errors" v_parser)) in
  let k10 := p_eq (PList [(PStr "id")]) (p_attr "columns" (p_attr "primary" v_parser)) in
  failing [k1; k2; k3; k4; k5; k6; k7; k8; k9; k10] = [].
Proof. vm_compute. reflexivity. Qed.

(** formats/mysql/file_reader/create_parser_test.py line 146 *)
Example create_parser_test_test_inline_comments_stripped :
  let v_parser := (p_new "CreateParser" [] (PDict [])) in
  let v_parser := p_parse v_parser (PStr "CREATE TABLE `test` (
            `id` int(10) unsigned NOT NULL AUTO_INCREMENT,
            -- This is a comment
            `name` varchar(255) NOT NULL,
            -- Another comment
            `status` tinyint(1) DEFAULT 0,
            PRIMARY KEY (`id`)
            );
        ") in
  let v_returned := (p_returned v_parser) in
  let k1 := is_true (p_attr "matched" v_parser) in
  let k2 := p_eq (PStr "test") (p_attr "name" v_parser) in
  let k3 := p_eq (PStr "") v_returned in
  let k4 := p_eq (PNum (3)%Z) (p_len (p_attr "columns" v_parser)) in
  let k5 := is_true (p_in (PStr "id") (p_attr "columns" v_parser)) in
  let k6 := is_true (p_in (PStr "name") (p_attr "columns" v_parser)) in
  let k7 := is_true (p_in (PStr "status") (p_attr "columns" v_parser)) in
  failing [k1; k2; k3; k4; k5; k6; k7] = [].
Proof. vm_compute. reflexivity. Qed.

(** formats/mysql/file_reader/create_parser_test.py line 169 *)
Example create_parser_test_test_inline_comments_at_line_end :
  let v_parser := (p_new "CreateParser" [] (PDict [])) in
  let v_parser := p_parse v_parser (PStr "CREATE TABLE `test` (
            `id` int(10) unsigned NOT NULL AUTO_INCREMENT, -- primary id
            `name` varchar(255) NOT NULL, -- user name
            PRIMARY KEY (`id`)
            );
        ") in
  let v_returned := (p_returned v_parser) in
  let k1 := is_true (p_attr "matched" v_parser) in
  let k2 := p_eq (PStr "test") (p_attr "name" v_parser) in
  let k3 := p_eq (PNum (2)%Z) (p_len (p_attr "columns" v_parser)) in
  let k4 := is_true (p_in (PStr "id") (p_attr "columns" v_parser)) in
  let k5 := is_true (p_in (PStr "name") (p_attr "columns" v_parser)) in
  failing [k1; k2; k3; k4; k5] = [].
Proof. vm_compute. reflexivity. Qed.

(** formats/mysql/file_reader/create_parser_test.py line 187 *)
Example create_parser_test_test_prefix_length_index_stripped :
  let v_parser := (p_new "CreateParser" [] (PDict [])) in
  let v_parser := p_parse v_parser (PStr "CREATE TABLE `test` (
            `id` int(10) unsigned NOT NULL AUTO_INCREMENT,
            `full_path` text NOT NULL,
            `name` varchar(255) NOT NULL,
            PRIMARY KEY (`id`),
            INDEX `idx_full_path` (`full_path`(255)),
            KEY `idx_name` (`name`(100), `id`)
            );
        ") in
  let v_returned := (p_returned v_parser) in
  let k1 := is_true (p_attr "matched" v_parser) in
  let k2 := p_eq (PStr "test") (p_attr "name" v_parser) in
  let k3 := p_eq (PStr "") v_returned in
  let k4 := p_eq (PNum (3)%Z) (p_len (p_attr "columns" v_parser)) in
  let k5 := p_eq (PNum (3)%Z) (p_len (p_attr "indexes" v_parser)) in
  let k6 := p_eq (PList [(PStr "full_path")]) (p_attr "columns" (p_index (p_attr "indexes" v_parser) (PStr "idx_full_path"))) in
  let k7 := p_eq (PList [(PStr "name"); (PStr "id")]) (p_attr "columns" (p_index (p_attr "indexes" v_parser) (PStr "idx_name"))) in
  let k8 := p_eq (PStr "VARCHAR") (p_attr "column_type" (p_index (p_attr "columns" v_parser) (PStr "name"))) in
  let k9 := p_eq (PStr "255") (p_attr "length" (p_index (p_attr "columns" v_parser) (PStr "name"))) in
  failing [k1; k2; k3; k4; k5; k6; k7; k8; k9] = [].
Proof. vm_compute. reflexivity. Qed.

(** formats/mysql/file_reader/create_parser_test.py line 212 *)
Example create_parser_test_test_boolean_columns_with_bare_foreign_key :
  let v_parser := (p_new "CreateParser" [] (PDict [])) in
  let v_parser := p_parse v_parser (PStr "CREATE TABLE IF NOT EXISTS project_configs (
            project_id INT UNSIGNED NOT NULL DEFAULT 0 PRIMARY KEY,
            reset_approvals_on_push BOOLEAN,
            selective_code_owner_removals BOOLEAN,
            disable_overriding_approvers_per_merge_request BOOLEAN,
            merge_requests_author_approval BOOLEAN,
            FOREIGN KEY (project_id) REFERENCES projects(id) ON DELETE CASCADE
            );
        ") in
  let v_returned := (p_returned v_parser) in
  let k1 := is_true (p_attr "matched" v_parser) in
  let k2 := p_eq (PStr "project_configs") (p_attr "name" v_parser) in
  let k3 := p_eq (PStr "") v_returned in
  let k4 := p_eq (PNum (5)%Z) (p_len (p_attr "columns" v_parser)) in
  let k5 := p_eq (PNum (1)%Z) (p_len (p_attr "constraints" v_parser)) in
  let k6 := p_eq (PStr "INT") (p_attr "column_type" (p_index (p_attr "columns" v_parser) (PStr "project_id"))) in
  let k7 := is_true (p_attr "unsigned" (p_index (p_attr "columns" v_parser) (PStr "project_id"))) in
  let k8 := p_eq (PStr "TINYINT") (p_attr "column_type" (p_index (p_attr "columns" v_parser) (PStr "reset_approvals_on_push"))) in
  let k9 := p_eq (PStr "1") (p_attr "length" (p_index (p_attr "columns" v_parser) (PStr "reset_approvals_on_push"))) in
  failing [k1; k2; k3; k4; k5; k6; k7; k8; k9] = [].
Proof. vm_compute. reflexivity. Qed.

(** formats/mysql/file_reader/create_parser_test.py line 237 *)
Example create_parser_test_test_primary_key_not_null_false_positive :
  let v_sql_file := (PStr "CREATE TABLE businesses (
            id INT UNSIGNED PRIMARY KEY AUTO_INCREMENT,
            name varchar(255)
        )") in
  let v_show_create := (PStr "CREATE TABLE `businesses` (
            `id` int unsigned NOT NULL AUTO_INCREMENT,
            `name` varchar(255) DEFAULT NULL,
            PRIMARY KEY (`id`)
        ) ENGINE=InnoDB DEFAULT CHARSET=utf8mb4") in
  let v_file_parser := (p_new "CreateParser" [] (PDict [])) in
  let v_file_parser := p_parse v_file_parser v_sql_file in
  let k1 := is_true (p_attr "matched" v_file_parser) in
  let v_db_parser := (p_new "CreateParser" [] (PDict [])) in
  let v_db_parser := p_parse v_db_parser v_show_create in
  let k2 := is_true (p_attr "matched" v_db_parser) in
  let v_file_id := (p_index (p_attr "columns" v_file_parser) (PStr "id")) in
  let v_db_id := (p_index (p_attr "columns" v_db_parser) (PStr "id")) in
  let k3 := p_eq (p_str v_file_id) (p_str v_db_id) in
  let k4 := is_true (p_method "is_really_the_same_as" v_file_id [v_db_id]) in
  failing [k1; k2; k3; k4] = [].
Proof. vm_compute. reflexivity. Qed.

(** formats/mysql/file_reader/create_parser_test.py line 267 *)
Example create_parser_test_test_integer_synonym_no_false_positive_change :
  let v_sql_file := (PStr "CREATE TABLE members (
            id INT UNSIGNED PRIMARY KEY AUTO_INCREMENT,
            access_level INTEGER NOT NULL DEFAULT 0,
            count INTEGER
        )") in
  let v_show_create := (PStr "CREATE TABLE `members` (
            `id` int unsigned NOT NULL AUTO_INCREMENT,
            `access_level` int NOT NULL DEFAULT 0,
            `count` int DEFAULT NULL,
            PRIMARY KEY (`id`)
        ) ENGINE=InnoDB") in
  let v_file_parser := (p_new "CreateParser" [] (PDict [])) in
  let v_file_parser := p_parse v_file_parser v_sql_file in
  let k1 := is_true (p_attr "matched" v_file_parser) in
  let v_db_parser := (p_new "CreateParser" [] (PDict [])) in
  let v_db_parser := p_parse v_db_parser v_show_create in
  let k2 := is_true (p_attr "matched" v_db_parser) in
  let v_operations := (p_method "to" v_db_parser [v_file_parser]) in
  let k3 := p_eq (PNum (0)%Z) (p_len v_operations) in
  failing [k1; k2; k3] = [].
Proof. vm_compute. reflexivity. Qed.

(** formats/mysql/file_reader/create_parser_test.py line 295 *)
Example create_parser_test_test_integer_with_length_synonym_no_false_positive :
  let v_sql_file := (PStr "CREATE TABLE settings (
            id INT UNSIGNED PRIMARY KEY AUTO_INCREMENT,
            enabled INTEGER(1)
        )") in
  let v_show_create := (PStr "CREATE TABLE `settings` (
            `id` int unsigned NOT NULL AUTO_INCREMENT,
            `enabled` int(1) DEFAULT NULL,
            PRIMARY KEY (`id`)
        ) ENGINE=InnoDB") in
  let v_file_parser := (p_new "CreateParser" [] (PDict [])) in
  let v_file_parser := p_parse v_file_parser v_sql_file in
  let k1 := is_true (p_attr "matched" v_file_parser) in
  let v_db_parser := (p_new "CreateParser" [] (PDict [])) in
  let v_db_parser := p_parse v_db_parser v_show_create in
  let k2 := is_true (p_attr "matched" v_db_parser) in
  let v_operations := (p_method "to" v_db_parser [v_file_parser]) in
  let k3 := p_eq (PNum (0)%Z) (p_len v_operations) in
  failing [k1; k2; k3] = [].
Proof. vm_compute. reflexivity. Qed.

(** formats/mysql/file_reader/reader_test.py line 5 *)
Example reader_test_test_simple :
  let v_parser := (p_new "Reader" [] (PDict [])) in
  let v_parser := p_parse v_parser (PStr "
            /* I should find and ignore comments */
            -- Of any variety
               # really
            CREATE TABLE `logs` (
                `id` int(10) unsigned NOT NULL AUTO_INCREMENT,
                `message` TEXT NOT NULL,
                `traceback` text,
                PRIMARY KEY (`id`)
            ) ENGINE=InnoDB DEFAULT CHARSET=utf8;
            INSERT INTO logs (`id`,`message`,`traceback`) VALUES (1,'blah','gah');
            INSERT INTO test (id,status) VALUES (1,'New'),(2,'Old');
        ") in
  let v_returned := (p_returned v_parser) in
  let k1 := is_true (p_attr "matched" v_parser) in
  let k2 := p_eq (PStr "") v_returned in
  let k3 := is_true (p_in (PStr "logs") (p_attr "tables" v_parser)) in
  let k4 := p_eq (PStr "logs") (p_attr "name" (p_index (p_attr "tables" v_parser) (PStr "logs"))) in
  let k5 := p_eq (PNum (3)%Z) (p_len (p_attr "columns" (p_index (p_attr "tables" v_parser) (PStr "logs")))) in
  let k6 := is_true (p_in (PStr "logs") (p_attr "rows" v_parser)) in
  let k7 := is_true (p_in (PStr "test") (p_attr "rows" v_parser)) in
  let k8 := p_eq (PList [(PStr "id"); (PStr "message"); (PStr "traceback")]) (p_attr "columns" (p_index (p_index (p_attr "rows" v_parser) (PStr "logs")) (PNum (0)%Z))) in
  failing [k1; k2; k3; k4; k5; k6; k7; k8] = [].
Proof. vm_compute. reflexivity. Qed.
