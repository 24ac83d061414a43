(** The tests of /repo/mygrations under core/definitions, core/definitions/columns, formats/mysql/definitions
    on the model (see Suite.v): each [Example] is one test method, statement by statement.
    Checks on literals, NOT PROOFS OF PROPERTIES. *)
From Verif Require Import Suite.

(** core/definitions/constraint_test.py line 4 *)
Example constraint_test_test_can_create :
  let v_constraint := (p_new "Constraint" [(PStr "user_id_fk"); (PStr "user_id"); (PStr "users"); (PStr "id")] (PDict [])) in
  let k1 := p_eq (PStr "user_id_fk") (p_attr "name" v_constraint) in
  let k2 := p_eq (PStr "user_id") (p_attr "column_name" v_constraint) in
  let k3 := p_eq (PStr "users") (p_attr "foreign_table_name" v_constraint) in
  let k4 := p_eq (PStr "id") (p_attr "foreign_column_name" v_constraint) in
  let k5 := p_eq (PStr "RESTRICT") (p_attr "on_delete" v_constraint) in
  let k6 := p_eq (PStr "RESTRICT") (p_attr "on_update" v_constraint) in
  let k7 := p_eq (PList []) (p_attr "schema_errors" v_constraint) in
  failing [k1; k2; k3; k4; k5; k6; k7] = [].
Proof. vm_compute. reflexivity. Qed.

(** core/definitions/constraint_test.py line 20 *)
Example constraint_test_test_action :
  let v_constraint := (p_new "Constraint" [(PStr "user_id_fk"); (PStr "user_id"); (PStr "users"); (PStr "id")] (p_merge [(PDict [("on_delete", (PStr "GARBAGE"))]); (PDict [("on_update", (PStr "whatever"))])])) in
  let k1 := p_eq (PList [(PStr "ON DELETE action of 'GARBAGE' for constraint 'user_id_fk' is not a valid ON DELETE action"); (PStr "ON UPDATE action of 'WHATEVER' for constraint 'user_id_fk' is not a valid ON UPDATE action")]) (p_attr "schema_errors" v_constraint) in
  failing [k1] = [].
Proof. vm_compute. reflexivity. Qed.

(** core/definitions/option_test.py line 4 *)
Example option_test_test_can_create :
  let v_option := (p_new "Option" [(PStr "my_option"); (PStr "my_value")] (PDict [])) in
  let k1 := p_eq (PStr "my_option") (p_attr "name" v_option) in
  let k2 := p_eq (PStr "my_value") (p_attr "value" v_option) in
  failing [k1; k2] = [].
Proof. vm_compute. reflexivity. Qed.

(** core/definitions/index_test.py line 8 *)
Example index_test_test_can_create :
  let v_self_columns := (PList [(PStr "name"); (PStr "description")]) in
  let v_name := (p_new "String" [(PStr "name"); (PStr "VARCHAR")] (PDict [])) in
  let v_description := (p_new "String" [(PStr "description"); (PStr "VARCHAR")] (PDict [])) in
  let v_index := (p_new "Index" [(PStr "test_index"); v_self_columns] (p_merge [(PDict [("index_type", (PStr "unique"))])])) in
  let k1 := p_eq (PStr "test_index") (p_attr "name" v_index) in
  let k2 := p_eq (PStr "UNIQUE") (p_attr "index_type" v_index) in
  let k3 := p_eq v_self_columns (p_attr "columns" v_index) in
  let k4 := p_eq (PList []) (p_attr "schema_errors" v_index) in
  let k5 := p_eq (PList []) (p_attr "schema_warnings" v_index) in
  let k6 := p_eq (PList []) (p_attr "parsing_errors" v_index) in
  let k7 := p_eq (PList []) (p_attr "parsing_warnings" v_index) in
  failing [k1; k2; k3; k4; k5; k6; k7] = [].
Proof. vm_compute. reflexivity. Qed.

(** core/definitions/index_test.py line 21 *)
Example index_test_test_string_conversion :
  let v_self_columns := (PList [(PStr "name"); (PStr "description")]) in
  let v_index := (p_new "Index" [] (p_merge [(PDict [("name", (PStr "test_index"))]); (PDict [("columns", v_self_columns)]); (PDict [("index_type", (PStr "UNIQUE"))])])) in
  let k1 := p_eq (PStr "UNIQUE KEY `test_index` (`name`,`description`)") (p_str v_index) in
  failing [k1] = [].
Proof. vm_compute. reflexivity. Qed.

(** core/definitions/index_test.py line 26 *)
Example index_test_test_name_too_long :
  let v_self_columns := (PList [(PStr "name"); (PStr "description")]) in
  let v_too_long := (PStr "012345678901234567890123456789012345678901234567890123456789012345") in
  let v_index := (p_new "Index" [v_too_long; v_self_columns] (p_merge [(PDict [("index_type", (PStr "UNIQUE"))])])) in
  let k1 := p_eq (PList [(p_cat [(PStr "Key name "); v_too_long; (PStr " must be <=64 characters long")])]) (p_attr "schema_errors" v_index) in
  failing [k1] = [].
Proof. vm_compute. reflexivity. Qed.

(** core/definitions/table_test.py line 22 *)
Example table_test_test_can_create :
  let v_self_id := (p_new "Numeric" [(PStr "id"); (PStr "INT")] (p_merge [(PDict [("length", (PNum (10)%Z))]); (PDict [("unsigned", (PBool true))]); (PDict [("null", (PBool false))]); (PDict [("auto_increment", (PBool true))])])) in
  let v_self_user_id := (p_new "Numeric" [(PStr "user_id"); (PStr "INT")] (p_merge [(PDict [("length", (PNum (10)%Z))]); (PDict [("unsigned", (PBool true))]); (PDict [("null", (PBool true))])])) in
  let v_self_age := (p_new "Numeric" [(PStr "age"); (PStr "INT")] (p_merge [(PDict [("length", (PNum (10)%Z))]); (PDict [("unsigned", (PBool true))]); (PDict [("default", (PNum (0)%Z))])])) in
  let v_self_name := (p_new "String" [(PStr "name"); (PStr "VARCHAR")] (p_merge [(PDict [("length", (PNum (255)%Z))]); (PDict [("default", (PStr ""))]); (PDict [("null", (PBool false))])])) in
  let v_self_id_index := (p_new "Index" [(PStr "id_index"); (PList [(PStr "id")]); (PStr "PRIMARY")] (PDict [])) in
  let v_self_name_age_index := (p_new "Index" [(PStr "name_age"); (PList [(PStr "name"); (PStr "age")]); (PStr "INDEX")] (PDict [])) in
  let v_self_user_id_index := (p_new "Index" [(PStr "user_id_index"); (PList [(PStr "user_id")]); (PStr "INDEX")] (PDict [])) in
  let v_self_user_id_constraint := (p_new "Constraint" [(PStr "user_id_fk"); (PStr "user_id"); (PStr "users"); (PStr "id"); (PStr "SET NULL"); (PStr "SET NULL")] (PDict [])) in
  let v_self_engine := (p_new "Option" [(PStr "ENGINE"); (PStr "InnoDB")] (PDict [])) in
  let v_table := (p_new "Table" [(PStr "registrations"); (PList [v_self_id; v_self_user_id; v_self_age; v_self_name]); (PList [v_self_id_index; v_self_name_age_index; v_self_user_id_index]); (PList [v_self_user_id_constraint]); (PList [v_self_engine])] (PDict [])) in
  let k1 := p_eq (PStr "registrations") (p_attr "name" v_table) in
  let k3 := p_eq (PList [(PStr "id"); (PStr "user_id"); (PStr "age"); (PStr "name")]) (p_comp (fun x_2 => (p_attr "name" x_2)) (fun x_2 => PBool true) (p_method "values" (p_attr "columns" v_table) [])) in
  let k5 := p_eq (PList [(PStr "user_id_fk")]) (p_comp (fun x_4 => (p_attr "name" x_4)) (fun x_4 => PBool true) (p_method "values" (p_attr "constraints" v_table) [])) in
  let k7 := p_eq (PList [(PStr "id_index"); (PStr "name_age"); (PStr "user_id_index")]) (p_comp (fun x_6 => (p_attr "name" x_6)) (fun x_6 => PBool true) (p_method "values" (p_attr "indexes" v_table) [])) in
  let k8 := p_eq (PList [v_self_engine]) (p_attr "options" v_table) in
  let k9 := p_eq v_self_id_index (p_attr "primary" v_table) in
  let k10 := p_eq (PList []) (p_attr "schema_errors" v_table) in
  let k11 := p_eq (PList []) (p_attr "schema_warnings" v_table) in
  failing [k1; k3; k5; k7; k8; k9; k10; k11] = [].
Proof. vm_compute. reflexivity. Qed.

(** core/definitions/table_test.py line 40 *)
Example table_test_test_require_basics :
  let v_self_id := (p_new "Numeric" [(PStr "id"); (PStr "INT")] (p_merge [(PDict [("length", (PNum (10)%Z))]); (PDict [("unsigned", (PBool true))]); (PDict [("null", (PBool false))]); (PDict [("auto_increment", (PBool true))])])) in
  let v_self_user_id := (p_new "Numeric" [(PStr "user_id"); (PStr "INT")] (p_merge [(PDict [("length", (PNum (10)%Z))]); (PDict [("unsigned", (PBool true))]); (PDict [("null", (PBool true))])])) in
  let v_self_age := (p_new "Numeric" [(PStr "age"); (PStr "INT")] (p_merge [(PDict [("length", (PNum (10)%Z))]); (PDict [("unsigned", (PBool true))]); (PDict [("default", (PNum (0)%Z))])])) in
  let v_self_name := (p_new "String" [(PStr "name"); (PStr "VARCHAR")] (p_merge [(PDict [("length", (PNum (255)%Z))]); (PDict [("default", (PStr ""))]); (PDict [("null", (PBool false))])])) in
  let v_self_id_index := (p_new "Index" [(PStr "id_index"); (PList [(PStr "id")]); (PStr "PRIMARY")] (PDict [])) in
  let v_self_name_age_index := (p_new "Index" [(PStr "name_age"); (PList [(PStr "name"); (PStr "age")]); (PStr "INDEX")] (PDict [])) in
  let v_self_user_id_index := (p_new "Index" [(PStr "user_id_index"); (PList [(PStr "user_id")]); (PStr "INDEX")] (PDict [])) in
  let v_self_user_id_constraint := (p_new "Constraint" [(PStr "user_id_fk"); (PStr "user_id"); (PStr "users"); (PStr "id"); (PStr "SET NULL"); (PStr "SET NULL")] (PDict [])) in
  let v_self_engine := (p_new "Option" [(PStr "ENGINE"); (PStr "InnoDB")] (PDict [])) in
  let v_table := (p_new "Table" [(PStr ""); (PList [v_self_id]); (PList [v_self_id_index]); (PList []); (PList [])] (PDict [])) in
  let k1 := p_eq (PList [(PStr "Table missing name")]) (p_attr "schema_errors" v_table) in
  let v_table := (p_new "Table" [(PStr "no_cols"); (PList []); (PList []); (PList []); (PList [])] (PDict [])) in
  let k2 := p_eq (PList [(PStr "Table 'no_cols' does not have any columns")]) (p_attr "schema_errors" v_table) in
  failing [k1; k2] = [].
Proof. vm_compute. reflexivity. Qed.

(** core/definitions/table_test.py line 47 *)
Example table_test_test_include_child_errors :
  let v_self_id := (p_new "Numeric" [(PStr "id"); (PStr "INT")] (p_merge [(PDict [("length", (PNum (10)%Z))]); (PDict [("unsigned", (PBool true))]); (PDict [("null", (PBool false))]); (PDict [("auto_increment", (PBool true))])])) in
  let v_self_user_id := (p_new "Numeric" [(PStr "user_id"); (PStr "INT")] (p_merge [(PDict [("length", (PNum (10)%Z))]); (PDict [("unsigned", (PBool true))]); (PDict [("null", (PBool true))])])) in
  let v_self_age := (p_new "Numeric" [(PStr "age"); (PStr "INT")] (p_merge [(PDict [("length", (PNum (10)%Z))]); (PDict [("unsigned", (PBool true))]); (PDict [("default", (PNum (0)%Z))])])) in
  let v_self_name := (p_new "String" [(PStr "name"); (PStr "VARCHAR")] (p_merge [(PDict [("length", (PNum (255)%Z))]); (PDict [("default", (PStr ""))]); (PDict [("null", (PBool false))])])) in
  let v_self_id_index := (p_new "Index" [(PStr "id_index"); (PList [(PStr "id")]); (PStr "PRIMARY")] (PDict [])) in
  let v_self_name_age_index := (p_new "Index" [(PStr "name_age"); (PList [(PStr "name"); (PStr "age")]); (PStr "INDEX")] (PDict [])) in
  let v_self_user_id_index := (p_new "Index" [(PStr "user_id_index"); (PList [(PStr "user_id")]); (PStr "INDEX")] (PDict [])) in
  let v_self_user_id_constraint := (p_new "Constraint" [(PStr "user_id_fk"); (PStr "user_id"); (PStr "users"); (PStr "id"); (PStr "SET NULL"); (PStr "SET NULL")] (PDict [])) in
  let v_self_engine := (p_new "Option" [(PStr "ENGINE"); (PStr "InnoDB")] (PDict [])) in
  let v_bad_column := (p_new "String" [(PStr "text"); (PStr "TEXT")] (p_merge [(PDict [("default", (PStr ""))]); (PDict [("has_default", (PBool true))])])) in
  let v_bad_index := (p_new "Index" [(PStr "no_cols"); (PList []); (PStr "INDEX")] (PDict [])) in
  let v_bad_constraint := (p_new "Constraint" [(PStr "user_id_fk"); (PStr "user_id"); (PStr "users"); (PStr "id")] (p_merge [(PDict [("on_delete", (PStr "CASCAD"))])])) in
  let v_table := (p_new "Table" [(PStr "errors"); (PList [v_self_id; v_self_user_id; v_bad_column]); (PList [v_self_id_index; v_bad_index]); (PList [v_bad_constraint]); (PList [v_self_engine])] (PDict [])) in
  let k1 := p_eq (PList [(PStr "Column 'text' of type 'TEXT' cannot have a default in table 'errors'"); (PStr "Missing columns for index no_cols in table 'errors'"); (PStr "ON DELETE action of 'CASCAD' for constraint 'user_id_fk' is not a valid ON DELETE action in table 'errors'")]) (p_attr "schema_errors" v_table) in
  failing [k1] = [].
Proof. vm_compute. reflexivity. Qed.

(** core/definitions/table_test.py line 67 *)
Example table_test_test_check_primaries :
  let v_self_id := (p_new "Numeric" [(PStr "id"); (PStr "INT")] (p_merge [(PDict [("length", (PNum (10)%Z))]); (PDict [("unsigned", (PBool true))]); (PDict [("null", (PBool false))]); (PDict [("auto_increment", (PBool true))])])) in
  let v_self_user_id := (p_new "Numeric" [(PStr "user_id"); (PStr "INT")] (p_merge [(PDict [("length", (PNum (10)%Z))]); (PDict [("unsigned", (PBool true))]); (PDict [("null", (PBool true))])])) in
  let v_self_age := (p_new "Numeric" [(PStr "age"); (PStr "INT")] (p_merge [(PDict [("length", (PNum (10)%Z))]); (PDict [("unsigned", (PBool true))]); (PDict [("default", (PNum (0)%Z))])])) in
  let v_self_name := (p_new "String" [(PStr "name"); (PStr "VARCHAR")] (p_merge [(PDict [("length", (PNum (255)%Z))]); (PDict [("default", (PStr ""))]); (PDict [("null", (PBool false))])])) in
  let v_self_id_index := (p_new "Index" [(PStr "id_index"); (PList [(PStr "id")]); (PStr "PRIMARY")] (PDict [])) in
  let v_self_name_age_index := (p_new "Index" [(PStr "name_age"); (PList [(PStr "name"); (PStr "age")]); (PStr "INDEX")] (PDict [])) in
  let v_self_user_id_index := (p_new "Index" [(PStr "user_id_index"); (PList [(PStr "user_id")]); (PStr "INDEX")] (PDict [])) in
  let v_self_user_id_constraint := (p_new "Constraint" [(PStr "user_id_fk"); (PStr "user_id"); (PStr "users"); (PStr "id"); (PStr "SET NULL"); (PStr "SET NULL")] (PDict [])) in
  let v_self_engine := (p_new "Option" [(PStr "ENGINE"); (PStr "InnoDB")] (PDict [])) in
  let v_table := (p_new "Table" [(PStr "errors"); (PList [v_self_id]); (PList [v_self_id_index; (p_new "Index" [(PStr "id_primary"); (PList [(PStr "id")]); (PStr "PRIMARY")] (PDict []))]); (PList []); (PList [])] (PDict [])) in
  let k1 := p_eq (PList [(PStr "Table 'errors' has more than one PRIMARY index")]) (p_attr "schema_errors" v_table) in
  let v_table := (p_new "Table" [(PStr "errors"); (PList [v_self_id]); (PList []); (PList []); (PList [])] (PDict [])) in
  let k2 := p_eq (PList [(PStr "Table 'errors' has an AUTO_INCREMENT column but is missing the PRIMARY index")]) (p_attr "schema_errors" v_table) in
  let v_table := (p_new "Table" [(PStr "errors"); (PList [v_self_id; v_self_user_id]); (PList [(p_new "Index" [(PStr "user_id"); (PList [(PStr "user_id")]); (PStr "PRIMARY")] (PDict []))]); (PList []); (PList [])] (PDict [])) in
  let k3 := p_eq (PList [(PStr "Mismatched indexes in table 'errors': column 'id' is the AUTO_INCREMENT column but 'user_id' is the PRIMARY index column")]) (p_attr "schema_errors" v_table) in
  failing [k1; k2; k3] = [].
Proof. vm_compute. reflexivity. Qed.

(** core/definitions/table_test.py line 90 *)
Example table_test_test_check_missing_index_columns :
  let v_self_id := (p_new "Numeric" [(PStr "id"); (PStr "INT")] (p_merge [(PDict [("length", (PNum (10)%Z))]); (PDict [("unsigned", (PBool true))]); (PDict [("null", (PBool false))]); (PDict [("auto_increment", (PBool true))])])) in
  let v_self_user_id := (p_new "Numeric" [(PStr "user_id"); (PStr "INT")] (p_merge [(PDict [("length", (PNum (10)%Z))]); (PDict [("unsigned", (PBool true))]); (PDict [("null", (PBool true))])])) in
  let v_self_age := (p_new "Numeric" [(PStr "age"); (PStr "INT")] (p_merge [(PDict [("length", (PNum (10)%Z))]); (PDict [("unsigned", (PBool true))]); (PDict [("default", (PNum (0)%Z))])])) in
  let v_self_name := (p_new "String" [(PStr "name"); (PStr "VARCHAR")] (p_merge [(PDict [("length", (PNum (255)%Z))]); (PDict [("default", (PStr ""))]); (PDict [("null", (PBool false))])])) in
  let v_self_id_index := (p_new "Index" [(PStr "id_index"); (PList [(PStr "id")]); (PStr "PRIMARY")] (PDict [])) in
  let v_self_name_age_index := (p_new "Index" [(PStr "name_age"); (PList [(PStr "name"); (PStr "age")]); (PStr "INDEX")] (PDict [])) in
  let v_self_user_id_index := (p_new "Index" [(PStr "user_id_index"); (PList [(PStr "user_id")]); (PStr "INDEX")] (PDict [])) in
  let v_self_user_id_constraint := (p_new "Constraint" [(PStr "user_id_fk"); (PStr "user_id"); (PStr "users"); (PStr "id"); (PStr "SET NULL"); (PStr "SET NULL")] (PDict [])) in
  let v_self_engine := (p_new "Option" [(PStr "ENGINE"); (PStr "InnoDB")] (PDict [])) in
  let v_table := (p_new "Table" [(PStr "errors"); (PList [v_self_id; v_self_user_id]); (PList [v_self_id_index; (p_new "Index" [(PStr "bad_index"); (PList [(PStr "non_column")]); (PStr "INDEX")] (PDict []))]); (PList []); (PList [])] (PDict [])) in
  let k1 := p_eq (PList [(PStr "Table 'errors' has index 'bad_index' that references non-existent column 'non_column'")]) (p_attr "schema_errors" v_table) in
  failing [k1] = [].
Proof. vm_compute. reflexivity. Qed.

(** core/definitions/table_test.py line 99 *)
Example table_test_test_no_warning_for_primary_key_without_default :
  let v_self_id := (p_new "Numeric" [(PStr "id"); (PStr "INT")] (p_merge [(PDict [("length", (PNum (10)%Z))]); (PDict [("unsigned", (PBool true))]); (PDict [("null", (PBool false))]); (PDict [("auto_increment", (PBool true))])])) in
  let v_self_user_id := (p_new "Numeric" [(PStr "user_id"); (PStr "INT")] (p_merge [(PDict [("length", (PNum (10)%Z))]); (PDict [("unsigned", (PBool true))]); (PDict [("null", (PBool true))])])) in
  let v_self_age := (p_new "Numeric" [(PStr "age"); (PStr "INT")] (p_merge [(PDict [("length", (PNum (10)%Z))]); (PDict [("unsigned", (PBool true))]); (PDict [("default", (PNum (0)%Z))])])) in
  let v_self_name := (p_new "String" [(PStr "name"); (PStr "VARCHAR")] (p_merge [(PDict [("length", (PNum (255)%Z))]); (PDict [("default", (PStr ""))]); (PDict [("null", (PBool false))])])) in
  let v_self_id_index := (p_new "Index" [(PStr "id_index"); (PList [(PStr "id")]); (PStr "PRIMARY")] (PDict [])) in
  let v_self_name_age_index := (p_new "Index" [(PStr "name_age"); (PList [(PStr "name"); (PStr "age")]); (PStr "INDEX")] (PDict [])) in
  let v_self_user_id_index := (p_new "Index" [(PStr "user_id_index"); (PList [(PStr "user_id")]); (PStr "INDEX")] (PDict [])) in
  let v_self_user_id_constraint := (p_new "Constraint" [(PStr "user_id_fk"); (PStr "user_id"); (PStr "users"); (PStr "id"); (PStr "SET NULL"); (PStr "SET NULL")] (PDict [])) in
  let v_self_engine := (p_new "Option" [(PStr "ENGINE"); (PStr "InnoDB")] (PDict [])) in
  let v_pk_col := (p_new "Numeric" [(PStr "id"); (PStr "INT")] (p_merge [(PDict [("length", (PNum (10)%Z))]); (PDict [("unsigned", (PBool true))]); (PDict [("null", (PBool false))])])) in
  let v_pk_index := (p_new "Index" [(PStr "PRIMARY"); (PList [(PStr "id")]); (PStr "PRIMARY")] (PDict [])) in
  let v_table := (p_new "Table" [(PStr "test_table"); (PList [v_pk_col]); (PList [v_pk_index]); (PList []); (PList [])] (PDict [])) in
  let k1 := p_eq (PList []) (p_attr "schema_warnings" v_table) in
  failing [k1] = [].
Proof. vm_compute. reflexivity. Qed.

(** core/definitions/table_test.py line 105 *)
Example table_test_test_warning_for_non_pk_column_without_default :
  let v_self_id := (p_new "Numeric" [(PStr "id"); (PStr "INT")] (p_merge [(PDict [("length", (PNum (10)%Z))]); (PDict [("unsigned", (PBool true))]); (PDict [("null", (PBool false))]); (PDict [("auto_increment", (PBool true))])])) in
  let v_self_user_id := (p_new "Numeric" [(PStr "user_id"); (PStr "INT")] (p_merge [(PDict [("length", (PNum (10)%Z))]); (PDict [("unsigned", (PBool true))]); (PDict [("null", (PBool true))])])) in
  let v_self_age := (p_new "Numeric" [(PStr "age"); (PStr "INT")] (p_merge [(PDict [("length", (PNum (10)%Z))]); (PDict [("unsigned", (PBool true))]); (PDict [("default", (PNum (0)%Z))])])) in
  let v_self_name := (p_new "String" [(PStr "name"); (PStr "VARCHAR")] (p_merge [(PDict [("length", (PNum (255)%Z))]); (PDict [("default", (PStr ""))]); (PDict [("null", (PBool false))])])) in
  let v_self_id_index := (p_new "Index" [(PStr "id_index"); (PList [(PStr "id")]); (PStr "PRIMARY")] (PDict [])) in
  let v_self_name_age_index := (p_new "Index" [(PStr "name_age"); (PList [(PStr "name"); (PStr "age")]); (PStr "INDEX")] (PDict [])) in
  let v_self_user_id_index := (p_new "Index" [(PStr "user_id_index"); (PList [(PStr "user_id")]); (PStr "INDEX")] (PDict [])) in
  let v_self_user_id_constraint := (p_new "Constraint" [(PStr "user_id_fk"); (PStr "user_id"); (PStr "users"); (PStr "id"); (PStr "SET NULL"); (PStr "SET NULL")] (PDict [])) in
  let v_self_engine := (p_new "Option" [(PStr "ENGINE"); (PStr "InnoDB")] (PDict [])) in
  let v_pk_col := (p_new "Numeric" [(PStr "id"); (PStr "INT")] (p_merge [(PDict [("length", (PNum (10)%Z))]); (PDict [("unsigned", (PBool true))]); (PDict [("null", (PBool false))]); (PDict [("auto_increment", (PBool true))])])) in
  let v_data_col := (p_new "Numeric" [(PStr "status"); (PStr "INT")] (p_merge [(PDict [("null", (PBool false))])])) in
  let v_pk_index := (p_new "Index" [(PStr "PRIMARY"); (PList [(PStr "id")]); (PStr "PRIMARY")] (PDict [])) in
  let v_table := (p_new "Table" [(PStr "test_table"); (PList [v_pk_col; v_data_col]); (PList [v_pk_index]); (PList []); (PList [])] (PDict [])) in
  let k1 := p_eq (PList [(PStr "Column status does not allow null values and has no default: you should set a default to avoid warnings in table 'test_table'")]) (p_attr "schema_warnings" v_table) in
  failing [k1] = [].
Proof. vm_compute. reflexivity. Qed.

(** core/definitions/columns/column_test.py line 10 *)
Example column_test_test_string_conversion :
  let v_column := (p_new "Column" [(PStr "test_column"); (PStr "INT")] (p_merge [(PDict [("length", (PNum (25)%Z))]); (PDict [("null", (PBool false))]); (PDict [("default", (PNum (0)%Z))]); (PDict [("unsigned", (PBool true))])])) in
  let k1 := p_eq (PStr "`test_column` INT(25) UNSIGNED NOT NULL DEFAULT 0") (p_str v_column) in
  failing [k1] = [].
Proof. vm_compute. reflexivity. Qed.

(** core/definitions/columns/column_test.py line 22 *)
Example column_test_test_is_the_same :
  let v_attrs := (p_dict [((PStr "length"), (PNum (5)%Z)); ((PStr "null"), (PBool false)); ((PStr "unsigned"), (PBool true)); ((PStr "default"), (PStr "5"))]) in
  let v_column1 := (p_new "Column" [(PStr "test_column"); (PStr "INT")] (p_merge [v_attrs])) in
  let v_column2 := (p_new "Column" [(PStr "test_column"); (PStr "INT")] (p_merge [v_attrs])) in
  let k1 := is_true (p_method "is_really_the_same_as" v_column1 [v_column2]) in
  let k2 := is_true (p_method "is_really_the_same_as" v_column2 [v_column1]) in
  let v_diff := (p_dict [((PStr "length"), (PNum (6)%Z)); ((PStr "null"), PNone); ((PStr "unsigned"), (PBool false)); ((PStr "default"), (PNum (5)%Z))]) in
  let t_3 := (PList [(PStr "length"); (PNum (6)%Z)]) in
  let v_key := (p_index t_3 (PNum 0%Z)) in
  let v_val := (p_index t_3 (PNum 1%Z)) in
  let v_column1 := (p_new "Column" [(PStr "test_column"); (PStr "INT")] (p_merge [v_attrs])) in
  let v_column2 := (p_new "Column" [(PStr "test_column"); (PStr "INT")] (p_merge [(p_merge [v_attrs; (p_dict [(v_key, v_val)])])])) in
  let k4 := is_false (p_method "is_really_the_same_as" v_column1 [v_column2]) in
  let k5 := is_false (p_method "is_really_the_same_as" v_column2 [v_column1]) in
  let t_6 := (PList [(PStr "unsigned"); (PBool false)]) in
  let v_key := (p_index t_6 (PNum 0%Z)) in
  let v_val := (p_index t_6 (PNum 1%Z)) in
  let v_column1 := (p_new "Column" [(PStr "test_column"); (PStr "INT")] (p_merge [v_attrs])) in
  let v_column2 := (p_new "Column" [(PStr "test_column"); (PStr "INT")] (p_merge [(p_merge [v_attrs; (p_dict [(v_key, v_val)])])])) in
  let k7 := is_false (p_method "is_really_the_same_as" v_column1 [v_column2]) in
  let k8 := is_false (p_method "is_really_the_same_as" v_column2 [v_column1]) in
  let t_9 := (PList [(PStr "default"); (PNum (5)%Z)]) in
  let v_key := (p_index t_9 (PNum 0%Z)) in
  let v_val := (p_index t_9 (PNum 1%Z)) in
  let v_column1 := (p_new "Column" [(PStr "test_column"); (PStr "INT")] (p_merge [v_attrs])) in
  let v_column2 := (p_new "Column" [(PStr "test_column"); (PStr "INT")] (p_merge [(p_merge [v_attrs; (p_dict [(v_key, v_val)])])])) in
  let k10 := is_false (p_method "is_really_the_same_as" v_column1 [v_column2]) in
  let k11 := is_false (p_method "is_really_the_same_as" v_column2 [v_column1]) in
  let v_column1 := (p_new "Column" [(PStr "test_column"); (PStr "INT")] (p_merge [v_attrs])) in
  let v_column2 := (p_new "Column" [(PStr "test_column"); (PStr "INT")] (p_merge [(p_merge [v_attrs; (p_dict [((PStr "default"), PNone)])])])) in
  let k12 := is_false (p_method "is_really_the_same_as" v_column1 [v_column2]) in
  let k13 := is_false (p_method "is_really_the_same_as" v_column2 [v_column1]) in
  failing [k1; k2; k4; k5; k7; k8; k10; k11; k12; k13] = [].
Proof. vm_compute. reflexivity. Qed.

(** core/definitions/columns/column_test.py line 52 *)
Example column_test_test_not_null_needs_default :
  let v_column := (p_new "Column" [(PStr "test_column"); (PStr "INT")] (p_merge [(PDict [("length", (PNum (25)%Z))]); (PDict [("null", (PBool false))]); (PDict [("default", PNone)])])) in
  let k1 := p_eq (PList [(PStr "Column test_column does not allow null values and has no default: you should set a default to avoid warnings")]) (p_attr "schema_warnings" v_column) in
  let v_column := (p_new "Column" [(PStr "test_column"); (PStr "INT")] (PDict [])) in
  let k2 := p_eq (PList []) (p_attr "schema_warnings" v_column) in
  let v_column := (p_new "Column" [(PStr "test_column"); (PStr "INT")] (PDict [])) in
  let k3 := p_eq (PList []) (p_attr "schema_warnings" v_column) in
  failing [k1; k2; k3] = [].
Proof. vm_compute. reflexivity. Qed.

(** core/definitions/columns/numeric_test.py line 6 *)
Example numeric_test_test_is_the_same :
  let v_attrs := (p_dict [((PStr "length"), (PStr "5,2")); ((PStr "default"), (PStr "0.00"))]) in
  let v_column1 := (p_new "Numeric" [(PStr "test"); (PStr "DECIMAL")] (p_merge [v_attrs])) in
  let v_column2 := (p_new "Numeric" [(PStr "test"); (PStr "DECIMAL")] (p_merge [v_attrs])) in
  let k1 := is_true (p_method "is_really_the_same_as" v_column1 [v_column2]) in
  let k2 := is_true (p_method "is_really_the_same_as" v_column2 [v_column1]) in
  let v_column1 := (p_new "Numeric" [(PStr "test"); (PStr "DECIMAL")] (p_merge [v_attrs])) in
  let v_column2 := (p_new "Numeric" [(PStr "test"); (PStr "DECIMAL")] (p_merge [(p_merge [v_attrs; (p_dict [((PStr "default"), (PStr "0.02"))])])])) in
  let k3 := is_false (p_method "is_really_the_same_as" v_column1 [v_column2]) in
  let k4 := is_false (p_method "is_really_the_same_as" v_column2 [v_column1]) in
  let v_column1 := (p_new "Numeric" [(PStr "test"); (PStr "DECIMAL")] (p_merge [v_attrs])) in
  let v_column2 := (p_new "Numeric" [(PStr "test"); (PStr "DECIMAL")] (p_merge [(p_merge [v_attrs; (p_dict [((PStr "default"), (PStr "0.001"))])])])) in
  let k5 := is_true (p_method "is_really_the_same_as" v_column1 [v_column2]) in
  let k6 := is_true (p_method "is_really_the_same_as" v_column2 [v_column1]) in
  let v_column1 := (p_new "Numeric" [(PStr "test"); (PStr "DECIMAL")] (p_merge [v_attrs])) in
  let v_column2 := (p_new "Numeric" [(PStr "test"); (PStr "DECIMAL")] (p_merge [(p_merge [v_attrs; (p_dict [((PStr "default"), (PNum (0)%Z))])])])) in
  let k7 := is_true (p_method "is_really_the_same_as" v_column1 [v_column2]) in
  let k8 := is_true (p_method "is_really_the_same_as" v_column2 [v_column1]) in
  failing [k1; k2; k3; k4; k5; k6; k7; k8] = [].
Proof. vm_compute. reflexivity. Qed.

(** core/definitions/columns/numeric_test.py line 46 *)
Example numeric_test_test_length_errors :
  let k1 := p_eq (PList [(p_cat [(PStr "Column 'test' of type 'FLOAT' cannot have a length")])]) (p_attr "schema_errors" (p_new "Numeric" [(PStr "test"); (PStr "FLOAT")] (p_merge [(PDict [("length", (PNum (5)%Z))])]))) in
  let k2 := p_eq (PList [(p_cat [(PStr "Column 'test' of type 'INT' must have an integer value as its length")])]) (p_attr "schema_errors" (p_new "Numeric" [(PStr "test"); (PStr "INT")] (p_merge [(PDict [("length", (PStr "5,2"))])]))) in
  failing [k1; k2] = [].
Proof. vm_compute. reflexivity. Qed.

(** core/definitions/columns/numeric_test.py line 55 *)
Example numeric_test_test_character_set_errors :
  let k1 := p_eq (PList [(p_cat [(PStr "Column 'test' of type 'INT' cannot have a character set")])]) (p_attr "schema_errors" (p_new "Numeric" [(PStr "test"); (PStr "INT")] (p_merge [(PDict [("character_set", (PStr "UTF-8"))])]))) in
  let k2 := p_eq (PList [(p_cat [(PStr "Column 'test' of type 'INT' cannot have a collate")])]) (p_attr "schema_errors" (p_new "Numeric" [(PStr "test"); (PStr "INT")] (p_merge [(PDict [("collate", (PStr "UTF-8"))])]))) in
  failing [k1; k2] = [].
Proof. vm_compute. reflexivity. Qed.

(** core/definitions/columns/numeric_test.py line 65 *)
Example numeric_test_test_auto_increment_errors :
  let k1 := p_eq (PList [(p_cat [(PStr "Column 'test' of type 'FLOAT' cannot be an AUTO_INCREMENT")])]) (p_attr "schema_errors" (p_new "Numeric" [(PStr "test"); (PStr "FLOAT")] (p_merge [(PDict [("auto_increment", (PBool true))])]))) in
  let k2 := p_eq (PList []) (p_attr "schema_errors" (p_new "Numeric" [(PStr "test"); (PStr "FLOAT")] (p_merge [(PDict [("auto_increment", (PBool false))])]))) in
  let k3 := p_eq (PList []) (p_attr "schema_errors" (p_new "Numeric" [(PStr "test"); (PStr "INT")] (p_merge [(PDict [("auto_increment", (PBool true))])]))) in
  failing [k1; k2; k3] = [].
Proof. vm_compute. reflexivity. Qed.

(** core/definitions/columns/numeric_test.py line 73 *)
Example numeric_test_test_integer_display_width_ignored :
  let v_int_types := (PList [(PStr "INT"); (PStr "TINYINT"); (PStr "SMALLINT"); (PStr "MEDIUMINT"); (PStr "BIGINT")]) in
  let v_col_type := (PStr "INT") in
  let v_with_width := (p_new "Numeric" [(PStr "col"); v_col_type] (p_merge [(PDict [("length", (PNum (1)%Z))]); (PDict [("null", (PBool false))]); (PDict [("default", (PNum (0)%Z))])])) in
  let v_without_width := (p_new "Numeric" [(PStr "col"); v_col_type] (p_merge [(PDict [("length", PNone)]); (PDict [("null", (PBool false))]); (PDict [("default", (PNum (0)%Z))])])) in
  let k1 := is_true (p_method "is_really_the_same_as" v_with_width [v_without_width]) in
  let k2 := is_true (p_method "is_really_the_same_as" v_without_width [v_with_width]) in
  let v_col_type := (PStr "TINYINT") in
  let v_with_width := (p_new "Numeric" [(PStr "col"); v_col_type] (p_merge [(PDict [("length", (PNum (1)%Z))]); (PDict [("null", (PBool false))]); (PDict [("default", (PNum (0)%Z))])])) in
  let v_without_width := (p_new "Numeric" [(PStr "col"); v_col_type] (p_merge [(PDict [("length", PNone)]); (PDict [("null", (PBool false))]); (PDict [("default", (PNum (0)%Z))])])) in
  let k3 := is_true (p_method "is_really_the_same_as" v_with_width [v_without_width]) in
  let k4 := is_true (p_method "is_really_the_same_as" v_without_width [v_with_width]) in
  let v_col_type := (PStr "SMALLINT") in
  let v_with_width := (p_new "Numeric" [(PStr "col"); v_col_type] (p_merge [(PDict [("length", (PNum (1)%Z))]); (PDict [("null", (PBool false))]); (PDict [("default", (PNum (0)%Z))])])) in
  let v_without_width := (p_new "Numeric" [(PStr "col"); v_col_type] (p_merge [(PDict [("length", PNone)]); (PDict [("null", (PBool false))]); (PDict [("default", (PNum (0)%Z))])])) in
  let k5 := is_true (p_method "is_really_the_same_as" v_with_width [v_without_width]) in
  let k6 := is_true (p_method "is_really_the_same_as" v_without_width [v_with_width]) in
  let v_col_type := (PStr "MEDIUMINT") in
  let v_with_width := (p_new "Numeric" [(PStr "col"); v_col_type] (p_merge [(PDict [("length", (PNum (1)%Z))]); (PDict [("null", (PBool false))]); (PDict [("default", (PNum (0)%Z))])])) in
  let v_without_width := (p_new "Numeric" [(PStr "col"); v_col_type] (p_merge [(PDict [("length", PNone)]); (PDict [("null", (PBool false))]); (PDict [("default", (PNum (0)%Z))])])) in
  let k7 := is_true (p_method "is_really_the_same_as" v_with_width [v_without_width]) in
  let k8 := is_true (p_method "is_really_the_same_as" v_without_width [v_with_width]) in
  let v_col_type := (PStr "BIGINT") in
  let v_with_width := (p_new "Numeric" [(PStr "col"); v_col_type] (p_merge [(PDict [("length", (PNum (1)%Z))]); (PDict [("null", (PBool false))]); (PDict [("default", (PNum (0)%Z))])])) in
  let v_without_width := (p_new "Numeric" [(PStr "col"); v_col_type] (p_merge [(PDict [("length", PNone)]); (PDict [("null", (PBool false))]); (PDict [("default", (PNum (0)%Z))])])) in
  let k9 := is_true (p_method "is_really_the_same_as" v_with_width [v_without_width]) in
  let k10 := is_true (p_method "is_really_the_same_as" v_without_width [v_with_width]) in
  failing [k1; k2; k3; k4; k5; k6; k7; k8; k9; k10] = [].
Proof. vm_compute. reflexivity. Qed.

(** core/definitions/columns/numeric_test.py line 86 *)
Example numeric_test_test_decimal_length_still_matters :
  let v_col1 := (p_new "Numeric" [(PStr "col"); (PStr "DECIMAL")] (p_merge [(PDict [("length", (PStr "10,2"))]); (PDict [("default", (PStr "0.00"))])])) in
  let v_col2 := (p_new "Numeric" [(PStr "col"); (PStr "DECIMAL")] (p_merge [(PDict [("length", (PStr "5,2"))]); (PDict [("default", (PStr "0.00"))])])) in
  let k1 := is_false (p_method "is_really_the_same_as" v_col1 [v_col2]) in
  failing [k1] = [].
Proof. vm_compute. reflexivity. Qed.

(** core/definitions/columns/string_test.py line 6 *)
Example string_test_test_string_conversion_with_collation :
  let v_column := (p_new "String" [(PStr "test_column"); (PStr "VARCHAR")] (p_merge [(PDict [("length", (PNum (25)%Z))]); (PDict [("default", (PStr "asdf"))]); (PDict [("character_set", (PStr "unicode"))]); (PDict [("collate", (PStr "sup"))])])) in
  let k1 := p_eq (PStr "`test_column` VARCHAR(25) DEFAULT 'asdf' CHARACTER SET 'UNICODE' COLLATE 'SUP'") (p_str v_column) in
  let k2 := p_eq (PList []) (p_attr "schema_errors" v_column) in
  let k3 := p_eq (PList []) (p_attr "schema_warnings" v_column) in
  failing [k1; k2; k3] = [].
Proof. vm_compute. reflexivity. Qed.

(** core/definitions/columns/string_test.py line 13 *)
Example string_test_test_is_the_same :
  let v_attrs := (p_dict [((PStr "length"), (PNum (255)%Z)); ((PStr "character_set"), (PStr "unicode"))]) in
  let v_column1 := (p_new "String" [(PStr "test"); (PStr "VARCHAR")] (p_merge [v_attrs])) in
  let v_column2 := (p_new "String" [(PStr "test"); (PStr "VARCHAR")] (p_merge [(p_merge [v_attrs; (p_dict [((PStr "collate"), (PStr "hey"))])])])) in
  let k1 := is_true (p_method "is_really_the_same_as" v_column1 [v_column2]) in
  let k2 := is_true (p_method "is_really_the_same_as" v_column2 [v_column1]) in
  let v_column3 := (p_new "String" [(PStr "test"); (PStr "VARCHAR")] (p_merge [(p_merge [v_attrs; (p_dict [((PStr "collate"), (PStr "sup"))])])])) in
  let k3 := is_false (p_method "is_really_the_same_as" v_column3 [v_column2]) in
  let k4 := is_false (p_method "is_really_the_same_as" v_column2 [v_column3]) in
  failing [k1; k2; k3; k4] = [].
Proof. vm_compute. reflexivity. Qed.

(** core/definitions/columns/string_test.py line 31 *)
Example string_test_test_no_default :
  let v_no_default := (PList [(PStr "TINYBLOB"); (PStr "BLOB"); (PStr "MEDIUMBLOB"); (PStr "LONGBLOB"); (PStr "TINYTEXT"); (PStr "TEXT"); (PStr "MEDIUMTEXT"); (PStr "LONGTEXT"); (PStr "JSON")]) in
  let v_column_type := (PStr "TINYBLOB") in
  let v_column := (p_new "String" [(PStr "test"); v_column_type] (p_merge [(PDict [("default", (PStr "Hey"))]); (PDict [("has_default", (PBool true))])])) in
  let k1 := p_eq (PList [(p_cat [(PStr "Column 'test' of type '"); v_column_type; (PStr "' cannot have a default")])]) (p_attr "schema_errors" v_column) in
  let v_column_type := (PStr "BLOB") in
  let v_column := (p_new "String" [(PStr "test"); v_column_type] (p_merge [(PDict [("default", (PStr "Hey"))]); (PDict [("has_default", (PBool true))])])) in
  let k2 := p_eq (PList [(p_cat [(PStr "Column 'test' of type '"); v_column_type; (PStr "' cannot have a default")])]) (p_attr "schema_errors" v_column) in
  let v_column_type := (PStr "MEDIUMBLOB") in
  let v_column := (p_new "String" [(PStr "test"); v_column_type] (p_merge [(PDict [("default", (PStr "Hey"))]); (PDict [("has_default", (PBool true))])])) in
  let k3 := p_eq (PList [(p_cat [(PStr "Column 'test' of type '"); v_column_type; (PStr "' cannot have a default")])]) (p_attr "schema_errors" v_column) in
  let v_column_type := (PStr "LONGBLOB") in
  let v_column := (p_new "String" [(PStr "test"); v_column_type] (p_merge [(PDict [("default", (PStr "Hey"))]); (PDict [("has_default", (PBool true))])])) in
  let k4 := p_eq (PList [(p_cat [(PStr "Column 'test' of type '"); v_column_type; (PStr "' cannot have a default")])]) (p_attr "schema_errors" v_column) in
  let v_column_type := (PStr "TINYTEXT") in
  let v_column := (p_new "String" [(PStr "test"); v_column_type] (p_merge [(PDict [("default", (PStr "Hey"))]); (PDict [("has_default", (PBool true))])])) in
  let k5 := p_eq (PList [(p_cat [(PStr "Column 'test' of type '"); v_column_type; (PStr "' cannot have a default")])]) (p_attr "schema_errors" v_column) in
  let v_column_type := (PStr "TEXT") in
  let v_column := (p_new "String" [(PStr "test"); v_column_type] (p_merge [(PDict [("default", (PStr "Hey"))]); (PDict [("has_default", (PBool true))])])) in
  let k6 := p_eq (PList [(p_cat [(PStr "Column 'test' of type '"); v_column_type; (PStr "' cannot have a default")])]) (p_attr "schema_errors" v_column) in
  let v_column_type := (PStr "MEDIUMTEXT") in
  let v_column := (p_new "String" [(PStr "test"); v_column_type] (p_merge [(PDict [("default", (PStr "Hey"))]); (PDict [("has_default", (PBool true))])])) in
  let k7 := p_eq (PList [(p_cat [(PStr "Column 'test' of type '"); v_column_type; (PStr "' cannot have a default")])]) (p_attr "schema_errors" v_column) in
  let v_column_type := (PStr "LONGTEXT") in
  let v_column := (p_new "String" [(PStr "test"); v_column_type] (p_merge [(PDict [("default", (PStr "Hey"))]); (PDict [("has_default", (PBool true))])])) in
  let k8 := p_eq (PList [(p_cat [(PStr "Column 'test' of type '"); v_column_type; (PStr "' cannot have a default")])]) (p_attr "schema_errors" v_column) in
  let v_column_type := (PStr "JSON") in
  let v_column := (p_new "String" [(PStr "test"); v_column_type] (p_merge [(PDict [("default", (PStr "Hey"))]); (PDict [("has_default", (PBool true))])])) in
  let k9 := p_eq (PList [(p_cat [(PStr "Column 'test' of type '"); v_column_type; (PStr "' cannot have a default")])]) (p_attr "schema_errors" v_column) in
  failing [k1; k2; k3; k4; k5; k6; k7; k8; k9] = [].
Proof. vm_compute. reflexivity. Qed.

(** core/definitions/columns/string_test.py line 50 *)
Example string_test_test_no_character_set_or_collate :
  let v_nope := (PList [(PStr "TINYBLOB"); (PStr "BLOB"); (PStr "MEDIUMBLOB"); (PStr "LONGBLOB"); (PStr "TINYTEXT"); (PStr "TEXT"); (PStr "MEDIUMTEXT"); (PStr "LONGTEXT"); (PStr "JSON")]) in
  let v_column_type := (PStr "TINYBLOB") in
  let v_column := (p_new "String" [(PStr "test"); v_column_type] (p_merge [(PDict [("character_set", (PStr "Hey"))])])) in
  let k1 := p_eq (PList [(p_cat [(PStr "Column 'test' of type '"); v_column_type; (PStr "' cannot have a collation/character set")])]) (p_attr "schema_errors" v_column) in
  let v_column := (p_new "String" [(PStr "test"); v_column_type] (p_merge [(PDict [("collate", (PStr "Hey"))])])) in
  let k2 := p_eq (PList [(p_cat [(PStr "Column 'test' of type '"); v_column_type; (PStr "' cannot have a collation/character set")])]) (p_attr "schema_errors" v_column) in
  let v_column_type := (PStr "BLOB") in
  let v_column := (p_new "String" [(PStr "test"); v_column_type] (p_merge [(PDict [("character_set", (PStr "Hey"))])])) in
  let k3 := p_eq (PList [(p_cat [(PStr "Column 'test' of type '"); v_column_type; (PStr "' cannot have a collation/character set")])]) (p_attr "schema_errors" v_column) in
  let v_column := (p_new "String" [(PStr "test"); v_column_type] (p_merge [(PDict [("collate", (PStr "Hey"))])])) in
  let k4 := p_eq (PList [(p_cat [(PStr "Column 'test' of type '"); v_column_type; (PStr "' cannot have a collation/character set")])]) (p_attr "schema_errors" v_column) in
  let v_column_type := (PStr "MEDIUMBLOB") in
  let v_column := (p_new "String" [(PStr "test"); v_column_type] (p_merge [(PDict [("character_set", (PStr "Hey"))])])) in
  let k5 := p_eq (PList [(p_cat [(PStr "Column 'test' of type '"); v_column_type; (PStr "' cannot have a collation/character set")])]) (p_attr "schema_errors" v_column) in
  let v_column := (p_new "String" [(PStr "test"); v_column_type] (p_merge [(PDict [("collate", (PStr "Hey"))])])) in
  let k6 := p_eq (PList [(p_cat [(PStr "Column 'test' of type '"); v_column_type; (PStr "' cannot have a collation/character set")])]) (p_attr "schema_errors" v_column) in
  let v_column_type := (PStr "LONGBLOB") in
  let v_column := (p_new "String" [(PStr "test"); v_column_type] (p_merge [(PDict [("character_set", (PStr "Hey"))])])) in
  let k7 := p_eq (PList [(p_cat [(PStr "Column 'test' of type '"); v_column_type; (PStr "' cannot have a collation/character set")])]) (p_attr "schema_errors" v_column) in
  let v_column := (p_new "String" [(PStr "test"); v_column_type] (p_merge [(PDict [("collate", (PStr "Hey"))])])) in
  let k8 := p_eq (PList [(p_cat [(PStr "Column 'test' of type '"); v_column_type; (PStr "' cannot have a collation/character set")])]) (p_attr "schema_errors" v_column) in
  let v_column_type := (PStr "TINYTEXT") in
  let v_column := (p_new "String" [(PStr "test"); v_column_type] (p_merge [(PDict [("character_set", (PStr "Hey"))])])) in
  let k9 := p_eq (PList [(p_cat [(PStr "Column 'test' of type '"); v_column_type; (PStr "' cannot have a collation/character set")])]) (p_attr "schema_errors" v_column) in
  let v_column := (p_new "String" [(PStr "test"); v_column_type] (p_merge [(PDict [("collate", (PStr "Hey"))])])) in
  let k10 := p_eq (PList [(p_cat [(PStr "Column 'test' of type '"); v_column_type; (PStr "' cannot have a collation/character set")])]) (p_attr "schema_errors" v_column) in
  let v_column_type := (PStr "TEXT") in
  let v_column := (p_new "String" [(PStr "test"); v_column_type] (p_merge [(PDict [("character_set", (PStr "Hey"))])])) in
  let k11 := p_eq (PList [(p_cat [(PStr "Column 'test' of type '"); v_column_type; (PStr "' cannot have a collation/character set")])]) (p_attr "schema_errors" v_column) in
  let v_column := (p_new "String" [(PStr "test"); v_column_type] (p_merge [(PDict [("collate", (PStr "Hey"))])])) in
  let k12 := p_eq (PList [(p_cat [(PStr "Column 'test' of type '"); v_column_type; (PStr "' cannot have a collation/character set")])]) (p_attr "schema_errors" v_column) in
  let v_column_type := (PStr "MEDIUMTEXT") in
  let v_column := (p_new "String" [(PStr "test"); v_column_type] (p_merge [(PDict [("character_set", (PStr "Hey"))])])) in
  let k13 := p_eq (PList [(p_cat [(PStr "Column 'test' of type '"); v_column_type; (PStr "' cannot have a collation/character set")])]) (p_attr "schema_errors" v_column) in
  let v_column := (p_new "String" [(PStr "test"); v_column_type] (p_merge [(PDict [("collate", (PStr "Hey"))])])) in
  let k14 := p_eq (PList [(p_cat [(PStr "Column 'test' of type '"); v_column_type; (PStr "' cannot have a collation/character set")])]) (p_attr "schema_errors" v_column) in
  let v_column_type := (PStr "LONGTEXT") in
  let v_column := (p_new "String" [(PStr "test"); v_column_type] (p_merge [(PDict [("character_set", (PStr "Hey"))])])) in
  let k15 := p_eq (PList [(p_cat [(PStr "Column 'test' of type '"); v_column_type; (PStr "' cannot have a collation/character set")])]) (p_attr "schema_errors" v_column) in
  let v_column := (p_new "String" [(PStr "test"); v_column_type] (p_merge [(PDict [("collate", (PStr "Hey"))])])) in
  let k16 := p_eq (PList [(p_cat [(PStr "Column 'test' of type '"); v_column_type; (PStr "' cannot have a collation/character set")])]) (p_attr "schema_errors" v_column) in
  let v_column_type := (PStr "JSON") in
  let v_column := (p_new "String" [(PStr "test"); v_column_type] (p_merge [(PDict [("character_set", (PStr "Hey"))])])) in
  let k17 := p_eq (PList [(p_cat [(PStr "Column 'test' of type '"); v_column_type; (PStr "' cannot have a collation/character set")])]) (p_attr "schema_errors" v_column) in
  let v_column := (p_new "String" [(PStr "test"); v_column_type] (p_merge [(PDict [("collate", (PStr "Hey"))])])) in
  let k18 := p_eq (PList [(p_cat [(PStr "Column 'test' of type '"); v_column_type; (PStr "' cannot have a collation/character set")])]) (p_attr "schema_errors" v_column) in
  failing [k1; k2; k3; k4; k5; k6; k7; k8; k9; k10; k11; k12; k13; k14; k15; k16; k17; k18] = [].
Proof. vm_compute. reflexivity. Qed.

(** core/definitions/columns/string_test.py line 74 *)
Example string_test_test_no_length :
  let v_no_length := (PList [(PStr "TINYBLOB"); (PStr "BLOB"); (PStr "MEDIUMBLOB"); (PStr "LONGBLOB"); (PStr "TINYTEXT"); (PStr "TEXT"); (PStr "MEDIUMTEXT"); (PStr "LONGTEXT"); (PStr "JSON")]) in
  let v_column_type := (PStr "TINYBLOB") in
  let v_column := (p_new "String" [(PStr "test"); v_column_type] (p_merge [(PDict [("length", (PStr "28"))])])) in
  let k1 := p_eq (PList [(p_cat [(PStr "Column test of type "); v_column_type; (PStr " cannot have a length")])]) (p_attr "schema_errors" v_column) in
  let v_column_type := (PStr "BLOB") in
  let v_column := (p_new "String" [(PStr "test"); v_column_type] (p_merge [(PDict [("length", (PStr "28"))])])) in
  let k2 := p_eq (PList [(p_cat [(PStr "Column test of type "); v_column_type; (PStr " cannot have a length")])]) (p_attr "schema_errors" v_column) in
  let v_column_type := (PStr "MEDIUMBLOB") in
  let v_column := (p_new "String" [(PStr "test"); v_column_type] (p_merge [(PDict [("length", (PStr "28"))])])) in
  let k3 := p_eq (PList [(p_cat [(PStr "Column test of type "); v_column_type; (PStr " cannot have a length")])]) (p_attr "schema_errors" v_column) in
  let v_column_type := (PStr "LONGBLOB") in
  let v_column := (p_new "String" [(PStr "test"); v_column_type] (p_merge [(PDict [("length", (PStr "28"))])])) in
  let k4 := p_eq (PList [(p_cat [(PStr "Column test of type "); v_column_type; (PStr " cannot have a length")])]) (p_attr "schema_errors" v_column) in
  let v_column_type := (PStr "TINYTEXT") in
  let v_column := (p_new "String" [(PStr "test"); v_column_type] (p_merge [(PDict [("length", (PStr "28"))])])) in
  let k5 := p_eq (PList [(p_cat [(PStr "Column test of type "); v_column_type; (PStr " cannot have a length")])]) (p_attr "schema_errors" v_column) in
  let v_column_type := (PStr "TEXT") in
  let v_column := (p_new "String" [(PStr "test"); v_column_type] (p_merge [(PDict [("length", (PStr "28"))])])) in
  let k6 := p_eq (PList [(p_cat [(PStr "Column test of type "); v_column_type; (PStr " cannot have a length")])]) (p_attr "schema_errors" v_column) in
  let v_column_type := (PStr "MEDIUMTEXT") in
  let v_column := (p_new "String" [(PStr "test"); v_column_type] (p_merge [(PDict [("length", (PStr "28"))])])) in
  let k7 := p_eq (PList [(p_cat [(PStr "Column test of type "); v_column_type; (PStr " cannot have a length")])]) (p_attr "schema_errors" v_column) in
  let v_column_type := (PStr "LONGTEXT") in
  let v_column := (p_new "String" [(PStr "test"); v_column_type] (p_merge [(PDict [("length", (PStr "28"))])])) in
  let k8 := p_eq (PList [(p_cat [(PStr "Column test of type "); v_column_type; (PStr " cannot have a length")])]) (p_attr "schema_errors" v_column) in
  let v_column_type := (PStr "JSON") in
  let v_column := (p_new "String" [(PStr "test"); v_column_type] (p_merge [(PDict [("length", (PStr "28"))])])) in
  let k9 := p_eq (PList [(p_cat [(PStr "Column test of type "); v_column_type; (PStr " cannot have a length")])]) (p_attr "schema_errors" v_column) in
  failing [k1; k2; k3; k4; k5; k6; k7; k8; k9] = [].
Proof. vm_compute. reflexivity. Qed.

(** core/definitions/columns/string_test.py line 93 *)
Example string_test_test_binary_collation :
  let v_binary_only := (PList [(PStr "BINARY"); (PStr "VARBINARY")]) in
  let v_column_type := (PStr "BINARY") in
  let v_column := (p_new "String" [(PStr "test"); v_column_type] (p_merge [(PDict [("character_set", (PStr "Hey"))])])) in
  let k1 := p_eq (PList [(p_cat [(PStr "Column 'test' of type '"); v_column_type; (PStr "' can only have a collate/character set of BINARY")])]) (p_attr "schema_errors" v_column) in
  let v_column := (p_new "String" [(PStr "test"); v_column_type] (p_merge [(PDict [("collate", (PStr "Hey"))])])) in
  let k2 := p_eq (PList [(p_cat [(PStr "Column 'test' of type '"); v_column_type; (PStr "' can only have a collate/character set of BINARY")])]) (p_attr "schema_errors" v_column) in
  let v_column := (p_new "String" [(PStr "test"); v_column_type] (p_merge [(PDict [("collate", (PStr "binary"))])])) in
  let k3 := p_eq (PList []) (p_attr "schema_errors" v_column) in
  let v_column := (p_new "String" [(PStr "test"); v_column_type] (p_merge [(PDict [("character_set", (PStr "binary"))])])) in
  let k4 := p_eq (PList []) (p_attr "schema_errors" v_column) in
  let v_column := (p_new "String" [(PStr "test"); v_column_type] (p_merge [(PDict [("character_set", (PStr "binary"))]); (PDict [("collate", (PStr "binary"))])])) in
  let k5 := p_eq (PList []) (p_attr "schema_errors" v_column) in
  let v_column_type := (PStr "VARBINARY") in
  let v_column := (p_new "String" [(PStr "test"); v_column_type] (p_merge [(PDict [("character_set", (PStr "Hey"))])])) in
  let k6 := p_eq (PList [(p_cat [(PStr "Column 'test' of type '"); v_column_type; (PStr "' can only have a collate/character set of BINARY")])]) (p_attr "schema_errors" v_column) in
  let v_column := (p_new "String" [(PStr "test"); v_column_type] (p_merge [(PDict [("collate", (PStr "Hey"))])])) in
  let k7 := p_eq (PList [(p_cat [(PStr "Column 'test' of type '"); v_column_type; (PStr "' can only have a collate/character set of BINARY")])]) (p_attr "schema_errors" v_column) in
  let v_column := (p_new "String" [(PStr "test"); v_column_type] (p_merge [(PDict [("collate", (PStr "binary"))])])) in
  let k8 := p_eq (PList []) (p_attr "schema_errors" v_column) in
  let v_column := (p_new "String" [(PStr "test"); v_column_type] (p_merge [(PDict [("character_set", (PStr "binary"))])])) in
  let k9 := p_eq (PList []) (p_attr "schema_errors" v_column) in
  let v_column := (p_new "String" [(PStr "test"); v_column_type] (p_merge [(PDict [("character_set", (PStr "binary"))]); (PDict [("collate", (PStr "binary"))])])) in
  let k10 := p_eq (PList []) (p_attr "schema_errors" v_column) in
  failing [k1; k2; k3; k4; k5; k6; k7; k8; k9; k10] = [].
Proof. vm_compute. reflexivity. Qed.

(** core/definitions/columns/string_test.py line 116 *)
Example string_test_test_no_auto_increment :
  let v_column := (p_new "String" [(PStr "test"); (PStr "VARCHAR")] (p_merge [(PDict [("auto_increment", (PBool true))])])) in
  let k1 := p_eq (PList [(p_cat [(PStr "Column 'test' of type 'VARCHAR' cannot be an AUTO_INCREMENT: only numeric columns can")])]) (p_attr "schema_errors" v_column) in
  failing [k1] = [].
Proof. vm_compute. reflexivity. Qed.

(** core/definitions/columns/string_test.py line 123 *)
Example string_test_test_text_default_empty_string_is_same_as_no_default :
  let v_text_types := (PList [(PStr "TINYTEXT"); (PStr "TEXT"); (PStr "MEDIUMTEXT"); (PStr "LONGTEXT"); (PStr "TINYBLOB"); (PStr "BLOB"); (PStr "MEDIUMBLOB"); (PStr "LONGBLOB"); (PStr "JSON")]) in
  let v_col_type := (PStr "TINYTEXT") in
  let v_with_default := (p_new "String" [(PStr "col"); v_col_type] (p_merge [(PDict [("null", (PBool false))]); (PDict [("has_default", (PBool true))]); (PDict [("default", (PStr ""))])])) in
  let v_without_default := (p_new "String" [(PStr "col"); v_col_type] (p_merge [(PDict [("null", (PBool false))]); (PDict [("has_default", (PBool false))]); (PDict [("default", PNone)])])) in
  let k1 := is_true (p_method "is_really_the_same_as" v_with_default [v_without_default]) in
  let k2 := is_true (p_method "is_really_the_same_as" v_without_default [v_with_default]) in
  let v_col_type := (PStr "TEXT") in
  let v_with_default := (p_new "String" [(PStr "col"); v_col_type] (p_merge [(PDict [("null", (PBool false))]); (PDict [("has_default", (PBool true))]); (PDict [("default", (PStr ""))])])) in
  let v_without_default := (p_new "String" [(PStr "col"); v_col_type] (p_merge [(PDict [("null", (PBool false))]); (PDict [("has_default", (PBool false))]); (PDict [("default", PNone)])])) in
  let k3 := is_true (p_method "is_really_the_same_as" v_with_default [v_without_default]) in
  let k4 := is_true (p_method "is_really_the_same_as" v_without_default [v_with_default]) in
  let v_col_type := (PStr "MEDIUMTEXT") in
  let v_with_default := (p_new "String" [(PStr "col"); v_col_type] (p_merge [(PDict [("null", (PBool false))]); (PDict [("has_default", (PBool true))]); (PDict [("default", (PStr ""))])])) in
  let v_without_default := (p_new "String" [(PStr "col"); v_col_type] (p_merge [(PDict [("null", (PBool false))]); (PDict [("has_default", (PBool false))]); (PDict [("default", PNone)])])) in
  let k5 := is_true (p_method "is_really_the_same_as" v_with_default [v_without_default]) in
  let k6 := is_true (p_method "is_really_the_same_as" v_without_default [v_with_default]) in
  let v_col_type := (PStr "LONGTEXT") in
  let v_with_default := (p_new "String" [(PStr "col"); v_col_type] (p_merge [(PDict [("null", (PBool false))]); (PDict [("has_default", (PBool true))]); (PDict [("default", (PStr ""))])])) in
  let v_without_default := (p_new "String" [(PStr "col"); v_col_type] (p_merge [(PDict [("null", (PBool false))]); (PDict [("has_default", (PBool false))]); (PDict [("default", PNone)])])) in
  let k7 := is_true (p_method "is_really_the_same_as" v_with_default [v_without_default]) in
  let k8 := is_true (p_method "is_really_the_same_as" v_without_default [v_with_default]) in
  let v_col_type := (PStr "TINYBLOB") in
  let v_with_default := (p_new "String" [(PStr "col"); v_col_type] (p_merge [(PDict [("null", (PBool false))]); (PDict [("has_default", (PBool true))]); (PDict [("default", (PStr ""))])])) in
  let v_without_default := (p_new "String" [(PStr "col"); v_col_type] (p_merge [(PDict [("null", (PBool false))]); (PDict [("has_default", (PBool false))]); (PDict [("default", PNone)])])) in
  let k9 := is_true (p_method "is_really_the_same_as" v_with_default [v_without_default]) in
  let k10 := is_true (p_method "is_really_the_same_as" v_without_default [v_with_default]) in
  let v_col_type := (PStr "BLOB") in
  let v_with_default := (p_new "String" [(PStr "col"); v_col_type] (p_merge [(PDict [("null", (PBool false))]); (PDict [("has_default", (PBool true))]); (PDict [("default", (PStr ""))])])) in
  let v_without_default := (p_new "String" [(PStr "col"); v_col_type] (p_merge [(PDict [("null", (PBool false))]); (PDict [("has_default", (PBool false))]); (PDict [("default", PNone)])])) in
  let k11 := is_true (p_method "is_really_the_same_as" v_with_default [v_without_default]) in
  let k12 := is_true (p_method "is_really_the_same_as" v_without_default [v_with_default]) in
  let v_col_type := (PStr "MEDIUMBLOB") in
  let v_with_default := (p_new "String" [(PStr "col"); v_col_type] (p_merge [(PDict [("null", (PBool false))]); (PDict [("has_default", (PBool true))]); (PDict [("default", (PStr ""))])])) in
  let v_without_default := (p_new "String" [(PStr "col"); v_col_type] (p_merge [(PDict [("null", (PBool false))]); (PDict [("has_default", (PBool false))]); (PDict [("default", PNone)])])) in
  let k13 := is_true (p_method "is_really_the_same_as" v_with_default [v_without_default]) in
  let k14 := is_true (p_method "is_really_the_same_as" v_without_default [v_with_default]) in
  let v_col_type := (PStr "LONGBLOB") in
  let v_with_default := (p_new "String" [(PStr "col"); v_col_type] (p_merge [(PDict [("null", (PBool false))]); (PDict [("has_default", (PBool true))]); (PDict [("default", (PStr ""))])])) in
  let v_without_default := (p_new "String" [(PStr "col"); v_col_type] (p_merge [(PDict [("null", (PBool false))]); (PDict [("has_default", (PBool false))]); (PDict [("default", PNone)])])) in
  let k15 := is_true (p_method "is_really_the_same_as" v_with_default [v_without_default]) in
  let k16 := is_true (p_method "is_really_the_same_as" v_without_default [v_with_default]) in
  let v_col_type := (PStr "JSON") in
  let v_with_default := (p_new "String" [(PStr "col"); v_col_type] (p_merge [(PDict [("null", (PBool false))]); (PDict [("has_default", (PBool true))]); (PDict [("default", (PStr ""))])])) in
  let v_without_default := (p_new "String" [(PStr "col"); v_col_type] (p_merge [(PDict [("null", (PBool false))]); (PDict [("has_default", (PBool false))]); (PDict [("default", PNone)])])) in
  let k17 := is_true (p_method "is_really_the_same_as" v_with_default [v_without_default]) in
  let k18 := is_true (p_method "is_really_the_same_as" v_without_default [v_with_default]) in
  failing [k1; k2; k3; k4; k5; k6; k7; k8; k9; k10; k11; k12; k13; k14; k15; k16; k17; k18] = [].
Proof. vm_compute. reflexivity. Qed.

(** core/definitions/columns/string_test.py line 148 *)
Example string_test_test_varchar_default_empty_string_differs_from_no_default :
  let v_with_default := (p_new "String" [(PStr "col"); (PStr "VARCHAR")] (p_merge [(PDict [("length", (PNum (255)%Z))]); (PDict [("null", (PBool false))]); (PDict [("has_default", (PBool true))]); (PDict [("default", (PStr ""))])])) in
  let v_without_default := (p_new "String" [(PStr "col"); (PStr "VARCHAR")] (p_merge [(PDict [("length", (PNum (255)%Z))]); (PDict [("null", (PBool false))]); (PDict [("has_default", (PBool false))]); (PDict [("default", PNone)])])) in
  let k1 := is_false (p_method "is_really_the_same_as" v_with_default [v_without_default]) in
  let k2 := is_false (p_method "is_really_the_same_as" v_without_default [v_with_default]) in
  failing [k1; k2] = [].
Proof. vm_compute. reflexivity. Qed.

(** core/definitions/columns/enum_test.py line 4 *)
Example enum_test_test_string_conversion :
  let v_column := (p_new "Enum" [(PStr "test_column"); (PStr "ENUM")] (p_merge [(PDict [("enum_values", (PList [(PStr "asdf"); (PStr "qwerty")]))]); (PDict [("default", (PStr "qwerty"))])])) in
  let k1 := p_eq (PStr "`test_column` ENUM('asdf', 'qwerty') DEFAULT 'qwerty'") (p_str v_column) in
  let k2 := p_eq (PList []) (p_attr "schema_errors" v_column) in
  let k3 := p_eq (PList []) (p_attr "schema_warnings" v_column) in
  failing [k1; k2; k3] = [].
Proof. vm_compute. reflexivity. Qed.

(** core/definitions/columns/enum_test.py line 11 *)
Example enum_test_test_default_errors :
  let v_column := (p_new "Enum" [(PStr "test_column"); (PStr "ENUM")] (p_merge [(PDict [("enum_values", (PList [(PStr "asdf"); (PStr "qwerty")]))]); (PDict [("default", (PStr "adf"))])])) in
  let k1 := p_eq (PList [(PStr "Default value for 'ENUM' column 'test_column' is not in the list of allowed values")]) (p_attr "schema_errors" v_column) in
  let k2 := p_eq (PList []) (p_attr "schema_errors" (p_new "Enum" [(PStr "test_column"); (PStr "ENUM")] (p_merge [(PDict [("enum_values", (PList [(PStr "asdf"); (PStr "qwerty")]))])]))) in
  failing [k1; k2] = [].
Proof. vm_compute. reflexivity. Qed.

(** formats/mysql/definitions/constraint_test.py line 4 *)
Example constraint_test_test_string_conversion :
  let v_constraint := (p_new "Constraint" [(PStr "user_id_fk"); (PStr "user_id"); (PStr "users"); (PStr "id")] (p_merge [(PDict [("on_delete", (PStr "SET NULL"))]); (PDict [("on_update", (PStr "CASCADE"))])])) in
  let k1 := p_eq (PStr "CONSTRAINT `user_id_fk` FOREIGN KEY (`user_id`) REFERENCES `users` (`id`) ON DELETE SET NULL ON UPDATE CASCADE") (p_str v_constraint) in
  let k2 := p_eq (PList []) (p_attr "schema_errors" v_constraint) in
  let k3 := p_eq (PList []) (p_attr "schema_warnings" v_constraint) in
  failing [k1; k2; k3] = [].
Proof. vm_compute. reflexivity. Qed.
