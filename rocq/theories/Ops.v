(** The operations a diff or plan consists of, and the SQL text they render to:
    formats/mysql/mygrations/operations/*.py. *)
From Verif Require Export Table.

(** Clauses of an ALTER TABLE. *)
Inductive aop : Type :=
| AddColumn (c : column) (p : position)     (* add_column.py *)
| ChangeColumn (c : column)                 (* change_column.py *)
| RemoveColumn (c : column)                 (* remove_column.py *)
| AddKey (i : index)                        (* add_key.py *)
| ChangeKey (i : index)                     (* change_key.py *)
| RemoveKey (i : index)                     (* remove_key.py *)
| AddConstraint (k : constraint)            (* add_constraint.py *)
| ChangeConstraint (k : constraint)         (* change_constraint.py *)
| RemoveConstraint (k : constraint).        (* remove_constraint.py *)

(** alter_table.py lines 1-8 *)
Record alter := mkAlter { al_table : string; al_ops : list aop }.

(** alter_table.py lines 23-24 *)
Definition alter_bool (a : alter) : bool := negb (list_is_nil (al_ops a)).

Inductive op : Type :=
| OCreate (t : table)                       (* create_table.py *)
| OAlter (a : alter)                        (* alter_table.py *)
| ODropTable (name : string)                (* remove_table.py *)
| ODisable                                  (* disable_checks.py *)
| OEnable                                   (* enable_checks.py *)
| ORowInsert (tname : string) (data : row)  (* row_insert.py *)
| ORowUpdate (tname : string) (data : row)  (* row_update.py *)
| ORowDelete (tname : string) (id : string). (* row_delete.py *)

Definition bq (s : string) : string := "`" ++ s ++ "`".

(** add_column.py lines 34-43 and the [__str__] of the other clauses *)
Definition aop_str (o : aop) : string :=
  match o with
  | AddColumn c p => "ADD " ++ column_str c
                       ++ match p with PEnd => "" | PFirst => " FIRST" | PAfter a => " AFTER " ++ bq a end
  | ChangeColumn c => "CHANGE " ++ bq (c_name c) ++ " " ++ column_str c
  | RemoveColumn c => "DROP " ++ c_name c
  | AddKey i => "ADD " ++ index_str i
  | ChangeKey i => "DROP KEY " ++ bq (ix_name i) ++ ", ADD " ++ index_str i
  | RemoveKey i => if is_primary i then "DROP PRIMARY KEY" else "DROP KEY " ++ bq (ix_name i)
  | AddConstraint k => "ADD " ++ constraint_str k
  | ChangeConstraint k => "DROP FOREIGN KEY " ++ bq (k_name k) ++ ", ADD " ++ constraint_str k
  | RemoveConstraint k => "DROP FOREIGN KEY " ++ bq (k_name k)
  end.

(** alter_table.py lines 26-27 *)
Definition alter_str (a : alter) : string :=
  "ALTER TABLE " ++ bq (al_table a) ++ " " ++ join ", " (map aop_str (al_ops a)) ++ ";".

Definition nl : string := String (ascii_of_N 10) "".

(** create_table.py lines 24-37 *)
Definition create_body (pad : string) (t : table) : list string :=
  map (fun c => pad ++ column_str c) (dvals (t_columns t))
  +++ map (fun i => pad ++ index_str i) (dvals (t_indexes t))
  +++ map (fun k => pad ++ constraint_str k) (dvals (t_constraints t)).
Definition create_str (nice : bool) (t : table) : string :=
  let newline := if nice then nl else "" in
  let opts := map (fun o => o_name o ++ "=" ++ o_value o) (t_options t) in
  "CREATE TABLE " ++ bq (t_name t) ++ " (" ++ newline
    ++ join ("," ++ nl) (create_body (if nice then "  " else "") t)
    ++ newline ++ ")" ++ (if list_is_nil opts then "" else " " ++ join " " opts) ++ ";".

(** row_insert.py line 23 *)
Definition escape_insert (s : string) : string :=
  replace1 squote "\'" (replace1 backslash "\\" s).
Definition insert_value (v : rval) : string :=
  match v with RNone => "NULL" | _ => "'" ++ escape_insert (rval_str v) ++ "'" end.
(** row_insert.py lines 20-26 *)
Definition insert_str (tname : string) (data : row) : string :=
  "INSERT INTO " ++ bq tname ++ " (" ++ join ", " (map bq (dkeys data)) ++ ") VALUES ("
    ++ join ", " (map insert_value (dvals data)) ++ ");".

(** row_update.py line 25: backslashes are doubled, quotes are left alone *)
Definition update_value (v : rval) : string :=
  match v with RNone => "NULL" | _ => "'" ++ replace1 backslash "\\" (rval_str v) ++ "'" end.
(** row_update.py lines 23-28; a missing id is refused by the constructor (lines 4-5) *)
Definition update_set (data : row) : list (string * rval) :=
  filter (fun p => negb (String.eqb (fst p) "id")) data.
Definition row_id_text (data : row) : string :=
  match dget "id" data with Some v => rval_str v | None => "" end.
Definition update_str (tname : string) (data : row) : string :=
  "UPDATE " ++ bq tname ++ " SET "
    ++ join ", " (map (fun p => bq (fst p) ++ "=" ++ update_value (snd p)) (update_set data))
    ++ " WHERE id='" ++ row_id_text data ++ "';".

(** row_delete.py lines 20-21 *)
Definition delete_str (tname id : string) : string :=
  "DELETE FROM " ++ bq tname ++ " WHERE id='" ++ id ++ "';".

Definition op_str (o : op) : string :=
  match o with
  | OCreate t => create_str false t
  | OAlter a => alter_str a
  | ODropTable n => "DROP TABLE " ++ n ++ ";"
  | ODisable => "SET FOREIGN_KEY_CHECKS=0;"
  | OEnable => "SET FOREIGN_KEY_CHECKS=1;"
  | ORowInsert t d => insert_str t d
  | ORowUpdate t d => update_str t d
  | ORowDelete t i => delete_str t i
  end.

(** [apply_to_table] of each clause.  add_key.py line 12, change_key.py line 12 and remove_key.py
    line 12 call [table.add_key] etc., which no table class defines: AttributeError. *)
Definition apply_aop (t : table) (o : aop) : mut table :=
  match o with
  | AddColumn c p => add_column t c p
  | ChangeColumn c => change_column t c
  | RemoveColumn c => remove_column t (c_name c)
  | AddKey _ => (t, Some (AttributeError "'Table' object has no attribute 'add_key'"))
  | ChangeKey _ => (t, Some (AttributeError "'Table' object has no attribute 'change_key'"))
  | RemoveKey _ => (t, Some (AttributeError "'Table' object has no attribute 'remove_key'"))
  | AddConstraint k => add_constraint t k
  | ChangeConstraint k => change_constraint t k
  | RemoveConstraint k => remove_constraint t (k_name k)
  end.
