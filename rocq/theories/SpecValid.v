(** What a valid foreign key, table and database are, for the statements about validation. *)
From Verif Require Export Database.

(** Column [c] is the first column of one of the table's indexes. *)
Definition leads (t : table) (c : string) : Prop :=
  exists n i rest, In (n, i) (t_indexes t) /\ ix_columns i = c :: rest.

(** Columns are stored under their names, indexes have columns, and the remembered set of indexed
    columns, if there is one, is right. *)
Record kept (t : table) : Prop := {
  kept_named : forall n c, In (n, c) (t_columns t) -> c_name c = n;
  kept_keys : forall n i, In (n, i) (t_indexes t) -> ix_columns i <> [];
  kept_indexed : forall s, t_indexed t = Some s -> forall c, In c s <-> leads t c
}.

(** A foreign key that MySQL would accept (1215). *)
Record fk_satisfied (ts : tables) (t : table) (k : constraint) (ft : table) (c fc : column) : Prop := {
  fs_table : dget (k_ftable k) ts = Some ft;
  fs_fcolumn : dget (k_fcolumn k) (t_columns ft) = Some fc;
  fs_column : dget (k_column k) (t_columns t) = Some c;
  fs_index : leads t (k_column k);
  fs_findex : leads ft (k_fcolumn k);
  fs_type : c_type c = c_type fc;
  fs_length : c_length c = c_length fc;
  fs_charset : c_charset c = c_charset fc;
  fs_collate : c_collate c = c_collate fc;
  fs_unsigned : c_unsigned c = Some true <-> c_unsigned fc = Some true;
  fs_null : k_on_delete k = "SET NULL" \/ k_on_update k = "SET NULL" -> c_null c = true
}.

(** Index and foreign key definitions that are complete in themselves. *)
Definition index_sound (i : index) : Prop :=
  ix_name i <> "" /\ ix_columns i <> [] /\ String.length (ix_name i) <= 64.
Definition fk_actions := ["CASCADE"; "NO ACTION"; "RESTRICT"; "SET DEFAULT"; "SET NULL"].
Definition fk_sound (k : constraint) : Prop :=
  k_name k <> "" /\ String.length (k_name k) <= 64 /\ In (k_on_delete k) fk_actions
  /\ In (k_on_update k) fk_actions /\ k_column k <> "" /\ k_ftable k <> "" /\ k_fcolumn k <> "".

(** ** Valid columns *)

Definition no_length_given (l : clength) : Prop := l = LNone \/ l = LStr "" \/ l = LInt 0 \/ l = LList [].
Definition unset (o : option string) : Prop := o = None \/ o = Some "".
Definition no_values (o : option (list string)) : Prop := o = None \/ o = Some [].
Definition fractional_types := ["DECIMAL"; "NUMERIC"; "FLOAT"; "DOUBLE"].
Definition short_string_types := ["CHAR"; "VARCHAR"; "BINARY"; "VARBINARY"].
Definition list_types := ["ENUM"; "SET"].

Record numeric_sound {FO : FloatOracle} (c : column) : Prop := {
  ns_default : match c_default c with
               | DNone | DInt _ => True
               | DStr s => py_int s <> None \/ (float_of_string s <> None /\ In (c_type c) fractional_types)
               end;
  ns_bit : c_type c = "BIT" ->
    exists z, (z = 0%Z \/ z = 1%Z)
              /\ (c_default c = DInt z \/ exists s, c_default c = DStr s /\ py_int s = Some z);
  ns_length : no_length_given (c_length c)
              \/ (~ In (c_type c) ["FLOAT"; "DOUBLE"; "BIT"]
                  /\ ((forall s, c_length c = LStr s -> has_char ","%char s = false)
                      \/ In (c_type c) fractional_types));
  ns_charset : c_rawcharset c = None;
  ns_collate : c_rawcollate c = None;
  ns_autoinc : c_autoinc c = Some true -> ~ In (c_type c) ["FLOAT"; "DOUBLE"; "BIT"];
  ns_values : no_values (c_enum_values c)
}.

Record string_sound (c : column) : Prop := {
  ss_default : c_has_default c = true -> In (c_type c) (short_string_types +++ list_types);
  ss_autoinc : c_autoinc c <> Some true;
  ss_collation : unset (c_rawcharset c) /\ unset (c_rawcollate c)
                 \/ In (c_type c) (short_string_types +++ list_types);
  ss_binary : In (c_type c) ["BINARY"; "VARBINARY"] ->
    unset (c_rawcharset c) /\ unset (c_rawcollate c)
    \/ (forall s, c_charset c = Some s -> s = "BINARY") /\ (forall s, c_collate c = Some s -> s = "BINARY");
  ss_length : no_length_given (c_length c) \/ In (c_type c) short_string_types;
  ss_values : no_values (c_enum_values c) \/ In (c_type c) list_types;
  ss_unsigned : c_unsigned c <> Some true
}.

(** An ENUM lists its values, and a default that is not empty is one of them. *)
Definition enum_sound (c : column) : Prop :=
  exists vs, c_enum_values c = Some vs /\ vs <> []
    /\ (c_default c = DNone \/ c_default c = DInt 0
        \/ exists s, c_default c = DStr s /\ (s = "" \/ In s vs)).

(** A column that validation accepts.  No DATE column is: asking it for its errors raises. *)
Definition column_sound {FO : FloatOracle} (c : column) : Prop :=
  c_name c <> "" /\ c_rawtype c <> "" /\
  match c_kind c with
  | KBase => True
  | KNumeric => numeric_sound c
  | KString => string_sound c
  | KDate => False
  | KEnum => string_sound c /\ enum_sound c
  end.

(** A table without schema errors. *)
Record table_sound {FO : FloatOracle} (t : table) : Prop := {
  so_name : t_name t <> "";
  so_columns : t_columns t <> [];
  so_column : forall n c, In (n, c) (t_columns t) -> column_sound c;
  so_index : forall n i, In (n, i) (t_indexes t) -> index_sound i;
  so_fk : forall n k, In (n, k) (t_constraints t) -> fk_sound k;
  so_one_primary : forall n i m j, In (n, i) (t_indexes t) -> In (m, j) (t_indexes t) ->
    ix_type i = IPrimary -> ix_type j = IPrimary -> n = m;
  so_one_auto : forall n c m d, In (n, c) (t_columns t) -> In (m, d) (t_columns t) ->
    c_autoinc c = Some true -> c_autoinc d = Some true -> n = m;
  so_auto_primary : forall n c, In (n, c) (t_columns t) -> c_autoinc c = Some true ->
    exists m i rest, In (m, i) (t_indexes t) /\ ix_type i = IPrimary /\ ix_columns i = n :: rest;
  so_index_columns : forall n i c, In (n, i) (t_indexes t) -> In c (ix_columns i) ->
    In c (dkeys (t_columns t))
}.

(** Columns whose validation cannot fail with an exception that reaches the caller. *)
Definition checkable {FO : FloatOracle} (c : column) : Prop :=
  match c_kind c with
  | KNumeric => c_type c = "BIT" ->
      (exists z, c_default c = DInt z)
      \/ (exists s, c_default c = DStr s /\ (py_int s <> None \/ float_of_string s = None))
  | KDate => c_autoinc c <> Some true
  | KEnum => c_autoinc c <> Some true
             /\ (c_enum_values c = None -> c_default c = DNone \/ c_default c = DStr "" \/ c_default c = DInt 0)
  | _ => True
  end.

(** The parts of a table carry no message from the parser. *)
Definition parts_read (t : table) : Prop :=
  (forall n c, In (n, c) (t_columns t) -> c_perrors c = [])
  /\ (forall n i, In (n, i) (t_indexes t) -> ix_perrors i = [])
  /\ (forall n k, In (n, k) (t_constraints t) -> k_perrors k = []).

(** ** Histories of a database object *)

Inductive dbevent : Type :=
| AskErrors | AskWarnings
| AddTable (t : table) | RemoveTable (name : string) | Apply (tname : string) (clause : aop).

Definition step {FO : FloatOracle} (b : database) (e : dbevent) : database :=
  match e with
  | AskErrors => fst (db_errors b)
  | AskWarnings => fst (db_warnings b)
  | AddTable t => fst (add_table b (fresh t))
  | RemoveTable n => fst (remove_table b n)
  | Apply n a => fst (apply_operation b n a)
  end.
Definition history {FO : FloatOracle} (b : database) (l : list dbevent) : database := fold_left step l b.

(** The same database, built anew: nothing was asked before. *)
Definition rebuilt (b : database) : database :=
  new_database (map (fun p => (fst p, with_indexes (snd p) (t_indexes (snd p)) (t_primary (snd p)) None)) (db_tables b))
    (d_rows b) (d_global_errors b) (d_global_warnings b).

(** Tables that never make validation raise and carry no parser message. *)
Definition calm {FO : FloatOracle} (t : table) : Prop :=
  kept t /\ parts_read t /\ forall n c, In (n, c) (t_columns t) -> exists l, column_errors c = Ok l.
(** The same for what an event brings in. *)
Definition calm_event {FO : FloatOracle} (e : dbevent) : Prop :=
  match e with
  | AddTable t => calm t
  | Apply _ (AddColumn c _) | Apply _ (ChangeColumn c) => c_perrors c = [] /\ exists l, column_errors c = Ok l
  | Apply _ (AddConstraint k) | Apply _ (ChangeConstraint k) => k_perrors k = []
  | _ => True
  end.
