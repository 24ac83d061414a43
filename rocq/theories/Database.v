(** Databases with their error caches: core/definitions/database.py, and the part of
    mygration.py that consults them. *)
From Verif Require Export Mygration.

(** ** Table objects with caches *)

(** A table object: the table, the columns whose own [_schema_errors] is filled (column.py line
    166), and the table's error caches (table.py lines 67-131; they are filled and reset together,
    the test is always [self._schema_errors is None]).
    SIMPLIFICATION: a column object is never shared between two tables. *)
Record tobj := mkTobj {
  to_table : table;
  to_seen : list string;
  to_errs : option terrs
}.

(** A table object nobody asked for errors yet. *)
Definition fresh (t : table) : tobj := mkTobj t [] None.

Definition with_table (o : tobj) (t : table) : tobj := mkTobj t (to_seen o) (to_errs o).

(** Rows waiting in the database, by table name.  [None] stands for the empty list that the live
    reader stores instead of a dict (db_reader/database.py line 14). *)
Definition pending := option (dict string (list rows_def)).

(** database.py lines 2-9 *)
Record database := mkDatabase {
  d_tables : dict string tobj;
  d_rows : pending;
  d_global_errors : list string;
  d_global_warnings : list string;
  d_schema : option (list string);        (* _schema_errors *)
  d_swarn : option (list string);         (* _schema_warnings *)
  d_parsing : option (list string);       (* _parsing_errors *)
  d_pwarn : option (list string)          (* _parsing_warnings *)
}.

Definition plain_tables (d : dict string tobj) : tables := map (fun p => (fst p, to_table (snd p))) d.
(** [database.tables], without the caches *)
Definition db_tables (b : database) : tables := plain_tables (d_tables b).

Definition set_tables (b : database) (d : dict string tobj) : database :=
  mkDatabase d (d_rows b) (d_global_errors b) (d_global_warnings b)
    (d_schema b) (d_swarn b) (d_parsing b) (d_pwarn b).
Definition set_schema (b : database) (x : option (list string)) : database :=
  mkDatabase (d_tables b) (d_rows b) (d_global_errors b) (d_global_warnings b)
    x (d_swarn b) (d_parsing b) (d_pwarn b).
Definition set_swarn (b : database) (x : option (list string)) : database :=
  mkDatabase (d_tables b) (d_rows b) (d_global_errors b) (d_global_warnings b)
    (d_schema b) x (d_parsing b) (d_pwarn b).
Definition set_parsing (b : database) (x : option (list string)) : database :=
  mkDatabase (d_tables b) (d_rows b) (d_global_errors b) (d_global_warnings b)
    (d_schema b) (d_swarn b) x (d_pwarn b).
Definition set_pwarn (b : database) (x : option (list string)) : database :=
  mkDatabase (d_tables b) (d_rows b) (d_global_errors b) (d_global_warnings b)
    (d_schema b) (d_swarn b) (d_parsing b) x.

(** ** Foreign keys *)

Definition dotted (t c : string) : string := "`" ++ t ++ "`.`" ++ c ++ "`".
Definition fk_intro (k : constraint) : string := "Constraint error for foreign key `" ++ k_name k ++ "`: ".
Definition opt_text (o : option string) : string := match o with Some s => s | None => "None" end.

(** lines 293-300: the first of the four attributes that differs *)
Definition attr_mismatch (k : constraint) (t ft : table) (c fc : column) : option string :=
  let m attr a b := Some (fk_intro k ++ attr ++ " mismatch. " ++ dotted (t_name t) (k_column k) ++ " is '"
                            ++ a ++ "' but " ++ dotted (t_name ft) (c_name fc) ++ " is '" ++ b ++ "'") in
  if negb (String.eqb (c_type c) (c_type fc)) then m "column type" (c_type c) (c_type fc)
  else if negb (length_eqb (c_length c) (c_length fc))
       then m "length" (length_str (c_length c)) (length_str (c_length fc))
  else if negb (ostr_eqb (c_charset c) (c_charset fc))
       then m "character set" (opt_text (c_charset c)) (opt_text (c_charset fc))
  else if negb (ostr_eqb (c_collate c) (c_collate fc))
       then m "collate" (opt_text (c_collate c)) (opt_text (c_collate fc))
  else None.

(** lines 303-311 *)
Definition unsigned_mismatch (k : constraint) (t ft : table) (c fc : column) : option string :=
  let m a b := Some (fk_intro k ++ "unsigned mistmatch. " ++ a ++ " is unsigned but " ++ b ++ " is not") in
  let own := dotted (t_name t) (c_name c) in
  let far := dotted (t_name ft) (c_name fc) in
  if tru_ob (c_unsigned c) && negb (tru_ob (c_unsigned fc)) then m own far
  else if negb (tru_ob (c_unsigned c)) && tru_ob (c_unsigned fc) then m far own
  else None.

(** lines 314-322 *)
Definition null_mismatch (k : constraint) (t : table) (c : column) : option string :=
  let od := String.eqb (k_on_delete k) "SET NULL" in
  let ou := String.eqb (k_on_update k) "SET NULL" in
  if (od || ou) && negb (c_null c)
  then Some (fk_intro k ++ "invalid SET NULL. " ++ dotted (t_name t) (c_name c)
               ++ " is not allowed to be null but the foreign key attempts to set the value to null "
               ++ join " and " ((if od then ["ON DELETE"] else []) +++ (if ou then ["ON UPDATE"] else [])))
  else None.

Definition first_some {A} (x y : option A) : option A := match x with Some _ => x | None => y end.

(** lines 257-331.  [ts] is [self.tables], [t] the table being checked.
    SIMPLIFICATION: a column is stored under its own name (line 287 looks it up again by name). *)
Definition constraint_error (ts : tables) (t : table) (k : constraint) : res (option string) :=
  match dget (k_ftable k) ts with
  | None => Ok (Some (fk_intro k ++ dotted (t_name t) (k_column k) ++ " references "
                        ++ dotted (k_ftable k) (k_fcolumn k) ++ ", but table `" ++ k_ftable k
                        ++ "` does not exist"))
  | Some ft =>
      match dget (k_fcolumn k) (t_columns ft) with
      | None => Ok (Some (fk_intro k ++ dotted (t_name t) (k_column k) ++ " references "
                            ++ dotted (k_ftable k) (k_fcolumn k) ++ ", but column "
                            ++ dotted (k_ftable k) (k_fcolumn k) ++ " does not exist"))
      | Some fc =>
          match dget (k_column k) (t_columns t) with
          | None => Ok (Some (fk_intro k ++ "sets constraint on column " ++ dotted (t_name t) (k_column k)
                                ++ ", but this column does not exist"))
          | Some c =>
              let* own := snd (column_is_indexed t (c_name c)) in
              if negb own
              then Ok (Some (fk_intro k ++ "missing index. " ++ dotted (t_name t) (c_name c)
                               ++ " does not have an index and therefore cannot be used in a foreign key constraint"))
              else
                match first_some (attr_mismatch k t ft c fc)
                        (first_some (unsigned_mismatch k t ft c fc) (null_mismatch k t c)) with
                | Some m => Ok (Some m)
                | None =>
                    let* far := snd (column_is_indexed ft (c_name fc)) in
                    if negb far
                    then Ok (Some (fk_intro k ++ "missing index. " ++ dotted (t_name t) (c_name c)
                                     ++ " references " ++ dotted (t_name ft) (c_name fc) ++ " but "
                                     ++ dotted (t_name ft) (c_name fc)
                                     ++ " does not have an index and therefore cannot be used in a foreign key constraint"))
                    else Ok None
                end
          end
      end
  end.

(** The [_indexed_columns] sets that checking [k] of the table stored under [tn] leaves behind
    (line 287 and line 325).  The second lookup sees the first one's set when both tables are the
    same object; the answer is the same, which is why [constraint_error] need not thread it. *)
Definition touch (tn col : string) (d : dict string tobj) : dict string tobj :=
  match dget tn d with
  | Some o => dset tn (with_table o (fst (column_is_indexed (to_table o) col))) d
  | None => d
  end.
Definition touch_fk (d : dict string tobj) (tn : string) (k : constraint) : dict string tobj :=
  match dget tn d, dget (k_ftable k) d with
  | Some o, Some fo =>
      let t := to_table o in let ft := to_table fo in
      match dget (k_fcolumn k) (t_columns ft), dget (k_column k) (t_columns t) with
      | Some fc, Some c =>
          let d1 := touch tn (c_name c) d in
          match snd (column_is_indexed t (c_name c)) with
          | Ok true =>
              match first_some (attr_mismatch k t ft c fc)
                      (first_some (unsigned_mismatch k t ft c fc) (null_mismatch k t c)) with
              | Some _ => d1
              | None => touch (k_ftable k) (c_name fc) d1
              end
          | _ => d1
          end
      | _, _ => d
      end
  | _, _ => d
  end.

(** lines 163-177, one constraint at a time; [names] is [constraint_tables] *)
Definition duplicate_fk (k : constraint) (first tname : string) : string :=
  "Duplicate foreign key: foreign key named '" ++ k_name k ++ "' exists in tables '" ++ first
    ++ "' and '" ++ tname ++ "'".
Fixpoint scan_fks (l : list (string * (string * constraint))) (names : dict string string)
  (d : dict string tobj) : dict string tobj * res (list string) :=
  match l with
  | [] => (d, Ok [])
  | (tn, (_, k)) :: l' =>
      match dget tn d with
      | None => (d, Raise (KeyError tn))      (* not reached: [l] lists the tables of [d] *)
      | Some o =>
          let d1 := touch_fk d tn k in
          match constraint_error (plain_tables d) (to_table o) k with
          | Raise e => (d1, Raise e)
          | Ok err =>
              let mine := match err with Some m => [m] | None => [] end in
              let tname := t_name (to_table o) in
              let '(dup, names') :=
                match dget (k_name k) names with
                | Some first => ([duplicate_fk k first tname], names)
                | None => ([], dset (k_name k) tname names)
                end in
              let '(d2, r) := scan_fks l' names' d1 in
              (d2, rmap (fun more => mine +++ dup +++ more) r)
          end
      end
  end.

(** The foreign keys of a database in the order of the two loops (lines 163-167). *)
Definition all_fks (ts : tables) : list (string * (string * constraint)) :=
  concat (map (fun p => map (fun k => (fst p, k)) (t_constraints (snd p))) ts).

(** lines 155-179 *)
Definition database_schema_errors (d : dict string tobj) : dict string tobj * res (list string) :=
  scan_fks (all_fks (plain_tables d)) [] d.

(** lines 333-360, for a table that need not be in the database.
    SIMPLIFICATION: the [_indexed_columns] sets filled on the way are not kept. *)
Definition unfulfilled_fks (ts : tables) (t : table) : res (list (string * (string * constraint))) :=
  rmap (@concat _)
    (mapM (fun p => rmap (fun e => match e with
                                   | Some m => [(fst p, (m, snd p))]
                                   | None => []
                                   end) (constraint_error ts t (snd p))) (t_constraints t)).

Section Float.
  Context {FO : FloatOracle}.

  (** ** Asking a table object *)

  (** The columns whose own cache is filled after the loop of table.py lines 175-192: all up to the
      first one that raises. *)
  Fixpoint scanned (seen : list string) (l : list column) : list string :=
    match l with
    | [] => []
    | c :: l' =>
        c_name c :: (if smem (c_name c) seen then scanned seen l'
                     else match snd (column_checked c) with None => scanned seen l' | Some _ => [] end)
    end.

  (** Any of the getters of table.py lines 67-131: fills the caches if needed; the exception is the
      one that escapes from [_find_all_errors], whose partial result stays in the caches. *)
  Definition table_ask (o : tobj) : tobj * option exn :=
    match to_errs o with
    | Some _ => (o, None)
    | None =>
        let r := find_all_errors_seen (fun n => smem n (to_seen o)) (to_table o) in
        (mkTobj (to_table o) (scanned (to_seen o) (dvals (t_columns (to_table o))) +++ to_seen o) (Some r),
         te_exn r)
    end.

  (** [hasattr(table, '...')]: an AttributeError means no, any other exception escapes. *)
  Definition table_has (o : tobj) : tobj * res bool :=
    let '(o', e) := table_ask o in
    (o', match e with
         | None => Ok true
         | Some (AttributeError _) => Ok false
         | Some x => Raise x
         end).

  (** lines 137-141, 149-153, 216-220, 239-243: [errors.extend(table.xyz)] for every table *)
  Fixpoint ask_tables (pick : terrs -> list string) (d : dict string tobj)
    : dict string tobj * res (list string) :=
    match d with
    | [] => ([], Ok [])
    | (n, o) :: d' =>
        match table_has o with
        | (o', Raise e) => ((n, o') :: d', Raise e)
        | (o', Ok b) =>
            let mine := match to_errs o' with Some r => if b then pick r else [] | None => [] end in
            let '(d2, r) := ask_tables pick d' in
            ((n, o') :: d2, rmap (fun more => mine +++ more) r)
        end
    end.

  (** ** Rows *)

  (** lines 110-114, where [table] is whatever the loop bound last; unbound: UnboundLocalError, a
      subclass of NameError.  The test is made for each raw row. *)
  Definition implicit_errors (tn : string) (cur : option table) (r : rows_def) : res (list string) :=
    match cur with
    | None => if list_is_nil (r_raw r) then Ok []
              else Raise (NameError "local variable 'table' referenced before assignment")
    | Some t =>
        Ok (concat (map (fun v : list rval =>
              if Nat.eqb (List.length v) (List.length (t_columns t)) then []
              else ["Insert error for table '" ++ tn ++ "': insert command does not explicitly set column names and has a different number of values than the number of columns in the table"])
            (r_raw r)))
    end.

  Definition unknown_columns (tn : string) (t : table) (r : rows_def) : list string :=
    concat (map (fun c => if dmem c (t_columns t) then []
                          else ["Insert error: insert command attempts to set column '" ++ c ++ "' for table '"
                                  ++ tn ++ "' but the column does not exist in the table."]) (r_columns r)).

  (** lines 91-116; the first lines of the body (93-94) add nothing: the [schema_errors] of a [Rows]
      object are always empty (rows.py lines 19, 66). *)
  Fixpoint row_errors_loop (ts : tables) (l : list (string * rows_def)) (cur : option table)
    : res (list string) :=
    match l with
    | [] => Ok []
    | (tn, r) :: l' =>
        match dget tn ts with
        | None =>
            let* more := row_errors_loop ts l' cur in
            Ok (("Insert error: found an insert for table '" ++ tn ++ "' but this table does not exist") :: more)
        | Some t =>
            if negb (Nat.eqb (r_explicit r) 0) then
              let* more := row_errors_loop ts l' (Some t) in
              Ok (unknown_columns tn t r +++ more)
            else
              let* mine := implicit_errors tn cur r in
              let* more := row_errors_loop ts l' cur in
              Ok (mine +++ more)
        end
    end.

  Definition flat_rows (rows : dict string (list rows_def)) : list (string * rows_def) :=
    concat (map (fun p => map (fun r => (fst p, r)) (snd p)) rows).

  Definition no_items {A} : res A := Raise (AttributeError "'list' object has no attribute 'items'").

  (** lines 84-116 *)
  Definition row_schema_errors (ts : tables) (rows : pending) : res (list string) :=
    match rows with
    | None => no_items
    | Some d => row_errors_loop ts (flat_rows d) None
    end.
  (** lines 222-232, 245-255 *)
  Definition row_parsing (pick : rows_def -> list string) (rows : pending) : res (list string) :=
    match rows with
    | None => no_items
    | Some d => Ok (concat (map (fun p => pick (snd p)) (flat_rows d)))
    end.
  (** lines 118-129 *)
  Definition row_schema_warnings (rows : pending) : res (list string) :=
    match rows with
    | None => Raise (AttributeError "'list' object has no attribute 'values'")
    | Some _ => Ok []
    end.

  (** ** The database's own lists *)

  (** lines 68-82; the cache is assigned only when all three parts were computed *)
  Definition find_schema_errors (b : database) : database * res (list string) :=
    match d_schema b with
    | Some l => (b, Ok l)
    | None =>
        match database_schema_errors (d_tables b) with
        | (d1, Raise e) => (set_tables b d1, Raise e)
        | (d1, Ok l1) =>
            match ask_tables te_schema d1 with
            | (d2, Raise e) => (set_tables b d2, Raise e)
            | (d2, Ok l2) =>
                match row_schema_errors (plain_tables d2) (d_rows b) with
                | Raise e => (set_tables b d2, Raise e)
                | Ok l3 => let l := l1 +++ l2 +++ l3 in
                           (set_schema (set_tables b d2) (Some l), Ok l)
                end
            end
        end
    end.

  (** lines 181-194 *)
  Definition find_parsing_errors (b : database) : database * res (list string) :=
    match d_parsing b with
    | Some l => (b, Ok l)
    | None =>
        match ask_tables te_parsing (d_tables b) with
        | (d1, Raise e) => (set_tables b d1, Raise e)
        | (d1, Ok l1) =>
            match row_parsing r_perrors (d_rows b) with
            | Raise e => (set_tables b d1, Raise e)
            | Ok l2 => let l := l1 +++ l2 in (set_parsing (set_tables b d1) (Some l), Ok l)
            end
        end
    end.

  (** lines 29-39 *)
  Definition db_errors (b : database) : database * res (list string) :=
    match find_schema_errors b with
    | (b1, Raise e) => (b1, Raise e)
    | (b1, Ok schema) =>
        match find_parsing_errors b1 with
        | (b2, Raise e) => (b2, Raise e)
        | (b2, Ok parsing) => (b2, Ok (d_global_errors b2 +++ parsing +++ schema))
        end
    end.

  (** lines 53-66 *)
  Definition find_schema_warnings (b : database) : database * res (list string) :=
    match d_swarn b with
    | Some l => (b, Ok l)
    | None =>
        match row_schema_warnings (d_rows b) with
        | Raise e => (b, Raise e)
        | Ok l1 =>
            match ask_tables te_swarnings (d_tables b) with
            | (d1, Raise e) => (set_tables b d1, Raise e)
            | (d1, Ok l2) => let l := l1 +++ l2 in (set_swarn (set_tables b d1) (Some l), Ok l)
            end
        end
    end.
  (** lines 196-209 *)
  Definition find_parsing_warnings (b : database) : database * res (list string) :=
    match d_pwarn b with
    | Some l => (b, Ok l)
    | None =>
        match ask_tables te_pwarnings (d_tables b) with
        | (d1, Raise e) => (set_tables b d1, Raise e)
        | (d1, Ok l1) =>
            match row_parsing r_pwarnings (d_rows b) with
            | Raise e => (set_tables b d1, Raise e)
            | Ok l2 => let l := l1 +++ l2 in (set_pwarn (set_tables b d1) (Some l), Ok l)
            end
        end
    end.
  (** lines 41-51 *)
  Definition db_warnings (b : database) : database * res (list string) :=
    match find_schema_warnings b with
    | (b1, Raise e) => (b1, Raise e)
    | (b1, Ok schema) =>
        match find_parsing_warnings b1 with
        | (b2, Raise e) => (b2, Raise e)
        | (b2, Ok parsing) => (b2, Ok (d_global_warnings b2 +++ parsing +++ schema))
        end
    end.

  (** ** mygration.py lines 32-55: the planner and the errors of its target.  Lines 124-178 are
      [plan_tables]. *)
  Definition mygration (disable : bool) (to : database) (from : option tables)
    : database * res (option (list op)) :=
    match db_errors to with
    | (to', Raise e) => (to', Raise e)
    | (to', Ok []) => (to', rmap Some (plan_tables disable (db_tables to') from))
    | (to', Ok (_ :: _)) => (to', Ok None)
    end.
End Float.

(** ** Changing a database object *)

Definition forget (b : database) : database := set_swarn (set_schema b None) None.

(** lines 362-373 *)
Definition add_table (b : database) (o : tobj) : database * option exn :=
  let n := t_name (to_table o) in
  if dmem n (d_tables b)
  then (b, Some (ValueError ("Cannot add table " ++ n ++ " to database because it already exists")))
  else (set_tables (forget b) (dset n o (d_tables b)), None).

(** lines 375-386 *)
Definition remove_table (b : database) (n : string) : database * option exn :=
  if dmem n (d_tables b)
  then (set_tables (forget b) (dpop n (d_tables b)), None)
  else (b, Some (ValueError ("Cannot remove table " ++ n ++ " from database because it does not exist"))).

(** table.py lines 636-643 with the caches: every mutator starts by resetting the table's cache,
    also when it then refuses; a new column object has an empty cache of its own.  The key clauses
    call methods that do not exist and reset nothing. *)
Definition replaced_column (a : aop) : option string :=
  match a with
  | AddColumn c _ | ChangeColumn c | RemoveColumn c => Some (c_name c)
  | _ => None
  end.
Definition is_key_clause (a : aop) : bool :=
  match a with AddKey _ | ChangeKey _ | RemoveKey _ => true | _ => false end.
Definition obj_apply (o : tobj) (a : aop) : tobj * option exn :=
  let '(t, e) := apply_aop (to_table o) a in
  if is_key_clause a then (with_table o t, e)
  else (mkTobj t (match e, replaced_column a with
                  | None, Some n => set_discard n (to_seen o)
                  | _, _ => to_seen o
                  end) None, e).

(** lines 388-405 *)
Definition apply_operation (b : database) (tn : string) (a : aop) : database * option exn :=
  match dget tn (d_tables b) with
  | None => (b, Some (ValueError ("Cannot apply operation to table " ++ tn ++ " because that table does not exist")))
  | Some o => let '(o', e) := obj_apply o a in
              (set_tables (forget b) (dset tn o' (d_tables b)), e)
  end.

(** A database object as a reader leaves it when nobody asked for errors. *)
Definition new_database (ts : tables) (rows : pending) (ge gw : list string) : database :=
  mkDatabase (map (fun p => (fst p, fresh (snd p))) ts) rows ge gw None None None None.
