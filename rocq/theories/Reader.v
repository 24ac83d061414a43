(** Reading SQL sources: formats/mysql/file_reader/{comment_parser,reader,database}.py and
    formats/mysql/db_reader/database.py. *)
From Verif Require Export Parsers Commands.

(** ** Comments *)

(** comment_parser.py lines 37-74 on a string that starts with a comment sign.  [None]: an
    unclosed block comment, and the parser returns its input. *)
Definition comment_rest (s0 : string) : string :=
  let s := strip s0 in
  if match s with String c _ => Ascii.eqb c "#" | EmptyString => false end || String.prefix "--" s then
    match sindex (String newline "") s with
    | None => ""
    | Some i => strip (sdrop (S i) s)
    end
  else match sindex "*/" s with
       | None => s
       | Some i => strip (sdrop (2 + i) s)
       end.

(** ** The reader *)

(** reader.py lines 6-16, the attributes that are ever changed *)
Record reader := mkReader {
  rd_tables : dict string table;
  rd_rows : dict string (list rows_def);
  rd_errors : list string;
  rd_matched : bool
}.
Definition new_reader : reader := mkReader [] [] [] false.

(** [Table()] and [Rows()], what an unmatched parser object still is *)
Definition no_table : table := mkTable "" [] [] [] [] None None None false [] [] false.
Definition no_rows : rows_def := mkRows "" [] [] 0 [] [].

(** [d.setdefault(k, []).append(x)] *)
Definition dpush {A} (k : string) (x : A) (d : dict string (list A)) : dict string (list A) :=
  dset k (match dget k d with Some l => l | None => [] end +++ [x]) d.

Definition put_table (r : reader) (t : table) : reader :=
  mkReader (dset (t_name t) t (rd_tables r)) (rd_rows r) (rd_errors r) (rd_matched r).
Definition put_rows (r : reader) (w : rows_def) : reader :=
  mkReader (rd_tables r) (dpush (r_table w) w (rd_rows r)) (rd_errors r) (rd_matched r).

(** What a statement starts with (reader.py lines 167-186) *)
Inductive statement : Set := SComment | SCreate | SInsert | SOther.
Definition statement_of (s : string) : statement :=
  if String.prefix "--" s || String.prefix "/*" s || String.prefix "#" s then SComment
  else match match_lit "create" s with
       | Some _ => SCreate
       | None => match match_lit "insert" s with Some _ => SInsert | None => SOther end
       end.

(** reader.py lines 105-110 *)
Definition filename_notice (file : string) : string :=
  if truthy file then " in file " ++ file else "".

(** reader.py lines 157-193.  The reader object is kept when an exception is raised. *)
Fixpoint read_loop (n : nat) (file : string) (r : reader) (data : string) : reader * res string :=
  if is_empty data then (mkReader (rd_tables r) (rd_rows r) (rd_errors r) true, Ok data)
  else match n with
       | O => (r, Raise (ValueError "Exceeded max parse depth"))
       | S n' =>
           let s := strip data in
           if is_empty s then (r, Raise (IndexError "string index out of range"))
           else match statement_of s with
                | SComment => read_loop n' file r (comment_rest s)
                | SCreate =>
                    match create_parse s with
                    | Raise e => (r, Raise e)
                    | Ok (m, rest) =>
                        read_loop n' file (put_table r (match m with Some t => t | None => no_table end)) rest
                    end
                | SInsert =>
                    match insert_parse s with
                    | Raise e => (r, Raise e)
                    | Ok (m, rest) =>
                        read_loop n' file (put_rows r (match m with Some w => w | None => no_rows end)) rest
                    end
                | SOther =>
                    (mkReader (rd_tables r) (rd_rows r)
                       (rd_errors r +++ ["Unrecognized MySQL command: " ++ s ++ filename_notice file])
                       (rd_matched r), Ok s)
                end
       end.

(** reader.py line 161 *)
Definition max_statements : nat := N.to_nat 10000.

Definition read_sql (file data : string) : reader * res string :=
  read_loop max_statements file new_reader data.

(** ** The database of the files *)

(** A source: the name of the file it comes from (empty for SQL given directly) and its text. *)
Definition source := (string * string)%type.

(** [print] at database.py line 86 is left to Cli.v ([source_notice]): a ValueError leaves no other trace. *)
Definition caught {A} (r : res A) : option exn :=
  match r with Ok _ => None | Raise (ValueError _) => None | Raise e => Some e end.

Definition push_rows (b : database) (w : rows_def) : database :=
  mkDatabase (d_tables b)
    (match d_rows b with Some d => Some (dpush (r_table w) w d) | None => None end)
    (d_global_errors b) (d_global_warnings b) (d_schema b) (d_swarn b) (d_parsing b) (d_pwarn b).
Definition add_errors (b : database) (l : list string) : database :=
  mkDatabase (d_tables b) (d_rows b) (d_global_errors b +++ l) (d_global_warnings b)
    (d_schema b) (d_swarn b) (d_parsing b) (d_pwarn b).

Definition empty_database : database := mkDatabase [] (Some []) [] [] None None None None.

Section Float.
  Context {FO : FloatOracle}.

  (** file_reader/database.py lines 89-92.  [self.errors.append(...)] evaluates the property, which
      fills the caches, and appends to a list that is thrown away. *)
  Definition put_file_table (b : database) (t : table) : res database :=
    let* b1 := (if dmem (t_name t) (d_tables b)
                then match db_errors b with
                     | (b', Ok _) => Ok b'
                     | (_, Raise e) => Raise e
                     end
                else Ok b) in
    Ok (set_tables b1 (dset (t_name t) (fresh t) (d_tables b1))).

  (** file_reader/database.py lines 70-101; [_global_warnings] of a reader stays empty *)
  Definition read_source (b : database) (src : source) : res database :=
    let '(r, e) := read_sql (fst src) (snd src) in
    match caught e with
    | Some x => Raise x
    | None =>
        let* b1 := foldM put_file_table (dvals (rd_tables r)) b in
        Ok (fold_left push_rows (concat (dvals (rd_rows r))) (add_errors b1 (rd_errors r)))
    end.

  (** The characters of a string, one string each: what [list.extend] makes of a string. *)
  Fixpoint chars (s : string) : list string :=
    match s with EmptyString => [] | String c s' => String c "" :: chars s' end.

  (** table.add_rows on an object: its caches are reset (table.py lines 291-292). *)
  Definition obj_add_rows (o : tobj) (w : rows_def) : res tobj :=
    let '(t, e) := add_rows (to_table o) w in
    match e with Some x => Raise x | None => Ok (mkTobj t (to_seen o) None) end.

  (** file_reader/database.py lines 103-110, one table name *)
  Definition combine_one (b : database) (p : string * list rows_def) : res database :=
    let '(n, ws) := p in
    match dget n (d_tables b) with
    | None =>
        let b1 := add_errors b (chars ("Found rows for table " ++ n
                                  ++ ", but this table does not exist in the database")) in
        match ws with [] => Ok b1 | _ => Raise (KeyError n) end
    | Some o => let* o' := foldM obj_add_rows ws o in Ok (set_tables b (dset n o' (d_tables b)))
    end.
  Definition combine (b : database) : res database :=
    foldM combine_one (match d_rows b with Some d => d | None => [] end) b.

  (** file_reader/database.py lines 6-35, with directories and files replaced by their contents *)
  Definition file_database (srcs : list source) : res database :=
    let* b := foldM read_source srcs empty_database in combine b.
End Float.

(** ** The live database *)

(** db_reader/database.py lines 37-49 *)
Definition put_live_table (b : database) (t : table) : database :=
  let b1 := if dmem (t_name t) (d_tables b)
            then add_errors b ["Found two definitions for table " ++ t_name t] else b in
  set_tables b1 (dset (t_name t) (fresh t) (d_tables b1)).

(** db_reader/database.py lines 12-35: [defs] are the texts of SHOW CREATE TABLE in the order of
    SHOW TABLES (pymysql.py lines 41-59). *)
Definition read_live (b : database) (sql : string) : res database :=
  let '(r, e) := read_sql "" sql in
  match caught e with
  | Some x => Raise x
  | None => Ok (fold_left put_live_table (dvals (rd_tables r)) b)
  end.
Definition live_database (defs : list string) : res database :=
  foldM read_live defs (mkDatabase [] None [] [] None None None None).
