(** The commands: core/commands/{plan,apply,check}.py and drivers/pymysql/pymysql.py. *)
From Verif Require Export Database.

(** db_reader/database.py lines 72-77: one live row after the other, then the mark *)
Fixpoint read_raw_rows (t : table) (l : list row) : table * option exn :=
  match l with
  | [] => (mark_tracking_rows t, None)
  | r :: l' => match add_raw_row t r with
               | (t', Ok _) => read_raw_rows t' l'
               | (t', Raise e) => (t', Some e)
               end
  end.

(** plan.py lines 47-54: the live rows of the tables tracked by the files.  [rows_of] is
    [SELECT * FROM table] as the driver returns it (pymysql.py lines 61-76). *)
Fixpoint read_tracked (rows_of : string -> res (list row)) (files : list table) (live : tables)
  : res tables :=
  match files with
  | [] => Ok live
  | f :: files' =>
      if negb (t_tracking f) then read_tracked rows_of files' live
      else match dget (t_name f) live with
           | None => read_tracked rows_of files' live
           | Some t =>
               let* l := rows_of (t_name f) in
               match read_raw_rows t l with
               | (_, Some e) => Raise e
               | (t', None) => read_tracked rows_of files' (dset (t_name f) t' live)
               end
           end
  end.

(** plan.py lines 69-73 *)
Definition bracket (ops : list op) : list op :=
  if list_is_nil ops then [] else ODisable :: ops +++ [OEnable].

Section Float.
  Context {FO : FloatOracle}.

  (** plan.py lines 23-73.  [live] is what connecting and reading the live tables gives (line 39);
      it is looked at only when the files have no errors or [force] is set.  The list returned is
      preceded by the database object left behind.  Messages go to stderr and are dropped. *)
  Definition build_commands (force : bool) (files : database) (live : res tables)
    (rows_of : string -> res (list row)) : database * res (list op) :=
    match db_errors files with
    | (b1, Raise e) => (b1, Raise e)
    | (b1, Ok errs) =>
        if negb (list_is_nil errs) && negb force then (b1, Ok [])
        else
          match (let* l := live in read_tracked rows_of (dvals (db_tables b1)) l) with
          | Raise e => (b1, Raise e)
          | Ok l =>
              match mygration false b1 (Some l) with
              | (b2, Raise e) => (b2, Raise e)
              | (b2, Ok structure) =>
                  (b2, let* rows := plan_rows (db_tables b2) (Some l) in
                       Ok (bracket ((match structure with Some ops => ops | None => [] end) +++ rows)))
              end
          end
    end.

  (** check.py lines 13-33: the lines reported and the success flag *)
  Definition check_command (files : database) : database * res (list string * bool) :=
    match db_errors files with
    | (b1, Raise e) => (b1, Raise e)
    | (b1, Ok errs) =>
        let report := if list_is_nil errs then [] else "Errors found in *.sql files:" :: errs in
        match db_warnings b1 with
        | (b2, Raise e) => (b2, Raise e)
        | (b2, Ok _) => (b2, Ok (report, list_is_nil report))
        end
    end.
End Float.

(** ** The driver *)

(** What the server sees. *)
Inductive event : Type := Sent (statement : string) | Committed.

(** pymysql.py lines 84-88: statements in order, one commit at the end.  [server h s] is the error
    with which the server answers statement [s] after the statements [h]; the exception leaves the
    loop, so nothing further is sent and nothing is committed. *)
Fixpoint send_all (server : list string -> string -> option exn) (h : list string) (l : list string)
  : list event * option exn :=
  match l with
  | [] => ([Committed], None)
  | s :: l' => match server h s with
               | Some e => ([Sent s], Some e)
               | None => let '(ev, e) := send_all server (h +++ [s]) l' in (Sent s :: ev, e)
               end
  end.
Definition driver_execute (server : list string -> string -> option exn) (l : list string)
  : list event * option exn := send_all server [] l.

Section Apply.
  Context {FO : FloatOracle}.

  (** apply.py lines 9-21: the statements sent, and the result or the exception raised *)
  Definition apply_command (server : list string -> string -> option exn) (force : bool)
    (files : database) (live : res tables) (rows_of : string -> res (list row))
    : list event * res (list string) :=
    match snd (build_commands force files live rows_of) with
    | Raise e => ([], Raise e)
    | Ok ops =>
        let texts := map op_str ops in
        match driver_execute server texts with
        | (ev, None) => (ev, Ok texts)
        | (ev, Some e) => (ev, Raise e)
        end
    end.
End Apply.
