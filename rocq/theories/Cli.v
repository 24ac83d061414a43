(** The command line: mygrate.py, mygrations/mygrate.py, core/commands/__init__.py, and the commands
    with everything they read and send: files, configuration, server. *)
From Verif Require Export Reader Dotenv.

(** ** What surrounds a run *)

(** The answer of a server to one statement: an exception raised by PyMySQL, or rows. *)
Inductive answer : Type := Failed (e : exn) | Answer (l : list row).

(** What a run does to the server. *)
Inductive deed : Type :=
| Connect (credentials : dict string cval)
| Query (s : string)
| Commit.

(** SIMPLIFICATIONS: files and directories do not change during a run and reading them succeeds; there
    is nothing else in directories. *)
Record world := mkWorld {
  w_cwd : string;                                   (* os.getcwd() *)
  w_loads : string -> option json;                  (* json.loads *)
  w_file : string -> option string;                 (* os.path.isfile and the content *)
  w_isdir : string -> bool;                         (* os.path.isdir *)
  w_names : string -> list string;                  (* os.scandir: the entries of a directory *)
  w_connect : dict string cval -> option exn;       (* pymysql.connect *)
  w_server : list deed -> string -> answer          (* the answer after what was done before *)
}.

(** ** glob.glob for absolute paths (Python 3.10) *)

(** fnmatch.translate.  SIMPLIFICATION: several hyphens in one bracket expression. *)
Inductive pattern_item : Set := PAny | POne | PLit (c : ascii) | PSet (neg : bool) (ranges : list (ascii * ascii)).
Fixpoint ranges_of (s : string) : list (ascii * ascii) :=
  match s with
  | String a (String m (String b r) as s') =>
      if Ascii.eqb m "-" then (a, b) :: ranges_of r else (a, a) :: ranges_of s'
  | String a s' => (a, a) :: ranges_of s'
  | EmptyString => []
  end.
(** The text up to the closing bracket, which does not count as the first character. *)
Definition bracket_of (s : string) : option (bool * string * string) :=
  let '(neg, t) := match s with String "!" t => (true, t) | _ => (false, s) end in
  let '(first, u) := match t with String "]" u => ("]", u) | _ => ("", t) end in
  match sindex "]" u with
  | None => None
  | Some i => Some (neg, first ++ stake i u, sdrop (S i) u)
  end.
Fixpoint pattern_of (n : nat) (p : string) : list pattern_item :=
  match n, p with
  | S n', String c r =>
      if Ascii.eqb c "*" then PAny :: pattern_of n' r
      else if Ascii.eqb c "?" then POne :: pattern_of n' r
      else if Ascii.eqb c "[" then
        match bracket_of r with
        | None => PLit c :: pattern_of n' r
        | Some (neg, stuff, rest) => PSet neg (ranges_of stuff) :: pattern_of n' rest
        end
      else PLit c :: pattern_of n' r
  | _, _ => []
  end.
Definition in_range (c : ascii) (p : ascii * ascii) : bool :=
  (nat_of_ascii (fst p) <=? nat_of_ascii c)%nat && (nat_of_ascii c <=? nat_of_ascii (snd p))%nat.
Definition item_matches (i : pattern_item) (c : ascii) : bool :=
  match i with
  | PAny | POne => true
  | PLit d => Ascii.eqb c d
  | PSet neg l => xorb neg (existsb (in_range c) l)
  end.
(** fnmatch.filter: the whole name has to match. *)
Fixpoint matches (p : list pattern_item) : string -> bool :=
  match p with
  | [] => is_empty
  | PAny :: p' => fix any (s : string) : bool :=
      matches p' s || match s with EmptyString => false | String _ s' => any s' end
  | i :: p' => fun s => match s with EmptyString => false | String c s' => item_matches i c && matches p' s' end
  end.
Definition fnmatch (p name : string) : bool := matches (pattern_of (String.length p) p) name.

(** glob.has_magic *)
Definition has_magic (s : string) : bool := sexists (fun c => Ascii.eqb c "*" || Ascii.eqb c "?" || Ascii.eqb c "[") s.
Definition hidden (s : string) : bool := match s with String "." _ => true | _ => false end.

(** [os.path.split] is [dirname] (Dotenv.v) and this: *)
Definition basename (p : string) : string := last (split_char slash p) "".
(** [s[-1]] *)
Fixpoint end_char (s : string) : option ascii :=
  match s with
  | EmptyString => None
  | String c EmptyString => Some c
  | String _ s' => end_char s'
  end.
(** [os.path.join] of a directory and a relative name *)
Definition path_join (d n : string) : string :=
  match end_char d with
  | Some c => if Ascii.eqb c slash then d ++ n else d ++ "/" ++ n
  | None => n
  end.

Section World.
  Context (w : world).

  Definition exists_path (p : string) : bool := w_isdir w p || negb (opt_is_none (w_file w p)).
  (** [_glob1] *)
  Definition glob1 (dironly : bool) (d p : string) : list string :=
    filter (fnmatch p)
      (filter (fun n => hidden p || negb (hidden n))
         (filter (fun n => negb dironly || w_isdir w (path_join d n)) (w_names w d))).
  (** [_glob0] *)
  Definition glob0 (d b : string) : list string :=
    if is_empty b then (if w_isdir w d then [b] else [])
    else if exists_path (path_join d b) then [b] else [].
  (** [_iglob] for a path that starts with a slash *)
  Fixpoint iglob (n : nat) (dironly : bool) (p : string) : list string :=
    match n with
    | O => []
    | S n' =>
        let d := dirname p in
        let b := basename p in
        if negb (has_magic p) then
          if is_empty b then (if w_isdir w d then [p] else []) else if exists_path p then [p] else []
        else
          let dirs := if has_magic d then iglob n' true d else [d] in
          concat (map (fun x => map (path_join x) (if has_magic b then glob1 dironly x b else glob0 x b)) dirs)
    end.
  Definition glob (p : string) : list string := iglob (S (String.length p)) false p.

  (** ** The files *)

  (** reader.py lines 122-149 on a string *)
  Definition source_named (s : string) : source :=
    match w_file w s with Some text => (s, text) | None => ("", s) end.
  (** file_reader/database.py lines 37-68 *)
  Definition process (s : string) : res (list source) :=
    if w_isdir w s then
      match end_char s with
      | None => Raise (IndexError "string index out of range")
      | Some c => Ok (map source_named (glob ((if Ascii.eqb c slash then s else s ++ "/") ++ "*.sql")))
      end
    else Ok [source_named s].

  Context {FO : FloatOracle}.

  (** base.py lines 22-26, file_reader/database.py lines 6-35.  [config] is the option of this name.
      SIMPLIFICATION: a directory that is no string does not get here, see [load_config]. *)
  Definition load_files (config : string) : res database :=
    let* d := sql_files (w_loads w) (w_file w) (w_cwd w) (Some config) in
    match d with
    | CStr s => let* srcs := process s in file_database srcs
    | _ => Raise (TypeError "not a path")
    end.

  (** ** The driver *)

  Definition send (tr : list deed) (s : string) : list deed * answer := (tr +++ [Query s], w_server w tr s).

  (** base.py lines 13-20 and pymysql.py lines 16-28.  The driver object is kept in the options: it is
      there if something was done before. *)
  Definition get_driver (config : string) (tr : list deed) : list deed * option exn :=
    match tr with
    | _ :: _ => (tr, None)
    | [] =>
        match driver_credentials (w_loads w) (w_file w) (w_cwd w) (Some config) with
        | Raise e => (tr, Some e)
        | Ok c => match w_connect w c with
                  | Some e => (tr, Some e)
                  | None => (tr +++ [Connect c], None)
                  end
        end
    end.

  (** pymysql.py lines 47-57, the second loop.  SIMPLIFICATION: names and definitions are texts. *)
  Fixpoint show_creates (tr : list deed) (names : list string) (defs : dict string string)
    : list deed * res (dict string string) :=
    match names with
    | [] => (tr, Ok defs)
    | n :: names' =>
        match send tr ("SHOW CREATE TABLE " ++ n) with
        | (tr', Failed e) => (tr', Raise e)
        | (tr', Answer []) => (tr', Raise (ValueError ("Failed to execute SHOW CREATE TABLE command on table " ++ n)))
        | (tr', Answer (r :: _)) =>
            match dget "Create Table" r with
            | None => (tr', Raise (KeyError "Create Table"))
            | Some v => show_creates tr' names' (dset n (rval_str v) defs)
            end
        end
    end.
  (** pymysql.py lines 32-61 *)
  Definition driver_tables (tr : list deed) : list deed * res (dict string string) :=
    match send tr "SHOW TABLES" with
    | (tr', Failed e) => (tr', Raise e)
    | (tr', Answer l) => show_creates tr' (map rval_str (concat (map dvals l))) []
    end.
  (** pymysql.py lines 63-78 *)
  Definition driver_rows (tr : list deed) (n : string) : list deed * res (list row) :=
    match send tr ("SELECT * FROM " ++ n) with
    | (tr', Failed e) => (tr', Raise e)
    | (tr', Answer l) => (tr', Ok l)
    end.
  (** pymysql.py lines 80-90 *)
  Fixpoint send_statements (tr : list deed) (l : list string) : list deed * option exn :=
    match l with
    | [] => (tr +++ [Commit], None)
    | s :: l' => match send tr s with
                 | (tr', Failed e) => (tr', Some e)
                 | (tr', Answer _) => send_statements tr' l'
                 end
    end.

  (** ** The commands *)

  (** plan.py lines 47-54, as [read_tracked] (Commands.v) but with the statements sent *)
  Fixpoint load_rows (tr : list deed) (files : list table) (live : tables) : list deed * res tables :=
    match files with
    | [] => (tr, Ok live)
    | f :: files' =>
        if negb (t_tracking f) then load_rows tr files' live
        else match dget (t_name f) live with
             | None => load_rows tr files' live
             | Some t =>
                 match driver_rows tr (t_name f) with
                 | (tr', Raise e) => (tr', Raise e)
                 | (tr', Ok l) =>
                     match read_raw_rows t l with
                     | (_, Some e) => (tr', Raise e)
                     | (t', None) => load_rows tr' files' (dset (t_name f) t' live)
                     end
                 end
             end
    end.

  (** plan.py lines 38-54: connecting, the live tables and the rows of the tracked tables *)
  Definition load_live (config : string) (files : list table) : list deed * res tables :=
    match get_driver config [] with
    | (tr, Some e) => (tr, Raise e)
    | (tr, None) =>
        match driver_tables tr with
        | (tr', Raise e) => (tr', Raise e)
        | (tr', Ok defs) =>
            match live_database (dvals defs) with
            | Raise e => (tr', Raise e)
            | Ok live => load_rows tr' files (db_tables live)
            end
        end
    end.

  (** plan.py lines 23-73, as [build_commands] (Commands.v) but with the world.  The second list is
      what is written to stderr. *)
  Definition build (force : bool) (config : string) : list deed * list string * res (list op) :=
    match load_files config with
    | Raise e => ([], [], Raise e)
    | Ok files =>
        match db_errors files with
        | (_, Raise e) => ([], [], Raise e)
        | (b1, Ok errs) =>
            if negb (list_is_nil errs) && negb force then ([], "Errors found in *.sql files" :: errs, Ok [])
            else
              match load_live config (dvals (db_tables b1)) with
              | (tr, Raise e) => (tr, [], Raise e)
              | (tr, Ok l) =>
                  match mygration false b1 (Some l) with
                  | (_, Raise e) => (tr, [], Raise e)
                  | (b2, Ok structure) =>
                      (tr, [], let* rows := plan_rows (db_tables b2) (Some l) in
                               Ok (bracket ((match structure with Some ops => ops | None => [] end) +++ rows)))
                  end
              end
        end
    end.

  (** ** The notices of the readers *)

  (** file_reader/database.py line 86, for a source that is a file or, if it has no name, a text *)
  Definition source_notice (src : source) : list string :=
    match snd (read_sql (fst src) (snd src)) with
    | Raise (ValueError m) => ["Error in file " ++ (if is_empty (fst src) then snd src else fst src) ++ ": " ++ m]
    | _ => []
    end.
  (** What reading the sources prints: one line for each that is not read to its end, up to the first
      exception that is not caught. *)
  Fixpoint source_notices (b : database) (srcs : list source) : list string :=
    match srcs with
    | [] => []
    | src :: srcs' => source_notice src +++ match read_source b src with Ok b' => source_notices b' srcs' | Raise _ => [] end
    end.
  (** what [load_files] prints *)
  Definition file_notices (config : string) : list string :=
    match sql_files (w_loads w) (w_file w) (w_cwd w) (Some config) with
    | Ok (CStr s) => match process s with Ok srcs => source_notices empty_database srcs | Raise _ => [] end
    | _ => []
    end.
  (** db_reader/database.py line 35 *)
  Definition table_notice (sql : string) : list string :=
    match snd (read_sql "" sql) with
    | Raise (ValueError m) => ["Error in table " ++ sql ++ ": " ++ m]
    | _ => []
    end.
  Fixpoint table_notices (b : database) (defs : list string) : list string :=
    match defs with
    | [] => []
    | sql :: defs' => table_notice sql +++ match read_live b sql with Ok b' => table_notices b' defs' | Raise _ => [] end
    end.
  (** what [load_live] prints *)
  Definition live_notices (config : string) : list string :=
    match get_driver config [] with
    | (tr, None) => match driver_tables tr with
                    | (_, Ok defs) => table_notices (mkDatabase [] None [] [] None None None None) (dvals defs)
                    | _ => []
                    end
    | _ => []
    end.
  (** what [build] prints: it gets to the live tables under the same conditions *)
  Definition build_notices (force : bool) (config : string) : list string :=
    file_notices config
    +++ match load_files config with
        | Raise _ => []
        | Ok files => match db_errors files with
                      | (_, Raise _) => []
                      | (_, Ok errs) => if negb (list_is_nil errs) && negb force then [] else live_notices config
                      end
        end.

  (** How a command ends: [sys.exit] with the success flag (mygrations/mygrate.py lines 27-28), or an
      exception that nothing catches.  ImportError is apart from the exceptions of the model. *)
  Inductive ending : Type := Exited (success : bool) | Uncaught (e : exn) | ImportFailed (m : string).
  Record run := mkRun {
    run_deeds : list deed;
    run_out : list string;      (* one per print *)
    run_err : list string;
    run_end : ending
  }.
  Definition new_line : string := String newline "".

  (** plan.py lines 14-21 *)
  Definition run_plan (force : bool) (config : string) : run :=
    let '(tr, err, r) := build force config in
    let told := build_notices force config in
    match r with
    | Raise e => mkRun tr told err (Uncaught e)
    | Ok ops => mkRun tr (told +++ [join new_line (map op_str ops)]) err (Exited true)
    end.

  (** apply.py lines 9-21 *)
  Definition run_apply (force : bool) (config : string) : run :=
    let '(tr, err, r) := build force config in
    let told := build_notices force config in
    match r with
    | Raise e => mkRun tr told err (Uncaught e)
    | Ok ops =>
        let texts := map op_str ops in
        match get_driver config tr with
        | (tr1, Some e) => mkRun tr1 told err (Uncaught e)
        | (tr1, None) =>
            match send_statements tr1 texts with
            | (tr2, Some e) => mkRun tr2 told err (Uncaught e)
            | (tr2, None) =>
                mkRun tr2 (told +++ if list_is_nil texts then ["No changes required"] else ["Applied:"; join new_line texts])
                  err (Exited true)
            end
        end
    end.

  (** check.py lines 12-33 *)
  Definition run_check (config : string) : run :=
    let told := file_notices config in
    match load_files config with
    | Raise e => mkRun [] told [] (Uncaught e)
    | Ok files =>
        match db_errors files with
        | (_, Raise e) => mkRun [] told [] (Uncaught e)
        | (b1, Ok errs) =>
            match db_warnings b1 with
            | (_, Raise e) => mkRun [] told [] (Uncaught e)
            | (_, Ok warns) =>
                let errors := if list_is_nil errs then [] else "Errors found in *.sql files:" :: errs in
                let warnings := if list_is_nil warns then [] else "Warnings found in *.sql files:" :: warns in
                mkRun []
                  (told +++ if list_is_nil errors && list_is_nil warnings then ["No problems found"]
                   else (if list_is_nil errors then [] else [join new_line errors])
                        +++ (if list_is_nil warnings then [] else [join new_line warnings]))
                  [] (Exited (list_is_nil errors))
            end
        end
    end.

  (** core/commands/__init__.py lines 3-26: what [import_module] finds.  There is no import_files.py;
      plan_export.py line 9 imports mygrations.drivers.mysqldb, which does not exist; version.py line 1
      imports a name that base.py does not define. *)
  Definition dispatch (command : string) (force : bool) (config : string) : run :=
    let broken m := mkRun [] [] [] (ImportFailed m) in
    if String.eqb command "apply" then run_apply force config
    else if String.eqb command "check" then run_check config
    else if String.eqb command "import" then broken "No module named 'mygrations.core.commands.import_files'"
    else if String.eqb command "plan" then run_plan force config
    else if String.eqb command "plan_export" then broken "No module named 'mygrations.drivers.mysqldb'"
    else if String.eqb command "version" then broken "cannot import name 'base' from 'mygrations.core.commands.base'"
    else mkRun [] [] [] (Uncaught (ValueError ("Unknown command " ++ command))).

  (** mygrate.py lines 6-26 and mygrations/mygrate.py lines 11-28.  [command]: [None] if the command is
      not given.  argparse itself is not modelled; it only lets the six commands through. *)
  Definition main (command : option string) (config : option string) (force version : bool) : run :=
    let c := match command with Some c => c | None => "version" end in
    let c := if is_empty c then "check" else c in
    let c := if version then "version" else c in
    dispatch c force (match config with Some f => f | None => "mygrate.conf" end).
End World.

(** The status that the shell sees. *)
Definition exit_status (r : run) : nat := match run_end r with Exited true => 0 | _ => 1 end.
