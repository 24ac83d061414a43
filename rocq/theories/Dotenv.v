(** Configuration: helpers/dotenv.py, helpers/db_credentials.py and core/commands/base.py. *)
From Verif Require Export PyDict.

Definition line_break : ascii := "010"%char.

(** ** One line *)

(** dotenv.py lines 166-171: [s] is the value from position [i] on and [prev] the character before
    it.  The loop visits the quotes after position 0 and stops at the first that is not escaped;
    [value.index] raises when there is none, because [value.count(quote, index)] still counts the
    quote at [index]. *)
Fixpoint closing (q prev : ascii) (i : nat) (s : string) : option nat :=
  match s with
  | EmptyString => None
  | String c s' => if Ascii.eqb c q && negb (Ascii.eqb prev backslash) then Some i else closing q c (S i) s'
  end.

(** [value.count(comment, index)] and [value.index(comment, index)] *)
Definition sindex_from (sub s : string) (i : nat) : option nat := option_map (Nat.add i) (sindex sub (sdrop i s)).

(** dotenv.py lines 98-187.  [None] stands for [[False, False]]. *)
Definition parse_line (comment line : string) : res (option (string * string)) :=
  let clean := strip line in
  if String.eqb (stake (String.length comment) clean) comment then Ok None
  else if is_empty clean then Ok None
  else
    let '(k, rest) := span (fun c => negb (Ascii.eqb c "=" || Ascii.eqb c ":")) clean in
    match k, rest with
    | String _ _, String _ v0 =>
        let key := strip k in
        let value := strip (fst (span (fun c => negb (Ascii.eqb c line_break)) v0)) in
        match value with
        | EmptyString => Ok (Some (key, ""))
        | String q v =>
            if negb (Ascii.eqb q squote) && negb (Ascii.eqb q dquote) then
              let value := match sindex comment value with Some i => strip (stake i value) | None => value end in
              if has_char dquote value || has_char squote value
              then Raise (DotEnvSyntaxError ("Syntax error: unclosed quote in line " ++ line))
              else Ok (Some (key, value))
            else if negb (has_char q v) then Raise (DotEnvSyntaxError ("Syntax error: unclosed quote in line " ++ line))
            else match v with
                 | EmptyString => Ok (Some (key, ""))       (* not reached: [v] has a quote *)
                 | String c v' =>
                     if Ascii.eqb c q then Ok (Some (key, ""))
                     else match closing q c 1 v' with
                          | None => Raise (ValueError "substring not found")
                          | Some index =>
                              let v := match sindex_from comment v index with Some i => strip (stake i v) | None => v end in
                              if Nat.ltb (index + 1) (String.length v) && negb (String.eqb (strip (sdrop (index + 1) v)) ";")
                              then Raise (DotEnvSyntaxError ("Syntax error: data found outside of the quote in line " ++ line))
                              else Ok (Some (key, replace2 backslash q (String q "") (stake index v)))
                          end
                 end
        end
    | _, _ => Raise (DotEnvSyntaxError ("Syntax error: no data found in line: " ++ line))
    end.

(** ** A whole text *)

(** A value of a configuration: a string, or what JSON gives otherwise. *)
Inductive cval : Set :=
| CStr (s : string)
| CHashable (text : string)       (* numbers, booleans, null *)
| CUnhashable (text : string).    (* arrays and objects *)
Definition config := dict string cval.

(** What [json.loads] gives: a false value, or a true one with what [dict] makes of it.
    SIMPLIFICATION: the keys of the dictionary are strings, and no RecursionError. *)
Inductive json : Type := JFalsy | JTruthy (r : res config).

Section World.
  (** [None]: JSONDecodeError.  [file p] is the content of the file [p] if there is one.  Reading a
      file is taken to succeed. *)
  Context (loads : string -> option json) (file : string -> option string).

  (** dotenv.py lines 65-96; lines 89-93 in [put_line] *)
  Definition put_line (comment : string) (d : config) (line : string) : res config :=
    let* p := parse_line comment line in
    Ok (match p with
        | None => d
        | Some (k, v) => if is_empty k || is_empty v then d else dset k (CStr v) d
        end).
  Definition parse_lines (comment : string) (lines : list string) : res config :=
    foldM (put_line comment) lines [].
  Definition parse_text (comment text : string) : res config :=
    match loads text with
    | Some (JTruthy r) => r
    | _ => parse_lines comment (split_char line_break text)
    end.

  (** dotenv.py lines 17-63 on a string, with the default comment sign: a text, or the name of a
      file if there is one. *)
  Definition load (name : string) : res config :=
    if is_empty name then Ok []
    else parse_text "#" (match file name with Some text => text | None => name end).

  (** ** Credentials *)

  (** db_credentials.py line 6 *)
  Definition key_map : list (string * string) :=
    [("hostname_key", "host"); ("database_key", "database"); ("username_key", "user"); ("password_key", "password")].

  (** lines 16-19 *)
  Definition required : list string := ["hostname_key"; "username_key"; "password_key"; "database_key"].
  Definition check_required (conf : config) (k : string) : res unit :=
    if dmem k conf then Ok tt else Raise (ValueError ("Cannot find required key " ++ k ++ " in mygrate.conf")).
  (** lines 23-29 *)
  Definition fulfil (conf env : config) (p : string * string) : res (string * cval) :=
    let* name := (match dget (fst p) conf with Some v => Ok v | None => Raise (KeyError (fst p)) end) in
    match name with
    | CStr n => match dget n env with
                | Some v => Ok (snd p, v)
                | None => Raise (ValueError ("Failed to fulfill " ++ snd p ++ ": key " ++ n ++ " not found in .env"))
                end
    | CHashable t => Raise (ValueError ("Failed to fulfill " ++ snd p ++ ": key " ++ t ++ " not found in .env"))
    | CUnhashable _ => Raise (TypeError "unhashable type")
    end.
  (** lines 8-29 with two dotenv objects *)
  Definition credentials (env conf : config) : res (dict string cval) :=
    let* _ := mapM (check_required conf) required in
    mapM (fulfil conf env) key_map.
  (** with the name of the .env file, as base.py line 19 does.  SIMPLIFICATION: a name that is no
      string is not modelled. *)
  Definition db_credentials (env : string) (conf : config) : res (dict string cval) :=
    let* e := load env in credentials e conf.

  (** ** The configuration file *)

  Definition slash : ascii := "/"%char.

  (** [range(ndirectories)]: the directories from the last to the first *)
  Fixpoint search (dirs : list string) (filename : string) (n : nat) : option string :=
    match n with
    | O => None
    | S n' =>
        let path := "/" ++ join "/" (firstn n dirs) ++ "/" ++ filename in
        match file path with Some _ => Some path | None => search dirs filename n' end
    end.

  (** base.py lines 65-87; [cwd] is [os.getcwd()] *)
  Definition resolve_config (cwd path : string) : res string :=
    match path with
    | EmptyString => Raise (ValueError "Missing path to configuration file")
    | String c _ =>
        if Ascii.eqb c slash then
          match file path with
          | None => Raise (ValueError ("Specified configuration file '" ++ path ++ "' does not exist"))
          | Some _ => Ok path
          end
        else
          let parts := split_char slash (strip_char slash (cwd ++ "/" ++ path)) in
          let dirs := removelast parts in
          match search dirs (last parts "") (List.length dirs) with
          | Some p => Ok p
          | None => Raise (ValueError ("Could not find configuration file '" ++ path ++ "' in current directory or parents"))
          end
    end.

  (** [os.path.dirname]: the part before the last slash, without its trailing slashes unless it
      consists of slashes only *)
  Definition dirname (p : string) : string :=
    match split_char slash p with
    | [] | [_] => ""
    | parts =>
        let head := join "/" (removelast parts) ++ "/" in
        if sforall (Ascii.eqb slash) head then head else rstrip_by (Ascii.eqb slash) head
    end.

  (** base.py lines 89-99.  SIMPLIFICATION: a setting that is no string is not a path: TypeError
      stands for whatever Python does with it. *)
  Definition relative_to (setting : cval) (conf_path : string) : res string :=
    match setting with
    | CStr EmptyString => Raise (IndexError "string index out of range")
    | CStr (String c s) => Ok (if Ascii.eqb c slash then String c s else dirname conf_path ++ "/" ++ String c s)
    | _ => Raise (TypeError "not a path")
    end.

  (** base.py lines 28-60, not loaded before.  [None]: no 'config' option. *)
  Definition load_config (cwd : string) (option_config : option string) : res config :=
    match option_config with
    | None => Raise (ValueError "Missing required 'config' parameter in options for commands")
    | Some name =>
        let* path := resolve_config cwd name in
        let* conf := load path in
        match dget "files_directory" conf with
        | None => Raise (ValueError "Configuration file is missing 'files_directory' configuration, which should point to the directory containing your *.sql files")
        | Some v =>
            let* d := relative_to v path in
            let conf1 := dset "files_directory" (CStr d) conf in
            match dget "env_file" conf1 with
            | None => Raise (ValueError "Configuration file is missing 'env_file' configuration, which should point to the .env file for your application (so mygrations can fetch database credentials")
            | Some e =>
                let* f := relative_to e path in
                Ok (dset "env_file" (CStr f) conf1)
            end
        end
    end.

  (** base.py lines 13-20 for the command line: what the driver is given *)
  Definition driver_credentials (cwd : string) (option_config : option string) : res (dict string cval) :=
    let* conf := load_config cwd option_config in
    match dget "env_file" conf with
    | Some (CStr f) => db_credentials f conf
    | _ => Raise (KeyError "env_file")
    end.
  (** base.py lines 22-26 *)
  Definition sql_files (cwd : string) (option_config : option string) : res cval :=
    let* conf := load_config cwd option_config in
    match dget "files_directory" conf with Some v => Ok v | None => Raise (KeyError "files_directory") end.
End World.
