(** The parsers of definitions and statements: formats/mysql/file_reader/parsers/*.py,
    create_parser.py, insert_parser.py. *)
From Verif Require Export Engine.

(** ** Character classes *)

Definition is_char (c d : ascii) : bool := Ascii.eqb d c.
(** [\S] *)
Definition not_space (c : ascii) : bool := negb (is_space c).
(** [[^\(\s\)]] *)
Definition name_char (c : ascii) : bool := negb (is_char "(" c || is_space c || is_char ")" c).
(** [[^\(\s\),]] *)
Definition arg_char (c : ascii) : bool := name_char c && negb (is_char "," c).
(** [[^\(]], [[^\)]], [[^=]], [[^\s;]], [[^\s\(]] *)
Definition not_open (c : ascii) : bool := negb (is_char "(" c).
Definition not_close (c : ascii) : bool := negb (is_char ")" c).
Definition not_equals (c : ascii) : bool := negb (is_char "=" c).
Definition value_char (c : ascii) : bool := negb (is_space c || is_char ";" c).
Definition table_char (c : ascii) : bool := negb (is_space c || is_char "(" c).
Definition not_squote (c : ascii) : bool := negb (is_char squote c).
Definition not_dquote (c : ascii) : bool := negb (is_char dquote c).

Definition plus (p : ascii -> bool) : regexp := ReClass p None.

(** The child parsers of CREATE TABLE store nothing but texts and lists. *)
Definition leaf := Empty_set.

(** ** Columns *)

(** What a [Type...] parser knows after [process].  [None] for an attribute the class does not set
    (type.py lines 102-116 read them with [getattr]). *)
Record pcol := mkPcol {
  p_name : string;
  p_type : string;                       (* _column_type *)
  p_length : clength;
  p_null : bool;
  p_has_default : bool;
  p_default : option string;
  p_unsigned : option bool;
  p_charset : option string;
  p_collate : option string;
  p_auto : option bool;
  p_primary : bool;                      (* _is_primary_key *)
  p_warnings : list string
}.

(** type.py lines 32-66 *)
Definition type_map : dict string ckind :=
  map (fun n => (n, KNumeric))
    ["INTEGER"; "INT"; "SMALLINT"; "TINYINT"; "MEDIUMINT"; "BIGINT"; "DECIMAL"; "NUMERIC"; "FLOAT";
     "DOUBLE"; "BIT"; "BOOLEAN"; "BOOL"]
  +++ map (fun n => (n, KDate)) ["DATE"; "DATETIME"; "TIMESTAMP"; "TIME"; "YEAR"]
  +++ map (fun n => (n, KString))
    ["CHAR"; "VARCHAR"; "BINARY"; "VARBINARY"; "TINYBLOB"; "BLOB"; "MEDIUMBLOB"; "LONGBLOB"; "TINYTEXT";
     "TEXT"; "MEDIUMTEXT"; "LONGTEXT"; "JSON"]
  +++ map (fun n => (n, KEnum)) ["ENUM"; "SET"].

(** type.py lines 88-116.  No parser sets an attribute [enum_values] (type_enum.py line 30 sets
    [_enum_values]), so that argument is always [None]. *)
Definition as_definition (p : pcol) : res column :=
  let ty := upper (p_type p) in
  match dget ty type_map with
  | None => Raise (ValueError ("Found an unknown column type, '" ++ ty
                                 ++ "' that does not have a corresponding column class"))
  | Some k =>
      Ok (mkColumn k (p_name p) ty (p_length p) (p_null p) (p_has_default p)
            (match p_default p with Some s => DStr s | None => DNone end)
            (p_unsigned p) (p_charset p) (p_collate p) (p_auto p) None [] (p_warnings p))
  end.

(** [s[0] == "'" and s[-1] == "'"] with [len(s) >= 2] *)
Fixpoint last_char (s : string) : option ascii :=
  match s with
  | EmptyString => None
  | String c EmptyString => Some c
  | String _ s' => last_char s'
  end.
Definition is_quoted (s : string) : bool :=
  Nat.leb 2 (String.length s)
  && (match s with String c _ => is_char squote c | EmptyString => false end)
  && (match last_char s with Some c => is_char squote c | None => false end).

(** type.py lines 6-15 *)
Definition unquote (v : option string) : option string :=
  match v with
  | Some s => if is_quoted s then Some (strip_char squote s) else v
  | None => None
  end.

(** type.py lines 75-86 *)
Definition normalize_type (t : string) : string :=
  if String.eqb (lower t) "integer" then "int" else t.

Section Columns.
  Context {C : Type}.
  Notation vals := (pvals C).

  (** type.py lines 24-30 *)
  Definition extract_name (v : vals) : string := strip_char bquote (vtext "name" v).
  Definition extract_null (v : vals) : bool := negb (dmem "NOT NULL" v).

  (** The text of a default that starts and ends with a quote loses all quotes around it, NULL in
      any case is no default; otherwise a warning may be added.
      type_character.py 59-68, type_text.py 51-60, type_datetime.py 56-65, type_numeric.py 50-57,
      type_enum.py 38-47, type_decimal.py 38-45 *)
  Definition sense (quoted_warning : string -> list string) (plain_warning : string -> list string)
    (d : option string) : option string * list string :=
    match d with
    | None => (None, [])
    | Some s =>
        if is_quoted s then (Some (strip_char squote s), quoted_warning (strip_char squote s))
        else if is_empty s then (Some s, [])
        else if String.eqb (lower s) "null" then (None, [])
        else (Some s, plain_warning s)
    end.
  Definition no_warning (_ : string) : list string := [].
  Definition should_quote (name s : string) : string :=
    "Default value of """ ++ s ++ """ should have quotes for field " ++ name.
  Definition text_warning (name s : string) : list string :=
    if isdigit s then [] else [should_quote name s].

  Definition rname : rule C := RRe "name" (plus name_char) false.
  Definition rtype : rule C := RRe "type" (plus is_word) false.
  Definition rlength : rule C := RRe "length" (plus is_digit) false.
  Definition rcollate : rule C := RRe "collate" (ReAfter "COLLATE " arg_char) true.
  Definition rcharset : rule C := RRe "character_set" (ReAfter "CHARACTER SET " arg_char) true.
  Definition rdefault : rule C := RRe "default" (ReAfter "DEFAULT " arg_char) true.
  Definition rnull : rule C := RLit "bare_null" "NULL" true.
  Definition rnotnull : rule C := lit_opt "NOT NULL".
  Definition rcomma : rule C := RLit "ending_comma" "," true.

  (** type_character.py lines 26-45 *)
  Definition character_rules : list (rule C) :=
    [rname; rtype; lit "("; rlength; lit ")"; rcollate; rcharset; rcollate; rnull; rnotnull;
     rcollate; rcharset; rcollate; rdefault; rcollate; rcharset; rcollate; rcomma].
  (** type_character.py lines 47-74 *)
  Definition character_process (v : vals) : pcol :=
    let name := extract_name v in
    let '(d, w) := sense no_warning (text_warning name) (vopt "default" v) in
    mkPcol name (normalize_type (vtext "type" v)) (LStr (vtext "length" v)) (extract_null v)
      (dmem "default" v) d None (unquote (vopt "character_set" v)) (unquote (vopt "collate" v)) None
      false w.

  (** type_numeric.py lines 23-35 *)
  Definition numeric_rules : list (rule C) :=
    [rname; rtype; lit "("; rlength; lit ")"; lit_opt "UNSIGNED"; rnull; rnotnull; rdefault;
     lit_opt "AUTO_INCREMENT"; rcomma].
  (** type_numeric.py lines 37-57 *)
  Definition numeric_process (v : vals) : pcol :=
    let name := extract_name v in
    let ty := normalize_type (vtext "type" v) in
    let is_char_type := String.eqb ty "char" || String.eqb ty "varchar" in
    let '(d, w) := sense no_warning
                     (fun _ => if is_char_type
                               then ["Default value for column " ++ name ++ " should be quoted"] else [])
                     (vopt "default" v) in
    mkPcol name ty (LStr (vtext "length" v)) (extract_null v)
      (dmem "default" v) d (Some (dmem "UNSIGNED" v)) None None (Some (dmem "AUTO_INCREMENT" v)) false w.

  (** type_decimal.py lines 11-24 *)
  Definition decimal_rules : list (rule C) :=
    [rname; rtype; lit "("; rlength; RLit "separating_comma" "," false;
     RRe "decimals" (plus is_digit) false; lit ")"; lit_opt "UNSIGNED"; rnull; rnotnull; rdefault; rcomma].
  (** type_decimal.py lines 26-45 *)
  Definition decimal_process (v : vals) : pcol :=
    let name := extract_name v in
    let '(d, w) := sense
                     (fun _ => ["Column '" ++ name ++ "' has a numeric type but its default value is a string"])
                     no_warning (vopt "default" v) in
    mkPcol name (vtext "type" v) (LStr (vtext "length" v ++ "," ++ vtext "decimals" v)) (extract_null v)
      (dmem "default" v) d (Some (dmem "UNSIGNED" v)) None None None false w.

  (** type_enum.py lines 11-23 *)
  Definition enum_rules : list (rule C) :=
    [rname; rtype; lit "("; RDel "enum_values" "," squote false; lit ")"; rnull; rnotnull; rdefault;
     rcharset; rcollate; rcomma].
  (** type_enum.py lines 25-47 *)
  Definition enum_process (v : vals) : pcol :=
    let name := extract_name v in
    let '(d, w) := sense no_warning (fun s => [should_quote name s]) (vopt "default" v) in
    mkPcol name (vtext "type" v) (LList (vlist "enum_values" v)) (extract_null v)
      (dmem "default" v) d None (unquote (vopt "character_set" v)) (unquote (vopt "collate" v)) None
      false w.

  (** type_plain.py lines 14-34 *)
  Definition plain_rules : list (rule C) :=
    [rname; rtype; lit_opt "UNSIGNED"; rnull; rnotnull; lit_opt "PRIMARY KEY"; rdefault; rnull; rnotnull;
     lit_opt "PRIMARY KEY"; lit_opt "AUTO_INCREMENT"; rcomma].
  (** type_plain.py lines 36-69 *)
  Definition plain_process (v : vals) : pcol :=
    let name := extract_name v in
    let ty := normalize_type (vtext "type" v) in
    let d0 := unquote (vopt "default" v) in
    let is_pk := dmem "PRIMARY KEY" v in
    let is_bool := String.eqb (upper ty) "BOOLEAN" || String.eqb (upper ty) "BOOL" in
    let d1 := if is_bool then
                match d0 with
                | Some s => if String.eqb (upper s) "FALSE" then Some "0"
                            else if String.eqb (upper s) "TRUE" then Some "1" else d0
                | None => None
                end
              else d0 in
    let d2 := match d1 with
              | Some s => if String.eqb (lower s) "null" then None else d1
              | None => None
              end in
    mkPcol name (if is_bool then "TINYINT" else ty) (LStr (if is_bool then "1" else ""))
      (negb (dmem "NOT NULL" v) && negb is_pk)
      (dmem "default" v) d2 (Some (dmem "UNSIGNED" v)) None None (Some (dmem "AUTO_INCREMENT" v)) is_pk [].

  (** type_text.py lines 21-37 *)
  Definition text_rules : list (rule C) :=
    [rname; rtype; rcollate; rcharset; rcollate; rnull; rnotnull; rcollate; rcharset; rcollate; rdefault;
     rcollate; rcharset; rcollate; rcomma].
  (** type_text.py lines 39-60 *)
  Definition text_process (v : vals) : pcol :=
    let name := extract_name v in
    let '(d, w) := sense no_warning (text_warning name) (vopt "default" v) in
    mkPcol name (normalize_type (vtext "type" v)) (LStr "") (extract_null v)
      (dmem "default" v) d None (unquote (vopt "character_set" v)) (unquote (vopt "collate" v)) None
      false w.

  (** type_datetime.py lines 26-43 *)
  Definition datetime_rules : list (rule C) :=
    [rname; rtype; rcollate; rcharset; rcollate; rnull; rnotnull; rcollate; rcharset; rcollate;
     RRe "default" (ReWithin "DEFAULT '" not_squote squote) true;
     RRe "default" (ReWithin "DEFAULT """ not_dquote dquote) true;
     rcollate; rcharset; rcollate; rcomma].
  (** type_datetime.py lines 45-71; the class sets no [_length] *)
  Definition datetime_process (v : vals) : pcol :=
    let name := extract_name v in
    let '(d, w) := sense no_warning (text_warning name) (vopt "default" v) in
    mkPcol name (vtext "type" v) LNone (extract_null v)
      (dmem "default" v) d None (unquote (vopt "character_set" v)) (unquote (vopt "collate" v)) None
      false w.

  (** ** Indexes *)

  Definition rcolumns : rule C := RDel "columns" "," bquote false.

  (** index_primary.py lines 9-20 *)
  Definition primary_rules : list (rule C) := [lit "PRIMARY KEY"; lit "("; rcolumns; lit ")"; rcomma].
  Definition primary_process (v : vals) : index :=
    mkIndex "" (clean_index_columns (vlist "columns" v)) IPrimary [].
  (** index_key.py lines 9-20 *)
  Definition key_rules : list (rule C) :=
    [RRe "index_name" (ReAlt "KEY" "INDEX") false; rname; lit "("; rcolumns; lit ")"; rcomma].
  Definition key_process (v : vals) : index :=
    mkIndex (strip_char bquote (strip (vtext "name" v))) (clean_index_columns (vlist "columns" v)) IIndex [].
  (** index_unique.py lines 9-22 *)
  Definition unique_rules : list (rule C) :=
    [lit "UNIQUE"; RRe "index_name" (ReAlt "KEY" "INDEX") true; RRe "name" (plus not_open) true; lit "(";
     rcolumns; lit ")"; rcomma].
  Definition unique_process (v : vals) : index :=
    mkIndex (strip_char bquote (strip (vtext "name" v))) (clean_index_columns (vlist "columns" v)) IUnique [].

  (** ** Foreign keys *)

  (** constraint_foreign.py lines 17-27 *)
  Definition action_rules : list (rule C) :=
    map (fun a => lit_opt ("ON DELETE " ++ a)) allowed_actions
    +++ map (fun a => lit_opt ("ON UPDATE " ++ a)) allowed_actions +++ [rcomma].
  (** constraint_foreign.py lines 11-16, 66-71 *)
  Definition reference_rules : list (rule C) :=
    [RRe "column_name" (plus name_char) false; lit ") REFERENCES";
     RRe "foreign_table_name" (plus not_open) false; lit "(";
     RRe "foreign_column_name" (plus not_close) false; lit ")"].
  (** constraint_foreign.py lines 7-28 *)
  Definition foreign_rules : list (rule C) :=
    [lit "CONSTRAINT"; rname; lit "FOREIGN KEY ("] +++ reference_rules +++ action_rules.
  (** constraint_foreign.py lines 64-83 *)
  Definition bare_rules : list (rule C) := lit "FOREIGN KEY (" :: reference_rules +++ action_rules.

  (** constraint_foreign.py lines 42-57: the action and the errors *)
  Definition find_action (update_type : string) (v : vals) : string * list string :=
    match filter (fun a => dmem ("ON " ++ update_type ++ " " ++ a) v) allowed_actions with
    | [] => ("RESTRICT", [])
    | a :: more =>
        (a, map (fun _ => "Found contradictory rules in foreign constraint for ON " ++ update_type) more)
    end.

  Definition clean (n : string) (v : vals) : string := strip_char bquote (strip (vtext n v)).

  (** constraint_foreign.py lines 30-40, 85-97; [name] is what the class puts in [_name] *)
  Definition foreign_with (name : string) (v : vals) : constraint :=
    let '(od, e1) := find_action "DELETE" v in
    let '(ou, e2) := find_action "UPDATE" v in
    mkConstraint name (clean "column_name" v) (clean "foreign_table_name" v)
      (clean "foreign_column_name" v) od ou (e1 +++ e2) [].
  Definition foreign_process (v : vals) : constraint := foreign_with (clean "name" v) v.
  Definition bare_process (v : vals) : constraint :=
    foreign_with (clean "column_name" v ++ "_" ++ clean "foreign_table_name" v ++ "_fk") v.

  (** table_option.py lines 8-23 *)
  Definition option_rules : list (rule C) :=
    [RRe "name" (ReClass not_equals (Some 30)) false; lit "="; RRe "value" (plus value_char) false].
  Definition option_process (v : vals) : toption :=
    mkOption (strip (vtext "name" v)) (strip (vtext "value" v)).
End Columns.

(** ** CREATE TABLE *)

(** A definition between the parentheses; the flag marks an unnamed foreign key. *)
Inductive def : Type :=
| DefCol (p : pcol)
| DefIndex (i : index)
| DefFk (bare : bool) (k : constraint)
| DefOption (o : toption).

Definition child_of {A} (rules : list (rule leaf)) (process : pvals leaf -> A) (wrap : A -> def) : pclass def :=
  fun s => parse_with rules (fun v => Ok (wrap (process v))) s.

(** create_parser.py lines 38-51 *)
Definition primary_class : pclass def := child_of primary_rules primary_process DefIndex.
Definition key_class : pclass def := child_of key_rules key_process DefIndex.
Definition unique_class : pclass def := child_of unique_rules unique_process DefIndex.
Definition foreign_class : pclass def := child_of foreign_rules foreign_process (DefFk false).
Definition bare_class : pclass def := child_of bare_rules bare_process (DefFk true).
Definition character_class : pclass def := child_of character_rules character_process DefCol.
Definition numeric_class : pclass def := child_of numeric_rules numeric_process DefCol.
Definition decimal_class : pclass def := child_of decimal_rules decimal_process DefCol.
Definition enum_class : pclass def := child_of enum_rules enum_process DefCol.
Definition plain_class : pclass def := child_of plain_rules plain_process DefCol.
Definition text_class : pclass def := child_of text_rules text_process DefCol.
Definition datetime_class : pclass def := child_of datetime_rules datetime_process DefCol.
Definition option_class : pclass def := child_of option_rules option_process DefOption.

Definition definition_classes : list (pclass def) :=
  [primary_class; key_class; unique_class; foreign_class; bare_class; character_class; numeric_class;
   decimal_class; enum_class; plain_class; text_class; datetime_class].

(** create_parser.py lines 25-66 *)
Definition create_rules : list (rule def) :=
  [lit "CREATE TABLE"; RLit "if_not_exists" "IF NOT EXISTS" true; RRe "name" (plus not_space) false;
   lit "("; RKids "definitions" definition_classes false; lit ")";
   RKids "table_options" [option_class] true; RLit "closing_semicolon" ";" true].

Definition add_global_error (t : table) (m : string) : table :=
  mkTable (t_name t) (t_columns t) (t_indexes t) (t_constraints t) (t_options t) (t_primary t)
    (t_indexed t) (t_rows t) (t_tracking t) (t_global_errors t +++ [m]) (t_global_warnings t) (t_ordered t).

(** A mutator's exception escapes from [process]. *)
Definition of_mut {A} (m : mut A) : res A :=
  match snd m with None => Ok (fst m) | Some e => Raise e end.

(** create_parser.py lines 115-121 *)
Definition bare_name (tname : string) (k : constraint) : string :=
  stake 64 (tname ++ "_" ++ k_column k ++ "_" ++ k_ftable k ++ "_fk").
Definition rename_fk (k : constraint) (n : string) : constraint :=
  mkConstraint n (k_column k) (k_ftable k) (k_fcolumn k) (k_on_delete k) (k_on_update k)
    (k_perrors k) (k_pwarnings k).

Definition def_index_on (col : string) (d : def) : bool :=
  match d with DefIndex i => smem col (ix_columns i) | _ => false end.

(** One turn of the loop of create_parser.py lines 96-136; [all] is [self._definitions].  A column
    that is already there is skipped before [as_definition] is called. *)
Definition process_def (all : list def) (t : table) (d : def) : res table :=
  match d with
  | DefCol p =>
      if dmem (p_name p) (t_columns t)
      then Ok (add_global_error t ("Table '" ++ t_name t ++ "' has two columns named '" ++ p_name p ++ "'"))
      else
        let* c := as_definition p in
        let* t1 := of_mut (add_column t c PEnd) in
        if p_primary p then of_mut (add_index t1 (mkIndex "" [p_name p] IPrimary [])) else Ok t1
  | DefIndex i =>
      if dmem (ix_rawname i) (t_indexes t)
      then Ok (add_global_error t ("Table '" ++ t_name t ++ "' has two indexes named '" ++ ix_rawname i ++ "'"))
      else of_mut (add_index t i)
  | DefFk bare k0 =>
      let k := if bare then rename_fk k0 (bare_name (t_name t) k0) else k0 in
      if dmem (k_name k) (t_constraints t)
      then Ok (add_global_error t ("Table '" ++ t_name t ++ "' has two constraints named '" ++ k_name k ++ "'"))
      else
        let* t1 := of_mut (add_constraint t k) in
        let col := k_column k in
        let has_index := dmem col (t_indexes t1)
                         || existsb (fun i => smem col (ix_columns i)) (dvals (t_indexes t1)) in
        let has_future := existsb (def_index_on col) all in
        if bare && negb has_index && negb has_future
        then of_mut (add_index t1 (mkIndex col [col] IIndex []))
        else Ok t1
  | DefOption _ => Raise (ValueError "Found unknown definition of type")   (* not reached *)
  end.

Definition def_options (l : list def) : list toption :=
  concat (map (fun d => match d with DefOption o => [o] | _ => [] end) l).

(** create_parser.py lines 82-139 *)
Definition create_process (v : pvals def) : res table :=
  let name := strip_char bquote (vtext "name" v) in
  let options := filter (fun o => negb (String.eqb (o_name o) "AUTO_INCREMENT"))
                   (def_options (vkids "table_options" v)) in
  let defs := vkids "definitions" v in
  let t0 := mkTable name [] [] [] options None None None false [] [] true in
  let* t := foldM (process_def defs) defs t0 in
  Ok (if dmem "closing_semicolon" v then t
      else add_global_error t ("Missing ending semicolon for table " ++ name)).

(** [re.sub(r"--[^\n]*", "", s)] (create_parser.py line 73) *)
Definition newline : ascii := "010"%char.
Fixpoint drop_dashes_from (in_comment : bool) (s : string) : string :=
  match s with
  | EmptyString => EmptyString
  | String c s' =>
      if in_comment then
        if Ascii.eqb c newline then String c (drop_dashes_from false s') else drop_dashes_from true s'
      else if Ascii.eqb c "-" && (match s' with String d _ => Ascii.eqb d "-" | EmptyString => false end)
           then drop_dashes_from true s'
           else String c (drop_dashes_from false s')
  end.
Definition drop_dashes (s : string) : string := drop_dashes_from false s.

(** What follows the first group in [(\(|\,)(\s*`?\w+`?)\(\d+\)]: the second group and the number of
    characters matched (create_parser.py line 79).  The classes are disjoint, so greedy matching is
    exact. *)
Definition opt_bquote (s : string) : string * string :=
  match s with
  | String c s' => if Ascii.eqb c bquote then (String bquote "", s') else ("", s)
  | EmptyString => ("", s)
  end.
Definition prefix_length (s : string) : option (string * nat) :=
  let '(a, s1) := span is_space s in
  let '(b, s2) := opt_bquote s1 in
  let '(w, s3) := span is_word s2 in
  if is_empty w then None
  else
    let '(e, s4) := opt_bquote s3 in
    match s4 with
    | String "(" s5 =>
        let '(d, s6) := span is_digit s5 in
        match s6 with
        | String ")" s7 =>
            if is_empty d then None
            else Some (a ++ b ++ w ++ e, String.length s - String.length s7)
        | _ => None
        end
    | _ => None
    end.
(** [re.sub(..., r"\1\2", s)] (create_parser.py line 79); [skip] characters of a match are dropped. *)
Fixpoint drop_lengths_from (skip : nat) (s : string) : string :=
  match s with
  | EmptyString => EmptyString
  | String c s' =>
      match skip with
      | S n => drop_lengths_from n s'
      | O => if Ascii.eqb c "(" || Ascii.eqb c "," then
               match prefix_length s' with
               | Some (g, n) => String c (g ++ drop_lengths_from n s')
               | None => String c (drop_lengths_from 0 s')
               end
             else String c (drop_lengths_from 0 s')
      end
  end.
Definition drop_lengths (s : string) : string := drop_lengths_from 0 s.

(** create_parser.py lines 68-80 *)
Definition create_parse (s : string) : res (option table * string) :=
  parse_with create_rules create_process (drop_lengths (drop_dashes s)).

(** ** INSERT *)

(** insert_values.py lines 8-20: the values and [has_comma] *)
Definition values_rules : list (rule leaf) :=
  [lit "("; RDel "values" "," squote false; lit ")"; rcomma].
Definition read_value (s : string) : rval :=
  if String.eqb s "NULL" then RNone
  else RStr (replace2 backslash squote "'" (replace2 backslash backslash "\" s)).
Definition values_class : pclass (list rval * bool) :=
  parse_with values_rules (fun v => Ok (map read_value (vlist "values" v), dmem "ending_comma" v)).

(** insert_parser.py lines 6-36 *)
Definition insert_rules : list (rule (list rval * bool)) :=
  [lit "INSERT INTO"; RRe "table" (plus table_char) false; lit "("; RDel "columns" "," bquote false;
   lit ")"; lit "VALUES"; RKids "inserts" [values_class] false; RLit "closing_semicolon" ";" true].

(** insert_parser.py lines 50-61; state: rows, errors, warnings, [had_comma].
    SIMPLIFICATION: the error's text ends in the default [repr] of an object, left out here. *)
Fixpoint take_groups (n : nat) (l : list (list rval * bool)) (had_comma : bool)
  : list (list rval) * list string * list string :=
  match l with
  | [] => ([], [], [])
  | (vals, comma) :: l' =>
      let w := if had_comma then [] else ["Missing comma between insert value groups"] in
      if negb (Nat.eqb n 0) && negb (Nat.eqb (List.length vals) n) then
        let '(rows, errs, warns) := take_groups n l' had_comma in
        (rows, "Insert values has different number of columns and values for" :: errs, w +++ warns)
      else
        let '(rows, errs, warns) := take_groups n l' comma in
        (vals :: rows, errs, w +++ warns)
  end.

(** insert_parser.py lines 38-61 *)
Definition insert_process (v : pvals (list rval * bool)) : rows_def :=
  let columns := vlist "columns" v in
  let '(rows, errs, warns) := take_groups (List.length columns) (vkids "inserts" v) true in
  mkRows (strip_char bquote (vtext "table" v)) rows columns (List.length columns) errs warns.

Definition insert_parse (s : string) : res (option rows_def * string) :=
  parse_with insert_rules (fun v => Ok (insert_process v)) s.
