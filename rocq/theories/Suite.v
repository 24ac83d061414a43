(** What the repository's own tests use of Python, so that they can be transcribed: the files
    Suite*.v replay /repo/mygrations/**/*_test.py on the model.  The code cannot be run here, so
    this is how the model is compared with what its authors observed of it.

    NOT PROOFS OF PROPERTIES: every [Example] in the Suite files is a check on literals.  No theorem
    depends on these files. *)
From Verif Require Export Reader Dotenv.

(** Decimal numbers [m / 10^e] instead of floats, with exact rounding: enough for the values that
    occur in the tests. *)
Definition dec : Type := (Z * nat)%type.
Definition dec_eqb (x y : dec) : bool := Z.eqb (fst x * 10 ^ Z.of_nat (snd y)) (fst y * 10 ^ Z.of_nat (snd x)).
Definition dec_of_string (s : string) : option dec :=
  match split_char "." s with
  | [_] => option_map (fun z => (z, 0)) (py_int s)
  | [a; b] => if sforall is_digit b
              then option_map (fun z => (z, String.length b)) (py_int (a ++ b)) else None
  | _ => None
  end.
Definition dec_round (x : dec) (n : Z) : option dec :=
  let k := Z.to_nat n in
  if Nat.leb (snd x) k then Some x
  else let d := (10 ^ Z.of_nat (snd x - k))%Z in Some (Z.div (2 * fst x + d) (2 * d), k).
#[global] Instance dec_floats : FloatOracle := {|
  float_t := dec;
  float_of_string := dec_of_string;
  float_of_int := fun z => Some (z, 0);
  float_eqb := dec_eqb;
  float_round := dec_round
|}.

(** ** Values *)

Inductive pv : Type :=
| PNone | PBool (b : bool) | PNum (z : Z) | PStr (s : string) | PList (l : list pv)
| PDict (l : list (string * pv))
| PCol (p : pcol) (comma : bool) | PColumn (c : column) | PIndex (i : Index.index) (comma : bool)
| PFk (k : constraint) (comma : bool) | POption (o : toption)
| PInsert (vals : list rval) (comma : bool)
| PTable (t : table) (semi : bool) | PRows (r : rows_def) (semi : bool) | PReader (r : reader)
| PDb (b : database) (conn : pv) | PConn (tables rows : pv)
| PPlan (errors : pv) (ops : option (list op)) | POp (o : op)
| PParser (cls : string) (matched : bool) (obj : pv) (rest : string)
| PRaise (e : exn)
| PBad (why : string).

Definition p_strs (l : list string) : pv := PList (map PStr l).
Definition p_opt (o : option string) : pv := match o with Some s => PStr s | None => PNone end.
Definition p_obool (o : option bool) : pv := match o with Some b => PBool b | None => PNone end.
Definition p_res {A} (f : A -> pv) (r : res A) : pv := match r with Ok a => f a | Raise e => PRaise e end.
Definition p_rval (v : rval) : pv :=
  match v with RNone => PNone | RStr s => PStr s | RInt z => PNum z | ROther _ _ t => PStr t end.
Definition p_row (r : row) : pv := PDict (map (fun p => (fst p, p_rval (snd p))) r).
Definition p_length (l : clength) : pv :=
  match l with LNone => PNone | LStr s => PStr s | LInt z => PNum z | LList l => p_strs l end.
Definition p_default (d : cdefault) : pv :=
  match d with DNone => PNone | DStr s => PStr s | DInt z => PNum z end.

(** [==] on plain values; anything else is not equal *)
Fixpoint p_eq (a b : pv) : bool :=
  match a, b with
  | PNone, PNone => true
  | PBool x, PBool y => Bool.eqb x y
  | PNum x, PNum y => Z.eqb x y
  | PStr x, PStr y => String.eqb x y
  | PList x, PList y =>
      (fix go (x y : list pv) : bool :=
         match x, y with
         | [], [] => true
         | u :: x', v :: y' => p_eq u v && go x' y'
         | _, _ => false
         end) x y
  | PDict x, PDict y =>
      (fix go (x y : list (string * pv)) : bool :=
         match x, y with
         | [], [] => true
         | (k, u) :: x', (k', v) :: y' => String.eqb k k' && p_eq u v && go x' y'
         | _, _ => false
         end) x y
  | POption x, POption y => String.eqb (o_name x) (o_name y) && String.eqb (o_value x) (o_value y)
  | PIndex x _, PIndex y _ => String.eqb (index_str x) (index_str y)
  | _, _ => false
  end.

(** Truth values; [None] for what should not be asked *)
Definition p_truth (v : pv) : option bool :=
  match v with
  | PNone => Some false
  | PBool b => Some b
  | PNum z => Some (negb (Z.eqb z 0))
  | PStr s => Some (truthy s)
  | PList l => Some (negb (list_is_nil l))
  | PDict l => Some (negb (list_is_nil l))
  | _ => None
  end.
Definition is_true (v : pv) : bool := match p_truth v with Some true => true | _ => false end.
Definition is_false (v : pv) : bool := match p_truth v with Some false => true | _ => false end.

(** ** Parsers *)

Definition run_class {A} (cls : string) (rules : list (rule leaf)) (process : pvals leaf -> A)
  (wrap : A -> bool -> pv) (s : string) : pv :=
  match parse_with rules (fun v => Ok (wrap (process v) (dmem "ending_comma" v))) s with
  | Ok (Some o, rest) => PParser cls true o rest
  | Ok (None, rest) => PParser cls false PNone rest
  | Raise e => PRaise e
  end.
Definition run_create (s : string) : pv :=
  match parse_with create_rules
          (fun v => let* t := create_process v in Ok (PTable t (dmem "closing_semicolon" v)))
          (drop_lengths (drop_dashes s)) with
  | Ok (Some o, rest) => PParser "CreateParser" true o rest
  | Ok (None, rest) => PParser "CreateParser" false PNone rest
  | Raise e => PRaise e
  end.
Definition run_insert (s : string) : pv :=
  match parse_with insert_rules (fun v => Ok (PRows (insert_process v) (dmem "closing_semicolon" v))) s with
  | Ok (Some o, rest) => PParser "InsertParser" true o rest
  | Ok (None, rest) => PParser "InsertParser" false PNone rest
  | Raise e => PRaise e
  end.
Definition run_values (s : string) : pv :=
  match values_class s with
  | Ok (Some (v, c), rest) => PParser "InsertValues" true (PInsert v c) rest
  | Ok (None, rest) => PParser "InsertValues" false PNone rest
  | Raise e => PRaise e
  end.
Definition run_reader (s : string) : pv :=
  match read_sql "" s with
  | (r, Ok rest) => PParser "Reader" (rd_matched r) (PReader r) rest
  | (_, Raise e) => PRaise e
  end.

(** [parser.parse(s)] *)
Definition p_parse (parser s : pv) : pv :=
  match parser, s with
  | PParser cls _ _ _, PStr s =>
      if String.eqb cls "ConstraintForeign" then run_class cls foreign_rules foreign_process PFk s
      else if String.eqb cls "IndexKey" then run_class cls key_rules key_process PIndex s
      else if String.eqb cls "IndexPrimary" then run_class cls primary_rules primary_process PIndex s
      else if String.eqb cls "IndexUnique" then run_class cls unique_rules unique_process PIndex s
      else if String.eqb cls "TypeCharacter" then run_class cls character_rules character_process PCol s
      else if String.eqb cls "TypeNumeric" then run_class cls numeric_rules numeric_process PCol s
      else if String.eqb cls "TypeDecimal" then run_class cls decimal_rules decimal_process PCol s
      else if String.eqb cls "TypeEnum" then run_class cls enum_rules enum_process PCol s
      else if String.eqb cls "TypePlain" then run_class cls plain_rules plain_process PCol s
      else if String.eqb cls "TypeText" then run_class cls text_rules text_process PCol s
      else if String.eqb cls "TypeDateTime" then run_class cls datetime_rules datetime_process PCol s
      else if String.eqb cls "TableOption" then run_class cls option_rules option_process (fun o _ => POption o) s
      else if String.eqb cls "InsertValues" then run_values s
      else if String.eqb cls "CreateParser" then run_create s
      else if String.eqb cls "InsertParser" then run_insert s
      else if String.eqb cls "Reader" then run_reader s
      else PBad "parse"
  | _, _ => PBad "parse"
  end.
(** what that call returned *)
Definition p_returned (parser : pv) : pv :=
  match parser with PParser _ _ _ rest => PStr rest | PRaise e => PRaise e | _ => PBad "returned" end.

(** ** Attributes *)

Definition p_checked (c : checked) : pv := match c with (l, None) => p_strs l | (_, Some e) => PRaise e end.
Definition p_table_errs (t : table) (pick : terrs -> list string) : pv :=
  let r := find_all_errors t in
  match te_exn r with None => p_strs (pick r) | Some e => PRaise e end.

Definition attr_col (p : pcol) (n : string) : pv :=
  if String.eqb n "_name" then PStr (p_name p)
  else if String.eqb n "_column_type" then PStr (p_type p)
  else if String.eqb n "_length" then match Parsers.p_length p with LStr s => PStr s | LList l => p_strs l | LNone => PNone | LInt z => PNum z end
  else if String.eqb n "_enum_values" then match Parsers.p_length p with LList l => p_strs l | _ => PNone end
  else if String.eqb n "_null" then PBool (p_null p)
  else if String.eqb n "_default" then p_opt (Parsers.p_default p)
  else if String.eqb n "_unsigned" then p_obool (p_unsigned p)
  else if String.eqb n "_auto_increment" then p_obool (p_auto p)
  else if String.eqb n "_character_set" then p_opt (p_charset p)
  else if String.eqb n "_collate" then p_opt (p_collate p)
  else if String.eqb n "_is_primary_key" then PBool (p_primary p)
  else if String.eqb n "_parsing_errors" then PList []
  else if String.eqb n "_parsing_warnings" then p_strs (p_warnings p)
  else PBad n.
Definition attr_column (c : column) (n : string) : pv :=
  if String.eqb n "name" then PStr (c_name c)
  else if String.eqb n "column_type" then PStr (c_type c)
  else if String.eqb n "length" then p_length (c_length c)
  else if String.eqb n "unsigned" then p_obool (c_unsigned c)
  else if String.eqb n "schema_errors" then p_checked (column_checked c)
  else if String.eqb n "schema_warnings" then p_strs (col_warnings c)
  else PBad n.
Definition attr_index (i : Index.index) (n : string) : pv :=
  if String.eqb n "name" then PStr (ix_name i)
  else if String.eqb n "columns" then p_strs (ix_columns i)
  else if String.eqb n "index_type" then PStr (itype_str (ix_type i))
  else if String.eqb n "schema_errors" then p_strs (index_errors i)
  else if String.eqb n "schema_warnings" then PList []
  else if String.eqb n "parsing_errors" then p_strs (ix_perrors i)
  else if String.eqb n "parsing_warnings" then PList []
  else PBad n.
Definition attr_fk (k : constraint) (n : string) : pv :=
  if String.eqb n "name" then PStr (k_name k)
  else if String.eqb n "column_name" then PStr (k_column k)
  else if String.eqb n "foreign_table_name" then PStr (k_ftable k)
  else if String.eqb n "foreign_column_name" then PStr (k_fcolumn k)
  else if String.eqb n "on_delete" then PStr (k_on_delete k)
  else if String.eqb n "on_update" then PStr (k_on_update k)
  else if String.eqb n "schema_errors" then p_strs (constraint_errors k)
  else if String.eqb n "schema_warnings" then PList []
  else PBad n.
Definition attr_table (t : table) (semi : bool) (n : string) : pv :=
  if String.eqb n "name" then PStr (t_name t)
  else if String.eqb n "columns" then PDict (map (fun p => (fst p, PColumn (snd p))) (t_columns t))
  else if String.eqb n "indexes" then PDict (map (fun p => (fst p, PIndex (snd p) false)) (t_indexes t))
  else if String.eqb n "constraints" then PDict (map (fun p => (fst p, PFk (snd p) false)) (t_constraints t))
  else if String.eqb n "options" then PList (map POption (t_options t))
  else if String.eqb n "primary" then match t_primary t with Some i => PIndex i false | None => PNone end
  else if String.eqb n "rows" then
    match t_rows t with Some d => PDict (map (fun p => (fst p, p_row (snd p))) d) | None => PNone end
  else if String.eqb n "semicolon" then PBool semi
  else if String.eqb n "schema_errors" then p_table_errs t te_schema
  else if String.eqb n "schema_warnings" then p_table_errs t te_swarnings
  else PBad n.
Definition attr_rows (r : rows_def) (semi : bool) (n : string) : pv :=
  if String.eqb n "table" then PStr (r_table r)
  else if String.eqb n "columns" then p_strs (r_columns r)
  else if String.eqb n "raw_rows" then PList (map (fun l => PList (map p_rval l)) (r_raw r))
  else if String.eqb n "has_semicolon" then PBool semi
  else if String.eqb n "parsing_errors" then p_strs (r_perrors r)
  else if String.eqb n "parsing_warnings" then p_strs (r_pwarnings r)
  else PBad n.
Definition attr_reader (r : reader) (n : string) : pv :=
  if String.eqb n "tables" then PDict (map (fun p => (fst p, PTable (snd p) false)) (rd_tables r))
  else if String.eqb n "rows" then
    PDict (map (fun p => (fst p, PList (map (fun w => PRows w false) (snd p)))) (rd_rows r))
  else if String.eqb n "global_errors" then p_strs (rd_errors r)
  (* reader.py lines 12-15: never filled *)
  else if existsb (String.eqb n) ["parsing_errors"; "parsing_warnings"; "schema_errors"; "schema_warnings"] then PList []
  else PBad n.
Definition attr_db (b : database) (n : string) : pv :=
  if String.eqb n "tables" then PDict (map (fun p => (fst p, PTable (snd p) false)) (db_tables b))
  else if String.eqb n "errors" then p_res p_strs (snd (db_errors b))
  else PBad n.

Fixpoint p_attr (n : string) (o : pv) : pv :=
  match o with
  | PParser cls m obj _ =>
      if String.eqb n "matched" then PBool m
      else p_attr n obj
  | PCol p comma => if String.eqb n "has_comma" then PBool comma else attr_col p n
  | PColumn c => attr_column c n
  | PIndex i comma => if String.eqb n "has_comma" then PBool comma else attr_index i n
  | PFk k comma => if String.eqb n "has_comma" then PBool comma else attr_fk k n
  | POption o => if String.eqb n "name" then PStr (o_name o)
                 else if String.eqb n "value" then PStr (o_value o) else PBad n
  | PInsert v comma => if String.eqb n "has_comma" then PBool comma
                       else if String.eqb n "values" then PList (map p_rval v) else PBad n
  | PTable t semi => attr_table t semi n
  | PRows r semi => attr_rows r semi n
  | PReader r => attr_reader r n
  | PDb b _ => attr_db b n
  | PPlan errs ops =>
      if String.eqb n "errors" then errs
      else if String.eqb n "operations" then
        match ops with Some l => PList (map POp l) | None => PNone end
      else PBad n
  | PRaise e => PRaise e
  | _ => PBad n
  end.

(** ** Operators and builtins *)

Definition p_cat (l : list pv) : pv :=
  PStr (String.concat "" (map (fun v => match v with PStr s => s | PNum z => str_of_Z z | _ => "?" end) l)).
Definition p_concat (a b : pv) : pv :=
  match a, b with
  | PList x, PList y => PList (x +++ y)
  | PStr x, PStr y => PStr (x ++ y)
  | _, _ => PBad "+"
  end.
Definition p_in (a b : pv) : pv :=
  match a, b with
  | PStr x, PStr y => PBool (scontains x y)
  | PStr x, PDict d => PBool (existsb (fun p => String.eqb x (fst p)) d)
  | _, PList l => PBool (existsb (p_eq a) l)
  | _, _ => PBad "in"
  end.
Definition p_not (a : pv) : pv := match a with PBool b => PBool (negb b) | _ => PBad "not" end.
Definition p_or (a b : pv) : pv := match a, b with PBool x, PBool y => PBool (x || y) | _, _ => PBad "or" end.
Definition p_len (a : pv) : pv :=
  match a with
  | PList l => PNum (Z.of_nat (List.length l))
  | PDict l => PNum (Z.of_nat (List.length l))
  | PStr s => PNum (Z.of_nat (String.length s))
  | PPlan _ (Some l) => PNum (Z.of_nat (List.length l))
  | _ => PBad "len"
  end.
Definition p_index (a i : pv) : pv :=
  match a, i with
  | PList l, PNum z =>
      let z := if Z.ltb z 0 then (z + Z.of_nat (List.length l))%Z else z in
      nth (Z.to_nat z) l (PBad "index")
  | PDict d, PStr k => match find (fun p => String.eqb k (fst p)) d with Some p => snd p | None => PBad "key" end
  | _, _ => PBad "[]"
  end.
Fixpoint p_str (a : pv) : pv :=
  match a with
  | PStr s => PStr s
  | PColumn c => PStr (column_str c)
  | PIndex i _ => PStr (index_str i)
  | PFk k _ => PStr (constraint_str k)
  | PTable t _ => PStr (create_str false t)
  | POp o => PStr (op_str o)
  | PParser _ _ obj _ => p_str obj
  | _ => PBad "str"
  end.
(** iterating *)
Definition p_items (a : pv) : list pv :=
  match a with
  | PList l => l
  | PDict d => map (fun p => PStr (fst p)) d
  | PPlan _ (Some l) => map POp l
  | _ => [PBad "iter"]
  end.
Definition p_comp (f : pv -> pv) (cond : pv -> pv) (a : pv) : pv :=
  PList (map f (filter (fun x => is_true (cond x)) (p_items a))).
Fixpoint number (n : nat) (l : list pv) : list pv :=
  match l with [] => [] | x :: l' => PList [PNum (Z.of_nat n); x] :: number (S n) l' end.
Definition p_enumerate (a : pv) : pv := PList (number 0 (p_items a)).
Definition p_any (f : pv -> pv) (a : pv) : pv := PBool (existsb (fun x => is_true (f x)) (p_items a)).
Definition p_num (a : pv) : Z := match a with PNum z => z | _ => 0%Z end.
Definition p_sum (a : pv) : pv := PNum (fold_left (fun m x => (m + p_num x)%Z) (p_items a) 0%Z).
Definition p_extreme (pick : Z -> Z -> Z) (a : pv) : pv :=
  match a with
  | PList (PNum z :: l) => PNum (fold_left (fun m x => pick m (p_num x)) l z)
  | _ => PBad "max"
  end.
Definition p_max (a : pv) : pv := p_extreme Z.max a.
Definition p_min (a : pv) : pv := p_extreme Z.min a.
Definition p_lt (a b : pv) : pv := match a, b with PNum x, PNum y => PBool (Z.ltb x y) | _, _ => PBad "<" end.
Definition p_dict (l : list (pv * pv)) : pv :=
  PDict (concat (map (fun p => match fst p with PStr s => [(s, snd p)] | _ => [] end) l)).
Definition put_item (d : list (string * pv)) (p : string * pv) : list (string * pv) :=
  if existsb (fun q => String.eqb (fst p) (fst q)) d
  then map (fun q => if String.eqb (fst p) (fst q) then p else q) d else d +++ [p].
Definition p_merge (l : list pv) : pv :=
  PDict (fold_left (fun d v => match v with PDict e => fold_left put_item e d | _ => d end) l []).

(** ** Constructors *)

Definition kw (names : list string) (args : list pv) (kwargs : pv) (n : string) : option pv :=
  match find (fun p => String.eqb n (fst p)) (List.combine names args) with
  | Some p => Some (snd p)
  | None => match kwargs with
            | PDict d => option_map snd (find (fun p => String.eqb n (fst p)) d)
            | _ => None
            end
  end.
Definition a_str (o : option pv) : string := match o with Some (PStr s) => s | _ => "" end.
Definition a_ostr (o : option pv) : option string := match o with Some (PStr s) => Some s | _ => None end.
Definition a_bool (dflt : bool) (o : option pv) : bool := match o with Some (PBool b) => b | _ => dflt end.
Definition a_obool (dflt : option bool) (o : option pv) : option bool :=
  match o with Some (PBool b) => Some b | _ => dflt end.
Definition a_strs (o : option pv) : list string :=
  match o with
  | Some (PList l) => concat (map (fun v => match v with PStr s => [s] | _ => [] end) l)
  | _ => []
  end.

(** column.py lines 22-52 *)
Definition new_column (k : ckind) (args : list pv) (kwargs : pv) : pv :=
  let g := kw ["name"; "column_type"] args kwargs in
  PColumn (mkColumn k (a_str (g "name")) (a_str (g "column_type"))
    (match g "length" with Some (PStr s) => LStr s | Some (PNum z) => LInt z | _ => LNone end)
    (a_bool true (g "null")) (a_bool false (g "has_default"))
    (match g "default" with Some (PStr s) => DStr s | Some (PNum z) => DInt z | _ => DNone end)
    (a_obool None (g "unsigned")) (a_ostr (g "character_set")) (a_ostr (g "collate"))
    (a_obool (Some false) (g "auto_increment"))
    (match g "enum_values" with Some v => Some (a_strs (Some v)) | None => None end) [] []).
(** index.py lines 23-38 *)
Definition new_index (args : list pv) (kwargs : pv) : pv :=
  let g := kw ["name"; "columns"; "index_type"] args kwargs in
  let mk t := PIndex (mkIndex (a_str (g "name")) (a_strs (g "columns")) t []) false in
  match g "index_type" with
  | None => mk IIndex
  | Some (PStr s) => if String.eqb (upper s) "PRIMARY" then mk IPrimary
                     else if String.eqb (upper s) "UNIQUE" then mk IUnique
                     else if String.eqb (upper s) "INDEX" then mk IIndex
                     else PBad "index_type"
  | _ => PBad "index_type"
  end.
Definition new_fk (args : list pv) (kwargs : pv) : pv :=
  let g := kw ["name"; "column_name"; "foreign_table_name"; "foreign_column_name"; "on_delete"; "on_update"] args kwargs in
  PFk (new_constraint (a_str (g "name")) (a_str (g "column_name")) (a_str (g "foreign_table_name"))
         (a_str (g "foreign_column_name")) (a_str (g "on_delete")) (a_str (g "on_update"))) false.
Definition a_list {A} (f : pv -> list A) (v : pv) : list A :=
  match v with PList l => concat (map f l) | _ => [] end.
Definition new_ptable (args : list pv) : pv :=
  match args with
  | [PStr n; cols; ixs; ks; os] =>
      match new_table n (a_list (fun v => match v with PColumn c => [c] | _ => [] end) cols)
              (a_list (fun v => match v with PIndex i _ => [i] | _ => [] end) ixs)
              (a_list (fun v => match v with PFk k _ => [k] | _ => [] end) ks)
              (a_list (fun v => match v with POption o => [o] | _ => [] end) os) with
      | (t, None) => PTable t false
      | (_, Some e) => PRaise e
      end
  | _ => PBad "Table"
  end.

(** [file_reader.database.Database(strings)] *)
Definition new_filedb (v : pv) : pv :=
  p_res (fun b => PDb b PNone)
    (file_database (match v with
                    | PStr s => [("", s)]
                    | PList l => concat (map (fun x => match x with PStr s => [("", s)] | _ => [] end) l)
                    | _ => []
                    end)).
(** [db_reader.database.Database(PyMySQL(connection=DbStructure(tables, rows)))]; the tests name
    their tables in order *)
Definition new_livedb (v : pv) : pv :=
  match v with
  | PConn (PDict ts) rows =>
      p_res (fun b => PDb b rows)
        (live_database (concat (map (fun p => match snd p with PStr s => [s] | _ => [] end) ts)))
  | _ => PBad "live"
  end.

Definition db_arg (v : option pv) : option tables :=
  match v with Some (PDb b _) => Some (db_tables b) | _ => None end.
Definition new_plan (args : list pv) : pv :=
  match args with
  | PDb to _ :: rest =>
      match mygration true to (db_arg (nth_error rest 0)) with
      | (_, Ok ops) => PPlan (attr_db to "errors") ops
      | (_, Raise e) => PRaise e
      end
  | _ => PBad "Mygration"
  end.
Definition new_rowplan (args : list pv) : pv :=
  match args with
  | PDb to _ :: rest =>
      match plan_rows (db_tables to) (db_arg (nth_error rest 0)) with
      | Ok ops => PPlan PNone (Some ops)
      | Raise e => PRaise e
      end
  | _ => PBad "RowMygration"
  end.

Definition p_new (cls : string) (args : list pv) (kwargs : pv) : pv :=
  if String.eqb cls "Column" then new_column KBase args kwargs
  else if String.eqb cls "Numeric" then new_column KNumeric args kwargs
  else if String.eqb cls "String" then new_column KString args kwargs
  else if String.eqb cls "Enum" then new_column KEnum args kwargs
  else if String.eqb cls "Index" then new_index args kwargs
  else if String.eqb cls "Constraint" then new_fk args kwargs
  else if String.eqb cls "Option" then
    match args with [PStr n; PStr v] => POption (mkOption n v) | _ => PBad cls end
  else if String.eqb cls "Table" then new_ptable args
  else if String.eqb cls "FileDatabase" then match args with [v] => new_filedb v | _ => PBad cls end
  else if String.eqb cls "LiveDatabase" then match args with [v] => new_livedb v | _ => PBad cls end
  else if String.eqb cls "DbStructure" then match args with [a; b] => PConn a b | _ => PBad cls end
  else if String.eqb cls "PyMySQL" then match kw [] args kwargs "connection" with Some v => v | None => PBad cls end
  else if String.eqb cls "Mygration" then new_plan args
  else if String.eqb cls "RowMygration" then new_rowplan args
  else PParser cls false PNone "".

(** ** Methods *)

Fixpoint p_obj (v : pv) : pv := match v with PParser _ _ o _ => p_obj o | _ => v end.
Definition p_args (args : list pv) : list pv := map p_obj args.

Definition p_position (v : option pv) : position :=
  match v with Some (PBool true) => PFirst | Some (PStr s) => PAfter s | _ => PEnd end.

(** The rows of a table on the mock server *)
Definition conn_rows (conn : pv) (n : string) : list row :=
  match p_index conn (PStr n) with
  | PList l => concat (map (fun v => match v with
                                     | PDict d => [map (fun p => (fst p, match snd p with
                                                                         | PStr s => RStr s
                                                                         | PNum z => RInt z
                                                                         | PNone => RNone
                                                                         | _ => ROther "" "" "?" end)) d]
                                     | _ => [] end) l)
  | _ => []
  end.

(** A method called for what it returns *)
Definition p_method (m : string) (o : pv) (args : list pv) : pv :=
  match p_obj o, p_args args with
  | PTable a _, [PTable b _] =>
      if String.eqb m "to" then p_res (fun l => PList (map (fun x => POp (OAlter x)) l)) (diff a b) else PBad m
  | PTable a _, [PTable b _; PBool true] =>
      if String.eqb m "to" then
        let item k o := map (fun x => (k, POp (OAlter x))) (opt_list o) in
        p_res (fun d => PDict (item "removed_fks" (sp_removed_fks d) +++ item "fks" (sp_fks d)
                               +++ item "kitchen_sink" (sp_kitchen d))) (diff_split a b)
      else PBad m
  | PTable t _, [PStr n] =>
      if String.eqb m "column_is_indexed" then p_res PBool (snd (column_is_indexed t n))
      else if String.eqb m "column_before" then
        p_res (fun p => match p with PEnd => PBool false | PFirst => PBool true | PAfter a => PStr a end)
          (column_before t n)
      else PBad m
  | PDb b _, [PTable t _] =>
      if String.eqb m "unfulfilled_fks" then
        p_res (fun l => PDict (map (fun p => (fst p, PDict [("error", PStr (fst (snd p)));
                                                            ("foreign_key", PFk (snd (snd p)) false)])) l))
          (unfulfilled_fks (db_tables b) t)
      else PBad m
  | PColumn a, [PColumn b] =>
      if String.eqb m "is_really_the_same_as" then p_res PBool (really_same a b) else PBad m
  | PStr s, [PStr a; PStr b] =>
      if String.eqb m "replace" then
        match a with String c EmptyString => PStr (replace1 c b s) | _ => PBad m end else PBad m
  | PStr s, [PList l] =>
      if String.eqb m "join" then
        PStr (join s (map (fun v => match v with PStr x => x | _ => "?" end) l)) else PBad m
  | PDict d, [] => if String.eqb m "values" then PList (map snd d) else PBad m
  | _, _ => PBad m
  end.

Definition p_muted (semi : bool) (x : mut table) : pv :=
  match x with (t, None) => PTable t semi | (_, Some e) => PRaise e end.
(** A method called for what it does: the object afterwards, or the exception *)
Definition p_mut (m : string) (o : pv) (args : list pv) : pv :=
  match p_obj o, p_args args with
  | PTable t semi, PColumn c :: rest =>
      if String.eqb m "add_column" then p_muted semi (add_column t c (p_position (nth_error rest 0)))
      else if String.eqb m "change_column" then p_muted semi (change_column t c) else PBad m
  | PTable t semi, [PIndex i _] =>
      if String.eqb m "add_index" then p_muted semi (add_index t i)
      else if String.eqb m "change_index" then p_muted semi (change_index t i) else PBad m
  | PTable t semi, [PFk k _] =>
      if String.eqb m "add_constraint" then p_muted semi (add_constraint t k)
      else if String.eqb m "change_constraint" then p_muted semi (change_constraint t k) else PBad m
  | PTable t semi, [PStr n] =>
      if String.eqb m "remove_column" then p_muted semi (remove_column t n)
      else if String.eqb m "remove_index" then p_muted semi (remove_index t n)
      else if String.eqb m "remove_constraint" then p_muted semi (remove_constraint t n) else PBad m
  | PDb b conn, [PStr n] =>
      if String.eqb m "read_rows" then
        match dget n (d_tables b) with
        | None => PRaise (ValueError "Cannot read rows")
        | Some x => match read_raw_rows (to_table x) (conn_rows conn n) with
                    | (t, None) => PDb (set_tables b (dset n (with_table x (mark_tracking_rows t)) (d_tables b))) conn
                    | (_, Some e) => PRaise e
                    end
        end
      else PBad m
  | _, _ => PBad m
  end.
(** [table.column_is_indexed(n)] fills a set that later calls update *)
Definition p_ask_indexed (o n : pv) : pv :=
  match p_obj o, n with
  | PTable t semi, PStr n => PTable (fst (column_is_indexed t n)) semi
  | _, _ => PBad "column_is_indexed"
  end.

Definition p_raised (name : string) (v : pv) : bool :=
  match v with
  | PRaise (ValueError _) => String.eqb name "ValueError"
  | PRaise (SyntaxError _) => String.eqb name "SyntaxError"
  | PRaise (DotEnvSyntaxError _) => String.eqb name "DotEnvSyntaxError"
  | _ => false
  end.

(** [dotenv().parse(text)] and [dotenv().parse_line(line, comment)], on texts that are no JSON *)
Definition p_dotenv (m : string) (args : list pv) : pv :=
  match args with
  | [PStr line; PStr comment] =>
      if String.eqb m "parse_line" then
        p_res (fun r => match r with Some (k, v) => p_strs [k; v] | None => PList [PBool false; PBool false] end)
          (parse_line comment line)
      else PBad m
  | [PStr text] =>
      if String.eqb m "parse" then
        p_res (fun d => PDict (map (fun p => (fst p, match snd p with CStr s => PStr s | _ => PBad "" end)) d))
          (parse_text (fun _ => None) "#" text)
      else PBad m
  | _ => PBad m
  end.

(** The numbers of the assertions that fail *)
Fixpoint failing_from (n : nat) (l : list bool) : list nat :=
  match l with [] => [] | b :: l' => (if b then [] else [n]) +++ failing_from (S n) l' end.
Definition failing (l : list bool) : list nat := failing_from 1 l.
