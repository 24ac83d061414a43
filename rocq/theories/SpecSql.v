(** How a MySQL server reads the text of a statement: its lexical rules for white space, words,
    string literals (default sql_mode: backslash escapes and doubled quotes) and back-quoted
    identifiers, after the MySQL reference manual, section "Literal values" and "Schema object
    names".  Comments are left out: a '-', '#' or '/' outside quotes is a token of its own. *)
From Verif Require Export Ops.

Inductive tok : Set :=
| TWord (s : string)      (* keyword, unquoted name or number *)
| TText (s : string)      (* string literal, its value *)
| TName (s : string)      (* back-quoted identifier *)
| TPunct (c : ascii).

(** Letters, digits, '_', '$' and bytes above 127. *)
Definition sql_word (c : ascii) : bool :=
  is_word c || Ascii.eqb c "$"%char || N.leb 128 (code c).
Definition sql_space (c : ascii) : bool := in_range 9 13 c || Ascii.eqb c " "%char.
Definition is_textquote (c : ascii) : bool := Ascii.eqb c squote || Ascii.eqb c dquote.

(** The value of backslash followed by [c]. *)
Definition unescape (c : ascii) : string :=
  if Ascii.eqb c "0" then String (ascii_of_N 0) ""
  else if Ascii.eqb c "b" then String (ascii_of_N 8) ""
  else if Ascii.eqb c "n" then String (ascii_of_N 10) ""
  else if Ascii.eqb c "r" then String (ascii_of_N 13) ""
  else if Ascii.eqb c "t" then String (ascii_of_N 9) ""
  else if Ascii.eqb c "Z" then String (ascii_of_N 26) ""
  else if Ascii.eqb c "%" then "\%"
  else if Ascii.eqb c "_" then "\_"
  else String c "".

(** What the reader is in the middle of. *)
Inductive lmode : Set :=
| LStart
| LWord (acc : string)
| LText (q : ascii) (acc : string)     (* inside a literal *)
| LEscape (q : ascii) (acc : string)   (* after a backslash in a literal *)
| LTextEnd (q : ascii) (acc : string)  (* after a quote in a literal: its end unless doubled *)
| LName (acc : string)
| LNameEnd (acc : string).

Definition snoc (s : string) (c : ascii) : string := s ++ String c "".
Definition pre (ts : list tok) (o : option (list tok)) : option (list tok) := option_map (app ts) o.

Fixpoint lex (m : lmode) (s : string) : option (list tok) :=
  match s with
  | EmptyString =>
      match m with
      | LStart => Some []
      | LWord a => Some [TWord a]
      | LTextEnd _ a => Some [TText a]
      | LNameEnd a => Some [TName a]
      | _ => None
      end
  | String c r =>
      let start := if sql_space c then lex LStart r
                   else if sql_word c then lex (LWord (String c "")) r
                   else if is_textquote c then lex (LText c "") r
                   else if Ascii.eqb c bquote then lex (LName "") r
                   else pre [TPunct c] (lex LStart r) in
      match m with
      | LStart => start
      | LWord a => if sql_word c then lex (LWord (snoc a c)) r else pre [TWord a] start
      | LText q a => if Ascii.eqb c q then lex (LTextEnd q a) r
                     else if Ascii.eqb c backslash then lex (LEscape q a) r
                     else lex (LText q (snoc a c)) r
      | LEscape q a => lex (LText q (a ++ unescape c)) r
      | LTextEnd q a => if Ascii.eqb c q then lex (LText q (snoc a c)) r else pre [TText a] start
      | LName a => if Ascii.eqb c bquote then lex (LNameEnd a) r else lex (LName (snoc a c)) r
      | LNameEnd a => if Ascii.eqb c bquote then lex (LName (snoc a c)) r else pre [TName a] start
      end
  end.

(** The tokens of a statement; [None] when a literal or name is left open. *)
Definition tokens (s : string) : option (list tok) := lex LStart s.

(** Comma separated. *)
Fixpoint commas (l : list (list tok)) : list tok :=
  match l with
  | [] => []
  | [x] => x
  | x :: l' => x +++ TPunct "," :: commas l'
  end.
Definition parens (l : list tok) : list tok := TPunct "(" :: l +++ [TPunct ")"].
Definition names (l : list string) : list tok := parens (commas (map (fun n => [TName n]) l)).

(** The literal for a row value. *)
Definition value_tokens (v : rval) : list tok :=
  match v with RNone => [TWord "NULL"] | _ => [TText (rval_str v)] end.

(** ** The statements the definitions stand for *)

(** Text taken over from a definition as it is (a type, a length, a referential action, an option). *)
Definition free (s : string) : list tok := match tokens s with Some ts => ts | None => [] end.
(** It must not contain quotes. *)
Definition plain (s : string) : bool :=
  sforall (fun c => negb (is_textquote c || Ascii.eqb c bquote)) s.
(** A name must not contain a back-quote, a literal neither quote nor backslash. *)
Definition good_name (s : string) : bool := negb (has_char bquote s).
Definition good_text (s : string) : bool := negb (has_char squote s || has_char backslash s).

Definition type_tokens (c : column) : list tok :=
  match c_enum_values c with
  | Some (v :: vs) => free (c_type c) +++ parens (commas (map (fun x => [TText x]) (v :: vs)))
  | _ => if length_shown (c_length c)
         then free (c_type c) +++ parens (free (length_str (c_length c)))
         else free (c_type c)
  end.
Definition default_tokens (d : cdefault) : list tok :=
  match d with
  | DNone => []
  | DInt z => TWord "DEFAULT" :: free (str_of_Z z)
  | DStr s => [TWord "DEFAULT"; if isdigit s then TWord s else TText s]
  end.
Definition labelled (words : list tok) (o : option string) : list tok :=
  match o with Some s => if truthy s then words +++ [TText s] else [] | None => [] end.
Definition column_tokens (c : column) : list tok :=
  [TName (c_name c)] +++ type_tokens c
  +++ (if tru_ob (c_unsigned c) then [TWord "UNSIGNED"] else [])
  +++ (if c_null c then [] else [TWord "NOT"; TWord "NULL"])
  +++ default_tokens (c_default c)
  +++ (if tru_ob (c_autoinc c) then [TWord "AUTO_INCREMENT"] else [])
  +++ (if is_string_kind (c_kind c)
       then labelled [TWord "CHARACTER"; TWord "SET"] (c_charset c) +++ labelled [TWord "COLLATE"] (c_collate c)
       else []).
Definition index_tokens (i : index) : list tok :=
  match ix_type i with IPrimary => [TWord "PRIMARY"] | IUnique => [TWord "UNIQUE"] | IIndex => [] end
  +++ [TWord "KEY"]
  +++ (if truthy (ix_rawname i) then [TName (ix_name i)] else [])
  +++ names (ix_columns i).
Definition constraint_tokens (k : constraint) : list tok :=
  [TWord "CONSTRAINT"; TName (k_name k); TWord "FOREIGN"; TWord "KEY"] +++ names [k_column k]
  +++ [TWord "REFERENCES"; TName (k_ftable k)] +++ names [k_fcolumn k]
  +++ [TWord "ON"; TWord "DELETE"] +++ free (k_on_delete k)
  +++ [TWord "ON"; TWord "UPDATE"] +++ free (k_on_update k).

Definition clause_tokens (o : aop) : list tok :=
  match o with
  | AddColumn c p => TWord "ADD" :: column_tokens c
      +++ match p with PEnd => [] | PFirst => [TWord "FIRST"] | PAfter a => [TWord "AFTER"; TName a] end
  | ChangeColumn c => TWord "CHANGE" :: TName (c_name c) :: column_tokens c
  | RemoveColumn c => [TWord "DROP"; TName (c_name c)]
  | AddKey i => TWord "ADD" :: index_tokens i
  | ChangeKey i => [TWord "DROP"; TWord "KEY"; TName (ix_name i); TPunct ","; TWord "ADD"] +++ index_tokens i
  | RemoveKey i => if is_primary i then [TWord "DROP"; TWord "PRIMARY"; TWord "KEY"]
                   else [TWord "DROP"; TWord "KEY"; TName (ix_name i)]
  | AddConstraint k => TWord "ADD" :: constraint_tokens k
  | ChangeConstraint k =>
      [TWord "DROP"; TWord "FOREIGN"; TWord "KEY"; TName (k_name k); TPunct ","; TWord "ADD"] +++ constraint_tokens k
  | RemoveConstraint k => [TWord "DROP"; TWord "FOREIGN"; TWord "KEY"; TName (k_name k)]
  end.

Definition where_id (v : string) : list tok := [TWord "WHERE"; TWord "id"; TPunct "="; TText v; TPunct ";"].

(** The statement each operation stands for. *)
Definition op_tokens (o : op) : list tok :=
  match o with
  | OCreate t =>
      [TWord "CREATE"; TWord "TABLE"; TName (t_name t)]
      +++ parens (commas (map column_tokens (dvals (t_columns t)) +++ map index_tokens (dvals (t_indexes t))
                          +++ map constraint_tokens (dvals (t_constraints t))))
      +++ concat (map (fun o => free (o_name o) +++ [TPunct "="] +++ free (o_value o)) (t_options t))
      +++ [TPunct ";"]
  | OAlter a => [TWord "ALTER"; TWord "TABLE"; TName (al_table a)] +++ commas (map clause_tokens (al_ops a)) +++ [TPunct ";"]
  | ODropTable n => [TWord "DROP"; TWord "TABLE"; TName n; TPunct ";"]
  | ODisable => [TWord "SET"; TWord "FOREIGN_KEY_CHECKS"; TPunct "="; TWord "0"; TPunct ";"]
  | OEnable => [TWord "SET"; TWord "FOREIGN_KEY_CHECKS"; TPunct "="; TWord "1"; TPunct ";"]
  | ORowInsert t d => [TWord "INSERT"; TWord "INTO"; TName t] +++ names (dkeys d) +++ [TWord "VALUES"]
      +++ parens (commas (map value_tokens (dvals d))) +++ [TPunct ";"]
  | ORowUpdate t d => [TWord "UPDATE"; TName t; TWord "SET"]
      +++ commas (map (fun p => [TName (fst p); TPunct "="] +++ value_tokens (snd p))
            (filter (fun p => negb (String.eqb (fst p) "id")) d))
      +++ where_id (match dget "id" d with Some v => rval_str v | None => "" end)
  | ORowDelete t id => [TWord "DELETE"; TWord "FROM"; TName t] +++ where_id id
  end.

(** What the parts of a definition must look like for its text to have one reading. *)
Definition good_default (d : cdefault) : bool := match d with DStr s => good_text s | _ => true end.
Definition good_otext (o : option string) : bool := match o with Some s => good_text s | None => true end.
Definition good_length (l : clength) : bool := match l with LStr s => plain s | LList _ => false | _ => true end.
Definition good_column (c : column) : bool :=
  good_name (c_name c) && plain (c_type c)
  && match c_enum_values c with Some (v :: vs) => forallb good_text (v :: vs) | _ => good_length (c_length c) end
  && good_default (c_default c) && good_otext (c_charset c) && good_otext (c_collate c).
Definition good_index (i : index) : bool :=
  good_name (ix_name i) && forallb good_name (ix_columns i) && negb (list_is_nil (ix_columns i)).
Definition good_constraint (k : constraint) : bool :=
  good_name (k_name k) && good_name (k_column k) && good_name (k_ftable k) && good_name (k_fcolumn k)
  && plain (k_on_delete k) && plain (k_on_update k).
Definition good_option (o : toption) : bool := plain (o_name o) && plain (o_value o).
Definition good_clause (o : aop) : bool :=
  match o with
  | AddColumn c p => good_column c && match p with PAfter a => good_name a | _ => true end
  | ChangeColumn c | RemoveColumn c => good_column c
  | AddKey i | ChangeKey i | RemoveKey i => good_index i
  | AddConstraint k | ChangeConstraint k | RemoveConstraint k => good_constraint k
  end.
Definition good_op (o : op) : bool :=
  match o with
  | OCreate t => good_name (t_name t) && forallb good_column (dvals (t_columns t))
      && forallb good_index (dvals (t_indexes t)) && forallb good_constraint (dvals (t_constraints t))
      && forallb good_option (t_options t)
  | OAlter a => good_name (al_table a) && forallb good_clause (al_ops a)
  | ODropTable n => good_name n
  | ODisable | OEnable => true
  | ORowInsert t d => good_name t && forallb good_name (dkeys d)
  | ORowUpdate t d => good_name t && forallb good_name (dkeys d)
      && forallb (fun p => negb (has_char squote (rval_str (snd p)))) d
      && match dget "id" d with Some v => good_text (rval_str v) | None => false end
  | ORowDelete t id => good_name t && good_text id
  end.

(** Names and unquoted words. *)
Definition quoted (o : op) : bool :=
  match o with
  | ODropTable _ => false
  | OAlter a => forallb (fun c => match c with RemoveColumn _ => false | _ => true end) (al_ops a)
  | _ => true
  end.

(** The value the literal after DEFAULT denotes, as text. *)
Definition literal_value (l : list tok) : option string :=
  match l with
  | [TText s] => Some s
  | [TWord s] => option_map str_of_Z (py_int s)
  | [TPunct "-"; TWord s] => option_map (fun z => str_of_Z (- z)) (py_int s)
  | _ => None
  end.
