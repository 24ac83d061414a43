(** Specification for the properties on reading back what the tool renders: which definitions are
    plain enough, and what "the same table" means. *)
From Verif Require Export Ops SpecServer.

(** No line comment starts inside the text. *)
Definition dashless (s : string) : Prop := forall a b, s <> a ++ "--" ++ b.

(** A character that needs no quoting rules: no white space, parenthesis, comma or single quote. *)
Definition plain_char (c : ascii) : bool :=
  negb (is_space c || Ascii.eqb c "(" || Ascii.eqb c ")" || Ascii.eqb c "," || Ascii.eqb c squote).
Definition name_ok_char (c : ascii) : bool := plain_char c && negb (Ascii.eqb c bquote).

Definition clean_name (s : string) : Prop := s <> "" /\ sforall name_ok_char s = true /\ dashless s.
Definition clean_text (s : string) : Prop := sforall plain_char s = true /\ dashless s.

(** The types and the class of column each belongs to.  ENUM and SET are not read back (C36), and
    INTEGER, BOOL and BOOLEAN are read as other types (C59). *)
Definition readable_types : list (string * ckind) :=
  map (fun t => (t, KNumeric))
    ["INT"; "SMALLINT"; "TINYINT"; "MEDIUMINT"; "BIGINT"; "DECIMAL"; "NUMERIC"; "FLOAT"; "DOUBLE"; "BIT"]
  +++ map (fun t => (t, KDate)) ["DATE"; "DATETIME"; "TIMESTAMP"; "TIME"; "YEAR"]
  +++ map (fun t => (t, KString))
    ["CHAR"; "VARCHAR"; "BINARY"; "VARBINARY"; "TINYBLOB"; "BLOB"; "MEDIUMBLOB"; "LONGBLOB"; "TINYTEXT";
     "TEXT"; "MEDIUMTEXT"; "LONGTEXT"; "JSON"].

Inductive length_form : Set := NoLength | OneNumber (n : string) | TwoNumbers (n m : string).
Definition digits (s : string) : Prop := s <> "" /\ sforall is_digit s = true.
(** The length as it is rendered. *)
Inductive has_length (l : clength) : length_form -> Prop :=
| has_none : length_shown l = false -> has_length l NoLength
| has_one n : length_shown l = true -> length_str l = n -> digits n -> has_length l (OneNumber n)
| has_two n m : length_shown l = true -> length_str l = n ++ "," ++ m -> digits n -> digits m -> has_length l (TwoNumbers n m).

(** The character set or collation as it is rendered: only string columns have one. *)
Definition shown_text (c : column) (o : option string) : string :=
  match c_kind c, o with
  | KString, Some s => s
  | _, _ => ""
  end.

(** The default is rendered as a number, or as a quoted text that is plain enough. *)
Definition default_ok (d : cdefault) : Prop :=
  match d with
  | DNone => True
  | DInt z => (0 <= z)%Z
  | DStr s => clean_text s
  end.

Record readable_column (c : column) : Prop := {
  rc_name : clean_name (c_name c);
  rc_type : In (c_type c, c_kind c) readable_types;
  rc_values : tru_ol (c_enum_values c) = false;
  rc_length : exists f, has_length (c_length c) f
    /\ (* neither UNSIGNED nor AUTO_INCREMENT together with a character set or collation *)
       (shown_text c (c_charset c) ++ shown_text c (c_collate c) <> "" ->
          tru_ob (c_unsigned c) = false /\ tru_ob (c_autoinc c) = false)
    /\ match f with
       | NoLength => (* a default 'null' is read as no default, unless there is a character set or collation *)
           shown_text c (c_charset c) ++ shown_text c (c_collate c) <> "" \/ forall s, c_default c = DStr s -> lower s <> "null"
       | OneNumber _ => True
       | TwoNumbers _ _ => tru_ob (c_autoinc c) = false /\ shown_text c (c_charset c) ++ shown_text c (c_collate c) = ""
       end;
  rc_default : default_ok (c_default c);
  rc_charset : clean_text (shown_text c (c_charset c));
  rc_collate : clean_text (shown_text c (c_collate c))
}.

(** The columns are rendered with their names; a primary key has no name of its own, a unique key
    may have one, and a plain key has one. *)
Record readable_index (i : index) : Prop := {
  ri_columns : ix_columns i <> [] /\ Forall clean_name (ix_columns i);
  ri_name : match ix_type i with
            | IPrimary => ix_rawname i = ""
            | IUnique => ix_rawname i = "" \/ clean_name (ix_rawname i)
            | IIndex => clean_name (ix_rawname i)
            end
}.

Record readable_fk (k : constraint) : Prop := {
  rk_names : clean_name (k_name k) /\ clean_name (k_column k) /\ clean_name (k_ftable k) /\ clean_name (k_fcolumn k);
  rk_actions : In (k_on_delete k) allowed_actions /\ In (k_on_update k) allowed_actions
}.

(** Option names are words with single spaces between them. *)
Definition option_name_char (c : ascii) : bool :=
  negb (is_space c || Ascii.eqb c "=" || Ascii.eqb c "(" || Ascii.eqb c ",").
Definition option_value_char (c : ascii) : bool :=
  negb (is_space c || Ascii.eqb c ";" || Ascii.eqb c "(" || Ascii.eqb c ",").
Record plain_option (o : toption) : Prop := {
  po_words : exists ws, ws <> [] /\ Forall (fun w => w <> "" /\ sforall option_name_char w = true) ws /\ o_name o = join " " ws;
  po_name : String.length (o_name o) <= 30 /\ dashless (o_name o);
  po_value : o_value o <> "" /\ sforall option_value_char (o_value o) = true /\ dashless (o_value o)
}.
(** The option AUTO_INCREMENT is dropped when it is read. *)
Definition readable_option (o : toption) : Prop := plain_option o /\ o_name o <> "AUTO_INCREMENT".

(** A table whose definitions are all readable.  The parser gives up after a thousand turns. *)
Record readable_table (t : table) : Prop := {
  rt_wf : wf_table t;
  rt_name : clean_name (t_name t);
  rt_columns : Forall readable_column (dvals (t_columns t));
  rt_indexes : Forall readable_index (dvals (t_indexes t));
  rt_fks : Forall readable_fk (dvals (t_constraints t));
  rt_options : Forall readable_option (t_options t);
  rt_some : (0 < N.of_nat (List.length (t_columns t) + List.length (t_indexes t) + List.length (t_constraints t)) < 1000)%N;
  rt_few : (N.of_nat (List.length (t_options t)) < 1000)%N
}.

(** The text of a default; numbers are read as texts. *)
Definition default_text (d : cdefault) : option string :=
  match d with DNone => None | DStr s => Some s | DInt z => Some (str_of_Z z) end.
Definition length_text_of (l : clength) : string := if length_shown l then length_str l else "".
Record alike_column (a b : column) : Prop := {
  sc_name : c_name a = c_name b;
  sc_kind : c_kind a = c_kind b;
  sc_type : c_type a = c_type b;
  sc_length : length_text_of (c_length a) = length_text_of (c_length b);
  sc_null : c_null a = c_null b;
  sc_default : default_text (c_default a) = default_text (c_default b);
  sc_unsigned : tru_ob (c_unsigned a) = tru_ob (c_unsigned b);
  sc_autoinc : tru_ob (c_autoinc a) = tru_ob (c_autoinc b);
  sc_charset : shown_text a (c_charset a) = shown_text b (c_charset b);
  sc_collate : shown_text a (c_collate a) = shown_text b (c_collate b);
  sc_text : column_str a = column_str b
}.
Definition alike_index (a b : index) : Prop :=
  ix_rawname a = ix_rawname b /\ ix_columns a = ix_columns b /\ ix_type a = ix_type b.
Definition alike_fk (a b : constraint) : Prop :=
  k_name a = k_name b /\ k_column a = k_column b /\ k_ftable a = k_ftable b /\ k_fcolumn a = k_fcolumn b
  /\ k_on_delete a = k_on_delete b /\ k_on_update a = k_on_update b.
(** The same entries under the same names in the same order. *)
Definition alike_dict {V} (same : V -> V -> Prop) (a b : dict string V) : Prop :=
  Forall2 (fun p q => fst p = fst q /\ same (snd p) (snd q)) a b.
Record alike_table (a b : table) : Prop := {
  st_name : t_name a = t_name b;
  st_columns : alike_dict alike_column (t_columns a) (t_columns b);
  st_indexes : alike_dict alike_index (t_indexes a) (t_indexes b);
  st_fks : alike_dict alike_fk (t_constraints a) (t_constraints b);
  st_options : t_options a = t_options b
}.

(** ** INSERT statements *)

(** A name between back-quotes. *)
Definition ticked (s : string) : string := String bquote (s ++ String bquote "").

(** Values as they are written: NULL, a word such as a number, and a text between single quotes in
    which backslashes are doubled. *)
Definition word_value_char (c : ascii) : bool :=
  negb (is_space c || Ascii.eqb c "," || Ascii.eqb c ")" || Ascii.eqb c squote || Ascii.eqb c backslash).
Inductive literal : Set := LitNull | LitWord (w : string) | LitText (s : string).
Definition lit_text (v : literal) : string :=
  match v with
  | LitNull => "NULL"
  | LitWord w => w
  | LitText s => String squote (replace1 backslash "\\" s ++ String squote "")
  end.
(** What the tool reads; it does not tell the text NULL from the keyword. *)
Definition lit_value (v : literal) : rval :=
  match v with LitNull => RNone | LitWord w => RStr w | LitText s => if String.eqb s "NULL" then RNone else RStr s end.
Definition literal_ok (v : literal) : Prop :=
  match v with
  | LitNull => True
  | LitWord w => w <> "" /\ w <> "NULL" /\ sforall word_value_char w = true
  | LitText s => has_char squote s = false /\ collapse_ws s = s
  end.

(** A comma, with or without a space. *)
Definition sep_text (sp : bool) : string := if sp then ", " else ",".
Definition group_text (sp : bool) (g : list literal) : string := "(" ++ join (sep_text sp) (map lit_text g) ++ ")".
(** Names of columns between back-quotes may contain anything but back-quotes and irregular white space. *)
Definition column_name_ok (c : string) : Prop := has_char bquote c = false /\ collapse_ws c = c.
Definition table_name_ok (n : string) : Prop := n <> "" /\ sforall name_ok_char n = true.
Definition insert_text (n : string) (cols : list string) (sp gp : bool) (gs : list (list literal)) (e : string) : string :=
  "INSERT INTO " ++ ticked n ++ " (" ++ join (sep_text sp) (map ticked cols) ++ ") VALUES " ++ join (sep_text gp) (map (group_text sp) gs) ++ e.
(** A group of [n] values. *)
Definition group_ok (n : nat) (g : list literal) : Prop := Forall literal_ok g /\ g <> [] /\ List.length g = n.
