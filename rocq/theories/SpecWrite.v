(** Specification: column definitions as people and servers write them, and what they mean. *)
From Verif Require Export SpecRead.

(** Keywords may be written in any letter case. *)
Definition spelled (K k : string) : Prop := lower k = lower K.

Definition quote (s : string) : string := String squote (s ++ String squote "").

(** What may follow the type, with the words as they are written. *)
Inductive item : Set :=
| IUnsigned (k : string) | INull (k : string) | INotNull (k : string)
| IDefault (k s : string) | IQuoted (k s : string) | IAuto (k : string) | ICharset (k s : string) | ICollate (k s : string)
| IPrimaryKey (k : string).
Definition item_text (i : item) : string :=
  match i with
  | IUnsigned k | INull k | INotNull k | IAuto k | IPrimaryKey k => k
  | IDefault k s | ICharset k s | ICollate k s => k ++ " " ++ s
  | IQuoted k s => k ++ " " ++ quote s
  end.
Fixpoint items_text (l : list item) : string :=
  match l with [] => "" | i :: l' => " " ++ item_text i ++ items_text l' end.

(** A value without quotes: a number or a word. *)
Definition bare_word (s : string) : Prop :=
  s <> "" /\ clean_text s /\ match s with String c _ => c <> dquote | EmptyString => True end.

(** Attributes and the ways to write them. *)
Inductive flag (mk : string -> item) (K : string) : bool -> list item -> Prop :=
| flag_no : flag mk K false []
| flag_yes k : spelled K k -> flag mk K true [mk k].
Inductive nullness : bool -> list item -> Prop :=
| null_silent : nullness true []
| null_said k : spelled "NULL" k -> nullness true [INull k]
| null_not k : spelled "NOT NULL" k -> nullness false [INotNull k].
Inductive defaults : option string -> list item -> Prop :=
| default_silent : defaults None []
| default_null k s : spelled "DEFAULT" k -> spelled "NULL" s -> defaults None [IDefault k s]
| default_word k s : spelled "DEFAULT" k -> bare_word s -> lower s <> "null" -> defaults (Some s) [IDefault k s]
| default_quoted k s : spelled "DEFAULT" k -> clean_text s -> defaults (Some s) [IQuoted k s].
Inductive argument (mk : string -> string -> item) (K : string) : string -> list item -> Prop :=
| arg_silent : argument mk K "" []
| arg_word k s : spelled K k -> bare_word s -> argument mk K s [mk k s]
| arg_quoted k s : spelled K k -> s <> "" -> clean_text s -> argument mk K s [mk k (quote s)].

(** The order in which the tool renders the attributes, and the one in which servers report them. *)
Definition arranged (server : bool) (lu ln ld la lcs lco : list item) : list item :=
  if server then lu +++ lcs +++ lco +++ ln +++ ld +++ la else lu +++ ln +++ ld +++ la +++ lcs +++ lco.

(** The name of the type and the length.  INTEGER is INT; BOOL and BOOLEAN are TINYINT(1). *)
Inductive type_word : string -> length_form -> string -> length_form -> Prop :=
| type_same w T f : spelled T w -> type_word w f T f
| type_integer w f : spelled "INTEGER" w -> (forall n m, f <> TwoNumbers n m) -> type_word w f "INT" f
| type_bool w : spelled "BOOL" w \/ spelled "BOOLEAN" w -> type_word w NoLength "TINYINT" (OneNumber "1").
Definition boolean (w : string) : bool := String.eqb (upper w) "BOOL" || String.eqb (upper w) "BOOLEAN".
(** TRUE and FALSE are 1 and 0. *)
Definition default_value (w : string) (d : option string) : option string :=
  match d with
  | Some s => if boolean w && String.eqb (upper s) "TRUE" then Some "1"
              else if boolean w && String.eqb (upper s) "FALSE" then Some "0" else d
  | None => None
  end.

(** What a definition means. *)
Record meaning := mkMeaning {
  m_name : string; m_kind : ckind; m_type : string; m_length : length_form;
  m_unsigned : bool; m_null : bool; m_default : option string; m_auto : bool; m_charset : string; m_collate : string
}.
Record means (c : column) (m : meaning) : Prop := {
  me_name : c_name c = m_name m;
  me_kind : c_kind c = m_kind m;
  me_type : c_type c = m_type m;
  me_length : has_length (c_length c) (m_length m);
  me_unsigned : tru_ob (c_unsigned c) = m_unsigned m;
  me_null : c_null c = m_null m;
  me_default : default_text (c_default c) = m_default m;
  me_auto : tru_ob (c_autoinc c) = m_auto m;
  me_charset : shown_text c (c_charset c) = m_charset m;
  me_collate : shown_text c (c_collate c) = m_collate m;
  me_values : tru_ol (c_enum_values c) = false
}.

(** The text of a definition: the name between back-quotes or not, the type, the length and the
    attributes. *)
Definition length_text (f : length_form) : string :=
  match f with NoLength => "" | OneNumber n => "(" ++ n ++ ")" | TwoNumbers n m => "(" ++ n ++ "," ++ m ++ ")" end.
Definition length_ok (f : length_form) : Prop :=
  match f with NoLength => True | OneNumber n => digits n | TwoNumbers n m => digits n /\ digits m end.
Definition name_text (tick : bool) (n : string) : string := if tick then ticked n else n.
Definition column_definition (tick : bool) (n w : string) (f : length_form) (l : list item) : string :=
  name_text tick n ++ " " ++ w ++ length_text f ++ items_text l.
(** Without back-quotes the name may be none of these words of SQL, and not begin with UNIQUE. *)
Definition key_words : list string := ["KEY"; "INDEX"; "PRIMARY"; "CONSTRAINT"; "FOREIGN"].
Definition name_ok (tick : bool) (n : string) : Prop :=
  clean_name n /\ (tick = false -> ~ In (upper n) key_words /\ prefix "UNIQUE" (upper n) = false).
(** A name that begins with UNIQUE will do for a column with a length and an attribute. *)
Definition nameable (tick : bool) (n : string) (f : length_form) (l : list item) : Prop :=
  clean_name n /\ (tick = false -> ~ In (upper n) key_words /\ (prefix "UNIQUE" (upper n) = true -> f <> NoLength /\ l <> [])).

Inductive written (m : meaning) : string -> Prop :=
| written_as tick w f server lu ln ld la lcs lco d cs co :
    nameable tick (m_name m) f (arranged server lu ln ld la lcs lco) ->
    In (m_type m, m_kind m) readable_types ->
    type_word w f (m_type m) (m_length m) -> length_ok f ->
    flag IUnsigned "UNSIGNED" (m_unsigned m) lu ->
    nullness (m_null m) ln ->
    defaults d ld -> m_default m = default_value w d ->
    flag IAuto "AUTO_INCREMENT" (m_auto m) la ->
    argument ICharset "CHARACTER SET" cs lcs -> m_charset m = upper cs ->
    argument ICollate "COLLATE" co lco -> m_collate m = upper co ->
    (* what the tool does not read *)
    (lcs <> [] \/ lco <> [] -> m_kind m = KString /\ m_unsigned m = false /\ m_auto m = false) ->
    match f with
    | NoLength => lcs = [] -> lco = [] -> forall k s, ld = [IQuoted k s] -> lower s <> "null"
    | OneNumber _ => True
    | TwoNumbers _ _ => m_auto m = false /\ lcs = [] /\ lco = []
    end ->
    written m (column_definition tick (m_name m) w f (arranged server lu ln ld la lcs lco)).

(** The attributes of a column without a character set, in either order. *)
Definition attributes (u n a : bool) (d : option string) (l : list item) : Prop :=
  exists server lu ln ld la, l = arranged server lu ln ld la [] []
    /\ flag IUnsigned "UNSIGNED" u lu /\ nullness n ln /\ defaults d ld /\ flag IAuto "AUTO_INCREMENT" a la.

(** ** Keys and foreign keys *)

(** A name between back-quotes, or bare: letters, digits and underscores, no digit first. *)
Definition ident := (bool * string)%type.
Definition ident_text (x : ident) : string := name_text (fst x) (snd x).
Definition ident_ok (x : ident) : Prop :=
  clean_name (snd x)
  /\ (fst x = false -> sforall is_word (snd x) = true /\ match snd x with String c _ => is_digit c = false | EmptyString => True end).
Definition idents_text (sp : bool) (l : list ident) : string := join (sep_text sp) (map ident_text l).
Definition gap_text (g : bool) : string := if g then " " else "".
(** The columns of a key, with or without a space before the parenthesis and after the commas. *)
Definition key_columns (g sp : bool) (l : list ident) : string := gap_text g ++ "(" ++ idents_text sp l ++ ")".

Definition spelled_in (Ks : list string) (k : string) : Prop := exists K, In K Ks /\ spelled K k.
(** The words before the columns. *)
Inductive named_key (i : index) : itype -> string -> Prop :=
| name_primary w : spelled "PRIMARY KEY" w -> ix_rawname i = "" -> named_key i IPrimary w
| name_none w : spelled_in ["UNIQUE"; "UNIQUE KEY"; "UNIQUE INDEX"] w -> ix_rawname i = "" -> named_key i IUnique w
| name_unique w tick : spelled_in ["UNIQUE KEY"; "UNIQUE INDEX"] w \/ spelled "UNIQUE" w /\ tick = true ->
    ident_ok (tick, ix_rawname i) -> named_key i IUnique (w ++ " " ++ name_text tick (ix_rawname i))
| name_key w tick : spelled_in ["KEY"; "INDEX"] w ->
    ident_ok (tick, ix_rawname i) -> named_key i IIndex (w ++ " " ++ name_text tick (ix_rawname i)).
Inductive key_written (i : index) : string -> Prop :=
| written_key w g sp l :
    ix_columns i = map snd l -> l <> [] -> Forall ident_ok l -> named_key i (ix_type i) w ->
    key_written i (w ++ key_columns g sp l).

(** An action that is left out is RESTRICT. *)
Inductive action_written (K : string) : string -> string -> Prop :=
| action_silent : action_written K "RESTRICT" ""
| action_said x k : In x allowed_actions -> spelled (K ++ " " ++ x) k -> action_written K x (" " ++ k).
Inductive fk_written (k : constraint) : string -> Prop :=
| written_fk k1 k2 k3 tn tc tt tf g a1 a2 :
    spelled "CONSTRAINT" k1 -> spelled "FOREIGN KEY" k2 -> spelled "REFERENCES" k3 ->
    ident_ok (tn, k_name k) -> ident_ok (tc, k_column k) -> ident_ok (tt, k_ftable k) -> ident_ok (tf, k_fcolumn k) ->
    action_written "ON DELETE" (k_on_delete k) a1 -> action_written "ON UPDATE" (k_on_update k) a2 ->
    fk_written k (k1 ++ " " ++ name_text tn (k_name k) ++ " " ++ k2 ++ " (" ++ name_text tc (k_column k) ++ ") " ++ k3 ++ " "
                    ++ name_text tt (k_ftable k) ++ gap_text g ++ "(" ++ name_text tf (k_fcolumn k) ++ ")" ++ a1 ++ a2).

(** ** Tables *)

(** The words before the definitions. *)
Inductive create_head (n : string) : string -> Prop :=
| head_as k j tick : spelled "CREATE TABLE" k -> j = "" \/ (exists q, spelled "IF NOT EXISTS" q /\ j = " " ++ q) -> clean_name n ->
    create_head n (k ++ j ++ " " ++ name_text tick n).

(** What a CREATE TABLE statement says.  Columns, keys and foreign keys may come in any order. *)
Record tmeaning := mkTMeaning {
  tm_name : string; tm_columns : list meaning; tm_keys : list index; tm_fks : list constraint; tm_options : list toption
}.
Inductive part : Type := PartColumn (m : meaning) | PartKey (i : index) | PartFk (k : constraint).
Inductive part_written : part -> string -> Prop :=
| part_column m s : written m s -> part_written (PartColumn m) s
| part_key i s : key_written i s -> part_written (PartKey i) s
| part_fk k s : fk_written k s -> part_written (PartFk k) s.
Definition columns_in (l : list part) : list meaning := concat (map (fun p => match p with PartColumn m => [m] | _ => [] end) l).
Definition keys_in (l : list part) : list index := concat (map (fun p => match p with PartKey i => [i] | _ => [] end) l).
Definition fks_in (l : list part) : list constraint := concat (map (fun p => match p with PartFk k => [k] | _ => [] end) l).

(** A table has at most one primary key and no name twice; a key without a name goes by the names of
    its columns.  The parser gives up after a thousand turns. *)
Record sound_table (T : tmeaning) : Prop := {
  so_columns : NoDup (map m_name (tm_columns T));
  so_keys : NoDup (map ix_name (tm_keys T));
  so_fks : NoDup (map k_name (tm_fks T));
  so_primary : List.length (filter is_primary (tm_keys T)) <= 1;
  so_some : (0 < N.of_nat (List.length (tm_columns T) + List.length (tm_keys T) + List.length (tm_fks T)) < 1000)%N;
  so_few : (N.of_nat (List.length (tm_options T)) < 1000)%N
}.

Definition blank (w : string) : Prop := sforall is_space w = true.
Definition options_written (l : list toption) : string :=
  join "" (map (fun o => " " ++ o_name o ++ "=" ++ o_value o) l).
Inductive create_written (T : tmeaning) (semi : bool) : string -> Prop :=
| create_as h w0 w1 w2 parts ss :
    sound_table T -> create_head (tm_name T) h -> Forall2 part_written parts ss ->
    columns_in parts = tm_columns T -> keys_in parts = tm_keys T -> fks_in parts = tm_fks T ->
    Forall plain_option (tm_options T) -> blank w0 -> blank w1 -> w1 <> "" -> blank w2 ->
    create_written T semi (h ++ " (" ++ w0 ++ join ("," ++ w1) ss ++ w2 ++ ")" ++ options_written (tm_options T) ++ (if semi then ";" else "")).

(** The table that is read.  The option AUTO_INCREMENT, the next number, is dropped. *)
Record table_says (t : table) (T : tmeaning) : Prop := {
  ts_name : t_name t = tm_name T;
  ts_columns : Forall2 (fun m p => fst p = m_name m /\ means (snd p) m) (tm_columns T) (t_columns t);
  ts_keys : Forall2 (fun i p => fst p = ix_name i /\ alike_index i (snd p)) (tm_keys T) (t_indexes t);
  ts_fks : Forall2 (fun k p => fst p = k_name k /\ alike_fk k (snd p)) (tm_fks T) (t_constraints t);
  ts_options : t_options t = filter (fun o => negb (String.eqb (o_name o) "AUTO_INCREMENT")) (tm_options T)
}.

(** ** Layout *)

(** White space and line comments. *)
Inductive layout : string -> Prop :=
| layout_space c : is_space c = true -> layout (String c "")
| layout_comment t : sforall (fun c => negb (Ascii.eqb c "010"%char)) t = true -> layout ("--" ++ t ++ nl)
| layout_more a b : layout a -> layout b -> layout (a ++ b).
(** The same statement with some spaces replaced by other layout. *)
Inductive relaid : string -> string -> Prop :=
| relaid_end : relaid "" ""
| relaid_char c s s' : relaid s s' -> relaid (String c s) (String c s')
| relaid_space c w s s' : c <> "-"%char -> layout w -> relaid s s' -> relaid (String c (String " " s)) (String c (w ++ s')).
(** A source that holds one statement. *)
Definition source_of (T : tmeaning) (semi : bool) (s' : string) : Prop := exists s, create_written T semi s /\ relaid s s'.
