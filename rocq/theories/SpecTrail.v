(** Words after a definition that the tool does not know, as in [KEY k (a) USING BTREE] and
    [p INT(10) ZEROFILL NOT NULL]. *)
From Verif Require Export SpecWrite.

(** The names of types that the tool knows. *)
Definition known_types : list string :=
  ["INTEGER"; "INT"; "SMALLINT"; "TINYINT"; "MEDIUMINT"; "BIGINT"; "DECIMAL"; "NUMERIC"; "FLOAT"; "DOUBLE"; "BIT"; "BOOLEAN"; "BOOL";
   "DATE"; "DATETIME"; "TIMESTAMP"; "TIME"; "YEAR"; "CHAR"; "VARCHAR"; "BINARY"; "VARBINARY"; "TINYBLOB"; "BLOB"; "MEDIUMBLOB"; "LONGBLOB";
   "TINYTEXT"; "TEXT"; "MEDIUMTEXT"; "LONGTEXT"; "JSON"; "ENUM"; "SET"].

(** A word, a second word that is no type, and perhaps a name between parentheses and NULL or NOT NULL. *)
Record stray : Set := mkStray { s_word : string; s_next : string; s_arg : option (bool * ident); s_null : list item }.
Definition arg_text (o : option (bool * ident)) : string :=
  match o with Some (g, x) => gap_text g ++ "(" ++ ident_text x ++ ")" | None => "" end.
Definition stray_text (x : stray) : string := s_word x ++ " " ++ s_next x ++ arg_text (s_arg x) ++ items_text (s_null x).
Record stray_ok (x : stray) : Prop := {
  so_word : name_ok false (s_word x) /\ prefix "CONSTRAINT" (upper (s_word x)) = false;
  so_type : s_next x <> "" /\ sforall is_word (s_next x) = true;
  so_unknown : ~ In (upper (s_next x)) known_types;
  so_arg : forall g i, s_arg x = Some (g, i) -> ident_ok i;
  so_null : exists b, nullness b (s_null x)
}.
(** The first word begins like no attribute. *)
Definition attribute_words : list string := ["UNSIGNED"; "NULL"; "NOT"; "DEFAULT"; "AUTO"; "CHARACTER"; "COLLATE"; "ON"].
Definition no_attribute (x : stray) : Prop := forall K, In K attribute_words -> prefix K (upper (s_word x)) = false.

(** A foreign key with ON UPDATE. *)
Inductive fk_updated (k : constraint) : string -> Prop :=
| updated_fk k1 k2 k3 tn tc tt tf g a1 a :
    spelled "CONSTRAINT" k1 -> spelled "FOREIGN KEY" k2 -> spelled "REFERENCES" k3 ->
    ident_ok (tn, k_name k) -> ident_ok (tc, k_column k) -> ident_ok (tt, k_ftable k) -> ident_ok (tf, k_fcolumn k) ->
    action_written "ON DELETE" (k_on_delete k) a1 -> In (k_on_update k) allowed_actions -> spelled ("ON UPDATE " ++ k_on_update k) a ->
    fk_updated k (k1 ++ " " ++ name_text tn (k_name k) ++ " " ++ k2 ++ " (" ++ name_text tc (k_column k) ++ ") " ++ k3 ++ " "
                    ++ name_text tt (k_ftable k) ++ gap_text g ++ "(" ++ name_text tf (k_fcolumn k) ++ ")" ++ a1 ++ " " ++ a).

(** A definition and the words after it.  After a foreign key with ON UPDATE they may begin with ON DELETE, and after a column
    without length, or with a single number as length, that ends with AUTO_INCREMENT with NOT NULL. *)
Inductive trailed (p : part) : list stray -> string -> Prop :=
| trailed_fresh s x l : part_written p s -> Forall stray_ok (x :: l) -> Forall no_attribute (x :: l) ->
    trailed p (x :: l) (s ++ " " ++ join " " (map stray_text (x :: l)))
| trailed_delete k s u v l : p = PartFk k -> fk_updated k s -> spelled "ON" u -> spelled "DELETE" v -> Forall stray_ok l -> Forall no_attribute l ->
    trailed p (mkStray u v None [] :: l) (s ++ " " ++ join " " (map stray_text (mkStray u v None [] :: l)))
| trailed_null m tick w f lu k s u v l : p = PartColumn m -> s = column_definition tick (m_name m) w f (lu +++ [IAuto k]) -> part_written p s ->
    f = NoLength \/ (exists d, f = OneNumber d /\ digits d) ->
    name_ok tick (m_name m) -> w <> "" /\ sforall is_word w = true -> upper w <> "FOREIGN" ->
    lu = [] \/ (exists y, lu = [IUnsigned y] /\ spelled "UNSIGNED" y) -> spelled "AUTO_INCREMENT" k -> spelled "NOT" u -> spelled "NULL" v ->
    Forall stray_ok l -> Forall no_attribute l ->
    trailed p (mkStray u v None [] :: l) (s ++ " " ++ join " " (map stray_text (mkStray u v None [] :: l))).

(** A CREATE TABLE statement with such a definition among others. *)
Inductive trailed_create (n : string) (before : list part) (p : part) (l : list stray) (after : list part) (opts : list toption) (semi : bool) : string -> Prop :=
| trailed_as h w0 w1 w2 ss s ss' :
    create_head n h -> Forall2 part_written before ss -> trailed p l s -> Forall2 part_written after ss' ->
    Forall plain_option opts -> blank w0 -> blank w1 -> w1 <> "" -> blank w2 ->
    trailed_create n before p l after opts semi
      (h ++ " (" ++ w0 ++ join ("," ++ w1) (ss +++ s :: ss') ++ w2 ++ ")" ++ options_written opts ++ (if semi then ";" else "")).
(** The same in any layout. *)
Definition trailed_source (n : string) (before : list part) (p : part) (l : list stray) (after : list part) (opts : list toption) (semi : bool) (s' : string) : Prop :=
  exists s, trailed_create n before p l after opts semi s /\ relaid s s'.
