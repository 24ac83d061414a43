(** Specification: what a server reports about tables that were created from files. *)
From Verif Require Export SpecWrite.

(** The display width of these types means nothing and servers may leave it out or add it. *)
Definition integers : list string := ["INT"; "TINYINT"; "SMALLINT"; "MEDIUMINT"; "BIGINT"].
(** Columns of these types have no default. *)
Definition undefaulted : list string :=
  ["TINYBLOB"; "BLOB"; "MEDIUMBLOB"; "LONGBLOB"; "TINYTEXT"; "TEXT"; "MEDIUMTEXT"; "LONGTEXT"; "JSON"].

Section Float.
  Context {FO : FloatOracle}.

  (** Two texts for the same number, as Python's [float] and [round] see them: [d'] is the server's
      and [d] the file's. *)
  Inductive same_amount (m : meaning) : string -> string -> Prop :=
  | amount_equal d d' x x' :
      m_type m <> "DECIMAL" -> float_of_string d = Some x -> float_of_string d' = Some x' -> float_eqb x' x = true -> same_amount m d d'
  | amount_rounded p s n d d' x x' y y' :
      m_type m = "DECIMAL" -> m_length m = TwoNumbers p s -> py_int s = Some n ->
      float_of_string d = Some x -> float_of_string d' = Some x' -> float_round x n = Some y -> float_round x' n = Some y' ->
      float_eqb y' y = true \/ d' = d -> same_amount m d d'
  | amount_whole d : m_type m = "DECIMAL" -> (forall p s, m_length m <> TwoNumbers p s) -> same_amount m d d.

  Definition same_default_as (m : meaning) (d d' : option string) : Prop :=
    match m_kind m with
    | KNumeric => (d = None /\ d' = None) \/ exists x x', d = Some x /\ d' = Some x' /\ same_amount m x x'
    | KString => In (m_type m) undefaulted \/ d' = d
    | _ => d' = d
    end.

  (** The column [m] of a file and the column [m'] that a server reports for it: the same attributes;
      a character set or collation may be given on one side only. *)
  Inductive reported (m : meaning) : meaning -> Prop :=
  | reported_same : reported m m
  | reported_as m' :
      m_name m' = m_name m -> m_kind m' = m_kind m -> m_type m' = m_type m ->
      m_unsigned m' = m_unsigned m -> m_null m' = m_null m -> m_auto m' = m_auto m ->
      m_length m' = m_length m \/ In (m_type m) integers ->
      same_default_as m (m_default m) (m_default m') ->
      m_charset m' = m_charset m \/ m_charset m = "" \/ m_charset m' = "" ->
      m_collate m' = m_collate m \/ m_collate m = "" \/ m_collate m' = "" ->
      reported m m'.
End Float.

(** The same entries, in any order. *)
Definition matched {A} (same : A -> A -> Prop) (l l' : list A) : Prop :=
  (forall x, In x l -> exists y, In y l' /\ same x y) /\ (forall y, In y l' -> exists x, In x l /\ same x y).
(** A key that the file does not name has the name of its first column. *)
Definition same_key (i i' : index) : Prop := ix_name i' = ix_name i /\ ix_columns i' = ix_columns i /\ ix_type i' = ix_type i.
(** The options of the tables do not matter. *)
Record reported_table {FO : FloatOracle} (T T' : tmeaning) : Prop := {
  rp_name : tm_name T' = tm_name T;
  rp_columns : Forall2 reported (tm_columns T) (tm_columns T');
  rp_keys : matched same_key (tm_keys T) (tm_keys T');
  rp_fks : matched alike_fk (tm_fks T) (tm_fks T')
}.

(** Length, character set and collation of the column [c] of the table [n] are reported as they
    are in the files. *)
Definition settled (Ts Ts' : list tmeaning) (n c : string) : Prop :=
  forall T T' m m', In T Ts -> In T' Ts' -> tm_name T = n -> tm_name T' = n ->
    In m (tm_columns T) -> In m' (tm_columns T') -> m_name m = c -> m_name m' = c ->
    m_length m' = m_length m /\ m_charset m' = m_charset m /\ m_collate m' = m_collate m.
Definition settled_fks (Ts Ts' : list tmeaning) : Prop :=
  forall T' k, In T' Ts' -> In k (tm_fks T') -> settled Ts Ts' (tm_name T') (k_column k) /\ settled Ts Ts' (k_ftable k) (k_fcolumn k).

(** ** The text that MySQL's SHOW CREATE TABLE gives *)

(** Defaults are between quotes, except the current time. *)
Definition show_default (m : meaning) : string :=
  match m_default m with
  | Some d => if String.eqb d "CURRENT_TIMESTAMP" then " DEFAULT CURRENT_TIMESTAMP" else " DEFAULT " ++ quote d
  | None => if m_null m && negb (existsb (String.eqb (m_type m)) undefaulted) then " DEFAULT NULL" else ""
  end.
Definition show_column (m : meaning) : string :=
  ticked (m_name m) ++ " " ++ lower (m_type m) ++ length_text (m_length m)
  ++ (if m_unsigned m then " unsigned" else "")
  ++ (if is_empty (m_charset m) then "" else " CHARACTER SET " ++ lower (m_charset m))
  ++ (if is_empty (m_collate m) then "" else " COLLATE " ++ lower (m_collate m))
  ++ (if m_null m then if String.eqb (m_type m) "TIMESTAMP" then " NULL" else "" else " NOT NULL")
  ++ show_default m
  ++ (if m_auto m then " AUTO_INCREMENT" else "").
Definition show_key (i : index) : string :=
  (match ix_type i with IPrimary => "PRIMARY KEY" | IUnique => "UNIQUE KEY " ++ ticked (ix_rawname i) | IIndex => "KEY " ++ ticked (ix_rawname i) end)
  ++ " (" ++ join "," (map ticked (ix_columns i)) ++ ")".
(** An action that was not given when the foreign key was declared is not mentioned. *)
Definition show_action (quiet : bool) (K x : string) : string :=
  if quiet && String.eqb x "RESTRICT" then "" else " " ++ K ++ " " ++ x.
Definition show_fk (quiet : bool * bool) (k : constraint) : string :=
  "CONSTRAINT " ++ ticked (k_name k) ++ " FOREIGN KEY (" ++ ticked (k_column k) ++ ") REFERENCES " ++ ticked (k_ftable k)
  ++ " (" ++ ticked (k_fcolumn k) ++ ")" ++ show_action (fst quiet) "ON DELETE" (k_on_delete k) ++ show_action (snd quiet) "ON UPDATE" (k_on_update k).
(** [quiet] tells, by the names of the foreign keys, whether the actions on delete and on update were
    left out. *)
Definition show_create (quiet : string -> bool * bool) (T : tmeaning) : string :=
  "CREATE TABLE " ++ ticked (tm_name T) ++ " (" ++ nl ++ "  "
  ++ join ("," ++ nl ++ "  ") (map show_column (tm_columns T) +++ map show_key (tm_keys T) +++ map (fun k => show_fk (quiet (k_name k)) k) (tm_fks T))
  ++ nl ++ ")" ++ options_written (tm_options T).

(** The columns, keys and foreign keys that the tool can read from such a text. *)
Record plain_column (m : meaning) : Prop := {
  pl_name : clean_name (m_name m);
  pl_type : In (m_type m, m_kind m) readable_types;
  pl_length : length_ok (m_length m);
  pl_default : match m_default m with Some d => clean_text d | None => True end;
  (* a column without a length whose default is the word null *)
  pl_null : m_length m = NoLength -> m_charset m = "" -> m_collate m = "" -> forall d, m_default m = Some d -> lower d <> "null";
  pl_charset : m_charset m = "" \/ bare_word (lower (m_charset m)) /\ upper (m_charset m) = m_charset m;
  pl_collate : m_collate m = "" \/ bare_word (lower (m_collate m)) /\ upper (m_collate m) = m_collate m;
  pl_string : m_charset m <> "" \/ m_collate m <> "" -> m_kind m = KString /\ m_unsigned m = false /\ m_auto m = false;
  pl_two : forall n k, m_length m = TwoNumbers n k -> m_auto m = false /\ m_charset m = "" /\ m_collate m = ""
}.
Record plain_key (i : index) : Prop := {
  py_columns : ix_columns i <> [] /\ Forall clean_name (ix_columns i);
  py_name : match ix_type i with IPrimary => ix_rawname i = "" | _ => clean_name (ix_rawname i) end
}.
Record plain_fk (k : constraint) : Prop := {
  pf_names : clean_name (k_name k) /\ clean_name (k_column k) /\ clean_name (k_ftable k) /\ clean_name (k_fcolumn k);
  pf_actions : In (k_on_delete k) allowed_actions /\ In (k_on_update k) allowed_actions
}.
Record plain_table (T : tmeaning) : Prop := {
  pt_sound : sound_table T;
  pt_name : clean_name (tm_name T);
  pt_columns : Forall plain_column (tm_columns T);
  pt_keys : Forall plain_key (tm_keys T);
  pt_fks : Forall plain_fk (tm_fks T);
  pt_options : Forall plain_option (tm_options T)
}.
