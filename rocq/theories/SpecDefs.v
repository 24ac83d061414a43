(** What the definitions between the parentheses of a CREATE TABLE make, in the order in which they are
    written: which of them count, and what is said about the others. *)
From Verif Require Export Reader.

(** The parts of a definition.  An unnamed foreign key gets a name made of the table's, its column's
    and the other table's, cut to 64 characters. *)
Definition fk_called (tname : string) (bare : bool) (k : constraint) : constraint :=
  if bare
  then mkConstraint (substring 0 64 (tname ++ "_" ++ k_column k ++ "_" ++ k_ftable k ++ "_fk")) (k_column k) (k_ftable k) (k_fcolumn k)
         (k_on_delete k) (k_on_update k) (k_perrors k) (k_pwarnings k)
  else k.
(** The column that a definition describes, if its type is one of those known. *)
Definition column_meant (p : pcol) (c : column) : Prop :=
  exists kind, dget (upper (p_type p)) type_map = Some kind
    /\ c = mkColumn kind (p_name p) (upper (p_type p)) (p_length p) (p_null p) (p_has_default p)
             (match p_default p with Some s => DStr s | None => DNone end)
             (p_unsigned p) (p_charset p) (p_collate p) (p_auto p) None [] (p_warnings p).

(** What comes of the definitions, one after the other: each gives at most one thing, depending on the
    ones before it. *)
Inductive yields {A} (R : list def -> def -> A -> Prop) : list def -> list def -> list A -> Prop :=
| yields_nil before : yields R before [] []
| yields_skip before d l L : (forall a, ~ R before d a) -> yields R (before +++ [d]) l L -> yields R before (d :: l) L
| yields_take before d l a L : R before d a -> yields R (before +++ [d]) l L -> yields R before (d :: l) (a :: L).

Section Defs.
  (** The table's name and all its definitions. *)
  Variable tname : string.
  Variable all : list def.

  Definition column_named (before : list def) (n : string) : Prop := exists q, In (DefCol q) before /\ p_name q = n.
  Definition fk_named (before : list def) (n : string) : Prop :=
    exists bare k, In (DefFk bare k) before /\ k_name (fk_called tname bare k) = n.
  (** Some key of the definitions has the column, in any place. *)
  Definition in_some_key (c : string) : Prop := exists j, In (DefIndex j) all /\ In c (ix_columns j).

  (** The name of an index is in use: by a key (a primary key goes under its first column's name), by a
      column that is declared the primary key, or by an index made for an unnamed foreign key. *)
  Definition key_named (before : list def) (n : string) : Prop :=
    (exists i, In (DefIndex i) before /\ ix_name i = n)
    \/ (exists l p l', before = l +++ DefCol p :: l' /\ p_primary p = true /\ ~ column_named l (p_name p) /\ p_name p = n)
    \/ (exists l k l', before = l +++ DefFk true k :: l' /\ ~ fk_named l (k_name (fk_called tname true k))
                       /\ ~ in_some_key (k_column k) /\ k_column k = n).

  Inductive gives_column (before : list def) : def -> column -> Prop :=
  | gives_col p c : ~ column_named before (p_name p) -> column_meant p c -> gives_column before (DefCol p) c.
  Inductive gives_fk (before : list def) : def -> constraint -> Prop :=
  | gives_foreign bare k : ~ fk_named before (k_name (fk_called tname bare k)) -> gives_fk before (DefFk bare k) (fk_called tname bare k).
  Inductive gives_key (before : list def) : def -> index -> Prop :=
  | gives_declared i : ~ key_named before (ix_name i) -> gives_key before (DefIndex i) i
  | gives_primary p : ~ column_named before (p_name p) -> p_primary p = true ->
      gives_key before (DefCol p) (mkIndex "" [p_name p] IPrimary [])
  | gives_made k : ~ fk_named before (k_name (fk_called tname true k)) -> ~ key_named before (k_column k) -> ~ in_some_key (k_column k) ->
      gives_key before (DefFk true k) (mkIndex (k_column k) [k_column k] IIndex []).
  Inductive gives_message (before : list def) : def -> string -> Prop :=
  | gives_two_columns p : column_named before (p_name p) ->
      gives_message before (DefCol p) ("Table '" ++ tname ++ "' has two columns named '" ++ p_name p ++ "'")
  | gives_two_keys i : key_named before (ix_name i) ->
      gives_message before (DefIndex i) ("Table '" ++ tname ++ "' has two indexes named '" ++ ix_name i ++ "'")
  | gives_two_fks bare k : fk_named before (k_name (fk_called tname bare k)) ->
      gives_message before (DefFk bare k) ("Table '" ++ tname ++ "' has two constraints named '" ++ k_name (fk_called tname bare k) ++ "'").

  (** A definition at which reading fails: the type is not known, or a primary key or unnamed key comes after
      a key that has the name under which it would go. *)
  Inductive fails (before : list def) : def -> Prop :=
  | fails_type p : ~ column_named before (p_name p) -> (forall c, ~ column_meant p c) -> fails before (DefCol p)
  | fails_primary p : ~ column_named before (p_name p) -> p_primary p = true -> key_named before (p_name p) -> fails before (DefCol p)
  | fails_key i : ix_rawname i = "" -> key_named before (ix_name i) -> fails before (DefIndex i)
  | fails_option o : fails before (DefOption o).
End Defs.

(** The table made of definitions. *)
Record made (tname : string) (defs : list def) (t : table) : Prop := {
  made_name : t_name t = tname;
  made_columns : exists C, yields gives_column [] defs C /\ t_columns t = map (fun c => (c_name c, c)) C;
  made_keys : exists K, yields (gives_key tname defs) [] defs K /\ t_indexes t = map (fun i => (ix_name i, i)) K;
  made_fks : exists F, yields (gives_fk tname) [] defs F /\ t_constraints t = map (fun k => (k_name k, k)) F
}.
