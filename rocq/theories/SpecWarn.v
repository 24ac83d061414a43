(** Which warnings are given for the tables of a database. *)
From Verif Require Export SpecAccept.

(** A column for which an INSERT that leaves it out has no value: not nullable, without default, not
    numbered by the server and not part of the primary key. *)
Definition lacks_default (t : table) (c : column) : Prop :=
  c_null c = false /\ c_default c = DNone /\ c_autoinc c <> Some true
  /\ forall n i, In (n, i) (t_indexes t) -> ix_type i = IPrimary -> ~ In (c_name c) (ix_columns i).

Definition lacks_default_text (t : table) (c : column) : string :=
  "Column " ++ c_name c ++ " does not allow null values and has no default: you should set a default to avoid warnings in table '" ++ t_name t ++ "'".

(** [chosen P f l r]: [r] has [f a] for those [a] of [l] that satisfy [P], in the order of [l]. *)
Inductive chosen {A B} (P : A -> Prop) (f : A -> B) : list A -> list B -> Prop :=
| chosen_nil : chosen P f [] []
| chosen_yes : forall a l r, P a -> chosen P f l r -> chosen P f (a :: l) (f a :: r)
| chosen_no : forall a l r, ~ P a -> chosen P f l r -> chosen P f (a :: l) r.

(** The columns of a table before its first DATE or TIME column [d]: with such a column nothing else of
    the table is looked at (see C35). *)
Definition cut_at (t : table) (before : list column) (d : column) : Prop :=
  Forall (fun c => c_kind c <> KDate) before /\ c_kind d = KDate /\ exists after, dvals (t_columns t) = before +++ d :: after.
Definition dateless (t : table) : Prop := forall n c, In (n, c) (t_columns t) -> c_kind c <> KDate.

(** The warnings [l] about columns of [t] without a default. *)
Definition warned (t : table) (l : list string) : Prop :=
  (dateless t /\ chosen (lacks_default t) (lacks_default_text t) (dvals (t_columns t)) l)
  \/ exists before d, cut_at t before d /\ chosen (lacks_default t) (lacks_default_text t) before l.

(** The warnings [l] that the reader left with the columns and foreign keys of [t]. *)
Definition noted (t : table) (l : list string) : Prop :=
  let said := map (fun m => m ++ " in table '" ++ t_name t ++ "'") in
  (dateless t /\ l = said (concat (map c_pwarnings (dvals (t_columns t))) +++ concat (map k_pwarnings (dvals (t_constraints t)))))
  \/ exists before d, cut_at t before d /\ l = said (concat (map c_pwarnings before)).

(** All warnings of a database: [gw] of the database itself, [ts] its tables, [rows] its INSERTs. *)
Definition all_warnings (ts : tables) (rows : dict string (list rows_def)) (gw l : list string) : Prop :=
  exists reading columns, Forall2 noted (dvals ts) reading /\ Forall2 warned (dvals ts) columns
    /\ l = gw +++ concat reading +++ concat (map (fun p => concat (map r_pwarnings (snd p))) rows) +++ concat columns.
