(** What the statements of a plan do to a database server: an executor for DDL, written from the
    MySQL manual and independent of the planner's own functions.  It uses the data types of
    definitions and operations only.

    Structure only: no rows, no locking.  Identifiers are compared as they are written.  An ALTER
    TABLE is atomic; as in MySQL, within one ALTER the drops and changes of existing columns happen
    before new columns are placed, and index drops before index additions; a foreign key cannot be
    dropped and added under the same name in one ALTER. *)
From Verif Require Import Ops.

Record stable := mkStable {
  st_cols : list column;         (* in table order *)
  st_keys : list index;
  st_fks : list constraint
}.

(** A server maps table names to tables. *)
Definition server := string -> option stable.
Definition empty_server : server := fun _ => None.
Definition supd (s : server) (n : string) (v : option stable) : server :=
  fun m => if String.eqb m n then v else s m.

(** How MySQL identifies an index: the primary key has no name of its own. *)
Inductive key_id : Set := KPrimary | KNamed (n : string).
Definition id_of_key (i : index) : key_id :=
  match ix_type i with IPrimary => KPrimary | _ => KNamed (ix_name i) end.
Definition key_id_eqb (a b : key_id) : bool :=
  match a, b with
  | KPrimary, KPrimary => true
  | KNamed x, KNamed y => String.eqb x y
  | _, _ => false
  end.

Section Generic.
  (** A list of things with identities. *)
  Context {A I : Type} (id : A -> I) (eqb : I -> I -> bool).
  Definition has_id (i : I) (l : list A) : bool := existsb (fun a => eqb i (id a)) l.
  Definition drop_id (i : I) (l : list A) : option (list A) :=
    if has_id i l then Some (filter (fun a => negb (eqb i (id a))) l) else None.
  Definition put_end (a : A) (l : list A) : option (list A) :=
    if has_id (id a) l then None else Some (l +++ [a]).
  Definition replace_id (a : A) (l : list A) : option (list A) :=
    if has_id (id a) l
    then Some (map (fun x => if eqb (id a) (id x) then a else x) l) else None.
  Fixpoint put_after (anchor : I) (a : A) (l : list A) : option (list A) :=
    match l with
    | [] => None
    | x :: l' => if eqb anchor (id x) then Some (x :: a :: l')
                 else option_map (cons x) (put_after anchor a l')
    end.
End Generic.

Notation has_col := (has_id c_name String.eqb).
Notation has_key := (has_id id_of_key key_id_eqb).
Notation has_fk := (has_id k_name String.eqb).

(** Run the clauses one after the other; [None] is an error. *)
Fixpoint run_all {S O} (f : S -> O -> option S) (l : list O) (s : S) : option S :=
  match l with
  | [] => Some s
  | o :: l' => match f s o with Some s' => run_all f l' s' | None => None end
  end.

(** First pass over the columns: CHANGE and DROP of existing columns. *)
Definition col_pass1 (l : list column) (o : aop) : option (list column) :=
  match o with
  | ChangeColumn c => replace_id c_name String.eqb c l
  | RemoveColumn c => drop_id c_name String.eqb (c_name c) l
  | _ => Some l
  end.
(** Second pass: ADD. *)
Definition col_pass2 (l : list column) (o : aop) : option (list column) :=
  match o with
  | AddColumn c p =>
      if has_col (c_name c) l then None
      else match p with
           | PEnd => Some (l +++ [c])
           | PFirst => Some (c :: l)
           | PAfter a => put_after c_name String.eqb a c l
           end
  | _ => Some l
  end.
Definition exec_cols (ops : list aop) (l : list column) : option (list column) :=
  match run_all col_pass1 ops l with
  | Some l' => run_all col_pass2 ops l'
  | None => None
  end.

(** Indexes: DROP PRIMARY KEY, DROP KEY name; then ADD. [ChangeKey] is rendered as
    DROP KEY `name`, ADD ... (change_key.py line 15). *)
Definition key_pass1 (l : list index) (o : aop) : option (list index) :=
  match o with
  | RemoveKey i => drop_id id_of_key key_id_eqb (id_of_key i) l
  | ChangeKey i => drop_id id_of_key key_id_eqb (KNamed (ix_name i)) l
  | _ => Some l
  end.
Definition key_pass2 (l : list index) (o : aop) : option (list index) :=
  match o with
  | AddKey i | ChangeKey i => put_end id_of_key key_id_eqb i l
  | _ => Some l
  end.
Definition exec_keys (ops : list aop) (l : list index) : option (list index) :=
  match run_all key_pass1 ops l with
  | Some l' => run_all key_pass2 ops l'
  | None => None
  end.

(** Foreign keys: a name added by the ALTER must be unused before it. *)
Definition fk_drop (l : list constraint) (o : aop) : option (list constraint) :=
  match o with
  | RemoveConstraint k | ChangeConstraint k => drop_id k_name String.eqb (k_name k) l
  | _ => Some l
  end.
Definition fk_add (before : list constraint) (l : list constraint) (o : aop)
  : option (list constraint) :=
  match o with
  | AddConstraint k | ChangeConstraint k =>
      if has_fk (k_name k) before then None else put_end k_name String.eqb k l
  | _ => Some l
  end.
Definition exec_fks (ops : list aop) (l : list constraint) : option (list constraint) :=
  match run_all fk_drop ops l with
  | Some l' => run_all (fk_add l) ops l'
  | None => None
  end.

Definition exec_alter (ops : list aop) (t : stable) : option stable :=
  match exec_cols ops (st_cols t), exec_keys ops (st_keys t), exec_fks ops (st_fks t) with
  | Some c, Some k, Some f => Some (mkStable c k f)
  | _, _, _ => None
  end.

(** Several ALTERs of the same table, one after the other. *)
Definition exec_alters (l : list alter) (t : stable) : option stable :=
  run_all (fun t a => exec_alter (al_ops a) t) l t.

(** The table that a CREATE TABLE statement describes: definitions are added one by one. *)
Definition exec_create (cols : list column) (keys : list index) (fks : list constraint)
  : option stable :=
  match run_all (fun l c => put_end c_name String.eqb c l) cols [],
        run_all (fun l i => put_end id_of_key key_id_eqb i l) keys [],
        run_all (fun l k => put_end k_name String.eqb k l) fks [] with
  | Some c, Some k, Some f => Some (mkStable c k f)
  | _, _, _ => None
  end.

(** One statement. *)
Definition exec (s : server) (o : op) : option server :=
  match o with
  | OCreate t =>
      match s (t_name t) with
      | Some _ => None
      | None => match exec_create (dvals (t_columns t)) (dvals (t_indexes t)) (dvals (t_constraints t)) with
                | Some st => Some (supd s (t_name t) (Some st))
                | None => None
                end
      end
  | OAlter a =>
      match s (al_table a) with
      | None => None
      | Some t => match exec_alter (al_ops a) t with
                  | Some t' => Some (supd s (al_table a) (Some t'))
                  | None => None
                  end
      end
  | ODropTable n => match s n with None => None | Some _ => Some (supd s n None) end
  | ODisable | OEnable | ORowInsert _ _ | ORowUpdate _ _ | ORowDelete _ _ => Some s
  end.

Definition exec_all (ops : list op) (s : server) : option server := run_all exec ops s.

(** A definition as the server holds it. *)
Definition stable_of (t : table) : stable :=
  mkStable (dvals (t_columns t)) (dvals (t_indexes t)) (dvals (t_constraints t)).
Definition server_of (d : dict string table) : server :=
  fun n => option_map stable_of (dget n d).

(** ** Well-formed definitions *)

(** Entries are stored under their own names, each name once (what the constructors and parsers
    build), and a table has at most one primary key. *)
Record wf_table (t : table) : Prop := {
  wf_cols : NoDup (dkeys (t_columns t));
  wf_cols_named : forall n c, In (n, c) (t_columns t) -> c_name c = n;
  wf_keys : NoDup (dkeys (t_indexes t));
  wf_keys_named : forall n i, In (n, i) (t_indexes t) -> ix_name i = n;
  wf_fks : NoDup (dkeys (t_constraints t));
  wf_fks_named : forall n k, In (n, k) (t_constraints t) -> k_name k = n;
  wf_primary : List.length (filter is_primary (dvals (t_indexes t))) <= 1
}.

Record wf_tables (d : dict string table) : Prop := {
  wf_names : NoDup (dkeys d);
  wf_named : forall n t, In (n, t) d -> t_name t = n /\ wf_table t
}.
