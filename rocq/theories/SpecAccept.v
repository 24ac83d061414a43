(** When a database is accepted: no error is reported for it. *)
From Verif Require Export SpecValid.

(** An INSERT that names its columns, or one that could not be read and has no rows. *)
Definition listed (r : rows_def) : Prop := r_explicit r <> 0 \/ (r_raw r = [] /\ r_columns r = []).

(** One INSERT: its values fit its own column list, its table exists and has those columns. *)
Definition insert_accepted (ts : tables) (n : string) (r : rows_def) : Prop :=
  r_perrors r = [] /\ exists t, In (n, t) ts /\ forall c, In c (r_columns r) -> In c (dkeys (t_columns t)).

(** A table whose first column of a DATE or TIME type ends the validation (see C35): of the columns
    before it only the parser's messages count, and what follows is never looked at. *)
Definition unseen {FO : FloatOracle} (t : table) : Prop :=
  exists before d after, dvals (t_columns t) = before +++ d :: after
    /\ c_kind d = KDate /\ c_autoinc d <> Some true
    /\ Forall (fun c => checkable c /\ c_kind c <> KDate /\ c_perrors c = []) before.

(** A table whose validation raises: it has a column that cannot be checked, and no DATE or TIME column
    before it. *)
Definition stops {FO : FloatOracle} (t : table) : Prop :=
  exists before d after, dvals (t_columns t) = before +++ d :: after /\ ~ checkable d
    /\ Forall (fun c => checkable c /\ c_kind c <> KDate) before.

(** [ts] are the tables, [rows] the INSERTs by table, [ge] what was reported while reading. *)
Record faultless {FO : FloatOracle} (ts : tables) (rows : dict string (list rows_def)) (ge : list string) : Prop := {
  fl_read : ge = [];
  fl_table : forall n t, In (n, t) ts -> table_sound t /\ parts_read t;
  fl_fk : forall n t kn k, In (n, t) ts -> In (kn, k) (t_constraints t) -> exists ft c fc, fk_satisfied ts t k ft c fc;
  fl_fk_names : NoDup (concat (map (fun p => map (fun q => k_name (snd q)) (t_constraints (snd p))) ts));
  fl_insert : forall n ws r, In (n, ws) rows -> In r ws -> insert_accepted ts n r
}.

(** The same but for tables that are not looked at. *)
Record accepted {FO : FloatOracle} (ts : tables) (rows : dict string (list rows_def)) (ge : list string) : Prop := {
  ac_read : ge = [];
  ac_table : forall n t, In (n, t) ts -> (table_sound t /\ parts_read t) \/ unseen t;
  ac_fk : forall n t kn k, In (n, t) ts -> In (kn, k) (t_constraints t) -> exists ft c fc, fk_satisfied ts t k ft c fc;
  ac_fk_names : NoDup (concat (map (fun p => map (fun q => k_name (snd q)) (t_constraints (snd p))) ts));
  ac_insert : forall n ws r, In (n, ws) rows -> In r ws -> insert_accepted ts n r
}.
