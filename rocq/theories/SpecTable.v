(** What the calls that change a table should do, for the statements about table objects. *)
From Verif Require Export SpecServer SpecDiff SpecValid.

(** ** Ordered maps *)

(** [d'] is [d] with the new entry at the asked position. *)
Inductive placed {V} : position -> string -> V -> dict string V -> dict string V -> Prop :=
| placed_end k v d : placed PEnd k v d (d +++ [(k, v)])
| placed_blank k v d : placed (PAfter "") k v d (d +++ [(k, v)])
| placed_first k v d : placed PFirst k v d ((k, v) :: d)
| placed_after a x k v d1 d2 : a <> "" ->
    placed (PAfter a) k v (d1 +++ (a, x) :: d2) (d1 +++ (a, x) :: (k, v) :: d2).

(** [d'] is [d] with another value for [k], in the same place. *)
Definition replaced {V} (k : string) (v : V) (d d' : dict string V) : Prop :=
  exists d1 old d2, d = d1 +++ (k, old) :: d2 /\ d' = d1 +++ (k, v) :: d2.
(** [d'] is [d] without [k]. *)
Definition removed {V} (k : string) (d d' : dict string V) : Prop :=
  exists d1 old d2, d = d1 +++ (k, old) :: d2 /\ d' = d1 +++ d2.

(** ** Calls on a table *)

Inductive call : Type :=
| CAddColumn (c : column) (p : position) | CRemoveColumn (name : string) | CChangeColumn (c : column)
| CAddIndex (i : index) | CRemoveIndex (name : string) | CChangeIndex (i : index)
| CAddConstraint (k : constraint) | CRemoveConstraint (name : string) | CChangeConstraint (k : constraint)
| CAsk (column_name : string).      (* column_is_indexed *)

Definition perform (t : table) (c : call) : mut table :=
  match c with
  | CAddColumn c p => add_column t c p
  | CRemoveColumn n => remove_column t n
  | CChangeColumn c => change_column t c
  | CAddIndex i => add_index t i
  | CRemoveIndex n => remove_index t n
  | CChangeIndex i => change_index t i
  | CAddConstraint k => add_constraint t k
  | CRemoveConstraint n => remove_constraint t n
  | CChangeConstraint k => change_constraint t k
  | CAsk n => (fst (column_is_indexed t n),
               match snd (column_is_indexed t n) with Ok _ => None | Raise e => Some e end)
  end.
(** The state after a list of calls, each of which may have raised. *)
Definition performed (t : table) (l : list call) : table := fold_left (fun t c => fst (perform t c)) l t.

(** The call makes sense. *)
Definition legal (t : table) (c : call) : Prop :=
  match c with
  | CAddColumn c p => ~ In (c_name c) (dkeys (t_columns t))
      /\ match p with PAfter a => a = "" \/ In a (dkeys (t_columns t)) | _ => True end
  | CRemoveColumn n => In n (dkeys (t_columns t))
  | CChangeColumn c => In (c_name c) (dkeys (t_columns t))
  | CAddIndex i => ~ In (ix_name i) (dkeys (t_indexes t))
  | CRemoveIndex n => In n (dkeys (t_indexes t))
  | CChangeIndex i => In (ix_name i) (dkeys (t_indexes t))
  | CAddConstraint k => ~ In (k_name k) (dkeys (t_constraints t))
  | CRemoveConstraint n => In n (dkeys (t_constraints t))
  | CChangeConstraint k => In (k_name k) (dkeys (t_constraints t))
  | CAsk _ => True
  end.

(** What else a table holds. *)
Definition rest_of (t : table) :=
  (t_name t, t_options t, t_rows t, t_tracking t, t_global_errors t, t_global_warnings t).

(** What the call is documented to do. *)
Definition effect (t : table) (c : call) (t' : table) : Prop :=
  rest_of t' = rest_of t
  /\ match c with
     | CAddColumn c p => placed p (c_name c) c (t_columns t) (t_columns t')
     | CRemoveColumn n => removed n (t_columns t) (t_columns t')
     | CChangeColumn c => replaced (c_name c) c (t_columns t) (t_columns t')
     | _ => t_columns t' = t_columns t
     end
  /\ match c with
     | CAddIndex i => placed PEnd (ix_name i) i (t_indexes t) (t_indexes t')
     | CRemoveIndex n => removed n (t_indexes t) (t_indexes t')
     | CChangeIndex i => replaced (ix_name i) i (t_indexes t) (t_indexes t')
     | _ => t_indexes t' = t_indexes t
     end
  /\ match c with
     | CAddConstraint k => placed PEnd (k_name k) k (t_constraints t) (t_constraints t')
     | CRemoveConstraint n => removed n (t_constraints t) (t_constraints t')
     | CChangeConstraint k => replaced (k_name k) k (t_constraints t) (t_constraints t')
     | _ => t_constraints t' = t_constraints t
     end.

(** The names within a table are distinct. *)
Definition distinct (t : table) : Prop :=
  NoDup (dkeys (t_columns t)) /\ NoDup (dkeys (t_indexes t)) /\ NoDup (dkeys (t_constraints t)).

(** Every index has a column. *)
Definition with_cols (t : table) : Prop := forall n i, In (n, i) (t_indexes t) -> ix_columns i <> [].
Definition brings_columns (c : call) : Prop :=
  match c with CAddIndex i | CChangeIndex i => ix_columns i <> [] | _ => True end.

(** A column is asked to come first only in a table read from CREATE TABLE (or otherwise ordered). *)
Definition first_allowed (t : table) (c : call) : Prop :=
  match c with CAddColumn _ PFirst => t_ordered t = true | _ => True end.

(** ** Indexed columns *)

(** Index [n] is the only one that starts with its first column. *)
Definition alone (t : table) (n : string) : Prop :=
  forall i m j, In (n, i) (t_indexes t) -> In (m, j) (t_indexes t) -> m <> n ->
    hd_error (ix_columns i) <> hd_error (ix_columns j).
Definition lonely (t : table) (c : call) : Prop :=
  match c with
  | CRemoveIndex n => alone t n
  | CChangeIndex i => alone t (ix_name i)
  | _ => True
  end.

(** [P] holds before each call. *)
Fixpoint always (P : table -> call -> Prop) (t : table) (l : list call) : Prop :=
  match l with
  | [] => True
  | c :: l' => P t c /\ always P (fst (perform t c)) l'
  end.

(** ** The primary key *)

(** The primary key is neither removed nor replaced, and no second one is added. *)
Definition primary_safe (t : table) (c : call) : Prop :=
  match c with
  | CAddIndex i => ix_type i = IPrimary -> forall n j, In (n, j) (t_indexes t) -> ix_type j <> IPrimary
  | CRemoveIndex n => forall i, In (n, i) (t_indexes t) -> ix_type i <> IPrimary
  | CChangeIndex i => ix_type i <> IPrimary
      /\ forall j, In (ix_name i, j) (t_indexes t) -> ix_type j <> IPrimary
  | _ => True
  end.

(** The table's PRIMARY index. *)
Definition primary_is (t : table) (p : option index) : Prop :=
  match p with
  | Some i => exists n, In (n, i) (t_indexes t) /\ ix_type i = IPrimary
      /\ forall m j, In (m, j) (t_indexes t) -> ix_type j = IPrimary -> j = i
  | None => forall m j, In (m, j) (t_indexes t) -> ix_type j <> IPrimary
  end.

(** ** Applying the clauses of an ALTER TABLE to a table object *)

Definition apply_seq (t : table) (l : list aop) : mut table :=
  fold_left (fun m o => then_mut m (fun t => apply_aop t o)) l (t, None).
Definition key_clause (o : aop) : bool :=
  match o with AddKey _ | ChangeKey _ | RemoveKey _ => true | _ => false end.

(** The columns of [t] are those of [tgt], up to definitions of [src] declared equivalent. *)
Definition columns_of {FO : FloatOracle} (src tgt t : table) : Prop :=
  (forall n, In n (dkeys (t_columns t)) <-> In n (dkeys (t_columns tgt)))
  /\ forall n a b, In (n, a) (t_columns t) -> In (n, b) (t_columns tgt) ->
       a = b \/ In (n, a) (t_columns src) /\ declared_same a b.
(** The foreign keys of [t] are those of [tgt], with the same text. *)
Definition constraints_of (tgt t : table) : Prop :=
  (forall n, In n (dkeys (t_constraints t)) <-> In n (dkeys (t_constraints tgt)))
  /\ forall n a b, In (n, a) (t_constraints t) -> In (n, b) (t_constraints tgt) ->
       constraint_str a = constraint_str b.
