(** Foreign keys while a plan is executed: what a server demands of them at every moment. *)
From Verif Require Export SpecPlan.

(** ** Names *)

(** Foreign key names are unique in a whole database (MySQL error 1826). *)
Definition names_unique (s : server) : Prop :=
  forall m m' st st' k k', s m = Some st -> s m' = Some st' -> In k (st_fks st) -> In k' (st_fks st') ->
    k_name k = k_name k' -> m = m'.

(** ** Columns and indexes *)

Definition col_there (st : stable) (c : string) : Prop := In c (map c_name (st_cols st)).
(** Some index has the column first. *)
Definition key_leads (st : stable) (c : string) : Prop := exists i, In i (st_keys st) /\ hd_error (ix_columns i) = Some c.

(** Every foreign key has what it needs in its own table, and in the table it refers to if that exists
    (with foreign key checks off it need not). *)
Definition supported (P : stable -> string -> Prop) (s : server) : Prop :=
  forall m st k, s m = Some st -> In k (st_fks st) ->
    P st (k_column k) /\ forall r, s (k_ftable k) = Some r -> P r (k_fcolumn k).

(** The same in a database in which the tables referred to exist. *)
Definition anchored (P : stable -> string -> Prop) (d : tables) : Prop :=
  forall n t k, In (n, t) d -> In k (dvals (t_constraints t)) ->
    P (stable_of t) (k_column k) /\ exists r, In (k_ftable k, r) d /\ P (stable_of r) (k_fcolumn k).

(** [a] is [b] or comes before it. *)
Definition comes_by (l : list string) (a b : string) : Prop :=
  exists l1 l2, l = l1 +++ b :: l2 /\ (a = b \/ In a l1).

(** The source's foreign key [k] of table [m] is on a column that changes its type, and goes with its
    table or comes back under its name or for its reference. *)
Definition comes_back (from to : tables) (m : string) (k : constraint) : Prop :=
  uses_retyped from to m k
  /\ forall t, In (m, t) to -> In (k_name k) (dkeys (t_constraints t)) \/ exists b, In b (dvals (t_constraints t)) /\ same_ref k b.

(** The foreign keys of new tables find what they need in the source. *)
Definition found_before (P : stable -> string -> Prop) (from to : tables) : Prop :=
  forall n t k old, In (n, t) to -> ~ In n (dkeys from) -> In k (dvals (t_constraints t)) ->
    In (k_ftable k, old) from -> P (stable_of old) (k_fcolumn k).
(** A foreign key that needs something the target no longer has in a table that stays is one that comes
    back, or its table stays as well and is not after the other. *)
Definition freed_in_time (P : stable -> string -> Prop) (from to : tables) : Prop :=
  forall m old k r, In (m, old) from -> In k (dvals (t_constraints old)) -> In (k_ftable k) (dkeys from) -> In (k_ftable k, r) to ->
    ~ P (stable_of r) (k_fcolumn k) ->
    comes_back from to m k \/ (In m (dkeys to) /\ comes_by (dkeys from) m (k_ftable k)).

(** Names without back-quotes. *)
Definition tickless (s : string) : Prop := has_char bquote s = false.
Definition legible (d : tables) : Prop :=
  forall n t, In (n, t) d ->
    (forall k, In k (dvals (t_constraints t)) -> tickless (k_column k) /\ tickless (k_ftable k) /\ tickless (k_fcolumn k))
    /\ (forall i, In i (dvals (t_indexes t)) -> ix_columns i <> [] /\ Forall tickless (ix_columns i)).

(** ** Types *)

(** The column has another type in the target, and the tool sees a difference. *)
Definition retyped_seen {FO : FloatOracle} (from to : tables) (tn cn : string) : Prop :=
  exists s t a b, In (tn, s) from /\ In (tn, t) to /\ In (cn, a) (t_columns s) /\ In (cn, b) (t_columns t)
    /\ type_attrs a <> type_attrs b /\ ~ declared_same a b.

(** A name of a new table's foreign key is not in use in the source; a name in use in a table that goes
    away is in use in the target only if its foreign key goes first, because of a type change. *)
Definition names_free (from to : tables) : Prop :=
  (forall n t m old k k', In (n, t) to -> ~ In n (dkeys from) -> In (m, old) from ->
     In k (dvals (t_constraints t)) -> In k' (dvals (t_constraints old)) -> k_name k <> k_name k')
  /\ (forall n t m old k k', In (n, t) to -> In (m, old) from -> ~ In m (dkeys to) ->
     In k (dvals (t_constraints t)) -> In k' (dvals (t_constraints old)) -> k_name k = k_name k' -> uses_retyped from to m k').
