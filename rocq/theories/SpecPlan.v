(** What a plan for a whole database should achieve, and when. *)
From Verif Require Export SpecDiff Mygration.

(** Two foreign keys on the same column with the same reference. *)
Definition same_ref (a b : constraint) : Prop :=
  k_column a = k_column b /\ k_ftable a = k_ftable b /\ k_fcolumn a = k_fcolumn b.

(** ** Column types and foreign keys: MySQL error 3780 *)
Definition type_attrs (c : column) :=
  (c_type c, c_length c, tru_ob (c_unsigned c), c_charset c, c_collate c).

(** Foreign key [k] of table [m] uses column [cn] of table [tn]. *)
Definition fk_uses (m : string) (k : constraint) (tn cn : string) : Prop :=
  (m = tn /\ k_column k = cn) \/ (k_ftable k = tn /\ k_fcolumn k = cn).

(** The column has another type in the target. *)
Definition retyped (from to : tables) (tn cn : string) : Prop :=
  exists s t a b, In (tn, s) from /\ In (tn, t) to /\ In (cn, a) (t_columns s) /\ In (cn, b) (t_columns t)
    /\ type_attrs a <> type_attrs b.

(** A column the foreign key [k] of table [m] uses has another type in the target. *)
Definition uses_retyped (from to : tables) (m : string) (k : constraint) : Prop :=
  exists tn cn, fk_uses m k tn cn /\ retyped from to tn cn.

(** ** When a plan works *)

(** The source foreign key [a], whose name the target does not have, stands for [b], the first of the
    target's with the same reference. *)
Definition stands_for (src tgt : table) (a b : constraint) : Prop :=
  In a (dvals (t_constraints src)) /\ ~ In (k_name a) (dkeys (t_constraints tgt))
  /\ exists l l', dvals (t_constraints tgt) = l +++ b :: l' /\ same_ref a b /\ forall x, In x l -> ~ same_ref a x.

(** If a source foreign key [a] on a column that changes its type stands for the target's [b] under
    another name, a source foreign key [c] that already has [b]'s name is on such a column as well. *)
Definition fk_names_clear (from to : tables) (n : string) (src tgt : table) : Prop :=
  forall a b c, stands_for src tgt a b -> uses_retyped from to n a ->
    In c (dvals (t_constraints src)) -> k_name c = k_name b -> uses_retyped from to n c.

Definition fks_named (t : table) : Prop := forall k, In k (dvals (t_constraints t)) -> k_name k <> "".

(** The hypotheses under which a plan works. *)
Record plannable (from to : tables) : Prop := {
  pl_from : wf_tables from;
  pl_to : wf_tables to;
  pl_named : forall n t, In (n, t) to -> fks_named t;
  pl_primary : forall n s t, In (n, s) from -> In (n, t) to -> primary_kept s t;
  pl_clear : forall n s t, In (n, s) from -> In (n, t) to -> fk_names_clear from to n s t
}.

(** The server has exactly the tables of [to]: new ones exactly as declared, the others realised
    from what they were. *)
Definition reaches {FO : FloatOracle} (from to : tables) (s : server) : Prop :=
  forall n, match dget n to with
            | None => s n = None
            | Some t => match dget n from with
                        | None => s n = Some (stable_of t)
                        | Some old => exists st, s n = Some st /\ realises old t st
                        end
            end.

(** [d] is what the server holds. *)
Definition holds (d : tables) (s : server) : Prop := forall n, server_of d n = s n.

(** Executing [a] in state [s] changes the type of a column in use by a foreign key. *)
Definition hazard (s : server) (a : alter) : Prop :=
  exists c old t m mt k,
    In (ChangeColumn c) (al_ops a) /\ s (al_table a) = Some t /\ In old (st_cols t)
    /\ c_name old = c_name c /\ type_attrs old <> type_attrs c
    /\ s m = Some mt /\ In k (st_fks mt) /\ fk_uses m k (al_table a) (c_name c).

(** ** Foreign keys dropped and added *)
Definition alters_of (tn : string) (ops : list op) : list aop :=
  concat (map (fun o => match o with
                        | OAlter a => if String.eqb (al_table a) tn then al_ops a else []
                        | _ => []
                        end) ops).
(** The foreign keys of table [tn] that [ops] drops, and those it adds, in order. *)
Definition fk_drops (tn : string) (ops : list op) : list constraint :=
  concat (map (fun o => match o with RemoveConstraint k => [k] | _ => [] end) (alters_of tn ops)).
Definition fk_adds (tn : string) (ops : list op) : list constraint :=
  concat (map (fun o => match o with AddConstraint k => [k] | _ => [] end) (alters_of tn ops)).

(** An operation that changes columns or indexes. *)
Definition col_or_key (o : aop) : bool :=
  match o with AddConstraint _ | ChangeConstraint _ | RemoveConstraint _ => false | _ => true end.
Definition changes_shape (o : op) : bool :=
  match o with OAlter a => existsb col_or_key (al_ops a) | _ => false end.

(** Every foreign key of [to] names existing tables and columns. *)
Definition references_ok (to : tables) : Prop :=
  forall n t k, In (n, t) to -> In k (dvals (t_constraints t)) ->
    In (k_column k) (dkeys (t_columns t))
    /\ exists t', In (k_ftable k, t') to /\ In (k_fcolumn k) (dkeys (t_columns t')).

(** The server has table [tn] with column [cn]. *)
Definition has_column (s : server) (tn cn : string) : Prop :=
  exists st, s tn = Some st /\ In cn (map c_name (st_cols st)).

(** Columns the tool declares equivalent have the same type attributes, at least if a foreign key of the
    new tables uses them. *)
Definition fk_columns_settled {FO : FloatOracle} (from to : tables) : Prop :=
  forall n s t cn a b, In (n, s) from -> In (n, t) to -> In (cn, a) (t_columns s) -> In (cn, b) (t_columns t) ->
    declared_same a b -> type_attrs a <> type_attrs b ->
    forall m mt k, In (m, mt) to -> In k (dvals (t_constraints mt)) -> ~ fk_uses m k n cn.

(** Whether an index of a table stands for another one does not depend on a foreign key that goes away. *)
Definition names_settled (from to : tables) : Prop :=
  forall n s t, In (n, s) from -> In (n, t) to -> names_last s t.

(** Foreign keys of a table with the same name and the same text use the same columns. *)
Definition fk_texts_tell (from to : tables) : Prop :=
  forall n s t x a b, In (n, s) from -> In (n, t) to -> In (x, a) (t_constraints s) -> In (x, b) (t_constraints t) ->
    constraint_str a = constraint_str b -> same_ref a b.
