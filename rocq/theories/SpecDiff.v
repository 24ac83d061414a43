(** What "the server now has the target table" means. *)
From Verif Require Export SpecServer Diff.
From Coq Require Export Permutation.

(** [have] and [want] can be paired off one to one so that each pair is related by [R]. *)
Definition matches {A} (R : A -> A -> Prop) (have want : list A) : Prop :=
  exists l : list (A * A),
    Permutation (map fst l) have /\ Permutation (map snd l) want
    /\ forall a b, In (a, b) l -> R a b.

(** The tool's own notion of equivalent columns: same SQL text, or [a.is_really_the_same_as(b)]. *)
Definition declared_same {FO : FloatOracle} (a b : column) : Prop :=
  column_str a = column_str b \/ really_same a b = Ok true.

(** Column [a] of the server for column [b] of the target: the target's definition itself, or an
    old definition declared equivalent. *)
Definition col_ok {FO : FloatOracle} (old : list column) (a b : column) : Prop :=
  c_name a = c_name b /\ (a = b \/ In a old /\ declared_same a b).

(** The same index apart from its name. *)
Definition same_index (a b : index) : Prop := ix_columns a = ix_columns b /\ ix_type a = ix_type b.

(** Index [a] of the server for index [b] of the target; [fk_names] are names of foreign keys. *)
Definition key_ok (fk_names : list string) (old : list index) (a b : index) : Prop :=
  a = b
  \/ (In a old /\ ix_name a = ix_name b /\ (index_str a = index_str b \/ same_index a b))
  \/ (In a old /\ same_index a b /\ (In (ix_name a) fk_names \/ In (ix_name b) fk_names)).

(** Foreign key [a] of the server for [b] of the target: same name, same SQL text. *)
Definition fk_ok (a b : constraint) : Prop :=
  k_name a = k_name b /\ constraint_str a = constraint_str b.

(** The server's table [st] realises the target [tgt], coming from [src]. *)
Definition realises {FO : FloatOracle} (src tgt : table) (st : stable) : Prop :=
  matches (col_ok (dvals (t_columns src))) (st_cols st) (dvals (t_columns tgt))
  /\ matches (key_ok (map k_name (dvals (t_constraints src) +++ dvals (t_constraints tgt)))
                (dvals (t_indexes src)))
       (st_keys st) (dvals (t_indexes tgt))
  /\ matches fk_ok (st_fks st) (dvals (t_constraints tgt)).

(** An index of both tables that is the PRIMARY KEY in the source is the same PRIMARY KEY in the
    target, at least in its SQL text.  (The tool stores a primary key under the name of its first column.) *)
Definition primary_kept (src tgt : table) : Prop :=
  forall a b, In a (dvals (t_indexes src)) -> In b (dvals (t_indexes tgt)) ->
    ix_name a = ix_name b -> ix_type a = IPrimary -> same_index a b \/ index_str a = index_str b.

(** Two indexes of the same columns and kind, one only in [src] and one only in [tgt].  If the name of one of
    them is the name of a foreign key, the first stands for the second.  [names_last]: this does not
    depend on a foreign key that only [src] has. *)
Definition names_last (src tgt : table) : Prop :=
  forall n a m b, In (n, a) (t_indexes src) -> ~ In n (dkeys (t_indexes tgt)) ->
    In (m, b) (t_indexes tgt) -> ~ In m (dkeys (t_indexes src)) ->
    ix_columns a = ix_columns b -> ix_type a = ix_type b ->
    In n (dkeys (t_constraints src)) \/ In m (dkeys (t_constraints src)) ->
    In n (dkeys (t_constraints tgt)) \/ In m (dkeys (t_constraints tgt)).
(** No two indexes have the same columns and kind. *)
Definition distinct_indexes (t : table) : Prop :=
  forall n a m b, In (n, a) (t_indexes t) -> In (m, b) (t_indexes t) ->
    ix_columns a = ix_columns b -> ix_type a = ix_type b -> n = m.

(** The columns of both tables come in the same order. *)
Definition same_relative_order (src tgt : table) : Prop :=
  filter (fun n => smem n (dkeys (t_columns tgt))) (dkeys (t_columns src))
  = filter (fun n => smem n (dkeys (t_columns src))) (dkeys (t_columns tgt)).
