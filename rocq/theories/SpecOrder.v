(** Sources that have nothing to do with each other. *)
From Verif Require Export Reader.

(** What the reader makes of a source. *)
Definition reader_of (src : source) : reader := fst (read_sql (fst src) (snd src)).
Definition defines (src : source) (n : string) : Prop := In n (dkeys (rd_tables (reader_of src))).
Definition inserts_into (src : source) (n : string) : Prop := In n (dkeys (rd_rows (reader_of src))).

(** No table is defined by both, and no table gets rows from both. *)
Definition apart (s s' : source) : Prop :=
  (forall n, defines s n -> ~ defines s' n) /\ (forall n, inserts_into s n -> ~ inserts_into s' n).
(** No table is defined by both. *)
Definition apart_tables (s s' : source) : Prop := forall n, defines s n -> ~ defines s' n.
