(** What becomes of the data during a structural migration: each column of each table holds
    something, of which MySQL's manual only says when it goes away: with DROP TABLE and with DROP of
    the column.  CHANGE keeps it (conversion between types is not modelled). *)
From Verif Require Export SpecPlan.

(** The table a statement is about. *)
Definition concerns (n : string) (o : op) : bool :=
  match o with
  | OCreate t => String.eqb (t_name t) n
  | OAlter a => String.eqb (al_table a) n
  | ODropTable m => String.eqb m n
  | ORowInsert m _ | ORowUpdate m _ | ORowDelete m _ => String.eqb m n
  | ODisable | OEnable => false
  end.

Section Data.
  (** What a column can hold, and what it holds right after it was added. *)
  Context {D : Type}.
  Variable fresh : string -> string -> D.
  (** By table and column; [None] where there is no such column. *)
  Definition contents := string -> string -> option D.

  Definition put (n c : string) (v : option D) (m : contents) : contents :=
    fun n' c' => if String.eqb n n' && String.eqb c c' then v else m n' c'.
  (** Within one ALTER columns are dropped before others are added, as in SpecServer.v. *)
  Definition drop_data (n : string) (m : contents) (o : aop) : contents :=
    match o with RemoveColumn c => put n (c_name c) None m | _ => m end.
  Definition add_data (n : string) (m : contents) (o : aop) : contents :=
    match o with AddColumn c _ => put n (c_name c) (Some (fresh n (c_name c))) m | _ => m end.
  (** Row operations are not part of this: see SpecRows.v. *)
  Definition op_data (m : contents) (o : op) : contents :=
    match o with
    | OCreate t => fun n c => if String.eqb n (t_name t)
                              then if smem c (dkeys (t_columns t)) then Some (fresh n c) else None
                              else m n c
    | ODropTable n' => fun n c => if String.eqb n n' then None else m n c
    | OAlter a => fold_left (add_data (al_table a)) (al_ops a) (fold_left (drop_data (al_table a)) (al_ops a) m)
    | _ => m
    end.
  Definition data_after (ops : list op) (m : contents) : contents := fold_left op_data ops m.

  (** Table [n] of [d] has column [c]. *)
  Definition column_of (d : tables) (n c : string) : Prop :=
    exists t, In (n, t) d /\ In c (dkeys (t_columns t)).
  (** Something is stored for the columns the server has and for nothing else. *)
  Definition stored_for (s : server) (m : contents) : Prop := forall n c, m n c <> None <-> has_column s n c.
End Data.
