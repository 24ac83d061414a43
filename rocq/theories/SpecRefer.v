(** References between rows, written from the meaning of FOREIGN KEY: a row whose column is not NULL
    names the id of a row of the other table.  SIMPLIFICATION: the key consists of one column and refers
    to the column id; values are compared byte by byte. *)
From Verif Require Export SpecRows.

Definition refers (c : string) (child parent : srows) : Prop :=
  forall i a v, child i = Some a -> a c = Some v -> parent v <> None.

(** The rows [rows] of a file say in column [c] which row they refer to.  (The text None is left out
    because the tool takes it for NULL.) *)
Definition says_whom (c : string) (rows : dict string row) : Prop :=
  forall id r, In (id, r) rows -> exists v, In (c, RStr v) r /\ v <> "None".
