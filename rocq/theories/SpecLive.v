(** What SELECT * gives, and what the plan command is given. *)
From Verif Require Export SpecRows Commands.

(** [l] is the result of SELECT * on a table with the columns [cols] whose rows are [s]: each row
    carries a non-NULL, non-empty id and the columns; every row of the server is there. *)
Record selects (l : list row) (s : srows) (cols : list string) : Prop := {
  se_rows : forall r, In r l -> exists v sr,
    dget "id" r = Some v /\ v <> RNone /\ rval_str v <> "" /\ s (rval_str v) = Some sr
    /\ (forall c w, dget c r = Some w -> sr c = sql_of w)
    /\ (forall c, In c cols -> In c (dkeys r));
  se_all : forall id sr, s id = Some sr ->
    exists r v, In r l /\ dget "id" r = Some v /\ rval_str v = id
}.

(** The tables of the files [to] and of the live database [live] as the plan command gets them, and
    a server [s] that the driver reads with [rows_of].  [has] is what columns the server's tables
    have after the structural part. *)
Record plan_ready (has : string -> string -> bool) (to live : tables) (rows_of : string -> res (list row))
  (s : rserver) : Prop := {
  pr_names : NoDup (dkeys to);
  pr_named : forall n t, In (n, t) to -> t_name t = n;
  pr_to : forall n t, In (n, t) to -> t_tracking t = true ->
    exists rows, t_rows t = Some rows /\ keyed rows /\ row_maps rows
      /\ (forall id r c, In (id, r) rows -> In c (dkeys r) -> has n c = true);
  pr_live : forall n t, In (n, t) to -> t_tracking t = true ->
    match dget n live with
    | None => forall id, s n id = None
    | Some f => t_rows f = None /\ NoDup (dkeys (t_columns f))
                /\ exists l, rows_of n = Ok l /\ selects l (s n) (dkeys (t_columns f))
    end
}.
