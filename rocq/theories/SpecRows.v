(** What row operations do to the rows of a server, written from the meaning of INSERT, UPDATE and
    DELETE, and what it means that the rows of the files are there. *)
From Verif Require Export Mygration.

(** A column value of the server: NULL or a text.  A Python value denotes one of them. *)
Definition sqlval := option string.
Definition sql_of (v : rval) : sqlval := match v with RNone => None | _ => Some (rval_str v) end.

(** A row gives every column a value; a table maps ids to rows; a server maps names to tables. *)
Definition srow := string -> sqlval.
Definition srows := string -> option srow.
Definition rserver := string -> srows.

Definition put_row (s : rserver) (t id : string) (r : option srow) : rserver :=
  fun t' id' => if String.eqb t' t && String.eqb id' id then r else s t' id'.

(** Write [data] over [base]; the id is not written by UPDATE. *)
Definition written (data : row) (base : srow) : srow :=
  fun c => match dget c data with Some v => sql_of v | None => base c end.

Section Server.
  (** Which columns exist, and what a column holds when nothing is given. *)
  Context (has : string -> string -> bool) (dflt : string -> srow).

  (** [None]: the server reports an error. *)
  Definition exec_row (s : rserver) (o : op) : option rserver :=
    match o with
    | ORowInsert t data =>
        match dget "id" data with
        | Some v =>
            if forallb (has t) (dkeys data) then
              match s t (rval_str v) with
              | Some _ => None                        (* duplicate key *)
              | None => Some (put_row s t (rval_str v) (Some (written data (dflt t))))
              end
            else None                                 (* unknown column *)
        | None => None
        end
    | ORowUpdate t data =>
        match dget "id" data with
        | Some v =>
            if forallb (has t) (dkeys data) then
              match s t (rval_str v) with
              | Some r => Some (put_row s t (rval_str v) (Some (written (dpop "id" data) r)))
              | None => Some s                        (* nothing selected *)
              end
            else None
        | None => None
        end
    | ORowDelete t id => Some (put_row s t id None)
    | _ => Some s
    end.
  Fixpoint exec_rows (l : list op) (s : rserver) : option rserver :=
    match l with
    | [] => Some s
    | o :: l' => match exec_row s o with Some s' => exec_rows l' s' | None => None end
    end.
End Server.

(** The rows a table object holds carry their id. *)
Definition keyed (rows : dict string row) : Prop :=
  NoDup (dkeys rows) /\ forall id r, In (id, r) rows -> dget "id" r = Some (RStr id).

(** [rows] is what reading the table's rows from the server gives. *)
Definition reads (rows : dict string row) (s : srows) : Prop :=
  forall id, match dget id rows with
             | None => s id = None
             | Some r => exists sr, s id = Some sr /\ forall c v, In (c, v) r -> sr c = sql_of v
             end.

(** The server's value is one the tool considers equal to [v]. *)
Definition tool_equal (v : rval) (x : sqlval) : Prop := exists w, x = sql_of w /\ loose_equal v w = true.

(** The server has exactly the rows of the file, coming from the rows [old]. *)
Definition rows_reached (rows : dict string row) (dflt : srow) (old new : srows) : Prop :=
  (forall id, new id <> None <-> In id (dkeys rows))
  /\ forall id r sr, In (id, r) rows -> new id = Some sr ->
       (forall c v, In (c, v) r -> tool_equal v (sr c))
       /\ (forall c, ~ In c (dkeys r) ->
             sr c = match old id with Some o => o c | None => dflt c end).

(** Every row is a map. *)
Definition row_maps (rows : dict string row) : Prop := forall id r, In (id, r) rows -> NoDup (dkeys r).

(** Live rows have all the columns of the file row with the same id. *)
Definition columns_live (to from : dict string row) : Prop :=
  forall id r f c, In (id, r) to -> In (id, f) from -> In c (dkeys r) -> In c (dkeys f).

(** Rows read from files hold strings and NULLs only. *)
Definition from_file (rows : dict string row) : Prop :=
  forall id r c v, In (id, r) rows -> In (c, v) r -> v = RNone \/ exists s, v = RStr s.

(** The table and the id an operation is about. *)
Definition row_target (o : op) : option (string * string) :=
  match o with
  | ORowInsert t d | ORowUpdate t d => Some (t, match dget "id" d with Some v => rval_str v | None => "" end)
  | ORowDelete t id => Some (t, id)
  | _ => None
  end.

(** A database's tables stored under their names, with keyed rows, ready to be compared. *)
Record rows_ready (has : string -> string -> bool) (to : tables) (from : tables) (s : rserver) : Prop := {
  rr_names : NoDup (dkeys to);
  rr_named : forall n t, In (n, t) to -> t_name t = n;
  rr_to : forall n t, In (n, t) to -> t_tracking t = true ->
    exists rows, t_rows t = Some rows /\ keyed rows /\ row_maps rows
      /\ (forall id r c, In (id, r) rows -> In c (dkeys r) -> has n c = true);
  rr_from : forall n t, In (n, t) to -> t_tracking t = true ->
    match dget n from with
    | None => forall id, s n id = None
    | Some f => t_tracking f = true /\ exists rows, t_rows f = Some rows /\ keyed rows
                  /\ row_maps rows /\ reads rows (s n)
    end
}.

(** ** Reading INSERT statements *)

(** The columns the values of an INSERT are for. *)
Definition insert_columns (t : table) (r : rows_def) : list string :=
  match r_explicit r with 0 => dkeys (t_columns t) | S _ => r_columns r end.
(** [v] is the value given for column [c]. *)
Definition value_for (c : string) (cols : list string) (vals : list rval) (v : rval) : Prop :=
  exists l1 l2 v1 v2, cols = l1 +++ c :: l2 /\ ~ In c l1 /\ vals = v1 +++ v :: v2
    /\ List.length v1 = List.length l1.
(** [vals] is an acceptable row with that id. *)
Definition row_with_id (t : table) (r : rows_def) (vals : list rval) (id : string) : Prop :=
  (r_explicit r = 0 -> List.length vals = List.length (insert_columns t r))
  /\ id <> "" /\ exists v, value_for "id" (insert_columns t r) vals v /\ id = rval_str v.

(** All INSERTs of a file. *)
Definition add_all_rows (t : table) (l : list rows_def) : mut table :=
  fold_left (fun m r => then_mut m (fun t => add_rows t r)) l (t, None).
