(** Planning a whole database: formats/mysql/mygrations/{mygration,row_mygration}.py. *)
From Verif Require Export Diff.

(** [database.tables] *)
Definition tables := dict string table.

(** mygration.py lines 341-361 *)
Definition column_type_differs (a b : column) : bool :=
  negb (String.eqb (c_type a) (c_type b))
  || negb (length_eqb (c_length a) (c_length b))
  || negb (Bool.eqb (tru_ob (c_unsigned a)) (tru_ob (c_unsigned b)))
  || negb (ostr_eqb (c_charset a) (c_charset b))
  || negb (ostr_eqb (c_collate a) (c_collate b)).

(** lines 200-211: [(table, column) in changing_columns] is decided directly *)
Definition changing_column (from to : tables) (tn cn : string) : bool :=
  match dget tn from, dget tn to with
  | Some s, Some t =>
      match dget cn (t_columns s), dget cn (t_columns t) with
      | Some a, Some b => column_type_differs a b
      | _, _ => false
      end
  | _, _ => false
  end.

(** lines 324-339 *)
Definition same_reference (a b : constraint) : bool :=
  String.eqb (k_column a) (k_column b) && String.eqb (k_ftable a) (k_ftable b)
  && String.eqb (k_fcolumn a) (k_fcolumn b).
Definition find_matching (target : table) (k : constraint) : option constraint :=
  find (fun k' => same_reference k' k) (dvals (t_constraints target)).

(** lines 222-252: how one source constraint is cycled.  [None]: not at all; [Some None]: dropped
    only; [Some (Some (k, n))]: dropped, then [k] (stored under name [n]) added.
    Lines 213-214 (no changing column: nothing) and 254-255 are subsumed. *)
Definition cycle_of (from to : tables) (tn kn : string) (k : constraint)
  : option (option (constraint * string)) :=
  if changing_column from to tn (k_column k) || changing_column from to (k_ftable k) (k_fcolumn k) then
    match dget tn to with
    | None => Some None
    | Some target =>
        match dget kn (t_constraints target) with
        | Some k' => Some (Some (k', kn))
        | None => match find_matching target k with
                  | Some k' => Some (Some (k', k_name k'))
                  | None => None
                  end
        end
    end
  else None.

(** fks_to_cycle, lines 216-252: per source table, in order.  Keys (table, constraint) are distinct
    because dict keys are, so the test of line 227 never fires. *)
Definition cycled_of_table (from to : tables) (tn : string) (s : table)
  : list (string * constraint * option (constraint * string)) :=
  concat (map (fun p => match cycle_of from to tn (fst p) (snd p) with
                        | Some x => [(fst p, snd p, x)]
                        | None => []
                        end) (t_constraints s)).

(** lines 267-272, 282-287: one ALTER of drops per table *)
Definition drop_fk_ops (from to : tables) : list alter :=
  concat (map (fun p => opt_list (nonempty_alter (fst p)
             (map (fun x => RemoveConstraint (snd (fst x))) (cycled_of_table from to (fst p) (snd p))))) from).

(** lines 265, 273-277: each target constraint name of a table is added once *)
Fixpoint adds_once (l : list (string * constraint * option (constraint * string)))
  (added : list string) : list aop :=
  match l with
  | [] => []
  | (_, _, Some (k, n)) :: l' =>
      if smem n added then adds_once l' added else AddConstraint k :: adds_once l' (n :: added)
  | (_, _, None) :: l' => adds_once l' added
  end.
Definition add_fk_ops (from to : tables) : list alter :=
  concat (map (fun p => opt_list (nonempty_alter (fst p)
             (adds_once (cycled_of_table from to (fst p) (snd p)) []))) from).

(** lines 278-280: the names cycled in one table *)
Definition cycled_names (from to : tables) (tn : string) (s : table) : list string :=
  concat (map (fun x => fst (fst x) :: match snd x with
                                       | Some (_, n) => if truthy n then [n] else []
                                       | None => []
                                       end) (cycled_of_table from to tn s)).

(** lines 298-322; the set is looked up under [alter.table_name] *)
Definition cycled_in (from to : tables) (tn n : string) : bool :=
  match dget tn from with
  | Some s => smem n (cycled_names from to tn s)
  | None => false
  end.
Definition keep_op (from to : tables) (tn : string) (o : aop) : bool :=
  match o with
  | AddConstraint k | RemoveConstraint k => negb (cycled_in from to tn (k_name k))
  | _ => true
  end.
Definition strip_cycled (from to : tables) (a : alter) : alter :=
  mkAlter (al_table a) (filter (keep_op from to (al_table a)) (al_ops a)).

Definition strip_opt (from to : tables) (a : option alter) : list op :=
  match a with
  | Some a => let a' := strip_cycled from to a in if alter_bool a' then [OAlter a'] else []
  | None => []
  end.

Section Float.
  Context {FO : FloatOracle}.

  (** lines 153-167, one table: (operations, deferred operations) *)
  Definition update_table (from to : tables) (tn : string) : res (list op * list op) :=
    let* target := dgetE tn to in
    let* source := dgetE tn from in
    let* sp := diff_split source target in
    Ok (strip_opt from to (sp_removed_fks sp) +++ map OAlter (opt_list (sp_kitchen sp)),
        strip_opt from to (sp_fks sp)).

  (** lines 115-178, with an absent source database given as [None] *)
  Definition plan_tables (disable : bool) (to : tables) (from : option tables) : res (list op) :=
    let f := match from with Some f => f | None => [] end in
    let '(add, remove, update) := differences f to in
    let* creates := mapM (fun n => let* t := dgetE n to in Ok (OCreate t)) add in
    let* upd := mapM (update_table f to) update in
    Ok ((if disable then [ODisable] else [])
        +++ creates
        +++ map OAlter (drop_fk_ops f to)
        +++ concat (map fst upd)
        +++ concat (map snd upd)
        +++ map OAlter (add_fk_ops f to)
        +++ map ODropTable remove
        +++ (if disable then [OEnable] else [])).
End Float.

(** row_mygration.py lines 81-101 *)
Definition plan_rows (to : tables) (from : option tables) : res (list op) :=
  let tracking := map t_name (filter t_tracking (dvals to)) in
  rmap (@concat op)
    (mapM (fun n => let* t := dgetE n to in
                    to_rows t (match from with Some f => dget n f | None => None end)) tracking).
