(** Comparing two tables: formats/mysql/definitions/table.py. *)
From Verif Require Export Ops.

Section Float.
  Context {FO : FloatOracle}.

  (** lines 76-85: does an overlapping column need a CHANGE? *)
  Definition column_changed (a b : column) : res bool :=
    if String.eqb (column_str a) (column_str b) then Ok false
    else let* s := really_same a b in Ok (negb s).

  (** lines 71-74; [column_before] cannot fail on a key of the target *)
  Definition added_column_ops (target : table) (added : list string) : res (list aop) :=
    mapM (fun n => let* c := dgetE n (t_columns target) in
                   let* p := column_before target n in
                   Ok (AddColumn c p)) added.

  (** lines 76-87 *)
  Definition changed_column_ops (src target : table) (overlap : list string) : res (list aop) :=
    rmap (@concat aop)
      (mapM (fun n => let* a := dgetE n (t_columns src) in
                      let* b := dgetE n (t_columns target) in
                      let* ch := column_changed a b in
                      Ok (if ch then [ChangeColumn b] else [])) overlap).

  (** lines 89-90 *)
  Definition removed_column_ops (src : table) (removed : list string) : res (list aop) :=
    mapM (fun n => let* c := dgetE n (t_columns src) in Ok (RemoveColumn c)) removed.

  (** lines 107, 126: same columns and type *)
  Definition same_shape (a b : index) : bool :=
    list_eqb String.eqb (ix_columns a) (ix_columns b) && itype_eqb (ix_type a) (ix_type b).

  (** lines 103-111: the first added key, not matched yet, of the same shape as [ri], if one of the
      two names is the name of a constraint *)
  Definition key_match (cn : list string) (rk : string) (ri : index)
    (matched : list string) (p : string * index) : bool :=
    negb (smem (fst p) matched) && same_shape ri (snd p) && (smem rk cn || smem (fst p) cn).

  Definition find_key_match (cn : list string) (rk : string) (ri : index)
    (matched : list string) (added : list (string * index)) : option string :=
    option_map fst (find (key_match cn rk ri matched) added).

  (** lines 99-111: the pairs (removed key, added key) that cancel out *)
  Fixpoint match_keys (cn : list string) (removed added : list (string * index))
    (matched : list string) : list (string * string) :=
    match removed with
    | [] => []
    | (rk, ri) :: removed' =>
        match find_key_match cn rk ri matched added with
        | Some ak => (rk, ak) :: match_keys cn removed' added (ak :: matched)
        | None => match_keys cn removed' added matched
        end
    end.

  (** lines 59, 98-111 *)
  Definition only_in {V W} (a : dict string V) (b : dict string W) : list (string * V) :=
    filter (fun p => negb (dmem (fst p) b)) a.

  Definition key_pairs (src target : table) : list (string * string) :=
    match_keys (dkeys (t_constraints src) +++ dkeys (t_constraints target))
      (only_in (t_indexes src) (t_indexes target))
      (only_in (t_indexes target) (t_indexes src)) [].

  (** lines 122-128 *)
  Definition key_changed (a b : index) : bool :=
    negb (String.eqb (index_str a) (index_str b)) && negb (same_shape a b).

  (** lines 113-128 *)
  Definition key_ops (src target : table) : list aop :=
    let pairs := key_pairs src target in
    map (fun p => AddKey (snd p))
      (filter (fun p => negb (smem (fst p) (map snd pairs))) (only_in (t_indexes target) (t_indexes src)))
    +++ map (fun p => RemoveKey (snd p))
      (filter (fun p => negb (smem (fst p) (map fst pairs))) (only_in (t_indexes src) (t_indexes target)))
    +++ concat (map (fun p => match dget (fst p) (t_indexes target) with
                              | Some b => if key_changed (snd p) b then [ChangeKey b] else []
                              | None => []
                              end) (t_indexes src)).

  (** lines 139-147: constraints present on both sides whose text differs *)
  Definition constraint_changed (a b : constraint) : bool :=
    negb (String.eqb (constraint_str a) (constraint_str b)).
  Definition changed_constraints (src target : table) : list (constraint * constraint) :=
    concat (map (fun p => match dget (fst p) (t_constraints target) with
                          | Some b => if constraint_changed (snd p) b then [(snd p, b)] else []
                          | None => []
                          end) (t_constraints src)).

  (** lines 131-133, 146 *)
  Definition removed_fk_ops (src target : table) : list aop :=
    map (fun p => RemoveConstraint (snd p)) (only_in (t_constraints src) (t_constraints target))
    +++ map (fun ab => RemoveConstraint (fst ab)) (changed_constraints src target).
  (** lines 136-138, 147 *)
  Definition added_fk_ops (src target : table) : list aop :=
    map (fun p => AddConstraint (snd p)) (only_in (t_constraints target) (t_constraints src))
    +++ map (fun ab => AddConstraint (snd ab)) (changed_constraints src target).

  (** lines 70-128 *)
  Definition kitchen_ops (src target : table) : res (list aop) :=
    let '(added, removed, overlap) := differences (t_columns src) (t_columns target) in
    let* a := added_column_ops target added in
    let* c := changed_column_ops src target overlap in
    let* r := removed_column_ops src removed in
    Ok (a +++ c +++ r +++ key_ops src target).

  (** [src.to(target, True)]: lines 150-157.  [None] is an absent dict key. *)
  Record split := mkSplit {
    sp_removed_fks : option alter; sp_kitchen : option alter; sp_fks : option alter }.
  Definition nonempty_alter (n : string) (ops : list aop) : option alter :=
    if list_is_nil ops then None else Some (mkAlter n ops).
  Definition diff_split (src target : table) : res split :=
    let* k := kitchen_ops src target in
    Ok (mkSplit (nonempty_alter (t_name src) (removed_fk_ops src target))
          (nonempty_alter (t_name src) k)
          (nonempty_alter (t_name src) (added_fk_ops src target))).

  (** [src.to(target)]: lines 158-165 *)
  Definition opt_list {A} (o : option A) : list A := match o with Some a => [a] | None => [] end.
  Definition diff (src target : table) : res (list alter) :=
    let* k := kitchen_ops src target in
    Ok (opt_list (nonempty_alter (t_name src) (removed_fk_ops src target))
        +++ opt_list (nonempty_alter (t_name src) (k +++ added_fk_ops src target))).
End Float.

(** ** Rows: lines 169-209 *)

Definition rows_of (t : table) : dict string row := match t_rows t with Some d => d | None => [] end.

(** lines 199-204: a common column with a different value *)
Definition row_differs (to from : row) : bool :=
  existsb (fun p => match dget (fst p) from with
                    | Some v => negb (loose_equal (snd p) v)
                    | None => false
                    end) to.

(** row_update.py lines 4-5 *)
Definition row_update_op (tname : string) (data : row) : res op :=
  if dmem "id" data then Ok (ORowUpdate tname data)
  else Raise (KeyError "Missing `id` column needed for update").

(** [to.to_rows(from)].  [to_rows] is only called on tables that track rows, whose [rows] is a
    dict; an untracked [self] would raise TypeError in [_differences] (line 188). *)
Definition to_rows (to : table) (from : option table) : res (list op) :=
  match t_rows to with
  | None => Raise (TypeError "argument of type 'NoneType' is not iterable")
  | Some trows =>
      match (match from with
             | None => Ok []
             | Some f => if t_tracking f
                         then match t_rows f with
                              | Some d => Ok d
                              | None => Raise (TypeError "argument of type 'NoneType' is not iterable") end
                         else Raise (ValueError ("Refusing to compare rows for table " ++ t_name to ++ " that is not tracking rows."))
             end) with
      | Raise e => Raise e
      | Ok frows =>
          let ins := map (fun p => ORowInsert (t_name to) (snd p)) (only_in trows frows) in
          let del := map (fun p => ORowDelete (t_name to) (fst p)) (only_in frows trows) in
          let* upd := mapM (fun p => match dget (fst p) trows with
                                     | Some r => if row_differs r (snd p)
                                                 then rmap (fun o => [o]) (row_update_op (t_name to) r)
                                                 else Ok []
                                     | None => Ok []
                                     end) frows in
          Ok (ins +++ del +++ concat upd)
      end
  end.
