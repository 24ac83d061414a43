(** Tables: core/definitions/table.py. *)
From Verif Require Export Index.

(** ** Row values *)

(** A value in a row: [None], a [str], an [int], or any other Python value (a [Decimal], [date],
    [bytes], ... returned by the driver) given by the name of its type, a key standing for [==]
    within the type, and its [str()]. *)
Inductive rval : Set :=
| RNone | RStr (s : string) | RInt (z : Z) | ROther (ty key text : string).

Definition row := dict string rval.

(** [str(v)] *)
Definition rval_str (v : rval) : string :=
  match v with
  | RNone => "None" | RStr s => s | RInt z => str_of_Z z | ROther _ _ t => t
  end.
(** [repr(v)].  SIMPLIFICATION: [repr] of other types is taken to be [str]. *)
Definition rval_repr (v : rval) : string :=
  match v with RStr s => py_repr s | _ => rval_str v end.
Definition rvals_repr (l : list rval) : string := "[" ++ join ", " (map rval_repr l) ++ "]".

(** A default used as a row value (table.py line 375). *)
Definition rval_of_default (d : cdefault) : rval :=
  match d with DNone => RNone | DStr s => RStr s | DInt z => RInt z end.

(** A [Rows] object: core/definitions/rows.py lines 15-26. *)
Record rows_def := mkRows {
  r_table : string;
  r_raw : list (list rval);
  r_columns : list string;
  r_explicit : nat;               (* num_explicit_columns *)
  r_perrors : list string;
  r_pwarnings : list string
}.

(** ** Tables *)

(** The attributes of [Table.__init__] (table.py lines 27-61).  [t_ordered] says whether
    [_columns] is an [OrderedDict] (as the CREATE TABLE parser makes it, create_parser.py) or the
    plain dict of table.py line 39.  The error caches are not attributes here (see Database.v). *)
Record table := mkTable {
  t_name : string;
  t_columns : dict string column;
  t_indexes : dict string index;
  t_constraints : dict string constraint;
  t_options : list toption;
  t_primary : option index;
  t_indexed : option (list string);       (* _indexed_columns, a set *)
  t_rows : option (dict string row);
  t_tracking : bool;
  t_global_errors : list string;
  t_global_warnings : list string;
  t_ordered : bool
}.

Definition with_columns (t : table) (c : dict string column) (o : bool) : table :=
  mkTable (t_name t) c (t_indexes t) (t_constraints t) (t_options t) (t_primary t) (t_indexed t)
    (t_rows t) (t_tracking t) (t_global_errors t) (t_global_warnings t) o.
Definition with_indexes (t : table) (i : dict string index) (p : option index)
  (c : option (list string)) : table :=
  mkTable (t_name t) (t_columns t) i (t_constraints t) (t_options t) p c
    (t_rows t) (t_tracking t) (t_global_errors t) (t_global_warnings t) (t_ordered t).
Definition with_constraints (t : table) (k : dict string constraint) : table :=
  mkTable (t_name t) (t_columns t) (t_indexes t) k (t_options t) (t_primary t) (t_indexed t)
    (t_rows t) (t_tracking t) (t_global_errors t) (t_global_warnings t) (t_ordered t).
Definition with_rows (t : table) (r : option (dict string row)) (ge gw : list string) : table :=
  mkTable (t_name t) (t_columns t) (t_indexes t) (t_constraints t) (t_options t) (t_primary t)
    (t_indexed t) r true ge gw (t_ordered t).

(** The state after a call and the exception it raised, if any. *)
Definition mut (A : Type) := (A * option exn)%type.

(** Where [add_column] puts the column: [position] is [False]/[None], [True] or a name. *)
Inductive position : Set := PEnd | PFirst | PAfter (name : string).

(** table.py lines 454-460, for an existing anchor *)
Fixpoint insert_after {V} (anchor k : string) (v : V) (d : dict string V) : dict string V :=
  match d with
  | [] => []
  | (k', v') :: d' =>
      if String.eqb k' anchor then (k', v') :: (k, v) :: insert_after anchor k v d'
      else (k', v') :: insert_after anchor k v d'
  end.

(** table.py lines 429-468.  An empty position string counts as [False] (line 443).  [move_to_end]
    does not exist on a plain dict: AttributeError after the column was appended (lines 449-450). *)
Definition add_column (t : table) (c : column) (p : position) : mut table :=
  if dmem (c_name c) (t_columns t)
  then (t, Some (ValueError ("Cannot add column " ++ c_name c ++ " because " ++ c_name c ++ " already exists")))
  else
    let at_end := with_columns t (dset (c_name c) c (t_columns t)) (t_ordered t) in
    match p with
    | PEnd => (at_end, None)
    | PFirst => if t_ordered t
                then (with_columns t ((c_name c, c) :: t_columns t) true, None)
                else (at_end, Some (AttributeError "'dict' object has no attribute 'move_to_end'"))
    | PAfter a =>
        if is_empty a then (at_end, None)
        else if dmem a (t_columns t)
             then (with_columns t (insert_after a (c_name c) c (t_columns t)) true, None)
             else (t, Some (ValueError ("Cannot add column " ++ c_name c ++ " after " ++ a
                                          ++ " because " ++ a ++ " does not exist")))
    end.

(** table.py lines 470-477 *)
Definition remove_column (t : table) (name : string) : mut table :=
  if dmem name (t_columns t) then (with_columns t (dpop name (t_columns t)) (t_ordered t), None)
  else (t, Some (ValueError ("Cannot remove column " ++ name ++ " because column " ++ name ++ " does not exist"))).

(** table.py lines 479-487 *)
Definition change_column (t : table) (c : column) : mut table :=
  if dmem (c_name c) (t_columns t)
  then (with_columns t (dset (c_name c) c (t_columns t)) (t_ordered t), None)
  else (t, Some (ValueError ("Cannot modify column " ++ c_name c ++ " because column " ++ c_name c ++ " does not exist"))).

(** [index.columns[0]] *)
Definition first_col (i : index) : res string :=
  match ix_columns i with c :: _ => Ok c | [] => Raise (IndexError "list index out of range") end.

(** Python set operations on [_indexed_columns]. *)
Definition set_add (x : string) (l : list string) : list string := if smem x l then l else x :: l.
Definition set_discard (x : string) (l : list string) : list string :=
  filter (fun y => negb (String.eqb x y)) l.

(** table.py lines 489-500 *)
Definition add_index (t : table) (i : index) : mut table :=
  if dmem (ix_name i) (t_indexes t)
  then (t, Some (ValueError ("Cannot add index " ++ ix_name i ++ " because index " ++ ix_name i ++ " already exists")))
  else
    let p := if is_primary i then Some i else t_primary t in
    let d := dset (ix_name i) i (t_indexes t) in
    match t_indexed t with
    | None => (with_indexes t d p None, None)
    | Some s => match first_col i with
                | Ok c => (with_indexes t d p (Some (set_add c s)), None)
                | Raise e => (with_indexes t d p (Some s), Some e)
                end
    end.

(** table.py lines 502-513 *)
Definition remove_index (t : table) (name : string) : mut table :=
  match dget name (t_indexes t) with
  | None => (t, Some (ValueError ("Cannot remove index " ++ name ++ " because index " ++ name ++ " does not exist")))
  | Some i =>
      match first_col i with
      | Raise e => (t, Some e)
      | Ok c => (with_indexes t (dpop name (t_indexes t)) (t_primary t)
                   (option_map (set_discard c) (t_indexed t)), None)
      end
  end.

(** table.py lines 515-529 *)
Definition change_index (t : table) (i : index) : mut table :=
  match dget (ix_name i) (t_indexes t) with
  | None => (t, Some (ValueError ("Cannot modify index " ++ ix_name i ++ " because index " ++ ix_name i ++ " does not exist")))
  | Some old =>
      let d := dset (ix_name i) i (t_indexes t) in
      match t_indexed t with
      | None => (with_indexes t d (t_primary t) None, None)
      | Some s =>
          match first_col old with
          | Raise e => (t, Some e)
          | Ok c => let s' := set_discard c s in
                    match first_col i with
                    | Raise e => (with_indexes t d (t_primary t) (Some s'), Some e)
                    | Ok c' => (with_indexes t d (t_primary t) (Some (set_add c' s')), None)
                    end
          end
      end
  end.

(** table.py lines 531-562 *)
Definition add_constraint (t : table) (k : constraint) : mut table :=
  if dmem (k_name k) (t_constraints t)
  then (t, Some (ValueError ("Cannot add constraint " ++ k_name k ++ " because constraint " ++ k_name k ++ " already exists")))
  else (with_constraints t (dset (k_name k) k (t_constraints t)), None).
Definition remove_constraint (t : table) (name : string) : mut table :=
  if dmem name (t_constraints t) then (with_constraints t (dpop name (t_constraints t)), None)
  else (t, Some (ValueError ("Cannot remove constraint " ++ name ++ " because constraint " ++ name ++ " does not exist"))).
Definition change_constraint (t : table) (k : constraint) : mut table :=
  if dmem (k_name k) (t_constraints t)
  then (with_constraints t (dset (k_name k) k (t_constraints t)), None)
  else (t, Some (ValueError ("Cannot modify constraint " ++ k_name k ++ " because constraint " ++ k_name k ++ " does not exist"))).

(** Thread a mutation that may raise. *)
Definition then_mut {A} (x : mut A) (f : A -> mut A) : mut A :=
  match snd x with None => f (fst x) | Some _ => x end.

(** [Table(...)]: table.py lines 27-61 *)
Definition new_table (name : string) (cols : list column) (ixs : list index)
  (ks : list constraint) (opts : list toption) : mut table :=
  let t0 := mkTable name [] [] [] opts None None None false [] [] false in
  let add_all {X} (f : table -> X -> mut table) (l : list X) (m : mut table) : mut table :=
    fold_left (fun m x => then_mut m (fun t => f t x)) l m in
  add_all add_index ixs
    (add_all add_constraint ks
       (add_all (fun t c => add_column t c PEnd) cols (t0, None))).

(** table.py lines 402-413, for a column name *)
Definition column_is_indexed (t : table) (name : string) : table * res bool :=
  if negb (dmem name (t_columns t)) then (t, Ok false)
  else match t_indexed t with
       | Some s => (t, Ok (smem name s))
       | None => match mapM first_col (dvals (t_indexes t)) with
                 | Raise e => (t, Raise e)
                 | Ok l => (with_indexes t (t_indexes t) (t_primary t) (Some l), Ok (smem name l))
                 end
       end.

(** table.py lines 380-400 *)
Fixpoint before_in (prev : position) (name : string) (l : list string) : option position :=
  match l with
  | [] => None
  | x :: l' => if String.eqb x name then Some prev else before_in (PAfter x) name l'
  end.
Definition column_before (t : table) (name : string) : res position :=
  match before_in PFirst name (dkeys (t_columns t)) with
  | Some p => Ok p
  | None => Raise (ValueError ("Cannot return column before " ++ name ++ " because " ++ name
                                 ++ " does not exist in table " ++ t_name t))
  end.

(** table.py lines 564-574 *)
Definition loose_equal (a b : rval) : bool :=
  match a, b with
  | RNone, RNone => true
  | RStr s, RStr t => String.eqb s t
  | RInt x, RInt y => Z.eqb x y
  | ROther ty k s, ROther ty' k' s' =>
      if String.eqb ty ty' then String.eqb k k' else String.eqb s s'
  | _, _ => String.eqb (rval_str a) (rval_str b)
  end.

(** ** Rows *)

(** [OrderedDict(zip(columns, values))] *)
Definition zip_row (cols : list string) (vals : list rval) : row :=
  fold_left (fun r p => dset (fst p) (snd p) r) (combine cols vals) [].

(** [l.index(x)] for a member *)
Fixpoint list_index (x : string) (l : list string) : nat :=
  match l with
  | [] => 0
  | y :: l' => if String.eqb x y then 0 else S (list_index x l')
  end.

(** One turn of the loop of table.py lines 319-344.  Lines 339-341 repeat the test of line 329 and
    are unreachable. *)
Definition add_one_row (tname : string) (explicit : bool) (cols : list string) (idx : nat)
  (st : dict string row * list string) (vals : list rval) : res (dict string row * list string) :=
  let '(rows, errs) := st in
  if negb explicit && negb (Nat.eqb (List.length vals) (List.length cols)) then
    Ok (rows, errs +++ ["Insert values has wrong number of values for table " ++ tname ++ " and row " ++ rvals_repr vals])
  else match nth_error vals idx with
       | None => Raise (IndexError "list index out of range")
       | Some v =>
           let rid := rval_str v in
           if is_empty rid then
             Ok (rows, errs +++ ["Row is missing a value for the id column for table " ++ tname ++ " and row " ++ rvals_repr vals])
           else if dmem rid rows then
             Ok (rows, errs +++ ["Duplicate row id found for table " ++ tname ++ " and row " ++ rvals_repr vals])
           else Ok (dset rid (dset "id" (RStr rid) (zip_row cols vals)) rows, errs)
       end.

(** The loop, keeping the state reached when an exception is raised. *)
Fixpoint add_rows_loop (tname : string) (explicit : bool) (cols : list string) (idx : nat)
  (l : list (list rval)) (st : dict string row * list string)
  : mut (dict string row * list string) :=
  match l with
  | [] => (st, None)
  | v :: l' => match add_one_row tname explicit cols idx st v with
               | Ok st' => add_rows_loop tname explicit cols idx l' st'
               | Raise e => (st, Some e)
               end
  end.

(** table.py lines 278-346 *)
Definition add_rows (t : table) (r : rows_def) : mut table :=
  let ge := t_global_errors t +++ r_perrors r in
  let gw := t_global_warnings t +++ r_pwarnings r in
  let rows0 := match t_rows t with Some d => d | None => [] end in
  let explicit := negb (Nat.eqb (r_explicit r) 0) in
  let cols := if explicit then r_columns r else dkeys (t_columns t) in
  if negb (smem "id" cols) then
    (with_rows t (Some rows0)
       (ge +++ ["A column named 'id' is required to manage rows in the table, but the id column is missing in the rows for table " ++ t_name t]) gw,
     None)
  else
    let '((rows', ge'), e) :=
      add_rows_loop (t_name t) explicit cols (list_index "id" cols) (r_raw r) (rows0, ge) in
    (with_rows t (Some rows') ge' gw, e).

(** table.py lines 348-378.  The result is the duplicate-id message, if any.
    SIMPLIFICATION: the message omits the row's text. *)
Definition add_raw_row (t : table) (raw : row) : table * res (option string) :=
  let rows0 := match t_rows t with Some d => d | None => [] end in
  let t1 := with_rows t (Some rows0) (t_global_errors t) (t_global_warnings t) in
  let rid := match dget "id" raw with Some v => rval_str v | None => "None" end in
  if is_empty rid then (t1, Raise (ValueError "Cannot manage records without an 'id' column and value"))
  else if dmem rid rows0 then (t1, Ok (Some ("Duplicate row id found for table " ++ t_name t)))
  else
    let conv := map (fun p => (fst p, match dget (fst p) raw with
                                      | Some v => v
                                      | None => rval_of_default (c_default (snd p)) end)) (t_columns t) in
    (with_rows t (Some (dset rid (dset "id" (RStr rid) conv) rows0)) (t_global_errors t) (t_global_warnings t),
     Ok None).

(** table.py lines 227-238 *)
Definition mark_tracking_rows (t : table) : table :=
  with_rows t (Some (match t_rows t with Some d => d | None => [] end))
    (t_global_errors t) (t_global_warnings t).

(** ** Errors of a table *)

(** What [_find_all_errors] leaves in the caches, and the exception it raised. *)
Record terrs := mkTerrs {
  te_schema : list string;
  te_swarnings : list string;
  te_parsing : list string;
  te_pwarnings : list string;
  te_exn : option exn
}.

(** What one child contributes (lines 177-186). *)
Record child := mkChild {
  ch_schema : list string; ch_swarn : list string;
  ch_parsing : list string; ch_pwarn : list string; ch_exn : option exn
}.

Definition in_table (tname m : string) : string := m ++ " in table '" ++ tname ++ "'".

(** The loop of lines 175-192; stops at the first child whose [schema_errors] raises. *)
Fixpoint scan_children (tname : string) (l : list child) : terrs :=
  match l with
  | [] => mkTerrs [] [] [] [] None
  | c :: l' =>
      match ch_exn c with
      | Some e => mkTerrs [] [] [] [] (Some e)
      | None =>
          let r := scan_children tname l' in
          let f := map (in_table tname) in
          mkTerrs (f (ch_schema c) +++ te_schema r) (f (ch_swarn c) +++ te_swarnings r)
            (f (ch_parsing c) +++ te_parsing r) (f (ch_pwarn c) +++ te_pwarnings r) (te_exn r)
      end
  end.

(** lines 168-172 *)
Definition primaries (t : table) : list index := filter is_primary (dvals (t_indexes t)).
Definition primary_column_names (t : table) : list string := concat (map ix_columns (primaries t)).

Definition col_auto (c : column) : bool := tru_ob (c_autoinc c).

(** lines 200-213 *)
Definition auto_increment_check (t : table) : check :=
  match filter col_auto (dvals (t_columns t)) with
  | [] => Errs []
  | [a] =>
      match primaries t with
      | [] => Errs ["Table '" ++ t_name t ++ "' has an AUTO_INCREMENT column but is missing the PRIMARY index"]
      | p :: _ =>
          match first_col p with
          | Raise e => Fail e
          | Ok f => err_if (negb (String.eqb f (c_name a)))
                      ("Mismatched indexes in table '" ++ t_name t ++ "': column '" ++ c_name a
                         ++ "' is the AUTO_INCREMENT column but '" ++ f ++ "' is the PRIMARY index column")
          end
      end
  | _ => Errs ["Table '" ++ t_name t ++ "' has more than one AUTO_INCREMENT column"]
  end.

(** lines 216-221 *)
Definition index_column_errors (t : table) : list string :=
  concat (map (fun i => concat (map (fun c =>
      if dmem c (t_columns t) then []
      else ["Table '" ++ t_name t ++ "' has index '" ++ ix_name i
              ++ "' that references non-existent column '" ++ c ++ "'"]) (ix_columns i)))
    (dvals (t_indexes t))).

Section Errors.
  Context {FO : FloatOracle}.

  (** [seen name] says that the column object's own cache is already filled (column.py line 166),
      in which case its [schema_errors] returns the list built so far without raising. *)
  Definition column_child (seen : string -> bool) (prim : list string) (c : column) : child :=
    let '(l, e) := column_checked c in
    mkChild l (if smem (c_name c) prim then [] else col_warnings c) (c_perrors c) (c_pwarnings c)
      (if seen (c_name c) then None else e).
  Definition index_child (i : index) : child := mkChild (index_errors i) [] (ix_perrors i) [] None.
  Definition constraint_child (k : constraint) : child :=
    mkChild (constraint_errors k) [] (k_perrors k) (k_pwarnings k) None.

  Definition children (seen : string -> bool) (t : table) : list child :=
    map (column_child seen (primary_column_names t)) (dvals (t_columns t))
    +++ map index_child (dvals (t_indexes t))
    +++ map constraint_child (dvals (t_constraints t)).

  (** table.py lines 153-225 *)
  Definition find_all_errors_seen (seen : string -> bool) (t : table) : terrs :=
    let head := (if is_empty (t_name t) then ["Table missing name"] else [])
                +++ (if list_is_nil (t_columns t)
                     then ["Table '" ++ t_name t ++ "' does not have any columns"] else []) in
    let ch := scan_children (t_name t) (children seen t) in
    match te_exn ch with
    | Some e => mkTerrs (head +++ te_schema ch) (te_swarnings ch) (te_parsing ch) (te_pwarnings ch) (Some e)
    | None =>
        let '(tail, e) :=
          run_checks [ err_if (Nat.ltb 1 (List.length (primaries t)))
                         ("Table '" ++ t_name t ++ "' has more than one PRIMARY index");
                       auto_increment_check t;
                       Errs (index_column_errors t) ] in
        mkTerrs (head +++ te_schema ch +++ tail) (te_swarnings ch) (te_parsing ch) (te_pwarnings ch) e
    end.

  (** On objects nobody asked for errors before. *)
  Definition find_all_errors (t : table) : terrs := find_all_errors_seen (fun _ => false) t.

  (** [table.schema_errors] on fresh objects. *)
  Definition table_errors (t : table) : res (list string) :=
    let r := find_all_errors t in
    match te_exn r with None => Ok (te_schema r) | Some e => Raise e end.
End Errors.
