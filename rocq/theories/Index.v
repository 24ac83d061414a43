(** Indexes, foreign key constraints and table options:
    core/definitions/{index,constraint,option}.py. *)
From Verif Require Export Column.

(** ** Indexes *)

(** index.py lines 23-38.  [_index_type] is always one of these three in the code; the string
    it stands for is [itype_str] (index.py lines 53-61 upper-case it).
    SIMPLIFICATION: other strings, which no code in the package supplies, are left out, and the
    members of [_columns] are names (index.py line 50 also allows column objects). *)
Inductive itype : Set := IIndex | IUnique | IPrimary.

Record index := mkIndex {
  ix_rawname : string;         (* _name *)
  ix_columns : list string;
  ix_type : itype;
  ix_perrors : list string
}.

Definition itype_str (t : itype) : string :=
  match t with IIndex => "INDEX" | IUnique => "UNIQUE" | IPrimary => "PRIMARY" end.
Definition itype_eqb (a b : itype) : bool :=
  match a, b with
  | IIndex, IIndex | IUnique, IUnique | IPrimary, IPrimary => true | _, _ => false end.

(** index.py lines 40-51 *)
Definition ix_name (i : index) : string :=
  if truthy (ix_rawname i) then ix_rawname i
  else match ix_columns i with c :: _ => c | [] => "" end.

(** index.py lines 63-65 *)
Definition is_primary (i : index) : bool := itype_eqb (ix_type i) IPrimary.

Definition max_name_length : nat := 64.

(** index.py lines 96-103.  [index_type] is never empty here. *)
Definition index_errors (i : index) : list string :=
  (if is_empty (ix_name i) then ["Missing name for index " ++ ix_name i] else [])
  +++ (if list_is_nil (ix_columns i) then ["Missing columns for index " ++ ix_name i] else [])
  +++ (if Nat.ltb max_name_length (String.length (ix_name i))
      then ["Key name " ++ ix_rawname i ++ " must be <=64 characters long"] else []).

(** index.py lines 105-124 *)
Definition index_str (i : index) : string :=
  join " " ((match ix_type i with IPrimary => ["PRIMARY"] | IUnique => ["UNIQUE"] | IIndex => [] end)
              +++ ["KEY"]
              +++ (if truthy (ix_rawname i) then ["`" ++ ix_name i ++ "`"] else [])
              +++ ["(`" ++ join "`,`" (ix_columns i) ++ "`)"]).

(** index.py lines 9-13: strip, then drop a final "(digits)". *)
Fixpoint drop_index_length (s : string) : string :=
  match s with
  | EmptyString => EmptyString
  | String c s' =>
      if Ascii.eqb c "("%char &&
           (let '(d, r) := span is_digit s' in truthy d && String.eqb r ")")
      then EmptyString
      else String c (drop_index_length s')
  end.
Definition clean_index_columns (l : list string) : list string :=
  map (fun c => drop_index_length (strip c)) l.

(** ** Foreign key constraints *)

(** constraint.py lines 15-37, attributes after the constructor's upper-casing and defaults. *)
Record constraint := mkConstraint {
  k_name : string;
  k_column : string;
  k_ftable : string;
  k_fcolumn : string;
  k_on_delete : string;
  k_on_update : string;
  k_perrors : list string;
  k_pwarnings : list string
}.

(** constraint.py lines 28-33 *)
Definition action_of (s : string) : string := if is_empty (upper s) then "RESTRICT" else upper s.
Definition new_constraint (name column ftable fcolumn od ou : string) : constraint :=
  mkConstraint name column ftable fcolumn (action_of od) (action_of ou) [] [].

(** constraint.py line 97 *)
Definition allowed_actions := ["CASCADE"; "NO ACTION"; "RESTRICT"; "SET DEFAULT"; "SET NULL"].

(** constraint.py lines 93-115 *)
Definition constraint_errors (k : constraint) : list string :=
  let missing f v := if is_empty v then ["Missing " ++ f ++ " for constraint '" ++ k_name k ++ "'"] else [] in
  ((if is_empty (k_name k) then ["Missing name for constraint"]
    else if Nat.ltb max_name_length (String.length (k_name k))
         then ["Key name '" ++ k_name k ++ "' is too long"] else [])
   +++ (if smem (k_on_delete k) allowed_actions then []
       else ["ON DELETE action of '" ++ k_on_delete k ++ "' for constraint '" ++ k_name k
               ++ "' is not a valid ON DELETE action"])
   +++ (if smem (k_on_update k) allowed_actions then []
       else ["ON UPDATE action of '" ++ k_on_update k ++ "' for constraint '" ++ k_name k
               ++ "' is not a valid ON UPDATE action"])
   +++ missing "name" (k_name k) +++ missing "column_name" (k_column k)
   +++ missing "foreign_table_name" (k_ftable k) +++ missing "foreign_column_name" (k_fcolumn k)).

(** constraint.py lines 117-135 *)
Definition constraint_str (k : constraint) : string :=
  join " " ["CONSTRAINT"; "`" ++ k_name k ++ "`"; "FOREIGN KEY"; "(`" ++ k_column k ++ "`)";
            "REFERENCES"; "`" ++ k_ftable k ++ "`"; "(`" ++ k_fcolumn k ++ "`)";
            "ON DELETE " ++ k_on_delete k; "ON UPDATE " ++ k_on_update k].

(** ** Table options *)

(** option.py lines 10-16 *)
Record toption := mkOption { o_name : string; o_value : string }.
