(** Columns: core/definitions/columns/{column,numeric,string,date,enum}.py. *)
From Verif Require Export PyDict.

(** Python floats, used only by numeric.py lines 70-78 and 139-157.  Every function of the model
    takes the operations as an argument; theorems quantify over all of them.
    [None] stands for the exception named in the comment. *)
Class FloatOracle := {
  float_t : Type;
  float_of_string : string -> option float_t;    (* float(s); ValueError *)
  float_of_int : Z -> option float_t;            (* float(n); OverflowError *)
  float_eqb : float_t -> float_t -> bool;        (* x == y *)
  float_round : float_t -> Z -> option float_t   (* round(x, n); OverflowError *)
}.

(** The Python class of a column object. *)
Inductive ckind : Set := KBase | KNumeric | KString | KDate | KEnum.

(** [_length]: [None], a string, an [int], or the list that the ENUM parser stores there
    (parsers/type_enum.py line 31 and parsers/type.py line 69). *)
Inductive clength : Set :=
| LNone | LStr (s : string) | LInt (z : Z) | LList (l : list string).

(** [_default].  SIMPLIFICATION: a float default, which only a caller of the constructor could
    supply, is left out; so is [bool]. *)
Inductive cdefault : Set :=
| DNone | DStr (s : string) | DInt (z : Z).

(** The attributes set by [Column.__init__] (column.py lines 22-52).  The schema caches are not
    attributes here: they are modelled where they matter (Database.v). *)
Record column := mkColumn {
  c_kind : ckind;
  c_name : string;
  c_rawtype : string;                 (* _column_type, before .upper() *)
  c_length : clength;
  c_null : bool;
  c_has_default : bool;
  c_default : cdefault;
  c_unsigned : option bool;
  c_rawcharset : option string;       (* _character_set *)
  c_rawcollate : option string;       (* _collate *)
  c_autoinc : option bool;
  c_enum_values : option (list string);
  c_perrors : list string;            (* parsing_errors *)
  c_pwarnings : list string           (* parsing_warnings *)
}.

(** column.py line 99 *)
Definition c_type (c : column) : string := upper (c_rawtype c).
(** column.py lines 134, 142 *)
Definition c_charset (c : column) : option string := option_map upper (c_rawcharset c).
Definition c_collate (c : column) : option string := option_map upper (c_rawcollate c).

(** Truth values of the attribute types. *)
Definition tru_ob (b : option bool) : bool := match b with Some true => true | _ => false end.
Definition tru_os (s : option string) : bool := match s with Some s => truthy s | None => false end.
Definition tru_ol (l : option (list string)) : bool :=
  match l with Some (_ :: _) => true | _ => false end.
Definition tru_length (l : clength) : bool :=
  match l with
  | LNone => false | LStr s => truthy s | LInt z => negb (Z.eqb z 0) | LList l => negb (list_is_nil l)
  end.
Definition tru_default (d : cdefault) : bool :=
  match d with DNone => false | DStr s => truthy s | DInt z => negb (Z.eqb z 0) end.

(** Python's [==] on the attribute values. *)
Definition length_eqb (x y : clength) : bool :=
  match x, y with
  | LNone, LNone => true
  | LStr s, LStr t => String.eqb s t
  | LInt a, LInt b => Z.eqb a b
  | LList l, LList m => list_eqb String.eqb l m
  | _, _ => false
  end.
Definition default_eqb (x y : cdefault) : bool :=
  match x, y with
  | DNone, DNone => true
  | DStr s, DStr t => String.eqb s t
  | DInt a, DInt b => Z.eqb a b
  | _, _ => false
  end.
Definition ostr_eqb (x y : option string) : bool := opt_eqb String.eqb x y.

(** ** Rendering *)

(** ["(%s)" % length]. *)
Definition length_str (l : clength) : string :=
  match l with
  | LNone => "None" | LStr s => s | LInt z => str_of_Z z | LList l => repr_list l
  end.
(** [length is not None and length != ""]. *)
Definition length_shown (l : clength) : bool :=
  match l with LNone => false | LStr s => truthy s | _ => true end.

(** column.py lines 212-216 *)
Definition type_string (c : column) : string :=
  match c_enum_values c with
  | Some (v :: vs) => c_type c ++ "('" ++ join "', '" (v :: vs) ++ "')"
  | _ => if length_shown (c_length c)
         then c_type c ++ "(" ++ length_str (c_length c) ++ ")"
         else c_type c
  end.

(** column.py lines 225-231 *)
Definition default_parts (d : cdefault) : list string :=
  match d with
  | DNone => []
  | DInt z => ["DEFAULT " ++ str_of_Z z]
  | DStr s => if is_empty s then ["DEFAULT ''"]
              else if isdigit s then ["DEFAULT " ++ s]
              else ["DEFAULT '" ++ s ++ "'"]
  end.

(** column.py lines 202-236 *)
Definition column_str_base (c : column) : string :=
  join " " (["`" ++ c_name c ++ "`"; type_string c]
              +++ (if tru_ob (c_unsigned c) then ["UNSIGNED"] else [])
              +++ (if c_null c then [] else ["NOT NULL"])
              +++ default_parts (c_default c)
              +++ (if tru_ob (c_autoinc c) then ["AUTO_INCREMENT"] else [])).

Definition is_string_kind (k : ckind) : bool :=
  match k with KString | KEnum => true | _ => false end.

(** string.py lines 86-94 (inherited by Enum), column.py 202-236 otherwise. *)
Definition column_str (c : column) : string :=
  if is_string_kind (c_kind c) then
    column_str_base c
    ++ (match c_charset c with
        | Some s => if truthy s then " CHARACTER SET '" ++ s ++ "'" else "" | None => "" end)
    ++ (match c_collate c with
        | Some s => if truthy s then " COLLATE '" ++ s ++ "'" else "" | None => "" end)
  else column_str_base c.

(** ** Errors of a column *)

(** A validation run: the list built so far and the exception that stopped it, if any.  The list
    is stored in [_schema_errors] before the checks run (column.py line 189), so it is what a later
    access returns even after an exception. *)
Definition checked := (list string * option exn)%type.

Inductive check : Set := Errs (l : list string) | Fail (e : exn).

Fixpoint run_checks (l : list check) : checked :=
  match l with
  | [] => ([], None)
  | Fail e :: _ => ([], Some e)
  | Errs es :: l' => let '(rest, x) := run_checks l' in (es +++ rest, x)
  end.

Definition err_if (b : bool) (m : string) : check := Errs (if b then [m] else []).

(** column.py lines 192-195 *)
Definition base_checks (c : column) : list check :=
  [err_if (is_empty (c_name c)) "Column does not have a name";
   err_if (is_empty (c_type c)) ("Missing column_type for column " ++ c_name c)].

(** column.py lines 197-200 *)
Definition col_warnings (c : column) : list string :=
  match c_default c with
  | DNone => if negb (c_null c) && negb (tru_ob (c_autoinc c))
             then ["Column " ++ c_name c ++ " does not allow null values and has no default: you should set a default to avoid warnings"]
             else []
  | _ => []
  end.

Definition of_type (c : column) : string := "Column '" ++ c_name c ++ "' of type '" ++ c_type c ++ "'".

(** numeric.py lines 57-59, 116-123; string.py lines 22-50, 133-143 *)
Definition allow_float := ["DECIMAL"; "NUMERIC"; "FLOAT"; "DOUBLE"].
Definition no_length := ["FLOAT"; "DOUBLE"; "BIT"].
Definition no_auto_increment := ["FLOAT"; "DOUBLE"; "BIT"].
Definition integer_types := ["INT"; "INTEGER"; "TINYINT"; "SMALLINT"; "MEDIUMINT"; "BIGINT"].
Definition str_allowed_default := ["CHAR"; "VARCHAR"; "BINARY"; "VARBINARY"; "ENUM"; "SET"].
Definition str_allowed_collation := ["CHAR"; "VARCHAR"; "BINARY"; "VARBINARY"; "ENUM"; "SET"].
Definition str_allowed_length := ["CHAR"; "VARCHAR"; "BINARY"; "VARBINARY"].
Definition str_allowed_list := ["ENUM"; "SET"].
Definition no_literal_default_types :=
  ["TINYBLOB"; "BLOB"; "MEDIUMBLOB"; "LONGBLOB"; "TINYTEXT"; "TEXT"; "MEDIUMTEXT"; "LONGTEXT"; "JSON"].

Inductive dtype : Set := TNone | TInt | TFloat | TStr.

Section Float.
  Context {FO : FloatOracle}.

  (** numeric.py lines 63-78 *)
  Definition default_dtype (d : cdefault) : dtype :=
    match d with
    | DNone => TNone
    | DInt _ => TInt
    | DStr s =>
        match py_int s with
        | Some _ => TInt
        | None => match float_of_string s with Some _ => TFloat | None => TStr end
        end
    end.

  (** [int(self.default)] of numeric.py line 89. *)
  Definition int_of_default (d : cdefault) : res Z :=
    match d with
    | DNone => Raise (TypeError "int() argument must be a string, a bytes-like object or a real number, not 'NoneType'")
    | DInt z => Ok z
    | DStr s => match py_int s with
                | Some z => Ok z
                | None => Raise (ValueError "invalid literal for int()") end
    end.

  Definition length_has_comma (l : clength) : bool :=
    match l with LStr s => has_char ","%char s | _ => false end.

  (** numeric.py lines 80-112 *)
  Definition numeric_checks (c : column) : list check :=
    let dt := default_dtype (c_default c) in
    (match dt with
     | TStr => [Errs [of_type c ++ " cannot have a string value as a default"]]
     | _ =>
         [err_if (match dt with TFloat => true | _ => false end && negb (smem (c_type c) allow_float))
            (of_type c ++ " must have an integer value as a default");
          if String.eqb (c_type c) "BIT" then
            match int_of_default (c_default c) with
            | Raise e => Fail e
            | Ok z => err_if (negb (Z.eqb z 0) && negb (Z.eqb z 1))
                        ("Column '" ++ c_name c ++ "' of type 'BIT' must have a default of 1 or 0")
            end
          else Errs []]
     end)
    +++ [ (if tru_length (c_length c) then
            if smem (c_type c) no_length then Errs [of_type c ++ " cannot have a length"]
            else err_if (length_has_comma (c_length c) && negb (smem (c_type c) allow_float))
                   (of_type c ++ " must have an integer value as its length")
          else Errs []);
         err_if (negb (opt_is_none (c_charset c))) (of_type c ++ " cannot have a character set");
         err_if (negb (opt_is_none (c_collate c))) (of_type c ++ " cannot have a collate");
         err_if (tru_ob (c_autoinc c) && smem (c_type c) no_auto_increment)
           (of_type c ++ " cannot be an AUTO_INCREMENT");
         err_if (tru_ol (c_enum_values c))
           ("Column '" ++ c_name c ++ "' of type " ++ c_type c
              ++ " is not allowed to have a list of values for its length") ].

  (** string.py lines 99-130 *)
  Definition string_checks (c : column) : list check :=
    [ err_if (c_has_default c && negb (smem (c_type c) str_allowed_default))
        (of_type c ++ " cannot have a default");
      err_if (tru_ob (c_autoinc c))
        (of_type c ++ " cannot be an AUTO_INCREMENT: only numeric columns can");
      (if tru_os (c_charset c) || tru_os (c_collate c) then
         let is_binary := String.eqb (c_type c) "BINARY" || String.eqb (c_type c) "VARBINARY" in
         let co := match c_collate c with None => "BINARY" | Some s => s end in
         let cs := match c_charset c with None => "BINARY" | Some s => s end in
         Errs ((if smem (c_type c) str_allowed_collation then []
                else [of_type c ++ " cannot have a collation/character set"])
               +++ (if is_binary && (negb (String.eqb co "BINARY") || negb (String.eqb cs "BINARY"))
                   then [of_type c ++ " can only have a collate/character set of BINARY"] else []))
       else Errs []);
      err_if (tru_length (c_length c) && negb (smem (c_type c) str_allowed_length))
        ("Column " ++ c_name c ++ " of type " ++ c_type c ++ " cannot have a length");
      err_if (tru_ol (c_enum_values c) && negb (smem (c_type c) str_allowed_list))
        ("Column '" ++ c_name c ++ "' of type " ++ c_type c
           ++ " is not allowed to have a list of values for its length");
      err_if (tru_ob (c_unsigned c)) ("Column " ++ c_name c ++ " cannot be unsigned") ].

  (** date.py lines 47-65.  [no_auto_increment] (line 55) and [self.values] (line 58) do not exist:
      NameError and AttributeError.  Lines 59-65 are unreachable. *)
  Definition date_checks (c : column) : list check :=
    [ err_if (tru_length (c_length c)) (of_type c ++ " cannot have a length");
      err_if (negb (opt_is_none (c_charset c))) (of_type c ++ " cannot have a character set");
      err_if (negb (opt_is_none (c_collate c))) (of_type c ++ " cannot have a collate");
      (if tru_ob (c_autoinc c) then Fail (NameError "name 'no_auto_increment' is not defined")
       else Errs []);
      Fail (AttributeError "'Date' object has no attribute 'values'") ].

  (** enum.py line 49: [self.default and self.default not in self.enum_values]. *)
  Definition enum_default_check (c : column) : check :=
    if tru_default (c_default c) then
      match c_enum_values c with
      | None => Fail (TypeError "argument of type 'NoneType' is not iterable")
      | Some l =>
          err_if (negb (match c_default c with DStr s => smem s l | _ => false end))
            ("Default value for '" ++ c_type c ++ "' column '" ++ c_name c
               ++ "' is not in the list of allowed values")
      end
    else Errs [].

  (** enum.py lines 46-58 *)
  Definition enum_checks (c : column) : list check :=
    [ err_if (negb (tru_ol (c_enum_values c)))
        ("column '" ++ c_name c ++ "' of type '" ++ c_type c ++ "' must have a list of values");
      enum_default_check c;
      (if tru_ob (c_autoinc c) then Fail (NameError "name 'no_auto_increment' is not defined")
       else Errs []);
      err_if (tru_ob (c_unsigned c)) ("Column " ++ c_name c ++ " cannot be unsigned") ].

  (** [_check_for_schema_errors_and_warnings] of each class. *)
  Definition column_checks (c : column) : list check :=
    (base_checks c
       +++ match c_kind c with
          | KBase => []
          | KNumeric => numeric_checks c
          | KString => string_checks c
          | KDate => date_checks c
          | KEnum => string_checks c +++ enum_checks c
          end).

  Definition column_checked (c : column) : checked := run_checks (column_checks c).

  (** [column.schema_errors] on a fresh object (column.py lines 164-168). *)
  Definition column_errors (c : column) : res (list string) :=
    match column_checked c with
    | (l, None) => Ok l
    | (_, Some e) => Raise e
    end.

  (** ** Comparison *)

  (** column.py lines 266-271, string.py lines 145-148 *)
  Definition is_dnone (d : cdefault) : bool := match d with DNone => true | _ => false end.
  Definition default_none_mismatch (a b : column) : bool :=
    if is_string_kind (c_kind a) && smem (c_type a) no_literal_default_types then false
    else negb (Bool.eqb (is_dnone (c_default a)) (is_dnone (c_default b))).

  (** [float(d)] for a default that is not [None]. *)
  Definition float_of_default (d : cdefault) : res float_t :=
    match d with
    | DNone => Raise (TypeError "float() argument must be a string or a real number, not 'NoneType'")
    | DStr s => match float_of_string s with
                | Some f => Ok f | None => Raise (ValueError "could not convert string to float") end
    | DInt z => match float_of_int z with
                | Some f => Ok f | None => Raise (OverflowError "int too large to convert to float") end
    end.
  Definition round_f (f : float_t) (n : Z) : res float_t :=
    match float_round f n with
    | Some g => Ok g | None => Raise (OverflowError "rounded value too large to represent") end.

  (** numeric.py lines 139-157 *)
  Definition numeric_same_default (a b : column) : res bool :=
    match c_default a, c_default b with
    | DNone, DNone => Ok true
    | DNone, _ => Ok false
    | _, DNone => Ok false
    | da, db =>
        if negb (String.eqb (c_type a) "DECIMAL") then
          let* x := float_of_default da in
          let* y := float_of_default db in
          Ok (float_eqb x y)
        else
          match c_length a with
          | LStr s =>
              match split_char ","%char s with
              | [_; d] =>
                  match py_int d with
                  | None => Raise (ValueError "invalid literal for int()")
                  | Some n =>
                      let* x := float_of_default da in
                      let* x' := round_f x n in
                      let* y := float_of_default db in
                      let* y' := round_f y n in
                      Ok (float_eqb x' y' || default_eqb da db)
                  end
              | _ => Ok (default_eqb da db)
              end
          | _ => Raise (AttributeError "object has no attribute 'split'")
          end
    end.

  (** column.py lines 273-274, string.py lines 150-153, numeric.py lines 139-157 *)
  Definition same_default (a b : column) : res bool :=
    match c_kind a with
    | KNumeric => numeric_same_default a b
    | KString | KEnum =>
        if smem (c_type a) no_literal_default_types then Ok true
        else Ok (default_eqb (c_default a) (c_default b))
    | _ => Ok (default_eqb (c_default a) (c_default b))
    end.

  (** column.py lines 245-264 ([with_length = true]) and numeric.py lines 127-136 ([false]). *)
  Definition same_common (with_length : bool) (a b : column) : res bool :=
    if negb (String.eqb (c_name a) (c_name b)) then Ok false
    else if with_length && negb (length_eqb (c_length a) (c_length b)) then Ok false
    else if negb (Bool.eqb (c_null a) (c_null b)) then Ok false
    else if negb (String.eqb (c_type a) (c_type b)) then Ok false
    else if negb (Bool.eqb (tru_ob (c_unsigned a)) (tru_ob (c_unsigned b))) then Ok false
    else if default_none_mismatch a b then Ok false
    else same_default a b.

  (** string.py lines 161-165 *)
  Definition attr_clash (x y : option string) : bool :=
    tru_os x && tru_os y && negb (ostr_eqb x y).

  (** [a.is_really_the_same_as(b)], dispatched on the class of [a]. *)
  Definition really_same (a b : column) : res bool :=
    match c_kind a with
    | KNumeric => same_common (negb (smem (c_type a) integer_types)) a b
    | KString | KEnum =>
        let* r := same_common true a b in
        if negb r then Ok false
        else Ok (negb (attr_clash (c_collate a) (c_collate b))
                 && negb (attr_clash (c_charset a) (c_charset b)))
    | _ => same_common true a b
    end.
End Float.
