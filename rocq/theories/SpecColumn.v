(** Differences between two definitions of one column that matter to the database server. *)
From Verif Require Export RenderFacts.

(** MySQL has no literal defaults for these types. *)
Definition no_default_type (c : column) : Prop :=
  is_string_kind (c_kind c) = true /\
  In (c_type c) ["TINYBLOB"; "BLOB"; "MEDIUMBLOB"; "LONGBLOB"; "TINYTEXT"; "TEXT"; "MEDIUMTEXT"; "LONGTEXT"; "JSON"].

(** The display width of an integer type does not matter. *)
Definition integer_type (c : column) : Prop :=
  c_kind c = KNumeric /\ In (c_type c) ["INT"; "INTEGER"; "TINYINT"; "SMALLINT"; "MEDIUMINT"; "BIGINT"].

Section Float.
  Context {FO : FloatOracle}.

  (** [d] is the number [f]. *)
  Definition number (d : cdefault) (f : float_t) : Prop :=
    match d with DNone => False | DStr s => float_of_string s = Some f | DInt z => float_of_int z = Some f end.

  (** The two defaults are numbers that Python's floats tell apart; for DECIMAL(p,s) after rounding
      to [s] places. *)
  Definition different_numbers (a b : column) : Prop :=
    exists x y, number (c_default a) x /\ number (c_default b) y
      /\ (c_type a <> "DECIMAL" /\ float_eqb x y = false
          \/ c_type a = "DECIMAL" /\ c_default a <> c_default b
             /\ forall n x' y', float_round x n = Some x' -> float_round y n = Some y' -> float_eqb x' y' = false).

  Definition default_differs (a b : column) : Prop :=
    ~ no_default_type a /\
    ((c_default a = DNone /\ c_default b <> DNone)
     \/ (c_default a <> DNone /\ c_default b = DNone)
     \/ (c_kind a <> KNumeric /\ default_lit (c_default a) <> default_lit (c_default b))
     \/ (c_kind a = KNumeric /\ default_lit (c_default a) <> default_lit (c_default b) /\ different_numbers a b)).

  (** Both given and different. *)
  Definition both_differ (x y : string) : Prop := x <> "" /\ y <> "" /\ x <> y.

  Inductive meaningful (a b : column) : Prop :=
  | M_type : c_type a <> c_type b -> meaningful a b
  | M_length : ~ integer_type a -> paren_text a <> paren_text b -> c_length a <> c_length b -> meaningful a b
  | M_null : c_null a <> c_null b -> meaningful a b
  | M_unsigned : tru_ob (c_unsigned a) <> tru_ob (c_unsigned b) -> meaningful a b
  | M_default : default_differs a b -> meaningful a b
  | M_charset : both_differ (charset_text a) (charset_text b) -> meaningful a b
  | M_collate : both_differ (collate_text a) (collate_text b) -> meaningful a b.

  (** The exact complement: what the tool takes for the same column.  Numbers are compared as floats; for
      DECIMAL(p,s) after rounding to [s] places. *)
  Definition same_number (a b : column) : Prop :=
    (c_default a = DNone /\ c_default b = DNone)
    \/ (c_type a <> "DECIMAL" /\ exists f g, number (c_default a) f /\ number (c_default b) g /\ float_eqb f g = true)
    \/ (c_type a = "DECIMAL" /\ c_default a <> DNone /\ c_default b <> DNone /\ exists s, c_length a = LStr s
        /\ ((exists p d n f g f' g', split_char ","%char s = [p; d] /\ py_int d = Some n /\ number (c_default a) f /\ number (c_default b) g
               /\ float_round f n = Some f' /\ float_round g n = Some g' /\ (float_eqb f' g' = true \/ c_default a = c_default b))
            \/ ((forall p d, split_char ","%char s <> [p; d]) /\ c_default a = c_default b))).
  Definition no_difference (a b : column) : Prop :=
    c_name a = c_name b /\ c_type a = c_type b /\ c_null a = c_null b /\ tru_ob (c_unsigned a) = tru_ob (c_unsigned b)
    /\ (integer_type a \/ c_length a = c_length b)
    /\ (no_default_type a \/ (c_kind a <> KNumeric /\ c_default a = c_default b) \/ (c_kind a = KNumeric /\ same_number a b))
    /\ (is_string_kind (c_kind a) = true ->
         (forall x y, c_collate a = Some x -> c_collate b = Some y -> ~ both_differ x y)
         /\ (forall x y, c_charset a = Some x -> c_charset b = Some y -> ~ both_differ x y)).
End Float.
