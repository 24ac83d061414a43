(** What a server can show or hold so that a plan is not finished. *)
From Verif Require Export SpecColumn SpecCrash SpecRows.

Section Stop.
  Context {FO : FloatOracle}.

  (** Two columns that look the same but for a default that is not a number (or cannot be rounded to the
      decimals of the column). *)
  Definition uncomparable (a b : column) : Prop :=
    column_str a <> column_str b /\ c_kind a = KNumeric
    /\ c_name a = c_name b /\ c_type a = c_type b /\ c_null a = c_null b /\ tru_ob (c_unsigned a) = tru_ob (c_unsigned b)
    /\ (In (c_type a) integer_types \/ length_eqb (c_length a) (c_length b) = true)
    /\ c_default a <> DNone /\ c_default b <> DNone
    /\ ((c_type a <> "DECIMAL" /\ ((forall f, ~ number (c_default a) f) \/ forall f, ~ number (c_default b) f))
        \/ (c_type a = "DECIMAL" /\ ~ exists s, c_length a = LStr s
              /\ forall p d, split_char ","%char s = [p; d] -> exists n f g, py_int d = Some n
                   /\ number (c_default a) f /\ float_round f n <> None /\ number (c_default b) g /\ float_round g n <> None)).
End Stop.

(** What SELECT gives cannot be managed: an error, or a row whose id, as text, is empty. *)
Definition unusable (answer : res (list row)) : Prop :=
  match answer with Raise _ => True | Ok l => exists r v, In r l /\ dget "id" r = Some v /\ rval_str v = "" end.
