(** Specification: what is remarked about the quotes around the default of a column definition. *)
From Verif Require Export SpecWrite SpecEnum.

Definition quotes_missing (name s : string) : string := "Default value of """ ++ s ++ """ should have quotes for field " ++ name.
Definition quotes_missing_too (name : string) : string := "Default value for column " ++ name ++ " should be quoted".
Definition quotes_needless (name : string) : string := "Column '" ++ name ++ "' has a numeric type but its default value is a string".

(** Digits and nothing else. *)
Definition whole_number (s : string) : bool := negb (is_empty s) && sforall is_digit s.
Definition missing_unless_number (name s : string) : list string := if whole_number s then [] else [quotes_missing name s].
Definition nothing_at_all (_ : string) : list string := [].

(** The remark on the attribute DEFAULT: on one without quotes unless it is NULL, and on one with quotes. *)
Definition remark_on (bare quoted : string -> list string) (ld : list item) : list string :=
  match ld with
  | [IDefault _ s] => if String.eqb (lower s) "null" then [] else bare s
  | [IQuoted _ s] => quoted s
  | _ => []
  end.

(** Not the type decides but how the length is written: one number and neither UNSIGNED nor AUTO_INCREMENT,
    or no length and a character set or collation, ask for quotes around all but digits; one number with
    UNSIGNED or AUTO_INCREMENT after the word char or varchar in small letters asks for quotes around
    anything; two numbers ask for none. *)
Definition default_remark (name w : string) (f : length_form) (u a : bool) (ld lcs lco : list item) : list string :=
  match f with
  | NoLength => match lcs, lco with [], [] => [] | _, _ => remark_on (missing_unless_number name) nothing_at_all ld end
  | OneNumber _ =>
      if u || a then remark_on (fun _ => if String.eqb w "char" || String.eqb w "varchar" then [quotes_missing_too name] else []) nothing_at_all ld
      else remark_on (missing_unless_number name) nothing_at_all ld
  | TwoNumbers _ _ => remark_on nothing_at_all (fun _ => [quotes_needless name]) ld
  end.

(** The definitions of [written], each with the remark. *)
Inductive remarked (m : meaning) : string -> list string -> Prop :=
| remarked_as tick w f server lu ln ld la lcs lco d cs co :
    nameable tick (m_name m) f (arranged server lu ln ld la lcs lco) ->
    In (m_type m, m_kind m) readable_types ->
    type_word w f (m_type m) (m_length m) -> length_ok f ->
    flag IUnsigned "UNSIGNED" (m_unsigned m) lu ->
    nullness (m_null m) ln ->
    defaults d ld -> m_default m = default_value w d ->
    flag IAuto "AUTO_INCREMENT" (m_auto m) la ->
    argument ICharset "CHARACTER SET" cs lcs -> m_charset m = upper cs ->
    argument ICollate "COLLATE" co lco -> m_collate m = upper co ->
    (lcs <> [] \/ lco <> [] -> m_kind m = KString /\ m_unsigned m = false /\ m_auto m = false) ->
    match f with
    | NoLength => lcs = [] -> lco = [] -> forall k s, ld = [IQuoted k s] -> lower s <> "null"
    | OneNumber _ => True
    | TwoNumbers _ _ => m_auto m = false /\ lcs = [] /\ lco = []
    end ->
    remarked m (column_definition tick (m_name m) w f (arranged server lu ln ld la lcs lco))
      (default_remark (m_name m) w f (m_unsigned m) (m_auto m) ld lcs lco).

(** The same for ENUM and SET, which ask for quotes around anything. *)
Inductive enum_remarked (m : enum_meaning) : string -> list string -> Prop :=
| enum_remarked_as tick w sp ln ld lcs lco cs co :
    name_ok tick (e_name m) ->
    e_type m = "ENUM" \/ e_type m = "SET" -> spelled (e_type m) w ->
    e_values m <> [] -> Forall value_ok (e_values m) ->
    nullness (e_null m) ln -> defaults (e_default m) ld ->
    argument ICharset "CHARACTER SET" cs lcs -> e_charset m = upper cs ->
    argument ICollate "COLLATE" co lco -> e_collate m = upper co ->
    enum_remarked m (name_text tick (e_name m) ++ " " ++ w ++ "(" ++ values_text sp (e_values m) ++ ")"
                      ++ items_text (ln +++ ld +++ lcs +++ lco))
      (remark_on (fun s => [quotes_missing (e_name m) s]) nothing_at_all ld).
