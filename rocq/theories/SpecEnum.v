(** Specification: ENUM and SET columns as people write them, and what they mean. *)
From Verif Require Export SpecWrite.

(** A value may contain anything but single quotes and irregular white space. *)
Definition value_ok (v : string) : Prop := has_char squote v = false /\ collapse_ws v = v.
Definition values_text (sp : bool) (vs : list string) : string := join (sep_text sp) (map quote vs).

Record enum_meaning := mkEnum {
  e_name : string; e_type : string; e_values : list string;
  e_null : bool; e_default : option string; e_charset : string; e_collate : string
}.
(** The list is stored as the length of the column; the place for the list of values stays empty. *)
Record enum_means (c : column) (m : enum_meaning) : Prop := {
  en_name : c_name c = e_name m;
  en_kind : c_kind c = KEnum;
  en_type : c_type c = e_type m;
  en_values : c_length c = LList (e_values m);
  en_null : c_null c = e_null m;
  en_default : c_default c = match e_default m with Some s => DStr s | None => DNone end;
  en_charset : c_charset c = (if is_empty (e_charset m) then None else Some (e_charset m));
  en_collate : c_collate c = (if is_empty (e_collate m) then None else Some (e_collate m));
  en_unsigned : tru_ob (c_unsigned c) = false;
  en_auto : tru_ob (c_autoinc c) = false;
  en_list : c_enum_values c = None
}.

(** The name, the word ENUM or SET, the values between single quotes, and then whether NULL is
    allowed, the default, the character set and the collation, in this order. *)
Inductive enum_written (m : enum_meaning) : string -> Prop :=
| enum_as tick w sp ln ld lcs lco cs co :
    name_ok tick (e_name m) ->
    e_type m = "ENUM" \/ e_type m = "SET" -> spelled (e_type m) w ->
    e_values m <> [] -> Forall value_ok (e_values m) ->
    nullness (e_null m) ln -> defaults (e_default m) ld ->
    argument ICharset "CHARACTER SET" cs lcs -> e_charset m = upper cs ->
    argument ICollate "COLLATE" co lco -> e_collate m = upper co ->
    enum_written m (name_text tick (e_name m) ++ " " ++ w ++ "(" ++ values_text sp (e_values m) ++ ")"
                      ++ items_text (ln +++ ld +++ lcs +++ lco)).
