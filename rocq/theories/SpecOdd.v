(** Specification: definitions that are followed by a word that the tool does not know and that it cannot take for a
    column, as in [name VARCHAR(20) NOT NULL COMMENT 'the name'], [id INT INVISIBLE)] or
    [c INT GENERATED ALWAYS AS (a + b)]. *)
From Verif Require Export SpecHalt SpecTrail.

(** The word begins like no key and no attribute.  After it comes a parenthesis, or a space and a character that is
    neither white space nor part of a word, such as a quote; and then any text. *)
Inductive odd_word : string -> Prop :=
| odd_as w (g : bool) c r : w <> "" -> sforall is_word w = true ->
    (forall K, In K (["KEY"; "INDEX"; "UNIQUE"; "CONSTRAINT"; "PRIMARY"; "FOREIGN"] +++ attribute_words) -> prefix K (upper w) = false) ->
    is_word c = false -> is_space c = false -> g = true \/ c = "("%char \/ c = ")"%char ->
    odd_word (w ++ gap_text g ++ String c r)
(** Or it is UNIQUE at the end of the last definition, and no parenthesis is opened after it. *)
| odd_unique u (g : bool) r : spelled "UNIQUE" u -> has_char "(" r = false -> odd_word (u ++ gap_text g ++ String ")" r).
(** What stands before it: a definition in any of the ways to write it, perhaps with pairs of unknown words. *)
Inductive odd_lead (p : part) : list stray -> string -> Prop :=
| lead_part s : part_written p s -> odd_lead p [] s
| lead_trailed l s : trailed p l s -> odd_lead p l s.
