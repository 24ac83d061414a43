(** Specification: definitions of which the tool reads the first two words as a column, such as
    FULLTEXT KEY k (a), SPATIAL INDEX k (a) and CONSTRAINT c CHECK (a > 0). *)
From Verif Require Export SpecHalt SpecTrail.

(** A name or a word, and an opening parenthesis.  Without back-quotes the word begins like no attribute of a column. *)
Inductive named_list : string -> Prop :=
| bare_list w g r : list_word w -> (forall K, In K ("PRIMARY" :: attribute_words) -> prefix K (upper w) = false) -> named_list (w ++ gap_text g ++ "(" ++ r)
| ticked_list n g r : n <> "" -> sforall is_word n = true -> named_list (String bquote (n ++ "`" ++ gap_text g ++ "(" ++ r)).
(** The two words before it: CONSTRAINT and a word, or a word (other than the words that begin a key) and a word that
    is no name of a type. *)
Inductive two_words : string -> Prop :=
| words_constraint k u : spelled "CONSTRAINT" k -> u <> "" -> sforall is_word u = true -> two_words (k ++ " " ++ u)
| words_other a b : sforall is_word a = true -> name_ok false a -> prefix "CONSTRAINT" (upper a) = false -> b <> "" -> sforall is_word b = true -> ~ In (upper b) known_types ->
    two_words (a ++ " " ++ b).
