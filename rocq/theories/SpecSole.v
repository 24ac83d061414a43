(** Specification: columns that are declared UNIQUE where they are defined, as in [mail VARCHAR(20) NOT NULL UNIQUE, PRIMARY KEY (id)]. *)
From Verif Require Export Engine SpecTrail.

(** The definition after such a column begins with a name between back-quotes, or with two words, the second of which
    begins like no attribute of a column: [n VARCHAR], [PRIMARY KEY], [KEY n], [UNIQUE KEY]. *)
Inductive begins_next : string -> Prop :=
| begins_quoted y : begins_next (String bquote y)
| begins_words w v y : w <> "" -> sforall is_word w = true -> v <> "" -> sforall is_word v = true ->
    (forall K, In K ("PRIMARY" :: attribute_words) -> prefix K (upper v) = false) -> (forall c z, y = String c z -> is_word c = false) ->
    begins_next (w ++ " " ++ v ++ y).
(** UNIQUE, perhaps with KEY or INDEX, in any case. *)
Inductive declared_unique : string -> Prop :=
| unique_alone u : spelled "UNIQUE" u -> declared_unique u
| unique_key u K k : spelled "UNIQUE" u -> K = "KEY" \/ K = "INDEX" -> spelled K k -> declared_unique (u ++ " " ++ k).
(** From UNIQUE up to the first list between parentheses that follows: [mid] is the text between, the end of this definition
    and any number of others, and [cols] are the names in that list. *)
Inductive swallowed (mid : string) (cols : list ident) : string -> Prop :=
| sole_as u (g sp : bool) : declared_unique u -> normalize mid = mid -> begins_next mid -> has_char "(" mid = false -> cols <> [] -> Forall ident_ok cols ->
    swallowed mid cols (u ++ ", " ++ mid ++ gap_text g ++ "(" ++ idents_text sp cols ++ ")").
