(** Specification: CREATE TABLE statements with a definition that the tool does not know. *)
From Verif Require Export SpecOther.

(** A word that is followed by an opening parenthesis, as in KEY (a), INDEX (a), CHECK (a > 0) or FULLTEXT (a).
    UNIQUE (a) is known. *)
Record list_word (w : string) : Prop := {
  lw_word : w <> "" /\ sforall is_word w = true;
  lw_unknown : lower w = "key" \/ lower w = "index"
    \/ forall k, In k ["key"; "index"; "unique"; "constraint"] -> String.prefix k (lower w) = false
}.
(** The text [s], with single spaces: a CREATE TABLE statement for the table [n] with the definitions [before]
    (in all ways of writing them, SpecWrite.v), and then the text [d] up to the end. *)
Inductive stopped (n : string) (before : list part) (d : string) : string -> Prop :=
| stopped_as h g ss : create_head n h -> Forall2 part_written before ss -> stopped n before d (h ++ " (" ++ gap_text g ++ join ", " (ss +++ [d])).
(** The same in any layout, with line comments; [tail] excludes further comments and lengths like those of
    KEY a (name(10)), which are removed before the text is read. *)
Definition stopped_source (n : string) (before : list part) (d s' : string) : Prop :=
  exists s, stopped n before d s /\ tail s /\ relaid s s'.
(** The definitions that are not known: such a word and its parenthesis, or: *)
Definition list_definition (d : string) : Prop := exists w g r, list_word w /\ d = w ++ gap_text g ++ "(" ++ r.
(** a name with back-quotes before a clause other than FOREIGN KEY, as in CONSTRAINT `u` UNIQUE (a) and
    CONSTRAINT `c` CHECK (a > 0). *)
Definition ticked_constraint (d : string) : Prop :=
  exists k n r, spelled "CONSTRAINT" k /\ n <> "" /\ sforall is_word n = true /\ d = k ++ " `" ++ n ++ "` " ++ r
    /\ forall a b, r = a ++ b -> lower a <> "foreign key (".
Definition unknown_definition (d : string) : Prop := list_definition d \/ ticked_constraint d.
