(** A column that is declared the primary key in its own definition, as in [id INT PRIMARY KEY]. *)
From Verif Require Export SpecWrite.

(** A CREATE TABLE statement in which the definition of the column [m] ends in PRIMARY KEY, with other
    definitions before and after it. *)
Inductive inline_create (n : string) (before : list part) (m : meaning) (after : list part) (opts : list toption) (semi : bool) : string -> Prop :=
| inline_as h w0 w1 w2 ss s k ss' :
    create_head n h -> Forall2 part_written before ss -> written m s -> spelled "PRIMARY KEY" k -> Forall2 part_written after ss' ->
    Forall plain_option opts -> blank w0 -> blank w1 -> w1 <> "" -> blank w2 ->
    inline_create n before m after opts semi
      (h ++ " (" ++ w0 ++ join ("," ++ w1) (ss +++ (s ++ " " ++ k) :: ss') ++ w2 ++ ")" ++ options_written opts ++ (if semi then ";" else "")).
(** The same in any layout. *)
Definition inline_source (n : string) (before : list part) (m : meaning) (after : list part) (opts : list toption) (semi : bool) (s' : string) : Prop :=
  exists s, inline_create n before m after opts semi s /\ relaid s s'.

(** What it means: the column is not null, and PRIMARY KEY (column) stands among the definitions. *)
Definition not_null (m : meaning) : meaning :=
  mkMeaning (m_name m) (m_kind m) (m_type m) (m_length m) (m_unsigned m) false (m_default m) (m_auto m) (m_charset m) (m_collate m).
Definition inline_meaning (n : string) (before : list part) (m : meaning) (after : list part) (opts : list toption) : tmeaning :=
  mkTMeaning n (columns_in before +++ not_null m :: columns_in after) (keys_in before +++ mkIndex "" [m_name m] IPrimary [] :: keys_in after)
    (fks_in before +++ fks_in after) opts.

(** A column with a length, AUTO_INCREMENT, a character set or a collation; and one with none of these. *)
Definition hard (m : meaning) : Prop :=
  m_auto m = true \/ m_charset m <> "" \/ m_collate m <> "" \/ m_length m <> NoLength /\ m_type m <> "TINYINT".
Definition easy (m : meaning) : Prop := m_auto m = false /\ m_charset m = "" /\ m_collate m = "" /\ m_length m = NoLength.
