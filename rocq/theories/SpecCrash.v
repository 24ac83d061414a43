(** Files that make a command end with an exception. *)
From Verif Require Export SpecOrder SpecAccept.

(** Nothing but white space, but something. *)
Definition white (s : string) : Prop := s <> "" /\ sforall is_space s = true.
Definition has_quote (s : string) : Prop := has_char squote s = true \/ has_char bquote s = true.

(** The parser finds a quote that is not closed. *)
Definition unclosed (src : source) : Prop := exists m, snd (read_sql (fst src) (snd src)) = Raise (SyntaxError m).
(** Rows are given for [n], which no source defines. *)
Definition homeless (srcs : list source) (n : string) : Prop :=
  (exists src, In src srcs /\ inserts_into src n) /\ forall src, In src srcs -> ~ defines src n.

(** Sources that do not make a database. *)
Definition unloadable (srcs : list source) : Prop :=
  (exists src, In src srcs /\ white (snd src)) \/ (exists src, In src srcs /\ unclosed src) \/ exists n, homeless srcs n.
(** Sources with a table that cannot be validated. *)
Definition unchecked {FO : FloatOracle} (srcs : list source) : Prop :=
  exists src n t, In src srcs /\ In (n, t) (rd_tables (reader_of src)) /\ stops t.
