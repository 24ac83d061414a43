(** Specification for C61 to C63: what a line of a configuration file says.  Python's [strip],
    [replace] and slices are those of PyStr.v. *)
From Verif Require Export PyDict.

Inductive reading : Set :=
| Nothing
| Setting (key value : string)
| Malformed                     (* DotEnvSyntaxError *)
| Crashes.                      (* ValueError *)
Inductive value_reading : Set := Value (v : string) | BadValue | CrashValue.
Definition with_key (k : string) (r : value_reading) : reading :=
  match r with Value v => Setting k v | BadValue => Malformed | CrashValue => Crashes end.

Definition is_quote (c : ascii) : bool := Ascii.eqb c squote || Ascii.eqb c dquote.
Definition starts_quoted (s : string) : bool := match s with String c _ => is_quote c | "" => false end.

Definition ends_backslash (s : string) : Prop := exists a, s = a ++ String backslash "".
(** Every [q] in the text has a backslash before it. *)
Definition all_escaped (q : ascii) (s : string) : Prop := forall a b, s = a ++ String q b -> ends_backslash a.
(** What can stand between an opening quote [q] and its closing quote. *)
Definition quoted_text (q : ascii) (s : string) : Prop := s <> "" /\ all_escaped q s /\ ~ ends_backslash s.
Definition unescaped (q : ascii) (s : string) : string := replace2 backslash q (String q "") s.

(** Nothing, or a semicolon. *)
Definition harmless (s : string) : Prop := s = "" \/ strip s = ";".
(** A comment behind a quoted value: what is left of it is stripped before its first characters are
    taken, as many as there are before the closing quote. *)
Definition cut_text (q : ascii) (t a : string) : string := strip (t ++ String q a).

(** A value, without white space around it. *)
Inductive value_reads : string -> value_reading -> Prop :=
| v_bare u post : starts_quoted u = false -> has_char "#" u = false -> post = "" \/ (exists c, post = String "#" c) ->
    has_char squote u = false -> has_char dquote u = false -> value_reads (u ++ post) (Value (strip u))
| v_stray u post : starts_quoted u = false -> has_char "#" u = false -> post = "" \/ (exists c, post = String "#" c) ->
    has_char squote u = true \/ has_char dquote u = true -> value_reads (u ++ post) BadValue
| v_open q u : is_quote q = true -> has_char q u = false -> value_reads (String q u) BadValue
| v_empty q u : is_quote q = true -> value_reads (String q (String q u)) (Value "")
| v_never q u : is_quote q = true -> has_char q u = true -> all_escaped q u -> value_reads (String q u) CrashValue
| v_closed q t a : is_quote q = true -> quoted_text q t -> has_char "#" a = false -> harmless a ->
    value_reads (String q (t ++ String q a)) (Value (unescaped q t))
| v_more q t a : is_quote q = true -> quoted_text q t -> has_char "#" a = false -> ~ harmless a ->
    value_reads (String q (t ++ String q a)) BadValue
| v_noted q t a c : is_quote q = true -> quoted_text q t -> has_char "#" a = false ->
    harmless (sdrop (String.length t + 1) (cut_text q t a)) ->
    value_reads (String q (t ++ String q (a ++ String "#" c))) (Value (unescaped q (stake (String.length t) (cut_text q t a))))
| v_noted_more q t a c : is_quote q = true -> quoted_text q t -> has_char "#" a = false ->
    ~ harmless (sdrop (String.length t + 1) (cut_text q t a)) ->
    value_reads (String q (t ++ String q (a ++ String "#" c))) BadValue.

Definition has_separator (s : string) : bool := has_char "=" s || has_char ":" s.
Definition is_separator (c : ascii) : bool := Ascii.eqb c "=" || Ascii.eqb c ":".
(** A line, without white space around it. *)
Inductive line_reads : string -> reading -> Prop :=
| l_blank : line_reads "" Nothing
| l_comment s : line_reads (String "#" s) Nothing
| l_unassigned c s : c <> "#"%char -> has_separator (String c s) = false -> line_reads (String c s) Malformed
| l_nameless c s : is_separator c = true -> line_reads (String c s) Malformed
| l_setting c k sep v r : c <> "#"%char -> has_separator (String c k) = false -> is_separator sep = true ->
    value_reads (strip v) r -> line_reads (String c k ++ String sep v) (with_key (strip (String c k)) r).
