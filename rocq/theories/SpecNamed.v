(** Specification: unique keys that are named as constraints, as in [CONSTRAINT one_mail UNIQUE (mail)]. *)
From Verif Require Export SpecTrail.

(** The text [s]: the word CONSTRAINT, the word [u] without back-quotes, and then the unique key [i] in any of
    the ways to write it. *)
Inductive unique_constraint (u : string) (i : index) : string -> Prop :=
| unique_as k s : spelled "CONSTRAINT" k -> u <> "" -> sforall is_word u = true -> ix_type i = IUnique -> key_written i s ->
    unique_constraint u i (k ++ " " ++ u ++ " " ++ s).
(** A CREATE TABLE statement with such a definition among others. *)
Inductive constraint_create (n : string) (before : list part) (u : string) (i : index) (after : list part) (opts : list toption) (semi : bool) : string -> Prop :=
| constraint_as h w0 w1 w2 ss s ss' :
    create_head n h -> Forall2 part_written before ss -> unique_constraint u i s -> Forall2 part_written after ss' ->
    Forall plain_option opts -> blank w0 -> blank w1 -> w1 <> "" -> blank w2 ->
    constraint_create n before u i after opts semi
      (h ++ " (" ++ w0 ++ join ("," ++ w1) (ss +++ s :: ss') ++ w2 ++ ")" ++ options_written opts ++ (if semi then ";" else "")).
(** The same in any layout. *)
Definition constraint_source (n : string) (before : list part) (u : string) (i : index) (after : list part) (opts : list toption) (semi : bool) (s' : string) : Prop :=
  exists s, constraint_create n before u i after opts semi s /\ relaid s s'.
