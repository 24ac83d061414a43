(** Specification: foreign keys, with or without a name, with any number of actions. *)
From Verif Require Export SpecWrite.

(** The order in which the tool looks for the actions: no action may follow one that comes after it here. *)
Definition action_order : list string := ["CASCADE"; "NO ACTION"; "RESTRICT"; "SET DEFAULT"; "SET NULL"].
Definition actions_ordered (l : list string) : Prop := l = filter (fun a => smem a l) action_order.
(** The words ON DELETE and an action, or ON UPDATE and an action, once for each of a list. *)
Inductive actions_written (K : string) : list string -> string -> Prop :=
| actions_none : actions_written K [] ""
| actions_more x k l a : spelled (K ++ " " ++ x) k -> actions_written K l a -> actions_written K (x :: l) (" " ++ k ++ a).

(** The first action counts, and each further one is an error. *)
Definition first_action (l : list string) : string := match l with [] => "RESTRICT" | x :: _ => x end.
Definition contradictions (event : string) (l : list string) : list string :=
  map (fun _ => "Found contradictory rules in foreign constraint for ON " ++ event) (tl l).

(** A foreign key from column [c] to column [fc] of table [t], with the name [o] if it has one. *)
Definition fk_opening (o : option (string * ident)) : string :=
  match o with Some (k1, n) => k1 ++ " " ++ ident_text n ++ " " | None => "" end.
Inductive fk_acting (n : option ident) (c t fc : ident) (ds us : list string) : string -> Prop :=
| acting_as k1 k2 k3 g a1 a2 :
    spelled "CONSTRAINT" k1 -> spelled "FOREIGN KEY" k2 -> spelled "REFERENCES" k3 ->
    match n with Some n => ident_ok n | None => True end -> ident_ok c -> ident_ok t -> ident_ok fc ->
    actions_ordered ds -> actions_ordered us -> actions_written "ON DELETE" ds a1 -> actions_written "ON UPDATE" us a2 ->
    fk_acting n c t fc ds us (fk_opening (option_map (pair k1) n) ++ k2 ++ " (" ++ ident_text c ++ ") " ++ k3 ++ " "
                                ++ ident_text t ++ gap_text g ++ "(" ++ ident_text fc ++ ")" ++ a1 ++ a2).
(** Without a name it is called after its column and the table; the name of the table it is in is put in
    front later (C58). *)
Definition fk_first_called (n : option ident) (c t : ident) : string :=
  match n with Some n => snd n | None => snd c ++ "_" ++ snd t ++ "_fk" end.

(** ** Statements *)

(** The definitions of a CREATE TABLE: columns (C54), keys, and foreign keys. *)
Inductive act_part : Type := ActColumn (m : meaning) | ActKey (i : index) | ActFk (n : option ident) (c t fc : ident) (ds us : list string).
Inductive act_written : act_part -> string -> Prop :=
| act_column m s : written m s -> act_written (ActColumn m) s
| act_key i s : key_written i s -> act_written (ActKey i) s
| act_fk n c t fc ds us s : fk_acting n c t fc ds us s -> act_written (ActFk n c t fc ds us) s.
(** The constraint, before the table's name is put in front of the name of one without a name. *)
Definition fk_read_as (n : option ident) (c t fc : ident) (ds us : list string) : constraint :=
  mkConstraint (fk_first_called n c t) (snd c) (snd t) (snd fc) (first_action ds) (first_action us)
    (contradictions "DELETE" ds +++ contradictions "UPDATE" us) [].
