(** Specification: sources in which a CREATE TABLE statement that the tool cannot read follows other statements. *)
From Verif Require Export SpecHalt SpecLate SpecOdd.

(** The text [z] begins with a CREATE TABLE statement that is not read to its end: [d] is what is left, from a
    definition that is not known on (C118), or from a word that is not known (C100). *)
Inductive unfinished (d : string) : string -> Prop :=
| unfinished_definition n before z : stopped n before d z -> unknown_definition d -> (N.of_nat (List.length before) < 1000)%N -> unfinished d z
| unfinished_late n before l z : stopped n before (l ++ " " ++ d) z -> two_words l -> named_list d -> (N.of_nat (List.length before) < 999)%N -> unfinished d z
| unfinished_odd n before p l t z : stopped n before (t ++ " " ++ d) z -> odd_lead p l t -> odd_word d -> (N.of_nat (List.length before + List.length l) < 998)%N -> unfinished d z.
(** The source [s'] holds the statements [l], at least one, written and laid out in any way that C75 allows, and then
    such a text. *)
Definition held_after (l : list stmt) (d s' : string) : Prop :=
  other_statement d /\ l <> [] /\ (N.of_nat (List.length l) < 9999)%N
  /\ exists z s, unfinished d z /\ begun l z s /\ laid_out (layout_for l) None s s'.
