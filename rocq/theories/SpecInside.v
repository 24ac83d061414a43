(** Specification: comments inside of statements. *)
From Verif Require Export SpecRemark.

(** A text that begins with the word CREATE, in any letter case. *)
Definition opens_create (s : string) : Prop := exists w r, s = w ++ r /\ lower w = "create".
(** A text whose last character is a hyphen. *)
Definition hyphen_last (s : string) : Prop := exists a, s = a ++ "-".

(** [commented s s']: [s'] is [s] with further comments, each from two hyphens to the end of its line, at
    any places after the first word, inside and outside of statements. *)
Inductive commented (s : string) : string -> Prop :=
| commented_same : commented s s
| commented_line a m b : opens_create a -> ~ hyphen_last a -> has_char newline m = false ->
    commented s (a ++ String newline b) -> commented s (a ++ "--" ++ m ++ String newline b)
| commented_last a m : opens_create a -> ~ hyphen_last a -> has_char newline m = false -> commented s a -> commented s (a ++ "--" ++ m).
