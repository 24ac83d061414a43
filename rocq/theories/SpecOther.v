(** Specification: sources with statements that the tool does not know. *)
From Verif Require Export SpecCut.

(** Text that begins neither with a comment nor with CREATE or INSERT, in capital or small letters. *)
Record other_statement (r : string) : Prop := {
  ot_some : r <> "";
  ot_dashes : String.prefix "--" r = false;
  ot_block : String.prefix "/*" r = false;
  ot_hash : String.prefix "#" r = false;
  ot_create : lower (stake 6 r) <> "create";
  ot_insert : lower (stake 6 r) <> "insert"
}.
(** The source [s'] holds the statements [l], written and laid out in any way that C75 allows, and then the
    text [r].  With no statements at all, [r] is the text of the source without white space at its ends. *)
Definition other_after (l : list stmt) (r s' : string) : Prop :=
  other_statement r
  /\ match l with
     | [] => strip s' = r
     | _ => (N.of_nat (List.length l) < 10000)%N /\ exists s, begun l r s /\ laid_out (layout_for l) None s s'
     end.

(** How it is reported. *)
Definition complaint (file r : string) : string :=
  "Unrecognized MySQL command: " ++ r ++ match file with EmptyString => "" | _ => " in file " ++ file end.
(** The text at which the reading of a source ends, if it ends in this way. *)
Definition complaints (src : source) : list string :=
  match snd (read_sql (fst src) (snd src)) with
  | Ok EmptyString | Raise _ => []
  | Ok r => [complaint (fst src) r]
  end.
