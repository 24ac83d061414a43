(** Specification: sources with statements that are well written, followed by text of which nothing is read. *)
From Verif Require Export SpecMany Reader.

(** The text [r] after the statement [st]: single spaces only, none at the ends, and none of what the
    reading of a statement removes from the text after it. *)
Record tail (r : string) : Prop := {
  tl_some : r <> "";
  tl_spaces : normalize r = r;
  tl_comment : ~ comment_like r;
  tl_length : ~ length_like r
}.
Definition no_option_after (st : stmt) (r : string) : Prop := forall T, st = StTable T -> has_char "=" (stake 30 r) = false.

(** [begun l r s]: the text [s] is the statements [l], one after the other, and then [r]. *)
Inductive begun : list stmt -> string -> string -> Prop :=
| begun_last st s r : stmt_written st s -> tail r -> no_option_after st r -> begun [st] r (s ++ " " ++ r)
| begun_more st s l r t : stmt_written st s -> begun l r t -> no_option_after st t -> begun (st :: l) r (s ++ " " ++ t).

(** A file that cannot be read: on its own, the text ends in an error before anything is taken from it. *)
Definition unreadable (r : string) : Prop := exists file m, read_sql file r = (new_reader, Raise (ValueError m)).

(** A file whose reading ends with an error after the statements [l]: they may be laid out in any way that
    C75 allows.  With no statements at all, it is a file that cannot be read. *)
Definition cut_after (l : list stmt) (s' : string) : Prop :=
  match l with
  | [] => unreadable s'
  | _ => (N.of_nat (List.length l) <= 10000)%N /\ exists r s, unreadable r /\ begun l r s /\ laid_out (layout_for l) None s s'
  end.
