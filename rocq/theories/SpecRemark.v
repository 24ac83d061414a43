(** Specification: sources with comments between the statements, and which of their statements count. *)
From Verif Require Export SpecCut.

(** The text of a block comment: it does not hold the end of a comment. *)
Definition unclosed (m : string) : Prop := forall a b, "*" ++ m ++ "*" <> a ++ "*/" ++ b.

(** [remarked l n s]: the text [s] follows a statement and consists of [n] pieces, which are statements and
    comments; of its statements those in [l] count.  A block comment is passed over; a comment that begins
    with a number sign hides everything up to the end of the text, even what stood on other lines before
    the white space of the text was made single spaces. *)
Inductive remarked : list stmt -> nat -> string -> Prop :=
| remarked_last st s : stmt_written st s -> remarked [st] 1 s
| remarked_more st s l n t : stmt_written st s -> remarked l n t -> no_option_after st t -> remarked (st :: l) (Datatypes.S n) (s ++ " " ++ t)
| remarked_block m l n t : unclosed m -> tail ("/*" ++ m ++ "*/ " ++ t) -> remarked l n t -> remarked l (Datatypes.S n) ("/*" ++ m ++ "*/ " ++ t)
| remarked_block_end m : unclosed m -> tail ("/*" ++ m ++ "*/") -> remarked [] 1 ("/*" ++ m ++ "*/")
| remarked_hash m : tail ("#" ++ m) -> remarked [] 1 ("#" ++ m).

(** A source that begins with the statement [st]; the layout may be any that C75 allows. *)
Definition holds_remarked (l : list stmt) (s' : string) : Prop :=
  exists st s l' n t, l = st :: l' /\ stmt_written st s /\ remarked l' n t /\ no_option_after st t
    /\ (N.of_nat n < 10000)%N /\ laid_out (layout_for l) None (s ++ " " ++ t) s'.
