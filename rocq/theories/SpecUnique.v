(** Unique keys, written from the meaning of UNIQUE: a server refuses a statement that would leave two
    rows of a table with the same values in all columns of a unique key.  A row with NULL in one of the
    columns never counts as equal.  Values are compared byte by byte; a collation that ignores case or
    trailing spaces makes more rows equal than that. *)
From Verif Require Export SpecRows.

(** The two rows have the same values in all columns of the key. *)
Definition collide (cols : list string) (a b : srow) : Prop :=
  forall c, In c cols -> a c = b c /\ a c <> None.

(** No two rows of the table collide. *)
Definition obeys (cols : list string) (rows : srows) : Prop :=
  forall i j a b, i <> j -> rows i = Some a -> rows j = Some b -> ~ collide cols a b.

(** Running [ops], every statement leaves the rows of table [n] as the unique key asks: the server
    refuses none of them. *)
Definition never_refused (has : string -> string -> bool) (dflt : string -> srow) (n : string) (cols : list string)
  (ops : list op) (s : rserver) : Prop :=
  forall done rest s1, ops = done +++ rest -> exec_rows has dflt done s = Some s1 -> obeys cols (s1 n).

(** [x] stands before [y] in [l]. *)
Definition before {A : Type} (x y : A) (l : list A) : Prop :=
  exists l1 l2 l3, l = l1 +++ x :: l2 +++ y :: l3.
