(** Specification: sources that hold several statements, and what they say. *)
From Verif Require Export SpecWrite.

(** A CREATE TABLE statement, or an INSERT statement with its columns and groups of values. *)
Inductive stmt : Type := StTable (T : tmeaning) | StRows (n : string) (cols : list string) (gs : list (list literal)).

(** Two hyphens, which begin a comment, and a number in parentheses after a word that follows a
    parenthesis or a comma, as in [KEY a (name(10))]: both are removed from everything that follows
    a CREATE TABLE statement, even inside of quotes. *)
Definition comment_like (s : string) : Prop := exists a b, s = a ++ "--" ++ b.
Definition tick_or_none (q : string) : Prop := q = "" \/ q = String bquote "".
Definition length_like (s : string) : Prop :=
  exists a c w q n q' d b, s = a ++ String c (w ++ q ++ n ++ q' ++ "(" ++ d ++ ")" ++ b)
    /\ (c = "("%char \/ c = ","%char) /\ blank w /\ tick_or_none q /\ tick_or_none q'
    /\ n <> "" /\ sforall is_word n = true /\ digits d.

(** A statement with single spaces only. *)
Inductive stmt_written : stmt -> string -> Prop :=
| written_table T s : create_written T true s -> collapse_ws s = s -> stmt_written (StTable T) s
| written_rows n cols gs sp gp s :
    s = insert_text n cols sp gp gs ";" ->
    table_name_ok n -> cols <> [] -> Forall column_name_ok cols ->
    gs <> [] -> Forall (group_ok (List.length cols)) gs -> (N.of_nat (List.length gs) < 1000)%N ->
    ~ comment_like s -> ~ length_like s ->
    stmt_written (StRows n cols gs) s.
(** Statements one after the other.  Up to 30 characters followed by an equals sign are read as the
    options of the table, across the semicolon. *)
Inductive statements : list stmt -> string -> Prop :=
| statements_one st s : stmt_written st s -> statements [st] s
| statements_more st s l r : stmt_written st s -> statements l r ->
    (forall T, st = StTable T -> has_char "=" (stake 30 r) = false) ->
    statements (st :: l) (s ++ " " ++ r).

(** The same text with some spaces replaced by other layout, but not inside of quotes. *)
Definition quote_after (q : option ascii) (c : ascii) : option ascii :=
  match q with
  | None => if Ascii.eqb c squote || Ascii.eqb c bquote then Some c else None
  | Some d => if Ascii.eqb c d then None else q
  end.
Inductive laid_out (lay : string -> Prop) : option ascii -> string -> string -> Prop :=
| laid_end q : laid_out lay q "" ""
| laid_char q c s s' : laid_out lay (quote_after q c) s s' -> laid_out lay q (String c s) (String c s')
| laid_space q c w s s' : c <> "-"%char -> quote_after q c = None -> lay w ->
    laid_out lay None s s' -> laid_out lay q (String c (String " " s)) (String c (w ++ s')).
(** Comments are allowed if the first statement is a CREATE TABLE statement. *)
Definition layout_for (l : list stmt) : string -> Prop :=
  match l with StTable _ :: _ => layout | _ => fun w => w <> "" /\ blank w end.
Definition source_holds (l : list stmt) (s' : string) : Prop :=
  (N.of_nat (List.length l) <= 10000)%N /\ exists s, statements l s /\ laid_out (layout_for l) None s s'.

(** ** What the statements say *)

Definition tables_in (l : list stmt) : list tmeaning :=
  concat (map (fun st => match st with StTable T => [T] | _ => [] end) l).
(** The rows for one table: the columns and the values. *)
Definition rows_in (n : string) (l : list stmt) : list (list string * list literal) :=
  concat (map (fun st => match st with
                         | StRows m cols gs => if String.eqb m n then map (pair cols) gs else []
                         | _ => []
                         end) l).
Definition row_of (x : list string * list literal) : row := List.combine (fst x) (map lit_value (snd x)).
(** The text under [id]. *)
Definition id_of (x : list string * list literal) : string :=
  match dget "id" (row_of x) with Some (RStr s) => s | _ => "" end.

(** Every table is there once, every row has a table and an id of its own. *)
Record consistent (l : list stmt) : Prop := {
  co_tables : NoDup (map tm_name (tables_in l));
  co_rows : forall n cols gs, In (StRows n cols gs) l -> In n (map tm_name (tables_in l)) /\ NoDup cols /\ In "id" cols;
  co_ids : forall n, Forall (fun x => id_of x <> "") (rows_in n l) /\ NoDup (map id_of (rows_in n l))
}.
(** The rows of a table in memory. *)
Definition says_rows (t : table) (xs : list (list string * list literal)) : Prop :=
  t_rows t = match xs with [] => None | _ => Some (map (fun x => (id_of x, row_of x)) xs) end.
