(** C120: INSERT statements without a space between the name of the table and the list of columns.
    Full statement: in any file, such a space changes nothing.  Proved: for files that begin with the INSERT
    statement, whatever follows; [C120_after_partial] for INSERT statements after other
    statements that are known, for the rows, the errors and the end; missing: the tables of such a file. *)
From Verif Require Import CliFacts Samples OtherFacts PropsParse PropsRound PropsCli PropsMany PropsRemark PropsOther PropsCreate PropsList SpecCut RoundMany HoldFacts.
From Coq Require Import Lia.

Local Opaque max_statements max_turns.

(** The text [s] is an INSERT INTO the table [n], a name without white space and without a bracket; [g] stands
    between the name and the bracket, [u] follows the bracket; white space counts as in MySQL. *)
Record insert_list (n g u s : string) : Prop := {
  il_name : n <> "" /\ sforall (fun c => negb (is_space c) && negb (Ascii.eqb c "(")) n = true;
  il_text : normalize s = "INSERT INTO " ++ n ++ g ++ "(" ++ u
}.

Lemma name_table n : sforall (fun c => negb (is_space c) && negb (Ascii.eqb c "(")) n = true -> sforall table_char n = true.
Proof.
  induction n as [|c n IH]; [reflexivity|]. cbn [sforall]. rewrite !andb_true_iff. intros [H Hn]. split; [|auto].
  revert H. destruct c as [[|] [|] [|] [|] [|] [|] [|] [|]]; vm_compute; intuition congruence.
Qed.
Lemma list_trim n g u s : g = "" \/ g = " " -> insert_list n g u s -> trim (String "(" u) = true /\ trim (n ++ g ++ "(" ++ u) = true.
Proof.
  intros G [[Nn Nc] E]. pose proof (normal_trim s) as T. rewrite E in T. unfold trim in T. apply andb_true_iff in T as [T _].
  assert (K : forall a x, neat (a ++ x) = true -> starts not_space x = true -> x <> "" -> trim x = true).
  { intros a x H Sx Nx. unfold trim. rewrite Sx, andb_true_r. destruct (neat_rest a x false H) as [w W]. destruct x as [|c x]; [contradiction|].
    unfold neat. cbn [neat_from starts] in *. unfold not_space in Sx. destruct (is_space c); [discriminate|exact W]. }
  split.
  - apply (K ("INSERT INTO " ++ n ++ g)); [|reflexivity|discriminate]. rewrite !sapp_assoc. exact T.
  - apply (K "INSERT INTO "); [exact T| |destruct n; [contradiction|discriminate]]. destruct n as [|c n]; [contradiction|]. cbn [sforall String.append starts] in *.
    apply andb_true_iff in Nc as [C _]. apply andb_true_iff in C as [C _]. exact C.
Qed.
(** What is read after the name does not depend on the gap. *)
Lemma list_parse n u : exists r, forall g s, g = "" \/ g = " " -> insert_list n g u s -> insert_parse s = r.
Proof.
  eexists. intros g s G H. destruct (list_trim n g u s G H) as [Tu Tn]. destruct H as [[Nn Nc] E]. apply name_table in Nc. unfold insert_parse, parse_with. rewrite E. unfold insert_rules, lit.
  assert (Nu : n ++ g ++ "(" ++ u <> "") by (destruct n; [contradiction|discriminate]).
  rewrite (step_lit _ _ _ _ _ (String " " (n ++ g ++ "(" ++ u))); [|reflexivity|rewrite strip_space by exact Tn; exact Nu]. rewrite strip_space by exact Tn.
  assert (R : @re_match (list rval * bool) (plus table_char) (n ++ g ++ "(" ++ u) = Some (VText n, g ++ "(" ++ u)) by (apply plus_word; [exact Nc|exact Nn|destruct G as [->| ->]; reflexivity]).
  assert (Su : strip (g ++ "(" ++ u) = String "(" u) by (destruct G as [->| ->]; [apply (trim_strip _ Tu)|apply (strip_space _ Tu)]).
  rewrite (step_re _ _ _ _ _ _ _ _ R) by (rewrite Su; discriminate). rewrite Su. reflexivity.
Qed.

(** For any file, any name, and any text after the bracket: the space before the bracket changes nothing, neither
    the rows, nor the errors, nor the text that is left, nor an exception. *)
Theorem C120_gap_partial : forall file n u s s', insert_list n "" u s -> insert_list n " " u s' -> read_sql file s = read_sql file s'.
Proof.
  intros file n u s s' H H'. destruct (list_parse n u) as [r L].
  assert (P : forall g s, g = "" \/ g = " " -> insert_list n g u s ->
    is_empty s = false /\ is_empty (strip s) = false /\ statement_of (strip s) = SInsert /\ insert_parse (strip s) = r).
  { clear H H' s s'. intros g s G H. pose proof (L g s G H) as P. destruct H as [_ E].
    assert (Ps : insert_parse (strip s) = r) by (unfold insert_parse, parse_with in *; rewrite normalize_strip; exact P).
    apply (normal_prefix "INSERT" s (" INTO " ++ n ++ g ++ "(" ++ u)) in E as [y Y]; [|discriminate|reflexivity].
    split; [destruct s; [discriminate|reflexivity]|]. rewrite Y in *. split; [reflexivity|]. split; [reflexivity|exact Ps]. }
  destruct (P "" s (or_introl eq_refl) H) as (A1 & A2 & A3 & A4). destruct (P " " s' (or_intror eq_refl) H') as (B1 & B2 & B3 & B4).
  unfold read_sql. pose proof statements_enough as K. destruct max_statements as [|k]; [lia|]. cbn [read_loop]. rewrite A1, A2, A3, A4, B1, B2, B3, B4. reflexivity.
Qed.
Print Assumptions C120_gap_partial.

(** The same at any place where a statement begins, whatever was read before. *)
Lemma list_loop file n u s s' : insert_list n "" u s -> insert_list n " " u s' -> forall k q, read_loop (S k) file q s = read_loop (S k) file q s'.
Proof.
  intros H H'. destruct (list_parse n u) as [r L].
  assert (P : forall g s, g = "" \/ g = " " -> insert_list n g u s ->
    is_empty s = false /\ is_empty (strip s) = false /\ statement_of (strip s) = SInsert /\ insert_parse (strip s) = r).
  { clear H H' s s'. intros g s G H. pose proof (L g s G H) as P. destruct H as [_ E].
    assert (Ps : insert_parse (strip s) = r) by (unfold insert_parse, parse_with in *; rewrite normalize_strip; exact P).
    apply (normal_prefix "INSERT" s (" INTO " ++ n ++ g ++ "(" ++ u)) in E as [y Y]; [|discriminate|reflexivity].
    split; [destruct s; [discriminate|reflexivity]|]. rewrite Y in *. split; [reflexivity|]. split; [reflexivity|exact Ps]. }
  destruct (P "" s (or_introl eq_refl) H) as (A1 & A2 & A3 & A4). destruct (P " " s' (or_intror eq_refl) H') as (B1 & B2 & B3 & B4).
  intros k q. cbn [read_loop]. rewrite A1, A2, A3, A4, B1, B2, B3, B4. reflexivity.
Qed.
(** What is read does not depend on the tables that were read before. *)
Lemma loop_tables file : forall k q q' s, rd_rows q = rd_rows q' -> Reader.rd_errors q = Reader.rd_errors q' -> rd_matched q = rd_matched q' ->
  let a := read_loop k file q s in let b := read_loop k file q' s in
  rd_rows (fst a) = rd_rows (fst b) /\ Reader.rd_errors (fst a) = Reader.rd_errors (fst b) /\ snd a = snd b.
Proof.
  induction k as [|k IH]; intros q q' s R E M; cbn [read_loop]; (destruct (is_empty s); [cbn; rewrite R, E; auto|]); [cbn; auto|].
  destruct (is_empty (strip s)); [cbn; auto|]. destruct (statement_of (strip s)).
  - apply IH; assumption.
  - destruct (create_parse (strip s)) as [[m rest]|e]; [|cbn; auto]. apply IH; assumption.
  - destruct (insert_parse (strip s)) as [[m rest]|e]; [|cbn; auto]. apply IH; unfold put_rows; cbn [rd_rows Reader.rd_errors rd_matched]; [rewrite R; reflexivity|assumption..].
  - cbn. rewrite R, E. auto.
Qed.
Lemma put_alike l : forall os os' q q', Forall2 read_as l os -> Forall2 read_as l os' -> rd_rows q = rd_rows q' -> Reader.rd_errors q = Reader.rd_errors q' -> rd_matched q = rd_matched q' ->
  rd_rows (fold_left put os q) = rd_rows (fold_left put os' q') /\ Reader.rd_errors (fold_left put os q) = Reader.rd_errors (fold_left put os' q') /\ rd_matched (fold_left put os q) = rd_matched (fold_left put os' q').
Proof.
  induction l as [|st l IH]; intros os os' q q' F F' R E M; inversion F as [|? o ? os1 A As]; inversion F' as [|? o' ? os1' A' As']; subst; [auto|]. cbn [fold_left]. apply IH; try assumption;
    destruct st, o, o'; cbn [read_as] in A, A'; try contradiction; subst; unfold put, put_table, put_rows; cbn [rd_rows Reader.rd_errors rd_matched]; rewrite ?R; auto.
Qed.

(** After any statements that are known, at least one and at most 9999, in any layout of C75: the space before the
    bracket changes neither the rows of the file, nor the errors, nor the text that is left, nor an exception. *)
Theorem C120_after_partial : forall file l n u a a' s s', l <> [] -> (N.of_nat (List.length l) < 10000)%N ->
  insert_list n "" u ("INSERT INTO " ++ n ++ "(" ++ u) -> insert_list n " " u ("INSERT INTO " ++ n ++ " (" ++ u) ->
  begun l ("INSERT INTO " ++ n ++ "(" ++ u) a -> laid_out (layout_for l) None a s ->
  begun l ("INSERT INTO " ++ n ++ " (" ++ u) a' -> laid_out (layout_for l) None a' s' ->
  rd_rows (fst (read_sql file s)) = rd_rows (fst (read_sql file s')) /\ Reader.rd_errors (fst (read_sql file s)) = Reader.rd_errors (fst (read_sql file s'))
  /\ snd (read_sql file s) = snd (read_sql file s').
Proof.
  intros file l n u a a' s s' Nl Ll I I' B L B' L'. assert (Mx : N.of_nat max_statements = 10000%N) by (apply (N2Nat.id 10000)).
  assert (K : exists k, max_statements = List.length l + S k) by (exists (max_statements - List.length l - 1); lia). destruct K as [k K].
  destruct (begun_source l _ a s B L Nl (S k) K) as (os & A & R). destruct (begun_source l _ a' s' B' L' Nl (S k) K) as (os' & A' & R').
  rewrite R, R', (list_loop file n u _ _ I I' k). destruct (put_alike l os os' new_reader new_reader A A' eq_refl eq_refl eq_refl) as (P1 & P2 & P3). apply loop_tables; assumption.
Qed.
Print Assumptions C120_after_partial.

Local Opaque read_sql.

(** Two lists of files that differ only in such spaces, in any number of files. *)
Definition same_gaps (a b : source) : Prop :=
  fst a <> "" /\ fst b = fst a /\ (snd b = snd a \/ exists n u, insert_list n "" u (snd a) /\ insert_list n " " u (snd b)).

(** The database of the files and what check prints are then the same. *)
Theorem C120_check_partial : forall (FO : FloatOracle) w w' config srcs srcs', reads_from w config srcs -> reads_from w' config srcs' -> Forall2 same_gaps srcs srcs' ->
  file_database srcs' = file_database srcs /\ run_check w' config = run_check w config.
Proof.
  intros FO w w' config srcs srcs' R R' F.
  assert (G : forall b, foldM read_source srcs' b = foldM read_source srcs b /\ source_notices b srcs' = source_notices b srcs).
  { clear R R'. induction F as [|[f s] [f' s'] l l' (N & E & H) F IH]; intros b; [split; reflexivity|]. cbn [fst snd] in N, E, H. subst f'.
    assert (Q : read_sql f s' = read_sql f s) by (destruct H as [->|(n & u & H & H')]; [reflexivity|symmetry; exact (C120_gap_partial f n u s s' H H')]).
    assert (Q' : read_source b (f, s') = read_source b (f, s)) by (unfold read_source; cbn [fst snd]; rewrite Q; reflexivity).
    cbn [foldM source_notices]. rewrite Q'. unfold source_notice. cbn [fst snd]. rewrite Q. destruct f as [|ch f]; [contradiction|]. cbn [is_empty]. destruct (read_source b (String ch f, s)) as [b'|e]; [|split; reflexivity].
    cbn [bind]. destruct (IH b') as [I1 I2]. rewrite I1, I2. split; reflexivity. }
  assert (D : file_database srcs' = file_database srcs) by (unfold file_database; rewrite (proj1 (G empty_database)); reflexivity).
  split; [exact D|]. unfold run_check. rewrite (reads_notices w config srcs R), (reads_notices w' config srcs' R'), (proj2 (G empty_database)).
  rewrite (reads_load w config srcs R), (reads_load w' config srcs' R'), D. reflexivity.
Qed.
Print Assumptions C120_check_partial.

(** [INSERT INTO t(id) VALUES (1);] gives one row for the table [t]. *)
Example ex_C120_gap : insert_list "t" "" "id) VALUES (1);" "INSERT INTO  t(id) VALUES (1);" /\ insert_list "t" " " "id) VALUES (1);" "INSERT INTO t (id) VALUES (1);"
  /\ exists w, rd_rows (fst (read_sql "" "INSERT INTO  t(id) VALUES (1);")) = [("t", [w])] /\ r_table w = "t" /\ r_raw w = [[RStr "1"]].
Proof.
  split; [split; [split; [discriminate|reflexivity]|reflexivity]|]. split; [split; [split; [discriminate|reflexivity]|reflexivity]|].
  eexists. vm_compute. auto.
Qed.

Definition gap_world (s : string) : world :=
  site_world "/srv/app/sql" ["rows.sql"; "t.sql"] [("/srv/app/sql/rows.sql", s); ("/srv/app/sql/t.sql", "CREATE TABLE t (id INT NOT NULL, PRIMARY KEY (id));")] [].
Example ex_C120_check : let srcs s := [("/srv/app/sql/rows.sql", s); ("/srv/app/sql/t.sql", "CREATE TABLE t (id INT NOT NULL, PRIMARY KEY (id));")] in
  let s := "INSERT INTO  t(id) VALUES (1);" in let s' := "INSERT INTO t (id) VALUES (1);" in
  reads_from (gap_world s) "mygrate.conf" (srcs s) /\ reads_from (gap_world s') "mygrate.conf" (srcs s') /\ Forall2 same_gaps (srcs s) (srcs s').
Proof.
  intros srcs s s'. split; [exists "/srv/app/sql"; split; vm_compute; reflexivity|]. split; [exists "/srv/app/sql"; split; vm_compute; reflexivity|].
  destruct ex_C120_gap as (A & B & _).
  constructor; [|constructor; [|constructor]]; (split; [discriminate|]; split; [reflexivity|]); [right; exists "t", "id) VALUES (1);"; split; [exact A|exact B]|left; reflexivity].
Qed.

Definition gap_text_of (g : string) : string := "INSERT INTO logs" ++ g ++ "(id) VALUES (7); INSERT INTO logs (id) VALUES (8);".
Example ex_C120_after : forall g, g = "" \/ g = " " -> insert_list "logs" g "id) VALUES (7); INSERT INTO logs (id) VALUES (8);" (gap_text_of g)
  /\ begun source_a (gap_text_of g) (users_plain ++ " " ++ insert_text "users" ["id"; "name"] true true users_rows ";" ++ " " ++ gap_text_of g).
Proof.
  intros g G. split; [destruct G as [->| ->]; (split; [split; [discriminate|reflexivity]|reflexivity])|].
  apply begun_more; [constructor; [exact users_written|reflexivity]| |intros T _; destruct G as [->| ->]; reflexivity].
  apply begun_last; [rows_written true true| |intros T E; discriminate].
  destruct G as [->| ->]; (constructor; [discriminate|vm_compute; reflexivity|apply no_comment_like; reflexivity|apply no_length_like; reflexivity]).
Qed.
