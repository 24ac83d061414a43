(** Sources with statements that the tool does not know. *)
From Verif Require Export RoundCut SpecOther.

Local Opaque max_turns max_statements.

Lemma lit_stake lit : forall s, lower lit = lit -> lower (stake (String.length lit) s) <> lit -> match_lit lit s = None.
Proof.
  induction lit as [|a lit IH]; intros s E N; [exfalso; apply N; destruct s; reflexivity|]. destruct s as [|b s]; [reflexivity|].
  cbn [match_lit]. unfold lower in E, N. cbn [smap] in E. injection E as Ea El. cbn [String.length stake smap] in N.
  destruct (Ascii.eqb_spec (to_lower a) (to_lower b)) as [H|H]; [|reflexivity]. apply (IH s El). intros F. apply N. unfold lower in F. rewrite <- H, Ea, F. reflexivity.
Qed.
Lemma other_none r : other_statement r -> statement_of r = SOther.
Proof.
  intros [A B C D E F]. unfold statement_of. rewrite B, C, D. cbn [orb]. rewrite (lit_stake "create" r eq_refl E), (lit_stake "insert" r eq_refl F). reflexivity.
Qed.
Lemma notice_eq file r : "Unrecognized MySQL command: " ++ r ++ filename_notice file = complaint file r.
Proof. unfold complaint, filename_notice. destruct file; reflexivity. Qed.

(** ** One source *)

Definition told_of (file : string) (x : res string) : list string := match x with Ok EmptyString | Raise _ => [] | Ok r => [complaint file r] end.
Lemma loop_told n file : forall r s r' x, read_loop n file r s = (r', x) -> Reader.rd_errors r' = Reader.rd_errors r +++ told_of file x.
Proof.
  induction n as [|n IH]; intros r s r' x E; cbn [read_loop] in E; (destruct (is_empty s) eqn:Es; [injection E as <- <-; destruct s; [|discriminate]; cbn; rewrite app_nil_r; reflexivity|]).
  - injection E as <- <-. cbn. rewrite app_nil_r. reflexivity.
  - destruct (is_empty (strip s)) eqn:Et; [injection E as <- <-; cbn; rewrite app_nil_r; reflexivity|]. destruct (statement_of (strip s)).
    + apply IH in E. exact E.
    + destruct (create_parse (strip s)) as [[m rest]|e]; [apply IH in E; exact E|]. injection E as <- <-. cbn. rewrite app_nil_r. reflexivity.
    + destruct (insert_parse (strip s)) as [[m rest]|e]; [apply IH in E; exact E|]. injection E as <- <-. cbn. rewrite app_nil_r. reflexivity.
    + injection E as <- <-. cbn [Reader.rd_errors]. unfold told_of. destruct (strip s) as [|c t] eqn:Z; [discriminate|]. rewrite <- notice_eq. reflexivity.
Qed.
Lemma source_told src : Reader.rd_errors (fst (read_sql (fst src) (snd src))) = complaints src.
Proof.
  unfold complaints. destruct (read_sql (fst src) (snd src)) as [r x] eqn:E. unfold read_sql in E. cbn [fst snd]. rewrite (loop_told _ _ _ _ _ _ E). reflexivity.
Qed.

Definition ended (file r : string) (q : reader) : reader * res string :=
  (mkReader (rd_tables q) (rd_rows q) (Reader.rd_errors q +++ [complaint file r]) (rd_matched q), Ok r).
Lemma other_loop r : other_statement r -> strip r = r -> forall n file q, read_loop (Datatypes.S n) file q r = ended file r q.
Proof.
  intros O E n file q. cbn [read_loop]. rewrite E, (other_none r O). destruct O as [N _ _ _ _ _]. destruct r as [|c r]; [contradiction|]. cbn [is_empty]. rewrite notice_eq. reflexivity.
Qed.
Lemma tail_strip r : tail r -> strip r = r.
Proof. intros T. apply tail_next in T as (T & _). apply trim_strip, T. Qed.
Lemma begun_other l r s : begun l r s -> other_statement r ->
  trim s = true /\ s <> "" /\ no_dd false s = true /\ no_drop s
  /\ exists os, Forall2 read_as l os /\ forall file n q, List.length l < n -> read_loop n file q s = ended file r (fold_left put os q).
Proof.
  intros B U. induction B as [st s r W T O|st s l r t W B IH O].
  - destruct (tail_next r T) as (Tr & Nr & Dr & Pr).
    assert (Nx : next_ok st r) by (split; [exact Tr|]; split; [exact Nr|]; split; [exact Dr|]; split; [exact Pr|exact O]).
    destruct (stmt_follow st s r W (or_intror Nx)) as (T' & D & P & o & A & R & _).
    assert (Z : spaced_text r = " " ++ r) by (destruct r; [contradiction|reflexivity]). rewrite Z in *.
    split; [exact T'|]. split; [destruct (stmt_text st s W) as [_ [x ->]]; destruct x; discriminate|]. split; [exact D|]. split; [exact P|].
    exists [o]. split; [constructor; [exact A|constructor]|]. intros file n q L. destruct n as [|[|n]]; [cbn in L; lia..|]. rewrite R. cbn [fold_left]. apply (other_loop r U (tail_strip r T)).
  - destruct (IH U) as (Tr & Nr & Dr & Pr & os & As & Rs).
    assert (Nx : next_ok st t) by (split; [exact Tr|]; split; [exact Nr|]; split; [exact Dr|]; split; [exact Pr|exact O]).
    destruct (stmt_follow st s t W (or_intror Nx)) as (T & D & P & o & A & R & _).
    assert (Z : spaced_text t = " " ++ t) by (destruct t; [contradiction|reflexivity]). rewrite Z in *.
    split; [exact T|]. split; [destruct (stmt_text st s W) as [_ [x ->]]; destruct x; discriminate|]. split; [exact D|]. split; [exact P|].
    exists (o :: os). split; [constructor; assumption|]. intros file n q L. destruct n as [|n]; [cbn in L; lia|]. rewrite R. cbn [fold_left]. apply Rs. cbn [List.length] in L. lia.
Qed.
Lemma other_read l r s' : other_after l r s' -> Forall stmt_rows_ok l /\ exists os, Forall2 read_as l os /\ forall file, read_sql file s' = ended file r (fold_left put os new_reader).
Proof.
  intros [U H]. assert (Mx : N.of_nat max_statements = 10000%N) by (apply (N2Nat.id 10000)).
  assert (X : exists k, max_statements = Datatypes.S k) by (destruct max_statements as [|k]; [cbn in Mx; lia|eauto]). destruct X as [k X].
  destruct l as [|st l].
  - split; [constructor|]. exists []. split; [constructor|]. intros file. unfold read_sql. rewrite X. cbn [read_loop fold_left]. rewrite H, (other_none r U), notice_eq. destruct U as [N _ _ _ _ _].
    destruct r as [|c r]; [contradiction|]. destruct s' as [|d s']; [discriminate H|]. reflexivity.
  - destruct H as (Len & s & B & L). split; [apply (begun_rows_ok _ _ _ B)|].
    assert (Lm : List.length (st :: l) < max_statements) by lia. clear Len.
    assert (G : exists s0 t, stmt_written st s0 /\ s = s0 ++ spaced_text t /\ next_ok st t
      /\ exists os, Forall2 read_as l os /\ forall file n q, List.length l < n -> read_loop n file q t = ended file r (fold_left put os q)).
    { inversion B as [st0 s0 r0 W T O|st0 s0 l0 r0 t W B' O]; subst.
      - destruct (tail_next r T) as (Tr & Nr & Dr & Pr). exists s0, r. split; [exact W|]. split; [destruct r; [contradiction|reflexivity]|].
        split; [repeat split; assumption|]. exists []. split; [constructor|]. intros file n q Ln. destruct n as [|n]; [cbn in Ln; lia|]. apply (other_loop r U (tail_strip r T)).
      - destruct (begun_other _ _ _ B' U) as (Tr & Nr & Dr & Pr & Q). exists s0, t. split; [exact W|]. split; [destruct t; [contradiction|reflexivity]|].
        split; [repeat split; assumption|exact Q]. }
    destruct G as (s0 & t & W & -> & Nx & os & As & Rs). destruct (laid_step st l s0 t s' W (or_intror Nx) L) as (o & A & Step).
    exists (o :: os). split; [constructor; assumption|]. intros file. unfold read_sql. cbn [fold_left].
    rewrite X, Step. rewrite X in Lm. cbn [List.length] in Lm. apply Rs; lia.
Qed.
Lemma other_complaint l r file s : other_after l r s -> complaints (file, s) = [complaint file r].
Proof.
  intros H. pose proof H as [[N _ _ _ _ _] _]. destruct (other_read l r s H) as (_ & os & _ & R). unfold complaints. cbn [fst snd]. rewrite R. cbn [ended snd]. destruct r; [contradiction|reflexivity].
Qed.

(** ** All sources *)
Section All.
  Context {FO : FloatOracle}.

  Definition rows_full (b : database) : Prop := forall d n l, d_rows b = Some d -> In (n, l) d -> l <> [].
  Lemma errors_rows b b' r : db_errors b = (b', r) -> d_rows b' = d_rows b.
  Proof.
    assert (S : forall b1 r1, find_schema_errors b = (b1, r1) -> d_rows b1 = d_rows b).
    { unfold find_schema_errors. intros b1 r1. destruct (d_schema b); [intros [= <- _]; reflexivity|].
      repeat match goal with |- context [match ?x with _ => _ end] => destruct x; try (intros [= <- _]; reflexivity) end. }
    assert (P : forall x b1 r1, find_parsing_errors x = (b1, r1) -> d_rows b1 = d_rows x).
    { unfold find_parsing_errors. intros x b1 r1. destruct (d_parsing x); [intros [= <- _]; reflexivity|].
      repeat match goal with |- context [match ?x with _ => _ end] => destruct x; try (intros [= <- _]; reflexivity) end. }
    unfold db_errors. destruct (find_schema_errors b) as [b1 [l|e]] eqn:E1; [|intros [= <- _]; eauto].
    destruct (find_parsing_errors b1) as [b2 [m|e]] eqn:E2; intros [= <- _]; rewrite (P _ _ _ E2); eauto.
  Qed.
  Lemma put_file_rows b t b' : put_file_table b t = Ok b' -> d_rows b' = d_rows b.
  Proof.
    unfold put_file_table. intros E. apply bind_ok in E as (b1 & E1 & [= <-]). simpl.
    destruct (dmem _ _); [|congruence]. destruct (db_errors b) as [b2 [l|e]] eqn:E2; [|discriminate]. injection E1 as <-. eapply errors_rows; eauto.
  Qed.
  Lemma push_full ws : forall b, rows_full b -> rows_full (fold_left push_rows ws b).
  Proof.
    induction ws as [|w ws IH]; intros b F; [exact F|]. cbn [fold_left]. apply IH. intros d n l E I. unfold push_rows in E. cbn [d_rows] in E. destruct (d_rows b) as [d0|] eqn:D; [|discriminate]. injection E as <-.
    unfold dpush in I. apply dset_in in I as [[-> ->]|I]; [|exact (F d0 n l D I)]. destruct (dget _ _) as [l0|]; [destruct l0|]; discriminate.
  Qed.
  Lemma read_source_told b src b' : rows_full b -> read_source b src = Ok b' -> rows_full b' /\ d_global_errors b' = d_global_errors b +++ complaints src.
  Proof.
    intros F. unfold read_source. pose proof (source_told src) as T. destruct (read_sql (fst src) (snd src)) as [r x]. cbn [fst] in T.
    destruct (caught x); [discriminate|]. intros E. apply bind_ok in E as (b1 & E1 & E2). injection E2 as <-.
    assert (K : d_rows b1 = d_rows b /\ d_global_errors b1 = d_global_errors b).
    { refine (foldM_inv (fun z => d_rows z = d_rows b /\ d_global_errors z = d_global_errors b) put_file_table _ _ _ _ (conj eq_refl eq_refl) E1).
      intros z t z' _ [Z1 Z2] E. rewrite (put_file_rows _ _ _ E), (put_file_table_silent _ _ _ E). auto. }
    destruct K as [K1 K2]. split.
    - apply push_full. intros d n l D I. cbn [add_errors d_rows] in D. rewrite K1 in D. apply (F d n l D I).
    - match goal with |- context [fold_left push_rows ?l ?b] => destruct (ReadMore.push_all l b) as (_ & E & _) end. rewrite E. cbn [add_errors d_global_errors]. rewrite K2, T. reflexivity.
  Qed.
  Lemma sources_told srcs : forall b b', rows_full b -> foldM read_source srcs b = Ok b' -> rows_full b' /\ d_global_errors b' = d_global_errors b +++ concat (map complaints srcs).
  Proof.
    induction srcs as [|src srcs IH]; intros b b' F E; [injection E as <-; split; [exact F|cbn; rewrite app_nil_r; reflexivity]|].
    cbn [foldM] in E. apply bind_ok in E as (b1 & E1 & E2). destruct (read_source_told b src b1 F E1) as [F1 G1]. destruct (IH b1 b' F1 E2) as [F2 G2].
    split; [exact F2|]. rewrite G2, G1, <- app_assoc. reflexivity.
  Qed.
  Lemma database_told srcs b : file_database srcs = Ok b -> d_global_errors b = concat (map complaints srcs).
  Proof.
    unfold file_database. intros E. apply bind_ok in E as (b1 & E1 & E2). destruct (sources_told srcs empty_database b1) as [F G]; [intros d n l [= <-] []|exact E1|].
    change (d_global_errors empty_database +++ concat (map complaints srcs)) with (concat (map complaints srcs)) in G. rewrite <- G. unfold Reader.combine in E2. refine (foldM_inv (fun z => d_global_errors z = d_global_errors b1) combine_one _ _ _ _ eq_refl E2).
    intros z [n ws] z' I Z E. unfold combine_one in E. destruct (dget n (d_tables z)) as [o|].
    - apply bind_ok in E as (o' & _ & [= <-]). exact Z.
    - destruct ws as [|w ws]; [|discriminate]. exfalso. destruct (d_rows b1) as [d|] eqn:D; [|destruct I]. apply (F d n [] D I eq_refl).
  Qed.
End All.
