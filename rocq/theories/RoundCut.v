(** Reading sources that end in text that is not understood. *)
From Verif Require Export RoundRows SpecCut.

Local Opaque max_turns max_statements.

(** ** Text that is not read *)

Definition grown (q : reader) : Prop := rd_tables q <> [] \/ rd_rows q <> [] \/ Reader.rd_errors q <> [].
Lemma dset_some {A} k (v : A) d : dset k v d <> [].
Proof. destruct d as [|[j x] d]; [discriminate|]. simpl. destruct (String.eqb k j); discriminate. Qed.
Lemma put_table_grown q t : grown (put_table q t).
Proof. left. apply dset_some. Qed.
Lemma put_rows_grown q w : grown (put_rows q w).
Proof. right. left. cbn [put_rows rd_rows]. unfold dpush. destruct (dget _ _); apply dset_some. Qed.
Lemma loop_grown n file : forall q s, grown q -> grown (fst (read_loop n file q s)).
Proof.
  induction n as [|n IH]; intros q s G; cbn [read_loop]; (destruct (is_empty s); [exact G|]); [exact G|].
  destruct (is_empty (strip s)); [exact G|]. destruct (statement_of (strip s)).
  - apply IH, G.
  - destruct (create_parse (strip s)) as [[m rest]|]; [|exact G]. apply IH, put_table_grown.
  - destruct (insert_parse (strip s)) as [[m rest]|]; [|exact G]. apply IH, put_rows_grown.
  - right. right. cbn. destruct (Reader.rd_errors q); discriminate.
Qed.
Lemma unread_loop n file m : forall s, read_loop n file new_reader s = (new_reader, Raise (ValueError m)) ->
  forall n' file' q, n' <= n -> exists m', read_loop n' file' q s = (q, Raise (ValueError m')).
Proof.
  induction n as [|n IH]; intros s E n' file' q L; (destruct n' as [|n']; [cbn [read_loop] in *; destruct (is_empty s); [discriminate|eexists; reflexivity]|]); [lia|].
  cbn [read_loop] in *. destruct (is_empty s); [discriminate|]. destruct (is_empty (strip s)); [discriminate|]. destruct (statement_of (strip s)).
  - apply (IH _ E). lia.
  - destruct (create_parse (strip s)) as [[x rest]|e].
    + exfalso. pose proof (loop_grown n file _ rest (put_table_grown new_reader (match x with Some t => t | None => no_table end))) as G. rewrite E in G.
      destruct G as [G|[G|G]]; apply G; reflexivity.
    + injection E as ->. eexists. reflexivity.
  - destruct (insert_parse (strip s)) as [[x rest]|e].
    + exfalso. pose proof (loop_grown n file _ rest (put_rows_grown new_reader (match x with Some t => t | None => no_rows end))) as G. rewrite E in G.
      destruct G as [G|[G|G]]; apply G; reflexivity.
    + injection E as ->. eexists. reflexivity.
  - discriminate.
Qed.

(** ** Statements, then text that is not read *)

Lemma no_length_drop r : ~ length_like r -> no_drop r.
Proof.
  induction r as [|c r IH]; intros N; [reflexivity|].
  assert (N' : ~ length_like r).
  { intros (a & c' & w & q & n & q' & d & b & E & H). apply N. exists (String c a), c', w, q, n, q', d, b. split; [cbn [String.append]; f_equal; exact E|exact H]. }
  unfold no_drop. cbn [drop_lengths_from]. rewrite (IH N').
  destruct (Ascii.eqb c "(" || Ascii.eqb c ",") eqn:C; [|reflexivity]. destruct (prefix_length r) as [[g k]|] eqn:P; [|reflexivity]. exfalso.
  destruct (prefix_length_text _ _ _ P) as (w & q & n & q' & d & z & E & B & Q & Q' & Nn & Wn & [Dn Dd]).
  apply N. exists "", c, w, q, n, q', d, z. split; [cbn [String.append]; rewrite E; reflexivity|].
  split; [apply orb_true_iff in C as [C|C]; apply Ascii.eqb_eq in C; subst; auto|]. repeat split; assumption.
Qed.
Lemma tail_next r : tail r -> trim r = true /\ r <> "" /\ no_dd false r = true /\ no_drop r.
Proof.
  intros [N E C L]. split; [|split; [exact N|split; [apply no_comment, C|apply no_length_drop, L]]].
  rewrite <- E. unfold trim. rewrite neat_normalize. cbn [andb]. unfold normalize, strip, strip_by.
  generalize (rstrip_by is_space (collapse_ws r)). clear. induction s as [|c s IH]; [reflexivity|]. cbn [lstrip_by]. destruct (is_space c) eqn:S; [exact IH|]. cbn [starts]. unfold not_space. rewrite S. reflexivity.
Qed.
Lemma begun_read l r s : begun l r s -> unreadable r ->
  trim s = true /\ s <> "" /\ no_dd false s = true /\ no_drop s
  /\ exists os, Forall2 read_as l os /\ forall file n q, (n <= max_statements) -> List.length l <= n -> exists m, read_loop n file q s = (fold_left put os q, Raise (ValueError m)).
Proof.
  intros B (f & m & U). induction B as [st s r W T O|st s l r t W B IH O].
  - destruct (tail_next r T) as (Tr & Nr & Dr & Pr).
    assert (Nx : next_ok st r) by (split; [exact Tr|]; split; [exact Nr|]; split; [exact Dr|]; split; [exact Pr|exact O]).
    destruct (stmt_follow st s r W (or_intror Nx)) as (T' & D & P & o & A & R & _).
    assert (Z : spaced_text r = " " ++ r) by (destruct r; [contradiction|reflexivity]). rewrite Z in *.
    split; [exact T'|]. split; [destruct (stmt_text st s W) as [_ [x ->]]; destruct x; discriminate|]. split; [exact D|]. split; [exact P|].
    exists [o]. split; [constructor; [exact A|constructor]|]. intros file n q L1 L. destruct n as [|n]; [cbn in L; lia|]. rewrite R. cbn [fold_left]. apply (unread_loop max_statements f m r U). lia.
  - destruct (IH U) as (Tr & Nr & Dr & Pr & os & As & Rs).
    assert (Nx : next_ok st t) by (split; [exact Tr|]; split; [exact Nr|]; split; [exact Dr|]; split; [exact Pr|exact O]).
    destruct (stmt_follow st s t W (or_intror Nx)) as (T & D & P & o & A & R & _).
    assert (Z : spaced_text t = " " ++ t) by (destruct t; [contradiction|reflexivity]). rewrite Z in *.
    split; [exact T|]. split; [destruct (stmt_text st s W) as [_ [x ->]]; destruct x; discriminate|]. split; [exact D|]. split; [exact P|].
    exists (o :: os). split; [constructor; assumption|]. intros file n q L1 L. destruct n as [|n]; [cbn in L; lia|]. rewrite R. cbn [fold_left]. apply Rs; [lia|cbn [List.length] in L; lia].
Qed.
Lemma begun_rows_ok l r s : begun l r s -> Forall stmt_rows_ok l.
Proof.
  assert (G : forall st s, stmt_written st s -> stmt_rows_ok st).
  { intros st x W. pose proof (statements_rows_ok [st] x (statements_one st x W)) as F. inversion F; assumption. }
  induction 1; constructor; try constructor; eauto.
Qed.
Lemma put_matched os : forall q, rd_matched (fold_left put os q) = rd_matched q.
Proof. induction os as [|[t|w] os IH]; intros q; [reflexivity|..]; cbn [fold_left]; rewrite IH; reflexivity. Qed.
Lemma reader_eta q : q = mkReader (rd_tables q) (rd_rows q) (Reader.rd_errors q) (rd_matched q).
Proof. destruct q; reflexivity. Qed.
Lemma cut_read l s' : cut_after l s' -> Forall stmt_rows_ok l /\ exists os, Forall2 read_as l os /\ forall file, exists m, read_sql file s' = (fold_left put os new_reader, Raise (ValueError m)).
Proof.
  destruct l as [|st l]; [intros (f & m & U); split; [constructor|]; exists []; split; [constructor|]; intros file; apply (unread_loop max_statements f m s' U); lia|].
  intros (Len & r & s & U & B & L). split; [apply (begun_rows_ok _ _ _ B)|].
  assert (Lm : List.length (st :: l) <= max_statements) by (assert (E : N.of_nat max_statements = 10000%N) by (apply (N2Nat.id 10000)); lia). clear Len.
  assert (G : exists s0 t, stmt_written st s0 /\ s = s0 ++ spaced_text t /\ next_ok st t
    /\ exists os, Forall2 read_as l os /\ forall file n q, (n <= max_statements) -> List.length l <= n -> exists m, read_loop n file q t = (fold_left put os q, Raise (ValueError m))).
  { inversion B as [st0 s0 r0 W T O|st0 s0 l0 r0 t W B' O]; subst.
    - destruct (tail_next r T) as (Tr & Nr & Dr & Pr). exists s0, r. split; [exact W|]. split; [destruct r; [contradiction|reflexivity]|].
      split; [repeat split; assumption|]. exists []. split; [constructor|]. intros file n q Ln _. destruct U as (f & m & U). apply (unread_loop max_statements f m r U n file q Ln).
    - destruct (begun_read _ _ _ B' U) as (Tr & Nr & Dr & Pr & H). exists s0, t. split; [exact W|]. split; [destruct t; [contradiction|reflexivity]|].
      split; [repeat split; assumption|exact H]. }
  destruct G as (s0 & t & W & -> & Nx & os & As & Rs). destruct (laid_step st l s0 t s' W (or_intror Nx) L) as (o & A & Step).
  exists (o :: os). split; [constructor; assumption|]. intros file. unfold read_sql. cbn [fold_left].
  assert (X : exists k, max_statements = Datatypes.S k) by (destruct max_statements as [|k]; [cbn in Lm; lia|eauto]). destruct X as [k X]. rewrite X, Step. rewrite X in Rs, Lm. cbn [List.length] in Lm. apply Rs; lia.
Qed.
Lemma cut_yields file l s : cut_after l s -> yields (file, s) l.
Proof.
  intros H. destruct (cut_read l s H) as (Ok & os & A & R). split; [exact Ok|]. destruct (R file) as [m E]. exists os, false, (Raise (ValueError m)). split; [exact A|]. split; [reflexivity|].
  cbn [fst snd]. rewrite E. f_equal. rewrite (reader_eta (fold_left put os new_reader)) at 1. rewrite put_matched. reflexivity.
Qed.
