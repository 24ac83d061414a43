(** Reading sources in which a CREATE TABLE statement that is not read to its end follows other statements. *)
From Verif Require Export SpecHold HaltFacts LateFacts OddFacts.
From Verif Require Import RoundKeys Facts ReadFacts RoundTable RoundCreate RoundInline RoundCut RoundMany WriteCreate StoredFacts.
From Coq Require Import Lia.

Local Opaque max_turns max_statements.

(** The statements at the beginning of a source are read, whatever comes after them. *)
Lemma begun_loop l r s : begun l r s ->
  trim s = true /\ s <> "" /\ no_dd false s = true /\ no_drop s
  /\ exists os, Forall2 read_as l os /\ forall file n q, read_loop (List.length l + n) file q s = read_loop n file (fold_left put os q) r.
Proof.
  intros B. induction B as [st s r W T O|st s l r t W B IH O].
  - destruct (tail_next r T) as (Tr & Nr & Dr & Pr).
    assert (Nx : next_ok st r) by (split; [exact Tr|]; split; [exact Nr|]; split; [exact Dr|]; split; [exact Pr|exact O]).
    destruct (stmt_follow st s r W (or_intror Nx)) as (T' & D & P & o & A & R & _).
    assert (Z : RoundMany.spaced_text r = " " ++ r) by (destruct r; [contradiction|reflexivity]). rewrite Z in *.
    split; [exact T'|]. split; [destruct (stmt_text st s W) as [_ [x ->]]; destruct x; discriminate|]. split; [exact D|]. split; [exact P|].
    exists [o]. split; [constructor; [exact A|constructor]|]. intros file n q. cbn [List.length Nat.add]. rewrite R. reflexivity.
  - destruct IH as (Tr & Nr & Dr & Pr & os & As & Rs).
    assert (Nx : next_ok st t) by (split; [exact Tr|]; split; [exact Nr|]; split; [exact Dr|]; split; [exact Pr|exact O]).
    destruct (stmt_follow st s t W (or_intror Nx)) as (T & D & P & o & A & R & _).
    assert (Z : RoundMany.spaced_text t = " " ++ t) by (destruct t; [contradiction|reflexivity]). rewrite Z in *.
    split; [exact T|]. split; [destruct (stmt_text st s W) as [_ [x ->]]; destruct x; discriminate|]. split; [exact D|]. split; [exact P|].
    exists (o :: os). split; [constructor; assumption|]. intros file n q. cbn [List.length Nat.add]. rewrite R. cbn [fold_left]. apply Rs.
Qed.
Lemma begun_source l r s s' : begun l r s -> laid_out (layout_for l) None s s' -> l <> [] -> forall n, max_statements = List.length l + n ->
  exists os, Forall2 read_as l os /\ forall file, read_sql file s' = read_loop n file (fold_left put os new_reader) r.
Proof.
  intros B L Nl n M. destruct l as [|st l]; [contradiction|]. clear Nl.
  assert (G : exists s0 t, stmt_written st s0 /\ s = s0 ++ RoundMany.spaced_text t /\ next_ok st t
    /\ exists os, Forall2 read_as l os /\ forall file m q, read_loop (List.length l + m) file q t = read_loop m file (fold_left put os q) r).
  { inversion B as [st0 s0 r0 W T O|st0 s0 l0 r0 t W B' O]; subst.
    - destruct (tail_next r T) as (Tr & Nr & Dr & Pr). exists s0, r. split; [exact W|]. split; [destruct r; [contradiction|reflexivity]|].
      split; [repeat split; assumption|]. exists []. split; [constructor|]. intros file m q. reflexivity.
    - destruct (begun_loop _ _ _ B') as (Tr & Nr & Dr & Pr & Q). exists s0, t. split; [exact W|]. split; [destruct t; [contradiction|reflexivity]|].
      split; [repeat split; assumption|exact Q]. }
  destruct G as (s0 & t & W & -> & Nx & os & As & Rs). destruct (laid_step st l s0 t s' W (or_intror Nx) L) as (o & A & Step).
  exists (o :: os). split; [constructor; assumption|]. intros file. unfold read_sql. cbn [fold_left]. rewrite M. cbn [List.length Nat.add]. rewrite Step. apply Rs.
Qed.
Lemma begun_tail l r s : begun l r s -> SpecCut.tail r.
Proof. induction 1; assumption. Qed.

(** The unfinished statement leaves a table without a name and the text that is not known. *)
Lemma unfinished_loop d z : unfinished d z -> SpecCut.tail z -> other_statement d -> forall file n q, read_loop (S (S n)) file q z = ended file d (put_table q no_table).
Proof.
  intros U T O.
  assert (P : create_parse z = Ok (None, d) /\ trim d = true /\ begins z).
  { destruct U as [n before z St Hd Lb|n before l z St Hl Hd Lb|n before p l t z St Hl Hd Lb].
    - split; [exact (stop_parse n before d z Hd St T Lb)|]. split; [apply (stop_trim n before d z Hd St T)|exact (stopped_begins _ _ _ _ St)].
    - split; [exact (late_parse n before l d z Hl Hd St T Lb)|]. split; [apply (late_trim n before l d z Hl Hd St T)|exact (stopped_begins _ _ _ _ St)].
    - split; [exact (odd_parse n before p l t d z Hl Hd St T Lb)|]. split; [apply (odd_trim n before t d z Hd St T)|exact (stopped_begins _ _ _ _ St)]. }
  destruct P as (P & Td & B). destruct (begins_create z B) as (c & m & Ec & _ & Sc). intros file n q. cbn [read_loop]. rewrite (tail_strip z T), Sc, P.
  assert (Z : is_empty z = false) by (rewrite Ec; reflexivity). rewrite Z. apply other_loop; [exact O|apply trim_strip, Td].
Qed.
Lemma held_read l d s' : held_after l d s' -> exists os, Forall2 read_as l os /\ forall file, read_sql file s' = ended file d (put_table (fold_left put os new_reader) no_table).
Proof.
  intros (O & Nl & Ll & z & s & U & B & L). assert (Mx : N.of_nat max_statements = 10000%N) by (apply (N2Nat.id 10000)).
  destruct (begun_source l z s s' B L Nl (S (S (max_statements - List.length l - 2))) ltac:(lia)) as (os & A & R). exists os. split; [exact A|]. intros file. rewrite R.
  apply (unfinished_loop d z U (begun_tail l z s B) O).
Qed.
Lemma held_complaint l d s' file : held_after l d s' -> complaints (file, s') = [complaint file d].
Proof.
  intros H. destruct (held_read l d s' H) as (os & _ & R). unfold complaints. cbn [fst snd]. rewrite R. cbn [ended snd]. destruct H as [[N _ _ _ _ _] _]. destruct d; [contradiction|reflexivity].
Qed.
