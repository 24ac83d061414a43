(** Reading sources with comments between the statements. *)
From Verif Require Export RoundCut SpecRemark.

Local Opaque max_turns max_statements.

Lemma block_comment m : unclosed m -> comment ("/*" ++ m ++ "*/").
Proof. intros U. apply (comment_block "" m); [reflexivity|]. intros (a & b & E). exact (U a b E). Qed.
Lemma no_line_feed s : forall w, has_char newline (collapse_ws_from w s) = false.
Proof.
  unfold has_char. induction s as [|c s IH]; intros w; [reflexivity|]. cbn [collapse_ws_from]. destruct (is_space c) eqn:C.
  - destruct w; [apply IH|]. cbn [sexists]. rewrite IH. reflexivity.
  - cbn [sexists]. rewrite IH, orb_false_r. destruct (Ascii.eqb_spec newline c) as [<-|]; [discriminate|reflexivity].
Qed.
Lemma lstrip_chars c s : has_char c s = false -> has_char c (lstrip_by is_space s) = false.
Proof.
  unfold has_char. induction s as [|x s IH]; intros H; [reflexivity|]. cbn [lstrip_by]. destruct (is_space x); [|exact H].
  cbn [sexists] in H. apply orb_false_iff in H as [_ H]. auto.
Qed.
Lemma rstrip_chars c s : has_char c s = false -> has_char c (rstrip_by is_space s) = false.
Proof.
  intros H. destruct (rstrip_prefix is_space s) as [z Z]. rewrite Z in H. unfold has_char in *. revert H. generalize (rstrip_by is_space s). clear.
  induction s as [|x s IH]; intros H; [reflexivity|]. cbn [String.append sexists] in *. apply orb_false_iff in H as [H1 H2]. rewrite H1. apply IH, H2.
Qed.
Lemma normal_line s : has_char newline (normalize s) = false.
Proof. unfold normalize, strip, strip_by. apply lstrip_chars, rstrip_chars, no_line_feed. Qed.
Lemma no_line_index s : has_char newline s = false -> sindex (String newline "") s = None.
Proof.
  unfold has_char. induction s as [|c s IH]; intros H; [reflexivity|]. cbn [sexists] in H. apply orb_false_iff in H as [H1 H2]. cbn [sindex].
  replace (String.prefix (String newline "") (String c s)) with false; [rewrite IH by exact H2; reflexivity|].
  symmetry. apply not_true_iff_false. intros P. apply prefix_iff in P as [b E]. injection E as -> _. discriminate.
Qed.

(** One line that begins with a comment sign is the end of the source. *)
Lemma line_hides sign m : sign = "#" \/ sign = "--" -> trim (sign ++ m) = true -> has_char newline (sign ++ m) = false ->
  forall n file q, read_loop (Datatypes.S n) file q (sign ++ m) = (done q, Ok "").
Proof.
  intros Sg T L n file q. pose proof (trim_strip _ T) as E. pose proof (no_line_index _ L) as I.
  assert (St : statement_of (sign ++ m) = SComment).
  { unfold statement_of. destruct Sg as [->| ->]; [rewrite (proj2 (prefix_iff "#" ("#" ++ m))) by eauto|rewrite (proj2 (prefix_iff "--" ("--" ++ m))) by eauto]; rewrite ?orb_true_r; reflexivity. }
  assert (Rt : comment_rest (sign ++ m) = "").
  { unfold comment_rest. rewrite E, I. replace (_ || String.prefix "--" _) with true; [reflexivity|]. symmetry. apply orb_true_iff.
    destruct Sg as [->| ->]; [left; reflexivity|right; apply prefix_iff; eauto]. }
  assert (Ne : is_empty (sign ++ m) = false) by (destruct Sg as [->| ->]; reflexivity).
  cbn [read_loop]. rewrite E, Ne, St, Rt. destruct n; reflexivity.
Qed.

Lemma remarked_read l n s : remarked l n s ->
  trim s = true /\ s <> "" /\ no_dd false s = true /\ no_drop s
  /\ exists os, Forall2 read_as l os /\ forall file k q, n <= k -> read_loop k file q s = (done (fold_left put os q), Ok "").
Proof.
  assert (Td : forall r, tail r -> trim r = true /\ r <> "" /\ no_dd false r = true /\ no_drop r) by exact tail_next.
  induction 1 as [st s W|st s l n t W Sr IH Eq|m l n t U T Sr IH|m U T|m T].
  - destruct (stmt_follow st s "" W (or_introl eq_refl)) as (T & D & P & o & A & R & _). cbn [spaced_text is_empty] in *. rewrite sapp_nil_r in *.
    split; [exact T|]. split; [destruct (stmt_text st s W) as [_ [x ->]]; destruct x; discriminate|]. split; [exact D|]. split; [exact P|].
    exists [o]. split; [constructor; [exact A|constructor]|]. intros file k q L. destruct k as [|k]; [lia|]. rewrite R. destruct k; reflexivity.
  - destruct IH as (Tr & Nr & Dr & Pr & os & As & Rs).
    assert (Nx : next_ok st t) by (split; [exact Tr|]; split; [exact Nr|]; split; [exact Dr|]; split; [exact Pr|exact Eq]).
    destruct (stmt_follow st s t W (or_intror Nx)) as (T & D & P & o & A & R & _).
    assert (Z : spaced_text t = " " ++ t) by (destruct t; [contradiction|reflexivity]). rewrite Z in *.
    split; [exact T|]. split; [destruct (stmt_text st s W) as [_ [x ->]]; destruct x; discriminate|]. split; [exact D|]. split; [exact P|].
    exists (o :: os). split; [constructor; assumption|]. intros file k q L. destruct k as [|k]; [lia|]. rewrite R. cbn [fold_left]. apply Rs. lia.
  - destruct IH as (Tr & Nr & _ & _ & os & As & Rs). destruct (Td _ T) as (T1 & T2 & T3 & T4). repeat (split; [assumption|]). exists os. split; [exact As|].
    intros file k q L. destruct k as [|k]; [lia|].
    assert (St : strip (String " " t) = t) by (apply strip_space, Tr).
    pose proof (proj1 (loop_comments ["/*" ++ m ++ "*/"] k file q (String " " t) (Forall_cons _ (block_comment m U) (Forall_nil _)) ltac:(rewrite St; exact Nr))) as E.
    cbn [sconcat List.length Nat.add] in E. rewrite sapp_nil_r, !sapp_assoc in E.
    transitivity (read_loop k file q (String " " t)); [exact E|]. rewrite <- loop_strip by (rewrite St; exact Nr). rewrite St. apply Rs. lia.
  - destruct (Td _ T) as (T1 & T2 & T3 & T4). repeat (split; [assumption|]). exists []. split; [constructor|].
    intros file k q L. destruct k as [|k]; [lia|]. pose proof (trim_strip _ T1) as E. cbn [read_loop fold_left]. rewrite E.
    assert (Rt : comment_rest ("/*" ++ m ++ "*/") = "").
    { unfold comment_rest. rewrite E. replace (_ || String.prefix "--" _) with false by reflexivity.
      pose proof (sindex_block m "" ltac:(intros (a & b & X); exact (U a b X))) as I. rewrite sapp_nil_r in I. rewrite I.
      replace (2 + (2 + String.length m)) with (String.length ("/*" ++ m ++ "*/")) by (cbn [String.append String.length]; rewrite slength_app; simpl; lia).
      rewrite <- (sapp_nil_r ("/*" ++ m ++ "*/")) at 2. rewrite sdrop_app. reflexivity. }
    assert (St : statement_of ("/*" ++ m ++ "*/") = SComment).
    { unfold statement_of. rewrite (proj2 (prefix_iff "/*" ("/*" ++ m ++ "*/"))) by eauto. rewrite orb_true_r. reflexivity. }
    rewrite St, Rt. destruct k; reflexivity.
  - destruct (Td _ T) as (T1 & T2 & T3 & T4). repeat (split; [assumption|]). exists []. split; [constructor|].
    intros file k q L. destruct k as [|k]; [lia|]. cbn [fold_left]. apply (line_hides "#" m (or_introl eq_refl) T1).
    destruct T as [_ T _ _]. rewrite <- T. apply normal_line.
Qed.
Lemma remarked_rows_ok l n s : remarked l n s -> Forall stmt_rows_ok l.
Proof.
  assert (G : forall st s, stmt_written st s -> stmt_rows_ok st).
  { intros st x W. pose proof (statements_rows_ok [st] x (statements_one st x W)) as F. inversion F; assumption. }
  induction 1; repeat constructor; eauto.
Qed.
Lemma holds_read l s' : holds_remarked l s' -> Forall stmt_rows_ok l /\ exists os, Forall2 read_as l os /\ forall file, read_sql file s' = (done (fold_left put os new_reader), Ok "").
Proof.
  intros (st & s & l' & n & t & -> & W & Rm & Eq & Len & L). assert (Mx : N.of_nat max_statements = 10000%N) by (apply (N2Nat.id 10000)).
  assert (X : exists k, max_statements = Datatypes.S k) by (destruct max_statements as [|k]; [cbn in Mx; lia|eauto]). destruct X as [k X].
  destruct (remarked_read _ _ _ Rm) as (Tr & Nr & Dr & Pr & os & As & Rs).
  split; [constructor; [|apply (remarked_rows_ok _ _ _ Rm)]; pose proof (statements_rows_ok [st] s (statements_one st s W)) as F; inversion F; assumption|].
  assert (Nx : next_ok st t) by (split; [exact Tr|]; split; [exact Nr|]; split; [exact Dr|]; split; [exact Pr|exact Eq]).
  assert (Z : s ++ " " ++ t = s ++ spaced_text t) by (destruct t; [contradiction|reflexivity]). rewrite Z in L.
  destruct (laid_step st l' s t s' W (or_intror Nx) L) as (o & A & Step). exists (o :: os). split; [constructor; assumption|].
  intros file. unfold read_sql. rewrite X, Step. cbn [fold_left]. apply Rs. lia.
Qed.
Lemma holds_yields file l s : holds_remarked l s -> yields (file, s) l.
Proof.
  intros H. destruct (holds_read l s H) as (Ro & os & A & R). split; [exact Ro|]. exists os, true, (Ok ""). split; [exact A|]. split; [reflexivity|]. exact (R file).
Qed.
