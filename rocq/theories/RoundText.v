(** Texts as the tool renders them: single spaces, no line comments, no index prefix lengths. *)
From Verif Require Export SpecRead ParseFacts ReadMore.

(** ** Normalised texts *)

Lemma neat_from_app a b : forall w, neat_from w a = true -> (a = "" -> w = false) -> neat b = true -> neat_from w (a ++ b) = true.
Proof.
  induction a as [|c a IH]; intros w A N B; [rewrite (N eq_refl); exact B|]. cbn [neat_from String.append] in *.
  destruct (is_space c).
  - apply andb_true_iff in A as [A1 A2]. rewrite A1. cbn [andb]. apply IH; auto. intros ->. discriminate A2.
  - apply IH; auto.
Qed.
Lemma neat_cat a b : neat a = true -> neat b = true -> neat (a ++ b) = true.
Proof. intros A B. apply neat_from_app; auto. Qed.
Lemma trim_cat a b : trim a = true -> a <> "" -> neat b = true -> trim (a ++ b) = true.
Proof.
  intros A N B. unfold trim in *. apply andb_true_iff in A as [A1 A2]. rewrite (neat_cat a b A1 B), starts_app by exact N. exact A2.
Qed.
Lemma collapse_app a b : forall w, neat_from w a = true -> (a = "" -> w = false) ->
  collapse_ws_from w (a ++ b) = a ++ collapse_ws_from false b.
Proof.
  induction a as [|c a IH]; intros w A N; [rewrite (N eq_refl); reflexivity|]. cbn [neat_from String.append collapse_ws_from] in *.
  destruct (is_space c) eqn:E.
  - apply andb_true_iff in A as [A1 A2]. apply andb_true_iff in A1 as [A0 A1]. destruct w; [discriminate|].
    rewrite IH; [|exact A2|intros ->; discriminate A2]. apply Ascii.eqb_eq in A1. subst c. reflexivity.
  - rewrite IH; auto.
Qed.
Lemma collapse_cat a b : neat a = true -> collapse_ws (a ++ b) = a ++ collapse_ws b.
Proof. intros A. apply collapse_app; auto. Qed.
Lemma collapse_break c b : is_space c = true -> starts not_space b = true -> collapse_ws (String c b) = String " " (collapse_ws b).
Proof.
  intros C B. unfold collapse_ws. cbn [collapse_ws_from]. rewrite C. f_equal. destruct b as [|d b]; [reflexivity|].
  cbn [starts] in B. unfold not_space in B. apply negb_true_iff in B. cbn [collapse_ws_from]. rewrite B. reflexivity.
Qed.

(** ** Line comments *)

Fixpoint no_dd (w : bool) (s : string) : bool :=
  match s with
  | EmptyString => true
  | String c s' => if Ascii.eqb c "-" then negb w && no_dd true s' else no_dd false s'
  end.
Lemma no_dd_weaken s : no_dd true s = true -> no_dd false s = true.
Proof. destruct s as [|c s]; cbn [no_dd]; [reflexivity|]. destruct (Ascii.eqb c "-"); [discriminate|auto]. Qed.
Lemma no_dd_dashless s : dashless s -> no_dd false s = true.
Proof.
  intros H. assert (G : forall w, (w = true -> forall r, s <> String "-" r) -> no_dd w s = true); [|apply G; discriminate].
  induction s as [|c s IH]; intros w W; [reflexivity|]. cbn [no_dd].
  assert (H' : dashless s). { intros a b E. apply (H (String c a) b). rewrite E. reflexivity. }
  destruct (Ascii.eqb_spec c "-") as [->|N].
  - destruct w; [exfalso; exact (W eq_refl s eq_refl)|]. cbn [negb andb]. apply IH; [exact H'|]. intros _ r ->. exact (H "" r eq_refl).
  - apply IH; [exact H'|discriminate].
Qed.
Definition no_dash (c : ascii) : bool := negb (Ascii.eqb c "-").
Lemma no_dd_app a b : forall w, starts no_dash b = true -> no_dd w a = true -> no_dd false b = true -> no_dd w (a ++ b) = true.
Proof.
  induction a as [|c a IH]; intros w S A B.
  - destruct b as [|d b]; [reflexivity|]. cbn [String.append no_dd starts] in *. unfold no_dash in S. apply negb_true_iff in S. rewrite S in *. exact B.
  - cbn [String.append no_dd] in *. destruct (Ascii.eqb c "-"); [|auto]. apply andb_true_iff in A as [-> A]. cbn [andb]. auto.
Qed.
Lemma no_dd_drop s : no_dd false s = true -> drop_dashes s = s.
Proof.
  unfold drop_dashes. assert (G : forall w, no_dd w s = true -> drop_dashes_from false s = s); [|apply (G false)].
  induction s as [|c s IH]; intros w H; [reflexivity|]. cbn [no_dd drop_dashes_from] in *. destruct (Ascii.eqb_spec c "-") as [->|N].
  - apply andb_true_iff in H as [_ H]. cbn [andb]. destruct s as [|d s]; [reflexivity|]. cbn [no_dd] in H.
    destruct (Ascii.eqb_spec d "-"); [discriminate H|]. rewrite (IH true); [reflexivity|]. cbn [no_dd]. destruct (Ascii.eqb_spec d "-"); [contradiction|exact H].
  - cbn [andb]. rewrite (IH false H). reflexivity.
Qed.

(** ** Prefix lengths *)

Definition no_drop (s : string) : Prop := drop_lengths_from 0 s = s.
Lemma no_drop_char c s : Ascii.eqb c "(" = false -> Ascii.eqb c "," = false -> no_drop s -> no_drop (String c s).
Proof. unfold no_drop. intros A B H. cbn [drop_lengths_from]. rewrite A, B. cbn [orb]. rewrite H. reflexivity. Qed.
Definition solid (c : ascii) : bool := negb (Ascii.eqb c "(" || Ascii.eqb c ",").
Lemma no_drop_app a s : sforall solid a = true -> no_drop s -> no_drop (a ++ s).
Proof.
  intros A H. induction a as [|c a IH]; [exact H|]. cbn [sforall] in A. apply andb_true_iff in A as [C A].
  unfold solid in C. apply negb_true_iff, orb_false_iff in C as [C1 C2]. cbn [String.append]. apply no_drop_char; auto.
Qed.
Definition stop (c : ascii) : bool := negb (is_word c || Ascii.eqb c bquote || Ascii.eqb c "(").
Lemma open_none w u c r : sforall is_space w = true -> starts not_space u = true -> u <> "" ->
  has_char "(" u = false -> stop c = true \/ c = "("%char /\ starts (fun d => negb (is_digit d)) r = true -> prefix_length (w ++ u ++ String c r) = None.
Proof.
  intros W U N O C0. unfold prefix_length. rewrite (span_app is_space w (u ++ String c r) W) by (rewrite starts_app by exact N; exact U).
  assert (C : is_word c = false /\ Ascii.eqb c bquote = false).
  { destruct C0 as [C|[-> _]]; [|split; reflexivity]. unfold stop in C. apply negb_true_iff, orb_false_iff in C as [C _]. apply orb_false_iff in C. exact C. }
  destruct C as [C1 C2].
  assert (B : exists u' b, opt_bquote (u ++ String c r) = (b, u' ++ String c r) /\ has_char "(" u' = false).
  { destruct u as [|d u]; [contradiction|]. cbn [String.append opt_bquote]. unfold has_char in *. cbn [sexists] in O. destruct (Ascii.eqb d bquote); eexists _, _.
    - split; [reflexivity|]. apply orb_false_iff in O. tauto.
    - split; [change (String d (u ++ String c r)) with (String d u ++ String c r); reflexivity|exact O]. }
  destruct B as (u' & b & -> & O'). clear O N U W.
  destruct (span is_word (u' ++ String c r)) as [x y] eqn:E. destruct (is_empty x); [reflexivity|].
  assert (Y : exists v, y = v ++ String c r /\ has_char "(" v = false).
  { clear -E O' C1. revert x y E. induction u' as [|d u IH]; intros x y E.
    - cbn [String.append span] in E. rewrite C1 in E. injection E as <- <-. exists "". auto.
    - cbn [String.append span] in E. unfold has_char in O'. cbn [sexists] in O'. destruct (is_word d).
      + destruct (span is_word (u ++ String c r)) as [x' y'] eqn:E'. injection E as <- <-. eapply IH; [|reflexivity]. apply orb_false_iff in O'. tauto.
      + injection E as <- <-. exists (String d u). auto. }
  destruct Y as (v & -> & V). clear E O'.
  assert (Z : exists v' b, opt_bquote (v ++ String c r) = (b, v' ++ String c r) /\ has_char "(" v' = false).
  { destruct v as [|d v].
    - cbn [String.append opt_bquote]. rewrite C2. exists "", "". auto.
    - cbn [String.append opt_bquote]. unfold has_char in *. cbn [sexists] in V. destruct (Ascii.eqb d bquote); eexists _, _.
      + split; [reflexivity|]. apply orb_false_iff in V. tauto.
      + split; [change (String d (v ++ String c r)) with (String d v ++ String c r); reflexivity|exact V]. }
  destruct Z as (v' & b' & -> & V'). 
  assert (F : exists d t, v' ++ String c r = String d t /\ (d <> "("%char \/ starts (fun d => negb (is_digit d)) t = true)).
  { destruct v' as [|d v']; [exists c, r|exists d, (v' ++ String c r)]; (split; [reflexivity|]).
    - destruct C0 as [C0|[-> C0]]; [left; intros ->; discriminate C0|right; exact C0].
    - unfold has_char in V'. cbn [sexists] in V'. apply orb_false_iff in V' as [V' _]. left. intros ->. discriminate V'. }
  destruct F as (d & t & -> & D). destruct d as [[|] [|] [|] [|] [|] [|] [|] [|]]; try reflexivity. destruct D as [D|D]; [contradiction|].
  destruct t as [|d t]; [reflexivity|]. cbn [starts] in D. apply negb_true_iff in D. cbn [span]. rewrite D.
  destruct d as [[|] [|] [|] [|] [|] [|] [|] [|]]; reflexivity.
Qed.
Lemma no_drop_open d w u c r : Ascii.eqb d "(" || Ascii.eqb d "," = true -> sforall is_space w = true -> starts not_space u = true -> u <> "" ->
  has_char "(" u = false -> stop c = true -> no_drop (w ++ u ++ String c r) -> no_drop (String d (w ++ u ++ String c r)).
Proof.
  intros D W U N O C H. unfold no_drop. cbn [drop_lengths_from]. rewrite D, (open_none w u c r W U N O (or_introl C)), H. reflexivity.
Qed.
