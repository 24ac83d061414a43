(** C74: the number of characters in a key, given or left out. *)
From Verif Require Import ConfFacts RoundText RoundCut InsideFacts PropsIgnored.

(** The column of a key without a number. *)
Definition whole_part (c : ascii) (w q n q' : string) : string := String c (w ++ q ++ n ++ q').
(** A name does not begin with a digit; after it comes a comma, a parenthesis or a space. *)
Definition named_column (n : string) : Prop := exists x r, n = String x r /\ is_digit x = false.
Definition after_column (b : string) : Prop := exists e r, b = String e r /\ (e = ")"%char \/ e = ","%char \/ e = " "%char).

Definition no_digit (c : ascii) : bool := negb (is_digit c).
Lemma open_before c x x' a g k : c = "("%char \/ c = ","%char -> starts no_digit x = true ->
  prefix_length (a ++ String c x) = Some (g, k) -> k <= String.length a /\ prefix_length (a ++ String c x') = Some (g, k).
Proof.
  intros C X P. destruct (prefix_length_text _ _ _ P) as (w1 & q1 & n1 & q1' & d1 & r & E & B & Q & Q' & N & W & D).
  assert (E' : a ++ String c x = part_text w1 q1 n1 q1' d1 ++ r) by (rewrite E; unfold part_text; rewrite !sapp_assoc; reflexivity).
  rewrite E' in P. rewrite prefix_length_found in P by assumption. injection P as <- <-. destruct (app_cut _ _ _ _ E') as [(y & -> & ->)|(e & y & Eu & Ez)].
  - split; [rewrite slength_app; lia|]. rewrite sapp_assoc. apply prefix_length_found; assumption.
  - exfalso. cbn [String.append] in Ez. injection Ez as <- Ez.
    assert (Eu2 : (w1 ++ q1 ++ n1 ++ q1') ++ String "(" (d1 ++ ")") = a ++ String c y) by (rewrite <- Eu; unfold part_text; repeat (cbn [String.append]; rewrite ?sapp_assoc); reflexivity). clear Eu.
    destruct (app_until c (w1 ++ q1 ++ n1 ++ q1') (String "(" (d1 ++ ")")) a y Eu2) as (z & Ea & Es).
    { apply lead_open; auto. destruct C; auto. }
    destruct z as [|x1 z].
    + cbn [String.append] in Es. injection Es as Ec <-. rewrite Ez in X. destruct D as [Dn Dd]. destruct d1 as [|f d1]; [contradiction|]. cbn [sforall] in Dd. apply andb_true_iff in Dd as [Dd _].
      cbn [String.append starts] in X. unfold no_digit in X. rewrite Dd in X. discriminate.
    + cbn [String.append] in Es. injection Es as _ Es. assert (Y : sforall (fun e => negb (Ascii.eqb e c)) (d1 ++ ")") = true).
      { rewrite sforall_app, (digit_open d1 c) by (try apply D; destruct C; auto). destruct C as [H|H]; rewrite H; reflexivity. }
      rewrite Es, sforall_app in Y. cbn [sforall] in Y. rewrite Ascii.eqb_refl in Y. cbn [negb andb] in Y. rewrite andb_false_r in Y. discriminate.
Qed.
Lemma drop_solid a s : sforall solid a = true -> drop_lengths_from 0 (a ++ s) = a ++ drop_lengths_from 0 s.
Proof.
  intros A. induction a as [|c a IH]; [reflexivity|]. cbn [sforall] in A. apply andb_true_iff in A as [C A].
  unfold solid in C. apply negb_true_iff in C. cbn [String.append drop_lengths_from]. rewrite C, IH by exact A. reflexivity.
Qed.

Section Absent.
  Variables (c : ascii) (w q n q' d : string).
  Hypothesis K : key_part_ok c w q n q'.
  Hypothesis D : digits d.
  Hypothesis F : named_column n.
  Lemma part_start z : starts no_digit (w ++ q ++ n ++ z) = true.
  Proof.
    destruct K as [_ Ks [T1 _] _]. destruct w as [|e w1]; [|cbn [sforall] in Ks; apply andb_true_iff in Ks as [E _]; apply Ascii.eqb_eq in E; subst e; reflexivity].
    destruct T1 as [->| ->]; [|reflexivity]. destruct F as (x & r & -> & X). cbn [String.append starts]. unfold no_digit. rewrite X. reflexivity.
  Qed.
  Lemma part_solid : sforall solid (w ++ q ++ n ++ q') = true.
  Proof.
    destruct K as [_ Ks [T1 T2] [_ Kw]]. apply spaces_blank in Ks.
    pose proof (lead_open w q n q' "(" Ks T1 T2 Kw (or_introl eq_refl)) as A. pose proof (lead_open w q n q' "," Ks T1 T2 Kw (or_intror (or_introl eq_refl))) as B.
    revert A B. generalize (w ++ q ++ n ++ q'). induction s as [|e s IH]; [reflexivity|]. cbn [sforall]. intros A B. apply andb_true_iff in A as [A1 A2], B as [B1 B2].
    unfold solid. apply negb_true_iff in A1, B1. rewrite A1, B1. exact (IH A2 B2).
  Qed.
  Lemma drop_absent e b a : RoundText.stop e = true -> forall sk, sk <= String.length a ->
    drop_lengths_from sk (a ++ key_part c w q n q' d ++ String e b) = drop_lengths_from sk (a ++ whole_part c w q n q' ++ String e b).
  Proof.
    intros T. assert (C : c = "("%char \/ c = ","%char) by apply K.
    assert (C' : Ascii.eqb c "(" || Ascii.eqb c "," = true) by (destruct C as [H|H]; rewrite H; reflexivity).
    induction a as [|x a IH]; intros sk L.
    - cbn [String.length] in L. replace sk with 0 by lia. unfold key_part, whole_part. cbn [String.append drop_lengths_from]. rewrite C'.
      change (w ++ q ++ n ++ q' ++ String "(" (d ++ ")")) with (part_text w q n q' d). pose proof part_solid as So. destruct K as [_ Ks [T1 T2] [Nn Kw]]. apply spaces_blank in Ks.
      rewrite prefix_length_found by assumption. rewrite drop_skip.
      assert (P : prefix_length ((w ++ q ++ n ++ q') ++ String e b) = None).
      { rewrite sapp_assoc. apply open_none; [exact Ks|..|left; exact T].
        - destruct T1 as [->| ->]; [|reflexivity]. cbn [String.append]. destruct n as [|y m]; [contradiction|]. cbn [sforall] in Kw. apply andb_true_iff in Kw as [Y _]. cbn [String.append starts]. unfold not_space.
          revert Y. clear. destruct y as [[|] [|] [|] [|] [|] [|] [|] [|]]; vm_compute; congruence.
        - destruct q; [|discriminate]. destruct n; [contradiction|discriminate].
        - revert So. rewrite (sforall_app _ w). intros So. apply andb_true_iff in So as [_ So]. revert So. generalize (q ++ n ++ q'). clear. unfold has_char. induction s as [|y s IH]; [reflexivity|].
          cbn [sforall sexists]. intros H. apply andb_true_iff in H as [A B]. unfold solid in A. apply negb_true_iff, orb_false_iff in A as [A _]. rewrite (IH B), Ascii.eqb_sym, A. reflexivity. }
      rewrite P, drop_solid by exact So. reflexivity.
    - change (String x a ++ ?u) with (String x (a ++ u)). destruct sk as [|sk]; [|cbn [drop_lengths_from]; apply IH; cbn [String.length] in L; lia].
      cbn [drop_lengths_from]. destruct (Ascii.eqb x "(" || Ascii.eqb x ","); [|rewrite IH by lia; reflexivity].
      assert (S1 : starts no_digit ((w ++ q ++ n ++ q' ++ "(" ++ d ++ ")") ++ String e b) = true) by (rewrite !sapp_assoc; apply part_start).
      assert (S2 : starts no_digit ((w ++ q ++ n ++ q') ++ String e b) = true) by (rewrite !sapp_assoc; apply part_start).
      destruct (prefix_length (a ++ key_part c w q n q' d ++ String e b)) as [[g k]|] eqn:P.
      + destruct (open_before c _ ((w ++ q ++ n ++ q') ++ String e b) a g k C S1 P) as [Lk Q].
        change (a ++ whole_part c w q n q' ++ String e b) with (a ++ String c ((w ++ q ++ n ++ q') ++ String e b)) at 1. rewrite Q. rewrite (IH k Lk). reflexivity.
      + destruct (prefix_length (a ++ whole_part c w q n q' ++ String e b)) as [[g k]|] eqn:P'; [|rewrite IH by lia; reflexivity].
        destruct (open_before c _ ((w ++ q ++ n ++ q' ++ "(" ++ d ++ ")") ++ String e b) a g k C S2 P') as [_ Q].
        change (a ++ key_part c w q n q' d ++ String e b) with (a ++ String c ((w ++ q ++ n ++ q' ++ "(" ++ d ++ ")") ++ String e b)) in P. rewrite P in Q. discriminate.
  Qed.
End Absent.
Lemma create_absent c w q n q' d a b : key_part_ok c w q n q' -> digits d -> named_column n -> after_column b ->
  create_parse (a ++ key_part c w q n q' d ++ b) = create_parse (a ++ whole_part c w q n q' ++ b).
Proof.
  intros K D F (e & r & -> & E). assert (T : RoundText.stop e = true) by (destruct E as [->|[->| ->]]; reflexivity).
  assert (Ce : calm e = true) by (destruct E as [->|[->| ->]]; reflexivity).
  assert (C1 : sforall calm (String c ((w ++ q ++ n ++ q' ++ "(" ++ d ++ ")") ++ String e "")) = true).
  { pose proof (part_calm c w q n q' K d D) as H. unfold key_part in H. cbn [sforall] in *. rewrite sforall_app. cbn [sforall]. rewrite Ce. apply andb_true_iff in H as [H1 H2]. rewrite H1, H2. reflexivity. }
  assert (C2 : sforall calm (String c ((w ++ q ++ n ++ q') ++ String e "")) = true).
  { cbn [sforall] in *. apply andb_true_iff in C1 as [-> C1]. rewrite !sforall_app in *. cbn [sforall] in *. repeat (apply andb_true_iff in C1 as [? C1]).
    repeat match goal with H : _ && _ = true |- _ => apply andb_true_iff in H as [? ?] end. repeat match goal with H : _ = true |- _ => rewrite H end. reflexivity. }
  unfold create_parse, drop_dashes, drop_lengths.
  assert (R : forall u, a ++ u ++ String e r = a ++ (u ++ String e "") ++ r) by (intros u; rewrite (sapp_assoc u (String e "")); reflexivity).
  unfold key_part, whole_part. rewrite !R. cbn [String.append].
  destruct (drop_dashes_inside a r false) as [(a1 & b1 & H)|(s & H)].
  - pose proof (H c _ C1) as H1. pose proof (H c _ C2) as H2. cbn [String.append] in H1, H2. f_equal.
    etransitivity; [apply f_equal; exact H1|]. etransitivity; [|symmetry; apply f_equal; exact H2].
    pose proof (drop_absent c w q n q' d K D F e b1 a1 T 0 (Nat.le_0_l _)) as G. unfold key_part, whole_part in G. cbn [String.append] in G.
    rewrite (sapp_assoc (w ++ q ++ n ++ q')), (sapp_assoc (w ++ q ++ n ++ q' ++ _)). exact G.
  - pose proof (H c _ C1) as H1. pose proof (H c _ C2) as H2. cbn [String.append] in H1, H2. f_equal. f_equal. etransitivity; [exact H1|symmetry; exact H2].
Qed.

Local Opaque max_statements max_turns.

(** A key on the first characters of a column and a key on the whole column are read as the same, wherever
    the key stands in a source that begins with CREATE and whatever comes before and after. *)
Theorem C74_length_absent : forall file a c w q n q' d b, begins a -> key_part_ok c w q n q' -> digits d -> named_column n -> after_column b ->
  read_sql file (a ++ key_part c w q n q' d ++ b) = read_sql file (a ++ whole_part c w q n q' ++ b).
Proof.
  intros file a c w q n q' d b B K D F E. unfold read_sql. destruct max_statements as [|k].
  - destruct (begins_create a B) as (e & m & -> & _). reflexivity.
  - rewrite !begun_reads by (apply begins_app, B). rewrite create_absent by assumption. reflexivity.
Qed.
Example ex_C74_length_absent : begins "CREATE TABLE `t` (`a` TEXT, KEY `k` " /\ key_part_ok "(" "" "`" "a" "`" /\ digits "10" /\ named_column "a" /\ after_column "));"
  /\ "CREATE TABLE `t` (`a` TEXT, KEY `k` (`a`(10)));" = "CREATE TABLE `t` (`a` TEXT, KEY `k` " ++ key_part "(" "" "`" "a" "`" "10" ++ "));"
  /\ "CREATE TABLE `t` (`a` TEXT, KEY `k` (`a`));" = "CREATE TABLE `t` (`a` TEXT, KEY `k` " ++ whole_part "(" "" "`" "a" "`" ++ "));".
Proof.
  split; [discriminate|]. split; [constructor; [left; reflexivity|reflexivity|split; right; reflexivity|split; [discriminate|reflexivity]]|]. split; [split; [discriminate|reflexivity]|].
  split; [exists "a"%char, ""; split; reflexivity|]. split; [exists ")"%char, ");"; split; [reflexivity|left; reflexivity]|]. split; reflexivity.
Qed.

(** ** The list of columns given to a key *)

(** A column with a number in parentheses at its end. *)
Definition numbered (s n : string) : Prop := exists d, s = n ++ "(" ++ d ++ ")" /\ digits d.
Lemma span_digits d r : sforall is_digit d = true -> span is_digit (d ++ String ")" r) = (d, String ")" r).
Proof. induction d as [|c d IH]; intros H; [reflexivity|]. cbn [sforall] in H. apply andb_true_iff in H as [C H]. cbn [String.append span]. rewrite C, IH by exact H. reflexivity. Qed.
Lemma span_same p s a b : span p s = (a, b) -> s = a ++ b /\ sforall p a = true.
Proof.
  revert a b. induction s as [|c s IH]; intros a b; cbn [span]; [intros H; injection H as <- <-; split; reflexivity|].
  destruct (p c) eqn:P; [|intros H; injection H as <- <-; split; reflexivity]. destruct (span p s) as [a' b'] eqn:E. intros H; injection H as <- <-. destruct (IH a' b' eq_refl) as [-> A]. cbn [sforall String.append]. rewrite P, A. split; reflexivity.
Qed.
Lemma numbered_one s n n' : numbered s n -> numbered s n' -> n = n'.
Proof.
  intros (d & -> & _ & D) (d' & E & _ & D'). revert n' E. induction n as [|c n IH]; intros n' E.
  - destruct n' as [|c' n']; [reflexivity|]. exfalso. cbn [String.append] in E. injection E as <- E. clear -D E.
    revert d D E. induction n' as [|c n IH]; intros d D E.
    + destruct d as [|x d]; [discriminate|]. cbn [String.append] in E. injection E as -> _. discriminate.
    + destruct d as [|x d]; [cbn [String.append] in E; injection E as _ E; destruct n; discriminate|]. cbn [String.append] in E. injection E as -> E. cbn [sforall] in D. apply andb_true_iff in D as [_ D]. exact (IH d D E).
  - destruct n' as [|c' n'].
    + exfalso. cbn [String.append] in E. injection E as -> E. clear -D' E. revert d' D' E. induction n as [|c n IH]; intros d' D E.
      * destruct d' as [|x d']; [discriminate|]. cbn [String.append] in E. injection E as <- _. discriminate.
      * destruct d' as [|x d']; [cbn [String.append] in E; injection E as _ E; destruct n; discriminate|]. cbn [String.append] in E. injection E as <- E. cbn [sforall] in D. apply andb_true_iff in D as [_ D]. exact (IH d' D E).
    + cbn [String.append] in E. injection E as <- E. f_equal. exact (IH n' E).
Qed.
Lemma drop_index_exact s : numbered s (drop_index_length s) \/ (forall n, ~ numbered s n) /\ drop_index_length s = s.
Proof.
  induction s as [|c s IH]; [right; split; [intros n (d & E & _); destruct n; discriminate|reflexivity]|]. cbn [drop_index_length].
  destruct (span is_digit s) as [d r] eqn:E. destruct (Ascii.eqb c "(" && (truthy d && String.eqb r ")")) eqn:B.
  - left. apply andb_true_iff in B as [C B]. apply andb_true_iff in B as [T R]. apply Ascii.eqb_eq in C. apply String.eqb_eq in R. subst c r. destruct (span_same _ _ _ _ E) as [-> A].
    exists d. split; [reflexivity|]. split; [intros ->; discriminate|exact A].
  - destruct IH as [(x & Es & X)|[N Es]].
    + left. exists x. split; [cbn [String.append]; f_equal; exact Es|exact X].
    + right. rewrite Es. split; [|reflexivity]. intros n (x & En & X). destruct n as [|c' n].
      * cbn [String.append] in En. injection En as -> ->. destruct X as [Xn X]. rewrite span_digits in E by exact X. injection E as <- <-. destruct x; [contradiction|discriminate].
      * cbn [String.append] in En. injection En as <- En. apply (N n). exists x. split; assumption.
Qed.
(** The columns of a key, however it is made: the spaces around a column are dropped, and then a number
    in parentheses at its very end; nothing else is. *)
Theorem C74_columns : forall l, Forall2 (fun s n => numbered (strip s) n \/ (forall m, ~ numbered (strip s) m) /\ n = strip s) l (clean_index_columns l).
Proof. induction l as [|s l IH]; [constructor|]. constructor; [|exact IH]. destruct (drop_index_exact (strip s)) as [H|[N H]]; [left; exact H|right; split; assumption]. Qed.
Theorem C74_columns_number : forall n d, digits d -> strip n = n -> n <> "" -> clean_index_columns [n ++ "(" ++ d ++ ")"] = [n].
Proof.
  intros n d D S N. pose proof (C74_columns [n ++ "(" ++ d ++ ")"]) as H. inversion H as [|? ? ? ? G _]; subst. clear H. cbn [clean_index_columns map] in *.
  assert (E : strip (n ++ "(" ++ d ++ ")") = n ++ "(" ++ d ++ ")").
  { destruct n as [|c n]; [contradiction|]. assert (Sc : is_space c = false).
    { destruct (is_space c) eqn:C; [|reflexivity]. exfalso. revert S. unfold strip, strip_by. cbn [rstrip_by]. destruct (rstrip_by is_space n) as [|x m] eqn:R.
      - rewrite C. cbn [lstrip_by]. discriminate.
      - cbn [lstrip_by]. rewrite C. intros S. assert (L : forall p s, String.length (lstrip_by p s) <= String.length s) by (clear; induction s as [|y s IH]; cbn [lstrip_by]; [lia|destruct (p y); cbn [String.length] in *; lia]).
        assert (M : forall s, String.length (rstrip_by is_space s) <= String.length s).
        { clear. induction s as [|y s IH]; cbn [rstrip_by]; [lia|]. destruct (rstrip_by is_space s); [destruct (is_space y); cbn [String.length] in *; lia|cbn [String.length] in *; lia]. }
        pose proof (L is_space (String x m)) as L1. cbn [lstrip_by] in L1; rewrite S in L1. pose proof (M n) as M1. rewrite R in M1. cbn [String.length] in *. lia. }
    replace (String c n ++ "(" ++ d ++ ")") with ("" ++ String c ((n ++ "(" ++ d) ++ String ")" "")) by (repeat (cbn [String.append]; rewrite ?sapp_assoc); reflexivity).
    rewrite (strip_keep "" c (n ++ "(" ++ d) ")" "" eq_refl Sc eq_refl). repeat (cbn [String.append]; rewrite ?sapp_assoc). reflexivity. }
  cbn [String.append] in E. rewrite E in G. unfold clean_index_columns. cbn [String.append map]. rewrite E. assert (Nm : numbered (n ++ String "(" (d ++ ")")) n) by (exists d; split; [reflexivity|exact D]). destruct G as [G|[G _]]; [f_equal; exact (numbered_one _ _ _ G Nm)|exfalso; exact (G n Nm)].
Qed.
Example ex_C74_columns : clean_index_columns [" name(10) "; "a(1)b"; "a(12"; "a()"; "a(b)"; "a(1)(2)"] = ["name"; "a(1)b"; "a(12"; "a()"; "a(b)"; "a(1)"].
Proof. reflexivity. Qed.

Print Assumptions C74_length_absent.
Print Assumptions C74_columns.
Print Assumptions C74_columns_number.
