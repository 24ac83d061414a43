(** C74: what the files say and no plan ever carries out. *)
From Verif Require Import ConfFacts RoundMany StoredFacts PropsParse PropsRound PropsWrite PropsCreate Samples.

Local Opaque max_turns max_statements.

(** ** The number of characters in a key *)

(** A column of a key with the number of its characters, as in [KEY a (name(10))]: [c] is the
    parenthesis or the comma before it. *)
Definition key_part (c : ascii) (w q n q' d : string) : string := String c (w ++ q ++ n ++ q' ++ "(" ++ d ++ ")").
Record key_part_ok (c : ascii) (w q n q' : string) : Prop := {
  kp_before : c = "("%char \/ c = ","%char;
  kp_spaces : sforall (Ascii.eqb " ") w = true;
  kp_ticks : tick_or_none q /\ tick_or_none q';
  kp_name : n <> "" /\ sforall is_word n = true
}.

Definition calm (c : ascii) : bool := negb (Ascii.eqb c newline) && negb (Ascii.eqb c "-").
Lemma calm_comment u r : sforall calm u = true -> drop_dashes_from true (u ++ r) = drop_dashes_from true r.
Proof.
  induction u as [|c u IH]; [reflexivity|]. cbn [sforall]. intros H. apply andb_true_iff in H as [A B]. unfold calm in A. apply andb_true_iff in A as [A _]. apply negb_true_iff in A.
  cbn [String.append drop_dashes_from]. rewrite A. apply IH, B.
Qed.
Lemma calm_text u r : sforall calm u = true -> drop_dashes_from false (u ++ r) = u ++ drop_dashes_from false r.
Proof.
  induction u as [|c u IH]; [reflexivity|]. cbn [sforall]. intros H. apply andb_true_iff in H as [A B]. unfold calm in A. apply andb_true_iff in A as [_ A]. apply negb_true_iff in A.
  cbn [String.append drop_dashes_from]. rewrite A. cbn [andb]. rewrite IH by exact B. reflexivity.
Qed.
Lemma drop_dashes_inside a b : forall ic, (exists a1 b1, forall c u, sforall calm (String c u) = true -> drop_dashes_from ic (a ++ String c u ++ b) = a1 ++ String c u ++ b1)
  \/ (exists s, forall c u, sforall calm (String c u) = true -> drop_dashes_from ic (a ++ String c u ++ b) = s).
Proof.
  induction a as [|x a IH]; intros ic.
  - destruct ic; [right; exists (drop_dashes_from true b)|left; exists "", (drop_dashes_from false b)]; intros c u C; [apply (calm_comment (String c u)), C|apply (calm_text (String c u)), C].
  - destruct ic.
    + destruct (Ascii.eqb x newline) eqn:E.
      * destruct (IH false) as [(a1 & b1 & H)|(s & H)]; [left; exists (String x a1), b1|right; exists (String x s)]; intros c u C; change ((String x a) ++ String c u ++ b) with (String x (a ++ String c u ++ b));
          cbn [drop_dashes_from]; rewrite E, H by exact C; reflexivity.
      * destruct (IH true) as [(a1 & b1 & H)|(s & H)]; [left; exists a1, b1|right; exists s]; intros c u C; change ((String x a) ++ String c u ++ b) with (String x (a ++ String c u ++ b));
          cbn [drop_dashes_from]; rewrite E; apply H, C.
    + set (f := fun s' => Ascii.eqb x "-" && (match s' with String d _ => Ascii.eqb d "-" | EmptyString => false end)).
      assert (F : forall c u, sforall calm (String c u) = true -> f (a ++ String c u ++ b) = f a).
      { intros c u C. unfold f. destruct a as [|y a]; [|reflexivity]. cbn [String.append]. cbn [sforall] in C. apply andb_true_iff in C as [C _]. unfold calm in C. apply andb_true_iff in C as [_ C]. apply negb_true_iff in C. rewrite C. reflexivity. }
      destruct (f a) eqn:E.
      * destruct (IH true) as [(a1 & b1 & H)|(s & H)]; [left; exists a1, b1|right; exists s]; intros c u C; change ((String x a) ++ String c u ++ b) with (String x (a ++ String c u ++ b));
          cbn [drop_dashes_from]; fold (f (a ++ String c u ++ b)); rewrite F by exact C; rewrite ?E; apply H, C.
      * destruct (IH false) as [(a1 & b1 & H)|(s & H)]; [left; exists (String x a1), b1|right; exists (String x s)]; intros c u C; change ((String x a) ++ String c u ++ b) with (String x (a ++ String c u ++ b));
          cbn [drop_dashes_from]; fold (f (a ++ String c u ++ b)); rewrite F by exact C; rewrite ?E, H by exact C; reflexivity.
Qed.

Definition part_text (w q n q' d : string) : string := w ++ q ++ n ++ q' ++ "(" ++ d ++ ")".
Lemma prefix_length_found w q n q' d r : blank w -> tick_or_none q -> tick_or_none q' -> n <> "" -> sforall is_word n = true -> digits d ->
  prefix_length (part_text w q n q' d ++ r) = Some (w ++ q ++ n ++ q', String.length (part_text w q n q' d)).
Proof.
  intros W Q Q' N A [Dn D]. unfold prefix_length, part_text.
  replace ((w ++ q ++ n ++ q' ++ "(" ++ d ++ ")") ++ r) with (w ++ q ++ n ++ q' ++ "(" ++ d ++ ")" ++ r) by (rewrite !sapp_assoc; reflexivity).
  assert (S1 : span is_space (w ++ q ++ n ++ q' ++ "(" ++ d ++ ")" ++ r) = (w, q ++ n ++ q' ++ "(" ++ d ++ ")" ++ r)).
  { apply span_app; [exact W|]. destruct Q as [->| ->]; [|reflexivity]. destruct n as [|c n]; [contradiction|]. cbn [sforall] in A. apply andb_true_iff in A as [A _].
    cbn [String.append]. revert A. clear. destruct c as [[|] [|] [|] [|] [|] [|] [|] [|]]; vm_compute; congruence. }
  rewrite S1.
  assert (O1 : opt_bquote (q ++ n ++ q' ++ "(" ++ d ++ ")" ++ r) = (q, n ++ q' ++ "(" ++ d ++ ")" ++ r)).
  { destruct Q as [->| ->]; [|reflexivity]. destruct n as [|c n]; [contradiction|]. cbn [sforall] in A. apply andb_true_iff in A as [A _].
    cbn [String.append opt_bquote]. replace (Ascii.eqb c bquote) with false; [reflexivity|]. revert A. clear. destruct c as [[|] [|] [|] [|] [|] [|] [|] [|]]; vm_compute; congruence. }
  rewrite O1.
  assert (S2 : span is_word (n ++ q' ++ "(" ++ d ++ ")" ++ r) = (n, q' ++ "(" ++ d ++ ")" ++ r)).
  { apply span_app; [exact A|]. destruct Q' as [->| ->]; reflexivity. }
  rewrite S2. destruct n as [|c n]; [contradiction|]. cbn [is_empty].
  assert (O2 : opt_bquote (q' ++ "(" ++ d ++ ")" ++ r) = (q', "(" ++ d ++ ")" ++ r)) by (destruct Q' as [->| ->]; reflexivity).
  rewrite O2. change ("(" ++ d ++ ")" ++ r) with (String "(" (d ++ ")" ++ r)). cbv iota.
  assert (S3 : span is_digit (d ++ ")" ++ r) = (d, ")" ++ r)) by (apply span_app; [exact D|reflexivity]).
  rewrite S3. change (")" ++ r) with (String ")" r). cbv iota. destruct d as [|e d]; [contradiction|]. cbn [is_empty]. do 2 f_equal.
  repeat (rewrite ?slength_app; cbn [String.length]). lia.
Qed.
Lemma app_cut a z : forall u r, a ++ z = u ++ r -> (exists y, a = u ++ y /\ r = y ++ z) \/ (exists e y, u = a ++ String e y /\ z = String e y ++ r).
Proof.
  induction a as [|x a IH]; intros u r E.
  - destruct u as [|e u]; [left; exists ""; auto|right; exists e, u; auto].
  - destruct u as [|e u]; [left; exists (String x a); split; [reflexivity|symmetry; exact E]|]. cbn [String.append] in E. injection E as -> E.
    destruct (IH u r E) as [(y & -> & ->)|(f & y & -> & ->)]; [left; exists y|right; exists f, y]; auto.
Qed.
Lemma blank_open w c : blank w -> c = "("%char \/ c = ","%char \/ c = ")"%char -> sforall (fun d => negb (Ascii.eqb d c)) w = true.
Proof. intros B H. revert B. apply sforall_imp. intros e. destruct H as [H|[H|H]]; subst c; clear; destruct e as [[|] [|] [|] [|] [|] [|] [|] [|]]; vm_compute; congruence. Qed.
Lemma word_open w c : sforall is_word w = true -> c = "("%char \/ c = ","%char \/ c = ")"%char -> sforall (fun d => negb (Ascii.eqb d c)) w = true.
Proof. intros B H. revert B. apply sforall_imp. intros e. destruct H as [H|[H|H]]; subst c; clear; destruct e as [[|] [|] [|] [|] [|] [|] [|] [|]]; vm_compute; congruence. Qed.
Lemma digit_open w c : sforall is_digit w = true -> c = "("%char \/ c = ","%char \/ c = ")"%char -> sforall (fun d => negb (Ascii.eqb d c)) w = true.
Proof. intros B H. revert B. apply sforall_imp. intros e. destruct H as [H|[H|H]]; subst c; clear; destruct e as [[|] [|] [|] [|] [|] [|] [|] [|]]; vm_compute; congruence. Qed.
Lemma tick_open q c : tick_or_none q -> c = "("%char \/ c = ","%char \/ c = ")"%char -> sforall (fun d => negb (Ascii.eqb d c)) q = true.
Proof. intros [E|E] [H|[H|H]]; subst; reflexivity. Qed.
Lemma spaces_blank w : sforall (Ascii.eqb " ") w = true -> blank w.
Proof. apply sforall_imp. intros c H. apply Ascii.eqb_eq in H. subst c. reflexivity. Qed.
Lemma lead_open w q n q' c : blank w -> tick_or_none q -> tick_or_none q' -> sforall is_word n = true -> c = "("%char \/ c = ","%char \/ c = ")"%char ->
  sforall (fun d => negb (Ascii.eqb d c)) (w ++ q ++ n ++ q') = true.
Proof. intros B Q Q' W C. rewrite !sforall_app, (blank_open w c B C), (tick_open q c Q C), (word_open n c W C), (tick_open q' c Q' C). reflexivity. Qed.
Lemma drop_skip u r : drop_lengths_from (String.length u) (u ++ r) = drop_lengths_from 0 r.
Proof. induction u as [|c u IH]; [reflexivity|]. exact IH. Qed.

Section Part.
  Variables (c : ascii) (w q n q' : string).
  Hypothesis K : key_part_ok c w q n q'.
  Lemma prefix_before d d' b a g k : digits d' -> prefix_length (a ++ key_part c w q n q' d ++ b) = Some (g, k) ->
    k <= String.length a /\ prefix_length (a ++ key_part c w q n q' d' ++ b) = Some (g, k).
  Proof.
    intros D' P. destruct (prefix_length_text _ _ _ P) as (w1 & q1 & n1 & q1' & d1 & r & E & B & Q & Q' & N & W & D).
    assert (E' : a ++ key_part c w q n q' d ++ b = part_text w1 q1 n1 q1' d1 ++ r) by (rewrite E; unfold part_text; rewrite !sapp_assoc; reflexivity).
    rewrite E' in P. rewrite prefix_length_found in P by assumption. injection P as <- <-. destruct (app_cut _ _ _ _ E') as [(y & -> & ->)|(e & y & Eu & Ez)].
    - split; [rewrite slength_app; lia|]. rewrite sapp_assoc. apply prefix_length_found; assumption.
    - exfalso. unfold key_part in Ez. cbn [String.append] in Ez. injection Ez as <- Ez.
      assert (Ez2 : (w ++ q ++ n ++ q') ++ String "(" (d ++ ")" ++ b) = y ++ r) by (rewrite <- Ez; repeat (cbn [String.append]; rewrite ?sapp_assoc); reflexivity). clear Ez.
      assert (L : forall x, x = "("%char \/ x = ","%char \/ x = ")"%char -> sforall (fun d => negb (Ascii.eqb d x)) (w ++ q ++ n ++ q') = true).
      { intros x X. destruct K as [_ Ks [T1 T2] [_ Kw]]. apply lead_open; auto. apply spaces_blank, Ks. }
      assert (Eu2 : (w1 ++ q1 ++ n1 ++ q1') ++ String "(" (d1 ++ ")") = a ++ String c y) by (rewrite <- Eu; unfold part_text; repeat (cbn [String.append]; rewrite ?sapp_assoc); reflexivity). clear Eu.
      destruct (app_until c (w1 ++ q1 ++ n1 ++ q1') (String "(" (d1 ++ ")")) a y Eu2) as (z & Ea & Es).
      { apply lead_open; auto. destruct (kp_before _ _ _ _ _ K); auto. }
      destruct z as [|x z].
      + cbn [String.append] in Es. injection Es as Ec <-. replace ((d1 ++ ")") ++ r) with (d1 ++ String ")" r) in Ez2 by (rewrite sapp_assoc; reflexivity).
        destruct (app_until ")" (w ++ q ++ n ++ q') _ d1 r Ez2) as (z & E1 & E2); [apply L; auto|]. destruct z as [|x z]; [discriminate E2|]. cbn [String.append] in E2. injection E2 as <- _.
        destruct D as [_ D]. rewrite E1 in D. rewrite sforall_app in D. apply andb_true_iff in D as [_ D]. discriminate D.
      + cbn [String.append] in Es. injection Es as _ Es. assert (X : sforall (fun e => negb (Ascii.eqb e c)) (d1 ++ ")") = true).
        { rewrite sforall_app, (digit_open d1 c) by (try apply D; destruct (kp_before _ _ _ _ _ K); auto). destruct (kp_before _ _ _ _ _ K) as [H|H]; rewrite H; reflexivity. }
        rewrite Es, sforall_app in X. cbn [sforall] in X. rewrite Ascii.eqb_refl in X. cbn [negb andb] in X. rewrite andb_false_r in X. discriminate.
  Qed.
  Lemma drop_inside d d' b a : digits d -> digits d' -> forall sk, sk <= String.length a ->
    drop_lengths_from sk (a ++ key_part c w q n q' d ++ b) = drop_lengths_from sk (a ++ key_part c w q n q' d' ++ b).
  Proof.
    intros D D'. induction a as [|x a IH]; intros sk L.
    - cbn [String.length] in L. replace sk with 0 by lia. unfold key_part. cbn [String.append drop_lengths_from].
      assert (C : Ascii.eqb c "(" || Ascii.eqb c "," = true) by (destruct (kp_before _ _ _ _ _ K) as [H|H]; rewrite H; reflexivity). rewrite C.
      destruct K as [_ Ks [T1 T2] [Nn Kw]]. apply spaces_blank in Ks.
      change (w ++ q ++ n ++ q' ++ String "(" (d ++ ")")) with (part_text w q n q' d). change (w ++ q ++ n ++ q' ++ String "(" (d' ++ ")")) with (part_text w q n q' d').
      rewrite !prefix_length_found by assumption. rewrite !drop_skip. reflexivity.
    - change (String x a ++ ?u) with (String x (a ++ u)). destruct sk as [|sk]; [|cbn [String.append drop_lengths_from]; apply IH; cbn [String.length] in L; lia].
      cbn [String.append drop_lengths_from]. destruct (Ascii.eqb x "(" || Ascii.eqb x ","); [|rewrite IH by lia; reflexivity].
      destruct (prefix_length (a ++ key_part c w q n q' d ++ b)) as [[g k]|] eqn:P.
      + destruct (prefix_before d d' b a g k D' P) as [Lk ->]. rewrite (IH k Lk). reflexivity.
      + destruct (prefix_length (a ++ key_part c w q n q' d' ++ b)) as [[g k]|] eqn:P'; [|rewrite IH by lia; reflexivity].
        destruct (prefix_before d' d b a g k D P') as [_ Q]. rewrite P in Q. discriminate.
  Qed.
  Lemma part_calm d : digits d -> sforall calm (key_part c w q n q' d) = true.
  Proof.
    intros [_ D]. destruct K as [Kb Ks [T1 T2] [Nn Kw]]. unfold key_part. cbn [sforall].
    assert (Q : forall x, tick_or_none x -> sforall calm x = true) by (intros x [H|H]; subst; reflexivity).
    assert (A : calm c = true) by (destruct Kb as [H|H]; rewrite H; reflexivity). rewrite A. rewrite !sforall_app, (Q q T1), (Q q' T2).
    replace (sforall calm w) with true by (symmetry; revert Ks; apply sforall_imp; intros e H; apply Ascii.eqb_eq in H; subst e; reflexivity).
    replace (sforall calm n) with true by (symmetry; revert Kw; apply sforall_imp; intros e; clear; destruct e as [[|] [|] [|] [|] [|] [|] [|] [|]]; vm_compute; congruence).
    replace (sforall calm d) with true by (symmetry; revert D; apply sforall_imp; intros e; clear; destruct e as [[|] [|] [|] [|] [|] [|] [|] [|]]; vm_compute; congruence).
    reflexivity.
  Qed.
  Lemma create_inside d d' a b : digits d -> digits d' -> create_parse (a ++ key_part c w q n q' d ++ b) = create_parse (a ++ key_part c w q n q' d' ++ b).
  Proof.
    intros D D'. unfold create_parse, drop_dashes, drop_lengths. destruct (drop_dashes_inside a b false) as [(a1 & b1 & H)|(s & H)].
    - assert (H' : forall x, digits x -> drop_dashes_from false (a ++ key_part c w q n q' x ++ b) = a1 ++ key_part c w q n q' x ++ b1) by (intros x X; exact (H c _ (part_calm x X))).
      rewrite !H' by assumption. f_equal. apply (drop_inside d d' b1 a1 D D' 0). lia.
    - assert (H' : forall x, digits x -> drop_dashes_from false (a ++ key_part c w q n q' x ++ b) = s) by (intros x X; exact (H c _ (part_calm x X))).
      rewrite !H' by assumption. reflexivity.
  Qed.
End Part.

Lemma part_end c w q n q' d : exists x, key_part c w q n q' d = String c (x ++ ")").
Proof. exists (w ++ q ++ n ++ q' ++ "(" ++ d). unfold key_part. rewrite !sapp_assoc. reflexivity. Qed.
Lemma strip_around a c w q n q' d b : begins a -> strip (a ++ key_part c w q n q' d ++ b) = a ++ key_part c w q n q' d ++ rstrip_by is_space b.
Proof.
  intros B. destruct (begins_create a B) as (e & m & -> & Se & _). destruct (part_end c w q n q' d) as (x & ->).
  pose proof (strip_keep "" e (m ++ String c x) ")" b eq_refl Se eq_refl) as H.
  replace (String e m ++ String c (x ++ ")") ++ b) with ("" ++ String e ((m ++ String c x) ++ String ")" b)) by (repeat (cbn [String.append]; rewrite ?sapp_assoc); reflexivity).
  rewrite H. repeat (cbn [String.append]; rewrite ?sapp_assoc). reflexivity.
Qed.

(** The number has no influence on anything that is read from a source that begins with CREATE TABLE,
    wherever it stands and whatever comes before and after. *)
Theorem C74_lengths_ignored : forall file a c w q n q' d d' b, begins a -> key_part_ok c w q n q' -> digits d -> digits d' ->
  read_sql file (a ++ key_part c w q n q' d ++ b) = read_sql file (a ++ key_part c w q n q' d' ++ b).
Proof.
  intros file a c w q n q' d d' b B K D D'. unfold read_sql. destruct max_statements as [|k].
  - destruct (begins_create a B) as (e & m & -> & _). reflexivity.
  - assert (G : forall x, digits x -> read_loop (S k) file new_reader (a ++ key_part c w q n q' x ++ b)
      = match create_parse (a ++ key_part c w q n q' x ++ rstrip_by is_space b) with
        | Raise e => (new_reader, Raise e)
        | Ok (m, rest) => read_loop k file (put_table new_reader (match m with Some t => t | None => no_table end)) rest
        end).
    { intros x X. cbn [read_loop]. rewrite strip_around by exact B. destruct (begins_create (a ++ key_part c w q n q' x ++ rstrip_by is_space b) (begins_app a _ B)) as (e & m & E & _ & St). rewrite St, E.
      destruct (begins_create a B) as (e' & m' & Ea & _). rewrite Ea at 1. cbn [String.append is_empty]. reflexivity. }
    rewrite (G d D), (G d' D'), (create_inside c w q n q' K d d' a (rstrip_by is_space b) D D'). reflexivity.
Qed.
Example ex_C74_lengths : begins "CREATE TABLE `t` (`a` TEXT, KEY `k` " /\ key_part_ok "(" "" "`" "a" "`" /\ digits "10" /\ digits "20".
Proof. split; [discriminate|]. split; [constructor; [left; reflexivity|reflexivity|split; right; reflexivity|split; [discriminate|reflexivity]]|]. split; split; try discriminate; reflexivity. Qed.

(** ** The options of a table *)

Definition with_options (t : table) (o : list toption) : table :=
  mkTable (t_name t) (t_columns t) (t_indexes t) (t_constraints t) o (t_primary t) (t_indexed t) (t_rows t) (t_tracking t) (t_global_errors t) (t_global_warnings t) (t_ordered t).
Definition reoption (f : string -> list toption) (ts : tables) : tables := map (fun p => (fst p, with_options (snd p) (f (fst p)))) ts.
Section Options.
  Context {FO : FloatOracle}.
  Variables (f g : string -> list toption).
  Lemma dget_reoption h n ts : dget n (reoption h ts) = option_map (fun t => with_options t (h n)) (dget n ts).
  Proof. induction ts as [|[m t] ts IH]; [reflexivity|]. simpl. destruct (String.eqb_spec n m) as [<-|X]; [reflexivity|exact IH]. Qed.
  Lemma dkeys_reoption h ts : dkeys (reoption h ts) = dkeys ts.
  Proof. unfold reoption, dkeys. rewrite map_map. reflexivity. Qed.
  Lemma dmem_reoption h n ts : dmem n (reoption h ts) = dmem n ts.
  Proof. induction ts as [|[m t] ts IH]; [reflexivity|]. simpl. rewrite IH. reflexivity. Qed.
  Lemma changing_reoption from to n c : changing_column (reoption g from) (reoption f to) n c = changing_column from to n c.
  Proof. unfold changing_column. rewrite !dget_reoption. destruct (dget n from), (dget n to); reflexivity. Qed.
  Lemma cycle_reoption from to tn kn k : cycle_of (reoption g from) (reoption f to) tn kn k = cycle_of from to tn kn k.
  Proof. unfold cycle_of. rewrite !changing_reoption, dget_reoption. destruct (dget tn to); reflexivity. Qed.
  Lemma cycled_reoption from to tn s o : cycled_of_table (reoption g from) (reoption f to) tn (with_options s o) = cycled_of_table from to tn s.
  Proof. unfold cycled_of_table. cbn [with_options t_constraints]. f_equal. apply map_ext. intros p. rewrite cycle_reoption. reflexivity. Qed.
  Lemma keep_reoption from to tn o : keep_op (reoption g from) (reoption f to) tn o = keep_op from to tn o.
  Proof.
    assert (H : forall n, cycled_in (reoption g from) (reoption f to) tn n = cycled_in from to tn n).
    { intros n. unfold cycled_in. rewrite dget_reoption. destruct (dget tn from) as [s|]; [|reflexivity]. cbn [option_map]. unfold cycled_names. rewrite cycled_reoption. reflexivity. }
    destruct o; cbn [keep_op]; rewrite ?H; reflexivity.
  Qed.
  Lemma strip_reoption from to a : strip_opt (reoption g from) (reoption f to) a = strip_opt from to a.
  Proof.
    destruct a as [a|]; [|reflexivity]. unfold strip_opt. replace (strip_cycled (reoption g from) (reoption f to) a) with (strip_cycled from to a); [reflexivity|].
    unfold strip_cycled. f_equal. apply filter_ext. intros o. symmetry. apply keep_reoption.
  Qed.
  Lemma update_reoption from to n : update_table (reoption g from) (reoption f to) n = update_table from to n.
  Proof.
    unfold update_table, dgetE. rewrite !dget_reoption. destruct (dget n to) as [t|]; [|reflexivity]. cbn [option_map bind]. destruct (dget n from) as [s|]; [|reflexivity]. cbn [option_map bind].
    change (diff_split (with_options s (g n)) (with_options t (f n))) with (diff_split s t). destruct (diff_split s t) as [sp|]; [|reflexivity]. cbn [bind]. rewrite !strip_reoption. reflexivity.
  Qed.
  (** Whatever the options of tables that exist on both sides are, the plan is the same. *)
  Theorem C74_options_ignored : forall disable from to, (forall n, In n (dkeys to) -> In n (dkeys from)) ->
    plan_tables disable (reoption f to) (Some (reoption g from)) = plan_tables disable to (Some from).
  Proof.
    intros disable from to H. unfold plan_tables.
    assert (E : differences (reoption g from) (reoption f to) = differences from to).
    { unfold differences. rewrite !dkeys_reoption. f_equal; [f_equal|]; apply filter_ext; intros n; rewrite dmem_reoption; reflexivity. }
    rewrite E. clear E.
    assert (A : filter (fun k => negb (dmem k from)) (dkeys to) = []) by (apply filter_none; intros k Hk; apply negb_false_iff, dmem_iff, H, Hk).
    unfold differences. rewrite A. cbn [mapM bind].
    assert (M : forall l, mapM (update_table (reoption g from) (reoption f to)) l = mapM (update_table from to) l).
    { induction l as [|n l IH]; [reflexivity|]. cbn [mapM]. rewrite update_reoption, IH. reflexivity. }
    rewrite M.
    assert (Cy : forall h : list (string * constraint * option (constraint * string)) -> list aop,
      map (fun p => opt_list (nonempty_alter (fst p) (h (cycled_of_table (reoption g from) (reoption f to) (fst p) (snd p))))) (reoption g from)
      = map (fun p => opt_list (nonempty_alter (fst p) (h (cycled_of_table from to (fst p) (snd p))))) from).
    { intros h. unfold reoption at 3. rewrite map_map. apply map_ext. intros p. cbn [fst snd]. rewrite cycled_reoption. reflexivity. }
    assert (D : drop_fk_ops (reoption g from) (reoption f to) = drop_fk_ops from to) by (unfold drop_fk_ops; f_equal; apply (Cy (map (fun x => RemoveConstraint (snd (fst x)))))).
    assert (Ad : add_fk_ops (reoption g from) (reoption f to) = add_fk_ops from to) by (unfold add_fk_ops; f_equal; apply (Cy (fun l => adds_once l []))).
    rewrite D, Ad. reflexivity.
  Qed.
End Options.

(** Full statement: a change of an option in the files reaches the server.  It never does for a table
    that is already there: the plan is empty, and nothing is reported. *)
Definition engine_file (o : string) : string := "CREATE TABLE `t` (`id` INT(10) NOT NULL, PRIMARY KEY (`id`)) ENGINE=" ++ o ++ ";".
Theorem C74_refuted : forall FO : FloatOracle, exists b live p, file_database [("t.sql", engine_file "InnoDB")] = Ok b /\ live_database [engine_file "MyISAM"] = Ok live
  /\ map (fun q => map o_value (t_options (snd q))) (db_tables b) = [["InnoDB"]] /\ map (fun q => map o_value (t_options (snd q))) (db_tables live) = [["MyISAM"]]
  /\ plan_tables false (db_tables b) (Some (db_tables live)) = Ok p /\ p = [].
Proof.
  intros FO. found (file_database [("t.sql", engine_file "InnoDB")]). found (live_database [engine_file "MyISAM"]). exists [].
  split; [by_vm|]. split; [by_vm|]. split; [by_vm|]. split; [by_vm|]. split; [lazy; reflexivity|reflexivity].
Qed.
(** A key on the first characters of a long text, which MySQL requires to be so: the plan adds the key
    without the number. *)
Definition long_file : string := "CREATE TABLE `t` (`id` INT(10) NOT NULL, `a` TEXT, PRIMARY KEY (`id`), KEY `k` (`a`(20)));".
Definition long_live : string := "CREATE TABLE `t` (`id` INT(10) NOT NULL, `a` TEXT, PRIMARY KEY (`id`))".
Theorem C74_refuted_length : forall FO : FloatOracle, exists b live p, file_database [("t.sql", long_file)] = Ok b /\ live_database [long_live] = Ok live
  /\ plan_tables false (db_tables b) (Some (db_tables live)) = Ok p /\ map op_str p = ["ALTER TABLE `t` ADD KEY `k` (`a`);"].
Proof.
  intros FO. found (file_database [("t.sql", long_file)]). found (live_database [long_live]). eexists.
  split; [by_vm|]. split; [by_vm|]. split; [lazy; reflexivity|]. vm_compute. reflexivity.
Qed.
Example ex_C74_options : exists b, (forall FO : FloatOracle, file_database [("t.sql", engine_file "InnoDB")] = Ok b) /\ reoption (fun _ => []) (db_tables b) <> db_tables b.
Proof. found (@file_database int_floats [("t.sql", engine_file "InnoDB")]). split; [intros FO; by_vm|discriminate]. Qed.

Print Assumptions C74_lengths_ignored.
Print Assumptions C74_options_ignored.
Print Assumptions C74_refuted.
Print Assumptions C74_refuted_length.
