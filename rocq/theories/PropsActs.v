(** C112: the actions of a foreign key. *)
From Verif Require Import Cli SpecActs SpecDefs SpecAccept SpecWarn RoundRead WriteCreate AcceptFacts WarnFacts ActFacts DefFacts Samples PropsParse PropsRound PropsWrite PropsCli
  PropsFiles PropsOrder PropsWarn PropsDefs PropsNote PropsCreate.

Local Opaque max_turns max_statements.

(** Every foreign key of [fk_acting] is read, before a comma and before the closing parenthesis, with the
    first action for each event and an error for each further one. *)
Theorem C112_read_exact : forall n c t fc ds us s, fk_acting n c t fc ds us s ->
  let d := DefFk (match n with Some _ => false | None => true end) (fk_read_as n c t fc ds us) in
  (forall next, normalize next = next -> next <> "" -> best_child definition_classes (s ++ ", " ++ next) None = Ok (Some (d, next)))
  /\ best_child definition_classes (s ++ ")") None = Ok (Some (d, ")")).
Proof.
  intros n c t fc ds us s W d. split.
  - intros next T N. apply (acting_read n c t fc ds us s (EComma next) W (conj (normal_trim _ T) N) (calm_comma next)).
  - apply (acting_read n c t fc ds us s (EClose false "") W eq_refl (calm_close false "")).
Qed.

(** In a CREATE TABLE statement, among columns of C54 and keys: the first foreign key of its name is in the
    table, with its errors. *)
Definition named_after (tn : string) (n : option ident) (c t : ident) : string :=
  match n with Some n => snd n | None => substring 0 64 (tn ++ "_" ++ snd c ++ "_" ++ snd t ++ "_fk") end.
Lemma act_named tn n c t fc ds us bare k : act_says (ActFk n c t fc ds us) (DefFk bare k) -> k_name (fk_called tn bare k) = named_after tn n c t.
Proof. intros [-> ->]. destruct n; reflexivity. Qed.
Theorem C112_statement_partial : forall tn h w0 w1 w2 before n c t fc ds us after ss tab rest,
  create_head tn h -> Forall2 act_written (before +++ ActFk n c t fc ds us :: after) ss -> (N.of_nat (List.length ss) < 1000)%N ->
  blank w0 -> blank w1 -> w1 <> "" -> blank w2 ->
  (forall n' c' t' fc' ds' us', In (ActFk n' c' t' fc' ds' us') before -> named_after tn n' c' t' <> named_after tn n c t) ->
  create_parse (h ++ " (" ++ w0 ++ join ("," ++ w1) ss ++ w2 ++ ");") = Ok (Some tab, rest) ->
  exists k, In (k_name k, k) (t_constraints tab) /\ k_name k = named_after tn n c t /\ k_column k = snd c /\ k_ftable k = snd t /\ k_fcolumn k = snd fc
    /\ k_on_delete k = first_action ds /\ k_on_update k = first_action us /\ k_perrors k = contradictions "DELETE" ds +++ contradictions "UPDATE" us.
Proof.
  intros tn h w0 w1 w2 before n c t fc ds us after ss tab rest Hh F L W0 W1 W1n W2 Fresh E.
  assert (Ls : List.length (before +++ ActFk n c t fc ds us :: after) = List.length ss) by (clear - F; induction F; cbn [List.length]; congruence).
  destruct (act_statement tn h w0 w1 w2 _ ss Hh F) as (v & P & Vn & Vs & Vd); auto.
  { rewrite Ls. split; [|exact L]. rewrite <- Ls, app_length. cbn [List.length]. lia. }
  rewrite P in E. destruct (create_process v) as [tab'|] eqn:Ep; [|discriminate]. injection E as -> _.
  assert (Ne : no_empty_key v).
  { intros H. unfold no_empty_key, named_in, defs_in in H. rewrite Vn in H.
    assert (Bk : forall l, In l (vkids "definitions" v) -> exists p s, In p (before +++ ActFk n c t fc ds us :: after) /\ act_written p s /\ act_says p l).
    { intros l I. clear - F Vd I. revert ss F. induction Vd as [|p d ps dd M Vd IH]; intros ss F; [destruct I|]. inversion F; subst. destruct I as [<-|I].
      - exists p, y. split; [left; reflexivity|auto].
      - destruct (IH I _ H3) as (q & s & Iq & A & B). exists q, s. split; [right; exact Iq|auto]. }
    destruct H as [(i & I & Ei)|[(l1 & q & l2 & Eq & Pq & _)|(l1 & k & l2 & Ek & _ & _ & Ck)]].
    - destruct (Bk _ I) as (p & s & _ & A & B). destruct A as [| j s A|]; try contradiction. cbn in B. apply (key_some j s A). rewrite <- Ei. symmetry. apply alike_ix_name, B.
    - destruct (Bk (DefCol q)) as (p & s & _ & A & B); [rewrite Eq; apply in_app_iff; right; left; reflexivity|]. destruct A; try contradiction.
      destruct B as (x & _ & _ & _ & B). congruence.
    - destruct (Bk (DefFk true k)) as (p & s & _ & A & B); [rewrite Ek; apply in_app_iff; right; left; reflexivity|]. destruct A as [| |n' c' t' fc' ds' us' s A]; try contradiction.
      destruct B as [_ ->]. destruct A as [k1 k2 k3 g a1 a2 _ _ _ _ [[C _] _] _ _ _ _ _ _]. apply C. exact Ck. }
  destruct (C97_exact v Ne) as [(tab' & Ep' & M & _)|[(m & Em) _]]; [|rewrite Em in Ep; discriminate]. rewrite Ep in Ep'. injection Ep' as <-.
  unfold named_in, defs_in in M. rewrite Vn in M. destruct M as [_ _ _ (K & Y & EK)].
  apply Forall2_app_inv_l in Vd as (d1 & d2 & V1 & V2 & Ed). inversion V2 as [|? d ? d3 Md V3]; subst d2. subst.
  destruct d as [| |bare k|]; try contradiction. pose proof (act_named (strip_char bquote (vtext "name" v)) _ _ _ _ _ _ _ _ Md) as Nk.
  destruct (yields_all _ [] (vkids "definitions" v) K Y d1 (DefFk bare k) d3 (fk_called (strip_char bquote (vtext "name" v)) bare k) Ed) as (b & Ib & Hb).
  { constructor. intros (bare' & k' & I & Ek). cbn [List.app] in I. assert (Q : exists n' c' t' fc' ds' us', In (ActFk n' c' t' fc' ds' us') before /\ act_says (ActFk n' c' t' fc' ds' us') (DefFk bare' k')).
    { clear - V1 I. induction V1 as [|p d l dd Mp V IH]; [destruct I|]. destruct I as [->|I].
      - destruct p; try contradiction. repeat eexists; [left; reflexivity|apply Mp|apply Mp].
      - destruct (IH I) as (n' & c' & t' & fc' & ds' & us' & A & B). exists n', c', t', fc', ds', us'. split; [right; exact A|exact B]. }
    destruct Q as (n' & c' & t' & fc' & ds' & us' & I' & M'). apply (Fresh _ _ _ _ _ _ I'). rewrite <- (act_named _ _ _ _ _ _ _ _ _ M'), <- Nk. exact Ek. }
  inversion Hb as [bare2 k2 _ Eb Ek2]. subst.
  exists (fk_called (strip_char bquote (vtext "name" v)) bare k). split; [rewrite EK; apply in_map_iff; eexists; split; [reflexivity|exact Ib]|].
  split; [exact Nk|]. destruct Md as [-> ->]. destruct n; repeat split.
Qed.

Section Props.
  Context {FO : FloatOracle}.

  (** Full statement: check reports every second action for the same event.  False, see [C112_refuted],
      [C112_refuted_date]; proved for the tables that are read and have no date column. *)
  Theorem C112_reported_partial : forall srcs b b1 errors n t m k e, ForallOrdPairs apart_tables srcs ->
    file_database srcs = Ok b -> db_errors b = (b1, Ok errors) ->
    In (n, t) (db_tables b) -> dateless t -> In (m, k) (t_constraints t) -> In e (k_perrors k) ->
    In (e ++ " in table '" ++ t_name t ++ "'") errors.
  Proof.
    intros srcs b b1 errs n t m k e A E Ee It D Ik Ie. destruct (file_good srcs b (apart_once _ A) E) as (U & N & T & rows & ED & L).
    pose proof (unasked_new b U) as EB. rewrite ED in EB. rewrite EB in Ee.
    assert (K : forall n t, In (n, t) (db_tables b) -> kept t) by (intros x y I; apply tidy_kept, (T x y I)).
    assert (NS : ~ stops t).
    { intros St. pose proof (proj2 (proj1 (answers_new (FO := FO) (db_tables b) rows (d_global_errors b) (d_global_warnings b) K L))) as G. destruct G as (x & Ex); [exists n, t; auto|]. pose proof (eq_trans (eq_sym (f_equal snd Ee)) Ex) as Z. discriminate. }
    destruct (parsing_new (FO := FO) (db_tables b) rows _ _ b1 errs K Ee) as (rr & schema & ->). rewrite !in_app_iff. right. left. left.
    apply in_concat. exists (te_parsing (find_all_errors t)). split; [apply in_map_iff; exists (n, t); auto|].
    apply (told_fk t m k e); [|exact Ik|exact Ie].
    destruct (te_exn (scan_children (t_name t) (children (fun _ => false) t))) as [x|] eqn:X; [|reflexivity]. exfalso. apply NS.
    apply scan_stops in X as (pre & y & post & Es & Ey & F). unfold children in Es. apply split_at in Es as [(q & E1 & E2)|(q & E1 & E2)].
    - apply map_eq_split in E1 as (bf & rs & Eb & <- & E'). destruct rs as [|d af]; [discriminate|]. injection E' as <- <-.
      exists bf, d, af. split; [exact Eb|]. rewrite child_exn in Ey.
      assert (Dd : forall c, In c (dvals (t_columns t)) -> c_kind c <> KDate) by (intros c I; apply Facts.dvals_in in I as (z & I); apply (D z c I)).
      split.
      + intros C. destruct (proj2 (answers_iff d)) as (l & El); [split; [exact C|apply Dd; rewrite Eb; apply in_app_iff; right; left; reflexivity]|]. rewrite El in Ey. discriminate.
      + apply Forall_forall. intros c Hc. apply answers_iff. rewrite Forall_forall in F. specialize (F _ (in_map _ _ _ Hc)). rewrite child_exn in F. destruct (column_errors c); [eauto|discriminate].
    - assert (I : In y (map index_child (dvals (t_indexes t)) +++ map constraint_child (dvals (t_constraints t)))) by (rewrite E2; apply in_app_iff; right; left; reflexivity).
      apply in_app_iff in I as [I|I]; apply in_map_iff in I as (z & <- & _); discriminate.
  Qed.
End Props.

(** ** Instances *)

Lemma ticked_ident n : negb (is_empty n) && sforall name_ok_char n && sforall no_dash n = true -> ident_ok (true, n).
Proof. intros H. split; [apply clean_nameb, H|discriminate]. Qed.
Definition two_texts : string := "Constraint fk_b FOREIGN KEY (`b_id`) REFERENCES `b` (`id`) ON DELETE CASCADE on delete set null ON UPDATE NO ACTION".
Definition unnamed_text : string := "foreign key (b_id) references b(id) ON UPDATE CASCADE".
Example ex_C112 : fk_acting (Some (false, "fk_b")) (true, "b_id") (true, "b") (true, "id") ["CASCADE"; "SET NULL"] ["NO ACTION"] two_texts
  /\ fk_acting None (false, "b_id") (false, "b") (false, "id") [] ["CASCADE"] unnamed_text
  /\ fk_read_as (Some (false, "fk_b")) (true, "b_id") (true, "b") (true, "id") ["CASCADE"; "SET NULL"] ["NO ACTION"]
     = mkConstraint "fk_b" "b_id" "b" "id" "CASCADE" "NO ACTION" ["Found contradictory rules in foreign constraint for ON DELETE"] []
  /\ fk_read_as None (false, "b_id") (false, "b") (false, "id") [] ["CASCADE"] = mkConstraint "b_id_b_fk" "b_id" "b" "id" "RESTRICT" "CASCADE" [] [].
Proof.
  split; [|split; [|split; reflexivity]].
  - apply (acting_as (Some (false, "fk_b")) (true, "b_id") (true, "b") (true, "id") ["CASCADE"; "SET NULL"] ["NO ACTION"] "Constraint" "FOREIGN KEY" "REFERENCES" true
      " ON DELETE CASCADE on delete set null" " ON UPDATE NO ACTION"); try reflexivity.
    + apply written_ident. reflexivity.
    + apply ticked_ident. reflexivity.
    + apply ticked_ident. reflexivity.
    + apply ticked_ident. reflexivity.
    + apply (actions_more "ON DELETE" "CASCADE" "ON DELETE CASCADE" ["SET NULL"] " on delete set null"); [reflexivity|].
      apply (actions_more "ON DELETE" "SET NULL" "on delete set null" [] ""); [reflexivity|constructor].
    + apply (actions_more "ON UPDATE" "NO ACTION" "ON UPDATE NO ACTION" [] ""); [reflexivity|constructor].
  - apply (acting_as None (false, "b_id") (false, "b") (false, "id") [] ["CASCADE"] "CONSTRAINT" "foreign key" "references" false "" " ON UPDATE CASCADE"); try reflexivity.
    + apply written_ident. reflexivity.
    + apply written_ident. reflexivity.
    + apply written_ident. reflexivity.
    + constructor.
    + apply (actions_more "ON UPDATE" "CASCADE" "ON UPDATE CASCADE" [] ""); [reflexivity|constructor].
Qed.
(** A statement with both meets the hypotheses. *)
Definition both_parts : list act_part :=
  [ActFk (Some (false, "fk_b")) (true, "b_id") (true, "b") (true, "id") ["CASCADE"; "SET NULL"] ["NO ACTION"]; ActFk None (false, "b_id") (false, "b") (false, "id") [] ["CASCADE"]].
Definition both_statement : string := "CREATE TABLE a" ++ " (" ++ "" ++ join ("," ++ " ") [two_texts; unnamed_text] ++ "" ++ ");".
Example ex_C112_statement : create_head "a" "CREATE TABLE a" /\ Forall2 act_written both_parts [two_texts; unnamed_text]
  /\ named_after "a" (Some (false, "fk_b")) (true, "b_id") (true, "b") <> named_after "a" None (false, "b_id") (false, "b")
  /\ exists tab, create_parse both_statement = Ok (Some tab, "") /\ dkeys (t_constraints tab) = ["fk_b"; "a_b_id_b_fk"] /\ dkeys (t_indexes tab) = ["b_id"].
Proof.
  split; [apply (head_as "a" "CREATE TABLE" "" false); [reflexivity|left; reflexivity|apply clean_nameb; reflexivity]|].
  destruct ex_C112 as (A & B & _). split; [constructor; [constructor; exact A|constructor; [constructor; exact B|constructor]]|]. split; [discriminate|].
  found_some (create_parse both_statement). split; [by_vm|split; reflexivity].
Qed.

(** The check command says so. *)
Definition acted_site (actions : string) : world :=
  noted_site ("CREATE TABLE `b` (`id` INT(10) NOT NULL, PRIMARY KEY (`id`)); CREATE TABLE `a` (`id` INT(10) NOT NULL, `b_id` INT(10), PRIMARY KEY (`id`), "
    ++ "KEY `b_idx` (`b_id`), CONSTRAINT `fk_b` FOREIGN KEY (`b_id`) REFERENCES `b` (`id`)" ++ actions ++ ");").
Definition contradictory : list string := printed_block "Errors found in *.sql files:" ["Found contradictory rules in foreign constraint for ON DELETE in table 'a'"].
Example ex_C112_check : run_out (run_check (acted_site " ON DELETE CASCADE ON DELETE SET NULL") "mygrate.conf") = contradictory
  /\ run_out (run_check (acted_site " ON DELETE CASCADE ON UPDATE CASCADE") "mygrate.conf") = ["No problems found"].
Proof. split; by_vm. Qed.

(** Two actions for one event in another order: nothing is said about them, the file is ignored. *)
Definition ignored_lines : list string :=
  ["Error in file /srv/app/sql/t.sql: Found an unknown column type, 'DELETE' that does not have a corresponding column class"; "No problems found"].
Theorem C112_refuted : forall FO : FloatOracle, exists w config, w = acted_site " ON DELETE SET NULL ON DELETE SET DEFAULT"
  /\ run_out (run_check w config) = ignored_lines /\ run_end (run_check w config) = Exited true.
Proof. intros FO. eexists. exists "mygrate.conf". split; [reflexivity|]. split; by_vm. Qed.
(** The action on updates before the one on deletions, as SQL allows: the same. *)
Theorem C112_refuted_order : forall FO : FloatOracle, exists w config, w = acted_site " ON UPDATE CASCADE ON DELETE SET NULL"
  /\ run_out (run_check w config) = ignored_lines /\ run_end (run_check w config) = Exited true.
Proof. intros FO. eexists. exists "mygrate.conf". split; [reflexivity|]. split; by_vm. Qed.
(** A column for dates hides the contradiction. *)
Theorem C112_refuted_date : forall FO : FloatOracle, exists w config,
  w = noted_site ("CREATE TABLE `b` (`id` INT(10) NOT NULL, PRIMARY KEY (`id`)); CREATE TABLE `a` (`id` INT(10) NOT NULL, `b_id` INT(10), `day` DATE, PRIMARY KEY (`id`), "
    ++ "KEY `b_idx` (`b_id`), CONSTRAINT `fk_b` FOREIGN KEY (`b_id`) REFERENCES `b` (`id`) ON DELETE CASCADE ON DELETE SET NULL);")
  /\ run_out (run_check w config) = ["No problems found"].
Proof. intros FO. eexists. exists "mygrate.conf". split; [reflexivity|]. by_vm. Qed.

Print Assumptions C112_read_exact.
Print Assumptions C112_statement_partial.
Print Assumptions C112_reported_partial.
Print Assumptions C112_refuted.
Print Assumptions C112_refuted_order.
Print Assumptions C112_refuted_date.
