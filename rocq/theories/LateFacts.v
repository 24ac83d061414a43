(** Reading CREATE TABLE statements with definitions of which the first two words are read as a column. *)
From Verif Require Export SpecLate HaltFacts.
From Verif Require Import RoundKeys Facts ReadFacts RoundTable RoundCreate RoundInline InlineFacts RoundCut RoundMany WriteCreate StoredFacts RoundTrail NamedFacts PropsRemark PropsTrail PropsDefs PropsCreate.
From Coq Require Import Lia.

Local Opaque max_turns max_statements.

Lemma keyword_list g r k : sforall is_upper k = true -> forall n, prefix k (upper n) = false -> match_lit k (n ++ gap_text g ++ "(" ++ r) = None.
Proof.
  induction k as [|a k IH]; intros U n P; [destruct n; discriminate|]. cbn [sforall] in U. apply andb_true_iff in U as [A U].
  destruct n as [|c n].
  - destruct g; cbn [gap_text String.append match_lit];
      [replace (Ascii.eqb (to_lower a) (to_lower " ")) with false; [reflexivity|]|replace (Ascii.eqb (to_lower a) (to_lower "(")) with false; [reflexivity|]];
      clear - A; destruct a as [[|] [|] [|] [|] [|] [|] [|] [|]]; vm_compute in A |- *; congruence.
  - cbn [String.append match_lit]. destruct (Ascii.eqb (to_lower a) (to_lower c)) eqn:E; [|reflexivity]. apply (IH U). cbn [upper smap prefix] in P.
    destruct (ascii_dec a (to_upper c)) as [_|N]; [exact P|]. exfalso. apply N. apply Ascii.eqb_eq in E. clear - A E.
    assert (G : a = to_upper (to_lower a)) by (destruct a as [[|] [|] [|] [|] [|] [|] [|] [|]]; vm_compute in A |- *; congruence).
    assert (H : to_upper (to_lower c) = to_upper c) by (destruct c as [[|] [|] [|] [|] [|] [|] [|] [|]]; reflexivity).
    rewrite G, E. exact H.
Qed.
Lemma ticked_list_none n g r : n <> "" -> sforall is_word n = true -> trim (String bquote (n ++ "`" ++ gap_text g ++ "(" ++ r)) = true ->
  best_child definition_classes (String bquote (n ++ "`" ++ gap_text g ++ "(" ++ r)) None = Ok None.
Proof.
  intros Nn W T. set (d := String bquote (n ++ "`" ++ gap_text g ++ "(" ++ r)) in *.
  assert (Ed : d = String bquote (n ++ "`") ++ gap_text g ++ "(" ++ r) by (unfold d; repeat (cbn [String.append]; rewrite ?sapp_assoc); reflexivity).
  assert (Tr : trim ("(" ++ r) = true).
  { unfold trim in *. apply andb_true_iff in T as [T _]. rewrite Ed, <- sapp_assoc in T. unfold neat in T. destruct (neat_rest _ _ _ T) as [x X]. cbn [String.append neat_from] in *.
    change (is_space "(") with false in *. cbv iota in *. unfold neat. cbn [neat_from]. change (is_space "(") with false. cbv iota. rewrite X. reflexivity. }
  assert (Sg : strip (gap_text g ++ "(" ++ r) = "(" ++ r) by (destruct g; [apply (strip_space ("(" ++ r)), Tr|apply trim_strip, Tr]).
  assert (Wc : sforall name_char (String bquote (n ++ "`")) = true).
  { cbn [sforall]. rewrite sforall_app, (sforall_imp is_word name_char n); [reflexivity|implied|exact W]. }
  assert (Col : forall rules (v : pvals leaf), run_rules (RRe "name" (plus name_char) false :: RRe "type" (plus is_word) false :: rules) d v = Ok (None, "(" ++ r)).
  { intros rules v. assert (R : @re_match leaf (plus name_char) d = Some (VText (String bquote (n ++ "`")), gap_text g ++ "(" ++ r)) by (rewrite Ed; apply plus_word; [exact Wc|discriminate|destruct g; reflexivity]).
    rewrite (step_re _ _ _ _ _ _ _ _ R) by (rewrite Sg; discriminate). rewrite Sg. apply fail_re. apply plus_none. reflexivity. }
  apply none_all. unfold definition_classes, primary_class, key_class, unique_class, foreign_class, bare_class, character_class, numeric_class, decimal_class,
    enum_class, plain_class, text_class, datetime_class.
  repeat (apply Forall_cons || apply Forall_nil); rewrite child_trim by exact T.
  - eexists. unfold primary_rules, lit. rewrite fail_lit; reflexivity.
  - eexists. unfold key_rules. rewrite fail_re; reflexivity.
  - eexists. unfold unique_rules, lit. rewrite fail_lit; reflexivity.
  - eexists. unfold foreign_rules, lit. cbn [List.app]. rewrite fail_lit; reflexivity.
  - eexists. unfold bare_rules, lit. rewrite fail_lit; reflexivity.
  - eexists. unfold character_rules, rname, rtype. rewrite Col. reflexivity.
  - eexists. unfold numeric_rules, rname, rtype. rewrite Col. reflexivity.
  - eexists. unfold decimal_rules, rname, rtype. rewrite Col. reflexivity.
  - eexists. unfold enum_rules, rname, rtype. rewrite Col. reflexivity.
  - eexists. unfold plain_rules, rname, rtype. rewrite Col. reflexivity.
  - eexists. unfold text_rules, rname, rtype. rewrite Col. reflexivity.
  - eexists. unfold datetime_rules, rname, rtype. rewrite Col. reflexivity.
Qed.
Lemma named_none d : named_list d -> trim d = true -> best_child definition_classes d None = Ok None.
Proof.
  intros [w g r L _|n g r N W] T; [|apply ticked_list_none; assumption]. apply list_none; [|exact T]. exists w, g, r. auto.
Qed.
Lemma named_ending d : named_list d -> trim d = true -> exists x z, d = String x z /\ ending_ok (EWords x z) /\ match_lit "FOREIGN KEY (" (String x z) = None /\ match_lit ")" (String x z) = None.
Proof.
  intros [w g r L A|n g r N W] T.
  - assert (Lw : w <> "" /\ sforall is_word w = true) by apply L. destruct Lw as [Wn W].
    assert (M : forall K, In K ("PRIMARY" :: attribute_words) -> match_lit K (w ++ gap_text g ++ "(" ++ r) = None).
    { intros K HK. apply keyword_list; [|apply A, HK]. clear -HK. cbn in HK. repeat (destruct HK as [<-|HK]; [reflexivity|]). contradiction. }
    assert (F : match_lit "FOREIGN KEY (" (w ++ gap_text g ++ "(" ++ r) = None) by (apply (lit_words "KEY (" r eq_refl w "FOREIGN" g eq_refl W)).
    assert (P : forall K, K = "," \/ K = "(" \/ K = ")" -> match_lit K (w ++ gap_text g ++ "(" ++ r) = None).
    { intros K HK. destruct w as [|c w]; [contradiction|]. cbn [sforall] in W. apply andb_true_iff in W as [W _]. cbn [String.append].
      clear -W HK. destruct HK as [->|[->| ->]]; cbn [match_lit]; destruct c as [[|] [|] [|] [|] [|] [|] [|] [|]]; try reflexivity; vm_compute in W; discriminate. }
    assert (Z : w ++ gap_text g ++ "(" ++ r <> "") by (destruct w; [contradiction|discriminate]).
    destruct (w ++ gap_text g ++ "(" ++ r) as [|x z]; [contradiction|]. exists x, z. split; [reflexivity|]. split; [|split; [exact F|apply P; auto]].
    split; [exact T|]. intros K I. cbn in I. destruct I as [<-|[<-|[<-|[<-|[<-|[<-|[<-|[<-|[<-|[<-|[]]]]]]]]]]].
    + apply M; cbn; tauto.
    + apply M; cbn; tauto.
    + apply (match_none_app "NOT" " NULL"), M; cbn; tauto.
    + apply (match_none_app "PRIMARY" " KEY"), M; cbn; tauto.
    + apply (match_none_app "DEFAULT" " "), M; cbn; tauto.
    + apply (match_none_app "AUTO" "_INCREMENT"), M; cbn; tauto.
    + apply (match_none_app "CHARACTER" " SET "), M; cbn; tauto.
    + apply (match_none_app "COLLATE" " "), M; cbn; tauto.
    + apply P; auto.
    + apply P; auto.
  - exists bquote. eexists. split; [reflexivity|]. split; [|split; reflexivity]. split; [exact T|]. intros K I. cbn in I. repeat (destruct I as [<-|I]; [reflexivity|]). contradiction.
Qed.

(** The two words are read as a column. *)
Lemma two_read l d : two_words l -> named_list d -> trim d = true -> exists p, best_child definition_classes (l ++ " " ++ d) None = Ok (Some (DefCol p, d)).
Proof.
  intros H N T. destruct (named_ending d N T) as (x & z & -> & E & F & _). destruct H as [k u S Un Uw|a b Aw An Ac Bn Bw Bu].
  - destruct (named_bare k u x z S (conj Un Uw) E F) as (p & B & _). exists p. rewrite !sapp_assoc. exact B.
  - destruct (stray_bare a b [] (EWords x z) true An Ac (conj Bn Bw) Bu) as (p & B & _); [constructor|exact E|]. exists p. rewrite !sapp_assoc. exact B.
Qed.
Lemma two_first l : two_words l -> exists c r, l = String c r /\ is_word c = true.
Proof.
  assert (G : forall a r, a <> "" -> sforall is_word a = true -> exists c r', a ++ r = String c r' /\ is_word c = true).
  { intros [|c a] r N W; [contradiction|]. cbn [sforall] in W. apply andb_true_iff in W as [W _]. exists c. eexists. split; [reflexivity|exact W]. }
  intros [k u S _ _|a b Aw An _ _ _ _]; apply G; [apply (named_some k S)|apply (named_word k S)|apply An|exact Aw].
Qed.

Section Late.
  Variables (n : string) (before : list part) (l d s : string).
  Hypothesis Hl : two_words l.
  Hypothesis Hd : named_list d.
  Hypothesis Hs : stopped n before (l ++ " " ++ d) s.
  Hypothesis Ht : SpecCut.tail s.
  Hypothesis Lb : (N.of_nat (List.length before) < 999)%N.

  Lemma late_trim : trim (l ++ " " ++ d) = true /\ trim d = true /\ d <> "".
  Proof.
    pose proof (HaltFacts.tail_trim s Ht) as T. destruct (two_first l Hl) as (c & w & E & C).
    assert (J : exists a, s = a ++ l ++ " " ++ d).
    { destruct Hs as [h g0 ss Hh F]. destruct (defs_of_ok before ss F) as (Q & _). rewrite <- Q, join_leading. generalize (InlineFacts.defs_of before ss). intros ds. exists (h ++ " (" ++ gap_text g0 ++ leading ds "").
      rewrite !sapp_assoc. do 3 f_equal. clear. induction ds as [|x ds IH]; [reflexivity|]. cbn [leading]. rewrite IH, !sapp_assoc. reflexivity. }
    destruct J as [a J]. unfold trim in T. apply andb_true_iff in T as [T _]. rewrite J in T. unfold neat in T. destruct (neat_rest _ _ _ T) as [x X].
    assert (Sp : is_space c = false) by (revert C; clear; destruct c as [[|] [|] [|] [|] [|] [|] [|] [|]]; vm_compute; congruence).
    assert (T1 : trim (l ++ " " ++ d) = true) by (unfold trim, neat; rewrite E in *; cbn [String.append neat_from starts] in *; unfold not_space; rewrite Sp in *; rewrite X; reflexivity).
    split; [exact T1|]. assert (Y : exists y, neat_from y d = true).
    { destruct (neat_rest _ _ _ X) as [y Y]. cbn [String.append neat_from] in Y. change (is_space " ") with true in Y. cbv iota in Y. apply andb_true_iff in Y as [_ Y]. eauto. }
    destruct Y as [y Y].
    assert (F : exists c' w', d = String c' w' /\ is_space c' = false).
    { destruct Hd as [v g r L _|v g r _ _]; [|exists bquote; eexists; split; reflexivity]. assert (Lw : v <> "" /\ sforall is_word v = true) by apply L. destruct Lw as [Vn V]. destruct v as [|c' v]; [contradiction|].
      cbn [sforall] in V. apply andb_true_iff in V as [V _]. exists c'. eexists. split; [reflexivity|]. revert V. clear. destruct c' as [[|] [|] [|] [|] [|] [|] [|] [|]]; vm_compute; congruence. }
    destruct F as (c' & w' & -> & S'). split; [|discriminate]. unfold trim, neat. cbn [neat_from starts] in *. unfold not_space. rewrite S' in *. rewrite Y. reflexivity.
  Qed.
  Lemma late_parse : create_parse s = Ok (None, d).
  Proof.
    destruct late_trim as (Tl & Td & Nd). pose proof Ht as [_ N C L]. unfold create_parse, drop_lengths. rewrite no_dd_drop by apply no_comment, C. rewrite (no_length_drop s L : drop_lengths_from 0 s = s).
    unfold parse_with. rewrite N. destruct (two_read l d Hl Hd Td) as [p B]. destruct (two_first l Hl) as (fc & fw & Fl & _). set (d0 := l ++ " " ++ d) in *.
    assert (Nl : d0 <> "") by (unfold d0; rewrite Fl; discriminate).
    destruct Hs as [h g ss Hh F]. destruct (defs_of_ok before ss F) as (Q & R & Ln & _). rewrite <- Q, join_leading. set (ds := InlineFacts.defs_of before ss) in *.
    destruct (leading_trim ds d0 (rdef_shapes _ R) Tl Nl) as [B1 B2]. set (bd := leading ds d0) in *.
    assert (G1 : neat (gap_text g ++ bd) = true) by (destruct g; [apply (neat_space bd); assumption|apply trim_neat, B1]).
    assert (G2 : strip (gap_text g ++ bd) = bd) by (destruct g; [apply (strip_space bd), B1|apply trim_strip, B1]).
    assert (S1 : trim ("(" ++ gap_text g ++ bd) = true) by (apply trim_app; [reflexivity|discriminate|exact G1]).
    unfold create_rules.
    match goal with |- context [run_rules (lit "CREATE TABLE" :: RLit "if_not_exists" "IF NOT EXISTS" true :: RRe "name" (plus not_space) false :: ?rs)] => destruct (head_run n h rs _ Hh S1) as (ine & tick & ->) end.
    unfold lit. rewrite (step_lit "(" "(" false _ _ (gap_text g ++ bd)); [|reflexivity|rewrite G2; exact B2]. rewrite G2.
    assert (Tu : List.length ds + 1 < max_turns).
    { replace (List.length ds + 1) with (S (List.length ds)) by lia. rewrite Ln. apply turns_enough. lia. }
    destruct (kids_before ds d0 R Tl Nl (S (S (max_turns - S (S (List.length ds))))) []) as (ps & K & Ps).
    replace (List.length ds + S (S (max_turns - S (S (List.length ds))))) with max_turns in K by lia.
    assert (K' : kids max_turns definition_classes bd [] = Ok (Some (ps +++ [DefCol p], d))).
    { unfold bd. rewrite K. cbn [kids List.app]. destruct d0 as [|c e0] eqn:Ed; [contradiction|]. cbn [is_empty]. rewrite <- Ed in *. rewrite B. cbn [bind].
      destruct d as [|c1 e1] eqn:Ed1; [contradiction|]. cbn [is_empty]. rewrite <- Ed1 in *. rewrite (named_none d Hd Td). cbn [bind]. destruct ps; reflexivity. }
    rewrite (step_kids _ _ _ _ _ _ _ _ K') by exact Nd. rewrite fail_lit; [reflexivity|]. destruct (named_ending d Hd Td) as (x & z & -> & _ & _ & M). exact M.
  Qed.
End Late.

(** No table is read, and the text from the third word on is reported together with the name of the file. *)
Lemma late_read n before l d s' file : stopped_source n before (l ++ " " ++ d) s' -> two_words l -> named_list d -> other_statement d -> (N.of_nat (List.length before) < 999)%N ->
  read_sql file s' = (mkReader [("", no_table)] [] [complaint file d] false, Ok d).
Proof.
  intros (s & St & Tl & R) Hl Hd O Lb. pose proof (late_parse n before l d s Hl Hd St Tl Lb) as P. destruct (late_trim n before l d s Hl Hd St Tl) as (_ & Td & _).
  assert (P' : create_parse s' = Ok (None, d)) by (rewrite <- P; apply relaid_parse; [apply no_comment, Tl|apply no_length_drop, Tl|exact R]).
  pose proof (stopped_begins _ _ _ _ St) as B. pose proof (HaltFacts.tail_trim s Tl) as T.
  assert (Es : exists y c, s = y ++ String c "" /\ is_space c = false) by (apply (ends_solid s) with (w := false); [apply Tl|unfold trim in T; apply andb_true_iff in T; apply T]).
  destruct Es as (y & c & Es & C).
  apply (relaid_literal "create" eq_refl _ _ R) in B. rewrite Es in R. destruct (relaid_last y c s' C R) as [y' E]. destruct (begins_create s' B) as (d0 & q & Eq & Sd & Sc).
  assert (S0 : strip s' = s').
  { destruct y' as [|e y']; cbn [String.append] in E; [rewrite E; unfold strip, strip_by; cbn; rewrite C; cbn; rewrite C; reflexivity|].
    rewrite E in *. injection Eq as -> _. apply strip_ends; assumption. }
  unfold read_sql. pose proof statements_enough as Ls. destruct max_statements as [|[|k]]; [lia|lia|]. clear Ls.
  cbn [read_loop]. rewrite S0. assert (Z : is_empty s' = false) by (rewrite Eq; reflexivity). rewrite Z, Sc, P'. cbn [read_loop].
  rewrite (trim_strip d Td), (other_none d O). destruct O as [N _ _ _ _ _]. destruct d as [|x d]; [contradiction|]. cbn [is_empty]. rewrite notice_eq. reflexivity.
Qed.
