(** Reading CREATE TABLE statements up to a definition that is not known. *)
From Verif Require Export SpecHalt OtherFacts PropsList.
From Verif Require Import RoundKeys Facts ReadFacts RoundTable RoundCreate RoundInline InlineFacts RoundCut RoundMany WriteCreate StoredFacts PropsRemark PropsTrail PropsDefs PropsCreate.
From Coq Require Import Lia.

Local Opaque max_turns max_statements.

(** ** The definition *)

Lemma word_lower c d : is_word c = true -> is_word d = false -> Ascii.eqb (to_lower c) (to_lower d) = false.
Proof.
  intros C D. apply Ascii.eqb_neq. intros E. assert (G : forall x, is_word (to_lower x) = is_word x) by (intros x; destruct x as [[|] [|] [|] [|] [|] [|] [|] [|]]; reflexivity).
  rewrite <- (G c), E, (G d), D in C. discriminate.
Qed.
Lemma lit_words b r : match b with String c _ => is_word c = true | EmptyString => False end -> forall w a g, sforall is_word a = true -> sforall is_word w = true ->
  match_lit (a ++ " " ++ b) (w ++ gap_text g ++ "(" ++ r) = None.
Proof.
  intros B. destruct b as [|e b]; [destruct B|]. induction w as [|c w IH]; intros [|x a] g A W; cbn [String.append sforall] in *.
  - destruct g; cbn [gap_text String.append match_lit]; [|reflexivity]. change (Ascii.eqb (to_lower " ") (to_lower " ")) with true. cbv iota.
    rewrite word_lower by (exact B || reflexivity). reflexivity.
  - apply andb_true_iff in A as [X _]. destruct g; cbn [gap_text String.append match_lit]; rewrite word_lower by (exact X || reflexivity); reflexivity.
  - apply andb_true_iff in W as [C _]. cbn [match_lit]. destruct (Ascii.eqb_spec (to_lower " ") (to_lower c)) as [E|]; [|reflexivity].
    pose proof (word_lower c " " C eq_refl) as N. rewrite E, Ascii.eqb_refl in N. discriminate.
  - apply andb_true_iff in W as [C W]. apply andb_true_iff in A as [X A]. cbn [match_lit]. destruct (Ascii.eqb (to_lower x) (to_lower c)); [|reflexivity]. apply IH; assumption.
Qed.
Lemma lit_prefix r g : forall k w, sforall is_word k = true -> sforall is_word w = true -> String.prefix (lower k) (lower w) = false -> match_lit k (w ++ gap_text g ++ "(" ++ r) = None.
Proof.
  induction k as [|x k IH]; intros w K W P; [destruct w; discriminate P|]. cbn [sforall] in K. apply andb_true_iff in K as [X K]. destruct w as [|c w].
  - destruct g; cbn [gap_text String.append match_lit]; rewrite word_lower by (exact X || reflexivity); reflexivity.
  - cbn [sforall] in W. apply andb_true_iff in W as [C W]. cbn [String.append match_lit]. destruct (Ascii.eqb_spec (to_lower x) (to_lower c)) as [E|]; [|reflexivity].
    apply IH; [exact K|exact W|]. unfold lower in P. cbn [smap String.prefix] in P. rewrite E in P. destruct (Ascii.ascii_dec (to_lower c) (to_lower c)); [exact P|contradiction].
Qed.

Lemma none_all l s : Forall (fun c : pclass def => exists x, c s = Ok (None, x)) l -> best_child l s None = Ok None.
Proof. induction 1 as [|c l [x Q] _ IH]; [reflexivity|]. cbn [best_child]. rewrite Q. cbn [bind]. exact IH. Qed.
Lemma list_none d : list_definition d -> trim d = true -> best_child definition_classes d None = Ok None.
Proof.
  intros (w & g & r & [[Wn W] U] & ->) T. set (d := w ++ gap_text g ++ "(" ++ r) in *.
  assert (Tr : trim ("(" ++ r) = true).
  { unfold trim in *. apply andb_true_iff in T as [T _]. unfold d in T. rewrite <- sapp_assoc in T. unfold neat in T. destruct (neat_rest _ _ _ T) as [x X]. cbn [String.append neat_from] in *.
    change (is_space "(") with false in *. cbv iota in *. unfold neat. cbn [neat_from]. change (is_space "(") with false. cbv iota. rewrite X. reflexivity. }
  assert (Sg : strip (gap_text g ++ "(" ++ r) = "(" ++ r) by (destruct g; [apply (strip_space ("(" ++ r)), Tr|apply trim_strip, Tr]).
  assert (Gs : starts (fun c => negb (name_char c)) (gap_text g ++ "(" ++ r) = true) by (destruct g; reflexivity).
  assert (Wc : sforall name_char w = true) by (apply (sforall_imp is_word); [|exact W]; intros c; destruct c as [[|] [|] [|] [|] [|] [|] [|] [|]]; vm_compute; congruence).
  assert (Col : forall rules (v : pvals leaf), run_rules (RRe "name" (plus name_char) false :: RRe "type" (plus is_word) false :: rules) d v = Ok (None, "(" ++ r)).
  { intros rules v. assert (R : @re_match leaf (plus name_char) d = Some (VText w, gap_text g ++ "(" ++ r)) by (apply plus_word; assumption).
    rewrite (step_re _ _ _ _ _ _ _ _ R) by (rewrite Sg; discriminate). rewrite Sg. apply fail_re. apply plus_none. reflexivity. }
  apply none_all. unfold definition_classes, primary_class, key_class, unique_class, foreign_class, bare_class, character_class, numeric_class, decimal_class,
    enum_class, plain_class, text_class, datetime_class.
  assert (Cases : (lower w = "key" \/ lower w = "index") \/ forall k, In k ["key"; "index"; "unique"; "constraint"] -> String.prefix k (lower w) = false) by tauto.
  clear U. rename Cases into U.
  assert (P : forall k, In k ["unique"; "constraint"] -> String.prefix k (lower w) = false).
  { intros k [<-|[<-|[]]]; (destruct U as [[->| ->]|U]; [reflexivity|reflexivity|apply U; cbn; tauto]). }
  repeat (apply Forall_cons || apply Forall_nil); rewrite child_trim by exact T.
  - eexists. unfold primary_rules, lit. rewrite fail_lit; [reflexivity|]. apply (lit_words "KEY" r eq_refl w "PRIMARY" g eq_refl W).
  - unfold key_rules. destruct U as [U|U]; eexists.
    + assert (R : exists v : pval leaf, re_match (ReAlt "KEY" "INDEX") d = Some (v, gap_text g ++ "(" ++ r)).
      { apply alt_key. destruct U as [U|U]; [left|right]; exact U. }
      destruct R as [v R]. rewrite (step_re _ _ _ _ _ _ _ _ R) by (rewrite Sg; discriminate). rewrite Sg. unfold rname. rewrite fail_re by (apply plus_none; reflexivity). reflexivity.
    + rewrite fail_re; [reflexivity|]. unfold re_match. unfold d. rewrite (lit_prefix r g "KEY" w eq_refl W) by (apply U; cbn; tauto).
      rewrite (lit_prefix r g "INDEX" w eq_refl W) by (apply U; cbn; tauto). reflexivity.
  - eexists. unfold unique_rules, lit. rewrite fail_lit; [reflexivity|]. apply lit_prefix; [reflexivity|exact W|apply P; cbn; tauto].
  - eexists. unfold foreign_rules, lit. cbn [List.app]. rewrite fail_lit; [reflexivity|]. apply lit_prefix; [reflexivity|exact W|apply P; cbn; tauto].
  - eexists. unfold bare_rules, lit. rewrite fail_lit; [reflexivity|]. apply (lit_words "KEY (" r eq_refl w "FOREIGN" g eq_refl W).
  - eexists. unfold character_rules, rname, rtype. rewrite Col. reflexivity.
  - eexists. unfold numeric_rules, rname, rtype. rewrite Col. reflexivity.
  - eexists. unfold decimal_rules, rname, rtype. rewrite Col. reflexivity.
  - eexists. unfold enum_rules, rname, rtype. rewrite Col. reflexivity.
  - eexists. unfold plain_rules, rname, rtype. rewrite Col. reflexivity.
  - eexists. unfold text_rules, rname, rtype. rewrite Col. reflexivity.
  - eexists. unfold datetime_rules, rname, rtype. rewrite Col. reflexivity.
Qed.

Lemma lit_rest l s t : match_lit l s = Some t -> exists a, s = a ++ t /\ lower a = lower l.
Proof.
  revert s. induction l as [|x l IH]; intros s E; [cbn [match_lit] in E; injection E as <-; exists ""; split; reflexivity|]. destruct s as [|c s]; [discriminate|]. cbn [match_lit] in E.
  destruct (Ascii.eqb_spec (to_lower x) (to_lower c)) as [X|]; [|discriminate]. destruct (IH s E) as (a & -> & L). exists (String c a). split; [reflexivity|]. unfold lower in *. cbn [smap]. rewrite X, L. reflexivity.
Qed.
Lemma ticked_none d : ticked_constraint d -> trim d = true -> best_child definition_classes d None = Ok None.
Proof.
  intros (k & n & r & S & Nn & Wn & E & F) T.
  assert (M : forall K, diverge K "CONSTRAINT" = true -> match_lit K d = None) by (intros K D; rewrite E; apply (spelled_none K "CONSTRAINT"); assumption).
  assert (Kw : sforall is_word k = true) by (rewrite (caseless is_word k "CONSTRAINT"); [reflexivity|letters|exact S]).
  assert (Kn : k <> "") by (intros ->; discriminate S).
  assert (Wc : forall w, sforall is_word w = true -> sforall name_char w = true) by (intros w; apply sforall_imp; intros c; destruct c as [[|] [|] [|] [|] [|] [|] [|] [|]]; vm_compute; congruence).
  set (q := String bquote (n ++ "` " ++ r)) in *. assert (Ed : d = k ++ String " " q) by exact E.
  assert (Nr : neat_from false (n ++ "` " ++ r) = true /\ neat_from true r = true).
  { unfold trim in T. apply andb_true_iff in T as [T _]. unfold neat in T. rewrite Ed in T.
    assert (T1 : neat_from false (n ++ "` " ++ r) = true).
    { destruct (neat_rest _ _ _ T) as [y Y]. cbn [neat_from] in Y. change (is_space " ") with true in Y. cbv iota in Y. unfold q in Y. destruct y; [discriminate|]. cbn [negb andb] in Y. cbn [neat_from] in Y.
      change (is_space bquote) with false in Y. cbv iota in Y. exact Y. }
    split; [exact T1|]. destruct (neat_rest _ _ _ T1) as [y Y]. cbn [String.append neat_from] in Y. change (is_space "`") with false in Y. change (is_space " ") with true in Y. cbn [negb andb] in Y. exact Y. }
  destruct Nr as [Nq Nr].
  assert (Tq : trim q = true) by (unfold trim, neat, q; cbn [neat_from starts]; change (is_space bquote) with false; cbv iota; rewrite Nq; reflexivity).
  assert (Sr : strip (String " " r) = r /\ r <> "").
  { assert (Nz : r <> "") by (intros ->; discriminate Nr). split; [|exact Nz]. apply strip_space. unfold trim, neat. destruct r as [|c r]; [contradiction|]. cbn [neat_from starts] in *. unfold not_space. destruct (is_space c); [discriminate|].
    rewrite Nr. reflexivity. }
  destruct Sr as [Sr Rn].
  assert (Sq : strip (String " " q) = q) by (apply (strip_space q), Tq).
  assert (Col : forall rules (v : pvals leaf), run_rules (RRe "name" (plus name_char) false :: RRe "type" (plus is_word) false :: rules) d v = Ok (None, q)).
  { intros rules v. assert (R : @re_match leaf (plus name_char) d = Some (VText k, String " " q)) by (rewrite Ed; apply plus_word; [apply Wc, Kw|exact Kn|reflexivity]).
    rewrite (step_re _ _ _ _ _ _ _ _ R) by (rewrite Sq; discriminate). rewrite Sq. apply fail_re. apply plus_none. reflexivity. }
  apply none_all. unfold definition_classes, primary_class, key_class, unique_class, foreign_class, bare_class, character_class, numeric_class, decimal_class,
    enum_class, plain_class, text_class, datetime_class.
  repeat (apply Forall_cons || apply Forall_nil); rewrite child_trim by exact T.
  - eexists. unfold primary_rules, lit. rewrite fail_lit; [reflexivity|]. apply M; reflexivity.
  - eexists. unfold key_rules. rewrite fail_re; [reflexivity|]. unfold re_match. rewrite !M by reflexivity. reflexivity.
  - eexists. unfold unique_rules, lit. rewrite fail_lit; [reflexivity|]. apply M; reflexivity.
  - eexists. unfold foreign_rules, lit. cbn [List.app]. assert (L : match_lit "CONSTRAINT" d = Some (String " " q)) by (rewrite Ed; apply match_lit_app; symmetry; exact S).
    rewrite (step_lit _ _ _ _ _ _ _ L) by (rewrite Sq; discriminate). rewrite Sq.
    assert (R : @re_match leaf (plus name_char) q = Some (VText (String bquote (n ++ "`")), String " " r)).
    { replace q with (String bquote (n ++ "`") ++ String " " r) by (unfold q; repeat (cbn [String.append]; rewrite ?sapp_assoc); reflexivity).
      apply plus_word; [cbn [sforall]; rewrite sforall_app, (Wc n Wn); reflexivity|discriminate|reflexivity]. }
    unfold rname. rewrite (step_re _ _ _ _ _ _ _ _ R) by (rewrite Sr; exact Rn). rewrite Sr. rewrite fail_lit; [reflexivity|].
    destruct (match_lit "FOREIGN KEY (" r) as [t|] eqn:Q; [|reflexivity]. exfalso. destruct (lit_rest _ _ _ Q) as (a & Ea & La). exact (F a t Ea La).
  - eexists. unfold bare_rules, lit. rewrite fail_lit; [reflexivity|]. apply M; reflexivity.
  - eexists. unfold character_rules, rname, rtype. rewrite Col. reflexivity.
  - eexists. unfold numeric_rules, rname, rtype. rewrite Col. reflexivity.
  - eexists. unfold decimal_rules, rname, rtype. rewrite Col. reflexivity.
  - eexists. unfold enum_rules, rname, rtype. rewrite Col. reflexivity.
  - eexists. unfold plain_rules, rname, rtype. rewrite Col. reflexivity.
  - eexists. unfold text_rules, rname, rtype. rewrite Col. reflexivity.
  - eexists. unfold datetime_rules, rname, rtype. rewrite Col. reflexivity.
Qed.
Lemma unknown_none d : unknown_definition d -> trim d = true -> best_child definition_classes d None = Ok None.
Proof. intros [H|H]; [apply list_none, H|apply ticked_none, H]. Qed.
Lemma unknown_word d : unknown_definition d -> exists c r, d = String c r /\ is_word c = true.
Proof.
  intros [(w & g & r & [[Wn W] _] & ->)|(k & n & r & S & _ & _ & -> & _)].
  - destruct w as [|c w]; [contradiction|]. cbn [sforall] in W. apply andb_true_iff in W as [W _]. exists c. eexists. split; [reflexivity|exact W].
  - assert (Kw : sforall is_word k = true) by (rewrite (caseless is_word k "CONSTRAINT"); [reflexivity|letters|exact S]).
    destruct k as [|c k]; [discriminate S|]. cbn [sforall] in Kw. apply andb_true_iff in Kw as [W _]. exists c. eexists. split; [reflexivity|exact W].
Qed.

(** ** The statement *)

Lemma join_leading ds d : join ", " (map rdef_text ds +++ [d]) = leading ds d.
Proof.
  induction ds as [|x ds IH]; [reflexivity|]. cbn [map List.app leading]. rewrite join_cons by (destruct ds; discriminate). rewrite IH. reflexivity.
Qed.
Lemma tail_trim s : SpecCut.tail s -> trim s = true.
Proof. intros [_ N _ _]. rewrite <- N. apply normal_trim. Qed.

Section Stop.
  Variables (n : string) (before : list part) (d s : string).
  Hypothesis Hd : unknown_definition d.
  Hypothesis Hs : stopped n before d s.
  Hypothesis Ht : SpecCut.tail s.
  Hypothesis Lb : (N.of_nat (List.length before) < 1000)%N.

  Lemma stop_trim : trim d = true /\ d <> "".
  Proof.
    pose proof (tail_trim s Ht) as T. destruct (unknown_word d Hd) as (c & w & E & C). assert (Nd : d <> "") by (rewrite E; discriminate). split; [|exact Nd].
    destruct Hs as [h g0 ss Hh F]. unfold trim in T. apply andb_true_iff in T as [T _].
    assert (J : exists a, h ++ " (" ++ gap_text g0 ++ join ", " (ss +++ [d]) = a ++ d).
    { destruct (defs_of_ok before ss F) as (Q & _). rewrite <- Q, join_leading. generalize (InlineFacts.defs_of before ss). intros ds. exists (h ++ " (" ++ gap_text g0 ++ leading ds "").
      rewrite !sapp_assoc. do 3 f_equal. clear. induction ds as [|x ds IH]; [reflexivity|]. cbn [leading]. rewrite IH, !sapp_assoc. reflexivity. }
    destruct J as [a J]. rewrite J in T. unfold neat in T. destruct (neat_rest _ _ _ T) as [x X]. unfold trim, neat. clear - X C E.
    rewrite E in *. cbn [neat_from starts] in *.
    assert (Sp : is_space c = false) by (revert C; clear; destruct c as [[|] [|] [|] [|] [|] [|] [|] [|]]; vm_compute; congruence).
    unfold not_space. rewrite Sp in *. rewrite X. reflexivity.
  Qed.
  Lemma stop_parse : create_parse s = Ok (None, d).
  Proof.
    destruct stop_trim as [Td Nd]. pose proof Ht as [_ N C L]. unfold create_parse, drop_lengths. rewrite no_dd_drop by apply no_comment, C. rewrite (no_length_drop s L : drop_lengths_from 0 s = s).
    unfold parse_with. rewrite N. destruct Hs as [h g ss Hh F]. destruct (defs_of_ok before ss F) as (Q & R & Ln & _). rewrite <- Q, join_leading. set (ds := InlineFacts.defs_of before ss) in *.
    destruct (leading_trim ds d (rdef_shapes _ R) Td Nd) as [B1 B2]. set (bd := leading ds d) in *.
    assert (G1 : neat (gap_text g ++ bd) = true) by (destruct g; [apply (neat_space bd); assumption|apply trim_neat, B1]).
    assert (G2 : strip (gap_text g ++ bd) = bd) by (destruct g; [apply (strip_space bd), B1|apply trim_strip, B1]).
    assert (S1 : trim ("(" ++ gap_text g ++ bd) = true) by (apply trim_app; [reflexivity|discriminate|exact G1]).
    unfold create_rules.
    match goal with |- context [run_rules (lit "CREATE TABLE" :: RLit "if_not_exists" "IF NOT EXISTS" true :: RRe "name" (plus not_space) false :: ?rs)] => destruct (head_run n h rs _ Hh S1) as (ine & tick & ->) end.
    unfold lit. rewrite (step_lit "(" "(" false _ _ (gap_text g ++ bd)); [|reflexivity|rewrite G2; exact B2]. rewrite G2.
    destruct (kids_before ds d R Td Nd (S (max_turns - S (List.length ds))) []) as (ps & K & Ps).
    pose proof (turns_enough (List.length ds)) as Tu. rewrite Ln in Tu at 1. specialize (Tu Lb). replace (List.length ds + S (max_turns - S (List.length ds))) with max_turns in K by lia.
    assert (K' : kids max_turns definition_classes bd [] = Ok (match ps with [] => None | _ => Some (ps, d) end)).
    { unfold bd. rewrite K. cbn [kids List.app]. destruct d as [|c d0] eqn:Ed; [contradiction|]. cbn [is_empty]. rewrite <- Ed in *. rewrite (unknown_none d Hd Td). reflexivity. }
    assert (M : match_lit ")" d = None).
    { destruct (unknown_word d Hd) as (c & w & E & W). rewrite E. cbn [match_lit].
      destruct (Ascii.eqb_spec (to_lower ")") (to_lower c)) as [X|]; [|reflexivity]. pose proof (word_lower c ")" W eq_refl) as Z. rewrite X, Ascii.eqb_refl in Z. discriminate. }
    destruct ps as [|p ps].
    - assert (E0 : bd = d) by (inversion Ps as [H|]; unfold bd; rewrite <- H; reflexivity). cbn [run_rules run_rule]. rewrite K'. cbn [bind rule_opt]. rewrite E0. reflexivity.
    - rewrite (step_kids _ _ _ _ _ _ _ _ K') by exact Nd. rewrite fail_lit by exact M. reflexivity.
  Qed.
End Stop.
Lemma stopped_begins n before d s : stopped n before d s -> begins s.
Proof.
  intros [h g ss [k0 j tick K _ _] F]. unfold begins. intros N. apply (match_none_app "create" " table") in N. rewrite !sapp_assoc in N.
  rewrite match_lit_app in N by (unfold spelled in K; rewrite K; reflexivity). discriminate N.
Qed.
(** No table is read, and the text from the definition on is reported together with the name of the file. *)
Lemma stop_read n before d s' file : stopped_source n before d s' -> unknown_definition d -> other_statement d -> (N.of_nat (List.length before) < 1000)%N ->
  read_sql file s' = (mkReader [("", no_table)] [] [complaint file d] false, Ok d).
Proof.
  intros (s & St & Tl & R) Hd O Lb. pose proof (stop_parse n before d s Hd St Tl Lb) as P. destruct (stop_trim n before d s Hd St Tl) as [Td _].
  assert (P' : create_parse s' = Ok (None, d)) by (rewrite <- P; apply relaid_parse; [apply no_comment, Tl|apply no_length_drop, Tl|exact R]).
  pose proof (stopped_begins _ _ _ _ St) as B. pose proof (tail_trim s Tl) as T.
  assert (Es : exists y c, s = y ++ String c "" /\ is_space c = false) by (apply (ends_solid s) with (w := false); [apply Tl|unfold trim in T; apply andb_true_iff in T; apply T]).
  destruct Es as (y & c & Es & C).
  apply (relaid_literal "create" eq_refl _ _ R) in B. rewrite Es in R. destruct (relaid_last y c s' C R) as [y' E]. destruct (begins_create s' B) as (d0 & q & Eq & Sd & Sc).
  assert (S0 : strip s' = s').
  { destruct y' as [|e y']; cbn [String.append] in E; [rewrite E; unfold strip, strip_by; cbn; rewrite C; cbn; rewrite C; reflexivity|].
    rewrite E in *. injection Eq as -> _. apply strip_ends; assumption. }
  unfold read_sql. pose proof statements_enough as Ls. destruct max_statements as [|[|k]]; [lia|lia|]. clear Ls.
  cbn [read_loop]. rewrite S0. assert (Z : is_empty s' = false) by (rewrite Eq; reflexivity). rewrite Z, Sc, P'. cbn [read_loop].
  rewrite (trim_strip d Td), (other_none d O). destruct O as [N _ _ _ _ _]. destruct d as [|x d]; [contradiction|]. cbn [is_empty]. rewrite notice_eq. reflexivity.
Qed.
