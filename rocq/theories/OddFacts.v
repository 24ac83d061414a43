(** Reading CREATE TABLE statements up to a word that is not known. *)
From Verif Require Export SpecOdd HaltFacts.
From Verif Require Import RoundKeys Facts ReadFacts RoundTable RoundCreate RoundInline InlineFacts RoundCut RoundMany WriteCreate StoredFacts RoundTrail NamedFacts PropsRemark PropsTrail PropsDefs PropsCreate.
From Coq Require Import Lia.

Local Opaque max_turns max_statements.

Lemma keyword_odd (g : bool) c r : is_word c = false -> forall k, sforall is_upper k = true -> forall n, prefix k (upper n) = false -> match_lit k (n ++ gap_text g ++ String c r) = None.
Proof.
  intros Hc. induction k as [|a k IH]; intros U n P; [destruct n; discriminate|]. cbn [sforall] in U. apply andb_true_iff in U as [A U].
  assert (Aw : is_word a = true) by (revert A; clear; destruct a as [[|] [|] [|] [|] [|] [|] [|] [|]]; vm_compute; congruence).
  destruct n as [|e n].
  - destruct g; cbn [gap_text String.append match_lit]; rewrite word_lower by (exact Aw || exact Hc || reflexivity); reflexivity.
  - cbn [String.append match_lit]. destruct (Ascii.eqb (to_lower a) (to_lower e)) eqn:E; [|reflexivity]. apply (IH U). cbn [upper smap prefix] in P.
    destruct (ascii_dec a (to_upper e)) as [_|N]; [exact P|]. exfalso. apply N. apply Ascii.eqb_eq in E. clear - A E.
    assert (G : a = to_upper (to_lower a)) by (destruct a as [[|] [|] [|] [|] [|] [|] [|] [|]]; vm_compute in A |- *; congruence).
    assert (H : to_upper (to_lower e) = to_upper e) by (destruct e as [[|] [|] [|] [|] [|] [|] [|] [|]]; reflexivity).
    rewrite G, E. exact H.
Qed.

(** No class reads it, and no definition before it goes on with it. *)
Lemma odd_none_from w (g : bool) c r : w <> "" -> sforall is_word w = true -> is_word c = false -> is_space c = false -> g = true \/ c = "("%char \/ c = ")"%char ->
  (forall K, In K ["KEY"; "INDEX"; "CONSTRAINT"; "PRIMARY"; "FOREIGN"] -> match_lit K (w ++ gap_text g ++ String c r) = None) ->
  (exists x, run_rules unique_rules (w ++ gap_text g ++ String c r) ([] : pvals leaf) = Ok (None, x)) ->
  trim (w ++ gap_text g ++ String c r) = true -> best_child definition_classes (w ++ gap_text g ++ String c r) None = Ok None.
Proof.
  intros Wn W Cw Cs G M (xu & Un) T. set (d := w ++ gap_text g ++ String c r) in *.
  assert (Tr : trim (String c r) = true).
  { unfold trim in *. apply andb_true_iff in T as [T _]. unfold d in T. rewrite <- sapp_assoc in T. unfold neat in T. destruct (neat_rest _ _ _ T) as [x X]. cbn [neat_from starts] in *.
    unfold neat, not_space. cbn [neat_from]. rewrite Cs in *. rewrite X. reflexivity. }
  assert (Sg : strip (gap_text g ++ String c r) = String c r) by (destruct g; [apply (strip_space (String c r)), Tr|apply trim_strip, Tr]).
  assert (Gs : starts (fun c => negb (name_char c)) (gap_text g ++ String c r) = true) by (destruct G as [->|[->| ->]]; [reflexivity|destruct g; reflexivity|destruct g; reflexivity]).
  assert (Wc : sforall name_char w = true) by (apply (sforall_imp is_word); [implied|exact W]).
  assert (Col : forall rules (v : pvals leaf), run_rules (RRe "name" (plus name_char) false :: RRe "type" (plus is_word) false :: rules) d v = Ok (None, String c r)).
  { intros rules v. assert (R : @re_match leaf (plus name_char) d = Some (VText w, gap_text g ++ String c r)) by (apply plus_word; assumption).
    rewrite (step_re _ _ _ _ _ _ _ _ R) by (rewrite Sg; discriminate). rewrite Sg. apply fail_re. apply plus_none. exact Cw. }
  apply none_all. unfold definition_classes, primary_class, key_class, unique_class, foreign_class, bare_class, character_class, numeric_class, decimal_class,
    enum_class, plain_class, text_class, datetime_class.
  repeat (apply Forall_cons || apply Forall_nil); rewrite child_trim by exact T.
  - eexists. unfold primary_rules, lit. rewrite fail_lit; [reflexivity|]. apply (match_none_app "PRIMARY" " KEY"), M; cbn; tauto.
  - eexists. unfold key_rules. rewrite fail_re; [reflexivity|]. unfold re_match. rewrite !M by (cbn; tauto). reflexivity.
  - eexists. rewrite Un. reflexivity.
  - eexists. unfold foreign_rules, lit. cbn [List.app]. rewrite fail_lit; [reflexivity|]. apply M; cbn; tauto.
  - eexists. unfold bare_rules, lit. rewrite fail_lit; [reflexivity|]. apply (match_none_app "FOREIGN" " KEY ("), M; cbn; tauto.
  - eexists. unfold character_rules, rname, rtype. rewrite Col. reflexivity.
  - eexists. unfold numeric_rules, rname, rtype. rewrite Col. reflexivity.
  - eexists. unfold decimal_rules, rname, rtype. rewrite Col. reflexivity.
  - eexists. unfold enum_rules, rname, rtype. rewrite Col. reflexivity.
  - eexists. unfold plain_rules, rname, rtype. rewrite Col. reflexivity.
  - eexists. unfold text_rules, rname, rtype. rewrite Col. reflexivity.
  - eexists. unfold datetime_rules, rname, rtype. rewrite Col. reflexivity.
Qed.
Lemma spelled_chars K k : sforall is_word K = true -> spelled K k -> sforall is_word k = true.
Proof.
  unfold spelled. revert k. induction K as [|a K IH]; intros k W E; [destruct k; [reflexivity|discriminate]|]. destruct k as [|b k]; [discriminate|].
  cbn [sforall] in *. apply andb_true_iff in W as [Wa W]. unfold lower in E. cbn [smap] in E. injection E as Ea E. rewrite (IH k W E), andb_true_r.
  clear - Wa Ea. assert (G : forall c, is_word (to_lower c) = is_word c) by (intros [[|] [|] [|] [|] [|] [|] [|] [|]]; reflexivity). rewrite <- (G b). rewrite Ea, G. exact Wa.
Qed.
Lemma none_open m : has_char "(" m = false -> sforall not_open m = true.
Proof.
  unfold has_char. induction m as [|c m IH]; [reflexivity|]. cbn [sexists sforall]. intros H. apply orb_false_iff in H as [O1 O2]. rewrite (IH O2), andb_true_r.
  clear - O1. destruct c as [[|] [|] [|] [|] [|] [|] [|] [|]]; vm_compute in O1 |- *; congruence.
Qed.
Lemma odd_none d : odd_word d -> trim d = true -> best_child definition_classes d None = Ok None.
Proof.
  intros [w g c r Wn W U Cw Cs G|u g r Su O] T.
  - assert (M : forall K, In K ["KEY"; "INDEX"; "UNIQUE"; "CONSTRAINT"; "PRIMARY"; "FOREIGN"] -> match_lit K (w ++ gap_text g ++ String c r) = None).
    { intros K HK. apply keyword_odd; [exact Cw| |apply U, in_or_app; left; exact HK]. clear -HK. cbn in HK. repeat (destruct HK as [<-|HK]; [reflexivity|]). contradiction. }
    apply odd_none_from; try assumption; [intros K HK; apply M; cbn in *; tauto|]. eexists. unfold unique_rules, lit. apply fail_lit. apply M; cbn; tauto.
  - assert (Nu : u <> "") by (intros ->; discriminate Su).
    apply odd_none_from; try assumption; try reflexivity; [apply (spelled_chars "UNIQUE"); [reflexivity|exact Su]|auto| |].
    + intros K HK. apply (spelled_none K "UNIQUE"); [exact Su|]. clear -HK. cbn in HK. repeat (destruct HK as [<-|HK]; [reflexivity|]). contradiction.
    + assert (Tr : trim (String ")" r) = true).
      { unfold trim in *. apply andb_true_iff in T as [T _]. rewrite <- sapp_assoc in T. unfold neat in T. destruct (neat_rest _ _ _ T) as [x X]. cbn [neat_from starts] in *.
        unfold neat, not_space. cbn [neat_from]. exact X || (apply andb_true_iff; split; [exact X|reflexivity]). }
      assert (Sg : strip (gap_text g ++ String ")" r) = String ")" r) by (destruct g; [apply (strip_space (String ")" r)), Tr|apply trim_strip, Tr]).
      eexists. unfold unique_rules. unfold lit at 1. rewrite (step_lit "UNIQUE" _ false _ _ (gap_text g ++ String ")" r)); [|apply match_lit_app; symmetry; exact Su|rewrite Sg; discriminate].
      rewrite Sg.
      assert (R : @re_match leaf (plus not_open) (String ")" r) = Some (VText (String ")" r), "")).
      { rewrite <- (sapp_nil_r (String ")" r)) at 1. apply plus_word; [cbn [sforall]; rewrite (none_open r O); reflexivity|discriminate|reflexivity]. }
      remember (String ")" r) as z eqn:Ez. assert (K1 : @re_match leaf (ReAlt "KEY" "INDEX") z = None) by (rewrite Ez; reflexivity).
      cbn [run_rules run_rule]. rewrite K1. cbn [bind rule_opt]. rewrite R. cbn [bind]. reflexivity.
Qed.
Lemma odd_first d : odd_word d -> exists c r, d = String c r /\ is_word c = true.
Proof.
  intros H. assert (G : exists w y, d = w ++ y /\ w <> "" /\ sforall is_word w = true).
  { destruct H as [w g c r Wn W _ _ _ _|w g r Su _]; eexists w, _; (split; [reflexivity|]); [auto|]. split; [intros ->; discriminate Su|]. apply (spelled_chars "UNIQUE"); [reflexivity|exact Su]. }
  destruct G as (w & y & -> & Wn & W). destruct w as [|e w]; [contradiction|]. cbn [sforall] in W. apply andb_true_iff in W as [W _]. exists e. eexists. split; [reflexivity|exact W]. Qed.
Lemma odd_ending d : odd_word d -> trim d = true -> exists x z, d = String x z /\ ending_ok (EWords x z) /\ calm_end (EWords x z) /\ match_lit ")" d = None.
Proof.
  intros H T. destruct (odd_first d H) as (x & z & E & Xw). exists x, z. split; [exact E|].
  assert (M : forall K, In K ("PRIMARY" :: attribute_words) -> match_lit K d = None).
  { destruct H as [w g c r Wn W U Cw Cs G|u g r Su O].
    - intros K HK. apply keyword_odd; [exact Cw| |apply U]; clear -HK; cbn in HK; [repeat (destruct HK as [<-|HK]; [reflexivity|]); contradiction|cbn; tauto].
    - intros K HK. apply (spelled_none K "UNIQUE"); [exact Su|]. clear -HK. cbn in HK. repeat (destruct HK as [<-|HK]; [reflexivity|]). contradiction. }
  assert (P : forall K, K = "," \/ K = "(" \/ K = ")" -> match_lit K d = None).
  { intros K HK. rewrite E. clear -Xw HK. destruct HK as [->|[->| ->]]; cbn [match_lit]; destruct x as [[|] [|] [|] [|] [|] [|] [|] [|]]; try reflexivity; vm_compute in Xw; discriminate. }
  split; [|split; [|apply P; auto]]; unfold calm_end; cbn [ending_ok ending_text]; rewrite <- E.
  - split; [exact T|]. intros K I. cbn in I. destruct I as [<-|[<-|[<-|[<-|[<-|[<-|[<-|[<-|[<-|[<-|[]]]]]]]]]]].
    + apply M; cbn; tauto.
    + apply M; cbn; tauto.
    + apply (match_none_app "NOT" " NULL"), M; cbn; tauto.
    + apply (match_none_app "PRIMARY" " KEY"), M; cbn; tauto.
    + apply (match_none_app "DEFAULT" " "), M; cbn; tauto.
    + apply (match_none_app "AUTO" "_INCREMENT"), M; cbn; tauto.
    + apply (match_none_app "CHARACTER" " SET "), M; cbn; tauto.
    + apply (match_none_app "COLLATE" " "), M; cbn; tauto.
    + apply P; auto.
    + apply P; auto.
  - intros K I. cbn in I. destruct I as [<-|[<-|[]]].
    + apply (match_none_app "ON" " DELETE "), M; cbn; tauto.
    + apply (match_none_app "ON" " UPDATE "), M; cbn; tauto.
Qed.

(** The definition before it, and the pairs of words, are read. *)
Lemma lead_read p l t d : odd_lead p l t -> odd_word d -> trim d = true ->
  def_text t /\ exists qs, List.length qs = S (List.length l) /\ forall n ms, kids (S (List.length l) + n) definition_classes (t ++ " " ++ d) ms = kids n definition_classes d (ms +++ qs).
Proof.
  intros H O T. destruct (odd_ending d O T) as (x & z & -> & E & C & _). destruct H as [t W|l t W].
  - destruct (part_ok p t W) as [Dt R]. cbn [fst] in Dt. split; [exact Dt|]. destruct (R (EWords x z) E C) as (q & B & _). exists [q]. split; [reflexivity|]. intros n ms. cbn [List.length Nat.add kids].
    replace (is_empty (t ++ " " ++ String x z)) with false by (pose proof (dt_some _ Dt) as Ns; destruct t; [contradiction|reflexivity]).
    cbn [fst ending_raw ending_left] in B. rewrite B. reflexivity.
  - destruct (trailed_read p l t W) as [Dt R]. destruct (R (EWords x z) E) as (qs & L & _ & K). split; [exact Dt|]. exists qs. split; [exact L|]. exact K.
Qed.

Section Odd.
  Variables (n : string) (before : list part) (p : part) (l : list stray) (t d s : string).
  Hypothesis Hl : odd_lead p l t.
  Hypothesis Hd : odd_word d.
  Hypothesis Hs : stopped n before (t ++ " " ++ d) s.
  Hypothesis Ht : SpecCut.tail s.
  Hypothesis Lb : (N.of_nat (List.length before + List.length l) < 998)%N.

  Lemma odd_trim : trim d = true /\ d <> "".
  Proof.
    pose proof (HaltFacts.tail_trim s Ht) as T. destruct (odd_first d Hd) as (c & w & E & C).
    assert (J : exists a, s = a ++ d).
    { destruct Hs as [h g0 ss Hh F]. destruct (defs_of_ok before ss F) as (Q & _). rewrite <- Q, join_leading. generalize (InlineFacts.defs_of before ss). intros ds. exists (h ++ " (" ++ gap_text g0 ++ leading ds (t ++ " ")).
      rewrite !sapp_assoc. do 3 f_equal. clear. induction ds as [|x ds IH]; [cbn [leading]; rewrite sapp_assoc; reflexivity|]. cbn [leading]. rewrite IH, !sapp_assoc. reflexivity. }
    destruct J as [a J]. unfold trim in T. apply andb_true_iff in T as [T _]. rewrite J in T. unfold neat in T. destruct (neat_rest _ _ _ T) as [x X].
    assert (Sp : is_space c = false) by (revert C; clear; destruct c as [[|] [|] [|] [|] [|] [|] [|] [|]]; vm_compute; congruence).
    rewrite E in *. split; [|discriminate]. unfold trim, neat. cbn [neat_from starts] in *. unfold not_space. rewrite Sp in *. rewrite X. reflexivity.
  Qed.
  Lemma odd_parse : create_parse s = Ok (None, d).
  Proof.
    destruct odd_trim as (Td & Nd). pose proof Ht as [_ N C L]. unfold create_parse, drop_lengths. rewrite no_dd_drop by apply no_comment, C. rewrite (no_length_drop s L : drop_lengths_from 0 s = s).
    unfold parse_with. rewrite N. destruct (lead_read p l t d Hl Hd Td) as (Dt & qs & Lq & Kq). set (d0 := t ++ " " ++ d) in *.
    assert (Tl : trim d0 = true) by (apply trim_cat; [apply (dt_trim _ Dt)|apply (dt_some _ Dt)|apply (neat_space d); assumption]).
    assert (Nl : d0 <> "") by (unfold d0; pose proof (dt_some _ Dt); destruct t; [contradiction|discriminate]).
    destruct Hs as [h g ss Hh F]. destruct (defs_of_ok before ss F) as (Q & R & Ln & _). rewrite <- Q, join_leading. set (ds := InlineFacts.defs_of before ss) in *.
    destruct (leading_trim ds d0 (rdef_shapes _ R) Tl Nl) as [B1 B2]. set (bd := leading ds d0) in *.
    assert (G1 : neat (gap_text g ++ bd) = true) by (destruct g; [apply (neat_space bd); assumption|apply trim_neat, B1]).
    assert (G2 : strip (gap_text g ++ bd) = bd) by (destruct g; [apply (strip_space bd), B1|apply trim_strip, B1]).
    assert (S1 : trim ("(" ++ gap_text g ++ bd) = true) by (apply trim_app; [reflexivity|discriminate|exact G1]).
    unfold create_rules.
    match goal with |- context [run_rules (lit "CREATE TABLE" :: RLit "if_not_exists" "IF NOT EXISTS" true :: RRe "name" (plus not_space) false :: ?rs)] => destruct (head_run n h rs _ Hh S1) as (ine & tick & ->) end.
    unfold lit. rewrite (step_lit "(" "(" false _ _ (gap_text g ++ bd)); [|reflexivity|rewrite G2; exact B2]. rewrite G2.
    assert (Tu : List.length ds + S (List.length l) < max_turns).
    { rewrite Ln. apply turns_enough. lia. }
    pose (m := max_turns - List.length ds - S (List.length l) - 1).
    destruct (kids_before ds d0 R Tl Nl (S (List.length l) + S m) []) as (ps & K & Ps).
    replace (List.length ds + (S (List.length l) + S m)) with max_turns in K by (unfold m; lia).
    assert (K' : kids max_turns definition_classes bd [] = Ok (Some (ps +++ qs, d))).
    { unfold bd. rewrite K, Kq. cbn [kids]. destruct d as [|c1 e1] eqn:Ed1; [contradiction|]. cbn [is_empty]. rewrite <- Ed1 in *. rewrite (odd_none d Hd Td). cbn [bind].
      destruct qs as [|q qs]; [discriminate Lq|]. destruct ps; reflexivity. }
    rewrite (step_kids _ _ _ _ _ _ _ _ K') by exact Nd. rewrite fail_lit; [reflexivity|]. destruct (odd_ending d Hd Td) as (x & z & _ & _ & _ & M). exact M.
  Qed.
End Odd.

(** No table is read, and the text from the word on is reported together with the name of the file. *)
Lemma odd_read n before p l t d s' file : stopped_source n before (t ++ " " ++ d) s' -> odd_lead p l t -> odd_word d -> other_statement d -> (N.of_nat (List.length before + List.length l) < 998)%N ->
  read_sql file s' = (mkReader [("", no_table)] [] [complaint file d] false, Ok d).
Proof.
  intros (s & St & Tl & R) Hl Hd O Lb. pose proof (odd_parse n before p l t d s Hl Hd St Tl Lb) as P. destruct (odd_trim n before t d s Hd St Tl) as (Td & _).
  assert (P' : create_parse s' = Ok (None, d)) by (rewrite <- P; apply relaid_parse; [apply no_comment, Tl|apply no_length_drop, Tl|exact R]).
  pose proof (stopped_begins _ _ _ _ St) as B. pose proof (HaltFacts.tail_trim s Tl) as T.
  assert (Es : exists y c, s = y ++ String c "" /\ is_space c = false) by (apply (ends_solid s) with (w := false); [apply Tl|unfold trim in T; apply andb_true_iff in T; apply T]).
  destruct Es as (y & c & Es & C).
  apply (relaid_literal "create" eq_refl _ _ R) in B. rewrite Es in R. destruct (relaid_last y c s' C R) as [y' E]. destruct (begins_create s' B) as (d0 & q & Eq & Sd & Sc).
  assert (S0 : strip s' = s').
  { destruct y' as [|e y']; cbn [String.append] in E; [rewrite E; unfold strip, strip_by; cbn; rewrite C; cbn; rewrite C; reflexivity|].
    rewrite E in *. injection Eq as -> _. apply strip_ends; assumption. }
  unfold read_sql. pose proof statements_enough as Ls. destruct max_statements as [|[|k]]; [lia|lia|]. clear Ls.
  cbn [read_loop]. rewrite S0. assert (Z : is_empty s' = false) by (rewrite Eq; reflexivity). rewrite Z, Sc, P'. cbn [read_loop].
  rewrite (trim_strip d Td), (other_none d O). destruct O as [N _ _ _ _ _]. destruct d as [|x d]; [contradiction|]. cbn [is_empty]. rewrite notice_eq. reflexivity.
Qed.
