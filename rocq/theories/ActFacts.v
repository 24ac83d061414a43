(** Foreign keys with any number of actions: statements and what the check command says. *)
From Verif Require Import Cli SpecActs SpecDefs RoundRead WriteCreate AcceptFacts WarnFacts.

Local Opaque max_turns max_statements.

(** ** The text *)

Lemma acts_facts K l a : K = "ON DELETE" \/ K = "ON UPDATE" -> Forall (fun x => In x allowed_actions) l -> actions_written K l a ->
  neat a = true /\ sforall no_dash a = true /\ sforall solid a = true.
Proof.
  intros HK F W. induction W as [|x k l a S W IH]; [repeat split|]. inversion F as [|? ? X F']; subst. destruct (IH F') as (A & B & C).
  destruct (action_facts K x (" " ++ k) HK (action_said K x k X S)) as (D1 & D2 & D3).
  change (" " ++ k ++ a) with ((" " ++ k) ++ a). split; [|split; rewrite (sforall_app _ (" " ++ k) a); [rewrite D2; exact B|rewrite D3; exact C]].
  apply neat_cat; assumption.
Qed.
Lemma acting_def n c t fc ds us s : fk_acting n c t fc ds us s -> def_text s.
Proof.
  intros [k1 k2 k3 g a1 a2 S1 S2 S3 N C T F Ox Oy X Y].
  destruct (acts_facts "ON DELETE" _ a1 (or_introl eq_refl) (order_actions _ Ox) X) as (X1 & X2 & X3), (acts_facts "ON UPDATE" _ a2 (or_intror eq_refl) (order_actions _ Oy) Y) as (Y1 & Y2 & Y3).
  destruct (spelled_free "CONSTRAINT" k1 S1) as (A1 & A2 & A3 & A4); [reflexivity|discriminate|reflexivity|reflexivity|].
  destruct (spelled_free "FOREIGN KEY" k2 S2) as (B1 & B2 & B3 & B4); [reflexivity|discriminate|reflexivity|reflexivity|].
  destruct (spelled_free "REFERENCES" k3 S3) as (C1 & C2 & C3 & C4); [reflexivity|discriminate|reflexivity|reflexivity|].
  destruct (name_dropped (fst c) _ (proj1 C)) as [(M1 & M2 & M3) M4].
  destruct (name_dropped (fst t) _ (proj1 T)) as [(T1 & T2 & T3) T4], (name_dropped (fst fc) _ (proj1 F)) as [(F1 & F2 & F3) F4].
  fold (ident_text c) (ident_text t) (ident_text fc) in *.
  set (body := k2 ++ " (" ++ ident_text c ++ ") " ++ k3 ++ " " ++ ident_text t ++ gap_text g ++ "(" ++ ident_text fc ++ ")" ++ a1 ++ a2).
  assert (Bn : body <> "") by (intros Z; apply sapp_eq_nil in Z as [Z _]; contradiction).
  assert (Bt : trim body = true).
  { apply trim_cat; [exact B1|exact B2|]. apply (neat_cat " ("); [reflexivity|]. apply neat_app'; [exact M1|].
    apply (neat_cat ")" (String " " _)); [reflexivity|]. apply (neat_space (k3 ++ _)).
    2:{ intros Z. apply sapp_eq_nil in Z as [Z _]. contradiction. }
    apply trim_cat; [exact C1|exact C2|]. apply (neat_space (ident_text t ++ _)).
    2:{ intros Z. apply sapp_eq_nil in Z as [Z _]. contradiction. }
    apply trim_app; [exact T1|exact T2|].
    assert (G : trim ("(" ++ ident_text fc ++ ")" ++ a1 ++ a2) = true).
    { apply trim_app; [reflexivity|discriminate|]. apply neat_app'; [exact F1|]. apply (neat_cat ")"); [reflexivity|]. apply neat_cat; assumption. }
    destruct g; [apply (neat_space ("(" ++ _)); [exact G|discriminate]|apply trim_neat, G]. }
  assert (Bd : forall r, no_dd false r = true -> no_dd false (body ++ r) = true).
  { intros r R. unfold body. rewrite !sapp_assoc. apply free_dd; [exact B3|]. apply (free_dd " ("); [reflexivity|]. apply M4; [reflexivity|].
    apply (free_dd ") "); [reflexivity|]. apply free_dd; [exact C3|]. apply (free_dd " "); [reflexivity|]. apply T4; [destruct g; reflexivity|].
    apply free_dd; [destruct g; reflexivity|]. apply (free_dd "("); [reflexivity|]. apply F4; [reflexivity|]. apply (free_dd ")"); [reflexivity|].
    apply free_dd; [exact X2|]. apply free_dd; [exact Y2|exact R]. }
  assert (Bp : forall r, no_drop r -> no_drop (body ++ r)).
  { intros r R. unfold body. rewrite !sapp_assoc. apply no_drop_app; [exact B4|]. apply (no_drop_app " " (String "(" _)); [reflexivity|].
    apply (open_drop "(" _ ")"); auto. apply (no_drop_app ") "); [reflexivity|]. apply no_drop_app; [exact C4|]. apply (no_drop_app " "); [reflexivity|].
    apply no_drop_app; [exact T3|]. apply no_drop_app; [destruct g; reflexivity|]. apply (open_drop "(" _ ")"); auto.
    apply (no_drop_app ")"); [reflexivity|]. apply no_drop_app; [exact X3|]. apply no_drop_app; [exact Y3|exact R]. }
  destruct n as [n|]; cbn [option_map fk_opening].
  - destruct (name_dropped (fst n) _ (proj1 N)) as [(N1 & N2 & N3) N4]. fold (ident_text n) in *. rewrite !sapp_assoc. fold body. constructor.
    + apply trim_cat; [exact A1|exact A2|]. apply (neat_space (ident_text n ++ _)).
      2:{ intros Z. apply sapp_eq_nil in Z as [Z _]. contradiction. }
      apply trim_app; [exact N1|exact N2|]. apply (neat_space body); assumption.
    + intros r _ R. rewrite !sapp_assoc. apply free_dd; [exact A3|]. apply (free_dd " "); [reflexivity|]. apply N4; [reflexivity|].
      apply (free_dd " "); [reflexivity|]. apply Bd, R.
    + intros r R. rewrite !sapp_assoc. apply no_drop_app; [exact A4|]. apply (no_drop_app " "); [reflexivity|]. apply no_drop_app; [exact N3|].
      apply (no_drop_app " "); [reflexivity|]. apply Bp, R.
    + intros v r V. rewrite sapp_assoc. apply first_word; auto. rewrite (caseless not_space k1 "CONSTRAINT"); [reflexivity|letters|exact S1].
    + intros Z. apply sapp_eq_nil in Z as [Z _]. contradiction.
  - change ("" ++ k2 ++ _) with body. constructor; try assumption.
    + intros r _ R. apply Bd, R.
    + intros v r V. destruct (split_word "FOREIGN" "KEY" k2 S2) as (a & b & Ew & Sa & Sb). unfold body. rewrite Ew, !sapp_assoc. cbn [String.append].
      destruct (spelled_word "FOREIGN" a Sa) as [An Aw]; [discriminate|reflexivity|].
      apply first_word; auto.
      * apply (sforall_imp _ _ _ word_not_space), Aw.
      * apply (sforall_imp _ _ _ word_solid), Aw.
Qed.

(** The text is read. *)
Lemma acting_read n c t fc ds us s e : fk_acting n c t fc ds us s -> ending_ok e -> calm_end e ->
  best_child definition_classes (s ++ ending_raw e) None
  = Ok (Some (DefFk (match n with Some _ => false | None => true end) (fk_read_as n c t fc ds us), ending_left e)).
Proof.
  intros [k1 k2 k3 g a1 a2 S1 S2 S3 N C T F Ox Oy X Y] He Hc. destruct n as [n|].
  - etransitivity; [|apply (fk_reads k1 k2 k3 n c t fc g ds us a1 a2 e S1 S2 S3 N C T F Ox Oy X Y He (calm_fk_end e a2 Hc))].
    f_equal. unfold fk_text, fk_named, fk0, fk1, fk2, fk3, fk4, fk5, fk6. cbn [option_map fk_opening]. repeat (cbn [String.append]; rewrite ?sapp_assoc). reflexivity.
  - etransitivity; [|apply (bare_reads k2 k3 c t fc g ds us a1 a2 e S2 S3 C T F Ox Oy X Y He (calm_fk_end e a2 Hc))].
    f_equal. unfold fk0, fk1, fk2, fk3, fk4, fk5, fk6. cbn [option_map fk_opening]. repeat (cbn [String.append]; rewrite ?sapp_assoc). reflexivity.
Qed.

(** ** The statement *)

Definition act_says (p : act_part) (d : def) : Prop :=
  match p, d with
  | ActColumn m, DefCol q => exists c, as_definition q = Ok c /\ means c m /\ p_name q = m_name m /\ p_primary q = false
  | ActKey i, DefIndex j => alike_index i j
  | ActFk n c t fc ds us, DefFk bare k => bare = (match n with Some _ => false | None => true end) /\ k = fk_read_as n c t fc ds us
  | _, _ => False
  end.
Lemma act_ok p s : act_written p s -> rdef_ok (s, act_says p).
Proof.
  intros [m x W|i x W|n c t fc ds us x W].
  - split; [apply (written_def m), W|]. intros e E Ec. destruct (written_read m x e W E) as (p' & c & B & A & M & P & N & Q & Pl).
    exists (DefCol p'). split; [exact B|]. exists c. auto.
  - split; [apply (key_def i), W|]. intros e E Ec. eexists. split; [apply (key_written_read i x e W E)|]. repeat split.
  - split; [apply (acting_def n c t fc ds us), W|]. intros e E Ec. eexists. split; [apply (acting_read n c t fc ds us x e W E Ec)|]. split; reflexivity.
Qed.
Lemma act_statement n h w0 w1 w2 parts ss : create_head n h -> Forall2 act_written parts ss -> (0 < N.of_nat (List.length parts) < 1000)%N ->
  blank w0 -> blank w1 -> w1 <> "" -> blank w2 -> exists v,
    create_parse (h ++ " (" ++ w0 ++ join ("," ++ w1) ss ++ w2 ++ ");") = (let* t := create_process v in Ok (Some t, ""))
    /\ strip_char bquote (vtext "name" v) = n /\ dmem "closing_semicolon" v = true /\ Forall2 act_says parts (vkids "definitions" v).
Proof.
  intros Hh F L W0 W1 W1n W2.
  set (ds := map (fun x => (snd x, act_says (fst x))) (List.combine parts ss) : list wdef).
  assert (Ls : List.length parts = List.length ss) by (clear - F; induction F; cbn [List.length]; congruence).
  assert (Et : map rdef_text ds = ss).
  { unfold ds. clear - Ls. revert ss Ls. induction parts as [|p l IH]; intros [|s ss] H; try discriminate; [reflexivity|]. cbn. f_equal. apply IH. injection H as H. exact H. }
  assert (Fd : Forall rdef_ok ds) by (unfold ds; clear - F; induction F as [|p s l ss P F IH]; [constructor|]; cbn; constructor; [apply act_ok, P|exact IH]).
  assert (Ld : List.length ds = List.length parts) by (unfold ds; rewrite map_length, combine_length; lia).
  destruct (create_run w0 w1 w2 n h ds [] ";" "" true) as (ps & ine & tick & E & G).
  { apply (RoundTable.stop_end true). }
  { reflexivity. }
  { reflexivity. }
  { exact Hh. }
  { intros Z. rewrite Z in Ld. cbn in Ld. lia. }
  { apply rdef_shapes, Fd. }
  { constructor. }
  { reflexivity. }
  { exact W0. }
  { exact W1. }
  { exact W1n. }
  { exact W2. }
  { exact Fd. }
  { rewrite Ld. apply L. }
  rewrite Et in E. exists (create_vals ine tick n ps [] true).
  assert (Hn : clean_name n) by (destruct Hh; assumption).
  split; [exact E|]. split; [|split; [destruct ine; reflexivity|]].
  - replace (vtext "name" (create_vals ine tick n ps [] true)) with (name_text tick n) by (destruct ine; reflexivity).
    destruct tick; cbn [name_text]; [apply strip_ticked, clean_chars, Hn|apply strip_none, name_ok_bquote, clean_chars, Hn].
  - replace (vkids "definitions" (create_vals ine tick n ps [] true)) with ps by (destruct ine; reflexivity).
    unfold ds in G. clear - G Ls. revert ss ps Ls G. induction parts as [|p l IH]; intros [|s ss] ps H G; try discriminate; inversion G; subst; constructor; auto.
    eapply IH; [|eassumption]. injection H as H. exact H.
Qed.

(** ** What is said *)

Section Said.
  Context {FO : FloatOracle}.

  Lemma parsing_new ts D ge gw b l : (forall n t, In (n, t) ts -> kept t) -> db_errors (new_database ts (Some D) ge gw) = (b, Ok l) ->
    exists rows schema, l = ge +++ (concat (map (fun p => te_parsing (find_all_errors (snd p))) ts) +++ rows) +++ schema.
  Proof.
    intros K. unfold db_errors, find_schema_errors. cbn [d_schema new_database d_tables d_rows].
    set (d0 := map (fun p => (fst p, fresh (snd p))) ts).
    assert (P0 : plain_tables d0 = ts) by apply (plain_new ts None [] []).
    assert (K0 : all_tables kept d0).
    { intros n o Ho. apply in_map_iff in Ho as ((m, t) & [= <- <-] & Ht). apply (K m t Ht). }
    destruct (database_schema_ok d0 K0) as (E1 & K1 & S1). rewrite P0 in E1.
    destruct (database_schema_errors d0) as [d1 r1]. cbn [fst snd] in E1, K1, S1. subst r1.
    assert (U1 : untouched d1).
    { intros n o Ho. destruct (Forall2_in_r _ _ _ _ S1 Ho) as ([m u] & Hm & _ & (A & B & _)). cbn [snd] in A, B.
      apply in_map_iff in Hm as ((m', t) & [= <- <-] & Ht). cbn [to_errs to_seen fresh] in A, B. auto. }
    pose proof (asked_all te_schema d1) as A2.
    destruct (ask_tables te_schema d1) as [d2 [l2|e]]; cbn [fst snd] in *; [|discriminate].
    rewrite (A2 l2 U1 eq_refl) in *. destruct (row_schema_errors _ _) as [l3|e]; [|discriminate].
    unfold find_parsing_errors. cbn [d_parsing set_schema set_tables d_tables d_rows new_database].
    pose proof (ask_again te_parsing d1 U1) as A4. destruct (ask_tables te_parsing _) as [d3 r3]. cbn [snd] in A4. subst r3.
    cbn [row_parsing snd d_global_errors set_parsing set_tables set_schema d_rows new_database]. intros [= _ <-].
    assert (E : map (fun p : string * tobj => te_parsing (find_all_errors (to_table (snd p)))) d1 = map (fun p => te_parsing (find_all_errors (snd p))) ts).
    { clear - S1. unfold d0 in S1. revert d1 S1. induction ts as [|[n t] ts IH]; intros d1 S1; inversion S1 as [|? [m u] ? d' [_ (_ & _ & Sb)] S']; subst; [reflexivity|].
      cbn [map snd] in *. rewrite (IH d' S'). f_equal. cbn [to_table fresh] in Sb. pose proof (sbi_find (fun _ => false) _ _ Sb) as Ef.
      fold (find_all_errors t) (find_all_errors (to_table u)) in Ef. rewrite Ef. reflexivity. }
    rewrite E. eexists _, _. reflexivity.
  Qed.
  (** Nothing is lost when no column raises. *)
  Lemma scan_parsing tn l : te_exn (scan_children tn l) = None -> te_parsing (scan_children tn l) = concat (map (fun c => map (in_table tn) (ch_parsing c)) l).
  Proof.
    induction l as [|c l IH]; cbn [scan_children]; [reflexivity|]. destruct (ch_exn c); [discriminate|]. cbn [te_exn te_parsing map concat]. intros E. rewrite (IH E). reflexivity.
  Qed.
  Lemma told_fk t m k e : te_exn (scan_children (t_name t) (children (fun _ => false) t)) = None -> In (m, k) (t_constraints t) -> In e (k_perrors k) ->
    In (in_table (t_name t) e) (te_parsing (find_all_errors t)).
  Proof.
    intros X I Ie.
    assert (Q : te_parsing (find_all_errors t) = te_parsing (scan_children (t_name t) (children (fun _ => false) t))).
    { unfold find_all_errors, find_all_errors_seen. rewrite X. destruct (run_checks _); reflexivity. }
    rewrite Q, scan_parsing by exact X. apply in_concat. exists (map (in_table (t_name t)) (k_perrors k)). split; [|apply in_map, Ie].
    apply in_map_iff. exists (constraint_child k). split; [reflexivity|]. unfold children. rewrite !in_app_iff. right. right. apply in_map.
    unfold dvals. apply in_map_iff. exists (m, k). auto.
  Qed.
End Said.
