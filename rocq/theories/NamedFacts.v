(** Reading unique keys that are named as constraints. *)
From Verif Require Export SpecNamed RoundTrail.
From Verif Require Import RoundKeys RoundDefs WriteCreate.

Local Opaque max_turns max_statements.

Ltac implied := let c := fresh in intros c; destruct c as [[|] [|] [|] [|] [|] [|] [|] [|]]; vm_compute; congruence.

(** ** CONSTRAINT and a word are read as a column *)

Section Named.
  Local Notation run_rules := (@run_rules leaf).
  Variables (a b : string) (x : ascii) (z : string).
  Hypothesis Ha : spelled "CONSTRAINT" a.
  Hypothesis Hb : b <> "" /\ sforall is_word b = true.
  Hypothesis He : ending_ok (EWords x z).
  Hypothesis Hf : match_lit "FOREIGN KEY (" (String x z) = None.
  Notation e := (EWords x z).
  Notation v0 := ([("name", VText a); ("type", VText b)] : pvals leaf).
  Lemma named_word : sforall is_word a = true.
  Proof. rewrite (caseless is_word a "CONSTRAINT"); [reflexivity|letters|exact Ha]. Qed.
  Lemma named_some : a <> "".
  Proof. intros E. unfold spelled in Ha. rewrite E in Ha. discriminate. Qed.
  Lemma named_clean : clean_name a.
  Proof.
    split; [exact named_some|]. split; [apply (sforall_imp is_word); [implied|exact named_word]|]. intros y y' E. pose proof named_word as W. rewrite E in W. rewrite !sforall_app in W. cbn in W. rewrite andb_false_r in W. discriminate.
  Qed.
  Theorem named_bare : exists p, best_child definition_classes (a ++ " " ++ b ++ " " ++ String x z) None = Ok (Some (DefCol p, String x z))
    /\ p_name p = a /\ (~ In (upper b) known_types -> upper (p_type p) = upper b).
  Proof.
    destruct (name_facts false a named_clean) as [Hn Hs]. cbn [name_text] in Hn, Hs. pose proof (definition_text false a b NoLength [] e) as Ht. unfold column_definition in Ht. cbn [name_text length_text items_text] in Ht. rewrite !sapp_assoc in Ht.
    change (a ++ " " ++ b ++ "" ++ "" ++ ending_raw e) with (a ++ " " ++ b ++ " " ++ String x z) in Ht. rewrite Ht.
    assert (Hi : items_ok []) by constructor.
    assert (T : trim (col_text a b NoLength [] e) = true) by (apply col_trim; first [assumption|exact I]).
    assert (R : forall os, run_rules (rname :: rtype :: map orule os +++ [rcomma]) (col_text a b NoLength [] e) [] = Ok (Some (comma_vals e (snd (sim os [] v0)) (fst (sim os [] v0))), left_of e (snd (sim os [] v0)))).
    { intros os. apply (bare_none a b [] e Hn Hb Hi He os). }
    assert (S0 : snd (sim plain_os [] v0) = []) by reflexivity.
    exists (plain_process (comma_vals e [] (fst (sim plain_os [] v0)))). split.
    - apply (best_pick ([primary_class; key_class; unique_class; foreign_class; bare_class] +++ [character_class; numeric_class; decimal_class; enum_class])
               plain_class [text_class; datetime_class]).
      + assert (M : forall K, diverge K "CONSTRAINT" = true -> match_lit K (col_text a b NoLength [] e) = None) by (intros K D; apply (spelled_none K "CONSTRAINT"); assumption).
        apply Forall_app. split.
        * constructor; [apply primary_none; [exact T|apply M; reflexivity]|]. constructor; [apply key_none; [exact T|apply M; reflexivity|apply M; reflexivity]|].
          constructor; [apply unique_none; [exact T|apply M; reflexivity]|]. constructor; [|constructor; [apply unnamed_none; [exact T|apply M; reflexivity]|constructor]].
          eapply beaten_child; [exact T|]. unfold foreign_rules. cbn [List.app].
          assert (Tb : trim (b ++ " " ++ String x z) = true).
          { apply trim_app; [apply (sforall_imp is_word); [implied|apply Hb]|apply Hb|]. apply neat_space; [apply He|discriminate]. }
          assert (Nb : b ++ " " ++ String x z <> "") by (destruct b; discriminate).
          assert (L : match_lit "CONSTRAINT" (col_text a b NoLength [] e) = Some (String " " (b ++ " " ++ String x z))) by (apply match_lit_app; symmetry; exact Ha).
          unfold lit. rewrite (step_lit _ _ _ _ _ _ _ L) by (rewrite (strip_space _ Tb); exact Nb). rewrite (strip_space _ Tb).
          assert (P : @re_match leaf (plus name_char) (b ++ " " ++ String x z) = Some (VText b, String " " (String x z))) by (apply plus_word; [apply (sforall_imp is_word); [implied|apply Hb]|apply Hb|reflexivity]).
          unfold rname. rewrite (step_re _ _ _ _ _ _ _ _ P) by (rewrite (strip_space _ (proj1 He)); discriminate). rewrite (strip_space _ (proj1 He)).
          apply fail_lit, Hf.
        * repeat (constructor; [eapply class_tied_none; [exact T|apply paren_none; assumption]|]). constructor.
      + apply class_run; [exact T|]. etransitivity; [apply (R plain_os)|]. rewrite S0. reflexivity.
      + assert (Lt : forall os, String.length (ending_left e) <= String.length (left_of e (snd (sim os [] v0)))) by (intros os; apply left_tied, sim_ok, Hi).
        constructor; [eapply class_tied; [exact T|apply (R text_os)|apply Lt]|]. constructor; [eapply class_tied; [exact T|apply (R datetime_os)|apply Lt]|constructor].
    - assert (Vn : vtext "name" (comma_vals e [] (fst (sim plain_os [] v0))) = a) by reflexivity.
      assert (Vt : vtext "type" (comma_vals e [] (fst (sim plain_os [] v0))) = b) by reflexivity.
      unfold plain_process, extract_name. rewrite Vn, Vt. cbn [p_name p_type]. split; [exact Hs|]. intros Hu. destruct (unknown_type b Hu) as (Nt & N1 & N2 & _). rewrite Nt.
      apply String.eqb_neq in N1, N2. rewrite N1, N2. reflexivity.
  Qed.
End Named.

(** ** The definition *)

Lemma unique_starts i s : ix_type i = IUnique -> key_written i s -> exists k r, spelled "UNIQUE" k /\ s = k ++ r.
Proof.
  intros Ti [w g sp l _ _ _ N]. rewrite Ti in N.
  assert (G : forall K k, In K ["UNIQUE"; "UNIQUE KEY"; "UNIQUE INDEX"] -> spelled K k -> exists k1 r, spelled "UNIQUE" k1 /\ k = k1 ++ r).
  { intros K k HK S. unfold spelled in *.
    assert (C : forall u v t, lower t = lower (u ++ v) -> exists t1 t2, t = t1 ++ t2 /\ lower t1 = lower u).
    { clear. induction u as [|c u IH]; intros v t E; [exists "", t; split; reflexivity|]. destruct t as [|d t]; [discriminate|]. unfold lower in *. cbn [String.append smap] in E. injection E as E1 E2.
      destruct (IH v t E2) as (t1 & t2 & -> & E). exists (String d t1), t2. split; [reflexivity|]. cbn [smap]. rewrite E1, E. reflexivity. }
    cbn in HK. destruct HK as [<-|[<-|[<-|[]]]].
    - exists k, "". rewrite sapp_nil_r. auto.
    - destruct (C "UNIQUE" " KEY" k S) as (t1 & t2 & -> & E). eauto.
    - destruct (C "UNIQUE" " INDEX" k S) as (t1 & t2 & -> & E). eauto. }
  assert (W : exists k r, spelled "UNIQUE" k /\ w = k ++ r).
  { inversion N as [|w0 (K & HK & S) _|w0 tick H _ E|]; subst.
    - exact (G K w HK S).
    - assert (Q : exists k r, spelled "UNIQUE" k /\ w0 = k ++ r).
      { destruct H as [(K & HK & S)|[S _]]; [apply (G K w0); [cbn in *; tauto|exact S]|exists w0, ""; rewrite sapp_nil_r; auto]. }
      destruct Q as (k & r & S & ->). exists k. eexists. split; [exact S|]. rewrite sapp_assoc. reflexivity. }
  destruct W as (k & r & S & ->). exists k. eexists. split; [exact S|]. rewrite sapp_assoc. reflexivity.
Qed.
Lemma unique_ending i s e : ix_type i = IUnique -> key_written i s -> ending_ok e ->
  exists x z, s ++ ending_raw e = String x z /\ ending_ok (EWords x z) /\ match_lit "FOREIGN KEY (" (String x z) = None.
Proof.
  intros Ti W He. destruct (unique_starts i s Ti W) as (k & r & S & E). pose proof (key_def i s W) as D.
  assert (T : trim (s ++ ending_raw e) = true) by (apply trim_cat; [apply (dt_trim _ D)|apply (dt_some _ D)|apply raw_neat, He]).
  assert (M : forall K, diverge K "UNIQUE" = true -> match_lit K (s ++ ending_raw e) = None) by (intros K Q; rewrite E, sapp_assoc; apply (spelled_none K "UNIQUE"); assumption).
  destruct (s ++ ending_raw e) as [|x z] eqn:Es; [pose proof (dt_some _ D) as N; destruct s; [contradiction|discriminate]|].
  exists x, z. split; [reflexivity|]. split; [|apply M; reflexivity]. split; [exact T|]. intros K I. cbn in I. repeat (destruct I as [<-|I]; [apply M; reflexivity|]). contradiction.
Qed.
Lemma constraint_def u i s : unique_constraint u i s -> def_text s.
Proof.
  intros [k t S Un Uw Ti W]. pose proof (key_def i t W) as [Tt Dd Dr _ Nt].
  assert (Kw : sforall is_word k = true) by (apply (named_word k), S). assert (Kn : k <> "") by (apply (named_some k), S).
  assert (Nd : forall w, sforall is_word w = true -> sforall no_dash w = true) by (intros w; apply sforall_imp; implied).
  assert (Ns : forall w, sforall is_word w = true -> sforall not_space w = true) by (intros w; apply sforall_imp; implied).
  assert (So : forall w, sforall is_word w = true -> sforall solid w = true) by (intros w; apply sforall_imp; implied).
  assert (Tu : trim (u ++ " " ++ t) = true) by (apply trim_app; [apply Ns, Uw|exact Un|apply neat_space; [exact Tt|exact Nt]]).
  assert (No : u ++ " " ++ t <> "") by (destruct u; discriminate).
  constructor.
  - apply trim_app; [apply Ns, Kw|exact Kn|apply neat_space; assumption].
  - assert (G : forall w r, sforall no_dash w = true -> starts no_dash r = true -> no_dd false r = true -> no_dd false (w ++ r) = true).
    { intros w r H1 H2 H3. apply no_dd_app; [exact H2| |exact H3]. apply no_dd_dashless, dash_free, H1. }
    intros r R1 R2. rewrite !sapp_assoc.
    apply G; [apply Nd, Kw|reflexivity|]. apply (G " "); [reflexivity| |].
    + destruct u as [|c u]; [contradiction|]. cbn [sforall String.append starts] in *. apply andb_true_iff in Uw as [C _]. pose proof (Nd (String c "") ltac:(cbn [sforall]; rewrite C; reflexivity)) as Q. cbn [sforall] in Q. apply andb_true_iff in Q. apply Q.
    + apply G; [apply Nd, Uw|reflexivity|]. cbn [String.append no_dd]. change (Ascii.eqb " " "-") with false. cbv iota. apply Dd; assumption.
  - intros r R. rewrite !sapp_assoc. apply no_drop_app; [apply So, Kw|]. apply (no_drop_app " "); [reflexivity|]. apply no_drop_app; [apply So, Uw|]. apply (no_drop_app " "); [reflexivity|]. apply Dr, R.
  - intros w r Hw. rewrite !sapp_assoc. apply (first_word w k " " _ Hw); [apply Ns, Kw|exact Kn|apply So, Kw|left; reflexivity].
  - destruct k; [contradiction|discriminate].
Qed.
(** It is read as a column of the type [u], and the key. *)
Theorem constraint_read u i s : unique_constraint u i s ->
  long_read (s, fun _ => True) 2 (fun qs => exists p d, qs = [DefCol p; d] /\ upper (p_name p) = "CONSTRAINT" /\ (~ In (upper u) known_types -> upper (p_type p) = upper u)
    /\ meant_by (PartKey i) d).
Proof.
  intros C. split; [apply (constraint_def u i), C|]. destruct C as [k t S Un Uw Ti W]. intros e He. destruct (unique_ending i t e Ti W He) as (x & z & E & Ez & Ef).
  destruct (named_bare k u x z S (conj Un Uw) Ez Ef) as (p & B & P1 & P2). pose proof (key_written_read i t e W He) as R.
  exists [DefCol p; DefIndex (mkIndex (ix_rawname i) (ix_columns i) (ix_type i) [])]. split; [reflexivity|]. split.
  - exists p, (DefIndex (mkIndex (ix_rawname i) (ix_columns i) (ix_type i) [])). split; [reflexivity|]. split; [rewrite P1; apply (upper_caseless k "CONSTRAINT"), S|]. split; [exact P2|]. repeat split.
  - intros n ms. cbn [rdef_text fst Nat.add]. rewrite !sapp_assoc, E. cbn [kids].
    replace (is_empty (k ++ " " ++ u ++ " " ++ String x z)) with false by (pose proof (named_some k S) as N; destruct k; [contradiction|reflexivity]).
    rewrite B. cbn [bind kids is_empty]. rewrite <- E, R. cbn [bind]. rewrite <- app_assoc. reflexivity.
Qed.
