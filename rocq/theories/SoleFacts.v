(** Reading columns that are declared UNIQUE where they are defined. *)
From Verif Require Export SpecSole.
From Verif Require Import PropsWrite PropsParse PropsRound Parsers RoundKeys RoundCols RoundColumn RoundTable NamedFacts OddFacts.
From Coq Require Import Lia.

Lemma keyword_next y r : starts (fun c => negb (is_word c)) (y ++ r) = true -> y ++ r <> "" -> forall k, sforall is_upper k = true -> forall n, prefix k (upper n) = false -> match_lit k (n ++ y ++ r) = None.
Proof.
  intros S N k U n P. destruct (y ++ r) as [|c z]; [contradiction|]. apply (keyword_odd false c z); try assumption. cbn [starts] in S. destruct (is_word c); [discriminate|reflexivity].
Qed.
Lemma spelled_letters K k : sforall is_word K = true -> spelled K k -> sforall is_word k = true.
Proof.
  unfold spelled. revert k. induction K as [|a K IH]; intros k W E; [destruct k; [reflexivity|discriminate]|]. destruct k as [|b k]; [discriminate|].
  cbn [sforall] in *. apply andb_true_iff in W as [Wa W]. unfold lower in E. cbn [smap] in E. injection E as Ea E. rewrite (IH k W E), andb_true_r.
  clear - Wa Ea. assert (G : forall c, is_word (to_lower c) = is_word c) by (intros [[|] [|] [|] [|] [|] [|] [|] [|]]; reflexivity). rewrite <- (G b). rewrite Ea, G. exact Wa.
Qed.

Lemma next_cases m : begins_next m -> (exists y, m = String bquote y)
  \/ exists w v y, m = w ++ " " ++ v ++ y /\ w <> "" /\ sforall is_word w = true /\ v <> "" /\ sforall is_word v = true
     /\ (forall K, In K ("PRIMARY" :: attribute_words) -> prefix K (upper v) = false) /\ (forall c z, y = String c z -> is_word c = false).
Proof. intros [y|w v y]; [left; eauto|right; exists w, v, y; auto 10]. Qed.

  Lemma sole_open u : declared_unique u -> exists u0 x, spelled "UNIQUE" u0 /\ u = u0 ++ x /\ sforall not_open x = true.
  Proof.
    intros Hu. destruct Hu as [u0 Su|u0 K k Su HK Sk].
    - exists u0, "". rewrite sapp_nil_r. auto.
    - exists u0, (" " ++ k). split; [exact Su|]. split; [reflexivity|]. rewrite sforall_app. cbn.
      apply (sforall_imp is_word); [implied|]. apply (spelled_letters K); [destruct HK as [->| ->]; reflexivity|exact Sk].
  Qed.

Section Sole.
  Variables (mid : string) (l : list ident) (u : string) (g sp : bool) (e : ending).
  Hypothesis Hu : declared_unique u.
  Hypothesis Hm : trim mid = true /\ mid <> "" /\ sforall not_open mid = true.
  Hypothesis Hb : begins_next mid.
  Hypothesis Hl : l <> [] /\ Forall ident_ok l.
  Hypothesis He : ending_ok e.
  Let next : string := mid ++ gapped l g sp e.
  Let s : string := u ++ ", " ++ next.
  Let L : nat := String.length (ending_left e).

  Lemma sole_next : trim next = true /\ next <> "".
  Proof.
    destruct Hm as (T & N & _). split; [|unfold next; intros Z; apply sapp_eq_nil in Z as [Z _]; contradiction].
    apply trim_cat; [exact T|exact N|apply gapped_neat; assumption].
  Qed.
  Lemma sole_long r : String.length (gapped l g sp e) <= String.length r -> L < String.length r.
  Proof.
    unfold gapped, RoundKeys.tail, L. rewrite slength_app. cbn [String.length]. pose proof (listed_long l sp e). lia.
  Qed.
  (** The classes of columns fail, or leave more. *)
  Lemma sole_columns : trim s = true /\
    (forall rules (process : pvals leaf -> pcol) rs, rules = rname :: rtype :: lit "(" :: rs -> tied L s (child_of rules process DefCol))
    /\ (forall rules (process : pvals leaf -> pcol) os, rules = rname :: rtype :: map orule os +++ [rcomma] -> tied L s (child_of rules process DefCol)).
  Proof.
    destruct sole_next as [Tn Nn].
    assert (G : forall n w e', n <> "" /\ sforall name_char n = true -> w <> "" /\ sforall is_word w = true -> ending_ok e' -> L <= String.length (ending_left e') ->
      s = col_text n w NoLength [] e' -> trim s = true
      /\ (forall rules (process : pvals leaf -> pcol) rs, rules = rname :: rtype :: lit "(" :: rs -> tied L s (child_of rules process DefCol))
      /\ (forall rules (process : pvals leaf -> pcol) os, rules = rname :: rtype :: map orule os +++ [rcomma] -> tied L s (child_of rules process DefCol))).
    { intros n w e' Hn Hw E' Le Es. assert (Hi : items_ok []) by constructor.
      assert (T : trim s = true) by (rewrite Es; apply col_trim; first [assumption|exact I]). split; [exact T|]. split.
      - intros rules process rs ->. apply beaten_tied. eapply class_tied_none; [exact T|]. rewrite Es. apply paren_none; assumption.
      - intros rules process os Eq. destruct (bare_tied false n w NoLength [] e' Hn Hw I Hi E' rules process os Eq) as (m & x & A & [->|Q]).
        + exists None, x. rewrite Es. auto.
        + exists m, x. rewrite Es. split; [exact A|]. right. lia. }
    assert (Nw : forall w, sforall is_word w = true -> sforall name_char w = true) by (intros w; apply sforall_imp; implied).
    destruct Hu as [u0 Su|u0 K k Su HK Sk].
    - assert (Wu : sforall is_word u0 = true) by (apply (spelled_letters "UNIQUE"); [reflexivity|exact Su]).
      assert (Hn : u0 ++ "," <> "" /\ sforall name_char (u0 ++ ",") = true).
      { split; [intros Z; apply sapp_eq_nil in Z as [_ Z]; discriminate|]. rewrite sforall_app, (Nw _ Wu). reflexivity. }
      destruct (next_cases mid Hb) as [(y & Em)|(w & v & y & Em & Wn & W & Vn & V & A & S)].
      + assert (T : trim s = true).
        { unfold s. change (u0 ++ ", " ++ next) with (u0 ++ "," ++ String " " next). rewrite <- sapp_assoc. apply trim_app; [apply (sforall_imp name_char); [implied|apply Hn]|apply Hn|]. apply neat_space; assumption. }
        assert (C : forall rs, exists r, run_rules (rname :: rtype :: rs) s ([] : pvals leaf) = Ok (None, r)).
        { intros rs. eexists. unfold rname, rtype.
          assert (R : @re_match leaf (plus name_char) s = Some (VText (u0 ++ ","), String " " next)).
          { replace s with ((u0 ++ ",") ++ String " " next) by (unfold s; rewrite sapp_assoc; reflexivity). apply plus_word; [apply Hn|apply Hn|reflexivity]. }
          rewrite (step_re _ _ _ _ _ _ _ _ R) by (rewrite strip_space by exact Tn; exact Nn). rewrite strip_space by exact Tn. apply fail_re. unfold next. rewrite Em. apply plus_none. reflexivity. }
        split; [exact T|]. split.
        * intros rules process rs ->. destruct (C (lit "(" :: rs)) as [r R]. apply beaten_tied. eapply class_tied_none; [exact T|exact R].
        * intros rules process os ->. destruct (C (map orule os +++ [rcomma])) as [r R]. apply beaten_tied. eapply class_tied_none; [exact T|exact R].
      + set (z := v ++ y ++ gapped l g sp e).
        assert (Ez : exists a z', z = String a z' /\ is_word a = true).
        { unfold z. destruct v as [|a v']; [contradiction|]. cbn [sforall] in V. apply andb_true_iff in V as [V _]. exists a. eexists. split; [reflexivity|exact V]. }
        destruct Ez as (a & z' & Ez & Wa).
        assert (En : next = w ++ String " " (String a z')) by (rewrite <- Ez; unfold next, z; rewrite Em; repeat (cbn [String.append]; rewrite ?sapp_assoc); reflexivity).
        assert (Sy : starts (fun c => negb (is_word c)) (y ++ gapped l g sp e) = true /\ y ++ gapped l g sp e <> "").
        { split; [|unfold gapped, RoundKeys.tail; destruct y; [destruct g; discriminate|discriminate]]. destruct y as [|c y]; [cbn [String.append]; apply gapped_starts; reflexivity|cbn [String.append starts]; rewrite (S c y eq_refl); reflexivity]. }
        assert (M : forall K, In K ("PRIMARY" :: attribute_words) -> match_lit K (String a z') = None).
        { intros K HK. rewrite <- Ez. unfold z. apply keyword_next; [apply Sy|apply Sy| |apply A, HK]. clear -HK. cbn in HK. repeat (destruct HK as [<-|HK]; [reflexivity|]). contradiction. }
        assert (Tz : trim (String a z') = true).
        { rewrite En in Tn. unfold trim in Tn |- *. apply andb_true_iff in Tn as [Tn _]. unfold neat in Tn. change (w ++ String " " (String a z')) with (w ++ " " ++ String a z') in Tn. rewrite <- sapp_assoc in Tn.
          destruct (neat_rest _ _ _ Tn) as [x X]. apply andb_true_iff. split.
          - unfold neat. cbn [neat_from] in *. clear - X Wa. destruct x; destruct a as [[|] [|] [|] [|] [|] [|] [|] [|]]; vm_compute in Wa; try discriminate; exact X.
          - clear - Wa. destruct a as [[|] [|] [|] [|] [|] [|] [|] [|]]; vm_compute in Wa; try discriminate; reflexivity. }
        apply (G (u0 ++ ",") w (EWords a z')); auto.
        * split; [exact Tz|]. intros K I. cbn in I.
          assert (P : forall K, K = "," \/ K = "(" -> match_lit K (String a z') = None).
          { clear -Wa. intros K [->| ->]; cbn [match_lit]; destruct a as [[|] [|] [|] [|] [|] [|] [|] [|]]; try reflexivity; vm_compute in Wa; discriminate. }
          destruct I as [<-|[<-|[<-|[<-|[<-|[<-|[<-|[<-|[<-|[<-|[]]]]]]]]]]].
          { apply M; cbn; tauto. } { apply M; cbn; tauto. } { apply (match_none_app "NOT" " NULL"), M; cbn; tauto. } { apply (match_none_app "PRIMARY" " KEY"), M; cbn; tauto. }
          { apply (match_none_app "DEFAULT" " "), M; cbn; tauto. } { apply (match_none_app "AUTO" "_INCREMENT"), M; cbn; tauto. } { apply (match_none_app "CHARACTER" " SET "), M; cbn; tauto. }
          { apply (match_none_app "COLLATE" " "), M; cbn; tauto. } { apply P; auto. } { apply P; auto. }
        * cbn [ending_left]. rewrite <- Ez. apply Nat.lt_le_incl, sole_long. unfold z. rewrite !slength_app. lia.
        * unfold s, col_text. cbn [length_text String.append]. unfold more. cbn. rewrite En. repeat (cbn [String.append]; rewrite ?sapp_assoc). reflexivity.
    - assert (Wu : sforall is_word u0 = true) by (apply (spelled_letters "UNIQUE"); [reflexivity|exact Su]).
      assert (Wk : sforall is_word k = true) by (apply (spelled_letters K); [destruct HK as [->| ->]; reflexivity|exact Sk]).
      apply (G u0 k (EComma next)); auto.
      + split; [intros ->; discriminate Su|auto].
      + split; [intros ->; destruct HK as [->| ->]; discriminate Sk|exact Wk].
      + split; assumption.
      + cbn [ending_left]. apply Nat.lt_le_incl, sole_long. unfold next. rewrite slength_app. lia.
      + unfold s, col_text. cbn [length_text String.append]. repeat (cbn [String.append]; rewrite ?sapp_assoc). reflexivity.
  Qed.
  (** All the text up to the next list in parentheses is read as a unique key. *)
  Theorem sole_read : exists i, best_child definition_classes s None = Ok (Some (DefIndex i, ending_left e)) /\ ix_type i = IUnique /\ ix_columns i = map snd l.
  Proof.
    destruct sole_columns as (T & P & B). destruct (sole_open u Hu) as (u0 & x0 & Su & Eu & X0).
    assert (M : forall K, diverge K "UNIQUE" = true -> match_lit K s = None).
    { intros K Q. unfold s. rewrite Eu, sapp_assoc. apply (spelled_none K "UNIQUE"); assumption. }
    assert (Open : exists x, sforall not_open x = true /\ match_lit "UNIQUE" s = Some (x ++ String "(" (listed l sp e))).
    { exists (x0 ++ ", " ++ mid ++ gap_text g). split.
      - rewrite !sforall_app, X0, (proj2 (proj2 Hm)). destruct g; reflexivity.
      - unfold s. rewrite Eu, sapp_assoc, (match_lit_app "UNIQUE" u0) by (symmetry; exact Su). unfold next, gapped, RoundKeys.tail. repeat (cbn [String.append]; rewrite ?sapp_assoc). reflexivity. }
    destruct Open as (x & X & Mu). destruct (unique_on s x (listed l sp e) Mu X (RoundKeys.tail_trim l sp e Hl He)) as [v R].
    change (String "(" (listed l sp e)) with (RoundKeys.tail l sp e) in R. rewrite (run_columns l sp e Hl He v) in R.
    eexists. split; [|split].
    - apply (best_pick [primary_class; key_class] unique_class (skipn 3 definition_classes)).
      + repeat (apply Forall_cons || apply Forall_nil); [apply primary_none; [exact T|apply M; reflexivity]|apply key_none; [exact T|apply M; reflexivity|apply M; reflexivity]].
      + apply class_run; [exact T|exact R].
      + cbn [skipn definition_classes].
        apply Forall_cons; [apply beaten_tied; eapply beaten_child; [exact T|]; apply fail_lit, M; reflexivity|].
        apply Forall_cons; [apply beaten_tied; eapply beaten_child; [exact T|]; apply fail_lit, M; reflexivity|].
        do 4 (apply Forall_cons; [eapply P; reflexivity|]).
        apply Forall_cons; [apply (B plain_rules _ plain_os eq_refl)|]. apply Forall_cons; [apply (B text_rules _ text_os eq_refl)|].
        apply Forall_cons; [apply (B datetime_rules _ datetime_os eq_refl)|]. apply Forall_nil.
    - reflexivity.
    - cbn [ix_columns unique_process]. replace (vlist "columns" _) with (map snd l); [apply clean_columns, idents_clean, Hl|].
      symmetry. unfold vlist. destruct e; cbn [comma_vals]; rewrite !dget_dset; reflexivity.
  Qed.
End Sole.
