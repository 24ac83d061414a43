(** C60: what becomes of a column whose name begins with UNIQUE. *)
From Verif Require Import PropsWrite PropsParse PropsRound Parsers RoundKeys SpecTrail.

Lemma items_open l : items_ok l -> sforall not_open (items_text l) = true.
Proof.
  induction 1 as [|i l [Hs Ha] F IH]; [reflexivity|]. cbn [items_text]. rewrite !sforall_app, IH, item_parts, sforall_app.
  assert (W : sforall not_open (item_word i) = true).
  { rewrite (caseless not_open (item_word i) (item_key i)); [destruct i; reflexivity|letters|exact Hs]. }
  assert (P : forall s, sforall plain_char s = true -> sforall not_open s = true) by (intros s; apply sforall_imp; intros [[|] [|] [|] [|] [|] [|] [|] [|]]; vm_compute; congruence).
  assert (Q : forall s, sforall arg_char s = true -> sforall not_open s = true) by (intros s; apply sforall_imp; intros [[|] [|] [|] [|] [|] [|] [|] [|]]; vm_compute; congruence).
  rewrite W. destruct i; cbn [item_arg]; try reflexivity; try (rewrite (P _ (proj1 (proj2 Ha))); reflexivity); try (rewrite (Q _ (proj2 Ha)); reflexivity).
  unfold quote. cbn [sforall]. rewrite sforall_app, (P _ Ha). reflexivity.
Qed.

Section Lost.
  Variables (n w mid : string) (items : list item) (l : list ident) (g sp : bool) (e : ending).
  Hypothesis Hn : clean_name n.
  Hypothesis Hu : prefix "UNIQUE" (upper n) = true.
  Hypothesis Hw : w <> "" /\ sforall is_word w = true.
  Hypothesis Hfk : upper w <> "FOREIGN".
  Hypothesis Hitems : items_ok items.
  Hypothesis Hm : trim mid = true /\ mid <> "" /\ sforall not_open mid = true.
  Hypothesis Hl : l <> [] /\ Forall ident_ok l.
  Hypothesis He : ending_ok e.
  Let next : string := mid ++ gapped l g sp e.
  Let s : string := column_definition false n w NoLength items ++ ", " ++ next.

  Lemma next_ok : ending_ok (EComma next).
  Proof.
    destruct Hm as (T & N & _). split; [|unfold next; intros Z; apply sapp_eq_nil in Z as [Z _]; contradiction].
    apply trim_cat; [exact T|exact N|apply gapped_neat; assumption].
  Qed.
  Lemma unique_head K m : prefix K m = true -> exists r, m = K ++ r.
  Proof.
    revert m. induction K as [|a K IH]; intros m P; [exists m; reflexivity|]. destruct m as [|b m]; [discriminate|]. cbn [prefix] in P.
    destruct (ascii_dec a b) as [->|]; [|discriminate]. destruct (IH m P) as [r ->]. exists r. reflexivity.
  Qed.
  Lemma upper_head K m r : sforall is_upper K = true -> upper m = K ++ r -> exists m', forall x, match_lit K (m ++ x) = Some (m' ++ x) /\ exists a, m = a ++ m'.
  Proof.
    revert m. induction K as [|a K IH]; intros m U E; [exists m; intros x; split; [reflexivity|exists ""; reflexivity]|]. destruct m as [|b m]; [discriminate|].
    cbn [sforall] in U. apply andb_true_iff in U as [A U]. unfold upper in E. cbn [smap String.append] in E. injection E as Eb E.
    destruct (IH m U E) as (m' & H). exists m'. intros x. cbn [String.append match_lit]. destruct (H x) as [H1 (a0 & H2)].
    replace (Ascii.eqb (to_lower a) (to_lower b)) with true; [split; [exact H1|exists (String b a0); rewrite H2; reflexivity]|].
    symmetry. apply Ascii.eqb_eq. rewrite <- Eb. clear. destruct b as [[|] [|] [|] [|] [|] [|] [|] [|]]; reflexivity.
  Qed.
  Lemma lost_read : exists i, best_child definition_classes s None = Ok (Some (DefIndex i, ending_left e)) /\ ix_type i = IUnique /\ ix_columns i = map snd l.
  Proof.
    pose proof next_ok as Ne. destruct (unique_head _ _ Hu) as [r Er]. destruct (upper_head "UNIQUE" n r eq_refl Er) as [n' Hn'].
    assert (Es : s = col_text n w NoLength items (EComma next)) by (apply (definition_text false n w NoLength items (EComma next))).
    assert (Hname : n <> "" /\ sforall name_char n = true) by (split; [apply Hn|apply (sforall_imp _ _ _ name_ok_name), Hn]).
    assert (T : trim s = true) by (rewrite Es; apply col_trim; first [assumption|exact I]).
    assert (Long : String.length (ending_left e) < String.length next).
    { unfold next, gapped, RoundKeys.tail. rewrite !slength_app. cbn [String.length]. pose proof (listed_long l sp e) as LL. destruct Hm as (_ & Nm & _). destruct mid; [contradiction|]. cbn [String.length]. lia. }
    assert (Open : exists x, sforall not_open x = true /\ match_lit "UNIQUE" s = Some (x ++ String "(" (listed l sp e))).
    { exists (n' ++ " " ++ w ++ items_text items ++ ", " ++ mid ++ gap_text g). split.
      - rewrite !sforall_app, (items_open _ Hitems), (proj2 (proj2 Hm)). destruct (Hn' "") as [_ (a & Ea)]. destruct Hname as [_ Nn]. rewrite Ea, sforall_app in Nn. apply andb_true_iff in Nn as [_ Nn].
        rewrite (sforall_imp name_char not_open n'); [|clear; intros [[|] [|] [|] [|] [|] [|] [|] [|]]; vm_compute; congruence|exact Nn].
        rewrite (sforall_imp is_word not_open w); [|clear; intros [[|] [|] [|] [|] [|] [|] [|] [|]]; vm_compute; congruence|apply Hw]. destruct g; reflexivity.
      - unfold s, column_definition. cbn [name_text length_text]. rewrite !sapp_assoc. rewrite (proj1 (Hn' _)). unfold next, gapped, RoundKeys.tail. repeat (cbn [String.append]; rewrite ?sapp_assoc). reflexivity. }
    destruct Open as (x & X & M). destruct (unique_on s x (listed l sp e) M X (tail_trim l sp e Hl He)) as [v R].
    change (String "(" (listed l sp e)) with (RoundKeys.tail l sp e) in R. rewrite (run_columns l sp e Hl He v) in R.
    eexists. split; [|split].
    - apply (best_pick [primary_class; key_class] unique_class (skipn 3 definition_classes)).
      + destruct (name_keys false n (String.length (ending_left e)) w (more items (EComma next)) Hn) as [F _]; try assumption.
        * intros _ I. cbn in I. repeat (destruct I as [I|I]; [rewrite <- I in Hu; discriminate Hu|]). destruct I.
        * apply more_starts; reflexivity.
        * left. exact Hfk.
        * apply more_neat; assumption.
        * inversion F as [|? ? F1 G1]; subst. inversion G1 as [|? ? F2 G2]; subst. rewrite Es. constructor; [exact F1|constructor; [exact F2|constructor]].
      + apply class_run; [exact T|exact R].
      + pose proof (name_keys false n (String.length (ending_left e)) w (more items (EComma next)) Hn) as K.
        assert (Lt : String.length (ending_left e) <= String.length (ending_left (EComma next))) by (cbn [ending_left]; lia).
        assert (F : Forall (beaten (String.length (ending_left e)) s) [primary_class; key_class; foreign_class; bare_class]).
        { rewrite Es. apply K; try assumption; [|apply more_starts; reflexivity|left; exact Hfk|apply more_neat; assumption].
          intros _ I. cbn in I. repeat (destruct I as [I|I]; [rewrite <- I in Hu; discriminate Hu|]). destruct I. }
        inversion F as [|? ? F1 G1]; subst. inversion G1 as [|? ? F2 G2]; subst. inversion G2 as [|? ? F3 G3]; subst. inversion G3 as [|? ? F4 _]; subst.
        assert (P : forall rules (process : pvals leaf -> pcol) rs, rules = rname :: rtype :: lit "(" :: rs -> tied (String.length (ending_left e)) s (child_of rules process DefCol)).
        { intros rules process rs ->. apply beaten_tied. eapply class_tied_none; [exact T|]. rewrite Es. apply paren_none; assumption. }
        assert (B : forall rules (process : pvals leaf -> pcol) os, rules = rname :: rtype :: map orule os +++ [rcomma] -> tied (String.length (ending_left e)) s (child_of rules process DefCol)).
        { intros rules process os Eq. destruct (bare_tied false n w NoLength items (EComma next) Hname Hw I Hitems Ne rules process os Eq) as (m & u & A & [->|Q]).
          - exists None, u. rewrite Es. auto.
          - exists m, u. rewrite Es. split; [exact A|]. right. lia. }
        cbn [skipn definition_classes].
        apply Forall_cons; [apply beaten_tied, F3|]. apply Forall_cons; [apply beaten_tied, F4|].
        do 4 (apply Forall_cons; [eapply P; reflexivity|]).
        apply Forall_cons; [apply (B plain_rules _ plain_os eq_refl)|]. apply Forall_cons; [apply (B text_rules _ text_os eq_refl)|].
        apply Forall_cons; [apply (B datetime_rules _ datetime_os eq_refl)|]. apply Forall_nil.
    - reflexivity.
    - cbn [ix_columns unique_process]. replace (vlist "columns" _) with (map snd l); [apply clean_columns, idents_clean, Hl|].
      symmetry. unfold vlist. destruct e; cbn [comma_vals]; rewrite !dget_dset; reflexivity.
  Qed.
End Lost.

(** ** C60 *)

(** A column whose name begins with UNIQUE, with a type that has no length, is no column: all the text
    up to the next list in parentheses, the definitions in between included, becomes a unique
    key over the names in that list. *)
Theorem C60_unique_lost : forall n w u nu a d l mid g sp cols next,
  clean_name n -> prefix "UNIQUE" (upper n) = true -> In (upper w) known_types -> sforall is_word w = true -> attributes u nu a d l ->
  normalize mid = mid -> mid <> "" -> has_char "(" mid = false -> cols <> [] -> Forall ident_ok cols -> normalize next = next -> next <> "" ->
  exists i, best_child definition_classes
      (column_definition false n w NoLength l ++ ", " ++ mid ++ gap_text g ++ "(" ++ idents_text sp cols ++ "), " ++ next) None = Ok (Some (DefIndex i, next))
    /\ ix_type i = IUnique /\ ix_columns i = map snd cols.
Proof.
  intros n w u nu a d l mid g sp cols next Hn Hu Hw Ww (server & lu & ln & ld & la & -> & Fu & Fn & D & Fa) Tm Nm Om Nc Fc Tx Nx.
  destruct (lost_read n w mid (arranged server lu ln ld la [] []) cols g sp (EComma next)) as (i & B & I & C); try assumption.
  - split; [intros ->; cbn in Hw; repeat (destruct Hw as [Hw|Hw]; [discriminate Hw|]); destruct Hw|exact Ww].
  - intros E. rewrite E in Hw. cbn in Hw. repeat (destruct Hw as [Hw|Hw]; [discriminate Hw|]). destruct Hw.
  - eapply arranged_items; try eassumption; constructor.
  - split; [apply normal_trim, Tm|]. split; [exact Nm|]. unfold has_char in Om. clear - Om. induction mid as [|c m IH]; [reflexivity|]. cbn [sexists] in Om. apply orb_false_iff in Om as [O1 O2].
    cbn [sforall]. rewrite (IH O2), andb_true_r. clear - O1. destruct c as [[|] [|] [|] [|] [|] [|] [|] [|]]; vm_compute in O1 |- *; congruence.
  - split; assumption.
  - split; [apply normal_trim, Tx|exact Nx].
  - exists i. split; [|auto]. cbn [ending_left] in B. rewrite <- B. reflexivity.
Qed.
(** A file that loses a column and its primary key this way, without an error. *)
Definition lost_sql : string := "CREATE TABLE t (id INT NOT NULL, unique_code INT NOT NULL, PRIMARY KEY (id), b INT);".
Theorem C60_refuted_primary : exists t i, create_parse lost_sql = Ok (Some t, "") /\ dkeys (t_columns t) = ["id"; "b"]
  /\ dvals (t_indexes t) = [i] /\ ix_type i = IUnique /\ ix_columns i = ["id"] /\ t_primary t = None /\ t_global_errors t = [].
Proof. found_some (create_parse lost_sql). eexists. split; [by_vm|]. repeat (split; [reflexivity|]). reflexivity. Qed.
Example ex_C60_unique_lost : clean_name "unique_code" /\ prefix "UNIQUE" (upper "unique_code") = true /\ In (upper "INT") known_types
  /\ attributes false false false None [INotNull "NOT NULL"] /\ normalize "PRIMARY KEY" = "PRIMARY KEY" /\ Forall ident_ok [(false, "id")]
  /\ column_definition false "unique_code" "INT" NoLength [INotNull "NOT NULL"] ++ ", " ++ "PRIMARY KEY" ++ gap_text true ++ "(" ++ idents_text false [(false, "id")] ++ "), " ++ "b INT"
     = "unique_code INT NOT NULL, PRIMARY KEY (id), b INT".
Proof.
  split; [apply clean_nameb; reflexivity|]. split; [reflexivity|]. split; [cbn; tauto|]. split.
  - exists false, [], [INotNull "NOT NULL"], [], []. repeat split; try constructor. reflexivity.
  - split; [reflexivity|]. split; [|reflexivity]. constructor; [|constructor]. split; [apply clean_nameb; reflexivity|]. intros _. split; reflexivity.
Qed.
(** With a length and an attribute the column is read, whatever its name begins with. *)
Example ex_C60_unique : written (mkMeaning "unique_code" KString "VARCHAR" (OneNumber "20") false false None false "" "") "unique_code varchar(20) not null".
Proof.
  apply (written_as (mkMeaning "unique_code" KString "VARCHAR" (OneNumber "20") false false None false "" "") false "varchar" (OneNumber "20") false [] [INotNull "not null"] [] [] [] [] None "" "");
    first [reflexivity|split; [apply clean_nameb; reflexivity|intros _; split; [cbn; intuition discriminate|intros _; split; discriminate]]|split; [discriminate|reflexivity]
      |cbn; tauto|constructor; reflexivity|constructor|intros [X|X]; exfalso; apply X; reflexivity].
Qed.

Print Assumptions C60_unique_lost.
Print Assumptions C60_refuted_primary.
