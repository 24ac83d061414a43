(** C54, C59, C60: column definitions as people and servers write them. *)
From Verif Require Import SpecWrite RoundRead PropsParse PropsRound Samples.

Local Opaque max_turns max_statements.

(** The definition [s] is read as a column with the property [P], before a comma and before the
    closing parenthesis. *)
Definition read_column (s : string) (P : column -> Prop) : Prop :=
  (forall next, normalize next = next -> next <> "" ->
     exists p c, best_child definition_classes (s ++ ", " ++ next) None = Ok (Some (DefCol p, next)) /\ as_definition p = Ok c /\ P c)
  /\ (exists p c, best_child definition_classes (s ++ ")") None = Ok (Some (DefCol p, ")")) /\ as_definition p = Ok c /\ P c).

Lemma read_written m s (P : column -> Prop) : written m s -> (forall c, means c m -> c_perrors c = [] -> P c) -> read_column s P.
Proof.
  intros W H. split.
  - intros next T N. destruct (written_read m s (EComma next) W (conj (normal_trim _ T) N)) as (p & c & B & A & M & E & _). exists p, c. auto.
  - destruct (written_read m s (EClose false "") W eq_refl) as (p & c & B & A & M & E & _). exists p, c. auto.
Qed.

Lemma plain_written tick n w f T F u nu a d d' l : name_ok tick n -> In (T, KNumeric) readable_types -> type_word w f T F -> length_ok f ->
  (forall x y, f <> TwoNumbers x y) -> d' = default_value w d -> attributes u nu a d l -> (forall x, d = Some x -> lower x <> "null") ->
  written (mkMeaning n KNumeric T F u nu d' a "" "") (column_definition tick n w f l).
Proof.
  intros N R Ty L NF Ed (server & lu & ln & ld & la & -> & Fu & Fn & D & Fa) X.
  apply (written_as (mkMeaning n KNumeric T F u nu d' a "" "") tick w f server lu ln ld la [] [] d "" ""); cbn [m_name m_kind m_type m_length m_unsigned m_null m_default m_auto m_charset m_collate]; auto.
  - apply named_column, N.
  - constructor.
  - constructor.
  - intros [H|H]; exfalso; apply H; reflexivity.
  - destruct f as [|k|k j]; [|exact I|exfalso; eapply NF; reflexivity]. intros _ _ k s ->. inversion D; subst. apply X. reflexivity.
Qed.
Lemma integer_written tick n w f u nu a d l : name_ok tick n -> spelled "INTEGER" w \/ spelled "INT" w ->
  f = NoLength \/ (exists k, f = OneNumber k /\ digits k) -> attributes u nu a d l -> (forall x, d = Some x -> lower x <> "null") ->
  written (mkMeaning n KNumeric "INT" f u nu d a "" "") (column_definition tick n w f l).
Proof.
  intros N S F A X. assert (NF : forall x y, f <> TwoNumbers x y) by (destruct F as [->|(k & -> & _)]; discriminate).
  apply (plain_written tick n w f "INT" f u nu a d d l); auto.
  - cbn. tauto.
  - destruct S as [S|S]; constructor; assumption.
  - destruct F as [->|(k & -> & K)]; [exact I|exact K].
  - symmetry. apply default_same. unfold boolean. destruct S as [S|S]; rewrite (upper_caseless _ _ S); reflexivity.
Qed.
(** What TRUE and FALSE stand for. *)
Definition truth (d d' : option string) : Prop :=
  (exists x, d = Some x /\ spelled "TRUE" x /\ d' = Some "1") \/ (exists x, d = Some x /\ spelled "FALSE" x /\ d' = Some "0")
  \/ (d' = d /\ forall x, d = Some x -> ~ spelled "TRUE" x /\ ~ spelled "FALSE" x).
Lemma boolean_written tick n w u nu a d d' l : name_ok tick n -> spelled "BOOL" w \/ spelled "BOOLEAN" w ->
  attributes u nu a d l -> (forall x, d = Some x -> lower x <> "null") -> truth d d' ->
  written (mkMeaning n KNumeric "TINYINT" (OneNumber "1") u nu d' a "" "") (column_definition tick n w NoLength l).
Proof.
  intros N S A X V. assert (B : boolean w = true) by (unfold boolean; destruct S as [S|S]; rewrite (upper_caseless _ _ S); reflexivity).
  apply (plain_written tick n w NoLength "TINYINT" (OneNumber "1") u nu a d d' l); auto; try discriminate; try exact I; [cbn; tauto|constructor; exact S|].
  unfold default_value. destruct V as [(x & -> & Sx & ->)|[(x & -> & Sx & ->)|(-> & V)]].
  - rewrite B, (upper_caseless _ _ Sx). reflexivity.
  - rewrite B, (upper_caseless _ _ Sx). reflexivity.
  - destruct d as [x|]; [|reflexivity]. destruct (V x eq_refl) as [V1 V2]. rewrite B. cbn [andb].
    destruct (String.eqb_spec (upper x) "TRUE") as [E|_]; [exfalso; apply V1; unfold spelled; rewrite <- (lower_upper x), E; reflexivity|].
    destruct (String.eqb_spec (upper x) "FALSE") as [E|_]; [exfalso; apply V2; unfold spelled; rewrite <- (lower_upper x), E; reflexivity|]. reflexivity.
Qed.
Lemma tinyint_written tick n w u nu a d l : name_ok tick n -> spelled "TINYINT" w -> attributes u nu a d l -> (forall x, d = Some x -> lower x <> "null") ->
  written (mkMeaning n KNumeric "TINYINT" (OneNumber "1") u nu d a "" "") (column_definition tick n w (OneNumber "1") l).
Proof.
  intros N S A X. apply (plain_written tick n w (OneNumber "1") "TINYINT" (OneNumber "1") u nu a d d l); auto; try discriminate.
  - cbn. tauto.
  - constructor. exact S.
  - split; [discriminate|reflexivity].
  - symmetry. apply default_same. unfold boolean. rewrite (upper_caseless _ _ S). reflexivity.
Qed.

Section Theorems.
  Context {FO : FloatOracle}.

  (** ** C54 *)

  (** Every definition written in one of the described ways is read with its meaning. *)
  Theorem C54_written_read_partial : forall m s, written m s -> read_column s (fun c => means c m /\ c_perrors c = []).
  Proof. intros m s W. apply (read_written m s _ W). auto. Qed.

  (** Two ways of writing the same column make no difference. *)
  Theorem C54_same_meaning_partial : forall m s s', written m s -> written m s' ->
    read_column s (fun c => read_column s' (fun c' => alike_column c c' /\ column_changed c c' = Ok false /\ column_changed c' c = Ok false)).
  Proof.
    intros m s s' W W'. pose proof W as W0. destruct W0 as [tick w f server lu ln ld la lcs lco d cs co _ Ht _ _ _ _ _ _ _ _ _ _ _ _ _].
    pose proof (tf_kind _ _ (readable_facts _ _ Ht)) as K.
    assert (G : forall c c', means c m -> means c' m -> natural (c_default c) -> natural (c_default c') -> alike_column c c' /\ column_changed c c' = Ok false /\ column_changed c' c = Ok false).
    { intros c c' M M' N N'. pose proof (means_alike c c' m K N N' M M') as A. split; [exact A|]. unfold column_changed.
      rewrite (sc_text _ _ A), String.eqb_refl. auto. }
    assert (Nat : forall p c, as_definition p = Ok c -> natural (c_default c)).
    { intros p c A. unfold as_definition in A. destruct (dget _ _); [|discriminate]. injection A as <-. cbn. destruct (p_default p); exact I. }
    split.
    - intros next T N. destruct (written_read m _ (EComma next) W (conj (normal_trim _ T) N)) as (p & c & B & A & M & E & _).
      exists p, c. split; [exact B|split; [exact A|]]. split.
      + intros next' T' N'. destruct (written_read m _ (EComma next') W' (conj (normal_trim _ T') N')) as (p' & c' & B' & A' & M' & E' & _). exists p', c'.
        split; [exact B'|split; [exact A'|]]. apply G; eauto.
      + destruct (written_read m _ (EClose false "") W' eq_refl) as (p' & c' & B' & A' & M' & E' & _). exists p', c'.
        split; [exact B'|split; [exact A'|]]. apply G; eauto.
    - destruct (written_read m _ (EClose false "") W eq_refl) as (p & c & B & A & M & E & _).
      exists p, c. split; [exact B|split; [exact A|]]. split.
      + intros next' T' N'. destruct (written_read m _ (EComma next') W' (conj (normal_trim _ T') N')) as (p' & c' & B' & A' & M' & E' & _). exists p', c'.
        split; [exact B'|split; [exact A'|]]. apply G; eauto.
      + destruct (written_read m _ (EClose false "") W' eq_refl) as (p' & c' & B' & A' & M' & E' & _). exists p', c'.
        split; [exact B'|split; [exact A'|]]. apply G; eauto.
  Qed.

  (** ** C60 *)

  (** Without back-quotes, too, a column keeps its name and type, unless the name is one of the five words of keys or begins with UNIQUE. *)
  Theorem C60_bare_partial : forall m s, written m s ->
    read_column s (fun c => c_name c = m_name m /\ c_type c = m_type m /\ c_kind c = m_kind m).
  Proof. intros m s W. apply (read_written m s _ W). intros c M _. repeat split; apply M. Qed.

  (** ** C59 *)

  (** The word INTEGER, in any letter case. *)
  Theorem C59_integer_partial : forall tick n w f u nu a d l, name_ok tick n -> spelled "INTEGER" w ->
    f = NoLength \/ (exists k, f = OneNumber k /\ digits k) -> attributes u nu a d l -> (forall x, d = Some x -> lower x <> "null") ->
    read_column (column_definition tick n w f l) (fun c => means c (mkMeaning n KNumeric "INT" f u nu d a "" "")).
  Proof. intros tick n w f u nu a d l N S F A X. eapply read_written; [apply integer_written; eauto|auto]. Qed.

  (** The words BOOL and BOOLEAN, in any letter case, with TRUE and FALSE for 1 and 0. *)
  Theorem C59_boolean_partial : forall tick n w u nu a d d' l, name_ok tick n -> spelled "BOOL" w \/ spelled "BOOLEAN" w ->
    attributes u nu a d l -> (forall x, d = Some x -> lower x <> "null") -> truth d d' ->
    read_column (column_definition tick n w NoLength l) (fun c => means c (mkMeaning n KNumeric "TINYINT" (OneNumber "1") u nu d' a "" "")).
  Proof. intros tick n w u nu a d d' l N S A X V. eapply read_written; [eapply boolean_written; eauto|auto]. Qed.

  (** What a file says and what a server reports do not differ. *)
  Notation unchanged s s' :=
    (read_column s (fun c => read_column s' (fun c' => alike_column c c' /\ column_changed c c' = Ok false /\ column_changed c' c = Ok false))).
  Theorem C59_integer_no_change_partial : forall tick n w w' f u nu a d l l', name_ok tick n -> spelled "INTEGER" w -> spelled "INT" w' ->
    f = NoLength \/ (exists k, f = OneNumber k /\ digits k) -> attributes u nu a d l -> attributes u nu a d l' -> (forall x, d = Some x -> lower x <> "null") ->
    unchanged (column_definition tick n w f l) (column_definition true n w' f l').
  Proof.
    intros tick n w w' f u nu a d l l' N S S' F A A' X. eapply C54_same_meaning_partial; eapply integer_written; eauto.
    split; [apply N|discriminate].
  Qed.
  Theorem C59_boolean_no_change_partial : forall tick n w w' u nu a d d' l l', name_ok tick n -> spelled "BOOL" w \/ spelled "BOOLEAN" w -> spelled "TINYINT" w' ->
    attributes u nu a d l -> truth d d' -> attributes u nu a d' l' -> (forall x, d = Some x -> lower x <> "null") ->
    unchanged (column_definition tick n w NoLength l) (column_definition true n w' (OneNumber "1") l').
  Proof.
    intros tick n w w' u nu a d d' l l' N S S' A V A' X. eapply C54_same_meaning_partial; [eapply boolean_written; eauto|].
    apply tinyint_written; auto.
    - split; [apply N|discriminate].
    - intros x ->. destruct V as [(y & _ & _ & E)|[(y & _ & _ & E)|(E & _)]]; [injection E as ->; discriminate|injection E as ->; discriminate|].
      apply X. symmetry. exact E.
  Qed.
End Theorems.

(** ** Definitions that meet the hypotheses *)
Example ex_C59_attributes : attributes false false false (Some "True") [INotNull "not null"; IDefault "Default" "True"]
  /\ attributes false false false (Some "1") [INotNull "NOT NULL"; IQuoted "DEFAULT" "1"] /\ truth (Some "True") (Some "1").
Proof.
  split; [|split].
  - exists false, [], [INotNull "not null"], [IDefault "Default" "True"], []. split; [reflexivity|]. repeat split; constructor; try reflexivity; try discriminate.
    split; [discriminate|split; [apply clean_textb; reflexivity|discriminate]].
  - exists true, [], [INotNull "NOT NULL"], [IQuoted "DEFAULT" "1"], []. split; [reflexivity|]. repeat split; constructor; try reflexivity. apply clean_textb. reflexivity.
  - left. exists "True". repeat split.
Qed.
Example ex_C59_texts : column_definition false "active" "Boolean" NoLength [INotNull "not null"; IDefault "Default" "True"] = "active Boolean not null Default True"
  /\ column_definition true "active" "tinyint" (OneNumber "1") [INotNull "NOT NULL"; IQuoted "DEFAULT" "1"] = "`active` tinyint(1) NOT NULL DEFAULT '1'".
Proof. split; reflexivity. Qed.
Lemma bare_nameb n : negb (is_empty n) && sforall name_ok_char n && sforall no_dash n && (negb (smem (upper n) key_words) && negb (prefix "UNIQUE" (upper n))) = true -> name_ok false n.
Proof.
  intros H. apply andb_true_iff in H as [A B]. apply andb_true_iff in B as [B1 B2]. split; [apply clean_nameb, A|]. intros _. split; [|apply negb_true_iff, B2].
  intros I. apply smem_iff in I. rewrite I in B1. discriminate.
Qed.
Example ex_C59_name : name_ok false "active" /\ name_ok false "order_key" /\ name_ok false "key_id" /\ name_ok false "primary_contact"
  /\ name_ok false "index_no" /\ name_ok false "constraint_type" /\ name_ok false "foreign_name".
Proof. do 6 (split; [apply bare_nameb; reflexivity|]). apply bare_nameb. reflexivity. Qed.
(** A string column in the tool's order and in the server's. *)
Definition note_meaning : meaning := mkMeaning "note" KString "VARCHAR" (OneNumber "255") false true None false "UTF8MB4" "UTF8MB4_BIN".
Example ex_C54_written :
  written note_meaning "note varchar(255) CHARACTER SET 'utf8mb4' collate 'utf8mb4_bin'"
  /\ written note_meaning "`note` varchar(255) CHARACTER SET utf8mb4 COLLATE utf8mb4_bin DEFAULT NULL".
Proof.
  assert (W : bare_word "utf8mb4" /\ bare_word "utf8mb4_bin") by (split; (split; [discriminate|split; [apply clean_textb; reflexivity|discriminate]])).
  split.
  - apply (written_as note_meaning false "varchar" (OneNumber "255") false [] [] [] [] [ICharset "CHARACTER SET" (quote "utf8mb4")] [ICollate "collate" (quote "utf8mb4_bin")] None "utf8mb4" "utf8mb4_bin");
      try reflexivity; try (constructor; first [reflexivity|apply clean_textb; reflexivity|intros X; discriminate X]); try exact I; [apply named_column, bare_nameb; reflexivity|cbn; tauto|repeat split].
  - apply (written_as note_meaning true "varchar" (OneNumber "255") true [] [] [IDefault "DEFAULT" "NULL"] [] [ICharset "CHARACTER SET" "utf8mb4"] [ICollate "COLLATE" "utf8mb4_bin"] None "utf8mb4" "utf8mb4_bin");
      try reflexivity; try (constructor; first [reflexivity|apply W]); try exact I; [split; [apply clean_nameb; reflexivity|discriminate]|cbn; tauto|split; [discriminate|reflexivity]|repeat split].
Qed.

(** ** Synonyms that do make a difference *)

(** MySQL reports NUMERIC as decimal; the tool changes the column in every plan. *)
Definition numeric_file : string := "CREATE TABLE `t` (`id` INT(10) NOT NULL, `price` NUMERIC(10,2) NOT NULL, PRIMARY KEY (`id`));".
Definition numeric_server : string := "CREATE TABLE `t` (`id` int(10) NOT NULL, `price` decimal(10,2) NOT NULL, PRIMARY KEY (`id`));".
Theorem C59_refuted : forall FO : FloatOracle, exists t t', create_parse numeric_file = Ok (Some t, "") /\ create_parse numeric_server = Ok (Some t', "")
  /\ exists a, diff_split t' t = Ok (mkSplit None (Some a) None).
Proof.
  intros FO. found_some (create_parse numeric_file). found_some (create_parse numeric_server).
  split; [by_vm|]. split; [by_vm|]. eexists. lazy. reflexivity.
Qed.
(** DEC, FIXED and REAL are refused. *)
Theorem C59_refuted_unknown : Forall (fun w => exists m, create_parse ("CREATE TABLE `t` (`price` " ++ w ++ "(10,2) NOT NULL);") = Raise (ValueError m)) ["DEC"; "FIXED"; "REAL"].
Proof. repeat (apply Forall_cons || apply Forall_nil); eexists; vm_compute; reflexivity. Qed.

Print Assumptions C54_written_read_partial.
Print Assumptions C54_same_meaning_partial.
Print Assumptions C59_integer_partial.
Print Assumptions C59_boolean_partial.
Print Assumptions C59_integer_no_change_partial.
Print Assumptions C59_boolean_no_change_partial.
Print Assumptions C59_refuted.
Print Assumptions C59_refuted_unknown.
Print Assumptions C60_bare_partial.
