(** Lemmas behind the exact forms of C28 and C29: when the literals of a statement do not read back. *)
From Verif Require Import SqlStmt.
From Verif Require Export SqlFacts.

(** ** The literal of an id: the text as it is *)
Fixpoint verbatimb (s : string) : bool :=
  match s with
  | EmptyString => true
  | String c s' =>
      if Ascii.eqb c squote then false
      else if Ascii.eqb c backslash
           then match s' with
                | String d s'' => (Ascii.eqb d "%" || Ascii.eqb d "_") && verbatimb s''
                | EmptyString => false
                end
           else verbatimb s'
  end.

Lemma string_ind2 (P : string -> Prop) : (forall n, (forall s, String.length s < n -> P s)%nat -> forall s, String.length s = n -> P s) -> forall s, P s.
Proof.
  intros H. assert (G : forall n s, (String.length s < n)%nat -> P s).
  { induction n as [|n IH]; intros s L; [lia|]. apply (H (String.length s)); [|reflexivity]. intros s' L'. apply IH. lia. }
  intros s. apply (G (S (String.length s))). lia.
Qed.

Lemma ltext_verbatim : forall s a r, verbatimb s = true -> lex (LText squote a) (s ++ String squote r) = lex (LTextEnd squote (a ++ s)) r.
Proof.
  refine (string_ind2 _ _). intros n IH s L a r H. destruct s as [|c s].
  - cbn [append lex]. rewrite Ascii.eqb_refl, sapp_nil_r. reflexivity.
  - cbn [verbatimb] in H. cbn [append lex]. destruct (Ascii.eqb c squote); [discriminate|]. destruct (Ascii.eqb_spec c backslash) as [->|_].
    + destruct s as [|d s]; [discriminate|]. apply andb_true_iff in H as [Hd H]. cbn [append lex].
      rewrite IH; [|simpl in L; lia|exact H]. rewrite sapp_assoc. do 2 f_equal.
      apply orb_true_iff in Hd as [Hd|Hd]; apply Ascii.eqb_eq in Hd; subst d; reflexivity.
    + rewrite IH; [|simpl in L; lia|exact H]. rewrite snoc_app. reflexivity.
Qed.

(** Otherwise the value is shorter, if it ends at all. *)
Lemma raw_shorter : forall s a u l, lex (LText squote a) (s ++ "';") = Some (TText u :: l) ->
  (String.length u + (if verbatimb s then 0 else 1) <= String.length a + String.length s)%nat.
Proof.
  refine (string_ind2 _ _). intros n IH s L a u l E. destruct s as [|c s].
  - simpl in E. injection E as <- _. simpl. lia.
  - cbn [verbatimb]. cbn [append lex] in E. cbn [String.length] in L. destruct (Ascii.eqb c squote).
    + destruct s as [|d s]; [discriminate E|]. cbn [append lex] in E. destruct (Ascii.eqb d squote).
      * apply IH in E; [|simpl in L; lia]. unfold snoc in E. rewrite slength_app in E. simpl in E |- *. destruct (verbatimb s); lia.
      * match type of E with pre _ ?x = _ => destruct x; [|discriminate] end. injection E as <- _. simpl. lia.
    + destruct (Ascii.eqb c backslash).
      * destruct s as [|d s]; [discriminate E|]. cbn [append lex] in E. apply IH in E; [|simpl in L; lia].
        rewrite slength_app in E. cbn [String.length]. unfold unescape in E.
        destruct (Ascii.eqb_spec d "%") as [->|N1]; [cbn in E |- *; destruct (verbatimb s); lia|].
        destruct (Ascii.eqb_spec d "_") as [->|N2]; [cbn in E |- *; destruct (verbatimb s); lia|].
        cbn [orb andb]. repeat match type of E with context [Ascii.eqb d ?x] => destruct (Ascii.eqb d x) end; simpl in E; destruct (verbatimb s); lia.
      * apply IH in E; [|lia]. unfold snoc in E. rewrite slength_app in E. simpl in E |- *. destruct (verbatimb s); lia.
Qed.
Lemma raw_exact s : lex (LText squote "") (s ++ "';") = Some [TText s; TPunct ";"] <-> verbatimb s = true.
Proof.
  split.
  - intros E. apply raw_shorter in E. simpl in E. destruct (verbatimb s); [reflexivity|lia].
  - intros H. change "';" with (String squote ";"). rewrite ltext_verbatim by exact H. reflexivity.
Qed.

(** ** The literals of an UPDATE: backslashes doubled *)
Lemma text_prefix : forall s q a u l, lex (LText q a) s = Some (TText u :: l) -> exists w, u = a ++ w.
Proof.
  refine (string_ind2 _ _). intros n IH s L q a u l E. destruct s as [|c s]; [discriminate|]. cbn [lex] in E. simpl in L.
  destruct (Ascii.eqb c q).
  - destruct s as [|d s]; [injection E as <- _; exists ""; symmetry; apply sapp_nil_r|]. cbn [lex] in E. destruct (Ascii.eqb d q).
    + apply IH in E as (w & ->); [|simpl in L; lia]. exists (String d w). apply snoc_app.
    + match type of E with pre _ ?x = _ => destruct x; [|discriminate] end. injection E as <- _. exists "". symmetry. apply sapp_nil_r.
  - destruct (Ascii.eqb c backslash).
    + destruct s as [|d s]; [discriminate|]. cbn [lex] in E. apply IH in E as (w & ->); [|simpl in L; lia]. rewrite sapp_assoc. eauto.
    + apply IH in E as (w & ->); [|lia]. rewrite snoc_app. eauto.
Qed.

Definition starts_open (r : string) : Prop := exists x r', r = String x r' /\ x <> squote /\ x <> backslash.
Fixpoint quotes (k : nat) : string := match k with 0 => "" | S k => String squote (quotes k) end.
Lemma quotes_snoc k s : quotes k ++ String squote s = quotes (S k) ++ s.
Proof. induction k as [|k IH]; [reflexivity|]. simpl. rewrite IH. reflexivity. Qed.
Lemma end_open a r u l : starts_open r -> lex (LTextEnd squote a) r = Some (TText u :: l) -> u = a.
Proof.
  intros (x & r' & -> & Nq & _) E. cbn [lex] in E. destruct (Ascii.eqb_spec x squote); [contradiction|].
  match type of E with pre _ ?x = _ => destruct x; [|discriminate] end. injection E as <- _. reflexivity.
Qed.
Lemma end_other a d s u l : d <> squote -> lex (LTextEnd squote a) (String d s) = Some (TText u :: l) -> u = a.
Proof.
  intros N E. cbn [lex] in E. destruct (Ascii.eqb_spec d squote); [contradiction|].
  match type of E with pre _ ?x = _ => destruct x; [|discriminate] end. injection E as <- _. reflexivity.
Qed.
Lemma leak a r u l : starts_open r -> lex (LText squote a) r = Some (TText u :: l) -> exists x w, x <> squote /\ x <> backslash /\ u = a ++ String x w.
Proof.
  intros (x & r' & -> & Nq & Nb) E. cbn [lex] in E. destruct (Ascii.eqb_spec x squote); [contradiction|].
  destruct (Ascii.eqb_spec x backslash); [contradiction|]. apply text_prefix in E as (w & ->). exists x, w. rewrite snoc_app. auto.
Qed.
Lemma app_len a b : a = a ++ b -> b = "".
Proof. induction a as [|c a IH]; simpl; [auto|]. intros [= E]. auto. Qed.

Notation enc := (replace1 backslash "\\").
Lemma enc_cons c s : c <> backslash -> enc (String c s) = String c (enc s).
Proof. intros N. cbn [replace1]. destruct (Ascii.eqb_spec c backslash); [contradiction|reflexivity]. Qed.
Lemma enc_head s r d t : enc s ++ String squote r = String d t -> d = squote -> s = "" /\ r = t \/ exists s', s = String squote s' /\ t = enc s' ++ String squote r.
Proof.
  intros E ->. destruct s as [|c s]; [injection E as <-; auto|]. right. destruct (Ascii.eqb_spec c backslash) as [->|N]; [discriminate|].
  rewrite enc_cons in E by assumption. injection E as -> <-. eauto.
Qed.

Lemma debt : forall s k a r u l, starts_open r -> lex (LText squote a) (enc s ++ String squote r) = Some (TText u :: l) ->
  u <> a ++ quotes (S k) ++ s.
Proof.
  refine (string_ind2 _ _). intros n IH s L k a r u l O E U. destruct s as [|c s].
  - apply end_open in E; [|exact O]. rewrite E in U. apply app_len in U. discriminate.
  - destruct (Ascii.eqb_spec c backslash) as [->|Nb].
    + change (lex (LText squote a) (enc (String backslash s) ++ String squote r)) with (lex (LText squote (a ++ "\")) (enc s ++ String squote r)) in E.
      apply text_prefix in E as (w & ->). rewrite sapp_assoc in U. apply sapp_inj_l in U. discriminate.
    + rewrite enc_cons in E by assumption. cbn [append lex] in E. destruct (Ascii.eqb_spec c squote) as [->|Nq].
      * destruct (enc s ++ String squote r) as [|d t] eqn:Et; [destruct (enc s); discriminate|].
        destruct (Ascii.eqb_spec d squote) as [->|Nd].
        -- cbn [lex] in E. rewrite Ascii.eqb_refl in E. destruct (enc_head s r squote t Et eq_refl) as [[-> ->]|(s' & -> & ->)].
           ++ apply leak in E as (x & w & Nx & _ & ->); [|exact O]. unfold snoc in U. rewrite sapp_assoc in U. apply sapp_inj_l in U.
              rewrite quotes_snoc in U. injection U as U _. contradiction.
           ++ apply (IH s') with (k := S k) in E; [|simpl in L; lia|exact O]. apply E. rewrite U. rewrite snoc_app. f_equal.
              cbn [quotes append]. do 2 f_equal. rewrite !quotes_snoc. reflexivity.
        -- apply end_other in E; [|exact Nd]. rewrite E in U. apply app_len in U. discriminate.
      * destruct (Ascii.eqb_spec c backslash); [contradiction|]. apply text_prefix in E as (w & ->). rewrite snoc_app in U. apply sapp_inj_l in U.
        injection U as U _. contradiction.
Qed.
Lemma update_literal : forall s a r u l, starts_open r -> lex (LText squote a) (enc s ++ String squote r) = Some (TText u :: l) ->
  u = a ++ s -> has_char squote s = false.
Proof.
  induction s as [|c s IH]; intros a r u l O E U; [reflexivity|]. unfold has_char. cbn [sexists].
  destruct (Ascii.eqb_spec c backslash) as [->|Nb].
  - change (lex (LText squote a) (enc (String backslash s) ++ String squote r)) with (lex (LText squote (a ++ "\")) (enc s ++ String squote r)) in E.
    cbn [orb]. change (Ascii.eqb squote "\") with false. apply (IH _ r u l O E). rewrite U, sapp_assoc. reflexivity.
  - rewrite enc_cons in E by assumption. cbn [append lex] in E. destruct (Ascii.eqb_spec c squote) as [->|Nq].
    + exfalso. destruct (enc s ++ String squote r) as [|d t] eqn:Et; [destruct (enc s); discriminate|].
      destruct (Ascii.eqb_spec d squote) as [->|Nd].
      * cbn [lex] in E. rewrite Ascii.eqb_refl in E. destruct (enc_head s r squote t Et eq_refl) as [[-> ->]|(s' & -> & ->)].
        -- apply leak in E as (x & w & _ & _ & ->); [|exact O]. unfold snoc in U. rewrite sapp_assoc in U. apply sapp_inj_l in U. discriminate.
        -- apply (debt s' 0) in E; [|exact O]. apply E. rewrite U, snoc_app. reflexivity.
      * apply end_other in E; [|exact Nd]. rewrite E in U. apply app_len in U. discriminate.
    + destruct (Ascii.eqb_spec c backslash); [contradiction|]. rewrite Ascii.eqb_sym. destruct (Ascii.eqb_spec c squote); [contradiction|].
      apply (IH _ r u l O E). rewrite U, snoc_app. reflexivity.
Qed.

(** One assignment of an UPDATE and what follows. *)
Lemma pre_inj a o l : pre a o = Some (a +++ l) -> o = Some l.
Proof. destruct o as [x|]; simpl; [|discriminate]. intros [= E]. apply app_inv_head in E. congruence. Qed.
Lemma update_step c v r ts : good_name c = true -> starts_open r -> breaks r = true ->
  lex LStart ((bq c ++ "=" ++ update_value v) ++ r) = Some (([TName c; TPunct "="] +++ value_tokens v) +++ ts) ->
  has_char squote (rval_str v) = false /\ lex LStart r = Some ts.
Proof.
  intros G O B E. assert (Q : has_char squote (rval_str v) = false).
  { rewrite !sapp_assoc, (soft_name c G) in E by reflexivity. rewrite <- app_assoc in E. cbn [app] in E.
    change (TName c :: TPunct "=" :: value_tokens v +++ ts) with ([TName c] +++ (TPunct "=" :: value_tokens v +++ ts)) in E.
    apply pre_inj in E. change (lex LStart ("=" ++ update_value v ++ r)) with (pre [TPunct "="] (lex LStart (update_value v ++ r))) in E.
    change (TPunct "=" :: value_tokens v +++ ts) with ([TPunct "="] +++ (value_tokens v +++ ts)) in E. apply pre_inj in E.
    assert (V : v = RNone \/ update_value v = "'" ++ enc (rval_str v) ++ "'" /\ value_tokens v = [TText (rval_str v)]) by (destruct v; auto).
    destruct V as [->|[V1 V2]]; [reflexivity|]. rewrite V1, V2, !sapp_assoc in E.
    change (lex (LText squote "") (enc (rval_str v) ++ String squote r) = Some (TText (rval_str v) :: ts)) in E.
    apply (update_literal _ "" r _ _ O E). reflexivity. }
  split; [exact Q|]. assert (S1 : soft (bq c ++ "=" ++ update_value v) ([TName c; TPunct "="] +++ value_tokens v)).
  { change ([TName c; TPunct "="] +++ value_tokens v) with ([TName c] +++ ([TPunct "="] +++ value_tokens v)).
    apply soft_soft_app; [apply soft_name, G|reflexivity|]. apply (hard_soft_app "=" _ [TPunct "="]); [|apply soft_update_value, Q].
    intros x. reflexivity. }
  rewrite S1 in E by exact B. apply pre_inj in E. exact E.
Qed.
Lemma update_sets R : starts_open R -> breaks R = true -> forall l T, (forall c v, In (c, v) l -> good_name c = true) ->
  lex LStart (join ", " (map (fun p => bq (fst p) ++ "=" ++ update_value (snd p)) l) ++ R)
    = Some (commas (map (fun p => [TName (fst p); TPunct "="] +++ value_tokens (snd p)) l) +++ T) ->
  (forall c v, In (c, v) l -> has_char squote (rval_str v) = false) /\ lex LStart R = Some T.
Proof.
  intros O B. induction l as [|[c v] l IH]; intros T G E; [split; [intros ? ? []|exact E]|]. destruct l as [|p l].
  - cbn [map join commas fst snd] in E. apply update_step in E as [Q E]; auto; [|apply (G c v); left; reflexivity].
    split; [|exact E]. intros c' v' [[= <- <-]|[]]. exact Q.
  - set (F := fun p : string * rval => bq (fst p) ++ "=" ++ update_value (snd p)) in *.
    set (H := fun p : string * rval => [TName (fst p); TPunct "="] +++ value_tokens (snd p)) in *.
    change (join ", " (map F ((c, v) :: p :: l))) with (F (c, v) ++ ", " ++ join ", " (map F (p :: l))) in E.
    change (commas (map H ((c, v) :: p :: l))) with (H (c, v) +++ TPunct "," :: commas (map H (p :: l))) in E.
    unfold F at 1, H at 1 in E. rewrite sapp_assoc, <- app_assoc in E. cbn [fst snd] in E.
    apply update_step in E as [Q E]; [|apply (G c v); left; reflexivity|eexists _, _; split; [reflexivity|split; discriminate]|reflexivity].
    rewrite sapp_assoc in E. change (lex LStart (", " ++ join ", " (map F (p :: l)) ++ R)) with (pre [TPunct ","] (lex LStart (join ", " (map F (p :: l)) ++ R))) in E.
    change ((TPunct "," :: commas (map H (p :: l))) +++ T) with ([TPunct ","] +++ (commas (map H (p :: l)) +++ T)) in E. apply pre_inj in E.
    apply IH in E as [Qs E]; [|intros c' v' I; apply (G c' v'); right; exact I]. split; [|exact E].
    intros c' v' [[= <- <-]|I]; [exact Q|apply (Qs c' v' I)].
Qed.

Lemma where_exact id : lex LStart (" WHERE id='" ++ id ++ "';") = Some (where_id id) <-> verbatimb id = true.
Proof.
  rewrite <- raw_exact. unfold where_id.
  change (lex LStart (" WHERE id='" ++ id ++ "';")) with (pre [TWord "WHERE"] (pre [TWord "id"] (pre [TPunct "="] (lex (LText squote "") (id ++ "';"))))).
  change [TWord "WHERE"; TWord "id"; TPunct "="; TText id; TPunct ";"] with ([TWord "WHERE"] +++ ([TWord "id"] +++ ([TPunct "="] +++ [TText id; TPunct ";"]))).
  split; [intros E; apply pre_inj, pre_inj, pre_inj in E; exact E|intros ->; reflexivity].
Qed.

Lemma delete_exact t id : good_name t = true ->
  tokens (op_str (ORowDelete t id)) = Some (op_tokens (ORowDelete t id)) <-> verbatimb id = true.
Proof.
  intros G. rewrite <- where_exact. cbn [op_str op_tokens]. unfold delete_str, tokens.
  change (lex LStart ("DELETE FROM " ++ bq t ++ " WHERE id='" ++ id ++ "';"))
    with (pre [TWord "DELETE"] (pre [TWord "FROM"] (lex LStart (bq t ++ " WHERE id='" ++ id ++ "';")))).
  rewrite (soft_name t G) by reflexivity. split.
  - intros E. change ([TWord "DELETE"; TWord "FROM"; TName t] +++ where_id id) with ([TWord "DELETE"] +++ ([TWord "FROM"] +++ ([TName t] +++ where_id id))) in E.
    apply pre_inj, pre_inj, pre_inj in E. exact E.
  - intros ->. reflexivity.
Qed.

Lemma update_exact t d v : good_name t = true -> (forall c, In c (dkeys d) -> good_name c = true) -> dget "id" d = Some v ->
  tokens (op_str (ORowUpdate t d)) = Some (op_tokens (ORowUpdate t d)) <->
  (forall c x, In (c, x) d -> c <> "id" -> has_char squote (rval_str x) = false) /\ verbatimb (rval_str v) = true.
Proof.
  intros G Gd D. rewrite <- where_exact. cbn [op_str op_tokens]. unfold update_str, row_id_text, tokens. rewrite D. fold (update_set d).
  set (F := fun p : string * rval => bq (fst p) ++ "=" ++ update_value (snd p)).
  set (H := fun p : string * rval => [TName (fst p); TPunct "="] +++ value_tokens (snd p)).
  set (R := " WHERE id='" ++ rval_str v ++ "';").
  change (lex LStart ("UPDATE " ++ bq t ++ " SET " ++ join ", " (map F (update_set d)) ++ R))
    with (pre [TWord "UPDATE"] (lex LStart (bq t ++ " SET " ++ join ", " (map F (update_set d)) ++ R))).
  rewrite (soft_name t G) by reflexivity.
  change (lex LStart (" SET " ++ join ", " (map F (update_set d)) ++ R)) with (pre [TWord "SET"] (lex LStart (join ", " (map F (update_set d)) ++ R))).
  assert (Gs : forall c x, In (c, x) (update_set d) -> good_name c = true).
  { intros c x I. apply filter_In in I as [I _]. apply Gd. eapply in_dkeys; eauto. }
  split.
  - intros E. change ([TWord "UPDATE"; TName t; TWord "SET"] +++ commas (map H (update_set d)) +++ where_id (rval_str v))
      with ([TWord "UPDATE"] +++ ([TName t] +++ ([TWord "SET"] +++ (commas (map H (update_set d)) +++ where_id (rval_str v))))) in E.
    apply pre_inj, pre_inj, pre_inj in E.
    apply update_sets in E as [Q E]; [|eexists _, _; split; [reflexivity|split; discriminate]|reflexivity|exact Gs].
    split; [|exact E]. intros c x I N. apply (Q c x). apply filter_In. split; [exact I|]. cbn [fst].
    destruct (String.eqb_spec c "id"); [contradiction|reflexivity].
  - intros [Q W].
    assert (S1 : soft (join ", " (map F (update_set d))) (commas (map H (update_set d)))).
    { apply map_commas_pairs; [intros x; reflexivity|reflexivity|]. intros [c x] I. unfold F, H. cbn [fst snd].
      pose proof I as I'. apply filter_In in I' as [I' N]. cbn [fst] in N. apply negb_true_iff, String.eqb_neq in N.
      apply (soft_soft_app (bq c) _ [TName c]); [apply soft_name, (Gs c x I)|reflexivity|].
      apply (hard_soft_app "=" _ [TPunct "="]); [intros y; reflexivity|]. apply soft_update_value, (Q c x I' N). }
    rewrite S1 by reflexivity. rewrite W. reflexivity.
Qed.
