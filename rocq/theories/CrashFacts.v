(** Which exceptions reading a source can end with. *)
From Verif Require Import Commands Reader ReadMore FileFacts SpecCrash SpecRows PropsExact.

Local Opaque max_turns max_statements.

Definition chars_in (t s : string) : Prop := forall c, is_space c = false -> has_char c t = true -> has_char c s = true.
Lemma chars_refl s : chars_in s s.
Proof. intros c _ H. exact H. Qed.
Lemma chars_trans a b c : chars_in a b -> chars_in b c -> chars_in a c.
Proof. intros H K d S X. apply K, H; assumption. Qed.
Lemma has_app c a b : has_char c (a ++ b) = has_char c a || has_char c b.
Proof. unfold has_char. induction a as [|d a IH]; [reflexivity|]. cbn [String.append sexists]. rewrite IH, orb_assoc. reflexivity. Qed.
Lemma has_cons c d s : has_char c (String d s) = Ascii.eqb c d || has_char c s.
Proof. reflexivity. Qed.
Lemma chars_suffix t s : suffix t s -> chars_in t s.
Proof. intros [p ->] c _ H. rewrite has_app, H. apply orb_true_r. Qed.
Lemma chars_collapse s : forall w, chars_in (collapse_ws_from w s) s.
Proof.
  induction s as [|d s IH]; intros w c S H; [exact H|]. cbn [collapse_ws_from] in H. rewrite has_cons.
  assert (G : forall w', has_char c (collapse_ws_from w' s) = true -> Ascii.eqb c d || has_char c s = true) by (intros w' X; rewrite (IH w' c S X); apply orb_true_r).
  destruct (is_space d) eqn:D.
  - destruct w; [apply (G _ H)|]. rewrite has_cons in H. apply orb_true_iff in H as [H|H]; [|apply (G _ H)]. apply Ascii.eqb_eq in H. subst c. discriminate S.
  - rewrite has_cons in H. apply orb_true_iff in H as [H|H]; [rewrite H; reflexivity|apply (G _ H)].
Qed.
Lemma chars_lstrip p s : chars_in (lstrip_by p s) s.
Proof. apply chars_suffix, lstrip_suffix. Qed.
Lemma chars_rstrip p s : chars_in (rstrip_by p s) s.
Proof.
  induction s as [|d s IH]; intros c S H; [exact H|]. cbn [rstrip_by] in H. rewrite has_cons.
  destruct (rstrip_by p s) as [|x r] eqn:E.
  - destruct (p d); [discriminate H|]. rewrite has_cons in H. apply orb_true_iff in H as [->|H]; [reflexivity|discriminate H].
  - rewrite has_cons in H. apply orb_true_iff in H as [->|H]; [reflexivity|]. rewrite (IH c S H). apply orb_true_r.
Qed.
Lemma chars_strip s : chars_in (strip s) s.
Proof. apply chars_trans with (rstrip_by is_space s); [apply chars_lstrip|apply chars_rstrip]. Qed.
Lemma chars_normalize s : chars_in (normalize s) s.
Proof. apply chars_trans with (collapse_ws s); [apply chars_strip|apply chars_collapse]. Qed.
Lemma chars_dashes s : forall b, chars_in (drop_dashes_from b s) s.
Proof.
  induction s as [|d s IH]; intros b c S H; [destruct b; exact H|]. rewrite has_cons. cbn [drop_dashes_from] in H.
  assert (G : forall b', has_char c (drop_dashes_from b' s) = true -> Ascii.eqb c d || has_char c s = true) by (intros b' X; rewrite (IH b' c S X); apply orb_true_r).
  assert (K : forall b', has_char c (String d (drop_dashes_from b' s)) = true -> Ascii.eqb c d || has_char c s = true).
  { intros b' X. rewrite has_cons in X. apply orb_true_iff in X as [->|X]; [reflexivity|exact (G _ X)]. }
  destruct b; [destruct (Ascii.eqb d newline)|destruct (_ && _)]; eauto.
Qed.
Lemma opt_bquote_app s : fst (opt_bquote s) ++ snd (opt_bquote s) = s.
Proof. destruct s as [|c s]; [reflexivity|]. unfold opt_bquote. destruct (Ascii.eqb_spec c bquote) as [->|]; reflexivity. Qed.
Lemma prefix_length_chars s g n : prefix_length s = Some (g, n) -> chars_in g s.
Proof.
  unfold prefix_length. destruct (span is_space s) as [a s1] eqn:E1. pose proof (opt_bquote_app s1) as E2. destruct (opt_bquote s1) as [b s2]. cbn [fst snd] in E2.
  destruct (span is_word s2) as [w s3] eqn:E3. pose proof (opt_bquote_app s3) as E4. destruct (is_empty w); [discriminate|]. destruct (opt_bquote s3) as [e s4]. cbn [fst snd] in E4.
  apply span_suffix in E1, E3. intros H. assert (G : g = a ++ b ++ w ++ e).
  { destruct s4 as [|x s5]; [discriminate|]. destruct x as [[] [] [] [] [] [] [] []]; try discriminate. destruct (span is_digit s5) as [d s6]. destruct s6 as [|y s7]; [discriminate|].
    destruct y as [[] [] [] [] [] [] [] []]; try discriminate. destruct (is_empty d); [discriminate|]. injection H as <- _. reflexivity. }
  subst. intros c _ K. rewrite !has_app in *. destruct (has_char c a), (has_char c b), (has_char c w), (has_char c e); cbn in *; try reflexivity; discriminate.
Qed.
Lemma chars_lengths s : forall n, chars_in (drop_lengths_from n s) s.
Proof.
  induction s as [|d s IH]; intros n c S H; [destruct n; exact H|]. rewrite has_cons. cbn [drop_lengths_from] in H.
  assert (G : forall b', has_char c (drop_lengths_from b' s) = true -> Ascii.eqb c d || has_char c s = true) by (intros b' X; rewrite (IH b' c S X); apply orb_true_r).
  destruct n; [|exact (G _ H)].
  assert (K : has_char c (String d (drop_lengths_from 0 s)) = true -> Ascii.eqb c d || has_char c s = true).
  { intros X. rewrite has_cons in X. apply orb_true_iff in X as [->|X]; [reflexivity|exact (G _ X)]. }
  destruct (_ || _); [|exact (K H)]. destruct (prefix_length s) as [[g m]|] eqn:P; [|exact (K H)].
  rewrite has_cons, has_app in H. apply orb_true_iff in H as [->|H]; [reflexivity|]. apply orb_true_iff in H as [H|H]; [|exact (G _ H)].
  rewrite (prefix_length_chars _ _ _ P c S H). apply orb_true_r.
Qed.

(** ** Rules *)

Definition quoted (s : string) : Prop := has_char squote s = true \/ has_char bquote s = true.
(** What may be raised at a text: a ValueError, or a SyntaxError if it has a quote. *)
Definition mild (s : string) (e : exn) : Prop :=
  (exists m, e = ValueError m) \/ (exists m, e = SyntaxError ("Opening quote without closing quote at " ++ m)) /\ quoted s.
Lemma quoted_chars t s : chars_in t s -> quoted t -> quoted s.
Proof. intros C [H|H]; [left|right]; apply C; auto. Qed.
Lemma mild_chars t s e : chars_in t s -> mild t e -> mild s e.
Proof. intros C [H|[H Q]]; [left; exact H|right; split; [exact H|exact (quoted_chars _ _ C Q)]]. Qed.

Lemma delim_open q sep e s : forall has cur vals last a b, delim q sep e has false cur vals last s = (true, a, b) -> has_char q s = true.
Proof.
  induction s as [|c s IH]; intros has cur vals last a b H; cbn [delim] in H; [discriminate H|]. rewrite has_cons.
  destruct (Ascii.eqb_spec c q) as [->|N]; [rewrite Ascii.eqb_refl; reflexivity|]. destruct (match match_lit e (String c s) with Some _ => true | None => false end); [discriminate H|].
  destruct (_ || _); rewrite (IH _ _ _ _ _ _ H); apply orb_true_r.
Qed.

Section Mild.
  Context {C : Type}.
  Definition mild_class (c : pclass C) : Prop := forall s e, c s = Raise e -> mild s e.
  Definition mild_rule (r : rule C) : Prop :=
    match r with RDel _ _ q _ => q = squote \/ q = bquote | RKids _ cs _ => Forall mild_class cs | _ => True end.

  Lemma best_child_mild classes : Forall mild_class classes -> forall s b e, best_child classes s b = Raise e -> mild s e.
  Proof.
    intros F. induction F as [|c cs M F IH]; intros s b e H; cbn [best_child] in H; [discriminate|].
    destruct (c s) as [[[m|] r]|x] eqn:E; cbn [bind] in H; [eapply IH; exact H|eapply IH; exact H|]. injection H as <-. exact (M _ _ E).
  Qed.
  Lemma kids_mild classes : Forall steady classes -> Forall mild_class classes -> forall n s ms e, neat s = true -> kids n classes s ms = Raise e -> mild s e.
  Proof.
    intros St M. induction n as [|n IH]; intros s ms e T H; cbn [kids] in H; destruct (is_empty s); try discriminate.
    - injection H as <-. left. eauto.
    - destruct (best_child classes s None) as [[[m r]|]|x] eqn:B; cbn [bind] in H; [|discriminate|].
      + destruct (best_child_step classes St s None _ m r T ltac:(discriminate) B eq_refl) as [A _].
        apply (mild_chars r s); [apply chars_suffix, A|]. apply (IH _ _ _ (neat_suffix _ _ A T) H).
      + injection H as <-. exact (best_child_mild _ M _ _ _ B).
  Qed.
  Lemma run_rule_mild r next s e : steady_rule r -> mild_rule r -> neat s = true -> run_rule r next s = Raise e -> mild s e.
  Proof.
    intros St M T H. destruct r as [n l o|n re o|n sep q o|n cs o]; cbn [run_rule] in H; try discriminate.
    - destruct next as [|[n2 l2 o2| | | ] next]; try (injection H as <-; left; eauto).
      unfold delimited in H. destruct (delim q sep (lower l2) false false "" [] "" s) as [[[] vals] rest] eqn:D; cbn [bind] in H.
      + injection H as <-. right. split; [exists s; reflexivity|]. apply delim_open in D. unfold quoted. cbn [mild_rule] in M. destruct M as [Q|Q]; rewrite Q in D; [left|right]; exact D.
      + destruct vals; discriminate.
    - destruct (kids max_turns cs s []) as [x|x] eqn:K; cbn [bind] in H; [discriminate|]. injection H as <-. exact (kids_mild _ St M _ _ _ _ T K).
  Qed.
  Lemma run_rules_mild rules : Forall steady_rule rules -> Forall mild_rule rules -> forall s vals e, neat s = true -> run_rules rules s vals = Raise e -> mild s e.
  Proof.
    intros F. induction F as [|r rs Sr F IH]; intros M s vals e T H; cbn [run_rules] in H; [discriminate|]. inversion M as [|? ? Mr M']; subst.
    destruct (run_rule r rs s) as [[[v u]|]|x] eqn:R; cbn [bind] in H.
    - pose proof (run_rule_suffix r rs s v u Sr T R) as A. destruct (is_empty u); [discriminate|].
      apply (mild_chars u s); [apply chars_suffix, A|]. exact (IH M' _ _ _ (neat_suffix _ _ A T) H).
    - destruct (rule_opt r); [exact (IH M' _ _ _ T H)|discriminate].
    - injection H as <-. exact (run_rule_mild _ _ _ _ Sr Mr T R).
  Qed.
  Lemma parse_with_mild {A} rules (process : pvals C -> res A) s e : Forall steady_rule rules -> Forall mild_rule rules ->
    (forall v x, process v = Raise x -> exists m, x = ValueError m) -> parse_with rules process s = Raise e -> mild s e.
  Proof.
    intros F M P H. unfold parse_with in H. destruct (run_rules rules (normalize s) []) as [[[v|] u]|x] eqn:R; cbn [bind] in H; [|discriminate|].
    - destruct (process v) as [a|x] eqn:Q; cbn [bind] in H; [discriminate|]. injection H as <-. left. exact (P _ _ Q).
    - injection H as <-. apply (mild_chars (normalize s) s); [apply chars_normalize|]. exact (run_rules_mild _ F M _ _ _ (neat_normalize s) R).
  Qed.
End Mild.

Ltac mild_rules := repeat (apply Forall_cons; [first [exact Logic.I|left; reflexivity|right; reflexivity]|]); apply Forall_nil.
Ltac mild_classes := repeat (apply Forall_cons; [intros s e; apply parse_with_mild; [apply leaf_steady; reflexivity|mild_rules|discriminate]|]); apply Forall_nil.
Lemma definition_classes_mild : Forall mild_class definition_classes.
Proof. mild_classes. Qed.
Lemma option_class_mild : Forall mild_class [option_class].
Proof. mild_classes. Qed.
Lemma values_class_mild : Forall mild_class [values_class].
Proof. mild_classes. Qed.
Lemma create_rules_mild : Forall mild_rule create_rules.
Proof. repeat (apply Forall_cons; [first [exact Logic.I|exact definition_classes_mild|exact option_class_mild]|]). apply Forall_nil. Qed.
Lemma insert_rules_mild : Forall mild_rule insert_rules.
Proof. repeat (apply Forall_cons; [first [exact Logic.I|right; reflexivity|exact values_class_mild]|]). apply Forall_nil. Qed.

(** ** What becomes of the definitions *)

Lemma add_index_mild t i : t_indexed t = None -> t_indexed (fst (add_index t i)) = None /\ forall x, snd (add_index t i) = Some x -> exists m, x = ValueError m.
Proof. intros N. unfold add_index. destruct (dmem _ _); cbn [fst snd]; [split; [exact N|intros x [= <-]; eauto]|]. rewrite N. cbn. split; [reflexivity|discriminate]. Qed.
Lemma add_column_mild t c : t_indexed (fst (add_column t c PEnd)) = t_indexed t /\ forall x, snd (add_column t c PEnd) = Some x -> exists m, x = ValueError m.
Proof. unfold add_column. destruct (dmem _ _); cbn [fst snd]; (split; [reflexivity|]); [intros x [= <-]; eauto|discriminate]. Qed.
Lemma add_constraint_mild t k : t_indexed (fst (add_constraint t k)) = t_indexed t /\ forall x, snd (add_constraint t k) = Some x -> exists m, x = ValueError m.
Proof. unfold add_constraint. destruct (dmem _ _); cbn [fst snd]; (split; [reflexivity|]); [intros x [= <-]; eauto|discriminate]. Qed.
Definition tame {A} (P : A -> Prop) (r : res A) : Prop := match r with Ok a => P a | Raise e => exists m, e = ValueError m end.
Lemma tame_mut {A} (P : A -> Prop) (m : mut A) : P (fst m) -> (forall x, snd m = Some x -> exists t, x = ValueError t) -> tame P (of_mut m).
Proof. intros H K. unfold of_mut. destruct (snd m); [apply K; reflexivity|exact H]. Qed.
Lemma tame_bind {A B} (P : A -> Prop) (Q : B -> Prop) (r : res A) f : tame P r -> (forall a, P a -> tame Q (f a)) -> tame Q (let* a := r in f a).
Proof. intros H K. destruct r; cbn [bind]; [apply K, H|exact H]. Qed.
Lemma tame_foldM {A S} (P : S -> Prop) (f : S -> A -> res S) l : (forall s a, P s -> tame P (f s a)) -> forall s, P s -> tame P (foldM f l s).
Proof. intros H. induction l as [|a l IH]; intros s Ps; [exact Ps|]. cbn [foldM]. apply (tame_bind P); [apply H, Ps|exact IH]. Qed.
Lemma process_def_tame all t d : t_indexed t = None -> tame (fun t => t_indexed t = None) (process_def all t d).
Proof.
  assert (X : forall t i, t_indexed t = None -> tame (fun t => t_indexed t = None) (of_mut (add_index t i))).
  { intros u i N. destruct (add_index_mild u i N) as [A B]. apply tame_mut; assumption. }
  intros N. destruct d as [p|i|b k0|o]; cbn [process_def].
  - destruct (dmem _ _); [exact N|]. apply (tame_bind (fun _ => True)).
    + unfold as_definition. destruct (dget _ _); [exact Logic.I|cbn; eauto].
    + intros c _. destruct (add_column_mild t c) as [A B]. apply (tame_bind (fun t => t_indexed t = None)); [apply tame_mut; [congruence|exact B]|].
      intros t1 N1. destruct (p_primary p); [apply X, N1|exact N1].
  - destruct (dmem _ _); [exact N|apply X, N].
  - cbv zeta. set (k := if b then _ else _). destruct (dmem _ _); [exact N|]. destruct (add_constraint_mild t k) as [A B].
    apply (tame_bind (fun t => t_indexed t = None)); [apply tame_mut; [congruence|exact B]|]. intros t1 N1. destruct (b && _ && _); [apply X, N1|exact N1].
  - cbn. eauto.
Qed.
Lemma create_process_mild v e : create_process v = Raise e -> exists m, e = ValueError m.
Proof.
  unfold create_process. cbv zeta. set (t0 := mkTable _ _ _ _ _ _ _ _ _ _ _ _). set (defs := vkids "definitions" v). intros H.
  pose proof (tame_foldM (fun t => t_indexed t = None) (process_def defs) defs (fun t d => process_def_tame defs t d) t0 eq_refl) as T.
  destruct (foldM _ _ _) as [t|x]; cbn [bind] in H; [discriminate|]. injection H as <-. exact T.
Qed.

Lemma create_parse_mild s e : create_parse s = Raise e -> mild s e.
Proof.
  unfold create_parse. intros H. apply parse_with_mild in H; [|exact create_rules_steady|exact create_rules_mild|exact create_process_mild].
  apply (mild_chars _ _ _ (chars_trans _ _ _ (chars_lengths (drop_dashes s) 0) (chars_dashes s false)) H).
Qed.
Lemma insert_parse_mild s e : insert_parse s = Raise e -> mild s e.
Proof. unfold insert_parse. intros H. apply parse_with_mild in H; [exact H|exact insert_rules_steady|exact insert_rules_mild|discriminate]. Qed.

(** ** What is left of a text *)

Definition blank (s : string) : Prop := strip s = "" /\ s <> "".
Lemma neat_not_blank s : neat s = true -> ~ blank s.
Proof.
  intros T [B N]. rewrite (strip_neat _ T) in B. unfold neat in T. assert (G : forall w s, neat_from w s = true -> lstrip_by is_space s = "" -> s = "").
  { clear. intros w s. revert w. induction s as [|c s IH]; intros w T B; [reflexivity|]. cbn [neat_from lstrip_by] in *. destruct (is_space c); [|discriminate].
    apply andb_true_iff in T as [_ T]. rewrite (IH true T B) in T. discriminate T. }
  exact (N (G _ _ T B)).
Qed.
Lemma parse_rest {C A} rules (process : pvals C -> res A) s m t : Forall steady_rule rules -> parse_with rules process s = Ok (m, t) ->
  ~ blank t /\ chars_in t s.
Proof.
  intros F H. enough (X : suffix t (normalize s)).
  { split; [apply neat_not_blank, (neat_suffix _ _ X (neat_normalize s))|]. apply chars_trans with (normalize s); [apply chars_suffix, X|apply chars_normalize]. }
  unfold parse_with in H. apply bind_ok in H as ([[v|] u] & R & H).
  - apply bind_ok in H as (a & _ & [= _ <-]). exact (run_rules_suffix _ F _ _ _ _ (neat_normalize s) R).
  - injection H as _ <-. exact (run_rules_suffix _ F _ _ _ _ (neat_normalize s) R).
Qed.
Lemma create_rest s m t : create_parse s = Ok (m, t) -> ~ blank t /\ chars_in t s.
Proof.
  intros H. unfold create_parse in H. apply parse_rest in H as [A B]; [|exact create_rules_steady]. split; [exact A|].
  apply (chars_trans _ _ _ B). exact (chars_trans _ _ _ (chars_lengths (drop_dashes s) 0) (chars_dashes s false)).
Qed.
Lemma insert_rest s m t : insert_parse s = Ok (m, t) -> ~ blank t /\ chars_in t s.
Proof. intros H. exact (parse_rest _ _ _ _ _ insert_rules_steady H). Qed.
Lemma sdrop_suffix n : forall s, suffix (sdrop n s) s.
Proof. induction n as [|n IH]; intros [|c s]; cbn [sdrop]; try apply suffix_refl. apply suffix_tail, IH. Qed.
Lemma strip_not_blank s : ~ blank (strip s).
Proof. intros [B N]. rewrite strip_idem in B. exact (N B). Qed.
Lemma comment_rest_chars s : ~ blank (comment_rest s) /\ chars_in (comment_rest s) s.
Proof.
  assert (G : forall n, ~ blank (strip (sdrop n (strip s))) /\ chars_in (strip (sdrop n (strip s))) s).
  { intros n. split; [apply strip_not_blank|]. apply chars_trans with (sdrop n (strip s)); [apply chars_strip|]. apply chars_trans with (strip s); [apply chars_suffix, sdrop_suffix|apply chars_strip]. }
  unfold comment_rest. cbv zeta. destruct (_ || _).
  - destruct (sindex _ _); [apply G|]. split; [intros [_ N]; exact (N eq_refl)|intros c _ H; discriminate H].
  - destruct (sindex _ _); [apply G|]. split; [apply strip_not_blank|apply chars_strip].
Qed.

(** ** The loop *)

Lemma loop_mild n : forall file r s e, ~ blank s -> snd (read_loop n file r s) = Raise e -> mild s e.
Proof.
  induction n as [|n IH]; intros file r s e B H; cbn [read_loop] in H; destruct (is_empty s) eqn:E; cbn [snd] in H; try discriminate.
  - injection H as <-. left. eauto.
  - destruct (is_empty (strip s)) eqn:E1.
    { exfalso. apply B. split; [apply is_empty_iff, E1|intros ->; discriminate]. }
    assert (K : forall r t, ~ blank t /\ chars_in t (strip s) -> snd (read_loop n file r t) = Raise e -> mild s e).
    { intros r' t [Bt Ct] X. apply (mild_chars t); [exact (chars_trans _ _ _ Ct (chars_strip s))|]. exact (IH _ _ _ _ Bt X). }
    destruct (statement_of (strip s)).
    + exact (K _ _ (comment_rest_chars _) H).
    + destruct (create_parse (strip s)) as [[m t]|x] eqn:P; [exact (K _ _ (create_rest _ _ _ P) H)|]. cbn [snd] in H. injection H as <-.
      exact (mild_chars _ _ _ (chars_strip s) (create_parse_mild _ _ P)).
    + destruct (insert_parse (strip s)) as [[m t]|x] eqn:P; [exact (K _ _ (insert_rest _ _ _ P) H)|]. cbn [snd] in H. injection H as <-.
      exact (mild_chars _ _ _ (chars_strip s) (insert_parse_mild _ _ P)).
    + discriminate H.
Qed.
Lemma blank_loop file s : blank s -> read_sql file s = (new_reader, Raise (IndexError "string index out of range")).
Proof.
  intros [B N]. rewrite read_sql_eq. assert (L : 0 < max_statements) by (apply (lt_statements 0); lia). destruct max_statements as [|k]; [lia|]. cbn [read_loop].
  rewrite B. cbn [is_empty]. destruct s; [contradiction|reflexivity].
Qed.

Lemma white_blank s : white s <-> blank s.
Proof.
  unfold white, blank. enough (G : sforall is_space s = true <-> strip s = "") by tauto. unfold strip, strip_by.
  assert (L : forall u, lstrip_by is_space u = "" <-> sforall is_space u = true).
  { clear. induction u as [|c u IH]; cbn [lstrip_by sforall]; [tauto|]. destruct (is_space c); cbn [andb]; [exact IH|split; discriminate]. }
  rewrite L. clear L. induction s as [|c s IH]; cbn [rstrip_by sforall]; [tauto|]. destruct (rstrip_by is_space s) as [|d r] eqn:E.
  - rewrite andb_true_iff, IH. destruct (is_space c) eqn:S; cbn [sforall]; rewrite ?S; cbn; intuition.
  - cbn [sforall] in IH |- *. rewrite andb_true_iff, IH. rewrite !andb_true_iff. tauto.
Qed.

(** ** Rows *)

Definition harmless (w : rows_def) : Prop := forall t, snd (add_rows t w) = None.
Lemma take_groups_even n l : n <> 0 -> forall h rows errs warns, take_groups n l h = (rows, errs, warns) -> Forall (fun r => List.length r = n) rows.
Proof.
  intros N. induction l as [|[vals comma] l IH]; intros h rows errs warns E; cbn [take_groups] in E; [injection E as <- _ _; constructor|].
  destruct n as [|k]; [contradiction|]. cbn [Nat.eqb negb andb] in E. destruct (Nat.eqb (List.length vals) (Datatypes.S k)) eqn:Q; cbn [negb] in E.
  - destruct (take_groups _ l comma) as [[a b] c] eqn:G. injection E as <- _ _. constructor; [apply Nat.eqb_eq, Q|exact (IH _ _ _ _ G)].
  - destruct (take_groups _ l h) as [[a b] c] eqn:G. injection E as <- _ _. exact (IH _ _ _ _ G).
Qed.
Lemma in_first (c : string) l : In c l -> exists l1 l2, l = l1 +++ c :: l2 /\ ~ In c l1.
Proof.
  induction l as [|d l IH]; intros I; [destruct I|]. destruct (string_dec d c) as [->|N]; [exists [], l; split; [reflexivity|intros []]|].
  destruct I as [->|I]; [contradiction|]. destruct (IH I) as (l1 & l2 & -> & K). exists (d :: l1), l2. split; [reflexivity|]. intros [X|X]; auto.
Qed.
Lemma even_harmless w : r_explicit w = List.length (r_columns w) -> Forall (fun r => List.length r = r_explicit w) (r_raw w) -> harmless w.
Proof.
  intros X F t. destruct (C25_exact t w) as [[E _]|(_ & N & I & vals & J & K)]; [exact E|]. exfalso.
  unfold insert_columns in *. destruct (r_explicit w) as [|k] eqn:Z; [contradiction|].
  destruct (in_first _ _ I) as (l1 & l2 & E & O). rewrite Forall_forall in F. specialize (F _ J). rewrite E, app_length in X. cbn [List.length] in X.
  destruct (nth_error vals (List.length l1)) as [v|] eqn:Nv; [|apply nth_error_None in Nv; lia].
  apply nth_error_split in Nv as (v1 & v2 & -> & Lv). apply (K v). exists l1, l2, v1, v2. auto.
Qed.
Lemma insert_harmless s w u : insert_parse s = Ok (Some w, u) -> harmless w.
Proof.
  intros E. pose proof (insert_listed _ _ _ E) as L. unfold insert_parse in E. apply parse_with_run in E as (v & s' & u' & R & [= <-]).
  unfold insert_process in *. destruct (take_groups _ _ _) as [[rows errs] warns] eqn:G. cbn [r_explicit] in L. apply even_harmless; cbn [r_explicit r_columns r_raw]; [reflexivity|].
  destruct L as [L|[L _]]; [exact (take_groups_even _ _ L _ _ _ _ G)|]. cbn [r_raw] in L. rewrite L.  constructor.
Qed.
Lemma no_rows_harmless : harmless no_rows.
Proof. apply even_harmless; [reflexivity|constructor]. Qed.

Definition all_harmless (D : dict string (list rows_def)) : Prop := forall n ws r, In (n, ws) D -> In r ws -> harmless r.
Lemma harmless_push d w : harmless w -> all_harmless d -> all_harmless (dpush (r_table w) w d).
Proof.
  intros L A n ws r I J. unfold dpush in I. apply dset_in in I as [[-> ->]|I]; [|eapply A; eauto].
  apply in_app_or in J as [J|[<-|[]]]; [|exact L]. destruct (dget (r_table w) d) as [l|] eqn:E; [|destruct J]. apply dget_in in E. eapply A; eauto.
Qed.
Lemma harmless_loop n : forall file r data, all_harmless (rd_rows r) -> all_harmless (rd_rows (fst (read_loop n file r data))).
Proof.
  induction n as [|n IH]; intros file r data B; cbn [read_loop]; destruct (is_empty data); [assumption..|].
  destruct (is_empty (strip data)); [assumption|].
  destruct (statement_of (strip data)); [apply IH; assumption| | |assumption].
  - destruct (create_parse (strip data)) as [[m rest]|e] eqn:E; [|assumption]. apply IH. exact B.
  - destruct (insert_parse (strip data)) as [[m rest]|e] eqn:E; [|assumption]. apply IH. cbn [put_rows rd_rows].
    apply harmless_push; [|exact B]. destruct m as [w|]; [eapply insert_harmless; eauto|exact no_rows_harmless].
Qed.
Lemma reader_harmless src : all_harmless (rd_rows (reader_of src)).
Proof. apply harmless_loop. intros n ws r []. Qed.

(** ** Sources *)

Section Files.
  Local Opaque read_sql.
  Context {FO : FloatOracle}.

  Definition statements_of (src : source) : list rows_def := concat (dvals (rd_rows (reader_of src))).
  Lemma reads_cases srcs : forall T D E, NoDup (dkeys (T +++ src_tables srcs)) ->
    (Forall readable srcs /\ exists E', foldM read_source srcs (files_db T D E) = Ok (files_db (T +++ src_tables srcs) (fold_left pushed (concat (map statements_of srcs)) D) E'))
    \/ exists src x, In src srcs /\ snd (read_sql (fst src) (snd src)) = Raise x /\ ~ readable src /\ foldM read_source srcs (files_db T D E) = Raise x.
  Proof.
    induction srcs as [|s srcs IH]; intros T D E N; cbn [foldM]; unfold src_tables in *; cbn [map concat] in *.
    - left. rewrite app_nil_r. split; [constructor|]. exists E. reflexivity.
    - rewrite app_assoc in N. assert (N1 : NoDup (dkeys (T +++ rd_tables (reader_of s)))) by (unfold dkeys in *; rewrite map_app in N; apply NoDup_app_remove_r' in N; exact N).
      destruct (caught (snd (read_sql (fst s) (snd s)))) as [x|] eqn:Cx.
      + right. exists s, x. unfold readable. rewrite Cx. split; [left; reflexivity|].
        assert (X : snd (read_sql (fst s) (snd s)) = Raise x) by (revert Cx; destruct (snd (read_sql (fst s) (snd s))) as [a|[]]; cbn; congruence).
        split; [exact X|]. split; [discriminate|]. unfold read_source. destruct (read_sql (fst s) (snd s)) as [r e]. cbn [snd] in Cx. rewrite Cx. reflexivity.
      + rewrite (read_step_any s T D E N1 Cx). cbn [bind].
        destruct (IH _ (fold_left pushed (concat (dvals (rd_rows (reader_of s)))) D) (E +++ rd_errors (reader_of s)) N) as [(F & E' & Q)|(src & x & I & X & R & Q)].
        * left. split; [constructor; [exact Cx|exact F]|]. exists E'. rewrite Q, fold_left_app, app_assoc. reflexivity.
        * right. exists src, x. split; [right; exact I|]. auto.
  Qed.

  Lemma obj_rows_ok ws : Forall harmless ws -> forall o, exists o', foldM obj_add_rows ws o = Ok o'.
  Proof.
    induction 1 as [|w ws H F IH]; intros o; cbn [foldM]; [eauto|]. unfold obj_add_rows at 1. specialize (H (Database.to_table o)).
    destruct (add_rows (Database.to_table o) w) as [t e]. cbn [snd] in H. subst e. cbn [bind]. apply IH.
  Qed.
  Lemma combine_cases D : forall b, (forall n ws, In (n, ws) D -> ws <> [] /\ Forall harmless ws) ->
    (exists b', foldM combine_one D b = Ok b') \/ exists n ws, In (n, ws) D /\ ~ In n (dkeys (d_tables b)) /\ foldM combine_one D b = Raise (KeyError n).
  Proof.
    induction D as [|[n ws] D IH]; intros b H; cbn [foldM]; [left; eauto|]. destruct (H n ws (or_introl eq_refl)) as [Ne F]. unfold combine_one at 1 3.
    destruct (dget n (d_tables b)) as [o|] eqn:G.
    - destruct (obj_rows_ok ws F o) as (o' & Eo). rewrite Eo. cbn [bind]. destruct (IH (set_tables b (dset n o' (d_tables b)))) as [X|(m & l & I & K & Q)]; [intros m l I; exact (H m l (or_intror I))|left; exact X|].
      right. exists m, l. split; [right; exact I|]. split; [|exact Q]. intros J. apply K. cbn [set_tables d_tables]. apply dkeys_dset_in. right. exact J.
    - right. exists n, ws. split; [left; reflexivity|]. split; [apply dget_none, G|]. destruct ws; [contradiction|reflexivity].
  Qed.

  Lemma pushed_in ws : forall D n l r, In (n, l) (fold_left pushed ws D) -> In r l -> (exists l', In (n, l') D /\ In r l') \/ In r ws.
  Proof.
    induction ws as [|w ws IH]; intros D n l r I J; cbn [fold_left] in I; [left; eauto|]. destruct (IH _ _ _ _ I J) as [(l' & A & B)|A]; [|right; right; exact A].
    unfold pushed, dpush in A. apply dset_in in A as [[-> ->]|A]; [|left; eauto]. apply in_app_or in B as [B|[<-|[]]]; [|right; left; reflexivity].
    destruct (dget (r_table w) D) as [l0|] eqn:E; [|destruct B]. apply dget_in in E. left; eauto.
  Qed.
  Lemma pushed_keys ws : forall D n, In n (dkeys (fold_left pushed ws D)) <-> In n (dkeys D) \/ exists w, In w ws /\ r_table w = n.
  Proof.
    induction ws as [|w ws IH]; intros D n; cbn [fold_left]; [split; [auto|intros [H|(w & [] & _)]; exact H]|]. rewrite IH. unfold pushed, dpush. rewrite dkeys_dset_in. split.
    - intros [[->|H]|(v & I & E)]; [right; exists w; split; [left; reflexivity|reflexivity]|left; exact H|right; exists v; split; [right; exact I|exact E]].
    - intros [H|(v & [->|I] & E)]; [left; right; exact H|left; left; symmetry; exact E|right; exists v; auto].
  Qed.
  Lemma pushed_full ws : forall D, (forall n l, In (n, l) D -> l <> []) -> forall n l, In (n, l) (fold_left pushed ws D) -> l <> [].
  Proof.
    induction ws as [|w ws IH]; intros D H n l I; cbn [fold_left] in I; [eauto|]. apply (IH _) in I; [exact I|]. clear -H. intros n l J. unfold pushed, dpush in J.
    apply dset_in in J as [[-> ->]|J]; [|eauto]. intros X. apply app_eq_nil in X as [_ X]. discriminate X.
  Qed.
  Lemma inserts_statement src n : inserts_into src n <-> exists w, In w (statements_of src) /\ r_table w = n.
  Proof.
    unfold inserts_into, statements_of. destruct (reader_sorted src) as [_ S]. split.
    - intros I. unfold dkeys in I. apply in_map_iff in I as ([m ws] & Em & I). cbn [fst] in Em. subst m. destruct (S n ws I) as [Ne F]. destruct ws as [|w ws]; [contradiction|].
      exists w. split; [|inversion F; assumption]. apply in_concat. exists (w :: ws). split; [|left; reflexivity]. unfold dvals. apply in_map_iff. exists (n, w :: ws). auto.
    - intros (w & I & E). apply in_concat in I as (l & J & I). apply dvals_in in J as (m & J). destruct (S m l J) as [_ F]. rewrite Forall_forall in F.
      rewrite <- E, (F w I). eapply in_dkeys; exact J.
  Qed.

  Lemma in_src_tables srcs n t : In (n, t) (src_tables srcs) <-> exists src, In src srcs /\ In (n, t) (rd_tables (reader_of src)).
  Proof.
    unfold src_tables. rewrite in_concat. split.
    - intros (l & J & I). apply in_map_iff in J as (s & <- & J). eauto.
    - intros (s & J & I). exists (rd_tables (reader_of s)). split; [apply in_map_iff; eauto|exact I].
  Qed.
  Lemma defined_key srcs n : In n (dkeys (src_tables srcs)) <-> exists src, In src srcs /\ defines src n.
  Proof.
    unfold dkeys, defines. rewrite in_map_iff. split.
    - intros ([m t] & <- & I). apply in_src_tables in I as (s & J & I). exists s. split; [exact J|]. cbn [fst]. eapply in_dkeys; exact I.
    - intros (s & J & I). unfold dkeys in I. apply in_map_iff in I as ([m t] & <- & I). exists (m, t). split; [reflexivity|]. apply in_src_tables. eauto.
  Qed.

  (** What becomes of sources that define no table twice. *)
  Lemma files_cases srcs : ForallOrdPairs apart_tables srcs ->
    (exists b, file_database srcs = Ok b /\ outline (d_tables b) = map (fun p => (fst p, (t_name (snd p), t_columns (snd p)))) (src_tables srcs)
       /\ Forall readable srcs /\ forall n, ~ homeless srcs n)
    \/ (exists src x, In src srcs /\ snd (read_sql (fst src) (snd src)) = Raise x /\ ~ readable src /\ file_database srcs = Raise x)
    \/ exists n, homeless srcs n /\ file_database srcs = Raise (KeyError n).
  Proof.
    intros A. pose proof (apart_once srcs A) as N. unfold file_database. change empty_database with (files_db [] [] []).
    destruct (reads_cases srcs [] [] [] N) as [(F & E' & Q)|(src & x & I & X & R & Q)]; [|right; left; exists src, x; rewrite Q; auto].
    rewrite Q. cbn [bind app]. set (D := fold_left pushed (concat (map statements_of srcs)) []) in *.
    assert (Full : forall n ws, In (n, ws) D -> ws <> [] /\ Forall harmless ws).
    { intros n ws I. split; [exact (pushed_full _ [] (fun n l (H : In (n, l) []) => match H with end) n ws I)|]. apply Forall_forall. intros r J.
      destruct (pushed_in _ _ _ _ _ I J) as [(l & [] & _)|K]. apply in_concat in K as (l & L & K). apply in_map_iff in L as (s & <- & _). unfold statements_of in K.
      apply in_concat in K as (l & L & K). apply dvals_in in L as (m & L). exact (reader_harmless s m l r L K). }
    assert (Keys : forall n, In n (dkeys D) <-> exists src, In src srcs /\ inserts_into src n).
    { intros n. unfold D. rewrite pushed_keys. cbn [dkeys map In]. split.
      - intros [[]|(w & I & E)]. apply in_concat in I as (l & L & I). apply in_map_iff in L as (s & <- & L). exists s. split; [exact L|]. apply inserts_statement. eauto.
      - intros (s & L & I). right. apply inserts_statement in I as (w & I & E). exists w. split; [|exact E]. apply in_concat. exists (statements_of s). split; [apply in_map, L|exact I]. }
    assert (Tabs : forall n, In n (dkeys (d_tables (files_db (src_tables srcs) D E'))) <-> exists src, In src srcs /\ defines src n).
    { intros n. rewrite <- defined_key. cbn [files_db d_tables]. unfold dkeys. rewrite map_map. reflexivity. }
    assert (Home : forall n, In n (dkeys D) -> ~ In n (dkeys (d_tables (files_db (src_tables srcs) D E'))) -> homeless srcs n).
    { intros n I J. split; [apply Keys, I|]. intros s L K. apply J, Tabs. eauto. }
    destruct (combine_cases D (files_db (src_tables srcs) D E') Full) as [(b & Eb)|(n & ws & I & K & Eb)].
    - left. exists b. split; [exact Eb|]. split; [|split; [exact F|]].
      + destruct (combine_same _ _ Eb) as [O _]. rewrite O. unfold outline. cbn [files_db d_tables]. rewrite map_map. reflexivity.
      + intros n [H1 H2]. apply Keys in H1. unfold dkeys in H1. apply in_map_iff in H1 as ([m ws] & Em & I). cbn [fst] in Em. subst m. destruct (Full n ws I) as [Ne _].
        destruct ws as [|w ws]; [contradiction|]. destruct (combine_unknown (files_db (src_tables srcs) D E') n w ws D eq_refl I) as (e & Ee).
        * apply dget_none. intros J. apply Tabs in J as (s & L & J). exact (H2 s L J).
        * unfold Reader.combine in Ee. cbn [files_db d_rows] in *. congruence.
    - right. right. exists n. split; [apply Home; [eapply in_dkeys; exact I|exact K]|exact Eb].
  Qed.
End Files.
