(** Facts about the rule engine: normalised strings, suffixes, progress. *)
From Verif Require Export Reader Facts StrFacts NumFacts.

(** [t] is what is left of [s] after removing some characters at the front. *)
Definition suffix (t s : string) : Prop := exists p, s = p ++ t.

Lemma suffix_refl s : suffix s s.
Proof. exists "". reflexivity. Qed.
Lemma suffix_trans a b c : suffix a b -> suffix b c -> suffix a c.
Proof. intros [p ->] [q ->]. exists (q ++ p). rewrite sapp_assoc. reflexivity. Qed.
Lemma suffix_app p s : suffix s (p ++ s).
Proof. exists p. reflexivity. Qed.
Lemma suffix_cons c s : suffix s (String c s).
Proof. exists (String c ""). reflexivity. Qed.
Lemma suffix_nil s : suffix "" s.
Proof. exists s. rewrite sapp_nil_r. reflexivity. Qed.
Lemma suffix_length t s : suffix t s -> String.length t <= String.length s.
Proof. intros [p ->]. rewrite slength_app. lia. Qed.
Lemma suffix_tail c t s : suffix t s -> suffix t (String c s).
Proof. intros [p ->]. exists (String c p). reflexivity. Qed.

(** ** Normalised strings *)

(** Single spaces are the only white space and there is none at the end; [ws] says that the
    character before was white space. *)
Fixpoint neat_from (ws : bool) (s : string) : bool :=
  match s with
  | EmptyString => negb ws
  | String c s' =>
      if is_space c then negb ws && Ascii.eqb c " " && neat_from true s' else neat_from false s'
  end.
Definition neat (s : string) : bool := neat_from false s.

Lemma neat_weaken s : neat_from true s = true -> neat s = true.
Proof. destruct s as [|c s]; simpl; [reflexivity|]. unfold neat; simpl. destruct (is_space c); [discriminate|auto]. Qed.
Lemma neat_tail w c s : neat_from w (String c s) = true -> neat s = true.
Proof.
  simpl. destruct (is_space c).
  - rewrite !andb_true_iff. intros [_ H]. apply neat_weaken, H.
  - auto.
Qed.
Lemma neat_suffix t s : suffix t s -> neat s = true -> neat t = true.
Proof.
  intros [p ->]. unfold neat. generalize false at 1 as w. induction p as [|c p IH]; intros w.
  - simpl. destruct w; [apply neat_weaken|auto].
  - intros H. apply (IH false). exact (neat_tail _ _ _ H).
Qed.
Lemma neat_collapse s : forall w, neat_from w s = true -> collapse_ws_from w s = s.
Proof.
  induction s as [|c s IH]; intros w H; simpl in *; [reflexivity|].
  destruct (is_space c) eqn:S.
  - rewrite !andb_true_iff in H. destruct H as [[Hw E] H]. destruct w; [discriminate|].
    rewrite (IH _ H). apply Ascii.eqb_eq in E. subst. reflexivity.
  - rewrite (IH _ H). reflexivity.
Qed.
Lemma neat_rstrip s : forall w, neat_from w s = true -> rstrip_by is_space s = s.
Proof.
  induction s as [|c s IH]; intros w H; simpl in *; [reflexivity|].
  destruct (is_space c) eqn:S.
  - rewrite !andb_true_iff in H. destruct H as [[Hw E] H]. rewrite (IH _ H).
    destruct s; [discriminate|reflexivity].
  - rewrite (IH _ H). destruct s; reflexivity.
Qed.
Lemma lstrip_suffix p s : suffix (lstrip_by p s) s.
Proof.
  induction s as [|c s IH]; simpl; [apply suffix_refl|].
  destruct (p c); [apply suffix_tail, IH|apply suffix_refl].
Qed.
Lemma strip_neat s : neat s = true -> strip s = lstrip_by is_space s.
Proof. intros H. unfold strip, strip_by. rewrite (neat_rstrip _ _ H). reflexivity. Qed.
Lemma strip_suffix s : neat s = true -> suffix (strip s) s.
Proof. intros H. rewrite (strip_neat _ H). apply lstrip_suffix. Qed.
Lemma neat_strip s : neat s = true -> neat (strip s) = true.
Proof. intros H. exact (neat_suffix _ _ (strip_suffix _ H) H). Qed.
Lemma normalize_neat s : neat s = true -> normalize s = strip s.
Proof. intros H. unfold normalize, collapse_ws. rewrite (neat_collapse _ _ H). reflexivity. Qed.

(** A string that is collapsed and has no space at the end is neat. *)
Definition collapsed_end (s : string) : Prop := rstrip_by is_space s = s.
Lemma rstrip_idem p s : rstrip_by p (rstrip_by p s) = rstrip_by p s.
Proof.
  induction s as [|c s IH]; simpl; [reflexivity|].
  destruct (rstrip_by p s) as [|d r] eqn:E.
  - destruct (p c) eqn:P; simpl; [reflexivity|]. rewrite P. reflexivity.
  - simpl in *. destruct (rstrip_by p r); rewrite IH; reflexivity.
Qed.
Lemma rstrip_neat s : forall w, (w = true -> rstrip_by is_space (collapse_ws_from w s) <> "") ->
  neat_from w (rstrip_by is_space (collapse_ws_from w s)) = true.
Proof.
  induction s as [|c s IH]; intros w N; simpl in *.
  - destruct w; [exfalso; apply N; reflexivity|reflexivity].
  - destruct (is_space c) eqn:S.
    + destruct w.
      * apply IH, N.
      * simpl. specialize (IH true).
        destruct (rstrip_by is_space (collapse_ws_from true s)) as [|d r] eqn:E; [reflexivity|].
        simpl in IH |- *. apply IH. discriminate.
    + simpl. specialize (IH false). destruct (rstrip_by is_space (collapse_ws_from false s)) as [|d r] eqn:E.
      * rewrite S. simpl. rewrite S. reflexivity.
      * simpl in *. rewrite S. apply IH. discriminate.
Qed.
Lemma neat_normalize s : neat (normalize s) = true.
Proof.
  unfold normalize, strip, strip_by, collapse_ws.
  apply (neat_suffix _ _ (lstrip_suffix _ _)). apply rstrip_neat. discriminate.
Qed.
Lemma normalize_idem s : normalize (normalize s) = strip (normalize s).
Proof. apply normalize_neat, neat_normalize. Qed.
Lemma lstrip_starts p s : starts (fun c => negb (p c)) (lstrip_by p s) = true.
Proof. induction s as [|c s IH]; simpl; [reflexivity|]. destruct (p c) eqn:P; [exact IH|]. simpl. rewrite P. reflexivity. Qed.
Lemma lstrip_id p s : starts (fun c => negb (p c)) s = true -> lstrip_by p s = s.
Proof. destruct s as [|c s]; simpl; [reflexivity|]. rewrite negb_true_iff. intros ->. reflexivity. Qed.
Lemma lstrip_idem p s : lstrip_by p (lstrip_by p s) = lstrip_by p s.
Proof. apply lstrip_id, lstrip_starts. Qed.

(** ** Each rule leaves a suffix *)

Lemma match_lit_suffix l : forall s t, match_lit l s = Some t -> suffix t s /\ String.length s = String.length l + String.length t.
Proof.
  induction l as [|a l IH]; intros s t H; simpl in H.
  - injection H as <-. split; [apply suffix_refl|reflexivity].
  - destruct s as [|b s]; [discriminate|].
    destruct (Ascii.eqb (to_lower a) (to_lower b)); [|discriminate].
    destruct (IH _ _ H) as [A B]. split; [apply suffix_tail, A|simpl; lia].
Qed.
Lemma span_suffix p s a b : span p s = (a, b) -> s = a ++ b.
Proof. intros E. pose proof (span_spec p s) as H. rewrite E in H. apply H. Qed.
Lemma span_upto_suffix n p : forall s a b, span_upto n p s = (a, b) -> s = a ++ b.
Proof.
  induction n as [|n IH]; intros s a b H; simpl in H; [injection H as <- <-; reflexivity|].
  destruct s as [|c s]; [injection H as <- <-; reflexivity|].
  destruct (p c); [|injection H as <- <-; reflexivity].
  destruct (span_upto n p s) as [x y] eqn:E. injection H as <- <-. simpl. rewrite (IH _ _ _ E). reflexivity.
Qed.

Lemma cut_shorter a b s : s = a ++ b -> is_empty a = false -> suffix b s /\ String.length b < String.length s.
Proof. intros -> N. destruct a as [|c a]; [discriminate|]. split; [exists (String c a); reflexivity|]. simpl. rewrite slength_app. lia. Qed.
Lemma re_match_suffix {C} r s (v : pval C) t : re_match r s = Some (v, t) ->
  suffix t s /\ String.length t <= String.length s.
Proof.
  intros H. enough (suffix t s) as S by (split; [exact S|apply suffix_length, S]).
  destruct r as [p m|l p|l p e|x y]; simpl in H.
  - destruct (match m with None => span p s | Some n => span_upto n p s end) as [a b] eqn:E.
    assert (s = a ++ b) as Es. { destruct m; [eapply span_upto_suffix|eapply span_suffix]; exact E. }
    destruct (is_empty a); [discriminate|]. injection H as _ <-. exists a. exact Es.
  - destruct (match_lit l s) as [s'|] eqn:M; [|discriminate]. destruct (match_lit_suffix _ _ _ M) as [A _].
    destruct (span p s') as [a b] eqn:E. apply span_suffix in E. destruct (is_empty a); [discriminate|].
    injection H as _ <-. apply suffix_trans with s'; [exists a; exact E|exact A].
  - destruct (match_lit l s) as [s'|] eqn:M; [|discriminate]. destruct (match_lit_suffix _ _ _ M) as [A _].
    destruct (span p s') as [a b] eqn:E. apply span_suffix in E. destruct (is_empty a); [discriminate|].
    destruct b as [|c b]; [discriminate|]. destruct (Ascii.eqb c e); [|discriminate]. injection H as _ <-.
    apply suffix_trans with s'; [exists (a ++ String c ""); rewrite sapp_assoc; exact E|exact A].
  - destruct (match_lit x s) as [s'|] eqn:M.
    + injection H as _ <-. apply (match_lit_suffix _ _ _ M).
    + destruct (match_lit y s) as [s'|] eqn:M'; [|discriminate]. injection H as _ <-.
      apply (match_lit_suffix _ _ _ M').
Qed.

Lemma delim_suffix q sep e s : forall has in_q cur vals last a b c full,
  delim q sep e has in_q cur vals last s = (a, b, c) -> suffix last full -> suffix s full -> suffix c full.
Proof.
  induction s as [|x s IH]; intros has in_q cur vals last a b c full H L F; simpl in H.
  - injection H as _ _ <-. exact L.
  - assert (suffix s full) as F' by exact (suffix_trans _ _ _ (suffix_cons x s) F).
    destruct (Ascii.eqb x q); [destruct in_q; eapply IH; eauto|].
    destruct in_q; [eapply IH; eauto|].
    destruct (match match_lit e (String x s) with Some _ => true | None => false end).
    + injection H as _ _ <-. exact F.
    + destruct (Ascii.eqb x sep || Ascii.eqb x " "); eapply IH; eauto.
Qed.
Lemma delimited_suffix q sep e s l t : delimited q sep e s = Ok (Some (l, t)) -> suffix t s.
Proof.
  unfold delimited. intros H.
  destruct (delim q sep e false false "" [] "" s) as [[a b] c] eqn:E.
  destruct a; [discriminate|]. destruct b; [discriminate|]. injection H as _ <-.
  eapply delim_suffix; [exact E|apply suffix_nil|apply suffix_refl].
Qed.

Local Opaque max_turns.
Section Engine.
  Context {C : Type}.

  (** What makes the repetition safe: a class leaves a suffix and, when it matches, less than it got. *)
  Definition steady (c : pclass C) : Prop :=
    forall s m t, c s = Ok (m, t) -> suffix t (normalize s) /\ (m <> None -> String.length t < String.length (normalize s)).

  Lemma best_child_step classes : Forall steady classes -> forall s b r m t,
    neat s = true -> (forall m' t', b = Some (m', t') -> suffix t' s /\ String.length t' < String.length s) ->
    best_child classes s b = Ok r -> r = Some (m, t) -> suffix t s /\ String.length t < String.length s.
  Proof.
    intros F. induction F as [|c cs Sc F IH]; intros s b r m t T B H R; simpl in H.
    - injection H as <-. subst. exact (B _ _ eq_refl).
    - destruct (c s) as [[[m'|] t']|] eqn:E; simpl in H; try discriminate.
      + assert (suffix t' s /\ String.length t' < String.length s) as G.
        { destruct (Sc _ _ _ E) as [A L]. rewrite (normalize_neat _ T) in A, L.
          split; [exact (suffix_trans _ _ _ A (strip_suffix _ T))|].
          specialize (L ltac:(discriminate)). pose proof (suffix_length _ _ (strip_suffix _ T)). lia. }
        eapply IH; [exact T| |exact H|exact R].
        intros m2 t2 Eb. destruct b as [[bm bl]|].
        * destruct (Nat.ltb (String.length t') (String.length bl)).
          -- injection Eb as <- <-. exact G.
          -- injection Eb as <- <-. exact (B _ _ eq_refl).
        * injection Eb as <- <-. exact G.
      + eapply IH; eauto.
  Qed.

  Lemma kids_suffix classes : Forall steady classes -> forall n s ms l t,
    neat s = true -> kids n classes s ms = Ok (Some (l, t)) -> suffix t s.
  Proof.
    intros F. induction n as [|n IH]; intros s ms l t T H; simpl in H; destruct (is_empty s) eqn:E.
    - injection H as _ <-. apply suffix_nil.
    - discriminate.
    - injection H as _ <-. apply suffix_nil.
    - destruct (best_child classes s None) as [[[m r]|]|] eqn:Hb; simpl in H; try discriminate.
      + destruct (best_child_step classes F s None _ m r T ltac:(discriminate) Hb eq_refl) as [A _].
        apply suffix_trans with r; [|exact A]. eapply IH; [|exact H]. exact (neat_suffix _ _ A T).
      + destruct ms; [discriminate|]. injection H as _ <-. apply suffix_refl.
  Qed.

  (** The iteration limit does not matter once it is at least the length of the text. *)
  Lemma kids_limit classes : Forall steady classes -> forall n m s ms,
    neat s = true -> String.length s <= n -> String.length s <= m ->
    kids n classes s ms = kids m classes s ms.
  Proof.
    intros F. induction n as [|n IH]; intros m s ms T Ln Lm.
    - destruct s; [|simpl in Ln; lia]. destruct m; reflexivity.
    - destruct m as [|m]; [destruct s; [reflexivity|simpl in Lm; lia]|].
      simpl. destruct (is_empty s); [reflexivity|].
      destruct (best_child classes s None) as [[[b r]|]|] eqn:Hb; simpl; try reflexivity.
      destruct (best_child_step classes F s None _ b r T ltac:(discriminate) Hb eq_refl) as [A L].
      apply IH; [exact (neat_suffix _ _ A T)|lia|lia].
  Qed.

  (** The first rule of a class is required and consumes something. *)
  Definition consuming (r : rule C) : bool :=
    match r with RLit _ l o => truthy l && negb o | RRe _ (ReClass _ _) o => negb o
               | RRe _ (ReAlt x y) o => truthy x && truthy y && negb o | _ => false end.

  (** Every class among the children of the rules is steady. *)
  Definition steady_rule (r : rule C) : Prop :=
    match r with RKids _ classes _ => Forall steady classes | _ => True end.

  Lemma run_rule_suffix r next s v t : steady_rule r -> neat s = true ->
    run_rule r next s = Ok (Some (v, t)) -> suffix t s.
  Proof.
    intros St T H. destruct r as [n l o|n re o|n sep q o|n cs o]; simpl in H.
    - destruct (match_lit l s) as [s'|] eqn:M; [|discriminate]. injection H as _ <-.
      destruct (match_lit_suffix _ _ _ M) as [A _].
      apply suffix_trans with s'; [apply strip_suffix, (neat_suffix _ _ A T)|exact A].
    - destruct (re_match re s) as [[v' s']|] eqn:M; [|discriminate]. injection H as _ <-.
      destruct (re_match_suffix _ _ _ _ M) as [A _].
      apply suffix_trans with s'; [apply strip_suffix, (neat_suffix _ _ A T)|exact A].
    - destruct next as [|[n2 l2 o2| | | ] next]; try discriminate.
      destruct (delimited q sep (lower l2) s) as [[[l' s']|]|] eqn:D; simpl in H; try discriminate.
      injection H as _ <-. eapply delimited_suffix, D.
    - destruct (kids max_turns cs s []) as [[[l' s']|]|] eqn:D; simpl in H; try discriminate.
      injection H as _ <-. eapply kids_suffix; [exact St|exact T|exact D].
  Qed.

  Lemma run_rule_consumes r next s v t : consuming r = true -> neat s = true ->
    run_rule r next s = Ok (Some (v, t)) -> String.length t < String.length s.
  Proof.
    intros Cn T H. destruct r as [n l o|n re o|n sep q o|n cs o]; simpl in *; try discriminate.
    - apply andb_true_iff in Cn as [Cn _].
      destruct (match_lit l s) as [s'|] eqn:M; [|discriminate]. injection H as _ <-.
      destruct (match_lit_suffix _ _ _ M) as [A L].
      pose proof (suffix_length _ _ (strip_suffix _ (neat_suffix _ _ A T))).
      destruct l; [discriminate|simpl in L; lia].
    - destruct (re_match re s) as [[v' s']|] eqn:M; [|discriminate]. injection H as _ <-.
      destruct (re_match_suffix _ _ _ _ M) as [A _].
      pose proof (suffix_length _ _ (strip_suffix _ (neat_suffix _ _ A T))) as L.
      enough (String.length s' < String.length s) by lia.
      destruct re as [p m| | |x y]; try discriminate; simpl in M.
      + destruct (match m with None => span p s | Some k => span_upto k p s end) as [a b] eqn:E.
        assert (s = a ++ b) as Es. { destruct m; [eapply span_upto_suffix|eapply span_suffix]; exact E. }
        destruct (is_empty a) eqn:Ea; [discriminate|]. injection M as _ <-. exact (proj2 (cut_shorter _ _ _ Es Ea)).
      + rewrite !andb_true_iff in Cn. destruct Cn as [[Cx Cy] _].
        destruct (match_lit x s) as [r|] eqn:Mx.
        * injection M as _ <-. destruct (match_lit_suffix _ _ _ Mx) as [_ Lx]. destruct x; [discriminate|simpl in Lx; lia].
        * destruct (match_lit y s) as [r|] eqn:My; [|discriminate].
          injection M as _ <-. destruct (match_lit_suffix _ _ _ My) as [_ Ly]. destruct y; [discriminate|simpl in Ly; lia].
  Qed.

  Lemma run_rules_suffix rules : Forall steady_rule rules -> forall s vals m t,
    neat s = true -> run_rules rules s vals = Ok (m, t) -> suffix t s.
  Proof.
    intros F. induction F as [|r rs Sr F IH]; intros s vals m t T H; cbn [run_rules] in H.
    - injection H as _ <-. apply suffix_refl.
    - destruct (run_rule r rs s) as [[[v u]|]|] eqn:R; simpl in H; try discriminate.
      + pose proof (run_rule_suffix r rs s v u Sr T R) as A.
        destruct (is_empty u) eqn:E.
        * injection H as _ <-. exact A.
        * apply suffix_trans with u; [|exact A]. eapply IH; [exact (neat_suffix _ _ A T)|exact H].
      + destruct (rule_opt r); [eapply IH; eauto|]. injection H as _ <-. apply suffix_refl.
  Qed.

  Lemma consuming_required r : consuming r = true -> rule_opt r = false.
  Proof.
    destruct r as [n l o|n re o|n sep q o|n cs o]; simpl; try discriminate.
    - rewrite andb_true_iff, negb_true_iff. tauto.
    - destruct re; try discriminate; rewrite ?andb_true_iff, negb_true_iff; tauto.
  Qed.

  Lemma run_rules_progress r rs : consuming r = true -> Forall steady_rule (r :: rs) -> forall s vals m t,
    neat s = true -> run_rules (r :: rs) s vals = Ok (Some m, t) -> String.length t < String.length s.
  Proof.
    intros Cn F s vals m t T H. inversion F as [|? ? Sr F']; subst. cbn [run_rules] in H.
    destruct (run_rule r rs s) as [[[v u]|]|] eqn:R; simpl in H; try discriminate.
    - pose proof (run_rule_suffix r rs s v u Sr T R) as A.
      pose proof (run_rule_consumes r rs s v u Cn T R) as L.
      destruct (is_empty u) eqn:E.
      + injection H as _ <-. exact L.
      + pose proof (suffix_length _ _ (run_rules_suffix rs F' u _ _ _ (neat_suffix _ _ A T) H)). lia.
    - rewrite (consuming_required _ Cn) in H. discriminate.
  Qed.
End Engine.

(** A parser built from such rules is steady. *)
Lemma parse_with_steady {C A} (r : rule C) rs (process : pvals C -> res A) :
  consuming r = true -> Forall steady_rule (r :: rs) -> steady (parse_with (r :: rs) process).
Proof.
  intros Cn F s m t H. unfold parse_with in H.
  destruct (run_rules (r :: rs) (normalize s) []) as [[[vals|] u]|] eqn:R; cbn [bind] in H; try discriminate.
  - destruct (process vals) as [a|]; simpl in H; [|discriminate]. injection H as <- <-.
    split; [exact (run_rules_suffix _ F _ _ _ _ (neat_normalize s) R)|].
    intros _. exact (run_rules_progress _ _ Cn F _ _ _ _ (neat_normalize s) R).
  - injection H as <- <-. split; [exact (run_rules_suffix _ F _ _ _ _ (neat_normalize s) R)|congruence].
Qed.

Lemma leaf_steady (rs : list (rule leaf)) :
  forallb (fun r => match r with RKids _ _ _ => false | _ => true end) rs = true -> Forall steady_rule rs.
Proof.
  induction rs as [|r rs IH]; simpl; [constructor|]. rewrite andb_true_iff. intros [A B].
  constructor; [destruct r; simpl; try exact I; discriminate|auto].
Qed.

Ltac steady_tac :=
  repeat (apply Forall_cons; [apply parse_with_steady; [reflexivity|apply leaf_steady; reflexivity]|]);
  apply Forall_nil.
Lemma definition_classes_steady : Forall steady definition_classes.
Proof. steady_tac. Qed.
Lemma option_class_steady : Forall steady [option_class].
Proof. steady_tac. Qed.
Lemma values_class_steady : Forall steady [values_class].
Proof. steady_tac. Qed.

Lemma create_rules_steady : Forall steady_rule create_rules.
Proof.
  repeat (apply Forall_cons; [first [exact I|exact definition_classes_steady|exact option_class_steady]|]).
  apply Forall_nil.
Qed.
Lemma insert_rules_steady : Forall steady_rule insert_rules.
Proof.
  repeat (apply Forall_cons; [first [exact I|exact values_class_steady]|]). apply Forall_nil.
Qed.
