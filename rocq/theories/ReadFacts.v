(** Facts about the statement loop. *)
From Verif Require Export ParseFacts.

Lemma strip_le s : String.length (strip s) <= String.length s.
Proof.
  unfold strip, strip_by. pose proof (suffix_length _ _ (lstrip_suffix is_space (rstrip_by is_space s))).
  enough (String.length (rstrip_by is_space s) <= String.length s) by lia. clear.
  induction s as [|c s IH]; simpl; [lia|].
  destruct (rstrip_by is_space s); [destruct (is_space c)|]; simpl in *; lia.
Qed.
Lemma collapse_le s : forall w, String.length (collapse_ws_from w s) <= String.length s.
Proof.
  induction s as [|c s IH]; intros w; simpl; [lia|].
  destruct (is_space c); [destruct w|]; simpl; first [pose proof (IH true)|pose proof (IH false)]; try lia.
  pose proof (IH false). lia.
Qed.
Lemma normalize_le s : String.length (normalize s) <= String.length s.
Proof. unfold normalize. pose proof (strip_le (collapse_ws s)). pose proof (collapse_le s false). unfold collapse_ws in *. lia. Qed.
Lemma drop_dashes_le s : forall b, String.length (drop_dashes_from b s) <= String.length s.
Proof.
  induction s as [|c s IH]; intros b; simpl; [lia|]. pose proof (IH true). pose proof (IH false).
  destruct b; [destruct (Ascii.eqb c newline); simpl; lia|].
  destruct (Ascii.eqb c "-" && _); simpl; lia.
Qed.

Lemma span_length p s : String.length s = String.length (fst (span p s)) + String.length (snd (span p s)).
Proof. pose proof (span_spec p s) as H. destruct (span p s) as [a b]. destruct H as [-> _]. apply slength_app. Qed.
Lemma opt_bquote_app s : s = fst (opt_bquote s) ++ snd (opt_bquote s).
Proof. destruct s as [|c s]; simpl; [reflexivity|]. destruct (Ascii.eqb c bquote) eqn:E; [apply Ascii.eqb_eq in E; subst|]; reflexivity. Qed.
Lemma prefix_length_spec s g n : prefix_length s = Some (g, n) ->
  exists d r, s = g ++ "(" ++ d ++ ")" ++ r /\ sforall is_digit d = true /\ d <> "" /\ n = String.length (g ++ "(" ++ d ++ ")").
Proof.
  unfold prefix_length. pose proof (span_spec is_space s) as H1.
  destruct (span is_space s) as [a s1]. destruct H1 as (E1 & _ & _).
  pose proof (opt_bquote_app s1) as H2. destruct (opt_bquote s1) as [b s2]. simpl in H2.
  pose proof (span_spec is_word s2) as H3. destruct (span is_word s2) as [w s3]. destruct H3 as (E3 & _ & _).
  destruct (is_empty w); [discriminate|].
  pose proof (opt_bquote_app s3) as H4. destruct (opt_bquote s3) as [e s4]. simpl in H4.
  destruct s4 as [|c s5]; [discriminate|].
  destruct (Ascii.eqb c "(") eqn:Ec; [apply Ascii.eqb_eq in Ec; subst c|].
  2: { destruct c as [[] [] [] [] [] [] [] []]; try discriminate. }
  pose proof (span_spec is_digit s5) as H5. destruct (span is_digit s5) as [d s6]. destruct H5 as (E5 & D & _).
  destruct s6 as [|c s7]; [discriminate|].
  destruct (Ascii.eqb c ")") eqn:Ec; [apply Ascii.eqb_eq in Ec; subst c|].
  2: { destruct c as [[] [] [] [] [] [] [] []]; try discriminate. }
  destruct (is_empty d) eqn:Ed; [discriminate|]. intros H. injection H as <- <-.
  exists d, s7. subst s5 s3 s2 s1 s.
  assert (a ++ b ++ w ++ e ++ String "(" (d ++ String ")" s7) = (a ++ b ++ w ++ e) ++ "(" ++ d ++ ")" ++ s7) as R.
  { rewrite !sapp_assoc. reflexivity. }
  split; [exact R|]. split; [exact D|]. split; [intros ->; discriminate|].
  rewrite R. rewrite !slength_app. simpl. rewrite ?slength_app. simpl. lia.
Qed.
Lemma drop_lengths_le s : forall n, String.length (drop_lengths_from n s) <= String.length s.
Proof.
  assert (forall m s n, String.length s <= m -> String.length (drop_lengths_from n s) <= String.length s - n) as K.
  { clear s. induction m as [|m IH]; intros s n L.
    - destruct s; [simpl; lia|simpl in L; lia].
    - destruct s as [|c s]; [simpl; lia|]. simpl in L. cbn [drop_lengths_from].
      destruct n as [|n].
      + assert (String.length (String c (drop_lengths_from 0 s)) <= String.length (String c s)) as G.
        { simpl. pose proof (IH s 0 ltac:(lia)). lia. }
        destruct (Ascii.eqb c "(" || Ascii.eqb c ","); [|exact G].
        destruct (prefix_length s) as [[g k]|] eqn:P; [|exact G].
        destruct (prefix_length_spec _ _ _ P) as (d & r & E & _ & Nd & Ek).
        pose proof (IH s k ltac:(lia)) as I. simpl. rewrite slength_app.
        assert (String.length s = k + String.length r) as Es. { rewrite E, Ek. rewrite !slength_app. simpl. rewrite ?slength_app. simpl. lia. }
        assert (String.length g <= k) by (rewrite Ek, slength_app; lia). lia.
      + simpl. apply (IH s n). lia. }
  intros n. pose proof (K _ s n (le_n _)). lia.
Qed.

Lemma consumed_create s t u : create_parse s = Ok (Some t, u) -> String.length u < String.length s.
Proof.
  unfold create_parse. intros H.
  destruct (parse_with_steady (lit "CREATE TABLE") _ create_process eq_refl create_rules_steady _ _ _ H) as [_ L].
  specialize (L ltac:(discriminate)). pose proof (normalize_le (drop_lengths (drop_dashes s))).
  pose proof (drop_lengths_le (drop_dashes s) 0). pose proof (drop_dashes_le s false).
  unfold drop_lengths, drop_dashes in *. lia.
Qed.
Lemma consumed_insert s w u : insert_parse s = Ok (Some w, u) -> String.length u < String.length s.
Proof.
  unfold insert_parse. intros H.
  destruct (parse_with_steady (lit "INSERT INTO") _ (fun v => Ok (insert_process v)) eq_refl insert_rules_steady _ _ _ H) as [_ L].
  specialize (L ltac:(discriminate)). pose proof (normalize_le s). lia.
Qed.
Lemma sdrop_length n : forall s, String.length (sdrop n s) = String.length s - n.
Proof. induction n as [|n IH]; intros [|c s]; simpl; try reflexivity. apply IH. Qed.
Lemma sindex_bound sub s i : sindex sub s = Some i -> i + String.length sub <= String.length s.
Proof.
  assert (forall a b, String.prefix a b = true -> String.length a <= String.length b) as P.
  { induction a as [|c a IH]; intros [|d b]; simpl; intros H; try lia; try discriminate.
    destruct (ascii_dec c d); [|discriminate]. apply IH in H. lia. }
  revert i. induction s as [|c s IH]; intros i; cbn [sindex].
  - destruct (String.prefix sub "") eqn:E; [|discriminate]. intros [= <-]. apply P in E. simpl in *. lia.
  - destruct (String.prefix sub (String c s)) eqn:E.
    + intros [= <-]. apply P in E. simpl in *. lia.
    + destruct (sindex sub s); [|discriminate]. intros [= <-]. specialize (IH _ eq_refl). simpl. lia.
Qed.

(** A text at which the loop makes no progress. *)
Definition stuck (s : string) : Prop :=
  (statement_of s = SCreate /\ exists t, create_parse s = Ok (None, t))
  \/ (statement_of s = SInsert /\ exists t, insert_parse s = Ok (None, t))
  \/ (String.prefix "/*" s = true /\ sindex "*/" s = None).

(** The texts the loop stands before, turn after turn. *)
Inductive reaches : string -> string -> Prop :=
| reach_here s : reaches s (strip s)
| reach_comment s u : statement_of (strip s) = SComment -> reaches (comment_rest (strip s)) u -> reaches s u
| reach_create s m t u : statement_of (strip s) = SCreate -> create_parse (strip s) = Ok (m, t) -> reaches t u -> reaches s u
| reach_insert s m t u : statement_of (strip s) = SInsert -> insert_parse (strip s) = Ok (m, t) -> reaches t u -> reaches s u.

Lemma strip_idem s : strip (strip s) = strip s.
Proof.
  unfold strip, strip_by.
  assert (forall t, rstrip_by is_space t = t -> rstrip_by is_space (lstrip_by is_space t) = lstrip_by is_space t) as K.
  { induction t as [|c t IH]; [reflexivity|]. intros H. cbn [lstrip_by]. destruct (is_space c) eqn:S; [|exact H].
    apply IH. simpl in H. destruct (rstrip_by is_space t); [rewrite S in H; discriminate|]. congruence. }
  rewrite K by apply rstrip_idem. apply lstrip_idem.
Qed.
Lemma comment_rest_shorter s : strip s = s -> statement_of s = SComment -> ~ stuck s ->
  String.length (comment_rest s) < String.length s.
Proof.
  intros St Sc N. assert (1 <= String.length s) as L1.
  { destruct s; [discriminate|simpl; lia]. }
  unfold comment_rest. rewrite St.
  destruct (_ || String.prefix "--" s) eqn:K.
  - destruct (sindex (String newline "") s) as [i|] eqn:E; [|simpl; lia].
    apply sindex_bound in E. pose proof (strip_le (sdrop (S i) s)). rewrite sdrop_length in H. simpl in E. lia.
  - destruct (sindex "*/" s) as [i|] eqn:E.
    + apply sindex_bound in E. pose proof (strip_le (sdrop (2 + i) s)). rewrite sdrop_length in H. simpl in E. lia.
    + exfalso. apply N. right; right. split; [|exact E].
      apply orb_false_iff in K as [K1 K2]. unfold statement_of in Sc. rewrite K2 in Sc.
      destruct (String.prefix "/*" s); [reflexivity|]. exfalso.
      destruct (String.prefix "#" s) eqn:PH.
      * destruct s as [|c s]; [discriminate|]. cbn [String.prefix] in PH. destruct (ascii_dec "#" c) as [<-|]; [discriminate K1|discriminate PH].
      * cbn [orb] in Sc. destruct (match_lit "create" s); [discriminate Sc|]. destruct (match_lit "insert" s); discriminate Sc.
Qed.

Lemma loop_progress n : forall file r data r' e, String.length data <= n ->
  read_loop n file r data = (r', Raise e) ->
  exists u, reaches data u
  /\ (stuck u \/ u = "" \/ create_parse u = Raise e \/ insert_parse u = Raise e).
Proof.
  induction n as [|n IH]; intros file r data r' e L H.
  - destruct data; [discriminate|simpl in L; lia].
  - cbn [read_loop] in H. destruct (is_empty data) eqn:D0; [discriminate|].
    destruct (is_empty (strip data)) eqn:D1.
    { exists (strip data). split; [apply reach_here|]. right; left. apply is_empty_iff, D1. }
    pose proof (strip_le data) as Ls.
    destruct (statement_of (strip data)) eqn:Sd.
    + destruct (Nat.lt_ge_cases (String.length (comment_rest (strip data))) (String.length (strip data))) as [Lt|Ge].
      * destruct (fun L => IH _ _ _ _ _ L H) as (u & R & K); [lia|]. exists u. split; [|exact K].
        apply reach_comment; assumption.
      * exists (strip data). split; [apply reach_here|]. left.
        right; right. assert (~ ~ stuck (strip data)) as NN.
        { intros N. pose proof (comment_rest_shorter _ (strip_idem data) Sd N). lia. }
        destruct (String.prefix "/*" (strip data)) eqn:P; [|exfalso; apply NN; intros [[X _]|[[X _]|[X _]]]; congruence].
        split; [reflexivity|]. destruct (sindex "*/" (strip data)) eqn:E; [|reflexivity].
        exfalso; apply NN; intros [[X _]|[[X _]|[_ X]]]; congruence.
    + destruct (create_parse (strip data)) as [[[t|] rest]|x] eqn:P.
      * pose proof (consumed_create _ _ _ P). destruct (fun L => IH _ _ _ _ _ L H) as (u & R & K); [lia|].
        exists u. split; [|exact K]. eapply reach_create; eauto.
      * exists (strip data). split; [apply reach_here|]. left. left. split; [exact Sd|]. eauto.
      * injection H as _ ->. exists (strip data). split; [apply reach_here|]. auto.
    + destruct (insert_parse (strip data)) as [[[t|] rest]|x] eqn:P.
      * pose proof (consumed_insert _ _ _ P). destruct (fun L => IH _ _ _ _ _ L H) as (u & R & K); [lia|].
        exists u. split; [|exact K]. eapply reach_insert; eauto.
      * exists (strip data). split; [apply reach_here|]. left. right. left. split; [exact Sd|]. eauto.
      * injection H as _ ->. exists (strip data). split; [apply reach_here|]. auto.
    + discriminate.
Qed.
