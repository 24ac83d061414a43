(** Reading rendered indexes and foreign keys. *)
From Verif Require Export RoundColumn.
From Verif Require SqlStmt.

Lemma strip_one_space a : sforall not_space a = true -> strip (a ++ " ") = a.
Proof.
  intros A. assert (R : rstrip_by is_space (a ++ " ") = a).
  { induction a as [|c a IH]; [reflexivity|]. cbn [sforall] in A. apply andb_true_iff in A as [A1 A2]. cbn [String.append rstrip_by].
    rewrite (IH A2). destruct a; [|reflexivity]. cbn [is_empty]. unfold not_space in A1. apply negb_true_iff in A1. rewrite A1. reflexivity. }
  unfold strip, strip_by. rewrite R. apply lstrip_none. clear R. induction a as [|c a IH]; [reflexivity|]. cbn [sforall sexists] in *.
  apply andb_true_iff in A as [A1 A2]. unfold not_space in A1. apply negb_true_iff in A1. rewrite A1. apply IH, A2.
Qed.

(** ** Names and lists of names *)

Lemma clean_chars s : clean_name s -> sforall name_ok_char s = true.
Proof. intros (_ & H & _). exact H. Qed.
Lemma ticked_not_space s : sforall name_ok_char s = true -> sforall not_space (ticked s) = true.
Proof. intros H. apply (sforall_imp _ _ _ name_not_space), ticked_name, H. Qed.
Lemma ticked_append s r : ticked s ++ r = String bquote (s ++ String bquote r).
Proof. unfold ticked. cbn [String.append]. rewrite sapp_assoc. reflexivity. Qed.
Lemma clean_ticked s : sforall name_ok_char s = true -> strip_char bquote (strip (ticked s ++ " ")) = s.
Proof. intros H. rewrite strip_one_space by apply ticked_not_space, H. apply strip_ticked, H. Qed.
Lemma clean_ticked' s : sforall name_ok_char s = true -> strip_char bquote (strip (ticked s)) = s.
Proof.
  intros H. rewrite trim_strip; [apply strip_ticked, H|]. rewrite <- (sapp_nil_r (ticked s)).
  apply trim_app; [apply ticked_not_space, H|discriminate|reflexivity].
Qed.


Lemma ident_chars x : ident_ok x -> sforall name_ok_char (snd x) = true.
Proof. intros [C _]. apply clean_chars, C. Qed.
Lemma ident_name x : ident_ok x -> sforall name_char (ident_text x) = true /\ ident_text x <> "".
Proof.
  intros O. pose proof (ident_chars x O) as H. destruct x as [[|] n]; unfold ident_text, name_text; cbn [fst snd] in *.
  - split; [apply ticked_name, H|discriminate].
  - split; [apply (sforall_imp _ _ _ name_ok_name), H|apply O].
Qed.
Lemma ident_not_space x : ident_ok x -> sforall not_space (ident_text x) = true.
Proof. intros O. apply (sforall_imp _ _ _ name_not_space), ident_name, O. Qed.
Lemma ident_trim x : ident_ok x -> trim (ident_text x) = true.
Proof.
  intros O. rewrite <- (sapp_nil_r (ident_text x)). apply trim_app; [apply ident_not_space, O|apply ident_name, O|reflexivity].
Qed.
Lemma ident_strip x : ident_ok x -> strip_char bquote (ident_text x) = snd x.
Proof.
  intros O. pose proof (ident_chars x O) as H. destruct x as [[|] n]; unfold ident_text, name_text; cbn [fst snd] in *; [apply strip_ticked, H|].
  apply strip_none, name_ok_bquote, H.
Qed.
Lemma ident_clean x : ident_ok x -> strip_char bquote (strip (ident_text x)) = snd x.
Proof. intros O. rewrite trim_strip by apply ident_trim, O. apply ident_strip, O. Qed.
Lemma ident_clean_gap x g : ident_ok x -> strip_char bquote (strip (ident_text x ++ gap_text g)) = snd x.
Proof.
  intros O. destruct g; cbn [gap_text]; [|rewrite sapp_nil_r; apply ident_clean, O].
  rewrite strip_one_space by apply ident_not_space, O. apply ident_strip, O.
Qed.
Lemma word_bare n : ident_ok (false, n) -> sforall is_word n = true.
Proof. intros [_ H]. apply H. reflexivity. Qed.

Lemma sep_cases sp : sep_text sp = String "," (if sp then " " else ""). Proof. destruct sp; reflexivity. Qed.
Lemma idents_cons sp x y l : idents_text sp (x :: y :: l) = ident_text x ++ String "," ((if sp then " " else "") ++ idents_text sp (y :: l)).
Proof. unfold idents_text. cbn [map]. rewrite join_cons by discriminate. rewrite sep_cases. destruct sp; reflexivity. Qed.
Lemma idents_one sp x : idents_text sp [x] = ident_text x. Proof. reflexivity. Qed.
Lemma idents_trim sp l r : l <> [] -> Forall ident_ok l -> neat r = true -> trim (idents_text sp l ++ r) = true.
Proof.
  intros N F R. induction F as [|x l X F IH]; [contradiction|]. destruct l as [|y l].
  - rewrite idents_one. apply trim_app; [apply ident_not_space, X|apply ident_name, X|exact R].
  - rewrite idents_cons, sapp_assoc. specialize (IH ltac:(discriminate)). apply trim_app; [apply ident_not_space, X|apply ident_name, X|].
    cbn [String.append]. apply (neat_app ","); [reflexivity|discriminate|]. destruct sp; cbn [String.append].
    + apply neat_space; [exact IH|]. inversion F as [|? ? Y _]; subst. destruct l; [rewrite idents_one|rewrite idents_cons, sapp_assoc];
        (intros Z; apply sapp_eq_nil in Z as [Z _]; apply (proj2 (ident_name y Y)), Z).
    + apply trim_neat, IH.
Qed.
Lemma idents_chars (p : ascii -> bool) sp l : p ","%char = true -> p " "%char = true -> p bquote = true -> (forall c, name_ok_char c = true -> p c = true) ->
  Forall ident_ok l -> sforall p (idents_text sp l) = true.
Proof.
  intros Pc Ps Pq P F. induction F as [|x l X F IH]; [reflexivity|].
  assert (T : sforall p (ident_text x) = true).
  { pose proof (sforall_imp _ _ _ P (ident_chars x X)) as H. destruct x as [[|] n]; unfold ident_text, name_text; cbn [fst snd] in *; [|exact H].
    unfold ticked. cbn [sforall]. rewrite Pq, sforall_app. cbn [sforall]. rewrite Pq, H. reflexivity. }
  destruct l as [|y l]; [exact T|]. rewrite idents_cons, !sforall_app, T. cbn [sforall andb]. rewrite Pc, sforall_app. cbn [andb]. rewrite IH. destruct sp; cbn [sforall]; rewrite ?Ps; reflexivity.
Qed.
Lemma idents_start sp l : l <> [] -> Forall ident_ok l -> exists c r, idents_text sp l = String c r /\ is_digit c = false.
Proof.
  intros N F. destruct F as [|x l X F]; [contradiction|].
  assert (G : exists c r, ident_text x = String c r /\ is_digit c = false).
  { destruct x as [[|] n]; unfold ident_text, name_text; cbn [fst snd]; [exists bquote, (n ++ String bquote ""); split; reflexivity|].
    destruct X as [(N0 & _) X]. cbn [fst snd] in *. destruct n as [|c n]; [contradiction|]. exists c, n. split; [reflexivity|apply X; reflexivity]. }
  destruct G as (c & r & E & D). destruct l as [|y l]; [exists c, r; rewrite idents_one; auto|]. rewrite idents_cons, E. cbn [String.append]. eauto.
Qed.

(** The list is read as the names in it. *)
Notation scan := (delim bquote "," ")").
Lemma scan_bare n : sforall is_word n = true -> forall has cur vals l s, s <> "" -> exists l',
  scan has false cur vals l (n ++ s) = scan (has || negb (is_empty n)) false (cur ++ n) vals l' s.
Proof.
  induction n as [|c n IH]; intros W has cur vals l s N; [exists l; cbn [String.append is_empty negb]; rewrite sapp_nil_r, orb_false_r; reflexivity|].
  cbn [sforall] in W. apply andb_true_iff in W as [C W].
  assert (Q : Ascii.eqb c bquote = false /\ match_lit ")" (String c (n ++ s)) = None /\ Ascii.eqb c "," || Ascii.eqb c " " = false).
  { clear - C. destruct c as [[|] [|] [|] [|] [|] [|] [|] [|]]; vm_compute in C; try discriminate; repeat split. }
  destruct Q as (Q1 & Q2 & Q3). destruct (IH W true (cur ++ String c "") vals (String c (n ++ s)) s N) as [l' E].
  exists l'. cbn [String.append delim]. rewrite Q1, Q2, Q3, E. rewrite sapp_assoc. cbn [String.append orb is_empty negb]. rewrite orb_true_r. reflexivity.
Qed.
Lemma scan_ident x vals l c s : ident_ok x -> c = ","%char \/ c = ")"%char -> exists has cur l',
  scan false false "" vals l (ident_text x ++ String c s) = scan has false cur (if has then vals else vals +++ [snd x]) l' (String c s) /\ (has = true -> cur = snd x).
Proof.
  intros O C. destruct x as [[|] n]; unfold ident_text, name_text; cbn [fst snd].
  - rewrite ticked_append. rewrite scan_open.
    destruct (delim_inside bquote "," ")" true n "" vals (String bquote (n ++ String bquote (String c s))) (String c s)) as [l' E];
      [apply name_ok_bquote, (ident_chars (true, n)), O|].
    rewrite E. eexists false, _, _. split; [reflexivity|discriminate].
  - destruct (scan_bare n (word_bare n O) false "" vals l (String c s) ltac:(discriminate)) as [l' E]. rewrite E. cbn [orb String.append].
    destruct n as [|d n]; [exfalso; apply (proj1 (proj1 O)); reflexivity|]. eexists true, _, _. split; [reflexivity|reflexivity].
Qed.
Lemma scan_idents sp l : forall vals last rest, l <> [] -> Forall ident_ok l ->
  scan false false "" vals last (idents_text sp l ++ String ")" rest) = (false, vals +++ map snd l, String ")" rest).
Proof.
  induction l as [|x l IH]; intros vals last rest N F; [contradiction|]. inversion F as [|? ? X F']; subst. destruct l as [|y l].
  - rewrite idents_one. destruct (scan_ident x vals last ")" rest X (or_intror eq_refl)) as (has & cur & l' & E & H).
    rewrite E, scan_close by discriminate. destruct has; [rewrite (H eq_refl)|]; reflexivity.
  - rewrite idents_cons, sapp_assoc. cbn [String.append].
    destruct (scan_ident x vals last "," (((if sp then " " else "") ++ idents_text sp (y :: l)) ++ String ")" rest) X (or_introl eq_refl)) as (has & cur & l' & E & H).
    rewrite E, scan_comma by discriminate.
    replace (if has then (if has then vals else vals +++ [snd x]) +++ [cur] else (if has then vals else vals +++ [snd x])) with (vals +++ [snd x])
      by (destruct has; [rewrite (H eq_refl)|]; reflexivity).
    destruct sp; cbn [String.append].
    + rewrite scan_space by discriminate. rewrite IH by (discriminate || assumption). rewrite <- app_assoc. reflexivity.
    + rewrite IH by (discriminate || assumption). rewrite <- app_assoc. reflexivity.
Qed.
Lemma idents_delimited sp l r : l <> [] -> Forall ident_ok l -> delimited bquote "," ")" (idents_text sp l ++ String ")" r) = Ok (Some (map snd l, String ")" r)).
Proof. intros N F. unfold delimited. rewrite scan_idents by assumption. destruct l; [contradiction|reflexivity]. Qed.

Lemma drop_index_none s : sforall name_ok_char s = true -> drop_index_length s = s.
Proof.
  induction s as [|c s IH]; [reflexivity|]. cbn [sforall drop_index_length]. rewrite andb_true_iff. intros [C H].
  assert (Z : Ascii.eqb c "(" = false) by (clear - C; destruct c as [[|] [|] [|] [|] [|] [|] [|] [|]]; vm_compute in C |- *; congruence).
  rewrite Z. cbn [andb]. rewrite IH by exact H. reflexivity.
Qed.
Lemma clean_columns l : Forall clean_name l -> clean_index_columns l = l.
Proof.
  unfold clean_index_columns. induction 1 as [|x l C _ IH]; [reflexivity|]. cbn [map]. rewrite IH.
  assert (S : strip x = x).
  { rewrite trim_strip; [reflexivity|]. rewrite <- (sapp_nil_r x). apply trim_app; [|apply C|reflexivity].
    apply (sforall_imp name_ok_char); [|apply clean_chars, C]. intros c H. apply plain_not_space, name_ok_plain, H. }
  rewrite S, drop_index_none by apply clean_chars, C. reflexivity.
Qed.
Lemma idents_clean l : Forall ident_ok l -> Forall clean_name (map snd l).
Proof. intros F. apply Forall_map. eapply Forall_impl; [|exact F]. intros x H. apply H. Qed.

(** ** What the column classes make of words before a parenthesis *)

Definition before (c : ascii) : bool := is_word c || Ascii.eqb c " ".
Lemma before_case a c : Ascii.eqb (to_lower a) (to_lower c) = true -> before c = true -> before a = true.
Proof.
  rewrite Ascii.eqb_eq. intros E B. unfold before in *. assert (G : forall c, is_word c || Ascii.eqb c " " = (is_word (to_lower c) || Ascii.eqb (to_lower c) " ")) by letters.
  rewrite G, E, <- G. exact B.
Qed.
Lemma match_before K r : has_char "(" K = false -> forall x t, sforall before x = true -> match_lit K (x ++ String "(" r) = Some t ->
  sforall before K = true /\ exists x', t = x' ++ String "(" r /\ sforall before x' = true.
Proof.
  induction K as [|a K IH]; intros H x t X M.
  - cbn [match_lit] in M. injection M as <-. split; [reflexivity|]. exists x. auto.
  - unfold has_char in H. cbn [sexists] in H. apply orb_false_iff in H as [Ha H]. destruct x as [|c x]; cbn [String.append match_lit] in M.
    + destruct (Ascii.eqb (to_lower a) (to_lower "(")) eqn:E; [|discriminate]. exfalso. clear - Ha E.
      destruct a as [[|] [|] [|] [|] [|] [|] [|] [|]]; vm_compute in Ha, E; congruence.
    + cbn [sforall] in X. apply andb_true_iff in X as [C X]. destruct (Ascii.eqb (to_lower a) (to_lower c)) eqn:E; [|discriminate].
      destruct (IH H x t X M) as [B R]. split; [|exact R]. cbn [sforall]. rewrite B, (before_case a c E C). reflexivity.
Qed.
Lemma strip_before r x : trim (String "(" r) = true -> sforall before x = true -> exists x', strip (x ++ String "(" r) = x' ++ String "(" r /\ sforall before x' = true.
Proof.
  intros T X. pose proof (trim_strip _ T) as S. unfold strip, strip_by in *.
  assert (R : rstrip_by is_space (String "(" r) = String "(" r).
  { unfold trim in T. apply andb_true_iff in T as [T _]. apply (neat_rstrip _ _ T). }
  rewrite rstrip_app by (rewrite R; discriminate). rewrite R in *. clear S R T. induction x as [|c x IH].
  - exists "". split; reflexivity.
  - cbn [sforall] in X. apply andb_true_iff in X as [C X]. cbn [String.append lstrip_by]. destruct (is_space c); [apply IH, X|].
    exists (String c x). cbn [sforall String.append]. rewrite C, X. split; reflexivity.
Qed.
Lemma span_before (p : ascii -> bool) r : p "("%char = false -> forall x a b, sforall before x = true -> span p (x ++ String "(" r) = (a, b) ->
  exists x', b = x' ++ String "(" r /\ sforall before x' = true.
Proof.
  intros P. induction x as [|c x IH]; intros a b X E; cbn [String.append span] in E.
  - rewrite P in E. injection E as <- <-. exists "". split; reflexivity.
  - cbn [sforall] in X. apply andb_true_iff in X as [C X]. destruct (p c).
    + destruct (span p (x ++ String "(" r)) as [a' b'] eqn:Q. injection E as <- <-. apply (IH a' b' X eq_refl).
    + injection E as <- <-. exists (String c x). cbn [sforall]. rewrite C, X. split; reflexivity.
Qed.
Lemma run_before r : trim (String "(" r) = true -> forall os x (v : pvals leaf), sforall before x = true ->
  exists v' x', run_rules (map orule os +++ [rcomma]) (x ++ String "(" r) v = Ok (Some v', x' ++ String "(" r) /\ sforall before x' = true.
Proof.
  intros T. 
  assert (L : forall n K rs x (v : pvals leaf), has_char "(" K = false -> sforall before x = true -> exists v' x', sforall before x' = true
    /\ run_rules (RLit n K true :: rs) (x ++ String "(" r) v = run_rules rs (x' ++ String "(" r) v').
  { intros n K rs x v H X. destruct (match_lit K (x ++ String "(" r)) as [t|] eqn:M.
    - destruct (match_before K r H x t X M) as (_ & x' & -> & X'). destruct (strip_before r x' T X') as (x2 & S & X2).
      exists (dset n (VText K) v), x2. split; [exact X2|]. rewrite (step_lit n K true rs _ _ v M); rewrite S; [reflexivity|]. destruct x2; discriminate.
    - exists v, x. split; [exact X|]. apply skip_lit, M. }
  assert (A : forall n K p rs x (v : pvals leaf), has_char "(" K = false -> p "("%char = false -> sforall before x = true -> exists v' x', sforall before x' = true
    /\ run_rules (RRe n (ReAfter K p) true :: rs) (x ++ String "(" r) v = run_rules rs (x' ++ String "(" r) v').
  { intros n K p rs x v H P X. destruct (@re_match leaf (ReAfter K p) (x ++ String "(" r)) as [[y t]|] eqn:M.
    - pose proof M as M0. cbn [re_match] in M. destruct (match_lit K (x ++ String "(" r)) as [t1|] eqn:Q; [|discriminate].
      destruct (match_before K r H x t1 X Q) as (_ & x1 & -> & X1). destruct (span p (x1 ++ String "(" r)) as [a b] eqn:Sp.
      destruct (span_before p r P x1 a b X1 Sp) as (x2 & -> & X2). destruct (is_empty a); [discriminate|]. injection M as <- <-.
      destruct (strip_before r x2 T X2) as (x3 & S & X3). exists (dset n (VText a) v), x3. split; [exact X3|].
      rewrite (step_re n _ true rs _ _ _ v M0); rewrite S; [reflexivity|]. destruct x3; discriminate.
    - exists v, x. split; [exact X|]. apply skip_re, M. }
  assert (W : forall n K p q rs x (v : pvals leaf), has_char "(" K = false -> sforall before K = false -> sforall before x = true ->
    run_rules (RRe n (ReWithin K p q) true :: rs) (x ++ String "(" r) v = run_rules rs (x ++ String "(" r) v).
  { intros n K p q rs x v H B X. apply skip_re, within_none. destruct (match_lit K (x ++ String "(" r)) as [t|] eqn:M; [|reflexivity].
    destruct (match_before K r H x t X M) as [B' _]. congruence. }
  induction os as [|o os IH]; intros x v X.
  - cbn [map List.app]. unfold rcomma. exists v, x. split; [|exact X]. rewrite skip_lit; [reflexivity|].
    destruct x as [|c x]; [reflexivity|]. cbn [sforall] in X. apply andb_true_iff in X as [C _]. apply match_lit_char. clear - C.
    destruct c as [[|] [|] [|] [|] [|] [|] [|] [|]]; vm_compute in C |- *; congruence.
  - cbn [map List.app].
    assert (G : (exists v' x', sforall before x' = true /\ run_rules (orule o :: map orule os +++ [rcomma]) (x ++ String "(" r) v = run_rules (map orule os +++ [rcomma]) (x' ++ String "(" r) v')).
    { destruct o; first [apply L; [reflexivity|exact X]|apply A; [reflexivity|reflexivity|exact X]|exists v, x; split; [exact X|apply W; [reflexivity|reflexivity|exact X]]]. }
    destruct G as (v' & x' & X' & ->). apply IH, X'.
Qed.

Definition column_classes : list (pclass def) := [character_class; numeric_class; decimal_class; enum_class; plain_class; text_class; datetime_class].
Lemma beaten_child {A} rules (process : pvals leaf -> A) wrap s k r : trim s = true ->
  run_rules rules s [] = Ok (None, r) -> beaten k s (child_of rules process wrap).
Proof. intros T R. exists None, r. rewrite child_trim by exact T. rewrite R. auto. Qed.

Section Words.
  Variables (w r : string).
  Hypothesis W : w <> "" /\ sforall name_char w = true.
  Hypothesis Rs : starts (fun c => negb (name_char c)) r = true.
  Hypothesis T : trim (w ++ r) = true.
  Hypothesis Rn : strip r <> "".

  (** The second word cannot be a type. *)
  Lemma no_type k : starts (fun c => negb (is_word c)) (strip r) = true -> Forall (beaten k (w ++ r)) column_classes.
  Proof.
    intros N. assert (G : forall rules (process : pvals leaf -> pcol) rs, rules = rname :: rtype :: rs -> beaten k (w ++ r) (child_of rules process DefCol)).
    { intros rules process rs ->. eapply class_tied_none; [exact T|]. unfold rname, rtype.
      rewrite (step_re "name" _ false _ _ (VText w) r); [|apply plus_word; [apply W|apply W|exact Rs]|exact Rn].
      apply fail_re. destruct (strip r) as [|c z]; [contradiction|]. cbn [starts] in N. apply negb_true_iff in N. apply plus_none, N. }
    repeat (apply Forall_cons; [eapply G; reflexivity|]). apply Forall_nil.
  Qed.

  (** The second word is taken for a type; what follows is [z]. *)
  Variables (ty r2 z : string) (L : nat).
  Hypothesis Ty : ty <> "" /\ sforall is_word ty = true.
  Hypothesis Er : strip r = ty ++ r2.
  Hypothesis Ns : starts (fun c => negb (is_word c)) r2 = true.
  Hypothesis Ez : strip r2 = z.
  Hypothesis Zn : z <> "".
  Hypothesis Op : forall os (v : pvals leaf), exists v' u, run_rules (map orule os +++ [rcomma]) z v = Ok (Some v', u) /\ L <= String.length u.
  (** The class for values may read the list between the parentheses. *)
  Hypothesis En : match_lit "(" z = None \/ exists y, z = String "(" y /\ starts (fun c => negb (is_digit c)) y = true /\ trim y = true /\ y <> ""
    /\ forall os (v : pvals leaf), exists m u, run_rules (lit "(" :: RDel "enum_values" "," squote false :: lit ")" :: map orule os +++ [rcomma]) z v = Ok (m, u)
       /\ (m = None \/ L <= String.length u).

  Lemma words_head rs : run_rules (rname :: rtype :: rs) (w ++ r) [] = run_rules rs z ([("name", VText w); ("type", VText ty)] : pvals leaf).
  Proof.
    unfold rname, rtype. rewrite (step_re "name" _ false _ _ (VText w) r); [|apply plus_word; [apply W|apply W|exact Rs]|exact Rn].
    rewrite Er. rewrite (step_re "type" _ false _ _ (VText ty) r2); [|apply plus_word; [apply Ty|apply Ty|exact Ns]|rewrite Ez; exact Zn].
    rewrite Ez. reflexivity.
  Qed.
  Lemma some_type : Forall (tied L (w ++ r)) column_classes.
  Proof.
    pose proof words_head as WH.
    assert (NC : forall rules (process : pvals leaf -> pcol) rs, rules = rname :: rtype :: lit "(" :: rlength :: rs -> tied L (w ++ r) (child_of rules process DefCol)).
    { intros rules process rs ->. apply beaten_tied. destruct En as [M|(y & E & D & Tt & Yn & _)].
      - eapply class_tied_none; [exact T|]. rewrite WH. apply fail_lit, M.
      - eapply class_tied_none; [exact T|]. rewrite WH, E. unfold lit, rlength.
        rewrite (step_lit "(" "(" false _ _ y); [|reflexivity|rewrite trim_strip by exact Tt; exact Yn]. rewrite trim_strip by exact Tt. apply fail_re.
        destruct y as [|d y]; [contradiction|]. cbn [starts] in D. apply negb_true_iff in D. apply plus_none, D. }
    assert (OC : forall rules (process : pvals leaf -> pcol) os, rules = rname :: rtype :: map orule os +++ [rcomma] -> tied L (w ++ r) (child_of rules process DefCol)).
    { intros rules process os ->. destruct (Op os [("name", VText w); ("type", VText ty)]) as (v' & u & Q & Lu).
      eapply class_tied; [exact T|rewrite WH; exact Q|exact Lu]. }
    unfold column_classes.
    apply Forall_cons; [eapply NC; reflexivity|]. apply Forall_cons; [eapply NC; reflexivity|]. apply Forall_cons; [eapply NC; reflexivity|].
    apply Forall_cons; [|apply Forall_cons; [apply (OC plain_rules _ plain_os eq_refl)|apply Forall_cons; [apply (OC text_rules _ text_os eq_refl)|
      apply Forall_cons; [apply (OC datetime_rules _ datetime_os eq_refl)|apply Forall_nil]]]].
    unfold enum_class. destruct En as [M|(y & E & _ & _ & _ & V)].
    - apply beaten_tied. eapply class_tied_none; [exact T|]. unfold enum_rules. rewrite WH. apply fail_lit, M.
    - destruct (V enum_os [("name", VText w); ("type", VText ty)]) as (m & u & R & H).
      exists (option_map (fun v => DefCol (enum_process v)) m), u. split.
      + rewrite child_trim by exact T. change enum_rules with (rname :: rtype :: lit "(" :: RDel (C := leaf) "enum_values" "," squote false :: lit ")" :: map orule enum_os +++ [rcomma]).
        rewrite WH, R. destruct m; reflexivity.
      + destruct H as [->|H]; [left; reflexivity|right; exact H].
  Qed.
End Words.
(** A name between back-quotes is no attribute. *)
Lemma run_ticked os n r (v : pvals leaf) : run_rules (map orule os +++ [rcomma]) (ticked n ++ r) v = Ok (Some v, ticked n ++ r).
Proof. rewrite ticked_append. induction os as [|o os IH]; [reflexivity|]. rewrite <- IH. destruct o; reflexivity. Qed.
Lemma before_open x y : sforall before x = true -> x <> "" -> match_lit "(" (x ++ String "(" y) = None.
Proof.
  intros X N. destruct x as [|c x]; [contradiction|]. cbn [String.append]. apply match_lit_char. cbn [sforall] in X. apply andb_true_iff in X as [C _].
  clear - C. destruct c as [[|] [|] [|] [|] [|] [|] [|] [|]]; vm_compute in C |- *; congruence.
Qed.

(** The other classes of keys. *)
Lemma spelled_none l K k s : spelled K k -> diverge l K = true -> match_lit l (k ++ s) = None.
Proof. intros S D. apply diverge_none. rewrite <- (sapp_nil_r k). apply (diverge_spelled l K k ""); assumption. Qed.
Lemma primary_none s k : trim s = true -> match_lit "PRIMARY KEY" s = None -> beaten k s primary_class.
Proof. intros T M. eapply beaten_child; [exact T|]. apply fail_lit, M. Qed.
Lemma key_none s k : trim s = true -> match_lit "KEY" s = None -> match_lit "INDEX" s = None -> beaten k s key_class.
Proof. intros T M N. eapply beaten_child; [exact T|]. apply fail_re. cbn [re_match]. rewrite M, N. reflexivity. Qed.
Lemma unique_none s k : trim s = true -> match_lit "UNIQUE" s = None -> beaten k s unique_class.
Proof. intros T M. eapply beaten_child; [exact T|]. apply fail_lit, M. Qed.
Lemma foreign_none s k : trim s = true -> match_lit "CONSTRAINT" s = None -> beaten k s foreign_class.
Proof. intros T M. eapply beaten_child; [exact T|]. apply fail_lit, M. Qed.
Lemma unnamed_none s k : trim s = true -> match_lit "FOREIGN KEY (" s = None -> beaten k s bare_class.
Proof. intros T M. eapply beaten_child; [exact T|]. apply fail_lit, M. Qed.

(** ** The list of columns and what follows *)

Section Keys.
  Variables (l : list ident) (g sp : bool) (e : ending).
  Hypothesis Hl : l <> [] /\ Forall ident_ok l.
  Hypothesis He : ending_ok e.
  Notation E := (ending_text e).
  Notation R := (ending_raw e).
  Definition listed : string := idents_text sp l ++ String ")" R.
  Definition tail : string := String "(" listed.
  Definition gapped : string := gap_text g ++ tail.

  Lemma close_end_trim : trim (String ")" R) = true.
  Proof. apply (trim_app ")"); [reflexivity|discriminate|]. apply raw_neat, He. Qed.
  Lemma listed_trim : trim listed = true.
  Proof. destruct Hl as [N C]. apply idents_trim; [exact N|exact C|]. apply trim_neat, close_end_trim. Qed.
  Lemma listed_some : listed <> "".
  Proof. destruct Hl as [N C]. unfold listed. destruct (idents_start sp l N C) as (c & r & -> & _). discriminate. Qed.
  Lemma tail_trim : trim tail = true.
  Proof. apply (trim_app "("); [reflexivity|discriminate|]. apply trim_neat, listed_trim. Qed.
  Lemma gapped_strip : strip gapped = tail.
  Proof. unfold gapped. destruct g; cbn [gap_text String.append]; [apply strip_space, tail_trim|apply trim_strip, tail_trim]. Qed.
  Lemma gapped_neat : neat gapped = true.
  Proof. unfold gapped. destruct g; cbn [gap_text String.append]; [apply neat_space; [apply tail_trim|discriminate]|apply trim_neat, tail_trim]. Qed.
  Lemma gapped_starts (p : ascii -> bool) : p " "%char = true -> p "("%char = true -> starts p gapped = true.
  Proof. intros A B. unfold gapped. destruct g; assumption. Qed.
  Lemma listed_long : String.length (ending_left e) <= String.length listed.
  Proof.
    unfold listed. rewrite slength_app. cbn [String.length]. pose proof (ending_left_length e). pose proof (raw_length e). lia.
  Qed.

  (** The rules of the index classes. *)
  Lemma run_columns (v : pvals leaf) :
    run_rules [lit "("; rcolumns; lit ")"; rcomma] tail v
    = Ok (Some (comma_vals e [] (dset ")" (VText ")") (dset "columns" (VList (map snd l)) (dset "(" (VText "(") v)))), ending_left e).
  Proof.
    unfold lit, rcolumns, tail. destruct Hl as [N C].
    rewrite (step_lit "(" "(" false _ _ listed); [|reflexivity|rewrite trim_strip by apply listed_trim; apply listed_some].
    rewrite trim_strip by apply listed_trim. unfold listed.
    rewrite (step_del "columns" "," bquote false ")" ")" false _ _ (map snd l) (String ")" R)); [|apply idents_delimited; assumption|discriminate].
    rewrite (step_lit ")" ")" false _ _ R); [|reflexivity|rewrite raw_strip by exact He; apply ending_nonempty].
    rewrite raw_strip by exact He. apply (finish e He []). constructor.
  Qed.

  (** The rules for values. *)
  Lemma enum_columns os (v : pvals leaf) : exists m r,
    run_rules (lit "(" :: RDel "enum_values" "," squote false :: lit ")" :: map orule os +++ [rcomma]) tail v = Ok (m, r)
    /\ (m = None \/ String.length (ending_left e) <= String.length r).
  Proof.
    unfold lit, tail. destruct Hl as [N C].
    rewrite (step_lit "(" "(" false _ _ listed); [|reflexivity|rewrite trim_strip by apply listed_trim; apply listed_some].
    rewrite trim_strip by apply listed_trim. unfold listed.
    assert (G : forall x, sforall (fun c => negb (Ascii.eqb c squote || Ascii.eqb c ")")) x = true -> forall has cur vals l, exists vals',
      delim squote "," ")" has false cur vals l (x ++ String ")" R) = (false, vals', String ")" R)).
    { induction x as [|c x IH]; intros X has cur vals l'; [eexists; reflexivity|]. cbn [sforall] in X. apply andb_true_iff in X as [X1 X2].
      apply negb_true_iff, orb_false_iff in X1 as [Xq Xc]. cbn [String.append delim]. rewrite Xq.
      assert (M : match_lit ")" (String c (x ++ String ")" R)) = None).
      { cbn [match_lit]. replace (Ascii.eqb (to_lower ")") (to_lower c)) with false; [reflexivity|].
        clear - Xc. destruct c as [[|] [|] [|] [|] [|] [|] [|] [|]]; vm_compute in Xc |- *; congruence. }
      rewrite M. destruct (Ascii.eqb c "," || Ascii.eqb c " "); apply (IH X2). }
    destruct (G (idents_text sp l)) with (has := false) (cur := "") (vals := @nil string) (l := "") as [vs Q].
    { apply idents_chars; [reflexivity|reflexivity|reflexivity| |exact C]. intros c. clear. destruct c as [[|] [|] [|] [|] [|] [|] [|] [|]]; vm_compute; congruence. }
    assert (DL : delimited squote "," ")" (idents_text sp l ++ String ")" R) = Ok (match vs with [] => None | _ => Some (vs, String ")" R) end)).
    { unfold delimited. rewrite Q. destruct vs; reflexivity. }
    destruct vs as [|x vs].
    - eexists None, _. split; [|left; reflexivity]. cbn [run_rules run_rule]. change (lower ")") with ")". rewrite DL. reflexivity.
    - rewrite (step_del "enum_values" "," squote false ")" ")" false _ _ (x :: vs) (String ")" R)); [|exact DL|discriminate].
      pose proof (close_items [] e ltac:(constructor) He os (dset "enum_values" (VList (x :: vs)) (dset "(" (VText "(") v))) as Z.
      unfold lit in Z. change (more [] e) with R in Z. rewrite Z. eexists _, _. split; [reflexivity|]. right.
      destruct os; reflexivity.
  Qed.
  Lemma list_values : starts (fun c => negb (is_digit c)) listed = true /\ trim listed = true /\ listed <> ""
    /\ forall os (v : pvals leaf), exists m z, run_rules (lit "(" :: RDel "enum_values" "," squote false :: lit ")" :: map orule os +++ [rcomma]) tail v = Ok (m, z)
       /\ (m = None \/ String.length (ending_left e) <= String.length z).
  Proof.
    destruct Hl as [N C]. split; [|split; [apply listed_trim|split; [apply listed_some|apply enum_columns]]].
    unfold listed. destruct (idents_start sp l N C) as (c & r & -> & D). cbn [String.append starts]. rewrite D. reflexivity.
  Qed.

  (** A keyword, a word taken for a type, and the columns, perhaps after a name. *)
  Lemma list_rest : let L := String.length (ending_left e) in
    (forall os (v : pvals leaf), exists v' u, run_rules (map orule os +++ [rcomma]) tail v = Ok (Some v', u) /\ L <= String.length u)
    /\ (match_lit "(" tail = None \/ exists y, tail = String "(" y /\ starts (fun c => negb (is_digit c)) y = true /\ trim y = true /\ y <> ""
      /\ forall os (v : pvals leaf), exists m u, run_rules (lit "(" :: RDel "enum_values" "," squote false :: lit ")" :: map orule os +++ [rcomma]) tail v = Ok (m, u)
       /\ (m = None \/ L <= String.length u)).
  Proof.
    split.
    - intros os v. destruct (run_before listed tail_trim os "" v eq_refl) as (v' & x' & Q & _). eexists _, _. split; [exact Q|].
      rewrite slength_app. cbn [String.length]. pose proof listed_long. lia.
    - right. exists listed. split; [reflexivity|apply list_values].
  Qed.
  Lemma name_rest x : ident_ok x -> let z := ident_text x ++ gapped in let L := String.length (ending_left e) in
    (forall os (v : pvals leaf), exists v' u, run_rules (map orule os +++ [rcomma]) z v = Ok (Some v', u) /\ L <= String.length u)
    /\ match_lit "(" z = None.
  Proof.
    intros O z L. pose proof listed_long as Ll. destruct x as [[|] n]; unfold z, ident_text, name_text; cbn [fst snd].
    - split; [|rewrite ticked_append; reflexivity]. intros os v. eexists _, _. split; [apply run_ticked|]. unfold gapped, tail. rewrite !slength_app. cbn [String.length]. unfold L. lia.
    - assert (E : n ++ gapped = (n ++ gap_text g) ++ String "(" listed) by (unfold gapped, tail; rewrite sapp_assoc; reflexivity).
      assert (B : sforall before (n ++ gap_text g) = true).
      { rewrite sforall_app. apply andb_true_iff. split; [|destruct g; reflexivity]. apply (sforall_imp is_word); [|apply word_bare, O].
        intros c H. unfold before. rewrite H. reflexivity. }
      rewrite E. split; [|apply before_open; [exact B|intros Z; apply sapp_eq_nil in Z as [Z _]; apply (proj1 (proj1 O)), Z]].
      intros os v. destruct (run_before listed tail_trim os _ v B) as (v' & x' & Q & _). eexists _, _. split; [exact Q|].
      rewrite slength_app. cbn [String.length]. unfold L. lia.
  Qed.
  Definition maybe_name (o : option ident) : string := match o with Some x => String " " (ident_text x) | None => "" end.
  Definition maybe_ok (o : option ident) : Prop := match o with Some x => ident_ok x | None => True end.
  Lemma maybe_neat o : maybe_ok o -> neat (maybe_name o ++ gapped) = true.
  Proof.
    destruct o as [x|]; intros O; [|apply gapped_neat]. cbn [maybe_name String.append]. apply neat_space; [|intros Z; apply sapp_eq_nil in Z as [Z _]; apply (proj2 (ident_name x O)), Z].
    apply trim_app; [apply ident_not_space, O|apply ident_name, O|apply gapped_neat].
  Qed.
  Lemma keyed_columns w ty o : w <> "" /\ sforall name_char w = true -> ty <> "" /\ sforall is_word ty = true -> maybe_ok o ->
    Forall (tied (String.length (ending_left e)) (w ++ String " " (ty ++ maybe_name o ++ gapped))) column_classes.
  Proof.
    intros W Ty O. pose proof (maybe_neat o O) as T2.
    assert (T1 : trim (ty ++ maybe_name o ++ gapped) = true).
    { apply trim_app; [apply (sforall_imp _ _ _ word_not_space), Ty|apply Ty|exact T2]. }
    assert (N1 : ty ++ maybe_name o ++ gapped <> "") by (destruct ty; [exfalso; apply Ty; reflexivity|discriminate]).
    assert (T : trim (w ++ String " " (ty ++ maybe_name o ++ gapped)) = true).
    { apply trim_app; [apply (sforall_imp _ _ _ name_not_space), W|apply W|]. apply neat_space; assumption. }
    apply (some_type w (String " " (ty ++ maybe_name o ++ gapped)) W eq_refl T) with (ty := ty) (r2 := maybe_name o ++ gapped)
      (z := match o with Some x => ident_text x ++ gapped | None => tail end).
    - rewrite strip_space by exact T1. exact N1.
    - exact Ty.
    - apply strip_space, T1.
    - destruct o; [reflexivity|apply gapped_starts; reflexivity].
    - destruct o as [x|]; [|apply gapped_strip]. cbn [maybe_name String.append]. apply strip_space.
      apply trim_app; [apply ident_not_space, O|apply ident_name, O|apply gapped_neat].
    - destruct o as [x|]; [|discriminate]. intros Z. apply sapp_eq_nil in Z as [Z _]. apply (proj2 (ident_name x O)), Z.
    - destruct o as [x|]; [apply name_rest, O|apply list_rest].
    - destruct o as [x|]; [left; apply name_rest, O|apply list_rest].
  Qed.

  (** ** Primary keys *)

  Variable w : string.
  Definition primary_text : string := w ++ gapped.
  Lemma split_word a b k : spelled (a ++ String " " b) k -> exists a' b', k = a' ++ String " " b' /\ spelled a a' /\ spelled b b'.
  Proof.
    unfold spelled. revert k. induction a as [|c a IH]; intros [|d k] H; try discriminate.
    - cbn [String.append] in H. exists "", k. unfold lower in H |- *. cbn [smap String.append] in *. injection H as H1 H2.
      assert (d = " "%char) by (clear - H1; destruct d as [[|] [|] [|] [|] [|] [|] [|] [|]]; vm_compute in H1; congruence). subst d. auto.
    - unfold lower in H. cbn [smap String.append] in H. injection H as H1 H2. destruct (IH k H2) as (a' & b' & -> & A & B).
      exists (String d a'), b'. split; [reflexivity|]. split; [|exact B]. unfold lower in *. cbn [smap]. rewrite H1, A. reflexivity.
  Qed.
  Lemma spelled_word K k : spelled K k -> K <> "" -> sforall is_word K = true -> k <> "" /\ sforall is_word k = true.
  Proof. intros S N W. split; [apply (lower_nonempty k K S N)|]. rewrite (caseless is_word k K); [exact W|letters|exact S]. Qed.
  Lemma spelled_name K k : spelled K k -> K <> "" -> sforall name_char K = true -> k <> "" /\ sforall name_char k = true.
  Proof. intros S N W. split; [apply (lower_nonempty k K S N)|]. rewrite (caseless name_char k K); [exact W|letters|exact S]. Qed.
  Lemma spelled_trim K k r : spelled K k -> trim K = true -> K <> "" -> neat r = true -> trim (k ++ r) = true.
  Proof. intros S T N Z. apply trim_cat; [rewrite (trim_caseless k K S); exact T|apply (lower_nonempty k K S N)|exact Z]. Qed.

  Lemma primary_read : spelled "PRIMARY KEY" w -> best_child definition_classes primary_text None
    = Ok (Some (DefIndex (mkIndex "" (map snd l) IPrimary []), ending_left e)).
  Proof.
    intros S. assert (T : trim primary_text = true) by (apply (spelled_trim "PRIMARY KEY"); [exact S|reflexivity|discriminate|apply gapped_neat]).
    apply (best_pick [] primary_class (skipn 1 definition_classes)).
    - constructor.
    - unfold primary_class. erewrite class_run; [|exact T|].
      2:{ unfold primary_rules, lit at 1. rewrite (step_lit "PRIMARY KEY" "PRIMARY KEY" false _ primary_text gapped); [|apply match_lit_app; symmetry; exact S|rewrite gapped_strip; discriminate].
          rewrite gapped_strip. apply run_columns. }
      unfold primary_process. destruct e; cbn -[clean_index_columns ending_left]; rewrite clean_columns by apply idents_clean, Hl; reflexivity.
    - constructor; [apply beaten_tied, key_none; [exact T|eapply spelled_none; [exact S|reflexivity]|eapply spelled_none; [exact S|reflexivity]]|].
      constructor; [apply beaten_tied, unique_none; [exact T|eapply spelled_none; [exact S|reflexivity]]|].
      constructor; [apply beaten_tied, foreign_none; [exact T|eapply spelled_none; [exact S|reflexivity]]|].
      constructor; [apply beaten_tied, unnamed_none; [exact T|eapply spelled_none; [exact S|reflexivity]]|].
      destruct (split_word "PRIMARY" "KEY" w S) as (a & b & Ew & A & B).
      assert (Q : primary_text = a ++ String " " (b ++ maybe_name None ++ gapped)) by (unfold primary_text; rewrite Ew, sapp_assoc; reflexivity).
      rewrite Q. apply keyed_columns; [apply (spelled_name "PRIMARY"); [exact A|discriminate|reflexivity]|apply (spelled_word "KEY"); [exact B|discriminate|reflexivity]|exact I].
  Qed.

  (** ** Unique keys *)

  Definition unique_word (k : string) : Prop := spelled_in ["UNIQUE KEY"; "UNIQUE INDEX"] k.
  Lemma unique_split k : unique_word k -> exists a b, k = a ++ String " " b /\ spelled "UNIQUE" a /\ (spelled "KEY" b \/ spelled "INDEX" b).
  Proof.
    intros (K & [<-|[<-|[]]] & S).
    - destruct (split_word "UNIQUE" "KEY" k S) as (a & b & Q & A & B). exists a, b. auto.
    - destruct (split_word "UNIQUE" "INDEX" k S) as (a & b & Q & A & B). exists a, b. auto.
  Qed.
  Lemma alt_key b r : spelled "KEY" b \/ spelled "INDEX" b -> exists v : pval leaf, re_match (ReAlt "KEY" "INDEX") (b ++ r) = Some (v, r).
  Proof.
    intros [B|B]; cbn [re_match].
    - rewrite match_lit_app by (symmetry; exact B). eexists. reflexivity.
    - rewrite (spelled_none "KEY" "INDEX" b r B eq_refl), match_lit_app by (symmetry; exact B). eexists. reflexivity.
  Qed.
  Lemma alt_word b : spelled "KEY" b \/ spelled "INDEX" b -> b <> "" /\ sforall is_word b = true.
  Proof. intros [B|B]; [apply (spelled_word "KEY")|apply (spelled_word "INDEX")]; (exact B || discriminate || reflexivity). Qed.

  (** The classes before and after the one for unique keys. *)
  Lemma unique_around s k a r : s = a ++ r -> spelled "UNIQUE" a -> trim s = true ->
    Forall (beaten k s) [primary_class; key_class] /\ tied k s foreign_class /\ tied k s bare_class.
  Proof.
    intros -> A T. split; [constructor; [|constructor; [|constructor]]|split].
    - apply primary_none; [exact T|eapply spelled_none; [exact A|reflexivity]].
    - apply key_none; [exact T|eapply spelled_none; [exact A|reflexivity]|eapply spelled_none; [exact A|reflexivity]].
    - apply beaten_tied, foreign_none; [exact T|eapply spelled_none; [exact A|reflexivity]].
    - apply beaten_tied, unnamed_none; [exact T|eapply spelled_none; [exact A|reflexivity]].
  Qed.
  Lemma unique_pick s a r n (v' : pvals leaf) : s = a ++ r -> spelled "UNIQUE" a -> trim s = true -> Forall (tied (String.length (ending_left e)) s) column_classes ->
    run_rules unique_rules s [] = run_rules [lit "("; rcolumns; lit ")"; rcomma] tail v' -> strip_char bquote (strip (vtext "name" v')) = n ->
    best_child definition_classes s None = Ok (Some (DefIndex (mkIndex n (map snd l) IUnique []), ending_left e)).
  Proof.
    intros Q A T C V N. destruct (unique_around s (String.length (ending_left e)) a r Q A T) as (P1 & P2 & P3).
    apply (best_pick [primary_class; key_class] unique_class (skipn 3 definition_classes)).
    - exact P1.
    - unfold unique_class. erewrite class_run; [|exact T|rewrite V; apply run_columns].
      unfold unique_process. f_equal. f_equal. f_equal.
      assert (G1 : forall u : pvals leaf, vtext "name" (comma_vals e [] (dset ")" (VText ")") (dset "columns" (VList (map snd l)) (dset "(" (VText "(") u)))) = vtext "name" u).
      { intros u. unfold vtext, comma_vals. destruct e; rewrite !dget_dset; reflexivity. }
      assert (G2 : forall u : pvals leaf, vlist "columns" (comma_vals e [] (dset ")" (VText ")") (dset "columns" (VList (map snd l)) (dset "(" (VText "(") u)))) = map snd l).
      { intros u. unfold vlist, comma_vals. destruct e; rewrite !dget_dset; reflexivity. }
      rewrite G1, G2, N, clean_columns by apply idents_clean, Hl. reflexivity.
    - constructor; [exact P2|]. constructor; [exact P3|]. exact C.
  Qed.

  (** With or without KEY or INDEX, with or without a name. *)
  Lemma unique_plain_read a : spelled "UNIQUE" a -> best_child definition_classes (a ++ gapped) None
    = Ok (Some (DefIndex (mkIndex "" (map snd l) IUnique []), ending_left e)).
  Proof.
    intros A. assert (T : trim (a ++ gapped) = true) by (apply (spelled_trim "UNIQUE"); [exact A|reflexivity|discriminate|apply gapped_neat]).
    apply (unique_pick _ a gapped "" (dset "UNIQUE" (VText "UNIQUE") []) eq_refl A T).
    - eapply Forall_impl; [apply beaten_tied|]. apply no_type; [apply (spelled_name "UNIQUE"); [exact A|discriminate|reflexivity]|apply gapped_starts; reflexivity|exact T|rewrite gapped_strip; discriminate|rewrite gapped_strip; reflexivity].
    - unfold unique_rules, lit at 1. rewrite (step_lit "UNIQUE" "UNIQUE" false _ _ gapped); [|apply match_lit_app; symmetry; exact A|rewrite gapped_strip; discriminate].
      rewrite gapped_strip. rewrite skip_re by reflexivity. rewrite skip_re by reflexivity. reflexivity.
    - reflexivity.
  Qed.
  Lemma unique_ticked_read a n : spelled "UNIQUE" a -> ident_ok (true, n) -> best_child definition_classes (a ++ String " " (ticked n ++ gapped)) None
    = Ok (Some (DefIndex (mkIndex n (map snd l) IUnique []), ending_left e)).
  Proof.
    intros A O. assert (T1 : trim (ticked n ++ gapped) = true) by (apply trim_app; [apply (ident_not_space (true, n)), O|discriminate|apply gapped_neat]).
    assert (T : trim (a ++ String " " (ticked n ++ gapped)) = true).
    { apply (spelled_trim "UNIQUE"); [exact A|reflexivity|discriminate|apply neat_space; [exact T1|discriminate]]. }
    apply (unique_pick _ a (String " " (ticked n ++ gapped)) n (dset "name" (VText (ticked n ++ gap_text g)) (dset "UNIQUE" (VText "UNIQUE") [])) eq_refl A T).
    - eapply Forall_impl; [apply beaten_tied|]. apply no_type; [apply (spelled_name "UNIQUE"); [exact A|discriminate|reflexivity]|reflexivity|exact T|rewrite strip_space by exact T1; discriminate|rewrite strip_space by exact T1; reflexivity].
    - unfold unique_rules, lit at 1. rewrite (step_lit "UNIQUE" "UNIQUE" false _ _ (String " " (ticked n ++ gapped))); [|apply match_lit_app; symmetry; exact A|rewrite strip_space by exact T1; discriminate].
      rewrite strip_space by exact T1. rewrite skip_re by (rewrite ticked_append; reflexivity).
      rewrite (step_re "name" (plus not_open) true _ _ (VText (ticked n ++ gap_text g)) tail).
      + rewrite trim_strip by apply tail_trim. reflexivity.
      + unfold gapped. rewrite <- sapp_assoc. apply plus_word; [|discriminate|reflexivity]. rewrite sforall_app. apply andb_true_iff. split; [|destruct g; reflexivity].
        apply (sforall_imp name_char); [|apply (ident_name (true, n)), O]. intros c. unfold name_char, not_open. rewrite !negb_true_iff, !orb_false_iff. tauto.
      + rewrite trim_strip by apply tail_trim. discriminate.
    - apply (ident_clean_gap (true, n)), O.
  Qed.
  Lemma unique_key_read a b o : spelled "UNIQUE" a -> spelled "KEY" b \/ spelled "INDEX" b -> maybe_ok o ->
    best_child definition_classes (a ++ String " " (b ++ maybe_name o ++ gapped)) None
    = Ok (Some (DefIndex (mkIndex (match o with Some x => snd x | None => "" end) (map snd l) IUnique []), ending_left e)).
  Proof.
    intros A B O. pose proof (maybe_neat o O) as T2. destruct (alt_word b B) as [Bn Bw].
    assert (T1 : trim (b ++ maybe_name o ++ gapped) = true).
    { apply trim_app; [apply (sforall_imp _ _ _ word_not_space), Bw|exact Bn|exact T2]. }
    assert (N1 : b ++ maybe_name o ++ gapped <> "") by (destruct b; [exfalso; apply Bn; reflexivity|discriminate]).
    assert (T : trim (a ++ String " " (b ++ maybe_name o ++ gapped)) = true).
    { apply (spelled_trim "UNIQUE"); [exact A|reflexivity|discriminate|apply neat_space; assumption]. }
    destruct (alt_key b (maybe_name o ++ gapped) B) as [v M].
    set (v1 := dset "index_name" v (dset "UNIQUE" (VText "UNIQUE") ([] : pvals leaf))).
    apply (unique_pick _ a (String " " (b ++ maybe_name o ++ gapped)) _ (match o with Some x => dset "name" (VText (ident_text x ++ gap_text g)) v1 | None => v1 end) eq_refl A T).
    - apply keyed_columns; [apply (spelled_name "UNIQUE"); [exact A|discriminate|reflexivity]|split; assumption|exact O].
    - unfold unique_rules, lit at 1. rewrite (step_lit "UNIQUE" "UNIQUE" false _ _ (String " " (b ++ maybe_name o ++ gapped))); [|apply match_lit_app; symmetry; exact A|rewrite strip_space by exact T1; exact N1].
      rewrite strip_space by exact T1. destruct o as [x|]; cbn [maybe_name String.append] in *.
      + assert (T3 : trim (ident_text x ++ gapped) = true) by (apply trim_app; [apply ident_not_space, O|apply ident_name, O|apply gapped_neat]).
        rewrite (step_re "index_name" _ true _ _ v (String " " (ident_text x ++ gapped))); [|exact M|rewrite strip_space by exact T3; intros Z; apply sapp_eq_nil in Z as [Z _]; apply (proj2 (ident_name x O)), Z].
        rewrite strip_space by exact T3. rewrite (step_re "name" (plus not_open) true _ _ (VText (ident_text x ++ gap_text g)) tail).
        * rewrite trim_strip by apply tail_trim. reflexivity.
        * unfold gapped. rewrite <- sapp_assoc. apply plus_word; [|intros Z; apply sapp_eq_nil in Z as [Z _]; apply (proj2 (ident_name x O)), Z|reflexivity].
          rewrite sforall_app. apply andb_true_iff. split; [|destruct g; reflexivity].
          apply (sforall_imp name_char); [|apply ident_name, O]. intros c. unfold name_char, not_open. rewrite !negb_true_iff, !orb_false_iff. tauto.
        * rewrite trim_strip by apply tail_trim. discriminate.
      + rewrite (step_re "index_name" _ true _ _ v gapped); [|exact M|rewrite gapped_strip; discriminate]. rewrite gapped_strip. rewrite skip_re by reflexivity. reflexivity.
    - destruct o as [x|]; [|reflexivity]. unfold vtext. rewrite dget_dset. apply ident_clean_gap, O.
  Qed.

  (** ** Plain keys *)

  Lemma key_read b x : spelled "KEY" b \/ spelled "INDEX" b -> ident_ok x -> best_child definition_classes (b ++ String " " (ident_text x ++ gapped)) None
    = Ok (Some (DefIndex (mkIndex (snd x) (map snd l) IIndex []), ending_left e)).
  Proof.
    intros B O. destruct (alt_word b B) as [Bn Bw].
    assert (T1 : trim (ident_text x ++ gapped) = true) by (apply trim_app; [apply ident_not_space, O|apply ident_name, O|apply gapped_neat]).
    assert (N1 : ident_text x ++ gapped <> "") by (intros Z; apply sapp_eq_nil in Z as [Z _]; apply (proj2 (ident_name x O)), Z).
    assert (T : trim (b ++ String " " (ident_text x ++ gapped)) = true).
    { apply trim_app; [apply (sforall_imp _ _ _ word_not_space), Bw|exact Bn|apply neat_space; assumption]. }
    assert (M : forall k, diverge k "KEY" = true -> diverge k "INDEX" = true -> match_lit k (b ++ String " " (ident_text x ++ gapped)) = None).
    { intros k D1 D2. destruct B as [B|B]; eapply spelled_none; eassumption. }
    destruct (alt_key b (String " " (ident_text x ++ gapped)) B) as [v Mv].
    apply (best_pick [primary_class] key_class (skipn 2 definition_classes)).
    - constructor; [|constructor]. apply primary_none; [exact T|apply M; reflexivity].
    - unfold key_class. erewrite class_run; [|exact T|].
      2:{ unfold key_rules, rname.
          rewrite (step_re "index_name" _ false _ _ v (String " " (ident_text x ++ gapped))); [|exact Mv|rewrite strip_space by exact T1; exact N1].
          rewrite strip_space by exact T1.
          rewrite (step_re "name" _ false _ _ (VText (ident_text x)) gapped); [|apply plus_word; [apply ident_name, O|apply ident_name, O|apply gapped_starts; reflexivity]|rewrite gapped_strip; discriminate].
          rewrite gapped_strip. apply run_columns. }
      unfold key_process. f_equal. f_equal. f_equal.
      destruct e; cbn -[clean_index_columns ending_left strip strip_char ident_text]; rewrite clean_columns by apply idents_clean, Hl; rewrite ident_clean by exact O; reflexivity.
    - constructor; [apply beaten_tied, unique_none; [exact T|apply M; reflexivity]|].
      constructor; [apply beaten_tied, foreign_none; [exact T|apply M; reflexivity]|].
      constructor; [apply beaten_tied, unnamed_none; [exact T|apply M; reflexivity]|].
      change (Forall (tied (String.length (ending_left e)) (b ++ String " " (ident_text x ++ gapped))) column_classes).
      assert (Bc : b <> "" /\ sforall name_char b = true) by (destruct B as [B|B]; [apply (spelled_name "KEY")|apply (spelled_name "INDEX")]; (exact B || discriminate || reflexivity)).
      destruct x as [[|] n]; unfold ident_text, name_text in *; cbn [fst snd] in *.
      + eapply Forall_impl; [apply beaten_tied|]. apply no_type; [exact Bc|reflexivity|exact T|rewrite strip_space by exact T1; exact N1|rewrite strip_space by exact T1; reflexivity].
      + apply (keyed_columns b n None); [exact Bc|split; [apply O|apply word_bare, O]|exact I].
  Qed.
End Keys.

Theorem key_written_read i s e : key_written i s -> ending_ok e ->
  best_child definition_classes (s ++ ending_raw e) None = Ok (Some (DefIndex (mkIndex (ix_rawname i) (ix_columns i) (ix_type i) []), ending_left e)).
Proof.
  intros [w g sp l C N F K] He. assert (Hl : l <> [] /\ Forall ident_ok l) by auto. rewrite C.
  assert (Q : forall u, (u ++ key_columns g sp l) ++ ending_raw e = u ++ gapped l g sp e).
  { intros u. unfold key_columns, gapped, tail, listed. repeat (cbn [String.append]; rewrite ?sapp_assoc). reflexivity. }
  rewrite Q. clear Q. remember (ix_type i) as t eqn:Et. clear Et. destruct K as [w S R|w S R|w tick S O|w tick S O].
  - rewrite R. apply (primary_read l g sp e Hl He w S).
  - rewrite R. destruct S as (K & I & S). destruct I as [<-|I]; [apply unique_plain_read; assumption|].
    destruct (unique_split w) as (a & b & -> & A & B); [exists K; auto|]. rewrite sapp_assoc. cbn [String.append].
    apply (unique_key_read l g sp e Hl He a b None A B Logic.I).
  - destruct S as [S|[S ->]].
    + destruct (unique_split w S) as (a & b & -> & A & B). 
      replace (((a ++ String " " b) ++ " " ++ name_text tick (ix_rawname i)) ++ gapped l g sp e) with (a ++ String " " (b ++ maybe_name (Some (tick, ix_rawname i)) ++ gapped l g sp e))
        by (cbn [maybe_name]; unfold ident_text; repeat (cbn [String.append fst snd]; rewrite ?sapp_assoc); reflexivity).
      apply (unique_key_read l g sp e Hl He a b (Some (tick, ix_rawname i)) A B O).
    + cbn [name_text]. rewrite !sapp_assoc. cbn [String.append]. apply (unique_ticked_read l g sp e Hl He w _ S O).
  - rewrite !sapp_assoc. cbn [String.append]. apply (key_read l g sp e Hl He w (tick, ix_rawname i)); [|exact O].
    destruct S as (K & [<-|[<-|[]]] & S); auto.
Qed.

(** ** Rendered indexes *)

Lemma ticked_idents l : idents_text false (map (pair true) l) = join "," (map ticked l).
Proof. unfold idents_text. rewrite map_map. reflexivity. Qed.
Lemma clean_ident n : clean_name n -> ident_ok (true, n).
Proof. intros C. split; [exact C|discriminate]. Qed.
Lemma index_written i : readable_index i -> key_written i (index_str i).
Proof.
  intros R. destruct (ri_columns i R) as [N C]. pose proof (ri_name i R) as Nm.
  assert (K : "(`" ++ join "`,`" (ix_columns i) ++ "`)" = "(" ++ idents_text false (map (pair true) (ix_columns i)) ++ ")").
  { rewrite ticked_idents. pose proof (SqlStmt.join_quoted "`" "," (ix_columns i) N) as J.
    change (map ticked (ix_columns i)) with (map (fun x => "`" ++ x ++ "`") (ix_columns i)). rewrite <- J.
    cbn [String.append]. rewrite !sapp_assoc. reflexivity. }
  assert (E : exists w, index_str i = w ++ key_columns true false (map (pair true) (ix_columns i)) /\ named_key i (ix_type i) w).
  { unfold index_str, ix_name, key_columns. rewrite K. destruct (ix_type i).
    - pose proof Nm as (N0 & _). rewrite (proj2 (truthy_iff _) N0). eexists. split; [|apply (name_key i "KEY" true); [exists "KEY"; split; [left|]; reflexivity|apply clean_ident, Nm]].
      cbn [List.app join name_text gap_text]. unfold ticked. repeat (cbn [String.append]; rewrite ?sapp_assoc). reflexivity.
    - destruct Nm as [Z|Nm].
      + rewrite Z. eexists. split; [|apply (name_none i "UNIQUE KEY"); [exists "UNIQUE KEY"; split; [right; left|]; reflexivity|exact Z]].
        cbn [truthy is_empty negb List.app join gap_text]. repeat (cbn [String.append]; rewrite ?sapp_assoc). reflexivity.
      + pose proof Nm as (N0 & _). rewrite (proj2 (truthy_iff _) N0).
        eexists. split; [|apply (name_unique i "UNIQUE KEY" true); [left; exists "UNIQUE KEY"; split; [left|]; reflexivity|apply clean_ident, Nm]].
        cbn [List.app join name_text gap_text]. unfold ticked. repeat (cbn [String.append]; rewrite ?sapp_assoc). reflexivity.
    - rewrite Nm. eexists. split; [|apply (name_primary i "PRIMARY KEY"); [reflexivity|exact Nm]].
      cbn [truthy is_empty negb List.app join gap_text]. repeat (cbn [String.append]; rewrite ?sapp_assoc). reflexivity. }
  destruct E as (w & -> & H). apply written_key; [rewrite map_map; symmetry; apply map_id| | |exact H].
  - destruct (ix_columns i); [contradiction|discriminate].
  - apply Forall_map. eapply Forall_impl; [|exact C]. apply clean_ident.
Qed.
Theorem index_read i e : readable_index i -> ending_ok e ->
  exists i', best_child definition_classes (index_str i ++ ending_raw e) None = Ok (Some (DefIndex i', ending_left e))
    /\ alike_index i i' /\ ix_perrors i' = [].
Proof.
  intros R He. eexists. split; [apply (key_written_read i _ e (index_written i R) He)|]. repeat split.
Qed.
