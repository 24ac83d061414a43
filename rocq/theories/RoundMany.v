(** Reading sources that hold several statements. *)
From Verif Require Export WriteCreate SpecMany.
From Verif Require Export RoundInsert.

Local Opaque max_turns max_statements.

(** ** What a CREATE TABLE statement does to the text after it *)

Lemma no_comment s : ~ comment_like s -> no_dd false s = true.
Proof.
  assert (G : forall w s, (w = true -> forall r, s <> String "-" r) -> ~ comment_like s -> no_dd w s = true).
  { intros w x. revert w. induction x as [|c x IH]; intros w W N; [reflexivity|]. cbn [no_dd].
    assert (N' : ~ comment_like x) by (intros (a & b & ->); apply N; exists (String c a), b; reflexivity).
    destruct (Ascii.eqb_spec c "-") as [->|C]; [|apply IH; [discriminate|exact N']].
    destruct w; [exfalso; apply (W eq_refl x); reflexivity|]. apply IH; [|exact N'].
    intros _ r ->. apply N. exists "", r. reflexivity. }
  apply G. discriminate.
Qed.

(** The text that [prefix_length] takes. *)
Lemma opt_bquote_tick s : tick_or_none (fst (opt_bquote s)).
Proof. destruct s as [|c s]; [left; reflexivity|]. cbn [opt_bquote]. destruct (Ascii.eqb c bquote); [right|left]; reflexivity. Qed.
Lemma prefix_length_text s g k : prefix_length s = Some (g, k) ->
  exists w q n q' d r, s = w ++ q ++ n ++ q' ++ "(" ++ d ++ ")" ++ r
    /\ blank w /\ tick_or_none q /\ tick_or_none q' /\ n <> "" /\ sforall is_word n = true /\ digits d.
Proof.
  unfold prefix_length. pose proof (span_spec is_space s) as H1.
  destruct (span is_space s) as [a s1]. destruct H1 as (E1 & A1 & _).
  pose proof (opt_bquote_app s1) as H2. pose proof (opt_bquote_tick s1) as T2. destruct (opt_bquote s1) as [b s2]. cbn [fst snd] in *.
  pose proof (span_spec is_word s2) as H3. destruct (span is_word s2) as [w s3]. destruct H3 as (E3 & A3 & _).
  destruct (is_empty w) eqn:Ew; [discriminate|].
  pose proof (opt_bquote_app s3) as H4. pose proof (opt_bquote_tick s3) as T4. destruct (opt_bquote s3) as [e s4]. cbn [fst snd] in *.
  destruct s4 as [|c s5]; [discriminate|].
  destruct (Ascii.eqb_spec c "(") as [->|C].
  2: { destruct c as [[] [] [] [] [] [] [] []]; try discriminate. exfalso. apply C. reflexivity. }
  pose proof (span_spec is_digit s5) as H5. destruct (span is_digit s5) as [d s6]. destruct H5 as (E5 & D & _).
  destruct s6 as [|c s7]; [discriminate|].
  destruct (Ascii.eqb_spec c ")") as [->|C].
  2: { destruct c as [[] [] [] [] [] [] [] []]; try discriminate. exfalso. apply C. reflexivity. }
  destruct (is_empty d) eqn:Ed; [discriminate|]. intros _. exists a, b, w, e, d, s7. subst. repeat split; auto.
  - destruct w; [discriminate Ew|discriminate].
  - destruct d; [discriminate Ed|discriminate].
Qed.
(** A match that begins before a semicolon ends before it. *)
Lemma app_until (c : ascii) a : forall b x r, a ++ b = x ++ String c r -> sforall (fun d => negb (Ascii.eqb d c)) a = true ->
  exists y, x = a ++ y /\ b = y ++ String c r.
Proof.
  induction a as [|d a IH]; intros b x r E A; [exists x; auto|]. cbn [sforall] in A. apply andb_true_iff in A as [D A].
  destruct x as [|e x]; cbn [String.append] in E; injection E as -> E; [rewrite Ascii.eqb_refl in D; discriminate D|].
  destruct (IH b x r E A) as (y & -> & ->). exists y. auto.
Qed.
Lemma blank_semi w : blank w -> sforall (fun d => negb (Ascii.eqb d ";")) w = true.
Proof. apply sforall_imp. intros c. clear. destruct c as [[|] [|] [|] [|] [|] [|] [|] [|]]; vm_compute; congruence. Qed.
Lemma word_semi w : sforall is_word w = true -> sforall (fun d => negb (Ascii.eqb d ";")) w = true.
Proof. apply sforall_imp. intros c. clear. destruct c as [[|] [|] [|] [|] [|] [|] [|] [|]]; vm_compute; congruence. Qed.
Lemma digit_semi w : sforall is_digit w = true -> sforall (fun d => negb (Ascii.eqb d ";")) w = true.
Proof. apply sforall_imp. intros c. clear. destruct c as [[|] [|] [|] [|] [|] [|] [|] [|]]; vm_compute; congruence. Qed.
Lemma tick_semi q : tick_or_none q -> sforall (fun d => negb (Ascii.eqb d ";")) q = true.
Proof. intros [E|E]; subst; reflexivity. Qed.
Lemma no_length x r : ~ length_like (x ++ ";") -> no_drop r -> no_drop (x ++ String ";" r).
Proof.
  intros N R. induction x as [|c x IH]; [apply (no_drop_app ";"); [reflexivity|exact R]|].
  assert (N' : ~ length_like (x ++ ";")).
  { intros (a & c' & w & q & n & q' & d & b & E & H). apply N. exists (String c a), c', w, q, n, q', d, b. split; [cbn [String.append]; f_equal; exact E|exact H]. }
  unfold no_drop. cbn [String.append drop_lengths_from]. rewrite (IH N').
  destruct (Ascii.eqb c "(" || Ascii.eqb c ",") eqn:C; [|reflexivity]. destruct (prefix_length (x ++ String ";" r)) as [[g k]|] eqn:P; [|reflexivity]. exfalso.
  destruct (prefix_length_text _ _ _ P) as (w & q & n & q' & d & z & E & B & Q & Q' & Nn & Wn & [Dn Dd]).
  replace (w ++ q ++ n ++ q' ++ "(" ++ d ++ ")" ++ z) with ((w ++ q ++ n ++ q' ++ "(" ++ d ++ ")") ++ z) in E by (rewrite !sapp_assoc; reflexivity).
  symmetry in E. destruct (app_until ";" _ z x r E) as (y & -> & _).
  { rewrite !sforall_app, (blank_semi w B), (tick_semi q Q), (word_semi n Wn), (tick_semi q' Q'), (digit_semi d Dd). reflexivity. }
  apply N. exists "", c, w, q, n, q', d, (y ++ ";"). split; [repeat (cbn [String.append]; rewrite ?sapp_assoc); reflexivity|].
  split; [apply orb_true_iff in C as [C|C]; apply Ascii.eqb_eq in C; subst; auto|]. repeat split; assumption.
Qed.

(** The text after the semicolon is no option. *)
Lemma span_upto_stake p n : forall s, sforall p (stake n s) = true -> span_upto n p s = (stake n s, sdrop n s).
Proof.
  induction n as [|n IH]; intros [|c s] H; try reflexivity. cbn [stake sforall] in H. apply andb_true_iff in H as [C H].
  cbn [span_upto stake sdrop]. rewrite C, (IH s H). reflexivity.
Qed.
Lemma stake_add a b s : stake (a + b) s = stake a s ++ stake b (sdrop a s).
Proof. revert s. induction a as [|a IH]; intros s; [reflexivity|]. destruct s as [|c s]; [destruct b; reflexivity|]. cbn [Nat.add stake sdrop String.append]. rewrite IH. reflexivity. Qed.
Lemma neat_suffix n : forall s, neat s = true -> neat (sdrop n s) = true.
Proof. induction n as [|n IH]; intros [|c s] H; try assumption. cbn [sdrop]. apply IH, (neat_tail false c), H. Qed.
Lemma not_equals_has s : has_char "=" s = false -> sforall not_equals s = true.
Proof.
  unfold has_char, not_equals, is_char. induction s as [|c s IH]; [reflexivity|]. cbn [sexists sforall]. intros H. apply orb_false_iff in H as [A B].
  rewrite (IH B), andb_true_r, Ascii.eqb_sym, A. reflexivity.
Qed.
Lemma no_option r : trim r = true -> r <> "" -> has_char "=" (stake 30 r) = false -> exists x, option_class (String ";" (String " " r)) = Ok (None, x).
Proof.
  intros T Z H. apply not_equals_has in H. change 30 with (28 + 2) in H. rewrite stake_add, sforall_app in H. apply andb_true_iff in H as [H1 H2].
  assert (T' : trim (String ";" (String " " r)) = true) by (apply (trim_app ";"); [reflexivity|discriminate|apply neat_space; assumption]).
  assert (Sp : span_upto 30 not_equals (String ";" (String " " r)) = (String ";" (String " " (stake 28 r)), sdrop 28 r)).
  { rewrite (span_upto_stake not_equals 30); [reflexivity|]. change (sforall not_equals (stake 28 r) = true). exact H1. }
  pose proof (neat_suffix 28 r (trim_neat _ T)) as Nb. unfold option_class. rewrite child_trim by exact T'. unfold option_rules, lit.
  cbn [run_rules run_rule re_match]. rewrite Sp. cbn [is_empty bind rule_name forallb]. revert Nb H2. generalize (sdrop 28 r). intros b Nb H2.
  destruct (is_empty (strip b)) eqn:E; [eexists; reflexivity|].
  assert (M : match_lit "=" (strip b) = None).
  { assert (G : forall c q, not_equals c = true -> match_lit "=" (String c q) = None).
    { intros c q C. cbn [match_lit]. unfold not_equals, is_char in C. replace (Ascii.eqb (to_lower "=") (to_lower c)) with false; [reflexivity|].
      symmetry. clear -C. destruct c as [[|] [|] [|] [|] [|] [|] [|] [|]]; vm_compute in C |- *; congruence. }
    destruct b as [|c [|d b]]; [reflexivity|..].
    - cbn [stake sforall] in H2. rewrite andb_true_r in H2. unfold neat in Nb. cbn [neat_from] in Nb. destruct (is_space c) eqn:C; [cbn in Nb; rewrite andb_false_r in Nb; discriminate Nb|].
      rewrite trim_strip; [apply G, H2|]. unfold trim, neat. cbn [neat_from starts]. unfold not_space. rewrite C. reflexivity.
    - cbn [stake sforall] in H2. apply andb_true_iff in H2 as [C2 H2]. rewrite andb_true_r in H2.
      destruct (is_space c) eqn:C.
      + unfold neat in Nb. cbn [neat_from] in Nb. rewrite C in Nb. cbn [negb andb] in Nb. apply andb_true_iff in Nb as [Ec Nb]. apply Ascii.eqb_eq in Ec. subst c.
        destruct (is_space d) eqn:D; [discriminate Nb|]. rewrite strip_space; [apply G, H2|]. unfold trim, neat. cbn [neat_from starts]. unfold not_space. rewrite D, Nb. reflexivity.
      + rewrite trim_strip; [apply G, C2|]. unfold trim. rewrite Nb. cbn [starts]. unfold not_space. rewrite C. reflexivity. }
  rewrite M. eexists. reflexivity.
Qed.

(** ** Statements one after the other *)

(** A text without runs of white space that ends in a character. *)
Lemma calm_neat x c : is_space c = false -> collapse_ws (x ++ String c "") = x ++ String c "" -> neat (x ++ String c "") = true.
Proof.
  intros C E. apply neat_calm; [exact C|reflexivity|]. unfold collapse_ws in E. revert E. generalize false. induction x as [|d x IH]; intros w E; [reflexivity|].
  cbn [String.append collapse_ws_from] in *. destruct (is_space d).
  - destruct w.
    + exfalso. pose proof (collapse_length (x ++ String c "") true) as L. rewrite E in L. cbn [String.length] in L. lia.
    + injection E as E1 E2. rewrite (IH true E2), E1. reflexivity.
  - injection E as E. rewrite (IH false E). reflexivity.
Qed.

Definition read_as (st : stmt) (o : table + rows_def) : Prop :=
  match st, o with
  | StTable T, inl t => read_table t T true
  | StRows n cols gs, inr w => w = mkRows n (map (map lit_value) gs) cols (List.length cols) [] []
  | _, _ => False
  end.
Definition put (r : reader) (o : table + rows_def) : reader := match o with inl t => put_table r t | inr w => put_rows r w end.
Definition done (r : reader) : reader := mkReader (rd_tables r) (rd_rows r) (rd_errors r) true.

(** The text of a statement. *)
Lemma stmt_text st s : stmt_written st s -> trim s = true /\ exists x, s = x ++ ";".
Proof.
  intros [T x W C|n cols gs sp gp x -> Hn Hc Fc Hg Fg Lg Nd Nl].
  - destruct (create_ends T true x W) as [B (y & c & E & Sc)]. destruct (begins_create x B) as (d & m & Ed & Sd & _).
    split.
    + unfold trim. rewrite E in C. rewrite E at 1. rewrite (calm_neat y c Sc C). rewrite Ed. cbn [starts]. unfold not_space. rewrite Sd. reflexivity.
    + destruct W as [h w0 w1 w2 parts ss]. exists (h ++ " (" ++ w0 ++ join ("," ++ w1) ss ++ w2 ++ ")" ++ options_written (tm_options T)). rewrite !sapp_assoc. reflexivity.
  - split; [apply (text_trim n cols sp gp gs ";" "" Hn Hc Fc Hg Fg Lg (end_semi "" eq_refl))|].
    exists (insert_text n cols sp gp gs ""). unfold insert_text. rewrite !sapp_assoc. reflexivity.
Qed.

Lemma begins_app s z : begins s -> begins (s ++ z).
Proof.
  unfold begins. generalize "create". intros k. revert s. induction k as [|a k IH]; intros s M; [destruct (s ++ z); discriminate|].
  destruct s as [|c s]; [exfalso; apply M; reflexivity|]. cbn [String.append match_lit] in *. destruct (Ascii.eqb (to_lower a) (to_lower c)); [apply IH, M|exact M].
Qed.
(** One statement, followed by nothing or by a space and more text. *)
Definition next_ok (st : stmt) (r : string) : Prop :=
  trim r = true /\ r <> "" /\ no_dd false r = true /\ no_drop r /\ (forall T, st = StTable T -> has_char "=" (stake 30 r) = false).
Definition spaced_text (r : string) : string := if is_empty r then "" else String " " r.
Lemma stmt_follow st s r : stmt_written st s -> r = "" \/ next_ok st r ->
  trim (s ++ spaced_text r) = true /\ no_dd false (s ++ spaced_text r) = true /\ no_drop (s ++ spaced_text r)
  /\ exists o, read_as st o
     /\ (forall file n q, read_loop (S n) file q (s ++ spaced_text r) = read_loop n file (put q o) r)
     /\ match st with
        | StTable _ => begins s /\ create_parse (s ++ spaced_text r) = Ok (match o with inl t => Some t | _ => None end, r)
        | StRows _ _ _ => (exists y, s = "INSERT" ++ String " " y)
            /\ forall s', normalize s' = s ++ spaced_text r -> insert_parse s' = Ok (match o with inr w => Some w | _ => None end, r)
        end.
Proof.
  intros W R. destruct (stmt_text st s W) as [Ts [x Ex]]. set (z := spaced_text r).
  assert (Z : neat z = true /\ strip z = r /\ no_dd false z = true /\ starts no_dash z = true /\ no_drop z).
  { destruct R as [->|(T & N & D & P & _)]; [repeat split|]. unfold z, spaced_text. destruct r as [|c r]; [contradiction|]. cbn [is_empty].
    split; [apply neat_space; assumption|]. split; [apply strip_space, T|]. split; [exact D|]. split; [reflexivity|]. apply (no_drop_app " "); [reflexivity|exact P]. }
  destruct Z as (Zn & Zs & Zd & Zh & Zp).
  assert (Tz : trim (s ++ z) = true).
  { apply trim_cat; [exact Ts|rewrite Ex; intros X; apply sapp_eq_nil in X as [_ X]; discriminate|exact Zn]. }
  assert (Ez : is_empty (s ++ z) = false) by (rewrite Ex; destruct x; reflexivity).
  destruct W as [T s W C|n cols gs sp gp s Es Hn Hc Fc Hg Fg Lg Nd Nl].
  - assert (E : table_end (RoundTable.stop true ++ z) r true).
    { rewrite <- Zs. cbn [RoundTable.stop String.append]. destruct R as [->|(Tr & N & _ & _ & H)]; [apply (tend_semi "" "" eq_refl); reflexivity|].
      assert (Ez' : z = String " " r) by (unfold z, spaced_text; destruct r; [contradiction|reflexivity]). rewrite Ez' in *.
      destruct (no_option r Tr N (H T eq_refl)) as [y Y]. apply (tend_semi _ y Zn Y). }
    destruct (create_written_follow T true s z r W E Zd Zp) as (t & P & Rt & Dd & Dp).
    destruct (create_ends T true s W) as [B _].
    assert (B' : begins (s ++ z)) by (apply begins_app, B).
    destruct (begins_create _ B') as (c & m & Ec & Sc & St).
    split; [exact Tz|]. split; [exact Dd|]. split; [exact Dp|]. exists (inl t). split; [exact Rt|]. split; [|split; [exact B|exact P]].
    intros file k q. cbn [read_loop]. rewrite Ez, (trim_strip _ Tz), Ez, St, P. reflexivity.
  - assert (End : insert_end (String ";" z) r) by (rewrite <- Zs; apply end_semi, Zn).
    assert (Et : s ++ z = insert_text n cols sp gp gs (String ";" z)) by (rewrite Es; unfold insert_text; repeat (cbn [String.append]; rewrite ?sapp_assoc); reflexivity).
    pose proof (insert_reads n cols sp gp gs _ r Hn Hc Fc Hg Fg Lg End) as P. rewrite <- Et in P.
    split; [exact Tz|]. split; [apply no_dd_app; [exact Zh|apply no_comment, Nd|exact Zd]|].
    split; [rewrite Ex in Nl |- *; rewrite sapp_assoc; apply no_length; [exact Nl|exact Zp]|].
    exists (inr (mkRows n (map (map lit_value) gs) cols (List.length cols) [] [])). split; [reflexivity|]. split.
    + intros file k q. cbn [read_loop]. rewrite Ez, (trim_strip _ Tz), Ez.
      assert (St : statement_of (s ++ z) = SInsert) by (rewrite Es; reflexivity). rewrite St, P by apply trim_normalize, Tz. reflexivity.
    + split; [rewrite Es; eexists; reflexivity|]. intros s' N. apply P. exact N.
Qed.

Lemma statements_read l s : statements l s ->
  trim s = true /\ s <> "" /\ no_dd false s = true /\ no_drop s
  /\ exists os, Forall2 read_as l os /\ forall file n q, List.length l <= n -> read_loop n file q s = (done (fold_left put os q), Ok "").
Proof.
  induction 1 as [st s W|st s l r W Sr IH Eq].
  - destruct (stmt_follow st s "" W (or_introl eq_refl)) as (T & D & P & o & A & R & _). cbn [spaced_text is_empty] in *. rewrite sapp_nil_r in *.
    split; [exact T|]. split; [destruct (stmt_text st s W) as [_ [x ->]]; destruct x; discriminate|]. split; [exact D|]. split; [exact P|].
    exists [o]. split; [constructor; [exact A|constructor]|]. intros file n q L. destruct n as [|n]; [cbn in L; lia|]. rewrite R. destruct n; reflexivity.
  - destruct IH as (Tr & Nr & Dr & Pr & os & As & Rs).
    assert (Nx : next_ok st r) by (split; [exact Tr|]; split; [exact Nr|]; split; [exact Dr|]; split; [exact Pr|exact Eq]).
    destruct (stmt_follow st s r W (or_intror Nx)) as (T & D & P & o & A & R & _).
    assert (Z : spaced_text r = " " ++ r) by (destruct r; [contradiction|reflexivity]). rewrite Z in *.
    split; [exact T|]. split; [destruct (stmt_text st s W) as [_ [x ->]]; destruct x; discriminate|]. split; [exact D|]. split; [exact P|].
    exists (o :: os). split; [constructor; assumption|]. intros file n q L. destruct n as [|n]; [cbn in L; lia|]. rewrite R. cbn [fold_left]. apply Rs. cbn [List.length] in L. lia.
Qed.

(** ** Layout *)

Lemma laid_relaid q s s' : laid_out layout q s s' -> relaid s s'.
Proof. induction 1; constructor; assumption. Qed.
Lemma laid_respaced q s s' : laid_out (fun w => w <> "" /\ blank w) q s s' -> respaced s s'.
Proof.
  induction 1 as [|q c s s' L IH|q c w s s' C Q [N B] L IH]; [constructor|constructor; exact IH|]. constructor. destruct w as [|d w]; [contradiction|].
  unfold blank in B. cbn [sforall] in B. apply andb_true_iff in B as [D B]. cbn [String.append]. constructor; assumption.
Qed.
(** The first statement, laid out, and the text after it. *)
Lemma laid_step st l s0 r s' : stmt_written st s0 -> r = "" \/ next_ok st r -> laid_out (layout_for (st :: l)) None (s0 ++ spaced_text r) s' ->
  exists o, read_as st o /\ forall k file q, read_loop (S k) file q s' = read_loop k file (put q o) r.
Proof.
  intros W C' L. destruct (stmt_follow st s0 r W C') as (T & D & P & o & A & _ & Q).
  exists o. split; [exact A|]. intros k file q. remember (s0 ++ spaced_text r) as s eqn:Es.
  assert (Ns : s <> "") by (destruct (stmt_text st s0 W) as [_ [x E]]; subst; destruct x; discriminate).
  destruct st as [M|n cols gs]; cbn [layout_for] in L.
  - apply laid_relaid in L. destruct Q as [B Pr].
    assert (B' : begins s') by (apply (relaid_literal "create" eq_refl _ _ L); rewrite Es; apply begins_app, B).
    destruct (begins_create s' B') as (c & m & Ec & Sc & Sof). assert (E0 : is_empty s' = false) by (rewrite Ec; reflexivity).
    assert (Ss : strip s' = s').
    { destruct (ends_solid s Ns false (trim_neat _ T)) as (x & d & Ex & Sd). rewrite Ex in L. destruct (relaid_last x d s' Sd L) as [x' ->]. destruct x' as [|y x'].
      - cbn [String.append]. unfold strip, strip_by. cbn. rewrite Sd. cbn. rewrite Sd. reflexivity.
      - cbn [String.append] in *. injection Ec as -> _. apply strip_ends; assumption. }
    pose proof (relaid_parse s s' D P L) as Rp. cbn [read_loop]. rewrite E0, Ss, E0, Sof, Rp, Pr. destruct o; [reflexivity|destruct A].
  - apply laid_respaced in L. destruct Q as [[y Y] Pr].
    assert (Nm : normalize s' = s).
    { unfold normalize, collapse_ws. rewrite (respaced_collapse _ _ L). apply trim_normalize, T. }
    pose proof (Pr (strip s')) as Pr'. rewrite normalize_strip in Pr'. specialize (Pr' Nm).
    pose proof Nm as Nm'. rewrite Es, Y in Nm'. rewrite sapp_assoc in Nm'. apply (normal_prefix "INSERT") in Nm' as [x X]; [|discriminate|reflexivity].
    cbn [read_loop]. destruct (is_empty s') eqn:E0; [apply is_empty_iff in E0; subst s'; discriminate X|].
    assert (E1 : is_empty (strip s') = false) by (rewrite X; reflexivity). assert (E2 : statement_of (strip s') = SInsert) by (rewrite X; reflexivity).
    rewrite E1, E2, Pr'. destruct o; [destruct A|reflexivity].
Qed.
Lemma source_read l s' : source_holds l s' -> exists os, Forall2 read_as l os
  /\ forall file, read_sql file s' = (done (fold_left put os new_reader), Ok "").
Proof.
  intros (Len & s & St & L).
  assert (Lm : List.length l <= max_statements) by (assert (E : N.of_nat max_statements = 10000%N) by (apply (N2Nat.id 10000)); lia).
  assert (G : exists st l' s0 r, l = st :: l' /\ stmt_written st s0 /\ s = s0 ++ spaced_text r /\ (r = "" /\ l' = [] \/ next_ok st r /\ statements l' r)).
  { destruct St as [st x W|st x l r W Sr Eq].
    - exists st, [], x, "". change (spaced_text "") with "". rewrite sapp_nil_r. auto 6.
    - exists st, l, x, r. destruct (statements_read l r Sr) as (Tr & Nr & Dr & Pr & _). split; [reflexivity|]. split; [exact W|]. split; [destruct r; [contradiction|reflexivity]|].
      right. repeat split; assumption. }
  destruct G as (st & l' & s0 & r & -> & W & -> & C).
  destruct (laid_step st l' s0 r s' W ltac:(tauto) L) as (o & A & Step).
  assert (Rest : exists os, Forall2 read_as l' os /\ forall file n q, List.length l' <= n -> read_loop n file q r = (done (fold_left put os q), Ok "")).
  { destruct C as [[-> ->]|[_ Sr]]; [|destruct (statements_read l' r Sr) as (_ & _ & _ & _ & os & As & Rs); exists os; auto].
    exists []. split; [constructor|]. intros file n q _. destruct n; reflexivity. }
  destruct Rest as (os & As & Rs). exists (o :: os). split; [constructor; assumption|]. intros file. unfold read_sql. cbn [fold_left].
  destruct max_statements as [|k]; [cbn in Lm; lia|]. cbn [List.length] in Lm. rewrite Step. apply Rs. lia.
Qed.
