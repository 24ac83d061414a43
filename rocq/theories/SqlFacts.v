(** Reading rendered text back: the pieces of a statement and how they fit together. *)
From Verif Require Export SpecSql Facts StrFacts.

(** ** Pieces *)
Definition breaks (s : string) : bool :=
  match s with
  | EmptyString => true
  | String c _ => negb (sql_word c || is_textquote c || Ascii.eqb c bquote)
  end.
(** A piece readable before anything, or before text that does not continue it. *)
Definition hard (a : string) (ts : list tok) : Prop := forall r, lex LStart (a ++ r) = pre ts (lex LStart r).
Definition soft (a : string) (ts : list tok) : Prop := forall r, breaks r = true -> lex LStart (a ++ r) = pre ts (lex LStart r).

Lemma pre_app a b o : pre (a +++ b) o = pre a (pre b o).
Proof. destruct o; simpl; [rewrite app_assoc|]; reflexivity. Qed.
Lemma pre_nil o : pre [] o = o.
Proof. destruct o; reflexivity. Qed.

Lemma hard_soft a ts : hard a ts -> soft a ts.
Proof. intros H r _. apply H. Qed.
Lemma hard_app a b ts us : hard a ts -> hard b us -> hard (a ++ b) (ts +++ us).
Proof. intros A B r. rewrite sapp_assoc, A, B, pre_app. reflexivity. Qed.
Lemma hard_soft_app a b ts us : hard a ts -> soft b us -> soft (a ++ b) (ts +++ us).
Proof. intros A B r H. rewrite sapp_assoc, A, B, pre_app by exact H. reflexivity. Qed.
Definition opens (b : string) : bool := match b with EmptyString => false | _ => breaks b end.
Lemma breaks_app b r : opens b = true -> breaks (b ++ r) = true.
Proof. destruct b; simpl; [discriminate|auto]. Qed.
Lemma soft_hard_app a b ts us : soft a ts -> opens b = true -> hard b us -> hard (a ++ b) (ts +++ us).
Proof. intros A O B r. rewrite sapp_assoc, A, B, pre_app by (apply breaks_app, O). reflexivity. Qed.
Lemma soft_soft_app a b ts us : soft a ts -> opens b = true -> soft b us -> soft (a ++ b) (ts +++ us).
Proof. intros A O B r H. rewrite sapp_assoc, A by (apply breaks_app, O). rewrite B, pre_app by exact H. reflexivity. Qed.
Lemma soft_nil : soft "" [].
Proof. intros r _. simpl. rewrite pre_nil. reflexivity. Qed.
Lemma hard_nil : hard "" [].
Proof. intros r. simpl. rewrite pre_nil. reflexivity. Qed.
Lemma soft_end a ts : soft a ts -> tokens a = Some ts.
Proof. intros A. specialize (A "" eq_refl). rewrite sapp_nil_r in A. unfold tokens. rewrite A. simpl. rewrite app_nil_r. reflexivity. Qed.

(** ** Words, names and literals *)
Lemma lword_breaks a r : breaks r = true -> lex (LWord a) r = pre [TWord a] (lex LStart r).
Proof.
  destruct r as [|c r]; [reflexivity|]. cbn [breaks]. rewrite negb_true_iff, !orb_false_iff. intros [[W _] _].
  cbn [lex]. rewrite W. reflexivity.
Qed.
Lemma ltext_breaks a r : breaks r = true -> lex (LTextEnd squote a) r = pre [TText a] (lex LStart r).
Proof.
  destruct r as [|c r]; [reflexivity|]. cbn [breaks]. rewrite negb_true_iff, !orb_false_iff. intros [[_ T] _].
  cbn [lex]. unfold is_textquote in T. rewrite orb_false_iff in T. destruct T as [T1 _]. rewrite T1. reflexivity.
Qed.
Lemma lname_breaks a r : breaks r = true -> lex (LNameEnd a) r = pre [TName a] (lex LStart r).
Proof.
  destruct r as [|c r]; [reflexivity|]. cbn [breaks]. rewrite negb_true_iff, !orb_false_iff. intros [[_ _] T].
  cbn [lex]. rewrite T. reflexivity.
Qed.

Lemma snoc_app a c s : snoc a c ++ s = a ++ String c s.
Proof. unfold snoc. rewrite sapp_assoc. reflexivity. Qed.

Lemma lname_run n : forall a r, good_name n = true -> lex (LName a) (n ++ String bquote r) = lex (LNameEnd (a ++ n)) r.
Proof.
  unfold good_name. induction n as [|c n IH]; intros a r H.
  - cbn [append lex]. rewrite Ascii.eqb_refl, sapp_nil_r. reflexivity.
  - simpl has_char in H. unfold has_char in *. cbn [sexists] in H. rewrite negb_orb, andb_true_iff, negb_true_iff in H. destruct H as [H1 H2].
    cbn [append lex]. rewrite Ascii.eqb_sym in H1. rewrite H1, IH by exact H2. rewrite snoc_app. reflexivity.
Qed.
Lemma soft_name n : good_name n = true -> soft (bq n) [TName n].
Proof.
  intros H r B. unfold bq. rewrite !sapp_assoc. change ("`" ++ n ++ "`" ++ r) with (String bquote (n ++ String bquote r)).
  change (lex LStart (String bquote (n ++ String bquote r))) with (lex (LName "") (n ++ String bquote r)).
  rewrite lname_run by exact H. simpl. apply lname_breaks, B.
Qed.

(** Literals: text whose characters stand for themselves, with backslashes doubled or not. *)
Lemma ltext_plain s : forall a r, good_text s = true ->
  lex (LText squote a) (s ++ String squote r) = lex (LTextEnd squote (a ++ s)) r.
Proof.
  unfold good_text, has_char. induction s as [|c s IH]; intros a r H.
  - cbn [append lex]. rewrite Ascii.eqb_refl, sapp_nil_r. reflexivity.
  - cbn [sexists] in H. rewrite !negb_orb, !andb_true_iff, !negb_true_iff in H. destruct H as [[H1 H2] [H3 H4]].
    cbn [append lex]. rewrite Ascii.eqb_sym in H1. rewrite Ascii.eqb_sym in H3. rewrite H1, H3, IH.
    + rewrite snoc_app. reflexivity.
    + rewrite !negb_orb, H2, H4. reflexivity.
Qed.
Lemma ltext_update s : forall a r, has_char squote s = false ->
  lex (LText squote a) (replace1 backslash "\\" s ++ String squote r) = lex (LTextEnd squote (a ++ s)) r.
Proof.
  unfold has_char. induction s as [|c s IH]; intros a r H.
  - cbn [append lex replace1]. rewrite Ascii.eqb_refl, sapp_nil_r. reflexivity.
  - cbn [sexists] in H. rewrite orb_false_iff in H. destruct H as [H1 H2]. rewrite Ascii.eqb_sym in H1. cbn [replace1].
    destruct (Ascii.eqb_spec c backslash) as [->|N].
    + cbn [append]. change (lex (LText squote a) (String "\" (String "\" (replace1 backslash "\\" s ++ String squote r))))
        with (lex (LText squote (a ++ "\")) (replace1 backslash "\\" s ++ String squote r)).
      rewrite IH by exact H2. rewrite sapp_assoc. reflexivity.
    + cbn [append lex]. rewrite H1. destruct (Ascii.eqb_spec c backslash); [contradiction|]. rewrite IH by exact H2.
      rewrite snoc_app. reflexivity.
Qed.
Lemma ltext_insert s : forall a r,
  lex (LText squote a) (escape_insert s ++ String squote r) = lex (LTextEnd squote (a ++ s)) r.
Proof.
  unfold escape_insert. induction s as [|c s IH]; intros a r.
  - cbn [append lex replace1]. rewrite Ascii.eqb_refl, sapp_nil_r. reflexivity.
  - cbn [replace1]. destruct (Ascii.eqb_spec c backslash) as [->|N].
    + cbn [append]. cbn [replace1].
      change (Ascii.eqb "\" squote) with false. cbn iota.
      change (lex (LText squote a) (String "\" (String "\" (replace1 squote "\'" (replace1 backslash "\\" s))) ++ String squote r))
        with (lex (LText squote (a ++ "\")) (replace1 squote "\'" (replace1 backslash "\\" s) ++ String squote r)).
      rewrite IH, sapp_assoc. reflexivity.
    + cbn [replace1]. destruct (Ascii.eqb_spec c squote) as [->|N'].
      * rewrite sapp_assoc. change (lex (LText squote a) ("\'" ++ replace1 squote "\'" (replace1 backslash "\\" s) ++ String squote r))
          with (lex (LText squote (a ++ "'")) (replace1 squote "\'" (replace1 backslash "\\" s) ++ String squote r)).
        rewrite IH, sapp_assoc. reflexivity.
      * cbn [append lex]. destruct (Ascii.eqb_spec c squote); [contradiction|]. destruct (Ascii.eqb_spec c backslash); [contradiction|].
        rewrite IH, snoc_app. reflexivity.
Qed.
Lemma soft_literal body s : (forall a r, lex (LText squote a) (body ++ String squote r) = lex (LTextEnd squote (a ++ s)) r) ->
  soft ("'" ++ body ++ "'") [TText s].
Proof.
  intros H r B. rewrite !sapp_assoc. change ("'" ++ body ++ "'" ++ r) with (String squote (body ++ String squote r)).
  change (lex LStart (String squote (body ++ String squote r))) with (lex (LText squote "") (body ++ String squote r)).
  rewrite H. simpl. apply ltext_breaks, B.
Qed.
Lemma soft_text s : good_text s = true -> soft ("'" ++ s ++ "'") [TText s].
Proof. intros H. apply soft_literal. intros. apply ltext_plain, H. Qed.
Lemma soft_insert_value v : soft (insert_value v) (value_tokens v).
Proof.
  destruct v; try (apply (soft_literal _ _ (fun a r => ltext_insert _ a r))).
  intros r B. change (lex LStart ("NULL" ++ r)) with (lex (LWord "NULL") r). apply lword_breaks, B.
Qed.
Lemma soft_update_value v : has_char squote (rval_str v) = false -> soft (update_value v) (value_tokens v).
Proof.
  intros H. destruct v; try (apply soft_literal; intros; apply ltext_update, H).
  intros r B. change (lex LStart ("NULL" ++ r)) with (lex (LWord "NULL") r). apply lword_breaks, B.
Qed.

(** Free text. *)
Lemma free_run s : plain s = true -> forall m, (m = LStart \/ exists a, m = LWord a) ->
  exists ts, lex m s = Some ts /\ forall r, breaks r = true -> lex m (s ++ r) = pre ts (lex LStart r).
Proof.
  induction s as [|c s IH]; intros P m Hm.
  - destruct Hm as [->|(a & ->)]; simpl; eexists; (split; [reflexivity|]); intros r B.
    + rewrite pre_nil. reflexivity.
    + apply lword_breaks, B.
  - unfold plain in P. cbn [sforall] in P. apply andb_true_iff in P as [Pc P]. rewrite negb_true_iff, orb_false_iff in Pc.
    destruct Pc as [P1 P2]. specialize (IH P).
    assert (S : exists ts, lex LStart (String c s) = Some ts /\ forall r, breaks r = true -> lex LStart (String c s ++ r) = pre ts (lex LStart r)).
    { cbn [append lex]. destruct (sql_space c); [apply IH; auto|]. destruct (sql_word c); [apply IH; eauto|].
      rewrite P1, P2. destruct (IH LStart (or_introl eq_refl)) as (ts & E & F). rewrite E. eexists. split; [reflexivity|].
      intros r B. rewrite F by exact B. rewrite <- pre_app. reflexivity. }
    destruct Hm as [->|(a & ->)]; [exact S|]. cbn [append lex]. destruct (sql_word c) eqn:W; [apply IH; eauto|].
    cbn [append lex] in S. rewrite W in S. destruct S as (ts & E & F). rewrite E. eexists. split; [reflexivity|].
    intros r B. rewrite F by exact B. rewrite <- pre_app. reflexivity.
Qed.
Lemma soft_free s : plain s = true -> soft s (free s).
Proof.
  intros P. destruct (free_run s P LStart (or_introl eq_refl)) as (ts & E & F). unfold free, tokens. rewrite E. exact F.
Qed.

(** ** Joined pieces *)
Lemma soft_join sep us l tss : hard sep us -> opens sep = true -> Forall2 soft l tss ->
  soft (join sep l) ((fix go l := match l with [] => [] | [x] => x | x :: l' => x +++ us +++ go l' end) tss).
Proof.
  intros S O F. induction F as [|a ts l tss A F IH]; [apply soft_nil|].
  inversion F as [|b us' l' tss' B F']; subst; [exact A|].
  change (join sep (a :: b :: l')) with (a ++ sep ++ join sep (b :: l')).
  apply soft_soft_app; [exact A|destruct sep; [discriminate|exact O]|].
  apply hard_soft_app; [exact S|exact IH].
Qed.
Lemma soft_spaces l tss : Forall2 soft l tss -> soft (join " " l) (concat tss).
Proof.
  intros F. pose proof (soft_join " " [] l tss (fun r => eq_sym (pre_nil _)) eq_refl F) as S.
  replace (concat tss) with ((fix go l := match l with [] => [] | [x] => x | x :: l' => x +++ [] +++ go l' end) tss); [exact S|].
  clear. induction tss as [|x [|y l] IH]; [reflexivity|simpl; rewrite app_nil_r; reflexivity|].
  cbn [concat] in *. rewrite IH. reflexivity.
Qed.
Lemma soft_commas sep l tss : hard sep [TPunct ","] -> opens sep = true -> Forall2 soft l tss -> soft (join sep l) (commas tss).
Proof.
  intros S O F. pose proof (soft_join sep _ l tss S O F) as J.
  replace (commas tss) with ((fix go l := match l with [] => [] | [x] => x | x :: l' => x +++ [TPunct ","] +++ go l' end) tss); [exact J|].
  clear. induction tss as [|x [|y l] IH]; [reflexivity|reflexivity|].
  cbn [commas] in *. rewrite IH. reflexivity.
Qed.
Lemma Forall2_map {A B C} (R : B -> C -> Prop) (f : A -> B) (g : A -> C) l :
  (forall a, In a l -> R (f a) (g a)) -> Forall2 R (map f l) (map g l).
Proof. induction l; simpl; intros H; constructor; auto. Qed.

Ltac lit := let r := fresh in intros r; first [reflexivity | simpl; destruct (lex LStart r); reflexivity].
Lemma soft_word w : truthy w = true -> sforall sql_word w = true -> sexists sql_space w = false -> soft w [TWord w].
Proof.
  intros T W Sp.
  assert (G : forall v a r, sforall sql_word v = true -> breaks r = true -> lex (LWord a) (v ++ r) = pre [TWord (a ++ v)] (lex LStart r)).
  { clear. induction v as [|c v IH]; intros a r W B; [simpl; rewrite sapp_nil_r; apply lword_breaks, B|].
    cbn [sforall] in W. apply andb_true_iff in W as [Wc W]. cbn [append lex]. rewrite Wc, IH by assumption. rewrite snoc_app. reflexivity. }
  destruct w as [|c w]; [discriminate|]. intros r B. cbn [sforall] in W. apply andb_true_iff in W as [Wc W].
  cbn [sexists] in Sp. apply orb_false_iff in Sp as [S1 S2]. cbn [append lex]. rewrite S1, Wc, G by assumption. reflexivity.
Qed.
