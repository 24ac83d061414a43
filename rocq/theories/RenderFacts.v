(** The SQL text of a definition determines what it says. *)
From Verif Require Export StrFacts Diff.

(** ** Numbers *)
Lemma is_digit_digit_char n : (n < 10)%N -> is_digit (digit_char n) = true.
Proof.
  intros H. assert (C : In n [0; 1; 2; 3; 4; 5; 6; 7; 8; 9]%N) by (simpl; lia).
  simpl in C. repeat (destruct C as [<-|C]; [reflexivity|]). destruct C.
Qed.
Lemma digits_of_pos_fuel_digits fuel : forall n acc,
  sforall is_digit acc = true -> sforall is_digit (digits_of_pos_fuel fuel n acc) = true.
Proof.
  induction fuel as [|f IH]; intros n acc H; [exact H|].
  cbn [digits_of_pos_fuel]. set (d := digit_char (N.modulo n 10)).
  assert (Hd : sforall is_digit (String d acc) = true).
  { cbn [sforall]. rewrite H. unfold d. rewrite is_digit_digit_char; [reflexivity|]. apply N.mod_lt. discriminate. }
  destruct (N.ltb n 10); auto.
Qed.
Lemma digits_of_pos_fuel_nonempty fuel : forall n acc, acc <> "" -> digits_of_pos_fuel fuel n acc <> "".
Proof.
  induction fuel as [|f IH]; intros n acc H; [exact H|].
  cbn [digits_of_pos_fuel]. destruct (N.ltb n 10); [discriminate|]. apply IH. discriminate.
Qed.
Lemma str_of_N_digits n : isdigit (str_of_N n) = true.
Proof.
  unfold isdigit, str_of_N. apply andb_true_iff. split; [|apply digits_of_pos_fuel_digits; reflexivity].
  apply truthy_iff. cbn [digits_of_pos_fuel]. destruct (N.ltb n 10); [discriminate|].
  apply digits_of_pos_fuel_nonempty. discriminate.
Qed.

(** Characters of numbers. *)
Definition is_numch (c : ascii) : bool := is_digit c || Ascii.eqb c "-"%char.
Lemma str_of_Z_numch z : sforall is_numch (str_of_Z z) = true /\ str_of_Z z <> "".
Proof.
  assert (A : forall n, sforall is_numch (str_of_N n) = true /\ str_of_N n <> "").
  { intros n. pose proof (str_of_N_digits n) as H. unfold isdigit in H. apply andb_true_iff in H as [H1 H2].
    split; [|apply truthy_iff, H1]. revert H2. apply sforall_imp. intros c Hc. unfold is_numch. rewrite Hc. reflexivity. }
  destruct z as [|p|p]; cbn [str_of_Z].
  - split; [reflexivity|discriminate].
  - apply A.
  - destruct (A (N.pos p)) as [H1 H2]. split; [cbn [sforall]; rewrite H1; reflexivity|discriminate].
Qed.
Lemma numch_not c : is_numch c = true -> Ascii.eqb " " c = false /\ Ascii.eqb "'" c = false.
Proof.
  intros H. split; apply Ascii.eqb_neq; intros <-; discriminate.
Qed.

(** ** Columns *)
Definition opt_text (b : bool) (s : string) : string := if b then s else "".

(** What stands between the parentheses after the type. *)
Definition paren_text (c : column) : option string :=
  match c_enum_values c with
  | Some (v :: vs) => Some ("'" ++ join "', '" (v :: vs) ++ "'")
  | _ => if length_shown (c_length c) then Some (length_str (c_length c)) else None
  end.

(** The DEFAULT literal. *)
Definition default_lit (d : cdefault) : option string :=
  match d with
  | DNone => None
  | DInt z => Some (str_of_Z z)
  | DStr s => Some (if is_empty s then "''" else if isdigit s then s else "'" ++ s ++ "'")
  end.

Definition charset_text (c : column) : string :=
  if is_string_kind (c_kind c) then match c_charset c with Some s => s | None => "" end else "".
Definition collate_text (c : column) : string :=
  if is_string_kind (c_kind c) then match c_collate c with Some s => s | None => "" end else "".

Definition paren_part (c : column) : string :=
  match paren_text c with Some s => "(" ++ s ++ ")" | None => "" end.
Definition default_part (c : column) : string :=
  match default_lit (c_default c) with Some s => " DEFAULT " ++ s | None => "" end.
Definition end_part (c : column) : string :=
  opt_text (truthy (charset_text c)) (" CHARACTER SET '" ++ charset_text c ++ "'")
  ++ opt_text (truthy (collate_text c)) (" COLLATE '" ++ collate_text c ++ "'").
Definition flags_part (c : column) : string :=
  opt_text (tru_ob (c_unsigned c)) " UNSIGNED" ++ opt_text (negb (c_null c)) " NOT NULL"
  ++ default_part c ++ opt_text (tru_ob (c_autoinc c)) " AUTO_INCREMENT" ++ end_part c.

Lemma type_string_eq c : type_string c = c_type c ++ paren_part c.
Proof.
  unfold type_string, paren_part, paren_text.
  destruct (c_enum_values c) as [[|v vs]|].
  - destruct (length_shown (c_length c)); [reflexivity|]. rewrite sapp_nil_r. reflexivity.
  - cbn [append]. rewrite !sapp_assoc. reflexivity.
  - destruct (length_shown (c_length c)); [reflexivity|]. rewrite sapp_nil_r. reflexivity.
Qed.

Lemma column_str_eq c : column_str c = "`" ++ c_name c ++ "` " ++ c_type c ++ paren_part c ++ flags_part c.
Proof.
  assert (B : column_str_base c = "`" ++ c_name c ++ "` " ++ c_type c ++ paren_part c
              ++ opt_text (tru_ob (c_unsigned c)) " UNSIGNED" ++ opt_text (negb (c_null c)) " NOT NULL"
              ++ default_part c ++ opt_text (tru_ob (c_autoinc c)) " AUTO_INCREMENT").
  { unfold column_str_base. rewrite type_string_eq.
    set (T := c_type c ++ paren_part c).
    replace (c_type c ++ paren_part c ++ _) with
      (T ++ opt_text (tru_ob (c_unsigned c)) " UNSIGNED" ++ opt_text (negb (c_null c)) " NOT NULL"
              ++ default_part c ++ opt_text (tru_ob (c_autoinc c)) " AUTO_INCREMENT")
      by (unfold T; rewrite sapp_assoc; reflexivity).
    replace (join " " _) with
      ("`" ++ c_name c ++ "` " ++ join " " (T :: (if tru_ob (c_unsigned c) then ["UNSIGNED"] else [])
          +++ (if c_null c then [] else ["NOT NULL"]) +++ default_parts (c_default c)
          +++ (if tru_ob (c_autoinc c) then ["AUTO_INCREMENT"] else [])))
      by (cbn [app join append]; rewrite !sapp_assoc; reflexivity).
    do 3 f_equal. unfold default_part, default_parts, default_lit, opt_text.
    destruct (tru_ob (c_unsigned c)), (c_null c), (c_default c) as [|s|z], (tru_ob (c_autoinc c));
      try destruct (is_empty s) eqn:Es; try destruct (isdigit s) eqn:Ed;
      cbn [negb app join append]; rewrite ?sapp_nil_r, ?sapp_assoc; cbn [append]; rewrite ?sapp_assoc; reflexivity. }
  assert (E : column_str c = column_str_base c ++ end_part c).
  { unfold column_str, end_part, charset_text, collate_text.
    destruct (is_string_kind (c_kind c)); [|cbn; rewrite sapp_nil_r; reflexivity].
    destruct (c_charset c) as [s|], (c_collate c) as [s'|]; unfold opt_text;
      repeat match goal with |- context [truthy ?x] => destruct (truthy x) eqn:? end; cbn [append]; try discriminate; reflexivity. }
  rewrite E, B. unfold flags_part. rewrite !sapp_assoc. reflexivity.
Qed.

(** Columns whose texts are not ambiguous. *)
Definition opt_forall (p : string -> bool) (o : option string) : bool :=
  match o with Some s => p s | None => true end.
Definition no_char (c : ascii) (s : string) : bool := negb (has_char c s).
Definition clean_column (c : column) : bool :=
  no_char " " (c_type c) && no_char "(" (c_type c)
  && opt_forall (no_char ")") (paren_text c)
  && match c_default c with DStr s => no_char "'" s | _ => true end
  && no_char "'" (charset_text c) && no_char "'" (collate_text c).

Definition is_sp (c : ascii) : bool := Ascii.eqb " " c.

Lemma starts_opt b s r : starts is_sp s = true -> starts is_sp r = true -> starts is_sp (opt_text b s ++ r) = true.
Proof. intros H1 H2. destruct b; [|assumption]. destruct s; simpl in *; assumption. Qed.

Lemma end_starts c : starts is_sp (end_part c) = true.
Proof. unfold end_part. apply starts_opt; [reflexivity|]. destruct (truthy (collate_text c)); reflexivity. Qed.
Lemma default_starts c r : starts is_sp r = true -> starts is_sp (default_part c ++ r) = true.
Proof. intros H. unfold default_part. destruct (default_lit (c_default c)); [reflexivity|assumption]. Qed.
Lemma flags_starts c : starts is_sp (flags_part c) = true.
Proof.
  unfold flags_part. apply starts_opt; [reflexivity|]. apply starts_opt; [reflexivity|].
  apply default_starts. apply starts_opt; [reflexivity|]. apply end_starts.
Qed.

(** The second character tells the clauses apart. *)
Definition second (s : string) : option ascii := match s with String _ (String c _) => Some c | _ => None end.
Definition second_in (l : list ascii) (s : string) : Prop := second s = None \/ exists c, second s = Some c /\ In c l.
Lemma second_opt b c s r l :
  second s = Some c -> second_in l r -> second_in (c :: l) (opt_text b s ++ r).
Proof.
  intros E H. destruct b; simpl.
  - right. exists c. destruct s as [|x [|y s]]; simpl in *; try discriminate. injection E as ->. auto.
  - destruct H as [H|(x & H & I)]; [left; assumption|right; exists x; simpl; auto].
Qed.
Lemma end_second c : second_in ["C"%char] (end_part c).
Proof.
  unfold end_part, opt_text. destruct (truthy (charset_text c)), (truthy (collate_text c)); simpl;
    first [left; reflexivity | right; eexists; split; [reflexivity|left; reflexivity]].
Qed.
Lemma auto_second c : second_in ["A"; "C"]%char (opt_text (tru_ob (c_autoinc c)) " AUTO_INCREMENT" ++ end_part c).
Proof. apply second_opt; [reflexivity|apply end_second]. Qed.
Lemma default_second c :
  second_in ["D"; "A"; "C"]%char (default_part c ++ opt_text (tru_ob (c_autoinc c)) " AUTO_INCREMENT" ++ end_part c).
Proof.
  unfold default_part. destruct (default_lit (c_default c)) as [s|].
  - right. eexists. split; [reflexivity|left; reflexivity].
  - destruct (auto_second c) as [H|(x & H & I)]; [left; exact H|right; exists x; split; [exact H|right; exact I]].
Qed.
Lemma null_second c :
  second_in ["N"; "D"; "A"; "C"]%char (opt_text (negb (c_null c)) " NOT NULL" ++ default_part c
      ++ opt_text (tru_ob (c_autoinc c)) " AUTO_INCREMENT" ++ end_part c).
Proof. apply second_opt; [reflexivity|apply default_second]. Qed.

Lemma opt_cancel b b' s r r' ch l :
  second s = Some ch -> ~ In ch l -> second_in l r -> second_in l r' ->
  opt_text b s ++ r = opt_text b' s ++ r' -> b = b' /\ r = r'.
Proof.
  intros E N H H' Q. destruct b, b'; simpl in Q.
  - apply sapp_inj_l in Q. auto.
  - exfalso. subst r'. destruct s as [|x [|y s]]; simpl in *; try discriminate. injection E as ->.
    destruct H' as [H'|(z & H' & I)]; simpl in H'; [discriminate|]. injection H' as ->. auto.
  - exfalso. subst r. destruct s as [|x [|y s]]; simpl in *; try discriminate. injection E as ->.
    destruct H as [H|(z & H & I)]; simpl in H; [discriminate|]. injection H as ->. auto.
  - auto.
Qed.

(** A literal is a quoted text without quotes or a number. *)
Definition lit_ok (s : string) : Prop :=
  (exists x, s = "'" ++ x ++ "'" /\ no_char "'" x = true) \/ (sforall is_numch s = true /\ s <> "").
Lemma default_lit_ok d s :
  match d with DStr x => no_char "'" x = true | _ => True end -> default_lit d = Some s -> lit_ok s.
Proof.
  destruct d as [|x|z]; simpl; intros C [= <-].
  - destruct (is_empty x) eqn:E; [left; exists ""; auto|].
    destruct (isdigit x) eqn:D; [|left; exists x; auto].
    right. unfold isdigit in D. apply andb_true_iff in D as [D1 D2]. split; [|apply truthy_iff, D1].
    revert D2. apply sforall_imp. intros c H. unfold is_numch. rewrite H. reflexivity.
  - right. apply str_of_Z_numch.
Qed.

Lemma lit_cancel a b r s :
  lit_ok a -> lit_ok b -> starts is_sp r = true -> starts is_sp s = true ->
  a ++ r = b ++ s -> a = b /\ r = s.
Proof.
  intros [(x & -> & Hx)|[Hx Nx]] [(y & -> & Hy)|[Hy Ny]] Hr Hs E.
  - rewrite !sapp_assoc in E. apply (sapp_inj_l "'") in E. cbn [append] in E.
    unfold no_char in *. apply negb_true_iff, has_char_forall in Hx, Hy.
    destruct (cut_unique (Ascii.eqb "'") x y (String "'" r) (String "'" s)) as [-> [= ->]]; auto.
  - exfalso. destruct b as [|c b]; [congruence|]. simpl in E, Hy. injection E as <- _. discriminate.
  - exfalso. destruct a as [|c a]; [congruence|]. simpl in E, Hx. injection E as -> _. discriminate.
  - apply (cut_unique is_sp); auto; [revert Hx|revert Hy]; apply sforall_imp; intros c Hc; unfold is_sp;
      destruct (numch_not c Hc) as [-> _]; reflexivity.
Qed.

Lemma charset_cancel (l m : string) r s :
  no_char "'" l = true -> no_char "'" m = true ->
  (forall x, r <> " CHARACTER SET '" ++ x) -> (forall x, s <> " CHARACTER SET '" ++ x) ->
  opt_text (truthy l) (" CHARACTER SET '" ++ l ++ "'") ++ r = opt_text (truthy m) (" CHARACTER SET '" ++ m ++ "'") ++ s ->
  l = m /\ r = s.
Proof.
  intros Hl Hm Hr Hs E. unfold no_char in *. apply negb_true_iff, has_char_forall in Hl, Hm.
  destruct (truthy l) eqn:Tl, (truthy m) eqn:Tm; unfold opt_text in E.
  - rewrite !sapp_assoc in E. apply (sapp_inj_l " CHARACTER SET '") in E.
    destruct (cut_unique (Ascii.eqb "'") l m (String "'" r) (String "'" s)) as [-> [= ->]]; auto.
  - exfalso. apply (Hs (l ++ "'" ++ r)). etransitivity; [symmetry; exact E|]. rewrite !sapp_assoc. reflexivity.
  - exfalso. apply (Hr (m ++ "'" ++ s)). etransitivity; [exact E|]. rewrite !sapp_assoc. reflexivity.
  - apply truthy_false in Tl, Tm. subst. auto.
Qed.

Theorem column_text_determines a b :
  clean_column a = true -> clean_column b = true -> c_name a = c_name b ->
  column_str a = column_str b ->
  c_type a = c_type b /\ paren_text a = paren_text b
  /\ tru_ob (c_unsigned a) = tru_ob (c_unsigned b) /\ c_null a = c_null b
  /\ default_lit (c_default a) = default_lit (c_default b)
  /\ tru_ob (c_autoinc a) = tru_ob (c_autoinc b)
  /\ charset_text a = charset_text b /\ collate_text a = collate_text b.
Proof.
  unfold clean_column. rewrite !andb_true_iff.
  intros (((((A1 & A2) & A3) & A4) & A5) & A6) (((((B1 & B2) & B3) & B4) & B5) & B6) En E.
  rewrite !column_str_eq, En in E. do 3 apply sapp_inj_l in E.
  set (p := fun c => Ascii.eqb " " c || Ascii.eqb "(" c).
  assert (Hp : forall s, no_char " " s = true -> no_char "(" s = true -> sforall (fun c => negb (p c)) s = true).
  { intros s H1 H2. rewrite sforall_not. unfold no_char, has_char in *. apply negb_true_iff in H1, H2.
    apply negb_true_iff. clear -H1 H2. induction s as [|c s IH]; [reflexivity|]. cbn [sexists] in *.
    apply orb_false_iff in H1 as [H1 H1'], H2 as [H2 H2']. unfold p at 1. rewrite H1, H2, IH; auto. }
  assert (Sp : forall c, starts p (paren_part c ++ flags_part c) = true).
  { intros c. unfold paren_part. destruct (paren_text c); [reflexivity|]. cbn [append].
    pose proof (flags_starts c) as H. destruct (flags_part c); [reflexivity|]. cbn [starts] in *. unfold is_sp in H. unfold p. rewrite H. reflexivity. }
  apply (cut_unique p) in E as [Et E]; auto. split; [exact Et|].
  assert (P : paren_text a = paren_text b /\ flags_part a = flags_part b).
  { assert (F : forall c s, flags_part c <> "(" ++ s).
    { intros c s Q. pose proof (flags_starts c) as H. rewrite Q in H. discriminate. }
    unfold paren_part in E. destruct (paren_text a) as [x|], (paren_text b) as [y|].
    - rewrite !sapp_assoc in E. apply (sapp_inj_l "(") in E. simpl in A3, B3. unfold no_char in *.
      apply negb_true_iff, has_char_forall in A3, B3.
      destruct (cut_unique (Ascii.eqb ")") x y (String ")" (flags_part a)) (String ")" (flags_part b))) as [-> [= Q]]; auto.
    - exfalso. apply (F b ((x ++ ")") ++ flags_part a)). symmetry. exact E.
    - exfalso. apply (F a ((y ++ ")") ++ flags_part b)). exact E.
    - auto. }
  destruct P as [Pt Pf]. split; [exact Pt|]. unfold flags_part in Pf.
  apply (opt_cancel _ _ _ _ _ "U"%char ["N"; "D"; "A"; "C"]%char) in Pf as [Eu Pf];
    [|reflexivity|simpl; intros [H|[H|[H|[H|[]]]]]; discriminate|apply null_second|apply null_second].
  split; [exact Eu|].
  apply (opt_cancel _ _ _ _ _ "N"%char ["D"; "A"; "C"]%char) in Pf as [Ek Pf];
    [|reflexivity|simpl; intros [H|[H|[H|[]]]]; discriminate|apply default_second|apply default_second].
  split; [destruct (c_null a), (c_null b); simpl in Ek; congruence|].
  assert (D : default_lit (c_default a) = default_lit (c_default b)
              /\ opt_text (tru_ob (c_autoinc a)) " AUTO_INCREMENT" ++ end_part a
                 = opt_text (tru_ob (c_autoinc b)) " AUTO_INCREMENT" ++ end_part b).
  { assert (F : forall c s, opt_text (tru_ob (c_autoinc c)) " AUTO_INCREMENT" ++ end_part c <> " DEFAULT " ++ s).
    { intros c s Q. destruct (auto_second c) as [H|(x & H & I)]; rewrite Q in H; [discriminate|].
      injection H as <-. destruct I as [I|[I|[]]]; discriminate. }
    unfold default_part in Pf.
    destruct (default_lit (c_default a)) as [x|] eqn:Da, (default_lit (c_default b)) as [y|] eqn:Db.
    - rewrite !sapp_assoc in Pf. apply (sapp_inj_l " DEFAULT ") in Pf.
      apply lit_cancel in Pf as [-> Pf]; auto.
      + apply (default_lit_ok (c_default a)); [|assumption]. destruct (c_default a); auto.
      + apply (default_lit_ok (c_default b)); [|assumption]. destruct (c_default b); auto.
      + apply starts_opt; [reflexivity|apply end_starts].
      + apply starts_opt; [reflexivity|apply end_starts].
    - exfalso. rewrite sapp_assoc in Pf. eapply (F b). symmetry. exact Pf.
    - exfalso. rewrite sapp_assoc in Pf. eapply (F a). exact Pf.
    - auto. }
  destruct D as [Ed D]. split; [exact Ed|].
  apply (opt_cancel _ _ _ _ _ "A"%char ["C"]%char) in D as [Ea D];
    [|reflexivity|simpl; intros [H|[]]; discriminate|apply end_second|apply end_second].
  split; [exact Ea|]. unfold end_part in D.
  apply charset_cancel in D as [Ec D]; auto.
  - split; [exact Ec|].
    destruct (truthy (collate_text a)) eqn:Ta, (truthy (collate_text b)) eqn:Tb; unfold opt_text in D.
    + apply (sapp_inj_l " COLLATE '") in D. apply sapp_inj_r in D. exact D.
    + discriminate.
    + discriminate.
    + apply truthy_false in Ta, Tb. congruence.
  - intros x Q. destruct (truthy (collate_text a)); discriminate.
  - intros x Q. destruct (truthy (collate_text b)); discriminate.
Qed.

(** ** Indexes *)
Definition clean_index (i : index) : bool :=
  negb (list_is_nil (ix_columns i)) && forallb (no_char "`") (ix_columns i).
