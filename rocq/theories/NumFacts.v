(** Decimal numbers: [int] of what [str] writes, and back. *)
From Verif Require Export RenderFacts.

Fixpoint valN (s : string) (a : N) : N :=
  match s with EmptyString => a | String c s' => valN s' (a * 10 + (code c - 48))%N end.

Lemma digit_range c : is_digit c = true -> (48 <= code c <= 57)%N.
Proof. unfold is_digit, in_range. rewrite andb_true_iff, !N.leb_le. tauto. Qed.
Lemma int_digits_val s : forall a b, sforall is_digit s = true -> (b = true \/ truthy s = true) ->
  int_digits s (Z.of_N a) b = Some (Z.of_N (valN s a)).
Proof.
  induction s as [|c s IH]; intros a b D H; simpl in *.
  - destruct H as [->|]; [reflexivity|discriminate].
  - apply andb_true_iff in D as [Dc D]. rewrite Dc. pose proof (digit_range _ Dc).
    replace (Z.of_N a * 10 + (Z.of_N (code c) - 48))%Z with (Z.of_N (a * 10 + (code c - 48)))%N by lia.
    apply IH; auto.
Qed.
Lemma valN_app s t a : valN (s ++ t) a = valN t (valN s a).
Proof. revert a. induction s as [|c s IH]; intros a; simpl; auto. Qed.

Lemma digit_char_code d : (d < 10)%N -> code (digit_char d) = (48 + d)%N /\ is_digit (digit_char d) = true.
Proof.
  intros H. destruct d as [|p]; [split; reflexivity|].
  do 4 (destruct p; try (split; reflexivity); try lia).
Qed.

Lemma digits_val f : forall n acc, (n < 10 ^ N.of_nat f)%N -> (0 < f)%nat ->
  valN (digits_of_pos_fuel f n acc) 0 = valN acc n.
Proof.
  induction f as [|f IH]; intros n acc H F; [lia|]. cbn [digits_of_pos_fuel].
  assert (M : (n mod 10 < 10)%N) by (apply N.mod_lt; discriminate).
  destruct (digit_char_code _ M) as [C _].
  destruct (N.ltb_spec n 10).
  - cbn [valN]. rewrite C. rewrite N.mod_small by assumption. f_equal. lia.
  - rewrite IH.
    + cbn [valN]. rewrite C. f_equal. pose proof (N.div_mod' n 10) as Q. revert Q M. generalize (n / 10)%N (n mod 10)%N. intros. lia.
    + rewrite Nat2N.inj_succ, N.pow_succ_r' in H. apply N.div_lt_upper_bound; [discriminate|exact H].
    + destruct f; [|lia]. simpl in H. lia.
Qed.
Lemma fuel_enough n : (n < 10 ^ N.of_nat (S (N.to_nat (N.size n))))%N.
Proof.
  rewrite Nat2N.inj_succ, N2Nat.id, N.pow_succ_r'.
  assert (n < 2 ^ N.size n)%N by apply N.size_gt.
  assert (2 ^ N.size n <= 10 ^ N.size n)%N by (apply N.pow_le_mono_l; lia). lia.
Qed.
Lemma str_of_N_val n : valN (str_of_N n) 0 = n.
Proof. unfold str_of_N. rewrite digits_val; [reflexivity|apply fuel_enough|lia]. Qed.

Lemma digit_not_space c : is_digit c = true -> is_space c = false.
Proof.
  intros D. apply digit_range in D. unfold is_space, in_range.
  rewrite orb_false_iff, !andb_false_iff, !N.leb_gt. lia.
Qed.
Lemma lstrip_digits s : sforall is_digit s = true -> lstrip_by is_space s = s.
Proof. destruct s as [|c s]; [reflexivity|]. simpl. rewrite andb_true_iff. intros [D _]. rewrite (digit_not_space _ D). reflexivity. Qed.
Lemma rstrip_none p s : sexists p s = false -> rstrip_by p s = s.
Proof.
  induction s as [|c s IH]; [reflexivity|]. cbn [sexists]. rewrite orb_false_iff. intros [C S]. cbn [rstrip_by].
  rewrite (IH S). destruct s; [rewrite C; reflexivity|reflexivity].
Qed.
Lemma lstrip_none p s : sexists p s = false -> lstrip_by p s = s.
Proof. destruct s as [|c s]; [reflexivity|]. cbn [sexists lstrip_by]. rewrite orb_false_iff. intros [C _]. rewrite C. reflexivity. Qed.
Lemma strip_none p s : sexists p s = false -> strip_by p s = s.
Proof. intros H. unfold strip_by. rewrite rstrip_none by exact H. apply lstrip_none, H. Qed.
Lemma digits_no_space s : sforall is_digit s = true -> sexists is_space s = false.
Proof.
  intros D. apply negb_true_iff. rewrite <- sforall_not. eapply sforall_imp; [|exact D].
  intros c H. rewrite (digit_not_space _ H). reflexivity.
Qed.

Lemma py_int_digits s : isdigit s = true -> py_int s = Some (Z.of_N (valN s 0)).
Proof.
  unfold isdigit. rewrite andb_true_iff. intros [T D]. unfold py_int, strip. rewrite strip_none by (apply digits_no_space, D).
  pose proof (int_digits_val s 0 false D (or_intror T)) as E. change (Z.of_N 0) with 0%Z in E.
  destruct s as [|c s]; [discriminate|]. simpl in D. apply andb_true_iff in D as [Dc _].
  rewrite <- E. destruct c as [[] [] [] [] [] [] [] []]; try reflexivity; discriminate Dc.
Qed.
Lemma py_int_str z : py_int (str_of_Z z) = Some z.
Proof.
  destruct z as [|p|p]; [reflexivity| |]; unfold str_of_Z.
  - rewrite py_int_digits by apply str_of_N_digits. rewrite str_of_N_val. reflexivity.
  - pose proof (str_of_N_digits (N.pos p)) as D. unfold isdigit in D. apply andb_true_iff in D as [T D].
    unfold py_int, strip. rewrite strip_none.
    + pose proof (int_digits_val (str_of_N (N.pos p)) 0 false D (or_intror T)) as E. change (Z.of_N 0) with 0%Z in E.
      rewrite E, str_of_N_val. reflexivity.
    + cbn [sexists]. rewrite (digits_no_space _ D). reflexivity.
Qed.

(** Numbers without leading zeros. *)
Definition canonical (s : string) : bool :=
  isdigit s && match s with String c (String _ _) => negb (Ascii.eqb c "0") | _ => true end.

Lemma snoc_ind (P : string -> Prop) : P "" -> (forall s c, P s -> P (s ++ String c "")) -> forall s, P s.
Proof.
  intros H0 H1 s. assert (G : forall t u, P u -> P (u ++ t)).
  { induction t as [|c t IH]; intros u Hu; [rewrite sapp_nil_r; exact Hu|].
    replace (u ++ String c t) with ((u ++ String c "") ++ t) by (rewrite sapp_assoc; reflexivity). apply IH, H1, Hu. }
  apply (G s "" H0).
Qed.

Lemma valN_pos s a : (0 < a)%N -> (0 < valN s a)%N.
Proof. revert a. induction s as [|c s IH]; intros a H; simpl; [exact H|]. apply IH. lia. Qed.

Lemma canonical_digits : forall t f acc, canonical t = true -> (valN t 0 < 10 ^ N.of_nat f)%N -> (0 < f)%nat ->
  digits_of_pos_fuel f (valN t 0) acc = t ++ acc.
Proof.
  induction t as [|t c IH] using snoc_ind; intros f acc C L F; [discriminate|].
  unfold canonical, isdigit in C. rewrite !andb_true_iff in C. destruct C as [[_ D] Z].
  rewrite sforall_app in D. apply andb_true_iff in D as [Dt Dc]. simpl in Dc. rewrite andb_true_r in Dc.
  pose proof (digit_range _ Dc) as R. rewrite valN_app in *. cbn [valN] in *.
  assert (CC : digit_char (code c - 48) = c).
  { unfold digit_char. replace (48 + (code c - 48))%N with (code c) by lia. apply ascii_N_embedding. }
  destruct f as [|f]; [lia|]. cbn [digits_of_pos_fuel]. destruct t as [|d t].
  - cbn [valN append]. replace (0 * 10 + (code c - 48))%N with (code c - 48)%N by lia.
    rewrite N.mod_small by lia. rewrite CC. destruct (N.ltb_spec (code c - 48) 10); [reflexivity|lia].
  - assert (P : (0 < valN (String d t) 0)%N).
    { cbn [valN]. apply valN_pos. cbn [append] in Z. simpl in Dt. apply andb_true_iff in Dt as [Dd _]. apply digit_range in Dd.
      assert (code d <> 48)%N; [|lia]. intros E. destruct (t ++ String c "") eqn:Et; [destruct t; discriminate|].
      apply negb_true_iff, Ascii.eqb_neq in Z. apply Z. rewrite <- (ascii_N_embedding d). unfold code in E. rewrite E. reflexivity. }
    set (n := valN (String d t) 0) in *.
    assert (M : ((n * 10 + (code c - 48)) mod 10 = code c - 48)%N).
    { rewrite N.add_comm, N.mod_add by discriminate. apply N.mod_small. lia. }
    assert (Q : ((n * 10 + (code c - 48)) / 10 = n)%N).
    { rewrite N.add_comm, N.div_add by discriminate. rewrite N.div_small by lia. lia. }
    rewrite M, Q, CC. destruct (N.ltb_spec (n * 10 + (code c - 48)) 10); [lia|].
    rewrite IH.
    + rewrite sapp_assoc. reflexivity.
    + unfold canonical, isdigit. rewrite Dt. simpl. destruct t; [reflexivity|]. cbn [append] in Z. exact Z.
    + rewrite Nat2N.inj_succ, N.pow_succ_r' in L. lia.
    + destruct f; [|lia]. simpl in L. lia.
Qed.
Lemma canonical_str s : canonical s = true -> str_of_N (valN s 0) = s.
Proof.
  intros C. unfold str_of_N. rewrite canonical_digits; [apply sapp_nil_r|exact C|apply fuel_enough|lia].
Qed.
Lemma str_of_Z_N n : str_of_Z (Z.of_N n) = str_of_N n.
Proof. destruct n; reflexivity. Qed.
Lemma canonical_py_int s : canonical s = true -> option_map str_of_Z (py_int s) = Some s.
Proof.
  intros C. rewrite py_int_digits by (unfold canonical in C; apply andb_true_iff in C; tauto).
  simpl. rewrite str_of_Z_N, canonical_str by exact C. reflexivity.
Qed.
