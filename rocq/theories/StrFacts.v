(** Facts about strings: append, character classes, spans. *)
From Verif Require Export PyDict.

Lemma sapp_nil_r s : s ++ "" = s.
Proof. induction s as [|c s IH]; simpl; [reflexivity|]. rewrite IH. reflexivity. Qed.
Lemma sapp_assoc a b c : (a ++ b) ++ c = a ++ (b ++ c).
Proof. induction a as [|x a IH]; simpl; [reflexivity|]. rewrite IH. reflexivity. Qed.
Lemma sapp_inj_l a b c : a ++ b = a ++ c -> b = c.
Proof. induction a as [|x a IH]; simpl; [auto|]. intros [= H]. auto. Qed.
Lemma slength_app a b : String.length (a ++ b) = (String.length a + String.length b)%nat.
Proof. induction a as [|x a IH]; simpl; [reflexivity|]. rewrite IH. reflexivity. Qed.
Lemma sapp_inj_r a b c : a ++ c = b ++ c -> a = b.
Proof.
  revert b. induction a as [|x a IH]; intros [|y b] E; simpl in E; auto.
  - exfalso. apply (f_equal String.length) in E. simpl in E. rewrite slength_app in E. lia.
  - exfalso. apply (f_equal String.length) in E. simpl in E. rewrite slength_app in E. lia.
  - injection E as -> E. f_equal. auto.
Qed.
Lemma sapp_eq_nil a b : a ++ b = "" -> a = "" /\ b = "".
Proof. destruct a; simpl; [auto|discriminate]. Qed.

Lemma sforall_app p a b : sforall p (a ++ b) = sforall p a && sforall p b.
Proof. induction a as [|x a IH]; simpl; [reflexivity|]. rewrite IH, andb_assoc. reflexivity. Qed.
Lemma sexists_app p a b : sexists p (a ++ b) = sexists p a || sexists p b.
Proof. induction a as [|x a IH]; simpl; [reflexivity|]. rewrite IH, orb_assoc. reflexivity. Qed.
Lemma sforall_not p s : sforall (fun c => negb (p c)) s = negb (sexists p s).
Proof. induction s as [|x s IH]; simpl; [reflexivity|]. rewrite IH, negb_orb. reflexivity. Qed.
Lemma sforall_imp (p q : ascii -> bool) s :
  (forall c, p c = true -> q c = true) -> sforall p s = true -> sforall q s = true.
Proof.
  intros H. induction s as [|x s IH]; simpl; [auto|]. rewrite !andb_true_iff. intros [A B]. auto.
Qed.

(** The first character satisfies [p], or there is none. *)
Definition starts (p : ascii -> bool) (s : string) : bool :=
  match s with EmptyString => true | String c _ => p c end.

Lemma starts_app p a b : a <> "" -> starts p (a ++ b) = starts p a.
Proof. destruct a; simpl; [congruence|reflexivity]. Qed.

(** Two ways to cut one string at the first character of a class agree. *)
Lemma cut_unique p a b r s :
  sforall (fun c => negb (p c)) a = true -> sforall (fun c => negb (p c)) b = true ->
  starts p r = true -> starts p s = true -> a ++ r = b ++ s -> a = b /\ r = s.
Proof.
  revert b. induction a as [|x a IH]; intros b Ha Hb Hr Hs E.
  - simpl in E. subst r. destruct b as [|y b]; [auto|]. simpl in *. apply andb_true_iff in Hb as [Hb _].
    rewrite Hr in Hb. discriminate.
  - destruct b as [|y b]; simpl in *.
    + subst s. apply andb_true_iff in Ha as [Ha _]. simpl in Hs. rewrite Hs in Ha. discriminate.
    + injection E as -> E. apply andb_true_iff in Ha as [_ Ha]. apply andb_true_iff in Hb as [_ Hb].
      destruct (IH b Ha Hb Hr Hs E) as [-> ->]. auto.
Qed.

(** [span] on a string cut at the class. *)
Lemma span_app p a r :
  sforall p a = true -> starts (fun c => negb (p c)) r = true -> span p (a ++ r) = (a, r).
Proof.
  induction a as [|x a IH]; simpl; intros Ha Hr.
  - destruct r as [|c r]; simpl; [reflexivity|]. simpl in Hr. apply negb_true_iff in Hr. rewrite Hr. reflexivity.
  - apply andb_true_iff in Ha as [Hx Ha]. rewrite Hx, (IH Ha Hr). reflexivity.
Qed.
Lemma span_spec p s : let '(a, b) := span p s in
  s = a ++ b /\ sforall p a = true /\ starts (fun c => negb (p c)) b = true.
Proof.
  induction s as [|c s IH]; simpl; [auto|]. destruct (p c) eqn:P.
  - destruct (span p s) as [a b]. destruct IH as (-> & A & B). simpl. rewrite P. auto.
  - simpl. rewrite P. auto.
Qed.

Lemma has_char_app c a b : has_char c (a ++ b) = has_char c a || has_char c b.
Proof. apply sexists_app. Qed.
Lemma has_char_forall c s : has_char c s = false <-> sforall (fun d => negb (Ascii.eqb c d)) s = true.
Proof. rewrite sforall_not, negb_true_iff. reflexivity. Qed.

Lemma truthy_iff s : truthy s = true <-> s <> "".
Proof. destruct s; cbv; split; intros H; try discriminate; try reflexivity. exfalso; apply H; reflexivity. Qed.
Lemma truthy_false s : truthy s = false <-> s = "".
Proof. destruct s; cbv; split; intros H; try discriminate; reflexivity. Qed.
Lemma is_empty_iff s : is_empty s = true <-> s = "".
Proof. destruct s; cbv; split; intros H; try discriminate; reflexivity. Qed.

(** ** join *)
Lemma join_cons sep x l : l <> [] -> join sep (x :: l) = x ++ sep ++ join sep l.
Proof. destruct l; [congruence|reflexivity]. Qed.

(** Members without the first character of the separator are determined by the joined text. *)
Lemma join_inj c sep l m :
  l <> [] -> m <> [] ->
  Forall (fun x => has_char c x = false) l -> Forall (fun x => has_char c x = false) m ->
  join (String c sep) l = join (String c sep) m -> l = m.
Proof.
  revert m. induction l as [|x l IH]; intros m Nl Nm Fl Fm E; [congruence|].
  destruct m as [|y m]; [congruence|].
  inversion Fl as [|? ? Fx Fl']; subst. inversion Fm as [|? ? Fy Fm']; subst.
  apply has_char_forall in Fx, Fy.
  assert (J : forall z k, exists r, join (String c sep) (z :: k) = z ++ r /\ starts (Ascii.eqb c) r = true
                /\ r = match k with [] => "" | _ => String c sep ++ join (String c sep) k end).
  { intros z [|w k]; eexists; (split; [|split; [|reflexivity]]).
    - simpl. rewrite sapp_nil_r. reflexivity.
    - reflexivity.
    - reflexivity.
    - simpl. apply Ascii.eqb_refl. }
  destruct (J x l) as (r & E1 & S1 & R1), (J y m) as (s & E2 & S2 & R2).
  rewrite E1, E2 in E.
  destruct (cut_unique (Ascii.eqb c) x y r s) as [-> Ers]; auto.
  f_equal. rewrite R1, R2 in Ers. destruct l as [|x' l], m as [|y' m]; auto; try discriminate.
  apply sapp_inj_l in Ers. apply IH; auto; discriminate.
Qed.
