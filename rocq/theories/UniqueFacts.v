(** The rows of a server while the statements of a plan are executed. *)
From Verif Require Export SpecUnique RowFacts.

Lemma nodup_apart {A} (p q : list A) x : NoDup (p +++ q) -> In x p -> In x q -> False.
Proof.
  induction p as [|y p IH]; simpl; intros ND H H'; [tauto|]. inversion ND as [|? ? Hn ND']; subst.
  destruct H as [->|H]; [|auto]. apply Hn, in_app_iff. auto.
Qed.
Lemma nodup_split {A} (x : A) p q p' q' : NoDup (p +++ x :: q) -> p +++ x :: q = p' +++ x :: q' -> p = p' /\ q = q'.
Proof.
  revert p'. induction p as [|y p IH]; simpl; intros p' ND E.
  - destruct p' as [|z p']; simpl in E; injection E; [auto|]. intros -> <-. exfalso. inversion ND as [|? ? Hn _]; subst.
    apply Hn, in_app_iff. right. left. reflexivity.
  - inversion ND as [|? ? Hn ND']; subst. destruct p' as [|z p']; simpl in E.
    + injection E as -> E. exfalso. apply Hn, in_app_iff. right. left. reflexivity.
    + injection E as <- E. destruct (IH _ ND' E) as [-> ->]. auto.
Qed.

Section Exec.
  Context (has : string -> string -> bool) (dflt : string -> srow).
  Notation exec := (exec_rows has dflt).

  (** An id no statement is about keeps its row. *)
  Lemma exec_untouched l : forall s s' n i, exec l s = Some s' -> ~ In (Some (n, i)) (map row_target l) ->
    s' n i = s n i.
  Proof.
    induction l as [|o l IH]; simpl; intros s s' n i E H; [congruence|].
    destruct (exec_row has dflt s o) as [s1|] eqn:E1; [|discriminate].
    rewrite (IH s1 s' n i E) by (intros X; apply H; auto).
    assert (N : row_target o <> Some (n, i)) by (intros X; apply H; auto). clear H E IH.
    destruct o; simpl in E1, N; try congruence.
    - destruct (dget "id" data) as [v|]; [|discriminate]. destruct (forallb _ _); [|discriminate].
      destruct (s tname (rval_str v)); [discriminate|]. injection E1 as <-. apply (put_row_other has dflt).
      destruct (string_dec n tname) as [->|?]; [|left; assumption]. right. intros X. apply N. rewrite X. reflexivity.
    - destruct (dget "id" data) as [v|]; [|discriminate]. destruct (forallb _ _); [|discriminate].
      destruct (s tname (rval_str v)); injection E1 as <-; [|reflexivity]. apply (put_row_other has dflt).
      destruct (string_dec n tname) as [->|?]; [|left; assumption]. right. intros X. apply N. rewrite X. reflexivity.
    - injection E1 as <-. apply (put_row_other has dflt).
      destruct (string_dec n tname) as [->|?]; [|left; assumption]. right. intros X. apply N. rewrite X. reflexivity.
  Qed.

  (** On the way every row is either still the old one or already the new one. *)
  Lemma exec_mid pre post s s1 s' n i : exec pre s = Some s1 -> exec (pre +++ post) s = Some s' ->
    NoDup (map row_target (pre +++ post)) ->
    (In (Some (n, i)) (map row_target pre) -> s1 n i = s' n i)
    /\ (~ In (Some (n, i)) (map row_target pre) -> s1 n i = s n i).
  Proof.
    intros E1 E ND. rewrite exec_rows_app, E1 in E. split.
    - intros H. symmetry. apply (exec_untouched post); [exact E|]. rewrite map_app in ND.
      intros H'. exact (nodup_apart _ _ _ ND H H').
    - intros H. exact (exec_untouched pre _ _ _ _ E1 H).
  Qed.

  (** A prefix of what can be executed can be executed. *)
  Lemma exec_prefix pre post s s' : exec (pre +++ post) s = Some s' -> exists s1, exec pre s = Some s1.
  Proof. rewrite exec_rows_app. destruct (exec pre s) as [s1|]; [eauto|discriminate]. Qed.

  (** What a DELETE and an UPDATE leave when no other statement is about the same row. *)
  Lemma exec_deleted l s s' n i : exec l s = Some s' -> NoDup (map row_target l) -> In (ORowDelete n i) l -> s' n i = None.
  Proof.
    intros E ND H. apply in_split in H as (p & q & ->). rewrite exec_rows_app in E.
    destruct (exec p s) as [s1|]; [|discriminate]. simpl in E.
    rewrite (exec_untouched q _ _ _ _ E); [unfold put_row; rewrite !String.eqb_refl; reflexivity|].
    rewrite map_app in ND. simpl in ND. apply NoDup_remove_2 in ND. intros H. apply ND, in_app_iff. auto.
  Qed.
  Lemma exec_updated l s s' n r i : exec l s = Some s' -> NoDup (map row_target l) -> In (ORowUpdate n r) l ->
    dget "id" r = Some (RStr i) -> s n i <> None -> s' n i <> None.
  Proof.
    intros E ND H Ei L. apply in_split in H as (p & q & ->). rewrite exec_rows_app in E.
    destruct (exec p s) as [s1|] eqn:E1; [|discriminate]. cbn [exec_rows exec_row] in E. rewrite Ei in E.
    rewrite map_app in ND. cbn [map row_target] in ND. rewrite Ei in ND. apply NoDup_remove_2 in ND. simpl rval_str in *.
    assert (Es : s1 n i = s n i) by (apply (exec_untouched p _ _ _ _ E1); intros X; apply ND, in_app_iff; auto).
    destruct (forallb (has n) (dkeys r)); [|discriminate]. destruct (s1 n i) as [x|] eqn:Ex; [|congruence].
    rewrite (exec_untouched q _ _ _ _ E); [unfold put_row; rewrite !String.eqb_refl; discriminate|].
    intros X. apply ND, in_app_iff. auto.
  Qed.
End Exec.

(** ** Positions *)
Lemma before_total {A} (x y : A) l : In x l -> In y l -> x <> y -> before x y l \/ before y x l.
Proof.
  intros Hx Hy N. apply in_split in Hx as (l1 & l2 & ->). apply in_app_iff in Hy as [Hy|[Hy|Hy]]; [|congruence|].
  - apply in_split in Hy as (m1 & m2 & ->). right. exists m1, m2, l2. rewrite <- app_assoc. reflexivity.
  - apply in_split in Hy as (m1 & m2 & ->). left. exists l1, m1, m2. reflexivity.
Qed.
Lemma before_mem {A} (x y : A) l : before x y l -> In x l /\ In y l.
Proof. intros (l1 & l2 & l3 & ->). repeat (rewrite in_app_iff; simpl). tauto. Qed.
(** What is cut off after the second has the first. *)
Lemma before_cut {A} (x y : A) p q : NoDup (p +++ q) -> before x y (p +++ q) -> In y p -> In x p.
Proof.
  intros ND B Hy. destruct (before_mem _ _ _ B) as [Hx _]. apply in_app_iff in Hx as [Hx|Hx]; [exact Hx|exfalso].
  destruct B as (l1 & l2 & l3 & E). apply in_split in Hy as (p1 & p2 & ->). apply in_split in Hx as (q1 & q2 & ->).
  assert (E1 : p1 +++ y :: (p2 +++ q1 +++ x :: q2) = (l1 +++ x :: l2) +++ y :: l3).
  { rewrite <- app_assoc in E. simpl in E. rewrite <- (app_assoc l1). exact E. }
  rewrite <- app_assoc in ND. simpl in ND.
  assert (ND' := ND). rewrite E1 in ND'.
  destruct (nodup_split _ _ _ _ _ ND E1) as [-> _].
  rewrite <- app_assoc in ND. simpl in ND. apply NoDup_remove_2 in ND. apply ND. repeat (rewrite in_app_iff; simpl). tauto.
Qed.
Lemma before_asym {A} (x y : A) l : NoDup l -> before x y l -> before y x l -> False.
Proof.
  intros ND B1 (l1 & l2 & l3 & ->). 
  assert (E : l1 +++ y :: l2 +++ x :: l3 = (l1 +++ [y]) +++ l2 +++ x :: l3) by (rewrite <- app_assoc; reflexivity).
  rewrite E in ND, B1. pose proof (before_cut _ _ _ _ ND B1 (in_elt y l1 [])) as H.
  apply (nodup_apart _ _ _ ND H). apply in_app_iff. right. left. reflexivity.
Qed.
(** A list that has the second after the first can be cut between them. *)
Lemma before_between {A B} (f : A -> B) (x y : B) l : NoDup (map f l) -> before x y (map f l) ->
  exists p q, l = p +++ q /\ In x (map f p) /\ ~ In y (map f p).
Proof.
  intros ND (l1 & l2 & l3 & E). pose proof E as E0. apply map_eq_app in E as (k1 & k2 & -> & <- & E).
  destruct k2 as [|a k2]; [discriminate|]. simpl in E. injection E as <- E.
  exists (k1 +++ [a]), k2. rewrite <- app_assoc. split; [reflexivity|]. rewrite map_app. simpl. split.
  - apply in_app_iff. right. left. reflexivity.
  - intros H. rewrite map_app in ND. simpl in ND.
    assert (ND' : NoDup ((map f k1 +++ [f a]) +++ map f k2)) by (rewrite <- app_assoc; exact ND).
    apply (nodup_apart _ _ _ ND' H). rewrite E. apply in_app_iff. right. left. reflexivity.
Qed.
Lemma before_app {A} (x y : A) p l q : before x y l -> before x y (p +++ l +++ q).
Proof. intros (l1 & l2 & l3 & ->). exists (p +++ l1), l2, (l3 +++ q). rewrite <- !app_assoc. simpl. rewrite <- !app_assoc. reflexivity. Qed.
Lemma before_map {A B} (f : A -> B) x y l : before x y l -> before (f x) (f y) (map f l).
Proof. intros (l1 & l2 & l3 & ->). exists (map f l1), (map f l2), (map f l3). rewrite map_app. simpl. rewrite map_app. reflexivity. Qed.
Lemma before_apart {A} (x y : A) p q : In x p -> In y q -> before x y (p +++ q).
Proof.
  intros Hx Hy. apply in_split in Hx as (p1 & p2 & ->). apply in_split in Hy as (q1 & q2 & ->).
  exists p1, (p2 +++ q1), q2. rewrite <- !app_assoc. reflexivity.
Qed.
Lemma before_filter {A} (P : string * A -> bool) x y l : NoDup (map fst l) -> before x y (map fst l) ->
  In x (map fst (filter P l)) -> In y (map fst (filter P l)) -> before x y (map fst (filter P l)).
Proof.
  intros ND B Hx Hy. assert (N : x <> y).
  { intros ->. destruct B as (l1 & l2 & l3 & E). rewrite E in ND. apply NoDup_remove_2 in ND. apply ND. repeat (rewrite in_app_iff; simpl). tauto. }
  destruct (before_total _ _ _ Hx Hy N) as [X|X]; [exact X|exfalso].
  apply (before_asym x y _ ND B). destruct X as (l1 & l2 & l3 & E). clear - E.
  apply map_eq_app in E as (k1 & k2 & E & <- & E'). destruct k2 as [|a k2]; [discriminate|]. simpl in E'. injection E' as <- E'.
  apply map_eq_app in E' as (k3 & k4 & -> & <- & E'). destruct k4 as [|b k4]; [discriminate|]. simpl in E'. injection E' as <- E'.
  assert (F : forall l k1 (a : string * A) k2, filter P l = k1 +++ a :: k2 -> exists m1 m2, l = m1 +++ a :: m2 /\ filter P m2 = k2).
  { clear. induction l as [|c l IH]; intros k1 a k2 E; [destruct k1; discriminate|]. simpl in E. destruct (P c).
    - destruct k1 as [|d k1]; simpl in E; injection E as -> E.
      + exists [], l. auto.
      + destruct (IH _ _ _ E) as (m1 & m2 & -> & E2). exists (d :: m1), m2. auto.
    - destruct (IH _ _ _ E) as (m1 & m2 & -> & E2). exists (c :: m1), m2. auto. }
  apply F in E as (m1 & m2 & -> & E). apply F in E as (m3 & m4 & -> & _).
  exists (map fst m1), (map fst m3), (map fst m4). rewrite map_app. simpl. rewrite map_app. reflexivity.
Qed.
