(** Lemmas about the calls that change a table. *)
From Verif Require Export SpecTable ValidFacts TableFacts.

(** ** Dicts *)
Lemma dset_replaced {V} k (v : V) d : In k (dkeys d) -> replaced k v d (dset k v d).
Proof.
  induction d as [|[a b] d IH]; simpl; [tauto|].
  destruct (String.eqb_spec k a) as [->|N].
  - intros _. exists [], b, d. split; reflexivity.
  - intros [E|H]; [congruence|]. destruct (IH H) as (d1 & old & d2 & E1 & E2).
    exists ((a, b) :: d1), old, d2. simpl. rewrite E2, <- E1. split; reflexivity.
Qed.
Lemma dpop_absent {V} k (d : dict string V) : ~ In k (dkeys d) -> dpop k d = d.
Proof.
  intros H. apply filter_true. intros [a b] Ha. simpl. apply negb_true_iff, String.eqb_neq.
  intros ->. apply H. eapply in_dkeys; eauto.
Qed.
Lemma dpop_removed {V} k (d : dict string V) : NoDup (dkeys d) -> In k (dkeys d) -> removed k d (dpop k d).
Proof.
  induction d as [|[a b] d IH]; simpl; [tauto|]. intros ND H. inversion ND as [|? ? Hn ND']; subst.
  destruct (String.eqb_spec k a) as [->|N]; simpl.
  - exists [], b, d. split; [reflexivity|]. apply dpop_absent, Hn.
  - destruct H as [E|H]; [congruence|]. destruct (IH ND' H) as (d1 & old & d2 & E1 & E2).
    exists ((a, b) :: d1), old, d2. simpl. split; [rewrite E1; reflexivity|]. f_equal. exact E2.
Qed.
Lemma insert_after_absent {V} a k (v : V) d : ~ In a (dkeys d) -> insert_after a k v d = d.
Proof.
  induction d as [|[x y] d IH]; simpl; intros H; [reflexivity|].
  destruct (String.eqb_spec x a) as [->|N]; [exfalso; apply H; auto|]. f_equal. apply IH. tauto.
Qed.
Lemma insert_after_placed {V} a k (v : V) d :
  a <> "" -> NoDup (dkeys d) -> In a (dkeys d) -> placed (PAfter a) k v d (insert_after a k v d).
Proof.
  intros Na. induction d as [|[x y] d IH]; simpl; intros ND H; [tauto|].
  inversion ND as [|? ? Hn ND']; subst.
  destruct (String.eqb_spec x a) as [->|N].
  - rewrite insert_after_absent by exact Hn. apply (placed_after a y k v [] d Na).
  - destruct H as [E|H]; [congruence|]. specialize (IH ND' H). inversion IH; subst.
    + congruence.
    + apply (placed_after a x0 k v ((x, y) :: d1) d2 Na).
Qed.
Lemma dget_insert_after {V} a k (v : V) d n : In a (dkeys d) -> ~ In k (dkeys d) ->
  dget n (insert_after a k v d) = if String.eqb n k then Some v else dget n d.
Proof.
  induction d as [|[x y] d IH]; simpl; intros Ha Hk; [tauto|].
  destruct (String.eqb_spec x a) as [->|N]; simpl.
  - destruct (String.eqb_spec n a) as [E|Na].
    + destruct (String.eqb_spec n k) as [E'|]; [|reflexivity]. exfalso. apply Hk. left. congruence.
    + destruct (String.eqb_spec n k) as [E'|Nk]; [reflexivity|].
      destruct (in_dec string_dec a (dkeys d)) as [Hd|Hd].
      * rewrite IH by tauto. reflexivity.
      * rewrite insert_after_absent by exact Hd. reflexivity.
  - destruct Ha as [E|Ha]; [congruence|]. rewrite IH by tauto.
    destruct (String.eqb_spec n x) as [E|Nx]; [|reflexivity].
    destruct (String.eqb_spec n k) as [E'|]; [|reflexivity]. exfalso. apply Hk. left. congruence.
Qed.
Lemma dkeys_dset {V} k (v : V) d n : In n (dkeys (dset k v d)) <-> n = k \/ In n (dkeys d).
Proof.
  rewrite <- !dmem_iff, !dmem_dget, dget_dset. simpl.
  destruct (String.eqb_spec n k); [tauto|]. split; [tauto|]. intros [?|H]; [contradiction|exact H].
Qed.
Lemma NoDup_dset {V} k (v : V) d : NoDup (dkeys d) -> NoDup (dkeys (dset k v d)).
Proof.
  intros ND. destruct (dmem k d) eqn:E.
  - rewrite dkeys_dset_present by exact E. exact ND.
  - rewrite dset_absent by exact E. unfold dkeys. rewrite map_app. apply NoDup_app_intro; [exact ND| |].
    + repeat constructor. intros [].
    + simpl. intros x Hx [<-|[]]. apply dmem_false in E. contradiction.
Qed.
Lemma NoDup_dpop {V} k (d : dict string V) : NoDup (dkeys d) -> NoDup (dkeys (dpop k d)).
Proof. rewrite dkeys_dpop. apply NoDup_filter. Qed.
Lemma dkeys_insert_after {V} a k (v : V) d n : In n (dkeys (insert_after a k v d)) ->
  n = k \/ In n (dkeys d).
Proof.
  induction d as [|[x y] d IH]; simpl; [tauto|]. destruct (String.eqb x a); simpl; intuition.
Qed.
Lemma NoDup_insert_after {V} a k (v : V) d :
  NoDup (dkeys d) -> ~ In k (dkeys d) -> NoDup (dkeys (insert_after a k v d)).
Proof.
  induction d as [|[x y] d IH]; simpl; intros ND Hk; [constructor|].
  inversion ND as [|? ? Hn ND']; subst.
  destruct (String.eqb_spec x a) as [->|N]; simpl.
  - rewrite insert_after_absent by exact Hn. constructor; [|constructor; [|exact ND']].
    + intros [E|H]; [|contradiction]. apply Hk. left. auto.
    + intros H. apply Hk. right. exact H.
  - constructor; [|apply IH; tauto]. intros H. apply dkeys_insert_after in H as [->|H]; tauto.
Qed.

(** ** C43 *)
Lemma distinct_perform t c : distinct t -> distinct (fst (perform t c)).
Proof.
  intros D. pose proof D as D0. destruct D as (D1 & D2 & D3).
  destruct c as [c p|n|c|i|n|i|k|n|k|n]; simpl perform; unfold distinct in *.
  - unfold add_column. destruct (dmem (c_name c) (t_columns t)) eqn:E; [exact D0|].
    pose proof E as E'. apply dmem_false in E'.
    destruct p as [| |a]; simpl; [auto using NoDup_dset| |].
    + destruct (t_ordered t); simpl; [|auto using NoDup_dset]. split; [constructor; auto|auto].
    + destruct (is_empty a); simpl; [auto using NoDup_dset|]. destruct (dmem a (t_columns t)); simpl; auto using NoDup_insert_after.
  - unfold remove_column. destruct (dmem _ _); simpl; auto using NoDup_dpop.
  - unfold change_column. destruct (dmem _ _); simpl; auto using NoDup_dset.
  - unfold add_index. destruct (dmem _ _); simpl; auto. destruct (t_indexed t); [|simpl; auto using NoDup_dset].
    destruct (first_col i); simpl; auto using NoDup_dset.
  - unfold remove_index. destruct (dget _ _) as [i|]; simpl; auto. destruct (first_col i); simpl; auto using NoDup_dpop.
  - unfold change_index. destruct (dget _ _) as [old|]; simpl; auto. destruct (t_indexed t); [|simpl; auto using NoDup_dset].
    destruct (first_col old); simpl; auto. destruct (first_col i); simpl; auto using NoDup_dset.
  - unfold add_constraint. destruct (dmem _ _); simpl; auto using NoDup_dset.
  - unfold remove_constraint. destruct (dmem _ _); simpl; auto using NoDup_dpop.
  - unfold change_constraint. destruct (dmem _ _); simpl; auto using NoDup_dset.
  - simpl. destruct (sbi_fields _ _ (sbi_ask t n)) as (_ & -> & -> & ->). auto.
Qed.

Lemma with_cols_first t n i : with_cols t -> dget n (t_indexes t) = Some i -> exists c, first_col i = Ok c.
Proof.
  intros W E. apply dget_in in E. specialize (W n i E). unfold first_col. destruct (ix_columns i); [congruence|eauto].
Qed.
Lemma brings_first i : ix_columns i <> [] -> exists c, first_col i = Ok c.
Proof. unfold first_col. destruct (ix_columns i); [congruence|eauto]. Qed.

Lemma firsts_mapM t : with_cols t -> exists l, mapM first_col (dvals (t_indexes t)) = Ok l.
Proof. intros W. destruct (firsts_ok t W) as (l & E & _). eauto. Qed.

Ltac fields := unfold effect, rest_of; simpl; repeat split; auto.

Lemma placed_dset {V} k (v : V) d : ~ In k (dkeys d) -> placed PEnd k v d (dset k v d).
Proof. intros H. rewrite dset_absent by (apply dmem_false, H). constructor. Qed.
Lemma placed_dset_blank {V} k (v : V) d : ~ In k (dkeys d) -> placed (PAfter "") k v d (dset k v d).
Proof. intros H. rewrite dset_absent by (apply dmem_false, H). constructor. Qed.
Lemma is_empty_iff s : is_empty s = true <-> s = "".
Proof. destruct s; simpl; split; congruence. Qed.

Lemma perform_legal t c : distinct t -> with_cols t -> brings_columns c -> first_allowed t c ->
  legal t c -> snd (perform t c) = None /\ effect t c (fst (perform t c)).
Proof.
  intros (D1 & D2 & D3) W B F L.
  destruct c as [c p|n|c|i|n|i|k|n|k|n]; simpl perform; simpl in L, F, B.
  - destruct L as [L1 L2]. unfold add_column. rewrite (proj2 (dmem_false _ _) L1).
    destruct p as [| |a]; simpl.
    + split; [reflexivity|]. fields. apply placed_dset, L1.
    + simpl in F. rewrite F. split; [reflexivity|]. fields. constructor.
    + destruct (is_empty a) eqn:E.
      * apply is_empty_iff in E as ->. split; [reflexivity|]. fields. apply placed_dset_blank, L1.
      * assert (Na : a <> "") by (intros ->; discriminate). destruct L2 as [?|L2]; [contradiction|].
        rewrite (proj2 (dmem_iff _ _) L2). split; [reflexivity|]. fields. apply insert_after_placed; auto.
  - unfold remove_column. rewrite (proj2 (dmem_iff _ _) L). split; [reflexivity|]. fields. apply dpop_removed; auto.
  - unfold change_column. rewrite (proj2 (dmem_iff _ _) L). split; [reflexivity|]. fields. apply dset_replaced; auto.
  - unfold add_index. rewrite (proj2 (dmem_false _ _) L). destruct (brings_first i B) as (x & Hx). rewrite Hx.
    destruct (t_indexed t); (split; [reflexivity|]); fields; apply placed_dset; auto.
  - unfold remove_index. destruct (dget_some_key _ _ L) as (i & Ei). rewrite Ei.
    destruct (with_cols_first _ _ _ W Ei) as (x & Hx). rewrite Hx. split; [reflexivity|]. fields. apply dpop_removed; auto.
  - unfold change_index. destruct (dget_some_key _ _ L) as (old & Ei). rewrite Ei.
    destruct (with_cols_first _ _ _ W Ei) as (x & Hx). rewrite Hx. destruct (brings_first i B) as (y & Hy). rewrite Hy.
    destruct (t_indexed t); (split; [reflexivity|]); fields; apply dset_replaced; auto.
  - unfold add_constraint. rewrite (proj2 (dmem_false _ _) L). split; [reflexivity|]. fields. apply placed_dset, L.
  - unfold remove_constraint. rewrite (proj2 (dmem_iff _ _) L). split; [reflexivity|]. fields. apply dpop_removed; auto.
  - unfold change_constraint. rewrite (proj2 (dmem_iff _ _) L). split; [reflexivity|]. fields. apply dset_replaced; auto.
  - simpl. split.
    + unfold column_is_indexed. destruct (negb _); [reflexivity|]. destruct (t_indexed t); [reflexivity|].
      destruct (firsts_mapM t W) as (l & E). rewrite E. reflexivity.
    + pose proof (sbi_ask t n) as S. unfold sbi in S. rewrite S. fields.
Qed.

Lemma perform_illegal t c : ~ legal t c ->
  exists m, perform t c = (t, Some (ValueError m)).
Proof.
  intros L. destruct c as [c p|n|c|i|n|i|k|n|k|n]; simpl perform; simpl in L.
  - unfold add_column. destruct (dmem (c_name c) (t_columns t)) eqn:E; [eauto|].
    apply dmem_false in E. destruct p as [| |a]; [exfalso; apply L; auto|exfalso; apply L; auto|].
    destruct (is_empty a) eqn:Ea.
    + apply is_empty_iff in Ea. exfalso. apply L. auto.
    + destruct (dmem a (t_columns t)) eqn:Em; [|eauto]. apply dmem_iff in Em. exfalso. apply L. auto.
  - unfold remove_column. rewrite (proj2 (dmem_false _ _) L). eauto.
  - unfold change_column. rewrite (proj2 (dmem_false _ _) L). eauto.
  - unfold add_index. destruct (dmem _ _) eqn:E; [eauto|]. apply dmem_false in E. contradiction.
  - unfold remove_index. rewrite (proj2 (dget_none _ _) L). eauto.
  - unfold change_index. rewrite (proj2 (dget_none _ _) L). eauto.
  - unfold add_constraint. destruct (dmem _ _) eqn:E; [eauto|]. apply dmem_false in E. contradiction.
  - unfold remove_constraint. rewrite (proj2 (dmem_false _ _) L). eauto.
  - unfold change_constraint. rewrite (proj2 (dmem_false _ _) L). eauto.
  - tauto.
Qed.

Lemma distinct_performed l : forall t, distinct t -> distinct (performed t l).
Proof. induction l as [|c l IH]; simpl; intros t D; [exact D|]. apply IH, distinct_perform, D. Qed.

Lemma performed_cons t c l : performed t (c :: l) = performed (fst (perform t c)) l.
Proof. reflexivity. Qed.

Lemma in_dset' {V} k (v : V) d p : In p (dset k v d) -> p = (k, v) \/ In p d.
Proof.
  induction d as [|[a b] d IH]; simpl; [intuition|].
  destruct (String.eqb_spec k a) as [->|N]; simpl; intuition.
Qed.

Lemma with_cols_perform t c : with_cols t -> brings_columns c -> with_cols (fst (perform t c)).
Proof.
  intros W B. destruct c as [c p|n|c|i|n|i|k|n|k|n]; simpl perform; unfold with_cols in *; simpl in B.
  - unfold add_column. destruct (dmem _ _); [exact W|]. destruct p as [| |a]; simpl; [exact W| |].
    + destruct (t_ordered t); exact W.
    + destruct (is_empty a); [exact W|]. destruct (dmem a _); exact W.
  - unfold remove_column. destruct (dmem _ _); exact W.
  - unfold change_column. destruct (dmem _ _); exact W.
  - unfold add_index. destruct (dmem _ _); [exact W|].
    assert (G : forall n j, In (n, j) (dset (ix_name i) i (t_indexes t)) -> ix_columns j <> []).
    { intros n j H. apply in_dset' in H as [[= -> ->]|H]; [exact B|]. eapply W; eauto. }
    destruct (t_indexed t); [|exact G]. destruct (first_col i); exact G.
  - unfold remove_index. destruct (dget _ _) as [i|]; [|exact W]. destruct (first_col i); [|exact W].
    intros m j H. apply filter_In in H as [H _]. eapply W; eauto.
  - unfold change_index. destruct (dget _ _) as [old|]; [|exact W].
    assert (G : forall n j, In (n, j) (dset (ix_name i) i (t_indexes t)) -> ix_columns j <> []).
    { intros n j H. apply in_dset' in H as [[= -> ->]|H]; [exact B|]. eapply W; eauto. }
    destruct (t_indexed t); [|exact G]. destruct (first_col old); [|exact W]. destruct (first_col i); exact G.
  - unfold add_constraint. destruct (dmem _ _); exact W.
  - unfold remove_constraint. destruct (dmem _ _); exact W.
  - unfold change_constraint. destruct (dmem _ _); exact W.
  - simpl. destruct (sbi_fields _ _ (sbi_ask t n)) as (_ & _ & -> & _). exact W.
Qed.
Lemma with_cols_performed l : forall t, with_cols t -> (forall c, In c l -> brings_columns c) -> with_cols (performed t l).
Proof.
  induction l as [|c l IH]; simpl; intros t W B; [exact W|]. apply IH; auto. apply with_cols_perform; auto.
Qed.

(** ** C44 *)

Lemma in_insert_after' {V} a k (v : V) d p : In p (insert_after a k v d) -> p = (k, v) \/ In p d.
Proof.
  induction d as [|[x y] d IH]; simpl; [intuition|].
  destruct (String.eqb x a); simpl; intuition.
Qed.

Lemma kept_columns t cols o : kept t -> (forall n c, In (n, c) cols -> c_name c = n) -> kept (with_columns t cols o).
Proof. intros [K1 K2 K3] H. constructor; simpl; auto. Qed.

Lemma set_add_in x l y : In y (set_add x l) <-> y = x \/ In y l.
Proof.
  unfold set_add. destruct (smem x l) eqn:E; simpl; [|intuition].
  apply smem_iff in E. split; [auto|]. intros [->|H]; auto.
Qed.
Lemma set_discard_in x l y : In y (set_discard x l) <-> y <> x /\ In y l.
Proof.
  unfold set_discard. rewrite filter_In, negb_true_iff, String.eqb_neq. intuition.
Qed.

Lemma first_hd i c : first_col i = Ok c <-> hd_error (ix_columns i) = Some c.
Proof. unfold first_col. destruct (ix_columns i); simpl; split; congruence. Qed.
Lemma leads_hd t c : leads t c <-> exists n i, In (n, i) (t_indexes t) /\ hd_error (ix_columns i) = Some c.
Proof.
  unfold leads. split.
  - intros (n & i & r & H & E). exists n, i. rewrite E. auto.
  - intros (n & i & H & E). destruct (ix_columns i) as [|x r] eqn:Ei; [discriminate|]. injection E as ->. eauto.
Qed.

Lemma in_dset_iff {V} k (v : V) d n w : NoDup (dkeys d) ->
  In (n, w) (dset k v d) <-> (n = k /\ w = v) \/ (n <> k /\ In (n, w) d).
Proof.
  intros ND. rewrite <- (dget_iff n w (dset k v d)) by (apply NoDup_dset, ND). rewrite dget_dset. simpl.
  destruct (String.eqb_spec n k) as [->|N].
  - split; [intros [= ->]; auto|]. intros [[_ ->]|[N _]]; [reflexivity|congruence].
  - rewrite dget_iff by exact ND. split; [auto|]. intros [[? _]|[_ H]]; [contradiction|exact H].
Qed.
Lemma in_dpop_iff {V} k (d : dict string V) n w : In (n, w) (dpop k d) <-> n <> k /\ In (n, w) d.
Proof.
  unfold dpop. rewrite filter_In. simpl. rewrite negb_true_iff, String.eqb_neq. intuition.
Qed.

Lemma kept_perform t c : kept t -> distinct t -> brings_columns c -> lonely t c -> kept (fst (perform t c)).
Proof.
  intros K D B L. pose proof K as [K1 K2 K3]. destruct D as (_ & D & _).
  destruct c as [c p|n|c|i|n|i|k|n|k|n]; simpl perform; simpl in B, L.
  - assert (G : forall n c', In (n, c') (dset (c_name c) c (t_columns t)) -> c_name c' = n).
    { intros n c' H. apply in_dset' in H as [[= -> ->]|H]; auto. }
    unfold add_column. destruct (dmem _ _); [exact K|]. destruct p as [| |a]; simpl.
    + apply kept_columns; auto.
    + destruct (t_ordered t); simpl; apply kept_columns; auto. intros n c' [[= <- <-]|H]; auto.
    + destruct (is_empty a); [apply kept_columns; auto|]. destruct (dmem a _); [|exact K].
      apply kept_columns; auto. intros n c' H. apply in_insert_after' in H as [[= -> ->]|H]; auto.
  - unfold remove_column. destruct (dmem _ _); [|exact K]. apply kept_columns; auto.
    intros m c' H. apply filter_In in H as [H _]. auto.
  - unfold change_column. destruct (dmem _ _); [|exact K]. apply kept_columns; auto.
    intros m c' H. apply in_dset' in H as [[= -> ->]|H]; auto.
  - unfold add_index. destruct (dmem _ _) eqn:E; [exact K|]. apply dmem_false in E.
    destruct (brings_first i B) as (x & Hx). rewrite Hx.
    assert (G : forall n j, In (n, j) (dset (ix_name i) i (t_indexes t)) -> ix_columns j <> []).
    { intros n j H. apply in_dset' in H as [[= -> ->]|H]; [exact B|]. eapply K2; eauto. }
    destruct (t_indexed t) as [s|] eqn:Es; simpl; constructor; simpl; auto; [|discriminate].
    intros s' [= <-] c. rewrite set_add_in, (K3 s eq_refl c), !leads_hd. simpl. apply first_hd in Hx. split.
    + intros [->|(n & j & Hj & Ej)].
      * exists (ix_name i), i. split; [|exact Hx]. apply in_dset_iff; auto.
      * exists n, j. split; [|exact Ej]. apply in_dset_iff; auto. right. split; [|exact Hj].
        intros ->. apply E. eapply in_dkeys; eauto.
    + intros (n & j & Hj & Ej). apply in_dset_iff in Hj as [[-> ->]|[Nn Hj]]; auto; [left; congruence|].
      right. eauto.
  - unfold remove_index. destruct (dget n (t_indexes t)) as [i|] eqn:E; [|exact K].
    destruct (with_cols_first t n i K2 E) as (x & Hx). rewrite Hx. simpl. constructor; simpl; auto.
    + intros m j H. apply filter_In in H as [H _]. eauto.
    + intros s' Hs c. destruct (t_indexed t) as [s|] eqn:Es; simpl in Hs; [|discriminate]. injection Hs as <-.
      rewrite set_discard_in, (K3 s eq_refl c), !leads_hd. simpl. apply first_hd in Hx. apply dget_in in E. split.
      * intros (Nc & m & j & Hj & Ej). exists m, j. split; [|exact Ej]. apply in_dpop_iff. split; [|exact Hj].
        intros ->. assert (i = j); [|subst; congruence].
        apply (dget_iff n) in E; auto. apply (dget_iff n) in Hj; auto. congruence.
      * intros (m & j & Hj & Ej). apply in_dpop_iff in Hj as [Nm Hj]. split; [|eauto].
        intros ->. apply (L i m j E Hj Nm). congruence.
  - unfold change_index. destruct (dget (ix_name i) (t_indexes t)) as [old|] eqn:E; [|exact K].
    destruct (with_cols_first t _ old K2 E) as (x & Hx). rewrite Hx. destruct (brings_first i B) as (y & Hy). rewrite Hy.
    assert (G : forall n j, In (n, j) (dset (ix_name i) i (t_indexes t)) -> ix_columns j <> []).
    { intros n j H. apply in_dset' in H as [[= -> ->]|H]; [exact B|]. eapply K2; eauto. }
    destruct (t_indexed t) as [s|] eqn:Es; simpl; constructor; simpl; auto; [|discriminate].
    intros s' [= <-] c. rewrite set_add_in, set_discard_in, (K3 s eq_refl c), !leads_hd. simpl.
    apply first_hd in Hx, Hy. apply dget_in in E. split.
    + intros [->|(Nc & m & j & Hj & Ej)].
      * exists (ix_name i), i. split; [|exact Hy]. apply in_dset_iff; auto.
      * exists m, j. split; [|exact Ej]. apply in_dset_iff; auto. right. split; [|exact Hj].
        intros ->. assert (old = j); [|subst; congruence].
        apply (dget_iff (ix_name i)) in E; auto. apply (dget_iff (ix_name i)) in Hj; auto. congruence.
    + intros (m & j & Hj & Ej). apply in_dset_iff in Hj as [[-> ->]|[Nn Hj]]; auto; [left; congruence|].
      right. split; [|eauto]. intros ->. apply (L old m j E Hj Nn). congruence.
  - unfold add_constraint. destruct (dmem _ _); [exact K|]. constructor; simpl; auto.
  - unfold remove_constraint. destruct (dmem _ _); [|exact K]. constructor; simpl; auto.
  - unfold change_constraint. destruct (dmem _ _); [|exact K]. constructor; simpl; auto.
  - destruct (kept_ask t n K) as (b & _ & _ & K'). exact K'.
Qed.

Lemma kept_performed l : forall t, kept t -> distinct t -> (forall c, In c l -> brings_columns c) ->
  always lonely t l -> kept (performed t l).
Proof.
  induction l as [|c l IH]; simpl; intros t K D B A; [exact K|]. destruct A as [L A].
  apply IH; auto. - apply kept_perform; auto. - apply distinct_perform, D.
Qed.

(** ** C45 *)
Lemma primary_is_same t t' p : t_indexes t' = t_indexes t -> primary_is t p -> primary_is t' p.
Proof. intros E. unfold primary_is. destruct p; rewrite E; auto. Qed.

Lemma is_primary_type i : is_primary i = true <-> ix_type i = IPrimary.
Proof. unfold is_primary. destruct (ix_type i); simpl; split; congruence. Qed.

Lemma primary_perform t c : distinct t -> primary_safe t c -> primary_is t (t_primary t) ->
  primary_is (fst (perform t c)) (t_primary (fst (perform t c))).
Proof.
  intros (_ & D & _) S P.
  destruct c as [c p|n|c|i|n|i|k|n|k|n]; simpl perform; simpl in S.
  - unfold add_column. destruct (dmem _ _); [exact P|]. destruct p as [| |a]; simpl; [exact P| |].
    + destruct (t_ordered t); exact P.
    + destruct (is_empty a); [exact P|]. destruct (dmem a _); exact P.
  - unfold remove_column. destruct (dmem _ _); exact P.
  - unfold change_column. destruct (dmem _ _); exact P.
  - unfold add_index. destruct (dmem _ _) eqn:E; [exact P|]. apply dmem_false in E.
    assert (G : forall s, primary_is (with_indexes t (dset (ix_name i) i (t_indexes t))
                            (if is_primary i then Some i else t_primary t) s)
                          (if is_primary i then Some i else t_primary t)).
    { intros s. destruct (is_primary i) eqn:Ei.
      - apply is_primary_type in Ei. simpl. exists (ix_name i). split; [apply in_dset_iff; auto|]. split; [exact Ei|].
        intros m j Hj Tj. apply in_dset_iff in Hj as [[_ ->]|[_ Hj]]; auto. exfalso. eapply S; eauto.
      - assert (Ni : ix_type i <> IPrimary) by (intros H; apply is_primary_type in H; congruence).
        destruct (t_primary t) as [p|]; simpl in *.
        + destruct P as (n & Hn & Tn & U). exists n. split; [|split; [exact Tn|]].
          * apply in_dset_iff; auto. right. split; [|exact Hn]. intros ->. apply E. eapply in_dkeys; eauto.
          * intros m j Hj Tj. apply in_dset_iff in Hj as [[_ ->]|[_ Hj]]; auto; [contradiction|]. eauto.
        + intros m j Hj. apply in_dset_iff in Hj as [[_ ->]|[_ Hj]]; auto. eauto. }
    destruct (t_indexed t); [|apply G]. destruct (first_col i); apply G.
  - unfold remove_index. destruct (dget n (t_indexes t)) as [i|] eqn:E; [|exact P]. apply dget_in in E.
    destruct (first_col i); [|exact P]. simpl. destruct (t_primary t) as [p|]; simpl in *.
    + destruct P as (m & Hm & Tm & U). exists m. split; [|split; [exact Tm|]].
      * apply in_dpop_iff. split; [|exact Hm]. intros ->. exact (S p Hm Tm).
      * intros q j Hj. apply in_dpop_iff in Hj as [_ Hj]. eauto.
    + intros q j Hj. apply in_dpop_iff in Hj as [_ Hj]. eauto.
  - unfold change_index. destruct (dget (ix_name i) (t_indexes t)) as [old|] eqn:E; [|exact P]. apply dget_in in E.
    destruct S as [Ni S].
    assert (G : forall s, primary_is (with_indexes t (dset (ix_name i) i (t_indexes t)) (t_primary t) s) (t_primary t)).
    { intros s. destruct (t_primary t) as [p|]; simpl in *.
      - destruct P as (n & Hn & Tn & U). exists n. split; [|split; [exact Tn|]].
        + apply in_dset_iff; auto. right. split; [|exact Hn]. intros ->. exact (S p Hn Tn).
        + intros m j Hj Tj. apply in_dset_iff in Hj as [[_ ->]|[_ Hj]]; auto; [contradiction|]. eauto.
      - intros m j Hj. apply in_dset_iff in Hj as [[_ ->]|[_ Hj]]; auto. eauto. }
    destruct (t_indexed t); [|apply G]. destruct (first_col old); [|exact P]. destruct (first_col i); apply G.
  - unfold add_constraint. destruct (dmem _ _); exact P.
  - unfold remove_constraint. destruct (dmem _ _); exact P.
  - unfold change_constraint. destruct (dmem _ _); exact P.
  - simpl. pose proof (sbi_ask t n) as Q. unfold sbi in Q. rewrite Q. exact P.
Qed.
Lemma primary_performed l : forall t, distinct t -> always primary_safe t l -> primary_is t (t_primary t) ->
  primary_is (performed t l) (t_primary (performed t l)).
Proof.
  induction l as [|c l IH]; simpl; intros t D A P; [exact P|]. destruct A as [S A].
  apply IH; auto. - apply distinct_perform, D. - apply primary_perform; auto.
Qed.

(** ** C47 *)
Lemma before_in_first p n l : before_in p n (n :: l) = Some p.
Proof. simpl. rewrite String.eqb_refl. reflexivity. Qed.
Lemma before_in_after p l1 a n l2 : NoDup (l1 +++ a :: n :: l2) ->
  before_in p n (l1 +++ a :: n :: l2) = Some (PAfter a).
Proof.
  revert p. induction l1 as [|x l1 IH]; intros p ND; simpl; inversion ND as [|? ? Hn ND']; subst.
  - destruct (String.eqb_spec a n) as [->|]; [exfalso; apply Hn; left; reflexivity|]. rewrite String.eqb_refl. reflexivity.
  - destruct (String.eqb_spec x n) as [->|]; [exfalso; apply Hn; apply in_app_iff; right; right; left; reflexivity|].
    apply IH, ND'.
Qed.
