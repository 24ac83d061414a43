(** Lemmas about [add_rows] and [add_raw_row]. *)
From Verif Require Export RowFacts.

Lemma list_index_spec c cols : In c cols ->
  exists l2, cols = firstn (list_index c cols) cols +++ c :: l2 /\ ~ In c (firstn (list_index c cols) cols)
    /\ List.length (firstn (list_index c cols) cols) = list_index c cols.
Proof.
  induction cols as [|x cols IH]; simpl; [tauto|]. intros H.
  destruct (String.eqb_spec c x) as [->|N]; simpl; [eauto|].
  destruct H as [E|H]; [congruence|]. destruct (IH H) as (l2 & E & Hn & Hl).
  exists l2. split; [f_equal; exact E|]. split; [intros [X|X]; [congruence|contradiction]|]. f_equal. exact Hl.
Qed.

Lemma index_unique c l1 l2 : ~ In c l1 -> list_index c (l1 +++ c :: l2) = List.length l1.
Proof.
  induction l1 as [|x l1 IH]; simpl; intros H; [rewrite String.eqb_refl; reflexivity|].
  destruct (String.eqb_spec c x) as [->|N]; [exfalso; apply H; auto|]. f_equal. apply IH. tauto.
Qed.

Lemma value_for_nth c cols vals v : In c cols ->
  nth_error vals (list_index c cols) = Some v <-> value_for c cols vals v.
Proof.
  intros H. destruct (list_index_spec c cols H) as (l2 & E & Hn & Hl). split.
  - intros Hv. apply nth_error_split in Hv as (v1 & v2 & -> & Hv).
    exists (firstn (list_index c cols) cols), l2, v1, v2. split; [exact E|]. split; [exact Hn|]. split; [reflexivity|]. congruence.
  - intros (a & b & v1 & v2 & Ec & Ha & -> & Hv). subst cols. rewrite index_unique, <- Hv by exact Ha.
    rewrite nth_error_app2, Nat.sub_diag by lia. reflexivity.
Qed.

Section Loop.
  Context (t : table) (r : rows_def).
  Let cols := insert_columns t r.
  Let explicit := negb (Nat.eqb (r_explicit r) 0).
  Hypothesis Hid : In "id" cols.

  Definition stored_row (vals : list rval) (id : string) : row := dset "id" (RStr id) (zip_row cols vals).

  Lemma row_with_id_nth vals id : row_with_id t r vals id <->
    (explicit = false -> List.length vals = List.length cols) /\ id <> ""
    /\ exists v, nth_error vals (list_index "id" cols) = Some v /\ id = rval_str v.
  Proof.
    unfold row_with_id. fold cols. unfold explicit. rewrite negb_false_iff, Nat.eqb_eq.
    split; intros (A & B & v & C & D); (split; [exact A|]); (split; [exact B|]); exists v; (split; [|exact D]);
      apply value_for_nth; auto.
  Qed.

  Lemma one_row rows errs vals rows1 errs1 :
    add_one_row (t_name t) explicit cols (list_index "id" cols) (rows, errs) vals = Ok (rows1, errs1) ->
    (exists id, row_with_id t r vals id /\ ~ In id (dkeys rows)
       /\ rows1 = dset id (stored_row vals id) rows /\ errs1 = errs)
    \/ ((forall id, row_with_id t r vals id -> In id (dkeys rows)) /\ rows1 = rows
        /\ exists pre, errs1 = errs +++ [pre ++ rvals_repr vals]).
  Proof.
    unfold add_one_row. destruct (negb explicit && _) eqn:E1.
    - intros [= <- <-]. right. split; [|split; [reflexivity|]].
      + intros id H. apply row_with_id_nth in H as (A & _). apply andb_true_iff in E1 as [E1 E2].
        apply negb_true_iff in E1. apply A in E1. rewrite E1, Nat.eqb_refl in E2. discriminate.
      + exists ("Insert values has wrong number of values for table " ++ t_name t ++ " and row ").
        rewrite !sapp_assoc. reflexivity.
    - assert (L : explicit = false -> List.length vals = List.length cols).
      { intros X. rewrite X in E1. simpl in E1. apply negb_false_iff, Nat.eqb_eq in E1. exact E1. }
      destruct (nth_error vals (list_index "id" cols)) as [v|] eqn:Ev; [|discriminate].
      destruct (is_empty (rval_str v)) eqn:Ee.
      + intros [= <- <-]. right. split; [|split; [reflexivity|]].
        * intros id H. apply row_with_id_nth in H as (_ & B & w & C & D).
          rewrite Ev in C. injection C as <-. apply is_empty_iff in Ee. congruence.
        * exists ("Row is missing a value for the id column for table " ++ t_name t ++ " and row ").
          rewrite !sapp_assoc. reflexivity.
      + assert (W : row_with_id t r vals (rval_str v)).
        { apply row_with_id_nth. split; [exact L|]. split; [|eauto]. intros X. rewrite X in Ee. discriminate. }
        destruct (dmem (rval_str v) rows) eqn:Em.
        * intros [= <- <-]. right. split; [|split; [reflexivity|]].
          -- intros id H. apply row_with_id_nth in H as (_ & _ & w & C & D). rewrite Ev in C. injection C as <-.
             subst id. apply dmem_iff, Em.
          -- exists ("Duplicate row id found for table " ++ t_name t ++ " and row ").
             rewrite !sapp_assoc. reflexivity.
        * intros [= <- <-]. left. exists (rval_str v). split; [exact W|]. split; [apply dmem_false, Em|auto].
  Qed.

  Lemma row_id_unique vals id id' : row_with_id t r vals id -> row_with_id t r vals id' -> id = id'.
  Proof.
    intros A B. apply row_with_id_nth in A as (_ & _ & v & E & ->). apply row_with_id_nth in B as (_ & _ & w & E' & ->). congruence.
  Qed.

  Lemma dget_stored vals id : dget "id" (stored_row vals id) = Some (RStr id).
  Proof. unfold stored_row. rewrite dget_dset. reflexivity. Qed.

  Record looped (l : list (list rval)) (rows : dict string row) (errs : list string)
    (rows' : dict string row) (errs' : list string) : Prop := {
    lo_kept : forall id row, dget id rows = Some row -> dget id rows' = Some row;
    lo_errs : forall e, In e errs -> In e errs';
    lo_keyed : keyed rows -> keyed rows';
    lo_maps : row_maps rows -> row_maps rows';
    lo_first : forall l1 vals l2 id, l = l1 +++ vals :: l2 -> row_with_id t r vals id -> ~ In id (dkeys rows) ->
      (forall v, In v l1 -> ~ row_with_id t r v id) -> dget id rows' = Some (stored_row vals id);
    lo_other : forall l1 vals l2, l = l1 +++ vals :: l2 ->
      (forall id, row_with_id t r vals id -> ~ In id (dkeys rows) -> exists v, In v l1 /\ row_with_id t r v id) ->
      exists pre, In (pre ++ rvals_repr vals) errs';
    lo_ids : forall id, In id (dkeys rows') <-> In id (dkeys rows) \/ exists vals, In vals l /\ row_with_id t r vals id
  }.

  Lemma in_zip_row c l : forall (acc : row), In c (dkeys (fold_left (fun r p => dset (fst p) (snd p) r) l acc)) ->
    In c (dkeys acc) \/ In c (map fst l).
  Proof.
    induction l as [|[a v] l IH]; simpl; intros acc H; [auto|].
    apply IH in H as [H|H]; [|auto]. apply dkeys_dset in H as [->|H]; auto.
  Qed.
  Lemma zip_nodup l : forall (acc : row), NoDup (dkeys acc) -> NoDup (dkeys (fold_left (fun r p => dset (fst p) (snd p) r) l acc)).
  Proof. induction l as [|[a v] l IH]; simpl; intros acc H; [exact H|]. apply IH, NoDup_dset, H. Qed.
  Lemma stored_nodup vals id : NoDup (dkeys (stored_row vals id)).
  Proof. apply NoDup_dset. unfold zip_row. apply zip_nodup. constructor. Qed.

  Lemma keyed_dset rows id row : keyed rows -> dget "id" row = Some (RStr id) -> keyed (dset id row rows).
  Proof.
    intros [ND K] H. split; [apply NoDup_dset, ND|]. intros id' r' Hi. apply in_dset' in Hi as [[= -> ->]|Hi]; auto.
  Qed.

  Lemma loop_ok l : forall rows errs rows' errs',
    add_rows_loop (t_name t) explicit cols (list_index "id" cols) l (rows, errs) = ((rows', errs'), None) ->
    looped l rows errs rows' errs'.
  Proof.
    induction l as [|vals l IH]; intros rows errs rows' errs' E; cbn [add_rows_loop] in E.
    - injection E as <- <-. constructor; auto; try (intros [|? ?] ? ?; discriminate).
      intros id. split; [auto|]. intros [H|(v & [] & _)]; exact H.
    - destruct (add_one_row _ _ _ _ _ _) as [[rows1 errs1]|] eqn:E1; [|discriminate].
      apply IH in E. clear IH. apply one_row in E1 as [(id0 & W & N & -> & ->)|(A & -> & pre & ->)].
      + destruct E as [K1 K2 K3 K4 K5 K6 K7]. constructor.
        * intros id row H. apply K1. rewrite dget_dset. simpl. destruct (String.eqb_spec id id0) as [->|]; [|exact H].
          exfalso. apply N. apply dget_in in H. eapply in_dkeys; eauto.
        * exact K2.
        * intros K. apply K3, keyed_dset; [exact K|apply dget_stored].
        * intros M. apply K4. intros id row Hr. apply in_dset' in Hr as [[= -> ->]|Hr]; [apply stored_nodup|eauto].
        * intros l1 v l2 id El Wv Nv F. destruct l1 as [|x l1]; injection El as -> El.
          -- rewrite (row_id_unique _ _ _ Wv W). apply K1. rewrite dget_dset. simpl. rewrite String.eqb_refl. reflexivity.
          -- apply (K5 l1 v l2 id El Wv); [|intros; apply F; right; assumption].
             intros X. apply dkeys_dset in X as [->|X]; [|contradiction]. apply (F x (or_introl eq_refl) W).
        * intros l1 v l2 El F. destruct l1 as [|x l1]; injection El as -> El.
          -- destruct (F id0 W N) as (w & [] & _).
          -- apply (K6 l1 v l2 El). intros id Wv Nv.
             destruct (F id Wv) as (w & [<-|Hw] & Ww); [|exfalso|eauto].
             ++ intros X. apply Nv, dkeys_dset. auto.
             ++ apply Nv, dkeys_dset. left. apply (row_id_unique _ _ _ Ww W).
        * intros id. rewrite K7, dkeys_dset. split.
          -- intros [[->|H]|(v & Hv & Wv)]; [right; exists vals; split; [left; reflexivity|exact W]|auto|right; exists v; split; [right; exact Hv|exact Wv]].
          -- intros [H|(v & [<-|Hv] & Wv)]; [auto|left; left; apply (row_id_unique _ _ _ Wv W)|eauto].
      + destruct E as [K1 K2 K3 K4 K5 K6 K7]. constructor.
        * exact K1.
        * intros e He. apply K2, in_app_iff. auto.
        * exact K3.
        * exact K4.
        * intros l1 v l2 id El Wv Nv F. destruct l1 as [|x l1]; injection El as -> El.
          -- exfalso. apply Nv, A, Wv.
          -- apply (K5 l1 v l2 id El Wv Nv). intros; apply F; right; assumption.
        * intros l1 v l2 El F. destruct l1 as [|x l1]; injection El as -> El.
          -- exists pre. apply K2, in_app_iff. right. left. reflexivity.
          -- apply (K6 l1 v l2 El). intros id Wv Nv. destruct (F id Wv Nv) as (w & [<-|Hw] & Ww); [exfalso; apply Nv, A, Ww|eauto].
        * intros id. rewrite K7. split.
          -- intros [H|(v & Hv & Wv)]; [auto|right; exists v; split; [right; exact Hv|exact Wv]].
          -- intros [H|(v & [<-|Hv] & Wv)]; [auto|left; apply A, Wv|eauto].
  Qed.
End Loop.

(** What a stored row holds. *)
Lemma zip_fold_get c l : forall (acc : row), ~ In c (map fst l) ->
  dget c (fold_left (fun r p => dset (fst p) (snd p) r) l acc) = dget c acc.
Proof.
  induction l as [|[a v] l IH]; simpl; intros acc H; [reflexivity|].
  rewrite IH by tauto. rewrite dget_dset. simpl. destruct (String.eqb_spec c a) as [->|]; [tauto|reflexivity].
Qed.
Lemma zip_get cols : forall vals i c v, NoDup cols -> nth_error cols i = Some c -> nth_error vals i = Some v ->
  forall acc, dget c (fold_left (fun (r : row) p => dset (fst p) (snd p) r) (combine cols vals) acc) = Some v.
Proof.
  induction cols as [|x cols IH]; intros [|y vals] [|i] c v ND Hc Hv acc; simpl in *; try discriminate.
  - injection Hc as ->. injection Hv as ->. inversion ND as [|? ? Hn _]; subst. rewrite zip_fold_get.
    + rewrite dget_dset. simpl. rewrite String.eqb_refl. reflexivity.
    + intros H. apply Hn. apply in_map_iff in H as ([a b] & <- & H). apply in_combine_l in H. exact H.
  - inversion ND; subst. eapply IH; eauto.
Qed.
Lemma stored_get t r vals id i c v : NoDup (insert_columns t r) ->
  nth_error (insert_columns t r) i = Some c -> nth_error vals i = Some v -> c <> "id" ->
  dget c (stored_row t r vals id) = Some v.
Proof.
  intros ND Hc Hv N. unfold stored_row. rewrite dget_dset. simpl. destruct (String.eqb_spec c "id"); [contradiction|].
  apply (zip_get _ _ i); auto.
Qed.
Lemma stored_keys t r vals id c : In c (dkeys (stored_row t r vals id)) -> c = "id" \/ In c (insert_columns t r).
Proof.
  unfold stored_row. rewrite dkeys_dset. intros [->|H]; [auto|]. apply in_zip_row in H as [[]|H].
  right. apply in_map_iff in H as ([a b] & <- & H). apply in_combine_l in H. exact H.
Qed.

(** ** [add_rows] *)
Lemma insert_columns_eq t r :
  (if negb (Nat.eqb (r_explicit r) 0) then r_columns r else dkeys (t_columns t)) = insert_columns t r.
Proof. unfold insert_columns. destruct (r_explicit r); reflexivity. Qed.

Lemma add_rows_ok t r t' : add_rows t r = (t', None) ->
  t_columns t' = t_columns t /\ t_name t' = t_name t /\ t_tracking t' = true /\ t_rows t' <> None
  /\ if smem "id" (insert_columns t r)
     then looped t r (r_raw r) (rows_of t) (t_global_errors t +++ r_perrors r) (rows_of t') (t_global_errors t')
     else rows_of t' = rows_of t
          /\ exists m, t_global_errors t' = t_global_errors t +++ r_perrors r +++ [m].
Proof.
  unfold add_rows. rewrite insert_columns_eq. destruct (smem "id" (insert_columns t r)) eqn:E; simpl.
  - destruct (add_rows_loop _ _ _ _ _ _) as [[rows' ge'] e] eqn:L. intros [= <- ->]. simpl.
    repeat (split; [try reflexivity; try discriminate|]). apply smem_iff in E.
    unfold rows_of at 2. simpl. apply (loop_ok t r E). exact L.
  - intros [= <-]. simpl. repeat (split; [try reflexivity; try discriminate|]).
    rewrite <- app_assoc. eauto.
Qed.

Lemma add_all_ok l : forall t t', add_all_rows t l = (t', None) ->
  t_columns t' = t_columns t /\ t_name t' = t_name t
  /\ (keyed (rows_of t) -> keyed (rows_of t')) /\ (row_maps (rows_of t) -> row_maps (rows_of t'))
  /\ (forall id row, dget id (rows_of t) = Some row -> dget id (rows_of t') = Some row)
  /\ (forall id, In id (dkeys (rows_of t')) <-> In id (dkeys (rows_of t))
        \/ exists r vals, In r l /\ In "id" (insert_columns t r) /\ In vals (r_raw r) /\ row_with_id t r vals id)
  /\ (t_tracking t = true \/ l <> [] -> t_tracking t' = true)
  /\ (t_rows t <> None \/ l <> [] -> t_rows t' <> None).
Proof.
  unfold add_all_rows. induction l as [|r l IH] using rev_ind; intros t t' E; simpl in E.
  - injection E as <-. do 5 (split; [auto|]). split; [|split; [tauto|tauto]].
    intros id. split; [auto|]. intros [H|(r & v & [] & _)]; exact H.
  - rewrite fold_left_app in E. simpl in E.
    match type of E with then_mut ?m _ = _ => destruct m as [t1 [e|]] eqn:F end; unfold then_mut in E; simpl in E; [discriminate|].
    destruct (IH t t1 F) as (C1 & N1 & K1 & M1 & G1 & I1 & T1 & R1). clear IH.
    apply add_rows_ok in E as (C2 & N2 & T2 & R2 & E).
    split; [congruence|]. split; [congruence|].
    assert (Ec : forall r, insert_columns t1 r = insert_columns t r) by (intros r0; unfold insert_columns; rewrite C1; reflexivity).
    assert (Ew : forall r vals id, row_with_id t1 r vals id <-> row_with_id t r vals id)
      by (intros; unfold row_with_id; rewrite Ec; tauto).
    destruct (smem "id" (insert_columns t1 r)) eqn:S.
    + destruct E as [K1' K2' K3' K4' K5' K6' K7'].
      split; [auto|]. split; [auto|]. split; [auto|]. split; [|split; [tauto|tauto]].
      intros id. rewrite K7', I1. apply smem_iff in S. rewrite Ec in S. split.
      * intros [[H|(r' & v & Hr & Hi & Hv & W)]|(v & Hv & W)]; [auto| |].
        -- right. exists r', v. rewrite in_app_iff. auto.
        -- right. exists r, v. rewrite in_app_iff. simpl. apply Ew in W. auto.
      * intros [H|(r' & v & Hr & Hi & Hv & W)]; [auto|]. apply in_app_iff in Hr as [Hr|[<-|[]]].
        -- left. right. exists r', v. auto.
        -- right. exists v. split; [exact Hv|apply Ew, W].
    + destruct E as (E & _). rewrite E. split; [auto|]. split; [auto|]. split; [auto|]. split; [|split; [tauto|tauto]].
      intros id. rewrite I1. apply smem_false in S. rewrite Ec in S. split.
      * intros [H|(r' & v & Hr & Hi & Hv & W)]; [auto|]. right. exists r', v. rewrite in_app_iff. auto.
      * intros [H|(r' & v & Hr & Hi & Hv & W)]; [auto|]. apply in_app_iff in Hr as [Hr|[<-|[]]]; [|contradiction].
        right. exists r', v. auto.
Qed.

(** ** [add_raw_row] *)
Lemma add_raw_row_keyed t raw : NoDup (dkeys (t_columns t)) -> keyed (rows_of t) -> row_maps (rows_of t) ->
  keyed (rows_of (fst (add_raw_row t raw))) /\ row_maps (rows_of (fst (add_raw_row t raw))).
Proof.
  intros ND K M. unfold add_raw_row.
  destruct (is_empty _); [unfold rows_of in *; simpl; destruct (t_rows t); auto|].
  destruct (dmem _ _); [unfold rows_of in *; simpl; destruct (t_rows t); auto|].
  simpl. unfold rows_of in *. simpl. split.
  - apply keyed_dset; [destruct (t_rows t); exact K|]. rewrite dget_dset. reflexivity.
  - intros id row H. apply in_dset' in H as [[= -> ->]|H]; [|destruct (t_rows t); [eapply M; eauto|destruct H]].
    apply NoDup_dset. unfold dkeys. rewrite map_map. simpl. exact ND.
Qed.
