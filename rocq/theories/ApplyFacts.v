(** Applying the clauses of a diff to the table object: C46. *)
From Verif Require Export MutFacts.

Definition runs (t : table) (l : list aop) (t' : table) : Prop := apply_seq t l = (t', None).

Lemma apply_seq_raised l : forall t e,
  fold_left (fun m o => then_mut m (fun t => apply_aop t o)) l (t, Some e) = (t, Some e).
Proof. induction l as [|o l IH]; intros t e; [reflexivity|]. cbn [fold_left]. unfold then_mut at 2. simpl. apply IH. Qed.
Lemma runs_nil t : runs t [] t.
Proof. reflexivity. Qed.
Lemma runs_cons t o l t1 t' : apply_aop t o = (t1, None) -> runs t1 l t' -> runs t (o :: l) t'.
Proof. intros E R. unfold runs, apply_seq. simpl. unfold then_mut at 2. simpl. rewrite E. exact R. Qed.
Lemma runs_app l : forall t m t1 t', runs t l t1 -> runs t1 m t' -> runs t (l +++ m) t'.
Proof.
  intros t m t1 t' A B. unfold runs, apply_seq in *. rewrite fold_left_app, A. exact B.
Qed.

Lemma distinct_apply t o : distinct t -> distinct (fst (apply_aop t o)).
Proof.
  intros D. destruct o as [c p|c|c|i|i|i|k|k|k]; simpl apply_aop; try exact D.
  - exact (distinct_perform t (CAddColumn c p) D).
  - exact (distinct_perform t (CChangeColumn c) D).
  - exact (distinct_perform t (CRemoveColumn (c_name c)) D).
  - exact (distinct_perform t (CAddConstraint k) D).
  - exact (distinct_perform t (CChangeConstraint k) D).
  - exact (distinct_perform t (CRemoveConstraint (k_name k)) D).
Qed.
Lemma runs_distinct l : forall t t', distinct t -> runs t l t' -> distinct t'.
Proof.
  induction l as [|o l IH]; unfold runs, apply_seq; simpl; intros t t' D E; [injection E as <-; exact D|].
  unfold then_mut at 2 in E. simpl in E. pose proof (distinct_apply t o D) as D'.
  destruct (apply_aop t o) as [t1 [e|]].
  - rewrite apply_seq_raised in E. discriminate.
  - apply (IH t1); auto.
Qed.
Lemma wf_distinct t : wf_table t -> distinct t.
Proof. intros W. repeat split; [apply (wf_cols _ W)|apply (wf_keys _ W)|apply (wf_fks _ W)]. Qed.

Lemma keys_dget {V} n (d : dict string V) : In n (dkeys d) <-> dget n d <> None.
Proof.
  split; intros H; [destruct (dget_some_key _ _ H) as (v & ->); discriminate|].
  destruct (dget n d) eqn:E; [apply dget_in in E; eapply in_dkeys; eauto|congruence].
Qed.

Lemma dget_app {V} n (a b : dict string V) : dget n (a +++ b) = match dget n a with Some v => Some v | None => dget n b end.
Proof.
  induction a as [|[k v] a IH]; simpl; [reflexivity|]. destruct (String.eqb n k); [reflexivity|apply IH].
Qed.

(** ** Columns *)
Lemma add_column_runs t c p : ~ In (c_name c) (dkeys (t_columns t)) ->
  (p = PFirst -> t_ordered t = true) ->
  (forall a, p = PAfter a -> a = "" \/ In a (dkeys (t_columns t))) ->
  exists t', add_column t c p = (t', None)
    /\ (forall n, dget n (t_columns t') = if String.eqb n (c_name c) then Some c else dget n (t_columns t))
    /\ t_constraints t' = t_constraints t /\ t_indexes t' = t_indexes t
    /\ (t_ordered t = true -> t_ordered t' = true).
Proof.
  intros N F A. unfold add_column. rewrite (proj2 (dmem_false _ _) N).
  assert (G : forall n, dget n (dset (c_name c) c (t_columns t)) = if String.eqb n (c_name c) then Some c else dget n (t_columns t)).
  { intros n. rewrite dget_dset. reflexivity. }
  destruct p as [| |a].
  - eexists; split; [reflexivity|]. simpl. auto.
  - rewrite F by reflexivity. eexists; split; [reflexivity|]. simpl. auto.
  - destruct (is_empty a) eqn:E; [eexists; split; [reflexivity|]; simpl; auto|].
    destruct (A a eq_refl) as [->|Ha]; [discriminate|]. rewrite (proj2 (dmem_iff _ _) Ha).
    eexists; split; [reflexivity|]. simpl. split; [|auto]. intros n. apply dget_insert_after; auto.
Qed.

Lemma last_after done : forall p, fold_left (fun (_ : position) (x : string) => PAfter x) done p = p /\ done = []
  \/ exists x, In x done /\ fold_left (fun _ x => PAfter x) done p = PAfter x.
Proof.
  induction done as [|a done IH]; intros p; simpl; [auto|]. right.
  destruct (IH (PAfter a)) as [[E ->]|(x & Hx & E)]; [exists a|exists x]; rewrite E; auto.
Qed.

Lemma adds_run (src : dict string column) (tcols : dict string column) (ord : bool) :
  NoDup (dkeys tcols) -> (forall n c, In (n, c) tcols -> c_name c = n) ->
  (ord = true \/ forall q r, tcols = q :: r -> In (fst q) (dkeys src)) ->
  forall rest done t, tcols = done +++ rest -> (ord = true -> t_ordered t = true) ->
    (forall n, dget n (t_columns t) = match dget n src with Some a => Some a | None => dget n done end) ->
    exists t', runs t (map (fun q => AddColumn (snd q) (pos_of (map fst tcols) (fst q)))
                         (filter (fun q => negb (dmem (fst q) src)) rest)) t'
      /\ (forall n, dget n (t_columns t') = match dget n src with Some a => Some a | None => dget n tcols end)
      /\ t_constraints t' = t_constraints t /\ t_indexes t' = t_indexes t.
Proof.
  intros ND Nm Fst. induction rest as [|[n c] rest IH]; intros done t E O G.
  - exists t. rewrite app_nil_r in E. subst. simpl. auto using runs_nil.
  - assert (Hnd : ~ In n (map fst done)).
    { rewrite E in ND. unfold dkeys in ND. rewrite map_app in ND. simpl in ND. apply NoDup_remove_2 in ND.
      intros H. apply ND, in_app_iff. auto. }
    assert (E' : tcols = (done +++ [(n, c)]) +++ rest) by (rewrite <- app_assoc; exact E).
    simpl filter. destruct (dmem n src) eqn:Ed; simpl.
    + apply (IH (done +++ [(n, c)]) t E' O). intros m. rewrite G, dget_app. simpl.
      destruct (dget m src) eqn:Em; [reflexivity|]. destruct (dget m done); [reflexivity|].
      destruct (String.eqb_spec m n) as [->|]; [|reflexivity].
      rewrite dmem_dget, Em in Ed. discriminate.
    + assert (En : c_name c = n) by (apply Nm; rewrite E; apply in_app_iff; right; left; reflexivity).
      apply dmem_false in Ed.
      assert (Ep : pos_of (map fst tcols) n = fold_left (fun _ x => PAfter x) (map fst done) PFirst).
      { unfold pos_of. rewrite E, map_app. simpl. rewrite before_in_app by exact Hnd. reflexivity. }
      destruct (add_column_runs t c (pos_of (map fst tcols) n)) as (t1 & R1 & G1 & K1 & I1 & O1).
      * rewrite keys_dget, En, G, (proj2 (dget_none _ _) Ed). intros H. apply H. apply dget_none, Hnd.
      * rewrite Ep. destruct (last_after (map fst done) PFirst) as [[Ef Ed']|(x & _ & ->)]; [|discriminate].
        intros _. apply O. destruct Fst as [F|F]; [exact F|]. exfalso. apply Ed.
        apply map_eq_nil in Ed'. subst done. exact (F (n, c) rest E).
      * rewrite Ep. intros a Ha. right. destruct (last_after (map fst done) PFirst) as [[Ef _]|(x & Hx & Ef)]; [congruence|].
        rewrite Ef in Ha. injection Ha as <-. rewrite keys_dget, G. destruct (dget x src); [discriminate|].
        apply keys_dget. exact Hx.
      * destruct (IH (done +++ [(n, c)]) t1 E') as (t' & R & G' & K' & I').
        -- auto.
        -- intros m. rewrite G1, G, dget_app, En. simpl. destruct (String.eqb_spec m n) as [->|Nm'].
           ++ rewrite (proj2 (dget_none _ _) Ed), (proj2 (dget_none _ _) Hnd). reflexivity.
           ++ destruct (dget m src); [reflexivity|]. destruct (dget m done); reflexivity.
        -- exists t'. split; [eapply runs_cons; eauto|]. split; [exact G'|]. split; congruence.
Qed.

Lemma changes_run l : forall t, NoDup (map c_name l) -> (forall b, In b l -> In (c_name b) (dkeys (t_columns t))) ->
  exists t', runs t (map ChangeColumn l) t'
    /\ (forall n, dget n (t_columns t') = match find (fun b => String.eqb (c_name b) n) l with
                                          | Some b => Some b | None => dget n (t_columns t) end)
    /\ t_constraints t' = t_constraints t /\ t_indexes t' = t_indexes t.
Proof.
  induction l as [|b l IH]; intros t ND H; [exists t; simpl; auto using runs_nil|].
  simpl in ND. inversion ND as [|? ? Hn ND']; subst.
  assert (R1 : change_column t b = (with_columns t (dset (c_name b) b (t_columns t)) (t_ordered t), None)).
  { unfold change_column. rewrite (proj2 (dmem_iff _ _) (H b (or_introl eq_refl))). reflexivity. }
  destruct (IH (with_columns t (dset (c_name b) b (t_columns t)) (t_ordered t)) ND') as (t' & R & G & K & I).
  { intros b' Hb. simpl. rewrite dkeys_dset. right. apply H. right. exact Hb. }
  exists t'. split; [eapply runs_cons; eauto|]. split; [|auto].
  intros n. rewrite G. simpl. rewrite dget_dset. simpl.
  destruct (String.eqb_spec (c_name b) n) as [E|N].
  - destruct (find _ l) as [b'|] eqn:F.
    + apply find_some in F as [Hb E']. apply String.eqb_eq in E'. exfalso. apply Hn. apply in_map_iff. exists b'. split; [congruence|exact Hb].
    + subst n. rewrite String.eqb_refl. reflexivity.
  - destruct (find _ l); [reflexivity|]. destruct (String.eqb_spec n (c_name b)); [congruence|reflexivity].
Qed.

Lemma removes_run l : forall t, NoDup (map c_name l) -> (forall b, In b l -> In (c_name b) (dkeys (t_columns t))) ->
  exists t', runs t (map RemoveColumn l) t'
    /\ (forall n, dget n (t_columns t') = if smem n (map c_name l) then None else dget n (t_columns t))
    /\ t_constraints t' = t_constraints t /\ t_indexes t' = t_indexes t.
Proof.
  induction l as [|b l IH]; intros t ND H; [exists t; simpl; auto using runs_nil|].
  simpl in ND. inversion ND as [|? ? Hn ND']; subst.
  assert (R1 : remove_column t (c_name b) = (with_columns t (dpop (c_name b) (t_columns t)) (t_ordered t), None)).
  { unfold remove_column. rewrite (proj2 (dmem_iff _ _) (H b (or_introl eq_refl))). reflexivity. }
  destruct (IH (with_columns t (dpop (c_name b) (t_columns t)) (t_ordered t)) ND') as (t' & R & G & K & I).
  { intros b' Hb. simpl. rewrite keys_dget, dget_dpop. simpl. destruct (String.eqb_spec (c_name b') (c_name b)) as [E|N].
    - exfalso. apply Hn. rewrite <- E. apply in_map, Hb.
    - apply keys_dget, H. right. exact Hb. }
  exists t'. split; [eapply runs_cons; eauto|]. split; [|auto].
  intros n. rewrite G. simpl. rewrite dget_dpop. simpl.
  destruct (String.eqb_spec n (c_name b)); simpl; destruct (smem n (map c_name l)); reflexivity.
Qed.

(** ** Foreign keys *)
Lemma fk_removes_run l : forall t, NoDup (map k_name l) -> (forall k, In k l -> In (k_name k) (dkeys (t_constraints t))) ->
  exists t', runs t (map RemoveConstraint l) t'
    /\ (forall n, dget n (t_constraints t') = if smem n (map k_name l) then None else dget n (t_constraints t))
    /\ t_columns t' = t_columns t /\ t_ordered t' = t_ordered t /\ t_indexes t' = t_indexes t.
Proof.
  induction l as [|b l IH]; intros t ND H; [exists t; simpl; auto 6 using runs_nil|].
  simpl in ND. inversion ND as [|? ? Hn ND']; subst.
  assert (R1 : remove_constraint t (k_name b) = (with_constraints t (dpop (k_name b) (t_constraints t)), None)).
  { unfold remove_constraint. rewrite (proj2 (dmem_iff _ _) (H b (or_introl eq_refl))). reflexivity. }
  destruct (IH (with_constraints t (dpop (k_name b) (t_constraints t))) ND') as (t' & R & G & K & O & I).
  { intros b' Hb. simpl. rewrite keys_dget, dget_dpop. simpl. destruct (String.eqb_spec (k_name b') (k_name b)) as [E|N].
    - exfalso. apply Hn. rewrite <- E. apply in_map, Hb.
    - apply keys_dget, H. right. exact Hb. }
  exists t'. split; [eapply runs_cons; eauto|]. split; [|auto].
  intros n. rewrite G. simpl. rewrite dget_dpop. simpl.
  destruct (String.eqb_spec n (k_name b)); simpl; destruct (smem n (map k_name l)); reflexivity.
Qed.
Lemma fk_adds_run l : forall t, NoDup (map k_name l) -> (forall k, In k l -> ~ In (k_name k) (dkeys (t_constraints t))) ->
  exists t', runs t (map AddConstraint l) t'
    /\ (forall n, dget n (t_constraints t') = match find (fun b => String.eqb (k_name b) n) l with
                                              | Some b => Some b | None => dget n (t_constraints t) end)
    /\ t_columns t' = t_columns t /\ t_indexes t' = t_indexes t.
Proof.
  induction l as [|b l IH]; intros t ND H; [exists t; simpl; auto using runs_nil|].
  simpl in ND. inversion ND as [|? ? Hn ND']; subst.
  assert (R1 : add_constraint t b = (with_constraints t (dset (k_name b) b (t_constraints t)), None)).
  { unfold add_constraint. rewrite (proj2 (dmem_false _ _) (H b (or_introl eq_refl))). reflexivity. }
  destruct (IH (with_constraints t (dset (k_name b) b (t_constraints t))) ND') as (t' & R & G & K & I).
  { intros b' Hb. simpl. rewrite dkeys_dset. intros [E|E].
    - apply Hn. rewrite <- E. apply in_map, Hb.
    - apply (H b'); [right; exact Hb|exact E]. }
  exists t'. split; [eapply runs_cons; eauto|]. split; [|auto].
  intros n. rewrite G. simpl. rewrite dget_dset. simpl.
  destruct (String.eqb_spec (k_name b) n) as [E|N].
  - destruct (find _ l) as [b'|] eqn:F.
    + apply find_some in F as [Hb E']. apply String.eqb_eq in E'. exfalso. apply Hn. apply in_map_iff. exists b'. split; [congruence|exact Hb].
    + subst n. rewrite String.eqb_refl. reflexivity.
  - destruct (find _ l); [reflexivity|]. destruct (String.eqb_spec n (k_name b)); [congruence|reflexivity].
Qed.

(** ** The whole diff *)
Lemma filter_app' {A} (p : A -> bool) l m : filter p (l +++ m) = filter p l +++ filter p m.
Proof. apply filter_app. Qed.

Section Whole.
  Context {FO : FloatOracle}.
  Notation plain := (fun o => negb (key_clause o)).

  Lemma diff_plain src tgt alters : wf_table src -> wf_table tgt -> diff src tgt = Ok alters ->
    comparable src tgt /\
    filter plain (concat (map al_ops alters))
    = map RemoveConstraint (gone_fks src tgt)
      +++ add_col_ops src tgt
      +++ map ChangeColumn (changed_cols src tgt)
      +++ map RemoveColumn (map snd (only_in (t_columns src) (t_columns tgt)))
      +++ map AddConstraint (new_fks src tgt).
  Proof.
    intros Ws Wt E. apply diff_iff in E as [C ->]; auto. split; [exact C|].
    assert (S : forall l, concat (map al_ops (opt_list (nonempty_alter (t_name src) l))) = l).
    { intros l. unfold nonempty_alter, alter_bool. simpl. destruct l; simpl; [reflexivity|]. rewrite app_nil_r. reflexivity. }
    rewrite map_app, concat_app, !S. unfold kitchen_list.
    rewrite removed_fk_ops_eq, added_fk_ops_eq, map_map, !filter_app'.
    assert (T : forall l, (forall o, In o l -> key_clause o = false) -> filter plain l = l).
    { intros l H. apply filter_true. intros o Ho. rewrite (H o Ho). reflexivity. }
    rewrite (filter_none _ (key_ops src tgt)).
    2:{ intros o Ho. unfold key_ops in Ho. rewrite !in_app_iff in Ho.
        destruct Ho as [H|[H|H]].
        - apply in_map_iff in H as (q & <- & _). reflexivity.
        - apply in_map_iff in H as (q & <- & _). reflexivity.
        - apply in_concat in H as (l & Hl & Hx). apply in_map_iff in Hl as (q & <- & _).
          destruct (dget (fst q) (t_indexes tgt)) as [b|]; [|destruct Hx].
          destruct (key_changed (snd q) b); [|destruct Hx]. destruct Hx as [<-|[]]. reflexivity. }
    rewrite !T; [rewrite app_nil_r, <- !app_assoc; reflexivity| | | | |];
      intros o H; unfold add_col_ops in H; apply in_map_iff in H as (q & <- & _); reflexivity.
  Qed.

  Lemma applied src tgt alters : wf_table src -> wf_table tgt ->
    (t_ordered src = true \/ forall q r, t_columns tgt = q :: r -> In (fst q) (dkeys (t_columns src))) ->
    diff src tgt = Ok alters ->
    exists t', runs src (filter plain (concat (map al_ops alters))) t'
      /\ columns_of src tgt t' /\ constraints_of tgt t' /\ t_indexes t' = t_indexes src.
  Proof.
    intros Ws Wt F E. destruct (diff_plain src tgt alters Ws Wt E) as [C ->].
    pose proof (wf_cols _ Ws) as NDs. pose proof (wf_cols _ Wt) as NDt.
    (* removing foreign keys *)
    assert (Ng : NoDup (map k_name (gone_fks src tgt))).
    { apply gone_fks_nodup; auto. }
    destruct (fk_removes_run (gone_fks src tgt) src Ng) as (t1 & R1 & G1 & C1 & O1 & I1).
    { intros k Hk. apply gone_fks_in in Hk as (n & Hn & _). rewrite (wf_fks_named _ Ws _ _ Hn). eapply in_dkeys; eauto. }
    (* adding columns *)
    destruct (adds_run (t_columns src) (t_columns tgt) (t_ordered src) NDt (wf_cols_named _ Wt) F
                (t_columns tgt) [] t1 eq_refl) as (t2 & R2 & G2 & K2 & I2).
    { intros H. rewrite O1. exact H. }
    { intros n. rewrite C1. destruct (dget n (t_columns src)); reflexivity. }
    (* changing columns *)
    destruct (changes_run (changed_cols src tgt) t2) as (t3 & R3 & G3 & K3 & I3).
    { rewrite (changed_cols_names src tgt (wf_cols_named _ Wt)). apply NoDup_filter_map, NDs. }
    { intros b Hb. apply changed_cols_in in Hb as (n & a & Hn & Dn & _). apply keys_dget. rewrite G2.
      rewrite (wf_cols_named _ Wt n b (dget_in _ _ _ Dn)). rewrite Dn. destruct (dget n (t_columns src)); discriminate. }
    (* removing columns *)
    assert (Eo : map c_name (map snd (only_in (t_columns src) (t_columns tgt))) = dkeys (only_in (t_columns src) (t_columns tgt))).
    { apply (dvals_names _ c_name). intros n c H. apply only_in_in in H as [H _]. apply (wf_cols_named _ Ws), H. }
    destruct (removes_run (map snd (only_in (t_columns src) (t_columns tgt))) t3) as (t4 & R4 & G4 & K4 & I4).
    { rewrite Eo. unfold only_in, dkeys. apply NoDup_filter_map, NDs. }
    { intros b Hb. apply in_map_iff in Hb as ([n c] & <- & H). simpl. apply only_in_in in H as [H Hd].
      rewrite (wf_cols_named _ Ws _ _ H). apply keys_dget. rewrite G3.
      destruct (find _ _); [discriminate|]. rewrite G2. rewrite (proj2 (dget_iff n c _ NDs) H). discriminate. }
    (* adding foreign keys *)
    destruct (fk_adds_run (new_fks src tgt) t4) as (t5 & R5 & G5 & C5 & I5).
    { apply new_fks_nodup; auto. }
    { intros k Hk. apply new_fks_in in Hk as (n & Hn & Hs); auto. rewrite (wf_fks_named _ Wt _ _ Hn).
      rewrite K4, K3, K2, keys_dget, G1. intros H. apply H.
      destruct (smem n (map k_name (gone_fks src tgt))) eqn:Sm; [reflexivity|].
      destruct (dget n (t_constraints src)) as [a|] eqn:Da; [|reflexivity]. exfalso.
      apply smem_false in Sm. apply Sm. apply in_map_iff. exists a. split; [apply (wf_fks_named _ Ws), dget_in, Da|].
      apply gone_fks_in. exists n. split; [apply dget_in, Da|].
      rewrite (proj2 (dget_iff n k _ (wf_fks _ Wt)) Hn). exact Hs. }
    assert (R : runs src (map RemoveConstraint (gone_fks src tgt)
      +++ add_col_ops src tgt
      +++ map ChangeColumn (changed_cols src tgt)
      +++ map RemoveColumn (map snd (only_in (t_columns src) (t_columns tgt)))
      +++ map AddConstraint (new_fks src tgt)) t5).
    { eapply runs_app; [exact R1|]. eapply runs_app; [exact R2|]. eapply runs_app; [exact R3|].
      eapply runs_app; [exact R4|exact R5]. }
    destruct (runs_distinct _ _ _ (wf_distinct _ Ws) R) as (ND5 & _ & NF5).
    exists t5. split; [exact R|].
    split; [|split; [|congruence]].
    - assert (G : forall n, dget n (t_columns t5)
                  = match dget n (t_columns tgt) with
                    | None => None
                    | Some b => Some (match dget n (t_columns src) with
                                      | Some a => if chb a b then b else a | None => b end)
                    end).
      { intros n. rewrite C5, G4, Eo, G3, G2.
        destruct (smem n (dkeys (only_in (t_columns src) (t_columns tgt)))) eqn:Sm.
        - apply smem_iff, dkeys_in in Sm as (v & Hv). apply only_in_in in Hv as [_ ->]. reflexivity.
        - apply smem_false in Sm.
          assert (Hs : dget n (t_columns tgt) = None -> dget n (t_columns src) = None).
          { intros Hn. destruct (dget n (t_columns src)) as [a|] eqn:Da; [|reflexivity]. exfalso. apply Sm.
            apply (in_dkeys n a). apply only_in_in. split; [apply dget_in, Da|exact Hn]. }
          destruct (find _ _) as [b|] eqn:Fd.
          + apply find_some in Fd as [Hb En]. apply String.eqb_eq in En.
            apply changed_cols_in in Hb as (m & a & Hm & Dm & Ch).
            rewrite (wf_cols_named _ Wt m b (dget_in _ _ _ Dm)) in En. subst m.
            rewrite Dm, (proj2 (dget_iff n a _ NDs) Hm), Ch. reflexivity.
          + destruct (dget n (t_columns src)) as [a|] eqn:Da.
            * destruct (dget n (t_columns tgt)) as [b|] eqn:Db; [|specialize (Hs eq_refl); discriminate].
              destruct (chb a b) eqn:Ch; [|reflexivity]. exfalso.
              assert (Hb : In b (changed_cols src tgt)) by (apply changed_cols_in; exists n, a; auto using dget_in).
              apply (find_none _ _ Fd) in Hb. rewrite (wf_cols_named _ Wt n b (dget_in _ _ _ Db)), String.eqb_refl in Hb. discriminate.
            * destruct (dget n (t_columns tgt)); reflexivity. }
      split.
      + intros n. rewrite !keys_dget, G. destruct (dget n (t_columns tgt)); split; intros H; congruence.
      + intros n a b Ha Hb. apply (dget_iff n b _ NDt) in Hb.
        assert (NDf : dget n (t_columns t5) = Some a).
        { apply dget_iff; [exact ND5|exact Ha]. }
        rewrite G, Hb in NDf. injection NDf as <-.
        destruct (dget n (t_columns src)) as [a|] eqn:Da; [|auto].
        destruct (chb a b) eqn:Ch; [auto|]. right. split; [apply dget_in, Da|].
        unfold chb in Ch. destruct (C n a b (dget_in _ _ _ Da) (dget_in _ _ _ Hb)) as (x & Hx).
        rewrite Hx in Ch. subst x. unfold column_changed in Hx. unfold declared_same.
        destruct (String.eqb_spec (column_str a) (column_str b)) as [Es|Es]; [auto|right].
        apply bind_ok in Hx as (r & Hr & Hx). injection Hx as Hx. apply negb_false_iff in Hx. congruence.
    - assert (G : forall n, match dget n (t_constraints tgt) with
                            | None => dget n (t_constraints t5) = None
                            | Some b => exists a, dget n (t_constraints t5) = Some a /\ constraint_str a = constraint_str b
                            end).
      { intros n. rewrite G5, K4, K3, K2, G1.
        destruct (find _ _) as [b|] eqn:Fd.
        - apply find_some in Fd as [Hb En]. apply String.eqb_eq in En.
          apply new_fks_in in Hb as (m & Hm & _); auto. rewrite (wf_fks_named _ Wt _ _ Hm) in En. subst m.
          rewrite (proj2 (dget_iff n b _ (wf_fks _ Wt)) Hm). eauto.
        - assert (Fd' : forall b, In b (new_fks src tgt) -> k_name b <> n).
          { intros b Hb E'. apply (find_none _ _ Fd) in Hb. rewrite E', String.eqb_refl in Hb. discriminate. }
          destruct (dget n (t_constraints tgt)) as [b|] eqn:Db.
          + destruct (dget n (t_constraints src)) as [a|] eqn:Da.
            * destruct (constraint_changed a b) eqn:Ch.
              { exfalso. apply (Fd' b); [|apply (wf_fks_named _ Wt), dget_in, Db].
                apply new_fks_in; auto. exists n. rewrite Da. split; [apply dget_in, Db|exact Ch]. }
              destruct (smem n (map k_name (gone_fks src tgt))) eqn:Sm.
              { exfalso. apply smem_iff, in_map_iff in Sm as (a' & En & Hg). apply gone_fks_in in Hg as (m & Hm & Hd).
                rewrite (wf_fks_named _ Ws _ _ Hm) in En. subst m. rewrite Db in Hd.
                apply (dget_iff n a' _ (wf_fks _ Ws)) in Hm. congruence. }
              exists a. split; [reflexivity|]. unfold constraint_changed in Ch. apply negb_false_iff, String.eqb_eq in Ch. exact Ch.
            * exfalso. apply (Fd' b); [|apply (wf_fks_named _ Wt), dget_in, Db].
              apply new_fks_in; auto. exists n. rewrite Da. split; [apply dget_in, Db|exact I].
          + destruct (smem n (map k_name (gone_fks src tgt))) eqn:Sm; [reflexivity|].
            destruct (dget n (t_constraints src)) as [a|] eqn:Da; [|reflexivity]. exfalso.
            apply smem_false in Sm. apply Sm. apply in_map_iff. exists a. split; [apply (wf_fks_named _ Ws), dget_in, Da|].
            apply gone_fks_in. exists n. rewrite Db. split; [apply dget_in, Da|exact I]. }
      split.
      + intros n. rewrite !keys_dget. specialize (G n). destruct (dget n (t_constraints tgt)) as [b|].
        * destruct G as (a & -> & _). split; discriminate.
        * rewrite G. tauto.
      + intros n a b Ha Hb. apply (dget_iff n a _ NF5) in Ha. apply (dget_iff n b _ (wf_fks _ Wt)) in Hb.
        specialize (G n). rewrite Hb in G. destruct G as (a' & Ea & Es). congruence.
  Qed.
End Whole.
