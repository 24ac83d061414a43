(** Lemmas about row synchronisation. *)
From Verif Require Export SpecRows Facts MutFacts.

(** ** Value equality *)
Lemma loose_refl v : loose_equal v v = true.
Proof. destruct v; simpl; rewrite ?String.eqb_refl, ?Z.eqb_refl; reflexivity. Qed.
Lemma loose_file v w : v = RNone \/ (exists s, v = RStr s) -> loose_equal v w = String.eqb (rval_str v) (rval_str w).
Proof. intros [->|(s & ->)]; destruct w; reflexivity. Qed.

(** ** One table *)
Definition upd_of (tn : string) (trows : dict string row) (p : string * row) : list op :=
  match dget (fst p) trows with
  | Some r => if row_differs r (snd p) then [ORowUpdate tn r] else []
  | None => []
  end.
Definition row_ops (tn : string) (trows frows : dict string row) : list op :=
  map (fun p => ORowInsert tn (snd p)) (only_in trows frows)
  +++ map (fun p => ORowDelete tn (fst p)) (only_in frows trows)
  +++ concat (map (upd_of tn trows) frows).

Lemma keyed_get rows id r : keyed rows -> dget id rows = Some r -> dget "id" r = Some (RStr id).
Proof. intros [_ K] E. apply K, dget_in, E. Qed.

Lemma to_rows_ok t f trows frows : t_rows t = Some trows -> keyed trows ->
  match f with
  | None => frows = []
  | Some f => t_tracking f = true /\ t_rows f = Some frows
  end -> to_rows t f = Ok (row_ops (t_name t) trows frows).
Proof.
  intros Et K Hf. unfold to_rows. rewrite Et.
  assert (E : (match f with
             | None => Ok []
             | Some f => if t_tracking f
                         then match t_rows f with
                              | Some d => Ok d
                              | None => Raise (TypeError "argument of type 'NoneType' is not iterable") end
                         else Raise (ValueError ("Refusing to compare rows for table " ++ t_name t ++ " that is not tracking rows."))
             end) = Ok frows).
  { destruct f as [f|]; [|subst; reflexivity]. destruct Hf as [-> ->]. reflexivity. }
  rewrite E. rewrite (mapM_Ok_map _ (upd_of (t_name t) trows)); [reflexivity|].
  intros [id r] _. unfold upd_of. simpl. destruct (dget id trows) as [r'|] eqn:Er; [|reflexivity].
  destruct (row_differs r' r); [|reflexivity]. unfold row_update_op.
  rewrite dmem_dget, (keyed_get _ _ _ K Er). reflexivity.
Qed.

Lemma to_rows_inv t f ops : to_rows t f = Ok ops ->
  exists trows frows, t_rows t = Some trows
    /\ match f with None => frows = [] | Some f => t_tracking f = true /\ t_rows f = Some frows end.
Proof.
  unfold to_rows. destruct (t_rows t) as [trows|]; [|discriminate].
  destruct f as [f|]; [|eauto]. destruct (t_tracking f); [|discriminate].
  destruct (t_rows f) as [d|]; [|discriminate]. eauto 6.
Qed.

Lemma row_ops_in tn trows frows o : keyed trows -> keyed frows ->
  In o (row_ops tn trows frows) <->
  (exists id r, o = ORowInsert tn r /\ In (id, r) trows /\ ~ In id (dkeys frows))
  \/ (exists id r, o = ORowDelete tn id /\ In (id, r) frows /\ ~ In id (dkeys trows))
  \/ (exists id r f, o = ORowUpdate tn r /\ In (id, r) trows /\ In (id, f) frows /\ row_differs r f = true).
Proof.
  intros [Kt _] [Kf _]. unfold row_ops. rewrite !in_app_iff, !in_map_iff, in_concat. split.
  - intros [([id r] & <- & H)|[([id r] & <- & H)|(l & Hl & Ho)]].
    + apply only_in_in in H as [H D]. apply dget_none in D. left. eauto.
    + apply only_in_in in H as [H D]. apply dget_none in D. right; left. exists id, r. auto.
    + apply in_map_iff in Hl as ([id f] & <- & H). unfold upd_of in Ho. simpl in Ho.
      destruct (dget id trows) as [r|] eqn:E; [|destruct Ho]. destruct (row_differs r f) eqn:Rd; [|destruct Ho].
      destruct Ho as [<-|[]]. right; right. exists id, r, f. auto using dget_in.
  - intros [(id & r & -> & H & D)|[(id & r & -> & H & D)|(id & r & f & -> & H & Hf & Rd)]].
    + left. exists (id, r). split; [reflexivity|]. apply only_in_in. split; [exact H|]. apply dget_none, D.
    + right; left. exists (id, r). split; [reflexivity|]. apply only_in_in. split; [exact H|]. apply dget_none, D.
    + right; right. exists [ORowUpdate tn r]. split; [|left; reflexivity]. apply in_map_iff. exists (id, f).
      split; [|exact Hf]. unfold upd_of. simpl. rewrite (proj2 (dget_iff id r _ Kt) H), Rd. reflexivity.
Qed.

(** ** Executing the operations of one table *)
Section Exec.
  Context (has : string -> string -> bool) (dflt : string -> srow).
  Notation exec := (exec_rows has dflt).

  Lemma exec_rows_app l m s : exec (l +++ m) s = match exec l s with Some s' => exec m s' | None => None end.
  Proof.
    revert s. induction l as [|o l IH]; intros s; simpl; [reflexivity|]. destruct (exec_row has dflt s o); [apply IH|reflexivity].
  Qed.

  Lemma put_row_same s t id r : put_row s t id r t id = r.
  Proof. unfold put_row. rewrite !String.eqb_refl. reflexivity. Qed.
  Lemma put_row_other s t id r t' id' : t' <> t \/ id' <> id -> put_row s t id r t' id' = s t' id'.
  Proof.
    intros H. unfold put_row. destruct (String.eqb_spec t' t); [|reflexivity].
    destruct (String.eqb_spec id' id); [|reflexivity]. tauto.
  Qed.

  Definition columns_ok (tn : string) (r : row) : Prop := forall c, In c (dkeys r) -> has tn c = true.

  Lemma cols_forallb tn r : columns_ok tn r -> forallb (has tn) (dkeys r) = true.
  Proof. intros H. apply forallb_forall, H. Qed.

  Lemma inserts_exec tn (l : dict string row) : forall s,
    NoDup (dkeys l) -> (forall id r, In (id, r) l -> dget "id" r = Some (RStr id) /\ columns_ok tn r /\ s tn id = None) ->
    exists s', exec (map (fun p => ORowInsert tn (snd p)) l) s = Some s'
      /\ (forall t id, t <> tn -> s' t id = s t id)
      /\ (forall id, s' tn id = match dget id l with Some r => Some (written r (dflt tn)) | None => s tn id end).
  Proof.
    induction l as [|[id r] l IH]; intros s ND H; simpl.
    - exists s. auto.
    - simpl in ND. inversion ND as [|? ? Hn ND']; subst.
      destruct (H id r (or_introl eq_refl)) as (Hid & Hc & Hs). rewrite Hid. simpl. rewrite (cols_forallb _ _ Hc), Hs.
      destruct (IH (put_row s tn id (Some (written r (dflt tn)))) ND') as (s' & E & O & G).
      { intros id' r' H'. destruct (H id' r' (or_intror H')) as (A & B & C). repeat split; auto.
        rewrite put_row_other; [exact C|]. right. intros ->. apply Hn. eapply in_dkeys; eauto. }
      exists s'. split; [exact E|]. split.
      + intros t id' Nt. rewrite O by exact Nt. apply put_row_other. auto.
      + intros id'. rewrite G. destruct (String.eqb_spec id' id) as [->|N].
        * rewrite (proj2 (dget_none _ _) Hn), put_row_same. reflexivity.
        * rewrite put_row_other by auto. reflexivity.
  Qed.

  Lemma deletes_exec tn (l : dict string row) : forall s,
    exists s', exec (map (fun p => ORowDelete tn (fst p)) l) s = Some s'
      /\ (forall t id, t <> tn -> s' t id = s t id)
      /\ (forall id, s' tn id = if dmem id l then None else s tn id).
  Proof.
    induction l as [|[id r] l IH]; intros s; simpl.
    - exists s. auto.
    - destruct (IH (put_row s tn id None)) as (s' & E & O & G).
      exists s'. split; [exact E|]. split.
      + intros t id' Nt. rewrite O by exact Nt. apply put_row_other. auto.
      + intros id'. rewrite G. simpl. destruct (String.eqb_spec id' id) as [->|N]; simpl.
        * destruct (dmem id l); [reflexivity|apply put_row_same].
        * rewrite put_row_other by auto. reflexivity.
  Qed.

  Lemma updates_exec tn (trows l : dict string row) : keyed trows -> (forall id r, In (id, r) trows -> columns_ok tn r) ->
    forall s, NoDup (dkeys l) -> (forall id, In id (dkeys l) -> s tn id <> None) ->
    exists s', exec (concat (map (upd_of tn trows) l)) s = Some s'
      /\ (forall t id, t <> tn -> s' t id = s t id)
      /\ (forall id, s' tn id =
            match dget id l, dget id trows, s tn id with
            | Some f, Some r, Some sr => if row_differs r f then Some (written (dpop "id" r) sr) else Some sr
            | _, _, x => x
            end).
  Proof.
    intros K C. induction l as [|[id f] l IH]; intros s ND H; simpl.
    - exists s. split; [reflexivity|]. split; [auto|]. reflexivity.
    - simpl in ND. inversion ND as [|? ? Hn ND']; subst. rewrite exec_rows_app.
      unfold upd_of at 1. simpl. destruct (dget id trows) as [r|] eqn:Er.
      + assert (Hk := keyed_get _ _ _ K Er).
        destruct (s tn id) as [sr|] eqn:Es; [|exfalso; apply (H id (or_introl eq_refl)); exact Es].
        destruct (row_differs r f) eqn:Rd; simpl.
        * rewrite Hk. simpl. rewrite (cols_forallb tn r) by (eapply C, dget_in; eauto). rewrite Es.
          destruct (IH (put_row s tn id (Some (written (dpop "id" r) sr))) ND') as (s' & E & O & G).
          { intros id' Hi. rewrite put_row_other; [apply H; right; exact Hi|]. right. intros ->. contradiction. }
          exists s'. split; [exact E|]. split.
          -- intros t id' Nt. rewrite O by exact Nt. apply put_row_other. auto.
          -- intros id'. rewrite G. destruct (String.eqb_spec id' id) as [->|N].
             ++ rewrite (proj2 (dget_none _ _) Hn), Er, Es, Rd, put_row_same. reflexivity.
             ++ rewrite put_row_other by auto. reflexivity.
        * destruct (IH s ND') as (s' & E & O & G); [intros; apply H; right; assumption|].
          exists s'. split; [exact E|]. split; [exact O|].
          intros id'. rewrite G. destruct (String.eqb_spec id' id) as [->|N]; [|reflexivity].
          rewrite (proj2 (dget_none _ _) Hn), Er, Es, Rd. reflexivity.
      + simpl. destruct (IH s ND') as (s' & E & O & G); [intros; apply H; right; assumption|].
        exists s'. split; [exact E|]. split; [exact O|].
        intros id'. rewrite G. destruct (String.eqb_spec id' id) as [->|N]; [|reflexivity].
        rewrite (proj2 (dget_none _ _) Hn), Er. reflexivity.
  Qed.

  (** The state after all operations of one table. *)
  Lemma row_ops_exec tn trows frows s :
    keyed trows -> keyed frows -> (forall id r, In (id, r) trows -> columns_ok tn r) -> reads frows (s tn) ->
    exists s', exec (row_ops tn trows frows) s = Some s'
      /\ (forall t id, t <> tn -> s' t id = s t id)
      /\ (forall id, s' tn id =
            match dget id trows with
            | None => None
            | Some r => match dget id frows, s tn id with
                        | Some f, Some sr => if row_differs r f then Some (written (dpop "id" r) sr) else Some sr
                        | _, _ => Some (written r (dflt tn))
                        end
            end).
  Proof.
    intros Kt Kf C R. pose proof Kt as [NDt It]. pose proof Kf as [NDf If].
    assert (Live : forall id, s tn id = None <-> dget id frows = None).
    { intros id. specialize (R id). destruct (dget id frows) as [f|]; [|tauto].
      destruct R as (sr & -> & _). split; discriminate. }
    unfold row_ops. rewrite exec_rows_app.
    destruct (inserts_exec tn (only_in trows frows) s) as (s1 & E1 & O1 & G1).
    { unfold only_in, dkeys. apply NoDup_filter_map, NDt. }
    { intros id r H. apply only_in_in in H as [H D]. split; [auto|]. split; [eauto|]. apply Live, D. }
    rewrite E1, exec_rows_app.
    destruct (deletes_exec tn (only_in frows trows) s1) as (s2 & E2 & O2 & G2). rewrite E2.
    assert (S2 : forall id f, dget id frows = Some f -> dget id trows <> None -> s2 tn id = s tn id).
    { intros id f Df Dt. rewrite G2, G1.
      rewrite dmem_dget.
      destruct (dget id (only_in frows trows)) eqn:X; [exfalso; apply dget_in, only_in_in in X as [_ X]; congruence|].
      destruct (dget id (only_in trows frows)) eqn:Y; [exfalso; apply dget_in, only_in_in in Y as [_ Y]; congruence|].
      reflexivity. }
    (* updates only touch common ids *)
    assert (Eu : exists s', exec (concat (map (upd_of tn trows) frows)) s2 = Some s'
      /\ (forall t id, t <> tn -> s' t id = s2 t id)
      /\ (forall id, s' tn id =
            match dget id frows, dget id trows, s2 tn id with
            | Some f, Some r, Some sr => if row_differs r f then Some (written (dpop "id" r) sr) else Some sr
            | _, _, x => x
            end)).
    { assert (Ef : concat (map (upd_of tn trows) frows)
                   = concat (map (upd_of tn trows) (filter (fun p => dmem (fst p) trows) frows))).
      { clear. induction frows as [|[id f] l IH]; [reflexivity|]. simpl. rewrite IH. unfold upd_of at 1. simpl.
        rewrite dmem_dget. destruct (dget id trows) eqn:E; [|reflexivity]. simpl. unfold upd_of at 2. simpl. rewrite E. reflexivity. }
      rewrite Ef.
      destruct (updates_exec tn trows (filter (fun p => dmem (fst p) trows) frows) Kt C s2) as (s' & E & O & G).
      { unfold dkeys. apply NoDup_filter_map, NDf. }
      { intros id Hi. apply dkeys_in in Hi as (f & Hf). apply filter_In in Hf as [Hf Hm]. simpl in Hm.
        rewrite dmem_dget in Hm. destruct (dget id trows) eqn:Dt; [|discriminate].
        rewrite (S2 id f); [|apply dget_iff; auto|congruence].
        intros X. apply Live in X. apply dget_none in X. apply X. eapply in_dkeys; eauto. }
      exists s'. split; [exact E|]. split; [exact O|]. intros id. rewrite G.
      assert (Dg : dget id (filter (fun p => dmem (fst p) trows) frows) = if dmem id trows then dget id frows else None).
      { clear. induction frows as [|[a b] l IH]; simpl; [destruct (dmem id trows); reflexivity|].
        destruct (String.eqb_spec id a) as [->|N].
        - destruct (dmem a trows) eqn:E; simpl; [rewrite String.eqb_refl; reflexivity|]. exact IH.
        - destruct (dmem a trows) eqn:E; simpl; [|exact IH]. destruct (String.eqb_spec id a); [congruence|exact IH]. }
      rewrite Dg, dmem_dget. destruct (dget id trows); [reflexivity|]. destruct (dget id frows); reflexivity. }
    destruct Eu as (s3 & E3 & O3 & G3). rewrite E3. exists s3. split; [reflexivity|]. split.
    { intros t id Nt. rewrite O3, O2, O1; auto. }
    intros id. rewrite G3. destruct (dget id frows) as [f|] eqn:Df.
    - destruct (dget id trows) as [r|] eqn:Dt.
      + rewrite (S2 id f) by congruence. destruct (s tn id) eqn:Es; [reflexivity|]. apply Live in Es. congruence.
      + rewrite G2. assert (X : dmem id (only_in frows trows) = true); [|rewrite X; reflexivity].
        apply dmem_iff. apply (in_dkeys id f). apply only_in_in. split; [apply dget_in, Df|exact Dt].
    - rewrite G2, G1, dmem_dget.
      destruct (dget id (only_in frows trows)) eqn:X.
      { exfalso. apply dget_in, only_in_in in X as [X _]. apply dget_none in Df. apply Df. eapply in_dkeys; eauto. }
      destruct (dget id trows) as [r|] eqn:Dt.
      + assert (Y : dget id (only_in trows frows) = Some r); [|rewrite Y; reflexivity].
        apply dget_iff; [unfold only_in, dkeys; apply NoDup_filter_map, NDt|].
        apply only_in_in. split; [apply dget_in, Dt|exact Df].
      + destruct (dget id (only_in trows frows)) eqn:Y.
        { exfalso. apply dget_in, only_in_in in Y as [Y _]. apply dget_none in Dt. apply Dt. eapply in_dkeys; eauto. }
        apply Live, Df.
  Qed.

  Lemma row_differs_false r f : row_differs r f = false <->
    forall c v w, In (c, v) r -> dget c f = Some w -> loose_equal v w = true.
  Proof.
    unfold row_differs. split.
    - intros H c v w Hc Hf. destruct (loose_equal v w) eqn:E; [reflexivity|]. exfalso.
      assert (X : existsb (fun p => match dget (fst p) f with Some v0 => negb (loose_equal (snd p) v0) | None => false end) r = true).
      { apply existsb_exists. exists (c, v). split; [exact Hc|]. simpl. rewrite Hf, E. reflexivity. }
      congruence.
    - intros H. destruct (existsb _ r) eqn:E; [|reflexivity]. exfalso.
      apply existsb_exists in E as ([c v] & Hc & E). simpl in E. destruct (dget c f) as [w|] eqn:Hf; [|discriminate].
      rewrite (H c v w Hc Hf) in E. discriminate.
  Qed.
  Lemma row_differs_true r f : row_differs r f = true <->
    exists c v w, In (c, v) r /\ dget c f = Some w /\ loose_equal v w = false.
  Proof.
    unfold row_differs. rewrite existsb_exists. split.
    - intros ([c v] & Hc & E). simpl in E. destruct (dget c f) as [w|] eqn:Hf; [|discriminate].
      apply negb_true_iff in E. eauto 6.
    - intros (c & v & w & Hc & Hf & E). exists (c, v). split; [exact Hc|]. simpl. rewrite Hf, E. reflexivity.
  Qed.

  Lemma row_ops_reach tn trows frows s :
    keyed trows -> keyed frows -> row_maps trows -> row_maps frows ->
    (forall id r, In (id, r) trows -> columns_ok tn r) -> reads frows (s tn) ->
    columns_live trows frows ->
    exists s', exec (row_ops tn trows frows) s = Some s'
      /\ (forall t id, t <> tn -> s' t id = s t id)
      /\ rows_reached trows (dflt tn) (s tn) (s' tn).
  Proof.
    intros Kt Kf Mt Mf C R L. pose proof Kt as [NDt It]. pose proof Kf as [NDf If].
    destruct (row_ops_exec tn trows frows s Kt Kf C R) as (s' & E & O & G).
    exists s'. split; [exact E|]. split; [exact O|]. split.
    - intros id. rewrite G. destruct (dget id trows) as [r|] eqn:D.
      + split; [intros _; apply dget_in in D; eapply in_dkeys; eauto|]. intros _.
        destruct (dget id frows) as [f|]; [|discriminate]. destruct (s tn id); [|discriminate].
        destruct (row_differs r f); discriminate.
      + split; [congruence|]. intros H. apply dget_none in D. contradiction.
    - intros id r sr Hr Hs. rewrite G, (proj2 (dget_iff id r _ NDt) Hr) in Hs.
      pose proof (Mt id r Hr) as NDr. specialize (R id).
      destruct (dget id frows) as [f|] eqn:Df.
      + destruct R as (old & Eo & Ro). rewrite Eo in Hs |- *. pose proof (Mf id f (dget_in _ _ _ Df)) as NDf'.
        assert (Same : forall c v w, In (c, v) r -> dget c f = Some w -> loose_equal v w = true -> tool_equal v (old c)).
        { intros c v w _ Hw El. exists w. split; [apply Ro, dget_in, Hw|exact El]. }
        assert (Col : forall c v, In (c, v) r -> exists w, dget c f = Some w).
        { intros c v Hc. apply dget_some_key. apply (L id r f); auto using dget_in. eapply in_dkeys; eauto. }
        destruct (row_differs r f) eqn:Rd; injection Hs as <-.
        * split.
          -- intros c v Hc. unfold written. rewrite dget_dpop. simpl. destruct (String.eqb_spec c "id") as [->|Nc].
             ++ apply (dget_iff _ _ _ NDr) in Hc. rewrite (It id r Hr) in Hc. injection Hc as <-.
                apply (Same "id" (RStr id) (RStr id)); [apply dget_in, It, Hr|apply (If id f), dget_in, Df|apply loose_refl].
             ++ rewrite (proj2 (dget_iff c v _ NDr) Hc). exists v. split; [reflexivity|apply loose_refl].
          -- intros c Hc. unfold written. rewrite dget_dpop. simpl. destruct (String.eqb c "id"); [reflexivity|].
             rewrite (proj2 (dget_none _ _) Hc). reflexivity.
        * split; [|reflexivity]. intros c v Hc. destruct (Col c v Hc) as (w & Hw).
          eapply Same; eauto. eapply row_differs_false; eauto.
      + rewrite R. injection Hs as <-. split.
        * intros c v Hc. unfold written. rewrite (proj2 (dget_iff c v _ NDr) Hc). exists v. split; [reflexivity|apply loose_refl].
        * intros c Hc. unfold written. rewrite (proj2 (dget_none _ _) Hc). reflexivity.
  Qed.

  (** Only tables named by an operation change. *)
  Lemma exec_rows_frame l : forall s s' t, exec l s = Some s' ->
    (forall o, In o l -> forall p, row_target o = Some p -> fst p <> t) -> forall id, s' t id = s t id.
  Proof.
    induction l as [|o l IH]; simpl; intros s s' t E H id; [congruence|].
    destruct (exec_row has dflt s o) as [s1|] eqn:E1; [|discriminate].
    rewrite (IH s1 s' t E) by (intros; eapply H; eauto).
    assert (N := H o (or_introl eq_refl)). destruct o; simpl in E1, N; try congruence.
    - destruct (dget "id" data); [|discriminate]. destruct (forallb _ _); [|discriminate].
      destruct (s tname (rval_str r)); [discriminate|]. injection E1 as <-. apply put_row_other. left.
      intros ->. eapply N; reflexivity.
    - destruct (dget "id" data); [|discriminate]. destruct (forallb _ _); [|discriminate].
      destruct (s tname (rval_str r)); injection E1 as <-; [|reflexivity]. apply put_row_other. left.
      intros ->. eapply N; reflexivity.
    - injection E1 as <-. apply put_row_other. left. intros ->. eapply N; reflexivity.
  Qed.
End Exec.

(** ** All tables *)
Lemma row_ops_table tn trows frows o p : In o (row_ops tn trows frows) -> row_target o = Some p -> fst p = tn.
Proof.
  unfold row_ops. rewrite !in_app_iff, !in_map_iff, in_concat. intros [([id r] & <- & _)|[([id r] & <- & _)|(l & Hl & Ho)]] H.
  - simpl in H. injection H as <-. reflexivity.
  - simpl in H. injection H as <-. reflexivity.
  - apply in_map_iff in Hl as ([id f] & <- & _). unfold upd_of in Ho. destruct (dget _ trows) as [r|]; [|destruct Ho].
    destruct (row_differs r _); [|destruct Ho]. destruct Ho as [<-|[]]. simpl in H. injection H as <-. reflexivity.
Qed.

(** The rows of the live table, or none. *)
Definition live_rows (from : tables) (n : string) : dict string row :=
  match dget n from with Some f => rows_of f | None => [] end.
Definition tracked (to : tables) : list (string * table) := filter (fun p => t_tracking (snd p)) to.

Lemma tracked_in to n t : In (n, t) (tracked to) <-> In (n, t) to /\ t_tracking t = true.
Proof. unfold tracked. rewrite filter_In. simpl. tauto. Qed.

Lemma plan_rows_ok has to from s : rows_ready has to from s ->
  plan_rows to (Some from)
  = Ok (concat (map (fun p => row_ops (fst p) (rows_of (snd p)) (live_rows from (fst p))) (tracked to))).
Proof.
  intros [ND Nm Rt Rf]. unfold plan_rows.
  assert (E : map t_name (filter t_tracking (dvals to)) = map fst (tracked to)).
  { unfold dvals, tracked. rewrite filter_map_comm, map_map. apply map_ext_in. intros [n t] H.
    apply filter_In in H as [H _]. simpl. auto. }
  rewrite E. unfold rmap.
  assert (M : mapM (fun n => let* t := dgetE n to in to_rows t (dget n from)) (map fst (tracked to))
            = Ok (map (fun p => row_ops (fst p) (rows_of (snd p)) (live_rows from (fst p))) (tracked to))).
  { assert (G : forall p, In p (tracked to) -> (let* t := dgetE (fst p) to in to_rows t (dget (fst p) from))
                  = Ok (row_ops (fst p) (rows_of (snd p)) (live_rows from (fst p)))).
    { intros [n t] H. apply tracked_in in H as [H T]. simpl. unfold dgetE.
      rewrite (proj2 (dget_iff n t _ ND) H). simpl. destruct (Rt n t H T) as (rows & Er & K & _).
      specialize (Rf n t H T). unfold rows_of at 1, live_rows. rewrite Er.
      destruct (dget n from) as [f|] eqn:Df.
      - destruct Rf as (Tf & frows & Ef & _). unfold rows_of. rewrite Ef.
        rewrite (to_rows_ok t (Some f) rows frows Er K (conj Tf Ef)). rewrite (Nm n t H). reflexivity.
      - rewrite (to_rows_ok t None rows [] Er K eq_refl). rewrite (Nm n t H). reflexivity. }
    revert G. generalize (tracked to) as l. induction l as [|p l IH]; simpl; intros G; [reflexivity|].
    rewrite (G p) by auto. simpl. rewrite IH by auto. reflexivity. }
  rewrite M. reflexivity.
Qed.

Lemma keyed_nil : keyed [].
Proof. split; [constructor|intros ? ? []]. Qed.

Lemma ready_rows has to from s n t : rows_ready has to from s -> In (n, t) to -> t_tracking t = true ->
  keyed (rows_of t) /\ row_maps (rows_of t) /\ (forall id r, In (id, r) (rows_of t) -> columns_ok has n r)
  /\ keyed (live_rows from n) /\ row_maps (live_rows from n) /\ reads (live_rows from n) (s n).
Proof.
  intros [ND Nm Rt Rf] H T. destruct (Rt n t H T) as (rows & Er & K & M & C). specialize (Rf n t H T).
  unfold rows_of at 1 2 3. rewrite Er. split; [exact K|]. split; [exact M|]. split; [intros id r Hr c Hc; eauto|].
  unfold live_rows. destruct (dget n from) as [f|].
  - destruct Rf as (_ & frows & Ef & Kf & Mf & R). unfold rows_of. rewrite Ef. auto.
  - split; [apply keyed_nil|]. split; [intros ? ? []|]. intros id. simpl. apply Rf.
Qed.

Lemma plan_exec has dflt to from s : rows_ready has to from s ->
  (forall n t, In (n, t) to -> t_tracking t = true -> columns_live (rows_of t) (live_rows from n)) ->
  exists s', exec_rows has dflt
      (concat (map (fun p => row_ops (fst p) (rows_of (snd p)) (live_rows from (fst p))) (tracked to))) s = Some s'
    /\ (forall n t, In (n, t) to -> t_tracking t = true -> rows_reached (rows_of t) (dflt n) (s n) (s' n))
    /\ (forall n, ~ In n (map fst (tracked to)) -> forall id, s' n id = s n id).
Proof.
  intros RR L.
  assert (G : forall p, In p (tracked to) -> In p to /\ t_tracking (snd p) = true).
  { intros [n t] H. apply tracked_in, H. }
  assert (NDl : NoDup (map fst (tracked to))) by (apply NoDup_filter_map, (rr_names _ _ _ _ RR)).
  enough (X : forall l, (forall p, In p l -> In p (tracked to)) -> NoDup (map fst l) ->
    forall s0, (forall p, In p l -> forall id, s0 (fst p) id = s (fst p) id) ->
    exists s', exec_rows has dflt (concat (map (fun p => row_ops (fst p) (rows_of (snd p)) (live_rows from (fst p))) l)) s0 = Some s'
      /\ (forall n t, In (n, t) l -> rows_reached (rows_of t) (dflt n) (s n) (s' n))
      /\ (forall n, ~ In n (map fst l) -> forall id, s' n id = s0 n id)).
  { destruct (X (tracked to) (fun _ h => h) NDl s) as (s' & E & R & F); [auto|].
    exists s'. split; [exact E|]. split; [|exact F]. intros n t H T. apply R, tracked_in. auto. }
  induction l as [|[n t] l IH]; intros Sub ND s0 Eq; simpl.
  - exists s0. split; [reflexivity|]. split; [intros ? ? []|auto].
  - simpl in ND. inversion ND as [|? ? Hn ND']; subst.
    destruct (G _ (Sub _ (or_introl eq_refl))) as [Hi T]. simpl in T.
    destruct (ready_rows _ _ _ _ n t RR Hi T) as (Kt & Mt & Ct & Kf & Mf & R).
    destruct (row_ops_reach has dflt n (rows_of t) (live_rows from n) s0 Kt Kf Mt Mf Ct) as (s1 & E1 & O1 & R1).
    { intros id. specialize (R id). rewrite (Eq (n, t) (or_introl eq_refl)). exact R. }
    { apply L; auto. }
    rewrite exec_rows_app, E1.
    destruct (IH (fun p h => Sub p (or_intror h)) ND' s1) as (s' & E & R' & F').
    { intros p Hp id. rewrite O1; [apply Eq; right; exact Hp|]. intros X. apply Hn. rewrite <- X. apply in_map, Hp. }
    exists s'. split; [exact E|]. split.
    + intros m u [[= <- <-]|H]; [|apply R', H]. destruct R1 as [R1a R1b]. split.
      * intros id. rewrite (F' n Hn id). apply R1a.
      * intros id r sr Hr Hs. rewrite (F' n Hn id) in Hs. destruct (R1b id r sr Hr Hs) as [P Q]. split; [exact P|].
        intros c Hc. rewrite (Q c Hc). rewrite (Eq (n, t) (or_introl eq_refl)). reflexivity.
    + intros m Hm id. rewrite F' by tauto. apply O1. intros ->. apply Hm. left; reflexivity.
Qed.
