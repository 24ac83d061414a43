(** Third part of the lemmas behind C08-C18: which foreign keys a plan drops and adds, and when. *)
From Verif Require Export PlanMore.

Definition op_alters (tn : string) (o : op) : list aop :=
  match o with OAlter a => if String.eqb (al_table a) tn then al_ops a else [] | _ => [] end.
Definition drop_of (o : aop) : list constraint := match o with RemoveConstraint k => [k] | _ => [] end.
Definition add_of (o : aop) : list constraint := match o with AddConstraint k => [k] | _ => [] end.

Lemma alters_of_app tn a b : alters_of tn (a +++ b) = alters_of tn a +++ alters_of tn b.
Proof. unfold alters_of. rewrite map_app, concat_app. reflexivity. Qed.
Lemma alters_of_on tn ops : alters_of tn ops = alters_of tn (filter (on tn) ops).
Proof.
  induction ops as [|o ops IH]; [reflexivity|]. change (o :: ops) with ([o] +++ ops). rewrite alters_of_app, filter_app, alters_of_app, IH.
  f_equal. destruct o; simpl; unfold on; simpl; try reflexivity;
    try (match goal with |- context [String.eqb ?a ?b] => destruct (String.eqb_spec a b) end; simpl; try reflexivity).
  - unfold alters_of. simpl. destruct (String.eqb_spec (al_table a) tn); [contradiction|reflexivity].
Qed.
Lemma alters_of_alter1 tn l : alters_of tn (alter1 tn l) = l.
Proof.
  rewrite alter1_eq. destruct l as [|x l]; [reflexivity|]. unfold alters_of. simpl. rewrite String.eqb_refl, app_nil_r. reflexivity.
Qed.
Lemma in_alters_of tn ops x : In x (alters_of tn ops) <-> exists a, In (OAlter a) ops /\ al_table a = tn /\ In x (al_ops a).
Proof.
  unfold alters_of. rewrite in_concat. split.
  - intros (l & Hl & H). apply in_map_iff in Hl as (o & <- & Ho). destruct o; try destruct H.
    destruct (String.eqb_spec (al_table a) tn); [|destruct H]. eauto.
  - intros (a & Ha & E & H). eexists. split; [apply in_map_iff; exists (OAlter a); split; [reflexivity|exact Ha]|].
    cbv beta iota. rewrite E, String.eqb_refl. exact H.
Qed.

Lemma drops_app a b : concat (map drop_of (a +++ b)) = concat (map drop_of a) +++ concat (map drop_of b).
Proof. rewrite map_app, concat_app. reflexivity. Qed.
Lemma adds_app a b : concat (map add_of (a +++ b)) = concat (map add_of a) +++ concat (map add_of b).
Proof. rewrite map_app, concat_app. reflexivity. Qed.
Lemma drops_removes l : concat (map drop_of (map RemoveConstraint l)) = l.
Proof. induction l; simpl; congruence. Qed.
Lemma adds_adds l : concat (map add_of (map AddConstraint l)) = l.
Proof. induction l; simpl; congruence. Qed.
Lemma drops_adds l : concat (map drop_of (map AddConstraint l)) = [].
Proof. induction l; simpl; congruence. Qed.
Lemma adds_removes l : concat (map add_of (map RemoveConstraint l)) = [].
Proof. induction l; simpl; congruence. Qed.

Lemma kitchen_shape {FO : FloatOracle} s t o : In o (kitchen_list s t) -> col_or_key o = true.
Proof.
  unfold kitchen_list. rewrite !in_app_iff. intros [H|[H|[H|H]]];
    try (apply in_map_iff in H as (x & <- & _); reflexivity).
  apply key_ops_kind in H. destruct o; simpl in *; congruence.
Qed.
Lemma shape_no_fk l : (forall o, In o l -> col_or_key o = true) -> concat (map drop_of l) = [] /\ concat (map add_of l) = [].
Proof.
  intros H. split; apply concat_map_nil; intros o Ho; apply H in Ho; destruct o; simpl in *; congruence.
Qed.

Section Which.
  Context {FO : FloatOracle}.
  Variables (from to : tables).
  Hypotheses (Wf : wf_tables from) (Wt : wf_tables to).

  Lemma drops_in_plan disable n : fk_drops n (plan_list from to disable) =
    match dget n from, dget n to with
    | None, _ => []
    | Some s, None => cyc_src from to n s
    | Some s, Some t => cyc_src from to n s +++ strip_drops from to n s t
    end.
  Proof.
    unfold fk_drops. change (fun o => match o with RemoveConstraint k => [k] | _ => [] end) with drop_of.
    rewrite alters_of_on, on_plan by assumption. unfold local_ops.
    destruct (dget n from) as [s|] eqn:Ds, (dget n to) as [t|] eqn:Dt; [| |reflexivity|reflexivity].
    - unfold drops_of, removed_of, kitchen_of, added_of, readds_of. cbn [fst snd].
      rewrite !alters_of_app, !alters_of_alter1, !drops_app, !drops_removes, !drops_adds.
      rewrite (proj1 (shape_no_fk _ (kitchen_shape _ _))), !app_nil_r. rewrite tgt_of_eq with (t := t) by exact Dt. reflexivity.
    - unfold drops_of. cbn [fst snd]. rewrite alters_of_app, alters_of_alter1, drops_app, drops_removes. simpl. apply app_nil_r.
  Qed.
  Lemma adds_in_plan disable n : fk_adds n (plan_list from to disable) =
    match dget n from, dget n to with
    | Some s, Some t => strip_adds from to n s t +++ cyc_adds from to n s
    | _, _ => []
    end.
  Proof.
    unfold fk_adds. change (fun o => match o with AddConstraint k => [k] | _ => [] end) with add_of.
    rewrite alters_of_on, on_plan by assumption. unfold local_ops.
    destruct (dget n from) as [s|] eqn:Ds, (dget n to) as [t|] eqn:Dt; [| |reflexivity|reflexivity].
    - unfold drops_of, removed_of, kitchen_of, added_of, readds_of. cbn [fst snd].
      rewrite !alters_of_app, !alters_of_alter1, !adds_app, !adds_removes, !adds_adds.
      rewrite (proj2 (shape_no_fk _ (kitchen_shape _ _))). rewrite tgt_of_eq with (t := t) by exact Dt. reflexivity.
    - unfold drops_of. cbn [fst snd]. rewrite alters_of_app, alters_of_alter1, adds_app, adds_removes. reflexivity.
  Qed.

  Lemma once_each ops disable n : (forall n t, In (n, t) to -> fks_named t) ->
    plan_tables disable to (Some from) = Ok ops ->
    NoDup (map k_name (fk_drops n ops)) /\ NoDup (map k_name (fk_adds n ops))
    /\ (forall k, In k (fk_drops n ops) -> exists s, In (n, s) from /\ In k (dvals (t_constraints s)))
    /\ (forall k, In k (fk_adds n ops) -> exists t, In (n, t) to /\ In n (dkeys from) /\ In k (dvals (t_constraints t))).
  Proof.
    intros Hn E. apply plan_iff in E as [Cm ->]; auto. rewrite drops_in_plan, adds_in_plan.
    destruct (dget n from) as [s|] eqn:Ds; [|repeat split; try constructor; intros k []].
    pose proof (dget_in _ _ _ Ds) as Is. pose proof (proj2 (wf_named _ Wf n s Is)) as Ws.
    assert (Src : forall k, In k (cyc_src from to n s) -> In k (dvals (t_constraints s))).
    { intros k H. apply cyc_src_in in H as [H _]; [|exact Ws]. eapply in_dvals; eauto. }
    destruct (dget n to) as [t|] eqn:Dt.
    - pose proof (dget_in _ _ _ Dt) as It. pose proof (proj2 (wf_named _ Wt n t It)) as Wt'. repeat split.
      + rewrite map_app. apply NoDup_app_intro; [apply cyc_src_nodup, Ws|apply NoDup_filter_map, gone_fks_nodup; assumption|].
        intros x H1 H2. apply in_map_iff in H2 as (k & <- & H2). apply filter_In in H2 as [_ H2]. apply negb_true_iff in H2.
        assert (cycled_in from to n (k_name k) = true); [|congruence].
        apply (cycled_in_true from to n s Ds), cycled_names_in. left. apply cycled_names_src; assumption.
      + rewrite map_app. apply NoDup_app_intro; [apply NoDup_filter_map, new_fks_nodup; assumption|apply (cyc_adds_nodup from to n s t); assumption|].
        intros x H1 H2. apply in_map_iff in H1 as (k & <- & H1). apply filter_In in H1 as [_ H1]. apply negb_true_iff in H1.
        assert (cycled_in from to n (k_name k) = true); [|congruence].
        apply (cycled_in_true from to n s Ds). eapply adds_cycled; eauto.
      + intros k H. exists s. split; [exact Is|]. apply in_app_iff in H as [H|H]; [apply Src, H|].
        apply filter_In in H as [H _]. apply gone_fks_in in H as (x & H & _). eapply in_dvals; eauto.
      + intros k H. exists t. split; [exact It|]. split; [eapply in_dkeys; eauto|]. apply in_app_iff in H as [H|H].
        * apply filter_In in H as [H _]. apply new_fks_in in H as (x & H & _); auto. eapply in_dvals; eauto.
        * apply (cyc_adds_in from to n s t) in H as [H _]; auto. eapply in_dvals; eauto.
    - repeat split; [apply cyc_src_nodup, Ws|constructor| |intros k []].
      intros k H. exists s. split; [exact Is|apply Src, H].
  Qed.

  (** The part before and after the updates of existing tables. *)
  Definition head (disable : bool) : list op := (if disable then [ODisable] else []) +++ creates_list from to +++ drops_list from to.
  Definition tail (disable : bool) : list op :=
    added_list from to +++ readds_list from to +++ gone_list from to +++ (if disable then [OEnable] else []).
  Lemma plan_parts disable : plan_list from to disable = head disable +++ updates_list from to +++ tail disable.
  Proof. unfold plan_list, body_list, head, tail. rewrite <- !app_assoc. reflexivity. Qed.

  Lemma shape_alter1 n (f : constraint -> aop) l o : (forall k, col_or_key (f k) = false) ->
    In o (alter1 n (map f l)) -> changes_shape o = false.
  Proof.
    intros Hf H. apply alter1_in in H as [-> _]. simpl. apply not_true_is_false. intros E. apply existsb_exists in E as (x & Hx & E).
    apply in_map_iff in Hx as (k & <- & _). rewrite Hf in E. discriminate.
  Qed.
  Lemma head_shape disable o : In o (head disable) -> changes_shape o = false.
  Proof.
    unfold head. rewrite !in_app_iff. intros [H|[H|H]].
    - destruct disable; [destruct H as [<-|[]]|destruct H]. reflexivity.
    - apply in_map_iff in H as (p & <- & _). reflexivity.
    - apply in_concat in H as (l & Hl & H). apply in_map_iff in Hl as (p & <- & _). eapply shape_alter1, H. reflexivity.
  Qed.
  Lemma tail_kind disable o : In o (tail disable) ->
    match o with
    | OCreate _ => False
    | OAlter a => forall x, In x (al_ops a) -> exists k, x = AddConstraint k
    | _ => True
    end.
  Proof.
    assert (Al : forall n l, In o (alter1 n (map AddConstraint l)) ->
       match o with OCreate _ => False | OAlter a => forall x, In x (al_ops a) -> exists k, x = AddConstraint k | _ => True end).
    { intros n l H. apply alter1_in in H as [-> _]. simpl. intros x H. apply in_map_iff in H as (k & <- & _). eauto. }
    unfold tail. rewrite !in_app_iff. intros [H|[H|[H|H]]].
    - apply in_concat in H as (l & Hl & H). apply in_map_iff in Hl as (p & <- & _). eapply Al, H.
    - apply in_concat in H as (l & Hl & H). apply in_map_iff in Hl as (p & <- & _). eapply Al, H.
    - apply in_map_iff in H as (p & <- & _). exact I.
    - destruct disable; [destruct H as [<-|[]]|destruct H]. exact I.
  Qed.
  Lemma tail_shape disable o : In o (tail disable) -> changes_shape o = false.
  Proof.
    intros H. apply tail_kind in H. destruct o; try reflexivity. simpl. apply not_true_is_false. intros E.
    apply existsb_exists in E as (x & Hx & E). destruct (H x Hx) as (k & ->). discriminate.
  Qed.

  (** A source foreign key on a retyped column. *)
  Lemma cycled_around disable ops n s k tn cn :
    plan_tables disable to (Some from) = Ok ops -> In (n, s) from -> In k (dvals (t_constraints s)) ->
    fk_uses n k tn cn -> retyped from to tn cn ->
    match dget n to with
    | None => exists p1 d p2, ops = p1 +++ OAlter d :: p2 /\ al_table d = n /\ In (RemoveConstraint k) (al_ops d)
                /\ (forall o, In o p1 -> changes_shape o = false)
    | Some t => (In (k_name k) (dkeys (t_constraints t)) \/ exists b, In b (dvals (t_constraints t)) /\ same_ref k b) ->
        exists p1 d p2 e p3 b,
          ops = p1 +++ OAlter d :: p2 +++ OAlter e :: p3 /\ al_table d = n /\ al_table e = n
          /\ In (RemoveConstraint k) (al_ops d) /\ In (AddConstraint b) (al_ops e)
          /\ In b (dvals (t_constraints t))
          /\ (k_name b = k_name k \/ (~ In (k_name k) (dkeys (t_constraints t)) /\ same_ref k b))
          /\ (forall o, In o p1 \/ In o p3 -> changes_shape o = false)
    end.
  Proof.
    intros E Is Hk U R. apply plan_iff in E as [Cm ->]; auto. pose proof (proj2 (wf_named _ Wf n s Is)) as Ws.
    pose proof (uses_changing from to n k tn cn Wf Wt U R) as Ch.
    apply dvals_in in Hk as (kn & Hk). pose proof (wf_fks_named _ Ws kn k Hk) as En. subst kn.
    assert (D : forall x, cycle_of from to n (k_name k) k = Some x ->
       exists p1 p2, head disable = p1 +++ OAlter (mkAlter n (map RemoveConstraint (cyc_src from to n s))) :: p2
         /\ In (RemoveConstraint k) (map RemoveConstraint (cyc_src from to n s))).
    { intros x C. assert (Hc : In k (cyc_src from to n s)) by (apply cyc_src_in; eauto).
      assert (H : In (OAlter (mkAlter n (map RemoveConstraint (cyc_src from to n s)))) (head disable)).
      { unfold head. rewrite !in_app_iff. right. right. apply in_concat. exists (drops_of from to (n, s)).
        split; [apply in_map, Is|]. apply alter1_in. split; [reflexivity|]. cbn [fst snd]. destruct (cyc_src from to n s); [destruct Hc|discriminate]. }
      apply in_split in H as (p1 & p2 & H). exists p1, p2. split; [exact H|]. apply in_map, Hc. }
    destruct (dget n to) as [t|] eqn:Dt.
    - intros Hb. pose proof (dget_in _ _ _ Dt) as It. pose proof (proj2 (wf_named _ Wt n t It)) as Wt'.
      assert (C : exists b m, cycle_of from to n (k_name k) k = Some (Some (b, m))).
      { unfold cycle_of. rewrite Ch, Dt. destruct (dget (k_name k) (t_constraints t)) as [b|] eqn:Db; [eauto|].
        destruct Hb as [Hb|(b & Hb & SR)]; [apply dget_none in Db; contradiction|].
        unfold find_matching. destruct (find _ _) as [b'|] eqn:F; [eauto|].
        apply (find_none _ _ F) in Hb. assert (same_reference b k = true) by (apply same_reference_iff, SR). congruence. }
      destruct C as (b & m & C). destruct (D _ C) as (p1 & p2 & Eh & Hin).
      assert (Hcyc : In (k_name k, k, Some (b, m)) (cycled_of_table from to n s)) by (apply cycled_in_iff; auto).
      destruct (cycle_target from to n s t _ _ _ _ Dt Wt' Hcyc) as (Hbm & Em & Hor).
      assert (Hadd : In m (map k_name (cyc_adds from to n s))) by (apply (cyc_adds_names from to n s t); eauto).
      apply in_map_iff in Hadd as (b' & Eb' & Hadd). pose proof Hadd as Hadd'.
      apply (cyc_adds_in from to n s t) in Hadd' as [Hb' _]; auto. rewrite Eb' in Hb'.
      pose proof (same_entry _ _ b b' (wf_fks _ Wt') Hbm Hb') as ->. clear Hb' Eb'.
      assert (He : In (OAlter (mkAlter n (map AddConstraint (cyc_adds from to n s)))) (tail disable)).
      { unfold tail. rewrite !in_app_iff. right. left. apply in_concat. exists (readds_of from to (n, s)).
        split; [apply in_map, Is|]. apply alter1_in. split; [reflexivity|]. cbn [fst snd]. destruct (cyc_adds from to n s); [destruct Hadd|discriminate]. }
      pose proof He as He'. apply in_split in He' as (q1 & q2 & Et).
      exists p1, (mkAlter n (map RemoveConstraint (cyc_src from to n s))), (p2 +++ updates_list from to +++ q1),
        (mkAlter n (map AddConstraint (cyc_adds from to n s))), q2, b'.
      split; [rewrite plan_parts, Eh, Et, <- !app_assoc; simpl; repeat (rewrite <- app_assoc || cbn [app]); reflexivity|].
      split; [reflexivity|]. split; [reflexivity|]. split; [exact Hin|]. split; [apply in_map, Hadd|].
      split; [eapply in_dvals; eauto|]. split.
      + destruct Hor as [->|[Dn SR]]; [left; exact Em|]. right. split; [apply dget_none, Dn|apply same_reference_iff, SR].
      + intros o [Ho|Ho].
        * apply (head_shape disable). rewrite Eh. apply in_app_iff. left. exact Ho.
        * apply (tail_shape disable). rewrite Et. apply in_app_iff. right. right. exact Ho.
    - assert (C : cycle_of from to n (k_name k) k = Some None) by (unfold cycle_of; rewrite Ch, Dt; reflexivity).
      destruct (D _ C) as (p1 & p2 & Eh & Hin).
      exists p1, (mkAlter n (map RemoveConstraint (cyc_src from to n s))), (p2 +++ updates_list from to +++ tail disable).
      split; [rewrite plan_parts, Eh, <- !app_assoc; reflexivity|]. split; [reflexivity|]. split; [exact Hin|].
      intros o Ho. apply (head_shape disable). rewrite Eh. apply in_app_iff. left. exact Ho.
  Qed.

  (** *** Additions come last *)
  Definition has_add (o : op) : Prop := exists a k, o = OAlter a /\ In (AddConstraint k) (al_ops a).
  Lemma no_add_before disable o : In o (head disable +++ updates_list from to) -> ~ has_add o.
  Proof.
    assert (Al : forall n l, In o (alter1 n (map RemoveConstraint l)) -> ~ has_add o).
    { intros n l H (a & k & -> & Hk). apply alter1_in in H as [[= ->] _]. simpl in Hk. apply in_map_iff in Hk as (x & Ex & _). discriminate. }
    unfold head. rewrite !in_app_iff. intros [[H|[H|H]]|H].
    - destruct disable; [destruct H as [<-|[]]|destruct H]. intros (a & k & Ea & _). discriminate.
    - apply in_map_iff in H as (p & <- & _). intros (a & k & Ea & _). discriminate.
    - apply in_concat in H as (l & Hl & H). apply in_map_iff in Hl as (p & <- & _). eapply Al, H.
    - apply in_concat in H as (l & Hl & H). apply in_map_iff in Hl as (p & <- & _). apply in_app_iff in H as [H|H]; [eapply Al, H|].
      intros (a & k & -> & Hk). apply alter1_in in H as [[= ->] _]. simpl in Hk. apply kitchen_shape in Hk. discriminate.
  Qed.
  Lemma split_add disable pre o post : plan_list from to disable = pre +++ o :: post -> has_add o ->
    exists p, pre = (head disable +++ updates_list from to) +++ p /\ tail disable = p +++ o :: post.
  Proof.
    intros E H. symmetry in E. rewrite plan_parts, app_assoc in E.
    apply (split_skip has_add) in E as (p & -> & E); [eauto|exact H|apply no_add_before].
  Qed.
End Which.

Lemma fk_only_cols l : forall st v, (forall o, In o l -> match o with OAlter a => forall x, In x (al_ops a) -> is_fk_op x = true | _ => False end) ->
  run_all lexec l (Some st) = Some v -> exists st', v = Some st' /\ st_cols st' = st_cols st.
Proof.
  induction l as [|o l IH]; intros st v H R; simpl in R; [injection R as <-; eauto|].
  destruct (lexec (Some st) o) as [v1|] eqn:L; [|discriminate].
  pose proof (H o (or_introl eq_refl)) as Ho. destruct o; try destruct Ho. simpl in L.
  destruct (exec_alter (al_ops a) st) as [st1|] eqn:X; [|discriminate]. injection L as <-.
  assert (E : st_cols st1 = st_cols st).
  { unfold exec_alter in X. destruct (exec_fks (al_ops a) (st_fks st)) as [f|] eqn:F.
    - pose proof (exec_alter_fks_only _ st f Ho F) as X2. unfold exec_alter in X2. rewrite F in X2. rewrite X2 in X. injection X as <-. reflexivity.
    - destruct (exec_cols _ _); [|discriminate]. destruct (exec_keys _ _); discriminate. }
  destruct (IH st1 v) as (st' & -> & E'); [intros; apply H; right; assumption|exact R|]. exists st'. split; [reflexivity|congruence].
Qed.

Lemma matches_names (R : column -> column -> Prop) C W : (forall a b : column, R a b -> c_name a = c_name b) -> matches R C W ->
  forall n, In n (map c_name W) -> In n (map c_name C).
Proof.
  intros HR (l & P1 & P2 & H) n Hn. apply in_map_iff in Hn as (b & <- & Hb).
  apply (Permutation_in b (Permutation_sym P2)) in Hb. apply in_map_iff in Hb as ([a b'] & E & Hab). simpl in E. subst b'.
  rewrite <- (HR a b (H a b Hab)). apply in_map. apply (Permutation_in a P1). apply (in_map fst) in Hab. exact Hab.
Qed.

Section Last.
  Context {FO : FloatOracle}.
  Variables (from to : tables).
  Hypothesis (P : plannable from to).
  Let Wf := pl_from _ _ P.
  Let Wt := pl_to _ _ P.

  (** After the updates every table of the target has the columns of the target. *)
  Lemma cols_at_tail disable p q s' : all_comparable from to ->
    tail from to disable = p +++ q -> exec_all ((head from to disable +++ updates_list from to) +++ p) (server_of from) = Some s' ->
    forall n t cn, In (n, t) to -> In cn (dkeys (t_columns t)) -> has_column s' n cn.
  Proof.
    intros Cm Et X n t cn It Hcn. pose proof (exec_all_local_inv _ _ _ X n) as L.
    apply (dget_iff _ _ _ (wf_names _ Wt)) in It as Dt. pose proof (proj2 (wf_named _ Wt n t It)) as Wt'.
    assert (Nm : map c_name (dvals (t_columns t)) = dkeys (t_columns t)) by apply (dvals_names _ c_name (wf_cols_named _ Wt')).
    unfold head in L. rewrite !filter_app, on_disable, on_creates, on_drops, on_updates, Dt in L by assumption.
    assert (F : forall o, In o (filter (on n) p) -> match o with OAlter a => forall x, In x (al_ops a) -> is_fk_op x = true | ODropTable m => m = n | _ => False end).
    { intros o Ho. apply filter_In in Ho as [Ho On].
      assert (K : In o (tail from to disable)) by (rewrite Et; apply in_app_iff; left; exact Ho).
      apply tail_kind in K; auto. destruct o; auto; try discriminate.
      - intros x Hx. destruct (K x Hx) as (k & ->). reflexivity.
      - unfold on in On. simpl in On. apply String.eqb_eq, On. }
    assert (F2 : forall o, In o (filter (on n) p) -> match o with OAlter a => forall x, In x (al_ops a) -> is_fk_op x = true | _ => False end).
    { intros o Ho. pose proof (F o Ho) as K. destruct o as [| |x| | | | |]; auto.
      apply filter_In in Ho as [Ho _].
      assert (In (ODropTable x) (tail from to disable)) by (rewrite Et; apply in_app_iff; left; exact Ho). subst x.
      unfold tail in H. rewrite !in_app_iff in H. destruct H as [H|[H|[H|H]]].
      - apply in_concat in H as (l & Hl & H). apply in_map_iff in Hl as (y & <- & _). apply alter1_in in H as [H _]. discriminate.
      - apply in_concat in H as (l & Hl & H). apply in_map_iff in Hl as (y & <- & _). apply alter1_in in H as [H _]. discriminate.
      - apply in_map_iff in H as ([m y] & E & H). simpl in E. injection E as ->. apply only_in_in in H as [_ H]. simpl in H. congruence.
      - destruct disable; [destruct H as [H|[]]|destruct H]. discriminate. }
    unfold server_of in L. destruct (dget n from) as [s|] eqn:Ds; cbn [option_map app] in L.
    - rewrite <- !app_assoc in L. rewrite run_all_app, run_drops_of in L by assumption.
      rewrite run_all_app, run_removed_of with (t := t) in L by assumption.
      destruct (run_kitchen_of from to P Cm n s t Ds Dt) as (C & K & Ok & RK). rewrite run_all_app, RK in L.
      destruct (fk_only_cols _ _ _ F2 L) as (st' & E & Ec). exists st'. split; [exact E|]. rewrite Ec. cbn [st_cols].
      destruct Ok as (M & _). eapply matches_names; [|exact M|rewrite Nm; exact Hcn].
      intros a b Hab. apply Hab.
    - simpl in L. rewrite exec_create_wf in L by assumption.
      destruct (fk_only_cols _ _ _ F2 L) as (st' & E & Ec). exists st'. split; [exact E|]. rewrite Ec. cbn. rewrite Nm. exact Hcn.
  Qed.

  Lemma alter_exists disable ops pre a post s' :
    plan_tables disable to (Some from) = Ok ops -> ops = pre +++ OAlter a :: post ->
    exec_all pre (server_of from) = Some s' -> exists st, s' (al_table a) = Some st.
  Proof.
    intros E Eo X. apply plan_iff in E as [Cm E]; auto. destruct (plan_runs from to P Cm disable) as (s2 & X2 & _).
    rewrite <- E, Eo in X2. unfold exec_all in *. rewrite run_all_app, X in X2. simpl in X2.
    destruct (s' (al_table a)) as [st|]; [eauto|discriminate].
  Qed.

End Last.

Section Kinds.
  Context {FO : FloatOracle}.
  Variables (from to : tables).
  Hypotheses (Wf : wf_tables from) (Wt : wf_tables to).

  Lemma alter_nonempty disable ops a : plan_tables disable to (Some from) = Ok ops -> In (OAlter a) ops ->
    al_ops a <> [] /\ In (al_table a) (dkeys from).
  Proof.
    intros E H. apply plan_iff in E as [Cm ->]; auto. rewrite plan_parts in H. unfold head, tail in H. rewrite !in_app_iff in H.
    assert (Al : forall n l, In (OAlter a) (alter1 n l) -> al_ops a <> [] /\ al_table a = n).
    { intros n l K. apply alter1_in in K as [[= ->] K]. auto. }
    assert (Go : forall (f : string * table -> list op) (l : list (string * table)), incl l from ->
              (forall p, In (OAlter a) (f p) -> al_ops a <> [] /\ al_table a = fst p) ->
              In (OAlter a) (concat (map f l)) -> al_ops a <> [] /\ In (al_table a) (dkeys from)).
    { intros f l I Hf K. apply in_concat in K as (x & Hx & K). apply in_map_iff in Hx as (p & <- & Hp). destruct (Hf p K) as [K1 ->].
      split; [exact K1|]. apply I in Hp. apply (in_map fst) in Hp. exact Hp. }
    assert (Ic : incl (common from to) from) by (intros p Hp; apply filter_In in Hp; tauto).
    destruct H as [[H|[H|H]]|[H|[H|[H|[H|H]]]]].
    - destruct disable; [destruct H as [H|[]]|destruct H]. discriminate.
    - apply in_map_iff in H as (p & H & _). discriminate.
    - eapply Go; [apply incl_refl| |exact H]. intros p. apply Al.
    - eapply Go; [exact Ic| |exact H]. intros p K. apply in_app_iff in K as [K|K]; eapply Al, K.
    - eapply Go; [exact Ic| |exact H]. intros p. apply Al.
    - eapply Go; [apply incl_refl| |exact H]. intros p. apply Al.
    - apply in_map_iff in H as (p & H & _). discriminate.
    - destruct disable; [destruct H as [H|[]]|destruct H]. discriminate.
  Qed.

  (** The tables created and dropped. *)
  Lemma creates_drops disable ops : plan_tables disable to (Some from) = Ok ops ->
    (forall t, In (OCreate t) ops <-> In (t_name t, t) to /\ ~ In (t_name t) (dkeys from))
    /\ (forall n, In (ODropTable n) ops <-> In n (dkeys from) /\ ~ In n (dkeys to))
    /\ NoDup (concat (map (fun o => match o with OCreate t => [t_name t] | _ => [] end) ops))
    /\ NoDup (concat (map (fun o => match o with ODropTable n => [n] | _ => [] end) ops)).
  Proof.
    intros E. apply plan_iff in E as [Cm ->]; auto. rewrite plan_parts. unfold head, tail.
    assert (A1 : forall t n l, ~ In (OCreate t) (alter1 n l)) by (intros t n l H; apply alter1_in in H as [H _]; discriminate).
    assert (A2 : forall m n l, ~ In (ODropTable m) (alter1 n l)) by (intros m n l H; apply alter1_in in H as [H _]; discriminate).
    assert (Cc : forall (f : string * table -> list op) o l, (forall p, ~ In o (f p)) -> ~ In o (concat (map f l))).
    { intros f o l Hf H. apply in_concat in H as (x & Hx & H). apply in_map_iff in Hx as (p & <- & _). exact (Hf p H). }
    set (crs := fun o => match o with OCreate t => [t_name t] | _ => [] end).
    set (drs := fun o => match o with ODropTable n => [n] | _ => [] end).
    assert (Z : forall (f : op -> list string) ops, (forall o, In o ops -> f o = []) -> concat (map f ops) = []) by (intros; apply concat_map_nil; assumption).
    assert (Al : forall n l o, In o (alter1 n l) -> crs o = [] /\ drs o = []) by (intros n l o H; apply alter1_in in H as [-> _]; split; reflexivity).
    assert (CAl : forall (f : string * table -> list op) l, (forall p o, In o (f p) -> crs o = [] /\ drs o = []) ->
              concat (map crs (concat (map f l))) = [] /\ concat (map drs (concat (map f l))) = []).
    { intros f l Hf. split; apply Z; intros o H; apply in_concat in H as (x & Hx & H); apply in_map_iff in Hx as (p & <- & _); apply (Hf p o H). }
    destruct (CAl (drops_of from to) from) as [D1 D2]; [intros p o; apply Al|].
    destruct (CAl (fun p => removed_of from to p +++ kitchen_of to p) (common from to)) as [U1 U2];
      [intros p o H; apply in_app_iff in H as [H|H]; eapply Al, H|].
    destruct (CAl (added_of from to) (common from to)) as [B1 B2]; [intros p o; apply Al|].
    destruct (CAl (readds_of from to) from) as [R1 R2]; [intros p o; apply Al|].
    split; [|split; [|split]].
    - intros t. rewrite !in_app_iff. split.
      + intros H. destruct H as [[H|[H|H]]|[H|[H|[H|[H|H]]]]].
        * destruct disable; [destruct H as [H|[]]|destruct H]. discriminate.
        * apply in_map_iff in H as ([n t'] & [= ->] & H). apply only_in_in in H as [H N]. simpl in N.
          destruct (wf_named _ Wt n t H) as [En _]. rewrite En. split; [exact H|]. apply dget_none, N.
        * exfalso. eapply (Cc (drops_of from to)), H. intros p. apply A1.
        * exfalso. eapply (Cc (fun p => removed_of from to p +++ kitchen_of to p)), H. intros p K. apply in_app_iff in K as [K|K]; eapply A1, K.
        * exfalso. eapply (Cc (added_of from to)), H. intros p. apply A1.
        * exfalso. eapply (Cc (readds_of from to)), H. intros p. apply A1.
        * apply in_map_iff in H as (p & H & _). discriminate.
        * destruct disable; [destruct H as [H|[]]|destruct H]. discriminate.
      + intros [H N]. left. right. left. apply in_map_iff. exists (t_name t, t). split; [reflexivity|]. apply only_in_in.
        split; [exact H|]. apply dget_none, N.
    - intros n. rewrite !in_app_iff. split.
      + intros H. destruct H as [[H|[H|H]]|[H|[H|[H|[H|H]]]]].
        * destruct disable; [destruct H as [H|[]]|destruct H]. discriminate.
        * apply in_map_iff in H as (p & H & _). discriminate.
        * exfalso. eapply (Cc (drops_of from to)), H. intros p. apply A2.
        * exfalso. eapply (Cc (fun p => removed_of from to p +++ kitchen_of to p)), H. intros p K. apply in_app_iff in K as [K|K]; eapply A2, K.
        * exfalso. eapply (Cc (added_of from to)), H. intros p. apply A2.
        * exfalso. eapply (Cc (readds_of from to)), H. intros p. apply A2.
        * apply in_map_iff in H as ([m t'] & [= ->] & H). apply only_in_in in H as [H N]. split; [eapply in_dkeys; eauto|]. apply dget_none, N.
        * destruct disable; [destruct H as [H|[]]|destruct H]. discriminate.
      + intros [H N]. right. right. right. right. left. apply dkeys_in in H as (t & H). apply in_map_iff. exists (n, t). split; [reflexivity|].
        apply only_in_in. split; [exact H|]. apply dget_none, N.
    - rewrite !map_app, !concat_app. fold (drops_list from to) in D1. fold (updates_list from to) in U1. fold (added_list from to) in B1.
      fold (readds_list from to) in R1. rewrite D1, U1, B1, R1.
      assert (G : concat (map crs (gone_list from to)) = []) by (apply Z; intros o H; apply in_map_iff in H as (p & <- & _); reflexivity).
      rewrite G. assert (Dd : concat (map crs (if disable then [ODisable] else [])) = []) by (destruct disable; reflexivity).
      assert (De : concat (map crs (if disable then [OEnable] else [])) = []) by (destruct disable; reflexivity).
      rewrite Dd, De, !app_nil_r. simpl app. unfold creates_list. rewrite map_map.
      rewrite (map_ext_in _ (fun p => [fst p])).
      + rewrite concat_single. apply NoDup_filter_map, (wf_names _ Wt).
      + intros [n t] H. apply only_in_in in H as [H _]. simpl. destruct (wf_named _ Wt n t H) as [-> _]. reflexivity.
    - rewrite !map_app, !concat_app. fold (drops_list from to) in D2. fold (updates_list from to) in U2. fold (added_list from to) in B2.
      fold (readds_list from to) in R2. rewrite D2, U2, B2, R2.
      assert (G : concat (map drs (creates_list from to)) = []) by (apply Z; intros o H; apply in_map_iff in H as (p & <- & _); reflexivity).
      rewrite G. assert (Dd : concat (map drs (if disable then [ODisable] else [])) = []) by (destruct disable; reflexivity).
      assert (De : concat (map drs (if disable then [OEnable] else [])) = []) by (destruct disable; reflexivity).
      rewrite Dd, De, !app_nil_r. simpl app. unfold gone_list. rewrite map_map. cbn [drs].
      rewrite concat_single. apply NoDup_filter_map, (wf_names _ Wf).
  Qed.
End Kinds.

(** A plan with no source. *)
Lemma plan_none {FO : FloatOracle} to disable : wf_tables to ->
  exists ops, plan_tables disable to None = Ok ops
    /\ ops = (if disable then [ODisable] else []) +++ map OCreate (dvals to) +++ (if disable then [OEnable] else [])
    /\ exists s, exec_all ops (fun _ => None) = Some s /\ holds to s.
Proof.
  intros Wt. assert (Wn : wf_tables []) by (constructor; [constructor|intros n t []]).
  exists (plan_list [] to disable). split; [|split].
  - change (plan_tables disable to None) with (plan_tables disable to (Some [])). apply plan_iff; auto.
    split; [intros n s t []|reflexivity].
  - unfold plan_list, body_list, creates_list, drops_list, updates_list, added_list, readds_list, gone_list. simpl.
    rewrite app_nil_r. f_equal. f_equal. unfold dvals, only_in. rewrite filter_true by reflexivity. rewrite map_map. reflexivity.
  - destruct (exec_all_local (plan_list [] to disable) (fun _ => None)) as (s & X & Y).
    + intros n. rewrite on_plan by assumption. unfold local_ops. simpl. destruct (dget n to) as [t|] eqn:D; [|eexists; reflexivity].
      simpl. rewrite exec_create_wf by (eapply (wf_named _ Wt), dget_in, D). eexists. reflexivity.
    + exists s. split; [exact X|]. intros n. specialize (Y n). rewrite on_plan in Y by assumption. unfold local_ops, server_of in *. simpl in Y.
      destruct (dget n to) as [t|] eqn:D; [|simpl in *; congruence].
      simpl in Y. rewrite exec_create_wf in Y by (eapply (wf_named _ Wt), dget_in, D). simpl. congruence.
Qed.
