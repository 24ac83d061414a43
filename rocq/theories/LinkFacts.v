(** Lemmas behind C12 and C87-C89: what every table looks like while a plan is executed. *)
From Verif Require Export PlanCycle SpecLinks.
From Verif Require Import AgainFacts.

Lemma concat_prefix {A B} (f : A -> list B) : forall l p q, p +++ q = concat (map f l) ->
  exists l1 l2 p', l = l1 +++ l2 /\ p = concat (map f l1) +++ p'
    /\ (p' = [] \/ exists x l3 q', l2 = x :: l3 /\ p' +++ q' = f x).
Proof.
  induction l as [|x l IH]; intros p q E; simpl in E.
  - apply app_eq_nil in E as [-> _]. exists [], [], []. auto.
  - apply app_split in E as [(q' & E)|(p1 & -> & E)].
    + exists [], (x :: l), p. split; [reflexivity|]. split; [reflexivity|]. right. exists x, l, q'. auto.
    + destruct (IH p1 q E) as (l1 & l2 & p' & -> & -> & D). exists (x :: l1), l2, p'.
      split; [reflexivity|]. split; [simpl; rewrite app_assoc; reflexivity|exact D].
Qed.

Section Stages.
  Context {FO : FloatOracle}.
  Variables (from to : tables) (disable : bool).
  Hypotheses (P : plannable from to) (Cm : all_comparable from to).
  Let Wf := pl_from _ _ P.
  Let Wt := pl_to _ _ P.

  (** The table [n] when the tables in [done] have been altered and those in [todo] have not. *)
  Definition table_at (done todo : list (string * table)) (n : string) (v : option stable) : Prop :=
    match dget n from, dget n to with
    | None, None => v = None
    | None, Some t => (v = None /\ done = []) \/ v = Some (stable_of t)
    | Some s, None => (v = None /\ todo = [])
        \/ exists fks, v = Some (st_src s fks) /\ incl fks (dvals (t_constraints s)) /\ (done = [] \/ fks = fks1 from to n s)
    | Some s, Some t =>
        (In (n, s) todo /\ exists fks, v = Some (st_src s fks) /\ incl fks (dvals (t_constraints s))
                             /\ (done = [] \/ incl fks (fks1 from to n s)))
        \/ (In (n, s) done /\ exists C K fks, v = Some (mkStable C K fks) /\ changed_ok s t C K
              /\ (fks = fks2 from to n s t \/ (todo = [] /\ incl fks (final_fks from to n s t))))
    end.

  Definition updates_of (l : list (string * table)) : list op :=
    concat (map (fun p => removed_of from to p +++ kitchen_of to p) l).

  Lemma on_updates_of done todo n : common from to = done +++ todo ->
    filter (on n) (updates_of done) = match dget n done with Some s => removed_of from to (n, s) +++ kitchen_of to (n, s) | None => [] end.
  Proof.
    intros E. apply filter_on_concat.
    - pose proof (common_nodup from to Wf) as N. rewrite E, map_app in N. clear -N. induction (map fst done) as [|x l IH]; [constructor|].
      simpl in N. inversion N as [|? ? H1 H2]; subst. constructor; [|apply IH, H2]. intros H. apply H1, in_app_iff. auto.
    - intros p o _ H. apply in_app_iff in H as [H|H]; eapply on_alter1, H.
  Qed.
  Lemma common_parts done todo n s : common from to = done +++ todo -> dget n from = Some s -> (exists t, dget n to = Some t) ->
    (In (n, s) done /\ dget n done = Some s /\ ~ In n (map fst todo)) \/ (In (n, s) todo /\ dget n done = None).
  Proof.
    intros E Ds Dt. assert (I : In (n, s) (common from to)) by (apply in_common; split; [apply dget_in, Ds|exact Dt]).
    pose proof (common_nodup from to Wf) as N. rewrite E in I, N. rewrite map_app in N. apply in_app_iff in I as [I|I].
    - assert (Nt : ~ In n (map fst todo)).
      { intros H. apply in_split in I as (l1 & l2 & ->). rewrite map_app in N. simpl in N. rewrite <- app_assoc in N. apply NoDup_remove_2 in N.
        apply N. rewrite !in_app_iff. auto. }
      left. split; [exact I|]. split; [|exact Nt]. apply dget_iff; [|exact I].
      clear -N. unfold dkeys. induction (map fst done) as [|x l IH]; [constructor|].
      simpl in N. inversion N as [|? ? H1 H2]; subst. constructor; [|apply IH, H2]. intros H. apply H1, in_app_iff. auto.
    - right. split; [exact I|]. apply dget_none. intros H. apply in_split in I as (l1 & l2 & ->). rewrite map_app in N. simpl in N.
      rewrite app_assoc in N. apply NoDup_remove_2 in N. apply N. rewrite !in_app_iff. auto.
  Qed.

  Lemma run_updates_of n s t : dget n from = Some s -> dget n to = Some t ->
    exists C K, changed_ok s t C K /\
      run_all lexec (removed_of from to (n, s) +++ kitchen_of to (n, s)) (Some (st_src s (fks1 from to n s)))
      = Some (Some (mkStable C K (fks2 from to n s t))).
  Proof.
    intros Ds Dt. destruct (run_kitchen_of from to P Cm n s t Ds Dt) as (C & K & Ok & R). exists C, K. split; [exact Ok|].
    rewrite run_all_app, run_removed_of with (t := t) by assumption. apply R.
  Qed.

  Lemma incl_fks1 n s : incl (fks1 from to n s) (dvals (t_constraints s)).
  Proof. apply fks1_incl. Qed.
  Lemma incl_fks2 n s t : incl (fks2 from to n s t) (fks1 from to n s).
  Proof. intros a H. unfold fks2 in H. apply filter_In in H. tauto. Qed.

  (** *** Two exact states *)
  Lemma created : exists pre post s', plan_list from to disable = pre +++ post
    /\ exec_all pre (server_of from) = Some s'
    /\ (forall n s, dget n from = Some s -> s' n = Some (stable_of s))
    /\ (forall n t, dget n from = None -> dget n to = Some t -> s' n = Some (stable_of t)).
  Proof.
    set (pre := (if disable then [ODisable] else []) +++ creates_list from to).
    assert (E : exists post, plan_list from to disable = pre +++ post).
    { eexists. unfold plan_list, body_list, pre. rewrite <- !app_assoc. reflexivity. }
    destruct E as (post & E). destruct (prefix_runs from to P Cm disable pre post (eq_sym E)) as (s' & X).
    exists pre, post, s'. split; [exact E|]. split; [exact X|].
    pose proof (exec_all_local_inv _ _ _ X) as L. split.
    - intros n s Ds. specialize (L n). unfold pre in L. rewrite filter_app, on_disable, on_creates in L by assumption.
      unfold server_of in L. rewrite Ds in L. cbn in L. congruence.
    - intros n t Ds Dt. specialize (L n). unfold pre in L. rewrite filter_app, on_disable, on_creates in L by assumption.
      unfold server_of in L. rewrite Ds, Dt in L. cbn in L. rewrite exec_create_wf in L by apply (wf_named _ Wt n t), dget_in, Dt. congruence.
  Qed.

  Lemma altered done todo : common from to = done +++ todo -> exists pre post s', plan_list from to disable = pre +++ post
    /\ exec_all pre (server_of from) = Some s'
    /\ (forall n t, dget n from = None -> dget n to = Some t -> s' n = Some (stable_of t))
    /\ (forall n s, dget n from = Some s -> ~ In n (map fst done) -> s' n = Some (st_src s (fks1 from to n s)))
    /\ (forall n s t, In (n, s) done -> dget n to = Some t ->
          exists C K, changed_ok s t C K /\ s' n = Some (mkStable C K (fks2 from to n s t))).
  Proof.
    intros Ec. set (pre := (if disable then [ODisable] else []) +++ creates_list from to +++ drops_list from to +++ updates_of done).
    assert (E : exists post, plan_list from to disable = pre +++ post).
    { eexists. unfold plan_list, body_list, pre, updates_list, updates_of. rewrite Ec, map_app, concat_app, <- !app_assoc. reflexivity. }
    destruct E as (post & E). destruct (prefix_runs from to P Cm disable pre post (eq_sym E)) as (s' & X).
    exists pre, post, s'. split; [exact E|]. split; [exact X|].
    pose proof (exec_all_local_inv _ _ _ X) as L.
    assert (Ln : forall n, run_all lexec (match dget n from, dget n to with None, Some t => [OCreate t] | _, _ => [] end
        +++ match dget n from with Some s => drops_of from to (n, s) | None => [] end
        +++ match dget n done with Some s => removed_of from to (n, s) +++ kitchen_of to (n, s) | None => [] end) (server_of from n) = Some (s' n)).
    { intros n. specialize (L n). unfold pre in L. rewrite !filter_app, on_disable, on_creates, on_drops in L by assumption.
      rewrite (on_updates_of done todo n Ec) in L. exact L. }
    clear L. split; [|split].
    - intros n t Ds Dt. specialize (Ln n). unfold server_of in Ln. rewrite Ds, Dt in Ln.
      assert (Dn : dget n done = None).
      { apply dget_none. intros H. apply in_map_iff in H as ([m s] & <- & H). cbn [fst] in *.
        assert (I : In (m, s) (common from to)) by (rewrite Ec; apply in_app_iff; auto). apply in_common in I as [I _].
        apply dget_none in Ds. apply Ds. eapply in_dkeys; eauto. }
      rewrite Dn in Ln. cbn in Ln. rewrite exec_create_wf in Ln by apply (wf_named _ Wt n t), dget_in, Dt. congruence.
    - intros n s Ds Nd. specialize (Ln n). unfold server_of in Ln. rewrite Ds in Ln. cbn [app option_map] in Ln.
      rewrite (proj2 (dget_none _ _) Nd), app_nil_r, run_drops_of in Ln by assumption. congruence.
    - intros n s t I Dt. assert (Ic : In (n, s) (common from to)) by (rewrite Ec; apply in_app_iff; auto).
      apply in_common in Ic as [Ic _]. apply (dget_iff _ _ _ (wf_names _ Wf)) in Ic as Ds.
      assert (Dn : dget n done = Some s).
      { destruct (common_parts done todo n s Ec Ds (ex_intro _ t Dt)) as [(_ & D & _)|(_ & D)]; [exact D|].
        apply dget_none in D. exfalso. apply D. eapply in_dkeys; eauto. }
      specialize (Ln n). unfold server_of in Ln. rewrite Ds, Dn in Ln. cbn [app option_map] in Ln.
      rewrite run_all_app, run_drops_of in Ln by assumption. destruct (run_updates_of n s t Ds Dt) as (C & K & Ok & R).
      rewrite R in Ln. exists C, K. split; [exact Ok|]. congruence.
  Qed.

  (** *** Every state *)
  Lemma stages pre post s' : pre +++ post = plan_list from to disable -> exec_all pre (server_of from) = Some s' ->
    exists done todo, common from to = done +++ todo /\ forall n, table_at done todo n (s' n).
  Proof.
    intros E X. pose proof (exec_all_local_inv _ _ _ X) as L. clear X. unfold plan_list, body_list in E.
    assert (Ev : forall n, filter (on n) (if disable then [OEnable] else []) = []) by (intros; destruct disable; reflexivity).
    apply app_split in E as [(q & E)|(p1 & -> & E)].
    { (* before anything *)
      exists [], (common from to). split; [reflexivity|]. intros n. specialize (L n).
      pose proof (filter_prefix (on n) _ _ _ (eq_sym E)) as F. rewrite on_disable in F. apply app_eq_nil in F as [F _]. rewrite F in L.
      injection L as <-. unfold table_at, server_of. destruct (dget n from) as [s|] eqn:Ds, (dget n to) as [t|] eqn:Dt; cbn; auto.
      - left. split; [apply in_common; eauto using dget_in|]. exists (dvals (t_constraints s)). split; [reflexivity|]. split; [apply incl_refl|auto].
      - right. exists (dvals (t_constraints s)). split; [reflexivity|]. split; [apply incl_refl|auto]. }
    assert (L1 : forall n, run_all lexec (filter (on n) p1) (server_of from n) = Some (s' n)).
    { intros n. specialize (L n). rewrite filter_app, on_disable in L. exact L. }
    clear L. rename L1 into L.
    repeat rewrite <- app_assoc in E.
    apply app_split in E as [(q & E)|(p2 & -> & E)].
    { exists [], (common from to). split; [reflexivity|]. intros n. specialize (L n).
      pose proof (filter_prefix (on n) _ _ _ (eq_sym E)) as F. rewrite on_creates in F by assumption.
      unfold table_at, server_of in *. destruct (dget n from) as [s|] eqn:Ds, (dget n to) as [t|] eqn:Dt.
      - apply app_eq_nil in F as [F _]. rewrite F in L. injection L as <-. left. split; [apply in_common; eauto using dget_in|].
        exists (dvals (t_constraints s)). split; [reflexivity|]. split; [apply incl_refl|auto].
      - apply app_eq_nil in F as [F _]. rewrite F in L. injection L as <-. right.
        exists (dvals (t_constraints s)). split; [reflexivity|]. split; [apply incl_refl|auto].
      - destruct (filter (on n) p1) as [|x l]; [injection L as <-; auto|]. simpl in F. injection F as -> F. apply app_eq_nil in F as [-> _].
        cbn in L. rewrite exec_create_wf in L by apply (wf_named _ Wt n t), dget_in, Dt. injection L as <-. auto.
      - apply app_eq_nil in F as [F _]. rewrite F in L. injection L as <-. reflexivity. }
    assert (L1 : forall n, run_all lexec (filter (on n) p2) (match dget n from, dget n to with None, Some t => Some (stable_of t) | _, _ => server_of from n end) = Some (s' n)).
    { intros n. specialize (L n). rewrite filter_app, on_creates in L by assumption. unfold server_of in *.
      destruct (dget n from) as [s|] eqn:Ds, (dget n to) as [t|] eqn:Dt; cbn [option_map app] in *; try exact L.
      cbn [run_all lexec] in L.
      rewrite exec_create_wf in L by apply (wf_named _ Wt n t), dget_in, Dt. exact L. }
    clear L. rename L1 into L.
    apply app_split in E as [(q & E)|(p3 & -> & E)].
    { exists [], (common from to). split; [reflexivity|]. intros n. specialize (L n).
      pose proof (filter_prefix (on n) _ _ _ (eq_sym E)) as F. rewrite on_drops in F by assumption.
      unfold table_at, server_of in *. destruct (dget n from) as [s|] eqn:Ds.
      - assert (H : s' n = Some (stable_of s) \/ s' n = Some (st_src s (fks1 from to n s))).
        { apply alter1_prefix in F as [F|F]; rewrite F in L.
          - left. destruct (dget n to); cbn in L; congruence.
          - right. fold (drops_of from to (n, s)) in L. destruct (dget n to); cbn [option_map] in L; rewrite run_drops_of in L by assumption; congruence. }
        assert (H2 : exists fks, s' n = Some (st_src s fks) /\ incl fks (dvals (t_constraints s))).
        { destruct H as [H|H]; [exists (dvals (t_constraints s)); split; [exact H|apply incl_refl]|].
          exists (fks1 from to n s). split; [exact H|apply fks1_incl]. }
        destruct H2 as (fks & H2 & H3). destruct (dget n to) as [t|] eqn:Dt.
        + left. split; [apply in_common; eauto using dget_in|]. exists fks. auto.
        + right. exists fks. auto.
      - apply app_eq_nil in F as [F _]. rewrite F in L. destruct (dget n to); cbn in L; injection L as <-; auto. }
    assert (L1 : forall n, run_all lexec (filter (on n) p3)
       (match dget n from with Some s => Some (st_src s (fks1 from to n s)) | None => match dget n to with Some t => Some (stable_of t) | None => None end end) = Some (s' n)).
    { intros n. specialize (L n). rewrite filter_app, on_drops in L by assumption. unfold server_of in *.
      destruct (dget n from) as [s|] eqn:Ds; [|destruct (dget n to); cbn [option_map app] in *; exact L].
      destruct (dget n to); cbn [option_map] in L; rewrite run_all_app, run_drops_of in L by assumption; exact L. }
    clear L. rename L1 into L.
    apply app_split in E as [(q & E)|(p4 & -> & E)].
    { (* among the updates *)
      symmetry in E. apply concat_prefix in E as (l1 & l2 & p' & Ec & Ep & D).
      assert (G : exists done todo, common from to = done +++ todo /\
                (p3 = updates_of done \/ exists x l3, todo = x :: l3 /\ p3 = updates_of done +++ removed_of from to x)).
      { destruct D as [->|(x & l3 & q' & -> & D)].
        - exists l1, l2. split; [exact Ec|]. left. rewrite Ep, app_nil_r. reflexivity.
        - apply app_split in D as [(q2 & D)|(p5 & -> & D)].
          + symmetry in D. apply alter1_prefix in D as [->|D].
            * exists l1, (x :: l3). split; [exact Ec|]. left. rewrite Ep, app_nil_r. reflexivity.
            * exists l1, (x :: l3). split; [exact Ec|]. right. exists x, l3. split; [reflexivity|]. rewrite Ep, D. reflexivity.
          + apply alter1_prefix in D as [->|D].
            * exists l1, (x :: l3). split; [exact Ec|]. right. exists x, l3. split; [reflexivity|]. rewrite Ep, app_nil_r. reflexivity.
            * exists (l1 +++ [x]), l3. split; [rewrite <- app_assoc; exact Ec|]. left. rewrite Ep, D. unfold updates_of. rewrite map_app, concat_app.
              simpl. rewrite app_nil_r. reflexivity. }
      clear Ec Ep D l1 l2 p'. destruct G as (done & todo & Ec & G). exists done, todo. split; [exact Ec|].
      assert (Inf : forall n s, In (n, s) done \/ In (n, s) todo -> dget n from = Some s).
      { intros n s H. apply (dget_iff _ _ _ (wf_names _ Wf)). apply in_app_iff in H. rewrite <- Ec in H. apply in_common in H. tauto. }
      intros n. specialize (L n).
      assert (F : filter (on n) p3 = match dget n done with Some s => removed_of from to (n, s) +++ kitchen_of to (n, s) | None => [] end
              \/ (dget n done = None /\ exists s, In (n, s) todo /\ filter (on n) p3 = removed_of from to (n, s))).
      { destruct G as [->|([m s] & l3 & -> & ->)]; [left; apply (on_updates_of done todo n Ec)|].
        rewrite filter_app, (on_updates_of done _ n Ec). destruct (String.eqb_spec m n) as [->|Nm].
        - pose proof (Inf n s (or_intror (or_introl eq_refl))) as Ds.
          assert (Dt : exists t, dget n to = Some t).
          { assert (H : In (n, s) (common from to)) by (rewrite Ec; apply in_app_iff; right; left; reflexivity). apply in_common in H. tauto. }
          destruct (common_parts done _ n s Ec Ds Dt) as [(_ & _ & N)|(_ & D)]; [exfalso; apply N; left; reflexivity|].
          right. split; [exact D|]. exists s. split; [left; reflexivity|]. rewrite D. cbn [app]. apply filter_true.
          intros o Ho. unfold on. rewrite (on_alter1 n _ o Ho). apply String.eqb_refl.
        - left. rewrite (filter_none _ (removed_of from to (m, s))); [apply app_nil_r|]. intros o Ho. unfold on. rewrite (on_alter1 m _ o Ho).
          destruct (String.eqb_spec m n); [congruence|reflexivity]. }
      unfold table_at. destruct (dget n from) as [s|] eqn:Ds.
      - destruct (dget n to) as [t|] eqn:Dt.
        + destruct (common_parts done todo n s Ec Ds (ex_intro _ t Dt)) as [(I & D & N)|(I & D)].
          * right. split; [exact I|]. rewrite D in F. destruct F as [F|[F _]]; [|discriminate]. rewrite F in L.
            destruct (run_updates_of n s t Ds Dt) as (C & K & Ok & R). rewrite R in L. injection L as <-. exists C, K, (fks2 from to n s t). auto.
          * left. split; [exact I|]. destruct F as [F|(_ & s2 & I2 & F)].
            -- rewrite D in F. rewrite F in L. injection L as <-. exists (fks1 from to n s). split; [reflexivity|]. split; [apply fks1_incl|]. right. apply incl_refl.
            -- assert (s2 = s) by (pose proof (Inf n s2 (or_intror I2)); congruence). subst s2. rewrite F, run_removed_of with (t := t) in L by assumption.
               injection L as <-. exists (fks2 from to n s t). split; [reflexivity|]. split; [apply fks2_incl|]. right. apply incl_fks2.
        + right. exists (fks1 from to n s). assert (N : forall x, ~ In (n, x) (done +++ todo)).
          { intros x H. rewrite <- Ec in H. apply in_common in H as [_ (t & Dt')]. congruence. }
          assert (F0 : filter (on n) p3 = []).
          { destruct F as [F|(_ & x & I & _)]; [|exfalso; apply (N x), in_app_iff; auto]. rewrite F.
            destruct (dget n done) eqn:D; [|reflexivity]. exfalso. apply dget_in in D. eapply N, in_app_iff; eauto. }
          rewrite F0 in L. injection L as <-. split; [reflexivity|]. split; [apply fks1_incl|auto].
      - assert (F0 : filter (on n) p3 = []).
        { destruct F as [F|(_ & x & I & _)]; [|exfalso; pose proof (Inf n x (or_intror I)); congruence]. rewrite F.
          destruct (dget n done) eqn:D; [|reflexivity]. apply dget_in in D. pose proof (Inf n t (or_introl D)). congruence. }
        rewrite F0 in L. destruct (dget n to); injection L as <-; auto. }
    (* after the updates *)
    exists (common from to), []. split; [symmetry; apply app_nil_r|]. intros n. specialize (L n).
    rewrite filter_app, on_updates in L by assumption.
    pose proof (filter_prefix (on n) _ _ _ E) as F. rewrite !filter_app, on_added, on_readds, on_gone, Ev in F by assumption.
    rewrite app_nil_r in F. unfold table_at. destruct (dget n from) as [s|] eqn:Ds, (dget n to) as [t|] eqn:Dt.
    - right. split; [apply in_common; eauto using dget_in|].
      destruct (run_updates_of n s t Ds Dt) as (C & K & Ok & R). rewrite run_all_app, R in L. exists C, K.
      rewrite app_nil_r in F. apply app_split in F as [(q & F)|(p6 & F2 & F)].
      + symmetry in F. apply alter1_prefix in F as [F|F]; rewrite F in L.
        * injection L as <-. exists (fks2 from to n s t). auto.
        * fold (added_of from to (n, s)) in L. rewrite run_added_of in L by assumption. injection L as <-. eexists. split; [reflexivity|].
          split; [exact Ok|]. right. split; [reflexivity|]. unfold final_fks. apply incl_appl, incl_refl.
      + rewrite F2, run_all_app, run_added_of in L by assumption. apply alter1_prefix in F as [F|F]; rewrite F in L.
        * injection L as <-. eexists. split; [reflexivity|]. split; [exact Ok|]. right. split; [reflexivity|]. unfold final_fks. apply incl_appl, incl_refl.
        * fold (readds_of from to (n, s)) in L. rewrite run_readds_of in L by assumption. injection L as <-. eexists. split; [reflexivity|].
          split; [exact Ok|]. right. split; [reflexivity|]. apply incl_refl.
    - cbn [app] in L, F. destruct (filter (on n) p4) as [|x l].
      + injection L as <-. right. exists (fks1 from to n s). split; [reflexivity|]. split; [apply fks1_incl|auto].
      + simpl in F. injection F as -> F. apply app_eq_nil in F as [-> _]. injection L as <-. auto.
    - cbn [app] in L, F. apply app_eq_nil in F as [F _]. rewrite F in L. injection L as <-. auto.
    - cbn [app] in L, F. apply app_eq_nil in F as [F _]. rewrite F in L. injection L as <-. reflexivity.
  Qed.

  (** Just before the columns of a table are changed. *)
  Lemma at_turn done n s t todo : common from to = done +++ (n, s) :: todo -> dget n to = Some t -> kitchen_list s t <> [] ->
    exists pre post, plan_list from to disable = pre +++ OAlter (mkAlter n (kitchen_list s t)) :: post
      /\ pre = (if disable then [ODisable] else []) +++ creates_list from to +++ drops_list from to +++ updates_of done +++ removed_of from to (n, s).
  Proof.
    intros Ec Dt Nk. eexists _, _. split; [|reflexivity]. unfold plan_list, body_list, updates_list, updates_of.
    rewrite Ec, map_app, concat_app. cbn [map concat]. unfold kitchen_of at 2. cbn [fst snd]. rewrite (tgt_of_eq to n s t Dt), alter1_eq.
    destruct (kitchen_list s t) as [|x l]; [congruence|]. cbn [list_is_nil]. rewrite <- !app_assoc. cbn [app]. reflexivity.
  Qed.
  Lemma turn_state done n s t todo s' : common from to = done +++ (n, s) :: todo -> dget n to = Some t ->
    exec_all ((if disable then [ODisable] else []) +++ creates_list from to +++ drops_list from to +++ updates_of done +++ removed_of from to (n, s))
      (server_of from) = Some s' ->
    (forall m, dget m from = None -> s' m = match dget m to with Some t => Some (stable_of t) | None => None end)
    /\ s' n = Some (st_src s (fks2 from to n s t))
    /\ (forall m old, dget m from = Some old -> ~ In m (map fst done) -> m <> n -> s' m = Some (st_src old (fks1 from to m old)))
    /\ (forall m old mt, In (m, old) done -> dget m to = Some mt ->
          exists C K, changed_ok old mt C K /\ s' m = Some (mkStable C K (fks2 from to m old mt))).
  Proof.
    intros Ec Dt X. pose proof (exec_all_local_inv _ _ _ X) as L.
    assert (Ds : dget n from = Some s).
    { apply (dget_iff _ _ _ (wf_names _ Wf)). assert (H : In (n, s) (common from to)) by (rewrite Ec; apply in_app_iff; right; left; reflexivity).
      apply in_common in H. tauto. }
    assert (Dn : dget n done = None).
    { destruct (common_parts done _ n s Ec Ds (ex_intro _ t Dt)) as [(_ & _ & N)|(_ & D)]; [exfalso; apply N; left; reflexivity|exact D]. }
    assert (Ln : forall m, run_all lexec (match dget m from, dget m to with None, Some t => [OCreate t] | _, _ => [] end
        +++ match dget m from with Some s => drops_of from to (m, s) | None => [] end
        +++ match dget m done with Some s => removed_of from to (m, s) +++ kitchen_of to (m, s) | None => [] end
        +++ (if String.eqb m n then removed_of from to (n, s) else [])) (server_of from m) = Some (s' m)).
    { intros m. specialize (L m). rewrite !filter_app, on_disable, on_creates, on_drops in L by assumption.
      rewrite (on_updates_of done _ m Ec) in L. rewrite app_nil_l in L.
      replace (filter (on m) (removed_of from to (n, s))) with (if String.eqb m n then removed_of from to (n, s) else []) in L; [exact L|].
      destruct (String.eqb_spec m n) as [->|Nm].
      - symmetry. apply filter_true. intros o Ho. unfold on. rewrite (on_alter1 n _ o Ho). apply String.eqb_refl.
      - symmetry. apply filter_none. intros o Ho. unfold on. rewrite (on_alter1 n _ o Ho). destruct (String.eqb_spec n m); [congruence|reflexivity]. }
    clear L. split; [|split; [|split]].
    - intros m Dm. specialize (Ln m). unfold server_of in Ln. rewrite Dm in Ln.
      assert (D : dget m done = None).
      { apply dget_none. intros H. apply in_map_iff in H as ([x y] & <- & H). cbn [fst] in *.
        assert (I : In (x, y) (common from to)) by (rewrite Ec; apply in_app_iff; auto). apply in_common in I as [I _].
        apply dget_none in Dm. apply Dm. eapply in_dkeys; eauto. }
      rewrite D in Ln. destruct (String.eqb_spec m n); [congruence|]. destruct (dget m to) as [mt|] eqn:Dmt; cbn in Ln; [|congruence].
      rewrite exec_create_wf in Ln by apply (wf_named _ Wt m mt), dget_in, Dmt. congruence.
    - specialize (Ln n). unfold server_of in Ln. rewrite Ds, Dn, String.eqb_refl in Ln. cbn [app option_map] in Ln.
      rewrite run_all_app, run_drops_of, run_removed_of with (t := t) in Ln by assumption. congruence.
    - intros m old Dm Nd Nm. specialize (Ln m). unfold server_of in Ln. rewrite Dm in Ln. cbn [app option_map] in Ln.
      rewrite (proj2 (dget_none _ _) Nd) in Ln. destruct (String.eqb_spec m n); [contradiction|]. rewrite !app_nil_r, run_drops_of in Ln by assumption. congruence.
    - intros m old mt I Dmt. assert (Ic : In (m, old) (common from to)) by (rewrite Ec; apply in_app_iff; auto).
      apply in_common in Ic as [Ic _]. apply (dget_iff _ _ _ (wf_names _ Wf)) in Ic as Dm.
      destruct (common_parts done _ m old Ec Dm (ex_intro _ mt Dmt)) as [(_ & D & N)|(_ & D)]; [|apply dget_none in D; exfalso; apply D; eapply in_dkeys; eauto].
      specialize (Ln m). unfold server_of in Ln. rewrite Dm, D in Ln. cbn [app option_map] in Ln.
      assert (Nm : m <> n) by (intros ->; apply N; left; reflexivity).
      destruct (String.eqb_spec m n); [contradiction|]. rewrite app_nil_r, run_all_app, run_drops_of in Ln by assumption.
      destruct (run_updates_of m old mt Dm Dmt) as (C & K & Ok & R). rewrite R in Ln. exists C, K. split; [exact Ok|congruence].
  Qed.

  (** After all additions, before tables are dropped. *)
  Lemma all_added : exists pre post s', plan_list from to disable = pre +++ post
    /\ exec_all pre (server_of from) = Some s'
    /\ (forall n s, dget n from = Some s -> dget n to = None -> s' n = Some (st_src s (fks1 from to n s)))
    /\ (forall n s t, dget n from = Some s -> dget n to = Some t ->
          exists C K, s' n = Some (mkStable C K (final_fks from to n s t))).
  Proof.
    set (pre := (if disable then [ODisable] else []) +++ creates_list from to +++ drops_list from to +++ updates_list from to
                +++ added_list from to +++ readds_list from to).
    assert (E : exists post, plan_list from to disable = pre +++ post).
    { eexists. unfold plan_list, body_list, pre. rewrite <- !app_assoc. reflexivity. }
    destruct E as (post & E). destruct (prefix_runs from to P Cm disable pre post (eq_sym E)) as (s' & X).
    exists pre, post, s'. split; [exact E|]. split; [exact X|].
    pose proof (exec_all_local_inv _ _ _ X) as L. split.
    - intros n s Ds Dt. specialize (L n). unfold pre in L.
      rewrite !filter_app, on_disable, on_creates, on_drops, on_updates, on_added, on_readds in L by assumption.
      unfold server_of in L. rewrite Ds, Dt in L. cbn [app option_map] in L. rewrite app_nil_r, run_drops_of in L by assumption. congruence.
    - intros n s t Ds Dt. specialize (L n). unfold pre in L.
      rewrite !filter_app, on_disable, on_creates, on_drops, on_updates, on_added, on_readds in L by assumption.
      unfold server_of in L. rewrite Ds, Dt in L. cbn [app option_map] in L. rewrite run_all_app, run_drops_of in L by assumption.
      destruct (run_updates_of n s t Ds Dt) as (C & K & Ok & R). rewrite run_all_app, R in L.
      rewrite run_all_app, run_added_of in L by assumption. rewrite run_readds_of in L by assumption. exists C, K. congruence.
  Qed.

  (** *** Foreign keys dropped first *)
  Lemma first_dropped m old k : In (m, old) from -> In k (dvals (t_constraints old)) -> ~ In k (fks1 from to m old) -> comes_back from to m k.
  Proof.
    intros Im Ik N. pose proof (proj2 (wf_named _ Wf m old Im)) as Wo.
    assert (H : In (k_name k) (map k_name (cyc_src from to m old))).
    { destruct (smem (k_name k) (map k_name (cyc_src from to m old))) eqn:E; [apply smem_iff, E|].
      exfalso. apply N, fks1_in. split; [exact Ik|]. apply smem_false, E. }
    apply in_map_iff in H as (k' & En & H). apply cyc_src_in in H as (H & x & Hc); [|exact Wo].
    assert (k' = k).
    { apply dvals_in in Ik as (kn & Ik). pose proof (wf_fks_named _ Wo kn k Ik). subst kn. rewrite En in H. apply (same_entry _ _ k' k (wf_fks _ Wo) H Ik). }
    subst k'. unfold cycle_of in Hc. destruct (changing_column from to m (k_column k) || changing_column from to (k_ftable k) (k_fcolumn k)) eqn:Ch; [|discriminate].
    split; [apply (changing_uses from to m k Wf Wt Ch)|]. intros t It. rewrite (proj2 (dget_iff _ _ _ (wf_names _ Wt)) It) in Hc.
    destruct (dget (k_name k) (t_constraints t)) as [b|] eqn:D; [left; apply dget_in in D; eapply in_dkeys; eauto|].
    right. destruct (find_matching t k) as [b|] eqn:Fm; [|discriminate]. unfold find_matching in Fm. apply find_some in Fm as [F1 F2].
    exists b. split; [exact F1|]. apply same_reference_iff, F2.
  Qed.
  Lemma first_gone m old k : In (m, old) from -> comes_back from to m k -> ~ In k (fks1 from to m old).
  Proof.
    intros Im ((tn & cn & U & R) & H) Hk. pose proof (proj2 (wf_named _ Wf m old Im)) as Wo.
    apply fks1_in in Hk as [Hk Nk]. apply dvals_in in Hk as (kn & Hk).
    pose proof (wf_fks_named _ Wo kn k Hk) as Ek. subst kn. apply Nk, in_map. apply cyc_src_in; [exact Wo|].
    split; [exact Hk|]. unfold cycle_of. rewrite (uses_changing from to m k tn cn Wf Wt U R). destruct (dget m to) as [mtt|] eqn:Dmt; [|eauto].
    destruct (dget (k_name k) (t_constraints mtt)) as [k'|] eqn:Dk; [eauto|].
    destruct (H mtt (dget_in _ _ _ Dmt)) as [Hin|(b & Hb & SR)].
    - apply dget_none in Dk. contradiction.
    - unfold find_matching. destruct (find _ _) eqn:Fd; [eauto|]. exfalso.
      apply (find_none _ _ Fd) in Hb. assert (same_reference b k = true) by (apply same_reference_iff, SR). congruence.
  Qed.

  (** *** Order *)
  Lemma filter_at {A} (f : A -> bool) : forall l d x r, filter f l = d +++ x :: r -> exists l1 l2, l = l1 +++ x :: l2 /\ filter f l1 = d /\ filter f l2 = r.
  Proof.
    induction l as [|y l IH]; intros d x r E; simpl in E; [destruct d; discriminate|]. destruct (f y) eqn:Fy.
    - destruct d as [|z d]; simpl in E; injection E as -> E.
      + exists [], l. auto.
      + destruct (IH d x r E) as (l1 & l2 & -> & <- & <-). exists (z :: l1), l2. split; [reflexivity|]. simpl. rewrite Fy. auto.
    - destruct (IH d x r E) as (l1 & l2 & -> & <- & <-). exists (y :: l1), l2. split; [reflexivity|]. simpl. rewrite Fy. auto.
  Qed.
  Lemma order_in done n s todo m : common from to = done +++ (n, s) :: todo -> m = n \/ In m (map fst done) -> comes_by (dkeys from) m n.
  Proof.
    intros Ec H. destruct (filter_at _ _ _ _ _ Ec) as (l1 & l2 & -> & <- & <-). exists (dkeys l1), (dkeys l2). unfold dkeys. rewrite map_app.
    split; [reflexivity|]. destruct H as [->|H]; [auto|]. right. apply in_map_iff in H as (p & <- & H). apply filter_In in H as [H _]. apply in_map, H.
  Qed.
  Lemma order_out done n s todo m : common from to = done +++ (n, s) :: todo -> In m (map fst todo) -> ~ comes_by (dkeys from) m n.
  Proof.
    intros Ec H (a & b & Ed & O). destruct (filter_at _ _ _ _ _ Ec) as (l1 & l2 & E & <- & <-). pose proof (wf_names _ Wf) as N.
    assert (H2 : In m (dkeys l2)). { apply in_map_iff in H as (p & <- & H). apply filter_In in H as [H _]. apply in_map, H. }
    assert (Ed2 : dkeys from = dkeys l1 +++ n :: dkeys l2) by (rewrite E; unfold dkeys; rewrite map_app; reflexivity).
    assert (Ea : a = dkeys l1 /\ b = dkeys l2).
    { rewrite Ed in Ed2, N. clear -Ed2 N. revert N Ed2. generalize (dkeys l1) as c, (dkeys l2) as d. intros c d. revert c.
      induction a as [|x a IH]; intros [|y c] N E; simpl in *.
      - injection E as ->. auto.
      - injection E as <- E. subst b. inversion N as [|? ? X Y]; subst. exfalso. apply X, in_app_iff. right. left. reflexivity.
      - injection E as -> E. subst d. inversion N as [|? ? X Y]; subst. exfalso. apply X, in_app_iff. right. left. reflexivity.
      - injection E as -> E. inversion N; subst. destruct (IH c) as [-> ->]; auto. }
    destruct Ea as [-> ->]. rewrite Ed2 in N. destruct O as [->|O].
    - apply NoDup_remove_2 in N. apply N, in_app_iff. auto.
    - apply in_split in H2 as (x & y & E2). rewrite E2 in N. change (n :: x +++ m :: y) with ((n :: x) +++ m :: y) in N. rewrite app_assoc in N.
      apply NoDup_remove_2 in N. apply N. rewrite !in_app_iff. auto.
  Qed.
End Stages.

(** ** Texts *)
Lemma tick_cut x y r s : tickless x -> tickless y -> x ++ String bquote r = y ++ String bquote s -> x = y /\ r = s.
Proof.
  intros Hx Hy E. apply has_char_forall in Hx, Hy. destruct (cut_unique (Ascii.eqb bquote) x y (String bquote r) (String bquote s)) as [-> E2]; auto.
  injection E2 as E2. auto.
Qed.
Lemma constraint_str_ref a b : k_name a = k_name b ->
  tickless (k_column a) -> tickless (k_ftable a) -> tickless (k_fcolumn a) ->
  tickless (k_column b) -> tickless (k_ftable b) -> tickless (k_fcolumn b) ->
  constraint_str a = constraint_str b -> same_ref a b.
Proof.
  intros En A1 A2 A3 B1 B2 B3 E. unfold constraint_str in E. cbn [join] in E. rewrite En in E.
  rewrite !sapp_assoc in E. simpl in E. injection E as E. apply sapp_inj_l in E. simpl in E. injection E as E.
  apply tick_cut in E as [E1 E]; auto. simpl in E. injection E as E. apply tick_cut in E as [E2 E]; auto. simpl in E. injection E as E.
  apply tick_cut in E as [E3 E]; auto. split; [exact E1|]. split; assumption.
Qed.
