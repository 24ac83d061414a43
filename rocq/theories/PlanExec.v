(** Executing a plan and its prefixes. *)
From Verif Require Export PlanFacts.

Lemma app_split {A} (p q a b : list A) :
  p +++ q = a +++ b -> (exists q', a = p +++ q') \/ (exists p', p = a +++ p' /\ p' +++ q = b).
Proof.
  intros H. apply app_eq_app in H as (l & [[H1 H2]|[H1 H2]]).
  - right. exists l. auto.
  - left. exists l. auto.
Qed.

Lemma alter1_prefix n ops p q : p +++ q = alter1 n ops -> p = [] \/ p = alter1 n ops.
Proof.
  rewrite alter1_eq. destruct (list_is_nil ops).
  - intros H. apply app_eq_nil in H as [-> _]. auto.
  - destruct p as [|x p]; [auto|]. simpl. intros [= -> H]. apply app_eq_nil in H as [-> ->]. auto.
Qed.

Lemma filter_prefix {A} (f : A -> bool) p q l : p +++ q = l -> filter f p +++ filter f q = filter f l.
Proof. intros <-. symmetry. apply filter_app. Qed.


Lemma split_skip {A} (P : A -> Prop) (a : list A) : forall pre o post b,
  pre +++ o :: post = a +++ b -> P o -> (forall x, In x a -> ~ P x) ->
  exists pre', pre = a +++ pre' /\ b = pre' +++ o :: post.
Proof.
  induction a as [|x a IH]; intros pre o post b H Po Na; simpl in *.
  - exists pre. auto.
  - destruct pre as [|y pre]; simpl in H; injection H as E H.
    + subst. exfalso. exact (Na x (or_introl eq_refl) Po).
    + subst. destruct (IH _ _ _ _ H Po) as (pre' & -> & ->); [intros; apply Na; auto|]. exists pre'. auto.
Qed.

Lemma split_stop {A} (P : A -> Prop) (a : list A) : forall pre o post b,
  pre +++ o :: post = a +++ b -> P o -> (forall x, In x b -> ~ P x) ->
  exists post', a = pre +++ o :: post' /\ post = post' +++ b.
Proof.
  induction a as [|x a IH]; intros pre o post b H Po Nb; simpl in *.
  - exfalso. subst b. apply (Nb o); [|exact Po]. apply in_app_iff. right. left. reflexivity.
  - destruct pre as [|y pre]; simpl in H; injection H as E H.
    + subst. exists a. auto.
    + subst. destruct (IH _ _ _ _ H Po Nb) as (post' & -> & ->). exists post'. auto.
Qed.

Section Exec.
  Context {FO : FloatOracle}.
  Variables (from to : tables).
  Hypotheses (P : plannable from to) (Cm : all_comparable from to).
  Let Wf := pl_from _ _ P.
  Let Wt := pl_to _ _ P.

  Lemma tgt_of_eq n s t : dget n to = Some t -> tgt_of to (n, s) = t.
  Proof. intros D. unfold tgt_of. simpl. rewrite D. reflexivity. Qed.

  (** The table after the column and index changes. *)
  Definition changed_ok (s t : table) (C : list column) (K : list index) : Prop :=
    matches (col_ok (dvals (t_columns s))) C (dvals (t_columns t))
    /\ matches (key_ok (map k_name (dvals (t_constraints s) +++ dvals (t_constraints t)))
               (dvals (t_indexes s))) K (dvals (t_indexes t))
    /\ (same_relative_order s t -> map c_name C = dkeys (t_columns t))
    /\ Permutation C (kept_cols s t +++ map snd (only_in (t_columns t) (t_columns s)))
    /\ K = kept_keys s t +++ new_keys s t +++ map snd (changed_keys s t).

  Definition st_src (s : table) (fks : list constraint) : stable :=
    mkStable (dvals (t_columns s)) (dvals (t_indexes s)) fks.

  Lemma from_table n s : dget n from = Some s -> wf_table s.
  Proof. intros D. apply (wf_named _ Wf n s), dget_in, D. Qed.
  Lemma to_table n t : dget n to = Some t -> wf_table t.
  Proof. intros D. apply (wf_named _ Wt n t), dget_in, D. Qed.

  Lemma run_drops_of n s : dget n from = Some s ->
    run_all lexec (drops_of from to (n, s)) (Some (stable_of s)) = Some (Some (st_src s (fks1 from to n s))).
  Proof.
    intros Ds. apply lrun_alter1. apply exec_alter_fks_only.
    - apply map_kind. reflexivity.
    - apply exec_step1. eapply from_table; eauto.
  Qed.

  Lemma run_removed_of n s t : dget n from = Some s -> dget n to = Some t ->
    run_all lexec (removed_of from to (n, s)) (Some (st_src s (fks1 from to n s)))
    = Some (Some (st_src s (fks2 from to n s t))).
  Proof.
    intros Ds Dt. apply lrun_alter1. rewrite (tgt_of_eq n s t Dt). apply (exec_alter_fks_only _ (st_src s _)).
    - apply map_kind. reflexivity.
    - apply exec_step2; auto; [eapply from_table|eapply to_table]; eauto.
  Qed.

  Lemma run_kitchen_of n s t : dget n from = Some s -> dget n to = Some t ->
    exists C K, changed_ok s t C K /\
      forall fks, run_all lexec (kitchen_of to (n, s)) (Some (st_src s fks)) = Some (Some (mkStable C K fks)).
  Proof.
    intros Ds Dt.
    assert (Ws : wf_table s) by (eapply from_table; eauto). assert (Wt' : wf_table t) by (eapply to_table; eauto).
    pose proof (dget_in _ _ _ Ds) as Is. pose proof (dget_in _ _ _ Dt) as It.
    pose proof (Cm n s t Is It) as C.
    pose proof (primary_kept_stable s t Ws Wt' (pl_primary _ _ P n s t Is It)) as PS.
    destruct (exec_kitchen s t [] [] [] Ws Wt' C PS) as (L & K & X & M1 & M2 & O & PC & EK); [intros o []|reflexivity|].
    exists L, K. split; [repeat split; assumption|]. intros fks. apply lrun_alter1. rewrite (tgt_of_eq n s t Dt).
    cbn [snd]. rewrite app_nil_r in X. unfold exec_alter in *. cbn [st_src st_cols st_keys st_fks] in *.
    destruct (exec_cols (kitchen_list s t) (dvals (t_columns s))); [|discriminate].
    destruct (exec_keys (kitchen_list s t) (dvals (t_indexes s))); [|discriminate].
    rewrite exec_fks_filter, kitchen_fks in *. unfold exec_fks in *. simpl in *. congruence.
  Qed.

  Lemma run_added_of n s t C K : dget n from = Some s -> dget n to = Some t ->
    run_all lexec (added_of from to (n, s)) (Some (mkStable C K (fks2 from to n s t)))
    = Some (Some (mkStable C K (fks2 from to n s t +++ strip_adds from to n s t))).
  Proof.
    intros Ds Dt. pose proof (dget_in _ _ _ Ds) as Is. pose proof (dget_in _ _ _ Dt) as It.
    apply lrun_alter1. rewrite (tgt_of_eq n s t Dt). apply (exec_alter_fks_only _ (mkStable C K _)).
    - apply map_kind. reflexivity.
    - apply exec_step3; auto; [eapply from_table|eapply to_table|eapply pl_clear_in]; eauto.
  Qed.
  Lemma run_readds_of n s t C K : dget n from = Some s -> dget n to = Some t ->
    run_all lexec (readds_of from to (n, s)) (Some (mkStable C K (fks2 from to n s t +++ strip_adds from to n s t)))
    = Some (Some (mkStable C K (final_fks from to n s t))).
  Proof.
    intros Ds Dt. pose proof (dget_in _ _ _ Ds) as Is. pose proof (dget_in _ _ _ Dt) as It.
    apply lrun_alter1. apply (exec_alter_fks_only _ (mkStable C K _)).
    - apply map_kind. reflexivity.
    - apply exec_step4; auto; [eapply from_table|eapply to_table|eapply pl_named|eapply pl_clear_in]; eauto.
  Qed.

  (** *** The state of one table after a prefix of its share of the plan *)
  Inductive mid_state (n : string) : option stable -> Prop :=
  | mid_absent : dget n from = None -> dget n to = None -> mid_state n None
  | mid_todo t : dget n from = None -> dget n to = Some t -> mid_state n None
  | mid_new t : dget n from = None -> dget n to = Some t -> mid_state n (Some (stable_of t))
  | mid_gone s : dget n from = Some s -> dget n to = None -> mid_state n None
  | mid_old s fks : dget n from = Some s -> incl fks (dvals (t_constraints s)) ->
      mid_state n (Some (st_src s fks))
  | mid_changed s t C K fks : dget n from = Some s -> dget n to = Some t -> changed_ok s t C K ->
      incl fks (dvals (t_constraints s) +++ dvals (t_constraints t)) ->
      mid_state n (Some (mkStable C K fks)).

  Lemma fks1_incl n s : incl (fks1 from to n s) (dvals (t_constraints s)).
  Proof. intros a H. apply fks1_in in H. tauto. Qed.
  Lemma fks2_incl n s t : incl (fks2 from to n s t) (dvals (t_constraints s)).
  Proof. intros a H. apply fks2_in in H. tauto. Qed.
  Lemma strip_adds_incl n s t : wf_table s -> wf_table t -> incl (strip_adds from to n s t) (dvals (t_constraints t)).
  Proof.
    intros Ws Wt' a H. apply filter_In in H as [H _]. apply new_fks_in in H as (m & H & _); auto. eapply in_dvals; eauto.
  Qed.
  Lemma cyc_adds_incl n s t : dget n to = Some t -> incl (cyc_adds from to n s) (dvals (t_constraints t)).
  Proof.
    intros Dt a H. apply (cyc_adds_in from to n s t) in H as [H _]; auto; [eapply in_dvals; eauto|eapply to_table; eauto].
  Qed.

  (** The whole share of one table. *)
  Lemma run_local n :
    run_all lexec (local_ops from to n) (server_of from n) =
      match dget n to with
      | None => Some None
      | Some t => match dget n from with
                  | None => Some (Some (stable_of t))
                  | Some s => run_all lexec (local_ops from to n) (server_of from n)
                  end
      end
    /\ forall s t, dget n from = Some s -> dget n to = Some t ->
        exists C K, changed_ok s t C K /\
          run_all lexec (local_ops from to n) (server_of from n) = Some (Some (mkStable C K (final_fks from to n s t))).
  Proof.
    unfold local_ops, server_of. split.
    - destruct (dget n from) as [s|] eqn:Ds, (dget n to) as [t|] eqn:Dt; cbn [option_map]; try reflexivity.
      + rewrite run_all_app, run_drops_of by exact Ds. reflexivity.
      + simpl. rewrite exec_create_wf by (eapply to_table; eauto). reflexivity.
    - intros s t Ds Dt. rewrite Ds, Dt. cbn [option_map].
      destruct (run_kitchen_of n s t Ds Dt) as (C & K & Ok & R). exists C, K. split; [exact Ok|].
      rewrite run_all_app, run_drops_of by exact Ds.
      rewrite run_all_app. rewrite run_all_app, run_removed_of with (t := t) by assumption. rewrite R.
      rewrite run_all_app, run_added_of by assumption. apply run_readds_of; assumption.
  Qed.

  Lemma plan_runs disable :
    exists s', exec_all (plan_list from to disable) (server_of from) = Some s'
      /\ (forall n, run_all lexec (local_ops from to n) (server_of from n) = Some (s' n)).
  Proof.
    destruct (exec_all_local (plan_list from to disable) (server_of from)) as (s' & X & Y).
    - intros n. rewrite on_plan by assumption. destruct (run_local n) as [E G].
      destruct (dget n to) as [t|] eqn:Dt; [|eauto]. destruct (dget n from) as [s|] eqn:Ds; [|eauto].
      destruct (G s t eq_refl eq_refl) as (C & K & _ & R). eauto.
    - exists s'. split; [exact X|]. intros n. rewrite <- (on_plan from to Wf Wt n disable). apply Y.
  Qed.

  Lemma plan_reaches disable :
    exists s', exec_all (plan_list from to disable) (server_of from) = Some s' /\ reaches from to s'
      /\ (forall n s t st, dget n from = Some s -> dget n to = Some t -> s' n = Some st ->
            changed_ok s t (st_cols st) (st_keys st) /\ st_fks st = final_fks from to n s t).
  Proof.
    destruct (plan_runs disable) as (s' & X & Y). exists s'. split; [exact X|]. split.
    - intros n. specialize (Y n). destruct (run_local n) as [E G].
      destruct (dget n to) as [t|] eqn:Dt; [|congruence]. destruct (dget n from) as [s|] eqn:Ds; [|congruence].
      destruct (G s t eq_refl eq_refl) as (C & K & (M1 & M2 & _) & R).
      exists (mkStable C K (final_fks from to n s t)). split; [congruence|].
      split; [exact M1|]. split; [exact M2|]. pose proof (dget_in _ _ _ Ds) as Is. pose proof (dget_in _ _ _ Dt) as It.
      cbn [st_fks]. apply final_fks_match; auto; [eapply from_table|eapply to_table|eapply pl_named|eapply pl_clear_in]; eauto.
    - intros n s t st Ds Dt E. specialize (Y n). destruct (run_local n) as [_ G].
      destruct (G s t Ds Dt) as (C & K & Ok & R). assert (st = mkStable C K (final_fks from to n s t)) by congruence.
      subst st. split; [exact Ok|reflexivity].
  Qed.

  Lemma run_prefix n p q v :
    p +++ q = local_ops from to n -> run_all lexec p (server_of from n) = Some v -> mid_state n v.
  Proof.
    unfold local_ops, server_of. destruct (dget n from) as [s|] eqn:Ds, (dget n to) as [t|] eqn:Dt; cbn [option_map]; intros E R.
    - pose proof (from_table n s Ds) as Ws. pose proof (to_table n t Dt) as Wt'.
      apply app_split in E as [(q' & E)|(p1 & -> & E)].
      { symmetry in E. apply alter1_prefix in E as [->| ->].
        - injection R as <-. apply (mid_old n s); [exact Ds|]. apply incl_refl.
        - change (run_all lexec (drops_of from to (n, s)) (Some (stable_of s)) = Some v) in R.
          rewrite run_drops_of in R by exact Ds. injection R as <-. apply (mid_old n s); [exact Ds|]. apply fks1_incl. }
      rewrite run_all_app, run_drops_of in R by exact Ds.
      apply app_split in E as [(q' & E)|(p2 & -> & E)].
      { symmetry in E. apply app_split in E as [(q2 & E)|(p2 & -> & E)].
        - symmetry in E. apply alter1_prefix in E as [->| ->].
          + injection R as <-. apply (mid_old n s); [exact Ds|]. apply fks1_incl.
          + change (run_all lexec (removed_of from to (n, s)) (Some (st_src s (fks1 from to n s))) = Some v) in R.
            rewrite run_removed_of with (t := t) in R by assumption. injection R as <-.
            apply (mid_old n s); [exact Ds|]. apply fks2_incl.
        - rewrite run_all_app, run_removed_of with (t := t) in R by assumption.
          apply alter1_prefix in E as [->| ->].
          + injection R as <-. apply (mid_old n s); [exact Ds|]. apply fks2_incl.
          + destruct (run_kitchen_of n s t Ds Dt) as (C & K & Ok & RK). unfold kitchen_of in RK. rewrite RK in R.
            injection R as <-. apply (mid_changed n s t); auto. apply incl_appl, fks2_incl. }
      rewrite run_all_app in R. rewrite run_all_app, run_removed_of with (t := t) in R by assumption.
      destruct (run_kitchen_of n s t Ds Dt) as (C & K & Ok & RK). rewrite RK in R.
      assert (I3 : incl (fks2 from to n s t +++ strip_adds from to n s t) (dvals (t_constraints s) +++ dvals (t_constraints t))).
      { apply incl_app; [apply incl_appl, fks2_incl|apply incl_appr, strip_adds_incl; assumption]. }
      apply app_split in E as [(q' & E)|(p3 & -> & E)].
      { symmetry in E. apply alter1_prefix in E as [->| ->].
        - injection R as <-. apply (mid_changed n s t); auto. apply incl_appl, fks2_incl.
        - change (run_all lexec (added_of from to (n, s)) (Some (mkStable C K (fks2 from to n s t))) = Some v) in R.
          rewrite run_added_of in R by assumption. injection R as <-. apply (mid_changed n s t); auto. }
      rewrite run_all_app, run_added_of in R by assumption.
      apply alter1_prefix in E as [->| ->].
      + injection R as <-. apply (mid_changed n s t); auto.
      + change (run_all lexec (readds_of from to (n, s)) (Some (mkStable C K (fks2 from to n s t +++ strip_adds from to n s t))) = Some v) in R.
        rewrite run_readds_of in R by assumption. injection R as <-. apply (mid_changed n s t); auto.
        unfold final_fks. apply incl_app; [exact I3|]. apply incl_appr, cyc_adds_incl, Dt.
    - apply app_split in E as [(q' & E)|(p1 & -> & E)].
      { symmetry in E. apply alter1_prefix in E as [->| ->].
        - injection R as <-. apply (mid_old n s); [exact Ds|]. apply incl_refl.
        - change (run_all lexec (drops_of from to (n, s)) (Some (stable_of s)) = Some v) in R.
          rewrite run_drops_of in R by exact Ds. injection R as <-. apply (mid_old n s); [exact Ds|]. apply fks1_incl. }
      rewrite run_all_app, run_drops_of in R by exact Ds.
      destruct p1 as [|x p1]; [injection R as <-; apply (mid_old n s); [exact Ds|]; apply fks1_incl|].
      simpl in E. injection E as -> E. apply app_eq_nil in E as [-> _]. simpl in R. injection R as <-.
      apply (mid_gone n s); assumption.
    - destruct p as [|x p]; [injection R as <-; apply (mid_todo n t); assumption|].
      simpl in E. injection E as -> E. apply app_eq_nil in E as [-> _]. simpl in R.
      rewrite exec_create_wf in R by (eapply to_table; eauto). injection R as <-. apply (mid_new n t); assumption.
    - apply app_eq_nil in E as [-> _]. injection R as <-. apply mid_absent; assumption.
  Qed.

  Lemma prefix_mid disable pre post s' :
    pre +++ post = plan_list from to disable -> exec_all pre (server_of from) = Some s' ->
    forall n, mid_state n (s' n).
  Proof.
    intros E X n. apply (run_prefix n (filter (on n) pre) (filter (on n) post)).
    - rewrite <- (on_plan from to Wf Wt n disable). apply filter_prefix, E.
    - apply exec_all_local_inv, X.
  Qed.

  (** A prefix of an executable list is executable. *)
  Lemma prefix_runs disable pre post :
    pre +++ post = plan_list from to disable -> exists s', exec_all pre (server_of from) = Some s'.
  Proof.
    intros E. destruct (plan_runs disable) as (s' & X & _). unfold exec_all in *. rewrite <- E, run_all_app in X.
    destruct (run_all exec pre (server_of from)); [eauto|discriminate].
  Qed.
End Exec.

(** ** The other way round: what an executed plan says about the pair *)
Lemma lrun_alter1_inv n ops t v : run_all lexec (alter1 n ops) (Some t) = Some v -> exists t', v = Some t' /\ exec_alter ops t = Some t'.
Proof.
  rewrite alter1_eq. destruct ops as [|o ops]; simpl.
  - intros [= <-]. exists t. split; [reflexivity|apply exec_alter_nil].
  - destruct (exec_alter (o :: ops) t) as [t'|]; [|discriminate]. intros [= <-]. eauto.
Qed.
Lemma exec_fks_adds_inv ks l l' : exec_fks (map AddConstraint ks) l = Some l' ->
  incl l l' /\ forall k, In k ks -> ~ In (k_name k) (map k_name l).
Proof.
  unfold exec_fks. rewrite run_all_skip by (intros o Ho s; apply in_map_iff in Ho as (k & <- & _); reflexivity). rewrite run_all_map.
  enough (G : forall ks m, run_all (fun s k => fk_add l s (AddConstraint k)) ks m = Some l' -> incl m l' /\ forall k, In k ks -> ~ In (k_name k) (map k_name l)) by apply G.
  clear ks. induction ks as [|k ks IH]; intros m R; simpl in R.
  - injection R as <-. split; [apply incl_refl|intros k []].
  - destruct (has_id k_name String.eqb (k_name k) l) eqn:H; [discriminate|]. unfold put_end in R.
    destruct (has_id k_name String.eqb (k_name k) m); [discriminate|]. apply IH in R as [I N]. split.
    + intros x Ix. apply I, in_app_iff. left. exact Ix.
    + intros x [<-|Ix]; [|auto]. apply (has_id_false k_name String.eqb seqb_ok _ _), H.
Qed.
Lemma exec_alter_fks ops t t' : exec_alter ops t = Some t' -> exec_fks ops (st_fks t) = Some (st_fks t').
Proof.
  unfold exec_alter. destruct (exec_cols ops (st_cols t)), (exec_keys ops (st_keys t)), (exec_fks ops (st_fks t)); try discriminate. intros [= <-]. reflexivity.
Qed.

Section Needed.
  Context {FO : FloatOracle}.
  Variables (from to : tables).
  Hypotheses (Wf : wf_tables from) (Wt : wf_tables to) (Hn : forall n t, In (n, t) to -> fks_named t).

  Lemma plan_needs disable s' : exec_all (plan_list from to disable) (server_of from) = Some s' -> plannable from to.
  Proof.
    intros X.
    assert (G : forall n s t, In (n, s) from -> In (n, t) to -> primary_kept s t /\ clear_in from to n s).
    { intros n s t Is It. pose proof (wf_named _ Wf _ _ Is) as [_ Ws]. pose proof (wf_named _ Wt _ _ It) as [_ Wt'].
      pose proof (proj2 (dget_iff _ _ _ (wf_names _ Wf)) Is) as Ds. pose proof (proj2 (dget_iff _ _ _ (wf_names _ Wt)) It) as Dt.
      pose proof (exec_all_local_inv _ _ _ X n) as Y. rewrite (on_plan from to Wf Wt) in Y. unfold local_ops, server_of in Y. rewrite Ds, Dt in Y. cbn [option_map] in Y.
      rewrite run_all_app in Y.
      assert (R1 : run_all lexec (drops_of from to (n, s)) (Some (stable_of s)) = Some (Some (st_src s (fks1 from to n s)))).
      { apply lrun_alter1, exec_alter_fks_only; [apply map_kind; reflexivity|apply exec_step1; auto]. }
      rewrite R1, run_all_app in Y. clear R1.
      assert (R2 : run_all lexec (removed_of from to (n, s)) (Some (st_src s (fks1 from to n s))) = Some (Some (st_src s (fks2 from to n s t)))).
      { apply lrun_alter1. unfold tgt_of. cbn [fst snd]. rewrite Dt. apply (exec_alter_fks_only _ (st_src s _)); [apply map_kind; reflexivity|apply exec_step2; auto]. }
      rewrite run_all_app, R2 in Y. clear R2.
      destruct (run_all lexec (kitchen_of to (n, s)) _) as [v|] eqn:RK; [|discriminate]. unfold kitchen_of in RK.
      apply lrun_alter1_inv in RK as (t1 & -> & RK). unfold tgt_of in RK. cbn [fst snd] in RK. rewrite Dt in RK.
      split.
      - apply (exec_kitchen_primary s t [] (fks2 from to n s t) t1 Ws Wt'); [intros o []|]. rewrite app_nil_r. exact RK.
      - intros kn a b m c Ia Nm Ic.
        destruct (changing_column from to n (k_column c) || changing_column from to (k_ftable c) (k_fcolumn c)) eqn:Ch; [reflexivity|]. exfalso.
        destruct (cycle_target from to n s t kn a b m Dt Wt' Ia) as (Ib & Em & _).
        assert (F1 : st_fks t1 = fks2 from to n s t).
        { apply exec_alter_fks in RK. rewrite exec_fks_filter, kitchen_fks in RK. unfold exec_fks in RK. simpl in RK. congruence. }
        rewrite run_all_app in Y. destruct (run_all lexec (added_of from to (n, s)) _) as [v|] eqn:RA; [|discriminate].
        apply lrun_alter1_inv in RA as (t2 & -> & RA). apply exec_alter_fks in RA. apply exec_fks_adds_inv in RA as [I2 _]. rewrite F1 in I2.
        apply lrun_alter1_inv in Y as (t3 & _ & Y). apply exec_alter_fks in Y. apply exec_fks_adds_inv in Y as [_ N].
        assert (Hm : In m (map k_name (cyc_adds from to n s))) by (apply (cyc_adds_names from to n s t); eauto).
        apply in_map_iff in Hm as (k & Ek & Ik). apply (N k Ik). rewrite Ek. clear N.
        pose proof (wf_fks_named _ Ws m c Ic) as Ec. rewrite <- Ec. apply in_map, I2, fks2_in.
        split; [eapply in_dvals; eauto|]. rewrite Ec. split.
        + intros H. apply in_map_iff in H as (c' & Ec' & H). apply cyc_src_in in H as [Ic' (x & Cx)]; [|exact Ws]. rewrite Ec' in *.
          apply (dget_iff _ _ _ (wf_fks _ Ws)) in Ic, Ic'. assert (c' = c) by congruence. subst c'. unfold cycle_of in Cx. rewrite Ch in Cx. discriminate.
        + intros H. apply in_map_iff in H as (c' & Ec' & H). apply filter_In in H as [_ H]. rewrite Ec' in H. apply negb_true_iff in H.
          rewrite (proj2 (cycled_in_true from to n s Ds m)) in H; [discriminate|]. apply cycled_names_in. right. split; [|eauto].
          rewrite <- Em. apply (Hn n t It). eapply in_dvals; eauto. }
    constructor; auto.
    - intros n s t Is It. apply (G n s t Is It).
    - intros n s t Is It. apply (clear_iff from to n s t Wf Wt Is It), (G n s t Is It).
  Qed.
End Needed.
