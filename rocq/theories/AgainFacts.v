(** Lemmas behind C86: a plan for what a server reports after a plan was executed. *)
From Verif Require Import DiffMore PlanMore StoredFacts.

(** ** Indexes *)

Lemma index_str_columns a b : ix_name a = ix_name b -> ix_columns a <> [] -> ix_columns b <> [] ->
  Forall (fun c => has_char bquote c = false) (ix_columns a) -> Forall (fun c => has_char bquote c = false) (ix_columns b) ->
  index_str a = index_str b -> ix_columns a = ix_columns b.
Proof.
  intros En Na Nb Fa Fb E. pose proof (index_str_type a b E) as Et.
  assert (G : join "`,`" (ix_columns a) ++ "`)" = join "`,`" (ix_columns b) ++ "`)").
  { unfold index_str in E. rewrite Et, En in E. destruct (ix_type b), (truthy (ix_rawname a)), (truthy (ix_rawname b)); simpl in E; try discriminate; injection E as E;
      try exact E; apply sapp_inj_l in E; injection E as E; exact E. }
  apply sapp_inj_r in G. apply (join_inj bquote ",`"); auto.
Qed.

(** Every removed key has its partner. *)
Lemma match_all cn added removed : forall matched,
  NoDup (map fst removed) -> NoDup (map fst added) ->
  (forall rk ri, In (rk, ri) removed -> exists ak ai, In (ak, ai) added /\ same_shape ri ai = true /\ (In rk cn \/ In ak cn) /\ ~ In ak matched) ->
  (forall ak ai ak' ai', In (ak, ai) added -> In (ak', ai') added -> same_index ai ai' -> ak = ak') ->
  (forall rk ri rk' ri', In (rk, ri) removed -> In (rk', ri') removed -> same_index ri ri' -> rk = rk') ->
  forall rk ri ak ai, In (rk, ri) removed -> In (ak, ai) added -> same_shape ri ai = true -> In (rk, ak) (match_keys cn removed added matched).
Proof.
  induction removed as [|[r0 i0] removed IH]; intros matched Nr Na P Da Dr rk ri ak ai Hr Ha S; [destruct Hr|].
  cbn [match_keys]. destruct (P r0 i0 (or_introl eq_refl)) as (a0 & j0 & H0 & S0 & C0 & M0). apply same_shape_iff in S, S0.
  unfold find_key_match. destruct (find (key_match cn r0 i0 matched) added) as [[a1 j1]|] eqn:F.
  - cbn [option_map fst]. apply find_some in F as [H1 K]. unfold key_match in K. cbn [fst snd] in K. rewrite !andb_true_iff in K. destruct K as [[_ S1] _]. apply same_shape_iff in S1.
    assert (a1 = a0) by (apply (Da a1 j1 a0 j0 H1 H0); split; destruct S0, S1; congruence). subst a1.
    assert (j1 = j0) by (apply (same_entry _ a0 j1 j0 Na H1 H0)). subst j1.
    destruct Hr as [[= -> ->]|Hr].
    + left. f_equal. apply (Da a0 j0 ak ai H0 Ha). split; destruct S, S0; congruence.
    + right. cbn [map] in Nr. inversion Nr as [|? ? N1 N2]; subst. apply (IH (a0 :: matched)) with (ri := ri) (ai := ai); auto; try (apply same_shape_iff, S).
      * intros rk' ri' H'. destruct (P rk' ri' (or_intror H')) as (a & j & A1 & A2 & A3 & A4). exists a, j. repeat split; auto. intros [<-|Q]; [|exact (A4 Q)].
        assert (j = j0) by (apply (same_entry _ a0 j j0 Na A1 H0)). subst j. apply same_shape_iff in A2.
        assert (r0 = rk') by (apply (Dr r0 i0 rk' ri' (or_introl eq_refl) (or_intror H')); split; destruct A2, S0; congruence). subst rk'.
        apply N1. apply (in_map fst) in H'. exact H'.
      * intros a b c d X Y. apply (Dr a b c d (or_intror X) (or_intror Y)).
  - exfalso. pose proof (find_none _ _ F _ H0) as K. unfold key_match in K. cbn [fst snd] in K.
    rewrite (proj2 (same_shape_iff i0 j0) S0), andb_true_r in K. apply smem_false in M0. rewrite M0 in K. cbn [negb andb] in K. apply orb_false_iff in K as [K1 K2].
    apply smem_false in K1, K2. tauto.
Qed.

Section Float.
  Context {FO : FloatOracle}.

  (** What is needed so that the reported indexes need nothing either. *)
  Record key_report (m0 m1 t : table) : Prop := {
    kr_there : forall n i1, In (n, i1) (t_indexes m1) -> exists i0, In (n, i0) (t_indexes m0) /\ same_key i0 i1;
    kr_back : forall n i0, In (n, i0) (t_indexes m0) -> exists i1, In (n, i1) (t_indexes m1) /\ same_key i0 i1;
    kr_fks : forall n, In n (dkeys (t_constraints m1)) <-> In n (dkeys (t_constraints m0));
    kr_distinct : forall n i n' i', In (n, i) (t_indexes t) -> In (n', i') (t_indexes t) -> same_index i i' -> n = n';
    kr_clean : forall n i, In (n, i) (t_indexes m0) \/ In (n, i) (t_indexes t) -> ix_columns i <> [] /\ Forall (fun c => has_char bquote c = false) (ix_columns i)
  }.
  Lemma report_absent m0 m1 t n : key_report m0 m1 t -> dget n (t_indexes m0) = None <-> dget n (t_indexes m1) = None.
  Proof.
    intros K. rewrite !dget_none. split; intros H I; apply H; apply dkeys_in in I as (i & I).
    - destruct (kr_there _ _ _ K n i I) as (j & J & _). eapply in_dkeys; eauto.
    - destruct (kr_back _ _ _ K n i I) as (j & J & _). eapply in_dkeys; eauto.
  Qed.
  Lemma key_ops_report m0 m1 t : wf_table m0 -> wf_table m1 -> wf_table t -> key_report m0 m1 t -> key_ops m0 t = [] -> key_ops m1 t = [].
  Proof.
    intros W0 W1 Wt K E. rewrite key_ops_eq in E. apply app_eq_nil in E as [E1 E]. apply app_eq_nil in E as [E2 E3]. apply map_eq_nil in E1, E2, E3.
    assert (New : forall n b, In (n, b) (t_indexes t) -> dget n (t_indexes m0) = None -> In n (map snd (key_pairs m0 t))).
    { intros n b Hb D. destruct (in_dec string_dec n (map snd (key_pairs m0 t))) as [?|N]; [assumption|]. exfalso.
      assert (X : In b (new_keys m0 t)) by (apply new_keys_in; eauto). rewrite E1 in X. exact X. }
    assert (Gone : forall n a, In (n, a) (t_indexes m0) -> dget n (t_indexes t) = None -> In n (map fst (key_pairs m0 t))).
    { intros n a Ha D. destruct (in_dec string_dec n (map fst (key_pairs m0 t))) as [?|N]; [assumption|]. exfalso.
      assert (X : In a (gone_keys m0 t)) by (apply gone_keys_in; eauto). rewrite E2 in X. exact X. }
    set (cn := dkeys (t_constraints m1) +++ dkeys (t_constraints t)).
    assert (Cn : forall x, In x (dkeys (t_constraints m0) +++ dkeys (t_constraints t)) -> In x cn).
    { intros x. unfold cn. rewrite !in_app_iff, (kr_fks _ _ _ K). tauto. }
    (* the partner of a key that is only reported *)
    assert (Part : forall rk r1, In (rk, r1) (only_in (t_indexes m1) (t_indexes t)) -> exists ak b, In (rk, ak) (key_pairs m0 t)
              /\ In (ak, b) (only_in (t_indexes t) (t_indexes m1)) /\ same_shape r1 b = true /\ (In rk cn \/ In ak cn)).
    { intros rk r1 H. apply only_in_in in H as [H D]. destruct (kr_there _ _ _ K rk r1 H) as (r0 & H0 & (_ & S1 & S2)).
      pose proof (Gone rk r0 H0 D) as G. apply in_map_iff in G as ([rk' ak] & Q & G). cbn [fst] in Q. subst rk'.
      destruct (key_pairs_in m0 t rk ak W0 Wt G) as (a & b & Ha & Hb & _ & Db & S & C). assert (a = r0) by (apply (same_entry _ rk a r0 (wf_keys _ W0) Ha H0)). subst a.
      exists ak, b. split; [exact G|]. split; [apply only_in_in; split; [exact Hb|apply (report_absent _ _ _ ak K), Db]|]. split.
      - apply same_shape_iff in S. apply same_shape_iff. destruct S; split; congruence.
      - destruct C as [C|C]; apply Cn in C; auto. }
    assert (All : forall rk ri ak ai, In (rk, ri) (only_in (t_indexes m1) (t_indexes t)) -> In (ak, ai) (only_in (t_indexes t) (t_indexes m1)) -> same_shape ri ai = true -> In (rk, ak) (key_pairs m1 t)).
    { unfold key_pairs. apply match_all.
      - apply NoDup_filter_map, (wf_keys _ W1).
      - apply NoDup_filter_map, (wf_keys _ Wt).
      - intros rk ri H. destruct (Part rk ri H) as (ak & b & _ & A & B & C). exists ak, b. repeat split; auto.
      - intros ak ai ak' ai' H H' S. apply only_in_in in H as [H _]. apply only_in_in in H' as [H' _]. eapply (kr_distinct _ _ _ K); eauto.
      - intros rk ri rk' ri' H H' S. destruct (Part rk ri H) as (ak & b & P & A & B & _). destruct (Part rk' ri' H') as (ak' & b' & P' & A' & B' & _).
        apply only_in_in in A as [A _]. apply only_in_in in A' as [A' _]. apply same_shape_iff in B, B'.
        assert (ak = ak') by (apply (kr_distinct _ _ _ K ak b ak' b' A A'); destruct S, B, B'; split; congruence). subst ak'.
        pose proof (match_keys_nodup_snd (dkeys (t_constraints m0) +++ dkeys (t_constraints t)) (only_in (t_indexes m0) (t_indexes t)) (only_in (t_indexes t) (t_indexes m0)) []) as N.
        fold (key_pairs m0 t) in N. pose proof (same_named snd (key_pairs m0 t) (rk, ak) (rk', ak) N P P' eq_refl) as Q. congruence. }
    rewrite key_ops_eq.
    assert (N1 : new_keys m1 t = []).
    { destruct (new_keys m1 t) as [|b l] eqn:L; [reflexivity|]. exfalso. assert (H : In b (new_keys m1 t)) by (rewrite L; left; reflexivity).
      apply new_keys_in in H as (n & Hb & D & N). apply N. pose proof D as D0. apply (report_absent _ _ _ n K) in D0. pose proof (New n b Hb D0) as G. apply in_map_iff in G as ([rk ak] & Q & G). cbn [snd] in Q. subst ak.
      destruct (key_pairs_in m0 t rk n W0 Wt G) as (a & b' & Ha & Hb' & Da & _ & S & _). assert (b' = b) by (apply (same_entry _ n b' b (wf_keys _ Wt) Hb' Hb)). subst b'.
      destruct (kr_back _ _ _ K rk a Ha) as (i1 & H1 & (_ & S1 & S2)). apply in_map_iff. exists (rk, n). split; [reflexivity|].
      apply (All rk i1 n b); [apply only_in_in; auto|apply only_in_in; auto|]. apply same_shape_iff in S. apply same_shape_iff. destruct S; split; congruence. }
    assert (N2 : gone_keys m1 t = []).
    { destruct (gone_keys m1 t) as [|b l] eqn:L; [reflexivity|]. exfalso. assert (H : In b (gone_keys m1 t)) by (rewrite L; left; reflexivity).
      apply gone_keys_in in H as (n & Hb & D & N). apply N. destruct (Part n b) as (ak & b' & _ & A & S & _); [apply only_in_in; auto|].
      apply in_map_iff. exists (n, ak). split; [reflexivity|]. apply (All n b ak b'); auto. apply only_in_in; auto. }
    assert (N3 : changed_keys m1 t = []).
    { destruct (changed_keys m1 t) as [|[a b] l] eqn:L; [reflexivity|]. exfalso. assert (H : In (a, b) (changed_keys m1 t)) by (rewrite L; left; reflexivity).
      apply changed_keys_in in H as (n & Ha & D & C). destruct (kr_there _ _ _ K n a Ha) as (a0 & H0 & (S0 & S1 & S2)).
      assert (C0 : key_changed a0 b = false).
      { destruct (key_changed a0 b) eqn:Q; [|reflexivity]. exfalso. assert (X : In (a0, b) (changed_keys m0 t)) by (apply changed_keys_in; eauto). rewrite E3 in X. exact X. }
      assert (Sh : same_shape a0 b = true).
      { unfold key_changed in C0. apply andb_false_iff in C0 as [C0|C0]; apply negb_false_iff in C0; [|exact C0]. apply String.eqb_eq in C0. apply same_shape_iff. split; [|apply index_str_type, C0].
        apply dget_in in D. destruct (kr_clean _ _ _ K n a0 (or_introl H0)) as [A1 A2]. destruct (kr_clean _ _ _ K n b (or_intror D)) as [B1 B2].
        apply index_str_columns; auto. rewrite (wf_keys_named _ W0 n a0 H0), (wf_keys_named _ Wt n b D). reflexivity. }
      unfold key_changed in C. apply andb_true_iff in C as [_ C]. apply negb_true_iff in C. apply same_shape_iff in Sh.
      assert (same_shape a b = true) by (apply same_shape_iff; destruct Sh; split; congruence). congruence. }
    rewrite N1, N2, N3. reflexivity.
  Qed.

  (** ** Tables *)

  Lemma diff_split_none m t : wf_table m -> wf_table t -> diff_split m t = Ok (mkSplit None None None) ->
    (forall n, In n (dkeys (t_columns m)) <-> In n (dkeys (t_columns t)))
    /\ (forall n a b, In (n, a) (t_columns m) -> In (n, b) (t_columns t) -> column_changed a b = Ok false)
    /\ key_ops m t = []
    /\ (forall n, In n (dkeys (t_constraints m)) <-> In n (dkeys (t_constraints t)))
    /\ (forall n a b, In (n, a) (t_constraints m) -> In (n, b) (t_constraints t) -> constraint_str a = constraint_str b).
  Proof.
    intros Wm Wt E. unfold diff_split in E. apply bind_ok in E as (k & Ek & E). apply (kitchen_ops_iff m t k (wf_cols _ Wm) (wf_cols _ Wt)) in Ek as [C Ek].
    assert (NA : forall n ops, nonempty_alter n ops = None -> ops = []) by (intros n [|o ops]; [reflexivity|discriminate]).
    injection E as E1 E2 E3. apply NA in E1, E2, E3. subst k. unfold kitchen_list in E2. apply app_eq_nil in E2 as [A E2]. apply app_eq_nil in E2 as [B E2]. apply app_eq_nil in E2 as [D E2].
    assert (On : forall V (f : string * V -> aop) (a b : dict string V), map f (only_in a b) = [] -> forall n, In n (dkeys a) -> In n (dkeys b)).
    { intros V f a b H n I. apply map_eq_nil in H. destruct (dget n b) as [v|] eqn:G; [apply dget_in in G; eapply in_dkeys; eauto|]. apply dkeys_in in I as (v & I).
      assert (X : In (n, v) (only_in a b)) by (apply only_in_in; auto). rewrite H in X. destruct X. }
    split; [|split; [|split; [|split]]].
    - intros n. split; intros I.
      + eapply On; eauto.
      + destruct (dget n (t_columns m)) as [v|] eqn:G; [apply dget_in in G; eapply in_dkeys; eauto|]. apply dkeys_in in I as (v & I). exfalso.
        assert (X : In (n, v) (only_in (t_columns t) (t_columns m))) by (apply only_in_in; auto). unfold add_col_ops in A. apply map_eq_nil in A. rewrite A in X. exact X.
    - intros n a b Ha Hb. destruct (C n a b Ha Hb) as (x & Hx). rewrite Hx. f_equal. destruct x; [|reflexivity]. exfalso. apply map_eq_nil in B.
      assert (X : In b (changed_cols m t)) by (apply changed_cols_in; exists n, a; split; [exact Ha|]; split; [apply (dget_iff _ _ _ (wf_cols _ Wt)), Hb|unfold chb; rewrite Hx; reflexivity]).
      rewrite B in X. exact X.
    - exact E2.
    - unfold removed_fk_ops in E1. unfold added_fk_ops in E3. apply app_eq_nil in E1 as [E1 _], E3 as [E3 _]. intros n. split; intros I; eapply On; eauto.
    - intros n a b Ha Hb. unfold removed_fk_ops in E1. apply app_eq_nil in E1 as [_ E1]. apply map_eq_nil in E1. destruct (String.eqb_spec (constraint_str a) (constraint_str b)) as [Q|Q]; [exact Q|]. exfalso.
      assert (X : In (a, b) (changed_fks m t)).
      { apply changed_fks_in. exists n. split; [exact Ha|]. split; [apply (dget_iff _ _ _ (wf_fks _ Wt)), Hb|]. unfold constraint_changed. destruct (String.eqb_spec (constraint_str a) (constraint_str b)); [contradiction|reflexivity]. }
      unfold changed_fks in X. rewrite E1 in X. exact X.
  Qed.

  (** ** Databases *)

  Record table_report (m0 m1 t : table) : Prop := {
    tr_columns : forall n, In n (dkeys (t_columns m1)) <-> In n (dkeys (t_columns m0));
    tr_changed : forall n a0 a1 b, In (n, a0) (t_columns m0) -> In (n, a1) (t_columns m1) -> In (n, b) (t_columns t) ->
      column_changed a0 b = Ok false -> column_changed a1 b = Ok false;
    tr_keys : key_report m0 m1 t;
    tr_fks : forall n k1, In (n, k1) (t_constraints m1) -> exists k0, In (n, k0) (t_constraints m0) /\ alike_fk k0 k1
  }.
  Lemma diff_report m0 m1 t : wf_table m0 -> wf_table m1 -> wf_table t -> table_report m0 m1 t ->
    diff_split m0 t = Ok (mkSplit None None None) -> diff_split m1 t = Ok (mkSplit None None None).
  Proof.
    intros W0 W1 Wt R E. destruct (diff_split_none m0 t W0 Wt E) as (A & B & C & D & F). apply diff_empty; auto.
    - intros n. rewrite (tr_columns _ _ _ R). apply A.
    - intros n a1 b H1 Hb. assert (H0 : In n (dkeys (t_columns m0))) by (apply (tr_columns _ _ _ R); eapply in_dkeys; eauto). apply dkeys_in in H0 as (a0 & H0).
      apply (tr_changed _ _ _ R n a0 a1 b); auto. apply (B n); assumption.
    - apply (key_ops_report m0); auto. apply R.
    - intros n. rewrite (kr_fks _ _ _ (tr_keys _ _ _ R)). apply D.
    - intros n k1 b H1 Hb. destruct (tr_fks _ _ _ R n k1 H1) as (k0 & H0 & Al). rewrite (alike_fk_str _ _ Al). apply (F n); assumption.
  Qed.

  (** A foreign key of [d] uses the column. *)
  Definition column_used (d : tables) (tn cn : string) : Prop :=
    exists m mt k, In (m, mt) d /\ In k (dvals (t_constraints mt)) /\ fk_uses m k tn cn.
  Lemma plan_report mid0 mid1 to : wf_tables mid0 -> wf_tables mid1 -> wf_tables to ->
    (forall n, In n (dkeys mid0) <-> In n (dkeys to)) ->
    (forall n m t, dget n mid0 = Some m -> dget n to = Some t -> diff_split m t = Ok (mkSplit None None None)) ->
    (forall p, In p mid0 -> cycled_of_table mid0 to (fst p) (snd p) = []) ->
    (forall n, In n (dkeys mid1) <-> In n (dkeys mid0)) ->
    (forall n m0 m1 t, In (n, m0) mid0 -> In (n, m1) mid1 -> In (n, t) to -> table_report m0 m1 t) ->
    (forall n cn m0 m1 t a0 a1 b, In (n, m0) mid0 -> In (n, m1) mid1 -> In (n, t) to -> column_used mid0 n cn ->
       In (cn, a0) (t_columns m0) -> In (cn, a1) (t_columns m1) -> In (cn, b) (t_columns t) ->
       column_type_differs a0 b = false -> column_type_differs a1 b = false) ->
    plan_tables false to (Some mid1) = Ok [].
  Proof.
    intros W0 W1 Wt N0 D0 C0 N1 R Ty.
    assert (Back : forall n m1, In (n, m1) mid1 -> exists m0 t, In (n, m0) mid0 /\ In (n, t) to).
    { intros n m1 I. assert (H : In n (dkeys mid0)) by (apply N1; eapply in_dkeys; eauto). pose proof (proj1 (N0 n) H) as H'. apply dkeys_in in H as (m0 & H). apply dkeys_in in H' as (t & H'). eauto. }
    apply plan_quiet.
    - intros n. rewrite N1. apply N0.
    - intros n m1 t E1 Et. apply dget_in in E1 as I1. apply dget_in in Et as It. destruct (Back n m1 I1) as (m0 & t' & I0 & _).
      apply (diff_report m0); [apply (wf_named _ W0 n), I0|apply (wf_named _ W1 n), I1|apply (wf_named _ Wt n), It|apply (R n); assumption|]. apply (D0 n); [apply (dget_iff _ _ _ (wf_names _ W0)), I0|exact Et].
    - intros tn m1 kn k1 I1 J1. destruct (Back tn m1 I1) as (m0 & t & I0 & It). pose proof (R tn m0 m1 t I0 I1 It) as Rt. destruct (tr_fks _ _ _ Rt kn k1 J1) as (k0 & J0 & Al).
      assert (Ch : changing_column mid0 to tn (k_column k0) || changing_column mid0 to (k_ftable k0) (k_fcolumn k0) = false).
      { destruct (changing_column mid0 to tn (k_column k0) || changing_column mid0 to (k_ftable k0) (k_fcolumn k0)) eqn:Q; [|reflexivity]. exfalso.
        assert (X : exists x, cycle_of mid0 to tn kn k0 = Some x).
        { unfold cycle_of. rewrite Q, (proj2 (dget_iff _ _ _ (wf_names _ Wt)) It).
          pose proof (D0 tn m0 t (proj2 (dget_iff _ _ _ (wf_names _ W0)) I0) (proj2 (dget_iff _ _ _ (wf_names _ Wt)) It)) as E0.
          destruct (diff_split_none m0 t (proj2 (wf_named _ W0 tn m0 I0)) (proj2 (wf_named _ Wt tn t It)) E0) as (_ & _ & _ & Nf & _).
          destruct (dget_some_key kn (t_constraints t)) as (k' & Ek); [apply Nf; eapply in_dkeys; eauto|]. rewrite Ek. eexists. reflexivity. }
        destruct X as (x & X). assert (Y : In (kn, k0, x) (cycled_of_table mid0 to tn m0)) by (apply cycled_in_iff; auto). pose proof (C0 (tn, m0) I0) as Z. cbn [fst snd] in Z. rewrite Z in Y. exact Y. }
      apply orb_false_iff in Ch as [Ch1 Ch2]. destruct Al as (_ & A1 & A2 & A3 & _).
      assert (Go : forall n cn, fk_uses tn k0 n cn -> changing_column mid0 to n cn = false -> changing_column mid1 to n cn = false).
      { intros n cn U Ch. unfold changing_column in *. destruct (dget n mid1) as [m1'|] eqn:E1; [|reflexivity]. destruct (dget n to) as [t'|] eqn:Et; [|reflexivity].
        destruct (dget cn (t_columns m1')) as [a1|] eqn:F1; [|reflexivity]. destruct (dget cn (t_columns t')) as [b|] eqn:Fb; [|reflexivity].
        apply dget_in in E1 as I1'. apply dget_in in Et as It'. destruct (Back n m1' I1') as (m0' & t2 & I0' & _). rewrite (proj2 (dget_iff _ _ _ (wf_names _ W0)) I0') in Ch.
        pose proof (R n m0' m1' t' I0' I1' It') as Rt'. apply dget_in in F1, Fb. assert (H0 : In cn (dkeys (t_columns m0'))) by (apply (tr_columns _ _ _ Rt'); eapply in_dkeys; eauto).
        apply dkeys_in in H0 as (a0 & H0). rewrite (proj2 (dget_iff _ _ _ (wf_cols _ (proj2 (wf_named _ W0 n m0' I0')))) H0) in Ch.
        apply (Ty n cn m0' m1' t' a0 a1 b); auto. exists tn, m0, k0. split; [exact I0|]. split; [eapply in_dvals; eauto|exact U]. }
      split; apply Go; try assumption; rewrite <- ?A1, <- ?A2, <- ?A3; try assumption; [left; auto|right; auto].
  Qed.

  (** ** Columns *)

  Lemma said_same a0 a1 m b : means a0 m -> plainly a0 -> said_column m a1 ->
    column_changed a1 b = column_changed a0 b /\ column_type_differs a1 b = column_type_differs a0 b.
  Proof.
    intros M0 P0 (M1 & _ & P1 & R).
    assert (A : alike_column a1 a0).
    { apply (means_alike a1 a0 m); auto; [destruct (readable_kind _ _ R) as [->|[->| ->]]; discriminate|..].
      - rewrite (plain_default a1 m M1 P1). destruct (m_default m); exact Logic.I.
      - rewrite (plain_default a0 m M0 P0). destruct (m_default m); exact Logic.I. }
    pose proof (plain_length a0 m M0 P0) as L0. pose proof (plain_length a1 m M1 P1) as L1. pose proof (plain_default a0 m M0 P0) as D0. pose proof (plain_default a1 m M1 P1) as D1.
    destruct (plain_charset a0 m M0 P0) as [C0 O0]. destruct (plain_charset a1 m M1 P1) as [C1 O1].
    assert (Nm : default_none_mismatch a1 b = default_none_mismatch a0 b) by (unfold default_none_mismatch; rewrite (sc_kind _ _ A), (sc_type _ _ A), D0, D1; reflexivity).
    assert (Sd : same_default a1 b = same_default a0 b) by (unfold same_default, numeric_same_default; rewrite (sc_kind _ _ A), (sc_type _ _ A), D0, D1, L0, L1; reflexivity).
    assert (Sc : forall w, same_common w a1 b = same_common w a0 b).
    { intros w. unfold same_common. rewrite Nm, Sd, (sc_name _ _ A), (sc_null _ _ A), (sc_type _ _ A), (sc_unsigned _ _ A), L0, L1. reflexivity. }
    split.
    - unfold column_changed. rewrite (sc_text _ _ A). unfold really_same. rewrite (sc_kind _ _ A), (sc_type _ _ A), !Sc, C0, O0, C1, O1. reflexivity.
    - unfold column_type_differs. rewrite (sc_type _ _ A), (sc_unsigned _ _ A), L0, L1, C0, O0, C1, O1. reflexivity.
  Qed.
End Float.
