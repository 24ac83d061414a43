(** Second part of the lemmas behind C08-C18. *)
From Verif Require Export PlanExec.

Lemma same_dict {V} (nm : V -> string) (a b : dict string V) :
  (forall n c, In (n, c) a -> nm c = n) -> (forall n c, In (n, c) b -> nm c = n) ->
  dvals a = dvals b -> a = b.
Proof.
  revert b; induction a as [|[n x] a IH]; intros [|[m y] b] Ha Hb E; try discriminate; [reflexivity|].
  simpl in E. injection E as -> E. f_equal.
  - rewrite <- (Ha n y) by (left; reflexivity). rewrite <- (Hb m y) by (left; reflexivity). reflexivity.
  - apply IH; auto; intros; [apply Ha|apply Hb]; right; assumption.
Qed.

Lemma same_stable a b : wf_table a -> wf_table b -> stable_of a = stable_of b ->
  t_columns a = t_columns b /\ t_indexes a = t_indexes b /\ t_constraints a = t_constraints b.
Proof.
  intros Wa Wb E. injection E as E1 E2 E3. split; [|split].
  - apply (same_dict c_name); solve [auto | apply (wf_cols_named _ Wa) | apply (wf_cols_named _ Wb)].
  - apply (same_dict ix_name); solve [auto | apply (wf_keys_named _ Wa) | apply (wf_keys_named _ Wb)].
  - apply (same_dict k_name); solve [auto | apply (wf_fks_named _ Wa) | apply (wf_fks_named _ Wb)].
Qed.

(** ** Empty plans *)
Section Empty.
  Context {FO : FloatOracle}.

  Lemma plan_empty from to :
    (forall n, In n (dkeys from) <-> In n (dkeys to)) ->
    (forall n s t, dget n from = Some s -> dget n to = Some t -> diff_split s t = Ok (mkSplit None None None)) ->
    (forall p, In p from -> cycled_of_table from to (fst p) (snd p) = []) ->
    plan_tables false to (Some from) = Ok [].
  Proof.
    intros Hn Hd Hc. unfold plan_tables, differences.
    assert (E1 : filter (fun k => negb (dmem k from)) (dkeys to) = []).
    { apply filter_none. intros k Hk. apply negb_false_iff, dmem_iff, Hn, Hk. }
    assert (E2 : filter (fun k => negb (dmem k to)) (dkeys from) = []).
    { apply filter_none. intros k Hk. apply negb_false_iff, dmem_iff, Hn, Hk. }
    assert (E3 : filter (fun k => dmem k to) (dkeys from) = dkeys from).
    { apply filter_true. intros k Hk. apply dmem_iff, Hn, Hk. }
    rewrite E1, E2, E3.
    assert (U : mapM (update_table from to) (dkeys from) = Ok (map (fun _ => ([], [])) (dkeys from))).
    { apply mapM_Ok_map. intros n Hk. unfold update_table, dgetE.
      destruct (dget_some_key n from Hk) as (s & Ds). apply Hn in Hk. destruct (dget_some_key n to Hk) as (t & Dt).
      rewrite Ds, Dt. cbn [bind]. rewrite (Hd n s t Ds Dt). reflexivity. }
    cbn [mapM bind]. rewrite U. cbn [bind].
    assert (Z : forall (l : list string), concat (map fst (map (fun _ => (@nil op, @nil op)) l)) = [] /\
                 concat (map snd (map (fun _ => (@nil op, @nil op)) l)) = []).
    { intros l. rewrite !map_map. split; apply concat_map_nil; reflexivity. }
    destruct (Z (dkeys from)) as [-> ->].
    assert (F1 : drop_fk_ops from to = []).
    { unfold drop_fk_ops. apply concat_map_nil. intros p Hp. rewrite Hc by exact Hp. reflexivity. }
    assert (F2 : add_fk_ops from to = []).
    { unfold add_fk_ops. apply concat_map_nil. intros p Hp. rewrite Hc by exact Hp. reflexivity. }
    rewrite F1, F2. reflexivity.
  Qed.
End Empty.

Section More.
  Context {FO : FloatOracle}.
  Variables (from to : tables).
  Hypothesis (P : plannable from to).
  Let Wf := pl_from _ _ P.
  Let Wt := pl_to _ _ P.

  (** *** C11 *)
  Lemma holds_get d s n st : holds d s -> s n = Some st -> exists t, dget n d = Some t /\ stable_of t = st.
  Proof.
    intros H E. specialize (H n). unfold server_of in H. rewrite E in H. destruct (dget n d) as [t|]; [|discriminate].
    injection H as H. eauto.
  Qed.
  Lemma holds_none d s n : holds d s -> s n = None -> dget n d = None.
  Proof. intros H E. specialize (H n). unfold server_of in H. rewrite E in H. destruct (dget n d); [discriminate|reflexivity]. Qed.

  (** Where the columns come from. *)
  Lemma changed_col_origin s t C K n a m : wf_table s -> wf_table t -> wf_table m -> changed_ok s t C K ->
    dvals (t_columns m) = C -> In (n, a) (t_columns m) -> In (n, a) (t_columns s) \/ In (n, a) (t_columns t).
  Proof.
    intros Ws Wt' Wm (_ & _ & _ & PC & _) <- H.
    apply (settled_cols s t m Ws Wt' Wm PC) in H as (p & [(Hp & Hd & -> & ->)|(Hp & ->)]).
    - unfold kept_col. rewrite dmem_dget in Hd. destruct (dget (fst p) (t_columns t)) as [b|] eqn:D; [|discriminate].
      destruct (chb (snd p) b); [right; apply dget_in, D|left; destruct p; exact Hp].
    - right. apply only_in_in in Hp. tauto.
  Qed.

  (** A foreign key that stays uses no column whose type changes. *)
  Lemma fks2_stays n s t k tn cn s2 t2 a b : dget n from = Some s -> dget n to = Some t ->
    In k (fks2 from to n s t) -> fk_uses n k tn cn -> In (tn, s2) from -> In (tn, t2) to ->
    In (cn, a) (t_columns s2) -> In (cn, b) (t_columns t2) -> type_attrs a <> type_attrs b -> False.
  Proof.
    intros Ds Dt Hk U Is2 It2 Ha Hb N. pose proof (wf_named _ Wf n s (dget_in _ _ _ Ds)) as [_ Ws].
    pose proof (wf_named _ Wt n t (dget_in _ _ _ Dt)) as [_ Wt'].
    destruct (fks2_unchanged from to n s t Ds Dt Ws Wt' (pl_clear_in from to n s t P (dget_in _ _ _ Ds) (dget_in _ _ _ Dt)) k Hk) as (k' & Hk' & _).
    apply fks2_in in Hk as (Hk & Nc & _). apply Nc, in_map, (cyc_src_in from to n s k Ws).
    apply Facts.dvals_in in Hk as (x & Hk). pose proof (wf_fks_named _ Ws x k Hk). subst x. split; [exact Hk|].
    assert (Ch : changing_column from to n (k_column k) || changing_column from to (k_ftable k) (k_fcolumn k) = true).
    { apply (uses_changing from to n k tn cn Wf Wt U). exists s2, t2, a, b. auto. }
    unfold cycle_of. rewrite Ch, Dt, (proj2 (dget_iff _ _ _ (wf_fks _ Wt')) Hk'). eauto.
  Qed.

  (** What the tables of the server are after a plan. *)
  Lemma plan_mid disable mid ops s' :
    plan_tables disable to (Some from) = Ok ops -> exec_all ops (server_of from) = Some s' -> holds mid s' ->
    all_comparable from to
    /\ (forall n m, dget n mid = Some m -> exists t, dget n to = Some t /\
        match dget n from with
        | None => stable_of m = stable_of t
        | Some s => changed_ok s t (dvals (t_columns m)) (dvals (t_indexes m)) /\ dvals (t_constraints m) = final_fks from to n s t
        end)
    /\ (forall n t, dget n to = Some t -> exists m, dget n mid = Some m).
  Proof.
    intros E X Hm. apply plan_iff in E as [Cm ->]; auto.
    destruct (plan_reaches from to P Cm disable) as (s'' & X' & R & D). assert (s'' = s') by congruence. subst s''.
    split; [exact Cm|]. split.
    - intros n m Dm. pose proof (Hm n) as Em. unfold server_of in Em. rewrite Dm in Em. cbn [option_map] in Em.
      pose proof (R n) as Rn. destruct (dget n to) as [t|] eqn:Dt; [|congruence]. exists t. split; [reflexivity|].
      destruct (dget n from) as [s|] eqn:Ds; [|congruence].
      destruct (D n s t (stable_of m) Ds Dt) as [D1 D2]; [congruence|]. split; [exact D1|exact D2].
    - intros n t Dt. pose proof (R n) as Rn. rewrite Dt in Rn.
      destruct (dget n from) as [s|] eqn:Ds.
      + destruct Rn as (st & Es & _). destruct (holds_get mid s' n st Hm Es) as (m & Dm & _). eauto.
      + destruct (holds_get mid s' n _ Hm Rn) as (m & Dm & _). eauto.
  Qed.

  (** What the server holds after a plan needs nothing. *)
  Lemma plan_settled disable mid ops s' :
    plan_tables disable to (Some from) = Ok ops -> exec_all ops (server_of from) = Some s' ->
    wf_tables mid -> holds mid s' -> fk_columns_settled from to -> names_settled from to ->
    (forall n, In n (dkeys mid) <-> In n (dkeys to))
    /\ (forall n m t, dget n mid = Some m -> dget n to = Some t -> diff_split m t = Ok (mkSplit None None None))
    /\ (forall p, In p mid -> cycled_of_table mid to (fst p) (snd p) = [])
    /\ (forall n m t cn a, dget n mid = Some m -> dget n to = Some t -> In (cn, a) (t_columns m) ->
          In (cn, a) (t_columns t) \/ exists s, dget n from = Some s /\ In (cn, a) (t_columns s)).
  Proof.
    intros E X Wm Hm Hs Hn. destruct (plan_mid disable mid ops s' E X Hm) as (Cm & M & T).
    split; [|split; [|split]].
    - intros n. split; intros H; apply dget_some_key in H as (x & Dx).
      + destruct (M n x Dx) as (t & Dt & _). apply dget_in in Dt. eapply in_dkeys; eauto.
      + destruct (T n x Dx) as (m & Dm). apply dget_in in Dm. eapply in_dkeys; eauto.
    - intros n m t Dm Dt. pose proof (wf_named _ Wm n m (dget_in _ _ _ Dm)) as [_ Wm'].
      pose proof (wf_named _ Wt n t (dget_in _ _ _ Dt)) as [_ Wt'].
      destruct (M n m Dm) as (t' & Dt' & F). assert (t' = t) by congruence. subst t'.
      destruct (dget n from) as [s|] eqn:Ds.
      + destruct F as [(_ & _ & _ & PC & EK) EF]. pose proof (wf_named _ Wf n s (dget_in _ _ _ Ds)) as [_ Ws].
        apply dget_in in Ds as Is. apply dget_in in Dt as It.
        apply (diff_settled s); auto.
        * apply (Cm n); assumption.
        * apply (Hn n s t Is It).
        * rewrite EF. apply final_fks_match; auto; [eapply pl_named|eapply pl_clear_in]; eauto.
      + destruct (same_stable m t Wm' Wt' F) as (Ec & Ei & Ek). apply diff_empty; auto.
        * intros x. rewrite Ec. reflexivity.
        * intros x a b Ha Hb. rewrite Ec in Ha. rewrite (same_entry _ x a b (wf_cols _ Wt') Ha Hb). apply column_changed_refl.
        * apply key_ops_nil; [intros x; rewrite Ei; reflexivity|]. intros x a b Ha Hb. rewrite Ei in Ha.
          rewrite (same_entry _ x a b (wf_keys _ Wt') Ha Hb). apply key_changed_refl.
        * intros x. rewrite Ek. reflexivity.
        * intros x a b Ha Hb. rewrite Ek in Ha. rewrite (same_entry _ x a b (wf_fks _ Wt') Ha Hb). reflexivity.
    - intros [n m] Hp. cbn [fst snd]. apply (dget_iff _ _ _ (wf_names _ Wm)) in Hp as Dm.
      destruct (cycled_of_table mid to n m) as [|[[kn k] x] l] eqn:L; [reflexivity|]. exfalso.
      assert (H : In (kn, k, x) (cycled_of_table mid to n m)) by (rewrite L; left; reflexivity).
      apply cycled_in_iff in H as [Hk C]. unfold cycle_of in C.
      destruct (changing_column mid to n (k_column k) || changing_column mid to (k_ftable k) (k_fcolumn k)) eqn:Ch; [|discriminate].
      apply (changing_uses mid to n k Wm Wt) in Ch as (tn & cn & U & (m2 & t2 & a & b & Hm2 & Ht2 & Ha & Hb & N)).
      apply (dget_iff _ _ _ (wf_names _ Wm)) in Hm2 as Dm2. apply (dget_iff _ _ _ (wf_names _ Wt)) in Ht2 as Dt2.
      destruct (M tn m2 Dm2) as (t2' & Dt2' & F2). assert (t2' = t2) by congruence. subst t2'.
      pose proof (wf_named _ Wm tn m2 Hm2) as [_ Wm2]. pose proof (wf_named _ Wt tn t2 Ht2) as [_ Wt2].
      destruct (dget tn from) as [s2|] eqn:Ds2.
      + destruct F2 as [(_ & _ & _ & PC & _) _]. pose proof (wf_named _ Wf tn s2 (dget_in _ _ _ Ds2)) as [_ Ws2].
        apply (settled_cols s2 t2 m2 Ws2 Wt2 Wm2 PC) in Ha as (p & [(Hp2 & Hd & -> & ->)|(Hp2 & ->)]).
        * (* kept: either the target's or declared the same *)
          destruct p as [cn a0]. cbn [fst snd] in *. pose proof (proj2 (dget_iff _ _ _ (wf_cols _ Wt2)) Hb) as Db.
          pose proof (dget_in _ _ _ Ds2) as Is2.
          pose proof (kept_col_unchanged s2 t2 (cn, a0) b Ws2 Wt2 (Cm tn s2 t2 Is2 Ht2) Hp2 Db) as Un.
          unfold kept_col in *. cbn [fst snd] in *. rewrite Db in *. destruct (chb a0 b); [congruence|].
          assert (DS : declared_same a0 b).
          { unfold column_changed in Un. unfold declared_same. destruct (String.eqb_spec (column_str a0) (column_str b)); [left; assumption|right].
            apply bind_ok in Un as (r & Hr & Un). injection Un as Un. apply negb_false_iff in Un. congruence. }
          destruct (M n m Dm) as (t & Dt & F). destruct (dget n from) as [s|] eqn:Ds.
          -- destruct F as [_ EF]. assert (Hin : In k (final_fks from to n s t)) by (rewrite <- EF; eapply in_dvals; eauto).
             pose proof (dget_in _ _ _ Ds) as Is. pose proof (dget_in _ _ _ Dt) as It.
             unfold final_fks in Hin. rewrite !in_app_iff in Hin. destruct Hin as [[Hin|Hin]|Hin].
             ++ exact (fks2_stays n s t k tn cn s2 t2 a0 b Ds Dt Hin U Is2 Ht2 Hp2 Hb N).
             ++ apply (Hs tn s2 t2 cn a0 b Is2 Ht2 Hp2 Hb DS N n t k); auto.
                exact (strip_adds_incl _ _ n s t (proj2 (wf_named _ Wf n s Is)) (proj2 (wf_named _ Wt n t It)) k Hin).
             ++ apply (Hs tn s2 t2 cn a0 b Is2 Ht2 Hp2 Hb DS N n t k); auto. eapply (cyc_adds_incl from to P n s t Dt), Hin.
          -- pose proof (dget_in _ _ _ Dt) as It.
             apply (Hs tn s2 t2 cn a0 b Is2 Ht2 Hp2 Hb DS N n t k); auto.
             injection F as _ _ <-. eapply in_dvals; eauto.
        * apply only_in_in in Hp2 as [Hp2 _]. rewrite (same_entry _ _ a b (wf_cols _ Wt2) Hp2 Hb) in N. congruence.
      + destruct (same_stable m2 t2 Wm2 Wt2 F2) as (Ec & _). rewrite Ec in Ha.
        rewrite (same_entry _ _ a b (wf_cols _ Wt2) Ha Hb) in N. congruence.
    - intros n m t cn a Dm Dt Ha. destruct (M n m Dm) as (t' & Dt' & F). assert (t' = t) by congruence. subst t'.
      pose proof (wf_named _ Wm n m (dget_in _ _ _ Dm)) as [_ Wm']. pose proof (wf_named _ Wt n t (dget_in _ _ _ Dt)) as [_ Wt'].
      destruct (dget n from) as [s|] eqn:Ds.
      + destruct F as [F _]. pose proof (wf_named _ Wf n s (dget_in _ _ _ Ds)) as [_ Ws].
        destruct (changed_col_origin s t _ _ cn a m Ws Wt' Wm' F eq_refl Ha); eauto.
      + destruct (same_stable m t Wm' Wt' F) as (Ec & _). left. rewrite <- Ec. exact Ha.
  Qed.
  Lemma plan_again disable mid ops s' :
    plan_tables disable to (Some from) = Ok ops -> exec_all ops (server_of from) = Some s' ->
    wf_tables mid -> holds mid s' -> fk_columns_settled from to -> names_settled from to ->
    plan_tables false to (Some mid) = Ok [].
  Proof. intros E X Wm Hm Hs Hn. destruct (plan_settled disable mid ops s' E X Wm Hm Hs Hn) as (A & B & C & _). apply plan_empty; assumption. Qed.

  (** Conversely: what must hold if the next plan is empty. *)
  Lemma plan_again_needs disable mid ops s' :
    plan_tables disable to (Some from) = Ok ops -> exec_all ops (server_of from) = Some s' ->
    wf_tables mid -> holds mid s' -> fk_texts_tell from to ->
    (forall p, In p from \/ In p to -> distinct_indexes (snd p)) ->
    plan_tables false to (Some mid) = Ok [] -> fk_columns_settled from to /\ names_settled from to.
  Proof.
    intros E X Wm Hm Tl Di E2. destruct (plan_mid disable mid ops s' E X Hm) as (Cm & M & T).
    apply plan_iff in E2 as [_ E2]; auto. symmetry in E2. unfold plan_list, body_list in E2. rewrite app_nil_l, app_nil_r in E2.
    apply app_eq_nil in E2 as [_ E2]. apply app_eq_nil in E2 as [Ed E2]. apply app_eq_nil in E2 as [Eu _].
    assert (Fm : forall n s t m, dget n from = Some s -> dget n to = Some t -> dget n mid = Some m ->
      changed_ok s t (dvals (t_columns m)) (dvals (t_indexes m)) /\ dvals (t_constraints m) = final_fks from to n s t
      /\ forall x, In x (dkeys (t_constraints m)) <-> In x (dkeys (t_constraints t))).
    { intros n s t m Ds Dt Dm. destruct (M n m Dm) as (t' & Dt' & F). rewrite Ds in F. assert (t' = t) by congruence. subst t'.
      destruct F as [F1 F2]. split; [exact F1|]. split; [exact F2|].
      pose proof (dget_in _ _ _ Ds) as Is. pose proof (dget_in _ _ _ Dt) as It.
      apply (matched_fk_names t m); [apply (wf_named _ Wt n t It)|apply (wf_named _ Wm n m (dget_in _ _ _ Dm))|].
      rewrite F2. apply final_fks_match; auto; [apply (wf_named _ Wf n s Is)|apply (wf_named _ Wt n t It)|eapply pl_named|eapply pl_clear_in]; eauto. }
    split.
    - intros n s t cn a b Is It Ha Hb DS N m mt k Imt Hk U.
      apply (dget_iff _ _ _ (wf_names _ Wf)) in Is as Ds. apply (dget_iff _ _ _ (wf_names _ Wt)) in It as Dt.
      apply (dget_iff _ _ _ (wf_names _ Wt)) in Imt as Dmt. pose proof (wf_named _ Wt m mt Imt) as [_ Wmt].
      pose proof (wf_named _ Wf n s Is) as [_ Ws]. pose proof (wf_named _ Wt n t It) as [_ Wt'].
      destruct (T m mt Dmt) as (mm & Dmm). destruct (T n t Dt) as (nm & Dnm).
      pose proof (wf_named _ Wm m mm (dget_in _ _ _ Dmm)) as [_ Wmm]. pose proof (wf_named _ Wm n nm (dget_in _ _ _ Dnm)) as [_ Wnm].
      apply Facts.dvals_in in Hk as (x & Hk). pose proof (wf_fks_named _ Wmt x k Hk). subst x.
      (* the foreign key of the server *)
      assert (K : exists k2, In (k_name k, k2) (t_constraints mm) /\ fk_uses m k2 n cn).
      { destruct (dget m from) as [ms|] eqn:Dms.
        - destruct (Fm m ms mt mm Dms Dmt Dmm) as (_ & EF & Fn). pose proof (dget_in _ _ _ Dms) as Ims. pose proof (wf_named _ Wf m ms Ims) as [_ Wms].
          destruct (dkeys_in _ _ (proj2 (Fn (k_name k)) (in_dkeys _ _ _ Hk))) as (k2 & Hk2). exists k2. split; [exact Hk2|].
          pose proof (wf_fks_named _ Wmm _ _ Hk2) as En.
          assert (Hin : In k2 (final_fks from to m ms mt)) by (rewrite <- EF; eapply in_dvals; eauto).
          assert (Own : In k2 (dvals (t_constraints mt)) -> fk_uses m k2 n cn).
          { intros H. apply Facts.dvals_in in H as (y & H). pose proof (wf_fks_named _ Wmt y k2 H). subst y. rewrite En in H.
            rewrite (same_entry _ _ k2 k (wf_fks _ Wmt) H Hk). exact U. }
          unfold final_fks in Hin. rewrite !in_app_iff in Hin. destruct Hin as [[Hin|Hin]|Hin].
          + exfalso. destruct (fks2_unchanged from to m ms mt Dms Dmt Wms Wmt (pl_clear_in from to m ms mt P Ims Imt) k2 Hin) as (k3 & Hk3 & Un).
            rewrite En in Hk3. rewrite (same_entry _ _ k3 k (wf_fks _ Wmt) Hk3 Hk) in Un. apply constraint_unchanged in Un.
            assert (Hs2 : In (k_name k, k2) (t_constraints ms)).
            { apply fks2_incl in Hin. apply Facts.dvals_in in Hin as (y & Hy). pose proof (wf_fks_named _ Wms y k2 Hy). subst y. rewrite En in Hy. exact Hy. }
            destruct (Tl m ms mt (k_name k) k2 k Ims Imt Hs2 Hk Un) as (R1 & R2 & R3).
            apply (fks2_stays m ms mt k2 n cn s t a b Dms Dmt Hin); auto. unfold fk_uses in *. rewrite R1, R2, R3. exact U.
          + apply Own. exact (strip_adds_incl _ _ m ms mt Wms Wmt k2 Hin).
          + apply Own. eapply (cyc_adds_incl from to P m ms mt Dmt), Hin.
        - destruct (M m mm Dmm) as (mt' & Dmt' & F). rewrite Dms in F. assert (mt' = mt) by congruence. subst mt'.
          destruct (same_stable mm mt Wmm Wmt F) as (_ & _ & Ek). exists k. rewrite Ek. auto. }
      destruct K as (k2 & Hk2 & U2).
      (* the column of the server *)
      assert (R : retyped mid to n cn).
      { exists nm, t, a, b. split; [apply dget_in, Dnm|]. split; [exact It|]. split; [|auto].
        destruct (Fm n s t nm Ds Dt Dnm) as ((_ & _ & _ & PC & _) & _).
        apply (settled_cols s t nm Ws Wt' Wnm PC). exists (cn, a). left. cbn [fst snd].
        split; [exact Ha|]. pose proof (proj2 (dget_iff _ _ _ (wf_cols _ Wt')) Hb) as Db.
        split; [rewrite dmem_dget, Db; reflexivity|]. split; [|reflexivity]. unfold kept_col. cbn [fst snd]. rewrite Db.
        assert (Q : chb a b = false).
        { unfold chb, column_changed. destruct (String.eqb_spec (column_str a) (column_str b)); [reflexivity|].
          destruct DS as [DS|DS]; [contradiction|]. rewrite DS. reflexivity. }
        rewrite Q. reflexivity. }
      (* so it is cycled *)
      assert (C : In k2 (cyc_src mid to m mm)).
      { apply (cyc_src_in mid to m mm k2 Wmm). rewrite (wf_fks_named _ Wmm _ _ Hk2). split; [exact Hk2|].
        unfold cycle_of. rewrite (uses_changing mid to m k2 n cn Wm Wt U2 R), Dmt, (proj2 (dget_iff _ _ _ (wf_fks _ Wmt)) Hk). eauto. }
      assert (Z : In (OAlter (mkAlter m (map RemoveConstraint (cyc_src mid to m mm)))) (drops_list mid to)).
      { unfold drops_list. apply in_concat. exists (drops_of mid to (m, mm)). split; [apply in_map, dget_in, Dmm|].
        apply alter1_in. split; [reflexivity|]. cbn [fst snd]. intros Z. apply map_eq_nil in Z. rewrite Z in C. destruct C. }
      rewrite Ed in Z. destruct Z.
    - intros n s t Is It.
      apply (dget_iff _ _ _ (wf_names _ Wf)) in Is as Ds. apply (dget_iff _ _ _ (wf_names _ Wt)) in It as Dt.
      destruct (T n t Dt) as (m & Dm). destruct (Fm n s t m Ds Dt Dm) as ((_ & _ & _ & _ & EK) & _ & Fn).
      apply (key_ops_needs s t m); auto.
      + apply (wf_named _ Wf n s Is).
      + apply (wf_named _ Wt n t It).
      + apply (wf_named _ Wm n m (dget_in _ _ _ Dm)).
      + apply (Di (n, s)). auto.
      + apply (Di (n, t)). auto.
      + destruct (key_ops m t) as [|o l] eqn:Q; [reflexivity|]. exfalso.
        assert (Z : In (OAlter (mkAlter n (kitchen_list m t))) (updates_list mid to)).
        { unfold updates_list. apply in_concat. exists (removed_of mid to (n, m) +++ kitchen_of to (n, m)). split.
          - apply (in_map (fun p => removed_of mid to p +++ kitchen_of to p)). apply in_common. split; [apply dget_in, Dm|eauto].
          - apply in_app_iff. right. apply alter1_in. cbn [fst snd]. rewrite (tgt_of_eq to n m t Dt). split; [reflexivity|].
            unfold kitchen_list. rewrite Q. intros Z. do 3 apply app_eq_nil in Z as [_ Z]. discriminate Z. }
        rewrite Eu in Z. destruct Z.
  Qed.

  (** *** C12 *)
  Definition has_change (o : op) : Prop := exists a c, o = OAlter a /\ In (ChangeColumn c) (al_ops a).

  Lemma no_change_fks n (f : constraint -> aop) l o : (forall k c, f k <> ChangeColumn c) ->
    In o (alter1 n (map f l)) -> ~ has_change o.
  Proof.
    intros Hf H (a & c & E & Hc). apply alter1_in in H as [H _]. rewrite H in E. injection E as <-. simpl in Hc.
    apply in_map_iff in Hc as (k & E & _). exact (Hf k c E).
  Qed.
  Lemma no_change_concat {X} (f : X -> list op) l o :
    (forall x o, In o (f x) -> ~ has_change o) -> In o (concat (map f l)) -> ~ has_change o.
  Proof. intros H Ho. apply in_concat in Ho as (y & Hy & Ho). apply in_map_iff in Hy as (x & <- & _). eapply H; eauto. Qed.

  Lemma creates_no_change o : In o (creates_list from to) -> ~ has_change o.
  Proof. intros H (a & c & E & _). apply in_map_iff in H as (p & <- & _). discriminate. Qed.
  Lemma gone_no_change o : In o (gone_list from to) -> ~ has_change o.
  Proof. intros H (a & c & E & _). apply in_map_iff in H as (p & <- & _). discriminate. Qed.
  Lemma drops_no_change o : In o (drops_list from to) -> ~ has_change o.
  Proof. apply no_change_concat. intros p o'. apply no_change_fks. discriminate. Qed.
  Lemma added_no_change o : In o (added_list from to) -> ~ has_change o.
  Proof. apply no_change_concat. intros p o'. apply no_change_fks. discriminate. Qed.
  Lemma readds_no_change o : In o (readds_list from to) -> ~ has_change o.
  Proof. apply no_change_concat. intros p o'. apply no_change_fks. discriminate. Qed.

  (** The operations before a column change: creations, cycled drops, and updates. *)
  Lemma before_change disable pre o post :
    plan_list from to disable = pre +++ o :: post -> has_change o ->
    exists U U', pre = (if disable then [ODisable] else []) +++ creates_list from to +++ drops_list from to +++ U
      /\ updates_list from to = U +++ o :: U'.
  Proof.
    intros E Hc. symmetry in E. unfold plan_list, body_list in E.
    apply (split_skip has_change) in E as (p1 & -> & E); [|exact Hc|].
    2:{ intros x Hx. destruct disable; [|destruct Hx]. destruct Hx as [<-|[]]. intros (a & c & Ex & _). discriminate. }
    symmetry in E. apply (split_stop has_change) in E as (q1 & E & _); [|exact Hc|].
    2:{ intros x Hx. destruct disable; [|destruct Hx]. destruct Hx as [<-|[]]. intros (a & c & Ex & _). discriminate. }
    symmetry in E.
    apply (split_skip has_change) in E as (p2 & -> & E); [|exact Hc|apply creates_no_change].
    symmetry in E.
    apply (split_skip has_change) in E as (p3 & -> & E); [|exact Hc|apply drops_no_change].
    symmetry in E. apply (split_stop has_change) in E as (q2 & E & _); [|exact Hc|].
    2:{ intros x Hx. rewrite !in_app_iff in Hx. destruct Hx as [Hx|[Hx|Hx]];
        [apply added_no_change|apply readds_no_change|apply gone_no_change]; assumption. }
    exists p3, q2. auto.
  Qed.

  Lemma on_disable n (disable : bool) : filter (on n) (if disable then [ODisable] else []) = [].
  Proof. destruct disable; reflexivity. Qed.

  Lemma no_hazard disable ops pre a post s' :
    plan_tables disable to (Some from) = Ok ops -> ops = pre +++ OAlter a :: post ->
    exec_all pre (server_of from) = Some s' ->
    (forall n s t k tn cn, In (n, s) from -> In (n, t) to -> In k (dvals (t_constraints s)) ->
       fk_uses n k tn cn -> retyped from to tn cn ->
       In (k_name k) (dkeys (t_constraints t)) \/ exists b, In b (dvals (t_constraints t)) /\ same_ref k b) ->
    (forall n t k tn cn, In (n, t) to -> ~ In n (dkeys from) -> In k (dvals (t_constraints t)) ->
       fk_uses n k tn cn -> ~ retyped from to tn cn) ->
    ~ hazard s' a.
  Proof.
    intros E Eo X H1 H2 (c & old & st & m & mt & k & Hc & Est & Hold & En & Nt & Em & Hk & U).
    apply plan_iff in E as [Cm E]; auto. rewrite E in Eo. clear E ops.
    destruct (before_change disable pre (OAlter a) post Eo) as (Up & Up' & Ep & Eu); [exists a, c; auto|].
    (* which alter this is *)
    assert (Ia : In (OAlter a) (updates_list from to)) by (rewrite Eu, in_app_iff; right; left; reflexivity).
    unfold updates_list in Ia. apply in_concat in Ia as (l & Hl & Ia). apply in_map_iff in Hl as ([n s] & <- & Hp).
    apply in_common in Hp as [Is (t & Dt)]. apply in_app_iff in Ia as [Ia|Ia].
    { exfalso. apply (no_change_fks _ RemoveConstraint _ _ ltac:(discriminate) Ia). exists a, c. auto. }
    apply alter1_in in Ia as [[= ->] _]. cbn [al_table al_ops fst snd] in *. rewrite (tgt_of_eq to n s t Dt) in *.
    apply (dget_iff _ _ _ (wf_names _ Wf)) in Is as Ds. apply dget_in in Dt as It.
    pose proof (wf_named _ Wf n s Is) as [_ Ws]. pose proof (wf_named _ Wt n t It) as [_ Wt'].
    pose proof (exec_all_local_inv _ _ _ X) as L.
    (* the state of table n *)
    assert (Ln : exists fks, st = st_src s fks).
    { specialize (L n). rewrite Est in L. rewrite Ep, !filter_app, on_disable, on_creates, on_drops in L by assumption.
      rewrite Ds in L. simpl app in L. pose proof (filter_prefix (on n) Up (OAlter (mkAlter n (kitchen_list s t)) :: Up') _ (eq_sym Eu)) as F.
      rewrite on_updates, Ds, Dt in F by assumption. simpl in F. unfold on at 2 in F. simpl in F. rewrite String.eqb_refl in F.
      apply (split_skip has_change) in F as (p & Fp & F); [|exists (mkAlter n (kitchen_list s t)), c; auto|].
      2:{ intros x Hx. eapply no_change_fks, Hx. discriminate. }
      assert (p = []).
      { unfold kitchen_of in F. rewrite alter1_eq in F. destruct (list_is_nil _); [destruct p; discriminate|].
        destruct p as [|y p]; [reflexivity|]. simpl in F. injection F as _ F. destruct p; discriminate. }
      subst p. rewrite app_nil_r in Fp. rewrite Fp in L. unfold server_of in L. rewrite Ds in L. cbn [option_map] in L.
      rewrite run_all_app, run_drops_of in L by assumption. rewrite run_removed_of with (t := t) in L by assumption.
      injection L as <-. eauto. }
    destruct Ln as (fks & ->). cbn [st_src st_cols] in Hold.
    (* the changed column is retyped *)
    assert (R : retyped from to n (c_name c)).
    { unfold kitchen_list in Hc. rewrite !in_app_iff in Hc. destruct Hc as [Hc|[Hc|[Hc|Hc]]].
      - apply in_map_iff in Hc as (x & Ex & _). discriminate.
      - apply in_map_iff in Hc as (b & [= ->] & Hb). apply changed_cols_in in Hb as (x & a0 & Ha & Db & _).
        apply dget_in in Db. rewrite (wf_cols_named _ Wt' x c Db) in *.
        apply dvals_in in Hold as (y & Hold). rewrite (wf_cols_named _ Ws y old Hold) in En. subst y.
        exists s, t, old, c. auto 10.
      - apply in_map_iff in Hc as (x & Ex & _). discriminate.
      - apply key_ops_kind in Hc. discriminate. }
    pose proof (uses_changing from to m k n (c_name c) Wf Wt U R) as Ch.
    (* the foreign key *)
    specialize (L m). rewrite Em in L. rewrite Ep, !filter_app, on_disable, on_creates, on_drops in L by assumption.
    pose proof (filter_prefix (on m) Up (OAlter (mkAlter n (kitchen_list s t)) :: Up') _ (eq_sym Eu)) as F.
    rewrite on_updates in F by assumption.
    assert (Cyc : forall ms, dget m from = Some ms -> In k (fks1 from to m ms) -> False).
    { intros ms Dms Hk1. apply fks1_in in Hk1 as [Hk1 Nk]. apply dvals_in in Hk1 as (kn & Hk1).
      pose proof (dget_in _ _ _ Dms) as Ims. pose proof (wf_named _ Wf m ms Ims) as [_ Wms].
      pose proof (wf_fks_named _ Wms kn k Hk1) as Ek. subst kn. apply Nk, in_map. apply cyc_src_in; [exact Wms|].
      split; [exact Hk1|]. unfold cycle_of. rewrite Ch. destruct (dget m to) as [mtt|] eqn:Dmt; [|eauto].
      destruct (dget (k_name k) (t_constraints mtt)) as [k'|] eqn:Dk; [eauto|].
      destruct (H1 m ms mtt k n (c_name c) Ims (dget_in _ _ _ Dmt) (in_dvals _ _ _ Hk1) U R) as [Hin|(b & Hb & SR)].
      - apply dget_none in Dk. contradiction.
      - unfold find_matching. destruct (find _ _) eqn:Fd; [eauto|]. exfalso.
        apply (find_none _ _ Fd) in Hb. assert (same_reference b k = true) by (apply same_reference_iff, SR). congruence. }
    unfold server_of in L. destruct (dget m from) as [ms|] eqn:Dms; cbn [option_map] in L.
    - simpl app in L. rewrite run_all_app, run_drops_of in L by assumption.
      destruct (dget m to) as [mtt|] eqn:Dmt.
      + apply app_split in F as [(q & F)|(p & F & F2)].
        * unfold removed_of in F. symmetry in F. apply alter1_prefix in F as [F|F].
          -- rewrite F in L. injection L as <-. cbn in Hk. eapply Cyc; eauto.
          -- rewrite F in L. fold (removed_of from to (m, ms)) in L. rewrite run_removed_of with (t := mtt) in L by assumption.
             injection L as <-. cbn in Hk. apply (Cyc ms eq_refl). unfold fks2 in Hk. apply filter_In in Hk. tauto.
        * rewrite F, run_all_app, run_removed_of with (t := mtt) in L by assumption.
          apply alter1_prefix in F2 as [->|F2].
          -- injection L as <-. cbn in Hk. apply (Cyc ms eq_refl). unfold fks2 in Hk. apply filter_In in Hk. tauto.
          -- destruct (run_kitchen_of from to P Cm m ms mtt Dms Dmt) as (C & K & _ & RK). rewrite F2 in L.
             unfold kitchen_of in RK. rewrite RK in L. injection L as <-. cbn in Hk.
             apply (Cyc ms eq_refl). unfold fks2 in Hk. apply filter_In in Hk. tauto.
      + apply app_eq_nil in F as [F _]. rewrite F in L. injection L as <-. cbn in Hk. eapply Cyc; eauto.
    - apply app_eq_nil in F as [F _]. rewrite F in L. simpl app in L. rewrite app_nil_r in L.
      destruct (dget m to) as [mtt|] eqn:Dmt; [|discriminate].
      pose proof (dget_in _ _ _ Dmt) as Imt. simpl in L. rewrite exec_create_wf in L by apply (wf_named _ Wt m mtt Imt).
      injection L as <-. cbn in Hk. apply (H2 m mtt k n (c_name c) Imt); auto. apply dget_none, Dms.
  Qed.
End More.
