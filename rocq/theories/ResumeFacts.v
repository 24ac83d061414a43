(** A plan that stopped half way: what is found then can be planned for again (C17). *)
From Verif Require Import DiffMore AgainFacts.
From Verif Require Export LinkFacts.

Section Resume.
  Context {FO : FloatOracle}.
  Variables (from to : tables).
  Hypothesis (P : plannable from to).
  Let Wf := pl_from _ _ P.
  Let Wt := pl_to _ _ P.

  Lemma plan_resumes disable ops pre post s' mid :
    plan_tables disable to (Some from) = Ok ops -> ops = pre +++ post ->
    exec_all pre (server_of from) = Some s' -> wf_tables mid -> holds mid s' ->
    plannable mid to /\ all_comparable mid to.
  Proof.
    intros E Eo X Wm Hm. apply plan_iff in E as [Cm E]; auto. rewrite E in Eo. symmetry in Eo.
    pose proof (prefix_mid from to P Cm disable pre post s' Eo X) as M.
    destruct (stages from to disable P Cm pre post s' Eo X) as (done & todo & Ed & At). clear E ops Eo X.
    assert (Ix : forall n m t, In (n, m) mid -> In (n, t) to -> wf_table m /\ wf_table t /\
              (stable_of m = stable_of t
               \/ (exists s fks, dget n from = Some s /\ wf_table s /\ stable_of m = st_src s fks /\ incl fks (dvals (t_constraints s)))
               \/ (exists s C K, dget n from = Some s /\ wf_table s /\ changed_ok s t C K /\ dvals (t_columns m) = C /\ dvals (t_indexes m) = K
                     /\ incl (dvals (t_constraints m)) (dvals (t_constraints s) +++ dvals (t_constraints t))))).
    { intros n m t Im It. split; [apply (wf_named _ Wm n m Im)|]. split; [apply (wf_named _ Wt n t It)|].
      apply (dget_iff _ _ _ (wf_names _ Wm)) in Im as Dm. apply (dget_iff _ _ _ (wf_names _ Wt)) in It as Dt.
      specialize (M n). pose proof (Hm n) as Em. unfold server_of in Em. rewrite Dm in Em. cbn [option_map] in Em. rewrite <- Em in M.
      remember (Some (stable_of m)) as v eqn:Ev. clear Em.
      destruct M as [Ds Dt'|t' Ds Dt'|t' Ds Dt'|s Ds Dt'|s fks Ds I|s t' C K fks Ds Dt' Ok I]; try discriminate.
      - left. congruence.
      - right. left. exists s, fks. split; [exact Ds|]. split; [apply (wf_named _ Wf n s), dget_in, Ds|]. split; [congruence|exact I].
      - right. right. assert (t' = t) by congruence. subst t'. injection Ev as -> -> ->. exists s. do 2 eexists.
        split; [exact Ds|]. split; [apply (wf_named _ Wf n s), dget_in, Ds|]. split; [exact Ok|]. auto. }
    split.
    - constructor; auto.
      + apply (pl_named _ _ P).
      + intros n m t Im It a b Ha Hb En Ea. destruct (Ix n m t Im It) as (Wm' & Wt' & [F|[(s & fks & Ds & Ws & F & I)|(s & C & K & Ds & Ws & Ok & EC & EK & I)]]).
        * destruct (same_stable m t Wm' Wt' F) as (_ & Ei & _). rewrite Ei in Ha.
          apply dvals_in in Ha as (x & Ha). apply dvals_in in Hb as (y & Hb).
          rewrite (wf_keys_named _ Wt' x a Ha), (wf_keys_named _ Wt' y b Hb) in En. subst y.
          rewrite (same_entry _ _ a b (wf_keys _ Wt') Ha Hb). left; split; reflexivity.
        * injection F as _ Ei _. rewrite Ei in Ha. apply (pl_primary _ _ P n s t (dget_in _ _ _ Ds) It a b Ha Hb En Ea).
        * destruct Ok as (_ & _ & _ & _ & EK'). rewrite EK, EK' in Ha. rewrite !in_app_iff in Ha.
          assert (Self : In a (dvals (t_indexes t)) -> same_index a b \/ index_str a = index_str b).
          { intros Ha'. apply dvals_in in Ha' as (x & Ha'). apply dvals_in in Hb as (y & Hb').
            rewrite (wf_keys_named _ Wt' x a Ha'), (wf_keys_named _ Wt' y b Hb') in En. subst y.
            rewrite (same_entry _ _ a b (wf_keys _ Wt') Ha' Hb'). left; split; reflexivity. }
          destruct Ha as [Ha|[Ha|Ha]].
          -- unfold kept_keys in Ha. apply in_map_iff in Ha as ([x a'] & E & Ha). simpl in E. subst a'.
             apply filter_In in Ha as [Ha _]. apply (pl_primary _ _ P n s t (dget_in _ _ _ Ds) It a b); auto. eapply in_dvals; eauto.
          -- apply Self. apply new_keys_in in Ha as (x & Ha & _). eapply in_dvals; eauto.
          -- apply Self. apply in_map_iff in Ha as ([a0 b0] & E & Ha). simpl in E. subst b0.
             apply changed_keys_in in Ha as (x & _ & Ha & _). apply dget_in in Ha. eapply in_dvals; eauto.
      + intros n m t Im It a b c Sf U Ic Ec'. apply (dget_iff _ _ _ (wf_names _ Wm)) in Im as Dm. apply (dget_iff _ _ _ (wf_names _ Wt)) in It as Dt.
        pose proof (wf_named _ Wm n m Im) as [_ Wm']. pose proof (wf_named _ Wt n t It) as [_ Wt'].
        pose proof Sf as (Ia & Na & F0). pose proof (Hm n) as Em. unfold server_of in Em. rewrite Dm in Em. cbn [option_map] in Em.
        pose proof (At n) as An. rewrite <- Em in An. unfold table_at in An. rewrite Dt in An.
        assert (Nt : ~ In a (dvals (t_constraints t))).
        { intros H. apply Na. rewrite <- (src_fk_names t Wt'). apply in_map, H. }
        assert (Uf : uses_retyped from to n a).
        { destruct U as (tn & cn & U & (m2 & t2 & x & y & Im2 & It2 & Ix2 & Iy2 & Ny)). exists tn, cn. split; [exact U|].
          destruct (Ix tn m2 t2 Im2 It2) as (Wm2 & Wt2 & F).
          assert (Self : In (cn, x) (t_columns t2) -> False).
          { intros H. apply Ny. rewrite (same_entry _ _ x y (wf_cols _ Wt2) H Iy2). reflexivity. }
          destruct F as [F|[(s & fks & Ds & Ws & F & I)|(s & C & K & Ds & Ws & Ok & EC & EK & I)]].
          - destruct (same_stable m2 t2 Wm2 Wt2 F) as (Ecl & _). exfalso. apply Self. rewrite <- Ecl. exact Ix2.
          - injection F as Ecl _ _. exists s, t2, x, y. split; [apply dget_in, Ds|]. split; [exact It2|]. split; [|auto].
            rewrite <- (same_dict c_name _ _ (wf_cols_named _ Wm2) (wf_cols_named _ Ws) Ecl). exact Ix2.
          - destruct (changed_col_origin s t2 C K cn x m2 Ws Wt2 Wm2 Ok EC Ix2) as [H|H]; [|contradiction (Self H)].
            exists s, t2, x, y. split; [apply dget_in, Ds|]. auto. }
        destruct (dget n from) as [s|] eqn:Ds.
        2: { exfalso. apply Nt. destruct An as [[An _]|An]; [discriminate|]. injection An as _ _ <-. exact Ia. }
        pose proof (dget_in _ _ _ Ds) as Is. pose proof (wf_named _ Wf n s Is) as [_ Ws].
        assert (Cy : In a (fks1 from to n s) -> False).
        { intros H. apply fks1_in in H as [H Nc]. apply Nc. assert (Sf' : stands_for s t a b) by (split; [exact H|split; [exact Na|exact F0]]).
          destruct (proj1 (stands_for_iff from to n s t a b Wf Wt Dt Ws Wt') (conj Sf' Uf)) as [Hc _].
          apply in_map. unfold cyc_src. apply in_map_iff. eexists. split; [|exact Hc]. reflexivity. }
        destruct An as [(Tn & fks & Ev & I & D)|(Dn & C & K & fks & Ev & Ok & D)].
        * injection Ev as _ _ Ek. rewrite Ek in *. destruct D as [D|D]; [|contradiction (Cy (D a Ia))]. subst done.
          assert (Sf' : stands_for s t a b) by (split; [apply I, Ia|split; [exact Na|exact F0]]).
          destruct (pl_clear _ _ P n s t Is It a b c Sf' Uf (I c Ic) Ec') as (tn & cn & U' & (s2 & t2 & x & y & Is2 & It2 & Ix2 & Iy2 & Ny)).
          exists tn, cn. split; [exact U'|]. apply (dget_iff _ _ _ (wf_names _ Wf)) in Is2 as Ds2. apply (dget_iff _ _ _ (wf_names _ Wt)) in It2 as Dt2.
          specialize (At tn). unfold table_at in At. rewrite Ds2, Dt2 in At. destruct At as [(_ & fks' & E' & _)|[[] _]].
          destruct (holds_get mid s' tn _ Hm E') as (m2 & Dm2 & E2). injection E2 as E2 _ _. apply dget_in in Dm2.
          exists m2, t2, x, y. split; [exact Dm2|]. split; [exact It2|]. split; [|auto].
          rewrite (same_dict c_name _ _ (wf_cols_named _ (proj2 (wf_named _ Wm tn m2 Dm2))) (wf_cols_named _ (proj2 (wf_named _ Wf tn s2 Is2))) E2). exact Ix2.
        * exfalso. injection Ev as _ _ Ek. rewrite Ek in *. destruct D as [->|[_ D]].
          -- apply Cy. apply fks1_in. apply fks2_in in Ia. tauto.
          -- destruct (final_fks_in from to n s t Ds Dt Ws Wt' (pl_clear_in _ _ n s t P Is It) a (D a Ia)) as (b' & Hb' & _). apply Na. eapply in_dkeys; eauto.
    - intros n m t Im It x a b Ha Hb. destruct (Ix n m t Im It) as (Wm' & Wt' & [F|[(s & fks & Ds & Ws & F & I)|(s & C & K & Ds & Ws & Ok & EC & EK & I)]]).
      + destruct (same_stable m t Wm' Wt' F) as (Ec & _). rewrite Ec in Ha.
        rewrite (same_entry _ x a b (wf_cols _ Wt') Ha Hb). exists false. apply column_changed_refl.
      + injection F as Ec _ _. apply (Cm n s t (dget_in _ _ _ Ds) It x a b); auto.
        rewrite <- (same_dict c_name _ _ (wf_cols_named _ Wm') (wf_cols_named _ Ws) Ec). exact Ha.
      + destruct (changed_col_origin s t C K x a m Ws Wt' Wm' Ok EC Ha) as [Ha'|Ha'].
        * apply (Cm n s t (dget_in _ _ _ Ds) It x a b); auto.
        * rewrite (same_entry _ x a b (wf_cols _ Wt') Ha' Hb). exists false. apply column_changed_refl.
  Qed.
End Resume.
