(** A run of [apply] that stopped half way, and the run that finishes it (C106): the structure. *)
From Verif Require Import RowFacts SpecRows SpecLive PropsRows Samples RoundRows StoredFacts DiffMore PlanMore PropsPlan AgainFacts ResumeFacts PropsCommand PropsLive PropsRound PropsWrite PropsCreate PropsMany CliFacts PropsCli PropsSeen PropsAgain.

Local Opaque max_turns max_statements.

Section Shown.
  Context {FO : FloatOracle} (old : list column) (used : string -> Prop) (st : stable) (T : tmeaning).
  Hypothesis (Sh : shown_table old used st T).
  Variables (f t : table) (Tf : tmeaning).
  Hypothesis (Rf : read_table f T false) (Wt : wf_table t).
  Hypothesis (Rt : exists u, read_table u Tf true /\ same_definition u t).
  Hypothesis (Or : forall c, In c (st_cols st) -> plainly c /\ (In c (dvals (t_columns t)) \/ In c old)).

  Lemma shown_as n a0 a1 b : In (n, a0) (t_columns (held (tm_name T) st)) -> In (n, a1) (t_columns f) -> In (n, b) (t_columns t) ->
    (column_changed a1 b = column_changed a0 b \/ column_changed a1 b = Ok false)
    /\ (used n -> type_attrs a1 <> type_attrs b -> type_attrs a0 <> type_attrs b) /\ (type_attrs a0 <> type_attrs b -> type_attrs a1 <> type_attrs b).
  Proof.
    intros I0 I1 Ib. destruct (shown_at old used st T Sh f Rf n a1 I1) as (c & m & Ic & Nc & H & S). apply named_pair in I0 as [I0 N0].
    assert (c = a0) by (apply (same_named c_name (st_cols st)); auto; [rewrite (shown_names old used st T Sh); apply (rd_sound _ _ _ Rf)|congruence]). subst c.
    rewrite <- !type_differs_iff. destruct H as [M|m0 No M R U].
    - destruct (said_same a0 a1 m b M (proj1 (Or a0 I0)) S) as [-> ->]. auto.
    - destruct (shown_new old st t Tf Wt Rt Or a0 m0 b n I0 N0 No M Ib) as [-> S0]. split; [right; apply (column_quiet m0 m b a1 S0 S R)|]. split.
      + intros Us Q. rewrite (steady_type m0 m b a1 S0 S R (U Us)) in Q. discriminate.
      + intros Q. rewrite type_differs_iff in Q. contradiction.
  Qed.
  Lemma shown_primary : plain_table T -> (forall i, In i (tm_keys Tf) -> ix_columns i <> [] /\ Forall (fun c => has_char bquote c = false) (ix_columns i)) ->
    primary_kept (held (tm_name T) st) t -> primary_kept f t.
  Proof.
    intros P Kc H a b Ia Ib En Ea. apply dvals_in in Ia as (n & Ia). destruct (read_key_at f T false Rf n a Ia) as (i & Ii & Ni & Al). destruct (matches_there _ _ _ _ (sh_keys _ _ _ _ Sh) Ii) as (i0 & I0 & S0 & S1 & S2).
    pose proof (alike_ix_name _ _ Al) as Nx. pose proof Al as (_ & A1 & A2). assert (N0 : ix_name i0 = ix_name b) by congruence.
    assert (X : same_index i0 b \/ index_str i0 = index_str b).
    { apply H; [unfold held, dvals; cbn [t_indexes]; rewrite map_map; cbn [snd]; rewrite map_id; exact I0|exact Ib|exact N0|congruence]. }
    left. destruct X as [[X1 X2]|X]; [split; congruence|]. pose proof (index_str_type _ _ X) as Xt. split; [|congruence].
    assert (Ei : ix_columns a = ix_columns i0) by congruence. rewrite Ei. apply dvals_in in Ib as (k & Ib). destruct (target_key t Tf Rt k b Ib) as (j & J & _ & E & _). destruct (Kc j J) as [K1 K2]. rewrite E in K1, K2.
    pose proof (pt_keys _ P) as K. rewrite Forall_forall in K. destruct (py_columns _ (K i Ii)) as [K3 K4].
    apply index_str_columns; auto; rewrite <- S1; [exact K3|]. revert K4. apply Forall_impl. apply clean_tickless.
  Qed.
End Shown.

Section Structure.
  Context {FO : FloatOracle}.
  (** Where the columns of a half-changed table are from. *)
  Lemma middle_column from to disable ops pre post s n st t c : plannable from to -> plan_tables disable to (Some from) = Ok ops -> ops = pre +++ post ->
    exec_all pre (server_of from) = Some s -> s n = Some st -> dget n to = Some t -> In c (st_cols st) ->
    In c (dvals (t_columns t)) \/ exists old, dget n from = Some old /\ In c (dvals (t_columns old)).
  Proof.
    intros P E Eo X Es Dt Ic. apply plan_iff in E as [Cm E]; try apply P. rewrite E in Eo. symmetry in Eo. pose proof (prefix_mid from to P Cm disable pre post s Eo X n) as M.
    rewrite Es in M. remember (Some st) as v eqn:Ev. destruct M as [Ds Dt'|t' Ds Dt'|t' Ds Dt'|u Ds Dt'|u fks Ds I|u t' C K fks Ds Dt' Ok I]; try discriminate; injection Ev as <-.
    - left. assert (t' = t) by congruence. subst t'. exact Ic.
    - right. exists u. split; [exact Ds|exact Ic].
    - assert (t' = t) by congruence. subst t'. cbn [st_cols] in Ic. destruct Ok as (_ & _ & _ & Pm & _). rewrite Pm in Ic. apply in_app_iff in Ic as [Ic|Ic].
      + unfold kept_cols in Ic. apply in_map_iff in Ic as ([x a] & <- & Ic). apply filter_In in Ic as [Ic Hd]. cbn [fst] in Hd. unfold kept_col. cbn [fst snd]. rewrite dmem_dget in Hd. destruct (dget x (t_columns t)) as [b|] eqn:D; [|discriminate].
        destruct (chb a b); [left; apply dget_in in D; apply (in_map snd _ _ D)|right; exists u; split; [exact Ds|apply (in_map snd _ _ Ic)]].
      + left. apply in_map_iff in Ic as (p & <- & Ic). unfold only_in in Ic. apply filter_In in Ic as [Ic _]. apply in_map. exact Ic.
  Qed.
  (** The columns that a half-changed table has: those of the target, or those it had. *)
  Lemma middle_names from to disable ops pre post s n st t cn : plannable from to -> plan_tables disable to (Some from) = Ok ops -> ops = pre +++ post ->
    exec_all pre (server_of from) = Some s -> s n = Some st -> dget n to = Some t -> In cn (dkeys (t_columns t)) ->
    (forall old, dget n from = Some old -> In cn (dkeys (t_columns old))) -> In cn (map c_name (st_cols st)).
  Proof.
    intros P E Eo X Es Dt Ic Io. apply plan_iff in E as [Cm E]; try apply P. rewrite E in Eo. symmetry in Eo. pose proof (prefix_mid from to P Cm disable pre post s Eo X n) as M.
    pose proof (pl_from _ _ P) as Wf. pose proof (pl_to _ _ P) as Wt.
    assert (G : forall d u, wf_tables d -> dget n d = Some u -> In cn (dkeys (t_columns u)) -> exists c, In c (dvals (t_columns u)) /\ c_name c = cn).
    { intros d u Wd Du I. apply dget_in in Du. pose proof (wf_named _ Wd n u Du) as [_ Wu]. apply dkeys_in in I as (c & I). exists c. split; [apply (in_map snd _ _ I)|]. apply (wf_cols_named _ Wu cn c I). }
    rewrite Es in M. remember (Some st) as v eqn:Ev. destruct M as [Ds Dt'|t' Ds Dt'|t' Ds Dt'|u Ds Dt'|u fks Ds I|u t' C K fks Ds Dt' Ok I]; try discriminate; injection Ev as <-.
    - assert (t' = t) by congruence. subst t'. destruct (G to t Wt Dt Ic) as (c & H & <-). apply in_map, H.
    - destruct (G from u Wf Ds (Io u Ds)) as (c & H & <-). apply in_map, H.
    - assert (t' = t) by congruence. subst t'. destruct (G to t Wt Dt Ic) as (c & H & Nc). destruct Ok as (Mc & _). destruct (matches_there _ _ _ _ Mc H) as (a & Ia & Q). cbn [st_cols].
      apply in_map_iff. exists a. split; [|exact Ia]. rewrite <- Nc. apply Q.
  Qed.

  Definition read_target (t : table) : Prop := exists Tf u, read_table u Tf true /\ same_definition u t
    /\ forall i, In i (tm_keys Tf) -> ix_columns i <> [] /\ Forall (fun c => has_char bquote c = false) (ix_columns i).
  Lemma resume_plan us Ts to ops pre post s us' Ts' : Forall2 (fun t T => read_table t T false) us Ts -> (forall n t, In (n, t) to -> read_target t) ->
    plannable (entries us) to -> plan_tables false to (Some (entries us)) = Ok ops -> ops = pre +++ post -> exec_all pre (server_of (entries us)) = Some s ->
    Forall2 (fun t T => read_table t T false) us' Ts' -> NoDup (map tm_name Ts') -> Forall plain_table Ts' -> shows (server_of (entries us)) s Ts' ->
    plannable (entries us') to /\ all_comparable (entries us') to.
  Proof.
    intros R Ft P E Eo X R' N' P' Sw.
    assert (So : Forall sound_table Ts') by (eapply Forall_impl; [|exact P']; intros T H; apply H).
    pose proof (held_of_wf _ s Ts' N' Sw So) as W0.
    assert (W1 : wf_tables (entries us')).
    { split; [rewrite entries_keys, (read_names _ _ _ R'); exact N'|]. intros n t I. destruct (entries_at _ _ _ _ _ R' I) as (T & _ & Nm & Q). split; [rewrite <- Nm; apply Q|apply (read_wf t T false Q)]. }
    pose proof (pl_to _ _ P) as Wt.
    destruct (plan_resumes (entries us) to P false ops pre post s (held_of s Ts') E Eo X W0 (holds_held _ s Ts' N' Sw)) as [P0 C0].
    (* what is held and what is read *)
    assert (Pair : forall n m1, In (n, m1) (entries us') -> exists T st, In T Ts' /\ tm_name T = n /\ s n = Some st /\ In (n, held n st) (held_of s Ts') /\ read_table m1 T false
               /\ shown_table (columns_of (server_of (entries us)) n) (in_use s n) st T).
    { intros n m1 I1. destruct (entries_at _ _ _ _ _ R' I1) as (T & IT & NT & Rm). destruct (proj2 Sw T IT) as (st & Es & Sh). subst n. exists T, st. repeat (split; [assumption || reflexivity|]). split; [|auto].
      apply in_map_iff. exists T. rewrite Es. auto. }
    assert (Back : forall n m0, In (n, m0) (held_of s Ts') -> exists m1, In (n, m1) (entries us')).
    { intros n m0 I0. apply dkeys_in. rewrite entries_keys, (read_names _ _ _ R'), <- (held_of_keys s). apply in_dkeys with (v := m0), I0. }
    assert (Same : forall n m0 st, In (n, m0) (held_of s Ts') -> s n = Some st -> m0 = held n st).
    { intros n m0 st I0 Es. destruct (held_of_at _ s Ts' n m0 Sw I0) as (T & st' & _ & _ & Es' & -> & _). congruence. }
    assert (Tab : forall n m1 t st T, In (n, m1) (entries us') -> In (n, t) to -> In T Ts' -> tm_name T = n -> s n = Some st -> read_table m1 T false -> shown_table (columns_of (server_of (entries us)) n) (in_use s n) st T ->
      forall cn a0 a1 b, In (cn, a0) (t_columns (held n st)) -> In (cn, a1) (t_columns m1) -> In (cn, b) (t_columns t) ->
        (column_changed a1 b = column_changed a0 b \/ column_changed a1 b = Ok false)
        /\ (in_use s n cn -> type_attrs a1 <> type_attrs b -> type_attrs a0 <> type_attrs b) /\ (type_attrs a0 <> type_attrs b -> type_attrs a1 <> type_attrs b)).
    { intros n m1 t st T I1 It IT NT Es Rm Sh cn a0 a1 b Ia0 Ia1 Ib. destruct (Ft n t It) as (Tf & u & Ru & Su & _).
      assert (Or : forall c, In c (st_cols st) -> plainly c /\ (In c (dvals (t_columns t)) \/ In c (columns_of (server_of (entries us)) n))).
      { intros c Ic. destruct (middle_column _ _ _ _ _ _ _ _ _ t c P E Eo X Es (proj2 (dget_iff _ _ _ (wf_names _ Wt)) It) Ic) as [H|(o & Go & H)].
        - split; [|left; exact H]. apply dvals_in in H as (k & H). destruct Su as (_ & Ec & _). rewrite Ec in H. destruct (read_column_at u Tf true Ru _ c H) as (m & _ & _ & Q). apply Q.
        - split; [|right; unfold columns_of, server_of; rewrite Go; cbn [option_map stable_of st_cols]; exact H]. apply dvals_in in H as (k & H).
          apply dget_in in Go. destruct (entries_at _ _ _ _ _ R Go) as (T0 & _ & _ & R0). destruct (read_column_at o T0 false R0 _ c H) as (m & _ & _ & Q). apply Q. }
      subst n. apply (shown_as _ _ st T Sh m1 t Tf Rm (proj2 (wf_named _ Wt _ _ It)) (ex_intro _ u (conj Ru Su)) Or cn a0 a1 b Ia0 Ia1 Ib). }
    (* columns *)
    assert (Col : forall n m1 st T, In (n, m1) (entries us') -> read_table m1 T false -> shown_table (columns_of (server_of (entries us)) n) (in_use s n) st T ->
      forall cn, In cn (dkeys (t_columns (held n st))) <-> In cn (dkeys (t_columns m1))).
    { intros n m1 st T _ Rm Sh cn. rewrite (read_column_names m1 T false Rm). cbn [held t_columns]. rewrite named_keys, (shown_names _ _ _ _ Sh). reflexivity. }
    (* foreign keys *)
    assert (Fk : forall n m1 st T a1, In (n, m1) (entries us') -> read_table m1 T false -> shown_table (columns_of (server_of (entries us)) n) (in_use s n) st T -> In a1 (dvals (t_constraints m1)) ->
      exists a0, In a0 (st_fks st) /\ alike_fk a0 a1).
    { intros n m1 st T a1 _ Rm Sh I. apply dvals_in in I as (k & I). destruct (read_fk_at m1 T false Rm k a1 I) as (j & Ij & _ & Al). destruct (matches_there _ _ _ _ (sh_fks _ _ _ _ Sh) Ij) as (a0 & I0 & S0).
      exists a0. split; [exact I0|]. unfold alike_fk in *. intuition congruence. }
    assert (Held : forall n st, dvals (t_constraints (held n st)) = st_fks st) by (intros n st; unfold held, dvals; cbn [t_constraints]; rewrite map_map; cbn [snd]; apply map_id).
    assert (Uses : forall n k k' tn cn, alike_fk k k' -> fk_uses n k tn cn <-> fk_uses n k' tn cn).
    { intros n k k' tn cn (_ & A1 & A2 & A3 & _). unfold fk_uses. rewrite A1, A2, A3. reflexivity. }
    assert (Re1 : forall n st a0 a1, s n = Some st -> In a0 (st_fks st) -> alike_fk a0 a1 -> uses_retyped (entries us') to n a1 -> uses_retyped (held_of s Ts') to n a0).
    { intros n st a0 a1 Es Ia Al (tn & cn & U & (m1 & t & x & y & I1 & It & Ix & Iy & Ne)). apply (Uses n a0 a1 tn cn Al) in U. exists tn, cn. split; [exact U|].
      destruct (Pair tn m1 I1) as (T & st2 & IT & NT & Es2 & I0 & Rm & Sh). pose proof (proj2 (Col tn m1 st2 T I1 Rm Sh cn) (in_dkeys _ _ _ Ix)) as K. apply dkeys_in in K as (x0 & K).
      exists (held tn st2), t, x0, y. repeat (split; [assumption|]). apply (proj1 (proj2 (Tab tn m1 t st2 T I1 It IT NT Es2 Rm Sh cn x0 x y K Ix Iy))); [|exact Ne]. exists n, st, a0. auto. }
    assert (Re0 : forall n a0 a1, alike_fk a0 a1 -> uses_retyped (held_of s Ts') to n a0 -> uses_retyped (entries us') to n a1).
    { intros n a0 a1 Al (tn & cn & U & (m0 & t & x & y & I0 & It & Ix & Iy & Ne)). apply (Uses n a0 a1 tn cn Al) in U. exists tn, cn. split; [exact U|].
      destruct (Back tn m0 I0) as (m1 & I1). destruct (Pair tn m1 I1) as (T & st2 & IT & NT & Es2 & _ & Rm & Sh). rewrite (Same tn m0 st2 I0 Es2) in Ix.
      pose proof (proj1 (Col tn m1 st2 T I1 Rm Sh cn) (in_dkeys _ _ _ Ix)) as K. apply dkeys_in in K as (x1 & K).
      exists m1, t, x1, y. repeat (split; [assumption|]). apply (proj2 (proj2 (Tab tn m1 t st2 T I1 It IT NT Es2 Rm Sh cn x x1 y Ix K Iy))). exact Ne. }
    split.
    - constructor; auto.
      + apply P.
      + intros n m1 t I1 It. destruct (Pair n m1 I1) as (T & st & IT & NT & Es & I0 & Rm & Sh). subst n. destruct (Ft _ t It) as (Tf & u & Ru & Su & Kc). rewrite Forall_forall in P'.
        apply (shown_primary _ _ st T Sh m1 t Tf Rm (ex_intro _ u (conj Ru Su)) (P' T IT) Kc). apply (pl_primary _ _ P0 _ _ _ I0 It).
      + intros n m1 t I1 It a b c (Ia & Na & l & l' & El & Sr & Nl) U Ic Ec. destruct (Pair n m1 I1) as (T & st & IT & NT & Es & I0 & Rm & Sh).
        destruct (Fk n m1 st T a I1 Rm Sh Ia) as (a0 & Ia0 & Ala). destruct (Fk n m1 st T c I1 Rm Sh Ic) as (c0 & Ic0 & Alc).
        apply (Re0 n c0 c Alc). apply (pl_clear _ _ P0 n (held n st) t I0 It a0 b c0).
        * split; [rewrite Held; exact Ia0|]. pose proof Ala as (A0 & A1 & A2 & A3 & _). rewrite A0. split; [exact Na|]. exists l, l'. split; [exact El|]. unfold same_ref in *. rewrite A1, A2, A3. auto.
        * apply (Re1 n st a0 a Es Ia0 Ala U).
        * rewrite Held. exact Ic0.
        * destruct Alc as (A0 & _). congruence.
    - intros n m1 t I1 It cn a1 b Ia Ib. destruct (Pair n m1 I1) as (T & st & IT & NT & Es & I0 & Rm & Sh). pose proof (proj2 (Col n m1 st T I1 Rm Sh cn) (in_dkeys _ _ _ Ia)) as K. apply dkeys_in in K as (a0 & K).
      destruct (Tab n m1 t st T I1 It IT NT Es Rm Sh cn a0 a1 b K Ia Ib) as [[Q|Q] _]; [|eauto]. destruct (C0 n (held n st) t I0 It cn a0 b K Ib) as (v & V). exists v. congruence.
  Qed.
End Structure.
