(** Proofs behind C87-C89 and the exact form of C12. *)
From Verif Require Export LinkFacts.
From Verif Require Import AgainFacts.

Lemma matched_back {A} (R : A -> A -> Prop) have want b : SpecDiff.matches R have want -> In b want -> exists a, In a have /\ R a b.
Proof.
  intros (l & Ph & Pw & H) I. apply (Permutation_in _ (Permutation_sym Pw)) in I. apply in_map_iff in I as ([a b'] & <- & I). cbn [snd].
  exists a. split; [|apply H, I]. apply (Permutation_in _ Ph). apply (in_map fst) in I. exact I.
Qed.
Lemma matched_there {A} (R : A -> A -> Prop) have want a : SpecDiff.matches R have want -> In a have -> exists b, In b want /\ R a b.
Proof.
  intros (l & Ph & Pw & H) I. apply (Permutation_in _ (Permutation_sym Ph)) in I. apply in_map_iff in I as ([a' b] & <- & I). cbn [fst].
  exists b. split; [|apply H, I]. apply (Permutation_in _ Pw). apply (in_map snd) in I. exact I.
Qed.

Lemma concat_at {A B} (f : A -> list B) : forall l u o v, concat (map f l) = u +++ o :: v ->
  exists l1 x l2 u1 u2, l = l1 +++ x :: l2 /\ u = concat (map f l1) +++ u1 /\ f x = u1 +++ o :: u2.
Proof.
  induction l as [|x l IH]; intros u o v E; simpl in E; [destruct u; discriminate|]. symmetry in E.
  change (u +++ o :: v) with (u +++ [o] +++ v) in E. rewrite app_assoc in E. apply app_split in E as [(q & E)|(p & E1 & E2)].
  - exists [], x, l, u, q. split; [reflexivity|]. split; [reflexivity|]. rewrite E, <- app_assoc. reflexivity.
  - destruct p as [|y p].
    + exists [], x, l, u, []. split; [reflexivity|]. split; [reflexivity|]. rewrite app_nil_r in E1. auto.
    + destruct (exists_last (l := y :: p)) as (p0 & z & Ez); [discriminate|]. rewrite Ez, app_assoc in E1. apply app_inj_tail in E1 as [-> ->].
      rewrite Ez in E2. rewrite <- app_assoc in E2. destruct (IH p0 z v) as (l1 & w & l2 & u1 & u2 & -> & -> & F); [symmetry; exact E2|].
      exists (x :: l1), w, l2, u1, u2. split; [reflexivity|]. split; [simpl; rewrite <- app_assoc; reflexivity|exact F].
Qed.

Section Proofs.
  Context {FO : FloatOracle}.
  Variables (from to : tables) (disable : bool).
  Hypotheses (P : plannable from to) (Cm : all_comparable from to).
  Let Wf := pl_from _ _ P.
  Let Wt := pl_to _ _ P.

  Lemma server_at d n t : wf_tables d -> In (n, t) d -> server_of d n = Some (stable_of t).
  Proof. intros W I. unfold server_of. rewrite (proj2 (dget_iff _ _ _ (wf_names _ W)) I). reflexivity. Qed.
  Lemma gone_key {V} n (d : dict string V) : ~ In n (dkeys d) <-> dget n d = None.
  Proof. symmetry. apply dget_none. Qed.

  (** Where a foreign key on the server comes from. *)
  Lemma fk_origin done todo n st k : table_at from to done todo n (Some st) -> In k (st_fks st) ->
    (dget n from = None /\ exists t, dget n to = Some t /\ st = stable_of t /\ In k (dvals (t_constraints t)))
    \/ (exists old, dget n from = Some old /\ (dget n to = None \/ In (n, old) todo) /\ In k (dvals (t_constraints old))
          /\ (done = [] \/ In k (fks1 from to n old)) /\ exists fks, st = st_src old fks)
    \/ (exists old t C K, dget n from = Some old /\ dget n to = Some t /\ In (n, old) done /\ changed_ok old t C K
          /\ st = mkStable C K (st_fks st)
          /\ (exists b, In (k_name k, b) (t_constraints t) /\ constraint_str k = constraint_str b)
          /\ (In k (fks2 from to n old t) \/ (todo = [] /\ In k (final_fks from to n old t)))).
  Proof.
    intros T Ik. unfold table_at in T. destruct (dget n from) as [old|] eqn:Ds, (dget n to) as [t|] eqn:Dt.
    - destruct T as [(I & fks & [= ->] & Ic & F)|(I & C & K & fks & [= ->] & Ok & F)].
      + right. left. exists old. split; [reflexivity|]. split; [auto|]. split; [apply Ic, Ik|]. split; [|eauto].
        destruct F as [F|F]; auto.
      + right. right. exists old, t, C, K. cbn [st_fks] in *.
        split; [reflexivity|]. split; [reflexivity|]. split; [exact I|]. split; [exact Ok|]. split; [reflexivity|].
        apply dget_in in Ds as Is. apply dget_in in Dt as It.
        pose proof (proj2 (wf_named _ Wf n old Is)) as Ws. pose proof (proj2 (wf_named _ Wt n t It)) as Wt'.
        assert (G : In k (fks2 from to n old t) \/ (todo = [] /\ In k (final_fks from to n old t))).
        { destruct F as [->|[E F]]; auto. }
        split; [|exact G]. destruct G as [G|[_ G]].
        * destruct (fks2_unchanged from to n old t Ds Dt Ws Wt' (pl_clear_in _ _ n old t P Is It) k G) as (b & Ib & U).
          exists b. split; [exact Ib|]. apply constraint_unchanged, U.
        * exact (final_fks_in from to n old t Ds Dt Ws Wt' (pl_clear_in _ _ n old t P Is It) k G).
    - destruct T as [([=] & _)|(fks & [= ->] & Ic & F)]. right. left. exists old. split; [reflexivity|]. split; [auto|].
      split; [apply Ic, Ik|]. split; [|eauto]. destruct F as [F| ->]; auto.
    - destruct T as [([=] & _)|[= ->]]. left. split; [reflexivity|]. exists t. auto.
    - discriminate.
  Qed.

  (** *** C87 *)
  Lemma unique_all : names_unique (server_of from) -> names_unique (server_of to) ->
    ((forall pre post s, plan_list from to disable = pre +++ post -> exec_all pre (server_of from) = Some s -> names_unique s) <-> names_free from to).
  Proof.
    intros Uf Ut. split.
    - intros H. assert (H1 : forall n t m old k k', In (n, t) to -> ~ In n (dkeys from) -> In (m, old) from ->
        In k (dvals (t_constraints t)) -> In k' (dvals (t_constraints old)) -> k_name k <> k_name k').
      { intros n t m old k k' It Nn Im Ik Ik' E. destruct (created from to disable P Cm) as (pre & post & s' & Ep & X & S1 & S2).
        apply (dget_iff _ _ _ (wf_names _ Wt)) in It as Dt. apply (dget_iff _ _ _ (wf_names _ Wf)) in Im as Dm. apply dget_none in Nn as Dn.
        assert (n = m) by (apply (H pre post s' Ep X n m _ _ k k' (S2 n t Dn Dt) (S1 m old Dm)); assumption). congruence. }
      split; [exact H1|]. intros n t m old k k' It Im Nm Ik Ik' E.
      destruct (dget n from) as [s|] eqn:Ds.
      + destruct (in_dec string_dec (k_name k') (map k_name (cyc_src from to m old))) as [Hc|Hc].
        * apply (first_dropped from to P m old k' Im Ik'). intros F. apply fks1_in in F. tauto.
        * exfalso. assert (Hk : In k' (fks1 from to m old)) by (apply fks1_in; auto).
          destruct (all_added from to disable P Cm) as (pre & post & s' & Ep & X & S1 & S2).
          apply (dget_iff _ _ _ (wf_names _ Wt)) in It as Dt. apply (dget_iff _ _ _ (wf_names _ Wf)) in Im as Dm. apply dget_none in Nm as Dmt.
          destruct (S2 n s t Ds Dt) as (C & K & En). apply dget_in in Ds as Is.
          pose proof (final_fks_match from to n s t Ds Dt (proj2 (wf_named _ Wf n s Is)) (proj2 (wf_named _ Wt n t It))
                        (pl_named _ _ P n t It) (pl_clear_in _ _ n s t P Is It)) as M.
          destruct (matched_back _ _ _ k M Ik) as (a & Ia & Na & _).
          assert (n = m) by (apply (H pre post s' Ep X n m _ _ a k' En (S1 m old Dm Dmt)); [exact Ia|exact Hk|congruence]). congruence.
      + exfalso. apply dget_none in Ds. exact (H1 n t m old k k' It Ds Im Ik Ik' E).
    - intros (H1 & H2) pre post s E X m m' st st' k k' Em Em' Ik Ik' En.
      symmetry in E. destruct (stages from to disable P Cm pre post s E X) as (done & todo & Ec & T). pose proof (T m) as Tm. pose proof (T m') as Tm'.
      rewrite Em in Tm. rewrite Em' in Tm'.
      assert (Sf : forall n old k, dget n from = Some old -> In k (dvals (t_constraints old)) -> server_of from n = Some (stable_of old) /\ In k (st_fks (stable_of old))).
      { intros n old k0 D I. split; [unfold server_of; rewrite D; reflexivity|exact I]. }
      assert (St : forall n t k, dget n to = Some t -> In k (dvals (t_constraints t)) -> server_of to n = Some (stable_of t) /\ In k (st_fks (stable_of t))).
      { intros n t k0 D I. split; [unfold server_of; rewrite D; reflexivity|exact I]. }
      (* the mixed case *)
      assert (Mix : forall n1 n2 k1 k2 st1 st2 old t, n1 <> n2 -> k_name k1 = k_name k2 ->
         dget n1 from = Some old -> (dget n1 to = None \/ In (n1, old) todo) -> In k1 (dvals (t_constraints old)) -> (done = [] \/ In k1 (fks1 from to n1 old)) ->
         dget n2 to = Some t -> table_at from to done todo n2 (Some st2) -> In k2 (st_fks st2) -> st1 = st2 -> False).
      { intros n1 n2 k1 k2 _ st2 old t Nn Ek D1 G1 I1 F1 D2 T2 I2 _. apply dget_in in D1 as In1. apply dget_in in D2 as In2.
        destruct (fk_origin done todo n2 st2 k2 T2 I2) as [(Dn & t2 & Dt2 & _ & J)|[(old2 & Do & _ & J & _)|(old2 & t2 & C & K & Do & Dt2 & Id & _ & _ & (b & Ib & Eb) & J)]].
        - apply (H1 n2 t2 n1 old k2 k1); auto; [congruence|apply dget_none, Dn].
        - apply Nn. destruct (Sf n1 old k1 D1 I1), (Sf n2 old2 k2 Do J). eapply (Uf n1 n2); eauto.
        - destruct J as [J|[Et J]].
          + apply Nn. destruct (Sf n1 old k1 D1 I1), (Sf n2 old2 k2 Do (fks2_incl from to n2 old2 t2 k2 J)). eapply (Uf n1 n2); eauto.
          + destruct G1 as [G1|G1]; [|rewrite Et in G1; destruct G1]. destruct F1 as [->|F1]; [destruct Id|].
            assert (t2 = t) by congruence. subst t2.
            pose proof (wf_fks_named _ (proj2 (wf_named _ Wt n2 t In2)) _ _ Ib) as Nb.
            assert (R : uses_retyped from to n1 k1).
            { apply (H2 n2 t n1 old b k1); auto; [apply dget_none, G1|eapply in_dvals; eauto|congruence]. }
            apply (first_gone from to P n1 old k1 In1); [|exact F1]. split; [exact R|]. intros t' It'. exfalso.
            apply dget_none in G1. apply G1. eapply in_dkeys; eauto. }
      destruct (string_dec m m') as [|Nm]; [assumption|]. exfalso.
      pose proof (fk_origin done todo m st k Tm Ik) as O1. pose proof (fk_origin done todo m' st' k' Tm' Ik') as O2.
      assert (Tgt : forall n st k, table_at from to done todo n (Some st) -> In k (st_fks st) ->
          (exists t b, dget n to = Some t /\ In b (dvals (t_constraints t)) /\ k_name b = k_name k)
          \/ (exists old, dget n from = Some old /\ (dget n to = None \/ In (n, old) todo) /\ In k (dvals (t_constraints old)) /\ (done = [] \/ In k (fks1 from to n old)))).
      { clear -Wt Wf P Cm. intros n st k Tn I. destruct (fk_origin done todo n st k Tn I) as [(Dn & t2 & Dt2 & _ & J)|[(old2 & Do & A & J & B & _)|(old2 & t2 & C & K & Do & Dt2 & Id & _ & _ & (b & Ib & Eb) & J)]].
        - left. exists t2, k. auto.
        - right. exists old2. auto.
        - left. exists t2, b. split; [exact Dt2|]. split; [eapply in_dvals; eauto|].
          apply (wf_fks_named _ (proj2 (wf_named _ Wt n t2 (dget_in _ _ _ Dt2))) _ _ Ib). }
      clear O1 O2. destruct (Tgt m st k Tm Ik) as [(t1 & b1 & D1 & B1 & N1)|(old1 & D1 & G1 & I1 & F1)];
        destruct (Tgt m' st' k' Tm' Ik') as [(t2 & b2 & D2 & B2 & N2)|(old2 & D2 & G2 & I2 & F2)].
      + apply Nm. destruct (St m t1 b1 D1 B1), (St m' t2 b2 D2 B2). eapply (Ut m m' _ _ b1 b2); eauto. congruence.
      + eapply (Mix m' m k' k st st old2 t1); eauto.
      + eapply (Mix m m' k k' st' st' old1 t2); eauto.
      + apply Nm. destruct (Sf m old1 k D1 I1), (Sf m' old2 k' D2 I2). eapply (Uf m m'); eauto.
  Qed.

  (** *** C88, C89 *)
  Section Need.
    Variable (Q : stable -> string -> Prop).
    Hypotheses (Qdec : forall st c, Q st c \/ ~ Q st c)
      (Qsrc : forall s fks c, Q (st_src s fks) c <-> Q (stable_of s) c)
      (Qend : forall n s t C K fks c, In (n, s) from -> In (n, t) to -> changed_ok s t C K -> (Q (mkStable C K fks) c <-> Q (stable_of t) c)).
    Hypotheses (Lf : legible from) (Lt : legible to) (Af : anchored Q from) (At : anchored Q to).

    Lemma same_text n t m old k b : In (n, t) to -> In (m, old) from \/ In (m, old) to -> In k (dvals (t_constraints old)) -> In b (dvals (t_constraints t)) ->
      k_name k = k_name b -> constraint_str k = constraint_str b -> same_ref k b.
    Proof.
      intros It Im Ik Ib En E.
      assert (A : tickless (k_column k) /\ tickless (k_ftable k) /\ tickless (k_fcolumn k)) by (destruct Im as [Im|Im]; [apply (Lf m old Im)|apply (Lt m old Im)]; exact Ik).
      destruct A as (A1 & A2 & A3). destruct (proj1 (Lt n t It) b Ib) as (B1 & B2 & B3). apply constraint_str_ref; auto.
    Qed.

    Lemma supported_all :
      (forall pre post s, plan_list from to disable = pre +++ post -> exec_all pre (server_of from) = Some s -> supported Q s)
      <-> found_before Q from to /\ freed_in_time Q from to.
    Proof.
      split.
      - intros H. split.
        + intros n t k old It Nn Ik Io. destruct (created from to disable P Cm) as (pre & post & s' & Ep & X & S1 & S2).
          apply (dget_iff _ _ _ (wf_names _ Wt)) in It as Dt. apply (dget_iff _ _ _ (wf_names _ Wf)) in Io as Do. apply dget_none in Nn as Dn.
          destruct (H pre post s' Ep X n _ k (S2 n t Dn Dt) Ik) as [_ G]. apply G, S1, Do.
        + intros m old k r Im Ik If Ir Nq. destruct (in_dec string_dec (k_name k) (map k_name (cyc_src from to m old))) as [Hc|Hc].
          { left. apply (first_dropped from to P m old k Im Ik). intros F. apply fks1_in in F. tauto. }
          assert (Hk : In k (fks1 from to m old)) by (apply fks1_in; auto). right.
          apply (dget_iff _ _ _ (wf_names _ Wf)) in Im as Dm. apply (dget_iff _ _ _ (wf_names _ Wt)) in Ir as Dr.
          apply dkeys_in in If as (s & Is). apply (dget_iff _ _ _ (wf_names _ Wf)) in Is as Ds.
          assert (Ic : In (k_ftable k, s) (common from to)) by (apply in_common; eauto).
          (* a state in which the table referred to is final and [m] is not *)
          assert (Bad : forall done todo, common from to = done +++ todo -> In (k_ftable k, s) done -> In m (map fst done)).
          { intros done todo Ec Id. destruct (in_dec string_dec m (map fst done)) as [|Nd]; [assumption|]. exfalso.
            destruct (altered from to disable P Cm done todo Ec) as (pre & post & s' & Ep & X & _ & S1 & S2).
            destruct (S2 _ s r Id Dr) as (C & K & Ok & En). destruct (H pre post s' Ep X m _ k (S1 m old Dm Nd) Hk) as [_ G].
            apply Nq. apply (Qend _ s r C K (fks2 from to (k_ftable k) s r) _ Is Ir Ok). apply G, En. }
          apply in_split in Ic as (d & l & Ec). pose proof (Bad (d +++ [(k_ftable k, s)]) l) as Bd. rewrite <- app_assoc in Bd.
          specialize (Bd Ec). rewrite in_app_iff in Bd. specialize (Bd (or_intror (or_introl eq_refl))). rewrite map_app, in_app_iff in Bd.
          assert (O : m = k_ftable k \/ In m (map fst d)) by (destruct Bd as [Bd|[Bd|[]]]; auto).
          split; [|apply (order_in from to P Cm d _ s l m Ec O)].
          destruct O as [->|O]; [eapply in_dkeys; eauto|]. apply in_map_iff in O as ([m0 s0] & <- & O). cbn [fst] in *.
          assert (Ic : In (m0, s0) (common from to)) by (rewrite Ec; apply in_app_iff; auto). apply in_common in Ic as [_ (t0 & Dt0)].
          apply dget_in in Dt0. eapply in_dkeys; eauto.
      - intros (Fb & Ft) pre post s E X m st k Em Ik. symmetry in E.
        destruct (stages from to disable P Cm pre post s E X) as (done & todo & Ec & T).
        pose proof (T m) as Tm. rewrite Em in Tm.
        assert (Inc : forall n x, In (n, x) done \/ In (n, x) todo -> dget n from = Some x /\ exists t, dget n to = Some t).
        { intros n x H. apply in_app_iff in H. rewrite <- Ec in H. apply in_common in H as [H1 H2]. split; [|exact H2]. apply (dget_iff _ _ _ (wf_names _ Wf)), H1. }
        (* the tables on the server *)
        assert (Sh : forall n r, s n = Some r ->
            (exists t, dget n from = None /\ dget n to = Some t /\ r = stable_of t)
            \/ (exists old fks, dget n from = Some old /\ r = st_src old fks /\ (In (n, old) todo \/ dget n to = None))
            \/ (exists old t, dget n from = Some old /\ dget n to = Some t /\ In (n, old) done /\ forall c, Q r c <-> Q (stable_of t) c)).
        { intros n r En. pose proof (T n) as Tn. rewrite En in Tn. unfold table_at in Tn. destruct (dget n from) as [old|] eqn:Ds, (dget n to) as [t|] eqn:Dt.
          - destruct Tn as [(I & fks & [= ->] & _)|(I & C & K & fks & [= ->] & Ok & _)].
            + right. left. exists old, fks. auto.
            + right. right. exists old, t. split; [reflexivity|]. split; [reflexivity|]. split; [exact I|]. intros c.
              apply (Qend n old t); auto using dget_in.
          - destruct Tn as [([=] & _)|(fks & [= ->] & _)]. right. left. exists old, fks. auto.
          - destruct Tn as [([=] & _)|[= ->]]. left. exists t. auto.
          - discriminate. }
        destruct (fk_origin done todo m st k Tm Ik) as [(Dn & t & Dt & -> & J)|[(old & Do & G & J & F & fks & ->)|(old & t & C & K & Do & Dt & Id & Ok & Est & (b & Ib & Eb) & J)]].
        + (* new table *)
          apply dget_in in Dt as It. destruct (At m t k It J) as (A1 & r0 & Ir0 & A2). split; [exact A1|].
          apply (dget_iff _ _ _ (wf_names _ Wt)) in Ir0 as Dr0.
          intros r Er. destruct (Sh _ r Er) as [(t2 & D1 & D2 & ->)|[(old2 & fks & D1 & -> & D2)|(old2 & t2 & D1 & D2 & _ & Qr)]].
          * assert (t2 = r0) by congruence. subst. exact A2.
          * apply Qsrc. apply (Fb m t k old2 It); [apply dget_none, Dn|exact J|apply dget_in, D1].
          * apply Qr. assert (t2 = r0) by congruence. subst. exact A2.
        + (* the source's *)
          apply dget_in in Do as Io. destruct (Af m old k Io J) as (A1 & r0 & Ir0 & A2). split; [apply Qsrc, A1|].
          apply (dget_iff _ _ _ (wf_names _ Wf)) in Ir0 as Dr0.
          intros r Er. destruct (Sh _ r Er) as [(t2 & D1 & D2 & ->)|[(old2 & fks2 & D1 & -> & D2)|(old2 & t2 & D1 & D2 & Dd & Qr)]].
          * congruence.
          * apply Qsrc. assert (old2 = r0) by congruence. subst. exact A2.
          * apply Qr. destruct (Qdec (stable_of t2) (k_fcolumn k)) as [|Nq]; [assumption|]. exfalso.
            apply dget_in in D1 as I1. apply dget_in in D2 as I2.
            destruct F as [->|F]; [destruct Dd|].
            destruct (Ft m old k t2 Io J (in_dkeys _ _ _ I1) I2 Nq) as [Cb|[Mt Cb]].
            -- exact (first_gone from to P m old k Io Cb F).
            -- destruct G as [G|G]; [apply dget_none in G; contradiction|].
               apply in_split in Dd as (d1 & d2 & ->). rewrite <- app_assoc in Ec. cbn [app] in Ec.
               apply (order_out from to P d1 _ old2 (d2 +++ todo) m Ec); [|exact Cb]. rewrite map_app, in_app_iff. right. apply (in_map fst) in G. exact G.
        + (* the target's *)
          apply dget_in in Do as Io. apply dget_in in Dt as It. rewrite Est.
          pose proof (wf_fks_named _ (proj2 (wf_named _ Wt m t It)) _ _ Ib) as Nb. apply in_dvals in Ib.
          assert (Or : In k (dvals (t_constraints old)) \/ (todo = [] /\ In k (dvals (t_constraints t)))).
          { destruct J as [J|[Et J]]; [left; eapply fks2_incl; eauto|]. unfold final_fks in J. rewrite !in_app_iff in J. destruct J as [[J|J]|J].
            - left. eapply fks2_incl; eauto.
            - right. split; [exact Et|]. exact (strip_adds_incl from to m old t (proj2 (wf_named _ Wf m old Io)) (proj2 (wf_named _ Wt m t It)) k J).
            - right. split; [exact Et|]. eapply (cyc_adds_incl from to P m old t Dt), J. }
          assert (SR : same_ref k b).
          { destruct Or as [Or|[_ Or]]; [apply (same_text m t m old k b It (or_introl Io) Or Ib)|apply (same_text m t m t k b It (or_intror It) Or Ib)]; congruence. }
          destruct SR as (R1 & R2 & R3). destruct (At m t b It Ib) as (A1 & r0 & Ir0 & A2). rewrite R1. split; [apply (Qend m old t C K _ _ Io It Ok), A1|].
          apply (dget_iff _ _ _ (wf_names _ Wt)) in Ir0 as Dr0. rewrite R2, R3.
          intros r Er. destruct (Sh _ r Er) as [(t2 & D1 & D2 & ->)|[(old2 & fks2 & D1 & -> & D2)|(old2 & t2 & D1 & D2 & Dd & Qr)]].
          * assert (t2 = r0) by congruence. subst. exact A2.
          * apply Qsrc. destruct D2 as [D2|D2]; [|congruence]. destruct Or as [Or|[-> _]]; [|destruct D2].
            destruct (Af m old k Io Or) as (_ & r1 & Ir1 & A3). rewrite R2 in Ir1. rewrite R3 in A3. apply (dget_iff _ _ _ (wf_names _ Wf)) in Ir1.
            assert (old2 = r1) by congruence. subst. exact A3.
          * apply Qr. assert (t2 = r0) by congruence. subst. exact A2.
    Qed.
  End Need.

  Lemma col_there_end n s t C K fks c : In (n, s) from -> In (n, t) to -> changed_ok s t C K -> (col_there (mkStable C K fks) c <-> col_there (stable_of t) c).
  Proof.
    intros _ _ (M & _). unfold col_there. cbn [st_cols stable_of]. rewrite !in_map_iff. split; intros (a & <- & I).
    - destruct (matched_there _ _ _ a M I) as (b & Ib & E & _). exists b. auto.
    - destruct (matched_back _ _ _ a M I) as (b & Ib & E & _). exists b. auto.
  Qed.
  Lemma key_leads_end n s t C K fks c : legible from -> legible to -> In (n, s) from -> In (n, t) to -> changed_ok s t C K ->
    (key_leads (mkStable C K fks) c <-> key_leads (stable_of t) c).
  Proof.
    intros Lf Lt Is It (_ & M & _).
    assert (E : forall a b, In b (dvals (t_indexes t)) -> key_ok (map k_name (dvals (t_constraints s) +++ dvals (t_constraints t))) (dvals (t_indexes s)) a b ->
                ix_columns a = ix_columns b).
    { intros a b Ib [->|[(Ia & En & [Es|[Es _]])|(_ & [Es _] & _)]]; auto.
      destruct (proj2 (Lf n s Is) a Ia) as [A1 A2], (proj2 (Lt n t It) b Ib) as [B1 B2]. apply index_str_columns; auto. }
    unfold key_leads. cbn [st_keys stable_of]. split; intros (a & I & H).
    - destruct (matched_there _ _ _ a M I) as (b & Ib & R). exists b. split; [exact Ib|]. rewrite <- (E a b Ib R). exact H.
    - destruct (matched_back _ _ _ a M I) as (b & Ib & R). exists b. split; [exact Ib|]. rewrite (E b a I R). exact H.
  Qed.
  Lemma key_leads_dec st c : key_leads st c \/ ~ key_leads st c.
  Proof.
    unfold key_leads. destruct (existsb (fun i => match ix_columns i with x :: _ => String.eqb x c | [] => false end) (st_keys st)) eqn:E.
    - left. apply existsb_exists in E as (i & I & H). exists i. split; [exact I|]. destruct (ix_columns i); [discriminate|]. apply String.eqb_eq in H. subst. reflexivity.
    - right. intros (i & I & H). assert (X : existsb (fun i => match ix_columns i with x :: _ => String.eqb x c | [] => false end) (st_keys st) = true).
      { apply existsb_exists. exists i. split; [exact I|]. destruct (ix_columns i); [discriminate|]. injection H as ->. apply String.eqb_refl. }
      congruence.
  Qed.

  (** *** C12 *)
  Lemma seen_changed tn cn : retyped_seen from to tn cn -> exists s t b old, In (tn, s) from /\ In (tn, t) to /\ In (ChangeColumn b) (kitchen_list s t)
    /\ c_name b = cn /\ In (cn, old) (t_columns s) /\ type_attrs old <> type_attrs b.
  Proof.
    intros (s & t & a & b & Is & It & Ia & Ib & N & D). exists s, t, b, a.
    pose proof (proj2 (wf_named _ Wf tn s Is)) as Ws. pose proof (proj2 (wf_named _ Wt tn t It)) as Wt'.
    split; [exact Is|]. split; [exact It|]. split; [|split; [apply (wf_cols_named _ Wt' cn b Ib)|auto]].
    unfold kitchen_list. rewrite !in_app_iff. right. left. apply in_map. apply changed_cols_in. exists cn, a. split; [exact Ia|].
    split; [apply dget_iff; [apply (wf_cols _ Wt')|exact Ib]|]. unfold chb. destruct (Cm tn s t Is It cn a b Ia Ib) as (x & Hx). rewrite Hx.
    destruct x; [reflexivity|]. exfalso. apply D. unfold column_changed in Hx. unfold declared_same.
    destruct (String.eqb_spec (column_str a) (column_str b)); [left; assumption|right]. apply bind_ok in Hx as (r & Hr & Hx). injection Hx as Hx.
    apply negb_false_iff in Hx. congruence.
  Qed.
  Lemma hazard_all :
    (forall pre a post s, plan_list from to disable = pre +++ OAlter a :: post -> exec_all pre (server_of from) = Some s -> ~ hazard s a)
    <-> (forall n t k tn cn, In (n, t) to -> ~ In n (dkeys from) -> In k (dvals (t_constraints t)) -> fk_uses n k tn cn -> ~ retyped_seen from to tn cn)
        /\ (forall m old k tn cn, In (m, old) from -> In k (dvals (t_constraints old)) -> fk_uses m k tn cn -> retyped_seen from to tn cn ->
              comes_back from to m k \/ (In m (dkeys to) /\ comes_by (dkeys from) m tn)).
  Proof.
    assert (Turn : forall tn cn, retyped_seen from to tn cn -> exists done s t todo b old, common from to = done +++ (tn, s) :: todo /\ dget tn to = Some t
        /\ In (ChangeColumn b) (kitchen_list s t) /\ c_name b = cn /\ c_name old = cn /\ In old (dvals (t_columns s)) /\ type_attrs old <> type_attrs b).
    { intros tn cn R. destruct (seen_changed tn cn R) as (s & t & b & old & Is & It & Ik & Nb & Io & Nt).
      apply (dget_iff _ _ _ (wf_names _ Wt)) in It as Dt. assert (Ic : In (tn, s) (common from to)) by (apply in_common; eauto).
      apply in_split in Ic as (d & l & Ec). exists d, s, t, l, b, old. split; [exact Ec|]. split; [exact Dt|]. split; [exact Ik|]. split; [exact Nb|].
      split; [apply (wf_cols_named _ (proj2 (wf_named _ Wf tn s Is)) _ _ Io)|]. split; [eapply in_dvals; eauto|exact Nt]. }
    split.
    - intros H. split.
      + intros n t0 k tn cn It Nn Ik U R. destruct (Turn tn cn R) as (d & s & t & l & b & old & Ec & Dt & Ib & Nb & No & Io & Nt).
        assert (Nk : kitchen_list s t <> []) by (intros E; rewrite E in Ib; destruct Ib).
        destruct (at_turn from to disable d tn s t l Ec Dt Nk) as (pre & post & Ep & Eq).
        destruct (prefix_runs from to P Cm disable pre _ (eq_sym Ep)) as (s' & X). pose proof X as X0. rewrite Eq in X.
        destruct (turn_state from to disable P Cm d tn s t l s' Ec Dt X) as (S1 & S2 & _).
        apply (dget_iff _ _ _ (wf_names _ Wt)) in It as Dt0. apply dget_none in Nn. specialize (S1 n Nn). rewrite Dt0 in S1.
        apply (H pre _ post s' Ep X0). exists b, old, (st_src s (fks2 from to tn s t)), n, (stable_of t0), k. cbn [al_table al_ops st_src st_cols stable_of st_fks].
        subst cn. auto 10.
      + intros m old0 k tn cn Im Ik U R. destruct (in_dec string_dec (k_name k) (map k_name (cyc_src from to m old0))) as [Hc|Hc].
        { left. apply (first_dropped from to P m old0 k Im Ik). intros F. apply fks1_in in F. tauto. }
        assert (Hk : In k (fks1 from to m old0)) by (apply fks1_in; auto). right.
        destruct (Turn tn cn R) as (d & s & t & l & b & old & Ec & Dt & Ib & Nb & No & Io & Nt).
        assert (Nk : kitchen_list s t <> []) by (intros E; rewrite E in Ib; destruct Ib).
        destruct (at_turn from to disable d tn s t l Ec Dt Nk) as (pre & post & Ep & Eq).
        destruct (prefix_runs from to P Cm disable pre _ (eq_sym Ep)) as (s' & X). pose proof X as X0. rewrite Eq in X.
        destruct (turn_state from to disable P Cm d tn s t l s' Ec Dt X) as (_ & S2 & S3 & _).
        apply (dget_iff _ _ _ (wf_names _ Wf)) in Im as Dm.
        assert (O : m = tn \/ In m (map fst d)).
        { destruct (string_dec m tn) as [|Nm]; [auto|]. destruct (in_dec string_dec m (map fst d)) as [|Nd]; [auto|]. exfalso.
          apply (H pre _ post s' Ep X0). exists b, old, (st_src s (fks2 from to tn s t)), m, (st_src old0 (fks1 from to m old0)), k.
          cbn [al_table al_ops st_src st_cols stable_of st_fks]. specialize (S3 m old0 Dm Nd Nm). subst cn. auto 10. }
        split; [|apply (order_in from to P Cm d tn s l m Ec O)]. destruct O as [->|O]; [apply dget_in in Dt; eapply in_dkeys; eauto|].
        apply in_map_iff in O as ([m0 s0] & <- & O). cbn [fst] in *.
        assert (Ic : In (m0, s0) (common from to)) by (rewrite Ec; apply in_app_iff; auto). apply in_common in Ic as [_ (t0 & Dt0)].
        apply dget_in in Dt0. eapply in_dkeys; eauto.
    - intros (H1 & H2) pre a post s' Ep X (c & old & st & m & mt & k & Hc & Est & Hold & En & Nt & Em & Hk & U).
      destruct (before_change from to disable pre (OAlter a) post Ep) as (Up & Up' & Epre & Eu); [exists a, c; auto|].
      (* whose turn it is *)
      assert (G : exists done n s t todo, common from to = done +++ (n, s) :: todo /\ dget n to = Some t /\ a = mkAlter n (kitchen_list s t)
                /\ Up = updates_of from to done +++ removed_of from to (n, s)).
      { destruct (concat_at _ _ _ _ _ Eu) as (l1 & [n s] & l2 & u1 & u2 & Ec & -> & Ef).
        assert (Ic : In (n, s) (common from to)) by (rewrite Ec; apply in_app_iff; right; left; reflexivity).
        apply in_common in Ic as [_ (t & Dt)]. exists l1, n, s, t, l2. split; [exact Ec|]. split; [exact Dt|].
        symmetry in Ef. apply (split_skip has_change) in Ef as (p & -> & Ef); [|exists a, c; auto|intros x Hx; eapply no_change_fks, Hx; discriminate].
        unfold kitchen_of in Ef. cbn [fst snd] in Ef. rewrite (tgt_of_eq to n s t Dt), alter1_eq in Ef.
        destruct (list_is_nil (kitchen_list s t)); [destruct p; discriminate|]. destruct p as [|y p]; [|injection Ef as _ Ef; destruct p; discriminate].
        injection Ef as Ea _. split; [congruence|]. rewrite app_nil_r. reflexivity. }
      destruct G as (d & n & s & t & l & Ec & Dt & -> & ->). rewrite Epre in X. cbn [al_table al_ops] in *.
      destruct (turn_state from to disable P Cm d n s t l s' Ec Dt X) as (S1 & S2 & S3 & S4).
      rewrite Est in S2. injection S2 as ->. cbn [st_src st_cols] in Hold.
      assert (Is : In (n, s) from).
      { assert (Ic : In (n, s) (common from to)) by (rewrite Ec; apply in_app_iff; right; left; reflexivity). apply in_common in Ic. tauto. }
      apply dget_in in Dt as It. pose proof (proj2 (wf_named _ Wf n s Is)) as Ws. pose proof (proj2 (wf_named _ Wt n t It)) as Wt'.
      assert (R : retyped_seen from to n (c_name c)).
      { unfold kitchen_list in Hc. rewrite !in_app_iff in Hc. destruct Hc as [Hc|[Hc|[Hc|Hc]]].
        - apply in_map_iff in Hc as (x & Ex & _). discriminate.
        - apply in_map_iff in Hc as (b & [= ->] & Hb). apply changed_cols_in in Hb as (x & a0 & Ha & Db & Ch).
          apply dget_in in Db. rewrite (wf_cols_named _ Wt' x c Db) in *.
          apply dvals_in in Hold as (y & Hold). rewrite (wf_cols_named _ Ws y old Hold) in En. subst y.
          exists s, t, old, c. rewrite (same_entry _ x a0 old (wf_cols _ Ws) Ha Hold) in *. repeat (split; [assumption|]).
          intros Ds. unfold chb, column_changed in Ch. destruct Ds as [Ds|Ds].
          + rewrite (proj2 (String.eqb_eq _ _) Ds) in Ch. discriminate.
          + rewrite Ds in Ch. destruct (String.eqb (column_str old) (column_str c)); discriminate.
        - apply in_map_iff in Hc as (x & Ex & _). discriminate.
        - apply key_ops_kind in Hc. discriminate. }
      assert (Rt : retyped from to n (c_name c)).
      { destruct R as (s1 & t1 & a1 & b1 & R1 & R2 & R3 & R4 & R5 & _). exists s1, t1, a1, b1. auto. }
      (* foreign keys that the target keeps are gone by now *)
      assert (Kept : forall ms mtt, In (m, ms) from -> dget m to = Some mtt -> In k (fks2 from to m ms mtt) -> False).
      { intros ms mtt Ims Dmt Ik. apply dget_in in Dmt as Imt. apply (dget_iff _ _ _ (wf_names _ Wf)) in Ims as Dms.
        destruct (fks2_unchanged from to m ms mtt Dms Dmt (proj2 (wf_named _ Wf m ms Ims)) (proj2 (wf_named _ Wt m mtt Imt)) (pl_clear_in _ _ m ms mtt P Ims Imt) k Ik) as (b & Ib & _).
        apply (first_gone from to P m ms k Ims); [|eapply incl_fks2; eauto]. split; [exists n, (c_name c); auto|].
        intros t' It'. apply (dget_iff _ _ _ (wf_names _ Wt)) in It'. assert (t' = mtt) by congruence. subst. left. eapply in_dkeys; eauto. }
      destruct (dget m from) as [ms|] eqn:Dms.
      + apply dget_in in Dms as Ims. destruct (string_dec m n) as [->|Nm].
        * assert (ms = s) by (apply (dget_iff _ _ _ (wf_names _ Wf)) in Is; congruence). subst ms.
          assert (mt = st_src s (fks2 from to n s t)) by congruence. subst mt. eapply Kept; eauto.
        * destruct (in_dec string_dec m (map fst d)) as [Id|Nd].
          -- apply in_map_iff in Id as ([m0 s0] & <- & Id). cbn [fst] in *.
             assert (Ic : In (m0, s0) (common from to)) by (rewrite Ec; apply in_app_iff; auto). apply in_common in Ic as [Ic (mtt & Dmt)].
             destruct (S4 m0 s0 mtt Id Dmt) as (C & K & _ & Es). assert (mt = mkStable C K (fks2 from to m0 s0 mtt)) by congruence. subst mt.
             eapply Kept; eauto.
          -- assert (mt = st_src ms (fks1 from to m ms)) by (specialize (S3 m ms Dms Nd Nm); congruence). subst mt. cbn [st_src st_fks] in Hk.
             destruct (H2 m ms k n (c_name c) Ims (fks1_incl from to m ms k Hk) U R) as [Cb|[Imt Cb]]; [exact (first_gone from to P m ms k Ims Cb Hk)|].
             apply (order_out from to P d n s l m Ec); [|exact Cb]. apply dkeys_in in Imt as (mtt & Imt). apply (dget_iff _ _ _ (wf_names _ Wt)) in Imt.
             assert (Ic : In (m, ms) (common from to)) by (apply in_common; eauto). rewrite Ec, in_app_iff in Ic. destruct Ic as [Ic|[[= E1 E2]|Ic]].
             ++ exfalso. apply Nd. apply (in_map fst) in Ic. exact Ic.
             ++ congruence.
             ++ apply (in_map fst) in Ic. exact Ic.
      + specialize (S1 m Dms). rewrite Em in S1. destruct (dget m to) as [mtt|] eqn:Dmt; [|discriminate]. injection S1 as ->. cbn [stable_of st_fks] in Hk.
        apply (H1 m mtt k n (c_name c) (dget_in _ _ _ Dmt)); auto. apply dget_none, Dms.
  Qed.
End Proofs.
