(** Lemmas behind C01, C04-C07. *)
From Verif Require Export TableFacts RenderFacts Mygration.

Section Float.
  Context {FO : FloatOracle}.

  Lemma only_in_nil {V W} (a : dict string V) (b : dict string W) :
    (forall n, In n (dkeys a) -> In n (dkeys b)) -> only_in a b = [].
  Proof.
    intros H. apply filter_none. intros [n v] Hv. simpl. apply negb_false_iff, dmem_iff, H.
    eapply in_dkeys; eauto.
  Qed.

  (** When nothing differs, no operation is emitted. *)
  Lemma diff_empty mid tgt :
    wf_table mid -> wf_table tgt ->
    (forall n, In n (dkeys (t_columns mid)) <-> In n (dkeys (t_columns tgt))) ->
    (forall n a b, In (n, a) (t_columns mid) -> In (n, b) (t_columns tgt) -> column_changed a b = Ok false) ->
    key_ops mid tgt = [] ->
    (forall n, In n (dkeys (t_constraints mid)) <-> In n (dkeys (t_constraints tgt))) ->
    (forall n a b, In (n, a) (t_constraints mid) -> In (n, b) (t_constraints tgt) -> constraint_str a = constraint_str b) ->
    diff mid tgt = Ok [] /\ diff_split mid tgt = Ok (mkSplit None None None).
  Proof.
    intros Wm Wt Cn Cc Kn Fn Fc.
    assert (Cmp : comparable mid tgt) by (intros n a b Ha Hb; exists false; eauto).
    assert (Ch : changed_cols mid tgt = []).
    { destruct (changed_cols mid tgt) as [|b l] eqn:E; [reflexivity|].
      assert (Hb : In b (changed_cols mid tgt)) by (rewrite E; left; reflexivity).
      apply changed_cols_in in Hb as (n & a & Ha & Hb & C). apply dget_in in Hb.
      unfold chb in C. rewrite (Cc n a b Ha Hb) in C. discriminate. }
    assert (Chf : changed_constraints mid tgt = []).
    { destruct (changed_constraints mid tgt) as [|[a b] l] eqn:E; [reflexivity|].
      assert (Hb : In (a, b) (changed_fks mid tgt)) by (unfold changed_fks; rewrite E; left; reflexivity).
      apply changed_fks_in in Hb as (n & Ha & Hb & C). apply dget_in in Hb.
      unfold constraint_changed in C. rewrite (Fc n a b Ha Hb), String.eqb_refl in C. discriminate. }
    assert (KL : kitchen_list mid tgt = []).
    { unfold kitchen_list, add_col_ops. rewrite Kn, Ch.
      rewrite !only_in_nil by (intros n; apply Cn). reflexivity. }
    assert (R : removed_fk_ops mid tgt = []).
    { unfold removed_fk_ops. rewrite Chf, only_in_nil by (intros n; apply Fn). reflexivity. }
    assert (A : added_fk_ops mid tgt = []).
    { unfold added_fk_ops. rewrite Chf, only_in_nil by (intros n; apply Fn). reflexivity. }
    assert (K : kitchen_ops mid tgt = Ok []).
    { rewrite <- KL. apply kitchen_ops_iff; [apply (wf_cols _ Wm)|apply (wf_cols _ Wt)|]. auto. }
    unfold diff, diff_split. rewrite K, R, A. split; reflexivity.
  Qed.

  Lemma column_changed_refl a : column_changed a a = Ok false.
  Proof. unfold column_changed. rewrite String.eqb_refl. reflexivity. Qed.
  Lemma key_changed_refl a : key_changed a a = false.
  Proof. unfold key_changed. rewrite String.eqb_refl. reflexivity. Qed.

  Lemma same_entry {V} (d : dict string V) n a b : NoDup (dkeys d) -> In (n, a) d -> In (n, b) d -> a = b.
  Proof. intros ND Ha Hb. apply (dget_iff n a _ ND) in Ha. apply (dget_iff n b _ ND) in Hb. congruence. Qed.

  Lemma key_ops_nil mid tgt :
    (forall n, In n (dkeys (t_indexes mid)) <-> In n (dkeys (t_indexes tgt))) ->
    (forall n a b, In (n, a) (t_indexes mid) -> In (n, b) (t_indexes tgt) -> key_changed a b = false) ->
    key_ops mid tgt = [].
  Proof.
    intros Hn Hc. rewrite key_ops_eq.
    assert (E : changed_keys mid tgt = []).
    { destruct (changed_keys mid tgt) as [|[a b] l] eqn:E; [reflexivity|].
      assert (Hb : In (a, b) (changed_keys mid tgt)) by (rewrite E; left; reflexivity).
      apply changed_keys_in in Hb as (n & Ha & Hb & C). apply dget_in in Hb. rewrite (Hc n a b Ha Hb) in C. discriminate. }
    rewrite E. unfold new_keys, gone_keys. rewrite !only_in_nil by (intros n; apply Hn). reflexivity.
  Qed.

  Lemma diff_self t : wf_table t -> diff t t = Ok [] /\ diff_split t t = Ok (mkSplit None None None).
  Proof.
    intros W. apply diff_empty; auto; try reflexivity.
    - intros n a b Ha Hb. rewrite (same_entry _ n a b (wf_cols _ W) Ha Hb). apply column_changed_refl.
    - apply key_ops_nil; [reflexivity|].
      intros n a b Ha Hb. rewrite (same_entry _ n a b (wf_keys _ W) Ha Hb). apply key_changed_refl.
    - intros n a b Ha Hb. rewrite (same_entry _ n a b (wf_fks _ W) Ha Hb). reflexivity.
  Qed.

  (** ** C04: matching again gives the same pairs *)
  Lemma find_filter_same {A} (p q keep : A -> bool) l x :
    find p l = Some x -> (forall a, In a l -> q a = true -> p a = true) -> q x = true -> keep x = true ->
    find q (filter keep l) = Some x.
  Proof.
    induction l as [|a l IH]; simpl; [discriminate|].
    intros F Hq Hx Hk. destruct (p a) eqn:Pa.
    - injection F as ->. rewrite Hk. simpl. rewrite Hx. reflexivity.
    - assert (Qa : q a = false). { destruct (q a) eqn:E; [|reflexivity]. rewrite (Hq a (or_introl eq_refl) E) in Pa. discriminate. }
      destruct (keep a); simpl; rewrite ?Qa; apply IH; auto.
  Qed.

  Lemma rematch cn cn' added P Q removed : forall matched,
    NoDup (map fst removed) ->
    (forall x, In x cn' -> In x cn) ->
    (forall rk ak, In (rk, ak) (match_keys cn removed added matched) ->
        (In rk cn' \/ In ak cn') /\ In ak P) ->
    (forall rk ri, In (rk, ri) removed -> In rk Q <-> In rk (map fst (match_keys cn removed added matched))) ->
    match_keys cn' (filter (fun p => smem (fst p) Q) removed) (filter (fun p => smem (fst p) P) added) matched
    = match_keys cn removed added matched.
  Proof.
    induction removed as [|[rk ri] removed IH]; intros matched ND Hcn HP HQ; [reflexivity|].
    simpl in ND. inversion ND as [|? ? Hn ND']; subst.
    cbn [match_keys filter fst] in *. unfold find_key_match in *.
    destruct (find (key_match cn rk ri matched) added) as [[ak ai]|] eqn:F; cbn [option_map fst] in *.
    - assert (Hrk : smem rk Q = true).
      { apply smem_iff. apply (HQ rk ri); [left; reflexivity|]. left. reflexivity. }
      rewrite Hrk. cbn [match_keys]. unfold find_key_match.
      destruct (HP rk ak (or_introl eq_refl)) as [Hj HPk].
      rewrite (find_filter_same (key_match cn rk ri matched) (key_match cn' rk ri matched) _ added (ak, ai) F).
      + cbn [option_map fst]. f_equal. apply IH; auto.
        * intros rk' ak' H. apply HP. right; assumption.
        * intros rk' ri' H. rewrite (HQ rk' ri') by (right; assumption). cbn [map fst In].
          split; [intros [<-|Hx]; [exfalso; apply Hn; apply (in_map fst) in H; exact H|assumption]|auto].
      + intros a _ Hk. unfold key_match in *. apply andb_true_iff in Hk as [Hk Hc]. rewrite Hk. simpl.
        apply orb_true_iff in Hc. apply orb_true_iff. rewrite !smem_iff in *. destruct Hc; auto.
      + apply find_some in F as [_ F]. unfold key_match in *. apply andb_true_iff in F as [F _]. rewrite F. simpl.
        apply orb_true_iff. rewrite !smem_iff. cbn [fst]. exact Hj.
      + cbn [fst]. apply smem_iff, HPk.
    - assert (Hrk : smem rk Q = false).
      { apply smem_false. intros H. apply (HQ rk ri) in H; [|left; reflexivity].
        apply in_map_iff in H as ([rk' ak'] & E & H). simpl in E. subst rk'.
        apply match_keys_in in H as (a & b & H & _). apply Hn. apply (in_map fst) in H. exact H. }
      rewrite Hrk. apply IH; auto. intros rk' ri' H. apply (HQ rk' ri'). right; assumption.
  Qed.

  Definition kept_by (src tgt : table) (p : string * index) : bool :=
    match dget (fst p) (t_indexes tgt) with
    | Some b => negb (key_changed (snd p) b)
    | None => smem (fst p) (map fst (key_pairs src tgt))
    end.

  (** The indexes after a diff was executed. *)
  Lemma keys_after src tgt mid :
    wf_table src -> wf_table tgt -> wf_table mid ->
    dvals (t_indexes mid) = kept_keys src tgt +++ new_keys src tgt +++ map snd (changed_keys src tgt) ->
    only_in (t_indexes mid) (t_indexes tgt)
      = filter (fun p => smem (fst p) (map fst (key_pairs src tgt))) (only_in (t_indexes src) (t_indexes tgt))
    /\ only_in (t_indexes tgt) (t_indexes mid)
      = filter (fun p => smem (fst p) (map snd (key_pairs src tgt))) (only_in (t_indexes tgt) (t_indexes src))
    /\ changed_keys mid tgt = [].
  Proof.
    intros Ws Wt Wm Ek.
    assert (Emid : t_indexes mid
              = filter (kept_by src tgt) (t_indexes src)
                +++ filter (fun p => negb (smem (fst p) (map snd (key_pairs src tgt)))) (only_in (t_indexes tgt) (t_indexes src))
                +++ map (fun ab => (ix_name (snd ab), snd ab)) (changed_keys src tgt)).
    { assert (G : forall (d : dict string index), (forall n i, In (n, i) d -> ix_name i = n) ->
                  d = map (fun i => (ix_name i, i)) (dvals d)).
      { intros d H. unfold dvals. rewrite map_map. rewrite <- map_id at 1. apply map_ext_in. intros [n i] Hi. simpl.
        rewrite (H n i Hi). reflexivity. }
      rewrite (G _ (wf_keys_named _ Wm)), Ek, !map_app. f_equal; [|f_equal].
      - unfold kept_keys. rewrite map_map. rewrite <- map_id. apply map_ext_in. intros [n i] Hi.
        apply filter_In in Hi as [Hi _]. simpl. rewrite (wf_keys_named _ Ws n i Hi). reflexivity.
      - unfold new_keys. rewrite map_map. rewrite <- map_id. apply map_ext_in. intros [n i] Hi.
        apply filter_In in Hi as [Hi _]. apply only_in_in in Hi as [Hi _]. simpl. rewrite (wf_keys_named _ Wt n i Hi). reflexivity.
      - rewrite map_map. reflexivity. }
    set (pairs := key_pairs src tgt) in *.
    assert (Hnew : forall n b, In (n, b) (filter (fun p => negb (smem (fst p) (map snd pairs))) (only_in (t_indexes tgt) (t_indexes src)))
               <-> In (n, b) (t_indexes tgt) /\ dget n (t_indexes src) = None /\ ~ In n (map snd pairs)).
    { intros n b. rewrite filter_In, only_in_in. simpl. rewrite negb_true_iff, smem_false. tauto. }
    assert (Hchg : forall n b, In (n, b) (map (fun ab => (ix_name (snd ab), snd ab)) (changed_keys src tgt))
               <-> exists a, In (n, a) (t_indexes src) /\ In (n, b) (t_indexes tgt) /\ key_changed a b = true).
    { intros n b. rewrite in_map_iff. split.
      - intros ([a b'] & E & H). apply changed_keys_in in H as (m & Ha & Hb & C). injection E as <- ->. apply dget_in in Hb.
        rewrite (wf_keys_named _ Wt m b Hb). eauto.
      - intros (a & Ha & Hb & C). exists (a, b). simpl. rewrite (wf_keys_named _ Wt n b Hb). split; [reflexivity|].
        apply changed_keys_in. exists n. repeat split; auto. apply (dget_iff n b _ (wf_keys _ Wt)), Hb. }
    (* removed and added lists of the second diff *)
    assert (E1 : only_in (t_indexes mid) (t_indexes tgt)
                 = filter (fun p => smem (fst p) (map fst pairs)) (only_in (t_indexes src) (t_indexes tgt))).
    { rewrite Emid. unfold only_in at 1. rewrite !filter_app.
      assert (Z1 : filter (fun p => negb (dmem (fst p) (t_indexes tgt)))
                (filter (fun p => negb (smem (fst p) (map snd pairs))) (only_in (t_indexes tgt) (t_indexes src))) = []).
      { apply filter_none. intros [n b] H. apply Hnew in H as [H _]. simpl. apply negb_false_iff, dmem_iff. eapply in_dkeys; eauto. }
      assert (Z2 : filter (fun p => negb (dmem (fst p) (t_indexes tgt)))
                (map (fun ab => (ix_name (snd ab), snd ab)) (changed_keys src tgt)) = []).
      { apply filter_none. intros [n b] H. apply Hchg in H as (a & _ & H & _). simpl. apply negb_false_iff, dmem_iff. eapply in_dkeys; eauto. }
      rewrite Z1, Z2, !app_nil_r. unfold only_in. rewrite !filter_filter. apply filter_ext_in.
      intros [n a] H. unfold kept_by. simpl. rewrite dmem_dget. destruct (dget n (t_indexes tgt)); simpl; [rewrite andb_false_r; reflexivity|].
      rewrite andb_true_r. reflexivity. }
    assert (E2 : only_in (t_indexes tgt) (t_indexes mid)
                 = filter (fun p => smem (fst p) (map snd pairs)) (only_in (t_indexes tgt) (t_indexes src))).
    { unfold only_in. rewrite filter_filter. apply filter_ext_in. intros [n b] Hb. simpl.
      assert (M : In n (dkeys (t_indexes mid)) <-> In n (dkeys (t_indexes src)) \/ ~ In n (map snd pairs)).
      { split.
        - intros H. apply dkeys_in in H as (i & Hi). rewrite Emid, !in_app_iff in Hi. destruct Hi as [Hi|[Hi|Hi]].
          + apply filter_In in Hi as [Hi _]. left. eapply in_dkeys; eauto.
          + apply Hnew in Hi. tauto.
          + apply Hchg in Hi as (a & Hi & _). left. eapply in_dkeys; eauto.
        - intros H. destruct (dget n (t_indexes src)) as [a|] eqn:D.
          + pose proof (dget_in _ _ _ D) as Ha. destruct (key_changed a b) eqn:C.
            * apply (in_dkeys n b). rewrite Emid, !in_app_iff. right. right. apply Hchg. eauto.
            * apply (in_dkeys n a). rewrite Emid, !in_app_iff. left. apply filter_In. split; [assumption|].
              unfold kept_by. simpl. rewrite (proj2 (dget_iff n b _ (wf_keys _ Wt)) Hb), C. reflexivity.
          + apply (in_dkeys n b). rewrite Emid, !in_app_iff. right. left. apply Hnew. repeat split; auto.
            destruct H as [H|H]; [apply dget_none in D; contradiction|assumption]. }
      destruct (dmem n (t_indexes mid)) eqn:Dm, (dmem n (t_indexes src)) eqn:Ds; simpl.
      - reflexivity.
      - symmetry. apply smem_false. apply dmem_iff, M in Dm. apply dmem_false in Ds. tauto.
      - exfalso. apply dmem_false in Dm. apply dmem_iff in Ds. tauto.
      - symmetry. apply smem_iff. destruct (in_dec string_dec n (map snd pairs)) as [?|N]; [assumption|].
        exfalso. apply dmem_false in Dm. apply Dm, M. auto. }
    assert (N3 : changed_keys mid tgt = []).
    { destruct (changed_keys mid tgt) as [|[a b] l] eqn:E; [reflexivity|].
      assert (Hab : In (a, b) (changed_keys mid tgt)) by (rewrite E; left; reflexivity).
      apply changed_keys_in in Hab as (n & Ha & Hb & C). exfalso.
      pose proof (dget_in _ _ _ Hb) as Hbi.
      rewrite Emid, !in_app_iff in Ha. destruct Ha as [Ha|[Ha|Ha]].
      - apply filter_In in Ha as [Ha K]. unfold kept_by in K. simpl in K. rewrite Hb, C in K. discriminate.
      - apply Hnew in Ha as [Ha _]. rewrite (same_entry _ n a b (wf_keys _ Wt) Ha Hbi), key_changed_refl in C. discriminate.
      - apply Hchg in Ha as (a' & _ & Ha & _). rewrite (same_entry _ n a b (wf_keys _ Wt) Ha Hbi), key_changed_refl in C. discriminate. }
    split; [exact E1|]. split; [exact E2|exact N3].
  Qed.

  (** Second diff of the indexes. *)
  Lemma key_ops_again src tgt mid :
    wf_table src -> wf_table tgt -> wf_table mid ->
    dvals (t_indexes mid) = kept_keys src tgt +++ new_keys src tgt +++ map snd (changed_keys src tgt) ->
    (forall n, In n (dkeys (t_constraints mid)) <-> In n (dkeys (t_constraints tgt))) ->
    names_last src tgt ->
    key_ops mid tgt = [].
  Proof.
    intros Ws Wt Wm Ek Fn Hfk. destruct (keys_after src tgt mid Ws Wt Wm Ek) as (E1 & E2 & N3).
    set (pairs := key_pairs src tgt) in *.
    assert (EP : key_pairs mid tgt = pairs).
    { unfold key_pairs. rewrite E1, E2. unfold pairs, key_pairs. apply rematch.
      - apply NoDup_filter_map. apply (wf_keys _ Ws).
      - intros x. rewrite !in_app_iff. intros [H|H]; [apply Fn in H; auto|auto].
      - intros rk ak H. split; [|apply in_map_iff; exists (rk, ak); auto].
        pose proof H as H'. apply (key_pairs_in src tgt rk ak Ws Wt) in H' as (a & b & Ha & Hb & Na & Nb & Sh & C).
        apply dget_none in Na. apply dget_none in Nb. apply same_shape_iff in Sh as [Sc St].
        pose proof (Hfk rk a ak b Ha Na Hb Nb Sc St) as L.
        rewrite !in_app_iff in *. destruct C as [[C|C]|[C|C]]; tauto.
      - intros rk ri H. reflexivity. }
    (* nothing left *)
    rewrite key_ops_eq.
    assert (N1 : new_keys mid tgt = []).
    { unfold new_keys. rewrite EP, E2, filter_filter, filter_none; [reflexivity|]. intros p _. apply andb_negb_r. }
    assert (N2 : gone_keys mid tgt = []).
    { unfold gone_keys. rewrite EP, E1, filter_filter, filter_none; [reflexivity|]. intros p _. apply andb_negb_r. }
    rewrite N1, N2, N3. reflexivity.
  Qed.

  (** If no two indexes of a table have the same columns and kind, all candidates are paired. *)
  Lemma match_all cn n a m b added removed : forall matched,
    NoDup (map fst added) -> In (n, a) removed -> In (m, b) added -> ~ In m matched -> same_shape a b = true -> In n cn \/ In m cn ->
    (forall k c, In (k, c) removed -> same_shape c b = true -> k = n) ->
    (forall k c, In (k, c) removed -> k = n -> c = a) ->
    (forall k c, In (k, c) added -> same_shape a c = true -> k = m) ->
    In (n, m) (match_keys cn removed added matched).
  Proof.
    induction removed as [|[rk ri] removed IH]; intros matched ND Ha Hb Nm Sh C Us Ua Ut; [destruct Ha|].
    cbn [match_keys]. unfold find_key_match. destruct (string_dec rk n) as [->|Nr].
    - pose proof (Ua n ri (or_introl eq_refl) eq_refl) as ->.
      destruct (find (key_match cn n a matched) added) as [[ak ai]|] eqn:F; cbn [option_map fst].
      + apply find_some in F as [Hin Hm]. unfold key_match in Hm. cbn [fst snd] in Hm. apply andb_true_iff in Hm as [Hm _]. apply andb_true_iff in Hm as [_ Hs].
        rewrite (Ut ak ai Hin Hs). left. reflexivity.
      + exfalso. pose proof (find_none _ _ F (m, b) Hb) as G. unfold key_match in G. cbn [fst snd] in G. rewrite Sh in G.
        rewrite (proj2 (smem_false m matched) Nm) in G. cbn [negb andb] in G. apply orb_false_iff in G as [G1 G2]. apply smem_false in G1. apply smem_false in G2. tauto.
    - assert (Ha' : In (n, a) removed) by (destruct Ha as [E|Ha]; [injection E as E _; contradiction|exact Ha]).
      destruct (find (key_match cn rk ri matched) added) as [[ak ai]|] eqn:F; cbn [option_map fst].
      + right. apply IH; auto; [|intros k c I; apply Us; right; exact I|intros k c I; apply Ua; right; exact I].
        intros [->|I]; [|exact (Nm I)]. apply find_some in F as [Hin Hm]. unfold key_match in Hm. cbn [fst snd] in Hm. apply andb_true_iff in Hm as [Hm _]. apply andb_true_iff in Hm as [_ Hs].
        rewrite (same_entry _ m ai b ND Hin Hb) in Hs. apply Nr, (Us rk ri); [left; reflexivity|exact Hs].
      + apply IH; auto; [intros k c I; apply Us; right; exact I|intros k c I; apply Ua; right; exact I].
  Qed.
  Lemma only_nodup {V W} (d : dict string V) (e : dict string W) : NoDup (dkeys d) -> NoDup (map fst (only_in d e)).
  Proof. intros N. apply NoDup_filter_map. exact N. Qed.
  Lemma key_ops_needs src tgt mid :
    wf_table src -> wf_table tgt -> wf_table mid -> distinct_indexes src -> distinct_indexes tgt ->
    dvals (t_indexes mid) = kept_keys src tgt +++ new_keys src tgt +++ map snd (changed_keys src tgt) ->
    (forall n, In n (dkeys (t_constraints mid)) <-> In n (dkeys (t_constraints tgt))) ->
    key_ops mid tgt = [] -> names_last src tgt.
  Proof.
    intros Ws Wt Wm Ds Dt Ek Fn E n a m b Ha Na Hb Nb Sc St C. destruct (keys_after src tgt mid Ws Wt Wm Ek) as (E1 & E2 & _).
    apply dget_none in Na as Ga. apply dget_none in Nb as Gb.
    assert (Pr : In (n, m) (key_pairs src tgt)).
    { unfold key_pairs. apply (match_all _ n a m b).
      - apply only_nodup, (wf_keys _ Wt).
      - apply only_in_in. auto.
      - apply only_in_in. auto.
      - intros [].
      - apply same_shape_iff. auto.
      - rewrite !in_app_iff. tauto.
      - intros k c I S. apply only_in_in in I as [I _]. apply same_shape_iff in S as [S1 S2]. apply (Ds k c n a I Ha); congruence.
      - intros k c I ->. apply only_in_in in I as [I _]. apply (same_entry _ n c a (wf_keys _ Ws) I Ha).
      - intros k c I S. apply only_in_in in I as [I _]. apply same_shape_iff in S as [S1 S2]. apply (Dt k c m b I Hb); congruence. }
    assert (Im : In (n, a) (only_in (t_indexes mid) (t_indexes tgt))).
    { rewrite E1. apply filter_In. split; [apply only_in_in; auto|]. apply smem_iff. cbn [fst]. apply (in_map fst) in Pr. exact Pr. }
    rewrite key_ops_eq in E. apply app_eq_nil in E as [_ E]. apply app_eq_nil in E as [E _].
    apply map_eq_nil in E. unfold gone_keys in E. apply map_eq_nil in E.
    assert (K : In n (map fst (key_pairs mid tgt))).
    { destruct (smem n (map fst (key_pairs mid tgt))) eqn:S; [apply smem_iff, S|]. exfalso.
      assert (Z : In (n, a) []); [|destruct Z]. rewrite <- E. apply filter_In. split; [exact Im|]. cbn [fst]. rewrite S. reflexivity. }
    apply in_map_iff in K as ([n' m'] & En & K). cbn [fst] in En. subst n'. apply (key_pairs_in mid tgt n m' Wm Wt) in K as (a' & b' & Ha' & Hb' & _ & _ & S & C').
    apply only_in_in in Im as [Im _]. rewrite (same_entry _ n a' a (wf_keys _ Wm) Ha' Im) in S. apply same_shape_iff in S as [S1 S2].
    assert (m' = m) by (apply (Dt m' b' m b Hb' Hb); congruence). subst m'. rewrite !in_app_iff, !Fn in C'. tauto.
  Qed.

  Lemma kept_col_unchanged src tgt p b :
    wf_table src -> wf_table tgt -> comparable src tgt -> In p (t_columns src) ->
    dget (fst p) (t_columns tgt) = Some b -> column_changed (kept_col tgt p) b = Ok false.
  Proof.
    intros Ws Wt C Hp D. unfold kept_col. rewrite D. destruct (chb (snd p) b) eqn:Ch.
    - apply column_changed_refl.
    - destruct p as [n a]. simpl in *. destruct (C n a b Hp (dget_in _ _ _ D)) as (x & Hx).
      unfold chb in Ch. rewrite Hx in *. congruence.
  Qed.

  (** The columns of a table after a diff was executed. *)
  Lemma settled_cols src tgt mid :
    wf_table src -> wf_table tgt -> wf_table mid ->
    Permutation (dvals (t_columns mid)) (kept_cols src tgt +++ map snd (only_in (t_columns tgt) (t_columns src))) ->
    forall n a, In (n, a) (t_columns mid) <->
               exists p, In p (t_columns src) /\ dmem (fst p) (t_columns tgt) = true /\ a = kept_col tgt p /\ n = fst p
               \/ In p (only_in (t_columns tgt) (t_columns src)) /\ p = (n, a).
  Proof.
    intros Ws Wt Wm PC.
    intros n a. split.
      - intros H. assert (Ha : In a (dvals (t_columns mid))) by (eapply in_dvals; eauto).
        rewrite PC, in_app_iff in Ha. pose proof (wf_cols_named _ Wm n a H) as En. destruct Ha as [Ha|Ha].
        + unfold kept_cols in Ha. apply in_map_iff in Ha as (p & E & Hp). apply filter_In in Hp as [Hp Hd].
          exists p. left. repeat split; auto. rewrite <- En, <- E. apply (kept_col_name src); assumption.
        + apply in_map_iff in Ha as ([m c] & E & H'). simpl in E. subst c. exists (n, a). right. split; [|reflexivity].
          pose proof H' as H2. apply only_in_in in H2 as [H2 _]. rewrite <- En, (wf_cols_named _ Wt m a H2). assumption.
      - intros (p & [(Hp & Hd & -> & ->)|(Hp & ->)]).
        + assert (Ha : In (kept_col tgt p) (dvals (t_columns mid))).
          { rewrite PC, in_app_iff. left. apply in_map. apply filter_In. auto. }
          apply dvals_in in Ha as (m & Ha). rewrite <- (kept_col_name src tgt p Ws Wt Hp), (wf_cols_named _ Wm m _ Ha). assumption.
        + assert (Ha : In a (dvals (t_columns mid))).
          { rewrite PC, in_app_iff. right. apply (in_map snd) in Hp. exact Hp. }
          apply dvals_in in Ha as (m & Ha). apply only_in_in in Hp as [Hp _].
          rewrite <- (wf_cols_named _ Wt n a Hp), (wf_cols_named _ Wm m a Ha). assumption.
  Qed.

  Lemma matched_fk_names tgt mid : wf_table tgt -> wf_table mid -> matches fk_ok (dvals (t_constraints mid)) (dvals (t_constraints tgt)) ->
    forall n, In n (dkeys (t_constraints mid)) <-> In n (dkeys (t_constraints tgt)).
  Proof.
    intros Wt Wm (l & P1 & P2 & Hl) n.
    rewrite <- (src_fk_names mid Wm), <- (src_fk_names tgt Wt), <- P1, <- P2, !map_map.
    rewrite !in_map_iff. split; intros ([a b] & E & H); simpl in E; exists (a, b); split; auto;
      destruct (Hl a b H) as [En _]; simpl; congruence.
  Qed.

  Lemma diff_settled src tgt mid :
    wf_table src -> wf_table tgt -> wf_table mid -> comparable src tgt ->
    names_last src tgt ->
    Permutation (dvals (t_columns mid)) (kept_cols src tgt +++ map snd (only_in (t_columns tgt) (t_columns src))) ->
    dvals (t_indexes mid) = kept_keys src tgt +++ new_keys src tgt +++ map snd (changed_keys src tgt) ->
    matches fk_ok (dvals (t_constraints mid)) (dvals (t_constraints tgt)) ->
    diff mid tgt = Ok [] /\ diff_split mid tgt = Ok (mkSplit None None None).
  Proof.
    intros Ws Wt Wm C Hfk PC EK R.
    pose proof (matched_fk_names tgt mid Wt Wm R) as Fn.
    pose proof (settled_cols src tgt mid Ws Wt Wm PC) as Cin.
    apply diff_empty; auto.
    - intros n. split.
      + intros H. apply dkeys_in in H as (a & H). apply Cin in H as (p & [(Hp & Hd & -> & ->)|(Hp & ->)]).
        * apply dmem_iff, Hd.
        * apply only_in_in in Hp as [Hp _]. eapply in_dkeys; eauto.
      + intros H. apply dkeys_in in H as (b & H). destruct (dget n (t_columns src)) as [a|] eqn:Da.
        * apply (in_dkeys n (kept_col tgt (n, a))). apply Cin. exists (n, a). left. repeat split; auto.
          -- apply dget_in, Da.
          -- apply dmem_iff. eapply in_dkeys; eauto.
        * apply (in_dkeys n b). apply Cin. exists (n, b). right. split; [|reflexivity]. apply only_in_in. auto.
    - intros n a b Ha Hb. apply Cin in Ha as (p & [(Hp & Hd & -> & ->)|(Hp & ->)]).
      + apply (kept_col_unchanged src); auto. apply (dget_iff _ _ _ (wf_cols _ Wt)), Hb.
      + apply only_in_in in Hp as [Hp _]. rewrite (same_entry _ n a b (wf_cols _ Wt) Hp Hb). apply column_changed_refl.
    - apply (key_ops_again src); auto.
    - intros n a b Ha Hb. destruct R as (l & P1 & P2 & Hl).
      assert (Hv : In a (dvals (t_constraints mid))) by (eapply in_dvals; eauto).
      rewrite <- P1 in Hv. apply in_map_iff in Hv as ([a' b'] & E & H). simpl in E. subst a'.
      destruct (Hl a b' H) as [En Et]. rewrite Et. f_equal.
      assert (Hb' : In b' (dvals (t_constraints tgt))). { rewrite <- P2. apply (in_map snd) in H. exact H. }
      apply dvals_in in Hb' as (m & Hb'). rewrite (wf_fks_named _ Wm n a Ha), (wf_fks_named _ Wt m b' Hb') in En. subst m.
      apply (same_entry _ n b' b (wf_fks _ Wt) Hb' Hb).
  Qed.


  Lemma diff_again src tgt mid alters st :
    wf_table src -> wf_table tgt -> wf_table mid -> primary_kept src tgt ->
    names_last src tgt ->
    diff src tgt = Ok alters -> exec_alters alters (stable_of src) = Some st -> stable_of mid = st ->
    diff mid tgt = Ok [] /\ diff_split mid tgt = Ok (mkSplit None None None).
  Proof.
    intros Ws Wt Wm PK Hfk D X Em.
    destruct (diff_exec src tgt alters Ws Wt PK D) as (st' & X' & R & _ & PC & EK & EF).
    assert (st' = st) by congruence. subst st' st. clear X'.
    apply diff_iff in D as [C _]; auto.
    apply (diff_settled src); auto. apply R.
  Qed.

  Lemma diff_again_needs src tgt mid alters st :
    wf_table src -> wf_table tgt -> wf_table mid -> primary_kept src tgt -> distinct_indexes src -> distinct_indexes tgt ->
    diff src tgt = Ok alters -> exec_alters alters (stable_of src) = Some st -> stable_of mid = st ->
    diff mid tgt = Ok [] -> names_last src tgt.
  Proof.
    intros Ws Wt Wm PK Ds Dt D X Em D'.
    destruct (diff_exec src tgt alters Ws Wt PK D) as (st' & X' & R & _ & PC & EK & EF).
    assert (st' = st) by congruence. subst st' st. clear X'.
    apply (key_ops_needs src tgt mid); auto; [apply matched_fk_names; auto; apply R|].
    apply diff_iff in D' as [_ E]; auto. symmetry in E. apply app_eq_nil in E as [_ E]. unfold nonempty_alter in E.
    destruct (kitchen_list mid tgt +++ added_fk_ops mid tgt) eqn:K; [|discriminate E]. apply app_eq_nil in K as [K _].
    unfold kitchen_list in K. do 3 apply app_eq_nil in K as [_ K]. exact K.
  Qed.

  (** ** C05 *)
  Lemma column_changed_in src tgt alters n a b :
    wf_table src -> wf_table tgt -> diff src tgt = Ok alters ->
    In (n, a) (t_columns src) -> In (n, b) (t_columns tgt) ->
    column_changed a b = Ok true -> In (ChangeColumn b) (concat (map al_ops alters)).
  Proof.
    intros Ws Wt D Ha Hb Ch. apply diff_iff in D as [C ->]; auto.
    assert (H : In (ChangeColumn b) (kitchen_list src tgt +++ added_fk_ops src tgt)).
    { rewrite in_app_iff. left. unfold kitchen_list. rewrite !in_app_iff. right. left. apply in_map.
      apply changed_cols_in. exists n, a. split; [assumption|]. split; [apply (dget_iff _ _ _ (wf_cols _ Wt)), Hb|].
      unfold chb. rewrite Ch. reflexivity. }
    rewrite map_app, concat_app, in_app_iff. right. unfold nonempty_alter.
    destruct (kitchen_list src tgt +++ added_fk_ops src tgt) as [|o l]; [destruct H|].
    simpl. rewrite app_nil_r. exact H.
  Qed.
End Float.

(** ** C07 *)

Lemma index_text_determines a b :
  clean_index a = true -> clean_index b = true -> ix_name a = ix_name b -> index_str a = index_str b ->
  same_index a b.
Proof.
  unfold clean_index. rewrite !andb_true_iff, !negb_true_iff, !forallb_forall.
  intros [A1 A2] [B1 B2] En E. pose proof (index_str_type a b E) as Et. split; [|exact Et].
  assert (Ec : "(`" ++ join "`,`" (ix_columns a) ++ "`)" = "(`" ++ join "`,`" (ix_columns b) ++ "`)").
  { unfold index_str in E. rewrite Et, En in E.
    destruct (ix_type b), (truthy (ix_rawname a)), (truthy (ix_rawname b));
      cbn [app join append] in E; rewrite ?sapp_assoc in E; cbn [append] in E; try discriminate;
      repeat match type of E with
             | String ?c _ = String ?c _ => injection E as E
             | ?x ++ _ = ?x ++ _ => apply sapp_inj_l in E
             end; cbn [append]; rewrite E; reflexivity. }
  apply (sapp_inj_l "(`"), sapp_inj_r in Ec.
  assert (G : forall l, (forall x, In x l -> no_char "`" x = true) -> Forall (fun x => has_char "`" x = false) l).
  { intros l H. apply Forall_forall. intros x Hx. specialize (H x Hx). unfold no_char in H. apply negb_true_iff, H. }
  apply (join_inj "`" ",`"); auto; destruct (ix_columns a), (ix_columns b); simpl in *; discriminate.
Qed.

Section Suppress.
  Context {FO : FloatOracle}.

  Lemma in_alter_ops src tgt alters o :
    wf_table src -> wf_table tgt -> diff src tgt = Ok alters ->
    In o (concat (map al_ops alters)) <->
    In o (removed_fk_ops src tgt) \/ In o (kitchen_list src tgt) \/ In o (added_fk_ops src tgt).
  Proof.
    intros Ws Wt D. apply diff_iff in D as [C ->]; auto.
    rewrite map_app, concat_app, in_app_iff.
    assert (N : forall l, In o (concat (map al_ops (opt_list (nonempty_alter (t_name src) l)))) <-> In o l).
    { intros [|x l]; simpl; [reflexivity|]. rewrite app_nil_r. reflexivity. }
    rewrite !N, in_app_iff. reflexivity.
  Qed.

  Lemma in_add_key src tgt alters b :
    wf_table src -> wf_table tgt -> diff src tgt = Ok alters ->
    In (AddKey b) (concat (map al_ops alters)) <-> In b (new_keys src tgt).
  Proof.
    intros Ws Wt D. rewrite (in_alter_ops src tgt alters _ Ws Wt D).
    unfold removed_fk_ops, added_fk_ops, kitchen_list, add_col_ops. rewrite key_ops_eq. rewrite !in_app_iff, !in_map_iff.
    split.
    - intros H. repeat (destruct H as [H|H]); try (destruct H as (x & E & H); discriminate).
      + destruct H as (x & E & H). injection E as ->. exact H.
    - intros H. right. left. right. right. right. left. exists b. auto.
  Qed.
  Lemma in_remove_key src tgt alters b :
    wf_table src -> wf_table tgt -> diff src tgt = Ok alters ->
    In (RemoveKey b) (concat (map al_ops alters)) <-> In b (gone_keys src tgt).
  Proof.
    intros Ws Wt D. rewrite (in_alter_ops src tgt alters _ Ws Wt D).
    unfold removed_fk_ops, added_fk_ops, kitchen_list, add_col_ops. rewrite key_ops_eq. rewrite !in_app_iff, !in_map_iff.
    split.
    - intros H. repeat (destruct H as [H|H]); try (destruct H as (x & E & H); discriminate).
      + destruct H as (x & E & H). injection E as ->. exact H.
    - intros H. right. left. right. right. right. right. left. exists b. auto.
  Qed.

  Lemma suppressed src tgt alters st :
    wf_table src -> wf_table tgt -> primary_kept src tgt -> diff src tgt = Ok alters ->
    exec_alters alters (stable_of src) = Some st ->
    exists L : list (index * index),
      NoDup (map fst L) /\ NoDup (map snd L)
      /\ (forall a b, In (a, b) L ->
            In a (dvals (t_indexes src)) /\ In b (dvals (t_indexes tgt)) /\ In a (st_keys st) /\ same_index a b
            /\ (In (ix_name a) (dkeys (t_constraints src) +++ dkeys (t_constraints tgt))
                \/ In (ix_name b) (dkeys (t_constraints src) +++ dkeys (t_constraints tgt))))
      /\ (forall a, In a (dvals (t_indexes src)) -> ~ In (ix_name a) (dkeys (t_indexes tgt)) ->
            (In (RemoveKey a) (concat (map al_ops alters)) <-> ~ In a (map fst L)))
      /\ (forall b, In b (dvals (t_indexes tgt)) -> ~ In (ix_name b) (dkeys (t_indexes src)) ->
            (In (AddKey b) (concat (map al_ops alters)) <-> ~ In b (map snd L))).
  Proof.
    intros Ws Wt PK D X.
    destruct (diff_exec src tgt alters Ws Wt PK D) as (st' & X' & R & _ & _ & EK & _).
    assert (st' = st) by congruence. subst st'.
    assert (I1 : forall a n, In (n, a) (t_indexes src) -> In n (map fst (key_pairs src tgt)) <-> In a (map fst (renamed_keys src tgt))).
    { intros a n Ha. rewrite !in_map_iff. split.
      - intros ([rk ak] & <- & H). simpl in Ha. pose proof (key_pairs_in src tgt rk ak Ws Wt H) as (a' & b & Ha' & Hb & _).
        exists (a, b). split; [reflexivity|]. apply renamed_keys_in; auto. exists rk, ak. auto.
      - intros ([a' b] & <- & H). simpl in Ha. apply renamed_keys_in in H as (rk & ak & H & Ha' & _); auto.
        exists (rk, ak). split; [|assumption]. simpl. rewrite <- (wf_keys_named _ Ws _ _ Ha), <- (wf_keys_named _ Ws _ _ Ha'). reflexivity. }
    assert (I2 : forall b n, In (n, b) (t_indexes tgt) -> In n (map snd (key_pairs src tgt)) <-> In b (map snd (renamed_keys src tgt))).
    { intros b n Hb. rewrite !in_map_iff. split.
      - intros ([rk ak] & <- & H). simpl in Hb. pose proof (key_pairs_in src tgt rk ak Ws Wt H) as (a & b' & Ha & Hb' & _).
        exists (a, b). split; [reflexivity|]. apply renamed_keys_in; auto. exists rk, ak. auto.
      - intros ([a b'] & <- & H). simpl in Hb. apply renamed_keys_in in H as (rk & ak & H & _ & Hb'); auto.
        exists (rk, ak). split; [|assumption]. simpl. rewrite <- (wf_keys_named _ Wt _ _ Hb), <- (wf_keys_named _ Wt _ _ Hb'). reflexivity. }
    exists (renamed_keys src tgt). split; [|split; [|split; [|split]]].
    - apply NoDup_map_inv' with (f := ix_name). rewrite map_map. apply renamed_keys_nodup_fst; auto.
    - apply NoDup_map_inv' with (f := ix_name). rewrite map_map. apply renamed_keys_nodup_snd; auto.
    - intros a b H. pose proof H as H0. apply renamed_keys_in in H as (rk & ak & H & Ha & Hb); auto.
      pose proof (key_pairs_in src tgt rk ak Ws Wt H) as (a' & b' & Ha' & Hb' & N1 & N2 & S & F).
      rewrite <- (same_entry _ _ _ _ (wf_keys _ Ws) Ha Ha'), <- (same_entry _ _ _ _ (wf_keys _ Wt) Hb Hb') in *.
      split; [eapply in_dvals; eauto|]. split; [eapply in_dvals; eauto|]. split; [|split].
      + rewrite EK, in_app_iff. left. unfold kept_keys. apply in_map_iff. exists (rk, a). split; [reflexivity|].
        apply filter_In. split; [assumption|]. simpl. rewrite N1. apply smem_iff. apply (I1 a rk Ha).
        apply in_map_iff. exists (a, b). auto.
      + apply same_shape_iff, S.
      + rewrite (wf_keys_named _ Ws _ _ Ha), (wf_keys_named _ Wt _ _ Hb). exact F.
    - intros a Ha Hn. rewrite (in_remove_key src tgt alters a Ws Wt D). unfold gone_keys.
      apply dvals_in in Ha as (n & Ha). rewrite (wf_keys_named _ Ws n a Ha) in Hn. rewrite <- (I1 a n Ha), in_map_iff. split.
      + intros ([n' a'] & E & H). simpl in E. subst a'. apply filter_In in H as [H1 H2]. apply only_in_in in H1 as [H1 _].
        simpl in H2. apply negb_true_iff, smem_false in H2.
        rewrite <- (wf_keys_named _ Ws _ _ Ha), (wf_keys_named _ Ws _ _ H1). exact H2.
      + intros H. exists (n, a). split; [reflexivity|]. apply filter_In. split.
        * apply only_in_in. split; [assumption|]. apply dget_none, Hn.
        * simpl. apply negb_true_iff, smem_false, H.
    - intros b Hb Hn. rewrite (in_add_key src tgt alters b Ws Wt D). unfold new_keys.
      apply dvals_in in Hb as (n & Hb). rewrite (wf_keys_named _ Wt n b Hb) in Hn. rewrite <- (I2 b n Hb), in_map_iff. split.
      + intros ([n' b'] & E & H). simpl in E. subst b'. apply filter_In in H as [H1 H2]. apply only_in_in in H1 as [H1 _].
        simpl in H2. apply negb_true_iff, smem_false in H2.
        rewrite <- (wf_keys_named _ Wt _ _ Hb), (wf_keys_named _ Wt _ _ H1). exact H2.
      + intros H. exists (n, b). split; [reflexivity|]. apply filter_In. split.
        * apply only_in_in. split; [assumption|]. apply dget_none, Hn.
        * simpl. apply negb_true_iff, smem_false, H.
  Qed.

  Lemma target_index_present src tgt alters st b :
    wf_table src -> wf_table tgt -> primary_kept src tgt -> diff src tgt = Ok alters ->
    exec_alters alters (stable_of src) = Some st ->
    forallb clean_index (dvals (t_indexes src)) = true -> forallb clean_index (dvals (t_indexes tgt)) = true ->
    In b (dvals (t_indexes tgt)) -> exists a, In a (st_keys st) /\ same_index a b.
  Proof.
    intros Ws Wt PK D X Cs Ct Hb.
    destruct (diff_exec src tgt alters Ws Wt PK D) as (st' & X' & (_ & (l & P1 & P2 & Hl) & _) & _).
    assert (st' = st) by congruence. subst st'.
    pose proof Hb as Hb'. rewrite <- P2 in Hb'. apply in_map_iff in Hb' as ([a b'] & E & H). simpl in E. subst b'.
    exists a. split; [rewrite <- P1; apply (in_map fst) in H; exact H|].
    rewrite forallb_forall in Cs, Ct.
    destruct (Hl a b H) as [->|[(Ha & En & [Et|S])|(_ & S & _)]]; auto.
    - split; reflexivity.
    - apply index_text_determines; auto.
  Qed.
End Suppress.

(** ** C01: whole databases *)
Lemma column_type_differs_refl a : column_type_differs a a = false.
Proof.
  unfold column_type_differs. rewrite String.eqb_refl, Bool.eqb_reflx.
  assert (L : length_eqb (c_length a) (c_length a) = true).
  { destruct (c_length a); simpl; auto using String.eqb_refl, Z.eqb_refl.
    apply (list_eqb_eq String.eqb String.eqb_eq). reflexivity. }
  assert (O : forall x, ostr_eqb x x = true) by (intros [s|]; simpl; auto using String.eqb_refl).
  rewrite L, !O. reflexivity.
Qed.
Lemma changing_self d tn cn : changing_column d d tn cn = false.
Proof.
  unfold changing_column. destruct (dget tn d); [|reflexivity].
  destruct (dget cn (t_columns t)); [|reflexivity]. apply column_type_differs_refl.
Qed.

Section Plan.
  Context {FO : FloatOracle}.

  Lemma no_cycle from to :
    (forall tn cn, changing_column from to tn cn = false) ->
    (forall tn s, cycled_of_table from to tn s = []).
  Proof.
    intros H tn s. unfold cycled_of_table. apply concat_map_nil. intros [kn k] _.
    unfold cycle_of. rewrite !H. reflexivity.
  Qed.

  Lemma differences_self {V} (d : dict string V) : differences d d = ([], [], dkeys d).
  Proof.
    unfold differences.
    assert (E : filter (fun k => negb (dmem k d)) (dkeys d) = []).
    { apply filter_none. intros k Hk. apply negb_false_iff, dmem_iff, Hk. }
    rewrite E. f_equal. apply filter_true. intros k Hk. apply dmem_iff, Hk.
  Qed.

  Lemma plan_self d : wf_tables d -> plan_tables false d (Some d) = Ok [].
  Proof.
    intros W. unfold plan_tables. rewrite differences_self.
    assert (U : mapM (update_table d d) (dkeys d) = Ok (map (fun _ => ([], [])) (dkeys d))).
    { apply mapM_Ok_map. intros n Hn. unfold update_table, dgetE.
      destruct (dget_some_key n d Hn) as (t & Ht). rewrite Ht. cbn [bind].
      apply dget_in in Ht. destruct (wf_named _ W n t Ht) as [_ Wt].
      destruct (diff_self t Wt) as [_ ->]. reflexivity. }
    cbn [mapM bind]. rewrite U. cbn [bind].
    assert (Z : forall (l : list string), concat (map fst (map (fun _ => (@nil op, @nil op)) l)) = [] /\
                 concat (map snd (map (fun _ => (@nil op, @nil op)) l)) = []).
    { intros l. rewrite !map_map. split; apply concat_map_nil; reflexivity. }
    destruct (Z (dkeys d)) as [-> ->].
    assert (E1 : drop_fk_ops d d = []).
    { unfold drop_fk_ops. apply concat_map_nil. intros p _. rewrite no_cycle; [reflexivity|apply changing_self]. }
    assert (E2 : add_fk_ops d d = []).
    { unfold add_fk_ops. apply concat_map_nil. intros p _. rewrite no_cycle; [reflexivity|apply changing_self]. }
    rewrite E1, E2. reflexivity.
  Qed.
End Plan.
