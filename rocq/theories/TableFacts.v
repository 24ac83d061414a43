(** Executing [src.to(target)]: C02, C03. *)
From Verif Require Export DiffFacts SpecDiff.

(** ** Foreign keys *)
Definition changed_fks (src tgt : table) : list (constraint * constraint) := changed_constraints src tgt.
Definition unchanged_fks (src tgt : table) : list (constraint * constraint) :=
  concat (map (fun p => match dget (fst p) (t_constraints tgt) with
                        | Some b => if constraint_changed (snd p) b then [] else [(snd p, b)]
                        | None => []
                        end) (t_constraints src)).
Definition gone_fks (src tgt : table) : list constraint :=
  map snd (only_in (t_constraints src) (t_constraints tgt)) +++ map fst (changed_fks src tgt).
Definition new_fks (src tgt : table) : list constraint :=
  map snd (only_in (t_constraints tgt) (t_constraints src)) +++ map snd (changed_fks src tgt).

Lemma removed_fk_ops_eq src tgt : removed_fk_ops src tgt = map RemoveConstraint (gone_fks src tgt).
Proof. unfold removed_fk_ops, gone_fks. rewrite map_app, !map_map. reflexivity. Qed.
Lemma added_fk_ops_eq src tgt : added_fk_ops src tgt = map AddConstraint (new_fks src tgt).
Proof. unfold added_fk_ops, new_fks. rewrite map_app, !map_map. reflexivity. Qed.

Lemma changed_fks_in src tgt a b :
  In (a, b) (changed_fks src tgt) <->
  exists n, In (n, a) (t_constraints src) /\ dget n (t_constraints tgt) = Some b /\ constraint_changed a b = true.
Proof.
  unfold changed_fks, changed_constraints. rewrite in_concat. split.
  - intros (l & Hl & Hb). apply in_map_iff in Hl as ([n a'] & <- & Hp). simpl in Hb.
    destruct (dget n (t_constraints tgt)) as [b'|] eqn:D; [|destruct Hb].
    destruct (constraint_changed a' b') eqn:Ch; [|destruct Hb]. destruct Hb as [[= <- <-]|[]]. eauto.
  - intros (n & Hp & D & Ch). exists [(a, b)]. split; [|left; reflexivity].
    apply in_map_iff. exists (n, a). simpl. rewrite D, Ch. auto.
Qed.
Lemma unchanged_fks_in src tgt a b :
  In (a, b) (unchanged_fks src tgt) <->
  exists n, In (n, a) (t_constraints src) /\ dget n (t_constraints tgt) = Some b /\ constraint_changed a b = false.
Proof.
  unfold unchanged_fks. rewrite in_concat. split.
  - intros (l & Hl & Hb). apply in_map_iff in Hl as ([n a'] & <- & Hp). simpl in Hb.
    destruct (dget n (t_constraints tgt)) as [b'|] eqn:D; [|destruct Hb].
    destruct (constraint_changed a' b') eqn:Ch; [destruct Hb|]. destruct Hb as [[= <- <-]|[]]. eauto.
  - intros (n & Hp & D & Ch). exists [(a, b)]. split; [|left; reflexivity].
    apply in_map_iff. exists (n, a). simpl. rewrite D, Ch. auto.
Qed.

Lemma gone_fks_in src tgt a :
  In a (gone_fks src tgt) <->
  exists n, In (n, a) (t_constraints src) /\
    match dget n (t_constraints tgt) with None => True | Some b => constraint_changed a b = true end.
Proof.
  unfold gone_fks. rewrite in_app_iff. split.
  - intros [H|H].
    + apply in_map_iff in H as ([n a'] & <- & H). apply only_in_in in H as [H D]. exists n. simpl. rewrite D. auto.
    + apply in_map_iff in H as ([a' b] & <- & H). apply changed_fks_in in H as (n & H & D & C). exists n. simpl. rewrite D. auto.
  - intros (n & H & D). destruct (dget n (t_constraints tgt)) as [b|] eqn:E.
    + right. apply in_map_iff. exists (a, b). split; [reflexivity|]. apply changed_fks_in. eauto.
    + left. apply in_map_iff. exists (n, a). split; [reflexivity|]. apply only_in_in. auto.
Qed.
Lemma new_fks_in src tgt b :
  wf_table src -> wf_table tgt ->
  In b (new_fks src tgt) <->
  exists n, In (n, b) (t_constraints tgt) /\
    match dget n (t_constraints src) with None => True | Some a => constraint_changed a b = true end.
Proof.
  intros Ws Wt. unfold new_fks. rewrite in_app_iff. split.
  - intros [H|H].
    + apply in_map_iff in H as ([n a'] & <- & H). apply only_in_in in H as [H D]. exists n. simpl. rewrite D. auto.
    + apply in_map_iff in H as ([a b'] & <- & H). apply changed_fks_in in H as (n & H & D & C). exists n. simpl.
      split; [apply dget_in, D|]. rewrite (proj2 (dget_iff n a _ (wf_fks _ Ws)) H). exact C.
  - intros (n & H & D). destruct (dget n (t_constraints src)) as [a|] eqn:E.
    + right. apply in_map_iff. exists (a, b). split; [reflexivity|]. apply changed_fks_in.
      exists n. split; [apply dget_in, E|]. split; [|exact D]. apply (dget_iff n b _ (wf_fks _ Wt)), H.
    + left. apply in_map_iff. exists (n, b). split; [reflexivity|]. apply only_in_in. auto.
Qed.

Lemma changed_fks_names src tgt : wf_table src -> wf_table tgt ->
  map (fun ab => k_name (snd ab)) (changed_fks src tgt) = map (fun ab => k_name (fst ab)) (changed_fks src tgt).
Proof.
  intros Ws Wt. apply map_ext_in. intros [a b] H. apply changed_fks_in in H as (n & Ha & Hb & _). simpl.
  rewrite (wf_fks_named _ Ws n a Ha). apply (wf_fks_named _ Wt). apply dget_in, Hb.
Qed.
Lemma changed_fks_nodup src tgt : wf_table src ->
  NoDup (map (fun ab => k_name (fst ab)) (changed_fks src tgt)).
Proof.
  intros Ws. apply (concat_cond_sublist_nodup _ fst _ _ (wf_fks _ Ws)).
  intros [n a] H. simpl. destruct (dget n (t_constraints tgt)) as [b|]; [|left; reflexivity].
  destruct (constraint_changed a b); [|left; reflexivity]. right. eexists. split; [reflexivity|].
  simpl. apply (wf_fks_named _ Ws n a H).
Qed.

Lemma map_name_fst {V} (nm : V -> string) (d : dict string V) p :
  (forall n c, In (n, c) d -> nm c = n) ->
  map nm (map snd (filter p d)) = map fst (filter p d).
Proof.
  intros H. rewrite map_map. apply map_ext_in. intros [n c] Hc. apply filter_In in Hc as [Hc _]. simpl. auto.
Qed.

Lemma gone_fks_nodup src tgt : wf_table src -> wf_table tgt -> NoDup (map k_name (gone_fks src tgt)).
Proof.
  intros Ws Wt. unfold gone_fks. rewrite map_app, (map_map fst k_name). apply NoDup_app_intro.
  - unfold only_in. rewrite (map_name_fst k_name _ _ (wf_fks_named _ Ws)). apply NoDup_filter_map, (wf_fks _ Ws).
  - apply changed_fks_nodup, Ws.
  - intros n Hx Hc. unfold only_in in Hx. rewrite (map_name_fst k_name _ _ (wf_fks_named _ Ws)) in Hx.
    apply in_map_iff in Hx as ([n' a] & E & Hx). simpl in E. subst n'. apply only_in_in in Hx as [_ D].
    apply in_map_iff in Hc as ([a' b'] & E & Hc). apply changed_fks_in in Hc as (m & Ha' & Hb' & _). simpl in E.
    rewrite (wf_fks_named _ Ws m a' Ha') in E. congruence.
Qed.
Lemma new_fks_nodup src tgt : wf_table src -> wf_table tgt -> NoDup (map k_name (new_fks src tgt)).
Proof.
  intros Ws Wt. unfold new_fks. rewrite map_app, (map_map snd k_name (changed_fks src tgt)), changed_fks_names by assumption. apply NoDup_app_intro.
  - unfold only_in. rewrite (map_name_fst k_name _ _ (wf_fks_named _ Wt)). apply NoDup_filter_map, (wf_fks _ Wt).
  - apply changed_fks_nodup, Ws.
  - intros n Hx Hc. unfold only_in in Hx. rewrite (map_name_fst k_name _ _ (wf_fks_named _ Wt)) in Hx.
    apply in_map_iff in Hx as ([n' a] & E & Hx). simpl in E. subst n'. apply only_in_in in Hx as [_ D].
    apply in_map_iff in Hc as ([a' b'] & E & Hc). apply changed_fks_in in Hc as (m & Ha' & Hb' & _). simpl in E.
    rewrite (wf_fks_named _ Ws m a' Ha') in E. subst m. apply dget_none in D. apply D. eapply in_dkeys; eauto.
Qed.

Lemma exec_fks_drops ks l :
  NoDup (map k_name ks) -> (forall k, In k ks -> In (k_name k) (map k_name l)) ->
  exec_fks (map RemoveConstraint ks) l = Some (filter (fun a => negb (smem (k_name a) (map k_name ks))) l).
Proof.
  intros ND H. unfold exec_fks.
  assert (E : run_all fk_drop (map RemoveConstraint ks) l
              = Some (filter (fun a => negb (smem (k_name a) (map k_name ks))) l)).
  { rewrite run_all_map.
    change (run_all (fun s x => fk_drop s (RemoveConstraint x)) ks l)
      with (run_all (fun s x => drop_id k_name String.eqb (k_name x) s) ks l).
    rewrite <- (run_all_map (fun l i => drop_id k_name String.eqb i l) k_name ks l).
    rewrite (run_drops k_name String.eqb seqb_ok); [|assumption|].
    - f_equal. apply filter_ext. intros a. f_equal. unfold smem. clear ND.
      induction (map k_name ks) as [|x xs IHx]; simpl; [reflexivity|]. rewrite IHx, String.eqb_sym. reflexivity.
    - intros i Hi. apply in_map_iff in Hi as (k & <- & Hk). auto. }
  rewrite E. rewrite run_all_skip; [reflexivity|].
  intros o Ho s. apply in_map_iff in Ho as (k & <- & _). reflexivity.
Qed.

Lemma exec_fks_adds ks l :
  NoDup (map k_name ks) -> (forall k, In k ks -> ~ In (k_name k) (map k_name l)) ->
  exec_fks (map AddConstraint ks) l = Some (l +++ ks).
Proof.
  intros ND H. unfold exec_fks. rewrite run_all_skip.
  - rewrite run_all_map. rewrite <- (run_puts k_name String.eqb seqb_ok ks l ND H).
    apply run_all_ext. intros s k Hk. simpl.
    rewrite (proj2 (has_id_false k_name String.eqb seqb_ok _ _) (H k Hk)). reflexivity.
  - intros o Ho s. apply in_map_iff in Ho as (k & <- & _). reflexivity.
Qed.

(** What stays after the drops. *)
Definition kept_fks (src tgt : table) : list constraint :=
  filter (fun a => negb (smem (k_name a) (map k_name (gone_fks src tgt)))) (dvals (t_constraints src)).

Lemma kept_fks_eq src tgt : wf_table src -> wf_table tgt ->
  kept_fks src tgt = map fst (unchanged_fks src tgt).
Proof.
  intros Ws Wt. unfold kept_fks, unchanged_fks, dvals.
  rewrite filter_map_comm. rewrite concat_map, map_map.
  assert (K : forall n a, In (n, a) (t_constraints src) ->
            smem (k_name a) (map k_name (gone_fks src tgt))
            = match dget n (t_constraints tgt) with None => true | Some b => constraint_changed a b end).
  { intros n a H. rewrite (wf_fks_named _ Ws n a H). destruct (smem n (map k_name (gone_fks src tgt))) eqn:E.
    - apply smem_iff, in_map_iff in E as (a' & En & Ha'). apply gone_fks_in in Ha' as (n' & Ha' & C).
      rewrite (wf_fks_named _ Ws n' a' Ha') in En. subst n'.
      apply (dget_iff n a _ (wf_fks _ Ws)) in H. apply (dget_iff n a' _ (wf_fks _ Ws)) in Ha'.
      assert (a' = a) by congruence. subst. destruct (dget n (t_constraints tgt)); [symmetry; exact C|reflexivity].
    - apply smem_false in E. destruct (dget n (t_constraints tgt)) as [b|] eqn:D.
      + destruct (constraint_changed a b) eqn:C; [|reflexivity]. exfalso. apply E.
        rewrite <- (wf_fks_named _ Ws n a H). apply in_map. apply gone_fks_in. exists n. rewrite D. auto.
      + exfalso. apply E. rewrite <- (wf_fks_named _ Ws n a H). apply in_map. apply gone_fks_in. exists n. rewrite D. auto. }
  revert K. generalize (t_constraints src) as d. induction d as [|[n a] d IH]; intros K; simpl; [reflexivity|].
  rewrite (K n a) by (left; reflexivity). rewrite <- IH by (intros; apply K; right; assumption).
  destruct (dget n (t_constraints tgt)) as [b|]; [|reflexivity].
  destruct (constraint_changed a b); reflexivity.
Qed.

Lemma src_fk_names t : wf_table t -> map k_name (dvals (t_constraints t)) = dkeys (t_constraints t).
Proof. intros W. apply (dvals_names _ k_name (wf_fks_named _ W)). Qed.

Lemma exec_removed_fks src tgt : wf_table src -> wf_table tgt ->
  exec_fks (removed_fk_ops src tgt) (dvals (t_constraints src)) = Some (kept_fks src tgt).
Proof.
  intros Ws Wt. rewrite removed_fk_ops_eq. apply exec_fks_drops; [apply gone_fks_nodup; assumption|].
  intros k Hk. apply gone_fks_in in Hk as (n & H & _). apply in_map. eapply in_dvals; eauto.
Qed.

Lemma new_not_kept src tgt k : wf_table src -> wf_table tgt ->
  In k (new_fks src tgt) -> ~ In (k_name k) (map k_name (kept_fks src tgt)).
Proof.
  intros Ws Wt H Hin. rewrite kept_fks_eq in Hin by assumption. rewrite map_map in Hin.
  apply in_map_iff in Hin as ([a b] & E & Hab). simpl in E. apply unchanged_fks_in in Hab as (n & Ha & Hb & C).
  apply new_fks_in in H as (m & Hk & D); auto.
  rewrite (wf_fks_named _ Wt m k Hk), (wf_fks_named _ Ws n a Ha) in E. subst m.
  rewrite (proj2 (dget_iff n a _ (wf_fks _ Ws)) Ha) in D.
  apply (dget_iff n k _ (wf_fks _ Wt)) in Hk. congruence.
Qed.

Lemma exec_added_fks src tgt : wf_table src -> wf_table tgt ->
  exec_fks (added_fk_ops src tgt) (kept_fks src tgt) = Some (kept_fks src tgt +++ new_fks src tgt).
Proof.
  intros Ws Wt. rewrite added_fk_ops_eq. apply exec_fks_adds; [apply new_fks_nodup; assumption|].
  intros k Hk. apply new_not_kept; assumption.
Qed.

Lemma constraint_unchanged a b : constraint_changed a b = false -> constraint_str a = constraint_str b.
Proof. unfold constraint_changed. rewrite negb_false_iff. apply String.eqb_eq. Qed.

(** A list of foreign keys, distinct by name, that realises the target's. *)
Lemma fks_match src tgt l :
  wf_table src -> wf_table tgt ->
  NoDup (map k_name l) ->
  (forall n, In n (map k_name l) <-> In n (dkeys (t_constraints tgt))) ->
  (forall a n b, In a l -> k_name a = n -> In (n, b) (t_constraints tgt) -> constraint_str a = constraint_str b) ->
  matches fk_ok l (dvals (t_constraints tgt)).
Proof.
  intros Ws Wt ND Hn Ht.
  exists (map (fun a => (a, match dget (k_name a) (t_constraints tgt) with Some b => b | None => a end)) l).
  rewrite !map_map. simpl. rewrite map_id. split; [reflexivity|]. split.
  - apply NoDup_Permutation.
    + apply (NoDup_map_inv k_name). rewrite map_map. erewrite map_ext_in; [exact ND|].
      intros a Ha. simpl. destruct (dget (k_name a) (t_constraints tgt)) as [b|] eqn:D; [|reflexivity].
      apply (wf_fks_named _ Wt). apply dget_in, D.
    + apply (dvals_nodup _ k_name (wf_fks _ Wt) (wf_fks_named _ Wt)).
    + intros b. rewrite in_map_iff. split.
      * intros (a & <- & Ha). assert (Hk : In (k_name a) (dkeys (t_constraints tgt))) by (apply Hn, in_map, Ha).
        apply dget_some_key in Hk as (b & D). rewrite D. apply dget_in in D. eapply in_dvals; eauto.
      * intros Hb. apply dvals_in in Hb as (n & Hb).
        assert (Hk : In n (map k_name l)) by (apply Hn; eapply in_dkeys; eauto).
        apply in_map_iff in Hk as (a & En & Ha). exists a. split; [|assumption].
        rewrite En, (proj2 (dget_iff n b _ (wf_fks _ Wt)) Hb). reflexivity.
  - intros a b H. apply in_map_iff in H as (a' & E & Ha). injection E as -> <-.
    assert (Hk : In (k_name a) (dkeys (t_constraints tgt))) by (apply Hn, in_map, Ha).
    apply dget_some_key in Hk as (b & D). rewrite D. split.
    + symmetry. apply (wf_fks_named _ Wt). apply dget_in, D.
    + eapply Ht; eauto. apply dget_in, D.
Qed.

Lemma diff_fks_match src tgt : wf_table src -> wf_table tgt ->
  matches fk_ok (kept_fks src tgt +++ new_fks src tgt) (dvals (t_constraints tgt)).
Proof.
  intros Ws Wt. apply (fks_match src); auto.
  - rewrite map_app. apply NoDup_app_intro.
    + unfold kept_fks. apply NoDup_filter_map. rewrite src_fk_names by assumption. apply (wf_fks _ Ws).
    + apply new_fks_nodup; assumption.
    + intros n Hk Hn. apply in_map_iff in Hn as (k & <- & Hn'). apply (new_not_kept src tgt k Ws Wt Hn' Hk).
  - intros n. rewrite map_app, in_app_iff. split.
    + intros [H|H].
      * rewrite kept_fks_eq, map_map in H by assumption. apply in_map_iff in H as ([a b] & E & H).
        apply unchanged_fks_in in H as (m & Ha & Hb & _). simpl in E. rewrite (wf_fks_named _ Ws m a Ha) in E. subst m.
        apply dget_in in Hb. eapply in_dkeys; eauto.
      * apply in_map_iff in H as (k & <- & H). apply new_fks_in in H as (m & Hk & _); auto.
        rewrite (wf_fks_named _ Wt m k Hk). eapply in_dkeys; eauto.
    + intros H. apply dget_some_key in H as (b & Hb). pose proof (dget_in _ _ _ Hb) as Hi.
      destruct (dget n (t_constraints src)) as [a|] eqn:Da.
      * pose proof (dget_in _ _ _ Da) as Hia. destruct (constraint_changed a b) eqn:C.
        -- right. rewrite <- (wf_fks_named _ Wt n b Hi). apply in_map, new_fks_in; auto. exists n. rewrite Da. auto.
        -- left. rewrite kept_fks_eq, map_map by assumption. apply in_map_iff. exists (a, b). split.
           ++ apply (wf_fks_named _ Ws n a Hia).
           ++ apply unchanged_fks_in. eauto.
      * right. rewrite <- (wf_fks_named _ Wt n b Hi). apply in_map, new_fks_in; auto. exists n. rewrite Da. auto.
  - intros a n b Ha En Hb. rewrite in_app_iff in Ha. destruct Ha as [Ha|Ha].
    + rewrite kept_fks_eq in Ha by assumption. apply in_map_iff in Ha as ([a' b'] & <- & H). simpl in *.
      apply unchanged_fks_in in H as (m & Ha & Hb' & C). rewrite (wf_fks_named _ Ws m a' Ha) in En. subst m.
      apply (dget_iff n b _ (wf_fks _ Wt)) in Hb. assert (b' = b) by congruence. subst. apply constraint_unchanged, C.
    + apply new_fks_in in Ha as (m & Hk & _); auto. rewrite (wf_fks_named _ Wt m a Hk) in En. subst m.
      apply (dget_iff n a _ (wf_fks _ Wt)) in Hk. apply (dget_iff n b _ (wf_fks _ Wt)) in Hb. congruence.
Qed.

(** ** Columns and indexes *)
Section Cols.
  Context {FO : FloatOracle}.

  Lemma cols_match src tgt L :
    wf_table src -> wf_table tgt -> comparable src tgt ->
    Permutation L (kept_cols src tgt +++ map snd (only_in (t_columns tgt) (t_columns src))) ->
    matches (col_ok (dvals (t_columns src))) L (dvals (t_columns tgt)).
  Proof.
    intros Ws Wt C P.
    exists (map (fun p => (kept_col tgt p, match dget (fst p) (t_columns tgt) with Some b => b | None => snd p end))
              (filter (fun p => dmem (fst p) (t_columns tgt)) (t_columns src))
            +++ map (fun q => (snd q, snd q)) (only_in (t_columns tgt) (t_columns src))).
    split; [|split].
    - rewrite P, map_app, !map_map. reflexivity.
    - rewrite map_app, !map_map. simpl. apply NoDup_Permutation.
      + apply (NoDup_map_inv c_name). rewrite map_app, !map_map. apply NoDup_app_intro.
        * rewrite (map_ext_in _ fst).
          -- apply NoDup_filter_map, (wf_cols _ Ws).
          -- intros p Hp. apply filter_In in Hp as [Hp Hd]. rewrite dmem_dget in Hd.
             destruct (dget (fst p) (t_columns tgt)) as [b|] eqn:D; [|discriminate].
             apply (wf_cols_named _ Wt). apply dget_in, D.
        * rewrite (map_ext_in _ fst).
          -- apply NoDup_filter_map, (wf_cols _ Wt).
          -- intros [n c] H. apply only_in_in in H as [H _]. apply (wf_cols_named _ Wt n c H).
        * intros n H1 H2. apply in_map_iff in H1 as (p & <- & Hp). apply filter_In in Hp as [Hp Hd].
          rewrite dmem_dget in Hd. destruct (dget (fst p) (t_columns tgt)) as [b|] eqn:D; [|discriminate].
          rewrite (wf_cols_named _ Wt _ _ (dget_in _ _ _ D)) in H2.
          apply in_map_iff in H2 as ([m c] & E & H2). apply only_in_in in H2 as [H2 Hs]. simpl in E.
          rewrite (wf_cols_named _ Wt m c H2) in E. subst m. apply dget_none in Hs. apply Hs. apply (in_map fst) in Hp. exact Hp.
      + apply (dvals_nodup _ c_name (wf_cols _ Wt) (wf_cols_named _ Wt)).
      + intros b. rewrite in_app_iff. split.
        * intros [H|H].
          -- apply in_map_iff in H as (p & <- & Hp). apply filter_In in Hp as [Hp Hd].
             rewrite dmem_dget in Hd. destruct (dget (fst p) (t_columns tgt)) as [b|] eqn:D; [|discriminate].
             apply dget_in in D. eapply in_dvals; eauto.
          -- apply in_map_iff in H as ([n c] & <- & H). apply only_in_in in H as [H _]. eapply in_dvals; eauto.
        * intros H. apply dvals_in in H as (n & H). destruct (dget n (t_columns src)) as [a|] eqn:D.
          -- left. apply in_map_iff. exists (n, a). simpl.
             rewrite (proj2 (dget_iff n b _ (wf_cols _ Wt)) H). split; [reflexivity|].
             apply filter_In. split; [apply dget_in, D|]. simpl. apply dmem_iff. eapply in_dkeys; eauto.
          -- right. apply in_map_iff. exists (n, b). split; [reflexivity|]. apply only_in_in. auto.
    - intros a b H. rewrite in_app_iff in H. destruct H as [H|H].
      + apply in_map_iff in H as ([n s] & E & Hp). apply filter_In in Hp as [Hp Hd]. simpl in *.
        pose proof (kept_col_name src tgt (n, s) Ws Wt Hp) as En. simpl in En.
        rewrite dmem_dget in Hd. destruct (dget n (t_columns tgt)) as [b'|] eqn:D; [|discriminate].
        injection E as <- <-. split; [rewrite En; symmetry; apply (wf_cols_named _ Wt), dget_in, D|].
        unfold kept_col. simpl. rewrite D. destruct (chb s b') eqn:Ch; [left; reflexivity|right].
        split; [eapply in_dvals; eauto|]. unfold chb in Ch.
        destruct (C n s b' Hp (dget_in _ _ _ D)) as (x & Hx). rewrite Hx in Ch. subst x.
        unfold column_changed in Hx. unfold declared_same.
        destruct (String.eqb_spec (column_str s) (column_str b')); [left; assumption|right].
        apply bind_ok in Hx as (r & Hr & Hx). injection Hx as Hx. apply negb_false_iff in Hx. congruence.
      + apply in_map_iff in H as (q & E & _). injection E as <- <-. split; [reflexivity|left; reflexivity].
  Qed.

  Lemma primary_kept_stable src tgt :
    wf_table src -> wf_table tgt -> primary_kept src tgt -> primary_stable src tgt.
  Proof.
    intros Ws Wt H n a b Ha Hb P. apply is_primary_iff in P.
    unfold key_changed. destruct (H a b) as [Hc|Hc]; auto.
    - eapply in_dvals; eauto.
    - eapply in_dvals; eauto.
    - rewrite (wf_keys_named _ Ws n a Ha), (wf_keys_named _ Wt n b Hb). reflexivity.
    - apply same_shape_iff in Hc. rewrite Hc. apply andb_false_r.
    - rewrite Hc, String.eqb_refl. reflexivity.
  Qed.

  Lemma keys_match src tgt K :
    wf_table src -> wf_table tgt ->
    Permutation (map fst (key_pairing src tgt)) K ->
    Permutation (map snd (key_pairing src tgt)) (dvals (t_indexes tgt)) ->
    matches (key_ok (map k_name (dvals (t_constraints src) +++ dvals (t_constraints tgt)))
               (dvals (t_indexes src))) K (dvals (t_indexes tgt)).
  Proof.
    intros Ws Wt P1 P2. exists (key_pairing src tgt). split; [assumption|]. split; [assumption|].
    intros a b H. unfold key_pairing in H. rewrite !in_app_iff in H. destruct H as [H|[H|[H|H]]].
    - apply unchanged_keys_in in H as (n & Ha & Hb & Ch). right. left. apply dget_in in Hb.
      split; [eapply in_dvals; eauto|]. split.
      + rewrite (wf_keys_named _ Ws n a Ha), (wf_keys_named _ Wt n b Hb). reflexivity.
      + unfold key_changed in Ch. apply andb_false_iff in Ch as [Ch|Ch]; apply negb_false_iff in Ch.
        * left. apply String.eqb_eq, Ch.
        * right. apply same_shape_iff, Ch.
    - apply renamed_keys_in in H as (rk & ak & Hp & Ha & Hb); auto. right. right.
      split; [eapply in_dvals; eauto|].
      apply key_pairs_in in Hp as (a2 & b2 & Ha2 & Hb2 & _ & _ & S & C); auto.
      assert (a2 = a). { apply (dget_iff rk a2 _ (wf_keys _ Ws)) in Ha2. apply (dget_iff rk a _ (wf_keys _ Ws)) in Ha. congruence. }
      assert (b2 = b). { apply (dget_iff ak b2 _ (wf_keys _ Wt)) in Hb2. apply (dget_iff ak b _ (wf_keys _ Wt)) in Hb. congruence. }
      subst. split; [apply same_shape_iff, S|].
      rewrite map_app, !src_fk_names by assumption.
      rewrite (wf_keys_named _ Ws rk a Ha), (wf_keys_named _ Wt ak b Hb). exact C.
    - apply in_map_iff in H as (x & E & _). injection E as <- <-. left. reflexivity.
    - apply in_map_iff in H as (x & E & _). injection E as <- <-. left. reflexivity.
  Qed.

  Lemma filter_none_all {A} (p : A -> bool) l : (forall a, In a l -> p a = false) -> filter p l = [].
  Proof. apply filter_none. Qed.

  Lemma key_ops_kind src tgt o : In o (key_ops src tgt) -> is_key_op o = true.
  Proof.
    rewrite key_ops_eq, !in_app_iff. intros [H|[H|H]]; apply in_map_iff in H as (x & <- & _); reflexivity.
  Qed.

  Lemma kitchen_keys src tgt : filter is_key_op (kitchen_list src tgt) = key_ops src tgt.
  Proof.
    unfold kitchen_list, add_col_ops. rewrite !filter_app.
    rewrite (filter_none is_key_op (map _ (only_in (t_columns tgt) _))) by (intros o H; apply in_map_iff in H as (x & <- & _); reflexivity).
    rewrite (filter_none is_key_op (map ChangeColumn _)) by (intros o H; apply in_map_iff in H as (x & <- & _); reflexivity).
    rewrite (filter_none is_key_op (map _ (only_in (t_columns src) _))) by (intros o H; apply in_map_iff in H as (x & <- & _); reflexivity).
    simpl. apply filter_true. apply key_ops_kind.
  Qed.
  Lemma kitchen_fks src tgt : filter is_fk_op (kitchen_list src tgt) = [].
  Proof.
    apply filter_none. intros o H. unfold kitchen_list, add_col_ops in H. rewrite !in_app_iff in H.
    destruct H as [H|[H|[H|H]]]; try (apply in_map_iff in H as (x & <- & _); reflexivity).
    apply key_ops_kind in H. destruct o; simpl in *; congruence.
  Qed.

  Lemma map_kind {X} (f : X -> aop) (p : aop -> bool) l b :
    (forall x, p (f x) = b) -> forall o, In o (map f l) -> p o = b.
  Proof. intros H o Ho. apply in_map_iff in Ho as (x & <- & _). apply H. Qed.

  (** The kitchen sink part, whatever foreign key clauses come with it. *)
  Lemma exec_kitchen src tgt tail fks fks' :
    wf_table src -> wf_table tgt -> comparable src tgt -> primary_stable src tgt ->
    (forall o, In o tail -> is_fk_op o = true) ->
    exec_fks tail fks = Some fks' ->
    exists C K,
      exec_alter (kitchen_list src tgt +++ tail) (mkStable (dvals (t_columns src)) (dvals (t_indexes src)) fks)
      = Some (mkStable C K fks')
      /\ matches (col_ok (dvals (t_columns src))) C (dvals (t_columns tgt))
      /\ matches (key_ok (map k_name (dvals (t_constraints src) +++ dvals (t_constraints tgt)))
               (dvals (t_indexes src))) K (dvals (t_indexes tgt))
      /\ (same_relative_order src tgt -> map c_name C = dkeys (t_columns tgt))
      /\ Permutation C (kept_cols src tgt +++ map snd (only_in (t_columns tgt) (t_columns src)))
      /\ K = kept_keys src tgt +++ new_keys src tgt +++ map snd (changed_keys src tgt).
  Proof.
    intros Ws Wt Cm PS Tf Ef.
    destruct (exec_cols_spec src tgt (key_ops src tgt +++ tail) Ws Wt) as (C & EC & PC & OC).
    - intros o H s. rewrite in_app_iff in H. destruct H as [H|H].
      + apply key_ops_kind in H. destruct o; simpl in *; congruence.
      + apply Tf in H. destruct o; simpl in *; congruence.
    - intros o H s. rewrite in_app_iff in H. destruct H as [H|H].
      + apply key_ops_kind in H. destruct o; simpl in *; congruence.
      + apply Tf in H. destruct o; simpl in *; congruence.
    - destruct (exec_keys_spec src tgt (kitchen_list src tgt +++ tail) Ws Wt PS) as (K & EK & EKeq & P1 & P2).
      { rewrite filter_app, kitchen_keys.
        rewrite (filter_none is_key_op tail), app_nil_r; [reflexivity|].
        intros o H. apply Tf in H. destruct o; simpl in *; congruence. }
      exists C, K. unfold exec_alter. cbn [st_cols st_keys st_fks].
      assert (EC' : exec_cols (kitchen_list src tgt +++ tail) (dvals (t_columns src)) = Some C).
      { rewrite <- EC. f_equal. unfold kitchen_list. rewrite <- !app_assoc. reflexivity. }
      rewrite EC', EK.
      rewrite exec_fks_filter, filter_app, kitchen_fks. simpl.
      rewrite (filter_true is_fk_op tail Tf), Ef. split; [reflexivity|]. split; [|split; [|split; [|split; [exact PC|exact EKeq]]]].
      + apply cols_match; assumption.
      + apply keys_match; assumption.
      + intros SO. apply OC. unfold same_relative_order in SO.
        assert (E : forall (d : dict string column) l, filter (fun n => dmem n d) l = filter (fun n => smem n (dkeys d)) l).
        { intros d l. apply filter_ext. intros n. destruct (dmem n d) eqn:D.
          - symmetry. apply smem_iff, dmem_iff, D.
          - symmetry. apply smem_false, dmem_false, D. }
        rewrite !E. exact SO.
  Qed.

  Lemma diff_iff src tgt alters :
    wf_table src -> wf_table tgt ->
    diff src tgt = Ok alters <->
    comparable src tgt /\
    alters = opt_list (nonempty_alter (t_name src) (removed_fk_ops src tgt))
             +++ opt_list (nonempty_alter (t_name src) (kitchen_list src tgt +++ added_fk_ops src tgt)).
  Proof.
    intros Ws Wt. unfold diff. rewrite bind_ok. split.
    - intros (k & Hk & [= <-]). apply kitchen_ops_iff in Hk as [C ->]; auto; [apply (wf_cols _ Ws)|apply (wf_cols _ Wt)].
    - intros [C ->]. exists (kitchen_list src tgt). split; [|reflexivity].
      apply kitchen_ops_iff; auto; [apply (wf_cols _ Ws)|apply (wf_cols _ Wt)].
  Qed.

  Lemma removed_only_fks src tgt o : In o (removed_fk_ops src tgt) -> is_fk_op o = true.
  Proof. rewrite removed_fk_ops_eq. apply map_kind. reflexivity. Qed.
  Lemma added_only_fks src tgt o : In o (added_fk_ops src tgt) -> is_fk_op o = true.
  Proof. rewrite added_fk_ops_eq. apply map_kind. reflexivity. Qed.

  Lemma exec_alter_fks_only ops t fks' :
    (forall o, In o ops -> is_fk_op o = true) -> exec_fks ops (st_fks t) = Some fks' ->
    exec_alter ops t = Some (mkStable (st_cols t) (st_keys t) fks').
  Proof.
    intros H E. unfold exec_alter. rewrite exec_cols_filter, exec_keys_filter.
    rewrite (filter_none is_col_op), (filter_none is_key_op).
    - unfold exec_cols, exec_keys. simpl. rewrite E. reflexivity.
    - intros o Ho. apply H in Ho. destruct o; simpl in *; congruence.
    - intros o Ho. apply H in Ho. destruct o; simpl in *; congruence.
  Qed.

  Lemma diff_exec src tgt alters :
    wf_table src -> wf_table tgt -> primary_kept src tgt -> diff src tgt = Ok alters ->
    exists st, exec_alters alters (stable_of src) = Some st /\ realises src tgt st
      /\ (same_relative_order src tgt -> map c_name (st_cols st) = dkeys (t_columns tgt))
      /\ Permutation (st_cols st) (kept_cols src tgt +++ map snd (only_in (t_columns tgt) (t_columns src)))
      /\ st_keys st = kept_keys src tgt +++ new_keys src tgt +++ map snd (changed_keys src tgt)
      /\ st_fks st = kept_fks src tgt +++ new_fks src tgt.
  Proof.
    intros Ws Wt PK D. apply diff_iff in D as [C ->]; auto.
    unfold exec_alters. rewrite run_all_app.
    change (run_all _ (opt_list (nonempty_alter (t_name src) (removed_fk_ops src tgt))) (stable_of src))
      with (exec_alters (opt_list (nonempty_alter (t_name src) (removed_fk_ops src tgt))) (stable_of src)).
    rewrite exec_alters_nonempty.
    rewrite (exec_alter_fks_only _ (stable_of src) (kept_fks src tgt) (removed_only_fks src tgt) (exec_removed_fks src tgt Ws Wt)).
    match goal with |- context [run_all ?f ?l ?s] => change (run_all f l s) with (exec_alters l s) end.
    rewrite exec_alters_nonempty. cbn [stable_of st_cols st_keys].
    destruct (exec_kitchen src tgt (added_fk_ops src tgt) (kept_fks src tgt) _ Ws Wt C
                (primary_kept_stable _ _ Ws Wt PK) (added_only_fks src tgt) (exec_added_fks src tgt Ws Wt))
      as (L & K & E & M1 & M2 & O & PC & EK).
    rewrite E. eexists. split; [reflexivity|]. split; [|split; [exact O|split; [exact PC|split; [exact EK|reflexivity]]]].
    split; [exact M1|]. split; [exact M2|]. apply diff_fks_match; assumption.
  Qed.

  (** The other way round: a change of the primary key is not executed. *)
  Lemma key_pass1_change b : forall ops l l', run_all key_pass1 ops l = Some l' -> In (ChangeKey b) ops ->
    exists a, In a l /\ id_of_key a = KNamed (ix_name b).
  Proof.
    assert (D : forall i (l l' : list index), drop_id id_of_key key_id_eqb i l = Some l' ->
              incl l' l /\ exists a, In a l /\ id_of_key a = i).
    { intros i l l' H. unfold drop_id in H. destruct (has_id id_of_key key_id_eqb i l) eqn:Hi; [|discriminate]. injection H as <-. split.
      - intros a Ha. apply filter_In in Ha as [Ha _]. exact Ha.
      - apply existsb_exists in Hi as (a & Ha & E). apply key_id_ok in E. eauto. }
    induction ops as [|o ops IH]; intros l l' R I; [destruct I|]. simpl in R. destruct (key_pass1 l o) as [l1|] eqn:E; [|discriminate].
    assert (Sub : incl l1 l).
    { destruct o; simpl in E; try (injection E as <-; apply incl_refl); apply D in E as [E _]; exact E. }
    destruct I as [->|I].
    - simpl in E. apply D in E as [_ E]. exact E.
    - destruct (IH l1 l' R I) as (a & Ha & Ea). exists a. split; [apply Sub, Ha|exact Ea].
  Qed.
  Lemma exec_keys_primary src tgt ops K : wf_table src -> wf_table tgt ->
    filter is_key_op ops = key_ops src tgt -> exec_keys ops (dvals (t_indexes src)) = Some K -> primary_kept src tgt.
  Proof.
    intros Ws Wt Eo X a b Ha Hb En Ea. rewrite exec_keys_filter, Eo in X. unfold exec_keys in X.
    destruct (run_all key_pass1 (key_ops src tgt) (dvals (t_indexes src))) as [l1|] eqn:R; [|discriminate].
    destruct (key_changed a b) eqn:C.
    - exfalso. apply dvals_in in Ha as (n & Ha). apply dvals_in in Hb as (m & Hb).
      rewrite (wf_keys_named _ Ws n a Ha), (wf_keys_named _ Wt m b Hb) in En. subst m.
      assert (Ic : In (ChangeKey b) (key_ops src tgt)).
      { rewrite key_ops_eq, !in_app_iff. right. right. apply in_map_iff. exists (a, b). split; [reflexivity|]. apply changed_keys_in.
        exists n. split; [exact Ha|]. split; [apply (dget_iff _ _ _ (wf_keys _ Wt)), Hb|exact C]. }
      destruct (key_pass1_change b _ _ _ R Ic) as (a' & Ha' & E'). apply dvals_in in Ha' as (n' & Ha').
      unfold id_of_key in E'. destruct (ix_type a') eqn:T; try discriminate; injection E' as E';
        rewrite (wf_keys_named _ Ws n' a' Ha'), (wf_keys_named _ Wt n b Hb) in E'; subst n';
        apply (dget_iff _ _ _ (wf_keys _ Ws)) in Ha, Ha'; congruence.
    - unfold key_changed in C. apply andb_false_iff in C as [C|C]; apply negb_false_iff in C.
      + right. apply String.eqb_eq, C.
      + left. apply same_shape_iff, C.
  Qed.
  Lemma exec_kitchen_primary src tgt tail fks st : wf_table src -> wf_table tgt ->
    (forall o, In o tail -> is_fk_op o = true) ->
    exec_alter (kitchen_list src tgt +++ tail) (mkStable (dvals (t_columns src)) (dvals (t_indexes src)) fks) = Some st -> primary_kept src tgt.
  Proof.
    intros Ws Wt Tf X. unfold exec_alter in X. cbn [st_cols st_keys st_fks] in X.
    destruct (exec_cols _ _); [|discriminate]. destruct (exec_keys _ _) as [K|] eqn:EK; [|discriminate].
    refine (exec_keys_primary src tgt _ K Ws Wt _ EK). rewrite filter_app, kitchen_keys.
    rewrite (filter_none is_key_op tail), app_nil_r; [reflexivity|]. intros o H. apply Tf in H. destruct o; simpl in *; congruence.
  Qed.
  Lemma diff_exec_primary src tgt alters st :
    wf_table src -> wf_table tgt -> diff src tgt = Ok alters -> exec_alters alters (stable_of src) = Some st -> primary_kept src tgt.
  Proof.
    intros Ws Wt D X. apply diff_iff in D as [C ->]; auto. unfold exec_alters in X. rewrite run_all_app in X.
    match type of X with match ?r with _ => _ end = _ => change r with (exec_alters (opt_list (nonempty_alter (t_name src) (removed_fk_ops src tgt))) (stable_of src)) in X end.
    rewrite exec_alters_nonempty in X.
    rewrite (exec_alter_fks_only _ (stable_of src) (kept_fks src tgt) (removed_only_fks src tgt) (exec_removed_fks src tgt Ws Wt)) in X.
    match type of X with context [run_all ?f ?l ?s] => change (run_all f l s) with (exec_alters l s) in X end.
    rewrite exec_alters_nonempty in X. apply (exec_kitchen_primary _ _ _ _ _ Ws Wt (added_only_fks src tgt) X).
  Qed.
End Cols.
