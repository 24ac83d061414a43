(** Executing a table diff: the lemmas behind C01-C07 and C10. *)
From Verif Require Export ExecFacts.

(** ** From lists of keys to lists of entries *)
Lemma mapM_keys {V B} (d : dict string V) (p : string -> bool) (F : string -> V -> res B) :
  NoDup (dkeys d) ->
  mapM (fun n => let* c := dgetE n d in F n c) (filter p (dkeys d))
  = mapM (fun q => F (fst q) (snd q)) (filter (fun q => p (fst q)) d).
Proof.
  intros ND.
  assert (G : forall q, In q d -> dgetE (fst q) d = Ok (snd q)).
  { intros [n v] H. unfold dgetE. simpl. apply (dget_iff n v d ND) in H. rewrite H. reflexivity. }
  unfold dkeys. rewrite filter_map_comm.
  assert (G' : forall q, In q (filter (fun q => p (fst q)) d) -> dgetE (fst q) d = Ok (snd q)).
  { intros q H. apply filter_In in H as [H _]. auto. }
  clear G. revert G'. generalize (filter (fun q => p (fst q)) d) as l.
  induction l as [|q l IH]; simpl; intros G; [reflexivity|].
  rewrite (G q) by auto. simpl. rewrite IH by auto. reflexivity.
Qed.

Lemma mapM_ext {A B} (f g : A -> res B) l : (forall a, In a l -> f a = g a) -> mapM f l = mapM g l.
Proof.
  induction l as [|a l IH]; simpl; intros H; [reflexivity|].
  rewrite (H a) by auto. rewrite IH by auto. reflexivity.
Qed.

(** ** Positions *)
Definition pos_of (names : list string) (n : string) : position :=
  match before_in PFirst n names with Some p => p | None => PEnd end.

Lemma before_in_app p n done rest :
  ~ In n done -> before_in p n (done +++ n :: rest) = Some (fold_left (fun _ x => PAfter x) done p).
Proof.
  revert p; induction done as [|a done IH]; intros p H; simpl.
  - rewrite String.eqb_refl. reflexivity.
  - destruct (String.eqb_spec a n); [exfalso; apply H; left; assumption|].
    apply IH. intros Hn. apply H. right; assumption.
Qed.

Lemma before_in_none p n l : before_in p n l = None <-> ~ In n l.
Proof.
  revert p; induction l as [|a l IH]; intros p; simpl; [tauto|].
  destruct (String.eqb_spec a n).
  - split; [discriminate|intros H; exfalso; apply H; auto].
  - rewrite IH. split; intros H; [intros [?|?]; [contradiction|auto]|auto].
Qed.

(** ** Adding columns *)

(** Success and contents, whatever the order of the current columns is. *)
Lemma adds_succeed P rest : forall done L,
  NoDup (map fst (done +++ rest)) ->
  (forall q, In q (done +++ rest) -> c_name (snd q) = fst q) ->
  NoDup (map c_name L) ->
  (forall n, In n (map fst done) -> In n (map c_name L)) ->
  (forall n, In n (map fst rest) -> In n (map c_name L) <-> P n = true) ->
  exists L',
    run_all col_pass2
      (map (fun q => AddColumn (snd q) (pos_of (map fst (done +++ rest)) (fst q)))
         (filter (fun q => negb (P (fst q))) rest)) L = Some L'
    /\ Permutation L' (L +++ map snd (filter (fun q => negb (P (fst q))) rest))
    /\ (map c_name L = map fst done +++ filter P (map fst rest) ->
        map c_name L' = map fst (done +++ rest)).
Proof.
  induction rest as [|q rest IH]; intros done L ND Hnm NDL Hdone Hrest.
  - simpl. exists L. rewrite !app_nil_r. auto.
  - assert (Edr : done +++ q :: rest = (done +++ [q]) +++ rest) by (rewrite <- app_assoc; reflexivity).
    cbn [filter]. destruct (P (fst q)) eqn:EP; cbn [negb map run_all].
    + rewrite Edr in *. destruct (IH (done +++ [q]) L) as (L' & HL' & PL & OL); auto.
      * intros n. rewrite map_app, in_app_iff. simpl. intros [Hn|[<-|[]]]; [auto|].
        apply Hrest; [left; reflexivity|assumption].
      * intros n Hn. apply Hrest. right; assumption.
      * exists L'. split; [assumption|]. split; [assumption|].
        intros E. apply OL. rewrite map_app, <- app_assoc. simpl. rewrite E. simpl. rewrite EP. reflexivity.
    + assert (Hnq : ~ In (fst q) (map c_name L)).
      { intros H. apply Hrest in H; [congruence|left; reflexivity]. }
      assert (Ecq : c_name (snd q) = fst q) by (apply Hnm; rewrite in_app_iff; right; left; reflexivity).
      assert (NDq : ~ In (fst q) (map fst done)).
      { rewrite map_app in ND. simpl in ND. apply NoDup_remove_2 in ND. intros H. apply ND. rewrite in_app_iff; auto. }
      assert (Step : exists L1,
        col_pass2 L (AddColumn (snd q) (pos_of (map fst (done +++ q :: rest)) (fst q))) = Some L1
        /\ Permutation L1 (snd q :: L)
        /\ (map c_name L = map fst done +++ filter P (map fst rest) ->
            map c_name L1 = map fst (done +++ [q]) +++ filter P (map fst rest))).
      { unfold pos_of. rewrite map_app. simpl map. rewrite before_in_app by assumption.
        simpl. rewrite Ecq. rewrite (proj2 (has_id_false c_name String.eqb seqb_ok _ _) Hnq).
        destruct done as [|d0 done0] using rev_ind.
        - simpl. eexists. split; [reflexivity|]. split; [reflexivity|]. simpl. intros ->. congruence.
        - clear IHdone0. rewrite map_app, fold_left_app. simpl.
          assert (Ha : In (fst d0) (map c_name L)).
          { apply Hdone. rewrite map_app, in_app_iff. right. left. reflexivity. }
          assert (Sp : exists X Y, map c_name L = X +++ fst d0 :: Y /\ ~ In (fst d0) X).
          { apply in_split in Ha as (X & Y & E). exists X, Y. split; [assumption|].
            rewrite E in NDL. apply NoDup_remove_2 in NDL. intros H. apply NDL. rewrite in_app_iff; auto. }
          destruct Sp as (X & Y & EX & HX).
          destruct (put_after_spec c_name String.eqb seqb_ok (fst d0) (snd q) L X Y EX HX) as (L1 & E1 & M1 & P1).
          exists L1. split; [assumption|]. split; [assumption|].
          intros E. rewrite M1. rewrite EX in E.
          assert (Hd0 : ~ In (fst d0) (map fst done0)).
          { rewrite map_app in ND. rewrite map_app in ND. simpl in ND. rewrite <- app_assoc in ND. simpl in ND.
            apply NoDup_remove_2 in ND. intros H. apply ND. rewrite in_app_iff; auto. }
          rewrite <- app_assoc in E. simpl in E.
          assert (Spl : forall (A A' B B' : list string) x, ~ In x A -> ~ In x A' ->
                     A +++ x :: B = A' +++ x :: B' -> A = A' /\ B = B').
          { clear. induction A as [|a A IH]; intros [|a' A'] B B' x H H' E; simpl in E.
            - injection E as ->. auto.
            - injection E as Ex _. exfalso. apply H'. left. congruence.
            - injection E as Ex _. exfalso. apply H. left. congruence.
            - injection E as -> E. apply IH in E as [-> ->]; [auto| |]; intros ?; [apply H|apply H']; right; assumption. }
          destruct (Spl _ _ _ _ _ HX Hd0 E) as [-> ->].
          rewrite !map_app. simpl. rewrite <- !app_assoc. simpl. rewrite Ecq. reflexivity. }
      destruct Step as (L1 & E1 & P1 & O1). rewrite E1.
      assert (PN : Permutation (map c_name L1) (fst q :: map c_name L)).
      { rewrite P1. simpl. rewrite Ecq. reflexivity. }
      rewrite Edr in *.
      destruct (IH (done +++ [q]) L1) as (L' & HL' & PL & OL); auto.
      * apply (Permutation_NoDup (Permutation_sym PN)). constructor; assumption.
      * intros n. rewrite map_app, in_app_iff. simpl. intros [Hn|[<-|[]]]; rewrite PN; simpl; auto.
      * intros n Hn. rewrite PN. simpl. rewrite <- Hrest by (right; assumption).
        split; [|auto]. intros [<-|H]; [|assumption]. exfalso.
        rewrite map_app in ND. rewrite map_app in ND. simpl in ND. rewrite <- app_assoc in ND. simpl in ND.
        apply NoDup_remove_2 in ND. apply ND. rewrite in_app_iff; auto.
      * exists L'. split; [assumption|]. split.
        -- rewrite PL, P1. simpl. apply Permutation_middle.
        -- intros E. apply OL, O1. rewrite E. simpl. rewrite EP. reflexivity.
Qed.

(** ** The column part of a diff *)
Section Cols.
  Context {FO : FloatOracle}.

  Definition chb (a b : column) : bool :=
    match column_changed a b with Ok x => x | Raise _ => false end.

  Definition changed_cols (src tgt : table) : list column :=
    concat (map (fun p => match dget (fst p) (t_columns tgt) with
                          | Some b => if chb (snd p) b then [b] else []
                          | None => []
                          end) (t_columns src)).

  Definition add_col_ops (src tgt : table) : list aop :=
    map (fun q => AddColumn (snd q) (pos_of (map fst (t_columns tgt)) (fst q)))
      (only_in (t_columns tgt) (t_columns src)).

  (** No comparison raises. *)
  Definition comparable (src tgt : table) : Prop :=
    forall n a b, In (n, a) (t_columns src) -> In (n, b) (t_columns tgt) ->
                  exists x, column_changed a b = Ok x.

  Definition kitchen_list (src tgt : table) : list aop :=
    add_col_ops src tgt
    +++ map ChangeColumn (changed_cols src tgt)
    +++ map (fun q => RemoveColumn (snd q)) (only_in (t_columns src) (t_columns tgt))
    +++ key_ops src tgt.

  Lemma added_column_ops_eq src tgt :
    NoDup (dkeys (t_columns tgt)) ->
    added_column_ops tgt (filter (fun k => negb (dmem k (t_columns src))) (dkeys (t_columns tgt)))
    = Ok (add_col_ops src tgt).
  Proof.
    intros ND. unfold added_column_ops.
    rewrite (mapM_keys _ _ (fun n c => let* p := column_before tgt n in Ok (AddColumn c p)) ND).
    unfold add_col_ops, only_in.
    apply mapM_Ok_map. intros [n c] H. apply filter_In in H as [H _]. simpl.
    unfold column_before, pos_of. fold (dkeys (t_columns tgt)).
    destruct (before_in PFirst n (dkeys (t_columns tgt))) eqn:E; [reflexivity|].
    apply before_in_none in E. exfalso. apply E. eapply in_dkeys; eauto.
  Qed.

  Lemma changed_column_ops_ok src tgt ops :
    NoDup (dkeys (t_columns src)) -> NoDup (dkeys (t_columns tgt)) ->
    changed_column_ops src tgt (filter (fun k => dmem k (t_columns tgt)) (dkeys (t_columns src))) = Ok ops ->
    comparable src tgt /\ ops = map ChangeColumn (changed_cols src tgt).
  Proof.
    intros NDs NDt. unfold changed_column_ops.
    rewrite (mapM_keys _ _ (fun n a => let* b := dgetE n (t_columns tgt) in
                                       let* ch := column_changed a b in
                                       Ok (if ch then [ChangeColumn b] else [])) NDs).
    unfold rmap. destruct (mapM _ _) eqn:E; [|discriminate]. intros [= <-].
    apply mapM_ok in E. split.
    - intros n x y Hx Hy.
      assert (Hf : In (n, x) (filter (fun q => dmem (fst q) (t_columns tgt)) (t_columns src))).
      { apply filter_In. split; [assumption|]. simpl. apply dmem_iff. eapply in_dkeys; eauto. }
      destruct (Forall2_in_l _ _ _ _ E Hf) as (z & _ & Hz). simpl in Hz.
      apply bind_ok in Hz as (b & Hb & Hz). apply bind_ok in Hz as (ch & Hch & _).
      unfold dgetE in Hb. rewrite (proj2 (dget_iff n y _ NDt) Hy) in Hb. injection Hb as <-. eauto.
    - unfold changed_cols. rewrite concat_map, map_map.
      assert (Ef : concat (map (fun p => map ChangeColumn
               match dget (fst p) (t_columns tgt) with
               | Some b => if chb (snd p) b then [b] else [] | None => [] end) (t_columns src))
             = concat (map (fun p => map ChangeColumn
               match dget (fst p) (t_columns tgt) with
               | Some b => if chb (snd p) b then [b] else [] | None => [] end)
               (filter (fun q => dmem (fst q) (t_columns tgt)) (t_columns src)))).
      { clear E. induction (t_columns src) as [|q d IH]; simpl; [reflexivity|].
        rewrite dmem_dget. destruct (dget (fst q) (t_columns tgt)) eqn:D; simpl.
        - rewrite D, IH; [reflexivity|]. simpl in NDs. inversion NDs; assumption.
        - apply IH. simpl in NDs. inversion NDs; assumption. }
      rewrite Ef. clear Ef. f_equal.
      induction E as [|q l qs ls Hq Hqs IH]; simpl; [reflexivity|].
      f_equal; [|assumption].
      apply bind_ok in Hq as (b & Hb & Hz). apply bind_ok in Hz as (ch & Hch & [= <-]).
      unfold dgetE in Hb. destruct (dget (fst q) (t_columns tgt)); [|discriminate]. injection Hb as ->.
      unfold chb. rewrite Hch. destruct ch; reflexivity.
  Qed.

  Lemma changed_column_ops_total src tgt :
    NoDup (dkeys (t_columns src)) -> NoDup (dkeys (t_columns tgt)) -> comparable src tgt ->
    exists ops, changed_column_ops src tgt (filter (fun k => dmem k (t_columns tgt)) (dkeys (t_columns src))) = Ok ops.
  Proof.
    intros NDs NDt C. unfold changed_column_ops.
    rewrite (mapM_keys _ _ (fun n a => let* b := dgetE n (t_columns tgt) in
                                       let* ch := column_changed a b in
                                       Ok (if ch then [ChangeColumn b] else [])) NDs).
    rewrite (mapM_Ok_map _ (fun q => match dget (fst q) (t_columns tgt) with
                                     | Some b => if chb (snd q) b then [ChangeColumn b] else [] | None => [] end)).
    - simpl. eauto.
    - intros [n a] H. apply filter_In in H as [H Hd]. simpl in *.
      unfold dgetE. rewrite dmem_dget in Hd. destruct (dget n (t_columns tgt)) as [b|] eqn:D; [|discriminate].
      simpl. unfold chb. destruct (C n a b) as (x & Hx); [assumption|apply dget_in; assumption|].
      rewrite Hx. reflexivity.
  Qed.

  Lemma removed_column_ops_eq src tgt :
    NoDup (dkeys (t_columns src)) ->
    removed_column_ops src (filter (fun k => negb (dmem k (t_columns tgt))) (dkeys (t_columns src)))
    = Ok (map (fun q => RemoveColumn (snd q)) (only_in (t_columns src) (t_columns tgt))).
  Proof.
    intros ND. unfold removed_column_ops.
    rewrite (mapM_keys _ _ (fun n c => Ok (RemoveColumn c)) ND).
    apply mapM_Ok_map. reflexivity.
  Qed.

  Lemma kitchen_ops_iff src tgt ops :
    NoDup (dkeys (t_columns src)) -> NoDup (dkeys (t_columns tgt)) ->
    kitchen_ops src tgt = Ok ops <-> comparable src tgt /\ ops = kitchen_list src tgt.
  Proof.
    intros NDs NDt. unfold kitchen_ops, differences. rewrite (added_column_ops_eq src tgt NDt).
    cbn [bind]. split.
    - intros H. apply bind_ok in H as (c & Hc & H). apply bind_ok in H as (r & Hr & [= <-]).
      rewrite (removed_column_ops_eq src tgt NDs) in Hr. injection Hr as <-.
      destruct (changed_column_ops_ok _ _ _ NDs NDt Hc) as [C ->]. split; [assumption|reflexivity].
    - intros [C ->]. destruct (changed_column_ops_total _ _ NDs NDt C) as (c & Hc). rewrite Hc.
      destruct (changed_column_ops_ok _ _ _ NDs NDt Hc) as [_ ->]. cbn [bind].
      rewrite (removed_column_ops_eq src tgt NDs). reflexivity.
  Qed.

  (** The definition a common column has after the diff. *)
  Definition kept_col (tgt : table) (p : string * column) : column :=
    match dget (fst p) (t_columns tgt) with
    | Some b => if chb (snd p) b then b else snd p
    | None => snd p
    end.

  Lemma changed_cols_in src tgt b :
    In b (changed_cols src tgt) <->
    exists n a, In (n, a) (t_columns src) /\ dget n (t_columns tgt) = Some b /\ chb a b = true.
  Proof.
    unfold changed_cols. rewrite in_concat. split.
    - intros (l & Hl & Hb). apply in_map_iff in Hl as ([n a] & <- & Hp). simpl in Hb.
      destruct (dget n (t_columns tgt)) as [b'|] eqn:D; [|destruct Hb].
      destruct (chb a b') eqn:Ch; [|destruct Hb]. destruct Hb as [->|[]]. eauto.
    - intros (n & a & Hp & D & Ch). exists [b]. split; [|left; reflexivity].
      apply in_map_iff. exists (n, a). simpl. rewrite D, Ch. auto.
  Qed.

  Lemma changed_cols_names src tgt :
    (forall n c, In (n, c) (t_columns tgt) -> c_name c = n) ->
    map c_name (changed_cols src tgt)
    = map fst (filter (fun p => match dget (fst p) (t_columns tgt) with
                                | Some b => chb (snd p) b | None => false end) (t_columns src)).
  Proof.
    intros Hn. unfold changed_cols. induction (t_columns src) as [|[n a] d IH]; simpl; [reflexivity|].
    destruct (dget n (t_columns tgt)) as [b|] eqn:D; simpl; [|assumption].
    destruct (chb a b); simpl; [|assumption]. rewrite IH. f_equal. apply Hn, dget_in, D.
  Qed.

  Lemma existsb_eqb_in x l : existsb (fun i => String.eqb i x) l = true <-> In x l.
  Proof.
    rewrite existsb_exists. split.
    - intros (y & Hy & E). apply String.eqb_eq in E. subst; assumption.
    - intros H. exists x. split; [assumption|apply String.eqb_refl].
  Qed.

  Lemma dvals_names {V} (d : dict string V) (nm : V -> string) :
    (forall n c, In (n, c) d -> nm c = n) -> map nm (dvals d) = dkeys d.
  Proof.
    unfold dvals, dkeys. rewrite map_map. intros H. apply map_ext_in. intros [n c] Hc. apply H, Hc.
  Qed.

  Lemma kept_col_name src tgt p :
    wf_table src -> wf_table tgt -> In p (t_columns src) -> c_name (kept_col tgt p) = fst p.
  Proof.
    intros Ws Wt H. unfold kept_col.
    destruct (dget (fst p) (t_columns tgt)) as [b|] eqn:D.
    - destruct (chb (snd p) b).
      + apply (wf_cols_named _ Wt). apply dget_in, D.
      + apply (wf_cols_named _ Ws). destruct p; assumption.
    - apply (wf_cols_named _ Ws). destruct p; assumption.
  Qed.

  Definition kept_cols (src tgt : table) : list column :=
    map (kept_col tgt) (filter (fun p => dmem (fst p) (t_columns tgt)) (t_columns src)).

  Lemma pass1_spec src tgt tail :
    wf_table src -> wf_table tgt ->
    (forall o, In o tail -> forall s, col_pass1 s o = Some s) ->
    run_all col_pass1 (add_col_ops src tgt
      +++ map ChangeColumn (changed_cols src tgt)
      +++ map (fun q => RemoveColumn (snd q)) (only_in (t_columns src) (t_columns tgt)) +++ tail)
      (dvals (t_columns src)) = Some (kept_cols src tgt).
  Proof.
    intros Ws Wt Ht. rewrite run_all_app, run_all_skip; cycle 1.
    { intros o Ho s. apply in_map_iff in Ho as (q & <- & _). reflexivity. }
    rewrite run_all_app, run_all_map.
    change (run_all (fun s x => col_pass1 s (ChangeColumn x)) (changed_cols src tgt) (dvals (t_columns src)))
      with (run_all (fun l b => replace_id c_name String.eqb b l) (changed_cols src tgt) (dvals (t_columns src))).
    rewrite (run_replaces c_name String.eqb seqb_ok); cycle 1.
    { rewrite (changed_cols_names src tgt (wf_cols_named _ Wt)). apply NoDup_filter_map, (wf_cols _ Ws). }
    { intros b Hb. apply changed_cols_in in Hb as (n & a & Hp & D & _).
      rewrite (wf_cols_named _ Wt n b (dget_in _ _ _ D)).
      rewrite (dvals_names _ c_name (wf_cols_named _ Ws)). eapply in_dkeys; eauto. }
    assert (E1 : map (fun x => match find (fun b => String.eqb (c_name b) (c_name x)) (changed_cols src tgt) with
                               | Some b => b | None => x end) (dvals (t_columns src))
                 = map (kept_col tgt) (t_columns src)).
    { unfold dvals. rewrite map_map. apply map_ext_in. intros [n a] Hp. simpl.
      rewrite (wf_cols_named _ Ws n a Hp). unfold kept_col. simpl.
      destruct (find _ _) as [b0|] eqn:F.
      - apply find_some in F as [Hb Hn]. apply String.eqb_eq in Hn.
        apply changed_cols_in in Hb as (n' & a' & Hp' & D & Ch).
        rewrite (wf_cols_named _ Wt n' b0 (dget_in _ _ _ D)) in Hn. subst n'. rewrite D.
        assert (a' = a). { pose proof (dget_iff n a _ (wf_cols _ Ws)) as G1. pose proof (dget_iff n a' _ (wf_cols _ Ws)) as G2.
          apply G1 in Hp. apply G2 in Hp'. congruence. }
        subst. rewrite Ch. reflexivity.
      - destruct (dget n (t_columns tgt)) as [b|] eqn:D; [|reflexivity].
        destruct (chb a b) eqn:Ch; [|reflexivity]. exfalso.
        assert (Hb : In b (changed_cols src tgt)) by (apply changed_cols_in; eauto).
        apply (find_none _ _ F) in Hb. rewrite (wf_cols_named _ Wt n b (dget_in _ _ _ D)), String.eqb_refl in Hb.
        discriminate. }
    rewrite E1, run_all_app, run_all_map. clear E1.
    assert (Enames : map c_name (map (kept_col tgt) (t_columns src)) = dkeys (t_columns src)).
    { rewrite map_map. apply map_ext_in. intros p Hp. apply (kept_col_name src); assumption. }
    assert (Eids : run_all (fun s x => col_pass1 s (RemoveColumn (snd x))) (only_in (t_columns src) (t_columns tgt))
                     (map (kept_col tgt) (t_columns src))
                   = run_all (fun l i => drop_id c_name String.eqb i l) (map fst (only_in (t_columns src) (t_columns tgt)))
                     (map (kept_col tgt) (t_columns src))).
    { rewrite run_all_map. apply run_all_ext. intros s [n a] H. simpl.
      apply filter_In in H as [H _]. rewrite (wf_cols_named _ Ws n a H). reflexivity. }
    rewrite Eids, (run_drops c_name String.eqb seqb_ok); cycle 1.
    { apply NoDup_filter_map, (wf_cols _ Ws). }
    { intros i Hi. rewrite Enames. apply in_map_iff in Hi as (q & <- & Hq). apply filter_In in Hq as [Hq _].
      apply (in_map fst) in Hq. exact Hq. }
    rewrite run_all_skip by assumption. f_equal. unfold kept_cols. rewrite filter_map_comm. f_equal.
    apply filter_ext_in. intros p Hp. rewrite (kept_col_name src) by assumption.
    destruct (dmem (fst p) (t_columns tgt)) eqn:D.
    - apply negb_true_iff. apply not_true_iff_false. rewrite existsb_eqb_in. intros Hi.
      apply in_map_iff in Hi as (q & E & Hq). apply filter_In in Hq as [_ Hq]. rewrite E, D in Hq. discriminate.
    - apply negb_false_iff. rewrite existsb_eqb_in. apply in_map. apply filter_In. rewrite D. auto.
  Qed.

  (** Columns after the diff. *)
  Lemma exec_cols_spec src tgt tail :
    wf_table src -> wf_table tgt ->
    (forall o, In o tail -> forall s, col_pass1 s o = Some s) ->
    (forall o, In o tail -> forall s, col_pass2 s o = Some s) ->
    exists L,
      exec_cols (add_col_ops src tgt
        +++ map ChangeColumn (changed_cols src tgt)
        +++ map (fun q => RemoveColumn (snd q)) (only_in (t_columns src) (t_columns tgt)) +++ tail)
        (dvals (t_columns src)) = Some L
      /\ Permutation L (kept_cols src tgt +++ map snd (only_in (t_columns tgt) (t_columns src)))
      /\ (filter (fun n => dmem n (t_columns tgt)) (dkeys (t_columns src))
          = filter (fun n => dmem n (t_columns src)) (dkeys (t_columns tgt)) ->
          map c_name L = dkeys (t_columns tgt)).
  Proof.
    intros Ws Wt H1 H2. unfold exec_cols. rewrite (pass1_spec src tgt tail Ws Wt H1).
    assert (Ek : map c_name (kept_cols src tgt) = filter (fun n => dmem n (t_columns tgt)) (dkeys (t_columns src))).
    { unfold kept_cols, dkeys. rewrite filter_map_comm, map_map. apply map_ext_in.
      intros p Hp. apply filter_In in Hp as [Hp _]. apply (kept_col_name src); assumption. }
    destruct (adds_succeed (fun n => dmem n (t_columns src)) (t_columns tgt) [] (kept_cols src tgt))
      as (L & HL & PL & OL).
    - exact (wf_cols _ Wt).
    - intros [n c] Hq. apply (wf_cols_named _ Wt n c Hq).
    - rewrite Ek. apply NoDup_filter, (wf_cols _ Ws).
    - intros n [].
    - intros n Hn. rewrite Ek, filter_In. split.
      + intros [Hs _]. apply dmem_iff, Hs.
      + intros Hs. split; [apply dmem_iff, Hs|apply dmem_iff, Hn].
    - exists L. split; [|split; [exact PL|]].
      + rewrite run_all_app. unfold add_col_ops, only_in. cbn [app] in HL. rewrite HL.
        apply run_all_skip. intros o Ho s. rewrite !in_app_iff in Ho.
        destruct Ho as [Ho|[Ho|Ho]].
        * apply in_map_iff in Ho as (c & <- & _). reflexivity.
        * apply in_map_iff in Ho as (c & <- & _). reflexivity.
        * apply H2, Ho.
      + intros E. apply OL. rewrite Ek. exact E.
  Qed.
End Cols.

(** ** The three kinds of clauses do not interfere *)
Definition is_col_op (o : aop) : bool :=
  match o with AddColumn _ _ | ChangeColumn _ | RemoveColumn _ => true | _ => false end.
Definition is_key_op (o : aop) : bool :=
  match o with AddKey _ | ChangeKey _ | RemoveKey _ => true | _ => false end.
Definition is_fk_op (o : aop) : bool :=
  match o with AddConstraint _ | ChangeConstraint _ | RemoveConstraint _ => true | _ => false end.

Lemma run_all_filter {S O} (f : S -> O -> option S) (p : O -> bool) ops s :
  (forall s o, p o = false -> f s o = Some s) -> run_all f ops s = run_all f (filter p ops) s.
Proof.
  intros H. revert s; induction ops as [|o ops IH]; intros s; simpl; [reflexivity|].
  destruct (p o) eqn:E; simpl.
  - destruct (f s o); [apply IH|reflexivity].
  - rewrite (H s o E). apply IH.
Qed.

Lemma exec_cols_filter ops l : exec_cols ops l = exec_cols (filter is_col_op ops) l.
Proof.
  unfold exec_cols.
  rewrite (run_all_filter col_pass1 is_col_op ops l) by (intros s [] E; simpl in *; congruence).
  destruct (run_all col_pass1 (filter is_col_op ops) l) as [l'|]; [|reflexivity].
  apply run_all_filter. intros s [] E; simpl in *; congruence.
Qed.
Lemma exec_keys_filter ops l : exec_keys ops l = exec_keys (filter is_key_op ops) l.
Proof.
  unfold exec_keys.
  rewrite (run_all_filter key_pass1 is_key_op ops l) by (intros s [] E; simpl in *; congruence).
  destruct (run_all key_pass1 (filter is_key_op ops) l) as [l'|]; [|reflexivity].
  apply run_all_filter. intros s [] E; simpl in *; congruence.
Qed.
Lemma exec_fks_filter ops l : exec_fks ops l = exec_fks (filter is_fk_op ops) l.
Proof.
  unfold exec_fks.
  rewrite (run_all_filter fk_drop is_fk_op ops l) by (intros s [] E; simpl in *; congruence).
  destruct (run_all fk_drop (filter is_fk_op ops) l) as [l'|]; [|reflexivity].
  apply run_all_filter. intros s [] E; simpl in *; congruence.
Qed.

(** ** The index part of a diff *)

Lemma match_keys_in cn removed : forall added matched rk ak,
  In (rk, ak) (match_keys cn removed added matched) ->
  exists ri ai, In (rk, ri) removed /\ In (ak, ai) added /\ same_shape ri ai = true
    /\ (In rk cn \/ In ak cn) /\ ~ In ak matched.
Proof.
  induction removed as [|[rk0 ri0] removed IH]; intros added matched rk ak H; [destruct H|].
  cbn [match_keys] in H. unfold find_key_match in H.
  destruct (find (key_match cn rk0 ri0 matched) added) as [[ak0 ai0]|] eqn:F; cbn [option_map fst] in H.
  - destruct H as [E|H].
    + injection E as <- <-. apply find_some in F as [Hin Hm]. unfold key_match in Hm. cbn [fst snd] in Hm.
      apply andb_true_iff in Hm as [Hm Hc]. apply andb_true_iff in Hm as [Hn Hs].
      exists ri0, ai0. repeat split; auto.
      * left; reflexivity.
      * apply orb_true_iff in Hc as [Hc|Hc]; apply smem_iff in Hc; auto.
      * apply negb_true_iff in Hn. apply smem_false in Hn. assumption.
    + apply IH in H as (ri & ai & H1 & H2 & H3 & H4 & H5).
      exists ri, ai. repeat split; auto; [right; assumption|]. intros Hm; apply H5; right; assumption.
  - apply IH in H as (ri & ai & H1 & H2 & H3 & H4 & H5).
    exists ri, ai. repeat split; auto. right; assumption.
Qed.

Lemma match_keys_nodup_snd cn removed : forall added matched,
  NoDup (map snd (match_keys cn removed added matched)).
Proof.
  induction removed as [|[rk0 ri0] removed IH]; intros added matched; simpl; [constructor|].
  destruct (find_key_match cn rk0 ri0 matched added) as [ak0|]; simpl; [|apply IH].
  constructor; [|apply IH]. intros H. apply in_map_iff in H as ([rk ak] & E & H). simpl in E. subst.
  apply match_keys_in in H as (? & ? & _ & _ & _ & _ & Hn). apply Hn. left; reflexivity.
Qed.

Lemma match_keys_nodup_fst cn removed : forall added matched,
  NoDup (map fst removed) -> NoDup (map fst (match_keys cn removed added matched)).
Proof.
  induction removed as [|[rk0 ri0] removed IH]; intros added matched ND; simpl; [constructor|].
  simpl in ND. inversion ND as [|? ? Hn ND']; subst.
  destruct (find_key_match cn rk0 ri0 matched added) as [ak0|]; simpl; [|apply IH; assumption].
  constructor; [|apply IH; assumption]. intros H. apply in_map_iff in H as ([rk ak] & E & H). simpl in E. subst.
  apply match_keys_in in H as (ri & ? & H & _). apply Hn. apply (in_map fst) in H. exact H.
Qed.

Lemma itype_eqb_eq a b : itype_eqb a b = true <-> a = b.
Proof. destruct a, b; simpl; split; congruence. Qed.

Lemma same_shape_iff a b : same_shape a b = true <-> ix_columns a = ix_columns b /\ ix_type a = ix_type b.
Proof.
  unfold same_shape. rewrite andb_true_iff, itype_eqb_eq, (list_eqb_eq String.eqb String.eqb_eq). tauto.
Qed.

Lemma is_primary_iff i : is_primary i = true <-> ix_type i = IPrimary.
Proof. apply itype_eqb_eq. Qed.

Lemma index_str_type a b : index_str a = index_str b -> ix_type a = ix_type b.
Proof.
  unfold index_str.
  destruct (ix_type a), (ix_type b), (truthy (ix_rawname a)), (truthy (ix_rawname b));
    intros H; simpl in H; (reflexivity || discriminate).
Qed.

Lemma key_unchanged_type a b : key_changed a b = false -> ix_type a = ix_type b.
Proof.
  unfold key_changed. rewrite andb_false_iff. intros [H|H]; apply negb_false_iff in H.
  - apply String.eqb_eq in H. apply index_str_type, H.
  - apply same_shape_iff in H. tauto.
Qed.

(** Identities of the indexes of a well-formed table are distinct. *)
Lemma one_primary t a b :
  wf_table t -> In a (dvals (t_indexes t)) -> In b (dvals (t_indexes t)) ->
  is_primary a = true -> is_primary b = true -> a = b.
Proof.
  intros W Ha Hb Pa Pb. pose proof (wf_primary _ W) as L.
  assert (Fa : In a (filter is_primary (dvals (t_indexes t)))) by (apply filter_In; auto).
  assert (Fb : In b (filter is_primary (dvals (t_indexes t)))) by (apply filter_In; auto).
  destruct (filter is_primary (dvals (t_indexes t))) as [|x [|y l]]; simpl in *; [tauto| |lia].
  destruct Fa as [->|[]], Fb as [->|[]]. reflexivity.
Qed.

Lemma id_of_key_inj t a b :
  wf_table t -> In a (dvals (t_indexes t)) -> In b (dvals (t_indexes t)) ->
  id_of_key a = id_of_key b -> a = b.
Proof.
  intros W Ha Hb E.
  destruct (is_primary a) eqn:Pa, (is_primary b) eqn:Pb.
  - eapply one_primary; eauto.
  - exfalso. apply is_primary_iff in Pa. unfold id_of_key in E. rewrite Pa in E.
    unfold is_primary in Pb. destruct (ix_type b); simpl in *; discriminate.
  - exfalso. apply is_primary_iff in Pb. unfold id_of_key in E. rewrite Pb in E.
    unfold is_primary in Pa. destruct (ix_type a); simpl in *; discriminate.
  - assert (En : ix_name a = ix_name b).
    { unfold id_of_key, is_primary in *. destruct (ix_type a), (ix_type b); simpl in *; congruence. }
    apply dvals_in in Ha as (n & Ha). apply dvals_in in Hb as (m & Hb).
    rewrite (wf_keys_named _ W n a Ha), (wf_keys_named _ W m b Hb) in En. subst m.
    apply (dget_iff n a _ (wf_keys _ W)) in Ha. apply (dget_iff n b _ (wf_keys _ W)) in Hb. congruence.
Qed.

Lemma NoDup_map_of_inj {A B} (f : A -> B) l :
  NoDup l -> (forall a b, In a l -> In b l -> f a = f b -> a = b) -> NoDup (map f l).
Proof.
  induction l as [|x l IH]; simpl; intros ND H; [constructor|].
  inversion ND as [|? ? Hn ND']; subst. constructor.
  - intros Hx. apply in_map_iff in Hx as (y & E & Hy). assert (y = x) by (apply H; auto). subst. contradiction.
  - apply IH; auto.
Qed.

Lemma dvals_nodup {V} (d : dict string V) (nm : V -> string) :
  NoDup (dkeys d) -> (forall n c, In (n, c) d -> nm c = n) -> NoDup (dvals d).
Proof.
  intros ND H. apply (NoDup_map_inv nm). rewrite (dvals_names d nm H). exact ND.
Qed.

(** The changed indexes, as source/target pairs. *)
Definition changed_keys (src tgt : table) : list (index * index) :=
  concat (map (fun p => match dget (fst p) (t_indexes tgt) with
                        | Some b => if key_changed (snd p) b then [(snd p, b)] else []
                        | None => []
                        end) (t_indexes src)).
Definition unchanged_keys (src tgt : table) : list (index * index) :=
  concat (map (fun p => match dget (fst p) (t_indexes tgt) with
                        | Some b => if key_changed (snd p) b then [] else [(snd p, b)]
                        | None => []
                        end) (t_indexes src)).
Definition new_keys (src tgt : table) : list index :=
  map snd (filter (fun p => negb (smem (fst p) (map snd (key_pairs src tgt))))
             (only_in (t_indexes tgt) (t_indexes src))).
Definition gone_keys (src tgt : table) : list index :=
  map snd (filter (fun p => negb (smem (fst p) (map fst (key_pairs src tgt))))
             (only_in (t_indexes src) (t_indexes tgt))).
Definition renamed_keys (src tgt : table) : list (index * index) :=
  concat (map (fun q => match dget (fst q) (t_indexes src), dget (snd q) (t_indexes tgt) with
                        | Some a, Some b => [(a, b)]
                        | _, _ => []
                        end) (key_pairs src tgt)).

Lemma key_ops_eq src tgt :
  key_ops src tgt = map AddKey (new_keys src tgt) +++ map RemoveKey (gone_keys src tgt)
                    +++ map (fun ab => ChangeKey (snd ab)) (changed_keys src tgt).
Proof.
  unfold key_ops, new_keys, gone_keys, changed_keys. rewrite !map_map.
  rewrite concat_map, map_map. do 3 f_equal.
  apply map_ext. intros p. destruct (dget (fst p) (t_indexes tgt)); [|reflexivity].
  destruct (key_changed (snd p) i); reflexivity.
Qed.

Lemma changed_keys_in src tgt a b :
  In (a, b) (changed_keys src tgt) <->
  exists n, In (n, a) (t_indexes src) /\ dget n (t_indexes tgt) = Some b /\ key_changed a b = true.
Proof.
  unfold changed_keys. rewrite in_concat. split.
  - intros (l & Hl & Hb). apply in_map_iff in Hl as ([n a'] & <- & Hp). simpl in Hb.
    destruct (dget n (t_indexes tgt)) as [b'|] eqn:D; [|destruct Hb].
    destruct (key_changed a' b') eqn:Ch; [|destruct Hb]. destruct Hb as [[= <- <-]|[]]. eauto.
  - intros (n & Hp & D & Ch). exists [(a, b)]. split; [|left; reflexivity].
    apply in_map_iff. exists (n, a). simpl. rewrite D, Ch. auto.
Qed.
Lemma unchanged_keys_in src tgt a b :
  In (a, b) (unchanged_keys src tgt) <->
  exists n, In (n, a) (t_indexes src) /\ dget n (t_indexes tgt) = Some b /\ key_changed a b = false.
Proof.
  unfold unchanged_keys. rewrite in_concat. split.
  - intros (l & Hl & Hb). apply in_map_iff in Hl as ([n a'] & <- & Hp). simpl in Hb.
    destruct (dget n (t_indexes tgt)) as [b'|] eqn:D; [|destruct Hb].
    destruct (key_changed a' b') eqn:Ch; [destruct Hb|]. destruct Hb as [[= <- <-]|[]]. eauto.
  - intros (n & Hp & D & Ch). exists [(a, b)]. split; [|left; reflexivity].
    apply in_map_iff. exists (n, a). simpl. rewrite D, Ch. auto.
Qed.
Lemma only_in_in {V W} (a : dict string V) (b : dict string W) n v :
  In (n, v) (only_in a b) <-> In (n, v) a /\ dget n b = None.
Proof.
  unfold only_in. rewrite filter_In. simpl. rewrite dmem_dget.
  destruct (dget n b); simpl; split; intros [? ?]; split; auto; discriminate.
Qed.
Lemma new_keys_in src tgt b :
  In b (new_keys src tgt) <->
  exists n, In (n, b) (t_indexes tgt) /\ dget n (t_indexes src) = None /\ ~ In n (map snd (key_pairs src tgt)).
Proof.
  unfold new_keys. rewrite in_map_iff. split.
  - intros ([n b'] & <- & H). apply filter_In in H as [H Hm]. apply only_in_in in H as [H Hd]. simpl in *.
    apply negb_true_iff, smem_false in Hm. eauto.
  - intros (n & H & Hd & Hm). exists (n, b). split; [reflexivity|]. apply filter_In. split.
    + apply only_in_in. auto.
    + simpl. apply negb_true_iff, smem_false, Hm.
Qed.
Lemma gone_keys_in src tgt a :
  In a (gone_keys src tgt) <->
  exists n, In (n, a) (t_indexes src) /\ dget n (t_indexes tgt) = None /\ ~ In n (map fst (key_pairs src tgt)).
Proof.
  unfold gone_keys. rewrite in_map_iff. split.
  - intros ([n b'] & <- & H). apply filter_In in H as [H Hm]. apply only_in_in in H as [H Hd]. simpl in *.
    apply negb_true_iff, smem_false in Hm. eauto.
  - intros (n & H & Hd & Hm). exists (n, a). split; [reflexivity|]. apply filter_In. split.
    + apply only_in_in. auto.
    + simpl. apply negb_true_iff, smem_false, Hm.
Qed.
Lemma key_pairs_in src tgt rk ak :
  wf_table src -> wf_table tgt ->
  In (rk, ak) (key_pairs src tgt) ->
  exists a b, In (rk, a) (t_indexes src) /\ In (ak, b) (t_indexes tgt)
    /\ dget rk (t_indexes tgt) = None /\ dget ak (t_indexes src) = None
    /\ same_shape a b = true
    /\ (In rk (dkeys (t_constraints src) +++ dkeys (t_constraints tgt))
        \/ In ak (dkeys (t_constraints src) +++ dkeys (t_constraints tgt))).
Proof.
  intros Ws Wt H. apply match_keys_in in H as (a & b & Ha & Hb & S & C & _).
  apply only_in_in in Ha as [Ha Ha']. apply only_in_in in Hb as [Hb Hb'].
  exists a, b. repeat split; auto.
Qed.
Lemma renamed_keys_in src tgt a b :
  wf_table src -> wf_table tgt ->
  In (a, b) (renamed_keys src tgt) <->
  exists rk ak, In (rk, ak) (key_pairs src tgt) /\ In (rk, a) (t_indexes src) /\ In (ak, b) (t_indexes tgt).
Proof.
  intros Ws Wt. unfold renamed_keys. rewrite in_concat. split.
  - intros (l & Hl & Hb). apply in_map_iff in Hl as ([rk ak] & <- & Hp). simpl in Hb.
    destruct (dget rk (t_indexes src)) as [a'|] eqn:Da; [|destruct Hb].
    destruct (dget ak (t_indexes tgt)) as [b'|] eqn:Db; [|destruct Hb].
    destruct Hb as [[= <- <-]|[]]. exists rk, ak. split; [assumption|]. split; apply dget_in; assumption.
  - intros (rk & ak & Hp & Ha & Hb). exists [(a, b)]. split; [|left; reflexivity].
    apply in_map_iff. exists (rk, ak). simpl.
    rewrite (proj2 (dget_iff rk a _ (wf_keys _ Ws)) Ha), (proj2 (dget_iff ak b _ (wf_keys _ Wt)) Hb). auto.
Qed.

Lemma concat_cond_sublist_nodup {A B} (f : A -> list B) (g : A -> string) (h : B -> string) l :
  NoDup (map g l) ->
  (forall a, In a l -> f a = [] \/ exists b, f a = [b] /\ h b = g a) ->
  NoDup (map h (concat (map f l))).
Proof.
  intros ND H. induction l as [|a l IH]; simpl; [constructor|].
  simpl in ND. inversion ND as [|? ? Hn ND']; subst.
  assert (IH' : NoDup (map h (concat (map f l)))) by (apply IH; [assumption|intros; apply H; right; assumption]).
  destruct (H a (or_introl eq_refl)) as [->|(b & -> & E)]; simpl; [assumption|].
  constructor; [|assumption]. rewrite E. intros Hin. apply Hn.
  apply in_map_iff in Hin as (b' & E' & Hb'). apply in_concat in Hb' as (lb & Hlb & Hb').
  apply in_map_iff in Hlb as (a' & <- & Ha'). rewrite <- E'.
  destruct (H a' (or_intror Ha')) as [F|(b'' & F & E'')]; rewrite F in Hb'; [destruct Hb'|].
  destruct Hb' as [->|[]]. rewrite E''. apply in_map, Ha'.
Qed.

Lemma changed_keys_nodup src tgt : wf_table src ->
  NoDup (map (fun ab => ix_name (fst ab)) (changed_keys src tgt)).
Proof.
  intros Ws. apply (concat_cond_sublist_nodup _ fst _ _ (wf_keys _ Ws)).
  intros [n a] H. simpl. destruct (dget n (t_indexes tgt)); [|left; reflexivity].
  destruct (key_changed a i); [|left; reflexivity]. right. eexists. split; [reflexivity|].
  simpl. apply (wf_keys_named _ Ws n a H).
Qed.
Lemma unchanged_keys_nodup src tgt : wf_table src ->
  NoDup (map (fun ab => ix_name (fst ab)) (unchanged_keys src tgt)).
Proof.
  intros Ws. apply (concat_cond_sublist_nodup _ fst _ _ (wf_keys _ Ws)).
  intros [n a] H. simpl. destruct (dget n (t_indexes tgt)); [|left; reflexivity].
  destruct (key_changed a i); [left; reflexivity|]. right. eexists. split; [reflexivity|].
  simpl. apply (wf_keys_named _ Ws n a H).
Qed.
Lemma new_keys_nodup src tgt : wf_table tgt -> NoDup (map ix_name (new_keys src tgt)).
Proof.
  intros Wt. unfold new_keys. rewrite map_map.
  rewrite (map_ext_in _ fst).
  - apply NoDup_filter_map. apply NoDup_filter_map. apply (wf_keys _ Wt).
  - intros [n b] H. apply filter_In in H as [H _]. apply only_in_in in H as [H _]. apply (wf_keys_named _ Wt n b H).
Qed.
Lemma gone_keys_nodup src tgt : wf_table src -> NoDup (map ix_name (gone_keys src tgt)).
Proof.
  intros Ws. unfold gone_keys. rewrite map_map.
  rewrite (map_ext_in _ fst).
  - apply NoDup_filter_map. apply NoDup_filter_map. apply (wf_keys _ Ws).
  - intros [n b] H. apply filter_In in H as [H _]. apply only_in_in in H as [H _]. apply (wf_keys_named _ Ws n b H).
Qed.
Lemma renamed_keys_nodup_fst src tgt : wf_table src -> wf_table tgt ->
  NoDup (map (fun ab => ix_name (fst ab)) (renamed_keys src tgt)).
Proof.
  intros Ws Wt. apply (concat_cond_sublist_nodup _ fst).
  - apply match_keys_nodup_fst. apply NoDup_filter_map. apply (wf_keys _ Ws).
  - intros [rk ak] H. apply key_pairs_in in H as (a & b & Ha & Hb & _); auto. right. exists (a, b). simpl.
    rewrite (proj2 (dget_iff rk a _ (wf_keys _ Ws)) Ha), (proj2 (dget_iff ak b _ (wf_keys _ Wt)) Hb).
    split; [reflexivity|]. apply (wf_keys_named _ Ws rk a Ha).
Qed.
Lemma renamed_keys_nodup_snd src tgt : wf_table src -> wf_table tgt ->
  NoDup (map (fun ab => ix_name (snd ab)) (renamed_keys src tgt)).
Proof.
  intros Ws Wt. apply (concat_cond_sublist_nodup _ snd).
  - apply match_keys_nodup_snd.
  - intros [rk ak] H. apply key_pairs_in in H as (a & b & Ha & Hb & _); auto. right. exists (a, b). simpl.
    rewrite (proj2 (dget_iff rk a _ (wf_keys _ Ws)) Ha), (proj2 (dget_iff ak b _ (wf_keys _ Wt)) Hb).
    split; [reflexivity|]. apply (wf_keys_named _ Wt ak b Hb).
Qed.

(** An index of both tables that is the primary key in the source keeps its shape (otherwise the
    rendered DROP KEY names the primary key by its column, which MySQL rejects). *)
Definition primary_stable (src tgt : table) : Prop :=
  forall n a b, In (n, a) (t_indexes src) -> In (n, b) (t_indexes tgt) ->
    is_primary a = true -> key_changed a b = false.

(** The final pairing of the indexes on the server with the target's. *)
Definition key_pairing (src tgt : table) : list (index * index) :=
  unchanged_keys src tgt +++ renamed_keys src tgt
  +++ map (fun b => (b, b)) (new_keys src tgt)
  +++ map (fun ab => (snd ab, snd ab)) (changed_keys src tgt).

Definition kept_keys (src tgt : table) : list index :=
  map snd (filter (fun p => match dget (fst p) (t_indexes tgt) with
                            | Some b => negb (key_changed (snd p) b)
                            | None => smem (fst p) (map fst (key_pairs src tgt))
                            end) (t_indexes src)).

Lemma exec_keys_spec src tgt ops :
  wf_table src -> wf_table tgt -> primary_stable src tgt ->
  filter is_key_op ops = key_ops src tgt ->
  exists K, exec_keys ops (dvals (t_indexes src)) = Some K
    /\ K = kept_keys src tgt +++ new_keys src tgt +++ map snd (changed_keys src tgt)
    /\ Permutation (map fst (key_pairing src tgt)) K
    /\ Permutation (map snd (key_pairing src tgt)) (dvals (t_indexes tgt)).
Proof.
  intros Ws Wt PS Eops. rewrite exec_keys_filter, Eops, key_ops_eq. clear Eops ops.
  assert (Ns : NoDup (dvals (t_indexes src))) by apply (dvals_nodup _ ix_name (wf_keys _ Ws) (wf_keys_named _ Ws)).
  assert (Nt : NoDup (dvals (t_indexes tgt))) by apply (dvals_nodup _ ix_name (wf_keys _ Wt) (wf_keys_named _ Wt)).
  (* a changed source index is not primary *)
  assert (NP : forall a b, In (a, b) (changed_keys src tgt) -> id_of_key a = KNamed (ix_name b) /\ is_primary a = false).
  { intros a b H. apply changed_keys_in in H as (n & Ha & Hb & Ch). apply dget_in in Hb.
    destruct (is_primary a) eqn:Pa.
    - exfalso. rewrite (PS n a b Ha Hb Pa) in Ch. discriminate.
    - split; [|reflexivity]. unfold id_of_key. unfold is_primary in Pa.
      rewrite (wf_keys_named _ Wt n b Hb), <- (wf_keys_named _ Ws n a Ha).
      destruct (ix_type a); simpl in Pa; congruence. }
  set (drops := gone_keys src tgt +++ map fst (changed_keys src tgt)).
  assert (Dsrc : forall a, In a drops -> In a (dvals (t_indexes src))).
  { intros a H. unfold drops in H. rewrite in_app_iff in H. destruct H as [H|H].
    - apply gone_keys_in in H as (n & Ha & _). eapply in_dvals; eauto.
    - apply in_map_iff in H as ([a' b'] & <- & H). apply changed_keys_in in H as (n & Ha & _). eapply in_dvals; eauto. }
  assert (Dnd : NoDup drops).
  { apply (NoDup_map_inv ix_name). unfold drops. rewrite map_app, map_map. apply NoDup_app_intro.
    - apply gone_keys_nodup, Ws.
    - apply changed_keys_nodup, Ws.
    - intros n Hg Hc. apply in_map_iff in Hg as (a & <- & Hg). apply gone_keys_in in Hg as (m & Ha & Hm & _).
      rewrite (wf_keys_named _ Ws m a Ha) in Hc.
      apply in_map_iff in Hc as ([a' b'] & E & Hc). apply changed_keys_in in Hc as (m' & Ha' & Hb' & _). simpl in E.
      rewrite (wf_keys_named _ Ws m' a' Ha') in E. congruence. }
  (* first pass *)
  assert (P1 : run_all key_pass1 (map AddKey (new_keys src tgt) +++ map RemoveKey (gone_keys src tgt)
                 +++ map (fun ab => ChangeKey (snd ab)) (changed_keys src tgt)) (dvals (t_indexes src))
               = Some (filter (fun a => negb (existsb (fun i => key_id_eqb i (id_of_key a)) (map id_of_key drops)))
                         (dvals (t_indexes src)))).
  { rewrite run_all_app, run_all_skip by (intros o Ho s; apply in_map_iff in Ho as (q & <- & _); reflexivity).
    rewrite <- (run_drops id_of_key key_id_eqb key_id_ok).
    - unfold drops. rewrite map_app, !run_all_app, !run_all_map.
      change (run_all (fun s x => key_pass1 s (RemoveKey x)) (gone_keys src tgt) (dvals (t_indexes src)))
        with (run_all (fun s x => drop_id id_of_key key_id_eqb (id_of_key x) s) (gone_keys src tgt) (dvals (t_indexes src))).
      destruct (run_all _ (gone_keys src tgt) (dvals (t_indexes src))) as [s|]; [|reflexivity].
      rewrite !run_all_map. apply run_all_ext. intros s' [a b] H. simpl. destruct (NP a b H) as [-> _]. reflexivity.
    - apply NoDup_map_of_inj; [assumption|]. intros a b Ha Hb. apply (id_of_key_inj src); auto.
    - intros i Hi. apply in_map_iff in Hi as (a & <- & Ha). apply in_map, Dsrc, Ha. }
  unfold exec_keys. rewrite P1. clear P1.
  set (kept := filter _ (dvals (t_indexes src))).
  assert (Kept : forall a, In a kept <-> In a (map fst (unchanged_keys src tgt +++ renamed_keys src tgt))).
  { intros a. unfold kept. rewrite filter_In, map_app, in_app_iff.
    assert (Hex : existsb (fun i => key_id_eqb i (id_of_key a)) (map id_of_key drops) = true
                  <-> exists d, In d drops /\ id_of_key d = id_of_key a).
    { rewrite existsb_exists. split.
      - intros (i & Hi & E). apply in_map_iff in Hi as (d & <- & Hd). apply key_id_ok in E. eauto.
      - intros (d & Hd & E). exists (id_of_key d). split; [apply in_map, Hd|]. apply key_id_ok, E. }
    split.
    - intros [Ha Hn]. apply negb_true_iff in Hn.
      assert (Hnd : ~ In a drops). { intros Hd. enough (existsb (fun i => key_id_eqb i (id_of_key a)) (map id_of_key drops) = true) by congruence. apply Hex. eauto. }
      apply dvals_in in Ha as (n & Ha). destruct (dget n (t_indexes tgt)) as [b|] eqn:D.
      + left. destruct (key_changed a b) eqn:Ch.
        * exfalso. apply Hnd. unfold drops. rewrite in_app_iff. right.
          apply in_map_iff. exists (a, b). split; [reflexivity|]. apply changed_keys_in. eauto.
        * apply in_map_iff. exists (a, b). split; [reflexivity|]. apply unchanged_keys_in. eauto.
      + right. destruct (in_dec string_dec n (map fst (key_pairs src tgt))) as [Hp|Hp].
        * apply in_map_iff in Hp as ([rk ak] & E & Hp). simpl in E. subst rk.
          pose proof Hp as Hp'. apply key_pairs_in in Hp' as (a' & b & Ha' & Hb & _); auto.
          apply in_map_iff. exists (a, b). split; [reflexivity|]. apply renamed_keys_in; eauto.
        * exfalso. apply Hnd. unfold drops. rewrite in_app_iff. left. apply gone_keys_in. eauto.
    - intros H.
      assert (Hsrc : exists n, In (n, a) (t_indexes src)
                 /\ (forall d m, In (m, d) (t_indexes src) -> In d drops -> d <> a)).
      { destruct H as [H|H]; apply in_map_iff in H as ([a' b] & E & H); simpl in E; subst a'.
        - apply unchanged_keys_in in H as (n & Ha & Hb & Ch). exists n. split; [assumption|].
          intros d m Hd Hdr ->. unfold drops in Hdr. rewrite in_app_iff in Hdr. destruct Hdr as [Hdr|Hdr].
          + apply gone_keys_in in Hdr as (n' & Ha' & Hn' & _).
            rewrite <- (wf_keys_named _ Ws n' a Ha'), (wf_keys_named _ Ws n a Ha) in Hn'. congruence.
          + apply in_map_iff in Hdr as ([a2 b2] & E & Hdr). simpl in E. subst a2.
            apply changed_keys_in in Hdr as (n' & Ha' & Hb' & Ch').
            rewrite <- (wf_keys_named _ Ws n' a Ha'), (wf_keys_named _ Ws n a Ha) in Hb'. congruence.
        - apply renamed_keys_in in H as (rk & ak & Hp & Ha & Hb); auto. exists rk. split; [assumption|].
          pose proof Hp as Hp'. apply key_pairs_in in Hp' as (a2 & b2 & _ & _ & Hrk & _); auto.
          intros d m Hd Hdr ->. unfold drops in Hdr. rewrite in_app_iff in Hdr. destruct Hdr as [Hdr|Hdr].
          + apply gone_keys_in in Hdr as (n' & Ha' & Hn' & Hnp). apply Hnp.
            rewrite <- (wf_keys_named _ Ws n' a Ha'), (wf_keys_named _ Ws rk a Ha).
            apply in_map_iff. exists (rk, ak). auto.
          + apply in_map_iff in Hdr as ([a3 b3] & E & Hdr). simpl in E. subst a3.
            apply changed_keys_in in Hdr as (n' & Ha' & Hb' & Ch').
            rewrite <- (wf_keys_named _ Ws n' a Ha'), (wf_keys_named _ Ws rk a Ha) in Hb'. congruence. }
      destruct Hsrc as (n & Ha & Hd). split; [eapply in_dvals; eauto|].
      apply negb_true_iff. apply not_true_iff_false. rewrite Hex. intros (d & Hdr & E).
      assert (d = a). { apply (id_of_key_inj src); auto. eapply in_dvals; eauto. }
      pose proof (Dsrc d Hdr) as Hds. apply dvals_in in Hds as (m & Hm). apply (Hd d m Hm Hdr). assumption. }
  set (adds := new_keys src tgt +++ map snd (changed_keys src tgt)).
  assert (Atgt : forall b, In b adds -> In b (dvals (t_indexes tgt))).
  { intros b H. unfold adds in H. rewrite in_app_iff in H. destruct H as [H|H].
    - apply new_keys_in in H as (n & Hb & _). eapply in_dvals; eauto.
    - apply in_map_iff in H as ([a' b'] & <- & H). apply changed_keys_in in H as (n & _ & Hb & _).
      apply dget_in in Hb. eapply in_dvals; eauto. }
  assert (Cnm : map (fun ab => ix_name (snd ab)) (changed_keys src tgt) = map (fun ab => ix_name (fst ab)) (changed_keys src tgt)).
  { apply map_ext_in. intros [a b] H. apply changed_keys_in in H as (n & Ha & Hb & _). simpl.
    rewrite (wf_keys_named _ Ws n a Ha). apply (wf_keys_named _ Wt). apply dget_in, Hb. }
  assert (Unm : map (fun ab => ix_name (snd ab)) (unchanged_keys src tgt) = map (fun ab => ix_name (fst ab)) (unchanged_keys src tgt)).
  { apply map_ext_in. intros [a b] H. apply unchanged_keys_in in H as (n & Ha & Hb & _). simpl.
    rewrite (wf_keys_named _ Ws n a Ha). apply (wf_keys_named _ Wt). apply dget_in, Hb. }
  assert (And : NoDup adds).
  { apply (NoDup_map_inv ix_name). unfold adds. rewrite map_app, map_map. apply NoDup_app_intro.
    - apply new_keys_nodup, Wt.
    - rewrite Cnm. apply changed_keys_nodup, Ws.
    - intros n Hg Hc. apply in_map_iff in Hg as (b & <- & Hg). apply new_keys_in in Hg as (m & Hb & Hm & _).
      rewrite (wf_keys_named _ Wt m b Hb) in Hc.
      apply in_map_iff in Hc as ([a' b'] & E & Hc). apply changed_keys_in in Hc as (m' & Ha' & Hb' & _). simpl in E.
      apply dget_in in Hb'. rewrite (wf_keys_named _ Wt m' b' Hb') in E. subst m'.
      apply dget_none in Hm. apply Hm. eapply in_dkeys; eauto. }
  (* second pass *)
  assert (P2 : run_all key_pass2 (map AddKey (new_keys src tgt) +++ map RemoveKey (gone_keys src tgt)
                 +++ map (fun ab => ChangeKey (snd ab)) (changed_keys src tgt)) kept
               = Some (kept +++ adds)).
  { rewrite <- (run_puts id_of_key key_id_eqb key_id_ok adds kept).
    - unfold adds. rewrite !run_all_app, !run_all_map.
      change (run_all (fun s x => key_pass2 s (AddKey x)) (new_keys src tgt) kept)
        with (run_all (fun l a => put_end id_of_key key_id_eqb a l) (new_keys src tgt) kept).
      destruct (run_all _ (new_keys src tgt) kept) as [s|]; [|reflexivity].
      rewrite run_all_app, run_all_skip
        by (intros o Ho s'; apply in_map_iff in Ho as (q & <- & _); reflexivity).
      rewrite !run_all_map. reflexivity.
    - apply NoDup_map_of_inj; [assumption|]. intros a b Ha Hb. apply (id_of_key_inj tgt); auto.
    - intros b Hb Hin. apply in_map_iff in Hin as (a & E & Ha). apply Kept in Ha.
      apply in_map_iff in Ha as ([a' b'] & E' & Hab). simpl in E'. subst a'.
      (* [b'] is the target index that [a] stands for; it has the type of [a] *)
      assert (T : exists m, In (m, b') (t_indexes tgt) /\ ix_type a = ix_type b' /\ ~ In b' adds
                  /\ ((exists n, In (n, a) (t_indexes src) /\ dget n (t_indexes tgt) = None)
                      \/ ix_name a = ix_name b')).
      { rewrite in_app_iff in Hab. destruct Hab as [Hab|Hab].
        - apply unchanged_keys_in in Hab as (n & Ha & Hb' & Ch). exists n.
          pose proof (dget_in _ _ _ Hb') as Hi.
          repeat split; [assumption|apply key_unchanged_type, Ch| |].
          + intros Hadd. unfold adds in Hadd. rewrite in_app_iff in Hadd. destruct Hadd as [Hadd|Hadd].
            * apply new_keys_in in Hadd as (n' & Hn' & Hs & _).
              rewrite <- (wf_keys_named _ Wt n' b' Hn'), (wf_keys_named _ Wt n b' Hi) in Hs.
              apply dget_none in Hs. apply Hs. eapply in_dkeys; eauto.
            * apply in_map_iff in Hadd as ([a2 b2] & E2 & Hadd). simpl in E2. subst b2.
              apply changed_keys_in in Hadd as (n' & Ha' & Hb2 & Ch').
              apply dget_in in Hb2. assert (n' = n) by (rewrite <- (wf_keys_named _ Wt n' b' Hb2); apply (wf_keys_named _ Wt n b' Hi)). subst n'.
              apply (dget_iff n a _ (wf_keys _ Ws)) in Ha. apply (dget_iff n a2 _ (wf_keys _ Ws)) in Ha'. congruence.
          + right. rewrite (wf_keys_named _ Ws n a Ha), (wf_keys_named _ Wt n b' Hi). reflexivity.
        - apply renamed_keys_in in Hab as (rk & ak & Hp & Ha & Hb'); auto. exists ak.
          pose proof Hp as Hp'. apply key_pairs_in in Hp' as (a2 & b2 & Ha2 & Hb2 & Hrk & Hak & S & _); auto.
          assert (a2 = a). { apply (dget_iff rk a2 _ (wf_keys _ Ws)) in Ha2. apply (dget_iff rk a _ (wf_keys _ Ws)) in Ha. congruence. }
          assert (b2 = b'). { apply (dget_iff ak b2 _ (wf_keys _ Wt)) in Hb2. apply (dget_iff ak b' _ (wf_keys _ Wt)) in Hb'. congruence. }
          subst a2 b2. repeat split; [assumption|apply same_shape_iff in S; tauto| |].
          + intros Hadd. unfold adds in Hadd. rewrite in_app_iff in Hadd. destruct Hadd as [Hadd|Hadd].
            * apply new_keys_in in Hadd as (n' & Hn' & _ & Hnp). apply Hnp.
              rewrite <- (wf_keys_named _ Wt n' b' Hn'), (wf_keys_named _ Wt ak b' Hb').
              apply in_map_iff. exists (rk, ak). auto.
            * apply in_map_iff in Hadd as ([a3 b3] & E3 & Hadd). simpl in E3. subst b3.
              apply changed_keys_in in Hadd as (n' & Ha' & Hb3 & Ch'). apply dget_in in Hb3.
              rewrite <- (wf_keys_named _ Wt n' b' Hb3), (wf_keys_named _ Wt ak b' Hb') in Ha'.
              apply dget_none in Hak. apply Hak. eapply in_dkeys; eauto.
          + left. eauto. }
      destruct T as (m & Hm & Et & Hnadd & Hname).
      destruct (is_primary a) eqn:Pa.
      + (* both primary: only one primary in the target *)
        assert (Pb : is_primary b = true).
        { apply is_primary_iff in Pa. unfold id_of_key in E. rewrite Pa in E. apply is_primary_iff.
          destruct (ix_type b); congruence. }
        assert (Pb' : is_primary b' = true). { apply is_primary_iff. apply is_primary_iff in Pa. congruence. }
        apply Hnadd. replace b' with b; [assumption|].
        apply (one_primary tgt); auto. eapply in_dvals; eauto.
      + (* by name *)
        assert (En : ix_name a = ix_name b).
        { unfold id_of_key in E. unfold is_primary in Pa. destruct (ix_type a), (ix_type b); simpl in *; congruence. }
        pose proof (Atgt b Hb) as Hbt. apply dvals_in in Hbt as (n2 & Hbt).
        destruct Hname as [(n & Ha & Hd)|Hname].
        * rewrite (wf_keys_named _ Ws n a Ha), (wf_keys_named _ Wt n2 b Hbt) in En. subst n2.
          apply dget_none in Hd. apply Hd. eapply in_dkeys; eauto.
        * rewrite Hname, (wf_keys_named _ Wt m b' Hm), (wf_keys_named _ Wt n2 b Hbt) in En. subst n2.
          apply (dget_iff m b' _ (wf_keys _ Wt)) in Hm. apply (dget_iff m b _ (wf_keys _ Wt)) in Hbt.
          apply Hnadd. replace b' with b by congruence. assumption. }
  rewrite P2. exists (kept +++ adds). split; [reflexivity|].
  assert (KE : kept = kept_keys src tgt).
  { pose proof Kept as Kept'. revert Kept'. unfold kept, kept_keys, dvals. rewrite filter_map_comm. intros Kept'. f_equal. apply filter_ext_in.
    intros [n a] Hp. cbn [fst snd]. specialize (Kept' a).
    match goal with |- ?b = _ => destruct b eqn:Eb end.
    - destruct Kept' as [K1 _].
      assert (Hk : In a (map fst (unchanged_keys src tgt +++ renamed_keys src tgt))).
      { apply K1. apply in_map_iff. exists (n, a). split; [reflexivity|]. apply filter_In. auto. }
      rewrite map_app, in_app_iff in Hk. symmetry. destruct Hk as [Hk|Hk].
      + apply in_map_iff in Hk as ([a' b] & E & Hk). simpl in E. subst a'.
        apply unchanged_keys_in in Hk as (m & Ha & Hb & Ch).
        assert (m = n) by (rewrite <- (wf_keys_named _ Ws m a Ha); apply (wf_keys_named _ Ws n a Hp)). subst m.
        rewrite Hb, Ch. reflexivity.
      + apply in_map_iff in Hk as ([a' b] & E & Hk). simpl in E. subst a'.
        apply renamed_keys_in in Hk as (rk & ak & Hpr & Ha & Hb); auto.
        assert (rk = n) by (rewrite <- (wf_keys_named _ Ws rk a Ha); apply (wf_keys_named _ Ws n a Hp)). subst rk.
        pose proof Hpr as Hpr'. apply key_pairs_in in Hpr' as (a2 & b2 & _ & _ & Hrk & _); auto.
        rewrite Hrk. apply smem_iff. apply in_map_iff. exists (n, ak). auto.
    - destruct Kept' as [_ K2]. symmetry. apply not_true_iff_false. intros Hc.
      assert (Hk : In a (map fst (unchanged_keys src tgt +++ renamed_keys src tgt))).
      { rewrite map_app, in_app_iff. destruct (dget n (t_indexes tgt)) as [b|] eqn:D.
        - left. apply in_map_iff. exists (a, b). split; [reflexivity|]. apply unchanged_keys_in.
          exists n. repeat split; auto. apply negb_true_iff, Hc.
        - right. apply smem_iff, in_map_iff in Hc as ([rk ak] & E & Hc). simpl in E. subst rk.
          pose proof Hc as Hc'. apply key_pairs_in in Hc' as (a2 & b2 & _ & Hb2 & _); auto.
          apply in_map_iff. exists (a, b2). split; [reflexivity|]. apply renamed_keys_in; eauto. }
      apply K2 in Hk. apply in_map_iff in Hk as ([m a'] & E & Hk). simpl in E. subst a'.
      apply filter_In in Hk as [Hm Hk]. cbn [fst snd] in Hk. congruence. }
  split; [rewrite KE; reflexivity|].
  (* permutations *)
  assert (KP : Permutation (map fst (unchanged_keys src tgt +++ renamed_keys src tgt)) kept).
  { apply NoDup_Permutation.
    - apply (NoDup_map_inv ix_name). rewrite map_map, map_app. apply NoDup_app_intro.
      + apply unchanged_keys_nodup, Ws.
      + apply renamed_keys_nodup_fst; assumption.
      + intros n Hu Hr. apply in_map_iff in Hu as ([a b] & <- & Hu). apply in_map_iff in Hr as ([a' b'] & E & Hr).
        simpl in E. apply unchanged_keys_in in Hu as (n & Ha & Hb & _).
        apply renamed_keys_in in Hr as (rk & ak & Hp & Ha' & Hb'); auto.
        apply key_pairs_in in Hp as (a2 & b2 & _ & _ & Hrk & _); auto. simpl in E.
        rewrite (wf_keys_named _ Ws _ _ Ha), (wf_keys_named _ Ws _ _ Ha') in E. congruence.
    - unfold kept. apply NoDup_filter, Ns.
    - intros a. symmetry. apply Kept. }
  split.
  - unfold key_pairing. rewrite app_assoc, map_app, KP. apply Permutation_app_head.
    unfold adds. rewrite map_app, !map_map. simpl. rewrite map_id. reflexivity.
  - assert (PN : NoDup (map ix_name (map snd (key_pairing src tgt)))).
    { unfold key_pairing. rewrite map_map, !map_app, !map_map. simpl. rewrite Unm, Cnm.
      apply NoDup_app_intro; [apply unchanged_keys_nodup, Ws| |].
      - apply NoDup_app_intro; [apply renamed_keys_nodup_snd; assumption| |].
        + apply NoDup_app_intro; [apply new_keys_nodup, Wt|apply changed_keys_nodup, Ws|].
          intros n Hg Hc. apply in_map_iff in Hg as (b & <- & Hg). apply new_keys_in in Hg as (m & Hb & Hm & _).
          rewrite (wf_keys_named _ Wt m b Hb) in Hc.
          apply in_map_iff in Hc as ([a' b'] & E & Hc). apply changed_keys_in in Hc as (m' & Ha' & _). simpl in E.
          rewrite (wf_keys_named _ Ws m' a' Ha') in E. subst m'. apply dget_none in Hm. apply Hm. eapply in_dkeys; eauto.
        + intros n Hr. apply in_map_iff in Hr as ([a' b'] & E & Hr). simpl in E.
          apply renamed_keys_in in Hr as (rk & ak & Hp & Ha' & Hb'); auto.
          pose proof Hp as Hp'. apply key_pairs_in in Hp' as (a2 & b2 & _ & _ & _ & Hak & _); auto.
          rewrite (wf_keys_named _ Wt _ _ Hb') in E. subst n. rewrite in_app_iff. intros [Hn|Hn].
          * apply in_map_iff in Hn as (b & E & Hn). apply new_keys_in in Hn as (n & Hb & _ & Hnp).
            rewrite (wf_keys_named _ Wt _ _ Hb) in E. subst n. apply Hnp. apply in_map_iff. exists (rk, ak). auto.
          * apply in_map_iff in Hn as ([a3 b3] & E & Hn). apply changed_keys_in in Hn as (n & Ha & _). simpl in E.
            rewrite (wf_keys_named _ Ws _ _ Ha) in E. subst n. apply dget_none in Hak. apply Hak. eapply in_dkeys; eauto.
      - intros n Hu. apply in_map_iff in Hu as ([a b] & <- & Hu). simpl.
        apply unchanged_keys_in in Hu as (n & Ha & Hb & Ch). rewrite (wf_keys_named _ Ws _ _ Ha). rewrite !in_app_iff.
        intros [Hx|[Hx|Hx]].
        + apply in_map_iff in Hx as ([a' b'] & E & Hx). simpl in E.
          apply renamed_keys_in in Hx as (rk & ak & Hp & Ha' & Hb'); auto.
          apply key_pairs_in in Hp as (a2 & b2 & _ & _ & _ & Hak & _); auto.
          rewrite (wf_keys_named _ Wt _ _ Hb') in E. subst n. apply dget_none in Hak. apply Hak. eapply in_dkeys; eauto.
        + apply in_map_iff in Hx as (b' & E & Hx). apply new_keys_in in Hx as (m & Hb' & Hm & _).
          rewrite (wf_keys_named _ Wt _ _ Hb') in E. subst m. apply dget_none in Hm. apply Hm. eapply in_dkeys; eauto.
        + apply in_map_iff in Hx as ([a3 b3] & E & Hx). apply changed_keys_in in Hx as (m & Ha' & Hb' & Ch'). simpl in E.
          rewrite (wf_keys_named _ Ws _ _ Ha') in E. subst m.
          apply (dget_iff n a _ (wf_keys _ Ws)) in Ha. apply (dget_iff n a3 _ (wf_keys _ Ws)) in Ha'. congruence. }
    apply NoDup_Permutation; [apply (NoDup_map_inv _ _ PN)|assumption|].
    intros b. unfold key_pairing. rewrite !map_app, !in_app_iff, !map_map. split.
    + intros [H|[H|[H|H]]].
      * apply in_map_iff in H as ([a' b'] & <- & H). apply unchanged_keys_in in H as (n & _ & Hb & _).
        apply dget_in in Hb. eapply in_dvals; eauto.
      * apply in_map_iff in H as ([a' b'] & <- & H). apply renamed_keys_in in H as (rk & ak & _ & _ & Hb); auto.
        eapply in_dvals; eauto.
      * apply in_map_iff in H as (b' & <- & H). apply Atgt. unfold adds. rewrite in_app_iff. auto.
      * apply in_map_iff in H as (b' & <- & H). apply Atgt. unfold adds. rewrite in_app_iff. right. apply (in_map snd) in H. exact H.
    + intros H. apply dvals_in in H as (n & Hb). pose proof (proj2 (dget_iff n b _ (wf_keys _ Wt)) Hb) as Db.
      destruct (dget n (t_indexes src)) as [a|] eqn:Da.
      * apply dget_in in Da. destruct (key_changed a b) eqn:Ch.
        -- right. right. right. apply in_map_iff. exists (a, b). split; [reflexivity|]. apply changed_keys_in. eauto.
        -- left. apply in_map_iff. exists (a, b). split; [reflexivity|]. apply unchanged_keys_in. eauto.
      * right. destruct (in_dec string_dec n (map snd (key_pairs src tgt))) as [Hp|Hp].
        -- left. apply in_map_iff in Hp as ([rk ak] & E & Hp). simpl in E. subst ak.
           pose proof Hp as Hp'. apply key_pairs_in in Hp' as (a' & b' & Ha' & Hb' & _); auto.
           apply in_map_iff. exists (a', b). split; [reflexivity|]. apply renamed_keys_in; eauto.
        -- right. left. apply in_map_iff. exists b. split; [reflexivity|]. apply new_keys_in. eauto.
Qed.
