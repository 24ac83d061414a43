(** C107: unique keys while the rows are synchronised. *)
From Verif Require Import UniqueFacts PropsRows Samples.

(** The ids the statements of a table are about, in the order of the statements. *)
Definition touched (trows frows : dict string row) : list string :=
  dkeys (only_in trows frows) +++ dkeys (only_in frows trows)
  +++ map fst (filter (fun p => match dget (fst p) trows with
                                | Some r => row_differs r (snd p) | None => false end) frows).

Section Table.
  Context (has : string -> string -> bool) (dflt : string -> srow) (to from : tables) (s : rserver) (ops : list op)
    (s' : rserver) (n : string) (t : table).
  Context (RR : rows_ready has to from s) (P : plan_rows to (Some from) = Ok ops)
    (E : exec_rows has dflt ops s = Some s') (Ht : In (n, t) to) (T : t_tracking t = true).
  Notation frows := (live_rows from n).
  Notation trows := (rows_of t).

  Lemma once : NoDup (map row_target ops).
  Proof. exact (proj1 (proj2 (C21_tracked_tables_each_id_once has to from s ops RR P))). Qed.

  Lemma both_keyed : keyed trows /\ keyed frows.
  Proof. destruct (ready_rows _ _ _ _ n t RR Ht T) as (A & _ & _ & B & _). auto. Qed.
  Lemma live_iff i : In i (dkeys frows) <-> s n i <> None.
  Proof.
    destruct (ready_rows _ _ _ _ n t RR Ht T) as (_ & _ & _ & _ & _ & R). specialize (R i).
    destruct (dget i frows) as [r|] eqn:D.
    - destruct R as (x & -> & _). split; [discriminate|]. intros _. eapply in_dkeys, dget_in, D.
    - rewrite R. apply dget_none in D. tauto.
  Qed.

  (** The statements: those of the table in one piece. *)
  Lemma targets : exists a b, map row_target ops = a +++ map (fun i => Some (n, i)) (touched trows frows) +++ b
    /\ (forall i, ~ In (Some (n, i)) a) /\ (forall i, ~ In (Some (n, i)) b).
  Proof.
    pose proof P as P'. rewrite (plan_rows_ok _ _ _ _ RR) in P'. injection P' as <-.
    destruct both_keyed as [Kt Kf].
    assert (ND : NoDup (map fst (tracked to))) by (apply NoDup_filter_map, (rr_names _ _ _ _ RR)).
    assert (H : In (n, t) (tracked to)) by (apply tracked_in; auto).
    apply in_split in H as (l1 & l2 & H). rewrite H in ND |- *. rewrite !map_app, !concat_app, !map_app. simpl.
    rewrite map_app. rewrite row_ops_targets by assumption.
    eexists _, _. split; [reflexivity|]. rewrite map_app in ND. simpl in ND. apply NoDup_remove_2 in ND.
    assert (X : forall l, ~ In n (map fst l) -> forall i, ~ In (Some (n, i))
      (map row_target (concat (map (fun p : string * table => row_ops (fst p) (rows_of (snd p)) (live_rows from (fst p))) l)))).
    { intros l N i I. apply in_map_iff in I as (o & Eo & I). apply in_concat in I as (k & Hk & I).
      apply in_map_iff in Hk as ((m, u) & <- & Hm). pose proof (row_ops_table _ _ _ _ _ I Eo) as X. simpl in X. subst m.
      apply N. apply in_map_iff. exists (n, u). auto. }
    split; apply X; intros I; apply ND, in_app_iff; auto.
  Qed.

  Lemma touched_nodup : NoDup (touched trows frows).
  Proof.
    destruct both_keyed as [Kt Kf]. pose proof (row_ops_nodup n _ _ Kt Kf) as X. rewrite row_ops_targets in X by assumption.
    eapply NoDup_map_inv, X.
  Qed.
  Lemma touched_iff i : In (Some (n, i)) (map row_target ops) <-> In i (touched trows frows).
  Proof.
    destruct targets as (a & b & -> & Na & Nb). rewrite !in_app_iff, in_map_iff. split.
    - intros [H|[(j & [= ->] & H)|H]]; [exfalso; eapply Na, H|exact H|exfalso; eapply Nb, H].
    - intros H. right. left. eauto.
  Qed.

  (** Statements before a cut and after it. *)
  Lemma cut_before done rest i j : ops = done +++ rest -> In (Some (n, i)) (map row_target done) ->
    ~ In (Some (n, j)) (map row_target done) -> In j (touched trows frows) -> before i j (touched trows frows).
  Proof.
    intros Eo Hi Hj Tj. pose proof once as ND.
    assert (Ti : In i (touched trows frows)) by (apply touched_iff; rewrite Eo, map_app; apply in_app_iff; auto).
    assert (N : i <> j) by congruence.
    destruct (before_total _ _ _ Ti Tj N) as [X|X]; [exact X|exfalso]. apply Hj.
    apply (before_map (fun i => Some (n, i))) in X. destruct targets as (a & b & Et & _).
    apply (before_app _ _ a _ b) in X. rewrite <- Et, Eo, map_app in X. rewrite Eo, map_app in ND.
    exact (before_cut _ _ _ _ ND X Hi).
  Qed.
  Lemma before_cuts i j : before i j (touched trows frows) ->
    exists done rest, ops = done +++ rest /\ In (Some (n, i)) (map row_target done) /\ ~ In (Some (n, j)) (map row_target done).
  Proof.
    intros X. apply (before_map (fun i => Some (n, i))) in X. destruct targets as (a & b & Et & _).
    apply (before_app _ _ a _ b) in X. rewrite <- Et in X. exact (before_between row_target _ _ _ once X).
  Qed.

  (** The three kinds. *)
  Definition changed_ids : list string :=
    map fst (filter (fun p => match dget (fst p) trows with
                              | Some r => row_differs r (snd p) | None => false end) frows).
  Lemma kinds i : In i (touched trows frows) ->
    (In i (dkeys (only_in trows frows)) /\ s n i = None)
    \/ (In i (dkeys (only_in frows trows)) /\ s n i <> None /\ s' n i = None)
    \/ (In i changed_ids /\ s n i <> None /\ s' n i <> None).
  Proof.
    intros H. destruct both_keyed as [Kt Kf]. unfold touched in H. apply in_app_iff in H as [H|H]; [|apply in_app_iff in H as [H|H]].
    - left. split; [exact H|]. apply dkeys_in in H as (r & H). apply only_in_in in H as [_ D]. apply dget_none in D.
      rewrite live_iff in D. destruct (s n i); [exfalso; apply D; discriminate|reflexivity].
    - right. left. split; [exact H|]. apply dkeys_in in H as (r & H). apply only_in_in in H as [H D]. apply dget_none in D.
      split; [apply live_iff; eapply in_dkeys, H|]. apply (exec_deleted has dflt ops s); [exact E|exact once|].
      apply (proj2 (proj2 (C21_tracked_tables_each_id_once has to from s ops RR P)) n t Ht T).
      change (In i (dkeys frows) /\ ~ In i (dkeys trows)). split; [eapply in_dkeys, H|exact D].
    - right. right. split; [exact H|]. apply in_map_iff in H as ((i0, f) & Ei & H). simpl in Ei. subst i0.
      apply filter_In in H as [H Hd]. simpl in Hd. destruct (dget i trows) as [r|] eqn:D; [|discriminate].
      assert (L : s n i <> None) by (apply live_iff; eapply in_dkeys, H). split; [exact L|].
      apply (exec_updated has dflt ops s s' n r i E once); [|exact (keyed_get _ _ _ Kt D)|exact L].
      pose proof P as P'. rewrite (plan_rows_ok _ _ _ _ RR) in P'. injection P' as <-. apply in_concat.
      exists (row_ops n trows frows). split.
      + apply in_map_iff. exists (n, t). split; [reflexivity|]. apply tracked_in. auto.
      + apply row_ops_in; [exact Kt|exact Kf|]. right. right. exists i, r, f. repeat split; auto. apply dget_in, D.
  Qed.

  Lemma untouched i : ~ In i (touched trows frows) -> s' n i = s n i.
  Proof. intros H. apply (exec_untouched has dflt ops _ _ _ _ E). rewrite touched_iff. exact H. Qed.

  Lemma collide_sym cols a b : collide cols a b -> collide cols b a.
  Proof. intros H c Hc. destruct (H c Hc) as [-> X]. auto. Qed.

  Lemma unique_exact cols : never_refused has dflt n cols ops s <->
    obeys cols (s n) /\ obeys cols (s' n)
    /\ (forall i j a b, s n i = None -> s' n i = Some a -> s n j = Some b -> ~ collide cols a b)
    /\ (forall i j a b, before i j (dkeys frows) -> s' n i = Some a -> s n j = Some b -> s' n j <> None -> ~ collide cols a b).
  Proof.
    pose proof once as ND. destruct both_keyed as [Kt Kf]. split.
    - intros H.
      assert (O : obeys cols (s n)) by (apply (H [] ops s); reflexivity).
      assert (M : forall i j a b, before i j (touched trows frows) -> s' n i = Some a -> s n j = Some b -> ~ collide cols a b).
      { intros i j a b B Ha Hb. destruct (before_cuts i j B) as (done & rest & Eo & Hi & Hj).
        rewrite Eo in E, ND. destruct (exec_prefix _ _ _ _ _ _ E) as (s1 & E1).
        destruct (exec_mid has dflt done rest s s1 s' n i E1 E ND) as [Xi _].
        destruct (exec_mid has dflt done rest s s1 s' n j E1 E ND) as [_ Xj].
        assert (N : i <> j) by congruence.
        apply (H done rest s1 Eo E1 i j a b N); [rewrite (Xi Hi); exact Ha|rewrite (Xj Hj); exact Hb]. }
      split; [exact O|]. split; [apply (H ops [] s'); [symmetry; apply app_nil_r|exact E]|]. split.
      + intros i j a b Hi Ha Hb.
        assert (Ti : In i (touched trows frows)).
        { destruct (in_dec string_dec i (touched trows frows)) as [X|X]; [exact X|]. apply untouched in X. congruence. }
        destruct (kinds i Ti) as [[Ki _]|[(_ & X & _)|(_ & X & _)]]; [|congruence|congruence].
        destruct (in_dec string_dec j (touched trows frows)) as [Tj|Tj].
        * apply (M i j a b); auto. unfold touched in Tj |- *. apply in_app_iff in Tj as [Tj|Tj].
          -- exfalso. destruct (kinds j (proj2 (in_app_iff _ _ _) (or_introl Tj))) as [[_ X]|[(X & _)|(X & _)]]; [congruence| |].
             ++ apply dkeys_in in Tj as (r & Tj). apply only_in_in in Tj as [_ D]. apply dget_none in D. apply D, live_iff. congruence.
             ++ apply dkeys_in in Tj as (r & Tj). apply only_in_in in Tj as [_ D]. apply dget_none in D. apply D, live_iff. congruence.
          -- apply before_apart; assumption.
        * intros X.
          assert (Hb' : s' n j = Some b) by (rewrite (untouched _ Tj); exact Hb).
          assert (N : i <> j) by congruence.
          refine (H ops [] s' _ E i j a b N Ha Hb' X). symmetry. apply app_nil_r.
      + intros i j a b B Ha Hb Lj. destruct (before_mem _ _ _ B) as [Hi Hj].
        assert (N : i <> j).
        { intros ->. eapply before_asym; [exact (proj1 Kf)|exact B|exact B]. }
        destruct (in_dec string_dec i (touched trows frows)) as [Ti|Ti].
        2:{ apply (O i j); auto. rewrite <- (untouched _ Ti). exact Ha. }
        destruct (in_dec string_dec j (touched trows frows)) as [Tj|Tj].
        2:{ intros X. refine (H ops [] s' _ E i j a b N Ha _ X); [symmetry; apply app_nil_r|]. rewrite (untouched _ Tj). exact Hb. }
        apply (M i j a b); auto. rewrite live_iff in Hi, Hj.
        destruct (kinds i Ti) as [[_ X]|[(_ & _ & X)|(Ki & _ & _)]]; [congruence|congruence|].
        destruct (kinds j Tj) as [[_ X]|[(_ & _ & X)|(Kj & _ & _)]]; [congruence|congruence|].
        assert (X : before i j changed_ids) by (apply before_filter; [exact (proj1 Kf)|exact B|exact Ki|exact Kj]).
        unfold touched. fold changed_ids. rewrite app_assoc. rewrite <- (app_nil_r changed_ids). apply before_app, X.
    - intros (O & O' & New & Upd) done rest s1 Eo E1.
      assert (E0 := E). rewrite Eo in E0, ND.
      assert (G : forall i j a b, i <> j -> In (Some (n, i)) (map row_target done) -> ~ In (Some (n, j)) (map row_target done) ->
        s1 n i = Some a -> s1 n j = Some b -> ~ collide cols a b).
      { intros i j a b N Hi Hj Ha Hb.
        destruct (exec_mid has dflt done rest s s1 s' n i E1 E0 ND) as [Xi _]. rewrite (Xi Hi) in Ha.
        destruct (exec_mid has dflt done rest s s1 s' n j E1 E0 ND) as [_ Xj]. rewrite (Xj Hj) in Hb.
        destruct (in_dec string_dec j (touched trows frows)) as [Tj|Tj].
        2:{ apply (O' i j); auto. rewrite (untouched _ Tj). exact Hb. }
        pose proof (cut_before done rest i j Eo Hi Hj Tj) as B. destruct (before_mem _ _ _ B) as [Ti _].
        destruct (kinds i Ti) as [[_ X]|[(_ & _ & X)|(Ki & Li & Li')]]; [exact (New i j a b X Ha Hb)|congruence|].
        destruct (kinds j Tj) as [[_ X]|[(Kj & _ & X)|(Kj & Lj & Lj')]]; [congruence| |].
        - exfalso. apply (before_asym i j _ touched_nodup B). unfold touched. fold changed_ids. rewrite app_assoc.
          apply before_apart; [apply in_app_iff; auto|exact Ki].
        - apply (Upd i j a b); auto.
          destruct (before_total i j (dkeys frows)) as [X|X]; [apply live_iff, Li|apply live_iff, Lj|exact N|exact X|exfalso].
          apply (before_asym i j _ touched_nodup B). unfold touched. fold changed_ids. rewrite app_assoc.
          rewrite <- (app_nil_r changed_ids). apply before_app. apply before_filter; [exact (proj1 Kf)|exact X|exact Kj|exact Ki]. }
      intros i j a b N Ha Hb.
      destruct (in_dec (fun x y : option (string * string) => ltac:(repeat decide equality)) (Some (n, i)) (map row_target done)) as [Hi|Hi];
      destruct (in_dec (fun x y : option (string * string) => ltac:(repeat decide equality)) (Some (n, j)) (map row_target done)) as [Hj|Hj].
      + apply (O' i j); auto.
        * rewrite <- (proj1 (exec_mid has dflt done rest s s1 s' n i E1 E0 ND) Hi). exact Ha.
        * rewrite <- (proj1 (exec_mid has dflt done rest s s1 s' n j E1 E0 ND) Hj). exact Hb.
      + exact (G i j a b N Hi Hj Ha Hb).
      + intros X. apply (G j i b a (not_eq_sym N) Hj Hi Hb Ha). apply collide_sym, X.
      + apply (O i j); auto.
        * rewrite <- (proj2 (exec_mid has dflt done rest s s1 s' n i E1 E0 ND) Hi). exact Ha.
        * rewrite <- (proj2 (exec_mid has dflt done rest s s1 s' n j E1 E0 ND) Hj). exact Hb.
  Qed.
End Table.

(** ** C107: no statement is refused for a duplicate value in a unique key *)

(** Exactly when the statements of a plan are never refused for the unique key [cols] of the table [n]:
    the rows before and after obey the key, no added row has the values of a row that was there before,
    and no row that stays takes values that a row behind it (in the order the server listed them) has
    before the run. *)
Theorem C107_exact : forall has dflt to from s ops s' n t cols,
  rows_ready has to from s -> plan_rows to (Some from) = Ok ops -> exec_rows has dflt ops s = Some s' ->
  In (n, t) to -> t_tracking t = true ->
  let live := match dget n from with Some f => rows_of f | None => [] end in
  never_refused has dflt n cols ops s <->
    obeys cols (s n) /\ obeys cols (s' n)
    /\ (forall i j a b, s n i = None -> s' n i = Some a -> s n j = Some b -> ~ collide cols a b)
    /\ (forall i j a b, before i j (dkeys live) -> s' n i = Some a -> s n j = Some b -> s' n j <> None -> ~ collide cols a b).
Proof.
  intros has dflt to from s ops s' n t cols RR P E Ht T live. exact (unique_exact has dflt to from s ops s' n t RR P E Ht T cols).
Qed.
Print Assumptions C107_exact.

(** Tables whose rows the files do not hold are left alone. *)
Theorem C107_other_tables : forall has dflt to from s ops n cols,
  rows_ready has to from s -> plan_rows to (Some from) = Ok ops ->
  (forall t, In (n, t) to -> t_tracking t = false) -> obeys cols (s n) -> never_refused has dflt n cols ops s.
Proof.
  intros has dflt to from s ops n cols RR P Nt O done rest s1 Eo E1 i j a b N Ha Hb.
  assert (F : forall id, s1 n id = s n id).
  { intros id. apply (exec_untouched has dflt done _ _ _ _ E1). intros H.
    apply in_map_iff in H as (o & Et & Ho). assert (I : In o ops) by (rewrite Eo; apply in_app_iff; auto).
    destruct (proj1 (C21_tracked_tables_each_id_once has to from s ops RR P) o I) as (m & x & t & Et' & Hm & T).
    rewrite Et in Et'. injection Et' as <- <-. rewrite (Nt t Hm) in T. discriminate. }
  rewrite F in Ha, Hb. exact (O i j a b N Ha Hb).
Qed.
Print Assumptions C107_other_tables.

(** Missing for the full statement: rows that take over the values of a row that is still there.
    Proved when no row of the result has the values of a row that was there under another id. *)
Theorem C107_never_refused_partial : forall has dflt to from s ops s' n t cols,
  rows_ready has to from s -> plan_rows to (Some from) = Ok ops -> exec_rows has dflt ops s = Some s' ->
  In (n, t) to -> t_tracking t = true -> obeys cols (s n) -> obeys cols (s' n) ->
  (forall i j a b, i <> j -> s' n i = Some a -> s n j = Some b -> ~ collide cols a b) ->
  never_refused has dflt n cols ops s.
Proof.
  intros has dflt to from s ops s' n t cols RR P E Ht T O O' H.
  apply (unique_exact has dflt to from s ops s' n t RR P E Ht T cols). split; [exact O|]. split; [exact O'|]. split.
  - intros i j a b Ni Ha Hb. apply (H i j); congruence.
  - intros i j a b B Ha Hb _. apply (H i j); auto. intros ->.
    destruct (ready_rows _ _ _ _ n t RR Ht T) as (_ & _ & _ & K & _). exact (before_asym j j _ (proj1 K) B B).
Qed.
Print Assumptions C107_never_refused_partial.

(** *** Samples: a table with a unique name *)
Definition named_table (rows : dict string row) : table :=
  mkTable "roles" (dict_of c_name [id_col; varchar_col "name" "50"])
    [("id", primary_key ["id"]); ("name_idx", unique_key "name_idx" ["name"])] [] [] (Some (primary_key ["id"])) None
    (Some rows) true [] [] true.
Definition named (i v : string) : string * row := (i, [("id", RStr i); ("name", RStr v)]).
Lemma named_ready f g : keyedb f = true -> keyedb g = true ->
  rows_ready all_cols (db [named_table f]) (db [named_table g]) (served (db [named_table g])).
Proof.
  intros Kf Kg. apply keyedb_ok in Kf as [Kf Mf]. apply keyedb_ok in Kg as [Kg Mg]. constructor.
  - apply nodupb_ok. reflexivity.
  - intros n t [[= <- <-]|[]]; reflexivity.
  - intros n t [[= <- <-]|[]] T. eexists. split; [reflexivity|]. repeat (split; [assumption|]). reflexivity.
  - intros n t [[= <- <-]|[]] T. change (dget _ _) with (Some (named_table g)). split; [reflexivity|]. eexists. split; [reflexivity|].
    repeat (split; [assumption|]). eapply served_reads; [reflexivity|reflexivity|assumption].
Qed.


(** What the rows are before and after the statements of the sample. *)
Definition names_are (l : list (string * string)) (rows : srows) : Prop :=
  forall i, match dget i l with
            | Some v => exists r, rows i = Some r /\ r "name" = Some v
            | None => rows i = None
            end.
Lemma names_obey l rows : NoDup (map snd l) -> names_are l rows -> obeys ["name"] rows.
Proof.
  intros ND H i j a b N Ha Hb C. destruct (C "name" (or_introl eq_refl)) as [E _]. pose proof (H i) as Hi. pose proof (H j) as Hj.
  destruct (dget i l) as [v|] eqn:Di; [|congruence]. destruct (dget j l) as [w|] eqn:Dj; [|congruence].
  destruct Hi as (x & Ex & Ev). destruct Hj as (y & Ey & Ew). assert (Evw : v = w) by congruence. subst w. apply N.
  apply dget_in in Di, Dj. clear - ND Di Dj. induction l as [|(k, x) l IH]; [destruct Di|]. simpl in ND. inversion ND as [|? ? Hn ND']; subst.
  destruct Di as [[= -> ->]|Di], Dj as [Ej|Dj].
  - congruence.
  - exfalso. apply Hn. apply in_map_iff. exists (j, v). auto.
  - injection Ej as -> ->. exfalso. apply Hn. apply in_map_iff. exists (i, v). auto.
  - exact (IH ND' Di Dj).
Qed.
Definition rows_named (l : list (string * string)) : dict string row := map (fun p => named (fst p) (snd p)) l.
Lemma rows_named_get l i : dget i (rows_named l) = option_map (fun v => snd (named i v)) (dget i l).
Proof.
  induction l as [|(k, v) l IH]; [reflexivity|]. simpl. destruct (String.eqb_spec i k) as [->|K]; [reflexivity|exact IH].
Qed.

Lemma named_run l m : ~ In "None" (map snd l) -> keyedb (rows_named l) = true -> keyedb (rows_named m) = true ->
  exists ops s', plan_rows (db [named_table (rows_named l)]) (Some (db [named_table (rows_named m)])) = Ok ops
  /\ exec_rows all_cols (fun _ _ => None) ops (served (db [named_table (rows_named m)])) = Some s'
  /\ names_are m (served (db [named_table (rows_named m)]) "roles") /\ names_are l (s' "roles").
Proof.
  intros Nn Kl Km. pose proof (named_ready _ _ Kl Km) as RR.
  destruct (C19_rows_reached_partial all_cols (fun _ _ => None) _ _ _ RR) as (ops & s' & P & E & R & _).
  { intros n t f [[= <- <-]|[]] T D. change (Some (named_table (rows_named m)) = Some f) in D. injection D as <-.
    intros id r g c Hr Hg Hc. unfold rows_of, named_table, rows_named in Hr, Hg. cbn in Hr, Hg.
    apply in_map_iff in Hr as (p & [= <- <-] & _). apply in_map_iff in Hg as (q & [= Eq <-] & _). exact Hc. }
  exists ops, s'. split; [exact P|]. split; [exact E|]. split.
  - intros i. destruct (ready_rows _ _ _ _ "roles" _ RR (or_introl eq_refl) eq_refl) as (_ & _ & _ & _ & _ & X). specialize (X i).
    change (live_rows (db [named_table (rows_named m)]) "roles") with (rows_named m) in X. rewrite rows_named_get in X.
    destruct (dget i m) as [v|]; [|exact X]. destruct X as (r & Er & X). exists r. split; [exact Er|]. apply (X "name" (RStr v)). right. left. reflexivity.
  - destruct (R "roles" _ (or_introl eq_refl) eq_refl) as [R1 R2]. intros i. change (rows_of _) with (rows_named l) in R1, R2.
    destruct (dget i l) as [v|] eqn:D.
    + assert (G : dget i (rows_named l) = Some (snd (named i v))) by (rewrite rows_named_get, D; reflexivity).
      destruct (s' "roles" i) as [r|] eqn:Er.
      * exists r. split; [reflexivity|]. destruct (R2 i _ r (dget_in _ _ _ G) Er) as [X _]. destruct (X "name" (RStr v)) as (w & -> & Q); [right; left; reflexivity|].
        rewrite loose_file in Q by eauto. apply String.eqb_eq in Q. simpl in Q. subst v. destruct w; try reflexivity.
        (* for the tool the text None and NULL are the same *)
        exfalso. apply Nn. apply dget_in in D. apply in_map_iff. exists (i, "None"). auto.
      * exfalso. apply (proj2 (R1 i)); [|exact Er]. eapply in_dkeys, dget_in, G.
    + destruct (s' "roles" i) as [r|] eqn:Er; [|reflexivity]. exfalso.
      assert (N : s' "roles" i <> None) by congruence. apply R1 in N. apply dkeys_in in N as (x & N).
      apply in_map_iff in N as ((k, v) & [= -> _] & N). apply dget_none in D. apply D. eapply in_dkeys, N.
Qed.

(** The statement is false although the rows before and after obey the key.  A row that gets a new id is
    inserted before the old one is deleted ... *)
Definition refused_although (l m : list (string * string)) : Prop := exists ops s',
  let to := db [named_table (rows_named l)] in let from := db [named_table (rows_named m)] in
  let s := served (db [named_table (rows_named m)]) in
  rows_ready all_cols to from s /\ plan_rows to (Some from) = Ok ops
  /\ exec_rows all_cols (fun _ _ => None) ops s = Some s'
  /\ (exists t x, In ("roles", t) to /\ t_tracking t = true /\ In (x, unique_key "name_idx" ["name"]) (t_indexes t))
  /\ names_are m (s "roles") /\ names_are l (s' "roles")
  /\ obeys ["name"] (s "roles") /\ obeys ["name"] (s' "roles")
  /\ ~ never_refused all_cols (fun _ _ => None) "roles" ["name"] ops s.
Lemma refused_by l m : ~ In "None" (map snd l) -> NoDup (map snd l) -> NoDup (map snd m) ->
  keyedb (rows_named l) = true -> keyedb (rows_named m) = true ->
  (exists i j v, dget i l = Some v /\ dget j m = Some v
     /\ (dget i m = None \/ (before i j (dkeys (rows_named m)) /\ dget j l <> None))) -> refused_although l m.
Proof.
  intros Nn Nl Nm Kl Km (i & j & v & Di & Dj & H). destruct (named_run l m Nn Kl Km) as (ops & s' & P & E & B & A).
  exists ops, s'. cbv zeta. pose proof (named_ready _ _ Kl Km) as RR. split; [exact RR|]. split; [exact P|]. split; [exact E|].
  split; [eexists _, "name_idx"; split; [left; reflexivity|]; split; [reflexivity|]; right; left; reflexivity|].
  split; [exact B|]. split; [exact A|]. split; [exact (names_obey _ _ Nm B)|]. split; [exact (names_obey _ _ Nl A)|].
  intros X. apply (C107_exact _ _ _ _ _ _ _ "roles" _ _ RR P E (or_introl eq_refl) eq_refl) in X as (_ & _ & New & Upd).
  pose proof (A i) as Ai. rewrite Di in Ai. destruct Ai as (a & Ea & Va). pose proof (B j) as Bj. rewrite Dj in Bj. destruct Bj as (b & Eb & Vb).
  assert (C : collide ["name"] a b) by (intros c [<-|[]]; split; congruence).
  destruct H as [H|[H H']].
  - pose proof (B i) as Bi. rewrite H in Bi. exact (New i j a b Bi Ea Eb C).
  - refine (Upd i j a b H Ea Eb _ C). pose proof (A j) as Aj. destruct (dget j l); [|congruence]. destruct Aj as (y & -> & _). discriminate.
Qed.

Theorem C107_moved_refuted : refused_although [("2", "admin")] [("1", "admin")].
Proof.
  apply refused_by; try reflexivity; try (apply nodupb_ok; reflexivity); [intros [|[]]; discriminate|].
  exists "2", "1", "admin". repeat split. left. reflexivity.
Qed.
Print Assumptions C107_moved_refuted.

(** ... and of two rows that exchange their values the first UPDATE meets the old value of the other. *)
Theorem C107_swapped_refuted : refused_although [("1", "user"); ("2", "admin")] [("1", "admin"); ("2", "user")].
Proof.
  apply refused_by; try reflexivity; try (apply nodupb_ok; reflexivity); [intros [|[|[]]]; discriminate|].
  exists "1", "2", "user". repeat split. right. split; [exists [], [], []; reflexivity|discriminate].
Qed.
Print Assumptions C107_swapped_refuted.

(** A case for the theorems: one row is added, one deleted, one gets another name; nothing is refused. *)
Example ex_C107 : let l := [("1", "root"); ("3", "guest")] in let m := [("1", "admin"); ("2", "user")] in
  rows_ready all_cols (db [named_table (rows_named l)]) (db [named_table (rows_named m)]) (served (db [named_table (rows_named m)]))
  /\ exists ops s', plan_rows (db [named_table (rows_named l)]) (Some (db [named_table (rows_named m)])) = Ok ops
  /\ List.length ops = 3
  /\ exec_rows all_cols (fun _ _ => None) ops (served (db [named_table (rows_named m)])) = Some s'
  /\ never_refused all_cols (fun _ _ => None) "roles" ["name"] ops (served (db [named_table (rows_named m)])).
Proof.
  intros l m. assert (Kl : keyedb (rows_named l) = true) by reflexivity. assert (Km : keyedb (rows_named m) = true) by reflexivity.
  pose proof (named_ready _ _ Kl Km) as RR. split; [exact RR|].
  assert (Nn : ~ In "None" (map snd l)) by (intros [|[|[]]]; discriminate).
  destruct (named_run l m Nn Kl Km) as (ops & s' & P & E & B & A). exists ops, s'. split; [exact P|].
  split; [vm_compute in P; injection P as <-; reflexivity|]. split; [exact E|].
  apply (C107_never_refused_partial _ _ _ _ _ _ _ "roles" _ _ RR P E (or_introl eq_refl) eq_refl).
  - apply (names_obey m); [apply nodupb_ok; reflexivity|exact B].
  - apply (names_obey l); [apply nodupb_ok; reflexivity|exact A].
  - intros i j a b N Ha Hb C. destruct (C "name" (or_introl eq_refl)) as [Ec _]. specialize (A i). specialize (B j).
    destruct (dget i l) as [v|] eqn:Di; [|congruence]. destruct (dget j m) as [w|] eqn:Dj; [|congruence].
    destruct A as (x & Ex & Vx). destruct B as (y & Ey & Vy). assert (v = w) by congruence. subst w.
    apply dget_in in Di, Dj. cbn in Di, Dj. destruct Di as [[= <- <-]|[[= <- <-]|[]]], Dj as [[= Ej]|[[= Ej]|[]]].
Qed.
