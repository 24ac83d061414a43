(** C19-C26: synchronising rows. *)
From Verif Require Import RowRead Samples Database Ops DiffFacts StrFacts.

(** ** Samples *)
Definition vals (l : list (string * rval)) : row := l.
Definition tracked_table (name : string) (cols : list column) (rows : dict string row) : table :=
  mkTable name (dict_of c_name cols) [("id", primary_key ["id"])] [] [] (Some (primary_key ["id"])) None
    (Some rows) true [] [] true.
Definition roles_cols : list column := [id_col; varchar_col "name" "50"; varchar_col "note" "50"].
Definition roles_file : table := tracked_table "roles" roles_cols
  [("1", vals [("id", RStr "1"); ("name", RStr "admin")]);
   ("2", vals [("id", RStr "2"); ("name", RStr "it's")]);
   ("3", vals [("id", RStr "3"); ("name", RNone)])].
Definition roles_live : table := tracked_table "roles" roles_cols
  [("2", vals [("id", RStr "2"); ("name", RStr "old"); ("note", RStr "n")]);
   ("3", vals [("id", RStr "3"); ("name", RNone); ("note", RNone)]);
   ("4", vals [("id", RStr "4"); ("name", RStr "gone"); ("note", RStr "")])].
Definition plain_table : table := tbl "plain" [id_col] [primary_key ["id"]] [].

(** The server whose rows are those of the table objects. *)
Definition served (ts : tables) : rserver := fun n id =>
  match dget n ts with
  | Some t => match t_rows t with
              | Some rows => match dget id rows with
                             | Some r => Some (fun c => match dget c r with Some v => sql_of v | None => None end)
                             | None => None end
              | None => None end
  | None => None
  end.

Definition keyedb (rows : dict string row) : bool :=
  nodupb (dkeys rows)
  && forallb (fun p => match dget "id" (snd p) with Some (RStr i) => String.eqb i (fst p) | _ => false end
                       && nodupb (dkeys (snd p))) rows.
Lemma keyedb_ok rows : keyedb rows = true -> keyed rows /\ row_maps rows.
Proof.
  unfold keyedb. rewrite andb_true_iff, forallb_forall. intros [H1 H2]. split; [split; [apply nodupb_ok, H1|]|].
  - intros id r H. apply H2 in H. simpl in H. apply andb_true_iff in H as [H _].
    destruct (dget "id" r) as [[]|]; try discriminate. apply String.eqb_eq in H. congruence.
  - intros id r H. apply H2 in H. simpl in H. apply andb_true_iff in H as [_ H]. apply nodupb_ok, H.
Qed.

Definition columns_liveb (to from : dict string row) : bool :=
  forallb (fun p => forallb (fun q => negb (String.eqb (fst p) (fst q))
    || forallb (fun c => smem c (dkeys (snd q))) (dkeys (snd p))) from) to.
Lemma columns_liveb_ok to from : columns_liveb to from = true -> columns_live to from.
Proof.
  unfold columns_liveb. rewrite forallb_forall. intros H id r f c Hr Hf Hc. apply H in Hr.
  rewrite forallb_forall in Hr. apply Hr in Hf. simpl in Hf. rewrite String.eqb_refl in Hf. simpl in Hf.
  rewrite forallb_forall in Hf. apply smem_iff, Hf, Hc.
Qed.

Definition all_cols : string -> string -> bool := fun _ _ => true.

Lemma served_reads ts n t rows : dget n ts = Some t -> t_rows t = Some rows -> row_maps rows -> reads rows (served ts n).
Proof.
  intros E1 E2 M id. unfold served. rewrite E1, E2. destruct (dget id rows) as [r|] eqn:E; [|reflexivity].
  eexists. split; [reflexivity|]. intros c v H. simpl. rewrite (proj2 (dget_iff c v r (M id r (dget_in _ _ _ E))) H). reflexivity.
Qed.

Lemma sample_ready : rows_ready all_cols (db [roles_file; plain_table]) (db [roles_live; plain_table])
                       (served (db [roles_live; plain_table])).
Proof.
  constructor.
  - apply nodupb_ok. reflexivity.
  - intros n t [[= <- <-]|[[= <- <-]|[]]]; reflexivity.
  - intros n t [[= <- <-]|[[= <- <-]|[]]] T; [|discriminate].
    eexists. split; [reflexivity|]. destruct (keyedb_ok _ (eq_refl : keyedb (rows_of roles_file) = true)) as [K M].
    split; [exact K|]. split; [exact M|]. reflexivity.
  - intros n t [[= <- <-]|[[= <- <-]|[]]] T; [|discriminate].
    change (dget _ _) with (Some roles_live). split; [reflexivity|]. eexists. split; [reflexivity|].
    destruct (keyedb_ok _ (eq_refl : keyedb (rows_of roles_live) = true)) as [K M].
    split; [exact K|]. split; [exact M|]. eapply served_reads; [reflexivity|reflexivity|exact M].
Qed.

(** ** C19 *)

(** Full statement: without the hypothesis [columns_live] (live rows have the columns the file
    sets); see C19_refuted and C24 for what happens without it. *)
Theorem C19_rows_reached_partial : forall has dflt to from s,
  rows_ready has to from s ->
  (forall n t f, In (n, t) to -> t_tracking t = true -> dget n from = Some f ->
     columns_live (rows_of t) (rows_of f)) ->
  exists ops s', plan_rows to (Some from) = Ok ops /\ exec_rows has dflt ops s = Some s'
    /\ (forall n t, In (n, t) to -> t_tracking t = true -> rows_reached (rows_of t) (dflt n) (s n) (s' n))
    /\ (forall n, (forall t, In (n, t) to -> t_tracking t = false) -> forall id, s' n id = s n id).
Proof.
  intros has dflt to from s RR L.
  destruct (plan_exec has dflt to from s RR) as (s' & E & R & F).
  { intros n t H T. unfold live_rows. destruct (dget n from) as [f|] eqn:D; [eauto|]. intros id r f c _ []. }
  eexists. exists s'. split; [apply (plan_rows_ok _ _ _ _ RR)|]. split; [exact E|]. split; [exact R|].
  intros n H. apply F. intros X. apply in_map_iff in X as ((m, t) & Em & Hx). simpl in Em. subst m.
  apply tracked_in in Hx as [Hx T]. rewrite (H t Hx) in T. discriminate.
Qed.

Example ex_C19 : rows_ready all_cols (db [roles_file; plain_table]) (db [roles_live; plain_table])
                   (served (db [roles_live; plain_table]))
  /\ (forall n t f, In (n, t) (db [roles_file; plain_table]) -> t_tracking t = true ->
        dget n (db [roles_live; plain_table]) = Some f -> columns_live (rows_of t) (rows_of f))
  /\ exists a b c, plan_rows (db [roles_file; plain_table]) (Some (db [roles_live; plain_table]))
     = Ok [ORowInsert "roles" a; ORowDelete "roles" b; ORowUpdate "roles" c].
Proof.
  split; [exact sample_ready|]. split; [|vm_compute; do 3 eexists; reflexivity].
  intros n t f [[= <- <-]|[[= <- <-]|[]]] T D; [|discriminate].
  change (Some roles_live = Some f) in D. injection D as <-. apply columns_liveb_ok. reflexivity.
Qed.

(** A column that the live table does not have yet keeps its default. *)
Definition wide : table := tracked_table "roles" roles_cols [("1", vals [("id", RStr "1"); ("note", RStr "x")])].
Definition narrow : table := tracked_table "roles" [id_col; varchar_col "name" "50"]
  [("1", vals [("id", RStr "1"); ("name", RStr "admin")])].
Lemma narrow_ready : rows_ready all_cols (db [wide]) (db [narrow]) (served (db [narrow])).
Proof.
  constructor.
  - apply nodupb_ok. reflexivity.
  - intros n t [[= <- <-]|[]]; reflexivity.
  - intros n t [[= <- <-]|[]] T. eexists. split; [reflexivity|].
    destruct (keyedb_ok _ (eq_refl : keyedb (rows_of wide) = true)) as [K M].
    split; [exact K|]. split; [exact M|]. reflexivity.
  - intros n t [[= <- <-]|[]] T. change (dget _ _) with (Some narrow). split; [reflexivity|]. eexists. split; [reflexivity|].
    destruct (keyedb_ok _ (eq_refl : keyedb (rows_of narrow) = true)) as [K M].
    split; [exact K|]. split; [exact M|]. eapply served_reads; [reflexivity|reflexivity|exact M].
Qed.

Theorem C19_refuted : exists has dflt to from s,
  rows_ready has to from s
  /\ exists ops s' t, plan_rows to (Some from) = Ok ops /\ exec_rows has dflt ops s = Some s'
    /\ In ("roles", t) to /\ t_tracking t = true /\ ~ rows_reached (rows_of t) (dflt "roles") (s "roles") (s' "roles").
Proof.
  exists all_cols, (fun _ _ => None), (db [wide]), (db [narrow]), (served (db [narrow])).
  split; [exact narrow_ready|]. exists [], (served (db [narrow])), wide.
  split; [reflexivity|]. split; [reflexivity|]. split; [left; reflexivity|]. split; [reflexivity|].
  intros [_ H]. assert (S : exists sr, served (db [narrow]) "roles" "1" = Some sr /\ sr "note" = None)
    by (eexists; split; reflexivity).
  destruct S as (sr & S & Sn).
  destruct (H "1" (vals [("id", RStr "1"); ("note", RStr "x")]) sr (or_introl eq_refl) S) as [X _].
  specialize (X "note" (RStr "x") (or_intror (or_introl eq_refl))). rewrite Sn in X.
  destruct X as (w & E & L). destruct w; discriminate.
Qed.

Print Assumptions C19_rows_reached_partial.
Print Assumptions C19_refuted.

(** ** C20 *)

(** No operation for an id on both sides whose common columns are equal. *)
Theorem C20_no_operation_for_equal_rows : forall has to from s ops n t f id r fr,
  rows_ready has to from s -> plan_rows to (Some from) = Ok ops ->
  In (n, t) to -> t_tracking t = true -> dget n from = Some f ->
  In (id, r) (rows_of t) -> In (id, fr) (rows_of f) ->
  (forall c v w, In (c, v) r -> In (c, w) fr -> loose_equal v w = true) ->
  forall o, In o ops -> row_target o <> Some (n, id).
Proof.
  intros has to from s ops n t f id r fr RR E H T D Hr Hf Eq o Ho X.
  rewrite (plan_rows_ok _ _ _ _ RR) in E. injection E as <-.
  apply in_concat in Ho as (l & Hl & Ho). apply in_map_iff in Hl as ([m u] & <- & Hm). simpl in Ho.
  apply tracked_in in Hm as [Hm Tm].
  assert (m = n). { apply (f_equal (option_map fst)) in X. destruct (row_target o) as [p|] eqn:Ep; [|discriminate].
    pose proof (row_ops_table _ _ _ _ _ Ho Ep). simpl in X. injection X as X. congruence. }
  subst m. assert (u = t).
  { apply (dget_iff n u _ (rr_names _ _ _ _ RR)) in Hm. apply (dget_iff n t _ (rr_names _ _ _ _ RR)) in H. congruence. }
  subst u. destruct (ready_rows _ _ _ _ n t RR H T) as (Kt & Mt & Ct & Kf & Mf & R).
  unfold live_rows in *. rewrite D in *.
  apply row_ops_in in Ho as [(i & q & -> & Hi & Ni)|[(i & q & -> & Hi & Ni)|(i & q & g & -> & Hi & Hg & Rd)]]; auto.
  - simpl in X. rewrite (proj2 Kt i q Hi) in X. injection X as ->. apply Ni. eapply in_dkeys; eauto.
  - simpl in X. injection X as ->. apply Ni. eapply in_dkeys; eauto.
  - simpl in X. rewrite (proj2 Kt i q Hi) in X. injection X as ->.
    assert (q = r). { apply (dget_iff id q _ (proj1 Kt)) in Hi. apply (dget_iff id r _ (proj1 Kt)) in Hr. congruence. }
    assert (g = fr). { apply (dget_iff id g _ (proj1 Kf)) in Hg. apply (dget_iff id fr _ (proj1 Kf)) in Hf. congruence. }
    subst. apply row_differs_true in Rd as (c & v & w & Hc & Hw & Ne). rewrite (Eq c v w Hc (dget_in _ _ _ Hw)) in Ne. discriminate.
Qed.

(** Rows read back after they were synchronised produce no operation. *)
Theorem C20_synchronised_rows : forall has dflt to from s ops s' from',
  rows_ready has to from s ->
  (forall n t, In (n, t) to -> t_tracking t = true -> from_file (rows_of t)) ->
  (forall n t f, In (n, t) to -> t_tracking t = true -> dget n from = Some f ->
     columns_live (rows_of t) (rows_of f)) ->
  plan_rows to (Some from) = Ok ops -> exec_rows has dflt ops s = Some s' ->
  rows_ready has to from' s' ->
  plan_rows to (Some from') = Ok [].
Proof.
  intros has dflt to from s ops s' from' RR FF L E X RR'.
  destruct (C19_rows_reached_partial has dflt to from s RR L) as (ops' & s'' & E' & X' & Re & _).
  assert (ops' = ops) by congruence. subst ops'. assert (s'' = s') by congruence. subst s''.
  rewrite (plan_rows_ok _ _ _ _ RR'). f_equal. apply concat_map_nil. intros [n t] H. simpl.
  apply tracked_in in H as [H T]. destruct (ready_rows _ _ _ _ n t RR' H T) as (Kt & Mt & Ct & Kf & Mf & R).
  destruct (Re n t H T) as [R1 R2]. destruct (row_ops n (rows_of t) (live_rows from' n)) as [|o l] eqn:Eo; [reflexivity|exfalso].
  assert (Ho : In o (row_ops n (rows_of t) (live_rows from' n))) by (rewrite Eo; left; reflexivity).
  apply row_ops_in in Ho as [(i & q & -> & Hi & Ni)|[(i & q & -> & Hi & Ni)|(i & q & g & -> & Hi & Hg & Rd)]]; auto.
  - specialize (R i). rewrite (proj2 (dget_none _ _) Ni) in R. apply (R1 i); [eapply in_dkeys; eauto|exact R].
  - apply Ni, R1. specialize (R i). rewrite (proj2 (dget_iff i q _ (proj1 Kf)) Hi) in R.
    destruct R as (sr & -> & _). discriminate.
  - specialize (R i). rewrite (proj2 (dget_iff i g _ (proj1 Kf)) Hg) in R. destruct R as (sr & Es & Er).
    destruct (R2 i q sr Hi Es) as [P _].
    apply row_differs_true in Rd as (c & v & w & Hc & Hw & Ne).
    destruct (P c v Hc) as (w' & Ew & Lw). rewrite (Er c w (dget_in _ _ _ Hw)) in Ew.
    pose proof (FF n t H T i q c v Hi Hc) as Fv. rewrite loose_file in Lw, Ne by exact Fv.
    assert (rval_str w = rval_str w'); [|congruence].
    destruct w, w'; simpl in Ew |- *; try discriminate; try reflexivity; congruence.
Qed.

(** Row 3 of the sample meets the first theorem's hypotheses; the server after the plan, read back
    by [synced], meets the second's. *)
Definition synced : table := tracked_table "roles" roles_cols
  [("2", vals [("id", RStr "2"); ("name", RStr "it's"); ("note", RStr "n")]);
   ("3", vals [("id", RStr "3"); ("name", RNone); ("note", RNone)]);
   ("1", vals [("id", RStr "1"); ("name", RStr "admin"); ("note", RNone)])].
Example ex_C20 : exists r fr, In ("3", r) (rows_of roles_file) /\ In ("3", fr) (rows_of roles_live)
  /\ (forall c v w, In (c, v) r -> In (c, w) fr -> loose_equal v w = true).
Proof.
  eexists. eexists. split; [right; right; left; reflexivity|]. split; [right; left; reflexivity|].
  intros c v w [[= <- <-]|[[= <- <-]|[]]] [[= <-]|[[= <-]|[[= <-]|[]]]]; reflexivity.
Qed.
Example ex_C20_synced : forall dflt, dflt "roles" = (fun _ => None) ->
  exists ops s', plan_rows (db [roles_file]) (Some (db [roles_live])) = Ok ops
  /\ exec_rows all_cols dflt ops (served (db [roles_live])) = Some s'
  /\ rows_ready all_cols (db [roles_file]) (db [synced]) s'
  /\ plan_rows (db [roles_file]) (Some (db [synced])) = Ok [].
Proof.
  intros dflt Hd. eexists. eexists. split; [vm_compute; reflexivity|]. split; [reflexivity|]. split; [|reflexivity].
  constructor.
  { apply nodupb_ok. reflexivity. }
  { intros n t [[= <- <-]|[]]; reflexivity. }
  { intros n t [[= <- <-]|[]] T. eexists. split; [reflexivity|].
    destruct (keyedb_ok _ (eq_refl : keyedb (rows_of roles_file) = true)) as [K M].
    split; [exact K|]. split; [exact M|]. reflexivity. }
  intros n t [[= <- <-]|[]] T. change (dget "roles" (db [synced])) with (Some synced). split; [reflexivity|]. eexists. split; [reflexivity|].
  destruct (keyedb_ok _ (eq_refl : keyedb (rows_of synced) = true)) as [K M].
  split; [exact K|]. split; [exact M|]. intros id. unfold put_row. simpl. rewrite Hd.
  destruct (String.eqb_spec id "2") as [->|N2]; [|destruct (String.eqb_spec id "3") as [->|N3];
    [|destruct (String.eqb_spec id "1") as [->|N1]]].
  - simpl. eexists. split; [reflexivity|]. intros c v [[= <- <-]|[[= <- <-]|[[= <- <-]|[]]]]; reflexivity.
  - simpl. eexists. split; [reflexivity|]. intros c v [[= <- <-]|[[= <- <-]|[[= <- <-]|[]]]]; reflexivity.
  - simpl. eexists. split; [reflexivity|]. intros c v [[= <- <-]|[[= <- <-]|[[= <- <-]|[]]]]; reflexivity.
  - simpl. destruct (String.eqb_spec id "4") as [->|N4]; [reflexivity|].
    unfold served. simpl. apply String.eqb_neq in N2, N3, N4. rewrite ?N2, ?N3, ?N4. reflexivity.
Qed.

Print Assumptions C20_no_operation_for_equal_rows.
Print Assumptions C20_synchronised_rows.

(** ** C21 *)

Lemma row_ops_targets tn trows frows : keyed trows -> keyed frows ->
  map row_target (row_ops tn trows frows)
  = map (fun id => Some (tn, id))
      (dkeys (only_in trows frows) +++ dkeys (only_in frows trows)
       +++ map fst (filter (fun p => match dget (fst p) trows with
                                     | Some r => row_differs r (snd p) | None => false end) frows)).
Proof.
  intros Kt Kf. unfold row_ops. rewrite !map_app, !map_map. f_equal; [|f_equal].
  - unfold dkeys. rewrite map_map. apply map_ext_in. intros [id r] H. apply only_in_in in H as [H _]. simpl.
    rewrite (proj2 Kt id r H). reflexivity.
  - unfold dkeys. rewrite map_map. reflexivity.
  - rewrite concat_map, map_map. unfold upd_of. induction frows as [|[id f] l IH]; [reflexivity|].
    simpl. assert (Kl : keyed l). { destruct Kf as [N I]. split; [inversion N; assumption|intros; apply I; right; assumption]. }
    rewrite (IH Kl). destruct (dget id trows) as [r|] eqn:D; [|reflexivity]. destruct (row_differs r f); [|reflexivity].
    simpl. rewrite (keyed_get _ _ _ Kt D). reflexivity.
Qed.

Lemma row_ops_nodup tn trows frows : keyed trows -> keyed frows -> NoDup (map row_target (row_ops tn trows frows)).
Proof.
  intros Kt Kf. rewrite row_ops_targets by assumption.
  apply FinFun.Injective_map_NoDup; [intros a b [= ->]; reflexivity|].
  apply NoDup_app_intro; [unfold only_in, dkeys; apply NoDup_filter_map, Kt| |].
  - apply NoDup_app_intro; [unfold only_in, dkeys; apply NoDup_filter_map, Kf|apply NoDup_filter_map, Kf|].
    intros id H1 H2. apply dkeys_in in H1 as (r & H1). apply only_in_in in H1 as [_ D].
    apply in_map_iff in H2 as ([i f] & <- & H2). apply filter_In in H2 as [_ H2]. simpl in *. rewrite D in H2. discriminate.
  - intros id H1 H2. apply dkeys_in in H1 as (r & H1). apply only_in_in in H1 as [H1 D]. apply dget_none in D.
    apply in_app_iff in H2 as [H2|H2].
    + apply dkeys_in in H2 as (f & H2). apply only_in_in in H2 as [H2 _]. apply D. eapply in_dkeys; eauto.
    + apply in_map_iff in H2 as ([i f] & <- & H2). apply filter_In in H2 as [H2 _]. apply D. eapply in_dkeys; eauto.
Qed.

Theorem C21_tracked_tables_each_id_once : forall has to from s ops,
  rows_ready has to from s -> plan_rows to (Some from) = Ok ops ->
  (* only tracked tables *)
  (forall o, In o ops -> exists n id t, row_target o = Some (n, id) /\ In (n, t) to /\ t_tracking t = true)
  (* each id once *)
  /\ NoDup (map row_target ops)
  (* inserted and deleted ids *)
  /\ (forall n t, In (n, t) to -> t_tracking t = true ->
        let live := match dget n from with Some f => rows_of f | None => [] end in
        (forall r, In (ORowInsert n r) ops <-> exists id, In (id, r) (rows_of t) /\ ~ In id (dkeys live))
        /\ (forall id, In (ORowDelete n id) ops <-> In id (dkeys live) /\ ~ In id (dkeys (rows_of t)))).
Proof.
  intros has to from s ops RR E. rewrite (plan_rows_ok _ _ _ _ RR) in E. injection E as <-.
  assert (RD : forall n t, In (n, t) (tracked to) -> keyed (rows_of t) /\ keyed (live_rows from n)).
  { intros n t H. apply tracked_in in H as [H T]. destruct (ready_rows _ _ _ _ n t RR H T) as (A & _ & _ & B & _). auto. }
  assert (Mem : forall n t o, In (n, t) to -> t_tracking t = true -> (exists id, row_target o = Some (n, id)) ->
     (In o (concat (map (fun p => row_ops (fst p) (rows_of (snd p)) (live_rows from (fst p))) (tracked to)))
      <-> In o (row_ops n (rows_of t) (live_rows from n)))).
  { intros n t o H T (id & Eo). rewrite in_concat. split.
    - intros (l & Hl & Ho). apply in_map_iff in Hl as ([m u] & <- & Hm). simpl in Ho.
      pose proof (row_ops_table _ _ _ _ _ Ho Eo) as Em. simpl in Em. subst m. apply tracked_in in Hm as [Hm _].
      apply (dget_iff n u _ (rr_names _ _ _ _ RR)) in Hm. apply (dget_iff n t _ (rr_names _ _ _ _ RR)) in H.
      assert (u = t) by congruence. subst. exact Ho.
    - intros Ho. eexists. split; [|exact Ho]. apply in_map_iff. exists (n, t). split; [reflexivity|]. apply tracked_in. auto. }
  split; [|split].
  - intros o Ho. apply in_concat in Ho as (l & Hl & Ho). apply in_map_iff in Hl as ([n t] & <- & Hn). simpl in Ho.
    destruct (RD n t Hn) as [Kt Kf]. pose proof Hn as Hn'. apply tracked_in in Hn' as [Hn1 Hn2].
    apply row_ops_in in Ho as [(i & q & -> & Hi & _)|[(i & q & -> & Hi & _)|(i & q & g & -> & Hi & _)]]; auto;
      simpl; exists n; eexists; exists t; split; try reflexivity; auto.
  - assert (ND : NoDup (map fst (tracked to))) by (apply NoDup_filter_map, (rr_names _ _ _ _ RR)).
    revert RD ND. clear. generalize (tracked to) as l. induction l as [|[n t] l IH]; simpl; intros RD ND; [constructor|].
    inversion ND as [|? ? Hn ND']; subst. rewrite map_app. apply NoDup_app_intro.
    + destruct (RD n t (or_introl eq_refl)). apply row_ops_nodup; assumption.
    + apply IH; auto.
    + intros x H1 H2. apply in_map_iff in H1 as (o & <- & Ho). apply in_map_iff in H2 as (o' & E & Ho').
      apply in_concat in Ho' as (k & Hk & Ho'). apply in_map_iff in Hk as ([m u] & <- & Hm). simpl in Ho'.
      destruct (row_target o) as [p|] eqn:Ep.
      * pose proof (row_ops_table _ _ _ _ _ Ho Ep). pose proof (row_ops_table _ _ _ _ _ Ho' E).
        apply Hn. apply in_map_iff. exists (m, u). split; [simpl; congruence|exact Hm].
      * destruct (RD n t (or_introl eq_refl)) as [Kt Kf].
        apply row_ops_in in Ho as [(i & q & -> & _)|[(i & q & -> & _)|(i & q & g & -> & _)]]; auto; discriminate.
  - intros n t H T live. change live with (live_rows from n). clear live.
    destruct (RD n t (proj2 (tracked_in _ _ _) (conj H T))) as [Kt Kf]. split.
    + intros r. rewrite (Mem n t) by (auto; simpl; eauto). rewrite row_ops_in by assumption. split.
      * intros [(i & q & [= ->] & Hi & Ni)|[(i & q & [=] & _)|(i & q & g & [=] & _)]]. eauto.
      * intros (id & Hi & Ni). left. eauto.
    + intros id. rewrite (Mem n t) by (auto; simpl; eauto). rewrite row_ops_in by assumption. split.
      * intros [(i & q & [=] & _)|[(i & q & [= ->] & Hi & Ni)|(i & q & g & [=] & _)]]. split; [eapply in_dkeys; eauto|exact Ni].
      * intros (Hi & Ni). apply dkeys_in in Hi as (r & Hi). right. left. eauto.
Qed.

Example ex_C21 : exists ops, plan_rows (db [roles_file; plain_table]) (Some (db [roles_live; plain_table])) = Ok ops
  /\ List.length ops = 3.
Proof. eexists. split; [vm_compute; reflexivity|reflexivity]. Qed.

Print Assumptions C21_tracked_tables_each_id_once.

(** ** C22 *)

(** Full statement: rejected INSERTs never cause deletions.
    Proved: an id that an accepted row of some INSERT has is never deleted. *)
Theorem C22_accepted_rows_survive_partial : forall t inserts t' f ops id r vals,
  add_all_rows t inserts = (t', None) -> keyed (rows_of t) ->
  (forall x, t_rows f = Some x -> keyed x) ->
  to_rows t' (Some f) = Ok ops ->
  In r inserts -> In "id" (insert_columns t r) -> In vals (r_raw r) -> row_with_id t r vals id ->
  ~ In (ORowDelete (t_name t') id) ops.
Proof.
  intros t inserts t' f ops id r vals A K Kf E Hr Hi Hv W Hd.
  destruct (add_all_ok _ _ _ A) as (_ & _ & K' & _ & _ & Ids & _ & _).
  destruct (to_rows_inv _ _ _ E) as (trows & frows & Et & Tf & Ef).
  assert (Kt : keyed trows). { specialize (K' K). unfold rows_of in K'. rewrite Et in K'. exact K'. }
  rewrite (to_rows_ok t' (Some f) trows frows Et Kt (conj Tf Ef)) in E. injection E as <-.
  apply row_ops_in in Hd as [(i & q & [=] & _)|[(i & q & [= <-] & _ & Ni)|(i & q & g & [=] & _)]]; auto.
  apply Ni. assert (X : In id (dkeys (rows_of t'))) by (apply Ids; right; eauto 7).
  unfold rows_of in X. rewrite Et in X. exact X.
Qed.

Example ex_C22 : exists t', add_all_rows (tracked_table "roles" roles_cols []) 
    [mkRows "roles" [[RStr "2"; RStr "b"]] ["id"; "name"] 2 [] []; mkRows "roles" [[RStr "b"]] ["name"] 1 [] []] = (t', None)
  /\ keyed (rows_of (tracked_table "roles" roles_cols []))
  /\ exists ops, to_rows t' (Some roles_live) = Ok ops /\ In (ORowDelete "roles" "4") ops.
Proof.
  eexists. split; [reflexivity|]. split; [apply keyedb_ok; reflexivity|].
  eexists. split; [vm_compute; reflexivity|]. simpl. tauto.
Qed.

(** An INSERT without id column: no error is reported for the database, all live rows are deleted. *)
Definition lonely_roles : table := tbl "roles" roles_cols [primary_key ["id"]] [].
Definition bad_insert : rows_def := mkRows "roles" [[RStr "admin"]] ["name"] 1 [] [].
Theorem C22_refuted : forall FO : FloatOracle, exists t r t' live,
  add_rows t r = (t', None) /\ In "id" (dkeys (t_columns t))
  /\ snd (db_errors (new_database [("roles", t')] (Some [("roles", [r])]) [] [])) = Ok []
  /\ rows_of live <> []
  /\ exists ops, to_rows t' (Some live) = Ok ops
     /\ forall id, In id (dkeys (rows_of live)) -> In (ORowDelete "roles" id) ops.
Proof.
  intros FO. exists lonely_roles, bad_insert. eexists. exists roles_live.
  split; [reflexivity|]. split; [left; reflexivity|]. split; [cbv; reflexivity|]. split; [discriminate|].
  eexists. split; [vm_compute; reflexivity|]. intros id H. simpl in H.
  destruct H as [<-|[<-|[<-|[]]]]; simpl; tauto.
Qed.

Print Assumptions C22_accepted_rows_survive_partial.
Print Assumptions C22_refuted.

(** ** C23 *)

(** Against a value from a file (a string or NULL), any other value is equal exactly if it is the
    same SQL value, apart from one confusion: NULL and the text None. *)
Theorem C23_value_equality_partial : forall v w, (v = RNone \/ exists s, v = RStr s) ->
  (loose_equal v w = true <->
     sql_of v = sql_of w \/ (v = RNone /\ sql_of w = Some "None") \/ (v = RStr "None" /\ w = RNone)).
Proof.
  intros v w F. rewrite loose_file by exact F. rewrite String.eqb_eq.
  destruct F as [->|(s & ->)]; destruct w; simpl; split; intros H;
    try (destruct H as [H|[[H1 H2]|[H1 H2]]]; congruence);
    try (left; congruence); try (right; left; split; congruence); right; right; split; congruence.
Qed.
Theorem C23_refuted : exists v w, loose_equal v w = true /\ sql_of v <> sql_of w.
Proof. exists RNone, (RStr "None"). split; [reflexivity|discriminate]. Qed.
Example ex_C23 : loose_equal (RStr "5") (RInt 5) = true /\ loose_equal (RStr "a") (RStr "b") = false.
Proof. split; reflexivity. Qed.

Print Assumptions C23_value_equality_partial.
Print Assumptions C23_refuted.

(** ** C24 *)

(** Full statement: for every file row.  Proved: for rows not yet live and for rows with a
    difference in some column that both sides have. *)
Theorem C24_new_column_values_partial : forall has dflt to from s n t id r c v,
  rows_ready has to from s -> In (n, t) to -> t_tracking t = true -> In (id, r) (rows_of t) ->
  In (c, v) r -> c <> "id" ->
  (forall f fr, dget n from = Some f -> In (id, fr) (rows_of f) ->
     exists c' v' w', In (c', v') r /\ In (c', w') fr /\ loose_equal v' w' = false) ->
  forall ops s', to_rows t (dget n from) = Ok ops -> exec_rows has dflt ops s = Some s' ->
  exists sr, s' n id = Some sr /\ sr c = sql_of v.
Proof.
  intros has dflt to from s n t id r c v RR H T Hr Hc Nc D ops s' E X.
  destruct (ready_rows _ _ _ _ n t RR H T) as (Kt & Mt & Ct & Kf & Mf & R).
  assert (E' : to_rows t (dget n from) = Ok (row_ops n (rows_of t) (live_rows from n))).
  { destruct (rr_to _ _ _ _ RR n t H T) as (rows & Er & K & _). pose proof (rr_from _ _ _ _ RR n t H T) as Rf.
    unfold live_rows in *. unfold rows_of at 1. rewrite Er. rewrite <- (rr_named _ _ _ _ RR n t H) at 2.
    destruct (dget n from) as [f|]; [|apply to_rows_ok; auto].
    destruct Rf as (Tf & frows & Ef & _). unfold rows_of. rewrite Ef. apply to_rows_ok; auto. }
  rewrite E' in E. injection E as <-.
  destruct (row_ops_exec has dflt n (rows_of t) (live_rows from n) s Kt Kf Ct R) as (s1 & E1 & _ & G).
  rewrite E1 in X. injection X as <-. rewrite G, (proj2 (dget_iff id r _ (proj1 Kt)) Hr).
  pose proof (proj2 (dget_iff c v _ (Mt id r Hr)) Hc) as Gc.
  destruct (dget id (live_rows from n)) as [f|] eqn:Df.
  - specialize (R id). rewrite Df in R. destruct R as (sr & -> & _).
    assert (Rd : row_differs r f = true).
    { unfold live_rows in *. destruct (dget n from) as [ft|]; [|discriminate].
      destruct (D ft f eq_refl (dget_in _ _ _ Df)) as (c' & v' & w' & A & B & C). apply row_differs_true.
      exists c', v', w'. split; [exact A|]. split; [|exact C]. apply dget_iff; [|exact B]. apply (Mf id), dget_in, Df. }
    rewrite Rd. eexists. split; [reflexivity|]. unfold written. rewrite dget_dpop. simpl.
    destruct (String.eqb_spec c "id"); [contradiction|]. rewrite Gc. reflexivity.
  - eexists. split; [reflexivity|]. unfold written. rewrite Gc. reflexivity.
Qed.

(** A row with another difference, and a column not live yet. *)
Example ex_C24 : exists r fr, In ("2", r) (rows_of roles_file)
  /\ In ("2", fr) (rows_of roles_live)
  /\ exists c v w, In (c, v) r /\ In (c, w) fr /\ loose_equal v w = false.
Proof.
  eexists. eexists. split; [right; left; reflexivity|]. split; [left; reflexivity|].
  exists "name". eexists. eexists. split; [right; left; reflexivity|]. split; [right; left; reflexivity|]. reflexivity.
Qed.

(** The plan adds the column and has no row operation. *)
Theorem C24_refuted : forall FO : FloatOracle, exists to from s t r,
  rows_ready all_cols to from s /\ In ("roles", t) to /\ t_tracking t = true
  /\ In ("1", r) (rows_of t) /\ In ("note", RStr "x") r
  /\ (exists c p, plan_tables false to (Some from) = Ok [OAlter (mkAlter "roles" [AddColumn c p])] /\ c_name c = "note")
  /\ plan_rows to (Some from) = Ok [].
Proof.
  intros FO. exists (db [wide]), (db [narrow]), (served (db [narrow])), wide. eexists.
  split; [exact narrow_ready|]. split; [left; reflexivity|]. split; [reflexivity|].
  split; [left; reflexivity|]. split; [right; left; reflexivity|]. split; [|reflexivity].
  eexists. eexists. split; [cbv; reflexivity|reflexivity].
Qed.

Print Assumptions C24_new_column_values_partial.
Print Assumptions C24_refuted.

(** ** C25 *)

(** Full statement: [add_rows] always returns.  Proved for every call that returns. *)
Theorem C25_add_rows_partial : forall t r t', add_rows t r = (t', None) ->
  (* rows already stored are unchanged and rows are keyed by their id *)
  (forall id row, dget id (rows_of t) = Some row -> dget id (rows_of t') = Some row)
  /\ (keyed (rows_of t) -> keyed (rows_of t'))
  (* the first row with a new id is stored with its values *)
  /\ (forall l1 vals l2 id, In "id" (insert_columns t r) -> r_raw r = l1 +++ vals :: l2 ->
        row_with_id t r vals id -> ~ In id (dkeys (rows_of t)) -> (forall v, In v l1 -> ~ row_with_id t r v id) ->
        exists row, dget id (rows_of t') = Some row
          /\ (NoDup (insert_columns t r) -> forall i c v, nth_error (insert_columns t r) i = Some c ->
                nth_error vals i = Some v -> c <> "id" -> dget c row = Some v)
          /\ (forall c, In c (dkeys row) -> c = "id" \/ In c (insert_columns t r)))
  (* every other row is reported *)
  /\ (forall l1 vals l2, In "id" (insert_columns t r) -> r_raw r = l1 +++ vals :: l2 ->
        (forall id, row_with_id t r vals id -> ~ In id (dkeys (rows_of t)) -> exists v, In v l1 /\ row_with_id t r v id) ->
        exists pre, In (pre ++ rvals_repr vals) (t_global_errors t'))
  (* without an id column the whole INSERT is reported *)
  /\ (~ In "id" (insert_columns t r) -> rows_of t' = rows_of t
        /\ exists m, t_global_errors t' = t_global_errors t +++ r_perrors r +++ [m])
  (* nothing else is stored *)
  /\ (forall id, In id (dkeys (rows_of t')) -> In id (dkeys (rows_of t))
        \/ exists vals, In vals (r_raw r) /\ row_with_id t r vals id).
Proof.
  intros t r t' E. apply add_rows_ok in E as (_ & _ & _ & _ & E).
  destruct (smem "id" (insert_columns t r)) eqn:S.
  - apply smem_iff in S. destruct E as [K1 K2 K3 K4 K5 K6 K7].
    split; [exact K1|]. split; [exact K3|]. split; [|split; [|split]].
    + intros l1 vals l2 id _ El W N F. exists (stored_row t r vals id). split; [eapply K5; eauto|]. split.
      * intros ND i c v. apply stored_get; exact ND.
      * intros c. apply stored_keys.
    + intros l1 vals l2 _ El F. eapply K6; eauto.
    + intros N. contradiction.
    + intros id. apply K7.
  - apply smem_false in S. destruct E as (E1 & m & E2). rewrite E1.
    split; [auto|]. split; [auto|]. split; [intros; contradiction|]. split; [intros; contradiction|].
    split; [intros _; split; [reflexivity|eauto]|auto].
Qed.

(** A row shorter than the position of its id column. *)
Theorem C25_refuted : exists t r, In "id" (insert_columns t r) /\ exists e, snd (add_rows t r) = Some e.
Proof.
  exists lonely_roles, (mkRows "roles" [[RStr "x"]] ["name"; "id"] 2 [] []).
  split; [right; left; reflexivity|]. eexists. reflexivity.
Qed.

Example ex_C25 : exists t', add_rows lonely_roles
    (mkRows "roles" [[RStr "1"; RStr "a"]; [RStr "2"; RStr "b"]; [RStr "1"; RStr "c"]] ["id"; "name"] 2 [] []) = (t', None)
  /\ dkeys (rows_of t') = ["1"; "2"] /\ List.length (t_global_errors t') = 1.
Proof. eexists. split; [reflexivity|]. split; reflexivity. Qed.

Print Assumptions C25_add_rows_partial.
Print Assumptions C25_refuted.

(** ** C26 *)

Theorem C26_updates_not_vacuous : forall has to from s ops n d,
  rows_ready has to from s -> plan_rows to (Some from) = Ok ops -> In (ORowUpdate n d) ops ->
  exists id sets,
    op_str (ORowUpdate n d) = "UPDATE `" ++ n ++ "` SET " ++ join ", " sets ++ " WHERE id='" ++ id ++ "';"
    /\ sets <> []
    /\ (forall x, In x sets -> exists c v, In (c, v) d /\ c <> "id" /\ exists y, x = "`" ++ c ++ "`=" ++ y)
    /\ exists t, In (n, t) to /\ t_tracking t = true /\ In (id, d) (rows_of t).
Proof.
  intros has to from s ops n d RR E Ho. rewrite (plan_rows_ok _ _ _ _ RR) in E. injection E as <-.
  apply in_concat in Ho as (l & Hl & Ho). apply in_map_iff in Hl as ([m t] & <- & Hm). simpl in Ho.
  apply tracked_in in Hm as [Hm T]. destruct (ready_rows _ _ _ _ m t RR Hm T) as (Kt & Mt & Ct & Kf & Mf & R).
  apply row_ops_in in Ho as [(i & q & [=] & _)|[(i & q & [=] & _)|(i & q & g & [= -> ->] & Hi & Hg & Rd)]]; auto.
  exists i. eexists. split; [unfold op_str, update_str, bq, row_id_text; rewrite (proj2 Kt i q Hi); rewrite !sapp_assoc; reflexivity|].
  split; [|split].
  - apply row_differs_true in Rd as (c & v & w & Hc & Hw & Ne).
    assert (Nc : c <> "id").
    { intros ->. apply (dget_iff _ _ _ (Mt i q Hi)) in Hc. rewrite (proj2 Kt i q Hi) in Hc. injection Hc as <-.
      rewrite (proj2 Kf i g Hg) in Hw. injection Hw as <-. rewrite loose_refl in Ne. discriminate. }
    intros X. apply map_eq_nil in X. assert (Hf : In (c, v) (update_set q)).
    { apply filter_In. split; [exact Hc|]. simpl. apply negb_true_iff, String.eqb_neq, Nc. }
    rewrite X in Hf. destruct Hf.
  - intros x Hx. apply in_map_iff in Hx as ([c v] & <- & Hx). apply filter_In in Hx as [Hx Nx]. simpl in *.
    apply negb_true_iff, String.eqb_neq in Nx. exists c, v. split; [exact Hx|]. split; [exact Nx|].
    exists (update_value v). unfold bq. simpl. rewrite sapp_assoc. reflexivity.
  - exists t. auto.
Qed.

Print Assumptions C26_updates_not_vacuous.

Example ex_C26 : exists ops d, plan_rows (db [roles_file; plain_table]) (Some (db [roles_live; plain_table])) = Ok ops
  /\ In (ORowUpdate "roles" d) ops.
Proof. eexists. eexists. split; [vm_compute; reflexivity|]. right. right. left. reflexivity. Qed.
