(** C108: references between rows. *)
From Verif Require Import SpecRefer RowFacts PropsRows PropsUnique Samples.

Section Run.
  Context (has : string -> string -> bool) (dflt : string -> srow) (to from : tables) (s : rserver) (ops : list op)
    (s' : rserver).
  Context (RR : rows_ready has to from s)
    (L : forall n t f, In (n, t) to -> t_tracking t = true -> dget n from = Some f -> columns_live (rows_of t) (rows_of f))
    (P : plan_rows to (Some from) = Ok ops) (E : exec_rows has dflt ops s = Some s').

  Lemma run_reached : (forall n t, In (n, t) to -> t_tracking t = true -> rows_reached (rows_of t) (dflt n) (s n) (s' n))
    /\ (forall n, (forall t, In (n, t) to -> t_tracking t = false) -> forall id, s' n id = s n id).
  Proof.
    destruct (C19_rows_reached_partial has dflt to from s RR L) as (ops2 & s2 & P2 & E2 & R).
    assert (ops2 = ops) by congruence. subst ops2. assert (s2 = s') by congruence. subst s2. exact R.
  Qed.

  Lemma value_after n t c : In (n, t) to -> t_tracking t = true -> says_whom c (rows_of t) ->
    forall v, (exists i a, s' n i = Some a /\ a c = Some v) <-> (exists id r, In (id, r) (rows_of t) /\ In (c, RStr v) r).
  Proof.
    intros Ht T Sw v. destruct run_reached as [R _]. destruct (R n t Ht T) as [R1 R2].
    destruct (ready_rows _ _ _ _ n t RR Ht T) as (_ & Mp & _).
    assert (G : forall id r sr w, In (id, r) (rows_of t) -> In (c, RStr w) r -> s' n id = Some sr -> sr c = Some w).
    { intros id r sr w Hr Hc Es. destruct (R2 id r sr Hr Es) as [X _]. destruct (X c (RStr w) Hc) as (x & -> & Q).
      rewrite loose_file in Q by eauto. apply String.eqb_eq in Q. simpl in Q. subst w. destruct x; try reflexivity.
      exfalso. destruct (Sw id r Hr) as (u & Hu & Nu). apply Nu.
      assert (E1 := proj2 (dget_iff c _ _ (Mp id r Hr)) Hu). assert (E2 := proj2 (dget_iff c _ _ (Mp id r Hr)) Hc). simpl in E2. congruence. }
    split.
    - intros (i & a & Ea & Ev). assert (N : s' n i <> None) by congruence. apply R1 in N. apply dkeys_in in N as (r & Hr).
      destruct (Sw i r Hr) as (w & Hw & _). exists i, r. split; [exact Hr|]. rewrite (G i r a w Hr Hw Ea) in Ev. injection Ev as <-. exact Hw.
    - intros (id & r & Hr & Hc). destruct (s' n id) as [a|] eqn:Ea.
      + exists id, a. split; [exact Ea|]. exact (G id r a v Hr Hc Ea).
      + exfalso. apply (proj2 (R1 id)); [|exact Ea]. eapply in_dkeys, Hr.
  Qed.
End Run.

(** ** C108: the references between rows hold after a run *)

(** Exactly when they do, by who holds the rows of the two tables. *)
Theorem C108_exact : forall has dflt to from s ops s' n m c,
  rows_ready has to from s ->
  (forall n t f, In (n, t) to -> t_tracking t = true -> dget n from = Some f -> columns_live (rows_of t) (rows_of f)) ->
  plan_rows to (Some from) = Ok ops -> exec_rows has dflt ops s = Some s' ->
  (* the files hold the rows of the referenced table only: no row of the server may refer to a row they
     do not have *)
  ((forall t, In (n, t) to -> t_tracking t = false) ->
   forall u, In (m, u) to -> t_tracking u = true ->
     (refers c (s' n) (s' m) <-> forall i a v, s n i = Some a -> a c = Some v -> In v (dkeys (rows_of u))))
  (* the files hold the rows of both: the rows of the files refer to rows of the files *)
  /\ (forall t u, In (n, t) to -> t_tracking t = true -> says_whom c (rows_of t) -> In (m, u) to -> t_tracking u = true ->
       (refers c (s' n) (s' m)
        <-> forall id r v, In (id, r) (rows_of t) -> In (c, RStr v) r -> In v (dkeys (rows_of u))))
  (* the files hold the rows of the referring table only: they refer to rows of the server *)
  /\ (forall t, In (n, t) to -> t_tracking t = true -> says_whom c (rows_of t) ->
      (forall u, In (m, u) to -> t_tracking u = false) ->
       (refers c (s' n) (s' m) <-> forall id r v, In (id, r) (rows_of t) -> In (c, RStr v) r -> s m v <> None))
  (* the files hold the rows of neither: as before *)
  /\ ((forall t, In (n, t) to -> t_tracking t = false) -> (forall u, In (m, u) to -> t_tracking u = false) ->
       (refers c (s' n) (s' m) <-> refers c (s n) (s m))).
Proof.
  intros has dflt to from s ops s' n m c RR L P E. destruct (run_reached has dflt to from s ops s' RR L P E) as [R F].
  assert (Ids : forall u, In (m, u) to -> t_tracking u = true -> forall v, s' m v <> None <-> In v (dkeys (rows_of u))).
  { intros u Hu Tu v. exact (proj1 (R m u Hu Tu) v). }
  split; [|split; [|split]].
  - intros Nn u Hu Tu. specialize (Ids u Hu Tu). split.
    + intros H i a v Ha Hv. apply Ids, (H i a v); [rewrite F by exact Nn; exact Ha|exact Hv].
    + intros H i a v Ha Hv. rewrite F in Ha by exact Nn. apply Ids. exact (H i a v Ha Hv).
  - intros t u Ht Tt Sw Hu Tu. specialize (Ids u Hu Tu). pose proof (value_after has dflt to from s ops s' RR L P E n t c Ht Tt Sw) as V. split.
    + intros H id r v Hr Hv. apply Ids. destruct (proj2 (V v)) as (i & a & Ea & Ev); [eauto|]. exact (H i a v Ea Ev).
    + intros H i a v Ha Hv. apply Ids. destruct (proj1 (V v)) as (id & r & Hr & Hc); [eauto|]. exact (H id r v Hr Hc).
  - intros t Ht Tt Sw Nm. pose proof (value_after has dflt to from s ops s' RR L P E n t c Ht Tt Sw) as V. split.
    + intros H id r v Hr Hv. rewrite <- (F m Nm). destruct (proj2 (V v)) as (i & a & Ea & Ev); [eauto|]. exact (H i a v Ea Ev).
    + intros H i a v Ha Hv. rewrite (F m Nm). destruct (proj1 (V v)) as (id & r & Hr & Hc); [eauto|]. exact (H id r v Hr Hc).
  - intros Nn Nm. split; intros H i a v Ha Hv.
    + rewrite <- (F m Nm). apply (H i a v); [rewrite F by exact Nn; exact Ha|exact Hv].
    + rewrite (F m Nm). apply (H i a v); [rewrite <- (F n Nn); exact Ha|exact Hv].
Qed.
Print Assumptions C108_exact.

(** Missing for the full statement: rows of the server that refer to a row the files do not have any more.
    Proved when no DELETE of the plan is about a row that is referred to. *)
Theorem C108_kept_partial : forall has dflt to from s ops s' n m u c,
  rows_ready has to from s ->
  (forall n t f, In (n, t) to -> t_tracking t = true -> dget n from = Some f -> columns_live (rows_of t) (rows_of f)) ->
  plan_rows to (Some from) = Ok ops -> exec_rows has dflt ops s = Some s' ->
  (forall t, In (n, t) to -> t_tracking t = false) -> In (m, u) to -> t_tracking u = true ->
  refers c (s n) (s m) ->
  (forall i a v, s n i = Some a -> a c = Some v -> ~ In (ORowDelete m v) ops) ->
  refers c (s' n) (s' m).
Proof.
  intros has dflt to from s ops s' n m u c RR L P E Nn Hu Tu B H.
  apply (proj1 (C108_exact has dflt to from s ops s' n m c RR L P E) Nn u Hu Tu). intros i a v Ha Hv.
  destruct (in_dec string_dec v (dkeys (rows_of u))) as [X|X]; [exact X|exfalso]. apply (H i a v Ha Hv).
  apply (proj2 (proj2 (C21_tracked_tables_each_id_once has to from s ops RR P)) m u Hu Tu). split; [|exact X].
  change (In v (dkeys (live_rows from m))). apply (live_iff has to from s m u RR Hu Tu). exact (B i a v Ha Hv).
Qed.
Print Assumptions C108_kept_partial.

(** *** Samples: users refer to roles, the files hold the rows of roles *)
Definition users_table : table :=
  tbl "users" [id_col; int_col "role_id"] [primary_key ["id"]; key "role_fk" ["role_id"]] [fk "role_fk" "role_id" "roles" "id"].
Definition users_server (roles : dict string row) : rserver := fun n i =>
  if String.eqb n "users" then if String.eqb i "7" then Some (fun c => if String.eqb c "role_id" then Some "2" else Some "7") else None
  else served (db [named_table roles]) n i.
Lemma users_ready l m : keyedb l = true -> keyedb m = true ->
  rows_ready all_cols (db [users_table; named_table l]) (db [users_table; named_table m]) (users_server m).
Proof.
  intros Kl Km. apply keyedb_ok in Kl as [Kl Ml]. apply keyedb_ok in Km as [Km Mm]. constructor.
  - apply nodupb_ok. reflexivity.
  - intros n t [[= <- <-]|[[= <- <-]|[]]]; reflexivity.
  - intros n t [[= <- <-]|[[= <- <-]|[]]] T; [discriminate|]. eexists. split; [reflexivity|]. repeat (split; [assumption|]). reflexivity.
  - intros n t [[= <- <-]|[[= <- <-]|[]]] T; [discriminate|]. change (dget _ _) with (Some (named_table m)). split; [reflexivity|]. eexists. split; [reflexivity|].
    repeat (split; [assumption|]). change (users_server m "roles") with (served (db [named_table m]) "roles").
    eapply served_reads; [reflexivity|reflexivity|assumption].
Qed.
Lemma users_columns l m n t f : In (n, t) (db [users_table; named_table (rows_named l)]) -> t_tracking t = true ->
  dget n (db [users_table; named_table (rows_named m)]) = Some f -> columns_live (rows_of t) (rows_of f).
Proof.
  intros [[= <- <-]|[[= <- <-]|[]]] T D; [discriminate|]. change (Some (named_table (rows_named m)) = Some f) in D. injection D as <-.
  intros id r g c Hr Hg Hc. unfold rows_of, named_table, rows_named in Hr, Hg. cbn in Hr, Hg.
  apply in_map_iff in Hr as (p & [= <- <-] & _). apply in_map_iff in Hg as (q & [= Eq <-] & _). exact Hc.
Qed.
Lemma users_refer l : In "2" (map fst l) -> refers "role_id" (users_server (rows_named l) "users") (users_server (rows_named l) "roles").
Proof.
  intros I i a v Ha Hv. unfold users_server in Ha. rewrite String.eqb_refl in Ha. destruct (String.eqb i "7"); [|discriminate].
  injection Ha as <-. cbn in Hv. injection Hv as <-.
  change (users_server (rows_named l) "roles" "2") with (served (db [named_table (rows_named l)]) "roles" "2"). unfold served.
  change (dget "roles" (db [named_table (rows_named l)])) with (Some (named_table (rows_named l))). cbn [t_rows named_table].
  destruct (dget "2" (rows_named l)) as [r|] eqn:D; [discriminate|]. exfalso. apply dget_none in D. apply D.
  unfold rows_named, dkeys. rewrite map_map. exact I.
Qed.

(** The statement is false: user 7 has role 2, the files have no role 2 any more.  The plan deletes the role
    and no statement is about the user, whose column is declared as a foreign key. *)
Theorem C108_refuted : exists to from s ops s',
  rows_ready all_cols to from s /\ plan_rows to (Some from) = Ok ops
  /\ exec_rows all_cols (fun _ _ => None) ops s = Some s'
  /\ (exists t k, dget "users" to = Some t /\ dget "users" from = Some t /\ t_tracking t = false /\ In (k, fk "role_fk" "role_id" "roles" "id") (t_constraints t))
  /\ refers "role_id" (s "users") (s "roles") /\ ops = [ORowDelete "roles" "2"]
  /\ ~ refers "role_id" (s' "users") (s' "roles").
Proof.
  set (l := [("1", "admin")]). set (m := [("1", "admin"); ("2", "user")]).
  exists (db [users_table; named_table (rows_named l)]), (db [users_table; named_table (rows_named m)]), (users_server (rows_named m)).
  exists [ORowDelete "roles" "2"], (put_row (users_server (rows_named m)) "roles" "2" None).
  split; [apply users_ready; reflexivity|]. split; [vm_compute; reflexivity|]. split; [reflexivity|].
  split; [exists users_table, "role_fk"; repeat split; left; reflexivity|]. split; [apply users_refer; right; left; reflexivity|].
  split; [reflexivity|]. intros H. refine (H "7" _ "2" _ _ _); [reflexivity|reflexivity|reflexivity].
Qed.
Print Assumptions C108_refuted.

(** A case for the theorems: role 2 stays, role 1 goes, role 3 is new. *)
Example ex_C108 : let l := [("2", "user"); ("3", "guest")] in let m := [("1", "admin"); ("2", "user")] in
  let to := db [users_table; named_table (rows_named l)] in let from := db [users_table; named_table (rows_named m)] in
  let s := users_server (rows_named m) in
  rows_ready all_cols to from s /\ refers "role_id" (s "users") (s "roles")
  /\ exists ops s', plan_rows to (Some from) = Ok ops /\ List.length ops = 2
  /\ exec_rows all_cols (fun _ _ => None) ops s = Some s' /\ refers "role_id" (s' "users") (s' "roles").
Proof.
  intros l m to from s. assert (RR : rows_ready all_cols to from s) by (apply users_ready; reflexivity). split; [exact RR|].
  assert (B : refers "role_id" (s "users") (s "roles")) by (apply users_refer; right; left; reflexivity). split; [exact B|].
  destruct (C19_rows_reached_partial all_cols (fun _ _ => None) to from s RR (users_columns l m)) as (ops & s' & P & E & _).
  exists ops, s'. split; [exact P|]. split; [vm_compute in P; injection P as <-; reflexivity|]. split; [exact E|].
  apply (C108_kept_partial all_cols (fun _ _ => None) to from s ops s' "users" "roles" (named_table (rows_named l)) "role_id" RR (users_columns l m) P E); auto.
  - intros t [[= <-]|[[=]|[]]]. reflexivity.
  - right. left. reflexivity.
  - intros i a v Ha Hv. assert (v = "2").
    { unfold s, users_server in Ha. rewrite String.eqb_refl in Ha. destruct (String.eqb i "7"); [|discriminate]. injection Ha as <-. cbn in Hv. congruence. }
    subst v. vm_compute in P. injection P as <-. intros [[=]|[[=]|[]]].
Qed.
