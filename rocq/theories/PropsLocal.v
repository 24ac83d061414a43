(** C90-C92: data that a plan keeps, the order of tables, and tables a plan leaves alone. *)
From Verif Require Import LocalFacts Samples PropsPlan.
From Coq Require Import Permutation.

Section Props.
  Context {FO : FloatOracle}.

  (** ** C90 *)
  (** A column that both sides have keeps its contents at every moment; in the end a new column holds
      what new columns hold, and nothing else is left. *)
  Theorem C90_data_kept : forall (D : Type) (fresh : string -> string -> D) from to disable ops m,
    wf_tables from -> wf_tables to -> plan_tables disable to (Some from) = Ok ops ->
    stored_for (server_of from) m ->
    (forall n c pre post, column_of from n c -> column_of to n c -> ops = pre +++ post -> data_after fresh pre m n c = m n c)
    /\ (forall n c, column_of to n c -> ~ column_of from n c -> data_after fresh ops m n c = Some (fresh n c))
    /\ (forall n c, ~ column_of to n c -> data_after fresh ops m n c = None).
  Proof.
    intros D fresh from to disable ops m Wf Wt E S. apply plan_iff in E as [_ ->]; auto.
    assert (Hs : forall n c, m n c <> None <-> column_of from n c).
    { intros n c. rewrite (S n c). unfold has_column, server_of, column_of. split.
      - intros (st & Q & I). destruct (dget n from) as [s|] eqn:G; [|discriminate]. cbn [option_map] in Q. injection Q as <-. cbn [st_cols stable_of] in I.
        apply dget_in in G. exists s. split; [exact G|]. pose proof (proj2 (wf_named _ Wf n s G)) as W.
        apply in_map_iff in I as (v & <- & I). unfold dvals in I. apply in_map_iff in I as ([k v'] & <- & I). cbn [snd]. rewrite (wf_cols_named _ W k v' I). eapply in_dkeys; eauto.
      - intros (s & G & I). pose proof (proj2 (wf_named _ Wf n s G)) as W. rewrite (proj2 (dget_iff n s from (wf_names _ Wf)) G). cbn [option_map].
        eexists. split; [reflexivity|]. cbn [st_cols stable_of]. apply dkeys_in in I as (v & I). apply in_map_iff. exists v.
        split; [apply (wf_cols_named _ W c v I)|eapply in_dvals; eauto]. }
    split; [|split].
    - intros n c pre post (s & Is & Cs) (t & It & Ct) Q. apply data_spared. intros o I.
      apply (common_spared from to Wf Wt disable n s t c Is It Cs Ct). rewrite Q. apply in_app_iff. auto.
    - intros n c (t & It & Ct) N. rewrite data_local, (concerns_plan from to Wf Wt). destruct (dget n from) as [s|] eqn:Ds.
      + apply dget_in in Ds. rewrite (local_data from to Wf Wt fresh n s t c m Ds It). rewrite (proj2 (smem_iff c _) Ct).
        destruct (smem c (dkeys (t_columns s))) eqn:X; [|reflexivity]. destruct N. exists s. split; [exact Ds|]. apply smem_iff, X.
      + unfold local_ops. rewrite Ds, (proj2 (dget_iff n t to (wf_names _ Wt)) It). unfold data_after. cbn [fold_left op_data].
        rewrite (proj1 (wf_named _ Wt n t It)), String.eqb_refl, (proj2 (smem_iff c _) Ct). reflexivity.
    - intros n c N. rewrite data_local, (concerns_plan from to Wf Wt). destruct (dget n from) as [s|] eqn:Ds, (dget n to) as [t|] eqn:Dt.
      + apply dget_in in Ds, Dt. rewrite (local_data from to Wf Wt fresh n s t c m Ds Dt).
        destruct (smem c (dkeys (t_columns t))) eqn:X; [destruct N; exists t; split; [exact Dt|apply smem_iff, X]|].
        destruct (smem c (dkeys (t_columns s))) eqn:Y; [reflexivity|]. destruct (m n c) as [v|] eqn:M; [|reflexivity]. exfalso.
        destruct (proj1 (Hs n c)) as (s' & Is' & J); [congruence|]. rewrite (same_entry _ _ s' s (wf_names _ Wf) Is' Ds) in J. apply smem_iff in J. congruence.
      + unfold local_ops. rewrite Ds, Dt, data_app. unfold data_after. cbn [fold_left op_data]. rewrite String.eqb_refl. reflexivity.
      + unfold local_ops. rewrite Ds, Dt. unfold data_after. cbn [fold_left op_data]. apply dget_in in Dt.
        rewrite (proj1 (wf_named _ Wt n t Dt)), String.eqb_refl. destruct (smem c (dkeys (t_columns t))) eqn:X; [|reflexivity].
        destruct N. exists t. split; [exact Dt|apply smem_iff, X].
      + unfold local_ops. rewrite Ds, Dt. unfold data_after. cbn [fold_left]. destruct (m n c) as [v|] eqn:M; [|reflexivity]. exfalso.
        destruct (proj1 (Hs n c)) as (s' & Is' & _); [congruence|]. apply (dget_iff _ _ _ (wf_names _ Wf)) in Is'. congruence.
  Qed.
  (** The contents of SpecData.v belong to the server of SpecServer.v: as long as a plan executes,
      something is stored exactly for the columns the server has. *)
  Theorem C90_follows_server : forall (D : Type) (fresh : string -> string -> D) from to disable ops pre post m s,
    wf_tables from -> wf_tables to -> plan_tables disable to (Some from) = Ok ops -> ops = pre +++ post ->
    stored_for (server_of from) m -> exec_all pre (server_of from) = Some s -> stored_for s (data_after fresh pre m).
  Proof.
    intros D fresh from to disable ops pre post m s Wf Wt E Q S X. eapply follow; [|exact X|exact S]. intros t I.
    apply (wf_named _ Wt (t_name t) t). destruct (C08_right_tables from to disable ops Wf Wt E) as [H _]. apply H. rewrite Q. apply in_app_iff. auto.
  Qed.

  (** ** C91 *)
  Theorem C91_table_order : forall from to from' to' disable ops,
    wf_tables from -> wf_tables to -> Permutation from from' -> Permutation to to' ->
    plan_tables disable to (Some from) = Ok ops ->
    exists ops', plan_tables disable to' (Some from') = Ok ops' /\ Permutation ops ops'
      /\ (forall n, filter (concerns n) ops = filter (concerns n) ops')
      /\ (forall s, exec_all ops (server_of from) = Some s ->
            exists s', exec_all ops' (server_of from') = Some s' /\ forall n, s n = s' n).
  Proof. intros from to from' to' disable ops Wf Wt Pf Pt. exact (plan_order from to from' to' Wf Wt Pf Pt disable ops). Qed.
  Theorem C91_table_order_rows : forall from to from' to' ops,
    wf_tables from -> wf_tables to -> Permutation from from' -> Permutation to to' ->
    plan_rows to (Some from) = Ok ops ->
    exists ops', plan_rows to' (Some from') = Ok ops' /\ Permutation ops ops'
      /\ (forall n, filter (concerns n) ops = filter (concerns n) ops').
  Proof. intros from to from' to' ops Wf Wt Pf Pt. exact (rows_order from to from' to' Wf Wt Pf Pt ops). Qed.

  (** ** C92 *)
  Theorem C92_left_alone : forall from to disable ops n,
    wf_tables from -> wf_tables to -> plan_tables disable to (Some from) = Ok ops ->
    ((forall o, In o ops -> concerns n o = false) <->
     (~ In n (dkeys from) /\ ~ In n (dkeys to))
     \/ exists s t, In (n, s) from /\ In (n, t) to /\ diff s t = Ok []
          /\ forall k, In k (dvals (t_constraints s)) -> ~ uses_retyped from to n k).
  Proof. intros from to disable ops n Wf Wt. exact (alone from to Wf Wt disable ops n). Qed.
  (** A table that is the same on both sides is left alone unless a foreign key of its own refers to a
      column of another table whose type changes. *)
  Theorem C92_same_table : forall from to disable ops n t,
    wf_tables from -> wf_tables to -> plan_tables disable to (Some from) = Ok ops -> In (n, t) from -> In (n, t) to ->
    ((forall o, In o ops -> concerns n o = false) <->
     forall k, In k (dvals (t_constraints t)) -> ~ retyped from to (k_ftable k) (k_fcolumn k)).
  Proof.
    intros from to disable ops n t Wf Wt E If It. rewrite (alone from to Wf Wt disable ops n E).
    assert (Same : forall cn, ~ retyped from to n cn).
    { intros cn (s & t' & a & b & Is & It' & Ia & Ib & N). rewrite (same_entry _ _ s t (wf_names _ Wf) Is If) in Ia.
      rewrite (same_entry _ _ t' t (wf_names _ Wt) It' It) in Ib. pose proof (wf_cols _ (proj2 (wf_named _ Wt n t It))) as W.
      rewrite (same_entry _ _ a b W Ia Ib) in N. apply N. reflexivity. }
    split.
    - intros [[F _]|(s & t' & Is & It' & _ & H)] k Ik R; [destruct F; eapply in_dkeys; eauto|].
      rewrite (same_entry _ _ s t (wf_names _ Wf) Is If) in H. apply (H k Ik). exists (k_ftable k), (k_fcolumn k). split; [right; auto|exact R].
    - intros H. right. exists t, t. split; [exact If|]. split; [exact It|]. split; [apply diff_self, (wf_named _ Wt n t It)|].
      intros k Ik (tn & cn & [[-> <-]|[<- <-]] & R); [exact (Same _ R)|exact (H k Ik R)].
  Qed.
End Props.

Print Assumptions C90_data_kept.
Print Assumptions C90_follows_server.
Print Assumptions C91_table_order.
Print Assumptions C91_table_order_rows.
Print Assumptions C92_left_alone.
Print Assumptions C92_same_table.

(** ** Instances *)

(** Every database can hold something. *)
Definition filled {D : Type} (v : string -> string -> D) (d : tables) : contents :=
  fun n c => match dget n d with
             | Some t => if smem c (dkeys (t_columns t)) then Some (v n c) else None
             | None => None
             end.
Lemma filled_stored {D : Type} (v : string -> string -> D) d : wf_tables d -> stored_for (server_of d) (filled v d).
Proof.
  intros W n c. unfold filled, has_column, server_of. destruct (dget n d) as [t|] eqn:G; cbn [option_map].
  - apply dget_in in G. pose proof (proj2 (wf_named _ W n t G)) as Wt. destruct (smem c (dkeys (t_columns t))) eqn:X.
    + split; [intros _|discriminate]. eexists. split; [reflexivity|]. cbn [st_cols stable_of]. apply smem_iff, dkeys_in in X as (x & X).
      apply in_map_iff. exists x. split; [apply (wf_cols_named _ Wt c x X)|eapply in_dvals; eauto].
    + split; [congruence|]. intros (st & [= <-] & I). exfalso. cbn [st_cols stable_of] in I. apply in_map_iff in I as (x & <- & I). unfold dvals in I.
      apply in_map_iff in I as ([k y] & <- & I). cbn [snd] in X. rewrite (wf_cols_named _ Wt k y I) in X. apply smem_false in X. apply X. eapply in_dkeys; eauto.
  - split; [congruence|]. intros (st & [=] & _).
Qed.

(** A type changes, a column comes, another goes, a table goes and one comes; and a table that is the
    same on both sides refers to the column whose type changes. *)
Definition parent_2 : table := tbl "parent" [num "BIGINT" "id" "20" true; int_col "rank"] [pk] [].
Definition plain_t : table := tbl "plain" [id_col; varchar_col "note" "80"] [pk] [].
Definition child_1 : table := child_t "BIGINT" "20" [fk_a].
Definition data_from : tables := db [parent_t "INT" "10"; child_1; old_table; plain_t].
Definition data_to : tables := db [parent_2; child_1; extra_table; plain_t].
Definition data_plan : list op := match plan_tables false data_to (Some data_from) with Ok l => l | Raise _ => [] end.
Definition before_v (n c : string) : string * string := ("old", n ++ "." ++ c).
Definition fresh_v (n c : string) : string * string := ("new", n ++ "." ++ c).

Example ex_C90 : wf_tables data_from /\ wf_tables data_to /\ plan_tables false data_to (Some data_from) = Ok data_plan
  /\ stored_for (server_of data_from) (filled before_v data_from)
  /\ map (fun p => data_after fresh_v data_plan (filled before_v data_from) (fst p) (snd p))
       [("parent", "id"); ("parent", "title"); ("parent", "rank"); ("old", "pid"); ("extra", "cid"); ("plain", "note")]
     = [Some ("old", "parent.id"); None; Some ("new", "parent.rank"); None; Some ("new", "extra.cid"); Some ("old", "plain.note")]
  /\ exists s, exec_all data_plan (server_of data_from) = Some s.
Proof.
  assert (Wf : wf_tables data_from) by (apply wf_tablesb_ok; reflexivity). assert (Wt : wf_tables data_to) by (apply wf_tablesb_ok; reflexivity).
  split; [exact Wf|]. split; [exact Wt|]. split; [reflexivity|]. split; [apply filled_stored, Wf|]. split; [vm_compute; reflexivity|].
  destruct (exec_all data_plan (server_of data_from)) as [s|] eqn:E; [eauto|]. vm_compute in E. discriminate.
Qed.

(** C91: the plans are not the same list, only a reordering. *)
Example ex_C91 : Permutation data_from (rev data_from) /\ Permutation data_to (rev data_to)
  /\ exists ops', plan_tables false (rev data_to) (Some (rev data_from)) = Ok ops' /\ ops' <> data_plan /\ List.length ops' = 6
     /\ List.length data_plan = 6.
Proof.
  split; [apply Permutation_rev|]. split; [apply Permutation_rev|]. eexists. split; [vm_compute; reflexivity|]. split; [vm_compute; discriminate|].
  split; reflexivity.
Qed.

(** C92: [plain] is left alone; [child], the same on both sides, is not. *)
Example ex_C92 : In ("plain", plain_t) data_from /\ In ("plain", plain_t) data_to /\ In ("child", child_1) data_from /\ In ("child", child_1) data_to
  /\ filter (concerns "plain") data_plan = []
  /\ filter (concerns "child") data_plan = [OAlter (mkAlter "child" [RemoveConstraint fk_a]); OAlter (mkAlter "child" [AddConstraint fk_a])].
Proof. repeat split; try (cbn; tauto); vm_compute; reflexivity. Qed.
