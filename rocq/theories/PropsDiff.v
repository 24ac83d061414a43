(** C01-C07: the diff of two tables. *)
From Verif Require Import ColFacts Samples.

Section Theorems.
  Context {FO : FloatOracle}.

  (** ** C01 *)
  (** A table differs from itself in nothing, in both modes. *)
  Theorem C01_table_self_diff_empty : forall t,
    wf_table t -> diff t t = Ok [] /\ diff_split t t = Ok (mkSplit None None None).
  Proof. exact diff_self. Qed.

  (** Planning from a structure to itself gives the empty plan (the part of [Mygration] that runs
      once the target has no errors; see C01_mygration_self in PropsCommand.v). *)
  Theorem C01_plan_self_empty : forall d, wf_tables d -> plan_tables false d (Some d) = Ok [].
  Proof. exact plan_self. Qed.

  (** ** C02 *)
  (** Full statement: without [primary_kept].  That is false, see [C02_refuted]. *)
  Theorem C02_diff_reaches_target_partial : forall src tgt alters,
    wf_table src -> wf_table tgt -> primary_kept src tgt -> diff src tgt = Ok alters ->
    exists st, exec_alters alters (stable_of src) = Some st /\ realises src tgt st.
  Proof.
    intros src tgt alters Ws Wt P D. destruct (diff_exec src tgt alters Ws Wt P D) as (st & X & R & _).
    exists st. split; assumption.
  Qed.

  (** [primary_kept] is exactly what is needed: otherwise MySQL refuses a statement. *)
  Theorem C02_exact : forall src tgt alters,
    wf_table src -> wf_table tgt -> diff src tgt = Ok alters ->
    ((exists st, exec_alters alters (stable_of src) = Some st) <-> primary_kept src tgt).
  Proof.
    intros src tgt alters Ws Wt D. split.
    - intros (st & X). exact (diff_exec_primary src tgt alters st Ws Wt D X).
    - intros P. destruct (diff_exec src tgt alters Ws Wt P D) as (st & X & _). eauto.
  Qed.

  (** ** C03 *)
  Theorem C03_column_order : forall src tgt alters st,
    wf_table src -> wf_table tgt -> primary_kept src tgt -> diff src tgt = Ok alters ->
    exec_alters alters (stable_of src) = Some st -> same_relative_order src tgt ->
    map c_name (st_cols st) = dkeys (t_columns tgt).
  Proof.
    intros src tgt alters st Ws Wt P D X O. destruct (diff_exec src tgt alters Ws Wt P D) as (st' & X' & _ & H & _).
    rewrite X in X'. injection X' as <-. auto.
  Qed.

  (** ** C04 *)
  (** Full statement: without [names_last].  That is false, see [C04_refuted] and [C04_exact]. *)
  Theorem C04_second_diff_empty_partial : forall src tgt mid alters st,
    wf_table src -> wf_table tgt -> wf_table mid -> primary_kept src tgt -> names_last src tgt ->
    diff src tgt = Ok alters -> exec_alters alters (stable_of src) = Some st -> stable_of mid = st ->
    diff mid tgt = Ok [] /\ diff_split mid tgt = Ok (mkSplit None None None).
  Proof. exact diff_again. Qed.

  (** [names_last] is exactly what is needed, if no two indexes of a table have the same columns and kind. *)
  Theorem C04_exact : forall src tgt mid alters st,
    wf_table src -> wf_table tgt -> wf_table mid -> primary_kept src tgt -> distinct_indexes src -> distinct_indexes tgt ->
    diff src tgt = Ok alters -> exec_alters alters (stable_of src) = Some st -> stable_of mid = st ->
    (diff mid tgt = Ok [] <-> names_last src tgt).
  Proof.
    intros src tgt mid alters st Ws Wt Wm PK Ds Dt D X Em. split.
    - exact (diff_again_needs src tgt mid alters st Ws Wt Wm PK Ds Dt D X Em).
    - intros N. apply (diff_again src tgt mid alters st Ws Wt Wm PK N D X Em).
  Qed.

  (** ** C05 *)
  (** Full statement: [meaningful] would also hold of columns that differ in AUTO_INCREMENT or in
      enum values.  That is false, see [C05_refuted]. *)
  Theorem C05_meaningful_difference_partial : forall src tgt alters n a b,
    wf_table src -> wf_table tgt -> diff src tgt = Ok alters ->
    In (n, a) (t_columns src) -> In (n, b) (t_columns tgt) ->
    clean_column a = true -> clean_column b = true -> meaningful a b ->
    In (ChangeColumn b) (concat (map al_ops alters)).
  Proof. exact meaningful_in. Qed.

  (** ** C06 *)
  Definition alter_ops (a : option alter) : list aop := match a with Some a => al_ops a | None => [] end.

  Lemma nonempty_alter_ops n l : alter_ops (nonempty_alter n l) = l.
  Proof. destruct l; reflexivity. Qed.
  Lemma nonempty_alter_truthy n l a : nonempty_alter n l = Some a -> al_table a = n /\ al_ops a <> [].
  Proof. destruct l; simpl; intros [= <-]; simpl; split; congruence. Qed.

  Theorem C06_split_and_unsplit_agree : forall src tgt,
    wf_table src -> wf_table tgt ->
    match diff_split src tgt, diff src tgt with
    | Ok sp, Ok alters =>
        concat (map al_ops alters) = alter_ops (sp_removed_fks sp) +++ alter_ops (sp_kitchen sp) +++ alter_ops (sp_fks sp)
        /\ (forall o, In o (alter_ops (sp_removed_fks sp)) -> exists k, o = RemoveConstraint k)
        /\ (forall o, In o (alter_ops (sp_fks sp)) -> exists k, o = AddConstraint k)
        /\ (forall o k, In o (alter_ops (sp_kitchen sp)) ->
              o <> AddConstraint k /\ o <> RemoveConstraint k /\ o <> ChangeConstraint k)
        /\ (forall a, In a alters \/ sp_removed_fks sp = Some a \/ sp_kitchen sp = Some a \/ sp_fks sp = Some a ->
              al_table a = t_name src /\ al_ops a <> [])
    | Raise e, Raise e' => e = e'
    | _, _ => False
    end.
  Proof.
    intros src tgt Ws Wt. unfold diff_split, diff. destruct (kitchen_ops src tgt) as [k|e] eqn:K; cbn [bind]; [|reflexivity].
    apply kitchen_ops_iff in K as [_ ->]; [|apply (wf_cols _ Ws)|apply (wf_cols _ Wt)].
    cbn [sp_removed_fks sp_kitchen sp_fks]. rewrite !nonempty_alter_ops. split; [|split; [|split; [|split]]].
    - rewrite map_app, concat_app. f_equal.
      + destruct (removed_fk_ops src tgt); simpl; rewrite ?app_nil_r; reflexivity.
      + destruct (kitchen_list src tgt +++ added_fk_ops src tgt); simpl; rewrite ?app_nil_r; reflexivity.
    - intros o H. unfold removed_fk_ops in H. apply in_app_iff in H as [H|H]; apply in_map_iff in H as (p & <- & _); eauto.
    - intros o H. unfold added_fk_ops in H. apply in_app_iff in H as [H|H]; apply in_map_iff in H as (p & <- & _); eauto.
    - intros o k H. unfold kitchen_list, add_col_ops in H. rewrite key_ops_eq in H. rewrite !in_app_iff, !in_map_iff in H.
      repeat (destruct H as [H|H]); destruct H as (x & <- & _); repeat split; discriminate.
    - intros a [H|[H|[H|H]]]; try (eapply nonempty_alter_truthy; eassumption).
      apply in_app_iff in H. destruct H as [H|H].
      + destruct (nonempty_alter (t_name src) (removed_fk_ops src tgt)) eqn:E; [|destruct H].
        destruct H as [<-|[]]. eapply nonempty_alter_truthy; eassumption.
      + destruct (nonempty_alter (t_name src) (kitchen_list src tgt +++ added_fk_ops src tgt)) eqn:E; [|destruct H].
        destruct H as [<-|[]]. eapply nonempty_alter_truthy; eassumption.
  Qed.

  (** ** C07 *)
  (** [L] pairs the old indexes that stay although the target lacks their name with the target
      indexes that are not added. *)
  Theorem C07_index_suppression_sound : forall src tgt alters st,
    wf_table src -> wf_table tgt -> primary_kept src tgt -> diff src tgt = Ok alters ->
    exec_alters alters (stable_of src) = Some st ->
    exists L : list (index * index),
      NoDup (map fst L) /\ NoDup (map snd L)
      /\ (forall a b, In (a, b) L ->
            In a (dvals (t_indexes src)) /\ In b (dvals (t_indexes tgt)) /\ In a (st_keys st) /\ same_index a b
            /\ (In (ix_name a) (dkeys (t_constraints src) +++ dkeys (t_constraints tgt))
                \/ In (ix_name b) (dkeys (t_constraints src) +++ dkeys (t_constraints tgt))))
      /\ (forall a, In a (dvals (t_indexes src)) -> ~ In (ix_name a) (dkeys (t_indexes tgt)) ->
            (In (RemoveKey a) (concat (map al_ops alters)) <-> ~ In a (map fst L)))
      /\ (forall b, In b (dvals (t_indexes tgt)) -> ~ In (ix_name b) (dkeys (t_indexes src)) ->
            (In (AddKey b) (concat (map al_ops alters)) <-> ~ In b (map snd L))).
  Proof. exact suppressed. Qed.

  (** Whether it was added, changed or left alone: every target index is there in the end. *)
  Theorem C07_every_target_index_present : forall src tgt alters st b,
    wf_table src -> wf_table tgt -> primary_kept src tgt -> diff src tgt = Ok alters ->
    exec_alters alters (stable_of src) = Some st ->
    forallb clean_index (dvals (t_indexes src)) = true -> forallb clean_index (dvals (t_indexes tgt)) = true ->
    In b (dvals (t_indexes tgt)) -> exists a, In a (st_keys st) /\ same_index a b.
  Proof. exact target_index_present. Qed.
End Theorems.

(** ** Refutations *)

(** C02: extending the PRIMARY KEY gives "DROP KEY `id`, ADD PRIMARY KEY ...", and there is no key
    named id (change_key.py line 15). *)
Theorem C02_refuted : forall FO : FloatOracle, exists src tgt alters,
  wf_table src /\ wf_table tgt /\ diff src tgt = Ok alters /\ exec_alters alters (stable_of src) = None
  /\ map alter_str alters = ["ALTER TABLE `t` DROP KEY `id`, ADD PRIMARY KEY (`id`,`a`);"].
Proof.
  intros FO.
  exists (tbl "t" [id_col; int_col "a"] [primary_key ["id"]] []).
  exists (tbl "t" [id_col; int_col "a"] [primary_key ["id"; "a"]] []).
  eexists. split; [apply wf_tableb_ok; reflexivity|]. split; [apply wf_tableb_ok; reflexivity|].
  split; [vm_compute; reflexivity|]. split; reflexivity.
Qed.

(** C04: the index stays because its name was the name of a foreign key that is dropped; the next
    diff renames it after all. *)
Theorem C04_refuted : forall FO : FloatOracle, exists src tgt mid alters,
  wf_table src /\ wf_table tgt /\ wf_table mid /\ primary_kept src tgt /\ diff src tgt = Ok alters
  /\ exec_alters alters (stable_of src) = Some (stable_of mid) /\ diff mid tgt <> Ok [].
Proof.
  intros FO.
  exists (tbl "t" [id_col; int_col "a"] [primary_key ["id"]; key "f" ["a"]] [fk "f" "a" "p" "id"]).
  exists (tbl "t" [id_col; int_col "a"] [primary_key ["id"]; key "a_idx" ["a"]] []).
  exists (tbl "t" [id_col; int_col "a"] [primary_key ["id"]; key "f" ["a"]] []).
  eexists. split; [apply wf_tableb_ok; reflexivity|]. split; [apply wf_tableb_ok; reflexivity|].
  split; [apply wf_tableb_ok; reflexivity|]. split; [apply primary_keptb_ok; reflexivity|].
  split; [vm_compute; reflexivity|]. split; [reflexivity|]. vm_compute. discriminate.
Qed.

(** [C04_exact] applies to these tables. *)
Example ex_C04_exact :
  let src := tbl "t" [id_col; int_col "a"] [primary_key ["id"]; key "f" ["a"]] [fk "f" "a" "p" "id"] in
  let tgt := tbl "t" [id_col; int_col "a"] [primary_key ["id"]; key "a_idx" ["a"]] [] in
  distinct_indexes src /\ distinct_indexes tgt /\ ~ names_last src tgt.
Proof.
  intros src tgt. split; [apply distinct_indexesb_ok; reflexivity|]. split; [apply distinct_indexesb_ok; reflexivity|].
  intros H. destruct (H "f" (key "f" ["a"]) "a_idx" (key "a_idx" ["a"])) as [Q|Q]; cbn; intuition discriminate.
Qed.

(** C05: AUTO_INCREMENT (the sources say so, the live table does not) and enum values are ignored. *)
Definition no_auto (c : column) : column :=
  col0 (c_kind c) (c_name c) (c_rawtype c) (c_length c) (c_null c) (c_default c) (c_unsigned c) (Some false).
Definition enum_col (name : string) (vals : list string) : column :=
  mkColumn KEnum name "ENUM" LNone true false DNone None None None None (Some vals) [] [].

Theorem C05_refuted : forall FO : FloatOracle,
  (exists src tgt a b, wf_table src /\ wf_table tgt /\ In ("id", a) (t_columns src) /\ In ("id", b) (t_columns tgt)
     /\ c_autoinc a = Some false /\ c_autoinc b = Some true /\ diff src tgt = Ok [])
  /\ (exists src tgt a b, wf_table src /\ wf_table tgt /\ In ("e", a) (t_columns src) /\ In ("e", b) (t_columns tgt)
     /\ c_enum_values a = Some ["x"] /\ c_enum_values b = Some ["x"; "y"] /\ diff src tgt = Ok []).
Proof.
  intros FO. split.
  - exists (tbl "t" [no_auto id_col] [primary_key ["id"]] []), (tbl "t" [id_col] [primary_key ["id"]] []).
    exists (no_auto id_col), id_col.
    repeat split; try (apply wf_tableb_ok; reflexivity); try reflexivity; left; reflexivity.
  - exists (tbl "t" [enum_col "e" ["x"]] [] []), (tbl "t" [enum_col "e" ["x"; "y"]] [] []).
    exists (enum_col "e" ["x"]), (enum_col "e" ["x"; "y"]).
    repeat split; try (apply wf_tableb_ok; reflexivity); try reflexivity; left; reflexivity.
Qed.

(** ** The hypotheses are met *)
Example ex_diff_wf : wf_table child_v1 /\ wf_table child_v2 /\ primary_kept child_v1 child_v2
  /\ same_relative_order child_v1 child_v2
  /\ forallb clean_index (dvals (t_indexes child_v1)) = true /\ forallb clean_index (dvals (t_indexes child_v2)) = true.
Proof.
  split; [apply wf_tableb_ok; reflexivity|]. split; [apply wf_tableb_ok; reflexivity|].
  split; [apply primary_keptb_ok; reflexivity|]. repeat split; reflexivity.
Qed.

(** A diff with added, changed, removed columns, a changed, an added and a suppressed index, and a
    replaced foreign key. *)
Example ex_diff :
  rmap (map alter_str) (diff child_v1 child_v2) =
  Ok ["ALTER TABLE `child` DROP FOREIGN KEY `fk_parent`;";
      "ALTER TABLE `child` ADD `first` VARCHAR(20) NOT NULL DEFAULT '' AFTER `parent_id`, ADD `born` DATE AFTER `name`, CHANGE `name` `name` VARCHAR(200) NOT NULL DEFAULT '', DROP old, ADD KEY `born_idx` (`born`), DROP KEY `name_idx`, ADD UNIQUE KEY `name_idx` (`name`), ADD CONSTRAINT `fk_parent_2` FOREIGN KEY (`parent_id`) REFERENCES `parent` (`id`) ON DELETE CASCADE ON UPDATE RESTRICT;"].
Proof. vm_compute. reflexivity. Qed.

(** C04: the structure after a diff, read back. *)
Definition child_v1b : table :=
  tbl "child" [id_col; int_col "parent_id"; varchar_col "name" "100"]
    [primary_key ["id"]; key "parent_key" ["parent_id"]; key "name_idx" ["name"]]
    [fk "fk_parent" "parent_id" "parent" "id"].
Definition child_v2b : table :=
  tbl "child" [id_col; int_col "parent_id"; varchar_col "name" "200"]
    [primary_key ["id"]; key "fk_parent" ["parent_id"]] [fk "fk_parent" "parent_id" "parent" "id"].
Definition child_mid : table :=
  tbl "child" [id_col; int_col "parent_id"; varchar_col "name" "200"]
    [primary_key ["id"]; key "parent_key" ["parent_id"]] [fk "fk_parent" "parent_id" "parent" "id"].
Example ex_second_diff : exists alters,
  wf_table child_mid /\ diff child_v1b child_v2b = Ok alters
  /\ exec_alters alters (stable_of child_v1b) = Some (stable_of child_mid) /\ alters <> []
  /\ distinct_indexes child_v1b /\ distinct_indexes child_v2b /\ names_last child_v1b child_v2b.
Proof.
  eexists. split; [apply wf_tableb_ok; reflexivity|]. split; [vm_compute; reflexivity|].
  split; [reflexivity|]. split; [discriminate|]. split; [apply distinct_indexesb_ok; reflexivity|]. split; [apply distinct_indexesb_ok; reflexivity|].
  intros n a m b _ _ _ _ _ _ H. exact H.
Qed.

Example ex_meaningful : meaningful (varchar_col "name" "100") (varchar_col "name" "200")
  /\ clean_column (varchar_col "name" "100") = true /\ clean_column (varchar_col "name" "200") = true
  /\ meaningful (col0 KNumeric "n" "INT" LNone true (DStr "5") None None) (col0 KNumeric "n" "INT" LNone true (DStr "6") None None).
Proof.
  split; [|split; [reflexivity|split; [reflexivity|]]].
  - apply M_length; [|discriminate|discriminate]. intros [H _]. discriminate.
  - apply M_default. split; [intros [H _]; discriminate|]. right. right. right. split; [reflexivity|].
    split; [discriminate|]. exists 5%Z, 6%Z. split; [reflexivity|]. split; [reflexivity|]. left. split; [discriminate|reflexivity].
Qed.

Print Assumptions C01_table_self_diff_empty.
Print Assumptions C01_plan_self_empty.
Print Assumptions C02_diff_reaches_target_partial.
Print Assumptions C02_refuted.
Print Assumptions C02_exact.
Print Assumptions C03_column_order.
Print Assumptions C04_second_diff_empty_partial.
Print Assumptions C04_refuted.
Print Assumptions C04_exact.
Print Assumptions C05_meaningful_difference_partial.
Print Assumptions C05_refuted.
Print Assumptions C06_split_and_unsplit_agree.
Print Assumptions C07_index_suppression_sound.
Print Assumptions C07_every_target_index_present.
