(** Concrete definitions used by the [Example]s and by the witnesses of the refutations. *)
From Verif Require Export Mygration SpecDiff.

Definition col0 (k : ckind) (name ty : string) (len : clength) (null : bool) (d : cdefault)
  (uns auto : option bool) : column :=
  mkColumn k name ty len null (match d with DNone => false | _ => true end) d uns None None auto None [] [].

Definition int_col (name : string) : column := col0 KNumeric name "INT" (LStr "10") false DNone (Some false) (Some false).
Definition id_col : column := col0 KNumeric "id" "INT" (LStr "10") false DNone (Some false) (Some true).
Definition varchar_col (name : string) (n : string) : column :=
  col0 KString name "VARCHAR" (LStr n) false (DStr "") None None.
Definition date_col (name : string) : column := col0 KDate name "DATE" LNone true DNone (Some false) (Some false).

Definition key (name : string) (cols : list string) : index := mkIndex name cols IIndex [].
Definition unique_key (name : string) (cols : list string) : index := mkIndex name cols IUnique [].
Definition primary_key (cols : list string) : index := mkIndex "" cols IPrimary [].

Definition fk (name col ft fc : string) : constraint := new_constraint name col ft fc "CASCADE" "".

Definition dict_of {V} (nm : V -> string) (l : list V) : dict string V := map (fun v => (nm v, v)) l.

Definition tbl (name : string) (cols : list column) (ixs : list index) (ks : list constraint) : table :=
  mkTable name (dict_of c_name cols) (dict_of ix_name ixs) (dict_of k_name ks) []
    (find is_primary ixs) None None false [] [] true.

Definition db (l : list table) : tables := dict_of t_name l.

(** A boolean version of well-formedness, to check the samples by computation. *)
Fixpoint nodupb (l : list string) : bool :=
  match l with [] => true | x :: l' => negb (smem x l') && nodupb l' end.
Definition namedb {V} (nm : V -> string) (d : dict string V) : bool :=
  forallb (fun p => String.eqb (nm (snd p)) (fst p)) d.
Definition wf_tableb (t : table) : bool :=
  nodupb (dkeys (t_columns t)) && namedb c_name (t_columns t)
  && nodupb (dkeys (t_indexes t)) && namedb ix_name (t_indexes t)
  && nodupb (dkeys (t_constraints t)) && namedb k_name (t_constraints t)
  && Nat.leb (List.length (filter is_primary (dvals (t_indexes t)))) 1.
Definition wf_tablesb (d : tables) : bool :=
  nodupb (dkeys d) && forallb (fun p => String.eqb (t_name (snd p)) (fst p) && wf_tableb (snd p)) d.

Lemma smem_in x l : smem x l = true -> In x l.
Proof.
  unfold smem. rewrite existsb_exists. intros (y & Hy & E). apply String.eqb_eq in E. subst. assumption.
Qed.
Lemma nodupb_ok l : nodupb l = true -> NoDup l.
Proof.
  induction l as [|x l IH]; simpl; [constructor|]. rewrite andb_true_iff, negb_true_iff. intros [H1 H2].
  constructor; [|auto]. intros H. assert (smem x l = true); [|congruence].
  unfold smem. apply existsb_exists. exists x. split; [assumption|apply String.eqb_refl].
Qed.
Lemma namedb_ok {V} (nm : V -> string) d : namedb nm d = true -> forall n c, In (n, c) d -> nm c = n.
Proof.
  unfold namedb. rewrite forallb_forall. intros H n c Hc. apply H in Hc. simpl in Hc. apply String.eqb_eq, Hc.
Qed.
Lemma wf_tableb_ok t : wf_tableb t = true -> wf_table t.
Proof.
  unfold wf_tableb. rewrite !andb_true_iff. intros [[[[[[H1 H2] H3] H4] H5] H6] H7].
  constructor; auto using nodupb_ok; try (apply namedb_ok; assumption).
  apply Nat.leb_le, H7.
Qed.
Lemma wf_tablesb_ok d : wf_tablesb d = true -> wf_tables d.
Proof.
  unfold wf_tablesb. rewrite andb_true_iff, forallb_forall. intros [H1 H2].
  constructor; [apply nodupb_ok, H1|]. intros n t H. apply H2 in H. simpl in H.
  apply andb_true_iff in H as [E W]. split; [apply String.eqb_eq, E|apply wf_tableb_ok, W].
Qed.

Definition index_eqb (a b : index) : bool :=
  list_eqb String.eqb (ix_columns a) (ix_columns b) && itype_eqb (ix_type a) (ix_type b).
Definition primary_keptb (src tgt : table) : bool :=
  forallb (fun a => forallb (fun b =>
     negb (String.eqb (ix_name a) (ix_name b)) || negb (is_primary a) || index_eqb a b)
     (dvals (t_indexes tgt))) (dvals (t_indexes src)).
Lemma list_eqb_str l m : list_eqb String.eqb l m = true -> l = m.
Proof.
  revert m; induction l as [|a l IH]; intros [|b m]; simpl; try congruence.
  rewrite andb_true_iff. intros [E H]. apply String.eqb_eq in E. apply IH in H. congruence.
Qed.
Lemma primary_keptb_ok src tgt : primary_keptb src tgt = true -> primary_kept src tgt.
Proof.
  unfold primary_keptb. intros H a b Ha Hb En Et. rewrite forallb_forall in H.
  specialize (H a Ha). rewrite forallb_forall in H. specialize (H b Hb).
  rewrite En, String.eqb_refl in H. unfold is_primary in H. rewrite Et in H. simpl in H.
  unfold index_eqb in H. left. apply andb_true_iff in H as [H1 H2]. split; [apply list_eqb_str, H1|].
  rewrite Et. destruct (ix_type b); simpl in *; rewrite ?Et in H2; simpl in H2; congruence.
Qed.

Definition distinct_indexesb (t : table) : bool :=
  forallb (fun p => forallb (fun q => String.eqb (fst p) (fst q) || negb (list_eqb String.eqb (ix_columns (snd p)) (ix_columns (snd q))))
     (t_indexes t)) (t_indexes t).
Lemma distinct_indexesb_ok t : distinct_indexesb t = true -> distinct_indexes t.
Proof.
  unfold distinct_indexesb. intros H n a m b Ha Hb Ec _. rewrite forallb_forall in H. specialize (H _ Ha).
  rewrite forallb_forall in H. specialize (H _ Hb). cbn [fst snd] in H. apply orb_true_iff in H as [H|H]; [apply String.eqb_eq, H|].
  exfalso. rewrite Ec in H. assert (R : forall l, list_eqb String.eqb l l = true) by (induction l; simpl; rewrite ?String.eqb_refl; auto).
  rewrite R in H. discriminate.
Qed.

(** A float oracle for examples: integers only. *)
#[global] Instance int_floats : FloatOracle := {|
  float_t := Z;
  float_of_string := py_int;
  float_of_int := Some;
  float_eqb := Z.eqb;
  float_round := fun x _ => Some x
|}.

(** Two versions of a small table. *)
Definition parent : table := tbl "parent" [id_col; varchar_col "title" "255"] [primary_key ["id"]] [].
Definition child_v1 : table :=
  tbl "child" [id_col; int_col "parent_id"; varchar_col "old" "10"; varchar_col "name" "100"]
    [primary_key ["id"]; key "fk_parent" ["parent_id"]; key "name_idx" ["name"]]
    [fk "fk_parent" "parent_id" "parent" "id"].
Definition child_v2 : table :=
  tbl "child" [id_col; int_col "parent_id"; varchar_col "first" "20"; varchar_col "name" "200"; date_col "born"]
    [primary_key ["id"]; key "parent_idx" ["parent_id"]; unique_key "name_idx" ["name"]; key "born_idx" ["born"]]
    [fk "fk_parent_2" "parent_id" "parent" "id"].
