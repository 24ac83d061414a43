(** The messages recorded on tables do not influence the database's error list. *)
From Verif Require Export ValidMore.

(** Equal in everything that validation reads. *)
Definition eqv (t t' : table) : Prop :=
  t_name t = t_name t' /\ t_columns t = t_columns t' /\ t_indexes t = t_indexes t'
  /\ t_constraints t = t_constraints t' /\ t_indexed t = t_indexed t'.
Definition eqvo (o o' : tobj) : Prop :=
  to_seen o = to_seen o' /\ to_errs o = to_errs o' /\ eqv (to_table o) (to_table o').
Definition eqvd (d d' : dict string tobj) : Prop :=
  Forall2 (fun p q => fst p = fst q /\ eqvo (snd p) (snd q)) d d'.

Lemma eqv_ask t t' n : eqv t t' ->
  snd (column_is_indexed t n) = snd (column_is_indexed t' n)
  /\ eqv (fst (column_is_indexed t n)) (fst (column_is_indexed t' n)).
Proof.
  intros (E1 & E2 & E3 & E4 & E5). unfold column_is_indexed. rewrite <- E2, <- E3, <- E5.
  destruct (negb _); [split; [reflexivity|repeat split; assumption]|].
  destruct (t_indexed t) eqn:Et.
  - split; [reflexivity|repeat split; simpl; congruence].
  - destruct (mapM _ _); simpl; (split; [reflexivity|]); repeat split; simpl; congruence.
Qed.
Lemma eqvd_get d d' n : eqvd d d' ->
  match dget n d, dget n d' with
  | Some o, Some o' => eqvo o o'
  | None, None => True
  | _, _ => False
  end.
Proof.
  induction 1 as [|[x o] [y u] a b [E S] H IH]; simpl; [exact I|]. simpl in E; subst y.
  destruct (String.eqb n x); [exact S|exact IH].
Qed.
Lemma eqvd_set d d' n o o' : eqvd d d' -> eqvo o o' -> eqvd (dset n o d) (dset n o' d').
Proof.
  induction 1 as [|[x u] [y v] a b [E S] H IH]; simpl; intros Ho; [constructor; [split; [reflexivity|exact Ho]|constructor]|].
  simpl in E; subst y. destruct (String.eqb n x); constructor; simpl; auto.
  apply IH, Ho.
Qed.
Lemma eqvd_touch d d' n c : eqvd d d' -> eqvd (touch n c d) (touch n c d').
Proof.
  intros H. unfold touch. pose proof (eqvd_get _ _ n H) as G.
  destruct (dget n d) as [o|], (dget n d') as [o'|]; try contradiction; [|exact H].
  apply eqvd_set; [exact H|]. destruct G as (G1 & G2 & G3). repeat split; simpl; auto; apply (eqv_ask _ _ c G3).
Qed.
Lemma eqv_msgs k t t' ft ft' c fc : eqv t t' -> eqv ft ft' ->
  attr_mismatch k t ft c fc = attr_mismatch k t' ft' c fc
  /\ unsigned_mismatch k t ft c fc = unsigned_mismatch k t' ft' c fc
  /\ null_mismatch k t c = null_mismatch k t' c.
Proof.
  intros (E & _) (F & _). unfold attr_mismatch, unsigned_mismatch, null_mismatch. rewrite <- E, <- F. auto.
Qed.
Lemma eqvd_touch_fk d d' n k : eqvd d d' -> eqvd (touch_fk d n k) (touch_fk d' n k).
Proof.
  intros H. unfold touch_fk. pose proof (eqvd_get _ _ n H) as G. pose proof (eqvd_get _ _ (k_ftable k) H) as F.
  destruct (dget n d) as [o|], (dget n d') as [o'|]; try contradiction; [|exact H].
  destruct (dget (k_ftable k) d) as [fo|], (dget (k_ftable k) d') as [fo'|]; try contradiction; [|exact H].
  destruct G as (_ & _ & G). destruct F as (_ & _ & F).
  pose proof G as (_ & G2 & _). pose proof F as (_ & F2 & _). rewrite <- G2, <- F2.
  destruct (dget (k_fcolumn k) _) as [fc|]; [|exact H]. destruct (dget (k_column k) _) as [c|]; [|exact H].
  rewrite <- (proj1 (eqv_ask _ _ (c_name c) G)). destruct (eqv_msgs k _ _ _ _ c fc G F) as (<- & <- & <-).
  destruct (snd _) as [[|]|]; [|apply eqvd_touch, H..].
  destruct (first_some _ _); [apply eqvd_touch, H|apply eqvd_touch, eqvd_touch, H].
Qed.
Lemma eqvd_constraint d d' t t' k : eqvd d d' -> eqv t t' ->
  constraint_error (plain_tables d) t k = constraint_error (plain_tables d') t' k.
Proof.
  intros H E. unfold constraint_error. rewrite !dget_plain. pose proof (eqvd_get _ _ (k_ftable k) H) as F.
  pose proof E as (E1 & E2 & _).
  destruct (dget (k_ftable k) d) as [fo|], (dget (k_ftable k) d') as [fo'|]; try contradiction; simpl; rewrite <- E1; [|reflexivity].
  destruct F as (_ & _ & F). pose proof F as (F1 & F2 & _). rewrite <- E2, <- F1, <- F2.
  destruct (dget (k_fcolumn k) _) as [fc|]; [|reflexivity]. destruct (dget (k_column k) _) as [c|]; [|reflexivity].
  rewrite <- (proj1 (eqv_ask _ _ (c_name c) E)), <- (proj1 (eqv_ask _ _ (c_name fc) F)).
  destruct (eqv_msgs k _ _ _ _ c fc E F) as (<- & <- & <-). reflexivity.
Qed.
Lemma eqvd_scan l : forall names d d', eqvd d d' ->
  snd (scan_fks l names d) = snd (scan_fks l names d') /\ eqvd (fst (scan_fks l names d)) (fst (scan_fks l names d')).
Proof.
  induction l as [|[tn [kn k]] l IH]; intros names d d' H; simpl; [auto|].
  pose proof (eqvd_get _ _ tn H) as G.
  destruct (dget tn d) as [o|], (dget tn d') as [o'|]; try contradiction; [|auto].
  destruct G as (_ & _ & G). pose proof G as (G1 & _).
  rewrite <- (eqvd_constraint _ _ _ _ k H G), <- G1. pose proof (eqvd_touch_fk _ _ tn k H) as T.
  destruct (constraint_error _ _ _); [|auto].
  destruct (match dget _ names with Some _ => _ | None => _ end) as [dup names'].
  destruct (IH names' _ _ T) as [E S].
  destruct (scan_fks l names' (touch_fk d tn k)), (scan_fks l names' (touch_fk d' tn k)). simpl in *. subst. auto.
Qed.
Lemma eqvd_fks d d' : eqvd d d' -> all_fks (plain_tables d) = all_fks (plain_tables d').
Proof.
  unfold all_fks. induction 1 as [|[x o] [y u] a b [E (_ & _ & (_ & _ & _ & S & _))] H IH]; simpl in *; [reflexivity|].
  subst y. rewrite S, IH. reflexivity.
Qed.

Section Float.
  Context {FO : FloatOracle}.

  Lemma eqv_find seen t t' : eqv t t' -> find_all_errors_seen seen t = find_all_errors_seen seen t'.
  Proof.
    destruct t as [n c i k o p x r tr ge gw od], t' as [n' c' i' k' o' p' x' r' tr' ge' gw' od'].
    unfold eqv; simpl. intros (-> & -> & -> & -> & _). reflexivity.
  Qed.
  Lemma eqv_has o o' : eqvo o o' -> snd (table_has o) = snd (table_has o') /\ eqvo (fst (table_has o)) (fst (table_has o')).
  Proof.
    intros (E1 & E2 & E3). pose proof E3 as (F1 & F2 & _). unfold table_has, table_ask. rewrite <- E2.
    destruct (to_errs o) eqn:Eo; simpl.
    - split; [reflexivity|]. split; [exact E1|]. split; [congruence|exact E3].
    - rewrite <- E1, <- F2, (eqv_find _ _ _ E3). split; [reflexivity|]. repeat split; simpl; auto; apply E3.
  Qed.
  Lemma eqvd_asks pick d d' : eqvd d d' ->
    snd (ask_tables pick d) = snd (ask_tables pick d') /\ eqvd (fst (ask_tables pick d)) (fst (ask_tables pick d')).
  Proof.
    induction 1 as [|[x o] [y u] a b [E S] H [IH1 IH2]]; simpl; [split; [reflexivity|constructor]|]. simpl in E, S; subst y.
    destruct (eqv_has o u S) as [E1 S1]. destruct (table_has o) as [o' r], (table_has u) as [u' r']. simpl in E1, S1. subst r'.
    pose proof S1 as (_ & E2 & _). destruct r; simpl.
    - destruct (ask_tables pick a) as [a2 r2], (ask_tables pick b) as [b2 r2']. simpl in *. subst. rewrite E2.
      split; [reflexivity|]. constructor; auto.
    - split; [reflexivity|]. constructor; auto.
  Qed.
  Lemma eqvd_loop d d' l : eqvd d d' -> forall cur cur', same_cols cur cur' ->
    row_errors_loop (plain_tables d) l cur = row_errors_loop (plain_tables d') l cur'.
  Proof.
    intros S. induction l as [|[tn r] l IH]; intros cur cur' C; simpl; [reflexivity|].
    rewrite !dget_plain. pose proof (eqvd_get d d' tn S) as G.
    destruct (dget tn d) as [o|], (dget tn d') as [o'|]; simpl; try contradiction.
    - destruct G as (_ & _ & (_ & Fc & _)). destruct (negb _).
      + rewrite (IH (Some (to_table o)) (Some (to_table o'))) by (simpl; congruence).
        unfold unknown_columns. rewrite Fc. reflexivity.
      + rewrite (IH cur cur' C). unfold implicit_errors.
        destruct cur as [t|], cur' as [t'|]; simpl in C; try contradiction; [rewrite C|]; reflexivity.
    - rewrite (IH cur cur' C). reflexivity.
  Qed.

  Definition eqvb (b b' : database) : Prop :=
    eqvd (d_tables b) (d_tables b') /\ d_rows b = d_rows b' /\ d_global_errors b = d_global_errors b'
    /\ d_schema b = d_schema b' /\ d_parsing b = d_parsing b'.

  Lemma eqvb_schema b b' : eqvb b b' -> snd (find_schema_errors b) = snd (find_schema_errors b')
    /\ eqvb (fst (find_schema_errors b)) (fst (find_schema_errors b')).
  Proof.
    intros (E1 & E2 & E3 & E4 & E5). unfold find_schema_errors. rewrite <- E4. destruct (d_schema b) eqn:Es.
    - simpl. split; [reflexivity|]. repeat split; auto; congruence.
    - unfold database_schema_errors. rewrite <- (eqvd_fks _ _ E1).
      destruct (eqvd_scan (all_fks (plain_tables (d_tables b))) [] _ _ E1) as [X S].
      destruct (scan_fks _ [] (d_tables b)) as [d1 r1], (scan_fks _ [] (d_tables b')) as [d1' r1']. simpl in X, S. subst r1'.
      destruct r1; [|simpl; split; [reflexivity|repeat split; simpl; auto; congruence]].
      destruct (eqvd_asks te_schema _ _ S) as [X2 S2].
      destruct (ask_tables te_schema d1) as [d2 r2], (ask_tables te_schema d1') as [d2' r2']. simpl in X2, S2. subst r2'.
      destruct r2; [|simpl; split; [reflexivity|repeat split; simpl; auto; congruence]].
      assert (X3 : row_schema_errors (plain_tables d2) (d_rows b) = row_schema_errors (plain_tables d2') (d_rows b')).
      { rewrite <- E2. destruct (d_rows b); simpl; [|reflexivity]. apply eqvd_loop; [exact S2|exact I]. }
      rewrite <- X3. destruct (row_schema_errors _ _); simpl; (split; [reflexivity|repeat split; simpl; auto; congruence]).
  Qed.
  Lemma eqvb_parsing b b' : eqvb b b' -> snd (find_parsing_errors b) = snd (find_parsing_errors b')
    /\ eqvb (fst (find_parsing_errors b)) (fst (find_parsing_errors b')).
  Proof.
    intros (E1 & E2 & E3 & E4 & E5). unfold find_parsing_errors. rewrite <- E5. destruct (d_parsing b) eqn:Es.
    - simpl. split; [reflexivity|]. repeat split; auto; congruence.
    - destruct (eqvd_asks te_parsing _ _ E1) as [X2 S2].
      destruct (ask_tables te_parsing (d_tables b)) as [d2 r2], (ask_tables te_parsing (d_tables b')) as [d2' r2']. simpl in X2, S2. subst r2'.
      rewrite <- E2.
      destruct r2; [|simpl; split; [reflexivity|repeat split; simpl; auto; congruence]].
      destruct (row_parsing _ _); simpl; (split; [reflexivity|repeat split; simpl; auto; congruence]).
  Qed.
  Lemma eqvb_errors b b' : eqvb b b' -> snd (db_errors b) = snd (db_errors b').
  Proof.
    intros E. unfold db_errors. destruct (eqvb_schema _ _ E) as [X S].
    destruct (find_schema_errors b) as [b1 r1], (find_schema_errors b') as [b1' r1']. simpl in X, S. subst r1'.
    destruct r1; [|reflexivity]. destruct (eqvb_parsing _ _ S) as [X2 (_ & _ & S2 & _)].
    destruct (find_parsing_errors b1) as [b2 r2], (find_parsing_errors b1') as [b2' r2']. simpl in X2, S2. subst r2'.
    destruct r2; [|reflexivity]. simpl. rewrite S2. reflexivity.
  Qed.
End Float.
