(** Validation leaves what is planned alone. *)
From Verif Require Export Cli ValidGlobal.

(** A table without the set that validation fills. *)
Definition bare (t : table) : table := with_indexes t (t_indexes t) (t_primary t) None.
Definition bares (ts : tables) : tables := map (fun p => (fst p, bare (snd p))) ts.

Lemma bare_ask t n : bare (fst (column_is_indexed t n)) = bare t.
Proof. unfold column_is_indexed. destruct (negb _); [reflexivity|]. destruct (t_indexed t) eqn:E; [reflexivity|]. destruct (mapM _ _); reflexivity. Qed.
Lemma plain_set d n o : bares (plain_tables (dset n o d)) = dset n (bare (to_table o)) (bares (plain_tables d)).
Proof.
  induction d as [|[m u] d IH]; [reflexivity|]. simpl. destruct (String.eqb n m); [reflexivity|]. simpl. f_equal. exact IH.
Qed.
Lemma dset_get {V} n (v : V) d : dget n d = Some v -> dset n v d = d.
Proof. induction d as [|[m u] d IH]; [discriminate|]. simpl. destruct (String.eqb_spec n m) as [<-|X]; [intros [= <-]; reflexivity|]. intros H. f_equal. apply IH, H. Qed.
Lemma dget_bares n d : dget n (bares (plain_tables d)) = option_map (fun o => bare (to_table o)) (dget n d).
Proof. induction d as [|[m u] d IH]; [reflexivity|]. simpl. destruct (String.eqb n m); [reflexivity|exact IH]. Qed.
Lemma bare_touch d n c : bares (plain_tables (touch n c d)) = bares (plain_tables d).
Proof.
  unfold touch. destruct (dget n d) as [o|] eqn:E; [|reflexivity]. rewrite plain_set. cbn [with_table to_table]. rewrite bare_ask.
  apply dset_get. rewrite dget_bares, E. reflexivity.
Qed.
Lemma bare_touch_fk d n k : bares (plain_tables (touch_fk d n k)) = bares (plain_tables d).
Proof.
  unfold touch_fk. destruct (dget n d) as [o|]; [|reflexivity]. destruct (dget (k_ftable k) d) as [f|]; [|reflexivity].
  destruct (dget _ _) as [fc|]; [|reflexivity]. destruct (dget _ _) as [c|]; [|reflexivity].
  destruct (snd _) as [[|]|]; try apply bare_touch. destruct (first_some _ _); rewrite ?bare_touch; reflexivity.
Qed.
Lemma bare_scan l : forall names d, bares (plain_tables (fst (scan_fks l names d))) = bares (plain_tables d).
Proof.
  induction l as [|[tn [kn k]] l IH]; intros names d; [reflexivity|]. cbn [scan_fks]. destruct (dget tn d) as [o|]; [|reflexivity].
  repeat match goal with |- context [match ?x with _ => _ end] => destruct x eqn:? end; cbn [fst];
    try (match goal with H : scan_fks ?l ?n ?d = (?x, _) |- _ => specialize (IH n d); rewrite H in IH; cbn [fst] in IH; rewrite IH end);
    rewrite ?bare_touch_fk; reflexivity.
Qed.

Section Float.
  Context {FO : FloatOracle}.

  Lemma plain_has o : to_table (fst (table_has o)) = to_table o.
  Proof. unfold table_has, table_ask. destruct (to_errs o); reflexivity. Qed.
  Lemma plain_asks pick d : plain_tables (fst (ask_tables pick d)) = plain_tables d.
  Proof.
    induction d as [|[n o] d IH]; [reflexivity|]. cbn [ask_tables]. pose proof (plain_has o) as P. destruct (table_has o) as [o' [b|e]]; cbn [fst] in P.
    - destruct (ask_tables pick d) as [d2 r]. cbn [fst] in IH |- *. cbn [plain_tables map fst snd]. fold (plain_tables d2). rewrite IH, P. reflexivity.
    - cbn [fst plain_tables map snd]. rewrite P. reflexivity.
  Qed.
  Lemma errors_bares b : bares (db_tables (fst (db_errors b))) = bares (db_tables b).
  Proof.
    assert (S : bares (db_tables (fst (find_schema_errors b))) = bares (db_tables b)).
    { unfold find_schema_errors. destruct (d_schema b); [reflexivity|]. unfold database_schema_errors.
      pose proof (bare_scan (all_fks (plain_tables (d_tables b))) [] (d_tables b)) as A. destruct (scan_fks _ _ _) as [d1 [l1|e]]; cbn [fst] in A; [|exact A].
      pose proof (plain_asks te_schema d1) as B. destruct (ask_tables te_schema d1) as [d2 [l2|e]]; cbn [fst] in B; [|cbn [fst]; unfold db_tables; cbn [set_tables d_tables]; rewrite B; exact A].
      destruct (row_schema_errors _ _); cbn [fst]; unfold db_tables; cbn [set_schema set_tables d_tables]; rewrite B; exact A. }
    unfold db_errors. destruct (find_schema_errors b) as [b1 [l|e]]; cbn [fst] in S; [|exact S]. rewrite <- S. clear S.
    assert (P : db_tables (fst (find_parsing_errors b1)) = db_tables b1).
    { unfold find_parsing_errors. destruct (d_parsing b1); [reflexivity|].
      repeat match goal with |- context [ask_tables ?p ?d] => let H := fresh in pose proof (plain_asks p d) as H; destruct (ask_tables p d) as [? [?|?]]; cbn [fst] in H end;
        repeat match goal with |- context [match ?x with _ => _ end] => destruct x end; cbn [fst]; unfold db_tables; cbn [set_tables set_parsing d_tables]; congruence. }
    destruct (find_parsing_errors b1) as [b2 [l2|e]]; cbn [fst] in P |- *; rewrite P; reflexivity.
  Qed.

  (** ** The planner does not see the difference *)

  Definition bare_op (o : op) : op := match o with OCreate t => OCreate (bare t) | _ => o end.
  Lemma bare_op_str o : op_str (bare_op o) = op_str o.
  Proof. destruct o; reflexivity. Qed.
  Lemma dget_bare n ts : dget n (bares ts) = option_map bare (dget n ts).
  Proof. induction ts as [|[m t] ts IH]; [reflexivity|]. simpl. destruct (String.eqb n m); [reflexivity|exact IH]. Qed.
  Lemma dkeys_bare ts : dkeys (bares ts) = dkeys ts.
  Proof. unfold bares, dkeys. rewrite map_map. reflexivity. Qed.
  Lemma dmem_bare n ts : dmem n (bares ts) = dmem n ts.
  Proof. induction ts as [|[m t] ts IH]; [reflexivity|]. simpl. rewrite IH. reflexivity. Qed.
  Lemma changing_bare from to n c : changing_column from (bares to) n c = changing_column from to n c.
  Proof. unfold changing_column. rewrite dget_bare. destruct (dget n from), (dget n to); reflexivity. Qed.
  Lemma cycle_bare from to tn kn k : cycle_of from (bares to) tn kn k = cycle_of from to tn kn k.
  Proof. unfold cycle_of. rewrite !changing_bare, dget_bare. destruct (dget tn to); reflexivity. Qed.
  Lemma cycled_bare from to tn s : cycled_of_table from (bares to) tn s = cycled_of_table from to tn s.
  Proof. unfold cycled_of_table. f_equal. apply map_ext. intros p. rewrite cycle_bare. reflexivity. Qed.
  Lemma strip_bare from to a : strip_opt from (bares to) a = strip_opt from to a.
  Proof.
    destruct a as [a|]; [|reflexivity]. unfold strip_opt. replace (strip_cycled from (bares to) a) with (strip_cycled from to a); [reflexivity|].
    unfold strip_cycled. f_equal. apply filter_ext. intros o. symmetry.
    assert (H : forall n, cycled_in from (bares to) (al_table a) n = cycled_in from to (al_table a) n).
    { intros n. unfold cycled_in. destruct (dget _ from) as [s|]; [|reflexivity]. unfold cycled_names. rewrite cycled_bare. reflexivity. }
    destruct o; cbn [keep_op]; rewrite ?H; reflexivity.
  Qed.
  Lemma update_bare from to n : update_table from (bares to) n = update_table from to n.
  Proof.
    unfold update_table, dgetE. rewrite dget_bare. destruct (dget n to) as [t|]; [|reflexivity]. cbn [option_map bind]. destruct (dget n from) as [s|]; [|reflexivity]. cbn [bind].
    change (diff_split s (bare t)) with (diff_split s t). destruct (diff_split s t) as [sp|]; [|reflexivity]. cbn [bind]. rewrite !strip_bare. reflexivity.
  Qed.
  Lemma mapM_ext' {A B} (f g : A -> res B) l : (forall a, f a = g a) -> mapM f l = mapM g l.
  Proof. intros H. induction l as [|a l IH]; [reflexivity|]. cbn [mapM]. rewrite H, IH. reflexivity. Qed.
  Lemma mapM_rmap {A B C} (f : A -> res B) (g : B -> C) l : mapM (fun a => rmap g (f a)) l = rmap (map g) (mapM f l).
  Proof. induction l as [|a l IH]; [reflexivity|]. cbn [mapM]. destruct (f a); [|reflexivity]. cbn [rmap bind]. rewrite IH. destruct (mapM f l); reflexivity. Qed.

  (** The operations are updates only or creations; only the latter hold tables. *)
  Definition holds_table (o : op) : bool := match o with OCreate _ => true | _ => false end.
  Lemma bare_other l : (forall o, In o l -> holds_table o = false) -> map bare_op l = l.
  Proof. intros H. induction l as [|o l IH]; [reflexivity|]. cbn [map]. rewrite IH by (intros x I; apply H; right; exact I). specialize (H o (or_introl eq_refl)). destruct o; try discriminate; reflexivity. Qed.
  Lemma plan_bare d to from : plan_tables d (bares to) from = rmap (map bare_op) (plan_tables d to from).
  Proof.
    unfold plan_tables. set (f := match from with Some f => f | None => [] end).
    assert (E : differences f (bares to) = differences f to).
    { unfold differences. rewrite !dkeys_bare. f_equal; [f_equal|]; apply filter_ext; intros n; rewrite ?dmem_bare; reflexivity. }
    rewrite E. destruct (differences f to) as [[add remove] update].
    assert (Cr : mapM (fun n => let* t := dgetE n (bares to) in Ok (OCreate t)) add = rmap (map bare_op) (mapM (fun n => let* t := dgetE n to in Ok (OCreate t)) add)).
    { rewrite <- mapM_rmap. apply mapM_ext'. intros n. unfold dgetE. rewrite dget_bare. destruct (dget n to); reflexivity. }
    rewrite Cr. destruct (mapM (fun n => let* t := dgetE n to in Ok (OCreate t)) add) as [cr|]; [|reflexivity]. cbn [rmap bind].
    rewrite (mapM_ext' _ (update_table f to)) by apply update_bare. destruct (mapM (update_table f to) update) as [upd|] eqn:U; [|reflexivity]. cbn [rmap bind].
    assert (D : drop_fk_ops f (bares to) = drop_fk_ops f to) by (unfold drop_fk_ops; f_equal; apply map_ext; intros p; rewrite cycled_bare; reflexivity).
    assert (Ad : add_fk_ops f (bares to) = add_fk_ops f to) by (unfold add_fk_ops; f_equal; apply map_ext; intros p; rewrite cycled_bare; reflexivity).
    rewrite D, Ad. cbn [rmap]. f_equal. rewrite !map_app.
    assert (St : forall a o, In o (strip_opt f to a) -> holds_table o = false).
    { intros a o. unfold strip_opt. destruct a; [|intros []]. destruct (alter_bool _); [|intros []]. intros [<-|[]]; reflexivity. }
    assert (Al : forall l, map bare_op (map OAlter l) = map OAlter l) by (intros l; rewrite map_map; reflexivity).
    assert (Dr : map bare_op (map ODropTable remove) = map ODropTable remove) by (rewrite map_map; reflexivity).
    assert (Up : forall p, In p upd -> (forall o, In o (fst p) -> holds_table o = false) /\ (forall o, In o (snd p) -> holds_table o = false)).
    { intros p Hp. apply mapM_ok in U. destruct (Forall2_in_r _ _ _ _ U Hp) as (n & _ & En). unfold update_table in En.
      apply bind_ok in En as (x & _ & En). apply bind_ok in En as (y & _ & En). apply bind_ok in En as (sp & _ & En). injection En as <-. cbn [fst snd]. split.
      - intros o. rewrite in_app_iff, in_map_iff. intros [H|(a & <- & _)]; [apply (St _ _ H)|reflexivity].
      - intros o. apply St. }
    rewrite !Al, Dr. rewrite (bare_other (concat (map fst upd))), (bare_other (concat (map snd upd))).
    - destruct d; reflexivity.
    - intros o H. apply in_concat in H as (l & Hl & H). apply in_map_iff in Hl as (p & <- & Hp). apply (proj2 (Up p Hp)), H.
    - intros o H. apply in_concat in H as (l & Hl & H). apply in_map_iff in Hl as (p & <- & Hp). apply (proj1 (Up p Hp)), H.
  Qed.
  Lemma rows_bare to from : plan_rows (bares to) from = plan_rows to from.
  Proof.
    unfold plan_rows. f_equal.
    assert (T : map t_name (filter t_tracking (dvals (bares to))) = map t_name (filter t_tracking (dvals to))).
    { unfold dvals, bares. rewrite map_map. cbn [snd]. induction to as [|[n t] to IH]; [reflexivity|]. cbn [map filter snd]. change (t_tracking (bare t)) with (t_tracking t). destruct (t_tracking t); cbn [map]; rewrite IH; reflexivity. }
    rewrite T. apply mapM_ext'. intros n. unfold dgetE. rewrite dget_bare. destruct (dget n to) as [t|]; reflexivity.
  Qed.

  (** What was asked before makes no difference. *)
  Lemma plan_asked d b from : rmap (map op_str) (plan_tables d (db_tables (fst (db_errors b))) from) = rmap (map op_str) (plan_tables d (db_tables b) from).
  Proof.
    assert (H : forall to, rmap (map op_str) (plan_tables d to from) = rmap (map op_str) (plan_tables d (bares to) from)).
    { intros to. rewrite plan_bare. destruct (plan_tables d to from) as [l|]; [|reflexivity]. cbn [rmap]. rewrite map_map. f_equal. apply map_ext. intros o. symmetry. apply bare_op_str. }
    rewrite H, errors_bares, <- H. reflexivity.
  Qed.
  Lemma rows_asked b from : plan_rows (db_tables (fst (db_errors b))) from = plan_rows (db_tables b) from.
  Proof. rewrite <- rows_bare, errors_bares, rows_bare. reflexivity. Qed.
End Float.
