(** The planner sees of a wanted table only what its definitions mean. *)
From Verif Require Export CliFacts StoredFacts RoundRows.

(** A column with the attributes that the planner looks at. *)
Definition ncol (c : column) : column :=
  mkColumn (c_kind c) (c_name c) (c_type c) (c_length c) (c_null c) false (c_default c) (Some (tru_ob (c_unsigned c))) (c_charset c) (c_collate c)
    (Some (tru_ob (c_autoinc c))) (if tru_ol (c_enum_values c) then c_enum_values c else None) [] [].
Definition ntab (t : table) : table :=
  mkTable (t_name t) (map (fun p => (fst p, ncol (snd p))) (t_columns t)) (t_indexes t) (t_constraints t) (t_options t) None None (t_rows t) (t_tracking t) [] [] true.
Definition ntabs (ts : tables) : tables := map (fun p => (fst p, ntab (snd p))) ts.
Definition naop (o : aop) : aop := match o with AddColumn c p => AddColumn (ncol c) p | ChangeColumn c => ChangeColumn (ncol c) | _ => o end.
Definition nalter (a : alter) : alter := mkAlter (al_table a) (map naop (al_ops a)).
Definition nop (o : op) : op := match o with OCreate t => OCreate (ntab t) | OAlter a => OAlter (nalter a) | _ => o end.

Lemma ncol_type c : c_type (ncol c) = c_type c.
Proof. unfold c_type. cbn [ncol c_rawtype]. apply upper_twice. Qed.
Lemma ncol_set c : c_charset (ncol c) = c_charset c /\ c_collate (ncol c) = c_collate c.
Proof. unfold c_charset, c_collate. cbn [ncol c_rawcharset c_rawcollate]. unfold c_charset, c_collate. split; [destruct (c_rawcharset c)|destruct (c_rawcollate c)]; cbn [option_map]; rewrite ?upper_twice; reflexivity. Qed.
Lemma tru_some b : tru_ob (Some b) = b.
Proof. destruct b; reflexivity. Qed.
Lemma ncol_str c : column_str (ncol c) = column_str c.
Proof.
  unfold column_str. destruct (ncol_set c) as [-> ->].
  assert (B : column_str_base (ncol c) = column_str_base c).
  { unfold column_str_base, type_string. rewrite ncol_type. cbn [ncol c_name c_enum_values c_length c_null c_default c_unsigned c_autoinc]. rewrite !tru_some.
    destruct (c_enum_values c) as [[|v vs]|]; reflexivity. }
  rewrite B. reflexivity.
Qed.
Lemma naop_str o : aop_str (naop o) = aop_str o.
Proof. destruct o; cbn [naop aop_str]; rewrite ?ncol_str; reflexivity. Qed.
Lemma ncol_vals t : dvals (t_columns (ntab t)) = map ncol (dvals (t_columns t)).
Proof. cbn [ntab t_columns]. unfold dvals. rewrite !map_map. reflexivity. Qed.
Lemma nop_str o : op_str (nop o) = op_str o.
Proof.
  destruct o as [t|a|n| | | | | ]; try reflexivity; cbn [nop op_str].
  - unfold create_str, create_body. rewrite ncol_vals, map_map. cbn [ntab t_name t_indexes t_constraints t_options].
    rewrite (map_ext (fun x => "" ++ column_str (ncol x)) (fun c => "" ++ column_str c)) by (intros c; rewrite ncol_str; reflexivity). reflexivity.
  - unfold alter_str. cbn [nalter al_table al_ops]. rewrite map_map. rewrite (map_ext (fun x => aop_str (naop x)) aop_str) by apply naop_str. reflexivity.
Qed.

Section Planner.
  Context {FO : FloatOracle}.

  Lemma ncol_same a c : really_same a (ncol c) = really_same a c.
  Proof.
    unfold really_same, same_common. rewrite ncol_type. destruct (ncol_set c) as [-> ->].
    unfold default_none_mismatch, same_default, numeric_same_default. cbn [ncol c_name c_length c_null c_unsigned c_default]. rewrite tru_some. reflexivity.
  Qed.
  Lemma ncol_changed a c : column_changed a (ncol c) = column_changed a c.
  Proof. unfold column_changed. rewrite ncol_str, ncol_same. reflexivity. Qed.
  Lemma ncol_differs a c : column_type_differs a (ncol c) = column_type_differs a c.
  Proof. unfold column_type_differs. rewrite ncol_type. destruct (ncol_set c) as [-> ->]. cbn [ncol c_length c_unsigned]. rewrite tru_some. reflexivity. Qed.

  Lemma dget_map {V W} (f : V -> W) n (d : dict string V) : dget n (map (fun p => (fst p, f (snd p))) d) = option_map f (dget n d).
  Proof. induction d as [|[m v] d IH]; [reflexivity|]. cbn [map fst snd dget]. simpl. destruct (String.eqb n m); [reflexivity|exact IH]. Qed.
  Lemma dmem_map {V W} (f : V -> W) n (d : dict string V) : dmem n (map (fun p => (fst p, f (snd p))) d) = dmem n d.
  Proof. induction d as [|[m v] d IH]; [reflexivity|]. simpl. f_equal. exact IH. Qed.
  Lemma dkeys_map {V W} (f : V -> W) (d : dict string V) : dkeys (map (fun p => (fst p, f (snd p))) d) = dkeys d.
  Proof. unfold dkeys. rewrite map_map. reflexivity. Qed.
  Lemma differences_map {V W} {U} (f : V -> W) (s : dict string U) (d : dict string V) : differences s (map (fun p => (fst p, f (snd p))) d) = differences s d.
  Proof. unfold differences. rewrite !dkeys_map. f_equal; [f_equal|]; apply filter_ext; intros n; rewrite ?dmem_map; reflexivity. Qed.

  Definition nsplit (sp : split) : split := mkSplit (option_map nalter (sp_removed_fks sp)) (option_map nalter (sp_kitchen sp)) (option_map nalter (sp_fks sp)).
  Lemma nalter_some n l : nonempty_alter n (map naop l) = option_map nalter (nonempty_alter n l).
  Proof. unfold nonempty_alter. destruct l; reflexivity. Qed.
  Lemma kitchen_norm s t : kitchen_ops s (ntab t) = rmap (map naop) (kitchen_ops s t).
  Proof.
    unfold kitchen_ops. cbn [ntab t_columns]. rewrite differences_map. destruct (differences _ _) as [[added removed] overlap].
    assert (A : added_column_ops (ntab t) added = rmap (map naop) (added_column_ops t added)).
    { unfold added_column_ops. rewrite <- mapM_rmap. apply mapM_ext'. intros n. unfold dgetE. cbn [ntab t_columns]. rewrite dget_map. destruct (dget n (t_columns t)); [|reflexivity]. cbn [option_map bind].
      unfold column_before. cbn [ntab t_columns t_name]. rewrite dkeys_map. destruct (before_in _ _ _); reflexivity. }
    assert (C : changed_column_ops s (ntab t) overlap = rmap (map naop) (changed_column_ops s t overlap)).
    { unfold changed_column_ops.
      assert (Q : forall l, mapM (fun n => let* a := dgetE n (t_columns s) in let* b := dgetE n (t_columns (ntab t)) in let* ch := column_changed a b in Ok (if ch then [ChangeColumn b] else [])) l
        = rmap (map (map naop)) (mapM (fun n => let* a := dgetE n (t_columns s) in let* b := dgetE n (t_columns t) in let* ch := column_changed a b in Ok (if ch then [ChangeColumn b] else [])) l)).
      { intros l. rewrite <- mapM_rmap. apply mapM_ext'. intros n. unfold dgetE. cbn [ntab t_columns]. rewrite dget_map. destruct (dget n (t_columns s)); [|reflexivity]. cbn [bind].
        destruct (dget n (t_columns t)); [|reflexivity]. cbn [option_map bind]. rewrite ncol_changed. destruct (column_changed _ _) as [[|]|]; reflexivity. }
      rewrite Q. destruct (mapM _ _) as [x|]; [|reflexivity]. cbn [rmap]. rewrite concat_map. reflexivity. }
    rewrite A, C. assert (R : removed_column_ops s removed = rmap (map naop) (removed_column_ops s removed)).
    { unfold removed_column_ops. rewrite <- mapM_rmap. apply mapM_ext'. intros n. unfold dgetE. destruct (dget n (t_columns s)); reflexivity. }
    destruct (added_column_ops t added) as [a|]; [|reflexivity]. cbn [rmap bind]. destruct (changed_column_ops s t overlap) as [c|]; [|reflexivity]. cbn [rmap bind].
    destruct (removed_column_ops s removed) as [r|]; [|reflexivity]. cbn [rmap bind] in R |- *. injection R as R. f_equal. rewrite !map_app, <- R.
    f_equal. f_equal. f_equal. change (key_ops s (ntab t)) with (key_ops s t). unfold key_ops. rewrite !map_app, !map_map. f_equal. f_equal. rewrite concat_map, map_map. f_equal. apply map_ext. intros p.
    destruct (dget _ _); [|reflexivity]. destruct (key_changed _ _); reflexivity.
  Qed.
  Lemma nfks s t : map naop (removed_fk_ops s t) = removed_fk_ops s t /\ map naop (added_fk_ops s t) = added_fk_ops s t.
  Proof. unfold removed_fk_ops, added_fk_ops. rewrite !map_app, !map_map. split; reflexivity. Qed.
  Lemma split_norm s t : diff_split s (ntab t) = rmap nsplit (diff_split s t).
  Proof.
    unfold diff_split. rewrite kitchen_norm. change (removed_fk_ops s (ntab t)) with (removed_fk_ops s t). change (added_fk_ops s (ntab t)) with (added_fk_ops s t).
    destruct (kitchen_ops s t) as [k|]; [|reflexivity]. cbn [rmap bind]. unfold nsplit. cbn [sp_removed_fks sp_kitchen sp_fks]. rewrite <- !nalter_some. destruct (nfks s t) as [-> ->]. reflexivity.
  Qed.

  Lemma changing_norm from to n c : changing_column from (ntabs to) n c = changing_column from to n c.
  Proof.
    unfold changing_column, ntabs. rewrite dget_map. destruct (dget n from) as [s|]; [|reflexivity]. destruct (dget n to) as [t|]; [|reflexivity]. cbn [option_map ntab t_columns]. rewrite dget_map.
    destruct (dget c (t_columns s)); [|reflexivity]. destruct (dget c (t_columns t)); [|reflexivity]. apply ncol_differs.
  Qed.
  Lemma cycle_norm from to tn kn k : cycle_of from (ntabs to) tn kn k = cycle_of from to tn kn k.
  Proof. unfold cycle_of. rewrite !changing_norm. unfold ntabs. rewrite dget_map. destruct (dget tn to); reflexivity. Qed.
  Lemma cycled_norm from to tn s : cycled_of_table from (ntabs to) tn s = cycled_of_table from to tn s.
  Proof. unfold cycled_of_table. f_equal. apply map_ext. intros p. rewrite cycle_norm. reflexivity. Qed.
  Lemma strip_norm from to a : strip_opt from (ntabs to) (option_map nalter a) = map nop (strip_opt from to a).
  Proof.
    destruct a as [a|]; [|reflexivity]. cbn [option_map strip_opt].
    assert (E : strip_cycled from (ntabs to) (nalter a) = nalter (strip_cycled from to a)).
    { unfold strip_cycled. cbn [nalter al_table al_ops]. unfold nalter. cbn [al_table al_ops]. f_equal. generalize (al_ops a). intros l. induction l as [|o l IH]; [reflexivity|].
      assert (H : forall n, cycled_in from (ntabs to) (al_table a) n = cycled_in from to (al_table a) n).
      { intros n. unfold cycled_in. destruct (dget _ from); [|reflexivity]. unfold cycled_names. rewrite cycled_norm. reflexivity. }
      cbn [map filter]. replace (keep_op from (ntabs to) (al_table a) (naop o)) with (keep_op from to (al_table a) o) by (destruct o; cbn [naop keep_op]; rewrite ?H; reflexivity).
      destruct (keep_op _ _ _ _); cbn [map]; rewrite IH; reflexivity. }
    rewrite E. unfold alter_bool. cbn [nalter al_ops]. destruct (al_ops (strip_cycled from to a)); reflexivity.
  Qed.
  Lemma update_norm from to n : update_table from (ntabs to) n = rmap (fun p => (map nop (fst p), map nop (snd p))) (update_table from to n).
  Proof.
    unfold update_table, dgetE. unfold ntabs at 1. rewrite dget_map. destruct (dget n to) as [t|]; [|reflexivity]. cbn [option_map bind]. destruct (dget n from) as [s|]; [|reflexivity]. cbn [bind].
    rewrite split_norm. destruct (diff_split s t) as [sp|]; [|reflexivity]. cbn [rmap bind fst snd nsplit sp_removed_fks sp_kitchen sp_fks]. rewrite !strip_norm, map_app. do 3 f_equal.
    destruct (sp_kitchen sp); reflexivity.
  Qed.
  Lemma plan_norm d to from : plan_tables d (ntabs to) from = rmap (map nop) (plan_tables d to from).
  Proof.
    unfold plan_tables. set (f := match from with Some f => f | None => [] end). unfold ntabs at 1. rewrite differences_map. destruct (differences f to) as [[add remove] update].
    assert (Cr : mapM (fun n => let* t := dgetE n (ntabs to) in Ok (OCreate t)) add = rmap (map nop) (mapM (fun n => let* t := dgetE n to in Ok (OCreate t)) add)).
    { rewrite <- mapM_rmap. apply mapM_ext'. intros n. unfold dgetE, ntabs. rewrite dget_map. destruct (dget n to); reflexivity. }
    rewrite Cr. destruct (mapM (fun n => let* t := dgetE n to in Ok (OCreate t)) add) as [cr|]; [|reflexivity]. cbn [rmap bind].
    rewrite (mapM_ext' _ _ update (fun n => update_norm f to n)), mapM_rmap. destruct (mapM (update_table f to) update) as [upd|]; [|reflexivity]. cbn [rmap bind]. f_equal.
    assert (D : map nop (map OAlter (drop_fk_ops f to)) = map OAlter (drop_fk_ops f (ntabs to))).
    { rewrite map_map. unfold drop_fk_ops. rewrite !concat_map, !map_map. f_equal. apply map_ext. intros p. rewrite cycled_norm. unfold nonempty_alter. destruct (cycled_of_table f to (fst p) (snd p)); [reflexivity|].
      cbn [list_is_nil map opt_list nop]. unfold nalter. cbn [al_ops al_table map]. rewrite map_map. reflexivity. }
    assert (Ad : map nop (map OAlter (add_fk_ops f to)) = map OAlter (add_fk_ops f (ntabs to))).
    { rewrite map_map. unfold add_fk_ops. rewrite !concat_map, !map_map. f_equal. apply map_ext. intros p. rewrite cycled_norm. generalize (cycled_of_table f to (fst p) (snd p)). intros l.
      assert (N : forall l a, map naop (adds_once l a) = adds_once l a).
      { clear. induction l as [|[[x k] [[k' m]|]] l IH]; intros a; cbn [adds_once]; [reflexivity| |apply IH]. destruct (smem m a); [apply IH|]. cbn [map naop]. rewrite IH. reflexivity. }
      specialize (N l []). unfold nonempty_alter. destruct (adds_once l []) as [|o os]; [reflexivity|]. cbn [list_is_nil map opt_list nop]. unfold nalter. cbn [al_ops al_table]. rewrite N. reflexivity. }
    rewrite !map_app, D, Ad, !concat_map, !map_map. cbn [nop fst snd]. destruct d; reflexivity.
  Qed.
  Lemma plan_norm_texts d to from : rmap (map op_str) (plan_tables d (ntabs to) from) = rmap (map op_str) (plan_tables d to from).
  Proof. rewrite plan_norm. destruct (plan_tables d to from); [|reflexivity]. cbn [rmap]. rewrite map_map. f_equal. apply map_ext, nop_str. Qed.
  Lemma rows_norm to from : plan_rows (ntabs to) from = plan_rows to from.
  Proof.
    unfold plan_rows. f_equal.
    assert (T : map t_name (filter t_tracking (dvals (ntabs to))) = map t_name (filter t_tracking (dvals to))).
    { unfold dvals, ntabs. rewrite map_map. cbn [snd]. induction to as [|[n t] to IH]; [reflexivity|]. cbn [map filter snd]. change (t_tracking (ntab t)) with (t_tracking t). destruct (t_tracking t); cbn [map]; rewrite IH; reflexivity. }
    rewrite T. apply mapM_ext'. intros n. unfold dgetE, ntabs. rewrite dget_map. destruct (dget n to) as [t|]; reflexivity.
  Qed.
End Planner.

(** ** Reading *)

Lemma read_norm t t' T semi semi' : read_table t T semi -> read_table t' T semi' -> ntab t = ntab t'.
Proof.
  intros R R'. unfold ntab.
  assert (C : map (fun p => (fst p, ncol (snd p))) (t_columns t) = map (fun p => (fst p, ncol (snd p))) (t_columns t')).
  { assert (Z : forall l d, Forall2 (fun m (p : string * column) => said_column m (snd p)) l d -> (forall n c, In (n, c) d -> c_name c = n) ->
      map (fun p => (fst p, ncol (snd p))) d = map (fun m => (m_name m, mkColumn (m_kind m) (m_name m) (m_type m) (LStr (form_text (m_length m))) (m_null m) false
        (match m_default m with Some d => DStr d | None => DNone end) (Some (m_unsigned m)) (given (m_charset m)) (given (m_collate m)) (Some (m_auto m)) None [] [])) l).
    { clear. induction 1 as [|m [n c] l d S F IH]; intros N; [reflexivity|]. cbn [map fst snd] in *. rewrite IH by (intros x y I; apply N; right; exact I). f_equal.
      rewrite <- (N n c (or_introl eq_refl)). destruct S as (M & _ & P & _). unfold ncol. rewrite (plain_length c m M P), (plain_default c m M P), (me_unsigned _ _ M), (me_auto _ _ M), (me_values _ _ M), (me_name _ _ M), (me_kind _ _ M), (me_type _ _ M), (me_null _ _ M).
      destruct (plain_charset c m M P) as [-> ->]. reflexivity. }
    rewrite (Z _ _ (rd_columns _ _ _ R) (proj1 (rd_named _ _ _ R))), (Z _ _ (rd_columns _ _ _ R') (proj1 (rd_named _ _ _ R'))). reflexivity. }
  assert (I : t_indexes t = t_indexes t').
  { assert (Z : forall l d, Forall2 (fun i (p : string * index) => said_index i (snd p)) l d -> (forall n c, In (n, c) d -> ix_name c = n) ->
      d = map (fun i => (ix_name i, mkIndex (ix_rawname i) (ix_columns i) (ix_type i) [])) l).
    { clear. induction 1 as [|i [n c] l d S F IH]; intros N; [reflexivity|]. cbn [map fst snd] in *. rewrite <- IH by (intros x y I; apply N; right; exact I). f_equal.
      rewrite <- (N n c (or_introl eq_refl)). destruct S as (A & P). rewrite (alike_ix_name _ _ A). destruct A as (A1 & A2 & A3). f_equal. destruct c; cbn in *; congruence. }
    rewrite (Z _ _ (rd_keys _ _ _ R) (proj1 (proj2 (rd_named _ _ _ R)))), (Z _ _ (rd_keys _ _ _ R') (proj1 (proj2 (rd_named _ _ _ R')))). reflexivity. }
  assert (K : t_constraints t = t_constraints t').
  { assert (Z : forall l d, Forall2 (fun i (p : string * constraint) => said_fk i (snd p)) l d -> (forall n c, In (n, c) d -> k_name c = n) ->
      d = map (fun i => (k_name i, mkConstraint (k_name i) (k_column i) (k_ftable i) (k_fcolumn i) (k_on_delete i) (k_on_update i) [] [])) l).
    { clear. induction 1 as [|i [n c] l d S F IH]; intros N; [reflexivity|]. cbn [map fst snd] in *. rewrite <- IH by (intros x y I; apply N; right; exact I). f_equal.
      rewrite <- (N n c (or_introl eq_refl)). destruct S as ((A1 & A2 & A3 & A4 & A5 & A6) & P & W). destruct c; cbn in *; subst. reflexivity. }
    rewrite (Z _ _ (rd_fks _ _ _ R) (proj2 (proj2 (rd_named _ _ _ R)))), (Z _ _ (rd_fks _ _ _ R') (proj2 (proj2 (rd_named _ _ _ R')))). reflexivity. }
  rewrite C, I, K, (ts_name _ _ (rd_says _ _ _ R)), (ts_name _ _ (rd_says _ _ _ R')), (ts_options _ _ (rd_says _ _ _ R)), (ts_options _ _ (rd_says _ _ _ R')).
  destruct (rd_rest _ _ _ R) as (_ & -> & -> & _ & _). destruct (rd_rest _ _ _ R') as (_ & -> & -> & _ & _). reflexivity.
Qed.
Lemma with_new_norm t t' xs : ntab t = ntab t' -> ntab (with_new t xs) = ntab (with_new t' xs).
Proof.
  intros E. destruct xs as [|x xs]; [exact E|]. unfold with_new, with_rows, rows_of. unfold ntab in *. cbn [t_name t_columns t_indexes t_constraints t_options t_rows t_tracking].
  injection E as E1 E2 E3 E4 E5 E6 E7. rewrite E1, E2, E3, E4, E5, E6. reflexivity.
Qed.
