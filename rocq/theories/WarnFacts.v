(** The lemmas behind C96: the warnings of a database nobody asked before. *)
From Verif Require Export SpecWarn CheckFacts StrFacts.

Section Warn.
  Context {FO : FloatOracle}.

  Lemma scan_warn tn pre post : Forall (fun c => ch_exn c = None) pre ->
    (post = [] \/ exists x r e, post = x :: r /\ ch_exn x = Some e) ->
    te_swarnings (scan_children tn (pre +++ post)) = map (in_table tn) (concat (map ch_swarn pre))
    /\ te_pwarnings (scan_children tn (pre +++ post)) = map (in_table tn) (concat (map ch_pwarn pre)).
  Proof.
    intros F P. induction F as [|c pre Ec F IH]; cbn [List.app map concat scan_children].
    - destruct P as [->|(x & r & e & -> & Ex)]; cbn [scan_children]; [auto|]. rewrite Ex. auto.
    - rewrite Ec. cbn [te_swarnings te_pwarnings]. destruct IH as [-> ->]. rewrite !map_app. auto.
  Qed.
  Lemma find_warn t : te_swarnings (find_all_errors t) = te_swarnings (scan_children (t_name t) (children (fun _ => false) t))
    /\ te_pwarnings (find_all_errors t) = te_pwarnings (scan_children (t_name t) (children (fun _ => false) t)).
  Proof.
    unfold find_all_errors, find_all_errors_seen. destruct (te_exn (scan_children _ _)); [split; reflexivity|].
    destruct (run_checks _) as [tl e]. split; reflexivity.
  Qed.

  Lemma prim_iff t c : In c (primary_column_names t) <-> exists n i, In (n, i) (t_indexes t) /\ ix_type i = IPrimary /\ In c (ix_columns i).
  Proof.
    unfold primary_column_names, primaries. rewrite in_concat. split.
    - intros (l & Hl & I). apply in_map_iff in Hl as (i & <- & Hi). apply filter_In in Hi as [Hi P]. apply dvals_in in Hi as (n & Hi).
      exists n, i. split; [exact Hi|]. split; [|exact I]. unfold is_primary in P. destruct (ix_type i); try discriminate; reflexivity.
    - intros (n & i & Hi & P & I). exists (ix_columns i). split; [|exact I]. apply in_map. apply filter_In. split; [eapply in_dvals; eauto|].
      unfold is_primary. rewrite P. reflexivity.
  Qed.
  Lemma warn_text t c m : In m (col_warnings c) -> in_table (t_name t) m = lacks_default_text t c.
  Proof.
    unfold col_warnings. destruct (c_default c); try contradiction. destruct (_ && _); [|contradiction]. intros [<-|[]].
    unfold in_table, lacks_default_text. simpl. rewrite !sapp_assoc. reflexivity.
  Qed.
  Lemma child_swarn t c :
    map (in_table (t_name t)) (ch_swarn (column_child (fun _ => false) (primary_column_names t) c)) = [lacks_default_text t c] /\ lacks_default t c
    \/ ch_swarn (column_child (fun _ => false) (primary_column_names t) c) = [] /\ ~ lacks_default t c.
  Proof.
    unfold column_child. destruct (column_checked c) as [l e]. cbn [ch_swarn].
    destruct (smem (c_name c) (primary_column_names t)) eqn:M.
    - right. split; [reflexivity|]. intros (_ & _ & _ & H). apply smem_iff, prim_iff in M as (n & i & Hi & P & I). exact (H n i Hi P I).
    - assert (NP : forall n i, In (n, i) (t_indexes t) -> ix_type i = IPrimary -> ~ In (c_name c) (ix_columns i)).
      { intros n i Hi P I. assert (X : smem (c_name c) (primary_column_names t) = true) by (apply smem_iff, prim_iff; eauto). congruence. }
      unfold lacks_default. unfold col_warnings at 1 2.
      destruct (c_default c) eqn:D; [|right; split; [reflexivity|intros (_ & [=] & _)]..].
      destruct (c_null c) eqn:N; cbn [negb andb]; [right; split; [reflexivity|intros ([=] & _)]|].
      destruct (c_autoinc c) as [[|]|] eqn:A; cbn [tru_ob negb];
        [right; split; [reflexivity|intros (_ & _ & X & _); congruence]| |].
      all: left; split; [|repeat split; auto; discriminate].
      all: cbn [map]; f_equal; apply warn_text; unfold col_warnings; rewrite D, N, A; left; reflexivity.
  Qed.
  Lemma chosen_children t cols :
    chosen (lacks_default t) (lacks_default_text t) cols
      (map (in_table (t_name t)) (concat (map ch_swarn (map (column_child (fun _ => false) (primary_column_names t)) cols)))).
  Proof.
    induction cols as [|c cols IH]; cbn [map concat]; [constructor|]. rewrite map_app.
    destruct (child_swarn t c) as [[-> H]|[-> H]]; cbn [map List.app]; constructor; assumption.
  Qed.
  Lemma noted_children t cols : concat (map ch_pwarn (map (column_child (fun _ => false) (primary_column_names t)) cols)) = concat (map c_pwarnings cols).
  Proof. rewrite map_map. f_equal. apply map_ext. intros c. unfold column_child. destruct (column_checked c). reflexivity. Qed.

  (** A table whose validation does not raise. *)
  Lemma table_warn t : ~ stops t -> warned t (te_swarnings (find_all_errors t)) /\ noted t (te_pwarnings (find_all_errors t)).
  Proof.
    intros NS. destruct (find_warn t) as [-> ->].
    assert (S : (forall c, In c (dvals (t_columns t)) -> checkable c /\ c_kind c <> KDate)
                \/ exists before d after, dvals (t_columns t) = before +++ d :: after /\ c_kind d = KDate /\ checkable d
                     /\ Forall (fun c => checkable c /\ c_kind c <> KDate) before).
    { assert (G : forall l before, dvals (t_columns t) = before +++ l -> Forall (fun c => checkable c /\ c_kind c <> KDate) before ->
        (forall c, In c l -> checkable c /\ c_kind c <> KDate)
        \/ exists b d after, dvals (t_columns t) = b +++ d :: after /\ c_kind d = KDate /\ checkable d /\ Forall (fun c => checkable c /\ c_kind c <> KDate) b).
      { induction l as [|c l IH]; intros before E F; [left; intros ? []|].
        destruct (checkable_dec c) as [C|C]; [|exfalso; apply NS; exists before, c, l; auto].
        assert (Kd : c_kind c = KDate \/ c_kind c <> KDate) by (destruct (c_kind c); (left; reflexivity) || (right; discriminate)).
        destruct Kd as [Kd|Kd]; [right; exists before, c, l; auto|].
        destruct (IH (before +++ [c])) as [H|H]; [rewrite <- app_assoc; exact E|apply Forall_app; split; [exact F|constructor; auto]| |right; exact H].
        left. intros x [<-|I]; auto. }
      apply (G _ []); [reflexivity|constructor]. }
    unfold children. destruct S as [A|(before & d & after & E & Kd & Cd & F)].
    - assert (D : dateless t) by (intros n c I; apply A; eapply in_dvals; eauto).
      destruct (scan_warn (t_name t) (map (column_child (fun _ => false) (primary_column_names t)) (dvals (t_columns t))
                  +++ map index_child (dvals (t_indexes t)) +++ map constraint_child (dvals (t_constraints t))) []) as [E1 E2].
      { rewrite !Forall_app. repeat split; rewrite Forall_map, Forall_forall; [|reflexivity|reflexivity].
        intros c I. rewrite child_exn. destruct (proj2 (answers_iff c) (A c I)) as (l & ->). reflexivity. }
      { left. reflexivity. }
      rewrite app_nil_r in E1, E2. rewrite E1, E2.
      assert (Z : concat (map ch_swarn (map index_child (dvals (t_indexes t)) +++ map constraint_child (dvals (t_constraints t)))) = []).
      { rewrite map_app, !map_map, concat_app. clear. induction (dvals (t_indexes t)) as [|i l IH]; [|exact IH].
        cbn [map concat List.app]. induction (dvals (t_constraints t)) as [|k l IH]; [reflexivity|exact IH]. }
      split.
      + left. split; [exact D|]. rewrite map_app, concat_app, Z, app_nil_r. apply chosen_children.
      + left. split; [exact D|]. f_equal. rewrite !map_app, !concat_app, noted_children. f_equal. rewrite !map_map.
        clear. induction (dvals (t_indexes t)); [reflexivity|exact IHl].
    - rewrite E, map_app, <- app_assoc. cbn [map List.app].
      destruct (scan_warn (t_name t) (map (column_child (fun _ => false) (primary_column_names t)) before)
                  (column_child (fun _ => false) (primary_column_names t) d :: map (column_child (fun _ => false) (primary_column_names t)) after
                     +++ map index_child (dvals (t_indexes t)) +++ map constraint_child (dvals (t_constraints t)))) as [E1 E2].
      { rewrite Forall_map. eapply Forall_impl; [|exact F]. intros c H. rewrite child_exn. destruct (proj2 (answers_iff c) H) as (l & ->). reflexivity. }
      { right. eexists _, _. destruct (date_raises d Kd) as (e & Ee). exists e. split; [reflexivity|]. rewrite child_exn, Ee. reflexivity. }
      rewrite E1, E2. assert (Cu : cut_at t before d).
      { split; [eapply Forall_impl; [|exact F]; intros c H; apply H|]. split; [exact Kd|]. exists after. exact E. }
      split; right; exists before, d; split; [exact Cu|apply chosen_children|exact Cu|]. rewrite noted_children. reflexivity.
  Qed.

  (** ** The database *)
  Lemma asked_again pick d : untouched d ->
    fst (ask_tables pick (map (fun p : string * tobj => (fst p, asked (snd p))) d)) = map (fun p : string * tobj => (fst p, asked (snd p))) d.
  Proof.
    induction d as [|[n o] d IH]; intros U1; [reflexivity|]. assert (U' : untouched d) by (intros m u I; apply (U1 m u); right; exact I). specialize (IH U').
    destruct (U1 n o (or_introl eq_refl)) as [En Es]. cbn [map fst snd ask_tables]. unfold asked at 1, table_has at 1, table_ask at 1 2. rewrite En, Es. cbn [fst snd to_errs].
    destruct (ask_tables pick (map (fun p => (fst p, asked (snd p))) d)) as [d2 r]. cbn [fst] in *. subst d2. f_equal. unfold asked, table_ask. rewrite En, Es. reflexivity.
  Qed.
  Lemma warnings_new ts D ge gw b l : (forall n t, In (n, t) ts -> kept t) ->
    db_errors (new_database ts (Some D) ge gw) = (b, Ok l) ->
    snd (db_warnings b) = Ok (gw +++ (concat (map (fun t => te_pwarnings (find_all_errors t)) (dvals ts)) +++ concat (map (fun p => r_pwarnings (snd p)) (flat_rows D)))
                                +++ concat (map (fun t => te_swarnings (find_all_errors t)) (dvals ts))).
  Proof.
    intros K. unfold db_errors, find_schema_errors. cbn [d_schema new_database d_tables d_rows].
    set (d0 := map (fun p => (fst p, fresh (snd p))) ts).
    assert (P0 : plain_tables d0 = ts) by apply (plain_new ts None [] []).
    assert (K0 : all_tables kept d0).
    { intros n o Ho. apply in_map_iff in Ho as ((m, t) & [= <- <-] & Ht). apply (K m t Ht). }
    destruct (database_schema_ok d0 K0) as (E1 & K1 & S1). rewrite P0 in E1.
    destruct (database_schema_errors d0) as [d1 r1]. cbn [fst snd] in E1, K1, S1. subst r1.
    assert (U1 : untouched d1).
    { intros n o Ho. destruct (Forall2_in_r _ _ _ _ S1 Ho) as ([m u] & Hm & _ & (A & B & _)). cbn [snd] in A, B.
      apply in_map_iff in Hm as ((m', t) & [= <- <-] & Ht). cbn [to_errs to_seen fresh] in A, B. auto. }
    assert (F1 : forall pick : terrs -> list string,
      map (fun p : string * tobj => pick (find_all_errors (to_table (snd p)))) d1 = map (fun t => pick (find_all_errors t)) (dvals ts)).
    { intros pick. clear -S1. unfold d0 in S1. clearbody d0. remember (map (fun p : string * table => (fst p, fresh (snd p))) ts) as d eqn:Ed. revert ts Ed.
      induction S1 as [|p q d d1 [_ (_ & _ & Sb)] S1 IH]; intros [|[n t] ts] Ed; try discriminate; [reflexivity|].
      injection Ed as -> Ed. cbn [map dvals snd]. f_equal; [|apply IH, Ed]. cbn [snd to_table fresh] in Sb.
      pose proof (sbi_find (fun _ => false) _ _ Sb) as Ef. fold (find_all_errors t) (find_all_errors (to_table (snd q))) in Ef. congruence. }
    pose proof (asked_all te_schema d1) as A2.
    destruct (ask_tables te_schema d1) as [d2 [l2|e]]; cbn [fst snd] in *; [|discriminate].
    rewrite (A2 _ U1 eq_refl).
    destruct (row_schema_errors _ (Some D)) as [l3|e]; [|discriminate].
    unfold find_parsing_errors. cbn [d_parsing set_schema set_tables d_tables d_rows new_database].
    pose proof (ask_again te_parsing d1 U1) as A4. pose proof (asked_again te_parsing d1 U1) as Ag.
    destruct (ask_tables te_parsing _) as [d3 r3]. cbn [fst snd] in A4, Ag. subst r3 d3.
    cbn [row_parsing snd d_global_errors set_parsing set_tables set_schema d_rows new_database].
    intros [= <- _]. unfold db_warnings, find_schema_warnings. cbn [d_swarn set_parsing set_tables set_schema new_database d_rows row_schema_warnings d_tables].
    pose proof (ask_again te_swarnings d1 U1) as A5. pose proof (asked_again te_swarnings d1 U1) as Ag5. destruct (ask_tables te_swarnings _) as [d5 r5]. cbn [fst snd] in A5, Ag5. subst r5 d5.
    unfold find_parsing_warnings. cbn [d_pwarn set_swarn set_parsing set_tables set_schema new_database d_rows d_tables].
    pose proof (ask_again te_pwarnings d1 U1) as A6. destruct (ask_tables te_pwarnings _) as [d6 r6]. cbn [snd] in A6. subst r6.
    cbn [row_parsing snd d_global_warnings set_pwarn set_tables set_swarn set_parsing set_schema new_database].
    rewrite !F1. reflexivity.
  Qed.

  Lemma flat_pick {A} (f : rows_def -> list A) D :
    concat (map (fun p => f (snd p)) (flat_rows D)) = concat (map (fun p => concat (map f (snd p))) D).
  Proof.
    unfold flat_rows. induction D as [|[n ws] D IH]; cbn [map concat fst snd]; [reflexivity|]. rewrite map_app, concat_app, IH. f_equal.
    rewrite map_map. reflexivity.
  Qed.
  Lemma Forall2_map_r {A B} (P : A -> B -> Prop) f l : (forall a, In a l -> P a (f a)) -> Forall2 P l (map f l).
  Proof. induction l as [|a l IH]; intros H; constructor; [apply H; left; reflexivity|apply IH; intros x I; apply H; right; exact I]. Qed.
  Lemma warnings_exact ts D ge gw b l : (forall n t, In (n, t) ts -> kept t) -> (forall n ws r, In (n, ws) D -> In r ws -> listed r) ->
    db_errors (new_database ts (Some D) ge gw) = (b, Ok l) ->
    exists ws, snd (db_warnings b) = Ok ws /\ all_warnings ts D gw ws.
  Proof.
    intros K L E. rewrite (warnings_new ts D ge gw b l K E). eexists. split; [reflexivity|].
    assert (NS : forall n t, In (n, t) ts -> ~ stops t).
    { intros n t I S. destruct (proj2 (proj1 (answers_new ts D ge gw K L))) as (e & Ee); [exists n, t; auto|]. rewrite E in Ee. discriminate. }
    assert (T : forall t, In t (dvals ts) -> warned t (te_swarnings (find_all_errors t)) /\ noted t (te_pwarnings (find_all_errors t))).
    { intros t I. apply dvals_in in I as (n & I). apply table_warn, (NS n t I). }
    eexists _, _. split; [|split]; [| |rewrite flat_pick, <- !app_assoc; reflexivity].
    - apply Forall2_map_r. intros t I. apply T, I.
    - apply Forall2_map_r. intros t I. apply T, I.
  Qed.

  (** ** Files *)
  Lemma errors_gw b : d_global_warnings (fst (db_errors b)) = d_global_warnings b.
  Proof.
    assert (H1 : d_global_warnings (fst (find_schema_errors b)) = d_global_warnings b).
    { unfold find_schema_errors. destruct (d_schema b); [reflexivity|]. destruct (database_schema_errors _) as [d1 [l1|e]]; [|reflexivity].
      destruct (ask_tables _ _) as [d2 [l2|e]]; [|reflexivity]. destruct (row_schema_errors _ _); reflexivity. }
    assert (H2 : forall x, d_global_warnings (fst (find_parsing_errors x)) = d_global_warnings x).
    { intros x. unfold find_parsing_errors. destruct (d_parsing x); [reflexivity|].
      destruct (ask_tables _ _) as [d2 [l2|e]]; [|reflexivity]. destruct (row_parsing _ _); reflexivity. }
    unfold db_errors. destruct (find_schema_errors b) as [b1 [s|e]]; cbn [fst] in *; [|exact H1].
    specialize (H2 b1). destruct (find_parsing_errors b1) as [b2 [q|e]]; cbn [fst] in *; congruence.
  Qed.
  Lemma put_gw b t b' : put_file_table b t = Ok b' -> d_global_warnings b' = d_global_warnings b.
  Proof.
    unfold put_file_table. intros E. apply bind_ok in E as (b1 & E1 & [= <-]). cbn [set_tables d_global_warnings].
    destruct (dmem _ _); [|injection E1 as <-; reflexivity]. pose proof (errors_gw b) as H. destruct (db_errors b) as [b2 [r|e]]; [|discriminate].
    injection E1 as <-. exact H.
  Qed.
  Lemma push_gw ws : forall u, d_global_warnings (fold_left push_rows ws u) = d_global_warnings u.
  Proof. induction ws as [|w ws IH]; intros u; [reflexivity|]. cbn [fold_left]. rewrite IH. reflexivity. Qed.
  Lemma put_all_gw l x y : foldM put_file_table l x = Ok y -> d_global_warnings x = [] -> d_global_warnings y = [].
  Proof.
    intros F I. exact (foldM_inv (fun x => d_global_warnings x = []) put_file_table l x y (fun u t v _ J G => eq_trans (put_gw u t v G) J) I F).
  Qed.
  Lemma source_gw x a y : read_source x a = Ok y -> d_global_warnings x = [] -> d_global_warnings y = [].
  Proof.
    unfold read_source. generalize (read_sql (fst a) (snd a)). intros [r e]. destruct (caught e); [discriminate|]. intros F I.
    apply bind_ok in F as (x1 & F1 & F2). apply put_all_gw in F1; [|exact I]. injection F2 as F2. rewrite <- F2, push_gw. exact F1.
  Qed.
  Lemma combine_gw x p y : combine_one x p = Ok y -> d_global_warnings x = [] -> d_global_warnings y = [].
  Proof.
    destruct p as [n ws]. unfold combine_one. intros F I. destruct (dget n (d_tables x)) as [o|].
    - apply bind_ok in F as (o' & _ & F). injection F as <-. exact I.
    - destruct ws; [|discriminate]. injection F as <-. exact I.
  Qed.
  Lemma file_gw srcs b : file_database srcs = Ok b -> d_global_warnings b = [].
  Proof.
    unfold file_database. intros E. apply bind_ok in E as (b1 & E1 & E2).
    assert (G1 : d_global_warnings b1 = []).
    { exact (foldM_inv (fun x => d_global_warnings x = []) read_source srcs empty_database b1 (fun x a y _ I F => source_gw x a y F I) eq_refl E1). }
    unfold Reader.combine in E2.
    exact (foldM_inv (fun x => d_global_warnings x = []) combine_one _ b1 b (fun x a y _ I F => combine_gw x a y F I) G1 E2).
  Qed.
End Warn.
