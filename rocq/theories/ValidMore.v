(** Lemmas about the errors of a database and their caches. *)
From Verif Require Export ValidTable.

Section Float.
  Context {FO : FloatOracle}.

  (** ** Exceptions of a table *)

  Lemma scan_children_exn tn l e : te_exn (scan_children tn l) = Some e -> exists c, In c l /\ ch_exn c = Some e.
  Proof.
    induction l as [|c l IH]; simpl; [discriminate|]. destruct (ch_exn c) as [x|] eqn:E; simpl.
    - intros [= ->]. exists c. auto.
    - intros H. destruct (IH H) as (d & ? & ?). eauto.
  Qed.
  Lemma children_exn seen t c e : In c (children seen t) -> ch_exn c = Some e ->
    exists n d, In (n, d) (t_columns t) /\ snd (column_checked d) = Some e.
  Proof.
    unfold children. rewrite !in_app_iff, !in_map_iff. intros [(x & <- & Hx)|[(x & <- & Hx)|(x & <- & Hx)]]; try discriminate.
    apply dvals_in in Hx as (n & Hx). unfold column_child. destruct (column_checked x) as [l y] eqn:E. simpl.
    destruct (seen _); [discriminate|]. intros ->. exists n, x. rewrite E. auto.
  Qed.
  Lemma find_all_exn seen t e : (forall n i, In (n, i) (t_indexes t) -> ix_columns i <> []) ->
    te_exn (find_all_errors_seen seen t) = Some e ->
    exists n d, In (n, d) (t_columns t) /\ snd (column_checked d) = Some e.
  Proof.
    intros K. unfold find_all_errors_seen. destruct (te_exn (scan_children _ _)) as [x|] eqn:E; cbn [te_exn].
    - intros [= ->]. apply scan_children_exn in E as (c & Hc & Ec). eapply children_exn; eauto.
    - rewrite run_checks_ok; [discriminate|].
      intros k [<-|[<-|[<-|[]]]]; try (eexists; reflexivity). apply auto_check_ok, K.
  Qed.

  Definition columns_checkable (t : table) : Prop := forall n c, In (n, c) (t_columns t) -> checkable c.

  Lemma find_all_checkable seen t e : columns_checkable t ->
    (forall n i, In (n, i) (t_indexes t) -> ix_columns i <> []) ->
    te_exn (find_all_errors_seen seen t) = Some e -> exists m, e = AttributeError m.
  Proof.
    intros H K E. destruct (find_all_exn seen t e K E) as (n & d & Hd & Ed). eapply checkable_exn; eauto.
  Qed.

  (** ** Asking all tables *)

  Lemma table_ask_table o : to_table (fst (table_ask o)) = to_table o.
  Proof. unfold table_ask. destruct (to_errs o); reflexivity. Qed.
  Lemma table_has_table o : to_table (fst (table_has o)) = to_table o.
  Proof. unfold table_has. pose proof (table_ask_table o). destruct (table_ask o). exact H. Qed.
  Lemma ask_tables_plain pick d : plain_tables (fst (ask_tables pick d)) = plain_tables d.
  Proof.
    induction d as [|[n o] d IH]; simpl; [reflexivity|]. pose proof (table_has_table o) as T.
    destruct (table_has o) as [o' [b|e]]; simpl in *; [|rewrite T; reflexivity].
    destruct (ask_tables pick d) as [d2 r]. simpl in *. rewrite T, IH. reflexivity.
  Qed.

  Lemma ask_tables_returns pick d :
    (forall n o, In (n, o) d -> forall e, to_errs o = None ->
       te_exn (find_all_errors_seen (fun x => smem x (to_seen o)) (to_table o)) = Some e -> exists m, e = AttributeError m) ->
    exists l, snd (ask_tables pick d) = Ok l.
  Proof.
    induction d as [|[n o] d IH]; simpl; intros H; [eauto|].
    destruct IH as (l & E); [intros; eapply H; eauto|].
    assert (X : exists b, snd (table_has o) = Ok b).
    { unfold table_has, table_ask. destruct (to_errs o) eqn:Eo; [simpl; eauto|]. simpl.
      destruct (te_exn _) as [e|] eqn:Ee; [|eauto].
      destruct (H n o (or_introl eq_refl) e Eo Ee) as (m & ->). eauto. }
    destruct X as (b & Eb). destruct (table_has o) as [o' r]. simpl in Eb. subst r.
    destruct (ask_tables pick d) as [d2 r]. simpl in *. subst r. simpl. eauto.
  Qed.

  (** The messages of a table whose own getter returns them. *)
  Lemma ask_tables_has pick d l n o : snd (ask_tables pick d) = Ok l -> In (n, o) d -> to_errs o = None -> to_seen o = [] ->
    te_exn (find_all_errors (to_table o)) = None -> incl (pick (find_all_errors (to_table o))) l.
  Proof.
    revert l; induction d as [|[m u] d IH]; simpl; intros l E H En Es Ex; [contradiction|]. destruct H as [H|H]; [inversion H; subst m u; clear H|].
    - unfold table_has, table_ask in E. rewrite En, Es in E. cbn [to_errs] in E.
      change (find_all_errors_seen (fun n0 : string => smem n0 []) (to_table o)) with (find_all_errors (to_table o)) in E.
      rewrite Ex in E. simpl in E. destruct (ask_tables pick d) as [d2 [r|e]]; simpl in E; [|discriminate].
      inversion E; subst. apply incl_appl, incl_refl.
    - destruct (table_has u) as [u' [b|e]]; [|discriminate]. destruct (ask_tables pick d) as [d2 [r|e]]; simpl in E; [|discriminate].
      inversion E; subst. apply incl_appr. eapply IH; eauto.
  Qed.

  (** Objects whose cache, if filled, holds what a fresh computation gives. *)
  Definition tidy (o : tobj) : Prop :=
    calm (to_table o) /\ (to_errs o = None \/ to_errs o = Some (find_all_errors (to_table o))).
  Definition all_tidy (d : dict string tobj) : Prop := forall n o, In (n, o) d -> tidy o.

  Lemma calm_checked t : calm t -> columns_checked t.
  Proof. intros (_ & _ & H). exact H. Qed.
  Lemma calm_kept t : calm t -> kept t.
  Proof. intros (H & _). exact H. Qed.
  Lemma calm_no_exn t : calm t -> te_exn (find_all_errors t) = None.
  Proof. intros (K & _ & H). apply (find_all_ok t H (kept_keys _ K)). Qed.
  Lemma calm_parsing t : calm t -> te_parsing (find_all_errors t) = [].
  Proof.
    intros (K & (P1 & P2 & P3) & H). destruct (find_all_ok t H (kept_keys _ K)) as (_ & _ & ->).
    apply concat_map_nil. intros c Hc. apply map_nil_iff. revert Hc. unfold children.
    rewrite !in_app_iff, !in_map_iff. intros [(x & <- & Hx)|[(x & <- & Hx)|(x & <- & Hx)]];
      apply dvals_in in Hx as (n & Hx); simpl; eauto.
    unfold column_child. destruct (column_checked x). simpl. eauto.
  Qed.

  Lemma table_has_tidy o : tidy o ->
    snd (table_has o) = Ok true /\ tidy (fst (table_has o)) /\ to_table (fst (table_has o)) = to_table o
    /\ to_errs (fst (table_has o)) = Some (find_all_errors (to_table o)).
  Proof.
    intros (C & [E|E]); unfold table_has, table_ask; rewrite E; simpl.
    - rewrite (find_all_seen _ _ (calm_checked _ C)), (calm_no_exn _ C). cbn [fst snd]. split; [reflexivity|].
      split; [split; [exact C|right; reflexivity]|]. split; reflexivity.
    - split; [reflexivity|]. split; [split; [exact C|right; exact E]|]. split; [reflexivity|exact E].
  Qed.

  Lemma ask_tables_tidy pick d : all_tidy d ->
    snd (ask_tables pick d) = Ok (concat (map (fun p => pick (find_all_errors (snd p))) (plain_tables d)))
    /\ all_tidy (fst (ask_tables pick d)).
  Proof.
    induction d as [|[n o] d IH]; simpl; intros H; [split; [reflexivity|intros ? ? []]|].
    destruct IH as [E A]; [intros m u Hu; apply (H m u); right; exact Hu|].
    destruct (table_has_tidy o (H n o (or_introl eq_refl))) as (E1 & T1 & T2 & T3).
    destruct (table_has o) as [o' r]. simpl in *. subst r.
    destruct (ask_tables pick d) as [d2 r]. simpl in *. subst r. simpl. rewrite T3. split; [reflexivity|].
    intros m u [[= <- <-]|Hu]; [exact T1|]. apply (A m u Hu).
  Qed.

  (** ** The answer without caches *)

  Definition pure_schema (ts : tables) (rows : pending) : res (list string) :=
    rmap (fun l => scan_pure ts (all_fks ts) []
                   +++ concat (map (fun p => te_schema (find_all_errors (snd p))) ts) +++ l)
      (row_schema_errors ts rows).
  Definition pure_errors (ts : tables) (rows : pending) (ge : list string) : res (list string) :=
    let* schema := pure_schema ts rows in
    let* parsing := row_parsing r_perrors rows in
    Ok (ge +++ parsing +++ schema).

  Record tidy_db (b : database) : Prop := {
    td_tables : all_tidy (d_tables b);
    td_schema : forall l, d_schema b = Some l -> pure_schema (db_tables b) (d_rows b) = Ok l;
    td_parsing : forall l, d_parsing b = Some l -> row_parsing r_perrors (d_rows b) = Ok l
  }.

  Lemma sim_plain_keys d d' : sim d d' -> map fst (plain_tables d) = map fst (plain_tables d').
  Proof.
    intros S. induction S as [|x y a b [E _] H IH]; simpl; [reflexivity|]. congruence.
  Qed.
  Lemma sim_find d d' (pick : terrs -> list string) : sim d d' ->
    concat (map (fun p => pick (find_all_errors (snd p))) (plain_tables d'))
    = concat (map (fun p => pick (find_all_errors (snd p))) (plain_tables d)).
  Proof.
    induction 1 as [|x y a b [_ (_ & _ & S)] H IH]; simpl; [reflexivity|].
    unfold find_all_errors at 1 3. rewrite (sbi_find _ _ _ S), IH. reflexivity.
  Qed.
  Lemma sim_fks d d' : sim d d' -> all_fks (plain_tables d') = all_fks (plain_tables d).
  Proof.
    unfold all_fks. induction 1 as [|[x o] [y u] a b [E (_ & _ & S)] H IH]; simpl in *; [reflexivity|]. subst y.
    destruct (sbi_fields _ _ S) as (_ & _ & _ & ->). rewrite IH. reflexivity.
  Qed.
  Definition same_cols (a b : option table) : Prop :=
    match a, b with Some t, Some t' => t_columns t = t_columns t' | None, None => True | _, _ => False end.
  Lemma sim_row_loop d d' l : sim d d' -> forall cur cur', same_cols cur cur' ->
    row_errors_loop (plain_tables d') l cur' = row_errors_loop (plain_tables d) l cur.
  Proof.
    intros S. induction l as [|[tn r] l IH]; intros cur cur' C; simpl; [reflexivity|].
    rewrite !dget_plain. pose proof (sim_get d d' tn S) as G.
    destruct (dget tn d) as [o|], (dget tn d') as [o'|]; simpl; try contradiction.
    - destruct G as (_ & _ & F). destruct (sbi_fields _ _ F) as (_ & Fc & _).
      destruct (negb _).
      + rewrite (IH (Some (to_table o)) (Some (to_table o'))) by (simpl; congruence).
        unfold unknown_columns. rewrite Fc. reflexivity.
      + rewrite (IH cur cur' C). unfold implicit_errors.
        destruct cur as [t|], cur' as [t'|]; simpl in C; try contradiction; [rewrite C|]; reflexivity.
    - rewrite (IH cur cur' C). reflexivity.
  Qed.
  Lemma sim_rows d d' rows : sim d d' -> row_schema_errors (plain_tables d') rows = row_schema_errors (plain_tables d) rows.
  Proof. intros S. destruct rows; simpl; [|reflexivity]. apply sim_row_loop; [exact S|exact I]. Qed.

  Lemma sim_pure d d' rows : sim d d' -> all_tables kept d -> all_tables kept d' ->
    pure_schema (plain_tables d') rows = pure_schema (plain_tables d) rows.
  Proof.
    intros S A A'. unfold pure_schema. rewrite (sim_rows _ _ _ S), (sim_fks _ _ S), (sim_find _ _ te_schema S).
    destruct (row_schema_errors _ _); simpl; [|reflexivity].
    rewrite (scan_pure_sim d d' _ S A A'). reflexivity.
  Qed.

  Lemma tidy_kept d : all_tidy d -> all_tables kept d.
  Proof. intros H n o Ho. apply calm_kept, (H n o Ho). Qed.
  Lemma calm_sbi t t' : calm t -> sbi t t' -> kept t' -> calm t'.
  Proof.
    intros (K & (P1 & P2 & P3) & C) S K'. destruct (sbi_fields _ _ S) as (_ & E1 & E2 & E3).
    split; [exact K'|]. unfold parts_read. rewrite E1, E2, E3. auto.
  Qed.
  Lemma tidy_sim d d' : all_tidy d -> sim d d' -> all_tables kept d' -> all_tidy d'.
  Proof.
    intros A S K n o' Ho. destruct (Forall2_in_r _ _ _ _ S Ho) as ([m o] & Hm & E & (S1 & S2 & S3)). simpl in *. subst m.
    destruct (A n o Hm) as (C & D). split.
    - eapply calm_sbi; eauto.
    - rewrite <- S2. destruct D as [D|D]; [auto|right]. rewrite D. unfold find_all_errors.
      rewrite (sbi_find _ _ _ S3). reflexivity.
  Qed.

  Lemma tidy_tables_eq d d' : plain_tables d = plain_tables d' -> all_tables kept d -> all_tables kept d'.
  Proof.
    intros E A n o Ho. assert (H : In (n, to_table o) (plain_tables d')) by (apply in_map_iff; exists (n, o); auto).
    rewrite <- E in H. apply in_map_iff in H as ((m, u) & [= <- <-] & Hu). eapply A; eauto.
  Qed.

  (** Asking a tidy database. *)
  Lemma db_errors_tidy b : tidy_db b ->
    snd (db_errors b) = pure_errors (db_tables b) (d_rows b) (d_global_errors b)
    /\ tidy_db (fst (db_errors b))
    /\ d_rows (fst (db_errors b)) = d_rows b /\ d_global_errors (fst (db_errors b)) = d_global_errors b
    /\ d_global_warnings (fst (db_errors b)) = d_global_warnings b
    /\ pure_schema (db_tables (fst (db_errors b))) (d_rows b) = pure_schema (db_tables b) (d_rows b).
  Proof.
    intros T. pose proof T as [T1 T2 T3].
    assert (S : snd (find_schema_errors b) = pure_schema (db_tables b) (d_rows b)
      /\ tidy_db (fst (find_schema_errors b))
      /\ d_rows (fst (find_schema_errors b)) = d_rows b
      /\ d_global_errors (fst (find_schema_errors b)) = d_global_errors b
      /\ d_global_warnings (fst (find_schema_errors b)) = d_global_warnings b
      /\ pure_schema (db_tables (fst (find_schema_errors b))) (d_rows b) = pure_schema (db_tables b) (d_rows b)).
    { unfold find_schema_errors. destruct (d_schema b) as [l|] eqn:Es.
      - simpl. rewrite (T2 l eq_refl). split; [reflexivity|]. split; [exact T|]. auto.
      - destruct (database_schema_ok (d_tables b) (tidy_kept _ T1)) as (E1 & K1 & S1).
        destruct (database_schema_errors (d_tables b)) as [d1 r1]. simpl in E1, K1, S1. subst r1.
        pose proof (tidy_sim _ _ T1 S1 K1) as T1'.
        destruct (ask_tables_tidy te_schema d1 T1') as [E2 A2]. pose proof (ask_tables_plain te_schema d1) as P2.
        destruct (ask_tables te_schema d1) as [d2 r2]. simpl in E2, A2, P2. subst r2.
        assert (Q : pure_schema (plain_tables d2) (d_rows b) = pure_schema (db_tables b) (d_rows b)).
        { rewrite P2. apply sim_pure; auto. apply tidy_kept, T1. }
        assert (R : pure_schema (db_tables b) (d_rows b) =
                    rmap (fun l3 => scan_pure (db_tables b) (all_fks (db_tables b)) []
                       +++ concat (map (fun p => te_schema (find_all_errors (snd p))) (plain_tables d1)) +++ l3)
                      (row_schema_errors (plain_tables d2) (d_rows b))).
        { rewrite P2. unfold pure_schema, db_tables. rewrite (sim_rows _ _ _ S1), (sim_find _ _ te_schema S1). reflexivity. }
        destruct (row_schema_errors (plain_tables d2) (d_rows b)) as [l3|e] eqn:E3; simpl in R |- *.
        + split; [symmetry; exact R|]. split; [|repeat split; exact Q].
          constructor; simpl; auto. intros l [= <-]. unfold db_tables; simpl. rewrite Q. exact R.
        + split; [symmetry; exact R|]. split; [|repeat split; exact Q].
          constructor; simpl; auto. intros l E. congruence. }
    unfold db_errors. destruct (find_schema_errors b) as [b1 r1]. simpl in S.
    destruct S as (S1 & U & S3 & S4 & S4' & S5). pose proof U as [U1 U2 U3]. subst r1.
    unfold pure_errors. destruct (pure_schema (db_tables b) (d_rows b)) as [schema|e] eqn:Ep; simpl.
    2:{ split; [reflexivity|]. split; [constructor; auto|]. auto. }
    assert (P : snd (find_parsing_errors b1) = row_parsing r_perrors (d_rows b)
      /\ tidy_db (fst (find_parsing_errors b1))
      /\ d_rows (fst (find_parsing_errors b1)) = d_rows b
      /\ d_global_errors (fst (find_parsing_errors b1)) = d_global_errors b
      /\ d_global_warnings (fst (find_parsing_errors b1)) = d_global_warnings b
      /\ db_tables (fst (find_parsing_errors b1)) = db_tables b1).
    { unfold find_parsing_errors. destruct (d_parsing b1) as [l|] eqn:E1.
      - simpl. rewrite <- S3. rewrite (U3 l eq_refl). split; [reflexivity|]. split; [exact U|]. auto.
      - destruct (ask_tables_tidy te_parsing (d_tables b1) U1) as [E2 A2]. pose proof (ask_tables_plain te_parsing (d_tables b1)) as P2.
        destruct (ask_tables te_parsing (d_tables b1)) as [d2 r2]. simpl in E2, A2, P2. subst r2.
        assert (Z : concat (map (fun p => te_parsing (find_all_errors (snd p))) (plain_tables (d_tables b1))) = []).
        { apply concat_map_nil. intros [n t] Ht. apply calm_parsing. apply in_map_iff in Ht as ((m, o) & [= <- <-] & Ho).
          apply (U1 m o Ho). }
        rewrite Z, S3. destruct (row_parsing r_perrors (d_rows b)) as [l|e] eqn:Er; simpl.
        + split; [reflexivity|]. split; [|auto]. constructor; simpl; auto.
          * intros l' E. unfold db_tables; simpl. rewrite P2. apply U2, E.
          * intros l' E. rewrite S3. congruence.
        + split; [reflexivity|]. split; [|auto]. constructor; simpl; auto.
          * intros l' E. unfold db_tables; simpl. rewrite P2. apply U2, E.
          * intros l' E. congruence. }
    destruct (find_parsing_errors b1) as [b2 r2]. simpl in P. destruct P as (P1 & P2 & P3 & P4 & P4' & P5). subst r2.
    destruct (row_parsing r_perrors (d_rows b)) as [parsing|e]; simpl.
    - rewrite P4. split; [reflexivity|]. split; [exact P2|]. repeat split; auto. rewrite P5. congruence.
    - split; [reflexivity|]. split; [exact P2|]. repeat split; auto. rewrite P5. congruence.
  Qed.

  (** Warnings only fill caches. *)
  Lemma db_warnings_tidy b : tidy_db b ->
    tidy_db (fst (db_warnings b)) /\ db_tables (fst (db_warnings b)) = db_tables b
    /\ d_rows (fst (db_warnings b)) = d_rows b /\ d_global_errors (fst (db_warnings b)) = d_global_errors b
    /\ d_global_warnings (fst (db_warnings b)) = d_global_warnings b.
  Proof.
    assert (G : forall b d, tidy_db b -> all_tidy d -> plain_tables d = db_tables b -> tidy_db (set_tables b d)).
    { intros b0 d [U1 U2 U3] A P. constructor; simpl; auto. intros l E. unfold db_tables; simpl. rewrite P. auto. }
    intros T.
    assert (S : tidy_db (fst (find_schema_warnings b)) /\ db_tables (fst (find_schema_warnings b)) = db_tables b
      /\ d_rows (fst (find_schema_warnings b)) = d_rows b /\ d_global_errors (fst (find_schema_warnings b)) = d_global_errors b
      /\ d_global_warnings (fst (find_schema_warnings b)) = d_global_warnings b).
    { unfold find_schema_warnings. destruct (d_swarn b); [split; [exact T|auto]|].
      destruct (row_schema_warnings (d_rows b)); [|split; [exact T|auto]].
      destruct (ask_tables_tidy te_swarnings (d_tables b) (td_tables _ T)) as [E2 A2].
      pose proof (ask_tables_plain te_swarnings (d_tables b)) as P2.
      destruct (ask_tables te_swarnings (d_tables b)) as [d2 r2]. simpl in E2, A2, P2. subst r2. simpl.
      specialize (G b d2 T A2 P2). split; [|split; [exact P2|auto]].
      destruct G as [U1 U2 U3]. constructor; auto. }
    unfold db_warnings. destruct (find_schema_warnings b) as [b1 r1]. simpl in S.
    destruct S as (S1 & S2 & S3 & S4 & S5). destruct r1 as [l1|e]; simpl; [|auto].
    assert (P : tidy_db (fst (find_parsing_warnings b1)) /\ db_tables (fst (find_parsing_warnings b1)) = db_tables b
      /\ d_rows (fst (find_parsing_warnings b1)) = d_rows b /\ d_global_errors (fst (find_parsing_warnings b1)) = d_global_errors b
      /\ d_global_warnings (fst (find_parsing_warnings b1)) = d_global_warnings b).
    { unfold find_parsing_warnings. destruct (d_pwarn b1); [simpl; auto|].
      destruct (ask_tables_tidy te_pwarnings (d_tables b1) (td_tables _ S1)) as [E2 A2].
      pose proof (ask_tables_plain te_pwarnings (d_tables b1)) as P2.
      destruct (ask_tables te_pwarnings (d_tables b1)) as [d2 r2]. simpl in E2, A2, P2. subst r2.
      specialize (G b1 d2 S1 A2 P2). destruct (row_parsing r_pwarnings (d_rows b1)); simpl.
      - split; [destruct G as [U1 U2 U3]; constructor; auto|]. split; [unfold db_tables in *; simpl; congruence|auto].
      - split; [exact G|]. split; [unfold db_tables in *; simpl; congruence|auto]. }
    destruct (find_parsing_warnings b1) as [b2 r2]. simpl in P. destruct r2; simpl; apply P.
  Qed.

  (** ** Mutations *)

  Lemma tidy_forget b d : tidy_db b -> all_tidy d -> tidy_db (set_tables (forget b) d).
  Proof. intros [U1 U2 U3] A. constructor; simpl; auto. discriminate. Qed.

  Lemma in_dset {V} (d : dict string V) n v m w : In (m, w) (dset n v d) -> (m = n /\ w = v) \/ In (m, w) d.
  Proof.
    induction d as [|[x u] d IH]; simpl.
    - intros [[= <- <-]|[]]. auto.
    - destruct (String.eqb_spec n x) as [->|Hn]; intros [[= <- <-]|H]; auto. destruct (IH H) as [?|?]; auto.
  Qed.
  Lemma in_dpop {V} (d : dict string V) n m w : In (m, w) (dpop n d) -> In (m, w) d.
  Proof.
    induction d as [|[x u] d IH]; simpl; [auto|]. destruct (String.eqb n x); simpl; intros H; auto. destruct H; auto.
  Qed.
  Lemma in_insert_after {V} (d : dict string V) a n v m w : In (m, w) (insert_after a n v d) -> (m = n /\ w = v) \/ In (m, w) d.
  Proof.
    induction d as [|[x u] d IH]; simpl; [auto|].
    destruct (String.eqb x a); simpl; intros [[= <- <-]|H]; auto.
    - destruct H as [[= <- <-]|H]; auto. destruct (IH H) as [?|?]; auto.
    - destruct (IH H) as [?|?]; auto.
  Qed.

  Lemma calm_columns t d o : calm t -> (forall n c, In (n, c) d -> In (n, c) (t_columns t)
      \/ (n = c_name c /\ c_perrors c = [] /\ exists l, column_errors c = Ok l)) -> calm (with_columns t d o).
  Proof.
    intros ([K1 K2 K3] & (P1 & P2 & P3) & C) H. split; [|split].
    - constructor; simpl; auto. intros n c Hc. destruct (H n c Hc) as [X|(X & _)]; [eauto|congruence].
    - repeat split; simpl; auto. intros n c Hc. destruct (H n c Hc) as [X|(_ & X & _)]; eauto.
    - simpl. intros n c Hc. destruct (H n c Hc) as [X|(_ & _ & X)]; eauto.
  Qed.
  Lemma calm_constraints t d : calm t -> (forall n k, In (n, k) d -> In (n, k) (t_constraints t) \/ k_perrors k = []) ->
    calm (with_constraints t d).
  Proof.
    intros ([K1 K2 K3] & (P1 & P2 & P3) & C) H. split; [|split].
    - constructor; simpl; auto.
    - repeat split; simpl; auto. intros n k Hk. destruct (H n k Hk) as [X|X]; eauto.
    - exact C.
  Qed.

  Lemma calm_apply t a n : calm t -> calm_event (Apply n a) -> calm (fst (apply_aop t a)).
  Proof.
    intros C E. destruct a as [c p|c|c|i|i|i|k|k|k]; simpl in *; auto.
    - unfold add_column. destruct (dmem _ _); [exact C|].
      assert (X : forall o, calm (with_columns t (dset (c_name c) c (t_columns t)) o)).
      { intros o. apply calm_columns; auto. intros m d Hd. apply in_dset in Hd as [[-> ->]|?]; [right; tauto|auto]. }
      destruct p as [| |a]; simpl.
      + apply X.
      + destruct (t_ordered t); [|apply X]. apply calm_columns; auto.
        intros m d [[= <- <-]|Hd]; [right; tauto|auto].
      + destruct (is_empty a); [apply X|]. destruct (dmem a _); [|exact C]. apply calm_columns; auto.
        intros m d Hd. apply in_insert_after in Hd as [[-> ->]|?]; [right; tauto|auto].
    - unfold change_column. destruct (dmem _ _); [|exact C]. apply calm_columns; auto.
      intros m d Hd. apply in_dset in Hd as [[-> ->]|?]; [right; tauto|auto].
    - unfold remove_column. destruct (dmem _ _); [|exact C]. apply calm_columns; auto.
      intros m d Hd. apply in_dpop in Hd. auto.
    - unfold add_constraint. destruct (dmem _ _); [exact C|]. apply calm_constraints; auto.
      intros m d Hd. apply in_dset in Hd as [[-> ->]|?]; auto.
    - unfold change_constraint. destruct (dmem _ _); [|exact C]. apply calm_constraints; auto.
      intros m d Hd. apply in_dset in Hd as [[-> ->]|?]; auto.
    - unfold remove_constraint. destruct (dmem _ _); [|exact C]. apply calm_constraints; auto.
      intros m d Hd. apply in_dpop in Hd. auto.
  Qed.

  Lemma tidy_apply o a n : tidy o -> calm_event (Apply n a) -> tidy (fst (obj_apply o a)).
  Proof.
    intros (C & D) E. unfold obj_apply. pose proof (calm_apply _ a n C E) as C'.
    destruct (apply_aop (to_table o) a) as [t e] eqn:Ea. simpl in C'. destruct (is_key_clause a) eqn:Ek; simpl.
    - assert (t = to_table o) by (destruct a; simpl in *; try discriminate; congruence). subst t.
      split; [exact C|]. exact D.
    - split; [exact C'|]. left. reflexivity.
  Qed.

  Lemma step_tidy b e : tidy_db b -> calm_event e -> tidy_db (step b e).
  Proof.
    intros T E. destruct e as [| |t|n|n a]; simpl.
    - apply db_errors_tidy, T.
    - apply db_warnings_tidy, T.
    - unfold add_table. destruct (dmem _ _); [exact T|]. simpl. apply tidy_forget; [exact T|].
      intros m o Ho. apply in_dset in Ho as [[-> ->]|Ho]; [|apply (td_tables _ T m o Ho)].
      split; [exact E|left; reflexivity].
    - unfold remove_table. destruct (dmem _ _); [|exact T]. simpl. apply tidy_forget; [exact T|].
      intros m o Ho. apply in_dpop in Ho. apply (td_tables _ T m o Ho).
    - unfold apply_operation. destruct (dget n (d_tables b)) as [o|] eqn:Eo; [|exact T].
      assert (To : tidy o) by (apply (td_tables _ T n), dget_in, Eo).
      pose proof (tidy_apply o a n To E) as To'.
      destruct (obj_apply o a) as [o' x]. simpl in *. apply tidy_forget; [exact T|].
      intros m u Hu. apply in_dset in Hu as [[-> ->]|Hu]; [exact To'|apply (td_tables _ T m u Hu)].
  Qed.

  Lemma history_tidy l : forall b, tidy_db b -> (forall e, In e l -> calm_event e) -> tidy_db (history b l).
  Proof.
    induction l as [|e l IH]; intros b T H; simpl; [exact T|].
    apply IH; [apply step_tidy; auto; apply H; left; reflexivity|]. intros x Hx. apply H. right; exact Hx.
  Qed.

  Lemma new_tidy ts rows ge gw : (forall n t, In (n, t) ts -> calm t) -> tidy_db (new_database ts rows ge gw).
  Proof.
    intros H. constructor; simpl; try discriminate. intros n o Ho. apply in_map_iff in Ho as ((m, t) & [= <- <-] & Ht).
    split; [exact (H m t Ht)|left; reflexivity].
  Qed.

  Lemma plain_new ts rows ge gw : db_tables (new_database ts rows ge gw) = ts.
  Proof.
    unfold db_tables, plain_tables. simpl. rewrite map_map. simpl. erewrite map_ext; [apply map_id|]. intros []; reflexivity.
  Qed.

  Lemma rebuilt_sim b : sim (map (fun p => (fst p, fresh (snd p))) (db_tables b)) (d_tables (rebuilt b)).
  Proof.
    unfold rebuilt. simpl. induction (db_tables b) as [|[n t] d IH]; simpl; [constructor|].
    constructor; [|exact IH]. simpl. split; [reflexivity|]. repeat split.
  Qed.
  Lemma calm_forget_indexed t : calm t -> calm (with_indexes t (t_indexes t) (t_primary t) None).
  Proof.
    intros C. apply (calm_sbi t); [exact C|reflexivity|]. destruct C as ([K1 K2 K3] & _).
    constructor; simpl; auto. discriminate.
  Qed.
  Lemma tidy_calm b n t : tidy_db b -> In (n, t) (db_tables b) -> calm t.
  Proof. intros T H. apply in_map_iff in H as ((m, o) & [= <- <-] & Ho). apply (td_tables _ T m o Ho). Qed.

  Lemma rebuilt_same b : tidy_db b -> snd (db_errors b) = snd (db_errors (rebuilt b)).
  Proof.
    intros T.
    assert (T' : tidy_db (rebuilt b)).
    { apply new_tidy. intros n t H. apply in_map_iff in H as ((m, u) & [= <- <-] & Hu). simpl.
      apply calm_forget_indexed. eapply tidy_calm; eauto. }
    rewrite (proj1 (db_errors_tidy b T)), (proj1 (db_errors_tidy _ T')). unfold pure_errors.
    assert (E : pure_schema (db_tables (rebuilt b)) (d_rows (rebuilt b)) = pure_schema (db_tables b) (d_rows b)).
    { pose proof (rebuilt_sim b) as S.
      assert (P0 : plain_tables (map (fun p => (fst p, fresh (snd p))) (db_tables b)) = db_tables b).
      { apply (plain_new (db_tables b) None [] []). }
      transitivity (pure_schema (plain_tables (map (fun p => (fst p, fresh (snd p))) (db_tables b))) (d_rows b)); [|rewrite P0; reflexivity].
      apply sim_pure; [exact S| |apply tidy_kept, (td_tables _ T')].
      intros n o Ho. apply in_map_iff in Ho as ((m, t) & [= <- <-] & Ht). simpl. apply calm_kept. apply (tidy_calm b m); assumption. }
    rewrite E. reflexivity.
  Qed.

  (** A second question gets the first answer, whatever the state. *)
  Lemma find_schema_cached b b' l : find_schema_errors b = (b', Ok l) -> d_schema b' = Some l.
  Proof.
    unfold find_schema_errors. destruct (d_schema b) eqn:E; [intros [= <- <-]; exact E|].
    destruct (database_schema_errors _) as [d1 [l1|]]; [|discriminate].
    destruct (ask_tables te_schema d1) as [d2 [l2|]]; [|discriminate].
    destruct (row_schema_errors _ _); [|discriminate]. intros [= <- <-]. reflexivity.
  Qed.
  Lemma find_parsing_cached b b' l : find_parsing_errors b = (b', Ok l) ->
    d_parsing b' = Some l /\ d_schema b' = d_schema b /\ d_global_errors b' = d_global_errors b.
  Proof.
    unfold find_parsing_errors. destruct (d_parsing b) eqn:E; [intros [= <- <-]; auto|].
    destruct (ask_tables te_parsing _) as [d1 [l1|]]; [|discriminate].
    destruct (row_parsing _ _); [|discriminate]. intros [= <- <-]. auto.
  Qed.
  Lemma db_errors_again b b' l : db_errors b = (b', Ok l) -> db_errors b' = (b', Ok l).
  Proof.
    unfold db_errors. destruct (find_schema_errors b) as [b1 [s|]] eqn:E1; [|discriminate].
    destruct (find_parsing_errors b1) as [b2 [p|]] eqn:E2; [|discriminate]. intros [= <- <-].
    apply find_schema_cached in E1. destruct (find_parsing_cached _ _ _ E2) as (P1 & P2 & P3).
    unfold find_schema_errors. rewrite P2, E1. unfold find_parsing_errors. rewrite P1. reflexivity.
  Qed.

  (** ** Which messages reach the database *)

  Lemma find_schema_parts b b' l : d_schema b = None -> find_schema_errors b = (b', Ok l) ->
    exists l1 l2 l3 d1, l = l1 +++ l2 +++ l3 /\ sim (d_tables b) d1
      /\ snd (ask_tables te_schema d1) = Ok l2 /\ row_schema_errors (db_tables b') (d_rows b) = Ok l3
      /\ plain_tables d1 = db_tables b' /\ snd (database_schema_errors (d_tables b)) = Ok l1.
  Proof.
    intros N. unfold find_schema_errors. rewrite N.
    pose proof (sim_scan (all_fks (plain_tables (d_tables b))) [] (d_tables b)) as S.
    fold (database_schema_errors (d_tables b)) in S.
    destruct (database_schema_errors (d_tables b)) as [d1 [l1|]] eqn:E1; [|discriminate]. simpl in S.
    pose proof (ask_tables_plain te_schema d1) as P2.
    destruct (ask_tables te_schema d1) as [d2 [l2|]] eqn:E2; [|discriminate].
    destruct (row_schema_errors (plain_tables d2) (d_rows b)) as [l3|] eqn:E3; [|discriminate].
    intros [= <- <-]. exists l1, l2, l3, d1. rewrite E2. repeat split; auto.
  Qed.

  Lemma table_errors_reach ts rows ge gw b' errs n t l :
    db_errors (new_database ts rows ge gw) = (b', Ok errs) -> In (n, t) ts -> table_errors t = Ok l -> incl l errs.
  Proof.
    unfold db_errors. destruct (find_schema_errors _) as [b1 [s|]] eqn:E1; [|discriminate].
    destruct (find_parsing_errors b1) as [b2 [p|]] eqn:E2; [|discriminate]. intros [= <- <-] Ht El.
    apply incl_appr, incl_appr.
    destruct (find_schema_parts (new_database ts rows ge gw) _ _ eq_refl E1) as (l1 & l2 & l3 & d1 & -> & S & E & _).
    apply incl_appr, incl_appl.
    assert (Ho : In (n, fresh t) (map (fun p => (fst p, fresh (snd p))) ts)) by (apply in_map_iff; exists (n, t); auto).
    simpl in S. destruct (Forall2_in_l _ _ _ _ S Ho) as ([m o] & Hm & E' & (S1 & S2 & S3)). simpl in E', S1, S2, S3. subst m.
    unfold table_errors in El. destruct (te_exn (find_all_errors t)) eqn:Ex; [discriminate|]. inversion El; subst.
    pose proof (sbi_find (fun _ => false) _ _ S3) as Ef. fold (find_all_errors t) (find_all_errors (to_table o)) in Ef.
    rewrite <- Ef. eapply ask_tables_has; eauto; congruence.
  Qed.

  (** ** Validation that returns *)

  Definition rows_explicit (rows : pending) : Prop :=
    exists d, rows = Some d /\ forall n l r, In (n, l) d -> In r l -> r_explicit r <> 0.

  Lemma row_loop_ok ts l : (forall p, In p l -> r_explicit (snd p) <> 0) -> forall cur, exists e, row_errors_loop ts l cur = Ok e.
  Proof.
    induction l as [|[tn r] l IH]; intros H cur; simpl; [eauto|].
    assert (H' : forall p, In p l -> r_explicit (snd p) <> 0) by (intros; apply H; right; assumption).
    destruct (dget tn ts) as [t|].
    - assert (N : r_explicit r <> 0) by (apply (H (tn, r)); left; reflexivity). apply Nat.eqb_neq in N. rewrite N. simpl.
      destruct (IH H' (Some t)) as (e & ->). simpl. eauto.
    - destruct (IH H' cur) as (e & ->). simpl. eauto.
  Qed.
  Lemma rows_explicit_ok ts rows : rows_explicit rows -> exists e, row_schema_errors ts rows = Ok e.
  Proof.
    intros (d & -> & H). simpl. apply row_loop_ok. intros [tn r] Hp. unfold flat_rows in Hp. apply in_concat in Hp as (x & Hx & Hr).
    apply in_map_iff in Hx as ((n, l) & <- & Hl). apply in_map_iff in Hr as (r' & [= <- <-] & Hr). simpl. eapply H; eauto.
  Qed.

  Lemma ask_tables_errs pick d : forall l, snd (ask_tables pick d) = Ok l -> forall n o, In (n, o) (fst (ask_tables pick d)) -> to_errs o <> None.
  Proof.
    induction d as [|[m u] d IH]; simpl; intros l; [intros _ n o []|].
    destruct (table_has u) as [u' [b|e]] eqn:Eu; [|discriminate].
    destruct (ask_tables pick d) as [d2 [r|e]]; simpl; [|discriminate]. intros _ n o [[= <- <-]|H]; [|eapply IH; simpl; eauto].
    unfold table_has, table_ask in Eu. destruct (to_errs u) eqn:E; inversion Eu; subst; simpl; congruence.
  Qed.


  Lemma db_errors_returns ts rows ge gw :
    (forall n t, In (n, t) ts -> kept t /\ columns_checkable t) -> rows_explicit rows ->
    exists l, snd (db_errors (new_database ts rows ge gw)) = Ok l.
  Proof.
    intros H R. unfold db_errors, find_schema_errors. cbn [d_schema new_database d_tables d_rows].
    set (d0 := map (fun p => (fst p, fresh (snd p))) ts).
    assert (K0 : all_tables kept d0).
    { intros n o Ho. apply in_map_iff in Ho as ((m, t) & [= <- <-] & Ht). apply (H m t Ht). }
    destruct (database_schema_ok d0 K0) as (E1 & K1 & S1).
    destruct (database_schema_errors d0) as [d1 r1]. simpl in E1, K1, S1. subst r1.
    assert (A1 : forall n o, In (n, o) d1 -> columns_checkable (to_table o)).
    { intros n o Ho. destruct (Forall2_in_r _ _ _ _ S1 Ho) as ([m u] & Hm & _ & (_ & _ & S)). simpl in S.
      apply in_map_iff in Hm as ((m', t) & [= <- <-] & Ht). simpl in S. destruct (sbi_fields _ _ S) as (_ & C & _).
      unfold columns_checkable. rewrite C. apply (H m' t Ht). }
    destruct (ask_tables_returns te_schema d1) as (l2 & E2).
    { intros n o Ho e _ Ee. eapply find_all_checkable; eauto. apply kept_keys, (K1 n o Ho). }
    pose proof (ask_tables_errs te_schema d1 l2 E2) as Q.
    destruct (ask_tables te_schema d1) as [d2 r2]. simpl in E2, Q. subst r2.
    destruct (rows_explicit_ok (plain_tables d2) rows R) as (l3 & E3). rewrite E3.
    unfold find_parsing_errors. cbn [d_parsing set_schema set_tables d_tables d_rows].
    destruct (ask_tables_returns te_parsing d2) as (l4 & E4).
    { intros n o Ho e Eo. exfalso. eapply Q; eauto. }
    destruct (ask_tables te_parsing d2) as [d3 r3]. simpl in E4. subst r3.
    destruct R as (d & -> & _). simpl. eauto.
  Qed.
End Float.
