(** What validation answers for a database nobody asked before: the lemmas behind the exact forms of
    C37 and the status of check (C94). *)
From Verif Require Export FileFacts Cli.

Section Check.
  Context {FO : FloatOracle}.

  (** What is heard of a table. *)
  Definition heard (t : table) : res (list string) :=
    match te_exn (find_all_errors t) with
    | None => Ok (te_schema (find_all_errors t))
    | Some (AttributeError _) => Ok []
    | Some e => Raise e
    end.
  Lemma ask_value d : untouched d -> snd (ask_tables te_schema d) = rmap (@concat _) (mapM (fun p => heard (to_table (snd p))) d).
  Proof.
    induction d as [|[n o] d IH]; intros U; cbn [ask_tables mapM]; [reflexivity|].
    assert (U' : untouched d) by (intros m u I; apply (U m u); right; exact I). specialize (IH U').
    destruct (U n o (or_introl eq_refl)) as [En Es]. cbn [snd]. unfold heard at 1.
    unfold table_has, table_ask. rewrite En, Es.
    change (find_all_errors_seen (fun n0 : string => smem n0 []) (to_table o)) with (find_all_errors (to_table o)).
    destruct (te_exn (find_all_errors (to_table o))) as [e|].
    - destruct e; cbn [snd bind]; try reflexivity. cbn [to_errs]. destruct (ask_tables te_schema d) as [d2 r]. cbn [snd] in *. subst r.
      destruct (mapM _ d); reflexivity.
    - cbn [to_errs bind]. destruct (ask_tables te_schema d) as [d2 r]. cbn [snd] in *. subst r. destruct (mapM _ d); reflexivity.
  Qed.

  Lemma row_listed ts l : (forall n r, In (n, r) l -> listed r) -> forall cur, exists r, row_errors_loop ts l cur = Ok r.
  Proof.
    induction l as [|[n r] l IH]; intros L cur; cbn [row_errors_loop]; [eauto|].
    assert (L' : forall n r, In (n, r) l -> listed r) by (intros m w I; apply (L m w); right; exact I). specialize (IH L').
    destruct (dget n ts) as [t|].
    - destruct (Nat.eqb_spec (r_explicit r) 0) as [E|E]; cbn [negb].
      + destruct (L n r (or_introl eq_refl)) as [X|[X _]]; [contradiction|]. unfold implicit_errors. rewrite X.
        destruct (IH cur) as (x & Ex). rewrite Ex. destruct cur; cbn; eauto.
      + destruct (IH (Some t)) as (x & Ex). rewrite Ex. cbn. eauto.
    - destruct (IH cur) as (x & Ex). rewrite Ex. cbn. eauto.
  Qed.

  Lemma not_checkable_attr c m : ~ checkable c -> column_errors c <> Raise (AttributeError m).
  Proof.
    intros N E. apply N. destruct (proj1 (attr_iff c) (ex_intro _ m E)) as [K A]. unfold checkable. rewrite K. exact A.
  Qed.
  Lemma heard_iff t : (forall n i, In (n, i) (t_indexes t) -> ix_columns i <> []) -> ((exists e, heard t = Raise e) <-> stops t).
  Proof.
    intros K. assert (X := fun e => stops_iff t e K). unfold heard. split.
    - intros (e & H). destruct (te_exn (find_all_errors t)) as [x|] eqn:Ex; [|discriminate].
      destruct (proj1 (X x) eq_refl) as (before & d & after & E & Ed & F). exists before, d, after. split; [exact E|]. split.
      + intros C. destruct (c_kind d) eqn:Kd.
        all: try (assert (Y : exists l, column_errors d = Ok l) by (apply answers_iff; split; [exact C|congruence]); destruct Y; congruence).
        assert (A : c_autoinc d <> Some true) by (unfold checkable in C; rewrite Kd in C; exact C).
        destruct (proj2 (attr_iff d) (conj Kd A)) as (m & Y). rewrite Ed in Y. injection Y as ->. discriminate.
      + eapply Forall_impl; [|exact F]. intros c. apply answers_iff.
    - intros (before & d & after & E & N & F). destruct (column_errors d) as [l|e] eqn:Ed.
      { exfalso. apply N. apply (answers_iff d). eauto. }
      assert (Y : te_exn (find_all_errors t) = Some e).
      { apply X. exists before, d, after. split; [exact E|]. split; [exact Ed|]. eapply Forall_impl; [|exact F]. intros c H. apply answers_iff, H. }
      rewrite Y. destruct e; eauto. exfalso. exact (not_checkable_attr d _ N Ed).
  Qed.

  Lemma mapM_raises {A B} (f : A -> res B) l : (exists e, mapM f l = Raise e) <-> exists a e, In a l /\ f a = Raise e.
  Proof.
    induction l as [|a l IH]; cbn [mapM]; [split; [intros (e & [=])|intros (a & e & [] & _)]|].
    destruct (f a) as [b|e] eqn:Ea; cbn [bind].
    - split.
      + intros (e & E). destruct (mapM f l) as [r|e'] eqn:Em; [discriminate|]. destruct (proj1 IH (ex_intro _ e' eq_refl)) as (x & y & I & Y). exists x, y. split; [right; exact I|exact Y].
      + intros (x & y & [->|I] & Y); [congruence|]. destruct (proj2 IH (ex_intro _ x (ex_intro _ y (conj I Y)))) as (e' & E'). rewrite E'. cbn. eauto.
    - split; [|eauto]. intros _. exists a, e. split; [left; reflexivity|exact Ea].
  Qed.

  (** The answers of [errors] and, after it, of [warnings]. *)
  Lemma answers_new ts D ge gw : (forall n t, In (n, t) ts -> kept t) -> (forall n ws r, In (n, ws) D -> In r ws -> listed r) ->
    ((exists e, snd (db_errors (new_database ts (Some D) ge gw)) = Raise e) <-> exists n t, In (n, t) ts /\ stops t)
    /\ forall b l, db_errors (new_database ts (Some D) ge gw) = (b, Ok l) -> exists ws, snd (db_warnings b) = Ok ws.
  Proof.
    intros K L. unfold db_errors, find_schema_errors. cbn [d_schema new_database d_tables d_rows].
    set (d0 := map (fun p => (fst p, fresh (snd p))) ts).
    assert (P0 : plain_tables d0 = ts) by apply (plain_new ts None [] []).
    assert (K0 : all_tables kept d0).
    { intros n o Ho. apply in_map_iff in Ho as ((m, t) & [= <- <-] & Ht). apply (K m t Ht). }
    destruct (database_schema_ok d0 K0) as (E1 & K1 & S1). rewrite P0 in E1.
    destruct (database_schema_errors d0) as [d1 r1]. cbn [fst snd] in E1, K1, S1. subst r1.
    assert (U1 : untouched d1).
    { intros n o Ho. destruct (Forall2_in_r _ _ _ _ S1 Ho) as ([m u] & Hm & _ & (A & B & _)). cbn [snd] in A, B.
      apply in_map_iff in Hm as ((m', t) & [= <- <-] & Ht). cbn [to_errs to_seen fresh] in A, B. auto. }
    assert (H1 : (exists p e, In p d1 /\ heard (to_table (snd p)) = Raise e) <-> exists n t, In (n, t) ts /\ stops t).
    { split.
      - intros ([n o] & e & Ho & H). destruct (Forall2_in_r _ _ _ _ S1 Ho) as ([m u] & Hm & _ & (_ & _ & Sb)). cbn [snd] in *.
        apply in_map_iff in Hm as ((m', t) & [= <- <-] & Ht). cbn [to_table fresh] in Sb. exists m', t. split; [exact Ht|].
        apply heard_iff; [apply (kept_keys _ (K m' t Ht))|]. exists e. pose proof (sbi_find (fun _ => false) _ _ Sb) as Ef. fold (find_all_errors t) (find_all_errors (to_table o)) in Ef.
        unfold heard in *. rewrite Ef in *. exact H || (rewrite <- Ef in *; exact H).
      - intros (n & t & Ht & H). apply heard_iff in H as (e & H); [|apply (kept_keys _ (K n t Ht))].
        assert (I : In (n, fresh t) d0) by (apply in_map_iff; exists (n, t); auto).
        destruct (Forall2_in_l _ _ _ _ S1 I) as ([m u] & Hm & _ & (_ & _ & Sb)). cbn [snd to_table fresh] in Sb.
        exists (m, u), e. split; [exact Hm|]. cbn [snd]. pose proof (sbi_find (fun _ => false) _ _ Sb) as Ef. fold (find_all_errors t) (find_all_errors (to_table u)) in Ef.
        unfold heard in *. rewrite Ef in H || rewrite <- Ef in H. exact H. }
    rewrite <- H1, <- (mapM_raises (fun p : string * tobj => heard (to_table (snd p))) d1).
    pose proof (ask_value d1 U1) as A1. pose proof (asked_all te_schema d1) as A2. pose proof (ask_tables_plain te_schema d1) as A3.
    destruct (ask_tables te_schema d1) as [d2 r2]. cbn [fst snd] in *.
    destruct (mapM (fun p : string * tobj => heard (to_table (snd p))) d1) as [ll|e]; cbn [rmap] in A1; subst r2.
    2:{ split; [|intros b l [=]]. split; [eauto|]. intros _. exists e. reflexivity. }
    rewrite (A2 _ U1 eq_refl) in *. 
    destruct (row_listed (plain_tables (map (fun p : string * tobj => (fst p, asked (snd p))) d1)) (flat_rows D)) with (cur := @None table) as (l3 & El).
    { intros n r I. apply in_flat in I as (ws & I & J). apply (L n ws r I J). }
    cbn [row_schema_errors]. rewrite El.
    unfold find_parsing_errors. cbn [d_parsing set_schema set_tables d_tables d_rows new_database].
    pose proof (ask_again te_parsing d1 U1) as A4.
    assert (Again : forall pick, fst (ask_tables pick (map (fun p : string * tobj => (fst p, asked (snd p))) d1)) = map (fun p : string * tobj => (fst p, asked (snd p))) d1).
    { intros pick. clear -U1. induction d1 as [|[n o] d IH]; [reflexivity|]. assert (U' : untouched d) by (intros m u I; apply (U1 m u); right; exact I). specialize (IH U').
      destruct (U1 n o (or_introl eq_refl)) as [En Es]. cbn [map fst snd ask_tables]. unfold asked at 1, table_has at 1, table_ask at 1 2. rewrite En, Es. cbn [fst snd to_errs].
      destruct (ask_tables pick (map (fun p => (fst p, asked (snd p))) d)) as [d2 r]. cbn [fst] in *. subst d2. f_equal. unfold asked, table_ask. rewrite En, Es. reflexivity. }
    specialize (Again te_parsing) as Ag. destruct (ask_tables te_parsing _) as [d3 r3]. cbn [fst snd] in A4, Ag. subst r3 d3.
    cbn [row_parsing snd d_global_errors set_parsing set_tables set_schema d_rows new_database]. split.
    - split; [intros (e & [=])|intros (e & [=])].
    - intros b l [= <- _]. unfold db_warnings, find_schema_warnings. cbn [d_swarn set_parsing set_tables set_schema new_database d_rows row_schema_warnings d_tables].
      pose proof (ask_again te_swarnings d1 U1) as A5. specialize (Again te_swarnings) as Ag5. destruct (ask_tables te_swarnings _) as [d5 r5]. cbn [fst snd] in A5, Ag5. subst r5 d5.
      unfold find_parsing_warnings. cbn [d_pwarn set_swarn set_parsing set_tables set_schema new_database d_rows d_tables].
      pose proof (ask_again te_pwarnings d1 U1) as A6. destruct (ask_tables te_pwarnings _) as [d6 r6]. cbn [snd] in A6. subst r6.
      cbn [row_parsing]. cbn [snd]. eexists. reflexivity.
  Qed.
  Lemma answers_of b D : unasked b -> d_rows b = Some D ->
    (forall n t, In (n, t) (db_tables b) -> kept t) -> (forall n ws r, In (n, ws) D -> In r ws -> listed r) ->
    ((exists e, snd (db_errors b) = Raise e) <-> exists n t, In (n, t) (db_tables b) /\ stops t)
    /\ forall c l, db_errors b = (c, Ok l) -> exists ws, snd (db_warnings c) = Ok ws.
  Proof.
    intros U E. pose proof (unasked_new b U) as EB. rewrite E in EB. symmetry in EB. generalize (answers_new (db_tables b) D (d_global_errors b) (d_global_warnings b)).
    generalize (db_tables b) (d_global_errors b) (d_global_warnings b) EB. intros ts ge gw <-. auto.
  Qed.

  (** What is heard of a table, if nothing escapes. *)
  Lemma heard_dated t l : (forall n i, In (n, i) (t_indexes t) -> ix_columns i <> []) -> heard t = Ok l ->
    ((exists cn c, In (cn, c) (t_columns t) /\ c_kind c = KDate) -> l = [])
    /\ ((forall cn c, In (cn, c) (t_columns t) -> c_kind c <> KDate) -> table_errors t = Ok l).
  Proof.
    intros K H. unfold heard in H. unfold table_errors. destruct (te_exn (find_all_errors t)) as [e|] eqn:E; cbv zeta.
    - apply (stops_iff t e K) in E as (before & d & after & Ed & De & _). destruct e; try discriminate H. injection H as <-.
      split; [reflexivity|]. intros N. exfalso. destruct (proj1 (attr_iff d) (ex_intro _ _ De)) as [Kd _].
      assert (I : In d (dvals (t_columns t))) by (rewrite Ed; apply in_elt). apply Facts.dvals_in in I as (cn & I). exact (N cn d I Kd).
    - injection H as <-. split; [|reflexivity]. intros (cn & c & I & Kc). exfalso.
      destruct (date_raises c Kc) as (e & De).
      assert (J : In (column_child (fun _ => false) (primary_column_names t) c) (children (fun _ => false) t)).
      { unfold children. apply in_app_iff. left. apply in_map. eapply in_dvals; eauto. }
      assert (X : te_exn (scan_children (t_name t) (children (fun _ => false) t)) = None).
      { unfold find_all_errors, find_all_errors_seen in E. destruct (te_exn (scan_children (t_name t) (children (fun _ => false) t))); [discriminate|reflexivity]. }
      pose proof (scan_none _ _ X _ J) as Y. rewrite child_exn, De in Y. discriminate.
  Qed.
  Lemma errors_made_of ts rows ge gw b errs : (forall n t, In (n, t) ts -> kept t) ->
    db_errors (new_database ts rows ge gw) = (b, Ok errs) ->
    exists parsing fks lists rest, errs = ge +++ parsing +++ fks +++ concat lists +++ rest
      /\ snd (database_schema_errors (fresh_all ts)) = Ok fks
      /\ Forall2 (fun p l => ((exists cn c, In (cn, c) (t_columns (snd p)) /\ c_kind c = KDate) -> l = [])
           /\ ((forall cn c, In (cn, c) (t_columns (snd p)) -> c_kind c <> KDate) -> table_errors (snd p) = Ok l)) ts lists.
  Proof.
    intros K. unfold db_errors. destruct (find_schema_errors _) as [b1 [s|]] eqn:E1; [|discriminate].
    destruct (find_parsing_errors b1) as [b2 [p|]] eqn:E2; [|discriminate]. intros [= <- <-].
    destruct (find_parsing_cached _ _ _ E2) as (_ & _ & ->).
    assert (G : d_global_errors b1 = ge).
    { unfold find_schema_errors in E1. cbn [d_schema new_database] in E1. destruct (database_schema_errors _) as [d1 [l1|]]; [|discriminate].
      destruct (ask_tables te_schema d1) as [d2 [l2|]]; [|discriminate]. destruct (row_schema_errors _ _); [|discriminate].
      injection E1 as <- _. reflexivity. }
    rewrite G. destruct (find_schema_parts (new_database ts rows ge gw) _ _ eq_refl E1) as (l1 & l2 & l3 & d1 & -> & Sm & E & _ & _ & F).
    cbn [d_tables new_database] in Sm, F. change (map _ ts) with (fresh_all ts) in Sm, F.
    exists p, l1.
    assert (U : untouched d1).
    { intros n o I. destruct (Forall2_in_r _ _ _ _ Sm I) as ([m u] & Hm & En & S1 & S2 & _). cbn [fst snd] in *.
      apply in_map_iff in Hm as ((m', t) & [= <- <-] & _). cbn in S1, S2. split; congruence. }
    rewrite (ask_value d1 U) in E. destruct (mapM _ d1) as [lists|] eqn:M; [|discriminate]. injection E as <-.
    exists lists, l3. split; [reflexivity|]. split; [exact F|].
    apply mapM_ok in M. clear - K Sm M. revert lists M. unfold fresh_all in Sm.
    assert (K' : forall p, In p ts -> kept (snd p)) by (intros [n t] I; exact (K n t I)). clear K.
    remember (map (fun p : string * table => (fst p, fresh (snd p))) ts) as f eqn:Ef. revert ts Ef K'.
    induction Sm as [|x y f d [En (S1 & S2 & S3)] Sm IH]; intros ts Ef K' lists M; inversion M; subst.
    - destruct ts; [constructor|discriminate].
    - destruct ts as [|[n t] ts]; [discriminate|]. cbn [map fst snd] in Ef. injection Ef as -> ->. constructor.
      + cbn [snd]. cbn [snd fresh to_table] in S3. apply heard_dated; [apply (K' (n, t)); left; reflexivity|].
        unfold heard in *. unfold find_all_errors in *. rewrite (sbi_find _ _ _ S3) in *. assumption.
      + apply IH; auto. intros p I. apply K'. right. exact I.
  Qed.
End Check.
