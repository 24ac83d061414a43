(** What reading SQL sources gives: tables, errors, comments, sizes, unnamed foreign keys. *)
From Verif Require Export ReadFacts ValidMore.

(** ** Folds *)

Lemma foldM_app {A S} (f : S -> A -> res S) l m s :
  foldM f (l +++ m) s = let* s' := foldM f l s in foldM f m s'.
Proof.
  revert s. induction l as [|a l IH]; intros s; simpl; [reflexivity|]. destruct (f s a); simpl; [apply IH|reflexivity].
Qed.
Lemma foldM_inv {A S} (P : S -> Prop) (f : S -> A -> res S) l s s' :
  (forall x a y, In a l -> P x -> f x a = Ok y -> P y) -> P s -> foldM f l s = Ok s' -> P s'.
Proof.
  revert s. induction l as [|a l IH]; intros s H Ps E; simpl in E; [injection E as <-; exact Ps|].
  destruct (f s a) as [y|] eqn:F; [|discriminate]. simpl in E. apply (IH y); auto.
  - intros x b z Hb. apply H. right. exact Hb.
  - apply (H s a y); auto. left. reflexivity.
Qed.
Lemma bind_ok {A B} (r : res A) (f : A -> res B) b : (let* a := r in f a) = Ok b -> exists a, r = Ok a /\ f a = Ok b.
Proof. destruct r; simpl; [eauto|discriminate]. Qed.

(** ** Columns that are read have no list of values *)

Definition listless (t : table) : Prop := forall n c, In (n, c) (t_columns t) -> c_enum_values c = None.

Lemma as_definition_listless p c : as_definition p = Ok c -> c_enum_values c = None.
Proof. unfold as_definition. destruct (dget _ type_map); [|discriminate]. intros [= <-]. reflexivity. Qed.

Lemma of_mut_ok {A} (m : mut A) a : of_mut m = Ok a -> fst m = a /\ snd m = None.
Proof. unfold of_mut. destruct (snd m); [discriminate|]. intros [= <-]. auto. Qed.

Lemma add_index_columns t i : t_columns (fst (add_index t i)) = t_columns t.
Proof.
  unfold add_index. destruct (dmem _ _); [reflexivity|]. cbv zeta. destruct (t_indexed t); [|reflexivity].
  destruct (first_col i); reflexivity.
Qed.
Lemma add_constraint_columns t k : t_columns (fst (add_constraint t k)) = t_columns t.
Proof. unfold add_constraint. destruct (dmem _ _); reflexivity. Qed.
Lemma dset_in {V} k (v : V) (d : dict string V) n w : In (n, w) (dset k v d) -> (n = k /\ w = v) \/ In (n, w) d.
Proof.
  induction d as [|[m u] d IH]; simpl; [intros [[= <- <-]|[]]; auto|].
  destruct (String.eqb_spec k m) as [<-|N].
  - simpl. intros [[= <- <-]|H]; auto.
  - simpl. intros [H|H]; auto. destruct (IH H); auto.
Qed.
Lemma add_column_listless t c t' : c_enum_values c = None -> listless t ->
  of_mut (add_column t c PEnd) = Ok t' -> listless t'.
Proof.
  intros N L E. apply of_mut_ok in E as [E _]. unfold add_column in E. destruct (dmem _ _); simpl in E; subst t'; [exact L|].
  intros n d H. simpl in H. apply dset_in in H as [[_ ->]|H]; [exact N|exact (L _ _ H)].
Qed.
Lemma process_def_listless all t d t' : listless t -> process_def all t d = Ok t' -> listless t'.
Proof.
  intros L. destruct d as [p|i|b k|o]; simpl.
  - destruct (dmem _ _); [intros [= <-]; exact L|]. intros E. apply bind_ok in E as (c & Ec & E).
    apply bind_ok in E as (t1 & E1 & E). pose proof (add_column_listless _ _ _ (as_definition_listless _ _ Ec) L E1) as L1.
    destruct (p_primary p); [|injection E as <-; exact L1].
    apply of_mut_ok in E as [<- _]. unfold listless. rewrite add_index_columns. exact L1.
  - destruct (dmem _ _); [intros [= <-]; exact L|]. intros E. apply of_mut_ok in E as [<- _].
    unfold listless. rewrite add_index_columns. exact L.
  - set (k' := if b then _ else _). destruct (dmem _ _); [intros [= <-]; exact L|]. intros E.
    apply bind_ok in E as (t1 & E1 & E). apply of_mut_ok in E1 as [E1 _].
    assert (L1 : listless t1). { subst t1. unfold listless. rewrite add_constraint_columns. exact L. }
    destruct (b && _ && _); [|injection E as <-; exact L1].
    apply of_mut_ok in E as [<- _]. unfold listless. rewrite add_index_columns. exact L1.
  - discriminate.
Qed.
Lemma create_process_listless v t : create_process v = Ok t -> listless t.
Proof.
  unfold create_process. intros E. apply bind_ok in E as (t1 & E1 & E).
  assert (L : listless t1).
  { refine (foldM_inv listless _ _ _ _ _ _ E1); [|intros n c []]. intros x a y _. apply process_def_listless. }
  destruct (dmem _ _); injection E as <-; exact L.
Qed.
Lemma parse_with_process {C A} (rs : list (rule C)) (process : pvals C -> res A) s a u :
  parse_with rs process s = Ok (Some a, u) -> exists v, process v = Ok a.
Proof.
  unfold parse_with. intros E. apply bind_ok in E as ([[v|] rest] & _ & E); [|discriminate].
  apply bind_ok in E as (x & Ex & [= <- <-]). eauto.
Qed.
Lemma create_parse_listless s t u : create_parse s = Ok (Some t, u) -> listless t.
Proof. unfold create_parse. intros E. apply parse_with_process in E as (v & E). eapply create_process_listless; eauto. Qed.

Lemma enum_unlisted {FO : FloatOracle} c : c_kind c = KEnum -> c_enum_values c = None -> column_errors c <> Ok [].
Proof.
  intros K N H. apply column_errors_nil in H as (_ & _ & H). rewrite K in H. destruct H as (_ & vs & E & _). congruence.
Qed.

(** ** Sources *)

Lemma lt_statements k : (N.of_nat k < 10000)%N -> k < max_statements.
Proof. unfold max_statements. lia. Qed.

Section Sources.
  Local Opaque max_statements.
  Context {FO : FloatOracle}.

  Lemma db_errors_global b b' r : db_errors b = (b', r) -> d_global_errors b' = d_global_errors b.
  Proof.
    assert (S : forall b1 r1, find_schema_errors b = (b1, r1) -> d_global_errors b1 = d_global_errors b).
    { unfold find_schema_errors. intros b1 r1. destruct (d_schema b); [intros [= <- _]; reflexivity|].
      repeat match goal with |- context [match ?x with _ => _ end] => destruct x; try (intros [= <- _]; reflexivity) end. }
    assert (P : forall x b1 r1, find_parsing_errors x = (b1, r1) -> d_global_errors b1 = d_global_errors x).
    { unfold find_parsing_errors. intros x b1 r1. destruct (d_parsing x); [intros [= <- _]; reflexivity|].
      repeat match goal with |- context [match ?x with _ => _ end] => destruct x; try (intros [= <- _]; reflexivity) end. }
    unfold db_errors. destruct (find_schema_errors b) as [b1 [l|e]] eqn:E1; [|intros [= <- _]; eauto].
    destruct (find_parsing_errors b1) as [b2 [m|e]] eqn:E2; intros [= <- _]; rewrite (P _ _ _ E2); eauto.
  Qed.
  Lemma put_file_table_silent b t b' : put_file_table b t = Ok b' -> d_global_errors b' = d_global_errors b.
  Proof.
    unfold put_file_table. intros E. apply bind_ok in E as (b1 & E1 & [= <-]). simpl.
    destruct (dmem _ _); [|congruence]. destruct (db_errors b) as [b2 [l|e]] eqn:E2; [|discriminate].
    injection E1 as <-. eapply db_errors_global; eauto.
  Qed.

  (** The text the loop goes on with after one statement. *)
  Definition next_text (data : string) : option string :=
    let s := strip data in
    match statement_of s with
    | SComment => Some (comment_rest s)
    | SCreate => match create_parse s with Ok (_, rest) => Some rest | Raise _ => None end
    | SInsert => match insert_parse s with Ok (_, rest) => Some rest | Raise _ => None end
    | SOther => None
    end.
  Fixpoint text_after (k : nat) (data : string) : option string :=
    match k with
    | O => Some data
    | S k' => match next_text data with Some d => text_after k' d | None => None end
    end.

  (** Tables stored under their names, each name once. *)
  Definition filed (r : reader) : Prop :=
    NoDup (dkeys (rd_tables r)) /\ forall n t, In (n, t) (rd_tables r) -> t_name t = n.

  Lemma dkeys_dset_in {V} k (v : V) (d : dict string V) x : In x (dkeys (dset k v d)) <-> x = k \/ In x (dkeys d).
  Proof.
    unfold dkeys. induction d as [|[m u] d IH]; simpl; [intuition congruence|].
    destruct (String.eqb_spec k m) as [<-|N]; simpl; [intuition congruence|]. rewrite IH. intuition congruence.
  Qed.
  Lemma nodup_dset {V} k (v : V) (d : dict string V) : NoDup (dkeys d) -> NoDup (dkeys (dset k v d)).
  Proof.
    induction d as [|[m u] d IH]; simpl; intros H; [repeat constructor; intros []|].
    inversion H as [|? ? H1 H2]; subst. destruct (String.eqb_spec k m) as [<-|N]; [exact H|].
    simpl. constructor; [|apply IH, H2]. intros X. apply dkeys_dset_in in X as [->|X]; [contradiction|]. contradiction.
  Qed.
  Lemma filed_put r t : filed r -> filed (put_table r t).
  Proof.
    intros [N K]. split; [apply nodup_dset, N|]. intros n u H. simpl in H.
    apply dset_in in H as [[-> ->]|H]; [reflexivity|eauto].
  Qed.
  Lemma filed_loop n : forall file r data, filed r -> filed (fst (read_loop n file r data)).
  Proof.
    induction n as [|n IH]; intros file r data F; cbn [read_loop]; destruct (is_empty data); [exact F..|].
    destruct (is_empty (strip data)); [exact F|].
    destruct (statement_of (strip data)); [apply IH, F| | |exact F].
    - destruct (create_parse (strip data)) as [[m rest]|e]; [apply IH, filed_put, F|exact F].
    - destruct (insert_parse (strip data)) as [[m rest]|e]; [apply IH; exact F|exact F].
  Qed.
  Lemma loop_keeps n : forall file r data x, In x (dkeys (rd_tables r)) ->
    In x (dkeys (rd_tables (fst (read_loop n file r data)))).
  Proof.
    induction n as [|n IH]; intros file r data x H; cbn [read_loop]; destruct (is_empty data); [exact H..|].
    destruct (is_empty (strip data)); [exact H|].
    destruct (statement_of (strip data)); [apply IH, H| | |exact H].
    - destruct (create_parse (strip data)) as [[m rest]|e]; [|exact H]. apply IH. simpl. apply dkeys_dset_in. auto.
    - destruct (insert_parse (strip data)) as [[m rest]|e]; [apply IH; exact H|exact H].
  Qed.
  Lemma loop_unmatched k : forall n file r data u rest, k < n -> text_after k data = Some u ->
    statement_of (strip u) = SCreate -> create_parse (strip u) = Ok (None, rest) ->
    In "" (dkeys (rd_tables (fst (read_loop n file r data)))).
  Proof.
    induction k as [|k IH]; intros n file r data u rest L T Sc P; (destruct n as [|n]; [lia|]); cbn [read_loop].
    - injection T as <-. assert (is_empty data = false) as ->. { destruct data; [discriminate|reflexivity]. }
      assert (is_empty (strip data) = false) as ->. { destruct (strip data); [discriminate|reflexivity]. }
      rewrite Sc, P. apply loop_keeps. simpl. apply dkeys_dset_in. auto.
    - simpl in T. unfold next_text in T.
      assert (is_empty data = false) as ->. { destruct data; [discriminate|reflexivity]. }
      assert (is_empty (strip data) = false) as ->. { destruct (strip data); [discriminate|reflexivity]. }
      destruct (statement_of (strip data)); [|destruct (create_parse (strip data)) as [[m t]|]|destruct (insert_parse (strip data)) as [[m t]|]|];
        try discriminate; eapply IH; eauto; lia.
  Qed.

  (** A database nobody asked for its errors. *)
  Definition unasked (b : database) : Prop :=
    (forall n o, In (n, o) (d_tables b) -> o = fresh (to_table o))
    /\ d_schema b = None /\ d_swarn b = None /\ d_parsing b = None /\ d_pwarn b = None.
  Lemma unasked_new b : unasked b ->
    b = new_database (db_tables b) (d_rows b) (d_global_errors b) (d_global_warnings b).
  Proof.
    intros (H & H1 & H2 & H3 & H4). destruct b as [ts rows ge gw a1 a2 a3 a4]; simpl in *. subst.
    unfold new_database, db_tables, plain_tables. simpl. f_equal. rewrite map_map. simpl.
    rewrite <- (map_id ts) at 1. apply map_ext_in. intros [n o] Ho. simpl. f_equal. eauto.
  Qed.

  Lemma put_all l : forall b, NoDup (map t_name l) -> (forall t, In t l -> dmem (t_name t) (d_tables b) = false) ->
    foldM put_file_table l b = Ok (set_tables b (d_tables b +++ map (fun t => (t_name t, fresh t)) l)).
  Proof.
    induction l as [|t l IH]; intros b N H; simpl.
    - rewrite app_nil_r. destruct b; reflexivity.
    - unfold put_file_table at 1. rewrite (H t) by (left; reflexivity). simpl. inversion N as [|? ? N1 N2]; subst.
      rewrite dset_absent by (apply H; left; reflexivity). rewrite IH; [|exact N2|].
      + simpl. rewrite <- app_assoc. reflexivity.
      + intros u Hu. simpl. apply dmem_false. unfold dkeys. rewrite map_app, in_app_iff. simpl. intros [X|[X|[]]].
        * pose proof (H u (or_intror Hu)) as Y. apply dmem_false in Y. contradiction.
        * apply N1. rewrite X. apply in_map, Hu.
  Qed.

  Lemma filed_list r : filed r -> map (fun t => (t_name t, fresh t)) (dvals (rd_tables r)) = map (fun p => (fst p, fresh (snd p))) (rd_tables r).
  Proof.
    intros [_ K]. unfold dvals. rewrite map_map. apply map_ext_in. intros [n t] H. simpl. f_equal. eauto.
  Qed.
  Lemma filed_nodup r : filed r -> NoDup (map t_name (dvals (rd_tables r))).
  Proof.
    intros [N K]. unfold dvals. rewrite map_map. erewrite map_ext_in; [exact N|]. intros [n t] H. simpl. eauto.
  Qed.
  Lemma push_all l : forall b, d_tables (fold_left push_rows l b) = d_tables b
    /\ d_global_errors (fold_left push_rows l b) = d_global_errors b
    /\ (unasked b -> unasked (fold_left push_rows l b)).
  Proof. induction l as [|w l IH]; intros b; simpl; [auto|]. destruct (IH (push_rows b w)) as (E1 & E2 & E3). split; [exact E1|]. split; [exact E2|]. intros U. apply E3. exact U. Qed.

  Lemma read_one file data b : read_source empty_database (file, data) = Ok b ->
    let r := fst (read_sql file data) in
    d_tables b = map (fun p => (fst p, fresh (snd p))) (rd_tables r) /\ d_global_errors b = rd_errors r /\ unasked b /\ filed r.
  Proof.
    unfold read_source. cbn [fst snd].
    assert (F : filed (fst (read_sql file data))). { apply filed_loop. split; [constructor|intros ? ? []]. }
    destruct (read_sql file data) as [r e]. cbn [fst snd] in *. destruct (caught e); [discriminate|].
    rewrite put_all; [|apply filed_nodup, F|intros; reflexivity]. cbn [bind]. rewrite (filed_list _ F). intros [= <-].
    match goal with |- context [fold_left push_rows ?l ?b] => destruct (push_all l b) as (E1 & E2 & E3) end.
    rewrite E1, E2. split; [reflexivity|]. split; [reflexivity|]. split; [|exact F].
    apply E3. split; [|repeat split]. simpl. intros n o H.
    apply in_map_iff in H as ([m t] & [= <- <-] & _). reflexivity.
  Qed.

  (** ** Rows put into tables *)

  Lemma add_rows_same t w : t_name (fst (add_rows t w)) = t_name t /\ t_columns (fst (add_rows t w)) = t_columns t.
  Proof.
    unfold add_rows. cbv zeta. destruct (negb _); [split; reflexivity|].
    destruct (add_rows_loop _ _ _ _ _ _) as [[rows ge] e]. split; reflexivity.
  Qed.
  Lemma obj_add_rows_same o w o' : obj_add_rows o w = Ok o' ->
    t_name (to_table o') = t_name (to_table o) /\ t_columns (to_table o') = t_columns (to_table o)
    /\ to_seen o' = to_seen o /\ to_errs o' = None.
  Proof.
    unfold obj_add_rows. pose proof (add_rows_same (to_table o) w) as A. destruct (add_rows (to_table o) w) as [t [e|]]; [discriminate|].
    intros [= <-]. simpl in *. intuition.
  Qed.
  Definition outline (d : dict string tobj) : list (string * (string * dict string column)) :=
    map (fun p => (fst p, (t_name (to_table (snd p)), t_columns (to_table (snd p))))) d.
  Lemma outline_set d n o o' : dget n d = Some o -> t_name (to_table o') = t_name (to_table o) ->
    t_columns (to_table o') = t_columns (to_table o) -> outline (dset n o' d) = outline d.
  Proof.
    intros H E1 E2. induction d as [|[m u] d IH]; simpl in *; [discriminate|].
    destruct (String.eqb_spec n m) as [<-|N].
    - injection H as ->. unfold outline. simpl. rewrite E1, E2. reflexivity.
    - unfold outline in *. simpl. rewrite IH by exact H. reflexivity.
  Qed.
  Lemma combine_one_same b p b' : combine_one b p = Ok b' ->
    outline (d_tables b') = outline (d_tables b) /\ (unasked b -> unasked b').
  Proof.
    destruct p as [n ws]. unfold combine_one. destruct (dget n (d_tables b)) as [o|] eqn:G.
    - intros E. apply bind_ok in E as (o' & Eo & [= <-]). simpl.
      assert (I : t_name (to_table o') = t_name (to_table o) /\ t_columns (to_table o') = t_columns (to_table o)
                  /\ to_seen o' = to_seen o /\ (to_errs o = None -> to_errs o' = None)).
      { apply (foldM_inv (fun x => t_name (to_table x) = t_name (to_table o) /\ t_columns (to_table x) = t_columns (to_table o)
                  /\ to_seen x = to_seen o /\ (to_errs o = None -> to_errs x = None)) obj_add_rows ws o o').
        - intros x a y _ (I1 & I2 & I3 & I4) E. apply obj_add_rows_same in E as (J1 & J2 & J3 & J4). repeat split; congruence.
        - auto.
        - exact Eo. }
      destruct I as (I1 & I2 & I3 & I4). split; [apply outline_set with o; auto|].
      intros (U & U'). split; [|exact U']. intros m u H. simpl in H. apply dset_in in H as [[-> ->]|H]; [|eauto].
      assert (Uo : o = fresh (to_table o)). { apply (U n). apply dget_in, G. }
      destruct o' as [t s e]. simpl in *. rewrite Uo in I3, I4. simpl in *. rewrite I3, I4 by reflexivity. reflexivity.
    - destruct ws; [|discriminate]. intros [= <-]. split; [reflexivity|]. intros U. exact U.
  Qed.
  Lemma combine_same b b' : Reader.combine b = Ok b' -> outline (d_tables b') = outline (d_tables b) /\ (unasked b -> unasked b').
  Proof.
    unfold Reader.combine. intros E.
    apply (foldM_inv (fun x => outline (d_tables x) = outline (d_tables b) /\ (unasked b -> unasked x)) combine_one
             (match d_rows b with Some d => d | None => [] end) b b'); auto.
    intros x a y _ [I1 I2] F. apply combine_one_same in F as [J1 J2]. split; [congruence|auto].
  Qed.

  Lemma foldM_raises {A S} (P : S -> Prop) (f : S -> A -> res S) l s a :
    (forall x b y, In b l -> P x -> f x b = Ok y -> P y) -> (forall x, P x -> exists e, f x a = Raise e) ->
    In a l -> P s -> exists e, foldM f l s = Raise e.
  Proof.
    revert s. induction l as [|b l IH]; intros s H R I Ps; [contradiction|]. simpl.
    destruct (f s b) as [y|e] eqn:E; [|simpl; eauto]. simpl. destruct I as [->|I].
    - destruct (R s Ps) as (e & Ee). congruence.
    - apply IH; auto.
      + intros x c z Hc. apply H. right. exact Hc.
      + apply (H s b y); auto. left. reflexivity.
  Qed.
  Lemma dget_outline d n : dget n (outline d) = option_map (fun o => (t_name (to_table o), t_columns (to_table o))) (dget n d).
  Proof. unfold outline. induction d as [|[m u] d IH]; simpl; [reflexivity|]. destruct (String.eqb n m); [reflexivity|exact IH]. Qed.
  Lemma combine_unknown b n w ws d : d_rows b = Some d -> In (n, w :: ws) d -> dget n (d_tables b) = None ->
    exists e, Reader.combine b = Raise e.
  Proof.
    intros E I N. unfold Reader.combine. rewrite E.
    apply (foldM_raises (fun x => outline (d_tables x) = outline (d_tables b)) combine_one d b (n, w :: ws)); auto.
    - intros x p y _ J F. apply combine_one_same in F as [F _]. congruence.
    - intros x J. unfold combine_one. assert (G : dget n (d_tables x) = None).
      { pose proof (dget_outline (d_tables x) n) as D. rewrite J, dget_outline, N in D. destruct (dget n (d_tables x)); [discriminate|reflexivity]. }
      rewrite G. eauto.
  Qed.

  Lemma read_sql_eq file data : read_sql file data = read_loop max_statements file new_reader data.
  Proof. reflexivity. Qed.

  (** A CREATE TABLE that does not parse leaves a table without a name. *)
  Lemma unmatched_reported k file data u rest b :
    (N.of_nat k < 10000)%N -> text_after k data = Some u -> statement_of (strip u) = SCreate ->
    create_parse (strip u) = Ok (None, rest) -> file_database [(file, data)] = Ok b ->
    exists t, In ("", t) (db_tables b) /\ t_name t = "" /\
      forall l b' errs, table_errors t = Ok l -> db_errors b = (b', Ok errs) -> In "Table missing name" errs.
  Proof.
    intros L T Sc P F. unfold file_database in F. apply bind_ok in F as (b1 & F1 & F2). simpl in F1.
    apply bind_ok in F1 as (b0 & F1 & [= <-]). apply read_one in F1 as (E1 & E2 & U & [_ Fi]).
    apply combine_same in F2 as [O U']. specialize (U' U).
    assert (I : In "" (dkeys (rd_tables (fst (read_sql file data))))).
    { rewrite read_sql_eq. exact (loop_unmatched k max_statements file new_reader data u rest (lt_statements k L) T Sc P). }
    assert (D : exists t, In ("", (t_name t, t_columns t)) (outline (d_tables b)) /\ t_name t = "").
    { rewrite O, E1. unfold dkeys in I. apply in_map_iff in I as ([m t] & Em & I). simpl in Em. subst m.
      exists t. split; [|eauto]. unfold outline. rewrite map_map. apply in_map_iff. exists ("", t). auto. }
    destruct D as (t0 & D & Nm). unfold outline in D. apply in_map_iff in D as ([m o] & [= Em En Ec] & Ho). simpl in *. subst m.
    exists (to_table o). split; [|split; [congruence|]].
    - unfold db_tables, plain_tables. apply in_map_iff. exists ("", o). auto.
    - intros l b' errs El Ee. rewrite (unasked_new b U') in Ee.
      apply (table_errors_reach _ _ _ _ _ _ "" (to_table o) l) in Ee; [|unfold db_tables, plain_tables; apply in_map_iff; exists ("", o); auto|exact El].
      apply Ee. unfold table_errors, find_all_errors, find_all_errors_seen in El. rewrite En, Nm in El. cbn [is_empty] in El.
      destruct (te_exn (scan_children _ _)).
      + discriminate.
      + destruct (run_checks _) as [tl [x|]]; [discriminate|]. injection El as <-. left. reflexivity.
  Qed.
End Sources.

(** ** Comments *)

Definition contains (sub s : string) : Prop := exists a b, s = a ++ sub ++ b.

(** A line comment with its line break, or a closed block comment, after white space. *)
Inductive comment : string -> Prop :=
| comment_dashes w c : sforall is_space w = true -> has_char newline c = false ->
    comment (w ++ "--" ++ c ++ String newline "")
| comment_hash w c : sforall is_space w = true -> has_char newline c = false ->
    comment (w ++ "#" ++ c ++ String newline "")
| comment_block w c : sforall is_space w = true -> ~ contains "*/" ("*" ++ c ++ "*") ->
    comment (w ++ "/*" ++ c ++ "*/").

Lemma lstrip_app_space w s : sforall is_space w = true -> lstrip_by is_space (w ++ s) = lstrip_by is_space s.
Proof. induction w as [|c w IH]; simpl; [reflexivity|]. rewrite andb_true_iff. intros [-> H]. apply IH, H. Qed.
Lemma rstrip_app p a s : rstrip_by p s <> "" -> rstrip_by p (a ++ s) = a ++ rstrip_by p s.
Proof.
  intros H. induction a as [|c a IH]; simpl; [reflexivity|]. rewrite IH.
  destruct (a ++ rstrip_by p s) eqn:E; [|reflexivity].
  destruct a; simpl in E; [contradiction|discriminate].
Qed.
Lemma strip_nonempty s : strip s <> "" -> rstrip_by is_space s <> "".
Proof. unfold strip, strip_by. intros H E. rewrite E in H. apply H. reflexivity. Qed.
Lemma strip_body w c b s : sforall is_space w = true -> is_space c = false -> strip s <> "" ->
  strip (w ++ String c b ++ s) = String c b ++ rstrip_by is_space s.
Proof.
  intros W Hc N. pose proof (strip_nonempty _ N) as R. unfold strip, strip_by.
  change (w ++ String c b ++ s) with (w ++ (String c b ++ s)).
  assert (X : rstrip_by is_space (String c b ++ s) = String c b ++ rstrip_by is_space s) by (apply rstrip_app, R).
  rewrite rstrip_app; rewrite X; [|discriminate]. rewrite lstrip_app_space by exact W. simpl. rewrite Hc. reflexivity.
Qed.
Lemma strip_rstrip s : strip (rstrip_by is_space s) = strip s.
Proof. unfold strip, strip_by. rewrite rstrip_idem. reflexivity. Qed.

Lemma sindex_newline c s : has_char newline c = false ->
  sindex (String newline "") (c ++ String newline s) = Some (String.length c).
Proof.
  induction c as [|a c IH]; intros H.
  - cbn [String.append sindex String.length]. replace (String.prefix (String newline "") (String newline s)) with true; [reflexivity|].
    cbn [String.prefix]. destruct (ascii_dec newline newline); [|contradiction]. destruct s; reflexivity.
  - unfold has_char in H. simpl in H. apply orb_false_iff in H as [Ha H].
    cbn [String.append sindex]. replace (String.prefix (String newline "") (String a (c ++ String newline s))) with false.
    + rewrite IH by exact H. reflexivity.
    + cbn [String.prefix]. destruct (ascii_dec newline a) as [<-|]; [|reflexivity]. vm_compute in Ha. discriminate Ha.
Qed.
Lemma sdrop_app a s : sdrop (String.length a) (a ++ s) = s.
Proof. induction a; simpl; auto. Qed.
Lemma prefix_iff a : forall s, String.prefix a s = true <-> exists b, s = a ++ b.
Proof.
  induction a as [|c a IH]; intros s.
  - split; [intros _; exists s; reflexivity|]. intros _. destruct s; reflexivity.
  - destruct s as [|d s]; cbn [String.prefix]; [split; [discriminate|intros (b & E); discriminate]|].
    destruct (ascii_dec c d) as [<-|N].
    + rewrite IH. split; intros (b & E); exists b; simpl in *; congruence.
    + split; [discriminate|]. intros (b & E). simpl in E. congruence.
Qed.
Lemma sindex_first a : forall sub b, (forall x y, a ++ sub ++ b = x ++ sub ++ y -> String.length a <= String.length x) ->
  sindex sub (a ++ sub ++ b) = Some (String.length a).
Proof.
  induction a as [|c a IH]; intros sub b H.
  - assert (P : String.prefix sub (sub ++ b) = true) by (apply prefix_iff; eauto).
    simpl. destruct (sub ++ b) as [|d t] eqn:E; cbn [sindex]; rewrite P; reflexivity.
  - cbn [String.append sindex]. destruct (String.prefix sub (String c (a ++ sub ++ b))) eqn:P.
    + apply prefix_iff in P as (y & E). specialize (H "" y E). simpl in H. lia.
    + rewrite IH; [reflexivity|]. intros x y E. specialize (H (String c x) y). simpl in H. rewrite E in H.
      specialize (H eq_refl). lia.
Qed.
Lemma app_prefix a : forall b c d, a ++ b = c ++ d -> String.length c <= String.length a -> exists e, a = c ++ e.
Proof.
  induction a as [|x a IH]; intros b c d E L.
  - destruct c; [exists ""; reflexivity|simpl in L; lia].
  - destruct c as [|y c]; [eexists; reflexivity|]. simpl in *. injection E as -> E.
    destruct (IH b c d E) as (e & ->); [lia|]. exists e. reflexivity.
Qed.
Lemma sindex_block c s : ~ contains "*/" ("*" ++ c ++ "*") ->
  sindex "*/" ("/*" ++ c ++ "*/" ++ s) = Some (2 + String.length c).
Proof.
  intros N. change ("/*" ++ c ++ "*/" ++ s) with (("/*" ++ c) ++ "*/" ++ s) || rewrite <- (sapp_assoc "/*" c).
  rewrite sindex_first; [reflexivity|]. intros x y E.
  destruct (Nat.le_gt_cases (String.length ("/*" ++ c)) (String.length x)) as [L|G]; [exact L|exfalso].
  destruct x as [|x0 x]; [discriminate|]. simpl in E, G. injection E as _ E. apply N.
  destruct (app_prefix ("*" ++ c ++ "*") (String "/" s) (x ++ "*/") y) as (e & Ee).
  - rewrite !sapp_assoc. exact E.
  - rewrite !slength_app. simpl. rewrite ?slength_app. simpl. lia.
  - exists x, e. rewrite Ee, sapp_assoc. reflexivity.
Qed.

Lemma comment_skipped cm : comment cm -> forall s, strip s <> "" ->
  exists body, strip (cm ++ s) = body /\ body <> "" /\ statement_of body = SComment /\ comment_rest body = strip s.
Proof.
  intros C s N. assert (R := strip_nonempty _ N).
  destruct C as [w c W H|w c W H|w c W H].
  - exists ("--" ++ c ++ String newline (rstrip_by is_space s)).
    assert (E : strip ((w ++ "--" ++ c ++ String newline "") ++ s) = "--" ++ c ++ String newline (rstrip_by is_space s)).
    { rewrite (sapp_assoc w). change ("--" ++ c ++ String newline "") with (String "-" ("-" ++ c ++ String newline "")).
      rewrite strip_body; auto. simpl. rewrite !sapp_assoc. reflexivity. }
    split; [exact E|]. split; [discriminate|]. split.
    { unfold statement_of. rewrite (proj2 (prefix_iff "--" _)) by eauto. rewrite ?orb_true_r, ?orb_true_l. reflexivity. }
    unfold comment_rest.
    assert (Sp : strip ("--" ++ c ++ String newline (rstrip_by is_space s)) = "--" ++ c ++ String newline (rstrip_by is_space s)).
    { rewrite <- E. apply strip_idem. }
    rewrite Sp. replace (_ || String.prefix "--" _) with true.
    2: { symmetry. apply orb_true_iff. right. apply prefix_iff. eauto. }
    assert (I : sindex (String newline "") (("--" ++ c) ++ String newline (rstrip_by is_space s)) = Some (String.length ("--" ++ c))).
    { apply sindex_newline. exact H. }
    change ("--" ++ c ++ String newline (rstrip_by is_space s)) with (("--" ++ c) ++ String newline (rstrip_by is_space s)).
    rewrite I. replace (sdrop (S (String.length ("--" ++ c))) (("--" ++ c) ++ String newline (rstrip_by is_space s))) with (rstrip_by is_space s).
    + apply strip_rstrip.
    + replace (S (String.length ("--" ++ c))) with (String.length (("--" ++ c) ++ String newline "")) by (rewrite slength_app; simpl; lia).
      replace (("--" ++ c) ++ String newline (rstrip_by is_space s)) with ((("--" ++ c) ++ String newline "") ++ rstrip_by is_space s) by (rewrite !sapp_assoc; reflexivity).
      rewrite sdrop_app. reflexivity.
  - exists ("#" ++ c ++ String newline (rstrip_by is_space s)).
    assert (E : strip ((w ++ "#" ++ c ++ String newline "") ++ s) = "#" ++ c ++ String newline (rstrip_by is_space s)).
    { rewrite (sapp_assoc w). change ("#" ++ c ++ String newline "") with (String "#" (c ++ String newline "")).
      rewrite strip_body; auto. simpl. rewrite !sapp_assoc. reflexivity. }
    split; [exact E|]. split; [discriminate|]. split.
    { unfold statement_of. rewrite (proj2 (prefix_iff "#" _)) by eauto. rewrite ?orb_true_r, ?orb_true_l. reflexivity. }
    unfold comment_rest.
    assert (Sp : strip ("#" ++ c ++ String newline (rstrip_by is_space s)) = "#" ++ c ++ String newline (rstrip_by is_space s)).
    { rewrite <- E. apply strip_idem. }
    rewrite Sp. change ("#" ++ c ++ String newline (rstrip_by is_space s)) with (("#" ++ c) ++ String newline (rstrip_by is_space s)).
    replace (_ || String.prefix "--" _) with true by reflexivity.
    assert (I : sindex (String newline "") (("#" ++ c) ++ String newline (rstrip_by is_space s)) = Some (String.length ("#" ++ c))).
    { apply sindex_newline. exact H. }
    rewrite I. replace (sdrop (S (String.length ("#" ++ c))) (("#" ++ c) ++ String newline (rstrip_by is_space s))) with (rstrip_by is_space s).
    + apply strip_rstrip.
    + replace (S (String.length ("#" ++ c))) with (String.length (("#" ++ c) ++ String newline "")) by (rewrite slength_app; simpl; lia).
      replace (("#" ++ c) ++ String newline (rstrip_by is_space s)) with ((("#" ++ c) ++ String newline "") ++ rstrip_by is_space s) by (rewrite !sapp_assoc; reflexivity).
      rewrite sdrop_app. reflexivity.
  - exists ("/*" ++ c ++ "*/" ++ rstrip_by is_space s).
    assert (E : strip ((w ++ "/*" ++ c ++ "*/") ++ s) = "/*" ++ c ++ "*/" ++ rstrip_by is_space s).
    { rewrite (sapp_assoc w). change ("/*" ++ c ++ "*/") with (String "/" ("*" ++ c ++ "*/")).
      rewrite strip_body; auto. simpl. rewrite !sapp_assoc. reflexivity. }
    split; [exact E|]. split; [discriminate|]. split.
    { unfold statement_of. rewrite (proj2 (prefix_iff "/*" _)) by eauto. rewrite ?orb_true_r, ?orb_true_l. reflexivity. }
    unfold comment_rest.
    assert (Sp : strip ("/*" ++ c ++ "*/" ++ rstrip_by is_space s) = "/*" ++ c ++ "*/" ++ rstrip_by is_space s).
    { rewrite <- E. apply strip_idem. }
    rewrite Sp. replace (_ || String.prefix "--" _) with false by reflexivity. rewrite sindex_block by exact H.
    replace (sdrop (2 + (2 + String.length c)) ("/*" ++ c ++ "*/" ++ rstrip_by is_space s)) with (rstrip_by is_space s).
    + apply strip_rstrip.
    + replace (2 + (2 + String.length c)) with (String.length ("/*" ++ c ++ "*/")) by (simpl; rewrite slength_app; simpl; lia).
      replace ("/*" ++ c ++ "*/" ++ rstrip_by is_space s) with (("/*" ++ c ++ "*/") ++ rstrip_by is_space s) by (rewrite !sapp_assoc; reflexivity).
      rewrite sdrop_app. reflexivity.
Qed.

Fixpoint sconcat (l : list string) : string := match l with [] => "" | s :: l' => s ++ sconcat l' end.

Lemma loop_strip n file r s : strip s <> "" -> read_loop n file r (strip s) = read_loop n file r s.
Proof.
  intros N. destruct n as [|n]; cbn [read_loop]; rewrite ?strip_idem.
  - destruct (strip s) eqn:E; [contradiction|]. destruct s; [discriminate|reflexivity].
  - destruct (strip s) eqn:E; [contradiction|]. destruct s; [discriminate|]. reflexivity.
Qed.
Lemma loop_comments cs : forall n file r s, Forall comment cs -> strip s <> "" ->
  read_loop (List.length cs + n) file r (sconcat cs ++ s) = read_loop n file r s /\ strip (sconcat cs ++ s) <> "".
Proof.
  induction cs as [|c cs IH]; intros n file r s F N; [auto|]. inversion F as [|? ? Fc Fs]; subst.
  destruct (IH n file r s Fs N) as [E1 E2]. simpl sconcat. rewrite sapp_assoc.
  destruct (comment_skipped c Fc (sconcat cs ++ s) E2) as (body & Eb & Nb & St & Rt).
  split; [|rewrite Eb; exact Nb]. rewrite <- (loop_strip _ _ _ (c ++ sconcat cs ++ s)) by (rewrite Eb; exact Nb).
  rewrite Eb. assert (Sb : strip body = body) by (rewrite <- Eb; apply strip_idem).
  change (List.length (c :: cs) + n) with (S (List.length cs + n)). cbn [read_loop]. destruct body as [|b body]; [contradiction|]. cbn [is_empty]. rewrite Sb. cbn [is_empty].
  rewrite St, Rt, loop_strip by exact E2. exact E1.
Qed.
Lemma loop_more n : forall m file r s r' t, n <= m -> read_loop n file r s = (r', Ok t) -> read_loop m file r s = (r', Ok t).
Proof.
  induction n as [|n IH]; intros m file r s r' t L E.
  - simpl in E. destruct m; cbn [read_loop]; destruct (is_empty s); try exact E; discriminate.
  - destruct m as [|m]; [lia|]. cbn [read_loop] in *. destruct (is_empty s); [exact E|].
    destruct (is_empty (strip s)); [exact E|].
    destruct (statement_of (strip s)); [apply IH; [lia|exact E]| | |exact E].
    + destruct (create_parse (strip s)) as [[a b]|]; [apply IH; [lia|exact E]|discriminate].
    + destruct (insert_parse (strip s)) as [[a b]|]; [apply IH; [lia|exact E]|discriminate].
Qed.

(** ** Numbers of definitions and groups *)

Lemma kids_longer {C} (classes : list (pclass C)) n : forall s ms l t, kids n classes s ms = Ok (Some (l, t)) ->
  List.length ms <= List.length l.
Proof.
  induction n as [|n IH]; intros s ms l t; cbn [kids]; destruct (is_empty s); try (intros [= <- <-]; lia).
  destruct (best_child classes s None) as [[[m rest]|]|]; simpl; [| |discriminate].
  - intros E. apply IH in E. rewrite app_length in E. simpl in E. lia.
  - destruct ms; [discriminate|]. intros [= <- <-]. lia.
Qed.
Lemma kids_enough {C} (classes : list (pclass C)) n : forall k s ms l t, kids n classes s ms = Ok (Some (l, t)) ->
  List.length l < k + List.length ms -> kids k classes s ms = Ok (Some (l, t)).
Proof.
  induction n as [|n IH]; intros k s ms l t E L.
  - cbn [kids] in E. destruct (is_empty s) eqn:Es; [|discriminate]. destruct k; cbn [kids]; rewrite Es; exact E.
  - destruct k as [|k].
    + cbn [kids] in *. destruct (is_empty s) eqn:Es; [exact E|].
      destruct (best_child classes s None) as [[[m rest]|]|]; simpl in E; [| |discriminate].
      * apply kids_longer in E. rewrite app_length in E. simpl in E. lia.
      * destruct ms; [discriminate|]. injection E as <- <-. simpl in L. lia.
    + cbn [kids] in *. destruct (is_empty s) eqn:Es; [exact E|].
      destruct (best_child classes s None) as [[[m rest]|]|]; simpl in *; [| |discriminate].
      * apply IH; [exact E|]. rewrite app_length. simpl. lia.
      * exact E.
Qed.

(** The text of [n] groups of values. *)
Fixpoint groups (n : nat) : string := match n with O => "" | S n' => "('x')," ++ groups n' end.
Lemma one_group s : trim s = true -> s <> "" ->
  values_class ("('x')," ++ s) = Ok (Some ([RStr "x"], true), s).
Proof.
  intros T N. unfold values_class, parse_with.
  assert (trim ("('x')," ++ s) = true) as T'. { apply trim_app; [reflexivity|discriminate|apply trim_neat, T]. }
  rewrite (trim_normalize _ T').
  assert (T1 : trim (String squote ("x'),") ++ s) = true). { apply trim_app; [reflexivity|discriminate|apply trim_neat, T]. }
  assert (T2 : trim ("," ++ s) = true). { apply trim_app; [reflexivity|discriminate|apply trim_neat, T]. }
  unfold values_rules, lit, rcomma.
  rewrite (step_lit _ _ _ _ _ (String squote "x')," ++ s)); [|reflexivity|rewrite (trim_strip _ T1); discriminate].
  rewrite (trim_strip _ T1).
  rewrite (step_del _ _ _ _ _ _ _ _ _ ["x"] (")," ++ s)); [|reflexivity|discriminate].
  rewrite (step_lit _ _ _ _ _ ("," ++ s)); [|reflexivity|rewrite (trim_strip _ T2); discriminate].
  rewrite (trim_strip _ T2).
  rewrite (step_lit _ _ _ _ _ s); [|reflexivity|rewrite (trim_strip _ T); exact N].
  rewrite (trim_strip _ T). reflexivity.
Qed.
Lemma groups_trim n s : trim s = true -> trim (groups n ++ s) = true.
Proof.
  intros T. induction n as [|n IH]; [exact T|]. change (groups (S n)) with ("('x')," ++ groups n). rewrite sapp_assoc.
  apply trim_app; [reflexivity|discriminate|apply trim_neat, IH].
Qed.
Lemma groups_depth n : forall k s ms, n <= k -> trim s = true -> s <> "" ->
  kids n [values_class] (groups k ++ s) ms = Raise (ValueError "Max depth reached").
Proof.
  induction n as [|n IH]; intros k s ms L T N.
  - cbn [kids]. destruct k as [|k]; [|reflexivity]. destruct s; [contradiction|reflexivity].
  - destruct k as [|k]; [lia|]. change (groups (S k)) with ("('x')," ++ groups k). rewrite sapp_assoc.
    cbn [kids]. replace (is_empty ("('x')," ++ groups k ++ s)) with false by reflexivity. cbn [best_child].
    rewrite one_group; [|apply groups_trim, T|destruct k; [exact N|discriminate]]. cbn [bind].
    apply IH; [lia|exact T|exact N].
Qed.
Lemma groups_read k : forall n s ms, k < n -> trim s = true -> s <> "" ->
  values_class s = Ok (None, s) -> ms <> [] \/ k <> 0 ->
  kids n [values_class] (groups k ++ s) ms = Ok (Some (ms +++ repeat ([RStr "x"], true) k, s)).
Proof.
  induction k as [|k IH]; intros n s ms L T N V M; (destruct n as [|n]; [lia|]).
  - simpl groups. simpl String.append. cbn [kids]. replace (is_empty s) with false by (destruct s; [contradiction|reflexivity]).
    cbn [best_child]. rewrite V. simpl. destruct ms; [destruct M; congruence|]. rewrite app_nil_r. reflexivity.
  - change (groups (S k)) with ("('x')," ++ groups k). rewrite sapp_assoc.
    cbn [kids]. replace (is_empty ("('x')," ++ groups k ++ s)) with false by reflexivity. cbn [best_child].
    rewrite one_group; [|apply groups_trim, T|destruct k; [exact N|discriminate]]. cbn [bind].
    rewrite IH; auto; [|lia|left; destruct ms; discriminate]. rewrite <- app_assoc. reflexivity.
Qed.

Definition big_insert (k : nat) : string := "INSERT INTO `t` (`a`) VALUES " ++ groups k ++ ";".
Lemma big_insert_start k : k <> 0 ->
  insert_parse (big_insert k) =
    let* r := run_rules [RKids "inserts" [values_class] false; RLit "closing_semicolon" ";" true] (groups k ++ ";")
                [("INSERT INTO", VText "INSERT INTO"); ("table", VText "`t`"); ("(", VText "("); ("columns", VList ["a"]); (")", VText ")"); ("VALUES", VText "VALUES")] in
    match r with
    | (None, rest) => Ok (None, rest)
    | (Some vals, rest) => Ok (Some (insert_process vals), rest)
    end.
Proof.
  intros K. unfold insert_parse, parse_with, big_insert.
  assert (T : trim (groups k ++ ";") = true) by (apply groups_trim; reflexivity).
  assert (T5 : trim ("VALUES " ++ groups k ++ ";") = true).
  { change ("VALUES " ++ groups k ++ ";") with ("VALUES" ++ String " " (groups k ++ ";")).
    apply trim_app; [reflexivity|discriminate|]. apply neat_space; [exact T|]. destruct k; discriminate. }
  assert (T4 : trim (") VALUES " ++ groups k ++ ";") = true).
  { change (") VALUES " ++ groups k ++ ";") with (")" ++ String " " ("VALUES " ++ groups k ++ ";")).
    apply trim_app; [reflexivity|discriminate|]. apply neat_space; [exact T5|discriminate]. }
  assert (T3 : trim ("`a`) VALUES " ++ groups k ++ ";") = true).
  { change ("`a`) VALUES " ++ groups k ++ ";") with ("`a`" ++ ") VALUES " ++ groups k ++ ";").
    apply trim_app; [reflexivity|discriminate|]. apply trim_neat, T4. }
  assert (T2 : trim ("(`a`) VALUES " ++ groups k ++ ";") = true).
  { change ("(`a`) VALUES " ++ groups k ++ ";") with ("(" ++ "`a`) VALUES " ++ groups k ++ ";").
    apply trim_app; [reflexivity|discriminate|]. apply trim_neat, T3. }
  assert (T1 : trim ("`t` (`a`) VALUES " ++ groups k ++ ";") = true).
  { change ("`t` (`a`) VALUES " ++ groups k ++ ";") with ("`t`" ++ String " " ("(`a`) VALUES " ++ groups k ++ ";")).
    apply trim_app; [reflexivity|discriminate|]. apply neat_space; [exact T2|discriminate]. }
  assert (T0 : trim ("INSERT INTO `t` (`a`) VALUES " ++ groups k ++ ";") = true).
  { change ("INSERT INTO `t` (`a`) VALUES " ++ groups k ++ ";") with ("INSERT" ++ String " " ("INTO" ++ String " " ("`t` (`a`) VALUES " ++ groups k ++ ";"))).
    apply trim_app; [reflexivity|discriminate|]. apply neat_space; [|discriminate].
    apply trim_app; [reflexivity|discriminate|]. apply neat_space; [exact T1|discriminate]. }
  rewrite (trim_normalize _ T0). unfold insert_rules, lit.
  rewrite (step_lit _ _ _ _ _ (String " " ("`t` (`a`) VALUES " ++ groups k ++ ";"))); [|reflexivity|rewrite (strip_space _ T1); discriminate].
  rewrite (strip_space _ T1).
  rewrite (step_re _ _ _ _ _ (VText "`t`") (String " " ("(`a`) VALUES " ++ groups k ++ ";"))); [|reflexivity|rewrite (strip_space _ T2); discriminate].
  rewrite (strip_space _ T2).
  rewrite (step_lit _ _ _ _ _ ("`a`) VALUES " ++ groups k ++ ";")); [|reflexivity|rewrite (trim_strip _ T3); discriminate].
  rewrite (trim_strip _ T3).
  rewrite (step_del _ _ _ _ _ _ _ _ _ ["a"] (") VALUES " ++ groups k ++ ";")); [|reflexivity|discriminate].
  rewrite (step_lit _ _ _ _ _ (String " " ("VALUES " ++ groups k ++ ";"))); [|reflexivity|rewrite (strip_space _ T5); discriminate].
  rewrite (strip_space _ T5).
  rewrite (step_lit _ _ _ _ _ (String " " (groups k ++ ";"))); [|reflexivity|rewrite (strip_space _ T); destruct k; discriminate].
  rewrite (strip_space _ T). reflexivity.
Qed.
Lemma big_insert_raises k : (1000 <= N.of_nat k)%N -> insert_parse (big_insert k) = Raise (ValueError "Max depth reached").
Proof.
  intros L. rewrite big_insert_start by lia. cbn [run_rules run_rule].
  assert (M : max_turns <= k) by (unfold max_turns; lia).
  rewrite (groups_depth max_turns k ";" [] M); [reflexivity|reflexivity|discriminate].
Qed.
Lemma small_insert_read k : k <> 0 -> (N.of_nat k < 1000)%N ->
  insert_parse (big_insert k) = Ok (Some (insert_process
    [("INSERT INTO", VText "INSERT INTO"); ("table", VText "`t`"); ("(", VText "("); ("columns", VList ["a"]); (")", VText ")"); ("VALUES", VText "VALUES");
     ("inserts", VKids (repeat ([RStr "x"], true) k)); ("closing_semicolon", VText ";")]), "").
Proof.
  intros K L. rewrite big_insert_start by exact K. cbn [run_rules run_rule].
  assert (M : k < max_turns) by (unfold max_turns; lia).
  rewrite (groups_read k max_turns ";" [] M); [reflexivity|reflexivity|discriminate|reflexivity|right; exact K].
Qed.

(** ** Unnamed foreign keys *)

Definition def_indexes (l : list def) : list Index.index :=
  concat (map (fun d => match d with DefIndex i => [i] | _ => [] end) l).
Definition def_bare (l : list def) : list constraint :=
  concat (map (fun d => match d with DefFk true k => [k] | _ => [] end) l).
(** The names under which the definitions put an index. *)
Definition index_names (l : list def) : list string :=
  concat (map (fun d => match d with DefIndex i => [ix_name i] | DefCol p => if p_primary p then [p_name p] else [] | _ => [] end) l).
(** The names of the foreign keys. *)
Definition fk_names (tname : string) (l : list def) : list string :=
  concat (map (fun d => match d with DefFk b k => [if b then bare_name tname k else k_name k] | _ => [] end) l).

Definition covered (t : table) (col : string) : Prop := exists n i, In (n, i) (t_indexes t) /\ In col (ix_columns i).

Section Bare.
  Variable all : list def.
  Variable tname : string.
  Hypothesis all_names : NoDup (index_names all).
  Hypothesis all_named : ~ In "" (index_names all).
  Hypothesis all_fks : NoDup (fk_names tname all).
  (** An index that has the name of the column of an unnamed foreign key contains this column. *)
  Hypothesis all_cover : forall k i, In k (def_bare all) -> In i (def_indexes all) ->
    ix_name i = k_column k -> In (k_column k) (ix_columns i).
  Hypothesis all_columns : forall k, In k (def_bare all) -> k_column k <> "".

  Record so_far (pre : list def) (t : table) : Prop := {
    sf_name : t_name t = tname;
    sf_from : forall n i, In (n, i) (t_indexes t) -> n <> "" /\
      ((In (DefIndex i) pre /\ n = ix_name i)
       \/ (exists p, In (DefCol p) pre /\ p_primary p = true /\ n = p_name p /\ ix_columns i = [n])
       \/ ((exists k, In (DefFk true k) pre /\ n = k_column k) /\ ix_columns i = [n]
           /\ forall j, In (DefIndex j) all -> ~ In n (ix_columns j)));
    sf_index : forall i, In (DefIndex i) pre -> exists n, In (n, i) (t_indexes t);
    sf_fk : forall n, In n (dkeys (t_constraints t)) -> In n (fk_names tname pre);
    sf_bare : forall k, In (DefFk true k) pre -> In (bare_name tname k) (dkeys (t_constraints t))
      /\ (covered t (k_column k) \/ exists j, In (DefIndex j) all /\ In (k_column k) (ix_columns j))
  }.

  Lemma in_def_indexes i l : In i (def_indexes l) <-> In (DefIndex i) l.
  Proof.
    unfold def_indexes. rewrite in_concat. split.
    - intros (x & Hx & Hi). apply in_map_iff in Hx as (d & <- & Hd). destruct d; simpl in Hi; try contradiction.
      destruct Hi as [->|[]]. exact Hd.
    - intros H. exists [i]. split; [|left; reflexivity]. apply in_map_iff. exists (DefIndex i). auto.
  Qed.
  Lemma in_def_bare k l : In k (def_bare l) <-> In (DefFk true k) l.
  Proof.
    unfold def_bare. rewrite in_concat. split.
    - intros (x & Hx & Hi). apply in_map_iff in Hx as (d & <- & Hd). destruct d as [| |[|]|]; simpl in Hi; try contradiction.
      destruct Hi as [->|[]]. exact Hd.
    - intros H. exists [k]. split; [|left; reflexivity]. apply in_map_iff. exists (DefFk true k). auto.
  Qed.
  Lemma index_names_in n d l : In d l -> In n (index_names [d]) -> In n (index_names l).
  Proof.
    unfold index_names. intros H I. simpl in I. rewrite app_nil_r in I. apply in_concat. eexists. split; [|exact I].
    apply in_map_iff. exists d. auto.
  Qed.
  Lemma index_names_app l m : index_names (l +++ m) = index_names l +++ index_names m.
  Proof. unfold index_names. rewrite map_app, concat_app. reflexivity. Qed.
  Lemma fk_names_app l m : fk_names tname (l +++ m) = fk_names tname l +++ fk_names tname m.
  Proof. unfold fk_names. rewrite map_app, concat_app. reflexivity. Qed.

  Lemma nodup_split {A} (l m : list A) x : NoDup (l +++ m) -> In x l -> In x m -> False.
  Proof.
    induction l as [|a l IH]; simpl; intros N I J; [contradiction|]. inversion N as [|? ? N1 N2]; subst.
    destruct I as [->|I]; [apply N1, in_or_app; auto|eauto].
  Qed.

  (** A name given by a later definition is not yet taken. *)
  Lemma free_name pre d post t n : all = pre +++ d :: post -> so_far pre t -> In n (index_names [d]) ->
    (forall k, In (DefFk true k) pre -> n = k_column k -> (forall j, In (DefIndex j) all -> ~ In n (ix_columns j)) -> False) ->
    dmem n (t_indexes t) = false.
  Proof.
    intros E SF I Fk. apply dmem_false. intros H. unfold dkeys in H. apply in_map_iff in H as ([m i] & Em & H). simpl in Em. subst m.
    assert (N : NoDup (index_names pre +++ index_names (d :: post))) by (rewrite <- index_names_app, <- E; exact all_names).
    assert (J : In n (index_names (d :: post))) by (eapply index_names_in; [left; reflexivity|exact I]).
    destruct (sf_from _ _ SF n i H) as (_ & [(K1 & K2)|[(p & K1 & K2 & K3 & _)|((k & K1 & K2) & _ & K3)]]).
    - apply (nodup_split _ _ n N); [|exact J]. apply (index_names_in n (DefIndex i)); [exact K1|]. left. congruence.
    - apply (nodup_split _ _ n N); [|exact J]. apply (index_names_in n (DefCol p)); [exact K1|].
      unfold index_names. simpl. rewrite K2. left. congruence.
    - eapply Fk; eauto.
  Qed.

  Lemma add_index_ok t i t' : of_mut (add_index t i) = Ok t' ->
    t_indexes t' = t_indexes t +++ [(ix_name i, i)] /\ t_constraints t' = t_constraints t /\ t_name t' = t_name t.
  Proof.
    unfold of_mut, add_index. destruct (dmem _ _) eqn:D; [discriminate|]. cbv zeta. rewrite (dset_absent _ _ _ D).
    destruct (t_indexed t); [destruct (first_col i)|]; simpl; intros [= <-]; repeat split.
  Qed.
  Lemma add_column_ok t c t' : of_mut (add_column t c PEnd) = Ok t' ->
    t_indexes t' = t_indexes t /\ t_constraints t' = t_constraints t /\ t_name t' = t_name t.
  Proof. unfold of_mut, add_column. destruct (dmem _ _); [discriminate|]. simpl. intros [= <-]. repeat split. Qed.
  Lemma add_constraint_ok t k t' : of_mut (add_constraint t k) = Ok t' ->
    t_indexes t' = t_indexes t /\ t_constraints t' = t_constraints t +++ [(k_name k, k)] /\ t_name t' = t_name t.
  Proof.
    unfold of_mut, add_constraint. destruct (dmem _ _) eqn:D; [discriminate|]. rewrite (dset_absent _ _ _ D).
    simpl. intros [= <-]. repeat split.
  Qed.

  (** Nothing changes but the indexes, which grow. *)
  Lemma so_far_more pre d t t' :
    (forall i, d <> DefIndex i) -> (forall b k, d <> DefFk b k) ->
    t_name t' = t_name t -> t_constraints t' = t_constraints t ->
    (t_indexes t' = t_indexes t
     \/ exists p, d = DefCol p /\ p_primary p = true /\ p_name p <> "" /\ t_indexes t' = t_indexes t +++ [(p_name p, mkIndex "" [p_name p] IPrimary [])]) ->
    so_far pre t -> so_far (pre +++ [d]) t'.
  Proof.
    intros Ni Nf E1 E2 E3 SF.
    assert (Inc : forall n i, In (n, i) (t_indexes t) -> In (n, i) (t_indexes t')).
    { destruct E3 as [->|(p & _ & _ & _ & ->)]; [auto|]. intros; apply in_or_app; auto. }
    assert (Pre : forall x, In x pre -> In x (pre +++ [d])) by (intros; apply in_or_app; auto).
    assert (Bk : forall x, In x (pre +++ [d]) -> In x pre \/ x = d).
    { intros x H. apply in_app_or in H as [H|[H|[]]]; auto. }
    destruct SF as [S1 S2 S3 S4 S5]. constructor.
    - congruence.
    - intros n i H.
      assert (C : In (n, i) (t_indexes t) \/ exists p, d = DefCol p /\ p_primary p = true /\ p_name p <> "" /\ n = p_name p /\ ix_columns i = [n]).
      { destruct E3 as [E3|(p & P1 & P2 & P3 & E3)]; rewrite E3 in H; [auto|]. apply in_app_or in H as [H|[H|[]]]; [auto|].
        injection H as <- <-. right. exists p. auto. }
      destruct C as [C|(p & P1 & P2 & P3 & P4 & P5)].
      + destruct (S2 n i C) as (Z & [(K1 & K2)|[(p & K1 & K2)|((k & K1 & K2) & K3)]]); (split; [exact Z|]).
        * left. auto.
        * right; left. exists p. auto.
        * right; right. split; [exists k; auto|exact K3].
      + split; [congruence|]. right; left. exists p. subst d. repeat split; auto. apply in_or_app. right. left. reflexivity.
    - intros i H. apply Bk in H as [H|H]; [|symmetry in H; exfalso; eapply Ni; eauto]. destruct (S3 i H) as (n & Hn). eauto.
    - intros n H. rewrite E2 in H. rewrite fk_names_app. apply in_or_app. auto.
    - intros k H. apply Bk in H as [H|H]; [|symmetry in H; exfalso; eapply Nf; eauto]. rewrite E2. destruct (S5 k H) as (A & [(n & i & B1 & B2)|B]); split; auto.
      left. exists n, i. auto.
  Qed.

  Lemma step_so_far pre d post t t' : all = pre +++ d :: post -> so_far pre t -> process_def all t d = Ok t' ->
    so_far (pre +++ [d]) t'.
  Proof.
    intros E SF P. assert (Din : In d all) by (rewrite E; apply in_or_app; right; left; reflexivity).
    assert (Pre : forall x, In x pre -> In x (pre +++ [d])) by (intros; apply in_or_app; auto).
    assert (Last : In d (pre +++ [d])) by (apply in_or_app; right; left; reflexivity).
    assert (Bk : forall x, In x (pre +++ [d]) -> In x pre \/ x = d).
    { intros x H. apply in_app_or in H as [H|[H|[]]]; auto. }
    destruct d as [p|i|b k|o]; simpl in P.
    - destruct (dmem _ _).
      + injection P as <-. apply so_far_more with t; simpl; auto; discriminate.
      + apply bind_ok in P as (c & Ec & P). apply bind_ok in P as (t1 & P1 & P). apply add_column_ok in P1 as (A1 & A2 & A3).
        destruct (p_primary p) eqn:Pp.
        * apply add_index_ok in P as (B1 & B2 & B3). apply so_far_more with t; auto; try discriminate; try congruence.
          right. exists p. rewrite A1 in B1. repeat split; auto. intros Z. apply all_named.
          apply (index_names_in _ (DefCol p)); [exact Din|]. unfold index_names. simpl. rewrite Pp, Z. left. reflexivity.
        * injection P as <-. apply so_far_more with t; auto; discriminate.
    - assert (NE : ix_name i <> "").
      { intros Z. apply all_named. apply (index_names_in _ (DefIndex i)); [exact Din|]. left. exact Z. }
      assert (Fr : dmem (ix_name i) (t_indexes t) = false).
      { eapply free_name; eauto; [left; reflexivity|]. intros k K1 K2 K3.
        assert (Kin : In k (def_bare all)) by (apply in_def_bare; rewrite E; apply in_or_app; auto).
        apply (K3 i Din). rewrite K2. apply all_cover; auto. apply in_def_indexes. exact Din. }
      destruct (dmem (ix_rawname i) (t_indexes t)) eqn:D.
      + exfalso. unfold ix_name in Fr. destruct (truthy (ix_rawname i)) eqn:Tr; [congruence|].
        unfold truthy in Tr. apply negb_false_iff, is_empty_iff in Tr. rewrite Tr in D. apply dmem_iff in D.
        unfold dkeys in D. apply in_map_iff in D as ([m j] & Em & D). simpl in Em. subst m. destruct (sf_from _ _ SF _ _ D) as [Z _]. congruence.
      + apply add_index_ok in P as (B1 & B2 & B3). destruct SF as [S1 S2 S3 S4 S5].
        assert (Inc : forall n j, In (n, j) (t_indexes t) -> In (n, j) (t_indexes t')) by (intros; rewrite B1; apply in_or_app; auto).
        constructor.
        * congruence.
        * intros n j H. rewrite B1 in H. apply in_app_or in H as [H|[H|[]]].
          -- destruct (S2 n j H) as (Z & [(K1 & K2)|[(p & K1 & K2)|((k & K1 & K2) & K3)]]); (split; [exact Z|]).
             ++ left. auto.
             ++ right; left. exists p. auto.
             ++ right; right. split; [exists k; auto|exact K3].
          -- injection H as <- <-. split; [exact NE|]. left. auto.
        * intros j H. apply Bk in H as [H|H].
          -- destruct (S3 j H) as (n & Hn). eauto.
          -- injection H as ->. exists (ix_name i). rewrite B1. apply in_or_app. right. left. reflexivity.
        * intros n H. rewrite B2 in H. rewrite fk_names_app. apply in_or_app. auto.
        * intros k H. apply Bk in H as [H|H]; [|discriminate]. rewrite B2. destruct (S5 k H) as (A & [(n & j & C1 & C2)|C]); split; auto.
          left. exists n, j. auto.
    - set (k' := if b then rename_fk k (bare_name (t_name t) k) else k) in *.
      destruct SF as [S1 S2 S3 S4 S5].
      assert (Nk : k_name k' = if b then bare_name tname k else k_name k).
      { subst k'. destruct b; [simpl; rewrite S1|]; reflexivity. }
      assert (Ck : k_column k' = k_column k) by (subst k'; destruct b; reflexivity).
      destruct (dmem (k_name k') (t_constraints t)) eqn:D.
      + exfalso. apply dmem_iff in D. apply S4 in D. rewrite Nk in D.
        assert (N : NoDup (fk_names tname pre +++ fk_names tname (DefFk b k :: post))) by (rewrite <- fk_names_app, <- E; exact all_fks).
        eapply nodup_split; [exact N|exact D|]. unfold fk_names. simpl. left. reflexivity.
      + apply bind_ok in P as (t1 & P1 & P). apply add_constraint_ok in P1 as (A1 & A2 & A3).
        rewrite Ck in P.
        assert (Cs : forall n, In n (dkeys (t_constraints t +++ [(k_name k', k')])) <-> In n (dkeys (t_constraints t)) \/ n = k_name k').
        { intros n. unfold dkeys. rewrite map_app, in_app_iff. simpl. intuition. }
        assert (X : t_name t' = tname /\ t_constraints t' = t_constraints t +++ [(k_name k', k')]
                    /\ ((t_indexes t' = t_indexes t /\ (b = true -> dmem (k_column k) (t_indexes t)
                              || existsb (fun i => smem (k_column k) (ix_columns i)) (dvals (t_indexes t)) = true
                              \/ existsb (def_index_on (k_column k)) all = true))
                        \/ (b = true /\ t_indexes t' = t_indexes t +++ [(k_column k, mkIndex (k_column k) [k_column k] IIndex [])]
                            /\ existsb (def_index_on (k_column k)) all = false))).
        { rewrite A1 in P. destruct (b && _ && _) eqn:Q.
          - apply add_index_ok in P as (B1 & B2 & B3). split; [congruence|]. split; [congruence|]. right.
            apply andb_true_iff in Q as [Q Q3]. apply andb_true_iff in Q as [Q1 Q2]. apply negb_true_iff in Q3.
            split; [exact Q1|]. split; [|exact Q3]. rewrite B1, A1. f_equal. f_equal. unfold ix_name. simpl.
            destruct (truthy (k_column k)) eqn:Tr; [reflexivity|]. unfold truthy in Tr. apply negb_false_iff, is_empty_iff in Tr. rewrite Tr. reflexivity.
          - injection P as <-. split; [congruence|]. split; [congruence|]. left. split; [exact A1|]. intros ->.
            simpl in Q. apply andb_false_iff in Q as [Q|Q]; apply negb_false_iff in Q; auto. }
        clear P. destruct X as (X1 & X2 & X3).
        assert (Inc : forall n j, In (n, j) (t_indexes t) -> In (n, j) (t_indexes t')).
        { intros n j H. destruct X3 as [[-> _]|(_ & -> & _)]; [exact H|apply in_or_app; auto]. }
        assert (Cov : forall c, covered t c -> covered t' c) by (intros c (n & j & C1 & C2); exists n, j; auto).
        assert (Bin : b = true -> In k (def_bare all)) by (intros ->; apply in_def_bare; exact Din).
        constructor.
        * exact X1.
        * intros n j H.
          assert (C : In (n, j) (t_indexes t) \/ (b = true /\ n = k_column k /\ ix_columns j = [n] /\ existsb (def_index_on (k_column k)) all = false)).
          { destruct X3 as [[X3 _]|(Xb & X3 & X4)]; rewrite X3 in H; [auto|]. apply in_app_or in H as [H|[H|[]]]; [auto|].
            injection H as <- <-. right. auto. }
          destruct C as [C|(Xb & -> & C2 & C3)].
          -- destruct (S2 n j C) as (Z & [(K1 & K2)|[(p & K1 & K2)|((k0 & K1 & K2) & K3)]]); (split; [exact Z|]).
             ++ left. auto.
             ++ right; left. exists p. auto.
             ++ right; right. split; [exists k0; auto|exact K3].
          -- split; [apply all_columns; auto|]. right; right. subst b. split; [exists k; auto|]. split; [exact C2|].
             intros i Hi Hc. assert (Y : existsb (def_index_on (k_column k)) all = true); [|congruence].
             apply existsb_exists. exists (DefIndex i). split; [exact Hi|]. simpl. apply smem_iff. exact Hc.
        * intros j H. apply Bk in H as [H|H]; [|discriminate]. destruct (S3 j H) as (n & Hn). eauto.
        * intros n H. rewrite X2 in H. apply Cs in H as [H|H]; rewrite fk_names_app; apply in_or_app; [auto|].
          right. unfold fk_names. simpl. left. congruence.
        * intros k0 H. rewrite X2, Cs. apply Bk in H as [H|H].
          -- destruct (S5 k0 H) as (A & [C|C]); split; auto.
          -- injection H as Hb Hk. subst k0. rewrite <- Hb in *. clear Hb. rewrite Nk. split; [auto|].
             destruct X3 as [[X3 X4]|(_ & X3 & _)].
             ++ destruct (X4 eq_refl) as [Y|Y].
                ** apply orb_true_iff in Y as [Y|Y].
                   --- apply dmem_iff in Y. unfold dkeys in Y. apply in_map_iff in Y as ([m i] & Em & Y). simpl in Em. subst m.
                       destruct (S2 _ _ Y) as (_ & [(K1 & K2)|[(p & K1 & K2 & K3 & K4)|(_ & K3 & _)]]).
                       +++ right. exists i. assert (Iin : In (DefIndex i) all) by (rewrite E; apply in_or_app; auto).
                           split; [exact Iin|]. apply all_cover; [apply Bin; reflexivity|apply in_def_indexes; exact Iin|congruence].
                       +++ left. apply Cov. exists (k_column k), i. rewrite K4. split; [exact Y|left; reflexivity].
                       +++ left. apply Cov. exists (k_column k), i. rewrite K3. split; [exact Y|left; reflexivity].
                   --- apply existsb_exists in Y as (i & Hi & Hc). apply dvals_in in Hi as (n & Hn). left. apply Cov. exists n, i.
                       split; [exact Hn|apply smem_iff; exact Hc].
                ** apply existsb_exists in Y as (d0 & Hd & Hc). destruct d0; simpl in Hc; try discriminate. right. eexists.
                   split; [exact Hd|apply smem_iff; exact Hc].
             ++ left. exists (k_column k), (mkIndex (k_column k) [k_column k] IIndex []). rewrite X3. split; [apply in_or_app; right; left; reflexivity|left; reflexivity].
    - discriminate.
  Qed.

  Lemma fold_so_far post : forall pre t t', all = pre +++ post -> so_far pre t ->
    foldM (process_def all) post t = Ok t' -> so_far all t'.
  Proof.
    induction post as [|d post IH]; intros pre t t' E SF F; simpl in F.
    - injection F as <-. rewrite app_nil_r in E. rewrite E. exact SF.
    - apply bind_ok in F as (t1 & F1 & F). apply (IH (pre +++ [d]) t1); [|eapply step_so_far; eauto|exact F].
      rewrite <- app_assoc. exact E.
  Qed.
  Lemma bare_indexed t0 t : t_name t0 = tname -> t_indexes t0 = [] -> t_constraints t0 = [] ->
    foldM (process_def all) all t0 = Ok t -> forall k, In k (def_bare all) ->
    In (bare_name tname k) (dkeys (t_constraints t)) /\ covered t (k_column k).
  Proof.
    intros H1 H2 H3 F k K. assert (SF : so_far all t).
    { apply (fold_so_far all [] t0 t); auto. constructor; rewrite ?H2, ?H3; try (intros; contradiction). exact H1. }
    apply in_def_bare in K. destruct (sf_bare _ _ SF k K) as (A & [B|(j & B1 & B2)]); split; auto.
    destruct (sf_index _ _ SF j B1) as (n & Hn). exists n, j. auto.
  Qed.
End Bare.
