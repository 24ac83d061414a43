(** C32-C35, C37, C40, C42: validation of tables and databases. *)
From Verif Require Import ValidGlobal Samples.

Definition fresh_all (ts : tables) : dict string tobj := map (fun p => (fst p, fresh (snd p))) ts.

Lemma fresh_all_plain ts : plain_tables (fresh_all ts) = ts.
Proof. apply (plain_new ts None [] []). Qed.
Lemma fresh_all_kept ts : (forall n t, In (n, t) ts -> kept t) -> all_tables kept (fresh_all ts).
Proof. intros H n o Ho. apply in_map_iff in Ho as ((m, t) & [= <- <-] & Ht). eauto. Qed.

Lemma scan_pure_others ts l : (forall p, In p l -> exists t, dget (fst p) ts = Some t) -> forall names,
  (filter (fun m => negb (is_dup m)) (scan_pure ts l names) = [] <->
   forall tn kn k t, In (tn, (kn, k)) l -> dget tn ts = Some t -> fk_err ts t k = []).
Proof.
  induction l as [|[tn [kn k]] l IH]; intros H names; simpl; [split; [intros _ ? ? ? ? []|reflexivity]|].
  destruct (H _ (or_introl eq_refl)) as (t & Et). simpl in Et. rewrite Et.
  assert (H' : forall p, In p l -> exists t, dget (fst p) ts = Some t) by (intros; apply H; right; assumption).
  assert (F : filter (fun m => negb (is_dup m)) (fk_err ts t k) = fk_err ts t k).
  { unfold fk_err. destruct (constraint_error ts t k) as [[m|]|] eqn:E; simpl; try reflexivity.
    rewrite (constraint_msg _ _ _ _ E). reflexivity. }
  assert (G : forall X, filter (fun m => negb (is_dup m)) (fk_err ts t k +++ X) = [] <->
                        fk_err ts t k = [] /\ filter (fun m => negb (is_dup m)) X = []).
  { intros X. rewrite filter_app, F. split; [apply app_eq_nil|]. intros [-> ->]. reflexivity. }
  assert (A : (forall tn' kn' k' t', In (tn', (kn', k')) ((tn, (kn, k)) :: l) -> dget tn' ts = Some t' -> fk_err ts t' k' = [])
    <-> fk_err ts t k = [] /\ forall tn' kn' k' t', In (tn', (kn', k')) l -> dget tn' ts = Some t' -> fk_err ts t' k' = []).
  { split.
    - intros X. split; [apply (X tn kn k t (or_introl eq_refl) Et)|]. intros; eapply X; [right|]; eassumption.
    - intros [X1 X2] tn' kn' k' t' [[= <- <- <-]|Hi] E; [congruence|eauto]. }
  simpl in A. rewrite A. destruct (dget (k_name k) names) as [first|].
  - rewrite G. simpl. rewrite (IH H' names). reflexivity.
  - rewrite G. rewrite (IH H' _). reflexivity.
Qed.

Lemma get_in_nodup (ts : tables) n t : NoDup (dkeys ts) -> In (n, t) ts -> dget n ts = Some t.
Proof. intros N H. apply (dget_iff _ _ _ N), H. Qed.

(** ** C32 *)

(** One foreign key, as [unfulfilled_fks] and [errors] test it. *)
Theorem C32_foreign_key_exact : forall ts t k,
  kept t -> (forall ft, dget (k_ftable k) ts = Some ft -> kept ft) ->
  exists e, constraint_error ts t k = Ok e /\ (e = None <-> exists ft c fc, fk_satisfied ts t k ft c fc).
Proof. exact constraint_error_iff. Qed.

(** All foreign keys of a database. *)
Theorem C32_database_foreign_keys_exact : forall ts,
  NoDup (dkeys ts) -> (forall n t, In (n, t) ts -> kept t) ->
  exists l, snd (database_schema_errors (fresh_all ts)) = Ok l
    /\ (filter (fun m => negb (String.prefix "Duplicate foreign key:" m)) l = [] <->
        forall n t kn k, In (n, t) ts -> In (kn, k) (t_constraints t) ->
          exists ft c fc, fk_satisfied ts t k ft c fc).
Proof.
  intros ts N K. destruct (database_schema_ok (fresh_all ts) (fresh_all_kept ts K)) as (E & _ & _).
  rewrite fresh_all_plain in E. eexists. split; [exact E|].
  change (fun m => negb (String.prefix "Duplicate foreign key:" m)) with (fun m => negb (is_dup m)).
  rewrite scan_pure_others.
  2:{ intros [tn q] H. apply all_fks_in in H as (t & Ht & _). exists t. apply get_in_nodup; assumption. }
  assert (X : forall n t kn k, In (n, t) ts -> In (kn, k) (t_constraints t) ->
            (fk_err ts t k = [] <-> exists ft c fc, fk_satisfied ts t k ft c fc)).
  { intros n t kn k Ht Hk. destruct (constraint_error_iff ts t k (K n t Ht)) as (e & Ee & He).
    { intros ft Hf. apply dget_in in Hf. eauto. }
    unfold fk_err. rewrite Ee, <- He. destruct e; split; congruence. }
  split.
  - intros H n t kn k Ht Hk. apply (X n t kn k Ht Hk). apply (H n kn k t); [apply all_fks_in; eauto|apply get_in_nodup; assumption].
  - intros H tn kn k t Hp Et. apply all_fks_in in Hp as (t' & Ht' & Hk).
    rewrite (get_in_nodup ts tn t' N Ht') in Et. inversion Et; subst. apply (X tn t kn k Ht' Hk). eauto.
Qed.

(** The public query for one table. *)
Theorem C32_unfulfilled_exact : forall ts t,
  kept t -> (forall n ft, In (n, ft) ts -> kept ft) ->
  exists l, unfulfilled_fks ts t = Ok l
    /\ forall n k, In (n, k) (t_constraints t) ->
         ((exists m, In (n, (m, k)) l) <-> ~ exists ft c fc, fk_satisfied ts t k ft c fc).
Proof.
  intros ts t K KF. unfold unfulfilled_fks.
  assert (X : forall k, exists e, constraint_error ts t k = Ok e /\ (e = None <-> exists ft c fc, fk_satisfied ts t k ft c fc)).
  { intros k. apply constraint_error_iff; [exact K|]. intros ft Hf. apply dget_in in Hf. eauto. }
  induction (t_constraints t) as [|[n k] d IH]; simpl.
  - exists []. split; [reflexivity|]. intros n k [].
  - destruct IH as (l & El & Hl). destruct (X k) as (e & Ee & He). rewrite Ee. simpl.
    destruct (mapM _ d) as [ls|] eqn:Em; simpl in El |- *; [|discriminate]. inversion El; subst l.
    eexists. split; [reflexivity|]. intros m j [[= <- <-]|Hj].
    + rewrite <- He. destruct e as [msg|]; simpl.
      * split; [intros _; discriminate|]. intros _. exists msg. left; reflexivity.
      * split; [|congruence]. intros (mm & Hm). exfalso.
        (* the tail lists only unsatisfied keys *)
        assert (Y : forall d' ls', mapM (fun p : string * constraint => rmap (fun e : option string => match e with Some m => [(fst p, (m, snd p))] | None => [] end)
                     (constraint_error ts t (snd p))) d' = Ok ls' ->
                   forall a b c, In (a, (b, c)) (concat ls') -> constraint_error ts t c = Ok (Some b)).
        { clear. induction d' as [|[x y] d' IH]; simpl; intros ls' H a b c Hi; [inversion H; subst; destruct Hi|].
          destruct (constraint_error ts t y) as [o|] eqn:E; simpl in H; [|discriminate].
          destruct (mapM _ d') as [ls''|]; simpl in H; [|discriminate]. inversion H; subst. simpl in Hi. apply in_app_iff in Hi as [Hi|Hi].
          - destruct o; simpl in Hi; [destruct Hi as [[= <- <- <-]|[]]; exact E|destruct Hi].
          - eapply IH; eauto. }
        rewrite (Y d ls Em _ _ _ Hm) in Ee. discriminate.
    + specialize (Hl m j Hj). rewrite <- Hl. destruct e as [msg|]; simpl; [|reflexivity].
      split; intros (x & Hx); [|exists x; right; exact Hx].
      destruct Hx as [[= <- <- <-]|Hx]; [|exists x; exact Hx].
      (* the head is the very same key: the tail reports it too *)
      apply Hl. rewrite <- He. discriminate.
Qed.

(** ** C33 *)
Theorem C33_duplicate_names_exact : forall ts,
  (forall n t, In (n, t) ts -> kept t) ->
  exists l, snd (database_schema_errors (fresh_all ts)) = Ok l
    /\ let dups := filter (String.prefix "Duplicate foreign key:") l in
       let names := concat (map (fun p => map (fun q => k_name (snd q)) (t_constraints (snd p))) ts) in
       (List.length dups + List.length (nodup string_dec names) = List.length names)%nat
       /\ (dups = [] <-> NoDup names).
Proof.
  intros ts K. destruct (database_schema_ok (fresh_all ts) (fresh_all_kept ts K)) as (E & _ & _).
  rewrite fresh_all_plain in E. eexists. split; [exact E|]. cbv zeta.
  change (String.prefix "Duplicate foreign key:") with is_dup.
  assert (En : concat (map (fun p => map (fun q => k_name (snd q)) (t_constraints (snd p))) ts) = map fk_name_of (all_fks ts)).
  { unfold all_fks. rewrite concat_map, map_map. f_equal. apply map_ext. intros [n t]. simpl. rewrite map_map. reflexivity. }
  pose proof (duplicates_count ts) as D. rewrite En.
  assert (L : List.length (map fk_name_of (all_fks ts)) = List.length (all_fks ts)) by apply map_length.
  split; [lia|]. split.
  - intros Z. rewrite Z in D. simpl in D. apply (@NoDup_incl_NoDup _ (nodup string_dec (map fk_name_of (all_fks ts)))).
    + apply NoDup_nodup.
    + lia.
    + intros x Hx. apply nodup_In in Hx. exact Hx.
  - intros Z. rewrite (nodup_fixed_point string_dec Z), L in D.
    destruct (filter is_dup _); [reflexivity|simpl in D; lia].
Qed.

Section Theorems.
  Context {FO : FloatOracle}.

  (** ** C34 *)
  (** A column reports no error exactly when it is sound; in every other case it reports one or
      the question raises. *)
  Theorem C34_column_validation_exact : forall c, column_errors c = Ok [] <-> column_sound c.
  Proof. exact column_errors_nil. Qed.

  Theorem C34_table_validation_exact : forall t,
    kept t -> NoDup (dkeys (t_columns t)) -> NoDup (dkeys (t_indexes t)) ->
    (forall n c, In (n, c) (t_columns t) -> exists l, column_errors c = Ok l) ->
    exists l, table_errors t = Ok l /\ (l = [] <-> table_sound t).
  Proof. exact table_errors_iff. Qed.

  (** ** C35 *)
  (** Full statement: for every table with a schema error, also when asking the table raises.
      False then, see [C35_refuted]. *)
  Theorem C35_table_errors_reach_database_partial : forall ts rows ge gw b errs n t l,
    db_errors (new_database ts rows ge gw) = (b, Ok errs) ->
    In (n, t) ts -> table_errors t = Ok l -> incl l errs.
  Proof. exact table_errors_reach. Qed.

  (** ** C37 *)
  (** Full statement: without the conditions on columns and rows.  False, see [C37_refuted]. *)
  Theorem C37_validation_returns_partial : forall ts d ge gw,
    (forall n t, In (n, t) ts -> kept t /\ forall m c, In (m, c) (t_columns t) -> checkable c) ->
    (forall n l r, In (n, l) d -> In r l -> r_explicit r <> 0) ->
    exists l, snd (db_errors (new_database ts (Some d) ge gw)) = Ok l.
  Proof. intros ts d ge gw H R. apply db_errors_returns; [exact H|]. exists d. auto. Qed.

  (** The columns whose validation ends in an exception that [hasattr] does not swallow. *)
  Theorem C37_raising_columns : forall c,
    (exists e, column_errors c = Raise e /\ forall m, e <> AttributeError m) <-> ~ checkable c.
  Proof.
    intros c. split.
    - intros (e & E & N) C. unfold column_errors in E. destruct (column_checked c) as [l [x|]] eqn:Ec; [|discriminate].
      inversion E; subst. destruct (checkable_exn c e C) as (m & ->); [rewrite Ec; reflexivity|]. eapply N; reflexivity.
    - intros N. destruct (not_checkable_raises c N) as (l & e & E & H). exists e. unfold column_errors. rewrite E. auto.
  Qed.

  (** ** C40 *)
  (** Whatever was recorded on the tables, the database's errors are the same. *)
  Definition with_messages (t : table) (m : list string) : table :=
    mkTable (t_name t) (t_columns t) (t_indexes t) (t_constraints t) (t_options t) (t_primary t) (t_indexed t)
      (t_rows t) (t_tracking t) m (t_global_warnings t) (t_ordered t).
  Theorem C40_table_messages_ignored : forall ts rows ge gw (f : string -> list string),
    snd (db_errors (new_database (map (fun p => (fst p, with_messages (snd p) (f (fst p)))) ts) rows ge gw))
    = snd (db_errors (new_database ts rows ge gw)).
  Proof.
    intros ts rows ge gw f. apply eqvb_errors. repeat split; simpl. rewrite map_map.
    induction ts as [|[n t] ts IH]; simpl; constructor; auto. simpl. split; [reflexivity|]. repeat split.
  Qed.

  (** ** C42 *)
  (** Full statement: for every database and every history.  False, see [C42_refuted]. *)
  Theorem C42_errors_follow_the_structure_partial : forall ts rows ge gw evs,
    (forall n t, In (n, t) ts -> calm t) -> (forall e, In e evs -> calm_event e) ->
    let b := history (new_database ts rows ge gw) evs in
    snd (db_errors b) = snd (db_errors (rebuilt b)).
  Proof.
    intros ts rows ge gw evs H E b. apply rebuilt_same, history_tidy; [apply new_tidy, H|exact E].
  Qed.
  (** Asking twice gives the same list, in every state of every database. *)
  Theorem C42_asking_again : forall b b' l, db_errors b = (b', Ok l) -> db_errors b' = (b', Ok l).
  Proof. exact db_errors_again. Qed.
End Theorems.

(** ** Examples: the hypotheses are met *)

Definition keptb (t : table) : bool :=
  forallb (fun p => String.eqb (c_name (snd p)) (fst p)) (t_columns t)
  && forallb (fun p => negb (list_is_nil (ix_columns (snd p)))) (t_indexes t)
  && opt_is_none (t_indexed t).
Lemma keptb_ok t : keptb t = true -> kept t.
Proof.
  unfold keptb. rewrite !andb_true_iff, !forallb_forall. intros [[H1 H2] H3]. constructor.
  - intros n c Hc. apply H1 in Hc. apply String.eqb_eq, Hc.
  - intros n i Hi E. apply H2 in Hi. simpl in Hi. rewrite E in Hi. discriminate.
  - intros s E. rewrite E in H3. discriminate.
Qed.
Definition calmb {FO : FloatOracle} (t : table) : bool :=
  keptb t
  && forallb (fun p => list_is_nil (c_perrors (snd p))) (t_columns t)
  && forallb (fun p => list_is_nil (ix_perrors (snd p))) (t_indexes t)
  && forallb (fun p => list_is_nil (k_perrors (snd p))) (t_constraints t)
  && forallb (fun p => match column_errors (snd p) with Ok _ => true | Raise _ => false end) (t_columns t).
Lemma calmb_ok {FO : FloatOracle} t : calmb t = true -> calm t.
Proof.
  unfold calmb. rewrite !andb_true_iff, !forallb_forall. intros [[[[H1 H2] H3] H4] H5].
  split; [apply keptb_ok, H1|]. split.
  - repeat split; intros n c Hc; [apply H2 in Hc|apply H3 in Hc|apply H4 in Hc]; simpl in Hc;
      match type of Hc with list_is_nil ?l = true => destruct l; [reflexivity|discriminate] end.
  - intros n c Hc. apply H5 in Hc. simpl in Hc. destruct (column_errors c); [eauto|discriminate].
Qed.

(** Orders referring to users, with an index; then without it. *)
Definition users : table := tbl "users" [id_col; varchar_col "name" "255"] [mkIndex "id" ["id"] IPrimary []] [].
Definition user_id : column := int_col "user_id".
Definition orders (ixs : list index) (ks : list constraint) : table :=
  tbl "orders" [id_col; user_id] (mkIndex "id" ["id"] IPrimary [] :: ixs) ks.
Definition good_orders := orders [key "user_id" ["user_id"]] [fk "orders_user" "user_id" "users" "id"].
Definition bare_orders := orders [] [fk "orders_user" "user_id" "users" "id"].

Example ex_C32_satisfied : exists ft c fc, fk_satisfied (db [users; good_orders]) good_orders (fk "orders_user" "user_id" "users" "id") ft c fc.
Proof.
  exists users, user_id, id_col. constructor; try reflexivity; try (split; intros; assumption).
  - exists "user_id", (key "user_id" ["user_id"]), []. split; [vm_compute; auto|reflexivity].
  - exists "id", (mkIndex "id" ["id"] IPrimary []), []. split; [vm_compute; auto|reflexivity].
  - intros [E|E]; discriminate.
Qed.
Example ex_C32_unsatisfied :
  constraint_error (db [users; bare_orders]) bare_orders (fk "orders_user" "user_id" "users" "id") =
  Ok (Some "Constraint error for foreign key `orders_user`: missing index. `orders`.`user_id` does not have an index and therefore cannot be used in a foreign key constraint").
Proof. reflexivity. Qed.
Example ex_C32_kept : forall n t, In (n, t) (db [users; good_orders; bare_orders]) -> kept t.
Proof. intros n t [[= <- <-]|[[= <- <-]|[[= <- <-]|[]]]]; apply keptb_ok; reflexivity. Qed.

Definition orders2 : table :=
  tbl "orders2" [id_col; user_id] [mkIndex "id" ["id"] IPrimary []; key "user_id" ["user_id"]]
    [fk "orders_user" "user_id" "users" "id"].
Example ex_C33 : snd (database_schema_errors (fresh_all (db [users; good_orders; orders2]))) =
  Ok ["Duplicate foreign key: foreign key named 'orders_user' exists in tables 'orders' and 'orders2'"].
Proof. reflexivity. Qed.

Example ex_C34_column {FO : FloatOracle} :
  let enum d := mkColumn KEnum "state" "enum" LNone false true (DStr d) None None None None
                         (Some ["new"; "paid"]) [] [] in
  let text l := mkColumn KString "note" "text" l true false DNone None None None None None [] [] in
  column_sound (enum "paid") /\ ~ column_sound (enum "lost")
  /\ column_sound (text LNone) /\ ~ column_sound (text (LStr "10")).
Proof.
  cbv zeta. rewrite <- !column_errors_nil. repeat split; try reflexivity; intros H; vm_compute in H; discriminate.
Qed.

Example ex_C34_sound : table_errors good_orders = Ok [].
Proof. reflexivity. Qed.
Definition two_autos : table := tbl "t" [id_col; col0 KNumeric "n" "INT" (LStr "10") false DNone (Some false) (Some true)]
  [mkIndex "id" ["id"; "missing"] IPrimary []] [].
Example ex_C34_unsound : table_errors two_autos =
  Ok ["Table 't' has more than one AUTO_INCREMENT column";
      "Table 't' has index 'id' that references non-existent column 'missing'"].
Proof. reflexivity. Qed.
Example ex_C34_hypotheses : kept two_autos /\ NoDup (dkeys (t_columns two_autos)) /\ NoDup (dkeys (t_indexes two_autos))
  /\ forall n c, In (n, c) (t_columns two_autos) -> exists l, column_errors c = Ok l.
Proof.
  split; [apply keptb_ok; reflexivity|]. split; [apply nodupb_ok; reflexivity|]. split; [apply nodupb_ok; reflexivity|].
  apply (calmb_ok two_autos). reflexivity.
Qed.

Example ex_C35 : exists b, db_errors (new_database (db [users; two_autos]) (Some []) [] []) =
  (b, Ok ["Table 't' has more than one AUTO_INCREMENT column";
      "Table 't' has index 'id' that references non-existent column 'missing'"]).
Proof. eexists. vm_compute. reflexivity. Qed.

(** A VARCHAR column that counts up, before a DATE column: asking for the table's errors raises
    AttributeError, [hasattr] takes that for a table without errors. *)
Definition bad_name : column := col0 KString "name" "VARCHAR" (LStr "255") false (DStr "") None (Some true).
Definition dated : table := tbl "dated" [bad_name; date_col "born"] [mkIndex "name" ["name"] IPrimary []] [].
Theorem C35_refuted : forall FO : FloatOracle, exists ts n t cn c m,
  In (n, t) ts /\ In (cn, c) (t_columns t) /\ column_errors c = Ok [m]
  /\ snd (db_errors (new_database ts (Some []) [] [])) = Ok [].
Proof.
  intros FO. exists (db [dated]), "dated", dated, "name", bad_name.
  eexists. split; [left; reflexivity|]. split; [left; reflexivity|]. split; reflexivity.
Qed.

Definition bit_col : column := col0 KNumeric "flag" "BIT" LNone true DNone (Some false) (Some false).
Definition flags : table := tbl "flags" [bit_col] [] [].
Definition short_insert : rows_def := mkRows "users" [[RStr "1"; RStr "x"]] [] 0 [] [].
(** A BIT column without default; an INSERT without a column list; a live database object. *)
Theorem C37_refuted : forall FO : FloatOracle,
  (exists ts e, snd (db_errors (new_database ts (Some []) [] [])) = Raise e)
  /\ (exists ts d e, (forall n t, In (n, t) ts -> table_errors t = Ok [])
        /\ snd (db_errors (new_database ts (Some d) [] [])) = Raise e)
  /\ (forall ts, (forall n t, In (n, t) ts -> calm t) -> exists e, snd (db_errors (new_database ts None [] [])) = Raise e).
Proof.
  intros FO. split; [|split].
  - exists (db [flags]). eexists. vm_compute. reflexivity.
  - exists (db [users]), [("users", [short_insert])]. eexists. split; [|vm_compute; reflexivity].
    intros n t [[= <- <-]|[]]. reflexivity.
  - intros ts H. rewrite (proj1 (db_errors_tidy _ (new_tidy ts None [] [] H))). eexists. reflexivity.
Qed.
Example ex_C37 : forall n t, In (n, t) (db [users; good_orders; dated]) -> kept t /\ forall m c, In (m, c) (t_columns t) -> checkable c.
Proof.
  intros n t [[= <- <-]|[[= <- <-]|[[= <- <-]|[]]]]; (split; [apply keptb_ok; reflexivity|]);
    intros m c Hc; repeat (destruct Hc as [[= <- <-]|Hc]; [hnf; exact I || (intros E; discriminate E)|]); destruct Hc.
Qed.

(** Two rows with the same id: the message stays on the table. *)
Definition twice : rows_def := mkRows "users" [[RStr "1"; RStr "a"]; [RStr "1"; RStr "b"]] ["id"; "name"] 2 [] [].
Theorem C40_refuted : forall FO : FloatOracle, exists t m,
  t_global_errors (fst (add_rows users twice)) = [m] /\ t = fst (add_rows users twice)
  /\ snd (db_errors (new_database (db [t]) (Some [("users", [twice])]) [] [])) = Ok [].
Proof. intros FO. do 2 eexists. split; [vm_compute; reflexivity|]. split; reflexivity. Qed.

(** First the warnings, then the errors: the list differs from the one asked directly.  And a table
    added after the first question never shows the parser's messages about its columns. *)
Definition misread : table := tbl "misread" [mkColumn KNumeric "n" "INT" (LStr "10") true false DNone (Some false) None None (Some false) None
  ["Parser Error: missing semicolon"] []] [] [].
Theorem C42_refuted : forall FO : FloatOracle,
  (exists ts evs, let b := history (new_database ts (Some []) [] []) evs in
     evs = [AskWarnings] /\ snd (db_errors b) <> snd (db_errors (rebuilt b)))
  /\ (exists ts evs, let b := history (new_database ts (Some []) [] []) evs in
     (forall n t, In (n, t) ts -> calm t) /\ evs = [AskErrors; AddTable misread]
     /\ snd (db_errors b) <> snd (db_errors (rebuilt b))).
Proof.
  intros FO. split.
  - exists (db [dated]), [AskWarnings]. split; [reflexivity|]. vm_compute. discriminate.
  - exists (db [users]), [AskErrors; AddTable misread]. split; [|split; [reflexivity|vm_compute; discriminate]].
    intros n t [[= <- <-]|[]]. apply calmb_ok. reflexivity.
Qed.
(** A history that changes the error list. *)
Definition story : list dbevent :=
  [AskErrors; Apply "orders" (AddConstraint (fk "orders_user" "user_id" "users" "id")); AskErrors; RemoveTable "users"; AskWarnings].
Example ex_C42 : (forall n t, In (n, t) (db [users; orders [key "user_id" ["user_id"]] []]) -> calm t)
  /\ (forall e, In e story -> calm_event e)
  /\ snd (db_errors (new_database (db [users; orders [key "user_id" ["user_id"]] []]) (Some []) [] [])) = Ok []
  /\ snd (db_errors (history (new_database (db [users; orders [key "user_id" ["user_id"]] []]) (Some []) [] []) story)) =
     Ok ["Constraint error for foreign key `orders_user`: `orders`.`user_id` references `users`.`id`, but table `users` does not exist"].
Proof.
  split; [intros n t [[= <- <-]|[[= <- <-]|[]]]; apply calmb_ok; reflexivity|].
  split; [|split; vm_compute; reflexivity].
  intros e [<-|[<-|[<-|[<-|[<-|[]]]]]]; exact I || reflexivity.
Qed.

Print Assumptions C32_foreign_key_exact.
Print Assumptions C32_database_foreign_keys_exact.
Print Assumptions C32_unfulfilled_exact.
Print Assumptions C33_duplicate_names_exact.
Print Assumptions C34_column_validation_exact.
Print Assumptions C34_table_validation_exact.
Print Assumptions C35_table_errors_reach_database_partial.
Print Assumptions C35_refuted.
Print Assumptions C37_validation_returns_partial.
Print Assumptions C37_raising_columns.
Print Assumptions C37_refuted.
Print Assumptions C40_table_messages_ignored.
Print Assumptions C40_refuted.
Print Assumptions C42_errors_follow_the_structure_partial.
Print Assumptions C42_asking_again.
Print Assumptions C42_refuted.
