(** C52-C55, C60: what the tool renders is read back. *)
From Verif Require Import SpecRead RoundRead PropsParse PropsCommand Samples.

Local Opaque max_turns max_statements.

(** The text [s] is read as the single table [t], without errors and with nothing left over. *)
Definition reads_as (s : string) (t : table) : Prop :=
  forall file, read_sql file s = (mkReader [(t_name t, t)] [] [] true, Ok "").

Lemma alike_find {V} (R : V -> V -> Prop) d d' n v : alike_dict R d d' -> NoDup (dkeys d) -> In (n, v) d -> exists v', dget n d' = Some v' /\ R v v'.
Proof.
  induction 1 as [|[m x] [k y] d d' [H1 H2] F IH]; intros ND I; [contradiction|]. cbn [fst snd] in *. subst k. cbn [dget]. change (keqb n m) with (String.eqb n m). destruct I as [E|I].
  - injection E as -> ->. rewrite String.eqb_refl. exists y. auto.
  - inversion ND as [|? ? N1 N2]; subst. destruct (String.eqb_spec n m) as [->|N]; [|apply IH; assumption]. exfalso. apply N1. eapply in_dkeys, I.
Qed.
Lemma dvals_in {V} (f : V -> string) (d : dict string V) v : (forall n x, In (n, x) d -> f x = n) -> In v (dvals d) -> In (f v, v) d.
Proof. intros H I. apply in_map_iff in I as ([n x] & E & I). cbn [snd] in E. subst x. rewrite (H n v I). exact I. Qed.
Lemma normal_trim s : normalize s = s -> trim s = true.
Proof.
  intros E. assert (N : neat s = true) by (rewrite <- E; apply neat_normalize). rewrite (normalize_neat _ N) in E. rewrite <- E. apply strip_trim, N.
Qed.
Lemma reads_create nice t t' : create_parse (create_str nice t) = Ok (Some t', "") -> reads_as (create_str nice t) t'.
Proof. intros P file. apply read_create, P. Qed.

Section Theorems.
  Context {FO : FloatOracle}.

  (** ** C52 *)

  (** A foreign key's text, in a statement that creates a table, is read as a foreign key with the
      same name, columns, table and actions. *)
  Theorem C52_foreign_key_read_back : forall nice t k, readable_table t -> In k (dvals (t_constraints t)) ->
    exists t' k', reads_as (create_str nice t) t' /\ dget (k_name k) (t_constraints t') = Some k' /\ alike_fk k k'
      /\ k_perrors k' = [] /\ k_pwarnings k' = [].
  Proof.
    intros nice t k R I. destruct (create_read nice t R) as (t' & P & _ & _ & _ & F & _). pose proof (rt_wf t R) as W.
    apply (dvals_in k_name) in I; [|apply W]. destruct (alike_find _ _ _ _ _ F (wf_fks t W) I) as (k' & D & Q).
    exists t', k'. split; [apply reads_create, P|]. split; [exact D|]. exact Q.
  Qed.
  (** The definition on its own: before a comma, or before the closing parenthesis. *)
  Theorem C52_definition_read_back : forall k next, readable_fk k -> normalize next = next -> next <> "" ->
    (exists k', best_child definition_classes (constraint_str k ++ ", " ++ next) None = Ok (Some (DefFk false k', next)) /\ alike_fk k k')
    /\ (exists k', best_child definition_classes (constraint_str k ++ ")") None = Ok (Some (DefFk false k', ")")) /\ alike_fk k k').
  Proof.
    intros k next R T N. split.
    - destruct (fk_round k (EComma next) R (conj (normal_trim _ T) N) (calm_comma next)) as (k' & B & A & _). exists k'. split; assumption.
    - destruct (fk_round k (EClose false "") R eq_refl (calm_close false "")) as (k' & B & A & _). exists k'. split; assumption.
  Qed.

  (** ** C53 *)
  Theorem C53_index_read_back_partial : forall nice t i, readable_table t -> In i (dvals (t_indexes t)) ->
    exists t' i', reads_as (create_str nice t) t' /\ dget (ix_name i) (t_indexes t') = Some i' /\ alike_index i i' /\ ix_perrors i' = [].
  Proof.
    intros nice t i R I. destruct (create_read nice t R) as (t' & P & _ & _ & F & _). pose proof (rt_wf t R) as W.
    apply (dvals_in ix_name) in I; [|apply W]. destruct (alike_find _ _ _ _ _ F (wf_keys t W) I) as (i' & D & Q).
    exists t', i'. split; [apply reads_create, P|]. split; [exact D|]. exact Q.
  Qed.
  Theorem C53_definition_read_back_partial : forall i next, readable_index i -> normalize next = next -> next <> "" ->
    (exists i', best_child definition_classes (index_str i ++ ", " ++ next) None = Ok (Some (DefIndex i', next)) /\ alike_index i i')
    /\ (exists i', best_child definition_classes (index_str i ++ ")") None = Ok (Some (DefIndex i', ")")) /\ alike_index i i').
  Proof.
    intros i next R T N. split.
    - destruct (index_read i (EComma next) R (conj (normal_trim _ T) N)) as (i' & B & A & _). exists i'. split; assumption.
    - destruct (index_read i (EClose false "") R eq_refl) as (i' & B & A & _). exists i'. split; assumption.
  Qed.

  (** ** C54 *)
  Theorem C54_column_read_back_partial : forall nice t c, readable_table t -> In c (dvals (t_columns t)) ->
    exists t' c', reads_as (create_str nice t) t' /\ dget (c_name c) (t_columns t') = Some c' /\ alike_column c c' /\ c_perrors c' = []
      /\ column_changed c c' = Ok false.
  Proof.
    intros nice t c R I. destruct (create_read nice t R) as (t' & P & _ & F & _). pose proof (rt_wf t R) as W.
    apply (dvals_in c_name) in I; [|apply W]. destruct (alike_find _ _ _ _ _ F (wf_cols t W) I) as (c' & D & A & Q).
    exists t', c'. split; [apply reads_create, P|]. split; [exact D|]. split; [exact A|split; [exact Q|]].
    unfold column_changed. rewrite (sc_text _ _ A), String.eqb_refl. reflexivity.
  Qed.
  Theorem C54_definition_read_back_partial : forall c next, readable_column c -> normalize next = next -> next <> "" ->
    (exists p c', best_child definition_classes (column_str c ++ ", " ++ next) None = Ok (Some (DefCol p, next))
        /\ as_definition p = Ok c' /\ alike_column c c')
    /\ (exists p c', best_child definition_classes (column_str c ++ ")") None = Ok (Some (DefCol p, ")"))
        /\ as_definition p = Ok c' /\ alike_column c c').
  Proof.
    intros c next R T N. split.
    - destruct (column_read c (EComma next) R (conj (normal_trim _ T) N)) as (p & c' & B & D & A & _). exists p, c'. auto.
    - destruct (column_read c (EClose false "") R eq_refl) as (p & c' & B & D & A & _). exists p, c'. auto.
  Qed.

  (** ** C55 *)

  (** The statement is read as one table, which has the same parts in the same order, renders the
      same statement, and does not differ from the original in either direction. *)
  Theorem C55_create_read_back_partial : forall nice t, readable_table t ->
    exists t', reads_as (create_str nice t) t' /\ alike_table t t' /\ t_global_errors t' = []
      /\ diff t t' = Ok [] /\ diff t' t = Ok []
      /\ diff_split t t' = Ok (mkSplit None None None) /\ diff_split t' t = Ok (mkSplit None None None)
      /\ forall nice', create_str nice' t' = create_str nice' t.
  Proof.
    intros nice t R. destruct (create_read nice t R) as (t' & P & A & _ & _ & _ & G & _). exists t'.
    destruct (alike_diff t t' A (rt_wf t R)) as [[D1 D2] [D3 D4]].
    repeat (split; [first [assumption | apply reads_create; assumption]|]). intros nice'. apply alike_create, A.
  Qed.

  (** A directory with one file per table: the files are read as tables alike to the originals;
      reading the statements of those tables, as files or from a server, gives exactly the same
      tables again, and the plan between them is empty. *)
  Theorem C55_directory_partial : forall nice ts srcs, Forall readable_table ts -> NoDup (map t_name ts) ->
    map snd srcs = map (create_str nice) ts ->
    exists b live ts', file_database srcs = Ok b /\ live_database (map (create_str nice) ts') = Ok live
      /\ db_tables b = map (fun t => (t_name t, t)) ts' /\ db_tables live = db_tables b
      /\ Forall2 alike_table ts ts' /\ d_global_errors b = [] /\ d_global_errors live = []
      /\ (forall t t', In (t, t') (combine ts ts') -> diff t t' = Ok [] /\ diff t' t = Ok [])
      /\ plan_tables false (db_tables b) (Some (db_tables live)) = Ok [].
  Proof.
    intros nice ts srcs R N S. destruct (render_all nice ts R) as (ts' & F & A). pose proof (alike_names _ _ A) as E.
    pose proof (renders_texts _ _ _ F) as T. rewrite <- E in N.
    exists (files_of ts'), (live_of ts'), ts'.
    split; [apply (read_files (renders nice) (renders_read nice)); [rewrite S; exact F|exact N]|].
    split; [rewrite <- T; apply (read_server (renders nice) (renders_read nice)); [exact F|exact N]|].
    assert (D : db_tables (files_of ts') = map (fun t => (t_name t, t)) ts') by apply entry_tables.
    split; [exact D|]. split; [reflexivity|]. split; [exact A|]. split; [reflexivity|split; [reflexivity|]].
    assert (W : forall t t', In (t, t') (combine ts ts') -> alike_table t t' /\ wf_table t).
    { clear - R A. induction A as [|t t' ts ts' A F IH]; [contradiction|]. inversion R as [|? ? R1 R2]; subst. intros u u' [Q|Q].
      - injection Q as <- <-. split; [exact A|apply R1].
      - apply IH; assumption. }
    split.
    - intros t t' I. destruct (W t t' I) as [Al Wf]. destruct (alike_diff t t' Al Wf) as [[D1 _] [D2 _]]. auto.
    - change (db_tables (live_of ts')) with (db_tables (files_of ts')). rewrite D. apply plan_self. split.
      + unfold dkeys. rewrite map_map. exact N.
      + intros n t I. apply in_map_iff in I as (x & Q & I). injection Q as <- <-. split; [reflexivity|].
        clear - R A I. induction A as [|t t' ts ts' A F IH]; [contradiction|]. inversion R as [|? ? R1 R2]; subst. destruct I as [<-|I]; [|apply IH; assumption].
        apply (alike_wf t); [exact A|apply R1].
  Qed.
End Theorems.

(** ** A table that meets the hypotheses *)

Lemma undashed s : sforall no_dash s = true -> dashless s.
Proof. intros H a b ->. rewrite !sforall_app in H. apply andb_true_iff in H as [_ H]. discriminate. Qed.
Lemma clean_nameb s : negb (is_empty s) && sforall name_ok_char s && sforall no_dash s = true -> clean_name s.
Proof.
  rewrite !andb_true_iff. intros [[A B] C]. split; [intros ->; discriminate|split; [exact B|apply undashed, C]].
Qed.
Lemma clean_textb s : sforall plain_char s && sforall no_dash s = true -> clean_text s.
Proof. rewrite andb_true_iff. intros [A B]. split; [exact A|apply undashed, B]. Qed.
Lemma digitsb s : negb (is_empty s) && sforall is_digit s = true -> digits s.
Proof. rewrite andb_true_iff. intros [A B]. split; [intros ->; discriminate|exact B]. Qed.

Definition note_col : column :=
  mkColumn KString "note" "varchar" (LStr "255") true true (DStr "n/a") None (Some "utf8mb4") (Some "utf8mb4_bin") None None [] [].
Definition price_col : column := col0 KNumeric "price" "DECIMAL" (LStr "10,2") false (DStr "0.00") (Some true) None.
Definition count_col : column := col0 KNumeric "count" "int" (LInt 10) false (DInt 0) (Some true) None.
Definition body_col : column := col0 KString "body" "TEXT" LNone true DNone None None.
Definition option_of (n v : string) : toption := mkOption n v.
Definition sample_table : table :=
  mkTable "orders"
    (dict_of c_name [id_col; int_col "user_id"; note_col; price_col; count_col; date_col "due"; body_col])
    (dict_of ix_name [primary_key ["id"]; unique_key "" ["note"]; unique_key "u" ["price"; "due"]; key "user_id_ind" ["user_id"]])
    (dict_of k_name [fk "orders_user_fk" "user_id" "users" "id"])
    [option_of "ENGINE" "InnoDB"; option_of "DEFAULT CHARSET" "utf8mb4"] (Some (primary_key ["id"])) None None false [] [] true.

Ltac one_length n := exists (OneNumber n); split; [apply has_one; [reflexivity|reflexivity|apply digitsb; reflexivity]|split; [try (intros H; exfalso; apply H; reflexivity); auto|exact I]].
Ltac plain_col := constructor; [apply clean_nameb; reflexivity|cbn; tauto|reflexivity| |try exact I; try (apply clean_textb; reflexivity); try (cbn; lia)|apply clean_textb; reflexivity|apply clean_textb; reflexivity].
Lemma ex_readable_columns : Forall readable_column [id_col; int_col "user_id"; note_col; price_col; count_col; date_col "due"; body_col].
Proof.
  repeat (apply Forall_cons || apply Forall_nil); plain_col.
  - one_length "10".
  - one_length "10".
  - exists (OneNumber "255"). split; [apply has_one; [reflexivity|reflexivity|apply digitsb; reflexivity]|]. split; [split; reflexivity|exact I].
  - exists (TwoNumbers "10" "2"). split; [apply has_two; [reflexivity|reflexivity|apply digitsb; reflexivity|apply digitsb; reflexivity]|]. split; [intros H; exfalso; apply H; reflexivity|split; reflexivity].
  - one_length "10".
  - exists NoLength. split; [apply has_none; reflexivity|]. split; [intros H; exfalso; apply H; reflexivity|right; discriminate].
  - exists NoLength. split; [apply has_none; reflexivity|]. split; [intros H; exfalso; apply H; reflexivity|right; discriminate].
Qed.
Lemma ex_readable_option (n v : string) ws : ws <> [] -> forallb (fun w => negb (is_empty w) && sforall option_name_char w) ws = true -> n = join " " ws ->
  Nat.leb (String.length n) 30 = true -> sforall no_dash n && sforall no_dash v && negb (is_empty v) && sforall option_value_char v = true -> n <> "AUTO_INCREMENT" ->
  readable_option (option_of n v).
Proof.
  intros N F E L H A. rewrite !andb_true_iff in H. destruct H as [[[H1 H2] H3] H4]. split; [|exact A]. constructor.
  - exists ws. split; [exact N|split; [|exact E]]. apply Forall_forall. intros w I. rewrite forallb_forall in F. specialize (F w I). apply andb_true_iff in F as [F1 F2].
    split; [intros ->; discriminate|exact F2].
  - split; [apply Nat.leb_le, L|apply undashed, H1].
  - split; [|split; [exact H4|apply undashed, H2]]. cbn. intros ->. discriminate.
Qed.
Lemma ex_readable_table : readable_table sample_table.
Proof.
  constructor.
  - apply wf_tableb_ok. reflexivity.
  - apply clean_nameb. reflexivity.
  - apply ex_readable_columns.
  - repeat (apply Forall_cons || apply Forall_nil); (constructor; [split; [discriminate|]|]).
    all: cbn; try (repeat (apply Forall_cons || apply Forall_nil); apply clean_nameb; reflexivity); try reflexivity; try (left; reflexivity); try (right; apply clean_nameb; reflexivity); try (apply clean_nameb; reflexivity).
  - repeat (apply Forall_cons || apply Forall_nil). constructor; [repeat split; try discriminate; try reflexivity; apply undashed; reflexivity|cbn; tauto].
  - repeat (apply Forall_cons || apply Forall_nil).
    + apply (ex_readable_option "ENGINE" "InnoDB" ["ENGINE"]); try reflexivity; discriminate.
    + apply (ex_readable_option "DEFAULT CHARSET" "utf8mb4" ["DEFAULT"; "CHARSET"]); try reflexivity; discriminate.
  - cbn. lia.
  - cbn. lia.
Qed.
Definition sample_text : string :=
  "CREATE TABLE `orders` (`id` INT(10) NOT NULL AUTO_INCREMENT," ++ nl ++ "`user_id` INT(10) NOT NULL," ++ nl
  ++ "`note` VARCHAR(255) DEFAULT 'n/a' CHARACTER SET 'UTF8MB4' COLLATE 'UTF8MB4_BIN'," ++ nl ++ "`price` DECIMAL(10,2) UNSIGNED NOT NULL DEFAULT '0.00',".
Example ex_C55_text : prefix sample_text (create_str false sample_table) = true.
Proof. vm_compute. reflexivity. Qed.
Example ex_C52 : In (fk "orders_user_fk" "user_id" "users" "id") (dvals (t_constraints sample_table)).
Proof. left. reflexivity. Qed.
Example ex_C53 : In (unique_key "" ["note"]) (dvals (t_indexes sample_table)) /\ In (key "user_id_ind" ["user_id"]) (dvals (t_indexes sample_table)).
Proof. cbn. tauto. Qed.
Example ex_C54 : In note_col (dvals (t_columns sample_table)).
Proof. cbn. tauto. Qed.

(** ** What is not read back *)

(** A key without a name of its own, and a primary key with one, are rendered in a way that is not
    read: the whole statement is refused. *)
Definition unnamed_key : table := tbl "t" [id_col; int_col "a"] [primary_key ["id"]; key "" ["a"]] [].
Definition named_primary : table := tbl "t" [id_col; int_col "a"] [mkIndex "PRIMARY" ["id"] IPrimary []] [].
Theorem C53_refuted : exists t i, wf_table t /\ In i (dvals (t_indexes t)) /\ ix_type i = IIndex /\ ix_rawname i = ""
  /\ create_parse (create_str false t) = Ok (None, "KEY (`a`));").
Proof.
  exists unnamed_key, (key "" ["a"]). split; [apply wf_tableb_ok; reflexivity|]. split; [cbn; tauto|]. repeat (split; [reflexivity|]). by_vm.
Qed.
Theorem C53_refuted_primary : exists t i, wf_table t /\ In i (dvals (t_indexes t)) /\ ix_type i = IPrimary /\ ix_rawname i = "PRIMARY"
  /\ create_parse (create_str false t) = Ok (None, "`PRIMARY` (`id`));").
Proof.
  exists named_primary, (mkIndex "PRIMARY" ["id"] IPrimary []). split; [apply wf_tableb_ok; reflexivity|]. split; [cbn; tauto|]. repeat (split; [reflexivity|]). by_vm.
Qed.
(** A default that contains a space. *)
Definition spaced_default : table :=
  tbl "t" [id_col; col0 KString "b" "VARCHAR" (LStr "10") false (DStr "a b") None None] [primary_key ["id"]] [].
Theorem C54_refuted : exists t c, wf_table t /\ In c (dvals (t_columns t)) /\ c_default c = DStr "a b"
  /\ exists rest, create_parse (create_str false t) = Ok (None, rest).
Proof.
  exists spaced_default, (col0 KString "b" "VARCHAR" (LStr "10") false (DStr "a b") None None). split; [apply wf_tableb_ok; reflexivity|]. split; [cbn; tauto|].
  split; [reflexivity|]. exists "KEY (`id`));". by_vm.
Qed.
(** An ENUM column that was itself read from a file: each reading adds a value. *)
Definition enum_source : string := "CREATE TABLE `t` (`id` INT(10) NOT NULL, `e` ENUM('a','b') NOT NULL);".
Theorem C55_refuted : forall FO : FloatOracle, exists t t', create_parse enum_source = Ok (Some t, "")
  /\ create_parse (create_str false t) = Ok (Some t', "") /\ exists a, diff_split t t' = Ok (mkSplit None (Some a) None).
Proof.
  intros FO. found_some (create_parse enum_source).
  match goal with |- context [diff_split ?t _] => found_some (create_parse (create_str false t)) end.
  split; [by_vm|]. split; [by_vm|]. eexists. lazy. reflexivity.
Qed.

(** ** C60 *)

(** Whatever its name, a back-quoted column is read as a column with that name and type. *)
Theorem C60_back_quoted_partial : forall c next, readable_column c -> normalize next = next -> next <> "" ->
  exists p c', best_child definition_classes (column_str c ++ ", " ++ next) None = Ok (Some (DefCol p, next))
    /\ as_definition p = Ok c' /\ c_name c' = c_name c /\ c_type c' = c_type c.
Proof.
  intros c next R T N. destruct (column_read c (EComma next) R (conj (normal_trim _ T) N)) as (p & c' & B & D & A & _). exists p, c'.
  split; [exact B|]. split; [exact D|]. split; symmetry; apply A.
Qed.
Example ex_C60 : forall n, In n ["unique_id"; "primary"; "key"; "constraint_x"; "foreign"; "index"] -> readable_column (int_col n).
Proof.
  intros n I. constructor; [|cbn; tauto|reflexivity| |exact Logic.I|apply clean_textb; reflexivity|apply clean_textb; reflexivity].
  - repeat destruct I as [<-|I]; try (apply clean_nameb; reflexivity). contradiction.
  - one_length "10".
Qed.
(** Without back-quotes a column whose name starts with UNIQUE becomes a unique key. *)
Theorem C60_refuted : exists t i, create_parse "CREATE TABLE t (unique_id INT(10), b INT(10));" = Ok (Some t, "")
  /\ dmem "unique_id" (t_columns t) = false /\ dvals (t_indexes t) = [i]
  /\ ix_type i = IUnique /\ ix_rawname i = "_id INT" /\ ix_columns i = ["10"] /\ t_global_errors t = [].
Proof.
  found_some (create_parse "CREATE TABLE t (unique_id INT(10), b INT(10));"). eexists. split; [by_vm|]. repeat (split; [reflexivity|]). reflexivity.
Qed.

Print Assumptions C52_foreign_key_read_back.
Print Assumptions C52_definition_read_back.
Print Assumptions C53_index_read_back_partial.
Print Assumptions C53_definition_read_back_partial.
Print Assumptions C53_refuted.
Print Assumptions C53_refuted_primary.
Print Assumptions C54_column_read_back_partial.
Print Assumptions C54_definition_read_back_partial.
Print Assumptions C54_refuted.
Print Assumptions C55_create_read_back_partial.
Print Assumptions C55_directory_partial.
Print Assumptions C55_refuted.
Print Assumptions C60_back_quoted_partial.
Print Assumptions C60_refuted.
