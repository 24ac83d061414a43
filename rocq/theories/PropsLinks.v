(** C87-C89 and the exact form of C12: foreign keys at every moment while a plan is executed. *)
From Verif Require Import LinkMore Samples PropsPlan.

Section Theorems.
  Context {FO : FloatOracle}.

  (** ** C87 *)
  (** Foreign key names stay unique in the database, after every statement of the plan, exactly if no
      new table takes a name that is in use, and no name of a table that goes away is taken over. *)
  Theorem C87_fk_names_exact : forall from to disable ops,
    plannable from to -> names_unique (server_of from) -> names_unique (server_of to) ->
    plan_tables disable to (Some from) = Ok ops ->
    ((forall pre post s, ops = pre +++ post -> exec_all pre (server_of from) = Some s -> names_unique s) <-> names_free from to).
  Proof.
    intros from to disable ops P Uf Ut E. apply plan_iff in E as [Cm ->]; [|apply (pl_from _ _ P)|apply (pl_to _ _ P)].
    apply (unique_all from to disable P Cm Uf Ut).
  Qed.

  (** ** C88 *)
  (** After every statement the foreign keys have their columns, exactly if those of new tables find
      them in the source, and those that lose them are dropped in time. *)
  Theorem C88_fk_columns_exact : forall from to disable ops,
    plannable from to -> legible from -> legible to -> anchored col_there from -> anchored col_there to ->
    plan_tables disable to (Some from) = Ok ops ->
    ((forall pre post s, ops = pre +++ post -> exec_all pre (server_of from) = Some s -> supported col_there s)
     <-> found_before col_there from to /\ freed_in_time col_there from to).
  Proof.
    intros from to disable ops P Lf Lt Af At E. apply plan_iff in E as [Cm ->]; [|apply (pl_from _ _ P)|apply (pl_to _ _ P)].
    apply (supported_all from to disable P Cm col_there); auto.
    - intros st c. unfold col_there. destruct (in_dec string_dec c (map c_name (st_cols st))); auto.
    - intros s fks c. reflexivity.
    - intros n s t C K fks c. apply col_there_end.
  Qed.

  (** ** C89 *)
  (** The same for the indexes that foreign keys need on both sides. *)
  Theorem C89_fk_indexes_exact : forall from to disable ops,
    plannable from to -> legible from -> legible to -> anchored key_leads from -> anchored key_leads to ->
    plan_tables disable to (Some from) = Ok ops ->
    ((forall pre post s, ops = pre +++ post -> exec_all pre (server_of from) = Some s -> supported key_leads s)
     <-> found_before key_leads from to /\ freed_in_time key_leads from to).
  Proof.
    intros from to disable ops P Lf Lt Af At E. apply plan_iff in E as [Cm ->]; [|apply (pl_from _ _ P)|apply (pl_to _ _ P)].
    apply (supported_all from to disable P Cm key_leads); auto.
    - intros st c. apply key_leads_dec.
    - intros s fks c. reflexivity.
    - intros n s t C K fks c Is It Ok. apply (key_leads_end from to n s t C K fks c Lf Lt Is It Ok).
  Qed.

  (** ** C12 *)
  (** No column type changes under a foreign key, exactly if no foreign key of a new table is on a
      column whose type changes, and every foreign key of the source on such a column comes back, or its
      table stays and is not after the column's. *)
  Theorem C12_exact : forall from to disable ops,
    plannable from to -> plan_tables disable to (Some from) = Ok ops ->
    ((forall pre a post s, ops = pre +++ OAlter a :: post -> exec_all pre (server_of from) = Some s -> ~ hazard s a)
     <-> (forall n t k tn cn, In (n, t) to -> ~ In n (dkeys from) -> In k (dvals (t_constraints t)) -> fk_uses n k tn cn -> ~ retyped_seen from to tn cn)
         /\ (forall m old k tn cn, In (m, old) from -> In k (dvals (t_constraints old)) -> fk_uses m k tn cn -> retyped_seen from to tn cn ->
               comes_back from to m k \/ (In m (dkeys to) /\ comes_by (dkeys from) m tn))).
  Proof.
    intros from to disable ops P E. apply plan_iff in E as [Cm ->]; [|apply (pl_from _ _ P)|apply (pl_to _ _ P)].
    apply (hazard_all from to disable P Cm).
  Qed.
End Theorems.

(** ** Samples *)

Ltac cases := repeat match goal with
  | H : In _ [] |- _ => destruct H
  | H : In (_, _) (_ :: _) |- _ => destruct H as [H|H]; [injection H; clear H; intros; subst; try discriminate|]
  | H : In _ (_ :: _) |- _ => destruct H as [<-|H]
  | H : False |- _ => destruct H
  end.
Ltac cases_db := repeat match goal with
  | H : In ?x (db ?l) |- _ => let ks := eval vm_compute in (dkeys (db l)) in let y := eval cbv [List.combine] in (List.combine ks l) in change (In x y) in H; cases
  | H : In ?x (dvals (t_constraints ?l)) |- _ => let y := eval vm_compute in (dvals (t_constraints l)) in change (In x y) in H; cases
  | H : In ?x (dvals (t_indexes ?l)) |- _ => let y := eval vm_compute in (dvals (t_indexes l)) in change (In x y) in H; cases
  end.

(** Two tables, the first with a foreign key to a column of the second that has its own index. *)
Definition item (ref : bool) : table :=
  if ref then tbl "item" [id_col; int_col "code"] [pk; key "code" ["code"]] [fk "item_code" "code" "list" "code"]
  else tbl "item" [id_col] [pk] [].
Definition code_list (coded : bool) : table :=
  if coded then tbl "list" [id_col; int_col "code"] [pk; key "code" ["code"]] [] else tbl "list" [id_col] [pk] [].
Definition ends_from : tables := db [item true; code_list true].
Definition ends_to : tables := db [item false; code_list false].
(** The same, the other way round. *)
Definition late_from : tables := db [code_list true; item true].
Definition late_to : tables := db [code_list false; item false].
(** The column and the table that refers to it are both new. *)
Definition new_from : tables := db [code_list false].
Definition new_to : tables := db [code_list true; item true].

Lemma legible_check (d : tables) :
  forallb (fun p => forallb (fun k => negb (has_char bquote (k_column k)) && negb (has_char bquote (k_ftable k)) && negb (has_char bquote (k_fcolumn k)))
             (dvals (t_constraints (snd p)))
           && forallb (fun i => negb (list_is_nil (ix_columns i)) && forallb (fun c => negb (has_char bquote c)) (ix_columns i)) (dvals (t_indexes (snd p)))) d = true -> legible d.
Proof.
  rewrite forallb_forall. intros H n t I. specialize (H _ I). cbn [snd] in H. apply andb_true_iff in H as [H1 H2]. rewrite forallb_forall in H1, H2. split.
  - intros k Hk. specialize (H1 k Hk). rewrite !andb_true_iff, !negb_true_iff in H1. unfold tickless. tauto.
  - intros i Hi. specialize (H2 i Hi). apply andb_true_iff in H2 as [H2 H3]. split; [destruct (ix_columns i); discriminate|].
    rewrite forallb_forall in H3. apply Forall_forall. intros c Hc. apply H3, negb_true_iff in Hc. exact Hc.
Qed.

(** Decisions, to check the samples by computation. *)
Definition need := stable -> string -> bool.
Definition col_thereb : need := fun st c => existsb (String.eqb c) (map c_name (st_cols st)).
Definition key_leadsb : need := fun st c => existsb (fun i => match ix_columns i with x :: _ => String.eqb x c | [] => false end) (st_keys st).
Lemma col_thereb_ok st c : col_thereb st c = true <-> col_there st c.
Proof. unfold col_thereb, col_there. rewrite existsb_exists. split; [intros (x & I & E); apply String.eqb_eq in E; congruence|]. intros I. exists c. split; [exact I|apply String.eqb_refl]. Qed.
Lemma key_leadsb_ok st c : key_leadsb st c = true <-> key_leads st c.
Proof.
  unfold key_leadsb, key_leads. rewrite existsb_exists. split; intros (i & I & H); exists i; (split; [exact I|]); destruct (ix_columns i) as [|x l]; try discriminate.
  - apply String.eqb_eq in H. subst. reflexivity.
  - injection H as ->. apply String.eqb_refl.
Qed.
Lemma anchored_check (b : need) (Q : stable -> string -> Prop) (d : tables) : (forall st c, b st c = true <-> Q st c) ->
  forallb (fun p => forallb (fun k => b (stable_of (snd p)) (k_column k)
             && existsb (fun q => String.eqb (fst q) (k_ftable k) && b (stable_of (snd q)) (k_fcolumn k)) d) (dvals (t_constraints (snd p)))) d = true -> anchored Q d.
Proof.
  intros B H n t k I Ik. rewrite forallb_forall in H. specialize (H _ I). cbn [snd] in H. rewrite forallb_forall in H. specialize (H k Ik).
  apply andb_true_iff in H as [H1 H2]. split; [apply B, H1|]. apply existsb_exists in H2 as ([m r] & Ir & H2). cbn [fst snd] in H2.
  apply andb_true_iff in H2 as [H2 H3]. apply String.eqb_eq in H2. subst m. exists r. split; [exact Ir|apply B, H3].
Qed.
Lemma unique_check (d : tables) : wf_tables d ->
  nodupb (concat (map (fun p => map k_name (dvals (t_constraints (snd p)))) d)) = true -> names_unique (server_of d).
Proof.
  intros W N m m' st st' k k' Em Em' Ik Ik' E. unfold server_of in *.
  destruct (dget m d) as [t|] eqn:D; [|discriminate]. injection Em as <-. destruct (dget m' d) as [t'|] eqn:D'; [|discriminate]. injection Em' as <-.
  cbn [stable_of st_fks] in *. apply dget_in in D, D'. apply nodupb_ok in N. clear W.
  assert (H : forall n t k, In (n, t) d -> In k (dvals (t_constraints t)) -> In (k_name k) (concat (map (fun p => map k_name (dvals (t_constraints (snd p)))) d))).
  { intros n0 t0 k0 I0 J0. apply in_concat. exists (map k_name (dvals (t_constraints t0))). split; [apply in_map_iff; exists (n0, t0); auto|apply in_map, J0]. }
  clear H. revert D D'. induction d as [|[n0 t0] d IH]; intros D D'; [destruct D|]. cbn [map concat snd] in N.
  assert (Nr : NoDup (concat (map (fun p => map k_name (dvals (t_constraints (snd p)))) d))).
  { clear -N. induction (map k_name (dvals (t_constraints t0))) as [|x l IH]; [exact N|]. inversion N; auto. }
  assert (Out : forall n t k, In (n, t) d -> In k (dvals (t_constraints t)) -> ~ In (k_name k) (map k_name (dvals (t_constraints t0)))).
  { intros n1 t1 k1 I1 J1 X. apply in_split in X as (a & b & Eab). rewrite Eab in N. rewrite <- app_assoc in N. apply NoDup_remove_2 in N. apply N.
    rewrite !in_app_iff. right. right. apply in_concat. exists (map k_name (dvals (t_constraints t1))). split; [apply in_map_iff; exists (n1, t1); auto|apply in_map, J1]. }
  destruct D as [[= -> ->]|D], D' as [[= -> ->]|D'].
  - reflexivity.
  - exfalso. apply (Out m' t' k' D' Ik'). rewrite <- E. apply in_map, Ik.
  - exfalso. apply (Out m t k D Ik). rewrite E. apply in_map, Ik'.
  - apply IH; auto.
Qed.

(** The foreign key and what it needs go together, the foreign key first. *)
Example ex_C88_C89 : plannable ends_from ends_to /\ legible ends_from /\ legible ends_to
  /\ anchored col_there ends_from /\ anchored col_there ends_to /\ anchored key_leads ends_from /\ anchored key_leads ends_to
  /\ plan_tables false ends_to (Some ends_from)
     = Ok [OAlter (mkAlter "item" [RemoveConstraint (fk "item_code" "code" "list" "code")]);
           OAlter (mkAlter "item" [RemoveColumn (int_col "code"); RemoveKey (key "code" ["code"])]);
           OAlter (mkAlter "list" [RemoveColumn (int_col "code"); RemoveKey (key "code" ["code"])])]
  /\ found_before col_there ends_from ends_to /\ freed_in_time col_there ends_from ends_to
  /\ found_before key_leads ends_from ends_to /\ freed_in_time key_leads ends_from ends_to.
Proof.
  assert (F : forall Q, found_before Q ends_from ends_to) by (intros Q n t k old It N; exfalso; apply N; unfold ends_to in It; cases_db; cbv; auto).
  assert (G : forall Q, freed_in_time Q ends_from ends_to).
  { intros Q m old k r Im Ik _ _ _. right. unfold ends_from in Im. cases_db. split; [left; reflexivity|]. exists ["item"], []. split; [reflexivity|right; left; reflexivity]. }
  split; [apply plannableb_ok; reflexivity|]. split; [apply legible_check; reflexivity|]. split; [apply legible_check; reflexivity|].
  split; [apply (anchored_check col_thereb _ _ col_thereb_ok); reflexivity|]. split; [apply (anchored_check col_thereb _ _ col_thereb_ok); reflexivity|].
  split; [apply (anchored_check key_leadsb _ _ key_leadsb_ok); reflexivity|]. split; [apply (anchored_check key_leadsb _ _ key_leadsb_ok); reflexivity|].
  split; [vm_compute; reflexivity|]. auto.
Qed.

(** [live_db] and [file_db]: a table goes with its foreign key, another comes with one. *)
Example ex_C87 : plannable live_db file_db /\ names_unique (server_of live_db) /\ names_unique (server_of file_db)
  /\ plan_tables false file_db (Some live_db) = Ok live_plan /\ names_free live_db file_db.
Proof.
  split; [exact ex_plannable|]. split; [apply unique_check; [apply (pl_from _ _ ex_plannable)|reflexivity]|].
  split; [apply unique_check; [apply (pl_to _ _ ex_plannable)|reflexivity]|]. split; [apply ex_plan|]. split.
  - intros n t m old k k' It _ Im Ik Ik'. unfold live_db, file_db in *. cases_db; discriminate.
  - intros n t m old k k' It Im _ Ik Ik' E. exfalso. unfold live_db, file_db in *. cases_db; discriminate.
Qed.

(** C12: in the same pair a column with two foreign keys changes its type. *)
Example ex_C12_exact : plannable live_db file_db /\ plan_tables false file_db (Some live_db) = Ok live_plan
  /\ retyped_seen live_db file_db "parent" "id"
  /\ (forall n t k tn cn, In (n, t) file_db -> ~ In n (dkeys live_db) -> In k (dvals (t_constraints t)) -> fk_uses n k tn cn -> ~ retyped_seen live_db file_db tn cn)
  /\ (forall m old k tn cn, In (m, old) live_db -> In k (dvals (t_constraints old)) -> fk_uses m k tn cn -> retyped_seen live_db file_db tn cn -> comes_back live_db file_db m k).
Proof.
  assert (R : forall tn cn, retyped_seen live_db file_db tn cn -> retyped live_db file_db tn cn).
  { intros tn cn (s & t & a & b & H). exists s, t, a, b. tauto. }
  split; [exact ex_plannable|]. split; [apply ex_plan|]. split; [|split].
  - exists (parent_t "INT" "10"), (parent_t "BIGINT" "20"), (num "INT" "id" "10" true), (num "BIGINT" "id" "20" true).
    repeat split; try (simpl; tauto); [vm_compute; discriminate|]. intros [DS|DS]; vm_compute in DS; discriminate.
  - intros n t k tn cn It N Ik U X. apply (proj2 ex_cyclable n t k tn cn It N Ik U), R, X.
  - intros m old k tn cn Im Ik U X. split; [exists tn, cn; auto|]. intros t It. apply (proj1 ex_cyclable m old t k tn cn Im It Ik U), R, X.
Qed.

(** ** Refutations *)

(** C87: a table is renamed; and a foreign key moves from a table that goes away to another. *)
Definition with_fk (n : string) (ks : list constraint) : table := tbl n [id_col; int_col "pid"] [pk; key "pid" ["pid"]] ks.
Definition pid_fk : constraint := fk "pid_fk" "pid" "parent" "id".
Theorem C87_refuted : forall FO : FloatOracle,
  (exists from to ops pre post s, plannable from to /\ names_unique (server_of from) /\ names_unique (server_of to)
     /\ anchored key_leads from /\ anchored key_leads to
     /\ plan_tables false to (Some from) = Ok ops /\ ops = pre +++ post /\ exec_all pre (server_of from) = Some s /\ ~ names_unique s
     /\ exists t, pre = [OCreate t])
  /\ (exists from to ops pre post s, plannable from to /\ names_unique (server_of from) /\ names_unique (server_of to)
     /\ anchored key_leads from /\ anchored key_leads to /\ (forall n, In n (dkeys to) -> In n (dkeys from))
     /\ plan_tables false to (Some from) = Ok ops /\ ops = pre +++ post /\ exec_all pre (server_of from) = Some s /\ ~ names_unique s).
Proof.
  intros FO. split.
  - exists (db [parent_t "INT" "10"; with_fk "a" [pid_fk]]), (db [parent_t "INT" "10"; with_fk "b" [pid_fk]]).
    eexists _, [_], _, _. assert (P : plannable (db [parent_t "INT" "10"; with_fk "a" [pid_fk]]) (db [parent_t "INT" "10"; with_fk "b" [pid_fk]])) by (apply plannableb_ok; reflexivity).
    split; [exact P|]. split; [apply unique_check; [apply (pl_from _ _ P)|reflexivity]|]. split; [apply unique_check; [apply (pl_to _ _ P)|reflexivity]|].
    split; [apply (anchored_check key_leadsb _ _ key_leadsb_ok); reflexivity|]. split; [apply (anchored_check key_leadsb _ _ key_leadsb_ok); reflexivity|].
    split; [vm_compute; reflexivity|]. split; [reflexivity|]. split; [reflexivity|]. split; [|eexists; reflexivity].
    intros U. specialize (U "a" "b" (stable_of (with_fk "a" [pid_fk])) (stable_of (with_fk "b" [pid_fk])) pid_fk pid_fk eq_refl eq_refl (or_introl eq_refl) (or_introl eq_refl) eq_refl).
    discriminate.
  - exists (db [parent_t "INT" "10"; with_fk "a" [pid_fk]; with_fk "b" []]), (db [parent_t "INT" "10"; with_fk "b" [pid_fk]]).
    eexists _, [_], _, _.
    assert (P : plannable (db [parent_t "INT" "10"; with_fk "a" [pid_fk]; with_fk "b" []]) (db [parent_t "INT" "10"; with_fk "b" [pid_fk]])) by (apply plannableb_ok; reflexivity).
    split; [exact P|]. split; [apply unique_check; [apply (pl_from _ _ P)|reflexivity]|]. split; [apply unique_check; [apply (pl_to _ _ P)|reflexivity]|].
    split; [apply (anchored_check key_leadsb _ _ key_leadsb_ok); reflexivity|]. split; [apply (anchored_check key_leadsb _ _ key_leadsb_ok); reflexivity|].
    split; [intros n [<-|[<-|[]]]; cbv; auto|].
    split; [vm_compute; reflexivity|]. split; [reflexivity|]. split; [reflexivity|].
    intros U. specialize (U "a" "b" (stable_of (with_fk "a" [pid_fk])) (stable_of (with_fk "b" [pid_fk])) pid_fk pid_fk eq_refl eq_refl (or_introl eq_refl) (or_introl eq_refl) eq_refl).
    discriminate.
Qed.

(** C88, C89: the column and the index go in their table's turn, the foreign key later in its own; a new
    table comes before what it refers to. *)
Theorem C88_refuted : forall FO : FloatOracle,
  (exists from to ops pre post s, plannable from to /\ dkeys from = dkeys to /\ anchored col_there from /\ anchored col_there to
     /\ plan_tables false to (Some from) = Ok ops /\ ops = pre +++ post /\ exec_all pre (server_of from) = Some s /\ ~ supported col_there s)
  /\ (exists from to ops pre post s, plannable from to /\ (forall n t, In (n, t) from -> t_constraints t = []) /\ anchored col_there to
     /\ plan_tables false to (Some from) = Ok ops /\ ops = pre +++ post /\ exec_all pre (server_of from) = Some s /\ ~ supported col_there s).
Proof.
  intros FO. split.
  - exists late_from, late_to. eexists _, [_], _, _. split; [apply plannableb_ok; reflexivity|]. split; [reflexivity|].
    split; [apply (anchored_check col_thereb _ _ col_thereb_ok); reflexivity|]. split; [apply (anchored_check col_thereb _ _ col_thereb_ok); reflexivity|].
    split; [vm_compute; reflexivity|]. split; [reflexivity|]. split; [reflexivity|].
    intros U. destruct (U "item" (stable_of (item true)) (fk "item_code" "code" "list" "code") eq_refl (or_introl eq_refl)) as [_ G].
    specialize (G (stable_of (code_list false)) eq_refl). apply col_thereb_ok in G. discriminate.
  - exists new_from, new_to. eexists _, [_], _, _. split; [apply plannableb_ok; reflexivity|].
    split; [intros n t I; unfold new_from in I; cases_db; reflexivity|]. split; [apply (anchored_check col_thereb _ _ col_thereb_ok); reflexivity|].
    split; [vm_compute; reflexivity|]. split; [reflexivity|]. split; [reflexivity|].
    intros U. destruct (U "item" (stable_of (item true)) (fk "item_code" "code" "list" "code") eq_refl (or_introl eq_refl)) as [_ G].
    specialize (G (stable_of (code_list false)) eq_refl). apply col_thereb_ok in G. discriminate.
Qed.

(** The columns may even stay: only the index on the column referred to goes, or comes. *)
Definition plain_item (ref : bool) : table :=
  tbl "item" [id_col; int_col "code"] [pk; key "code" ["code"]] (if ref then [fk "item_code" "code" "list" "code"] else []).
Definition plain_list (indexed : bool) : table :=
  tbl "list" [id_col; int_col "code"] (if indexed then [pk; key "code" ["code"]] else [pk]) [].
Theorem C89_refuted : forall FO : FloatOracle,
  (exists from to ops pre post s, plannable from to /\ dkeys from = dkeys to /\ anchored key_leads from /\ anchored key_leads to
     /\ (forall n s t, In (n, s) from -> In (n, t) to -> t_columns s = t_columns t)
     /\ plan_tables false to (Some from) = Ok ops /\ ops = pre +++ post /\ exec_all pre (server_of from) = Some s /\ ~ supported key_leads s)
  /\ (exists from to ops pre post s, plannable from to /\ (forall n t, In (n, t) from -> t_constraints t = []) /\ anchored key_leads to
     /\ (forall n s t, In (n, s) from -> In (n, t) to -> t_columns s = t_columns t)
     /\ plan_tables false to (Some from) = Ok ops /\ ops = pre +++ post /\ exec_all pre (server_of from) = Some s /\ ~ supported key_leads s).
Proof.
  intros FO. split.
  - exists (db [plain_list true; plain_item true]), (db [plain_list false; plain_item false]). eexists _, [_], _, _. split; [apply plannableb_ok; reflexivity|]. split; [reflexivity|].
    split; [apply (anchored_check key_leadsb _ _ key_leadsb_ok); reflexivity|]. split; [apply (anchored_check key_leadsb _ _ key_leadsb_ok); reflexivity|].
    split; [intros n s t Is It; cases_db; try discriminate; reflexivity|].
    split; [vm_compute; reflexivity|]. split; [reflexivity|]. split; [reflexivity|].
    intros U. destruct (U "item" (stable_of (plain_item true)) (fk "item_code" "code" "list" "code") eq_refl (or_introl eq_refl)) as [_ G].
    specialize (G (stable_of (plain_list false)) eq_refl). apply key_leadsb_ok in G. discriminate.
  - exists (db [plain_list false]), (db [plain_list true; plain_item true]). eexists _, [_], _, _. split; [apply plannableb_ok; reflexivity|].
    split; [intros n t I; cases_db; reflexivity|]. split; [apply (anchored_check key_leadsb _ _ key_leadsb_ok); reflexivity|].
    split; [intros n s t Is It; cases_db; try discriminate; reflexivity|].
    split; [vm_compute; reflexivity|]. split; [reflexivity|]. split; [reflexivity|].
    intros U. destruct (U "item" (stable_of (plain_item true)) (fk "item_code" "code" "list" "code") eq_refl (or_introl eq_refl)) as [_ G].
    specialize (G (stable_of (plain_list false)) eq_refl). apply key_leadsb_ok in G. discriminate.
Qed.

Print Assumptions C87_fk_names_exact.
Print Assumptions C87_refuted.
Print Assumptions C88_fk_columns_exact.
Print Assumptions C88_refuted.
Print Assumptions C89_fk_indexes_exact.
Print Assumptions C89_refuted.
Print Assumptions C12_exact.
