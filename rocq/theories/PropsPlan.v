(** C08-C14, C17, C18: the plan for a whole database. *)
From Verif Require Import ResumeFacts PlanCycle Samples.

Section Theorems.
  Context {FO : FloatOracle}.

  (** ** C08 *)
  Theorem C08_right_tables : forall from to disable ops,
    wf_tables from -> wf_tables to -> plan_tables disable to (Some from) = Ok ops ->
    (forall t, In (OCreate t) ops <-> In (t_name t, t) to /\ ~ In (t_name t) (dkeys from))
    /\ (forall n, In (ODropTable n) ops <-> In n (dkeys from) /\ ~ In n (dkeys to))
    /\ NoDup (concat (map (fun o => match o with OCreate t => [t_name t] | _ => [] end) ops))
    /\ NoDup (concat (map (fun o => match o with ODropTable n => [n] | _ => [] end) ops))
    /\ (forall a, In (OAlter a) ops -> In (al_table a) (dkeys from)).
  Proof.
    intros from to disable ops Wf Wt E.
    destruct (creates_drops from to Wf Wt disable ops E) as (H1 & H2 & H3 & H4).
    split; [exact H1|]. split; [exact H2|]. split; [exact H3|]. split; [exact H4|].
    intros a Ha. eapply alter_nonempty; eauto.
  Qed.

  (** ** C09 *)
  Theorem C09_plan_from_nothing : forall to disable,
    wf_tables to ->
    exists ops, plan_tables disable to None = Ok ops
      /\ ops = (if disable then [ODisable] else []) +++ map OCreate (dvals to) +++ (if disable then [OEnable] else [])
      /\ exists s, exec_all ops (fun _ => None) = Some s /\ holds to s.
  Proof. exact plan_none. Qed.

  (** ** C10 *)
  (** Full statement: for every pair of databases.  False without [pl_primary] and without
      [pl_clear], see [C10_refuted]. *)
  Theorem C10_plan_reaches_target_partial : forall from to disable ops,
    plannable from to -> plan_tables disable to (Some from) = Ok ops ->
    exists s, exec_all ops (server_of from) = Some s /\ reaches from to s
      /\ forall n old t st, In (n, old) from -> In (n, t) to -> s n = Some st ->
           same_relative_order old t -> map c_name (st_cols st) = dkeys (t_columns t).
  Proof.
    intros from to disable ops P E. apply plan_iff in E as [Cm ->]; [|apply (pl_from _ _ P)|apply (pl_to _ _ P)].
    destruct (plan_reaches from to P Cm disable) as (s & X & R & D). exists s. split; [exact X|]. split; [exact R|].
    intros n old t st Is It Es O.
    apply (dget_iff _ _ _ (wf_names _ (pl_from _ _ P))) in Is. apply (dget_iff _ _ _ (wf_names _ (pl_to _ _ P))) in It.
    destruct (D n old t st Is It Es) as [(_ & _ & H & _) _]. auto.
  Qed.

  (** [pl_primary] and [pl_clear] are exactly what is needed: a plan for which they do not hold stops
      with an error. *)
  Theorem C10_exact : forall from to disable ops,
    wf_tables from -> wf_tables to -> (forall n t, In (n, t) to -> fks_named t) ->
    plan_tables disable to (Some from) = Ok ops ->
    ((exists s, exec_all ops (server_of from) = Some s) <->
     (forall n s t, In (n, s) from -> In (n, t) to -> primary_kept s t)
     /\ (forall n s t, In (n, s) from -> In (n, t) to -> fk_names_clear from to n s t)).
  Proof.
    intros from to disable ops Wf Wt Hn E. apply plan_iff in E as [Cm ->]; auto. split.
    - intros (s & X). pose proof (plan_needs from to Wf Wt Hn disable s X) as P. split; [exact (pl_primary _ _ P)|exact (pl_clear _ _ P)].
    - intros [H1 H2]. destruct (plan_reaches from to (Build_plannable from to Wf Wt Hn H1 H2) Cm disable) as (s & X & _). eauto.
  Qed.

  (** A plan exists whenever the columns of the tables in both databases can be compared at all. *)
  Theorem C10_plan_exists : forall from to disable,
    wf_tables from -> wf_tables to ->
    ((exists ops, plan_tables disable to (Some from) = Ok ops) <->
     forall n s t cn a b, In (n, s) from -> In (n, t) to -> In (cn, a) (t_columns s) -> In (cn, b) (t_columns t) ->
       column_str a = column_str b \/ exists r, really_same a b = Ok r).
  Proof.
    intros from to disable Wf Wt. split.
    - intros (ops & E) n s t cn a b Is It Ha Hb. apply plan_iff in E as [Cm _]; auto.
      destruct (Cm n s t Is It cn a b Ha Hb) as (r & Hr). unfold column_changed in Hr.
      destruct (String.eqb_spec (column_str a) (column_str b)); [left; assumption|right].
      apply bind_ok in Hr as (x & Hx & _). eauto.
    - intros H. exists (plan_list from to disable). apply plan_iff; auto. split; [|reflexivity].
      intros n s t Is It cn a b Ha Hb. unfold column_changed.
      destruct (H n s t cn a b Is It Ha Hb) as [E|(r & E)].
      + rewrite (proj2 (String.eqb_eq _ _) E). eauto.
      + destruct (String.eqb (column_str a) (column_str b)); [eauto|]. rewrite E. simpl. eauto.
  Qed.

  (** ** C11 *)
  (** Full statement: without [fk_columns_settled] and [names_settled] (the hypothesis of C04).
      False, see [C11_refuted]. *)
  Theorem C11_second_plan_empty_partial : forall from to disable mid ops s,
    plannable from to -> plan_tables disable to (Some from) = Ok ops ->
    exec_all ops (server_of from) = Some s -> wf_tables mid -> holds mid s ->
    fk_columns_settled from to -> names_settled from to ->
    plan_tables false to (Some mid) = Ok [].
  Proof. intros from to disable mid ops s P. exact (plan_again from to P disable mid ops s). Qed.

  (** Both hypotheses are needed, if no two indexes of a table have the same columns and kind and the text
      of a foreign key tells which columns it uses (it does if their names have no back-quotes). *)
  Theorem C11_exact : forall from to disable mid ops s,
    plannable from to -> plan_tables disable to (Some from) = Ok ops ->
    exec_all ops (server_of from) = Some s -> wf_tables mid -> holds mid s ->
    fk_texts_tell from to -> (forall p, In p from \/ In p to -> distinct_indexes (snd p)) ->
    (plan_tables false to (Some mid) = Ok [] <-> fk_columns_settled from to /\ names_settled from to).
  Proof.
    intros from to disable mid ops s P E X Wm Hm Tl Di. split.
    - exact (plan_again_needs from to P disable mid ops s E X Wm Hm Tl Di).
    - intros [Hs Hn]. exact (plan_again from to P disable mid ops s E X Wm Hm Hs Hn).
  Qed.
  Theorem C11_texts_tell : forall from to, wf_tables from -> wf_tables to -> legible from -> legible to -> fk_texts_tell from to.
  Proof.
    intros from to Wf Wt Lf Lt n s t x a b Is It Ha Hb E.
    destruct (proj1 (Lf n s Is) a) as (A1 & A2 & A3); [eapply in_dvals; eauto|].
    destruct (proj1 (Lt n t It) b) as (B1 & B2 & B3); [eapply in_dvals; eauto|].
    apply constraint_str_ref; auto. rewrite (wf_fks_named _ (proj2 (wf_named _ Wf n s Is)) x a Ha). symmetry.
    apply (wf_fks_named _ (proj2 (wf_named _ Wt n t It)) x b Hb).
  Qed.

  (** ** C12 *)
  (** Full statement: without the last two hypotheses.  False without either, see [C12_refuted]. *)
  Theorem C12_no_type_change_under_fk_partial : forall from to disable ops pre a post s,
    plannable from to -> plan_tables disable to (Some from) = Ok ops -> ops = pre +++ OAlter a :: post ->
    exec_all pre (server_of from) = Some s ->
    (forall n old t k tn cn, In (n, old) from -> In (n, t) to -> In k (dvals (t_constraints old)) ->
       fk_uses n k tn cn -> retyped from to tn cn ->
       In (k_name k) (dkeys (t_constraints t)) \/ exists b, In b (dvals (t_constraints t)) /\ same_ref k b) ->
    (forall n t k tn cn, In (n, t) to -> ~ In n (dkeys from) -> In k (dvals (t_constraints t)) ->
       fk_uses n k tn cn -> ~ retyped from to tn cn) ->
    ~ hazard s a.
  Proof. intros from to disable ops pre a post s P. exact (no_hazard from to P disable ops pre a post s). Qed.

  (** ** C13 *)
  (** Every foreign key is dropped at most once, as the source has it, and added at most once, as
      the target has it. *)
  Theorem C13_dropped_and_added_once : forall from to disable ops n,
    wf_tables from -> wf_tables to -> (forall n t, In (n, t) to -> fks_named t) ->
    plan_tables disable to (Some from) = Ok ops ->
    NoDup (map k_name (fk_drops n ops)) /\ NoDup (map k_name (fk_adds n ops))
    /\ (forall k, In k (fk_drops n ops) -> exists s, In (n, s) from /\ In k (dvals (t_constraints s)))
    /\ (forall k, In k (fk_adds n ops) -> exists t, In (n, t) to /\ In n (dkeys from) /\ In k (dvals (t_constraints t))).
  Proof. intros from to disable ops n Wf Wt. exact (once_each from to Wf Wt ops disable n). Qed.

  (** A source foreign key [k] on a column that changes its type is dropped before, and the target
      foreign key it stands for is added after, all changes of columns and indexes. *)
  Theorem C13_cycled_around_changes : forall from to disable ops n s t k tn cn,
    wf_tables from -> wf_tables to ->
    plan_tables disable to (Some from) = Ok ops -> In (n, s) from -> In (n, t) to -> In k (dvals (t_constraints s)) ->
    fk_uses n k tn cn -> retyped from to tn cn ->
    (In (k_name k) (dkeys (t_constraints t)) \/ exists b, In b (dvals (t_constraints t)) /\ same_ref k b) ->
    exists p1 d p2 e p3 b,
      ops = p1 +++ OAlter d :: p2 +++ OAlter e :: p3 /\ al_table d = n /\ al_table e = n
      /\ In (RemoveConstraint k) (al_ops d) /\ In (AddConstraint b) (al_ops e)
      /\ In b (dvals (t_constraints t))
      /\ (k_name b = k_name k \/ (~ In (k_name k) (dkeys (t_constraints t)) /\ same_ref k b))
      /\ (forall o, In o p1 \/ In o p3 -> changes_shape o = false).
  Proof.
    intros from to disable ops n s t k tn cn Wf Wt E Is It Hk U R.
    pose proof (cycled_around from to Wf Wt disable ops n s k tn cn E Is Hk U R) as H.
    rewrite (proj2 (dget_iff _ _ _ (wf_names _ Wt)) It) in H. exact H.
  Qed.

  (** The same for a table that is dropped: the foreign key goes first, and nothing comes back. *)
  Theorem C13_dropped_tables : forall from to disable ops n s k tn cn,
    wf_tables from -> wf_tables to -> (forall n t, In (n, t) to -> fks_named t) ->
    plan_tables disable to (Some from) = Ok ops -> In (n, s) from -> ~ In n (dkeys to) ->
    In k (dvals (t_constraints s)) -> fk_uses n k tn cn -> retyped from to tn cn ->
    fk_adds n ops = []
    /\ exists p1 d p2, ops = p1 +++ OAlter d :: p2 /\ al_table d = n /\ In (RemoveConstraint k) (al_ops d)
         /\ (forall o, In o p1 -> changes_shape o = false).
  Proof.
    intros from to disable ops n s k tn cn Wf Wt Hn E Is N Hk U R.
    pose proof (cycled_around from to Wf Wt disable ops n s k tn cn E Is Hk U R) as H.
    apply dget_none in N. rewrite N in H. split; [|exact H].
    apply plan_iff in E as [_ ->]; auto. rewrite adds_in_plan, N by assumption. destruct (dget n from); reflexivity.
  Qed.

  (** ** C14 *)
  Theorem C14_nothing_after_fk_additions : forall from to disable ops pre a post k,
    wf_tables from -> wf_tables to -> plan_tables disable to (Some from) = Ok ops ->
    ops = pre +++ OAlter a :: post -> In (AddConstraint k) (al_ops a) ->
    forall o, In o post -> match o with
                           | OCreate _ => False
                           | OAlter a' => forall x, In x (al_ops a') -> exists k', x = AddConstraint k'
                           | _ => True
                           end.
  Proof.
    intros from to disable ops pre a post k Wf Wt E Eo Ha o Ho. apply plan_iff in E as [_ E]; auto. rewrite E in Eo.
    destruct (split_add from to disable pre (OAlter a) post Eo) as (p & _ & Et); [exists a, k; auto|].
    apply (tail_kind from to disable). rewrite Et. apply in_app_iff. right. right. exact Ho.
  Qed.

  Theorem C14_references_exist : forall from to disable ops pre a post k s,
    plannable from to -> references_ok to -> plan_tables disable to (Some from) = Ok ops ->
    ops = pre +++ OAlter a :: post -> In (AddConstraint k) (al_ops a) -> exec_all pre (server_of from) = Some s ->
    has_column s (al_table a) (k_column k) /\ has_column s (k_ftable k) (k_fcolumn k).
  Proof.
    intros from to disable ops pre a post k s P Rf E Eo Ha X. pose proof (pl_from _ _ P) as Wf. pose proof (pl_to _ _ P) as Wt.
    assert (Hk : In k (fk_adds (al_table a) ops)).
    { unfold fk_adds. apply in_concat. exists [k]. split; [|left; reflexivity]. apply in_map_iff. exists (AddConstraint k).
      split; [reflexivity|]. apply in_alters_of. exists a. split; [|auto]. rewrite Eo. apply in_app_iff. right. left. reflexivity. }
    destruct (once_each from to Wf Wt ops disable (al_table a) (pl_named _ _ P) E) as (_ & _ & _ & H).
    destruct (H k Hk) as (t & It & _ & Hkt). destruct (Rf _ t k It Hkt) as (R1 & t' & It' & R2).
    apply plan_iff in E as [Cm E]; auto. rewrite E in Eo.
    destruct (split_add from to disable pre (OAlter a) post Eo) as (p & Ep & Et); [exists a, k; auto|]. rewrite Ep in X.
    split; [eapply (cols_at_tail from to P disable p _ s Cm Et X); eauto|eapply (cols_at_tail from to P disable p _ s Cm Et X); eauto].
  Qed.

  (** ** C17 *)
  (** [mid] is the structure found after a prefix of the plan was executed. *)
  Theorem C17_resume : forall from to disable ops pre post s mid,
    plannable from to -> plan_tables disable to (Some from) = Ok ops -> ops = pre +++ post ->
    exec_all pre (server_of from) = Some s -> wf_tables mid -> holds mid s ->
    plannable mid to
    /\ exists ops2 s2, plan_tables disable to (Some mid) = Ok ops2
         /\ exec_all ops2 (server_of mid) = Some s2 /\ reaches mid to s2.
  Proof.
    intros from to disable ops pre post s mid P E Eo X Wm Hm.
    destruct (plan_resumes from to P disable ops pre post s mid E Eo X Wm Hm) as [P2 C2]. split; [exact P2|].
    destruct (plan_reaches mid to P2 C2 disable) as (s2 & X2 & R2 & _).
    exists (plan_list mid to disable), s2. split; [|split; assumption]. apply plan_iff; auto. apply (pl_to _ _ P).
  Qed.

  (** ** C18 *)
  Theorem C18_alters_nonempty_and_directed : forall from to disable ops pre a post s,
    plannable from to -> plan_tables disable to (Some from) = Ok ops -> ops = pre +++ OAlter a :: post ->
    exec_all pre (server_of from) = Some s -> al_ops a <> [] /\ exists st, s (al_table a) = Some st.
  Proof.
    intros from to disable ops pre a post s P E Eo X. split.
    - eapply (alter_nonempty from to (pl_from _ _ P) (pl_to _ _ P) disable ops a E). rewrite Eo. apply in_app_iff. right. left. reflexivity.
    - eapply (alter_exists from to P disable ops pre a post s); eauto.
  Qed.
End Theorems.

(** ** Samples *)
Definition namedb_fks (t : table) : bool := forallb (fun k => negb (String.eqb (k_name k) "")) (dvals (t_constraints t)).
Definition same_refb (a b : constraint) : bool :=
  String.eqb (k_column a) (k_column b) && String.eqb (k_ftable a) (k_ftable b) && String.eqb (k_fcolumn a) (k_fcolumn b).
Definition clearb (src tgt : table) : bool :=
  forallb (fun a => forallb (fun b => forallb (fun c =>
    smem (k_name a) (dkeys (t_constraints tgt)) || negb (same_refb a b) || negb (String.eqb (k_name c) (k_name b)) || same_refb c b)
    (dvals (t_constraints src))) (dvals (t_constraints tgt))) (dvals (t_constraints src)).
Definition plannableb (from to : tables) : bool :=
  wf_tablesb from && wf_tablesb to && forallb (fun p => namedb_fks (snd p)) to
  && forallb (fun p => forallb (fun q => negb (String.eqb (fst p) (fst q)) || (primary_keptb (snd p) (snd q) && clearb (snd p) (snd q))) to) from.
Lemma same_refb_iff a b : same_refb a b = true <-> same_ref a b.
Proof. unfold same_refb, same_ref. rewrite !andb_true_iff, !String.eqb_eq. tauto. Qed.
Lemma uses_same_ref from to n a c : same_ref a c -> uses_retyped from to n a -> uses_retyped from to n c.
Proof.
  intros (E1 & E2 & E3) (tn & cn & U & R). exists tn, cn. split; [|exact R].
  unfold fk_uses in *. rewrite <- E1, <- E2, <- E3. exact U.
Qed.
Lemma clearb_ok from to n src tgt : clearb src tgt = true -> fk_names_clear from to n src tgt.
Proof.
  unfold clearb. rewrite forallb_forall. intros H a b c (Ha & N & l & l' & El & SR & _) U Hc En. specialize (H a Ha). rewrite forallb_forall in H.
  assert (Hb : In b (dvals (t_constraints tgt))) by (rewrite El; apply in_app_iff; right; left; reflexivity).
  specialize (H b Hb). rewrite forallb_forall in H. specialize (H c Hc).
  pose proof SR as SR'. apply same_refb_iff in SR. rewrite SR, En, String.eqb_refl in H. simpl in H.
  rewrite !orb_false_r in H. apply orb_true_iff in H as [H|H]; [apply smem_in in H; contradiction|]. apply same_refb_iff in H.
  apply (uses_same_ref from to n a c); [|exact U]. unfold same_ref in *. intuition congruence.
Qed.
Lemma plannableb_ok from to : plannableb from to = true -> plannable from to.
Proof.
  unfold plannableb. rewrite !andb_true_iff, !forallb_forall. intros [[[H1 H2] H3] H4].
  assert (B : forall n s t, In (n, s) from -> In (n, t) to -> primary_keptb s t && clearb s t = true).
  { intros n s t Is It. specialize (H4 _ Is). rewrite forallb_forall in H4. specialize (H4 _ It). simpl in H4.
    rewrite String.eqb_refl in H4. exact H4. }
  constructor; auto using wf_tablesb_ok.
  - intros n t It k Hk. specialize (H3 _ It). unfold namedb_fks in H3. rewrite forallb_forall in H3. specialize (H3 k Hk).
    apply negb_true_iff, String.eqb_neq in H3. exact H3.
  - intros n s t Is It. specialize (B n s t Is It). apply andb_true_iff in B as [B _]. apply primary_keptb_ok, B.
  - intros n s t Is It. specialize (B n s t Is It). apply andb_true_iff in B as [_ B]. apply clearb_ok, B.
Qed.

Definition num (ty name len : string) (auto : bool) : column :=
  col0 KNumeric name ty (if String.eqb len "" then LNone else LStr len) false DNone (Some false) (Some auto).
Definition pk : index := primary_key ["id"].
(** A parent with an id of the given type, and a child that refers to it. *)
Definition parent_t (ty len : string) : table := tbl "parent" [num ty "id" len true; varchar_col "title" "255"] [pk] [].
Definition child_t (ty len : string) (ks : list constraint) : table :=
  tbl "child" [id_col; num ty "parent_id" len false] [pk; key "parent_idx" ["parent_id"]] ks.
Definition fk_a : constraint := fk "fk_a" "parent_id" "parent" "id".
Definition fk_b : constraint := fk "fk_b" "parent_id" "parent" "id".
Definition old_table : table := tbl "old" [id_col; num "INT" "pid" "10" false] [pk] [fk "fk_old" "pid" "parent" "id"].
Definition extra_table : table := tbl "extra" [id_col; int_col "cid"] [pk; key "cid" ["cid"]] [fk "fk_extra" "cid" "child" "id"].

Definition live_db : tables := db [parent_t "INT" "10"; child_t "INT" "10" [fk_a]; old_table].
Definition file_db : tables := db [parent_t "BIGINT" "20"; child_t "BIGINT" "20" [fk_b]; extra_table].

(** The plan between them: a new table, a dropped one, a type change of a referenced column, and a
    renamed foreign key. *)
Example ex_plannable : plannable live_db file_db.
Proof. apply plannableb_ok. reflexivity. Qed.
Example ex_retyped : retyped live_db file_db "parent" "id" /\ fk_uses "child" fk_a "parent" "id"
  /\ fk_uses "old" (fk "fk_old" "pid" "parent" "id") "parent" "id".
Proof.
  split; [|split; right; split; reflexivity].
  exists (parent_t "INT" "10"), (parent_t "BIGINT" "20"), (num "INT" "id" "10" true), (num "BIGINT" "id" "20" true).
  repeat split; try (simpl; tauto). vm_compute. discriminate.
Qed.
Definition live_plan : list op :=
  match plan_tables false file_db (Some live_db) with Ok l => l | Raise _ => [] end.
Example ex_plan : plan_tables false file_db (Some live_db) = Ok live_plan
  /\ map op_str live_plan =
  ["CREATE TABLE `extra` (`id` INT(10) NOT NULL AUTO_INCREMENT,
`cid` INT(10) NOT NULL,
PRIMARY KEY (`id`),
KEY `cid` (`cid`),
CONSTRAINT `fk_extra` FOREIGN KEY (`cid`) REFERENCES `child` (`id`) ON DELETE CASCADE ON UPDATE RESTRICT);";
   "ALTER TABLE `child` DROP FOREIGN KEY `fk_a`;";
   "ALTER TABLE `old` DROP FOREIGN KEY `fk_old`;";
   "ALTER TABLE `parent` CHANGE `id` `id` BIGINT(20) NOT NULL AUTO_INCREMENT;";
   "ALTER TABLE `child` CHANGE `parent_id` `parent_id` BIGINT(20) NOT NULL;";
   "ALTER TABLE `child` ADD CONSTRAINT `fk_b` FOREIGN KEY (`parent_id`) REFERENCES `parent` (`id`) ON DELETE CASCADE ON UPDATE RESTRICT;";
   "DROP TABLE old;"].
Proof. vm_compute. split; reflexivity. Qed.

(** C11, C12: the remaining hypotheses hold of this pair. *)
Example ex_settled : fk_columns_settled live_db file_db.
Proof.
  intros n s t cn a b Is It Ha Hb DS N m mt k Hm Hk U.
  simpl in Is, It. repeat (destruct Is as [Is|Is]; [injection Is as <- <-|]); try destruct Is;
    repeat (destruct It as [It|It]; [first [discriminate It | injection It as <-]|]); try destruct It;
    simpl in Ha, Hb; repeat (destruct Ha as [Ha|Ha]; [injection Ha as <- <-|]); try destruct Ha;
    repeat (destruct Hb as [Hb|Hb]; [first [discriminate Hb | injection Hb as <-]|]); try destruct Hb;
    try (apply N; reflexivity); destruct DS as [DS|DS]; vm_compute in DS; discriminate.
Qed.
Example ex_names_settled : names_settled live_db file_db.
Proof.
  intros n s t Is It x a y b Ha Na Hb Nb _ _ Hc. exfalso.
  simpl in Is, It. repeat (destruct Is as [Is|Is]; [injection Is as <- <-|]); try destruct Is;
    repeat (destruct It as [It|It]; [first [discriminate It | injection It as <-]|]); try destruct It;
    apply Na; simpl in Ha; intuition (try discriminate); simpl; intuition congruence.
Qed.
Example ex_cyclable :
  (forall n old t k tn cn, In (n, old) live_db -> In (n, t) file_db -> In k (dvals (t_constraints old)) ->
     fk_uses n k tn cn -> retyped live_db file_db tn cn ->
     In (k_name k) (dkeys (t_constraints t)) \/ exists b, In b (dvals (t_constraints t)) /\ same_ref k b)
  /\ (forall n t k tn cn, In (n, t) file_db -> ~ In n (dkeys live_db) -> In k (dvals (t_constraints t)) ->
     fk_uses n k tn cn -> ~ retyped live_db file_db tn cn).
Proof.
  split.
  - intros n old t k tn cn Is It Hk U R. simpl in Is, It.
    repeat (destruct Is as [Is|Is]; [injection Is as <- <-|]); try destruct Is;
      repeat (destruct It as [It|It]; [first [discriminate It | injection It as <-]|]); try destruct It;
      simpl in Hk; repeat (destruct Hk as [<-|Hk]); try destruct Hk.
    right. exists fk_b. split; [left; reflexivity|repeat split].
  - intros n t k tn cn It N Hk U R. apply changing_iff in R; try (apply wf_tablesb_ok; reflexivity). simpl in It.
    repeat (destruct It as [It|It]; [injection It as <- <-|]); try destruct It; try (exfalso; apply N; simpl; tauto).
    simpl in Hk. destruct Hk as [<-|[]].
    destruct U as [[<- <-]|[<- <-]]; vm_compute in R; discriminate.
Qed.
Example ex_references_ok : references_ok file_db.
Proof.
  intros n t k It Hk. simpl in It. repeat (destruct It as [It|It]; [injection It as <- <-|]); try destruct It;
    simpl in Hk; repeat (destruct Hk as [<-|Hk]); try destruct Hk.
  - split; [simpl; tauto|]. eexists. split; [left; reflexivity|]. simpl. tauto.
  - split; [simpl; tauto|]. eexists. split; [right; left; reflexivity|]. simpl. tauto.
Qed.

(** C17: the structure after the fourth of the seven statements. *)
Definition mid_db : tables :=
  db [parent_t "BIGINT" "20"; child_t "INT" "10" []; tbl "old" [id_col; num "INT" "pid" "10" false] [pk] []; extra_table].
(** Comparing a server after some statements with a description of it: only tables that occur in
    either matter. *)
Lemma holds_check (from mid : tables) ops (names : list string) :
  forallb (fun o => match op_on o with Some n => smem n names | None => true end) ops = true ->
  forallb (fun n => smem n names) (dkeys from +++ dkeys mid) = true ->
  match exec_all ops (server_of from) with Some _ => true | None => false end = true ->
  (forall n, In n names -> option_map (fun s => s n) (exec_all ops (server_of from)) = Some (server_of mid n)) ->
  exists s, exec_all ops (server_of from) = Some s /\ holds mid s.
Proof.
  intros H1 H2 H3 H4. destruct (exec_all ops (server_of from)) as [s|] eqn:X; [|discriminate].
  exists s. split; [reflexivity|]. intros n. destruct (in_dec string_dec n names) as [I|I].
  - specialize (H4 n I). simpl in H4. congruence.
  - pose proof (exec_all_local_inv _ _ _ X n) as L. rewrite forallb_forall in H1, H2.
    rewrite filter_none in L.
    + simpl in L. injection L as <-. unfold server_of.
      assert (Hn : forall d, incl (dkeys d) (dkeys from +++ dkeys mid) -> dget n d = @None table).
      { intros d Hd. apply dget_none. intros K. apply I, smem_in, H2, Hd, K. }
      rewrite !Hn; [reflexivity|apply incl_appl, incl_refl|apply incl_appr, incl_refl].
    + intros o Ho. specialize (H1 o Ho). unfold on. destruct (op_on o) as [m|]; [|reflexivity].
      apply String.eqb_neq. intros ->. apply I, smem_in, H1.
Qed.
Ltac holds_tac names := apply (holds_check _ _ _ names); [vm_compute; reflexivity | vm_compute; reflexivity | vm_compute; reflexivity |
  let n := fresh in let H := fresh in intros n H; repeat (destruct H as [<-|H]; [vm_compute; reflexivity|]); destruct H].

Example ex_resume : (exists s, exec_all (firstn 4 live_plan) (server_of live_db) = Some s /\ holds mid_db s) /\ wf_tables mid_db
  /\ live_plan = firstn 4 live_plan +++ skipn 4 live_plan
  /\ rmap (map op_str) (plan_tables false file_db (Some mid_db)) =
     Ok ["ALTER TABLE `child` CHANGE `parent_id` `parent_id` BIGINT(20) NOT NULL;";
         "ALTER TABLE `child` ADD CONSTRAINT `fk_b` FOREIGN KEY (`parent_id`) REFERENCES `parent` (`id`) ON DELETE CASCADE ON UPDATE RESTRICT;";
         "DROP TABLE old;"].
Proof.
  split; [holds_tac ["parent"; "child"; "old"; "extra"]|].
  split; [apply wf_tablesb_ok; reflexivity|]. split; [symmetry; apply firstn_skipn|]. vm_compute. reflexivity.
Qed.
(** C11: the structure after the whole plan. *)
Example ex_done : (exists s, exec_all live_plan (server_of live_db) = Some s /\ holds file_db s) /\ wf_tables file_db.
Proof. split; [holds_tac ["parent"; "child"; "old"; "extra"]|apply wf_tablesb_ok; reflexivity]. Qed.

(** ** Refutations *)

(** C10: without [pl_primary] the PRIMARY KEY change fails (as C02); without [pl_clear] a foreign
    key is added although one of the same name still exists: [fk_b] is cycled into the target's
    [fk_c], so the removal of the source's own [fk_c] is suppressed. *)
Definition clash_from : tables :=
  db [parent_t "INT" "10"; tbl "q" [id_col] [pk] [];
      tbl "child" [id_col; num "INT" "parent_id" "10" false; int_col "q_id"] [pk] [fk_b; fk "fk_c" "q_id" "q" "id"]].
Definition clash_to : tables :=
  db [parent_t "BIGINT" "20"; tbl "q" [id_col] [pk] [];
      tbl "child" [id_col; num "BIGINT" "parent_id" "20" false; int_col "q_id"] [pk] [fk "fk_c" "parent_id" "parent" "id"]].
Theorem C10_refuted : forall FO : FloatOracle,
  (exists from to ops, wf_tables from /\ wf_tables to
     /\ (forall n t, In (n, t) to -> fks_named t)
     /\ (forall n s t, In (n, s) from -> In (n, t) to -> primary_kept s t)
     /\ plan_tables false to (Some from) = Ok ops /\ exec_all ops (server_of from) = None)
  /\ (exists from to ops, wf_tables from /\ wf_tables to
     /\ (forall n t, In (n, t) to -> fks_named t)
     /\ (forall n s t, In (n, s) from -> In (n, t) to -> fk_names_clear from to n s t)
     /\ plan_tables false to (Some from) = Ok ops /\ exec_all ops (server_of from) = None).
Proof.
  intros FO. split.
  - exists clash_from, clash_to. eexists.
    split; [apply wf_tablesb_ok; reflexivity|]. split; [apply wf_tablesb_ok; reflexivity|].
    split; [|split; [|split; [vm_compute; reflexivity|vm_compute; reflexivity]]].
    + intros n t It k Hk. simpl in It. repeat (destruct It as [It|It]; [injection It as <- <-|]); try destruct It;
        simpl in Hk; repeat (destruct Hk as [<-|Hk]); try destruct Hk; discriminate.
    + intros n s t Is It. apply primary_keptb_ok. simpl in Is, It.
      repeat (destruct Is as [Is|Is]; [injection Is as <- <-|]); try destruct Is;
      repeat (destruct It as [It|It]; [first [discriminate It | injection It as <-]|]); try destruct It; reflexivity.
  - exists (db [tbl "t" [id_col; int_col "a"] [primary_key ["id"]] []]), (db [tbl "t" [id_col; int_col "a"] [primary_key ["id"; "a"]] []]). eexists.
    split; [apply wf_tablesb_ok; reflexivity|]. split; [apply wf_tablesb_ok; reflexivity|].
    split; [|split; [|split; [vm_compute; reflexivity|vm_compute; reflexivity]]].
    + intros n t [[= <- <-]|[]] k [].
    + intros n s t [[= <- <-]|[]] [[= <-]|[]]. intros a b c ([] & _).
Qed.

(** If the other foreign key is on a retyped column too, it is dropped in the first step, and the plan works. *)
Definition chain_from : tables :=
  db [parent_t "INT" "10"; tbl "q" [num "INT" "id" "10" true] [pk] [];
      tbl "child" [id_col; num "INT" "parent_id" "10" false; num "INT" "q_id" "10" false] [pk] [fk_b; fk "fk_c" "q_id" "q" "id"]].
Definition chain_to : tables :=
  db [parent_t "BIGINT" "20"; tbl "q" [num "BIGINT" "id" "20" true] [pk] [];
      tbl "child" [id_col; num "BIGINT" "parent_id" "20" false; num "BIGINT" "q_id" "20" false] [pk] [fk "fk_c" "parent_id" "parent" "id"]].
Example ex_C10_chain : plannable chain_from chain_to /\ clearb (tbl "child" [id_col; num "INT" "parent_id" "10" false; num "INT" "q_id" "10" false] [pk] [fk_b; fk "fk_c" "q_id" "q" "id"])
    (tbl "child" [id_col; num "BIGINT" "parent_id" "20" false; num "BIGINT" "q_id" "20" false] [pk] [fk "fk_c" "parent_id" "parent" "id"]) = false
  /\ rmap (map op_str) (plan_tables false chain_to (Some chain_from)) =
  Ok ["ALTER TABLE `child` DROP FOREIGN KEY `fk_b`, DROP FOREIGN KEY `fk_c`;";
      "ALTER TABLE `parent` CHANGE `id` `id` BIGINT(20) NOT NULL AUTO_INCREMENT;";
      "ALTER TABLE `q` CHANGE `id` `id` BIGINT(20) NOT NULL AUTO_INCREMENT;";
      "ALTER TABLE `child` CHANGE `parent_id` `parent_id` BIGINT(20) NOT NULL, CHANGE `q_id` `q_id` BIGINT(20) NOT NULL;";
      "ALTER TABLE `child` ADD CONSTRAINT `fk_c` FOREIGN KEY (`parent_id`) REFERENCES `parent` (`id`) ON DELETE CASCADE ON UPDATE RESTRICT;"].
Proof.
  split; [|split; [reflexivity|vm_compute; reflexivity]].
  assert (Wf : wf_tables chain_from) by (apply wf_tablesb_ok; reflexivity).
  assert (Wt : wf_tables chain_to) by (apply wf_tablesb_ok; reflexivity).
  constructor; [exact Wf|exact Wt| | |].
  - intros n t It k Hk. simpl in It. repeat (destruct It as [It|It]; [injection It as <- <-|]); try destruct It;
      simpl in Hk; repeat (destruct Hk as [<-|Hk]); try destruct Hk; discriminate.
  - intros n s t Is It. apply primary_keptb_ok. simpl in Is, It.
    repeat (destruct Is as [Is|Is]; [injection Is as <- <-|]); try destruct Is;
    repeat (destruct It as [It|It]; [first [discriminate It | injection It as <-]|]); try destruct It; reflexivity.
  - intros n s t Is It. apply clear_iff; auto. intros kn a b x c Ha Nx Hc. clear It. simpl in Is.
    repeat (destruct Is as [Is|Is]; [injection Is as <- <-|]); try destruct Is; vm_compute in Ha; try destruct Ha;
      simpl in Hc; repeat (destruct Hc as [Hc|Hc]; [injection Hc as <- <-; vm_compute; reflexivity|]); destruct Hc.
Qed.

(** C11: columns declared INT(10) in the files and INT on the server (MySQL 8 omits the display
    width) with a foreign key: every plan drops and re-adds the foreign key, for ever. *)
Definition width_from : tables := db [parent_t "INT" ""; child_t "INT" "" [fk_a]].
Definition width_to : tables := db [parent_t "INT" "10"; child_t "INT" "10" [fk_a]].
Theorem C11_refuted : forall FO : FloatOracle, exists from to ops,
  plannable from to /\ plan_tables false to (Some from) = Ok ops /\ ops <> []
  /\ map op_str ops =
     ["ALTER TABLE `child` DROP FOREIGN KEY `fk_a`;";
      "ALTER TABLE `child` ADD CONSTRAINT `fk_a` FOREIGN KEY (`parent_id`) REFERENCES `parent` (`id`) ON DELETE CASCADE ON UPDATE RESTRICT;"]
  /\ exists s, exec_all ops (server_of from) = Some s /\ holds from s.
Proof.
  intros FO. exists width_from, width_to. eexists.
  split; [apply plannableb_ok; reflexivity|]. split; [vm_compute; reflexivity|]. split; [discriminate|]. split; [reflexivity|].
  holds_tac ["parent"; "child"].
Qed.

(** [C11_exact] applies to both pairs. *)
Example ex_C11_exact : fk_texts_tell live_db file_db /\ (forall p, In p live_db \/ In p file_db -> distinct_indexes (snd p))
  /\ fk_texts_tell width_from width_to /\ (forall p, In p width_from \/ In p width_to -> distinct_indexes (snd p)).
Proof.
  assert (L : forall d, forallb (fun p => distinct_indexesb (snd p)) d = true -> forall p : string * table, In p d -> distinct_indexes (snd p)).
  { intros d H p Hp. rewrite forallb_forall in H. apply distinct_indexesb_ok, H, Hp. }
  split; [|split; [|split]].
  2,4: intros p [H|H]; revert p H; apply L; reflexivity.
  all: intros n s t x a b Is It Ha Hb _;
    simpl in Is, It; repeat (destruct Is as [Is|Is]; [injection Is as <- <-|]); try destruct Is;
    repeat (destruct It as [It|It]; [first [discriminate It | injection It as <-]|]); try destruct It;
    simpl in Ha, Hb; repeat (destruct Ha as [Ha|Ha]; [injection Ha as <- <-|]); try destruct Ha;
    repeat (destruct Hb as [Hb|Hb]; [first [discriminate Hb | injection Hb as <-]|]); try destruct Hb;
    repeat split; reflexivity.
Qed.

(** C12: a foreign key the target no longer has is dropped in its own table's turn, after the
    parent's column was changed; and a new table is created, with its foreign keys, before. *)
Theorem C12_refuted : forall FO : FloatOracle,
  (exists from to ops pre a post s, plannable from to /\ dkeys from = dkeys to
     /\ plan_tables false to (Some from) = Ok ops /\ ops = pre +++ OAlter a :: post
     /\ exec_all pre (server_of from) = Some s /\ hazard s a)
  /\ (exists from to ops pre a post s, plannable from to
     /\ (forall n t, In (n, t) from -> t_constraints t = [])
     /\ plan_tables false to (Some from) = Ok ops /\ ops = pre +++ OAlter a :: post
     /\ exec_all pre (server_of from) = Some s /\ hazard s a).
Proof.
  intros FO. split.
  - exists (db [parent_t "INT" "10"; child_t "INT" "10" [fk_a]]), (db [parent_t "BIGINT" "20"; child_t "BIGINT" "20" []]).
    eexists _, [], _, _, _. split; [apply plannableb_ok; reflexivity|]. split; [reflexivity|].
    split; [vm_compute; reflexivity|]. split; [reflexivity|]. split; [reflexivity|].
    exists (num "BIGINT" "id" "20" true), (num "INT" "id" "10" true), (stable_of (parent_t "INT" "10")), "child",
      (stable_of (child_t "INT" "10" [fk_a])), fk_a.
    split; [left; reflexivity|]. split; [reflexivity|]. split; [left; reflexivity|]. split; [reflexivity|].
    split; [vm_compute; discriminate|]. split; [reflexivity|]. split; [left; reflexivity|]. right. split; reflexivity.
  - exists (db [parent_t "INT" "10"]), (db [parent_t "BIGINT" "20"; child_t "BIGINT" "20" [fk_a]]).
    eexists _, [OCreate _], _, _, _. split; [apply plannableb_ok; reflexivity|].
    split; [intros n t [[= <- <-]|[]]; reflexivity|].
    split; [vm_compute; reflexivity|]. split; [reflexivity|]. split; [reflexivity|].
    exists (num "BIGINT" "id" "20" true), (num "INT" "id" "10" true), (stable_of (parent_t "INT" "10")), "child",
      (stable_of (child_t "BIGINT" "20" [fk_a])), fk_a.
    split; [left; reflexivity|]. split; [reflexivity|]. split; [left; reflexivity|]. split; [reflexivity|].
    split; [vm_compute; discriminate|]. split; [reflexivity|]. split; [left; reflexivity|]. right. split; reflexivity.
Qed.

Print Assumptions C08_right_tables.
Print Assumptions C09_plan_from_nothing.
Print Assumptions C10_plan_reaches_target_partial.
Print Assumptions C10_plan_exists.
Print Assumptions C10_exact.
Print Assumptions C10_refuted.
Print Assumptions C11_second_plan_empty_partial.
Print Assumptions C11_refuted.
Print Assumptions C11_exact.
Print Assumptions C11_texts_tell.
Print Assumptions C12_no_type_change_under_fk_partial.
Print Assumptions C12_refuted.
Print Assumptions C13_dropped_and_added_once.
Print Assumptions C13_cycled_around_changes.
Print Assumptions C13_dropped_tables.
Print Assumptions C14_nothing_after_fk_additions.
Print Assumptions C14_references_exist.
Print Assumptions C17_resume.
Print Assumptions C18_alters_nonempty_and_directed.
