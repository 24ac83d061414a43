(** The lemmas behind C90-C92. *)
From Verif Require Export SpecData PlanCycle.
From Coq Require Import Permutation.

Section Fold.
  Context {D : Type} (fresh : string -> string -> D).

  Definition adds (c : string) (o : aop) : Prop := match o with AddColumn x _ => c_name x = c | _ => False end.
  Definition drops (c : string) (o : aop) : Prop := match o with RemoveColumn x => c_name x = c | _ => False end.
  Lemma adds_dec c l : (exists o, In o l /\ adds c o) \/ (forall o, In o l -> ~ adds c o).
  Proof.
    induction l as [|o l IH]; [right; intros o []|]. destruct IH as [(x & I & H)|N]; [left; exists x; split; [right; exact I|exact H]|].
    assert (Q : adds c o \/ ~ adds c o) by (destruct o; try (right; solve [intros []]); cbn; match goal with |- c_name ?x = _ \/ _ => destruct (String.eqb_spec (c_name x) c); auto end).
    destruct Q as [Q|Q]; [left; exists o; split; [left; reflexivity|exact Q]|right; intros x [<-|I]; auto].
  Qed.
  Lemma drops_dec c l : (exists o, In o l /\ drops c o) \/ (forall o, In o l -> ~ drops c o).
  Proof.
    induction l as [|o l IH]; [right; intros o []|]. destruct IH as [(x & I & H)|N]; [left; exists x; split; [right; exact I|exact H]|].
    assert (Q : drops c o \/ ~ drops c o) by (destruct o; try (right; solve [intros []]); cbn; match goal with |- c_name ?x = _ \/ _ => destruct (String.eqb_spec (c_name x) c); auto end).
    destruct Q as [Q|Q]; [left; exists o; split; [left; reflexivity|exact Q]|right; intros x [<-|I]; auto].
  Qed.

  Lemma put_other n c v m n' c' : n <> n' \/ c <> c' -> put n c v m n' c' = (m n' c' : option D).
  Proof. intros [H|H]; unfold put; apply String.eqb_neq in H; rewrite H; [|rewrite andb_false_r]; reflexivity. Qed.
  Lemma put_same n c v m : put n c v m n c = (v : option D).
  Proof. unfold put. rewrite !String.eqb_refl. reflexivity. Qed.

  Lemma add_skip n n' c : forall l m, n <> n' \/ (forall o, In o l -> ~ adds c o) -> fold_left (add_data fresh n) l m n' c = m n' c.
  Proof.
    induction l as [|o l IH]; intros m H; [reflexivity|]. cbn [fold_left]. rewrite IH by (destruct H as [H|H]; [auto|right; intros x I; apply H; right; exact I]).
    destruct o; try reflexivity. cbn [add_data]. apply put_other. destruct H as [H|H]; [auto|]. right. exact (H _ (or_introl eq_refl)).
  Qed.
  Lemma add_done n c : forall l m o, In o l -> adds c o -> fold_left (add_data fresh n) l m n c = Some (fresh n c).
  Proof.
    induction l as [|x l IH]; intros m o I H; [destruct I|]. cbn [fold_left]. destruct (adds_dec c l) as [(y & Iy & Hy)|N]; [eapply IH; eauto|].
    destruct I as [->|I]; [|destruct (N _ I H)]. rewrite add_skip by auto. destruct o; try destruct H. cbn [add_data]. apply put_same.
  Qed.
  Lemma drop_skip n n' c : forall l (m : contents), n <> n' \/ (forall o, In o l -> ~ drops c o) -> fold_left (drop_data n) l m n' c = (m n' c : option D).
  Proof.
    induction l as [|o l IH]; intros m H; [reflexivity|]. cbn [fold_left]. rewrite IH by (destruct H as [H|H]; [auto|right; intros x I; apply H; right; exact I]).
    destruct o; try reflexivity. cbn [drop_data]. apply put_other. destruct H as [H|H]; [auto|]. right. exact (H _ (or_introl eq_refl)).
  Qed.
  Lemma drop_done n c : forall l (m : contents) o, In o l -> drops c o -> fold_left (drop_data n) l m n c = (None : option D).
  Proof.
    induction l as [|x l IH]; intros m o I H; [destruct I|]. cbn [fold_left]. destruct (drops_dec c l) as [(y & Iy & Hy)|N]; [eapply IH; eauto|].
    destruct I as [->|I]; [|destruct (N _ I H)]. rewrite drop_skip by auto. destruct o; try destruct H. cbn [drop_data]. apply put_same.
  Qed.

  (** One ALTER, seen at one column. *)
  Lemma alter_data_at a m n c :
    op_data fresh m (OAlter a) n c = m n c /\ (al_table a <> n \/ forall o, In o (al_ops a) -> ~ adds c o /\ ~ drops c o)
    \/ al_table a = n /\ (exists o, In o (al_ops a) /\ adds c o) /\ op_data fresh m (OAlter a) n c = Some (fresh n c)
    \/ al_table a = n /\ (forall o, In o (al_ops a) -> ~ adds c o) /\ (exists o, In o (al_ops a) /\ drops c o) /\ op_data fresh m (OAlter a) n c = None.
  Proof.
    cbn [op_data]. destruct (String.eqb_spec (al_table a) n) as [<-|N].
    - destruct (adds_dec c (al_ops a)) as [(o & I & H)|NA].
      + right. left. split; [reflexivity|]. split; [eauto|]. eapply add_done; eauto.
      + rewrite add_skip by auto. destruct (drops_dec c (al_ops a)) as [(o & I & H)|ND].
        * right. right. repeat split; eauto. eapply drop_done; eauto.
        * left. rewrite drop_skip by auto. split; [reflexivity|]. right. intros o I. split; auto.
    - left. rewrite add_skip, drop_skip by auto. auto.
  Qed.

  Lemma op_other o n c m : concerns n o = false -> op_data fresh m o n c = m n c.
  Proof.
    destruct o as [t|a|x| | |x d|x d|x i]; intros H; try reflexivity; cbn [concerns] in *; apply String.eqb_neq in H.
    - cbn [op_data]. destruct (String.eqb_spec n (t_name t)); [congruence|reflexivity].
    - cbn [op_data]. rewrite add_skip, drop_skip by auto. reflexivity.
    - cbn [op_data]. destruct (String.eqb_spec n x); [congruence|reflexivity].
  Qed.
  Lemma op_at o n c m m' : m n c = m' n c -> op_data fresh m o n c = op_data fresh m' o n c.
  Proof.
    intros E. destruct o as [t|a|x| | |x d|x d|x i]; try exact E; cbn [op_data].
    - rewrite E. reflexivity.
    - assert (Q : forall l m m' (f : contents -> aop -> contents), (forall m m' o, m n c = m' n c -> f m o n c = f m' o n c :> option D) ->
        m n c = m' n c -> fold_left f l m n c = fold_left f l m' n c).
      { clear. induction l as [|o l IH]; intros m m' f F E; [exact E|]. cbn [fold_left]. apply IH; auto. }
      apply Q; [|apply Q; [|exact E]]; intros m1 m2 o E'; destruct o; try exact E'; cbn [add_data drop_data]; unfold put; rewrite E'; reflexivity.
    - rewrite E. reflexivity.
  Qed.
  Lemma data_local n c : forall l m, data_after fresh l m n c = data_after fresh (filter (concerns n) l) m n c.
  Proof.
    assert (Q : forall l m m', m n c = m' n c -> data_after fresh l m n c = data_after fresh (filter (concerns n) l) m' n c).
    { induction l as [|o l IH]; intros m m' E; [exact E|]. unfold data_after in *. cbn [fold_left filter]. destruct (concerns n o) eqn:C.
      - cbn [fold_left]. apply IH, op_at, E.
      - apply IH. rewrite op_other by exact C. exact E. }
    intros l m. apply Q. reflexivity.
  Qed.
  Lemma data_app l1 l2 m : data_after fresh (l1 +++ l2) m = data_after fresh l2 (data_after fresh l1 m).
  Proof. apply fold_left_app. Qed.

  (** A statement that does not add or drop the column. *)
  Definition spares (n c : string) (o : op) : Prop :=
    match o with
    | OCreate t => t_name t <> n
    | ODropTable m => m <> n
    | OAlter a => al_table a <> n \/ forall x, In x (al_ops a) -> ~ adds c x /\ ~ drops c x
    | _ => True
    end.
  Lemma data_spared n c : forall l m, (forall o, In o l -> spares n c o) -> data_after fresh l m n c = m n c.
  Proof.
    induction l as [|o l IH]; intros m H; [reflexivity|]. unfold data_after in *. cbn [fold_left].
    rewrite IH by (intros x I; apply H; right; exact I). pose proof (H o (or_introl eq_refl)) as S.
    destruct o as [t|a|x| | |x d|x d|x i]; try reflexivity; cbn [spares] in S.
    - apply op_other. cbn. apply String.eqb_neq, S.
    - destruct (alter_data_at a m n c) as [[E _]|[(E & (o & I & Q) & _)|(E & _ & (o & I & Q) & _)]]; [exact E|..].
      + destruct S as [S|S]; [contradiction|]. destruct (proj1 (S o I) Q).
      + destruct S as [S|S]; [contradiction|]. destruct (proj2 (S o I) Q).
    - apply op_other. cbn. apply String.eqb_neq, S.
  Qed.
End Fold.

(** ** The columns a server has are those that hold something *)
Lemma pass1_names c : forall ops l l', run_all col_pass1 ops l = Some l' ->
  (In c (map c_name l') <-> In c (map c_name l) /\ forall o, In o ops -> ~ drops c o).
Proof.
  induction ops as [|o ops IH]; intros l l' H.
  - injection H as <-. split; [intros I; split; [exact I|intros o []]|tauto].
  - cbn [run_all] in H. destruct (col_pass1 l o) as [l1|] eqn:E; [|discriminate]. rewrite (IH _ _ H).
    assert (Q : In c (map c_name l1) <-> In c (map c_name l) /\ ~ drops c o).
    { destruct o as [x p|x|x|x|x|x|x|x|x]; cbn [col_pass1] in E; try (injection E as <-; cbn [drops]; tauto).
      - cbn [drops]. unfold replace_id in E. destruct (has_id _ _ _ _); [|discriminate]. injection E as <-. rewrite map_map.
        assert (Z : map (fun y => c_name (if String.eqb (c_name x) (c_name y) then x else y)) l = map c_name l).
        { apply map_ext. intros y. destruct (String.eqb_spec (c_name x) (c_name y)); auto. }
        rewrite Z. tauto.
      - cbn [drops]. unfold drop_id in E. destruct (has_id _ _ _ _); [|discriminate]. injection E as <-. rewrite !in_map_iff. split.
        + intros (y & <- & I). apply filter_In in I as [I N]. split; [eauto|]. intros F. rewrite F, String.eqb_refl in N. discriminate.
        + intros [(y & <- & I) N]. exists y. split; [reflexivity|]. apply filter_In. split; [exact I|]. apply String.eqb_neq in N. rewrite N. reflexivity. }
    rewrite Q. split.
    + intros [[I N] R]. split; [exact I|]. intros x [<-|J]; auto.
    + intros [I R]. split; [split; [exact I|apply R; left; reflexivity]|]. intros x J. apply R. right. exact J.
Qed.
Lemma put_after_names c an x : forall l l', put_after c_name String.eqb an x l = Some l' ->
  (In c (map c_name l') <-> In c (map c_name l) \/ c_name x = c).
Proof.
  induction l as [|y l IH]; intros l' H; [discriminate|]. cbn [put_after] in H. destruct (String.eqb an (c_name y)).
  - injection H as <-. cbn [map In]. tauto.
  - destruct (put_after _ _ _ _ l) as [l1|] eqn:E; [|discriminate]. injection H as <-. cbn [map In]. rewrite (IH _ eq_refl). tauto.
Qed.
Lemma pass2_names c : forall ops l l', run_all col_pass2 ops l = Some l' ->
  (In c (map c_name l') <-> In c (map c_name l) \/ exists o, In o ops /\ adds c o).
Proof.
  induction ops as [|o ops IH]; intros l l' H.
  - injection H as <-. split; [auto|intros [I|(o & [] & _)]; exact I].
  - cbn [run_all] in H. destruct (col_pass2 l o) as [l1|] eqn:E; [|discriminate]. rewrite (IH _ _ H).
    assert (Q : In c (map c_name l1) <-> In c (map c_name l) \/ adds c o).
    { destruct o as [x p|x|x|x|x|x|x|x|x]; cbn [col_pass2] in E; try (injection E as <-; cbn [adds]; tauto).
      cbn [adds]. destruct (has_id _ _ _ _); [discriminate|]. destruct p as [| |an].
      - injection E as <-. rewrite map_app, in_app_iff. cbn. tauto.
      - injection E as <-. cbn. tauto.
      - apply (put_after_names _ _ _ _ _ E). }
    rewrite Q. split.
    + intros [[I|A]|(x & J & A)]; [auto|right; exists o; split; [left; reflexivity|exact A]|right; exists x; split; [right; exact J|exact A]].
    + intros [I|(x & [<-|J] & A)]; [auto|auto|]. right. exists x. auto.
Qed.

Section Follow.
  Context {D : Type} (fresh : string -> string -> D).
  Lemma create_names cols keys fks st c : exec_create cols keys fks = Some st -> (In c (map c_name (st_cols st)) <-> In c (map c_name cols)).
  Proof.
    unfold exec_create. destruct (run_all _ cols []) as [l|] eqn:E; [|discriminate]. intros H.
    assert (Q : st_cols st = l) by (destruct (run_all _ keys []); [|discriminate]; destruct (run_all _ fks []); [|discriminate]; injection H as <-; reflexivity).
    rewrite Q. clear H Q.
    assert (G : forall cols a l, run_all (fun l c => put_end c_name String.eqb c l) cols a = Some l -> (In c (map c_name l) <-> In c (map c_name a) \/ In c (map c_name cols))).
    { clear. induction cols as [|x cols IH]; intros a l H; [injection H as <-; cbn; tauto|]. cbn [run_all] in H. unfold put_end in H at 1.
      destruct (has_id _ _ _ _); [discriminate|]. rewrite (IH _ _ H), map_app, in_app_iff. cbn. tauto. }
    rewrite (G _ _ _ E). cbn. tauto.
  Qed.

  Lemma follow_step s o s' m : (forall t, o = OCreate t -> wf_table t) -> exec s o = Some s' -> stored_for s m -> stored_for s' (op_data fresh m o).
  Proof.
    intros W X S n c. rewrite exec_local in X. unfold has_column. destruct o as [t|a|x| | |x d|x d|x i]; cbn [op_on] in X;
      try (injection X as <-; apply S).
    - cbn [lexec] in X. destruct (s (t_name t)); [discriminate|]. destruct (exec_create _ _ _) as [st|] eqn:E; [|discriminate]. injection X as <-.
      unfold supd. cbn [op_data]. destruct (String.eqb_spec n (t_name t)) as [->|N]; [|apply S].
      assert (Q : smem c (dkeys (t_columns t)) = true <-> In c (map c_name (st_cols st))).
      { rewrite (create_names _ _ _ _ c E). unfold smem. rewrite existsb_exists. rewrite (in_map_iff c_name). specialize (W t eq_refl). split.
        - intros (y & I & F). apply String.eqb_eq in F. subst y. apply dkeys_in in I as (v & I). exists v. split; [apply (wf_cols_named _ W c v I)|eapply in_dvals; eauto].
        - intros (v & <- & I). exists (c_name v). split; [|apply String.eqb_refl]. unfold dvals in I. apply in_map_iff in I as ([k v'] & <- & I). cbn [snd].
          rewrite (wf_cols_named _ W k v' I). eapply in_dkeys; eauto. }
      destruct (smem c _).
      + split; [intros _; exists st; split; [reflexivity|apply Q; reflexivity]|discriminate].
      + split; [congruence|]. intros (st' & [= <-] & I). apply Q in I. discriminate.
    - cbn [lexec] in X. destruct (s (al_table a)) as [t|] eqn:Es; [|discriminate]. destruct (exec_alter _ t) as [t'|] eqn:E; [|discriminate]. injection X as <-.
      unfold exec_alter in E. unfold exec_cols in E. destruct (run_all col_pass1 (al_ops a) (st_cols t)) as [l1|] eqn:E1; [|discriminate].
      destruct (run_all col_pass2 (al_ops a) l1) as [l2|] eqn:E2; [|discriminate]. destruct (exec_keys _ _); [|discriminate]. destruct (exec_fks _ _); [|discriminate].
      injection E as <-. unfold supd. specialize (S n c). unfold has_column in S.
      pose proof (pass1_names c _ _ _ E1) as P1. pose proof (pass2_names c _ _ _ E2) as P2.
      destruct (alter_data_at fresh a m n c) as [[-> H]|[(-> & (o & I & H) & ->)|(-> & NA & (o & I & H) & ->)]].
      + destruct (String.eqb_spec n (al_table a)) as [->|N]; [|exact S]. rewrite S, Es. destruct H as [H|H]; [congruence|]. split.
        * intros (st & [= <-] & J). eexists. split; [reflexivity|]. cbn [st_cols]. apply P2. left. apply P1. split; [exact J|]. intros x Jx. apply H, Jx.
        * intros (st & [= <-] & J). exists t. split; [reflexivity|]. apply P2 in J as [J|(x & Jx & Q)]; [|destruct (proj1 (H x Jx) Q)]. apply P1 in J. apply J.
      + rewrite String.eqb_refl. split; [intros _|discriminate]. eexists. split; [reflexivity|]. cbn [st_cols]. apply P2. right. eauto.
      + rewrite String.eqb_refl. split; [congruence|]. intros (st & [= <-] & J). exfalso. cbn [st_cols] in J. apply P2 in J as [J|(x & Jx & Q)]; [|exact (NA x Jx Q)].
        apply P1 in J as [_ J]. exact (J o I H).
    - cbn [lexec] in X. destruct (s x); [|discriminate]. injection X as <-. unfold supd. cbn [op_data]. destruct (String.eqb n x); [|apply S].
      split; [congruence|]. intros (st & [=] & _).
  Qed.
  Lemma follow : forall ops s s' m, (forall t, In (OCreate t) ops -> wf_table t) -> exec_all ops s = Some s' -> stored_for s m -> stored_for s' (data_after fresh ops m).
  Proof.
    induction ops as [|o ops IH]; intros s s' m W X S; [injection X as <-; exact S|]. unfold exec_all in X. cbn [run_all] in X.
    destruct (exec s o) as [s1|] eqn:E; [|discriminate]. unfold data_after. cbn [fold_left]. apply (IH s1); [intros t I; apply W; right; exact I|exact X|].
    eapply follow_step; eauto. intros t ->. apply W. left. reflexivity.
  Qed.
End Follow.

(** ** Plans *)
Lemma tgt_is to n s t : dget n to = Some t -> tgt_of to (n, s) = t.
Proof. intros E. unfold tgt_of. cbn [fst]. rewrite E. reflexivity. Qed.
Section Plan.
  Context {FO : FloatOracle}.
  Variables (from to : tables).
  Hypotheses (Wf : wf_tables from) (Wt : wf_tables to).

  Lemma plan_not_rows disable o : In o (plan_list from to disable) -> match o with ORowInsert _ _ | ORowUpdate _ _ | ORowDelete _ _ => False | _ => True end.
  Proof.
    assert (A : forall n l, In o (alter1 n l) -> match o with ORowInsert _ _ | ORowUpdate _ _ | ORowDelete _ _ => False | _ => True end).
    { intros n l H. apply alter1_in in H as [-> _]. exact I. }
    unfold plan_list, body_list, creates_list, drops_list, updates_list, added_list, readds_list, gone_list. rewrite !in_app_iff.
    intros [H|[[H|[H|[H|[H|[H|H]]]]]|H]].
    - destruct disable; [|destruct H]. destruct H as [<-|[]]. exact I.
    - apply in_map_iff in H as (p & <- & _). exact I.
    - apply in_concat in H as (l & Hl & H). apply in_map_iff in Hl as (p & <- & _). eapply A, H.
    - apply in_concat in H as (l & Hl & H). apply in_map_iff in Hl as (p & <- & _). apply in_app_iff in H as [H|H]; eapply A, H.
    - apply in_concat in H as (l & Hl & H). apply in_map_iff in Hl as (p & <- & _). eapply A, H.
    - apply in_concat in H as (l & Hl & H). apply in_map_iff in Hl as (p & <- & _). eapply A, H.
    - apply in_map_iff in H as (p & <- & _). exact I.
    - destruct disable; [|destruct H]. destruct H as [<-|[]]. exact I.
  Qed.
  Lemma concerns_plan n disable : filter (concerns n) (plan_list from to disable) = local_ops from to n.
  Proof.
    rewrite <- (on_plan from to Wf Wt n disable). apply filter_ext_in. intros o H. apply plan_not_rows in H. destruct o; try reflexivity; destruct H.
  Qed.

  Lemma key_op_plain s t o c : In o (key_ops s t) -> ~ adds c o /\ ~ drops c o.
  Proof. rewrite key_ops_eq, !in_app_iff, !in_map_iff. intros [(p & <- & _)|[(p & <- & _)|(p & <- & _)]]; split; intros []. Qed.
  Lemma kitchen_adds s t c : wf_table s -> wf_table t ->
    ((exists o, In o (kitchen_list s t) /\ adds c o) <-> In c (dkeys (t_columns t)) /\ ~ In c (dkeys (t_columns s))).
  Proof.
    intros Ws Wt'. unfold kitchen_list, add_col_ops. split.
    - intros (o & I & A). rewrite !in_app_iff in I. destruct I as [I|[I|[I|I]]].
      + apply in_map_iff in I as ([n v] & <- & I). cbn in A. apply only_in_in in I as [I N]. rewrite (wf_cols_named _ Wt' n v I) in A. subst n.
        split; [eapply in_dkeys; eauto|]. intros J. apply dmem_iff in J. rewrite dmem_dget, N in J. discriminate.
      + apply in_map_iff in I as (v & <- & _). destruct A.
      + apply in_map_iff in I as (v & <- & _). destruct A.
      + destruct (proj1 (key_op_plain _ _ _ c I) A).
    - intros [I N]. apply dkeys_in in I as (v & I). eexists. split; [apply in_app_iff; left; apply in_map_iff; exists (c, v); split; [reflexivity|]|].
      + apply only_in_in. split; [exact I|]. destruct (dget c (t_columns s)) as [w|] eqn:D; [|reflexivity]. destruct N. apply dget_in in D. eapply in_dkeys; eauto.
      + cbn. apply (wf_cols_named _ Wt' c v I).
  Qed.
  Lemma kitchen_drops s t c : wf_table s -> wf_table t ->
    ((exists o, In o (kitchen_list s t) /\ drops c o) <-> In c (dkeys (t_columns s)) /\ ~ In c (dkeys (t_columns t))).
  Proof.
    intros Ws Wt'. unfold kitchen_list, add_col_ops. split.
    - intros (o & I & A). rewrite !in_app_iff in I. destruct I as [I|[I|[I|I]]].
      + apply in_map_iff in I as (v & <- & _). destruct A.
      + apply in_map_iff in I as (v & <- & _). destruct A.
      + apply in_map_iff in I as ([n v] & <- & I). cbn in A. apply only_in_in in I as [I N]. rewrite (wf_cols_named _ Ws n v I) in A. subst n.
        split; [eapply in_dkeys; eauto|]. intros J. apply dmem_iff in J. rewrite dmem_dget, N in J. discriminate.
      + destruct (proj2 (key_op_plain _ _ _ c I) A).
    - intros [I N]. apply dkeys_in in I as (v & I). eexists. split; [rewrite !in_app_iff; right; right; left; apply in_map_iff; exists (c, v); split; [reflexivity|]|].
      + apply only_in_in. split; [exact I|]. destruct (dget c (t_columns t)) as [w|] eqn:D; [|reflexivity]. destruct N. apply dget_in in D. eapply in_dkeys; eauto.
      + cbn. apply (wf_cols_named _ Ws c v I).
  Qed.

  Lemma fk_alter_spares n m c l (f : constraint -> aop) o : (forall k, ~ adds c (f k) /\ ~ drops c (f k)) -> In o (alter1 m (map f l)) -> spares n c o.
  Proof.
    intros F H. apply alter1_in in H as [-> _]. right. cbn [al_ops]. intros x I. apply in_map_iff in I as (k & <- & _). apply F.
  Qed.

  Section Data.
    Context {D : Type} (fresh : string -> string -> D).
    Definition plain_fk (f : constraint -> aop) c : Prop := forall k, ~ adds c (f k) /\ ~ drops c (f k).
    Lemma plain_add c : plain_fk AddConstraint c. Proof. intros k. split; intros []. Qed.
    Lemma plain_rem c : plain_fk RemoveConstraint c. Proof. intros k. split; intros []. Qed.

    (** A table on both sides: only the main ALTER adds or drops columns. *)
    Lemma local_data n s t c m : In (n, s) from -> In (n, t) to ->
      data_after fresh (local_ops from to n) m n c
      = if smem c (dkeys (t_columns t)) then if smem c (dkeys (t_columns s)) then m n c else Some (fresh n c)
        else if smem c (dkeys (t_columns s)) then None else m n c.
    Proof.
      intros Is It. unfold local_ops. rewrite (proj2 (dget_iff n s from (wf_names _ Wf)) Is), (proj2 (dget_iff n t to (wf_names _ Wt)) It).
      pose proof (proj2 (wf_named _ Wf n s Is)) as Ws. pose proof (proj2 (wf_named _ Wt n t It)) as Wt'.
      rewrite !data_app.
      rewrite (data_spared fresh n c (readds_of from to (n, s))) by (intros o; apply fk_alter_spares, plain_add).
      rewrite (data_spared fresh n c (added_of from to (n, s))) by (intros o; apply fk_alter_spares, plain_add).
      unfold kitchen_of. cbn [fst snd]. rewrite (tgt_is to n s t) by (apply (dget_iff n t to (wf_names _ Wt)), It).
      set (m1 := data_after fresh (removed_of from to (n, s)) (data_after fresh (drops_of from to (n, s)) m)).
      assert (M : m1 n c = m n c).
      { unfold m1. rewrite (data_spared fresh n c (removed_of from to (n, s))) by (intros o; apply fk_alter_spares, plain_rem).
        apply data_spared. intros o; apply fk_alter_spares, plain_rem. }
      pose proof (kitchen_adds s t c Ws Wt') as KA. pose proof (kitchen_drops s t c Ws Wt') as KD. rewrite <- !smem_iff in KA, KD.
      rewrite alter1_eq. destruct (list_is_nil (kitchen_list s t)) eqn:L.
      - assert (E : kitchen_list s t = []) by (destruct (kitchen_list s t); [reflexivity|discriminate]). rewrite E in KA, KD.
        unfold data_after. cbn [fold_left]. rewrite M. destruct (smem c (dkeys (t_columns t))), (smem c (dkeys (t_columns s))); try reflexivity.
        + destruct (proj2 KA) as (o & [] & _). split; [reflexivity|discriminate].
        + destruct (proj2 KD) as (o & [] & _). split; [reflexivity|discriminate].
      - unfold data_after. cbn [fold_left].
        destruct (alter_data_at fresh (mkAlter n (kitchen_list s t)) m1 n c) as [[-> H]|[(_ & H & ->)|(_ & NA & H & ->)]]; cbn [al_table al_ops] in H.
        + destruct H as [H|H]; [congruence|]. rewrite M. destruct (smem c (dkeys (t_columns t))), (smem c (dkeys (t_columns s))); try reflexivity.
          * destruct (proj2 KA) as (o & J & A); [split; [reflexivity|discriminate]|]. destruct (proj1 (H o J) A).
          * destruct (proj2 KD) as (o & J & A); [split; [reflexivity|discriminate]|]. destruct (proj2 (H o J) A).
        + apply KA in H as [-> H]. destruct (smem c (dkeys (t_columns s))); [destruct H; reflexivity|reflexivity].
        + apply KD in H as [-> H]. destruct (smem c (dkeys (t_columns t))); [destruct H; reflexivity|reflexivity].
    Qed.

    (** A column of both sides is never touched. *)
    Lemma common_spared disable n s t c : In (n, s) from -> In (n, t) to -> In c (dkeys (t_columns s)) -> In c (dkeys (t_columns t)) ->
      forall o, In o (plan_list from to disable) -> spares n c o.
    Proof.
      intros Is It Cs Ct o Io. destruct (concerns n o) eqn:C.
      - assert (J : In o (local_ops from to n)) by (rewrite <- (concerns_plan n disable); apply filter_In; auto).
        unfold local_ops in J. rewrite (proj2 (dget_iff n s from (wf_names _ Wf)) Is), (proj2 (dget_iff n t to (wf_names _ Wt)) It) in J.
        rewrite !in_app_iff in J. destruct J as [J|[[J|J]|[J|J]]].
        + eapply fk_alter_spares; [|exact J]; apply plain_rem.
        + eapply fk_alter_spares; [|exact J]; apply plain_rem.
        + unfold kitchen_of in J. cbn [fst snd] in J. rewrite (tgt_is to n s t) in J by (apply (dget_iff n t to (wf_names _ Wt)), It). apply alter1_in in J as [-> _]. right. cbn [al_ops].
          pose proof (proj2 (wf_named _ Wf n s Is)) as Ws. pose proof (proj2 (wf_named _ Wt n t It)) as Wt'.
          intros x J. split; intros A.
          * destruct (proj1 (kitchen_adds s t c Ws Wt')) as [_ N]; [eauto|]. contradiction.
          * destruct (proj1 (kitchen_drops s t c Ws Wt')) as [_ N]; [eauto|]. contradiction.
        + eapply fk_alter_spares; [|exact J]; apply plain_add.
        + eapply fk_alter_spares; [|exact J]; apply plain_add.
      - destruct o; try exact Logic.I; cbn [concerns] in C; apply String.eqb_neq in C; cbn [spares]; auto.
    Qed.
  End Data.
End Plan.

(** ** The order of tables *)
Lemma dget_perm {V} n (d d' : dict string V) : NoDup (dkeys d) -> Permutation d d' -> dget n d = dget n d'.
Proof.
  intros N P. assert (N' : NoDup (dkeys d')) by (eapply Permutation_NoDup; [apply Permutation_map, P|exact N]).
  destruct (dget n d) as [v|] eqn:E.
  - apply (dget_iff _ _ _ N) in E. symmetry. apply (dget_iff _ _ _ N'). eapply Permutation_in; eauto.
  - destruct (dget n d') as [v|] eqn:E'; [|reflexivity]. apply (dget_iff _ _ _ N') in E'.
    apply Permutation_sym in P. apply (Permutation_in _ P), (dget_iff _ _ _ N) in E'. congruence.
Qed.
Lemma perm_filter {A} (f : A -> bool) l l' : Permutation l l' -> Permutation (filter f l) (filter f l').
Proof.
  induction 1; simpl; auto.
  - destruct (f x); auto.
  - destruct (f x), (f y); auto. apply perm_swap.
  - eapply perm_trans; eauto.
Qed.
Lemma perm_concat {A B} (f : A -> list B) l l' : Permutation l l' -> Permutation (concat (map f l)) (concat (map f l')).
Proof. intros P. rewrite <- !flat_map_concat_map. apply Permutation_flat_map, P. Qed.

Section Order.
  Context {FO : FloatOracle}.
  Variables (from to from' to' : tables).
  Hypotheses (Wf : wf_tables from) (Wt : wf_tables to) (Pf : Permutation from from') (Pt : Permutation to to').

  Lemma wf_perm d d' : wf_tables d -> Permutation d d' -> wf_tables d'.
  Proof.
    intros W P. split.
    - eapply Permutation_NoDup; [apply Permutation_map, P|apply (wf_names _ W)].
    - intros n t I. apply (wf_named _ W n t). eapply Permutation_in; [apply Permutation_sym, P|exact I].
  Qed.
  Let Gf n : dget n from = dget n from' := dget_perm n from from' (wf_names _ Wf) Pf.
  Let Gt n : dget n to = dget n to' := dget_perm n to to' (wf_names _ Wt) Pt.

  Lemma cycle_perm tn kn k : cycle_of from to tn kn k = cycle_of from' to' tn kn k.
  Proof. unfold cycle_of, changing_column. rewrite !Gf, !Gt. reflexivity. Qed.
  Lemma cycled_perm tn s : cycled_of_table from to tn s = cycled_of_table from' to' tn s.
  Proof. unfold cycled_of_table. f_equal. apply map_ext. intros p. rewrite cycle_perm. reflexivity. Qed.
  Lemma cycled_in_perm tn n : cycled_in from to tn n = cycled_in from' to' tn n.
  Proof. unfold cycled_in, cycled_names. rewrite Gf. destruct (dget tn from'); [|reflexivity]. rewrite cycled_perm. reflexivity. Qed.
  Lemma drops_perm p : drops_of from to p = drops_of from' to' p.
  Proof. unfold drops_of, cyc_src. rewrite cycled_perm. reflexivity. Qed.
  Lemma readds_perm p : readds_of from to p = readds_of from' to' p.
  Proof. unfold readds_of, cyc_adds. rewrite cycled_perm. reflexivity. Qed.
  Lemma tgt_perm p : tgt_of to p = tgt_of to' p.
  Proof. unfold tgt_of. rewrite Gt. reflexivity. Qed.
  Lemma removed_perm p : removed_of from to p = removed_of from' to' p.
  Proof. unfold removed_of, strip_drops. rewrite tgt_perm. do 2 f_equal. apply filter_ext. intros k. rewrite cycled_in_perm. reflexivity. Qed.
  Lemma added_perm p : added_of from to p = added_of from' to' p.
  Proof. unfold added_of, strip_adds. rewrite tgt_perm. do 2 f_equal. apply filter_ext. intros k. rewrite cycled_in_perm. reflexivity. Qed.
  Lemma kitchen_perm p : kitchen_of to p = kitchen_of to' p.
  Proof. unfold kitchen_of. rewrite tgt_perm. reflexivity. Qed.
  Lemma common_perm : Permutation (common from to) (common from' to').
  Proof.
    unfold common. erewrite filter_ext; [apply perm_filter, Pf|]. intros p. rewrite !dmem_dget, Gt. reflexivity.
  Qed.
  Lemma local_perm n : local_ops from to n = local_ops from' to' n.
  Proof. unfold local_ops. rewrite Gf, Gt. destruct (dget n from'), (dget n to'); rewrite ?drops_perm, ?removed_perm, ?kitchen_perm, ?added_perm, ?readds_perm; reflexivity. Qed.

  Lemma plan_list_perm disable : Permutation (plan_list from to disable) (plan_list from' to' disable).
  Proof.
    unfold plan_list, body_list. apply Permutation_app; [apply Permutation_refl|]. apply Permutation_app; [|apply Permutation_refl].
    assert (M : forall (f g : string * table -> list op), (forall p, f p = g p) -> Permutation (concat (map f from)) (concat (map g from'))).
    { intros f g E. rewrite (map_ext f g E). apply perm_concat, Pf. }
    assert (C : forall (f g : string * table -> list op), (forall p, f p = g p) -> Permutation (concat (map f (common from to))) (concat (map g (common from' to')))).
    { intros f g E. rewrite (map_ext f g E). apply perm_concat, common_perm. }
    repeat apply Permutation_app.
    - apply Permutation_map. unfold only_in. erewrite filter_ext; [apply perm_filter, Pt|]. intros p. rewrite !dmem_dget, Gf. reflexivity.
    - apply M, drops_perm.
    - apply C. intros p. rewrite removed_perm, kitchen_perm. reflexivity.
    - apply C, added_perm.
    - apply M, readds_perm.
    - apply Permutation_map. unfold only_in. erewrite filter_ext; [apply perm_filter, Pf|]. intros p. rewrite !dmem_dget, Gt. reflexivity.
  Qed.
  Lemma comparable_perm : all_comparable from to -> all_comparable from' to'.
  Proof.
    intros H n s t Is It. apply (H n); [eapply Permutation_in; [apply Permutation_sym, Pf|exact Is]|eapply Permutation_in; [apply Permutation_sym, Pt|exact It]].
  Qed.

  Lemma plan_order disable ops : plan_tables disable to (Some from) = Ok ops ->
    exists ops', plan_tables disable to' (Some from') = Ok ops' /\ Permutation ops ops'
      /\ (forall n, filter (concerns n) ops = filter (concerns n) ops')
      /\ (forall s, exec_all ops (server_of from) = Some s -> exists s', exec_all ops' (server_of from') = Some s' /\ forall n, s n = s' n).
  Proof.
    intros E. apply plan_iff in E as [Cm ->]; auto. assert (Wf' := wf_perm _ _ Wf Pf). assert (Wt' := wf_perm _ _ Wt Pt).
    exists (plan_list from' to' disable). split; [apply plan_iff; auto; split; [apply comparable_perm, Cm|reflexivity]|].
    split; [apply plan_list_perm|]. split; [intros n; rewrite !concerns_plan by assumption; apply local_perm|].
    intros s X. pose proof (exec_all_local_inv _ _ _ X) as L.
    assert (L' : forall n, run_all lexec (filter (on n) (plan_list from' to' disable)) (server_of from' n) = Some (s n)).
    { intros n. rewrite on_plan by assumption. rewrite <- local_perm, <- (on_plan from to Wf Wt n disable). unfold server_of. rewrite <- Gf. apply L. }
    destruct (exec_all_local (plan_list from' to' disable) (server_of from')) as (s' & X' & Y); [intros n; exists (s n); apply L'|].
    exists s'. split; [exact X'|]. intros n. specialize (Y n). rewrite L' in Y. congruence.
  Qed.

  (** Rows *)
  Definition tracked (d : tables) : tables := filter (fun p => t_tracking (snd p)) d.
  Lemma tracking_names d : wf_tables d -> map t_name (filter t_tracking (dvals d)) = dkeys (tracked d).
  Proof.
    intros W. unfold dvals, dkeys, tracked. assert (H : forall n t, In (n, t) d -> t_name t = n) by (intros n t I; apply (wf_named _ W n t I)).
    clear W. induction d as [|[n t] d IH]; [reflexivity|]. cbn [map filter fst snd]. specialize (IH (fun x y I => H x y (or_intror I))).
    destruct (t_tracking t); cbn [map fst]; [|exact IH]. rewrite IH, (H n t (or_introl eq_refl)). reflexivity.
  Qed.
End Order.

Lemma mapM_perm {A B} (f : A -> res B) l l' : Permutation l l' -> forall r, mapM f l = Ok r -> exists r', mapM f l' = Ok r' /\ Permutation r r'.
Proof.
  induction 1 as [|x l l' P IH|x y l|l l1 l2 P1 IH1 P2 IH2]; intros r E.
  - exists r. auto.
  - cbn [mapM] in *. destruct (f x) as [v|]; [|discriminate]. cbn [bind] in *. destruct (mapM f l) as [r1|]; [|discriminate]. cbn [bind] in *. injection E as <-.
    destruct (IH _ eq_refl) as (r' & -> & Q). cbn [bind]. eauto.
  - cbn [mapM] in *. destruct (f y) as [v|]; [|discriminate]. cbn [bind] in *. destruct (f x) as [w|]; [|discriminate]. cbn [bind] in *.
    destruct (mapM f l) as [r1|]; [|discriminate]. cbn [bind] in *. injection E as <-. eexists. split; [reflexivity|]. apply perm_swap.
  - destruct (IH1 r E) as (r1 & E1 & Q1). destruct (IH2 r1 E1) as (r2 & E2 & Q2). exists r2. split; [exact E2|]. eapply perm_trans; eauto.
Qed.
Lemma concat_perm {A} (l l' : list (list A)) : Permutation l l' -> Permutation (concat l) (concat l').
Proof. intros P. rewrite <- (map_id l), <- (map_id l'). apply perm_concat, P. Qed.

Lemma to_rows_on t f l : to_rows t f = Ok l -> forall n, filter (concerns n) l = if String.eqb (t_name t) n then l else [].
Proof.
  intros E n. assert (A : forall o, In o l -> concerns n o = String.eqb (t_name t) n).
  { unfold to_rows in E. destruct (t_rows t) as [tr|]; [|discriminate]. destruct (match f with None => _ | Some _ => _ end) as [fr|]; [|discriminate].
    destruct (mapM _ fr) as [u|] eqn:U; [|discriminate]. cbn [bind] in E. injection E as <-. intros o. rewrite !in_app_iff.
    intros [I|[I|I]]; [apply in_map_iff in I as (p & <- & _); reflexivity..|]. apply in_concat in I as (x & Ix & I).
    apply mapM_ok in U. clear -U Ix I. induction U as [|p y fr u Hp U IH]; [destruct Ix|]. destruct Ix as [->|Ix]; [|auto].
    destruct (dget (fst p) tr) as [r|]; [|injection Hp as <-; destruct I]. destruct (row_differs r (snd p)); [|injection Hp as <-; destruct I].
    unfold row_update_op in Hp. destruct (dmem "id" r); cbn [rmap bind] in Hp; [|discriminate]. injection Hp as <-. destruct I as [<-|[]]. reflexivity. }
  destruct (String.eqb (t_name t) n) eqn:Q.
  - clear E. induction l as [|o l IH]; [reflexivity|]. cbn [filter]. rewrite (A o (or_introl eq_refl)). f_equal. apply IH. intros x I. apply A. right. exact I.
  - clear E. induction l as [|o l IH]; [reflexivity|]. cbn [filter]. rewrite (A o (or_introl eq_refl)). apply IH. intros x I. apply A. right. exact I.
Qed.

Section Rows.
  Lemma rows_on d e ops : wf_tables d -> plan_rows d (Some e) = Ok ops -> forall n,
    filter (concerns n) ops = match dget n (tracked d) with
                              | Some t => match to_rows t (dget n e) with Ok l => l | Raise _ => [] end
                              | None => []
                              end.
  Proof.
    intros W. unfold plan_rows. rewrite tracking_names by exact W. destruct (mapM _ _) as [r|] eqn:E; [|discriminate]. cbn [rmap bind]. intros [= <-] n.
    assert (N : NoDup (dkeys (tracked d))) by (apply NoDup_filter_map, (wf_names _ W)).
    assert (Q : forall m t, In (m, t) (tracked d) -> dget m d = Some t /\ t_name t = m).
    { intros m t I. apply filter_In in I as [I _]. split; [apply (dget_iff _ _ _ (wf_names _ W)), I|apply (wf_named _ W m t I)]. }
    apply mapM_ok in E. revert r E N Q. induction (tracked d) as [|[m t] l IH]; intros r E N Q; inversion E as [|? y ? r' H1 H2]; subst; [reflexivity|].
    cbn [concat]. rewrite filter_app. cbn [dkeys map fst] in N. inversion N as [|? ? N1 N2]; subst. destruct (Q m t (or_introl eq_refl)) as [G T].
    cbn [fst] in H1. unfold dgetE in H1. rewrite G in H1. cbn [bind] in H1. rewrite (to_rows_on _ _ _ H1), T. cbn [dget]. change (keqb n m) with (String.eqb n m). rewrite (String.eqb_sym n m).
    rewrite (IH r' H2 N2) by (intros x y' I; apply Q; right; exact I).
    destruct (String.eqb_spec m n) as [->|F]; [|reflexivity]. rewrite H1.
    destruct (dget n l) as [t'|] eqn:X; [|apply app_nil_r]. destruct N1. apply dget_in in X. eapply in_dkeys; eauto.
  Qed.

  Variables (from to from' to' : tables).
  Hypotheses (Wf : wf_tables from) (Wt : wf_tables to) (Pf : Permutation from from') (Pt : Permutation to to').
  Lemma rows_order ops : plan_rows to (Some from) = Ok ops ->
    exists ops', plan_rows to' (Some from') = Ok ops' /\ Permutation ops ops' /\ (forall n, filter (concerns n) ops = filter (concerns n) ops').
  Proof.
    intros E. assert (Wt' := wf_perm _ _ Wt Pt). assert (Ptr : Permutation (tracked to) (tracked to')) by (apply perm_filter, Pt).
    pose proof (rows_on _ _ _ Wt E) as On. pose proof E as E0. unfold plan_rows in E. rewrite tracking_names in E by exact Wt.
    destruct (mapM _ (dkeys (tracked to))) as [r|] eqn:M; [|discriminate]. cbn [rmap bind] in E. injection E as <-.
    destruct (mapM_perm _ _ _ (Permutation_map fst Ptr) _ M) as (r' & M' & P).
    assert (E' : plan_rows to' (Some from') = Ok (concat r')).
    { unfold plan_rows. rewrite tracking_names by exact Wt'. unfold dkeys.
      erewrite mapM_ext; [rewrite M'; reflexivity|]. intros n _. cbn beta iota. unfold dgetE.
      rewrite (dget_perm n to to' (wf_names _ Wt) Pt), (dget_perm n from from' (wf_names _ Wf) Pf). reflexivity. }
    exists (concat r'). split; [exact E'|]. split; [apply concat_perm, P|]. intros n. rewrite On, (rows_on _ _ _ Wt' E').
    rewrite (dget_perm n (tracked to) (tracked to') (NoDup_filter_map _ _ _ (wf_names _ Wt)) Ptr), (dget_perm n from from' (wf_names _ Wf) Pf). reflexivity.
  Qed.
End Rows.

(** ** Tables a plan leaves alone *)
Section Alone.
  Context {FO : FloatOracle}.
  Variables (from to : tables).
  Hypotheses (Wf : wf_tables from) (Wt : wf_tables to).

  Lemma filter_none {A} (f : A -> bool) l : filter f l = [] <-> forall x, In x l -> f x = false.
  Proof.
    induction l as [|a l IH]; [split; [intros _ x []|reflexivity]|]. cbn [filter]. split.
    - intros H x [<-|I]; destruct (f a) eqn:E; try discriminate; [reflexivity|]. apply IH; auto.
    - intros H. rewrite (H a (or_introl eq_refl)). apply IH. intros x I. apply H. right. exact I.
  Qed.
  Lemma alter1_nil n l : alter1 n l = [] <-> l = [].
  Proof. destruct l; split; intros H; try reflexivity; discriminate. Qed.
  Lemma cycled_names_nil n s : cycled_of_table from to n s = [] -> cycled_names from to n s = [].
  Proof. intros H. unfold cycled_names. rewrite H. reflexivity. Qed.

  Lemma alone disable ops n : plan_tables disable to (Some from) = Ok ops ->
    ((forall o, In o ops -> concerns n o = false) <->
     (~ In n (dkeys from) /\ ~ In n (dkeys to))
     \/ exists s t, In (n, s) from /\ In (n, t) to /\ diff s t = Ok [] /\ forall k, In k (dvals (t_constraints s)) -> ~ uses_retyped from to n k).
  Proof.
    intros E. apply plan_iff in E as [Cm ->]; auto. rewrite <- filter_none, (concerns_plan from to Wf Wt). unfold local_ops.
    destruct (dget n from) as [s|] eqn:Ds, (dget n to) as [t|] eqn:Dt.
    - assert (Is := dget_in _ _ _ Ds). assert (It := dget_in _ _ _ Dt).
      pose proof (proj2 (wf_named _ Wf n s Is)) as Ws. pose proof (proj2 (wf_named _ Wt n t It)) as Wt'.
      unfold drops_of, removed_of, kitchen_of, added_of, readds_of. cbn [fst snd]. rewrite (tgt_is to n s t) by exact Dt.
      assert (Df : diff s t = Ok [] <-> gone_fks s t = [] /\ kitchen_list s t = [] /\ new_fks s t = []).
      { rewrite diff_iff by assumption. rewrite removed_fk_ops_eq, added_fk_ops_eq. split.
        - intros [_ H]. symmetry in H. apply app_eq_nil in H as [H1 H2].
          assert (Q : forall l, opt_list (nonempty_alter (t_name s) l) = [] -> l = []) by (intros [|a l] Z; [reflexivity|discriminate]).
          apply Q in H1, H2. apply map_eq_nil in H1. apply app_eq_nil in H2 as [H2 H3]. apply map_eq_nil in H3. auto.
        - intros (-> & -> & ->). split; [exact (Cm n s t Is It)|reflexivity]. }
      split.
      + intros H. right. exists s, t. split; [exact Is|]. split; [exact It|].
        apply app_eq_nil in H as [H1 H]. apply app_eq_nil in H as [H H4]. apply app_eq_nil in H as [H2 H3]. apply app_eq_nil in H4 as [H4 H5].
        apply alter1_nil in H1, H2, H3, H4, H5. apply map_eq_nil in H1, H2, H4.
        assert (C : cycled_of_table from to n s = []) by (apply map_eq_nil in H1; exact H1).
        assert (NC : forall x, cycled_in from to n x = false) by (intros x; unfold cycled_in; rewrite Ds, (cycled_names_nil _ _ C); reflexivity).
        assert (G : gone_fks s t = []).
        { destruct (gone_fks s t) as [|g l] eqn:Eg; [reflexivity|]. unfold strip_drops in H2. rewrite Eg in H2. cbn [filter] in H2. rewrite NC in H2. discriminate. }
        assert (Nw : new_fks s t = []).
        { destruct (new_fks s t) as [|g l] eqn:Eg; [reflexivity|]. unfold strip_adds in H4. rewrite Eg in H4. cbn [filter] in H4. rewrite NC in H4. discriminate. }
        split; [apply Df; auto|]. intros k Ik U. unfold dvals in Ik. apply in_map_iff in Ik as ([kn k'] & Q & Ik). cbn [snd] in Q. subst k'.
        assert (Kt : exists b, dget kn (t_constraints t) = Some b).
        { destruct (dget kn (t_constraints t)) as [b|] eqn:Db; [eauto|]. exfalso. unfold gone_fks in G. apply app_eq_nil in G as [G _]. apply map_eq_nil in G.
          assert (Z : In (kn, k) (only_in (t_constraints s) (t_constraints t))) by (apply only_in_in; auto). rewrite G in Z. destruct Z. }
        destruct Kt as (b & Db). assert (Cy : cycle_of from to n kn k = Some (Some (b, kn))).
        { destruct U as (tn & cn & U & R). unfold cycle_of. rewrite (uses_changing from to n k tn cn Wf Wt U R), Dt, Db. reflexivity. }
        assert (Z : In (kn, k, Some (b, kn)) (cycled_of_table from to n s)) by (apply cycled_in_iff; auto). rewrite C in Z. destruct Z.
      + intros [[F _]|(s' & t' & Is' & It' & H & U)]; [destruct F; eapply in_dkeys; eauto|].
        rewrite (same_entry _ _ s' s (wf_names _ Wf) Is' Is), (same_entry _ _ t' t (wf_names _ Wt) It' It) in *. apply Df in H as (G & K & Nw).
        assert (C : cycled_of_table from to n s = []).
        { destruct (cycled_of_table from to n s) as [|[[kn k] x] l] eqn:Q; [reflexivity|]. exfalso.
          assert (Z : In (kn, k, x) (cycled_of_table from to n s)) by (rewrite Q; left; reflexivity). apply cycled_in_iff in Z as [Ik Cy].
          apply (U k); [eapply in_dvals; eauto|]. unfold cycle_of in Cy. destruct (_ || _) eqn:O; [|discriminate]. apply (changing_uses from to n k Wf Wt). exact O. }
        unfold strip_drops, strip_adds, cyc_src, cyc_adds. rewrite C, K, G, Nw. reflexivity.
    - assert (Is := dget_in _ _ _ Ds). split.
      + intros H. apply app_eq_nil in H as [_ H]. discriminate.
      + intros [[F _]|(s' & t & _ & It & _)]; [destruct F; eapply in_dkeys; eauto|]. apply (dget_iff _ _ _ (wf_names _ Wt)) in It. congruence.
    - assert (It := dget_in _ _ _ Dt). split; [discriminate|].
      intros [[_ F]|(s & t' & Is & _)]; [destruct F; eapply in_dkeys; eauto|]. apply (dget_iff _ _ _ (wf_names _ Wf)) in Is. congruence.
    - split; [intros _|reflexivity]. left. split; intros I; apply dkeys_in in I as (v & I).
      + apply (dget_iff _ _ _ (wf_names _ Wf)) in I. congruence.
      + apply (dget_iff _ _ _ (wf_names _ Wt)) in I. congruence.
  Qed.
End Alone.
