(** C01 for the planner object, C15, C16, C66, C67: the planner and the commands. *)
From Verif Require Import Commands ValidGlobal PlanCycle Samples.

(** ** What the operations of a plan are *)

Definition row_op (o : op) : Prop :=
  match o with ORowInsert _ _ | ORowUpdate _ _ | ORowDelete _ _ => True | _ => False end.
Definition structural (o : op) : Prop :=
  match o with OCreate _ | OAlter _ | ODropTable _ => True | _ => False end.

Lemma to_rows_ops t from ops : to_rows t from = Ok ops -> forall o, In o ops -> row_op o.
Proof.
  unfold to_rows. destruct (t_rows t) as [tr|]; [|discriminate].
  destruct (match from with None => _ | Some f => _ end) as [fr|]; [|discriminate].
  intros E. apply bind_ok in E as (upd & Eu & E). inversion E; subst. intros o. rewrite !in_app_iff, !in_map_iff.
  intros [(p & <- & _)|[(p & <- & _)|H]]; try exact I.
  apply in_concat in H as (l & Hl & Ho). apply mapM_ok in Eu. destruct (Forall2_in_r _ _ _ _ Eu Hl) as (p & _ & Ep).
  destruct (dget (fst p) tr) as [r|]; [|inversion Ep; subst; destruct Ho].
  destruct (row_differs r (snd p)); [|inversion Ep; subst; destruct Ho].
  unfold row_update_op in Ep. destruct (dmem "id" r); simpl in Ep; [|discriminate]. inversion Ep; subst.
  destruct Ho as [<-|[]]. exact I.
Qed.
Lemma plan_rows_ops to from ops : plan_rows to from = Ok ops -> forall o, In o ops -> row_op o.
Proof.
  unfold plan_rows. destruct (mapM _ _) as [ls|] eqn:E; [|discriminate]. simpl. intros [= <-] o Ho.
  apply in_concat in Ho as (l & Hl & Ho). apply mapM_ok in E. destruct (Forall2_in_r _ _ _ _ E Hl) as (n & _ & En).
  apply bind_ok in En as (t & _ & Et). eapply to_rows_ops; eauto.
Qed.

Section Plan.
  Context {FO : FloatOracle}.

  Lemma strip_opt_ops from to a o : In o (strip_opt from to a) -> structural o.
  Proof.
    unfold strip_opt. destruct a as [a|]; [|intros []]. destruct (alter_bool _); [|intros []].
    intros [<-|[]]. exact I.
  Qed.
  Lemma plan_tables_ops to from ops : plan_tables false to from = Ok ops -> forall o, In o ops -> structural o.
  Proof.
    unfold plan_tables. set (f := match from with Some f => f | None => [] end).
    destruct (differences f to) as [[add remove] update]. intros E. apply bind_ok in E as (cr & Ec & E).
    apply bind_ok in E as (upd & Eu & E). inversion E; subst. clear E.
    apply mapM_ok in Ec, Eu.
    assert (U : forall p, In p upd -> (forall o, In o (fst p) -> structural o) /\ (forall o, In o (snd p) -> structural o)).
    { intros p Hp. destruct (Forall2_in_r _ _ _ _ Eu Hp) as (n & _ & En). unfold update_table in En.
      apply bind_ok in En as (x & _ & En). apply bind_ok in En as (y & _ & En). apply bind_ok in En as (sp & _ & En).
      inversion En; subst. simpl. split.
      - intros o. rewrite in_app_iff, in_map_iff. intros [H|(a & <- & _)]; [eapply strip_opt_ops; eauto|exact I].
      - intros o. apply strip_opt_ops. }
    intros o. simpl. rewrite !in_app_iff, !in_map_iff.
    intros [H|[(a & <- & _)|[H|[H|[(a & <- & _)|[(a & <- & _)|[]]]]]]]; try exact I.
    - destruct (Forall2_in_r _ _ _ _ Ec H) as (n & _ & En). apply bind_ok in En as (t & _ & En). inversion En; subst. exact I.
    - apply in_concat in H as (l & Hl & Ho). apply in_map_iff in Hl as (p & <- & Hp). apply (proj1 (U p Hp)), Ho.
    - apply in_concat in H as (l & Hl & Ho). apply in_map_iff in Hl as (p & <- & Hp). apply (proj2 (U p Hp)), Ho.
  Qed.

  Lemma build_parts force files live rows_of b ops : build_commands force files live rows_of = (b, Ok ops) ->
    exists b1 errs, db_errors files = (b1, Ok errs)
    /\ ((errs <> [] /\ force = false /\ ops = [] /\ b = b1)
        \/ exists l structure rows, (errs = [] \/ force = true)
           /\ snd (mygration false b1 (Some l)) = Ok structure
           /\ plan_rows (db_tables b) (Some l) = Ok rows
           /\ ops = bracket ((match structure with Some o => o | None => [] end) +++ rows)).
  Proof.
    unfold build_commands. destruct (db_errors files) as [b1 [errs|]]; [|discriminate].
    intros H. exists b1, errs. split; [reflexivity|].
    destruct (negb (list_is_nil errs) && negb force) eqn:E.
    - apply andb_true_iff in E as [E1 E2]. apply negb_true_iff in E2. inversion H; subst. left.
      split; [destruct errs; [discriminate|congruence]|auto].
    - right. destruct (let* l := live in _) as [l|]; [|discriminate].
      destruct (mygration false b1 (Some l)) as [b2 [st|]] eqn:Em; [|discriminate].
      inversion H; subst. destruct (plan_rows (db_tables b) (Some l)) as [rows|] eqn:Er; simpl in H2; [|discriminate].
      exists l, st, rows.
      split; [destruct errs; [left; reflexivity|right; destruct force; [reflexivity|discriminate]]|].
      rewrite Em. split; [reflexivity|]. split; [exact Er|]. congruence.
  Qed.
End Plan.

Section Theorems.
  Context {FO : FloatOracle}.

  (** ** C01 *)
  (** A database object without errors, planned against itself. *)
  Theorem C01_mygration_self : forall b b',
    db_errors b = (b', Ok []) -> wf_tables (db_tables b') ->
    mygration false b' (Some (db_tables b')) = (b', Ok (Some [])).
  Proof.
    intros b b' E W. unfold mygration. rewrite (db_errors_again _ _ _ E), (plan_self _ W). reflexivity.
  Qed.

  (** ** C15 *)
  Theorem C15_no_structure_with_errors : forall b b' errs,
    db_errors b = (b', Ok errs) -> errs <> [] ->
    (forall disable from, mygration disable b from = (b', Ok None))
    /\ (forall live rows_of, build_commands false b live rows_of = (b', Ok []))
    /\ (forall server live rows_of, apply_command server false b live rows_of = ([Committed], Ok []))
    /\ (forall live rows_of b2 ops, build_commands true b live rows_of = (b2, Ok ops) ->
          forall o, In o ops -> o = ODisable \/ o = OEnable \/ row_op o).
  Proof.
    intros b b' errs E N. destruct errs as [|e errs]; [contradiction|].
    assert (B : forall live rows_of, build_commands false b live rows_of = (b', Ok [])).
    { intros live rows_of. unfold build_commands. rewrite E. reflexivity. }
    split; [|split; [exact B|split]].
    - intros disable from. unfold mygration. rewrite E. reflexivity.
    - intros server live rows_of. unfold apply_command. rewrite B. reflexivity.
    - intros live rows_of b2 ops H o Ho. apply build_parts in H as (b1 & errs' & E' & D).
      rewrite E in E'. inversion E'; subst b1 errs'. destruct D as [(_ & F & _)|(l & st & rows & _ & Em & Er & ->)]; [discriminate|].
      unfold mygration in Em. rewrite (db_errors_again _ _ _ E) in Em. simpl in Em. inversion Em; subst st. simpl in Ho.
      unfold bracket in Ho. destruct (list_is_nil rows); [destruct Ho|].
      destruct Ho as [<-|Ho]; [auto|]. apply in_app_iff in Ho as [Ho|[<-|[]]]; [|auto].
      right; right. eapply plan_rows_ops; eauto.
  Qed.

  (** ** C16 *)
  Theorem C16_bracketed : forall force files live rows_of b ops,
    build_commands force files live rows_of = (b, Ok ops) ->
    ops = [] \/ exists mid, mid <> [] /\ ops = ODisable :: mid +++ [OEnable] /\ ~ In ODisable mid /\ ~ In OEnable mid.
  Proof.
    intros force files live rows_of b ops H.
    apply build_parts in H as (b1 & errs & E & [(_ & _ & -> & _)|(l & st & rows & _ & Em & Er & ->)]); [left; reflexivity|].
    set (mid := (match st with Some o => o | None => [] end) +++ rows).
    assert (M : forall o, In o mid -> structural o \/ row_op o).
    { intros o Ho. apply in_app_iff in Ho as [Ho|Ho]; [left|right; eapply plan_rows_ops; eauto].
      destruct st as [ops|]; [|destruct Ho]. unfold mygration in Em.
      destruct (db_errors b1) as [b2 [[|]|]]; simpl in Em; try discriminate.
      destruct (plan_tables false (db_tables b2) (Some l)) as [p|] eqn:Ep; simpl in Em; [|discriminate].
      inversion Em; subst. eapply plan_tables_ops; eauto. }
    unfold bracket. destruct (list_is_nil mid) eqn:En; [left; reflexivity|right].
    exists mid. split; [intros Z; rewrite Z in En; discriminate|]. split; [reflexivity|].
    split; intros X; destruct (M _ X) as [[]|[]].
  Qed.

  (** The same for a migration asked to switch the checks itself: it brackets exactly the operations
      of the migration that is not asked to. *)
  Theorem C16_mygration_bracketed : forall to from ops,
    plan_tables true to from = Ok ops ->
    exists mid, plan_tables false to from = Ok mid
    /\ ops = ODisable :: mid +++ [OEnable] /\ ~ In ODisable mid /\ ~ In OEnable mid.
  Proof.
    intros to from ops H.
    assert (exists mid, plan_tables false to from = Ok mid /\ ops = ODisable :: mid +++ [OEnable]) as (mid & E & ->).
    { unfold plan_tables in *. destruct (differences _ to) as [[add remove] update].
      apply bind_ok in H as (cr & Ec & H). apply bind_ok in H as (upd & Eu & H). rewrite Ec. cbn [bind]. rewrite Eu. cbn [bind].
      injection H as <-. eexists. split; [reflexivity|]. simpl. rewrite app_nil_r, <- !app_assoc. reflexivity. }
    exists mid. split; [exact E|]. split; [reflexivity|].
    split; intros X; destruct (plan_tables_ops _ _ _ E _ X).
  Qed.
End Theorems.

(** ** C66 *)

(** The statements [pre] are all accepted, one after the other. *)
Definition accepts (server : list string -> string -> option exn) (h l : list string) : Prop :=
  forall pre s post, l = pre +++ s :: post -> server (h +++ pre) s = None.

Lemma accepts_cons server h s l : accepts server h (s :: l) <-> server h s = None /\ accepts server (h +++ [s]) l.
Proof.
  split.
  - intros A. split; [specialize (A [] s l eq_refl); rewrite app_nil_r in A; exact A|].
    intros pre x post E. rewrite <- app_assoc. simpl. apply (A (s :: pre) x post). simpl. congruence.
  - intros [A B] pre x post E. destruct pre as [|y pre]; simpl in E; inversion E; subst; [rewrite app_nil_r; exact A|].
    specialize (B pre x post eq_refl). rewrite <- app_assoc in B. exact B.
Qed.

Lemma send_all_cases server l : forall h,
  (accepts server h l /\ send_all server h l = (map Sent l +++ [Committed], None))
  \/ exists pre s post e, l = pre +++ s :: post /\ accepts server h pre /\ server (h +++ pre) s = Some e
       /\ send_all server h l = (map Sent (pre +++ [s]), Some e).
Proof.
  induction l as [|s l IH]; intros h; simpl.
  - left. split; [|reflexivity]. intros pre s post E. destruct pre; discriminate.
  - destruct (server h s) as [e|] eqn:Es.
    + right. exists [], s, l, e. split; [reflexivity|]. split; [intros [|] ? ? E; discriminate E|].
      rewrite app_nil_r. auto.
    + destruct (IH (h +++ [s])) as [(A & ->)|(pre & x & post & e & -> & A & Ee & ->)].
      * left. split; [apply accepts_cons; auto|reflexivity].
      * right. exists (s :: pre), x, post, e. split; [reflexivity|]. split; [apply accepts_cons; auto|].
        rewrite <- app_assoc in Ee. split; [exact Ee|reflexivity].
Qed.

Section Apply.
  Context {FO : FloatOracle}.

  Theorem C66_apply_in_order : forall server force files live rows_of b ops ev r,
    build_commands force files live rows_of = (b, Ok ops) ->
    apply_command server force files live rows_of = (ev, r) ->
    let l := map op_str ops in
    (accepts server [] l /\ ev = map Sent l +++ [Committed] /\ r = Ok l)
    \/ exists pre s post e, l = pre +++ s :: post /\ accepts server [] pre /\ server pre s = Some e
         /\ ev = map Sent (pre +++ [s]) /\ r = Raise e.
  Proof.
    intros server force files live rows_of b ops ev r B A l. unfold apply_command, driver_execute in A. rewrite B in A. simpl in A.
    destruct (send_all_cases server l []) as [(X & E)|(pre & s & post & e & El & X & Ee & E)]; fold l in A; rewrite E in A; inversion A; subst.
    - left. auto.
    - right. exists pre, s, post, e. auto.
  Qed.

  (** ** C67 *)

  (** The session's FOREIGN_KEY_CHECKS after the statements, the last of which may have failed. *)
  Fixpoint checks_after (on : bool) (l : list string) : bool :=
    match l with
    | [] => on
    | s :: l' => checks_after (if String.eqb s "SET FOREIGN_KEY_CHECKS=0;" then false
                               else if String.eqb s "SET FOREIGN_KEY_CHECKS=1;" then true else on) l'
    end.

  Lemma checks_app on l m : checks_after on (l +++ m) = checks_after (checks_after on l) m.
  Proof. revert on; induction l as [|s l IH]; intros on; simpl; [reflexivity|apply IH]. Qed.
  Lemma middle_texts o : o <> ODisable -> o <> OEnable ->
    String.eqb (op_str o) "SET FOREIGN_KEY_CHECKS=0;" = false /\ String.eqb (op_str o) "SET FOREIGN_KEY_CHECKS=1;" = false.
  Proof. destruct o; intros H1 H2; try contradiction; split; reflexivity. Qed.
  Lemma checks_middle mid : ~ In ODisable mid -> ~ In OEnable mid -> forall on, checks_after on (map op_str mid) = on.
  Proof.
    induction mid as [|o mid IH]; intros H1 H2 on; simpl; [reflexivity|].
    destruct (middle_texts o) as [-> ->]; [intros ->; apply H1; left; reflexivity|intros ->; apply H2; left; reflexivity|].
    apply IH; [intros X; apply H1|intros X; apply H2]; right; exact X.
  Qed.

  (** After a successful apply the checks are as they were (on, if they were on). *)
  Theorem C67_enabled_after_success_partial : forall force files live rows_of b ops,
    build_commands force files live rows_of = (b, Ok ops) ->
    checks_after true (map op_str ops) = true.
  Proof.
    intros force files live rows_of b ops H.
    destruct (C16_bracketed _ _ _ _ _ _ H) as [->|(mid & _ & -> & D & E)]; [reflexivity|].
    simpl. rewrite map_app, checks_app, (checks_middle mid D E). reflexivity.
  Qed.

  (** The full statement is false: whenever any statement but the first is refused, the checks stay
      off. *)
  Theorem C67_checks_stay_off : forall server force files live rows_of b ops ev e pre s,
    build_commands force files live rows_of = (b, Ok ops) ->
    apply_command server force files live rows_of = (ev, Raise e) ->
    ev = map Sent (pre +++ [s]) -> pre <> [] ->
    checks_after true pre = false.
  Proof.
    intros server force files live rows_of b ops ev e pre s B A Ev N.
    destruct (C66_apply_in_order _ _ _ _ _ _ _ _ _ B A) as [(_ & _ & X)|(p & x & post & e' & El & _ & _ & Ev' & _)]; [discriminate|].
    assert (p = pre).
    { rewrite Ev in Ev'. rewrite !map_app in Ev'. simpl in Ev'. apply app_inj_tail in Ev' as [Ep _].
      revert Ep. clear. revert p. induction pre as [|a pre IH]; intros [|b p]; simpl; try congruence.
      intros [= -> H]. f_equal. apply IH, H. }
    subst p. destruct (C16_bracketed _ _ _ _ _ _ B) as [->|(mid & _ & -> & D & E)]; [destruct pre; discriminate|].
    destruct pre as [|y pre]; [contradiction|]. simpl in El. inversion El as [[Ey El']]. simpl.
    rewrite map_app in El'. simpl in El'.
    assert (P : exists post', map op_str mid = pre +++ post').
    { destruct (rev post) as [|z rp] eqn:Er.
      - assert (post = []) by (rewrite <- (rev_involutive post), Er; reflexivity). subst.
        apply app_inj_tail in El' as [El' _]. exists []. rewrite app_nil_r. exact El'.
      - assert (post = rev rp +++ [z]) by (rewrite <- (rev_involutive post), Er; reflexivity). subst.
        rewrite app_comm_cons, app_assoc in El'. apply app_inj_tail in El' as [El' _]. eauto. }
    destruct P as (post' & P).
    destruct (map_eq_app _ _ _ _ P) as (m1 & m2 & -> & <- & _).
    apply checks_middle; intros X; [apply D|apply E]; apply in_or_app; left; exact X.
  Qed.
End Apply.

(** ** Examples *)

Definition files_db : database := new_database (db [parent; child_v1]) (Some []) [] [].
Definition live_db : tables := db [parent].
Definition no_rows (n : string) : res (list row) := Ok [].

Example ex_C01 : exists b, db_errors files_db = (b, Ok []) /\ wf_tables (db_tables b).
Proof. eexists. split; [vm_compute; reflexivity|]. apply wf_tablesb_ok. reflexivity. Qed.
Example ex_C15 : exists b e, db_errors (new_database (db [child_v1]) (Some []) [] []) = (b, Ok [e]).
Proof. do 2 eexists. vm_compute. reflexivity. Qed.
Example ex_C16 : exists b t a, build_commands false files_db (Ok live_db) no_rows = (b, Ok [ODisable; OCreate t; OEnable]) /\ a = t_name t /\ a = "child".
Proof. do 3 eexists. split; [vm_compute; reflexivity|]. split; reflexivity. Qed.

(** A server that refuses every CREATE. *)
Example ex_C16_mygration : exists t, plan_tables true (db [parent; child_v1]) (Some live_db) = Ok [ODisable; OCreate t; OEnable].
Proof. eexists. vm_compute. reflexivity. Qed.

Definition no_create (h : list string) (s : string) : option exn :=
  if String.prefix "CREATE" s then Some (ValueError "1005") else None.
Theorem C67_refuted : forall FO : FloatOracle, exists server files live rows_of ev e pre s,
  apply_command server false files live rows_of = (ev, Raise e)
  /\ ev = map Sent (pre +++ [s]) /\ checks_after true pre = false.
Proof.
  intros FO. exists no_create, files_db, (Ok live_db), no_rows. do 2 eexists.
  exists ["SET FOREIGN_KEY_CHECKS=0;"]. eexists. split; [vm_compute; reflexivity|]. split; [simpl; reflexivity|reflexivity].
Qed.

Print Assumptions C01_mygration_self.
Print Assumptions C15_no_structure_with_errors.
Print Assumptions C16_bracketed.
Print Assumptions C16_mygration_bracketed.
Print Assumptions C66_apply_in_order.
Print Assumptions C67_enabled_after_success_partial.
Print Assumptions C67_checks_stay_off.
Print Assumptions C67_refuted.
