(** Executing a plan: the lemmas behind C08-C18. *)
From Verif Require Export ColFacts SpecPlan.

(** ** A plan seen from one table *)
Definition op_on (o : op) : option string :=
  match o with
  | OCreate t => Some (t_name t)
  | OAlter a => Some (al_table a)
  | ODropTable n => Some n
  | _ => None
  end.
Definition on (n : string) (o : op) : bool :=
  match op_on o with Some m => String.eqb m n | None => false end.
Definition lexec (v : option stable) (o : op) : option (option stable) :=
  match o with
  | OCreate t =>
      match v with
      | Some _ => None
      | None => match exec_create (dvals (t_columns t)) (dvals (t_indexes t)) (dvals (t_constraints t)) with
                | Some st => Some (Some st)
                | None => None
                end
      end
  | OAlter a => match v with
                | None => None
                | Some t => match exec_alter (al_ops a) t with Some t' => Some (Some t') | None => None end
                end
  | ODropTable _ => match v with None => None | Some _ => Some None end
  | _ => Some v
  end.

Lemma exec_local s o :
  exec s o = match op_on o with
             | None => Some s
             | Some n => match lexec (s n) o with None => None | Some v => Some (supd s n v) end
             end.
Proof.
  destruct o; simpl; try reflexivity.
  - destruct (s (t_name t)); [reflexivity|]. destruct (exec_create _ _ _); reflexivity.
  - destruct (s (al_table a)); [|reflexivity]. destruct (exec_alter (al_ops a) s0); reflexivity.
  - destruct (s name); reflexivity.
Qed.

Lemma exec_all_local ops : forall s,
  (forall n, exists v, run_all lexec (filter (on n) ops) (s n) = Some v) ->
  exists s', exec_all ops s = Some s' /\ forall n, run_all lexec (filter (on n) ops) (s n) = Some (s' n).
Proof.
  induction ops as [|o ops IH]; intros s H.
  - exists s. split; reflexivity.
  - unfold exec_all. simpl. rewrite exec_local. destruct (op_on o) as [m|] eqn:E.
    + destruct (H m) as (v & Hv). simpl in Hv. unfold on in Hv at 1. rewrite E, String.eqb_refl in Hv. simpl in Hv.
      destruct (lexec (s m) o) as [w|] eqn:L; [|discriminate].
      destruct (IH (supd s m w)) as (s' & X & Y).
      * intros n. unfold supd. destruct (String.eqb_spec n m) as [->|Hn]; [eauto|].
        destruct (H n) as (v' & Hv'). simpl in Hv'. unfold on in Hv' at 1. rewrite E in Hv'.
        destruct (String.eqb_spec m n); [congruence|]. eauto.
      * exists s'. split; [exact X|]. intros n. specialize (Y n). simpl. unfold on at 1. rewrite E.
        unfold supd in Y. rewrite String.eqb_sym in Y. destruct (String.eqb_spec m n) as [->|Hn]; [|exact Y].
        simpl. rewrite L. exact Y.
    + destruct (IH s) as (s' & X & Y).
      * intros n. destruct (H n) as (v & Hv). simpl in Hv. unfold on in Hv at 1. rewrite E in Hv. eauto.
      * exists s'. split; [exact X|]. intros n. simpl. unfold on at 1. rewrite E. apply Y.
Qed.

Lemma exec_all_local_inv ops : forall s s',
  exec_all ops s = Some s' -> forall n, run_all lexec (filter (on n) ops) (s n) = Some (s' n).
Proof.
  induction ops as [|o ops IH]; intros s s' H n.
  - injection H as <-. reflexivity.
  - unfold exec_all in H. simpl in H. rewrite exec_local in H. simpl. unfold on at 1.
    destruct (op_on o) as [m|] eqn:E.
    + destruct (lexec (s m) o) as [w|] eqn:L; [|discriminate]. apply IH with (n := n) in H.
      unfold supd in H. rewrite String.eqb_sym in H. destruct (String.eqb_spec m n) as [->|Hn]; [|exact H].
      simpl. rewrite L. exact H.
    + apply IH. exact H.
Qed.

Lemma filter_on_concat {X} (f : string * X -> list op) (l : list (string * X)) n :
  NoDup (map fst l) ->
  (forall p o, In p l -> In o (f p) -> op_on o = Some (fst p)) ->
  filter (on n) (concat (map f l)) = match dget n l with Some x => f (n, x) | None => [] end.
Proof.
  induction l as [|[m x] l IH]; intros ND H; simpl; [reflexivity|].
  simpl in ND. inversion ND as [|? ? Hn ND']; subst. rewrite filter_app, IH by (auto; intros; apply H; simpl; auto).
  destruct (String.eqb_spec n m) as [<-|Hm].
  - simpl. rewrite filter_true.
    + destruct (dget n l) eqn:D; [|apply app_nil_r]. exfalso. apply Hn. apply dget_in in D.
      apply (in_map fst) in D. exact D.
    + intros o Ho. unfold on. rewrite (H (n, x) o) by (simpl; auto). apply String.eqb_refl.
  - rewrite filter_none; [reflexivity|]. intros o Ho. unfold on. rewrite (H (m, x) o) by (simpl; auto). simpl.
    destruct (String.eqb_spec m n); congruence.
Qed.

(** ** Cycled foreign keys of one table *)
Section Cycle.
  Variables (from to : tables).

  Definition cyc_src (tn : string) (s : table) : list constraint :=
    map (fun x => snd (fst x)) (cycled_of_table from to tn s).

  Lemma cycled_in_iff tn s kn k x :
    In (kn, k, x) (cycled_of_table from to tn s) <->
    In (kn, k) (t_constraints s) /\ cycle_of from to tn kn k = Some x.
  Proof.
    unfold cycled_of_table. rewrite in_concat. split.
    - intros (l & Hl & H). apply in_map_iff in Hl as ([kn' k'] & <- & Hp). simpl in H.
      destruct (cycle_of from to tn kn' k') eqn:E; [|destruct H]. destruct H as [[= <- <- <-]|[]]. auto.
    - intros [H E]. exists [(kn, k, x)]. split; [|left; reflexivity]. apply in_map_iff.
      exists (kn, k). simpl. rewrite E. auto.
  Qed.

  Lemma cyc_src_in tn s k : wf_table s ->
    In k (cyc_src tn s) <-> In (k_name k, k) (t_constraints s) /\ exists x, cycle_of from to tn (k_name k) k = Some x.
  Proof.
    intros W. unfold cyc_src. rewrite in_map_iff. split.
    - intros ([[kn k'] x] & E & H). simpl in E. subst k'. apply cycled_in_iff in H as [H C].
      rewrite (wf_fks_named _ W kn k H). eauto.
    - intros [H (x & C)]. exists (k_name k, k, x). split; [reflexivity|]. apply cycled_in_iff. auto.
  Qed.

  Lemma cyc_src_nodup tn s : wf_table s -> NoDup (map k_name (cyc_src tn s)).
  Proof.
    intros W. unfold cyc_src, cycled_of_table. rewrite map_map.
    apply (concat_cond_sublist_nodup _ fst _ _ (wf_fks _ W)). intros [n k] H. simpl.
    destruct (cycle_of from to tn n k); [|left; reflexivity]. right. eexists. split; [reflexivity|].
    simpl. apply (wf_fks_named _ W n k H).
  Qed.

  Fixpoint once (l : list (string * constraint * option (constraint * string))) (added : list string)
    : list constraint :=
    match l with
    | [] => []
    | (_, _, Some (k, n)) :: l' => if smem n added then once l' added else k :: once l' (n :: added)
    | (_, _, None) :: l' => once l' added
    end.
  Lemma adds_once_eq l : forall added, adds_once l added = map AddConstraint (once l added).
  Proof.
    induction l as [|[[kn k] [[k' n]|]] l IH]; intros added; simpl; [reflexivity| |apply IH].
    destruct (smem n added); simpl; rewrite IH; reflexivity.
  Qed.
  Lemma once_in l : forall added k, In k (once l added) ->
    exists kn k0 n, In (kn, k0, Some (k, n)) l /\ ~ In n added.
  Proof.
    induction l as [|[[kn k0] [[k' n]|]] l IH]; intros added k; simpl; [intros []| |].
    - destruct (smem n added) eqn:S.
      + intros H. apply IH in H as (a & b & c & H & N). eauto 8.
      + apply smem_false in S. intros [->|H]; [eauto 8|]. apply IH in H as (a & b & c & H & N).
        exists a, b, c. split; [auto|]. intros Hc. apply N. right. exact Hc.
    - intros H. apply IH in H as (a & b & c & H & N). eauto 8.
  Qed.
  Lemma once_complete l : (forall kn k0 k n, In (kn, k0, Some (k, n)) l -> k_name k = n) ->
    forall added kn k0 k n, In (kn, k0, Some (k, n)) l -> ~ In n added ->
    In n (map k_name (once l added)).
  Proof.
    induction l as [|[[kn k0] [[k' n]|]] l IH]; intros Hn added kn1 k1 k n1; simpl; [intros []| |].
    - intros H N. destruct (smem n added) eqn:S.
      + destruct H as [[= -> -> -> ->]|H]; [apply smem_iff in S; contradiction|].
        eapply IH; eauto. intros; eapply Hn; simpl; eauto.
      + simpl. destruct H as [[= -> -> -> ->]|H].
        * left. eapply Hn. left. reflexivity.
        * destruct (string_dec n n1) as [<-|D].
          -- left. eapply Hn. left. reflexivity.
          -- right. eapply IH; eauto; [intros; eapply Hn; simpl; eauto|]. intros [E|E]; contradiction.
    - intros [H|H] N; [discriminate|]. eapply IH; eauto. intros; eapply Hn; simpl; eauto.
  Qed.
  Lemma once_nodup l : (forall kn k0 k n, In (kn, k0, Some (k, n)) l -> k_name k = n) ->
    forall added, NoDup (map k_name (once l added)).
  Proof.
    induction l as [|[[kn k0] [[k' n]|]] l IH]; intros Hn added; simpl; [constructor| |].
    - destruct (smem n added) eqn:S; [apply IH; intros; eapply Hn; simpl; eauto|].
      simpl. constructor; [|apply IH; intros; eapply Hn; simpl; eauto].
      rewrite (Hn kn k0 k' n) by (left; reflexivity). intros H. apply in_map_iff in H as (k & E & H).
      apply once_in in H as (a & b & c & H & N). apply N. left.
      rewrite <- E. eapply Hn. right. eauto.
    - apply IH. intros; eapply Hn; simpl; eauto.
  Qed.

  Definition cyc_adds (tn : string) (s : table) : list constraint := once (cycled_of_table from to tn s) [].

  (** A cycled source foreign key [k] and the target foreign key [k'] it becomes. *)
  Lemma cycle_target tn s t kn k k' n : dget tn to = Some t -> wf_table t ->
    In (kn, k, Some (k', n)) (cycled_of_table from to tn s) ->
    In (n, k') (t_constraints t) /\ k_name k' = n
    /\ (kn = n \/ (dget kn (t_constraints t) = None /\ same_reference k' k = true)).
  Proof.
    intros D W H. apply cycled_in_iff in H as [H C]. unfold cycle_of in C.
    destruct (_ || _); [|discriminate]. rewrite D in C.
    destruct (dget kn (t_constraints t)) as [k''|] eqn:E.
    - injection C as -> ->. apply dget_in in E. split; [exact E|]. split; [apply (wf_fks_named _ W _ _ E)|auto].
    - unfold find_matching in C. destruct (find _ _) as [k''|] eqn:F; [|discriminate]. injection C as -> <-.
      apply find_some in F as [F S]. apply dvals_in in F as (m & F). pose proof (wf_fks_named _ W m k' F) as <-.
      auto.
  Qed.

  Lemma cyc_adds_in tn s t k : dget tn to = Some t -> wf_table t ->
    In k (cyc_adds tn s) -> In (k_name k, k) (t_constraints t) /\ k_name k = k_name k.
  Proof.
    intros D W H. apply once_in in H as (kn & k0 & n & H & _).
    destruct (cycle_target _ _ _ _ _ _ _ D W H) as (H1 & <- & _). auto.
  Qed.
  Lemma cyc_adds_nodup tn s t : dget tn to = Some t -> wf_table t -> NoDup (map k_name (cyc_adds tn s)).
  Proof.
    intros D W. apply once_nodup. intros kn k0 k n H.
    destruct (cycle_target _ _ _ _ _ _ _ D W H) as (_ & E & _). exact E.
  Qed.
  Lemma cyc_adds_names tn s t n : dget tn to = Some t -> wf_table t ->
    In n (map k_name (cyc_adds tn s)) <-> exists kn k k', In (kn, k, Some (k', n)) (cycled_of_table from to tn s).
  Proof.
    intros D W. split.
    - intros H. apply in_map_iff in H as (k & <- & H). apply once_in in H as (kn & k0 & n & H & _).
      destruct (cycle_target _ _ _ _ _ _ _ D W H) as (_ & -> & _). eauto.
    - intros (kn & k & k' & H). eapply once_complete; eauto.
      intros kn1 k01 k1 n1 H1. destruct (cycle_target _ _ _ _ _ _ _ D W H1) as (_ & E & _). exact E.
  Qed.

  Lemma cycled_names_in tn s n :
    In n (cycled_names from to tn s) <->
    In n (map (fun x => fst (fst x)) (cycled_of_table from to tn s))
    \/ (n <> "" /\ exists kn k k', In (kn, k, Some (k', n)) (cycled_of_table from to tn s)).
  Proof.
    unfold cycled_names. rewrite in_concat. split.
    - intros (l & Hl & H). apply in_map_iff in Hl as ([[kn k] x] & <- & Hp). simpl in H.
      destruct H as [<-|H]; [left; apply (in_map (fun x => fst (fst x))) in Hp; exact Hp|].
      destruct x as [[k' m]|]; [|destruct H]. destruct (truthy m) eqn:T; [|destruct H]. destruct H as [<-|[]].
      right. split; [intros ->; discriminate|eauto].
    - intros [H|[T (kn & k & k' & H)]].
      + apply in_map_iff in H as ([[kn k] x] & <- & H). eexists. split; [apply in_map, H|]. left. reflexivity.
      + eexists. split; [apply in_map, H|]. simpl. right. destruct n; [congruence|]. left. reflexivity.
  Qed.

  Lemma cycled_names_src tn s n : wf_table s ->
    In n (map (fun x => fst (fst x)) (cycled_of_table from to tn s)) <-> In n (map k_name (cyc_src tn s)).
  Proof.
    intros W. unfold cyc_src. rewrite map_map.
    rewrite (map_ext_in (fun x => fst (fst x)) (fun x => k_name (snd (fst x)))); [reflexivity|].
    intros [[kn k] x] H. simpl. apply cycled_in_iff in H as [H _]. symmetry. apply (wf_fks_named _ W _ _ H).
  Qed.
End Cycle.

(** ** Columns that change their type *)
Lemma type_differs_iff a b : column_type_differs a b = true <-> type_attrs a <> type_attrs b.
Proof.
  assert (O : forall x y, ostr_eqb x y = true <-> x = y).
  { intros [x|] [y|]; simpl; try (split; congruence). unfold ostr_eqb. simpl. rewrite String.eqb_eq. split; congruence. }
  assert (L : forall x y, length_eqb x y = true <-> x = y).
  { intros x y. split; [apply length_eqb_eq|]. intros <-. destruct x; simpl; auto using String.eqb_refl, Z.eqb_refl.
    apply (list_eqb_eq String.eqb String.eqb_eq). reflexivity. }
  destruct (column_type_differs a b) eqn:E; split; intros H; try reflexivity; try discriminate.
  - unfold column_type_differs in E. unfold type_attrs. intros [= E1 E2 E3 E4 E5].
    rewrite E1, String.eqb_refl in E. rewrite (proj2 (L _ _) E2) in E. rewrite E3, Bool.eqb_reflx in E.
    rewrite (proj2 (O _ _) E4), (proj2 (O _ _) E5) in E. discriminate.
  - exfalso. apply H. unfold column_type_differs in E. rewrite !orb_false_iff, !negb_false_iff in E.
    destruct E as [[[[E1 E2] E3] E4] E5]. apply String.eqb_eq in E1. apply L in E2. apply Bool.eqb_prop in E3.
    apply O in E4. apply O in E5. unfold type_attrs. congruence.
Qed.

Lemma changing_iff from to tn cn : wf_tables from -> wf_tables to ->
  changing_column from to tn cn = true <-> retyped from to tn cn.
Proof.
  intros Wf Wt. unfold changing_column, retyped. split.
  - destruct (dget tn from) as [s|] eqn:Ds; [|discriminate]. destruct (dget tn to) as [t|] eqn:Dt; [|discriminate].
    destruct (dget cn (t_columns s)) as [a|] eqn:Da; [|discriminate]. destruct (dget cn (t_columns t)) as [b|] eqn:Db; [|discriminate].
    intros H. apply type_differs_iff in H. exists s, t, a, b. auto 10 using dget_in.
  - intros (s & t & a & b & Hs & Ht & Ha & Hb & N).
    pose proof (wf_named _ Wf _ _ Hs) as [_ Ws]. pose proof (wf_named _ Wt _ _ Ht) as [_ Wt'].
    rewrite (proj2 (dget_iff _ _ _ (wf_names _ Wf)) Hs), (proj2 (dget_iff _ _ _ (wf_names _ Wt)) Ht).
    rewrite (proj2 (dget_iff _ _ _ (wf_cols _ Ws)) Ha), (proj2 (dget_iff _ _ _ (wf_cols _ Wt')) Hb).
    apply type_differs_iff, N.
Qed.

Lemma uses_changing from to m k tn cn : wf_tables from -> wf_tables to ->
  fk_uses m k tn cn -> retyped from to tn cn ->
  changing_column from to m (k_column k) || changing_column from to (k_ftable k) (k_fcolumn k) = true.
Proof.
  intros Wf Wt U R. apply (changing_iff from to tn cn Wf Wt) in R. destruct U as [[-> <-]|[<- <-]]; rewrite R; auto using orb_true_r.
Qed.
Lemma changing_uses from to m k : wf_tables from -> wf_tables to ->
  changing_column from to m (k_column k) || changing_column from to (k_ftable k) (k_fcolumn k) = true ->
  exists tn cn, fk_uses m k tn cn /\ retyped from to tn cn.
Proof.
  intros Wf Wt H. apply orb_true_iff in H as [H|H]; apply changing_iff in H; auto.
  - exists m, (k_column k). split; [left; auto|exact H].
  - exists (k_ftable k), (k_fcolumn k). split; [right; auto|exact H].
Qed.

Lemma same_reference_iff a b : same_reference a b = true <-> same_ref b a.
Proof. unfold same_reference, same_ref. rewrite !andb_true_iff, !String.eqb_eq. intuition congruence. Qed.

(** Where a cycled foreign key becomes one of another name, a source foreign key of that name is on a
    column that changes its type. *)
Definition clear_in (from to : tables) (tn : string) (s : table) : Prop :=
  forall kn a b n c, In (kn, a, Some (b, n)) (cycled_of_table from to tn s) -> kn <> n -> In (n, c) (t_constraints s) ->
    changing_column from to tn (k_column c) || changing_column from to (k_ftable c) (k_fcolumn c) = true.

Lemma find_split {A} (f : A -> bool) l x : find f l = Some x <-> exists l1 l2, l = l1 +++ x :: l2 /\ f x = true /\ forall y, In y l1 -> f y = false.
Proof.
  induction l as [|a l IH]; simpl.
  - split; [discriminate|]. intros ([|? ?] & ? & ? & _); discriminate.
  - destruct (f a) eqn:F.
    + split.
      * intros [= <-]. exists [], l. split; [reflexivity|]. split; [exact F|intros y []].
      * intros ([|y l1] & l2 & E & Fx & N); injection E as -> E; [reflexivity|]. rewrite (N y) in F; [discriminate|left; reflexivity].
    + rewrite IH. split.
      * intros (l1 & l2 & -> & Fx & N). exists (a :: l1), l2. split; [reflexivity|]. split; [exact Fx|]. intros y [<-|Iy]; auto.
      * intros ([|y l1] & l2 & E & Fx & N); injection E as -> E; [congruence|]. exists l1, l2. split; [exact E|]. split; [exact Fx|].
        intros y' I'. apply N. right. exact I'.
Qed.

Lemma stands_for_iff from to tn s t a b : wf_tables from -> wf_tables to -> dget tn to = Some t -> wf_table s -> wf_table t ->
  stands_for s t a b /\ uses_retyped from to tn a <->
  In (k_name a, a, Some (b, k_name b)) (cycled_of_table from to tn s) /\ ~ In (k_name a) (dkeys (t_constraints t)).
Proof.
  intros Wf Wt Dt Ws Wt'. rewrite cycled_in_iff. split.
  - intros [(Ia & Na & l & l' & El & Sr & Nl) (un & uc & U & R)]. split; [|exact Na].
    apply dvals_in in Ia as (kn & Ia). pose proof (wf_fks_named _ Ws kn a Ia). subst kn. split; [exact Ia|].
    unfold cycle_of. rewrite (uses_changing from to tn a un uc Wf Wt U R), Dt. rewrite (proj2 (dget_none _ _) Na).
    unfold find_matching. rewrite (proj2 (find_split _ _ b)); [reflexivity|]. exists l, l'. split; [exact El|]. split.
    + apply same_reference_iff, Sr.
    + intros y Iy. destruct (same_reference y a) eqn:E; [|reflexivity]. exfalso. apply (Nl y Iy), same_reference_iff, E.
  - intros [[Ia C] Na]. unfold cycle_of in C.
    destruct (changing_column from to tn (k_column a) || changing_column from to (k_ftable a) (k_fcolumn a)) eqn:Ch; [|discriminate].
    rewrite Dt, (proj2 (dget_none _ _) Na) in C. destruct (find_matching t a) as [b'|] eqn:F; [|discriminate]. injection C as -> _.
    split; [|destruct (changing_uses from to tn a Wf Wt Ch) as (un & uc & U & R); exists un, uc; auto].
    split; [eapply in_dvals; eauto|]. split; [exact Na|]. apply find_split in F as (l & l' & El & Sr & Nl).
    exists l, l'. split; [exact El|]. split; [apply same_reference_iff, Sr|]. intros x Ix Sx. apply same_reference_iff in Sx. rewrite (Nl x Ix) in Sx. discriminate.
Qed.

Lemma clear_iff from to tn s t : wf_tables from -> wf_tables to -> In (tn, s) from -> In (tn, t) to ->
  fk_names_clear from to tn s t <-> clear_in from to tn s.
Proof.
  intros Wf Wt Is It. pose proof (wf_named _ Wf _ _ Is) as [_ Ws]. pose proof (wf_named _ Wt _ _ It) as [_ Wt'].
  pose proof (proj2 (dget_iff _ _ _ (wf_names _ Wt)) It) as Dt. split.
  - intros H kn a b n c Ia Nn Ic.
    destruct (cycle_target from to tn s t kn a b n Dt Wt' Ia) as (Ib & En & [E|[Dn S]]); [contradiction|]. subst n.
    pose proof Ia as Ia'. apply cycled_in_iff in Ia' as [Ia' _]. pose proof (wf_fks_named _ Ws kn a Ia'). subst kn.
    destruct (proj2 (stands_for_iff from to tn s t a b Wf Wt Dt Ws Wt') (conj Ia (proj1 (dget_none _ _) Dn))) as [Sf U].
    destruct (H a b c Sf U) as (un & uc & Uc & Rc); [eapply in_dvals; eauto|apply (wf_fks_named _ Ws _ _ Ic)|].
    apply (uses_changing from to tn c un uc Wf Wt Uc Rc).
  - intros H a b c Sf U Ic Ec. destruct (proj1 (stands_for_iff from to tn s t a b Wf Wt Dt Ws Wt') (conj Sf U)) as [Ia Na].
    apply dvals_in in Ic as (kn & Ic). pose proof (wf_fks_named _ Ws kn c Ic) as Ekn. rewrite Ec in Ekn. subst kn.
    destruct (changing_uses from to tn c Wf Wt (H _ _ _ _ _ Ia (fun E => Na (eq_ind_r (fun x => In x _) (in_dkeys _ _ _ (proj1 (cycle_target from to tn s t _ a b _ Dt Wt' Ia))) E)) Ic)) as (un & uc & Uc & Rc).
    exists un, uc. auto.
Qed.

Lemma pl_clear_in from to n s t : plannable from to -> In (n, s) from -> In (n, t) to -> clear_in from to n s.
Proof. intros P Is It. apply (clear_iff from to n s t (pl_from _ _ P) (pl_to _ _ P) Is It), (pl_clear _ _ P n s t Is It). Qed.

(** ** The foreign keys of one table throughout a plan *)
Section Fks.
  Variables (from to : tables) (tn : string) (s t : table).
  Hypotheses (Ds : dget tn from = Some s) (Dt : dget tn to = Some t).
  Hypotheses (Ws : wf_table s) (Wt : wf_table t).

  Definition strip_drops : list constraint :=
    filter (fun k => negb (cycled_in from to tn (k_name k))) (gone_fks s t).
  Definition strip_adds : list constraint :=
    filter (fun k => negb (cycled_in from to tn (k_name k))) (new_fks s t).

  Lemma cycled_in_true n : cycled_in from to tn n = true <-> In n (cycled_names from to tn s).
  Proof. unfold cycled_in. rewrite Ds. apply smem_iff. Qed.

  Definition fks1 : list constraint :=
    filter (fun a => negb (smem (k_name a) (map k_name (cyc_src from to tn s)))) (dvals (t_constraints s)).
  Definition fks2 : list constraint :=
    filter (fun a => negb (smem (k_name a) (map k_name strip_drops))) fks1.

  Lemma fks1_in a : In a fks1 <-> In a (dvals (t_constraints s)) /\ ~ In (k_name a) (map k_name (cyc_src from to tn s)).
  Proof. unfold fks1. rewrite filter_In, negb_true_iff, smem_false. tauto. Qed.
  Lemma fks2_in a : In a fks2 <-> In a (dvals (t_constraints s)) /\ ~ In (k_name a) (map k_name (cyc_src from to tn s))
      /\ ~ In (k_name a) (map k_name strip_drops).
  Proof. unfold fks2. rewrite filter_In, negb_true_iff, smem_false, fks1_in. tauto. Qed.

  Lemma exec_step1 : exec_fks (map RemoveConstraint (cyc_src from to tn s)) (dvals (t_constraints s)) = Some fks1.
  Proof.
    apply exec_fks_drops; [apply cyc_src_nodup, Ws|]. intros k H. apply cyc_src_in in H as [H _]; auto.
    apply in_map. eapply in_dvals; eauto.
  Qed.
  Lemma exec_step2 : exec_fks (map RemoveConstraint strip_drops) fks1 = Some fks2.
  Proof.
    apply exec_fks_drops; [apply NoDup_filter_map, gone_fks_nodup; assumption|].
    intros k H. apply filter_In in H as [H N]. apply negb_true_iff in N. apply in_map, fks1_in.
    apply gone_fks_in in H as (n & H & _). split; [eapply in_dvals; eauto|].
    intros Hc. apply cycled_names_src in Hc; [|exact Ws].
    assert (cycled_in from to tn (k_name k) = true); [|congruence].
    apply cycled_in_true, cycled_names_in. left. exact Hc.
  Qed.

  Hypotheses (Hn : fks_named t) (Hc : clear_in from to tn s).

  Lemma adds_cycled n : In n (map k_name (cyc_adds from to tn s)) -> In n (cycled_names from to tn s).
  Proof.
    intros H. apply cycled_names_in. right. split.
    - apply in_map_iff in H as (k & <- & H). apply (cyc_adds_in from to tn s t) in H as [H _]; auto.
      apply Hn. eapply in_dvals; eauto.
    - apply (cyc_adds_names from to tn s t); auto.
  Qed.

  (** A re-added name that the source has is the name of a cycled source foreign key. *)
  Lemma readd_cycled n : In n (map k_name (cyc_adds from to tn s)) -> In n (dkeys (t_constraints s)) ->
    In n (map k_name (cyc_src from to tn s)).
  Proof.
    intros H Hs. apply (cyc_adds_names from to tn s t) in H as (kn & a & b & H); auto.
    destruct (cycle_target from to tn s t kn a b n Dt Wt H) as (Hb & En & [->|[Dn S]]).
    - apply cycled_names_src; [exact Ws|]. apply in_map_iff. exists (n, a, Some (b, n)). auto.
    - destruct (string_dec kn n) as [<-|Nn].
      { apply cycled_names_src; [exact Ws|]. apply in_map_iff. exists (kn, a, Some (b, kn)). auto. }
      apply dkeys_in in Hs as (c & Hcs). pose proof (Hc kn a b n c H Nn Hcs) as Ch.
      apply in_map_iff. exists c. split; [apply (wf_fks_named _ Ws n c Hcs)|]. apply cyc_src_in; [exact Ws|].
      rewrite (wf_fks_named _ Ws n c Hcs). split; [exact Hcs|]. exists (Some (b, n)).
      unfold cycle_of. rewrite Ch, Dt, (proj2 (dget_iff n b _ (wf_fks _ Wt)) Hb). reflexivity.
  Qed.

  (** What is left of the source is unchanged in the target. *)
  Lemma fks2_unchanged a : In a fks2 -> exists b, In (k_name a, b) (t_constraints t) /\ constraint_changed a b = false.
  Proof.
    intros H. apply fks2_in in H as (Ha & N1 & N2). apply dvals_in in Ha as (n & Ha).
    pose proof (wf_fks_named _ Ws n a Ha) as En. subst n.
    destruct (dget (k_name a) (t_constraints t)) as [b|] eqn:D.
    - destruct (constraint_changed a b) eqn:C; [|exists b; split; [apply dget_in, D|exact C]].
      exfalso. apply N2. apply in_map, filter_In. split.
      + apply gone_fks_in. exists (k_name a). rewrite D. auto.
      + apply negb_true_iff. destruct (cycled_in from to tn (k_name a)) eqn:E; [|reflexivity]. exfalso.
        apply cycled_in_true, cycled_names_in in E as [E|[_ E]].
        * apply cycled_names_src in E; auto.
        * apply (cyc_adds_names from to tn s t) in E; auto. apply readd_cycled in E; [auto|]. eapply in_dkeys; eauto.
    - exfalso. apply N2. apply in_map, filter_In. split.
      + apply gone_fks_in. exists (k_name a). rewrite D. auto.
      + apply negb_true_iff. destruct (cycled_in from to tn (k_name a)) eqn:E; [|reflexivity]. exfalso.
        apply cycled_in_true, cycled_names_in in E as [E|[_ E]].
        * apply cycled_names_src in E; auto.
        * apply (cyc_adds_names from to tn s t) in E; auto. apply readd_cycled in E; [auto|]. eapply in_dkeys; eauto.
  Qed.

  Lemma strip_adds_in b : In b strip_adds -> In (k_name b, b) (t_constraints t) /\ ~ In (k_name b) (cycled_names from to tn s)
     /\ match dget (k_name b) (t_constraints s) with None => True | Some a => constraint_changed a b = true end.
  Proof.
    intros H. apply filter_In in H as [H N]. apply new_fks_in in H as (n & H & C); auto.
    rewrite (wf_fks_named _ Wt n b H) in *. split; [exact H|]. split; [|exact C].
    intros E. apply cycled_in_true in E. rewrite E in N. discriminate.
  Qed.

  Lemma exec_step3 : exec_fks (map AddConstraint strip_adds) fks2 = Some (fks2 +++ strip_adds).
  Proof.
    apply exec_fks_adds; [apply NoDup_filter_map, new_fks_nodup; assumption|].
    intros k H Hin. apply strip_adds_in in H as (H & N & C). apply in_map_iff in Hin as (a & E & Ha).
    destruct (fks2_unchanged a Ha) as (b & Hb & U). apply fks2_in in Ha as (Ha & _). apply dvals_in in Ha as (m & Ha).
    pose proof (wf_fks_named _ Ws m a Ha) as Em. subst m. rewrite E in *.
    rewrite (proj2 (dget_iff _ a _ (wf_fks _ Ws)) Ha) in C.
    rewrite (same_entry _ _ k b (wf_fks _ Wt) H Hb) in C. congruence.
  Qed.

  Definition final_fks : list constraint := (fks2 +++ strip_adds) +++ cyc_adds from to tn s.

  Lemma cyc_adds_fresh k : In k (cyc_adds from to tn s) -> ~ In (k_name k) (map k_name (fks2 +++ strip_adds)).
  Proof.
    intros H Hin. rewrite map_app, in_app_iff in Hin. destruct Hin as [Hin|Hin].
    - apply in_map_iff in Hin as (a & E & Ha). apply fks2_in in Ha as (Ha & N & _). apply N. rewrite E.
      apply readd_cycled; [apply in_map, H|]. apply dvals_in in Ha as (m & Ha). rewrite <- E.
      rewrite (wf_fks_named _ Ws m a Ha). eapply in_dkeys; eauto.
    - apply in_map_iff in Hin as (a & E & Ha). apply strip_adds_in in Ha as (_ & N & _). apply N. rewrite E.
      apply adds_cycled, in_map, H.
  Qed.
  Lemma exec_step4 : exec_fks (map AddConstraint (cyc_adds from to tn s)) (fks2 +++ strip_adds) = Some final_fks.
  Proof. apply exec_fks_adds; [apply (cyc_adds_nodup from to tn s t); auto|]. apply cyc_adds_fresh. Qed.

  Lemma final_fks_nodup : NoDup (map k_name final_fks).
  Proof.
    unfold final_fks. rewrite map_app. apply NoDup_app_intro.
    - rewrite map_app. apply NoDup_app_intro.
      + unfold fks2, fks1. apply NoDup_filter_map, NoDup_filter_map. rewrite src_fk_names by assumption. apply (wf_fks _ Ws).
      + apply NoDup_filter_map, new_fks_nodup; assumption.
      + intros n H1 H2. apply in_map_iff in H1 as (a & E & Ha). apply in_map_iff in H2 as (k & E' & H).
        apply strip_adds_in in H as (H & N & C).
        destruct (fks2_unchanged a Ha) as (b & Hb & U). apply fks2_in in Ha as (Ha & _). apply dvals_in in Ha as (m & Ha).
        pose proof (wf_fks_named _ Ws m a Ha) as Em. subst m. rewrite E' in *. rewrite E in *.
        rewrite (proj2 (dget_iff _ a _ (wf_fks _ Ws)) Ha) in C.
        rewrite (same_entry _ _ k b (wf_fks _ Wt) H Hb) in C. congruence.
    - apply (cyc_adds_nodup from to tn s t); auto.
    - intros n H1 H2. apply in_map_iff in H2 as (k & <- & H). apply (cyc_adds_fresh k H H1).
  Qed.

  Lemma final_fks_in a : In a final_fks -> exists b, In (k_name a, b) (t_constraints t) /\ constraint_str a = constraint_str b.
  Proof.
    unfold final_fks. rewrite !in_app_iff. intros [[H|H]|H].
    - destruct (fks2_unchanged a H) as (b & Hb & U). exists b. split; [exact Hb|]. apply constraint_unchanged, U.
    - apply strip_adds_in in H as (H & _). eauto.
    - apply (cyc_adds_in from to tn s t) in H as [H _]; auto. eauto.
  Qed.

  Lemma final_fks_match : matches fk_ok final_fks (dvals (t_constraints t)).
  Proof.
    apply (fks_match s); auto.
    - apply final_fks_nodup.
    - intros n. split.
      + intros H. apply in_map_iff in H as (a & <- & H). apply final_fks_in in H as (b & H & _). eapply in_dkeys; eauto.
      + intros H. apply dkeys_in in H as (b & Hb). unfold final_fks. rewrite !map_app, !in_app_iff.
        pose proof (wf_fks_named _ Wt n b Hb) as En.
        destruct (in_dec string_dec n (cycled_names from to tn s)) as [N|N].
        * right. apply (cyc_adds_names from to tn s t); auto.
          apply cycled_names_in in N as [N|[_ N]]; [|exact N].
          apply in_map_iff in N as ([[kn k] x] & E & H). simpl in E. subst kn.
          exists n, k, b. pose proof H as H'. apply cycled_in_iff in H' as [_ C]. unfold cycle_of in C.
          destruct (_ || _); [|discriminate]. rewrite Dt, (proj2 (dget_iff n b _ (wf_fks _ Wt)) Hb) in C.
          injection C as <-. exact H.
        * left. assert (NC : cycled_in from to tn n = false).
          { destruct (cycled_in from to tn n) eqn:E; [|reflexivity]. apply cycled_in_true in E. contradiction. }
          destruct (dget n (t_constraints s)) as [a|] eqn:D.
          -- destruct (constraint_changed a b) eqn:C.
             ++ right. rewrite <- En. apply in_map, filter_In. rewrite En, NC. split; [|reflexivity].
                apply new_fks_in; auto. exists n. rewrite D. auto.
             ++ left. apply dget_in in D. pose proof (wf_fks_named _ Ws n a D) as Ea. rewrite <- Ea. apply in_map, fks2_in.
                split; [eapply in_dvals; eauto|]. rewrite Ea. split.
                ** intros H. apply N. apply cycled_names_in. left. apply cycled_names_src; auto.
                ** intros H. apply in_map_iff in H as (a' & E & H). apply filter_In in H as [H _].
                   apply gone_fks_in in H as (m & H & G). rewrite (wf_fks_named _ Ws m a' H) in E. subst m.
                   rewrite (proj2 (dget_iff n b _ (wf_fks _ Wt)) Hb) in G.
                   rewrite (same_entry _ _ a' a (wf_fks _ Ws) H D) in G. congruence.
          -- right. rewrite <- En. apply in_map, filter_In. rewrite En, NC. split; [|reflexivity].
             apply new_fks_in; auto. exists n. rewrite D. auto.
    - intros a n b Ha En Hb. apply final_fks_in in Ha as (b' & Hb' & E). rewrite En in Hb'.
      rewrite (same_entry _ _ b b' (wf_fks _ Wt) Hb Hb'). exact E.
  Qed.
End Fks.

(** ** The plan as a list *)
Definition alter1 (n : string) (ops : list aop) : list op := map OAlter (opt_list (nonempty_alter n ops)).

Lemma alter1_eq n ops : alter1 n ops = if list_is_nil ops then [] else [OAlter (mkAlter n ops)].
Proof. destruct ops; reflexivity. Qed.

Lemma alter1_in n ops o : In o (alter1 n ops) <-> o = OAlter (mkAlter n ops) /\ ops <> [].
Proof. destruct ops; simpl; split; intros H; [destruct H|destruct H; congruence|destruct H as [<-|[]]; split; congruence|destruct H as [-> _]; auto]. Qed.

Lemma lrun_alter1 n ops t t' :
  exec_alter ops t = Some t' -> run_all lexec (alter1 n ops) (Some t) = Some (Some t').
Proof.
  intros H. destruct ops as [|o ops]; simpl.
  - rewrite exec_alter_nil in H. congruence.
  - rewrite H. reflexivity.
Qed.

Lemma strip_opt_map from to n (f : constraint -> aop) l :
  (forall k, keep_op from to n (f k) = negb (cycled_in from to n (k_name k))) ->
  strip_opt from to (nonempty_alter n (map f l))
  = alter1 n (map f (filter (fun k => negb (cycled_in from to n (k_name k))) l)).
Proof.
  intros K.
  assert (E : filter (keep_op from to n) (map f l) = map f (filter (fun k => negb (cycled_in from to n (k_name k))) l)).
  { rewrite filter_map_comm. f_equal. apply filter_ext. exact K. }
  unfold nonempty_alter. destruct (list_is_nil (map f l)) eqn:N.
  - destruct l; [reflexivity|discriminate].
  - cbn [strip_opt strip_cycled]. unfold strip_cycled. cbn [al_table al_ops]. rewrite E.
    unfold alter_bool, alter1, nonempty_alter. cbn [al_ops].
    destruct (list_is_nil (map f (filter _ l))); reflexivity.
Qed.

Section Plan.
  Context {FO : FloatOracle}.
  Variables (from to : tables).

  Definition tgt_of (p : string * table) : table :=
    match dget (fst p) to with Some t => t | None => snd p end.
  Definition drops_of (p : string * table) : list op :=
    alter1 (fst p) (map RemoveConstraint (cyc_src from to (fst p) (snd p))).
  Definition removed_of (p : string * table) : list op :=
    alter1 (fst p) (map RemoveConstraint (strip_drops from to (fst p) (snd p) (tgt_of p))).
  Definition kitchen_of (p : string * table) : list op := alter1 (fst p) (kitchen_list (snd p) (tgt_of p)).
  Definition added_of (p : string * table) : list op :=
    alter1 (fst p) (map AddConstraint (strip_adds from to (fst p) (snd p) (tgt_of p))).
  Definition readds_of (p : string * table) : list op :=
    alter1 (fst p) (map AddConstraint (cyc_adds from to (fst p) (snd p))).
  Definition common : list (string * table) := filter (fun p => dmem (fst p) to) from.

  Definition creates_list : list op := map (fun p => OCreate (snd p)) (only_in to from).
  Definition drops_list : list op := concat (map drops_of from).
  Definition updates_list : list op := concat (map (fun p => removed_of p +++ kitchen_of p) common).
  Definition added_list : list op := concat (map added_of common).
  Definition readds_list : list op := concat (map readds_of from).
  Definition gone_list : list op := map (fun p => ODropTable (fst p)) (only_in from to).
  Definition body_list : list op :=
    creates_list +++ drops_list +++ updates_list +++ added_list +++ readds_list +++ gone_list.
  Definition plan_list (disable : bool) : list op :=
    (if disable then [ODisable] else []) +++ body_list +++ (if disable then [OEnable] else []).

  Definition all_comparable : Prop :=
    forall n s t, In (n, s) from -> In (n, t) to -> comparable s t.

  Lemma drop_fk_ops_eq : map OAlter (drop_fk_ops from to) = drops_list.
  Proof.
    unfold drop_fk_ops, drops_list, drops_of, alter1. rewrite concat_map, map_map. f_equal. apply map_ext.
    intros p. unfold cyc_src. rewrite map_map. reflexivity.
  Qed.
  Lemma add_fk_ops_eq : map OAlter (add_fk_ops from to) = readds_list.
  Proof.
    unfold add_fk_ops, readds_list, readds_of, alter1. rewrite concat_map, map_map. f_equal. apply map_ext.
    intros p. rewrite adds_once_eq. reflexivity.
  Qed.

  Lemma in_common n s : In (n, s) common <-> In (n, s) from /\ exists t, dget n to = Some t.
  Proof.
    unfold common. rewrite filter_In. simpl. rewrite dmem_dget.
    destruct (dget n to) eqn:D; split; intros [H1 H2]; split; auto; try discriminate; eauto.
    destruct H2 as (? & H2); discriminate.
  Qed.

  Definition upd_pair (p : string * table) : list op * list op := (removed_of p +++ kitchen_of p, added_of p).

  Lemma update_table_ok n s t : wf_tables from -> wf_tables to -> dget n from = Some s -> dget n to = Some t ->
    forall x, update_table from to n = Ok x <-> comparable s t /\ x = upd_pair (n, s).
  Proof.
    intros Wf Wt Ds Dt x. unfold update_table, dgetE. rewrite Ds, Dt. cbn [bind].
    destruct (wf_named _ Wf n s (dget_in _ _ _ Ds)) as [En Ws]. destruct (wf_named _ Wt n t (dget_in _ _ _ Dt)) as [_ Wt'].
    unfold upd_pair, removed_of, kitchen_of, added_of, tgt_of. cbn [fst snd]. rewrite Dt.
    unfold diff_split. rewrite En. split.
    - intros H. apply bind_ok in H as (sp & Hsp & [= <-]). apply bind_ok in Hsp as (k & Hk & [= <-]).
      apply kitchen_ops_iff in Hk as [C ->]; [|apply (wf_cols _ Ws)|apply (wf_cols _ Wt')].
      split; [exact C|]. cbn [sp_removed_fks sp_kitchen sp_fks].
      rewrite removed_fk_ops_eq, added_fk_ops_eq, !strip_opt_map by reflexivity. reflexivity.
    - intros [C ->]. rewrite (proj2 (kitchen_ops_iff s t _ (wf_cols _ Ws) (wf_cols _ Wt')) (conj C eq_refl)). cbn [bind].
      cbn [sp_removed_fks sp_kitchen sp_fks].
      rewrite removed_fk_ops_eq, added_fk_ops_eq, !strip_opt_map by reflexivity. reflexivity.
  Qed.

  Lemma Forall2_map_eq {A B} (f : A -> B) (R : A -> B -> Prop) l r :
    (forall a b, In a l -> R a b -> b = f a) -> Forall2 R l r -> r = map f l.
  Proof.
    intros H F. induction F as [|a b l r Hab F IH]; simpl; [reflexivity|].
    rewrite (H a b) by (simpl; auto). f_equal. apply IH. intros; apply H; simpl; auto.
  Qed.

  Lemma common_names : filter (fun k => dmem k to) (dkeys from) = map fst common.
  Proof. unfold dkeys, common. rewrite filter_map_comm. reflexivity. Qed.

  Lemma plan_iff disable ops : wf_tables from -> wf_tables to ->
    plan_tables disable to (Some from) = Ok ops <-> all_comparable /\ ops = plan_list disable.
  Proof.
    intros Wf Wt. unfold plan_tables, differences.
    assert (Cr : mapM (fun n => let* t := dgetE n to in Ok (OCreate t)) (filter (fun k => negb (dmem k from)) (dkeys to))
                 = Ok creates_list).
    { rewrite (mapM_keys to (fun k => negb (dmem k from)) (fun n t => Ok (OCreate t)) (wf_names _ Wt)).
      apply mapM_Ok_map. reflexivity. }
    assert (Re : map ODropTable (filter (fun k => negb (dmem k to)) (dkeys from)) = gone_list).
    { unfold gone_list, only_in, dkeys. rewrite filter_map_comm, map_map. reflexivity. }
    rewrite Cr. cbn [bind]. rewrite common_names, drop_fk_ops_eq, add_fk_ops_eq, Re.
    assert (U : forall p, In p common -> exists t, dget (fst p) from = Some (snd p) /\ dget (fst p) to = Some t).
    { intros [n s] H. apply in_common in H as [H (t & Dt)]. exists t. split; [|exact Dt].
      apply (dget_iff n s _ (wf_names _ Wf)), H. }
    assert (E : forall upd, concat (map fst (map upd_pair upd)) = concat (map (fun p => removed_of p +++ kitchen_of p) upd)
                      /\ concat (map snd (map upd_pair upd)) = concat (map added_of upd)).
    { intros upd. rewrite !map_map. split; reflexivity. }
    split.
    - intros H. apply bind_ok in H as (upd & Hu & H). apply mapM_ok in Hu.
      assert (Eu : upd = map upd_pair common).
      { revert Hu. generalize U. clear - Wf Wt. generalize common as l. intros l U Hu.
        revert upd Hu. induction l as [|p l IH]; intros upd Hu; inversion Hu; subst; [reflexivity|].
        destruct (U p (or_introl eq_refl)) as (t & Ds & Dt).
        apply (update_table_ok _ _ _ Wf Wt Ds Dt) in H1 as [_ ->]. simpl. f_equal.
        apply IH; [intros; apply U; right; assumption|assumption]. }
      subst upd. destruct (E common) as [E1 E2]. rewrite E1, E2 in H. injection H as <-.
      split; [|unfold plan_list, body_list; rewrite <- !app_assoc; reflexivity].
      intros n s t Hs Ht. apply (dget_iff n t _ (wf_names _ Wt)) in Ht as Dt.
      assert (Hc : In (n, s) common) by (apply in_common; eauto).
      apply (in_map fst) in Hc. simpl in Hc.
      destruct (Forall2_in_l _ _ _ _ Hu Hc) as (x & _ & Hx).
      apply (dget_iff n s _ (wf_names _ Wf)) in Hs as Ds.
      apply (update_table_ok _ _ _ Wf Wt Ds Dt) in Hx as [C _]. exact C.
    - intros [C ->].
      assert (Hu : mapM (update_table from to) (map fst common) = Ok (map upd_pair common)).
      { apply mapM_ok. clear Cr Re E. assert (C' : forall p, In p common -> exists t, dget (fst p) to = Some t /\ comparable (snd p) t).
        { intros [n s] H. apply in_common in H as [H (t & Dt)]. exists t. split; [exact Dt|].
          apply (C n); [exact H|apply dget_in, Dt]. }
        revert U C'. generalize common as l. induction l as [|p l IH]; intros U C'; simpl; constructor.
        - destruct (U p (or_introl eq_refl)) as (t & Ds & Dt). destruct (C' p (or_introl eq_refl)) as (t' & Dt' & Cp).
          assert (t' = t) by congruence. subst t'.
          apply (update_table_ok _ _ _ Wf Wt Ds Dt). split; [exact Cp|destruct p; reflexivity].
        - apply IH; intros; [apply U|apply C']; right; assumption. }
      rewrite Hu. cbn [bind]. destruct (E common) as [E1 E2]. rewrite E1, E2.
      unfold plan_list, body_list. rewrite <- !app_assoc. reflexivity.
  Qed.

  (** *** One table's share of the plan *)
  Definition local_ops (n : string) : list op :=
    match dget n from, dget n to with
    | None, None => []
    | None, Some t => [OCreate t]
    | Some s, None => drops_of (n, s) +++ [ODropTable n]
    | Some s, Some t => drops_of (n, s) +++ (removed_of (n, s) +++ kitchen_of (n, s)) +++ added_of (n, s) +++ readds_of (n, s)
    end.

  Lemma cyc_adds_gone n s : dget n to = None -> cyc_adds from to n s = [].
  Proof.
    intros D. unfold cyc_adds. assert (H : forall x, In x (cycled_of_table from to n s) -> snd x = None).
    { intros [[kn k] x] H. apply cycled_in_iff in H as [_ H]. unfold cycle_of in H. destruct (_ || _); [|discriminate].
      rewrite D in H. injection H as <-. reflexivity. }
    revert H. generalize (cycled_of_table from to n s) as l. induction l as [|[[kn k] x] l IH]; simpl; intros H; [reflexivity|].
    pose proof (H _ (or_introl eq_refl)) as E. simpl in E. subst x. apply IH. auto.
  Qed.

  Lemma on_alter1 n ops o : In o (alter1 n ops) -> op_on o = Some n.
  Proof. intros H. apply alter1_in in H as [-> _]. reflexivity. Qed.

  Lemma common_nodup : wf_tables from -> NoDup (map fst common).
  Proof. intros W. apply NoDup_filter_map, (wf_names _ W). Qed.
  Lemma dget_common n : dget n common = match dget n to with Some _ => dget n from | None => None end.
  Proof.
    unfold common. induction from as [|[m s] l IH]; simpl; [destruct (dget n to); reflexivity|].
    rewrite (dmem_dget m to). destruct (String.eqb_spec n m) as [<-|Hm].
    - destruct (dget n to) eqn:D; simpl; [rewrite String.eqb_refl; reflexivity|]. rewrite IH. reflexivity.
    - destruct (dget m to); simpl; try (destruct (String.eqb_spec n m); [congruence|]); apply IH.
  Qed.

  Lemma concat_single {A B} (f : A -> B) l : concat (map (fun p => [f p]) l) = map f l.
  Proof. induction l as [|a l IH]; simpl; [reflexivity|]. rewrite IH. reflexivity. Qed.
  Lemma dget_only_in {V W} n (a : dict string V) (b : dict string W) :
    dget n (only_in a b) = match dget n b with Some _ => None | None => dget n a end.
  Proof.
    unfold only_in. induction a as [|[m s] l IH]; simpl; [destruct (dget n b); reflexivity|].
    rewrite (dmem_dget m b). destruct (String.eqb_spec n m) as [<-|Hm].
    - destruct (dget n b) eqn:D; simpl; [rewrite IH; reflexivity|rewrite String.eqb_refl; reflexivity].
    - destruct (dget m b); simpl; try (destruct (String.eqb_spec n m); [congruence|]); apply IH.
  Qed.

  Section Wf.
    Hypotheses (Wf : wf_tables from) (Wt : wf_tables to).

    Lemma on_creates n : filter (on n) creates_list = match dget n from, dget n to with None, Some t => [OCreate t] | _, _ => [] end.
    Proof.
      unfold creates_list. rewrite <- concat_single, (filter_on_concat (fun p => [OCreate (snd p)])).
      - rewrite dget_only_in. destruct (dget n from), (dget n to); reflexivity.
      - apply NoDup_filter_map, (wf_names _ Wt).
      - intros [m t] o H [<-|[]]. apply only_in_in in H as [H _]. simpl. f_equal. apply (wf_named _ Wt m t H).
    Qed.
    Lemma on_drops n : filter (on n) drops_list = match dget n from with Some s => drops_of (n, s) | None => [] end.
    Proof.
      apply filter_on_concat; [apply (wf_names _ Wf)|]. intros p o _. apply on_alter1.
    Qed.
    Lemma on_updates n : filter (on n) updates_list
      = match dget n from, dget n to with Some s, Some _ => removed_of (n, s) +++ kitchen_of (n, s) | _, _ => [] end.
    Proof.
      unfold updates_list. rewrite filter_on_concat.
      - rewrite dget_common. destruct (dget n to), (dget n from); reflexivity.
      - apply common_nodup, Wf.
      - intros p o _ H. apply in_app_iff in H as [H|H]; eapply on_alter1, H.
    Qed.
    Lemma on_added n : filter (on n) added_list
      = match dget n from, dget n to with Some s, Some _ => added_of (n, s) | _, _ => [] end.
    Proof.
      unfold added_list. rewrite filter_on_concat.
      - rewrite dget_common. destruct (dget n to), (dget n from); reflexivity.
      - apply common_nodup, Wf.
      - intros p o _. apply on_alter1.
    Qed.
    Lemma on_readds n : filter (on n) readds_list
      = match dget n from, dget n to with Some s, Some _ => readds_of (n, s) | _, _ => [] end.
    Proof.
      unfold readds_list. rewrite filter_on_concat.
      - destruct (dget n from); [|reflexivity]. destruct (dget n to) eqn:D; [reflexivity|].
        unfold readds_of. simpl. rewrite cyc_adds_gone by exact D. reflexivity.
      - apply (wf_names _ Wf).
      - intros p o _. apply on_alter1.
    Qed.
    Lemma on_gone n : filter (on n) gone_list
      = match dget n from, dget n to with Some _, None => [ODropTable n] | _, _ => [] end.
    Proof.
      unfold gone_list. rewrite <- concat_single, (filter_on_concat (fun p => [ODropTable (fst p)])).
      - rewrite dget_only_in. destruct (dget n from), (dget n to); reflexivity.
      - apply NoDup_filter_map, (wf_names _ Wf).
      - intros [m t] o H [<-|[]]. reflexivity.
    Qed.

    Lemma on_body n : filter (on n) body_list = local_ops n.
    Proof.
      unfold body_list. rewrite !filter_app, on_creates, on_drops, on_updates, on_added, on_readds, on_gone.
      unfold local_ops. destruct (dget n from), (dget n to); simpl; rewrite ?app_nil_r; reflexivity.
    Qed.
    Lemma on_plan n disable : filter (on n) (plan_list disable) = local_ops n.
    Proof.
      unfold plan_list. rewrite !filter_app, on_body. destruct disable; simpl; rewrite app_nil_r; reflexivity.
    Qed.
  End Wf.
End Plan.

(** ** Creating a table *)
Lemma exec_create_wf t : wf_table t ->
  exec_create (dvals (t_columns t)) (dvals (t_indexes t)) (dvals (t_constraints t)) = Some (stable_of t).
Proof.
  intros W. unfold exec_create.
  rewrite (run_puts c_name String.eqb seqb_ok); [|rewrite (dvals_names _ c_name (wf_cols_named _ W)); apply (wf_cols _ W)|intros ? _ []].
  rewrite (run_puts id_of_key key_id_eqb key_id_ok);
    [|apply NoDup_map_of_inj; [apply (dvals_nodup _ ix_name (wf_keys _ W) (wf_keys_named _ W))|intros; eapply id_of_key_inj; eauto]|intros ? _ []].
  rewrite (run_puts k_name String.eqb seqb_ok); [|rewrite (dvals_names _ k_name (wf_fks_named _ W)); apply (wf_fks _ W)|intros ? _ []].
  reflexivity.
Qed.
