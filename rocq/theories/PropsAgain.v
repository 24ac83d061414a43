(** C86: a second run after the plan was executed. *)
From Verif Require Import RowFacts SpecRows SpecLive PropsRows Samples RoundRows StoredFacts DiffMore PlanMore PropsPlan AgainFacts PropsCommand PropsLive PropsRound PropsWrite PropsCreate PropsMany CliFacts PropsCli PropsSeen.

Local Opaque max_turns max_statements.

(** ** What the server shows afterwards *)

(** A foreign key on the server uses the column [cn] of the table [tn]. *)
Definition in_use (s : server) (tn cn : string) : Prop :=
  exists m st k, s m = Some st /\ In k (st_fks st) /\ fk_uses m k tn cn.
(** The definition [c] that the server was given is shown as [m]: exactly, or, if it is none of the [old]
    ones, in the way servers report definitions (C72), but foreign keys need the type as it is. *)
Inductive shown_column {FO : FloatOracle} (old : list column) (used : Prop) (c : column) (m : meaning) : Prop :=
| shown_exactly : means c m -> shown_column old used c m
| shown_otherwise m0 : ~ In c old -> means c m0 -> reported m0 m ->
    (used -> m_length m = m_length m0 /\ m_charset m = m_charset m0 /\ m_collate m = m_collate m0) -> shown_column old used c m.
(** Indexes and foreign keys come in any order. *)
Record shown_table {FO : FloatOracle} (old : list column) (used : string -> Prop) (st : stable) (T : tmeaning) : Prop := {
  sh_columns : Forall2 (fun c m => shown_column old (used (c_name c)) c m) (st_cols st) (tm_columns T);
  sh_keys : SpecDiff.matches same_key (st_keys st) (tm_keys T);
  sh_fks : SpecDiff.matches alike_fk (st_fks st) (tm_fks T)
}.
Definition columns_of (s : server) (n : string) : list column := match s n with Some st => st_cols st | None => [] end.
(** The tables [Ts] are what a server in the state [s] shows, that was in the state [s0] before. *)
Definition shows {FO : FloatOracle} (s0 s : server) (Ts : list tmeaning) : Prop :=
  (forall n, s n <> None -> In n (map tm_name Ts))
  /\ forall T, In T Ts -> exists st, s (tm_name T) = Some st /\ shown_table (columns_of s0 (tm_name T)) (in_use s (tm_name T)) st T.
(** No two indexes of the table have the same columns and the same type. *)
Definition keys_distinct (T : tmeaning) : Prop := NoDup (map (fun i => (ix_columns i, ix_type i)) (tm_keys T)).

(** ** A table object for what the server holds *)

Definition held (n : string) (st : stable) : table :=
  mkTable n (map (fun c => (c_name c, c)) (st_cols st)) (map (fun i => (ix_name i, i)) (st_keys st)) (map (fun k => (k_name k, k)) (st_fks st))
    [] None None None false [] [] true.
Lemma held_stable n st : stable_of (held n st) = st.
Proof. destruct st. unfold stable_of, held, dvals. cbn. rewrite !map_map. cbn. rewrite !map_id. reflexivity. Qed.
Lemma named_pair {A} (f : A -> string) l n x : In (n, x) (map (fun a => (f a, a)) l) <-> In x l /\ f x = n.
Proof. rewrite in_map_iff. split; [intros (a & E & I); injection E as <- <-; auto|intros [I <-]; eauto]. Qed.
Lemma named_keys {A} (f : A -> string) l : dkeys (map (fun a => (f a, a)) l) = map f l.
Proof. unfold dkeys. rewrite map_map. reflexivity. Qed.
Lemma matches_there {A} (R : A -> A -> Prop) l l' y : SpecDiff.matches R l l' -> In y l' -> exists x, In x l /\ R x y.
Proof.
  intros (ps & P1 & P2 & H) I. rewrite <- P2 in I. apply in_map_iff in I as ([a b] & E & I). cbn [snd] in E. subst b. exists a. split; [|apply H, I].
  rewrite <- P1. apply in_map_iff. exists (a, y). auto.
Qed.
Lemma matches_back {A} (R : A -> A -> Prop) l l' x : SpecDiff.matches R l l' -> In x l -> exists y, In y l' /\ R x y.
Proof.
  intros (ps & P1 & P2 & H) I. rewrite <- P1 in I. apply in_map_iff in I as ([a b] & E & I). cbn [fst] in E. subst a. exists b. split; [|apply H, I].
  rewrite <- P2. apply in_map_iff. exists (x, b). auto.
Qed.
Lemma matches_names {A B} (f : A -> B) (R : A -> A -> Prop) l l' : (forall a b, R a b -> f b = f a) -> SpecDiff.matches R l l' -> Permutation (map f l) (map f l').
Proof.
  intros Hf (ps & P1 & P2 & H). rewrite <- (Permutation_map f P1), <- (Permutation_map f P2), !map_map.
  replace (map (fun x => f (snd x)) ps) with (map (fun x => f (fst x)) ps); [reflexivity|]. apply map_ext_in. intros [a b] I. cbn. symmetry. apply Hf, H, I.
Qed.

Lemma clean_tickless s : clean_name s -> has_char bquote s = false.
Proof.
  intros (_ & H & _). unfold has_char. induction s as [|c s IH]; [reflexivity|]. cbn [sforall sexists] in *. apply andb_true_iff in H as [H1 H2]. unfold name_ok_char in H1.
  apply andb_true_iff in H1 as [_ H1]. rewrite (IH H2), Ascii.eqb_sym. destruct (Ascii.eqb c bquote); [discriminate|reflexivity].
Qed.

Section Shown.
  Context {FO : FloatOracle} (old : list column) (used : string -> Prop) (st : stable) (T : tmeaning).
  Hypothesis (Sh : shown_table old used st T).

  Lemma shown_name used' c m : shown_column old used' c m -> c_name c = m_name m.
  Proof. intros [M|m0 _ M R _]; rewrite (me_name _ _ M); [reflexivity|]. destruct R; auto. Qed.
  Lemma shown_names : map c_name (st_cols st) = map m_name (tm_columns T).
  Proof. pose proof (sh_columns _ _ _ _ Sh) as F. induction F as [|c m l l' H F IH]; [reflexivity|]. cbn [map]. rewrite IH. f_equal. apply (shown_name _ _ _ H). Qed.
  Lemma held_wf : sound_table T -> wf_table (held (tm_name T) st).
  Proof.
    intros So. constructor; cbn [held t_columns t_indexes t_constraints]; rewrite ?named_keys.
    - rewrite shown_names. apply So.
    - intros n c I. apply named_pair in I. tauto.
    - apply (Permutation_NoDup (l := map ix_name (tm_keys T))); [|apply So]. symmetry. apply (matches_names ix_name same_key); [|apply Sh]. intros a b E. apply E.
    - intros n c I. apply named_pair in I. tauto.
    - apply (Permutation_NoDup (l := map k_name (tm_fks T))); [|apply So]. symmetry. apply (matches_names k_name alike_fk); [|apply Sh]. intros a b E. symmetry. apply E.
    - intros n c I. apply named_pair in I. tauto.
    - unfold dvals. rewrite map_map. cbn [snd]. rewrite map_id.
      assert (Pm : Permutation (map is_primary (st_keys st)) (map is_primary (tm_keys T))).
      { apply (matches_names is_primary same_key); [|apply Sh]. intros a b (_ & _ & E). unfold is_primary. rewrite E. reflexivity. }
      assert (L : forall l, List.length (filter is_primary l) = count_occ Bool.bool_dec (map is_primary l) true).
      { induction l as [|i l IH]; [reflexivity|]. cbn [filter map count_occ]. destruct (is_primary i); cbn [List.length]; [destruct (Bool.bool_dec true true); [f_equal; exact IH|contradiction]|].
        destruct (Bool.bool_dec false true); [discriminate|exact IH]. }
      rewrite L, (proj1 (Permutation_count_occ Bool.bool_dec _ _) Pm), <- L. apply So.
  Qed.

  (** The table read from what is shown. *)
  Variables (f t : table) (Tf : tmeaning).
  Hypothesis (Rf : read_table f T false) (Wt : wf_table t) (P : plain_table T).
  Hypothesis (Rt : exists u, read_table u Tf true /\ same_definition u t).
  Hypothesis (Kd : keys_distinct Tf) (Kc : forall i, In i (tm_keys Tf) -> ix_columns i <> [] /\ Forall (fun c => has_char bquote c = false) (ix_columns i)).
  Hypothesis (Or : forall c, In c (st_cols st) -> plainly c /\ (In c (dvals (t_columns t)) \/ In c old)).

  Lemma target_column n b : In (n, b) (t_columns t) -> exists m, said_column m b.
  Proof. intros I. destruct Rt as (u & Ru & _ & Ec & _). rewrite Ec in I. destruct (read_column_at u Tf true Ru n b I) as (m & _ & _ & S). eauto. Qed.
  Lemma target_key n i : In (n, i) (t_indexes t) -> exists j, In j (tm_keys Tf) /\ ix_name j = n /\ ix_columns j = ix_columns i /\ ix_type j = ix_type i.
  Proof. intros I. destruct Rt as (u & Ru & _ & _ & Ei & _). rewrite Ei in I. destruct (read_key_at u Tf true Ru n i I) as (j & J & E & _ & A & B). eauto. Qed.
  Lemma shown_at n a1 : In (n, a1) (t_columns f) -> exists c m, In c (st_cols st) /\ c_name c = n /\ shown_column old (used n) c m /\ said_column m a1.
  Proof.
    intros I. destruct (read_column_at f T false Rf n a1 I) as (m & Im & Nm & S). pose proof (sh_columns _ _ _ _ Sh) as F. destruct (forall2_in _ _ _ _ F Im) as (c & Ic & H).
    exists c, m. split; [exact Ic|]. pose proof (shown_name _ _ _ H) as E. split; [congruence|]. split; [|exact S]. replace n with (c_name c) by congruence. exact H.
  Qed.
  (** Where the definition shown is not exact, it is the target's. *)
  Lemma shown_new c m0 b n : In c (st_cols st) -> c_name c = n -> ~ In c old -> means c m0 -> In (n, b) (t_columns t) -> c = b /\ said_column m0 b.
  Proof.
    intros Ic Nc No M Ib. destruct (Or c Ic) as [_ [I|I]]; [|contradiction]. apply dvals_in in I as (k & I). pose proof (wf_cols_named _ Wt k c I) as E.
    assert (c = b) by (apply (same_entry _ n c b (wf_cols _ Wt)); [rewrite <- Nc, E; exact I|exact Ib]). subst c. split; [reflexivity|].
    destruct (target_column n b Ib) as (m & (M' & E' & Pl & R)). split; [exact M|]. split; [exact E'|]. split; [exact Pl|]. rewrite <- (me_type _ _ M), <- (me_kind _ _ M), (me_type _ _ M'), (me_kind _ _ M'). exact R.
  Qed.
  Lemma shown_changed n a0 a1 b : In (n, a0) (t_columns (held (tm_name T) st)) -> In (n, a1) (t_columns f) -> In (n, b) (t_columns t) ->
    (column_changed a0 b = Ok false -> column_changed a1 b = Ok false) /\ (used n -> column_type_differs a0 b = false -> column_type_differs a1 b = false).
  Proof.
    intros I0 I1 Ib. destruct (shown_at n a1 I1) as (c & m & Ic & Nc & H & S). apply named_pair in I0 as [I0 N0].
    assert (c = a0) by (apply (same_named c_name (st_cols st)); auto; [rewrite shown_names; apply (rd_sound _ _ _ Rf)|congruence]). subst c. destruct H as [M|m0 No M R U].
    - destruct (said_same a0 a1 m b M (proj1 (Or a0 I0)) S) as [-> ->]. auto.
    - destruct (shown_new a0 m0 b n I0 N0 No M Ib) as [-> S0]. split.
      + intros _. apply (column_quiet m0 m b a1 S0 S R).
      + intros Us _. apply (steady_type m0 m b a1 S0 S R (U Us)).
  Qed.
  Lemma shown_keys : key_report (held (tm_name T) st) f t.
  Proof.
    pose proof (rd_sound _ _ _ Rf) as So. constructor.
    - intros n i1 I. destruct (read_key_at f T false Rf n i1 I) as (i & Ii & Ni & Al). destruct (matches_there _ _ _ _ (sh_keys _ _ _ _ Sh) Ii) as (i0 & I0 & S0 & S1 & S2).
      exists i0. pose proof (alike_ix_name _ _ Al) as Nx. destruct Al as (_ & A1 & A2). split; [apply named_pair; split; [exact I0|congruence]|]. unfold same_key. repeat split; congruence.
    - intros n i0 I. apply named_pair in I as [I N0]. destruct (matches_back _ _ _ _ (sh_keys _ _ _ _ Sh) I) as (i & Ii & S0 & S1 & S2).
      assert (H : In n (dkeys (t_indexes f))) by (rewrite (read_key_names f T false Rf); apply in_map_iff; exists i; split; [congruence|exact Ii]). apply dkeys_in in H as (i1 & H).
      exists i1. split; [exact H|]. destruct (read_key_at f T false Rf n i1 H) as (i' & Ii' & Ni & Al). assert (i' = i) by (apply (same_named ix_name (tm_keys T)); auto; [apply So|congruence]). subst i'.
      pose proof (alike_ix_name _ _ Al) as Nx. destruct Al as (_ & A1 & A2). unfold same_key. repeat split; congruence.
    - intros n. rewrite (read_fk_names f T false Rf). cbn [held t_constraints]. rewrite named_keys.
      assert (Pm : Permutation (map k_name (st_fks st)) (map k_name (tm_fks T))) by (apply (matches_names k_name alike_fk); [|apply Sh]; intros a b E; symmetry; apply E). rewrite Pm. reflexivity.
    - intros n i n' i' I I' S. destruct (target_key n i I) as (j & J & Nj & A & B). destruct (target_key n' i' I') as (j' & J' & Nj' & A' & B').
      assert (j = j'); [|congruence]. assert (E : (ix_columns j, ix_type j) = (ix_columns j', ix_type j')) by (destruct S; congruence).
      clear -Kd J J' E. unfold keys_distinct in Kd. induction (tm_keys Tf) as [|x l IH]; [destruct J|]. cbn [map] in Kd. inversion Kd as [|? ? K1 K2]; subst.
      destruct J as [->|J], J' as [->|J']; auto; exfalso; apply K1; [rewrite E|rewrite <- E]; apply (in_map (fun i => (ix_columns i, ix_type i))); assumption.
    - intros n i [I|I].
      + apply named_pair in I as [I _]. destruct (matches_back _ _ _ _ (sh_keys _ _ _ _ Sh) I) as (j & J & _ & E & _). rewrite <- E.
        pose proof (pt_keys _ P) as K. rewrite Forall_forall in K. destruct (py_columns _ (K j J)) as [K1 K2]. split; [exact K1|]. revert K2. apply Forall_impl. apply clean_tickless.
      + destruct (target_key n i I) as (j & J & _ & E & _). rewrite <- E. apply Kc, J.
  Qed.
  Lemma shown_report : table_report (held (tm_name T) st) f t.
  Proof.
    constructor.
    - intros n. rewrite (read_column_names f T false Rf). cbn [held t_columns]. rewrite named_keys, shown_names. reflexivity.
    - intros n a0 a1 b I0 I1 Ib. apply (shown_changed n a0 a1 b I0 I1 Ib).
    - apply shown_keys.
    - intros n k1 I. destruct (read_fk_at f T false Rf n k1 I) as (k & Ik & Nk & Al). destruct (matches_there _ _ _ _ (sh_fks _ _ _ _ Sh) Ik) as (k0 & I0 & S0).
      exists k0. split; [apply named_pair; split; [exact I0|]; destruct S0; congruence|]. unfold alike_fk in *. intuition congruence.
  Qed.
End Shown.

(** ** The structure *)

Section Structure.
  Context {FO : FloatOracle}.
  Definition nothing_held : stable := mkStable [] [] [].
  Definition held_of (s : server) (Ts : list tmeaning) : tables :=
    map (fun T => (tm_name T, held (tm_name T) (match s (tm_name T) with Some st => st | None => nothing_held end))) Ts.
  Lemma held_of_keys s Ts : dkeys (held_of s Ts) = map tm_name Ts.
  Proof. unfold held_of, dkeys. rewrite map_map. reflexivity. Qed.
  Lemma held_of_at s0 s Ts n m : shows s0 s Ts -> In (n, m) (held_of s Ts) -> exists T st, In T Ts /\ tm_name T = n /\ s n = Some st /\ m = held n st /\ shown_table (columns_of s0 n) (in_use s n) st T.
  Proof.
    intros [_ H] I. apply in_map_iff in I as (T & E & I). injection E as <- <-. destruct (H T I) as (st & E & Sh). exists T, st. rewrite E. auto.
  Qed.
  Lemma holds_held s0 s Ts : NoDup (map tm_name Ts) -> shows s0 s Ts -> holds (held_of s Ts) s.
  Proof.
    intros N H n. unfold server_of. destruct (dget n (held_of s Ts)) as [m|] eqn:E.
    - apply dget_in in E. destruct (held_of_at s0 s Ts n m H E) as (T & st & _ & _ & Es & -> & _). rewrite Es. cbn [option_map]. rewrite held_stable. reflexivity.
    - apply dget_none in E. rewrite held_of_keys in E. destruct (s n) eqn:Es; [|reflexivity]. exfalso. apply E, H. rewrite Es. discriminate.
  Qed.
  Lemma held_of_wf s0 s Ts : NoDup (map tm_name Ts) -> shows s0 s Ts -> Forall sound_table Ts -> wf_tables (held_of s Ts).
  Proof.
    intros N H So. split; [rewrite held_of_keys; exact N|]. intros n m I. destruct (held_of_at s0 s Ts n m H I) as (T & st & IT & <- & Es & -> & Sh). split; [reflexivity|].
    rewrite Forall_forall in So. apply (held_wf _ _ st T Sh), So, IT.
  Qed.

  (** What the tables of the files are. *)
  Definition file_table (t : table) : Prop := exists Tf u, read_table u Tf true /\ same_definition u t /\ keys_distinct Tf
    /\ forall i, In i (tm_keys Tf) -> ix_columns i <> [] /\ Forall (fun c => has_char bquote c = false) (ix_columns i).

  Lemma again_plan us Ts to ops s us' Ts' : Forall2 (fun t T => read_table t T false) us Ts -> (forall n t, In (n, t) to -> file_table t) ->
    plannable (entries us) to -> fk_columns_settled (entries us) to -> names_settled (entries us) to ->
    plan_tables false to (Some (entries us)) = Ok ops -> exec_all ops (server_of (entries us)) = Some s ->
    Forall2 (fun t T => read_table t T false) us' Ts' -> NoDup (map tm_name Ts') -> Forall plain_table Ts' -> shows (server_of (entries us)) s Ts' ->
    plan_tables false to (Some (entries us')) = Ok [].
  Proof.
    intros R Ft P Fs Ns E X R' N' P' Sw.
    assert (So : Forall sound_table Ts') by (eapply Forall_impl; [|exact P']; intros T H; apply H).
    pose proof (held_of_wf _ s Ts' N' Sw So) as W0.
    assert (W1 : wf_tables (entries us')).
    { split; [rewrite entries_keys, (read_names _ _ _ R'); exact N'|]. intros n t I. destruct (entries_at _ _ _ _ _ R' I) as (T & _ & Nm & Q). split; [rewrite <- Nm; apply Q|apply (read_wf t T false Q)]. }
    pose proof (pl_to _ _ P) as Wt.
    destruct (plan_settled (entries us) to P false (held_of s Ts') ops s E X W0 (holds_held _ s Ts' N' Sw) Fs Ns) as (A & B & C & D).
    assert (Tab : forall n m0 m1 t, In (n, m0) (held_of s Ts') -> In (n, m1) (entries us') -> In (n, t) to ->
      table_report m0 m1 t /\ forall cn a0 a1 b, column_used (held_of s Ts') n cn -> In (cn, a0) (t_columns m0) -> In (cn, a1) (t_columns m1) -> In (cn, b) (t_columns t) ->
        column_type_differs a0 b = false -> column_type_differs a1 b = false).
    { intros n m0 m1 t I0 I1 It. pose proof (proj2 (dget_iff n m0 _ (wf_names _ W0)) I0) as G0. pose proof (proj2 (dget_iff n t _ (wf_names _ Wt)) It) as Gt.
      destruct (held_of_at _ s Ts' n m0 Sw I0) as (T & st & IT & NT & Es & -> & Sh). destruct (entries_at _ _ _ _ _ R' I1) as (T1 & IT1 & NT1 & Rm).
      assert (T1 = T) by (apply (same_named tm_name Ts'); auto; congruence). subst T1. destruct (Ft n t It) as (Tf & u & Ru & Su & Kd & Kc).
      assert (Or : forall c, In c (st_cols st) -> plainly c /\ (In c (dvals (t_columns t)) \/ In c (columns_of (server_of (entries us)) n))).
      { intros c Ic. destruct (D n (held n st) t (c_name c) c G0 Gt) as [H|(old & Go & H)]; [apply named_pair; auto| |].
        - split; [|left; apply (in_map snd _ _ H)]. pose proof H as H'. destruct Su as (_ & Ec & _). rewrite Ec in H'. destruct (read_column_at u Tf true Ru _ c H') as (m & _ & _ & Q). apply Q.
        - split; [|right; unfold columns_of, server_of; rewrite Go; cbn [option_map stable_of st_cols]; apply (in_map snd _ _ H)].
          apply dget_in in Go. destruct (entries_at _ _ _ _ _ R Go) as (T0 & _ & _ & R0). destruct (read_column_at old T0 false R0 _ c H) as (m & _ & _ & Q). apply Q. }
      assert (Wtt : wf_table t) by (apply (wf_named _ Wt n), It). rewrite Forall_forall in P'. subst n.
      split.
      - apply (shown_report _ _ st T Sh m1 t Tf Rm Wtt (P' T IT) (ex_intro _ u (conj Ru Su)) Kd Kc Or).
      - intros cn a0 a1 b Us Ia0 Ia1 Ib. apply (shown_changed _ _ st T Sh m1 t Tf Rm Wtt (ex_intro _ u (conj Ru Su)) Or cn a0 a1 b Ia0 Ia1 Ib).
        destruct Us as (mn & mt & k & Im & Ik & U). destruct (held_of_at _ s Ts' mn mt Sw Im) as (T2 & st2 & _ & _ & E2 & -> & _). exists mn, st2, k. split; [exact E2|]. split; [|exact U].
        unfold held, dvals in Ik. cbn [t_constraints] in Ik. rewrite map_map in Ik. cbn [snd] in Ik. rewrite map_id in Ik. exact Ik. }
    apply (plan_report (held_of s Ts') (entries us') to W0 W1 Wt A B C).
    - intros n. rewrite entries_keys, (read_names _ _ _ R'), held_of_keys. reflexivity.
    - intros n m0 m1 t I0 I1 It. apply (Tab n m0 m1 t I0 I1 It).
    - intros n cn m0 m1 t a0 a1 b I0 I1 It Us Ia0 Ia1 Ib. apply (proj2 (Tab n m0 m1 t I0 I1 It) cn a0 a1 b Us Ia0 Ia1 Ib).
  Qed.
End Structure.

(** ** The commands *)

Lemma exec_bare s o : exec s (bare_op o) = exec s o.
Proof. destruct o; reflexivity. Qed.
Lemma exec_bares l : forall s, exec_all (map bare_op l) s = exec_all l s.
Proof. unfold exec_all. induction l as [|o l IH]; intros s; [reflexivity|]. cbn [map run_all]. rewrite exec_bare. destruct (exec s o); [apply IH|reflexivity]. Qed.
Lemma exec_row_ops l : (forall o, In o l -> row_op o) -> forall s, exec_all l s = Some s.
Proof.
  unfold exec_all. induction l as [|o l IH]; intros H s; [reflexivity|]. cbn [run_all]. replace (exec s o) with (Some s).
  - apply IH. intros o' I. apply H. right. exact I.
  - specialize (H o (or_introl eq_refl)). destruct o; try destruct H; reflexivity.
Qed.
Lemma exec_bracket a r s : (forall o, In o r -> row_op o) -> exec_all (bracket (a +++ r)) s = exec_all a s.
Proof.
  intros H. assert (X : exec_all (a +++ r) s = exec_all a s).
  { unfold exec_all. rewrite run_all_app. destruct (run_all exec a s) as [s'|]; [|reflexivity]. apply (exec_row_ops r H). }
  unfold bracket. destruct (list_is_nil (a +++ r)) eqn:Z; [destruct (a +++ r); [exact X|discriminate]|].
  change (exec_all (ODisable :: (a +++ r) +++ [OEnable]) s) with (exec_all ((a +++ r) +++ [OEnable]) s). rewrite <- X. unfold exec_all. rewrite run_all_app.
  destruct (run_all exec (a +++ r) s); reflexivity.
Qed.
Lemma exec_rows_bracket has dflt a r s : (forall o, In o a -> structural o) -> exec_rows has dflt (bracket (a +++ r)) s = exec_rows has dflt r s.
Proof.
  intros H. assert (X : exec_rows has dflt (a +++ r) s = exec_rows has dflt r s) by (rewrite exec_app, (structural_exec has dflt a H); reflexivity).
  unfold bracket. destruct (list_is_nil (a +++ r)) eqn:Z; [destruct (a +++ r); [exact X|discriminate]|].
  change (exec_rows has dflt (ODisable :: (a +++ r) +++ [OEnable]) s) with (exec_rows has dflt ((a +++ r) +++ [OEnable]) s). rewrite exec_app, X. destruct (exec_rows has dflt r s); reflexivity.
Qed.

Section Commands.
  Context {FO : FloatOracle}.

  Lemma build_planned force files live live' sel ops : snd (db_errors files) = Ok [] ->
    read_tracked sel (dvals (db_tables files)) live = Ok live' -> same_tables live live' -> snd (build_commands force files (Ok live) sel) = Ok ops ->
    exists sops sops' rops, plan_tables false (db_tables files) (Some live) = Ok sops /\ map bare_op sops' = map bare_op sops /\ (forall o, In o sops' -> structural o)
      /\ plan_rows (db_tables files) (Some live') = Ok rops /\ ops = bracket (sops' +++ rops).
  Proof.
    intros E R Sm B. unfold build_commands in B. pose proof (tracked_asked sel files live) as Ra. pose proof (plan_bare false (db_tables (fst (db_errors files))) (Some live')) as Pa.
    rewrite errors_bares, plan_bare in Pa. pose proof (rows_asked files (Some live')) as Qa.
    destruct (db_errors files) as [b1 r] eqn:D. cbn [fst snd] in *. subst r. cbn [list_is_nil negb andb bind] in B. rewrite Ra, R in B. unfold mygration in B. rewrite (db_errors_again _ _ _ D) in B.
    rewrite (plan_same _ _ _ Sm) in Pa. destruct (plan_tables false (db_tables b1) (Some live')) as [sops'|] eqn:P1; cbn [rmap snd] in B; [|discriminate].
    destruct (plan_tables false (db_tables files) (Some live)) as [sops|]; [|discriminate]. cbn [rmap] in Pa. injection Pa as Pa.
    rewrite Qa in B. destruct (plan_rows (db_tables files) (Some live')) as [rops|] eqn:P2; [|discriminate]. cbn [bind] in B. injection B as <-.
    exists sops, sops', rops. repeat split; auto. intros o I. apply (plan_tables_ops _ _ _ P1 o I).
  Qed.
  Lemma tracked_same has to live sel s : plan_ready has to live sel s -> NoDup (dkeys live) ->
    exists live', read_tracked sel (dvals to) live = Ok live' /\ same_tables live live' /\ rows_ready has to live' s
      /\ ((forall n t f id r c, In (n, t) to -> t_tracking t = true -> dget n live = Some f -> In (id, r) (Diff.rows_of t) -> In c (dkeys r) -> In c (dkeys (t_columns f))) ->
          forall n t f, In (n, t) to -> t_tracking t = true -> dget n live' = Some f -> columns_live (Diff.rows_of t) (Diff.rows_of f)).
  Proof.
    intros PR N. destruct (plan_ready_rows _ _ _ _ _ PR) as (live' & Rd & Dk & Un & Tk & RR). exists live'. split; [exact Rd|]. split; [|split; [exact RR|]].
    - apply same_by_keys; [exact N|exact Dk|]. intros n f G.
      destruct (existsb (fun p => String.eqb (fst p) n && t_tracking (snd p)) to) eqn:X.
      + apply existsb_exists in X as ([m t] & I & Y). cbn [fst snd] in Y. apply andb_true_iff in Y as [Y1 Y2]. apply String.eqb_eq in Y1. subst m.
        destruct (Tk n t f I Y2 G) as (f' & G' & rs & -> & _). eexists. split; [exact G'|]. repeat split.
      + exists f. split; [|repeat split]. rewrite Un; [exact G|]. intros t I. destruct (t_tracking t) eqn:Y; [|reflexivity]. exfalso.
        assert (Z : existsb (fun p => String.eqb (fst p) n && t_tracking (snd p)) to = true) by (apply existsb_exists; exists (n, t); cbn [fst snd]; rewrite String.eqb_refl, Y; auto). congruence.
    - intros L n t f' Ht T F'. destruct (dget n live) as [f|] eqn:G.
      + destruct (Tk n t f Ht T G) as (f2 & F2 & rs & -> & _ & _ & _ & C). rewrite F' in F2. injection F2 as ->.
        intros id r g c Hr Hg Hc. apply (C id); [exact Hg|]. eapply L; eauto.
      + apply dget_none in G. rewrite <- Dk in G. apply dget_in in F'. exfalso. apply G. eapply in_dkeys; eauto.
  Qed.

  (** The files. *)
  Section Files.
    Context (ls : list (list stmt)) (b : database) (ts : list table).
    Let l := concat ls.
    Hypothesis (Co : consistent l) (Ok' : Forall stmt_rows_ok l) (D : db_tables b = map (fun t => (t_name t, t)) ts) (W : Forall2 (read_whole l) (tables_in l) ts).
    Lemma file_at n t : In (n, t) (db_tables b) -> n = t_name t /\ exists T, In T (tables_in l) /\ tm_name T = n /\ read_whole l T t.
    Proof.
      intros I. rewrite D in I. apply in_map_iff in I as (u & Q & I). injection Q as <- <-. split; [reflexivity|]. destruct (forall2_in _ _ _ _ W I) as (T & IT & R).
      exists T. split; [exact IT|]. split; [symmetry; apply (rw_says _ _ _ R)|exact R].
    Qed.
    Lemma file_rows n t : In (n, t) (db_tables b) -> t_tracking t = true -> rows_in n l <> [] /\ t_rows t = Some (map RoundRows.stored (rows_in n l)).
    Proof.
      intros I Tr. destruct (file_at n t I) as (En & T & IT & ET & R). rewrite <- ET in *. apply (rw_tracking _ _ _ R) in Tr. split; [exact Tr|]. rewrite (rw_rows _ _ _ R).
      destruct (rows_in (tm_name T) l); [contradiction|reflexivity].
    Qed.
    Lemma file_given n x : In x (rows_in n l) -> List.length (snd x) = List.length (fst x).
    Proof. intros I. destruct (rows_in_from n l x I) as (cols & gs & J & E1 & E2). rewrite Forall_forall in Ok'. destruct (Ok' _ J) as [_ K]. rewrite Forall_forall in K. rewrite E1. apply K, E2. Qed.
    Lemma file_cells n t id r c : In (n, t) (db_tables b) -> t_tracking t = true -> In (id, r) (Diff.rows_of t) -> In c (dkeys r) -> exists x, In x (rows_in n l) /\ In c (fst x).
    Proof.
      intros I Tr J C. destruct (file_rows n t I Tr) as [Ne Et]. unfold Diff.rows_of in J. rewrite Et in J. apply in_map_iff in J as (x & Q & J). injection Q as <- <-.
      rewrite row_keys in C by apply (file_given n x J). eauto.
    Qed.
    Lemma file_ready has live sel s : (forall n T x c, In T (tables_in l) -> tm_name T = n -> In x (rows_in n l) -> In c (fst x) -> has n c = true) ->
      (forall n T, In T (tables_in l) -> tm_name T = n -> rows_in n l <> [] -> match dget n live with
         | None => forall id, s n id = None
         | Some f => t_rows f = None /\ NoDup (dkeys (t_columns f)) /\ exists sl, sel n = Ok sl /\ selects sl (s n) (dkeys (t_columns f)) end) ->
      plan_ready has (db_tables b) live sel s.
    Proof.
      intros Hh Hl. constructor.
      - rewrite D. unfold dkeys. rewrite map_map. change (NoDup (map t_name ts)). rewrite (read_whole_names l _ _ W). apply Co.
      - intros n t I. symmetry. apply (file_at n t I).
      - intros n t I Tr. destruct (file_rows n t I Tr) as [Ne Et]. exists (map RoundRows.stored (rows_in n l)). destruct (stored_keyed n l Co Ok') as [K K']. split; [exact Et|]. split; [exact K|]. split; [exact K'|].
        intros id r c J C. destruct (file_cells n t id r c I Tr) as (x & Ix & Cx); [unfold Diff.rows_of; rewrite Et; exact J|exact C|]. destruct (file_at n t I) as (_ & T & IT & NT & _). apply (Hh n T x c); auto.
      - intros n t I Tr. destruct (file_rows n t I Tr) as [Ne _]. destruct (file_at n t I) as (_ & T & IT & NT & _). apply (Hl n T); auto.
    Qed.
    Lemma file_text n t : In (n, t) (db_tables b) -> t_tracking t = true -> from_file (Diff.rows_of t).
    Proof.
      intros I Tr id r c v J V. destruct (file_rows n t I Tr) as [Ne Et]. unfold Diff.rows_of in J. rewrite Et in J. apply in_map_iff in J as (x & Q & J). injection Q as <- <-. apply (row_text x c v V).
    Qed.
  End Files.

  (** A run with nothing to do. *)
  Lemma quiet_run w force config c names text rows srcs b live live' : reads_from w config srcs -> Forall read_out srcs -> file_database srcs = Ok b -> snd (db_errors b) = Ok [] ->
    driver_credentials (w_loads w) (w_file w) (w_cwd w) (Some config) = Ok c -> serves w c names text rows -> NoDup names -> Forall (fun s => read_out ("", s)) (map text names) ->
    live_database (map text names) = Ok live -> read_tracked rows (dvals (db_tables b)) (db_tables live) = Ok live' ->
    plan_tables false (db_tables b) (Some live') = Ok [] -> plan_rows (db_tables b) (Some live') = Ok [] ->
    exists qs, Forall reading qs
    /\ run_plan w force config = mkRun (Connect c :: map Query qs) [""] [] (Exited true)
    /\ run_apply w force config = mkRun (Connect c :: map Query qs +++ [Commit]) ["No changes required"] [] (Exited true).
  Proof.
    intros Rf Ro E Er C Sv N Lo Lv Rd Pl Pr. pose proof (reads_load w config srcs Rf) as L. rewrite E in L. pose proof (nothing_told w c _ _ _ Sv force config srcs Rf Ro C N Lo) as Nt. pose proof (build_nothing force b (db_tables live) live' rows Er Rd Pl Pr) as Bn.
    assert (Bd : exists qs, Forall reading qs /\ build w force config = (Connect c :: map Query qs, [], Ok [])).
    { unfold build, build_commands in *. rewrite L. destruct (db_errors b) as [b1 r]. cbn [snd] in Er. subst r. cbn [list_is_nil negb andb bind] in *.
      destruct (live_all w c _ _ _ Sv config (dvals (db_tables b1)) C N) as (qs & Rq & ->). exists qs. split; [exact Rq|]. rewrite Lv. cbn [rmap bind].
      destruct (read_tracked rows (dvals (db_tables b1)) (db_tables live)) as [lv|e]; cbn [snd] in Bn; [|discriminate Bn]. destruct (mygration false b1 (Some lv)) as [b2 [st|e]]; cbn [snd] in Bn; [|discriminate Bn]. rewrite Bn. reflexivity. }
    destruct Bd as (qs & Rq & Bd). exists qs. split; [exact Rq|]. unfold run_plan, run_apply. rewrite Bd, Nt. split; reflexivity.
  Qed.

  (** What is read from such a server. *)
  Lemma live_read quiet Ts : Forall plain_table Ts -> NoDup (map tm_name Ts) ->
    exists us live, Forall2 (fun t T => read_table t T false) us Ts /\ live_database (map (show_create quiet) Ts) = Ok live /\ db_tables live = entries us.
  Proof.
    intros P N. destruct (read_sources _ _ _ (shown_sources quiet Ts P)) as (us & A & B). exists us, (live_of us). split; [exact B|].
    split; [apply (read_server sole); [intros x t H; exact H|exact A|rewrite (read_names _ _ _ B); exact N]|]. change (db_tables (live_of us)) with (db_tables (files_of us)). apply entry_tables.
  Qed.

  (** What is read from the sources. *)
  Lemma stmt_keys st s T i : stmt_written st s -> st = StTable T -> In i (tm_keys T) -> ix_columns i <> [] /\ Forall (fun c => has_char bquote c = false) (ix_columns i).
  Proof.
    intros [T' y W _|] E I; [|discriminate]. injection E as ->. destruct W as [h w0 w1 w2 parts ss _ _ F _ K _ _ _ _ _ _]. rewrite <- K in I. unfold keys_in in I. apply in_concat in I as (q & Iq & I).
    apply in_map_iff in Iq as (p & <- & Ip). destruct p as [m|j|k]; try contradiction. destruct I as [->|[]].
    assert (H : exists x, part_written (PartKey i) x) by (clear -F Ip; induction F as [|p x l l' H F IH]; [destruct Ip|destruct Ip as [->|Ip]; eauto]).
    destruct H as (x & H). inversion H as [|? ? [w g sp lst E Ne Fi _]|]; subst. rewrite E. split; [destruct lst; [contradiction|discriminate]|].
    clear -Fi. induction Fi as [|a l [H _] F IH]; constructor; [apply clean_tickless, H|exact IH].
  Qed.
End Commands.

(** ** C86 *)

(** The column is there. *)
Definition there (s : server) (n c : string) : bool := existsb (String.eqb c) (map c_name (columns_of s n)).
Lemma reached_column {FO : FloatOracle} from to s n t c : reaches from to s -> wf_table t -> dget n to = Some t -> In c (dkeys (t_columns t)) -> there s n c = true.
Proof.
  intros R Wt G I. specialize (R n). rewrite G in R. unfold there, columns_of. apply existsb_exists. exists c. split; [|apply String.eqb_refl].
  apply dkeys_in in I as (k & I). pose proof (wf_cols_named _ Wt c k I) as Nm. apply in_dvals in I.
  destruct (dget n from) as [old|].
  - destruct R as (st & -> & M & _). destruct (matches_there _ _ _ _ M I) as (a & Ia & Q). apply in_map_iff. exists a. split; [|exact Ia]. rewrite <- Nm. apply Q.
  - rewrite R. cbn [st_cols stable_of]. apply in_map_iff. eauto.
Qed.

(** The tool converges.  Full statement: after the statements of a plan were executed, a second run has
    nothing to do.  False, see C11, C19 and C72.  Proved for the files of C75, for a server that shows
    its tables [Ts] as SHOW CREATE TABLE does and gives the rows that SELECT gives, and under the
    hypotheses of C10, C11 and C19: the statements printed run, on the structure and on the rows of the
    server, and whatever server then shows the tables [Ts'] that it holds, and the rows it holds, [plan]
    has nothing to print, [apply] says so, and nothing but the reading is sent. *)
Theorem C86_converges_partial : forall w (FO : FloatOracle) force config c srcs ls b quiet Ts text rows live s dflt,
  reads_from w config srcs -> file_database srcs = Ok b ->
  Forall2 (fun src l => source_holds l (snd src)) srcs ls -> consistent (concat ls) -> exit_status (run_check w config) = 0 ->
  (forall T, In T (tables_in (concat ls)) -> keys_distinct T
     /\ forall x cn, In x (rows_in (tm_name T) (concat ls)) -> In cn (fst x) -> In cn (map m_name (tm_columns T))) ->
  driver_credentials (w_loads w) (w_file w) (w_cwd w) (Some config) = Ok c ->
  serves w c (map tm_name Ts) text rows -> (forall T, In T Ts -> text (tm_name T) = show_create quiet T) -> Forall plain_table Ts -> NoDup (map tm_name Ts) ->
  live_database (map (show_create quiet) Ts) = Ok live ->
  plannable (db_tables live) (db_tables b) -> fk_columns_settled (db_tables live) (db_tables b) -> names_settled (db_tables live) (db_tables b) ->
  (forall T, In T Ts -> rows_in (tm_name T) (concat ls) <> [] -> (exists sel, rows (tm_name T) = Ok sel /\ selects sel (s (tm_name T)) (map m_name (tm_columns T)))
     /\ forall x cn, In x (rows_in (tm_name T) (concat ls)) -> In cn (fst x) -> In cn (map m_name (tm_columns T))) ->
  (forall n, ~ In n (map tm_name Ts) -> forall id, s n id = None) ->
  run_end (run_plan w force config) = Exited true ->
  exists ops s1 r1, run_out (run_plan w force config) = [join new_line (map op_str ops)]
  /\ exec_all ops (server_of (db_tables live)) = Some s1 /\ exec_rows (there s1) dflt ops s = Some r1
  /\ forall w' force' c' quiet' Ts' text' rows', reads_from w' config srcs ->
     driver_credentials (w_loads w') (w_file w') (w_cwd w') (Some config) = Ok c' ->
     serves w' c' (map tm_name Ts') text' rows' -> (forall T, In T Ts' -> text' (tm_name T) = show_create quiet' T) -> Forall plain_table Ts' -> NoDup (map tm_name Ts') ->
     shows (server_of (db_tables live)) s1 Ts' ->
     (forall T, In T Ts' -> rows_in (tm_name T) (concat ls) <> [] -> exists sel, rows' (tm_name T) = Ok sel /\ selects sel (r1 (tm_name T)) (map m_name (tm_columns T))) ->
     exists qs, Forall reading qs
     /\ run_plan w' force' config = mkRun (Connect c' :: map Query qs) [""] [] (Exited true)
     /\ run_apply w' force' config = mkRun (Connect c' :: map Query qs +++ [Commit]) ["No changes required"] [] (Exited true).
Proof.
  intros w FO force config c srcs ls b quiet Ts text rows live s dflt Rf E F Co Ck Kd C Sv Tx P N Lv Pl Fs Ns Rw Rn Ex.
  pose proof (reads_load w config srcs Rf) as L. rewrite E in L. pose proof (check_passes w FO config b L Ck) as Er.
  destruct (sources_database srcs ls F Co) as (ts & d & A & B). rewrite E in B. injection B as B.
  set (l := concat ls) in *. set (up := fun t => with_new t (rows_in (t_name t) l)) in *.
  assert (Db : db_tables b = map (fun t => (t_name t, t)) (map up ts)) by (rewrite B; apply entry_tables).
  pose proof (whole_tables l _ _ A) as W. fold up in W.
  assert (Ok' : Forall stmt_rows_ok l).
  { clear -F. unfold l. clear l. induction F as [|src l srcs ls H F IH]; [constructor|]. cbn [concat]. apply Forall_app. split; [|exact IH]. destruct H as (_ & st & St & _). apply (statements_rows_ok l st St). }
  assert (Ft : forall n t, In (n, t) (db_tables b) -> file_table t).
  { intros n t I. rewrite Db in I. apply in_map_iff in I as (u' & Q & I). injection Q as <- <-. apply in_map_iff in I as (u & <- & I). destruct (forall2_in _ _ _ _ A I) as (T & IT & R).
    exists T, u. split; [exact R|]. split; [unfold up; destruct (rows_in (t_name u) l); repeat split|]. split; [apply (Kd T IT)|].
    assert (G : exists st x, stmt_written st x /\ st = StTable T).
    { clear -F IT. unfold l in IT. clear l. induction F as [|src l srcs ls H F IH]; [destruct IT|]. cbn [concat] in IT. unfold tables_in in IT. rewrite map_app, concat_app in IT. apply in_app_iff in IT as [IT|IT]; [|apply IH, IT].
      destruct H as (_ & x & St & _). clear -St IT. induction St as [st x Wr|st x l r Wr St IH _].
      - destruct st as [T'|]; [|destruct IT]. destruct IT as [->|[]]. eauto.
      - cbn [map concat] in IT. apply in_app_iff in IT as [IT|IT]; [|apply IH, IT]. destruct st as [T'|]; [|destruct IT]. destruct IT as [->|[]]. eauto. }
    destruct G as (st & x & Wr & G). intros i Ii. apply (stmt_keys st x T i Wr G Ii). }
  destruct (live_read quiet Ts P N) as (us & live0 & Rl & Lv0 & Live). assert (live0 = live) by congruence. subst live0. clear Lv0.
  assert (Nl : NoDup (dkeys (db_tables live))) by (rewrite Live, entries_keys, (read_names _ _ _ Rl); exact N).
  assert (LiveRows : forall n T, In T (tables_in l) -> tm_name T = n -> rows_in n l <> [] -> match dget n (db_tables live) with
         | None => forall id, s n id = None
         | Some f => t_rows f = None /\ NoDup (dkeys (t_columns f)) /\ exists sl, rows n = Ok sl /\ selects sl (s n) (dkeys (t_columns f)) end).
  { intros n T IT NT Ne. destruct (dget n (db_tables live)) as [f|] eqn:G.
    - rewrite Live in G. apply dget_in in G. destruct (entries_at _ _ _ _ _ Rl G) as (T0 & I0 & N0 & R0). destruct (rd_rest _ _ _ R0) as (_ & Rr & _). split; [exact Rr|].
      rewrite (says_names f T0 (rd_says _ _ _ R0)). split; [apply (rd_sound _ _ _ R0)|]. subst n. rewrite <- N0 in *. apply (Rw T0 I0 Ne).
    - apply Rn. apply dget_none in G. rewrite Live, entries_keys, (read_names _ _ _ Rl) in G. exact G. }
  (* the first run *)
  assert (Tm : map text (map tm_name Ts) = map (show_create quiet) Ts) by (rewrite map_map; apply map_ext_in; exact Tx).
  pose proof (C84_plan_seen w FO force config c _ _ _ b L C Sv N) as Seen. rewrite Tm, Lv in Seen. cbn [rmap bind] in Seen.
  rewrite (nothing_told w c _ _ _ Sv force config srcs Rf (held_out srcs ls F) C N) in Seen by (rewrite Tm; apply shown_out, P). cbn [List.app] in Seen.
  destruct (snd (build_commands force b (Ok (db_tables live)) rows)) as [ops|e] eqn:Bc; [|destruct Seen as [_ Q]; rewrite Q in Ex; discriminate]. destruct Seen as [Out _].
  pose proof (file_ready ls b (map up ts) Co Ok' Db W (fun _ _ => true) (db_tables live) rows s (fun _ _ _ _ _ _ _ _ => eq_refl) LiveRows) as PR0.
  destruct (tracked_same _ _ _ _ _ PR0 Nl) as (live' & Rd & Sm & _ & _).
  destruct (build_planned force b (db_tables live) live' rows ops Er Rd Sm Bc) as (sops & sops' & rops & Ps & Eb & St & Pr & Eo).
  destruct (C10_plan_reaches_target_partial _ _ _ _ Pl Ps) as (s1 & X1 & Re & _).
  assert (Has : forall n T x cn, In T (tables_in l) -> tm_name T = n -> In x (rows_in n l) -> In cn (fst x) -> there s1 n cn = true).
  { intros n T x cn IT NT Ix Ic. pose proof (pl_to _ _ Pl) as Wt.
    assert (H : In n (map t_name (map up ts))) by (rewrite (read_whole_names l _ _ W); apply in_map_iff; eauto).
    apply in_map_iff in H as (t & Nt & It). assert (It' : In (n, t) (db_tables b)) by (rewrite Db; apply in_map_iff; exists t; rewrite Nt; auto).
    apply (reached_column (db_tables live) (db_tables b) s1 n t cn Re); [apply (wf_named _ Wt n), It'|apply (dget_iff _ _ _ (wf_names _ Wt)), It'|].
    destruct (file_at ls b (map up ts) Db W n t It') as (_ & T1 & IT1 & NT1 & R1). rewrite (says_names t T1 (rw_says _ _ _ R1)).
    assert (T1 = T) by (apply (same_named tm_name (tables_in l)); auto; [apply Co|congruence]). subst T1. subst n. apply (proj2 (Kd T IT) x cn Ix Ic). }
  pose proof (file_ready ls b (map up ts) Co Ok' Db W (there s1) (db_tables live) rows s Has LiveRows) as PR.
  destruct (tracked_same _ _ _ _ _ PR Nl) as (live'' & Rd' & _ & RR & Cl). assert (live'' = live') by congruence. subst live''.
  destruct (C19_rows_reached_partial (there s1) dflt (db_tables b) live' s RR) as (rops' & r1 & Pr' & Xr & Y1 & _).
  { apply Cl. intros n t f id r cn I Tr G J Ic. destruct (file_cells ls b (map up ts) Ok' Db W n t id r cn I Tr J Ic) as (x & Ix & Cx).
    destruct (file_rows ls b (map up ts) Db W n t I Tr) as [Ne _]. rewrite Live in G. apply dget_in in G. destruct (entries_at _ _ _ _ _ Rl G) as (T0 & I0 & N0 & R0).
    rewrite (says_names f T0 (rd_says _ _ _ R0)). rewrite <- N0 in *. apply (proj2 (Rw T0 I0 Ne) x cn Ix Cx). }
  assert (rops' = rops) by congruence. subst rops'.
  exists ops, s1, r1. split; [exact Out|]. subst ops. split; [rewrite exec_bracket by apply (plan_rows_ops _ _ _ Pr); rewrite <- (exec_bares sops'), Eb, exec_bares; exact X1|].
  split; [rewrite exec_rows_bracket by exact St; exact Xr|].
  (* the second run *)
  intros w' force' c' quiet' Ts' text' rows' Rf' C' Sv' Tx' P' N' Sw Rw'.
  destruct (live_read quiet' Ts' P' N') as (us' & mid & Rm & Lm & Mid).
  assert (Nm : NoDup (dkeys (db_tables mid))) by (rewrite Mid, entries_keys, (read_names _ _ _ Rm); exact N').
  assert (Tm' : map text' (map tm_name Ts') = map (show_create quiet') Ts') by (rewrite map_map; apply map_ext_in; exact Tx').
  assert (PR' : plan_ready (fun _ _ => true) (db_tables b) (db_tables mid) rows' r1).
  { apply (file_ready ls b (map up ts) Co Ok' Db W); [reflexivity|]. intros n T IT NT Ne. destruct (dget n (db_tables mid)) as [f|] eqn:G.
    - rewrite Mid in G. apply dget_in in G. destruct (entries_at _ _ _ _ _ Rm G) as (T0 & I0 & N0 & R0). destruct (rd_rest _ _ _ R0) as (_ & Rr & _). split; [exact Rr|].
      rewrite (says_names f T0 (rd_says _ _ _ R0)). split; [apply (rd_sound _ _ _ R0)|]. subst n. rewrite <- N0 in *. apply (Rw' T0 I0 Ne).
    - exfalso. apply dget_none in G. rewrite Mid, entries_keys, (read_names _ _ _ Rm) in G. apply G, (proj1 Sw). specialize (Re n).
      assert (H : In n (dkeys (db_tables b))).
      { rewrite Db. unfold dkeys. rewrite map_map. change (In n (map t_name (map up ts))). rewrite (read_whole_names l _ _ W). apply in_map_iff. eauto. }
      destruct (dget_some_key n _ H) as (t & Gt). rewrite Gt in Re. destruct (dget n (db_tables live)) as [old|]; [destruct Re as (st & -> & _)|rewrite Re]; discriminate. }
  destruct (tracked_same _ _ _ _ _ PR' Nm) as (mid' & Rdm & Smm & RRm & _).
  apply (quiet_run w' force' config c' (map tm_name Ts') text' rows' srcs b mid mid' Rf' (held_out srcs ls F) E Er C' Sv' N'); [rewrite Tm'; apply shown_out, P'|rewrite Tm'; exact Lm|exact Rdm| |].
  - rewrite (plan_same _ _ _ Smm), Mid. rewrite Live in *. apply (again_plan us Ts (db_tables b) sops s1 us' Ts' Rl Ft Pl Fs Ns Ps X1 Rm N' P' Sw).
  - apply (rows_quiet _ _ _ _ RRm). intros n t I Tr. split; [apply (file_text ls b (map up ts) Db W n t I Tr)|]. destruct (Y1 n t I Tr) as [Z1 Z2]. split; [exact Z1|].
    intros id q sr cn v J Es V. apply (proj1 (Z2 id q sr J Es) cn v V).
Qed.
Print Assumptions C86_converges_partial.

(** The files of C75; the server has a narrower column, one more column, one index and one table less,
    one table more, and other rows. *)
Definition users_before : tmeaning :=
  mkTMeaning "users"
    [mkMeaning "id" KNumeric "INT" (OneNumber "10") true false None true "" ""; mkMeaning "name" KString "VARCHAR" (OneNumber "100") false false (Some "x") false "" "";
     mkMeaning "about" KString "TEXT" NoLength false true None false "" ""; mkMeaning "age" KNumeric "INT" (OneNumber "10") false true None false "" ""]
    [primary_key ["id"]] [] [option_of "ENGINE" "InnoDB"].
Definition gone_meaning : tmeaning := mkTMeaning "gone" [mkMeaning "id" KNumeric "INT" (OneNumber "10") false true None false "" ""] [] [] [].
Definition before_rows (n : string) : list row :=
  if String.eqb n "users" then
    [[("id", RStr "1"); ("name", RStr "Ann"); ("about", RNone); ("age", RStr "7")]; [("id", RStr "9"); ("name", RStr "x"); ("about", RNone); ("age", RNone)]] else [].
Definition before_text (n : string) : string := show_create (fun _ => (true, true)) (if String.eqb n "users" then users_before else gone_meaning).
Definition before_shop : world :=
  site_world "/srv/app/sql" ["users.sql"; "more.sql"] [("/srv/app/sql/users.sql", text_a); ("/srv/app/sql/more.sql", text_b)]
    [("SHOW TABLES", listing ["users"; "gone"]); definition "users" (before_text "users"); definition "gone" (before_text "gone"); ("SELECT * FROM users", Answer (before_rows "users"))].
(** Afterwards. *)
Definition after_rows (n : string) : list row :=
  if String.eqb n "users" then
    [[("id", RStr "1"); ("name", RStr "Ann, B."); ("about", RNone)]; [("id", RStr "2"); ("name", RStr "x (y)"); ("about", RNone)]; [("id", RStr "3"); ("name", RStr "c"); ("about", RNone)]]
  else if String.eqb n "logs" then [[("id", RStr "7")]] else [].
(** The column of the new table is shown with a width. *)
Definition logs_after : tmeaning :=
  mkTMeaning "logs" [mkMeaning "id" KNumeric "INT" (OneNumber "10") true false None true "" ""] [primary_key ["id"]] [] [].
Definition after_text (n : string) : string := show_create (fun _ => (true, true)) (if String.eqb n "users" then users_meaning (OneNumber "10") else logs_after).
Definition after_shop : world :=
  site_world "/srv/app/sql" ["users.sql"; "more.sql"] [("/srv/app/sql/users.sql", text_a); ("/srv/app/sql/more.sql", text_b)]
    [("SHOW TABLES", listing ["logs"; "users"]); definition "users" (after_text "users"); definition "logs" (after_text "logs");
     ("SELECT * FROM users", Answer (after_rows "users")); ("SELECT * FROM logs", Answer (after_rows "logs"))].
Definition first_plan : list string :=
  ["SET FOREIGN_KEY_CHECKS=0;"; "CREATE TABLE `logs` (`id` INT UNSIGNED NOT NULL AUTO_INCREMENT," ++ nl ++ "PRIMARY KEY (`id`));";
   "ALTER TABLE `users` CHANGE `name` `name` VARCHAR(255) NOT NULL DEFAULT 'x', DROP age, ADD UNIQUE KEY `name_ind` (`name`);"; "DROP TABLE gone;";
   "INSERT INTO `users` (`id`, `name`) VALUES ('2', 'x (y)');"; "INSERT INTO `users` (`id`, `name`, `about`) VALUES ('3', 'c', NULL);"; "DELETE FROM `users` WHERE id='9';";
   "UPDATE `users` SET `name`='Ann, B.' WHERE id='1';"; "INSERT INTO `logs` (`id`) VALUES ('7');"; "SET FOREIGN_KEY_CHECKS=1;"].
Example ex_C86_runs : run_plan before_shop false "mygrate.conf" = mkRun (Connect site_creds :: map Query (reading_statements ["users"; "gone"] ["users"])) [join nl first_plan] [] (Exited true)
  /\ run_plan after_shop false "mygrate.conf" = mkRun (Connect site_creds :: map Query (reading_statements ["logs"; "users"] ["users"; "logs"])) [""] [] (Exited true).
Proof. split; [by_vm|by_vm]. Qed.

Definition file_srcs : list (string * string) := [("/srv/app/sql/users.sql", text_a); ("/srv/app/sql/more.sql", text_b)].
Definition shop_files : database := Eval vm_compute in match file_database file_srcs with Ok b => b | Raise _ => empty_database end.
Definition shop_live : database := Eval vm_compute in match live_database (map (show_create (fun _ => (true, true))) [users_before; gone_meaning]) with Ok b => b | Raise _ => empty_database end.
Definition shop_ops : list op := Eval vm_compute in match snd (build_commands false shop_files (Ok (db_tables shop_live)) (fun n => Ok (before_rows n))) with Ok l => l | Raise _ => [] end.
Definition shop_users : stable := Eval vm_compute in match exec_all shop_ops (server_of (db_tables shop_live)) with Some s => match s "users" with Some st => st | None => nothing_held end | None => nothing_held end.
Definition shop_logs : stable := Eval vm_compute in match exec_all shop_ops (server_of (db_tables shop_live)) with Some s => match s "logs" with Some st => st | None => nothing_held end | None => nothing_held end.
Definition shop_after : server := supd (supd (supd (server_of (db_tables shop_live)) "logs" (Some shop_logs)) "users" (Some shop_users)) "gone" None.
Lemma shop_exec : exec_all shop_ops (server_of (db_tables shop_live)) = Some shop_after.
Proof. reflexivity. Qed.

(** The rows, as functions. *)
Definition table_rows (l : list row) : srows := fun id =>
  match find (fun r => match dget "id" r with Some v => String.eqb (rval_str v) id | None => false end) l with
  | Some r => Some (fun c => match dget c r with Some v => sql_of v | None => None end)
  | None => None
  end.
Definition null_row : srow := fun _ => None.
Definition shop_rows : rserver := fun n => table_rows (before_rows n).
Definition row_one : srow := fun c => match dget c [("id", RStr "1"); ("name", RStr "Ann"); ("about", RNone); ("age", RStr "7")] with Some v => sql_of v | None => None end.
Definition shop_rows_after : rserver :=
  put_row (put_row (put_row (put_row (put_row shop_rows "users" "2" (Some (SpecRows.written [("id", RStr "2"); ("name", RStr "x (y)")] null_row)))
    "users" "3" (Some (SpecRows.written [("id", RStr "3"); ("name", RStr "c"); ("about", RNone)] null_row))) "users" "9" None)
    "users" "1" (Some (SpecRows.written [("name", RStr "Ann, B.")] row_one))) "logs" "7" (Some (SpecRows.written [("id", RStr "7")] null_row)).
Lemma shop_exec_rows : exec_rows (there shop_after) (fun _ => null_row) shop_ops shop_rows = Some shop_rows_after.
Proof. reflexivity. Qed.

Ltac cell c E := intros c ? E; apply dget_in in E; cbn in E; repeat destruct E as [E|E]; try contradiction; injection E as <- <-; reflexivity.
Lemma before_selects : selects (before_rows "users") (shop_rows "users") ["id"; "name"; "about"; "age"].
Proof.
  split.
  - intros r I. cbn in I. repeat destruct I as [<-|I]; try contradiction; eexists _, _; (split; [reflexivity|]); (split; [discriminate|]); (split; [discriminate|]); (split; [reflexivity|]); split; [cell c E| |cell c E|]; intros c I; exact I.
  - intros id sr E. unfold shop_rows, table_rows in E. match type of E with match ?x with _ => _ end = _ => destruct x as [r|] eqn:F; [|discriminate] end. apply find_some in F as [F1 F2].
    destruct (dget "id" r) as [v|] eqn:G; [|discriminate]. apply String.eqb_eq in F2. exists r, v. auto.
Qed.
Lemma after_selects_users : selects (after_rows "users") (shop_rows_after "users") ["id"; "name"; "about"].
Proof.
  split.
  - intros r I. cbn in I. repeat destruct I as [<-|I]; try contradiction; eexists _, _; (split; [reflexivity|]); (split; [discriminate|]); (split; [discriminate|]); (split; [reflexivity|]); split;
      [cell c E| |cell c E| |cell c E|]; intros c I; exact I.
  - intros id sr E. unfold shop_rows_after, put_row in E. cbn [String.eqb Ascii.eqb Bool.eqb andb] in E.
    destruct (String.eqb_spec id "1") as [->|N1]; [eexists _, _; split; [left; reflexivity|split; reflexivity]|].
    destruct (String.eqb_spec id "9") as [->|N9]; [discriminate E|].
    destruct (String.eqb_spec id "3") as [->|N3]; [eexists _, _; split; [right; right; left; reflexivity|split; reflexivity]|].
    destruct (String.eqb_spec id "2") as [->|N2]; [eexists _, _; split; [right; left; reflexivity|split; reflexivity]|].
    exfalso. unfold shop_rows, table_rows in E. match type of E with match ?x with _ => _ end = _ => destruct x as [r|] eqn:F; [|discriminate] end. apply find_some in F as [F1 F2].
    cbn in F1. destruct F1 as [<-|[<-|[]]]; [change (String.eqb "1" id = true) in F2|change (String.eqb "9" id = true) in F2]; apply String.eqb_eq in F2; subst; contradiction.
Qed.
Lemma after_selects_logs : selects (after_rows "logs") (shop_rows_after "logs") ["id"].
Proof.
  split.
  - intros r I. cbn in I. repeat destruct I as [<-|I]; try contradiction; eexists _, _; (split; [reflexivity|]); (split; [discriminate|]); (split; [discriminate|]); (split; [reflexivity|]); split; [cell c E|]; intros c I; exact I.
  - intros id sr E. unfold shop_rows_after, put_row in E. cbn [String.eqb Ascii.eqb Bool.eqb andb] in E.
    destruct (String.eqb_spec id "7") as [->|N1]; [eexists _, _; split; [left; reflexivity|split; reflexivity]|discriminate E].
Qed.

Lemma shop_shows : shows (server_of (db_tables shop_live)) shop_after [logs_after; users_meaning (OneNumber "10")].
Proof.
  assert (Fk : forall m st, shop_after m = Some st -> st_fks st = []).
  { intros m st. unfold shop_after, supd. destruct (String.eqb m "gone") eqn:Eg; [discriminate|]. destruct (String.eqb m "users") eqn:Eu; [intros [= <-]; reflexivity|]. destruct (String.eqb m "logs"); [intros [= <-]; reflexivity|].
    unfold server_of. replace (dget m (db_tables shop_live)) with (@None table); [discriminate|]. cbn. rewrite Eg, Eu. reflexivity. }
  assert (Use : forall tn cn, ~ in_use shop_after tn cn) by (intros tn cn (m & st & k & E & I & _); rewrite (Fk m st E) in I; destruct I).
  split.
  - intros n. unfold shop_after, supd. destruct (String.eqb n "gone") eqn:Eg; [intros H; exfalso; apply H; reflexivity|]. destruct (String.eqb_spec n "users") as [->|Eu]; [cbn; tauto|]. destruct (String.eqb_spec n "logs") as [->|El]; [cbn; tauto|].
    intros H. exfalso. apply H. unfold server_of. replace (dget n (db_tables shop_live)) with (@None table); [reflexivity|]. cbn. rewrite Eg. apply String.eqb_neq in Eu. rewrite Eu. reflexivity.
  - intros T [<-|[<-|[]]]; (eexists; split; [reflexivity|]); constructor.
    + apply Forall2_cons; [|apply Forall2_nil]. apply (shown_otherwise _ _ _ _ (mkMeaning "id" KNumeric "INT" NoLength true false None true "" "")); [intros []|constructor; first [reflexivity|apply has_none; reflexivity|apply has_one; [reflexivity|reflexivity|apply digitsb; reflexivity]]| |intros U; exfalso; revert U; apply Use].
      apply reported_as; try reflexivity; try (left; reflexivity); [right; cbn; tauto|left; split; reflexivity].
    + exists [(primary_key ["id"], primary_key ["id"])]. split; [reflexivity|split; [reflexivity|]]. intros a b [[= <- <-]|[]]. repeat split.
    + exists []. split; [reflexivity|split; [reflexivity|]]. intros a b [].
    + repeat (apply Forall2_cons || apply Forall2_nil); apply shown_exactly; constructor; first [reflexivity|apply has_none; reflexivity|apply has_one; [reflexivity|reflexivity|apply digitsb; reflexivity]].
    + exists [(primary_key ["id"], primary_key ["id"]); (unique_key "name_ind" ["name"], unique_key "name_ind" ["name"])]. split; [reflexivity|split; [reflexivity|]].
      intros a b [[= <- <-]|[[= <- <-]|[]]]; repeat split.
    + exists []. split; [reflexivity|split; [reflexivity|]]. intros a b [].
Qed.

Lemma before_plain : Forall plain_table [users_before; gone_meaning].
Proof.
  plain_all.
  - constructor; [constructor; try (cbn; lia); repeat constructor; cbn; intuition discriminate|apply clean_nameb; reflexivity| | |constructor|].
    + plain_all; plain_mcol.
    + plain_all. constructor; [split; [discriminate|plain_all; apply clean_nameb; reflexivity]|reflexivity].
    + apply Forall_cons; [|apply Forall_nil]. destruct (ex_readable_option "ENGINE" "InnoDB" ["ENGINE"]) as [P _]; try reflexivity; try discriminate. exact P.
  - constructor; [constructor; try (cbn; lia); repeat constructor; cbn; intuition discriminate|apply clean_nameb; reflexivity| |constructor|constructor|constructor]. plain_all; plain_mcol.
Qed.
Lemma after_plain : Forall plain_table [logs_after; users_meaning (OneNumber "10")].
Proof.
  plain_all; [|apply users_plain_table; right; reflexivity].
  constructor; [constructor; try (cbn; lia); repeat constructor; cbn; intuition discriminate|apply clean_nameb; reflexivity| | |constructor|constructor].
  - plain_all; plain_mcol.
  - plain_all. constructor; [split; [discriminate|plain_all; apply clean_nameb; reflexivity]|reflexivity].
Qed.
Example ex_C86 : let ls := [source_a; source_b] in let Ts := [users_before; gone_meaning] in let Ts' := [logs_after; users_meaning (OneNumber "10")] in
  (* the files *)
  reads_from before_shop "mygrate.conf" file_srcs /\ file_database file_srcs = Ok shop_files
  /\ Forall2 (fun src l => source_holds l (snd src)) file_srcs ls /\ consistent (concat ls) /\ exit_status (run_check before_shop "mygrate.conf") = 0
  /\ (forall T, In T (tables_in (concat ls)) -> keys_distinct T
     /\ forall x cn, In x (rows_in (tm_name T) (concat ls)) -> In cn (fst x) -> In cn (map m_name (tm_columns T)))
  (* the server before *)
  /\ driver_credentials (w_loads before_shop) (w_file before_shop) (w_cwd before_shop) (Some "mygrate.conf") = Ok site_creds
  /\ serves before_shop site_creds (map tm_name Ts) before_text (fun n => Ok (before_rows n))
  /\ (forall T, In T Ts -> before_text (tm_name T) = show_create (fun _ => (true, true)) T) /\ Forall plain_table Ts /\ NoDup (map tm_name Ts)
  /\ live_database (map (show_create (fun _ => (true, true))) Ts) = Ok shop_live
  /\ plannable (db_tables shop_live) (db_tables shop_files) /\ fk_columns_settled (db_tables shop_live) (db_tables shop_files) /\ names_settled (db_tables shop_live) (db_tables shop_files)
  /\ (forall T, In T Ts -> rows_in (tm_name T) (concat ls) <> [] -> (exists sel, Ok (before_rows (tm_name T)) = Ok sel /\ selects sel (shop_rows (tm_name T)) (map m_name (tm_columns T)))
     /\ forall x cn, In x (rows_in (tm_name T) (concat ls)) -> In cn (fst x) -> In cn (map m_name (tm_columns T)))
  /\ (forall n, ~ In n (map tm_name Ts) -> forall id, shop_rows n id = None)
  /\ run_end (run_plan before_shop false "mygrate.conf") = Exited true
  (* the server after *)
  /\ reads_from after_shop "mygrate.conf" file_srcs
  /\ driver_credentials (w_loads after_shop) (w_file after_shop) (w_cwd after_shop) (Some "mygrate.conf") = Ok site_creds
  /\ serves after_shop site_creds (map tm_name Ts') after_text (fun n => Ok (after_rows n))
  /\ (forall T, In T Ts' -> after_text (tm_name T) = show_create (fun _ => (true, true)) T) /\ Forall plain_table Ts' /\ NoDup (map tm_name Ts')
  /\ shows (server_of (db_tables shop_live)) shop_after Ts'
  /\ (forall T, In T Ts' -> rows_in (tm_name T) (concat ls) <> [] -> exists sel, Ok (after_rows (tm_name T)) = Ok sel /\ selects sel (shop_rows_after (tm_name T)) (map m_name (tm_columns T))).
Proof.
  intros ls Ts Ts'.
  split; [exists "/srv/app/sql"; split; vm_compute; reflexivity|]. split; [vm_compute; reflexivity|]. split; [repeat (apply Forall2_cons || apply Forall2_nil); [apply source_a_holds|apply source_b_holds]|]. split; [apply ex_C75|].
  split; [vm_compute; reflexivity|]. split; [|split; [vm_compute; reflexivity|]].
  { intros T [<-|[<-|[]]]; (split; [repeat constructor; cbn; intuition discriminate|]); intros x cn I J; cbn in I; repeat destruct I as [<-|I]; try contradiction; cbn in J |- *; tauto. }
  split; [|split; [|split; [apply before_plain|]]].
  { constructor; [reflexivity| | |].
    - intros qs _. eexists. split; reflexivity.
    - intros qs n _ [<-|[<-|[]]]; eexists _, _, _; repeat split.
    - intros qs n _. unfold before_rows. destruct (String.eqb_spec n "users") as [->|N]; [reflexivity|].
      cbn [w_server before_shop site_world]. unfold answers. replace (dget ("SELECT * FROM " ++ n) _) with (@None answer); [reflexivity|]. cbn. destruct (String.eqb_spec n "users"); [contradiction|reflexivity]. }
  { intros T [<-|[<-|[]]]; reflexivity. }
  split; [repeat constructor; cbn; intuition discriminate|]. split; [vm_compute; reflexivity|]. split; [apply plannableb_ok; vm_compute; reflexivity|].
  split; [|split; [|split; [|split; [|split; [vm_compute; reflexivity|]]]]].
  { intros n s t cn a b0 _ _ _ _ _ _ m mt k I J; exfalso; cbn in I; repeat destruct I as [I|I]; try contradiction; injection I as <- <-; destruct J. }
  { intros n s t I _ x a y b0 _ _ _ _ _ _ J. exfalso. cbn in I. repeat destruct I as [I|I]; try contradiction; injection I as <- <-; destruct J as [J|J]; destruct J. }
  { intros T [<-|[<-|[]]] Ne; [|exfalso; apply Ne; reflexivity]. split; [eexists; split; [reflexivity|apply before_selects]|].
    intros x cn I J. cbn in I. repeat destruct I as [<-|I]; try contradiction; cbn in J |- *; tauto. }
  { intros n H id. unfold shop_rows, before_rows. destruct (String.eqb_spec n "users") as [->|]; [exfalso; apply H; left; reflexivity|reflexivity]. }
  split; [exists "/srv/app/sql"; split; vm_compute; reflexivity|]. split; [vm_compute; reflexivity|]. split; [|split; [|split; [apply after_plain|split; [|split; [apply shop_shows|]]]]].
  { constructor; [reflexivity| | |].
    - intros qs _. eexists. split; reflexivity.
    - intros qs n _ [<-|[<-|[]]]; eexists _, _, _; repeat split.
    - intros qs n _. unfold after_rows. destruct (String.eqb_spec n "users") as [->|N]; [reflexivity|]. destruct (String.eqb_spec n "logs") as [->|N']; [reflexivity|].
      cbn [w_server after_shop site_world]. unfold answers. replace (dget ("SELECT * FROM " ++ n) _) with (@None answer); [reflexivity|]. cbn.
      destruct (String.eqb_spec n "users"); [contradiction|]. destruct (String.eqb_spec n "logs"); [contradiction|reflexivity]. }
  { intros T [<-|[<-|[]]]; reflexivity. }
  { repeat constructor; cbn; intuition discriminate. }
  intros T [<-|[<-|[]]] _; eexists; (split; [reflexivity|]); [apply after_selects_logs|apply after_selects_users].
Qed.
