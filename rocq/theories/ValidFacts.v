(** Lemmas about validation. *)
From Verif Require Export SpecValid Facts StrFacts.

(** ** Tables that differ only in the remembered set *)

Definition sbi (t t' : table) : Prop :=
  t' = with_indexes t (t_indexes t) (t_primary t) (t_indexed t').

Lemma sbi_refl t : sbi t t.
Proof. destruct t; reflexivity. Qed.
Lemma sbi_trans a b c : sbi a b -> sbi b c -> sbi a c.
Proof. unfold sbi. intros -> ->. reflexivity. Qed.
Lemma sbi_sym a b : sbi a b -> sbi b a.
Proof. unfold sbi. intros ->. destruct a; reflexivity. Qed.
Lemma sbi_ask t n : sbi t (fst (column_is_indexed t n)).
Proof.
  unfold column_is_indexed. destruct (negb _); [apply sbi_refl|].
  destruct (t_indexed t); [apply sbi_refl|]. destruct (mapM _ _); [reflexivity|apply sbi_refl].
Qed.
Lemma sbi_fields t t' : sbi t t' ->
  t_name t' = t_name t /\ t_columns t' = t_columns t /\ t_indexes t' = t_indexes t
  /\ t_constraints t' = t_constraints t.
Proof. unfold sbi. intros ->. simpl. auto. Qed.

Lemma first_col_ok i c : first_col i = Ok c <-> exists r, ix_columns i = c :: r.
Proof.
  unfold first_col. destruct (ix_columns i) as [|x l]; split.
  - discriminate.
  - intros (r & H). discriminate.
  - intros [= ->]. eauto.
  - intros (r & [= -> _]). reflexivity.
Qed.

Lemma firsts_ok t : (forall n i, In (n, i) (t_indexes t) -> ix_columns i <> []) ->
  exists l, mapM first_col (dvals (t_indexes t)) = Ok l /\ forall c, In c l <-> leads t c.
Proof.
  intros K. unfold leads. induction (t_indexes t) as [|[n i] d IH]; simpl.
  - exists []. split; [reflexivity|]. intros c; split; [intros []|]. intros (n & i & r & [] & _).
  - destruct IH as (l & E & H); [intros; eapply K; right; eauto|].
    destruct (ix_columns i) as [|x r] eqn:Ei; [exfalso; apply (K n i); [left; reflexivity|assumption]|].
    assert (Ef : first_col i = Ok x) by (apply first_col_ok; eauto).
    exists (x :: l). rewrite Ef. simpl. rewrite E. split; [reflexivity|].
    intros c. simpl. rewrite H. split.
    + intros [->|(m & j & q & Hj & Ej)]; [exists n, i, r|exists m, j, q]; auto.
    + intros (m & j & q & [Hj|Hj] & Ej); [inversion Hj; subst; left; congruence|right; eauto].
Qed.

Lemma kept_ask t n : kept t ->
  exists b, snd (column_is_indexed t n) = Ok b
    /\ (b = true <-> In n (dkeys (t_columns t)) /\ leads t n)
    /\ kept (fst (column_is_indexed t n)).
Proof.
  intros [K1 K2 K3]. unfold column_is_indexed.
  destruct (dmem n (t_columns t)) eqn:Em; simpl.
  - apply dmem_iff in Em. destruct (t_indexed t) as [s|] eqn:Es; simpl.
    + exists (smem n s). split; [reflexivity|]. split; [|constructor; auto; intros s' E; apply K3; congruence].
      rewrite smem_iff, (K3 s eq_refl). tauto.
    + destruct (firsts_ok t K2) as (l & E & H). rewrite E. simpl.
      exists (smem n l). split; [reflexivity|]. rewrite smem_iff, H. split; [tauto|].
      constructor; simpl; auto. intros s [= <-] c. apply H.
  - exists false. split; [reflexivity|]. apply dmem_false in Em. split; [intuition discriminate|].
    constructor; auto.
Qed.

Lemma kept_same_answer t t' n : kept t -> kept t' -> sbi t t' ->
  snd (column_is_indexed t n) = snd (column_is_indexed t' n).
Proof.
  intros K K' S. destruct (kept_ask t n K) as (b & E & H & _). destruct (kept_ask t' n K') as (b' & E' & H' & _).
  rewrite E, E'. f_equal. destruct (sbi_fields _ _ S) as (_ & C & I & _).
  assert (b = true <-> b' = true); [|destruct b, b'; intuition congruence].
  rewrite H, H'. unfold leads. rewrite C, I. tauto.
Qed.

(** ** One foreign key *)

Lemma opt_eqb_eq {A} (eqb : A -> A -> bool) (H : forall a b, eqb a b = true <-> a = b) x y :
  opt_eqb eqb x y = true <-> x = y.
Proof. destruct x, y; simpl; try (split; congruence). rewrite H. split; congruence. Qed.
Lemma ostr_eqb_eq x y : ostr_eqb x y = true <-> x = y.
Proof. apply opt_eqb_eq, String.eqb_eq. Qed.
Lemma length_eqb_eq x y : length_eqb x y = true <-> x = y.
Proof.
  destruct x, y; simpl; try (split; congruence).
  - rewrite String.eqb_eq. split; congruence.
  - rewrite Z.eqb_eq. split; congruence.
  - rewrite (list_eqb_eq _ String.eqb_eq). split; congruence.
Qed.
Lemma tru_ob_iff o : tru_ob o = true <-> o = Some true.
Proof. destruct o as [[|]|]; simpl; split; congruence. Qed.

Lemma first_some_none {A} (x y : option A) : first_some x y = None <-> x = None /\ y = None.
Proof. destruct x; simpl; split; intuition congruence. Qed.

Lemma attr_mismatch_none k t ft c fc : attr_mismatch k t ft c fc = None <->
  c_type c = c_type fc /\ c_length c = c_length fc /\ c_charset c = c_charset fc /\ c_collate c = c_collate fc.
Proof.
  unfold attr_mismatch. rewrite <- (length_eqb_eq (c_length c)), <- (ostr_eqb_eq (c_charset c)),
    <- (ostr_eqb_eq (c_collate c)), <- String.eqb_eq.
  destruct (String.eqb _ _); simpl; [|split; [discriminate|intuition discriminate]].
  destruct (length_eqb _ _); simpl; [|split; [discriminate|intuition discriminate]].
  destruct (ostr_eqb (c_charset c) _); simpl; [|split; [discriminate|intuition discriminate]].
  destruct (ostr_eqb (c_collate c) _); simpl; [|split; [discriminate|intuition discriminate]].
  tauto.
Qed.
Lemma unsigned_mismatch_none k t ft c fc : unsigned_mismatch k t ft c fc = None <->
  (c_unsigned c = Some true <-> c_unsigned fc = Some true).
Proof.
  unfold unsigned_mismatch. rewrite <- !tru_ob_iff.
  destruct (tru_ob (c_unsigned c)), (tru_ob (c_unsigned fc)); simpl; split; try discriminate; intuition discriminate.
Qed.
Lemma null_mismatch_none k t c : null_mismatch k t c = None <->
  (k_on_delete k = "SET NULL" \/ k_on_update k = "SET NULL" -> c_null c = true).
Proof.
  unfold null_mismatch. rewrite <- !String.eqb_eq.
  destruct (String.eqb (k_on_delete k) _), (String.eqb (k_on_update k) _), (c_null c); simpl; split; try discriminate; intuition discriminate.
Qed.

Lemma constraint_error_iff ts t k : kept t -> (forall ft, dget (k_ftable k) ts = Some ft -> kept ft) ->
  exists e, constraint_error ts t k = Ok e /\ (e = None <-> exists ft c fc, fk_satisfied ts t k ft c fc).
Proof.
  intros K KF. unfold constraint_error.
  destruct (dget (k_ftable k) ts) as [ft|] eqn:Ef.
  2:{ eexists; split; [reflexivity|]. split; [discriminate|]. intros (ft & c & fc & H). destruct H. congruence. }
  specialize (KF ft eq_refl).
  destruct (dget (k_fcolumn k) (t_columns ft)) as [fc|] eqn:Efc.
  2:{ eexists; split; [reflexivity|]. split; [discriminate|]. intros (ft' & c & fc & H). destruct H. congruence. }
  destruct (dget (k_column k) (t_columns t)) as [c|] eqn:Ec.
  2:{ eexists; split; [reflexivity|]. split; [discriminate|]. intros (ft' & c & fc' & H). destruct H. congruence. }
  assert (Nc : c_name c = k_column k) by (apply (kept_named _ K), dget_in, Ec).
  assert (Nf : c_name fc = k_fcolumn k) by (apply (kept_named _ KF), dget_in, Efc).
  assert (Mc : In (k_column k) (dkeys (t_columns t))) by (apply dget_in in Ec; eapply in_dkeys; eauto).
  assert (Mf : In (k_fcolumn k) (dkeys (t_columns ft))) by (apply dget_in in Efc; eapply in_dkeys; eauto).
  destruct (kept_ask t (c_name c) K) as (b & Eb & Hb & _). rewrite Eb. simpl.
  destruct b; simpl.
  2:{ eexists; split; [reflexivity|]. split; [discriminate|]. intros (ft' & c' & fc' & H). destruct H.
      assert (false = true); [|discriminate]. apply Hb. rewrite Nc. auto. }
  destruct Hb as [Hb _]. destruct (Hb eq_refl) as [_ L]. rewrite Nc in L.
  destruct (first_some _ _) eqn:Em.
  - eexists; split; [reflexivity|]. split; [discriminate|]. intros (ft' & c' & fc' & H). destruct H.
    assert (ft' = ft) by congruence. assert (c' = c) by congruence. subst.
    assert (fc' = fc) by congruence. subst.
    rewrite (proj2 (attr_mismatch_none k t ft c fc)) in Em by tauto. simpl in Em.
    rewrite (proj2 (unsigned_mismatch_none k t ft c fc)) in Em by assumption. simpl in Em.
    rewrite (proj2 (null_mismatch_none k t c)) in Em by assumption. discriminate.
  - apply first_some_none in Em as [E1 Em]. apply first_some_none in Em as [E2 E3].
    apply attr_mismatch_none in E1 as (A1 & A2 & A3 & A4). apply unsigned_mismatch_none in E2.
    rewrite null_mismatch_none in E3.
    destruct (kept_ask ft (c_name fc) KF) as (b & Eb' & Hb' & _). rewrite Eb'. simpl.
    destruct b; simpl; eexists; (split; [reflexivity|]).
    + split; [intros _|reflexivity]. exists ft, c, fc. destruct Hb' as [Hb' _]. destruct (Hb' eq_refl) as [_ L'].
      rewrite Nf in L'. constructor; auto.
    + split; [discriminate|]. intros (ft' & c' & fc' & H). destruct H.
      assert (ft' = ft) by congruence. subst. assert (fc' = fc) by congruence. subst.
      assert (false = true); [|discriminate]. apply Hb'. rewrite Nf. auto.
Qed.

(** ** The scan of all foreign keys *)

(** Table objects that agree except for remembered index sets. *)
Definition simo (o o' : tobj) : Prop :=
  to_seen o = to_seen o' /\ to_errs o = to_errs o' /\ sbi (to_table o) (to_table o').
Definition sim (d d' : dict string tobj) : Prop :=
  Forall2 (fun p q => fst p = fst q /\ simo (snd p) (snd q)) d d'.

Lemma simo_refl o : simo o o.
Proof. repeat split. apply sbi_refl. Qed.
Lemma sim_refl d : sim d d.
Proof. induction d; constructor; auto. split; [reflexivity|apply simo_refl]. Qed.
Lemma sim_trans a b c : sim a b -> sim b c -> sim a c.
Proof.
  intros H; revert c; induction H as [|x y a b [E (S1 & S2 & S3)] H IH]; intros c Hc; inversion Hc as [|? z ? ? [E' (T1 & T2 & T3)]]; subst; constructor.
  - split; [congruence|]. repeat split; try congruence. eapply sbi_trans; eauto.
  - apply IH; assumption.
Qed.
Lemma sim_get a b n : sim a b ->
  match dget n a, dget n b with
  | Some o, Some o' => simo o o'
  | None, None => True
  | _, _ => False
  end.
Proof.
  induction 1 as [|[x o] [y o'] a b [E S] H IH]; simpl; [exact I|]. simpl in E; subst y.
  destruct (String.eqb n x); [exact S|exact IH].
Qed.
Lemma sim_set d n o o' : dget n d = Some o -> simo o o' -> sim d (dset n o' d).
Proof.
  induction d as [|[x v] d IH]; simpl; [discriminate|].
  destruct (String.eqb_spec n x) as [->|Hn]; intros E S.
  - inversion E; subst. constructor; [split; [reflexivity|exact S]|apply sim_refl].
  - constructor; [split; [reflexivity|apply simo_refl]|apply IH; auto].
Qed.
Lemma sim_touch n c d : sim d (touch n c d).
Proof.
  unfold touch. destruct (dget n d) as [o|] eqn:E; [|apply sim_refl].
  apply (sim_set _ _ o); [exact E|]. repeat split. apply sbi_ask.
Qed.
Lemma sim_touch_fk d n k : sim d (touch_fk d n k).
Proof.
  unfold touch_fk. destruct (dget n d) as [o|]; [|apply sim_refl].
  destruct (dget (k_ftable k) d) as [fo|]; [|apply sim_refl].
  destruct (dget _ (t_columns (to_table fo))); [|apply sim_refl].
  destruct (dget _ (t_columns (to_table o))); [|apply sim_refl].
  destruct (snd _) as [[|]|]; try apply sim_touch.
  destruct (first_some _ _); [apply sim_touch|].
  eapply sim_trans; apply sim_touch.
Qed.
Lemma sim_scan l : forall names d, sim d (fst (scan_fks l names d)).
Proof.
  induction l as [|[tn [kn k]] l IH]; intros names d; simpl; [apply sim_refl|].
  destruct (dget tn d) as [o|]; [|apply sim_refl].
  destruct (constraint_error _ _ _); [|apply sim_touch_fk].
  destruct (match dget _ names with Some _ => _ | None => _ end) as [dup names'].
  specialize (IH names' (touch_fk d tn k)).
  destruct (scan_fks l names' (touch_fk d tn k)) as [d2 r]. simpl in *.
  eapply sim_trans; [apply sim_touch_fk|exact IH].
Qed.
Lemma sim_keys d d' : sim d d' -> dkeys d = dkeys d'.
Proof. induction 1 as [|x y a b [E _] H IH]; simpl; [reflexivity|]. unfold dkeys in *. congruence. Qed.

(** All tables of [d] satisfy [P]. *)
Definition all_tables (P : table -> Prop) (d : dict string tobj) : Prop :=
  forall n o, In (n, o) d -> P (to_table o).

Lemma all_tables_set P d n o : all_tables P d -> P (to_table o) -> all_tables P (dset n o d).
Proof.
  intros A H. induction d as [|[x v] d IH]; simpl; intros m u Hu.
  - destruct Hu as [[= <- <-]|[]]. exact H.
  - destruct (String.eqb n x); destruct Hu as [[= <- <-]|Hu].
    + exact H.
    + apply (A m u). right; exact Hu.
    + apply (A x v). left; reflexivity.
    + apply (IH (fun a b Hb => A a b (or_intror Hb)) m u Hu).
Qed.
Lemma kept_touch n c d : all_tables kept d -> all_tables kept (touch n c d).
Proof.
  intros A. unfold touch. destruct (dget n d) as [o|] eqn:E; [|exact A].
  apply all_tables_set; [exact A|]. simpl.
  destruct (kept_ask (to_table o) c (A n o (dget_in _ _ _ E))) as (b & _ & _ & K). exact K.
Qed.
Lemma kept_touch_fk d n k : all_tables kept d -> all_tables kept (touch_fk d n k).
Proof.
  intros A. unfold touch_fk. destruct (dget n d) as [o|]; [|exact A].
  destruct (dget (k_ftable k) d) as [fo|]; [|exact A].
  destruct (dget _ (t_columns (to_table fo))); [|exact A].
  destruct (dget _ (t_columns (to_table o))); [|exact A].
  destruct (snd _) as [[|]|]; try (apply kept_touch; exact A).
  destruct (first_some _ _); repeat apply kept_touch; exact A.
Qed.

Lemma dget_plain n d : dget n (plain_tables d) = option_map to_table (dget n d).
Proof. induction d as [|[x o] d IH]; simpl; [reflexivity|]. destruct (String.eqb n x); [reflexivity|exact IH]. Qed.

Lemma msg_same k t t' ft ft' c fc : sbi t t' -> sbi ft ft' ->
  attr_mismatch k t' ft' c fc = attr_mismatch k t ft c fc
  /\ unsigned_mismatch k t' ft' c fc = unsigned_mismatch k t ft c fc
  /\ null_mismatch k t' c = null_mismatch k t c.
Proof. unfold sbi. intros -> ->. repeat split. Qed.

Lemma constraint_error_sim d d' t t' k :
  sim d d' -> all_tables kept d -> all_tables kept d' -> kept t -> kept t' -> sbi t t' ->
  constraint_error (plain_tables d') t' k = constraint_error (plain_tables d) t k.
Proof.
  intros S A A' K K' B. unfold constraint_error. rewrite !dget_plain.
  pose proof (sim_get d d' (k_ftable k) S) as G.
  destruct (sbi_fields _ _ B) as (Bn & Bc & _).
  destruct (dget (k_ftable k) d) as [fo|] eqn:E1, (dget (k_ftable k) d') as [fo'|] eqn:E2; simpl; try contradiction.
  2:{ rewrite Bn. reflexivity. }
  destruct G as (_ & _ & F). destruct (sbi_fields _ _ F) as (Fn & Fc & _). rewrite Fc, Bc, Bn.
  destruct (dget (k_fcolumn k) _) as [fc|]; [|reflexivity].
  destruct (dget (k_column k) _) as [c|]; [|reflexivity].
  rewrite (kept_same_answer t t' (c_name c) K K' B).
  assert (KF : kept (to_table fo)) by (apply (A (k_ftable k)), dget_in, E1).
  assert (KF' : kept (to_table fo')) by (apply (A' (k_ftable k)), dget_in, E2).
  rewrite (kept_same_answer _ _ (c_name fc) KF KF' F).
  destruct (msg_same k t t' _ _ c fc B F) as (-> & -> & ->). rewrite Fn. reflexivity.
Qed.

(** The scan without the remembered sets. *)
Definition fk_err (ts : tables) (t : table) (k : constraint) : list string :=
  match constraint_error ts t k with Ok (Some m) => [m] | _ => [] end.
Fixpoint scan_pure (ts : tables) (l : list (string * (string * constraint))) (names : dict string string)
  : list string :=
  match l with
  | [] => []
  | (tn, (_, k)) :: l' =>
      match dget tn ts with
      | None => []
      | Some t =>
          fk_err ts t k
          +++ match dget (k_name k) names with
              | Some first => duplicate_fk k first (t_name t) :: scan_pure ts l' names
              | None => scan_pure ts l' (dset (k_name k) (t_name t) names)
              end
      end
  end.

Lemma scan_pure_sim d d' l : sim d d' -> all_tables kept d -> all_tables kept d' ->
  forall names, scan_pure (plain_tables d') l names = scan_pure (plain_tables d) l names.
Proof.
  intros S A A'. induction l as [|[tn [kn k]] l IH]; intros names; simpl; [reflexivity|].
  rewrite !dget_plain. pose proof (sim_get d d' tn S) as G.
  destruct (dget tn d) as [o|] eqn:E1, (dget tn d') as [o'|] eqn:E2; simpl; try contradiction; [|reflexivity].
  destruct G as (_ & _ & F). destruct (sbi_fields _ _ F) as (Fn & _).
  unfold fk_err.
  rewrite (constraint_error_sim d d' (to_table o) (to_table o') k); auto;
    [|apply (A tn), dget_in, E1|apply (A' tn), dget_in, E2].
  f_equal. rewrite Fn. destruct (dget (k_name k) names); rewrite !IH; reflexivity.
Qed.

Lemma scan_ok l : forall names d, all_tables kept d ->
  (forall p, In p l -> In (fst p) (dkeys d)) ->
  snd (scan_fks l names d) = Ok (scan_pure (plain_tables d) l names)
  /\ all_tables kept (fst (scan_fks l names d)).
Proof.
  induction l as [|[tn [kn k]] l IH]; intros names d A I; simpl; [auto|].
  destruct (dget_some_key tn d) as (o & Eo); [apply (I (tn, (kn, k))); left; reflexivity|].
  rewrite Eo, dget_plain, Eo. simpl.
  assert (Ko : kept (to_table o)) by (apply (A tn), dget_in, Eo).
  destruct (constraint_error_iff (plain_tables d) (to_table o) k Ko) as (e & Ee & _).
  { intros ft. rewrite dget_plain. destruct (dget (k_ftable k) d) as [fo|] eqn:E; [|discriminate].
    intros [= <-]. apply (A (k_ftable k)), dget_in, E. }
  unfold fk_err. rewrite Ee.
  assert (I' : forall p, In p l -> In (fst p) (dkeys (touch_fk d tn k))).
  { intros p Hp. rewrite <- (sim_keys _ _ (sim_touch_fk d tn k)). apply I. right; exact Hp. }
  destruct (dget (k_name k) names) as [first|].
  - specialize (IH names (touch_fk d tn k) (kept_touch_fk d tn k A) I').
    destruct (scan_fks l names (touch_fk d tn k)) as [d2 r]. simpl in *. destruct IH as [-> K2]. simpl.
    rewrite (scan_pure_sim d _ l (sim_touch_fk d tn k) A (kept_touch_fk d tn k A)).
    split; [destruct e; reflexivity|exact K2].
  - specialize (IH (dset (k_name k) (t_name (to_table o)) names) (touch_fk d tn k) (kept_touch_fk d tn k A) I').
    destruct (scan_fks l _ (touch_fk d tn k)) as [d2 r]. simpl in *. destruct IH as [-> K2]. simpl.
    rewrite (scan_pure_sim d _ l (sim_touch_fk d tn k) A (kept_touch_fk d tn k A)).
    split; [destruct e; reflexivity|exact K2].
Qed.

Lemma all_fks_in ts tn p : In (tn, p) (all_fks ts) <-> exists t, In (tn, t) ts /\ In p (t_constraints t).
Proof.
  unfold all_fks. rewrite in_concat. split.
  - intros (l & Hl & H). apply in_map_iff in Hl as ((n, t) & <- & Ht). apply in_map_iff in H as (q & E & Hq).
    simpl in *. inversion E; subst. eauto.
  - intros (t & Ht & H). eexists. split; [apply in_map_iff; exists (tn, t); split; [reflexivity|exact Ht]|].
    apply in_map_iff. exists p. auto.
Qed.
Lemma all_fks_keys d p : In p (all_fks (plain_tables d)) -> In (fst p) (dkeys d).
Proof.
  destruct p as [tn q]. rewrite all_fks_in. intros (t & Ht & _). apply in_dkeys in Ht. simpl.
  revert Ht. unfold plain_tables, dkeys. rewrite map_map. simpl. auto.
Qed.

Lemma database_schema_ok d : all_tables kept d ->
  snd (database_schema_errors d) = Ok (scan_pure (plain_tables d) (all_fks (plain_tables d)) [])
  /\ all_tables kept (fst (database_schema_errors d)) /\ sim d (fst (database_schema_errors d)).
Proof.
  intros A. unfold database_schema_errors.
  destruct (scan_ok (all_fks (plain_tables d)) [] d A (all_fks_keys d)) as [E K].
  split; [exact E|]. split; [exact K|apply sim_scan].
Qed.

(** ** Duplicate names *)

Definition is_dup (m : string) : bool := String.prefix "Duplicate foreign key:" m.

Lemma dup_is_dup k a b : is_dup (duplicate_fk k a b) = true.
Proof. reflexivity. Qed.
Lemma fk_intro_not_dup k s : is_dup (fk_intro k ++ s) = false.
Proof. reflexivity. Qed.

Lemma constraint_msg ts t k m : constraint_error ts t k = Ok (Some m) -> is_dup m = false.
Proof.
  unfold constraint_error, attr_mismatch, unsigned_mismatch, null_mismatch.
  destruct (dget (k_ftable k) ts) as [ft|]; [|intros [= <-]; reflexivity].
  destruct (dget _ (t_columns ft)) as [fc|]; [|intros [= <-]; reflexivity].
  destruct (dget _ (t_columns t)) as [c|]; [|intros [= <-]; reflexivity].
  destruct (snd _) as [[|]|]; simpl; [|intros [= <-]; reflexivity|discriminate].
  repeat (match goal with |- context [if ?b then _ else _] => destruct b end; simpl; try (intros [= <-]; reflexivity)).
  all: destruct (snd _) as [[|]|]; simpl; intros E; inversion E; reflexivity.
Qed.
Lemma fk_err_no_dup ts t k : filter is_dup (fk_err ts t k) = [].
Proof.
  unfold fk_err. destruct (constraint_error ts t k) as [[m|]|] eqn:E; try reflexivity. simpl.
  rewrite (constraint_msg _ _ _ _ E). reflexivity.
Qed.

Definition fk_name_of (p : string * (string * constraint)) : string := k_name (snd (snd p)).

(** Every foreign key either adds a new name or a message. *)
Lemma scan_count ts l : (forall p, In p l -> In (fst p) (dkeys ts)) -> forall names, NoDup (dkeys names) ->
  exists new, NoDup (new +++ dkeys names)
    /\ (forall x, In x (new +++ dkeys names) <-> In x (map fk_name_of l +++ dkeys names))
    /\ (List.length (filter is_dup (scan_pure ts l names)) + List.length new = List.length l)%nat.
Proof.
  induction l as [|[tn [kn k]] l IH]; intros I names ND; simpl.
  - exists []. simpl. repeat split; auto.
  - destruct (dget_some_key tn ts) as (t & Et); [apply (I (tn, (kn, k))); left; reflexivity|]. rewrite Et.
    rewrite filter_app, fk_err_no_dup. simpl.
    assert (I' : forall p, In p l -> In (fst p) (dkeys ts)) by (intros; apply I; right; assumption).
    destruct (dget (k_name k) names) as [first|] eqn:En.
    + rewrite (eq_refl : filter is_dup (duplicate_fk k first (t_name t) :: scan_pure ts l names)
                         = duplicate_fk k first (t_name t) :: filter is_dup (scan_pure ts l names)).
      destruct (IH I' names ND) as (new & H1 & H2 & H3). exists new. split; [exact H1|]. split; [|simpl; lia].
      intros x. rewrite H2. unfold fk_name_of at 2. simpl. split; [auto|]. intros [<-|H]; [|exact H].
      apply in_or_app. right. apply dget_in in En. eapply in_dkeys; eauto.
    + assert (Hn : ~ In (k_name k) (dkeys names)) by (apply dget_none, En).
      assert (Ea : dkeys (dset (k_name k) (t_name t) names) = dkeys names +++ [k_name k]).
      { rewrite dset_absent by (apply dmem_false, Hn). unfold dkeys. rewrite map_app. reflexivity. }
      destruct (IH I' (dset (k_name k) (t_name t) names)) as (new & H1 & H2 & H3).
      { rewrite Ea. apply NoDup_app_intro; auto; [constructor; [intros []|constructor]|].
        intros x Hx [<-|[]]. contradiction. }
      rewrite Ea in H1, H2. exists (k_name k :: new). simpl. split.
      * rewrite app_assoc in H1. apply (NoDup_Add (a := k_name k) (l := new +++ dkeys names)).
        { apply Add_head. }
        apply NoDup_remove in H1. rewrite app_nil_r in H1. tauto.
      * split; [|lia]. intros x. specialize (H2 x). clear - H2. rewrite !in_app_iff in H2. rewrite !in_app_iff.
        unfold fk_name_of at 1. simpl in H2. cbn [In map snd].
        split.
        { intros [H|[H|H]]; auto. destruct H2 as [H2 _].
          destruct (H2 (or_introl H)) as [Q|[Q|[Q|[]]]]; auto. }
        { intros [H|[H|H]]; auto. destruct H2 as [_ H2].
          destruct (H2 (or_introl H)) as [Q|[Q|[Q|[]]]]; auto. }
Qed.

Lemma nodup_same_length {A} (dec : forall a b : A, {a = b} + {a <> b}) (l m : list A) :
  NoDup l -> (forall x, In x l <-> In x m) -> List.length l = List.length (nodup dec m).
Proof.
  intros ND H. apply Nat.le_antisymm.
  - apply NoDup_incl_length; [exact ND|]. intros x Hx. apply nodup_In, H, Hx.
  - apply NoDup_incl_length; [apply NoDup_nodup|]. intros x Hx. apply H, (nodup_In dec), Hx.
Qed.

Lemma duplicates_count ts :
  (List.length (filter is_dup (scan_pure ts (all_fks ts) []))
   + List.length (nodup string_dec (map fk_name_of (all_fks ts))) = List.length (all_fks ts))%nat.
Proof.
  destruct (scan_count ts (all_fks ts)) with (names := @nil (string * string)) as (new & H1 & H2 & H3).
  - intros [tn q] H. apply all_fks_in in H as (t & Ht & _). eapply in_dkeys; eauto.
  - constructor.
  - simpl in *. rewrite app_nil_r in H1. rewrite <- H3. f_equal.
    symmetry. apply nodup_same_length; [exact H1|]. intros x. specialize (H2 x). rewrite !app_nil_r in H2. exact H2.
Qed.
