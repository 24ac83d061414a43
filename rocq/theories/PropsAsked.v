(** C42 for columns whose own check ends with an exception: what asking a table says after a column was
    added or replaced, whatever was asked before. *)
From Verif Require Import Database AcceptFacts MutFacts Facts Samples.

Section Float.
  Context {FO : FloatOracle}.

  Lemma column_put t a c t' : (a = ChangeColumn c \/ exists p, a = AddColumn c p) -> apply_aop t a = (t', None) ->
    In c (dvals (t_columns t')).
  Proof.
    intros [->|(p & ->)]; simpl.
    - unfold change_column. destruct (dmem _ _); [|discriminate]. intros [= <-]. simpl. apply in_map_iff. exists (c_name c, c). split; [reflexivity|].
      apply dget_in. rewrite dget_dset. destruct (keqb _ _) eqn:K; [reflexivity|]. exfalso. assert (X : keqb (c_name c) (c_name c) = true) by (apply keqb_true; reflexivity). congruence.
    - unfold add_column. destruct (dmem _ _); [discriminate|].
      assert (E : In c (dvals (dset (c_name c) c (t_columns t)))).
      { apply in_map_iff. exists (c_name c, c). split; [reflexivity|]. apply dget_in. rewrite dget_dset. destruct (keqb _ _) eqn:K; [reflexivity|].
        exfalso. assert (X : keqb (c_name c) (c_name c) = true) by (apply keqb_true; reflexivity). congruence. }
      destruct p as [| |a].
      + intros [= <-]. exact E.
      + destruct (t_ordered t); [|discriminate]. intros [= <-]. left. reflexivity.
      + destruct (is_empty a); [intros [= <-]; exact E|]. destruct (dmem a (t_columns t)) eqn:D; [|discriminate]. intros [= <-]. simpl.
        apply dmem_iff in D. clear - D. induction (t_columns t) as [|(n, d) l IH]; [destruct D|]. simpl in D |- *. destruct (String.eqb_spec n a) as [->|K].
        * right. left. reflexivity.
        * right. apply IH. destruct D as [->|D]; [congruence|exact D].
  Qed.

  (** A column that cannot be checked is met by the next question. *)
  Theorem C42_new_column_is_checked : forall b tn a c b' o e,
    (a = ChangeColumn c \/ exists p, a = AddColumn c p) -> apply_operation b tn a = (b', None) ->
    dget tn (d_tables b') = Some o -> snd (column_checked c) = Some e -> exists e', snd (table_ask o) = Some e'.
  Proof.
    intros b tn a c b' o e Ha E Do X. unfold apply_operation in E. destruct (dget tn (d_tables b)) as [o0|]; [|discriminate].
    destruct (obj_apply o0 a) as [o' x] eqn:Eo. injection E as <- ->. simpl in Do. rewrite dget_dset in Do.
    assert (K : keqb tn tn = true) by (apply keqb_true; reflexivity). rewrite K in Do. injection Do as <-.
    unfold obj_apply in Eo. destruct (apply_aop (to_table o0) a) as [t' y] eqn:Ea.
    assert (Kc : is_key_clause a = false /\ replaced_column a = Some (c_name c)) by (destruct Ha as [->|(p & ->)]; split; reflexivity).
    destruct Kc as [Kc R]. rewrite Kc, R in Eo. injection Eo as <- ->. pose proof (column_put _ _ _ _ Ha Ea) as I.
    unfold table_ask. cbn [to_errs to_table to_seen snd].
    destruct (te_exn (find_all_errors_seen _ t')) as [e'|] eqn:Ex; [eauto|exfalso].
    unfold find_all_errors_seen in Ex. destruct (te_exn (scan_children _ _)) as [q|] eqn:Es; [discriminate|].
    pose proof (scan_none _ _ Es) as N. specialize (N (column_child (fun n => smem n (set_discard (c_name c) (to_seen o0))) (primary_column_names t') c)).
    assert (In' : In (column_child (fun n => smem n (set_discard (c_name c) (to_seen o0))) (primary_column_names t') c) (children (fun n => smem n (set_discard (c_name c) (to_seen o0))) t')).
    { unfold children. apply in_app_iff. left. apply in_map_iff. eauto. }
    apply N in In'. unfold column_child in In'. destruct (column_checked c) as [l0 e0]. simpl in X. subst e0. cbn [ch_exn] in In'.
    destruct (smem (c_name c) _) eqn:S; [|discriminate]. apply smem_iff, set_discard_in in S. tauto.
  Qed.

  (** A column after one that could not be checked has not been asked either: whatever is done next to other columns, it is met
      by the next question. *)
  Lemma scanned_stops l1 c l2 n e : snd (column_checked c) = Some e -> ~ In n (map c_name (l1 +++ [c])) -> ~ In n (scanned [] (l1 +++ c :: l2)).
  Proof.
    intros X N. induction l1 as [|x l1 IH]; cbn [List.app scanned smem].
    - rewrite X. intros [E|[]]. apply N. left. exact E.
    - intros [E|I]; [apply N; left; exact E|]. destruct (snd (column_checked x)); [destruct I|]. apply IH; [|exact I]. intros J. apply N. right. exact J.
  Qed.
  Theorem C42_later_column_is_checked : forall b tn t l1 c l2 d e e' a b' o,
    dget tn (d_tables b) = Some (fst (table_ask (fresh t))) ->
    dvals (t_columns t) = l1 +++ c :: l2 -> In d l2 -> NoDup (map c_name (dvals (t_columns t))) ->
    snd (column_checked c) = Some e -> snd (column_checked d) = Some e' ->
    is_key_clause a = false -> apply_operation b tn a = (b', None) -> dget tn (d_tables b') = Some o -> In d (dvals (t_columns (to_table o))) ->
    exists e'', snd (table_ask o) = Some e''.
  Proof.
    intros b tn t l1 c l2 d e e' a b' o D0 Ec Id Nd Xc Xd Kc E Do I. unfold apply_operation in E. rewrite D0 in E.
    destruct (obj_apply (fst (table_ask (fresh t))) a) as [o' x] eqn:Eo. injection E as <- ->. simpl in Do. rewrite dget_dset in Do.
    assert (K : keqb tn tn = true) by (apply keqb_true; reflexivity). rewrite K in Do. injection Do as <-.
    assert (S0 : ~ In (c_name d) (to_seen (fst (table_ask (fresh t))))).
    { unfold table_ask. cbn [fresh to_errs fst to_seen to_table]. rewrite app_nil_r, Ec. apply (scanned_stops l1 c l2 _ e Xc).
      rewrite Ec in Nd. replace (l1 +++ c :: l2) with ((l1 +++ [c]) +++ l2) in Nd by (rewrite <- app_assoc; reflexivity). rewrite map_app in Nd.
      intros J. apply in_map with (f := c_name) in Id. clear -Nd J Id. induction (map c_name (l1 +++ [c])) as [|y ys IH]; [destruct J|].
      cbn [List.app] in Nd. inversion Nd as [|? ? Ny Nd']; subst. destruct J as [->|J]; [apply Ny, in_app_iff; right; exact Id|apply IH; assumption]. }
    assert (S1 : to_errs o' = None /\ ~ In (c_name d) (to_seen o')).
    { unfold obj_apply in Eo. destruct (apply_aop _ a) as [t' y]. rewrite Kc in Eo. injection Eo as <- ->. cbn [to_errs to_seen]. split; [reflexivity|].
      destruct (replaced_column a); [|exact S0]. intros J. apply set_discard_in in J. apply S0, J. }
    destruct S1 as [Er S1]. unfold table_ask. rewrite Er. cbn [snd].
    destruct (te_exn (find_all_errors_seen _ (to_table o'))) as [e''|] eqn:Ex; [eauto|exfalso].
    unfold find_all_errors_seen in Ex. destruct (te_exn (scan_children _ _)) as [q|] eqn:Es; [discriminate|].
    pose proof (scan_none _ _ Es (column_child (fun n => smem n (to_seen o')) (primary_column_names (to_table o')) d)) as In'.
    assert (J : In (column_child (fun n => smem n (to_seen o')) (primary_column_names (to_table o')) d) (children (fun n => smem n (to_seen o')) (to_table o'))).
    { unfold children. apply in_app_iff. left. apply in_map_iff. eauto. }
    apply In' in J. unfold column_child in J. destruct (column_checked d) as [l0 e0]. simpl in Xd. subst e0. cbn [ch_exn] in J.
    destruct (smem (c_name d) _) eqn:S; [|discriminate]. apply smem_iff in S. exact (S1 S).
  Qed.
End Float.
Print Assumptions C42_new_column_is_checked.
Print Assumptions C42_later_column_is_checked.

(** A table with a column that cannot be checked: the first question about warnings ends with the exception inside,
    the second question answers; after the column was replaced by another of its kind the question meets it again. *)
Example ex_C42_new_column : forall FO : FloatOracle,
  let t := tbl "dated" [id_col; date_col "born"] [primary_key ["id"]] [] in
  let b1 := fst (db_errors (new_database (db [t]) (Some []) [] [])) in
  snd (column_checked (date_col "born")) <> None
  /\ (exists o, dget "dated" (d_tables b1) = Some o /\ snd (table_ask o) = None)
  /\ exists b2 o, apply_operation b1 "dated" (ChangeColumn (date_col "born")) = (b2, None)
     /\ dget "dated" (d_tables b2) = Some o /\ snd (table_ask o) <> None.
Proof.
  intros FO t b1. split; [discriminate|]. split; [eexists; split; reflexivity|].
  eexists _, _. split; [reflexivity|]. split; [reflexivity|]. vm_compute. discriminate.
Qed.
Example ex_C42_later_column : forall FO : FloatOracle,
  let t := tbl "dated" [id_col; date_col "born"; date_col "died"] [primary_key ["id"]] [] in
  let b := set_tables (new_database [] (Some []) [] []) [("dated", fst (table_ask (fresh t)))] in
  dget "dated" (d_tables b) = Some (fst (table_ask (fresh t))) /\ dvals (t_columns t) = [id_col] +++ date_col "born" :: [date_col "died"]
  /\ NoDup (map c_name (dvals (t_columns t))) /\ snd (column_checked (date_col "born")) <> None /\ snd (column_checked (date_col "died")) <> None
  /\ exists b' o, apply_operation b "dated" (RemoveColumn (date_col "born")) = (b', None) /\ dget "dated" (d_tables b') = Some o
     /\ In (date_col "died") (dvals (t_columns (to_table o))).
Proof.
  intros FO t b. split; [reflexivity|]. split; [reflexivity|]. split; [repeat constructor; cbn; intuition discriminate|]. split; [discriminate|]. split; [discriminate|].
  eexists _, _. split; [reflexivity|]. split; [reflexivity|]. right. left. reflexivity.
Qed.
