(** C05, exact: which columns are taken for the same, and so which are changed. *)
From Verif Require Import ColFacts SameFacts SpecColumn Samples PropsDiff.

Section Same.
  Context {FO : FloatOracle}.

  (** Between tables with unique names, a column found on both sides is changed exactly when its text differs
      and it is not one of the columns that are taken for the same. *)
  Theorem C05_exact : forall src tgt alters n a b,
    wf_table src -> wf_table tgt -> diff src tgt = Ok alters ->
    In (n, a) (t_columns src) -> In (n, b) (t_columns tgt) ->
    (In (ChangeColumn b) (concat (map al_ops alters)) <-> column_str a <> column_str b /\ ~ no_difference a b).
  Proof.
    intros src tgt alters n a b Ws Wt D Ha Hb.
    assert (C : exists r, column_changed a b = Ok r).
    { apply diff_iff in D as [C _]; auto. exact (C n a b Ha Hb). }
    destruct C as (r & C). assert (X : r = true <-> column_str a <> column_str b /\ ~ no_difference a b).
    { rewrite <- really_same_iff. unfold column_changed in C. destruct (String.eqb_spec (column_str a) (column_str b)) as [E|E].
      - injection C as <-. split; [discriminate|]. intros [H _]. contradiction.
      - destruct (really_same a b) as [[]|e]; cbn in C; [injection C as <-|injection C as <-|discriminate].
        + split; [discriminate|]. intros [_ H]. destruct (H eq_refl).
        + split; [|reflexivity]. intros _. split; [exact E|discriminate]. }
    rewrite <- X. split.
    - intros H. apply diff_iff in D as [_ ->]; auto. rewrite map_app, concat_app, in_app_iff in H.
      assert (N : forall nm l, concat (map al_ops (opt_list (nonempty_alter nm l))) = l) by (intros nm [|o l]; cbn; rewrite ?app_nil_r; reflexivity).
      rewrite !N in H. unfold removed_fk_ops, kitchen_list, added_fk_ops, add_col_ops, key_ops in H. rewrite !in_app_iff, !in_map_iff in H.
      assert (K : In b (changed_cols src tgt)).
      { repeat match goal with
          | H : _ \/ _ |- _ => destruct H as [H|H]
          | H : exists x, _ /\ _ |- _ => destruct H as (? & H & ?); try discriminate
          end; [injection H as ->; assumption|].
        apply in_concat in H as (l & H & I). apply in_map_iff in H as ((k, i) & <- & _). cbn in I. destruct (dget k (t_indexes tgt)); [|destruct I]. destruct (key_changed i i0); [|destruct I]. destruct I as [[=]|[]]. }
      apply changed_cols_in in K as (m & a' & Ia & Ib & Ch). apply (dget_in) in Ib. pose proof (wf_cols_named _ Wt _ _ Ib) as E1. pose proof (wf_cols_named _ Wt _ _ Hb) as E2. subst.
      assert (a' = a) as -> by (pose proof (proj2 (dget_iff _ _ _ (wf_cols _ Ws)) Ia); pose proof (proj2 (dget_iff _ _ _ (wf_cols _ Ws)) Ha); congruence).
      unfold chb in Ch. rewrite C in Ch. exact Ch.
    - intros ->. exact (column_changed_in _ _ _ _ _ _ Ws Wt D Ha Hb C).
  Qed.
End Same.
Print Assumptions C05_exact.

(** INT(10) and INT(11) are taken for the same although their texts differ; defaults 1 and -1 are not. *)
Example ex_C05_exact : exists src tgt alters a b c d,
  wf_table src /\ wf_table tgt /\ diff src tgt = Ok alters
  /\ In ("n", a) (t_columns src) /\ In ("n", b) (t_columns tgt) /\ In ("m", c) (t_columns src) /\ In ("m", d) (t_columns tgt)
  /\ column_str a <> column_str b /\ no_difference a b /\ column_str c <> column_str d /\ ~ no_difference c d
  /\ c_default c = DInt 1 /\ c_default d = DInt (-1).
Proof.
  pose (k := fun n z l => mkColumn KNumeric n "INT" (LStr l) true true (DInt z) None None None None None [] []).
  exists (tbl "t" [k "n" 1%Z "10"; k "m" 1%Z "10"] [] []), (tbl "t" [k "n" 1%Z "11"; k "m" (-1)%Z "10"] [] []). eexists.
  exists (k "n" 1%Z "10"), (k "n" 1%Z "11"), (k "m" 1%Z "10"), (k "m" (-1)%Z "10").
  split; [apply wf_tableb_ok; reflexivity|]. split; [apply wf_tableb_ok; reflexivity|]. split; [vm_compute; reflexivity|].
  split; [cbn; auto|]. split; [cbn; auto|]. split; [cbn; auto|]. split; [cbn; auto|].
  split; [vm_compute; discriminate|]. split; [apply really_same_iff; vm_compute; reflexivity|]. split; [vm_compute; discriminate|].
  split; [intros H; apply really_same_iff in H; vm_compute in H; discriminate|]. auto.
Qed.
