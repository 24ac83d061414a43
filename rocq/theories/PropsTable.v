(** C43-C47: table objects. *)
From Verif Require Import ApplyFacts Samples.

(** ** Tables made by the constructor *)

Definition blank (name : string) (opts : list toption) : table :=
  mkTable name [] [] [] opts None None None false [] [] false.
Definition construction (cols : list column) (ixs : list index) (ks : list constraint) : list call :=
  map (fun c => CAddColumn c PEnd) cols +++ map CAddConstraint ks +++ map CAddIndex ixs.

Lemma fold_perform {X} (f : X -> call) l : forall m t,
  fold_left (fun m x => then_mut m (fun t => perform t (f x))) l m = (t, None) ->
  snd m = None /\ t = performed (fst m) (map f l).
Proof.
  induction l as [|x l IH]; simpl; intros m t E; [subst; auto|].
  apply IH in E as [E1 E2]. destruct m as [t0 [e|]]; unfold then_mut in *; simpl in *; [discriminate|]. auto.
Qed.
Lemma performed_app t l m : performed t (l +++ m) = performed (performed t l) m.
Proof. apply fold_left_app. Qed.

(** A table the constructor returns is the blank table after the corresponding calls, so the
    theorems below hold for every history of every table object. *)
Theorem C43_constructor : forall name cols ixs ks opts t,
  new_table name cols ixs ks opts = (t, None) -> t = performed (blank name opts) (construction cols ixs ks).
Proof.
  intros name cols ixs ks opts t E. unfold new_table in E. apply (fold_perform CAddIndex) in E as [E ->].
  match type of E with snd ?m = None => destruct m as [t1 e1] eqn:E1; simpl in E; subst e1 end.
  apply (fold_perform CAddConstraint) in E1 as [E ->].
  match type of E with snd ?m = None => destruct m as [t2 e2] eqn:E2; simpl in E; subst e2 end.
  apply (fold_perform (fun c => CAddColumn c PEnd)) in E2 as [_ ->].
  unfold construction. rewrite !performed_app. reflexivity.
Qed.

Lemma blank_distinct name opts : distinct (blank name opts).
Proof. repeat split; constructor. Qed.
Lemma blank_with_cols name opts : with_cols (blank name opts).
Proof. intros n i []. Qed.
Lemma blank_kept name opts : kept (blank name opts).
Proof. constructor; simpl; [intros ? ? []|intros ? ? []|discriminate]. Qed.
Lemma blank_primary name opts : primary_is (blank name opts) (t_primary (blank name opts)).
Proof. intros m j []. Qed.

(** ** C43 *)

(** Full statement: as below without [first_allowed] and [brings_columns]. *)
Theorem C43_mutators_partial : forall t l c,
  distinct t -> with_cols t -> (forall x, In x l -> brings_columns x) ->
  let now := performed t l in
  brings_columns c -> first_allowed now c ->
  (legal now c -> snd (perform now c) = None /\ effect now c (fst (perform now c)))
  /\ (~ legal now c -> exists m, perform now c = (now, Some (ValueError m))).
Proof.
  intros t l c D W B now Bc Fc. split.
  - apply perform_legal; auto. + apply distinct_performed, D. + apply with_cols_performed; auto.
  - apply perform_illegal.
Qed.

(** A rejected call changes nothing, without any condition. *)
Theorem C43_rejected : forall t c, ~ legal t c -> exists m, perform t c = (t, Some (ValueError m)).
Proof. exact perform_illegal. Qed.

(** Putting a column first in a table that was not read from SQL appends it and raises. *)
(** Exactly when a legal call works; otherwise the column is appended and an exception is raised. *)
Theorem C43_exact : forall t l c,
  distinct t -> with_cols t -> (forall x, In x l -> brings_columns x) ->
  let now := performed t l in
  brings_columns c -> legal now c ->
  (snd (perform now c) = None <-> first_allowed now c)
  /\ (~ first_allowed now c -> exists x m, c = CAddColumn x PFirst
      /\ snd (perform now c) = Some (AttributeError m) /\ effect now (CAddColumn x PEnd) (fst (perform now c))).
Proof.
  intros t l c D W B now Bc L.
  assert (Ok : first_allowed now c -> snd (perform now c) = None).
  { intros F. exact (proj1 (proj1 (C43_mutators_partial t l c D W B Bc F) L)). }
  assert (No : ~ first_allowed now c -> exists x, c = CAddColumn x PFirst /\ t_ordered now = false).
  { intros F. destruct c as [x []| | | | | | | | |]; try (exfalso; apply F; exact Logic.I). exists x. split; [reflexivity|].
    destruct (t_ordered now) eqn:O; [exfalso; apply F; exact O|reflexivity]. }
  assert (Bad : ~ first_allowed now c -> exists x m, c = CAddColumn x PFirst
      /\ snd (perform now c) = Some (AttributeError m) /\ effect now (CAddColumn x PEnd) (fst (perform now c))).
  { intros F. destruct (No F) as (x & -> & O).
    assert (L' : legal now (CAddColumn x PEnd)) by (destruct L as [L _]; split; [exact L|exact Logic.I]).
    destruct (proj1 (C43_mutators_partial t l (CAddColumn x PEnd) D W B Logic.I Logic.I) L') as [_ E]. fold now in E.
    assert (M : dmem (c_name x) (t_columns now) = false) by (apply dmem_false; exact (proj1 L)).
    cbn [perform] in *. unfold add_column in *. rewrite M in *. cbv zeta iota in *. rewrite O in *. exists x. eexists. split; [reflexivity|]. split; [reflexivity|exact E]. }
  split; [|exact Bad]. split; [|exact Ok]. intros E.
  assert (Dec : first_allowed now c \/ ~ first_allowed now c).
  { destruct c as [x []| | | | | | | | |]; try (left; exact Logic.I). simpl. destruct (t_ordered now); [left; reflexivity|right; discriminate]. }
  destruct Dec as [F|F]; [exact F|]. destruct (Bad F) as (x & m & _ & E2 & _). congruence.
Qed.
Example ex_C43_exact : exists t l c, distinct t /\ with_cols t /\ (forall x, In x l -> brings_columns x) /\ brings_columns c
  /\ legal (performed t l) c /\ ~ first_allowed (performed t l) c /\ List.length l = 2.
Proof.
  exists (fst (new_table "t" [int_col "a"] [] [] [])), [CAddColumn (int_col "b") PEnd; CRemoveColumn "a"], (CAddColumn (int_col "a") PFirst).
  split; [repeat split; repeat constructor; simpl; tauto|]. split; [intros n i []|].
  split; [intros x [<-|[<-|[]]]; exact Logic.I|]. split; [exact Logic.I|].
  split; [split; [simpl; intros [H|[]]; discriminate|exact Logic.I]|]. split; [discriminate|reflexivity].
Qed.
Theorem C43_refuted : exists t c,
  distinct t /\ with_cols t /\ brings_columns c /\ legal t c
  /\ (exists e, snd (perform t c) = Some e) /\ fst (perform t c) <> t
  /\ ~ effect t c (fst (perform t c)).
Proof.
  exists (fst (new_table "t" [int_col "a"] [] [] [])), (CAddColumn (int_col "b") PFirst).
  split; [repeat split; repeat constructor; simpl; tauto|]. split; [intros n i []|].
  split; [exact I|]. split; [split; [simpl; intros [H|[]]; discriminate|exact I]|].
  split; [eexists; reflexivity|]. split; [simpl; intros H; discriminate|].
  intros (_ & H & _). simpl in H. inversion H.
Qed.

(** Non-vacuity: a history on a constructed table, and a legal call after it. *)
Definition some_calls : list call :=
  [CAddColumn (int_col "b") (PAfter "a"); CAsk "a"; CAddIndex (key "b_idx" ["b"; "a"]); CRemoveColumn "zzz";
   CChangeColumn (varchar_col "a" "20"); CAddConstraint (fk "f" "b" "other" "id"); CRemoveIndex "a_idx"].
Definition started : table :=
  fst (new_table "t" [int_col "a"; int_col "c"] [key "a_idx" ["a"]] [] []).
Example ex_C43 : distinct started /\ with_cols started /\ (forall x, In x some_calls -> brings_columns x)
  /\ legal (performed started some_calls) (CAddColumn (int_col "first") PFirst)
  /\ first_allowed (performed started some_calls) (CAddColumn (int_col "first") PFirst)
  /\ dkeys (t_columns (performed started some_calls)) = ["a"; "b"; "c"].
Proof.
  split; [repeat split; repeat constructor; simpl; intuition discriminate|].
  split; [intros n i [[= <- <-]|[]]; discriminate|].
  split; [simpl; intros x H; repeat (destruct H as [<-|H]; [simpl; try exact I; discriminate|]); destruct H|].
  split; [split; [vm_compute; intuition discriminate|exact I]|]. split; reflexivity.
Qed.

Print Assumptions C43_mutators_partial.
Print Assumptions C43_exact.
Print Assumptions C43_refuted.
Print Assumptions C43_constructor.

(** ** C44 *)

(** Full statement: as below without [always lonely] and [brings_columns]. *)
Theorem C44_column_is_indexed_partial : forall t l n,
  kept t -> distinct t -> (forall c, In c l -> brings_columns c) -> always lonely t l ->
  let now := performed t l in
  exists b, snd (column_is_indexed now n) = Ok b
    /\ (b = true <-> In n (dkeys (t_columns now)) /\ leads now n).
Proof.
  intros t l n K D B A now. destruct (kept_ask now n (kept_performed l t K D B A)) as (b & E & H & _). eauto.
Qed.

(** Removing one of two indexes that start with the same column. *)
Definition two_indexes : table :=
  fst (new_table "t" [int_col "a"; int_col "b"] [key "one" ["a"]; key "two" ["a"; "b"]] [] []).
Theorem C44_refuted : exists t l n,
  kept t /\ distinct t /\ (forall c, In c l -> brings_columns c)
  /\ snd (column_is_indexed (performed t l) n) = Ok false
  /\ In n (dkeys (t_columns (performed t l))) /\ leads (performed t l) n.
Proof.
  exists two_indexes, [CAsk "a"; CRemoveIndex "two"], "a".
  split.
  { constructor; simpl; [|intros n i [[= <- <-]|[[= <- <-]|[]]]; discriminate|discriminate].
    intros n c [[= <- <-]|[[= <- <-]|[]]]; reflexivity. }
  split; [repeat split; repeat constructor; simpl; intuition discriminate|].
  split; [simpl; intros c [<-|[<-|[]]]; exact I|]. split; [reflexivity|]. split; [left; reflexivity|].
  exists "one", (key "one" ["a"]), []. split; [left; reflexivity|reflexivity].
Qed.

Example ex_C44 : always lonely started some_calls
  /\ snd (column_is_indexed (performed started some_calls) "b") = Ok true
  /\ snd (column_is_indexed (performed started some_calls) "a") = Ok false.
Proof.
  split; [|split; reflexivity]. simpl. repeat split; auto.
  intros i m j Hi Hj N. simpl in Hi, Hj. destruct Hi as [[= <-]|[[=]|[]]].
  destruct Hj as [[= <- <-]|[[= <- <-]|[]]]; [exfalso; apply N; reflexivity|]. discriminate.
Qed.

Print Assumptions C44_column_is_indexed_partial.
Print Assumptions C44_refuted.

(** ** C45 *)

(** Full statement: as below without [always primary_safe]. *)
Theorem C45_primary_partial : forall t l,
  distinct t -> primary_is t (t_primary t) -> always primary_safe t l ->
  primary_is (performed t l) (t_primary (performed t l)).
Proof. intros t l D P A. apply primary_performed; auto. Qed.

(** The primary key is still reported after it was removed. *)
Definition with_primary : table := fst (new_table "t" [id_col] [primary_key ["id"]] [] []).
Theorem C45_refuted : exists t l,
  distinct t /\ primary_is t (t_primary t) /\ t_indexes (performed t l) = []
  /\ t_primary (performed t l) <> None.
Proof.
  exists with_primary, [CRemoveIndex "id"].
  split; [repeat split; repeat constructor; simpl; tauto|].
  split; [exists "id"; split; [left; reflexivity|]; split; [reflexivity|]; intros m j [[= <- <-]|[]] _; reflexivity|].
  split; [reflexivity|]. discriminate.
Qed.

Example ex_C45 : always primary_safe (blank "t" [])
    (construction [id_col; int_col "a"] [primary_key ["id"]; key "a_idx" ["a"]] [] +++ [CRemoveIndex "a_idx"])
  /\ t_primary (performed (blank "t" [])
      (construction [id_col; int_col "a"] [primary_key ["id"]; key "a_idx" ["a"]] [] +++ [CRemoveIndex "a_idx"]))
     = Some (primary_key ["id"]).
Proof.
  split; [|reflexivity]. simpl. repeat split; auto; try discriminate.
  intros i [[= ]|[[= <-]|[]]]; discriminate.
Qed.

Print Assumptions C45_primary_partial.
Print Assumptions C45_refuted.

(** ** C46 *)

(** Full statement: every clause, key clauses included, for every source.
    Proved: all other clauses, one after the other, for a source with ordered columns or a target
    whose first column is already there; and the result has the target's columns and foreign keys. *)
Theorem C46_clauses_apply_partial : forall (FO : FloatOracle) src tgt alters,
  wf_table src -> wf_table tgt ->
  (t_ordered src = true \/ forall q r, t_columns tgt = q :: r -> In (fst q) (dkeys (t_columns src))) ->
  diff src tgt = Ok alters ->
  exists t', apply_seq src (filter (fun o => negb (key_clause o)) (concat (map al_ops alters))) = (t', None)
    /\ columns_of src tgt t' /\ constraints_of tgt t' /\ t_indexes t' = t_indexes src.
Proof. intros FO. exact applied. Qed.

(** No key clause can be applied. *)
Theorem C46_key_clauses_fail : forall t o, key_clause o = true ->
  exists m, apply_aop t o = (t, Some (AttributeError m)).
Proof. intros t [] H; try discriminate; simpl; eauto. Qed.

(** Adding an index: the diff exists and applying its only clause raises. *)
Theorem C46_refuted : forall FO : FloatOracle, exists src tgt a o,
  wf_table src /\ wf_table tgt /\ diff src tgt = Ok [a] /\ al_ops a = [o]
  /\ exists e, snd (apply_aop src o) = Some e.
Proof.
  intros FO. exists (tbl "t" [int_col "a"] [] []), (tbl "t" [int_col "a"] [key "k" ["a"]] []).
  eexists. eexists. split; [apply wf_tableb_ok; reflexivity|]. split; [apply wf_tableb_ok; reflexivity|].
  split; [cbv; reflexivity|]. split; [reflexivity|]. eexists; reflexivity.
Qed.

Example ex_C46 : wf_table child_v1 /\ wf_table child_v2 /\ t_ordered child_v1 = true
  /\ (exists alters, diff child_v1 child_v2 = Ok alters
        /\ List.length (filter (fun o => negb (key_clause o)) (concat (map al_ops alters))) = 6).
Proof.
  split; [apply wf_tableb_ok; reflexivity|]. split; [apply wf_tableb_ok; reflexivity|].
  split; [reflexivity|]. eexists. split; [vm_compute; reflexivity|]. vm_compute. reflexivity.
Qed.

Print Assumptions C46_clauses_apply_partial.
Print Assumptions C46_key_clauses_fail.
Print Assumptions C46_refuted.

(** ** C47 *)

Theorem C47_column_before : forall t,
  NoDup (dkeys (t_columns t)) ->
  (forall n rest, dkeys (t_columns t) = n :: rest -> column_before t n = Ok PFirst)
  /\ (forall l1 a n l2, dkeys (t_columns t) = l1 +++ a :: n :: l2 -> column_before t n = Ok (PAfter a))
  /\ (forall n, ~ In n (dkeys (t_columns t)) -> exists m, column_before t n = Raise (ValueError m)).
Proof.
  intros t ND. unfold column_before. split; [|split].
  - intros n rest ->. rewrite before_in_first. reflexivity.
  - intros l1 a n l2 E. rewrite E in *. rewrite before_in_after by exact ND. reflexivity.
  - intros n H. apply (before_in_none PFirst) in H. rewrite H. eauto.
Qed.

Example ex_C47 : NoDup (dkeys (t_columns child_v2)) /\ column_before child_v2 "first" = Ok (PAfter "parent_id").
Proof. split; [apply nodupb_ok; reflexivity|reflexivity]. Qed.

Print Assumptions C47_column_before.
