(** C19, C22, C24: exactly when the row statements bring the rows of the files, and exactly which rows
    are deleted. *)
From Verif Require Import RowRead RowFacts Samples PropsRows.

(** The tool finds a difference between a row of the file and the live row: in a column that both have. *)
Definition difference_seen (r f : row) : Prop :=
  exists c v w, In (c, v) r /\ In (c, w) f /\ loose_equal v w = false.

Lemma seen_differs r f : NoDup (dkeys f) -> (row_differs r f = true <-> difference_seen r f).
Proof.
  intros N. rewrite row_differs_true. split.
  - intros (c & v & w & H & G & L). exists c, v, w. auto using dget_in.
  - intros (c & v & w & H & G & L). exists c, v, w. split; [exact H|]. split; [apply dget_iff; assumption|exact L].
Qed.

(** The rows after the whole plan. *)
Lemma plan_state has dflt to from s : rows_ready has to from s ->
  exists ops s', plan_rows to (Some from) = Ok ops /\ exec_rows has dflt ops s = Some s'
    /\ (forall n t, In (n, t) to -> t_tracking t = true -> forall id, s' n id =
          match dget id (rows_of t) with
          | None => None
          | Some r => match dget id (live_rows from n), s n id with
                      | Some f, Some sr => if row_differs r f then Some (written (dpop "id" r) sr) else Some sr
                      | _, _ => Some (written r (dflt n))
                      end
          end).
Proof.
  intros RR. eexists.
  assert (G : forall p, In p (tracked to) -> In p to /\ t_tracking (snd p) = true).
  { intros [n t] H. apply tracked_in, H. }
  assert (NDl : NoDup (map fst (tracked to))) by (apply NoDup_filter_map, (rr_names _ _ _ _ RR)).
  enough (X : forall l, (forall p, In p l -> In p (tracked to)) -> NoDup (map fst l) ->
    forall s0, (forall p, In p l -> forall id, s0 (fst p) id = s (fst p) id) ->
    exists s', exec_rows has dflt (concat (map (fun p => row_ops (fst p) (rows_of (snd p)) (live_rows from (fst p))) l)) s0 = Some s'
      /\ (forall n t, In (n, t) l -> forall id, s' n id =
          match dget id (rows_of t) with
          | None => None
          | Some r => match dget id (live_rows from n), s n id with
                      | Some f, Some sr => if row_differs r f then Some (written (dpop "id" r) sr) else Some sr
                      | _, _ => Some (written r (dflt n))
                      end
          end)
      /\ (forall n, ~ In n (map fst l) -> forall id, s' n id = s0 n id)).
  { destruct (X (tracked to) (fun _ h => h) NDl s) as (s' & E & R & _); [auto|].
    exists s'. split; [apply (plan_rows_ok _ _ _ _ RR)|]. split; [exact E|]. intros n t H T. apply R, tracked_in. auto. }
  induction l as [|[n t] l IH]; intros Sub ND s0 Eq; simpl.
  - exists s0. split; [reflexivity|]. split; [intros ? ? []|auto].
  - simpl in ND. inversion ND as [|? ? Hn ND']; subst.
    destruct (G _ (Sub _ (or_introl eq_refl))) as [Hi T]. simpl in T.
    destruct (ready_rows _ _ _ _ n t RR Hi T) as (Kt & Mt & Ct & Kf & Mf & R).
    destruct (row_ops_exec has dflt n (rows_of t) (live_rows from n) s0 Kt Kf Ct) as (s1 & E1 & O1 & R1).
    { intros id. specialize (R id). rewrite (Eq (n, t) (or_introl eq_refl)). exact R. }
    rewrite exec_rows_app, E1.
    destruct (IH (fun p h => Sub p (or_intror h)) ND' s1) as (s' & E & R' & F').
    { intros p Hp id. rewrite O1; [apply Eq; right; exact Hp|]. intros X. apply Hn. rewrite <- X. apply in_map, Hp. }
    exists s'. split; [exact E|]. split.
    + intros m u [[= <- <-]|H] id; [|apply R', H]. rewrite (F' n Hn id), R1, (Eq (n, t) (or_introl eq_refl)). reflexivity.
    + intros m Hm id. rewrite F' by tauto. apply O1. intros ->. apply Hm. left; reflexivity.
Qed.

Lemma tool_equal_refl v : tool_equal v (sql_of v).
Proof. exists v. split; [reflexivity|apply loose_refl]. Qed.

Lemma written_id r sr id c : dget "id" r = Some (RStr id) -> sr "id" = Some id ->
  written (dpop "id" r) sr c = written r sr c.
Proof.
  intros E I. unfold written. rewrite dget_dpop. change (keqb c "id") with (String.eqb c "id").
  destruct (String.eqb_spec c "id") as [->|]; [|reflexivity]. rewrite E. exact I.
Qed.

(** ** C24 *)
(** The column [c] of a row of the file has the value of the file afterwards exactly if the row is new,
    the tool sees a difference in some column that both sides have, or the value was there already. *)
Theorem C24_exact : forall has dflt to from s, rows_ready has to from s ->
  exists ops s', plan_rows to (Some from) = Ok ops /\ exec_rows has dflt ops s = Some s'
    /\ forall n t id r c v, In (n, t) to -> t_tracking t = true -> In (id, r) (rows_of t) -> In (c, v) r ->
         exists sr, s' n id = Some sr
           /\ (sr c = sql_of v <->
               s n id = None \/ (exists f, In (id, f) (live_rows from n) /\ difference_seen r f)
               \/ exists old, s n id = Some old /\ old c = sql_of v).
Proof.
  intros has dflt to from s RR. destruct (plan_state has dflt to from s RR) as (ops & s' & P & E & Q).
  exists ops, s'. split; [exact P|]. split; [exact E|]. intros n t id r c v H T I J. rewrite (Q n t H T id).
  destruct (ready_rows _ _ _ _ n t RR H T) as (Kt & Mt & Ct & Kf & Mf & R).
  rewrite (proj2 (dget_iff id r _ (proj1 Kt)) I).
  pose proof (proj2 (dget_iff c v _ (Mt id r I)) J) as Gc. specialize (R id).
  destruct (dget id (live_rows from n)) as [f|] eqn:Df.
  - destruct R as (sr & Es & Hs). rewrite Es.
    assert (Nf : NoDup (dkeys f)) by (apply (Mf id), dget_in, Df).
    destruct (row_differs r f) eqn:Rd.
    + eexists. split; [reflexivity|]. split; [intros _; right; left; exists f; split; [apply dget_in, Df|apply seen_differs; assumption]|]. intros _.
      rewrite (written_id r sr id c); [|apply (proj2 Kt), I|].
      * unfold written. rewrite Gc. reflexivity.
      * apply (Hs "id" (RStr id)), dget_in, (proj2 Kf), dget_in, Df.
    + exists sr. split; [reflexivity|]. split; [intros X; right; right; eauto|].
      intros [X|[(f' & If & X)|(old & [= <-] & X)]]; [discriminate| |exact X].
      apply (dget_iff id f' _ (proj1 Kf)) in If. rewrite Df in If. injection If as <-. apply (seen_differs r f Nf) in X. congruence.
  - eexists. split; [reflexivity|]. unfold written. rewrite Gc. split; [intros _; left; exact R|reflexivity].
Qed.

(** ** C19 *)
(** The rows of the files are there afterwards exactly if for each row that is live already the tool sees
    a difference, or the server holds values that the tool considers equal, also in the columns that the
    live row as read does not have. *)
Theorem C19_exact : forall has dflt to from s, rows_ready has to from s ->
  exists ops s', plan_rows to (Some from) = Ok ops /\ exec_rows has dflt ops s = Some s'
    /\ forall n t, In (n, t) to -> t_tracking t = true ->
         (rows_reached (rows_of t) (dflt n) (s n) (s' n) <->
          forall id r f old, In (id, r) (rows_of t) -> In (id, f) (live_rows from n) -> s n id = Some old ->
            difference_seen r f \/ forall c v, In (c, v) r -> tool_equal v (old c)).
Proof.
  intros has dflt to from s RR. destruct (plan_state has dflt to from s RR) as (ops & s' & P & E & Q).
  exists ops, s'. split; [exact P|]. split; [exact E|]. intros n t H T. specialize (Q n t H T).
  destruct (ready_rows _ _ _ _ n t RR H T) as (Kt & Mt & Ct & Kf & Mf & R). split.
  - intros [_ X] id r f old I J O. specialize (Q id). rewrite (proj2 (dget_iff id r _ (proj1 Kt)) I), (proj2 (dget_iff id f _ (proj1 Kf)) J), O in Q.
    destruct (row_differs r f) eqn:Rd; [left; apply seen_differs; [apply (Mf id f J)|exact Rd]|].
    right. apply (X id r old I Q).
  - intros X. split.
    + intros id. rewrite Q. destruct (dget id (rows_of t)) as [r|] eqn:Dr.
      * apply dget_in in Dr. apply (in_map fst) in Dr. cbn [fst] in Dr. split; [intros _; exact Dr|]. intros _.
        destruct (dget id (live_rows from n)) as [f|]; destruct (s n id) as [sr|]; try destruct (row_differs r f); discriminate.
      * apply dget_none in Dr. split; intros Y; [congruence|contradiction].
    + intros id r sr I Es. rewrite Q, (proj2 (dget_iff id r _ (proj1 Kt)) I) in Es. specialize (R id).
      destruct (dget id (live_rows from n)) as [f|] eqn:Df.
      * destruct R as (old & O & Ho). rewrite O in Es.
        assert (Oid : old "id" = Some id) by (apply (Ho "id" (RStr id)), dget_in, (proj2 Kf), dget_in, Df).
        destruct (row_differs r f) eqn:Rd; injection Es as <-.
        -- split; intros c.
           ++ intros v J. rewrite (written_id r old id c); [|apply (proj2 Kt), I|exact Oid]. unfold written.
              rewrite (proj2 (dget_iff c v _ (Mt id r I)) J). apply tool_equal_refl.
           ++ intros N. rewrite (written_id r old id c); [|apply (proj2 Kt), I|exact Oid]. unfold written.
              rewrite (proj2 (dget_none c r) N), O. reflexivity.
        -- destruct (X id r f old I (dget_in _ _ _ Df) O) as [Y|Y].
           { apply (seen_differs r f) in Y; [congruence|]. apply (Mf id), dget_in, Df. }
           split; [exact Y|]. intros c _. rewrite O. reflexivity.
      * injection Es as <-. split; intros c.
        -- intros v J. unfold written. rewrite (proj2 (dget_iff c v _ (Mt id r I)) J). apply tool_equal_refl.
        -- intros N. unfold written. rewrite (proj2 (dget_none c r) N), R. reflexivity.
Qed.

(** ** C22 *)
(** Exactly the live ids are deleted that neither the table had nor an accepted row of an INSERT has. *)
Theorem C22_exact : forall t inserts t' f ops id,
  add_all_rows t inserts = (t', None) -> keyed (rows_of t) -> (forall x, t_rows f = Some x -> keyed x) ->
  to_rows t' (Some f) = Ok ops ->
  (In (ORowDelete (t_name t) id) ops <->
   In id (dkeys (rows_of f)) /\ ~ In id (dkeys (rows_of t))
   /\ forall r vals, In r inserts -> In "id" (insert_columns t r) -> In vals (r_raw r) -> ~ row_with_id t r vals id).
Proof.
  intros t inserts t' f ops id A K Kf E.
  destruct (add_all_ok _ _ _ A) as (_ & En & K' & _ & _ & Ids & _ & _).
  destruct (to_rows_inv _ _ _ E) as (trows & frows & Et & Tf & Ef).
  assert (Kt : keyed trows). { specialize (K' K). unfold rows_of in K'. rewrite Et in K'. exact K'. }
  specialize (Kf frows Ef).
  rewrite (to_rows_ok t' (Some f) trows frows Et Kt (conj Tf Ef)) in E. injection E as <-.
  assert (Ids' := Ids id). unfold rows_of at 1 in Ids'. rewrite Et in Ids'. unfold rows_of at 1. rewrite Ef, En, row_ops_in by assumption. split.
  - intros [(i & q & [=] & _)|[(i & q & [= <-] & I & Ni)|(i & q & g & [=] & _)]].
    split; [apply (in_map fst) in I; exact I|]. split; [intros X; apply Ni, Ids'; left; exact X|].
    intros r vals Hr Hi Hv W. apply Ni, Ids'. right. eauto 7.
  - intros (I & N & X). right; left. apply in_map_iff in I as ((i, q) & Ei & I). cbn [fst] in Ei. subst i. exists id, q. split; [reflexivity|]. split; [exact I|].
    intros Y. apply Ids' in Y as [Y|(r & vals & Hr & Hi & Hv & W)]; [contradiction|]. exact (X r vals Hr Hi Hv W).
Qed.

(** A column that is not live: the rows are not reached; with a difference in the name they are. *)
Example ex_C19_exact : (exists to from s, rows_ready all_cols to from s
    /\ exists n t id r f, In (n, t) to /\ In (id, r) (rows_of t) /\ In (id, f) (live_rows from n) /\ ~ difference_seen r f /\ exists old c v, s n id = Some old /\ In (c, v) r /\ ~ tool_equal v (old c))
  /\ difference_seen (vals [("id", RStr "1"); ("name", RStr "x"); ("note", RStr "y")]) (vals [("id", RStr "1"); ("name", RStr "z")]).
Proof.
  split.
  - exists (db [wide]), (db [narrow]), (served (db [narrow])). split; [exact narrow_ready|].
    exists "roles", wide, "1". do 2 eexists. split; [left; reflexivity|]. split; [left; reflexivity|]. split; [left; reflexivity|]. split.
    + intros (c & v & w & H & G & L). cbn in H, G. intuition; repeat match goal with X : (_, _) = (_, _) |- _ => injection X; clear X; intros; subst end; discriminate.
    + eexists. exists "note", (RStr "x"). split; [reflexivity|]. split; [right; left; reflexivity|]. intros (w & E & L). cbn in E. destruct w; discriminate.
  - exists "name", (RStr "x"), (RStr "z"). cbn. intuition.
Qed.

Print Assumptions C19_exact.
Print Assumptions C22_exact.
Print Assumptions C24_exact.
