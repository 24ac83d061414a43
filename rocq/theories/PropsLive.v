(** C68: the rows of a live database, and the row part of the plan command. *)
From Verif Require Import SpecLive RowRead ValidMore PropsCommand PropsRows Samples StrFacts.

(** ** One raw row *)

Lemma dget_map {A B} (f : string * A -> B) (d : dict string A) c :
  dget c (map (fun p => (fst p, f p)) d) = match dget c d with Some a => Some (f (c, a)) | None => None end.
Proof.
  induction d as [|[k a] d IH]; simpl; [reflexivity|]. destruct (String.eqb_spec c k) as [->|N]; [reflexivity|exact IH].
Qed.

(** A raw row without usable id raises; one whose id is there changes nothing; any other is stored
    under its id, with the given value or the default for each column of the table. *)
Theorem C68_raw_row : forall t raw t' r, add_raw_row t raw = (t', r) ->
  let id := match dget "id" raw with Some v => rval_str v | None => "None" end in
  t' = with_rows t (Some (rows_of t')) (t_global_errors t) (t_global_warnings t)
  /\ match r with
     | Raise _ => id = "" /\ rows_of t' = rows_of t
     | Ok (Some _) => In id (dkeys (rows_of t)) /\ rows_of t' = rows_of t
     | Ok None => id <> "" /\ ~ In id (dkeys (rows_of t))
        /\ exists row, (forall i, dget i (rows_of t') = if String.eqb i id then Some row else dget i (rows_of t))
           /\ dget "id" row = Some (RStr id)
           /\ forall c, c <> "id" ->
                dget c row = match dget c (t_columns t), dget c raw with
                             | Some _, Some v => Some v
                             | Some col, None => Some (rval_of_default (c_default col))
                             | None, _ => None
                             end
     end.
Proof.
  intros t raw t' r. unfold add_raw_row. set (id := match dget "id" raw with Some v => rval_str v | None => "None" end).
  assert (R : match t_rows t with Some d => d | None => [] end = rows_of t) by reflexivity. rewrite R.
  destruct (is_empty id) eqn:E1.
  - intros [= <- <-]. split; [reflexivity|]. split; [|reflexivity]. destruct id; [reflexivity|discriminate].
  - destruct (dmem id (rows_of t)) eqn:E2.
    + intros [= <- <-]. split; [reflexivity|]. split; [apply dmem_iff, E2|reflexivity].
    + intros [= <- <-]. split; [reflexivity|]. split; [intros Z; rewrite Z in E1; discriminate|].
      split; [apply dmem_false, E2|]. eexists. split; [|split].
      * intros i. unfold rows_of at 1. cbn [t_rows with_rows]. rewrite dget_dset. reflexivity.
      * rewrite dget_dset. reflexivity.
      * intros c N. rewrite dget_dset. simpl. destruct (String.eqb_spec c "id") as [|_]; [contradiction|].
        rewrite (dget_map (fun p => match dget (fst p) raw with Some v => v | None => rval_of_default (c_default (snd p)) end)).
        simpl. destruct (dget c (t_columns t)); [|reflexivity]. destruct (dget c raw); reflexivity.
Qed.

(** ** All the rows of a table *)

Section Read.
  Context (t : table) (s : srows).
  Hypothesis (C : NoDup (dkeys (t_columns t))).

  (** Rows read so far. *)
  Record partly (l : list row) (rows : dict string row) : Prop := {
    py_keyed : keyed rows;
    py_maps : row_maps rows;
    py_vals : forall id r, In (id, r) rows -> exists sr, s id = Some sr /\ forall c v, In (c, v) r -> sr c = sql_of v;
    py_cols : forall id r c, In (id, r) rows -> In c (dkeys (t_columns t)) -> In c (dkeys r);
    py_all : forall r v, In r l -> dget "id" r = Some v -> In (rval_str v) (dkeys rows)
  }.

  Definition state (rows : dict string row) : table := with_rows t (Some rows) (t_global_errors t) (t_global_warnings t).

  Lemma raw_step l rows u raw : partly l rows ->
    (u = state rows \/ (u = t /\ t_rows t = None /\ rows = [])) ->
    (exists v sr, dget "id" raw = Some v /\ v <> RNone /\ rval_str v <> "" /\ s (rval_str v) = Some sr
      /\ (forall c w, dget c raw = Some w -> sr c = sql_of w)
      /\ (forall c, In c (dkeys (t_columns t)) -> In c (dkeys raw))) ->
    exists rows' r, add_raw_row u raw = (state rows', Ok r) /\ partly (l +++ [raw]) rows'.
  Proof.
    intros P U (v & sr & I & Nv & Ne & Es & Vals & Cols).
    assert (Ru : rows_of u = rows /\ t_columns u = t_columns t /\ forall x, with_rows u x (t_global_errors u) (t_global_warnings u) = with_rows t x (t_global_errors t) (t_global_warnings t)).
    { destruct U as [->|(-> & N & ->)]; [split; [reflexivity|split; reflexivity]|]. split; [unfold rows_of; rewrite N; reflexivity|split; reflexivity]. }
    destruct Ru as (Ru & Cu & Wu). pose proof (add_raw_row_keyed u raw) as KM. rewrite Cu, Ru in KM.
    destruct (KM C (py_keyed _ _ P) (py_maps _ _ P)) as [K' M']. clear KM.
    destruct (add_raw_row u raw) as [u' r] eqn:E. pose proof (C68_raw_row _ _ _ _ E) as [W R]. rewrite I in R. cbn [fst] in K', M'.
    rewrite Wu in W. rewrite Cu in R. destruct r as [[m|]|e].
    - destruct R as [In' Er]. rewrite Er, Ru in W. exists rows, (Some m). split; [rewrite W; reflexivity|].
      destruct P as [P1 P2 P3 P4 P5]. constructor; auto. intros r v' Hr Hv. apply in_app_iff in Hr as [Hr|[<-|[]]]; [eauto|].
      rewrite I in Hv. injection Hv as <-. rewrite Ru in In'. exact In'.
    - destruct R as (_ & Nin & row & G & Gi & Gc). rewrite Ru in Nin, G. exists (rows_of u'), None.
      split; [rewrite W; reflexivity|].
      assert (ND : NoDup (dkeys (rows_of u'))) by apply K'.
      assert (Old : forall id r, In (id, r) (rows_of u') -> (id = rval_str v /\ r = row) \/ In (id, r) rows).
      { intros id r H. apply (dget_iff id r _ ND) in H. rewrite G in H. destruct (String.eqb_spec id (rval_str v)) as [->|N].
        - left. split; congruence.
        - right. apply dget_in. exact H. }
      constructor; auto.
      + intros id r H. destruct (Old id r H) as [[-> ->]|H']; [|exact (py_vals _ _ P _ _ H')].
        exists sr. split; [exact Es|]. intros c w Hc. apply (dget_iff c w row (M' _ _ H)) in Hc.
        destruct (String.eqb_spec c "id") as [->|N].
        * rewrite Gi in Hc. injection Hc as <-. rewrite (Vals _ _ I). destruct v; [contradiction|reflexivity|reflexivity|reflexivity].
        * rewrite (Gc c N) in Hc. destruct (dget c (t_columns t)) as [col|] eqn:Ec; [|discriminate].
          assert (Ic : In c (dkeys raw)) by (apply Cols; apply dget_in in Ec; eapply in_dkeys; eauto).
          destruct (dget c raw) as [x|] eqn:Ex; [|apply dget_none in Ex; contradiction]. injection Hc as <-. apply Vals, Ex.
      + intros id r c H Hc. destruct (Old id r H) as [[-> ->]|H']; [|exact (py_cols _ _ P _ _ _ H' Hc)].
        destruct (String.eqb_spec c "id") as [->|N]; [apply dget_in in Gi; eapply in_dkeys; eauto|].
        destruct (dget c (t_columns t)) as [col|] eqn:Ec; [|apply dget_none in Ec; contradiction].
        pose proof (Gc c N) as G'. rewrite Ec in G'. destruct (dget c raw); apply dget_in in G'; eapply in_dkeys; eauto.
      + intros r v' Hr Hv. assert (X : In (rval_str v') (dkeys rows) \/ rval_str v' = rval_str v).
        { apply in_app_iff in Hr as [Hr|[<-|[]]]; [left; exact (py_all _ _ P _ _ Hr Hv)|right; congruence]. }
        destruct (dget (rval_str v') (rows_of u')) eqn:D; [apply dget_in in D; eapply in_dkeys; eauto|]. exfalso.
        rewrite G in D. destruct (String.eqb_spec (rval_str v') (rval_str v)) as [|N]; [discriminate|].
        destruct X as [X|X]; [|contradiction]. apply dget_none in D. contradiction.
    - destruct R as [Z _]. contradiction.
  Qed.

  Lemma raw_rows l2 : forall l1 rows u, partly l1 rows ->
    (u = state rows \/ (u = t /\ t_rows t = None /\ rows = [])) ->
    selects (l1 +++ l2) s (dkeys (t_columns t)) ->
    exists rows', read_raw_rows u l2 = (state rows', None) /\ partly (l1 +++ l2) rows'.
  Proof.
    induction l2 as [|raw l2 IH]; intros l1 rows u P U S.
    - exists rows. rewrite app_nil_r. split; [|exact P]. simpl. unfold mark_tracking_rows, state.
      destruct U as [->|(-> & N & ->)]; [reflexivity|]. rewrite N. reflexivity.
    - cbn [read_raw_rows]. destruct (raw_step l1 rows u raw P U) as (rows' & r & E & P').
      { apply (se_rows _ _ _ S). apply in_app_iff. right. left. reflexivity. }
      rewrite E. replace (l1 +++ raw :: l2) with ((l1 +++ [raw]) +++ l2) in * by (rewrite <- app_assoc; reflexivity).
      exact (IH _ _ _ P' (or_introl eq_refl) S).
  Qed.

  Lemma read_all l : t_rows t = None -> selects l s (dkeys (t_columns t)) ->
    exists rows, read_raw_rows t l = (state rows, None) /\ keyed rows /\ row_maps rows /\ reads rows s
      /\ forall id r c, In (id, r) rows -> In c (dkeys (t_columns t)) -> In c (dkeys r).
  Proof.
    intros N S. destruct (raw_rows l [] [] t) as (rows & E & P); [|auto|exact S|].
    - constructor; [apply keyed_nil|intros id r []|intros id r []|intros id r c []|intros r v []].
    - exists rows. split; [exact E|]. destruct P as [P1 P2 P3 P4 P5]. split; [exact P1|]. split; [exact P2|]. split; [|exact P4].
      intros id. destruct (dget id rows) as [r|] eqn:D.
      + apply P3. apply dget_in. exact D.
      + destruct (s id) as [sr|] eqn:Es; [|reflexivity]. destruct (se_all _ _ _ S id sr Es) as (r & v & Hr & Hv & <-).
        apply dget_none in D. exfalso. apply D. eapply P5; eauto.
  Qed.
End Read.

(** ** All the tables *)

(** What becomes of the live table that a managed table of the files has. *)
Definition read_as (s : srows) (f : table) (f' : table) : Prop :=
  exists rows, f' = with_rows f (Some rows) (t_global_errors f) (t_global_warnings f)
    /\ keyed rows /\ row_maps rows /\ reads rows s
    /\ forall id r c, In (id, r) rows -> In c (dkeys (t_columns f)) -> In c (dkeys r).

Lemma read_tracked_ok rows_of (s : rserver) files : forall live,
  NoDup (map t_name files) ->
  (forall t f, In t files -> t_tracking t = true -> dget (t_name t) live = Some f ->
     t_rows f = None /\ NoDup (dkeys (t_columns f))
     /\ exists l, rows_of (t_name t) = Ok l /\ selects l (s (t_name t)) (dkeys (t_columns f))) ->
  exists live', read_tracked rows_of files live = Ok live' /\ dkeys live' = dkeys live
    /\ forall n, (exists t f, In t files /\ t_tracking t = true /\ t_name t = n /\ dget n live = Some f
                   /\ exists f', dget n live' = Some f' /\ read_as (s n) f f')
                 \/ ((forall t, In t files -> t_tracking t = true -> t_name t = n -> dget n live = None) /\ dget n live' = dget n live).
Proof.
  induction files as [|t files IH]; intros live ND H.
  - exists live. split; [reflexivity|]. split; [reflexivity|]. intros n. right. split; [intros t []|reflexivity].
  - cbn [read_tracked]. inversion ND as [|x y Nin ND']; subst.
    assert (Skip : t_tracking t = false \/ dget (t_name t) live = None -> exists live', read_tracked rows_of files live = Ok live' /\ dkeys live' = dkeys live
      /\ forall n, (exists u f, In u (t :: files) /\ t_tracking u = true /\ t_name u = n /\ dget n live = Some f
                   /\ exists f', dget n live' = Some f' /\ read_as (s n) f f')
                 \/ ((forall u, In u (t :: files) -> t_tracking u = true -> t_name u = n -> dget n live = None) /\ dget n live' = dget n live)).
    { intros K. destruct (IH live ND') as (live' & E & D & G); [intros u f Hu; apply H; right; exact Hu|].
      exists live'. split; [exact E|]. split; [exact D|]. intros n. destruct (G n) as [(u & f & Hu & R)|[A B]].
      - left. exists u, f. split; [right; exact Hu|exact R].
      - right. split; [|exact B]. intros u [<-|Hu] T En; [|eauto]. subst n. destruct K as [K|K]; [congruence|exact K]. }
    destruct (t_tracking t) eqn:T; cbn [negb]; [|auto].
    destruct (dget (t_name t) live) as [f|] eqn:F; [|auto]. clear Skip.
    destruct (H t f (or_introl eq_refl) T F) as (R0 & C & l & El & S). rewrite El. cbn [bind].
    destruct (read_all f (s (t_name t)) C l R0 S) as (rows & E & K1 & K2 & K3 & K4). rewrite E.
    destruct (IH (dset (t_name t) (state f rows) live) ND') as (live' & E' & D & G).
    { intros u g Hu Tu Gu. rewrite dget_dset in Gu. simpl in Gu. destruct (String.eqb_spec (t_name u) (t_name t)) as [Z|_].
      - exfalso. apply Nin. rewrite <- Z. apply in_map, Hu.
      - apply H; [right; exact Hu|exact Tu|exact Gu]. }
    exists live'. split; [exact E'|]. split.
    { rewrite D. apply dkeys_dset_present, dmem_iff. apply dget_in in F. eapply in_dkeys; eauto. }
    intros n. specialize (G n). rewrite dget_dset in G. simpl in G. destruct (String.eqb_spec n (t_name t)) as [Z|N].
    + subst n. left. exists t, f. split; [left; reflexivity|]. split; [exact T|]. split; [reflexivity|]. split; [exact F|].
      destruct G as [(u & g & Hu & _ & En & _)|[_ B]]; [exfalso; apply Nin; rewrite <- En; apply in_map, Hu|].
      exists (state f rows). split; [exact B|]. exists rows. auto.
    + destruct G as [(u & g & Hu & R)|[A B]].
      * left. exists u, g. split; [right; exact Hu|exact R].
      * right. split; [|exact B]. intros u [<-|Hu] Tu En; [congruence|eauto].
Qed.

Lemma names_of (to : tables) : (forall n t, In (n, t) to -> t_name t = n) -> map t_name (dvals to) = dkeys to.
Proof.
  intros H. unfold dvals, dkeys. rewrite map_map. apply map_ext_in. intros [n t] I. apply H, I.
Qed.

Lemma plan_ready_rows has to live rows_of s : plan_ready has to live rows_of s ->
  exists live', read_tracked rows_of (dvals to) live = Ok live' /\ dkeys live' = dkeys live
    /\ (forall n, (forall t, In (n, t) to -> t_tracking t = false) -> dget n live' = dget n live)
    /\ (forall n t f, In (n, t) to -> t_tracking t = true -> dget n live = Some f ->
          exists f', dget n live' = Some f' /\ read_as (s n) f f')
    /\ rows_ready has to live' s.
Proof.
  intros [P1 P2 P3 P4].
  assert (Dv : forall t, In t (dvals to) -> In (t_name t, t) to).
  { intros t Ht. apply dvals_in in Ht as (n & Hn). rewrite (P2 _ _ Hn). exact Hn. }
  destruct (read_tracked_ok rows_of s (dvals to) live) as (live' & E & D & G).
  { rewrite names_of; auto. }
  { intros t f Ht T F. specialize (P4 _ _ (Dv t Ht) T). rewrite F in P4. exact P4. }
  exists live'. split; [exact E|]. split; [exact D|].
  assert (G1 : forall n t f, In (n, t) to -> t_tracking t = true -> dget n live = Some f ->
          exists f', dget n live' = Some f' /\ read_as (s n) f f').
  { intros n t f Ht T F. destruct (G n) as [(u & g & _ & _ & _ & Gn & R)|[A _]]; [rewrite Gn in F; injection F as <-; exact R|].
    rewrite (A t) in F; [discriminate| |exact T|exact (P2 _ _ Ht)]. unfold dvals. apply in_map_iff. exists (n, t). auto. }
  split; [|split; [exact G1|]].
  - intros n Hn. destruct (G n) as [(u & g & Hu & T & En & _)|[_ B]]; [|exact B]. exfalso.
    apply Dv in Hu. rewrite En in Hu. rewrite (Hn u Hu) in T. discriminate.
  - constructor; auto. intros n t Ht T. specialize (P4 n t Ht T). destruct (dget n live) as [f|] eqn:F.
    + destruct (G1 n t f Ht T F) as (f' & -> & rows & -> & K1 & K2 & K3 & _). split; [reflexivity|]. exists rows. auto.
    + destruct (G n) as [(u & g & _ & _ & _ & Gn & _)|[_ ->]]; [congruence|]. rewrite F. exact P4.
Qed.

(** ** C68 *)

(** Exactly the rows of the managed tables are read, each completely; other tables are left alone. *)
Theorem C68_live_rows_read : forall has to live rows_of s, plan_ready has to live rows_of s ->
  exists live', read_tracked rows_of (dvals to) live = Ok live' /\ dkeys live' = dkeys live
    /\ (forall n, (forall t, In (n, t) to -> t_tracking t = false) -> dget n live' = dget n live)
    /\ (forall n t f, In (n, t) to -> t_tracking t = true -> dget n live = Some f ->
          exists rows, dget n live' = Some (with_rows f (Some rows) (t_global_errors f) (t_global_warnings f))
            /\ reads rows (s n) /\ forall id r c, In (id, r) rows -> In c (dkeys (t_columns f)) -> In c (dkeys r)).
Proof.
  intros has to live rows_of s P. destruct (plan_ready_rows _ _ _ _ _ P) as (live' & E & D & U & R & _).
  exists live'. split; [exact E|]. split; [exact D|]. split; [exact U|]. intros n t f Ht T F.
  destruct (R n t f Ht T F) as (f' & G & rows & -> & _ & _ & K & C). exists rows. auto.
Qed.

Section Command.
  Context {FO : FloatOracle}.

  Lemma structural_exec has dflt l : (forall o, In o l -> structural o) -> forall s, exec_rows has dflt l s = Some s.
  Proof.
    induction l as [|o l IH]; intros H s; [reflexivity|]. cbn [exec_rows].
    replace (exec_row has dflt s o) with (Some s) by (specialize (H o (or_introl eq_refl)); destruct o; try destruct H; reflexivity).
    apply IH. intros o' Ho. apply H. right. exact Ho.
  Qed.
  Lemma exec_app has dflt l m s : exec_rows has dflt (l +++ m) s
    = match exec_rows has dflt l s with Some s' => exec_rows has dflt m s' | None => None end.
  Proof. revert s. induction l as [|o l IH]; intros s; simpl; [reflexivity|]. destruct (exec_row has dflt s o); auto. Qed.

  (** The whole plan of the command, executed on the rows of the server, for managed tables whose
      columns in file rows exist on the live table (see C24 for the others). *)
  Theorem C68_command_rows : forall force files b live sel ops has dflt s,
    db_errors files = (b, Ok []) ->
    build_commands force files (Ok live) sel = (b, Ok ops) ->
    plan_ready has (db_tables b) live sel s ->
    (forall n t f id r c, In (n, t) (db_tables b) -> t_tracking t = true -> dget n live = Some f ->
       In (id, r) (rows_of t) -> In c (dkeys r) -> In c (dkeys (t_columns f))) ->
    exists s', exec_rows has dflt ops s = Some s'
      /\ (forall n t, In (n, t) (db_tables b) -> t_tracking t = true -> rows_reached (rows_of t) (dflt n) (s n) (s' n))
      /\ (forall n, (forall t, In (n, t) (db_tables b) -> t_tracking t = false) -> forall id, s' n id = s n id).
  Proof.
    intros force files b live sel ops has dflt s E B P L.
    destruct (plan_ready_rows _ _ _ _ _ P) as (live' & Er & D & U & R & RR).
    unfold build_commands in B. rewrite E in B. cbn [list_is_nil negb andb bind] in B. rewrite Er in B.
    destruct (C19_rows_reached_partial has dflt (db_tables b) live' s RR) as (rops & s' & Pl & Ex & Q1 & Q2).
    { intros n t f' Ht T F'. destruct (dget n live) as [f|] eqn:F.
      - destruct (R n t f Ht T F) as (f2 & F2 & rows & -> & _ & _ & _ & C). rewrite F' in F2. injection F2 as ->.
        intros id r g c Hr Hg Hc. apply (C id); [exact Hg|]. eapply L; eauto.
      - apply dget_none in F. rewrite <- D in F. apply dget_in in F'. exfalso. apply F. eapply in_dkeys; eauto. }
    destruct (mygration false b (Some live')) as [b2 [st|e]] eqn:M; [|discriminate]. injection B as -> B.
    rewrite Pl in B. cbn [bind] in B. injection B as <-. exists s'. split; [|auto].
    assert (St : forall o, In o (match st with Some o => o | None => [] end) -> structural o).
    { destruct st as [sops|]; [|intros o []]. unfold mygration in M. destruct (db_errors b) as [b3 [[|]|]]; try discriminate.
      destruct (plan_tables false (db_tables b3) (Some live')) eqn:Ep; simpl in M; [|discriminate].
      injection M as <- <-. intros o. eapply plan_tables_ops; eauto. }
    set (so := match st with Some o => o | None => [] end) in *. clearbody so.
    unfold bracket. destruct (list_is_nil _) eqn:Z.
    - destruct so; [|discriminate]. simpl in Z. destruct rops; [|discriminate]. exact Ex.
    - rewrite <- app_assoc. assert (X : exec_rows has dflt (so +++ rops +++ [OEnable]) s = Some s').
      { rewrite exec_app, (structural_exec has dflt so St), exec_app, Ex. reflexivity. }
      exact X.
  Qed.
End Command.

(** A managed table with three rows live (one of them without change), one that is new, and an
    unmanaged one. *)
Definition bare_roles : table := tbl "roles" roles_cols [primary_key ["id"]] [].
Definition select_roles : list row :=
  [vals [("id", RInt 2); ("name", RStr "old"); ("note", RStr "n")];
   vals [("id", RInt 3); ("name", RNone); ("note", RNone)];
   vals [("id", RInt 4); ("name", RStr "gone"); ("note", RStr "")]].
Definition select_from (n : string) : res (list row) :=
  if String.eqb n "roles" then Ok select_roles else Raise (KeyError n).
Definition files_db : database := mkDatabase (map (fun t => (t_name t, fresh t)) [roles_file; plain_table]) (Some []) [] [] None None None None.
Lemma served_roles id : served (db [roles_live]) "roles" id
  = match dget id (rows_of roles_live) with
    | Some r => Some (fun c => match dget c r with Some v => sql_of v | None => None end)
    | None => None
    end.
Proof. reflexivity. Qed.
Example ex_C68 {FO : FloatOracle} :
  plan_ready all_cols (db [roles_file; plain_table]) (db [bare_roles; plain_table]) select_from (served (db [roles_live]))
  /\ exists b ops, db_errors files_db = (b, Ok []) /\ db_tables b = db [roles_file; plain_table]
       /\ build_commands false files_db (Ok (db [bare_roles; plain_table])) select_from = (b, Ok ops)
       /\ map op_str ops = ["SET FOREIGN_KEY_CHECKS=0;"; "INSERT INTO `roles` (`id`, `name`) VALUES ('1', 'admin');";
            "DELETE FROM `roles` WHERE id='4';"; "UPDATE `roles` SET `name`='it's' WHERE id='2';"; "SET FOREIGN_KEY_CHECKS=1;"].
Proof.
  split; [constructor|].
  - apply nodupb_ok. reflexivity.
  - intros n t [[= <- <-]|[[= <- <-]|[]]]; reflexivity.
  - intros n t [[= <- <-]|[[= <- <-]|[]]] T; [|discriminate].
    eexists. split; [reflexivity|]. destruct (keyedb_ok _ (eq_refl : keyedb (rows_of roles_file) = true)) as [K M].
    split; [exact K|]. split; [exact M|]. reflexivity.
  - intros n t [[= <- <-]|[[= <- <-]|[]]] T; [|discriminate]. change (dget _ _) with (Some bare_roles).
    split; [reflexivity|]. split; [apply nodupb_ok; reflexivity|]. exists select_roles. split; [reflexivity|]. constructor.
    + assert (G : forall raw r id, dget id (rows_of roles_live) = Some r -> (exists v, dget "id" raw = Some v /\ v <> RNone /\ rval_str v = id) -> id <> "" ->
         forallb (fun c => smem c (dkeys raw)) (dkeys (t_columns bare_roles)) = true ->
         (forall c w, dget c raw = Some w -> exists x, dget c r = Some x /\ sql_of x = sql_of w) ->
         exists v sr, dget "id" raw = Some v /\ v <> RNone /\ rval_str v <> "" /\ served (db [roles_live]) "roles" (rval_str v) = Some sr
          /\ (forall c w, dget c raw = Some w -> sr c = sql_of w) /\ (forall c, In c (dkeys (t_columns bare_roles)) -> In c (dkeys raw))).
      { intros raw r id G (v & I & N & <-) Ne Cs Vs. exists v. eexists. split; [exact I|]. split; [exact N|]. split; [exact Ne|].
        split; [rewrite served_roles, G; reflexivity|].
        split; [|intros c Hc; rewrite forallb_forall in Cs; apply smem_iff, Cs, Hc].
        intros c w Hc. simpl. destruct (Vs c w Hc) as (x & -> & E). exact E. }
      intros r [<-|[<-|[<-|[]]]].
      * apply (G _ (vals [("id", RStr "2"); ("name", RStr "old"); ("note", RStr "n")]) "2"); [reflexivity|eexists; repeat split; discriminate|discriminate|reflexivity|].
        intros c w. simpl. repeat (destruct (String.eqb c _); [intros [= <-]; eexists; split; reflexivity|]). discriminate.
      * apply (G _ (vals [("id", RStr "3"); ("name", RNone); ("note", RNone)]) "3"); [reflexivity|eexists; repeat split; discriminate|discriminate|reflexivity|].
        intros c w. simpl. repeat (destruct (String.eqb c _); [intros [= <-]; eexists; split; reflexivity|]). discriminate.
      * apply (G _ (vals [("id", RStr "4"); ("name", RStr "gone"); ("note", RStr "")]) "4"); [reflexivity|eexists; repeat split; discriminate|discriminate|reflexivity|].
        intros c w. simpl. repeat (destruct (String.eqb c _); [intros [= <-]; eexists; split; reflexivity|]). discriminate.
    + intros id sr H. rewrite served_roles in H.
      destruct (dget id (rows_of roles_live)) as [r|] eqn:D; [|discriminate]. simpl in D.
      destruct (String.eqb_spec id "2") as [->|_]; [exists (nth 0 select_roles []), (RInt 2); simpl; auto|].
      destruct (String.eqb_spec id "3") as [->|_]; [exists (nth 1 select_roles []), (RInt 3); simpl; auto|].
      destruct (String.eqb_spec id "4") as [->|_]; [exists (nth 2 select_roles []), (RInt 4); simpl; auto|]. discriminate.
  - eexists. eexists. split; [vm_compute; reflexivity|]. split; [reflexivity|]. split; [vm_compute; reflexivity|]. vm_compute. reflexivity.
Qed.

Print Assumptions C68_raw_row.
Print Assumptions C68_live_rows_read.
Print Assumptions C68_command_rows.
