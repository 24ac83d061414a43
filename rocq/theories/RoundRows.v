(** The rows of the INSERT statements end up in their tables. *)
From Verif Require Export RoundMany.

Local Opaque max_turns max_statements.

Lemma NoDup_app_remove_r {A} (a b : list A) : NoDup (a +++ b) -> NoDup a.
Proof. induction a as [|x a IH]; intros H; [constructor|]. inversion H as [|? ? X Y]; subst. constructor; [intros I; apply X, in_or_app; left; exact I|apply IH, Y]. Qed.
Lemma NoDup_app_remove_l {A} (a b : list A) : NoDup (a +++ b) -> NoDup b.
Proof. induction a as [|x a IH]; intros H; [exact H|]. inversion H; subst. auto. Qed.

(** ** Rows of one table *)

Lemma zip_combine cols : NoDup cols -> forall (vals : list rval), zip_row cols vals = List.combine cols vals.
Proof.
  intros N vals. unfold zip_row.
  assert (G : forall (acc : row) l, NoDup (dkeys acc +++ map fst l) -> fold_left (fun r p => dset (fst p) (snd p) r) l acc = acc +++ l).
  { intros acc l. revert acc. induction l as [|[c v] l IH]; intros acc H; [rewrite app_nil_r; reflexivity|]. cbn [fold_left map fst snd] in *.
    assert (A : dmem c acc = false) by (apply dmem_false; intros X; apply NoDup_remove_2 in H; apply H, in_or_app; left; exact X).
    rewrite dset_absent by exact A. rewrite IH; [rewrite <- app_assoc; reflexivity|]. unfold dkeys in *. rewrite map_app, <- app_assoc. exact H. }
  apply (G []). cbn [dkeys map List.app]. revert vals. induction N as [|c cols X N IH]; intros [|v vals]; cbn [List.combine map]; constructor; [|apply IH].
  intros I. apply X. cbn [fst] in I. apply in_map_iff in I as ([a b] & E & I). cbn [fst] in E. subst a. apply in_combine_l in I. exact I.
Qed.
Lemma dset_same {V} k (v : V) (d : dict string V) : dget k d = Some v -> dset k v d = d.
Proof.
  induction d as [|[a b] d IH]; simpl; [discriminate|]. destruct (String.eqb_spec k a) as [->|X]; [intros [= ->]; reflexivity|].
  intros E. f_equal. apply IH, E.
Qed.
Lemma combine_nth c cols (vals : list rval) : List.length vals = List.length cols -> In c cols ->
  exists v, nth_error vals (list_index c cols) = Some v /\ dget c (List.combine cols vals) = Some v.
Proof.
  revert vals. induction cols as [|x cols IH]; intros [|v vals] L I; try discriminate; [destruct I|]. simpl.
  destruct (String.eqb_spec c x) as [->|X]; [exists v; auto|]. injection L as L. destruct I as [I|I]; [congruence|]. destruct (IH vals L I) as (u & A & B). exists u. auto.
Qed.

Definition stored (x : list string * list literal) : string * row := (id_of x, row_of x).
Definition with_new (t : table) (xs : list (list string * list literal)) : table :=
  match xs with [] => t | _ => with_rows t (Some (rows_of t +++ map stored xs)) (t_global_errors t) (t_global_warnings t) end.
Lemma with_new_app t a b : with_new (with_new t a) b = with_new t (a +++ b).
Proof.
  destruct a as [|x a]; [reflexivity|]. destruct b as [|y b]; [rewrite app_nil_r; reflexivity|]. cbn [with_new List.app]. unfold with_rows, rows_of. cbn.
  rewrite map_app, <- app_assoc. reflexivity.
Qed.
Lemma with_new_name t xs : t_name (with_new t xs) = t_name t.
Proof. destruct xs; reflexivity. Qed.

Section OneInsert.
  Variables (tname : string) (cols : list string).
  Hypothesis Nc : NoDup cols.
  Hypothesis Ic : In "id" cols.
  Lemma loop_rows gs : forall rows errs, Forall (fun g => List.length g = List.length cols) gs -> Forall (fun g => id_of (cols, g) <> "") gs ->
    NoDup (dkeys rows +++ map (fun g => id_of (cols, g)) gs) ->
    add_rows_loop tname true cols (list_index "id" cols) (map (map lit_value) gs) (rows, errs) = ((rows +++ map (fun g => stored (cols, g)) gs, errs), None).
  Proof.
    induction gs as [|g gs IH]; intros rows errs L N D; [cbn [map]; rewrite app_nil_r; reflexivity|].
    inversion L as [|? ? L1 L2]; inversion N as [|? ? N1 N2]; subst. cbn [map add_rows_loop]. unfold add_one_row. cbn [negb andb].
    destruct (combine_nth "id" cols (map lit_value g)) as (v & V1 & V2); [rewrite map_length; exact L1|exact Ic|]. rewrite V1.
    assert (Ev : v = RStr (id_of (cols, g))).
    { unfold id_of in *. change (row_of (cols, g)) with (List.combine cols (map lit_value g)) in *. rewrite V2 in N1 |- *.
      destruct v as [|s|z|a b t]; try (exfalso; apply N1; reflexivity). reflexivity. }
    subst v. cbn [rval_str]. set (i := id_of (cols, g)) in *.
    assert (Ei : is_empty i = false) by (destruct i; [contradiction|reflexivity]). rewrite Ei.
    assert (A : dmem i rows = false) by (apply dmem_false; intros X; cbn [map] in D; apply NoDup_remove_2 in D; apply D, in_or_app; left; exact X). rewrite A.
    rewrite dset_absent by exact A. rewrite zip_combine by exact Nc. rewrite dset_same by exact V2.
    rewrite IH; [rewrite <- app_assoc; reflexivity|exact L2|exact N2|]. unfold dkeys in *. rewrite map_app, <- app_assoc. exact D.
  Qed.
  Lemma add_insert t n gs : gs <> [] -> Forall (fun g => List.length g = List.length cols) gs -> Forall (fun x => id_of x <> "") (map (pair cols) gs) ->
    NoDup (dkeys (rows_of t) +++ map id_of (map (pair cols) gs)) -> t_name t = tname ->
    add_rows t (mkRows n (map (map lit_value) gs) cols (List.length cols) [] []) = (with_new t (map (pair cols) gs), None).
  Proof.
    intros G L N D E. unfold add_rows. cbn [r_perrors r_pwarnings r_explicit r_columns r_raw]. rewrite !app_nil_r.
    assert (X : negb (Nat.eqb (List.length cols) 0) = true) by (destruct cols; [destruct Ic|reflexivity]). rewrite X.
    assert (Y : smem "id" cols = true) by (apply smem_iff; exact Ic). rewrite Y. cbn [negb]. fold (rows_of t). rewrite E.
    rewrite Forall_map in N. rewrite map_map in D. rewrite loop_rows by assumption.
    destruct gs as [|g gs]; [contradiction|]. cbn [map with_new]. rewrite map_map. reflexivity.
  Qed.
End OneInsert.

(** ** Rows waiting for their tables *)

Definition tables_read (os : list (table + rows_def)) : list table := concat (map (fun o => match o with inl t => [t] | _ => [] end) os).
Definition rows_read (os : list (table + rows_def)) : list rows_def := concat (map (fun o => match o with inr w => [w] | _ => [] end) os).
Definition for_table (n : string) (w : rows_def) : bool := String.eqb (r_table w) n.
Definition push (d : dict string (list rows_def)) (w : rows_def) : dict string (list rows_def) := dpush (r_table w) w d.
(** The rows of the list, by table. *)
Definition waiting (d : dict string (list rows_def)) (ws : list rows_def) : Prop :=
  NoDup (dkeys d) /\ forall n, dget n d = match filter (for_table n) ws with [] => None | l => Some l end.

Lemma nodup_dset {V} k (v : V) (d : dict string V) : NoDup (dkeys d) -> NoDup (dkeys (dset k v d)).
Proof.
  intros N. destruct (dmem k d) eqn:M; [rewrite dkeys_dset_present by exact M; exact N|]. rewrite dset_absent by exact M. unfold dkeys. rewrite map_app.
  apply dmem_false in M. apply (NoDup_Add (a := k) (l := dkeys d)); [|split; assumption].
  cbn [map fst]. rewrite <- (app_nil_r (dkeys d)) at 1. apply Add_app.
Qed.
Lemma waiting_push d ws w : waiting d ws -> waiting (push d w) (ws +++ [w]).
Proof.
  intros [N H]. unfold push, dpush. split; [apply nodup_dset, N|]. intros n. rewrite dget_dset, filter_app, H. cbn [filter]. change (for_table n w) with (String.eqb (r_table w) n).
  change (keqb n (r_table w)) with (String.eqb n (r_table w)). rewrite (String.eqb_sym (r_table w) n).
  destruct (String.eqb_spec n (r_table w)) as [->|X].
  - destruct (filter (for_table (r_table w)) ws) as [|x l]; reflexivity.
  - rewrite app_nil_r, H. reflexivity.
Qed.
Lemma waiting_all ws' : forall d ws, waiting d ws -> waiting (fold_left push ws' d) (ws +++ ws').
Proof.
  induction ws' as [|w ws' IH]; intros d ws W; [rewrite app_nil_r; exact W|]. cbn [fold_left]. change (w :: ws') with ([w] +++ ws'). rewrite app_assoc. apply IH, waiting_push, W.
Qed.
Lemma waiting_flat d ws n : waiting d ws -> filter (for_table n) (concat (dvals d)) = filter (for_table n) ws.
Proof.
  intros [N H].
  assert (G : forall d', NoDup (dkeys d') -> (forall m l, In (m, l) d' -> Forall (fun w => r_table w = m) l) ->
    filter (for_table n) (concat (dvals d')) = match dget n d' with Some l => l | None => [] end).
  { induction d' as [|[m l] d' IH]; intros N' F; [reflexivity|]. cbn [dvals map concat snd]. rewrite filter_app. change (concat (map snd d')) with (concat (dvals d')).
    cbn [dkeys map fst] in N'. inversion N' as [|? ? M N'']; subst. rewrite (IH N'') by (intros a b I; apply F; right; exact I). simpl.
    pose proof (F m l (or_introl eq_refl)) as Fl. destruct (String.eqb_spec n m) as [->|X].
    - assert (E : dget m d' = None) by (apply dget_none; exact M). rewrite E, app_nil_r. clear -Fl. induction Fl as [|w l E Fl IH]; [reflexivity|]. cbn [filter].
      unfold for_table at 1. rewrite E, String.eqb_refl. f_equal. exact IH.
    - replace (filter (for_table n) l) with (@nil rows_def); [reflexivity|]. clear -Fl X. induction Fl as [|w l E Fl IH]; [reflexivity|]. cbn [filter].
      unfold for_table at 1. rewrite E. destruct (String.eqb_spec m n); [congruence|exact IH]. }
  rewrite (G d N).
  - rewrite H. destruct (filter (for_table n) ws); reflexivity.
  - intros m l I. apply dget_iff in I; [|exact N]. rewrite H in I. apply Forall_forall. intros w J.
    assert (J' : In w (filter (for_table m) ws)) by (destruct (filter (for_table m) ws); [discriminate|injection I as <-; exact J]).
    apply filter_In in J' as [_ J']. apply String.eqb_eq in J'. exact J'.
Qed.
Lemma waiting_same d ws ws' : (forall n, filter (for_table n) ws = filter (for_table n) ws') -> waiting d ws -> waiting d ws'.
Proof. intros E [N H]. split; [exact N|]. intros n. rewrite H, E. reflexivity. Qed.

Lemma put_all os : forall q, NoDup (dkeys (rd_tables q) +++ map t_name (tables_read os)) ->
  fold_left put os q = mkReader (rd_tables q +++ map (fun t => (t_name t, t)) (tables_read os)) (fold_left push (rows_read os) (rd_rows q)) (rd_errors q) (rd_matched q).
Proof.
  induction os as [|[t|w] os IH]; intros q N.
  - cbn. rewrite app_nil_r. destruct q; reflexivity.
  - change (tables_read (inl t :: os)) with (t :: tables_read os) in *. change (rows_read (inl t :: os)) with (rows_read os). cbn [fold_left put map] in *.
    assert (A : dmem (t_name t) (rd_tables q) = false) by (apply dmem_false; intros X; apply NoDup_remove_2 in N; apply N, in_or_app; left; exact X).
    rewrite IH; unfold put_table; cbn [rd_tables rd_rows rd_errors rd_matched]; rewrite dset_absent by exact A; [rewrite <- app_assoc; reflexivity|].
    unfold dkeys in *. rewrite map_app, <- app_assoc. exact N.
  - change (tables_read (inr w :: os)) with (tables_read os) in *. change (rows_read (inr w :: os)) with (w :: rows_read os). cbn [fold_left put].
    rewrite IH by exact N. reflexivity.
Qed.

(** ** The database of the sources *)

Lemma names_read l os : Forall2 read_as l os -> map t_name (tables_read os) = map tm_name (tables_in l).
Proof.
  induction 1 as [|st o l os R F IH]; [reflexivity|]. destruct st as [T|n cols gs], o as [t|w]; cbn [read_as] in R; try contradiction; [|exact IH].
  change (tables_read (inl t :: os)) with (t :: tables_read os). change (tables_in (StTable T :: l)) with (T :: tables_in l). cbn [map].
  rewrite IH. f_equal. apply (ts_name _ _ (rd_says _ _ _ R)).
Qed.
Lemma tables_read_app a b : tables_read (a +++ b) = tables_read a +++ tables_read b.
Proof. unfold tables_read. rewrite map_app, concat_app. reflexivity. Qed.
Lemma rows_read_app a b : rows_read (a +++ b) = rows_read a +++ rows_read b.
Proof. unfold rows_read. rewrite map_app, concat_app. reflexivity. Qed.
Lemma tables_in_app a b : tables_in (a +++ b) = tables_in a +++ tables_in b.
Proof. unfold tables_in. rewrite map_app, concat_app. reflexivity. Qed.

Definition stmt_rows_ok (st : stmt) : Prop :=
  match st with StTable _ => True | StRows _ cols gs => gs <> [] /\ Forall (fun g => List.length g = List.length cols) gs end.
Lemma statements_rows_ok l s : statements l s -> Forall stmt_rows_ok l.
Proof.
  assert (G : forall st s, stmt_written st s -> stmt_rows_ok st).
  { intros st x [T y W C|n cols gs sp gp y E Hn Hc Fc Hg Fg Lg Nd Nl]; [exact Logic.I|]. split; [exact Hg|]. eapply Forall_impl; [|exact Fg]. intros g (_ & _ & L). exact L. }
  induction 1 as [st s W|st s l r W Sr IH Eq]; constructor; try constructor; eauto.
Qed.
(** What is read of a source is the statements [l], whether or not an error that is caught ended the reading. *)
Definition yields (src : source) (l : list stmt) : Prop :=
  Forall stmt_rows_ok l /\ exists os m x, Forall2 read_as l os /\ caught x = None
    /\ let q := fold_left put os new_reader in read_sql (fst src) (snd src) = (mkReader (rd_tables q) (rd_rows q) (rd_errors q) m, x).
Lemma source_yields file l s : source_holds l s -> yields (file, s) l.
Proof.
  intros H. destruct (source_read l s H) as (os & A & R). destruct H as (_ & x & St & _). split; [apply (statements_rows_ok l x St)|].
  exists os, true, (Ok ""). split; [exact A|]. split; [reflexivity|]. apply (R file).
Qed.

Definition files_with (ts : list table) (d : dict string (list rows_def)) : database := mkDatabase (map entry ts) (Some d) [] [] None None None None.
Section Files.
  Context {FO : FloatOracle}.

  Lemma put_tables ts : forall ts0 d, NoDup (map t_name (ts0 +++ ts)) -> foldM put_file_table ts (files_with ts0 d) = Ok (files_with (ts0 +++ ts) d).
  Proof.
    induction ts as [|t ts IH]; intros ts0 d N; [rewrite app_nil_r; reflexivity|]. cbn [foldM]. unfold put_file_table.
    assert (A : dmem (t_name t) (d_tables (files_with ts0 d)) = false).
    { apply dmem_false. cbn [files_with d_tables]. rewrite entry_keys. intros I. rewrite map_app in N. cbn [map] in N. apply NoDup_remove_2 in N. apply N, in_or_app. left. exact I. }
    rewrite A. cbn [bind]. rewrite dset_absent by exact A.
    change (set_tables (files_with ts0 d) (d_tables (files_with ts0 d) +++ [(t_name t, fresh t)])) with (mkDatabase (map entry ts0 +++ map entry [t]) (Some d) [] [] None None None None).
    rewrite <- map_app. change (t :: ts) with ([t] +++ ts). rewrite app_assoc. apply IH. rewrite <- app_assoc. exact N.
  Qed.
  Lemma push_all ws : forall ts d, fold_left push_rows ws (files_with ts d) = files_with ts (fold_left push ws d).
  Proof. induction ws as [|w ws IH]; intros ts d; [reflexivity|]. cbn [fold_left]. rewrite <- IH. reflexivity. Qed.

  Lemma read_many srcs ls : Forall2 yields srcs ls -> forall ts0 d0 ws0,
    waiting d0 ws0 -> NoDup (map t_name ts0 +++ map tm_name (tables_in (concat ls))) ->
    exists os d, Forall2 read_as (concat ls) os /\ waiting d (ws0 +++ rows_read os)
      /\ foldM read_source srcs (files_with ts0 d0) = Ok (files_with (ts0 +++ tables_read os) d).
  Proof.
    induction 1 as [|[file s] l srcs ls H F IH]; intros ts0 d0 ws0 W N.
    - exists [], d0. cbn. rewrite !app_nil_r. split; [constructor|]. split; [exact W|reflexivity].
    - cbn [snd concat] in *. rewrite tables_in_app, map_app in N. destruct H as (_ & os & m & x & A & Cx & R). pose proof (names_read _ _ A) as En.
      rewrite <- En in N. assert (N1 : NoDup (map t_name (tables_read os))).
      { apply NoDup_app_remove_l in N. apply NoDup_app_remove_r in N. exact N. }
      assert (N2 : NoDup (map t_name (ts0 +++ tables_read os))) by (rewrite app_assoc in N; apply NoDup_app_remove_r in N; rewrite map_app; exact N).
      pose proof (put_all os new_reader N1) as Put. cbn [new_reader rd_tables rd_rows rd_errors rd_matched List.app] in Put.
      set (dr := fold_left push (rows_read os) []) in *.
      assert (Wr : waiting dr (rows_read os)) by (apply (waiting_all (rows_read os) [] []); split; [constructor|reflexivity]).
      set (d1 := fold_left push (concat (dvals dr)) d0).
      assert (W1 : waiting d1 (ws0 +++ rows_read os)).
      { apply (waiting_same _ (ws0 +++ concat (dvals dr))); [|apply waiting_all, W]. intros n. rewrite !filter_app. f_equal. apply waiting_flat, Wr. }
      assert (Step : read_source (files_with ts0 d0) (file, s) = Ok (files_with (ts0 +++ tables_read os) d1)).
      { unfold read_source. cbn [fst snd] in *. cbv zeta in R. rewrite R, Cx, Put. cbn [rd_tables rd_rows rd_errors].
        replace (dvals (map (fun t => (t_name t, t)) (tables_read os))) with (tables_read os) by (unfold dvals; rewrite map_map, map_id; reflexivity).
        rewrite put_tables by exact N2. cbn [bind]. change (add_errors (files_with (ts0 +++ tables_read os) d0) []) with (files_with (ts0 +++ tables_read os) d0).
        rewrite push_all. reflexivity. }
      destruct (IH (ts0 +++ tables_read os) d1 _ W1) as (os' & d & A' & W' & R'); [rewrite map_app, <- app_assoc; exact N|].
      exists (os +++ os'), d. split; [apply Forall2_app; assumption|]. split; [rewrite rows_read_app, app_assoc; exact W'|].
      cbn [foldM]. rewrite Step. cbn [bind]. rewrite R', tables_read_app, app_assoc. reflexivity.
  Qed.
End Files.

(** ** The rows in their tables *)

Lemma rows_in_app n a b : rows_in n (a +++ b) = rows_in n a +++ rows_in n b.
Proof. unfold rows_in. rewrite map_app, concat_app. reflexivity. Qed.
Lemma rows_in_cons n st l : rows_in n (st :: l) = rows_in n [st] +++ rows_in n l.
Proof. apply (rows_in_app n [st] l). Qed.
Lemma with_new_rows t a : map fst (rows_of (with_new t a)) = map fst (rows_of t) +++ map id_of a.
Proof. destruct a as [|x a]; [rewrite app_nil_r; reflexivity|]. unfold rows_of, with_new at 1. cbn [with_rows t_rows]. rewrite map_app, map_map. reflexivity. Qed.

Lemma add_all n l os : Forall2 read_as l os -> Forall stmt_rows_ok l -> (forall m cols gs, In (StRows m cols gs) l -> NoDup cols /\ In "id" cols) ->
  forall t, Forall (fun x => id_of x <> "") (rows_in n l) -> NoDup (map fst (rows_of t) +++ map id_of (rows_in n l)) ->
  foldM obj_add_rows (filter (for_table n) (rows_read os)) (fresh t) = Ok (fresh (with_new t (rows_in n l))).
Proof.
  induction 1 as [|st o l os R F IH]; intros Ok Co t Ne Nd; [reflexivity|]. inversion Ok as [|? ? O1 O2]; subst.
  assert (Co' : forall m cols gs, In (StRows m cols gs) l -> NoDup cols /\ In "id" cols) by (intros; eapply Co; right; eassumption).
  destruct st as [T|m cols gs], o as [t0|w]; cbn [read_as] in R; try contradiction.
  - change (rows_read (inl t0 :: os)) with (rows_read os). apply IH; assumption.
  - change (rows_read (inr w :: os)) with (w :: rows_read os). rewrite rows_in_cons in Nd, Ne |- *. cbn [filter]. subst w. unfold for_table at 1. cbn [r_table].
    unfold rows_in at 1 in Nd. unfold rows_in at 1 in Ne. unfold rows_in at 1. cbn [map concat] in *. rewrite app_nil_r in *.
    destruct (String.eqb_spec m n) as [->|X]; [|apply IH; assumption].
    apply Forall_app in Ne as [Ne1 Ne2]. rewrite map_app in Nd. destruct (Co n cols gs (or_introl eq_refl)) as [C1 C2]. destruct O1 as [G1 G2].
    cbn [foldM]. unfold obj_add_rows at 1. change (to_table (fresh t)) with t.
    rewrite (add_insert (t_name t) cols C1 C2 t n gs G1 G2 Ne1); [| |reflexivity].
    + cbn [bind]. change (mkTobj (with_new t (map (pair cols) gs)) (to_seen (fresh t)) None) with (fresh (with_new t (map (pair cols) gs))).
      rewrite <- with_new_app. apply IH; try assumption. rewrite with_new_rows, <- app_assoc. exact Nd.
    + rewrite app_assoc in Nd. apply NoDup_app_remove_r in Nd. exact Nd.
Qed.
Lemma dget_entry ts t : NoDup (map t_name ts) -> In t ts -> dget (t_name t) (map entry ts) = Some (fresh t).
Proof. intros N I. apply dget_iff; [rewrite entry_keys; exact N|]. change (t_name t, fresh t) with (entry t). apply in_map, I. Qed.
Lemma dset_entry ts t t' : NoDup (map t_name ts) -> In t ts -> t_name t' = t_name t ->
  dset (t_name t) (fresh t') (map entry ts) = map entry (map (fun x => if String.eqb (t_name x) (t_name t) then t' else x) ts).
Proof.
  intros N I E. induction ts as [|x ts IH]; [destruct I|]. cbn [map] in N. inversion N as [|? ? X N']; subst. cbn [map]. unfold entry at 1 3. simpl.
  rewrite (String.eqb_sym (t_name x) (t_name t)). destruct (String.eqb_spec (t_name t) (t_name x)) as [Q|Q].
  - assert (G : map entry ts = map entry (map (fun y => if String.eqb (t_name y) (t_name t) then t' else y) ts)); [|rewrite G; unfold entry at 2; rewrite E, ?Q; reflexivity].
    f_equal. rewrite Q in *. clear -X. induction ts as [|y ts IH]; [reflexivity|]. cbn [map] in *.
    destruct (String.eqb_spec (t_name y) (t_name x)) as [Z|Z]; [exfalso; apply X; left; exact Z|]. f_equal. apply IH. intros J. apply X. right. exact J.
  - f_equal. apply IH; [exact N'|]. destruct I as [I|I]; [subst; contradiction|exact I].
Qed.
Lemma combine_all up d : (forall t : table, t_name (up t) = t_name t) -> forall ts d', NoDup (map t_name ts) -> NoDup (dkeys d) ->
  (forall n ws, In (n, ws) d -> exists t, In t ts /\ t_name t = n /\ foldM obj_add_rows ws (fresh t) = Ok (fresh (up t))) ->
  foldM combine_one d (files_with ts d') = Ok (files_with (map (fun t => if dmem (t_name t) d then up t else t) ts) d').
Proof.
  intros Up. induction d as [|[n ws] d IH]; intros ts d' N Nd H; [cbn; rewrite map_id; reflexivity|]. cbn [foldM]. cbn [dkeys map fst] in Nd. inversion Nd as [|? ? M Nd']; subst.
  destruct (H n ws (or_introl eq_refl)) as (t & I & E & A). subst n.
  set (ts1 := map (fun x => if String.eqb (t_name x) (t_name t) then up t else x) ts).
  assert (Step : combine_one (files_with ts d') (t_name t, ws) = Ok (files_with ts1 d')).
  { unfold combine_one. cbn [files_with d_tables]. rewrite dget_entry by assumption. rewrite A. cbn [bind]. rewrite dset_entry by auto. reflexivity. }
  rewrite Step. cbn [bind].
  assert (Nm : map t_name ts1 = map t_name ts).
  { unfold ts1. rewrite map_map. apply map_ext_in. intros x J. destruct (String.eqb_spec (t_name x) (t_name t)) as [Q|Q]; [rewrite Up; congruence|reflexivity]. }
  rewrite IH; [|rewrite Nm; exact N|exact Nd'|].
  - do 2 f_equal. unfold ts1. rewrite map_map. apply map_ext_in. intros x J. simpl.
    destruct (String.eqb_spec (t_name x) (t_name t)) as [Q|Q]; cbn [orb]; [|reflexivity].
    assert (X : x = t).
    { clear -N I J Q. induction ts as [|y ts IH]; [destruct I|]. cbn [map] in N. inversion N as [|? ? X N']; subst. destruct I as [->|I], J as [->|J]; [reflexivity| | |apply IH; assumption].
      - exfalso. apply X. rewrite <- Q. apply in_map, J.
      - exfalso. apply X. rewrite Q. apply in_map, I. }
    subst x. rewrite Up. apply dmem_false in M. change (dmem (t_name t) d) with (existsb (fun p => keqb (t_name t) (fst p)) d) in M. change (dmem (t_name t) d = false) in M. rewrite M. reflexivity.
  - intros m ws' J. destruct (H m ws' (or_intror J)) as (y & I' & E' & A'). exists y. split; [|auto].
    apply in_map_iff. exists y. split; [|exact I']. destruct (String.eqb_spec (t_name y) (t_name t)) as [Q|Q]; [|reflexivity].
    exfalso. apply M. rewrite <- Q, E'. apply (in_dkeys m ws' d J).
Qed.

Lemma with_new_read t T xs : read_table t T true -> table_says (with_new t xs) T /\ t_global_errors (with_new t xs) = [] /\ t_global_warnings (with_new t xs) = []
  /\ t_columns (with_new t xs) = t_columns t /\ t_indexes (with_new t xs) = t_indexes t /\ t_constraints (with_new t xs) = t_constraints t
  /\ t_rows (with_new t xs) = match xs with [] => None | _ => Some (map stored xs) end.
Proof.
  intros R. pose proof (WriteCreate.rd_errors _ _ _ R) as E. destruct (rd_rest _ _ _ R) as (W & Rr & _). destruct xs as [|x xs].
  - repeat split; try assumption; try apply (rd_says _ _ _ R).
  - destruct (rd_says _ _ _ R) as [A B C D F]. cbn [with_new]. unfold with_rows, rows_of. rewrite Rr. cbn [List.app t_global_errors t_global_warnings t_columns t_indexes t_constraints t_rows].
    repeat split; assumption.
Qed.

Section Whole.
  Context {FO : FloatOracle}.
  Theorem yields_database srcs ls : Forall2 yields srcs ls -> consistent (concat ls) ->
    exists ts d, Forall2 (fun T t => read_table t T true) (tables_in (concat ls)) ts
      /\ file_database srcs = Ok (files_with (map (fun t => with_new t (rows_in (t_name t) (concat ls))) ts) d).
  Proof.
    intros F Co. set (all := concat ls) in *.
    destruct (read_many srcs ls F [] [] []) as (os & d & A & W & R); [split; [constructor|reflexivity]|apply Co|]. fold all in A. cbn [List.app] in *.
    assert (T2 : Forall2 (fun T t => read_table t T true) (tables_in all) (tables_read os)).
    { clear -A. induction A as [|st o l os R F IH]; [constructor|]. destruct st as [T|n cols gs], o as [t|w]; cbn [read_as] in R; try contradiction; [|exact IH]. constructor; assumption. }
    pose proof (names_read _ _ A) as En.
    assert (Sk : Forall stmt_rows_ok all).
    { clear -F. unfold all. clear all. induction F as [|src l srcs ls H F IH]; [constructor|]. cbn [concat]. apply Forall_app. split; [|exact IH]. apply H. }
    exists (tables_read os), d. split; [exact T2|]. unfold file_database. change empty_database with (files_with [] []). rewrite R. cbn [bind]. unfold Reader.combine. cbn [files_with d_rows].
    change (mkDatabase (map entry (tables_read os)) (Some d) [] [] None None None None) with (files_with (tables_read os) d).
    set (up := fun t => with_new t (rows_in (t_name t) all)).
    rewrite (combine_all up); [| | |apply W|].
    - do 2 f_equal. apply map_ext_in. intros t I. unfold up.
      destruct (dmem (t_name t) d) eqn:M; [reflexivity|]. apply dmem_false, dget_none in M. destruct W as [_ W]. rewrite W in M.
      assert (E : rows_in (t_name t) all = []); [|rewrite E; reflexivity].
      revert M. generalize (t_name t). intros n M. clear -A M Sk. induction A as [|st o l os R F IH]; [reflexivity|]. inversion Sk as [|? ? O1 O2]; subst.
      destruct st as [T|m cols gs], o as [u|w]; cbn [read_as] in R; try contradiction.
      + apply IH; [exact O2|exact M].
      + change (rows_read (inr w :: os)) with (w :: rows_read os) in M. cbn [filter] in M. subst w. unfold for_table at 1 in M. cbn [r_table] in M. rewrite rows_in_cons. unfold rows_in at 1. cbn [map concat]. rewrite app_nil_r.
        destruct (String.eqb m n); [discriminate M|]. cbn [List.app]. apply IH; assumption.
    - intros t. apply with_new_name.
    - rewrite En. apply Co.
    - intros n ws I. apply dget_iff in I; [|apply W]. destruct W as [_ W]. rewrite W in I.
      assert (Ex : exists m cols gs, In (StRows m cols gs) all /\ m = n).
      { clear -A I. induction A as [|st o l os R F IH]; [discriminate|]. destruct st as [T|m cols gs], o as [u|w]; cbn [read_as] in R; try contradiction.
        - destruct (IH I) as (m & c & g & J & E). exists m, c, g. split; [right; exact J|exact E].
        - change (rows_read (inr w :: os)) with (w :: rows_read os) in I. cbn [filter] in I. subst w. unfold for_table at 1 in I. cbn [r_table] in I.
          destruct (String.eqb_spec m n) as [E|E]; [exists m, cols, gs; split; [left; reflexivity|exact E]|].
          destruct (IH I) as (m' & c & g & J & E'). exists m', c, g. split; [right; exact J|exact E']. }
      destruct Ex as (m & cols & gs & J & ->). destruct (co_rows _ Co _ _ _ J) as (K & _). rewrite <- En in K. apply in_map_iff in K as (t & Et & It).
      exists t. split; [exact It|]. split; [exact Et|].
      assert (Ws : ws = filter (for_table n) (rows_read os)) by (destruct (filter (for_table n) (rows_read os)); [discriminate|injection I as <-; reflexivity]).
      assert (R0 : rows_of t = []).
      { clear -T2 It. induction T2 as [|T u Ts us Q T2 IH]; [destruct It|]. destruct It as [->|It]; [|apply IH, It]. destruct (rd_rest _ _ _ Q) as (_ & Rr & _). unfold rows_of. rewrite Rr. reflexivity. }
      rewrite Ws. unfold up. rewrite Et. destruct (co_ids _ Co n) as [Ne Nd]. apply (add_all n all os A Sk); [|exact Ne|rewrite R0; exact Nd].
      intros m c g J'. apply (co_rows _ Co _ _ _ J').
  Qed.
  Theorem sources_database srcs ls : Forall2 (fun src l => source_holds l (snd src)) srcs ls -> consistent (concat ls) ->
    exists ts d, Forall2 (fun T t => read_table t T true) (tables_in (concat ls)) ts
      /\ file_database srcs = Ok (files_with (map (fun t => with_new t (rows_in (t_name t) (concat ls))) ts) d).
  Proof.
    intros F. apply yields_database. induction F as [|[file s] l srcs ls H F IH]; constructor; [apply source_yields, H|exact IH].
  Qed.
End Whole.
