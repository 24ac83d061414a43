(** C84, C85: what a plan sees of the server, and a whole run against a server in sync. *)
From Verif Require Import RowFacts SpecRows SpecLive PropsRows Samples RoundRows StoredFacts PropsLive PropsCreate PropsMany CliFacts PropsCli.

(** ** What the server answers *)

(** A statement that reads. *)
Definition reading (q : string) : Prop := q = "SHOW TABLES" \/ exists n, q = "SHOW CREATE TABLE " ++ n \/ q = "SELECT * FROM " ++ n.
(** However much was read before, the server lists the tables [names] and shows the definition [text n]
    of each; SELECT gives the rows or the error [rows n]. *)
Record serves (w : world) (c : dict string cval) (names : list string) (text : string -> string) (rows : string -> res (list row)) : Prop := {
  sv_connect : w_connect w c = None;
  sv_names : forall qs, Forall reading qs -> exists l, w_server w (Connect c :: map Query qs) "SHOW TABLES" = Answer l
    /\ map rval_str (concat (map dvals l)) = names;
  sv_text : forall qs n, Forall reading qs -> In n names -> exists r l v,
    w_server w (Connect c :: map Query qs) ("SHOW CREATE TABLE " ++ n) = Answer (r :: l) /\ dget "Create Table" r = Some v /\ rval_str v = text n;
  sv_rows : forall qs n, Forall reading qs ->
    w_server w (Connect c :: map Query qs) ("SELECT * FROM " ++ n) = match rows n with Ok l => Answer l | Raise e => Failed e end
}.

Lemma dset_new {V} n (v : V) d : ~ In n (dkeys d) -> dset n v d = d +++ [(n, v)].
Proof. induction d as [|[m u] d IH]; [reflexivity|]. cbn [dkeys map fst dset]. simpl. intros N. destruct (String.eqb_spec n m) as [->|X]; [exfalso; apply N; left; reflexivity|]. f_equal. apply IH. intros I. apply N. right. exact I. Qed.

Section Bridge.
  Context (w : world) (c : dict string cval) (names : list string) (text : string -> string) (rows : string -> res (list row)) (Sv : serves w c names text rows) {FO : FloatOracle}.

  Lemma shown_all l : forall qs defs, incl l names -> Forall reading qs -> NoDup (dkeys defs +++ l) ->
    exists qs', Forall reading qs' /\ show_creates w (Connect c :: map Query qs) l defs = (Connect c :: map Query qs', Ok (defs +++ map (fun n => (n, text n)) l)).
  Proof.
    induction l as [|n l IH]; intros qs defs I R N.
    - exists qs. split; [exact R|]. cbn [show_creates map]. rewrite app_nil_r. reflexivity.
    - cbn [show_creates send]. destruct (sv_text _ _ _ _ _ Sv qs n R (I n (or_introl eq_refl))) as (r & a & v & E & D & T). rewrite E, D.
      assert (X : (Connect c :: map Query qs) +++ [Query ("SHOW CREATE TABLE " ++ n)] = Connect c :: map Query (qs +++ ["SHOW CREATE TABLE " ++ n])) by (rewrite map_app; reflexivity).
      rewrite X. rewrite dset_new.
      + destruct (IH (qs +++ ["SHOW CREATE TABLE " ++ n]) (defs +++ [(n, rval_str v)])) as (qs' & R' & E').
        * intros x Hx. apply I. right. exact Hx.
        * apply Forall_app. split; [exact R|]. constructor; [|constructor]. right. exists n. left. reflexivity.
        * unfold dkeys. rewrite map_app, <- app_assoc. exact N.
        * exists qs'. split; [exact R'|]. rewrite E', <- app_assoc, T. reflexivity.
      + intros J. apply (NoDup_remove_2 _ _ _ N). apply in_app_iff. left. exact J.
  Qed.
  Lemma loaded_all files : forall qs live, Forall reading qs ->
    exists qs', Forall reading qs' /\ load_rows w (Connect c :: map Query qs) files live = (Connect c :: map Query qs', read_tracked rows files live).
  Proof.
    induction files as [|f files IH]; intros qs live R.
    - exists qs. split; [exact R|reflexivity].
    - cbn [load_rows read_tracked]. destruct (negb (t_tracking f)); [apply IH; assumption|]. destruct (dget (t_name f) live) as [t|] eqn:D; [|apply IH; assumption].
      unfold driver_rows, send. rewrite (sv_rows _ _ _ _ _ Sv qs (t_name f) R).
      assert (X : (Connect c :: map Query qs) +++ [Query ("SELECT * FROM " ++ t_name f)] = Connect c :: map Query (qs +++ ["SELECT * FROM " ++ t_name f])) by (rewrite map_app; reflexivity).
      rewrite X. assert (R' : Forall reading (qs +++ ["SELECT * FROM " ++ t_name f])) by (apply Forall_app; split; [exact R|]; constructor; [|constructor]; right; exists (t_name f); right; reflexivity).
      destruct (rows (t_name f)) as [l|e]; [|eexists; split; [exact R'|reflexivity]]. cbn [bind]. destruct (read_raw_rows t l) as [t' [e|]]; [eexists; split; [exact R'|reflexivity]|].
      apply IH, R'.
  Qed.
  Lemma live_all config files : driver_credentials (w_loads w) (w_file w) (w_cwd w) (Some config) = Ok c -> NoDup names ->
    exists qs, Forall reading qs /\ load_live w config files = (Connect c :: map Query qs, let* l := rmap db_tables (live_database (map text names)) in read_tracked rows files l).
  Proof.
    intros C N. unfold load_live, get_driver. rewrite C, (sv_connect _ _ _ _ _ Sv). cbn [app]. unfold driver_tables, send.
    destruct (sv_names _ _ _ _ _ Sv [] (Forall_nil _)) as (l & E & L). cbn [map] in E. rewrite E, L.
    destruct (shown_all names ["SHOW TABLES"] []) as (qs & R & S); [intros x Hx; exact Hx|constructor; [left; reflexivity|constructor]|exact N|].
    change ([Connect c] +++ [Query "SHOW TABLES"]) with (Connect c :: map Query ["SHOW TABLES"]). rewrite S. cbn [app].
    replace (dvals (map (fun n => (n, text n)) names)) with (map text names) by (unfold dvals; rewrite map_map; reflexivity).
    destruct (live_database (map text names)) as [b|e]; [|exists qs; split; [exact R|reflexivity]]. cbn [rmap bind]. apply loaded_all, R.
  Qed.
  Lemma live_told config : driver_credentials (w_loads w) (w_file w) (w_cwd w) (Some config) = Ok c -> NoDup names ->
    live_notices w config = table_notices (mkDatabase [] None [] [] None None None None) (map text names).
  Proof.
    intros C N. unfold live_notices, get_driver. rewrite C, (sv_connect _ _ _ _ _ Sv). cbn [app]. unfold driver_tables, send.
    destruct (sv_names _ _ _ _ _ Sv [] (Forall_nil _)) as (l & E & L). cbn [map] in E. rewrite E, L.
    destruct (shown_all names ["SHOW TABLES"] []) as (qs & R & S); [intros x Hx; exact Hx|constructor; [left; reflexivity|constructor]|exact N|].
    change ([Connect c] +++ [Query "SHOW TABLES"]) with (Connect c :: map Query ["SHOW TABLES"]). rewrite S. cbn [app].
    replace (dvals (map (fun n => (n, text n)) names)) with (map text names) by (unfold dvals; rewrite map_map; reflexivity). reflexivity.
  Qed.
  (** Nothing is said about sources and tables that are read to their ends. *)
  Lemma nothing_told force config srcs : reads_from w config srcs -> Forall read_out srcs ->
    driver_credentials (w_loads w) (w_file w) (w_cwd w) (Some config) = Ok c -> NoDup names -> Forall (fun s => read_out ("", s)) (map text names) ->
    build_notices w force config = [].
  Proof.
    intros R F C N Fl. unfold build_notices. rewrite (reads_notices _ _ _ R), (no_notices srcs _ F), (live_told config C N), (no_table_notices _ _ Fl). cbn [List.app].
    destruct (load_files w config) as [files|]; [|reflexivity]. destruct (db_errors files) as [b1 [errs|]]; [|reflexivity]. destruct (negb _ && negb force); reflexivity.
  Qed.
End Bridge.
Lemma held_out srcs ls : Forall2 (fun src l => source_holds l (snd src)) srcs ls -> Forall read_out srcs.
Proof.
  induction 1 as [|src l srcs ls H F IH]; constructor; [|exact IH]. destruct (source_read l (snd src) H) as (os & _ & R). eexists _, _. apply (R (fst src)).
Qed.
Lemma shown_out quiet Ts : Forall plain_table Ts -> Forall (fun s => read_out ("", s)) (map (show_create quiet) Ts).
Proof.
  intros P. destruct (read_sources _ _ _ (shown_sources quiet Ts P)) as (us & A & _). induction A as [|s t ss us H F IH]; constructor; [|exact IH]. eexists _, _. apply (H "").
Qed.

(** ** C84 *)

(** What a run reads from such a server is what the commands of C66 to C68 are given: the definitions in
    the order of the list, and the rows.  (The statements sent are those of C78.) *)
Theorem C84_plan_seen : forall w (FO : FloatOracle) force config c names text rows files,
  load_files w config = Ok files -> driver_credentials (w_loads w) (w_file w) (w_cwd w) (Some config) = Ok c ->
  serves w c names text rows -> NoDup names ->
  match snd (build_commands force files (rmap db_tables (live_database (map text names))) rows) with
  | Ok ops => run_out (run_plan w force config) = build_notices w force config +++ [join new_line (map op_str ops)] /\ run_end (run_plan w force config) = Exited true
  | Raise e => run_out (run_plan w force config) = build_notices w force config /\ run_end (run_plan w force config) = Uncaught e
  end.
Proof.
  intros w FO force config c names text rows files L C Sv N.
  assert (B : snd (build w force config) = snd (build_commands force files (rmap db_tables (live_database (map text names))) rows)).
  { unfold build, build_commands. rewrite L. destruct (db_errors files) as [b1 [errs|e]]; [|reflexivity]. destruct (negb _ && negb force); [reflexivity|].
    destruct (live_all w c names text rows Sv config (dvals (db_tables b1)) C N) as (qs & _ & ->). destruct (rmap db_tables _) as [l|e]; cbn [bind]; [|reflexivity].
    destruct (read_tracked rows _ l) as [l'|e]; [|reflexivity]. destruct (mygration false b1 (Some l')) as [b2 [st|e]]; reflexivity. }
  rewrite <- B. unfold run_plan. destruct (build w force config) as [[tr err] [ops|e]]; cbn [snd]; split; reflexivity.
Qed.

(** Full statement: for every database.  A view is listed like a table, but its definition has another
    name: the run ends there, before anything is compared, whatever the files are. *)
Lemma shown_view w c l1 n l2 :
  (forall qs m, Forall reading qs -> In m l1 -> exists r l v, w_server w (Connect c :: map Query qs) ("SHOW CREATE TABLE " ++ m) = Answer (r :: l) /\ dget "Create Table" r = Some v) ->
  (forall qs, Forall reading qs -> exists r l, w_server w (Connect c :: map Query qs) ("SHOW CREATE TABLE " ++ n) = Answer (r :: l) /\ dget "Create Table" r = None) ->
  forall qs defs, Forall reading qs -> snd (show_creates w (Connect c :: map Query qs) (l1 +++ n :: l2) defs) = Raise (KeyError "Create Table").
Proof.
  intros H V. induction l1 as [|m l1 IH]; intros qs defs R.
  - cbn [List.app show_creates send]. destruct (V qs R) as (r & l & E & D). rewrite E, D. reflexivity.
  - change ((m :: l1) +++ n :: l2) with (m :: (l1 +++ n :: l2)). cbn [show_creates send].
    destruct (H qs m R (or_introl eq_refl)) as (r & l & v & E & D). rewrite E, D.
    assert (X : (Connect c :: map Query qs) +++ [Query ("SHOW CREATE TABLE " ++ m)] = Connect c :: map Query (qs +++ ["SHOW CREATE TABLE " ++ m])) by (rewrite map_app; reflexivity).
    rewrite X. apply IH; [intros q k Q I; apply H; [exact Q|right; exact I]|]. apply Forall_app. split; [exact R|]. constructor; [|constructor]. right. exists m. left. reflexivity.
Qed.
Theorem C84_refuted : forall w (FO : FloatOracle) force config c files b errs l1 view l2,
  load_files w config = Ok files -> db_errors files = (b, Ok errs) -> errs = [] \/ force = true ->
  driver_credentials (w_loads w) (w_file w) (w_cwd w) (Some config) = Ok c -> w_connect w c = None ->
  (forall qs, Forall reading qs -> exists l, w_server w (Connect c :: map Query qs) "SHOW TABLES" = Answer l
     /\ map rval_str (concat (map dvals l)) = l1 +++ view :: l2) ->
  (forall qs n, Forall reading qs -> In n l1 -> exists r l v,
     w_server w (Connect c :: map Query qs) ("SHOW CREATE TABLE " ++ n) = Answer (r :: l) /\ dget "Create Table" r = Some v) ->
  (forall qs, Forall reading qs -> exists r l,
     w_server w (Connect c :: map Query qs) ("SHOW CREATE TABLE " ++ view) = Answer (r :: l) /\ dget "Create Table" r = None) ->
  run_end (run_plan w force config) = Uncaught (KeyError "Create Table")
  /\ run_end (run_apply w force config) = Uncaught (KeyError "Create Table").
Proof.
  intros w FO force config c files b errs l1 view l2 L E F C K T H V.
  assert (B : snd (build w force config) = Raise (KeyError "Create Table")).
  { unfold build. rewrite L, E. replace (negb (list_is_nil errs) && negb force) with false by (destruct F as [F|F]; subst; [reflexivity|rewrite andb_false_r; reflexivity]).
    unfold load_live, get_driver. rewrite C, K. cbn [app]. unfold driver_tables, send. destruct (T [] (Forall_nil _)) as (l & S & N). cbn [map] in S. rewrite S, N.
    pose proof (shown_view w c l1 view l2 H V ["SHOW TABLES"] [] ltac:(constructor; [left; reflexivity|constructor])) as X.
    change ([Connect c] +++ [Query "SHOW TABLES"]) with (Connect c :: map Query ["SHOW TABLES"]).
    destruct (show_creates w (Connect c :: map Query ["SHOW TABLES"]) (l1 +++ view :: l2) []) as [tr r]. cbn [snd] in X. subst r. reflexivity. }
  unfold run_plan, run_apply. destruct (build w force config) as [[tr err] r]. cbn [snd] in B. subst r. split; reflexivity.
Qed.
Definition view_shop : world :=
  site_world "/srv/app/sql" ["roles.sql"] [("/srv/app/sql/roles.sql", roles_sql)]
    [("SHOW TABLES", listing ["roles"; "admins"]); definition "roles" (roles_text "");
     ("SHOW CREATE TABLE admins", Answer [[("View", RStr "admins"); ("Create View", RStr "CREATE VIEW `admins` AS select 1")]])].
Example ex_C84 : (exists files b, load_files view_shop "mygrate.conf" = Ok files /\ db_errors files = (b, Ok []))
  /\ driver_credentials (w_loads view_shop) (w_file view_shop) (w_cwd view_shop) (Some "mygrate.conf") = Ok site_creds
  /\ run_end (run_plan view_shop false "mygrate.conf") = Uncaught (KeyError "Create Table")
  /\ serves shop site_creds ["roles"; "old"] (fun n => if String.eqb n "roles" then roles_text "" else "CREATE TABLE `old` (`id` INT(10))")
       (fun n => Ok (if String.eqb n "roles" then [[("id", RStr "1")]] else [])).
Proof.
  split; [eexists _, _; split; [vm_compute; reflexivity|vm_compute; reflexivity]|]. split; [vm_compute; reflexivity|]. split; [vm_compute; reflexivity|].
  constructor; [reflexivity| | |].
  - intros qs _. eexists. split; reflexivity.
  - intros qs n _ [<-|[<-|[]]]; eexists _, _, _; repeat split.
  - intros qs n _. cbn [w_server shop site_world]. unfold answers. destruct (String.eqb_spec n "roles") as [->|N]; [reflexivity|].
    replace (dget ("SELECT * FROM " ++ n) _) with (@None answer); [reflexivity|]. cbn. destruct (String.eqb_spec n "roles"); [contradiction|reflexivity].
Qed.
Print Assumptions C84_plan_seen.
Print Assumptions C84_refuted.

(** ** The rows of the live tables do not matter for the structure *)

Section Same.
  Context {FO : FloatOracle}.
  Definition same_tables (from from' : tables) : Prop := Forall2 (fun p p' => fst p' = fst p /\ same_definition (snd p) (snd p')) from from'.
  Lemma diff_split_live s s' t : same_definition s s' -> diff_split s' t = diff_split s t.
  Proof. destruct s, s'. intros (A & B & C & D & E & F). cbn in *. subst. reflexivity. Qed.
  Lemma same_keys from from' : same_tables from from' -> dkeys from' = dkeys from.
  Proof. induction 1 as [|p p' l l' [E _] F IH]; [reflexivity|]. cbn [dkeys map] in *. rewrite E. f_equal. exact IH. Qed.
  Lemma same_get from from' n : same_tables from from' ->
    match dget n from, dget n from' with Some s, Some s' => same_definition s s' | None, None => True | _, _ => False end.
  Proof. induction 1 as [|[m s] [m' s'] l l' [E S] F IH]; [exact Logic.I|]. cbn [fst snd] in *. subst m'. simpl. destruct (String.eqb n m); [exact S|exact IH]. Qed.
  Lemma same_mem from from' n : same_tables from from' -> dmem n from' = dmem n from.
  Proof. induction 1 as [|[m s] [m' s'] l l' [E _] F IH]; [reflexivity|]. cbn [fst snd] in *. subst m'. simpl. rewrite IH. reflexivity. Qed.

  Section Pair.
    Context (from from' to : tables) (Sm : same_tables from from').
    Lemma changing_same n c : changing_column from' to n c = changing_column from to n c.
    Proof.
      unfold changing_column. pose proof (same_get from from' n Sm) as G. destruct (dget n from) as [s|], (dget n from') as [s'|]; try contradiction; [|reflexivity].
      destruct G as (_ & C & _). rewrite C. reflexivity.
    Qed.
    Lemma cycle_same tn kn k : cycle_of from' to tn kn k = cycle_of from to tn kn k.
    Proof. unfold cycle_of. rewrite !changing_same. reflexivity. Qed.
    Lemma cycled_same tn s s' : same_definition s s' -> cycled_of_table from' to tn s' = cycled_of_table from to tn s.
    Proof. intros (_ & _ & _ & K & _). unfold cycled_of_table. rewrite K. f_equal. apply map_ext. intros p. rewrite cycle_same. reflexivity. Qed.
    Lemma strip_same a : strip_opt from' to a = strip_opt from to a.
    Proof.
      destruct a as [a|]; [|reflexivity]. unfold strip_opt. replace (strip_cycled from' to a) with (strip_cycled from to a); [reflexivity|].
      unfold strip_cycled. f_equal. apply filter_ext. intros o.
      assert (H : forall n, cycled_in from' to (al_table a) n = cycled_in from to (al_table a) n).
      { intros n. unfold cycled_in. pose proof (same_get from from' (al_table a) Sm) as G. destruct (dget _ from) as [s|], (dget _ from') as [s'|]; try contradiction; [|reflexivity].
        unfold cycled_names. rewrite (cycled_same _ s s' G). reflexivity. }
      destruct o; cbn [keep_op]; rewrite ?H; reflexivity.
    Qed.
    Lemma update_same n : update_table from' to n = update_table from to n.
    Proof.
      unfold update_table, dgetE. destruct (dget n to) as [t|]; [|reflexivity]. cbn [bind]. pose proof (same_get from from' n Sm) as G.
      destruct (dget n from) as [s|], (dget n from') as [s'|]; try contradiction; [|reflexivity]. cbn [bind]. rewrite (diff_split_live s s' t G).
      destruct (diff_split s t) as [sp|]; [|reflexivity]. cbn [bind]. rewrite !strip_same. reflexivity.
    Qed.
    Lemma per_table (h : list (string * constraint * option (constraint * string)) -> list aop) :
      map (fun p => opt_list (nonempty_alter (fst p) (h (cycled_of_table from' to (fst p) (snd p))))) from'
      = map (fun p => opt_list (nonempty_alter (fst p) (h (cycled_of_table from to (fst p) (snd p))))) from.
    Proof.
      assert (G : forall l l', same_tables l l' -> map (fun p => opt_list (nonempty_alter (fst p) (h (cycled_of_table from' to (fst p) (snd p))))) l'
        = map (fun p => opt_list (nonempty_alter (fst p) (h (cycled_of_table from to (fst p) (snd p))))) l).
      { induction 1 as [|[m s] [m' s'] l l' [E S] F IH]; [reflexivity|]. cbn [fst snd map] in *. subst m'. rewrite (cycled_same m s s' S), IH. reflexivity. }
      apply G, Sm.
    Qed.
    Theorem plan_same disable : plan_tables disable to (Some from') = plan_tables disable to (Some from).
    Proof.
      unfold plan_tables.
      assert (E : differences from' to = differences from to).
      { unfold differences. rewrite (same_keys _ _ Sm). f_equal. f_equal. apply filter_ext. intros n. rewrite (same_mem _ _ n Sm). reflexivity. }
      rewrite E. destruct (differences from to) as [[add remove] update].
      assert (M : forall l, mapM (update_table from' to) l = mapM (update_table from to) l).
      { induction l as [|n l IH]; [reflexivity|]. cbn [mapM]. rewrite update_same, IH. reflexivity. }
      rewrite M. unfold drop_fk_ops, add_fk_ops.
      rewrite (per_table (map (fun x => RemoveConstraint (snd (fst x))))), (per_table (fun l => adds_once l [])). reflexivity.
    Qed.
  End Pair.
  Lemma same_by_keys from from' : NoDup (dkeys from) -> dkeys from' = dkeys from ->
    (forall n s, dget n from = Some s -> exists s', dget n from' = Some s' /\ same_definition s s') -> same_tables from from'.
  Proof.
    revert from'. induction from as [|[m s] from IH]; intros [|[m' s'] from'] N K G; try discriminate; [constructor|]. cbn [dkeys map fst] in *. injection K as -> K.
    inversion N as [|x y N1 N2]; subst. constructor.
    - cbn [fst snd]. split; [reflexivity|]. destruct (G m s) as (q & E & S); [simpl; rewrite String.eqb_refl; reflexivity|]. simpl in E. rewrite String.eqb_refl in E. injection E as <-. exact S.
    - apply IH; [exact N2|exact K|]. intros n t E. destruct (G n t) as (q & Q & S).
      + simpl. destruct (String.eqb_spec n m) as [->|]; [|exact E]. exfalso. apply N1. apply dget_in in E. eapply in_dkeys; eauto.
      + exists q. split; [|exact S]. simpl in Q. destruct (String.eqb_spec n m) as [->|]; [|exact Q]. exfalso. apply N1. apply dget_in in E. eapply in_dkeys; eauto.
  Qed.

  (** ** The commands on the files as they were read *)

  Lemma tracked_bare sel ts : forall live, read_tracked sel (dvals (bares ts)) live = read_tracked sel (dvals ts) live.
  Proof.
    unfold dvals, bares. rewrite map_map. cbn [snd]. induction ts as [|[n t] ts IH]; intros live; [reflexivity|]. cbn [map snd read_tracked].
    change (t_tracking (bare t)) with (t_tracking t). change (t_name (bare t)) with (t_name t). destruct (negb (t_tracking t)); [apply IH|]. destruct (dget (t_name t) live) as [u|]; [|apply IH].
    destruct (sel (t_name t)) as [l|]; [|reflexivity]. cbn [bind]. destruct (read_raw_rows u l) as [u' [e|]]; [reflexivity|apply IH].
  Qed.
  Lemma tracked_asked sel b live : read_tracked sel (dvals (db_tables (fst (db_errors b)))) live = read_tracked sel (dvals (db_tables b)) live.
  Proof. rewrite <- tracked_bare, errors_bares, tracked_bare. reflexivity. Qed.
  (** Nothing is planned if nothing is planned for the tables as they were read. *)
  Lemma build_nothing force files live live' sel : snd (db_errors files) = Ok [] ->
    read_tracked sel (dvals (db_tables files)) live = Ok live' -> plan_tables false (db_tables files) (Some live') = Ok [] -> plan_rows (db_tables files) (Some live') = Ok [] ->
    snd (build_commands force files (Ok live) sel) = Ok [].
  Proof.
    intros E R S P. unfold build_commands. pose proof (tracked_asked sel files live) as Ra. pose proof (plan_asked false files (Some live')) as Pa. pose proof (rows_asked files (Some live')) as Qa.
    destruct (db_errors files) as [b1 r] eqn:D. cbn [fst snd] in *. subst r. cbn [list_is_nil negb andb bind]. rewrite Ra, R. unfold mygration. rewrite (db_errors_again _ _ _ D).
    rewrite S in Pa. destruct (plan_tables false (db_tables b1) (Some live')) as [ops|]; [|discriminate]. cbn [rmap] in Pa. injection Pa as Pa. destruct ops; [|discriminate].
    cbn [rmap snd]. rewrite Qa, P. reflexivity.
  Qed.
End Same.

(** ** Rows that are there *)

(** Exactly the rows [xs] are there, with the values they give. *)
Definition rows_exactly (xs : list (list string * list literal)) (s : srows) : Prop :=
  (forall id, s id <> None <-> In id (map id_of xs))
  /\ forall x sr c v, In x xs -> s (id_of x) = Some sr -> In (c, v) (row_of x) -> value_there v (sr c).

Lemma rows_quiet has to from s : rows_ready has to from s ->
  (forall n t, In (n, t) to -> t_tracking t = true -> from_file (rows_of t)
     /\ (forall id, s n id <> None <-> In id (dkeys (rows_of t)))
     /\ forall id q sr c v, In (id, q) (rows_of t) -> s n id = Some sr -> In (c, v) q -> exists x, sr c = sql_of x /\ loose_equal v x = true) ->
  plan_rows to (Some from) = Ok [].
Proof.
  intros RR Re. rewrite (plan_rows_ok _ _ _ _ RR). f_equal. apply concat_map_nil. intros [n t] H. simpl.
  apply tracked_in in H as [H T]. destruct (ready_rows _ _ _ _ n t RR H T) as (Kt & Mt & Ct & Kf & Mf & R).
  destruct (Re n t H T) as (FF & R1 & R2). destruct (row_ops n (rows_of t) (live_rows from n)) as [|o l] eqn:Eo; [reflexivity|exfalso].
  assert (Ho : In o (row_ops n (rows_of t) (live_rows from n))) by (rewrite Eo; left; reflexivity).
  apply row_ops_in in Ho as [(i & q & -> & Hi & Ni)|[(i & q & -> & Hi & Ni)|(i & q & g & -> & Hi & Hg & Rd)]]; auto.
  - specialize (R i). rewrite (proj2 (dget_none _ _) Ni) in R. apply (R1 i); [eapply in_dkeys; eauto|exact R].
  - apply Ni, R1. specialize (R i). rewrite (proj2 (dget_iff i q _ (proj1 Kf)) Hi) in R.
    destruct R as (sr & -> & _). discriminate.
  - specialize (R i). rewrite (proj2 (dget_iff i g _ (proj1 Kf)) Hg) in R. destruct R as (sr & Es & Er).
    apply row_differs_true in Rd as (c & v & w & Hc & Hw & Ne).
    destruct (R2 i q sr c v Hi Es Hc) as (w' & Ew & Lw). rewrite (Er c w (dget_in _ _ _ Hw)) in Ew.
    pose proof (FF i q c v Hi Hc) as Fv. rewrite loose_file in Lw, Ne by exact Fv.
    assert (rval_str w = rval_str w'); [|congruence].
    destruct w, w'; simpl in Ew |- *; try discriminate; try reflexivity; congruence.
Qed.
Lemma value_loose v x : (v = RNone \/ exists s, v = RStr s) -> value_there v x -> exists y, x = sql_of y /\ loose_equal v y = true.
Proof.
  intros F [H|[[H1 H2]|[H1 H2]]].
  - exists v. split; [exact H|]. rewrite loose_file by exact F. apply String.eqb_refl.
  - subst. exists (RStr "None"). split; reflexivity.
  - subst. exists RNone. split; reflexivity.
Qed.

(** ** C85 *)

Lemma says_names t T : table_says t T -> dkeys (t_columns t) = map m_name (tm_columns T).
Proof. intros H. pose proof (ts_columns _ _ H) as F. unfold dkeys. induction F as [|m p l l' [E _] F IH]; [reflexivity|]. cbn [map]. rewrite E, IH. reflexivity. Qed.
Lemma check_passes w (FO : FloatOracle) config files : load_files w config = Ok files -> exit_status (run_check w config) = 0 -> snd (db_errors files) = Ok [].
Proof.
  intros L E. unfold run_check in E. rewrite L in E. destruct (db_errors files) as [b1 [errs|e]]; [|discriminate]. destruct (db_warnings b1) as [b2 [ws|e]]; [|discriminate].
  destruct errs; [reflexivity|discriminate].
Qed.

(** A whole run against a server in sync.  Full statement: if [check] is content with the files, and the
    server has what they say, then there is nothing to do.  False, see C72 to C76.  Proved for the files
    of C75 and the servers of C72: the server shows the tables [Ts] as SHOW CREATE TABLE does, and they
    are what it reports for the tables of the files; the rows that SELECT gives for the tables that have
    rows in the files are exactly these.  Then [plan] prints nothing, [apply] says so, and nothing but
    the reading is sent, with or without [-f]. *)
Theorem C85_in_sync_partial : forall w (FO : FloatOracle) force config c srcs ls quiet Ts text rows s,
  reads_from w config srcs ->
  Forall2 (fun src l => source_holds l (snd src)) srcs ls -> consistent (concat ls) ->
  exit_status (run_check w config) = 0 ->
  driver_credentials (w_loads w) (w_file w) (w_cwd w) (Some config) = Ok c ->
  serves w c (map tm_name Ts) text rows -> (forall T, In T Ts -> text (tm_name T) = show_create quiet T) ->
  Forall plain_table Ts -> NoDup (map tm_name Ts) -> matched reported_table (tables_in (concat ls)) Ts -> settled_fks (tables_in (concat ls)) Ts ->
  (forall T, In T Ts -> rows_in (tm_name T) (concat ls) <> [] -> exists sel, rows (tm_name T) = Ok sel
     /\ selects sel (s (tm_name T)) (map m_name (tm_columns T)) /\ rows_exactly (rows_in (tm_name T) (concat ls)) (s (tm_name T))) ->
  exists qs, Forall reading qs
  /\ run_plan w force config = mkRun (Connect c :: map Query qs) [""] [] (Exited true)
  /\ run_apply w force config = mkRun (Connect c :: map Query qs +++ [Commit]) ["No changes required"] [] (Exited true).
Proof.
  intros w FO force config c srcs ls quiet Ts text rows s Rf F Co Ck C Sv Tx P N M St Rw. pose proof (reads_load w config srcs Rf) as L.
  destruct (C75_sources_read_partial srcs ls F Co) as (b & ts & E & _ & _ & D & W). rewrite E in L. pose proof (check_passes w FO config b L Ck) as Er.
  destruct (C75_nothing_to_do_partial quiet srcs ls Ts F Co P N M St) as (b0 & live & E0 & Lv & Pl). assert (b0 = b) by congruence. subst b0. clear E0.
  destruct (read_sources _ _ _ (shown_sources quiet Ts P)) as (us & A & B).
  assert (Live : db_tables live = entries us).
  { rewrite (read_server sole) with (ts := us) in Lv; [|intros x t H; exact H|exact A|rewrite (read_names _ _ _ B); exact N]. injection Lv as <-.
    change (db_tables (live_of us)) with (db_tables (files_of us)). apply entry_tables. }
  set (l := concat ls) in *.
  assert (Ok' : Forall stmt_rows_ok l).
  { clear -F. unfold l. clear l. induction F as [|src l srcs ls H F IH]; [constructor|]. cbn [concat]. apply Forall_app. split; [|exact IH]. destruct H as (_ & st & St & _). apply (statements_rows_ok l st St). }
  assert (At : forall n t, In (n, t) (db_tables b) -> n = t_name t /\ exists T, In T (tables_in l) /\ tm_name T = n /\ read_whole l T t).
  { intros n t I. rewrite D in I. apply in_map_iff in I as (u & Q & I). injection Q as <- <-. split; [reflexivity|]. destruct (forall2_in _ _ _ _ W I) as (T & IT & R). exists T. split; [exact IT|]. split; [symmetry; apply (rw_says _ _ _ R)|exact R]. }
  assert (Rows : forall n t, In (n, t) (db_tables b) -> t_tracking t = true -> rows_in n l <> [] /\ t_rows t = Some (map RoundRows.stored (rows_in n l))).
  { intros n t I Tr. destruct (At n t I) as (En & T & IT & ET & R). rewrite <- ET in *. apply (rw_tracking _ _ _ R) in Tr. split; [exact Tr|]. rewrite (rw_rows _ _ _ R). destruct (rows_in (tm_name T) l); [contradiction|reflexivity]. }
  assert (There : forall n t, In (n, t) (db_tables b) -> t_tracking t = true -> exists T f, In T Ts /\ tm_name T = n /\ dget n (db_tables live) = Some f /\ read_table f T false).
  { intros n t I Tr. destruct (At n t I) as (En & T0 & IT & ET & R). destruct (proj1 M T0 IT) as (T & I' & Rp). pose proof (rp_name _ _ Rp) as Nm.
    assert (Hn : In n (dkeys (db_tables live))) by (rewrite Live, entries_keys, (read_names _ _ _ B); apply in_map_iff; exists T; split; [congruence|exact I']).
    destruct (dget_some_key n _ Hn) as (f & Gf). pose proof Gf as Gf'. rewrite Live in Gf'. apply dget_in in Gf'. destruct (entries_at _ _ _ _ _ B Gf') as (T1 & I1 & N1 & R1). exists T1, f. auto. }
  assert (PR : plan_ready (fun _ _ => true) (db_tables b) (db_tables live) rows s).
  { constructor.
    - rewrite D. unfold dkeys. rewrite map_map. change (NoDup (map t_name ts)). rewrite (read_whole_names l _ _ W). apply Co.
    - intros n t I. symmetry. apply (At n t I).
    - intros n t I Tr. destruct (Rows n t I Tr) as [Ne Et]. exists (map RoundRows.stored (rows_in n l)). destruct (stored_keyed n l Co Ok') as [K K']. auto.
    - intros n t I Tr. destruct (There n t I Tr) as (T & f & IT & ET & G & R). rewrite G. destruct (rd_rest _ _ _ R) as (_ & Rn & _). split; [exact Rn|].
      rewrite (says_names f T (rd_says _ _ _ R)). split; [apply (rd_sound _ _ _ R)|]. destruct (Rows n t I Tr) as [Ne _]. rewrite <- ET in *. destruct (Rw T IT Ne) as (sel & S1 & S2 & _). eauto. }
  destruct (plan_ready_rows _ _ _ _ _ PR) as (live' & Rd & Dk & Un & Tk & RR).
  assert (Sm : same_tables (db_tables live) live').
  { apply same_by_keys; [rewrite Live, entries_keys, (read_names _ _ _ B); exact N|exact Dk|]. intros n f G.
    destruct (existsb (fun p => String.eqb (fst p) n && t_tracking (snd p)) (db_tables b)) eqn:X.
    - apply existsb_exists in X as ([m t] & I & Y). cbn [fst snd] in Y. apply andb_true_iff in Y as [Y1 Y2]. apply String.eqb_eq in Y1. subst m.
      destruct (Tk n t f I Y2 G) as (f' & G' & rs & -> & _). eexists. split; [exact G'|]. repeat split.
    - exists f. split; [|repeat split]. rewrite Un; [exact G|]. intros t I. destruct (t_tracking t) eqn:Y; [|reflexivity]. exfalso.
      assert (Z : existsb (fun p => String.eqb (fst p) n && t_tracking (snd p)) (db_tables b) = true) by (apply existsb_exists; exists (n, t); cbn [fst snd]; rewrite String.eqb_refl, Y; auto). congruence. }
  assert (Pr : plan_rows (db_tables b) (Some live') = Ok []).
  { apply (rows_quiet _ _ _ _ RR). intros n t I Tr. destruct (Rows n t I Tr) as [Ne Et]. destruct (There n t I Tr) as (T & f & IT & ET & _). unfold Diff.rows_of. rewrite Et.
    rewrite <- ET in *. destruct (Rw T IT Ne) as (_ & _ & _ & X1 & X2). split; [|split].
    - intros id r c0 v J V. apply in_map_iff in J as (x & Q & J). injection Q as <- <-. apply (row_text x c0 v V).
    - intros id. rewrite X1. unfold dkeys. rewrite map_map. reflexivity.
    - intros id q sr c0 v J Es V. apply in_map_iff in J as (x & Q & J). injection Q as <- <-. apply value_loose; [apply (row_text x c0 v V)|]. apply (X2 x sr c0 v J Es V). }
  assert (Bn : snd (build_commands force b (Ok (db_tables live)) rows) = Ok []).
  { apply (build_nothing force b (db_tables live) live' rows Er Rd); [|exact Pr]. rewrite (plan_same _ _ _ Sm). exact Pl. }
  assert (Tm : map text (map tm_name Ts) = map (show_create quiet) Ts) by (rewrite map_map; apply map_ext_in; exact Tx).
  assert (Bd : exists qs, Forall reading qs /\ build w force config = (Connect c :: map Query qs, [], Ok [])).
  { unfold build, build_commands in *. rewrite L. destruct (db_errors b) as [b1 r]. cbn [snd] in Er. subst r. cbn [list_is_nil negb andb bind] in *.
    destruct (live_all w c _ _ _ Sv config (dvals (db_tables b1)) C N) as (qs & Rq & ->). exists qs. split; [exact Rq|]. rewrite Tm, Lv. cbn [rmap bind].
    destruct (read_tracked rows (dvals (db_tables b1)) (db_tables live)) as [lv|e]; cbn [snd] in Bn; [|discriminate Bn]. destruct (mygration false b1 (Some lv)) as [b2 [st|e]]; cbn [snd] in Bn; [|discriminate Bn]. rewrite Bn. reflexivity. }
  assert (Nt : build_notices w force config = []).
  { apply (nothing_told w c _ _ _ Sv force config srcs Rf (held_out srcs ls F) C N). rewrite Tm. apply shown_out, P. }
  destruct Bd as (qs & Rq & Bd). exists qs. split; [exact Rq|]. unfold run_plan, run_apply. rewrite Bd, Nt. split; reflexivity.
Qed.
Print Assumptions C85_in_sync_partial.

(** The files of C75 and a server that has all of it. *)
Definition sync_rows (n : string) : list row :=
  if String.eqb n "users" then
    [[("id", RStr "1"); ("name", RStr "Ann, B."); ("about", RNone)]; [("id", RStr "2"); ("name", RStr "x (y)"); ("about", RStr "-")]; [("id", RStr "3"); ("name", RStr "c"); ("about", RNone)]]
  else if String.eqb n "logs" then [[("id", RStr "7")]] else [].
Definition sync_server (n : string) : srows := fun id =>
  match find (fun r => match dget "id" r with Some v => String.eqb (rval_str v) id | None => false end) (sync_rows n) with
  | Some r => Some (fun c => match dget c r with Some v => sql_of v | None => None end)
  | None => None
  end.
Definition sync_shop : world :=
  site_world "/srv/app/sql" ["users.sql"; "more.sql"] [("/srv/app/sql/users.sql", text_a); ("/srv/app/sql/more.sql", text_b)]
    [("SHOW TABLES", listing ["users"; "logs"]);
     definition "users" (show_create (fun _ => (true, true)) (users_meaning NoLength)); definition "logs" (show_create (fun _ => (true, true)) logs_meaning);
     ("SELECT * FROM users", Answer (sync_rows "users")); ("SELECT * FROM logs", Answer (sync_rows "logs"))].
Definition sync_text (n : string) : string := show_create (fun _ => (true, true)) (if String.eqb n "users" then users_meaning NoLength else logs_meaning).
Ltac sync_ids := match goal with |- context [rows_in ?n ?l] => let x := eval vm_compute in (map id_of (rows_in n l)) in change (map id_of (rows_in n l)) with x end;
  cbn [find]; repeat match goal with |- context [match dget "id" ?r with _ => _ end] => let y := eval vm_compute in (dget "id" r) in change (dget "id" r) with y end; cbv beta iota; cbn [rval_str].
Lemma sync_selects n cols : cols = ["id"; "name"; "about"] \/ cols = ["id"] /\ n = "logs" -> n = "users" \/ n = "logs" -> cols = ["id"] \/ n = "users" -> selects (sync_rows n) (sync_server n) cols.
Proof.
  intros A B C. split.
  - intros r I. destruct B as [->| ->]; cbn in I; repeat destruct I as [<-|I]; try contradiction; eexists _, _; repeat split; try reflexivity; try discriminate;
      try (intros c w E; rewrite E; reflexivity); intros c J; destruct A as [->|[-> D]]; try discriminate; try (destruct C as [C|C]; discriminate); exact J.
  - intros id sr E. unfold sync_server in E. match type of E with match ?x with _ => _ end = _ => destruct x as [r|] eqn:F; [|discriminate] end. apply find_some in F as [F1 F2].
    destruct (dget "id" r) as [v|] eqn:G; [|discriminate]. apply String.eqb_eq in F2. exists r, v. auto.
Qed.
Example ex_C85 : let ls := [source_a; source_b] in let Ts := [users_meaning NoLength; logs_meaning] in
  reads_from sync_shop "mygrate.conf" [("/srv/app/sql/users.sql", text_a); ("/srv/app/sql/more.sql", text_b)]
  /\ exit_status (run_check sync_shop "mygrate.conf") = 0
  /\ driver_credentials (w_loads sync_shop) (w_file sync_shop) (w_cwd sync_shop) (Some "mygrate.conf") = Ok site_creds
  /\ serves sync_shop site_creds (map tm_name Ts) sync_text (fun n => Ok (sync_rows n))
  /\ (forall T, In T Ts -> sync_text (tm_name T) = show_create (fun _ => (true, true)) T)
  /\ (forall T, In T Ts -> rows_in (tm_name T) (concat ls) <> [] -> exists sel, Ok (sync_rows (tm_name T)) = Ok sel
     /\ selects sel (sync_server (tm_name T)) (map m_name (tm_columns T)) /\ rows_exactly (rows_in (tm_name T) (concat ls)) (sync_server (tm_name T))).
Proof.
  intros ls Ts. split; [exists "/srv/app/sql"; split; vm_compute; reflexivity|]. split; [vm_compute; reflexivity|]. split; [vm_compute; reflexivity|]. split; [|split].
  - constructor; [reflexivity| | |].
    + intros qs _. eexists. split; reflexivity.
    + intros qs n _ [<-|[<-|[]]]; eexists _, _, _; repeat split.
    + intros qs n _. unfold sync_rows. destruct (String.eqb_spec n "users") as [->|N]; [reflexivity|]. destruct (String.eqb_spec n "logs") as [->|N']; [reflexivity|].
      cbn [w_server sync_shop site_world]. unfold answers. replace (dget ("SELECT * FROM " ++ n) _) with (@None answer); [reflexivity|]. cbn.
      destruct (String.eqb_spec n "users"); [contradiction|]. destruct (String.eqb_spec n "logs"); [contradiction|reflexivity].
  - intros T [<-|[<-|[]]]; reflexivity.
  - intros T [<-|[<-|[]]] _; eexists; (split; [reflexivity|]); (split; [apply sync_selects; cbn; auto|]); split.
    + intros id. cbn [tm_name users_meaning]. unfold sync_server. let x := eval vm_compute in (sync_rows "users") in change (sync_rows "users") with x. sync_ids.
      destruct (String.eqb_spec "1" id); [subst; cbn; intuition discriminate|]. destruct (String.eqb_spec "2" id); [subst; cbn; intuition discriminate|]. destruct (String.eqb_spec "3" id); [subst; cbn; intuition discriminate|].
      split; [intros X; contradiction X; reflexivity|intros J; cbn in J; repeat destruct J as [J|J]; contradiction].
    + intros x sr c v I E V. cbn in I. repeat destruct I as [<-|I]; try contradiction; cbn in E; injection E as <-; cbn in V; repeat destruct V as [V|V]; try contradiction; injection V as <- <-; left; reflexivity.
    + intros id. cbn [tm_name logs_meaning]. unfold sync_server. let x := eval vm_compute in (sync_rows "logs") in change (sync_rows "logs") with x. sync_ids.
      destruct (String.eqb_spec "7" id); [subst; cbn; intuition discriminate|]. split; [intros X; contradiction X; reflexivity|intros J; cbn in J; repeat destruct J as [J|J]; contradiction].
    + intros x sr c v I E V. cbn in I. repeat destruct I as [<-|I]; try contradiction; cbn in E; injection E as <-; cbn in V; repeat destruct V as [V|V]; try contradiction; injection V as <- <-; left; reflexivity.
Qed.
Example ex_C85_runs : run_plan sync_shop false "mygrate.conf" = mkRun (Connect site_creds :: map Query (reading_statements ["users"; "logs"] ["users"; "logs"])) [""] [] (Exited true)
  /\ run_apply sync_shop true "mygrate.conf" = mkRun (Connect site_creds :: map Query (reading_statements ["users"; "logs"] ["users"; "logs"]) +++ [Commit]) ["No changes required"] [] (Exited true).
Proof. split; [by_vm|by_vm]. Qed.
