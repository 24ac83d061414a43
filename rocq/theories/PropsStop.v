(** C105: which servers make plan and apply end with an exception. *)
From Verif Require Import SpecStop RowRead ValidFacts CliFacts CheckFacts FileFacts CrashFacts StopFacts Samples PropsParse PropsCli PropsFiles PropsOrder PropsCheck PropsSeen PropsTold PropsCrash DiffFacts PropsCommand.

Local Opaque read_sql max_statements max_turns.

(** [is_really_the_same_as] of two columns raises exactly for [uncomparable] ones, among those whose texts differ. *)
Theorem C105_columns : forall (FO : FloatOracle) a b, column_str a <> column_str b -> ((exists e, really_same a b = Raise e) <-> uncomparable a b).
Proof.
  intros FO a b S. rewrite <- changed_stops. unfold column_changed. rewrite (proj2 (String.eqb_neq _ _) S).
  destruct (really_same a b) as [r|x]; cbn [bind]; split; intros (e & X); try discriminate; eauto.
Qed.

Section Stop.
  Context {FO : FloatOracle}.

  (** Something the server shows or holds prevents a plan: a definition without a word or with a quote that is
      not closed; the rows of a table for which the files have rows; two columns that cannot be compared. *)
  Definition prevented (files : tables) (names : list string) (text : string -> string) (rows : string -> res (list row)) : Prop :=
    (exists n, In n names /\ (white (text n) \/ unclosed ("", text n)))
    \/ exists live, live_database (map text names) = Ok live
       /\ ((exists n t, In (n, t) files /\ t_tracking t = true /\ In n (dkeys (db_tables live)) /\ unusable (rows n))
           \/ exists n s t cn x y, In (n, s) (db_tables live) /\ In (n, t) files /\ In (cn, x) (t_columns s) /\ In (cn, y) (t_columns t) /\ uncomparable x y).

  Lemma all_or {A} (P Q : A -> Prop) l : (forall a, In a l -> P a \/ Q a) -> (forall a, In a l -> P a) \/ exists a, In a l /\ Q a.
  Proof.
    induction l as [|a l IH]; intros H; [left; intros ? []|]. destruct (H a (or_introl eq_refl)) as [Pa|Qa]; [|right; exists a; split; [left; reflexivity|exact Qa]].
    destruct IH as [IH|(b & I & Qb)]; [intros; apply H; right; assumption|left; intros b [<-|I]; auto|right; exists b; split; [right; exact I|exact Qb]].
  Qed.
  Lemma comparable_or s t : comparable s t \/ exists cn x y, In (cn, x) (t_columns s) /\ In (cn, y) (t_columns t) /\ uncomparable x y.
  Proof.
    destruct (all_or (fun p => forall y, In (fst p, y) (t_columns t) -> exists r, column_changed (snd p) y = Ok r)
                (fun p => exists y, In (fst p, y) (t_columns t) /\ uncomparable (snd p) y) (t_columns s)) as [H|([cn x] & I & y & J & U)].
    - intros [cn x] _. cbn [fst snd]. destruct (all_or (fun q => fst q = cn -> exists r, column_changed x (snd q) = Ok r) (fun q => fst q = cn /\ uncomparable x (snd q)) (t_columns t)) as [H|([m y] & I & E & U)].
      + intros [m y] _. cbn [fst snd]. destruct (column_changed x y) as [r|e] eqn:C; [left; eauto|]. destruct (String.eqb_spec m cn) as [->|N]; [|left; intros; contradiction].
        right. split; [reflexivity|]. apply changed_stops. eauto.
      + left. intros y I. exact (H (cn, y) I eq_refl).
      + right. cbn [fst] in E. subst m. exists y. auto.
    - left. intros n a b Ia Ib. exact (H (n, a) Ia b Ib).
    - right. exists cn, x, y. auto.
  Qed.
  Lemma uncomparable_not s t : comparable s t -> forall cn x y, In (cn, x) (t_columns s) -> In (cn, y) (t_columns t) -> ~ uncomparable x y.
  Proof. intros C cn x y Ix Iy U. apply changed_stops in U as (e & U). destruct (C cn x y Ix Iy) as (r & R). congruence. Qed.

  Lemma build_stops force files b names text rows :
    db_errors files = (b, Ok []) -> NoDup (dkeys (db_tables files)) -> (forall n t, In (n, t) (db_tables files) -> t_name t = n /\ tidy t /\ managed t) ->
    (prevented (db_tables files) names text rows /\ exists e, snd (build_commands force files (rmap db_tables (live_database (map text names))) rows) = Raise e)
    \/ (~ prevented (db_tables files) names text rows /\ exists ops, snd (build_commands force files (rmap db_tables (live_database (map text names))) rows) = Ok ops).
  Proof.
    intros E N G. unfold build_commands. rewrite E. cbn [list_is_nil negb andb].
    assert (B : bares (db_tables b) = bares (db_tables files)) by (pose proof (errors_bares files) as X; rewrite E in X; exact X).
    assert (To : forall n t, In (n, t) (db_tables b) -> exists t0, In (n, t0) (db_tables files) /\ t_name t = t_name t0 /\ t_columns t = t_columns t0 /\ t_rows t = t_rows t0 /\ t_tracking t = t_tracking t0).
    { intros n t I. destruct (bares_in _ _ _ _ B I) as (t0 & I0 & Eb). exists t0. split; [exact I0|apply bare_same, Eb]. }
    assert (Of : forall n t, In (n, t) (db_tables files) -> exists t0, In (n, t0) (db_tables b) /\ t_name t = t_name t0 /\ t_columns t = t_columns t0 /\ t_rows t = t_rows t0 /\ t_tracking t = t_tracking t0).
    { intros n t I. destruct (bares_in _ _ _ _ (eq_sym B) I) as (t0 & I0 & Eb). exists t0. split; [exact I0|apply bare_same, Eb]. }
    assert (Nb : NoDup (dkeys (db_tables b))).
    { assert (K : forall d, dkeys (bares d) = dkeys d) by (intros d; unfold dkeys, bares; rewrite map_map; reflexivity). rewrite <- K, B, K. exact N. }
    destruct (live_all_read (map text names)) as [(Nt & live & Lv & [L1 L2])|((s & I & T) & e & Lv)]; rewrite Lv.
    2: { left. cbn [rmap bind snd]. split; [left; apply in_map_iff in I as (n & <- & I); exists n; auto|eauto]. }
    assert (NT : ~ exists n, In n names /\ (white (text n) \/ unclosed ("", text n))) by (intros (n & I & T); apply Nt; exists (text n); split; [apply in_map, I|exact T]).
    clear Nt. cbn [rmap bind]. destruct (tracked_cases rows (dvals (db_tables b)) (db_tables live)) as [(Nu & live' & Rt & [P1 P2] & Hr & _)|((f & I & Tr & J & U) & e & Rt)]; rewrite Rt.
    2: { left. cbn [snd]. split; [|eauto]. right. exists live. split; [exact Lv|]. left. apply dvals_in in I as (n & I). destruct (To n f I) as (t0 & I0 & En & _ & _ & Et).
         destruct (G n t0 I0) as [Gn _]. exists n, t0. split; [exact I0|]. rewrite <- Et, <- Gn, <- En. auto. }
    unfold mygration. rewrite (db_errors_again _ _ _ E).
    assert (Rows : exists ops, plan_rows (db_tables b) (Some live') = Ok ops).
    { apply rows_planned; [exact Nb| |].
      - intros n t I. destruct (To n t I) as (t0 & I0 & E1 & E2 & E3 & E4). destruct (G n t0 I0) as (Gn & _ & M). split; [congruence|]. unfold managed, rows_of in *. rewrite E3, E4. exact M.
      - intros n t I T. destruct (To n t I) as (t0 & I0 & E1 & _). destruct (G n t0 I0) as (Gn & _). rewrite <- Gn, <- E1. apply Hr; [|exact T]. apply in_map_iff. exists (n, t). auto. }
    assert (Pl : (exists ops, plan_tables false (db_tables b) (Some live') = Ok ops) <-> forall n s t, In (n, s) live' -> In (n, t) (db_tables b) -> comparable s t).
    { apply plan_stops; [rewrite P1; exact L1|exact Nb| |].
      - intros n s' I. destruct (P2 n s' I) as (s & Is & _ & Es). rewrite Es. apply td_cols, (L2 n s Is).
      - intros n t I. destruct (To n t I) as (t0 & I0 & _ & E2 & _). rewrite E2. apply td_cols, (G n t0 I0). }
    destruct Rows as (rops & Rows).
    assert (Live : forall n s, In (n, s) (db_tables live) -> exists s', In (n, s') live' /\ t_columns s' = t_columns s).
    { intros n s I. assert (K : In n (dkeys live')) by (rewrite P1; eapply in_dkeys, I). unfold dkeys in K. apply in_map_iff in K as ([m s'] & Em & K). cbn [fst] in Em. subst m.
      exists s'. split; [exact K|]. destruct (P2 n s' K) as (u & Iu & _ & Eu). assert (u = s) by (apply (dget_iff n u _ L1) in Iu; apply (dget_iff n s _ L1) in I; congruence). congruence. }
    destruct (all_or (fun p => forall t, In (fst p, t) (db_tables b) -> comparable (snd p) t)
       (fun p => exists t cn x y, In (fst p, t) (db_tables b) /\ In (cn, x) (t_columns (snd p)) /\ In (cn, y) (t_columns t) /\ uncomparable x y) live') as [C|([n s'] & I & t & cn & x & y & It & Ix & Iy & U)].
    - intros [n s'] I. cbn [fst snd]. destruct (all_or (fun q => fst q = n -> comparable s' (snd q))
        (fun q => fst q = n /\ exists cn x y, In (cn, x) (t_columns s') /\ In (cn, y) (t_columns (snd q)) /\ uncomparable x y) (db_tables b)) as [H|([m t] & It & Em & cn & x & y & U)].
      + intros [m t] _. cbn [fst snd]. destruct (comparable_or s' t) as [C|H]; [left; auto|]. destruct (String.eqb_spec m n) as [->|Ne]; [right; auto|left; intros; contradiction].
      + left. intros t It. exact (H (n, t) It eq_refl).
      + right. cbn [fst snd] in *. subst m. exists t, cn, x, y. split; [exact It|exact U].
    - right. split.
      + intros [P|(live0 & Lv0 & [(n & t & It & Tr & J & U)|(n & s & t & cn & x & y & Is & It & Ix & Iy & U)])]; [exact (NT P)| |]; (assert (live0 = live) by congruence; subst live0).
        * destruct (Of n t It) as (t0 & I0 & E1 & _ & _ & E4). destruct (G n t It) as (Gn & _). apply Nu. exists t0. split; [apply in_map_iff; exists (n, t0); auto|]. rewrite <- E4, <- E1, Gn. auto.
        * destruct (Of n t It) as (t0 & I0 & _ & E2 & _). destruct (Live n s Is) as (s' & Is' & Es). rewrite E2 in Iy. rewrite <- Es in Ix.
          exact (uncomparable_not s' t0 (C (n, s') Is' t0 I0) cn x y Ix Iy U).
      + destruct (proj2 Pl (fun n s t Is It => C (n, s) Is t It)) as (ops & Eo). rewrite Eo. cbn [rmap snd]. rewrite Rows. cbn [bind]. eauto.
    - left. cbn [fst snd] in *. split.
      + right. exists live. split; [exact Lv|]. right. destruct (P2 n s' I) as (s & Is & _ & Es). destruct (To n t It) as (t0 & I0 & _ & E2 & _).
        exists n, s, t0, cn, x, y. rewrite <- Es, <- E2. auto.
      + destruct (plan_tables false (db_tables b) (Some live')) as [ops|e] eqn:Eo; [|cbn [rmap snd]; eauto]. exfalso.
        exact (uncomparable_not s' t (proj1 Pl (ex_intro _ ops eq_refl) n s' t I It) cn x y Ix Iy U).
  Qed.

  (** Exactly when plan ends with an exception, for files that check is content with and a server that answers.
      Then apply ends with the same exception, and nothing but questions was sent. *)
  Theorem C105_plan_exact : forall w config srcs files c names text rows force,
    reads_from w config srcs -> ForallOrdPairs apart_tables srcs -> file_database srcs = Ok files -> exit_status (run_check w config) = 0 ->
    driver_credentials (w_loads w) (w_file w) (w_cwd w) (Some config) = Ok c -> serves w c names text rows -> NoDup names ->
    (prevented (db_tables files) names text rows /\ exists e, run_end (run_plan w force config) = Uncaught e)
    \/ (~ prevented (db_tables files) names text rows /\ run_end (run_plan w force config) = Exited true).
  Proof.
    intros w config srcs files c names text rows force R A Fd Ck Cr Sv N. pose proof (reads_load _ _ _ R) as L. rewrite Fd in L.
    pose proof (check_passes w FO config files L Ck) as Er. destruct (file_good srcs files (apart_once srcs A) Fd) as (_ & Nf & Gf & _).
    assert (E : db_errors files = (fst (db_errors files), Ok [])) by (rewrite <- Er; apply surjective_pairing).
    pose proof (C84_plan_seen w FO force config c names text rows files L Cr Sv N) as P.
    destruct (build_stops force files _ names text rows E Nf (fun n t I => conj (proj1 (Gf n t I)) (conj (proj2 (Gf n t I)) (files_managed srcs files Fd n t I)))) as [(Pr & e & X)|(Pr & ops & X)];
      rewrite X in P; destruct P as [_ P]; [left; eauto|right; auto].
  Qed.
  Theorem C105_apply : forall w config srcs files c names text rows force,
    reads_from w config srcs -> ForallOrdPairs apart_tables srcs -> file_database srcs = Ok files -> exit_status (run_check w config) = 0 ->
    driver_credentials (w_loads w) (w_file w) (w_cwd w) (Some config) = Ok c -> serves w c names text rows -> NoDup names ->
    prevented (db_tables files) names text rows ->
    run_apply w force config = run_plan w force config /\ exists questions, Forall reading questions /\ run_deeds (run_plan w force config) = Connect c :: map Query questions.
  Proof.
    intros w config srcs files c names text rows force R A Fd Ck Cr Sv N Pr.
    destruct (C105_plan_exact w config srcs files c names text rows force R A Fd Ck Cr Sv N) as [(_ & e & X)|(X & _)]; [|contradiction].
    pose proof (reads_load _ _ _ R) as L. rewrite Fd in L. pose proof (check_passes w FO config files L Ck) as Er.
    unfold run_apply, run_plan in *. destruct (build w force config) as [[tr err] [ops|e']] eqn:B; [discriminate|]. split; [reflexivity|]. cbn [run_deeds].
    unfold build in B. rewrite L in B. destruct (db_errors files) as [b1 r]. cbn [snd] in Er. subst r. cbn [list_is_nil negb andb] in B.
    destruct (live_all w c names text rows Sv config (dvals (db_tables b1)) Cr N) as (qs & Q & El). rewrite El in B. exists qs. split; [exact Q|].
    repeat match type of B with context [match ?x with _ => _ end] => destruct x end; congruence.
  Qed.

  (** Full statement: if check is content and the server answers, plan ends with a plan.  False, see [C105_refuted];
      proved for definitions with words and closed quotes, rows with ids and defaults that are numbers. *)
  Theorem C105_plan_partial : forall w config srcs files c names text rows force,
    reads_from w config srcs -> ForallOrdPairs apart_tables srcs -> file_database srcs = Ok files -> exit_status (run_check w config) = 0 ->
    driver_credentials (w_loads w) (w_file w) (w_cwd w) (Some config) = Ok c -> serves w c names text rows -> NoDup names ->
    (forall n, In n names -> ~ white (text n) /\ ~ unclosed ("", text n)) ->
    (forall n, exists l, rows n = Ok l /\ forall r v, In r l -> dget "id" r = Some v -> rval_str v <> "") ->
    (forall live n s t cn x y, live_database (map text names) = Ok live -> In (n, s) (db_tables live) -> In (n, t) (db_tables files) ->
       In (cn, x) (t_columns s) -> In (cn, y) (t_columns t) -> c_kind x = KNumeric -> c_default x <> DNone -> c_default y <> DNone ->
       c_type x <> "DECIMAL" /\ (exists f, number (c_default x) f) /\ exists f, number (c_default y) f) ->
    run_end (run_plan w force config) = Exited true.
  Proof.
    intros w config srcs files c names text rows force R A Fd Ck Cr Sv N T Rw Nm.
    destruct (C105_plan_exact w config srcs files c names text rows force R A Fd Ck Cr Sv N) as [(Pr & _)|(_ & X)]; [exfalso|exact X].
    destruct Pr as [(n & I & [W|W])|(live & Lv & [(n & t & _ & _ & _ & U)|(n & s & t & cn & x & y & Is & It & Ix & Iy & U)])].
    - exact (proj1 (T n I) W).
    - exact (proj2 (T n I) W).
    - destruct (Rw n) as (l & E & H). rewrite E in U. destruct U as (r & v & I & D & V). exact (H r v I D V).
    - destruct U as (_ & K & _ & Ty & _ & _ & _ & Na & Nb & U). destruct (Nm live n s t cn x y Lv Is It Ix Iy K Na Nb) as (Tx & (f & F) & g & G).
      destruct U as [(_ & [U|U])|(U & _)]; [exact (U f F)|exact (U g G)|contradiction].
  Qed.
End Stop.

(** ** Examples *)

Definition shop_text (n : string) : string := if String.eqb n "roles" then roles_text "" else "CREATE TABLE `old` (`id` INT(10))".
Definition shop_rows (n : string) : res (list row) := Ok (if String.eqb n "roles" then [[("id", RStr "1")]] else []).
Example ex_C105 {FO : FloatOracle} : let srcs := [("/srv/app/sql/roles.sql", roles_sql)] in
  reads_from shop "mygrate.conf" srcs /\ ForallOrdPairs apart_tables srcs /\ exit_status (run_check shop "mygrate.conf") = 0
  /\ driver_credentials (w_loads shop) (w_file shop) (w_cwd shop) (Some "mygrate.conf") = Ok site_creds
  /\ serves shop site_creds ["roles"; "old"] shop_text shop_rows /\ NoDup ["roles"; "old"]
  /\ exists files, file_database srcs = Ok files
     /\ (forall n, In n ["roles"; "old"] -> ~ white (shop_text n) /\ ~ unclosed ("", shop_text n))
     /\ (forall n, exists l, shop_rows n = Ok l /\ forall r v, In r l -> dget "id" r = Some v -> rval_str v <> "")
     /\ (forall live n s t cn x y, live_database (map shop_text ["roles"; "old"]) = Ok live -> In (n, s) (db_tables live) -> In (n, t) (db_tables files) ->
          In (cn, x) (t_columns s) -> In (cn, y) (t_columns t) -> c_kind x = KNumeric -> c_default x <> DNone -> c_default y <> DNone ->
          c_type x <> "DECIMAL" /\ (exists f, number (c_default x) f) /\ exists f, number (c_default y) f)
     /\ (exists n t live, In (n, t) (db_tables files) /\ t_tracking t = true /\ live_database (map shop_text ["roles"; "old"]) = Ok live /\ In n (dkeys (db_tables live))).
Proof.
  intros srcs. split; [exists "/srv/app/sql"; split; vm_compute; reflexivity|]. split; [repeat constructor|]. split; [by_vm|]. split; [vm_compute; reflexivity|].
  split; [exact (proj2 (proj2 (proj2 ex_C84)))|]. split; [repeat constructor; cbn; intuition discriminate|].
  assert (Lv : exists live, live_database (map shop_text ["roles"; "old"]) = Ok live /\ dkeys (db_tables live) = ["roles"; "old"]
     /\ forallb (fun p => forallb (fun q => is_dnone (c_default (snd q))) (t_columns (snd p))) (db_tables live) = true) by (eexists; split; [vm_compute; reflexivity|split; vm_compute; reflexivity]).
  destruct Lv as (live & Lv & Kv & Dv).
  assert (Fd : exists files t, file_database srcs = Ok files /\ In ("roles", t) (db_tables files) /\ t_tracking t = true) by (eexists _, _; split; [vm_compute; reflexivity|split; [left; reflexivity|reflexivity]]).
  destruct Fd as (files & t & Fd & It & Tt). exists files. split; [exact Fd|]. split; [|split; [|split]].
  - intros n [<-|[<-|[]]]; (split; [intros [_ W]; vm_compute in W; discriminate W|]); intros (m & W); vm_compute in W; discriminate W.
  - intros n. exists (if String.eqb n "roles" then [[("id", RStr "1")]] else []). split; [reflexivity|]. intros r v I D. destruct (String.eqb n "roles"); [|destruct I]. destruct I as [<-|[]]. injection D as <-. discriminate.
  - intros live0 n s t0 cn x y Lv0 Is _ Ix _ _ Nx. exfalso. assert (live0 = live) by congruence. subst live0. rewrite forallb_forall in Dv. specialize (Dv _ Is). cbn [snd] in Dv.
    rewrite forallb_forall in Dv. specialize (Dv _ Ix). cbn [snd] in Dv. destruct (c_default x); [contradiction|discriminate..].
  - exists "roles", t, live. rewrite Kv. split; [exact It|]. split; [exact Tt|]. split; [exact Lv|left; reflexivity].
Qed.

(** Two columns that cannot be compared. *)
Example ex_C105_columns : let col d := mkColumn KNumeric "n" "int" (LStr "10") false true d None None None None None [] [] in
  uncomparable (col (DStr "none")) (col (DStr "0")) /\ column_str (col (DStr "none")) <> column_str (col (DStr "0")).
Proof.
  intros col. assert (S : column_str (col (DStr "none")) <> column_str (col (DStr "0"))) by (vm_compute; discriminate). split; [|exact S].
  apply (C105_columns _ _ _ S). eexists. vm_compute. reflexivity.
Qed.

(** A table of the files whose rows are managed, with a text for an id.  The server has a row with an empty id. *)
Definition tags_sql : string := "CREATE TABLE tags (id VARCHAR(10) NOT NULL, label VARCHAR(20) DEFAULT NULL, PRIMARY KEY (id));
INSERT INTO tags (id, label) VALUES ('a', 'first');".
Definition tags_live : string := "CREATE TABLE `tags` (`id` varchar(10) NOT NULL, `label` varchar(20) DEFAULT NULL, PRIMARY KEY (`id`))".
Definition tags_site : world :=
  site_world "/srv/app/sql" ["tags.sql"] [("/srv/app/sql/tags.sql", tags_sql)]
    [("SHOW TABLES", listing ["tags"]); definition "tags" tags_live; ("SELECT * FROM tags", Answer [[("id", RStr ""); ("label", RStr "none")]])].
Definition tags_rows (n : string) : res (list row) := Ok (if String.eqb n "tags" then [[("id", RStr ""); ("label", RStr "none")]] else []).
Theorem C105_refuted : forall FO : FloatOracle, exists w config srcs c names text rows e,
  reads_from w config srcs /\ ForallOrdPairs apart_tables srcs /\ exit_status (run_check w config) = 0
  /\ driver_credentials (w_loads w) (w_file w) (w_cwd w) (Some config) = Ok c /\ serves w c names text rows /\ NoDup names
  /\ (forall n, exists l, rows n = Ok l)
  /\ forall force, run_end (run_plan w force config) = Uncaught e /\ run_end (run_apply w force config) = Uncaught e.
Proof.
  intros FO. exists tags_site, "mygrate.conf", [("/srv/app/sql/tags.sql", tags_sql)], site_creds, ["tags"], (fun _ => tags_live), tags_rows, (ValueError "Cannot manage records without an 'id' column and value").
  split; [exists "/srv/app/sql"; split; vm_compute; reflexivity|]. split; [repeat constructor|]. split; [by_vm|]. split; [vm_compute; reflexivity|]. split; [|split; [repeat constructor; intros []|split; [intros n; eexists; reflexivity|]]].
  - constructor; [reflexivity| | |].
    + intros qs _. eexists. split; reflexivity.
    + intros qs n _ [<-|[]]; eexists _, _, _; repeat split.
    + intros qs n _. unfold tags_rows. cbn [w_server tags_site site_world]. unfold answers. destruct (String.eqb_spec n "tags") as [->|N]; [reflexivity|].
      replace (dget ("SELECT * FROM " ++ n) _) with (@None answer); [reflexivity|]. cbn. destruct (String.eqb_spec n "tags"); [contradiction|reflexivity].
  - intros []; split; by_vm.
Qed.

Print Assumptions C105_columns.
Print Assumptions C105_plan_exact.
Print Assumptions C105_apply.
Print Assumptions C105_plan_partial.
Print Assumptions C105_refuted.
