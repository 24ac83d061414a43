(** C106: a run that stopped half way is finished by running again. *)
From Verif Require Import RowFacts SpecRows SpecLive PropsRows Samples RoundRows StoredFacts DiffMore PlanMore PropsPlan AgainFacts ResumeFacts PropsCommand PropsLive PropsRound PropsWrite PropsCreate PropsMany CliFacts PropsCli PropsSeen PropsAgain ResumeMore.

Local Opaque max_turns max_statements.

(** ** The server *)

(** The server that the credentials of [config] reach shows the tables [Ts], as SHOW CREATE TABLE does, and answers SELECT with [rows]. *)
Definition shows_tables {FO : FloatOracle} (w : world) (config : string) (c : dict string cval) (quiet : string -> bool * bool) (Ts : list tmeaning)
  (text : string -> string) (rows : string -> res (list row)) : Prop :=
  driver_credentials (w_loads w) (w_file w) (w_cwd w) (Some config) = Ok c /\ serves w c (map tm_name Ts) text rows
  /\ (forall T, In T Ts -> text (tm_name T) = show_create quiet T) /\ Forall plain_table Ts /\ NoDup (map tm_name Ts).
(** Where the files [l] give rows, the answers are the rows [s] of the server; a table that is not there has none. *)
Definition gives_rows (l : list stmt) (Ts : list tmeaning) (rows : string -> res (list row)) (s : rserver) : Prop :=
  (forall T, In T Ts -> rows_in (tm_name T) l <> [] -> exists sel, rows (tm_name T) = Ok sel /\ selects sel (s (tm_name T)) (map m_name (tm_columns T)))
  /\ forall n, ~ In n (map tm_name Ts) -> forall id, s n id = None.
(** The tables [Ts] have the columns for which the files give values. *)
Definition has_columns (l : list stmt) (Ts : list tmeaning) : Prop :=
  forall T x cn, In T Ts -> In x (rows_in (tm_name T) l) -> In cn (fst x) -> In cn (map m_name (tm_columns T)).

(** ** One run *)

Lemma sources_rows_ok (srcs : list (string * string)) ls : Forall2 (fun src l => source_holds l (snd src)) srcs ls -> Forall stmt_rows_ok (concat ls).
Proof.
  intros F. induction F as [|src l srcs ls H F IH]; [constructor|]. cbn [concat]. apply Forall_app. split; [|exact IH]. destruct H as (_ & st & St & _). apply (statements_rows_ok l st St).
Qed.
Lemma sources_written (srcs : list (string * string)) ls : Forall2 (fun src l => source_holds l (snd src)) srcs ls -> forall T, In T (tables_in (concat ls)) -> exists st x, stmt_written st x /\ st = StTable T.
Proof.
  intros F T IT. induction F as [|src l srcs ls H F IH]; [destruct IT|]. cbn [concat] in IT. unfold tables_in in IT. rewrite map_app, concat_app in IT. apply in_app_iff in IT as [IT|IT]; [|apply IH, IT].
  destruct H as (_ & x & St & _). clear -St IT. induction St as [st x Wr|st x l r Wr St IH _].
  - destruct st as [T'|]; [|destruct IT]. destruct IT as [->|[]]. eauto.
  - cbn [map concat] in IT. apply in_app_iff in IT as [IT|IT]; [|apply IH, IT]. destruct st as [T'|]; [|destruct IT]. destruct IT as [->|[]]. eauto.
Qed.

Section Run.
  Context {FO : FloatOracle}.
  Lemma build_made force files live live' sel sops rops : snd (db_errors files) = Ok [] ->
    read_tracked sel (dvals (db_tables files)) live = Ok live' -> same_tables live live' ->
    plan_tables false (db_tables files) (Some live) = Ok sops -> plan_rows (db_tables files) (Some live') = Ok rops ->
    exists sops', snd (build_commands force files (Ok live) sel) = Ok (bracket (sops' +++ rops)) /\ map bare_op sops' = map bare_op sops /\ (forall o, In o sops' -> structural o).
  Proof.
    intros E R Sm Ps Pr. unfold build_commands. pose proof (tracked_asked sel files live) as Ra. pose proof (plan_bare false (db_tables (fst (db_errors files))) (Some live')) as Pa.
    rewrite errors_bares, plan_bare in Pa. pose proof (rows_asked files (Some live')) as Qa.
    destruct (db_errors files) as [b1 r] eqn:D. cbn [fst snd] in *. subst r. cbn [list_is_nil negb andb bind]. rewrite Ra, R. unfold mygration. rewrite (db_errors_again _ _ _ D).
    rewrite (plan_same _ _ _ Sm), Ps in Pa. destruct (plan_tables false (db_tables b1) (Some live')) as [sops'|] eqn:P1; cbn [rmap snd] in *; [|discriminate].
    injection Pa as Pa. rewrite Qa, Pr. cbn [bind]. exists sops'. split; [reflexivity|]. split; [congruence|]. intros o I. apply (plan_tables_ops _ _ _ P1 o I).
  Qed.

  Context (srcs : list (string * string)) (ls : list (list stmt)) (b : database).
  Let l := concat ls.
  Hypothesis (E : file_database srcs = Ok b) (F : Forall2 (fun src l => source_holds l (snd src)) srcs ls) (Co : consistent l) (Er : snd (db_errors b) = Ok []).
  Hypothesis (Hf : has_columns l (tables_in l)).

  (** What is read from the files. *)
  Lemma files_read : exists ts, db_tables b = map (fun t => (t_name t, t)) ts /\ Forall2 (read_whole l) (tables_in l) ts /\ Forall stmt_rows_ok l /\ (forall n t, In (n, t) (db_tables b) -> read_target t).
  Proof.
    destruct (sources_database srcs ls F Co) as (ts & d & A & B). rewrite E in B. injection B as B. fold l in A, B.
    set (up := fun t => with_new t (rows_in (t_name t) l)) in *. exists (map up ts).
    assert (Db : db_tables b = map (fun t => (t_name t, t)) (map up ts)) by (rewrite B; apply entry_tables).
    split; [exact Db|]. split; [apply (whole_tables l _ _ A)|]. split.
    { apply (sources_rows_ok srcs ls F). }
    intros n t I. rewrite Db in I. apply in_map_iff in I as (u' & Q & I). injection Q as <- <-. apply in_map_iff in I as (u & <- & I). destruct (forall2_in _ _ _ _ A I) as (T & IT & R).
    exists T, u. split; [exact R|]. split; [unfold up; destruct (rows_in (t_name u) l); repeat split|].
    assert (G : exists st x, stmt_written st x /\ st = StTable T).
    { apply (sources_written srcs ls F T IT). }
    destruct G as (st & x & Wr & G). intros i Ii. apply (stmt_keys st x T i Wr G Ii).
  Qed.

  Context (w : world) (config : string) (c : dict string cval) (quiet : string -> bool * bool) (Ts : list tmeaning) (text : string -> string) (rows : string -> res (list row)) (live : database) (s : rserver).
  Hypothesis (Rf : reads_from w config srcs) (Sv : shows_tables w config c quiet Ts text rows) (Lv : live_database (map (show_create quiet) Ts) = Ok live).
  Hypothesis (Rw : gives_rows l Ts rows s).

  Lemma plan_says force : match snd (build_commands force b (Ok (db_tables live)) rows) with
    | Ok ops => run_out (run_plan w force config) = [join new_line (map op_str ops)] /\ run_end (run_plan w force config) = Exited true
    | Raise e => run_end (run_plan w force config) = Uncaught e
    end.
  Proof.
    destruct Sv as (C & Sv' & Tx & P & N). pose proof (reads_load w config srcs Rf) as L. rewrite E in L.
    assert (Tm : map text (map tm_name Ts) = map (show_create quiet) Ts) by (rewrite map_map; apply map_ext_in; exact Tx).
    pose proof (C84_plan_seen w FO force config c _ _ _ b L C Sv' N) as Seen. rewrite Tm, Lv in Seen. cbn [rmap bind] in Seen.
    rewrite (nothing_told w c _ _ _ Sv' force config srcs Rf (held_out srcs ls F) C N) in Seen by (rewrite Tm; apply shown_out, P). cbn [List.app] in Seen.
    destruct (snd (build_commands force b (Ok (db_tables live)) rows)); [exact Seen|apply Seen].
  Qed.

  Section Live.
    Context (us : list table).
    Hypothesis (Rl : Forall2 (fun t T => read_table t T false) us Ts) (Live : db_tables live = entries us).
    Lemma live_names : NoDup (dkeys (db_tables live)).
    Proof. rewrite Live, entries_keys, (read_names _ _ _ Rl). apply Sv. Qed.
    Lemma live_rows n T : In T (tables_in l) -> tm_name T = n -> rows_in n l <> [] -> match dget n (db_tables live) with
      | None => forall id, s n id = None
      | Some f => t_rows f = None /\ NoDup (dkeys (t_columns f)) /\ exists sl, rows n = Ok sl /\ selects sl (s n) (dkeys (t_columns f)) end.
    Proof.
      intros IT NT Ne. destruct (dget n (db_tables live)) as [f|] eqn:G.
      - rewrite Live in G. apply dget_in in G. destruct (entries_at _ _ _ _ _ Rl G) as (T0 & I0 & N0 & R0). destruct (rd_rest _ _ _ R0) as (_ & Rr & _). split; [exact Rr|].
        rewrite (says_names f T0 (rd_says _ _ _ R0)). split; [apply (rd_sound _ _ _ R0)|]. subst n. rewrite <- N0 in *. apply (proj1 Rw T0 I0 Ne).
      - apply (proj2 Rw). apply dget_none in G. rewrite Live, entries_keys, (read_names _ _ _ Rl) in G. exact G.
    Qed.
    (** A plan that was made was made for the structure. *)
    Lemma plan_was_made force : run_end (run_plan w force config) = Exited true -> exists sops, plan_tables false (db_tables b) (Some (db_tables live)) = Ok sops.
    Proof.
      intros Ex. destruct files_read as (ts & Db & W & Ok' & _). pose proof (plan_says force) as Q.
      destruct (snd (build_commands force b (Ok (db_tables live)) rows)) as [ops|e] eqn:Bc; [|rewrite Q in Ex; discriminate].
      pose proof (file_ready ls b ts Co Ok' Db W (fun _ _ => true) (db_tables live) rows s (fun _ _ _ _ _ _ _ _ => eq_refl) live_rows) as PR0.
      destruct (tracked_same _ _ _ _ _ PR0 live_names) as (live' & Rd & Sm & _ & _).
      destruct (build_planned force b (db_tables live) live' rows ops Er Rd Sm Bc) as (sops & sops' & rops & Ps & _). eauto.
    Qed.
    Lemma one_run force sops dflt : plannable (db_tables live) (db_tables b) -> has_columns l Ts -> plan_tables false (db_tables b) (Some (db_tables live)) = Ok sops ->
      exists sops' rops s1 r1, let ops := bracket (sops' +++ rops) in
        run_end (run_plan w force config) = Exited true /\ run_out (run_plan w force config) = [join new_line (map op_str ops)]
        /\ map bare_op sops' = map bare_op sops /\ (forall o, In o rops -> row_op o)
        /\ exec_all ops (server_of (db_tables live)) = Some s1 /\ reaches (db_tables live) (db_tables b) s1
        /\ exec_rows (there s1) dflt ops s = Some r1
        /\ (forall n, rows_in n l <> [] -> rows_there (rows_in n l) (dflt n) (s n) (r1 n)) /\ (forall n, rows_in n l = [] -> forall id, r1 n id = s n id).
    Proof.
      intros Pl Hl Ps. destruct files_read as (ts & Db & W & Ok' & _).
      destruct (C10_plan_reaches_target_partial _ _ _ _ Pl Ps) as (s1 & X1 & Re & _).
      assert (Has : forall n T x cn, In T (tables_in l) -> tm_name T = n -> In x (rows_in n l) -> In cn (fst x) -> there s1 n cn = true).
      { intros n T x cn IT NT Ix Ic. pose proof (pl_to _ _ Pl) as Wt.
        assert (H : In n (map t_name ts)) by (rewrite (read_whole_names l _ _ W); apply in_map_iff; eauto).
        apply in_map_iff in H as (t & Nt & It). assert (It' : In (n, t) (db_tables b)) by (rewrite Db; apply in_map_iff; exists t; rewrite Nt; auto).
        apply (reached_column (db_tables live) (db_tables b) s1 n t cn Re); [apply (wf_named _ Wt n), It'|apply (dget_iff _ _ _ (wf_names _ Wt)), It'|].
        destruct (file_at ls b ts Db W n t It') as (_ & T1 & IT1 & NT1 & R1). rewrite (says_names t T1 (rw_says _ _ _ R1)).
        assert (T1 = T) by (apply (same_named tm_name (tables_in l)); auto; [apply Co|congruence]). subst T1. subst n. apply (Hf T x cn IT Ix Ic). }
      pose proof (file_ready ls b ts Co Ok' Db W (there s1) (db_tables live) rows s Has live_rows) as PR.
      destruct (tracked_same _ _ _ _ _ PR live_names) as (live' & Rd & Sm & RR & Cl).
      destruct (C19_rows_reached_partial (there s1) dflt (db_tables b) live' s RR) as (rops & r1 & Pr & Xr & Y & Z).
      { apply Cl. intros n t f id r cn I Tr G J Ic. destruct (file_cells ls b ts Ok' Db W n t id r cn I Tr J Ic) as (x & Ix & Cx).
        rewrite Live in G. apply dget_in in G. destruct (entries_at _ _ _ _ _ Rl G) as (T0 & I0 & N0 & R0).
        rewrite (says_names f T0 (rd_says _ _ _ R0)). rewrite <- N0 in *. apply (Hl T0 x cn I0 Ix Cx). }
      destruct (build_made force b (db_tables live) live' rows sops rops Er Rd Sm Ps Pr) as (sops' & Bc & Eb & St).
      pose proof (plan_says force) as Q. rewrite Bc in Q. destruct Q as [Q1 Q2]. exists sops', rops, s1, r1.
      split; [exact Q2|]. split; [exact Q1|]. split; [exact Eb|]. split; [apply (plan_rows_ops _ _ _ Pr)|].
      split; [rewrite exec_bracket by apply (plan_rows_ops _ _ _ Pr); rewrite <- (exec_bares sops'), Eb, exec_bares; exact X1|]. split; [exact Re|].
      split; [rewrite exec_rows_bracket by exact St; exact Xr|]. split.
      - intros n Ne.
        assert (It : exists t, In (n, t) (db_tables b) /\ t_tracking t = true).
        { destruct (rows_in n l) as [|x xs] eqn:Q; [contradiction|]. destruct (rows_in_from n l x) as (cols & gs & J & _); [rewrite Q; left; reflexivity|].
          destruct (co_rows _ Co _ _ _ J) as (K & _). rewrite <- (read_whole_names l _ _ W) in K. apply in_map_iff in K as (t & Et & It).
          assert (I : In (n, t) (db_tables b)) by (rewrite Db; apply in_map_iff; exists t; rewrite Et; auto). exists t. split; [exact I|].
          destruct (file_at ls b ts Db W n t I) as (_ & T & IT & ET & R). apply (rw_tracking _ _ _ R). fold l. rewrite ET, Q. discriminate. }
        destruct It as (t & It & Tr). destruct (file_rows ls b ts Db W n t It Tr) as [_ Et]. fold l in Et. destruct (Y n t It Tr) as [Y1 Y2]. unfold Diff.rows_of in Y1, Y2. rewrite Et in Y1, Y2. split.
        + intros id. rewrite Y1. unfold dkeys. rewrite map_map. reflexivity.
        + intros x sr I Q. destruct (Y2 (id_of x) (row_of x) sr) as [V O]; [apply in_map_iff; exists x; split; [reflexivity|exact I]|exact Q|]. split.
          * intros cn v J. destruct (V cn v J) as (w0 & -> & Lq). apply (C23_value_equality_partial v w0 (row_text x cn v J)) in Lq. unfold value_there. destruct Lq as [Lq|[Lq|[L1 L2]]]; [left; auto|right; left; exact Lq|right; right; subst; auto].
          * intros cn H. apply O. rewrite row_keys by apply (file_given ls Ok' n x I). exact H.
      - intros n Ne. apply Z. intros t I. destruct (t_tracking t) eqn:Tr; [|reflexivity]. exfalso. apply (proj1 (file_rows ls b ts Db W n t I Tr)), Ne.
    Qed.
  End Live.
End Run.

(** ** Where a run may stop *)

(** These leave the structure as it is. *)
Definition harmless (o : op) : Prop := forall s, exec s o = Some s.
Lemma harmless_all l : Forall harmless l -> forall s, exec_all l s = Some s.
Proof. unfold exec_all. induction 1 as [|o l H F IH]; intros s; [reflexivity|]. cbn [run_all]. rewrite H. apply IH. Qed.
Lemma row_harmless o : row_op o -> harmless o.
Proof. intros H s. destruct o; try destruct H; reflexivity. Qed.
Lemma bracket_prefix a a' r pre post : bracket (a +++ r) = pre +++ post -> map bare_op a = map bare_op a' -> (forall o, In o r -> row_op o) ->
  exists p q, a' = p +++ q /\ forall s, exec_all pre s = exec_all p s.
Proof.
  intros E Eb H. unfold bracket in E. destruct (list_is_nil (a +++ r)) eqn:Z.
  - destruct (a +++ r); [|discriminate]. symmetry in E. apply app_eq_nil in E as [-> _]. exists [], a'. split; reflexivity.
  - destruct pre as [|o pre]; [exists [], a'; split; reflexivity|]. injection E as <- E. rewrite <- app_assoc in E. symmetry in E. apply app_split in E as [(q & E)|(p & -> & E)].
    + rewrite E, map_app in Eb. symmetry in Eb. apply map_eq_app in Eb as (p' & q' & -> & Ep & _). exists p', q'. split; [reflexivity|]. intros s.
      change (exec_all (ODisable :: pre) s) with (exec_all pre s). rewrite <- (exec_bares p'), Ep, exec_bares. reflexivity.
    + exists a', []. split; [symmetry; apply app_nil_r|]. intros s. change (exec_all (ODisable :: a +++ p) s) with (exec_all (a +++ p) s).
      rewrite <- (exec_bares a'), <- Eb, exec_bares. unfold exec_all. rewrite run_all_app. destruct (run_all exec a s) as [s'|]; [|reflexivity]. apply (harmless_all p).
      assert (K : Forall harmless (p +++ post)).
      { rewrite E. apply Forall_app. split; [apply Forall_forall; intros o I; apply row_harmless, H, I|]. constructor; [intros s0; reflexivity|constructor]. }
      apply Forall_app in K. apply K.
Qed.

(** ** C106 *)

(** A run that stopped can be finished.  Full statement: wherever [apply] stops, running it again finishes
    the work.  False, see C106_refuted.  Proved for the files of C75, for a server that shows its tables
    [Ts] as SHOW CREATE TABLE does and gives the rows that SELECT gives, under the hypotheses of C10 and
    C19: whatever number [pre] of the statements was executed, and whatever became of the rows of the
    tables in the meantime ([s']), if the server then shows the tables [Ts'] that it holds, another run
    makes a plan, the plan runs on what is there, it leaves the tables and the rows of the files, and
    what it does not manage it leaves alone. *)
Theorem C106_resumed_partial : forall w (FO : FloatOracle) force config c srcs ls b quiet Ts text rows live s,
  reads_from w config srcs -> file_database srcs = Ok b ->
  Forall2 (fun src l => source_holds l (snd src)) srcs ls -> consistent (concat ls) -> exit_status (run_check w config) = 0 -> has_columns (concat ls) (tables_in (concat ls)) ->
  shows_tables w config c quiet Ts text rows -> live_database (map (show_create quiet) Ts) = Ok live -> gives_rows (concat ls) Ts rows s -> has_columns (concat ls) Ts ->
  plannable (db_tables live) (db_tables b) -> run_end (run_plan w force config) = Exited true ->
  exists ops, run_out (run_plan w force config) = [join new_line (map op_str ops)]
  /\ forall pre post, ops = pre +++ post -> exists s1, exec_all pre (server_of (db_tables live)) = Some s1
  /\ forall w' force' c' quiet' Ts' text' rows' s' dflt, reads_from w' config srcs ->
     shows_tables w' config c' quiet' Ts' text' rows' -> shows (server_of (db_tables live)) s1 Ts' -> gives_rows (concat ls) Ts' rows' s' ->
     exists mid ops2 s2 r2, live_database (map (show_create quiet') Ts') = Ok mid
     /\ run_end (run_plan w' force' config) = Exited true /\ run_out (run_plan w' force' config) = [join new_line (map op_str ops2)]
     /\ exec_all ops2 (server_of (db_tables mid)) = Some s2 /\ reaches (db_tables mid) (db_tables b) s2
     /\ exec_rows (there s2) dflt ops2 s' = Some r2
     /\ (forall n, rows_in n (concat ls) <> [] -> rows_there (rows_in n (concat ls)) (dflt n) (s' n) (r2 n))
     /\ (forall n, rows_in n (concat ls) = [] -> forall id, r2 n id = s' n id).
Proof.
  intros w FO force config c srcs ls b quiet Ts text rows live s Rf E F Co Ck Hf Sv Lv Rw Hl Pl Ex.
  pose proof (reads_load w config srcs Rf) as L. rewrite E in L. pose proof (check_passes w FO config b L Ck) as Er.
  pose proof Sv as (C & Sv0 & Tx & P & N).
  destruct (live_read quiet Ts P N) as (us & live0 & Rl & Lv0 & Live). assert (live0 = live) by congruence. subst live0. clear Lv0.
  destruct (plan_was_made srcs ls b E F Co Er w config c quiet Ts text rows live s Rf Sv Lv Rw us Rl Live force Ex) as (sops & Ps).
  destruct (one_run srcs ls b E F Co Er Hf w config c quiet Ts text rows live s Rf Sv Lv Rw us Rl Live force sops (fun _ _ => None) Pl Hl Ps) as (sops' & rops & s0 & r0 & _ & Out & Eb & Ro & X0 & _).
  exists (bracket (sops' +++ rops)). split; [exact Out|]. intros pre post Ep.
  destruct (bracket_prefix sops' sops rops pre post Ep Eb Ro) as (p & q & Epq & Xp).
  assert (X1 : exists s1, exec_all pre (server_of (db_tables live)) = Some s1).
  { rewrite Ep in X0. unfold exec_all in *. rewrite run_all_app in X0. destruct (run_all exec pre (server_of (db_tables live))); [eauto|discriminate]. }
  destruct X1 as (s1 & X1). exists s1. split; [exact X1|]. rewrite Xp in X1.
  intros w' force' c' quiet' Ts' text' rows' s' dflt Rf' Sv' Sw Rw'. pose proof Sv' as (C' & Sv1 & Tx' & P' & N').
  destruct (files_read srcs ls b E F Co) as (ts & Db & W & Ok' & Ft).
  destruct (live_read quiet' Ts' P' N') as (us' & mid & Rm & Lm & Mid).
  assert (Res : plannable (db_tables mid) (db_tables b) /\ all_comparable (db_tables mid) (db_tables b)).
  { rewrite Mid. rewrite Live in *. apply (resume_plan us Ts (db_tables b) sops p q s1 us' Ts' Rl Ft Pl Ps Epq X1 Rm N' P' Sw). }
  destruct Res as [Pm Cm].
  assert (Pm' : exists sm, plan_tables false (db_tables b) (Some (db_tables mid)) = Ok sm).
  { eexists. apply plan_iff; [apply Pm|apply Pm|]. split; [exact Cm|reflexivity]. }
  destruct Pm' as (sm & Psm).
  assert (Hm : has_columns (concat ls) Ts').
  { intros T x cn IT Ix Ic. destruct (proj2 Sw T IT) as (st & Es & Sh). rewrite <- (shown_names _ _ _ _ Sh).
    assert (K : In (tm_name T) (map t_name ts)).
    { rewrite (read_whole_names _ _ _ W). destruct (rows_in_from _ _ x Ix) as (cols & gs & J & _). apply (co_rows _ Co _ _ _ J). }
    apply in_map_iff in K as (t & Et & It). assert (I : In (tm_name T, t) (db_tables b)) by (rewrite Db; apply in_map_iff; exists t; rewrite Et; auto).
    destruct (file_at ls b ts Db W _ t I) as (_ & Tf & ITf & NTf & Rt).
    apply (middle_names (db_tables live) (db_tables b) false sops p q s1 (tm_name T) st t cn Pl Ps Epq X1 Es).
    - apply (dget_iff _ _ _ (wf_names _ (pl_to _ _ Pl))), I.
    - rewrite (says_names t Tf (rw_says _ _ _ Rt)). apply (Hf Tf x cn ITf); [rewrite NTf; exact Ix|exact Ic].
    - intros old Do. rewrite Live in Do. apply dget_in in Do. destruct (entries_at _ _ _ _ _ Rl Do) as (T0 & I0 & N0 & R0). rewrite (says_names old T0 (rd_says _ _ _ R0)).
      apply (Hl T0 x cn I0); [rewrite N0; exact Ix|exact Ic]. }
  destruct (one_run srcs ls b E F Co Er Hf w' config c' quiet' Ts' text' rows' mid s' Rf' Sv' Lm Rw' us' Rm Mid force' sm dflt Pm Hm Psm) as (sm' & rm & s2 & r2 & Ex2 & Out2 & _ & _ & X2 & Re2 & Xr2 & Y2 & Z2).
  exists mid, (bracket (sm' +++ rm)), s2, r2. auto 12.
Qed.
Print Assumptions C106_resumed_partial.

(** ** The shop of C86, stopped after three of ten statements *)

(** The new table is there, the column of the users is wide, the table that should go is still there, and no row was written. *)
Definition mid_rows (n : string) : list row :=
  if String.eqb n "users" then
    [[("id", RStr "1"); ("name", RStr "Ann"); ("about", RNone)]; [("id", RStr "9"); ("name", RStr "x"); ("about", RNone)]] else [].
Definition mid_text (n : string) : string :=
  show_create (fun _ => (true, true)) (if String.eqb n "users" then users_meaning (OneNumber "10") else if String.eqb n "logs" then logs_after else gone_meaning).
Definition mid_tables : list tmeaning := [gone_meaning; logs_after; users_meaning (OneNumber "10")].
Definition mid_shop : world :=
  site_world "/srv/app/sql" ["users.sql"; "more.sql"] [("/srv/app/sql/users.sql", text_a); ("/srv/app/sql/more.sql", text_b)]
    [("SHOW TABLES", listing ["gone"; "logs"; "users"]); definition "users" (mid_text "users"); definition "logs" (mid_text "logs"); definition "gone" (mid_text "gone");
     ("SELECT * FROM users", Answer (mid_rows "users")); ("SELECT * FROM logs", Answer [])].
Definition shop_mid : server := supd (supd (server_of (db_tables shop_live)) "logs" (Some shop_logs)) "users" (Some shop_users).
Definition mid_held : rserver := fun n => table_rows (mid_rows n).
(** What is left to do. *)
Example ex_C106_runs : exec_all (firstn 3 shop_ops) (server_of (db_tables shop_live)) = Some shop_mid
  /\ run_plan mid_shop false "mygrate.conf" = mkRun (Connect site_creds :: map Query (reading_statements ["gone"; "logs"; "users"] ["users"; "logs"]))
       [join nl ["SET FOREIGN_KEY_CHECKS=0;"; "DROP TABLE gone;"; "INSERT INTO `users` (`id`, `name`) VALUES ('2', 'x (y)');"; "INSERT INTO `users` (`id`, `name`, `about`) VALUES ('3', 'c', NULL);";
          "DELETE FROM `users` WHERE id='9';"; "UPDATE `users` SET `name`='Ann, B.' WHERE id='1';"; "INSERT INTO `logs` (`id`) VALUES ('7');"; "SET FOREIGN_KEY_CHECKS=1;"]] [] (Exited true).
Proof. split; [reflexivity|by_vm]. Qed.

Lemma mid_selects : selects (mid_rows "users") (mid_held "users") ["id"; "name"; "about"].
Proof.
  split.
  - intros r I. cbn in I. repeat destruct I as [<-|I]; try contradiction; eexists _, _; (split; [reflexivity|]); (split; [discriminate|]); (split; [discriminate|]); (split; [reflexivity|]); split; [cell c E| |cell c E|]; intros c I; exact I.
  - intros id sr E. unfold mid_held, table_rows in E. match type of E with match ?x with _ => _ end = _ => destruct x as [r|] eqn:F; [|discriminate] end. apply find_some in F as [F1 F2].
    destruct (dget "id" r) as [v|] eqn:G; [|discriminate]. apply String.eqb_eq in F2. exists r, v. auto.
Qed.
Lemma mid_shows : shows (server_of (db_tables shop_live)) shop_mid mid_tables.
Proof.
  assert (Fk : forall m st, shop_mid m = Some st -> st_fks st = []).
  { intros m st. unfold shop_mid, supd. destruct (String.eqb m "users") eqn:Eu; [intros [= <-]; reflexivity|]. destruct (String.eqb m "logs"); [intros [= <-]; reflexivity|].
    unfold server_of. destruct (dget m (db_tables shop_live)) as [t|] eqn:G; [|discriminate]. apply dget_in in G. cbn in G. destruct G as [G|[G|[]]]; injection G as <- <-; intros [= <-]; reflexivity. }
  assert (Use : forall tn cn, ~ in_use shop_mid tn cn) by (intros tn cn (m & st & k & E & I & _); rewrite (Fk m st E) in I; destruct I).
  split.
  - intros n. unfold shop_mid, supd. destruct (String.eqb_spec n "users") as [->|Eu]; [cbn; tauto|]. destruct (String.eqb_spec n "logs") as [->|El]; [cbn; tauto|].
    intros H. unfold server_of in H. destruct (dget n (db_tables shop_live)) as [t|] eqn:G; [|exfalso; apply H; reflexivity]. apply dget_in in G. cbn in G. destruct G as [G|[G|[]]]; injection G as <- _; cbn; tauto.
  - intros T [<-|[<-|[<-|[]]]]; (eexists; split; [reflexivity|]); constructor.
    + repeat (apply Forall2_cons || apply Forall2_nil); apply shown_exactly; constructor; first [reflexivity|apply has_none; reflexivity|apply has_one; [reflexivity|reflexivity|apply digitsb; reflexivity]].
    + exists []. split; [reflexivity|split; [reflexivity|]]. intros a b [].
    + exists []. split; [reflexivity|split; [reflexivity|]]. intros a b [].
    + apply Forall2_cons; [|apply Forall2_nil]. apply (shown_otherwise _ _ _ _ (mkMeaning "id" KNumeric "INT" NoLength true false None true "" "")); [intros []|constructor; first [reflexivity|apply has_none; reflexivity|apply has_one; [reflexivity|reflexivity|apply digitsb; reflexivity]]| |intros U; exfalso; revert U; apply Use].
      apply reported_as; try reflexivity; try (left; reflexivity); [right; cbn; tauto|left; split; reflexivity].
    + exists [(primary_key ["id"], primary_key ["id"])]. split; [reflexivity|split; [reflexivity|]]. intros a b [[= <- <-]|[]]. repeat split.
    + exists []. split; [reflexivity|split; [reflexivity|]]. intros a b [].
    + repeat (apply Forall2_cons || apply Forall2_nil); apply shown_exactly; constructor; first [reflexivity|apply has_none; reflexivity|apply has_one; [reflexivity|reflexivity|apply digitsb; reflexivity]].
    + exists [(primary_key ["id"], primary_key ["id"]); (unique_key "name_ind" ["name"], unique_key "name_ind" ["name"])]. split; [reflexivity|split; [reflexivity|]].
      intros a b [[= <- <-]|[[= <- <-]|[]]]; repeat split.
    + exists []. split; [reflexivity|split; [reflexivity|]]. intros a b [].
Qed.

Example ex_C106 : let l := concat [source_a; source_b] in let Ts := [users_before; gone_meaning] in
  (* the first run *)
  reads_from before_shop "mygrate.conf" file_srcs /\ file_database file_srcs = Ok shop_files
  /\ Forall2 (fun src l => source_holds l (snd src)) file_srcs [source_a; source_b] /\ consistent l /\ exit_status (run_check before_shop "mygrate.conf") = 0
  /\ has_columns l (tables_in l)
  /\ shows_tables before_shop "mygrate.conf" site_creds (fun _ => (true, true)) Ts before_text (fun n => Ok (before_rows n))
  /\ live_database (map (show_create (fun _ => (true, true))) Ts) = Ok shop_live /\ gives_rows l Ts (fun n => Ok (before_rows n)) shop_rows /\ has_columns l Ts
  /\ plannable (db_tables shop_live) (db_tables shop_files) /\ run_end (run_plan before_shop false "mygrate.conf") = Exited true
  (* the second run *)
  /\ reads_from mid_shop "mygrate.conf" file_srcs
  /\ shows_tables mid_shop "mygrate.conf" site_creds (fun _ => (true, true)) mid_tables mid_text (fun n => Ok (mid_rows n))
  /\ shows (server_of (db_tables shop_live)) shop_mid mid_tables /\ gives_rows l mid_tables (fun n => Ok (mid_rows n)) mid_held.
Proof.
  intros l Ts. destruct ex_C86 as (A1 & A2 & A3 & A4 & A5 & A6 & A7 & A8 & A9 & A10 & A11 & A12 & A13 & _ & _ & A14 & A15 & A16 & _).
  split; [exact A1|]. split; [exact A2|]. split; [exact A3|]. split; [exact A4|]. split; [exact A5|]. split; [intros T x cn IT; apply (A6 T IT)|].
  split; [repeat (split; [assumption|]); assumption|]. split; [exact A12|]. split; [split; [intros T IT Ne; apply (A14 T IT Ne)|exact A15]|].
  split; [intros T x cn IT Ix; apply (A14 T IT); [intros Z; fold l in Ix; unfold l in Ix; rewrite Z in Ix; destruct Ix|exact Ix]|]. split; [exact A13|]. split; [exact A16|].
  split; [exists "/srv/app/sql"; split; vm_compute; reflexivity|]. split; [|split; [apply mid_shows|]].
  - split; [vm_compute; reflexivity|]. split; [|split; [intros T [<-|[<-|[<-|[]]]]; reflexivity|split; [|repeat constructor; cbn; intuition discriminate]]].
    + constructor; [reflexivity| | |].
      * intros qs _. eexists. split; reflexivity.
      * intros qs n _ [<-|[<-|[<-|[]]]]; eexists _, _, _; repeat split.
      * intros qs n _. unfold mid_rows. destruct (String.eqb_spec n "users") as [->|N]; [reflexivity|]. destruct (String.eqb_spec n "logs") as [->|N']; [reflexivity|].
        cbn [w_server mid_shop site_world]. unfold answers. replace (dget ("SELECT * FROM " ++ n) _) with (@None answer); [reflexivity|]. cbn.
        destruct (String.eqb_spec n "users"); [contradiction|]. destruct (String.eqb_spec n "logs"); [contradiction|reflexivity].
    + constructor; [|apply after_plain]. pose proof before_plain as B. inversion B as [|? ? _ B']; subst. inversion B'; subst. assumption.
  - split.
    + intros T [<-|[<-|[<-|[]]]] Ne; [exfalso; apply Ne; reflexivity| |]; eexists; (split; [reflexivity|]); [|apply mid_selects].
      split; [intros r []|]. intros id sr E. discriminate E.
    + intros n H id. unfold mid_held, mid_rows. destruct (String.eqb_spec n "users") as [->|]; [exfalso; apply H; cbn; tauto|reflexivity].
Qed.

(** Where the server refuses a statement, it refuses it each time: the primary key cannot be added beside
    the old one (C10), and the next plan contains the same statement again. *)
Theorem C106_refuted : forall FO : FloatOracle, exists from to pre o post s1 mid ops2,
  wf_tables from /\ wf_tables to /\ plan_tables false to (Some from) = Ok (pre +++ o :: post) /\ pre <> []
  /\ exec_all pre (server_of from) = Some s1 /\ exec s1 o = None
  /\ wf_tables mid /\ holds mid s1 /\ plan_tables false to (Some mid) = Ok ops2 /\ ops2 = [o] /\ exec_all ops2 (server_of mid) = None.
Proof.
  intros FO. set (new := tbl "u" [id_col] [primary_key ["id"]] []). set (old := tbl "t" [id_col; int_col "a"] [primary_key ["id"]] []). set (wanted := tbl "t" [id_col; int_col "a"] [primary_key ["id"; "a"]] []).
  exists (db [old]), (db [wanted; new]), [OCreate new]. eexists _, [], (supd (server_of (db [old])) "u" (Some (stable_of new))), (db [old; new]), _.
  split; [apply wf_tablesb_ok; reflexivity|]. split; [apply wf_tablesb_ok; reflexivity|]. split; [vm_compute; reflexivity|]. split; [discriminate|]. split; [reflexivity|]. split; [reflexivity|].
  split; [apply wf_tablesb_ok; reflexivity|]. split.
  { intros n. unfold supd, server_of. destruct (String.eqb_spec n "u") as [->|Nu]; [reflexivity|]. destruct (String.eqb_spec n "t") as [->|Nt]; [reflexivity|].
    assert (G : forall d, ~ In n (dkeys d) -> option_map stable_of (dget n d) = None) by (intros d H; apply dget_none in H; rewrite H; reflexivity).
    rewrite !G; [reflexivity| |]; cbn; intuition congruence. }
  split; [vm_compute; reflexivity|]. split; reflexivity.
Qed.
Print Assumptions C106_refuted.
